(* Proofs about the conversions between dynamic and static mixtures (C85). *)
From Coq Require Import Reals ZArith List String Bool Lia Lra Decimal DecimalString DecimalNat DecimalFacts.
From Verif Require Import Base Model_Num Model_Units Model_Igas Model_Igmix Model_Igtools Model_Igtprop Model_Igtmix
  Spec_Units Spec_Igas Spec_Igmix Spec_Igtools Spec_Igtprop Spec_IgtGas Spec_Igtmix
  Proof_Units Proof_Igas Proof_IgasUnits Proof_IgasState Proof_IgasCalls Proof_Igmix Proof_IgmixProp Proof_IgmixInst
  Proof_Igtshape Proof_Igtools Proof_IgtAdd Proof_IgtMore Proof_IgtItems Proof_IgtNew Proof_IgtProp Proof_IgtThm.
Import ListNotations.
Local Open Scope R_scope.
Local Open Scope string_scope.
Local Open Scope list_scope.

(* ---- memory order ---- *)
Lemma idx_length s : List.length (all_idx s) = fold_right Nat.mul 1%nat s.
Proof.
  induction s as [|d s IH]; [reflexivity|]. cbn [all_idx fold_right]. rewrite <- IH.
  assert (G : forall a, List.length (flat_map (fun k => map (cons k) (all_idx s)) (seq a d)) = (d * List.length (all_idx s))%nat).
  { induction d as [|d IHd]; intro a; [reflexivity|]. cbn [seq flat_map]. rewrite app_length, map_length, IHd. lia. }
  apply G.
Qed.
Lemma nth_rows (L : list (list nat)) n : forall a j r, (j < n)%nat -> (r < List.length L)%nat ->
  nth_error (flat_map (fun k => map (cons k) L) (seq a n)) (j * List.length L + r) = option_map (cons (a + j)%nat) (nth_error L r).
Proof.
  induction n as [|n IH]; intros a j r Hj Hr; [lia|]. cbn [seq flat_map]. destruct j as [|j].
  - cbn [Nat.mul Nat.add]. rewrite nth_error_app1 by (rewrite map_length; exact Hr). rewrite nth_error_map, Nat.add_0_r. reflexivity.
  - rewrite nth_error_app2 by (rewrite map_length; cbn; lia). rewrite map_length.
    replace (S j * List.length L + r - List.length L)%nat with (j * List.length L + r)%nat by (cbn; lia).
    rewrite IH by lia. replace (S a + j)%nat with (a + S j)%nat by lia. reflexivity.
Qed.
Lemma rank_idx s : forall i, index_in s i -> nth_error (all_idx s) (rank s i) = Some i /\ (rank s i < List.length (all_idx s))%nat.
Proof.
  induction s as [|d s IH]; intros i Hi; inversion Hi as [|k x i' y Hk Hi']; subst; [split; [reflexivity|cbn; lia]|].
  destruct (IH i' Hi') as [H1 H2].
  assert (N : nth_error (all_idx (d :: s)) (rank (d :: s) (k :: i')) = Some (k :: i')).
  { cbn [all_idx rank]. rewrite <- idx_length. rewrite nth_rows by assumption. rewrite H1. reflexivity. }
  split; [exact N|]. apply nth_error_Some. rewrite N. discriminate.
Qed.
Lemma nth_error_combine {A B} (l : list A) (l' : list B) : forall k a b,
  nth_error l k = Some a -> nth_error l' k = Some b -> nth_error (combine l l') k = Some (a, b).
Proof.
  revert l'. induction l as [|x l IH]; intros [|y l'] [|k] a b H1 H2; cbn in *; try discriminate.
  - now injection H1 as ->; injection H2 as ->.
  - now apply IH.
Qed.
Lemma nth_error_seq n a k : (k < n)%nat -> nth_error (seq a n) k = Some (a + k)%nat.
Proof.
  revert a k. induction n as [|n IH]; intros a k Hk; [lia|]. destruct k as [|k]; cbn; [f_equal; lia|]. rewrite IH by lia. f_equal. lia.
Qed.

(* ---- names ---- *)
Lemma repr_inj a b : repr_nat a = repr_nat b -> a = b.
Proof.
  unfold repr_nat. intro H. assert (Q : Nat.to_uint a = Nat.to_uint b).
  { pose proof (f_equal NilEmpty.uint_of_string H) as G. rewrite !NilEmpty.usu in G. now injection G. }
  now apply DecimalNat.Unsigned.to_uint_inj.
Qed.
Lemma append_inj a : forall b c, (a ++ b)%string = (a ++ c)%string -> b = c.
Proof. induction a as [|x a IH]; intros b c H; [exact H|]. cbn in H. injection H as H. now apply IH. Qed.

(* ---- the list ---- *)
Lemma amounts_row m n i : mixture_ok m -> amounts_known m n -> index_in (shape m) i ->
  to_dict (x_c m) (fun k => nel (x_q m) (k :: i)) = map (fun s => (s, Some (n s i))) (x_c m).
Proof.
  intros (_ & _ & Nd) K Hi. rewrite to_dict_map by exact Nd.
  transitivity (map (fun s => (s, Some (n s i))) (map (fun k => nth k (x_c m) "") (seq 0 (List.length (x_c m))))); [|now rewrite seq_nth_map].
  rewrite map_map. apply map_ext_in. intros k Hk. apply in_seq in Hk. f_equal.
  apply (amount_row m n _ k i K); [|exact Hi]. apply index_of_nth; [exact Nd|lia].
Qed.

Lemma static_list m n sid : mixture_ok m -> amounts_known m n ->
  List.length (toigmix m sid) = fold_right Nat.mul 1%nat (shape m) /\ NoDup (map k_id (toigmix m sid)) /\
  (forall i, index_in (shape m) i -> exists r, nth_error (toigmix m sid) (rank (shape m) i) = Some r /\
     describes r (static_at m n i) /\
     k_id r = if Nat.ltb 1 (List.length (toigmix m sid)) then (sid ++ "_" ++ repr_nat (rank (shape m) i))%string else sid).
Proof.
  intros Hm K.
  assert (L : List.length (toigmix m sid) = fold_right Nat.mul 1%nat (shape m)).
  { unfold toigmix. rewrite map_length, combine_length, seq_length, idx_length. lia. }
  split; [exact L|]. split.
  - unfold toigmix. rewrite map_map. cbn [k_id]. rewrite <- idx_length. destruct (Nat.ltb 1 (List.length (all_idx (shape m)))) eqn:B.
    + rewrite <- (map_map fst (fun c => (sid ++ "_" ++ repr_nat c)%string)).
      assert (F : forall (l : list (list nat)) a, map fst (combine (seq a (List.length l)) l) = seq a (List.length l)).
      { induction l as [|x l IH]; intro a; [reflexivity|]. cbn. now rewrite IH. }
      rewrite F. apply FinFun.Injective_map_NoDup; [|apply seq_NoDup].
      intros a b Q. apply append_inj in Q. injection Q as Q. now apply repr_inj.
    + apply Nat.ltb_ge in B. destruct (all_idx (shape m)) as [|x [|y l]]; [constructor| |cbn in B; lia]. constructor; [intros []|constructor].
  - intros i Hi. destruct (rank_idx _ _ Hi) as [H1 H2].
    eexists. split.
    + unfold toigmix. rewrite nth_error_map, (nth_error_combine _ _ _ (0 + rank (shape m) i)%nat i); [reflexivity| |exact H1].
      apply nth_error_seq. exact H2.
    + cbn [k_contents k_bymass k_id fst snd]. split; [|now rewrite L].
      split; [|reflexivity]. cbn [static_at m_contents k_contents snd]. rewrite (amounts_row m n i Hm K Hi), map_map. reflexivity.
Qed.

(* ---- the same gases ---- *)
Lemma gas_in_fun coll s g g' : gas_in coll s g -> gas_in coll s g' -> g = g'.
Proof. intros (D & a & [[H ->]|[H ->]]) (D' & a' & [[H' ->]|[H' ->]]); congruence. Qed.
Lemma gas_in_mw coll s g : gas_in coll s g -> g_mw g = mw_in coll s.
Proof. intros (D & a & [[H ->]|[H ->]]); unfold mw_in; rewrite H; reflexivity. Qed.
Lemma mw_same P coll s : dget s P <> None -> gas_in coll s (gas_of P s) -> mw_of P s = mw_in coll s.
Proof. intros H G. rewrite <- (gas_in_mw _ _ _ G). unfold mw_of, gas_of. destruct (dget s P); [reflexivity|congruence]. Qed.
Lemma sum_map {A B} (f : B -> R) (g : A -> B) l : sum_over f (map g l) = rsum (fun a => f (g a)) l.
Proof. induction l as [|a l IH]; [reflexivity|]. cbn. now rewrite IH. Qed.
Lemma rsum_ext {A} (f g : A -> R) l : (forall a, In a l -> f a = g a) -> rsum f l = rsum g l.
Proof. induction l as [|a l IH]; intro H; [reflexivity|]. cbn. rewrite (H a) by (now left). rewrite IH; [reflexivity|]. intros b Hb. apply H. now right. Qed.
Lemma rsum_scale {A} (f : A -> R) k l : rsum (fun a => k * f a) l = k * rsum f l.
Proof. induction l as [|a l IH]; cbn; [ring|]. rewrite IH. ring. Qed.
Lemma matter_fun E mw k k' : matter_size E mw k -> matter_size E mw k' -> k = k'.
Proof. intros (u & A & B) (u' & A' & B'). congruence. Qed.

Section At.
  Variables (P : pool) (coll : collection) (m : mix) (n : string -> list nat -> R) (i : list nat).
  Let md := static_at m n i.
  Let N := total_amount m n i.
  Hypothesis U : usable_mixture coll md.
  Lemma n_pos s : In s (x_c m) -> 0 < n s i.
  Proof.
    intro Hs. destruct U as (_ & _ & H & _). apply (H s (n s i)). unfold md, static_at. cbn. apply in_map_iff. exists s. auto.
  Qed.
  Lemma sums_kmol : sum_over (kmol_of coll (m_bymass md)) (m_contents md) = N.
  Proof. unfold md, static_at. cbn [m_bymass m_contents]. rewrite sum_map. reflexivity. Qed.
  Lemma N_pos : 0 < N.
  Proof.
    destruct U as (H & _). unfold N, total_amount. assert (Q := n_pos). unfold md, static_at in H. cbn in H.
    destruct (x_c m) as [|s l]; [now elim H|]. cbn [rsum].
    assert (G : forall l', (forall s, In s l' -> 0 < n s i) -> 0 <= rsum (fun s => n s i) l').
    { induction l' as [|x l' IH]; intro W; cbn; [lra|]. pose proof (W x (or_introl eq_refl)). specialize (IH (fun s Hs => W s (or_intror Hs))). lra. }
    pose proof (Q s (or_introl eq_refl)). specialize (G l (fun s Hs => Q s (or_intror Hs))). lra.
  Qed.
  Hypothesis SG : same_gases P coll (x_c m).
  Lemma fractions_list E : exists o Y,
    mix_call coll md E fresh CX = (o, Ok (VDict (map (fun s => (s, n s i / N)) (x_c m)))) /\
    mix_call coll md E fresh CY = (o, Ok (VDict Y)) /\
    Y = map (fun s => (s, n s i / N * mw_of P s / x_mw o)) (x_c m) /\ x_mw o = mean_weight P m n i.
  Proof.
    destruct (fractions coll md E U) as (o & X & Y & HX & HY & KX & KY & SX & SY & MW & FR). exists o, Y.
    pose proof N_pos as NP. rewrite sums_kmol in FR.
    assert (KM : map fst (m_contents md) = x_c m) by (unfold md, static_at; cbn; rewrite map_map; apply map_id).
    assert (ND : NoDup (x_c m)) by (destruct U as (_ & Q & _); now rewrite KM in Q).
    assert (GEN : forall (l : list (string * R)) (f : string -> R), map fst l = x_c m -> (forall s, In s (x_c m) -> In (s, f s) l) -> l = map (fun s => (s, f s)) (x_c m)).
    { intros l f Hl Hf. rewrite <- Hl. rewrite map_map. rewrite <- (map_id l) at 1. apply map_ext_in. intros [s v] Hin. cbn [fst]. f_equal.
      assert (Hs : In s (x_c m)) by (rewrite <- Hl; apply in_map_iff; exists (s, v); auto).
      specialize (Hf s Hs). rewrite <- Hl in ND. clear -ND Hin Hf. induction l as [|[a b] l IH]; [destruct Hin|].
      cbn in ND. inversion ND as [|? ? N1 N2]; subst. destruct Hin as [E1|Hin], Hf as [E2|Hf].
      - congruence.
      - injection E1 as -> ->. elim N1. apply in_map_iff. exists (s, f s). auto.
      - injection E2 as -> ->. elim N1. apply in_map_iff. exists (s, v). auto.
      - now apply IH. }
    assert (XE : X = map (fun s => (s, n s i / N)) (x_c m)).
    { apply GEN; [now rewrite KX|]. intros s Hs.
      destruct (FR s (n s i)) as (x & y & I1 & _ & _ & _ & E1 & _). { unfold md, static_at. cbn. apply in_map_iff. exists s. auto. }
      replace (n s i / N) with x; [exact I1|]. apply (Rmult_eq_reg_r N); [|lra]. rewrite E1. unfold md, static_at, kmol_of. cbn. field. lra. }
    split; [rewrite HX, XE; reflexivity|]. split; [exact HY|]. split.
    - apply GEN; [now rewrite KY|]. intros s Hs.
      destruct (FR s (n s i)) as (x & y & I1 & I2 & _ & _ & E1 & _ & E3). { unfold md, static_at. cbn. apply in_map_iff. exists s. auto. }
      destruct (SG s Hs) as [G1 G2]. rewrite (mw_same P coll s G1 G2).
      replace (n s i / N) with x; [rewrite <- E3; exact I2|]. apply (Rmult_eq_reg_r N); [|lra]. rewrite E1. unfold md, static_at, kmol_of. cbn. field. lra.
    - rewrite MW, XE, sum_map. cbn [fst snd]. unfold mean_weight. fold N. unfold Rdiv. rewrite Rmult_comm, <- rsum_scale. apply rsum_ext.
      intros s Hs. destruct (SG s Hs) as [G1 G2]. rewrite (mw_same P coll s G1 G2). field. lra.
  Qed.
End At.

Lemma composition P coll m n i : usable_mixture coll (static_at m n i) -> same_gases P coll (x_c m) -> mixture_ok m -> amounts_known m n -> index_in (shape m) i ->
  forall E, exists Xs o, mix_call coll (static_at m n i) E fresh CX = (o, Ok (VDict Xs)) /\ map fst Xs = x_c m /\
    x_mw o = mean_weight P m n i /\
    forall s x, In (s, x) Xs -> x * total_amount m n i = n s i /\ exists a, In (s, a) (X m) /\ nel a i = Some x.
Proof.
  intros U SG Hm K Hi E. destruct (fractions_list P coll m n i U SG E) as (o & Y & HX & _ & _ & MW).
  pose proof (N_pos coll m n i U) as NP. eexists _, o. split; [exact HX|]. split; [rewrite map_map; apply map_id|]. split; [exact MW|].
  intros s x Hs. apply in_map_iff in Hs. destruct Hs as (s' & Q & Hs). injection Q as -> <-. split; [field; lra|].
  destruct (X_fractions m n Hm K) as (KX & _ & FR).
  assert (IX : exists a, In (s, a) (X m)).
  { rewrite <- KX in Hs. apply in_map_iff in Hs. destruct Hs as ([s'' a] & <- & Ha). exists a. exact Ha. }
  destruct IX as (a & Ha). exists a. split; [exact Ha|].
  destruct (FR i Hi) as [F1 _].
  - intros t Ht. left. exact (n_pos coll m n i U t Ht).
  - exact NP.
  - destruct (F1 s a Ha) as (v & Hv & _ & Hvn). rewrite Hv. f_equal. apply (Rmult_eq_reg_r (total_amount m n i)); [|lra].
    unfold total_amount in *. rewrite Hvn. field. lra.
Qed.

(* ---- the same properties ---- *)
Lemma same_properties P coll E m n i uT kT kP kV kE kM t p q :
  usable_at P E m n (to_kelvin uT t) -> index_in (shape m) i ->
  usable_mixture coll (static_at m n i) -> same_gases P coll (x_c m) -> e_oob E = None ->
  (forall s, In s (x_c m) -> exists k, units_known E (mw_of P s) uT kT kP kV kE k) ->
  units_known E (mean_weight P m n i) uT kT kP kV kE kM -> 0 < p -> In q [Pcp; Pcv; Ph; Pe; Ps; Pg; Pf] ->
  exists v a w, dynamic_method q P E m [] [("T", scalar t); ("p", scalar p)] = Ok v /\ nel v i = Some a /\
    snd (mix_call coll (static_at m n i) E fresh (CProp q [] [("T", [Some t]); ("p", [Some p])])) = Ok (VArr [Some w]) /\
    a = total_amount m n i * (w / kM).
Proof.
  intros UA Hi U SG OB UK UM Hp Hq.
  destruct (sum_of_constituents P E m n uT kT kP kV kE t p UA UK Hp q Hq (ex_intro _ i Hi)) as (v & HV & _ & SUM).
  pose proof (N_pos coll m n i U) as NP.
  destruct (SUM i Hi (fun s Hs => Rlt_le _ _ (n_pos coll m n i U s Hs)) NP) as (vi & ki & K1 & K2 & K3).
  destruct (fractions_list P coll m n i U SG E) as (o & Y & HX & _ & _ & MW).
  assert (B : bootstrap coll (static_at m n i) fresh = (o, Ok tt)).
  { unfold mix_call in HX. rewrite (bootstrap_ok _ _ U) in *. cbn in HX. injection HX as <- _. reflexivity. }
  rewrite <- MW in UM.
  assert (CR : common_range coll (static_at m n i) (to_kelvin uT t)).
  { intros ss x D Hin (a & HL). cbn in Hin. apply in_map_iff in Hin. destruct Hin as (s & Q & Hs). injection Q as -> <-.
    destruct UA as (_ & _ & _ & SPC). destruct (SPC ss Hs) as (g & G1 & _ & G3).
    destruct (SG ss Hs) as (_ & D' & a' & G4). unfold gas_of in G4. rewrite G1 in G4.
    destruct HL as [HL|HL], G4 as [[G4 ->]|[G4 ->]]; rewrite G4 in HL; try discriminate; injection HL as <- _; exact G3. }
  destruct (partial_pressures' coll _ o U B E uT kT kP kV kE kM q t p (to_kelvin uT t) OB UM Hq
    (proj2 (tscale_K _ _ _ _ _ _ _ _ UM t _) eq_refl) CR Hp) as (Xs & w & vi' & ki' & HX' & HW & PP & SW).
  rewrite HX in HX'. cbn [snd] in HX'. injection HX' as <-.
  exists v, (rsum (fun s => n s i * (vi s / ki s)) (x_c m)), w. split; [exact HV|]. split; [exact K3|]. split; [exact HW|].
  rewrite SW, sum_map, <- rsum_scale. apply rsum_ext. intros s Hs. cbn [fst snd].
  destruct (PP s (n s i / total_amount m n i)) as (M1 & g & G1 & G2). { apply in_map_iff. exists s. auto. }
  destruct (SG s Hs) as [S1 S2]. rewrite (gas_in_fun _ _ _ _ G1 S2) in G2.
  pose proof (K2 s Hs (n_pos coll m n i U s Hs)) as G3. change (rsum (fun s => n s i) (x_c m)) with (total_amount m n i) in G3. rewrite G3 in G2. injection G2 as ->.
  rewrite <- (mw_same P coll s S1 S2) in M1. rewrite (matter_fun _ _ _ _ M1 (proj2 (K1 s Hs))).
  pose proof (proj1 (K1 s Hs)). field. lra.
Qed.

(* ---- from a static mixture ---- *)
Lemma scalars_combine (l : list (string * R)) : shapes_combine (map snd (map (fun c => (fst c, scalar (snd c))) l)) [1%nat] [1%nat].
Proof. induction l as [|c l IH]; cbn; [reflexivity|]. exists [1%nat]. split; [left; split; reflexivity|exact IH]. Qed.
Lemma mw_in_pos coll md : usable_mixture coll md -> forall s, In s (map fst (m_contents md)) -> 0 < mw_in coll s.
Proof.
  intros (_ & _ & H & _) s Hs. apply in_map_iff in Hs. destruct Hs as ([s' q] & <- & Hs). destruct (H s' q Hs) as (_ & D & (a & L) & G).
  unfold mw_in. cbn [fst]. destruct G as (_ & G). destruct L as [L|L]; rewrite L; tauto.
Qed.

Lemma from_static P coll E md km kn uM kM : usable_mixture coll md -> same_gases P coll (map fst (m_contents md)) ->
  (forall s, In s (map fst (m_contents md)) -> full_sid s = s) ->
  mass_molar E km kn -> dget "unit_matter" (e_cfg E) = Some uM -> counts E km kn uM ->
  exists o Xs, mix_call coll md E fresh CX = (o, Ok (VDict Xs)) /\
  (kmoles (e_setup E) (x_mw o) uM = Some kM ->
  exists m, fromigmix P E coll md fresh = (o, Ok m) /\ mixture_ok m /\ shape m = [1%nat] /\ x_c m = map fst (m_contents md) /\
    forall s x, In (s, x) Xs -> amount m s [0%nat] = Some (x * kM)).
Proof.
  intros U SG FS MM CM CN. destruct (fractions coll md E U) as (o & Xs & Ys & HX & HY & KX & KY & SX & SY & MW & FR).
  exists o, Xs. split; [exact HX|]. intro KM.
  destruct MM as (PS & MM). destruct (ismass_spec (e_setup E) (e_cfg E) uM PS) as (S1 & S2 & _).
  assert (IM : ismass (e_setup E) (e_cfg E) None = ismass (e_setup E) (e_cfg E) (Some uM)).
  { unfold ismass, cfg_get. now rewrite CM. }
  assert (MP : forall s, In s (map fst (m_contents md)) -> 0 < mw_of P s).
  { intros s Hs. destruct (SG s Hs) as [G1 G2]. rewrite (mw_same P coll s G1 G2). now apply (mw_in_pos coll md U). }
  assert (ND : NoDup (map fst (m_contents md))) by apply U.
  assert (ISO : forall (l : list (string * R)), map fst l = map fst (m_contents md) ->
     map (fun c : string * nd => full_sid (fst c)) (map (fun c => (fst c, scalar (snd c))) l) = map fst (m_contents md)).
  { intros l Hl. rewrite map_map. cbn [fst]. rewrite <- Hl. rewrite <- (map_map fst full_sid). rewrite Hl.
    rewrite <- (map_id (map fst (m_contents md))) at 2. apply map_ext_in. exact FS. }
  assert (NE : m_contents md <> []) by apply U.
  set (k := fun s => match kmoles (e_setup E) (mw_of P s) uM with Some v => v | None => 0 end).
  assert (KS : forall s, In s (map fst (m_contents md)) -> kmoles (e_setup E) (mw_of P s) uM = Some (k s)).
  { intros s _. unfold k. unfold kmoles in *. destruct (si (e_setup E) QMolar uM); [reflexivity|]. destruct (si (e_setup E) QMass uM); [reflexivity|discriminate]. }
  assert (BUILD : forall (l : list (string * R)), map fst l = map fst (m_contents md) ->
     exists m, new_mix P E None (map (fun c => (fst c, scalar (snd c))) l) = Ok m /\ mixture_ok m /\ shape m = [1%nat] /\
       x_c m = map fst (m_contents md) /\ forall s v, In (s, v) l -> amount m s [0%nat] = Some (k s * v)).
  { intros l Hl. destruct (new_thm P E km kn None uM k (map (fun c => (fst c, scalar (snd c))) l) [1%nat] (conj PS MM) CN) as (m & H1 & H2 & H3 & H4 & H5).
    - intros c Hc. apply in_map_iff in Hc. destruct Hc as ([s v] & <- & Hc). cbn [fst snd].
      assert (Hs : In s (map fst (m_contents md))) by (rewrite <- Hl; apply in_map_iff; exists (s, v); auto).
      rewrite (FS s Hs). split; [apply (SG s Hs)|]. split; [now apply MP|]. split; [exact CM|]. now apply KS.
    - intro Z. apply map_eq_nil in Z. subst l. cbn in Hl. symmetry in Hl. apply map_eq_nil in Hl. contradiction.
    - rewrite ISO by exact Hl. exact ND.
    - apply scalars_combine.
    - exists m. split; [exact H1|]. split; [exact H2|]. split; [exact H3|]. split; [rewrite H4; now apply ISO|].
      intros s v Hv. assert (Hs : In s (map fst (m_contents md))) by (rewrite <- Hl; apply in_map_iff; exists (s, v); auto).
      assert (Hi : index_in [1%nat] [0%nat]) by (repeat constructor).
      pose proof (H5 (s, scalar v) [0%nat]) as Q. cbn [fst snd] in Q. rewrite (FS s Hs) in Q. rewrite Q; [reflexivity| |exact Hi].
      apply in_map_iff. exists (s, v). auto. }
  assert (XY : forall s x, In (s, x) Xs -> exists y, In (s, y) Ys /\ y = x * mw_in coll s / x_mw o /\ 0 < x_mw o).
  { intros s x Hx. assert (Hs : In s (map fst (m_contents md))) by (rewrite <- KX; apply in_map_iff; exists (s, x); auto).
    apply in_map_iff in Hs. destruct Hs as ([s' qv] & <- & Hs). cbn [fst]. destruct (FR s' qv Hs) as (x' & y & I1 & I2 & P1 & P2 & _ & _ & E3).
    exists y. split; [exact I2|].
    assert (x' = x) as <-.
    { rewrite <- KX in ND. clear -ND I1 Hx. cbn [fst] in *. induction Xs as [|[a b] l IH]; [destruct I1|]. cbn in ND. inversion ND as [|? ? N1 N2]; subst.
      destruct I1 as [E1|I1], Hx as [E2|Hx].
      - congruence.
      - injection E1 as -> ->. elim N1. apply in_map_iff. exists (s', x). auto.
      - injection E2 as -> ->. elim N1. apply in_map_iff. exists (s', x'). auto.
      - now apply IH. }
    split; [exact E3|].
    destruct (Rlt_le_dec 0 (x_mw o)) as [L|L]; [exact L|exfalso].
    pose proof (mw_in_pos coll md U s' ltac:(apply in_map_iff; exists (s', qv); auto)) as W.
    destruct (Req_EM_T (x_mw o) 0) as [Z|Z].
    - rewrite Z in E3. unfold Rdiv in E3. rewrite Rinv_0, Rmult_0_r in E3. lra.
    - assert (y * x_mw o = x' * mw_in coll s') by (rewrite E3; field; exact Z). assert (0 < x' * mw_in coll s') by (apply Rmult_lt_0_compat; lra). nra. }
  unfold fromigmix. rewrite IM. unfold kmoles in KM. destruct (si (e_setup E) QMolar uM) as [kq|] eqn:SM.
  - rewrite (proj2 S2) by discriminate. rewrite HX. destruct (BUILD Xs KX) as (m & H1 & H2 & H3 & H4 & H5).
    exists m. rewrite H1. repeat (split; [first [reflexivity|assumption]|]). intros s x Hx. rewrite (H5 s x Hx). f_equal.
    unfold k, kmoles. rewrite SM. injection KM as <-. ring.
  - destruct (si (e_setup E) QMass uM) as [kg|] eqn:SK; [|discriminate]. rewrite (proj2 S1) by discriminate. rewrite HY.
    destruct (BUILD Ys KY) as (m & H1 & H2 & H3 & H4 & H5).
    exists m. rewrite H1. repeat (split; [first [reflexivity|assumption]|]). intros s x Hx. destruct (XY s x Hx) as (y & Hy & -> & WP). rewrite (H5 s _ Hy). f_equal.
    assert (Hs : In s (map fst (m_contents md))) by (rewrite <- KX; apply in_map_iff; exists (s, x); auto).
    unfold k, kmoles. rewrite SM, SK. injection KM as <-. destruct (SG s Hs) as [G1 G2]. rewrite (mw_same P coll s G1 G2).
    pose proof (mw_in_pos coll md U s Hs). field. lra.
Qed.

Lemma round_trip P coll E m n i km kn uM kM : usable_mixture coll (static_at m n i) -> same_gases P coll (x_c m) ->
  (forall s, In s (x_c m) -> full_sid s = s) ->
  mass_molar E km kn -> dget "unit_matter" (e_cfg E) = Some uM -> counts E km kn uM ->
  kmoles (e_setup E) (mean_weight P m n i) uM = Some kM ->
  exists o m', fromigmix P E coll (static_at m n i) fresh = (o, Ok m') /\ mixture_ok m' /\ shape m' = [1%nat] /\ x_c m' = x_c m /\
    forall s, In s (x_c m) -> amount m' s [0%nat] = Some (n s i / total_amount m n i * kM).
Proof.
  intros U SG FS MM CM CN KM.
  assert (KM' : map fst (m_contents (static_at m n i)) = x_c m) by (cbn; rewrite map_map; apply map_id).
  destruct (from_static P coll E (static_at m n i) km kn uM kM U) as (o & Xs & HX & H); rewrite ?KM'; try assumption.
  destruct (fractions_list P coll m n i U SG E) as (o' & Y & HX' & _ & _ & MW). rewrite HX in HX'. injection HX' as <- ->.
  rewrite <- MW in KM. destruct (H KM) as (m' & H1 & H2 & H3 & H4 & H5). rewrite KM' in H4.
  exists o, m'. repeat (split; [assumption|]). intros s Hs. apply H5. apply in_map_iff. exists s. auto.
Qed.

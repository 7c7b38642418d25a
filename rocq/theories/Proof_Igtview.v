(* Proofs about what a dynamic mixture shows of its contents (C77, C86). *)
From Coq Require Import Reals ZArith List String Bool Lia Lra.
From Verif Require Import Base Model_Num Model_Units Model_Igas Model_Igmix Model_Igtools Model_Igtprop Model_Igtmix Model_Igtview
  Spec_Units Spec_Igas Spec_Igmix Spec_Igtools Spec_Igtprop Spec_IgtGas Spec_Igtmix Spec_Igtview
  Proof_Units Proof_Igas Proof_IgasUnits Proof_IgasState Proof_IgasCalls Proof_Igmix Proof_IgmixProp Proof_IgmixInst
  Proof_Igtshape Proof_Igtools Proof_IgtAdd Proof_IgtMore Proof_IgtItems Proof_IgtNew Proof_IgtProp Proof_IgtThm Proof_Igtmix.
Import ListNotations.
Local Open Scope R_scope.
Local Open Scope string_scope.
Local Open Scope list_scope.

Lemma ok_inj {A} (a b : A) : Ok a = Ok b -> a = b.
Proof. now intro H; injection H. Qed.

(* ---- reshaping ---- *)
Lemma map_plus_seq k n : forall a, map (fun r => (k + r)%nat) (seq a n) = seq (k + a) n.
Proof. induction n as [|n IH]; intro a; [reflexivity|]. cbn. rewrite IH. f_equal. f_equal. lia. Qed.
Lemma ranks s : map (rank s) (all_idx s) = seq 0 (size s).
Proof.
  induction s as [|d s IH]; [reflexivity|]. cbn [all_idx].
  assert (G : forall n a, map (rank (d :: s)) (flat_map (fun k => map (cons k) (all_idx s)) (seq a n)) = seq (a * size s) (n * size s)).
  { induction n as [|n IHn]; intro a; [reflexivity|]. cbn [seq flat_map]. rewrite map_app, IHn, map_map. cbn [rank].
    rewrite <- (map_map (rank s) (fun r => (a * fold_right Nat.mul 1 s + r)%nat)), IH. fold (size s).
    rewrite map_plus_seq. cbn [Nat.mul]. rewrite seq_app. f_equal; f_equal; lia. }
  rewrite G. f_equal.
Qed.
Lemma idx_nodup s : NoDup (all_idx s).
Proof. apply (NoDup_map_inv (rank s)). rewrite ranks. apply seq_NoDup. Qed.
Lemma idx_index s : forall i, In i (all_idx s) -> index_in s i.
Proof.
  induction s as [|d s IH]; intros i H.
  - destruct H as [<-|[]]. constructor.
  - cbn [all_idx] in H. apply in_flat_map in H. destruct H as (k & Hk & H). apply in_map_iff in H. destruct H as (j & <- & Hj).
    apply in_seq in Hk. constructor; [lia|now apply IH].
Qed.
Lemma rank_onto s r : (r < size s)%nat -> exists i, index_in s i /\ rank s i = r.
Proof.
  intro H. destruct (nth_error (all_idx s) r) as [i|] eqn:E.
  - exists i. split; [apply idx_index; now apply nth_error_In in E|].
    pose proof (f_equal (fun l => nth_error l r) (ranks s)) as Q. cbn beta in Q. rewrite nth_error_map, E, nth_error_seq in Q by exact H.
    now injection Q.
  - apply nth_error_None in E. rewrite idx_length in E. unfold size in H. lia.
Qed.
Lemma rank_bound s i : index_in s i -> (rank s i < size s)%nat.
Proof. intro H. destruct (rank_idx s i H) as [_ H2]. now rewrite idx_length in H2. Qed.
Lemma rank_inj s i j : index_in s i -> index_in s j -> rank s i = rank s j -> i = j.
Proof. intros Hi Hj Q. destruct (rank_idx s i Hi) as [A _]. destruct (rank_idx s j Hj) as [B _]. rewrite Q in A. congruence. Qed.

Lemma look_nth L : NoDup L -> forall l r i v, nth_error L r = Some i -> nth_error l r = Some v -> look i (combine L l) = v.
Proof.
  induction 1 as [|x L Hx Nd IH]; intros l r i v H1 H2; [now destruct r|].
  destruct l as [|y l]; [now destruct r|]. cbn [combine look]. destruct r as [|r]; cbn in H1, H2.
  - injection H1 as ->. injection H2 as ->. unfold shape_eqb. destruct (list_eq_dec Nat.eq_dec i i); congruence.
  - unfold shape_eqb. destruct (list_eq_dec Nat.eq_dec i x) as [->|].
    + exfalso. apply Hx. now apply nth_error_In in H1.
    + now apply (IH l r).
Qed.
Lemma reshape_el a t b i j : np_reshape a t = Ok b -> index_in t i -> index_in (nsh a) j -> rank t i = rank (nsh a) j ->
  nel b i = nel a j.
Proof.
  unfold np_reshape. destruct (Nat.eqb _ _) eqn:Q; [|discriminate]. intros H Hi Hj Hr. injection H as <-.
  cbn [of_list nel]. destruct (rank_idx t i Hi) as [H1 _]. destruct (rank_idx (nsh a) j Hj) as [H2 _].
  apply (look_nth _ (idx_nodup t) _ (rank t i)); [exact H1|]. unfold to_list. rewrite nth_error_map, Hr, H2. reflexivity.
Qed.
Lemma reshape_ok m t m' : mixture_ok m -> t <> [] -> reshape m t = Ok m' ->
  mixture_ok m' /\ x_c m' = x_c m /\ shape m' = t /\
  forall s i j, index_in t i -> index_in (shape m) j -> rank t i = rank (shape m) j -> amount m' s i = amount m s j.
Proof.
  intros (H1 & H2 & H3) Ht H. unfold reshape in H. rewrite H1 in H. cbn [hd] in H.
  destruct (np_reshape (x_q m) (List.length (x_c m) :: t)) as [q|] eqn:Q; [|discriminate]. cbn [bind] in H. injection H as <-.
  assert (Nq : nsh q = List.length (x_c m) :: t).
  { unfold np_reshape in Q. destruct (Nat.eqb _ _); [|discriminate]. injection Q as <-. reflexivity. }
  assert (Sh : shape {| x_c := x_c m; x_q := q |} = t) by (unfold shape; cbn [x_q]; now rewrite Nq).
  unfold mixture_ok. rewrite Sh. cbn [x_c x_q]. split; [auto|]. split; [reflexivity|]. split; [reflexivity|].
  intros s i j Hi Hj Hr. rewrite !amount_index. cbn [x_c x_q]. destruct (index_of s (x_c m)) as [k|] eqn:K; [|reflexivity].
  apply index_of_some in K. destruct K as [Kl _].
  assert (Sz : size t = size (shape m)).
  { unfold np_reshape in Q. rewrite H1 in Q. cbn [fold_right] in Q. destruct (Nat.eqb_spec (List.length (x_c m) * fold_right Nat.mul 1%nat t) (List.length (x_c m) * fold_right Nat.mul 1%nat (shape m))) as [G|]; [|discriminate].
    apply Nat.mul_cancel_l in G; [exact G|lia]. }
  apply (reshape_el _ _ _ (k :: i) (k :: j) Q).
  - constructor; assumption.
  - rewrite H1. constructor; assumption.
  - rewrite H1. cbn [rank]. fold (size t). fold (size (shape m)). lia.
Qed.
Lemma reshape_iff m t : mixture_ok m -> x_c m <> [] ->
  ((exists m', reshape m t = Ok m') <-> size t = size (shape m)) /\
  (size t <> size (shape m) -> reshape m t = Err EValueError).
Proof.
  intros (H1 & H2 & H3) Hc. unfold reshape, np_reshape. rewrite H1. cbn [hd fold_right].
  fold (size t). fold (size (shape m)).
  assert (L : List.length (x_c m) <> 0%nat) by (destruct (x_c m); [congruence|discriminate]).
  destruct (Nat.eqb_spec (List.length (x_c m) * size t) (List.length (x_c m) * size (shape m))) as [G|G]; cbn [bind].
  - apply Nat.mul_cancel_l in G; [|exact L]. split; [split; [auto|eauto]|congruence].
  - split; [|reflexivity]. split; [intros [m' Q]; discriminate|congruence].
Qed.
Lemma reshape_thm m t : mixture_ok m -> x_c m <> [] -> t <> [] ->
  (size t = size (shape m) -> exists m', reshape m t = Ok m' /\ mixture_ok m' /\ x_c m' = x_c m /\ shape m' = t /\
     (forall i, index_in t i -> exists j, index_in (shape m) j /\ rank t i = rank (shape m) j /\ forall s, amount m' s i = amount m s j) /\
     forall j, index_in (shape m) j -> exists i, index_in t i /\ rank t i = rank (shape m) j /\ forall s, amount m' s i = amount m s j) /\
  (size t <> size (shape m) -> reshape m t = Err EValueError).
Proof.
  intros H Hc Ht. destruct (reshape_iff m t H Hc) as [A B]. split; [|exact B].
  intro Sz. destruct (proj2 A Sz) as [m' M]. exists m'. split; [exact M|].
  destruct (reshape_ok m t m' H Ht M) as (H1 & H2 & H3 & H4). do 3 (split; [assumption|]). split.
  - intros i Hi. pose proof (rank_bound _ _ Hi) as Rb. rewrite Sz in Rb. destruct (rank_onto _ _ Rb) as (j & J1 & J2).
    exists j. split; [exact J1|]. split; [now symmetry|]. intro s. apply H4; auto.
  - intros j Hj. pose proof (rank_bound _ _ Hj) as Rb. rewrite <- Sz in Rb. destruct (rank_onto _ _ Rb) as (i & J1 & J2).
    exists i. split; [exact J1|]. split; [exact J2|]. intro s. apply H4; auto.
Qed.
Lemma reshape_back m t m' : mixture_ok m -> t <> [] -> reshape m t = Ok m' ->
  exists m'', reshape m' (shape m) = Ok m'' /\ Spec_Igtools.same_mixture m m''.
Proof.
  intros H Ht M. destruct (reshape_ok m t m' H Ht M) as (H1 & H2 & H3 & H4).
  assert (Q : exists m'', reshape m' (shape m) = Ok m'').
  { unfold reshape, np_reshape in *. destruct H as (Ha & Hb & Hc). destruct H1 as (Hd & _ & _). rewrite Ha in M. rewrite Hd. cbn [hd fold_right] in *.
    destruct (Nat.eqb_spec (List.length (x_c m) * fold_right Nat.mul 1%nat t) (List.length (x_c m) * fold_right Nat.mul 1%nat (shape m))) as [G|G]; [|discriminate].
    rewrite H2, H3. rewrite <- G, Nat.eqb_refl. cbn [bind]. eauto. }
  destruct Q as [m'' Q]. exists m''. split; [exact Q|].
  assert (Hs : shape m <> []) by (destruct H as (_ & Hb & _); exact Hb).
  destruct (reshape_ok m' (shape m) m'' H1 Hs Q) as (G1 & G2 & G3 & G4).
  split; [now symmetry|]. intros s i Hi. destruct (index_of s (x_c m)) as [k|] eqn:K.
  - assert (Sz : size t = size (shape m)).
    { destruct (reshape_iff m t H) as [A _]; [|apply A; eauto]. intro E0. rewrite E0 in K. discriminate. }
    pose proof (rank_bound _ _ Hi) as Rb. rewrite <- Sz in Rb. destruct (rank_onto _ _ Rb) as (j & J1 & J2).
    rewrite (G4 s i j Hi); [|now rewrite H3|now rewrite H3, J2]. symmetry. now apply H4.
  - apply index_of_none in K. rewrite (amount_absent m s i K). symmetry. apply amount_absent. now rewrite G2, H2.
Qed.

(* ---- the dictionary ---- *)
Section Dict.
  Context (P : pool) (E : env) (um un : string) (km kn : R) (Hs : positive_setup (e_setup E)).
  Context (Hum : dget "unit_mass" (e_cfg E) = Some um) (Hkm : si (e_setup E) QMass um = Some km).
  Context (Hun : dget "unit_molar" (e_cfg E) = Some un) (Hkn : si (e_setup E) QMolar un = Some kn).

  Lemma todict_rows units uM (k : string -> R) q : named E units uM -> forall names j out,
    (forall s, In s names -> 0 < mw_of P s /\ kmoles (e_setup E) (mw_of P s * (kn / km)) uM = Some (k s)) -> NoDup names ->
    (forall s, In s names -> ~ In s (map fst out)) ->
    todict_loop P E units names q j out =
      Ok (out ++ map (fun c => (snd c, np_map (fmul (Some (1 / k (snd c)))) (row q (fst c)))) (combine (seq j (List.length names)) names)).
  Proof.
    intros Hn names. induction names as [|s names IH]; intros j out H Nd F; cbn [todict_loop List.length seq combine map fst snd].
    - now rewrite app_nil_r.
    - destruct (H s (or_introl eq_refl)) as (Hm & Hk). inversion Nd as [|? ? Ns Nd']; subst. rewrite <- gas_mw in Hm, Hk.
      rewrite (nd_matter_value E um un km kn Hs Hum Hkm Hun Hkn (gas_of P s) (row q j) (Some "kmol") units "kmol" uM 1 (k s) Hm eq_refl Hn (kmol_size E _) Hk).
      cbn [bind]. rewrite dset_fresh by (apply F; now left). rewrite IH.
      + now rewrite <- app_assoc.
      + intros t Ht; apply H; now right.
      + exact Nd'.
      + intros t Ht. rewrite map_app. intro I. apply in_app_or in I. destruct I as [I|[I|[]]]; [now apply (F t (or_intror Ht))|].
        cbn in I. subst. contradiction.
  Qed.
  Lemma todict_ok units uM (k : string -> R) m : named E units uM -> mixture_ok m ->
    (forall s, In s (x_c m) -> 0 < mw_of P s /\ kmoles (e_setup E) (mw_of P s * (kn / km)) uM = Some (k s)) ->
    exists d, todict P E units m = Ok d /\ map fst d = x_c m /\
      forall s v, In (s, v) d -> nsh v = shape m /\ forall i, nel v i = fdiv (amount m s i) (Some (k s)).
  Proof.
    intros Hn (H1 & H2 & H3) H. unfold todict. rewrite (todict_rows units uM k _ Hn (x_c m) 0 [] H H3) by (intros s _ []).
    eexists; split; [reflexivity|]. cbn [app].
    assert (F : forall (l : list string) a, map fst (map (fun c => (snd c, np_map (fmul (Some (1 / k (snd c)))) (row (x_q m) (fst c)))) (combine (seq a (List.length l)) l)) = l).
    { induction l as [|x l IH]; intro a; [reflexivity|]. cbn. now rewrite IH. }
    split; [apply F|]. intros s v Hv. apply in_map_iff in Hv. destruct Hv as ([r t] & Q & Hr). cbn [fst snd] in Q. injection Q as -> <-.
    split; [reflexivity|]. intro i. apply In_nth_error in Hr. destruct Hr as [p Hp].
    assert (Lp : (p < List.length (x_c m))%nat).
    { apply (Nat.lt_le_trans _ (List.length (combine (seq 0 (List.length (x_c m))) (x_c m)))); [apply nth_error_Some; congruence|].
      rewrite combine_length, seq_length. lia. }
    destruct (nth_error (x_c m) p) as [t|] eqn:Et; [|apply nth_error_None in Et; lia].
    rewrite (nth_error_combine _ _ p (0 + p)%nat t (nth_error_seq _ 0 p Lp) Et) in Hp. injection Hp as <- ->.
    rewrite amount_index. replace s with (nth p (x_c m) "") at 2 by (now apply nth_error_nth). rewrite index_of_nth by assumption.
    cbn [np_map nel row]. assert (Hin : In s (x_c m)) by (now apply nth_error_In in Et).
    destruct (H s Hin) as (G1 & G2). rewrite <- gas_mw in G1, G2. pose proof (size_pos E um un km kn Hs Hkm Hkn _ _ _ G1 G2) as Kp.
    destruct (nel (x_q m) (p :: i)); cbn; [|reflexivity]. destruct (Req_EM_T (k s) 0); [lra|]. f_equal. field. lra.
  Qed.

  (* the sizes of a unit for the molecular weights in configured units exist when those for the
     molecular weights themselves do *)
  Lemma raw_size u mw k : kmoles (e_setup E) mw u = Some k -> exists k', kmoles (e_setup E) (mw * (kn / km)) u = Some k'.
  Proof.
    unfold kmoles. destruct (si (e_setup E) QMolar u) as [x|]; [eauto|]. destruct (si (e_setup E) QMass u) as [x|]; [eauto|discriminate].
  Qed.
  Definition raw (u : string) (s : string) : R :=
    match kmoles (e_setup E) (mw_of P s * (kn / km)) u with Some k => k | None => 0 end.
  Lemma same_shapes q (l : list nd) s : q <> [] -> (forall v, In v l -> nsh v = q) -> s = [1%nat] \/ s = q ->
    shapes_combine l s (match l with [] => s | _ => q end).
  Proof.
    intros Hq. revert s. induction l as [|v l IH]; intros s H Hs0; [reflexivity|].
    cbn [shapes_combine]. exists q. assert (Hv : nsh v = q) by (apply H; now left). split.
    - right. rewrite Hv. split; [exact Hq|]. destruct Hs0 as [->| ->].
      + split; [now left|]. apply numpy_sym. now apply ones_broadcast.
      + split; [now right|]. split; [lia|]. intros j _ a b. subst a b. split; [now left|]. now destruct (Nat.eqb (from_end q j) 1).
    - specialize (IH q (fun w Hw => H w (or_intror Hw)) (or_intror eq_refl)). now destruct l.
  Qed.
  Lemma dict_round units uM m : named E units uM -> mixture_ok m -> x_c m <> [] -> listed_in P (x_c m) ->
    (forall s, In s (x_c m) -> exists k, kmoles (e_setup E) (mw_of P s) uM = Some k) ->
    exists d m', todict P E units m = Ok d /\ new_mix P E units d = Ok m' /\ x_c m' = x_c m /\ Spec_Igtools.same_mixture m m'.
  Proof.
    intros Hn Hm Hne Hl Hk.
    assert (K : forall s, In s (x_c m) -> 0 < mw_of P s /\ kmoles (e_setup E) (mw_of P s * (kn / km)) uM = Some (raw uM s)).
    { intros s Hi. destruct (Hl s Hi) as (_ & _ & L). split; [exact L|]. destruct (Hk s Hi) as [k Hk1].
      destruct (raw_size _ _ _ Hk1) as [k' Hk2]. unfold raw. rewrite Hk2. reflexivity. }
    destruct (todict_ok units uM (raw uM) m Hn Hm K) as (d & D1 & D2 & D3). exists d.
    assert (Dn : forall c, In c d -> In (fst c) (x_c m)) by (intros c Hc; rewrite <- D2; now apply in_map).
    assert (Fn : map (fun c : string * nd => full_sid (fst c)) d = x_c m).
    { rewrite <- D2. apply map_ext_in. intros c Hc. apply Hl, Dn, Hc. }
    pose proof Hm as (H1 & H2 & H3).
    assert (N1 : [1%nat] <> []) by discriminate.
    assert (Sh : shapes_combine (map snd d) [1%nat] (shape m)).
    { assert (G := same_shapes (shape m) (map snd d) [1%nat] H2).
      assert (Dd : map snd d <> []). { destruct d; [exfalso; apply Hne; now rewrite <- D2|discriminate]. }
      destruct (map snd d) as [|v l] eqn:Q; [congruence|]. apply G; [|now left]. rewrite <- Q. intros w Hw.
      apply in_map_iff in Hw. destruct Hw as ([s w'] & <- & Hw). now apply (D3 s w'). }
    destruct (chain_ok _ _ _ N1 Sh) as (Hu & _ & La).
    unfold new_mix. rewrite (names_ok P d [1%nat] (shape m) N1); [|intros c Hc; destruct (Hl _ (Dn c Hc)) as (L1 & L2 & _); now rewrite L1|exact Sh].
    cbn [bind]. rewrite Fn.
    destruct (rows_ok P E um un km kn Hs Hum Hkm Hun Hkn units uM (raw uM) (shape m) Hu Hn d 0
       {| nsh := List.length (x_c m) :: shape m; nel := fun _ => None |}) as (q & Q1 & Q2 & Q3).
    { intros c Hc. destruct (Hl _ (Dn c Hc)) as (L1 & _ & _). rewrite L1. destruct (K _ (Dn c Hc)) as [K1 K2].
      split; [exact K1|]. split; [exact K2|]. apply La. now apply in_map. }
    rewrite Q1. cbn [bind]. eexists. split; [exact D1|]. split; [reflexivity|]. split; [reflexivity|].
    assert (S' : shape {| x_c := x_c m; x_q := q |} = shape m) by (unfold shape at 1; cbn; now rewrite Q2).
    split; [now symmetry|]. intros s i Hi. rewrite (amount_index {| x_c := x_c m; x_q := q |}). cbn [x_c x_q].
    destruct (index_of s (x_c m)) as [r|] eqn:I; [|apply index_of_none in I; now apply amount_absent].
    pose proof (index_of_some _ _ _ I) as [Lr Nr]. rewrite (Q3 r i (index_in_len _ _ Hi)), Nat.sub_0_r.
    destruct (nth_error d r) as [[t v]|] eqn:Ed.
    - cbn [Nat.ltb Nat.leb fst snd]. pose proof (nth_error_In _ _ Ed) as Hd. destruct (D3 t v Hd) as [V1 V2].
      assert (T : t = s). { rewrite <- Nr, <- D2. symmetry. apply nth_error_nth. rewrite nth_error_map, Ed. reflexivity. }
      subst t. destruct (Hl _ (Dn _ Hd)) as (L1 & _ & L3). cbn [fst] in L1, L3. rewrite L1.
      unfold at_index. rewrite V1. destruct (shape m) as [|x sh] eqn:Es; [congruence|].
      rewrite (project_id _ _ Hi), V2.
      destruct (K s (Dn _ Hd)) as (G1 & G2). rewrite <- gas_mw in G1, G2.
      pose proof (size_pos E um un km kn Hs Hkm Hkn _ _ _ G1 G2) as Kp.
      destruct (amount m s i); cbn; [|reflexivity]. destruct (Req_EM_T (raw uM s) 0); [lra|]. f_equal. field. lra.
    - exfalso. apply nth_error_None in Ed. rewrite <- (map_length fst), D2 in Ed. lia.
  Qed.
End Dict.
Lemma todict_thm P E km kn units uM (k : string -> R) m : mass_molar E km kn -> counts E km kn uM -> mixture_ok m ->
  (forall s, In s (x_c m) -> 0 < mw_of P s /\ unit_size E units uM (mw_of P s) (k s)) -> x_c m <> [] ->
  exists d, todict P E units m = Ok d /\ map fst d = x_c m /\
    forall s v, In (s, v) d -> nsh v = shape m /\ forall i, nel v i = fdiv (amount m s i) (Some (k s)).
Proof.
  intros (H & (um & U1 & U2) & (un & N1 & N2)) Hc Hm Hk Hne.
  assert (Hn : named E units uM). { destruct (x_c m) as [|s l]; [congruence|]. destruct (Hk s (or_introl eq_refl)) as (_ & W & _). exact W. }
  apply (todict_ok P E um un km kn H U1 U2 N1 N2 units uM k m Hn Hm). intros s Hi. destruct (Hk s Hi) as (A & _ & B).
  split; [exact A|]. rewrite (counts_kmoles E um un km kn H U2 N2) by exact Hc. exact B.
Qed.
Lemma round_thm P E km kn units uM (k : string -> R) m : mass_molar E km kn -> mixture_ok m -> x_c m <> [] ->
  listed_in P (x_c m) -> (forall s, In s (x_c m) -> unit_size E units uM (mw_of P s) (k s)) ->
  exists d m', todict P E units m = Ok d /\ new_mix P E units d = Ok m' /\ x_c m' = x_c m /\ Spec_Igtools.same_mixture m m'.
Proof.
  intros (H & (um & U1 & U2) & (un & N1 & N2)) Hm Hne Hl Hk.
  assert (Hn : named E units uM). { destruct (x_c m) as [|s l]; [congruence|]. destruct (Hk s (or_introl eq_refl)) as (W & _). exact W. }
  apply (dict_round P E um un km kn H U1 U2 N1 N2 units uM m Hn Hm Hne Hl). intros s Hi. exists (k s). now apply Hk.
Qed.

(* ---- atoms ---- *)
Lemma dget_in {A} k (v : A) d : NoDup (map fst d) -> In (k, v) d -> dget k d = Some v.
Proof.
  induction d as [|[x w] d IH]; intros Nd H; [contradiction|]. cbn [map fst] in Nd. inversion Nd as [|? ? N1 N2]; subst. cbn [dget].
  destruct H as [H|H].
  - injection H as -> ->. now rewrite String.eqb_refl.
  - destruct (String.eqb_spec k x) as [->|]; [|now apply IH]. exfalso. apply N1. now apply (in_map fst) in H.
Qed.
Lemma dset_keys {A} k (v : A) d a : In a (map fst (dset k v d)) <-> a = k \/ In a (map fst d).
Proof.
  induction d as [|[x w] d IH]; cbn; [intuition|]. destruct (String.eqb_spec k x) as [->|]; cbn; [intuition|]. rewrite IH. intuition.
Qed.
Lemma dset_nodup {A} k (v : A) d : NoDup (map fst d) -> NoDup (map fst (dset k v d)).
Proof.
  induction d as [|[x w] d IH]; cbn; intro H; [constructor; [intros []|constructor]|]. inversion H as [|? ? N1 N2]; subst.
  destruct (String.eqb_spec k x) as [->|]; cbn; constructor; auto. rewrite dset_keys. intros [->|]; congruence.
Qed.
Lemma dget_key {A} k (d : list (string * A)) : dget k d <> None <-> In k (map fst d).
Proof.
  induction d as [|[x w] d IH]; cbn; [intuition|]. destruct (String.eqb_spec k x) as [->|]; [split; [now left|discriminate]|].
  rewrite IH. split; [now right|intros [->|]; congruence].
Qed.
Lemma dget_dset_eq {A} k k' (v : A) d : dget k (dset k' v d) = if String.eqb k k' then Some v else dget k d.
Proof.
  induction d as [|[x w] d IH]; cbn; [reflexivity|]. destruct (String.eqb_spec k' x) as [->|N]; cbn.
  - destruct (String.eqb_spec k x); reflexivity.
  - destruct (String.eqb_spec k x) as [->|]; [|exact IH]. destruct (String.eqb_spec x k'); [congruence|reflexivity].
Qed.

Definition shapes_are (sh : list nat) (out : list (string * nd)) : Prop := forall a v, In (a, v) out -> nsh v = sh.
Lemma shapes_dset sh k v out : nsh v = sh -> shapes_are sh out -> shapes_are sh (dset k v out).
Proof.
  intros Hv. induction out as [|[x w] out IH]; intros H a y Hy; cbn in Hy.
  - destruct Hy as [Q|[]]. now injection Q as <- <-.
  - destruct (String.eqb_spec k x).
    + destruct Hy as [Q|Hy]; [now injection Q as <- <-|]. apply (H a y). now right.
    + destruct Hy as [Q|Hy]; [apply (H a y); now left|]. eapply IH; [|exact Hy]. intros b z Hz. apply (H b z). now right.
Qed.
Lemma dget_shape sh out a v : shapes_are sh out -> dget a out = Some v -> nsh v = sh.
Proof.
  intros H. induction out as [|[x w] out IH]; cbn; [discriminate|]. destruct (String.eqb a x).
  - intro Q. injection Q as ->. apply (H x v). now left.
  - apply IH. intros b z Hz. apply (H b z). now right.
Qed.
Lemma inner_atoms sh qty i x : nsh qty = sh -> nel qty i = Some x -> forall l out, NoDup (map fst l) -> NoDup (map fst out) -> shapes_are sh out ->
  let out' := atoms_inner qty l out in
  NoDup (map fst out') /\ shapes_are sh out' /\ (forall a, In a (map fst out') <-> In a (map fst out) \/ In a (map fst l)) /\
  forall a, shown out' a i = fadd (shown out a i) (Some (x * match dget a l with Some c => c | None => 0 end)).
Proof.
  intros Hq Hx l. induction l as [|[b c] l IH]; intros out Nl No Sh.
  - cbn. split; [exact No|]. split; [exact Sh|]. split; [intuition|]. intro a. destruct (shown out a i); cbn; [f_equal; ring|reflexivity].
  - cbn [map fst] in Nl. inversion Nl as [|? ? N1 N2]; subst. cbn [atoms_inner]. set (w := match dget b out with Some w => w | None => _ end).
    assert (Sw : nsh w = nsh qty). { unfold w. destruct (dget b out) eqn:Q; [exact (dget_shape _ _ _ _ Sh Q)|reflexivity]. }
    assert (Ew : nel w i = shown out b i). { unfold w, shown. destruct (dget b out); reflexivity. }
    match goal with |- context [dset b ?v out] => set (nv := v) end.
    destruct (IH (dset b nv out) N2 (dset_nodup _ _ _ No) (shapes_dset _ _ nv _ Sw Sh)) as (I1 & I2 & I3 & I4).
    split; [exact I1|]. split; [exact I2|]. split.
    + intro a. rewrite I3, dset_keys. cbn. intuition.
    + intro a. rewrite I4. unfold shown at 1. rewrite dget_dset_eq. cbn [dget].
      destruct (String.eqb_spec a b) as [->|N].
      * assert (D : dget b l = None). { destruct (dget b l) eqn:Q; [|reflexivity]. exfalso. apply N1. apply dget_key. congruence. }
        rewrite D. unfold nv. cbn [nel]. rewrite Ew, Hx. destruct (shown out b i); cbn; [f_equal; ring|reflexivity].
      * reflexivity.
Qed.
(* the same for elements that are not all finite, without values *)
Lemma inner_shape sh qty : nsh qty = sh -> forall l out, NoDup (map fst out) -> shapes_are sh out ->
  let out' := atoms_inner qty l out in
  NoDup (map fst out') /\ shapes_are sh out' /\ (forall a, In a (map fst out') <-> In a (map fst out) \/ In a (map fst l)).
Proof.
  intros Hq l. induction l as [|[b c] l IH]; intros out No Sh.
  - cbn. split; [exact No|]. split; [exact Sh|]. intuition.
  - cbn [atoms_inner]. set (w := match dget b out with Some w => w | None => _ end).
    assert (Sw : nsh w = sh). { unfold w. destruct (dget b out) eqn:Q; [exact (dget_shape _ _ _ _ Sh Q)|exact Hq]. }
    match goal with |- context [dset b ?v out] => set (nv := v) end.
    destruct (IH (dset b nv out) (dset_nodup _ _ _ No) (shapes_dset _ _ nv _ Sw Sh)) as (I1 & I2 & I3).
    split; [exact I1|]. split; [exact I2|]. intro a. rewrite I3, dset_keys. cbn. intuition.
Qed.

Section Atoms.
  Context (A : string -> res (list (string * R))) (E : env) (un : string) (kn : R) (Hs : positive_setup (e_setup E)).
  Context (Hun : dget "unit_molar" (e_cfg E) = Some un) (Hkn : si (e_setup E) QMolar un = Some kn).

  Lemma atoms_steps q sh (n : string -> list nat -> R) : tl (nsh q) = sh -> forall names k out,
    compositions A names -> NoDup (map fst out) -> shapes_are sh out ->
    exists out', igt_atoms_loop A E names q k out = Ok out' /\ NoDup (map fst out') /\ shapes_are sh out' /\
      (forall a, In a (map fst out') <-> In a (map fst out) \/ exists s l, In s names /\ A s = Ok l /\ In a (map fst l)) /\
      forall a i, (forall j, (j < List.length names)%nat -> nel q ((k + j)%nat :: i) = Some (n (nth j names "") i)) ->
        shown out' a i = fadd (shown out a i) (Some (rsum (fun s => n s i * atom_count A a s) names / kn)).
  Proof.
    assert (Kp : 0 < kn) by (eapply si_pos; eauto).
    intros Hq names. induction names as [|s names IH]; intros k out HA No Sh; cbn [igt_atoms_loop].
    - exists out. split; [reflexivity|]. split; [exact No|]. split; [exact Sh|]. split.
      + intro a. split; [now left|]. intros [H|(s & l & [] & _)]. exact H.
      + intros a i _. cbn [rsum]. destruct (shown out a i); cbn; [f_equal; field; lra|reflexivity].
    - unfold cfg_get. rewrite Hun. cbn [bind].
      rewrite (convert_spec (e_setup E) QMolar _ _ "kmol" un None 1 kn) by (auto; reflexivity). cbn [bind].
      destruct (HA s (or_introl eq_refl)) as (l & Hl & Nl). rewrite Hl. cbn [bind].
      set (qty := np_map _ (row q k)).
      assert (Sq : nsh qty = sh) by exact Hq.
      destruct (inner_shape sh qty Sq l out No Sh) as (J1 & J2 & J3).
      destruct (IH (S k) (atoms_inner qty l out)) as (out' & O1 & O2 & O3 & O4 & O5);
        [intros t Ht; apply HA; now right|exact J1|exact J2|].
      exists out'. split; [exact O1|]. split; [exact O2|]. split; [exact O3|]. split.
      + intro a. rewrite O4, J3. split.
        * intros [[H|H]|(t & l' & H1 & H2 & H3)]; [now left| |].
          -- right. exists s, l. split; [now left|]. auto.
          -- right. exists t, l'. split; [now right|]. auto.
        * intros [H|(t & l' & [<-|H1] & H2 & H3)]; [now left; left| |].
          -- left. right. rewrite Hl in H2. now injection H2 as ->.
          -- right. exists t, l'. auto.
      + intros a i Hv. rewrite O5.
        * pose proof (Hv 0%nat (Nat.lt_0_succ _)) as V0. rewrite Nat.add_0_r in V0. cbn [nth] in V0.
          assert (Q : nel qty i = Some (n s i / kn)).
          { unfold qty. cbn [np_map nel row]. rewrite V0. cbn [fmul lift2 effective_exponent]. rewrite zpow_1. f_equal. field. lra. }
          destruct (inner_atoms sh qty i _ Sq Q l out Nl No Sh) as (_ & _ & _ & I4). rewrite I4.
          cbn [rsum]. unfold atom_count at 2. rewrite Hl.
          destruct (shown out a i); cbn; [f_equal; field; lra|reflexivity].
        * intros j Hj. pose proof (Hv (S j) ltac:(cbn; lia)) as V. cbn [nth] in V. rewrite <- V. f_equal. f_equal. lia.
  Qed.
  Lemma atoms_value m n : mixture_ok m -> amounts_known m n -> compositions A (x_c m) ->
    exists out, igt_atoms A E m = Ok out /\ NoDup (map fst out) /\
      (forall a, In a (map fst out) <-> exists s l, In s (x_c m) /\ A s = Ok l /\ In a (map fst l)) /\
      (forall a v, In (a, v) out -> nsh v = shape m) /\
      forall a i, index_in (shape m) i -> shown out a i = Some (rsum (fun s => n s i * atom_count A a s) (x_c m) / kn).
  Proof.
    intros (H1 & H2 & H3) K HA.
    destruct (atoms_steps (x_q m) (shape m) n eq_refl (x_c m) 0 [] HA) as (out & O1 & O2 & O3 & O4 & O5); [constructor|intros a v []|].
    exists out. split; [exact O1|]. split; [exact O2|]. split; [intro a; rewrite O4; split; [intros [[]|H]; exact H|now right]|].
    split; [exact O3|]. intros a i Hi. rewrite O5.
    - cbn. f_equal. ring.
    - intros j Hj. cbn [Nat.add]. apply (amount_row m n _ j i K); [|exact Hi]. now apply index_of_nth.
  Qed.
End Atoms.
Lemma atoms_thm A E km kn m n : mass_molar E km kn -> mixture_ok m -> amounts_known m n -> compositions A (x_c m) ->
  exists out, igt_atoms A E m = Ok out /\ NoDup (map fst out) /\
    (forall a, In a (map fst out) <-> exists s l, In s (x_c m) /\ A s = Ok l /\ In a (map fst l)) /\
    forall a v, In (a, v) out -> nsh v = shape m /\
      forall i, index_in (shape m) i -> exists x, nel v i = Some x /\ x * kn = rsum (fun s => n s i * atom_count A a s) (x_c m).
Proof.
  intros (H & _ & (un & N1 & N2)) Hm K HA. destruct (atoms_value A E un kn H N1 N2 m n Hm K HA) as (out & O1 & O2 & O3 & O4 & O5).
  exists out. split; [exact O1|]. split; [exact O2|]. split; [exact O3|]. intros a v Hv. split; [exact (O4 a v Hv)|].
  intros i Hi. specialize (O5 a i Hi). unfold shown in O5. rewrite (dget_in a v out O2 Hv) in O5. eexists; split; [exact O5|].
  assert (0 < kn) by (eapply si_pos; eauto). field. lra.
Qed.

(* ---- atoms are conserved ---- *)
Lemma rsum_app {A} (f : A -> R) l r : rsum f (l ++ r) = rsum f l + rsum f r.
Proof. induction l as [|x l IH]; cbn; [ring|]. rewrite IH. ring. Qed.
Lemma rsum_perm {A} (f : A -> R) l r : Permutation.Permutation l r -> rsum f l = rsum f r.
Proof. induction 1; cbn; try lra. Qed.
Lemma rsum_zero {A} (f : A -> R) l : (forall x, In x l -> f x = 0) -> rsum f l = 0.
Proof. induction l as [|x l IH]; intro H; [reflexivity|]. cbn. rewrite IH, H by auto with datatypes. ring. Qed.
Lemma rsum_plus {A} (f g : A -> R) l : rsum (fun x => f x + g x) l = rsum f l + rsum g l.
Proof. induction l as [|x l IH]; cbn; [ring|]. rewrite IH. ring. Qed.
Lemma rsum_superset (f : string -> R) l c : NoDup l -> NoDup c -> incl l c -> (forall s, ~ In s l -> f s = 0) -> rsum f c = rsum f l.
Proof.
  intros H1 H2 H3 H4. destruct (perm_split l c H1 H2 H3) as (r & Hp & Hr). rewrite (rsum_perm _ _ _ Hp), rsum_app, (rsum_zero f r); [ring|].
  intros x Hx. apply H4. now apply Hr.
Qed.
Lemma known_absent m n s i : amounts_known m n -> index_in (shape m) i -> ~ In s (x_c m) -> n s i = 0.
Proof. intros K Hi Hn. pose proof (K s i Hi) as Q. rewrite (amount_absent m s i Hn) in Q. now injection Q as <-. Qed.
Lemma atoms_sum A E km kn a b c na nb oa ob : mass_molar E km kn -> mixture_ok a -> mixture_ok b ->
  List.length (shape a) = List.length (shape b) -> amounts_known a na -> amounts_known b nb ->
  compositions A (x_c a) -> compositions A (x_c b) ->
  add a b = Ok c -> igt_atoms A E a = Ok oa -> igt_atoms A E b = Ok ob ->
  exists oc, igt_atoms A E c = Ok oc /\
    (forall x, In x (map fst oc) <-> In x (map fst oa) \/ In x (map fst ob)) /\
    forall x i, index_in (shape c) i ->
      shown oc x i = fadd (shown oa x (project (shape a) i)) (shown ob x (project (shape b) i)).
Proof.
  intros (H & _ & (un & N1 & N2)) Ha Hb Hl Ka Kb Aa Ab Hc Ea Eb.
  destruct (add_full a b Ha Hb Hl) as [F G]. destruct (F _ (G c Hc)) as (c' & _ & Hc' & (C1 & C2 & C3 & C4) & _ & Sa & Sb).
  rewrite Hc in Hc'. apply ok_inj in Hc'. subst c'.
  assert (Pa : forall i, index_in (shape c) i -> index_in (shape a) (project (shape a) i)) by (intros i Hi; exact (project_in _ _ _ Sa Hi)).
  assert (Pb : forall i, index_in (shape c) i -> index_in (shape b) (project (shape b) i)) by (intros i Hi; exact (project_in _ _ _ Sb Hi)).
  set (nc := fun s i => na s (project (shape a) i) + nb s (project (shape b) i)).
  assert (Kc : amounts_known c nc).
  { intros s i Hi. rewrite (C4 s i Hi), (Ka s _ (Pa i Hi)), (Kb s _ (Pb i Hi)). reflexivity. }
  assert (Ac : compositions A (x_c c)). { intros s Hs. apply C3 in Hs. destruct Hs as [Hs|Hs]; auto. }
  destruct (atoms_value A E un kn H N1 N2 a na Ha Ka Aa) as (oa' & A1 & _ & A3 & _ & A5). rewrite Ea in A1. apply ok_inj in A1. subst oa'.
  destruct (atoms_value A E un kn H N1 N2 b nb Hb Kb Ab) as (ob' & B1 & _ & B3 & _ & B5). rewrite Eb in B1. apply ok_inj in B1. subst ob'.
  destruct (atoms_value A E un kn H N1 N2 c nc C1 Kc Ac) as (oc & O1 & _ & O3 & _ & O5).
  exists oc. split; [exact O1|]. split.
  - intro x. rewrite O3, A3, B3. split.
    + intros (s & l & S1 & S2 & S3). apply C3 in S1. destruct S1 as [S1|S1]; [left|right]; exists s, l; auto.
    + intros [(s & l & S1 & S2 & S3)|(s & l & S1 & S2 & S3)]; exists s, l; (split; [apply C3; auto|auto]).
  - intros x i Hi. rewrite (O5 x i Hi), (A5 x _ (Pa i Hi)), (B5 x _ (Pb i Hi)). cbn [fadd lift2]. f_equal.
    assert (0 < kn) by (eapply si_pos; eauto).
    transitivity (rsum (fun s => na s (project (shape a) i) * atom_count A x s + nb s (project (shape b) i) * atom_count A x s) (x_c c) / kn).
    { f_equal. apply rsum_ext. intros s _. unfold nc. ring. }
    rewrite rsum_plus.
    rewrite (rsum_superset (fun s => na s (project (shape a) i) * atom_count A x s) (x_c a) (x_c c)).
    2: apply Ha. 2: apply C1. 2: { intros s Hs; apply C3; now left. }
    2: { intros s Hs. rewrite (known_absent a na s _ Ka (Pa i Hi) Hs). ring. }
    rewrite (rsum_superset (fun s => nb s (project (shape b) i) * atom_count A x s) (x_c b) (x_c c)).
    2: apply Hb. 2: apply C1. 2: { intros s Hs; apply C3; now right. }
    2: { intros s Hs. rewrite (known_absent b nb s _ Kb (Pb i Hi) Hs). ring. }
    field. lra.
Qed.
Lemma atoms_scaled A E km kn a na c oa k : mass_molar E km kn -> mixture_ok a -> amounts_known a na -> compositions A (x_c a) ->
  mul a (scalar k) = Ok c -> igt_atoms A E a = Ok oa ->
  exists oc, igt_atoms A E c = Ok oc /\ forall x i, index_in (shape a) i -> shown oc x i = fmul (Some k) (shown oa x i).
Proof.
  intros (H & _ & (un & N1 & N2)) Ha Ka Aa Hc Ea. destruct (scale_number a k Ha) as (c' & M1 & M2 & M3 & M4 & M5).
  rewrite Hc in M1. apply ok_inj in M1. subst c'.
  assert (Kc : amounts_known c (fun s i => k * na s i)).
  { intros s i Hi. rewrite M4 in Hi. rewrite (M5 s i Hi), (Ka s i Hi). reflexivity. }
  destruct (atoms_value A E un kn H N1 N2 a na Ha Ka Aa) as (oa' & A1 & _ & A3 & _ & A5). rewrite Ea in A1. apply ok_inj in A1. subst oa'.
  rewrite <- M3 in Aa. destruct (atoms_value A E un kn H N1 N2 c _ M2 Kc Aa) as (oc & O1 & _ & O3 & _ & O5).
  exists oc. split; [exact O1|]. intros x i Hi. rewrite (A5 x i Hi). rewrite O5 by (now rewrite M4). rewrite M3. cbn [fmul lift2]. f_equal.
  assert (0 < kn) by (eapply si_pos; eauto).
  transitivity (rsum (fun s => na s i * atom_count A x s * k) (x_c a) / kn); [f_equal; apply rsum_ext; intros; ring|].
  rewrite rsum_mul. field. lra.
Qed.

(* ---- the static mixture made of it has the same atoms ---- *)
Lemma sum_over_map {A} (f : A -> R) l : sum_over f l = rsum f l.
Proof. induction l as [|x l IH]; [reflexivity|]. cbn. now rewrite IH. Qed.
Lemma rsum_map {A B} (g : A -> B) (f : B -> R) l : rsum f (map g l) = rsum (fun x => f (g x)) l.
Proof. induction l as [|x l IH]; [reflexivity|]. cbn. now rewrite IH. Qed.
Lemma atoms_static P coll A E km kn m n i : mass_molar E km kn -> mixture_ok m -> amounts_known m n -> index_in (shape m) i ->
  usable_mixture coll (static_at m n i) -> same_gases P coll (x_c m) -> same_compositions coll A (x_c m) ->
  exists out d, igt_atoms A E m = Ok out /\ snd (mix_call coll (static_at m n i) E fresh Catoms) = Ok (VDict d) /\
    (forall a, In a (map fst out) <-> In a (map fst d)) /\
    forall a, exists x, shown out a i = Some x /\
      x * kn = total_amount m n i * match dget a d with Some v => v | None => 0 end.
Proof.
  intros (H & _ & (un & N1 & N2)) Hm K Hi U SG SC.
  assert (CA : compositions A (x_c m)). { intros s Hs. destruct (SC s Hs) as (D & l & _ & A1 & A2). eauto. }
  destruct (atoms_value A E un kn H N1 N2 m n Hm K CA) as (out & O1 & _ & O3 & _ & O5).
  set (at' := fun s => match A s with Ok l => l | Err _ => [] end).
  destruct (atoms_answer coll (static_at m n i) E at' U) as (Xs & d & X1 & D1 & D2 & D3).
  { intros ss q Hc. cbn [static_at m_contents] in Hc. apply in_map_iff in Hc. destruct Hc as (s & Q & Hs). injection Q as <- _.
    destruct (SC s Hs) as (D & l & C1 & C2 & C3). unfold at'. rewrite C2. split; [exists D; exact C1|exact C3]. }
  exists out, d. split; [exact O1|]. split; [exact D1|]. split.
  - intro a. rewrite O3, D2. split.
    + intros (s & l & S1 & S2 & S3). exists s, (n s i). split; [cbn; apply in_map_iff; exists s; auto|]. unfold at'. now rewrite S2.
    + intros (s & q & S1 & S2). cbn in S1. apply in_map_iff in S1. destruct S1 as (t & Q & Ht). injection Q as -> _.
      destruct (SC s Ht) as (D & l & _ & C2 & _). unfold at' in S2. rewrite C2 in S2. exists s, l. auto.
  - intro a. eexists. split; [apply (O5 a i Hi)|].
    destruct (composition P coll m n i U SG Hm K Hi E) as (Xs' & o & X1' & X2 & _ & X3). rewrite X1' in X1. cbn [snd] in X1.
    injection X1 as ->. rewrite D3. change (@sum_over (string * R)) with (@rsum (string * R)). assert (0 < kn) by (eapply si_pos; eauto).
    transitivity (rsum (fun s => n s i * atom_count A a s) (x_c m)); [field; lra|]. rewrite <- X2, rsum_map.
    rewrite (Rmult_comm (total_amount m n i)). rewrite <- (rsum_mul _ (total_amount m n i)). apply rsum_ext. intros [s x] Hx. cbn [fst snd]. destruct (X3 s x Hx) as [X4 _].
    rewrite <- X4. unfold atom_count, at'. destruct (A s); cbn [dget]; ring.
Qed.

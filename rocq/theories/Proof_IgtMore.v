(* Scaling, fractions, totals by mass and by mole of dynamic mixtures. *)
From Coq Require Import Reals ZArith List String Bool Lia Lra Arith Permutation.
From Verif Require Import Base Model_Num Model_Units Model_Igas Model_Igtools Spec_Units Spec_Igtools
  Proof_Units Proof_IgasUnits Proof_Igtshape Proof_Igtools Proof_IgtAdd.
Import ListNotations.
Local Open Scope R_scope.
Local Open Scope string_scope.
Local Open Scope list_scope.

Lemma fmul_comm a b : fmul a b = fmul b a.
Proof. destruct a, b; cbn; f_equal; lra. Qed.

(* ---- scaling ---- *)
Lemma np_rev_app s : forall t n, (List.length s <= List.length t)%nat ->
  np_rev s (t ++ [n]) = match np_rev s t with Some r => Some (r ++ [n]) | None => None end.
Proof.
  induction s as [|a s IH]; intros t n H; [reflexivity|].
  destruct t as [|b t]; [cbn in H; lia|]. cbn [app np_rev].
  rewrite IH by (cbn in H; lia). destruct (np_rev s t) as [r|]; [|reflexivity].
  destruct (Nat.eqb a b || Nat.eqb a 1); [reflexivity|]. destruct (Nat.eqb b 1); reflexivity.
Qed.
Lemma np_shape_cons s t n : (List.length s <= List.length t)%nat ->
  np_shape s (n :: t) = match np_shape s t with Some u => Some (n :: u) | None => None end.
Proof.
  intro H. unfold np_shape. cbn [rev]. rewrite np_rev_app by (rewrite !rev_length; exact H).
  destruct (np_rev (rev s) (rev t)) as [r|]; [|reflexivity]. now rewrite rev_app_distr.
Qed.
Lemma bidx_cons s k i : (List.length s <= List.length i)%nat -> bidx s (k :: i) = bidx s i.
Proof.
  intro H. unfold bidx. f_equal. cbn [List.length].
  replace (S (List.length i) - List.length s)%nat with (S (List.length i - List.length s)) by lia. reflexivity.
Qed.

Lemma imul_amounts a b : mixture_ok a -> (List.length (nsh (atleast_1d b)) <= List.length (shape a))%nat ->
  forall u, numpy_broadcast (nsh (atleast_1d b)) (shape a) u ->
  exists c, imul a b = Ok c /\ mixture_ok c /\ x_c c = x_c a /\ shape c = u /\
    forall s i, In s (x_c a) -> index_in u i ->
      amount c s i = fmul (nel (atleast_1d b) (bidx (nsh (atleast_1d b)) i)) (amount a s (project (shape a) i)).
Proof.
  intros (H1 & H2 & H3) Hl u Hu. unfold imul. set (b' := atleast_1d b) in *.
  assert (Lu : List.length u = List.length (shape a)) by (destruct Hu; lia).
  destruct (shape_eqb (nsh b') (shape a)) eqn:Es.
  - apply shape_eqb_spec in Es.
    assert (Eu : u = shape a).
    { apply np_shape_spec in Hu. rewrite Es in Hu.
      assert (N : numpy_broadcast (shape a) (shape a) (shape a)).
      { split; [lia|]. intros j _. cbv zeta. split; [auto|]. now destruct (Nat.eqb (from_end (shape a) j) 1). }
      apply np_shape_spec in N. congruence. }
    subst u. unfold broadcast_to.
    assert (F : fits (nsh b') (nsh (x_q a)) = true).
    { rewrite H1, Es. unfold fits. cbn [List.length].
      replace (List.length (shape a) <=? S (List.length (shape a)))%nat with true by (symmetry; apply Nat.leb_le; lia).
      replace (S (List.length (shape a)) - List.length (shape a))%nat with 1%nat by lia. cbn [skipn andb].
      clear. induction (shape a) as [|d s IH]; [reflexivity|]. cbn [combine forallb fst snd]. rewrite IH.
      unfold dim_fits. rewrite Nat.eqb_refl, orb_true_r. reflexivity. }
    rewrite F. cbn [bind]. eexists; split; [reflexivity|]. split; [|split; [reflexivity|split; [reflexivity|]]].
    + unfold mixture_ok, shape. cbn. auto.
    + intros s i Hs Hi. rewrite !amount_index. cbn [x_c x_q nel].
      destruct (index_of s (x_c a)) as [k|] eqn:Ek; [|apply index_of_none in Ek; contradiction].
      rewrite bidx_cons by (rewrite (index_in_len _ _ Hi), Es; lia).
      rewrite (project_id _ _ Hi). apply fmul_comm.
  - unfold np_op. rewrite H1, np_shape_cons by exact Hl.
    pose proof (proj2 (np_shape_spec _ _ _) Hu) as Hn. rewrite Hn. cbn [bind].
    eexists; split; [reflexivity|]. split; [|split; [reflexivity|split; [reflexivity|]]].
    + unfold mixture_ok, shape. cbn. split; [reflexivity|]. split; [|exact H3].
      intro E. rewrite E in Lu. cbn in Lu. destruct (shape a); [congruence|discriminate].
    + intros s i Hs Hi. rewrite !amount_index. cbn [x_c x_q nel].
      destruct (index_of s (x_c a)) as [k|] eqn:Ek; [|apply index_of_none in Ek; contradiction].
      pose proof (index_in_len _ _ Hi) as Li.
      rewrite (bidx_cons (nsh b')) by lia. rewrite (bidx_project (_ :: shape a)) by (cbn [List.length]; lia). cbn [project].
      destruct (index_of_some _ _ _ Ek) as [Hk _].
      destruct (Nat.eqb_spec (List.length (x_c a)) 1); [replace k with 0%nat by lia|]; reflexivity.
Qed.

Lemma ones_broadcast t : t <> [] -> numpy_broadcast [1%nat] t t.
Proof.
  intro H. apply numpy_sym. apply numpy_ones; [|destruct t; [congruence|cbn; lia]|reflexivity].
  intros d [<-|[]]; reflexivity.
Qed.

Lemma scale_number a k : mixture_ok a -> exists c, mul a (scalar k) = Ok c /\ mixture_ok c /\
  x_c c = x_c a /\ shape c = shape a /\
  forall s i, index_in (shape a) i -> amount c s i = fmul (Some k) (amount a s i).
Proof.
  intro Ha. destruct (imul_amounts a (scalar k) Ha) with (u := shape a) as (c & C1 & C2 & C3 & C4 & C5).
  - cbn. destruct Ha as (_ & H & _). destruct (shape a); [congruence|cbn; lia].
  - cbn. apply ones_broadcast. apply Ha.
  - exists c. repeat split; auto; try apply C2. intros s i Hi.
    destruct (in_dec String.string_dec s (x_c a)) as [Hs|Hs].
    + rewrite (C5 s i Hs Hi), (project_id _ _ Hi). reflexivity.
    + rewrite !amount_absent; [cbn; f_equal; lra|exact Hs|now rewrite C3].
Qed.

Lemma scale_array a b u : mixture_ok a -> nsh b <> [] -> List.length (nsh b) = List.length (shape a) ->
  numpy_broadcast (nsh b) (shape a) u ->
  exists c, mul a b = Ok c /\ mixture_ok c /\ x_c c = x_c a /\ shape c = u /\
  forall s i, In s (x_c a) -> index_in u i ->
    amount c s i = fmul (nel b (project (nsh b) i)) (amount a s (project (shape a) i)).
Proof.
  intros Ha Hb Hl Hu.
  assert (E : atleast_1d b = b) by (unfold atleast_1d; destruct (nsh b); [congruence|reflexivity]).
  destruct (imul_amounts a b Ha) with (u := u) as (c & C1 & C2 & C3 & C4 & C5).
  - rewrite E; lia.
  - rewrite E; exact Hu.
  - exists c. repeat split; auto; try apply C2. intros s i Hs Hi. rewrite (C5 s i Hs Hi), E.
    rewrite bidx_project; [reflexivity|]. rewrite (index_in_len _ _ Hi). destruct Hu as [Hu _]. lia.
Qed.

Lemma divide_number a k : mixture_ok a -> k <> 0 -> exists c, truediv a (scalar k) = Ok c /\ mixture_ok c /\
  x_c c = x_c a /\ shape c = shape a /\
  forall s i, index_in (shape a) i -> amount c s i = fdiv (amount a s i) (Some k).
Proof.
  intros Ha Hk. unfold truediv. cbn [scalar nsh nel]. destruct (Req_EM_T k 0); [contradiction|].
  assert (E : forall b, nsh b = [] -> (forall i, nel b i = Some (1 / k)) -> imul a b = imul a b) by auto. clear E.
  destruct (scale_number a (1/k) Ha) as (c & C1 & C2 & C3 & C4 & C5).
  exists c. unfold mul in C1.
  assert (EQ : imul a (np_map reciprocal (scalar k)) = imul a (scalar (1/k))).
  { unfold imul, np_map, scalar, atleast_1d. cbn [nsh nel].
    assert (R : reciprocal (Some k) = Some (1/k)) by (cbn; destruct (Req_EM_T k 0); [contradiction|reflexivity]).
    now rewrite R. }
  rewrite EQ. repeat split; auto; try apply C2. intros s i Hi. rewrite (C5 s i Hi).
  destruct (amount a s i); cbn; [|reflexivity]. destruct (Req_EM_T k 0); [contradiction|]. f_equal. field. exact Hk.
Qed.

(* ---- dictionaries ---- *)
Lemma dset_fresh {A} k (v : A) d : ~ In k (map fst d) -> dset k v d = d ++ [(k, v)].
Proof.
  induction d as [|[k' v'] d IH]; cbn; intro H; [reflexivity|].
  destruct (String.eqb_spec k k') as [->|]; [exfalso; apply H; now left|]. rewrite IH; [reflexivity|tauto].
Qed.
Lemma to_dict_map {A} names (f : nat -> A) : NoDup names ->
  to_dict names f = map (fun k => (nth k names "", f k)) (seq 0 (List.length names)).
Proof.
  intro Hnd. unfold to_dict.
  assert (G : forall n, (n <= List.length names)%nat ->
    fold_left (fun d k => dset (nth k names "") (f k) d) (seq 0 n) [] =
    map (fun k => (nth k names "", f k)) (seq 0 n)).
  { induction n as [|n IH]; intro Hn; [reflexivity|].
    rewrite seq_S, fold_left_app, map_app. cbn [fold_left map plus]. rewrite IH by lia.
    apply dset_fresh. rewrite map_map. cbn [fst]. intro H. apply in_map_iff in H.
    destruct H as (j & Ej & Hj). apply in_seq in Hj.
    pose proof (index_of_nth names j Hnd ltac:(lia)) as K1. pose proof (index_of_nth names n Hnd ltac:(lia)) as K2.
    rewrite Ej, K2 in K1. injection K1 as K1. lia. }
  apply G. lia.
Qed.
Lemma to_dict_keys {A} names (f : nat -> A) : NoDup names -> map fst (to_dict names f) = names.
Proof. intro H. rewrite to_dict_map by exact H. rewrite map_map. cbn [fst]. apply seq_nth_map. Qed.
Lemma to_dict_in {A} names (f : nat -> A) s v : NoDup names ->
  (In (s, v) (to_dict names f) <-> exists k, index_of s names = Some k /\ v = f k).
Proof.
  intro Hnd. rewrite to_dict_map by exact Hnd. rewrite in_map_iff. split.
  - intros (k & E & Hk). apply in_seq in Hk. injection E as <- <-. exists k.
    split; [apply index_of_nth; [exact Hnd|lia]|reflexivity].
  - intros (k & Hk & ->). destruct (index_of_some _ _ _ Hk) as [H1 H2]. exists k. split; [now rewrite H2|].
    apply in_seq. lia.
Qed.

(* ---- fractions ---- *)
Lemma fsum_real {A} (f : A -> fl) (g : A -> R) l : (forall x, In x l -> f x = Some (g x)) ->
  fsum f l = Some (rsum g l).
Proof.
  induction l as [|x l IH]; intro H; [reflexivity|]. cbn [fsum rsum]. rewrite H by now left.
  rewrite IH by (intros y Hy; apply H; now right). reflexivity.
Qed.
Lemma rsum_nonneg {A} (g : A -> R) l : (forall x, In x l -> 0 <= g x) -> 0 <= rsum g l.
Proof.
  induction l as [|x l IH]; intro H; cbn; [lra|].
  pose proof (H x (or_introl eq_refl)). pose proof (IH (fun y Hy => H y (or_intror Hy))). lra.
Qed.
Lemma rsum_in_le {A} (g : A -> R) l x : (forall x, In x l -> 0 <= g x) -> In x l -> g x <= rsum g l.
Proof.
  induction l as [|y l IH]; intros H Hx; [contradiction|]. cbn.
  pose proof (H y (or_introl eq_refl)). pose proof (rsum_nonneg g l (fun z Hz => H z (or_intror Hz))).
  destruct Hx as [->|Hx]; [lra|]. pose proof (IH (fun z Hz => H z (or_intror Hz)) Hx). lra.
Qed.
Lemma rsum_scale {A} (g : A -> R) c l : rsum (fun x => g x / c) l = rsum g l / c.
Proof. induction l as [|x l IH]; cbn; [unfold Rdiv; ring|]. rewrite IH. unfold Rdiv. ring. Qed.
Lemma rsum_mul {A} (g : A -> R) c l : rsum (fun x => g x * c) l = rsum g l * c.
Proof. induction l as [|x l IH]; cbn; [ring|]. rewrite IH. ring. Qed.
Lemma rsum_ext {A} (f g : A -> R) l : (forall x, In x l -> f x = g x) -> rsum f l = rsum g l.
Proof. induction l as [|x l IH]; intro H; cbn; [reflexivity|]. rewrite H by now left. f_equal. apply IH. intros y Hy; apply H; now right. Qed.

Lemma total_known m n i : mixture_ok m -> amounts_known m n -> index_in (shape m) i ->
  total m i = Some (rsum (fun s => n s i) (x_c m)).
Proof. intros H K Hi. apply fsum_real. intros s _. now apply K. Qed.

(* any array of amounts over its own totals *)
Lemma over_fractions (m : mix) q (w : string -> list nat -> R) : NoDup (x_c m) ->
  nsh q = List.length (x_c m) :: shape m ->
  (forall s k i, index_of s (x_c m) = Some k -> index_in (shape m) i -> nel q (k :: i) = Some (w s i)) ->
  let D := to_dict (x_c m) (row (over q (sum_rows q))) in
  map fst D = x_c m /\
  (forall s x, In (s, x) D -> nsh x = shape m) /\
  forall i, index_in (shape m) i -> (forall s, In s (x_c m) -> 0 <= w s i) ->
    0 < rsum (fun s => w s i) (x_c m) ->
    (forall s x, In (s, x) D -> exists v, nel x i = Some v /\ 0 <= v <= 1 /\
        v * rsum (fun s => w s i) (x_c m) = w s i) /\
    fsum (fun p => nel (snd p) i) D = Some 1.
Proof.
  intros Hnd Hq Hw D. split; [now apply to_dict_keys|]. split.
  - intros s x Hx. apply to_dict_in in Hx; [|exact Hnd]. destruct Hx as (k & _ & ->). cbn. rewrite Hq. reflexivity.
  - intros i Hi Hpos Htot.
    assert (T : nel (sum_rows q) i = Some (rsum (fun s => w s i) (x_c m))).
    { cbn [sum_rows nel]. rewrite fold_fadd, fadd_0_l, Hq. cbn [hd].
      rewrite <- (fsum_real (fun s => match index_of s (x_c m) with Some k => nel q (k :: i) | None => Some 0 end)).
      - rewrite <- (seq_nth_map (x_c m)) at 2. rewrite fsum_map. apply fsum_ext.
        intros k Hk. apply in_seq in Hk. rewrite index_of_nth; [reflexivity|exact Hnd|lia].
      - intros s Hs. destruct (index_of s (x_c m)) as [k|] eqn:Ek; [now apply Hw|].
        apply index_of_none in Ek. contradiction. }
    assert (V : forall s k, index_of s (x_c m) = Some k ->
       nel (row (over q (sum_rows q)) k) i = Some (w s i / rsum (fun s => w s i) (x_c m))).
    { intros s k Hk. cbn [row over nel tl]. rewrite T, (Hw s k i Hk Hi). cbn [fdiv].
      destruct (Req_EM_T (rsum (fun s => w s i) (x_c m)) 0); [lra|reflexivity]. }
    split.
    + intros s x Hx. apply to_dict_in in Hx; [|exact Hnd]. destruct Hx as (k & Hk & ->).
      exists (w s i / rsum (fun s => w s i) (x_c m)). split; [now apply V|].
      destruct (index_of_some _ _ _ Hk) as [Hk1 Hk2].
      assert (Hs : In s (x_c m)) by (rewrite <- Hk2; now apply nth_In).
      pose proof (Hpos s Hs). pose proof (rsum_in_le (fun s => w s i) (x_c m) s Hpos Hs) as Hle. cbn in Hle.
      split; [|field; lra]. split.
      * apply Rmult_le_pos; [lra|]. left. now apply Rinv_0_lt_compat.
      * apply Rmult_le_reg_r with (rsum (fun s => w s i) (x_c m)); [exact Htot|].
        replace (w s i / rsum (fun s => w s i) (x_c m) * rsum (fun s => w s i) (x_c m)) with (w s i) by (field; lra). lra.
    + unfold D. rewrite to_dict_map by exact Hnd. rewrite fsum_map. cbn [snd].
      rewrite (fsum_real _ (fun k => w (nth k (x_c m) "") i / rsum (fun s => w s i) (x_c m))).
      * f_equal. rewrite (rsum_scale (fun k => w (nth k (x_c m) "") i)).
        assert (E : forall c (h : string -> R), rsum (fun k => h (nth k c "")) (seq 0 (List.length c)) = rsum h c).
        { intros c h. rewrite <- (seq_nth_map c) at 2. clear. induction (seq 0 (List.length c)) as [|k l IH]; cbn; [reflexivity|]. now rewrite IH. }
        rewrite (E (x_c m) (fun s => w s i)). field. lra.
      * intros k Hk. apply in_seq in Hk. apply V. apply index_of_nth; [exact Hnd|lia].
Qed.

Lemma amount_row m n s k i : amounts_known m n -> index_of s (x_c m) = Some k -> index_in (shape m) i ->
  nel (x_q m) (k :: i) = Some (n s i).
Proof. intros K Hk Hi. rewrite <- (K s i Hi), amount_index, Hk. reflexivity. Qed.

Lemma X_fractions m n : mixture_ok m -> amounts_known m n ->
  map fst (X m) = x_c m /\ (forall s x, In (s, x) (X m) -> nsh x = shape m) /\
  forall i, index_in (shape m) i -> (forall s, In s (x_c m) -> 0 <= n s i) ->
    0 < rsum (fun s => n s i) (x_c m) ->
    (forall s x, In (s, x) (X m) -> exists v, nel x i = Some v /\ 0 <= v <= 1 /\
        v * rsum (fun s => n s i) (x_c m) = n s i) /\
    fsum (fun p => nel (snd p) i) (X m) = Some 1.
Proof.
  intros (H1 & H2 & H3) K. apply (over_fractions m (x_q m) n H3 H1).
  intros s k i Hk Hi. now apply amount_row.
Qed.

(* ---- molecular weights in the configured units ---- *)
Lemma mass_not_molar st u k : si st QMass u = Some k -> si st QMolar u = None.
Proof.
  intro H. unfold si in H. apply dget_some_in in H. cbn in H.
  repeat (destruct H as [H|H]; [injection H; intros _ <-; reflexivity|]). contradiction.
Qed.

Section Mw.
  Context (E : env) (um un : string) (km kn : R) (Hs : positive_setup (e_setup E)).
  Context (Hum : dget "unit_mass" (e_cfg E) = Some um) (Hkm : si (e_setup E) QMass um = Some km).
  Context (Hun : dget "unit_molar" (e_cfg E) = Some un) (Hkn : si (e_setup E) QMolar un = Some kn).

  Lemma m_mw_value g : m_mw g E = Ok (g_mw g * (kn / km)).
  Proof.
    assert (0 < km) by (eapply si_pos; eauto). assert (0 < kn) by (eapply si_pos; eauto). unfold m_mw.
    rewrite (convert_resolved (e_setup E) QMass (e_cfg E) _ (Some "g") None None "g" um) by (auto; reflexivity).
    rewrite (convert_spec (e_setup E) QMass _ _ "g" um None (1/1000) km) by (auto; reflexivity). cbn [bind].
    rewrite (convert_resolved (e_setup E) QMolar (e_cfg E) _ (Some "mol") None (Some (-1)%Z) "mol" un) by (auto; reflexivity).
    rewrite (convert_spec (e_setup E) QMolar _ _ "mol" un (Some (-1)%Z) (1/1000) kn) by (auto; reflexivity).
    cbn [effective_exponent Z.eqb]. rewrite zpow_1, zpow_m1. f_equal. field. lra.
  Qed.

  Lemma user_mws_value P names :
    user_mws P E names = Ok (map (fun s => g_mw (gas_of P s) * (kn / km)) names).
  Proof. induction names as [|s l IH]; cbn [user_mws]; [reflexivity|]. rewrite m_mw_value. cbn [bind]. now rewrite IH. Qed.

  (* factor used to turn kmol into the configured unit of mass *)
  Lemma kmol_to_mass g : 0 < g_mw g -> forall a,
    nd_matter E g a (Some "kmol") (Some um) = Ok (np_map (fmul (Some (g_mw g * (kn / km) / km))) a).
  Proof.
    intros Hg a. assert (0 < km) by (eapply si_pos; eauto). assert (0 < kn) by (eapply si_pos; eauto).
    unfold nd_matter. rewrite m_mw_value. cbn [bind].
    assert (Hp : 0 < g_mw g * (kn / km)) by (apply Rmult_lt_0_compat; [exact Hg|]; apply Rdiv_lt_0_compat; assumption).
    assert (Hk : kmoles (e_setup E) (g_mw g * (kn / km)) um = Some (km / (g_mw g * (kn / km)))).
    { unfold kmoles. rewrite Hkm.
      now rewrite (mass_not_molar _ _ _ Hkm). }
    rewrite (matter_spec _ _ _ _ "kmol" um None 1 _ Hs Hp eq_refl Hk). cbn [bind effective_exponent].
    rewrite zpow_1. do 3 f_equal. f_equal. field. repeat split; lra.
  Qed.

  Lemma Y_fractions P m n : mixture_ok m -> amounts_known m n -> (forall s, In s (x_c m) -> 0 < mw_of P s) ->
    exists Ys, Y P E m = Ok Ys /\ map fst Ys = x_c m /\ (forall s x, In (s, x) Ys -> nsh x = shape m) /\
    forall i, index_in (shape m) i -> (forall s, In s (x_c m) -> 0 <= n s i) ->
      0 < rsum (fun s => n s i) (x_c m) ->
      (forall s y, In (s, y) Ys -> exists v, nel y i = Some v /\ 0 <= v <= 1 /\
          v * rsum (fun s => n s i * mw_of P s) (x_c m) = n s i * mw_of P s) /\
      fsum (fun p => nel (snd p) i) Ys = Some 1.
  Proof.
    intros (H1 & H2 & H3) K Hmw. assert (0 < km) by (eapply si_pos; eauto). assert (0 < kn) by (eapply si_pos; eauto).
    unfold Y. rewrite user_mws_value. cbn [bind]. eexists; split; [reflexivity|].
    set (q := weigh _ _).
    assert (Q := over_fractions m q (fun s i => n s i * (mw_of P s * (kn / km))) H3 H1).
    destruct Q as (Q1 & Q2 & Q3).
    { intros s k i Hk Hi. unfold q. cbn [weigh nel hd]. rewrite (amount_row m n s k i K Hk Hi).
      destruct (index_of_some _ _ _ Hk) as [Hk1 Hk2].
      rewrite (nth_indep _ 0 (g_mw (gas_of P "") * (kn / km))) by (rewrite map_length; exact Hk1).
      rewrite (map_nth (fun s => g_mw (gas_of P s) * (kn / km)) (x_c m) "" k), Hk2. cbn [fmul lift2].
      assert (G : forall s, g_mw (gas_of P s) = mw_of P s).
      { intro t. unfold gas_of, mw_of. destruct (dget t P); reflexivity. }
      now rewrite G. }
    split; [exact Q1|]. split; [exact Q2|]. intros i Hi Hpos Htot.
    assert (Hr : 0 < kn / km) by (apply Rdiv_lt_0_compat; assumption).
    assert (S : rsum (fun s => n s i * (mw_of P s * (kn / km))) (x_c m)
                = rsum (fun s => n s i * mw_of P s) (x_c m) * (kn / km)).
    { rewrite <- rsum_mul. apply rsum_ext. intros; ring. }
    assert (Hsum : 0 < rsum (fun s => n s i * mw_of P s) (x_c m)).
    { clear -Hpos Htot Hmw. induction (x_c m) as [|s l IH]; cbn in *; [lra|].
      pose proof (Hpos s (or_introl eq_refl)) as P1. pose proof (Hmw s (or_introl eq_refl)) as P2.
      assert (0 <= n s i * mw_of P s) by (apply Rmult_le_pos; lra).
      assert (Q : 0 <= rsum (fun s => n s i * mw_of P s) l).
      { apply rsum_nonneg. intros t Ht. apply Rmult_le_pos; [apply Hpos; now right|].
        left. apply Hmw. now right. }
      destruct (Rle_lt_dec (n s i) 0) as [Hz|Hz].
      - assert (0 < rsum (fun s => n s i * mw_of P s) l).
        { apply IH; intros; [apply Hmw|apply Hpos|lra]; now right. }
        lra.
      - assert (0 < n s i * mw_of P s) by (apply Rmult_lt_0_compat; lra). lra. }
    destruct (Q3 i Hi) as [A B].
    - intros s Hs'. apply Rmult_le_pos; [auto|]. left. apply Rmult_lt_0_compat; auto.
    - rewrite S. apply Rmult_lt_0_compat; assumption.
    - split; [|exact B]. intros s y Hy. destruct (A s y Hy) as (v & V1 & V2 & V3).
      exists v. split; [exact V1|]. split; [exact V2|]. rewrite S in V3.
      apply Rmult_eq_reg_r with (kn / km); [|lra]. lra.
  Qed.

  (* the code's mass(): right only when the units of mass and of molar amount match *)
  Lemma mass_value P m n : mixture_ok m -> amounts_known m n -> (forall s, In s (x_c m) -> 0 < mw_of P s) ->
    exists a, mass P E m = Ok a /\ nsh a = shape m /\ forall i, index_in (shape m) i ->
      exists v, nel a i = Some v /\ v * km * (km / kn) = rsum (fun s => n s i * mw_of P s) (x_c m).
  Proof.
    intros Hok K Hmw. assert (0 < km) by (eapply si_pos; eauto). assert (0 < kn) by (eapply si_pos; eauto).
    assert (G : forall s, g_mw (gas_of P s) = mw_of P s).
    { intro t. unfold gas_of, mw_of. destruct (dget t P); reflexivity. }
    unfold mass. unfold cfg_get. rewrite Hum. cbn [bind].
    assert (L : forall names k tot, nsh tot = shape m ->
       (forall s, In s names -> 0 < mw_of P s) ->
       exists a, mass_loop P E um names (x_q m) k tot = Ok a /\ nsh a = shape m /\
         forall i, nel a i = fadd (nel tot i)
           (fsum (fun p => fmul (Some (mw_of P (snd p) * (kn / km) / km)) (nel (x_q m) (fst p :: i)))
              (combine (seq k (List.length names)) names))).
    { induction names as [|s names IH]; intros k tot Ht Hm; cbn [mass_loop].
      - exists tot. repeat split; auto. intro i. cbn. now rewrite fadd_0_r.
      - rewrite (kmol_to_mass (gas_of P s)) by (rewrite G; apply Hm; now left). cbn [bind].
        destruct (IH (S k) {| nsh := nsh tot; nel := fun i => fadd (nel tot i)
            (nel (np_map (fmul (Some (g_mw (gas_of P s) * (kn / km) / km))) (row (x_q m) k)) i) |} Ht
            (fun t Ht' => Hm t (or_intror Ht'))) as (a & A1 & A2 & A3).
        exists a. split; [exact A1|]. split; [exact A2|]. intro i. rewrite A3.
        cbn [nel np_map row seq List.length combine fsum fst snd]. rewrite G. now rewrite fadd_assoc. }
    destruct (L (x_c m) 0%nat {| nsh := shape m; nel := fun _ => Some 0 |} eq_refl Hmw) as (a & A1 & A2 & A3).
    exists a. split; [exact A1|]. split; [exact A2|]. intros i Hi. rewrite A3. cbn [nel]. rewrite fadd_0_l.
    destruct Hok as (H1 & H2 & H3).
    assert (F : forall c (h : nat -> string -> R), fsum (fun p => Some (h (fst p) (snd p))) (combine (seq 0 (List.length c)) c)
        = Some (rsum (fun p => h (fst p) (snd p)) (combine (seq 0 (List.length c)) c))).
    { intros. apply fsum_real. reflexivity. }
    rewrite (fsum_ext _ (fun p => Some (n (snd p) i * (mw_of P (snd p) * (kn / km) / km)))).
    - rewrite (F (x_c m) (fun _ s => n s i * (mw_of P s * (kn / km) / km))). eexists; split; [reflexivity|].
      assert (C : forall c k (h : string -> R), rsum (fun p : nat * string => h (snd p)) (combine (seq k (List.length c)) c) = rsum h c).
      { induction c as [|s c IH]; intros k h; cbn; [reflexivity|]. now rewrite IH. }
      rewrite (C (x_c m) 0%nat (fun s => n s i * (mw_of P s * (kn / km) / km))).
      rewrite (rsum_ext _ (fun s => n s i * mw_of P s * (kn / km / km))) by (intros; field; lra).
      rewrite (rsum_mul (fun s => n s i * mw_of P s)). field. lra.
    - intros [k s] Hp. cbn [fst snd].
      assert (Hk : index_of s (x_c m) = Some k).
      { assert (forall (c : list string) (j:nat) k s, In (k, s) (combine (seq j (List.length c)) c) -> exists r, k = (j + r)%nat /\ (r < List.length c)%nat /\ nth r c "" = s) as Q.
        { clear. induction c as [|x c IH]; intros j k s Hin; cbn in Hin; [contradiction|].
          destruct Hin as [E|Hin].
          - injection E as <- <-. exists 0%nat. cbn. repeat split; lia.
          - destruct (IH (S j) k s Hin) as (r & -> & R1 & R2). exists (S r). cbn. repeat split; [lia|lia|exact R2]. }
        destruct (Q _ _ _ _ Hp) as (r & -> & R1 & R2). cbn [plus]. rewrite <- R2. now apply index_of_nth. }
      rewrite (amount_row m n s k i K Hk Hi). cbn. f_equal. ring.
  Qed.

  Lemma molar_value m n : mixture_ok m -> amounts_known m n ->
    exists a, molar E m = Ok a /\ nsh a = shape m /\ forall i, index_in (shape m) i ->
      exists v, nel a i = Some v /\ v * kn = rsum (fun s => n s i) (x_c m).
  Proof.
    intros Hok K. assert (0 < kn) by (eapply si_pos; eauto). unfold molar.
    rewrite (convert_resolved (e_setup E) QMolar (e_cfg E) _ (Some "kmol") None None "kmol" un) by (auto; reflexivity).
    rewrite (convert_spec (e_setup E) QMolar _ _ "kmol" un None 1 kn) by (auto; reflexivity). cbn [bind].
    eexists; split; [reflexivity|]. split; [reflexivity|]. intros i Hi. cbn [np_map nel].
    change (fold_left (fun acc k => fadd acc (nel (x_q m) (k :: i))) (seq 0 (hd 0%nat (nsh (x_q m)))) (Some 0))
      with (nel (sum_rows (x_q m)) i).
    rewrite (sum_rows_total m i Hok), (total_known m n i Hok K Hi). cbn [fmul lift2].
    eexists; split; [reflexivity|]. cbn [effective_exponent]. rewrite zpow_1. field. lra.
  Qed.
End Mw.

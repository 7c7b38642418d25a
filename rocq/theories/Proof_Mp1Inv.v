(* The searches of the multi-phase class (C79, C81). *)
From Coq Require Import Reals Ranalysis5 ZArith List String Bool Lia Lra.
From Verif Require Import Base Model_Num Model_Units Model_Defaults Model_Igas Spec_Units Proof_Units Spec_Igas Proof_Igas
  Proof_IgasUnits Proof_IgasArgs Proof_IgasCalls Proof_IgasArr Proof_IgasAcc.
From Verif Require Import Proof_Jets Model_Hybrid Spec_Hybrid Proof_Hybrid.
From Verif Require Import Model_Mp1Calls Model_Mp1Warn Spec_Mp1 Spec_Mp1Calls Spec_Mp1Inv Proof_Mp1Units Proof_Mp1Poly Proof_Mp1Helm Proof_Mp1Res
  Proof_Mp1Props Proof_Mp1Thm Proof_Mp1Sat Proof_Mp1Args Proof_Mp1Calls Proof_Mp1Mix Proof_Mp1SatApi Proof_Mp1Hsd Proof_Mp1Alone.
Import ListNotations.
Local Open Scope R_scope.
Local Open Scope string_scope.
Local Open Scope list_scope.

Lemma hybrid_elem ep N oob es xs i e f a b y : 0 <= ep ->
  hybrid1 true ep N oob es = Ok (xs, false) -> nth_error es i = Some e -> e_sel e = true -> problem e f a b y ->
  (bracketed f a b y -> exists v, nth_error xs i = Some (Fin v) /\ solves f a b y ep v) /\
  (~ bracketed f a b y -> nth_error xs i = Some oob).
Proof.
  intros Hep H Ne Se P.
  destruct (result_sound true ep N oob es xs false i e f a b y Hep H Ne) as (_ & _ & R).
  destruct (R Se P) as [R1 R2]. clear R. split; [|exact R1].
  intro B. destruct (R2 B) as (v & Nv & Rv & _). exists v. split; [exact Nv|]. split; [exact Rv|].
  unfold hybrid1 in H. destruct (existsb e_sel es && _)%bool; [discriminate|]. injection H as Hx Hw.
  rewrite <- Hx in Nv. rewrite (nth_map_some _ _ _ _ Ne), Se in Nv.
  assert (NB : not_bracketed e = false) by (apply (bracket_iff e f a b y P); exact B).
  rewrite NB in Nv.
  destruct (final_bracket e f a b y true ep N P Hep B) as (lo & hi & v' & _ & _ & X & L1 & L2 & L3 & L4 & L5 & L6).
  rewrite X in Nv. injection Nv as ->.
  assert (HS : h_sel (solve_elem true ep N e) = false).
  { destruct (h_sel (solve_elem true ep N e)) eqn:Q; [|reflexivity]. exfalso.
    enough (existsb (fun e => e_sel e && negb (not_bracketed e) && h_sel (solve_elem true ep N e)) es = true)%bool by congruence.
    apply existsb_exists. exists e. split; [now apply nth_error_In in Ne|]. now rewrite Se, NB, Q. }
  destruct (L6 HS) as [K|K]; [left; exact K|right]. exists lo, hi. auto 8.
Qed.

Lemma traverse_nth {A B} (f : A -> res B) l bs i a : traverse f l = Ok bs -> nth_error l i = Some a ->
  exists b, f a = Ok b /\ nth_error bs i = Some b.
Proof.
  revert bs i. induction l as [|x l IH]; intros bs i H N; [destruct i; discriminate|].
  cbn [traverse] in H. destruct (f x) as [b|] eqn:F; [|discriminate]. cbn [bind] in H.
  destruct (traverse f l) as [bs'|] eqn:T; [|discriminate]. cbn [bind] in H. injection H as <-.
  destruct i as [|i]; [injection N as <-; eauto|]. cbn in N. destruct (IH bs' i eq_refl N) as (b' & H1 & H2). eauto.
Qed.

(* broadcasting a third argument with one element *)
Lemma broadcast3_scalar a b l c i x y : broadcast2 a b = Ok l -> nth_error l i = Some (x, y) ->
  exists l3, broadcast3 a b [c] = Ok l3 /\ nth_error l3 i = Some (x, y, c).
Proof.
  unfold broadcast2, broadcast3. destruct (broadcast a b) as [[[[a' b'] s1] s2]|] eqn:B; [|discriminate]. cbn [bind].
  intros H N. injection H as <-.
  assert (L : List.length a' = List.length b').
  { revert B. clear. unfold broadcast. destruct (Nat.eqb_spec (List.length a) (List.length b)).
    - intro H. injection H as <- <- _ _. assumption.
    - destruct a as [|a1 [|a2 a]], b as [|b1 [|b2 b]]; intro H; try discriminate; injection H as <- <- _ _; cbn; rewrite ?repeat_length; auto. }
  apply combine_nth_inv in N. destruct N as [N1 N2].
  destruct a' as [|a1 [|a2 a']], b' as [|b1 [|b2 b']]; try discriminate L.
  - destruct i; discriminate.
  - cbn. destruct i as [|i]; [|destruct i; discriminate]. injection N1 as ->. injection N2 as ->. eexists. split; reflexivity.
  - unfold broadcast at 1. cbn [List.length Nat.eqb bind]. unfold broadcast.
    match goal with |- context [repeat c ?n] => assert (R : List.length (repeat c n) = List.length (b1 :: b2 :: b')) by (rewrite repeat_length; cbn; cbn in L; lia) end.
    rewrite <- R, Nat.eqb_refl. cbn [bind]. eexists. split; [reflexivity|].
    apply nth_combine; [now apply nth_combine|].
    apply nth_error_repeat. change (i < List.length (a1 :: a2 :: a'))%nat. apply nth_error_Some. congruence.
Qed.

Section Pairs.
  Variables (D : mpdata) (E : env) (fuel : nat) (z : sizes).
  Hypothesis Z : mp_sizes D E z.
  Local Notation kg := (kgs D (z_kM z)).

  (* a call with two arguments *)
  Lemma pair_args varg kw i n1 r1 n2 r2 : state_pair varg kw i n1 r1 n2 r2 ->
    exists a b, Spec_Igas.elem a i = Some (Some r1) /\ Spec_Igas.elem b i = Some (Some r2) /\
      dget n1 (supplied varg kw) = Some a /\ dget n2 (supplied varg kw) = Some b /\
      (forall k, k <> n1 -> k <> n2 -> dget k (supplied varg kw) = None) /\
      (List.length a = List.length b \/ List.length a = 1%nat \/ List.length b = 1%nat) /\
      (i < Nat.max (List.length a) (List.length b))%nat /\
      mp_argparse D E fuel varg kw = (do x <- si_args D E (supplied varg kw); from_args D E fuel x) /\
      call_warns D E fuel varg kw = (do x <- si_args D E (supplied varg kw); args_warns D E fuel x).
  Proof.
    intros (Hn & Ha & Hr & L & Hne & (a & Ia & Ea) & (b & Ib & Eb)). exists a, b.
    split; [exact Ea|]. split; [exact Eb|].
    assert (ND : NoDup (dkeys (supplied varg kw))) by (destruct Ha as (_ & H & _); exact H).
    assert (I1 : In n1 (map fst (supplied varg kw))) by (apply (in_map fst) in Ia; exact Ia).
    assert (I2 : In n2 (map fst (supplied varg kw))) by (apply (in_map fst) in Ib; exact Ib).
    split; [now apply dget_in_nodup|]. split; [now apply dget_in_nodup|].
    split; [intros k K1 K2; now apply (absent varg kw n1 n2 k)|].
    destruct (sizes_of varg kw n1 a n2 b i L Hne Ia Ib Hr) as [Hc Hi].
    split; [exact Hc|]. split; [exact Hi|]. split; [apply argparse_supplied; auto; lia|].
    unfold call_warns. pose proof (acceptable_names _ _ Ha) as N.
    destruct Ha as (Hv & Hnd & _). rewrite (positional_ok _ _ Hn Hv Hnd). cbn [bind].
    assert (defaults E (supplied varg kw) = Ok (supplied varg kw)) as ->.
    { unfold defaults. rewrite L. reflexivity. }
    cbn [bind]. destruct (mp_rules_spec (supplied varg kw)) as [[K _]|[_ K]]; [rewrite K; reflexivity|contradiction].
  Qed.

  Lemma argparse_Tp varg kw i t T q p : state_pair varg kw i "T" t "p" q -> kelvin_is E t T -> pressure_is z q p ->
    in_range (mp_Tlim D) T -> in_range (mp_plim D) p ->
    exists l, nth_error l i = Some (Some T, Some p, Some (-1)) /\
      mp_argparse D E fuel varg kw = from_Tpx D E fuel l /\
      call_warns D E fuel varg kw = d_warns D E fuel (map (fun e => let '(T, p, x) := e in (flt x (num 0), T, p, num 0)) l).
  Proof.
    intros S Kt Kp HT Hp.
    destruct (pair_args _ _ _ _ _ _ _ S) as (a & b & Ea & Eb & Ga & Gb & A & Hc & Hi & -> & ->).
    rewrite (si_args_val _ _ _ _ _ _ _ _ Z). rewrite Ga, Gb.
    rewrite (A "d"), (A "v"), (A "x"), (A "h"), (A "e"), (A "s") by discriminate.
    cbn [ores bind].
    assert (K1 : T = to_kelvin (z_T z) t) by (apply (tscale_K _ _ _ _ _ _ _ _ Z); exact Kt). subst T.
    unfold pressure_is in Kp.
    destruct (elem_nth_in a i _ Ea) as [j Ej]. destruct (elem_nth_in b i _ Eb) as [k Ek].
    destruct (limited_ok E (mp_Tlim D) (gT (z_T z) a) j (to_kelvin (z_T z) t)) as [LT LT2];
      [unfold gT; exact (nth_map_some (lift1 (to_kelvin (z_T z))) _ _ _ Ej)|exact HT|].
    destruct (limited_ok E (mp_plim D) (gP (z_kP z) b) k p) as [LP LP2];
      [unfold gP; rewrite (nth_map_some (fmul (Some (z_kP z))) _ _ _ Ek); cbn; do 2 f_equal; rewrite <- Kp; ring|exact Hp|].
    rewrite LT. cbn [bind]. rewrite LP. cbn [bind option_map].
    unfold from_args, args_warns. cbn [a_inv a_T a_p a_d a_x].
    unfold gT, gP. rewrite !map_map.
    match goal with |- context [broadcast3 (map ?f a) (map ?g b)] =>
      destruct (broadcast2_at f g a b i (Some t) (Some q) Ea Eb Hc Hi) as (l & BL & NL) end.
    cbn [lift1 fmul lift2] in NL. cbn [lift1] in LT2. rewrite LT2 in NL.
    replace (z_kP z * q) with p in NL by (rewrite <- Kp; ring). rewrite LP2 in NL.
    destruct (broadcast3_scalar _ _ _ (num (-1)) _ _ _ BL NL) as (l3 & B3 & N3).
    rewrite B3. cbn [bind]. exists l3. split; [exact N3|]. split; reflexivity.
  Qed.

  Lemma kP_pos : 0 < z_kP z.
  Proof. destruct Z as [? ? ? ? ? (u & _ & H) _ _ _]. apply (si_pos _ _ _ _ uk_setup H). Qed.
  Lemma mm_p_val varg kw : mm_p D E fuel varg kw =
    do l <- mp_argparse D E fuel varg kw;
    Ok (map (fmul (Some (/ z_kP z))) (map (fun s => value0 (mp_p D (map (fun s => (s_T s, s_d2 s)) l) (s_T s) (s_d2 s) 0%nat)) l), map s_x l).
  Proof.
    unfold mm_p, method. destruct (mp_argparse _ _ _ _ _) as [l|]; [|reflexivity]. cbn [bind]. unfold aconvert.
    pose proof kP_pos. rewrite (of_si _ _ _ _ _ _ _ _ Z QPressure 1 "Pa" 1 None I eq_refl). cbn [bind effective_exponent ksize].
    rewrite zpow_1. replace (1 * (1 / z_kP z)) with (/ z_kP z) by (field; lra). reflexivity.
  Qed.
  Lemma mm_T_val varg kw : mm_T D E fuel varg kw =
    do l <- mp_argparse D E fuel varg kw; Ok (map (lift1 (from_kelvin (z_T z))) (map s_T l), map s_x l).
  Proof.
    unfold mm_T, method. destruct (mp_argparse _ _ _ _ _) as [l|]; [|reflexivity]. cbn [bind].
    rewrite (atscale_from _ _ _ _ _ _ _ _ Z). reflexivity.
  Qed.
End Pairs.

Lemma fle_true a b : a <= b -> fle (Some a) (Some b) = true.
Proof. intro H. cbn. destruct (Rle_dec a b); [reflexivity|contradiction]. Qed.
Lemma fle_false a b : b < a -> fle (Some a) (Some b) = false.
Proof. intro H. cbn. destruct (Rle_dec a b); [lra|reflexivity]. Qed.

Lemma crossing f a b y : (forall x, a <= x <= b -> continuity_pt f x) -> a <= b ->
  f a <= y <= f b \/ f b <= y <= f a -> exists r, a <= r <= b /\ f r = y.
Proof.
  intros C L H. destruct (Req_dec (f a) y) as [E1|N1]; [exists a; split; [lra|exact E1]|].
  destruct (Req_dec (f b) y) as [E2|N2]; [exists b; split; [lra|exact E2]|].
  destruct (Req_dec a b) as [->|NE]; [lra|].
  destruct H as [H|H].
  - destruct (IVT_interv (fun x => f x - y) a b) as (r & Hr & Er); try lra.
    + intros x Hx. apply continuity_pt_minus; [now apply C|]. apply continuity_pt_const. intros ? ?. reflexivity.
    + exists r. split; [lra|lra].
  - destruct (IVT_interv (fun x => y - f x) a b) as (r & Hr & Er); try lra.
    + intros x Hx. apply continuity_pt_minus; [|now apply C]. apply continuity_pt_const. intros ? ?. reflexivity.
    + exists r. split; [lra|lra].
Qed.
Lemma solves_found f a b y ep v : 0 <= ep -> (forall x, a <= x <= b -> continuity_pt f x) -> solves f a b y ep v -> found f a b y ep v.
Proof.
  intros Hep C [Hv [H|(lo & hi & L1 & L2 & L3 & Ev & W & B)]]; (split; [exact Hv|]); [left; exact H|right].
  destruct (crossing f lo hi y) as (r & Hr & Er); [intros x Hx; apply C; lra|exact L2|exact B|].
  exists r. split; [lra|]. split; [exact Er|]. unfold Rabs at 1. destruct (Rcase_abs (r - v)); destruct Ev; subst; lra.
Qed.

Section Density.
  Variables (D : mpdata) (E : env) (fuel : nat) (z : sizes).
  Hypothesis Z : mp_sizes D E z.
  Hypothesis WF : mp_wf D.
  Local Notation kg := (kgs D (z_kM z)).
  Let kVp : 0 < z_kV z := kV_pos _ _ _ _ _ _ _ _ Z.
  Let kgp : 0 < kg := kgs_pos _ _ _ _ _ _ _ _ Z.

  (* the pressure, whatever array the state is in *)
  Section AtT.
  Variables (T : R) (P : R -> R).
  Hypothesis HT : 0 < T.
  Hypothesis EV : forall d, 0 < d -> evaluable D T d.
  Hypothesis HP : forall d, 0 < d -> at_state (mp_p D) T d (P d).
  Lemma p_at all d : 0 < d -> fits D all T d -> value0 (mp_p D all (Some T) (Some d) 0) = Some (P d) /\
    exists vT vd, mp_p D all (Some T) (Some d) 1 = (Some (P d), Some vT, Some vd).
  Proof. intros Hd FI. apply (value_at D (mp_p D) T (regular_p D WF) HT); auto. Qed.
  Lemma p_alone d : 0 < d -> value0 (in_p D (Some T) (Some d) 0%nat) = Some (P d).
  Proof. intro Hd. exact (proj1 (p_at _ d Hd (fits_one _ _ _))). Qed.
  Lemma P_continuous d : ar_coef2 (mp_AR D) = None -> 0 < d -> continuity_pt P d.
  Proof.
    intros NC Hd. apply (continuous_at D (mp_p D) T P (regular_p D WF) HT NC HP); [|exact Hd].
    intros x Hx. now destruct (own_all D WF NC [] T x HT Hx) as (_ & _ & Q & _).
  Qed.
  Lemma lower_found p : forall n lo0 da, 0 < lo0 -> d_lower D n (Some T) (Some p) (Some lo0) = Ok da ->
    exists k, da = Some (lo0 / 2 ^ k) /\ P (lo0 / 2 ^ k) <= p /\ (k = 0%nat \/ p < P (2 * (lo0 / 2 ^ k))).
  Proof.
    intros n. induction n as [|n IH]; intros lo0 da H0; cbn [d_lower]; rewrite (p_alone lo0 H0); cbn [flt];
      (destruct (Rlt_dec p (P lo0)) as [L|L]; cbn [flt]).
    - discriminate.
    - intro H. injection H as <-. exists 0%nat. cbn. replace (lo0 / 1) with lo0 by field. split; [reflexivity|]. split; [lra|auto].
    - unfold num. rewrite fdiv_ok by lra. intro H. destruct (IH (lo0 / 2) da ltac:(lra) H) as (k & -> & L1 & L2).
      exists (S k). assert (0 < 2 ^ k) by (apply pow_lt; lra).
      replace (lo0 / 2 ^ S k) with (lo0 / 2 / 2 ^ k) by (cbn [pow]; field; lra). split; [reflexivity|]. split; [exact L1|].
      right. destruct L2 as [->|L2]; [|exact L2]. cbn [pow]. replace (2 * (lo0 / 2 / 1)) with lo0 by field. exact L.
    - intro H. injection H as <-. exists 0%nat. cbn. replace (lo0 / 1) with lo0 by field. split; [reflexivity|]. split; [lra|auto].
  Qed.
  Lemma lower_terminates p lo0 d0 : 0 < lo0 -> 0 < d0 -> (forall d, 0 < d <= d0 -> P d <= p) ->
    exists N, forall n, (N <= n)%nat -> exists da, d_lower D n (Some T) (Some p) (Some lo0) = Ok da.
  Proof.
    intros H0 Hd HS.
    destruct (pow_lt_1_zero (1/2) ltac:(rewrite Rabs_right; lra) (d0 / lo0) ltac:(apply Rdiv_lt_0_compat; lra)) as (N & HN).
    specialize (HN N (le_n _)). exists N. intros n Hn.
    assert (B : lo0 * (1/2) ^ N <= d0).
    { rewrite Rabs_right in HN by (left; apply Rlt_gt, pow_lt; lra). apply Rlt_le.
      apply Rmult_lt_reg_r with (/ lo0); [now apply Rinv_0_lt_compat|]. replace (lo0 * (1/2)^N * / lo0) with ((1/2)^N) by (field; lra). exact HN. }
    clear HN. revert n Hn lo0 H0 B. induction N as [|N IH]; intros n Hn lo0 H0 B.
    - exists (Some lo0). assert (HPl : P lo0 <= p) by (apply HS; cbn in B; lra).
      destruct n; cbn [d_lower]; rewrite (p_alone lo0 H0); rewrite flt_false by exact HPl; reflexivity.
    - destruct n as [|n]; [lia|]. cbn [d_lower]. rewrite (p_alone lo0 H0). cbn [flt].
      destruct (Rlt_dec p (P lo0)); [|eauto]. unfold num. rewrite fdiv_ok by lra. apply IH; [lia|lra|].
      cbn [pow] in B. replace (lo0 / 2 * (1/2)^N) with (lo0 * (1/2 * (1/2)^N)) by field. exact B.
  Qed.
  End AtT.

  Lemma limits_val T p lo hi : 0 < T -> density_limits D T p lo hi -> d_limits D (Some T) (Some p) = (Some lo, Some hi).
  Proof.
    intros HT H. unfold d_limits, num. destruct WF as (_ & _ & _ & _ & _ & _ & _ & HR).
    assert (N : mp_R D * T <> 0) by (apply Rmult_integral_contrapositive; lra).
    destruct H as [(H & -> & ->)|(H & dL & dV & (W1 & W2 & S1 & S2 & -> & ->) & W3 & S3 & [(Hp & -> & ->)|(Hp & -> & ->)])].
    - rewrite fle_true by exact H. cbn [fmul lift2]. rewrite fdiv_ok by exact N. reflexivity.
    - rewrite fle_false by exact H. unfold mp_ps. rewrite (sat_curve_value _ _ W3 S3), flt_true by exact Hp.
      unfold mp_dsv. rewrite (sat_curve_value _ _ W2 S2). cbn [fmul lift2]. rewrite fdiv_ok by exact N. reflexivity.
    - rewrite fle_false by exact H. unfold mp_ps. rewrite (sat_curve_value _ _ W3 S3), flt_false by exact Hp.
      unfold mp_dsl. rewrite (sat_curve_value _ _ W1 S1). reflexivity.
  Qed.

  Theorem Tp_density varg kw i t T q p ys xs : state_pair varg kw i "T" t "p" q -> kelvin_is E t T -> pressure_is z q p ->
    in_range (mp_Tlim D) T -> in_range (mp_plim D) p -> 0 < T ->
    mm_d D E fuel varg kw = Ok (ys, xs) -> evaluated_alone D xs -> call_warns D E fuel varg kw = Ok false ->
    (forall d, 0 < d -> evaluable D T d) ->
    forall P, (forall d, 0 < d -> at_state (mp_p D) T d (P d)) ->
    forall lo0 hi, density_limits D T p lo0 hi -> 0 < lo0 <= hi ->
    nth_error xs i = Some (Some (-1)) /\
    exists k lo, lo = lo0 / 2 ^ k /\ P lo <= p /\ (k = 0%nat \/ p < P (2 * lo)) /\
    (P lo < p < P hi -> exists r d, nth_error ys i = Some (Some r) /\ density_is D z r d /\ solves P lo hi p (1 / 1000000) d /\
       (ar_coef2 (mp_AR D) = None -> found P lo hi p (1 / 1000000) d) /\
       (exists qs q', mm_p D E fuel varg kw = Ok (qs, xs) /\ nth_error qs i = Some (Some q') /\ pressure_is z q' (P d)) /\
       (exists ts t', mm_T D E fuel varg kw = Ok (ts, xs) /\ nth_error ts i = Some (Some t') /\ kelvin_is E t' T)) /\
    (P lo < p -> P hi < p -> e_oob E = None -> nth_error ys i = Some None).
  Proof.
    intros S Kt Kp HTr Hpr HT Hd AL Hw EV P HP lo0 hi HL [H0 H1].
    destruct (argparse_Tp D E fuel z Z _ _ _ _ _ _ _ S Kt Kp HTr Hpr) as (l & Nl & A & W).
    rewrite (mm_d_val D E fuel _ _ _ _ _ _ Z), A in Hd. rewrite W in Hw.
    assert (PP : exists la, from_Tpx D E fuel l = Ok la /\ mm_p D E fuel varg kw = Ok (map (fmul (Some (/ z_kP z))) (map (fun s => value0 (mp_p D (map (fun s => (s_T s, s_d2 s)) la) (s_T s) (s_d2 s) 0%nat)) la), map s_x la)
      /\ mm_T D E fuel varg kw = Ok (map (lift1 (from_kelvin (z_T z))) (map s_T la), map s_x la)).
    { rewrite (mm_p_val D E fuel z Z), (mm_T_val D E fuel z Z), A. destruct (from_Tpx D E fuel l) as [la|]; [|discriminate]. exists la. auto. }
    destruct PP as (la & FA & MP & MT). rewrite FA in Hd. cbn [bind] in Hd. injection Hd as <- <-.
    unfold from_Tpx in FA. unfold d_warns in Hw. unfold mp_d in FA.
    destruct (traverse (d_elem D fuel) _) as [es|] eqn:TR; [|discriminate]. cbn [bind] in FA, Hw.
    destruct (hybrid1 true ep1 50 (xf_of (e_oob E)) es) as [[ds w]|] eqn:HY; [|discriminate]. cbn [bind fst snd] in FA, Hw.
    injection Hw as ->. injection FA as FA.
    pose proof (nth_map_some (fun e : fl * fl * fl => let '(T, p, x) := e in (flt x (num 0), T, p, num 0)) _ _ _ Nl) as Nm.
    cbv beta iota in Nm. unfold num in Nm at 1. rewrite flt_true in Nm by lra.
    destruct (traverse_nth _ _ _ _ _ TR Nm) as (e & Fe & Ne). unfold d_elem in Fe.
    rewrite (limits_val T p lo0 hi HT HL) in Fe.
    destruct (d_lower D fuel (Some T) (Some p) (Some lo0)) as [da|] eqn:DL; [|discriminate]. cbn [bind] in Fe. injection Fe as Fe.
    destruct (lower_found T P HT EV HP p fuel lo0 da H0 DL) as (k & -> & L1 & L2).
    assert (NX : forall x, nth_error ds i = Some x -> nth_error la i = Some {| s_T := Some T; s_d1 := fl_of x; s_d2 := fl_of x; s_x := Some (-1); s_sat := false |}).
    { intros x Nx. rewrite <- FA. pose proof (nth_map_some fl_of _ _ _ Nx) as Nf.
      unfold map2. rewrite (nth_map_some _ _ _ _ (nth_combine _ _ _ _ _ Nl Nf)). cbn [fst snd]. unfold num. rewrite flt_true by lra. reflexivity. }
    assert (LEN : exists x, nth_error ds i = Some x).
    { destruct (nth_error ds i) as [x|] eqn:Q; [eauto|]. exfalso. apply nth_error_None in Q.
      unfold hybrid1 in HY. destruct (existsb e_sel es && _)%bool; [discriminate|]. injection HY as HY _. rewrite <- HY, map_length in Q.
      assert (i < List.length es)%nat by (apply nth_error_Some; congruence). lia. }
    destruct LEN as (x0 & Nx0). specialize (NX _ Nx0).
    split; [exact (nth_map_some s_x _ _ _ NX)|].
    exists k, (lo0 / 2 ^ k). set (lo := lo0 / 2 ^ k) in *.
    assert (P2 : 1 <= 2 ^ k) by (apply pow_R1_Rle; lra).
    assert (Hlo : 0 < lo) by (apply Rdiv_lt_0_compat; lra).
    assert (Hle : lo <= hi).
    { apply Rle_trans with lo0; [|exact H1]. unfold lo, Rdiv. rewrite <- (Rmult_1_r lo0) at 2. apply Rmult_le_compat_l; [lra|].
      assert (/ 2 ^ k <= / 1) by (apply Rinv_le_contravar; lra). rewrite Rinv_1 in *. assumption. }
    split; [reflexivity|]. split; [exact L1|]. split; [exact L2|].
    assert (PR : P lo < p -> P hi <> p -> problem e P lo hi p).
    { intros Q1 Q2. subst e. constructor; cbn [e_min e_max e_y e_fn]; try reflexivity; [exact Hle| | |].
      - intros x [Hx _]. unfold along_d, fl_of, in_p, alone.
        destruct (proj2 (p_at T P HT EV HP [(Some T, Some x)] x ltac:(lra) (fits_one _ _ _))) as (vT & vd & Q).
        exists (Fin vd). split; [|discriminate]. exact (f_equal (fun t : fl * fl * fl => let '(y, _, yd) := t in (xf_of y, xf_of yd)) Q).
      - intros [Q _]. lra.
      - intros [Q _]. contradiction. }
    assert (SE : e_sel e = true) by (subst e; reflexivity).
    assert (EP : 0 <= ep1) by (unfold ep1; lra).
    split.
    - intros [Q1 Q2]. destruct (hybrid_elem _ _ _ _ _ _ _ _ _ _ _ EP HY Ne SE (PR Q1 ltac:(lra))) as [HB _].
      destruct (HB (or_introl (conj Q1 (Rlt_le _ _ Q2)))) as (v & Nv & SV). rewrite Nv in Nx0. injection Nx0 as <-.
      assert (Hv : 0 < v) by (destruct SV as [[V _] _]; lra).
      assert (FI : fits D (map (fun s => (s_T s, s_d2 s)) la) T v).
      { destruct AL as [NC|AL]; [now left|right]. rewrite map_length in AL. destruct la as [|p1 [|p2 la]]; try discriminate.
        assert (i = 0)%nat as -> by (destruct i; [reflexivity|destruct i; discriminate NX]).
        injection NX as ->. reflexivity. }
      exists (z_kV z / kg * v), v.
      split; [rewrite (nth_map_some _ _ _ _ (nth_map_some mix_density _ _ _ NX)); reflexivity|].
      split; [unfold density_is; fold (kgs D (z_kM z)); field; lra|]. split; [exact SV|]. split; [intro NC; apply solves_found; [exact EP|intros x Hx; apply (P_continuous T P HT HP); [exact NC|lra]|exact SV]|]. split.
      + do 2 eexists. split; [exact MP|].
        split; [rewrite (nth_map_some _ _ _ _ (nth_map_some _ _ _ _ NX)); cbn [s_T s_d2 fl_of];
                rewrite (proj1 (p_at T P HT EV HP _ v Hv FI)); reflexivity|].
        unfold pressure_is. pose proof (Proof_Mp1Inv.kP_pos D E z Z). field. lra.
      + do 2 eexists. split; [exact MT|]. split; [rewrite (nth_map_some _ _ _ _ (nth_map_some _ _ _ _ NX)); reflexivity|].
        apply (tscale_K _ _ _ _ _ _ _ _ Z). now rewrite to_from_kelvin.
    - intros Q1 Q2 O. destruct (hybrid_elem _ _ _ _ _ _ _ _ _ _ _ EP HY Ne SE (PR Q1 ltac:(lra))) as [_ HB].
      rewrite HB in Nx0 by (unfold bracketed; lra). injection Nx0 as <-. rewrite O in NX.
      rewrite (nth_map_some _ _ _ _ (nth_map_some mix_density _ _ _ NX)). reflexivity.
  Qed.
End Density.

(* calls with one state *)
Section Scalar.
  Variables (D : mpdata) (E : env) (fuel : nat) (z : sizes).
  Hypothesis Z : mp_sizes D E z.
  Lemma pair_scalar n1 r1 n2 r2 : n1 <> n2 -> mp_acceptable [] [(n1, [Some r1]); (n2, [Some r2])] ->
    state_pair [] [(n1, [Some r1]); (n2, [Some r2])] 0 n1 r1 n2 r2.
  Proof.
    intros N A. split; [cbn; repeat constructor; cbn; intuition congruence|]. split; [exact A|]. split; [|split; [reflexivity|]].
    - split; [exists 1%nat; cbn; intros k a [Q|[Q|[]]]; injection Q as <- <-; cbn; auto|].
      exists n1, [Some r1]. split; [cbn; auto|]. cbn. lia.
    - split; [exact N|]. split; [exists [Some r1]|exists [Some r2]]; (split; [cbn; auto|reflexivity]).
  Qed.
  Lemma acc_Tp t q : mp_acceptable [] [("T", [Some t]); ("p", [Some q])].
  Proof.
    unfold mp_acceptable. cbn. split; [lia|]. split; [repeat constructor; cbn; intuition discriminate|].
    split; [intros n [<-|[<-|[]]]; auto 8|]. split; [left; lia|]. repeat split; intuition discriminate.
  Qed.
  Lemma argparse_Tp1 t T q p : kelvin_is E t T -> pressure_is z q p -> in_range (mp_Tlim D) T -> in_range (mp_plim D) p ->
    mp_argparse D E fuel [] [("T", [Some t]); ("p", [Some q])] = from_Tpx D E fuel [(Some T, Some p, Some (-1))] /\
    call_warns D E fuel [] [("T", [Some t]); ("p", [Some q])] = d_warns D E fuel [(true, Some T, Some p, num 0)].
  Proof.
    intros Kt Kp HT Hp.
    destruct (pair_args D E fuel _ _ _ _ _ _ _ (pair_scalar "T" t "p" q ltac:(discriminate) (acc_Tp t q))) as (a & b & _ & _ & Ga & Gb & A & _ & _ & -> & ->).
    assert (a = [Some t]) as -> by (injection Ga as <-; reflexivity).
    assert (b = [Some q]) as -> by (injection Gb as <-; reflexivity).
    rewrite (si_args_val _ _ _ _ _ _ _ _ Z). rewrite Ga, Gb, (A "d"), (A "v"), (A "x"), (A "h"), (A "e"), (A "s") by discriminate. cbn [ores bind].
    assert (K1 : T = to_kelvin (z_T z) t) by (apply (tscale_K _ _ _ _ _ _ _ _ Z); exact Kt).
    unfold pressure_is in Kp.
    destruct (limited_ok E (mp_Tlim D) (gT (z_T z) [Some t]) 0 T) as [LT LT2]; [cbn; now rewrite K1|exact HT|].
    destruct (limited_ok E (mp_plim D) (gP (z_kP z) [Some q]) 0 p) as [LP LP2];
      [cbn; do 2 f_equal; rewrite <- Kp; ring|exact Hp|].
    rewrite LT. cbn [bind]. rewrite LP. cbn [bind option_map gT gP map lift1 fmul lift2]. rewrite <- K1.
    replace (z_kP z * q) with p by (rewrite <- Kp; ring). rewrite LT2, LP2.
    unfold from_args, args_warns. cbn [a_inv a_T a_p a_d a_x]. cbn [broadcast3 broadcast bind List.length Nat.eqb combine map].
    unfold num at 4. rewrite flt_true by lra. split; reflexivity.
  Qed.
End Scalar.

Section ScalarDensity.
  Variables (D : mpdata) (E : env) (z : sizes).
  Hypothesis Z : mp_sizes D E z.
  Hypothesis WF : mp_wf D.
  Theorem Tp_terminates t T q p : kelvin_is E t T -> pressure_is z q p -> in_range (mp_Tlim D) T -> in_range (mp_plim D) p -> 0 < T ->
    (forall d, 0 < d -> evaluable D T d) ->
    forall P, (forall d, 0 < d -> at_state (mp_p D) T d (P d)) ->
    forall lo0 hi d0, density_limits D T p lo0 hi -> 0 < lo0 -> 0 < d0 -> (forall d, 0 < d <= d0 -> P d <= p) ->
    exists N, forall fuel, (N <= fuel)%nat ->
      (exists r, mm_d D E fuel [] [("T", [Some t]); ("p", [Some q])] = Ok ([r], [Some (-1)])) \/
      mm_d D E fuel [] [("T", [Some t]); ("p", [Some q])] = Err PMParamError.
  Proof.
    intros Kt Kp HTr Hpr HT EV P HP lo0 hi d0 HL H0 Hd HS.
    destruct (lower_terminates D WF T P HT EV HP p lo0 d0 H0 Hd HS) as (N & HN). exists N. intros fuel Hf.
    destruct (HN fuel Hf) as (da & DL).
    rewrite (mm_d_val D E fuel _ _ _ _ _ _ Z), (proj1 (argparse_Tp1 D E fuel z Z t T q p Kt Kp HTr Hpr)).
    assert (F : forall v, d_elem D fuel (flt (Some (-1)) (num 0), Some T, Some p, v) =
      Ok {| e_fn := along_d (in_p D) (Some T); e_y := xf_of (Some p); e_x := xf_of v; e_sel := true; e_min := xf_of da; e_max := xf_of (Some hi) |}).
    { intro v. unfold d_elem, num. rewrite flt_true by lra. rewrite (limits_val D WF T p lo0 hi HT HL), DL. reflexivity. }
    unfold from_Tpx. cbn [map]. unfold mp_d. cbn [traverse]. rewrite F. cbn [bind]. unfold hybrid1.
    destruct (existsb e_sel _ && _)%bool; [right; reflexivity|left]. cbn [bind fst map map2 combine snd].
    unfold num. rewrite flt_true by lra. eexists. reflexivity.
  Qed.
End ScalarDensity.

(* The saturation fits of mp1.py (C46). *)
From Coq Require Import Reals ZArith List Lra Lia Bool Arith.
From Verif Require Import Base Model_Mp1 Spec_Mp1 Proof_Jets Proof_Mp1Poly Proof_Mp1Helm Proof_Mp1Res Proof_Mp1Props.
Import ListNotations.
Local Open Scope R_scope.
Local Open Scope list_scope.

Definition open1 (U : R -> Prop) : Prop := forall x, U x -> exists eps, 0 < eps /\ forall u, Rabs (u - x) < eps -> U u.
Lemma open1_affine U a b : open1 U -> open1 (fun x => U (a + b * x)).
Proof.
  intros H x Hx. destruct (H _ Hx) as (e & He & K). exists (e / (Rabs b + 1)).
  pose proof (Rabs_pos b). split; [apply Rdiv_lt_0_compat; lra|].
  intros u Hu. apply K. replace (a + b * u - (a + b * x)) with (b * (u - x)) by ring.
  rewrite Rabs_mult. apply (Rle_lt_trans _ ((Rabs b + 1) * Rabs (u - x))).
  - apply Rmult_le_compat_r; [apply Rabs_pos|lra].
  - apply (Rmult_lt_compat_l (Rabs b + 1)) in Hu; [|lra].
    replace ((Rabs b + 1) * (e / (Rabs b + 1))) with e in Hu by (field; lra). exact Hu.
Qed.
Lemma open1_and (U V : R -> Prop) : open1 U -> open1 V -> open1 (fun x => U x /\ V x).
Proof.
  intros A B x [HA HB]. destruct (A x HA) as (e & He & K). destruct (B x HB) as (f & Hf & L).
  exists (Rmin e f). split; [apply Rmin_glb_lt; assumption|]. intros u Hu.
  pose proof (Rmin_l e f). pose proof (Rmin_r e f). split; [apply K|apply L]; lra.
Qed.
Lemma open1_pos : open1 (fun x => 0 < x).
Proof. intros x Hx. exists x. split; [exact Hx|]. intros u Hu. apply Rabs_def2 in Hu. lra. Qed.
Lemma open1_all : open1 (fun _ => True).
Proof. intros x _. exists 1. split; [lra|trivial]. Qed.

(* a coefficient group as a jet *)
Lemma group_jet g x : Forall ordered1 g -> (0 < x \/ Forall plain1 g) ->
  exists (U : R -> Prop) (F : R -> J1), open1 U /\ U x /\ jet1_on U F /\
    (forall u, U u -> a0 (F u) = value1 g u) /\
    (forall u diff, U u -> poly1 (Some u) g diff = gate1 diff (F u)).
Proof.
  intros Ho [Hx|Hp].
  - exists (fun u => 0 < u), (fun u => j1sum (fun c => rcoef1 c u) g).
    split; [apply open1_pos|]. split; [exact Hx|]. split; [|split].
    + apply (j1sum_jet _ (fun u c => rcoef1 c u)). intros c _. apply rcoef1_jet.
    + intros u Hu. rewrite j1sum_value. apply total_ext. intros c Hc.
      apply rcoef1_value; [exact Hu|]. exact (proj1 (Forall_forall _ _) Ho c Hc).
    + intros u diff Hu. apply poly1_sum. intros c _. apply poly1_coef_pos. exact Hu.
  - exists (fun _ => True), (fun u => j1sum (fun c => rpoly c u) g).
    split; [apply open1_all|]. split; [exact I|]. split; [|split].
    + apply (j1sum_jet _ (fun u c => rpoly c u)). intros c _. apply rpoly_jet.
    + intros u _. rewrite j1sum_value. apply total_ext. intros c Hc.
      rewrite rpoly_value by exact (proj1 (Forall_forall _ _) Ho c Hc).
      destruct (proj1 (Forall_forall _ _) Hp c Hc) as [-> ->]. unfold power.
      destruct (Req_EM_T 0 0) as [_|N]; [|contradiction].
      destruct (Req_EM_T 1 0) as [N|_]; [lra|].
      destruct (Req_EM_T 1 1) as [_|N]; [|contradiction]. rewrite Rmult_1_l. reflexivity.
    + intros u diff _. apply poly1_sum. intros c Hc. apply poly1_coef_plain.
      exact (proj1 (Forall_forall _ _) Hp c Hc).
Qed.

Definition j1one_minus (t : R) : J1 := mk1 (1 - t) (-1) 0.
Lemma jet1_one_minus U : jet1_on U j1one_minus.
Proof.
  intros t _. cbn. split; [|apply D_const].
  apply (D_eq _ _ (0 - 1)); [|ring]. apply (D_minus (fun _ => 1) (fun u => u)); [apply D_const|apply D_id].
Qed.
Lemma gate1_eq diff (J K : J1) : a0 J = a0 K -> (diff1 diff = true -> a1 J = a1 K) ->
  (diff2 diff = true -> a2 J = a2 K) -> gate1 diff J = gate1 diff K.
Proof.
  intros H0 H1 H2. unfold gate1. rewrite H0.
  destruct (diff1 diff); [rewrite H1 by reflexivity|]; (destruct (diff2 diff); [rewrite H2 by reflexivity|]); reflexivity.
Qed.

Definition fit_dom (fn : Z) (U : R -> Prop) (t : R) : Prop := 0 < t /\ (if Z.eqb fn 0 then U t else U (1 - t)).
Definition fit_jet (fn : Z) (F : R -> J1) (t : R) : J1 :=
  if Z.eqb fn 0 then F t
  else let G := j1comp (F (1 - t)) (j1one_minus t) in
    if Z.eqb fn 1 then G
    else if Z.eqb fn 2 then j1comp (j1exp (a0 G)) G
    else let H := j1mul (jinvT 1 t) G in j1comp (j1exp (a0 H)) H.

Section Fit.
Variables (g : group1) (U : R -> Prop) (F : R -> J1) (fn : Z).
Hypothesis OU : open1 U.
Hypothesis JF : jet1_on U F.
Hypothesis VF : forall u, U u -> a0 (F u) = value1 g u.
Hypothesis PF : forall u diff, U u -> poly1 (Some u) g diff = gate1 diff (F u).

Lemma fit_jet_ok : jet1_on (fit_dom fn U) (fit_jet fn F).
Proof.
  assert (G : jet1_on (fun t => 0 < t /\ U (1 - t)) (fun t => j1comp (F (1 - t)) (j1one_minus t))).
  { apply (jet1_comp (fun t => 0 < t /\ U (1 - t)) U j1one_minus F); [apply jet1_one_minus|intros x [_ H]; exact H|exact JF]. }
  unfold fit_dom, fit_jet. destruct (Z.eqb fn 0).
  { apply (jet1_sub U); [intros x [_ H]; exact H|exact JF]. }
  cbv zeta. destruct (Z.eqb fn 1); [exact G|]. destruct (Z.eqb fn 2).
  - apply (jet1_comp _ (fun _ => True) _ j1exp G); [trivial|apply jet1_exp].
  - assert (H : jet1_on (fun t => 0 < t /\ U (1 - t)) (fun t => j1mul (jinvT 1 t) (j1comp (F (1 - t)) (j1one_minus t)))).
    { apply (jet1_mul _ (jinvT 1) (fun t => j1comp (F (1 - t)) (j1one_minus t))); [|exact G].
      apply (jet1_sub (fun x => 0 < x)); [intros x [K _]; exact K|apply jinvT_jet]. }
    apply (jet1_comp _ (fun _ => True) _ j1exp H); [trivial|apply jet1_exp].
Qed.
Lemma fit_value t : (0 <= fn <= 3)%Z -> fit_dom fn U t -> a0 (fit_jet fn F t) = sat_form fn g t.
Proof.
  intros Hf [Ht Hu]. unfold fit_jet.
  assert (C : fn = 0%Z \/ fn = 1%Z \/ fn = 2%Z \/ fn = 3%Z) by lia.
  destruct C as [ -> |[ -> |[ -> | -> ]]]; cbn [Z.eqb Pos.eqb] in *; cbn [a0 j1comp j1exp j1mul jinvT sat_form];
    rewrite VF by exact Hu; reflexivity.
Qed.
Lemma fit_code t diff : (0 <= fn <= 3)%Z -> fit_dom fn U t ->
  satfit (Some t) fn g diff = Ok (gate1 diff (fit_jet fn F t)).
Proof.
  intros Hf [Ht Hu]. unfold satfit, fit_jet.
  assert (C : fn = 0%Z \/ fn = 1%Z \/ fn = 2%Z \/ fn = 3%Z) by lia.
  assert (N : t <> 0) by lra.
  destruct C as [ -> |[ -> |[ -> | -> ]]]; cbn [Z.eqb Pos.eqb] in *.
  - rewrite PF by exact Hu. reflexivity.
  - flc. cbn [lift2]. rewrite PF by exact Hu. unfold gate1. cbn [a0 a1 a2 j1comp j1one_minus].
    do 2 f_equal; [f_equal|]; destruct (diff1 diff), (diff2 diff); flc; cbn [lift1]; try reflexivity; apply some_eq; ring.
  - flc. cbn [lift2]. rewrite PF by exact Hu. unfold gate1, fexp. cbn [a0 a1 a2 j1comp j1one_minus j1exp lift1].
    destruct (diff_cases diff) as [[-> ->]|[[-> ->]|[-> ->]]]; flc; cbn [lift1 lift2];
      f_equal; apply jet1_eq3; ring.
  - flc. cbn [lift2]. rewrite PF by exact Hu. unfold gate1, fexp. cbn [a0 a1 a2 j1comp j1one_minus j1exp j1mul jinvT lift1].
    rewrite fdiv_ok by exact N.
    destruct (diff_cases diff) as [[-> ->]|[[-> ->]|[-> ->]]]; flc; cbn [lift1 lift2]; flc;
      f_equal; rewrite (Rmult_comm (a0 (F (1 - t))) (1 / t)); apply jet1_eq3; try reflexivity; field; exact N.
Qed.
End Fit.

Theorem satcurve_exact : forall G diff T, sat_wf G -> sat_smooth G T ->
  exists v vT vTT, satcurve G (Some T) diff = Ok (Some v, Some vT, Some vTT) /\
    v = sat_value G T /\
    (if (0 <? diff)%nat then deriv (sat_value G) T vT else vT = 0) /\
    (if (1 <? diff)%nat then deriv2 (sat_value G) T vTT else vTT = 0).
Proof.
  intros G diff T (Ho & HTs & Hfn) (HT & Hs).
  set (Ts := sg_Tscale G) in *. set (fn := sg_fn G) in *. set (g := sg_coef G) in *.
  set (arg := if Z.eqb fn 0 then T / Ts else 1 - T / Ts).
  assert (Ht : 0 < T / Ts) by (apply Rdiv_lt_0_compat; assumption).
  assert (Ha : 0 < arg \/ Forall plain1 g).
  { destruct Hs as [Hp|[H0|Hlt]]; [right; exact Hp|left|left]; unfold arg.
    - rewrite H0. exact Ht.
    - destruct (Z.eqb fn 0); [exact Ht|]. assert (T / Ts < 1); [|lra].
      apply (Rmult_lt_reg_r Ts); [exact HTs|]. unfold Rdiv. rewrite Rmult_assoc, Rinv_l by lra. lra. }
  destruct (group_jet g arg Ho Ha) as (U & F & OU & HU & JF & VF & PF).
  assert (Dm : fit_dom fn U (T / Ts)).
  { split; [exact Ht|]. unfold arg in HU. destruct (Z.eqb fn 0); exact HU. }
  set (J := fun T => j1mul (j1const (sg_scale G)) (j1comp (fit_jet fn F (T / Ts)) (jscale Ts T))).
  assert (OV : open1 (fun T => fit_dom fn U (T / Ts))).
  { assert (O1 : open1 (fit_dom fn U)).
    { unfold fit_dom. apply open1_and; [apply open1_pos|]. destruct (Z.eqb fn 0); [exact OU|].
      intros x Hx. assert (O := open1_affine U 1 (-1) OU x).
      cbv beta in O. replace (1 + -1 * x) with (1 - x) in O by ring. destruct (O Hx) as (e & He & K).
      exists e. split; [exact He|]. intros u Hu. replace (1 - u) with (1 + -1 * u) by ring. apply K. exact Hu. }
    intros x Hx. assert (O := open1_affine _ 0 (/ Ts) O1 x).
    cbv beta in O. replace (0 + / Ts * x) with (x / Ts) in O by (unfold Rdiv; ring). destruct (O Hx) as (e & He & K).
    exists e. split; [exact He|]. intros u Hu. replace (u / Ts) with (0 + / Ts * u) by (unfold Rdiv; ring).
    apply K. exact Hu. }
  assert (JJ : jet1_on (fun T => fit_dom fn U (T / Ts)) J).
  { apply (jet1_mul _ (fun _ => j1const (sg_scale G)) (fun T => j1comp (fit_jet fn F (T / Ts)) (jscale Ts T)));
      [apply jet1_const|].
    apply (jet1_comp _ (fit_dom fn U) (jscale Ts) (fit_jet fn F)); [apply jscale_jet|intros x Hx; exact Hx|].
    apply fit_jet_ok. exact JF. }
  assert (VV : forall u, fit_dom fn U (u / Ts) -> a0 (J u) = sat_value G u).
  { intros u Hu. unfold J, sat_value. cbn [a0 j1mul j1const j1comp]. fold Ts fn g. f_equal.
    apply (fit_value g U F fn VF); [exact Hfn|exact Hu]. }
  assert (EQ : satcurve G (Some T) diff = Ok (gate1 diff (J T))).
  { unfold satcurve, num. fold Ts fn g. rewrite fdiv_ok by lra.
    rewrite (fit_code g U F fn PF (T / Ts) diff Hfn Dm). unfold gate1, J.
    cbn [a0 a1 a2 j1mul j1const j1comp jscale]. rewrite !fdiv_ok by lra. f_equal.
    destruct (diff_cases diff) as [[-> ->]|[[-> ->]|[-> ->]]]; flc; cbn [lift1 lift2]; flc;
      apply jet1_eq3; try reflexivity; try ring; field; lra. }
  destruct (OV T Dm) as (eps & He & KO).
  destruct (jet_derivs J (sat_value G) (fun T => fit_dom fn U (T / Ts)) T eps He KO JJ VV) as [D1 D2].
  rewrite EQ. unfold gate1. do 3 eexists. split; [reflexivity|]. split; [apply VV; exact Dm|].
  fold (diff1 diff). fold (diff2 diff). destruct (diff1 diff), (diff2 diff); split; try reflexivity; assumption.
Qed.

(* at the critical temperature of the fit *)
Theorem satcurve_critical : forall G, sat_wf G -> sg_fn G <> 0%Z ->
  Forall (fun c => 0 < c1_pre c /\ 0 <= c1_post c) (sg_coef G) ->
  satcurve G (Some (sg_Tscale G)) 0 = Ok (Some (sat_value G (sg_Tscale G)), Some 0, Some 0).
Proof.
  intros G (Ho & HTs & Hfn) N0 Hc. unfold satcurve, num, sat_value. rewrite fdiv_ok by lra.
  replace (sg_Tscale G / sg_Tscale G) with 1 by (field; lra).
  set (fn := sg_fn G) in *. set (g := sg_coef G) in *.
  assert (E : satfit (Some 1) fn g 0 = Ok (Some (sat_form fn g 1), Some 0, Some 0)).
  { unfold satfit. pose proof (poly1_at_zero g Ho Hc) as P.
    assert (A : (num 1 - Some 1)%fl = Some 0) by (flc; apply some_eq; ring). rewrite A, P.
    assert (C : fn = 1%Z \/ fn = 2%Z \/ fn = 3%Z) by lia.
    destruct C as [ -> |[ -> | -> ]]; cbn [Z.eqb Pos.eqb diff1 diff2 Nat.ltb Nat.leb sat_form];
      replace (1 - 1) with 0 by ring; unfold fexp; cbn [lift1].
    - reflexivity.
    - reflexivity.
    - unfold num. rewrite fdiv_ok by lra. flc. cbn [lift1]. rewrite (Rmult_comm (value1 g 0) (1 / 1)). reflexivity. }
  rewrite E. cbn [diff1 diff2 Nat.ltb Nat.leb]. flc. cbn [lift2]. rewrite Rmult_comm. reflexivity.
Qed.
Theorem satcurve_unknown : forall G T diff, ~ (0 <= sg_fn G <= 3)%Z ->
  satcurve G T diff = Err EUnboundLocal.
Proof.
  intros G T diff H. unfold satcurve, satfit. set (fn := sg_fn G) in *.
  assert (A : Z.eqb fn 0 = false) by (apply Z.eqb_neq; lia).
  assert (B : Z.eqb fn 1 = false) by (apply Z.eqb_neq; lia).
  assert (C : Z.eqb fn 2 = false) by (apply Z.eqb_neq; lia).
  assert (E : Z.eqb fn 3 = false) by (apply Z.eqb_neq; lia).
  rewrite A, B, C, E. destruct (poly1 _ _ _) as [[p q] r]. reflexivity.
Qed.
(* exponential fits are positive *)
Theorem satcurve_positive : forall G T, 0 < sg_scale G -> (sg_fn G = 2 \/ sg_fn G = 3)%Z -> 0 < sat_value G T.
Proof.
  intros G T Hs [H|H]; unfold sat_value; rewrite H; apply Rmult_lt_0_compat; try exact Hs; apply exp_pos.
Qed.

(* Instance of C82: the substance of C48 with a vapor pressure that is linear in the temperature. *)
From Coq Require Import Reals ZArith List String Bool Lia Lra.
From Verif Require Import Base Model_Num Model_Units Model_Defaults Model_Igas Spec_Units Proof_Units Spec_Igas Proof_Igas
  Proof_IgasUnits Proof_IgasArgs Proof_IgasCalls Proof_IgasArr Proof_IgasAcc Proof_Iter Proof_IgasEx.
From Verif Require Import Model_Mp1Calls Model_Mp1Warn Spec_Mp1 Spec_Mp1Calls Spec_Mp1Ts Proof_Mp1Units Proof_Mp1Poly Proof_Mp1Sat Proof_Mp1Args Proof_Mp1Calls
  Proof_Mp1Mix Proof_Mp1SatApi Proof_Mp1CallsEx Proof_Mp1Ts.
Import ListNotations.
Local Open Scope R_scope.
Local Open Scope string_scope.
Local Open Scope list_scope.

(* Newton's method is exact for a line *)
Lemma solo_linear lo hi c f m b x y : c = {| c_fn := f; c_y := Some y; c_x := Some x; c_dx := Some 0; c_err := Some 0; c_on := true |} ->
  m <> 0 -> (forall x, lo <= x <= hi -> f (Some x) = (Some (m * x + b), Some m)) -> lo <= x <= hi ->
  lo <= (y - b) / m <= hi -> exists c', solo_iter ep_default lo hi 20 20 c (c', false) /\ c_x c' = Some ((y - b) / m).
Proof.
  intros -> Hm Hf Hx Hr. set (r := (y - b) / m) in *. unfold solo_iter.
  assert (0 < ep_default) as Hep.
  { unfold ep_default. rewrite p10_neg_eq. apply Rinv_0_lt_compat, pow_lt. lra. }
  assert (Hin : forall x, outside lo hi {| c_fn := f; c_y := Some y; c_x := Some r; c_dx := Some x; c_err := Some (m * x); c_on := true |} = false).
  { intro q. unfold outside, flt. cbn [c_x]. destruct (Rlt_dec r lo); [lra|]. destruct (Rlt_dec hi r); [lra|reflexivity]. }
  assert (Hstep : forall x n, lo <= x <= hi -> forall dx e0,
    oob_loop lo hi n (map newton [{| c_fn := f; c_y := Some y; c_x := Some x; c_dx := dx; c_err := e0; c_on := true |}]) =
    Ok [{| c_fn := f; c_y := Some y; c_x := Some r; c_dx := Some (r - x); c_err := Some (m * (r - x)); c_on := true |}]).
  { intros q n Hq dx e0. cbn [map]. unfold newton. cbn [c_on c_fn c_x c_y]. rewrite (Hf q Hq). cbn [fsub fdiv fadd lift2].
    destruct (Req_EM_T m 0); [contradiction|]. cbn [lift2].
    replace (q + (y - (m * q + b)) / m) with r by (unfold r; field; exact Hm).
    replace ((y - (m * q + b)) / m) with (r - q) by (unfold r; field; exact Hm).
    replace (y - (m * q + b)) with (m * (r - q)) by (unfold r; field; exact Hm).
    rewrite oob_unfold. cbn [existsb]. rewrite Hin. reflexivity. }
  cbn [fst snd].
  rewrite iter_unfold. cbn [existsb c_on orb]. rewrite (Hstep x _ Hx). cbn [bind map check c_on c_fn c_y c_x c_dx c_err].
  rewrite iter_unfold. cbn [existsb c_on orb].
  destruct (flt _ _); cbn [orb].
  2:{ eexists. split; [reflexivity|reflexivity]. }
  rewrite (Hstep r _ Hr). cbn [bind map check c_on c_fn c_y c_x c_dx c_err].
  replace (flt (fabs (fmul (Some ep_default) (Some y))) (fabs (Some (m * (r - r))))) with false.
  2:{ replace (m * (r - r)) with 0 by ring. cbn [fabs fmul lift1 lift2 flt]. rewrite Rabs_R0.
      destruct (Rlt_dec _ _) as [K|]; [|reflexivity]. exfalso. pose proof (Rabs_pos (ep_default * y)). lra. }
  rewrite iter_unfold. cbn [existsb c_on orb]. eexists. split; reflexivity.
Qed.

(* ps = 22 MPa (1 - 3/2 (1 - T/600)) *)
Definition exPS : satgroup :=
  {| sg_Tscale := 600; sg_scale := 22000000; sg_fn := 1%Z;
     sg_coef := [ {| c1_pre := 1; c1_post := 0; c1_first := (1%Z, -(3/2)); c1_rest := [(0%Z, 1)] |} ] |}.
Definition exL : mpdata :=
  {| mp_R := 461; mp_mw := 18; mp_AO := mp_AO exP; mp_AR := mp_AR exP;
     mp_PS := exPS; mp_DSL := flat 900; mp_DSV := flat 9;
     mp_Tc := 600; mp_pc := 22000000; mp_dc := 300; mp_Tt := 273; mp_pt := 4015000;
     mp_Tlim := (273, 1200); mp_plim := (0, 100000000); mp_dlim := (0, 1000) |}.
Lemma exLZ : mp_sizes exL exE exz.
Proof. exact exZ. Qed.
Lemma exL_jet T : satcurve exPS (Some T) 1 = Ok (Some (55000 * T + -11000000), Some 55000, Some 0).
Proof.
  unfold satcurve. cbn [sg_Tscale sg_fn sg_coef sg_scale exPS]. unfold num. rewrite fdiv_ok by lra.
  unfold satfit. cbn [Z.eqb Pos.eqb]. unfold poly1, poly1_coef, pre_power. cbn [c1_pre c1_post c1_first c1_rows c1_rest fst snd].
  destruct (Req_EM_T 1 1) as [_|N]; [|lra]. destruct (Req_EM_T 0 0) as [_|N]; [|lra].
  cbn -[Rplus Rmult Rdiv Rinv Ropp Rminus]. destruct (Req_EM_T 600 0); [lra|]. cbn -[Rplus Rmult Rdiv Rinv Ropp Rminus].
  change (Pos.to_nat 2) with 2%nat. cbn -[Rplus Rmult Rdiv Rinv Ropp Rminus]. f_equal. apply jet3; lra.
Qed.
Lemma exL_p T : vapor_pressure exL T = 55000 * T + -11000000.
Proof.
  unfold vapor_pressure, sat_value, sat_form, value1, total. cbn [fold_right mp_PS exL sg_Tscale sg_scale sg_fn sg_coef exPS c1_pre c1_post c1_rows c1_first c1_rest fst snd].
  unfold power. destruct (Req_EM_T 0 0) as [_|N]; [|lra]. destruct (Req_EM_T 1 0) as [N|_]; [lra|]. destruct (Req_EM_T 1 1) as [_|N]; [|lra].
  change (Z.to_nat 1) with 1%nat. change (Z.to_nat 0) with 0%nat. cbn [pow]. field.
Qed.
Lemma exL_psT T : mp_psT exL (Some T) = (Some (55000 * T + -11000000), Some 55000).
Proof. unfold mp_psT, sat_jet. cbn [mp_PS exL]. rewrite exL_jet. reflexivity. Qed.
Lemma exL_curve : curve_ok exL.
Proof.
  unfold curve_ok, sat_wf. cbn. repeat split; try lra; try lia.
  - constructor; [|constructor]. split; cbn; [intros t [<-|[<-|[]]]; cbn; lia|]. split; [|split; [intros b []|exact I]]. intros b [<-|[]]. reflexivity.
  - constructor; [|constructor]. cbn. lra.
Qed.
Lemma exL_slopes : slopes exL 55000 55000.
Proof.
  split; [lra|]. split.
  - intros a b _ _ _. rewrite !exL_p. lra.
  - intros v d w H. cbn [mp_PS mp_Tc exL] in H. rewrite exL_jet in H. injection H as _ <- _. lra.
Qed.
Lemma exL_Ts y : 4015000 <= y <= 22000000 -> exists c, solo_iter ep_default (mp_Tt exL * (99/100)) (mp_Tc exL) 20 20 (Ts_cell exL (true, Some y)) (c, false) /\
  c_x c = Some ((y - -11000000) / 55000).
Proof.
  intro Hy. refine (solo_linear _ _ _ (mp_psT exL) 55000 (-11000000) _ y _ _ _ _ _).
  - unfold Ts_cell. cbn [mp_pt mp_pc mp_Tt mp_Tc exL andb]. 
    assert (A1 : fle (num 4015000) (Some y) = true) by (unfold fle, num; destruct (Rle_dec _ _); [reflexivity|lra]).
    assert (A2 : fle (Some y) (num 22000000) = true) by (unfold fle, num; destruct (Rle_dec _ _); [reflexivity|lra]).
    rewrite A1, A2. reflexivity.
  - lra.
  - intros. apply exL_psT.
  - cbn. lra.
  - cbn. lra.
Qed.
Lemma Forall2_2 {A B} (P : A -> B -> Prop) a b c d : P a c -> P b d -> Forall2 P [a; b] [c; d].
Proof. auto. Qed.

Lemma inst_C82 : curve_ok exL /\ slopes exL 55000 55000 /\ ~ no_critical_slope exL /\
  mm_Ts exL exE (Some [Some 110; Some 165]) = Ok [Some 400; Some 500] /\
  Ts_call_warns exL exE [Some 110; Some 165] = Ok false /\
  mm_ps exL exE (Some [Some 400; Some 500]) = Ok [Some 110; Some 165] /\
  mm_hs exL exE None (Some [Some 110; Some 165]) = mm_hs exL exE (Some [Some 400; Some 500]) None /\
  mm_ps exL exE (Some [Some 400; Some 272]) = Err PMParamError.
Proof.
  split; [exact exL_curve|]. split; [exact exL_slopes|].
  split. { intro H. exact (H _ _ _ (exL_jet 600)). }
  assert (L : exists l, iter_loop ep_default (mp_Tt exL * (99/100)) (mp_Tc exL) 20 20
     (map (Ts_cell exL) (map (fun p => (true, p)) (Proof_Mp1Units.gP (z_kP exz) [Some 110; Some 165]))) = Ok (l, false) /\ map c_x l = [Some 400; Some 500]).
  { change (Proof_Mp1Units.gP (z_kP exz) [Some 110; Some 165]) with [Some (10^5 * 110); Some (10^5 * 165)]. cbn [map].
    destruct (exL_Ts (10^5 * 110) ltac:(lra)) as (c1 & S1 & X1). destruct (exL_Ts (10^5 * 165) ltac:(lra)) as (c2 & S2 & X2).
    exists [c1; c2]. split.
    - apply iter_pointwise.
      + repeat constructor; intros _; apply outside_false; cbn; lra.
      + exists [(c1, false); (c2, false)]. split; [exact (Forall2_2 _ _ _ _ _ S1 S2)|]. split; reflexivity.
    - cbn [map]. rewrite X1, X2. f_equal; [f_equal; lra|]. f_equal. f_equal. lra. }
  destruct L as (l & L & Lx).
  assert (TS : mm_Ts exL exE (Some [Some 110; Some 165]) = Ok [Some 400; Some 500]).
  { unfold mm_Ts. cbn [bind]. rewrite (p_in _ _ _ _ _ _ _ _ exLZ). cbn [bind]. fold (Proof_Mp1Units.gP (z_kP exz) [Some 110; Some 165]).
    rewrite (proj2 (outside_sat_false _ _ _)).
    2:{ intros x [H|[H|[]]]; cbn in H; injection H as <-; cbn; lra. }
    unfold mp_Ts. rewrite L. cbn [bind fst]. rewrite (atscale_from _ _ _ _ _ _ _ _ exLZ), Lx. reflexivity. }
  split; [exact TS|]. split.
  { unfold Ts_call_warns. rewrite (p_in _ _ _ _ _ _ _ _ exLZ). cbn [bind]. fold (Proof_Mp1Units.gP (z_kP exz) [Some 110; Some 165]).
    rewrite (proj2 (outside_sat_false _ _ _)).
    2:{ intros x [H|[H|[]]]; cbn in H; injection H as <-; cbn; lra. }
    unfold Ts_warns. rewrite L. reflexivity. }
  split.
  { unfold mm_ps. cbn [bind]. rewrite (atscale_to _ _ _ _ _ _ _ _ exLZ). cbn [bind]. change (map (lift1 (to_kelvin (z_T exz))) [Some 400; Some 500]) with [Some 400; Some 500].
    rewrite (proj2 (outside_sat_false _ _ _)).
    2:{ intros x [H|[H|[]]]; injection H as <-; cbn; lra. }
    rewrite (p_out _ _ _ _ _ _ _ _ exLZ). cbn [map]. rewrite !(fun T => ps_value exL T exL_curve) by (cbn; lra). rewrite !exL_p. cbn.
    do 2 f_equal; [f_equal; lra|]. f_equal. f_equal. lra. }
  split.
  { apply (by_pressure exL exE exz exLZ); [cbn; tauto|exact TS|]. intros t T Ht HK. unfold kelvin_is in HK. rewrite (tscale_to _ _ _ _ _ _ _ _ exLZ) in HK.
    injection HK as <-. destruct Ht as [H|[H|[]]]; injection H as <-; cbn; lra. }
  apply (ps_api exL exE exz exLZ). split; [reflexivity|]. exists 272, 272. split; [right; left; reflexivity|]. split; [apply ex_K|cbn; lra].
Qed.

(* p below the triple point and a quality: no error, no warning, and another pressure *)
Lemma below_triple fuel : exists t T p, mm_T exL exE fuel [] [("p", [Some 10]); ("x", [Some (1/2)])] = Ok ([Some t], [Some (1/2)]) /\
  call_warns exL exE fuel [] [("p", [Some 10]); ("x", [Some (1/2)])] = Ok false /\
  mm_Ts exL exE (Some [Some 10]) = Err PMParamError /\
  kelvin_is exE t T /\ pressure_is exz 10 p /\ vapor_pressure exL T > 13 * p.
Proof.
  assert (P : Proof_Mp1Units.gP (z_kP exz) [Some 10] = [Some (10^5 * 10)]) by reflexivity.
  assert (A : si_args exL exE [("p", [Some 10]); ("x", [Some (1/2)])] =
    Ok {| a_T := None; a_p := Some [Some (10^5 * 10)]; a_d := None; a_x := Some [Some (1/2)]; a_inv := None |}).
  { rewrite (si_args_val _ _ _ _ _ _ _ _ exLZ). cbn [dget String.eqb Ascii.eqb Bool.eqb ores bind option_map]. rewrite P.
    rewrite limited_inside; [|discriminate|intros x [H|[]]; injection H as <-; unfold in_range; cbn; lra].
    cbn [bind]. unfold gX. cbn [existsb]. unfold num. rewrite !flt_false by lra. reflexivity. }
  assert (C0 : c_on (Ts_cell exL (true, Some (10^5 * 10))) = false).
  { cbn [Ts_cell c_on andb mp_pt mp_pc exL]. unfold num, fle. destruct (Rle_dec 4015000 (10^5 * 10)); [lra|reflexivity]. }
  assert (L : iter_loop ep_default (mp_Tt exL * (99/100)) (mp_Tc exL) 20 20 (map (Ts_cell exL) [(true, Some (10^5 * 10))]) = Ok ([Ts_cell exL (true, Some (10^5 * 10))], false)).
  { cbn [map]. apply iter_solo_off. exact C0. }
  exists (5/10 * (273 + 600)), (5/10 * (273 + 600)), (10 * 10^5).
  split; [|split; [|split; [|split; [|split]]]].
  - unfold mm_T, method.
    change (mp_argparse exL exE fuel [] [("p", [Some 10]); ("x", [Some (1/2)])])
      with (do x <- si_args exL exE [("p", [Some 10]); ("x", [Some (1/2)])]; from_args exL exE fuel x).
    rewrite A. cbn [bind]. unfold from_args. cbn [a_inv a_T a_p a_d a_x]. unfold from_px. cbn [existsb mp_pc exL]. unfold num. rewrite !flt_false by lra. cbn [orb].
    rewrite broadcast2_scalar by discriminate. cbn [bind map fst]. unfold mp_Ts. match goal with |- context [iter_loop ?a ?b ?c ?d ?e ?f] => replace (iter_loop a b c d e f) with (Ok ([Ts_cell exL (true, Some (10^5 * 10))], false)) by (symmetry; exact L) end. cbn [bind map fst snd].
    unfold map2. cbn [combine map fst snd s_T s_x]. rewrite (atscale_from _ _ _ _ _ _ _ _ exLZ). reflexivity.
  - unfold call_warns.
    change (do kw1 <- positional [] [("p", [Some 10]); ("x", [Some (1/2)])]; do kw2 <- defaults exE kw1; do _ <- mp_rules kw2; do a <- si_args exL exE kw2; args_warns exL exE fuel a)
      with (do a <- si_args exL exE [("p", [Some 10]); ("x", [Some (1/2)])]; args_warns exL exE fuel a).
    rewrite A. cbn [bind]. unfold args_warns. cbn [a_inv a_T a_p a_d a_x]. rewrite broadcast2_scalar by discriminate. cbn [bind map fst]. unfold Ts_warns. match goal with |- context [iter_loop ?a ?b ?c ?d ?e ?f] => replace (iter_loop a b c d e f) with (Ok ([Ts_cell exL (true, Some (10^5 * 10))], false)) by (symmetry; exact L) end. reflexivity.
  - apply (proj1 (Ts_range exL exE exz exLZ [Some 10])). exists 10, (10 * 10^5). split; [left; reflexivity|]. split; [reflexivity|cbn; lra].
  - apply ex_K.
  - reflexivity.
  - rewrite exL_p. lra.
Qed.

Lemma inst_C82_quality fuel : mm_h exL exE fuel [] [("p", [Some 110; Some 165]); ("x", [Some (1/2)])] =
  mm_h exL exE fuel [] [("T", [Some 400; Some 500]); ("x", [Some (1/2)])].
Proof.
  destruct inst_C82 as (_ & _ & _ & TS & _).
  apply (by_pressure_quality exL exE exz exLZ fuel (mm_h exL exE fuel)); try exact TS; try (cbn; lra); [cbn; tauto|discriminate|right; reflexivity|].
  intros t T Ht HK. unfold kelvin_is in HK. rewrite (tscale_to _ _ _ _ _ _ _ _ exLZ) in HK.
  injection HK as <-. destruct Ht as [H|[H|[]]]; injection H as <-; cbn; lra.
Qed.

(* Instances of C88: a substance with the equation of state of an ideal gas, cv = 3/2 R. *)
From Coq Require Import Reals ZArith List String Bool Lia Lra.
From Verif Require Import Base Model_Num Model_Units Model_Igas Spec_Units Proof_Units Spec_Igas Proof_IgasEx Proof_IgasUnits Model_Mp1Calls Spec_Mp1 Spec_Mp1Calls
  Spec_Mp1Path Proof_IgasArgs Proof_Mp1CvCrit Proof_Mp1Mix Proof_IgasCalls Proof_Mp1Units Proof_Mp1Poly Proof_Mp1Helm Proof_Mp1Calls Proof_Mp1CallsEx Proof_Mp1CvEx Proof_Mp1Cv Proof_Jets Proof_Mp1Inv Proof_Mp1InvEx Proof_Mp1Props Proof_Mp1Thm Proof_Mp1Path.
Import ListNotations.
Local Open Scope R_scope.
Local Open Scope string_scope.
Local Open Scope list_scope.
Local Notation Der := Proof_Jets.D.

(* the session of the other examples with lengths in km and times in minutes *)
Definition exEa : env :=
  {| e_setup := default_setup; e_cfg := cfg_with "bar" ++ [("unit_length", "km"); ("unit_time", "min")]; e_defT := 300; e_defTu := "K";
     e_defp := 1; e_defpu := "bar"; e_oob := None |}.
Lemma exZa : mp_sizes exP exEa exz.
Proof.
  constructor; cbn; try reflexivity; try lra; eauto using default_positive.
  all: try (eexists; split; reflexivity). all: auto.
Qed.
Lemma exa_K T : kelvin_is exEa T T.
Proof. unfold kelvin_is. apply (tscale_K _ _ _ _ _ _ _ _ exZa). reflexivity. Qed.
Lemma exa_speed r : speed_is exEa r (r * 1000 / 60).
Proof. exists "km", "min", 1000, 60. repeat split; cbn; try reflexivity. Qed.

Section Curve.
  Variables (rr : R -> R) (b : R).
  Hypothesis Hrr : Der rr 700 b.
  Hypothesis Hpos : 0 < rr 700.
  (* the temperature is the parameter *)
  Lemma ex_curve : curve_through exP exEa exz (fun w => w) rr 700 1 b 700 (rr 700 * 18).
  Proof. split; [exact (D_id 700)|]. split; [exact Hrr|]. split; [apply exa_K|]. unfold density_is. cbn. field. Qed.
  Lemma ex_one : one_phase exP 700 (rr 700 * 18).
  Proof. split; [cbn; lra|]. split; [lra|]. split; [lra|]. left. cbn. lra. Qed.
  Lemma ex_regular : regular_curve exP exEa exz (fun w => w) rr 700.
  Proof. exists 1. split; [lra|]. intros. left. reflexivity. Qed.
  Lemma ex_args : near (fun w => 0 < w /\ 0 < rr w /\ mp_argparse exP exEa 0 [] [("T", [Some w]); ("d", [Some (rr w)])] = Ok [single (Some w) (Some (18 * rr w))]) 700.
  Proof.
    refine (near_imp _ _ _ _ (near_good exP exEa 0 exz exZa _ _ _ _ _ _ _ ex_curve ex_one ex_regular)).
    intros w (K1 & K2 & _ & K4). unfold TT, DD in *. assert (Q : to_kelvin (z_T exz) w = w) by (symmetry; apply (kelvin_val exP exEa exz exZa), exa_K).
    rewrite Q in *. assert (Q2 : kgs exP (z_kM exz) / z_kV exz * rr w = 18 * rr w) by (unfold kgs; cbn; field). rewrite Q2 in *.
    repeat split; [exact K1|lra|exact K4].
  Qed.
  Lemma ex_pressures : reports (mm_p exP exEa 0) (fun w => w) rr 700 (fun w => / 10^5 * (461 * w * (18 * rr w))).
  Proof.
    destruct ex_args as (e & He & K). exists e. split; [exact He|]. intros w Hw. destruct (K w Hw) as (K1 & K2 & K3).
    rewrite (mm_p_val exP exEa 0 exz exZa), K3. cbn [bind map]. unfold mixed_at, single, liquid_all. cbn [s_sat s_T s_d1 s_d2 s_x map].
    eexists. f_equal. apply f_equal2; [|reflexivity]. apply f_equal2; [|reflexivity].
    unfold value0. pose proof (f_equal (fun j : fl * fl * fl => fmul (Some (/ z_kP exz)) (fst (fst j))) (ex_P [(Some w, Some (18 * rr w))] w (18 * rr w) K1)) as Q.
    exact Q.
  Qed.
  Lemma ex_entropies : reports (mm_s exP exEa 0) (fun w => w) rr 700
    (fun w => 18 / 1000 * (461 * (3/2 - ln (18 * rr w / 300) - 3/2 * ln (600 / w)))).
  Proof.
    destruct ex_args as (e & He & K). exists e. split; [exact He|]. intros w Hw. destruct (K w Hw) as (K1 & K2 & K3).
    rewrite (Proof_Mp1Path.mm_s_val exP exEa 0 exz exZa), K3. cbn [bind map]. unfold mixed_at, single, liquid_all. cbn [s_sat s_T s_d1 s_d2 s_x map].
    eexists. f_equal. apply f_equal2; [|reflexivity]. apply f_equal2; [|reflexivity].
    assert (P : 0 < 18 * rr w) by lra.
    pose proof (f_equal (fmul (Some (18 / 1000))) (ex_s [(Some w, Some (18 * rr w))] w (18 * rr w) K1 P)) as Q.
    transitivity (fmul (Some (18 / 1000)) (value0 (mp_s exP [(Some w, Some (18 * rr w))] (Some w) (Some (18 * rr w)) 0))); [|exact Q].
    f_equal. f_equal. unfold kgs. cbn. field.
  Qed.
  Lemma ex_heat : exists x, mm_cp exP exEa 0 [] [("T", [Some 700]); ("d", [Some (rr 700)])] = Ok ([Some (18 / 1000 * (2305/2))], [x]).
  Proof.
    destruct (near_at _ _ ex_args) as (K1 & K2 & K3). rewrite (mm_cp_val exP exEa 0 exz exZa), K3.
    cbn [bind map]. unfold single, liquid_all. cbn [s_sat s_T s_d1 s_d2 s_x map].
    eexists. f_equal. apply f_equal2; [|reflexivity]. apply f_equal2; [|reflexivity].
    assert (P : 0 < 18 * rr 700) by lra.
    assert (Q : mp_cp exP [(Some 700, Some (18 * rr 700))] (Some 700) (Some (18 * rr 700)) = Some (2305/2)).
    { unfold mp_cp. rewrite (proj1 (ex_red 700 _ K1)), (proj2 (ex_red 700 _ K1)), (ex_ao2 _ _ K1 P), ex_ar0. unfold num. cbn [fmul fadd fsub fneg lift1 lift2]. rewrite !fdiv_ok by lra. cbn [fmul fadd fsub fneg lift1 lift2]. cbn [mp_R exP]. f_equal. field. }
    transitivity (fmul (Some (18 / 1000)) (Some (2305/2))); [|cbn; f_equal; field].
    apply f_equal2; [|exact Q]. f_equal. unfold kgs. cbn. field.
  Qed.
  Lemma ex_sound : exists x, mm_a exP exEa 0 [] [("T", [Some 700]); ("d", [Some (rr 700)])] = Ok ([Some (60 / 1000 * sqrt (2305/3 * 700))], [x]).
  Proof.
    destruct (near_at _ _ ex_args) as (K1 & K2 & K3). rewrite (mm_a_val exP exEa 0 exz exZa "km" "min" 1000 60) by reflexivity. rewrite K3.
    cbn [bind map]. unfold single, liquid_all. cbn [s_sat s_T s_d1 s_d2 s_x map].
    eexists. f_equal. apply f_equal2; [|reflexivity]. apply f_equal2; [|reflexivity].
    assert (P : 0 < 18 * rr 700) by lra.
    assert (Q : mp_a exP [(Some 700, Some (18 * rr 700))] (Some 700) (Some (18 * rr 700)) = Some (sqrt (2305/3 * 700))).
    { unfold mp_a. rewrite (proj1 (ex_red 700 _ K1)), (proj2 (ex_red 700 _ K1)), (ex_ao2 _ _ K1 P), ex_ar0. unfold num. cbn [fmul fadd fsub fneg lift1 lift2]. rewrite !fdiv_ok by lra. cbn [fmul fadd fsub fneg lift1 lift2]. cbn [mp_R exP].
      unfold fsqrt. match goal with |- context [Rle_dec 0 ?v] => replace v with (2305/3 * 700) by field; destruct (Rle_dec 0 (2305/3 * 700)); [reflexivity|lra] end. }
    transitivity (fmul (Some (60 / 1000)) (Some (sqrt (2305/3 * 700)))); [|reflexivity].
    apply f_equal2; [reflexivity|exact Q].
  Qed.
End Curve.
Lemma reports_ext m t r u f g : reports m t r u f -> near (fun w => f w = g w) u -> reports m t r u g.
Proof.
  intros (e1 & P1 & R1) (e2 & P2 & R2). exists (Rmin e1 e2). split; [now apply Rmin_glb_lt|]. intros w Hw.
  rewrite <- R2 by (eapply Rlt_le_trans; [exact Hw|apply Rmin_r]). apply R1. eapply Rlt_le_trans; [exact Hw|apply Rmin_l].
Qed.
Lemma near_700 : near (fun w => 0 < w) 700.
Proof. exists 700. split; [lra|]. intros w Hw. apply Rabs_def2 in Hw. lra. Qed.

Definition isobar_d (w : R) : R := / w * 700.
Lemma isobar_slope : Der isobar_d 700 (- / (700 * 700) * 700).
Proof.
  unfold isobar_d. eapply D_eq; [exact (D_mult _ _ _ _ _ (D_inv 700 ltac:(lra)) (D_const 700 700))|cbn beta; field].
Qed.
Lemma isobar_const : reports (mm_p exP exEa 0) (fun w => w) isobar_d 700 (fun _ => 461 * 18 * 700 / 10^5).
Proof.
  refine (reports_ext _ _ _ _ _ _ (ex_pressures _ _ isobar_slope _) (near_imp _ _ _ _ near_700)).
  - unfold isobar_d. lra.
  - intros w Hw. cbv beta. unfold isobar_d. field. lra.
Qed.
Definition isentrope_d (w : R) : R := Rpower (/ 700 * w) (3/2).
Lemma ln_700 w : 0 < w -> ln (18 * isentrope_d w / 300) = ln (18 / 300) + 3/2 * (ln (/ 700) + ln w).
Proof.
  intro Hw. unfold isentrope_d. replace (18 * Rpower (/ 700 * w) (3/2) / 300) with (18 / 300 * Rpower (/ 700 * w) (3/2)) by field.
  assert (0 < / 700) by lra. rewrite ln_mult by (try lra; apply exp_pos). unfold Rpower. rewrite ln_exp, ln_mult by lra. reflexivity.
Qed.
Lemma isentrope_at : isentrope_d 700 = 1.
Proof. unfold isentrope_d. replace (/ 700 * 700) with 1 by field. unfold Rpower. rewrite ln_1, Rmult_0_r. apply exp_0. Qed.
Lemma isentrope_slope : Der isentrope_d 700 (3 / 2 / 700).
Proof.
  unfold isentrope_d. pose proof (D_scal _ (/ 700) _ _ (D_id 700)) as A.
  assert (P : 0 < (fun u => / 700 * u) 700) by (cbv beta; lra).
  eapply D_eq; [exact (D_comp _ _ _ _ _ A (D_power _ (3/2) P))|]. cbv beta. replace (/ 700 * 700) with 1 by field.
  unfold Rpower at 1. rewrite ln_1, Rmult_0_r, exp_0. field.
Qed.
Lemma isentrope_const : reports (mm_s exP exEa 0) (fun w => w) isentrope_d 700
  (fun _ => 18 / 1000 * (461 * (3/2 - ln (18 / 300) - 3/2 * (ln (/ 700) + ln 600)))).
Proof.
  refine (reports_ext _ _ _ _ _ _ (ex_entropies _ _ isentrope_slope _) (near_imp _ _ _ _ near_700)).
  - rewrite isentrope_at. lra.
  - intros w Hw. cbv beta. rewrite ln_700 by exact Hw. assert (0 < / w) by (apply Rinv_0_lt_compat; lra).
    replace (ln (600 / w)) with (ln 600 - ln w).
    + ring.
    + unfold Rdiv. rewrite ln_mult, ln_Rinv by lra. ring.
Qed.
Lemma inst_C88 :
  (* the hypotheses hold along an isobar and an isentrope of the substance *)
  (curve_through exP exEa exz (fun w => w) isobar_d 700 1 (- / (700 * 700) * 700) 700 (isobar_d 700 * 18) /\
   one_phase exP 700 (isobar_d 700 * 18) /\ regular_curve exP exEa exz (fun w => w) isobar_d 700 /\
   reports (mm_p exP exEa 0) (fun w => w) isobar_d 700 (fun _ => 461 * 18 * 700 / 10^5) /\
   (exists x, mm_cp exP exEa 0 [] [("T", [Some 700]); ("d", [Some (isobar_d 700)])] = Ok ([Some (18 / 1000 * (2305/2))], [x])) /\
   exists h, reports (mm_h exP exEa 0) (fun w => w) isobar_d 700 h /\ deriv h 700 (18 / 1000 * (2305/2) * 1)) /\
  (curve_through exP exEa exz (fun w => w) isentrope_d 700 1 (3 / 2 / 700) 700 (isentrope_d 700 * 18) /\
   one_phase exP 700 (isentrope_d 700 * 18) /\ regular_curve exP exEa exz (fun w => w) isentrope_d 700 /\
   (exists x, mm_a exP exEa 0 [] [("T", [Some 700]); ("d", [Some (isentrope_d 700)])] = Ok ([Some (60 / 1000 * sqrt (2305/3 * 700))], [x])) /\
   exists p p', reports (mm_p exP exEa 0) (fun w => w) isentrope_d 700 p /\ deriv p 700 p' /\ p' = 461 * 18 * 5 / 2 / 10^5).
Proof.
  assert (P1 : 0 < isobar_d 700) by (unfold isobar_d; lra).
  assert (P2 : 0 < isentrope_d 700) by (rewrite isentrope_at; lra).
  pose proof (ex_curve _ _ isobar_slope) as C1. pose proof (ex_one _ P1) as O1. pose proof (ex_regular isobar_d) as R1.
  pose proof (ex_curve _ _ isentrope_slope) as C2. pose proof (ex_one _ P2) as O2. pose proof (ex_regular isentrope_d) as R2.
  destruct (ex_heat _ _ isobar_slope P1) as (x1 & M1). destruct (ex_sound _ _ isentrope_slope P2) as (x2 & M2).
  split.
  - split; [exact C1|]. split; [exact O1|]. split; [exact R1|]. split; [exact isobar_const|]. split; [exists x1; exact M1|].
    exact (isobar exP exEa 0 exz exZa ex_wf _ _ _ _ _ _ _ C1 O1 R1 _ _ _ eq_refl isobar_const M1).
  - split; [exact C2|]. split; [exact O2|]. split; [exact R2|]. split; [exists x2; exact M2|].
    destruct (isentrope exP exEa 0 exz exZa ex_wf _ _ _ _ _ _ _ C2 O2 R2 _ _ _ _ eq_refl isentrope_const M2 (exa_speed _)) as (p & p' & RP & DP & Q).
    exists p, p'. split; [exact RP|]. split; [exact DP|]. specialize (Q (p' * 10^5) (3/2/700 * 18) eq_refl).
    assert (K : p' * 10 ^ 5 = 461 * 18 * 5 / 2).
    { rewrite Q by (unfold density_is; cbn; field).
      replace (60 / 1000 * sqrt (2305 / 3 * 700) * 1000 / 60 * (60 / 1000 * sqrt (2305 / 3 * 700) * 1000 / 60)) with (sqrt (2305/3*700) * sqrt (2305/3*700)) by field.
      rewrite sqrt_sqrt by lra. field. }
    rewrite <- K. field.
Qed.

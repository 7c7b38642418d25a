(* Instances of the theorems about the heat capacity of substances with critical point terms (C75). *)
From Coq Require Import Reals ZArith List String Bool Lia Lra.
From Verif Require Import Base Model_Num Model_Units Model_Defaults Model_Igas Spec_Units Proof_Units Spec_Igas Proof_Igas.
From Verif Require Import Model_Mp1Calls Spec_Mp1 Spec_Mp1Calls Spec_Mp1Cv Proof_Mp1Units Proof_Mp1Poly Proof_Mp1Ex
  Proof_Mp1CallsEx Proof_Mp1Cv Proof_Mp1CvCrit.
From Verif Require Import Proof_Jets.
Import ListNotations.
Local Open Scope R_scope.
Local Open Scope string_scope.
Local Open Scope list_scope.

(* 1200 - 720 T/600 kg/m3 *)
Definition exDL : satgroup := {| sg_Tscale := 600; sg_scale := 1; sg_fn := 0%Z;
  sg_coef := [{| c1_pre := 1; c1_post := 0; c1_first := (1%Z, -720); c1_rest := [(0%Z, 1200)] |}] |}.
Definition exC : mpdata :=
  {| mp_R := 461; mp_mw := 18;
     mp_AO := {| ao_Tscale := 600; ao_dscale := 300; ao_logt := Some (3/2); ao_tlogt := None; ao_coef0 := None; ao_coef1 := None |};
     mp_AR := {| ar_Tscale := 600; ar_dscale := 300; ar_first := []; ar_rest := []; ar_coef1 := None; ar_coef2 := Some [ex_row] |};
     mp_PS := flat 1000000; mp_DSL := exDL; mp_DSV := flat 9;
     mp_Tc := 600; mp_pc := 22000000; mp_dc := 300; mp_Tt := 273; mp_pt := 600;
     mp_Tlim := (273, 1200); mp_plim := (0, 100000000); mp_dlim := (0, 1000) |}.
Lemma exC_Z : mp_sizes exC exE exz.
Proof. exact exZ. Qed.
Lemma exC_wf : mp_wf exC.
Proof. unfold mp_wf, ao_wf, ar_wf, ar_prey_ok. cbn. repeat split; try lra; try constructor; discriminate. Qed.
Lemma exDL_value T : sat_value exDL T = 1200 - 720 * (T / 600).
Proof.
  unfold sat_value, sat_form, value1, total. cbn [fold_right sg_Tscale sg_scale sg_fn sg_coef exDL c1_pre c1_post c1_rows c1_first c1_rest fst snd].
  unfold power. destruct (Req_EM_T 0 0) as [_|N]; [|lra]. destruct (Req_EM_T 1 0) as [N|_]; [lra|]. destruct (Req_EM_T 1 1) as [_|N]; [|lra].
  change (Z.to_nat 1) with 1%nat. change (Z.to_nat 0) with 0%nat. cbn [pow]. field.
Qed.
Lemma exDL_slope T : deriv (sat_value exDL) T (-(6/5)).
Proof.
  unfold deriv. apply (D_ext (fun u => 1200 - 6/5 * u)); [intro u; rewrite exDL_value; field|].
  eapply D_eq; [exact (D_minus _ _ _ _ _ (D_const 1200 T) (D_scal _ (6/5) _ _ (D_id T)))|lra].
Qed.
Lemma exC_sat : saturation exC 500 600 9.
Proof.
  unfold saturation. cbn [mp_DSL mp_DSV exC]. rewrite exDL_value.
  unfold sat_wf, sat_smooth, sat_value, sat_form. cbn [flat exDL sg_coef sg_Tscale sg_fn sg_scale]. cbn [value1 total fold_right map]. 
  split.
  { split; [|split; [lra|lia]]. constructor; [|constructor]. split; cbn; [intros t [<-|[<-|[]]]; cbn; lia|].
    split; [|split; [intros b []|exact I]]. intros b [<-|[]]. reflexivity. }
  split; [split; [constructor|split; [lra|lia]]|]. split; [split; [lra|right; left; reflexivity]|].
  split; [split; [lra|left; constructor]|]. split; [lra|]. unfold value1, total. cbn [fold_right map]. rewrite exp_0. lra.
Qed.
Lemma exC_dens r : density_is exC exz r (r * 18).
Proof. unfold density_is. cbn. field. Qed.
Lemma exC_high T d : 300 < d -> Spec_Mp1.residual_ok exC [(Some T, Some d)] T d.
Proof.
  intro H. apply (Proof_Mp1Neg.row_ok exC ex_row exC_wf eq_refl ex_row_wf); cbn; lra.
Qed.

Lemma inst_C75_crit :
  (exists cv x, mm_cv exC exE 0 [] [("T", [Some 700]); ("d", [Some 20])] = Ok ([Some cv], [x]) /\
     slope_of_e exC exE 0 exz 700 (20 * 18) cv) /\
  (exists d0, forall r, 9 < r * 18 < 600 -> r * 18 <> d0 ->
     exists cv x, mm_cv exC exE 0 [] [("T", [Some 500]); ("d", [Some r])] = Ok ([Some cv], [x]) /\
       ~ slope_of_e exC exE 0 exz 500 (r * 18) cv).
Proof.
  split.
  - apply (single_phase_one exC exE 0 exz exC_Z exC_wf eq_refl 700 20 700 (20 * 18)).
    + apply ex_K.
    + apply exC_dens.
    + cbn; lra.
    + lra.
    + lra.
    + apply exC_high. lra.
    + left. cbn. lra.
  - destruct (mixture_cv_wrong exC exE 0 exz ex_row exC_Z exC_wf eq_refl ex_row_wf) with (T := 500) (dL := 600) (dV := 9) (lL := -(6/5)) as (d0 & H).
    + cbn; lra.
    + cbn; lra.
    + cbn; lra.
    + reflexivity.
    + cbn; lra.
    + cbn; lra.
    + exact exC_sat.
    + lra.
    + cbn; lra.
    + cbn; lra.
    + exact ex_delta.
    + apply exDL_slope.
    + lra.
    + exists d0. intros r Hr Hn. apply (H 500 r (r * 18)); [apply ex_K|apply exC_dens|exact Hr|exact Hn].
Qed.

(* Property theorems C75: the isochoric heat capacity of the multi-phase class,
   src/pyromat/registry/mp1.py. *)
From Coq Require Import Reals List String Lra.
From Verif Require Import Base Model_Igas Spec_Igas Model_Mp1Calls Spec_Mp1 Spec_Mp1Calls Spec_Mp1Cv Proof_Mp1Cv
  Proof_Mp1CallsEx Proof_Mp1CvEx Proof_Mp1CvCrit Proof_Mp1Ex Proof_Mp1CvCritEx.
Import ListNotations.
Local Open Scope R_scope.
Local Open Scope string_scope.
Local Open Scope list_scope.

(* Inside the dome: whenever cv() returns, the number it reports is the slope of the reported
   internal energy of the mixture along the isochore, so the latent part (the change of the
   quality and of the saturation densities with temperature) is right.
   What is missing: data with critical point terms, for which it is false
   (C75_critical_mixture_refuted), and data with two temperature scales, for which e() itself is wrong (C47); calls in which cv() fails (C75_mixed_array_refuted). *)
Theorem C75_two_phase_partial : forall D E fuel z, mp_sizes D E z -> mp_wf D ->
  ar_coef2 (mp_AR D) = None -> ao_Tscale (mp_AO D) = ar_Tscale (mp_AR D) ->
  forall varg kw i T d dL dV ys xs, state_Td D E z varg kw i T d ->
  fst (mp_Tlim D) < T < snd (mp_Tlim D) -> T < mp_Tc D -> saturation D T dL dV -> 0 < dV -> dV < d < dL ->
  mm_cv D E fuel varg kw = Ok (ys, xs) ->
  exists cv, nth_error ys i = Some (Some cv) /\ slope_of_e D E fuel z T d cv.
Proof. exact two_phase_cv. Qed.
Print Assumptions C75_two_phase_partial.

(* outside of the dome; for data with critical point terms see C75_single_state_partial *)
Theorem C75_single_phase_partial : forall D E fuel z, mp_sizes D E z -> mp_wf D ->
  ar_coef2 (mp_AR D) = None -> ao_Tscale (mp_AO D) = ar_Tscale (mp_AR D) ->
  forall varg kw i T d ys xs, state_Td D E z varg kw i T d ->
  fst (mp_Tlim D) < T < snd (mp_Tlim D) -> 0 < T -> 0 < d ->
  mp_Tc D < T \/ (exists dL dV, saturation D T dL dV /\ (d < dV \/ dL < d)) ->
  mm_cv D E fuel varg kw = Ok (ys, xs) ->
  exists cv, nth_error ys i = Some (Some cv) /\ slope_of_e D E fuel z T d cv.
Proof. exact single_phase_cv. Qed.
Print Assumptions C75_single_phase_partial.

(* for one state cv() returns *)
Theorem C75_one_state : forall D E fuel z, mp_sizes D E z ->
  forall t r T d, kelvin_is E t T -> density_is D z r d -> in_range (mp_Tlim D) T ->
  exists y x, mm_cv D E fuel [] [("T", [Some t]); ("d", [Some r])] = Ok ([y], [x]).
Proof. exact scalar_cv. Qed.
Print Assumptions C75_one_state.

(* but for no array in which some states are inside of the dome and some are not *)
Theorem C75_mixed_array_refuted : forall D E fuel z, mp_sizes D E z ->
  forall varg kw i j Ti di dL dV Tj dj,
  state_Td D E z varg kw i Ti di -> in_range (mp_Tlim D) Ti -> Ti < mp_Tc D -> saturation D Ti dL dV -> 0 < dV ->
  dV < di < dL ->
  state_Td D E z varg kw j Tj dj -> in_range (mp_Tlim D) Tj ->
  mp_Tc D <= Tj \/ (exists dL dV, saturation D Tj dL dV /\ (dj <= dV \/ dL <= dj)) ->
  mm_cv D E fuel varg kw = Err EValueError.
Proof. exact mixed_error. Qed.
Print Assumptions C75_mixed_array_refuted.

(* Outside of the dome, for one state and data with or without critical point terms: cv() returns
   the slope of the reported internal energy.  What is missing: data with two temperature scales,
   for which e() itself is wrong (C47); states at the critical point, or less than 0.0001 % below
   the critical density (`residual_ok`). *)
Theorem C75_single_state_partial : forall D E fuel z, mp_sizes D E z -> mp_wf D ->
  ao_Tscale (mp_AO D) = ar_Tscale (mp_AR D) ->
  forall t r T d, kelvin_is E t T -> density_is D z r d ->
  fst (mp_Tlim D) < T < snd (mp_Tlim D) -> 0 < T -> 0 < d -> residual_ok D [(Some T, Some d)] T d ->
  mp_Tc D < T \/ (exists dL dV, saturation D T dL dV /\ (d < dV \/ dL < d)) ->
  exists cv x, mm_cv D E fuel [] [("T", [Some t]); ("d", [Some r])] = Ok ([Some cv], [x]) /\
    slope_of_e D E fuel z T d cv.
Proof. exact single_phase_one. Qed.
Print Assumptions C75_single_state_partial.

(* FINDING: inside of the dome of a substance with a critical point term (water, carbon dioxide)
   cv() is not the slope of the internal energy, at any density but at most one: it uses the
   density slopes of the energy at the saturation lines, which contain the wrong mixed derivative
   (C45_mixed_refuted). *)
Theorem C75_critical_mixture_refuted : forall D E fuel z r, mp_sizes D E z -> mp_wf D ->
  ar_coef2 (mp_AR D) = Some [r] -> crit_wf r -> r2_c r <> 0 -> 0 <= r2_A r -> 0 < r2_B r ->
  ao_Tscale (mp_AO D) = ar_Tscale (mp_AR D) ->
  forall T dL dV lL, fst (mp_Tlim D) < T < snd (mp_Tlim D) -> T < mp_Tc D ->
  saturation D T dL dV -> 0 < dV -> dV < (1 - 1 / 1000000) * ar_dscale (mp_AR D) ->
  (1 + 1 / 1000000) * ar_dscale (mp_AR D) < dL ->
  1 / 1000000 <= delta_fn r (ar_Tscale (mp_AR D) / T) (dL / ar_dscale (mp_AR D)) ->
  deriv (sat_value (mp_DSL D)) T lL -> lL <> 0 ->
  exists d0, forall t rho d, kelvin_is E t T -> density_is D z rho d -> dV < d < dL -> d <> d0 ->
    exists cv x, mm_cv D E fuel [] [("T", [Some t]); ("d", [Some rho])] = Ok ([Some cv], [x]) /\
      ~ slope_of_e D E fuel z T d cv.
Proof. exact mixture_cv_wrong. Qed.
Print Assumptions C75_critical_mixture_refuted.

(* a substance with a critical point term, saturated liquid of 600 kg/m3 at 500 K *)
Example C75_critical_instance :
  (exists cv x, mm_cv exC exE 0 [] [("T", [Some 700]); ("d", [Some 20])] = Ok ([Some cv], [x]) /\
     slope_of_e exC exE 0 exz 700 (20 * 18) cv) /\
  (exists d0, forall r, 9 < r * 18 < 600 -> r * 18 <> d0 ->
     exists cv x, mm_cv exC exE 0 [] [("T", [Some 500]); ("d", [Some r])] = Ok ([Some cv], [x]) /\
       ~ slope_of_e exC exE 0 exz 500 (r * 18) cv).
Proof. exact inst_C75_crit. Qed.

(* 500 K, 180 and 1080 kg/m3, saturation densities 900 and 9 kg/m3 *)
Example C75_instance :
  (exists y x, mm_cv exP exE 0 [] [("T", [Some 500]); ("d", [Some 10])] = Ok ([Some y], [x]) /\
     slope_of_e exP exE 0 exz 500 (10 * 18) y) /\
  (exists y x, mm_cv exP exE 0 [] [("T", [Some 500]); ("d", [Some 60])] = Ok ([Some y], [x]) /\
     slope_of_e exP exE 0 exz 500 (60 * 18) y) /\
  mm_cv exP exE 0 [] [("T", [Some 500]); ("d", [Some 10; Some 60])] = Err EValueError.
Proof. exact inst_C75. Qed.

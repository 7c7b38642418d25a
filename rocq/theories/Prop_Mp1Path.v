(* Property theorems C88: how the reported properties of the multi-phase class change together along
   curves of states, src/pyromat/registry/mp1.py. *)
From Coq Require Import Reals List String Lra.
From Verif Require Import Base Model_Igas Spec_Igas Model_Mp1Calls Spec_Mp1 Spec_Mp1Calls Spec_Mp1Path Proof_Mp1Path
  Proof_Mp1CallsEx Proof_Mp1PathEx.
Import ListNotations.
Local Open Scope R_scope.
Local Open Scope string_scope.
Local Open Scope list_scope.

(* Through any state of one phase, along any differentiable curve of temperatures and densities, h(), s() and
   p() report numbers with slopes, and in kg, J, K, m the slopes obey dh = T ds + dp / d.  Data with and
   without critical point terms. *)
Theorem C88_gibbs : forall D E fuel z, mp_sizes D E z -> mp_wf D ->
  forall tt rr u a b T d, curve_through D E z tt rr u a b T d -> one_phase D T d -> regular_curve D E z tt rr u ->
  exists h s p h' s' p', reports (mm_h D E fuel) tt rr u h /\ reports (mm_s D E fuel) tt rr u s /\
    reports (mm_p D E fuel) tt rr u p /\ deriv h u h' /\ deriv s u s' /\ deriv p u p' /\
    forall dh ds dp, energy_is D z h' dh -> entropy_is D z s' ds -> pressure_is z p' dp -> dh = T * ds + dp / d.
Proof. exact gibbs. Qed.
Print Assumptions C88_gibbs.

(* de = T ds + p/d^2 dd.  What is missing: data with two temperature scales, for which e() is wrong (C47). *)
Theorem C88_energy_partial : forall D E fuel z, mp_sizes D E z -> mp_wf D ->
  forall tt rr u a b T d, curve_through D E z tt rr u a b T d -> one_phase D T d -> regular_curve D E z tt rr u ->
  ao_Tscale (mp_AO D) = ar_Tscale (mp_AR D) ->
  exists e s e' s', reports (mm_e D E fuel) tt rr u e /\ reports (mm_s D E fuel) tt rr u s /\
    deriv e u e' /\ deriv s u s' /\
    forall de ds P dd x, energy_is D z e' de -> entropy_is D z s' ds -> density_is D z b dd ->
      mm_p D E fuel [] [("T", [Some (tt u)]); ("d", [Some (rr u)])] = Ok ([Some P], [x]) ->
      forall p, pressure_is z P p -> de = T * ds + p / (d * d) * dd.
Proof. exact gibbs_e. Qed.
Print Assumptions C88_energy_partial.

(* Along a curve on which p() reports one pressure, cp() reports the slope of h() against the temperature.
   What is missing: data with critical point terms, whose mixed derivative is wrong (C69). *)
Theorem C88_isobar_partial : forall D E fuel z, mp_sizes D E z -> mp_wf D ->
  forall tt rr u a b T d, curve_through D E z tt rr u a b T d -> one_phase D T d -> regular_curve D E z tt rr u ->
  forall cp x p0, ar_coef2 (mp_AR D) = None -> reports (mm_p D E fuel) tt rr u (fun _ => p0) ->
    mm_cp D E fuel [] [("T", [Some (tt u)]); ("d", [Some (rr u)])] = Ok ([Some cp], [x]) ->
    exists h, reports (mm_h D E fuel) tt rr u h /\ deriv h u (cp * a).
Proof. exact isobar. Qed.
Print Assumptions C88_isobar_partial.

(* Along a curve on which s() reports one entropy, the square of the speed that a() reports is the slope of p()
   against the density, in m, s and kg.  What is missing: as above. *)
Theorem C88_isentrope_partial : forall D E fuel z, mp_sizes D E z -> mp_wf D ->
  forall tt rr u a b T d, curve_through D E z tt rr u a b T d -> one_phase D T d -> regular_curve D E z tt rr u ->
  forall c cs x s0, ar_coef2 (mp_AR D) = None -> reports (mm_s D E fuel) tt rr u (fun _ => s0) ->
    mm_a D E fuel [] [("T", [Some (tt u)]); ("d", [Some (rr u)])] = Ok ([Some c], [x]) -> speed_is E c cs ->
    exists p p', reports (mm_p D E fuel) tt rr u p /\ deriv p u p' /\
      forall dp dd, pressure_is z p' dp -> density_is D z b dd -> dp = cs * cs * dd.
Proof. exact isentrope. Qed.
Print Assumptions C88_isentrope_partial.

Example C88_instance :
  (curve_through exP exEa exz (fun w => w) isobar_d 700 1 (- / (700 * 700) * 700) 700 (isobar_d 700 * 18) /\
   one_phase exP 700 (isobar_d 700 * 18) /\ regular_curve exP exEa exz (fun w => w) isobar_d 700 /\
   reports (mm_p exP exEa 0) (fun w => w) isobar_d 700 (fun _ => 461 * 18 * 700 / 10^5) /\
   (exists x, mm_cp exP exEa 0 [] [("T", [Some 700]); ("d", [Some (isobar_d 700)])] = Ok ([Some (18 / 1000 * (2305/2))], [x])) /\
   exists h, reports (mm_h exP exEa 0) (fun w => w) isobar_d 700 h /\ deriv h 700 (18 / 1000 * (2305/2) * 1)) /\
  (curve_through exP exEa exz (fun w => w) isentrope_d 700 1 (3 / 2 / 700) 700 (isentrope_d 700 * 18) /\
   one_phase exP 700 (isentrope_d 700 * 18) /\ regular_curve exP exEa exz (fun w => w) isentrope_d 700 /\
   (exists x, mm_a exP exEa 0 [] [("T", [Some 700]); ("d", [Some (isentrope_d 700)])] = Ok ([Some (60 / 1000 * sqrt (2305/3 * 700))], [x])) /\
   exists p p', reports (mm_p exP exEa 0) (fun w => w) isentrope_d 700 p /\ deriv p 700 p' /\ p' = 461 * 18 * 5 / 2 / 10^5).
Proof. exact inst_C88. Qed.

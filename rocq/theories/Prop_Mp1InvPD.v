(* Property theorems C87: the states of the multi-phase class found from pressure and density,
   src/pyromat/registry/mp1.py. *)
From Coq Require Import Reals List String Lra.
From Verif Require Import Base Model_Igas Spec_Igas Spec_Hybrid Model_Mp1Calls Model_Mp1Warn Spec_Mp1 Spec_Mp1Calls Spec_Mp1Inv Spec_Mp1InvP Spec_Mp1Ts
  Spec_Mp1InvPD Proof_Mp1InvPD Proof_Mp1CallsEx Proof_Mp1TsEx Proof_Mp1InvPDEx.
Import ListNotations.
Local Open Scope R_scope.
Local Open Scope string_scope.
Local Open Scope list_scope.

(* Whenever T() returns without a warning, a state given by p and the density (or specific volume)
   that is not between the saturated phases is looked for between two temperatures lo and hi.  Y T
   being the pressure at T and that density, the quality reported is -1; if Y encloses p the
   temperature reported solves Y T = p to one part in a million, d() of the same call reports the
   density requested and, unless that temperature puts it under the dome, p() reports Y T; if Y does
   not enclose p the temperature is nan.
   What is missing: arrays of several states for data with critical point terms (C69). *)
Theorem C87_temperature_partial : forall D E fuel z, mp_sizes D E z -> mp_wf D ->
  forall varg kw i q p dn r d ts xs, state_pair varg kw i "p" q dn r -> pressure_is z q p -> in_range (mp_plim D) p ->
  density_arg D z dn r d -> 0 < d -> 0 < mp_Tt D < mp_Tc D ->
  mm_T D E fuel varg kw = Ok (ts, xs) -> evaluated_alone D xs -> call_warns D E fuel varg kw = Ok false ->
  forall lo hi, isochore_limits D E q p d lo hi -> 0 < lo <= hi ->
  (forall T, lo <= T <= hi -> dome_at D T /\ evaluable_around D T d) ->
  forall Y, (forall T, lo <= T <= hi -> pressure_along D d T (Y T)) -> Y lo <> p -> Y hi <> p ->
  nth_error xs i = Some (Some (-1)) /\
  (bracketed Y lo hi p -> exists t T, nth_error ts i = Some (Some t) /\ kelvin_is E t T /\ solves Y lo hi p (1 / 1000000) T /\
     (exists ds r', mm_d D E fuel varg kw = Ok (ds, xs) /\ nth_error ds i = Some (Some r') /\ density_is D z r' d) /\
     (~ under_dome D T d -> exists qs q', mm_p D E fuel varg kw = Ok (qs, xs) /\ nth_error qs i = Some (Some q') /\ pressure_is z q' (Y T))) /\
  (~ bracketed Y lo hi p -> e_oob E = None -> nth_error ts i = Some None).
Proof. exact T_from_pd. Qed.
Print Assumptions C87_temperature_partial.

(* 44 bar and 4.4 MPa / (461 J/kgK * 1100 K) for the ideal gas of the instance: exactly 1100 K *)
Example C87_instance : forall fuel, let d := r1100 * 18 in
  state_pair [] (kpd 44 r1100) 0 "p" 44 "d" r1100 /\ pressure_is exz 44 4400000 /\ in_range (mp_plim exL) 4400000 /\
  density_arg exL exz "d" r1100 d /\ 0 < d /\ mp_wf exL /\ boils_at exL exE 44 280 /\
  isochore_limits exL exE 44 4400000 d (1386/5) 1200 /\
  (forall T, 1386/5 <= T <= 1200 -> dome_at exL T /\ evaluable_around exL T d /\ pressure_along exL d T (461 * d * T)) /\
  bracketed (fun T => 461 * d * T) (1386/5) 1200 4400000 /\
  call_warns exL exE fuel [] (kpd 44 r1100) = Ok false /\
  mm_T exL exE fuel [] (kpd 44 r1100) = Ok ([Some 1100], [Some (-1)]).
Proof. exact inst_pd. Qed.

(* A density between those of the saturated phases dL and dV at the boiling point Ts: T() reports
   exactly Ts, the quality mixes dL and dV to the density requested, d() reports that density and
   p() the pressure of the equation of state at Ts and dV. *)
Theorem C87_saturated : forall D E fuel z, mp_sizes D E z -> mp_wf D ->
  forall varg kw i q p dn r d ts xs, state_pair varg kw i "p" q dn r -> pressure_is z q p -> in_range (mp_plim D) p ->
  density_arg D z dn r d -> 0 < mp_Tt D < mp_Tc D -> mm_T D E fuel varg kw = Ok (ts, xs) ->
  forall Ts dL dV, boiling_point D E q p Ts -> saturation D Ts dL dV -> 0 < dV < dL -> dV <= d <= dL ->
  exists t x, nth_error ts i = Some (Some t) /\ kelvin_is E t Ts /\
    nth_error xs i = Some (Some x) /\ 0 <= x <= 1 /\ 1 / d = (1 - x) / dL + x / dV /\
    (exists ds r', mm_d D E fuel varg kw = Ok (ds, xs) /\ nth_error ds i = Some (Some r') /\ density_is D z r' d) /\
    (forall pV, evaluated_alone D xs -> evaluable D Ts dV -> at_state (mp_p D) Ts dV pV ->
       exists qs q', mm_p D E fuel varg kw = Ok (qs, xs) /\ nth_error qs i = Some (Some q') /\ pressure_is z q' pV).
Proof. exact saturated_from_pd. Qed.
Print Assumptions C87_saturated.

(* 165 bar, at which the substance boils at 500 K, and 10 kmol/m3 *)
Example C87_saturated_instance : forall fuel,
  state_pair [] (kpd 165 10) 0 "p" 165 "d" 10 /\ pressure_is exz 165 16500000 /\ density_arg exL exz "d" 10 (10 * 18) /\
  boiling_point exL exE 165 16500000 500 /\ saturation exL 500 900 9 /\ 9 <= 10 * 18 <= 900 /\ evaluable exL 500 9 /\ at_state (mp_p exL) 500 9 (461 * 500 * 9) /\
  call_warns exL exE fuel [] (kpd 165 10) = Ok false /\
  mm_T exL exE fuel [] (kpd 165 10) = Ok ([Some 500], [Some (4 / 99)]).
Proof. exact inst_pd_sat. Qed.

(* Below the triple point pressure the boiling point is made up, and states exist that are not
   found again: p() reports the pressure q of a vapor at 300 K, but T() for q and the same density
   raises PMParamError. *)
Theorem C87_found_again_refuted : exists D E z fuel t q r, mp_sizes D E z /\ mp_wf D /\ 0 < mp_Tt D < mp_Tc D /\ kelvin_is E t 300 /\
  in_range (mp_Tlim D) 300 /\
  mm_p D E fuel [] [("T", [Some t]); ("d", [Some r])] = Ok ([Some q], [Some (-1)]) /\
  mm_d D E fuel [] [("T", [Some t]); ("d", [Some r])] = Ok ([Some r], [Some (-1)]) /\
  (exists p, pressure_is z q p /\ in_range (mp_plim D) p /\ p < mp_pt D) /\
  mm_T D E fuel [] [("p", [Some q]); ("d", [Some r])] = Err PMParamError.
Proof. exact low_pressure. Qed.
Print Assumptions C87_found_again_refuted.

(* There T() can report, without a warning, a mixture of liquid and vapor at a temperature whose
   vapor pressure is more than ten times the pressure requested. *)
Theorem C87_boiling_refuted : exists D E z fuel q p r d t T x, mp_sizes D E z /\ mp_wf D /\ 0 < mp_Tt D < mp_Tc D /\
  pressure_is z q p /\ in_range (mp_plim D) p /\ density_is D z r d /\
  call_warns D E fuel [] [("p", [Some q]); ("d", [Some r])] = Ok false /\
  mm_T D E fuel [] [("p", [Some q]); ("d", [Some r])] = Ok ([Some t], [Some x]) /\ kelvin_is E t T /\ 0 < x < 1 /\
  10 * p < vapor_pressure D T.
Proof. exact low_mixture. Qed.
Print Assumptions C87_boiling_refuted.

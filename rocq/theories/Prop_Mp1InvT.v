(* Property theorems C81: the states of the multi-phase class found from e, h or s,
   src/pyromat/registry/mp1.py. *)
From Coq Require Import Reals List String Lra.
From Verif Require Import Base Model_Igas Spec_Igas Spec_Hybrid Model_Mp1Calls Model_Mp1Warn Spec_Mp1 Spec_Mp1Calls Spec_Mp1Inv
  Proof_Mp1InvT Proof_Mp1InvS Proof_Mp1CallsEx Proof_Mp1InvTEx Proof_Mp1InvSEx.
Import ListNotations.
Local Open Scope R_scope.
Local Open Scope string_scope.
Local Open Scope list_scope.

(* From e, h or s and density (or specific volume).  Y T is what the method m (e(), h() or s())
   reports when it is called with the temperature T and that density.  Whenever T() returns
   without a warning and Y at the limits a, b of the temperature encloses y, the temperature it
   reports solves Y T = y to one part in a million; m() of the same call reports Y at exactly
   that temperature, and d() the density requested, inside and outside the dome.  If Y does not
   enclose y the temperature is nan.
   What is missing: arrays of several states for data with critical point terms (C69),
   data with two temperature scales (C47). *)
Theorem C81_T_from_density_partial : forall D E fuel z, mp_sizes D E z -> mp_wf D ->
  ao_Tscale (mp_AO D) = ar_Tscale (mp_AR D) ->
  forall n m, In (n, m) (searched D E fuel) -> forall dn varg kw i y r d ts xs,
  state_pair varg kw i n y dn r -> density_arg D z dn r d -> 0 < d ->
  forall a b, mp_Tlim D = (a, b) -> 0 < a <= b -> (forall T, a <= T <= b -> dome_at D T) ->
  (forall T, a <= T <= b -> evaluable_around D T d) ->
  mm_T D E fuel varg kw = Ok (ts, xs) -> evaluated_alone D xs -> call_warns D E fuel varg kw = Ok false ->
  forall Y, (forall t T, kelvin_is E t T -> a <= T <= b -> exists x, m [] [("T", [Some t]); (dn, [Some r])] = Ok ([Some (Y T)], [x])) ->
  Y a <> y -> Y b <> y ->
  (bracketed Y a b y -> exists t T, nth_error ts i = Some (Some t) /\ kelvin_is E t T /\ solves Y a b y (1 / 1000000) T /\
     (exists ys, m varg kw = Ok (ys, xs) /\ nth_error ys i = Some (Some (Y T))) /\
     (exists ds r', mm_d D E fuel varg kw = Ok (ds, xs) /\ nth_error ds i = Some (Some r') /\ density_is D z r' d)) /\
  (~ bracketed Y a b y -> e_oob E = None -> nth_error ts i = Some None).
Proof. exact T_from_density. Qed.
Print Assumptions C81_T_from_density_partial.

(* 10372.5 kJ/kmol and 10 kmol/m3 in the two-phase region of the ideal gas of the instance:
   exactly 500 K *)
Example C81_instance : forall fuel,
  In ("h", mm_h exP exE fuel) (searched exP exE fuel) /\
  state_pair [] khd 0 "h" (20745/2) "d" 10 /\ density_arg exP exz "d" 10 (10 * 18) /\
  (forall T, 273 <= T <= 1200 -> dome_at exP T) /\ (forall T, 273 <= T <= 1200 -> evaluable_around exP T (10 * 18)) /\
  call_warns exP exE fuel [] khd = Ok false /\
  (exists x, mm_T exP exE fuel [] khd = Ok ([Some 500], [Some x]) /\ 0 < x < 1) /\
  (forall t T, kelvin_is exE t T -> 273 <= T <= 1200 ->
     exists x, mm_h exP exE fuel [] [("T", [Some t]); ("d", [Some 10])] = Ok ([Some (exY T)], [x])) /\
  bracketed exY 273 1200 (20745/2).
Proof. exact inst_C81. Qed.

(* From e, h or s and the temperature, for a value between those of the saturated liquid (vL) and
   of the saturated vapor (vV): the quality reported is between 0 and 1 and mixes vL and vV to
   the value requested, and the method reports exactly the value requested, at the temperature
   requested.
   What is missing: arrays of several states for data with critical point terms (C69),
   data with two temperature scales (C47). *)
Theorem C81_saturated_from_T_partial : forall D E fuel z, mp_sizes D E z -> mp_wf D ->
  ao_Tscale (mp_AO D) = ar_Tscale (mp_AR D) ->
  forall n m F, In (n, m) (searched D E fuel) -> In (n, F) (searched_eos D) -> forall varg kw i y v t T ys xs,
  state_pair varg kw i n y "T" t -> property_is D z n y v -> kelvin_is E t T -> in_range (mp_Tlim D) T -> 0 < T ->
  forall dL dV vL vV, T < mp_Tc D -> saturation D T dL dV -> 0 < dL -> 0 < dV ->
  evaluable D T dL -> evaluable D T dV -> at_state F T dL vL -> at_state F T dV vV -> vL < vV -> vL <= v <= vV ->
  m varg kw = Ok (ys, xs) -> evaluated_alone D xs ->
  exists x, nth_error xs i = Some (Some x) /\ 0 <= x <= 1 /\ v = (1 - x) * vL + x * vV /\ nth_error ys i = Some (Some y) /\
    (exists ts t', mm_T D E fuel varg kw = Ok (ts, xs) /\ nth_error ts i = Some (Some t') /\ kelvin_is E t' T).
Proof. exact saturated_from_T. Qed.
Print Assumptions C81_saturated_from_T_partial.

(* Outside the dome, Y d being the value the equation of state gives to the property at T and the
   density d: the quality reported is -1; if Y encloses the value v requested between the limits
   of the search, the density reported d is in that interval and Y d = v to one part in a
   million, or Y is exactly v at a density of the interval that is d to that accuracy; the method of the
   same call reports Y d for it and T() the temperature requested; if Y does not enclose v the
   density is nan.
   What is missing: arrays of several states for data with critical point terms (C69),
   data with two temperature scales (C47). *)
Theorem C81_density_from_T_partial : forall D E fuel z, mp_sizes D E z -> mp_wf D ->
  ao_Tscale (mp_AO D) = ar_Tscale (mp_AR D) ->
  forall n m F, In (n, m) (searched D E fuel) -> In (n, F) (searched_eos D) -> forall varg kw i y v t T ys xs,
  state_pair varg kw i n y "T" t -> property_is D z n y v -> kelvin_is E t T -> in_range (mp_Tlim D) T -> 0 < T ->
  0 <= fst (mp_dlim D) < snd (mp_dlim D) ->
  mm_d D E fuel varg kw = Ok (ys, xs) -> evaluated_alone D xs -> call_warns D E fuel varg kw = Ok false ->
  (forall d, 0 < d -> evaluable D T d) -> forall Y, (forall d, 0 < d -> at_state F T d (Y d)) ->
  forall lo0 hi, property_limits D T Y v lo0 hi ->
  nth_error xs i = Some (Some (-1)) /\
  exists lo, lower_limit D Y v lo0 lo /\
  (lo <= hi -> Y lo <> v -> Y hi <> v ->
  (bracketed Y lo hi v -> exists r d, nth_error ys i = Some (Some r) /\ density_is D z r d /\
     solves Y lo hi v (1 / 1000000) d /\ (ar_coef2 (mp_AR D) = None -> found Y lo hi v (1 / 1000000) d) /\
     (exists vs y', m varg kw = Ok (vs, xs) /\ nth_error vs i = Some (Some y') /\ property_is D z n y' (Y d)) /\
     (exists ts t', mm_T D E fuel varg kw = Ok (ts, xs) /\ nth_error ts i = Some (Some t') /\ kelvin_is E t' T)) /\
  (~ bracketed Y lo hi v -> e_oob E = None -> nth_error ys i = Some None)).
Proof. exact density_from_T. Qed.
Print Assumptions C81_density_from_T_partial.

(* 700 K and the enthalpy of 30 kg/m3 of a substance whose enthalpy falls linearly with density *)
Example C81_density_instance : forall fuel,
  In ("h", mm_h exQ exE fuel) (searched exQ exE fuel) /\ In ("h", mp_h exQ) (searched_eos exQ) /\ mp_wf exQ /\
  state_pair [] khT 0 "h" (18/1000 * exH 30) "T" 700 /\ property_is exQ exz "h" (18/1000 * exH 30) (exH 30) /\ kelvin_is exE 700 700 /\
  (forall d, 0 < d -> at_state (mp_h exQ) 700 d (exH d)) /\
  property_limits exQ 700 exH (exH 30) 0 1000 /\ lower_limit exQ exH (exH 30) 0 (1 / 10) /\ bracketed exH (1 / 10) 1000 (exH 30) /\
  call_warns exQ exE fuel [] khT = Ok false /\
  exists r, mm_d exQ exE fuel [] khT = Ok ([Some r], [Some (-1)]) /\ density_is exQ exz r 30.
Proof. exact inst_sT. Qed.
(* 500 K and the entropy halfway between saturated liquid and vapor *)
Example C81_saturated_instance : forall fuel,
  In ("s", mm_s exP exE fuel) (searched exP exE fuel) /\ In ("s", mp_s exP) (searched_eos exP) /\
  state_pair [] ksT 0 "s" (18/1000 * (1/2 * exS 900 + 1/2 * exS 9)) "T" 500 /\
  property_is exP exz "s" (18/1000 * (1/2 * exS 900 + 1/2 * exS 9)) (1/2 * exS 900 + 1/2 * exS 9) /\ kelvin_is exE 500 500 /\
  saturation exP 500 900 9 /\ at_state (mp_s exP) 500 900 (exS 900) /\ at_state (mp_s exP) 500 9 (exS 9) /\
  exS 900 < exS 9 /\ exists ys xs, mm_s exP exE fuel [] ksT = Ok (ys, xs).
Proof. exact inst_sT_sat. Qed.

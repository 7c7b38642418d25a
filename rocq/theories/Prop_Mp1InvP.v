(* Property theorems C81, continued: the states of the multi-phase class found from e, h or s and the
   pressure, src/pyromat/registry/mp1.py. *)
From Coq Require Import Reals List String Lra.
From Verif Require Import Base Model_Igas Spec_Igas Spec_Hybrid Model_Mp1Calls Model_Mp1Warn Spec_Mp1 Spec_Mp1Calls Spec_Mp1Inv Spec_Mp1InvP
  Proof_Mp1InvP Proof_Mp1CallsEx Proof_Mp1InvTEx Proof_Mp1InvSEx Proof_Mp1TsEx Proof_Mp1InvPEx.
Import ListNotations.
Local Open Scope R_scope.
Local Open Scope string_scope.
Local Open Scope list_scope.

(* From e, h or s and the pressure, for a state that is not saturated.  lo and hi are the limits of
   the search.  Y T is what the method m (e(), h() or s()) reports when it is called with the
   temperature T and that pressure; d() finds a density for every such T, at which the pressure is
   not stationary.  Whenever T() returns without a warning and Y at lo, hi encloses y, the
   temperature T it reports solves Y T = y to one part in a million; of the same call m() reports
   exactly Y T, d() and p() what they report for T and the pressure requested (which C79 bounds),
   and the quality is -1.  If Y does not enclose y the temperature is nan.
   What is missing: arrays of several states for data with critical point terms (C69),
   data with two temperature scales (C47). *)
Theorem C81_T_from_pressure_partial : forall D E fuel z, mp_sizes D E z -> mp_wf D ->
  ao_Tscale (mp_AO D) = ar_Tscale (mp_AR D) ->
  forall n m F, In (n, m) (searched D E fuel) -> In (n, F) (searched_eos D) -> forall varg kw i y v q p ts xs,
  state_pair varg kw i n y "p" q -> property_is D z n y v -> pressure_is z q p -> in_range (mp_plim D) p -> 0 < mp_Tt D < mp_Tc D ->
  mm_T D E fuel varg kw = Ok (ts, xs) -> evaluated_alone D xs -> call_warns D E fuel varg kw = Ok false ->
  forall lo hi, temperature_limits D E F q p v lo hi -> in_range (mp_Tlim D) lo -> in_range (mp_Tlim D) hi -> 0 < lo <= hi ->
  forall Y, (forall t T, kelvin_is E t T -> lo <= T <= hi -> exists r d x,
     mm_d D E fuel [] [("T", [Some t]); ("p", [Some q])] = Ok ([Some r], [x]) /\ density_is D z r d /\ 0 < d /\ evaluable D T d /\ compressible D T d /\
     m [] [("T", [Some t]); ("p", [Some q])] = Ok ([Some (Y T)], [x])) ->
  Y lo <> y -> Y hi <> y ->
  nth_error xs i = Some (Some (-1)) /\
  (bracketed Y lo hi y -> exists t T, nth_error ts i = Some (Some t) /\ kelvin_is E t T /\ solves Y lo hi y (1 / 1000000) T /\
     (exists ys, m varg kw = Ok (ys, xs) /\ nth_error ys i = Some (Some (Y T))) /\
     (exists ds r x, mm_d D E fuel varg kw = Ok (ds, xs) /\ nth_error ds i = Some (Some r) /\
        mm_d D E fuel [] [("T", [Some t]); ("p", [Some q])] = Ok ([Some r], [x])) /\
     (exists ps q' x, mm_p D E fuel varg kw = Ok (ps, xs) /\ nth_error ps i = Some (Some q') /\
        mm_p D E fuel [] [("T", [Some t]); ("p", [Some q])] = Ok ([Some q'], [x]))) /\
  (~ bracketed Y lo hi y -> e_oob E = None -> nth_error ts i = Some None).
Proof. exact T_from_pressure. Qed.
Print Assumptions C81_T_from_pressure_partial.

(* 10372.5 kJ/kmol at 0.005 bar: exactly 500 K *)
Example C81_T_from_pressure_instance : forall fuel,
  In ("h", mm_h exP exE fuel) (searched exP exE fuel) /\ In ("h", mp_h exP) (searched_eos exP) /\ mp_wf exP /\
  state_pair [] khp 0 "h" (20745/2) "p" (1/200) /\ property_is exP exz "h" (20745/2) (1152500/2) /\ pressure_is exz (1/200) 500 /\
  temperature_limits exP exE (mp_h exP) (1/200) 500 (1152500/2) 273 1200 /\
  (forall t T, kelvin_is exE t T -> 273 <= T <= 1200 -> exists r d x,
     mm_d exP exE fuel [] [("T", [Some t]); ("p", [Some (1/200)])] = Ok ([Some r], [x]) /\ density_is exP exz r d /\ 0 < d /\ evaluable exP T d /\ compressible exP T d /\
     mm_h exP exE fuel [] [("T", [Some t]); ("p", [Some (1/200)])] = Ok ([Some (exY T)], [x])) /\
  bracketed exY 273 1200 (20745/2) /\
  mm_T exP exE fuel [] khp = Ok ([Some 500], [Some (-1)]) /\ call_warns exP exE fuel [] khp = Ok false.
Proof. exact inst_hp. Qed.

(* For a value between those of the saturated liquid (vL) and of the saturated vapor (vV) at the
   temperature Ts that Ts() reports for the pressure: T() reports Ts, the quality reported is between
   0 and 1 and mixes vL and vV to the value requested, and the method reports exactly the value
   requested.
   What is missing: arrays of several states for data with critical point terms (C69),
   data with two temperature scales (C47). *)
Theorem C81_saturated_from_p_partial : forall D E fuel z, mp_sizes D E z -> mp_wf D ->
  ao_Tscale (mp_AO D) = ar_Tscale (mp_AR D) ->
  forall n m F, In (n, m) (searched D E fuel) -> In (n, F) (searched_eos D) -> forall varg kw i y v q p ys xs,
  state_pair varg kw i n y "p" q -> property_is D z n y v -> pressure_is z q p -> in_range (mp_plim D) p -> 0 < mp_Tt D < mp_Tc D ->
  m varg kw = Ok (ys, xs) -> evaluated_alone D xs ->
  forall Ts vL vV, mp_pt D < p < mp_pc D -> boils_at D E q Ts -> phases_at D F Ts vL vV -> vL < vV -> vL <= v <= vV ->
  exists x, nth_error xs i = Some (Some x) /\ 0 <= x <= 1 /\ v = (1 - x) * vL + x * vV /\ nth_error ys i = Some (Some y) /\
    (exists ts t, mm_T D E fuel varg kw = Ok (ts, xs) /\ nth_error ts i = Some (Some t) /\ kelvin_is E t Ts).
Proof. exact saturated_from_p. Qed.
Print Assumptions C81_saturated_from_p_partial.

(* 165 bar, where the substance of C82 boils at 500 K, and the entropy halfway between the phases *)
Example C81_saturated_from_p_instance : forall fuel, let v := 1/2 * exS 900 + 1/2 * exS 9 in
  In ("s", mm_s exL exE fuel) (searched exL exE fuel) /\ In ("s", mp_s exL) (searched_eos exL) /\
  state_pair [] ksp 0 "s" (18/1000 * v) "p" 165 /\ property_is exL exz "s" (18/1000 * v) v /\ pressure_is exz 165 (165 * 10^5) /\
  mp_pt exL < 165 * 10^5 < mp_pc exL /\ boils_at exL exE 165 500 /\ phases_at exL (mp_s exL) 500 (exS 900) (exS 9) /\ exS 900 < exS 9 /\
  exists ys xs, mm_s exL exE fuel [] ksp = Ok (ys, xs).
Proof. exact inst_sp. Qed.

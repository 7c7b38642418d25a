(* Property theorems C79: the density of the multi-phase class from temperature and pressure,
   src/pyromat/registry/mp1.py. *)
From Coq Require Import Reals List String Lra.
From Verif Require Import Base Model_Igas Spec_Igas Model_Mp1Calls Model_Mp1Warn Spec_Mp1 Spec_Mp1Calls Spec_Mp1Inv
  Proof_Mp1Ex Proof_Mp1Inv Proof_Mp1CallsEx Proof_Mp1InvEx.
Import ListNotations.
Local Open Scope R_scope.
Local Open Scope string_scope.
Local Open Scope list_scope.

(* Whenever d() returns without a warning, each element whose temperature and pressure are in
   range is looked for above a density lo and below a density hi, lo being the first of lo0,
   lo0/2, lo0/4, ... at which the equation of state gives no more than p.  If the pressures at
   lo and hi enclose p, the density reported has the pressure p up to one part in a million, or
   is that of a state of pressure exactly p up to one part in a million; p() and T() of the same
   call report the pressure of exactly that density and the temperature requested.  If the
   pressure at hi is too low it is nan.  The quality reported is -1.
   What is missing: arrays of several states for data with critical point terms (C69), for which
   the state of pressure exactly p is also not shown to exist. *)
Theorem C79_density_partial : forall D E fuel z, mp_sizes D E z -> mp_wf D ->
  forall varg kw i t T q p ys xs, state_pair varg kw i "T" t "p" q -> kelvin_is E t T -> pressure_is z q p ->
  in_range (mp_Tlim D) T -> in_range (mp_plim D) p -> 0 < T ->
  mm_d D E fuel varg kw = Ok (ys, xs) -> evaluated_alone D xs -> call_warns D E fuel varg kw = Ok false ->
  (forall d, 0 < d -> evaluable D T d) -> forall P, (forall d, 0 < d -> at_state (mp_p D) T d (P d)) ->
  forall lo0 hi, density_limits D T p lo0 hi -> 0 < lo0 <= hi ->
  nth_error xs i = Some (Some (-1)) /\
  exists k lo, lo = lo0 / 2 ^ k /\ P lo <= p /\ (k = 0%nat \/ p < P (2 * lo)) /\
  (P lo < p < P hi -> exists r d, nth_error ys i = Some (Some r) /\ density_is D z r d /\
     solves P lo hi p (1 / 1000000) d /\ (ar_coef2 (mp_AR D) = None -> found P lo hi p (1 / 1000000) d) /\
     (exists qs q', mm_p D E fuel varg kw = Ok (qs, xs) /\ nth_error qs i = Some (Some q') /\ pressure_is z q' (P d)) /\
     (exists ts t', mm_T D E fuel varg kw = Ok (ts, xs) /\ nth_error ts i = Some (Some t') /\ kelvin_is E t' T)) /\
  (P lo < p -> P hi < p -> e_oob E = None -> nth_error ys i = Some None).
Proof. exact Tp_density. Qed.
Print Assumptions C79_density_partial.

(* For one state d() returns or raises PMParamError; it does not run for ever, provided that the
   pressure falls to p and stays below as the density goes to 0. *)
Theorem C79_terminates_partial : forall D E z, mp_sizes D E z -> mp_wf D ->
  forall t T q p, kelvin_is E t T -> pressure_is z q p -> in_range (mp_Tlim D) T -> in_range (mp_plim D) p -> 0 < T ->
  (forall d, 0 < d -> evaluable D T d) -> forall P, (forall d, 0 < d -> at_state (mp_p D) T d (P d)) ->
  forall lo0 hi d0, density_limits D T p lo0 hi -> 0 < lo0 -> 0 < d0 -> (forall d, 0 < d <= d0 -> P d <= p) ->
  exists N, forall fuel, (N <= fuel)%nat ->
    (exists r, mm_d D E fuel [] [("T", [Some t]); ("p", [Some q])] = Ok ([r], [Some (-1)])) \/
    mm_d D E fuel [] [("T", [Some t]); ("p", [Some q])] = Err PMParamError.
Proof. exact Tp_terminates. Qed.
Print Assumptions C79_terminates_partial.

(* 700 K and 1 bar for the ideal gas of the instance: 100000/(461*700) kg/m3, exactly *)
Example C79_instance : forall fuel,
  state_pair [] kTp 0 "T" 700 "p" 1 /\ kelvin_is exE 700 700 /\ pressure_is exz 1 (1 * 100000) /\
  in_range (mp_Tlim exP) 700 /\ in_range (mp_plim exP) (1 * 100000) /\ mp_wf exP /\
  (forall d, 0 < d -> evaluable exP 700 d /\ at_state (mp_p exP) 700 d (461 * 700 * d)) /\
  density_limits exP 700 (1 * 100000) (1/10 * (1 * 100000) / (461 * 700)) 1000 /\
  call_warns exP exE fuel [] kTp = Ok false /\
  exists r, mm_d exP exE fuel [] kTp = Ok ([Some r], [Some (-1)]) /\ density_is exP exz r (1 * 100000 / (461 * 700)).
Proof. exact inst_C79. Qed.
(* the data of C45 with a critical point term at 700 K *)
Example C79_critical_instance : let D := ex_data 600 (Some [ex_row]) in
  mp_wf D /\ ar_coef2 (mp_AR D) <> None /\ (forall d, 0 < d -> evaluable D 700 d) /\
  exists P, forall d, 0 < d -> at_state (mp_p D) 700 d (P d).
Proof. exact inst_critical. Qed.

(* Property theorems C82: the saturation curve, the critical and triple points and the limits
   (src/pyromat/registry/mp1.py). *)
From Coq Require Import Reals ZArith List String.
From Verif Require Import Base Model_Igas Model_Mp1Calls Model_Mp1Warn Spec_Mp1 Spec_Mp1Calls Spec_Mp1Ts Proof_Mp1CallsEx Proof_Mp1Ts Proof_Mp1TsEx.
Import ListNotations.
Local Open Scope R_scope.
Local Open Scope string_scope.
Local Open Scope list_scope.

(* ---- C82 : ps, Ts and the saturation methods ---- *)
(* ps(T) is the vapor pressure, in configured units, at every temperature of the array; it
   raises PMParamError exactly when one of them is not between the triple and critical points *)
Theorem C82_vapor_pressure : forall D E z, mp_sizes D E z -> forall a : arr,
  (forall e, mm_ps D E (Some a) = Err e <->
     e = PMParamError /\ exists r T, In (Some r) a /\ kelvin_is E r T /\ ~ mp_Tt D <= T <= mp_Tc D) /\
  (forall q, curve_ok D -> mm_ps D E (Some a) = Ok q -> List.length q = List.length a /\
     forall i r T, nth_error a i = Some (Some r) -> kelvin_is E r T ->
       exists y, nth_error q i = Some (Some y) /\ pressure_is z y (vapor_pressure D T)).
Proof. exact ps_api. Qed.
Print Assumptions C82_vapor_pressure.

(* Ts(p): PMParamError exactly when a pressure is not between those of the triple and critical
   points, and otherwise a temperature for every element or PMAnalysisError *)
Theorem C82_Ts_range : forall D E z, mp_sizes D E z -> forall q : arr,
  ((exists r p, In (Some r) q /\ pressure_is z r p /\ ~ mp_pt D <= p <= mp_pc D) <-> mm_Ts D E (Some q) = Err PMParamError) /\
  (forall e, mm_Ts D E (Some q) = Err e -> e = PMParamError \/ e = PMAnalysisError) /\
  (forall ts, mm_Ts D E (Some q) = Ok ts -> List.length ts = List.length q /\ exists w, Ts_call_warns D E q = Ok w).
Proof. exact Ts_range. Qed.
Print Assumptions C82_Ts_range.

(* If Ts(p) does not warn, the vapor pressure at the temperature it reports is p to within
   1e-6 p times the ratio of the largest to the smallest slope; it reports nan only if the fit
   has no slope at the critical point. *)
Theorem C82_Ts : forall D E z, mp_sizes D E z -> forall (q ts : arr) m M i r p, curve_ok D -> slopes D m M ->
  mm_Ts D E (Some q) = Ok ts -> Ts_call_warns D E q = Ok false ->
  nth_error q i = Some (Some r) -> pressure_is z r p ->
  exists t, nth_error ts i = Some t /\
    ((t = None /\ no_critical_slope D) \/
     exists k T, t = Some k /\ kelvin_is E k T /\ sat_range D T /\
       Rabs (vapor_pressure D T - p) <= M / m * (1 / 1000000 * Rabs p)).
Proof. exact Ts_api. Qed.
Print Assumptions C82_Ts.

(* ps(Ts(p)) is p, in any configured unit *)
Theorem C82_ps_of_Ts : forall D E z, mp_sizes D E z -> forall (q ts ps : arr) m M i r t, curve_ok D -> slopes D m M ->
  mm_Ts D E (Some q) = Ok ts -> Ts_call_warns D E q = Ok false ->
  nth_error q i = Some (Some r) -> nth_error ts i = Some (Some t) -> mm_ps D E (Some ts) = Ok ps ->
  exists y, nth_error ps i = Some (Some y) /\ Rabs (y - r) <= M / m * (1 / 1000000 * Rabs r).
Proof. exact ps_of_Ts. Qed.
Print Assumptions C82_ps_of_Ts.

(* es, hs, ss, ds and vs with p are es, hs, ss, ds and vs with T = Ts(p); T and p together are an error *)
Theorem C82_by_pressure : forall D E z, mp_sizes D E z -> forall ms (q ts : arr), In ms (sat_methods D E) ->
  mm_Ts D E (Some q) = Ok ts ->
  (forall t T, In (Some t) ts -> kelvin_is E t T -> mp_Tt D <= T <= mp_Tc D) ->
  ms None (Some q) = ms (Some ts) None.
Proof. exact by_pressure. Qed.
Print Assumptions C82_by_pressure.
Theorem C82_by_both : forall D E ms (q t : arr), In ms (sat_methods D E) -> ms (Some t) (Some q) = Err PMParamError.
Proof. exact by_both. Qed.
Print Assumptions C82_by_both.

(* every method called with p and a quality returns what it returns with T = Ts(p) and the quality *)
Theorem C82_quality : forall D E z, mp_sizes D E z -> forall fuel m (q xs ts : arr), In m (mp_methods D E fuel) ->
  q <> [] -> matching q xs ->
  fst (mp_plim D) <= mp_pt D -> mp_pc D <= snd (mp_plim D) -> fst (mp_Tlim D) <= mp_Tt D -> mp_Tc D <= snd (mp_Tlim D) ->
  mm_Ts D E (Some q) = Ok ts ->
  (forall t T, In (Some t) ts -> kelvin_is E t T -> mp_Tt D <= T <= mp_Tc D) ->
  m [] [("p", q); ("x", xs)] = m [] [("T", ts); ("x", xs)].
Proof. exact by_pressure_quality. Qed.
Print Assumptions C82_quality.

(* Finding: with a quality and a pressure below the triple point, which Ts() refuses, the methods
   answer without a warning for a temperature half way between the triple and critical points *)
Theorem C82_below_triple_refuted : forall fuel, exists t T p,
  mm_T exL exE fuel [] [("p", [Some 10]); ("x", [Some (1/2)])] = Ok ([Some t], [Some (1/2)]) /\
  call_warns exL exE fuel [] [("p", [Some 10]); ("x", [Some (1/2)])] = Ok false /\
  mm_Ts exL exE (Some [Some 10]) = Err PMParamError /\
  kelvin_is exE t T /\ pressure_is exz 10 p /\ vapor_pressure exL T > 13 * p.
Proof. exact below_triple. Qed.
Print Assumptions C82_below_triple_refuted.

(* critical(), triple(), Tlim() and plim() are those of the substance in configured units *)
Theorem C82_limits : forall D E z, mp_sizes D E z ->
  (exists T p d, mm_critical D E = Ok ([Some T], [Some p], [Some d]) /\
     kelvin_is E T (mp_Tc D) /\ pressure_is z p (mp_pc D) /\ density_is D z d (mp_dc D)) /\
  (exists T p, mm_triple D E = Ok ([Some T], [Some p]) /\ kelvin_is E T (mp_Tt D) /\ pressure_is z p (mp_pt D)) /\
  (exists a b, mm_Tlim D E = Ok [Some a; Some b] /\ kelvin_is E a (fst (mp_Tlim D)) /\ kelvin_is E b (snd (mp_Tlim D))) /\
  (exists a b, mm_plim D E = Ok [Some a; Some b] /\ pressure_is z a (fst (mp_plim D)) /\ pressure_is z b (snd (mp_plim D))).
Proof. exact limits_api. Qed.
Print Assumptions C82_limits.

(* a substance whose vapor pressure is a line: Ts and ps of two pressures in bar *)
Example C82_instance : mp_sizes exL exE exz /\ curve_ok exL /\ slopes exL 55000 55000 /\ ~ no_critical_slope exL /\
  mm_Ts exL exE (Some [Some 110; Some 165]) = Ok [Some 400; Some 500] /\
  Ts_call_warns exL exE [Some 110; Some 165] = Ok false /\
  mm_ps exL exE (Some [Some 400; Some 500]) = Ok [Some 110; Some 165] /\
  mm_hs exL exE None (Some [Some 110; Some 165]) = mm_hs exL exE (Some [Some 400; Some 500]) None /\
  mm_ps exL exE (Some [Some 400; Some 272]) = Err PMParamError.
Proof. exact (conj exLZ inst_C82). Qed.
Example C82_quality_instance : forall fuel, mm_h exL exE fuel [] [("p", [Some 110; Some 165]); ("x", [Some (1/2)])] =
  mm_h exL exE fuel [] [("T", [Some 400; Some 500]); ("x", [Some (1/2)])].
Proof. exact inst_C82_quality. Qed.

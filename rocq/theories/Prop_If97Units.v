(* C94, C95 : the steam methods in the configured units. *)
From Coq Require Import Reals ZArith List String.
From Verif Require Import Base Model_Units Model_If97 Model_If97Units Spec_Units Spec_Igas Spec_If97 Spec_If97Units
  Proof_If97Ex Proof_If97Units Proof_If97UnitsB Proof_If97UnitsC Proof_If97Ts Proof_If97UnitsEx.
Import ListNotations.
Local Open Scope R_scope.
Local Open Scope string_scope.
Local Open Scope list_scope.

(* ---- C94 : units ---- *)
(* h, e, cp, cv and d answer for the state in K and bar that the arguments mean, and the answer is
   the inner one, as an amount in the configured units.  What is missing: a default state whose
   units are not the configured ones (C94_default_refuted), and s (below). *)
Theorem C94_properties_partial : forall D E uT kT kP kV kE kM, units_known E (if_mw D) uT kT kP kV kE kM ->
  forall T p x kd, (T = None -> e_defTu E = uT) -> (p = None -> kd = kP) ->
  forall f g user own, In (f, g, user, own) (measured D E kT kV kE kM) ->
  reports (f (just T) (just p) (just x))
    (g (absent T) (absent p) (Some (in_kelvin E uT T)) (Some (in_bar E kP kd p)) (Some (quality x))) user own.
Proof. exact five_report. Qed.
Print Assumptions C94_properties_partial.

(* the units of the default state are ignored *)
Theorem C94_default_refuted : exists D E kM h, units_known E (if_mw D) "C" (9/5) (10^5) 1 1000 kM /\
  e_defTu E = "K" /\ e_defT E = 900 /\ e_defpu E = "bar" /\ e_defp E = 600 /\
  u_h D E (just (Some (900 - 273.15))) (just (Some 600)) None = Ok [Some h] /\
  u_h D E None None None = Err PMParamError.
Proof. exact default_wrong. Qed.
Print Assumptions C94_default_refuted.

(* whatever they are, the numbers are read in the configured units *)
Theorem C94_default_raw : forall D E uT kT kP kV kE kM, units_known E (if_mw D) uT kT kP kV kE kM ->
  forall f, In f (property_methods D E) -> f None None None = f (just (Some (e_defT E))) (just (Some (e_defp E))) None.
Proof. exact default_raw. Qed.
Print Assumptions C94_default_raw.

(* an array answers element by element as the numbers do, and fails as one of its elements does *)
Theorem C94_elements : forall D E uT kT kP kV kE kM, units_known E (if_mw D) uT kT kP kV kE kM ->
  forall f T p x v, In f (property_methods D E) -> f T p x = Ok v ->
  v <> [] /\ fits_to (List.length v) T /\ fits_to (List.length v) p /\ fits_to (List.length v) x /\
  forall i r, nth_error v i = Some r -> f (element T i) (element p i) (element x i) = Ok [r].
Proof. exact six_elem. Qed.
Print Assumptions C94_elements.

Theorem C94_failures : forall D E uT kT kP kV kE kM, units_known E (if_mw D) uT kT kP kV kE kM ->
  forall f T p x e n, In f (property_methods D E) -> (0 < n)%nat -> fits_to n T -> fits_to n p -> fits_to n x -> f T p x = Err e ->
  exists i, (i < n)%nat /\ f (element T i) (element p i) (element x i) = Err e.
Proof. exact six_fails. Qed.
Print Assumptions C94_failures.

(* the entropy, when the degree is as large as a kelvin *)
Theorem C94_entropy_partial : forall D E uT kT kP kV kE kM, units_known E (if_mw D) uT kT kP kV kE kM ->
  forall T p x kd, (T = None -> e_defTu E = uT) -> (p = None -> kd = kP) -> kT = 9/5 ->
  reports (u_s D E (just T) (just p) (just x))
    (if_s D (absent T) (absent p) (Some (in_kelvin E uT T)) (Some (in_bar E kP kd p)) (Some (quality x))) (kE / kM / kT) (kJ_per_kg_K (if_mw D)).
Proof. exact entropy_report. Qed.
Print Assumptions C94_entropy_partial.

(* in degrees of any other size it is wrong wherever it is not zero *)
Theorem C94_entropy_refuted : forall D E uT kT kP kV kE kM, units_known E (if_mw D) uT kT kP kV kE kM ->
  forall T p x kd v, (T = None -> e_defTu E = uT) -> (p = None -> kd = kP) -> kT <> 9/5 ->
  if_s D (absent T) (absent p) (Some (in_kelvin E uT T)) (Some (in_bar E kP kd p)) (Some (quality x)) = Ok (Some v) -> v <> 0 ->
  exists r, u_s D E (just T) (just p) (just x) = Ok [Some r] /\ ~ same_amount (kE / kM / kT) (kJ_per_kg_K (if_mw D)) (Some r) (Some v).
Proof. exact entropy_wrong. Qed.
Print Assumptions C94_entropy_refuted.

Theorem C94_gam_refuted : exists D E T p cp cv, u_cp D E (just (Some T)) (just (Some p)) None = Ok [Some cp] /\
  u_cv D E (just (Some T)) (just (Some p)) None = Ok [cv] /\ u_gam (just (Some T)) (just (Some p)) None = Err ENameError.
Proof. exact gam_wrong. Qed.
Print Assumptions C94_gam_refuted.

(* hsd with a pressure answers the three methods' answers *)
Theorem C94_hsd : forall D E uT kT kP kV kE kM, units_known E (if_mw D) uT kT kP kV kE kM ->
  forall T a x h s d, (forall q, In q a -> 0 <= q) ->
  (u_hsd D E T (Some (map Some a)) x = Ok (h, s, d) <->
   u_h D E T (Some (map Some a)) x = Ok h /\ u_s D E T (Some (map Some a)) x = Ok s /\ u_d D E T (Some (map Some a)) x = Ok d).
Proof. exact Proof_If97UnitsC.hsd_agrees. Qed.
Print Assumptions C94_hsd.

Example C94_instance : (forall dT dp, units_known (water "K" "bar" "kg" dT dp) (if_mw exW) "K" (9/5) (10^5) 1 1000 (1 / if_mw exW) /\
    units_known (water "R" "bar" "kg" dT dp) (if_mw exW) "R" 1 (10^5) 1 1000 (1 / if_mw exW)) /\
  (exists h, u_h exW barK (Some [Some 900; Some 900]) (just (Some 300)) None = Ok [Some h; Some h]) /\
  u_h exW barK (Some [Some 900; Some 3000]) (just (Some 300)) None = Err PMParamError /\
  (exists v, if_s exW false false (Some (in_kelvin (water "R" "bar" "kg" 300 1) "R" (Some 1620)))
    (Some (in_bar (water "R" "bar" "kg" 300 1) (10^5) (10^5) (Some 300))) (Some (quality None)) = Ok (Some v) /\ v <> 0) /\
  (exists h s d, u_hsd exW barK (just (Some 900)) (just (Some 300)) None = Ok (h, s, d)).
Proof. exact (conj (fun dT dp => conj (unitsW dT dp) (unitsR dT dp)) (conj array_call (conj array_fails (conj entropy_R hsd_W)))). Qed.

(* ---- saturation ---- *)
(* hs, es and ds of an array answer the saturation pressure or temperature that ps or Ts answers, and
   the property at quality 0 and 1 *)
Theorem C94_saturation : forall D E uT kT kP kV kE kM, units_known E (if_mw D) uT kT kP kV kE kM ->
  forall fs f, In (fs, f) (saturation_pairs D E) -> consistent D E fs f.
Proof. exact sat_pairs. Qed.
Print Assumptions C94_saturation.

Theorem C94_saturation_entropy_partial : forall D E uT kT kP kV kE kM, units_known E (if_mw D) uT kT kP kV kE kM ->
  kT = 9/5 -> consistent D E (u_ss D E) (u_s D E).
Proof. exact sat_entropy_ok. Qed.
Print Assumptions C94_saturation_entropy_partial.

(* in degrees of another size ss disagrees with s *)
Theorem C94_saturation_entropy_refuted : forall D E uT kT kP kV kE kM, units_known E (if_mw D) uT kT kP kV kE kM ->
  forall t l v, kT <> 9/5 -> forall Tu pu, u_ss D E (Some (Array [Some t])) None = Ok (Tu, pu, [Some l], [Some v]) -> l <> 0 ->
  u_s D E (Some [Some t]) None (Some [Some 0]) <> Ok [Some l].
Proof. exact sat_entropy_wrong. Qed.
Print Assumptions C94_saturation_entropy_refuted.

(* outside the triple and critical points the saturation methods refuse the whole array *)
Theorem C94_range_T : forall D E uT kT kP kV kE kM, units_known E (if_mw D) uT kT kP kV kE kM ->
  forall fg scale a t, In (Some t) a -> to_kelvin uT t < if_Tt D \/ if_Tc D < to_kelvin uT t ->
  saturated D E fg scale (Some (Array a)) None = Err PMParamError /\ u_ps D E (Some a) = Err PMParamError.
Proof. exact range_T. Qed.
Print Assumptions C94_range_T.

Theorem C94_range_p : forall D E uT kT kP kV kE kM, units_known E (if_mw D) uT kT kP kV kE kM ->
  forall fg scale a q, In (Some q) a -> q * kP / 100000 < if_pt D \/ if_pc D < q * kP / 100000 ->
  saturated D E fg scale None (Some (Array a)) = Err PMParamError /\ u_Ts D E (Some a) = Err PMParamError.
Proof. exact range_p. Qed.
Print Assumptions C94_range_p.

(* inside they answer *)
Theorem C94_range_answers : forall D E uT kT kP kV kE kM, units_known E (if_mw D) uT kT kP kV kE kM ->
  forall fg scale k a, scale = Ok k -> usable (if_r1 D) -> usable (if_r2o D) -> usable (if_r2r D) ->
  (forall t, In t a -> if_Tt D <= to_kelvin uT t <= if_Tc D) ->
  exists r, saturated D E fg scale (Some (Array (map Some a))) None = Ok r.
Proof. exact answers_T. Qed.
Print Assumptions C94_range_answers.

(* a plain number in kelvin, or in bar, or nothing at all in bar, fails *)
Theorem C94_number_T_refuted : forall D E uT kT kP kV kE kM, units_known E (if_mw D) uT kT kP kV kE kM ->
  forall fg scale T p, dget "unit_temperature" (e_cfg E) = Some "K" -> saturated D E fg scale (Some (Number T)) p = Err EAttributeError.
Proof. exact number_T. Qed.
Print Assumptions C94_number_T_refuted.

Theorem C94_number_p_refuted : forall D E uT kT kP kV kE kM, units_known E (if_mw D) uT kT kP kV kE kM ->
  forall fg scale o, dget "unit_pressure" (e_cfg E) = Some "bar" -> saturated D E fg scale None (option_map Number o) = Err EAttributeError.
Proof. exact number_p. Qed.
Print Assumptions C94_number_p_refuted.

Example C94_saturation_instance : (exists T L V, u_hs exW barK (Some (Array [Some T])) None = Ok ([Some T], [Some 10], [Some L], [Some V])) /\
  (exists t Tu pu l v, u_ss exW (water "R" "bar" "kg" 300 1) (Some (Array [Some t])) None = Ok (Tu, pu, [Some l], [Some v]) /\ l <> 0) /\
  dget "unit_temperature" (e_cfg barK) = Some "K" /\ dget "unit_pressure" (e_cfg barK) = Some "bar".
Proof. exact (conj saturated_W (conj saturated_R (conj eq_refl eq_refl))). Qed.

(* ---- limits and constants ---- *)
Theorem C94_critical : forall D E uT kT kP kV kE kM, units_known E (if_mw D) uT kT kP kV kE kM ->
  exists T p, u_critical D E = Ok (T, p) /\ to_kelvin uT T = if_Tc D /\ p * kP = if_pc D * 100000.
Proof. exact critical_is. Qed.
Print Assumptions C94_critical.

Theorem C94_triple : forall D E uT kT kP kV kE kM, units_known E (if_mw D) uT kT kP kV kE kM ->
  exists T p, u_triple D E = Ok (T, p) /\ to_kelvin uT T = if_Tt D /\ p * kP = if_pt D * 100000.
Proof. exact triple_is. Qed.
Print Assumptions C94_triple.

(* the upper limits are those of the accepted states *)
Theorem C94_Tlim : forall D E uT kT kP kV kE kM, units_known E (if_mw D) uT kT kP kV kE kM ->
  forall a, exists lo hi, u_Tlim E (Some (map Some a)) = Ok (lo, hi) /\ to_kelvin uT lo = 273.15 /\
    forall i q, nth_error a i = Some q -> exists x, limit_at hi i = Some x /\
      (0 <= q * kP / 100000 <= 1000 -> forall T, accepted_range T (q * kP / 100000) <-> T <= to_kelvin uT x).
Proof. exact Tlim_is. Qed.
Print Assumptions C94_Tlim.

Theorem C94_plim : forall D E uT kT kP kV kE kM, units_known E (if_mw D) uT kT kP kV kE kM ->
  forall a, exists lo hi, u_plim D E (Some (map Some a)) = Ok (lo, hi) /\ lo * kP = if_pt D * 100000 /\
    forall i t, nth_error a i = Some t -> exists x, limit_at hi i = Some x /\
      (to_kelvin uT t <= 2273.15 -> forall p, accepted_range (to_kelvin uT t) p <-> 0 <= p <= x * kP / 100000).
Proof. exact plim_is. Qed.
Print Assumptions C94_plim.

Theorem C94_mw : forall D E uT kT kP kV kE kM, units_known E (if_mw D) uT kT kP kV kE kM ->
  forall um un km kn, dget "unit_mass" (e_cfg E) = Some um -> si (e_setup E) QMass um = Some km ->
  dget "unit_molar" (e_cfg E) = Some un -> si (e_setup E) QMolar un = Some kn ->
  exists r, u_mw D E = Ok r /\ r * (km / kn) = if_mw D.
Proof. exact mw_is. Qed.
Print Assumptions C94_mw.

Example C94_limits_instance : units_known (water "C" "bar" "kg" 300 1) (if_mw exW) "C" (9/5) (10^5) 1 1000 (1 / if_mw exW) /\
  dget "unit_mass" (e_cfg barK) = Some "g" /\ dget "unit_molar" (e_cfg barK) = Some "mol".
Proof. exact (conj (unitsC 300 1) (conj eq_refl eq_refl)). Qed.

(* ---- T_h ---- *)
(* with the pressure in bar and the matter in kilograms, and kelvin or a pressure below 165.292 bar,
   the answer is that of C72, its temperature on the configured scale *)
Theorem C94_T_h_partial : forall D E uT kT kP kV kE kM, units_known E (if_mw D) uT kT kP kV kE kM ->
  forall h q, kP = 100000 -> kM * if_mw D = 1 -> uT = "K" \/ q < 165.292 ->
  match T_h D (Some (h * kE / 1000)) (Some q) with
  | Ok (T, x) => exists T', u_T_h D E [Some h] (Some [Some q]) = Ok [(T', x)] /\ reads uT T' T
  | Err e => u_T_h D E [Some h] (Some [Some q]) = Err e
  end.
Proof. exact T_h_good. Qed.
Print Assumptions C94_T_h_partial.

Theorem C94_T_h_elements : forall D E uT kT kP kV kE kM, units_known E (if_mw D) uT kT kP kV kE kM ->
  forall h p v, u_T_h D E h p = Ok v -> v <> [] /\ fits_to (List.length v) (Some h) /\ fits_to (List.length v) p /\
  forall i r, nth_error v i = Some r -> exists z, elem h i = Some z /\ u_T_h D E [z] (element p i) = Ok [r].
Proof. exact T_h_elem. Qed.
Print Assumptions C94_T_h_elements.

(* the pressure is not converted: the same state in bar answers and in pascal fails *)
Theorem C94_T_h_pressure_refuted : exists D Ebar EPa kP kM h T x,
  units_known Ebar (if_mw D) "K" (9/5) kP 1 1000 kM /\ units_known EPa (if_mw D) "K" (9/5) 1 1 1000 kM /\ kP = 100000 /\
  u_T_h D Ebar [Some h] (just (Some 10)) = Ok [(Some T, Some x)] /\
  u_T_h D EPa [Some h] (just (Some (10 * 100000))) = Err PMParamError.
Proof. exact T_h_pressure_wrong. Qed.
Print Assumptions C94_T_h_pressure_refuted.

(* per kilomole the enthalpy of a mixture does not give its quality back *)
Theorem C94_T_h_molar_refuted : exists D E h x, units_known E (if_mw D) "K" (9/5) (10^5) 1 1000 1 /\ 0 < x < 1 /\
  u_h D E None (just (Some 10)) (just (Some x)) = Ok [Some h] /\
  forall T, u_T_h D E [Some h] (just (Some 10)) <> Ok [(T, Some x)].
Proof. exact T_h_molar_wrong. Qed.
Print Assumptions C94_T_h_molar_refuted.

(* in degrees Celsius a state with an enthalpy exists but T_h fails *)
Theorem C94_T_h_celsius_refuted : exists D E kM t h, units_known E (if_mw D) "C" (9/5) (10^5) 1 1000 kM /\ kM * if_mw D = 1 /\
  u_h D E (just (Some t)) (just (Some 1000)) None = Ok [Some h] /\
  u_T_h D E [Some h] (just (Some 1000)) = Err PMParamError.
Proof. exact T_h_celsius_wrong. Qed.
Print Assumptions C94_T_h_celsius_refuted.

Example C94_T_h_instance : forall dT dp, exists h T, 452 < T < 454 /\
  u_h exW (water "K" "bar" "kg" dT dp) None (just (Some 10)) (just (Some (1/4))) = Ok [Some h] /\
  u_T_h exW (water "K" "bar" "kg" dT dp) [Some h] (just (Some 10)) = Ok [(Some T, Some (1/4))].
Proof. exact T_h_round_W. Qed.

(* ---- C95 : the temperature at an entropy ---- *)
(* in kelvin, bar, kilojoules and kilograms an answer is a saturated state with that entropy, or a
   state of region 5 or 3 with it, or the value of a polynomial of the release.  What is missing: the
   other units (refuted below) and that the polynomials, which are fits, invert the entropy. *)
Theorem C95_T_s_partial : forall D B E uT kT kP kV kE kM, units_known E (if_mw D) uT kT kP kV kE kM ->
  uT = "K" -> kT = 9/5 -> kP = 100000 -> kE = 1000 -> kM * if_mw D = 1 ->
  forall s p T x, 0 < if_R D -> 0 < if_dc D -> 0 < if_Tc D -> 0 < p -> 0 < T ->
  u_T_s D E B [Some s] (Some [Some p]) = Ok [(Some T, Some x)] ->
  p <= 1000 /\
  ((p < 165.292 /\ from_dome_s D s p T x) \/ (x = -1 /\ p <= 500 /\ from_region5_s D s p T) \/
   (x = -1 /\ 165.292 <= p /\ from_region3_s D s p T) \/ (x = -1 /\ from_fit_s B s p T)).
Proof. exact u_T_s_classified. Qed.
Print Assumptions C95_T_s_partial.

(* which of them answers: the boundaries are the entropies of the phases, s(623.15 K, p), s(T23(p), p),
   s(1073.15 K, p) and s(2273.15 K, p), 5.85 kJ/kg/K and 40, 165.292, 500 and 1000 bar *)
Theorem C95_choice_partial : forall D B E uT kT kP kV kE kM, units_known E (if_mw D) uT kT kP kV kE kM ->
  uT = "K" -> kT = 9/5 -> kP = 100000 -> kE = 1000 -> kM * if_mw D = 1 ->
  forall s p T x, 0 < if_R D -> 0 < if_dc D -> 0 < if_Tc D -> 0 < p -> 0 < T ->
  u_T_s D E B [Some s] (Some [Some p]) = Ok [(Some T, Some x)] -> chosen_s D E B s p T x.
Proof. exact u_T_s_choice. Qed.
Print Assumptions C95_choice_partial.

(* the entropy of a mixture gives its temperature and quality back *)
Theorem C95_mixture : forall D B E uT kT kP kV kE kM, units_known E (if_mw D) uT kT kP kV kE kM ->
  uT = "K" -> kT = 9/5 -> kP = 100000 -> kE = 1000 -> kM * if_mw D = 1 ->
  forall p x T sL sV, if_pt D <= p <= if_pc D -> p < 165.292 -> if_Ts D (Some p) = Some T ->
  phases D (s_g D) 1 (Some T) (Some p) = Ok (Some sL, Some sV) -> sL < sV -> 0 <= x < 1 ->
  exists s, u_s D E None (Some [Some p]) (Some [Some x]) = Ok [Some s] /\
    u_T_s D E B [Some s] (Some [Some p]) = Ok [(Some T, Some x)].
Proof. exact u_T_s_round_trip. Qed.
Print Assumptions C95_mixture.

(* below the triple point pressure s answers and T_s fails *)
Theorem C95_low_pressure_refuted : exists D E B kM p v, units_known E (if_mw D) "K" (9/5) (10^5) 1 1000 kM /\ 0 < p /\
  u_s D E (just (Some 900)) (just (Some p)) None = Ok [Some v] /\ u_T_s D E B [Some v] (just (Some p)) = Err PMParamError.
Proof. exact T_s_low_wrong. Qed.
Print Assumptions C95_low_pressure_refuted.

(* in pascal no entropy has a temperature at any pressure below 165.292 bar *)
Theorem C95_pressure_refuted : exists D EPa B Ebar kM p s T x,
  units_known Ebar (if_mw D) "K" (9/5) (10^5) 1 1000 kM /\ units_known EPa (if_mw D) "K" (9/5) 1 1 1000 kM /\
  u_T_s D Ebar B [Some s] (just (Some p)) = Ok [(Some T, Some x)] /\
  forall s q, q < 165.292 * 100000 -> u_T_s D EPa B [Some s] (just (Some q)) = Err PMParamError.
Proof. exact T_s_Pa_wrong. Qed.
Print Assumptions C95_pressure_refuted.

Example C95_instance : (exists s T, 452 < T < 454 /\ u_s exW barK None (just (Some 10)) (just (Some (1/4))) = Ok [Some s] /\
    u_T_s exW barK exB [Some s] (just (Some 10)) = Ok [(Some T, Some (1/4))]) /\
  if_pt exW <= 10 <= if_pc exW /\ 10 < 165.292 /\ exists T sL sV, if_Ts exW (Some 10) = Some T /\
  phases exW (s_g exW) 1 (Some T) (Some 10) = Ok (Some sL, Some sV) /\ sL < sV.
Proof. exact (conj T_s_W mixture_T_s). Qed.

(* Property theorems C01-C10: unit conversion (src/pyromat/units.py). *)
From Coq Require Import Reals ZArith Lra List String.
From Verif Require Import Model_Units Spec_Units Proof_Units.
Local Open Scope R_scope.
Local Open Scope string_scope.

(* ---- C01 : round trip, for every quantity, pair of units (given or defaulted from the
   configuration), exponent and value, under every positive setup() ---- *)
Theorem C01_round_trip : forall s q c v a b e r,
  positive_setup s ->
  convert (units_of s q) c v a b e = Ok r ->
  convert (units_of s q) c r b a e = Ok v.
Proof. exact round_trip. Qed.
Print Assumptions C01_round_trip.

(* ... and the conversion does succeed between any two units of the quantity *)
Theorem C01_total : forall s q c v a b e,
  positive_setup s -> si s q a <> None -> si s q b <> None ->
  exists r, convert (units_of s q) c v (Some a) (Some b) e = Ok r.
Proof. exact convert_total. Qed.
Print Assumptions C01_total.

Example C01_instance :
  positive_setup default_setup /\
  convert (units_of default_setup QLength) [] 6 (Some "in") (Some "ft") (Some (-2)%Z)
  = Ok (6 * zpow (inch / foot) (-2)).
Proof. split; [exact default_positive | exact (convert_spec default_setup QLength [] 6 "in" "ft" (Some (-2)%Z) inch foot default_positive eq_refl eq_refl)]. Qed.

(* ---- C02 : composition, identity, linearity, exponents add ---- *)
Theorem C02_composition : forall s q c v a b d e r r',
  positive_setup s ->
  convert (units_of s q) c v a b e = Ok r ->
  convert (units_of s q) c r b d e = Ok r' ->
  convert (units_of s q) c v a d e = Ok r'.
Proof. exact compose. Qed.
Print Assumptions C02_composition.

Theorem C02_linear : forall s q c v w k a b e r r',
  convert (units_of s q) c v a b e = Ok r ->
  convert (units_of s q) c w a b e = Ok r' ->
  convert (units_of s q) c (k * v + w) a b e = Ok (k * r + r').
Proof. exact linear. Qed.
Print Assumptions C02_linear.

Theorem C02_exponents_add : forall s q c v a b n m r r',
  positive_setup s -> n <> 0%Z -> m <> 0%Z -> (n + m)%Z <> 0%Z ->
  convert (units_of s q) c v a b (Some n) = Ok r ->
  convert (units_of s q) c r a b (Some m) = Ok r' ->
  convert (units_of s q) c v a b (Some (n + m)%Z) = Ok r'.
Proof. exact exponent_add. Qed.
Print Assumptions C02_exponents_add.

Example C02_instance : exists r r',
  convert (units_of default_setup QPressure) [] 1 (Some "psi") (Some "bar") (Some 2%Z) = Ok r /\
  convert (units_of default_setup QPressure) [] r (Some "bar") (Some "inHg") (Some 2%Z) = Ok r'.
Proof.
  destruct (convert_total default_setup QPressure [] 1 "psi" "bar" (Some 2%Z) default_positive) as [r Hr];
    [discriminate.. |].
  destruct (convert_total default_setup QPressure [] r "bar" "inHg" (Some 2%Z) default_positive) as [r' Hr'];
    [discriminate.. |].
  eauto.
Qed.

(* ---- C03 : every factor is the physical size of the unit, whatever setup() was given;
   a conversion multiplies by the ratio of the two sizes ---- *)
Theorem C03_factors_are_si : forall s q u,
  positive_setup s -> dget u (tab_of s q) = si s q u.
Proof. exact (fun s q u H => tab_lookup s q u H). Qed.
Print Assumptions C03_factors_are_si.

Theorem C03_conversion_is_ratio_of_sizes : forall s q c v a b e va vb,
  positive_setup s -> si s q a = Some va -> si s q b = Some vb ->
  convert (units_of s q) c v (Some a) (Some b) e = Ok (v * zpow (va / vb) (effective_exponent e)).
Proof. exact convert_spec. Qed.
Print Assumptions C03_conversion_is_ratio_of_sizes.

Theorem C03_factors_positive : forall s q u f,
  positive_setup s -> dget u (tab_of s q) = Some f -> 0 < f.
Proof. exact tab_entry_pos. Qed.
Print Assumptions C03_factors_positive.

Example C03_instance : positive_setup default_setup /\
  si default_setup QPressure "psi" = Some (pound * (980665/100000) / inch ^ 2).
Proof. split; [exact default_positive | reflexivity]. Qed.

(* ---- C04 : temperature scales ---- *)
Theorem C04_round_trip : forall c v a b r,
  temperature_scale c v a b = Ok r -> temperature_scale c r b a = Ok v.
Proof. exact tscale_round_trip. Qed.
Print Assumptions C04_round_trip.

Theorem C04_composition : forall c v a b d r r',
  a <> "abs" -> b <> "abs" -> d <> "abs" ->
  temperature_scale c v (Some a) (Some b) = Ok r ->
  temperature_scale c r (Some b) (Some d) = Ok r' ->
  temperature_scale c v (Some a) (Some d) = Ok r'.
Proof. exact tscale_compose. Qed.
Print Assumptions C04_composition.

(* K, C, R and eV readings convert to exactly the thermodynamic temperature *)
Theorem C04_anchors : forall c v a k,
  a <> "F" -> kelvin a v = Some k ->
  temperature_scale c v (Some a) (Some "K") = Ok k /\
  temperature_scale c k (Some "K") (Some a) = Ok v.
Proof. exact tscale_kelvin. Qed.
Print Assumptions C04_anchors.

(* Fahrenheit uses a truncated constant: within 1e-13 K of the definition, never equal *)
Theorem C04_fahrenheit_anchor : forall c v, exists k, kelvin "F" v = Some k /\
  exists r, temperature_scale c v (Some "F") (Some "K") = Ok r /\ Rabs (r - k) < / 10 ^ 13 /\ r <> k.
Proof. exact tscale_fahrenheit. Qed.
Print Assumptions C04_fahrenheit_anchor.

(* 'abs' stands for K when the other scale is C, for R when it is F, else for the scale *)
Theorem C04_abs : forall c v,
  temperature_scale c v (Some "C") (Some "abs") = temperature_scale c v (Some "C") (Some "K") /\
  temperature_scale c v (Some "F") (Some "abs") = temperature_scale c v (Some "F") (Some "R") /\
  (forall u, u <> "C" -> u <> "F" -> temperature_scale c v (Some u) (Some "abs") = Ok v).
Proof. exact abs_means_absolute. Qed.
Print Assumptions C04_abs.

Example C04_instance :
  temperature_scale [("unit_temperature", "K")] 0 (Some "C") None = Ok (0 + (273 + 15/100)) /\
  kelvin "C" 0 = Some (0 + 27315/100).
Proof. split; reflexivity. Qed.

(* ---- C05 : differences of scale readings convert like temperature() ---- *)
Theorem C05_differences : forall s c v w a b r r',
  positive_setup s -> In a scales -> In b scales ->
  temperature_scale c v (Some a) (Some b) = Ok r ->
  temperature_scale c w (Some a) (Some b) = Ok r' ->
  convert (units_of s QTemperature) c (v - w) (Some a) (Some b) None = Ok (r - r').
Proof. exact tscale_difference. Qed.
Print Assumptions C05_differences.

Example C05_instance : In "F" scales /\ In "eV" scales /\
  exists r, temperature_scale [] 451 (Some "F") (Some "eV") = Ok r.
Proof. repeat split; cbn; auto 6. eexists. reflexivity. Qed.

(* ---- C06 : gauge and absolute pressure ---- *)
Theorem C06_abs_of_gauge : forall st c v u p r,
  gauge_to_abs st c v u p = Ok r -> abs_to_gauge st c r u p = Ok v.
Proof. exact gauge_inverse. Qed.
Print Assumptions C06_abs_of_gauge.

Theorem C06_gauge_of_abs : forall st c v u p r,
  abs_to_gauge st c v u p = Ok r -> gauge_to_abs st c r u p = Ok v.
Proof. exact gauge_inverse'. Qed.
Print Assumptions C06_gauge_of_abs.

(* what is added is patm bar, expressed in the unit *)
Theorem C06_adds_the_atmosphere : forall st c v u p r,
  positive_setup (now st) -> gauge_to_abs st c v (Some u) (Some p) = Ok r ->
  convert (units_of (now st) QPressure) c (r - v) (Some u) (Some "bar") None = Ok p.
Proof. exact gauge_physical. Qed.
Print Assumptions C06_adds_the_atmosphere.

(* converting units before or after the adjustment makes no difference *)
Theorem C06_unit_independent : forall st c v u w p r v',
  positive_setup (now st) ->
  convert (units_of (now st) QPressure) c v (Some u) (Some w) None = Ok v' ->
  gauge_to_abs st c v (Some u) (Some p) = Ok r ->
  exists r', gauge_to_abs st c v' (Some w) (Some p) = Ok r' /\
             convert (units_of (now st) QPressure) c r (Some u) (Some w) None = Ok r'.
Proof. exact gauge_unit_independent. Qed.
Print Assumptions C06_unit_independent.

Example C06_instance : exists r, gauge_to_abs import_units [] 30 (Some "psi") None = Ok r.
Proof.
  unfold gauge_to_abs. cbn [import_units now patm_default].
  destruct (convert_total default_setup QPressure [] (pstd default_setup) "bar" "psi" None default_positive) as [r Hr];
    [discriminate.. |].
  rewrite Hr. cbn [bind]. eauto.
Qed.

(* ---- C07 : matter() ---- *)
Theorem C07_round_trip : forall s c v mw a b e r,
  positive_setup s -> 0 < mw -> matter s c v mw (Some a) (Some b) e = Ok r ->
  matter s c r mw (Some b) (Some a) e = Ok v.
Proof. exact matter_round_trip. Qed.
Print Assumptions C07_round_trip.

Theorem C07_composition : forall s c v mw a b d e r r',
  positive_setup s -> 0 < mw -> matter s c v mw (Some a) (Some b) e = Ok r ->
  matter s c r mw (Some b) (Some d) e = Ok r' ->
  matter s c v mw (Some a) (Some d) e = Ok r'.
Proof. exact matter_compose. Qed.
Print Assumptions C07_composition.

(* the conversion factor is the ratio of the amounts of substance *)
Theorem C07_is_ratio_of_amounts : forall s c v mw a b e ka kb,
  positive_setup s -> 0 < mw -> kmoles s mw a = Some ka -> kmoles s mw b = Some kb ->
  matter s c v mw (Some a) (Some b) e = Ok (v * zpow (ka / kb) (effective_exponent e)).
Proof. exact matter_spec. Qed.
Print Assumptions C07_is_ratio_of_amounts.

Theorem C07_agrees_with_mass_and_molar : forall s c v mw a b e,
  positive_setup s -> 0 < mw ->
  ((si s QMass a <> None /\ si s QMass b <> None ->
     matter s c v mw (Some a) (Some b) e = convert (units_of s QMass) c v (Some a) (Some b) e) /\
   (si s QMolar a <> None /\ si s QMolar b <> None ->
     matter s c v mw (Some a) (Some b) e = convert (units_of s QMolar) c v (Some a) (Some b) e)).
Proof. exact matter_families. Qed.
Print Assumptions C07_agrees_with_mass_and_molar.

Theorem C07_kmol_weighs_mw : forall s c mw,
  positive_setup s -> 0 < mw -> matter s c 1 mw (Some "kmol") (Some "kg") None = Ok mw.
Proof. exact matter_kmol_kg. Qed.
Print Assumptions C07_kmol_weighs_mw.

Theorem C07_ismass : forall s c u, positive_setup s ->
  (ismass s c (Some u) = Ok true <-> si s QMass u <> None) /\
  (ismass s c (Some u) = Ok false <-> si s QMolar u <> None) /\
  (ismass s c (Some u) = Err PMParamError <-> si s QMass u = None /\ si s QMolar u = None).
Proof. exact ismass_spec. Qed.
Print Assumptions C07_ismass.

Example C07_instance : 0 < 18 /\ kmoles default_setup 18 "lbm" = Some (pound / 18) /\
  kmoles default_setup 18 "mol" = Some (1/1000) /\
  matter default_setup [] 2 18 (Some "lbm") (Some "mol") (Some (-1)%Z)
  = Ok (2 * zpow (pound / 18 / (1/1000)) (-1)).
Proof.
  repeat split; try lra. rewrite (matter_spec default_setup [] 2 18 "lbm" "mol" _ (pound/18) (1/1000) default_positive);
  try reflexivity; lra.
Qed.

(* ---- C08 : exponent n raises the factor to the n-th power; true except for n = 0 ---- *)
Theorem C08_exponent_power_partial : forall s q c v a b n f,
  positive_setup s -> n <> 0%Z ->
  convert (units_of s q) c 1 (Some a) (Some b) None = Ok f ->
  convert (units_of s q) c v (Some a) (Some b) (Some n) = Ok (v * zpow f n).
Proof. exact exponent_meaning. Qed.
Print Assumptions C08_exponent_power_partial.

(* with exponent 0, 1 ft**0 is reported as 12 in**0 although 12**0 = 1 *)
Theorem C08_exponent_zero_refuted : exists q a b v r,
  convert (units_of default_setup q) [] v (Some a) (Some b) (Some 0%Z) = Ok r /\
  r <> v * zpow 12 0 /\ r = 12 * v /\
  convert (units_of default_setup q) [] 1 (Some a) (Some b) None = Ok 12.
Proof. exact exponent_zero_wrong. Qed.
Print Assumptions C08_exponent_zero_refuted.

(* ---- C09 : unknown units; true when the two unit strings differ ---- *)
Theorem C09_unknown_source_rejected_partial : forall s q c v u b e,
  positive_setup s -> si s q u = None -> b <> u ->
  convert (units_of s q) c v (Some u) (Some b) e = Err EKeyError.
Proof. exact unknown_from. Qed.
Print Assumptions C09_unknown_source_rejected_partial.

Theorem C09_unknown_target_rejected_partial : forall s q c v u b e,
  positive_setup s -> si s q u = None -> b <> u ->
  convert (units_of s q) c v (Some b) (Some u) e = Err EKeyError.
Proof. exact unknown_to. Qed.
Print Assumptions C09_unknown_target_rejected_partial.

Theorem C09_unknown_matter_rejected_partial : forall s c v mw a b e,
  positive_setup s -> 0 < mw -> a <> b -> kmoles s mw a = None \/ kmoles s mw b = None ->
  matter s c v mw (Some a) (Some b) e = Err EKeyError.
Proof. exact matter_unknown. Qed.
Print Assumptions C09_unknown_matter_rejected_partial.

(* the same unknown string on both sides is accepted *)
Theorem C09_same_unknown_unit_refuted : exists s q u v,
  positive_setup s /\ si s q u = None /\
  convert (units_of s q) [] v (Some u) (Some u) None = Ok v.
Proof. exact (ex_intro _ default_setup (ex_intro _ QLength (ex_intro _ "parsec" (ex_intro _ 3
  (conj default_positive (conj eq_refl eq_refl)))))). Qed.
Print Assumptions C09_same_unknown_unit_refuted.

(* temperature_scale reads an unknown scale as kelvin *)
Theorem C09_unknown_scale_refuted : exists u v, kelvin u v = None /\
  temperature_scale [] v (Some u) (Some "K") = Ok v.
Proof. exact (ex_intro _ "degC" (ex_intro _ 20 (conj eq_refl eq_refl))). Qed.
Print Assumptions C09_unknown_scale_refuted.

Example C09_instance : si default_setup QLength "parsec" = None /\ "m" <> "parsec".
Proof. split; [reflexivity | discriminate]. Qed.

(* ---- C10 : the pressure units themselves do follow setup() ---- *)
Theorem C10_atm_follows_setup_partial : forall st s c,
  positive_setup s ->
  convert (units_of (now (call_setup st s)) QPressure) c 1 (Some "atm") (Some "bar") None = Ok (pstd s).
Proof. exact atm_follows_setup. Qed.
Print Assumptions C10_atm_follows_setup_partial.

Example C10_instance : positive_setup default_setup /\ pstd default_setup = 1 + 1325/100000.
Proof. split; [exact default_positive | reflexivity]. Qed.

(* but after setup(pstd=2), zero gauge pressure is not one atmosphere absolute ---- *)
Theorem C10_setup_gauge_refuted : exists s r, positive_setup s /\ pstd s = 2 /\
  gauge_to_abs (call_setup import_units s) [] 0 (Some "atm") None = Ok r /\ r <> 1.
Proof. exact setup_gauge_refuted. Qed.
Print Assumptions C10_setup_gauge_refuted.

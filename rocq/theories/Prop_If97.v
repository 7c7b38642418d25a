(* C51-C54, C70-C72: the IF-97 steam class.  Temperatures in K, pressures in bar, per kilogram. *)
From Coq Require Import Reals ZArith List.
From Verif Require Import Model_If97 Spec_Mp1 Spec_If97 Proof_If97Poly Proof_If97Sat Proof_If97En Proof_If97Bis Proof_If97Prop Proof_If97Inv Proof_If97Ex.
Import ListNotations.
Local Open Scope R_scope.

(* ---- C51 : the polynomial evaluator ---- *)
(* an answer is the polynomial with the derivatives asked for *)
Theorem C51_exact : forall A order x y r, can_raise tm A x -> can_raise tn A y ->
  peval (Some x) (Some y) A order = Ok r -> exact2 order (poly A) x y r.
Proof. exact peval_exact. Qed.
Print Assumptions C51_exact.

(* it answers exactly for the sorted lists with exponents from -99 to 100 *)
Theorem C51_accepts : forall x y A order, (exists r, peval x y A order = Ok r) <-> usable A.
Proof. exact peval_accepts. Qed.
Print Assumptions C51_accepts.

Theorem C51_failures : forall x y A order e, peval x y A order = Err e -> (e = EIndexError /\ A = []) \/ e = EException.
Proof. exact peval_fails. Qed.
Print Assumptions C51_failures.

Example C51_instance : usable (if_r5o exW) /\ can_raise tm (if_r5o exW) 3 /\ can_raise tn (if_r5o exW) 2.
Proof. split; [exact usW5o|]. split; left; Lra.lra. Qed.

(* ---- C52 : the region map ---- *)
Theorem C52_one_region : forall D T p,
  region D T p = (-1)%Z \/ region D T p = 1%Z \/ region D T p = 2%Z \/ region D T p = 3%Z \/ region D T p = 5%Z.
Proof. exact region_cases. Qed.
Print Assumptions C52_one_region.

Theorem C52_region1 : forall D T p q, if_ps D (Some T) = Some q ->
  (region D (Some T) (Some p) = 1%Z <-> accepted_range T p /\ T <= 623.15 /\ q <= p).
Proof. exact region_one. Qed.
Print Assumptions C52_region1.

Theorem C52_region2 : forall D T p, (T <= 623.15 -> exists q, if_ps D (Some T) = Some q) ->
  (region D (Some T) (Some p) = 2%Z <-> accepted_range T p /\
     ((T <= 623.15 /\ exists q, if_ps D (Some T) = Some q /\ p < q) \/
      (623.15 < T <= 863.15 /\ p < boundary23 D T) \/ 863.15 < T <= 1073.15)).
Proof. exact region_two. Qed.
Print Assumptions C52_region2.

Theorem C52_region3 : forall D T p, region D (Some T) (Some p) = 3%Z <->
  accepted_range T p /\ 623.15 < T <= 863.15 /\ boundary23 D T <= p.
Proof. exact region_three. Qed.
Print Assumptions C52_region3.

Theorem C52_region5 : forall D T p, region D (Some T) (Some p) = 5%Z <-> accepted_range T p /\ 1073.15 < T.
Proof. exact region_five. Qed.
Print Assumptions C52_region5.

(* a state above the limits is rejected by every method.  What is missing: the lower limit of
   temperature, see below. *)
Theorem C52_rejected_partial : forall D fg ff order dT dp T p x, ~ accepted_range T p -> x < 0 ->
  prop D fg ff order dT dp (Some T) (Some p) (Some x) = Err PMParamError /\
  prop_d D dT dp (Some T) (Some p) (Some x) = Err PMParamError /\
  prop_hsd D dT (Some T) (Some p) (Some x) = Err PMParamError.
Proof. exact rejected_state. Qed.
Print Assumptions C52_rejected_partial.

(* below 273.15 K every pressure up to 1000 bar is answered *)
Theorem C52_cold_refuted : forall D dT dp T p x, usable (if_r1 D) -> usable (if_r2o D) -> usable (if_r2r D) ->
  T < 273.15 -> 0 <= p <= 1000 -> x < 0 ->
  ~ documented_range T p /\ exists h, if_h D dT dp (Some T) (Some p) (Some x) = Ok h.
Proof. exact cold_state. Qed.
Print Assumptions C52_cold_refuted.

Example C52_instance : (exists T, 452 < T < 454 /\ region exW (Some T) (Some 20) = 1%Z /\ region exW (Some T) (Some 5) = 2%Z /\
  region exW (Some 650) (Some 300) = 3%Z /\ region exW (Some 900) (Some 300) = 2%Z /\ region exW (Some 1500) (Some 100) = 5%Z) /\
  usable (if_r1 exW) /\ usable (if_r2o exW) /\ usable (if_r2r exW) /\ ~ accepted_range 1500 600.
Proof. exact (conj regionW (conj usW1 (conj usW2o (conj usW2r outW)))). Qed.

(* ---- C53 : one saturation curve ---- *)
Theorem C53_ps_on_curve : forall D T p, if_ps D (Some T) = Some p -> T <> n10 (if_r4 D) /\
  exists b, p = 10 * b^4 /\ sat_equation (if_r4 D) b (scaled_T (if_r4 D) T).
Proof. exact ps_on_curve. Qed.
Print Assumptions C53_ps_on_curve.

Theorem C53_Ts_on_curve : forall D p T, 0 < p -> n9 (if_r4 D) <> 0 -> if_Ts D (Some p) = Some T -> T <> n10 (if_r4 D) /\
  exists b, 0 < b /\ p = 10 * b^4 /\ sat_equation (if_r4 D) b (scaled_T (if_r4 D) T).
Proof. exact Ts_on_curve. Qed.
Print Assumptions C53_Ts_on_curve.

(* on the branch both methods give the point of the curve, so they are inverse to each other *)
Theorem C53_inverse : forall D T b, n9 (if_r4 D) <= 0 -> T < n10 (if_r4 D) ->
  on_branch (if_r4 D) b (scaled_T (if_r4 D) T) ->
  if_ps D (Some T) = Some (10 * b^4) /\ if_Ts D (Some (10 * b^4)) = Some T.
Proof. exact curve_methods. Qed.
Print Assumptions C53_inverse.

(* with the coefficients of the release, near 453 K and 10 bar *)
Example C53_instance : n9 (if_r4 exW) <= 0 /\ n9 (if_r4 exW) <> 0 /\ exists T, 452 < T < 454 /\ T < n10 (if_r4 exW) /\
  on_branch (if_r4 exW) 1 (scaled_T (if_r4 exW) T) /\ if_ps exW (Some T) = Some 10 /\ if_Ts exW (Some 10) = Some T.
Proof. exact inst_C53. Qed.

(* ---- C54 : the density in region 3 ---- *)
(* the density is an end of an interval of width 2.3/2^14 that brackets the pressure unless it
   reaches an end of [0.1, 2.4] *)
Theorem C54_bracket : forall D T p, usable (if_r3 D) -> 0 < T -> can_raise tn (if_r3 D) (if_Tc D / T) -> 0 < if_dc D * if_R D ->
  exists n t v a b, f3 D (Some T) (Some p) = Ok (Some n, t, v) /\ (n = a \/ n = b) /\
    0.1 <= a /\ a < b /\ b <= 2.4 /\ b - a = 2.3 / 2 ^ 14 /\
    (a = 0.1 \/ exists q, pressure_is D T a q /\ q <= p) /\ (b = 2.4 \/ exists q, pressure_is D T b q /\ p < q).
Proof. exact bracket3. Qed.
Print Assumptions C54_bracket.

(* the density method: with a change of sign, a density with that pressure is that close *)
Theorem C54_density : forall D dT dp T p x p0 p1, region D (Some T) (Some p) = 3%Z -> x < 0 -> fit3 D T -> 0 < T -> 0 < if_dc D * if_R D ->
  pressure_is D T 0.1 p0 -> pressure_is D T 2.4 p1 -> p0 <= p < p1 ->
  exists n, prop_d D dT dp (Some T) (Some p) (Some x) = Ok (Some (if_dc D * n)) /\
    exists r, Rabs (n - r) <= 2.3 / 2 ^ 14 /\ 0.1 <= r <= 2.4 /\ pressure_is D T r p.
Proof. exact density_found. Qed.
Print Assumptions C54_density.

(* without one nothing is signalled *)
Theorem C54_unreached : forall D dT dp T p x, region D (Some T) (Some p) = 3%Z -> x < 0 -> fit3 D T -> 0 < T -> 0 < if_dc D * if_R D ->
  (forall n q, 0.1 < n < 2.4 -> pressure_is D T n q -> q <= p) ->
  prop_d D dT dp (Some T) (Some p) (Some x) = Ok (Some (if_dc D * (2.4 - 2.3 / 2 ^ 14))).
Proof. exact density_unreached. Qed.
Print Assumptions C54_unreached.

Example C54_instance : region exW (Some 650) (Some 300) = 3%Z /\ fit3 exW 650 /\ 0 < if_dc exW * if_R exW /\
  (exists p0 p1, pressure_is exW 650 0.1 p0 /\ pressure_is exW 650 2.4 p1 /\ p0 <= 300 < p1) /\
  region exV (Some 650) (Some 900) = 3%Z /\ fit3 exV 650 /\ (forall n q, 0.1 < n < 2.4 -> pressure_is exV 650 n q -> q <= 900).
Proof. exact inst_C54. Qed.

(* ---- C70 : the properties of a region come from one free energy ---- *)
Theorem C70_region1 : forall D dT dp T p x, region D (Some T) (Some p) = 1%Z -> fit1 D T p -> 0 < T -> 0 < p -> x < 0 ->
  exists h s vol e cp cv, gibbs_state (gibbs1 D) p T h s vol e cp /\ gibbs_cv (gibbs1 D) p T cp cv /\
    (vol <> 0 -> answers D dT dp (Some T) (Some p) (Some x) (Some h) (Some s) (Some (1 / vol)) (Some e) (Some cp) cv).
Proof. exact region1_state. Qed.
Print Assumptions C70_region1.

Theorem C70_region2 : forall D dT dp T p x, region D (Some T) (Some p) = 2%Z -> fit2 D T p -> 0 < T -> 0 < p -> x < 0 ->
  exists h s vol e cp cv, gibbs_state (gibbs2 D) p T h s vol e cp /\ gibbs_cv (gibbs2 D) p T cp cv /\
    (vol <> 0 -> answers D dT dp (Some T) (Some p) (Some x) (Some h) (Some s) (Some (1 / vol)) (Some e) (Some cp) cv).
Proof. exact region2_state. Qed.
Print Assumptions C70_region2.

Theorem C70_region3 : forall D dT dp T p x, region D (Some T) (Some p) = 3%Z -> fit3 D T -> 0 < T -> if_dc D * if_R D <> 0 -> x < 0 ->
  exists d p' h s e cv cp, 0.1 < d / if_dc D < 2.4 /\ helmholtz_state (helmholtz3 D) d T p' h s e cv /\ helmholtz_cp (helmholtz3 D) d T cv cp /\
    answers D dT dp (Some T) (Some p) (Some x) (Some h) (Some s) (Some d) (Some e) cp (Some cv).
Proof. exact region3_state. Qed.
Print Assumptions C70_region3.

Theorem C70_region5 : forall D dT dp T p x, region D (Some T) (Some p) = 5%Z -> fit5 D T p -> 0 < T -> 0 < p -> x < 0 ->
  exists h s vol e cp cv, gibbs_state (gibbs5 D) p T h s vol e cp /\ gibbs_cv (gibbs5 D) p T cp cv /\
    (vol <> 0 -> answers D dT dp (Some T) (Some p) (Some x) (Some h) (Some s) (Some (1 / vol)) (Some e) (Some cp) cv).
Proof. exact region5_state. Qed.
Print Assumptions C70_region5.

Example C70_instance : (exists T, 452 < T < 454 /\ region exW (Some T) (Some 20) = 1%Z /\ region exW (Some T) (Some 5) = 2%Z /\
  region exW (Some 650) (Some 300) = 3%Z /\ region exW (Some 900) (Some 300) = 2%Z /\ region exW (Some 1500) (Some 100) = 5%Z) /\
  (forall T p, fit1 exW T p /\ fit2 exW T p) /\ fit5 exW 1500 100 /\ fit3 exW 650 /\ if_dc exW * if_R exW <> 0.
Proof. exact inst_C70. Qed.

(* ---- C71 : saturated states ---- *)
(* with a quality every property is the mean of the phases at the saturation state, and the
   density that of their volumes *)
Theorem C71_mixture : forall D dT dp T p x Ts ps, sat_state D dT dp T p = (Some Ts, Some ps) -> 0 <= x ->
  fit1 D Ts ps -> fit2 D Ts ps -> 0 < Ts -> 0 < ps ->
  exists hL sL vL eL cpL hV sV vV eV cpV,
    gibbs_state (gibbs1 D) ps Ts hL sL vL eL cpL /\ gibbs_state (gibbs2 D) ps Ts hV sV vV eV cpV /\
    if_h D dT dp T p (Some x) = Ok (Some (mixed_value x hL hV)) /\
    if_s D dT dp T p (Some x) = Ok (Some (mixed_value x sL sV)) /\
    if_e D dT dp T p (Some x) = Ok (Some (mixed_value x eL eV)) /\
    if_cp D dT dp T p (Some x) = Ok (Some (mixed_value x cpL cpV)) /\
    (mixed_value x vL vV <> 0 -> prop_d D dT dp T p (Some x) = Ok (Some (1 / mixed_value x vL vV))).
Proof. exact saturated_state. Qed.
Print Assumptions C71_mixture.

(* the state is on the saturation curve when one of T and p is given *)
Theorem C71_saturation_state : forall D dp T p,
  sat_state D true dp T p = (if_Ts D p, p) /\ sat_state D false true T p = (T, if_ps D T).
Proof. exact saturation_of. Qed.
Print Assumptions C71_saturation_state.

(* the combined routine agrees with the methods, except for a temperature with a quality *)
Theorem C71_hsd_partial : forall D dT dp T p x h s d,
  (x < 0 \/ (0 <= x /\ (dT = true \/ (dp = false /\ flt p (num 0) = false)))) ->
  prop_hsd D dT T p (Some x) = Ok (h, s, d) <->
  if_h D dT dp T p (Some x) = Ok h /\ if_s D dT dp T p (Some x) = Ok s /\ prop_d D dT dp T p (Some x) = Ok d.
Proof. exact hsd_agrees. Qed.
Print Assumptions C71_hsd_partial.

(* there it takes the phases at the default pressure *)
Theorem C71_hsd_refuted : exists D T p x h s d, sat_state D false true (Some T) (Some p) = (Some T, Some 10) /\ 0 <= x <= 1 /\
  fit1 D T 10 /\ fit2 D T 10 /\
  prop_hsd D false (Some T) (Some p) (Some x) = Ok (h, s, d) /\ if_h D false true (Some T) (Some p) (Some x) <> Ok h.
Proof. exact hsd_wrong. Qed.
Print Assumptions C71_hsd_refuted.

Example C71_instance : exists T, 452 < T < 454 /\ sat_state exW false true (Some T) None = (Some T, Some 10) /\
  sat_state exW true false None (Some 10) = (Some T, Some 10) /\ fit1 exW T 10 /\ fit2 exW T 10.
Proof. exact inst_C71. Qed.

(* ---- C72 : the temperature at an enthalpy or entropy and a pressure ---- *)
(* an answer is a saturated state with that enthalpy, or a state of region 5 or 3 with it, or the
   value of one of the polynomials of the release.  What is missing: that those polynomials, which
   are fits, invert the enthalpy; and that the density in region 3 is positive. *)
Theorem C72_T_h_partial : forall D h p T x, 0 < if_R D -> 0 < if_dc D -> 0 < if_Tc D -> 0 < p -> 0 < T ->
  T_h D (Some h) (Some p) = Ok (Some T, Some x) ->
  p <= 1000 /\
  ((p < 165.292 /\ from_dome D h p T x) \/ (x = -1 /\ p < 500 /\ from_region5 D h p T) \/
   (x = -1 /\ 165.292 <= p /\ from_region3 D h p T) \/ (x = -1 /\ from_fit D h p T)).
Proof. exact T_h_classified. Qed.
Print Assumptions C72_T_h_partial.

(* the enthalpy of a mixture gives its temperature and quality back *)
Theorem C72_mixture : forall D dp p x T hL hV, flt (Some p) (num (165292/1000)) = true -> if_Ts D (Some p) = Some T ->
  phases D (h_g D) 1 (Some T) (Some p) = Ok (Some hL, Some hV) -> hL < hV -> 0 <= x < 1 ->
  exists h, (forall T0, if_h D true dp T0 (Some p) (Some x) = Ok (Some h)) /\ T_h D (Some h) (Some p) = Ok (Some T, Some x).
Proof. exact T_h_round_trip. Qed.
Print Assumptions C72_mixture.

(* the iterations for the entropy *)
Theorem C72_entropy5 : forall D s p Ti T, 0 < if_R D -> 0 < p -> 0 < T -> ts5 D (Some s) (Some p) Ti = Ok (Some T) ->
  exists h s' v e cp, gibbs_state (gibbs5 D) p T h s' v e cp /\ Rabs (s' - s) < 1 / 1000000 * s.
Proof. exact region5_entropy. Qed.
Print Assumptions C72_entropy5.

Theorem C72_entropy3_partial : forall D s p Ti di T, 0 < if_R D -> 0 < if_dc D -> 0 < if_Tc D -> 0 < T -> ts3 D (Some s) (Some p) Ti di = Ok (Some T) ->
  exists d, 0 < d / if_dc D -> exists p' h s' e cv, helmholtz_state (helmholtz3 D) d T p' h s' e cv /\
    Rabs (s' - s) < 1 / 100000 * if_R D /\ Rabs (p' - p) < 1 / 100000 * (if_dc D * if_R D * if_Tc D / 100).
Proof. exact region3_entropy. Qed.
Print Assumptions C72_entropy3_partial.

Example C72_instance : (exists T h, 0 < T /\ T_h exW (Some h) (Some 10) = Ok (Some T, Some (1/4)) /\
    if_h exW true false None (Some 10) (Some (1/4)) = Ok (Some h)) /\
  (exists T hL hV, 452 < T < 454 /\ if_Ts exW (Some 10) = Some T /\ phases exW (h_g exW) 1 (Some T) (Some 10) = Ok (Some hL, Some hV) /\ hL < hV) /\
  (exists h s, th5 exW (Some h) (Some 100) (Some 1500) = Ok (Some 1500) /\ ts5 exW (Some s) (Some 100) (Some 1500) = Ok (Some 1500)) /\
  (exists s p, ts3 exW (Some s) (Some p) (Some 650) (Some 322) = Ok (Some 650)).
Proof. exact inst_C72. Qed.

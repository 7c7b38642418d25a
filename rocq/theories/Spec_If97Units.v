(* The steam methods in the configured units: what a call means. *)
From Coq Require Import Reals ZArith List String.
From Verif Require Import Base Model_Units Model_If97 Model_If97Units Spec_Units Spec_Igas Spec_If97.
Import ListNotations.
Local Open Scope R_scope.

(* an argument given as one number, or left out *)
Definition just (o : option R) : option arr := option_map (fun r => [Some r]) o.
(* element i of an argument, as an argument *)
Definition element (o : option arr) (i : nat) : option arr :=
  match o with
  | None => None
  | Some a => match elem a i with Some z => Some [z] | None => Some [] end
  end.
(* an argument fits a result of n elements: left out, one element, or n *)
Definition fits_to (n : nat) (o : option arr) : Prop :=
  match o with None => True | Some a => List.length a = n \/ List.length a = 1%nat end.

(* The state a call with one element is about, in K and bar: the arguments are in the configured
   units (temperature scale uT, pressure unit of kP Pa), what is left out is the configured
   default state, which has its own units. *)
Definition in_kelvin (E : env) (uT : string) (T : option R) : R :=
  match T with Some t => to_kelvin uT t | None => to_kelvin (e_defTu E) (e_defT E) end.
Definition in_bar (E : env) (kP kd : R) (p : option R) : R :=
  match p with Some q => q * kP / 100000 | None => e_defp E * kd / 100000 end.
Definition quality (x : option R) : R := match x with Some x => x | None => -1 end.

(* r units of one size are v units of another; a value that is not finite stays so *)
Definition same_amount (size_r size_v : R) (r v : fl) : Prop :=
  match r, v with
  | Some r, Some v => r * size_r = v * size_v
  | None, None => True
  | _, _ => False
  end.
(* kJ/kg, kJ/kg/K and kg/m3 in J, kmol, m3 and degrees Rankine, for the molar mass mw *)
Definition kJ_per_kg (mw : R) : R := 1000 / (1 / mw).
Definition kJ_per_kg_K (mw : R) : R := 1000 / (1 / mw) / (9/5).
Definition kg_per_m3 (mw : R) : R := 1 / mw.

(* the call f answers as the method g on one element does, up to the size of the units *)
Definition reports (answer : res arr) (inner : res fl) (size_r size_v : R) : Prop :=
  match inner with
  | Ok v => exists r, answer = Ok [r] /\ same_amount size_r size_v r v
  | Err e => answer = Err e
  end.

Definition all_finite (a : arr) : Prop := ~ In None a.

(* ---- the temperature at an entropy and a pressure ---- *)
Definition from_dome_s (D : ifdata) (s p T x : R) : Prop :=
  if_Ts D (Some p) = Some T /\ 0 <= x < 1 /\
  (fit1 D T p -> fit2 D T p -> 0 < T ->
   exists hL sL vL eL cpL hV sV vV eV cpV,
     gibbs_state (gibbs1 D) p T hL sL vL eL cpL /\ gibbs_state (gibbs2 D) p T hV sV vV eV cpV /\ s = mixed_value x sL sV).
Definition from_region5_s (D : ifdata) (s p T : R) : Prop :=
  exists h s' v e cp, gibbs_state (gibbs5 D) p T h s' v e cp /\ Rabs (s' - s) < 1 / 1000000 * s.
Definition from_region3_s (D : ifdata) (s p T : R) : Prop :=
  exists d, 0 < d / if_dc D -> exists p' h s' e cv, helmholtz_state (helmholtz3 D) d T p' h s' e cv /\
    Rabs (s' - s) < 1 / 100000 * if_R D /\ Rabs (p' - p) < 1 / 100000 * (if_dc D * if_R D * if_Tc D / 100).

(* a reading on the scale uT is the temperature T in kelvin *)
Definition reads (uT : string) (a T : fl) : Prop :=
  match a, T with
  | Some a, Some T => to_kelvin uT a = T
  | None, None => True
  | _, _ => False
  end.
(* the polynomials of the release for the temperature at an entropy *)
Definition from_fit_s (B : ifback) (s p T : R) : Prop :=
  exists A x y, In (A, x, y) [(if_ts1 B, p / 10, s + 2); (if_ts2a B, Rpower (p / 10) (1/4), s / 2 - 2);
                              (if_ts2b B, p / 10, 10 - s / 0.7853); (if_ts2c B, p / 10, 2 - s / 2.9251)] /\
    usable A /\ (can_raise tm A x -> can_raise tn A y -> T = poly A x y).

(* ---- the methods ---- *)
(* a method, what it computes inside in K, bar, kJ, kg and m3, the size of the unit of its answer in the
   configuration (kE J, kM kmol, kV m3, kT degrees Rankine), and the size of the unit inside *)
Definition measured (D : ifdata) (E : env) (kT kV kE kM : R) :
  list ((option arr -> option arr -> option arr -> res arr) * (bool -> bool -> fl -> fl -> fl -> res fl) * R * R) :=
  let mw := if_mw D in
  [(u_h D E, if_h D, kE / kM, kJ_per_kg mw); (u_e D E, if_e D, kE / kM, kJ_per_kg mw);
   (u_cp D E, if_cp D, kE / kM / kT, kJ_per_kg_K mw); (u_cv D E, if_cv D, kE / kM / kT, kJ_per_kg_K mw);
   (u_d D E, prop_d D, kM / kV, kg_per_m3 mw)].
Definition property_methods (D : ifdata) (E : env) : list (option arr -> option arr -> option arr -> res arr) :=
  [u_h D E; u_s D E; u_e D E; u_cp D E; u_cv D E; u_d D E].
(* a saturation method and the method of the same property *)
Definition saturation_pairs (D : ifdata) (E : env) :
  list ((option given -> option given -> res (arr * arr * arr * arr)) * (option arr -> option arr -> option arr -> res arr)) :=
  [(u_hs D E, u_h D E); (u_es D E, u_e D E); (u_ds D E, u_d D E)].
(* the answer for an array is what ps or Ts, and the property method with quality 0 and 1, answer *)
Definition consistent (D : ifdata) (E : env) (fs : option given -> option given -> res (arr * arr * arr * arr))
    (f : option arr -> option arr -> option arr -> res arr) : Prop :=
  (forall a Tu pu L V, a <> [] -> fs (Some (Array a)) None = Ok (Tu, pu, L, V) ->
     Tu = a /\ u_ps D E (Some a) = Ok pu /\
     (all_finite L -> all_finite V -> f (Some a) None (Some [Some 0]) = Ok L /\ f (Some a) None (Some [Some 1]) = Ok V)) /\
  (forall a Tu pu L V, a <> [] -> fs None (Some (Array a)) = Ok (Tu, pu, L, V) ->
     pu = a /\ u_Ts D E (Some a) = Ok Tu /\
     (all_finite L -> all_finite V -> f None (Some a) (Some [Some 0]) = Ok L /\ f None (Some a) (Some [Some 1]) = Ok V)).
(* the limit that applies to element i *)
Definition limit_at (l : limit) (i : nat) : option R := match l with One x => Some x | Each a => nth_error a i end.

(* ---- which part of the release answers at an entropy ---- *)
Definition below (s : R) (b : fl) : Prop := match b with Some b => s < b | None => False end.
Definition fitted (A : list term) (x y T q : R) : Prop :=
  q = -1 /\ usable A /\ (can_raise tm A x -> can_raise tn A y -> T = poly A x y).
(* in K, bar, kJ and kg: T and q at s and p.  s(T,p) and Ts(p) are the methods. *)
Definition chosen_s (D : ifdata) (E : env) (B : ifback) (s p T q : R) : Prop :=
  let entropy_at t v := u_s D E (just (Some t)) (just (Some p)) None = Ok [v] in
  let region5 s25 := exists s5, entropy_at 2273.15 s5 /\ ~ below s s25 /\ (forall m, s5 = Some m -> s <= m) /\ q = -1 /\ from_region5_s D s p T in
  (p < 165.292 /\ exists sL sV, phases D (s_g D) 1 (if_Ts D (Some p)) (Some p) = Ok (sL, sV) /\
     ((below s sL /\ fitted (if_ts1 B) (p / 10) (s + 2) T q) \/
      (~ below s sL /\ below s sV /\ from_dome_s D s p T q) \/
      (~ below s sL /\ ~ below s sV /\ p < 40 /\ exists s25, entropy_at 1073.15 s25 /\
         ((below s s25 /\ fitted (if_ts2a B) (Rpower (p / 10) (1/4)) (s / 2 - 2) T q) \/ region5 s25)) \/
      (~ below s sL /\ ~ below s sV /\ 40 <= p /\ s < 5.85 /\ fitted (if_ts2c B) (p / 10) (2 - s / 2.9251) T q) \/
      (~ below s sL /\ ~ below s sV /\ 40 <= p /\ 5.85 <= s /\ exists s25, entropy_at 1073.15 s25 /\
         ((below s s25 /\ fitted (if_ts2b B) (p / 10) (10 - s / 0.7853) T q) \/ region5 s25)))) \/
  (165.292 <= p <= 1000 /\ exists s13, entropy_at 623.15 s13 /\
     ((below s s13 /\ fitted (if_ts1 B) (p / 10) (s + 2) T q) \/
      (~ below s s13 /\ exists T23 s23, b23_p D (Some p) = T23 /\ u_s D E (Some [T23]) (just (Some p)) None = Ok [s23] /\
         ((below s s23 /\ q = -1 /\ from_region3_s D s p T) \/
          (~ below s s23 /\ s < 5.85 /\ fitted (if_ts2c B) (p / 10) (2 - s / 2.9251) T q) \/
          (~ below s s23 /\ 5.85 <= s /\ exists s25, entropy_at 1073.15 s25 /\
             ((below s s25 /\ fitted (if_ts2b B) (p / 10) (10 - s / 0.7853) T q) \/ (p <= 500 /\ region5 s25))))))).
(* the polynomials for T(s,p) can be evaluated at s and p *)
Definition entropy_inverses_fit (B : ifback) (s p : R) : Prop :=
  usable_at (if_ts1 B) (p / 10) (s + 2) /\ usable_at (if_ts2a B) (Rpower (p / 10) (1/4)) (s / 2 - 2) /\
  usable_at (if_ts2b B) (p / 10) (10 - s / 0.7853) /\ usable_at (if_ts2c B) (p / 10) (2 - s / 2.9251).

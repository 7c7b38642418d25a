(* What the IF-97 routines are supposed to compute, independently of how. *)
From Coq Require Import Reals ZArith List.
From Verif Require Import Model_If97 Spec_Mp1.
Import ListNotations.
Local Open Scope R_scope.

(* the function a list of terms stands for: the sum of a x^m y^n (docstring of _peval) *)
Definition poly (A : list term) (x y : R) : R :=
  total (fun t => ta t * powerRZ x (tm t) * powerRZ y (tn t)) A.
(* the argument can be raised to the exponents that occur *)
Definition can_raise (e : term -> Z) (A : list term) (x : R) : Prop :=
  x <> 0 \/ forall t, In t A -> (0 <= e t)%Z.
(* terms sorted by the exponent of x, then of y, without repetition, with exponents from -99 to 100 *)
Definition term_lt (a b : term) : Prop := (tm a < tm b)%Z \/ (tm a = tm b /\ (tn a < tn b)%Z).
Fixpoint ascending (A : list term) : Prop :=
  match A with
  | [] => True
  | a :: A' => (forall b, In b A' -> term_lt a b) /\ ascending A'
  end.
Definition usable (A : list term) : Prop :=
  A <> [] /\ ascending A /\ forall t, In t A -> (-99 <= tm t <= 100)%Z /\ (-99 <= tn t <= 100)%Z.

(* the saturation equation of the IF-97 release (equation 29), in the scaled variables
   b = (p/MPa)^(1/4) and th = T + n9/(T - n10) *)
Definition sat_equation (c : sat4) (b th : R) : Prop :=
  b^2 * th^2 + n1 c * b^2 * th + n2 c * b^2 + n3 c * b * th^2 + n4 c * b * th + n5 c * b
  + n6 c * th^2 + n7 c * th + n8 c = 0.

(* ---- the region map ---- *)
(* what the methods accept, T in K and p in bar *)
Definition accepted_range (T p : R) : Prop :=
  0 <= p <= 1000 /\ (T <= 1073.15 \/ (T <= 2273.15 /\ p <= 500)).
(* what the release and the limits of the class say *)
Definition documented_range (T p : R) : Prop := 273.15 <= T /\ accepted_range T p.
(* the 2-3 boundary *)
Definition boundary23 (D : ifdata) (T : R) : R := b_0 (if_b23 D) + b_1 (if_b23 D) * T + b_2 (if_b23 D) * T^2.

(* ---- the saturation curve ---- *)
(* its two slopes *)
Definition slope_th (c : sat4) (b th : R) : R := 2 * (b^2 + n3 c * b + n6 c) * th + (n1 c * b^2 + n4 c * b + n7 c).
Definition slope_b (c : sat4) (b th : R) : R := 2 * (th^2 + n1 c * th + n2 c) * b + (n3 c * th^2 + n4 c * th + n5 c).
(* the branch where liquid and vapor meet, the equation has two in each variable *)
Definition on_branch (c : sat4) (b th : R) : Prop :=
  sat_equation c b th /\ 0 < b /\ 0 <= slope_th c b th /\ slope_b c b th <= 0 /\
  n2 c * b^2 + n5 c * b + n8 c <> 0 /\ n6 c * th^2 + n7 c * th + n8 c <> 0.
Definition scaled_T (c : sat4) (T : R) : R := T + n9 c / (T - n10 c).

(* ---- the free energies of the release ---- *)
Definition gamma1 (D : ifdata) (pi t : R) : R := poly (if_r1 D) (7.1 - pi) (t - 1.222).
Definition gamma2 (D : ifdata) (pi t : R) : R := poly (if_r2o D) pi t + poly (if_r2r D) pi (t - 0.5) + ln pi.
Definition gamma5 (D : ifdata) (pi t : R) : R := poly (if_r5o D) pi t + poly (if_r5r D) pi t + ln pi.
Definition phi3 (D : ifdata) (n t : R) : R := poly (if_r3 D) n t + if_r3ln D * ln n.
(* per kilogram: kJ/kg from bar and K, and from kg/m3 and K *)
Definition gibbs1 (D : ifdata) (p T : R) : R := if_R D * T * gamma1 D (p / 165.3) (1386 / T).
Definition gibbs2 (D : ifdata) (p T : R) : R := if_R D * T * gamma2 D (p / 10) (540 / T).
Definition gibbs5 (D : ifdata) (p T : R) : R := if_R D * T * gamma5 D (p / 10) (1000 / T).
Definition helmholtz3 (D : ifdata) (d T : R) : R := if_R D * T * phi3 D (d / if_dc D) (if_Tc D / T).
(* the lists of terms can be evaluated at the arguments the region uses *)
Definition usable_at (A : list term) (x y : R) : Prop := usable A /\ can_raise tm A x /\ can_raise tn A y.
Definition fit1 (D : ifdata) (T p : R) : Prop := usable_at (if_r1 D) (7.1 - p / 165.3) (1386 / T - 1.222).
Definition fit2 (D : ifdata) (T p : R) : Prop :=
  usable_at (if_r2o D) (p / 10) (540 / T) /\ usable_at (if_r2r D) (p / 10) (540 / T - 0.5).
Definition fit5 (D : ifdata) (T p : R) : Prop :=
  usable_at (if_r5o D) (p / 10) (1000 / T) /\ usable_at (if_r5r D) (p / 10) (1000 / T).
Definition fit3 (D : ifdata) (T : R) : Prop := usable (if_r3 D) /\ can_raise tn (if_r3 D) (if_Tc D / T).

(* thermodynamics from one Gibbs energy G(p,T); 1 bar m3 is 100 kJ.  v is the specific volume *)
Definition gibbs_state (G : R -> R -> R) (p T h s v e cp : R) : Prop :=
  deriv (fun u => G p u) T (- s) /\ deriv (fun u => G u T) p (100 * v) /\
  h = G p T + T * s /\ e = h - 100 * p * v /\ deriv2 (fun u => G p u) T (- cp / T).
Definition gibbs_cv (G : R -> R -> R) (p T cp : R) (cv : fl) : Prop :=
  exists Gpp GpT, deriv2 (fun u => G u T) p Gpp /\ mixed G p T GpT /\
    (Gpp <> 0 -> cv = Some (cp + T * GpT^2 / Gpp)).
(* thermodynamics from one Helmholtz energy A(d,T); p is in bar *)
Definition helmholtz_state (A : R -> R -> R) (d T p h s e cv : R) : Prop :=
  deriv (fun u => A d u) T (- s) /\ deriv (fun u => A u T) d (100 * p / d^2) /\
  e = A d T + T * s /\ h = e + 100 * p / d /\ deriv2 (fun u => A d u) T (- cv / T).
Definition helmholtz_cp (A : R -> R -> R) (d T cv : R) (cp : fl) : Prop :=
  exists Ad Add AdT, deriv (fun u => A u T) d Ad /\ deriv2 (fun u => A u T) d Add /\ mixed A d T AdT /\
    (2 * d * Ad + d^2 * Add <> 0 -> cp = Some (cv + T * d^2 * AdT^2 / (2 * d * Ad + d^2 * Add))).
(* the pressure, in bar, at the reduced density n = d/dc *)
Definition pressure_is (D : ifdata) (T n p : R) : Prop :=
  exists fx, deriv (fun u => phi3 D u (if_Tc D / T)) n fx /\ p = if_dc D * if_R D * T * (n * n * fx) / 100.

(* a mixture with vapor fraction x *)
Definition mixed_value (x l v : R) : R := (1 - x) * l + x * v.
(* what the methods return for one element *)
Definition answers (D : ifdata) (dT dp : bool) (T p x : fl) (h s d e cp cv : fl) : Prop :=
  if_h D dT dp T p x = Ok h /\ if_s D dT dp T p x = Ok s /\ prop_d D dT dp T p x = Ok d /\ if_e D dT dp T p x = Ok e /\
  if_cp D dT dp T p x = Ok cp /\ if_cv D dT dp T p x = Ok cv.

(* ---- the temperature at an enthalpy and a pressure ---- *)
(* inside the dome: the quality is the fraction of vapor with that enthalpy *)
Definition from_dome (D : ifdata) (h p T x : R) : Prop :=
  if_Ts D (Some p) = Some T /\ 0 <= x < 1 /\
  (fit1 D T p -> fit2 D T p -> 0 < T ->
   exists hL sL vL eL cpL hV sV vV eV cpV,
     gibbs_state (gibbs1 D) p T hL sL vL eL cpL /\ gibbs_state (gibbs2 D) p T hV sV vV eV cpV /\ h = mixed_value x hL hV).
(* region 5: the enthalpy is met to a part in a million *)
Definition from_region5 (D : ifdata) (h p T : R) : Prop :=
  exists h' s v e cp, gibbs_state (gibbs5 D) p T h' s v e cp /\ Rabs (h' - h) < 1 / 1000000 * h.
(* region 3: at a density where the pressure and the enthalpy are met *)
Definition from_region3 (D : ifdata) (h p T : R) : Prop :=
  exists d, 0 < d / if_dc D -> exists p' h' s e cv, helmholtz_state (helmholtz3 D) d T p' h' s e cv /\
    Rabs (h' - h) < 1 / 100000 * (if_R D * if_Tc D) /\ Rabs (p' - p) < 1 / 100000 * (if_dc D * if_R D * if_Tc D / 100).
(* elsewhere: the polynomials of the release for the temperature *)
Definition from_fit (D : ifdata) (h p T : R) : Prop :=
  exists A x y, In (A, x, y) [(if_th1 D, p / 10, h / 2500 + 1); (if_th2a D, p / 10, h / 2000 - 2.1);
                              (if_th2b D, p / 10 - 2, h / 2000 - 2.6); (if_th2c D, p / 10 + 25, h / 2000 - 1.8)] /\
    usable A /\ (can_raise tm A x -> can_raise tn A y -> T = poly A x y).

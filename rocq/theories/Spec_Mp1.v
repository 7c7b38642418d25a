(* Independent vocabulary for the properties of the multi-phase model (C43-C50). *)
From Coq Require Import Reals ZArith List Arith.
From Verif Require Import Model_Mp1.
Import ListNotations.
Local Open Scope R_scope.
Local Open Scope list_scope.

(* l is the derivative of f at x *)
Definition deriv (f : R -> R) (x l : R) : Prop := derivable_pt_lim f x l.
(* l is the second derivative of f at x *)
Definition deriv2 (f : R -> R) (x l : R) : Prop :=
  exists (f' : R -> R) (eps : R), 0 < eps /\
    (forall u, Rabs (u - x) < eps -> deriv f u (f' u)) /\ deriv f' x l.
(* l is the derivative in the second argument, at y, of the derivative in the first, at x *)
Definition mixed (f : R -> R -> R) (x y l : R) : Prop :=
  exists (g : R -> R) (eps : R), 0 < eps /\
    (forall v, Rabs (v - y) < eps -> deriv (fun u => f u v) x (g v)) /\ deriv g y l.

(* x to the power r: x^0 = 1 and x^1 = x for every x, and 0^r = 0 for r > 0 *)
Definition power (x r : R) : R :=
  if Req_EM_T r 0 then 1
  else if Req_EM_T r 1 then x
  else if Rlt_dec 0 x then Rpower x r else 0.

Definition total {A} (f : A -> R) (l : list A) : R := fold_right (fun a s => f a + s) 0 l.

(* ---- the functions a coefficient group stands for (docstrings of _poly1 and _poly2) ---- *)
Definition value1 (g : group1) (x : R) : R :=
  total (fun c => power x (c1_post c) *
    total (fun t => snd t * power x (c1_pre c) ^ Z.to_nat (fst t)) (c1_rows c)) g.
Definition value2 (g : group2) (x y : R) : R :=
  total (fun c => power x (c2_postx c) * power y (c2_posty c) *
    total (fun t => snd t * power x (c2_prex c) ^ Z.to_nat (fst (fst t))
                          * power y (c2_prey c) ^ Z.to_nat (snd (fst t))) (c2_rows c)) g.

(* terms sorted as the documentation requires: non-negative powers, largest first *)
Fixpoint descending {A} (less : A -> A -> Prop) (l : list A) : Prop :=
  match l with
  | [] => True
  | a :: l' => (forall b, In b l' -> less b a) /\ descending less l'
  end.
Definition ordered1 (c : coef1) : Prop :=
  (forall t, In t (c1_rows c) -> (0 <= fst t)%Z) /\
  descending (fun b a => (fst b < fst a)%Z) (c1_rows c).
Definition ordered2 (c : coef2) : Prop :=
  (forall t, In t (c2_rows c) -> (0 <= fst (fst t))%Z /\ (0 <= snd (fst t))%Z) /\
  descending (fun b a => (fst (fst b) < fst (fst a))%Z \/
    (fst (fst b) = fst (fst a) /\ (snd (fst b) < snd (fst a))%Z)) (c2_rows c).
(* an ordinary polynomial: defined for every real argument *)
Definition plain1 (c : coef1) : Prop := c1_pre c = 1 /\ c1_post c = 0.
(* lists for which _poly2 applies the chain rule to the second argument (finding of C43) *)
Definition prey_ok (c : coef2) : Prop := c2_prex c <> 1 \/ c2_prey c = 1.

(* the first and second partial derivatives of f at (x, y) *)
Definition partials1 (f : R -> R -> R) (x y fx fy : R) : Prop :=
  deriv (fun u => f u y) x fx /\ deriv (fun v => f x v) y fy.
Definition partials2 (f : R -> R -> R) (x y fxx fxy fyy : R) : Prop :=
  deriv2 (fun u => f u y) x fxx /\ mixed f x y fxy /\ deriv2 (fun v => f x v) y fyy.

(* ---- the Helmholtz free energy the docstrings of _ao and _ar describe ---- *)
Definition opt_total {A} (f : A -> R) (o : option A) : R := match o with Some a => f a | None => 0 end.
Definition ideal_energy (G : aogroup) (t d : R) : R :=
  ln d + opt_total (fun c => c * ln t) (ao_logt G) + opt_total (fun c => c * t * ln t) (ao_tlogt G)
  + opt_total (fun g => value1 g t) (ao_coef0 G)
  + opt_total (total (fun tc => snd tc * ln (1 - exp (- fst tc * t)))) (ao_coef1 G).
(* the data a file is expected to hold: sorted polynomials, positive exponents *)
Definition ao_wf (G : aogroup) : Prop :=
  (forall g, ao_coef0 G = Some g -> Forall ordered1 g) /\
  (forall l, ao_coef1 G = Some l -> Forall (fun tc : R * R => 0 < fst tc) l).

(* coef0: a polynomial, then polynomials times exp(-d^k), k = 1, 2, ... *)
Fixpoint exp_terms (k : nat) (gs : list group2) (t d : R) : R :=
  match gs with
  | [] => 0
  | g :: gs' => exp (- d ^ k) * value2 g t d + exp_terms (S k) gs' t d
  end.
Definition gauss_term (r : ar1) (t d : R) : R :=
  r1_c r * Rpower d (r1_d r) * Rpower t (r1_t r)
  * exp (- r1_a r * (d - r1_ep r)^2 - r1_b r * (t - r1_gam r)^2).
(* |d-1|^r, also at d = 1 *)
Definition dist (d r : R) : R := if Req_EM_T d 1 then 0 else Rpower ((d - 1)^2) (r / 2).
Definition delta_fn (r : ar2) (t d : R) : R :=
  ((1 - t) + r2_A r * dist d (1 / r2_m r))^2 + r2_B r * dist d (2 * r2_a r).
Definition crit_term (r : ar2) (t d : R) : R :=
  r2_c r * d * power (delta_fn r t d) (r2_b r) * exp (- r2_C r * (d - 1)^2 - r2_D r * (t - 1)^2).
Definition residual_energy (G : argroup) (t d : R) : R :=
  value2 (ar_first G) t d + exp_terms 1 (ar_rest G) t d
  + opt_total (total (fun r => gauss_term r t d)) (ar_coef1 G)
  + opt_total (total (fun r => crit_term r t d)) (ar_coef2 G).
Definition ar_wf (G : argroup) : Prop :=
  Forall ordered2 (ar_first G) /\ Forall (Forall ordered2) (ar_rest G).

(* a row of coef2 as in the literature: |d-1|^(1/m) and |d-1|^(2a) are twice differentiable at
   the critical density, and Delta is not negative *)
Definition crit_wf (r : ar2) : Prop := 0 < r2_m r < 1 / 2 /\ 1 < r2_a r /\ 0 <= r2_B r /\ 0 < r2_b r.
(* the polynomials whose derivatives are right (C43) *)
Definition ar_prey_ok (G : argroup) : Prop :=
  Forall prey_ok (ar_first G) /\ Forall (Forall prey_ok) (ar_rest G).

(* r holds the value of v at (x, y) and the derivatives diff asks for, and 0 for the others *)
Definition exact2 (diff : nat) (v : R -> R -> R) (x y : R) (r : jet2) : Prop :=
  exists p px py pxx pxy pyy,
    r = (Some p, Some px, Some py, Some pxx, Some pxy, Some pyy) /\ p = v x y /\
    (if (0 <? diff)%nat then partials1 v x y px py else px = 0 /\ py = 0) /\
    (if (1 <? diff)%nat then partials2 v x y pxx pxy pyy else pxx = 0 /\ pxy = 0 /\ pyy = 0).
(* the same, without the mixed derivative *)
Definition exact2_but_mixed (diff : nat) (v : R -> R -> R) (x y : R) (r : jet2) : Prop :=
  exists p px py pxx pxy pyy,
    r = (Some p, Some px, Some py, Some pxx, Some pxy, Some pyy) /\ p = v x y /\
    (if (0 <? diff)%nat then partials1 v x y px py else px = 0 /\ py = 0) /\
    (if (1 <? diff)%nat
     then deriv2 (fun u => v u y) x pxx /\ deriv2 (fun w => v x w) y pyy
     else pxx = 0 /\ pyy = 0).

(* some element of the array is within 1e-6 of the critical density *)
Definition near_critical (all : list (fl * fl)) : Prop :=
  exists tau dd, In (tau, Some dd) all /\ Rabs (dd - 1) < 1 / 1000000.
(* some element of the array has |Delta| < 1e-6 for the row *)
Definition near_zero_delta (all : list (fl * fl)) (r : ar2) : Prop :=
  exists tau dd, In (Some tau, Some dd) all /\ Rabs (delta_fn r tau dd) < 1 / 1000000.

(* ---- the Helmholtz free energy in J/kg as a function of temperature and density ---- *)
Definition helmholtz (D : mpdata) (T d : R) : R :=
  mp_R D * T *
  (ideal_energy (mp_AO D) (ao_Tscale (mp_AO D) / T) (d / ao_dscale (mp_AO D))
   + residual_energy (mp_AR D) (ar_Tscale (mp_AR D) / T) (d / ar_dscale (mp_AR D))).
Definition mp_wf (D : mpdata) : Prop :=
  ao_wf (mp_AO D) /\ ar_wf (mp_AR D) /\ ar_prey_ok (mp_AR D) /\
  0 < ao_Tscale (mp_AO D) /\ 0 < ao_dscale (mp_AO D) /\
  0 < ar_Tscale (mp_AR D) /\ 0 < ar_dscale (mp_AR D) /\ 0 < mp_R D.
(* the value a routine returns *)
Definition gives (r : jet1) (v : R) : Prop := fst (fst r) = Some v.

(* some element of the array is within 1e-6 of the critical density, relatively *)
Definition close_to_critical (D : mpdata) (all : list (fl * fl)) : Prop :=
  exists T' d', In (T', Some d') all /\ Rabs (d' / ar_dscale (mp_AR D) - 1) < 1 / 1000000.
(* states at which the first derivatives of the residual part are right (C45): the data has
   no critical point terms, or the state is a non-critical one and no other element of the
   array is critical while this one is below the critical density *)
Definition residual_ok (D : mpdata) (all : list (fl * fl)) (T d : R) : Prop :=
  ar_coef2 (mp_AR D) = None \/
  exists l, ar_coef2 (mp_AR D) = Some l /\ Forall crit_wf l /\
    Forall (fun r => 0 < delta_fn r (ar_Tscale (mp_AR D) / T) (d / ar_dscale (mp_AR D))) l /\
    In (Some T, Some d) all /\ (~ close_to_critical D all \/ ar_dscale (mp_AR D) <= d).
(* vT, vd are the derivatives of the values the routine returns *)
Definition own_derivatives (X : fl -> fl -> nat -> jet1) (T d : R) : Prop :=
  exists v vT vd, X (Some T) (Some d) 1%nat = (Some v, Some vT, Some vd) /\
  forall fn, (forall u w, 0 < u -> 0 < w -> gives (X (Some u) (Some w) 0%nat) (fn u w)) ->
    v = fn T d /\ partials1 fn T d vT vd.

(* ---- the saturation fits (docstring of _satfit) ---- *)
Definition sat_form (fn : Z) (g : group1) (tau : R) : R :=
  match fn with
  | 0%Z => value1 g tau
  | 1%Z => value1 g (1 - tau)
  | 2%Z => exp (value1 g (1 - tau))
  | _ => exp (1 / tau * value1 g (1 - tau))
  end.
Definition sat_value (G : satgroup) (T : R) : R :=
  sg_scale G * sat_form (sg_fn G) (sg_coef G) (T / sg_Tscale G).
(* the temperatures at which the fit is smooth: below critical for the forms in 1-tau, or any
   if the fit is an ordinary polynomial *)
Definition sat_smooth (G : satgroup) (T : R) : Prop :=
  0 < T /\ (Forall plain1 (sg_coef G) \/ (sg_fn G = 0%Z \/ T < sg_Tscale G)).
Definition sat_wf (G : satgroup) : Prop :=
  Forall ordered1 (sg_coef G) /\ 0 < sg_Tscale G /\ (0 <= sg_fn G <= 3)%Z.

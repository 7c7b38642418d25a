(* Vocabulary for C88: changes of state of a multi-phase substance, as curves of states. *)
From Coq Require Import Reals List String.
From Verif Require Import Base Model_Num Model_Units Spec_Units Model_Igas Spec_Igas Model_Mp1Calls Spec_Mp1 Spec_Mp1Calls.
Import ListNotations.
Local Open Scope R_scope.
Local Open Scope string_scope.
Local Open Scope list_scope.

(* Temperatures and densities, in the configured units, as functions of a parameter; both have a
   slope (a and b) at u.  At u the temperature is T kelvin and the density d kg/m3. *)
Definition curve_through (D : mpdata) (E : env) (z : sizes) (tt rr : R -> R) (u a b T d : R) : Prop :=
  deriv tt u a /\ deriv rr u b /\ kelvin_is E (tt u) T /\ density_is D z (rr u) d.
(* on the curve, around u, the method m reports the number f *)
Definition reports (m : mp_call) (tt rr : R -> R) (u : R) (f : R -> R) : Prop :=
  exists eps, 0 < eps /\ forall w, Rabs (w - u) < eps -> exists x,
    m [] [("T", [Some (tt w)]); ("d", [Some (rr w)])] = Ok ([Some (f w)], [x]).
(* a state of one phase, in the open range of temperature *)
Definition one_phase (D : mpdata) (T d : R) : Prop :=
  fst (mp_Tlim D) < T < snd (mp_Tlim D) /\ 0 < T /\ 0 < d /\
  (mp_Tc D < T \/ exists dL dV, saturation D T dL dV /\ (d < dV \/ dL < d)).
(* around u the curve runs through states at which the derivatives of the residual part are right (C45):
   any states, for data without critical point terms *)
Definition regular_curve (D : mpdata) (E : env) (z : sizes) (tt rr : R -> R) (u : R) : Prop :=
  exists eps, 0 < eps /\ forall w T d, Rabs (w - u) < eps -> kelvin_is E (tt w) T -> density_is D z (rr w) d ->
    residual_ok D [(Some T, Some d)] T d.
(* r in the configured units of length and time is c in m/s *)
Definition speed_is (E : env) (r c : R) : Prop := exists ul ut kl kt,
  dget "unit_length" (e_cfg E) = Some ul /\ si (e_setup E) QLength ul = Some kl /\
  dget "unit_time" (e_cfg E) = Some ut /\ si (e_setup E) QTime ut = Some kt /\ c = r * kl / kt.

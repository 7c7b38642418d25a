(* Vocabulary for the searches of the multi-phase class (C79, C81). *)
From Coq Require Import Reals List String.
From Verif Require Import Base Model_Num Model_Units Model_Defaults Spec_Units Model_Mp1Calls Spec_Igas Spec_Mp1 Spec_Mp1Calls.
Import ListNotations.
Local Open Scope R_scope.
Local Open Scope string_scope.
Local Open Scope list_scope.

(* v is a solution of f x = y on [a, b] to the relative tolerance ep: f is y there up to ep, or f
   passes y on an interval of relative width ep with v at one end *)
Definition solves (f : R -> R) (a b y ep v : R) : Prop :=
  a <= v <= b /\
  (Rabs (f v - y) <= ep * Rabs y \/
   exists lo hi, a <= lo /\ lo <= hi /\ hi <= b /\ (v = lo \/ v = hi) /\ hi - lo <= ep * Rabs v /\
     (f lo <= y <= f hi \/ f hi <= y <= f lo)).

(* for a continuous f that means: f is y there up to ep, or f is exactly y at a point of [a, b] that
   is v up to ep *)
Definition found (f : R -> R) (a b y ep v : R) : Prop :=
  a <= v <= b /\
  (Rabs (f v - y) <= ep * Rabs y \/ exists r, a <= r <= b /\ f r = y /\ Rabs (r - v) <= ep * Rabs v).

(* a call with two arguments n1 and n2, whose elements i are r1 and r2 *)
Definition state_pair (varg : list arr) (kw : list (string * arr)) (i : nat) (n1 : string) (r1 : R) (n2 : string) (r2 : R) : Prop :=
  NoDup (map fst kw) /\ mp_acceptable varg kw /\ in_result varg kw i /\ List.length (supplied varg kw) = 2%nat /\
  n1 <> n2 /\ argument varg kw i n1 r1 /\ argument varg kw i n2 r2.

(* the densities between which the density for T and p is looked for: from a tenth of the ideal
   gas density up to the limit of the data at and above the critical temperature; below, from
   half of the ideal gas density up to 1 percent above the saturated vapor if p is below the
   vapor pressure, and otherwise from 1 percent below the saturated liquid up to the limit *)
Definition density_limits (D : mpdata) (T p lo hi : R) : Prop :=
  (mp_Tc D <= T /\ lo = 1/10 * p / (mp_R D * T) /\ hi = snd (mp_dlim D)) \/
  (T < mp_Tc D /\ exists dL dV, saturation D T dL dV /\ sat_wf (mp_PS D) /\ sat_smooth (mp_PS D) T /\
     ((p < sat_value (mp_PS D) T /\ lo = 5/10 * p / (mp_R D * T) /\ hi = dV * (101/100)) \/
      (sat_value (mp_PS D) T <= p /\ lo = dL * (99/100) /\ hi = snd (mp_dlim D)))).

(* the critical point terms of the data, if there are any, have a value at T and d *)
Definition evaluable (D : mpdata) (T d : R) : Prop :=
  forall l, ar_coef2 (mp_AR D) = Some l -> Forall crit_wf l /\
    Forall (fun r => 0 < delta_fn r (ar_Tscale (mp_AR D) / T) (d / ar_dscale (mp_AR D))) l.
(* the routine F has the value v at T and d, for an array of this one state *)
Definition at_state (F : list (fl * fl) -> inner) (T d v : R) : Prop :=
  gives (F [(Some T, Some d)] (Some T) (Some d) 0%nat) v.
(* the same for the density d and for both phases at T *)
Definition evaluable_around (D : mpdata) (T d : R) : Prop :=
  evaluable D T d /\ (T < mp_Tc D -> forall dL dV, saturation D T dL dV -> evaluable D T dL /\ evaluable D T dV).
(* in a call with this result each state is evaluated as if it were alone: the data have no critical
   point terms (C69), or there is only one state *)
Definition evaluated_alone (D : mpdata) (xs : arr) : Prop := ar_coef2 (mp_AR D) = None \/ List.length xs = 1%nat.

(* the properties a state can be looked for by, and the methods that report them *)
Definition searched (D : mpdata) (E : env) (fuel : nat) : list (string * mp_call) :=
  [("e", mm_e D E fuel); ("h", mm_h D E fuel); ("s", mm_s D E fuel)].
(* argument n of value r is the density d (in kg/m3): density or specific volume *)
Definition density_arg (D : mpdata) (z : sizes) (n : string) (r d : R) : Prop :=
  (n = "d" /\ density_is D z r d) \/ (n = "v" /\ r <> 0 /\ density_is D z (1 / r) d).
(* at T there is one phase, or two of different densities *)
Definition dome_at (D : mpdata) (T : R) : Prop :=
  T < mp_Tc D -> exists dL dV, saturation D T dL dV /\ 0 < dV < dL.

(* the equations of state for them *)
Definition searched_eos (D : mpdata) : list (string * (list (fl * fl) -> inner)) :=
  [("e", mp_e D); ("h", mp_h D); ("s", mp_s D)].
(* property n of value r in configured units is v in SI units *)
Definition property_is (D : mpdata) (z : sizes) (n : string) (r v : R) : Prop :=
  if String.eqb n "s" then entropy_is D z r v else energy_is D z r v.
(* Where the density of a state that is not saturated is looked for, given T and the value v of a
   property that is Y d at the density d: below the critical temperature between the smallest
   density of the data and 1 percent above the saturated vapor if v is above the value there,
   between 1 percent below the saturated liquid and the largest density if v is below the value
   there; above the critical temperature between 0 and the largest density. *)
Definition property_limits (D : mpdata) (T : R) (Y : R -> R) (v lo hi : R) : Prop :=
  (mp_Tc D <= T /\ lo = 0 /\ hi = snd (mp_dlim D)) \/
  (T < mp_Tc D /\ exists dL dV, saturation D T dL dV /\ 0 < dV /\ 0 < dL /\
     ((Y dV < v /\ lo = fst (mp_dlim D) /\ hi = 101/100 * dV) \/
      (v <= Y dV /\ v < Y dL /\ lo = 99/100 * dL /\ hi = snd (mp_dlim D)))).
(* In place of a lower limit 0 the first of the densities at 1/10000, 1/20000, 1/40000, ... of the
   range of the data at which the property is not below v *)
Definition lower_limit (D : mpdata) (Y : R -> R) (v lo0 lo : R) : Prop :=
  (lo0 <> 0 /\ lo = lo0) \/
  (lo0 = 0 /\ exists k, (k <= 20)%nat /\ lo = fst (mp_dlim D) + (snd (mp_dlim D) - fst (mp_dlim D)) / 10000 / 2 ^ k /\
     v <= Y lo /\ (k = 0%nat \/ Y (fst (mp_dlim D) + 2 * (lo - fst (mp_dlim D))) < v)).

(* Vocabulary for the heat capacity of the multi-phase class (C75). *)
From Coq Require Import Reals List String.
From Verif Require Import Base Model_Num Model_Units Model_Defaults Spec_Units Model_Mp1Calls Spec_Igas Spec_Mp1 Spec_Mp1Calls.
Import ListNotations.
Local Open Scope R_scope.
Local Open Scope string_scope.
Local Open Scope list_scope.

(* cv is the slope, at temperature T (in K) and density d (in kg/m3), of the internal energy that
   e(T=u, d=r) reports as a function of u: all in the configured units, and with e() reporting
   one number for every u around the one that is T. *)
Definition slope_of_e (D : mpdata) (E : env) (fuel : nat) (z : sizes) (T d cv : R) : Prop :=
  forall t r, kelvin_is E t T -> density_is D z r d ->
  exists e : R -> R,
    (exists eps, 0 < eps /\ forall u, Rabs (u - t) < eps -> exists x,
       mm_e D E fuel [] [("T", [Some u]); ("d", [Some r])] = Ok ([Some (e u)], [x])) /\
    deriv e t cv.

(* Vocabulary for the states of the multi-phase class found from e, h or s and the pressure (C81). *)
From Coq Require Import Reals List String.
From Verif Require Import Base Model_Num Model_Igas Spec_Igas Model_Mp1Calls Spec_Mp1 Spec_Mp1Calls Spec_Mp1Inv.
Import ListNotations.
Local Open Scope R_scope.
Local Open Scope list_scope.

(* the slope of the pressure along the isotherm T at the density d, as the equation of state reports
   it (C47), is not 0 *)
Definition compressible (D : mpdata) (T d : R) : Prop :=
  exists p pT pd, mp_p D [(Some T, Some d)] (Some T) (Some d) 1%nat = (Some p, Some pT, Some pd) /\ pd <> 0.

(* Ts() called with the pressure q alone reports the temperature T *)
Definition boils_at (D : mpdata) (E : env) (q T : R) : Prop :=
  exists t, mm_Ts D E (Some [Some q]) = Ok [Some t] /\ kelvin_is E t T.

(* the property F is vL for the saturated liquid and vV for the saturated vapor at T *)
Definition phases_at (D : mpdata) (F : list (fl * fl) -> inner) (T vL vV : R) : Prop :=
  exists dL dV, saturation D T dL dV /\ 0 < dL /\ 0 < dV /\ evaluable D T dL /\ evaluable D T dV /\
    at_state F T dL vL /\ at_state F T dV vV.

(* Where the temperature of a state that is not saturated is looked for, given the pressure (q in
   configured units, p in Pa) and the value v of the property F: in the range of the data if p is
   not between the triple point and the critical pressure; otherwise from a millionth above the
   saturation temperature if v is above the value of the saturated vapor, and up to a millionth
   below it if v is below the value of the saturated liquid. *)
Definition temperature_limits (D : mpdata) (E : env) (F : list (fl * fl) -> inner) (q p v lo hi : R) : Prop :=
  ((mp_pc D <= p \/ p <= mp_pt D) /\ lo = fst (mp_Tlim D) /\ hi = snd (mp_Tlim D)) \/
  (mp_pt D < p < mp_pc D /\ exists Ts vL vV, boils_at D E q Ts /\ phases_at D F Ts vL vV /\
     ((vV < v /\ lo = Ts * (1 + 1/1000000) /\ hi = snd (mp_Tlim D)) \/
      (v <= vV /\ v < vL /\ lo = fst (mp_Tlim D) /\ hi = Ts * (1 - 1/1000000)))).

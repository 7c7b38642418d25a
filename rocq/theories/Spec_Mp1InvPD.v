(* Vocabulary for the states of the multi-phase class found from pressure and density (C87). *)
From Coq Require Import Reals List String.
From Verif Require Import Base Model_Num Model_Igas Spec_Igas Model_Mp1Calls Spec_Mp1 Spec_Mp1Calls Spec_Mp1Inv Spec_Mp1InvP.
Local Open Scope R_scope.

(* at T the density d is that of a mixture of liquid and vapor *)
Definition under_dome (D : mpdata) (T d : R) : Prop :=
  T < mp_Tc D /\ exists dL dV, saturation D T dL dV /\ dV <= d <= dL.

(* P is the pressure at T and d: that of the equation of state or, under the dome, the mean of
   those of the two phases, weighted with the quality x *)
Definition pressure_along (D : mpdata) (d T P : R) : Prop :=
  (~ under_dome D T d /\ at_state (mp_p D) T d P) \/
  (T < mp_Tc D /\ exists dL dV x pL pV, saturation D T dL dV /\ dV <= d <= dL /\
     at_state (mp_p D) T dL pL /\ at_state (mp_p D) T dV pV /\
     1 / d = (1 - x) / dL + x / dV /\ P = (1 - x) * pL + x * pV).

(* the temperature at which a state of the pressure p (q in configured units) below the critical
   pressure is taken to boil: the one Ts() reports; below the triple point pressure, for which Ts()
   reports none, the middle of the temperatures of the triple point and of the critical point *)
Definition boiling_point (D : mpdata) (E : env) (q p Ts : R) : Prop :=
  (mp_pt D <= p < mp_pc D /\ boils_at D E q Ts) \/ (p < mp_pt D /\ p < mp_pc D /\ Ts = (mp_Tt D + mp_Tc D) / 2).

(* Where the temperature for p and d is looked for: in the range of the data from the critical
   pressure on; otherwise up to 1 percent above the boiling point if d is above the density of the
   saturated liquid, and from 1 percent below it if d is below the density of the saturated vapor *)
Definition isochore_limits (D : mpdata) (E : env) (q p d lo hi : R) : Prop :=
  (mp_pc D <= p /\ lo = fst (mp_Tlim D) /\ hi = snd (mp_Tlim D)) \/
  (exists Ts dL dV, boiling_point D E q p Ts /\ saturation D Ts dL dV /\ dV <= dL /\
     ((dL < d /\ lo = fst (mp_Tlim D) /\ hi = 101/100 * Ts) \/
      (d < dV /\ lo = Rmax (99/100 * Ts) (fst (mp_Tlim D)) /\ hi = snd (mp_Tlim D)))).

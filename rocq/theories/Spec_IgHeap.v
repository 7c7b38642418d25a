(* Independent vocabulary for the arrays of the caller (C56). *)
From Coq Require Import Reals List String.
From Verif Require Import Base Model_Num Model_Units Model_Igas Model_IgHeap.
Import ListNotations.
Local Open Scope R_scope.
Local Open Scope string_scope.
Local Open Scope list_scope.

(* the caller's array at address l is passed as the argument of this name *)
Definition passed (varg : list harg) (kw : hkwargs) (name : string) (l : nat) : Prop :=
  dget name kw = Some (HArr l) \/
  (name = "T" /\ nth_error varg 0 = Some (HArr l)) \/ (name = "p" /\ nth_error varg 1 = Some (HArr l)).
(* a pressure is given too, or T() supplies the configured one *)
Definition with_pressure (varg : list harg) (kw : hkwargs) : Prop :=
  dget "p" kw <> None \/ nth_error varg 1 <> None \/ (List.length varg + List.length kw = 1)%nat.
Definition unit_is (E : env) (key u : string) : Prop := cfg_get (e_cfg E) key = Ok u.
(* the units in which the class keeps temperatures and entropies *)
Definition kelvins (E : env) : Prop := unit_is E "unit_temperature" "K" \/ unit_is E "unit_temperature" "abs".
Definition own_entropy (E : env) : Prop :=
  unit_is E "unit_energy" "kJ" /\ unit_is E "unit_matter" "kmol" /\ unit_is E "unit_temperature" "K".
(* the temperatures of the array at l lie in the range of validity *)
Definition within_range (g : gas) (h : heap) (l : nat) : Prop :=
  forall t, In (Some t) (nth l h []) -> Tlow g <= t <= Thigh g.
(* every array the caller had still holds what it held *)
Definition unmodified (h h' : heap) : Prop :=
  (List.length h <= List.length h')%nat /\ forall l, (l < List.length h)%nat -> nth l h' [] = nth l h [].
(* the property methods *)
Definition methods : list (gas -> env -> list harg -> hkwargs -> M ref) :=
  [hm_d; hm_v; hm_T; hm_p; hm_cp; hm_cv; hm_gam; hm_h; hm_e; hm_s; hm_g; hm_f].

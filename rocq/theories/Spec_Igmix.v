(* Independent vocabulary for the ideal gas mixture properties. *)
From Coq Require Import Reals List String.
From Verif Require Import Base Model_Num Model_Units Model_Igas Model_Igmix Spec_Units Spec_Igas.
Import ListNotations.
Local Open Scope R_scope.
Local Open Scope list_scope.

(* the sum of f over a list *)
Fixpoint sum_over {A} (f : A -> R) (l : list A) : R :=
  match l with [] => 0 | a :: l' => f a + sum_over f l' end.

(* molecular weight of a collection member *)
Definition mw_in (coll : collection) (ss : string) : R :=
  match dget ss coll with Some (MIg D _) => d_mw D | Some (MIg2 D _) => d_mw D | _ => 0 end.

(* amount of an entry of the contents, in kmol and in kg *)
Definition kmol_of (coll : collection) (bymass : bool) (c : string * R) : R :=
  if bymass then snd c / mw_in coll (fst c) else snd c.
Definition kg_of (coll : collection) (bymass : bool) (c : string * R) : R :=
  if bymass then snd c else snd c * mw_in coll (fst c).

(* the gas of a collection member *)
Definition gas_in (coll : collection) (ss : string) (g : gas) : Prop :=
  exists D a, (dget ss coll = Some (MIg D a) /\ g = ig_gas None D) \/
              (dget ss coll = Some (MIg2 D a) /\ g = ig2_gas None D).

(* ss is listed but not loaded, or loaded as something that is not a single ideal gas *)
Definition unusable (coll : collection) (ss : string) : Prop :=
  dget ss coll = None \/ dget ss coll = Some MOther.

(* the property methods of a single gas *)
Definition ideal_method (q : quantity_of) : gas -> env -> list arr -> list (string * arr) -> res arr :=
  match q with
  | PT => m_T | Pp => m_p | Pd => m_d | Pv => m_v | Pcp => m_cp | Pcv => m_cv | Pgam => m_gam
  | Ph => m_h | Pe => m_e | Ps => m_s | Pg => m_g | Pf => m_f
  end.

(* k is the size in kmol of the configured unit of matter, for molecular weight mw *)
Definition matter_size (E : env) (mw k : R) : Prop :=
  exists u, dget "unit_matter"%string (e_cfg E) = Some u /\ kmoles (e_setup E) mw u = Some k.

(* K (in kelvin) is within the limits of every constituent *)
Definition common_range (coll : collection) (m : mixdata) (K : R) : Prop :=
  forall ss q D, In (ss, q) (m_contents m) -> loaded coll ss D ->
    nth 0 (d_Tlim D) 0 <= K <= last (d_Tlim D) 0.

(* K is inside an interval of every constituent, away from the interval limits *)
Definition smooth_point (coll : collection) (m : mixdata) (K : R) : Prop :=
  forall ss q D, In (ss, q) (m_contents m) -> loaded coll ss D ->
    exists i, (S i < List.length (d_Tlim D))%nat /\ nth i (d_Tlim D) 0 < K < nth (S i) (d_Tlim D) 0.

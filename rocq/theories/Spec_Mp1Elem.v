(* Specification for C90: the scalar call that belongs to one element of an array call, and the
   entries of the dictionary that state() returns. *)
From Coq Require Import Reals List String.
From Verif Require Import Base Model_Igas Model_Mp1Calls Spec_Igas Spec_Mp1Calls.
Import ListNotations.
Local Open Scope R_scope.
Local Open Scope string_scope.
Local Open Scope list_scope.

(* [varg1], [kw1] are the arguments [varg], [kw] with each array replaced by its element [i]
   (arrays of one element are broadcast) *)
Definition scalar_call (i : nat) (varg varg1 : list arr) (kw kw1 : kwargs) : Prop :=
  Forall2 (fun a b => exists w, elem a i = Some w /\ b = [w]) varg varg1 /\
  Forall2 (fun a b => fst a = fst b /\ exists w, elem (snd a) i = Some w /\ snd b = [w]) kw kw1.
(* the pressure of element [i], if one is given, lies between the limits of the substance *)
Definition pressure_in_range (D : mpdata) (z : sizes) (i : nat) (varg : list arr) (kw : kwargs) : Prop :=
  forall v r, In ("p", v) (supplied varg kw) -> elem v i = Some (Some r) -> in_range (mp_plim D) (r * z_kP z).
Definition fields : list (mp_state -> arr) := [o_T; o_p; o_d; o_v; o_x; o_e; o_h; o_s; o_f; o_g; o_cp; o_cv; o_gam].

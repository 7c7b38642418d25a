(* Vocabulary for what a dynamic mixture shows of its contents. *)
From Coq Require Import Reals List String.
From Verif Require Import Base Model_Num Model_Units Model_Igas Model_Igmix Model_Igtools Spec_Units Spec_Igtools.
Import ListNotations.
Local Open Scope R_scope.
Local Open Scope list_scope.

(* the number of mixtures an array of this shape holds *)
Definition size (s : list nat) : nat := fold_right Nat.mul 1%nat s.
(* how many atoms a substance has of one sort *)
Definition atom_count (A : string -> res (list (string * R))) (a s : string) : R :=
  match A s with
  | Ok l => match dget a l with Some c => c | None => 0 end
  | Err _ => 0
  end.
(* every substance's composition is a dictionary *)
Definition compositions (A : string -> res (list (string * R))) (names : list string) : Prop :=
  forall s, In s names -> exists l, A s = Ok l /\ NoDup (map fst l).
(* the amount of an atom that a dictionary shows at an index *)
Definition shown (out : list (string * nd)) (a : string) (i : list nat) : fl :=
  match dget a out with Some v => nel v i | None => Some 0 end.
(* constituents are named by the complete ids of substances of the collection *)
Definition listed_in (P : pool) (names : list string) : Prop :=
  forall s, In s names -> full_sid s = s /\ dget s P <> None /\ 0 < mw_of P s.
(* the collection has the composition of every constituent, and it is the one a dynamic mixture
   is told *)
Definition same_compositions (coll : collection) (A : string -> res (list (string * R))) (names : list string) : Prop :=
  forall s, In s names -> exists D l, (dget s coll = Some (MIg D (Some l)) \/ dget s coll = Some (MIg2 D (Some l))) /\
    A s = Ok l /\ NoDup (map fst l).

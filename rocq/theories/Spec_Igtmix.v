(* Vocabulary for the conversions between dynamic and static mixtures. *)
From Coq Require Import Reals List String.
From Verif Require Import Base Model_Igas Model_Igmix Model_Igtools Model_Igtprop Model_Igtmix Spec_Igmix Spec_Igtools.
Import ListNotations.
Local Open Scope R_scope.
Local Open Scope list_scope.

(* the place of an index in memory order, the last dimension varying fastest *)
Fixpoint rank (s i : list nat) : nat :=
  match s, i with
  | _ :: s', k :: i' => (k * fold_right Nat.mul 1 s' + rank s' i')%nat
  | _, _ => 0%nat
  end.
(* the static mixture that has the amounts (kmol) of the dynamic mixture at an index *)
Definition static_at (m : mix) (n : string -> list nat -> R) (i : list nat) : mixdata :=
  {| m_contents := map (fun s => (s, n s i)) (x_c m); m_bymass := false |}.
(* the record of a static mixture holds these contents *)
Definition describes (k : staticmix) (md : mixdata) : Prop :=
  k_contents k = map (fun c => (fst c, Some (snd c))) (m_contents md) /\ k_bymass k = m_bymass md.
(* dynamic mixtures and the collection know the constituents as the same gases *)
Definition same_gases (P : pool) (coll : collection) (names : list string) : Prop :=
  forall s, In s names -> dget s P <> None /\ gas_in coll s (gas_of P s).

(* Property theorems C92: unit conversions on arrays, with and without inplace=True,
   src/pyromat/units.py. *)
From Coq Require Import Reals ZArith List String.
From Verif Require Import Base Model_Units Model_UnitsHeap Spec_Units Spec_UnitsHeap Proof_UnitsHeap Proof_UnitsHeapEx.
Import ListNotations.
Local Open Scope R_scope.
Local Open Scope string_scope.
Local Open Scope list_scope.

(* Without inplace no array that exists is changed.  The result holds the converted numbers, in
   order, in a new array or a number, or is the argument itself.  An error is an error for
   every number. *)
Theorem C92_not_in_place : forall F g m v m' r, conversion_call F g -> value_in m v -> F false m v = (m', r) ->
  exists l, m' = m ++ l /\
  ((exists e, r = Err e /\ l = [] /\ forall x, g x = Err e) \/
   (exists w, r = Ok w /\ value_in m' w /\ Forall2 (fun x y => g x = Ok y) (contents m v) (contents m' w) /\
      (w = v \/ forall a, w = VArr a -> (List.length m <= buf a)%nat))).
Proof. exact not_in_place. Qed.
Print Assumptions C92_not_in_place.

(* With inplace an array of floats, which may be any view, is returned itself and holds the
   converted numbers; nothing else in memory changes, not even the rest of the memory it is a
   view of; and if the call raises, nothing changes at all. *)
Theorem C92_in_place : forall F g m a m' r, conversion_call F g -> float_array m a -> F true m (VArr a) = (m', r) ->
  (exists e, r = Err e /\ m' = m /\ forall x, g x = Err e) \/
  (r = Ok (VArr a) /\ float_array m' a /\ only_changes a m m' /\
   Forall2 (fun x y => g x = Ok y) (vread m a) (vread m' a)).
Proof. exact in_place. Qed.
Print Assumptions C92_in_place.

Theorem C92_numbers : forall F g m x, conversion_call F g -> F true m (VNum x) = F false m (VNum x).
Proof. exact numbers. Qed.
Print Assumptions C92_numbers.

(* An array of integers is never changed by inplace; the call raises TypeError unless there is
   nothing to convert (or raises what the conversion raises). *)
Theorem C92_integers : forall F g m a m' r, conversion_call F g -> int_array m a -> F true m (VArr a) = (m', r) ->
  m' = m /\
  (r = Err ETypeError \/ (exists e, r = Err e /\ forall x, g x = Err e) \/ (r = Ok (VArr a) /\ forall x, g x = Ok x)).
Proof. exact integers. Qed.
Print Assumptions C92_integers.

(* Converting in place and back leaves the memory as it was. *)
Theorem C92_round_trip : forall F G m a m1, there_and_back F G -> float_array m a ->
  F true m (VArr a) = (m1, Ok (VArr a)) -> G true m1 (VArr a) = (m, Ok (VArr a)).
Proof. exact round_trip_memory. Qed.
Print Assumptions C92_round_trip.

(* "instead of returning a new array" (units.py 105): without inplace the result need not be a
   new array.  From metres to metres the argument is returned, and changing the result changes it. *)
Theorem C92_new_array_refuted : exists w, metres mem0 (VArr whole0) "m" false = (mem0, Ok w) /\
  exists m1, metres mem0 w "cm" true = (m1, Ok w) /\ vread mem0 whole0 = [1; 2; 3] /\ vread m1 whole0 = [100; 200; 300].
Proof. exact aliased. Qed.
Print Assumptions C92_new_array_refuted.

Example C92_instance : float_array mem0 back2 /\ int_array mem0 ints1 /\
  metres mem0 (VArr back2) "cm" true = ([Floats [100; 2; 300]; Ints [4%Z]], Ok (VArr back2)) /\
  metres mem0 (VArr back2) "cm" false = (mem0 ++ [Floats [300; 100]], Ok (VArr {| buf := 2; cells := [0; 1]%nat |})) /\
  metres mem0 (VArr ints1) "cm" false = (mem0 ++ [Floats [400]], Ok (VArr {| buf := 2; cells := [0]%nat |})) /\
  metres mem0 (VArr ints1) "cm" true = (mem0, Err ETypeError) /\
  metres mem0 (VNum 5) "cm" true = (mem0, Ok (VNum 500)) /\
  metres mem0 (VArr back2) "cubit" true = (mem0, Err EKeyError).
Proof. exact inst_C92. Qed.

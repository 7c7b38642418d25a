(* Property theorems C93: which dynamic mixtures and arrays share memory, src/pyromat/igtools.py
   (IgtMix: copies, arithmetic, in-place arithmetic, assignment, insert, remove, reshape, slices,
   m[s] and items()). *)
From Coq Require Import Reals List String.
From Verif Require Import Base Model_Num Model_Units Model_Igas Model_Igmix Model_Igtools Model_Igtprop Model_Igtview Model_IgtHeap
  Spec_Igtools Spec_IgtHeap Proof_IgmixInst Proof_IgtInst Proof_IgtHeap Proof_IgtHeapRun Proof_IgtHeapEx.
Import ListNotations.
Local Open Scope R_scope.
Local Open Scope string_scope.
Local Open Scope list_scope.

(* ---- C93 : mixtures in memory ---- *)
(* In a session of any length that takes no slices, no arrays of items() and no m[s] in kmol, every
   statement gives a new value to the mixture or array it names, or makes a new one, and changes
   nothing else: the mixtures and the outcome are those of the computation with values. *)
Theorem C93_independent : forall P E l, regular_session P E empty_heap l -> Forall (fun st => shares_memory E st = false) l ->
  v_run P E no_values l = (values_in (fst (h_run P E empty_heap l)), snd (h_run P E empty_heap l)).
Proof. exact independent. Qed.
Print Assumptions C93_independent.
Example C93_instance : regular_session PAB SK empty_heap (start ++ prog1) /\ Forall (fun st => shares_memory SK st = false) (start ++ prog1) /\
  map (fun a => (after1 a "ig.A" [2%nat], after1 a "ig.B" [2%nat])) [0; 1; 2; 3]%nat =
  [(Ok (Some 1), Ok (Some 2)); (Ok (Some 5), Ok (Some 10)); (Ok (Some 12), Ok (Some 24)); (Ok (Some 11), Ok (Some 22))].
Proof. exact inst_independent. Qed.

(* In any session, with slices and views: a mixture or array keeps its value as long as no statement
   changes a mixture or array of its family, that is one that came from the same mixture by slices,
   items() and m[s] only.  This holds also when the session ends in an exception. *)
Theorem C93_families : forall P E l1 l2 h1 h2 r, regular_session P E empty_heap (l1 ++ l2) ->
  h_run P E empty_heap l1 = (h1, Ok tt) -> h_run P E h1 l2 = (h2, r) ->
  (forall i m f, v_mix (values_in h1) i = Ok m -> nth_error (f_mixs (fam_run E no_families l1)) i = Some f ->
     leaves E (fam_run E no_families l1) f l2 -> v_mix (values_in h2) i = Ok m) /\
  (forall x v f, v_arr (values_in h1) x = Ok v -> nth_error (f_arrs (fam_run E no_families l1)) x = Some f ->
     leaves E (fam_run E no_families l1) f l2 -> v_arr (values_in h2) x = Ok v).
Proof. exact untouched. Qed.
Print Assumptions C93_families.
Example C93_families_instance : exists h1 h2, regular_session PAB SK empty_heap ((start ++ prog2) ++ prog3) /\
  h_run PAB SK empty_heap (start ++ prog2) = (h1, Ok tt) /\ h_run PAB SK h1 prog3 = (h2, Err PMParamError) /\
  f_mixs (fam_run SK no_families (start ++ prog2)) = [0; 0; 1]%nat /\ leaves SK (fam_run SK no_families (start ++ prog2)) 1 prog3.
Proof. exact inst_untouched. Qed.

(* A slice is a window on the mixture: it shows the constituents i, ..., j-1 of the mixture when it
   is taken (l2 empty), and afterwards as long as the statements that change the mixture or the
   slice write in place. *)
Theorem C93_slices_follow : forall P E l1 l2 h1 h2 h3 a i j, regular_session P E empty_heap (l1 ++ Slice a i j :: l2) ->
  h_run P E empty_heap l1 = (h1, Ok tt) -> h_step P E h1 (Slice a i j) = (h2, Ok tt) ->
  written_in_place P E a (List.length (v_mixs (values_in h1))) h2 l2 -> h_run P E h2 l2 = (h3, Ok tt) ->
  exists m, v_mix (values_in h3) a = Ok m /\ v_mix (values_in h3) (List.length (v_mixs (values_in h1))) = Ok (mix_table (v_slice m i j)).
Proof. exact slices_follow. Qed.
Print Assumptions C93_slices_follow.
Example C93_slices_instance : exists h1 h2 h3, regular_session PAB SK empty_heap (start ++ Slice 0 1 2 :: prog5) /\
  h_run PAB SK empty_heap start = (h1, Ok tt) /\ h_step PAB SK h1 (Slice 0 1 2) = (h2, Ok tt) /\
  written_in_place PAB SK 0 (List.length (v_mixs (values_in h1))) h2 prog5 /\ h_run PAB SK h2 prog5 = (h3, Ok tt) /\
  v_mix (values_in h3) 1 <> v_mix (values_in h2) 1.
Proof. exact inst_follow. Qed.

(* One would expect s = m[0:1]; s *= 2 to do the same to m whatever the shape.  It doubles m when
   its shape is (1,) and leaves it alone when its shape is (3,). *)
Theorem C93_slice_shared_refuted : exists P E v w, nel v [0%nat] = nel w [0%nat] /\
  amount_after P E (double_slice v) 0 "ig.A" [0%nat] = Ok (Some 2) /\
  amount_after P E (double_slice w) 0 "ig.A" [0%nat] = Ok (Some 1).
Proof. exists PAB, SK, (ones 1), (ones 3). split; [reflexivity|exact slice_shared]. Qed.
Print Assumptions C93_slice_shared_refuted.
(* x = m['A']; x *= 2 changes the mixture when the unit of matter is kmol and not when it is mol. *)
Theorem C93_entry_shared_refuted : exists P E E',
  amount_after P E double_entry 0 "ig.A" [1%nat] = Ok (Some 2) /\ amount_after P E' double_entry 0 "ig.A" [1%nat] = Ok (Some 1).
Proof. exists PAB, (session2 "kmol" "kmol"), (session2 "mol" "mol"). exact entry_shared. Qed.
Print Assumptions C93_entry_shared_refuted.
(* the arrays of items() are the memory of the mixture: x *= 2 changes it *)
Theorem C93_items_shared_refuted : exists P E, amount_after P E double_item 0 "ig.A" [1%nat] = Ok (Some 2).
Proof. exists PAB, SK. exact item_shared. Qed.
Print Assumptions C93_items_shared_refuted.

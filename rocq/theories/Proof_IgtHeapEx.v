(* Instances and counterexamples for C93. *)
From Coq Require Import Reals ZArith List String Bool Lia Lra.
From Verif Require Import Base Model_Num Model_Units Model_Igas Model_Igmix Model_Igtools Model_Igtprop Model_Igtmix Model_Igtview Model_IgtHeap
  Spec_Units Spec_Igas Spec_Igmix Spec_Igtools Spec_Igtprop Spec_IgtGas Spec_Igtmix Spec_Igtview Spec_IgtHeap
  Proof_IgmixInst Proof_IgtInst Proof_IgtHeapMem Proof_IgtHeapOps Proof_IgtHeap Proof_IgtHeapRun.
Import ListNotations.
Local Open Scope R_scope.
Local Open Scope string_scope.
Local Open Scope list_scope.

Definition ones (n : nat) : nd := {| nsh := [n]; nel := fun _ => Some 1 |}.
Ltac nonzero := try lra; unfold Rdiv; repeat (apply Rmult_integral_contrapositive_currified || apply Rinv_neq_0_compat); lra.
Ltac run := cbv -[Rmult Rplus IZR Rdiv Rinv Ropp Rminus Req_EM_T Rlt_dec Rle_dec];
  repeat (match goal with |- context [Req_EM_T ?x 0] => destruct (Req_EM_T x 0) as [?E|_]; [exfalso; revert E; nonzero|] end; cbv beta iota zeta).

(* s = m[0:1]; s *= 2 *)
Definition double_slice (v : nd) : list stmt := [New [("A", Lit v)] (Some "kmol"); Slice 0 0 1; Imul 1 (Lit (scalar 2))].
Lemma slice_shared : amount_after PAB SK (double_slice (ones 1)) 0 "ig.A" [0%nat] = Ok (Some 2) /\
  amount_after PAB SK (double_slice (ones 3)) 0 "ig.A" [0%nat] = Ok (Some 1).
Proof. split; run. all: do 2 f_equal; ring. Qed.
(* x = m['A']; x *= 2 *)
Definition double_entry : list stmt := [New [("A", Lit (ones 3))] (Some "kmol"); Get 0 "A"; Amul 0 2].
Lemma entry_shared : amount_after PAB (session2 "kmol" "kmol") double_entry 0 "ig.A" [1%nat] = Ok (Some 2) /\
  amount_after PAB (session2 "mol" "mol") double_entry 0 "ig.A" [1%nat] = Ok (Some 1).
Proof. split; run; do 2 f_equal; try ring. Qed.
(* for s, x in m.items(): x *= 2 *)
Definition double_item : list stmt := [New [("A", Lit (ones 3))] (Some "kmol"); Item 0 0; Amul 0 2].
Lemma item_shared : amount_after PAB SK double_item 0 "ig.A" [1%nat] = Ok (Some 2).
Proof. run; do 2 f_equal; try ring. Qed.

(* the memory after the first statement: two substances, three points *)
Definition start : list stmt := [New [("A", Lit (ones 3)); ("B", Lit (scalar 2))] (Some "kmol")].
Definition H0 : heap :=
  {| h_mem := [[Some 1; Some 1; Some 1; Some 2; Some 2; Some 2]];
     h_objs := [{| h_c := ["ig.A"; "ig.B"]; h_q := {| h_buf := 0; h_off := 0; h_sh := [2; 3]%nat |} |}]; h_arrs := [] |}.
Lemma start_run : h_run PAB SK empty_heap start = (H0, Ok tt).
Proof. run. rewrite !Rmult_1_l. reflexivity. Qed.
Lemma run_app P E : forall l1 l2 h h1, h_run P E h l1 = (h1, Ok tt) -> h_run P E h (l1 ++ l2) = h_run P E h1 l2.
Proof.
  induction l1 as [|st l1 IH]; intros l2 h h1 H; cbn [app h_run] in *; [now injection H as ->|].
  destruct (h_step P E h st) as [h' [[]|e]]; [now apply IH|discriminate].
Qed.
Definition prog1 : list stmt := [Copy 0; Imul 1 (Lit (scalar 5)); Add 0 1; Iadd 2 2; Sub 2 0].
Lemma regular_always P E : forall l h, Forall (fun st => forall V, regular V st) l -> regular_session P E h l.
Proof.
  induction l as [|st l IH]; intros h F; [exact I|]. inversion F; subst. cbn [regular_session]. split; [auto|].
  destruct (h_step P E h st) as [h' [[]|e]]; auto.
Qed.
Lemma factor_number V a k : factor_ok V a (Lit (scalar k)).
Proof. intros m v _ H. injection H as <-. now left. Qed.
Ltac regular_now := apply regular_always; cbn [app start]; repeat (apply Forall_cons; [intro V; first [exact I | apply factor_number]|]); apply Forall_nil.
Definition after1 := amount_after PAB SK (start ++ prog1).
Lemma after1_run a s i : after1 a s i = match h_run PAB SK H0 prog1 with (h, Ok _) => do m <- v_mix (values_in h) a; Ok (amount m s i) | (_, Err e) => Err e end.
Proof. unfold after1, amount_after. now rewrite (run_app _ _ start prog1 _ _ start_run). Qed.
Lemma inst_independent : regular_session PAB SK empty_heap (start ++ prog1) /\ Forall (fun st => shares_memory SK st = false) (start ++ prog1) /\
  map (fun a => (after1 a "ig.A" [2%nat], after1 a "ig.B" [2%nat])) [0; 1; 2; 3]%nat =
  [(Ok (Some 1), Ok (Some 2)); (Ok (Some 5), Ok (Some 10)); (Ok (Some 12), Ok (Some 24)); (Ok (Some 11), Ok (Some 22))].
Proof.
  split; [unfold prog1; regular_now|]. split; [repeat constructor|].
  cbn [map]. rewrite !after1_run. run. repeat f_equal; ring.
Qed.

(* the copy of a mixture does not see what happens to the mixture and its slice *)
Definition prog2 : list stmt := [Slice 0 0 1; Copy 0].
Definition prog3 : list stmt := [Imul 1 (Lit (scalar 5)); Iadd 0 2; Slice 2 1 2; Item 0 1; Amul 0 3; Remove 0 "Z"].
Lemma inst_untouched : exists h1 h2, regular_session PAB SK empty_heap ((start ++ prog2) ++ prog3) /\
  h_run PAB SK empty_heap (start ++ prog2) = (h1, Ok tt) /\ h_run PAB SK h1 prog3 = (h2, Err PMParamError) /\
  f_mixs (fam_run SK no_families (start ++ prog2)) = [0; 0; 1]%nat /\ leaves SK (fam_run SK no_families (start ++ prog2)) 1 prog3.
Proof.
  eexists _, _. split; [unfold prog2, prog3; regular_now|].
  split; [rewrite (run_app _ _ start prog2 _ _ start_run); run; reflexivity|]. split; [run; reflexivity|]. split; [reflexivity|].
  cbn. repeat (split; [discriminate|]). exact I.
Qed.

(* a slice that follows the mixture *)
Definition prog5 : list stmt := [Copy 0; Imul 0 (Lit (ones 3)); Iadd 1 1; Iadd 0 2].
Lemma inst_follow : exists h1 h2 h3, regular_session PAB SK empty_heap (start ++ Slice 0 1 2 :: prog5) /\
  h_run PAB SK empty_heap start = (h1, Ok tt) /\ h_step PAB SK h1 (Slice 0 1 2) = (h2, Ok tt) /\
  written_in_place PAB SK 0 (List.length (v_mixs (values_in h1))) h2 prog5 /\ h_run PAB SK h2 prog5 = (h3, Ok tt) /\
  v_mix (values_in h3) 1 <> v_mix (values_in h2) 1.
Proof.
  eexists H0, _, _. split.
  { unfold prog5; cbn [app start regular_session]. split; [exact I|].
    change (h_step PAB SK empty_heap _) with (h_step PAB SK empty_heap (New [("A", Lit (ones 3)); ("B", Lit (scalar 2))] (Some "kmol"))).
    pose proof start_run as S. unfold start in S. cbn [h_run] in S. destruct (h_step PAB SK empty_heap _) as [h' [[]|e]]; [|discriminate]. injection S as ->.
    split; [exact I|]. cbn [h_step]. split; [exact I|].
    split. { intros m v Hm Hv. injection Hv as <-. cbn in Hm. injection Hm as <-. right. cbn. lia. }
    run. repeat split. }
  split; [exact start_run|]. split; [run; reflexivity|]. split.
  { unfold prog5. cbn [written_in_place]. split; [intros [[]|[]]|].
    cbn -[in_place]. split; [intros _ m v Hm Hv; injection Hv as <-; cbn in Hm; injection Hm as <-; reflexivity|].
    split; [intros _ m n Hm Hn; cbn in Hm, Hn; injection Hm as <-; injection Hn as <-; split; [intros s Hs; exact Hs|reflexivity]|].
    split; [intros _ m n Hm Hn; cbn in Hm, Hn; injection Hm as <-; injection Hn as <-; split; [intros s Hs; exact Hs|reflexivity]|]. exact I. }
  split; [run; reflexivity|]. intro H. apply (f_equal (fun r => match r with Ok m => amount m "ig.B" [0%nat] | Err _ => None end)) in H.
  cbv -[Rmult Rplus IZR] in H. injection H as H. lra.
Qed.

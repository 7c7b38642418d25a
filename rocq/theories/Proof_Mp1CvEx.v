(* Instances of C75. *)
From Coq Require Import Reals ZArith List String Bool Lia Lra.
From Verif Require Import Base Model_Igas Spec_Igas Model_Mp1Calls Spec_Mp1 Spec_Mp1Calls Spec_Mp1Cv Proof_Mp1CallsEx Proof_Mp1Cv.
Import ListNotations.
Local Open Scope R_scope.
Local Open Scope string_scope.
Local Open Scope list_scope.

Lemma ex_wf : mp_wf exP.
Proof.
  unfold mp_wf, ao_wf, ar_wf, ar_prey_ok. cbn. repeat split; try lra; try constructor; discriminate.
Qed.
Lemma ex_dens r : density_is exP exz r (r * 18).
Proof. unfold density_is. cbn. field. Qed.

Lemma inst_C75 :
  (exists y x, mm_cv exP exE 0 [] [("T", [Some 500]); ("d", [Some 10])] = Ok ([Some y], [x]) /\
     slope_of_e exP exE 0 exz 500 (10 * 18) y) /\
  (exists y x, mm_cv exP exE 0 [] [("T", [Some 500]); ("d", [Some 60])] = Ok ([Some y], [x]) /\
     slope_of_e exP exE 0 exz 500 (60 * 18) y) /\
  mm_cv exP exE 0 [] [("T", [Some 500]); ("d", [Some 10; Some 60])] = Err EValueError.
Proof.
  assert (SS : forall r, state_Td exP exE exz [] [("T", [Some 500]); ("d", [Some r])] 0 500 (r * 18)).
  { intro r. apply scalar_state; [apply ex_K|apply ex_dens]. }
  assert (IR : in_range (mp_Tlim exP) 500) by (unfold in_range; cbn; lra).
  assert (IR2 : fst (mp_Tlim exP) < 500 < snd (mp_Tlim exP)) by (cbn; lra).
  split; [|split].
  - destruct (scalar_cv exP exE 0 exz exZ 500 10 500 (10 * 18) (ex_K 500) (ex_dens 10) IR) as (y & x & C).
    destruct (two_phase_cv exP exE 0 exz exZ ex_wf eq_refl eq_refl _ _ _ _ _ 900 9 [y] [x] (SS 10) IR2)
      as (cv & N & Q); [cbn; lra|apply ex_saturation; lra|lra|lra|exact C|].
    injection N as ->. eauto.
  - destruct (scalar_cv exP exE 0 exz exZ 500 60 500 (60 * 18) (ex_K 500) (ex_dens 60) IR) as (y & x & C).
    destruct (single_phase_cv exP exE 0 exz exZ ex_wf eq_refl eq_refl _ _ _ _ _ [y] [x] (SS 60) IR2)
      as (cv & N & Q); [lra|lra|right; exists 900, 9; split; [apply ex_saturation; lra|lra]|exact C|].
    injection N as ->. eauto.
  - apply (mixed_error exP exE 0 exz exZ [] kTd 0 1 500 (10 * 18) 900 9 500 (60 * 18)).
    + now apply ex_state_Td.
    + exact IR.
    + cbn. lra.
    + apply ex_saturation. lra.
    + lra.
    + lra.
    + now apply ex_state_Td.
    + exact IR.
    + right. exists 900, 9. split; [apply ex_saturation; lra|lra].
Qed.

(* Instances of C78. *)
From Coq Require Import Reals ZArith List String Bool Lia Lra.
From Verif Require Import Base Model_Num Model_Units Model_Defaults Model_Igas Spec_Units Proof_Units Spec_Igas Proof_Igas
  Proof_IgasUnits Proof_IgasArgs Proof_IgasCalls Proof_IgasArr Proof_IgasAcc Proof_IgasEx.
From Verif Require Import Model_Mp1Calls Spec_Mp1 Spec_Mp1Calls Proof_Mp1Units Proof_Mp1Poly Proof_Mp1Sat Proof_Mp1Args Proof_Mp1Calls
  Proof_Mp1Mix Proof_Mp1Hsd Proof_Mp1Inv Proof_Mp1Cv Proof_Mp1State Proof_Mp1CallsEx.
Import ListNotations.
Local Open Scope R_scope.
Local Open Scope string_scope.
Local Open Scope list_scope.

(* the mixture at 500 K and quality 1/4, and the liquid at 500 K and 60 kmol/m3 *)
Lemma inst_C78 : mp_sizes exP exE exz /\ ar_coef2 (mp_AR exP) = None /\ ao_Tscale (mp_AO exP) = ar_Tscale (mp_AR exP) /\
  (exists st, mm_state exP exE 0 [] (kTx (1/4)) = Ok st /\
     o_T st = [Some 500] /\ o_h st = [Some (2305 * 9 / 2)] /\ o_cv st = [None] /\
     (exists f g, o_f st = [Some f] /\ o_g st = [Some g])) /\
  (exists st, mm_state exP exE 0 [] [("T", [Some 500]); ("d", [Some 60])] = Ok st /\
     o_d st = [Some 60] /\ exists cv, o_cv st = [Some cv]).
Proof.
  split; [exact exZ|]. split; [reflexivity|]. split; [reflexivity|]. split.
  - pose proof (ex_points (1/4) ltac:(lra)) as A.
    eexists. split; [apply (state_uniform exP exE 0 exz exZ _ _ _ A); left; reflexivity|].
    cbn [state_of o_T o_h o_f o_g o_cv map values]. unfold mixed_at, cv_at. cbn [s_sat s_T s_d1 s_d2 s_x].
    rewrite !ex_h, !ex_e, !ex_s by lra. cbn [lift1 fmul lift2 fsub fadd num]. split; [|split; [|split]].
    + do 2 f_equal.
    + unfold kgs. cbn [z_kM z_kE exz mp_mw exP]. do 2 f_equal. field.
    + reflexivity.
    + eexists. eexists. split; reflexivity.
  - pose proof (scalar_points exP exE 0 exz exZ 500 60 500 (60 * 18) (ex_K 500)) as A.
    assert (Dn : density_is exP exz 60 (60 * 18)) by (unfold density_is; cbn; field).
    specialize (A Dn ltac:(unfold in_range; cbn; lra)). unfold kTd1 in A.
    assert (F : from_Td exP (Some 500, Some (60 * 18)) = single (Some 500) (Some (60 * 18))).
    { unfold from_Td. rewrite (proj1 ex_sat_d), (proj2 ex_sat_d).
      rewrite (Proof_Mp1Calls.flt_false (60 * 18) 900) by lra. cbn [andb]. rewrite Bool.andb_false_r. reflexivity. }
    rewrite F in A.
    eexists. split; [apply (state_uniform exP exE 0 exz exZ _ _ _ A); left; reflexivity|].
    cbn [state_of o_d o_cv map values mix_density single s_sat s_d1 s_T]. unfold cv_at. cbn [single s_sat s_d1 s_T].
    split.
    + unfold kgs. cbn [fmul lift2 z_kM z_kV exz mp_mw exP]. do 2 f_equal. field.
    + unfold mp_cv. rewrite (proj1 (ex_red 500 (60 * 18) ltac:(lra))), (proj2 (ex_red 500 (60 * 18) ltac:(lra))).
      rewrite ex_ao2 by lra. rewrite ex_ar0. eexists. reflexivity.
Qed.

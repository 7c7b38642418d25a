(* Concrete calls for the instances of Prop_IgasCalls. *)
From Coq Require Import Reals ZArith List String Bool Lia Lra.
From Verif Require Import Base Model_Num Model_Units Model_Defaults Model_Igas Spec_Units Proof_Units
  Proof_Defaults Spec_Igas Proof_Igas Proof_Iter Proof_IgasUnits Proof_IgasState Proof_IgasArgs
  Proof_IgasCalls Proof_IgasRel Proof_IgasArr Proof_IgasEx Proof_IgasAcc.
Import ListNotations.
Local Open Scope R_scope.
Local Open Scope string_scope.
Local Open Scope list_scope.

Lemma in_g1 t : 200 <= t <= 1000 -> out_of_range g1 (Some t) = false.
Proof. intro H. apply in_range_false. exact H. Qed.

Section Calls.
  Variables (E : env) (kP : R).
  Hypothesis U : units_known E (g_mw g1) "K" (9/5) kP 1 1000 1.
  Lemma arg_Td t d : 200 <= t <= 1000 ->
    argparse g1 E [] [("T", [Some t]); ("d", [Some d])] = Ok ([Some t], None, Some [Some d]).
  Proof.
    intro Ht. rewrite argparse_two by reflexivity; rewrite (solve_units _ _ _ _ _ _ _ _ U).
    cbn [dget String.eqb Ascii.eqb Bool.eqb option_map]. unfold core, inT, inD. cbn [ores bind map lift1 fmul lift2].
    rewrite broadcast_one. cbn [bind]. change (to_kelvin "K" t) with t. replace (1 / 1 * d) with d by field.
    unfold bounds. cbn [forallb map]. rewrite in_g1 by exact Ht. reflexivity.
  Qed.
  Lemma arg_Tp t p : 200 <= t <= 1000 ->
    argparse g1 E [] [("T", [Some t]); ("p", [Some p])] = Ok ([Some t], Some [Some (kP * p)], None).
  Proof.
    intro Ht. rewrite argparse_TP with (1 := U) by reflexivity. unfold inT, inP. cbn [map lift1 fmul lift2].
    change (to_kelvin "K" t) with t. unfold bounds. cbn [forallb map]. rewrite in_g1 by exact Ht. reflexivity.
  Qed.
  Lemma s_Tp t p : 200 <= t <= 1000 -> 0 < kP * p ->
    m_s g1 E [] [("T", [Some t]); ("p", [Some p])] = Ok [Some (t - gas_constant * ln (kP * p / 100000))].
  Proof.
    intros Ht Hp. rewrite (m_s_val _ _ _ _ _ _ _ _ U), arg_Tp by exact Ht.
    cbn [bind the_p]. unfold map2, scaled. cbn [combine map fst snd]. unfold state_s, log_p. rewrite s_g1 by exact Ht.
    change (g_pref g1) with 100000. cbn [fst fdiv]. destruct (Req_EM_T 100000 0); [lra|]. cbn [flog].
    destruct (Rlt_dec 0 (kP * p / 100000)) as [|N]; [|exfalso; apply N; apply Rdiv_lt_0_compat; lra].
    cbn [fmul fsub lift2]. rewrite Ru_gas. unfold ks. do 3 f_equal. field.
  Qed.
End Calls.

Lemma inst_C30 :
  let E := session "bar" 1 "bar" in
  species E g1 /\ units_known E (g_mw g1) "K" (9/5) (10^5) 1 1000 1 /\
  exists p, m_T g1 E [] [("T", [Some 300]); ("d", [Some 2])] = Ok [Some 300] /\
    m_p g1 E [] [("T", [Some 300]); ("d", [Some 2])] = Ok [Some p] /\ p * 10^5 = 2 * (1000 * gas_constant) * 300 /\
    m_d g1 E [] [("T", [Some 300]); ("d", [Some 2])] = Ok [Some 2] /\
    m_v g1 E [] [("T", [Some 300]); ("d", [Some 2])] = Ok [Some (1/2)].
Proof.
  intro E. pose proof (units_bar 1 "bar") as U. fold E in U.
  split; [apply species_g1|]. split; [exact U|]. exists (/ (10^5) * (2 * R1000 * 300)).
  rewrite (m_T_val _ _ _ _ _ _ _ _ U) by (cbn; lia). unfold m_v.
  rewrite (m_p_val _ _ _ _ _ _ _ _ U), !(m_d_val _ _ _ _ _ _ _ _ U).
  rewrite (arg_Td _ _ U) by lra. cbn [bind fst map lift1 the_p the_d]. unfold p_of, map2, scaled.
  cbn [combine map fst snd fmul lift2]. repeat split.
  - unfold R1000. rewrite Ru_gas. field.
  - do 3 f_equal. field.
  - unfold reciprocal. cbn [fdiv]. destruct (Req_EM_T (2 * (1 / 1)) 0); [lra|]. do 3 f_equal. field.
Qed.

Lemma inst_C31 :
  let E := session "bar" 1 "bar" in
  defaults_known E /\ ~ acceptable [[Some 300]] [("h", [Some 2])] /\
  acceptable [[Some 300]] [("s", [Some 2; Some 3])] /\ compatible (supplied [[Some 300]] [("s", [Some 2; Some 3])]) /\
  m_h g1 E [[Some 300]] [("h", [Some 2])] = Err PMParamError /\
  exists out, m_h g1 E [] [("T", [Some 300; Some 100]); ("v", [Some 2])] = Ok out.
Proof.
  intro E. pose proof (units_bar 1 "bar") as U. fold E in U.
  assert (defaults_known E) as HD. { split; [cbn; auto|]. eexists. reflexivity. }
  assert (~ acceptable [[Some 300]] [("h", [Some 2])]) as HA.
  { intros (_ & _ & _ & _ & _ & H & _). apply H. cbn. auto. }
  split; [exact HD|]. split; [exact HA|]. split; [|split; [|split]].
  - unfold acceptable. cbn.
    repeat split; try lia; try discriminate.
    + repeat constructor; cbn; intuition discriminate.
    + intros n [<-|[<-|[]]]; auto 8.
    + intuition discriminate.
    + intuition discriminate.
    + intuition discriminate.
    + intuition discriminate.
  - exists 2%nat. intros k a. cbn. intros [H|[H|[]]]; injection H as <- <-; cbn; lia.
  - apply (all_reject E g1 "K" (9/5) (10^5) 1 1000 1 U (m_h g1 E)); cbn; auto 10; try lia.
    repeat constructor; cbn; tauto.
  - apply (T_accepted E g1 "K" (9/5) (10^5) 1 1000 1 U (m_h g1 E) "v" _ _ 0 300 300); cbn; auto 10; try lia; try discriminate; try lra.
Qed.

Lemma inst_C32 :
  let E := session "Pa" 100000 "Pa" in
  m_s g1 E [] [("T", [Some 300]); ("p", [Some 200000])] = Ok [Some (300 - gas_constant * ln 2)].
Proof.
  intro E. pose proof (units_Pa 100000 "Pa") as U. fold E in U.
  rewrite (s_Tp _ _ U) by lra. replace (1 * 200000 / 100000) with 2 by field. reflexivity.
Qed.

Lemma inst_C33 :
  let E1 := session "Pa" 1 "bar" in let E2 := session "bar" 1 "bar" in
  let z1 := {| z_T := "K"; z_kT := 9/5; z_kP := 1; z_kV := 1; z_kE := 1000; z_kM := 1 |} in
  let z2 := {| z_T := "K"; z_kT := 9/5; z_kP := 10^5; z_kV := 1; z_kE := 1000; z_kM := 1 |} in
  has_sizes E1 (g_mw g1) z1 /\ has_sizes E2 (g_mw g1) z2 /\
  same_arguments E1 E2 z1 z2 [("T", [Some 300]); ("p", [Some 200000])] [("T", [Some 300]); ("p", [Some 2])] /\
  exists s, m_s g1 E1 [] [("T", [Some 300]); ("p", [Some 200000])] = Ok [Some s] /\
            m_s g1 E2 [] [("T", [Some 300]); ("p", [Some 2])] = Ok [Some s].
Proof.
  intros E1 E2 z1 z2. pose proof (units_Pa 1 "bar") as U1. pose proof (units_bar 1 "bar") as U2.
  split; [exact U1|]. split; [exact U2|]. split.
  - split; [reflexivity|]. repeat constructor; cbn.
    + exists 300. split; reflexivity.
    + lra.
  - exists (300 - gas_constant * ln 2). unfold E1, E2. rewrite (s_Tp _ _ U1), (s_Tp _ _ U2) by lra.
    replace (1 * 200000 / 100000) with 2 by field. replace (10 ^ 5 * 2 / 100000) with 2 by field. split; reflexivity.
Qed.

Lemma inst_C61 :
  let E := session "Pa" 100000 "Pa" in
  m_p g1 E [] [("T", [Some 300; Some 100; Some 400]); ("d", [Some 2])] =
    Ok [Some (2 * (1000 * gas_constant) * 300); None; Some (2 * (1000 * gas_constant) * 400)] /\
  m_T g1 E [] [("T", [Some 300; Some 100; Some 400]); ("d", [Some 2])] = Ok [Some 300; None; Some 400].
Proof.
  intro E. pose proof (units_Pa 100000 "Pa") as U. fold E in U.
  assert (argparse g1 E [] [("T", [Some 300; Some 100; Some 400]); ("d", [Some 2])] =
    Ok ([Some 300; None; Some 400], None, Some [Some 2; Some 2; Some 2])) as A.
  { rewrite argparse_two by reflexivity; rewrite (solve_units _ _ _ _ _ _ _ _ U).
    cbn [dget String.eqb Ascii.eqb Bool.eqb option_map]. unfold core, inT, inD. cbn [ores bind map lift1 fmul lift2].
    unfold broadcast. cbn [List.length Nat.eqb repeat bind].
    change (to_kelvin "K" 300) with 300; change (to_kelvin "K" 100) with 100; change (to_kelvin "K" 400) with 400.
    replace (1 / 1 * 2) with 2 by field.
    unfold bounds. cbn [forallb map]. rewrite (in_g1 300), (in_g1 400) by lra.
    assert (out_of_range g1 (Some 100) = true) as ->.
    { unfold out_of_range, flt. change (Tlow g1) with 200. destruct (Rlt_dec 100 200); [reflexivity|lra]. }
    reflexivity. }
  rewrite (m_T_val _ _ _ _ _ _ _ _ U) by (cbn; lia). rewrite (m_p_val _ _ _ _ _ _ _ _ U), A.
  cbn [bind fst map lift1 the_p]. unfold p_of, map2. cbn [combine map fst snd fmul lift2].
  split; [|reflexivity]. unfold R1000. rewrite Ru_gas.
  rewrite Rinv_1, !Rmult_1_l. reflexivity.
Qed.

Lemma inst_C62 :
  let E := session "Pa" 100000 "Pa" in
  dget "unit_pressure" (e_cfg E) = Some (e_defpu E) /\
  def_p (e_setup E) (e_cfg E) (e_defp E) (e_defpu E) = Ok 100000.
Proof.
  split; [reflexivity|].
  rewrite (def_p_value _ _ _ "Pa" "Pa" 1 1); try reflexivity; [cbn; f_equal; field|exact default_positive].
Qed.

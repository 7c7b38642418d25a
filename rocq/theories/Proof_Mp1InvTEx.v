(* Instance of C81. *)
From Coq Require Import Reals ZArith List String Bool Lia Lra.
From Verif Require Import Base Model_Num Model_Igas Spec_Igas Proof_Igas Model_Hybrid Spec_Hybrid Model_Mp1Calls Model_Mp1Warn Spec_Mp1 Spec_Mp1Calls Spec_Mp1Inv
  Proof_IgasAcc Proof_Mp1Poly Proof_Mp1Units Proof_Mp1Sat Proof_Mp1Calls Proof_Mp1Mix Proof_Mp1SatApi Proof_Mp1Hsd Proof_Mp1CallsEx Proof_Mp1Cv Proof_Mp1CvEx Proof_Mp1Alone Proof_Mp1Inv Proof_Mp1InvT Proof_Mp1InvEx.
Import ListNotations.
Local Open Scope R_scope.
Local Open Scope string_scope.
Local Open Scope list_scope.

Lemma ex_h1 all T d : 0 < T -> 0 < d -> exists w, mp_h exP all (Some T) (Some d) 1 = (Some (2305/2 * T), Some (2305/2), Some w).
Proof.
  intros HT Hd. assert (0 < 600 / T) by (apply Rdiv_lt_0_compat; lra).
  eexists. unfold mp_h. rewrite (proj1 (ex_red T d HT)), (proj2 (ex_red T d HT)).
  change (1 + 1)%nat with 2%nat. rewrite (ex_ao2 _ _ HT Hd), ex_ar0. cbn. destruct (Req_EM_T 300 0); [lra|]. cbn. apply jet3; [| |reflexivity]; field; lra.
Qed.
Lemma ex_dome T : 0 < T -> dome_at exP T.
Proof. intros HT L. exists 900, 9. split; [apply ex_saturation; cbn in L; lra|lra]. Qed.
(* the enthalpy of the instance is proportional to T, in one and in two phases *)
Lemma ex_line T d : 0 < T -> 0 < d -> along_T_d exP (Some d) (in_h exP) (Fin T) = (Fin (2305/2 * T + 0), Fin (2305/2)).
Proof.
  intros HT Hd. unfold along_T_d. cbn [fl_of]. replace (2305/2 * T + 0) with (2305/2 * T) by ring.
  enough (E : exists w, tditer exP (Some d) (in_h exP) (Some T) = (Some (2305/2 * T), Some (2305/2), Some w)).
  { destruct E as (w & E). exact (f_equal (fun t : fl * fl * fl => let '(y, yt, _) := t in (xf_of y, xf_of yt)) E). }
  destruct (ex_h1 [(Some T, Some d)] T d HT Hd) as (w & H1).
  assert (OUT : in_h exP (Some T) (Some d) 1%nat = (Some (2305/2 * T), Some (2305/2), Some w)) by exact H1.
  unfold tditer. destruct (Rlt_dec T 600) as [L|L].
  2:{ destruct (sat_jet _ _ 1) as [[a1 a2] a3]. destruct (sat_jet _ _ 1) as [[b1 b2] b3]. unfold num. rewrite flt_false by (cbn; lra).
      exists w. exact OUT. }
  destruct (ex_saturation T ltac:(lra)) as (W1 & W2 & S1 & S2 & E1 & E2).
  destruct (sat_jet1 _ _ W1 S1) as (lT & wl & ->). destruct (sat_jet1 _ _ W2 S2) as (gT & wg & ->). rewrite <- E1, <- E2.
  unfold num. rewrite flt_true by (cbn; lra). cbn [andb].
  destruct (fle (Some d) (Some 900) && fle (Some 9) (Some d))%bool; [|exists w; exact OUT].
  destruct (ex_h1 [(Some T, Some 9)] T 9 HT ltac:(lra)) as (wv & HV). destruct (ex_h1 [(Some T, Some 900)] T 900 HT ltac:(lra)) as (wl' & HL).
  assert (EV : in_h exP (Some T) (Some 9) 1%nat = (Some (2305/2 * T), Some (2305/2), Some wv)) by exact HV.
  assert (EL : in_h exP (Some T) (Some 900) 1%nat = (Some (2305/2 * T), Some (2305/2), Some wl')) by exact HL.
  rewrite EV, EL. rewrite (fdiv_ok 900 9), (fdiv_ok 900 d), (fdiv_ok lT 900), (fdiv_ok gT 9) by lra. cbn [fsub lift2].
  rewrite (fdiv_ok 1 (900 / 9 - 1)) by lra. cbn [fmul fadd fsub lift2 fneg lift1].
  repeat (rewrite !fdiv_ok by lra; cbn [fmul fadd fsub lift2 fneg lift1]).
  eexists. apply jet3; [| |reflexivity]; field; repeat split; lra.
Qed.

(* 10372.5 kJ/kmol and 10 kmol/m3, which is inside of the dome *)
Definition khd : list (string * arr) := [("h", [Some (20745/2)]); ("d", [Some 10])].
Lemma ex_acc_hd : mp_acceptable [] khd.
Proof.
  unfold mp_acceptable. cbn. split; [lia|]. split; [repeat constructor; cbn; intuition discriminate|].
  split; [intros n [<-|[<-|[]]]; auto 8|]. split; [left; lia|]. repeat split; intuition discriminate.
Qed.
Definition exY (T : R) : R := 18 / 1000 * (2305/2 * T).
Lemma inst_C81 : forall fuel,
  In ("h", mm_h exP exE fuel) (searched exP exE fuel) /\
  state_pair [] khd 0 "h" (20745/2) "d" 10 /\ density_arg exP exz "d" 10 (10 * 18) /\
  (forall T, 273 <= T <= 1200 -> dome_at exP T) /\ (forall T, 273 <= T <= 1200 -> evaluable_around exP T (10 * 18)) /\
  call_warns exP exE fuel [] khd = Ok false /\
  (exists x, mm_T exP exE fuel [] khd = Ok ([Some 500], [Some x]) /\ 0 < x < 1) /\
  (forall t T, kelvin_is exE t T -> 273 <= T <= 1200 ->
     exists x, mm_h exP exE fuel [] [("T", [Some t]); ("d", [Some 10])] = Ok ([Some (exY T)], [x])) /\
  bracketed exY 273 1200 (20745/2).
Proof.
  intro fuel.
  assert (S : state_pair [] khd 0 "h" (20745/2) "d" 10) by (apply pair_scalar; [discriminate|apply ex_acc_hd]).
  assert (DA : density_arg exP exz "d" 10 (10 * 18)) by (left; split; [reflexivity|apply ex_dens]).
  assert (IN : In ("h", mm_h exP exE fuel) (searched exP exE fuel)) by (cbn; auto).
  assert (DM : forall T, 273 <= T <= 1200 -> dome_at exP T) by (intros T HT; apply ex_dome; lra).
  assert (AR : mp_argparse exP exE fuel [] khd = from_hd exP exE (in_h exP) [(Some (1152500/2), Some (10 * 18))] /\
    call_warns exP exE fuel [] khd = hd_warns exP exE (in_h exP) [(Some (1152500/2), Some (10 * 18))]).
  { destruct (pair_args exP exE fuel _ _ _ _ _ _ _ S) as (a & b & _ & _ & Ga & Gb & A & _ & _ & -> & ->).
    assert (a = [Some (20745/2)]) as -> by (injection Ga as <-; reflexivity).
    assert (b = [Some 10]) as -> by (injection Gb as <-; reflexivity).
    rewrite (si_args_val _ _ _ _ _ _ _ _ exZ), Ga, Gb, (A "T"), (A "p"), (A "x"), (A "v") by discriminate. cbn [ores bind option_map].
    unfold from_args, args_warns. cbn [a_inv a_T a_p a_d a_x].
    assert (G1 : gH exP (z_kE exz) (z_kM exz) [Some (20745/2)] = [Some (1152500/2)]) by (unfold gH, kgs; cbn; do 2 f_equal; field).
    assert (G2 : gD exP (z_kV exz) (z_kM exz) [Some 10] = [Some (10 * 18)]) by (unfold gD, kgs; cbn; do 2 f_equal; field).
    split; [match goal with |- context [broadcast2 ?u ?v] => replace u with ([Some (1152500/2)] : arr) by (symmetry; exact G1); replace v with ([Some (10 * 18)] : arr) by (symmetry; exact G2) end; reflexivity|].
    match goal with |- context [broadcast2 ?u ?v] => replace u with ([Some (1152500/2)] : arr) by (symmetry; exact G1); replace v with ([Some (10 * 18)] : arr) by (symmetry; exact G2) end; reflexivity. }
  destruct AR as [A W].
  assert (H : hybrid1 true ep1 50 (xf_of (e_oob exE)) (map (hd_elem exP (in_h exP)) [(Some (1152500/2), Some (10 * 18))]) = Ok ([Fin 500], false)).
  { cbn [map hd_elem]. apply (line_found _ (2305/2) 0 273 1200 (1152500/2)); try reflexivity; try lra.
    - intros x Hx. cbn [e_fn]. apply ex_line; lra.
    - unfold ep1. lra. }
  assert (EA : forall T, 273 <= T <= 1200 -> evaluable_around exP T (10 * 18)) by (intros T _; split; [now apply evaluable_nc|]; intros; split; now apply evaluable_nc).
  assert (IN_DOME : (flt (Some 500) (num (mp_Tc exP)) && (fle (mp_dsv exP (Some 500)) (Some (10 * 18)) && fle (Some (10 * 18)) (mp_dsl exP (Some 500))))%bool = true).
  { rewrite (proj1 ex_sat_d), (proj2 ex_sat_d). unfold num. rewrite flt_true, !fle_true by (cbn; lra). reflexivity. }
  split; [exact IN|]. split; [exact S|]. split; [exact DA|]. split; [exact DM|]. split; [exact EA|]. split; [|split; [|split]].
  - rewrite W. unfold hd_warns. rewrite H. reflexivity.
  - rewrite (mm_T_val exP exE fuel exz exZ), A. unfold from_hd. rewrite H. cbn [bind fst map2 map combine fl_of snd].
    rewrite IN_DOME. cbn [s_T s_x]. rewrite (proj1 ex_sat_d), (proj2 ex_sat_d).
    exists ((900 / (10 * 18) - 1) / (900 / 9 - 1)). split; [|lra]. cbn [lift1 z_T exz].
    assert (Q : quality_of (Some (10 * 18)) (Some 900) (Some 9) = Some ((900 / (10 * 18) - 1) / (900 / 9 - 1))).
    { unfold quality_of, num. rewrite !fdiv_ok by lra. unfold fsub. cbn [lift2]. rewrite fdiv_ok by lra. reflexivity. }
    rewrite Q. do 4 f_equal.
  - intros t T Kt RT. rewrite (mm_h_val exP exE fuel exz exZ).
    pose proof (scalar_points exP exE fuel exz exZ t 10 T (10 * 18) Kt (ex_dens 10)) as SP. unfold kTd1 in SP.
    rewrite SP by (unfold in_range; cbn; lra). cbn [bind map].
    destruct (td_value exP (mp_h exP) (10 * 18) (regular_h exP ex_wf) ltac:(lra) T ltac:(lra) (DM T RT) (EA T RT)) as (v & s1 & s2 & V1 & _ & V3 & _).
    pose proof (ex_line T (10 * 18) ltac:(lra) ltac:(lra)) as V4. unfold along_T_d in V4. cbn [fl_of] in V4.
    assert (V5 : (Fin v, Fin s1) = (Fin (2305/2 * T + 0), Fin (2305/2))).
    { rewrite <- V4. symmetry. exact (f_equal (fun t : fl * fl * fl => let '(y, yt, _) := t in (xf_of y, xf_of yt)) V1). }
    injection V5 as V5 _. eexists. rewrite V3 by (now left). cbn [fmul lift2]. do 4 f_equal. unfold exY, kgs. rewrite V5. cbn. field.
  - unfold bracketed, exY. left. lra.
Qed.

(* Instances of C81 with the pressure. *)
From Coq Require Import Reals ZArith List String Bool Lia Lra.
From Verif Require Import Base Model_Num Model_Igas Spec_Igas Proof_Igas Proof_Iter Proof_IgasUnits Proof_Jets Model_Hybrid Spec_Hybrid Model_Mp1Calls Model_Mp1Warn Spec_Mp1 Spec_Mp1Calls Spec_Mp1Inv Spec_Mp1InvP
  Proof_IgasAcc Proof_Mp1Poly Proof_Mp1Units Proof_Mp1Sat Proof_Mp1Args Proof_Mp1Calls Proof_Mp1Mix Proof_Mp1SatApi Proof_Mp1Hsd Proof_Mp1CallsEx Proof_Mp1Cv Proof_Mp1CvEx Proof_Mp1Alone Proof_Mp1Inv Proof_Mp1InvT Proof_Mp1InvEx
  Proof_Mp1InvTEx Proof_Mp1InvS Proof_Mp1InvSEx Spec_Mp1Ts Proof_Mp1Ts Proof_Mp1TsEx Proof_Mp1InvP.
Import ListNotations.
Local Open Scope R_scope.
Local Open Scope string_scope.
Local Open Scope list_scope.

Lemma ex_h2 all T d : 0 < T -> 0 < d -> mp_h exP all (Some T) (Some d) 1 = (Some (2305/2 * T), Some (2305/2), Some 0).
Proof.
  intros HT Hd. assert (0 < 600 / T) by (apply Rdiv_lt_0_compat; lra).
  unfold mp_h. rewrite (proj1 (ex_red T d HT)), (proj2 (ex_red T d HT)).
  change (1 + 1)%nat with 2%nat. rewrite (ex_ao2 _ _ HT Hd), ex_ar0. cbn. destruct (Req_EM_T 300 0); [lra|]. cbn. apply jet3; field; lra.
Qed.
Lemma ex_ps T : 0 < T < 600 -> sat_wf (mp_PS exP) /\ sat_smooth (mp_PS exP) T /\ sat_value (mp_PS exP) T = 1000000.
Proof.
  intro H. unfold sat_wf, sat_smooth, sat_value. cbn. rewrite exp_0.
  repeat split; try constructor; try lra; try lia; auto.
Qed.
(* 500 Pa: a gas at all temperatures *)
Lemma ex_low T : 273 <= T <= 1200 -> exists lo hi, density_limits exP T 500 lo hi /\ 0 < lo /\ lo < 500 / (461 * T) < hi /\ 461 * T * lo <= 500.
Proof.
  intro HT.
  assert (B : 0 < / (461 * T)) by (apply Rinv_0_lt_compat; lra).
  assert (B2 : / (461 * T) <= / 1) by (apply Rinv_le_contravar; lra). rewrite Rinv_1 in B2.
  assert (B3 : / (461 * T) <= / (500 * 200)) by (apply Rinv_le_contravar; lra).
  destruct (Rle_dec 600 T) as [L|L].
  - exists (1/10 * 500 / (461 * T)), 1000. split; [left; cbn; repeat split; lra|]. unfold Rdiv. split; [apply Rmult_lt_0_compat; lra|].
    split; [split; [apply Rmult_lt_compat_r; lra|lra]|]. replace (461 * T * (1 * / 10 * 500 * / (461 * T))) with 50 by (field; lra). lra.
  - exists (5/10 * 500 / (461 * T)), (9 * (101/100)). split.
    + right. split; [cbn; lra|]. exists 900, 9. split; [apply ex_saturation; lra|]. destruct (ex_ps T ltac:(lra)) as (P1 & P2 & P3).
      split; [exact P1|]. split; [exact P2|]. left. rewrite P3. split; [lra|]. split; reflexivity.
    + unfold Rdiv. split; [apply Rmult_lt_0_compat; lra|].
      split; [split; [apply Rmult_lt_compat_r; lra|lra]|]. replace (461 * T * (5 * / 10 * 500 * / (461 * T))) with 250 by (field; lra). lra.
Qed.
Lemma ex_mp_d fuel T v : 273 <= T <= 1200 -> mp_d exP (e_oob exE) fuel [(true, Some T, Some 500, v)] = Ok [Some (500 / (461 * T))] /\
  d_warns exP exE fuel [(true, Some T, Some 500, v)] = Ok false.
Proof.
  intro HT. destruct (ex_low T HT) as (lo & hi & HL & Hlo & Hb & Hp).
  assert (DL : d_lower exP fuel (Some T) (Some 500) (Some lo) = Ok (Some lo)).
  { destruct fuel; cbn [d_lower]; unfold in_p, alone; rewrite ex_P by lra; cbn [value0 fst]; rewrite flt_false by lra; reflexivity. }
  set (e := {| e_fn := along_d (in_p exP) (Some T); e_y := Fin 500; e_x := xf_of v; e_sel := true; e_min := Fin lo; e_max := Fin hi |}).
  assert (F : d_elem exP fuel (true, Some T, Some 500, v) = Ok e).
  { unfold d_elem. rewrite (limits_val exP ex_wf T 500 lo hi ltac:(lra) HL), DL. reflexivity. }
  assert (0 < 500 / (461 * T)) by lra.
  assert (H1 : hybrid1 true ep1 50 (xf_of (e_oob exE)) [e] = Ok ([Fin (500 / (461 * T))], false)).
  { apply (line_found e (461 * T) 0 lo hi 500); try reflexivity; try lra; try (field; lra).
    - intros x Hx. unfold e. cbn [e_fn]. unfold along_d, in_p, alone. cbn [fl_of]. rewrite ex_p by lra. cbn [xf_of]. rewrite Rplus_0_r. reflexivity.
    - unfold ep1. lra. }
  unfold mp_d, d_warns. cbn [traverse]. rewrite F. cbn [bind]. rewrite H1. split; reflexivity.
Qed.
Lemma ex_stiff T d : 0 < T -> 0 < d -> compressible exP T d.
Proof.
  intros HT Hd. exists (461 * T * d), (461 * d), (461 * T). split; [|nra]. rewrite ex_p by exact HT. reflexivity.
Qed.

Definition khp : list (string * arr) := [("h", [Some (20745/2)]); ("p", [Some (1/200)])].
Lemma ex_acc_p n y q : (n = "h" \/ n = "s") -> mp_acceptable [] [(n, [Some y]); ("p", [Some q])].
Proof.
  intros [->| ->].
  - unfold mp_acceptable. cbn. split; [lia|]. split; [repeat constructor; cbn; intuition discriminate|].
    split; [intros n [<-|[<-|[]]]; cbn; auto 12|]. split; [left; lia|]. repeat split; intuition discriminate.
  - unfold mp_acceptable. cbn. split; [lia|]. split; [repeat constructor; cbn; intuition discriminate|].
    split; [intros n [<-|[<-|[]]]; cbn; auto 12|]. split; [left; lia|]. repeat split; intuition discriminate.
Qed.
Lemma ex_one fuel t T : kelvin_is exE t T -> 273 <= T <= 1200 -> exists r d x,
  mm_d exP exE fuel [] [("T", [Some t]); ("p", [Some (1/200)])] = Ok ([Some r], [x]) /\ density_is exP exz r d /\ 0 < d /\ evaluable exP T d /\ compressible exP T d /\
  mm_h exP exE fuel [] [("T", [Some t]); ("p", [Some (1/200)])] = Ok ([Some (exY T)], [x]).
Proof.
  intros Kt HT.
  assert (Kp : pressure_is exz (1/200) 500) by (unfold pressure_is; cbn; lra).
  assert (0 < 500 / (461 * T)) by (apply Rdiv_lt_0_compat; lra).
  assert (A : mp_argparse exP exE fuel [] [("T", [Some t]); ("p", [Some (1/200)])] = Ok [single (Some T) (Some (500 / (461 * T)))]).
  { rewrite (proj1 (argparse_Tp1 exP exE fuel exz exZ t T (1/200) 500 Kt Kp ltac:(unfold in_range; cbn; lra) ltac:(unfold in_range; cbn; lra))).
    unfold from_Tpx. cbn [map]. unfold num at 1. rewrite flt_true by lra. match goal with |- context [mp_d ?a ?b ?c ?d] => replace (mp_d a b c d) with (Ok [Some (500 / (461 * T))] : res arr) by (symmetry; exact (proj1 (ex_mp_d fuel T (num 0) HT))) end. cbn [bind map2 combine map fst snd].
    unfold num at 1. rewrite flt_true by lra. reflexivity. }
  exists (1 / kgs exP 1 * (500 / (461 * T))), (500 / (461 * T)), (Some (-1)).
  split; [rewrite (mm_d_val exP exE fuel _ _ _ _ _ _ exZ), A; reflexivity|].
  split; [unfold density_is, kgs; cbn; field; lra|]. split; [lra|]. split; [now apply evaluable_nc|]. split; [apply ex_stiff; lra|].
  rewrite (mm_h_val exP exE fuel exz exZ), A. cbn [bind map]. unfold mixed_at, single. cbn [s_sat s_T s_d1 s_x]. rewrite ex_h by lra.
  cbn [fmul lift2]. do 4 f_equal. unfold exY, kgs. cbn. field.
Qed.
Lemma inst_hp : forall fuel,
  In ("h", mm_h exP exE fuel) (searched exP exE fuel) /\ In ("h", mp_h exP) (searched_eos exP) /\ mp_wf exP /\
  state_pair [] khp 0 "h" (20745/2) "p" (1/200) /\ property_is exP exz "h" (20745/2) (1152500/2) /\ pressure_is exz (1/200) 500 /\
  temperature_limits exP exE (mp_h exP) (1/200) 500 (1152500/2) 273 1200 /\
  (forall t T, kelvin_is exE t T -> 273 <= T <= 1200 -> exists r d x,
     mm_d exP exE fuel [] [("T", [Some t]); ("p", [Some (1/200)])] = Ok ([Some r], [x]) /\ density_is exP exz r d /\ 0 < d /\ evaluable exP T d /\ compressible exP T d /\
     mm_h exP exE fuel [] [("T", [Some t]); ("p", [Some (1/200)])] = Ok ([Some (exY T)], [x])) /\
  bracketed exY 273 1200 (20745/2) /\
  mm_T exP exE fuel [] khp = Ok ([Some 500], [Some (-1)]) /\ call_warns exP exE fuel [] khp = Ok false.
Proof.
  intro fuel.
  assert (S : state_pair [] khp 0 "h" (20745/2) "p" (1/200)) by (apply pair_scalar; [discriminate|apply ex_acc_p; auto]).
  assert (Kp : pressure_is exz (1/200) 500) by (unfold pressure_is; cbn; lra).
  assert (PI : property_is exP exz "h" (20745/2) (1152500/2)) by (unfold property_is, energy_is; cbn; field).
  assert (TL : temperature_limits exP exE (mp_h exP) (1/200) 500 (1152500/2) 273 1200) by (left; cbn; lra).
  assert (AR : mp_argparse exP exE fuel [] khp = from_hp exP exE fuel (in_h exP) [(Some (1152500/2), Some 500)] /\
    call_warns exP exE fuel [] khp = hp_warns exP exE fuel (in_h exP) [(Some (1152500/2), Some 500)]).
  { destruct (pair_args exP exE fuel _ _ _ _ _ _ _ S) as (a & b & _ & _ & Ga & Gb & A & _ & _ & -> & ->).
    assert (a = [Some (20745/2)]) as -> by (injection Ga as <-; reflexivity).
    assert (b = [Some (1/200)]) as -> by (injection Gb as <-; reflexivity).
    rewrite (si_args_val _ _ _ _ _ _ _ _ exZ), Ga, Gb, (A "d"), (A "T"), (A "x"), (A "v") by discriminate. cbn [ores bind option_map].
    assert (G2 : gP (z_kP exz) [Some (1/200)] = [Some 500]) by (cbn; do 2 f_equal; lra).
    rewrite G2. rewrite limited_inside; [|discriminate|intros x [Q|[]]; injection Q as <-; unfold in_range; cbn; lra].
    cbn [bind]. unfold from_args, args_warns. cbn [a_inv a_T a_p a_d a_x].
    assert (G1 : gH exP (z_kE exz) (z_kM exz) [Some (20745/2)] = [Some (1152500/2)]) by (unfold gH, kgs; cbn; do 2 f_equal; field).
    split; (match goal with |- context [broadcast2 ?u ?v] => replace u with ([Some (1152500/2)] : arr) by (symmetry; exact G1) end; reflexivity). }
  destruct AR as [A W].
  set (ps := map (fun e : fl * fl => (negb (fle (num (mp_pc exP)) (snd e) || fle (snd e) (num (mp_pt exP))), snd e)) [(Some (1152500/2), Some 500)]) in *.
  assert (PS : ps = [(false, Some 500)]).
  { unfold ps. cbn [map snd mp_pc mp_pt exP]. unfold num. rewrite (fle_true 500 600) by lra. rewrite orb_true_r. reflexivity. }
  assert (L : iter_loop ep_default (mp_Tt exP * (99/100)) (mp_Tc exP) 20 20 (map (Ts_cell exP) ps) = Ok ([Ts_cell exP (false, Some 500)], false)).
  { rewrite PS. cbn [map]. apply iter_solo_off. reflexivity. }
  assert (PL : forall ts, plan_hp exP (in_h exP) (Some (1152500/2)) (Some 500) ts =
     {| hp_Ta := Some 273; hp_Tb := Some 1200; hp_T := None; hp_sat := false; hp_d1 := None; hp_d2 := None; hp_x := num (-1) |}).
  { intro ts. unfold plan_hp, num. cbn [mp_pc mp_pt exP]. rewrite (fle_true 500 600) by lra. rewrite orb_true_r. reflexivity. }
  assert (HY : forall ts, hybrid1 true ep1 50 (xf_of (e_oob exE)) [hp_elem exP exE fuel (in_h exP) (Some (1152500/2)) (Some 500) (plan_hp exP (in_h exP) (Some (1152500/2)) (Some 500) ts)] = Ok ([Fin 500], false)).
  { intro ts. rewrite PL. apply (line_found _ (2305/2) 0 273 1200 (1152500/2)); try reflexivity; try lra.
    - intros T HT. unfold hp_elem. cbn [e_fn]. unfold along_T_p, tpiter.
      assert (DO : d_one exP (e_oob exE) fuel (fl_of (Fin T)) (Some 500) = Ok (Some (500 / (461 * T)))).
      { exact (f_equal (fun r : res arr => do l <- r; Ok (nth 0%nat l None)) (proj1 (ex_mp_d fuel T (num 0) HT))). }
      rewrite DO. assert (0 < 500 / (461 * T)) by (apply Rdiv_lt_0_compat; lra).
      assert (F2 : in_h exP (Some T) (Some (500 / (461 * T))) 1%nat = (Some (2305/2 * T), Some (2305/2), Some 0)) by (apply ex_h2; lra).
      assert (P2 : in_p exP (Some T) (Some (500 / (461 * T))) 1%nat = (Some (461 * T * (500 / (461 * T))), Some (461 * (500 / (461 * T))), Some (461 * T))) by (apply ex_p; lra).
      cbn [fl_of]. rewrite F2, P2. cbn [fmul fsub lift2]. rewrite fdiv_ok by lra. cbn [fsub lift2 xf_of]. f_equal; f_equal; field; lra.
    - unfold ep1. lra. }
  split; [cbn; auto|]. split; [cbn; auto|]. split; [exact ex_wf|]. split; [exact S|]. split; [exact PI|]. split; [exact Kp|]. split; [exact TL|].
  split; [intros t T Kt HT; exact (ex_one fuel t T Kt HT)|]. split; [unfold bracketed, exY; left; lra|].
  assert (RUN : forall X, from_hp exP exE fuel (in_h exP) [(Some (1152500/2), Some 500)] = X -> X = Ok [single (Some 500) (Some (500 / (461 * 500)))]).
  { intros X <-. unfold from_hp. fold ps. unfold mp_Ts. rewrite L. cbn [bind fst map map2 combine snd]. rewrite HY. cbn [bind fst map fl_of combine snd]. rewrite PL. cbn [hp_sat negb].
    pose proof (proj1 (ex_mp_d fuel 500 None ltac:(lra))) as DD.
    match goal with |- context [mp_d ?a ?b ?c ?d] => replace (mp_d a b c d) with (Ok [Some (500 / (461 * 500))] : res arr) by (symmetry; exact DD) end.
    reflexivity. }
  split.
  - rewrite (mm_T_val exP exE fuel exz exZ), A. rewrite (RUN _ eq_refl). cbn [bind map single s_T s_x lift1]. reflexivity.
  - rewrite W. unfold hp_warns. fold ps. unfold mp_Ts, Ts_warns. rewrite L. cbn [bind fst map map2 combine snd]. rewrite HY. cbn [bind fst map fl_of combine snd]. rewrite PL. cbn [hp_sat negb].
    pose proof (proj2 (ex_mp_d fuel 500 None ltac:(lra))) as DD.
    match goal with |- context [d_warns ?a ?b ?c ?d] => replace (d_warns a b c d) with (Ok false : res bool) by (symmetry; exact DD) end.
    reflexivity.
Qed.

(* 165 bar, at which the substance of C82 boils at 500 K, and the entropy halfway between the phases *)
Definition ksp : list (string * arr) := [("s", [Some (18/1000 * (1/2 * exS 900 + 1/2 * exS 9))]); ("p", [Some 165])].
Lemma exL_boils : boils_at exL exE 165 500.
Proof.
  destruct (exL_Ts (10^5 * 165) ltac:(lra)) as (c & S1 & X1). exists 500. split; [|apply ex_K].
  assert (Q : mm_Ts exL exE (Some [Some 165]) = Ok [lift1 (from_kelvin (z_T exz)) (c_x c)]).
  { unfold mm_Ts. cbn [bind]. rewrite (p_in _ _ _ _ _ _ _ _ exLZ). cbn [bind]. fold (Proof_Mp1Units.gP (z_kP exz) [Some 165]).
    rewrite (proj2 (outside_sat_false _ _ _)).
    2:{ intros x [H|[]]; cbn in H; injection H as <-; cbn; lra. }
    unfold mp_Ts. unfold solo_iter in S1. cbn [fst snd] in S1.
    match goal with |- context [iter_loop ?a ?b ?c0 ?d ?e ?f] => replace (iter_loop a b c0 d e f) with (Ok ([c], false) : res (list cell * bool)) by (symmetry; exact S1) end.
    cbn [bind fst map]. rewrite (atscale_from _ _ _ _ _ _ _ _ exLZ). reflexivity. }
  rewrite Q, X1. cbn. do 3 f_equal. lra.
Qed.
Lemma exL_phases : phases_at exL (mp_s exL) 500 (exS 900) (exS 9).
Proof.
  exists 900, 9. split; [exact (ex_saturation 500 ltac:(lra))|]. split; [lra|]. split; [lra|].
  split; [now apply evaluable_nc|]. split; [now apply evaluable_nc|].
  split; [exact (ex_s [(Some 500, Some 900)] 500 900 ltac:(lra) ltac:(lra))|exact (ex_s [(Some 500, Some 9)] 500 9 ltac:(lra) ltac:(lra))].
Qed.
Lemma inst_sp : forall fuel, let v := 1/2 * exS 900 + 1/2 * exS 9 in
  In ("s", mm_s exL exE fuel) (searched exL exE fuel) /\ In ("s", mp_s exL) (searched_eos exL) /\
  state_pair [] ksp 0 "s" (18/1000 * v) "p" 165 /\ property_is exL exz "s" (18/1000 * v) v /\ pressure_is exz 165 (165 * 10^5) /\
  mp_pt exL < 165 * 10^5 < mp_pc exL /\ boils_at exL exE 165 500 /\ phases_at exL (mp_s exL) 500 (exS 900) (exS 9) /\ exS 900 < exS 9 /\
  exists ys xs, mm_s exL exE fuel [] ksp = Ok (ys, xs).
Proof.
  intros fuel v. pose proof exS_lt as LT.
  assert (S : state_pair [] ksp 0 "s" (18/1000 * v) "p" 165) by (apply pair_scalar; [discriminate|apply ex_acc_p; auto]).
  assert (AR : mp_argparse exL exE fuel [] ksp = from_hp exL exE fuel (in_s exL) [(Some v, Some (10^5 * 165))]).
  { destruct (pair_args exL exE fuel _ _ _ _ _ _ _ S) as (a & b & _ & _ & Ga & Gb & A & _ & _ & -> & _).
    assert (a = [Some (18/1000 * v)]) as -> by (injection Ga as <-; reflexivity).
    assert (b = [Some 165]) as -> by (injection Gb as <-; reflexivity).
    rewrite (si_args_val _ _ _ _ _ _ _ _ exLZ), Ga, Gb, (A "d"), (A "T"), (A "x"), (A "v"), (A "h"), (A "e") by discriminate. cbn [ores bind option_map].
    assert (G2 : gP (z_kP exz) [Some 165] = [Some (10^5 * 165)]) by reflexivity.
    rewrite G2. rewrite limited_inside; [|discriminate|intros x [Q|[]]; injection Q as <-; unfold in_range; cbn; lra].
    cbn [bind]. unfold from_args. cbn [a_inv a_T a_p a_d a_x].
    assert (G1 : gS exL (z_kT exz) (z_kE exz) (z_kM exz) [Some (18/1000 * v)] = [Some v]) by (unfold gS, kgs; cbn; do 2 f_equal; field).
    match goal with |- context [broadcast2 ?u ?w] => replace u with ([Some v] : arr) by (symmetry; exact G1) end; reflexivity. }
  split; [cbn; auto|]. split; [cbn; auto|]. split; [exact S|].
  split; [unfold property_is, entropy_is; cbn; field|]. split; [reflexivity|]. split; [cbn; lra|]. split; [exact exL_boils|]. split; [exact exL_phases|]. split; [exact LT|].
  rewrite (mm_s_val exL exE fuel exz exLZ), AR. unfold from_hp.
  destruct (exL_Ts (10^5 * 165) ltac:(lra)) as (c & S1 & X1). unfold solo_iter in S1. cbn [fst snd] in S1.
  assert (PS : map (fun e : fl * fl => (negb (fle (num (mp_pc exL)) (snd e) || fle (snd e) (num (mp_pt exL))), snd e)) [(Some v, Some (10^5 * 165))] = [(true, Some (10^5 * 165))]).
  { cbn [map snd mp_pc mp_pt exL]. unfold num. rewrite !fle_false by lra. reflexivity. }
  match goal with |- context [mp_Ts exL ?q] => replace q with [(true, Some (10^5 * 165) : fl)] by (symmetry; exact PS) end.
  unfold mp_Ts. match goal with |- context [iter_loop ?a ?b ?c0 ?d ?e ?f] => replace (iter_loop a b c0 d e f) with (Ok ([c], false) : res (list cell * bool)) by (symmetry; exact S1) end.
  cbn [bind fst map map2 combine snd]. rewrite X1.
  replace ((10 ^ 5 * 165 - -11000000) / 55000) with 500 by lra.
  assert (PL : exists x, plan_hp exL (in_s exL) (Some v) (Some (10^5 * 165)) (Some 500) =
      {| hp_Ta := Some 500; hp_Tb := Some 500; hp_T := Some 500; hp_sat := true; hp_d1 := Some 900; hp_d2 := Some 9; hp_x := x |}).
  { unfold plan_hp, num. cbn [mp_pc mp_pt exL]. rewrite !fle_false by lra. cbn [orb].
    assert (ML : mp_dsl exL (Some 500) = Some 900) by exact (proj1 ex_sat_d). assert (MV : mp_dsv exL (Some 500) = Some 9) by exact (proj2 ex_sat_d).
    rewrite ML, MV.
    assert (V1 : forall d, 0 < d -> value0 (in_s exL (Some 500) (Some d) 0%nat) = Some (exS d)) by (intros d Hd; exact (ex_s [(Some 500, Some d)] 500 d ltac:(lra) Hd)).
    rewrite !V1 by lra. rewrite !fle_true by (unfold v; lra). cbn [andb]. eexists. reflexivity. }
  destruct PL as (x & PL).
  match goal with |- context [plan_hp ?a ?b ?c0 ?d ?e] => replace (plan_hp a b c0 d e) with {| hp_Ta := Some 500; hp_Tb := Some 500; hp_T := Some 500; hp_sat := true; hp_d1 := Some 900; hp_d2 := Some 9; hp_x := x |} by (symmetry; exact PL) end.
  unfold hp_elem. cbn [hp_Ta hp_Tb hp_T hp_sat hp_x hp_d1 hp_d2 negb]. unfold hybrid1. cbn [existsb forallb map e_sel negb orb andb bind fst snd e_x xf_of fl_of combine].
  unfold mp_d. cbn [traverse]. unfold d_elem. destruct (d_limits _ _ _) as [da db]. cbn [bind]. unfold hybrid1. cbn [existsb forallb map e_sel negb orb andb bind fst snd e_x xf_of fl_of combine]. do 2 eexists. reflexivity.
Qed.

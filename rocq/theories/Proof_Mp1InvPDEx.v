(* Instances and counterexamples of C87. *)
From Coq Require Import Reals ZArith List String Bool Lia Lra.
From Verif Require Import Base Model_Num Model_Igas Spec_Igas Proof_Igas Proof_Iter Proof_IgasUnits Proof_Jets Model_Hybrid Spec_Hybrid Proof_Hybrid Model_Mp1Calls Model_Mp1Warn Spec_Mp1 Spec_Mp1Calls Spec_Mp1Inv Spec_Mp1InvP Spec_Mp1InvPD
  Proof_IgasAcc Proof_Mp1Poly Proof_Mp1Units Proof_Mp1Sat Proof_Mp1Args Proof_Mp1Calls Proof_Mp1Mix Proof_Mp1SatApi Proof_Mp1Hsd Proof_Mp1CallsEx Proof_Mp1Cv Proof_Mp1CvEx Proof_Mp1Alone Proof_Mp1Inv Proof_Mp1InvT Proof_Mp1InvEx
  Proof_Mp1InvTEx Proof_Mp1InvS Proof_Mp1InvSEx Spec_Mp1Ts Proof_Mp1Ts Proof_Mp1TsEx Proof_Mp1InvP Proof_Mp1InvPD.
Import ListNotations.
Local Open Scope R_scope.
Local Open Scope string_scope.
Local Open Scope list_scope.

Definition kpd (q r : R) : list (string * arr) := [("p", [Some q]); ("d", [Some r])].
Lemma kpd_acc q r : mp_acceptable [] (kpd q r).
Proof.
  unfold mp_acceptable. cbn. split; [lia|]. split; [repeat constructor; cbn; intuition discriminate|].
  split; [intros n [<-|[<-|[]]]; auto 8|]. split; [left; lia|]. repeat split; intuition discriminate.
Qed.
Lemma kpd_pair q r : state_pair [] (kpd q r) 0 "p" q "d" r.
Proof. apply pair_scalar; [discriminate|apply kpd_acc]. Qed.
Lemma kpd_args fuel q r : 0 <= q <= 1000 ->
  mp_argparse exL exE fuel [] (kpd q r) = from_pd exL exE [(Some (r * 18), Some (100000 * q))] /\
  call_warns exL exE fuel [] (kpd q r) = T_warns exL exE [(Some (r * 18), Some (100000 * q))].
Proof.
  intro Hq. destruct (pair_args exL exE fuel _ _ _ _ _ _ _ (kpd_pair q r)) as (a & b & _ & _ & Ga & Gb & A & _ & _ & -> & ->).
  assert (a = [Some q]) as -> by (injection Ga as <-; reflexivity).
  assert (b = [Some r]) as -> by (injection Gb as <-; reflexivity).
  rewrite (si_args_val _ _ _ _ _ _ _ _ exLZ), Ga, Gb, (A "T"), (A "x"), (A "v"), (A "h"), (A "e"), (A "s") by discriminate. cbn [ores bind option_map].
  assert (G2 : gP (z_kP exz) [Some q] = [Some (100000 * q)]) by (unfold gP; cbn; do 2 f_equal; ring).
  rewrite G2. rewrite limited_inside; [|discriminate|intros x [Q|[]]; injection Q as <-; unfold in_range; cbn; lra].
  assert (G1 : gD exL (z_kV exz) (z_kM exz) [Some r] = [Some (r * 18)]) by (unfold gD, kgs; cbn; do 2 f_equal; field).
  cbn [bind]. unfold from_args, args_warns. cbn [a_inv a_T a_p a_d a_x].
  match goal with |- context [broadcast2 ?u ?w] => replace u with ([Some (r * 18)] : arr) by (symmetry; exact G1) end.
  split; reflexivity.
Qed.
Lemma kpd_Ts p : p < 22000000 -> exists c, iter_loop ep_default (mp_Tt exL * (99 / 100)) (mp_Tc exL) 20 20 [Ts_cell exL (true, Some p)] = Ok ([c], false) /\
  c_x c = Some (if Rlt_dec p 4015000 then (273 + 600) / 2 else (p - -11000000) / 55000).
Proof.
  intro Hp. destruct (Rlt_dec p 4015000) as [L|L].
  - exists (Ts_cell exL (true, Some p)). split.
    + rewrite iter_solo_off; [reflexivity|]. unfold Ts_cell. cbn [c_on mp_pt mp_pc exL andb]. unfold num. rewrite fle_false by lra. reflexivity.
    + cbn [Ts_cell c_x mp_Tt mp_Tc exL]. unfold num. f_equal. lra.
  - destruct (exL_Ts p ltac:(lra)) as (c & S1 & X1). exists c. split; [exact S1|exact X1].
Qed.
Lemma kpd_boils q Ts : 4015000 <= 100000 * q < 22000000 -> Ts = (100000 * q - -11000000) / 55000 -> boils_at exL exE q Ts.
Proof.
  intros Hq ->. destruct (kpd_Ts (100000 * q) ltac:(lra)) as (c & S1 & X1). destruct (Rlt_dec (100000 * q) 4015000) as [N|_]; [lra|].
  exists ((100000 * q - -11000000) / 55000). split; [|apply ex_K].
  assert (Q : mm_Ts exL exE (Some [Some q]) = Ok [lift1 (from_kelvin (z_T exz)) (c_x c)]).
  { unfold mm_Ts. cbn [bind]. rewrite (p_in _ _ _ _ _ _ _ _ exLZ). cbn [bind]. fold (Proof_Mp1Units.gP (z_kP exz) [Some q]).
    assert (G2 : gP (z_kP exz) [Some q] = [Some (100000 * q)]) by (unfold gP; cbn; do 2 f_equal; ring). rewrite G2.
    rewrite (proj2 (outside_sat_false _ _ _)).
    2:{ intros x [H|[]]; injection H as <-; cbn; lra. }
    unfold mp_Ts.
    match goal with |- context [iter_loop ?a ?b ?c0 ?d ?e ?f] => replace (iter_loop a b c0 d e f) with (Ok ([c], false) : res (list cell * bool)) by (symmetry; exact S1) end.
    cbn [bind fst map]. rewrite (atscale_from _ _ _ _ _ _ _ _ exLZ). reflexivity. }
  rewrite Q, X1. reflexivity.
Qed.
(* one state from p and d *)
Lemma kpd_run p d Ts res : p < 22000000 -> Ts = (if Rlt_dec p 4015000 then (273 + 600) / 2 else (p - -11000000) / 55000) ->
  hybrid1 true ep1 20 (xf_of (e_oob exE)) [T_elem exL (Some d) (Some p) (plan_T exL (Some d) (Some p) (Some Ts))] = res ->
  (forall q w, res = Ok ([q], w) ->
    from_pd exL exE [(Some d, Some p)] = Ok [let pl := plan_T exL (Some d) (Some p) (Some Ts) in
      if tp_sat pl
      then {| s_T := fl_of q; s_d1 := tp_dsL pl; s_d2 := tp_dsV pl; s_x := quality_of (Some d) (tp_dsL pl) (tp_dsV pl); s_sat := true |}
      else single (fl_of q) (Some d)] /\ T_warns exL exE [(Some d, Some p)] = Ok w) /\
  (forall e, res = Err e -> from_pd exL exE [(Some d, Some p)] = Err e).
Proof.
  intros Hp -> H. destruct (kpd_Ts p Hp) as (c & S1 & X1).
  assert (SEL : sel_of exL [(Some d, Some p)] = [(true, Some p)]) by (cbn; destruct (Rle_dec 22000000 p); [lra|reflexivity]).
  unfold from_pd, mp_T, T_warns, Ts_warns, mp_Ts. fold (sel_of exL [(Some d, Some p)]). rewrite SEL. cbn [map].
  match goal with |- context [iter_loop ?a ?b ?c0 ?d ?e ?f] => replace (iter_loop a b c0 d e f) with (Ok ([c], false) : Base.res (list cell * bool)) by (symmetry; exact S1) end.
  cbn [bind fst snd map map2 combine]. rewrite X1. split.
  - intros q w ->. match type of H with hybrid1 ?a ?b ?c0 ?d ?e = _ => match goal with |- context [hybrid1 true ep1 20 ?x ?y] => replace (hybrid1 true ep1 20 x y) with (Ok ([q], w) : Base.res (list Model_Hybrid.xf * bool)) by (symmetry; exact H) end end.
    cbn [bind fst snd map map2 combine orb]. split; reflexivity.
  - intros e ->. match goal with |- context [hybrid1 true ep1 20 ?x ?y] => replace (hybrid1 true ep1 20 x y) with (Err e : Base.res (list Model_Hybrid.xf * bool)) by (symmetry; exact H) end. reflexivity.
Qed.
Lemma exL_sat T : 0 < T < 600 -> saturation exL T 900 9.
Proof. exact (ex_saturation T). Qed.
Lemma exL_sat_d T : 0 < T < 600 -> mp_dsl exL (Some T) = Some 900 /\ mp_dsv exL (Some T) = Some 9.
Proof. intro H. exact (sat_dens exL T 900 9 (exL_sat T H)). Qed.
Lemma exL_out T d : 0 < T -> 0 < d < 9 -> along_T_d exL (Some d) (in_p exL) (Fin T) = (Fin (461 * d * T + 0), Fin (461 * d)).
Proof.
  intros HT Hd. unfold along_T_d. cbn [fl_of].
  assert (E : tditer exL (Some d) (in_p exL) (Some T) = (Some (461 * T * d), Some (461 * d), Some (461 * T))).
  { pose proof (ex_p [(Some T, Some d)] T d HT) as P. unfold tditer.
    destruct (Rlt_dec T 600) as [L|L].
    2:{ destruct (sat_jet _ _ 1) as [[a1 a2] a3]. destruct (sat_jet _ _ 1) as [[b1 b2] b3]. unfold num. rewrite flt_false by (cbn; lra). exact P. }
    destruct (exL_sat T ltac:(lra)) as (W1 & W2 & S1 & S2 & E1 & E2).
    destruct (sat_jet1 _ _ W1 S1) as (lT & wl & ->). destruct (sat_jet1 _ _ W2 S2) as (gT & wg & ->). rewrite <- E1, <- E2.
    rewrite (fle_false 9 d) by lra. rewrite !andb_false_r. exact P. }
  rewrite E. cbn [xf_of]. f_equal. f_equal. ring.
Qed.
Lemma exL_along T d : 0 < d < 9 -> 0 < T -> pressure_along exL d T (461 * d * T).
Proof.
  intros Hd HT. left. split.
  - intros (L & dL & dV & SA & H). cbn in L. destruct (flat_sat T dL dV ltac:(lra) SA) as [-> ->]. lra.
  - unfold at_state, gives. replace (461 * d * T) with (461 * T * d) by ring. exact (f_equal (fun t : fl * fl * fl => fst (fst t)) (ex_P [(Some T, Some d)] T d HT)).
Qed.

Lemma exL_wf : mp_wf exL.
Proof. exact ex_wf. Qed.

(* 44 bar and the density of the ideal gas at 1100 K *)
Definition r1100 : R := 4400000 / (461 * 1100) / 18.
Lemma inst_pd : forall fuel, let d := r1100 * 18 in
  state_pair [] (kpd 44 r1100) 0 "p" 44 "d" r1100 /\ pressure_is exz 44 4400000 /\ in_range (mp_plim exL) 4400000 /\
  density_arg exL exz "d" r1100 d /\ 0 < d /\ mp_wf exL /\ boils_at exL exE 44 280 /\
  isochore_limits exL exE 44 4400000 d (1386/5) 1200 /\
  (forall T, 1386/5 <= T <= 1200 -> dome_at exL T /\ evaluable_around exL T d /\ pressure_along exL d T (461 * d * T)) /\
  bracketed (fun T => 461 * d * T) (1386/5) 1200 4400000 /\
  call_warns exL exE fuel [] (kpd 44 r1100) = Ok false /\
  mm_T exL exE fuel [] (kpd 44 r1100) = Ok ([Some 1100], [Some (-1)]).
Proof.
  intros fuel d.
  assert (Ed : 461 * d * 1100 = 4400000) by (unfold d, r1100; field).
  assert (Hd : 0 < d < 9) by lra.
  assert (KB : boils_at exL exE 44 280) by (apply kpd_boils; lra).
  destruct (kpd_args fuel 44 r1100 ltac:(lra)) as [A W].
  replace (100000 * 44) with 4400000 in A, W by ring. fold d in A, W.
  assert (PL : exists dsL dsV, plan_T exL (Some d) (Some 4400000) (Some 280) = {| tp_Ta := Some (1386/5); tp_Tb := Some 1200; tp_T := num 0; tp_sat := false; tp_dsL := dsL; tp_dsV := dsV |}).
  { destruct (exL_sat_d 280 ltac:(lra)) as [ML MV]. unfold plan_T, num. cbn [mp_pc exL]. rewrite fle_false by lra. rewrite ML, MV.
    rewrite (flt_false 900 d), (flt_true d 9), (fle_false 9 d) by lra. cbn [andb fmul lift2 fmax mp_Tlim exL fst snd].
    rewrite Rmax_left by lra. do 2 eexists. replace (99/100 * 280) with (1386/5) by lra. reflexivity. }
  destruct PL as (sL & sV & PL).
  assert (H : hybrid1 true ep1 20 (xf_of (e_oob exE)) [T_elem exL (Some d) (Some 4400000) (plan_T exL (Some d) (Some 4400000) (Some 280))] = Ok ([Fin 1100], false)).
  { rewrite PL. unfold T_elem. cbn [tp_Ta tp_Tb tp_T tp_sat negb]. apply (line_found _ (461 * d) 0 (1386/5) 1200 4400000); try reflexivity; try lra.
    - intros x Hx. cbn [e_fn]. apply exL_out; lra.
    - unfold ep1. lra. }
  destruct (kpd_run 4400000 d 280 _ ltac:(lra) ltac:(destruct (Rlt_dec 4400000 4015000); lra) H) as [R _].
  destruct (R _ _ eq_refl) as [R1 R2]. rewrite PL in R1. cbn [tp_sat fl_of] in R1.
  split; [apply kpd_pair|]. split; [unfold pressure_is; cbn; ring|]. split; [unfold in_range; cbn; lra|].
  split; [left; split; [reflexivity|exact (ex_dens r1100)]|]. split; [lra|]. split; [exact exL_wf|]. split; [exact KB|].
  split. { right. exists 280, 900, 9. split; [left; split; [cbn; lra|exact KB]|]. split; [apply exL_sat; lra|]. split; [lra|]. right.
    split; [lra|]. cbn [fst snd mp_Tlim exL]. rewrite Rmax_left by lra. split; lra. }
  split. { intros T HT. split; [exact (ex_dome T ltac:(lra))|]. split; [|apply exL_along; lra]. split; [now apply evaluable_nc|]. intros; split; now apply evaluable_nc. }
  split; [left; lra|]. split; [rewrite W; exact R2|].
  rewrite (mm_T_val exL exE fuel exz exLZ), A, R1. cbn [bind map single s_T s_x]. reflexivity.
Qed.

(* 165 bar and 10 kmol/m3: a mixture at 500 K *)
Lemma sat_run p d Ts : p < 22000000 -> Ts = (if Rlt_dec p 4015000 then (273 + 600) / 2 else (p - -11000000) / 55000) -> 0 < Ts < 600 -> 9 <= d <= 900 ->
  from_pd exL exE [(Some d, Some p)] = Ok [{| s_T := Some Ts; s_d1 := Some 900; s_d2 := Some 9; s_x := quality_of (Some d) (Some 900) (Some 9); s_sat := true |}] /\
  T_warns exL exE [(Some d, Some p)] = Ok false.
Proof.
  intros Hp HTs RT Hd.
  assert (PL : exists lo hi, plan_T exL (Some d) (Some p) (Some Ts) = {| tp_Ta := lo; tp_Tb := hi; tp_T := Some Ts; tp_sat := true; tp_dsL := Some 900; tp_dsV := Some 9 |}).
  { destruct (exL_sat_d Ts RT) as [ML MV]. unfold plan_T, num. cbn [mp_pc exL]. rewrite fle_false by lra. rewrite ML, MV.
    rewrite (flt_false 900 d), (flt_false d 9), !fle_true by lra. cbn [andb]. eauto. }
  destruct PL as (lo & hi & PL).
  assert (H : hybrid1 true ep1 20 (xf_of (e_oob exE)) [T_elem exL (Some d) (Some p) (plan_T exL (Some d) (Some p) (Some Ts))] = Ok ([Fin Ts], false)).
  { rewrite PL. reflexivity. }
  destruct (kpd_run p d Ts _ Hp HTs H) as [R _]. destruct (R _ _ eq_refl) as [R1 R2]. rewrite PL in R1. cbn [tp_sat fl_of tp_dsL tp_dsV] in R1. auto.
Qed.
Lemma inst_pd_sat : forall fuel,
  state_pair [] (kpd 165 10) 0 "p" 165 "d" 10 /\ pressure_is exz 165 16500000 /\ density_arg exL exz "d" 10 (10 * 18) /\
  boiling_point exL exE 165 16500000 500 /\ saturation exL 500 900 9 /\ 9 <= 10 * 18 <= 900 /\ evaluable exL 500 9 /\ at_state (mp_p exL) 500 9 (461 * 500 * 9) /\
  call_warns exL exE fuel [] (kpd 165 10) = Ok false /\
  mm_T exL exE fuel [] (kpd 165 10) = Ok ([Some 500], [Some (4 / 99)]).
Proof.
  intro fuel. destruct (kpd_args fuel 165 10 ltac:(lra)) as [A W]. replace (100000 * 165) with 16500000 in A, W by ring.
  destruct (sat_run 16500000 (10 * 18) 500 ltac:(lra) ltac:(destruct (Rlt_dec 16500000 4015000); lra) ltac:(lra) ltac:(lra)) as [R1 R2].
  split; [apply kpd_pair|]. split; [unfold pressure_is; cbn; ring|]. split; [left; split; [reflexivity|exact (ex_dens 10)]|].
  split; [left; split; [cbn; lra|apply kpd_boils; lra]|]. split; [apply exL_sat; lra|]. split; [lra|].
  split; [now apply evaluable_nc|]. split; [exact (f_equal (fun t : fl * fl * fl => fst (fst t)) (ex_P [(Some 500, Some 9)] 500 9 ltac:(lra)))|].
  split; [rewrite W; exact R2|].
  rewrite (mm_T_val exL exE fuel exz exLZ), A, R1. cbn [bind map s_T s_x].
  assert (Q : quality_of (Some (10 * 18)) (Some 900) (Some 9) = Some (4 / 99)).
  { unfold quality_of, num. rewrite !fdiv_ok by lra. unfold fsub. cbn [lift2]. rewrite fdiv_ok by lra. f_equal. field. }
  rewrite Q. reflexivity.
Qed.

(* 300 K and 10 bar, below the pressure of the triple point *)
Definition r300 : R := 1000000 / (461 * 300) / 18.
Lemma low_pressure : exists D E z fuel t q r, mp_sizes D E z /\ mp_wf D /\ 0 < mp_Tt D < mp_Tc D /\ kelvin_is E t 300 /\
  in_range (mp_Tlim D) 300 /\
  mm_p D E fuel [] [("T", [Some t]); ("d", [Some r])] = Ok ([Some q], [Some (-1)]) /\
  mm_d D E fuel [] [("T", [Some t]); ("d", [Some r])] = Ok ([Some r], [Some (-1)]) /\
  (exists p, pressure_is z q p /\ in_range (mp_plim D) p /\ p < mp_pt D) /\
  mm_T D E fuel [] [("p", [Some q]); ("d", [Some r])] = Err PMParamError.
Proof.
  set (d := r300 * 18). assert (Ed : 461 * d * 300 = 1000000) by (unfold d, r300; field).
  assert (Hd : 0 < d < 9) by lra.
  exists exL, exE, exz, 0%nat, 300, 10, r300. split; [exact exLZ|]. split; [exact exL_wf|]. split; [cbn; lra|]. split; [apply ex_K|].
  split; [unfold in_range; cbn; lra|].
  assert (PT : mp_argparse exL exE 0 [] [("T", [Some 300]); ("d", [Some r300])] = Ok [single (Some 300) (Some d)]).
  { pose proof (scalar_points exL exE 0 exz exLZ 300 r300 300 d (ex_K 300) (ex_dens r300) ltac:(unfold in_range; cbn; lra)) as Q. unfold kTd1 in Q. rewrite Q.
    unfold from_Td. destruct (exL_sat_d 300 ltac:(lra)) as [-> ->]. rewrite (flt_false 9 d) by lra. now rewrite !andb_false_r. }
  split. { rewrite (mm_p_val exL exE 0 exz exLZ), PT. cbn [bind map single s_T s_d2 s_x].
    pose proof (ex_P [(Some 300, Some d)] 300 d ltac:(lra)) as P.
    assert (V : value0 (mp_p exL [(Some 300, Some d)] (Some 300) (Some d) 0%nat) = Some (461 * 300 * d)) by exact (f_equal (fun t : fl * fl * fl => fst (fst t)) P).
    transitivity (Ok ([fmul (Some (/ z_kP exz)) (Some (461 * 300 * d))], [num (-1)])).
    - exact (f_equal (fun u => Ok ([fmul (Some (/ z_kP exz)) u], [num (-1)])) V).
    - cbn. do 4 f_equal. replace (461 * 300 * d) with 1000000 by lra. lra. }
  split. { rewrite (mm_d_val exL exE 0 _ _ _ _ _ _ exLZ), PT. cbn [bind map single mix_density s_sat s_d1 s_x fmul lift2]. unfold kgs. cbn [z_kV z_kM exz mp_mw exL]. replace (1 / (1 * 18) * d) with r300 by (unfold d; field). reflexivity. }
  split. { exists 1000000. split; [unfold pressure_is; cbn; ring|]. split; [unfold in_range; cbn; lra|cbn; lra]. }
  destruct (kpd_args 0 10 r300 ltac:(lra)) as [A _]. replace (100000 * 10) with 1000000 in A by ring. fold d in A.
  assert (PL : exists dsL dsV, plan_T exL (Some d) (Some 1000000) (Some ((273 + 600) / 2)) = {| tp_Ta := Some (99/100 * ((273 + 600) / 2)); tp_Tb := Some 1200; tp_T := num 0; tp_sat := false; tp_dsL := dsL; tp_dsV := dsV |}).
  { destruct (exL_sat_d ((273 + 600) / 2) ltac:(lra)) as [ML MV]. unfold plan_T, num. cbn [mp_pc exL]. rewrite fle_false by lra. rewrite ML, MV.
    rewrite (flt_false 900 d), (flt_true d 9), (fle_false 9 d) by lra. cbn [andb fmul lift2 fmax mp_Tlim exL fst snd].
    rewrite Rmax_left by lra. do 2 eexists. reflexivity. }
  destruct PL as (sL & sV & PL).
  assert (H : hybrid1 true ep1 20 (xf_of (e_oob exE)) [T_elem exL (Some d) (Some 1000000) (plan_T exL (Some d) (Some 1000000) (Some ((273 + 600) / 2)))] = Err PMParamError).
  { rewrite PL. unfold hybrid1, T_elem. cbn [existsb forallb e_sel tp_sat negb orb andb].
    assert (NB : not_bracketed {| e_fn := along_T_d exL (Some d) (in_p exL); e_y := xf_of (Some 1000000); e_x := xf_of (num 0); e_sel := true;
       e_min := xf_of (Some (99/100 * ((273 + 600) / 2))); e_max := xf_of (Some 1200) |} = true).
    { match goal with |- not_bracketed ?e = true => destruct (not_bracketed e) eqn:Q; [reflexivity|] end. exfalso.
      assert (PR : problem {| e_fn := along_T_d exL (Some d) (in_p exL); e_y := xf_of (Some 1000000); e_x := xf_of (num 0); e_sel := true;
        e_min := xf_of (Some (99/100 * ((273 + 600) / 2))); e_max := xf_of (Some 1200) |} (fun T => 461 * d * T + 0) (99/100 * ((273 + 600) / 2)) 1200 1000000).
      { constructor; cbn [e_min e_max e_y e_fn]; try reflexivity; [lra| | |].
        - intros T RT. exists (Fin (461 * d)). split; [apply exL_out; lra|discriminate].
        - intros [X _]. lra.
        - intros [X _]. lra. }
      apply (bracket_iff _ _ _ _ _ PR) in Q. unfold bracketed in Q. lra. }
    cbn [tp_Ta tp_Tb tp_T]. rewrite NB. reflexivity. }
  destruct (kpd_run 1000000 d ((273 + 600) / 2) _ ltac:(lra) ltac:(destruct (Rlt_dec 1000000 4015000); lra) H) as [_ R].
  rewrite (mm_T_val exL exE 0 exz exLZ). unfold kpd in A. rewrite A, (R _ eq_refl). reflexivity.
Qed.
Lemma low_mixture : exists D E z fuel q p r d t T x, mp_sizes D E z /\ mp_wf D /\ 0 < mp_Tt D < mp_Tc D /\
  pressure_is z q p /\ in_range (mp_plim D) p /\ density_is D z r d /\
  call_warns D E fuel [] [("p", [Some q]); ("d", [Some r])] = Ok false /\
  mm_T D E fuel [] [("p", [Some q]); ("d", [Some r])] = Ok ([Some t], [Some x]) /\ kelvin_is E t T /\ 0 < x < 1 /\
  10 * p < vapor_pressure D T.
Proof.
  exists exL, exE, exz, 0%nat, 10, 1000000, 10, (10 * 18), ((273 + 600) / 2), ((273 + 600) / 2), (4 / 99).
  split; [exact exLZ|]. split; [exact exL_wf|]. split; [cbn; lra|]. split; [unfold pressure_is; cbn; ring|]. split; [unfold in_range; cbn; lra|].
  split; [exact (ex_dens 10)|].
  destruct (kpd_args 0 10 10 ltac:(lra)) as [A W]. replace (100000 * 10) with 1000000 in A, W by ring. unfold kpd in A, W.
  destruct (sat_run 1000000 (10 * 18) ((273 + 600) / 2) ltac:(lra) ltac:(destruct (Rlt_dec 1000000 4015000); lra) ltac:(lra) ltac:(lra)) as [R1 R2].
  split; [rewrite W; exact R2|]. split; [|split; [apply ex_K|]].
  - rewrite (mm_T_val exL exE 0 exz exLZ), A, R1. cbn [bind map s_T s_x].
    assert (Q : quality_of (Some (10 * 18)) (Some 900) (Some 9) = Some (4 / 99)).
    { unfold quality_of, num. rewrite !fdiv_ok by lra. unfold fsub. cbn [lift2]. rewrite fdiv_ok by lra. f_equal. field. }
    rewrite Q. reflexivity.
  - rewrite exL_p. lra.
Qed.

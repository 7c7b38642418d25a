(* Instances of C79 and C81. *)
From Coq Require Import Reals ZArith List String Bool Lia Lra.
From Verif Require Import Base Model_Num Model_Igas Spec_Igas Proof_Igas Model_Hybrid Model_Mp1Calls Model_Mp1Warn Spec_Mp1 Spec_Mp1Calls Spec_Mp1Inv
  Proof_Mp1Units Proof_Mp1Calls Proof_Mp1Mix Proof_Mp1SatApi Proof_Mp1Hsd Proof_Mp1CallsEx Proof_Mp1CvEx Proof_Mp1Alone Proof_Mp1Inv.
From Verif Require Proof_Mp1Ex.
Import ListNotations.
Local Open Scope R_scope.
Local Open Scope string_scope.
Local Open Scope list_scope.

Lemma xlt_refl a : xlt (Fin a) (Fin a) = false.
Proof. cbn. destruct (Rlt_dec a a); [lra|reflexivity]. Qed.
Lemma xlt_no a b : b <= a -> xlt (Fin a) (Fin b) = false.
Proof. intro. cbn. destruct (Rlt_dec a b); [lra|reflexivity]. Qed.
Lemma xdiv_fin a b : b <> 0 -> xdiv (Fin a) (Fin b) = Fin (a / b).
Proof. intro. unfold xdiv. destruct (Req_EM_T b 0); [contradiction|reflexivity]. Qed.

(* on a line one step of the search reaches the root *)
Lemma line_found e m c lo hi y r N ep oob : e_min e = Fin lo -> e_max e = Fin hi -> e_y e = Fin y -> e_sel e = true ->
  (forall x, lo <= x <= hi -> e_fn e (Fin x) = (Fin (m * x + c), Fin m)) -> m <> 0 -> m * r + c = y -> lo < r < hi -> r <> 0 -> y <> 0 -> 0 < ep ->
  hybrid1 true ep N oob [e] = Ok ([Fin r], false).
Proof.
  intros E1 E2 E3 E4 HF Hm Hr Hb Hr0 Hy0 Hep.
  assert (HS : exists sw, hstart e = (sw, false, {| h_a := Fin r; h_b := Fin r; h_c := xhalf (xadd (Fin lo) (Fin hi)); h_min := Fin lo; h_max := Fin hi; h_x := e_x e; h_sel := true |})).
  { unfold hstart. rewrite E1, E2, E3, !HF by lra. cbn [xle xsub]. 
    assert (X : xorb (if Rle_dec y (m * lo + c) then true else false) (if Rle_dec y (m * hi + c) then true else false) = true).
    { destruct (Rlt_dec 0 m).
      - assert (m * lo < m * r) by (apply Rmult_lt_compat_l; lra). assert (m * r < m * hi) by (apply Rmult_lt_compat_l; lra).
        destruct (Rle_dec y (m * lo + c)); [lra|]. destruct (Rle_dec y (m * hi + c)); [reflexivity|lra].
      - assert (m * r < m * lo) by (apply Rmult_lt_gt_compat_neg_l; lra). assert (m * hi < m * r) by (apply Rmult_lt_gt_compat_neg_l; lra).
        destruct (Rle_dec y (m * lo + c)); [|lra]. destruct (Rle_dec y (m * hi + c)); [lra|reflexivity]. }
    rewrite X. eexists. unfold xsub. cbn [xneg xadd]. rewrite !xdiv_fin by lra. cbn [xadd xorb negb].
    replace (lo + (y + - (m * lo + c)) / m) with r by (rewrite <- Hr; field; lra).
    replace (hi + (y + - (m * hi + c)) / m) with r by (rewrite <- Hr; field; lra). reflexivity. }
  destruct HS as (sw & HS).
  assert (NB : not_bracketed e = false) by (unfold not_bracketed; rewrite HS; reflexivity).
  assert (SV : h_x (solve_elem true ep N e) = Fin r /\ h_sel (solve_elem true ep N e) = false).
  { unfold solve_elem. rewrite HS. cbn [fst snd]. cbn [hloop h_sel].
    assert (NG : next_guess true {| h_a := Fin r; h_b := Fin r; h_c := xhalf (xadd (Fin lo) (Fin hi)); h_min := Fin lo; h_max := Fin hi; h_x := e_x e; h_sel := true |} = Fin r).
    { unfold next_guess. cbn [h_a h_b h_c h_min h_max h_x]. rewrite xlt_refl, !(xlt_no r lo), !(xlt_no hi r) by lra. cbn [orb].
      cbn [xadd xhalf xlt]. set (q := 1 / 2 * (lo + hi)).
      destruct (Rlt_dec r q), (Rlt_dec q r); cbn [Bool.eqb]; try reflexivity; try lra.
      assert (q = r) as -> by lra. reflexivity. }
    assert (ST : forall s, h_sel (hstep true ep (e_fn e) (Fin y) sw s) = true -> next_guess true s = Fin r -> False).
    { intros s H G. unfold hstep in H. rewrite G, HF in H by lra. cbn [h_sel] in H. apply andb_prop in H. destruct H as [_ H].
      rewrite Hr in H. unfold xsub in H. cbn [xneg xadd] in H. rewrite xdiv_fin in H by exact Hy0. cbn [xabs] in H.
      replace ((y + - y) / y) with 0 in H by (field; exact Hy0). rewrite Rabs_R0 in H. rewrite xlt_no in H by lra. discriminate. }
    rewrite E3. set (s0 := {| h_a := _; h_b := _; h_c := _; h_min := _; h_max := _; h_x := _; h_sel := _ |}) in *.
    assert (Q : h_sel (hstep true ep (e_fn e) (Fin y) sw s0) = false).
    { destruct (h_sel _) eqn:K; [|reflexivity]. exfalso. exact (ST s0 K NG). }
    assert (X : h_x (hstep true ep (e_fn e) (Fin y) sw s0) = Fin r).
    { unfold hstep. rewrite NG, HF by lra. reflexivity. }
    destruct N; cbn [hloop]; [|rewrite Q]; auto. }
  unfold hybrid1. cbn [existsb forallb map]. rewrite E4, NB. cbn [negb orb andb]. rewrite (proj1 SV), (proj2 SV). reflexivity.
Qed.

Lemma ex_P all T d : 0 < T -> mp_p exP all (Some T) (Some d) 0 = (Some (461 * T * d), Some 0, Some 0).
Proof.
  intros HT. unfold mp_p. rewrite (proj2 (ex_red T d HT)). change (0 + 1)%nat with 1%nat. rewrite ex_ar0. cbn. apply jet3; field; lra.
Qed.
Lemma ex_pressure q : pressure_is exz q (q * 100000).
Proof. unfold pressure_is. cbn. field. Qed.

(* 700 K and 1 bar *)
Definition kTp : list (string * arr) := [("T", [Some 700]); ("p", [Some 1])].
Lemma ex_limits : density_limits exP 700 (1 * 100000) (1/10 * (1 * 100000) / (461 * 700)) 1000.
Proof. left. cbn. split; [lra|]. split; reflexivity. Qed.
Lemma inst_C79 : forall fuel,
  state_pair [] kTp 0 "T" 700 "p" 1 /\ kelvin_is exE 700 700 /\ pressure_is exz 1 (1 * 100000) /\
  in_range (mp_Tlim exP) 700 /\ in_range (mp_plim exP) (1 * 100000) /\ mp_wf exP /\
  (forall d, 0 < d -> evaluable exP 700 d /\ at_state (mp_p exP) 700 d (461 * 700 * d)) /\
  density_limits exP 700 (1 * 100000) (1/10 * (1 * 100000) / (461 * 700)) 1000 /\
  call_warns exP exE fuel [] kTp = Ok false /\
  exists r, mm_d exP exE fuel [] kTp = Ok ([Some r], [Some (-1)]) /\ density_is exP exz r (1 * 100000 / (461 * 700)).
Proof.
  intro fuel.
  assert (S : state_pair [] kTp 0 "T" 700 "p" 1) by (apply pair_scalar; [discriminate|apply acc_Tp]).
  assert (K : kelvin_is exE 700 700) by apply ex_K. assert (Kp := ex_pressure 1).
  assert (R1 : in_range (mp_Tlim exP) 700) by (unfold in_range; cbn; lra).
  assert (R2 : in_range (mp_plim exP) (1 * 100000)) by (unfold in_range; cbn; lra).
  destruct (argparse_Tp1 exP exE fuel exz exZ 700 700 1 (1 * 100000) K Kp R1 R2) as [A W].
  assert (GP : forall d, 0 < d -> evaluable exP 700 d /\ at_state (mp_p exP) 700 d (461 * 700 * d)).
  { intros d _. split; [now apply evaluable_nc|]. unfold at_state, gives. rewrite ex_P by lra. reflexivity. }
  set (lo := 1/10 * (1 * 100000) / (461 * 700)).
  assert (Hlo : 0 < lo < 1) by (unfold lo; lra).
  assert (DL : d_lower exP fuel (Some 700) (Some (1 * 100000)) (Some lo) = Ok (Some lo)).
  { destruct fuel; cbn [d_lower]; unfold in_p, alone; rewrite ex_P by lra; cbn [value0 fst]; rewrite flt_false by (unfold lo; lra); reflexivity. }
  set (e := fun v => {| e_fn := along_d (in_p exP) (Some 700); e_y := Fin (1 * 100000); e_x := xf_of v; e_sel := true; e_min := Fin lo; e_max := Fin 1000 |}).
  assert (F : forall v, d_elem exP fuel (true, Some 700, Some (1 * 100000), v) = Ok (e v)).
  { intro v. unfold d_elem. rewrite (limits_val exP ex_wf 700 (1 * 100000) lo 1000 ltac:(lra) ex_limits), DL. reflexivity. }
  assert (H : forall v, hybrid1 true ep1 50 (xf_of (e_oob exE)) [e v] = Ok ([Fin (1 * 100000 / (461 * 700))], false)).
  { intro v. apply (line_found (e v) (461 * 700) 0 lo 1000 (1 * 100000)); try reflexivity; try lra.
    - intros x Hx. unfold e. cbn [e_fn]. unfold along_d, in_p, alone. cbn [fl_of]. rewrite ex_p by lra. cbn [xf_of]. rewrite Rplus_0_r. reflexivity.
    - unfold lo. lra.
    - unfold ep1. lra. }
  split; [exact S|]. split; [exact K|]. split; [exact Kp|]. split; [exact R1|]. split; [exact R2|]. split; [exact ex_wf|].
  split; [exact GP|]. split; [exact ex_limits|]. split.
  - unfold kTp. rewrite W. unfold d_warns. cbn [traverse]. rewrite F. cbn [bind]. rewrite H. reflexivity.
  - exists (1 / kgs exP 1 * (1 * 100000 / (461 * 700))). split.
    + unfold kTp. rewrite (mm_d_val exP exE fuel _ _ _ _ _ _ exZ), A. unfold from_Tpx. cbn [map]. unfold num. rewrite flt_true by lra.
      unfold mp_d. cbn [traverse]. rewrite F. cbn [bind]. rewrite H. cbn [bind fst map map2 combine fl_of snd]. rewrite flt_true by lra. reflexivity.
    + unfold density_is. cbn. unfold kgs. cbn. field.
Qed.

(* data with a critical point term: at 700 K it has a value at every density *)
Lemma inst_critical : let D := Proof_Mp1Ex.ex_data 600 (Some [Proof_Mp1Ex.ex_row]) in
  mp_wf D /\ ar_coef2 (mp_AR D) <> None /\ (forall d, 0 < d -> evaluable D 700 d) /\
  exists P, forall d, 0 < d -> at_state (mp_p D) 700 d (P d).
Proof.
  intro D. assert (W : mp_wf D) by (apply Proof_Mp1Ex.ex_wf; lra).
  assert (EV : forall d, 0 < d -> evaluable D 700 d).
  { intros d Hd. apply evaluable_off; [exact W|lra|exact Hd| |left; cbn; lra].
    intros l H. injection H as <-. constructor; [|constructor]. split; [exact Proof_Mp1Ex.ex_row_wf|cbn; lra]. }
  split; [exact W|]. split; [discriminate|]. split; [exact EV|].
  exists (fun d => match fst (fst (mp_p D [(Some 700, Some d)] (Some 700) (Some d) 0%nat)) with Some v => v | None => 0 end).
  intros d Hd. destruct (regular_p D W 700 d ltac:(lra) Hd (EV d Hd)) as (v & vT & vd & H).
  pose proof (proj1 (H _ (fits_one D 700 d))) as P0. unfold value0 in P0. unfold at_state, gives. now rewrite P0.
Qed.

(* A concrete substance for the instances of C48-C50 and C70-C75: an ideal gas with constant heat
   capacity (a = ln d + 3/2 ln t) and constant saturation densities 900 and 9 kg/m3. *)
From Coq Require Import Reals ZArith List String Bool Lia Lra.
From Verif Require Import Base Model_Num Model_Units Model_Defaults Model_Igas Spec_Units Proof_Units Spec_Igas Proof_Igas
  Proof_IgasUnits Proof_IgasArgs Proof_IgasCalls Proof_IgasArr Proof_IgasAcc Proof_IgasEx.
From Verif Require Import Model_Mp1Calls Spec_Mp1 Spec_Mp1Calls Proof_Mp1Units Proof_Mp1Poly Proof_Mp1Sat Proof_Mp1Args Proof_Mp1Calls
  Proof_Mp1Mix Proof_Mp1SatApi Proof_Mp1Acc Proof_Mp1Hsd.
Import ListNotations.
Local Open Scope R_scope.
Local Open Scope string_scope.
Local Open Scope list_scope.

Definition flat (v : R) : satgroup := {| sg_Tscale := 600; sg_scale := v; sg_fn := 2%Z; sg_coef := [] |}.
Definition exP : mpdata :=
  {| mp_R := 461; mp_mw := 18;
     mp_AO := {| ao_Tscale := 600; ao_dscale := 300; ao_logt := Some (3/2); ao_tlogt := None; ao_coef0 := None; ao_coef1 := None |};
     mp_AR := {| ar_Tscale := 600; ar_dscale := 300; ar_first := []; ar_rest := []; ar_coef1 := None; ar_coef2 := None |};
     mp_PS := flat 1000000; mp_DSL := flat 900; mp_DSV := flat 9;
     mp_Tc := 600; mp_pc := 22000000; mp_dc := 300; mp_Tt := 273; mp_pt := 600;
     mp_Tlim := (273, 1200); mp_plim := (0, 100000000); mp_dlim := (0, 1000) |}.
Definition exE : env := session "bar" 1 "bar".
Definition exz : sizes := {| z_T := "K"; z_kT := 9/5; z_kP := 10^5; z_kV := 1; z_kE := 1000; z_kM := 1 |}.

Lemma exZ : mp_sizes exP exE exz.
Proof.
  constructor; cbn; try reflexivity; try lra; eauto using default_positive.
  all: try (eexists; split; reflexivity). all: auto.
Qed.
Lemma ex_defaults : defaults_known exE.
Proof. split; [cbn; auto|]. eexists. reflexivity. Qed.

Lemma flat_sat T v w : 0 < T < 600 -> saturation exP T v w -> v = 900 /\ w = 9.
Proof. intros _ (_ & _ & _ & _ & -> & ->). unfold sat_value. cbn. rewrite exp_0. lra. Qed.
Lemma ex_saturation T : 0 < T < 600 -> saturation exP T 900 9.
Proof.
  intro H. unfold saturation, sat_wf, sat_smooth, sat_value. cbn. rewrite exp_0.
  repeat split; try constructor; try lra; try lia; auto; right; lra.
Qed.

Lemma ex_ar0 all T d n : ar_at exP all T d n = (num 0, num 0, num 0, num 0, num 0, num 0).
Proof. reflexivity. Qed.
Lemma ex_red T d : 0 < T -> red_ao exP (Some T) (Some d) = (Some (600 / T), Some (d / 300)) /\
  red_ar exP (Some T) (Some d) = (Some (600 / T), Some (d / 300)).
Proof.
  intro H. unfold red_ao, red_ar. cbn [ao_Tscale ao_dscale ar_Tscale ar_dscale mp_AO mp_AR exP].
  unfold num. rewrite !fdiv_ok by lra. auto.
Qed.
Lemma jet6 (a a' b b' c c' d d' e e' f f' : R) : a = a' -> b = b' -> c = c' -> d = d' -> e = e' -> f = f' ->
  (Some a, Some b, Some c, Some d, Some e, Some f) = (Some a', Some b', Some c', Some d', Some e', Some f').
Proof. intros -> -> -> -> -> ->. reflexivity. Qed.
Lemma jet3 (a a' b b' c c' : R) : a = a' -> b = b' -> c = c' -> (Some a, Some b, Some c) = (Some a', Some b', Some c').
Proof. intros -> -> ->. reflexivity. Qed.
Lemma ex_ao1 T d : 0 < T -> 0 < d ->
  ao_at exP (Some T) (Some d) 1 = (Some (ln (d / 300) + 3/2 * ln (600 / T)), Some (3/2 / (600 / T)), Some (1 / (d / 300)), Some 0, Some 0, Some 0).
Proof.
  intros HT Hd. assert (0 < 600 / T) by (apply Rdiv_lt_0_compat; lra). assert (0 < d / 300) by lra.
  unfold ao_at. rewrite (proj1 (ex_red T d HT)). cbn [fst snd]. unfold ao, ao_tau.
  cbn [ao_logt ao_tlogt ao_coef0 ao_coef1 mp_AO exP]. unfold num. rewrite !fdiv_ok by lra.
  unfold flog. destruct (Rlt_dec 0 (600 / T)); [|lra]. destruct (Rlt_dec 0 (d / 300)); [|lra].
  change (diff1 1) with true. change (diff2 1) with false. unfold add1. change (diff1 1) with true. change (diff2 1) with false.
  cbn [fneg lift1 fmul lift2 fadd]. apply jet6; ring.
Qed.
Lemma ex_ao2 T d : 0 < T -> 0 < d ->
  ao_at exP (Some T) (Some d) 2 = (Some (ln (d / 300) + 3/2 * ln (600 / T)), Some (3/2 / (600 / T)), Some (1 / (d / 300)),
    Some (- (3/2 / (600 / T)) / (600 / T)), Some 0, Some (- (1 / (d / 300)) / (d / 300))).
Proof.
  intros HT Hd. assert (0 < 600 / T) by (apply Rdiv_lt_0_compat; lra). assert (0 < d / 300) by lra.
  unfold ao_at. rewrite (proj1 (ex_red T d HT)). cbn [fst snd]. unfold ao, ao_tau.
  cbn [ao_logt ao_tlogt ao_coef0 ao_coef1 mp_AO exP]. unfold num. rewrite !fdiv_ok by lra.
  unfold flog. destruct (Rlt_dec 0 (600 / T)); [|lra]. destruct (Rlt_dec 0 (d / 300)); [|lra].
  change (diff1 2) with true. change (diff2 2) with true. unfold add1. change (diff1 2) with true. change (diff2 2) with true.
  cbn [fneg lift1 fmul lift2 fadd]. rewrite !fdiv_ok by lra. cbn [fneg lift1 fmul lift2 fadd]. apply jet6; ring.
Qed.
Lemma ex_h all T d : 0 < T -> 0 < d -> value0 (mp_h exP all (Some T) (Some d) 0) = Some (2305/2 * T).
Proof.
  intros HT Hd. assert (0 < 600 / T) by (apply Rdiv_lt_0_compat; lra).
  unfold mp_h, value0. rewrite (proj1 (ex_red T d HT)), (proj2 (ex_red T d HT)).
  change (0 + 1)%nat with 1%nat. rewrite (ex_ao1 _ _ HT Hd), ex_ar0. cbn. f_equal. field. lra.
Qed.
Lemma ex_e all T d : 0 < T -> 0 < d -> value0 (mp_e exP all (Some T) (Some d) 0) = Some (1383/2 * T).
Proof.
  intros HT Hd. assert (0 < 600 / T) by (apply Rdiv_lt_0_compat; lra).
  unfold mp_e, value0. rewrite (proj1 (ex_red T d HT)), (proj2 (ex_red T d HT)).
  change (0 + 1)%nat with 1%nat. rewrite (ex_ao1 _ _ HT Hd), ex_ar0. cbn. f_equal. field. lra.
Qed.
Lemma ex_s all T d : 0 < T -> 0 < d ->
  value0 (mp_s exP all (Some T) (Some d) 0) = Some (461 * (3/2 - ln (d / 300) - 3/2 * ln (600 / T))).
Proof.
  intros HT Hd. assert (0 < 600 / T) by (apply Rdiv_lt_0_compat; lra).
  unfold mp_s, value0. rewrite (proj1 (ex_red T d HT)), (proj2 (ex_red T d HT)).
  change (0 + 1)%nat with 1%nat. rewrite (ex_ao1 _ _ HT Hd), ex_ar0. cbn. f_equal. field. lra.
Qed.
Lemma ex_p all T d : 0 < T -> mp_p exP all (Some T) (Some d) 1 = (Some (461 * T * d), Some (461 * d), Some (461 * T)).
Proof.
  intros HT. unfold mp_p. rewrite (proj2 (ex_red T d HT)).
  change (1 + 1)%nat with 2%nat. rewrite ex_ar0. cbn. apply jet3; field; lra.
Qed.

(* ---- instances ---- *)
Definition kTd := [("T", [Some 500]); ("d", [Some 10; Some 60])].
Definition kTx (q : R) := [("T", [Some 500]); ("x", [Some q])].
Lemma ex_acc_Td : mp_acceptable [] kTd.
Proof.
  unfold mp_acceptable. cbn. split; [lia|]. split; [repeat constructor; cbn; intuition discriminate|].
  split; [intros n [<-|[<-|[]]]; auto 8|]. split; [left; lia|]. repeat split; intuition discriminate.
Qed.
Lemma ex_acc_Tx q : mp_acceptable [] (kTx q).
Proof.
  unfold mp_acceptable. cbn. split; [lia|]. split; [repeat constructor; cbn; intuition discriminate|].
  split; [intros n [<-|[<-|[]]]; auto 8|]. split; [left; lia|]. repeat split; intuition discriminate.
Qed.
Lemma ex_nodup_Td : NoDup (map fst kTd).
Proof. repeat constructor; cbn; intuition discriminate. Qed.
Lemma ex_nodup_Tx q : NoDup (map fst (kTx q)).
Proof. repeat constructor; cbn; intuition discriminate. Qed.
Lemma ex_K T : kelvin_is exE T T.
Proof. unfold kelvin_is. apply (tscale_K _ _ _ _ _ _ _ _ exZ). reflexivity. Qed.
Lemma ex_state_Td i d : nth_error [Some 10; Some 60] i = Some (Some d) -> state_Td exP exE exz [] kTd i 500 (d * 18).
Proof.
  intro H. split; [exact ex_nodup_Td|]. split; [exact ex_acc_Td|]. split; [|split].
  - split; [exists 2%nat; cbn; intros k a [Q|[Q|[]]]; injection Q as <- <-; cbn; auto|].
    exists "d", [Some 10; Some 60]. split; [cbn; auto|]. apply nth_error_Some. intro Q. assert (Some (Some d) = None) by (rewrite <- H; exact Q). discriminate.
  - exists 500. split; [|apply ex_K]. exists [Some 500]. split; [cbn; auto|]. destruct i as [|[|i]]; reflexivity.
  - left. exists d. split; [|unfold density_is; cbn; field].
    exists [Some 10; Some 60]. split; [cbn; auto|]. exact H.
Qed.
Lemma ex_state_Tx q : state_Tx exE [] (kTx q) 0 500 q.
Proof.
  split; [apply ex_nodup_Tx|]. split; [apply ex_acc_Tx|]. split; [|split; [|split]].
  - split; [exists 1%nat; cbn; intros k a [Q|[Q|[]]]; injection Q as <- <-; cbn; auto|].
    exists "T", [Some 500]. split; [cbn; auto|]. cbn. lia.
  - cbn. intuition discriminate.
  - exists 500. split; [|apply ex_K]. exists [Some 500]. split; [cbn; auto|reflexivity].
  - exists [Some q]. split; [cbn; auto|reflexivity].
Qed.

Definition exs (d : R) : R := 461 * (3/2 - ln (d / 300) - 3/2 * ln (600 / 500)).
Lemma ex_sat_d : mp_dsl exP (Some 500) = Some 900 /\ mp_dsv exP (Some 500) = Some 9.
Proof.
  destruct (ex_saturation 500 ltac:(lra)) as (W1 & W2 & S1 & S2 & V1 & V2). unfold mp_dsl, mp_dsv.
  rewrite !sat_curve_value by assumption. rewrite <- V1, <- V2. auto.
Qed.
Lemma ex_gT : Proof_Mp1Units.gT "K" [Some 500] = [Some 500].
Proof. unfold Proof_Mp1Units.gT. cbn. do 2 f_equal. Qed.
Lemma ex_points q : 0 <= q <= 1 -> mp_argparse exP exE 0 [] (kTx q) =
  Ok [{| s_T := Some 500; s_d1 := Some 900; s_d2 := Some 9; s_x := Some q; s_sat := true |}].
Proof.
  intro Hq. unfold kTx. rewrite (argparse_sat exP exE 0 exz exZ) by (cbn; try discriminate; try lra;
    intros T [H|[]]; injection H as <-; cbn; lra).
  cbn [z_T exz]. rewrite ex_gT. cbn [map]. unfold sat_point. rewrite (proj1 ex_sat_d), (proj2 ex_sat_d). reflexivity.
Qed.
Lemma ex_s_Tx q : 0 <= q <= 1 ->
  mm_s exP exE 0 [] (kTx q) = Ok ([Some (18 / 1000 * ((1 - q) * exs 900 + q * exs 9))], [Some q]).
Proof.
  intro Hq. rewrite (mm_s_val exP exE 0 exz exZ), ex_points by assumption. cbn [bind map]. unfold mixed_at. cbn [s_sat s_T s_d1 s_d2 s_x].
  rewrite !ex_s by lra. unfold exs, kgs. cbn [s_x]. cbn [fmul lift2 fsub fadd num]. do 3 f_equal. f_equal. cbn. field.
Qed.

Lemma inst_C48 :
  state_Td exP exE exz [] kTd 0 500 180 /\ state_Td exP exE exz [] kTd 1 500 1080 /\
  in_range (mp_Tlim exP) 500 /\ 500 < mp_Tc exP /\ saturation exP 500 900 9 /\ ar_coef2 (mp_AR exP) = None /\
  fst (mp_Tlim exP) <= mp_Tt exP /\ mp_Tc exP <= snd (mp_Tlim exP) /\
  (forall q, state_Tx exE [] (kTx q) 0 500 q) /\
  mm_s exP exE 0 [] (kTx (1/4)) = Ok ([Some (18 / 1000 * (3/4 * exs 900 + 1/4 * exs 9))], [Some (1/4)]) /\
  (exists y, mm_ss exP exE (Some [Some 500]) None = Ok y).
Proof.
  split; [replace 180 with (10 * 18) by lra; apply (ex_state_Td 0); reflexivity|].
  split; [replace 1080 with (60 * 18) by lra; apply (ex_state_Td 1); reflexivity|].
  split; [unfold in_range; cbn; lra|]. split; [cbn; lra|]. split; [apply ex_saturation; lra|]. split; [reflexivity|].
  split; [cbn; lra|]. split; [cbn; lra|]. split; [exact ex_state_Tx|]. split.
  - rewrite ex_s_Tx by lra. replace (1 - 1/4) with (3/4) by lra. reflexivity.
  - destruct (pair_val exP exE 0 exz exZ (mm_s exP exE 0) (mm_ss exP exE)) as (F & c & _ & _ & V); [cbn; auto|].
    rewrite V. unfold sat_argparse. cbn [bind]. rewrite (atscale_to _ _ _ _ _ _ _ _ exZ). cbn [bind].
    fold (Proof_Mp1Units.gT (z_T exz) [Some 500]). cbn [z_T exz]. rewrite ex_gT.
    assert (outside_sat (mp_Tt exP) (mp_Tc exP) [Some 500] = false) as ->.
    { unfold outside_sat. cbn. destruct (Rlt_dec 500 273); [lra|]. destruct (Rlt_dec 600 500); [lra|]. reflexivity. }
    cbn [bind]. eauto.
Qed.

Definition kbad : list (string * arr) := [("T", [Some 2000; Some 100]); ("d", [Some 10])].
Lemma ex_acc_bad : mp_acceptable [] kbad.
Proof.
  unfold mp_acceptable. cbn. split; [lia|]. split; [repeat constructor; cbn; intuition discriminate|].
  split; [intros n [<-|[<-|[]]]; auto 8|]. split; [left; lia|]. repeat split; intuition discriminate.
Qed.
Lemma ex_range_bad : out_of_range exP exE exz kbad.
Proof.
  left. exists [Some 2000; Some 100]. split; [cbn; auto|]. intros x [<-|[<-|[]]].
  - exists 2000, 2000. split; [reflexivity|]. split; [apply ex_K|]. unfold in_range. cbn. lra.
  - exists 100, 100. split; [reflexivity|]. split; [apply ex_K|]. unfold in_range. cbn. lra.
Qed.
Lemma ex_range_ok : ~ out_of_range exP exE exz kTd.
Proof.
  intros [(a & Ha & H)|[(a & Ha & H)|[(a & r & Ha & H)|(H & _)]]].
  - cbn in Ha. destruct Ha as [Q|[Q|[]]]; [|discriminate]. injection Q as <-.
    destruct (H (Some 500) (or_introl eq_refl)) as (r & K & Q & HK & N). injection Q as <-.
    apply (tscale_K _ _ _ _ _ _ _ _ exZ) in HK. subst. apply N. unfold in_range. cbn. lra.
  - cbn in Ha. intuition discriminate.
  - cbn in Ha. intuition discriminate.
  - cbn in H. intuition discriminate.
Qed.
Lemma inst_C49 :
  defaults_known exE /\ e_oob exE = None /\
  ~ mp_acceptable [] [("h", [Some 2]); ("s", [Some 3])] /\ ~ mp_acceptable [] [("d", [Some 2]); ("x", [Some 0])] /\
  mp_acceptable [] kbad /\ call_args exE [] kbad kbad /\ compatible kbad /\ (forall n a, In (n, a) kbad -> a <> []) /\
  out_of_range exP exE exz kbad /\ mm_h exP exE 0 [] kbad = Err PMParamError /\
  mp_acceptable [] kTd /\ call_args exE [] kTd kTd /\ direct kTd /\ compatible kTd /\ ~ out_of_range exP exE exz kTd /\
  call_args exE [[Some 500]] [] [("T", [Some 500]); ("p", [Some 1])].
Proof.
  assert (C : compatible kbad). { exists 2%nat. cbn. intros k a [Q|[Q|[]]]; injection Q as <- <-; cbn; auto. }
  assert (Ne : forall n a, In (n, a) kbad -> a <> []). { intros n a [Q|[Q|[]]]; injection Q as <- <-; discriminate. }
  assert (Nd : NoDup (map fst kbad)) by (repeat constructor; cbn; intuition discriminate).
  split; [exact ex_defaults|]. split; [reflexivity|].
  split; [intros (_ & _ & _ & _ & _ & _ & H & _); apply H; cbn; auto|].
  split. { intros (_ & _ & _ & _ & _ & _ & _ & _ & H). specialize (H ltac:(cbn; auto) "d" ltac:(cbn; auto)). cbn in H. intuition discriminate. }
  split; [exact ex_acc_bad|]. split; [reflexivity|]. split; [exact C|]. split; [exact Ne|]. split; [exact ex_range_bad|].
  split. { apply (range_rejected exP exE 0 exz exZ _ [] kbad kbad); auto using ex_acc_bad, ex_range_bad; [cbn; auto 8|reflexivity]. }
  split; [exact ex_acc_Td|]. split; [reflexivity|].
  split; [intros n Hn H; cbn in Hn, H; intuition congruence|].
  split; [exists 2%nat; cbn; intros k a [Q|[Q|[]]]; injection Q as <- <-; cbn; auto|].
  split; [exact ex_range_ok|].
  unfold call_args. cbn [supplied app combine map fst String.eqb Ascii.eqb Bool.eqb].
  exists 1. split; [|reflexivity]. unfold def_p. cbn. reflexivity.
Qed.

Lemma inst_C50 : kgs exP (z_kM exz) <> 1 /\
  exists s d x, mm_hsd exP exE 0 [] (kTx (1/4)) = Ok ([Some (2305 / 72)], s, d, x) /\
    mm_h exP exE 0 [] (kTx (1/4)) = Ok ([Some (2305 * 9 / 2)], x).
Proof.
  split; [unfold kgs; cbn; lra|]. rewrite (hsd_val exP exE 0 exz exZ), (mm_h_val exP exE 0 exz exZ), ex_points by lra.
  cbn [bind map]. unfold mixed_at. cbn [s_sat s_T s_d1 s_d2 s_x]. rewrite !ex_h by lra.
  do 3 eexists. unfold kgs. cbn [fmul lift2 fsub fadd num z_kM z_kE exz mp_mw exP]. split.
  - do 4 f_equal. f_equal. f_equal. field.
  - do 3 f_equal. f_equal. field.
Qed.

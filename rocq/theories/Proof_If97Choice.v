(* Which part of the release answers at an enthalpy and a pressure. *)
From Coq Require Import Reals ZArith List Bool Lia Lra.
From Verif Require Import Base Model_If97 Spec_Mp1 Spec_If97 Spec_If97Units Spec_If97Choice Proof_Jets Proof_Mp1Poly Proof_If97Poly Proof_If97Sat Proof_If97En Proof_If97Prop Proof_If97Inv
  Proof_If97Ex Proof_If97Units Proof_If97Ts Proof_If97UnitsEx.
Import ListNotations.
Local Open Scope R_scope.

Lemma enthalpy12 D T p : fit1 D T p -> fit2 D T p -> 0 < T -> 0 < p ->
  exists hL hV, enthalpy D g1 (Some T) (Some p) = Ok (Some hL) /\ enthalpy D g2 (Some T) (Some p) = Ok (Some hV) /\
    enthalpy_of (gibbs1 D) p T hL /\ enthalpy_of (gibbs2 D) p T hV.
Proof.
  intros F1 F2 HT Hp. destruct (phases_of D T p F1 F2 HT Hp) as (hL & sL & vL & eL & cpL & cvL & hV & sV & vV & eV & cpV & cvV & S1 & _ & S2 & _ & Q & _).
  exists hL, hV. unfold phases in Q. unfold enthalpy. destruct (g1 D (Some T) (Some p) 1); cbn [bind] in *; [|discriminate].
  destruct (g2 D (Some T) (Some p) 1); cbn [bind] in *; [|discriminate]. injection Q as -> ->. split; [reflexivity|]. split; [reflexivity|].
  split; [exists sL, vL, eL, cpL; exact S1|exists sV, vV, eV, cpV; exact S2].
Qed.
Lemma enthalpy5 D T p : fit5 D T p -> 0 < T -> 0 < p -> exists h, enthalpy D g5 (Some T) (Some p) = Ok (Some h) /\ enthalpy_of (gibbs5 D) p T h.
Proof.
  intros ((HU & Hx1 & Hy1) & (HU2 & Hx2 & Hy2)) HT Hp. destruct (g5_jet D HU HU2) as (F & J & V & E).
  assert (A : P2 (if_r5o D) (if_r5r D) (p / 10)) by (split; [lra|split; assumption]).
  assert (B : Q2 (if_r5o D) (if_r5r D) 0 (1000 / T)) by (split; [|rewrite Rminus_0_r]; assumption).
  destruct (gibbs_properties D _ _ F (gamma5 D) 10 1000 (g5 D) (P2_open (if_r5o D) (if_r5r D)) (Q2_open (if_r5o D) (if_r5r D) 0) J V ltac:(lra) T p HT Hp A B)
    as (h & s & v & e & cp & cv & S1 & _ & A1 & _); [apply E; auto; lra|].
  exists h. split; [exact (A1 0%nat)|]. exists s, v, e, cp. exact S1.
Qed.
Theorem T_h_choice D h p T x : 0 < if_R D -> 0 < if_dc D -> 0 < if_Tc D -> 0 < p -> 0 < T -> boundaries_fit D p ->
  T_h D (Some h) (Some p) = Ok (Some T, Some x) -> chosen_h D h p T x.
Proof.
  intros HR Hdc HTc Hp HT (BS & B23 & B1 & B2 & B5 & B5m) H. unfold chosen_h. cbv zeta.
  destruct (enthalpy5 D 1073.15 p B5 ltac:(lra) Hp) as (h25 & E25 & S25). destruct (enthalpy5 D 2273.15 p B5m ltac:(lra) Hp) as (h5 & E5 & S5).
  change (Some 1073.15) with (num (107315/100)) in E25. change (Some 2273.15) with (num (227315/100)) in E5.
  assert (R5 : h25 <= h -> T_h5 D (Some h) (Some p) (Some h25) = Ok (Some T, Some x) ->
    exists h5, enthalpy_of (gibbs5 D) p 2273.15 h5 /\ h25 <= h <= h5 /\ x = -1 /\ from_region5 D h p T).
  { intros L Q. destruct (T_h5_case _ _ _ _ _ _ HR Hp HT Q) as [Hx F]. exists h5. split; [exact S5|]. split; [|auto].
    unfold T_h5 in Q. cbv zeta in Q. rewrite E5 in Q. cbn [bind] in Q. destruct (flt (Some h5) (Some h)) eqn:G; [discriminate|]. apply flt_false_iff in G. lra. }
  unfold T_h, T_h_with in H. cbv zeta in H. rewrite !E25 in H. cbn [bind] in H.
  destruct (flt (Some p) (num (165292/1000))) eqn:L; unfold num in L; [apply flt_iff in L|apply flt_false_iff in L].
  - left. split; [lra|]. destruct (BS ltac:(lra)) as (Ts & ETs & PTs & F1 & F2). rewrite ETs in H.
    destruct (enthalpy12 D Ts p F1 F2 PTs Hp) as (hL & hV & EL & EV & SL & SV). rewrite EL, EV in H. cbn [bind] in H.
    exists Ts, hL, hV. split; [exact ETs|]. split; [exact SL|]. split; [exact SV|].
    destruct (flt (Some h) (Some hL)) eqn:G1; [apply flt_iff in G1|apply flt_false_iff in G1].
    { left. split; [exact G1|]. rewrite th1_is in H. now apply fitted_s. }
    right. destruct (flt (Some h) (Some hV)) eqn:G2; [apply flt_iff in G2|apply flt_false_iff in G2].
    { left. split; [lra|]. cbn [fsub lift2] in H. rewrite fdiv_ok in H by lra. split; congruence. }
    right. destruct (flt (Some p) (num 40)) eqn:G3; unfold num in G3; [apply flt_iff in G3|apply flt_false_iff in G3].
    { left. split; [lra|]. split; [lra|]. split; [lra|]. exists h25. split; [exact S25|].
      destruct (flt (Some h) (Some h25)) eqn:G4; [apply flt_iff in G4|apply flt_false_iff in G4]; [left|right; apply R5; [lra|exact H]].
      split; [exact G4|]. rewrite th2a_is in H. now apply fitted_s. }
    right. destruct (flt (num (45257578905948/1000000000000)) (Some p)) eqn:G4; unfold num in G4; [apply flt_iff in G4|apply flt_false_iff in G4].
    + destruct (flt (Some h) (b2bc_p D (Some p))) eqn:G5; cbn [andb] in H; [apply flt_below in G5|apply flt_nbelow in G5].
      * left. split; [lra|]. split; [lra|]. split; [lra|]. split; [exact G5|]. rewrite th2c_is in H. now apply fitted_s.
      * right. split; [lra|]. split; [lra|]. split; [lra|]. split; [auto|]. exists h25. split; [exact S25|].
        destruct (flt (Some h) (Some h25)) eqn:G6; [apply flt_iff in G6|apply flt_false_iff in G6]; [left|right; apply R5; [lra|exact H]].
        split; [exact G6|]. rewrite th2b_is in H. now apply fitted_s.
    + cbn [andb] in H. right. split; [lra|]. split; [lra|]. split; [lra|]. split; [left; lra|]. exists h25. split; [exact S25|].
      destruct (flt (Some h) (Some h25)) eqn:G6; [apply flt_iff in G6|apply flt_false_iff in G6]; [left|right; apply R5; [lra|exact H]].
      split; [exact G6|]. rewrite th2b_is in H. now apply fitted_s.
  - right. destruct (fle (Some p) (num 1000)) eqn:G; [|discriminate].
    assert (Hp2 : p <= 1000) by (cbn in G; destruct (Rle_dec p 1000); [assumption|discriminate]). split; [lra|].
    destruct (enthalpy12 D 623.15 p B1 B2 ltac:(lra) Hp) as (h13 & u1 & E13 & _ & S13 & _). change (Some 623.15) with (num (62315/100)) in E13.
    rewrite E13 in H. cbn [bind] in H. exists h13. split; [exact S13|].
    destruct (flt (Some h) (Some h13)) eqn:G1; [apply flt_iff in G1|apply flt_false_iff in G1].
    { left. split; [exact G1|]. rewrite th1_is in H. now apply fitted_s. }
    right. split; [lra|]. destruct (B23 ltac:(lra)) as (T23 & Eb & P23 & F1 & F2). rewrite Eb in H.
    destruct (enthalpy12 D T23 p F1 F2 P23 Hp) as (u2 & h23 & _ & E23 & _ & S23).
    destruct (prop D (h_g D) (h_f D) 1 false false _ _ _); cbn [bind] in H; [|discriminate]. rewrite E23 in H. cbn [bind] in H.
    exists T23, h23. split; [exact Eb|]. split; [exact S23|].
    destruct (flt (Some h) (Some h23)) eqn:G2; [apply flt_iff in G2|apply flt_false_iff in G2].
    { left. split; [exact G2|]. destruct (th3 D (Some h) (Some p) _ _) as [t|] eqn:E; cbn [bind] in H; [|discriminate].
      assert (Et : t = Some T) by (clear E; congruence). assert (Ex : Some (-1) = Some x) by (clear E; unfold num in H; congruence). subst t.
      split; [congruence|]. exact (region3_inverse _ _ _ _ _ _ HR Hdc HTc HT E). }
    right. destruct (flt (Some h) (b2bc_p D (Some p))) eqn:G5; [apply flt_below in G5|apply flt_nbelow in G5].
    { left. split; [lra|]. split; [exact G5|]. rewrite th2c_is in H. now apply fitted_s. }
    right. split; [lra|]. split; [exact G5|]. exists h25. split; [exact S25|].
    destruct (flt (Some h) (Some h25)) eqn:G6; [apply flt_iff in G6|apply flt_false_iff in G6].
    { left. split; [exact G6|]. rewrite th2b_is in H. now apply fitted_s. }
    right. destruct (flt (Some p) (num 500)) eqn:P5; [|discriminate]. apply flt_iff in P5. split; [exact P5|]. apply R5; [lra|exact H].
Qed.
(* the instance *)
Lemma boundariesW : boundaries_fit exW 10 /\ boundaries_fit exW 1000.
Proof.
  assert (P : forall p, fit1 exW 623.15 p /\ fit2 exW 623.15 p /\ fit5 exW 1073.15 p /\ fit5 exW 2273.15 p).
  { intro p. split; [apply fitW1|]. split; [apply fitW2|]. split; apply fitW5; lra. }
  split; (split; [|split; [|apply P]]); try (intro; exfalso; lra).
  - intros _. destruct satW as (T & HT & _ & _ & Hs). exists T. split; [exact Hs|]. split; [lra|]. split; [apply fitW1|apply fitW2].
  - intros _. destruct b23_1000 as (t & Et & Ht). exists t. split; [exact Et|]. split; [lra|]. split; [apply fitW1|apply fitW2].
Qed.

(* ---- where it answers and where it refuses ---- *)
Lemma backward_ok A x y : usable_at A x y -> exists T, backward A (Some x) (Some y) = Ok (Some T).
Proof.
  intros (U & Hx & Hy). destruct (proj2 (peval_accepts (Some x) (Some y) A 0) U) as [j E].
  destruct (peval_exact A 0 x y j Hx Hy E) as (v & a & b & c & d & e & -> & _). unfold backward. rewrite E. cbn [bind jv]. eauto.
Qed.
Theorem T_h_answers D h p : 0 < p < 165.292 -> boundaries_fit D p -> inverses_fit D h p ->
  (forall h25, enthalpy_of (gibbs5 D) p 1073.15 h25 -> h < h25) -> exists T x, T_h D (Some h) (Some p) = Ok (Some T, Some x).
Proof.
  intros [Hp Lp] (BS & _ & _ & _ & B5 & _) (I1 & I2a & I2b & I2c) H25.
  destruct (enthalpy5 D 1073.15 p B5 ltac:(lra) Hp) as (h25 & E25 & S25). change (Some 1073.15) with (num (107315/100)) in E25. apply H25 in S25.
  unfold T_h, T_h_with. cbv zeta. replace (flt (Some p) (num (165292/1000))) with true by (symmetry; apply flt_iff; lra).
  destruct (BS Lp) as (Ts & ETs & PTs & F1 & F2). rewrite ETs. destruct (enthalpy12 D Ts p F1 F2 PTs Hp) as (hL & hV & EL & EV & _). rewrite EL, EV. cbn [bind].
  rewrite !E25. cbn [bind]. replace (flt (Some h) (Some h25)) with true by (symmetry; apply flt_iff; lra).
  rewrite th1_is, th2a_is, th2b_is, th2c_is.
  destruct (backward_ok _ _ _ I1) as [t1 Q1]. destruct (backward_ok _ _ _ I2a) as [t2 Q2]. destruct (backward_ok _ _ _ I2b) as [t3 Q3]. destruct (backward_ok _ _ _ I2c) as [t4 Q4].
  rewrite Q1, Q2, Q3, Q4. cbn [bind]. unfold num.
  destruct (flt (Some h) (Some hL)) eqn:G1; [eauto|]. apply flt_false_iff in G1.
  destruct (flt (Some h) (Some hV)) eqn:G2.
  - apply flt_iff in G2. cbn [fsub lift2]. rewrite fdiv_ok by lra. eauto.
  - destruct (flt (Some p) (Some 40)); [eauto|]. destruct (flt _ (Some p) && flt (Some h) _); eauto.
Qed.
Theorem T_h_refuses D h p : 1000 < p -> T_h D (Some h) (Some p) = Err PMParamError.
Proof.
  intro H. unfold T_h, T_h_with. cbv zeta. replace (flt (Some p) (num (165292/1000))) with false by (symmetry; apply flt_false_iff; lra).
  replace (fle (Some p) (num 1000)) with false; [reflexivity|]. cbn. destruct (Rle_dec p 1000); [lra|reflexivity].
Qed.
Theorem T_h_too_hot D h p : 0 < p < 165.292 -> boundaries_fit D p ->
  (forall t h', enthalpy_of (gibbs5 D) p t h' -> t = 1073.15 \/ t = 2273.15 -> h' < h) ->
  (forall Ts h', if_Ts D (Some p) = Some Ts -> enthalpy_of (gibbs1 D) p Ts h' \/ enthalpy_of (gibbs2 D) p Ts h' -> h' <= h) ->
  (45.257578905948 < p -> ~ below h (b2bc_p D (Some p))) ->
  T_h D (Some h) (Some p) = Err PMParamError.
Proof.
  intros [Hp Lp] (BS & _ & _ & _ & B5 & B5m) H5 HS HB.
  destruct (enthalpy5 D 1073.15 p B5 ltac:(lra) Hp) as (h25 & E25 & S25). destruct (enthalpy5 D 2273.15 p B5m ltac:(lra) Hp) as (h5 & E5 & S5).
  apply H5 in S25; [|now left]. apply H5 in S5; [|now right]. change (Some 1073.15) with (num (107315/100)) in E25. change (Some 2273.15) with (num (227315/100)) in E5.
  unfold T_h, T_h_with. cbv zeta. replace (flt (Some p) (num (165292/1000))) with true by (symmetry; apply flt_iff; lra).
  destruct (BS Lp) as (Ts & ETs & PTs & F1 & F2). destruct (enthalpy12 D Ts p F1 F2 PTs Hp) as (hL & hV & EL & EV & SL & SV). rewrite ETs, EL, EV. cbn [bind].
  rewrite !E25. cbn [bind]. pose proof (HS Ts hL ETs (or_introl SL)). pose proof (HS Ts hV ETs (or_intror SV)).
  replace (flt (Some h) (Some hL)) with false by (symmetry; apply flt_false_iff; lra). replace (flt (Some h) (Some hV)) with false by (symmetry; apply flt_false_iff; lra).
  replace (flt (Some h) (Some h25)) with false by (symmetry; apply flt_false_iff; lra).
  assert (T5 : T_h5 D (Some h) (Some p) (Some h25) = Err PMParamError).
  { unfold T_h5. cbv zeta. rewrite E5. cbn [bind]. replace (flt (Some h5) (Some h)) with true by (symmetry; apply flt_iff; lra). reflexivity. }
  rewrite T5. destruct (flt (Some p) (num 40)); [reflexivity|].
  destruct (flt (num (45257578905948/1000000000000)) (Some p)) eqn:G4; [|reflexivity]. unfold num in G4. apply flt_iff in G4.
  destruct (flt (Some h) (b2bc_p D (Some p))) eqn:G5; [|reflexivity]. apply flt_below in G5. exfalso. apply HB; [lra|exact G5].
Qed.
Lemma gibbsW5 p T h : 0 < T -> enthalpy_of (gibbs5 exW) p T h -> h = 0.461526 * (8000 + p - 2 * T^2 / 1000).
Proof.
  intros HT (s & v & e & cp & A & _ & Hh & _).
  assert (G : forall u, 0 < u -> gibbs5 exW p u = 0.461526 * (8000 + p) + 0.461526 * (ln (p / 10) - 20) * u + 0.461526 * 2 / 1000 * (u * u)).
  { intros u Hu. unfold gibbs5, gamma5, poly. cbn [if_r5o if_r5r exW]; unfold total; cbn [exW map fold_right ta tm tn fst snd if_R].
    change (powerRZ (p / 10) 1) with (p / 10 * 1). change (powerRZ (1000 / u) 1) with (1000 / u * 1).
    change (powerRZ (p / 10) 0) with 1. change (powerRZ (1000 / u) 0) with 1. change (powerRZ (1000 / u) (-1)) with (/ (1000 / u * 1)). field. lra. }
  assert (B : deriv (fun u => gibbs5 exW p u) T (0.461526 * (ln (p / 10) - 20) + 0.461526 * 2 / 1000 * (1 * T + T * 1))).
  { eapply (D_ext_pos (fun u => 0.461526 * (8000 + p) + 0.461526 * (ln (p / 10) - 20) * u + 0.461526 * 2 / 1000 * (u * u))); [exact HT| |].
    - intros u Hu. symmetry. now apply G.
    - apply derivable_pt_lim_plus; [apply D_affine|]. apply derivable_pt_lim_scal. apply (derivable_pt_lim_mult id id); apply derivable_pt_lim_id. }
  pose proof (uniqueness_limite _ _ _ _ A B) as Es. rewrite Hh, (G T HT).
  replace s with (- (0.461526 * (ln (p / 10) - 20) + 0.461526 * 2 / 1000 * (1 * T + T * 1))) by (rewrite <- Es; ring). field.
Qed.
Lemma answersW : inverses_fit exW 2000 10 /\ forall h25, enthalpy_of (gibbs5 exW) 10 1073.15 h25 -> 2000 < h25.
Proof.
  split.
  - split; [|split; [|split]]; (split; [usab|split; noneg]).
  - intros h25 H. apply gibbsW5 in H; [|lra]. lra.
Qed.
Lemma hotW : (forall t h', enthalpy_of (gibbs5 exW) 10 t h' -> t = 1073.15 \/ t = 2273.15 -> h' < 5000) /\
  (forall Ts h', if_Ts exW (Some 10) = Some Ts -> enthalpy_of (gibbs1 exW) 10 Ts h' \/ enthalpy_of (gibbs2 exW) 10 Ts h' -> h' <= 5000).
Proof.
  split.
  - intros t h' H Ht. apply gibbsW5 in H; [|lra]. destruct Ht as [-> | ->]; lra.
  - intros Ts h' E H. destruct satW as (T & HT & _ & _ & Hs). assert (T = Ts) by congruence. subst T.
    destruct H as [(s & v & e & cp & H)|(s & v & e & cp & H)]; [apply gibbsW1 in H|apply gibbsW2 in H]; lra.
Qed.
(* above 165.292 bar *)
Theorem T_h_answers_high D h p : 165.292 <= p <= 1000 -> boundaries_fit D p -> inverses_fit D h p ->
  (forall h13, enthalpy_of (gibbs1 D) p 623.15 h13 -> h < h13) \/
  ((forall T23 h23, b23_p D (Some p) = Some T23 -> enthalpy_of (gibbs2 D) p T23 h23 -> h23 <= h) /\
   (forall T23, b23_p D (Some p) = Some T23 -> exists v, if_h D false false (Some T23) (Some p) (Some (-1)) = Ok v) /\
   (forall h25, enthalpy_of (gibbs5 D) p 1073.15 h25 -> h < h25)) ->
  exists T, T_h D (Some h) (Some p) = Ok (Some T, Some (-1)).
Proof.
  intros [Lp Up] (_ & B23 & B1 & B2 & B5 & _) (I1 & _ & I2b & I2c) HC. assert (Hp : 0 < p) by lra.
  destruct (enthalpy12 D 623.15 p B1 B2 ltac:(lra) Hp) as (h13 & u1 & E13 & _ & S13 & _). change (Some 623.15) with (num (62315/100)) in E13.
  destruct (backward_ok _ _ _ I1) as [t1 Q1]. destruct (backward_ok _ _ _ I2b) as [t3 Q3]. destruct (backward_ok _ _ _ I2c) as [t4 Q4].
  unfold T_h, T_h_with. cbv zeta. replace (flt (Some p) (num (165292/1000))) with false by (symmetry; apply flt_false_iff; lra).
  replace (fle (Some p) (num 1000)) with true by (cbn; destruct (Rle_dec p 1000); [reflexivity|lra]).
  rewrite E13. cbn [bind]. rewrite (th1_is D h p), Q1. cbn [bind].
  destruct (flt (Some h) (Some h13)) eqn:G1; [eexists; reflexivity|]. apply flt_false_iff in G1.
  destruct HC as [HC|(H23 & HP & H25)]; [apply HC in S13; lra|].
  destruct (enthalpy5 D 1073.15 p B5 ltac:(lra) Hp) as (h25 & E25 & S25). change (Some 1073.15) with (num (107315/100)) in E25. apply H25 in S25.
  destruct (B23 Lp) as (T23 & Eb & P23 & F1 & F2). destruct (enthalpy12 D T23 p F1 F2 P23 Hp) as (u2 & h23 & _ & E23 & _ & S23).
  pose proof (H23 T23 h23 Eb S23). destruct (HP T23 Eb) as [v Ev]. rewrite Eb. unfold if_h in Ev. unfold num at 1. rewrite Ev. cbn [bind]. rewrite E23. cbn [bind].
  replace (flt (Some h) (Some h23)) with false by (symmetry; apply flt_false_iff; lra).
  rewrite (th2b_is D h p), (th2c_is D h p), Q3, Q4, E25. cbn [bind]. replace (flt (Some h) (Some h25)) with true by (symmetry; apply flt_iff; lra).
  destruct (flt (Some h) (b2bc_p D (Some p))); eexists; reflexivity.
Qed.
Lemma highW : boundaries_fit exW 1000 /\ inverses_fit exW 100 1000 /\ forall h13, enthalpy_of (gibbs1 exW) 1000 623.15 h13 -> 100 < h13.
Proof.
  split; [exact (proj2 boundariesW)|]. split; [split; [|split; [|split]]; (split; [usab|split; noneg])|].
  intros h13 (s & v & e & cp & H). apply gibbsW1 in H; lra.
Qed.

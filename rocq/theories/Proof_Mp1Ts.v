(* The saturation methods (C82). *)
From Coq Require Import Reals ZArith List String Bool Lia Lra.
From Verif Require Import Base Model_Num Model_Units Model_Defaults Model_Igas Spec_Units Proof_Units Spec_Igas Proof_Igas
  Proof_IgasUnits Proof_IgasArgs Proof_IgasCalls Proof_IgasArr Proof_IgasAcc Proof_Iter.
From Verif Require Import Proof_Jets Model_Mp1Calls Model_Mp1Warn Spec_Mp1 Spec_Mp1Calls Spec_Mp1Ts Proof_Mp1Units Proof_Mp1Poly Proof_Mp1Sat Proof_Mp1Args Proof_Mp1Calls
  Proof_Mp1Mix Proof_Mp1SatApi.
Import ListNotations.
Local Open Scope R_scope.
Local Open Scope string_scope.
Local Open Scope list_scope.

(* ---- one element of the Newton search, for any function ---- *)
Section Any.
  Variables (ep lo hi : R).
  (* the function gives a number and a slope at x0 *)
  Definition steps (f : fl -> fl * fl) (x0 : R) : Prop := exists v d, f (Some x0) = (Some v, Some d) /\ d <> 0.
  Lemma body_any N c c2 x0 y : body ep lo hi N c c2 -> c_on c = true -> c_x c = Some x0 -> c_y c = Some y ->
    (c_x c2 = None /\ ~ steps (c_fn c) x0) \/
    exists v d k r, c_fn c (Some x0) = (Some v, Some d) /\ d <> 0 /\ (k <= N)%nat /\
      c_x c2 = Some r /\ r = x0 + (y - v) / d / 2 ^ k /\ lo <= r <= hi /\ (c_on c2 = false -> Rabs (y - v) <= Rabs (ep * y)).
  Proof.
    intros (c1 & Ho & ->) Hon Hx Hy. rewrite check_x.
    assert (NAN : c_x (newton c) = None -> c_x c1 = None).
    { intro H. rewrite (oob_nan lo hi N _ H) in Ho. injection Ho as <-. exact H. }
    destruct (c_fn c (Some x0)) as [v d] eqn:Hf.
    destruct v as [v|].
    2:{ left. split; [apply NAN; unfold newton; rewrite Hon, Hx, Hf, Hy; cbn; destruct d; reflexivity|]. intros (v & d' & Q & _). congruence. }
    destruct d as [d|].
    2:{ left. split; [apply NAN; unfold newton; rewrite Hon, Hx, Hf, Hy; reflexivity|]. intros (v' & d' & Q & _). congruence. }
    destruct (Req_EM_T d 0) as [Q|Q].
    { left. split; [apply NAN; unfold newton; rewrite Hon, Hx, Hf, Hy; cbn; destruct (Req_EM_T d 0); [reflexivity|contradiction]|].
      intros (v' & d' & Q1 & Q2). congruence. }
    right.
    assert (newton c = {| c_fn := c_fn c; c_y := Some y; c_x := Some (x0 + (y - v) / d);
              c_dx := Some ((y - v) / d); c_err := Some (y - v); c_on := true |}) as Hn.
    { unfold newton. rewrite Hon, Hx, Hf, Hy. cbn. destruct (Req_EM_T d 0); [contradiction|]. reflexivity. }
    rewrite Hn in Ho.
    destruct (oob_step lo hi N _ c1 x0 ((y - v) / d) 0 Ho) as (k & Hk & Hx1).
    { cbn. f_equal. field. exact Q. }
    { cbn. f_equal. field. exact Q. }
    exists v, d, k, (x0 + (y - v) / d / 2 ^ k).
    pose proof (oob_result lo hi N _ _ Ho) as Hr. inversion Hr as [|? ? Hi _]; subst.
    rewrite Hx1 in Hi. cbn in Hi.
    split; [reflexivity|]. split; [exact Q|]. split; [lia|]. split; [exact Hx1|]. split; [reflexivity|]. split; [exact Hi|].
    apply oob_fields in Ho. cbn in Ho. destruct Ho as (Ho1 & Ho2 & Ho3 & Ho4).
    unfold check. rewrite Ho4. cbn [c_on]. rewrite Ho2, Ho3. cbn.
    destruct (Rlt_dec (Rabs (ep * y)) (Rabs (y - v))); [discriminate|]. intros _. lra.
  Qed.
  Lemma iter_none N left : forall c c' w, iter_loop ep lo hi N left [c] = Ok ([c'], w) -> c_x c = None -> c_x c' = None.
  Proof.
    induction left as [|left IH]; intros c c' w H Hx.
    all: destruct (c_on c) eqn:Hon; [|rewrite iter_solo_off in H by exact Hon; injection H as <- _; exact Hx].
    all: apply iter_solo_on in H; try exact Hon; destruct H as (c2 & (c1 & Ho & E2) & H).
    all: assert (X : c_x c2 = None) by (subst c2; rewrite check_x;
      assert (NX : c_x (newton c) = None) by (unfold newton; rewrite Hon, Hx; destruct (c_fn c None); reflexivity);
      rewrite (oob_nan lo hi N _ NX) in Ho; injection Ho as <-; exact NX).
    - destruct H as [-> _]. exact X.
    - exact (IH _ _ _ H X).
  Qed.
  Lemma iter_any N left : forall c c' w x y, iter_loop ep lo hi N left [c] = Ok ([c'], w) -> c_on c = true -> c_y c = Some y ->
    c_x c = Some x -> lo <= x <= hi ->
    (c_x c' = None /\ exists x0, lo <= x0 <= hi /\ ~ steps (c_fn c) x0) \/
    exists x0 v d k r, lo <= x0 <= hi /\ c_fn c (Some x0) = (Some v, Some d) /\ d <> 0 /\ (k <= N)%nat /\
      c_x c' = Some r /\ r = x0 + (y - v) / d / 2 ^ k /\ lo <= r <= hi /\ (w = false -> Rabs (y - v) <= Rabs (ep * y)).
  Proof.
    induction left as [|left IH]; intros c c' w x y H Hon Hy Hx Hin; apply iter_solo_on in H; try exact Hon; destruct H as (c2 & Hb & H).
    - destruct H as [-> ->]. destruct (body_any N c c2 x y Hb Hon Hx Hy) as [[X B]|(v & d & k & r & Hf & Hd & Hk & X & Hr & Hi & _)]; [eauto|].
      right. exists x, v, d, k, r. repeat (split; [assumption|]). discriminate.
    - destruct (body_any N c c2 x y Hb Hon Hx Hy) as [[X B]|(v & d & k & r & Hf & Hd & Hk & X & Hr & Hi & Ha)].
      + left. split; [exact (iter_none _ _ _ _ _ H X)|eauto].
      + destruct (body_fields ep lo hi N c c2 Hb) as [Ff Fy]. destruct (c_on c2) eqn:Hon2.
        * rewrite <- Ff. apply (IH c2 c' w r y H Hon2); [now rewrite Fy|exact X|exact Hi].
        * rewrite iter_solo_off in H by exact Hon2. injection H as <- <-. right. exists x, v, d, k, r.
          repeat (split; [assumption|]). intros _. auto.
  Qed.
  Lemma oob_length N : forall cs cs', oob_loop lo hi N cs = Ok cs' -> List.length cs' = List.length cs.
  Proof.
    induction N as [|N IH]; intros cs cs' H; cbn [oob_loop] in H; destruct (existsb (outside lo hi) cs); try discriminate;
      try (injection H as <-; reflexivity). apply IH in H. rewrite H. now rewrite map_length.
  Qed.
  Lemma iter_length N left : forall cs cs' w, iter_loop ep lo hi N left cs = Ok (cs', w) -> List.length cs' = List.length cs.
  Proof.
    induction left as [|left IH]; intros cs cs' w H; rewrite iter_unfold in H; destruct (existsb c_on cs); try (injection H as <- _; reflexivity);
      destruct (oob_loop lo hi N (map newton cs)) as [c1|] eqn:O; try discriminate; cbn [bind] in H; apply oob_length in O; rewrite map_length in O.
    - injection H as <- _. now rewrite map_length.
    - apply IH in H. rewrite H. now rewrite map_length.
  Qed.
End Any.

(* ---- the value of a fit does not depend on the derivatives asked for ---- *)
Lemma loop1_value diff x0 n : forall rows p px pxx qx qxx,
  fst (fst (loop1 diff x0 n rows (p, px, pxx))) = fst (fst (loop1 0 x0 n rows (p, qx, qxx))).
Proof.
  induction n as [|n IH]; intros rows p px pxx qx qxx; cbn [loop1]; [reflexivity|].
  destruct rows as [|[i c] rest]; [apply IH|]. destruct (Z.eqb i (Z.of_nat n)); apply IH.
Qed.
Lemma poly1_coef_value x c diff : fst (fst (poly1_coef x c diff)) = fst (fst (poly1_coef x c 0)).
Proof.
  unfold poly1_coef.
  assert (P : fst (fst (pre_power diff x (c1_pre c))) = fst (fst (pre_power 0 x (c1_pre c)))) by (unfold pre_power; destruct (Req_EM_T (c1_pre c) 1); reflexivity).
  destruct (pre_power diff x (c1_pre c)) as [[x0 x1] x2]. destruct (pre_power 0 x (c1_pre c)) as [[z0 z1] z2]. cbn [fst] in P. subst z0.
  pose proof (loop1_value diff x0 (Z.to_nat (fst (c1_first c) + 1)) (c1_rows c) (num 0) (num 0) (num 0) (num 0) (num 0)) as L.
  destruct (loop1 diff x0 _ _ _) as [[p px] pxx]. destruct (loop1 0 x0 _ _ _) as [[p' px'] pxx']. cbn [fst] in L. subst p'.
  destruct (Req_EM_T (c1_post c) 0); reflexivity.
Qed.
Lemma poly1_value x g diff : fst (fst (poly1 x g diff)) = fst (fst (poly1 x g 0)).
Proof.
  unfold poly1. destruct g as [|c [|c2 g]]; [reflexivity|apply poly1_coef_value|].
  generalize (c :: c2 :: g). clear c c2 g. intro g.
  assert (H : forall s sx sxx tx txx,
    fst (fst (fold_left (fun st c => let '(s, sx, sxx) := st in let '(p, px, pxx) := poly1_coef x c diff in
      ((s + p)%fl, (if diff1 diff then sx + px else sx)%fl, (if diff2 diff then sxx + pxx else sxx)%fl)) g (s, sx, sxx))) =
    fst (fst (fold_left (fun st c => let '(s, sx, sxx) := st in let '(p, px, pxx) := poly1_coef x c 0 in
      ((s + p)%fl, (if diff1 0 then sx + px else sx)%fl, (if diff2 0 then sxx + pxx else sxx)%fl)) g (s, tx, txx)))); [|apply H].
  induction g as [|c g IH]; intros s sx sxx tx txx; cbn [fold_left]; [reflexivity|].
  pose proof (poly1_coef_value x c diff) as P.
  destruct (poly1_coef x c diff) as [[p px] pxx]. destruct (poly1_coef x c 0) as [[q qx] qxx]. cbn [fst] in P. subst q. apply IH.
Qed.
Lemma satcurve_diff G T diff : (do j <- satcurve G T diff; Ok (fst (fst j))) = (do j <- satcurve G T 0; Ok (fst (fst j))).
Proof.
  unfold satcurve. set (tau := (T / num (sg_Tscale G))%fl).
  assert (H : (do j <- satfit tau (sg_fn G) (sg_coef G) diff; Ok (fst (fst j))) = (do j <- satfit tau (sg_fn G) (sg_coef G) 0; Ok (fst (fst j)))).
  { unfold satfit. destruct (Z.eqb (sg_fn G) 0); [cbn [bind]; now rewrite poly1_value|].
    pose proof (poly1_value (num 1 - tau)%fl (sg_coef G) diff) as P.
    destruct (poly1 (num 1 - tau)%fl (sg_coef G) diff) as [[p px] pxx]. destruct (poly1 (num 1 - tau)%fl (sg_coef G) 0) as [[q qx] qxx]. cbn [fst] in P. subst q.
    destruct (Z.eqb (sg_fn G) 1); [reflexivity|]. destruct (Z.eqb (sg_fn G) 2); [reflexivity|]. destruct (Z.eqb (sg_fn G) 3); reflexivity. }
  destruct (satfit tau (sg_fn G) (sg_coef G) diff) as [[[p px] pxx]|e]; destruct (satfit tau (sg_fn G) (sg_coef G) 0) as [[[q qx] qxx]|e'];
    cbn [bind fst] in *; congruence.
Qed.

Lemma Forall2_nth_some {A B} (P : A -> B -> Prop) l l' : Forall2 P l l' -> forall i a, nth_error l i = Some a ->
  exists b, nth_error l' i = Some b /\ P a b.
Proof.
  induction 1 as [|x y l l' H F IH]; intros i a N; destruct i; try discriminate.
  - injection N as <-. exists y. auto.
  - exact (IH i a N).
Qed.

Section TsApi.
  Variables (D : mpdata) (E : env) (z : sizes).
  Hypothesis Z : mp_sizes D E z.
  Let kPp : 0 < z_kP z := kP_pos _ _ _ _ _ _ _ _ Z.

  Section Curve.
  Hypothesis C : curve_ok D.
  Lemma psT_val T v d : sat_range D T -> mp_psT D (Some T) = (Some v, Some d) ->
    v = vapor_pressure D T /\ (T < mp_Tc D -> deriv (vapor_pressure D) T d) /\
    exists w, satcurve (mp_PS D) (Some T) 1 = Ok (Some v, Some d, w).
  Proof.
    destruct C as (W & F0 & TS & PP & HT0). intros [H1 H2] H. unfold mp_psT, sat_jet in H.
    destruct (satcurve (mp_PS D) (Some T) 1) as [[[a b] w]|] eqn:Q; [|discriminate]. injection H as -> ->.
    destruct (Req_EM_T T (mp_Tc D)) as [EQ|NE].
    - subst T. split; [|split; [lra|eauto]].
      pose proof (satcurve_diff (mp_PS D) (Some (mp_Tc D)) 1) as S. rewrite Q in S. rewrite <- TS, (satcurve_critical _ W F0 PP) in S.
      cbn [bind fst] in S. injection S as ->. unfold vapor_pressure. now rewrite TS.
    - assert (SM : sat_smooth (mp_PS D) T) by (split; [lra|right; right; lra]).
      destruct (satcurve_exact (mp_PS D) 1 T W SM) as (v' & vT & vTT & Q2 & V & D1 & _). rewrite Q in Q2. injection Q2 as -> -> _.
      cbn [Nat.ltb Nat.leb] in D1. split; [exact V|]. split; [intros _; exact D1|eauto].
  Qed.

  (* the fit gives no slope at T *)
  Definition stuck (T : R) : Prop := ~ steps (mp_psT D) T.
  (* _Ts on one element of an array *)
  Lemma Ts_elem ps w i p : forall l, iter_loop ep_default (mp_Tt D * (99/100)) (mp_Tc D) 20 20 (map (Ts_cell D) ps) = Ok (l, w) ->
    nth_error ps i = Some (true, Some p) -> mp_pt D <= p <= mp_pc D -> exists c, nth_error l i = Some c /\
    ((c_x c = None /\ exists T0, sat_range D T0 /\ stuck T0) \/ exists T T0 d k, c_x c = Some T /\ sat_range D T /\ sat_range D T0 /\ (k <= 20)%nat /\ d <> 0 /\
       mp_psT D (Some T0) = (Some (vapor_pressure D T0), Some d) /\
       T = T0 + (p - vapor_pressure D T0) / d / 2 ^ k /\
       (w = false -> Rabs (vapor_pressure D T0 - p) <= 1 / 1000000 * Rabs p)).
  Proof.
    intros l H Np Hp. destruct C as (_ & _ & _ & _ & HT0).
    assert (CALM : Forall (calm (mp_Tt D * (99/100)) (mp_Tc D)) (map (Ts_cell D) ps)).
    { apply Forall_forall. intros c Hc. apply in_map_iff in Hc. destruct Hc as ([sel q] & <- & _). intros _.
      apply outside_false. cbn. lra. }
    apply iter_pointwise in H; [|exact CALM]. destruct H as (rs & F & -> & ->).
    pose proof (nth_map_some (Ts_cell D) _ _ _ Np) as Nc.
    destruct (Forall2_nth_some _ _ _ F _ _ Nc) as (r & Nr & S). exists (fst r). split; [exact (nth_map_some fst _ _ _ Nr)|].
    assert (ON : c_on (Ts_cell D (true, Some p)) = true).
    { cbn. unfold num. destruct (Rle_dec (mp_pt D) p); [|lra]. destruct (Rle_dec p (mp_pc D)); [reflexivity|lra]. }
    destruct (iter_any _ _ _ 20 20 _ _ _ _ p S ON eq_refl eq_refl) as [[X (x0 & Hx0 & B)]|(x0 & v & d & k & T & Hx0 & Hf & Hd & Hk & X & HT & Hin & Hw)].
    { lra. }
    { left. split; [exact X|]. exists x0. split; [unfold sat_range; lra|exact B]. }
    right. assert (SR0 : sat_range D x0) by (unfold sat_range; lra).
    change (mp_psT D (Some x0) = (Some v, Some d)) in Hf.
    destruct (psT_val x0 v d SR0 Hf) as (-> & Dv & w' & Q).
    exists T, x0, d, k. split; [exact X|]. split; [unfold sat_range; lra|]. split; [exact SR0|]. split; [exact Hk|]. split; [exact Hd|]. split; [exact Hf|].
    split; [exact HT|].
    intro W. assert (snd r = false) as W2.
    { destruct (snd r) eqn:Q2; [|reflexivity]. exfalso. enough (existsb snd rs = true) by congruence. apply existsb_exists. exists r. split; [now apply nth_error_In in Nr|exact Q2]. }
    specialize (Hw W2). rewrite Rabs_minus_sym. apply Rle_trans with (1 := Hw). rewrite Rabs_mult. right. f_equal.
    assert (EP : ep_default = 1 / 1000000) by (unfold ep_default; rewrite p10_neg_eq; simpl; lra).
    rewrite EP, Rabs_right; lra.
  Qed.

  (* a slope between m and M *)
  Lemma slopes_deriv m M T v d : slopes D m M -> sat_range D T -> mp_psT D (Some T) = (Some v, Some d) -> m <= d <= M.
  Proof.
    intros (Hm & HS & HC) HT H. destruct (psT_val T v d HT H) as (_ & HD & w & Q). pose proof HT as [H1 H2].
    destruct (Req_EM_T T (mp_Tc D)) as [->|NE]; [exact (HC _ _ _ Q)|].
    specialize (HD ltac:(lra)).
    assert (G : forall e, 0 < e -> m - e <= d <= M + e).
    { intros e He. destruct (HD e He) as (dl & Hdl).
      set (h := Rmin (dl / 2) (mp_Tc D - T)).
      assert (0 < h) by (unfold h; apply Rmin_glb_lt; [pose proof (cond_pos dl); lra|lra]).
      assert (h < dl) by (unfold h; pose proof (Rmin_l (dl / 2) (mp_Tc D - T)); pose proof (cond_pos dl); lra).
      assert (h <= mp_Tc D - T) by (unfold h; apply Rmin_r).
      specialize (Hdl h ltac:(lra) ltac:(rewrite Rabs_right; lra)). apply Rabs_def2 in Hdl.
      specialize (HS T (T + h) HT ltac:(unfold sat_range in *; lra) ltac:(lra)).
      replace (T + h - T) with h in HS by ring.
      assert (m <= (vapor_pressure D (T + h) - vapor_pressure D T) / h <= M).
      { split; apply (Rmult_le_reg_r h); try lra; unfold Rdiv; rewrite Rmult_assoc, Rinv_l, Rmult_1_r by lra; lra. }
      lra. }
    split; apply Rnot_lt_le; intro L.
    - specialize (G ((m - d) / 2) ltac:(lra)). lra.
    - specialize (G ((d - M) / 2) ltac:(lra)). lra.
  Qed.

  Lemma slopes_steps m M T : slopes D m M -> 0 < T -> sat_range D T -> T < mp_Tc D -> steps (mp_psT D) T.
  Proof.
    intros HS H0 HR HT. destruct C as (W & F0 & TS & PP & HT0).
    assert (SM : sat_smooth (mp_PS D) T) by (split; [lra|right; right; lra]).
    destruct (satcurve_exact (mp_PS D) 1 T W SM) as (v' & vT & vTT & Q2 & V & D1 & _).
    assert (J : mp_psT D (Some T) = (Some v', Some vT)) by (unfold mp_psT, sat_jet; rewrite Q2; reflexivity).
    exists v', vT. split; [exact J|]. pose proof (slopes_deriv m M T _ _ HS HR J) as X. destruct HS as (Hm & _). lra.
  Qed.

  Lemma newton_accuracy m M p T0 d k T : slopes D m M -> sat_range D T0 -> sat_range D T -> m <= d <= M ->
    T = T0 + (p - vapor_pressure D T0) / d / 2 ^ k ->
    Rabs (vapor_pressure D T - p) <= M / m * Rabs (vapor_pressure D T0 - p).
  Proof.
    intros (Hm & HS & _) H0 HT Hd E1. rewrite (Rabs_minus_sym _ p), (Rabs_minus_sym _ p). rewrite E1 in *.
    apply (residual_bound (99/100 * mp_Tt D) (mp_Tc D) (vapor_pressure D) (fun _ => d) m M p T0 k Hm).
    - intros; exact Hd.
    - intros a b Ha Hb. apply HS; unfold sat_range; lra.
    - exact H0.
    - exact HT.
  Qed.
  End Curve.

  (* ---- the methods ---- *)
  Lemma flt_inv a b : flt (Some a) (Some b) = true -> a < b.
  Proof. cbn. destruct (Rlt_dec a b); [auto|discriminate]. Qed.
  Lemma outside_sat_false lo hi v : outside_sat lo hi v = false <-> forall x, In (Some x) v -> lo <= x <= hi.
  Proof.
    unfold outside_sat. split.
    - intros O T HT. apply orb_false_elim in O. destruct O as [O1 O2]. split.
      + destruct (Rle_dec lo T) as [|N]; [assumption|exfalso]. enough (existsb (fun x => flt x (num lo)) v = true) by congruence.
        apply existsb_exists. eexists. split; [exact HT|]. apply flt_true. lra.
      + destruct (Rle_dec T hi) as [|N]; [assumption|exfalso]. enough (existsb (fun x => flt (num hi) x) v = true) by congruence.
        apply existsb_exists. eexists. split; [exact HT|]. apply flt_true. lra.
    - intro H. apply orb_false_intro; apply Proof_Iter.existsb_false, Forall_forall; intros [x|] Hx; try reflexivity;
        apply flt_false; apply (H x Hx).
  Qed.
  Local Notation gT := (gT (z_T z)).
  Local Notation gP := (gP (z_kP z)).
  Lemma gP_in a p : In (Some p) (gP a) <-> exists r, In (Some r) a /\ pressure_is z r p.
  Proof.
    unfold Proof_Mp1Units.gP, pressure_is. rewrite in_map_iff. split.
    - intros ([r|] & Q & Hr); [|discriminate]. cbn in Q. injection Q as <-. exists r. split; [exact Hr|ring].
    - intros (r & Hr & <-). exists (Some r). split; [cbn; f_equal; ring|exact Hr].
  Qed.
  Lemma kelvin_val' t T : kelvin_is E t T <-> T = to_kelvin (z_T z) t.
  Proof. unfold kelvin_is. rewrite (tscale_to _ _ _ _ _ _ _ _ Z). split; [intro H; now injection H as ->|now intros ->]. Qed.
  Lemma gT_in' a T : In (Some T) (gT a) <-> exists r, In (Some r) a /\ kelvin_is E r T.
  Proof.
    unfold Proof_Mp1Units.gT. rewrite in_map_iff. split.
    - intros ([r|] & Q & Hr); [|discriminate]. cbn in Q. injection Q as <-. exists r. split; [exact Hr|now apply kelvin_val'].
    - intros (r & Hr & HK). apply kelvin_val' in HK. subst. exists (Some r). auto.
  Qed.

  (* ps *)
  Lemma ps_value T : curve_ok D -> mp_Tt D <= T <= mp_Tc D -> mp_ps D (Some T) = Some (vapor_pressure D T).
  Proof.
    intros (W & F0 & TS & PP & HT0) HT. unfold mp_ps, sat_jet, vapor_pressure.
    destruct (Req_EM_T T (mp_Tc D)) as [->|NE].
    - rewrite <- TS, (satcurve_critical _ W F0 PP). reflexivity.
    - assert (SM : sat_smooth (mp_PS D) T) by (split; [lra|right; right; lra]).
      destruct (satcurve_exact (mp_PS D) 0 T W SM) as (v' & vT & vTT & Q2 & V & _). rewrite Q2. cbn. now rewrite V.
  Qed.
  Theorem ps_api a : 
    (forall e, mm_ps D E (Some a) = Err e <-> e = PMParamError /\ exists r T, In (Some r) a /\ kelvin_is E r T /\ ~ mp_Tt D <= T <= mp_Tc D) /\
    (forall q, curve_ok D -> mm_ps D E (Some a) = Ok q -> List.length q = List.length a /\
       forall i r T, nth_error a i = Some (Some r) -> kelvin_is E r T -> exists y, nth_error q i = Some (Some y) /\
         pressure_is z y (vapor_pressure D T)).
  Proof.
    unfold mm_ps. cbn [bind]. rewrite (atscale_to _ _ _ _ _ _ _ _ Z). cbn [bind]. fold (gT a).
    destruct (outside_sat (mp_Tt D) (mp_Tc D) (gT a)) eqn:O.
    - split; [|discriminate]. intro e. split.
      + intro H. injection H as <-. split; [reflexivity|].
        unfold outside_sat in O. apply orb_true_iff in O.
        destruct O as [O|O]; apply existsb_exists in O; destruct O as ([T|] & HI & O); try discriminate;
          apply flt_inv in O; apply gT_in' in HI; destruct HI as (r & Hr & HK); exists r, T; split; [exact Hr| |exact Hr|]; (split; [exact HK|lra]).
      + intros [-> _]. reflexivity.
    - rewrite outside_sat_false in O. rewrite (p_out _ _ _ _ _ _ _ _ Z). split.
      + intro e. split; [discriminate|]. intros (_ & r & T & Hr & HK & N). exfalso. apply N, O, gT_in'. eauto.
      + intros q HC H. injection H as <-. split; [unfold Proof_Mp1Units.gT; now rewrite !map_length|].
        intros i r T Nr HK. exists (/ z_kP z * vapor_pressure D T).
        pose proof (nth_map_some (lift1 (to_kelvin (z_T z))) _ _ _ Nr) as N1. apply kelvin_val' in HK. cbn [lift1 option_map] in N1. rewrite <- HK in N1.
        pose proof (nth_map_some (fmul (Some (/ z_kP z))) _ _ _ (nth_map_some (mp_ps D) _ _ _ N1)) as N2.
        rewrite (ps_value T HC) in N2 by (apply O; now apply nth_error_In in N1).
        split; [exact N2|]. unfold pressure_is. field. lra.
  Qed.

  (* Ts *)
  Lemma Ts_split q ts w : mm_Ts D E (Some q) = Ok ts -> Ts_call_warns D E q = Ok w ->
    (forall r p, In (Some r) q -> pressure_is z r p -> mp_pt D <= p <= mp_pc D) /\
    exists l, iter_loop ep_default (mp_Tt D * (99/100)) (mp_Tc D) 20 20 (map (Ts_cell D) (map (fun p => (true, p)) (gP q))) = Ok (l, w) /\
    ts = map (lift1 (from_kelvin (z_T z))) (map c_x l).
  Proof.
    unfold mm_Ts, Ts_call_warns. cbn [bind]. rewrite (p_in _ _ _ _ _ _ _ _ Z). cbn [bind]. fold (gP q).
    destruct (outside_sat (mp_pt D) (mp_pc D) (gP q)) eqn:O; [discriminate|]. rewrite outside_sat_false in O.
    unfold mp_Ts, Ts_warns. destruct (iter_loop _ _ _ _ _ _) as [[l w0]|] eqn:L; cbn [bind fst snd]; [|discriminate].
    rewrite (atscale_from _ _ _ _ _ _ _ _ Z). intros H1 H2. injection H1 as <-. injection H2 as <-.
    split; [|eauto]. intros r p Hr Hp. apply O, gP_in. eauto.
  Qed.
  Theorem Ts_api q ts m M i r p : curve_ok D -> slopes D m M -> mm_Ts D E (Some q) = Ok ts -> Ts_call_warns D E q = Ok false ->
    nth_error q i = Some (Some r) -> pressure_is z r p ->
    exists t, nth_error ts i = Some t /\
      ((t = None /\ no_critical_slope D) \/
       exists k T, t = Some k /\ kelvin_is E k T /\ sat_range D T /\
         Rabs (vapor_pressure D T - p) <= M / m * (1 / 1000000 * Rabs p)).
  Proof.
    intros HC HS H1 H2 Nq Hp. destruct (Ts_split q ts false H1 H2) as (HR & l & L & ->).
    pose proof (HR r p (nth_error_In _ _ Nq) Hp) as Hpp.
    assert (NP : nth_error (map (fun p => (true, p)) (gP q)) i = Some (true, Some p)).
    { etransitivity; [exact (nth_map_some (fun p : fl => (true, p)) _ _ _ (nth_map_some (fmul (Some (z_kP z))) _ _ _ Nq))|]. cbn. unfold pressure_is in Hp. do 3 f_equal. rewrite <- Hp. ring. }
    destruct (Ts_elem HC _ _ i p l L NP Hpp) as (c & Nc & [[X (T0 & R0 & B)]|(T & T0 & d & k & X & RT & R0 & _ & Hd & J & HT & HA)]).
    - exists None. pose proof (nth_map_some (lift1 (from_kelvin (z_T z))) _ _ _ (nth_map_some c_x _ _ _ Nc)) as N2. rewrite X in N2.
      split; [exact N2|]. left. split; [reflexivity|].
      destruct (Req_EM_T T0 (mp_Tc D)) as [->|NE].
      { intros v d w Q. apply B. exists v, d. split; [unfold mp_psT, sat_jet; now rewrite Q|].
        destruct HS as (Hm & _ & HH). specialize (HH _ _ _ Q). lra. }
      exfalso. apply B. destruct HC as (W & F0 & TS & PP & HT0) eqn:QC. unfold sat_range in R0.
      apply (slopes_steps (conj W (conj F0 (conj TS (conj PP HT0)))) m M); [exact HS|lra|exact R0|lra].
    - exists (Some (from_kelvin (z_T z) T)). pose proof (nth_map_some (lift1 (from_kelvin (z_T z))) _ _ _ (nth_map_some c_x _ _ _ Nc)) as N2. rewrite X in N2.
      split; [exact N2|]. right. exists (from_kelvin (z_T z) T), T. split; [reflexivity|]. split; [apply kelvin_val'; now rewrite to_from_kelvin|]. split; [exact RT|].
      pose proof (slopes_deriv HC m M T0 _ _ HS R0 J) as Hdd.
      apply Rle_trans with (1 := newton_accuracy m M p T0 d k T HS R0 RT Hdd HT).
      apply Rmult_le_compat_l; [apply Rmult_le_pos; [pose proof (proj1 HS); lra|left; apply Rinv_0_lt_compat, HS]|].
      exact (HA eq_refl).
  Qed.

  Theorem Ts_range q : ((exists r p, In (Some r) q /\ pressure_is z r p /\ ~ mp_pt D <= p <= mp_pc D) <-> mm_Ts D E (Some q) = Err PMParamError) /\
    (forall e, mm_Ts D E (Some q) = Err e -> e = PMParamError \/ e = PMAnalysisError) /\
    (forall ts, mm_Ts D E (Some q) = Ok ts -> List.length ts = List.length q /\ exists w, Ts_call_warns D E q = Ok w).
  Proof.
    unfold mm_Ts, Ts_call_warns. cbn [bind]. rewrite (p_in _ _ _ _ _ _ _ _ Z). cbn [bind]. fold (gP q).
    destruct (outside_sat (mp_pt D) (mp_pc D) (gP q)) eqn:O.
    - split; [|split; [intros e H; injection H; auto|discriminate]]. split; [reflexivity|]. intros _.
      unfold outside_sat in O. apply orb_true_iff in O.
      destruct O as [O|O]; apply existsb_exists in O; destruct O as ([T|] & HI & O); try discriminate;
        apply flt_inv in O; apply gP_in in HI; destruct HI as (r & Hr & HK); exists r, T; split; [exact Hr| |exact Hr|]; (split; [exact HK|lra]).
    - rewrite outside_sat_false in O. unfold mp_Ts, Ts_warns. destruct (iter_loop _ _ _ _ _ _) as [[l w]|e] eqn:L; cbn [bind fst snd].
      + rewrite (atscale_from _ _ _ _ _ _ _ _ Z). split; [|split; [discriminate|]].
        * split; [|discriminate]. intros (r & p & Hr & Hp & N). exfalso. apply N, O, gP_in. eauto.
        * intros ts H. injection H as <-. split; [|eauto]. rewrite !map_length. apply iter_length in L. rewrite L. unfold Proof_Mp1Units.gP. now rewrite !map_length.
      + apply iter_err in L. subst. split; [|split; [intros e H; injection H; auto|discriminate]].
        split; [|discriminate]. intros (r & p & Hr & Hp & N). exfalso. apply N, O, gP_in. eauto.
  Qed.

  Theorem ps_of_Ts q ts ps m M i r t : curve_ok D -> slopes D m M -> mm_Ts D E (Some q) = Ok ts -> Ts_call_warns D E q = Ok false ->
    nth_error q i = Some (Some r) -> nth_error ts i = Some (Some t) -> mm_ps D E (Some ts) = Ok ps ->
    exists y, nth_error ps i = Some (Some y) /\ Rabs (y - r) <= M / m * (1 / 1000000 * Rabs r).
  Proof.
    intros HC HS H1 H2 Nq Nt' H3. destruct (Ts_api q ts m M i r (r * z_kP z) HC HS H1 H2 Nq eq_refl) as (t' & Nt & [[X _]|(k & T & X & HK & HR & HA)]).
    { exfalso. subst t'. rewrite Nt in Nt'. discriminate. }
    subst t'. destruct (proj2 (ps_api ts) ps HC H3) as [_ P]. destruct (P i k T Nt HK) as (y & Ny & Hy). exists y. split; [exact Ny|].
    unfold pressure_is in Hy. rewrite <- Hy in HA.
    replace (y * z_kP z - r * z_kP z) with ((y - r) * z_kP z) in HA by ring.
    rewrite !Rabs_mult, (Rabs_right (z_kP z)) in HA by lra.
    apply (Rmult_le_reg_r (z_kP z)); [exact kPp|]. lra.
  Qed.

  (* the saturation methods with a pressure are those at the saturation temperature *)
  Lemma sat_argparse_p q ts : mm_Ts D E (Some q) = Ok ts -> (forall t T, In (Some t) ts -> kelvin_is E t T -> mp_Tt D <= T <= mp_Tc D) ->
    sat_argparse D E None (Some q) = sat_argparse D E (Some ts) None.
  Proof.
    unfold mm_Ts, sat_argparse. cbn [bind]. rewrite (p_in _ _ _ _ _ _ _ _ Z). cbn [bind]. fold (gP q).
    destruct (outside_sat (mp_pt D) (mp_pc D) (gP q)); [discriminate|].
    destruct (mp_Ts D _) as [l|]; cbn [bind]; [|discriminate]. rewrite (atscale_from _ _ _ _ _ _ _ _ Z), (atscale_to _ _ _ _ _ _ _ _ Z).
    intros H HR. injection H as <-. cbn [bind]. rewrite map_map.
    assert (I : map (fun x => lift1 (to_kelvin (z_T z)) (lift1 (from_kelvin (z_T z)) x)) l = l).
    { rewrite <- (map_id l) at 2. apply map_ext. intros [x|]; [|reflexivity]. cbn. now rewrite to_from_kelvin. }
    rewrite I. destruct (outside_sat (mp_Tt D) (mp_Tc D) l) eqn:O; [exfalso|reflexivity].
    enough (outside_sat (mp_Tt D) (mp_Tc D) l = false) by congruence. apply outside_sat_false. intros x Hx.
    apply (HR (from_kelvin (z_T z) x) x); [apply in_map_iff; exists (Some x); auto|]. apply kelvin_val'. now rewrite to_from_kelvin.
  Qed.
  Theorem by_pressure ms q ts : In ms (sat_methods D E) -> mm_Ts D E (Some q) = Ok ts ->
    (forall t T, In (Some t) ts -> kelvin_is E t T -> mp_Tt D <= T <= mp_Tc D) -> ms None (Some q) = ms (Some ts) None.
  Proof.
    intros Hm H1 H2. pose proof (sat_argparse_p q ts H1 H2) as S.
    repeat destruct Hm as [<-|Hm]; try contradiction; unfold mm_es, mm_hs, sat_energy, mm_ss, mm_vs, mm_ds; now rewrite S.
  Qed.
  Theorem by_both ms q t : In ms (sat_methods D E) -> ms (Some t) (Some q) = Err PMParamError.
  Proof. intro Hm. repeat destruct Hm as [<-|Hm]; try contradiction; reflexivity. Qed.

  (* p with a quality is T = Ts(p) with it *)
  Lemma limited_inside lim (v : arr) : v <> [] -> (forall x, In (Some x) v -> in_range lim x) -> limited E lim v = Ok v.
  Proof.
    intros Nn HT.
    assert (O : forall x, In x v -> (flt x (num (fst lim)) || flt (num (snd lim)) x)%bool = false).
    { intros [T|] Hx; [|reflexivity]. specialize (HT T Hx). unfold in_range in HT. unfold num. rewrite !flt_false by lra. reflexivity. }
    unfold limited. destruct (forallb _ v) eqn:F.
    - exfalso. destruct v as [|x r]; [contradiction|]. cbn [forallb] in F. rewrite (O x) in F by (now left). discriminate.
    - f_equal. rewrite <- (map_id v) at 2. apply map_ext_in. intros x Hx. rewrite (O x Hx). reflexivity.
  Qed.
  Lemma broadcast2_matching (q xs : arr) : q <> [] -> matching q xs -> exists l, broadcast2 q xs = Ok l /\ map fst l = q /\ (forall f, existsb f (map snd l) = existsb f xs) /\
    forall q', List.length q' = List.length q -> exists l', broadcast2 q' xs = Ok l' /\ l' = map2 (fun T e => (T, snd e)) q' l.
  Proof.
    intros Hne [H|H].
    - exists (combine q xs). assert (BB : forall a b : arr, List.length a = List.length b -> broadcast2 a b = Ok (combine a b)).
      { intros a b Q. unfold broadcast2, broadcast. destruct (Nat.eqb_spec (List.length a) (List.length b)); [reflexivity|contradiction]. }
      split; [exact (BB _ _ H)|]. split.
      + revert xs H. clear. induction q as [|a q IH]; intros [|x xs] H; cbn in *; try discriminate; [reflexivity|]. f_equal. apply IH. lia.
      + split. { intro f. f_equal. revert xs H. clear. induction q as [|a q IH]; intros [|x xs] H; cbn in *; try discriminate; [reflexivity|]. f_equal. apply IH. lia. }
        intros q' H'. exists (combine q' xs). split; [apply BB; congruence|].
        clear Hne. revert q xs q' H H'. induction q as [|a q IH]; intros [|x xs] [|b q'] H H'; cbn in *; try discriminate; [reflexivity|].
        unfold map2. cbn. f_equal. rewrite (IH xs q') at 1 by lia. reflexivity.
    - destruct xs as [|x [|? ?]]; try discriminate. exists (map (fun a => (a, x)) q). split; [now apply broadcast2_scalar|]. split.
      + rewrite map_map. apply map_id.
      + split. { intro f. rewrite map_map. cbn [existsb snd]. destruct q as [|a q]; [contradiction|]. clear Hne. cbn. induction q as [|b q IH]; [reflexivity|].
          cbn. destruct (f x); [reflexivity|exact IH]. }
        intros q' H'. exists (map (fun a => (a, x)) q'). split; [apply broadcast2_scalar; destruct q'; [destruct q; [contradiction|discriminate]|discriminate]|].
        clear Hne. revert q' H'. induction q as [|a q IH]; intros [|b q'] H'; cbn in *; try discriminate; [reflexivity|].
        unfold map2. cbn. f_equal. rewrite (IH q') at 1 by lia. reflexivity.
  Qed.
  Lemma map_pair {A} (l : list (fl * A)) q : map fst l = q -> map (fun e => (true, fst e)) l = map (fun p => (true, p)) q.
  Proof. intros <-. now rewrite map_map. Qed.

  Theorem by_pressure_quality fuel m q xs ts : In m (mp_methods D E fuel) -> q <> [] -> matching q xs ->
    fst (mp_plim D) <= mp_pt D -> mp_pc D <= snd (mp_plim D) -> fst (mp_Tlim D) <= mp_Tt D -> mp_Tc D <= snd (mp_Tlim D) ->
    mm_Ts D E (Some q) = Ok ts -> (forall t T, In (Some t) ts -> kelvin_is E t T -> mp_Tt D <= T <= mp_Tc D) ->
    m [] [("p", q); ("x", xs)] = m [] [("T", ts); ("x", xs)].
  Proof.
    intros Hm Hne HM P1 P2 T1 T2 H HR.
    enough (A : mp_argparse D E fuel [] [("p", q); ("x", xs)] = mp_argparse D E fuel [] [("T", ts); ("x", xs)]).
    { repeat destruct Hm as [<-|Hm]; try contradiction;
        unfold mm_T, mm_p, mm_v, mm_d, mm_e, mm_h, mm_s, mm_f, mm_g, mm_cp, mm_cv, mm_gam, mm_a, method; now rewrite A. }
    change (mp_argparse D E fuel [] [("p", q); ("x", xs)])
      with (do x <- si_args D E [("p", q); ("x", xs)]; from_args D E fuel x).
    change (mp_argparse D E fuel [] [("T", ts); ("x", xs)])
      with (do x <- si_args D E [("T", ts); ("x", xs)]; from_args D E fuel x).
    rewrite !(si_args_val _ _ _ _ _ _ _ _ Z). cbn [dget String.eqb Ascii.eqb Bool.eqb ores bind option_map]. fold (gT ts). fold (gP q).
    unfold mm_Ts in H. cbn [bind] in H. rewrite (p_in _ _ _ _ _ _ _ _ Z) in H. cbn [bind] in H. fold (gP q) in H.
    destruct (outside_sat (mp_pt D) (mp_pc D) (gP q)) eqn:O; [discriminate|]. pose proof (proj1 (outside_sat_false _ _ _) O) as O'.
    destruct (mp_Ts D _) as [Ts|] eqn:QT; cbn [bind] in H; [|discriminate]. rewrite (atscale_from _ _ _ _ _ _ _ _ Z) in H. injection H as <-.
    assert (I : gT (map (lift1 (from_kelvin (z_T z))) Ts) = Ts).
    { unfold Proof_Mp1Units.gT. rewrite map_map. rewrite <- (map_id Ts) at 2. apply map_ext. intros [x|]; [|reflexivity]. cbn. now rewrite to_from_kelvin. }
    rewrite I.
    assert (RT : forall x, In (Some x) Ts -> mp_Tt D <= x <= mp_Tc D).
    { intros x Hx. apply (HR (from_kelvin (z_T z) x) x); [apply in_map_iff; exists (Some x); auto|]. apply kelvin_val'. now rewrite to_from_kelvin. }
    assert (LT : List.length Ts = List.length (gP q)).
    { unfold mp_Ts in QT. destruct (iter_loop _ _ _ _ _ _) as [[l w]|] eqn:L; [|discriminate]. cbn [bind fst] in QT. injection QT as <-.
      apply iter_length in L. rewrite map_length, L, !map_length. reflexivity. }
    assert (Nq : gP q <> []) by (destruct q; [contradiction|discriminate]).
    assert (NT : Ts <> []) by (destruct Ts; [destruct (gP q); [contradiction|discriminate]|discriminate]).
    rewrite (limited_inside (mp_plim D) (gP q) Nq) by (intros x Hx; specialize (O' x Hx); unfold in_range; lra).
    rewrite (limited_inside (mp_Tlim D) Ts NT) by (intros x Hx; specialize (RT x Hx); unfold in_range; lra).
    cbn [bind]. unfold gX. destruct (_ || _)%bool; cbn [bind]; [reflexivity|].
    unfold from_args. cbn [a_inv a_T a_p a_d a_x]. unfold from_px.
    assert (B0 : existsb (fun p : fl => flt (num (mp_pc D)) p) (gP q) = false).
    { apply Proof_Iter.existsb_false, Forall_forall. intros [x|] Hx; [|reflexivity]. apply flt_false. apply O'. exact Hx. }
    match goal with |- (if ?b then _ else _) = _ => replace b with false by (symmetry; exact B0) end.
    assert (HM' : matching (gP q) xs) by (unfold matching, Proof_Mp1Units.gP in *; now rewrite map_length).
    destruct (broadcast2_matching (gP q) xs Nq HM') as (l & B & F & FX & BT). destruct (BT Ts LT) as (l' & B' & ->).
    rewrite B, B'. cbn [bind]. rewrite (map_pair l (gP q) F), QT. cbn [bind]. unfold from_Tx.
    assert (B1 : existsb (fun e : fl * fl => flt (num (mp_Tc D)) (fst e)) (map2 (fun T (e : fl * fl) => (T, snd e)) Ts l) = false).
    { apply Proof_Iter.existsb_false, Forall_forall. intros e He. unfold map2 in He. apply in_map_iff in He. destruct He as ([T e'] & <- & Hx). cbn [fst].
      apply in_combine_l in Hx. destruct T as [T|]; [|reflexivity]. apply flt_false. now apply RT. }
    assert (LL : List.length Ts = List.length l) by (rewrite LT, <- F; apply map_length).
    assert (SX : map snd (map2 (fun T (e : fl * fl) => (T, snd e)) Ts l) = map snd l).
    { clear - LL. revert l LL. induction Ts as [|a Ts IH]; intros [|b l] LL; cbn in *; try discriminate; [reflexivity|]. unfold map2. cbn. f_equal. apply IH. lia. }
    match goal with |- _ = (if ?b then _ else _) => replace b with false by (symmetry; exact B1) end.
    assert (B2 : existsb (fun e : fl * fl => flt (snd e) (num 0)) (map2 (fun T (e : fl * fl) => (T, snd e)) Ts l) = existsb (fun x => flt x (num 0)) xs).
    { transitivity (existsb (fun x => flt x (num 0)) (map snd (map2 (fun T (e : fl * fl) => (T, snd e)) Ts l))).
      - generalize (map2 (fun T (e : fl * fl) => (T, snd e)) Ts l). intro k. induction k as [|a k IH]; cbn; [reflexivity|]. now rewrite IH.
      - rewrite SX. apply FX. }
    match goal with |- _ = (if ?b then _ else _) => replace b with (existsb (fun x => flt x (num 0)) xs) by (symmetry; exact B2) end.
    destruct (existsb _ xs); [reflexivity|]. f_equal.
    clear - LL. revert l LL. induction Ts as [|a Ts IH]; intros [|b l] LL; cbn in *; try discriminate; [reflexivity|]. unfold map2. cbn. f_equal. apply IH. lia.
  Qed.

  (* the critical and triple points and the limits, in configured units *)
  Theorem limits_api :
    (exists T p d, mm_critical D E = Ok ([Some T], [Some p], [Some d]) /\ kelvin_is E T (mp_Tc D) /\ pressure_is z p (mp_pc D) /\ density_is D z d (mp_dc D)) /\
    (exists T p, mm_triple D E = Ok ([Some T], [Some p]) /\ kelvin_is E T (mp_Tt D) /\ pressure_is z p (mp_pt D)) /\
    (exists a b, mm_Tlim D E = Ok [Some a; Some b] /\ kelvin_is E a (fst (mp_Tlim D)) /\ kelvin_is E b (snd (mp_Tlim D))) /\
    (exists a b, mm_plim D E = Ok [Some a; Some b] /\ pressure_is z a (fst (mp_plim D)) /\ pressure_is z b (snd (mp_plim D))).
  Proof.
    pose proof (kV_pos _ _ _ _ _ _ _ _ Z) as kVp. pose proof (kgs_pos _ _ _ _ _ _ _ _ Z) as kgp.
    assert (KK : forall T, kelvin_is E (from_kelvin (z_T z) T) T) by (intro T; apply kelvin_val'; now rewrite to_from_kelvin).
    assert (PP : forall p, pressure_is z (/ z_kP z * p) p) by (intro p; unfold pressure_is; field; lra).
    split; [|split; [|split]].
    - unfold mm_critical. rewrite (atscale_from _ _ _ _ _ _ _ _ Z), (p_out _ _ _ _ _ _ _ _ Z), (out_density_val _ _ _ _ _ _ _ _ Z). cbn [bind map lift1 option_map fmul].
      do 3 eexists. split; [reflexivity|]. split; [apply KK|]. split; [apply PP|]. unfold density_is, kgs in *.
      set (K := z_kM z * mp_mw D) in *. field. lra.
    - unfold mm_triple. rewrite (atscale_from _ _ _ _ _ _ _ _ Z), (p_out _ _ _ _ _ _ _ _ Z). cbn [bind map lift1 option_map fmul].
      do 2 eexists. split; [reflexivity|]. split; first [apply KK|apply PP].
    - unfold mm_Tlim. rewrite (atscale_from _ _ _ _ _ _ _ _ Z). cbn [bind map lift1 option_map fmul].
      do 2 eexists. split; [reflexivity|]. split; first [apply KK|apply PP].
    - unfold mm_plim. rewrite (p_out _ _ _ _ _ _ _ _ Z). cbn [bind map lift1 option_map fmul].
      do 2 eexists. split; [reflexivity|]. split; first [apply KK|apply PP].
  Qed.
End TsApi.

(* The critical point terms (coef2) of _ar of mp1.py (C45, C69). *)
From Coq Require Import Reals ZArith List Lra Lia Bool Arith.
From Verif Require Import Model_Mp1 Spec_Mp1 Proof_Jets Proof_Mp1Poly Proof_Mp1Helm Proof_Mp1Res.
Import ListNotations.
Local Open Scope R_scope.
Local Open Scope list_scope.

Definition jsq (d : R) : J1 := mk1 ((d - 1) * (d - 1)) (2 * (d - 1)) 2.
Lemma jsq_jet U : jet1_on U jsq.
Proof.
  intros x _. cbn. split.
  - apply (D_eq _ _ (1 * (x - 1) + (x - 1) * 1)); [|ring].
    apply (D_mult (fun u => u - 1) (fun u => u - 1));
      (apply (D_eq _ _ (1 - 0)); [apply (D_minus (fun u => u) (fun _ => 1)); [apply D_id|apply D_const]|ring]).
  - apply (D_eq _ _ (2 * (1 - 0))); [|ring]. apply (D_scal (fun u => u - 1) 2).
    apply (D_minus (fun u => u) (fun _ => 1)); [apply D_id|apply D_const].
Qed.
Lemma sq_pos d : d <> 1 -> 0 < (d - 1) * (d - 1).
Proof. intro H. apply Rsqr_pos_lt. lra. Qed.
(* |d-1|^(2r): the value and derivatives at d = 1 are 0 *)
Definition jdist (r d : R) : J1 :=
  if Req_EM_T d 1 then j1const 0 else j1comp (j1pow r (a0 (jsq d))) (jsq d).
Lemma jdist_off r d : d <> 1 -> jdist r d = j1comp (j1pow r (a0 (jsq d))) (jsq d).
Proof. intro H. unfold jdist. destruct (Req_EM_T d 1); [contradiction|reflexivity]. Qed.
Lemma jdist_one r : jdist r 1 = j1const 0.
Proof. unfold jdist. destruct (Req_EM_T 1 1); [reflexivity|contradiction]. Qed.
Lemma jdist_a0 r d : d <> 1 -> a0 (jdist r d) = Rpower ((d - 1) * (d - 1)) r.
Proof. intro H. rewrite jdist_off by exact H. reflexivity. Qed.
Lemma jdist_a1 r d : d <> 1 -> a1 (jdist r d) = 2 * r * Rpower ((d - 1) * (d - 1)) r / (d - 1).
Proof.
  intro H. rewrite jdist_off by exact H. cbn [a0 a1 j1comp j1pow jsq]. rewrite rpower_m1 by (apply sq_pos; exact H).
  field. lra.
Qed.
Lemma jdist_a2 r d : d <> 1 ->
  a2 (jdist r d) = 2 * r * (2 * r - 1) * Rpower ((d - 1) * (d - 1)) r / ((d - 1) * (d - 1)).
Proof.
  intro H. rewrite jdist_off by exact H. cbn [a0 a1 a2 j1comp j1pow jsq].
  rewrite rpower_m1, rpower_m2 by (apply sq_pos; exact H). field. lra.
Qed.
(* a function flat at 1 *)
Lemma D_flat f C s : 0 < C -> 1 < s -> f 1 = 0 ->
  (forall h, h <> 0 -> Rabs (f (1 + h)) <= C * Rpower (Rabs h) s) -> D f 1 0.
Proof.
  intros HC Hs H0 Hb eps He.
  assert (Hd : 0 < Rpower (eps / C) (/ (s - 1))) by apply rpower_pos.
  exists (mkposreal _ Hd). intros h Hh Hlt. cbn [pos] in Hlt.
  rewrite H0, !Rminus_0_r.
  assert (Ha : 0 < Rabs h) by (apply Rabs_pos_lt; exact Hh).
  assert (He' : 0 < eps / C) by (apply Rdiv_lt_0_compat; assumption).
  unfold Rdiv. rewrite Rabs_mult, Rabs_inv.
  apply (Rmult_lt_reg_r (Rabs h) _ _ Ha). rewrite Rmult_assoc, Rinv_l, Rmult_1_r by lra.
  apply (Rle_lt_trans _ _ _ (Hb h Hh)).
  replace (Rpower (Rabs h) s) with (Rpower (Rabs h) (s - 1) * Rabs h).
  2:{ rewrite rpower_m1 by exact Ha. field. lra. }
  rewrite <- Rmult_assoc. apply (Rmult_lt_compat_r _ _ _ Ha).
  apply (Rmult_lt_reg_r (/ C)); [apply Rinv_0_lt_compat; exact HC|].
  replace (C * Rpower (Rabs h) (s - 1) * / C) with (Rpower (Rabs h) (s - 1)) by (field; lra).
  change (eps * / C) with (eps / C).
  apply (Rlt_le_trans _ (Rpower (Rpower (eps / C) (/ (s - 1))) (s - 1))).
  - unfold Rpower at 1 2. apply exp_increasing. apply Rmult_lt_compat_l; [lra|].
    apply ln_increasing; [exact Ha|exact Hlt].
  - rewrite Rpower_mult. rewrite Rinv_l by lra. rewrite Rpower_1 by exact He'. lra.
Qed.
Lemma rpower_sq h r : h <> 0 -> Rpower (h * h) r = Rpower (Rabs h) (2 * r).
Proof.
  intro H. assert (Ha : 0 < Rabs h) by (apply Rabs_pos_lt; exact H).
  replace (h * h) with (Rabs h * Rabs h) by (rewrite <- Rabs_mult; apply Rabs_pos_eq; apply Rle_0_sqr).
  unfold Rpower. rewrite ln_mult by exact Ha. f_equal. ring.
Qed.
Lemma jdist_jet U r : 1 < r -> jet1_on U (jdist r).
Proof.
  intros Hr d _. destruct (Req_EM_T d 1) as [->|N].
  - rewrite jdist_one. cbn [a1 a2 j1const]. split.
    + apply (D_flat _ 1 (2 * r)); [lra|lra|rewrite jdist_one; reflexivity|].
      intros h Hh. rewrite jdist_a0 by lra. replace (1 + h - 1) with h by ring.
      rewrite rpower_sq by exact Hh. rewrite Rabs_pos_eq by (left; apply rpower_pos). lra.
    + apply (D_flat _ (2 * r) (2 * r - 1)); [lra|lra|rewrite jdist_one; reflexivity|].
      intros h Hh. rewrite jdist_a1 by lra. replace (1 + h - 1) with h by ring.
      rewrite rpower_sq by exact Hh. assert (Ha : 0 < Rabs h) by (apply Rabs_pos_lt; exact Hh).
      rewrite rpower_m1 by exact Ha. unfold Rdiv. rewrite !Rabs_mult, Rabs_inv.
      rewrite (Rabs_pos_eq (Rpower _ _)) by (left; apply rpower_pos).
      rewrite (Rabs_pos_eq 2), (Rabs_pos_eq r) by lra. lra.
  - assert (Ha : 0 < Rabs (d - 1)) by (apply Rabs_pos_lt; lra).
    assert (J : jet1_on (fun d => d <> 1) (fun d => j1comp (j1pow r (a0 (jsq d))) (jsq d))).
    { apply (jet1_comp (fun d => d <> 1) (fun x => 0 < x) jsq (j1pow r)).
      - apply jsq_jet.
      - intros u H. apply sq_pos. exact H.
      - apply jet1_pow. }
    destruct (J d N) as [J1' J2'].
    assert (L : forall u, Rabs (u - d) < Rabs (d - 1) -> u <> 1).
    { intros u Hu ->. rewrite Rabs_minus_sym in Hu. lra. }
    split.
    + rewrite (jdist_off r d N). apply (D_ext_loc _ _ _ _ _ Ha) with (2 := J1').
      intros u Hu. rewrite (jdist_off r u (L u Hu)). reflexivity.
    + rewrite (jdist_off r d N). apply (D_ext_loc _ _ _ _ _ Ha) with (2 := J2').
      intros u Hu. rewrite (jdist_off r u (L u Hu)). reflexivity.
Qed.

Definition jinner (r : ar2) (t d : R) : J2 :=
  j2add (j2x (mk1 (1 - t) (-1) 0)) (j2y (j1mul (j1const (r2_A r)) (jdist (/ 2 * (1 / r2_m r)) d))).
Definition jdelta (r : ar2) (t d : R) : J2 :=
  j2add (j2mul (jinner r t d) (jinner r t d)) (j2y (j1mul (j1const (r2_B r)) (jdist (r2_a r) d))).
Lemma inv_m m : 0 < m < 1 / 2 -> 1 < / 2 * (1 / m).
Proof.
  intros [H1 H2]. apply (Rmult_lt_reg_r m); [exact H1|]. replace (/ 2 * (1 / m) * m) with (/ 2) by (field; lra). lra.
Qed.
Lemma jdelta_jet (U : R -> R -> Prop) r : crit_wf r -> jet2_on U (jdelta r).
Proof.
  intros (Hm & Ha & _ & _).
  assert (HD : forall k q, 1 < q -> jet2_on U (fun _ d => j2y (j1mul (j1const k) (jdist q d)))).
  { intros k q Hq. apply (jet2_y U (fun _ => True) (fun d => j1mul (j1const k) (jdist q d))).
    - intros; exact I.
    - apply (jet1_mul _ (fun _ => j1const k) (jdist q)); [apply jet1_const|apply jdist_jet; exact Hq]. }
  assert (HI : jet2_on U (jinner r)).
  { apply (jet2_add U (fun t _ => j2x (mk1 (1 - t) (-1) 0))
      (fun _ d => j2y (j1mul (j1const (r2_A r)) (jdist (/ 2 * (1 / r2_m r)) d)))); [|apply HD; apply inv_m; exact Hm].
    apply (jet2_x U (fun _ => True) (fun t => mk1 (1 - t) (-1) 0)); [intros; exact I|].
    intros x _. cbn. split; [|apply D_const].
    apply (D_eq _ _ (0 - 1)); [|ring]. apply (D_minus (fun _ => 1) (fun u => u)); [apply D_const|apply D_id]. }
  apply (jet2_add U (fun t d => j2mul (jinner r t d) (jinner r t d))
    (fun _ d => j2y (j1mul (j1const (r2_B r)) (jdist (r2_a r) d)))); [|apply HD; exact Ha].
  apply (jet2_mul U (jinner r) (jinner r)); exact HI.
Qed.
Lemma jdelta_value r t d : b0 (jdelta r t d) = delta_fn r t d.
Proof.
  unfold jdelta, delta_fn, jinner, jdist, dist, jsq.
  destruct (Req_EM_T d 1) as [E|_];
  cbn [b0 j2add j2mul j2x j2y a0 j1mul j1const j1comp j1pow]; [ring|].
  replace (/ 2 * (1 / r2_m r)) with (1 / r2_m r / 2) by lra.
  replace (2 * r2_a r / 2) with (r2_a r) by lra.
  replace ((d - 1)^2) with ((d - 1) * (d - 1)) by ring. ring.
Qed.

(* what the code computes for Delta: the derivatives in d with the sign sg *)
Definition flip (sg : R) (J : J2) : J2 :=
  mk2 (b0 J) (bx J) (sg * by_ J) (bxx J) (sg * bxy J) (byy J).
Definition full (J : J2) : jet2 :=
  (Some (b0 J), Some (bx J), Some (by_ J), Some (bxx J), Some (bxy J), Some (byy J)).
Definition side (small : bool) (d : R) : R := if small then (if Rlt_dec d 1 then -1 else 1) else 1.
Lemma side_sq small d : side small d * side small d = 1.
Proof. unfold side. destruct small; [destruct (Rlt_dec d 1)|]; ring. Qed.
Lemma side_abs d : Rabs (d - 1) = side true d * (d - 1).
Proof.
  unfold side. destruct (Rlt_dec d 1).
  - rewrite Rabs_left by lra. ring.
  - rewrite Rabs_right by lra. ring.
Qed.
Lemma rpower_half d : d <> 1 -> Rpower ((d - 1) * (d - 1)) (/ 2) = Rabs (d - 1).
Proof.
  intro H. rewrite Rpower_sqrt by (apply sq_pos; exact H). apply (sqrt_Rsqr_abs (d - 1)).
Qed.

Lemma full_eq p px py pxx pxy pyy J : p = b0 J -> px = bx J -> py = by_ J -> pxx = bxx J ->
  pxy = bxy J -> pyy = byy J ->
  (Some p, Some px, Some py, Some pxx, Some pxy, Some pyy) = full J.
Proof. intros -> -> -> -> -> ->. reflexivity. Qed.

Lemma ar2_delta_off small t d r : d <> 1 ->
  ar2_delta small (Some t) (Some d) r = full (flip (side small d) (jdelta r t d)).
Proof.
  intro H. assert (Hn : d - 1 <> 0) by lra. pose proof (sq_pos d H) as Hs.
  unfold ar2_delta. cbv zeta. destruct small.
  all: flc; rewrite !fpow_pos by exact Hs; flc; unfold fadd, fsub, fmul, fneg;
    cbn [lift1 lift2]; repeat (rewrite (fdiv_ok _ _ Hn); cbn [lift1 lift2]).
  all: set (m := 1 / r2_m r); set (a := r2_a r).
  all: assert (Z1 : forall q, a0 (jdist q d) = Rpower ((d - 1) * (d - 1)) q) by (intro q; apply jdist_a0; exact H).
  all: unfold flip, jdelta, jinner; cbn [b0 bx by_ bxx bxy byy j2add j2mul j2x j2y];
    cbn [a0 a1 a2 j1mul j1const]; fold m; fold a;
    rewrite !jdist_a1, !jdist_a2 by exact H; rewrite !Z1.
  - assert (K1 : Rpower ((d - 1) * (d - 1)) (/ 2 * m - / 2) = Rpower ((d - 1) * (d - 1)) (/ 2 * m) / Rabs (d - 1)).
    { replace (/ 2 * m - / 2) with (/ 2 * m + - / 2) by ring. rewrite Rpower_plus, Rpower_Ropp, rpower_half by exact H. reflexivity. }
    assert (K2 : Rpower ((d - 1) * (d - 1)) (a - / 2) = Rpower ((d - 1) * (d - 1)) a / Rabs (d - 1)).
    { replace (a - / 2) with (a + - / 2) by ring. rewrite Rpower_plus, Rpower_Ropp, rpower_half by exact H. reflexivity. }
    rewrite K1, K2, !rpower_m1 by exact Hs. rewrite side_abs.
    set (P1 := Rpower _ (/ 2 * m)). set (P2 := Rpower _ a).
    unfold side. destruct (Rlt_dec d 1); apply full_eq; cbn [b0 bx by_ bxx bxy byy]; field; lra.
  - set (P1 := Rpower _ (/ 2 * m)). set (P2 := Rpower _ a).
    unfold side. apply full_eq; cbn [b0 bx by_ bxx bxy byy]; field; exact Hn.
Qed.

Lemma fpow_zero r : 0 < r -> fpow (Some 0) r = Some 0.
Proof.
  intro H. unfold fpow. destruct (Rlt_dec 0 0) as [N|_]; [lra|].
  destruct (Req_EM_T 0 0) as [_|N]; [|contradiction].
  destruct (Req_EM_T r 0) as [->|_]; [lra|]. destruct (Rlt_dec 0 r); [reflexivity|contradiction].
Qed.
Lemma ar2_delta_one t r : crit_wf r ->
  ar2_delta true (Some t) (Some 1) r = full (flip (side true 1) (jdelta r t 1)).
Proof.
  intros (Hm & Ha & _ & _). pose proof (inv_m _ Hm) as Hi. unfold ar2_delta. cbv zeta. flc.
  replace ((1 - 1) * (1 - 1)) with 0 by ring. rewrite !fpow_zero by lra. flc.
  unfold flip, jdelta, jinner. rewrite !jdist_one.
  cbn [b0 bx by_ bxx bxy byy j2add j2mul j2x j2y a0 a1 a2 j1mul j1const].
  apply full_eq; cbn [b0 bx by_ bxx bxy byy]; ring.
Qed.
Lemma ar2_delta_eq small t d r : d <> 1 \/ (small = true /\ crit_wf r) ->
  ar2_delta small (Some t) (Some d) r = full (flip (side small d) (jdelta r t d)).
Proof.
  intro H. destruct (Req_EM_T d 1) as [->|N]; [|apply ar2_delta_off; exact N].
  destruct H as [H|[-> W]]; [contradiction|]. apply ar2_delta_one. exact W.
Qed.

(* the power and the error of its mixed derivative *)
Definition mixerr (e : R) (J : J2) : J2 :=
  mk2 (b0 J) (bx J) (by_ J) (bxx J) (bxy J + e) (byy J).
Definition perr (small2 : bool) (b : R) (D : J2) : R :=
  if small2 then 0 else b * Rpower (b0 D) b * (bxx D - bxy D) / b0 D.
Lemma ar2_power_eq small2 b D : 0 < b0 D ->
  ar2_power small2 b (full D) = full (mixerr (perr small2 b D) (j2comp (j1pow b (b0 D)) D)).
Proof.
  intro H. assert (Hn : b0 D <> 0) by lra. unfold ar2_power, full at 1. cbv zeta.
  rewrite !fpow_pos by exact H. flc. repeat (rewrite (fdiv_ok _ _ Hn); flc).
  unfold perr. destruct small2; apply full_eq; unfold mixerr, j2comp; cbn [b0 bx by_ bxx bxy byy a0 a1 a2 j1pow];
    rewrite ?rpower_m1, ?rpower_m2 by exact H; field; exact Hn.
Qed.

Definition rterm2_of (r : ar2) (P : J2) (t d : R) : J2 :=
  j2mul (j2mul (j2mul (j2const (r2_c r)) (j2y (j1var d))) P)
        (jgauss (r2_C r) 1 (r2_D r) 1 t d).
Definition rterm2 (r : ar2) (t d : R) : J2 :=
  rterm2_of r (j2comp (j1pow (r2_b r) (b0 (jdelta r t d))) (jdelta r t d)) t d.

Definition near1 (all : list (fl * fl)) : bool :=
  existsb (fun e : fl * fl => is_small (snd e - num 1)%fl) all.
Definition near2 (all : list (fl * fl)) (r : ar2) : bool :=
  existsb (fun e : fl * fl =>
    let '(p, _, _, _, _, _) := ar2_delta (near1 all) (fst e) (snd e) r in is_small p) all.

Lemma ar2_term_eq all t d r : d <> 1 \/ (near1 all = true /\ crit_wf r) -> 0 < delta_fn r t d ->
  let D := flip (side (near1 all) d) (jdelta r t d) in
  ar2_term all (Some t) (Some d) r
  = full (rterm2_of r (mixerr (perr (near2 all r) (r2_b r) D) (j2comp (j1pow (r2_b r) (b0 D)) D)) t d).
Proof.
  intros H Hp D. unfold ar2_term. cbv zeta. fold (near1 all).
  change (existsb _ all) with (near2 all r).
  rewrite ar2_delta_eq by exact H. fold D. 
  assert (HD : 0 < b0 D) by (unfold D; cbn [flip b0]; rewrite jdelta_value; exact Hp).
  rewrite ar2_power_eq by exact HD.
  set (P := mixerr _ _). unfold full at 1. unfold fexp. flc. cbn [lift1]. flc.
  unfold rterm2_of, jgauss, jarg, jquad.
  apply full_eq; cbn [b0 bx by_ bxx bxy byy j2mul j2const j2y j2x a0 a1 a2 j1var j2comp j1exp j2add];
    replace (- r2_C r * ((d - 1) * (d - 1)) - r2_D r * ((t - 1) * (t - 1)))
      with (- r2_C r * ((d - 1) * (d - 1)) + - r2_D r * ((t - 1) * (t - 1))) by ring;
    ring.
Qed.

(* ---- the whole residual part ---- *)
Lemma D_near f x l : D f x l -> 0 < f x -> exists eps, 0 < eps /\ forall u, Rabs (u - x) < eps -> 0 < f u.
Proof.
  intros H Hp.
  assert (C : continuity_pt f x).
  { apply derivable_continuous_pt. exists l. exact H. }
  destruct (C (f x) Hp) as (a & Ha & K). exists a. split; [exact Ha|]. intros u Hu.
  destruct (Req_EM_T u x) as [->|N]; [exact Hp|].
  assert (KK : Rabs (f u - f x) < f x).
  { apply (K u). split; [split; [exact I|intro E; apply N; symmetry; exact E]|exact Hu]. }
  apply Rabs_def2 in KK. lra.
Qed.
Definition critdom (l : list ar2) (t d : R) : Prop :=
  opos t d /\ Forall (fun r => 0 < delta_fn r t d) l.
Lemma critdom_open l : Forall crit_wf l -> axis_open (critdom l).
Proof.
  intro W. induction W as [|r l Hr Hl IH].
  - intros x y [H _]. destruct (axis_open_pos x y H) as (e & He & Ox & Oy).
    exists e. split; [exact He|]. split; intros u Hu; (split; [|constructor]); auto.
  - intros x y [H F]. inversion F as [|? ? F1 F2]; subst.
    destruct (IH x y (conj H F2)) as (e & He & Ox & Oy).
    destruct (jdelta_jet (fun _ _ => True) r Hr x y I) as (DX & DY & _).
    destruct (D_near (fun u => delta_fn r u y) x (bx (jdelta r x y))) as (e1 & He1 & K1);
      [apply (D_ext (fun u => b0 (jdelta r u y))); [intro u; apply jdelta_value|exact DX]|exact F1|].
    destruct (D_near (fun u => delta_fn r x u) y (by_ (jdelta r x y))) as (e2 & He2 & K2);
      [apply (D_ext (fun u => b0 (jdelta r x u))); [intro u; apply jdelta_value|exact DY]|exact F1|].
    exists (Rmin e (Rmin e1 e2)). split; [repeat apply Rmin_glb_lt; assumption|].
    pose proof (Rmin_l e (Rmin e1 e2)). pose proof (Rmin_r e (Rmin e1 e2)).
    pose proof (Rmin_l e1 e2). pose proof (Rmin_r e1 e2).
    split; intros u Hu.
    + assert (A : critdom l u y) by (apply Ox; lra). destruct A as [A1 A2].
      split; [exact A1|]. constructor; [apply K1; lra|exact A2].
    + assert (A : critdom l x u) by (apply Oy; lra). destruct A as [A1 A2].
      split; [exact A1|]. constructor; [apply K2; lra|exact A2].
Qed.

Lemma rterm2_jet r : crit_wf r -> jet2_on (fun t d => 0 < delta_fn r t d) (rterm2 r).
Proof.
  intro W. unfold rterm2, rterm2_of.
  apply (jet2_mul _ (fun t d => j2mul (j2mul (j2const (r2_c r)) (j2y (j1var d)))
      (j2comp (j1pow (r2_b r) (b0 (jdelta r t d))) (jdelta r t d))) (jgauss (r2_C r) 1 (r2_D r) 1));
    [|apply jgauss_jet].
  apply (jet2_mul _ (fun t d => j2mul (j2const (r2_c r)) (j2y (j1var d)))
      (fun t d => j2comp (j1pow (r2_b r) (b0 (jdelta r t d))) (jdelta r t d))).
  - apply (jet2_mul _ (fun _ _ => j2const (r2_c r)) (fun _ d => j2y (j1var d))); [apply jet2_const|].
    apply (jet2_y _ (fun _ => True) j1var); [intros; exact I|apply jet1_var].
  - apply (jet2_comp _ (fun x => 0 < x) (jdelta r) (j1pow (r2_b r))).
    + apply jdelta_jet. exact W.
    + intros x y H. rewrite jdelta_value. exact H.
    + apply jet1_pow.
Qed.
Lemma rterm2_value r t d : 0 < delta_fn r t d -> b0 (rterm2 r t d) = crit_term r t d.
Proof.
  intro H. unfold rterm2, rterm2_of, crit_term, jgauss, jarg, jquad. rewrite power_pos by exact H.
  cbn [b0 j2mul j2const j2y j2x a0 j1pow j1var j2comp j1exp j2add]. rewrite jdelta_value.
  f_equal. f_equal. ring.
Qed.

(* the error of the mixed derivative of one term *)
Definition merr (all : list (fl * fl)) (t d : R) (r : ar2) : R :=
  r2_c r * d * perr (near2 all r) (r2_b r) (jdelta r t d) * b0 (jgauss (r2_C r) 1 (r2_D r) 1 t d).
Lemma flip_1 J : flip 1 J = J.
Proof. destruct J as [u v w x y z]. unfold flip. cbn. rewrite !Rmult_1_l. reflexivity. Qed.
Definition good_side (all : list (fl * fl)) (d : R) : Prop := near1 all = false \/ 1 <= d.
Lemma good_side_1 all d : good_side all d -> side (near1 all) d = 1.
Proof.
  intros [->|H]; [reflexivity|]. unfold side. destruct (near1 all); [|reflexivity].
  destruct (Rlt_dec d 1); lra.
Qed.
Lemma near1_in all t : In (Some t, Some 1) all -> near1 all = true.
Proof.
  intro H. unfold near1. apply existsb_exists. exists (Some t, Some 1). split; [exact H|].
  cbn [snd]. unfold is_small, fsub, num, fabs, flt. cbn [lift1 lift2].
  replace (1 - 1) with 0 by ring. rewrite Rabs_R0. destruct (Rlt_dec 0 (1 / 1000000)); [reflexivity|lra].
Qed.
Lemma ar2_term_good all t d r : crit_wf r -> In (Some t, Some d) all -> good_side all d ->
  0 < delta_fn r t d ->
  ar2_term all (Some t) (Some d) r = full (mixerr (merr all t d r) (rterm2 r t d)).
Proof.
  intros W Hin Hs Hp.
  assert (C : d <> 1 \/ (near1 all = true /\ crit_wf r)).
  { destruct (Req_EM_T d 1) as [->|N]; [right|left; exact N]. split; [|exact W]. exact (near1_in all t Hin). }
  rewrite (ar2_term_eq all t d r C Hp). rewrite (good_side_1 all d Hs), flip_1.
  apply full_eq; unfold rterm2, rterm2_of, mixerr, merr;
    cbn [b0 bx by_ bxx bxy byy j2mul j2const j2y a0 a1 a2 j1var]; ring.
Qed.
Lemma full_rep diff J : rep2 diff (full J) J.
Proof. unfold rep2, full. split; [reflexivity|]. split; intros _; repeat split. Qed.

Definition rarc (G : argroup) (l : list ar2) (t d : R) : J2 :=
  j2add (rar01 G t d) (j2sum (fun r => rterm2 r t d) l).
Lemma mix_sum f (J : ar2 -> J2) A l :
  j2add A (j2sum (fun r => mixerr (f r) (J r)) l) = mixerr (total f l) (j2add A (j2sum J l)).
Proof.
  assert (E : j2sum (fun r => mixerr (f r) (J r)) l = mixerr (total f l) (j2sum J l)).
  { induction l as [|r l IH]; [unfold mixerr, j2sum, total, j2const; cbn; rewrite Rplus_0_r; reflexivity|].
    change (j2add (mixerr (f r) (J r)) (j2sum (fun r => mixerr (f r) (J r)) l)
            = mixerr (f r + total f l) (j2add (J r) (j2sum J l))).
    rewrite IH. destruct (J r) as [u v w x y z]. destruct (j2sum J l) as [u' v' w' x' y' z'].
    unfold mixerr, j2add. cbn [b0 bx by_ bxx bxy byy].
    replace (y + f r + (y' + total f l)) with (y + y' + (f r + total f l)) by ring. reflexivity. }
  rewrite E. destruct A as [u v w x y z]. unfold mixerr, j2add. cbn [b0 bx by_ bxx bxy byy].
  rewrite Rplus_assoc. reflexivity.
Qed.
Lemma ar_gate G l all t d diff : ar_coef2 G = Some l -> Forall crit_wf l ->
  In (Some t, Some d) all -> good_side all d -> critdom l t d -> (diff = 0%nat \/ ar_prey_ok G) ->
  ar G all (Some t) (Some d) diff = gate2 diff (mixerr (total (merr all t d) l) (rarc G l t d)).
Proof.
  intros E W Hin Hs [[Ht Hd] Hp] Hc. unfold ar. cbv zeta. rewrite E, ar_stage1 by assumption.
  rewrite (fold_add_rep diff _ (fun r => mixerr (merr all t d r) (rterm2 r t d))).
  - rewrite mix_sum. reflexivity.
  - intros r Hr. rewrite Forall_forall in W, Hp. rewrite ar2_term_good; auto. apply full_rep.
Qed.
Lemma rarc_jet G l : Forall crit_wf l -> jet2_on (critdom l) (rarc G l).
Proof.
  intro W. unfold rarc. apply (jet2_add _ (rar01 G) (fun t d => j2sum (fun r => rterm2 r t d) l)).
  - apply (jet2_sub opos); [intros x y [H _]; exact H|apply rar01_jet].
  - apply (j2sum_jet _ (fun t d r => rterm2 r t d)). intros r Hr.
    apply (jet2_sub (fun t d => 0 < delta_fn r t d)).
    + intros x y [_ F]. rewrite Forall_forall in F. apply F. exact Hr.
    + apply rterm2_jet. rewrite Forall_forall in W. apply W. exact Hr.
Qed.
Lemma rarc_value G l t d : ar_wf G -> ar_coef2 G = Some l -> critdom l t d ->
  b0 (rarc G l t d) = residual_energy G t d.
Proof.
  intros W E [[Ht Hd] F]. unfold rarc, residual_energy. cbn [b0 j2add]. rewrite rar01_value by assumption.
  unfold ar01_value. rewrite E. cbn [opt_total]. f_equal. rewrite j2sum_value. apply total_ext.
  intros r Hr. rewrite Forall_forall in F. apply rterm2_value. apply F. exact Hr.
Qed.

Theorem ar_exact_crit : forall G l all diff t d, ar_wf G -> ar_coef2 G = Some l -> Forall crit_wf l ->
  (diff = 0%nat \/ ar_prey_ok G) -> 0 < t -> 0 < d -> Forall (fun r => 0 < delta_fn r t d) l ->
  In (Some t, Some d) all -> good_side all d ->
  exact2_but_mixed diff (residual_energy G) t d (ar G all (Some t) (Some d) diff) /\
  ((diff <= 1)%nat \/ (forall r, In r l -> near2 all r = true) ->
   exact2 diff (residual_energy G) t d (ar G all (Some t) (Some d) diff)).
Proof.
  intros G l all diff t d W E Wc Hc Ht Hd Hp Hin Hs.
  assert (Dm : critdom l t d) by (split; [split; assumption|exact Hp]).
  rewrite (ar_gate G l all t d diff) by assumption.
  destruct (jet2_partials (critdom l) (rarc G l) (residual_energy G) t d (critdom_open l Wc) Dm (rarc_jet G l Wc)) as [P1 P2].
  { intros u w Huw. apply rarc_value; assumption. }
  pose proof (rarc_value G l t d W E Dm) as V.
  split.
  - unfold gate2, mixerr. cbn [b0 bx by_ bxx bxy byy]. do 6 eexists. split; [reflexivity|].
    split; [exact V|]. fold (diff1 diff). fold (diff2 diff).
    destruct P2 as (Q1 & Q2 & Q3).
    destruct (diff1 diff), (diff2 diff); repeat split; try exact Q1; try exact Q3; apply P1.
  - intro K.
    assert (X : gate2 diff (mixerr (total (merr all t d) l) (rarc G l t d)) = gate2 diff (rarc G l t d)).
    { destruct K as [K|K].
      - assert (D2 : diff2 diff = false) by (destruct diff as [|[|q]]; [reflexivity|reflexivity|lia]).
        unfold gate2, mixerr. cbn [b0 bx by_ bxx bxy byy]. rewrite D2. reflexivity.
      - assert (Z : total (merr all t d) l = 0).
        { rewrite (total_ext _ (fun _ => 0)).
          - clear. induction l as [|r l IH]; [reflexivity|].
            change (0 + total (fun _ : ar2 => 0) l = 0). rewrite IH. ring.
          - intros r Hr. unfold merr, perr. rewrite (K r Hr). ring. }
        rewrite Z. unfold gate2, mixerr. cbn [b0 bx by_ bxx bxy byy]. rewrite Rplus_0_r. reflexivity. }
    rewrite X. apply (gate2_exact (critdom l)); [apply critdom_open; exact Wc|exact Dm|apply rarc_jet; exact Wc|].
    intros u w Huw. apply rarc_value; assumption.
Qed.

(* ---- the tests of the code in the vocabulary of Spec_Mp1 ---- *)
Lemma is_small_iff x : is_small (Some x) = true <-> Rabs x < 1 / 1000000.
Proof.
  unfold is_small, fabs, num, flt. cbn [lift1]. destruct (Rlt_dec (Rabs x) (1 / 1000000)); split; intro H;
    try reflexivity; try assumption; try discriminate; contradiction.
Qed.
Lemma near1_iff all : near1 all = true <-> near_critical all.
Proof.
  unfold near1, near_critical. rewrite existsb_exists. split.
  - intros ([tau [dd|]] & Hin & H); [|discriminate]. exists tau, dd. split; [exact Hin|].
    apply is_small_iff. exact H.
  - intros (tau & dd & Hin & H). exists (tau, Some dd). split; [exact Hin|].
    apply (proj2 (is_small_iff (dd - 1))). exact H.
Qed.
Lemma near1_not all : ~ near_critical all -> near1 all = false.
Proof. intro H. destruct (near1 all) eqn:E; [|reflexivity]. apply near1_iff in E. contradiction. Qed.
Lemma near2_of all r : crit_wf r -> near_zero_delta all r -> near2 all r = true.
Proof.
  intros W (tau & dd & Hin & H). unfold near2. apply existsb_exists. exists (Some tau, Some dd).
  split; [exact Hin|]. cbn [fst snd].
  rewrite ar2_delta_eq.
  - unfold full, flip. cbn [b0]. apply is_small_iff. rewrite jdelta_value. exact H.
  - destruct (Req_EM_T dd 1) as [->|N]; [right|left; exact N]. split; [|exact W]. exact (near1_in all tau Hin).
Qed.
Lemma near2_not all r : crit_wf r -> (forall e, In e all -> exists tau dd, e = (Some tau, Some dd)) ->
  ~ near_zero_delta all r -> near2 all r = false.
Proof.
  intros W F H. destruct (near2 all r) eqn:E; [|reflexivity]. exfalso. apply H.
  unfold near2 in E. apply existsb_exists in E. destruct E as (e & Hin & E).
  destruct (F e Hin) as (tau & dd & ->). exists tau, dd. split; [exact Hin|]. cbn [fst snd] in E.
  rewrite ar2_delta_eq in E.
  - unfold full, flip in E. cbn [b0] in E. rewrite jdelta_value in E. apply is_small_iff in E. exact E.
  - destruct (Req_EM_T dd 1) as [->|N]; [right|left; exact N]. split; [|exact W]. exact (near1_in all tau Hin).
Qed.

Theorem ar_exact_spec : forall G l all diff t d, ar_wf G -> ar_coef2 G = Some l -> Forall crit_wf l ->
  (diff = 0%nat \/ ar_prey_ok G) -> 0 < t -> 0 < d -> Forall (fun r => 0 < delta_fn r t d) l ->
  In (Some t, Some d) all -> (~ near_critical all \/ 1 <= d) ->
  exact2_but_mixed diff (residual_energy G) t d (ar G all (Some t) (Some d) diff) /\
  ((diff <= 1)%nat \/ (forall r, In r l -> near_zero_delta all r) ->
   exact2 diff (residual_energy G) t d (ar G all (Some t) (Some d) diff)).
Proof.
  intros G l all diff t d W E Wc Hc Ht Hd Hp Hin Hs.
  destruct (ar_exact_crit G l all diff t d W E Wc Hc Ht Hd Hp Hin) as [A B].
  { destruct Hs as [Hs|Hs]; [left; apply near1_not; exact Hs|right; exact Hs]. }
  split; [exact A|]. intros [K|K]; apply B; [left; exact K|right].
  intros r Hr. rewrite Forall_forall in Wc. apply near2_of; auto.
Qed.

(* ---- the value alone, everywhere ---- *)
Definition jvalue (J : jet2) : fl := let '(p, _, _, _, _, _) := J in p.
Lemma jvalue_add diff S J : jvalue (add_jet diff S J) = (jvalue S + jvalue J)%fl.
Proof. destruct S as [[[[[? ?] ?] ?] ?] ?]. destruct J as [[[[[? ?] ?] ?] ?] ?]. reflexivity. Qed.
Lemma delta_nonneg r t d : 0 <= r2_B r -> 0 <= delta_fn r t d.
Proof.
  intro H. unfold delta_fn. apply Rplus_le_le_0_compat; [apply pow2_ge_0|].
  apply Rmult_le_pos; [exact H|]. unfold dist. destruct (Req_EM_T d 1); [lra|left; apply rpower_pos].
Qed.
Lemma fpow_power x r : 0 <= x -> 0 < r -> fpow (Some x) r = Some (power x r).
Proof.
  intros Hx Hr. destruct (Rle_lt_or_eq_dec 0 x Hx) as [P|<-].
  - rewrite fpow_pos, power_pos by exact P. reflexivity.
  - rewrite fpow_zero by exact Hr. unfold power. destruct (Req_EM_T r 0) as [E|_]; [lra|].
    destruct (Req_EM_T r 1); [reflexivity|]. destruct (Rlt_dec 0 0) as [N|_]; [lra|reflexivity].
Qed.
Lemma ar2_term_value all t d r : crit_wf r ->
  jvalue (ar2_term all (Some t) (Some d) r) = Some (crit_term r t d).
Proof.
  intros (Hm & Ha & HB & Hb). unfold ar2_term. cbv zeta.
  match goal with |- context [ar2_power ?s2 _ (ar2_delta ?s _ _ _)] => generalize s2; intro small2; generalize s; intro small end.
  assert (V : jvalue (ar2_delta small (Some t) (Some d) r) = Some (delta_fn r t d)).
  { destruct (Req_EM_T d 1) as [->|N].
    - unfold ar2_delta. cbv zeta. cbn [jvalue]. flc. replace ((1 - 1) * (1 - 1)) with 0 by ring.
      rewrite !fpow_zero by (try apply inv_m in Hm; lra). flc. apply some_eq.
      unfold delta_fn, dist. destruct (Req_EM_T 1 1) as [_|Z]; [|contradiction]. ring.
    - rewrite ar2_delta_off by exact N. unfold full, flip. cbn [jvalue b0]. apply some_eq. apply jdelta_value. }
  assert (PV : jvalue (ar2_power small2 (r2_b r) (ar2_delta small (Some t) (Some d) r))
               = Some (power (delta_fn r t d) (r2_b r))).
  { destruct (ar2_delta small (Some t) (Some d) r) as [[[[[p pt] pd] ptt] ptd] pdd]. cbn [jvalue] in V. subst p.
    unfold ar2_power. destruct small2; cbv zeta; cbn [jvalue]; apply fpow_power; try assumption;
      apply delta_nonneg; exact HB. }
  destruct (ar2_power small2 (r2_b r) (ar2_delta small (Some t) (Some d) r)) as [[[[[e et] ed] ett] etd] edd].
  cbn [jvalue] in PV. subst e. cbn [jvalue]. unfold fexp. flc. cbn [lift1]. flc. apply some_eq.
  unfold crit_term. f_equal. f_equal. ring.
Qed.
Theorem ar_value : forall G l all t d diff, ar_wf G -> ar_coef2 G = Some l -> Forall crit_wf l ->
  (diff = 0%nat \/ ar_prey_ok G) -> 0 < t -> 0 < d ->
  exists a b c e f, ar G all (Some t) (Some d) diff = (Some (residual_energy G t d), a, b, c, e, f).
Proof.
  intros G l all t d diff W E Wc Hc Ht Hd.
  assert (V : jvalue (ar G all (Some t) (Some d) diff) = Some (residual_energy G t d)).
  { unfold ar. cbv zeta. rewrite E, ar_stage1 by assumption.
    assert (K : forall S s, jvalue S = Some s ->
      jvalue (fold_left (fun S r => add_jet diff S (ar2_term all (Some t) (Some d) r)) l S)
      = Some (s + total (fun r => crit_term r t d) l)).
    { clear E. induction Wc as [|r l Hr Hl IH]; intros S s HS; cbn [fold_left].
      - rewrite HS. apply some_eq. cbn. ring.
      - rewrite (IH _ (s + crit_term r t d)).
        + apply some_eq. change (total (fun r => crit_term r t d) (r :: l))
            with (crit_term r t d + total (fun r => crit_term r t d) l). ring.
        + rewrite jvalue_add, HS, ar2_term_value by exact Hr. reflexivity. }
    rewrite (K _ (b0 (rar01 G t d))) by reflexivity. apply some_eq.
    rewrite rar01_value by assumption. unfold residual_energy, ar01_value. rewrite E. reflexivity. }
  destruct (ar G all (Some t) (Some d) diff) as [[[[[p a] b] c] e] f]. cbn [jvalue] in V. subst p.
  do 5 eexists. reflexivity.
Qed.

(* ---- refuted: the mixed derivative ---- *)
Lemma D_unique f x l l' : D f x l -> D f x l' -> l = l'.
Proof. exact (uniqueness_limite f x l l'). Qed.
Lemma mixed_unique f x y l l' : mixed f x y l -> mixed f x y l' -> l = l'.
Proof.
  intros (g & e & He & G1 & G2) (g' & e' & He' & G1' & G2').
  apply (D_unique g' y); [|exact G2'].
  apply (D_ext_loc g g' y l (Rmin e e')); [apply Rmin_glb_lt; assumption| |exact G2].
  intros u Hu. pose proof (Rmin_l e e'). pose proof (Rmin_r e e').
  apply (D_unique (fun z => f z u) x); [apply G1|apply G1']; lra.
Qed.
Lemma jdelta_tt r t d : bxx (jdelta r t d) = 2.
Proof. unfold jdelta, jinner. cbn [bxx bx b0 j2add j2mul j2x j2y a0 a1 a2 j1mul j1const]. ring. Qed.
Lemma jdelta_td r t d : 0 <= r2_A r -> 0 < r2_m r -> 1 < d -> bxy (jdelta r t d) <= 0.
Proof.
  intros HA Hm Hd. unfold jdelta, jinner. cbn [bxx bxy bx by_ b0 j2add j2mul j2x j2y a0 a1 a2 j1mul j1const].
  rewrite jdist_a1 by lra.
  set (P := Rpower _ _). assert (HP : 0 < P) by apply rpower_pos.
  assert (Hq : 0 <= 2 * (/ 2 * (1 / r2_m r)) * P / (d - 1)).
  { left. apply Rdiv_lt_0_compat; [|lra]. apply Rmult_lt_0_compat; [|exact HP].
    assert (0 < / r2_m r) by (apply Rinv_0_lt_compat; exact Hm). lra. }
  pose proof (Rmult_le_pos _ _ HA Hq) as Hr. lra.
Qed.
Theorem mixed_wrong : forall G r t d, ar_wf G -> ar_prey_ok G -> ar_coef2 G = Some [r] -> crit_wf r ->
  r2_c r <> 0 -> 0 <= r2_A r -> 0 < t -> 1 + 1 / 1000000 <= d -> 1 / 1000000 <= delta_fn r t d ->
  exists p px py pxx pxy pyy,
    ar G [(Some t, Some d)] (Some t) (Some d) 2 = (Some p, Some px, Some py, Some pxx, Some pxy, Some pyy) /\
    ~ mixed (residual_energy G) t d pxy.
Proof.
  intros G r t d W Wp E Wc Hc HA Ht Hd HD.
  assert (H1 : near1 [(Some t, Some d)] = false).
  { apply near1_not. intros (tau & dd & [H|[]] & K). injection H as _ <-. rewrite Rabs_pos_eq in K; lra. }
  assert (H2 : near2 [(Some t, Some d)] r = false).
  { apply near2_not; [exact Wc| |].
    - intros e [<-|[]]. exists t, d. reflexivity.
    - intros (tau & dd & [H|[]] & K). injection H as <- <-. rewrite Rabs_pos_eq in K; lra. }
  assert (Hp : critdom [r] t d).
  { split; [split; lra|]. constructor; [lra|constructor]. }
  rewrite (ar_gate G [r] [(Some t, Some d)] t d 2); [|exact E|constructor; [exact Wc|constructor]|left; reflexivity
    |left; exact H1|exact Hp|right; exact Wp].
  unfold gate2, mixerr. cbn [b0 bx by_ bxx bxy byy diff1 diff2 Nat.ltb Nat.leb].
  do 6 eexists. split; [reflexivity|]. intro M.
  assert (W1 : Forall crit_wf [r]) by (constructor; [exact Wc|constructor]).
  destruct (jet2_partials (critdom [r]) (rarc G [r]) (residual_energy G) t d (critdom_open _ W1) Hp (rarc_jet G _ W1)) as [_ P2].
  { intros u w Huw. apply rarc_value; assumption. }
  destruct P2 as (_ & P2 & _).
  pose proof (mixed_unique _ _ _ _ _ M P2) as X.
  assert (Z : total (merr [(Some t, Some d)] t d) [r] = 0) by lra.
  change (merr [(Some t, Some d)] t d r + 0 = 0) in Z.
  unfold merr, perr in Z. rewrite H2, jdelta_tt in Z.
  destruct Wc as (Hm & Ha & HB & Hb).
  pose proof (jdelta_td r t d HA ltac:(lra) ltac:(lra)) as TD.
  set (B := bxy (jdelta r t d)) in *. rewrite jdelta_value in Z.
  set (g := b0 (jgauss _ _ _ _ _ _)) in Z.
  assert (Hg : 0 < g) by (unfold g, jgauss; cbn [b0 j2comp a0 j1exp]; apply exp_pos).
  set (P := Rpower _ _) in Z. assert (HP : 0 < P) by apply rpower_pos.
  set (q := r2_b r * P * (2 - B) / delta_fn r t d) in Z.
  assert (Hq : 0 < q).
  { apply Rdiv_lt_0_compat; [|lra]. apply Rmult_lt_0_compat; [apply Rmult_lt_0_compat; assumption|lra]. }
  assert (Y : r2_c r * (d * q * g) = 0) by (rewrite <- Z; ring).
  apply Rmult_integral in Y. destruct Y as [Y|Y]; [contradiction|].
  assert (0 < d * q * g); [|lra]. apply Rmult_lt_0_compat; [apply Rmult_lt_0_compat; lra|exact Hg].
Qed.

(* ---- refuted: another element of the array changes the result ---- *)
Lemma jdelta_d_neg r t d : crit_wf r -> 0 <= r2_A r -> 0 < r2_B r -> t <= 1 -> d < 1 -> by_ (jdelta r t d) < 0.
Proof.
  intros (Hm & Ha & _ & _) HA HB Ht Hd. unfold jdelta, jinner.
  cbn [bxx bxy bx by_ b0 j2add j2mul j2x j2y a0 a1 a2 j1mul j1const].
  rewrite !jdist_a1, jdist_a0 by lra.
  set (P := Rpower _ (/ 2 * _)). set (Q := Rpower _ (r2_a r)).
  assert (HP : 0 < P) by apply rpower_pos. assert (HQ : 0 < Q) by apply rpower_pos.
  pose proof (inv_m _ Hm) as Hi. set (i := / 2 * (1 / r2_m r)) in *.
  assert (X1 : 2 * i * P / (d - 1) <= 0).
  { unfold Rdiv. left. apply Ropp_lt_cancel. rewrite Ropp_0, Ropp_mult_distr_r.
    apply Rmult_lt_0_compat; [apply Rmult_lt_0_compat; lra|].
    pose proof (Rinv_lt_0_compat (d - 1) ltac:(lra)). lra. }
  assert (X2 : 2 * r2_a r * Q / (d - 1) < 0).
  { unfold Rdiv. apply Ropp_lt_cancel. rewrite Ropp_0, Ropp_mult_distr_r.
    apply Rmult_lt_0_compat; [apply Rmult_lt_0_compat; lra|].
    pose proof (Rinv_lt_0_compat (d - 1) ltac:(lra)). lra. }
  set (x1 := 2 * i * P / (d - 1)) in *. set (x2 := 2 * r2_a r * Q / (d - 1)) in *.
  assert (Y1 : 0 <= 1 - t + r2_A r * P).
  { apply Rplus_le_le_0_compat; [lra|]. apply Rmult_le_pos; lra. }
  assert (Y2 : 0 <= r2_A r * - x1) by (apply Rmult_le_pos; lra).
  pose proof (Rmult_le_pos _ _ Y1 Y2) as Y3.
  assert (Y4 : 0 < r2_B r * - x2) by (apply Rmult_lt_0_compat; lra).
  replace (1 - t + (0 * P + r2_A r * P)) with (1 - t + r2_A r * P) by ring.
  nra.
Qed.
Definition jd (J : jet2) : fl := let '(_, _, d, _, _, _) := J in d.
Lemma jd_add diff S J : diff1 diff = true -> jd (add_jet diff S J) = (jd S + jd J)%fl.
Proof.
  intro H. destruct S as [[[[[? ?] ?] ?] ?] ?]. destruct J as [[[[[? ?] ?] ?] ?] ?]. unfold add_jet, jd. rewrite H. reflexivity.
Qed.
Theorem neighbour_changes_ad : forall G r t d t', ar_prey_ok G -> ar_coef2 G = Some [r] -> crit_wf r ->
  r2_c r <> 0 -> 0 <= r2_A r -> 0 < r2_B r -> 0 < t <= 1 -> 0 < d <= 1 - 1 / 1000000 ->
  exists x y,
    jd (ar G [(Some t, Some d)] (Some t) (Some d) 1) = Some x /\
    jd (ar G [(Some t, Some d); (t', Some 1)] (Some t) (Some d) 1) = Some y /\ x <> y.
Proof.
  intros G r t d t' Wp E Wc Hc HA HB Ht Hd.
  assert (H1 : near1 [(Some t, Some d)] = false).
  { apply near1_not. intros (tau & dd & [H|[]] & K). injection H as _ <-. rewrite Rabs_left in K; lra. }
  assert (H2 : near1 [(Some t, Some d); (t', Some 1)] = true).
  { apply near1_iff. exists t', 1. split; [right; left; reflexivity|].
    replace (1 - 1) with 0 by ring. rewrite Rabs_R0. lra. }
  assert (N : d <> 1) by lra.
  assert (HD : 0 < delta_fn r t d).
  { unfold delta_fn. apply Rplus_le_lt_0_compat; [apply pow2_ge_0|]. apply Rmult_lt_0_compat; [exact HB|].
    unfold dist. destruct (Req_EM_T d 1); [contradiction|apply rpower_pos]. }
  pose proof (jdelta_d_neg r t d Wc HA HB ltac:(lra) ltac:(lra)) as ND.
  assert (K : forall all, jd (ar G all (Some t) (Some d) 1)
    = Some (by_ (rar01 G t d) + by_ (rterm2_of r (mixerr (perr (near2 all r) (r2_b r) (flip (side (near1 all) d) (jdelta r t d)))
         (j2comp (j1pow (r2_b r) (b0 (flip (side (near1 all) d) (jdelta r t d)))) (flip (side (near1 all) d) (jdelta r t d)))) t d))).
  { intro all. unfold ar. cbv zeta. rewrite E, ar_stage1 by (try right; try assumption; lra).
    cbn [fold_left]. rewrite jd_add by reflexivity. rewrite ar2_term_eq by (try assumption; left; exact N).
    reflexivity. }
  rewrite !K. eexists. eexists. split; [reflexivity|]. split; [reflexivity|].
  rewrite H1, H2. unfold side. destruct (Rlt_dec d 1) as [_|Z]; [|lra].
  unfold rterm2_of, mixerr, flip. cbn [b0 bx by_ bxx bxy byy j2mul j2const j2y a0 a1 a2 j1var j2comp j1pow].
  rewrite jdelta_value.
  set (gg := b0 (jgauss _ _ _ _ _ _)). set (gy := by_ (jgauss _ _ _ _ _ _)).
  assert (Hg : 0 < gg) by (unfold gg, jgauss; cbn [b0 j2comp a0 j1exp]; apply exp_pos).
  set (P := Rpower _ (r2_b r - 1)). assert (HP : 0 < P) by apply rpower_pos.
  destruct Wc as (_ & _ & _ & Hb).
  set (u := by_ (jdelta r t d)) in *. set (P0 := Rpower _ (r2_b r)).
  intro X.
  assert (Y : r2_c r * (d * (r2_b r * P * - u) * gg) = 0) by lra.
  apply Rmult_integral in Y. destruct Y as [Y|Y]; [contradiction|].
  assert (0 < d * (r2_b r * P * - u) * gg); [|lra].
  apply Rmult_lt_0_compat; [|exact Hg]. apply Rmult_lt_0_compat; [lra|].
  apply Rmult_lt_0_compat; [apply Rmult_lt_0_compat; assumption|lra].
Qed.

(* The free energies of the IF-97 regions as twice differentiable functions, and the properties
   as their derivatives. *)
From Coq Require Import Reals ZArith List Bool Lia Lra Arith.
From Verif Require Import Model_If97 Spec_Mp1 Spec_If97 Proof_Jets Proof_Mp1Poly Proof_If97Poly Proof_If97Sat.
Import ListNotations.
Local Open Scope R_scope.

(* ---- open sets ---- *)
Definition open1 (V : R -> Prop) : Prop := forall x, V x -> exists d, 0 < d /\ forall u, Rabs (u - x) < d -> V u.
Definition rect (P Q : R -> Prop) (x y : R) : Prop := P x /\ Q y.
Lemma rect_open P Q : open1 P -> open1 Q -> axis_open (rect P Q).
Proof.
  intros HP HQ x y [Hx Hy]. destruct (HP x Hx) as (d1 & A1 & B1). destruct (HQ y Hy) as (d2 & A2 & B2).
  exists (Rmin d1 d2). split; [now apply Rmin_pos|]. split; intros u Hu; (split; [|]); try assumption.
  - apply B1. eapply Rlt_le_trans; [exact Hu|apply Rmin_l].
  - apply B2. eapply Rlt_le_trans; [exact Hu|apply Rmin_r].
Qed.
Lemma open1_pos : open1 (fun x => 0 < x).
Proof. intros x Hx. exists x. split; [exact Hx|]. intros u Hu. apply Rabs_def2 in Hu. lra. Qed.
Lemma open1_and P Q : open1 P -> open1 Q -> open1 (fun x => P x /\ Q x).
Proof.
  intros HP HQ x [Hx Hy]. destruct (HP x Hx) as (d1 & A1 & B1). destruct (HQ x Hy) as (d2 & A2 & B2).
  exists (Rmin d1 d2). split; [now apply Rmin_pos|]. intros u Hu. split.
  - apply B1. eapply Rlt_le_trans; [exact Hu|apply Rmin_l].
  - apply B2. eapply Rlt_le_trans; [exact Hu|apply Rmin_r].
Qed.
Lemma open1_raise e A : open1 (can_raise e A).
Proof.
  intros x [H|H].
  - exists (Rabs x). split; [now apply Rabs_pos_lt|]. intros u Hu. left. intros ->. rewrite Rminus_0_l, Rabs_Ropp in Hu. lra.
  - exists 1. split; [lra|]. intros u _. now right.
Qed.
Lemma open1_pre f P W : open1 P -> open1 W -> (forall x, W x -> continuity_pt f x) -> open1 (fun x => W x /\ P (f x)).
Proof.
  intros HP HW Hc x [Hw Hx]. destruct (HP _ Hx) as (d & A & B). destruct (HW x Hw) as (d2 & A2 & B2).
  specialize (Hc x Hw). destruct (Hc d A) as (a & Ha & Q). exists (Rmin a d2). split; [apply Rmin_pos; assumption|].
  intros u Hu. assert (Rabs (u - x) < a) by (eapply Rlt_le_trans; [exact Hu|apply Rmin_l]).
  assert (Rabs (u - x) < d2) by (eapply Rlt_le_trans; [exact Hu|apply Rmin_r]). split; [now apply B2|].
  destruct (Req_dec u x) as [->|Hne]; [exact Hx|]. apply B. apply (Q u). split; [|assumption]. split; [exact I|]. congruence.
Qed.
Lemma open1_all : open1 (fun _ => True).
Proof. intros x _. exists 1. split; [lra|auto]. Qed.

(* ---- an energy R T F(x/xs, ts/T) ---- *)
Section Energy.
Variables (P Q : R -> Prop) (F : R -> R -> J2) (v : R -> R -> R) (R0 xs ts : R).
Hypothesis (HP : open1 P) (HQ : open1 Q) (HF : jet2_on (rect P Q) F) (Hv : forall x y, P x -> Q y -> b0 (F x y) = v x y).
Hypothesis Hxs : xs <> 0.
Definition Earg (x : R) : J1 := mk1 (x / xs) (1 / xs) 0.
Definition Etau (T : R) : J1 := mk1 (ts / T) (- ts / (T * T)) (2 * ts / (T * T * T)).
Definition Elin (T : R) : J1 := mk1 (R0 * T) R0 0.
Definition EU (x T : R) : Prop := P (x / xs) /\ (0 < T /\ Q (ts / T)).
Definition Ejet (x T : R) : J2 := j2mul (j2y (Elin T)) (j2args (F (x / xs) (ts / T)) (Earg x) (Etau T)).
Lemma EU_open : axis_open EU.
Proof.
  apply (rect_open (fun x => P (x / xs)) (fun T => 0 < T /\ Q (ts / T))).
  - intros x Hx. destruct (open1_pre (fun x => x / xs) P (fun _ => True) HP open1_all) with (x := x) as (d & A & B).
    + intros u _. apply derivable_continuous_pt. exists (/ xs * 1).
      apply (D_ext (fun u => / xs * u)); [intro w; field; exact Hxs|]. apply (D_scal (fun u => u) (/ xs) u 1), derivable_pt_lim_id.
    + split; auto.
    + exists d. split; [exact A|]. intros u Hu. apply B. exact Hu.
  - apply (open1_pre (fun T => ts / T) Q (fun T => 0 < T) HQ open1_pos). intros T HT.
    apply continuity_pt_div; [apply continuity_pt_const; intros ? ?; reflexivity|apply derivable_continuous_pt, derivable_pt_id|lra].
Qed.
Lemma Ejet_jet : jet2_on EU Ejet.
Proof.
  unfold Ejet. apply jet2_mul.
  - apply (jet2_y EU (fun _ => True)); [auto|]. intros T _. cbn. split; [|apply D_const].
    eapply D_eq; [apply (D_scal (fun u => u) R0 T 1), derivable_pt_lim_id|]. ring.
  - apply (jet2_args EU (rect P Q) (fun _ => True) (fun T => 0 < T) Earg Etau F).
    + intros x y (A & B & C). cbn. unfold rect. auto.
    + intros x _. cbn. split; [|apply D_const]. apply (D_ext (fun u => / xs * u)); [intro u; field; exact Hxs|].
      eapply D_eq; [apply (D_scal (fun u => u) (/ xs) x 1), derivable_pt_lim_id|]. field. exact Hxs.
    + intros T HT. cbn. split.
      * apply (D_ext (fun u => ts * / u)); [intro u; reflexivity|].
        eapply D_eq; [apply D_scal, D_inv; lra|]. field. lra.
      * apply (D_ext (fun u => (- ts) * (/ (u * u)))); [intro u; unfold Rdiv; ring|].
        eapply D_eq; [apply D_scal; apply (D_comp (fun u => u * u) (fun w => / w)); [apply D_mult; apply derivable_pt_lim_id|apply D_inv; nra]|].
        cbv beta. field. lra.
    + exact HF.
Qed.
Lemma Evalue x T : EU x T -> b0 (Ejet x T) = R0 * T * v (x / xs) (ts / T).
Proof. intros (A & B & C). cbn. rewrite Hv by assumption. reflexivity. Qed.
Lemma Epartials x T : EU x T ->
  partials1 (fun x T => R0 * T * v (x / xs) (ts / T)) x T (bx (Ejet x T)) (by_ (Ejet x T)) /\
  partials2 (fun x T => R0 * T * v (x / xs) (ts / T)) x T (bxx (Ejet x T)) (bxy (Ejet x T)) (byy (Ejet x T)).
Proof.
  intro H. apply (jet2_partials EU Ejet); [apply EU_open|exact H|apply Ejet_jet|apply Evalue].
Qed.
End Energy.

(* ---- the properties from a Gibbs energy ---- *)
Lemma gate2_1 (J : J2) : gate2 1 J = (Some (b0 J), Some (bx J), Some (by_ J), Some 0, Some 0, Some 0).
Proof. reflexivity. Qed.
Lemma gate2_2 (J : J2) : gate2 2 J = (Some (b0 J), Some (bx J), Some (by_ J), Some (bxx J), Some (bxy J), Some (byy J)).
Proof. reflexivity. Qed.

Definition reads (g : fl -> fl -> nat -> res energies) (F : R -> R -> J2) (xs ts T p : R) : Prop :=
  forall order, g (Some T) (Some p) order = Ok (Some (p / xs), Some (ts / T), gate2 order (F (p / xs) (ts / T))).

Section Gibbs.
Variables (D : ifdata) (P Q : R -> Prop) (F : R -> R -> J2) (v : R -> R -> R) (xs ts : R) (g : fl -> fl -> nat -> res energies).
Hypothesis (HP : open1 P) (HQ : open1 Q) (HF : jet2_on (rect P Q) F) (Hv : forall x y, P x -> Q y -> b0 (F x y) = v x y).
Hypothesis (Hxs : xs <> 0).
Let G (p T : R) : R := if_R D * T * v (p / xs) (ts / T).

Lemma gibbs_properties T p : 0 < T -> 0 < p -> P (p / xs) -> Q (ts / T) -> reads g F xs ts T p ->
  exists h s vol e cp cv, gibbs_state G p T h s vol e cp /\ gibbs_cv G p T cp cv /\
    (forall o, (do r <- g (Some T) (Some p) (S o); Ok (h_g D (Some T) (Some p) r)) = Ok (Some h)) /\
    (forall o, (do r <- g (Some T) (Some p) (S o); Ok (s_g D (Some T) (Some p) r)) = Ok (Some s)) /\
    (forall o, (do r <- g (Some T) (Some p) (S o); Ok (v_g D (Some T) (Some p) r)) = Ok (Some vol)) /\
    (vol <> 0 -> forall o, (do r <- g (Some T) (Some p) (S o); Ok (d_g D (Some T) (Some p) r)) = Ok (Some (1 / vol))) /\
    (forall o, (do r <- g (Some T) (Some p) (S o); Ok (e_g D (Some T) (Some p) r)) = Ok (Some e)) /\
    (do r <- g (Some T) (Some p) 2%nat; Ok (cp_g D (Some T) (Some p) r)) = Ok (Some cp) /\
    (do r <- g (Some T) (Some p) 2%nat; Ok (cv_g D (Some T) (Some p) r)) = Ok cv.
Proof.
  intros HT Hp H1 H2 HR. set (J := F (p / xs) (ts / T)) in *. set (R0 := if_R D).
  set (pi := p / xs) in *. set (t := ts / T) in *.
  destruct (Epartials P Q F v R0 xs ts HP HQ HF Hv Hxs p T) as [[D1 D2] (D3 & D4 & D5)].
  { split; [exact H1|]. split; assumption. }
  assert (E0 : G p T = R0 * T * b0 J) by (unfold G, J; rewrite Hv by assumption; reflexivity).
  cbn [Ejet j2mul j2y j2args Elin Earg Etau a0 a1 a2 b0 bx by_ bxx bxy byy] in D1, D2, D3, D4, D5. fold pi t J in D1, D2, D3, D4, D5.
  exists (R0 * T * t * by_ J), (R0 * (t * by_ J - b0 J)), (R0 * T * pi * bx J / (p * 100)),
    (T * R0 * (t * by_ J - pi * bx J)), (- R0 * t * t * byy J),
    (if Req_EM_T (bxx J) 0 then None else Some (R0 * ((bx J - t * bxy J) * (bx J - t * bxy J) / bxx J - t * t * byy J))).
  assert (Et : ts = t * T) by (unfold t; field; lra).
  assert (Ep : p = pi * xs) by (unfold pi; field; exact Hxs).
  assert (Hpi : pi <> 0). { intro Q0. rewrite Q0 in Ep. lra. }
  split; [|split; [|split; [|split; [|split; [|split; [|split; [|split]]]]]]].
  - unfold gibbs_state. fold R0. split; [|split; [|split; [|split]]].
    + eapply D_eq; [exact D2|]. rewrite Et at 1. field. lra.
    + eapply D_eq; [exact D1|]. rewrite Ep. field. split; assumption.
    + rewrite E0. ring.
    + field. lra.
    + destruct D5 as (f' & eps & A & B & C). exists f', eps. split; [exact A|]. split; [exact B|]. eapply D_eq; [exact C|].
      rewrite Et. field. lra.
  - do 2 eexists. split; [exact D3|]. split; [exact D4|]. intro HG.
    destruct (Req_EM_T (bxx J) 0) as [Z|Z]; [exfalso; apply HG; rewrite Z; ring|].
    assert (HR0 : R0 <> 0). { intro Q0. apply HG. rewrite Q0. ring. }
    f_equal. rewrite Et.
    field_simplify_eq; [ring|]. repeat split; try assumption; try lra.
  - intro o. rewrite HR. reflexivity.
  - intro o. rewrite HR. reflexivity.
  - intro o. rewrite HR. cbn [bind]. unfold v_g. cbn [gate2 jx]. flc. rewrite fdiv_ok by lra. reflexivity.
  - intros Hvol o. rewrite HR. cbn [bind]. unfold d_g. cbn [gate2 jx]. flc.
    assert (Hn : R0 * T * pi * bx J <> 0). { intro Q0. apply Hvol. rewrite Q0. field. lra. }
    rewrite fdiv_ok by exact Hn. apply f_equal, f_equal. change (diff1 (S o)) with true. cbv iota. fold pi t J R0.
    field. repeat split; try lra; intro Q0; apply Hn; rewrite Q0; ring.
  - intro o. rewrite HR. reflexivity.
  - rewrite HR. reflexivity.
  - rewrite HR, gate2_2. fold pi t J. cbn [bind]. unfold cv_g. cbn [jx jxx jxy jyy]. flc. unfold fdiv. destruct (Req_EM_T (bxx J) 0); reflexivity.
Qed.
End Gibbs.

(* ---- the routines of the regions ---- *)
Lemma open1_cont f P : open1 P -> continuity f -> open1 (fun x => P (f x)).
Proof.
  intros HP Hc x Hx. destruct (open1_pre f P (fun _ => True) HP open1_all (fun x _ => Hc x) x (conj I Hx)) as (d & A & B).
  exists d. split; [exact A|]. intros u Hu. apply (B u Hu).
Qed.
Lemma open1_sub_l c P : open1 P -> open1 (fun x => P (c - x)).
Proof. intro H. apply (open1_cont (fun x => c - x)); [exact H|]. intro x. apply continuity_pt_minus; [apply continuity_pt_const; intros ? ?; reflexivity|apply derivable_continuous_pt, derivable_pt_id]. Qed.
Lemma open1_sub_r c P : open1 P -> open1 (fun x => P (x - c)).
Proof. intro H. apply (open1_cont (fun x => x - c)); [exact H|]. intro x. apply continuity_pt_minus; [apply derivable_continuous_pt, derivable_pt_id|apply continuity_pt_const; intros ? ?; reflexivity]. Qed.

Lemma D_affine a b x : D (fun u => a + b * u) x b.
Proof.
  eapply D_eq; [apply D_plus; [apply D_const|apply (D_scal (fun u => u) b x 1), derivable_pt_lim_id]|]. ring.
Qed.
Definition affine (a b x : R) : J1 := mk1 (a + b * x) b 0.
Lemma affine_jet U a b : jet1_on U (affine a b).
Proof. intros x _. cbn. split; [apply D_affine|apply D_const]. Qed.

Theorem g1_jet D : usable (if_r1 D) -> exists F,
  jet2_on (rect (fun x => can_raise tm (if_r1 D) (7.1 - x)) (fun y => can_raise tn (if_r1 D) (y - 1.222))) F /\
  (forall x y, can_raise tm (if_r1 D) (7.1 - x) -> can_raise tn (if_r1 D) (y - 1.222) -> b0 (F x y) = gamma1 D x y) /\
  forall T p, T <> 0 -> can_raise tm (if_r1 D) (7.1 - p / 165.3) -> can_raise tn (if_r1 D) (1386 / T - 1.222) ->
    reads (g1 D) F 165.3 1386 T p.
Proof.
  intro HU. destruct (peval_jet _ HU) as (F & J & V & E).
  exists (fun x y => j2args (F (7.1 - x) (y - 1.222)) (affine 7.1 (-1) x) (affine (-1.222) 1 y)).
  assert (Ex : forall x, a0 (affine 7.1 (-1) x) = 7.1 - x) by (intro x; cbn [affine a0]; lra).
  assert (Ey : forall y, a0 (affine (-1.222) 1 y) = y - 1.222) by (intro y; cbn [affine a0]; lra).
  split; [|split].
  - apply (jet2_ext _ (fun x y => j2args (F (a0 (affine 7.1 (-1) x)) (a0 (affine (-1.222) 1 y))) (affine 7.1 (-1) x) (affine (-1.222) 1 y))).
    { intros x y. rewrite Ex, Ey. reflexivity. }
    apply (jet2_args _ (dom (if_r1 D)) (fun _ => True) (fun _ => True) (affine 7.1 (-1)) (affine (-1.222) 1) F); auto using affine_jet.
    intros x y [A B]. rewrite Ex, Ey. unfold dom. auto.
  - intros x y A B. cbn [j2args b0]. apply V. split; assumption.
  - intros T p HT A B order. unfold g1. cbv zeta. flc. rewrite (fdiv_ok 1386 T HT), (fdiv_ok p (1653/10)) by lra. flc.
    replace (71 / 10 - p / (1653/10)) with (7.1 - p / 165.3) by lra. replace (1386 / T - 1222 / 1000) with (1386 / T - 1.222) by lra.
    rewrite E by (split; assumption). cbn [bind]. replace (p / (1653/10)) with (p / 165.3) by lra.
    unfold gate2, j2args, affine. cbn [a0 a1 a2 b0 bx by_ bxx bxy byy].
    apply f_equal. apply f_equal. destruct (diff_cases order) as [[-> ->]|[[-> ->]|[-> ->]]]; cbv iota; flc; pairs.
Qed.

Definition logjet (x : R) : J2 := j2x (j1ln x).
Lemma add_log_gate order x o r : 0 < x ->
  add_log order (Some x) (gate2 order o) (gate2 order r) = gate2 order (j2add o (j2add r (logjet x))).
Proof.
  intro Hx. unfold add_log, gate2, logjet, j2x, j1ln, j2add. cbn [a0 a1 a2 b0 bx by_ bxx bxy byy]. flc.
  unfold flog. destruct (Rlt_dec 0 x); [|contradiction]. rewrite (fdiv_ok 1 x) by lra. flc. rewrite fdiv_ok by lra.
  assert (E1 : 1 / x = / x) by (field; lra). assert (E2 : - (1 / x) / x = - / (x * x)) by (field; lra). rewrite E2, E1.
  destruct (diff_cases order) as [[-> ->]|[[-> ->]|[-> ->]]]; cbv iota; flc; pairs.
Qed.
(* the domain of the two sums *)
Definition P2 (o r : list term) (x : R) : Prop := 0 < x /\ (can_raise tm o x /\ can_raise tm r x).
Definition Q2 (o r : list term) (c y : R) : Prop := can_raise tn o y /\ can_raise tn r (y - c).
Lemma P2_open o r : open1 (P2 o r).
Proof. apply open1_and; [apply open1_pos|]. apply open1_and; apply open1_raise. Qed.
Lemma Q2_open o r c : open1 (Q2 o r c).
Proof. apply open1_and; [apply open1_raise|]. apply (open1_sub_r c (can_raise tn r)). apply open1_raise. Qed.
Theorem glog_jet o r c : usable o -> usable r -> exists F, jet2_on (rect (P2 o r) (Q2 o r c)) F /\
  (forall x y, P2 o r x -> Q2 o r c y -> b0 (F x y) = poly o x y + poly r x (y - c) + ln x) /\
  forall order x y, P2 o r x -> Q2 o r c y ->
    (do a <- peval (Some x) (Some y) o order; do b <- peval (Some x) (Some (y - c)) r order; Ok (add_log order (Some x) a b)) = Ok (gate2 order (F x y)).
Proof.
  intros Ho Hr. destruct (peval_jet _ Ho) as (F & J & V & E). destruct (peval_jet _ Hr) as (G & K & W & E2).
  exists (fun x y => j2add (F x y) (j2add (j2args (G x (y - c)) (j1var x) (affine (- c) 1 y)) (logjet x))). split; [|split].
  - apply jet2_add; [|apply jet2_add].
    + apply (jet2_sub (dom o)); [|exact J]. intros x y [[_ [A _]] [B _]]. split; assumption.
    + apply (jet2_ext _ (fun x y => j2args (G (a0 (j1var x)) (a0 (affine (- c) 1 y))) (j1var x) (affine (- c) 1 y))).
      { intros x y. f_equal. cbn. f_equal. ring. }
      apply (jet2_args _ (dom r) (fun _ => True) (fun _ => True) j1var (affine (- c) 1) G); auto using affine_jet, jet1_var.
      intros x y [[_ [_ A]] [_ B]]. cbn [j1var affine a0]. replace (- c + 1 * y) with (y - c) by ring. unfold dom. auto.
    + apply (jet2_x _ (fun x => 0 < x)); [intros x y [[A _] _]; exact A|apply jet1_ln].
  - intros x y [A [B C]] [B2 C2]. cbn [j2add j2args logjet j2x j1ln b0 a0]. rewrite V, W by (split; assumption). ring.
  - intros order x y [A [B C]] [B2 C2]. rewrite E, E2 by (split; assumption). cbn [bind]. apply f_equal.
    rewrite <- (add_log_gate order x (F x y) _ A). apply f_equal. unfold gate2, j2args, j1var, affine. cbn [a0 a1 a2 b0 bx by_ bxx bxy byy].
    destruct (diff_cases order) as [[-> ->]|[[-> ->]|[-> ->]]]; cbv iota; pairs.
Qed.
Theorem g2_jet D : usable (if_r2o D) -> usable (if_r2r D) -> exists F,
  jet2_on (rect (P2 (if_r2o D) (if_r2r D)) (Q2 (if_r2o D) (if_r2r D) 0.5)) F /\
  (forall x y, P2 (if_r2o D) (if_r2r D) x -> Q2 (if_r2o D) (if_r2r D) 0.5 y -> b0 (F x y) = gamma2 D x y) /\
  forall T p, T <> 0 -> P2 (if_r2o D) (if_r2r D) (p / 10) -> Q2 (if_r2o D) (if_r2r D) 0.5 (540 / T) -> reads (g2 D) F 10 540 T p.
Proof.
  intros Ho Hr. destruct (glog_jet _ _ 0.5 Ho Hr) as (F & J & V & E). exists F. split; [exact J|]. split; [exact V|].
  intros T p HT A B order. specialize (E order _ _ A B). unfold g2. cbv zeta. flc. rewrite (fdiv_ok 540 T HT), (fdiv_ok p 10) by lra. flc.
  replace (540 / T - 5 / 10) with (540 / T - 0.5) by lra.
  destruct (peval (Some (p / 10)) (Some (540 / T)) (if_r2o D) order) as [o|]; cbn [bind] in *; [|discriminate].
  destruct (peval (Some (p / 10)) (Some (540 / T - 0.5)) (if_r2r D) order) as [r|]; cbn [bind] in *; [|discriminate].
  injection E as E. rewrite E. reflexivity.
Qed.
Theorem g5_jet D : usable (if_r5o D) -> usable (if_r5r D) -> exists F,
  jet2_on (rect (P2 (if_r5o D) (if_r5r D)) (Q2 (if_r5o D) (if_r5r D) 0)) F /\
  (forall x y, P2 (if_r5o D) (if_r5r D) x -> Q2 (if_r5o D) (if_r5r D) 0 y -> b0 (F x y) = gamma5 D x y) /\
  forall T p, T <> 0 -> P2 (if_r5o D) (if_r5r D) (p / 10) -> Q2 (if_r5o D) (if_r5r D) 0 (1000 / T) -> reads (g5 D) F 10 1000 T p.
Proof.
  intros Ho Hr. destruct (glog_jet _ _ 0 Ho Hr) as (F & J & V & E). exists F. split; [exact J|]. split.
  { intros x y A B. rewrite (V x y A B). unfold gamma5. now rewrite Rminus_0_r. }
  intros T p HT A B order. specialize (E order _ _ A B). unfold g5. cbv zeta. flc. rewrite (fdiv_ok 1000 T HT), (fdiv_ok p 10) by lra. flc.
  rewrite Rminus_0_r in E.
  destruct (peval (Some (p / 10)) (Some (1000 / T)) (if_r5o D) order) as [o|]; cbn [bind] in *; [|discriminate].
  destruct (peval (Some (p / 10)) (Some (1000 / T)) (if_r5r D) order) as [r|]; cbn [bind] in *; [|discriminate].
  injection E as E. rewrite E. reflexivity.
Qed.
Theorem f3_jet D : usable (if_r3 D) -> exists F,
  jet2_on (rect (fun n => 0 < n) (can_raise tn (if_r3 D))) F /\
  (forall n t, 0 < n -> can_raise tn (if_r3 D) t -> b0 (F n t) = phi3 D n t) /\
  forall n t, 0 < n -> can_raise tn (if_r3 D) t -> f3_at D (Some n) (Some t) = Ok (gate2 2 (F n t)).
Proof.
  intro HU. destruct (peval_jet _ HU) as (F & J & V & E).
  exists (fun n t => j2add (F n t) (j2x (j1mul (j1const (if_r3ln D)) (j1ln n)))). split; [|split].
  - apply jet2_add.
    + apply (jet2_sub (dom (if_r3 D))); [|exact J]. intros n t [A B]. split; [left; lra|exact B].
    + apply (jet2_x _ (fun n => 0 < n)); [intros n t [A _]; exact A|]. apply jet1_mul; [apply jet1_const|apply jet1_ln].
  - intros n t A B. cbn [j2add j2x j1mul j1const j1ln b0 a0]. rewrite V by (split; [left; lra|exact B]). reflexivity.
  - intros n t A B. unfold f3_at. rewrite E by (split; [left; lra|exact B]). cbn [bind]. rewrite !gate2_2. flc.
    unfold flog. destruct (Rlt_dec 0 n); [|contradiction]. rewrite (fdiv_ok (if_r3ln D) n) by lra. flc. rewrite fdiv_ok by lra. flc.
    apply f_equal. unfold j2add, j2x, j1mul, j1const, j1ln. cbn [a0 a1 a2 b0 bx by_ bxx bxy byy].
    repeat (apply f_equal2); apply f_equal; try ring; field; lra.
Qed.

(* The residual part of the Helmholtz free energy, _ar of mp1.py (C45). *)
From Coq Require Import Reals ZArith List Lra Lia Bool Arith.
From Verif Require Import Model_Mp1 Spec_Mp1 Proof_Jets Proof_Mp1Poly Proof_Mp1Helm.
Import ListNotations.
Local Open Scope R_scope.
Local Open Scope list_scope.

(* ---- coef0 ---- *)
Definition jnegpow (k : nat) (d : R) : J1 := j1mul (j1const (-1)) (j1pow (INR k) d).
Definition jexpk (k : nat) (d : R) : J1 := j1comp (j1exp (a0 (jnegpow k d))) (jnegpow k d).
Definition rterm0 (k : nat) (g : group2) (t d : R) : J2 := j2mul (rgroup2 g t d) (j2y (jexpk k d)).

Lemma jexpk_jet k : jet1_on (fun d => 0 < d) (jexpk k).
Proof.
  apply (jet1_comp (fun d => 0 < d) (fun _ => True) (jnegpow k) j1exp).
  - apply (jet1_mul _ (fun _ => j1const (-1)) (j1pow (INR k))); [apply jet1_const|apply jet1_pow].
  - intros; exact I.
  - apply jet1_exp.
Qed.
Lemma rterm0_jet k g : jet2_on opos (rterm0 k g).
Proof.
  apply (jet2_mul opos (rgroup2 g) (fun _ d => j2y (jexpk k d))); [apply rgroup2_jet|].
  apply (jet2_y opos (fun d => 0 < d) (jexpk k)); [intros x y [_ H]; exact H|apply jexpk_jet].
Qed.
Lemma rterm0_value k g t d : 0 < t -> 0 < d -> Forall ordered2 g ->
  b0 (rterm0 k g t d) = exp (- d ^ k) * value2 g t d.
Proof.
  intros Ht Hd Ho. unfold rterm0. cbn [b0 j2mul j2y]. rewrite rgroup2_value by assumption.
  unfold jexpk. cbn [a0 j1comp j1exp jnegpow j1mul j1const j1pow].
  rewrite Rpower_pow by exact Hd. replace (-1 * d ^ k) with (- d ^ k) by ring. ring.
Qed.

Lemma ar0_term_rep diff k g t d : 0 < t -> 0 < d -> (diff = 0%nat \/ Forall prey_ok g) ->
  rep2 diff (ar0_term (Some t) (Some d) k (Some (d ^ k)) g diff) (rterm0 k g t d).
Proof.
  intros Ht Hd Hc. assert (Hn : d <> 0) by lra. unfold ar0_term.
  assert (E : poly2 (Some t) (Some d) g diff = gate2 diff (rgroup2 g t d)).
  { destruct Hc as [->|Hc]; [apply poly2_pos0|apply poly2_pos]; assumption. }
  rewrite E. unfold gate2. cbv zeta. unfold fexp. fls Hn. cbn [lift1].
  unfold rep2, rterm0. cbn [b0 bx by_ bxx bxy byy j2mul j2y].
  unfold jexpk. cbn [a0 a1 a2 j1comp j1exp].
  assert (V0 : a0 (jnegpow k d) = - d ^ k).
  { unfold jnegpow. cbn [a0 j1mul j1const j1pow]. rewrite Rpower_pow by exact Hd. ring. }
  assert (V1 : a1 (jnegpow k d) = - INR k * d ^ k / d).
  { unfold jnegpow. cbn [a0 a1 j1mul j1const j1pow]. rewrite rpower_m1, Rpower_pow by exact Hd. field. exact Hn. }
  assert (V2 : a2 (jnegpow k d) = - INR k * d ^ k / d * (INR k - 1) / d).
  { unfold jnegpow. cbn [a0 a1 a2 j1mul j1const j1pow]. rewrite rpower_m2, Rpower_pow by exact Hd. field. exact Hn. }
  rewrite V0, V1, V2.
  split; [reflexivity|]. split; intro H.
  - rewrite H. split; apply some_eq; field; exact Hn.
  - assert (H1 : diff1 diff = true).
    { destruct (diff_cases diff) as [[A B]|[[A B]|[A B]]]; congruence. }
    rewrite H, H1. repeat split; apply some_eq; field; exact Hn.
Qed.

Fixpoint rsum0 (k : nat) (gs : list group2) (t d : R) : J2 :=
  match gs with
  | [] => j2const 0
  | g :: gs' => j2add (rterm0 k g t d) (rsum0 (S k) gs' t d)
  end.
Lemma rsum0_jet k gs : jet2_on opos (rsum0 k gs).
Proof.
  revert k. induction gs as [|g gs IH]; intro k; [apply jet2_const|].
  apply (jet2_add opos (rterm0 k g) (rsum0 (S k) gs)); [apply rterm0_jet|apply IH].
Qed.
Lemma rsum0_value k gs t d : 0 < t -> 0 < d -> Forall (Forall ordered2) gs ->
  b0 (rsum0 k gs t d) = exp_terms k gs t d.
Proof.
  intros Ht Hd Ho. revert k. induction Ho as [|g gs Hg Hgs IH]; intro k; [reflexivity|].
  cbn [rsum0 exp_terms b0 j2add]. rewrite IH, rterm0_value by assumption. reflexivity.
Qed.
Lemma ar0_loop_gate diff k gs t d S : 0 < t -> 0 < d ->
  (diff = 0%nat \/ Forall (Forall prey_ok) gs) ->
  ar0_loop (Some t) (Some d) k (Some (d ^ k)) gs diff (gate2 diff S)
  = gate2 diff (j2add S (rsum0 (k + 1) gs t d)).
Proof.
  intros Ht Hd. revert k S. induction gs as [|g gs IH]; intros k S Hc.
  - cbn [ar0_loop rsum0]. rewrite j2add_0r. reflexivity.
  - cbn [ar0_loop]. cbv zeta.
    assert (E : (Some (d ^ k) * Some d)%fl = Some (d ^ (k + 1))).
    { flc. apply some_eq. rewrite pow_add. ring. }
    rewrite E. rewrite (add_jet_rep diff S _ (rterm0 (k + 1) g t d)).
    + rewrite IH.
      * cbn [rsum0]. rewrite j2add_assoc. replace (k + 1 + 1)%nat with (Datatypes.S (k + 1)) by lia. reflexivity.
      * destruct Hc as [Hc|Hc]; [left; exact Hc|right]. inversion Hc. assumption.
    + apply ar0_term_rep; [exact Ht|exact Hd|].
      destruct Hc as [Hc|Hc]; [left; exact Hc|right]. inversion Hc. assumption.
Qed.

(* ---- coef1 ---- *)
(* - a (x - e)^2 *)
Definition jquad (a e x : R) : J1 := mk1 (- a * ((x - e) * (x - e))) (-2 * a * (x - e)) (-2 * a).
Lemma jquad_jet U a e : jet1_on U (jquad a e).
Proof.
  intros x _. unfold jquad. cbn. split.
  - apply (D_eq _ _ (- a * (1 * (x - e) + (x - e) * 1))); [|ring].
    apply (D_scal (fun u => (u - e) * (u - e)) (- a)).
    apply (D_mult (fun u => u - e) (fun u => u - e));
      (apply (D_eq _ _ (1 - 0)); [apply (D_minus (fun u => u) (fun _ => e)); [apply D_id|apply D_const]|ring]).
  - apply (D_eq _ _ (-2 * a * (1 - 0))); [|ring].
    apply (D_scal (fun u => u - e) (-2 * a)).
    apply (D_minus (fun u => u) (fun _ => e)); [apply D_id|apply D_const].
Qed.
(* exp (-a (y - e)^2 - b (x - g)^2) *)
Definition jarg (a e b g x y : R) : J2 := j2add (j2y (jquad a e y)) (j2x (jquad b g x)).
Definition jgauss (a e b g x y : R) : J2 := j2comp (j1exp (b0 (jarg a e b g x y))) (jarg a e b g x y).
Lemma jgauss_jet (U : R -> R -> Prop) a e b g : jet2_on U (jgauss a e b g).
Proof.
  apply (jet2_comp U (fun _ => True) (jarg a e b g) j1exp).
  - apply (jet2_add U (fun _ y => j2y (jquad a e y)) (fun x _ => j2x (jquad b g x))).
    + apply (jet2_y U (fun _ => True) (jquad a e)); [intros; exact I|apply jquad_jet].
    + apply (jet2_x U (fun _ => True) (jquad b g)); [intros; exact I|apply jquad_jet].
  - intros; exact I.
  - apply jet1_exp.
Qed.
Definition rterm1 (r : ar1) (t d : R) : J2 :=
  j2mul (j2mul (j2mul (j2const (r1_c r)) (j2y (j1pow (r1_d r) d))) (j2x (j1pow (r1_t r) t)))
        (jgauss (r1_a r) (r1_ep r) (r1_b r) (r1_gam r) t d).
Lemma rterm1_jet r : jet2_on opos (rterm1 r).
Proof.
  unfold rterm1.
  apply (jet2_mul opos (fun t d => j2mul (j2mul (j2const (r1_c r)) (j2y (j1pow (r1_d r) d))) (j2x (j1pow (r1_t r) t)))
     (jgauss (r1_a r) (r1_ep r) (r1_b r) (r1_gam r))); [|apply jgauss_jet].
  apply (jet2_mul opos (fun t d => j2mul (j2const (r1_c r)) (j2y (j1pow (r1_d r) d))) (fun t _ => j2x (j1pow (r1_t r) t))).
  - apply (jet2_mul opos (fun _ _ => j2const (r1_c r)) (fun _ d => j2y (j1pow (r1_d r) d))); [apply jet2_const|].
    apply (jet2_y opos (fun y => 0 < y) (j1pow (r1_d r))); [intros x y [_ H]; exact H|apply jet1_pow].
  - apply (jet2_x opos (fun y => 0 < y) (j1pow (r1_t r))); [intros x y [H _]; exact H|apply jet1_pow].
Qed.
Lemma rterm1_value r t d : b0 (rterm1 r t d) = gauss_term r t d.
Proof.
  unfold rterm1, gauss_term, jgauss, jarg, jquad.
  cbn [b0 j2mul j2const j2y j2x a0 j1pow j2comp j1exp j2add]. f_equal. f_equal. ring.
Qed.
Lemma ar1_term_rep diff r t d : 0 < t -> 0 < d ->
  rep2 diff (ar1_term (Some t) (Some d) r) (rterm1 r t d).
Proof.
  intros Ht Hd. assert (Hn : d <> 0) by lra. assert (Hm : t <> 0) by lra.
  unfold ar1_term. cbv zeta. rewrite !fpow_pos by assumption. unfold fexp.
  flc. cbn [lift1]. flc. repeat (rewrite (fdiv_ok _ _ Hn); flc). repeat (rewrite (fdiv_ok _ _ Hm); flc).
  repeat (rewrite (fdiv_ok _ _ Hn); flc).
  unfold rep2, rterm1, jgauss, jarg, jquad.
  cbn [b0 bx by_ bxx bxy byy j2mul j2const j2y j2x a0 a1 a2 j1pow j2comp j1exp j2add].
  rewrite !rpower_m1, !rpower_m2 by assumption.
  replace (- r1_a r * ((d - r1_ep r) * (d - r1_ep r)) - r1_b r * ((t - r1_gam r) * (t - r1_gam r)))
    with (- r1_a r * ((d - r1_ep r) * (d - r1_ep r)) + - r1_b r * ((t - r1_gam r) * (t - r1_gam r))) by ring.
  set (E := exp _).
  split; [apply some_eq; ring|]. split; intros _; repeat split; apply some_eq; field; try split; assumption.
Qed.

(* ---- sums ---- *)
Lemma fold_add_rep {A} diff (f : A -> jet2) (J : A -> J2) l S :
  (forall r, In r l -> rep2 diff (f r) (J r)) ->
  fold_left (fun S r => add_jet diff S (f r)) l (gate2 diff S) = gate2 diff (j2add S (j2sum J l)).
Proof.
  revert S. induction l as [|r l IH]; intros S H; cbn [fold_left j2sum fold_right].
  - rewrite j2add_0r. reflexivity.
  - rewrite (add_jet_rep diff S _ (J r)) by (apply H; left; reflexivity).
    rewrite IH by (intros r' Hr; apply H; right; exact Hr).
    change (fold_right (fun c s => j2add (J c) s) (j2const 0) l) with (j2sum J l).
    rewrite j2add_assoc. reflexivity.
Qed.

Definition jopt2 {A} (f : A -> J2) (o : option A) : J2 := match o with Some a => f a | None => j2const 0 end.
(* everything but coef2 *)
Definition rar01 (G : argroup) (t d : R) : J2 :=
  j2add (j2add (rgroup2 (ar_first G) t d) (rsum0 1 (ar_rest G) t d))
        (jopt2 (j2sum (fun r => rterm1 r t d)) (ar_coef1 G)).
Definition ar01_value (G : argroup) (t d : R) : R :=
  value2 (ar_first G) t d + exp_terms 1 (ar_rest G) t d
  + opt_total (total (fun r => gauss_term r t d)) (ar_coef1 G).
Lemma rar01_jet G : jet2_on opos (rar01 G).
Proof.
  unfold rar01.
  apply (jet2_add opos (fun t d => j2add (rgroup2 (ar_first G) t d) (rsum0 1 (ar_rest G) t d))
    (fun t d => jopt2 (j2sum (fun r => rterm1 r t d)) (ar_coef1 G))).
  - apply (jet2_add opos (rgroup2 (ar_first G)) (rsum0 1 (ar_rest G))); [apply rgroup2_jet|apply rsum0_jet].
  - destruct (ar_coef1 G) as [l|]; cbn [jopt2]; [|apply jet2_const].
    apply (j2sum_jet opos (fun t d r => rterm1 r t d)). intros r _. apply rterm1_jet.
Qed.
Lemma rar01_value G t d : ar_wf G -> 0 < t -> 0 < d -> b0 (rar01 G t d) = ar01_value G t d.
Proof.
  intros [W1 W2] Ht Hd. unfold rar01, ar01_value. cbn [b0 j2add].
  rewrite rgroup2_value, rsum0_value by assumption. f_equal.
  destruct (ar_coef1 G) as [l|]; cbn [jopt2 opt_total]; [|reflexivity].
  rewrite j2sum_value. apply total_ext. intros r _. apply rterm1_value.
Qed.

Lemma ar_stage1 G t d diff : 0 < t -> 0 < d -> (diff = 0%nat \/ ar_prey_ok G) ->
  match ar_coef1 G with
  | None => ar0_loop (Some t) (Some d) 0 (num 1) (ar_rest G) diff (poly2 (Some t) (Some d) (ar_first G) diff)
  | Some l => fold_left (fun S r => add_jet diff S (ar1_term (Some t) (Some d) r)) l
      (ar0_loop (Some t) (Some d) 0 (num 1) (ar_rest G) diff (poly2 (Some t) (Some d) (ar_first G) diff))
  end = gate2 diff (rar01 G t d).
Proof.
  intros Ht Hd Hc.
  assert (E : poly2 (Some t) (Some d) (ar_first G) diff = gate2 diff (rgroup2 (ar_first G) t d)).
  { destruct Hc as [->|[Hc _]]; [apply poly2_pos0|apply poly2_pos]; assumption. }
  rewrite E. change (num 1) with (Some (d ^ 0)). rewrite ar0_loop_gate; [|exact Ht|exact Hd|].
  2:{ destruct Hc as [Hc|[_ Hc]]; [left|right]; exact Hc. }
  change (0 + 1)%nat with 1%nat.
  unfold rar01. destruct (ar_coef1 G) as [l|]; cbn [jopt2]; [|rewrite j2add_0r; reflexivity].
  rewrite (fold_add_rep diff _ (fun r => rterm1 r t d)); [reflexivity|].
  intros r _. apply ar1_term_rep; assumption.
Qed.

Theorem ar_exact01 : forall G all diff t d, ar_coef2 G = None -> ar_wf G ->
  (diff = 0%nat \/ ar_prey_ok G) -> 0 < t -> 0 < d ->
  exact2 diff (residual_energy G) t d (ar G all (Some t) (Some d) diff).
Proof.
  intros G all diff t d N W Hc Ht Hd. unfold ar. cbv zeta. rewrite N.
  rewrite ar_stage1 by assumption.
  apply (gate2_exact opos (rar01 G)); [apply axis_open_pos|split; assumption|apply rar01_jet|].
  intros u w [Hu Hw]. rewrite rar01_value by assumption.
  unfold residual_energy, ar01_value. rewrite N. cbn [opt_total]. ring.
Qed.

(* The Helmholtz free energy routines of mp1.py (C45). *)
From Coq Require Import Reals ZArith List Lra Lia Bool Arith.
From Verif Require Import Model_Mp1 Spec_Mp1 Proof_Jets Proof_Mp1Poly.
Import ListNotations.
Local Open Scope R_scope.
Local Open Scope list_scope.

(* a term whose derivatives are those of J as far as diff asks for them *)
Definition rep1 (diff : nat) (t : jet1) (J : J1) : Prop :=
  let '(p, pt, ptt) := t in
  p = Some (a0 J) /\ (diff1 diff = true -> pt = Some (a1 J)) /\ (diff2 diff = true -> ptt = Some (a2 J)).
Lemma gate1_rep diff J : rep1 diff (gate1 diff J) J.
Proof.
  unfold rep1, gate1. split; [reflexivity|]. split; intros ->; reflexivity.
Qed.
Lemma add1_rep diff A t B : rep1 diff t B -> add1 diff (gate1 diff A) t = gate1 diff (j1add A B).
Proof.
  destruct t as [[p pt] ptt]. intros (-> & H1 & H2). unfold add1, gate1, j1add. cbn [a0 a1 a2].
  destruct (diff_cases diff) as [[E1 E2]|[[E1 E2]|[E1 E2]]]; rewrite E1, E2 in *;
    try rewrite (H1 eq_refl); try rewrite (H2 eq_refl); reflexivity.
Qed.
Definition rep2 (diff : nat) (t : jet2) (J : J2) : Prop :=
  let '(p, px, py, pxx, pxy, pyy) := t in
  p = Some (b0 J) /\ (diff1 diff = true -> px = Some (bx J) /\ py = Some (by_ J)) /\
  (diff2 diff = true -> pxx = Some (bxx J) /\ pxy = Some (bxy J) /\ pyy = Some (byy J)).
Lemma add_jet_rep diff A t B : rep2 diff t B -> add_jet diff (gate2 diff A) t = gate2 diff (j2add A B).
Proof.
  destruct t as [[[[[p px] py] pxx] pxy] pyy]. intros (-> & H1 & H2).
  unfold add_jet, gate2, j2add. cbn [b0 bx by_ bxx bxy byy].
  destruct (diff_cases diff) as [[E1 E2]|[[E1 E2]|[E1 E2]]]; rewrite E1, E2 in *;
    try destruct (H1 eq_refl) as [-> ->]; try destruct (H2 eq_refl) as (-> & -> & ->); reflexivity.
Qed.

(* ---- ideal part ---- *)
Definition jlogt (c t : R) : J1 := j1mul (j1const c) (j1ln t).
Definition jtlogt (c t : R) : J1 := j1mul (j1const c) (j1mul (j1var t) (j1ln t)).
(* 1 - exp(-theta t) *)
Definition jone (theta t : R) : J1 :=
  j1add (j1const 1) (j1mul (j1const (-1)) (j1comp (j1exp (a0 (j1mul (j1const (- theta)) (j1var t))))
                                                  (j1mul (j1const (- theta)) (j1var t)))).
Definition jexpt (tc : R * R) (t : R) : J1 :=
  j1mul (j1const (snd tc)) (j1comp (j1ln (a0 (jone (fst tc) t))) (jone (fst tc) t)).
Definition jopt {A} (f : A -> J1) (o : option A) : J1 := match o with Some a => f a | None => j1const 0 end.
Definition rao (G : aogroup) (t : R) : J1 :=
  j1add (j1add (j1add (jopt (fun c => jlogt c t) (ao_logt G)) (jopt (fun c => jtlogt c t) (ao_tlogt G)))
               (jopt (fun g => j1sum (fun c => rcoef1 c t) g) (ao_coef0 G)))
        (jopt (j1sum (fun tc => jexpt tc t)) (ao_coef1 G)).
Definition rao2 (G : aogroup) (t d : R) : J2 := j2add (j2y (j1ln d)) (j2x (rao G t)).

Lemma jone_pos theta t : 0 < theta -> 0 < t -> 0 < a0 (jone theta t).
Proof.
  intros H1 H2. cbn. assert (exp (- theta * t) < 1); [|lra].
  rewrite <- exp_0. apply exp_increasing. pose proof (Rmult_lt_0_compat _ _ H1 H2). lra.
Qed.
Lemma jone_a0 theta t : a0 (jone theta t) = 1 - exp (- theta * t).
Proof. cbn. ring. Qed.

Lemma flog_pos x : 0 < x -> flog (Some x) = Some (ln x).
Proof. intro H. unfold flog. destruct (Rlt_dec 0 x); [reflexivity|contradiction]. Qed.

Lemma j1_eq u v w u' v' w' : u = u' -> v = v' -> w = w' -> mk1 u v w = mk1 u' v' w'.
Proof. intros -> -> ->. reflexivity. Qed.
Lemma some_eq (x y : R) : x = y -> Some x = Some y.
Proof. intros ->. reflexivity. Qed.

Lemma ao_tau_gate G t d diff : ao_wf G -> 0 < t -> 0 < d ->
  ao_tau G (Some t) diff (Some (ln d)) = gate1 diff (j1add (j1const (ln d)) (rao G t)).
Proof.
  intros [W0 W1] Ht Hd. assert (Hn : t <> 0) by lra. unfold ao_tau. cbv zeta.
  assert (E0 : ((Some (ln d) : fl), num 0, num 0) = gate1 diff (j1const (ln d))).
  { unfold gate1, j1const. cbn [a0 a1 a2].
    destruct (diff_cases diff) as [[-> ->]|[[-> ->]|[-> ->]]]; reflexivity. }
  rewrite E0.
  set (S0 := j1const (ln d)).
  assert (E1 : match ao_logt G with
     | Some c => add1 diff (gate1 diff S0)
         ((num c * flog (Some t))%fl, (num c / Some t)%fl, (- (num c / Some t) / Some t)%fl)
     | None => gate1 diff S0 end = gate1 diff (j1add S0 (jopt (fun c => jlogt c t) (ao_logt G)))).
  { destruct (ao_logt G) as [c|]; cbn [jopt].
    - apply add1_rep. rewrite flog_pos by exact Ht. fls Hn.
      cbn. split; [reflexivity|]. split; intros _; apply some_eq; field; exact Hn.
    - rewrite j1add_0r. reflexivity. }
  rewrite E1. set (S1 := j1add S0 _).
  assert (E2 : match ao_tlogt G with
     | Some c => add1 diff (gate1 diff S1)
         ((num c * Some t * flog (Some t))%fl, (num c * (flog (Some t) + num 1))%fl, (num c / Some t)%fl)
     | None => gate1 diff S1 end = gate1 diff (j1add S1 (jopt (fun c => jtlogt c t) (ao_tlogt G)))).
  { destruct (ao_tlogt G) as [c|]; cbn [jopt].
    - apply add1_rep. rewrite flog_pos by exact Ht. fls Hn.
      cbn. split; [apply some_eq; ring|]. split; intros _; apply some_eq; field; exact Hn.
    - rewrite j1add_0r. reflexivity. }
  rewrite E2. set (S2 := j1add S1 _).
  assert (E3 : match ao_coef0 G with
     | Some g => add1 diff (gate1 diff S2) (poly1 (Some t) g diff)
     | None => gate1 diff S2 end
     = gate1 diff (j1add S2 (jopt (fun g => j1sum (fun c => rcoef1 c t) g) (ao_coef0 G)))).
  { destruct (ao_coef0 G) as [g|]; cbn [jopt].
    - apply add1_rep. rewrite (poly1_sum diff t g (fun c => rcoef1 c t)); [apply gate1_rep|].
      intros c _. apply poly1_coef_pos. exact Ht.
    - rewrite j1add_0r. reflexivity. }
  rewrite E3. set (S3 := j1add S2 _).
  assert (FIN : forall X, j1add S3 X = j1add S0 (j1add (j1add (j1add
      (jopt (fun c => jlogt c t) (ao_logt G)) (jopt (fun c => jtlogt c t) (ao_tlogt G)))
               (jopt (fun g => j1sum (fun c => rcoef1 c t) g) (ao_coef0 G))) X)).
  { intro X. unfold S3, S2, S1. rewrite !j1add_assoc. reflexivity. }
  unfold rao. rewrite <- FIN. clear FIN E3 E2 E1 E0. clearbody S3. clear S2 S1.
  destruct (ao_coef1 G) as [l|]; cbn [jopt]; [|rewrite j1add_0r; reflexivity].
  specialize (W1 l eq_refl). revert S3. induction W1 as [|[theta c] l Hth Hl IH]; intro S3.
  - cbn [fold_left j1sum fold_right]. rewrite j1add_0r. reflexivity.
  - cbn [fold_left].
    match goal with |- fold_left _ _ (add1 _ _ ?trm) = _ =>
      rewrite (add1_rep diff S3 trm (jexpt (theta, c) t)) end.
    { rewrite IH. f_equal. cbn [j1sum fold_right]. rewrite j1add_assoc. reflexivity. }
    cbn [fst] in Hth. pose proof (jone_pos theta t Hth Ht) as HP. rewrite jone_a0 in HP.
    flc. unfold fexp at 1 2 3 4. cbn [lift1 fadd fsub fmul fneg lift2].
    assert (HN : 1 - exp (- theta * t) <> 0) by lra.
    assert (HN2 : 1 + -1 * exp (- theta * t) <> 0) by lra.
    unfold fsub, fexp. cbn [lift1 lift2].
    rewrite flog_pos by exact HP. rewrite (fdiv_ok _ _ HN). flc.
    unfold jexpt. cbn [fst snd].
    assert (E : 1 + -1 * exp (- theta * t) = 1 - exp (- theta * t)) by ring.
    split; [cbn; apply some_eq; rewrite E; reflexivity|].
    split; intros _; cbn; apply some_eq; rewrite E; field; exact HN.
Qed.

Lemma ao_gate G t d diff : ao_wf G -> 0 < t -> 0 < d ->
  ao G (Some t) (Some d) diff = gate2 diff (rao2 G t d).
Proof.
  intros W Ht Hd. assert (Hn : d <> 0) by lra. unfold ao. rewrite flog_pos by exact Hd.
  rewrite ao_tau_gate by assumption.
  unfold gate1, gate2, rao2, j2add, j2y, j2x, j1add, j1const, j1ln. cbn [a0 a1 a2 b0 bx by_ bxx bxy byy].
  assert (X1 : (num 1 / Some d)%fl = Some (/ d)).
  { unfold num. rewrite (fdiv_ok _ _ Hn). apply some_eq. field. exact Hn. }
  assert (X2 : (- Some (/ d) / Some d)%fl = Some (- / (d * d))).
  { flc. rewrite (fdiv_ok _ _ Hn). apply some_eq. field. exact Hn. }
  assert (Z : num 0 = Some (0 + 0)) by (apply some_eq; ring).
  destruct (diff_cases diff) as [[-> ->]|[[-> ->]|[-> ->]]]; cbv zeta; try rewrite X1; try rewrite X2;
    rewrite ?Rplus_0_r, ?Rplus_0_l; reflexivity.
Qed.

Lemma rao_jet G : ao_wf G -> jet1_on (fun x => 0 < x) (rao G).
Proof.
  intros [W0 W1]. unfold rao.
  apply (jet1_add _ (fun t => j1add (j1add (jopt (fun c => jlogt c t) (ao_logt G)) (jopt (fun c => jtlogt c t) (ao_tlogt G)))
               (jopt (fun g => j1sum (fun c => rcoef1 c t) g) (ao_coef0 G)))
     (fun t => jopt (j1sum (fun tc => jexpt tc t)) (ao_coef1 G))).
  - apply (jet1_add _ (fun t => j1add (jopt (fun c => jlogt c t) (ao_logt G)) (jopt (fun c => jtlogt c t) (ao_tlogt G)))
               (fun t => jopt (fun g => j1sum (fun c => rcoef1 c t) g) (ao_coef0 G))).
    + apply (jet1_add _ (fun t => jopt (fun c => jlogt c t) (ao_logt G)) (fun t => jopt (fun c => jtlogt c t) (ao_tlogt G))).
      * destruct (ao_logt G) as [c|]; cbn [jopt]; [|apply jet1_const].
        apply (jet1_mul _ (fun _ => j1const c) j1ln); [apply jet1_const|apply jet1_ln].
      * destruct (ao_tlogt G) as [c|]; cbn [jopt]; [|apply jet1_const].
        apply (jet1_mul _ (fun _ => j1const c) (fun t => j1mul (j1var t) (j1ln t))); [apply jet1_const|].
        apply (jet1_mul _ j1var j1ln); [apply jet1_var|apply jet1_ln].
    + destruct (ao_coef0 G) as [g|]; cbn [jopt]; [|apply jet1_const].
      apply (j1sum_jet _ (fun t c => rcoef1 c t)). intros c _. apply rcoef1_jet.
  - destruct (ao_coef1 G) as [l|]; cbn [jopt]; [|apply jet1_const].
    specialize (W1 l eq_refl).
    apply (j1sum_jet _ (fun t tc => jexpt tc t)). intros [theta c] Hin.
    assert (Hth : 0 < theta) by exact (proj1 (Forall_forall _ _) W1 _ Hin).
    unfold jexpt. cbn [fst snd].
    apply (jet1_mul _ (fun _ => j1const c) (fun t => j1comp (j1ln (a0 (jone theta t))) (jone theta t)));
      [apply jet1_const|].
    apply (jet1_comp (fun t => 0 < t) (fun x => 0 < x) (jone theta) j1ln).
    + apply (jet1_add _ (fun _ => j1const 1)
        (fun t => j1mul (j1const (-1)) (j1comp (j1exp (a0 (j1mul (j1const (- theta)) (j1var t))))
           (j1mul (j1const (- theta)) (j1var t))))); [apply jet1_const|].
      apply (jet1_mul _ (fun _ => j1const (-1))
        (fun t => j1comp (j1exp (a0 (j1mul (j1const (- theta)) (j1var t))))
           (j1mul (j1const (- theta)) (j1var t)))); [apply jet1_const|].
      apply (jet1_comp (fun t => 0 < t) (fun _ => True) (fun t => j1mul (j1const (- theta)) (j1var t)) j1exp).
      * apply (jet1_mul _ (fun _ => j1const (- theta)) j1var); [apply jet1_const|apply jet1_var].
      * intros; exact I.
      * apply jet1_exp.
    + intros t Ht. apply jone_pos; assumption.
    + apply jet1_ln.
Qed.
Lemma rao2_jet G : ao_wf G -> jet2_on opos (rao2 G).
Proof.
  intro W. unfold rao2. apply (jet2_add opos (fun _ d => j2y (j1ln d)) (fun t _ => j2x (rao G t))).
  - apply (jet2_y opos (fun y => 0 < y) j1ln); [intros x y [_ H]; exact H|apply jet1_ln].
  - apply (jet2_x opos (fun y => 0 < y) (rao G)); [intros x y [H _]; exact H|apply rao_jet; exact W].
Qed.
Lemma rao2_value G t d : ao_wf G -> 0 < t -> 0 < d -> b0 (rao2 G t d) = ideal_energy G t d.
Proof.
  intros [W0 W1] Ht Hd. unfold rao2, ideal_energy, rao. cbn [b0 j2add j2x j2y a0 j1add j1ln].
  assert (E1 : a0 (jopt (fun c => jlogt c t) (ao_logt G)) = opt_total (fun c => c * ln t) (ao_logt G)).
  { destruct (ao_logt G); reflexivity. }
  assert (E2 : a0 (jopt (fun c => jtlogt c t) (ao_tlogt G)) = opt_total (fun c => c * t * ln t) (ao_tlogt G)).
  { destruct (ao_tlogt G); cbn; [ring|reflexivity]. }
  assert (E3 : a0 (jopt (fun g => j1sum (fun c => rcoef1 c t) g) (ao_coef0 G))
               = opt_total (fun g => value1 g t) (ao_coef0 G)).
  { destruct (ao_coef0 G) as [g|]; cbn [jopt opt_total]; [|reflexivity].
    rewrite j1sum_value. apply total_ext. intros c Hc. apply rcoef1_value; [exact Ht|].
    exact (proj1 (Forall_forall _ _) (W0 g eq_refl) c Hc). }
  assert (E4 : a0 (jopt (j1sum (fun tc => jexpt tc t)) (ao_coef1 G))
     = opt_total (total (fun tc => snd tc * ln (1 - exp (- fst tc * t)))) (ao_coef1 G)).
  { destruct (ao_coef1 G) as [l|]; cbn [jopt opt_total]; [|reflexivity].
    rewrite j1sum_value. apply total_ext. intros tc _. unfold jexpt.
    cbn [a0 j1mul j1const j1comp j1ln]. rewrite jone_a0. reflexivity. }
  rewrite E1, E2, E3, E4. ring.
Qed.

(* value and derivatives, in the vocabulary of Spec_Mp1 *)
Lemma gate2_exact U F v x y diff : axis_open U -> U x y -> jet2_on U F ->
  (forall u w, U u w -> b0 (F u w) = v u w) -> exact2 diff v x y (gate2 diff (F x y)).
Proof.
  intros HO HU HF HV. destruct (jet2_partials U F v x y HO HU HF HV) as [P1 P2].
  unfold gate2. fold (diff1 diff). do 6 eexists. split; [reflexivity|]. split; [apply HV; exact HU|].
  fold (diff1 diff). fold (diff2 diff).
  destruct (diff1 diff), (diff2 diff); repeat split; try exact P1; try exact P2;
    first [apply P1 | apply P2].
Qed.

Theorem ao_exact : forall G diff t d, ao_wf G -> 0 < t -> 0 < d ->
  exact2 diff (ideal_energy G) t d (ao G (Some t) (Some d) diff).
Proof.
  intros G diff t d W Ht Hd. rewrite ao_gate by assumption.
  apply (gate2_exact opos (rao2 G)); [apply axis_open_pos|split; assumption|apply rao2_jet; exact W|].
  intros u w [Hu Hw]. apply rao2_value; assumption.
Qed.

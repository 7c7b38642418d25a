(* Theorems about the property routines of mp1.py (C47, C69). *)
From Coq Require Import Reals ZArith List Lra Lia Bool Arith.
From Verif Require Import Model_Mp1 Spec_Mp1 Proof_Jets Proof_Mp1Poly Proof_Mp1Helm Proof_Mp1Res Proof_Mp1Crit
  Proof_Mp1Props.
Import ListNotations.
Local Open Scope R_scope.
Local Open Scope list_scope.

Lemma mixerr_0 J : mixerr 0 J = J.
Proof. destruct J as [u v w x y z]. unfold mixerr. cbn. rewrite Rplus_0_r. reflexivity. Qed.

(* the residual jet of a data set *)
Definition jar (G : argroup) (t d : R) : J2 :=
  match ar_coef2 G with None => rar01 G t d | Some l => rarc G l t d end.
Definition jdom (G : argroup) (t d : R) : Prop :=
  match ar_coef2 G with None => opos t d | Some l => critdom l t d end.
Definition rows_wf (G : argroup) : Prop :=
  match ar_coef2 G with None => True | Some l => Forall crit_wf l end.
Lemma jar_jet G : rows_wf G -> jet2_on (jdom G) (jar G).
Proof.
  unfold rows_wf, jdom, jar. destruct (ar_coef2 G) as [l|]; intro W; [apply rarc_jet; exact W|apply rar01_jet].
Qed.
Lemma jdom_pos G t d : jdom G t d -> opos t d.
Proof. unfold jdom. destruct (ar_coef2 G); [intros [H _]|intro H]; exact H. Qed.
Lemma jar_value G t d : ar_wf G -> jdom G t d -> b0 (jar G t d) = residual_energy G t d.
Proof.
  unfold jdom, jar. destruct (ar_coef2 G) as [l|] eqn:E; intros W H.
  - apply rarc_value; assumption.
  - destruct H. rewrite rar01_value by assumption. unfold residual_energy, ar01_value. rewrite E. cbn. ring.
Qed.
Lemma jdom_open G : rows_wf G -> axis_open (jdom G).
Proof.
  unfold rows_wf, jdom. destruct (ar_coef2 G); intro W; [apply critdom_open; exact W|apply axis_open_pos].
Qed.

Section Data.
Variable D : mpdata.
Hypothesis WF : mp_wf D.
Let Ts0 := ao_Tscale (mp_AO D).
Let ds0 := ao_dscale (mp_AO D).
Let Ts := ar_Tscale (mp_AR D).
Let ds := ar_dscale (mp_AR D).
Let JR := jar (mp_AR D).
Definition sdom (T d : R) : Prop := opos T d /\ jdom (mp_AR D) (Ts / T) (d / ds).

Lemma sdom_open : rows_wf (mp_AR D) -> axis_open sdom.
Proof.
  destruct WF as (W1 & W2 & W3 & P1 & P2 & P3 & P4 & P5). intro R.
  fold Ts in P3. fold ds in P4.
  intros x y [H K]. pose proof H as [Hx Hy].
  destruct (axis_open_pos x y H) as (e & He & Ox & Oy).
  destruct (jdom_open _ R _ _ K) as (e1 & He1 & Kx & Ky).
  (* continuity of Ts/u at x *)
  assert (C : continuity_pt (fun u => Ts / u) x).
  { apply derivable_continuous_pt. exists (- (Ts / x) / x). apply (jinvT_jet Ts x Hx). }
  destruct (C e1 He1) as (a & Ha & KA).
  exists (Rmin e (Rmin a (e1 * ds))). split.
  { repeat apply Rmin_glb_lt; try assumption. apply Rmult_lt_0_compat; assumption. }
  pose proof (Rmin_l e (Rmin a (e1 * ds))). pose proof (Rmin_r e (Rmin a (e1 * ds))).
  pose proof (Rmin_l a (e1 * ds)). pose proof (Rmin_r a (e1 * ds)).
  split; intros u Hu; split.
  - apply Ox. lra.
  - apply Kx. destruct (Req_EM_T u x) as [->|N].
    + replace (Ts / x - Ts / x) with 0 by ring. rewrite Rabs_R0. exact He1.
    + apply (KA u). split; [split; [exact I|intro E; apply N; symmetry; exact E]|].
      apply (Rlt_le_trans _ _ _ Hu). lra.
  - apply Oy. lra.
  - apply Ky. replace (u / ds - y / ds) with ((u - y) / ds) by (field; lra).
    unfold Rdiv. rewrite Rabs_mult, Rabs_inv, (Rabs_pos_eq ds) by lra.
    apply (Rmult_lt_reg_r ds); [exact P4|]. rewrite Rmult_assoc, Rinv_l, Rmult_1_r by lra. lra.
Qed.
Lemma helm_jet : rows_wf (mp_AR D) -> jet2_on sdom (jhelm D JR).
Proof.
  intro R. apply (scaled D WF JR (jdom (mp_AR D)) sdom).
  - intros x y H. exact (jdom_pos _ _ _ H).
  - intros x y H. exact H.
  - apply jar_jet. exact R.
Qed.
Lemma helm_value T d : sdom T d -> b0 (jhelm D JR T d) = helmholtz D T d.
Proof.
  destruct WF as (W1 & W2 & W3 & P1 & P2 & P3 & P4 & P5). intros [[HT Hd] K].
  unfold jhelm, helmholtz. cbn [b0 j2mul j2const j2x j2add j2args a0 j1var].
  rewrite rao2_value by (try exact W1; apply Rdiv_lt_0_compat; assumption).
  pose proof (jar_value _ _ _ W2 K) as V. unfold Ts, ds in V. unfold JR.
  cbn [a0 jinvT jscale j2args b0]. rewrite V. ring.
Qed.
Lemma helm_partials T d : rows_wf (mp_AR D) -> sdom T d ->
  partials1 (helmholtz D) T d (bx (jhelm D JR T d)) (by_ (jhelm D JR T d)) /\
  partials2 (helmholtz D) T d (bxx (jhelm D JR T d)) (bxy (jhelm D JR T d)) (byy (jhelm D JR T d)).
Proof.
  intros R S. apply (jet2_partials sdom (jhelm D JR)).
  - apply sdom_open. exact R.
  - exact S.
  - apply helm_jet. exact R.
  - intros u w H. apply helm_value. exact H.
Qed.

Definition reduce (all : list (fl * fl)) : list (fl * fl) :=
  map (fun e => red_ar D (fst e) (snd e)) all.
(* the error of the mixed derivative *)
Definition aerr (all : list (fl * fl)) (T d : R) : R :=
  match ar_coef2 (mp_AR D) with
  | None => 0
  | Some l => total (merr (reduce all) (Ts / T) (d / ds)) l
  end.
Lemma ok_facts all T d : 0 < T -> 0 < d -> residual_ok D all T d ->
  rows_wf (mp_AR D) /\ sdom T d /\
  forall n, ar_at D all (Some T) (Some d) n = gate2 n (mixerr (aerr all T d) (JR (Ts / T) (d / ds))).
Proof.
  destruct WF as (W1 & W2 & W3 & P1 & P2 & P3 & P4 & P5). intros HT Hd H.
  assert (Pt : 0 < Ts / T) by (apply Rdiv_lt_0_compat; assumption).
  assert (Pd : 0 < d / ds) by (apply Rdiv_lt_0_compat; assumption).
  unfold rows_wf, sdom, jdom, JR, jar, aerr, ar_at. rewrite (red_ar_eq D WF T d HT). cbn [fst snd].
  fold (reduce all).
  destruct H as [E|(l & E & Wc & Hp & Hin & Hs)]; rewrite E.
  - split; [exact I|]. split; [split; split; assumption|]. intro n. rewrite mixerr_0.
    unfold ar. cbv zeta. rewrite E. apply ar_stage1; [exact Pt|exact Pd|right; exact W3].
  - split; [exact Wc|].
    assert (C : critdom l (Ts / T) (d / ds)) by (split; [split; assumption|exact Hp]).
    split; [split; [split; assumption|exact C]|]. intro n.
    apply ar_gate; [exact E|exact Wc| | |exact C|right; exact W3].
    + unfold reduce. apply in_map_iff. exists (Some T, Some d). split; [|exact Hin].
      cbn [fst snd]. apply (red_ar_eq D WF T d HT).
    + destruct Hs as [Hs|Hs]; [left|right].
      * apply near1_not. intros (tau & dd & Hd' & K). apply Hs.
        unfold reduce in Hd'. apply in_map_iff in Hd'. destruct Hd' as ([T' d'] & Er & Hin').
        cbn [fst snd] in Er. unfold red_ar in Er. injection Er as _ E2.
        destruct d' as [d'|]; [|discriminate]. unfold num in E2. rewrite fdiv_ok in E2 by lra.
        injection E2 as <-. exists T', d'. split; [exact Hin'|exact K].
      * fold ds in Hs, P4. apply (Rmult_le_reg_r ds); [exact P4|]. unfold Rdiv.
        rewrite Rmult_assoc, Rinv_l, Rmult_1_r by lra. lra.
Qed.

Theorem property_values all T d : 0 < T -> 0 < d -> residual_ok D all T d ->
  exists fT fd, partials1 (helmholtz D) T d fT fd /\
  forall diff,
    gives (mp_f D all (Some T) (Some d) diff) (helmholtz D T d) /\
    gives (mp_s D all (Some T) (Some d) diff) (- fT) /\
    gives (mp_p D all (Some T) (Some d) diff) (d * d * fd) /\
    gives (mp_h D all (Some T) (Some d) diff) (helmholtz D T d - T * fT + d * fd) /\
    gives (mp_g D all (Some T) (Some d) diff) (helmholtz D T d + d * fd) /\
    (Ts0 = Ts -> gives (mp_e D all (Some T) (Some d) diff) (helmholtz D T d - T * fT)).
Proof.
  intros HT Hd H. destruct (ok_facts all T d HT Hd H) as (R & S & A).
  destruct (helm_partials T d R S) as [P1 _].
  exists (bx (jhelm D JR T d)), (by_ (jhelm D JR T d)). split; [exact P1|]. intro diff.
  rewrite <- (helm_value T d S). unfold gives.
  rewrite (mp_f_eq D WF JR all T d HT Hd (aerr all T d) A), (mp_s_eq D WF JR all T d HT Hd (aerr all T d) A),
    (mp_p_eq D WF JR all T d HT Hd (aerr all T d) A), (mp_h_eq D WF JR all T d HT Hd (aerr all T d) A),
    (mp_g_eq D WF JR all T d HT Hd (aerr all T d) A).
  repeat split. intro ET. rewrite (mp_e_eq D WF JR all T d HT Hd (aerr all T d) A diff ET). reflexivity.
Qed.

(* the relations between the returned numbers *)
Theorem property_relations all T d diff : 0 < T -> 0 < d -> residual_ok D all T d ->
  exists f s p h g,
    gives (mp_f D all (Some T) (Some d) diff) f /\ gives (mp_s D all (Some T) (Some d) diff) s /\
    gives (mp_p D all (Some T) (Some d) diff) p /\ gives (mp_h D all (Some T) (Some d) diff) h /\
    gives (mp_g D all (Some T) (Some d) diff) g /\
    g = h - T * s /\ g = f + p / d /\
    (Ts0 = Ts -> exists e, gives (mp_e D all (Some T) (Some d) diff) e /\ h = e + p / d /\ f = e - T * s).
Proof.
  intros HT Hd H. destruct (property_values all T d HT Hd H) as (fT & fd & _ & K).
  destruct (K diff) as (K1 & K2 & K3 & K4 & K5 & K6).
  do 5 eexists. repeat (split; [eassumption|]). split; [ring|]. split; [field; lra|].
  intro ET. eexists. split; [exact (K6 ET)|]. split; [field; lra|ring].
Qed.

Theorem heat_capacity all T d : 0 < T -> 0 < d -> residual_ok D all T d ->
  exists fTT fdd cv p pT pd, deriv2 (fun u => helmholtz D u d) T fTT /\
    deriv2 (fun w => helmholtz D T w) d fdd /\
    mp_cv D all (Some T) (Some d) = Some cv /\ cv = - T * fTT /\
    mp_p D all (Some T) (Some d) 1 = (Some p, Some pT, Some pd) /\
    pd = 2 * p / d + d * d * fdd /\
    (pd <> 0 -> mp_cp D all (Some T) (Some d) = Some (cv + T * (pT * pT) / (d * d * pd))) /\
    (pd = 0 -> mp_cp D all (Some T) (Some d) = None) /\
    (cv <> 0 -> mp_a D all (Some T) (Some d) = fsqrt (Some (pd + T * (pT * pT) / (d * d * cv)))) /\
    (forall cp, cv <> 0 -> pd <> 0 -> mp_cp D all (Some T) (Some d) = Some cp ->
       mp_a D all (Some T) (Some d) = fsqrt (Some (pd * (cp / cv)))) /\
    (Ts0 = Ts -> exists e ed, mp_e D all (Some T) (Some d) 1 = (Some e, Some cv, Some ed)).
Proof.
  intros HT Hd H. destruct (ok_facts all T d HT Hd H) as (R & S & A).
  destruct (helm_partials T d R S) as [_ (P2 & _ & P3)].
  set (err := aerr all T d) in *. set (z := bxx (jhelm D JR T d)) in *.
  assert (NT : T <> 0) by lra. assert (Nd : d <> 0) by lra.
  exists z, (byy (jhelm D JR T d)), (- T * z),
    (d * d * by_ (jhelm D JR T d)), (pT D JR T d err), (pd D JR T d).
  split; [exact P2|]. split; [exact P3|].
  rewrite (mp_cv_eq D WF JR all T d HT Hd err A), (mp_p_eq D WF JR all T d HT Hd err A).
  split; [reflexivity|]. split; [reflexivity|]. split; [reflexivity|].
  split; [unfold pd; field; exact Nd|].
  assert (CP : pd D JR T d <> 0 -> mp_cp D all (Some T) (Some d)
     = Some (- T * z + T * (pT D JR T d err * pT D JR T d err) / (d * d * pd D JR T d))).
  { intro N. exact (mp_cp_eq D WF JR all T d HT Hd err A N). }
  split; [exact CP|]. split; [exact (mp_cp_none D WF JR all T d HT Hd err A)|].
  assert (AA : - T * z <> 0 -> mp_a D all (Some T) (Some d)
     = fsqrt (Some (pd D JR T d + T * (pT D JR T d err * pT D JR T d err) / (d * d * (- T * z))))).
  { intro N. assert (Nz : z <> 0) by (intro E; apply N; rewrite E; ring).
    rewrite (mp_a_eq D WF JR all T d HT Hd err A Nz). f_equal. apply some_eq. fold z. field.
    repeat split; assumption. }
  split; [exact AA|]. split.
  - intros cp Hc Hp E. rewrite (CP Hp) in E. injection E as <-. rewrite (AA Hc). f_equal. apply some_eq.
    assert (Nz : z <> 0) by (intro E; apply Hc; rewrite E; ring).
    field. repeat split; assumption.
  - intro ET. eexists. eexists. rewrite (mp_e_eq D WF JR all T d HT Hd err A 1%nat ET). reflexivity.
Qed.

(* the derivatives each routine returns are those of its own values *)
Section NoCrit.
Hypothesis NC : ar_coef2 (mp_AR D) = None.
Lemma nc_facts all T d : 0 < T -> 0 < d -> sdom T d /\
  forall n, ar_at D all (Some T) (Some d) n = gate2 n (mixerr 0 (JR (Ts / T) (d / ds))).
Proof.
  intros HT Hd. destruct (ok_facts all T d HT Hd (or_introl NC)) as (_ & S & A).
  split; [exact S|]. intro n. rewrite A. unfold aerr. rewrite NC. reflexivity.
Qed.
Lemma nc_rows : rows_wf (mp_AR D).
Proof. unfold rows_wf. rewrite NC. exact I. Qed.
Lemma Ftd_0 T d : Ftd D JR T d 0 = bxy (jhelm D JR T d).
Proof. unfold Ftd. unfold Rdiv. ring. Qed.

Lemma own_of all (X : mpdata -> list (fl * fl) -> fl -> fl -> nat -> jet1) (fn vT vd : R -> R -> R) :
  (forall T d, 0 < T -> 0 < d -> X D all (Some T) (Some d) 0%nat = (Some (fn T d), Some 0, Some 0) /\
     X D all (Some T) (Some d) 1%nat = (Some (fn T d), Some (vT T d), Some (vd T d))) ->
  (forall T d, sdom T d -> deriv (fun u => fn u d) T (vT T d) /\ deriv (fun w => fn T w) d (vd T d)) ->
  forall T d, 0 < T -> 0 < d -> own_derivatives (X D all) T d.
Proof.
  intros E DD T d HT Hd. destruct (E T d HT Hd) as [E0 E1].
  exists (fn T d), (vT T d), (vd T d). split; [exact E1|]. intros g Hg.
  assert (EQ : forall u w, 0 < u -> 0 < w -> fn u w = g u w).
  { intros u w Hu Hw. pose proof (Hg u w Hu Hw) as K. unfold gives in K.
    rewrite (proj1 (E u w Hu Hw)) in K. cbn in K. injection K as K. exact K. }
  split; [apply EQ; assumption|].
  destruct (nc_facts all T d HT Hd) as [S _]. destruct (DD T d S) as [D1 D2]. split.
  - apply (D_ext_pos (fun u => fn u d)); [exact HT|intros u Hu; apply EQ; assumption|exact D1].
  - apply (D_ext_pos (fun w => fn T w)); [exact Hd|intros u Hu; apply EQ; assumption|exact D2].
Qed.
Let H := jhelm D JR.
Lemma hp T d : sdom T d ->
  Proof_Jets.D (fun u => b0 (H u d)) T (bx (H T d)) /\ Proof_Jets.D (fun v => b0 (H T v)) d (by_ (H T d)) /\
  Proof_Jets.D (fun u => bx (H u d)) T (bxx (H T d)) /\ Proof_Jets.D (fun v => bx (H T v)) d (bxy (H T d)) /\
  Proof_Jets.D (fun u => by_ (H u d)) T (bxy (H T d)) /\ Proof_Jets.D (fun v => by_ (H T v)) d (byy (H T d)).
Proof. intro S. exact (helm_jet nc_rows T d S). Qed.

Ltac eqs L all T d HT Hd := destruct (nc_facts all T d HT Hd) as [S A];
  rewrite !(L D WF JR all T d HT Hd 0 A), ?Ftd_0; cbn [diff1 Nat.ltb Nat.leb]; split; reflexivity.
Theorem own_all all T d : 0 < T -> 0 < d ->
  own_derivatives (mp_f D all) T d /\ own_derivatives (mp_s D all) T d /\
  own_derivatives (mp_p D all) T d /\ own_derivatives (mp_h D all) T d /\
  own_derivatives (mp_g D all) T d /\ (Ts0 = Ts -> own_derivatives (mp_e D all) T d).
Proof.
  intros HT Hd. split; [|split; [|split; [|split; [|split]]]].
  - revert T d HT Hd. apply (own_of all mp_f (fun T d => b0 (H T d)) (fun T d => bx (H T d)) (fun T d => by_ (H T d))).
    + intros T d HT Hd. eqs mp_f_eq all T d HT Hd.
    + intros T d S. destruct (hp T d S) as (Q1 & Q2 & Q3 & Q4 & Q5 & Q6). split; assumption.
  - revert T d HT Hd. apply (own_of all mp_s (fun T d => - bx (H T d)) (fun T d => - bxx (H T d)) (fun T d => - bxy (H T d))).
    + intros T d HT Hd. eqs mp_s_eq all T d HT Hd.
    + intros T d S. destruct (hp T d S) as (Q1 & Q2 & Q3 & Q4 & Q5 & Q6).
      split; [exact (D_opp _ _ _ Q3)|exact (D_opp _ _ _ Q4)].
  - revert T d HT Hd. apply (own_of all mp_p (fun T d => d * d * by_ (H T d)) (fun T d => d * d * bxy (H T d))
      (fun T d => 2 * d * by_ (H T d) + d * d * byy (H T d))).
    + intros T d HT Hd. eqs mp_p_eq all T d HT Hd.
    + intros T d S. destruct (hp T d S) as (Q1 & Q2 & Q3 & Q4 & Q5 & Q6).
      split; [exact (D_scal _ (d * d) _ _ Q5)|].
      eapply D_eq; [exact (D_mult _ _ _ _ _ (D_mult _ _ _ _ _ (D_id d) (D_id d)) Q6)|cbn beta; ring].
  - revert T d HT Hd. apply (own_of all mp_h (fun T d => b0 (H T d) - T * bx (H T d) + d * by_ (H T d))
      (fun T d => - T * bxx (H T d) + d * bxy (H T d))
      (fun T d => - T * bxy (H T d) + 2 * by_ (H T d) + d * byy (H T d))).
    + intros T d HT Hd. eqs mp_h_eq all T d HT Hd.
    + intros T d S. destruct (hp T d S) as (Q1 & Q2 & Q3 & Q4 & Q5 & Q6). split.
      * eapply D_eq; [exact (D_plus _ _ _ _ _ (D_minus _ _ _ _ _ Q1 (D_mult _ _ _ _ _ (D_id T) Q3)) (D_scal _ d _ _ Q5))|cbn beta; ring].
      * eapply D_eq; [exact (D_plus _ _ _ _ _ (D_minus _ _ _ _ _ Q2 (D_scal _ T _ _ Q4)) (D_mult _ _ _ _ _ (D_id d) Q6))|cbn beta; ring].
  - revert T d HT Hd. apply (own_of all mp_g (fun T d => b0 (H T d) + d * by_ (H T d))
      (fun T d => bx (H T d) + d * bxy (H T d)) (fun T d => 2 * by_ (H T d) + d * byy (H T d))).
    + intros T d HT Hd. eqs mp_g_eq all T d HT Hd.
    + intros T d S. destruct (hp T d S) as (Q1 & Q2 & Q3 & Q4 & Q5 & Q6). split.
      * eapply D_eq; [exact (D_plus _ _ _ _ _ Q1 (D_scal _ d _ _ Q5))|cbn beta; ring].
      * eapply D_eq; [exact (D_plus _ _ _ _ _ Q2 (D_mult _ _ _ _ _ (D_id d) Q6))|cbn beta; ring].
  - intro ET. revert T d HT Hd. apply (own_of all mp_e (fun T d => b0 (H T d) - T * bx (H T d))
      (fun T d => - T * bxx (H T d)) (fun T d => by_ (H T d) - T * bxy (H T d))).
    + intros T d HT Hd. destruct (nc_facts all T d HT Hd) as [S A].
      rewrite !(mp_e_eq D WF JR all T d HT Hd 0 A _ ET), ?Ftd_0; cbn [diff1 Nat.ltb Nat.leb]; split; reflexivity.
    + intros T d S. destruct (hp T d S) as (Q1 & Q2 & Q3 & Q4 & Q5 & Q6). split.
      * eapply D_eq; [exact (D_minus _ _ _ _ _ Q1 (D_mult _ _ _ _ _ (D_id T) Q3))|cbn beta; ring].
      * eapply D_eq; [exact (D_minus _ _ _ _ _ Q2 (D_scal _ T _ _ Q4))|cbn beta; ring].
Qed.
End NoCrit.
End Data.

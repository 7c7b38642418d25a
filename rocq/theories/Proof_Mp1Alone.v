(* The property routines of the multi-phase class for one state, with or without critical point terms. *)
From Coq Require Import Reals ZArith List Lra Lia Bool Arith.
From Verif Require Import Model_Mp1 Spec_Mp1 Proof_Jets Proof_Mp1Poly Proof_Mp1Helm Proof_Mp1Res Proof_Mp1Crit
  Proof_Mp1Props Proof_Mp1Thm.
From Verif Require Import Model_Mp1Calls Spec_Mp1Inv.
Import ListNotations.
Local Open Scope R_scope.
Local Open Scope list_scope.

Definition fits (D : mpdata) (all : list (fl * fl)) (T d : R) : Prop := ar_coef2 (mp_AR D) = None \/ all = [(Some T, Some d)].
Lemma fits_nc D all T d : ar_coef2 (mp_AR D) = None -> fits D all T d.
Proof. left. assumption. Qed.
Lemma fits_one D T d : fits D [(Some T, Some d)] T d.
Proof. right. reflexivity. Qed.
Lemma evaluable_nc D T d : ar_coef2 (mp_AR D) = None -> evaluable D T d.
Proof. intros H l Hl. congruence. Qed.

Lemma single_facts D T d : mp_wf D -> 0 < T -> 0 < d -> evaluable D T d ->
  exists J, forall all n, fits D all T d ->
    ar_at D all (Some T) (Some d) n = gate2 n (mixerr 0 J).
Proof.
  intros WF HT Hd EV. pose proof WF as (W1 & W2 & W3 & P1 & P2 & P3 & P4 & P5).
  assert (Pt : 0 < ar_Tscale (mp_AR D) / T) by (apply Rdiv_lt_0_compat; assumption).
  assert (Pd : 0 < d / ar_dscale (mp_AR D)) by (apply Rdiv_lt_0_compat; assumption).
  destruct (ar_coef2 (mp_AR D)) as [l|] eqn:E.
  - destruct (EV l E) as [Wc Hp].
    set (t := ar_Tscale (mp_AR D) / T) in *. set (dd := d / ar_dscale (mp_AR D)) in *.
    set (all1 := [(Some t, Some dd)]).
    set (row := fun r => let K := flip (side (near1 all1) dd) (jdelta r t dd) in
      rterm2_of r (mixerr (perr (near2 all1 r) (r2_b r) K) (j2comp (j1pow (r2_b r) (b0 K)) K)) t dd).
    exists (j2add (rar01 (mp_AR D) t dd) (j2sum row l)). intros all n [F|F]; [congruence|]. subst all.
    unfold ar_at. rewrite (red_ar_eq D WF T d HT). cbn [fst snd map]. rewrite (red_ar_eq D WF T d HT). cbn [fst snd].
    fold t dd. fold all1. rewrite mixerr_0. unfold ar. cbv zeta. rewrite E, ar_stage1 by (first [assumption|right; exact W3]).
    apply fold_add_rep. intros r Hr. rewrite Forall_forall in Wc, Hp.
    assert (Q : ar2_term all1 (Some t) (Some dd) r = full (row r)).
    { apply (ar2_term_eq all1 t dd r); [|now apply Hp]. destruct (Req_EM_T dd 1) as [Q|N]; [right|left; exact N]. split; [|now apply Wc]. apply (near1_in _ t). unfold all1. rewrite Q. left. reflexivity. }
    exact (eq_ind_r (fun u => rep2 n u (row r)) (full_rep n (row r)) Q).
  - exists (jar (mp_AR D) (ar_Tscale (mp_AR D) / T) (d / ar_dscale (mp_AR D))). intros all n _.
    destruct (nc_facts D WF E all T d HT Hd) as [_ A]. apply A.
Qed.

(* a routine has a value and slopes at every state, whatever array it is in (fits) *)
Definition regular (D : mpdata) (F : list (fl * fl) -> inner) : Prop := forall T d, 0 < T -> 0 < d -> evaluable D T d ->
  exists v vT vd, forall all, fits D all T d -> value0 (F all (Some T) (Some d) 0%nat) = Some v /\ F all (Some T) (Some d) 1%nat = (Some v, Some vT, Some vd).
Ltac reg L := intros; intros T d HT Hd EV; match goal with W : mp_wf ?D |- _ => destruct (single_facts D T d W HT Hd EV) as (J & A);
  do 3 eexists; intros all FI; rewrite !(L D W (fun _ _ => J) all T d HT Hd 0 (fun n => A all n FI)) by assumption;
  cbn [diff1 Nat.ltb Nat.leb value0 fst]; split; reflexivity end.
Lemma regular_h D : mp_wf D -> regular D (mp_h D).
Proof. reg mp_h_eq. Qed.
Lemma regular_s D : mp_wf D -> regular D (mp_s D).
Proof. reg mp_s_eq. Qed.
Lemma regular_p D : mp_wf D -> regular D (mp_p D).
Proof. reg mp_p_eq. Qed.
Lemma regular_e D : mp_wf D -> ao_Tscale (mp_AO D) = ar_Tscale (mp_AR D) -> regular D (mp_e D).
Proof. reg mp_e_eq. Qed.

Section At.
  Variables (D : mpdata) (F : list (fl * fl) -> inner) (T : R) (Y : R -> R).
  Hypothesis RF : regular D F.
  Hypothesis HT : 0 < T.
  Lemma value_at all d v : 0 < d -> evaluable D T d -> at_state F T d v -> fits D all T d ->
    value0 (F all (Some T) (Some d) 0%nat) = Some v /\
    exists vT vd, F all (Some T) (Some d) 1%nat = (Some v, Some vT, Some vd).
  Proof.
    intros Hd EV G FI. destruct (RF T d HT Hd EV) as (v' & vT & vd & H). unfold at_state, gives in G.
    pose proof (proj1 (H _ (fits_one D T d))) as P0. unfold value0 in P0. rewrite G in P0. injection P0 as <-.
    split; [exact (proj1 (H _ FI))|]. exists vT, vd. exact (proj2 (H _ FI)).
  Qed.
  Hypothesis NC : ar_coef2 (mp_AR D) = None.
  Hypothesis HY : forall d, 0 < d -> at_state F T d (Y d).
  Hypothesis OD : forall d, 0 < d -> own_derivatives (F []) T d.
  Lemma continuous_at d : 0 < d -> continuity_pt Y d.
  Proof.
    intro Hd. destruct (OD d Hd) as (v & vT & vd & _ & H).
    assert (V : exists fn, forall u w, 0 < u -> 0 < w -> gives (F [] (Some u) (Some w) 0%nat) (fn u w)).
    { exists (fun u w => match fst (fst (F [] (Some u) (Some w) 0%nat)) with Some v => v | None => 0 end).
      intros u w Hu Hw. destruct (RF u w Hu Hw (evaluable_nc _ _ _ NC)) as (v' & vT' & vd' & H'). pose proof (proj1 (H' [] (fits_nc _ _ _ _ NC))) as P0. unfold value0, gives in *. now rewrite P0. }
    destruct V as (fn & V). destruct (H fn V) as (_ & _ & E2).
    assert (Dd : derivable_pt_lim Y d vd).
    { apply (D_ext_pos (fun w => fn T w) Y d vd Hd); [|exact E2]. intros w Hw.
      pose proof (V T w HT Hw) as Q. pose proof (proj1 (value_at [] w _ Hw (evaluable_nc _ _ _ NC) (HY w Hw) (fits_nc _ _ _ _ NC))) as Q2. unfold gives, value0 in *. congruence. }
    apply derivable_continuous_pt. exists vd. exact Dd.
  Qed.
End At.
(* with positive B the terms have a value everywhere but at the critical point itself *)
Lemma evaluable_off D T d : mp_wf D -> 0 < T -> 0 < d ->
  (forall l, ar_coef2 (mp_AR D) = Some l -> Forall (fun r => crit_wf r /\ 0 < r2_B r) l) ->
  T <> ar_Tscale (mp_AR D) \/ d <> ar_dscale (mp_AR D) -> evaluable D T d.
Proof.
  intros WF HT Hd H N l E. specialize (H l E). pose proof WF as (_ & _ & _ & _ & _ & P3 & P4 & _).
  split; [apply Forall_forall; intros r Hr; rewrite Forall_forall in H; now apply (H r)|].
  apply Forall_forall. intros r Hr. rewrite Forall_forall in H. destruct (H r Hr) as [W B]. unfold delta_fn, Spec_Mp1.dist.
  destruct (Req_EM_T (d / ar_dscale (mp_AR D)) 1) as [Q|Q].
  - assert (TN : T <> ar_Tscale (mp_AR D)).
    { destruct N as [N|N]; [exact N|]. exfalso. apply N. apply (Rmult_eq_reg_r (/ ar_dscale (mp_AR D))); [|apply Rinv_neq_0_compat; lra].
      rewrite Rinv_r by lra. exact Q. }
    assert (1 - ar_Tscale (mp_AR D) / T <> 0).
    { intro Z. apply TN. apply (Rmult_eq_reg_r (/ T)); [|apply Rinv_neq_0_compat; lra]. rewrite Rinv_r by lra. unfold Rdiv in Z. lra. }
    replace ((1 - ar_Tscale (mp_AR D) / T + r2_A r * 0)^2 + r2_B r * 0) with (Rsqr (1 - ar_Tscale (mp_AR D) / T)) by (unfold Rsqr; ring).
    now apply Rsqr_pos_lt.
  - match goal with |- 0 < ?u ^ 2 + _ => pose proof (Rle_0_sqr u) as S; replace (u ^ 2) with (Rsqr u) by (unfold Rsqr; ring) end.
    match goal with |- context [Rpower ?a ?b] => pose proof (rpower_pos a b) end. assert (0 < r2_B r * Rpower ((d / ar_dscale (mp_AR D) - 1)^2) (2 * r2_a r / 2)) by (apply Rmult_lt_0_compat; [assumption|apply rpower_pos]). lra.
Qed.

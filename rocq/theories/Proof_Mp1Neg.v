(* Where the property routines of mp1.py fail, and where the elements of an array are
   independent (C45, C47, C69). *)
From Coq Require Import Reals ZArith List Lra Lia Bool Arith.
From Verif Require Import Model_Mp1 Spec_Mp1 Proof_Jets Proof_Mp1Poly Proof_Mp1Helm Proof_Mp1Res Proof_Mp1Crit
  Proof_Mp1Props Proof_Mp1Thm.
Import ListNotations.
Local Open Scope R_scope.
Local Open Scope list_scope.

Lemma ar_at_indep D all all' T d n : ar_coef2 (mp_AR D) = None -> ar_at D all T d n = ar_at D all' T d n.
Proof. intro N. unfold ar_at, ar. cbv zeta. rewrite N. reflexivity. Qed.
Theorem elementwise : forall D all all' T d diff, ar_coef2 (mp_AR D) = None ->
  mp_p D all T d diff = mp_p D all' T d diff /\ mp_e D all T d diff = mp_e D all' T d diff /\
  mp_h D all T d diff = mp_h D all' T d diff /\ mp_s D all T d diff = mp_s D all' T d diff /\
  mp_f D all T d diff = mp_f D all' T d diff /\ mp_g D all T d diff = mp_g D all' T d diff /\
  mp_a D all T d = mp_a D all' T d /\ mp_cp D all T d = mp_cp D all' T d /\
  mp_cv D all T d = mp_cv D all' T d.
Proof.
  intros D all all' T d diff N.
  unfold mp_p, mp_e, mp_h, mp_s, mp_f, mp_g, mp_a, mp_cp, mp_cv.
  rewrite !(ar_at_indep D all all' T d _ N). repeat split.
Qed.

Section Row.
Variables (D : mpdata) (r : ar2).
Hypothesis WF : mp_wf D.
Hypothesis E : ar_coef2 (mp_AR D) = Some [r].
Hypothesis Wc : crit_wf r.
Hypothesis Hc : r2_c r <> 0.
Hypothesis HA : 0 <= r2_A r.
Hypothesis HB : 0 < r2_B r.
Let Ts := ar_Tscale (mp_AR D).
Let ds := ar_dscale (mp_AR D).

Theorem pressure_depends_on_neighbour : forall T d (T' : fl), Ts <= T -> 0 < d <= (1 - 1 / 1000000) * ds ->
  exists p q, gives (mp_p D [(Some T, Some d)] (Some T) (Some d) 0) p /\
    gives (mp_p D [(Some T, Some d); (T', Some ds)] (Some T) (Some d) 0) q /\ p <> q.
Proof.
  intros T d T' HT Hd. destruct WF as (W1 & W2 & W3 & P1 & P2 & P3 & P4 & P5).
  fold Ts in P3. fold ds in P4.
  assert (T0 : 0 < T) by lra.
  assert (Ht : 0 < Ts / T <= 1).
  { split; [apply Rdiv_lt_0_compat; assumption|]. apply (Rmult_le_reg_r T); [exact T0|].
    unfold Rdiv. rewrite Rmult_assoc, Rinv_l by lra. lra. }
  assert (Hdd : 0 < d / ds <= 1 - 1 / 1000000).
  { split; [apply Rdiv_lt_0_compat; lra|]. apply (Rmult_le_reg_r ds); [exact P4|].
    unfold Rdiv. rewrite Rmult_assoc, Rinv_l by lra. lra. }
  destruct (neighbour_changes_ad (mp_AR D) r (Ts / T) (d / ds) (num Ts / T')%fl W3 E Wc Hc HA HB Ht Hdd)
    as (x & y & X & Y & N).
  assert (G : forall all, fst (fst (mp_p D all (Some T) (Some d) 0))
     = (Some T * Some d * Some (mp_R D) * (num 1 + Some (d / ds)%R * jd (ar_at D all (Some T) (Some d) 1)))%fl).
  { intro all. unfold mp_p. rewrite (red_ar_eq D WF T d T0). fold Ts ds. cbn [Nat.add].
    destruct (ar_at D all (Some T) (Some d) 1) as [[[[[u1 u2] u3] u4] u5] u6]. reflexivity. }
  unfold gives. rewrite !G.
  assert (R1 : ar_at D [(Some T, Some d)] (Some T) (Some d) 1
               = ar (mp_AR D) [(Some (Ts / T), Some (d / ds))] (Some (Ts / T)) (Some (d / ds)) 1).
  { unfold ar_at. cbn [map fst snd]. rewrite (red_ar_eq D WF T d T0). reflexivity. }
  assert (R2 : ar_at D [(Some T, Some d); (T', Some ds)] (Some T) (Some d) 1
               = ar (mp_AR D) [(Some (Ts / T), Some (d / ds)); ((num Ts / T')%fl, Some 1)] (Some (Ts / T)) (Some (d / ds)) 1).
  { unfold ar_at. cbn [map fst snd]. rewrite (red_ar_eq D WF T d T0). unfold red_ar. fold Ts ds.
    cbn [fst snd]. unfold num at 2. rewrite fdiv_ok by lra. replace (ds / ds) with 1 by (field; lra). reflexivity. }
  assert (X' : jd (ar_at D [(Some T, Some d)] (Some T) (Some d) 1) = Some x) by (rewrite R1; exact X).
  assert (Y' : jd (ar_at D [(Some T, Some d); (T', Some ds)] (Some T) (Some d) 1) = Some y) by (rewrite R2; exact Y).
  rewrite X', Y'.
  cbn [fst snd]. flc. cbn [lift1 lift2].
  eexists. eexists. split; [reflexivity|]. split; [reflexivity|]. intro Z. apply N.
  assert (Q : 0 < T * d * mp_R D) by (repeat apply Rmult_lt_0_compat; lra).
  apply (Rmult_eq_reg_l (d / ds)); [|lra].
  apply (Rmult_eq_reg_l (T * d * mp_R D)); [|lra]. lra.
Qed.

Lemma delta_off t d : d <> 1 -> 0 < delta_fn r t d.
Proof.
  intro N. unfold delta_fn. apply Rplus_le_lt_0_compat; [apply pow2_ge_0|]. apply Rmult_lt_0_compat; [exact HB|].
  unfold dist. destruct (Req_EM_T d 1); [contradiction|apply rpower_pos].
Qed.
Lemma merr_nonzero t d : 0 < t -> 1 + 1 / 1000000 <= d -> 1 / 1000000 <= delta_fn r t d ->
  merr [(Some t, Some d)] t d r <> 0.
Proof.
  intros Ht Hd HD Z.
  assert (H2 : near2 [(Some t, Some d)] r = false).
  { apply near2_not; [exact Wc| |].
    - intros e [<-|[]]. exists t, d. reflexivity.
    - intros (tau & dd & [H|[]] & K). injection H as <- <-. rewrite Rabs_pos_eq in K; lra. }
  unfold merr, perr in Z. rewrite H2, jdelta_tt in Z.
  pose proof Wc as (Hm & Ha & HB' & Hb).
  pose proof (jdelta_td r t d HA ltac:(lra) ltac:(lra)) as TD.
  set (B := bxy (jdelta r t d)) in *. rewrite jdelta_value in Z.
  set (g := b0 (jgauss _ _ _ _ _ _)) in Z.
  assert (Hg : 0 < g) by (unfold g, jgauss; cbn [b0 j2comp a0 j1exp]; apply exp_pos).
  set (P := Rpower _ _) in Z. assert (HP : 0 < P) by apply rpower_pos.
  set (q := r2_b r * P * (2 - B) / delta_fn r t d) in Z.
  assert (Hq : 0 < q).
  { apply Rdiv_lt_0_compat; [|lra]. apply Rmult_lt_0_compat; [apply Rmult_lt_0_compat; assumption|lra]. }
  assert (Y : r2_c r * (d * q * g) = 0) by (rewrite <- Z; ring).
  apply Rmult_integral in Y. destruct Y as [Y|Y]; [contradiction|].
  assert (0 < d * q * g); [|lra]. apply Rmult_lt_0_compat; [apply Rmult_lt_0_compat; lra|exact Hg].
Qed.

Lemma row_ok T d : ds <= d -> d <> ds -> residual_ok D [(Some T, Some d)] T d.
Proof.
  intros Hd N. destruct WF as (W1 & W2 & W3 & P1 & P2 & P3 & P4 & P5). fold ds in P4.
  right. exists [r]. split; [exact E|]. split; [constructor; [exact Wc|constructor]|].
  split; [|split; [left; reflexivity|right; exact Hd]].
  constructor; [|constructor]. apply delta_off. fold ds. intro Z. apply N.
  apply (Rmult_eq_reg_r (/ ds)); [|apply Rinv_neq_0_compat; lra]. rewrite Rinv_r by lra. exact Z.
Qed.

Theorem pressure_slope_wrong : forall T d, 0 < T -> (1 + 1 / 1000000) * ds <= d ->
  1 / 1000000 <= delta_fn r (Ts / T) (d / ds) ->
  exists p pT pd, mp_p D [(Some T, Some d)] (Some T) (Some d) 1 = (Some p, Some pT, Some pd) /\
    exists fn, (forall u, 0 < u -> gives (mp_p D [(Some u, Some d)] (Some u) (Some d) 0) (fn u)) /\
      ~ deriv fn T pT.
Proof.
  intros T d HT Hd HD. pose proof WF as (W1 & W2 & W3 & P1 & P2 & P3 & P4 & P5).
  fold Ts in P3. fold ds in P4.
  assert (Hd0 : 0 < d) by nra. assert (Hd1 : ds <= d) by nra. assert (Hd2 : d <> ds) by nra.
  set (JR := jar (mp_AR D)).
  assert (A : forall u, 0 < u -> rows_wf (mp_AR D) /\ sdom D u d /\
     forall n, ar_at D [(Some u, Some d)] (Some u) (Some d) n
       = gate2 n (mixerr (aerr D [(Some u, Some d)] u d) (JR (Ts / u) (d / ds)))).
  { intros u Hu. apply (ok_facts D WF _ u d Hu Hd0). apply row_ok; assumption. }
  destruct (A T HT) as (R & S & AT).
  rewrite (mp_p_eq D WF JR _ T d HT Hd0 _ AT). cbn [diff1 Nat.ltb Nat.leb].
  do 3 eexists. split; [reflexivity|]. exists (fun u => d * d * by_ (jhelm D JR u d)). split.
  { intros u Hu. destruct (A u Hu) as (_ & _ & Au). unfold gives.
    rewrite (mp_p_eq D WF JR _ u d Hu Hd0 _ Au). reflexivity. }
  intro K.
  destruct (helm_jet D WF R T d S) as (_ & _ & _ & _ & Q & _).
  pose proof (D_unique _ _ _ _ K (D_scal _ (d * d) _ _ Q)) as X.
  cbv beta zeta in X. fold JR in X.
  assert (Z : Ftd D JR T d (aerr D [(Some T, Some d)] T d) = bxy (jhelm D JR T d)).
  { apply (Rmult_eq_reg_l (d * d)); [exact X|]. nra. }
  unfold Ftd in Z. fold Ts ds in Z.
  assert (ZE : aerr D [(Some T, Some d)] T d <> 0).
  { unfold aerr. rewrite E. unfold reduce. cbn [map fst snd]. rewrite (red_ar_eq D WF T d HT). fold Ts ds.
    change (merr [(Some (Ts / T), Some (d / ds))] (Ts / T) (d / ds) r + 0 <> 0). rewrite Rplus_0_r.
    apply merr_nonzero.
    - apply Rdiv_lt_0_compat; assumption.
    - apply (Rmult_le_reg_r ds); [exact P4|]. unfold Rdiv. rewrite (Rmult_assoc d), Rinv_l by lra. lra.
    - exact HD. }
  set (a := aerr D [(Some T, Some d)] T d) in *.
  assert (Y : mp_R D * T * a * (Ts / T) / (T * ds) = 0) by lra.
  apply ZE.
  assert (Pq : 0 < mp_R D * T * (Ts / T) / (T * ds)).
  { apply Rdiv_lt_0_compat; [|apply Rmult_lt_0_compat; assumption].
    repeat apply Rmult_lt_0_compat; try assumption. apply Rinv_0_lt_compat; exact HT. }
  apply (Rmult_eq_reg_l (mp_R D * T * (Ts / T) / (T * ds))); [|lra].
  rewrite Rmult_0_r, <- Y. unfold Rdiv. ring.
Qed.
End Row.

(* the internal energy when the two groups have different temperature scales *)
Theorem energy_scale_wrong : forall D all T d l, mp_wf D -> ar_coef2 (mp_AR D) = None ->
  ao_Tscale (mp_AO D) <> ar_Tscale (mp_AR D) -> 0 < T -> 0 < d ->
  deriv (fun t => ideal_energy (mp_AO D) t (d / ao_dscale (mp_AO D))) (ao_Tscale (mp_AO D) / T) l -> l <> 0 ->
  exists e fT, gives (mp_e D all (Some T) (Some d) 0) e /\ deriv (fun u => helmholtz D u d) T fT /\
    e <> helmholtz D T d - T * fT.
Proof.
  intros D all T d l WF NC NE HT Hd DL Hl. pose proof WF as (W1 & W2 & W3 & P1 & P2 & P3 & P4 & P5).
  set (Ts0 := ao_Tscale (mp_AO D)) in *. set (ds0 := ao_dscale (mp_AO D)) in *.
  set (Ts := ar_Tscale (mp_AR D)) in *. set (ds := ar_dscale (mp_AR D)) in *.
  set (JR := jar (mp_AR D)).
  destruct (ok_facts D WF all T d HT Hd (or_introl NC)) as (R & S & A).
  assert (Z : aerr D all T d = 0) by (unfold aerr; rewrite NC; reflexivity).
  destruct (helm_partials D WF T d R S) as [[F1 _] _].
  set (t0 := Ts0 / T) in *. assert (Ht0 : 0 < t0) by (apply Rdiv_lt_0_compat; assumption).
  set (x0 := d / ds0) in *. assert (Hx0 : 0 < x0) by (apply Rdiv_lt_0_compat; assumption).
  assert (L : l = bx (rao2 (mp_AO D) t0 x0)).
  { apply (D_unique (fun t => ideal_energy (mp_AO D) t x0) t0); [exact DL|].
    destruct (jet2_partials opos (rao2 (mp_AO D)) (ideal_energy (mp_AO D)) t0 x0) as [[Q _] _].
    - apply axis_open_pos.
    - split; assumption.
    - apply rao2_jet. exact W1.
    - intros u w [Hu Hw]. apply rao2_value; assumption.
    - exact Q. }
  unfold gives, mp_e. rewrite (red_ao_eq D WF T d HT), (red_ar_eq D WF T d HT).
  rewrite (ao_at_eq D WF T d HT Hd), A. rewrite Z, mixerr_0. unfold gate2. cbn [Nat.add diff1 diff2 Nat.ltb Nat.leb fst snd].
  fold Ts0 ds0 Ts ds. fold t0 x0. rewrite <- L. flc. cbn [lift1 lift2].
  eexists. exists (bx (jhelm D JR T d)). split; [reflexivity|]. split; [exact F1|].
  rewrite <- (helm_value D WF T d S). fold JR. unfold jhelm. fold Ts0 ds0 Ts ds. fold t0 x0.
  cbn [b0 bx by_ j2mul j2const j2x j2add j2args a0 a1 a2 j1var jinvT jscale]. rewrite <- L.
  set (b := bx (JR (Ts / T) (d / ds))). set (q1 := b0 _). set (q2 := b0 _).
  intro X. apply NE. apply (Rmult_eq_reg_l (mp_R D * l)).
  2:{ apply Rmult_integral_contrapositive_currified; [lra|exact Hl]. }
  assert (Y1 : T * (l * (- t0 / T)) = - (l * t0)) by (field; lra).
  assert (Y2 : T * (b * (- (Ts / T) / T)) = - (b * (Ts / T))) by (field; lra).
  assert (Y3 : T * t0 = Ts0) by (unfold t0; field; lra).
  assert (Y4 : T * (Ts / T) = Ts) by (field; lra).
  clearbody q1 q2 b. clear - X Y1 Y2 Y3 Y4 HT.
  unfold t0 in *. clear t0.
  match type of X with ?lhs = ?rhs => assert (RR : rhs = mp_R D * (l * Ts0 + b * Ts)) by (field; lra) end.
  rewrite RR in X. lra.
Qed.

(* The temperature at an enthalpy and a pressure. *)
From Coq Require Import Reals ZArith List Bool Lia Lra Arith.
From Verif Require Import Model_If97 Spec_Mp1 Spec_If97 Proof_Jets Proof_Mp1Poly Proof_If97Poly Proof_If97Sat Proof_If97En Proof_If97Bis Proof_If97Prop.
Import ListNotations.
Local Open Scope R_scope.

Lemma g5_usable D T p o e : g5 D T p o = Ok e -> usable (if_r5o D) /\ usable (if_r5r D).
Proof.
  unfold g5. cbv zeta. destruct (peval _ _ (if_r5o D) o) eqn:A; cbn [bind]; [|discriminate].
  destruct (peval _ _ (if_r5r D) o) eqn:B; cbn [bind]; [|discriminate]. intros _.
  split; [apply (peval_accepts (p / num 10)%fl (num 1000 / T)%fl _ o)|apply (peval_accepts (p / num 10)%fl (num 1000 / T)%fl _ o)]; eauto.
Qed.
Lemma state5 D T p o e h' : 0 < T -> 0 < p -> g5 D (Some T) (Some p) (S o) = Ok e -> h_g D (Some T) (Some p) e = Some h' ->
  exists s v en cp, gibbs_state (gibbs5 D) p T h' s v en cp /\ s_g D (Some T) (Some p) e = Some s.
Proof.
  intros HT Hp E Hh. destruct (g5_usable _ _ _ _ _ E) as [U1 U2]. destruct (g5_jet D U1 U2) as (F & J & V & Ej).
  assert (N1 : p / 10 <> 0) by lra.
  assert (N2 : 1000 / T <> 0). { apply Rgt_not_eq. apply Rdiv_lt_0_compat; lra. }
  assert (A : P2 (if_r5o D) (if_r5r D) (p / 10)) by (split; [lra|split; left; exact N1]).
  assert (B : Q2 (if_r5o D) (if_r5r D) 0 (1000 / T)) by (split; left; [|rewrite Rminus_0_r]; exact N2).
  destruct (gibbs_properties D _ _ F (gamma5 D) 10 1000 (g5 D) (P2_open (if_r5o D) (if_r5r D)) (Q2_open (if_r5o D) (if_r5r D) 0) J V ltac:(lra) T p HT Hp A B)
    as (h & s & vol & en & cp & cv & S1 & _ & A1 & A2 & _); [apply Ej; auto; lra|].
  specialize (A1 o). specialize (A2 o). rewrite E in A1, A2. cbn [bind] in A1, A2. rewrite Hh in A1. injection A1 as <-. injection A2 as A2.
  exists s, vol, en, cp. split; [exact S1|exact A2].
Qed.
Theorem region5_inverse D h p Ti T : 0 < if_R D -> 0 < p -> 0 < T -> th5 D (Some h) (Some p) Ti = Ok (Some T) -> from_region5 D h p T.
Proof.
  intros HR Hp HT H. destruct (th5_inverts D h (Some p) Ti T HR H) as (e & h' & E & Hh & L).
  destruct (state5 D T p 1 e h' HT Hp E Hh) as (s & v & en & cp & S & _). exists h', s, v, en, cp. auto.
Qed.
Theorem region5_entropy D s p Ti T : 0 < if_R D -> 0 < p -> 0 < T -> ts5 D (Some s) (Some p) Ti = Ok (Some T) ->
  exists h s' v e cp, gibbs_state (gibbs5 D) p T h s' v e cp /\ Rabs (s' - s) < 1 / 1000000 * s.
Proof.
  intros HR Hp HT H. destruct (ts5_inverts D s (Some p) Ti T HR H) as (e & s' & E & Hs & L).
  destruct (h_g D (Some T) (Some p) e) as [h'|] eqn:Hh.
  - destruct (state5 D T p 1 e h' HT Hp E Hh) as (s2 & v & en & cp & S & E2). rewrite Hs in E2. injection E2 as <-. exists h', s', v, en, cp. auto.
  - exfalso. destruct e as [[pi t] g]. unfold h_g in Hh. unfold s_g in Hs.
    destruct t as [t|]; [|discriminate Hs]. destruct (jy g); [discriminate Hh|discriminate Hs].
Qed.
Theorem region3_inverse D h p Ti di T : 0 < if_R D -> 0 < if_dc D -> 0 < if_Tc D -> 0 < T -> th3 D (Some h) (Some p) Ti di = Ok (Some T) -> from_region3 D h p T.
Proof.
  intros HR Hdc HTc HT H. destruct (th3_inverts D h p Ti di T HR Hdc HTc H) as (n & v & _ & E & h' & q & Hh & Hq & L1 & L2).
  exists (if_dc D * n). replace (if_dc D * n / if_dc D) with n by (field; lra). intro Hn.
  assert (U : usable (if_r3 D)). { unfold f3_at in E. destruct (peval _ _ (if_r3 D) 2) eqn:P; cbn [bind] in E; [|discriminate]. apply (peval_accepts (Some n) (Some (if_Tc D / T)) _ 2). eauto. }
  destruct (f3_jet D U) as (F & J & V & Ej).
  assert (N2 : if_Tc D / T <> 0). { apply Rgt_not_eq. apply Rdiv_lt_0_compat; lra. }
  assert (Ht : can_raise tn (if_r3 D) (if_Tc D / T)) by (left; exact N2).
  rewrite (Ej n _ Hn Ht) in E. injection E as <-.
  destruct (helmholtz_properties D T n F U HT Hn Ht ltac:(lra) J V) as (h2 & s & e & cv & cp & S1 & _ & A). cbv zeta in A. destruct (A (Some p)) as (A1 & _).
  rewrite Hh in A1. injection A1 as <-.
  change (Some (bx (F n (if_Tc D / T))) = Some q) in Hq. injection Hq as <-.
  exists (pressure3 D T n (bx (F n (if_Tc D / T)))), h', s, e, cv. split; [exact S1|]. split; [exact L1|]. exact L2.
Qed.
Theorem region3_entropy_any k D s p Ti di T : 0 < if_R D -> 0 < if_dc D -> 0 < if_Tc D -> 0 < T -> ts3_in k D (Some s) (Some p) Ti di = Ok (Some T) ->
  exists d, 0 < d / if_dc D -> exists p' h s' e cv, helmholtz_state (helmholtz3 D) d T p' h s' e cv /\
    Rabs (s' - s) < 1 / 100000 * if_R D /\ Rabs (p' - p) < 1 / 100000 * (if_dc D * if_R D * if_Tc D / 100).
Proof.
  intros HR Hdc HTc HT H. unfold ts3_in in H. cbv zeta in H.
  assert (HK : if_dc D * if_R D * if_Tc D <> 0). { apply Rgt_not_eq. repeat apply Rmult_lt_0_compat; assumption. }
  assert (Eh : (Some s / num (if_R D))%fl = Some (s / if_R D)) by (apply (fdiv_ok s (if_R D)); lra).
  assert (Ep : (Some p * num 100 / (num (if_dc D) * num (if_R D) * num (if_Tc D)))%fl = Some (p * 100 / (if_dc D * if_R D * if_Tc D))) by (apply (fdiv_ok (p * 100) _ HK)).
  rewrite Eh, Ep in H. clear Eh Ep.
  destruct (newton3 k _ _ _ None) as [[n t]|] eqn:E; cbn [bind] in H; [|discriminate].
  assert (H2 : (num (if_Tc D) / t)%fl = Some T) by (clear E; congruence). clear H.
  apply newton3_stops in E. destruct E as (u & w & m & E & L).
  apply fdiv_some in H2. destruct H2 as (a & tr & Ha & -> & Ht0 & HTe). injection Ha as <-.
  unfold sp3 in E. destruct (f3_at D n (Some tr)) as [v|] eqn:Ev; cbn [bind] in E; [|discriminate].
  destruct n as [n|].
  2:{ exfalso. destruct v as [[[[[f fx] fy] fxx] fxy] fyy]. injection E as <- <- <-. discriminate L. }
  exists (if_dc D * n). replace (if_dc D * n / if_dc D) with n by (field; lra). intro Hn.
  assert (U : usable (if_r3 D)). { unfold f3_at in Ev. destruct (peval _ _ (if_r3 D) 2) eqn:P; cbn [bind] in Ev; [|discriminate]. apply (peval_accepts (Some n) (Some tr) _ 2). eauto. }
  assert (Etr : tr = if_Tc D / T) by (rewrite HTe; field; split; [exact Ht0|lra]).
  destruct (f3_jet D U) as (F & J & V & Ej).
  assert (Ht : can_raise tn (if_r3 D) (if_Tc D / T)) by (left; rewrite <- Etr; exact Ht0).
  rewrite Etr in *. rewrite (Ej n _ Hn Ht) in Ev. injection Ev as <-.
  destruct (helmholtz_properties D T n F U HT Hn Ht ltac:(lra) J V) as (h2 & s2 & e & cv & cp & S1 & _ & A). cbv zeta in A. destruct (A (Some p)) as (_ & A1 & _).
  rewrite gate2_2 in E, A1. set (K := F n (if_Tc D / T)) in *. set (tt := if_Tc D / T) in *.
  injection E as <- <- <-. unfold num in L. cbn [fmul lift2] in L. destruct (Req_EM_T tt 0); [contradiction|]. cbn [fmul fadd fsub lift2] in L. apply flt_iff in L.
  assert (A2 : s2 = if_R D * (tt * by_ K - b0 K)) by (cbn in A1; congruence).
  apply sum_squares in L; [|lra]. destruct L as [L1 L2].
  exists (pressure3 D T n (bx K)), h2, s2, e, cv. split; [exact S1|]. split.
  - rewrite A2. replace (if_R D * (tt * by_ K - b0 K) - s) with (if_R D * (tt * by_ K - b0 K - s / if_R D)) by (field; lra).
    rewrite Rabs_mult, (Rabs_right (if_R D)) by lra. rewrite (Rmult_comm (1 / 100000)). apply Rmult_lt_compat_l; [lra|exact L2].
  - unfold pressure3. assert (HK2 : 0 < if_dc D * if_R D * if_Tc D / 100). { apply Rdiv_lt_0_compat; [repeat apply Rmult_lt_0_compat; assumption|lra]. }
    replace (if_dc D * if_R D * T * (n * n * bx K) / 100 - p) with
      ((if_dc D * if_R D * if_Tc D / 100) * (n * n * bx K / tt - p * 100 / (if_dc D * if_R D * if_Tc D))).
    2:{ unfold tt. field. repeat split; lra. }
    rewrite Rabs_mult, (Rabs_right (if_dc D * if_R D * if_Tc D / 100)) by lra.
    rewrite (Rmult_comm (1 / 100000)). apply Rmult_lt_compat_l; [exact HK2|exact L1].
Qed.
Lemma ts3_eq : ts3 = ts3_in 200.
Proof. reflexivity. Qed.
Theorem region3_entropy D s p Ti di T : 0 < if_R D -> 0 < if_dc D -> 0 < if_Tc D -> 0 < T -> ts3 D (Some s) (Some p) Ti di = Ok (Some T) ->
  exists d, 0 < d / if_dc D -> exists p' h s' e cv, helmholtz_state (helmholtz3 D) d T p' h s' e cv /\
    Rabs (s' - s) < 1 / 100000 * if_R D /\ Rabs (p' - p) < 1 / 100000 * (if_dc D * if_R D * if_Tc D / 100).
Proof. intros HR Hdc HTc HT H. rewrite ts3_eq in H. exact (region3_entropy_any _ D s p Ti di T HR Hdc HTc HT H). Qed.

Lemma backward_fit A (x y : R) T : backward A (Some x) (Some y) = Ok (Some T) -> usable A /\ (can_raise tm A x -> can_raise tn A y -> T = poly A x y).
Proof.
  unfold backward. destruct (peval (Some x) (Some y) A 0) as [j|] eqn:E; cbn [bind]; [|discriminate]. intro H.
  assert (HT : jv j = Some T) by congruence. split.
  - apply (peval_accepts (Some x) (Some y) A 0). eauto.
  - intros Hx Hy. destruct (peval_exact A 0 x y j Hx Hy E) as (v & a & b & c & d & e & -> & -> & _). cbn in HT. congruence.
Qed.
Lemma plain_fit D h p T x r A u w : r = backward A (Some u) (Some w) ->
  In (A, u, w) [(if_th1 D, p / 10, h / 2500 + 1); (if_th2a D, p / 10, h / 2000 - 2.1);
                (if_th2b D, p / 10 - 2, h / 2000 - 2.6); (if_th2c D, p / 10 + 25, h / 2000 - 1.8)] ->
  (do T <- r; Ok (T, num (-1))) = Ok (Some T, Some x) -> x = -1 /\ from_fit D h p T.
Proof.
  intros -> HI H. destruct (backward A (Some u) (Some w)) as [t|] eqn:E; cbn [bind] in H; [|discriminate].
  assert (Et : t = Some T) by congruence. assert (Ex : Some (-1) = Some x) by (unfold num in H; congruence). subst t.
  split; [congruence|]. exists A, u, w. split; [exact HI|]. now apply backward_fit.
Qed.
Lemma th1_is D h p : th1 D (Some h) (Some p) = backward (if_th1 D) (Some (p / 10)) (Some (h / 2500 + 1)).
Proof. unfold th1. flc. rewrite !fdiv_ok by lra. reflexivity. Qed.
Lemma th2a_is D h p : th2a D (Some h) (Some p) = backward (if_th2a D) (Some (p / 10)) (Some (h / 2000 - 2.1)).
Proof. unfold th2a. flc. rewrite !fdiv_ok by lra. flc. replace (21/10) with 2.1 by lra. reflexivity. Qed.
Lemma th2b_is D h p : th2b D (Some h) (Some p) = backward (if_th2b D) (Some (p / 10 - 2)) (Some (h / 2000 - 2.6)).
Proof. unfold th2b. flc. rewrite !fdiv_ok by lra. flc. replace (26/10) with 2.6 by lra. reflexivity. Qed.
Lemma th2c_is D h p : th2c D (Some h) (Some p) = backward (if_th2c D) (Some (p / 10 + 25)) (Some (h / 2000 - 1.8)).
Proof. unfold th2c. flc. rewrite !fdiv_ok by lra. flc. replace (18/10) with 1.8 by lra. reflexivity. Qed.
Lemma T_h5_case D h p h25 T x : 0 < if_R D -> 0 < p -> 0 < T -> T_h5 D (Some h) (Some p) h25 = Ok (Some T, Some x) -> x = -1 /\ from_region5 D h p T.
Proof.
  intros HR Hp HT. unfold T_h5. cbv zeta. destruct (enthalpy D g5 _ _) as [h5|]; cbn [bind]; [|discriminate].
  destruct (flt h5 (Some h)); [discriminate|].
  destruct (th5 D (Some h) (Some p) _) as [t|] eqn:E; cbn [bind]; [|discriminate]. intro Q.
  assert (Et : t = Some T) by congruence. assert (Ex : Some (-1) = Some x) by (unfold num in Q; congruence). subst t.
  split; [congruence|]. exact (region5_inverse _ _ _ _ _ HR Hp HT E).
Qed.
Theorem T_h_classified D h p T x : 0 < if_R D -> 0 < if_dc D -> 0 < if_Tc D -> 0 < p -> 0 < T -> T_h D (Some h) (Some p) = Ok (Some T, Some x) ->
  p <= 1000 /\
  ((p < 165.292 /\ from_dome D h p T x) \/ (x = -1 /\ p < 500 /\ from_region5 D h p T) \/ (x = -1 /\ 165.292 <= p /\ from_region3 D h p T) \/ (x = -1 /\ from_fit D h p T)).
Proof.
  intros HR Hdc HTc Hp HT H. unfold T_h, T_h_with in H. cbv zeta in H.
  destruct (flt (Some p) (num (165292/1000))) eqn:L; unfold num in L; [apply flt_iff in L|apply flt_false_iff in L].
  - split; [lra|]. destruct (enthalpy D g1 (if_Ts D (Some p)) (Some p)) as [hL|] eqn:EL; cbn [bind] in H; [|discriminate].
    destruct (enthalpy D g2 (if_Ts D (Some p)) (Some p)) as [hV|] eqn:EV; cbn [bind] in H; [|discriminate].
    destruct (flt (Some h) hL) eqn:F1.
    { right; right; right. eapply plain_fit; [apply th1_is| |exact H]. cbn. auto. }
    destruct (flt (Some h) hV) eqn:F2.
    { left. split; [lra|]. assert (ET : if_Ts D (Some p) = Some T) by congruence.
      assert (Ex : ((Some h - hL) / (hV - hL))%fl = Some x) by congruence. clear H.
      apply fdiv_some in Ex. destruct Ex as (a & b & Ea & Eb & Hb & Exx). rewrite ET in *.
      destruct hL as [hL|]; [|discriminate Ea]. destruct hV as [hV|]; [|discriminate Eb]. cbn [fsub lift2] in Ea, Eb. injection Ea as <-. injection Eb as <-.
      apply flt_false_iff in F1. apply flt_iff in F2.
      split; [exact ET|]. split.
      { rewrite Exx. split; [apply Rle_mult_inv_pos; lra|]. apply (Rmult_lt_reg_r (hV - hL)); [lra|]. unfold Rdiv. rewrite Rmult_assoc, Rinv_l by lra. lra. }
      intros G1 G2 GT. destruct (phases_of D T p G1 G2 GT Hp) as (h1 & s1 & v1 & e1 & cp1 & cv1 & h2 & s2 & v2 & e2 & cp2 & cv2 & S1 & _ & S2 & _ & A & _).
      unfold phases in A. unfold enthalpy in EL, EV. destruct (g1 D (Some T) (Some p) 1); cbn [bind] in *; [|discriminate].
      destruct (g2 D (Some T) (Some p) 1); cbn [bind] in *; [|discriminate]. injection EL as EL. injection EV as EV. rewrite EL, EV in A. injection A as <- <-.
      exists hL, s1, v1, e1, cp1, hV, s2, v2, e2, cp2. split; [exact S1|]. split; [exact S2|]. unfold mixed_value. rewrite Exx. field. lra. }
    destruct (flt (Some p) (num 40)) eqn:F3.
    { destruct (enthalpy D g5 (num (107315/100)) (Some p)) as [h25|]; cbn [bind] in H; [|discriminate].
      destruct (flt (Some h) h25).
      - right; right; right. eapply plain_fit; [apply th2a_is| |exact H]. cbn. auto.
      - right; left. destruct (T_h5_case _ _ _ _ _ _ HR Hp HT H). repeat split; try assumption. lra. }
    destruct (flt (num (45257578905948/1000000000000)) (Some p) && flt (Some h) (b2bc_p D (Some p))).
    { right; right; right. eapply plain_fit; [apply th2c_is| |exact H]. cbn. auto. }
    destruct (enthalpy D g5 (num (107315/100)) (Some p)) as [h25|]; cbn [bind] in H; [|discriminate].
    destruct (flt (Some h) h25).
    + right; right; right. eapply plain_fit; [apply th2b_is| |exact H]. cbn. auto.
    + right; left. destruct (T_h5_case _ _ _ _ _ _ HR Hp HT H). repeat split; try assumption. lra.
  - assert (L1 : 165.292 <= p) by lra. destruct (fle (Some p) (num 1000)) eqn:G; [|discriminate].
    assert (Hp2 : p <= 1000) by (cbn in G; destruct (Rle_dec p 1000); [assumption|discriminate]). split; [exact Hp2|].
    destruct (enthalpy D g1 _ _) as [h13|]; cbn [bind] in H; [|discriminate].
    destruct (flt (Some h) h13). { right; right; right. eapply plain_fit; [apply th1_is| |exact H]. cbn. auto. }
    destruct (prop D (h_g D) (h_f D) 1 false false _ _ _); cbn [bind] in H; [|discriminate].
    destruct (enthalpy D g2 _ _) as [h23|]; cbn [bind] in H; [|discriminate].
    destruct (flt (Some h) h23).
    { right; right; left. destruct (th3 D (Some h) (Some p) _ _) as [t|] eqn:E; cbn [bind] in H; [|discriminate].
      assert (Et : t = Some T) by (clear E; congruence). assert (Ex : Some (-1) = Some x) by (clear E; unfold num in H; congruence). subst t.
      split; [congruence|]. split; [exact L1|]. exact (region3_inverse _ _ _ _ _ _ HR Hdc HTc HT E). }
    destruct (flt (Some h) (b2bc_p D (Some p))). { right; right; right. eapply plain_fit; [apply th2c_is| |exact H]. cbn. auto. }
    destruct (enthalpy D g5 (num (107315/100)) (Some p)) as [h25|]; cbn [bind] in H; [|discriminate].
    destruct (flt (Some h) h25). { right; right; right. eapply plain_fit; [apply th2b_is| |exact H]. cbn. auto. }
    destruct (flt (Some p) (num 500)) eqn:P5; [|discriminate]. apply flt_iff in P5.
    right; left. destruct (T_h5_case _ _ _ _ _ _ HR Hp HT H). repeat split; try assumption.
Qed.

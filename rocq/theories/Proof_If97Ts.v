(* The temperature of steam at an entropy and a pressure. *)
From Coq Require Import Reals ZArith List Bool String Lia Lra Arith.
From Verif Require Import Base Model_Num Model_Units Model_If97 Model_If97Units Spec_Units Spec_Igas Spec_Mp1 Spec_If97 Spec_If97Units
  Proof_Units Proof_IgasUnits Proof_Mp1Poly Proof_If97Poly Proof_If97Sat Proof_If97En Proof_If97Prop Proof_If97Inv Proof_If97Units Proof_If97UnitsB Proof_If97UnitsC.
Import ListNotations.
Local Open Scope R_scope.
Local Open Scope string_scope.

Definition plain (r : res fl) : res (fl * fl) := do T <- r; Ok (T, num (-1)).
Lemma fit_s B s p T x A u w : plain (backward A (Some u) (Some w)) = Ok (Some T, Some x) ->
  In (A, u, w) [(if_ts1 B, p / 10, s + 2); (if_ts2a B, Rpower (p / 10) (1/4), s / 2 - 2);
                (if_ts2b B, p / 10, 10 - s / 0.7853); (if_ts2c B, p / 10, 2 - s / 2.9251)] ->
  x = -1 /\ from_fit_s B s p T.
Proof.
  intros H HI. unfold plain in H. destruct (backward A (Some u) (Some w)) as [t|] eqn:F; cbn [bind] in H; [|discriminate].
  assert (t = Some T) by (clear F; congruence). assert (Some (-1) = Some x) by (clear F; unfold num in H; congruence). subst t.
  split; [congruence|]. exists A, u, w. split; [exact HI|]. now apply backward_fit.
Qed.
Lemma flt_below s b : flt (Some s) b = true <-> below s b.
Proof. destruct b as [b|]; cbn; [destruct (Rlt_dec s b); split; auto; discriminate|split; [discriminate|contradiction]]. Qed.
Lemma flt_nbelow s b : flt (Some s) b = false <-> ~ below s b.
Proof. rewrite <- flt_below. destruct (flt (Some s) b); split; auto; try discriminate. intro H. now exfalso. Qed.
Lemma fitted_s A u w T x : plain (backward A (Some u) (Some w)) = Ok (Some T, Some x) -> fitted A u w T x.
Proof.
  intro H. unfold plain in H. destruct (backward A (Some u) (Some w)) as [t|] eqn:F; cbn [bind] in H; [|discriminate].
  assert (t = Some T) by (clear F; congruence). assert (Some (-1) = Some x) by (clear F; unfold num in H; congruence). subst t.
  split; [congruence|]. now apply backward_fit.
Qed.
Lemma ts1_is B s p : ts1 B (Some s) (Some p) = backward (if_ts1 B) (Some (p / 10)) (Some (s + 2)).
Proof. unfold ts1. cbn [fdiv fadd lift2 num]. destruct (Req_EM_T 10 0); [lra|reflexivity]. Qed.
Lemma ts2a_is B s p : 0 < p -> ts2a B (Some s) (Some p) = backward (if_ts2a B) (Some (Rpower (p / 10) (1/4))) (Some (s / 2 - 2)).
Proof.
  intro Hp. unfold ts2a. cbn [fdiv fsub lift2 num]. destruct (Req_EM_T 10 0); [lra|]. destruct (Req_EM_T 2 0); [lra|].
  cbn [fpow fsub lift2]. destruct (Rlt_dec 0 (p / 10)) as [|N]; [reflexivity|]. exfalso. apply N. lra.
Qed.
Lemma ts2b_is B s p : ts2b B (Some s) (Some p) = backward (if_ts2b B) (Some (p / 10)) (Some (10 - s / 0.7853)).
Proof.
  unfold ts2b. cbn [fdiv num]. destruct (Req_EM_T 10 0); [lra|]. destruct (Req_EM_T (7853/10000) 0); [lra|]. cbn [fsub lift2].
  reflexivity.
Qed.
Lemma ts2c_is B s p : ts2c B (Some s) (Some p) = backward (if_ts2c B) (Some (p / 10)) (Some (2 - s / 2.9251)).
Proof.
  unfold ts2c. cbn [fdiv num]. destruct (Req_EM_T 10 0); [lra|]. destruct (Req_EM_T (29251/10000) 0); [lra|]. cbn [fsub lift2].
  reflexivity.
Qed.

Section T.
  Variables (D : ifdata) (B : ifback) (self_Ts : fl -> res fl) (self_s : fl -> fl -> res fl).
  Hypothesis HTs : forall p t, self_Ts p = Ok t -> t = if_Ts D p.
  Lemma T_s5_case s p s25 T x : 0 < if_R D -> 0 < p -> 0 < T -> T_s5 D self_s (Some s) (Some p) s25 = Ok (Some T, Some x) ->
    x = -1 /\ from_region5_s D s p T.
  Proof.
    intros HR Hp HT. unfold T_s5. cbv zeta. destruct (self_s _ _) as [s5|]; cbn [bind]; [|discriminate].
    destruct (flt s5 (Some s)); [discriminate|]. destruct (ts5 D (Some s) (Some p) _) as [t|] eqn:E; cbn [bind]; [|discriminate]. intro Q.
    assert (Et : t = Some T) by (clear E; congruence). assert (Ex : Some (-1) = Some x) by (clear E; unfold num in Q; congruence). subst t.
    split; [congruence|]. exact (region5_entropy _ _ _ _ _ HR Hp HT E).
  Qed.
  Lemma T_s_classified s p T x : 0 < if_R D -> 0 < if_dc D -> 0 < if_Tc D -> 0 < p -> 0 < T ->
    T_s D B self_Ts self_s (Some s) (Some p) = Ok (Some T, Some x) ->
    p <= 1000 /\
    ((p < 165.292 /\ from_dome_s D s p T x) \/ (x = -1 /\ p <= 500 /\ from_region5_s D s p T) \/
     (x = -1 /\ 165.292 <= p /\ from_region3_s D s p T) \/ (x = -1 /\ from_fit_s B s p T)).
  Proof.
    intros HR Hdc HTc Hp HT H. unfold T_s in H. cbv zeta in H.
    destruct (flt (Some p) (num (165292/1000))) eqn:L; unfold num in L; [apply flt_iff in L|apply flt_false_iff in L].
    - split; [lra|]. destruct (self_Ts (Some p)) as [ts|] eqn:ETs; cbn [bind] in H; [|discriminate]. apply HTs in ETs. subst ts.
      destruct (sat_entropy D g1 (if_Ts D (Some p)) (Some p)) as [sL|] eqn:EL; cbn [bind] in H; [|discriminate].
      destruct (sat_entropy D g2 (if_Ts D (Some p)) (Some p)) as [sV|] eqn:EV; cbn [bind] in H; [|discriminate].
      destruct (flt (Some s) sL) eqn:F1.
      { right; right; right. rewrite ts1_is in H. eapply fit_s; [exact H|]. cbn. auto. }
      destruct (flt (Some s) sV) eqn:F2.
      { left. split; [lra|]. assert (ET : if_Ts D (Some p) = Some T) by congruence.
        assert (Ex : ((Some s - sL) / (sV - sL))%fl = Some x) by congruence. clear H.
        apply fdiv_some in Ex. destruct Ex as (a & b & Ea & Eb & Hb & Exx). rewrite ET in *.
        destruct sL as [sL|]; [|discriminate Ea]. destruct sV as [sV|]; [|discriminate Eb]. cbn [fsub lift2] in Ea, Eb. injection Ea as <-. injection Eb as <-.
        apply flt_false_iff in F1. apply flt_iff in F2.
        split; [exact ET|]. split.
        { rewrite Exx. split; [apply Rle_mult_inv_pos; lra|]. apply (Rmult_lt_reg_r (sV - sL)); [lra|]. unfold Rdiv. rewrite Rmult_assoc, Rinv_l by lra. lra. }
        intros G1 G2 GT. destruct (phases_of D T p G1 G2 GT Hp) as (h1 & s1 & v1 & e1 & cp1 & cv1 & h2 & s2 & v2 & e2 & cp2 & cv2 & S1 & _ & S2 & _ & _ & A & _).
        unfold phases in A. unfold sat_entropy in EL, EV. destruct (g1 D (Some T) (Some p) 1); cbn [bind] in *; [|discriminate].
        destruct (g2 D (Some T) (Some p) 1); cbn [bind] in *; [|discriminate]. injection EL as EL. injection EV as EV. rewrite EL, EV in A. injection A as <- <-.
        exists h1, sL, v1, e1, cp1, h2, sV, v2, e2, cp2. split; [exact S1|]. split; [exact S2|]. unfold mixed_value. rewrite Exx. field. lra. }
      destruct (flt (Some p) (num 40)) eqn:F3.
      { destruct (self_s (num (107315/100)) (Some p)) as [s25|]; cbn [bind] in H; [|discriminate].
        destruct (flt (Some s) s25).
        - right; right; right. rewrite ts2a_is in H by exact Hp. eapply fit_s; [exact H|]. cbn. auto.
        - right; left. destruct (T_s5_case _ _ _ _ _ HR Hp HT H). repeat split; try assumption. lra. }
      destruct (flt (Some s) (num (585/100))).
      { right; right; right. rewrite ts2c_is in H. eapply fit_s; [exact H|]. cbn. auto. }
      destruct (self_s (num (107315/100)) (Some p)) as [s25|]; cbn [bind] in H; [|discriminate].
      destruct (flt (Some s) s25).
      + right; right; right. rewrite ts2b_is in H. eapply fit_s; [exact H|]. cbn. auto.
      + right; left. destruct (T_s5_case _ _ _ _ _ HR Hp HT H). repeat split; try assumption. lra.
    - assert (L1 : 165.292 <= p) by lra. destruct (fle (Some p) (num 1000)) eqn:G; [|discriminate].
      assert (Hp2 : p <= 1000) by (cbn in G; destruct (Rle_dec p 1000); [assumption|discriminate]). split; [exact Hp2|].
      destruct (self_s (num (62315/100)) (Some p)) as [s13|]; cbn [bind] in H; [|discriminate].
      destruct (flt (Some s) s13). { right; right; right. rewrite ts1_is in H. eapply fit_s; [exact H|]. cbn. auto. }
      destruct (self_s (b23_p D (Some p)) (Some p)) as [s23|]; cbn [bind] in H; [|discriminate].
      destruct (flt (Some s) s23).
      { right; right; left. destruct (ts3 D (Some s) (Some p) _ _) as [t|] eqn:E; cbn [bind] in H; [|discriminate].
        assert (Et : t = Some T) by (clear E; congruence). assert (Ex : Some (-1) = Some x) by (clear E; unfold num in H; congruence). subst t.
        split; [congruence|]. split; [exact L1|]. exact (region3_entropy _ _ _ _ _ _ HR Hdc HTc HT E). }
      destruct (flt (Some s) (num (585/100))). { right; right; right. rewrite ts2c_is in H. eapply fit_s; [exact H|]. cbn. auto. }
      destruct (self_s (num (107315/100)) (Some p)) as [s25|]; cbn [bind] in H; [|discriminate].
      destruct (flt (Some s) s25). { right; right; right. rewrite ts2b_is in H. eapply fit_s; [exact H|]. cbn. auto. }
      destruct (fle (Some p) (num 500)) eqn:P5; [|discriminate].
      assert (p <= 500) by (cbn in P5; destruct (Rle_dec p 500); [assumption|discriminate]).
      right; left. destruct (T_s5_case _ _ _ _ _ HR Hp HT H). repeat split; try assumption.
  Qed.
  Lemma T_s_choice (entropy_at : fl -> fl -> Prop) s p T x : 0 < if_R D -> 0 < if_dc D -> 0 < if_Tc D -> 0 < p -> 0 < T ->
    (forall t v, self_s t (Some p) = Ok v -> entropy_at t v) ->
    T_s D B self_Ts self_s (Some s) (Some p) = Ok (Some T, Some x) ->
    let region5 s25 := exists s5, entropy_at (Some 2273.15) s5 /\ ~ below s s25 /\ (forall m, s5 = Some m -> s <= m) /\ x = -1 /\ from_region5_s D s p T in
    (p < 165.292 /\ exists sL sV, phases D (s_g D) 1 (if_Ts D (Some p)) (Some p) = Ok (sL, sV) /\
     ((below s sL /\ fitted (if_ts1 B) (p / 10) (s + 2) T x) \/
      (~ below s sL /\ below s sV /\ from_dome_s D s p T x) \/
      (~ below s sL /\ ~ below s sV /\ p < 40 /\ exists s25, entropy_at (Some 1073.15) s25 /\
         ((below s s25 /\ fitted (if_ts2a B) (Rpower (p / 10) (1/4)) (s / 2 - 2) T x) \/ region5 s25)) \/
      (~ below s sL /\ ~ below s sV /\ 40 <= p /\ s < 5.85 /\ fitted (if_ts2c B) (p / 10) (2 - s / 2.9251) T x) \/
      (~ below s sL /\ ~ below s sV /\ 40 <= p /\ 5.85 <= s /\ exists s25, entropy_at (Some 1073.15) s25 /\
         ((below s s25 /\ fitted (if_ts2b B) (p / 10) (10 - s / 0.7853) T x) \/ region5 s25)))) \/
    (165.292 <= p <= 1000 /\ exists s13, entropy_at (Some 623.15) s13 /\
     ((below s s13 /\ fitted (if_ts1 B) (p / 10) (s + 2) T x) \/
      (~ below s s13 /\ exists T23 s23, b23_p D (Some p) = T23 /\ entropy_at T23 s23 /\
         ((below s s23 /\ x = -1 /\ from_region3_s D s p T) \/
          (~ below s s23 /\ s < 5.85 /\ fitted (if_ts2c B) (p / 10) (2 - s / 2.9251) T x) \/
          (~ below s s23 /\ 5.85 <= s /\ exists s25, entropy_at (Some 1073.15) s25 /\
             ((below s s25 /\ fitted (if_ts2b B) (p / 10) (10 - s / 0.7853) T x) \/ (p <= 500 /\ region5 s25))))))).
  Proof.
    intros HR Hdc HTc Hp HT HS H region5.
    assert (E25 : num (107315/100) = Some 1073.15) by reflexivity. assert (E5 : num (227315/100) = Some 2273.15) by reflexivity.
    assert (E13 : num (62315/100) = Some 623.15) by reflexivity.
    assert (R5 : forall s25, ~ below s s25 -> T_s5 D self_s (Some s) (Some p) s25 = Ok (Some T, Some x) -> region5 s25).
    { intros s25 NB Q. destruct (T_s5_case s p s25 T x HR Hp HT Q) as [Hx F]. unfold T_s5 in Q. cbv zeta in Q. rewrite E5 in Q.
      destruct (self_s (Some 2273.15) (Some p)) as [s5|] eqn:Q5; cbn [bind] in Q; [|discriminate]. exists s5. split; [apply HS; exact Q5|]. split; [exact NB|].
      split; [|auto]. intros m ->. destruct (flt (Some m) (Some s)) eqn:L; [discriminate|]. apply flt_false_iff in L. lra. }
    pose proof H as H0. unfold T_s in H. cbv zeta in H.
    destruct (flt (Some p) (num (165292/1000))) eqn:L; unfold num in L; [apply flt_iff in L|apply flt_false_iff in L].
    - left. split; [lra|]. destruct (self_Ts (Some p)) as [ts|] eqn:ETs; cbn [bind] in H; [|discriminate]. pose proof (HTs _ _ ETs) as Ets. subst ts.
      destruct (sat_entropy D g1 (if_Ts D (Some p)) (Some p)) as [sL|] eqn:EL; cbn [bind] in H; [|discriminate].
      destruct (sat_entropy D g2 (if_Ts D (Some p)) (Some p)) as [sV|] eqn:EV; cbn [bind] in H; [|discriminate].
      exists sL, sV. split.
      { unfold sat_entropy in EL, EV. unfold phases. destruct (g1 D _ _ 1); cbn [bind] in *; [|discriminate].
        destruct (g2 D _ _ 1); cbn [bind] in *; [|discriminate]. congruence. }
      destruct (flt (Some s) sL) eqn:F1; [apply flt_below in F1|apply flt_nbelow in F1].
      { left. split; [exact F1|]. rewrite ts1_is in H. now apply fitted_s. }
      right. destruct (flt (Some s) sV) eqn:F2; [apply flt_below in F2|apply flt_nbelow in F2].
      { left. split; [exact F1|]. split; [exact F2|].
        destruct (T_s_classified s p T x HR Hdc HTc Hp HT H0) as (_ & [[_ Q]|Q]); [exact Q|]. exfalso.
        assert (Ex : ((Some s - sL) / (sV - sL))%fl = Some x) by congruence. apply fdiv_some in Ex. destruct Ex as (a & b & Ea & Eb & Hb & Exx).
        destruct sL as [sL|]; [|discriminate Ea]. destruct sV as [sV|]; [|discriminate Eb]. cbn [fsub lift2 below] in *. injection Ea as <-. injection Eb as <-.
        assert (0 <= x) by (rewrite Exx; apply Rle_mult_inv_pos; lra). destruct Q as [[-> _]|[[-> _]|[-> _]]]; lra. }
      right. destruct (flt (Some p) (num 40)) eqn:F3; unfold num in F3; [apply flt_iff in F3|apply flt_false_iff in F3].
      { left. split; [exact F1|]. split; [exact F2|]. split; [exact F3|]. rewrite E25 in H.
        destruct (self_s (Some 1073.15) (Some p)) as [s25|] eqn:Q25; cbn [bind] in H; [|discriminate]. exists s25. split; [now apply HS|].
        destruct (flt (Some s) s25) eqn:F4; [apply flt_below in F4|apply flt_nbelow in F4]; [left|right; now apply R5].
        split; [exact F4|]. rewrite ts2a_is in H by exact Hp. now apply fitted_s. }
      right. destruct (flt (Some s) (num (585/100))) eqn:F4; unfold num in F4; [apply flt_iff in F4|apply flt_false_iff in F4].
      { left. split; [exact F1|]. split; [exact F2|]. split; [lra|]. split; [lra|]. rewrite ts2c_is in H. now apply fitted_s. }
      right. split; [exact F1|]. split; [exact F2|]. split; [lra|]. split; [lra|]. rewrite E25 in H.
      destruct (self_s (Some 1073.15) (Some p)) as [s25|] eqn:Q25; cbn [bind] in H; [|discriminate]. exists s25. split; [now apply HS|].
      destruct (flt (Some s) s25) eqn:F5; [apply flt_below in F5|apply flt_nbelow in F5]; [left|right; now apply R5].
      split; [exact F5|]. rewrite ts2b_is in H. now apply fitted_s.
    - right. destruct (fle (Some p) (num 1000)) eqn:G; [|discriminate].
      assert (Hp2 : p <= 1000) by (cbn in G; destruct (Rle_dec p 1000); [assumption|discriminate]). split; [lra|].
      rewrite E13 in H. destruct (self_s (Some 623.15) (Some p)) as [s13|] eqn:Q13; cbn [bind] in H; [|discriminate]. exists s13. split; [now apply HS|].
      destruct (flt (Some s) s13) eqn:F1; [apply flt_below in F1|apply flt_nbelow in F1].
      { left. split; [exact F1|]. rewrite ts1_is in H. now apply fitted_s. }
      right. split; [exact F1|]. destruct (self_s (b23_p D (Some p)) (Some p)) as [s23|] eqn:Q23; cbn [bind] in H; [|discriminate].
      exists (b23_p D (Some p)), s23. split; [reflexivity|]. split; [now apply HS|].
      destruct (flt (Some s) s23) eqn:F2; [apply flt_below in F2|apply flt_nbelow in F2].
      { left. split; [exact F2|]. destruct (ts3 D (Some s) (Some p) _ _) as [t|] eqn:Et3; cbn [bind] in H; [|discriminate].
        assert (Et : t = Some T) by (clear Et3; congruence). assert (Ex : Some (-1) = Some x) by (clear Et3; unfold num in H; congruence). subst t.
        split; [congruence|]. exact (region3_entropy _ _ _ _ _ _ HR Hdc HTc HT Et3). }
      right. destruct (flt (Some s) (num (585/100))) eqn:F4; unfold num in F4; [apply flt_iff in F4|apply flt_false_iff in F4].
      { left. split; [exact F2|]. split; [lra|]. rewrite ts2c_is in H. now apply fitted_s. }
      right. split; [exact F2|]. split; [lra|]. rewrite E25 in H.
      destruct (self_s (Some 1073.15) (Some p)) as [s25|] eqn:Q25; cbn [bind] in H; [|discriminate]. exists s25. split; [now apply HS|].
      destruct (flt (Some s) s25) eqn:F5; [apply flt_below in F5|apply flt_nbelow in F5].
      + left. split; [exact F5|]. rewrite ts2b_is in H. now apply fitted_s.
      + right. destruct (fle (Some p) (num 500)) eqn:P5; [|discriminate].
        split; [cbn in P5; destruct (Rle_dec p 500); [assumption|discriminate]|]. now apply R5.
  Qed.
  Lemma T_s_saturated p s T sL sV : p < 165.292 -> self_Ts (Some p) = Ok (Some T) ->
    phases D (s_g D) 1 (Some T) (Some p) = Ok (Some sL, Some sV) -> sL <= s < sV ->
    T_s D B self_Ts self_s (Some s) (Some p) = Ok (Some T, Some ((s - sL) / (sV - sL))).
  Proof.
    intros Hp HT HP Hh. unfold T_s. cbv zeta. rewrite HT. cbn [bind flt num]. destruct (Rlt_dec p (165292/1000)); [|exfalso; lra].
    unfold sat_entropy. unfold phases in HP.
    destruct (g1 D (Some T) (Some p) 1); cbn [bind] in *; [|discriminate]. destruct (g2 D (Some T) (Some p) 1); cbn [bind] in *; [|discriminate].
    apply okj in HP. injection HP as -> ->. cbn [flt]. destruct (Rlt_dec s sL); [exfalso; lra|]. destruct (Rlt_dec s sV); [|exfalso; lra].
    cbn [fdiv fsub lift2]. destruct (Req_EM_T (sV - sL) 0); [exfalso; lra|reflexivity].
  Qed.
End T.

Section U.
  Variables (D : ifdata) (B : ifback) (E : env) (uT : string) (kT kP kV kE kM : R).
  Hypothesis U : units_known E (if_mw D) uT kT kP kV kE kM.
  Let mw := if_mw D.
  Let Pmw : 0 < mw := uk_mw _ _ _ _ _ _ _ _ U.
  Let PP : 0 < kP := kP_pos _ _ _ _ _ _ _ _ U.
  Let PT : 0 < kT := kT_pos _ _ _ _ _ _ _ _ U.
  Let call_Ts (p : fl) : res fl := do a <- u_Ts D E (Some [p]); Ok (hd None a).
  Let call_s (T p : fl) : res fl := do a <- u_s D E (Some [T]) (Some [p]) None; Ok (hd None a).

  Lemma u_T_s_one s q : u_T_s D E B [Some s] (Some [Some q]) =
    do r <- T_s D B call_Ts call_s (Some (s * (kE / 1000 * (kM * mw) * (kT / (9/5))))) (Some (q * kP / 100000));
    Ok [(lift1 (from_kelvin uT) (fst r), snd r)].
  Proof.
    unfold u_T_s. cbn [or_default]. rewrite (aconv_bar _ _ _ _ _ _ _ _ U). cbn [bind].
    destruct (T_h_scale _ _ _ _ _ _ _ _ U) as [-> Hm]. cbn [bind]. rewrite Hm. cbn [bind].
    rewrite (to_si _ _ _ _ _ _ _ _ U QTemperature _ "K" (9/5) None I (K_size _)). cbn [effective_exponent ksize bind]. rewrite zpow_1.
    cbn [map]. unfold broadcast2, broadcast. cbn [bind List.length Nat.eqb combine traverse fst snd].
    change (Some s * num (kE / 1000 * (kM * if_mw D) * (kT / (9 / 5))))%fl with (Some (s * (kE / 1000 * (kM * mw) * (kT / (9 / 5))))).
    replace (bars kP (Some q)) with (Some (q * kP / 100000)) by (cbn; f_equal; field). fold call_Ts call_s.
    destruct (T_s _ _ _ _ _ _) as [[T x]|]; cbn [bind fst snd]; [|reflexivity]. rewrite (escale_from _ _ _ _ _ _ _ _ U). reflexivity.
  Qed.
  Lemma call_Ts_is q : call_Ts (Some q) = do _ <- between [Some (q * kP / 100000)] (if_pt D) (if_pc D); Ok (lift1 (from_kelvin uT) (if_Ts D (Some (q * kP / 100000)))).
  Proof.
    unfold call_Ts, u_Ts. cbn [or_default]. rewrite (aconv_bar _ _ _ _ _ _ _ _ U). cbn [bind map].
    replace (bars kP (Some q)) with (Some (q * kP / 100000)) by (cbn; f_equal; field).
    destruct (between _ _ _) as [b|] eqn:F; cbn [bind]; [|reflexivity]. apply between_ok in F. subst b. cbn [map].
    rewrite (atscale_from _ _ _ _ _ _ _ _ U). reflexivity.
  Qed.
  (* the state has to be in the pressure range of the saturation curve, twice converted *)
  Lemma twice_converted s q : q * kP / 100000 < 165.292 -> q * kP / 100000 * kP / 100000 < if_pt D ->
    u_T_s D E B [Some s] (Some [Some q]) = Err PMParamError.
  Proof.
    intros H1 H2. rewrite u_T_s_one. unfold T_s. cbv zeta. cbn [flt num]. destruct (Rlt_dec _ (165292/1000)); [|exfalso; lra].
    rewrite call_Ts_is. unfold between. cbn [existsb flt num]. destruct (Rlt_dec _ (if_pt D)); [|exfalso; lra]. reflexivity.
  Qed.

  Section K.
  Hypothesis (HuT : uT = "K") (HkT : kT = 9/5) (HkP : kP = 100000) (HkE : kE = 1000) (HkM : kM * mw = 1).
  Lemma call_Ts_K p t : call_Ts p = Ok t -> t = if_Ts D p.
  Proof.
    unfold call_Ts, u_Ts. cbn [or_default]. rewrite (aconv_bar _ _ _ _ _ _ _ _ U). cbn [bind map].
    replace (bars kP p) with p by (unfold bars; destruct p; cbn; [f_equal; rewrite HkP; field|reflexivity]).
    destruct (between _ _ _) as [b|] eqn:F; cbn [bind]; [|discriminate]. apply between_ok in F. subst b. cbn [map].
    rewrite (atscale_from _ _ _ _ _ _ _ _ U). cbn [bind map hd]. intro H. apply okj in H. subst t. destruct (if_Ts D p); cbn; [rewrite HuT|]; reflexivity.
  Qed.
  Lemma u_T_s_K s q : u_T_s D E B [Some s] (Some [Some q]) = do r <- T_s D B call_Ts call_s (Some s) (Some q); Ok [r].
  Proof.
    rewrite u_T_s_one. replace (s * (kE / 1000 * (kM * mw) * (kT / (9 / 5)))) with s by (rewrite HkE, HkM, HkT; field).
    replace (q * kP / 100000) with q by (rewrite HkP; field). destruct (T_s _ _ _ _ _ _) as [[T x]|]; cbn [bind fst snd]; [|reflexivity].
    replace (lift1 (from_kelvin uT) T) with T by (destruct T; cbn; [rewrite HuT|]; reflexivity). reflexivity.
  Qed.
  Lemma u_T_s_classified s p T x : 0 < if_R D -> 0 < if_dc D -> 0 < if_Tc D -> 0 < p -> 0 < T ->
    u_T_s D E B [Some s] (Some [Some p]) = Ok [(Some T, Some x)] ->
    p <= 1000 /\
    ((p < 165.292 /\ from_dome_s D s p T x) \/ (x = -1 /\ p <= 500 /\ from_region5_s D s p T) \/
     (x = -1 /\ 165.292 <= p /\ from_region3_s D s p T) \/ (x = -1 /\ from_fit_s B s p T)).
  Proof.
    intros HR Hdc HTc Hp HT H. rewrite u_T_s_K in H. destruct (T_s _ _ _ _ _ _) as [r|] eqn:F; cbn [bind] in H; [|discriminate].
    assert (r = (Some T, Some x)) by (clear F; congruence). subst r. exact (T_s_classified D B _ _ call_Ts_K s p T x HR Hdc HTc Hp HT F).
  Qed.
  Lemma u_T_s_choice s p T x : 0 < if_R D -> 0 < if_dc D -> 0 < if_Tc D -> 0 < p -> 0 < T ->
    u_T_s D E B [Some s] (Some [Some p]) = Ok [(Some T, Some x)] -> chosen_s D E B s p T x.
  Proof.
    intros HR Hdc HTc Hp HT H. rewrite u_T_s_K in H. destruct (T_s _ _ _ _ _ _) as [r|] eqn:F; cbn [bind] in H; [|discriminate].
    assert (r = (Some T, Some x)) by (clear F; congruence). subst r.
    refine (T_s_choice D B _ _ call_Ts_K (fun t v => u_s D E (Some [t]) (Some [Some p]) None = Ok [v]) s p T x HR Hdc HTc Hp HT _ F).
    intros t v Q. unfold call_s in Q. change (u_s D E (Some [t]) (Some [Some p]) None = Ok [v]).
    match type of Q with bind ?u _ = _ => change (u = Ok [v]); destruct u as [a|] eqn:Ea; cbn [bind] in Q; [|discriminate Q] end.
    apply okj in Q. subst v. unfold u_s, method in Ea. rewrite (elements_is _ _ _ _ _ _ _ _ U) in Ea. cbn [or_default] in Ea.
    unfold broadcast3, broadcast in Ea. cbn [bind List.length Nat.eqb combine traverse] in Ea.
    match type of Ea with context[elem_call ?a ?b ?c ?d ?e ?f] => destruct (elem_call a b c d e f) as [w|]; cbn [bind] in Ea; [|discriminate Ea] end.
    destruct (scale_s D E) as [k|]; cbn [bind] in Ea; [|discriminate Ea]. apply okj in Ea. subst a. reflexivity.
  Qed.
  Lemma u_T_s_round_trip p x T sL sV : if_pt D <= p <= if_pc D -> p < 165.292 -> if_Ts D (Some p) = Some T ->
    phases D (s_g D) 1 (Some T) (Some p) = Ok (Some sL, Some sV) -> sL < sV -> 0 <= x < 1 ->
    exists s, u_s D E None (Some [Some p]) (Some [Some x]) = Ok [Some s] /\
      u_T_s D E B [Some s] (Some [Some p]) = Ok [(Some T, Some x)].
  Proof.
    intros Hr Hp HT HP HL Hx. exists (sL + (sV - sL) * x).
    assert (b1 : bars kP (Some p) = Some p) by (cbn; f_equal; rewrite HkP; field).
    pose proof (kE_pos _ _ _ _ _ _ _ _ U). pose proof (kM_pos _ _ _ _ _ _ _ _ U).
    split.
    - unfold u_s. rewrite (quality_p D E _ _ _ _ _ _ U) by discriminate. cbn [traverse]. rewrite b1. unfold if_s, prop. rewrite flt00 by lra.
      cbn [sat_state]. rewrite HT, HP. cbn [bind]. rewrite (scale_s_is _ _ _ _ _ _ _ _ U). cbn [bind map fmul lift2 num mean fst snd fadd fsub].
      assert (R1 : kJ_per_kg (if_mw D) / (kE / kM) * (9 / 5 / kT) = 1).
      { unfold kJ_per_kg. fold mw. rewrite HkE, HkT. replace mw with (/ kM); [field; lra|].
        apply (Rmult_eq_reg_l kM); [rewrite HkM; field; lra|lra]. }
      rewrite R1. do 3 f_equal. ring.
    - rewrite u_T_s_K. rewrite (T_s_saturated D B call_Ts call_s p _ T sL sV); [| |rewrite call_Ts_is|exact HP|].
      + cbn [bind]. do 4 f_equal. field. lra.
      + exact Hp.
      + replace (p * kP / 100000) with p by (rewrite HkP; field). rewrite between_in; [|intros r [<-|[]]; eauto].
        cbn [bind]. rewrite HT. cbn. rewrite HuT. reflexivity.
      + split; [nra|]. assert ((sV - sL) * x < (sV - sL) * 1) by (apply Rmult_lt_compat_l; lra). lra.
  Qed.
  End K.
End U.

(* Where the temperature at an entropy and a pressure is answered and where it is refused. *)
From Coq Require Import Reals ZArith List Bool String Lia Lra Arith.
From Verif Require Import Base Model_Num Model_Units Model_If97 Model_If97Units Spec_Units Spec_Igas Spec_Mp1 Spec_If97 Spec_If97Units Spec_If97Choice
  Proof_Units Proof_Defaults Proof_IgasUnits Proof_Jets Proof_Mp1Poly Proof_If97Poly Proof_If97Sat Proof_If97En Proof_If97Prop Proof_If97Inv Proof_If97Ex
  Proof_If97Units Proof_If97UnitsB Proof_If97UnitsC Proof_If97Ts Proof_If97UnitsEx Proof_If97Choice.
Import ListNotations.
Local Open Scope R_scope.
Local Open Scope string_scope.
Local Open Scope list_scope.

Section T.
  Variables (D : ifdata) (B : ifback) (self_Ts : fl -> res fl) (self_s : fl -> fl -> res fl).
  Lemma split_phases T p sL sV : phases D (s_g D) 1 T p = Ok (sL, sV) -> sat_entropy D g1 T p = Ok sL /\ sat_entropy D g2 T p = Ok sV.
  Proof.
    unfold phases, sat_entropy. destruct (g1 D T p 1); cbn [bind]; [|discriminate]. destruct (g2 D T p 1); cbn [bind]; [|discriminate].
    intro H. apply okj in H. split; congruence.
  Qed.
  Lemma T_s_answers s p T sL sV s25 : 0 < p < 165.292 -> self_Ts (Some p) = Ok (Some T) ->
    phases D (s_g D) 1 (Some T) (Some p) = Ok (Some sL, Some sV) -> self_s (Some 1073.15) (Some p) = Ok (Some s25) -> s < s25 -> entropy_inverses_fit B s p ->
    exists t x, T_s D B self_Ts self_s (Some s) (Some p) = Ok (Some t, Some x).
  Proof.
    intros [Hp Lp] HT HP H25 Hs (I1 & I2a & I2b & I2c). apply split_phases in HP. destruct HP as [EL EV]. change (Some 1073.15) with (num (107315/100)) in H25.
    unfold T_s. cbv zeta. replace (flt (Some p) (num (165292/1000))) with true by (symmetry; apply flt_iff; lra).
    rewrite HT. cbn [bind]. rewrite EL, EV. cbn [bind]. rewrite !H25. cbn [bind]. replace (flt (Some s) (Some s25)) with true by (symmetry; apply flt_iff; lra).
    rewrite (ts1_is B s p).
    rewrite (ts2a_is B s p Hp).
    rewrite (ts2b_is B s p).
    rewrite (ts2c_is B s p).
    destruct (backward_ok _ _ _ I1) as [t1 Q1]. destruct (backward_ok _ _ _ I2a) as [t2 Q2]. destruct (backward_ok _ _ _ I2b) as [t3 Q3]. destruct (backward_ok _ _ _ I2c) as [t4 Q4].
    rewrite Q1, Q2, Q3, Q4. cbn [bind]. unfold num.
    destruct (flt (Some s) (Some sL)) eqn:G1; [eauto|]. apply flt_false_iff in G1.
    destruct (flt (Some s) (Some sV)) eqn:G2.
    - apply flt_iff in G2. cbn [fsub lift2]. rewrite fdiv_ok by lra. eauto.
    - destruct (flt (Some p) (Some 40)); [do 2 eexists; reflexivity|]. destruct (flt (Some s) (Some (585/100))); do 2 eexists; reflexivity.
  Qed.
  Lemma T_s_refuses s p : 1000 < p -> T_s D B self_Ts self_s (Some s) (Some p) = Err PMParamError.
  Proof.
    intro H. unfold T_s. cbv zeta. replace (flt (Some p) (num (165292/1000))) with false by (symmetry; apply flt_false_iff; lra).
    replace (fle (Some p) (num 1000)) with false; [reflexivity|]. cbn. destruct (Rle_dec p 1000); [lra|reflexivity].
  Qed.
  Lemma T_s_too_hot s p T sL sV s25 s5 : p < 165.292 -> self_Ts (Some p) = Ok (Some T) ->
    phases D (s_g D) 1 (Some T) (Some p) = Ok (Some sL, Some sV) -> self_s (Some 1073.15) (Some p) = Ok (Some s25) -> self_s (Some 2273.15) (Some p) = Ok (Some s5) ->
    sL <= s -> sV <= s -> s25 <= s -> s5 < s -> (40 <= p -> 5.85 <= s) ->
    T_s D B self_Ts self_s (Some s) (Some p) = Err PMParamError.
  Proof.
    intros Lp HT HP H25 H5 HL HV Hs25 Hs5 H40. apply split_phases in HP. destruct HP as [EL EV].
    change (Some 1073.15) with (num (107315/100)) in H25. change (Some 2273.15) with (num (227315/100)) in H5.
    unfold T_s. cbv zeta. replace (flt (Some p) (num (165292/1000))) with true by (symmetry; apply flt_iff; lra).
    rewrite HT. cbn [bind]. rewrite EL, EV. cbn [bind]. rewrite !H25. cbn [bind].
    replace (flt (Some s) (Some s25)) with false by (symmetry; apply flt_false_iff; lra).
    replace (flt (Some s) (Some sL)) with false by (symmetry; apply flt_false_iff; lra). replace (flt (Some s) (Some sV)) with false by (symmetry; apply flt_false_iff; lra).
    assert (T5 : T_s5 D self_s (Some s) (Some p) (Some s25) = Err PMParamError).
    { unfold T_s5. cbv zeta. rewrite H5. cbn [bind]. replace (flt (Some s5) (Some s)) with true by (symmetry; apply flt_iff; lra). reflexivity. }
    rewrite T5. destruct (flt (Some p) (num 40)) eqn:G; [reflexivity|]. unfold num in *. apply flt_false_iff in G.
    replace (flt (Some s) (Some (585/100))) with false by (symmetry; apply flt_false_iff; lra). reflexivity.
  Qed.
End T.

Definition call (r : res arr) : res fl := do a <- r; Ok (hd None a).
Section U.
  Variables (D : ifdata) (B : ifback) (E : env) (uT : string) (kT kP kV kE kM : R).
  Hypothesis U : units_known E (if_mw D) uT kT kP kV kE kM.
  Lemma u_T_s_refuses s q : 1000 < q * kP / 100000 -> u_T_s D E B [Some s] (Some [Some q]) = Err PMParamError.
  Proof. intro H. rewrite (u_T_s_one D B E _ _ _ _ _ _ U). rewrite T_s_refuses by exact H. reflexivity. Qed.
  Section K.
  Hypothesis (HuT : uT = "K") (HkT : kT = 9/5) (HkP : kP = 100000) (HkE : kE = 1000) (HkM : kM * if_mw D = 1).
  Lemma call_Ts_in p T : if_pt D <= p <= if_pc D -> if_Ts D (Some p) = Some T -> (do a <- u_Ts D E (Some [Some p]); Ok (hd None a)) = Ok (Some T).
  Proof.
    intros Hr HT. pose proof (call_Ts_is D E _ _ _ _ _ _ U p) as Q. refine (eq_trans Q _). replace (p * kP / 100000) with p by (rewrite HkP; field).
    rewrite between_in; [|intros r [<-|[]]; eauto]. cbn [bind]. rewrite HT. cbn. rewrite HuT. reflexivity.
  Qed.
  Lemma u_T_s_answers s p T sL sV s25 : 0 < p < 165.292 -> if_pt D <= p <= if_pc D -> if_Ts D (Some p) = Some T ->
    phases D (s_g D) 1 (Some T) (Some p) = Ok (Some sL, Some sV) -> u_s D E (Some [Some 1073.15]) (Some [Some p]) None = Ok [Some s25] -> s < s25 ->
    entropy_inverses_fit B s p -> exists t x, u_T_s D E B [Some s] (Some [Some p]) = Ok [(Some t, Some x)].
  Proof.
    intros Hp Hr HT HP H25 Hs HI. rewrite (u_T_s_K D B E _ _ _ _ _ _ U HuT HkT HkP HkE HkM).
    pose proof (call_Ts_in p T Hr HT) as QT. assert (QS : call (u_s D E (Some [Some 1073.15]) (Some [Some p]) None) = Ok (Some s25)) by (rewrite H25; reflexivity).
    match goal with |- context [T_s D B ?f ?g _ _] => destruct (T_s_answers D B f g s p T sL sV s25 Hp QT HP QS Hs HI) as (t & x & Q) end.
    rewrite Q. exists t, x. reflexivity.
  Qed.
  Lemma u_T_s_too_hot s p T sL sV s25 s5 : p < 165.292 -> if_pt D <= p <= if_pc D -> if_Ts D (Some p) = Some T ->
    phases D (s_g D) 1 (Some T) (Some p) = Ok (Some sL, Some sV) -> u_s D E (Some [Some 1073.15]) (Some [Some p]) None = Ok [Some s25] ->
    u_s D E (Some [Some 2273.15]) (Some [Some p]) None = Ok [Some s5] ->
    sL <= s -> sV <= s -> s25 <= s -> s5 < s -> (40 <= p -> 5.85 <= s) -> u_T_s D E B [Some s] (Some [Some p]) = Err PMParamError.
  Proof.
    intros Hp Hr HT HP H25 H5 HL HV Hs25 Hs5 H40. rewrite (u_T_s_K D B E _ _ _ _ _ _ U HuT HkT HkP HkE HkM).
    pose proof (call_Ts_in p T Hr HT) as QT. assert (QS : call (u_s D E (Some [Some 1073.15]) (Some [Some p]) None) = Ok (Some s25)) by (rewrite H25; reflexivity).
    assert (QM : call (u_s D E (Some [Some 2273.15]) (Some [Some p]) None) = Ok (Some s5)) by (rewrite H5; reflexivity).
    match goal with |- context [T_s D B ?f ?g _ _] => pose proof (T_s_too_hot D B f g s p T sL sV s25 s5 Hp QT HP QS QM HL HV Hs25 Hs5 H40) as Q end.
    rewrite Q. reflexivity.
  Qed.
  End K.
End U.

(* the instance *)
Lemma W5G p u : 0 < u -> gibbs5 exW p u = 0.461526 * (8000 + p) + 0.461526 * (ln (p / 10) - 20) * u + 0.461526 * 2 / 1000 * (u * u).
Proof.
  intros Hu. unfold gibbs5, gamma5, poly. cbn [if_r5o if_r5r exW]; unfold total; cbn [exW map fold_right ta tm tn fst snd if_R].
  change (powerRZ (p / 10) 1) with (p / 10 * 1). change (powerRZ (1000 / u) 1) with (1000 / u * 1).
  change (powerRZ (p / 10) 0) with 1. change (powerRZ (1000 / u) 0) with 1. change (powerRZ (1000 / u) (-1)) with (/ (1000 / u * 1)). field. lra.
Qed.
Lemma entropyW5 p T h s v e cp : 0 < T -> gibbs_state (gibbs5 exW) p T h s v e cp -> s = 0.461526 * (20 - ln (p / 10) - 4 * T / 1000).
Proof.
  intros HT (A & _).
  assert (G : deriv (fun u => gibbs5 exW p u) T (0.461526 * (ln (p / 10) - 20) + 0.461526 * 2 / 1000 * (1 * T + T * 1))).
  { eapply (D_ext_pos (fun u => 0.461526 * (8000 + p) + 0.461526 * (ln (p / 10) - 20) * u + 0.461526 * 2 / 1000 * (u * u))); [exact HT| |].
    - intros u Hu. symmetry. now apply W5G.
    - apply derivable_pt_lim_plus; [apply D_affine|]. apply derivable_pt_lim_scal. apply (derivable_pt_lim_mult id id); apply derivable_pt_lim_id. }
  pose proof (uniqueness_limite _ _ _ _ A G). lra.
Qed.
Lemma volumeW5 p T h s v e cp : 0 < T -> 0 < p -> gibbs_state (gibbs5 exW) p T h s v e cp -> 0 < v.
Proof.
  intros HT Hp (_ & A & _).
  assert (G : deriv (fun u => gibbs5 exW u T) p (0.461526 + 0.461526 * T * / p)).
  { eapply (D_ext_pos (fun u => (0.461526 * (8000 - 20 * T - T * ln 10 + 2 / 1000 * (T * T)) + 0.461526 * u) + 0.461526 * T * ln u)); [exact Hp| |].
    - intros u Hu. rewrite W5G by exact HT. replace (ln (u / 10)) with (ln u - ln 10); [field|].
      unfold Rdiv. rewrite ln_mult by lra. rewrite ln_Rinv by lra. ring.
    - apply D_plus; [apply D_affine|apply D_scal, D_ln; exact Hp]. }
  pose proof (uniqueness_limite _ _ _ _ A G). assert (0 < / p) by (apply Rinv_0_lt_compat; lra). assert (0 < T * / p) by (apply Rmult_lt_0_compat; lra). lra.
Qed.
Lemma called_W T v : if_s exW false false (Some T) (Some 10) (Some (-1)) = Ok (Some v) -> u_s exW barK (Some [Some T]) (Some [Some 10]) None = Ok [Some v].
Proof.
  intro A. pose proof (unitsW 300 1) as U. fold barK in U.
  pose proof (entropy_report exW barK _ _ _ _ _ _ U (Some T) (Some 10) None (10^5) ltac:(discriminate) ltac:(discriminate) eq_refl) as R.
  cbn [in_bar in_kelvin absent quality] in R. change (to_kelvin "K" T) with T in R. replace (10 * 10 ^ 5 / 100000) with 10 in R by lra. rewrite A in R.
  pose proof mwW as M. apply reports_ok in R; [|rewrite M; lra|unfold kJ_per_kg_K; rewrite M; lra]. destruct R as (r & Er & Q).
  replace v with r; [exact Er|]. rewrite Q. unfold kJ_per_kg_K. rewrite M. lra.
Qed.
Lemma entropies_W : exists s25 s5, u_s exW barK (Some [Some 1073.15]) (Some [Some 10]) None = Ok [Some s25] /\
  u_s exW barK (Some [Some 2273.15]) (Some [Some 10]) None = Ok [Some s5] /\ -1 < s25 < 6 /\ s5 < 6.
Proof.
  assert (L : ln (10 / 10) = 0) by (replace (10 / 10) with 1 by lra; apply ln_1).
  destruct (region2_state exW false false 1073.15 10 (-1)) as (h & s & v & e & cp & cv & S & _ & A); try lra; [|apply fitW2|].
  { apply region_two; [intro; lra|]. unfold accepted_range. lra. }
  destruct (region5_state exW false false 2273.15 10 (-1)) as (h' & s' & v' & e' & cp' & cv' & S' & _ & A'); try lra; [|apply fitW5; lra|].
  { apply region_five. unfold accepted_range. lra. }
  pose proof (volumeW2 10 1073.15 _ _ _ _ _ ltac:(lra) ltac:(lra) S). pose proof (volumeW5 10 2273.15 _ _ _ _ _ ltac:(lra) ltac:(lra) S').
  apply entropyW2 in S; [|lra|lra]. apply entropyW5 in S'; [|lra]. rewrite L in *.
  destruct A as (_ & A & _); [intro; subst; lra|]. destruct A' as (_ & A' & _); [intro; subst; lra|].
  exists s, s'. split; [now apply called_W|]. split; [now apply called_W|]. lra.
Qed.
Lemma inversesB s p : entropy_inverses_fit exB s p.
Proof. split; [|split; [|split]]; (split; [usab|split; noneg]). Qed.
Lemma sides_W : exists T sL sV, if_pt exW <= 10 <= if_pc exW /\ if_Ts exW (Some 10) = Some T /\ phases exW (s_g exW) 1 (Some T) (Some 10) = Ok (Some sL, Some sV) /\ sL < 0 /\ sV < 0.
Proof. destruct phasesW as (T & hL & hV & sL & sV & HT & Hs & _ & _ & HP & _ & _ & Hlt). exists T, sL, sV. split; [cbn; lra|]. repeat split; auto; lra. Qed.

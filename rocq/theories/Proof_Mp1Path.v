(* Slopes of the reported properties along curves of single-phase states (C88). *)
From Coq Require Import Reals ZArith List String Bool Lia Lra.
From Verif Require Import Base Model_Num Model_Units Model_Defaults Model_Igas Spec_Units Proof_Units Spec_Igas Proof_Igas
  Proof_IgasUnits Proof_IgasArgs Proof_IgasCalls Proof_IgasArr Proof_IgasAcc.
From Verif Require Import Model_Mp1Calls Spec_Mp1 Spec_Mp1Calls Spec_Mp1Cv Spec_Mp1Path Proof_Mp1Units Proof_Mp1Poly Proof_Mp1Helm Proof_Mp1Res
  Proof_Mp1Props Proof_Mp1Crit Proof_Mp1Thm Proof_Mp1Neg Proof_Mp1Sat Proof_Mp1Args Proof_Mp1Calls Proof_Mp1Mix Proof_Mp1SatApi Proof_Mp1Hsd.
From Verif Require Import Proof_Jets Proof_Curve Proof_Mp1Cv Proof_Mp1CvCrit Proof_Mp1Inv.
Import ListNotations.
Local Open Scope R_scope.
Local Open Scope string_scope.
Local Open Scope list_scope.
Local Notation Der := Proof_Jets.D.

Lemma near_comp (P : R -> Prop) f x l : Der f x l -> near P (f x) -> near (fun w => P (f w)) x.
Proof.
  intros Hd (e & He & K).
  assert (C : continuity_pt f x). { apply derivable_continuous_pt. exists l. exact Hd. }
  destruct (C e He) as (a & Ha & KA). exists a. split; [exact Ha|]. intros u Hu.
  destruct (Req_EM_T u x) as [->|N]; [apply K; unfold Rminus; rewrite Rplus_opp_r, Rabs_R0; exact He|].
  apply K. apply (KA u). split; [split; [exact I|intro E; apply N; symmetry; exact E]|exact Hu].
Qed.
(* the speed of sound is not a number where cv is 0 *)
Lemma mp_a_none D all T d : mp_R D <> 0 -> mp_cv D all T d = Some 0 -> mp_a D all T d = None.
Proof.
  intros HR. unfold mp_cv, mp_a. destruct (red_ao D T d) as [t0 d0]. destruct (ao_at D T d 2) as [[[[[? ?] ?] att0] ?] ?].
  destruct (red_ar D T d) as [t1 d1]. destruct (ar_at D all T d 2) as [[[[[? ?] ad] att] atd] add].
  set (EE := (t0 * t0 * att0 + t1 * t1 * att)%fl). intro H.
  assert (Q : EE = Some 0).
  { destruct EE as [e|]; [|discriminate]. cbn in H. injection H as H. f_equal.
    apply Rmult_integral in H. destruct H as [H|H]; [exact H|lra]. }
  rewrite Q. unfold fdiv. set (C := (num 1 + d1 * (ad - t1 * atd))%fl). set (CC := (C * C)%fl).
  destruct CC as [c|]; [destruct (Req_EM_T 0 0) as [_|N]; [|contradiction]|].
  all: unfold fsub; match goal with |- context [lift2 _ ?a None] => destruct a end; cbn [lift2]; unfold fmul; match goal with |- context [lift2 _ ?a None] => destruct a end; reflexivity.
Qed.

Lemma solve_div w x y : w <> 0 -> w * x + y = 0 -> x = - y / w.
Proof. intros N Q. apply (Rmult_eq_reg_l w); [|exact N]. unfold Rdiv. rewrite (Rmult_comm w (- y * / w)), Rmult_assoc, Rinv_l by exact N. lra. Qed.

Section Path.
  Variables (D : mpdata) (E : env) (fuel : nat) (z : sizes).
  Hypothesis Z : mp_sizes D E z.
  Hypothesis WF : mp_wf D.
  Local Notation kg := (kgs D (z_kM z)).
  Local Notation kt := (z_kT z / (9/5)).
  Let H := jhelm D (jar (mp_AR D)).

  Lemma mm_h_val varg kw : mm_h D E fuel varg kw =
    do l <- mp_argparse D E fuel varg kw; Ok (map (fmul (Some (kg / z_kE z))) (map (mixed_at (mp_h D) l) l), map s_x l).
  Proof.
    unfold mm_h, method. destruct (mp_argparse _ _ _ _ _); [|reflexivity]. cbn [bind].
    rewrite (out_energy_val _ _ _ _ _ _ _ _ Z). reflexivity.
  Qed.
  Lemma mm_s_val varg kw : mm_s D E fuel varg kw =
    do l <- mp_argparse D E fuel varg kw; Ok (map (fmul (Some (kg / z_kE z * kt))) (map (mixed_at (mp_s D) l) l), map s_x l).
  Proof.
    unfold mm_s, method. destruct (mp_argparse _ _ _ _ _); [|reflexivity]. cbn [bind].
    rewrite (out_heat_val _ _ _ _ _ _ _ _ Z). reflexivity.
  Qed.
  Lemma mm_cp_val varg kw : mm_cp D E fuel varg kw =
    do l <- mp_argparse D E fuel varg kw; Ok (map (fmul (Some (kg / z_kE z * kt)))
      (map (fun s => if s_sat s then None else mp_cp D (liquid_all l) (s_T s) (s_d1 s)) l), map s_x l).
  Proof.
    unfold mm_cp, method. destruct (mp_argparse _ _ _ _ _); [|reflexivity]. cbn [bind].
    rewrite (out_heat_val _ _ _ _ _ _ _ _ Z). reflexivity.
  Qed.
  Lemma mm_a_val ul ut kl ktm varg kw : dget "unit_length" (e_cfg E) = Some ul -> si (e_setup E) QLength ul = Some kl ->
    dget "unit_time" (e_cfg E) = Some ut -> si (e_setup E) QTime ut = Some ktm ->
    mm_a D E fuel varg kw =
    do l <- mp_argparse D E fuel varg kw; Ok (map (fmul (Some (ktm / kl)))
      (map (fun s => if s_sat s then e_oob E else mp_a D (liquid_all l) (s_T s) (s_d1 s)) l), map s_x l).
  Proof.
    intros A1 A2 A3 A4. destruct Z as [PS _ _ _ _ _ _ _ _].
    assert (Pl : 0 < kl) by (eapply si_pos; eauto). assert (Pt : 0 < ktm) by (eapply si_pos; eauto).
    unfold mm_a, method. destruct (mp_argparse _ _ _ _ _); [|reflexivity]. cbn [bind]. unfold aconvert.
    rewrite (convert_resolved (e_setup E) QLength (e_cfg E) 1 (Some "m") None None "m" ul) by (auto; reflexivity).
    rewrite (convert_spec (e_setup E) QLength _ 1 "m" ul None 1 kl PS eq_refl A2). cbn [bind effective_exponent].
    rewrite (convert_resolved (e_setup E) QTime (e_cfg E) 1 (Some "s") None _ "s" ut) by (auto; reflexivity).
    rewrite (convert_spec (e_setup E) QTime _ 1 "s" ut _ 1 ktm PS eq_refl A4). cbn [bind effective_exponent Z.eqb].
    rewrite zpow_1, zpow_m1, map_fmul. do 4 f_equal. apply f_equal. field. lra.
  Qed.

  Variables (tt rr : R -> R) (u a b T d : R).
  Hypothesis CT : curve_through D E z tt rr u a b T d.
  Hypothesis OP : one_phase D T d.
  Hypothesis RC : regular_curve D E z tt rr u.
  Definition TT (w : R) : R := to_kelvin (z_T z) (tt w).
  Definition DD (w : R) : R := kg / z_kV z * rr w.
  Lemma T_at : TT u = T.
  Proof. destruct CT as (_ & _ & K & _). unfold TT. symmetry. apply (kelvin_val D E z Z). exact K. Qed.
  Lemma D_at : DD u = d.
  Proof. destruct CT as (_ & _ & _ & K). unfold DD. rewrite <- K. pose proof (kV_pos _ _ _ _ _ _ _ _ Z). unfold kgs. field. lra. Qed.
  Lemma kelvin_TT w : kelvin_is E (tt w) (TT w).
  Proof. apply (kelvin_val D E z Z). reflexivity. Qed.
  Lemma density_DD w : density_is D z (rr w) (DD w).
  Proof. unfold density_is, DD. pose proof (kV_pos _ _ _ _ _ _ _ _ Z). unfold kgs. field. lra. Qed.
  Lemma T_slope : Der TT u (kt * a).
  Proof.
    destruct CT as (K & _). destruct (to_kelvin_affine _ _ _ Z) as (c & _ & KA). unfold TT.
    apply (D_ext (fun w => kt * tt w + c)); [intro w; symmetry; apply KA|].
    eapply D_eq; [exact (D_plus _ _ _ _ _ (D_scal _ kt _ _ K) (D_const c u))|ring].
  Qed.
  Lemma D_slope : Der DD u (kg / z_kV z * b).
  Proof. destruct CT as (_ & K & _). exact (D_scal _ (kg / z_kV z) _ _ K). Qed.

  Lemma near_single : near (fun w => from_Td D (Some (TT w), Some (DD w)) = single (Some (TT w)) (Some (DD w))) u.
  Proof.
    destruct OP as (_ & _ & _ & Out). pose proof T_slope as ST. pose proof D_slope as SD.
    assert (NN : near (fun w => mp_Tc D < TT w \/ (saturation D (TT w) (sat_value (mp_DSL D) (TT w)) (sat_value (mp_DSV D) (TT w)) /\
         (DD w < sat_value (mp_DSV D) (TT w) \/ sat_value (mp_DSL D) (TT w) < DD w))) u).
    { destruct Out as [Out|(dL & dV & Sat & Out)].
      - apply (near_imp (fun w => mp_Tc D < TT w)); [auto|]. apply (near_comp (fun v => mp_Tc D < v) TT u _ ST).
        rewrite T_at. now apply near_gt.
      - pose proof Sat as (W1 & W2 & S1 & S2 & EL & EV).
        destruct (sat_slope _ _ W1 S1) as (lL & DL & _). destruct (sat_slope _ _ W2 S2) as (lV & DV & _). subst dL dV.
        pose proof (sat_near _ _ _ _ Sat) as SN. rewrite <- T_at in SN, DL, DV, Out.
        pose proof (near_comp _ TT u _ ST SN) as SN'. cbv beta in SN'.
        pose proof (D_comp _ _ _ _ _ ST DL) as DL'. pose proof (D_comp _ _ _ _ _ ST DV) as DV'. rewrite <- D_at in Out.
        destruct Out as [Out|Out].
        + refine (near_imp _ _ _ _ (near_and _ _ _ SN' (near_pos (fun w => sat_value (mp_DSV D) (TT w) - DD w) _ _
            (D_minus _ _ _ _ _ DV' SD) _))); [|lra]. intros w [U1 U2]. right. split; [exact U1|left; lra].
        + refine (near_imp _ _ _ _ (near_and _ _ _ SN' (near_pos (fun w => DD w - sat_value (mp_DSL D) (TT w)) _ _
            (D_minus _ _ _ _ _ SD DL') _))); [|lra]. intros w [U1 U2]. right. split; [exact U1|right; lra]. }
    revert NN. apply near_imp. intros w Hu. apply from_Td_single.
    intros (Hl & eL & eV & E1 & E2 & H1 & H2). destruct Hu as [Hu|((W1 & W2 & S1 & S2 & _ & _) & Hu)]; [lra|].
    unfold mp_dsl, mp_dsv in E1, E2. rewrite sat_curve_value in E1, E2 by assumption.
    injection E1 as <-. injection E2 as <-. lra.
  Qed.
  (* everything that holds around u *)
  Definition good (w : R) : Prop := 0 < TT w /\ 0 < DD w /\ residual_ok D [(Some (TT w), Some (DD w))] (TT w) (DD w) /\
    mp_argparse D E fuel [] [("T", [Some (tt w)]); ("d", [Some (rr w)])] = Ok [single (Some (TT w)) (Some (DD w))].
  Lemma near_good : near good u.
  Proof.
    pose proof OP as ((R1 & R2) & P1 & P2 & _). pose proof T_slope as ST. pose proof D_slope as SD.
    rewrite <- T_at in R1, R2, P1. rewrite <- D_at in P2.
    assert (NR : near (fun w => residual_ok D [(Some (TT w), Some (DD w))] (TT w) (DD w)) u).
    { destruct RC as (e & He & K). exists e. split; [exact He|]. intros w Hw. apply (K w _ _ Hw (kelvin_TT w) (density_DD w)). }
    refine (near_imp _ _ _ _ (near_and _ _ _ (near_and _ _ _ near_single NR) (near_and _ _ _
      (near_and _ _ _ (near_pos _ _ _ ST P1) (near_pos _ _ _ SD P2))
      (near_and _ _ _ (near_comp _ TT u _ ST (near_gt _ _ R1)) (near_comp _ TT u _ ST (near_lt _ _ R2)))))).
    intros w ((S & R) & (K1 & K2) & K3 & K4). split; [exact K1|]. split; [exact K2|]. split; [exact R|].
    change [("T", [Some (tt w)]); ("d", [Some (rr w)])] with (kTd1 (tt w) (rr w)).
    rewrite (scalar_points D E fuel z Z (tt w) (rr w) _ _ (kelvin_TT w) (density_DD w)) by (unfold in_range; lra).
    do 2 f_equal. exact S.
  Qed.
  Lemma good_here : good u.
  Proof. exact (near_at _ _ near_good). Qed.
  Lemma ok_here : residual_ok D [(Some T, Some d)] T d.
  Proof. pose proof good_here as (_ & _ & K & _). rewrite T_at, D_at in K. exact K. Qed.

  (* the free energy and its slopes along the curve *)
  Definition F0 (w : R) := b0 (H (TT w) (DD w)).
  Definition FT (w : R) := bx (H (TT w) (DD w)).
  Definition FD (w : R) := by_ (H (TT w) (DD w)).
  Lemma slopes_F : Der F0 u (bx (H T d) * (kt * a) + by_ (H T d) * (kg / z_kV z * b)) /\
    Der FT u (bxx (H T d) * (kt * a) + bxy (H T d) * (kg / z_kV z * b)) /\
    Der FD u (bxy (H T d) * (kt * a) + byy (H T d) * (kg / z_kV z * b)).
  Proof.
    pose proof OP as (_ & P1 & P2 & _).
    destruct (ok_facts D WF _ T d P1 P2 ok_here) as (R & S & _).
    assert (C : cur2_on (sdom D) H).
    { apply (jhelm_cur D WF (jar (mp_AR D)) (jdom (mp_AR D))).
      - intros x y K. exact (jdom_pos _ _ _ K).
      - intros x y K. exact K.
      - apply jar_cur. exact R. }
    exact (C T d S TT DD u _ _ T_at D_at T_slope D_slope).
  Qed.
  Lemma near_facts w : good w -> exists err, forall n,
    ar_at D [(Some (TT w), Some (DD w))] (Some (TT w)) (Some (DD w)) n =
      gate2 n (mixerr err (jar (mp_AR D) (ar_Tscale (mp_AR D) / TT w) (DD w / ar_dscale (mp_AR D)))).
  Proof. intros (K1 & K2 & K3 & _). destruct (ok_facts D WF _ _ _ K1 K2 K3) as (_ & _ & A). eexists. exact A. Qed.

  (* what the methods report *)
  Definition hh w := kg / z_kE z * (F0 w - TT w * FT w + DD w * FD w).
  Definition ee w := kg / z_kE z * (F0 w - TT w * FT w).
  Definition ss w := kg / z_kE z * kt * (- FT w).
  Definition pp w := / z_kP z * (DD w * DD w * FD w).
  Ltac rep V Q := destruct near_good as (e & He & K); exists e; split; [exact He|]; intros w Hw; specialize (K w Hw);
    destruct (near_facts w K) as (err & A); destruct K as (K1 & K2 & K3 & K4);
    rewrite V, K4; cbn [bind map]; unfold mixed_at, single, liquid_all; cbn [s_sat s_T s_d1 s_d2 s_x map];
    pose proof (f_equal (fun j : fl * fl * fl => fst (fst j)) (Q D WF (jar (mp_AR D)) _ _ _ K1 K2 err A 0%nat)) as QQ; cbn [fst] in QQ;
    eexists; f_equal; apply f_equal2; [|reflexivity]; apply f_equal2; [|reflexivity].
  Lemma reports_h : reports (mm_h D E fuel) tt rr u hh.
  Proof. rep mm_h_val mp_h_eq. unfold value0. exact (f_equal (fmul (Some (kg / z_kE z))) QQ). Qed.
  Lemma reports_s : reports (mm_s D E fuel) tt rr u ss.
  Proof. rep mm_s_val mp_s_eq. unfold value0. exact (f_equal (fmul (Some (kg / z_kE z * kt))) QQ). Qed.
  Lemma reports_p : reports (mm_p D E fuel) tt rr u pp.
  Proof. rep (mm_p_val D E fuel z Z) mp_p_eq. unfold value0. exact (f_equal (fmul (Some (/ z_kP z))) QQ). Qed.
  Lemma reports_e : ao_Tscale (mp_AO D) = ar_Tscale (mp_AR D) -> reports (mm_e D E fuel) tt rr u ee.
  Proof.
    intro ET. destruct near_good as (e & He & K); exists e; split; [exact He|]; intros w Hw; specialize (K w Hw).
    destruct (near_facts w K) as (err & A); destruct K as (K1 & K2 & K3 & K4).
    rewrite (mm_e_val D E fuel z Z), K4; cbn [bind map]; unfold mixed_at, single, liquid_all; cbn [s_sat s_T s_d1 s_d2 s_x map].
    pose proof (f_equal (fun j : fl * fl * fl => fst (fst j)) (mp_e_eq D WF (jar (mp_AR D)) _ _ _ K1 K2 err A 0%nat ET)) as QQ; cbn [fst] in QQ.
    eexists; f_equal; apply f_equal2; [|reflexivity]; apply f_equal2; [|reflexivity].
    unfold value0. exact (f_equal (fmul (Some (kg / z_kE z))) QQ).
  Qed.
  Lemma reports_unique m f g : reports m tt rr u f -> reports m tt rr u g -> forall l, Der f u l -> Der g u l.
  Proof.
    intros (e1 & P1 & R1) (e2 & P2 & R2) l Hd.
    apply (D_ext_loc f g u l (Rmin e1 e2)); [now apply Rmin_glb_lt| |exact Hd].
    intros w Hw. destruct (R1 w) as (x1 & Q1); [eapply Rlt_le_trans; [exact Hw|apply Rmin_l]|].
    destruct (R2 w) as (x2 & Q2); [eapply Rlt_le_trans; [exact Hw|apply Rmin_r]|]. rewrite Q1 in Q2. congruence.
  Qed.
  Local Notation A := (kt * a).
  Local Notation B := (kg / z_kV z * b).
  Local Notation FT' := (bxx (H T d) * A + bxy (H T d) * B).
  Local Notation FD' := (bxy (H T d) * A + byy (H T d) * B).
  Lemma slope_h : Der hh u (kg / z_kE z * (- T * FT' + (2 * by_ (H T d) * B + d * FD'))).
  Proof.
    destruct slopes_F as (S0 & S1 & S2). eapply D_eq.
    - exact (D_scal _ (kg / z_kE z) _ _ (D_plus _ _ _ _ _ (D_minus _ _ _ _ _ S0 (D_mult _ _ _ _ _ T_slope S1)) (D_mult _ _ _ _ _ D_slope S2))).
    - cbn beta. unfold FT, FD. rewrite T_at, D_at. ring.
  Qed.
  Lemma slope_e : Der ee u (kg / z_kE z * (- T * FT' + by_ (H T d) * B)).
  Proof.
    destruct slopes_F as (S0 & S1 & S2). eapply D_eq.
    - exact (D_scal _ (kg / z_kE z) _ _ (D_minus _ _ _ _ _ S0 (D_mult _ _ _ _ _ T_slope S1))).
    - cbn beta. unfold FT, FD. rewrite T_at, D_at. ring.
  Qed.
  Lemma slope_s : Der ss u (kg / z_kE z * kt * (- FT')).
  Proof.
    destruct slopes_F as (S0 & S1 & S2). eapply D_eq.
    - exact (D_scal _ (kg / z_kE z * kt) _ _ (D_opp _ _ _ S1)).
    - reflexivity.
  Qed.
  Lemma slope_p : Der pp u (/ z_kP z * (2 * d * by_ (H T d) * B + d * d * FD')).
  Proof.
    destruct slopes_F as (S0 & S1 & S2). eapply D_eq.
    - exact (D_scal _ (/ z_kP z) _ _ (D_mult _ _ _ _ _ (D_mult _ _ _ _ _ D_slope D_slope) S2)).
    - cbn beta. unfold FT, FD. rewrite T_at, D_at. ring.
  Qed.

  Let kEp := kE_pos _ _ _ _ _ _ _ _ Z.
  Let kPp := Proof_Mp1Inv.kP_pos D E z Z.
  Let kgp := kgs_pos _ _ _ _ _ _ _ _ Z.
  Lemma kt_pos : 0 < kt.
  Proof. destruct (to_kelvin_affine _ _ _ Z) as (? & K & _). exact K. Qed.

  Theorem gibbs : exists h s p h' s' p', reports (mm_h D E fuel) tt rr u h /\ reports (mm_s D E fuel) tt rr u s /\
    reports (mm_p D E fuel) tt rr u p /\ deriv h u h' /\ deriv s u s' /\ deriv p u p' /\
    forall dh ds dp, energy_is D z h' dh -> entropy_is D z s' ds -> pressure_is z p' dp -> dh = T * ds + dp / d.
  Proof.
    pose proof OP as (_ & P1 & P2 & _). pose proof kt_pos as ktp.
    exists hh, ss, pp. do 3 eexists. split; [exact reports_h|]. split; [exact reports_s|]. split; [exact reports_p|].
    split; [exact slope_h|]. split; [exact slope_s|]. split; [exact slope_p|].
    intros dh ds dp <- <- <-. fold kg. set (Q1 := bxx (H T d) * A + bxy (H T d) * B). set (Q2 := bxy (H T d) * A + byy (H T d) * B).
    set (BB := B). field. repeat split; lra.
  Qed.
  Theorem gibbs_e : ao_Tscale (mp_AO D) = ar_Tscale (mp_AR D) ->
    exists e s e' s', reports (mm_e D E fuel) tt rr u e /\ reports (mm_s D E fuel) tt rr u s /\
    deriv e u e' /\ deriv s u s' /\
    forall de ds P dd x, energy_is D z e' de -> entropy_is D z s' ds -> density_is D z b dd ->
      mm_p D E fuel [] [("T", [Some (tt u)]); ("d", [Some (rr u)])] = Ok ([Some P], [x]) -> 
      forall p, pressure_is z P p -> de = T * ds + p / (d * d) * dd.
  Proof.
    intro ET. pose proof OP as (_ & P1 & P2 & _). pose proof kt_pos as ktp. pose proof (kV_pos _ _ _ _ _ _ _ _ Z) as kVp.
    exists ee, ss. do 2 eexists. split; [exact (reports_e ET)|]. split; [exact reports_s|].
    split; [exact slope_e|]. split; [exact slope_s|].
    intros de ds P dd x <- <- <- MP p <-. destruct (near_at _ _ reports_p) as (x' & MP').
    assert (Q : P = pp u) by (rewrite MP in MP'; congruence). rewrite Q. unfold pp, FD. rewrite T_at, D_at.
    change (z_kM z * mp_mw D) with kg. set (Q1 := bxx (H T d) * _ + bxy (H T d) * _). field. repeat split; lra.
  Qed.

  (* dh = cp dT at constant pressure *)
  Theorem isobar cp x p0 : ar_coef2 (mp_AR D) = None -> reports (mm_p D E fuel) tt rr u (fun _ => p0) ->
    mm_cp D E fuel [] [("T", [Some (tt u)]); ("d", [Some (rr u)])] = Ok ([Some cp], [x]) ->
    exists h, reports (mm_h D E fuel) tt rr u h /\ deriv h u (cp * a).
  Proof.
    intros NC RP MC. pose proof OP as (_ & P1 & P2 & _). pose proof kt_pos as ktp.
    assert (ZP : 2 * d * by_ (H T d) * B + d * d * FD' = 0).
    { pose proof (D_unique _ _ _ _ (reports_unique _ _ _ reports_p RP _ slope_p) (D_const p0 u)) as Q.
      apply (Rmult_eq_reg_l (/ z_kP z)); [|apply Rinv_neq_0_compat; lra]. rewrite Q. ring. }
    exists hh. split; [exact reports_h|]. eapply D_eq; [exact slope_h|].
    pose proof good_here as GH. destruct GH as (_ & _ & _ & K4). rewrite mm_cp_val, K4, T_at, D_at in MC.
    cbn [bind map single s_sat s_T s_d1] in MC. unfold liquid_all, single in MC. cbn [map s_T s_d1 s_sat s_x] in MC.
    destruct (nc_facts D WF NC [(Some T, Some d)] T d P1 P2) as [_ AR].
    destruct (Req_EM_T (pd D (jar (mp_AR D)) T d) 0) as [Z0|N0].
    - exfalso. pose proof (mp_cp_none D WF (jar (mp_AR D)) _ T d P1 P2 0 AR Z0) as Q.
      match type of MC with Ok ([fmul _ ?y], _) = _ => assert (Y : y = None) by exact Q; rewrite Y in MC end. discriminate.
    - pose proof (mp_cp_eq D WF (jar (mp_AR D)) _ T d P1 P2 0 AR N0) as Q.
      match type of MC with Ok ([fmul ?k ?y], _) = _ => pose proof (f_equal (fmul k) Q) as Q2 end.
      assert (Q3 : cp = kg / z_kE z * kt * (- T * bxx (H T d) + T * (pT D (jar (mp_AR D)) T d 0 * pT D (jar (mp_AR D)) T d 0) / (d * d * pd D (jar (mp_AR D)) T d))).
      { match type of MC with Ok ([?y], _) = _ => assert (Y : y = Some cp) by congruence end.
        pose proof (eq_trans (eq_sym Y) Q2) as W. injection W as W. exact W. }
      rewrite Q3. clear Q Q2 Q3 MC. unfold pT. set (FF := Ftd D (jar (mp_AR D)) T d 0). assert (EFF : FF = bxy (H T d)) by (unfold FF, H, Ftd, Rdiv; ring).
      rewrite EFF.
      assert (N1 : pd D (jar (mp_AR D)) T d = 2 * d * by_ (H T d) + d * d * byy (H T d)) by reflexivity.
      rewrite N1 in *.
      assert (EB : B = - (d * d * bxy (H T d) * A) / (2 * d * by_ (H T d) + d * d * byy (H T d))).
      { apply (Rmult_eq_reg_l (2 * d * by_ (H T d) + d * d * byy (H T d))); [|exact N0].
        replace ((2 * d * by_ (H T d) + d * d * byy (H T d)) * (- (d * d * bxy (H T d) * A) / (2 * d * by_ (H T d) + d * d * byy (H T d)))) with (- (d * d * bxy (H T d) * A)) by (field; exact N0).
        ring_simplify. ring_simplify in ZP. lra. }
      assert (EH : 2 * by_ (H T d) * B + d * FD' = 0).
      { apply (Rmult_eq_reg_l d); [|lra]. rewrite Rmult_0_r, <- ZP. ring. }
      rewrite EH, EB. field. repeat split; try lra. all: intro W; apply N0; first [lra | rewrite <- (Rmult_0_r d), <- W; ring].
  Qed.

  (* dp = a^2 dd at constant entropy *)
  Theorem isentrope c cs x s0 : ar_coef2 (mp_AR D) = None -> reports (mm_s D E fuel) tt rr u (fun _ => s0) ->
    mm_a D E fuel [] [("T", [Some (tt u)]); ("d", [Some (rr u)])] = Ok ([Some c], [x]) -> speed_is E c cs ->
    exists p p', reports (mm_p D E fuel) tt rr u p /\ deriv p u p' /\
      forall dp dd, pressure_is z p' dp -> density_is D z b dd -> dp = cs * cs * dd.
  Proof.
    intros NC RS MA (ul & ut & kl & ktm & L1 & L2 & L3 & L4 & ->). pose proof OP as (_ & P1 & P2 & _). pose proof kt_pos as ktp.
    assert (Pl : 0 < kl) by (pose proof Z as [PS _ _ _ _ _ _ _ _]; eapply si_pos; eauto).
    assert (Pt : 0 < ktm) by (pose proof Z as [PS _ _ _ _ _ _ _ _]; eapply si_pos; eauto).
    assert (kk : 0 < kg / z_kE z) by (apply Rdiv_lt_0_compat; assumption).
    assert (ZS : FT' = 0).
    { pose proof (D_unique _ _ _ _ (reports_unique _ _ _ reports_s RS _ slope_s) (D_const s0 u)) as Q.
      apply (Rmult_eq_reg_l (kg / z_kE z * kt)); [|apply Rmult_integral_contrapositive; split; lra]. lra. }
    exists pp. eexists. split; [exact reports_p|]. split; [exact slope_p|]. intros dp dd <- <-.
    pose proof good_here as GH. destruct GH as (_ & _ & _ & K4). rewrite (mm_a_val _ _ _ _ _ _ L1 L2 L3 L4), K4, T_at, D_at in MA.
    unfold liquid_all, single in MA. cbn [bind map s_T s_d1 s_sat s_x] in MA.
    destruct (nc_facts D WF NC [(Some T, Some d)] T d P1 P2) as [_ AR].
    destruct (Req_EM_T (bxx (H T d)) 0) as [Z0|N0].
    { exfalso. pose proof (mp_cv_eq D WF (jar (mp_AR D)) _ T d P1 P2 0 AR) as Q. fold H in Q. rewrite Z0 in Q. replace (- T * 0) with 0 in Q by ring.
      pose proof WF as (_ & _ & _ & _ & _ & _ & _ & P5). pose proof (mp_a_none D _ _ _ ltac:(lra) Q) as Q2.
      match type of MA with Ok ([fmul _ ?y], _) = _ => assert (Y : y = None) by exact Q2; rewrite Y in MA end. discriminate. }
    pose proof (mp_a_eq D WF (jar (mp_AR D)) _ T d P1 P2 0 AR N0) as Q. fold H in Q.
    set (X := pd D (jar (mp_AR D)) T d - pT D (jar (mp_AR D)) T d 0 * pT D (jar (mp_AR D)) T d 0 / (d * d * bxx (H T d))) in Q.
    assert (Q3 : 0 <= X /\ c = ktm / kl * sqrt X).
    { match type of MA with Ok ([fmul ?k ?y], _) = _ => pose proof (f_equal (fmul k) Q) as Q2; assert (Y : fmul k y = Some c) by congruence end.
      pose proof (eq_trans (eq_sym Y) Q2) as W. unfold fsqrt in W. destruct (Rle_dec 0 X) as [HX|HX]; [|discriminate].
      split; [exact HX|]. injection W as W. exact W. }
    destruct Q3 as (HX & ->).
    replace (ktm / kl * sqrt X * kl / ktm * (ktm / kl * sqrt X * kl / ktm)) with (sqrt X * sqrt X) by (field; lra).
    rewrite sqrt_sqrt by exact HX. unfold X, pd, pT. set (FF := Ftd D (jar (mp_AR D)) T d 0). assert (EFF : FF = bxy (H T d)) by (unfold FF, H, Ftd, Rdiv; ring).
      rewrite EFF.
    change (jhelm D (jar (mp_AR D)) T d) with (H T d).
    assert (EA : A = - (bxy (H T d) * B) / bxx (H T d)).
    { exact (solve_div _ _ _ N0 ZS). }
    rewrite EA. unfold density_is. change (z_kM z * mp_mw D) with kg.
    pose proof (kV_pos _ _ _ _ _ _ _ _ Z) as kVp. field. repeat split; try lra; try exact N0.
  Qed.
End Path.

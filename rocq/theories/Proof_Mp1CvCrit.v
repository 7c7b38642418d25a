(* The isochoric heat capacity of substances with critical point terms (C75). *)
From Coq Require Import Reals ZArith List String Bool Lia Lra.
From Verif Require Import Base Model_Num Model_Units Model_Defaults Model_Igas Spec_Units Proof_Units Spec_Igas Proof_Igas
  Proof_IgasUnits Proof_IgasArgs Proof_IgasCalls Proof_IgasArr Proof_IgasAcc.
From Verif Require Import Model_Mp1Calls Spec_Mp1 Spec_Mp1Calls Spec_Mp1Cv Proof_Mp1Units Proof_Mp1Poly Proof_Mp1Helm Proof_Mp1Res
  Proof_Mp1Props Proof_Mp1Crit Proof_Mp1Thm Proof_Mp1Neg Proof_Mp1Sat Proof_Mp1Args Proof_Mp1Calls Proof_Mp1Mix Proof_Mp1SatApi Proof_Mp1Hsd.
From Verif Require Import Proof_Jets Proof_Curve Proof_Mp1Cv.
Import ListNotations.
Local Open Scope R_scope.
Local Open Scope string_scope.
Local Open Scope list_scope.
Local Notation Der := Proof_Jets.D.

Lemma cur2_sub (U V : R -> R -> Prop) F : (forall x y, V x y -> U x y) -> cur2_on U F -> cur2_on V F.
Proof. intros H HF x y Hv. apply HF. auto. Qed.

Lemma jdelta_cur (U : R -> R -> Prop) r : crit_wf r -> cur2_on U (jdelta r).
Proof.
  intros (Hm & Ha & _ & _).
  assert (HD : forall k q, 1 < q -> cur2_on U (fun _ d => j2y (j1mul (j1const k) (jdist q d)))).
  { intros k q Hq. apply (cur2_y U (fun _ => True) (fun d => j1mul (j1const k) (jdist q d))).
    - intros; exact I.
    - apply (jet1_mul _ (fun _ => j1const k) (jdist q)); [apply jet1_const|apply jdist_jet; exact Hq]. }
  assert (HI : cur2_on U (jinner r)).
  { apply (cur2_add U (fun t _ => j2x (mk1 (1 - t) (-1) 0))
      (fun _ d => j2y (j1mul (j1const (r2_A r)) (jdist (/ 2 * (1 / r2_m r)) d)))); [|apply HD; apply inv_m; exact Hm].
    apply (cur2_x U (fun _ => True) (fun t => mk1 (1 - t) (-1) 0)); [intros; exact I|].
    intros x _. cbn. split; [|apply D_const].
    apply (D_eq _ _ (0 - 1)); [|ring]. apply (D_minus (fun _ => 1) (fun u => u)); [apply D_const|apply D_id]. }
  apply (cur2_add U (fun t d => j2mul (jinner r t d) (jinner r t d))
    (fun _ d => j2y (j1mul (j1const (r2_B r)) (jdist (r2_a r) d)))); [|apply HD; exact Ha].
  apply (cur2_mul U (jinner r) (jinner r)); exact HI.
Qed.
Lemma rterm2_cur r : crit_wf r -> cur2_on (fun t d => 0 < delta_fn r t d) (rterm2 r).
Proof.
  intro W. unfold rterm2, rterm2_of.
  apply (cur2_mul _ (fun t d => j2mul (j2mul (j2const (r2_c r)) (j2y (j1var d)))
      (j2comp (j1pow (r2_b r) (b0 (jdelta r t d))) (jdelta r t d))) (jgauss (r2_C r) 1 (r2_D r) 1));
    [|apply jgauss_cur].
  apply (cur2_mul _ (fun t d => j2mul (j2const (r2_c r)) (j2y (j1var d)))
      (fun t d => j2comp (j1pow (r2_b r) (b0 (jdelta r t d))) (jdelta r t d))).
  - apply (cur2_mul _ (fun _ _ => j2const (r2_c r)) (fun _ d => j2y (j1var d))); [apply cur2_const|].
    apply (cur2_y _ (fun _ => True) j1var); [intros; exact I|apply jet1_var].
  - apply (cur2_comp _ (fun x => 0 < x) (jdelta r) (j1pow (r2_b r))).
    + apply jdelta_cur. exact W.
    + intros x y H. rewrite jdelta_value. exact H.
    + apply jet1_pow.
Qed.
Lemma rarc_cur G l : Forall crit_wf l -> cur2_on (critdom l) (rarc G l).
Proof.
  intro W. unfold rarc. apply (cur2_add _ (rar01 G) (fun t d => j2sum (fun r => rterm2 r t d) l)).
  - apply (cur2_sub opos); [intros x y [H _]; exact H|apply rar01_cur].
  - apply (j2sum_cur _ (fun t d r => rterm2 r t d)). intros r Hr.
    apply (cur2_sub (fun t d => 0 < delta_fn r t d)).
    + intros x y [_ F]. rewrite Forall_forall in F. apply F. exact Hr.
    + apply rterm2_cur. rewrite Forall_forall in W. apply W. exact Hr.
Qed.
Lemma jar_cur G : rows_wf G -> cur2_on (jdom G) (jar G).
Proof.
  unfold rows_wf, jdom, jar. destruct (ar_coef2 G) as [l|]; intro W; [apply rarc_cur; exact W|apply rar01_cur].
Qed.

Section Heat.
  Variable D : mpdata.
  Hypothesis WF : mp_wf D.
  Hypothesis ET : ao_Tscale (mp_AO D) = ar_Tscale (mp_AR D).
  Let H := jhelm D (jar (mp_AR D)).
  (* the error of the density slope of e *)
  Definition Eerr (all : list (fl * fl)) (T d : R) : R :=
    T * (mp_R D * T * aerr D all T d * (ar_Tscale (mp_AR D) / T) / (T * ar_dscale (mp_AR D))).

  Lemma e_val_ok all T d : 0 < T -> 0 < d -> residual_ok D all T d ->
    mp_e D all (Some T) (Some d) 0%nat = (Some (Ef D T d), Some 0, Some 0) /\
    mp_e D all (Some T) (Some d) 1%nat = (Some (Ef D T d), Some (EfT D T d), Some (Efd D T d + Eerr all T d)) /\
    mp_cv D all (Some T) (Some d) = Some (EfT D T d).
  Proof.
    intros HT Hd OK. destruct (ok_facts D WF all T d HT Hd OK) as (_ & S & A).
    rewrite !(mp_e_eq D WF (jar (mp_AR D)) all T d HT Hd _ A _ ET), (mp_cv_eq D WF (jar (mp_AR D)) all T d HT Hd _ A).
    repeat split; try reflexivity. cbn [diff1 Nat.ltb Nat.leb]. apply f_equal. apply f_equal.
    unfold Efd, Eerr, Ftd. ring.
  Qed.
  Lemma e_curve_ok all phi T l : 0 < T -> 0 < phi T -> residual_ok D all T (phi T) -> Der phi T l ->
    Der (fun u => Ef D u (phi u)) T (EfT D T (phi T) + Efd D T (phi T) * l).
  Proof.
    intros HT Hp OK Hd. destruct (ok_facts D WF all T (phi T) HT Hp OK) as (R & S & _).
    assert (C : cur2_on (sdom D) H).
    { apply (jhelm_cur D WF (jar (mp_AR D)) (jdom (mp_AR D))).
      - intros x y K. exact (jdom_pos _ _ _ K).
      - intros x y K. exact K.
      - apply jar_cur. exact R. }
    destruct (C T (phi T) S (fun u => u) phi T 1 l eq_refl eq_refl (Proof_Jets.D_id T) Hd) as (C0 & C1 & _).
    unfold Ef, EfT, Efd. eapply Proof_Jets.D_eq.
    - exact (Proof_Jets.D_minus _ _ _ _ _ C0 (Proof_Jets.D_mult _ _ _ _ _ (Proof_Jets.D_id T) C1)).
    - cbn beta. fold H. ring.
  Qed.
  (* states around a good one are good *)
  Lemma near_ok T d : 0 < T -> 0 < d -> residual_ok D [(Some T, Some d)] T d ->
    near (fun u => residual_ok D [(Some u, Some d)] u d) T.
  Proof.
    intros HT Hd OK. destruct (ok_facts D WF _ T d HT Hd OK) as (R & S & _).
    destruct OK as [N|(l & E & Wc & Hp & Hin & Hs)]; [exists 1; split; [lra|left; exact N]|].
    destruct (sdom_open D WF R T d S) as (e & He & Kx & _). exists e. split; [exact He|]. intros u Hu.
    destruct (Kx u Hu) as [_ K]. unfold jdom in K. rewrite E in K. destruct K as [_ K].
    right. exists l. split; [exact E|]. split; [exact Wc|]. split; [exact K|]. split; [left; reflexivity|].
    destruct Hs as [Hs|Hs]; [left|right; exact Hs]. intros (T' & d' & [Q|[]] & Hc). injection Q as <- <-.
    apply Hs. exists (Some T), d. split; [left; reflexivity|exact Hc].
  Qed.
End Heat.

Section Api.
  Variables (D : mpdata) (E : env) (fuel : nat) (z : sizes).
  Hypothesis Z : mp_sizes D E z.
  Hypothesis WF : mp_wf D.
  Hypothesis ET : ao_Tscale (mp_AO D) = ar_Tscale (mp_AR D).
  Local Notation kg := (kgs D (z_kM z)).
  Local Notation kt := (z_kT z / (9/5)).

  Lemma single_near T d : (mp_Tc D < T \/ exists dL dV, saturation D T dL dV /\ (d < dV \/ dL < d)) ->
    near (fun u => from_Td D (Some u, Some d) = single (Some u) (Some d)) T.
  Proof.
    intro Out. assert (NN : near (fun u => mp_Tc D < u \/ (saturation D u (sat_value (mp_DSL D) u) (sat_value (mp_DSV D) u) /\
         (d < sat_value (mp_DSV D) u \/ sat_value (mp_DSL D) u < d))) T).
    { destruct Out as [Out|(dL & dV & Sat & Out)].
      - apply (near_imp (fun u => mp_Tc D < u)); [auto|now apply near_gt].
      - pose proof Sat as (W1 & W2 & S1 & S2 & EL & EV).
        destruct (sat_slope _ _ W1 S1) as (lL & DL & _). destruct (sat_slope _ _ W2 S2) as (lV & DV & _). subst dL dV.
        destruct Out as [Out|Out].
        + refine (near_imp _ _ _ _ (near_and _ _ _ (sat_near _ _ _ _ Sat) (near_pos (fun u => sat_value (mp_DSV D) u - d) _ _
            (D_minus _ _ _ _ _ DV (D_const d T)) _))); [|lra]. intros u [U1 U2]. right. split; [exact U1|left; lra].
        + refine (near_imp _ _ _ _ (near_and _ _ _ (sat_near _ _ _ _ Sat) (near_pos (fun u => d - sat_value (mp_DSL D) u) _ _
            (D_minus _ _ _ _ _ (D_const d T) DL) _))); [|lra]. intros u [U1 U2]. right. split; [exact U1|right; lra]. }
    revert NN. apply near_imp. intros u Hu. apply from_Td_single.
    intros (H & eL & eV & E1 & E2 & H1 & H2). destruct Hu as [Hu|((W1 & W2 & S1 & S2 & _ & _) & Hu)]; [lra|].
    unfold mp_dsl, mp_dsv in E1, E2. rewrite sat_curve_value in E1, E2 by assumption.
    injection E1 as <-. injection E2 as <-. lra.
  Qed.
  Lemma near_at (P : R -> Prop) x : near P x -> P x.
  Proof. intros (e & He & K). apply K. unfold Rminus. rewrite Rplus_opp_r, Rabs_R0. exact He. Qed.

  (* one state outside of the dome *)
  Theorem single_phase_one t r T d : kelvin_is E t T -> density_is D z r d ->
    fst (mp_Tlim D) < T < snd (mp_Tlim D) -> 0 < T -> 0 < d -> residual_ok D [(Some T, Some d)] T d ->
    (mp_Tc D < T \/ exists dL dV, saturation D T dL dV /\ (d < dV \/ dL < d)) ->
    exists cv x, mm_cv D E fuel [] [("T", [Some t]); ("d", [Some r])] = Ok ([Some cv], [x]) /\ slope_of_e D E fuel z T d cv.
  Proof.
    intros HK Hr HT HTp Hd OK Out.
    assert (IR : in_range (mp_Tlim D) T) by (unfold in_range; lra).
    pose proof (single_near T d Out) as N. pose proof (near_at _ _ N) as Q.
    change [("T", [Some t]); ("d", [Some r])] with (kTd1 t r).
    rewrite (mm_cv_val D E fuel z Z), (scalar_points D E fuel z Z t r T d HK Hr IR). cbn [bind]. rewrite Q.
    unfold cv_values, liquid_all, single. cbn [existsb forallb map s_sat orb andb negb liquid_all s_T s_d1 s_x bind].
    match goal with |- context [mp_cv D ?a ?b ?c] => replace (mp_cv D a b c) with (Some (EfT D T d))
      by (symmetry; exact (proj2 (proj2 (e_val_ok D WF ET _ T d HTp Hd OK)))) end.
    eexists. eexists. split; [reflexivity|].
    intros t' r' Ht Hr'. apply (near_reports D E fuel z Z (fun u => Ef D u d) T r' d t' _ Ht Hr' HT).
    - refine (near_imp _ _ _ _ (near_and _ _ _ (near_and _ _ _ N (near_gt _ _ HTp)) (near_ok D WF T d HTp Hd OK))).
      intros u [[-> U0] OKu].
      unfold mixed_at, single, liquid_all. cbn [s_sat s_T s_d1 map].
      unfold value0. exact (f_equal (fun j : fl * fl * fl => fst (fst j)) (proj1 (e_val_ok D WF ET _ u d U0 Hd OKu))).
    - eapply D_eq; [exact (e_curve_ok D WF _ (fun _ => d) T 0 HTp Hd OK (D_const d T))|cbn beta; ring].
  Qed.

  (* one state inside of it *)
  Section Dome.
    Variables (T dL dV lL lV wL wV : R).
    Hypothesis HT : fst (mp_Tlim D) < T < snd (mp_Tlim D).
    Hypothesis Tc : T < mp_Tc D.
    Hypothesis Sat : saturation D T (sat_value (mp_DSL D) T) (sat_value (mp_DSV D) T).
    Hypothesis EL : dL = sat_value (mp_DSL D) T.
    Hypothesis EV : dV = sat_value (mp_DSV D) T.
    Hypothesis H0 : 0 < dV.
    Hypothesis HTp : 0 < T.
    Hypothesis JL : sat_jet (mp_DSL D) (Some T) 1 = (Some (sat_value (mp_DSL D) T), Some lL, Some wL).
    Hypothesis JV : sat_jet (mp_DSV D) (Some T) 1 = (Some (sat_value (mp_DSV D) T), Some lV, Some wV).
    Hypothesis DL : Der (sat_value (mp_DSL D)) T lL.
    Hypothesis DV : Der (sat_value (mp_DSV D)) T lV.
    Hypothesis NL : near (fun u => residual_ok D [(Some u, Some (sat_value (mp_DSL D) u))] u (sat_value (mp_DSL D) u)) T.
    Hypothesis NV : near (fun u => residual_ok D [(Some u, Some (sat_value (mp_DSV D) u))] u (sat_value (mp_DSV D) u)) T.
    Definition Gap (d : R) : R :=
      Eerr D [(Some T, Some dL)] T dL * lL * (1 - xf D d T) + Eerr D [(Some T, Some dV)] T dV * lV * xf D d T.
    Lemma dome_one t r d : kelvin_is E t T -> density_is D z r d -> dV < d < dL ->
      exists cv sl x, mm_cv D E fuel [] [("T", [Some t]); ("d", [Some r])] = Ok ([Some cv], [x]) /\
        cv = sl + kg / z_kE z * kt * Gap d /\ slope_of_e D E fuel z T d sl.
    Proof.
      intros HK Hr [H1 H2]. rewrite EL in H2. rewrite EV in H1. pose proof H0 as H0'. rewrite EV in H0'.
      assert (IR : in_range (mp_Tlim D) T) by (unfold in_range; lra).
      destruct (from_Td_dome D T d _ _ Tc Sat H0' H1 H2) as (Q & Qx & _).
      assert (HL : 0 < sat_value (mp_DSL D) T) by lra.
      pose proof (near_at _ _ NL) as OL. pose proof (near_at _ _ NV) as OV.
      assert (Dn : sat_value (mp_DSL D) T / sat_value (mp_DSV D) T - 1 <> 0).
      { assert (1 < sat_value (mp_DSL D) T / sat_value (mp_DSV D) T); [|lra]. apply (Rmult_lt_reg_r (sat_value (mp_DSV D) T)); [lra|]. unfold Rdiv. rewrite Rmult_assoc, Rinv_l; lra. }
      assert (M : Der (Em D d) T ((EfT D T dL + Efd D T dL * lL) * (1 - xf D d T) + (EfT D T dV + Efd D T dV * lV) * xf D d T
        + (Ef D T dV - Ef D T dL) * ((lL / dL * (1 - xf D d T) + dL / dV * lV / dV * xf D d T) / (dL / dV - 1)))).
      { pose proof (x_slope D d T lL lV H0' H1 H2 DL DV) as DX. rewrite EL, EV.
        eapply D_eq.
        - exact (D_plus _ _ _ _ _
            (D_mult _ _ _ _ _ (e_curve_ok D WF _ _ T lL HTp HL OL DL) (D_minus _ _ _ _ _ (D_const 1 T) DX))
            (D_mult _ _ _ _ _ (e_curve_ok D WF _ _ T lV HTp H0' OV DV) DX)).
        - cbn beta. ring. }
      change [("T", [Some t]); ("d", [Some r])] with (kTd1 t r).
      rewrite (mm_cv_val D E fuel z Z), (scalar_points D E fuel z Z t r T d HK Hr IR). cbn [bind]. rewrite Q.
      unfold cv_values, liquid_all, vapor_sat, dome_point. cbn [existsb forallb map s_sat orb andb negb liquid_all vapor_sat filter s_T s_d1 s_d2 s_x bind].
      unfold cv_two_phase. cbn [s_T s_x s_d1 s_d2]. rewrite JL, JV.
      pose proof (proj1 (proj2 (e_val_ok D WF ET _ T _ HTp HL OL))) as VL. pose proof (proj1 (proj2 (e_val_ok D WF ET _ T _ HTp H0' OV))) as VV.
      repeat match goal with |- context [mp_e D ?a ?b ?c 1%nat] => first [replace (mp_e D a b c 1%nat) with (Some (Ef D T (sat_value (mp_DSL D) T)), Some (EfT D T (sat_value (mp_DSL D) T)), Some (Efd D T (sat_value (mp_DSL D) T) + Eerr D [(Some T, Some (sat_value (mp_DSL D) T))] T (sat_value (mp_DSL D) T))) by (symmetry; exact VL) | replace (mp_e D a b c 1%nat) with (Some (Ef D T (sat_value (mp_DSV D) T)), Some (EfT D T (sat_value (mp_DSV D) T)), Some (Efd D T (sat_value (mp_DSV D) T) + Eerr D [(Some T, Some (sat_value (mp_DSV D) T))] T (sat_value (mp_DSV D) T))) by (symmetry; exact VV)] end.
      unfold num. rewrite !fdiv_ok by lra. unfold fsub, fadd, fmul. cbn [lift2]. rewrite !fdiv_ok by lra.
      cbn [lift2]. rewrite fdiv_ok by exact Dn. cbn [lift2].
      match type of M with Der _ _ ?l => set (SL := l) in M; eexists; exists (kg / z_kE z * kt * SL); eexists end.
      split; [reflexivity|]. split; cycle 1.
      - intros t' r' Ht Hr'. apply (near_reports D E fuel z Z (Em D d) T r' d t' SL Ht Hr' HT); [|exact M].
        assert (N1 : near (fun u => 0 < sat_value (mp_DSV D) u) T) by (apply (near_pos _ _ _ DV H0')).
        assert (N2 : near (fun u => 0 < d - sat_value (mp_DSV D) u) T).
        { apply (near_pos (fun u => d - sat_value (mp_DSV D) u) _ _ (D_minus _ _ _ _ _ (D_const d T) DV)). lra. }
        assert (N3 : near (fun u => 0 < sat_value (mp_DSL D) u - d) T).
        { apply (near_pos (fun u => sat_value (mp_DSL D) u - d) _ _ (D_minus _ _ _ _ _ DL (D_const d T))). lra. }
        refine (near_imp _ _ _ _ (near_and _ _ _ (near_and _ _ _ (near_and _ _ _ NL NV) (near_and _ _ _ (near_lt _ _ Tc) (near_gt _ _ HTp)))
          (near_and _ _ _ (sat_near _ _ _ _ Sat) (near_and _ _ _ N1 (near_and _ _ _ N2 N3))))).
        intros u (((OLu & OVu) & U1 & U0) & U2 & U3 & U4 & U5).
        destruct (from_Td_dome D u d _ _ U1 U2 U3 ltac:(lra) ltac:(lra)) as (-> & _).
        unfold mixed_at, dome_point, liquid_all, vapor_sat. cbn [s_sat s_T s_d1 s_d2 s_x map filter].
        pose proof (f_equal (fun j : fl * fl * fl => fst (fst j)) (proj1 (e_val_ok D WF ET _ u (sat_value (mp_DSL D) u) U0 ltac:(lra) OLu))) as VLu.
        pose proof (f_equal (fun j : fl * fl * fl => fst (fst j)) (proj1 (e_val_ok D WF ET _ u (sat_value (mp_DSV D) u) U0 U3 OVu))) as VVu.
        unfold value0.
        transitivity (Some (Ef D u (sat_value (mp_DSL D) u)) * (num 1 - Some (xf D d u)) + Some (Ef D u (sat_value (mp_DSV D) u)) * Some (xf D d u))%fl; [|reflexivity].
        apply (f_equal2 (fun p q => (p * (num 1 - Some (xf D d u)) + q * Some (xf D d u))%fl)); [exact VLu|exact VVu].
      - unfold SL, Gap, xf. rewrite EL, EV. fold (kgs D (z_kM z)). ring.
    Qed.
    (* e() reports one energy only, so its slope is one number *)
    Lemma slope_unique t r d a b : kelvin_is E t T -> density_is D z r d -> slope_of_e D E fuel z T d a -> slope_of_e D E fuel z T d b -> a = b.
    Proof.
      intros HK Hr A B. destruct (A t r HK Hr) as (e1 & (p1 & P1 & R1) & D1). destruct (B t r HK Hr) as (e2 & (p2 & P2 & R2) & D2).
      assert (Q : forall u, Rabs (u - t) < Rmin p1 p2 -> e1 u = e2 u).
      { intros u Hu. destruct (R1 u) as (x1 & Q1); [eapply Rlt_le_trans; [exact Hu|apply Rmin_l]|].
        destruct (R2 u) as (x2 & Q2); [eapply Rlt_le_trans; [exact Hu|apply Rmin_r]|]. rewrite Q1 in Q2. congruence. }
      apply (D_unique e2 t); [|exact D2].
      apply (D_ext_loc e1 e2 t a (Rmin p1 p2)); [now apply Rmin_glb_lt|exact Q|exact D1].
    Qed.
  End Dome.
End Api.

Section Row.
  Variables (D : mpdata) (E : env) (fuel : nat) (z : sizes) (r : ar2).
  Hypothesis Z : mp_sizes D E z.
  Hypothesis WF : mp_wf D.
  Hypothesis ER : ar_coef2 (mp_AR D) = Some [r].
  Hypothesis Wc : crit_wf r.
  Hypothesis Hc : r2_c r <> 0.
  Hypothesis HA : 0 <= r2_A r.
  Hypothesis HB : 0 < r2_B r.
  Hypothesis ET : ao_Tscale (mp_AO D) = ar_Tscale (mp_AR D).
  Let Ts := ar_Tscale (mp_AR D).
  Let ds := ar_dscale (mp_AR D).

  Lemma ds_pos : 0 < ds.
  Proof. destruct WF as (_ & _ & _ & _ & _ & _ & P & _). exact P. Qed.
  Lemma low_ok T d : d < (1 - 1 / 1000000) * ds -> residual_ok D [(Some T, Some d)] T d.
  Proof.
    intro Hd. pose proof ds_pos as P. assert (Q : d / ds < 1 - 1 / 1000000).
    { apply (Rmult_lt_reg_r ds); [exact P|]. unfold Rdiv. rewrite Rmult_assoc, Rinv_l by lra. lra. }
    right. exists [r]. split; [exact ER|]. split; [constructor; [exact Wc|constructor]|]. fold ds Ts.
    split; [|split; [left; reflexivity|left]].
    - constructor; [|constructor]. apply delta_off; [exact HB|lra].
    - intros (T' & d' & [H|[]] & K). injection H as <- <-. fold ds in K. rewrite Rabs_left1 in K by lra. lra.
  Qed.
  Lemma Eerr_nonzero T d : 0 < T -> (1 + 1 / 1000000) * ds <= d -> 1 / 1000000 <= delta_fn r (Ts / T) (d / ds) ->
    Eerr D [(Some T, Some d)] T d <> 0.
  Proof.
    intros HT Hd HD. pose proof WF as (_ & _ & _ & _ & _ & P3 & P4 & P5). fold Ts in P3. fold ds in P4.
    assert (Q : 1 + 1 / 1000000 <= d / ds).
    { apply (Rmult_le_reg_r ds); [exact P4|]. unfold Rdiv at 2. rewrite Rmult_assoc, Rinv_l by lra. lra. }
    unfold Eerr, aerr. rewrite ER. cbn [reduce map fst snd]. rewrite (red_ar_eq D WF T d HT). fold Ts ds.
    change (total (merr [(Some (Ts / T), Some (d / ds))] (Ts / T) (d / ds)) [r]) with (merr [(Some (Ts / T), Some (d / ds))] (Ts / T) (d / ds) r + 0).
    rewrite Rplus_0_r.
    assert (N : merr [(Some (Ts / T), Some (d / ds))] (Ts / T) (d / ds) r <> 0).
    { apply merr_nonzero; try assumption. apply Rdiv_lt_0_compat; assumption. }
    set (m := merr _ _ _ _) in *. intro K. apply N.
    replace m with (T * (mp_R D * T * m * (Ts / T) / (T * ds)) * ds / (mp_R D * Ts)) by (field; repeat split; lra).
    rewrite K. unfold Rdiv. ring.
  Qed.

  Theorem mixture_cv_wrong T dL dV lL : fst (mp_Tlim D) < T < snd (mp_Tlim D) -> T < mp_Tc D ->
    saturation D T dL dV -> 0 < dV -> dV < (1 - 1 / 1000000) * ds -> (1 + 1 / 1000000) * ds < dL ->
    1 / 1000000 <= delta_fn r (Ts / T) (dL / ds) -> deriv (sat_value (mp_DSL D)) T lL -> lL <> 0 ->
    exists d0, forall t rho d, kelvin_is E t T -> density_is D z rho d -> dV < d < dL -> d <> d0 ->
      exists cv x, mm_cv D E fuel [] [("T", [Some t]); ("d", [Some rho])] = Ok ([Some cv], [x]) /\
        ~ slope_of_e D E fuel z T d cv.
  Proof.
    intros HT Tc Sat H0 HV HL HD DL0 NlL. pose proof ds_pos as Pd. pose proof Sat as (W1 & W2 & S1 & S2 & EL & EV).
    destruct (sat_slope _ _ W1 S1) as (lL' & DL & wL & JL). destruct (sat_slope _ _ W2 S2) as (lV & DV & wV & JV).
    assert (lL' = lL) by (apply (D_unique _ _ _ _ DL DL0)). subst lL'.
    assert (HTp : 0 < T) by apply S1.
    assert (NL : near (fun u => residual_ok D [(Some u, Some (sat_value (mp_DSL D) u))] u (sat_value (mp_DSL D) u)) T).
    { refine (near_imp _ _ _ _ (near_pos (fun u => sat_value (mp_DSL D) u - ds) _ _ (D_minus _ _ _ _ _ DL (D_const ds T)) _)).
      - intros u Hu. apply (row_ok D r WF ER Wc HB); fold ds; lra.
      - rewrite <- EL. lra. }
    assert (NV : near (fun u => residual_ok D [(Some u, Some (sat_value (mp_DSV D) u))] u (sat_value (mp_DSV D) u)) T).
    { refine (near_imp _ _ _ _ (near_pos (fun u => (1 - 1 / 1000000) * ds - sat_value (mp_DSV D) u) _ _ (D_minus _ _ _ _ _ (D_const _ T) DV) _)).
      - intros u Hu. apply low_ok. lra.
      - rewrite <- EV. lra. }
    assert (NE : Eerr D [(Some T, Some dL)] T dL <> 0) by (apply Eerr_nonzero; [exact HTp|fold ds; lra|exact HD]).
    set (a := Eerr D [(Some T, Some dL)] T dL * lL). set (b := Eerr D [(Some T, Some dV)] T dV * lV).
    assert (Na : a <> 0) by (apply Rmult_integral_contrapositive; split; assumption).
    assert (P1 : 0 < dL / dV - 1).
    { assert (1 < dL / dV); [|lra]. apply (Rmult_lt_reg_r dV); [lra|]. unfold Rdiv. rewrite Rmult_assoc, Rinv_l; lra. }
    exists (dL / (1 + a / (a - b) * (dL / dV - 1))). intros t rho d HK Hr Hd Nd.
    assert (Sat' : saturation D T (sat_value (mp_DSL D) T) (sat_value (mp_DSV D) T)) by (rewrite <- EL, <- EV; exact Sat).
    destruct (dome_one D E fuel z Z WF ET T dL dV lL lV wL wV HT Tc Sat' EL EV H0 HTp JL JV DL DV NL NV t rho d HK Hr Hd)
      as (cv & sl & x & C & Q & S).
    exists cv, x. split; [exact C|]. intro S'.
    pose proof (slope_unique D E fuel z T t rho d _ _ HK Hr S S') as U. rewrite <- U in Q. clear U.
    assert (G : Gap D T dL dV lL lV d = 0).
    { assert (Kp : kgs D (z_kM z) / z_kE z * (z_kT z / (9/5)) <> 0).
      { destruct (to_kelvin_affine _ _ _ Z) as (? & Kt & _). pose proof (kE_pos _ _ _ _ _ _ _ _ Z) as Ke. pose proof (kgs_pos _ _ _ _ _ _ _ _ Z) as Kg.
        assert (0 < kgs D (z_kM z) / z_kE z) by (apply Rdiv_lt_0_compat; assumption).
        assert (0 < kgs D (z_kM z) / z_kE z * (z_kT z / (9/5))) by (apply Rmult_lt_0_compat; assumption). lra. }
      apply (Rmult_eq_reg_l (kgs D (z_kM z) / z_kE z * (z_kT z / (9/5)))); [|exact Kp]. lra. }
    unfold Gap in G. fold a b in G. set (X := xf D d T) in G.
    assert (GX : a = X * (a - b)) by (ring_simplify in G; lra).
    assert (Nab : a - b <> 0) by (intro K; rewrite K, Rmult_0_r in GX; contradiction).
    assert (EX : X = (dL / d - 1) / (dL / dV - 1)) by (unfold X, xf; rewrite EL, EV; reflexivity).
    apply Nd. replace (a / (a - b)) with X by (rewrite GX at 1; field; exact Nab).
    rewrite EX. field. repeat split; lra.
  Qed.
End Row.

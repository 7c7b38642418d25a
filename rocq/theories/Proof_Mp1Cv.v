(* The isochoric heat capacity under the saturation dome (C75). *)
From Coq Require Import Reals ZArith List String Bool Lia Lra.
From Verif Require Import Base Model_Num Model_Units Model_Defaults Model_Igas Spec_Units Proof_Units Spec_Igas Proof_Igas
  Proof_IgasUnits Proof_IgasArgs Proof_IgasCalls Proof_IgasArr Proof_IgasAcc.
From Verif Require Import Model_Mp1Calls Spec_Mp1 Spec_Mp1Calls Spec_Mp1Cv Proof_Mp1Units Proof_Mp1Poly Proof_Mp1Helm Proof_Mp1Res
  Proof_Mp1Props Proof_Mp1Thm Proof_Mp1Sat Proof_Mp1Args Proof_Mp1Calls Proof_Mp1Mix Proof_Mp1SatApi Proof_Mp1Hsd.
From Verif Require Import Proof_Jets.
From Verif Require Import Proof_Curve.
Import ListNotations.
Local Open Scope R_scope.
Local Open Scope string_scope.
Local Open Scope list_scope.

Local Notation Der := Proof_Jets.D.

Definition near (P : R -> Prop) (x : R) : Prop := exists eps, 0 < eps /\ forall u, Rabs (u - x) < eps -> P u.
Lemma near_and P Q x : near P x -> near Q x -> near (fun u => P u /\ Q u) x.
Proof.
  intros (e1 & H1 & K1) (e2 & H2 & K2). exists (Rmin e1 e2). split; [now apply Rmin_glb_lt|].
  intros u Hu. split; [apply K1|apply K2]; eapply Rlt_le_trans; try exact Hu; [apply Rmin_l|apply Rmin_r].
Qed.
Lemma near_imp (P Q : R -> Prop) x : (forall u, P u -> Q u) -> near P x -> near Q x.
Proof. intros H (e & He & K). exists e. auto. Qed.
Lemma near_pos f x l : Der f x l -> 0 < f x -> near (fun u => 0 < f u) x.
Proof.
  intros Hd Hp.
  assert (C : continuity_pt f x). { apply derivable_continuous_pt. exists l. exact Hd. }
  destruct (C (f x) Hp) as (a & Ha & K). exists a. split; [exact Ha|]. intros u Hu.
  destruct (Req_dec u x) as [->|Hn]; [exact Hp|].
  assert (Q : Rabs (f u - f x) < f x).
  { apply K. split; [split; [exact I|]|exact Hu]. intro H. apply Hn. symmetry. exact H. }
  apply Rabs_def2 in Q. lra.
Qed.
Lemma near_lt x c : x < c -> near (fun u => u < c) x.
Proof.
  intro H. apply (near_imp (fun u => 0 < c - u)); [intros; lra|].
  apply (near_pos (fun u => c - u) x (0 - 1)); [|lra]. apply Proof_Jets.D_minus; [apply Proof_Jets.D_const|apply Proof_Jets.D_id].
Qed.
Lemma near_gt x c : c < x -> near (fun u => c < u) x.
Proof.
  intro H. apply (near_imp (fun u => 0 < u - c)); [intros; lra|].
  apply (near_pos (fun u => u - c) x (1 - 0)); [|lra]. apply Proof_Jets.D_minus; [apply Proof_Jets.D_id|apply Proof_Jets.D_const].
Qed.
Lemma near_affine P k b t : near P (k * t + b) -> 0 < k -> near (fun u => P (k * u + b)) t.
Proof.
  intros (e & He & K) Hk. exists (e / k). split; [now apply Rdiv_lt_0_compat|]. intros u Hu. apply K.
  replace (k * u + b - (k * t + b)) with (k * (u - t)) by ring. rewrite Rabs_mult, (Rabs_right k) by lra.
  apply (Rmult_lt_compat_l k) in Hu; [|exact Hk]. replace (k * (e / k)) with e in Hu by (field; lra). exact Hu.
Qed.

(* the temperature scales *)
Lemma to_kelvin_affine E mw z : has_sizes E mw z -> exists b, 0 < z_kT z / (9/5) /\
  forall v, to_kelvin (z_T z) v = z_kT z / (9/5) * v + b.
Proof.
  intros [_ _ _ H K _ _ _ _].
  assert (Qp : 0 < electron_charge / boltzmann) by (apply Rdiv_lt_0_compat; [apply charge_pos|apply boltz_pos]).
  pose proof boltz_pos as Hk.
  set (b := to_kelvin (z_T z) 0). exists b. subst b.
  destruct H as [E1|[E1|[E1|[E1|[E1|[]]]]]]; rewrite <- E1 in *; cbn in K; injection K as K; rewrite <- K.
  all: unfold to_kelvin; cbn [String.eqb Ascii.eqb Bool.eqb]; rewrite ?const_q_eq, ?const_k_eq; split; try lra; intro v; field; lra.
Qed.

Section Heat.
  Variable D : mpdata.
  Hypothesis WF : mp_wf D.
  Hypothesis NC : ar_coef2 (mp_AR D) = None.
  Hypothesis ET : ao_Tscale (mp_AO D) = ar_Tscale (mp_AR D).
  Let H := jhelm D (jar (mp_AR D)).
  Definition Ef (T d : R) : R := b0 (H T d) - T * bx (H T d).
  Definition EfT (T d : R) : R := - T * bxx (H T d).
  Definition Efd (T d : R) : R := by_ (H T d) - T * bxy (H T d).

  Lemma e_val all T d : 0 < T -> 0 < d -> mp_e D all (Some T) (Some d) 0%nat = (Some (Ef T d), Some 0, Some 0) /\
    mp_e D all (Some T) (Some d) 1%nat = (Some (Ef T d), Some (EfT T d), Some (Efd T d)) /\
    mp_cv D all (Some T) (Some d) = Some (EfT T d).
  Proof.
    intros HT Hd. destruct (nc_facts D WF NC all T d HT Hd) as [S A].
    rewrite !(mp_e_eq D WF (jar (mp_AR D)) all T d HT Hd 0 A _ ET), (mp_cv_eq D WF (jar (mp_AR D)) all T d HT Hd 0 A).
    rewrite Ftd_0. repeat split; reflexivity.
  Qed.
  Lemma e_curve phi T l : 0 < T -> 0 < phi T -> Der phi T l ->
    Der (fun u => Ef u (phi u)) T (EfT T (phi T) + Efd T (phi T) * l).
  Proof.
    intros HT Hp Hd.
    assert (C : cur2_on (sdom D) H).
    { apply (jhelm_cur D WF (jar (mp_AR D)) opos); [auto| |].
      - intros x y [S1 S2]. split; [exact S1|]. apply jdom_pos in S2. exact S2.
      - unfold jar. rewrite NC. apply rar01_cur. }
    destruct (nc_facts D WF NC [] T (phi T) HT Hp) as [S _].
    destruct (C T (phi T) S (fun u => u) phi T 1 l eq_refl eq_refl (Proof_Jets.D_id T) Hd) as (C0 & C1 & _).
    unfold Ef, EfT, Efd. eapply Proof_Jets.D_eq.
    - exact (Proof_Jets.D_minus _ _ _ _ _ C0 (Proof_Jets.D_mult _ _ _ _ _ (Proof_Jets.D_id T) C1)).
    - cbn beta. ring.
  Qed.

  (* the saturation densities *)
  Lemma sat_slope G T : sat_wf G -> sat_smooth G T -> exists l, Der (sat_value G) T l /\
    exists w, sat_jet G (Some T) 1 = (Some (sat_value G T), Some l, Some w).
  Proof.
    intros W S. destruct (satcurve_exact G 1 T W S) as (v & a & b & J & -> & Hd & _). cbn in Hd.
    exists a. split; [exact Hd|]. exists b. unfold sat_jet. rewrite J. reflexivity.
  Qed.

  Let dL := sat_value (mp_DSL D).
  Let dV := sat_value (mp_DSV D).
  Definition xf (d T : R) : R := (dL T / d - 1) / (dL T / dV T - 1).
  Definition Em (d T : R) : R := Ef T (dL T) * (1 - xf d T) + Ef T (dV T) * xf d T.

  Lemma x_slope d T lL lV : 0 < dV T -> dV T < d -> d < dL T -> Der dL T lL -> Der dV T lV ->
    Der (xf d) T ((lL / dL T * (1 - xf d T) + dL T / dV T * lV / dV T * xf d T) / (dL T / dV T - 1)).
  Proof.
    intros H0 H1 H2 DL DV.
    assert (Dn : dL T / dV T - 1 <> 0).
    { assert (1 < dL T / dV T); [|lra]. apply (Rmult_lt_reg_r (dV T)); [lra|]. unfold Rdiv. rewrite Rmult_assoc, Rinv_l; lra. }
    assert (Dr : Der (fun u => dL u / dV u - 1) T (lL * / dV T + dL T * (- / (dV T * dV T) * lV) - 0)).
    { apply (Proof_Jets.D_minus (fun u => dL u * / dV u) (fun _ => 1)); [|apply Proof_Jets.D_const].
      apply (Proof_Jets.D_mult dL (fun u => / dV u)); [exact DL|].
      apply (Proof_Jets.D_comp dV (fun y => / y)); [exact DV|]. apply Proof_Jets.D_inv. lra. }
    assert (Dt : Der (fun u => dL u / d - 1) T (lL * / d + dL T * 0 - 0)).
    { apply (Proof_Jets.D_minus (fun u => dL u * / d) (fun _ => 1)); [|apply Proof_Jets.D_const].
      apply (Proof_Jets.D_mult dL (fun u => / d)); [exact DL|apply Proof_Jets.D_const]. }
    eapply Proof_Jets.D_eq.
    - exact (Proof_Jets.D_mult _ _ _ _ _ Dt (Proof_Jets.D_comp _ (fun y => / y) _ _ _ Dr (Proof_Jets.D_inv _ Dn))).
    - unfold xf. field. repeat split; try lra.
  Qed.

  Lemma mixed_slope d T lL lV : 0 < T -> 0 < dV T -> dV T < d -> d < dL T -> Der dL T lL -> Der dV T lV ->
    Der (Em d) T ((EfT T (dL T) + Efd T (dL T) * lL) * (1 - xf d T) + (EfT T (dV T) + Efd T (dV T) * lV) * xf d T
      + (Ef T (dV T) - Ef T (dL T)) *
        ((lL / dL T * (1 - xf d T) + dL T / dV T * lV / dV T * xf d T) / (dL T / dV T - 1))).
  Proof.
    intros HT H0 H1 H2 DL DV. pose proof (x_slope d T lL lV H0 H1 H2 DL DV) as DX.
    assert (HL : 0 < dL T) by lra.
    eapply Proof_Jets.D_eq.
    - exact (Proof_Jets.D_plus _ _ _ _ _
        (Proof_Jets.D_mult _ _ _ _ _ (e_curve dL T lL HT HL DL)
           (Proof_Jets.D_minus _ _ _ _ _ (Proof_Jets.D_const 1 T) DX))
        (Proof_Jets.D_mult _ _ _ _ _ (e_curve dV T lV HT H0 DV) DX)).
    - cbn beta. ring.
  Qed.

  Lemma cv_point all1 all2 d T lL lV wL wV : 0 < T -> 0 < dV T -> dV T < d -> d < dL T ->
    sat_jet (mp_DSL D) (Some T) 1 = (Some (dL T), Some lL, Some wL) ->
    sat_jet (mp_DSV D) (Some T) 1 = (Some (dV T), Some lV, Some wV) ->
    cv_two_phase D all1 all2 (dome_point T (dL T) (dV T) (xf d T)) =
    Some ((EfT T (dL T) + Efd T (dL T) * lL) * (1 - xf d T) + (EfT T (dV T) + Efd T (dV T) * lV) * xf d T
      + (Ef T (dV T) - Ef T (dL T)) *
        ((lL / dL T * (1 - xf d T) + dL T / dV T * lV / dV T * xf d T) / (dL T / dV T - 1))).
  Proof.
    intros HT H0 H1 H2 J1 J2. assert (HL : 0 < dL T) by lra.
    assert (Dn : dL T / dV T - 1 <> 0).
    { assert (1 < dL T / dV T); [|lra]. apply (Rmult_lt_reg_r (dV T)); [lra|]. unfold Rdiv. rewrite Rmult_assoc, Rinv_l; lra. }
    unfold cv_two_phase, dome_point. cbn [s_T s_x s_d1 s_d2]. rewrite J1, J2.
    rewrite (proj1 (proj2 (e_val all1 T (dL T) HT HL))), (proj1 (proj2 (e_val all2 T (dV T) HT H0))).
    unfold num. rewrite !fdiv_ok by lra. unfold fsub, fadd, fmul. cbn [lift2]. rewrite !fdiv_ok by lra.
    cbn [lift2]. rewrite fdiv_ok by exact Dn. cbn [lift2]. reflexivity.
  Qed.
End Heat.

Section Api.
  Variables (D : mpdata) (E : env) (fuel : nat) (z : sizes).
  Hypothesis Z : mp_sizes D E z.
  Hypothesis WF : mp_wf D.
  Hypothesis NC : ar_coef2 (mp_AR D) = None.
  Hypothesis ET : ao_Tscale (mp_AO D) = ar_Tscale (mp_AR D).
  Local Notation kg := (kgs D (z_kM z)).
  Local Notation kt := (z_kT z / (9/5)).

  Lemma mm_e_val varg kw : mm_e D E fuel varg kw =
    do l <- mp_argparse D E fuel varg kw; Ok (map (fmul (Some (kg / z_kE z))) (map (mixed_at (mp_e D) l) l), map s_x l).
  Proof.
    unfold mm_e, method. destruct (mp_argparse _ _ _ _ _); [|reflexivity]. cbn [bind].
    rewrite (out_energy_val _ _ _ _ _ _ _ _ Z). reflexivity.
  Qed.
  Lemma mm_cv_val varg kw : mm_cv D E fuel varg kw =
    do l <- mp_argparse D E fuel varg kw; do v <- cv_values D l;
    Ok (map (fmul (Some (kg / z_kE z * kt))) v, map s_x l).
  Proof.
    unfold mm_cv, method. destruct (mp_argparse _ _ _ _ _) as [l|]; [|reflexivity]. cbn [bind].
    destruct (cv_values D l) as [v|]; [|reflexivity]. cbn [bind].
    rewrite (out_heat_val _ _ _ _ _ _ _ _ Z). reflexivity.
  Qed.

  Definition kTd1 (t r : R) : list (string * arr) := [("T", [Some t]); ("d", [Some r])].
  Lemma scalar_state t r T d : kelvin_is E t T -> density_is D z r d -> state_Td D E z [] (kTd1 t r) 0 T d.
  Proof.
    intros HT Hd. split; [repeat constructor; cbn; intuition discriminate|]. split.
    { unfold mp_acceptable. cbn. split; [lia|]. split; [repeat constructor; cbn; intuition discriminate|].
      split; [intros n [<-|[<-|[]]]; auto 8|]. split; [left; lia|]. repeat split; intuition discriminate. }
    split; [|split].
    - split.
      + exists 1%nat. cbn. intros k a [Q|[Q|[]]]; injection Q as <- <-; cbn; auto.
      + exists "T", [Some t]. cbn. split; [auto|lia].
    - exists t. split; [|exact HT]. exists [Some t]. cbn. auto.
    - left. exists r. split; [|exact Hd]. exists [Some r]. cbn. auto.
  Qed.

  Lemma kelvin_val t T : kelvin_is E t T <-> T = to_kelvin (z_T z) t.
  Proof. unfold kelvin_is. split; intro H; apply (tscale_K _ _ _ _ _ _ _ _ Z); exact H. Qed.

  Lemma scalar_points t r T d : kelvin_is E t T -> density_is D z r d -> in_range (mp_Tlim D) T ->
    mp_argparse D E fuel [] (kTd1 t r) = Ok [from_Td D (Some T, Some d)].
  Proof.
    intros HK Hd HT. apply kelvin_val in HK.
    change (mp_argparse D E fuel [] (kTd1 t r)) with (do x <- si_args D E (kTd1 t r); from_args D E fuel x).
    rewrite (si_args_val _ _ _ _ _ _ _ _ Z). unfold kTd1. cbn [dget String.eqb Ascii.eqb Bool.eqb ores bind option_map].
    unfold gT, gD. cbn [map lift1]. rewrite <- HK.
    match goal with |- context [limited E (mp_Tlim D) ?v] => assert (L : limited E (mp_Tlim D) v = Ok v) end.
    { unfold limited. cbn [forallb map]. unfold num. rewrite !flt_false by apply HT. reflexivity. }
    rewrite L. cbn [bind]. unfold from_args. cbn [a_inv a_T a_p a_d a_x]. cbn [broadcast2 broadcast List.length Nat.eqb bind combine].
    unfold broadcast2, broadcast. cbn [List.length Nat.eqb bind combine map]. do 4 f_equal.
    cbn [fmul lift2]. f_equal. rewrite <- Hd. pose proof (kV_pos _ _ _ _ _ _ _ _ Z). unfold kgs. field. lra.
  Qed.

  Lemma sat_near T dL dV : saturation D T dL dV -> near (fun u => saturation D u (sat_value (mp_DSL D) u) (sat_value (mp_DSV D) u)) T.
  Proof.
    intros (W1 & W2 & [P1 S1] & [P2 S2] & _ & _).
    assert (G : forall G, (Forall plain1 (sg_coef G) \/ (sg_fn G = 0%Z \/ T < sg_Tscale G)) -> near (fun u => sat_smooth G u) T).
    { intros G [A|[A|A]].
      - apply (near_imp (fun u => 0 < u)); [|now apply near_gt]. intros u Hu. split; auto.
      - apply (near_imp (fun u => 0 < u)); [|now apply near_gt]. intros u Hu. split; auto.
      - apply (near_imp (fun u => 0 < u /\ u < sg_Tscale G)); [|apply near_and; [now apply near_gt|now apply near_lt]].
        intros u [H1 H2]. split; auto. }
    apply (near_imp (fun u => sat_smooth (mp_DSL D) u /\ sat_smooth (mp_DSV D) u)); [|apply near_and; apply G; assumption].
    intros u [H1 H2]. unfold saturation. auto 8.
  Qed.

  (* e() reports k times f at the temperatures around T *)
  Lemma near_reports (f : R -> R) T r d t l : kelvin_is E t T -> density_is D z r d ->
    fst (mp_Tlim D) < T < snd (mp_Tlim D) ->
    near (fun u => mixed_at (mp_e D) [from_Td D (Some u, Some d)] (from_Td D (Some u, Some d)) = Some (f u)) T ->
    Der f T l ->
    exists e, (exists eps, 0 < eps /\ forall u, Rabs (u - t) < eps -> exists x,
        mm_e D E fuel [] [("T", [Some u]); ("d", [Some r])] = Ok ([Some (e u)], [x])) /\
      deriv e t (kg / z_kE z * kt * l).
  Proof.
    intros HK Hd [HT1 HT2] N HD. apply kelvin_val in HK. subst T.
    destruct (to_kelvin_affine _ _ _ Z) as (b & Kp & KA).
    exists (fun u => kg / z_kE z * f (to_kelvin (z_T z) u)). split.
    - pose proof (near_and _ _ _ N (near_and _ _ _ (near_gt _ _ HT1) (near_lt _ _ HT2))) as M.
      rewrite KA in M. destruct (near_affine _ _ _ _ M Kp) as (eps & He & K). exists eps. split; [exact He|].
      intros u Hu. destruct (K u Hu) as (K1 & K2 & K3). rewrite <- KA in K1, K2, K3. clear K.
      assert (IR : in_range (mp_Tlim D) (to_kelvin (z_T z) u)) by (unfold in_range; lra).
      change [("T", [Some u]); ("d", [Some r])] with (kTd1 u r).
      rewrite mm_e_val, (scalar_points u r _ d (proj2 (kelvin_val u _) eq_refl) Hd IR). cbn [bind map].
      eexists. rewrite K1. reflexivity.
    - eapply D_eq.
      + exact (D_scal _ (kg / z_kE z) _ _ (D_comp (to_kelvin (z_T z)) f t kt l
          (D_ext (fun u => kt * u + b) _ t _ (fun u => eq_sym (KA u))
             (D_eq _ _ _ kt (D_plus _ _ _ _ _ (D_scal _ kt _ _ (D_id t)) (D_const b t)) ltac:(ring))) HD)).
      + ring.
  Qed.

  Theorem two_phase_cv varg kw i T d dL dV ys xs : state_Td D E z varg kw i T d ->
    fst (mp_Tlim D) < T < snd (mp_Tlim D) -> T < mp_Tc D -> saturation D T dL dV -> 0 < dV -> dV < d < dL ->
    mm_cv D E fuel varg kw = Ok (ys, xs) ->
    exists cv, nth_error ys i = Some (Some cv) /\ slope_of_e D E fuel z T d cv.
  Proof.
    intros S HT Tc Sat H0 [H1 H2] C.
    assert (IR : in_range (mp_Tlim D) T) by (unfold in_range; lra).
    destruct (argparse_Td D E fuel _ _ _ _ _ _ Z z _ _ _ _ _ (z_eta D E z Z) S IR) as (l & A & Nl).
    destruct (from_Td_dome D T d dL dV Tc Sat H0 H1 H2) as (Q & Qx & _).
    pose proof Sat as (W1 & W2 & S1 & S2 & EL & EV).
    destruct (sat_slope _ _ W1 S1) as (lL & DL & wL & JL). destruct (sat_slope _ _ W2 S2) as (lV & DV & wV & JV).
    subst dL dV. assert (HTp : 0 < T) by apply S1.
    pose proof (mixed_slope D WF NC d T lL lV HTp H0 H1 H2 DL DV) as M.
    pose proof (fun a1 a2 => cv_point D WF NC ET a1 a2 d T lL lV wL wV HTp H0 H1 H2 JL JV) as P.
    rewrite mm_cv_val, A in C. cbn [bind] in C. unfold cv_values in C.
    destruct (existsb s_sat l && negb (forallb s_sat l))%bool; [discriminate|]. cbn [bind] in C.
    injection C as <- <-.
    eexists. split.
    - rewrite (nth_map_some _ _ _ _ (nth_map_some _ _ _ _ Nl)), Q. cbn [s_sat dome_point].
      unfold xf in P. unfold dome_point in P at 1. rewrite P. reflexivity.
    - intros t r Ht Hr. apply (near_reports (Em D d) T r d t _ Ht Hr HT); [|exact M].
      assert (N1 : near (fun u => 0 < sat_value (mp_DSV D) u) T) by (apply (near_pos _ _ _ DV H0)).
      assert (N2 : near (fun u => 0 < d - sat_value (mp_DSV D) u) T).
      { apply (near_pos (fun u => d - sat_value (mp_DSV D) u) _ _ (D_minus _ _ _ _ _ (D_const d T) DV)). lra. }
      assert (N3 : near (fun u => 0 < sat_value (mp_DSL D) u - d) T).
      { apply (near_pos (fun u => sat_value (mp_DSL D) u - d) _ _ (D_minus _ _ _ _ _ DL (D_const d T))). lra. }
      refine (near_imp _ _ _ _ (near_and _ _ _ (near_and _ _ _ (near_lt _ _ Tc) (near_gt _ _ HTp))
        (near_and _ _ _ (sat_near _ _ _ Sat) (near_and _ _ _ N1 (near_and _ _ _ N2 N3))))).
      intros u ((U1 & U0) & U2 & U3 & U4 & U5).
      destruct (from_Td_dome D u d _ _ U1 U2 U3 ltac:(lra) ltac:(lra)) as (-> & _).
      unfold mixed_at, dome_point. cbn [s_sat s_T s_d1 s_d2 s_x].
      unfold value0. rewrite (proj1 (e_val D WF NC ET _ u (sat_value (mp_DSL D) u) U0 ltac:(lra))).
      rewrite (proj1 (e_val D WF NC ET _ u (sat_value (mp_DSV D) u) U0 U3)). reflexivity.
  Qed.

  Theorem single_phase_cv varg kw i T d ys xs : state_Td D E z varg kw i T d ->
    fst (mp_Tlim D) < T < snd (mp_Tlim D) -> 0 < T -> 0 < d ->
    (mp_Tc D < T \/ exists dL dV, saturation D T dL dV /\ (d < dV \/ dL < d)) ->
    mm_cv D E fuel varg kw = Ok (ys, xs) ->
    exists cv, nth_error ys i = Some (Some cv) /\ slope_of_e D E fuel z T d cv.
  Proof.
    intros S HT HTp Hd Out C.
    assert (IR : in_range (mp_Tlim D) T) by (unfold in_range; lra).
    destruct (argparse_Td D E fuel _ _ _ _ _ _ Z z _ _ _ _ _ (z_eta D E z Z) S IR) as (l & A & Nl).
    assert (N : near (fun u => from_Td D (Some u, Some d) = single (Some u) (Some d)) T).
    { assert (NN : near (fun u => mp_Tc D < u \/ (saturation D u (sat_value (mp_DSL D) u) (sat_value (mp_DSV D) u) /\
         (d < sat_value (mp_DSV D) u \/ sat_value (mp_DSL D) u < d))) T).
      { destruct Out as [Out|(dL & dV & Sat & Out)].
        - apply (near_imp (fun u => mp_Tc D < u)); [auto|now apply near_gt].
        - pose proof Sat as (W1 & W2 & S1 & S2 & EL & EV).
          destruct (sat_slope _ _ W1 S1) as (lL & DL & _). destruct (sat_slope _ _ W2 S2) as (lV & DV & _). subst dL dV.
          destruct Out as [Out|Out].
          + refine (near_imp _ _ _ _ (near_and _ _ _ (sat_near _ _ _ Sat) (near_pos (fun u => sat_value (mp_DSV D) u - d) _ _
              (D_minus _ _ _ _ _ DV (D_const d T)) _))); [|lra]. intros u [U1 U2]. right. split; [exact U1|left; lra].
          + refine (near_imp _ _ _ _ (near_and _ _ _ (sat_near _ _ _ Sat) (near_pos (fun u => d - sat_value (mp_DSL D) u) _ _
              (D_minus _ _ _ _ _ (D_const d T) DL) _))); [|lra]. intros u [U1 U2]. right. split; [exact U1|right; lra]. }
      revert NN. apply near_imp. intros u Hu. apply from_Td_single.
      intros (H & eL & eV & E1 & E2 & H1 & H2). destruct Hu as [Hu|((W1 & W2 & S1 & S2 & _ & _) & Hu)]; [lra|].
      unfold mp_dsl, mp_dsv in E1, E2. rewrite sat_curve_value in E1, E2 by assumption.
      injection E1 as <-. injection E2 as <-. lra. }
    assert (Q : from_Td D (Some T, Some d) = single (Some T) (Some d)).
    { destruct N as (e & He & K). apply K. unfold Rminus. rewrite Rplus_opp_r, Rabs_R0. exact He. }
    rewrite mm_cv_val, A in C. cbn [bind] in C. unfold cv_values in C.
    destruct (existsb s_sat l && negb (forallb s_sat l))%bool; [discriminate|]. cbn [bind] in C.
    injection C as <- <-.
    eexists. split.
    - rewrite (nth_map_some _ _ _ _ (nth_map_some _ _ _ _ Nl)), Q. cbn [s_sat single s_T s_d1].
      rewrite (proj2 (proj2 (e_val D WF NC ET _ T d HTp Hd))). reflexivity.
    - intros t r Ht Hr. apply (near_reports (fun u => Ef D u d) T r d t _ Ht Hr HT).
      + refine (near_imp _ _ _ _ (near_and _ _ _ N (near_gt _ _ HTp))). intros u [-> U0].
        unfold mixed_at, single. cbn [s_sat s_T s_d1].
        unfold value0. rewrite (proj1 (e_val D WF NC ET _ u d U0 Hd)). reflexivity.
      + eapply D_eq; [exact (e_curve D WF NC (fun _ => d) T 0 HTp Hd (D_const d T))|cbn beta; ring].
  Qed.

  (* one state: never an error *)
  Theorem scalar_cv t r T d : kelvin_is E t T -> density_is D z r d -> in_range (mp_Tlim D) T ->
    exists y x, mm_cv D E fuel [] [("T", [Some t]); ("d", [Some r])] = Ok ([y], [x]).
  Proof.
    intros HK Hd HT. change [("T", [Some t]); ("d", [Some r])] with (kTd1 t r).
    rewrite mm_cv_val, (scalar_points t r T d HK Hd HT). cbn [bind]. unfold cv_values. cbn [existsb forallb map].
    destruct (s_sat (from_Td D (Some T, Some d))); cbn [orb andb negb bind map]; eauto.
  Qed.

  (* a state inside the dome and one outside of it in one call *)
  Theorem mixed_error varg kw i j Ti di dL dV Tj dj :
    state_Td D E z varg kw i Ti di -> in_range (mp_Tlim D) Ti -> Ti < mp_Tc D -> saturation D Ti dL dV -> 0 < dV ->
    dV < di < dL ->
    state_Td D E z varg kw j Tj dj -> in_range (mp_Tlim D) Tj ->
    (mp_Tc D <= Tj \/ exists dL dV, saturation D Tj dL dV /\ (dj <= dV \/ dL <= dj)) ->
    mm_cv D E fuel varg kw = Err EValueError.
  Proof.
    intros Si HTi Tc Sat H0 [H1 H2] Sj HTj Out.
    destruct (argparse_Td D E fuel _ _ _ _ _ _ Z z _ _ _ _ _ (z_eta D E z Z) Si HTi) as (l & A & Ni).
    destruct (argparse_Td D E fuel _ _ _ _ _ _ Z z _ _ _ _ _ (z_eta D E z Z) Sj HTj) as (l' & A' & Nj).
    rewrite A in A'. injection A' as <-.
    destruct (from_Td_dome D Ti di dL dV Tc Sat H0 H1 H2) as (Q & _). rewrite Q in Ni.
    rewrite from_Td_single in Nj.
    2:{ intros (H & eL & eV & E1 & E2 & K1 & K2). destruct Out as [Out|(dL' & dV' & (W1 & W2 & S1 & S2 & -> & ->) & Out)]; [lra|].
        unfold mp_dsl, mp_dsv in E1, E2. rewrite sat_curve_value in E1, E2 by assumption.
        injection E1 as <-. injection E2 as <-. lra. }
    rewrite mm_cv_val, A. cbn [bind]. unfold cv_values.
    assert (B1 : existsb s_sat l = true).
    { apply existsb_exists. eexists. split; [eapply nth_error_In; exact Ni|reflexivity]. }
    assert (B2 : forallb s_sat l = false).
    { destruct (forallb s_sat l) eqn:F; [|reflexivity]. rewrite forallb_forall in F.
      apply nth_error_In in Nj. specialize (F _ Nj). discriminate. }
    rewrite B1, B2. reflexivity.
  Qed.
End Api.

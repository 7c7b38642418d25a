(* C36-C38: forms of the mixture lemmas used in the property statements. *)
From Coq Require Import Reals ZArith List String Lia Lra FunctionalExtensionality.
From Verif Require Import Base Model_Num Model_Units Model_Defaults Model_Igas Model_Igmix Spec_Units Spec_Igas
  Spec_Igmix Proof_Units Proof_Igas Proof_Igmix Proof_IgasUnits Proof_IgasState Proof_IgasArgs Proof_IgasCalls
  Proof_IgasRel Proof_IgasArr Proof_IgasProp Proof_IgmixCalls.
Import ListNotations.
Local Open Scope R_scope.
Local Open Scope string_scope.
Local Open Scope list_scope.

Lemma Forall2_impl {A B} (P Q : A -> B -> Prop) l1 l2 : (forall a b, P a b -> Q a b) -> Forall2 P l1 l2 -> Forall2 Q l1 l2.
Proof. intros HPQ. induction 1; constructor; auto. Qed.

(* ---- C36 ---- *)
Lemma X_answer coll m E : usable_mixture coll m ->
  mix_call coll m E fresh CX = (mix_state coll m, Ok (VDict (Xs coll m))).
Proof. intro H. unfold mix_call. now rewrite (bootstrap_ok _ _ H). Qed.
Lemma Y_answer coll m E : usable_mixture coll m ->
  mix_call coll m E fresh CY = (mix_state coll m, Ok (VDict (Ys coll m))).
Proof. intro H. unfold mix_call. now rewrite (bootstrap_ok _ _ H). Qed.

Lemma fractions coll m E : usable_mixture coll m ->
  exists o X Y,
    mix_call coll m E fresh CX = (o, Ok (VDict X)) /\ mix_call coll m E fresh CY = (o, Ok (VDict Y)) /\
    map fst X = map fst (m_contents m) /\ map fst Y = map fst (m_contents m) /\
    sum_over snd X = 1 /\ sum_over snd Y = 1 /\
    x_mw o = sum_over (fun c => snd c * mw_in coll (fst c)) X /\
    forall ss q, In (ss, q) (m_contents m) -> exists x y,
      In (ss, x) X /\ In (ss, y) Y /\ 0 < x <= 1 /\ 0 < y <= 1 /\
      x * sum_over (kmol_of coll (m_bymass m)) (m_contents m) = kmol_of coll (m_bymass m) (ss, q) /\
      y * sum_over (kg_of coll (m_bymass m)) (m_contents m) = kg_of coll (m_bymass m) (ss, q) /\
      y = x * mw_in coll ss / x_mw o.
Proof.
  intro H. exists (mix_state coll m), (Xs coll m), (Ys coll m).
  split; [apply X_answer; exact H|]. split; [apply Y_answer; exact H|].
  split. { unfold Xs. rewrite map_map. reflexivity. }
  split. { unfold Ys. rewrite map_map. reflexivity. }
  split; [apply X_sum; exact H|]. split; [apply Y_sum; exact H|].
  split; [apply MW_mean|].
  intros ss q Hc. exists (kmol_of coll (m_bymass m) (ss, q) / Nk coll m), (kg_of coll (m_bymass m) (ss, q) / Wk coll m).
  pose proof (Nk_pos _ _ H). pose proof (Wk_pos _ _ H). pose proof (MW_pos _ _ H).
  assert (In (ss, kmol_of coll (m_bymass m) (ss, q) / Nk coll m) (Xs coll m)) as IX.
  { unfold Xs. apply in_map_iff. exists (ss, q). auto. }
  assert (In (ss, kg_of coll (m_bymass m) (ss, q) / Wk coll m) (Ys coll m)) as IY.
  { unfold Ys. apply in_map_iff. exists (ss, q). auto. }
  split; [exact IX|]. split; [exact IY|].
  split. { destruct (X_in _ _ H _ IX) as (_ & _ & _ & K). exact K. }
  split. { destruct (Y_in _ _ H _ IY) as (_ & _ & _ & K). exact K. }
  fold (Nk coll m). fold (Wk coll m). split; [field; lra|]. split; [field; lra|].
  rewrite (kg_kmol _ _ H _ Hc). cbn [fst x_mw mix_state]. rewrite (Wk_MW _ _ H). field. lra.
Qed.

(* reported molecular weight *)
Lemma mw_answer coll m E um un km kn : usable_mixture coll m -> positive_setup (e_setup E) ->
  dget "unit_mass" (e_cfg E) = Some um -> si (e_setup E) QMass um = Some km ->
  dget "unit_molar" (e_cfg E) = Some un -> si (e_setup E) QMolar un = Some kn ->
  exists o X r, mix_call coll m E fresh CX = (o, Ok (VDict X)) /\
    mix_call coll m E fresh Cmw = (o, Ok (VNum r)) /\
    r * (km / kn) = sum_over (fun c => snd c * mw_in coll (fst c)) X.
Proof.
  intros H Hs H1 H2 H3 H4.
  exists (mix_state coll m), (Xs coll m), (MW coll m * (1 / km) / (1 / kn)).
  split; [apply X_answer; exact H|].
  assert (0 < km) by (eapply si_pos; eauto). assert (0 < kn) by (eapply si_pos; eauto).
  split.
  - unfold mix_call. rewrite (bootstrap_ok _ _ H). unfold mix_answer, mx_mw. f_equal.
    cbn [mix_gas g_mw x_mw mix_state].
    rewrite (convert_resolved (e_setup E) QMass (e_cfg E) _ (Some "kg") None None "kg" um) by (auto; reflexivity).
    rewrite (convert_spec (e_setup E) QMass _ (MW coll m) "kg" um None 1 km) by (auto; reflexivity). cbn [bind].
    rewrite (convert_resolved (e_setup E) QMolar (e_cfg E) _ (Some "kmol") None (Some (-1)%Z) "kmol" un) by (auto; reflexivity).
    rewrite (convert_spec (e_setup E) QMolar _ _ "kmol" un (Some (-1)%Z) 1 kn) by (auto; reflexivity). cbn [bind].
    cbn [effective_exponent Z.eqb]. rewrite zpow_1, zpow_m1. reflexivity.
  - rewrite <- MW_mean. field. lra.
Qed.

(* two descriptions of the same amounts *)
Lemma state_same coll m1 m2 k : usable_mixture coll m1 -> usable_mixture coll m2 -> 0 < k ->
  Forall2 (fun c1 c2 => fst c1 = fst c2 /\ kmol_of coll (m_bymass m1) c1 = k * kmol_of coll (m_bymass m2) c2)
    (m_contents m1) (m_contents m2) ->
  mix_state coll m1 = mix_state coll m2.
Proof.
  intros H1 H2 Hk F.
  assert (forall (c1 c2 : list (string * R)) f1 f2,
    Forall2 (fun a b => f1 a = k * f2 b) c1 c2 -> sum_over f1 c1 = k * sum_over f2 c2) as S.
  { induction 1 as [|a b l1 l2 E _ IH]; cbn; [ring|]. rewrite E, IH. ring. }
  assert (Nk coll m1 = k * Nk coll m2) as EN.
  { apply S. eapply Forall2_impl; [|exact F]. intros a b [_ K]. exact K. }
  assert (forall f, sum_over (fun c => f (fst c) * kmol_of coll (m_bymass m1) c) (m_contents m1)
     = k * sum_over (fun c => f (fst c) * kmol_of coll (m_bymass m2) c) (m_contents m2)) as ES.
  { intro f. apply S. eapply Forall2_impl; [|exact F]. intros a b [K1 K2]. cbn. rewrite K1, K2. ring. }
  assert (Forall2 (fun c1 c2 => In c1 (m_contents m1) /\ In c2 (m_contents m2) /\ fst c1 = fst c2 /\
            kmol_of coll (m_bymass m1) c1 = k * kmol_of coll (m_bymass m2) c2) (m_contents m1) (m_contents m2)) as FI.
  { assert (forall (P : string * R -> string * R -> Prop) l1 l2 L1 L2, (forall x, In x l1 -> In x L1) -> (forall x, In x l2 -> In x L2) ->
      Forall2 P l1 l2 -> Forall2 (fun a b => In a L1 /\ In b L2 /\ P a b) l1 l2) as K.
    { intros P l1 l2 L1 L2 I1 I2 FF. revert I1 I2. induction FF; intros I1 I2; constructor.
      - split; [apply I1; now left|]. split; [apply I2; now left|assumption].
      - apply IHFF; intros; [apply I1|apply I2]; now right. }
    apply K; auto. }
  pose proof (Nk_pos _ _ H1). pose proof (Nk_pos _ _ H2).
  assert (forall f, (sum_over (fun c => f (fst c) * kmol_of coll (m_bymass m1) c) (m_contents m1)) / Nk coll m1 =
    (sum_over (fun c => f (fst c) * kmol_of coll (m_bymass m2) c) (m_contents m2)) / Nk coll m2) as EQ.
  { intro f. rewrite ES, EN. field. lra. }
  assert (Xs coll m1 = Xs coll m2) as EX.
  { unfold Xs. rewrite EN. set (N2 := Nk coll m2) in *. clearbody N2. clear - F Hk H0. 
    induction F as [|a b l1 l2 [K1 K2] _ IH]; cbn [map]; [reflexivity|]. rewrite IH, K1, K2. f_equal. f_equal. field. lra. }
  assert (MW coll m1 = MW coll m2) as EM by (apply (EQ (mw_in coll))).
  assert (Wk coll m1 = k * Wk coll m2) as EW.
  { rewrite (Wk_MW _ _ H1), (Wk_MW _ _ H2), EM, EN. ring. }
  pose proof (Wk_pos _ _ H2).
  assert (Ys coll m1 = Ys coll m2) as EY.
  { unfold Ys. rewrite EW. set (W2 := Wk coll m2) in *. clearbody W2.
    assert (Forall2 (fun c1 c2 => fst c1 = fst c2 /\ kg_of coll (m_bymass m1) c1 = k * kg_of coll (m_bymass m2) c2)
              (m_contents m1) (m_contents m2)) as FG.
    { eapply Forall2_impl; [|exact FI]. intros a b (I1 & I2 & K1 & K2). split; [exact K1|].
      rewrite (kg_kmol _ _ H1 _ I1), (kg_kmol _ _ H2 _ I2), K2, K1. ring. }
    assert (0 < W2) as HW by assumption. clear - FG Hk HW.
    induction FG as [|a b l1 l2 [K1 K2] _ IH]; cbn [map]; [reflexivity|]. rewrite IH, K1, K2. f_equal. f_equal. field. lra. }
  assert (forall a, low_of coll (m_contents m1) a = low_of coll (m_contents m2) a) as EL.
  { clear - F. induction F as [|c1 c2 l1 l2 [K1 _] _ IH]; intro a; [reflexivity|]. unfold low_of. cbn [fold_left].
    unfold low_of in IH. replace (tlo coll c1) with (tlo coll c2) by (unfold tlo; now rewrite K1). apply IH. }
  assert (forall a, high_of coll (m_contents m1) a = high_of coll (m_contents m2) a) as EH.
  { clear - F. induction F as [|c1 c2 l1 l2 [K1 _] _ IH]; intro a; [reflexivity|]. unfold high_of. cbn [fold_left].
    unfold high_of in IH. replace (thi coll c1) with (thi coll c2) by (unfold thi; now rewrite K1). apply IH. }
  apply mixobj_eq; cbn [mix_state x_bs x_x x_y x_mw x_pref x_lo x_hi x_smix]; auto.
  - unfold PR. f_equal. apply (EQ (fun ss => ln (d_pref (Dof coll ss)))).
  - now rewrite EX.
Qed.

Lemma same_mixture coll m1 m2 k : usable_mixture coll m1 -> usable_mixture coll m2 -> 0 < k ->
  Forall2 (fun c1 c2 => fst c1 = fst c2 /\ kmol_of coll (m_bymass m1) c1 = k * kmol_of coll (m_bymass m2) c2)
    (m_contents m1) (m_contents m2) ->
  forall E c, mix_call coll m1 E fresh c = mix_call coll m2 E fresh c.
Proof.
  intros H1 H2 Hk F E c. unfold mix_call. rewrite (bootstrap_ok _ _ H1), (bootstrap_ok _ _ H2).
  now rewrite (state_same _ _ _ _ H1 H2 Hk F).
Qed.

(* ---- C37 ---- *)
Definition Iq (q : quantity_of) (K cp h se : R) : R :=
  match q with
  | Pcp => cp | Pcv => cp - const_Ru | Ph => h | Pe => h - const_Ru * K | Ps => se
  | Pg => h - K * se | Pf => h - const_Ru * K - K * se | _ => 0
  end.
Definition extensive : list quantity_of := [Pcp; Pcv; Ph; Pe; Ps; Pg; Pf].
Definition scale_of (q : quantity_of) (kT kE kM : R) : R :=
  match q with Ph | Pe | Pg | Pf => kh kE kM | _ => ks kT kE kM end.

Lemma ideal_value E g uT kT kP kV kE kM q t p cp h s :
  units_known E (g_mw g) uT kT kP kV kE kM -> In q extensive ->
  Tlow g <= to_kelvin uT t <= Thigh g -> 0 < g_pref g -> 0 < p ->
  pvalues g (to_kelvin uT t) cp h s ->
  ideal_method q g E [] [("T", [Some t]); ("p", [Some p])] =
  Ok [Some (Iq q (to_kelvin uT t) cp h (s - const_Ru * ln (kP * p / g_pref g)) * scale_of q kT kE kM)].
Proof.
  intros U Hq Hr Hpr Hp V. pose proof (kP_pos _ _ _ _ _ _ _ _ U) as HkP.
  assert (argparse g E [] [("T", [Some t]); ("p", [Some p])] =
    Ok ([Some (to_kelvin uT t)], Some [Some (kP * p)], None)) as A.
  { rewrite (argparse_TP _ _ _ _ _ _ _ _ U) by reflexivity. unfold bounds, inT, inP. cbn [map lift1 forallb].
    unfold out_of_range, flt. destruct (Rlt_dec (to_kelvin uT t) (Tlow g)); [lra|].
    destruct (Rlt_dec (Thigh g) (to_kelvin uT t)); [lra|]. reflexivity. }
  set (K := to_kelvin uT t) in *. clearbody K. destruct V as [V1 V2 V3 V4 V5 V6].
  assert (log_p g (Some (kP * p)) = Some (ln (kP * p / g_pref g))) as L.
  { unfold log_p, fdiv. destruct (Req_EM_T (g_pref g) 0); [lra|]. unfold flog.
    assert (0 < kP * p / g_pref g) by (apply Rdiv_lt_0_compat; [apply Rmult_lt_0_compat; lra|lra]).
    destruct (Rlt_dec 0 (kP * p / g_pref g)); [reflexivity|contradiction]. }
  cbn [In extensive] in Hq.
  destruct Hq as [<-|[<-|[<-|[<-|[<-|[<-|[<-|[]]]]]]]]; cbn [ideal_method Iq scale_of].
  - rewrite (m_cp_val _ _ _ _ _ _ _ _ U), A. cbn [bind map]. rewrite V1. reflexivity.
  - rewrite (m_cv_val _ _ _ _ _ _ _ _ U), A. cbn [bind map]. rewrite V1. reflexivity.
  - rewrite (m_h_val _ _ _ _ _ _ _ _ U), A. cbn [bind map]. rewrite V2. reflexivity.
  - rewrite (m_e_val _ _ _ _ _ _ _ _ U), A. cbn [bind map]. unfold state_e. rewrite V2. reflexivity.
  - rewrite (m_s_val _ _ _ _ _ _ _ _ U), A. cbn [bind the_p]. unfold map2. cbn [combine map fst snd]. unfold state_s.
    rewrite V3, L. reflexivity.
  - rewrite (m_g_val _ _ _ _ _ _ _ _ U), A. cbn [bind the_p]. unfold map2. cbn [combine map fst snd]. unfold state_g.
    rewrite V4, L. cbn. f_equal. f_equal. f_equal. ring.
  - rewrite (m_f_val _ _ _ _ _ _ _ _ U), A. cbn [bind the_p]. unfold map2. cbn [combine map fst snd]. unfold state_f.
    rewrite V6, L, <- Ru_gas. cbn. f_equal. f_equal. f_equal. ring.
Qed.

Lemma Iq_scale q K cp h se kT kE kM : In q extensive -> 0 < kE -> 0 < kM ->
  Iq q K cp h se * scale_of q kT kE kM / kM = Iq q K cp h se * scale_of q kT kE 1.
Proof.
  intros Hq HE HM. destruct q; cbn [scale_of]; unfold ks, kh; field; lra.
Qed.

Lemma units_member E mw uT kT kP kV kE kM mw' : units_known E mw uT kT kP kV kE kM -> 0 < mw' ->
  exists k, matter_size E mw' k /\ units_known E mw' uT kT kP kV kE k.
Proof.
  intros U Hm. destruct U as [U1 U2 U3 U4 U5 U6 U7 U8 (u & Hu & Hk)].
  assert (exists k, kmoles (e_setup E) mw' u = Some k) as (k & Hk').
  { unfold kmoles in *. destruct (si (e_setup E) QMolar u); [eauto|]. destruct (si (e_setup E) QMass u); [eauto|discriminate]. }
  exists k. split; [exists u; auto|]. constructor; auto. exists u. auto.
Qed.

Section C37.
  Variables (coll : collection) (m : mixdata).
  Hypothesis H : usable_mixture coll m.

  Lemma range_common K : common_range coll m K <-> Tlow (G coll m) <= K <= Thigh (G coll m).
  Proof.
    destruct (limits _ _ H) as (lo & hi & EG & _ & _ & _ & _ & Hl & (s1 & q1 & D1 & Hc1 & HL1 & E1) & (s2 & q2 & D2 & Hc2 & HL2 & E2)).
    unfold Tlow, Thigh. rewrite EG. cbn. split.
    - intro C. pose proof (C _ _ _ Hc1 HL1). pose proof (C _ _ _ Hc2 HL2). lra.
    - intros HK ss q D Hc HL. pose proof (Hl _ _ _ Hc HL). lra.
  Qed.

  Lemma mix_pvalues K cp h s : members_at coll m K cp h s -> 0 < K ->
    pvalues (G coll m) K (wsum coll m cp) (wsum coll m h) (wsum coll m s + SM coll m).
  Proof.
    intros M HK. destruct (mix_values _ _ H K cp h s M HK) as (V1 & V2 & V3 & V4 & V5 & V6 & _).
    constructor; [exact V1|exact V2|exact V3|rewrite V4|exact V5|rewrite V6]; reflexivity.
  Qed.
  Lemma values_p g K cp h s : values_at g K cp h s -> pvalues g K cp h s.
  Proof. intros [V1 V2 V3 V4 V5 V6]. constructor; auto; [rewrite V4|rewrite V6]; reflexivity. Qed.

  Definition xof (ss : string) : R := match dget ss (Xs coll m) with Some x => x | None => 0 end.
  Lemma Xs_nodup : NoDup (map fst (Xs coll m)).
  Proof. unfold Xs. rewrite map_map. apply H. Qed.
  Lemma xof_in ss x : In (ss, x) (Xs coll m) -> xof ss = x.
  Proof. intro Hx. unfold xof. now rewrite (dget_in_nodup _ _ _ Xs_nodup Hx). Qed.
  Lemma X_contents ss x : In (ss, x) (Xs coll m) -> exists q, In (ss, q) (m_contents m).
  Proof.
    intro Hx. unfold Xs in Hx. apply in_map_iff in Hx. destruct Hx as ([s0 q] & E & Hc). injection E as <- _. eauto.
  Qed.

  (* entropy at partial pressures *)
  Lemma partial_entropy s P : 0 < P ->
    wsum coll m s + SM coll m - const_Ru * ln (P / PR coll m) =
    wsum coll m (fun ss => s ss - const_Ru * ln (xof ss * P / d_pref (Dof coll ss))).
  Proof.
    intro HP.
    assert (0 < PR coll m) by apply exp_pos.
    assert (ln (P / PR coll m) = ln P - ln (PR coll m)) as L.
    { unfold Rdiv. rewrite ln_mult by (auto; now apply Rinv_0_lt_compat). rewrite ln_Rinv by assumption. ring. }
    rewrite L, ln_PR. unfold wsum, SM.
    rewrite (sum_ext (fun p : string * R => snd p * (s (fst p) - const_Ru * ln (xof (fst p) * P / d_pref (Dof coll (fst p)))))
      (fun p => snd p * s (fst p) + ((- const_Ru) * (snd p * ln (snd p)) +
                 ((- const_Ru * ln P) * snd p + const_Ru * (snd p * ln (d_pref (Dof coll (fst p)))))))).
    - rewrite !sum_plus, !sum_scal, (X_sum _ _ H). ring.
    - intros [ss x] Hx. cbn [fst snd]. rewrite (xof_in _ _ Hx).
      destruct (X_in _ _ H _ Hx) as ([s0 q] & Hc & E & Hx0 & _). cbn [fst snd] in *. injection E as -> _.
      destruct (mem _ _ H _ Hc) as (D & _ & (_ & _ & _ & Hpr) & ED & _). cbn [fst] in ED. rewrite ED.
      assert (ln (x * P / d_pref D) = ln x + ln P - ln (d_pref D)) as ->.
      { assert (0 < x * P) by (apply Rmult_lt_0_compat; lra). assert (0 < / d_pref D) by now apply Rinv_0_lt_compat.
        unfold Rdiv. rewrite ln_mult by assumption. rewrite (ln_mult x P) by assumption. rewrite ln_Rinv by assumption. ring. }
      ring.
  Qed.

  Lemma Iq_linear q K cp h se : In q extensive ->
    Iq q K (wsum coll m cp) (wsum coll m h) (wsum coll m se) = wsum coll m (fun ss => Iq q K (cp ss) (h ss) (se ss)).
  Proof.
    assert (forall a b c d, a * wsum coll m cp + b * wsum coll m h + c * wsum coll m se + d =
      wsum coll m (fun ss => a * cp ss + b * h ss + c * se ss + d)) as L.
    { intros a b c d.
      rewrite (wsum_ext _ _ (fun ss => a * cp ss + b * h ss + c * se ss + d)
        (fun ss => 1 * (a * cp ss + b * h ss) + 1 * (c * se ss + d * 1))) by (intros; ring).
      rewrite (wsum_lin coll m 1 (fun ss => a * cp ss + b * h ss) 1 (fun ss => c * se ss + d * 1)), wsum_lin, wsum_lin.
      rewrite (wsum_const _ _ H). ring. }
    intro Hq. cbn [In extensive] in Hq.
    destruct Hq as [<-|[<-|[<-|[<-|[<-|[<-|[<-|[]]]]]]]]; cbn [Iq].
    - reflexivity.
    - match goal with |- _ = wsum coll m ?u =>
        rewrite (wsum_ext coll m u (fun ss => 1 * cp ss + 0 * h ss + 0 * se ss + (- const_Ru))) by (intros; ring) end.
      rewrite <- L. ring.
    - reflexivity.
    - match goal with |- _ = wsum coll m ?u =>
        rewrite (wsum_ext coll m u (fun ss => 0 * cp ss + 1 * h ss + 0 * se ss + (- (const_Ru * K)))) by (intros; ring) end.
      rewrite <- L. ring.
    - reflexivity.
    - match goal with |- _ = wsum coll m ?u =>
        rewrite (wsum_ext coll m u (fun ss => 0 * cp ss + 1 * h ss + (- K) * se ss + 0)) by (intros; ring) end.
      rewrite <- L. ring.
    - match goal with |- _ = wsum coll m ?u =>
        rewrite (wsum_ext coll m u (fun ss => 0 * cp ss + 1 * h ss + (- K) * se ss + (- (const_Ru * K)))) by (intros; ring) end.
      rewrite <- L. ring.
  Qed.


  Lemma member_facts ss q : In (ss, q) (m_contents m) -> let g := member_gas None coll ss in
    gas_in coll ss g /\ g_mw g = mw_in coll ss /\ g_pref g = d_pref (Dof coll ss) /\ 0 < mw_in coll ss /\
    0 < g_pref g /\ (forall K, common_range coll m K -> Tlow g <= K <= Thigh g).
  Proof.
    intro Hc. destruct (mem _ _ H _ Hc) as (D & HL & (_ & _ & _ & Hpr) & ED & Em & Hm & _). cbn [fst] in *.
    cbn zeta. pose proof HL as (a & HL').
    assert (gas_in coll ss (member_gas None coll ss)) as Hg.
    { unfold gas_in, member_gas. exists D, a. destruct HL' as [K|K]; rewrite K; auto. }
    split; [exact Hg|]. rewrite Em, ED.
    destruct (loaded_facts _ _ _ HL) as (_ & _ & _ & [K|K]); rewrite K; cbn [g_mw g_pref ig_gas ig2_gas];
      (repeat split; auto); unfold Tlow, Thigh; cbn [g_Tlim ig_gas ig2_gas]; apply (H0 _ _ _ Hc HL).
  Qed.

  Lemma partial_pressures E uT kT kP kV kE kM q t p K : e_oob E = None ->
    units_known E (x_mw (mix_state coll m)) uT kT kP kV kE kM -> In q extensive ->
    temperature_scale (e_cfg E) t None (Some "K") = Ok K -> common_range coll m K -> 0 < p ->
    exists X v vi ki,
      snd (mix_call coll m E fresh CX) = Ok (VDict X) /\
      snd (mix_call coll m E fresh (CProp q [] [("T", [Some t]); ("p", [Some p])])) = Ok (VArr [Some v]) /\
      (forall ss x, In (ss, x) X -> matter_size E (mw_in coll ss) (ki ss) /\ exists g, gas_in coll ss g /\
         ideal_method q g E [] [("T", [Some t]); ("p", [Some (x * p)])] = Ok [Some (vi ss)]) /\
      v / kM = sum_over (fun c => snd c * (vi (fst c) / ki (fst c))) X.
  Proof.
    intros Ho U Hq HK HR Hp. apply (tscale_K _ _ _ _ _ _ _ _ U) in HK. subst K.
    pose proof (proj1 (range_common _) HR) as HR'.
    destruct (G_low _ _ H) as (Hlow & Hpr & _ & _).
    set (K := to_kelvin uT t) in *.
    destruct (members_exist _ _ H K HR') as (cp & h & s & M).
    pose proof (mix_pvalues K cp h s M) as V. assert (0 < K) as HK0 by lra. specialize (V HK0).
    pose proof (kP_pos _ _ _ _ _ _ _ _ U) as HkP. pose proof (kE_pos _ _ _ _ _ _ _ _ U) as HkE.
    pose proof (kM_pos _ _ _ _ _ _ _ _ U) as HkM.
    assert (exists ki, forall ss q, In (ss, q) (m_contents m) -> matter_size E (mw_in coll ss) (ki ss) /\
              units_known E (mw_in coll ss) uT kT kP kV kE (ki ss)) as (ki & Hki).
    { pose proof U as [U1 U2 U3 U4 U5 U6 U7 U8 (u & Hu & Hk)].
      exists (fun ss => match kmoles (e_setup E) (mw_in coll ss) u with Some k => k | None => 0 end).
      intros ss q0 Hc. destruct (member_facts ss q0 Hc) as (_ & _ & _ & Hm & _).
      destruct (units_member _ _ _ _ _ _ _ _ _ U Hm) as (k & (u' & Hu' & Hk') & Uk).
      rewrite Hu in Hu'. injection Hu' as <-. rewrite Hk'. split; [exists u; auto|exact Uk]. }
    set (se := fun ss => s ss - const_Ru * ln (kP * (xof ss * p) / d_pref (Dof coll ss))).
    exists (Xs coll m).
    exists (Iq q K (wsum coll m cp) (wsum coll m h) (wsum coll m s + SM coll m - const_Ru * ln (kP * p / PR coll m)) * scale_of q kT kE kM).
    exists (fun ss => Iq q K (cp ss) (h ss) (se ss) * scale_of q kT kE (ki ss)), ki.
    split; [now rewrite X_answer|]. split.
    { rewrite (call_ideal _ _ H E _ _ _ _ _ _ q _ _ Ho U). cbn [snd].
      change (x_mw (mix_state coll m)) with (g_mw (G coll m)) in U.
      rewrite (ideal_value E (G coll m) _ _ _ _ _ _ q t p _ _ _ U Hq HR' Hpr Hp V). reflexivity. }
    split.
    { intros ss x Hx. destruct (X_contents _ _ Hx) as (q0 & Hc). destruct (Hki _ _ Hc) as (Hk & Uk).
      split; [exact Hk|]. exists (member_gas None coll ss).
      destruct (member_facts ss q0 Hc) as (Hg & Em & Epr & Hm & Hpr' & Hlim). split; [exact Hg|].
      destruct (X_in _ _ H _ Hx) as (_ & _ & _ & Hx0 & _). cbn [snd] in Hx0.
      unfold se. rewrite (xof_in _ _ Hx), <- Epr. rewrite <- Em in Uk.
      apply (ideal_value E _ _ _ _ _ _ _ q t (x * p) _ _ _ Uk Hq (Hlim _ HR) Hpr').
      - apply Rmult_lt_0_compat; lra.
      - apply values_p. destruct M as [M]. eapply M. exact Hc. }
    rewrite Iq_scale by assumption.
    rewrite (sum_ext (fun c : string * R => snd c * (Iq q K (cp (fst c)) (h (fst c)) (se (fst c)) * scale_of q kT kE (ki (fst c)) / ki (fst c)))
      (fun c => scale_of q kT kE 1 * (snd c * Iq q K (cp (fst c)) (h (fst c)) (se (fst c))))).
    2:{ intros [ss x] Hx. cbn [fst snd]. destruct (X_contents _ _ Hx) as (q0 & Hc). destruct (Hki _ _ Hc) as (Hk & Uk).
        rewrite (Iq_scale q K (cp ss) (h ss) (se ss) kT kE (ki ss) Hq HkE (kM_pos _ _ _ _ _ _ _ _ Uk)). ring. }
    rewrite sum_scal.
    change (sum_over (fun c : string * R => snd c * Iq q K (cp (fst c)) (h (fst c)) (se (fst c))) (Xs coll m))
      with (wsum coll m (fun ss => Iq q K (cp ss) (h ss) (se ss))).
    rewrite <- Iq_linear by exact Hq. rewrite (partial_entropy s (kP * p)) by (apply Rmult_lt_0_compat; lra).
    rewrite (wsum_ext coll m (fun ss => s ss - const_Ru * ln (xof ss * (kP * p) / d_pref (Dof coll ss))) se).
    - ring.
    - intros ss q0 _. unfold se. replace (xof ss * (kP * p)) with (kP * (xof ss * p)) by ring. reflexivity.
  Qed.

  (* mixing does not lower the entropy: compared with the constituents at the pressure of the mixture *)
  Lemma mixing_increases E uT kT kP kV kE kM t p K : e_oob E = None ->
    units_known E (x_mw (mix_state coll m)) uT kT kP kV kE kM ->
    temperature_scale (e_cfg E) t None (Some "K") = Ok K -> common_range coll m K -> 0 < p ->
    exists X v vi ki,
      snd (mix_call coll m E fresh CX) = Ok (VDict X) /\
      snd (mix_call coll m E fresh (CProp Ps [] [("T", [Some t]); ("p", [Some p])])) = Ok (VArr [Some v]) /\
      (forall ss x, In (ss, x) X -> matter_size E (mw_in coll ss) (ki ss) /\ exists g, gas_in coll ss g /\
         ideal_method Ps g E [] [("T", [Some t]); ("p", [Some p])] = Ok [Some (vi ss)]) /\
      sum_over (fun c => snd c * (vi (fst c) / ki (fst c))) X <= v / kM.
  Proof.
    intros Ho U HK HR Hp. apply (tscale_K _ _ _ _ _ _ _ _ U) in HK. subst K.
    pose proof (proj1 (range_common _) HR) as HR'.
    destruct (G_low _ _ H) as (Hlow & Hpr & _ & _).
    set (K := to_kelvin uT t) in *.
    destruct (members_exist _ _ H K HR') as (cp & h & s & M).
    pose proof (mix_pvalues K cp h s M) as V. assert (0 < K) as HK0 by lra. specialize (V HK0).
    pose proof (kP_pos _ _ _ _ _ _ _ _ U) as HkP. pose proof (kE_pos _ _ _ _ _ _ _ _ U) as HkE.
    pose proof (kM_pos _ _ _ _ _ _ _ _ U) as HkM. pose proof (kT_pos _ _ _ _ _ _ _ _ U) as HkT.
    assert (In Ps extensive) as Hq by (cbn; tauto).
    assert (exists ki, forall ss q, In (ss, q) (m_contents m) -> matter_size E (mw_in coll ss) (ki ss) /\
              units_known E (mw_in coll ss) uT kT kP kV kE (ki ss)) as (ki & Hki).
    { pose proof U as [U1 U2 U3 U4 U5 U6 U7 U8 (u & Hu & Hk)].
      exists (fun ss => match kmoles (e_setup E) (mw_in coll ss) u with Some k => k | None => 0 end).
      intros ss q0 Hc. destruct (member_facts ss q0 Hc) as (_ & _ & _ & Hm & _).
      destruct (units_member _ _ _ _ _ _ _ _ _ U Hm) as (k & (u' & Hu' & Hk') & Uk).
      rewrite Hu in Hu'. injection Hu' as <-. rewrite Hk'. split; [exists u; auto|exact Uk]. }
    set (se := fun ss => s ss - const_Ru * ln (kP * p / d_pref (Dof coll ss))).
    exists (Xs coll m).
    exists (Iq Ps K (wsum coll m cp) (wsum coll m h) (wsum coll m s + SM coll m - const_Ru * ln (kP * p / PR coll m)) * scale_of Ps kT kE kM).
    exists (fun ss => Iq Ps K (cp ss) (h ss) (se ss) * scale_of Ps kT kE (ki ss)), ki.
    split; [now rewrite X_answer|]. split.
    { rewrite (call_ideal _ _ H E _ _ _ _ _ _ Ps _ _ Ho U). cbn [snd].
      change (x_mw (mix_state coll m)) with (g_mw (G coll m)) in U.
      rewrite (ideal_value E (G coll m) _ _ _ _ _ _ Ps t p _ _ _ U Hq HR' Hpr Hp V). reflexivity. }
    split.
    { intros ss x Hx. destruct (X_contents _ _ Hx) as (q0 & Hc). destruct (Hki _ _ Hc) as (Hk & Uk).
      split; [exact Hk|]. exists (member_gas None coll ss).
      destruct (member_facts ss q0 Hc) as (Hg & Em & Epr & Hm & Hpr' & Hlim). split; [exact Hg|].
      unfold se. rewrite <- Epr. rewrite <- Em in Uk.
      apply (ideal_value E _ _ _ _ _ _ _ Ps t p _ _ _ Uk Hq (Hlim _ HR) Hpr' Hp).
      apply values_p. destruct M as [M]. eapply M. exact Hc. }
    rewrite Iq_scale by assumption.
    rewrite (sum_ext (fun c : string * R => snd c * (Iq Ps K (cp (fst c)) (h (fst c)) (se (fst c)) * scale_of Ps kT kE (ki (fst c)) / ki (fst c)))
      (fun c => scale_of Ps kT kE 1 * (snd c * se (fst c)))).
    2:{ intros [ss x] Hx. cbn [fst snd]. destruct (X_contents _ _ Hx) as (q0 & Hc). destruct (Hki _ _ Hc) as (Hk & Uk).
        rewrite (Iq_scale Ps K (cp ss) (h ss) (se ss) kT kE (ki ss) Hq HkE (kM_pos _ _ _ _ _ _ _ _ Uk)). cbn [Iq]. ring. }
    rewrite sum_scal.
    change (sum_over (fun c : string * R => snd c * se (fst c)) (Xs coll m)) with (wsum coll m se).
    cbn [Iq]. rewrite Rmult_comm.
    apply Rmult_le_compat_r.
    { cbn [scale_of]. unfold ks. apply Rmult_le_pos; [|lra]. apply Rmult_le_pos; [|lra].
      apply Rlt_le, Rdiv_lt_0_compat; lra. }
    assert (wsum coll m se = wsum coll m s - const_Ru * ln (kP * p / PR coll m)) as ->.
    2:{ pose proof (SM_nonneg _ _ H). lra. }
    assert (0 < PR coll m) by apply exp_pos. assert (0 < kP * p) by (apply Rmult_lt_0_compat; lra).
    assert (ln (kP * p / PR coll m) = ln (kP * p) - ln (PR coll m)) as L.
    { unfold Rdiv. rewrite ln_mult by (auto; now apply Rinv_0_lt_compat). rewrite ln_Rinv by assumption. ring. }
    rewrite L, ln_PR. unfold wsum.
    rewrite (sum_ext (fun p0 : string * R => snd p0 * se (fst p0))
      (fun p0 => snd p0 * s (fst p0) + ((- const_Ru * ln (kP * p)) * snd p0 + const_Ru * (snd p0 * ln (d_pref (Dof coll (fst p0))))))).
    - rewrite !sum_plus, !sum_scal, (X_sum _ _ H). ring.
    - intros [ss x] Hx. cbn [fst snd]. unfold se. destruct (X_contents _ _ Hx) as (q0 & Hc).
      destruct (mem _ _ H _ Hc) as (D & _ & (_ & _ & _ & HprD) & ED & _). cbn [fst] in ED. rewrite ED.
      assert (ln (kP * p / d_pref D) = ln (kP * p) - ln (d_pref D)) as ->.
      { unfold Rdiv. rewrite ln_mult by (auto; now apply Rinv_0_lt_compat). rewrite ln_Rinv by assumption. ring. }
      ring.
  Qed.
End C37.

(* C37 (slopes, one constituent), C38, C63, C64: further mixture lemmas. *)
From Coq Require Import Reals ZArith List String Lia Lra FunctionalExtensionality.
From Verif Require Import Base Model_Num Model_Units Model_Defaults Model_Igas Model_Igmix Spec_Units Spec_Igas
  Spec_Igmix Proof_Units Proof_Igas Proof_Igmix Proof_IgasUnits Proof_IgasState Proof_IgasArgs Proof_IgasCalls
  Proof_IgasRel Proof_IgasArr Proof_IgasProp Proof_IgmixCalls Proof_IgmixProp.
Import ListNotations.
Local Open Scope R_scope.
Local Open Scope string_scope.
Local Open Scope list_scope.

Lemma sum_deriv {A} (f : A -> R -> R) (d : A -> R) l x :
  (forall a, In a l -> derivable_pt_lim (f a) x (d a)) ->
  derivable_pt_lim (fun y => sum_over (fun a => f a y) l) x (sum_over d l).
Proof.
  induction l as [|a l IH]; intro H; cbn [sum_over].
  - apply derivable_pt_lim_const.
  - apply (derivable_pt_lim_plus (f a) (fun y => sum_over (fun a => f a y) l)).
    + apply H. now left.
    + apply IH. intros; apply H; now right.
Qed.

Section Slopes.
  Variables (coll : collection) (m : mixdata).
  Hypothesis H : usable_mixture coll m.
  Variable K : R.
  Hypothesis S : smooth_point coll m K.

  Lemma smooth_inside : Tlow (G coll m) < K < Thigh (G coll m).
  Proof.
    destruct (limits _ _ H) as (lo & hi & EG & _ & _ & _ & _ & _ & (s1 & q1 & D1 & Hc1 & HL1 & E1) & (s2 & q2 & D2 & Hc2 & HL2 & E2)).
    unfold Tlow, Thigh. rewrite EG. cbn. subst lo hi.
    assert (forall ss q D, In (ss, q) (m_contents m) -> loaded coll ss D -> nth 0 (d_Tlim D) 0 < K < last (d_Tlim D) 0) as J.
    { intros ss q D Hc HL. destruct (S _ _ _ Hc HL) as (i & Hi & HK). destruct (mem _ _ H _ Hc) as (D' & HL' & ((HG & _) & _) & _).
      cbn [fst] in HL'. rewrite (loaded_unique _ _ _ _ HL' HL) in HG. destruct HG as (HI & HL2').
      rewrite last_nth by lia.
      pose proof (increasing_le _ HI 0 i). pose proof (increasing_le _ HI (Datatypes.S i) (List.length (d_Tlim D) - 1)).
      split; [apply Rle_lt_trans with (nth i (d_Tlim D) 0); [apply H0; lia|lra]|].
      apply Rlt_le_trans with (nth (Datatypes.S i) (d_Tlim D) 0); [lra|apply H1; lia]. }
    split; [exact (proj1 (J s1 q1 D1 Hc1 HL1))|exact (proj2 (J s2 q2 D2 Hc2 HL2))].
  Qed.
  Let Kpos : 0 < K.
  Proof. pose proof smooth_inside. destruct (G_low _ _ H). lra. Qed.

  Lemma member_slopes : exists cp h s, members_at coll m K cp h s /\
    forall ss q, In (ss, q) (m_contents m) -> slopes_at (member_gas None coll ss) K (cp ss) (s ss).
  Proof.
    assert (forall ss q, In (ss, q) (m_contents m) -> exists cp h s, values_at (member_gas None coll ss) K cp h s /\
             slopes_at (member_gas None coll ss) K cp s) as J.
    { intros ss q Hc. destruct (mem _ _ H _ Hc) as (D & HL & (HG & _) & _). cbn [fst] in HL.
      destruct (S _ _ _ Hc HL) as (i & Hi & HK).
      destruct (loaded_facts _ _ _ HL) as (_ & _ & _ & [-> | ->]);
        [apply (ig_value_slopes None D i)|apply (ig2_value_slopes None D i)]; auto. }
    pose proof smooth_inside as HI.
    destruct (members_exist _ _ H K) as (cp & h & s & [M]); [lra|].
    exists cp, h, s. split; [constructor; exact M|]. intros ss q Hc.
    destruct (J ss q Hc) as (cp' & h' & s' & V' & SL). pose proof (M _ _ Hc) as V.
    assert (cp ss = cp') as -> by (pose proof (va_cp _ _ _ _ _ V); pose proof (va_cp _ _ _ _ _ V'); congruence).
    assert (s ss = s') as -> by (pose proof (va_s _ _ _ _ _ V); pose proof (va_s _ _ _ _ _ V'); congruence).
    exact SL.
  Qed.

  (* a weighted sum of routines whose values exist around K *)
  Lemma weighted_slope (r : gas -> fl -> fl) (extra : R -> fl -> fl) d v0 :
    (forall t ss q, Tlow (G coll m) <= t <= Thigh (G coll m) -> In (ss, q) (m_contents m) ->
       exists v, r (member_gas None coll ss) (Some t) = Some v) ->
    (forall y v, extra y (Some v) = Some (v + v0 y)) ->
    (forall ss q, In (ss, q) (m_contents m) -> has_slope (r (member_gas None coll ss)) K (d ss)) ->
    forall dv, derivable_pt_lim v0 K dv ->
    has_slope (fun t => match t with Some y => extra y (weighted None coll (Xs coll m) (fun g => r g t)) | None => None end)
      K (wsum coll m d + dv).
  Proof.
    intros Hex Hextra Hsl dv Hdv. unfold has_slope. pose proof smooth_inside as HI.
    apply (lim_local _ (fun y => wsum coll m (fun ss => value (r (member_gas None coll ss) (Some y))) + v0 y) K _
             (Tlow (G coll m)) (Thigh (G coll m)) HI).
    - intros y Hy. rewrite (weighted_val coll m (fun g => r g (Some y)) (fun ss => value (r (member_gas None coll ss) (Some y)))).
      + rewrite Hextra. reflexivity.
      + intros ss q Hc. destruct (Hex y ss q) as (v & ->); [lra|exact Hc|reflexivity].
    - apply (derivable_pt_lim_plus (fun y => wsum coll m (fun ss => value (r (member_gas None coll ss) (Some y)))) v0); [|exact Hdv].
      unfold wsum. apply (sum_deriv (fun p y => snd p * value (r (member_gas None coll (fst p)) (Some y))) (fun p => snd p * d (fst p))).
      intros [ss x] Hx. cbn [fst snd]. destruct (X_contents _ _ _ _ Hx) as (q & Hc).
      apply (derivable_pt_lim_scal (fun y => value (r (member_gas None coll ss) (Some y))) x K (d ss)).
      apply (Hsl ss q Hc).
  Qed.

  Lemma mix_slopes : exists cp s,
    snd (g_h (G coll m) (Some K)) = Some cp /\ fst (g_s (G coll m) (Some K)) = Some s /\
    g_cp (G coll m) (Some K) = Some cp /\
    snd (g_s (G coll m) (Some K)) = Some (cp / K) /\
    snd (g_e (G coll m) (Some K)) = Some (cp - gas_constant) /\
    snd (g_g (G coll m) (Some K)) = Some (- (s - SM coll m)) /\
    has_slope (fun t => fst (g_h (G coll m) t)) K cp /\
    has_slope (fun t => fst (g_s (G coll m) t)) K (cp / K) /\
    has_slope (fun t => fst (g_e (G coll m) t)) K (cp - gas_constant) /\
    has_slope (fun t => fst (g_g (G coll m) t)) K (- s).
  Proof.
    destruct member_slopes as (cp & h & s & M & SL). pose proof smooth_inside as HI.
    destruct (mix_values _ _ H K cp h s M Kpos) as (V1 & V2 & V3 & V4 & V5 & V6 & _).
    exists (wsum coll m cp), (wsum coll m s + SM coll m).
    rewrite V1, V2, V3, V4, V5. cbn [fst snd].
    split; [reflexivity|]. split; [reflexivity|]. split; [reflexivity|]. split; [reflexivity|]. split; [reflexivity|].
    split; [f_equal; ring|].
    assert (has_slope (fun t => fst (g_h (G coll m) t)) K (wsum coll m cp)) as SH.
    { pose proof (weighted_slope (fun g t => fst (g_h g t)) (fun _ v => v) cp (fun _ => 0)) as W.
      rewrite Rplus_0_r in * || idtac.
      assert (has_slope (fun t => match t with Some _ => weighted None coll (Xs coll m) (fun g => fst (g_h g t)) | None => None end) K (wsum coll m cp + 0)) as W'.
      { apply W.
        - intros t ss q Ht Hc. destruct (member_values _ _ H t Ht ss q Hc) as (c & hh & sv & V). exists hh. now rewrite (va_h _ _ _ _ _ V).
        - intros y v. f_equal. ring.
        - intros ss q Hc. apply (sl_h _ _ _ _ (SL _ _ Hc)).
        - apply derivable_pt_lim_const. }
      rewrite Rplus_0_r in W'. exact W'. }
    split; [exact SH|]. split.
    { assert (has_slope (fun t => match t with Some _ => fadd (weighted None coll (Xs coll m) (fun g => fst (g_s g t))) (Some (SM coll m)) | None => None end)
                K (wsum coll m (fun ss => cp ss / K) + 0)) as W.
      { apply (weighted_slope (fun g t => fst (g_s g t)) (fun _ v => fadd v (Some (SM coll m))) (fun ss => cp ss / K) (fun _ => SM coll m)).
        - intros t ss q Ht Hc. destruct (member_values _ _ H t Ht ss q Hc) as (c & hh & sv & V). exists sv. now rewrite (va_s _ _ _ _ _ V).
        - intros y v. reflexivity.
        - intros ss q Hc. apply (sl_s _ _ _ _ (SL _ _ Hc)).
        - apply derivable_pt_lim_const. }
      replace (wsum coll m (fun ss => cp ss / K) + 0) with (wsum coll m cp / K) in W.
      2:{ rewrite (wsum_ext coll m (fun ss => cp ss / K) (fun ss => / K * cp ss + 0 * cp ss)) by (intros; unfold Rdiv; ring).
          rewrite wsum_lin. unfold Rdiv. ring. }
      unfold has_slope in *. unfold G, mix_gas. cbn [g_s fst x_x mix_state]. unfold smix_of. cbn [x_smix mix_state].
      rewrite (mixing_val _ _ H). exact W. }
    split.
    { unfold has_slope in *. 
      apply (lim_local _ (fun y => value (fst (g_h (G coll m) (Some y))) + (- gas_constant) * y) K _ (Tlow (G coll m)) (Thigh (G coll m)) HI).
      - intros y Hy. unfold g_e. destruct (members_exist _ _ H y) as (c & hh & ss & My); [lra|].
        destruct (mix_values _ _ H y c hh ss My) as (_ & W2 & _); [destruct (G_low _ _ H); lra|].
        rewrite W2. cbn. rewrite Ru_gas. ring.
      - replace (wsum coll m cp - gas_constant) with (wsum coll m cp + (- gas_constant) * 1) by ring.
        apply (derivable_pt_lim_plus (fun y => value (fst (g_h (G coll m) (Some y)))) (fun y => (- gas_constant) * y)); [exact SH|].
        apply (derivable_pt_lim_scal id (- gas_constant) K 1). apply derivable_pt_lim_id. }
    assert (has_slope (fun t => match t with Some y => fsub (weighted None coll (Xs coll m) (fun g => fst (g_g g t))) (Some (y * SM coll m)) | None => None end)
              K (wsum coll m (fun ss => - s ss) + (- SM coll m))) as W.
    { apply (weighted_slope (fun g t => fst (g_g g t)) (fun y v => fsub v (Some (y * SM coll m))) (fun ss => - s ss) (fun y => (- SM coll m) * y)).
      - intros t ss q Ht Hc. destruct (member_values _ _ H t Ht ss q Hc) as (c & hh & sv & V). eexists. now rewrite (va_g _ _ _ _ _ V).
      - intros y v. cbn. f_equal. ring.
      - intros ss q Hc. apply (sl_g _ _ _ _ (SL _ _ Hc)).
      - pose proof (derivable_pt_lim_scal id (- SM coll m) K 1 (derivable_pt_lim_id K)) as DL. rewrite Rmult_1_r in DL. exact DL. }
    replace (wsum coll m (fun ss => - s ss) + - SM coll m) with (- (wsum coll m s + SM coll m)) in W.
    2:{ rewrite (wsum_ext coll m (fun ss => - s ss) (fun ss => (-1) * s ss + 0 * s ss)) by (intros; ring). rewrite wsum_lin. ring. }
    unfold has_slope in *. unfold G, mix_gas. cbn [g_g fst x_x mix_state]. unfold smix_of. cbn [x_smix mix_state].
    rewrite (mixing_val _ _ H). exact W.
  Qed.
End Slopes.

(* ---- a gas is what its routines and limits are ---- *)
Lemma gas_equal g1 g2 : Tlow g1 = Tlow g2 -> Thigh g1 = Thigh g2 -> g_mw g1 = g_mw g2 -> g_pref g1 = g_pref g2 ->
  g_cp g1 = g_cp g2 -> g_h g1 = g_h g2 -> g_s g1 = g_s g2 -> g_g g1 = g_g g2 ->
  forall q E varg kw, ideal_method q g1 E varg kw = ideal_method q g2 E varg kw.
Proof.
  destruct g1 as [l1 mw1 p1 cp1 h1 s1 gg1], g2 as [l2 mw2 p2 cp2 h2 s2 gg2].
  unfold Tlow, Thigh. cbn [g_Tlim g_mw g_pref g_cp g_h g_s g_g]. intros E1 E2 -> -> -> -> -> -> q E varg kw.
  assert (argparse {| g_Tlim := l1; g_mw := mw2; g_pref := p2; g_cp := cp2; g_h := h2; g_s := s2; g_g := gg2 |} E varg kw =
          argparse {| g_Tlim := l2; g_mw := mw2; g_pref := p2; g_cp := cp2; g_h := h2; g_s := s2; g_g := gg2 |} E varg kw) as A.
  { unfold argparse, solve_state, invert, bounds, out_of_range, Tlow, Thigh. cbn [g_Tlim g_mw g_pref g_cp g_h g_s g_g].
    rewrite E1, E2. reflexivity. }
  assert (forall kw', argparse {| g_Tlim := l1; g_mw := mw2; g_pref := p2; g_cp := cp2; g_h := h2; g_s := s2; g_g := gg2 |} E varg kw' =
          argparse {| g_Tlim := l2; g_mw := mw2; g_pref := p2; g_cp := cp2; g_h := h2; g_s := s2; g_g := gg2 |} E varg kw') as A'.
  { intro kw'. unfold argparse, solve_state, invert, bounds, out_of_range, Tlow, Thigh. cbn [g_Tlim g_mw g_pref g_cp g_h g_s g_g].
    rewrite E1, E2. reflexivity. }
  destruct q; cbn [ideal_method].
  - unfold m_T. rewrite A'. reflexivity.
  - unfold m_p. rewrite A. reflexivity.
  - unfold m_d. rewrite A. reflexivity.
  - unfold m_v, m_d. rewrite A. reflexivity.
  - unfold m_cp. rewrite A. reflexivity.
  - unfold m_cv. rewrite A. reflexivity.
  - unfold m_gam. rewrite A. reflexivity.
  - unfold m_h. rewrite A. reflexivity.
  - unfold m_e. rewrite A. reflexivity.
  - unfold m_s. rewrite A. reflexivity.
  - unfold m_g. rewrite A. reflexivity.
  - unfold m_f. rewrite A. reflexivity.
Qed.

Lemma one_constituent coll m ss q g : usable_mixture coll m -> m_contents m = [(ss, q)] -> gas_in coll ss g ->
  forall E uT kT kP kV kE kM, e_oob E = None -> units_known E (g_mw g) uT kT kP kV kE kM ->
  forall p varg kw, snd (mix_call coll m E fresh (CProp p varg kw)) =
    do a <- ideal_method p g E varg kw; Ok (VArr a).
Proof.
  intros H Hm Hg E uT kT kP kV kE kM Ho U p varg kw.
  assert (In (ss, q) (m_contents m)) as Hc by (rewrite Hm; now left).
  assert (member_gas None coll ss = g) as Eg.
  { unfold member_gas. destruct Hg as (D & a & [[-> ->]|[-> ->]]); reflexivity. }
  destruct (member_facts _ _ H _ _ Hc) as (_ & Emw & Epr & Hmw & Hpr & _). rewrite Eg in *.
  pose proof (kmol_pos _ _ H _ Hc) as Hk.
  assert (kmol_of coll (m_bymass m) (ss, q) / Nk coll m = 1) as Ex.
  { unfold Nk. rewrite Hm. cbn [sum_over]. field. lra. }
  assert (Xs coll m = [(ss, 1)]) as EX.
  { unfold Xs. rewrite Hm. cbn [map fst]. rewrite Ex. reflexivity. }
  assert (MW coll m = g_mw g) as EM.
  { rewrite MW_mean, EX. cbn [sum_over fst snd]. rewrite Emw. ring. }
  assert (PR coll m = g_pref g) as EP.
  { rewrite <- (exp_ln (PR coll m)) by apply exp_pos. rewrite ln_PR, EX. cbn [sum_over fst snd].
    replace (1 * ln (d_pref (Dof coll ss)) + 0) with (ln (d_pref (Dof coll ss))) by ring. rewrite <- Epr. apply exp_ln. exact Hpr. }
  assert (SM coll m = 0) as ES.
  { unfold SM. rewrite EX. cbn [sum_over snd]. rewrite ln_1. ring. }
  assert (mixing_entropy [(ss, 1)] = Some 0) as EMX.
  { rewrite <- EX. rewrite (mixing_val _ _ H), ES. reflexivity. }
  assert (forall r, weighted None coll [(ss, 1)] r = r g) as EW.
  { intro r. unfold weighted. cbn [fold_left fst snd]. rewrite Eg. destruct (r g) as [v|]; cbn; [f_equal; ring|reflexivity]. }
  rewrite (call_ideal _ _ H E uT kT kP kV kE kM p varg kw Ho).
  2:{ cbn [x_mw mix_state]. rewrite EM. exact U. }
  cbn [snd]. f_equal.
  destruct (mem _ _ H _ Hc) as (D & HL & _ & EDof & _). cbn [fst] in *.
  assert (g_Tlim g = d_Tlim D) as ET.
  { rewrite <- Eg. destruct (loaded_facts _ _ _ HL) as (_ & _ & _ & [-> | ->]); reflexivity. }
  apply gas_equal.
  - unfold Tlow, G, mix_gas. cbn [g_Tlim mix_state x_lo x_hi]. rewrite Hm. unfold low_of, high_of. cbn [fold_left omax omin nth].
    unfold tlo. cbn [fst]. rewrite EDof, ET. reflexivity.
  - unfold Thigh, G, mix_gas. cbn [g_Tlim mix_state x_lo x_hi]. rewrite Hm. unfold low_of, high_of. cbn [fold_left omax omin last].
    unfold thi. cbn [fst]. rewrite EDof, ET. reflexivity.
  - exact EM.
  - exact EP.
  - apply functional_extensionality. intro T. unfold G, mix_gas. cbn [g_cp x_x mix_state]. rewrite EX, EW. reflexivity.
  - apply functional_extensionality. intro T. unfold G, mix_gas. cbn [g_h x_x mix_state]. rewrite EX, !EW. destruct (g_h g T); reflexivity.
  - apply functional_extensionality. intro T. unfold G, mix_gas. cbn [g_s x_x mix_state]. unfold smix_of. cbn [x_smix mix_state].
    rewrite EX, !EW, EMX. destruct (g_s g T) as [[v|] d]; cbn; [f_equal; f_equal; ring|reflexivity].
  - apply functional_extensionality. intro T. unfold G, mix_gas. cbn [g_g x_x mix_state]. unfold smix_of. cbn [x_smix mix_state].
    rewrite EX, !EW, EMX.
    assert (forall t, fst (g_g g t) <> None -> t <> None) as HN.
    { intros t Ht ->. apply Ht. rewrite <- Eg. destruct (loaded_facts _ _ _ HL) as (_ & _ & _ & [-> | ->]);
        cbn [ig_gas ig2_gas g_g fst]; rewrite piecewise_nan; reflexivity. }
    specialize (HN T). destruct (g_g g T) as [[v|] d]; cbn [fst snd] in *.
    + destruct T as [t|]; [cbn; f_equal; f_equal; ring|]. exfalso. apply HN; [discriminate|reflexivity].
    + destruct T; reflexivity.
Qed.

(* ---- C38 ---- *)
Definition found (coll : collection) (c : string * R) : Prop := exists D, loaded coll (fst c) D /\ 0 < d_mw D.

Lemma boot_loop_missing coll bm ss q post : unusable coll ss -> forall pre o tx ty,
  Forall (found coll) pre -> NoDup (map fst (x_x o) ++ map fst pre) -> NoDup (map fst (x_y o) ++ map fst pre) ->
  exists o', boot_loop coll bm (pre ++ (ss, q) :: post) o tx ty = (o', Err PMDataError) /\
    x_bs o' = x_bs o /\ x_smix o' = x_smix o /\
    x_x o' = x_x o ++ map (fun c => (fst c, kmol_of coll bm c)) pre /\
    x_y o' = x_y o ++ map (fun c => (fst c, kg_of coll bm c)) pre.
Proof.
  intros Hun pre. induction pre as [|[s0 q0] pre IH]; intros o tx ty HF Hx Hy.
  - cbn [app boot_loop]. unfold constituent. exists o. cbn [map]. rewrite !app_nil_r.
    destruct Hun as [-> | ->]; auto.
  - inversion HF as [|? ? (D & HL & Hm) HF']; subst. cbn [fst] in HL.
    destruct (loaded_facts _ _ _ HL) as (Hc & HDof & Hmw & _).
    assert (forall (l : list (string * R)), NoDup (map fst l ++ s0 :: map fst pre) -> ~ In s0 (map fst l)) as Hnew.
    { intros l H Hin. apply NoDup_remove_2 in H. apply H. apply in_or_app. now left. }
    assert (forall (l : list (string * R)) v, NoDup (map fst l ++ s0 :: map fst pre) ->
              NoDup (map fst (l ++ [(s0, v)]) ++ map fst pre)) as Hnd.
    { intros l v H. rewrite map_app, <- app_assoc. exact H. }
    cbn [app boot_loop]. rewrite Hc. unfold add_spec.
    destruct (Req_EM_T (d_mw D) 0) as [|_]; [lra|]. rewrite Bool.andb_false_r. cbn [map fst] in Hx, Hy.
    match goal with |- exists o', boot_loop coll bm _ ?o1 ?tx1 ?ty1 = _ /\ _ =>
      destruct (IH o1 tx1 ty1 HF') as (o' & E & E1 & E2 & E3 & E4) end; cbn [x_x x_y] in *.
    + rewrite dset_new by auto. apply Hnd. exact Hx.
    + rewrite dset_new by auto. apply Hnd. exact Hy.
    + exists o'. split; [exact E|]. split; [exact E1|]. split; [exact E2|].
      rewrite dset_new in E3 by auto. rewrite dset_new in E4 by auto.
      rewrite E3, E4, <- !app_assoc. cbn [map app fst]. unfold kmol_of at 2, kg_of at 2. cbn [fst snd]. rewrite Hmw. split; reflexivity.
Qed.

Lemma NoDup_prefix {A} (l1 l2 : list A) : NoDup (l1 ++ l2) -> NoDup l1.
Proof.
  induction l1 as [|a l IH]; cbn [app]; intro H; [constructor|]. inversion H; subst. constructor; [|auto].
  intro Hin. apply H2. apply in_or_app. now left.
Qed.
(* the first constituent that cannot be used *)
Lemma first_missing coll (cs : list (string * R)) :
  (forall c, In c cs -> found coll c \/ unusable coll (fst c)) -> (exists c, In c cs /\ unusable coll (fst c)) ->
  exists pre ss q post, cs = pre ++ (ss, q) :: post /\ Forall (found coll) pre /\ unusable coll ss.
Proof.
  induction cs as [|[ss q] cs IH]; intros Ha (c & Hc & Hu); [destruct Hc|].
  destruct (Ha _ (or_introl eq_refl)) as [Hf|Hf]; cbn [fst] in Hf.
  - destruct Hc as [<-|Hc].
    + exfalso. destruct Hf as (D & (a & HL) & _). destruct Hu as [Hu|Hu], HL as [HL|HL]; cbn [fst] in *; rewrite HL in Hu; discriminate.
    + destruct IH as (pre & s & q' & post & -> & HF & Hun); [intros; apply Ha; now right|eauto|].
      exists ((ss, q) :: pre), s, q', post. repeat split; auto.
  - exists [], ss, q, cs. auto.
Qed.

Lemma missing_reported coll m E c : NoDup (map fst (m_contents m)) ->
  (forall ss q, In (ss, q) (m_contents m) -> (exists D, loaded coll ss D /\ 0 < d_mw D) \/ unusable coll ss) ->
  (exists ss q, In (ss, q) (m_contents m) /\ unusable coll ss) ->
  snd (mix_call coll m E fresh c) = Err PMDataError.
Proof.
  intros Hnd Ha (s1 & q1 & Hc & Hu).
  destruct (first_missing coll (m_contents m)) as (pre & ss & q & post & Em & HF & Hun).
  { intros [s q] Hin. apply (Ha s q Hin). } { exists (s1, q1). auto. }
  unfold mix_call, bootstrap. cbn [fresh x_bs x_smix]. rewrite Em.
  rewrite Em, map_app in Hnd.
  destruct (boot_loop_missing coll (m_bymass m) ss q post Hun pre
    {| x_bs := true; x_x := []; x_y := []; x_mw := 0; x_pref := 0; x_lo := None; x_hi := None; x_smix := None |} 0 0 HF)
    as (o' & EQ & _).
  - cbn [x_x map app]. eapply NoDup_prefix. exact Hnd.
  - cbn [x_y map app]. eapply NoDup_prefix. exact Hnd.
  - rewrite EQ. reflexivity.
Qed.

Lemma missing_then_silent coll m E c pre ss q post : NoDup (map fst (m_contents m)) ->
  m_contents m = pre ++ (ss, q) :: post -> unusable coll ss ->
  (forall s x, In (s, x) pre -> exists D, loaded coll s D /\ 0 < d_mw D) ->
  exists o, mix_call coll m E fresh c = (o, Err PMDataError) /\
    mix_call coll m E o CX = (o, Ok (VDict (map (fun c => (fst c, kmol_of coll (m_bymass m) c)) pre))) /\
    mix_call coll m E o CY = (o, Ok (VDict (map (fun c => (fst c, kg_of coll (m_bymass m) c)) pre))).
Proof.
  intros Hnd Em Hun Hpre. unfold mix_call at 1. unfold bootstrap. cbn [fresh x_bs x_smix]. rewrite Em.
  rewrite Em, map_app in Hnd.
  destruct (boot_loop_missing coll (m_bymass m) ss q post Hun pre
    {| x_bs := true; x_x := []; x_y := []; x_mw := 0; x_pref := 0; x_lo := None; x_hi := None; x_smix := None |} 0 0)
    as (o' & EQ & Eb & _ & E3 & E4).
  - apply Forall_forall. intros [s x] Hin. apply (Hpre s x Hin).
  - cbn [x_x map app]. eapply NoDup_prefix. exact Hnd.
  - cbn [x_y map app]. eapply NoDup_prefix. exact Hnd.
  - exists o'. rewrite EQ. split; [reflexivity|]. cbn [x_bs x_x x_y app] in *.
    unfold mix_call, bootstrap. rewrite Eb. cbn [mix_answer]. rewrite E3, E4. auto.
Qed.

(* ---- C63 ---- *)
Lemma call_after coll m E o c : x_bs o = true -> mix_call coll m E o c = (o, mix_answer c coll o E).
Proof. intro H. unfold mix_call, bootstrap. now rewrite H. Qed.
Lemma run_after coll m E o cs : x_bs o = true ->
  mix_run coll m E o cs = (o, map (fun c => mix_answer c coll o E) cs).
Proof.
  intro H. induction cs as [|c cs IH]; cbn [mix_run map]; [reflexivity|]. rewrite call_after by exact H. rewrite IH. reflexivity.
Qed.
Lemma history coll m E cs : usable_mixture coll m ->
  snd (mix_run coll m E fresh cs) = map (fun c => snd (mix_call coll m E fresh c)) cs.
Proof.
  intro H.
  assert (forall c, mix_call coll m E fresh c = (mix_state coll m, mix_answer c coll (mix_state coll m) E)) as K.
  { intro c. unfold mix_call. now rewrite (bootstrap_ok _ _ H). }
  destruct cs as [|c cs]; [reflexivity|]. cbn [mix_run map]. rewrite K.
  rewrite run_after by reflexivity. cbn [snd]. f_equal. apply map_ext. intro c'. rewrite K. reflexivity.
Qed.

(* ---- C64: atoms ---- *)
Definition dval (a : string) (d : list (string * R)) : R := match dget a d with Some v => v | None => 0 end.
Lemma dval_dset a k v d : dval a (dset k v d) = if String.eqb a k then v else dval a d.
Proof.
  unfold dval. destruct (String.eqb_spec a k) as [->|Hn]; [now rewrite dget_dset_same|].
  now rewrite dget_dset_other by exact Hn.
Qed.
Lemma add_atoms_val x l : forall acc a, NoDup (map fst l) ->
  dval a (add_atoms x acc l) = dval a acc + dval a l * x /\
  (In a (dkeys (add_atoms x acc l)) <-> In a (dkeys acc) \/ In a (map fst l)).
Proof.
  induction l as [|[k v] l IH]; intros acc a Hnd; cbn [add_atoms fold_left fst snd].
  - unfold dval at 3. cbn. split; [ring|tauto].
  - inversion Hnd as [|? ? Hni Hnd']; subst.
    change (fold_left _ l ?x) with (add_atoms x x l) || idtac.
    match goal with |- dval a (fold_left ?f l ?z) = _ /\ _ => change (fold_left f l z) with (add_atoms x z l) end.
    destruct (IH (dset k (match dget k acc with Some v0 => v0 | None => 0 end + v * x) acc) a Hnd') as (E1 & E2).
    split.
    + rewrite E1, dval_dset. unfold dval at 4. cbn [dget]. destruct (String.eqb_spec a k) as [->|Hn].
      * assert (dval k l = 0) as ->. { unfold dval. destruct (dget k l) eqn:E; [|reflexivity]. exfalso. apply Hni. apply dget_some_in in E. apply (in_map fst) in E. exact E. }
        unfold dval. ring.
      * unfold dval. ring.
    + rewrite E2. unfold dkeys at 1. fold (dkeys (dset k (match dget k acc with Some v0 => v0 | None => 0 end + v * x) acc)).
      rewrite dset_keys. cbn [map fst In]. intuition congruence.
Qed.
Lemma atoms_loop_val coll (at_of : string -> list (string * R)) xs : forall acc,
  (forall ss x, In (ss, x) xs -> member_atoms coll ss = Some (at_of ss) /\ NoDup (map fst (at_of ss))) ->
  exists d, atoms_loop coll xs acc = Ok d /\ forall a,
    dval a d = dval a acc + sum_over (fun c => snd c * dval a (at_of (fst c))) xs /\
    (In a (dkeys d) <-> In a (dkeys acc) \/ exists ss x, In (ss, x) xs /\ In a (map fst (at_of ss))).
Proof.
  induction xs as [|[ss x] xs IH]; intros acc Ha; cbn [atoms_loop].
  - exists acc. split; [reflexivity|]. intro a. cbn [sum_over]. split; [ring|]. split; [tauto|]. intros [?|(? & ? & [] & _)]; assumption.
  - destruct (Ha ss x (or_introl eq_refl)) as (E & Hnd). rewrite E.
    destruct (IH (add_atoms x acc (at_of ss))) as (d & Ed & Hd); [intros; eapply Ha; right; eassumption|].
    exists d. split; [exact Ed|]. intro a. destruct (Hd a) as (H1 & H2). destruct (add_atoms_val x (at_of ss) acc a Hnd) as (E1 & E2).
    split; [rewrite H1, E1; cbn [sum_over fst snd]; ring|].
    rewrite H2, E2. split.
    + intros [[?|?]|(s & y & Hin & ?)]; [now left|right; exists ss, x; split; [now left|assumption]|right; exists s, y; split; [now right|assumption]].
    + intros [?|(s & y & [K|Hin] & ?)]; [now left; left|injection K as <- <-; now left; right|right; eauto].
Qed.

(* C36-C38: calls on an ideal gas mixture. *)
From Coq Require Import Reals ZArith List String Lia Lra FunctionalExtensionality.
From Verif Require Import Base Model_Num Model_Units Model_Defaults Model_Igas Model_Igmix Spec_Units Spec_Igas
  Spec_Igmix Proof_Units Proof_Igas Proof_Igmix Proof_IgasUnits Proof_IgasState Proof_IgasArgs Proof_IgasCalls
  Proof_IgasRel Proof_IgasArr Proof_IgasProp.
Import ListNotations.
Local Open Scope R_scope.
Local Open Scope string_scope.
Local Open Scope list_scope.

(* ---- the conversions one after the other are the scale factors ---- *)
Section Conv.
  Variables (E : env) (g : gas) (uT : string) (kT kP kV kE kM : R).
  Hypothesis U : units_known E (g_mw g) uT kT kP kV kE kM.

  Let kTp : 0 < kT := kT_pos _ _ _ _ _ _ _ _ U.
  Let kVp : 0 < kV := kV_pos _ _ _ _ _ _ _ _ U.
  Let kEp : 0 < kE := kE_pos _ _ _ _ _ _ _ _ U.
  Let kMp : 0 < kM := kM_pos _ _ _ _ _ _ _ _ U.

  Lemma map_scaled k v : map (fmul (Some k)) v = scaled k v.
  Proof. apply map_ext. intros [x|]; cbn; [f_equal; ring|reflexivity]. Qed.

  Lemma out_energy_val v : out_energy g E v = Ok (scaled (kh kE kM) v).
  Proof.
    unfold out_energy, aconvert, amatter.
    rewrite (of_si _ _ _ _ _ _ _ _ U QEnergy 1 "kJ" 1000 None I eq_refl). cbn [bind].
    rewrite (matter_from _ _ _ _ _ _ _ _ U 1 "kmol" 1 (Some (-1)%Z) (kmol_size _ _)). cbn [bind].
    cbn [effective_exponent ksize Z.eqb]. rewrite zpow_1, zpow_m1, map_fmul, map_scaled.
    unfold kh. f_equal. f_equal. field. lra.
  Qed.
  Lemma out_heat_val v : out_heat g E v = Ok (scaled (ks kT kE kM) v).
  Proof.
    unfold out_heat, aconvert, amatter.
    rewrite (of_si _ _ _ _ _ _ _ _ U QEnergy 1 "kJ" 1000 None I eq_refl). cbn [bind].
    rewrite (matter_from _ _ _ _ _ _ _ _ U 1 "kmol" 1 (Some (-1)%Z) (kmol_size _ _)). cbn [bind].
    rewrite (of_si _ _ _ _ _ _ _ _ U QTemperature 1 "K" (9/5) (Some (-1)%Z) I eq_refl). cbn [bind].
    cbn [effective_exponent ksize Z.eqb]. rewrite zpow_1, !zpow_m1, !map_fmul, map_scaled.
    unfold ks. f_equal. f_equal. field. lra.
  Qed.
  Lemma out_density_val v : out_density g E v = Ok (scaled (kV / kM) v).
  Proof.
    unfold out_density, aconvert, amatter.
    rewrite (matter_from _ _ _ _ _ _ _ _ U 1 "kmol" 1 None (kmol_size _ _)). cbn [bind].
    rewrite (of_si _ _ _ _ _ _ _ _ U QVolume 1 "m3" 1 (Some (-1)%Z) I) by (cbn; f_equal; lra). cbn [bind].
    cbn [effective_exponent ksize Z.eqb]. rewrite zpow_1, !zpow_m1, !map_fmul, map_scaled.
    f_equal. f_equal. field. lra.
  Qed.

  Lemma mx_ideal q f varg kw : q <> Pf \/ (forall t, fst (f t) = fst (g_f g t)) ->
    match q with
    | PT => m_T g E varg kw | Pp => m_p g E varg kw | Pd => mx_d g E varg kw
    | Pv => mx_v g E varg kw | Pcp => mx_cp g E varg kw | Pcv => mx_cv g E varg kw
    | Pgam => m_gam g E varg kw | Ph => mx_h g E varg kw | Pe => mx_e g E varg kw
    | Ps => mx_s g E varg kw | Pg => mx_g g E varg kw
    | Pf => mx_f f g E varg kw
    end = ideal_method q g E varg kw.
  Proof.
    intro Hf.
    assert (mx_d g E varg kw = m_d g E varg kw) as Hd.
    { unfold mx_d. rewrite (m_d_val _ _ _ _ _ _ _ _ U).
      destruct (argparse g E varg kw) as [[[T p] d]|]; cbn [bind]; [apply out_density_val|reflexivity]. }
    destruct q; cbn [ideal_method]; try reflexivity.
    - exact Hd.
    - unfold mx_v, m_v. now rewrite Hd.
    - unfold mx_cp. rewrite (m_cp_val _ _ _ _ _ _ _ _ U).
      destruct (argparse g E varg kw) as [[[T p] d]|]; cbn [bind]; [apply out_heat_val|reflexivity].
    - unfold mx_cv. rewrite (m_cv_val _ _ _ _ _ _ _ _ U).
      destruct (argparse g E varg kw) as [[[T p] d]|]; cbn [bind]; [apply out_heat_val|reflexivity].
    - unfold mx_h. rewrite (m_h_val _ _ _ _ _ _ _ _ U).
      destruct (argparse g E varg kw) as [[[T p] d]|]; cbn [bind]; [apply out_energy_val|reflexivity].
    - unfold mx_e. rewrite (m_e_val _ _ _ _ _ _ _ _ U).
      destruct (argparse g E varg kw) as [[[T p] d]|]; cbn [bind]; [|reflexivity].
      rewrite out_energy_val. f_equal. f_equal. apply map_ext. intro t. unfold state_e, g_e.
      destruct (g_h g t); reflexivity.
    - unfold mx_s. rewrite (m_s_val _ _ _ _ _ _ _ _ U).
      destruct (argparse g E varg kw) as [[[T p] d]|]; cbn [bind]; [apply out_heat_val|reflexivity].
    - unfold mx_g. rewrite (m_g_val _ _ _ _ _ _ _ _ U).
      destruct (argparse g E varg kw) as [[[T p] d]|]; cbn [bind]; [apply out_energy_val|reflexivity].
    - destruct Hf as [Hf|Hf]; [contradiction|]. unfold mx_f. rewrite (m_f_val _ _ _ _ _ _ _ _ U).
      destruct (argparse g E varg kw) as [[[T p] d]|]; cbn [bind]; [|reflexivity].
      rewrite out_energy_val. f_equal. f_equal. unfold map2. apply map_ext. intros [t p']. unfold state_f.
      cbn [fst snd]. now rewrite Hf.
  Qed.
End Conv.

(* ---- the mixture's own free energy ---- *)
Section MixF.
  Variables (coll : collection) (m : mixdata).
  Hypothesis H : usable_mixture coll m.

  Lemma all_or_none (f : string -> fl) (l : list (string * R)) :
    (forall ss q, In (ss, q) l -> f ss = Some (value (f ss))) \/ (exists ss q, In (ss, q) l /\ f ss = None).
  Proof.
    induction l as [|[s0 q0] l [IH|(ss & q & Hin & E)]].
    - left. intros ? ? [].
    - destruct (f s0) as [v|] eqn:E; [left|right; exists s0, q0; split; [now left|exact E]].
      intros ss q [K|K]; [injection K as <- <-; rewrite E; reflexivity|eauto].
    - right. exists ss, q. split; [now right|exact E].
  Qed.

  Lemma mix_f_eq t : fst (mix_f None coll (mix_state coll m) t) = fst (g_f (G coll m) t).
  Proof.
    unfold g_f, mix_f, G, mix_gas. cbn [g_g fst snd x_x mix_state].
    unfold smix_of. cbn [x_smix mix_state].
    destruct (all_or_none (fun ss => fst (g_g (member_gas None coll ss) t)) (m_contents m)) as [A|(ss & q & Hc & A)].
    - destruct t as [t|].
      + rewrite (weighted_val coll m (fun g => fst (g_g g (Some t))) (fun ss => value (fst (g_g (member_gas None coll ss) (Some t))))) by exact A.
        rewrite (weighted_val coll m (fun g => fst (g_f g (Some t)))
                   (fun ss => value (fst (g_g (member_gas None coll ss) (Some t))) - const_Ru * t)).
        2:{ intros ss q Hc. specialize (A ss q Hc). cbv beta in A. unfold g_f. destruct (g_g (member_gas None coll ss) (Some t)) as [v gT].
            cbn [fst] in *. rewrite A. reflexivity. }
        rewrite (mixing_val _ _ H). cbn [fsub fmul lift2]. f_equal.
        change (wsum coll m (fun ss => value (fst (g_g (member_gas None coll ss) (Some t))) - const_Ru * t) - t * SM coll m =
                wsum coll m (fun ss => value (fst (g_g (member_gas None coll ss) (Some t)))) - t * SM coll m - const_Ru * t).
        rewrite (wsum_ext _ _ _ (fun ss => 1 * value (fst (g_g (member_gas None coll ss) (Some t))) + (- (const_Ru * t)) * 1)) by (intros; ring).
        rewrite (wsum_lin coll m 1 _ (- (const_Ru * t)) (fun _ => 1)), (wsum_const _ _ H). ring.
      + rewrite (weighted_none coll m (fun g => fst (g_f g None))).
        * unfold fsub, fmul, lift2. repeat match goal with |- context [match ?x with _ => _ end] => destruct x end; reflexivity.
        * destruct H as (Hne & _). destruct (m_contents m) as [|[ss q] l]; [contradiction|]. exists ss, q. split; [now left|].
          unfold g_f. destruct (g_g (member_gas None coll ss) None) as [[v|] gT]; reflexivity.
    - rewrite (weighted_none coll m (fun g => fst (g_g g t))) by eauto.
      rewrite (weighted_none coll m (fun g => fst (g_f g t))).
      + reflexivity.
      + exists ss, q. split; [exact Hc|]. unfold g_f. destruct (g_g (member_gas None coll ss) t) as [v gT]. cbn [fst] in *. rewrite A. reflexivity.
  Qed.

  Lemma call_ideal E uT kT kP kV kE kM q varg kw : e_oob E = None ->
    units_known E (x_mw (mix_state coll m)) uT kT kP kV kE kM ->
    mix_call coll m E fresh (CProp q varg kw) =
    (mix_state coll m, do a <- ideal_method q (G coll m) E varg kw; Ok (VArr a)).
  Proof.
    intros Ho U. unfold mix_call. rewrite (bootstrap_ok _ _ H). unfold mix_answer. cbn [x_smix mix_state].
    unfold mx_method. rewrite Ho. fold (G coll m). f_equal.
    change (x_mw (mix_state coll m)) with (g_mw (G coll m)) in U.
    rewrite <- (mx_ideal E (G coll m) _ _ _ _ _ _ U q (mix_f None coll (mix_state coll m)) varg kw) by (right; exact mix_f_eq).
    destruct q; reflexivity.
  Qed.
End MixF.

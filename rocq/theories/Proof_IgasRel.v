(* C32 and C33: relations between the reported ideal gas properties. *)
From Coq Require Import Reals ZArith List String Bool Lia Lra.
From Verif Require Import Base Model_Num Model_Units Model_Defaults Model_Igas Spec_Units Proof_Units
  Proof_Defaults Spec_Igas Proof_Igas Proof_Iter Proof_IgasUnits Proof_IgasState Proof_IgasArgs Proof_IgasCalls.
Import ListNotations.
Local Open Scope R_scope.
Local Open Scope string_scope.
Local Open Scope list_scope.

Section Rel.
  Variables (E : env) (g : gas) (uT : string) (kT kP kV kE kM : R).
  Hypothesis S : species E g.
  Hypothesis U : units_known E (g_mw g) uT kT kP kV kE kM.

  Let kTp : 0 < kT := kT_pos _ _ _ _ _ _ _ _ U.
  Let kPp : 0 < kP := kP_pos _ _ _ _ _ _ _ _ U.
  Let kVp : 0 < kV := kV_pos _ _ _ _ _ _ _ _ U.
  Let kEp : 0 < kE := kE_pos _ _ _ _ _ _ _ _ U.
  Let kMp : 0 < kM := kM_pos _ _ _ _ _ _ _ _ U.

  Definition kh := 1000 / kE * kM.
  Definition ks := 1000 / kE * kM * (kT / (9/5)).
  Lemma kh_pos : 0 < kh.
  Proof. unfold kh. apply Rmult_lt_0_compat; [apply Rdiv_lt_0_compat; lra|exact kMp]. Qed.
  Lemma ks_pos : 0 < ks.
  Proof. unfold ks. fold kh. pose proof kh_pos. apply Rmult_lt_0_compat; [assumption|lra]. Qed.
  Let khp : 0 < kh := kh_pos.
  Let ksp : 0 < ks := ks_pos.

  Definition state_s (t p : fl) : fl := fsub (fst (g_s g t)) (fmul (Some const_Ru) (log_p g p)).
  Definition state_g (t p : fl) : fl := fadd (fst (g_g g t)) (fmul (fmul t (Some const_Ru)) (log_p g p)).
  Definition state_f (t p : fl) : fl := fadd (fst (g_f g t)) (fmul (fmul t (Some const_Ru)) (log_p g p)).
  Definition state_e (t : fl) : fl := fsub (fst (g_h g t)) (fmul (Some const_Ru) t).

  Lemma m_cp_val varg kw : m_cp g E varg kw =
    do st <- argparse g E varg kw; match st with (T, _, _) => Ok (scaled ks (map (g_cp g) T)) end.
  Proof. unfold m_cp. rewrite (heat_out _ _ _ _ _ _ _ _ U g eq_refl). reflexivity. Qed.
  Lemma m_cv_val varg kw : m_cv g E varg kw =
    do st <- argparse g E varg kw; match st with (T, _, _) =>
      Ok (scaled ks (map (fun t => fsub (g_cp g t) (Some const_Ru)) T)) end.
  Proof. unfold m_cv. rewrite (heat_out _ _ _ _ _ _ _ _ U g eq_refl). reflexivity. Qed.
  Lemma m_h_val varg kw : m_h g E varg kw =
    do st <- argparse g E varg kw; match st with (T, _, _) =>
      Ok (scaled kh (map (fun t => fst (g_h g t)) T)) end.
  Proof. unfold m_h. rewrite (energy_out _ _ _ _ _ _ _ _ U g eq_refl). reflexivity. Qed.
  Lemma m_e_val varg kw : m_e g E varg kw =
    do st <- argparse g E varg kw; match st with (T, _, _) => Ok (scaled kh (map state_e T)) end.
  Proof. unfold m_e. rewrite (energy_e_out _ _ _ _ _ _ _ _ U g eq_refl). reflexivity. Qed.
  Lemma m_g_val varg kw : m_g g E varg kw =
    do st <- argparse g E varg kw; match st with (T, p, d) =>
      Ok (scaled kh (map2 state_g T (the_p T p d))) end.
  Proof. unfold m_g. rewrite (energy_out _ _ _ _ _ _ _ _ U g eq_refl). reflexivity. Qed.
  Lemma m_f_val varg kw : m_f g E varg kw =
    do st <- argparse g E varg kw; match st with (T, p, d) =>
      Ok (scaled kh (map2 state_f T (the_p T p d))) end.
  Proof. unfold m_f. rewrite (energy_out _ _ _ _ _ _ _ _ U g eq_refl). reflexivity. Qed.
  Lemma m_s_val varg kw : m_s g E varg kw =
    do st <- argparse g E varg kw; match st with (T, p, d) =>
      Ok (scaled ks (map2 state_s T (the_p T p d))) end.
  Proof. unfold m_s. rewrite (heat_out _ _ _ _ _ _ _ _ U g eq_refl). reflexivity. Qed.
  Lemma m_R_val : m_R g E = Ok (const_Ru * ks).
  Proof. apply (R_out _ _ _ _ _ _ _ _ U g eq_refl). Qed.

  Lemma scaled_nth k l i x : nth_error (scaled k l) i = Some (Some x) <->
    exists y, nth_error l i = Some (Some y) /\ x = y * k.
  Proof.
    unfold scaled. rewrite nth_map. split.
    - intros ([y|] & Hy & He); [|discriminate]. cbn in He. injection He as ->. eauto.
    - intros (y & Hy & ->). exists (Some y). auto.
  Qed.

  (* cp - cv = R and gam = cp / cv *)
  Lemma cp_cv_R varg kw CP CV GA r i cp cv ga :
    m_cp g E varg kw = Ok CP -> m_cv g E varg kw = Ok CV -> m_gam g E varg kw = Ok GA ->
    m_R g E = Ok r ->
    nth_error CP i = Some (Some cp) -> nth_error CV i = Some (Some cv) -> nth_error GA i = Some (Some ga) ->
    cp - cv = r /\ ga * cv = cp.
  Proof.
    rewrite m_cp_val, m_cv_val, m_R_val. unfold m_gam.
    destruct (argparse g E varg kw) as [[[T p] d]|]; cbn [bind]; [|discriminate].
    intros H1 H2 H3 H4 Hcp Hcv Hga. injection H1 as <-. injection H2 as <-. injection H3 as <-. injection H4 as <-.
    apply scaled_nth in Hcp. destruct Hcp as (y1 & Hy1 & ->).
    apply scaled_nth in Hcv. destruct Hcv as (y2 & Hy2 & ->).
    apply nth_map in Hy1. destruct Hy1 as (t & Ht & E1).
    apply nth_map in Hy2. destruct Hy2 as (t' & Ht' & E2). rewrite Ht in Ht'. injection Ht' as <-.
    apply nth_map in Hga. destruct Hga as (t' & Ht' & E3). rewrite Ht in Ht'. injection Ht' as <-.
    rewrite <- E1 in E2, E3. cbn in E2, E3. injection E2 as ->.
    destruct (Req_EM_T (y1 - const_Ru) 0) as [|Hn]; [discriminate|]. injection E3 as ->.
    split; [ring|]. field. exact Hn.
  Qed.

  (* h - e = R Tabs, g = h - Tabs s, f = e - Tabs s *)
  Lemma energies varg kw Ts Hs Es Ss Gs Fs r i T K h e s gg f :
    (List.length varg + List.length kw <> 1)%nat ->
    m_T g E varg kw = Ok Ts -> m_h g E varg kw = Ok Hs -> m_e g E varg kw = Ok Es ->
    m_s g E varg kw = Ok Ss -> m_g g E varg kw = Ok Gs -> m_f g E varg kw = Ok Fs -> m_R g E = Ok r ->
    nth_error Ts i = Some (Some T) -> nth_error Hs i = Some (Some h) ->
    nth_error Es i = Some (Some e) -> nth_error Ss i = Some (Some s) ->
    nth_error Gs i = Some (Some gg) -> nth_error Fs i = Some (Some f) ->
    temperature_scale (e_cfg E) T None (Some "K") = Ok K ->
    let Tabs := K * (9/5) / kT in
    h - e = r * Tabs /\ gg = h - Tabs * s /\ f = e - Tabs * s.
  Proof.
    intros Hl. rewrite m_h_val, m_e_val, m_s_val, m_g_val, m_f_val, m_R_val.
    rewrite (m_T_val _ _ _ _ _ _ _ _ U) by exact Hl.
    destruct (argparse g E varg kw) as [[[T0 p] d]|] eqn:A; cbn [bind fst]; [|discriminate].
    intros H1 H2 H3 H4 H5 H6 H7. injection H1 as <-. injection H2 as <-. injection H3 as <-.
    injection H4 as <-. injection H5 as <-. injection H6 as <-. injection H7 as <-.
    intros HT Hh He Hs' Hg Hf HK. apply (tscale_K _ _ _ _ _ _ _ _ U) in HK. subst K.
    apply nth_map in HT. destruct HT as ([t|] & Ht & Ht'); [|discriminate].
    cbn in Ht'. injection Ht' as ->. rewrite to_from_kelvin.
    destruct (species_low _ _ S) as (Ho & Hlow & Hpr & _).
    destruct (state_elem _ _ _ _ _ _ _ _ U Ho Hlow _ _ _ _ _ _ _ A Ht) as (Hr & pf & df & Hpf & _).
    destruct (species_values _ _ _ S Hr) as (cp0 & h0 & s0 & [_ Vh Vs Vg Ve Vf]).
    apply scaled_nth in Hh, He, Hs', Hg, Hf.
    destruct Hh as (h1 & Hh & ->), He as (e1 & He & ->), Hs' as (s1 & Hs' & ->), Hg as (g1 & Hg & ->), Hf as (f1 & Hf & ->).
    apply nth_map in Hh. destruct Hh as (t' & Ht1 & Hh). rewrite Ht in Ht1. injection Ht1 as <-.
    apply nth_map in He. destruct He as (t' & Ht1 & He). rewrite Ht in Ht1. injection Ht1 as <-.
    apply nth_map2 in Hs'. destruct Hs' as (t' & p' & Ht1 & Hp1 & Hs'). rewrite Ht in Ht1. rewrite Hpf in Hp1.
    injection Ht1 as <-. injection Hp1 as <-.
    apply nth_map2 in Hg. destruct Hg as (t' & p' & Ht1 & Hp1 & Hg). rewrite Ht in Ht1. rewrite Hpf in Hp1.
    injection Ht1 as <-. injection Hp1 as <-.
    apply nth_map2 in Hf. destruct Hf as (t' & p' & Ht1 & Hp1 & Hf). rewrite Ht in Ht1. rewrite Hpf in Hp1.
    injection Ht1 as <-. injection Hp1 as <-.
    unfold state_e in He. unfold state_s in Hs'. unfold state_g in Hg. unfold state_f in Hf.
    rewrite Vh in Hh, He. rewrite Vs in Hs'. rewrite Vg in Hg. rewrite Vf in Hf. cbn [fst] in *.
    destruct (log_p g pf) as [lp|]; cbn in Hs', Hg, Hf; try discriminate.
    injection Hh as ->. injection He as ->. injection Hs' as ->. injection Hg as ->. injection Hf as ->.
    rewrite <- Ru_gas. unfold ks. fold kh.
    repeat split; field; lra.
  Qed.
End Rel.

(* ---- two unit configurations ---- *)
Section Two.
  Variables (E1 E2 : env) (g : gas) (z1 z2 : sizes).
  Hypothesis U1 : has_sizes E1 (g_mw g) z1.
  Hypothesis U2 : has_sizes E2 (g_mw g) z2.
  Hypothesis Hoob : e_oob E1 = e_oob E2.

  Let kT1p : 0 < z_kT z1 := kT_pos _ _ _ _ _ _ _ _ U1.
  Let kP1p : 0 < z_kP z1 := kP_pos _ _ _ _ _ _ _ _ U1.
  Let kV1p : 0 < z_kV z1 := kV_pos _ _ _ _ _ _ _ _ U1.
  Let kE1p : 0 < z_kE z1 := kE_pos _ _ _ _ _ _ _ _ U1.
  Let kM1p : 0 < z_kM z1 := kM_pos _ _ _ _ _ _ _ _ U1.
  Let kT2p : 0 < z_kT z2 := kT_pos _ _ _ _ _ _ _ _ U2.
  Let kP2p : 0 < z_kP z2 := kP_pos _ _ _ _ _ _ _ _ U2.
  Let kV2p : 0 < z_kV z2 := kV_pos _ _ _ _ _ _ _ _ U2.
  Let kE2p : 0 < z_kE z2 := kE_pos _ _ _ _ _ _ _ _ U2.
  Let kM2p : 0 < z_kM z2 := kM_pos _ _ _ _ _ _ _ _ U2.

  Lemma map_same {A B C} (P : A -> B -> Prop) (f : A -> C) (h : B -> C) l m :
    (forall a b, P a b -> f a = h b) -> Forall2 P l m -> map f l = map h m.
  Proof. intros H. induction 1; cbn; [reflexivity|]. f_equal; auto. Qed.

  Notation sq k := (same_quantity k E1 E2 z1 z2).

  Lemma sq_T a b : Forall2 (sq KTemp) a b -> inT (z_T z1) a = inT (z_T z2) b.
  Proof.
    apply map_same. intros [x|] [y|]; cbn; try tauto. intros (K & H1 & H2).
    apply (tscale_K _ _ _ _ _ _ _ _ U1) in H1. apply (tscale_K _ _ _ _ _ _ _ _ U2) in H2. congruence.
  Qed.
  Lemma sq_P a b : Forall2 (sq KPres) a b -> inP (z_kP z1) a = inP (z_kP z2) b.
  Proof. apply map_same. intros [x|] [y|]; cbn; try tauto. intro H. f_equal. lra. Qed.
  Lemma sq_D a b : Forall2 (sq KDens) a b -> inD (z_kV z1) (z_kM z1) a = inD (z_kV z2) (z_kM z2) b.
  Proof.
    apply map_same. intros [x|] [y|]; cbn; try tauto. intro H. f_equal.
    replace (z_kM z1 / z_kV z1 * x) with (x * z_kM z1 / z_kV z1) by (field; lra). rewrite H. field. lra.
  Qed.
  Lemma sq_V a b : Forall2 (sq KVol) a b -> inV (z_kV z1) (z_kM z1) a = inV (z_kV z2) (z_kM z2) b.
  Proof.
    apply map_same. intros [x|] [y|]; cbn [same_quantity]; try tauto. intro H. f_equal. cbn. f_equal.
    replace (z_kV z1 / z_kM z1 * x) with (x * z_kV z1 / z_kM z1) by (field; lra). rewrite H. field. lra.
  Qed.
  Lemma sq_H a b : Forall2 (sq KEnergy) a b -> inH (z_kE z1) (z_kM z1) a = inH (z_kE z2) (z_kM z2) b.
  Proof.
    apply map_same. intros [x|] [y|]; cbn; try tauto. intro H. f_equal.
    replace (z_kE z1 / 1000 / z_kM z1 * x) with (x * z_kE z1 / z_kM z1 / 1000) by (field; lra). rewrite H. field. lra.
  Qed.
  Lemma sq_S a b : Forall2 (sq KHeat) a b ->
    inS (z_kT z1) (z_kE z1) (z_kM z1) a = inS (z_kT z2) (z_kE z2) (z_kM z2) b.
  Proof.
    apply map_same. intros [x|] [y|]; cbn; try tauto. intro H. f_equal.
    replace (z_kE z1 / 1000 / z_kM z1 / (z_kT z1 / (9/5)) * x) with (x * z_kE z1 / z_kM z1 / z_kT z1 * (9/5) / 1000) by (field; lra).
    rewrite H. field. lra.
  Qed.

  Lemma same_dget kw1 kw2 n : same_arguments E1 E2 z1 z2 kw1 kw2 ->
    match dget n kw1, dget n kw2 with
    | Some a, Some b => Forall2 (sq (kind_of n)) a b
    | None, None => True
    | _, _ => False
    end.
  Proof.
    intros [_ H]. induction H as [|[k a] [k' b] l m [Hk Hab] _ IH]; cbn; [exact I|].
    cbn in Hk, Hab. subst k'. destruct (String.eqb_spec n k) as [->|]; [exact Hab|exact IH].
  Qed.

  Lemma same_state kw1 kw2 : same_arguments E1 E2 z1 z2 kw1 kw2 ->
    argparse g E1 [] kw1 = argparse g E2 [] kw2.
  Proof.
    intro H. pose proof (fun n => same_dget kw1 kw2 n H) as K.
    assert (dkeys kw1 = dkeys kw2) as Hk.
    { destruct H as [_ H]. clear K. induction H as [|? ? ? ? [Hk _] _ IH]; cbn; [reflexivity|]. f_equal; assumption. }
    assert (List.length kw2 = 2%nat) as Hl2.
    { destruct H as [Hl _]. rewrite <- Hl. apply (f_equal (@List.length _)) in Hk. unfold dkeys in Hk. now rewrite !map_length in Hk. }
    assert (solve_state g E1 kw1 = solve_state g E2 kw2) as Hs.
    { rewrite (solve_units _ _ _ _ _ _ _ _ U1), (solve_units _ _ _ _ _ _ _ _ U2).
      f_equal; [pose proof (K "T") as Q|pose proof (K "p") as Q|pose proof (K "d") as Q|pose proof (K "v") as Q
               |pose proof (K "h") as Q|pose proof (K "e") as Q|pose proof (K "s") as Q];
        match type of Q with context [dget ?n kw1] =>
          destruct (dget n kw1), (dget n kw2); cbn [option_map]; try contradiction; try reflexivity; f_equal end;
        [apply sq_T|apply sq_P|apply sq_D|apply sq_V|apply sq_H|apply sq_H|apply sq_S]; exact Q. }
    assert (rules kw1 = rules kw2) as Hr.
    { destruct (rules_spec kw1) as [[R1 L1]|[R1 L1]], (rules_spec kw2) as [[R2 L2]|[R2 L2]];
        rewrite R1, R2; try reflexivity; exfalso; rewrite Hk in L1; contradiction. }
    destruct H as [Hl _]. unfold argparse, positional. cbn [bind List.length Nat.ltb Nat.leb].
    unfold defaults. rewrite Hl, Hl2. cbn [bind]. rewrite Hr. destruct (rules kw2); cbn [bind]; [|reflexivity].
    rewrite Hs. destruct (solve_state g E2 kw2) as [[[T p] d]|]; cbn [bind]; [|reflexivity].
    unfold bounds. rewrite Hoob. reflexivity.
  Qed.

  Lemma F2_map {A B} (P : B -> B -> Prop) (f h : A -> B) l : (forall x, P (f x) (h x)) -> Forall2 P (map f l) (map h l).
  Proof. intro H. induction l; cbn; constructor; auto. Qed.
  Lemma F2_scaled k a b l :
    (forall r, sq k (Some (r * a)) (Some (r * b))) -> Forall2 (sq k) (scaled a l) (scaled b l).
  Proof. intro H. apply F2_map. intros [x|]; cbn [fmul lift2]; [apply H|exact I]. Qed.

  Lemma units_T kw1 kw2 : same_arguments E1 E2 z1 z2 kw1 kw2 ->
    same_outcome KTemp E1 E2 z1 z2 (m_T g E1 [] kw1) (m_T g E2 [] kw2).
  Proof.
    intro H. assert (List.length kw1 = 2%nat) as L1 by apply H.
    assert (List.length kw2 = 2%nat) as L2. { rewrite <- L1. symmetry. destruct H as [_ H]. exact (F2_length _ _ _ H). }
    rewrite (m_T_val _ _ _ _ _ _ _ _ U1) by (cbn; lia). rewrite (m_T_val _ _ _ _ _ _ _ _ U2) by (cbn; lia).
    rewrite (same_state _ _ H). destruct (argparse g E2 [] kw2) as [[[T p] d]|]; cbn [bind same_outcome fst]; [|reflexivity].
    apply F2_map. intros [x|]; [|exact I]. exists x.
    split; [apply (tscale_K _ _ _ _ _ _ _ _ U1)|apply (tscale_K _ _ _ _ _ _ _ _ U2)]; cbn; now rewrite to_from_kelvin.
  Qed.

  Ltac two lem := let H := fresh "H" in intro H; rewrite (lem _ _ _ _ _ _ _ _ U1), (lem _ _ _ _ _ _ _ _ U2);
    rewrite (same_state _ _ H);
    match goal with |- context [argparse g E2 [] ?k] =>
      destruct (argparse g E2 [] k) as [[[T p] d]|]; cbn [bind same_outcome]; [|reflexivity] end.

  Lemma units_p kw1 kw2 : same_arguments E1 E2 z1 z2 kw1 kw2 ->
    same_outcome KPres E1 E2 z1 z2 (m_p g E1 [] kw1) (m_p g E2 [] kw2).
  Proof. two m_p_val. apply F2_map. intros [x|]; cbn; [field; lra|exact I]. Qed.
  Lemma units_d kw1 kw2 : same_arguments E1 E2 z1 z2 kw1 kw2 ->
    same_outcome KDens E1 E2 z1 z2 (m_d g E1 [] kw1) (m_d g E2 [] kw2).
  Proof. two m_d_val. apply F2_scaled. intro r. cbn. field. lra. Qed.
  Lemma units_v kw1 kw2 : same_arguments E1 E2 z1 z2 kw1 kw2 ->
    same_outcome KVol E1 E2 z1 z2 (m_v g E1 [] kw1) (m_v g E2 [] kw2).
  Proof.
    unfold m_v. two m_d_val. unfold scaled. rewrite !map_map. apply F2_map. intros [x|]; [|exact I].
    unfold reciprocal. cbn.
    assert (0 < z_kV z1 / z_kM z1) by (apply Rdiv_lt_0_compat; lra).
    assert (0 < z_kV z2 / z_kM z2) by (apply Rdiv_lt_0_compat; lra).
    destruct (Req_EM_T (x * (z_kV z1 / z_kM z1)) 0) as [e|n], (Req_EM_T (x * (z_kV z2 / z_kM z2)) 0) as [e'|n']; cbn; auto.
    - apply Rmult_integral in e. destruct e as [->|]; [|lra]. apply n'. ring.
    - apply Rmult_integral in e'. destruct e' as [->|]; [|lra]. apply n. ring.
    - field. repeat split; try lra. intros ->. apply n. ring.
  Qed.
  Lemma units_h kw1 kw2 : same_arguments E1 E2 z1 z2 kw1 kw2 ->
    same_outcome KEnergy E1 E2 z1 z2 (m_h g E1 [] kw1) (m_h g E2 [] kw2).
  Proof. two m_h_val. apply F2_scaled. intro r. cbn. unfold kh. field. lra. Qed.
  Lemma units_e kw1 kw2 : same_arguments E1 E2 z1 z2 kw1 kw2 ->
    same_outcome KEnergy E1 E2 z1 z2 (m_e g E1 [] kw1) (m_e g E2 [] kw2).
  Proof. two m_e_val. apply F2_scaled. intro r. cbn. unfold kh. field. lra. Qed.
  Lemma units_g kw1 kw2 : same_arguments E1 E2 z1 z2 kw1 kw2 ->
    same_outcome KEnergy E1 E2 z1 z2 (m_g g E1 [] kw1) (m_g g E2 [] kw2).
  Proof. two m_g_val. apply F2_scaled. intro r. cbn. unfold kh. field. lra. Qed.
  Lemma units_f kw1 kw2 : same_arguments E1 E2 z1 z2 kw1 kw2 ->
    same_outcome KEnergy E1 E2 z1 z2 (m_f g E1 [] kw1) (m_f g E2 [] kw2).
  Proof. two m_f_val. apply F2_scaled. intro r. cbn. unfold kh. field. lra. Qed.
  Lemma units_s kw1 kw2 : same_arguments E1 E2 z1 z2 kw1 kw2 ->
    same_outcome KHeat E1 E2 z1 z2 (m_s g E1 [] kw1) (m_s g E2 [] kw2).
  Proof. two m_s_val. apply F2_scaled. intro r. cbn. unfold ks. field. lra. Qed.
  Lemma units_cp kw1 kw2 : same_arguments E1 E2 z1 z2 kw1 kw2 ->
    same_outcome KHeat E1 E2 z1 z2 (m_cp g E1 [] kw1) (m_cp g E2 [] kw2).
  Proof. two m_cp_val. apply F2_scaled. intro r. cbn. unfold ks. field. lra. Qed.
  Lemma units_cv kw1 kw2 : same_arguments E1 E2 z1 z2 kw1 kw2 ->
    same_outcome KHeat E1 E2 z1 z2 (m_cv g E1 [] kw1) (m_cv g E2 [] kw2).
  Proof. two m_cv_val. apply F2_scaled. intro r. cbn. unfold ks. field. lra. Qed.
  Lemma units_gam kw1 kw2 : same_arguments E1 E2 z1 z2 kw1 kw2 ->
    same_outcome KNumber E1 E2 z1 z2 (m_gam g E1 [] kw1) (m_gam g E2 [] kw2).
  Proof.
    intro H. unfold m_gam. rewrite (same_state _ _ H).
    destruct (argparse g E2 [] kw2) as [[[T p] d]|]; cbn [bind same_outcome]; [|reflexivity].
    apply F2_map. intro x. destruct (fdiv _ _); cbn; auto.
  Qed.
  Lemma units_all kw1 kw2 : same_arguments E1 E2 z1 z2 kw1 kw2 ->
    same_outcome KTemp E1 E2 z1 z2 (m_T g E1 [] kw1) (m_T g E2 [] kw2) /\
    same_outcome KPres E1 E2 z1 z2 (m_p g E1 [] kw1) (m_p g E2 [] kw2) /\
    same_outcome KDens E1 E2 z1 z2 (m_d g E1 [] kw1) (m_d g E2 [] kw2) /\
    same_outcome KVol E1 E2 z1 z2 (m_v g E1 [] kw1) (m_v g E2 [] kw2) /\
    same_outcome KEnergy E1 E2 z1 z2 (m_h g E1 [] kw1) (m_h g E2 [] kw2) /\
    same_outcome KEnergy E1 E2 z1 z2 (m_e g E1 [] kw1) (m_e g E2 [] kw2) /\
    same_outcome KEnergy E1 E2 z1 z2 (m_g g E1 [] kw1) (m_g g E2 [] kw2) /\
    same_outcome KEnergy E1 E2 z1 z2 (m_f g E1 [] kw1) (m_f g E2 [] kw2) /\
    same_outcome KHeat E1 E2 z1 z2 (m_s g E1 [] kw1) (m_s g E2 [] kw2) /\
    same_outcome KHeat E1 E2 z1 z2 (m_cp g E1 [] kw1) (m_cp g E2 [] kw2) /\
    same_outcome KHeat E1 E2 z1 z2 (m_cv g E1 [] kw1) (m_cv g E2 [] kw2) /\
    same_outcome KNumber E1 E2 z1 z2 (m_gam g E1 [] kw1) (m_gam g E2 [] kw2).
  Proof.
    intro H. auto 15 using units_T, units_p, units_d, units_v, units_h, units_e, units_g, units_f,
      units_s, units_cp, units_cv, units_gam.
  Qed.
  Lemma units_R : exists r1 r2, m_R g E1 = Ok r1 /\ m_R g E2 = Ok r2 /\ sq KHeat (Some r1) (Some r2).
  Proof.
    exists (const_Ru * ks (z_kT z1) (z_kE z1) (z_kM z1)), (const_Ru * ks (z_kT z2) (z_kE z2) (z_kM z2)).
    split; [apply (m_R_val _ _ _ _ _ _ _ _ U1)|]. split; [apply (m_R_val _ _ _ _ _ _ _ _ U2)|].
    cbn. unfold ks. field. lra.
  Qed.
End Two.

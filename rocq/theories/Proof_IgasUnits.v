(* Unit factors used by the ideal gas methods. *)
From Coq Require Import Reals ZArith List String Lia Lra.
From Verif Require Import Base Model_Num Model_Units Model_Igas Spec_Units Proof_Units Spec_Igas.
Import ListNotations.
Local Open Scope R_scope.
Local Open Scope string_scope.

Lemma fmul_fmul a b x : fmul (Some a) (fmul (Some b) x) = fmul (Some (a * b)) x.
Proof. destruct x; cbn; [f_equal; ring|reflexivity]. Qed.
Lemma map_fmul a b v : map (fmul (Some a)) (map (fmul (Some b)) v) = map (fmul (Some (a * b))) v.
Proof. rewrite map_map. apply map_ext. intro. apply fmul_fmul. Qed.
Lemma zpow_m1 x : zpow x (-1) = / x.
Proof. unfold zpow. change (Pos.to_nat 1) with 1%nat. now rewrite pow_1. Qed.

Section Units.
  Variables (E : env) (mw : R) (uT : string) (kT kP kV kE kM : R).
  Hypothesis U : units_known E mw uT kT kP kV kE kM.
  Let s := e_setup E.
  Let c := e_cfg E.

  Lemma kT_pos : 0 < kT. Proof. destruct U. eapply si_pos; eauto. Qed.
  Lemma kP_pos : 0 < kP. Proof. destruct U. destruct uk_P as (u & _ & H). eapply si_pos; eauto. Qed.
  Lemma kV_pos : 0 < kV. Proof. destruct U. destruct uk_V as (u & _ & H). eapply si_pos; eauto. Qed.
  Lemma kE_pos : 0 < kE. Proof. destruct U. destruct uk_E as (u & _ & H). eapply si_pos; eauto. Qed.
  Lemma kM_pos : 0 < kM. Proof. destruct U. destruct uk_M as (u & _ & H). eapply kmoles_pos; eauto. Qed.

  Definition ksize (q : quantity) : R :=
    match q with QTemperature => kT | QPressure => kP | QVolume => kV | QEnergy => kE | _ => 1 end.
  Definition used (q : quantity) : Prop :=
    match q with QTemperature | QPressure | QVolume | QEnergy => True | _ => False end.

  Lemma unit_of q : used q -> exists u, dget (key_of q) c = Some u /\ si s q u = Some (ksize q).
  Proof. destruct U. destruct q; cbn; intros []; eauto. Qed.

  Lemma to_si q v u k e : used q -> si s q u = Some k ->
    convert (units_of s q) c v None (Some u) e = Ok (v * zpow (ksize q / k) (effective_exponent e)).
  Proof.
    intros Hq Hk. destruct (unit_of q Hq) as (uu & H1 & H2). destruct U.
    rewrite (convert_resolved s q c v None (Some u) e uu u) by (auto; reflexivity).
    apply convert_spec; assumption.
  Qed.
  Lemma of_si q v u k e : used q -> si s q u = Some k ->
    convert (units_of s q) c v (Some u) None e = Ok (v * zpow (k / ksize q) (effective_exponent e)).
  Proof.
    intros Hq Hk. destruct (unit_of q Hq) as (uu & H1 & H2). destruct U.
    rewrite (convert_resolved s q c v (Some u) None e u uu) by (auto; reflexivity).
    apply convert_spec; assumption.
  Qed.

  Lemma matter_to v u k e : kmoles s mw u = Some k ->
    matter s c v mw None (Some u) e = Ok (v * zpow (kM / k) (effective_exponent e)).
  Proof.
    intro Hk. destruct U. destruct uk_M as (uu & H1 & H2).
    rewrite <- (matter_spec s c v mw uu u e kM k) by assumption.
    unfold matter. cbn [bind]. unfold cfg_get, c. rewrite H1. reflexivity.
  Qed.
  Lemma matter_from v u k e : kmoles s mw u = Some k ->
    matter s c v mw (Some u) None e = Ok (v * zpow (k / kM) (effective_exponent e)).
  Proof.
    intro Hk. destruct U. destruct uk_M as (uu & H1 & H2).
    rewrite <- (matter_spec s c v mw u uu e k kM) by assumption.
    unfold matter. cbn [bind]. unfold cfg_get, c. rewrite H1. reflexivity.
  Qed.

  Lemma tscale_to v : temperature_scale c v None (Some "K") = Ok (to_kelvin uT v).
  Proof.
    destruct U. rewrite (tscale_resolved c v None (Some "K") uT "K") by (auto; reflexivity).
    rewrite tscale_not_abs; [|now apply scale_not_abs|discriminate].
    reflexivity.
  Qed.
  Lemma tscale_from v : temperature_scale c v (Some "K") None = Ok (from_kelvin uT v).
  Proof.
    destruct U. rewrite (tscale_resolved c v (Some "K") None "K" uT) by (auto; reflexivity).
    rewrite tscale_not_abs; [|discriminate|now apply scale_not_abs].
    reflexivity.
  Qed.

  Lemma atscale_to v : atscale E v None (Some "K") = Ok (map (lift1 (to_kelvin uT)) v).
  Proof.
    unfold atscale. fold c. rewrite tscale_to. cbn [bind]. f_equal. apply map_ext.
    intros [x|]; [|reflexivity]. rewrite tscale_to. reflexivity.
  Qed.
  Lemma atscale_from v : atscale E v (Some "K") None = Ok (map (lift1 (from_kelvin uT)) v).
  Proof.
    unfold atscale. fold c. rewrite tscale_from. cbn [bind]. f_equal. apply map_ext.
    intros [x|]; [|reflexivity]. rewrite tscale_from. reflexivity.
  Qed.

  (* the factors *)
  Lemma kmol_size : kmoles s mw "kmol" = Some 1. Proof. reflexivity. Qed.
  Lemma mol_size : kmoles s mw "mol" = Some (1/1000). Proof. reflexivity. Qed.

  Ltac pos := pose proof kT_pos; pose proof kP_pos; pose proof kV_pos; pose proof kE_pos;
              pose proof kM_pos.

  Lemma p_in v : aconvert E QPressure v None (Some "Pa") None = Ok (map (fmul (Some kP)) v).
  Proof.
    unfold aconvert. fold s c. rewrite (to_si QPressure 1 "Pa" 1 None I eq_refl). cbn [bind].
    cbn [effective_exponent ksize]. rewrite zpow_1. do 2 f_equal.
    replace (1 * (kP / 1)) with kP by field. reflexivity.
  Qed.
  Lemma p_out v : aconvert E QPressure v (Some "Pa") None None = Ok (map (fmul (Some (/ kP))) v).
  Proof.
    pos. unfold aconvert. fold s c. rewrite (of_si QPressure 1 "Pa" 1 None I eq_refl). cbn [bind].
    cbn [effective_exponent ksize]. rewrite zpow_1. do 2 f_equal.
    replace (1 * (1 / kP)) with (/ kP) by (field; lra). reflexivity.
  Qed.
  Lemma d_in v : (do v1 <- aconvert E QVolume v None (Some "m3") (Some (-1)%Z);
                  amatter E v1 mw None (Some "kmol") None)
                 = Ok (map (fmul (Some (kM / kV))) v).
  Proof.
    pos. unfold aconvert, amatter. fold s c.
    rewrite (to_si QVolume 1 "m3" 1 (Some (-1)%Z) I) by (cbn; f_equal; lra). cbn [bind].
    rewrite (matter_to 1 "kmol" 1 None kmol_size). cbn [bind].
    cbn [effective_exponent ksize Z.eqb]. rewrite zpow_1, zpow_m1, map_fmul.
    replace (1 * (kM / 1) * (1 * / (kV / 1))) with (kM / kV) by (field; lra). reflexivity.
  Qed.
  Lemma v_in v : (do v1 <- aconvert E QVolume v None (Some "m3") None;
                  do v2 <- amatter E v1 mw None (Some "kmol") (Some (-1)%Z);
                  Ok (map reciprocal v2))
                 = Ok (map (fun x => reciprocal (fmul (Some (kV / kM)) x)) v).
  Proof.
    pos. unfold aconvert, amatter. fold s c.
    rewrite (to_si QVolume 1 "m3" 1 None I) by (cbn; f_equal; lra). cbn [bind].
    rewrite (matter_to 1 "kmol" 1 (Some (-1)%Z) kmol_size). cbn [bind].
    cbn [effective_exponent ksize Z.eqb]. rewrite zpow_1, zpow_m1, map_fmul, map_map.
    replace (1 * / (kM / 1) * (1 * (kV / 1))) with (kV / kM) by (field; lra). reflexivity.
  Qed.
  Lemma h_in v : (do v1 <- aconvert E QEnergy v None (Some "kJ") None;
                  amatter E v1 mw None (Some "kmol") (Some (-1)%Z))
                 = Ok (map (fmul (Some (kE / 1000 / kM))) v).
  Proof.
    pos. unfold aconvert, amatter. fold s c.
    rewrite (to_si QEnergy 1 "kJ" 1000 None I eq_refl). cbn [bind].
    rewrite (matter_to 1 "kmol" 1 (Some (-1)%Z) kmol_size). cbn [bind].
    cbn [effective_exponent ksize Z.eqb]. rewrite zpow_1, zpow_m1, map_fmul.
    replace (1 * / (kM / 1) * (1 * (kE / 1000))) with (kE / 1000 / kM) by (field; lra). reflexivity.
  Qed.
  Lemma s_in v : (do v1 <- aconvert E QEnergy v None (Some "kJ") None;
                  do v2 <- amatter E v1 mw None (Some "kmol") (Some (-1)%Z);
                  aconvert E QTemperature v2 None (Some "K") (Some (-1)%Z))
                 = Ok (map (fmul (Some (kE / 1000 / kM / (kT / (9/5))))) v).
  Proof.
    pos. unfold aconvert, amatter. fold s c.
    rewrite (to_si QEnergy 1 "kJ" 1000 None I eq_refl). cbn [bind].
    rewrite (matter_to 1 "kmol" 1 (Some (-1)%Z) kmol_size). cbn [bind].
    rewrite (to_si QTemperature 1 "K" (9/5) (Some (-1)%Z) I eq_refl). cbn [bind].
    cbn [effective_exponent ksize Z.eqb]. rewrite zpow_1, !zpow_m1, !map_fmul.
    replace (1 * / (kT / (9 / 5)) * (1 * / (kM / 1)) * (1 * (kE / 1000)))
      with (kE / 1000 / kM / (kT / (9/5))) by (field; lra). reflexivity.
  Qed.

  Variable g : gas.
  Hypothesis Hmw : g_mw g = mw.

  Lemma density_out : scale_density g E = Ok (kV / kM).
  Proof.
    pos. unfold scale_density. fold s c. rewrite Hmw.
    rewrite (matter_from 1 "kmol" 1 None kmol_size). cbn [bind].
    rewrite (of_si QVolume _ "m3" 1 (Some (-1)%Z) I) by (cbn; f_equal; lra).
    cbn [effective_exponent ksize Z.eqb]. rewrite zpow_1, zpow_m1. f_equal. field. lra.
  Qed.
  Lemma energy_out : scale_energy g E = Ok (1000 / kE * kM).
  Proof.
    pos. unfold scale_energy. fold s c. rewrite Hmw.
    rewrite (of_si QEnergy 1 "kJ" 1000 None I eq_refl). cbn [bind].
    rewrite (matter_from _ "kmol" 1 (Some (-1)%Z) kmol_size).
    cbn [effective_exponent ksize Z.eqb]. rewrite zpow_1, zpow_m1. f_equal. field. lra.
  Qed.
  Lemma energy_e_out : scale_energy_e g E = Ok (1000 / kE * kM).
  Proof.
    pos. unfold scale_energy_e. fold s c. rewrite Hmw.
    rewrite (of_si QEnergy 1 "J" 1 None I eq_refl). cbn [bind].
    rewrite (matter_from _ "mol" (1/1000) (Some (-1)%Z) mol_size).
    cbn [effective_exponent ksize Z.eqb]. rewrite zpow_1, zpow_m1. f_equal. field. lra.
  Qed.
  Lemma heat_out : scale_heat g E = Ok (1000 / kE * kM * (kT / (9/5))).
  Proof.
    pos. unfold scale_heat. fold s c. rewrite Hmw.
    rewrite (of_si QEnergy 1 "kJ" 1000 None I eq_refl). cbn [bind].
    rewrite (of_si QTemperature _ "K" (9/5) (Some (-1)%Z) I eq_refl). cbn [bind].
    rewrite (matter_from _ "kmol" 1 (Some (-1)%Z) kmol_size).
    cbn [effective_exponent ksize Z.eqb]. rewrite zpow_1, !zpow_m1. f_equal. field. lra.
  Qed.
  Lemma R_out : m_R g E = Ok (const_Ru * (1000 / kE * kM * (kT / (9/5)))).
  Proof.
    pos. unfold m_R. fold s c. rewrite Hmw.
    rewrite (of_si QEnergy _ "J" 1 None I eq_refl). cbn [bind].
    rewrite (of_si QTemperature _ "K" (9/5) (Some (-1)%Z) I eq_refl). cbn [bind].
    rewrite (matter_from _ "mol" (1/1000) (Some (-1)%Z) mol_size).
    cbn [effective_exponent ksize Z.eqb]. rewrite zpow_1, !zpow_m1. f_equal.
    generalize const_Ru. intro r. field. lra.
  Qed.
  Lemma heat_from_energy : 
    convert (units_of s QTemperature) c (1000 / kE * kM) (Some "K") None (Some (-1)%Z)
    = Ok (1000 / kE * kM * (kT / (9/5))).
  Proof.
    pos. rewrite (of_si QTemperature _ "K" (9/5) (Some (-1)%Z) I eq_refl).
    cbn [effective_exponent ksize Z.eqb]. rewrite zpow_m1. f_equal. field. lra.
  Qed.
End Units.

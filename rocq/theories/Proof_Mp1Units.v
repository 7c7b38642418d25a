(* Unit factors used by the multi-phase methods: the same as Proof_IgasUnits with kg and J. *)
From Coq Require Import Reals ZArith List String Lia Lra.
From Verif Require Import Base Model_Num Model_Units Model_Igas Spec_Units Proof_Units Spec_Igas Proof_IgasUnits.
From Verif Require Import Model_Mp1Calls.
Import ListNotations.
Local Open Scope R_scope.
Local Open Scope string_scope.

Section Units.
  Variables (D : mpdata) (E : env) (uT : string) (kT kP kV kE kM : R).
  Hypothesis U : units_known E (mp_mw D) uT kT kP kV kE kM.
  Local Notation s := (e_setup E).
  Local Notation c := (e_cfg E).
  Local Notation mw := (mp_mw D).

  (* kg in the unit of matter *)
  Definition kgs : R := kM * mp_mw D.
  Lemma mw_pos : 0 < mw. Proof. destruct U; assumption. Qed.
  Lemma kgs_pos : 0 < kgs.
  Proof. apply Rmult_lt_0_compat; [exact (kM_pos _ _ _ _ _ _ _ _ U)|exact mw_pos]. Qed.
  Lemma kg_size : kmoles s mw "kg" = Some (1 / mw). Proof. reflexivity. Qed.

  Ltac pos := pose proof (kT_pos _ _ _ _ _ _ _ _ U); pose proof (kP_pos _ _ _ _ _ _ _ _ U);
    pose proof (kV_pos _ _ _ _ _ _ _ _ U); pose proof (kE_pos _ _ _ _ _ _ _ _ U);
    pose proof (kM_pos _ _ _ _ _ _ _ _ U); pose proof mw_pos; unfold kgs.

  Lemma mp_d_in v : (do v1 <- aconvert E QVolume v None (Some "m3") (Some (-1)%Z);
                  amatter E v1 mw None (Some "kg") None)
                 = Ok (map (fmul (Some (kgs / kV))) v).
  Proof.
    pos. unfold aconvert, amatter. 
    rewrite (to_si _ _ _ _ _ _ _ _ U QVolume 1 "m3" 1 (Some (-1)%Z) I) by (cbn; f_equal; lra). cbn [bind].
    rewrite (matter_to _ _ _ _ _ _ _ _ U 1 "kg" (1/mw) None kg_size). cbn [bind].
    cbn [effective_exponent ksize Z.eqb]. rewrite zpow_1, zpow_m1, map_fmul.
    replace (1 * (kM / (1 / mw)) * (1 * / (kV / 1))) with (kM * mw / kV) by (field; lra). reflexivity.
  Qed.
  Lemma mp_v_in v : (do v1 <- aconvert E QVolume v None (Some "m3") None;
                  do v2 <- amatter E v1 mw None (Some "kg") (Some (-1)%Z);
                  Ok (map reciprocal v2))
                 = Ok (map (fun x => reciprocal (fmul (Some (kV / kgs)) x)) v).
  Proof.
    pos. unfold aconvert, amatter. 
    rewrite (to_si _ _ _ _ _ _ _ _ U QVolume 1 "m3" 1 None I) by (cbn; f_equal; lra). cbn [bind].
    rewrite (matter_to _ _ _ _ _ _ _ _ U 1 "kg" (1/mw) (Some (-1)%Z) kg_size). cbn [bind].
    cbn [effective_exponent ksize Z.eqb]. rewrite zpow_1, zpow_m1, map_fmul, map_map.
    replace (1 * / (kM / (1/mw)) * (1 * (kV / 1))) with (kV / (kM * mw)) by (field; lra). reflexivity.
  Qed.
  Lemma mp_h_in v : si_energy D E v = Ok (map (fmul (Some (kE / kgs))) v).
  Proof.
    pos. unfold si_energy, aconvert, amatter. 
    rewrite (to_si _ _ _ _ _ _ _ _ U QEnergy 1 "J" 1 None I eq_refl). cbn [bind].
    rewrite (matter_to _ _ _ _ _ _ _ _ U 1 "kg" (1/mw) (Some (-1)%Z) kg_size). cbn [bind].
    cbn [effective_exponent ksize Z.eqb]. rewrite zpow_1, zpow_m1, map_fmul.
    replace (1 * / (kM / (1 / mw)) * (1 * (kE / 1))) with (kE / (kM * mw)) by (field; lra). reflexivity.
  Qed.
  Lemma mp_s_in v : (do v1 <- si_energy D E v; aconvert E QTemperature v1 None (Some "K") (Some (-1)%Z))
                 = Ok (map (fmul (Some (kE / kgs / (kT / (9/5))))) v).
  Proof.
    pos. rewrite mp_h_in. cbn [bind]. unfold aconvert. 
    rewrite (to_si _ _ _ _ _ _ _ _ U QTemperature 1 "K" (9/5) (Some (-1)%Z) I eq_refl). cbn [bind].
    cbn [effective_exponent ksize Z.eqb]. rewrite !zpow_m1, !map_fmul.
    replace (1 * / (kT / (9 / 5)) * (kE / kgs)) with (kE / (kM * mw) / (kT / (9/5))).
    - reflexivity.
    - pose proof kgs_pos. unfold kgs in *. field. repeat split; lra.
  Qed.

  Lemma energy_c : convert (units_of s QEnergy) c 1 (Some "J") None None = Ok (/ kE).
  Proof.
    pos. rewrite (of_si _ _ _ _ _ _ _ _ U QEnergy 1 "J" 1 None I eq_refl).
    cbn [effective_exponent ksize]. rewrite zpow_1. f_equal. field. lra.
  Qed.
  Lemma matter_c v : matter s c v mw (Some "kg") None (Some (-1)%Z) = Ok (v * kgs).
  Proof.
    pos. rewrite (matter_from _ _ _ _ _ _ _ _ U v "kg" (1/mw) _ kg_size).
    cbn [effective_exponent Z.eqb]. rewrite zpow_m1. f_equal. field. lra.
  Qed.
  Lemma matter_c_pos v : matter s c v mw (Some "kg") None None = Ok (v / kgs).
  Proof.
    pos. rewrite (matter_from _ _ _ _ _ _ _ _ U v "kg" (1/mw) _ kg_size).
    cbn [effective_exponent Z.eqb]. rewrite zpow_1. f_equal. field. lra.
  Qed.
  Lemma temp_c v : convert (units_of s QTemperature) c v (Some "K") None (Some (-1)%Z) = Ok (v * (kT / (9/5))).
  Proof.
    pos. rewrite (of_si _ _ _ _ _ _ _ _ U QTemperature v "K" (9/5) (Some (-1)%Z) I eq_refl).
    cbn [effective_exponent ksize Z.eqb]. rewrite zpow_m1. f_equal. field. lra.
  Qed.
  Lemma temp_c_pos v : convert (units_of s QTemperature) c v (Some "K") None None = Ok (v / (kT / (9/5))).
  Proof.
    pos. rewrite (of_si _ _ _ _ _ _ _ _ U QTemperature v "K" (9/5) None I eq_refl).
    cbn [effective_exponent ksize Z.eqb]. rewrite zpow_1. f_equal. field. lra.
  Qed.
  Lemma vol_c v : convert (units_of s QVolume) c v (Some "m3") None (Some (-1)%Z) = Ok (v * kV).
  Proof.
    pos. rewrite (of_si _ _ _ _ _ _ _ _ U QVolume v "m3" 1 (Some (-1)%Z) I) by (cbn; f_equal; lra).
    cbn [effective_exponent ksize Z.eqb]. rewrite zpow_m1. f_equal. field. lra.
  Qed.

  Lemma out_energy_val v : out_energy D E v = Ok (map (fmul (Some (kgs / kE))) v).
  Proof.
    unfold out_energy, aconvert, amatter.  rewrite energy_c. cbn [bind].
    rewrite matter_c. cbn [bind]. rewrite map_fmul. do 2 f_equal. f_equal. f_equal. unfold Rdiv. ring.
  Qed.
  Lemma out_heat_val v : out_heat D E v = Ok (map (fmul (Some (kgs / kE * (kT / (9/5))))) v).
  Proof.
    unfold out_heat. rewrite out_energy_val. cbn [bind]. unfold aconvert. 
    rewrite temp_c. cbn [bind]. rewrite map_fmul. do 2 f_equal. f_equal. f_equal. unfold Rdiv. ring.
  Qed.
  Lemma out_density_val v : out_density D E v = Ok (map (fmul (Some (kV / kgs))) v).
  Proof.
    pos. unfold out_density, aconvert, amatter.  rewrite matter_c_pos. cbn [bind].
    rewrite vol_c. cbn [bind]. rewrite map_fmul. do 2 f_equal. f_equal. f_equal. unfold kgs. 
    field. lra.
  Qed.

  (* the arguments of a call in SI units *)
  Definition gT := map (lift1 (to_kelvin uT)).
  Definition gP := map (fmul (Some kP)).
  Definition gD := map (fmul (Some (kgs / kV))).
  Definition gV := map (fun x => reciprocal (fmul (Some (kV / kgs)) x)).
  Definition gH := map (fmul (Some (kE / kgs))).
  Definition gS := map (fmul (Some (kE / kgs / (kT / (9/5))))).
  Definition gX (v : arr) : res arr :=
    if (existsb (fun x => flt (num 1) x) v || existsb (fun x => flt x (num (-1))) v)%bool
    then Err PMParamError else Ok v.

  Lemma si_args_val kw : si_args D E kw =
    do T <- ores (dget "T" kw) (fun v => limited E (mp_Tlim D) (gT v));
    do p <- ores (dget "p" kw) (fun v => limited E (mp_plim D) (gP v));
    do x <- ores (dget "x" kw) gX;
    Ok {| a_T := T; a_p := p;
          a_d := match dget "v" kw with Some v => Some (gV v) | None => option_map gD (dget "d" kw) end;
          a_x := x;
          a_inv := match dget "h" kw, dget "e" kw, dget "s" kw with
                 | Some v, _, _ => Some (in_h D, gH v)
                 | None, Some v, _ => Some (in_e D, gH v)
                 | None, None, Some v => Some (in_s D, gS v)
                 | None, None, None => None
                 end |}.
  Proof.
    unfold si_args.
    destruct (dget "T" kw) as [T|]; cbn [ores bind];
      [rewrite (atscale_to _ _ _ _ _ _ _ _ U); cbn [bind]; fold (gT T); destruct (limited E (mp_Tlim D) (gT T)); cbn [bind]; [|reflexivity]|].
    all: destruct (dget "p" kw) as [p|]; cbn [ores bind];
      [rewrite (p_in _ _ _ _ _ _ _ _ U); cbn [bind]; fold (gP p); destruct (limited E (mp_plim D) (gP p)); cbn [bind]; [|reflexivity]|].
    all: destruct (dget "d" kw) as [d|]; cbn [ores bind]; [rewrite mp_d_in; cbn [bind]|].
    all: destruct (dget "v" kw) as [v|]; cbn [ores bind]; [rewrite mp_v_in; cbn [bind]|].
    all: destruct (dget "h" kw) as [h|]; cbn [ores bind]; [rewrite mp_h_in; cbn [bind]|].
    all: destruct (dget "e" kw) as [e|]; cbn [ores bind]; [rewrite mp_h_in; cbn [bind]|].
    all: destruct (dget "s" kw) as [ss|]; cbn [ores bind]; [rewrite mp_s_in; cbn [bind]|].
    all: destruct (dget "x" kw) as [x|]; cbn [ores bind]; [unfold gX; destruct (existsb _ x || existsb _ x)%bool; cbn [bind]|];
      reflexivity.
  Qed.
End Units.

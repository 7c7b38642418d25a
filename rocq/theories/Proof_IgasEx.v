(* Concrete sessions and species for the ideal gas theorems, and the counterexamples of
   C61 and C62. *)
From Coq Require Import Reals ZArith List String Bool Lia Lra.
From Verif Require Import Base Model_Num Model_Units Model_Defaults Model_Igas Spec_Units Proof_Units
  Proof_Defaults Spec_Igas Proof_Igas Proof_Iter Proof_IgasUnits Proof_IgasState Proof_IgasArgs
  Proof_IgasCalls Proof_IgasRel Proof_IgasArr.
Import ListNotations.
Local Open Scope R_scope.
Local Open Scope string_scope.
Local Open Scope list_scope.

(* a session in kelvin, pascal, cubic metres, kilojoules and kilomoles *)
Definition cfg_with (p : string) : ucfg :=
  [("unit_temperature", "K"); ("unit_pressure", p); ("unit_volume", "m3");
   ("unit_energy", "kJ"); ("unit_matter", "kmol")].
Definition session (p : string) (defp : R) (defpu : string) : env :=
  {| e_setup := default_setup; e_cfg := cfg_with p; e_defT := 300; e_defTu := "K";
     e_defp := defp; e_defpu := defpu; e_oob := None |}.
(* a species with heat capacity T and entropy T (kJ/kmol/K) between 200 K and 1000 K *)
Definition D1 : igdata :=
  {| d_Tlim := [200; 1000]; d_C := [[0; 1000; 0; 0; 0; 0; 0; 0]]; d_mw := 20; d_pref := 100000 |}.
Definition g1 := ig_gas None D1.

Lemma good_D1 : good_data D1.
Proof. repeat split; cbn; try lra; try lia. repeat constructor. Qed.
Lemma species_g1 p dp u : species (session p dp u) g1.
Proof.
  split; [reflexivity|]. left. exists D1. split; [|now left]. split; [exact good_D1|]. cbn. repeat split; lra.
Qed.
Lemma units_Pa dp u : units_known (session "Pa" dp u) (g_mw g1) "K" (9/5) 1 1 1000 1.
Proof.
  constructor; cbn; try reflexivity; try lra; eauto using default_positive.
  all: try (eexists; split; reflexivity). all: auto.
Qed.
Lemma units_kPa dp u : units_known (session "kPa" dp u) (g_mw g1) "K" (9/5) 1000 1 1000 1.
Proof.
  constructor; cbn; try reflexivity; try lra; eauto using default_positive.
  all: try (eexists; split; reflexivity). all: auto.
Qed.
Lemma units_bar dp u : units_known (session "bar" dp u) (g_mw g1) "K" (9/5) (10^5) 1 1000 1.
Proof.
  constructor; cbn; try reflexivity; try lra; eauto using default_positive.
  all: try (eexists; split; reflexivity). all: auto.
Qed.

(* Newton's method is exact for a linear function *)
Lemma iter1_linear lo hi f m y : 0 < m -> 0 < y -> lo <= hi ->
  (forall x, lo <= x <= hi -> f (Some x) = (Some (m * x), Some m)) ->
  lo <= y / m <= hi -> iter1 lo hi [f] [Some y] = Ok [Some (y / m)].
Proof.
  intros Hm Hy Hlh Hf Hr. unfold iter1, iter1_full. unfold map2. cbn [combine map fst snd].
  unfold start.
  set (x0 := 5 / 10 * (lo + hi)).
  assert (lo <= x0 <= hi) as Hx0 by (unfold x0; lra).
  set (c0 := {| c_fn := f; c_y := Some y; c_x := Some x0; c_dx := Some 0; c_err := Some 0; c_on := true |}).
  assert (0 < ep_default) as Hep.
  { unfold ep_default. rewrite p10_neg_eq. apply Rinv_0_lt_compat, pow_lt. lra. }
  assert (forall x, outside lo hi {| c_fn := f; c_y := Some y; c_x := Some (y/m); c_dx := Some x; c_err := Some (m * x); c_on := true |} = false) as Hin.
  { intro x. unfold outside, flt. cbn [c_x]. destruct (Rlt_dec (y/m) lo); [lra|]. destruct (Rlt_dec hi (y/m)); [lra|reflexivity]. }
  assert (forall x n, lo <= x <= hi -> forall dx e0,
    oob_loop lo hi n (map newton [{| c_fn := f; c_y := Some y; c_x := Some x; c_dx := dx; c_err := e0; c_on := true |}]) =
    Ok [{| c_fn := f; c_y := Some y; c_x := Some (y/m); c_dx := Some (y/m - x); c_err := Some (m * (y/m - x)); c_on := true |}]) as Hstep.
  { intros x n Hx dx e0. cbn [map]. unfold newton. cbn [c_on c_fn c_x c_y]. rewrite (Hf x Hx). cbn [fsub fdiv fadd lift2].
    destruct (Req_EM_T m 0); [lra|]. cbn [lift2].
    replace (x + (y - m * x) / m) with (y / m) by (field; lra).
    replace ((y - m * x) / m) with (y / m - x) by (field; lra).
    replace (y - m * x) with (m * (y / m - x)) by (field; lra).
    rewrite oob_unfold. cbn [existsb]. rewrite Hin. reflexivity. }
  unfold c0. rewrite iter_unfold. cbn [existsb c_on orb]. rewrite (Hstep x0 _ Hx0). cbn [bind map check c_on c_fn c_y c_x c_dx c_err].
  rewrite iter_unfold. cbn [existsb c_on orb].
  destruct (flt _ _); cbn [orb].
  2:{ cbn [bind fst map c_x]. reflexivity. }
  rewrite (Hstep (y/m) _ Hr). cbn [bind map check c_on c_fn c_y c_x c_dx c_err].
  replace (flt (fabs (fmul (Some ep_default) (Some y))) (fabs (Some (m * (y / m - y / m))))) with false.
  2:{ replace (m * (y / m - y / m)) with 0 by ring. cbn [fabs fmul lift1 lift2 flt]. rewrite Rabs_R0.
      destruct (Rlt_dec _ _) as [K|]; [|reflexivity]. exfalso. pose proof (Rabs_pos (ep_default * y)). lra. }
  rewrite iter_unfold. cbn [existsb c_on orb bind fst map c_x]. reflexivity.
Qed.

Lemma s_g1 x : 200 <= x <= 1000 -> g_s g1 (Some x) = (Some (1 * x), Some 1).
Proof.
  intro Hx.
  assert (in_interval (d_Tlim D1) 0 x) as Hi.
  { split; [cbn; lia|]. split; [cbn; lra|]. cbn. destruct (Rlt_dec x 1000); [now left|right; split; [reflexivity|lra]]. }
  destruct (ig_values None D1 0 x good_D1 Hi ltac:(lra)) as [_ _ Vs _ _ _].
  unfold g1. rewrite Vs. unfold shomate_s, shomate_cp. cbn [nth d_C D1]. f_equal; f_equal; field; lra.
Qed.

(* exp 1 >= 2, so ln 2 <= 1 *)
Lemma ln2_bounds : 0 < ln 2 <= 1.
Proof.
  split; [rewrite <- ln_1; apply ln_increasing; lra|].
  rewrite <- (ln_exp 1). destruct (Req_dec 2 (exp 1)) as [<-|]; [lra|]. left. apply ln_increasing; [lra|].
  pose proof (exp_ineq1 1 ltac:(lra)). lra.
Qed.
Lemma Ru_bounds : 8 < const_Ru < 9.
Proof. rewrite Ru_gas. unfold gas_constant, boltzmann, avogadro. lra. Qed.

(* C61: one entropy and two pressures *)
Lemma shared_entropy :
  let E := session "Pa" 100000 "Pa" in
  exists t, m_T g1 E [] [("s", [Some 500]); ("p", [Some 100000; Some 200000])] = Ok [Some t; Some t] /\
    m_T g1 E [] [("s", [Some 500]); ("p", [Some 100000])] = Ok [Some 500] /\ t <> 500.
Proof.
  intro E. pose proof (units_Pa 100000 "Pa") as U. fold E in U.
  pose proof ln2_bounds as L. pose proof Ru_bounds as B.
  set (t := 500 + const_Ru * ln 2).
  assert (505 * 0 + 500 < t < 600) as Ht.
  { unfold t. assert (0 < const_Ru * ln 2) by (apply Rmult_lt_0_compat; lra).
    assert (const_Ru * ln 2 <= 9 * 1) by (apply Rmult_le_compat; lra). lra. }
  assert (forall y, 200 <= y <= 1000 -> iter1 (Tlow g1) (Thigh g1) [g_s g1] [Some y] = Ok [Some y]) as I1.
  { intros y Hy. change (Tlow g1) with 200. change (Thigh g1) with 1000.
    replace (Some y) with (Some (y / 1)) at 2 by (f_equal; field).
    apply (iter1_linear 200 1000 (g_s g1) 1 y); try lra.
    intros x Hx. now apply s_g1. }
  exists t. split; [|split; [|lra]].
  - rewrite (m_T_val _ _ _ _ _ _ _ _ U) by (cbn; lia).
    rewrite argparse_two by reflexivity. rewrite (solve_units _ _ _ _ _ _ _ _ U).
    cbn [dget String.eqb Ascii.eqb Bool.eqb option_map]. unfold core. cbn [ores bind].
    unfold inS, inP. cbn [map fmul lift2].
    replace (1000 / 1000 / 1 / (9 / 5 / (9 / 5)) * 500) with 500 by field.
    rewrite !Rmult_1_l. unfold broadcast. cbn [List.length Nat.eqb repeat bind].
    assert (forall T, T = [Some t; Some t] ->
      (do T1 <- iter1 (Tlow g1) (Thigh g1) (map (fun _ => g_s g1) T) T;
       Ok (T1, Some [Some 100000; Some 200000], @None arr)) =
      Ok ([Some t; Some t], Some [Some 100000; Some 200000], None)) as K.
    { intros T ->. cbn [map].
      assert (iter1 (Tlow g1) (Thigh g1) [g_s g1; g_s g1] [Some t; Some t] = Ok [Some t; Some t]) as ->; [|reflexivity].
      specialize (I1 t ltac:(lra)). unfold iter1 in I1 |- *.
      destruct (iter1_full (Tlow g1) (Thigh g1) [g_s g1] [Some t]) as [[xs w]|] eqn:F; [|discriminate].
      cbn in I1. injection I1 as ->.
      assert (iter1_full (Tlow g1) (Thigh g1) [g_s g1; g_s g1] [Some t; Some t] = Ok ([Some t; Some t], (w || (w || false))%bool)) as ->; [|reflexivity].
      apply iter1_pointwise; [reflexivity|]. exists [w; w]. repeat split.
      intros [|[|i]] f y x b; cbn [nth_error]; intros; try (destruct i; discriminate);
        repeat match goal with H : Some _ = Some _ |- _ => injection H as <- end; exact F. }
    rewrite K.
    + cbn [bind]. unfold bounds. cbn [forallb map].
      assert (out_of_range g1 (Some t) = false) as ->.
      { unfold out_of_range, flt. change (Tlow g1) with 200; change (Thigh g1) with 1000.
        destruct (Rlt_dec t 200); [lra|]. destruct (Rlt_dec 1000 t); [lra|reflexivity]. }
      cbn [andb bind fst map lift1]. reflexivity.
    + unfold inplace_add, map2. cbn [map combine fst snd last List.length repeat].
      assert (g_pref g1 = 100000) as -> by reflexivity. cbn [fdiv]. destruct (Req_EM_T 100000 0); [lra|].
      cbn [flog]. destruct (Rlt_dec 0 (200000 / 100000)); [|lra]. cbn [fmul fadd lift2].
      replace (200000 / 100000) with 2 by field. reflexivity.
  - rewrite (m_T_val _ _ _ _ _ _ _ _ U) by (cbn; lia).
    rewrite argparse_two by reflexivity. rewrite (solve_units _ _ _ _ _ _ _ _ U).
    cbn [dget String.eqb Ascii.eqb Bool.eqb option_map]. unfold core. cbn [ores bind].
    unfold inS, inP. cbn [map fmul lift2].
    replace (1000 / 1000 / 1 / (9 / 5 / (9 / 5)) * 500) with 500 by field.
    rewrite !Rmult_1_l. unfold broadcast. cbn [List.length Nat.eqb repeat bind].
    unfold inplace_add, map2. cbn [map combine fst snd].
    assert (g_pref g1 = 100000) as -> by reflexivity. cbn [fdiv]. destruct (Req_EM_T 100000 0); [lra|].
    cbn [flog]. destruct (Rlt_dec 0 (100000 / 100000)); [|lra].
    replace (100000 / 100000) with 1 by field. rewrite ln_1. cbn [fmul fadd lift2].
    rewrite Rmult_0_r, Rplus_0_r. cbn [map].
    assert (forall rr, rr = Ok [Some 500] -> (do T1 <- rr; Ok (T1, Some [Some 100000], @None arr)) =
      Ok ([Some 500], Some [Some 100000], None)) as K by (intros rr ->; reflexivity).
    rewrite K by (apply I1; lra). cbn [bind].
    unfold bounds. cbn [forallb map].
    assert (out_of_range g1 (Some 500) = false) as ->.
    { unfold out_of_range, flt. change (Tlow g1) with 200; change (Thigh g1) with 1000.
      destruct (Rlt_dec 500 200); [lra|]. destruct (Rlt_dec 1000 500); [lra|reflexivity]. }
    cbn [andb bind fst map lift1]. reflexivity.
Qed.

(* ---- C62 : temperature from one argument ---- *)
Section One.
  Variables (E : env) (g : gas) (uT : string) (kT kP kV kE kM : R).
  Hypothesis U : units_known E (g_mw g) uT kT kP kV kE kM.

  Lemma T_one_raw n a : n <> "p" -> m_T g E [] [(n, a)] = m_T g E [] [(n, a); ("p", [Some (e_defp E)])].
  Proof.
    intro H. unfold m_T. cbn [List.length Nat.add Nat.eqb]. rewrite dset_fresh; [reflexivity|].
    cbn. intros [K|[]]. now apply H.
  Qed.

  (* when the default pressure is written in the configured unit: the default state *)
  Lemma T_one n a dp : n <> "p" -> dget "unit_pressure" (e_cfg E) = Some (e_defpu E) ->
    def_p (e_setup E) (e_cfg E) (e_defp E) (e_defpu E) = Ok dp ->
    m_T g E [] [(n, a)] = m_T g E [] [(n, a); ("p", [Some dp])].
  Proof.
    intros Hn Hu Hd. rewrite T_one_raw by exact Hn.
    assert (dp = e_defp E) as ->; [|reflexivity].
    destruct U. destruct uk_P as (u & Hu' & Hsi). rewrite Hu in Hu'. injection Hu' as <-.
    rewrite (def_p_value _ _ _ _ _ _ _ uk_setup Hu Hsi Hsi) in Hd. injection Hd as <-.
    pose proof (si_pos _ _ _ _ uk_setup Hsi). field. lra.
  Qed.

  Lemma T_pd d p : kM / kV * d <> 0 ->
    m_T g E [] [("d", [Some d]); ("p", [Some p])] =
    (let t := kP * p / (R1000 * (kM / kV * d)) in
     if out_of_range g (Some t) then Err PMParamError else Ok [Some (from_kelvin uT t)]).
  Proof.
    intros Hd. rewrite (m_T_val _ _ _ _ _ _ _ _ U) by (cbn; lia).
    rewrite argparse_two by reflexivity. rewrite (solve_units _ _ _ _ _ _ _ _ U).
    cbn [dget String.eqb Ascii.eqb Bool.eqb option_map]. unfold core. cbn [ores bind].
    unfold inD, inP. cbn [map fmul lift2]. rewrite broadcast_one. cbn [bind]. unfold map2. cbn [combine map fst snd fdiv].
    assert (R1000 * (kM / kV * d) <> 0).
    { apply Rmult_integral_contrapositive. split; [|exact Hd]. unfold R1000. pose proof Ru_pos. lra. }
    destruct (Req_EM_T (R1000 * (kM / kV * d)) 0); [contradiction|].
    cbn zeta. unfold bounds. cbn [forallb map]. destruct (out_of_range _ _); reflexivity.
  Qed.
End One.

(* the default pressure is 1 bar, the pressure unit kPa: T(d = 0.05) *)
Lemma T_one_wrong :
  let E := session "kPa" 1 "bar" in
  def_p (e_setup E) (e_cfg E) (e_defp E) (e_defpu E) = Ok 100 /\
  m_T g1 E [] [("d", [Some (5/100)])] = Err PMParamError /\
  exists t, m_T g1 E [] [("d", [Some (5/100)]); ("p", [Some 100])] = Ok [Some t].
Proof.
  intro E. pose proof (units_kPa 1 "bar") as U. fold E in U. pose proof Ru_bounds as B. repeat split.
  - rewrite (def_p_value _ _ 1 "bar" "kPa" (10^5) 1000); try reflexivity; [f_equal; field|exact default_positive].
  - rewrite T_one_raw by discriminate. rewrite (T_pd _ _ _ _ _ _ _ _ U) by lra.
    cbn zeta. set (t := 1000 * e_defp E / (R1000 * (1 / 1 * (5 / 100)))).
    assert (t = 20 / const_Ru) as Et. { unfold t, R1000. cbn [e_defp E session]. field. lra. }
    assert (t < 200). { rewrite Et. apply Rmult_lt_reg_r with const_Ru; [lra|]. unfold Rdiv. rewrite Rmult_assoc, Rinv_l by lra. lra. }
    unfold out_of_range, flt. change (Tlow g1) with 200. destruct (Rlt_dec t 200); [reflexivity|lra].
  - rewrite (T_pd _ _ _ _ _ _ _ _ U) by lra.
    cbn zeta. set (t := 1000 * 100 / (R1000 * (1 / 1 * (5 / 100)))).
    assert (t = 2000 / const_Ru) as Et. { unfold t, R1000. field. lra. }
    assert (200 < t < 1000).
    { rewrite Et. split; apply Rmult_lt_reg_r with const_Ru; try lra; unfold Rdiv; rewrite Rmult_assoc, Rinv_l by lra; lra. }
    unfold out_of_range, flt. change (Tlow g1) with 200. change (Thigh g1) with 1000.
    destruct (Rlt_dec t 200); [lra|]. destruct (Rlt_dec 1000 t); [lra|]. eexists. reflexivity.
Qed.

(* one argument d: T(d) is at the default pressure, p(d) at the default temperature *)
Lemma one_d_inconsistent :
  let E := session "Pa" 100000 "Pa" in
  exists t p, m_T g1 E [] [("d", [Some (5/100)])] = Ok [Some t] /\
    m_p g1 E [] [("d", [Some (5/100)])] = Ok [Some p] /\
    m_d g1 E [] [("d", [Some (5/100)])] = Ok [Some (5/100)] /\
    p <> 5/100 * (1000 * gas_constant) * t.
Proof.
  intro E. pose proof (units_Pa 100000 "Pa") as U. fold E in U. pose proof Ru_bounds as B.
  assert (argparse g1 E [] [("d", [Some (5/100)])] = Ok ([Some 300], None, Some [Some (5/100)])) as A.
  { unfold argparse, positional, defaults. cbn [bind List.length Nat.ltb Nat.leb].
    assert (def_T (e_cfg E) (e_defT E) (e_defTu E) = Ok 300) as ->.
    { unfold def_T. rewrite (tscale_resolved _ _ (Some (e_defTu E)) None "K" "K") by reflexivity.
      rewrite tscale_not_abs by discriminate. cbn. reflexivity. }
    cbn [dmem dget String.eqb Ascii.eqb Bool.eqb bind dset rules].
    rewrite (solve_units _ _ _ _ _ _ _ _ U).
    cbn [dget String.eqb Ascii.eqb Bool.eqb option_map]. unfold core. cbn [ores bind].
    unfold inD, inT. cbn [map fmul lift2 lift1]. rewrite broadcast_one. cbn [bind].
    replace (1 / 1 * (5 / 100)) with (5 / 100) by field.
    unfold bounds. cbn [forallb map].
    assert (to_kelvin "K" 300 = 300) as -> by reflexivity.
    assert (out_of_range g1 (Some 300) = false) as ->.
    { unfold out_of_range, flt. change (Tlow g1) with 200; change (Thigh g1) with 1000.
      destruct (Rlt_dec 300 200); [lra|]. destruct (Rlt_dec 1000 300); [lra|reflexivity]. }
    reflexivity. }
  set (t := 1 * 100000 / (R1000 * (1 / 1 * (5 / 100)))).
  assert (t = 2000 / const_Ru) as Et. { unfold t, R1000. field. lra. }
  assert (200 < t < 300).
  { rewrite Et. split; apply Rmult_lt_reg_r with const_Ru; try lra; unfold Rdiv; rewrite Rmult_assoc, Rinv_l by lra; lra. }
  exists t, (1 * (5/100 * R1000 * 300)). repeat split.
  - rewrite T_one_raw by discriminate. rewrite (T_pd _ _ _ _ _ _ _ _ U) by lra.
    cbn zeta. change (e_defp E) with 100000. fold t.
    unfold out_of_range, flt. change (Tlow g1) with 200. change (Thigh g1) with 1000.
    destruct (Rlt_dec t 200); [lra|]. destruct (Rlt_dec 1000 t); [lra|]. reflexivity.
  - rewrite (m_p_val _ _ _ _ _ _ _ _ U), A. cbn [bind the_p]. unfold p_of, map2. cbn [combine map fst snd fmul lift2].
    do 3 f_equal. field.
  - rewrite (m_d_val _ _ _ _ _ _ _ _ U), A. cbn [bind the_d]. unfold scaled. cbn [map fmul lift2].
    do 3 f_equal. field.
  - rewrite <- Ru_gas. unfold R1000. intro K.
    assert (const_Ru * 300 = const_Ru * t) as K2 by lra.
    apply Rmult_eq_reg_l in K2; lra.
Qed.

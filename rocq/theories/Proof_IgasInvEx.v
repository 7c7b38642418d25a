(* Concrete calls for the instances of Prop_IgasMore. *)
From Coq Require Import Reals ZArith List String Bool Lia Lra.
From Verif Require Import Base Model_Num Model_Units Model_Defaults Model_Igas Model_IgWarn Spec_Units Proof_Units
  Proof_Defaults Spec_Igas Spec_IgasMore Proof_Igas Proof_Iter Proof_IgasUnits Proof_IgasState Proof_IgasArgs
  Proof_IgasCalls Proof_IgasRel Proof_IgasArr Proof_IgasEx Proof_IgasAcc Proof_IgasInst Proof_IgasMore Proof_IgasInv.
Import ListNotations.
Local Open Scope R_scope.
Local Open Scope string_scope.
Local Open Scope list_scope.

Lemma iter1_full_linear lo hi f m y : 0 < m -> 0 < y -> lo <= hi ->
  (forall x, lo <= x <= hi -> f (Some x) = (Some (m * x), Some m)) ->
  lo <= y / m <= hi -> iter1_full lo hi [f] [Some y] = Ok ([Some (y / m)], false).
Proof.
  intros Hm Hy Hlh Hf Hr. unfold iter1_full. unfold map2. cbn [combine map fst snd].
  unfold start.
  set (x0 := 5 / 10 * (lo + hi)).
  assert (lo <= x0 <= hi) as Hx0 by (unfold x0; lra).
  set (c0 := {| c_fn := f; c_y := Some y; c_x := Some x0; c_dx := Some 0; c_err := Some 0; c_on := true |}).
  assert (0 < ep_default) as Hep.
  { unfold ep_default. rewrite p10_neg_eq. apply Rinv_0_lt_compat, pow_lt. lra. }
  assert (forall x, outside lo hi {| c_fn := f; c_y := Some y; c_x := Some (y/m); c_dx := Some x; c_err := Some (m * x); c_on := true |} = false) as Hin.
  { intro x. unfold outside, flt. cbn [c_x]. destruct (Rlt_dec (y/m) lo); [lra|]. destruct (Rlt_dec hi (y/m)); [lra|reflexivity]. }
  assert (forall x n, lo <= x <= hi -> forall dx e0,
    oob_loop lo hi n (map newton [{| c_fn := f; c_y := Some y; c_x := Some x; c_dx := dx; c_err := e0; c_on := true |}]) =
    Ok [{| c_fn := f; c_y := Some y; c_x := Some (y/m); c_dx := Some (y/m - x); c_err := Some (m * (y/m - x)); c_on := true |}]) as Hstep.
  { intros x n Hx dx e0. cbn [map]. unfold newton. cbn [c_on c_fn c_x c_y]. rewrite (Hf x Hx). cbn [fsub fdiv fadd lift2].
    destruct (Req_EM_T m 0); [lra|]. cbn [lift2].
    replace (x + (y - m * x) / m) with (y / m) by (field; lra).
    replace ((y - m * x) / m) with (y / m - x) by (field; lra).
    replace (y - m * x) with (m * (y / m - x)) by (field; lra).
    rewrite oob_unfold. cbn [existsb]. rewrite Hin. reflexivity. }
  unfold c0. rewrite iter_unfold. cbn [existsb c_on orb]. rewrite (Hstep x0 _ Hx0). cbn [bind map check c_on c_fn c_y c_x c_dx c_err].
  rewrite iter_unfold. cbn [existsb c_on orb].
  destruct (flt _ _); cbn [orb].
  2:{ cbn [bind fst snd map c_x]. reflexivity. }
  rewrite (Hstep (y/m) _ Hr). cbn [bind map check c_on c_fn c_y c_x c_dx c_err].
  replace (flt (fabs (fmul (Some ep_default) (Some y))) (fabs (Some (m * (y / m - y / m))))) with false.
  2:{ replace (m * (y / m - y / m)) with 0 by ring. cbn [fabs fmul lift1 lift2 flt]. rewrite Rabs_R0.
      destruct (Rlt_dec _ _) as [K|]; [|reflexivity]. exfalso. pose proof (Rabs_pos (ep_default * y)). lra. }
  rewrite iter_unfold. cbn [existsb c_on orb bind fst snd map c_x]. reflexivity.
Qed.

Lemma inst_C74 :
  let E := session "bar" 1 "bar" in
  species E g1 /\ units_known E (g_mw g1) "K" (9/5) (10^5) 1 1000 1 /\
  exists st, m_state g1 E [] [("T", [Some 300]); ("d", [Some 2])] = Ok st /\
    dget "T" st = Some [Some 300] /\ dget "d" st = Some [Some 2] /\
    dget "cv" st = Some [Some (300 - gas_constant)].
Proof.
  intro E. pose proof (units_bar 1 "bar") as U. fold E in U.
  split; [apply species_g1|]. split; [exact U|].
  destruct (state_agrees E g1 _ _ _ _ _ _ (species_g1 _ _ _) U [] [("T", [Some 300]); ("d", [Some 2])] ltac:(cbn; lia))
    as [(st & H & _ & K)|(e & _ & K)].
  2:{ exfalso. specialize (K "d" (m_d g1 E) ltac:(cbn; tauto)).
      rewrite (m_d_val _ _ _ _ _ _ _ _ U), (arg_Td _ _ U) in K by lra. discriminate. }
  exists st. split; [exact H|].
  destruct (K "T" (m_T g1 E) ltac:(cbn; tauto)) as (v1 & V1 & ->).
  destruct (K "d" (m_d g1 E) ltac:(cbn; tauto)) as (v2 & V2 & ->).
  destruct (K "cv" (m_cv g1 E) ltac:(cbn; tauto)) as (v3 & V3 & ->).
  rewrite (m_T_val _ _ _ _ _ _ _ _ U) in V1 by (cbn; lia).
  rewrite (m_d_val _ _ _ _ _ _ _ _ U) in V2. rewrite (m_cv_val _ _ _ _ _ _ _ _ U) in V3.
  rewrite (arg_Td _ _ U) in V1, V2, V3 by lra. cbn [bind fst the_d map lift1 scaled fmul lift2] in V1, V2, V3.
  injection V1 as <-. injection V2 as <-. injection V3 as <-.
  split; [reflexivity|]. split; [do 3 f_equal; field|].
  destruct (species_values _ _ 300 (species_g1 "bar" 1 "bar") ltac:(unfold Tlow, Thigh; cbn; lra)) as (cp & h & s & [Vc _ Vs _ _ _]).
  rewrite s_g1 in Vs by lra. injection Vs as _ Vs.
  change (piecewise [200; 1000] [[0; 1000; 0; 0; 0; 0; 0; 0]] None sh_cp (Some 300)) with (g_cp g1 (Some 300)).
  rewrite Vc. cbn [fsub lift2 fmul]. rewrite Ru_gas.
  assert (cp = 300) as -> by (apply (Rmult_eq_reg_r (/ 300)); [|lra]; unfold Rdiv in Vs; lra).
  f_equal. f_equal. f_equal. unfold ks. field.
Qed.

Lemma S_g1 t : 200 <= t <= 1000 -> S_at g1 t = t.
Proof. intro H. unfold S_at. rewrite s_g1 by exact H. cbn [fst value]. ring. Qed.
Lemma CP_g1 t : 200 <= t <= 1000 -> CP_at g1 t / t = 1.
Proof.
  intro H. destruct (species_values _ _ t (species_g1 "Pa" 1 "Pa") ltac:(unfold Tlow, Thigh; cbn; lra)) as (cp & h & s & [Vc _ Vs _ _ _]).
  rewrite s_g1 in Vs by exact H. injection Vs as _ Vs. unfold CP_at. rewrite Vc. symmetry. exact Vs.
Qed.

Lemma inst_C80 :
  let E := session "Pa" 100000 "Pa" in
  m_T g1 E [] [("s", [Some 500]); ("p", [Some 100000])] = Ok [Some 500] /\
  call_warns g1 E [("s", [Some 500]); ("p", [Some 100000])] = Ok false /\
  steep (fun t => value (fst (g_s g1 (Some t)))) (fun t => value (g_cp g1 (Some t)) / t) 200 1000 1 1.
Proof.
  intro E. pose proof (units_Pa 100000 "Pa") as U. fold E in U.
  split; [destruct shared_entropy as (t & _ & H & _); exact H|].
  split.
  - unfold call_warns. cbn [dget String.eqb Ascii.eqb Bool.eqb ores].
    rewrite (p_in _ _ _ _ _ _ _ _ U). cbn [bind].
    rewrite (s_in' _ _ _ _ _ _ _ _ U). cbn [bind]. rewrite broadcast_same by reflexivity. cbn [bind inplace_add opt_or orb].
    apply (f_equal Ok). unfold inS, inP, map2. cbn [map combine fmul lift2 fst snd].
    replace (1000 / 1000 / 1 / (9 / 5 / (9 / 5)) * 500) with 500 by field. rewrite Rmult_1_l.
    assert (g_pref g1 = 100000) as -> by reflexivity. cbn [fdiv]. destruct (Req_EM_T 100000 0); [lra|].
    cbn [flog]. destruct (Rlt_dec 0 (100000 / 100000)); [|lra].
    replace (100000 / 100000) with 1 by field. rewrite ln_1. cbn [fmul fadd lift2].
    rewrite Rmult_0_r, Rplus_0_r. cbn [map].
    change (Tlow g1) with 200. change (Thigh g1) with 1000.
    assert (iter1_full 200 1000 [g_s g1] [Some 500] = Ok ([Some (500 / 1)], false)) as K.
    { apply (iter1_full_linear 200 1000 (g_s g1) 1 500); try lra. intros x Hx. now apply s_g1. }
    exact (f_equal warned K).
  - split.
    + intros t Ht. pose proof (CP_g1 t Ht) as K. unfold CP_at in K. rewrite K. lra.
    + intros a b Ha Hb. pose proof (S_g1 a ltac:(lra)) as Ka. pose proof (S_g1 b ltac:(lra)) as Kb.
      unfold S_at in Ka, Kb. rewrite Ka, Kb. lra.
Qed.

(* statements as used in Prop_IgasMore *)
Lemma h_found E g uT kT kP kV kE kM : species E g -> units_known E (g_mw g) uT kT kP kV kE kM ->
  forall a b Ts m M, List.length a = List.length b -> 0 < m ->
  m_T g E [] [("h", a); ("p", b)] = Ok Ts \/ m_T_h g E a (Some b) None = Ok Ts ->
  call_warns g E [("h", a); ("p", b)] = Ok false ->
  steep (fun t => value (fst (g_h g (Some t)))) (fun t => value (g_cp g (Some t))) (Tlow g) (Thigh g) m M ->
  exists out, m_h g E [] [("T", Ts); ("p", b)] = Ok out /\ List.length out = List.length a /\
    forall i y, nth_error a i = Some (Some y) -> exists z, nth_error out i = Some (Some z) /\
      Rabs (z - y) <= M / m * (/ 1000000 * Rabs y).
Proof.
  intros S U a b Ts m M Hl Hm HT HW HS.
  assert (m_T g E [] [("h", a); ("p", b)] = Ok Ts) as HT' by (destruct HT; assumption).
  exact (energy_found E g _ _ _ _ _ _ S U "h" a b Ts m M (or_introl eq_refl) Hl Hm HT' HW HS).
Qed.
Lemma e_found E g uT kT kP kV kE kM : species E g -> units_known E (g_mw g) uT kT kP kV kE kM ->
  forall a b Ts m M, List.length a = List.length b -> 0 < m ->
  m_T g E [] [("e", a); ("p", b)] = Ok Ts ->
  call_warns g E [("e", a); ("p", b)] = Ok false ->
  steep (fun t => value (fst (g_e g (Some t)))) (fun t => value (g_cp g (Some t)) - gas_constant)
    (Tlow g) (Thigh g) m M ->
  exists out, m_e g E [] [("T", Ts); ("p", b)] = Ok out /\ List.length out = List.length a /\
    forall i y, nth_error a i = Some (Some y) -> exists z, nth_error out i = Some (Some z) /\
      Rabs (z - y) <= M / m * (/ 1000000 * Rabs y).
Proof.
  intros S U a b Ts m M Hl Hm HT HW HS.
  exact (energy_found E g _ _ _ _ _ _ S U "e" a b Ts m M (or_intror (or_introl eq_refl)) Hl Hm HT HW HS).
Qed.
Lemma s_p_found E g uT kT kP kV kE kM : species E g -> units_known E (g_mw g) uT kT kP kV kE kM ->
  forall a b Ts r m M, List.length a = List.length b -> 0 < m ->
  m_T g E [] [("s", a); ("p", b)] = Ok Ts \/ m_T_s g E a (Some b) None = Ok Ts ->
  call_warns g E [("s", a); ("p", b)] = Ok false -> m_R g E = Ok r ->
  steep (fun t => value (fst (g_s g (Some t)))) (fun t => value (g_cp g (Some t)) / t) (Tlow g) (Thigh g) m M ->
  exists out, m_s g E [] [("T", Ts); ("p", b)] = Ok out /\ List.length out = List.length a /\
    forall i y q, nth_error a i = Some (Some y) -> nth_error b i = Some (Some q) -> 0 < q ->
      exists z, nth_error out i = Some (Some z) /\
      Rabs (z - y) <= M / m * (/ 1000000 * Rabs (y + r * ln (q * kP / g_pref g))).
Proof.
  intros S U a b Ts r m M Hl Hm HT HW HR HS.
  assert (m_T g E [] [("s", a); ("p", b)] = Ok Ts) as HT' by (destruct HT; assumption).
  exact (sp_found E g _ _ _ _ _ _ S U a b Ts r m M Hl Hm HT' HW HR HS).
Qed.
Lemma s_d_found E g uT kT kP kV kE kM : species E g -> units_known E (g_mw g) uT kT kP kV kE kM ->
  forall a b Ts m M, List.length a = List.length b ->
  (forall i q, nth_error b i = Some q -> exists r, q = Some r /\ 0 < r) -> 0 < m ->
  m_T g E [] [("s", a); ("d", b)] = Ok Ts \/ m_T_s g E a None (Some b) = Ok Ts ->
  call_warns g E [("s", a); ("d", b)] = Ok false ->
  steep (fun t => value (fst (g_s g (Some t))) - gas_constant * ln t)
    (fun t => (value (g_cp g (Some t)) - gas_constant) / t) (Tlow g) (Thigh g) m M ->
  exists out, m_s g E [] [("T", Ts); ("d", b)] = Ok out /\ List.length out = List.length a /\
    forall i y, nth_error a i = Some (Some y) -> exists z, nth_error out i = Some (Some z) /\
      Rabs (z - y) <= M / m * (/ 1000000 * Rabs y).
Proof.
  intros S U a b Ts m M Hl Hb Hm HT HW HS.
  assert (m_T g E [] [("s", a); ("d", b)] = Ok Ts) as HT' by (destruct HT; assumption).
  exact (sd_found E g _ _ _ _ _ _ S U a b Ts m M Hl Hb Hm HT' HW HS).
Qed.
Lemma p_s_back E g uT kT kP kV kE kM : species E g -> units_known E (g_mw g) uT kT kP kV kE kM ->
  forall a s Ps, List.length a = List.length s -> m_p_s g E s (Some a) = Ok Ps ->
  exists Ss, m_s g E [] [("T", a); ("p", Ps)] = Ok Ss /\ List.length Ss = List.length s /\
    forall i p x, nth_error Ps i = Some (Some p) -> nth_error s i = Some (Some x) ->
      nth_error Ss i = Some (Some x) /\ 0 < p.
Proof.
  intros S U a s Ps Hl H. apply (p_then_s E g _ _ _ _ _ _ S U a s Ps Hl).
  unfold m_p_s in H. rewrite (m_p_val _ _ _ _ _ _ _ _ U) in H |- *.
  rewrite argparse_two in H |- * by reflexivity. rewrite (solve_units _ _ _ _ _ _ _ _ U) in H |- *. exact H.
Qed.

(* one argument: T() takes the default pressure where state() takes the default temperature *)
Lemma state_T_differs :
  let E := session "Pa" 100000 "Pa" in
  exists st t t', m_state g1 E [] [("d", [Some (5/100)])] = Ok st /\ dget "T" st = Some [Some t] /\
    m_T g1 E [] [("d", [Some (5/100)])] = Ok [Some t'] /\ t <> t'.
Proof.
  intro E. pose proof (units_Pa 100000 "Pa") as U. fold E in U. pose proof Ru_bounds as B.
  assert (argparse g1 E [] [("d", [Some (5/100)])] = Ok ([Some 300], None, Some [Some (5/100)])) as A.
  { unfold argparse, positional, defaults. cbn [bind List.length Nat.ltb Nat.leb].
    assert (def_T (e_cfg E) (e_defT E) (e_defTu E) = Ok 300) as ->.
    { unfold def_T. rewrite (tscale_resolved _ _ (Some (e_defTu E)) None "K" "K") by reflexivity.
      rewrite tscale_not_abs by discriminate. cbn. reflexivity. }
    cbn [dmem dget String.eqb Ascii.eqb Bool.eqb bind dset rules].
    rewrite (solve_units _ _ _ _ _ _ _ _ U).
    cbn [dget String.eqb Ascii.eqb Bool.eqb option_map]. unfold core. cbn [ores bind].
    unfold inD, inT. cbn [map fmul lift2 lift1]. rewrite broadcast_one. cbn [bind].
    replace (1 / 1 * (5 / 100)) with (5 / 100) by field.
    unfold bounds. cbn [forallb map].
    assert (to_kelvin "K" 300 = 300) as -> by reflexivity.
    assert (out_of_range g1 (Some 300) = false) as ->.
    { unfold out_of_range, flt. change (Tlow g1) with 200; change (Thigh g1) with 1000.
      destruct (Rlt_dec 300 200); [lra|]. destruct (Rlt_dec 1000 300); [lra|reflexivity]. }
    reflexivity. }
  destruct one_d_inconsistent as (t' & q & HT & Hp & _ & Hne). fold E in HT, Hp.
  unfold m_state. rewrite A. cbn [bind].
  rewrite (atscale_from _ _ _ _ _ _ _ _ U), (p_out _ _ _ _ _ _ _ _ U),
    (density_out _ _ _ _ _ _ _ _ U g1 eq_refl), (energy_out _ _ _ _ _ _ _ _ U g1 eq_refl). cbn [bind].
  rewrite (heat_from_energy _ _ _ _ _ _ _ _ U). cbn [bind].
  eexists _, 300, t'. split; [reflexivity|]. split; [reflexivity|]. split; [exact HT|].
  rewrite (m_p_val _ _ _ _ _ _ _ _ U), A in Hp. cbn [bind the_p] in Hp.
  unfold p_of, map2 in Hp. cbn [combine map fst snd fmul lift2] in Hp. injection Hp as <-.
  intro K. apply Hne. rewrite <- K. unfold R1000. rewrite Ru_gas. field.
Qed.

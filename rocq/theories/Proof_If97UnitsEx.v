(* Concrete sessions for the steam methods, and the counterexamples of C94 and C95. *)
From Coq Require Import Reals ZArith List Bool String Lia Lra Arith.
From Verif Require Import Base Model_Num Model_Units Model_If97 Model_If97Units Spec_Units Spec_Igas Spec_Mp1 Spec_If97 Spec_If97Units
  Proof_Units Proof_Defaults Proof_IgasUnits Proof_Jets Proof_Mp1Poly Proof_If97Poly Proof_If97Sat Proof_If97En Proof_If97Prop Proof_If97Inv Proof_If97Ex
  Proof_If97Units Proof_If97UnitsB Proof_If97UnitsC Proof_If97Ts.
Import ListNotations.
Local Open Scope R_scope.
Local Open Scope string_scope.
Local Open Scope list_scope.

Definition water (T p m : string) (dT dp : R) : env :=
  {| e_setup := default_setup;
     e_cfg := [("unit_temperature", T); ("unit_pressure", p); ("unit_volume", "m3"); ("unit_energy", "kJ"); ("unit_matter", m);
               ("unit_mass", "g"); ("unit_molar", "mol")];
     e_defT := dT; e_defTu := "K"; e_defp := dp; e_defpu := "bar"; e_oob := None |}.
Ltac uk := constructor; cbn; try reflexivity; try lra; eauto using default_positive;
  try (eexists; split; reflexivity); auto 8.
Lemma unitsW dT dp : units_known (water "K" "bar" "kg" dT dp) (if_mw exW) "K" (9/5) (10^5) 1 1000 (1 / if_mw exW).
Proof. uk. Qed.
Lemma unitsR dT dp : units_known (water "R" "bar" "kg" dT dp) (if_mw exW) "R" 1 (10^5) 1 1000 (1 / if_mw exW).
Proof. uk. Qed.
Lemma unitsC dT dp : units_known (water "C" "bar" "kg" dT dp) (if_mw exW) "C" (9/5) (10^5) 1 1000 (1 / if_mw exW).
Proof. uk. Qed.
Lemma unitsPa dT dp : units_known (water "K" "Pa" "kg" dT dp) (if_mw exW) "K" (9/5) 1 1 1000 (1 / if_mw exW).
Proof. uk. Qed.
Lemma unitsM dT dp : units_known (water "K" "bar" "kmol" dT dp) (if_mw exW) "K" (9/5) (10^5) 1 1000 1.
Proof. uk. Qed.

(* ---- a state of region 2 ---- *)
Lemma volumeW2 p T h s v e cp : 0 < T -> 0 < p -> gibbs_state (gibbs2 exW) p T h s v e cp -> 100 * v = 0.461526 * T * (/ p - (540 / T - 0.5) / 500).
Proof.
  intros HT Hp (_ & A & _). refine (uniqueness_limite _ _ _ _ A _).
  eapply (D_ext_pos (fun u => (0.461526 * T * (10 * (540 / T) - ln 10) + 0.461526 * T * (- ((540 / T - 0.5) / 500)) * u) + 0.461526 * T * ln u)); [exact Hp| |].
  - intros u Hu. unfold gibbs2, gamma2, poly. cbn [if_r2o if_r2r exW]; unfold total; cbn [exW map fold_right ta tm tn fst snd if_R].
    change (powerRZ (u / 10) 1) with (u / 10 * 1). change (powerRZ (540 / T) 1) with (540 / T * 1).
    change (powerRZ (540 / T - 0.5) 1) with ((540 / T - 0.5) * 1). change (powerRZ (u / 10) 0) with 1.
    unfold Rdiv at 4. replace (ln (u / 10)) with (ln u - ln 10). { field. lra. }
    unfold Rdiv. rewrite ln_mult by lra. rewrite ln_Rinv by lra. ring.
  - eapply D_eq; [apply D_plus; [apply D_affine|apply D_scal, D_ln; exact Hp]|]. field. lra.
Qed.
Lemma entropyW2 p T h s v e cp : 0 < T -> 0 < p -> gibbs_state (gibbs2 exW) p T h s v e cp -> s = - (0.461526 * (p / 10 * 0.5 / 50 + ln (p / 10))).
Proof.
  intros HT Hp (A & _).
  assert (B : deriv (fun u => gibbs2 exW p u) T (0.461526 * (p / 10 * 0.5 / 50 + ln (p / 10)))).
  { eapply (D_ext_pos (fun u => 0.461526 * (5400 - p / 10 * 540 / 50) + 0.461526 * (p / 10 * 0.5 / 50 + ln (p / 10)) * u)); [exact HT| |].
    - intros u Hu. unfold gibbs2, gamma2, poly. cbn [if_r2o if_r2r exW]; unfold total; cbn [exW map fold_right ta tm tn fst snd if_R].
      change (powerRZ (p / 10) 1) with (p / 10 * 1). change (powerRZ (540 / u) 1) with (540 / u * 1).
      change (powerRZ (540 / u - 0.5) 1) with ((540 / u - 0.5) * 1). change (powerRZ (p / 10) 0) with 1. field. lra.
    - apply D_affine. }
  pose proof (uniqueness_limite _ _ _ _ A B). lra.
Qed.
Lemma entropyW1 p T h s v e cp : 0 < T -> gibbs_state (gibbs1 exW) p T h s v e cp -> s = - (0.461526 * (5 - 3/10 * (7.1 - p / 165.3) * 1.222)).
Proof.
  intros HT (A & _).
  assert (B : deriv (fun u => gibbs1 exW p u) T (0.461526 * (5 - 3/10 * (7.1 - p / 165.3) * 1.222))).
  { eapply (D_ext_pos (fun u => 0.461526 * (3/10 * (7.1 - p / 165.3) * 1386) + 0.461526 * (5 - 3/10 * (7.1 - p / 165.3) * 1.222) * u)); [exact HT| |].
    - intros u Hu. unfold gibbs1, gamma1, poly. cbn [if_r1 exW]; unfold total; cbn [exW map fold_right ta tm tn fst snd if_R].
      change (powerRZ (7.1 - p / 165.3) 1) with ((7.1 - p / 165.3) * 1). change (powerRZ (1386 / u - 1.222) 1) with ((1386 / u - 1.222) * 1).
      change (powerRZ (7.1 - p / 165.3) 0) with 1. change (powerRZ (1386 / u - 1.222) 0) with 1. field. lra.
    - apply D_affine. }
  pose proof (uniqueness_limite _ _ _ _ A B). lra.
Qed.
(* dry steam at 900 K *)
Lemma steamW p : 0 < p <= 1000 -> exists h s d e cp cv, answers exW false false (Some 900) (Some p) (Some (-1)) (Some h) (Some s) (Some d) (Some e) (Some cp) cv /\
  s = - (0.461526 * (p / 10 * 0.5 / 50 + ln (p / 10))) /\ h = 0.461526 * (5400 - p / 10 * 540 / 50).
Proof.
  intro Hp. destruct (region2_state exW false false 900 p (-1)) as (h & s & v & e & cp & cv & S & _ & A); try lra; [|apply fitW2|].
  { apply region_two; [intro; lra|]. unfold accepted_range. lra. }
  pose proof (volumeW2 p 900 h s v e cp ltac:(lra) ltac:(lra) S) as V. pose proof (entropyW2 p 900 h s v e cp ltac:(lra) ltac:(lra) S) as Es.
  exists h, s, (1 / v), e, cp, cv. split; [|split; [exact Es|apply gibbsW2 in S; [exact S|lra]]]. apply A. intros ->.
  assert (/ 1000 <= / p) by (apply Rinv_le_contravar; lra). lra.
Qed.
Lemma ln30 : 0 < ln 30.
Proof. rewrite <- ln_1. apply ln_increasing; lra. Qed.

Lemma exact1 {X} (a b : X) (P : Prop) : P -> a = b -> P /\ a = b. Proof. auto. Qed.
Lemma reports_ok answer v sr sv : 0 < sr -> 0 < sv -> reports answer (Ok (Some v)) sr sv -> exists r, answer = Ok [Some r] /\ r = v * sv / sr.
Proof.
  intros H1 H2 (r & -> & S). destruct r as [r|]; [|contradiction]. exists r. split; [reflexivity|].
  cbn in S. apply (Rmult_eq_reg_r sr); [|lra]. rewrite S. field. lra.
Qed.
Lemma mwW : if_mw exW = 18.015268. Proof. reflexivity. Qed.

(* in bar, K, kJ and kg the methods answer at 900 K and 300 bar *)
Lemma calls dT dp : exists h s d e cp cv, In (u_h exW (water "K" "bar" "kg" dT dp)) (property_methods exW (water "K" "bar" "kg" dT dp)) /\
  u_h exW (water "K" "bar" "kg" dT dp) (just (Some 900)) (just (Some 300)) None = Ok [Some h] /\
  u_s exW (water "K" "bar" "kg" dT dp) (just (Some 900)) (just (Some 300)) None = Ok [Some s] /\
  u_d exW (water "K" "bar" "kg" dT dp) (just (Some 900)) (just (Some 300)) None = Ok [Some d] /\
  u_e exW (water "K" "bar" "kg" dT dp) (just (Some 900)) (just (Some 300)) None = Ok [Some e] /\
  u_cp exW (water "K" "bar" "kg" dT dp) (just (Some 900)) (just (Some 300)) None = Ok [Some cp] /\
  u_cv exW (water "K" "bar" "kg" dT dp) (just (Some 900)) (just (Some 300)) None = Ok [cv].
Proof.
  set (E := water "K" "bar" "kg" dT dp).
  destruct (steamW 300 ltac:(lra)) as (h & s & d & e & cp & cv & (Ah & As & Ad & Ae & Acp & Acv) & _).
  pose proof (unitsW dT dp : units_known E _ _ _ _ _ _ _) as U. pose proof mwW as M.
  assert (B : in_bar E (10^5) (10^5) (Some 300) = 300) by (cbn; lra).
  assert (Hm : 0 < 1 / if_mw exW) by (rewrite M; lra).
  assert (P1 : 0 < 1000 / (1 / if_mw exW)) by (rewrite M; lra).
  assert (Q : forall f g user own, In (f, g, user, own) (measured exW E (9/5) 1 1000 (1 / if_mw exW)) ->
     reports (f (just (Some 900)) (just (Some 300)) None) (g false false (Some 900) (Some 300) (Some (-1))) user own).
  { intros f g user own HI. pose proof (five_report exW E _ _ _ _ _ _ U (Some 900) (Some 300) None (10^5)) as R.
    rewrite B in R. cbn [in_kelvin absent quality] in R. change (to_kelvin "K" 900) with 900 in R. apply R; [discriminate|discriminate|exact HI]. }
  pose proof (entropy_report exW E _ _ _ _ _ _ U (Some 900) (Some 300) None (10^5) ltac:(discriminate) ltac:(discriminate) eq_refl) as Rs.
  rewrite B in Rs. cbn [in_kelvin absent quality] in Rs. change (to_kelvin "K" 900) with 900 in Rs.
  assert (Qh := Q _ _ _ _ (or_introl eq_refl)). assert (Qe := Q _ _ _ _ (or_intror (or_introl eq_refl))).
  assert (Qcp := Q _ _ _ _ (or_intror (or_intror (or_introl eq_refl)))). assert (Qcv := Q _ _ _ _ (or_intror (or_intror (or_intror (or_introl eq_refl))))).
  assert (Qd := Q _ _ _ _ (or_intror (or_intror (or_intror (or_intror (or_introl eq_refl)))))).
  rewrite Ah in Qh. rewrite Ae in Qe. rewrite Acp in Qcp. rewrite Acv in Qcv. rewrite Ad in Qd. rewrite As in Rs.
  assert (K2 : 0 < 1000 / (1 / if_mw exW) / (9/5)) by lra.
  apply reports_ok in Qh; [|lra|unfold kJ_per_kg; lra]. apply reports_ok in Qe; [|lra|unfold kJ_per_kg; lra]. apply reports_ok in Qcp; [|lra|unfold kJ_per_kg_K; lra].
  apply reports_ok in Qd; [|lra|unfold kg_per_m3; lra]. apply reports_ok in Rs; [|lra|unfold kJ_per_kg_K; lra].
  destruct Qh as (rh & Ph & _), Qe as (re & Pe & _), Qcp as (rcp & Pcp & _), Qd as (rd & Pd & _), Rs as (rs & Ps & _), Qcv as (rcv & Pcv & _).
  exists rh, rs, rd, re, rcp, rcv. split; [left; reflexivity|]. auto 8.
Qed.
(* the phases of the concrete steam at 10 bar *)
Lemma phasesW : exists T hL hV sL sV, 452 < T < 454 /\ if_Ts exW (Some 10) = Some T /\ if_ps exW (Some T) = Some 10 /\
  phases exW (h_g exW) 1 (Some T) (Some 10) = Ok (Some hL, Some hV) /\ phases exW (s_g exW) 1 (Some T) (Some 10) = Ok (Some sL, Some sV) /\
  hL = 0.461526 * (3/10) * (7.1 - 10 / 165.3) * 1386 /\ hV = 0.461526 * (5400 - 10 / 10 * 540 / 50) /\ sL < sV < 0.
Proof.
  destruct satW as (T & HT & _ & Hp & Hs).
  destruct (phases_of exW T 10 (fitW1 _ _) (fitW2 _ _)) as (hL & sL & vL & eL & cpL & cvL & hV & sV & vV & eV & cpV & cvV & S1 & _ & S2 & _ & Q & Qs & _); [lra|lra|].
  exists T, hL, hV, sL, sV. split; [exact HT|]. split; [exact Hs|]. split; [exact Hp|]. split; [exact Q|]. split; [exact Qs|].
  split; [apply gibbsW1 in S1; [exact S1|lra]|]. split; [apply gibbsW2 in S2; [exact S2|lra]|].
  apply entropyW1 in S1; [|lra]. apply entropyW2 in S2; [|lra|lra]. replace (10 / 10) with 1 in S2 by lra. rewrite ln_1 in S2. lra.
Qed.

(* ---- T_h ---- *)
Lemma kmW : 1 / if_mw exW * if_mw exW = 1. Proof. rewrite mwW. lra. Qed.
Lemma p5 : 10^5 = 100000. Proof. lra. Qed.
Lemma mixture_h E uT kT kP kV kE kM q x : units_known E (if_mw exW) uT kT kP kV kE kM -> e_defTu E = uT -> q * kP / 100000 = 10 -> 0 <= x ->
  forall T hL hV, if_Ts exW (Some 10) = Some T -> phases exW (h_g exW) 1 (Some T) (Some 10) = Ok (Some hL, Some hV) ->
  u_h exW E None (just (Some q)) (just (Some x)) = Ok [Some (mixed_value x hL hV * kJ_per_kg (if_mw exW) / (kE / kM))].
Proof.
  intros U Hd Hq Hx T hL hV HT HP.
  pose proof (five_report exW E _ _ _ _ _ _ U None (Some q) (Some x) kP ltac:(auto) ltac:(discriminate) _ _ _ _ (or_introl eq_refl)) as R.
  cbn [in_bar absent quality] in R. rewrite Hq in R.
  assert (A : if_h exW true false (Some (in_kelvin E uT None)) (Some 10) (Some x) = Ok (Some (mixed_value x hL hV))).
  { unfold if_h, prop. rewrite flt00 by lra. cbn [sat_state]. rewrite HT, HP. cbn [bind mean fst snd fsub fmul fadd lift2]. unfold mixed_value. do 2 f_equal. ring. }
  pose proof (kE_pos _ _ _ _ _ _ _ _ U). pose proof (kM_pos _ _ _ _ _ _ _ _ U).
  change (u_h exW E None (just (Some q)) (just (Some x))) with (u_h exW E (just None) (just (Some q)) (just (Some x))).
  rewrite A in R. apply reports_ok in R; [destruct R as (r & -> & ->); reflexivity| |].
  - apply Rdiv_lt_0_compat; assumption.
  - unfold kJ_per_kg. rewrite mwW. lra.
Qed.
Lemma T_h_round_W dT dp : exists h T, 452 < T < 454 /\ u_h exW (water "K" "bar" "kg" dT dp) None (just (Some 10)) (just (Some (1/4))) = Ok [Some h] /\
  u_T_h exW (water "K" "bar" "kg" dT dp) [Some h] (just (Some 10)) = Ok [(Some T, Some (1/4))].
Proof.
  destruct phasesW as (T & hL & hV & sL & sV & HT & Hs & _ & HP & _ & EL & EV & _).
  pose proof (unitsW dT dp) as U. set (E := water "K" "bar" "kg" dT dp) in *.
  exists (mixed_value (1/4) hL hV), T. split; [exact HT|]. split.
  - rewrite (mixture_h E _ _ _ _ _ _ 10 (1/4) U eq_refl ltac:(lra) ltac:(lra) T hL hV Hs HP). do 3 f_equal. unfold kJ_per_kg. rewrite mwW. field; lra.
  - pose proof (T_h_good exW E _ _ _ _ _ _ U (mixed_value (1/4) hL hV) 10 p5 kmW (or_introl eq_refl)) as G.
    destruct (T_h_round_trip exW false 10 (1/4) T hL hV) as (h & A & B); auto; [apply flt_yes; lra|lra|lra|].
    specialize (A None). unfold if_h, prop in A. rewrite flt00 in A by lra. cbn [sat_state] in A. rewrite Hs, HP in A.
    cbn [bind mean fst snd fsub fmul fadd lift2] in A. apply okj in A.
    replace (mixed_value (1/4) hL hV * 1000 / 1000) with h in G by (injection A as <-; unfold mixed_value; field).
    rewrite B in G. cbn [just option_map]. destruct G as (T' & -> & R). destruct T' as [T'|]; [|contradiction]. cbn in R. subst T'. reflexivity.
Qed.
Theorem T_h_pressure_wrong : exists D Ebar EPa kP kM h T x,
  units_known Ebar (if_mw D) "K" (9/5) kP 1 1000 kM /\ units_known EPa (if_mw D) "K" (9/5) 1 1 1000 kM /\ kP = 100000 /\
  u_T_h D Ebar [Some h] (just (Some 10)) = Ok [(Some T, Some x)] /\
  u_T_h D EPa [Some h] (just (Some (10 * 100000))) = Err PMParamError.
Proof.
  destruct (T_h_round_W 300 1) as (h & T & _ & _ & A). exists exW, (water "K" "bar" "kg" 300 1), (water "K" "Pa" "kg" 300 1), (10^5), (1 / if_mw exW), h, T, (1/4).
  split; [apply unitsW|]. split; [apply unitsPa|]. split; [exact p5|]. split; [exact A|]. apply (T_h_unconverted _ _ _ _ _ _ _ _ (unitsPa 300 1)). lra.
Qed.
Lemma dry D (f : fl -> fl -> res arr) h p T hL hV r : p < 165.292 -> if_Ts D (Some p) = Some T -> phases D (h_g D) 1 (Some T) (Some p) = Ok (Some hL, Some hV) ->
  hL <= h -> hV <= h -> T_h_with D f (Some h) (Some p) = Ok r -> snd r = Some (-1).
Proof.
  intros Hp HT HP H1 H2. unfold T_h_with. cbv zeta. cbn [flt num]. destruct (Rlt_dec p (165292/1000)); [|exfalso; lra].
  rewrite HT. unfold enthalpy. unfold phases in HP.
  destruct (g1 D (Some T) (Some p) 1); cbn [bind] in *; [|discriminate]. destruct (g2 D (Some T) (Some p) 1); cbn [bind] in *; [|discriminate].
  apply okj in HP. injection HP as -> ->. cbn [flt]. destruct (Rlt_dec h hL); [exfalso; lra|]. destruct (Rlt_dec h hV); [exfalso; lra|].
  repeat match goal with
  | |- Ok _ = Ok _ -> _ => intro Q; apply okj in Q; subst r; reflexivity
  | |- Err _ = Ok _ -> _ => discriminate
  | |- context[bind ?x _] => destruct x; cbn [bind]
  | |- context[if ?b then _ else _] => destruct b
  | |- context[T_h5] => unfold T_h5; cbv zeta
  end.
Qed.
Theorem T_h_molar_wrong : exists D E h x, units_known E (if_mw D) "K" (9/5) (10^5) 1 1000 1 /\ 0 < x < 1 /\
  u_h D E None (just (Some 10)) (just (Some x)) = Ok [Some h] /\
  forall T, u_T_h D E [Some h] (just (Some 10)) <> Ok [(T, Some x)].
Proof.
  destruct phasesW as (T & hL & hV & sL & sV & HT & Hs & _ & HP & _ & EL & EV & _).
  pose proof (unitsM 300 1) as U. exists exW, (water "K" "bar" "kmol" 300 1). set (E := water "K" "bar" "kmol" 300 1) in *.
  do 2 eexists. split; [exact U|]. split; [|split; [exact (mixture_h E _ _ _ _ _ _ 10 (1/4) U eq_refl ltac:(lra) ltac:(lra) T hL hV Hs HP)|]]; [lra|].
  intros T2 Q. cbn [just option_map] in Q. rewrite (u_T_h_one exW E _ _ _ _ _ _ U) in Q.
  destruct (T_h_with _ _ _ _) as [[a b]|] eqn:F; cbn [bind fst snd] in Q; [|discriminate].
  assert (Hb : b = Some (1/4)) by congruence.
  apply (dry exW _ _ 10 T hL hV) in F; auto; try lra.
  - cbn [snd] in F. rewrite Hb in F. injection F as F. lra.
  - unfold mixed_value, kJ_per_kg. rewrite mwW. rewrite EL, EV. lra.
  - unfold mixed_value, kJ_per_kg. rewrite mwW. rewrite EL, EV. lra.
Qed.
(* ---- T_h in degrees Celsius at 1000 bar ---- *)
Lemma b23_1000 : exists t, b23_p exW (Some 1000) = Some t /\ 800.1 < t.
Proof.
  unfold b23_p. cbn [if_b23 exW bxW b_3 b_4 b_2 fsub fdiv fadd fsqrt lift2 num].
  destruct (Req_EM_T 0.010192970039326 0); [lra|]. cbn [fsqrt].
  assert (H : 228 < sqrt ((1000 - 139.1883977887) / 0.010192970039326)).
  { rewrite <- (sqrt_pow2 228) by lra. apply sqrt_lt_1_alt. lra. }
  match goal with |- context[Rle_dec ?a ?b] => destruct (Rle_dec a b) as [|N] end; [|exfalso; apply N; lra].
  eexists. split; [reflexivity|]. lra.
Qed.

Lemma steam_h E uT kT kP kV kE kM t q : units_known E (if_mw exW) uT kT kP kV kE kM -> to_kelvin uT t = 900 -> 0 < q * kP / 100000 <= 1000 ->
  u_h exW E (just (Some t)) (just (Some q)) None = Ok [Some (0.461526 * (5400 - q * kP / 100000 / 10 * 540 / 50) * kJ_per_kg (if_mw exW) / (kE / kM))].
Proof.
  intros U Ht Hq.
  pose proof (five_report exW E _ _ _ _ _ _ U (Some t) (Some q) None kP ltac:(discriminate) ltac:(discriminate) _ _ _ _ (or_introl eq_refl)) as R.
  cbn [in_bar in_kelvin absent quality] in R. rewrite Ht in R.
  destruct (steamW _ Hq) as (h & s & d & e & cp & cv & (A & _) & _ & Eh). rewrite A in R.
  pose proof (kE_pos _ _ _ _ _ _ _ _ U). pose proof (kM_pos _ _ _ _ _ _ _ _ U).
  change (u_h exW E (just (Some t)) (just (Some q)) None) with (u_h exW E (just (Some t)) (just (Some q)) (just None)).
  apply reports_ok in R; [destruct R as (r & -> & ->); now rewrite Eh| |].
  - apply Rdiv_lt_0_compat; assumption.
  - unfold kJ_per_kg. rewrite mwW. lra.
Qed.
Theorem T_h_celsius_wrong : exists D E kM t h, units_known E (if_mw D) "C" (9/5) (10^5) 1 1000 kM /\ kM * if_mw D = 1 /\
  u_h D E (just (Some t)) (just (Some 1000)) None = Ok [Some h] /\
  u_T_h D E [Some h] (just (Some 1000)) = Err PMParamError.
Proof.
  exists exW, (water "C" "bar" "kg" 300 1), (1 / if_mw exW), 626.85. pose proof (unitsC 300 1) as U. set (E := water "C" "bar" "kg" 300 1) in *.
  eexists. split; [exact U|]. split; [exact kmW|]. split; [apply (steam_h _ _ _ _ _ _ _ 626.85 1000 U); [cbn; lra|lra]|].
  cbn [just option_map]. rewrite (u_T_h_one exW E _ _ _ _ _ _ U). unfold T_h_with. cbv zeta. cbn [flt fle num].
  destruct (Rlt_dec 1000 (165292/1000)); [exfalso; lra|]. destruct (Rle_dec 1000 1000); [|exfalso; lra].
  destruct (phases_of exW (62315/100) 1000 (fitW1 _ _) (fitW2 _ _)) as (hL & sL & vL & eL & cpL & cvL & hV & sV & vV & eV & cpV & cvV & S1 & _ & S2 & _ & Q & _); [lra|lra|].
  unfold phases in Q. unfold enthalpy at 1. change (num (62315/100)) with (Some (62315/100)). destruct (g1 exW (Some (62315/100)) (Some 1000) 1); cbn [bind] in *; [|discriminate].
  destruct (g2 exW (Some (62315/100)) (Some 1000) 1); cbn [bind] in *; [|discriminate]. apply okj in Q. injection Q as Q1 _. rewrite Q1.
  apply gibbsW1 in S1; [|lra]. cbn [flt].
  destruct (Rlt_dec _ hL) as [C|_]. { exfalso. revert C. unfold kJ_per_kg. rewrite mwW, S1. lra. }
  destruct b23_1000 as (t & -> & Ht).
  pose proof (five_report exW E _ _ _ _ _ _ U (Some t) (Some 1000) None (10^5) ltac:(discriminate) ltac:(discriminate) _ _ _ _ (or_introl eq_refl)) as R.
  cbn [in_bar in_kelvin absent quality] in R. unfold if_h in R.
  destruct (rejected_state exW (h_g exW) (h_f exW) 1 false false (to_kelvin "C" t) (1000 * 10^5 / 100000) (-1)) as [A _]; [unfold accepted_range; cbn; lra|lra|].
  rewrite A in R. cbn [reports] in R. change (just (Some t)) with (Some [Some t]) in R. change (just (Some 1000)) with (Some [Some 1000]) in R.
  change (just None) with (@None arr) in R. match goal with |- context[u_h exW E ?a ?b ?c] => change (u_h exW E a b c) with (u_h exW E (Some [Some t]) (Some [Some 1000]) (@None arr)) end.
  match goal with |- context[bind ?x _] => match x with bind ?y _ => replace y with (@Err arr PMParamError) by (symmetry; exact R) end end. reflexivity.
Qed.
(* ---- the default state ---- *)
Theorem default_wrong : exists D E kM h, units_known E (if_mw D) "C" (9/5) (10^5) 1 1000 kM /\
  e_defTu E = "K" /\ e_defT E = 900 /\ e_defpu E = "bar" /\ e_defp E = 600 /\
  u_h D E (just (Some (900 - 273.15))) (just (Some 600)) None = Ok [Some h] /\
  u_h D E None None None = Err PMParamError.
Proof.
  exists exW, (water "C" "bar" "kg" 900 600), (1 / if_mw exW). pose proof (unitsC 900 600) as U. set (E := water "C" "bar" "kg" 900 600) in *.
  eexists. split; [exact U|]. do 4 (split; [reflexivity|]). split; [apply (steam_h _ _ _ _ _ _ _ _ 600 U); [cbn; lra|lra]|].
  rewrite (default_raw exW E _ _ _ _ _ _ U (u_h exW E)) by (left; reflexivity). cbn [e_defT e_defp E water].
  pose proof (five_report exW E _ _ _ _ _ _ U (Some 900) (Some 600) None (10^5) ltac:(discriminate) ltac:(discriminate) _ _ _ _ (or_introl eq_refl)) as R.
  cbn [in_bar in_kelvin absent quality] in R. unfold if_h in R.
  destruct (rejected_state exW (h_g exW) (h_f exW) 1 false false (to_kelvin "C" 900) (600 * 10^5 / 100000) (-1)) as [A _]; [unfold accepted_range; cbn; lra|lra|].
  rewrite A in R. exact R.
Qed.
Theorem gam_wrong : exists D E T p cp cv, u_cp D E (just (Some T)) (just (Some p)) None = Ok [Some cp] /\
  u_cv D E (just (Some T)) (just (Some p)) None = Ok [cv] /\ u_gam (just (Some T)) (just (Some p)) None = Err ENameError.
Proof.
  destruct (calls 300 1) as (h & s & d & e & cp & cv & _ & _ & _ & _ & _ & A & B). exists exW, (water "K" "bar" "kg" 300 1), 900, 300, cp, cv. auto.
Qed.
(* ---- entropy in degrees Rankine ---- *)
Lemma entropy_R : exists v, if_s exW false false (Some (in_kelvin (water "R" "bar" "kg" 300 1) "R" (Some 1620)))
    (Some (in_bar (water "R" "bar" "kg" 300 1) (10^5) (10^5) (Some 300))) (Some (quality None)) = Ok (Some v) /\ v <> 0.
Proof.
  destruct (steamW 300 ltac:(lra)) as (h & s & d & e & cp & cv & (_ & A & _) & Es & _). exists s.
  replace (in_kelvin _ _ _) with 900 by (cbn; lra). replace (in_bar _ _ _ _) with 300 by (cbn; lra). split; [exact A|].
  rewrite Es. replace (300 / 10) with 30 by lra. pose proof ln30. lra.
Qed.
Lemma saturated_R : exists t Tu pu l v, u_ss exW (water "R" "bar" "kg" 300 1) (Some (Array [Some t])) None = Ok (Tu, pu, [Some l], [Some v]) /\ l <> 0.
Proof.
  destruct phasesW as (T & hL & hV & sL & sV & HT & Hs & Hps & _ & HP & _ & _ & Hlt).
  pose proof (unitsR 300 1) as U. set (E := water "R" "bar" "kg" 300 1) in *.
  exists (T * (9/5)). unfold u_ss, saturated, sat_T. rewrite (atsc _ _ _ _ _ _ _ _ U). cbn [values map bind unconverted].
  replace (lift1 (to_kelvin "R") (Some (T * (9/5)))) with (Some T) by (cbn; f_equal; field).
  rewrite between_in by (intros r [<-|[]]; exists T; split; [reflexivity|cbn; lra]). cbn [bind map snd fst].
  unfold aconvert. rewrite (from_bar _ _ _ _ _ _ _ _ U). cbn [bind]. rewrite (scale_h_is _ _ _ _ _ _ _ _ U). cbn [bind traverse fst snd]. rewrite Hps, HP. cbn [bind map fst snd fmul lift2 num].
  do 4 eexists. split; [reflexivity|]. unfold kJ_per_kg. rewrite mwW. apply Rmult_integral_contrapositive_currified; [|lra]. apply Rgt_not_eq. lra.
Qed.
(* ---- the remaining instances ---- *)
Definition barK := water "K" "bar" "kg" 300 1.
Lemma array_call : exists h, u_h exW barK (Some [Some 900; Some 900]) (just (Some 300)) None = Ok [Some h; Some h].
Proof.
  pose proof (unitsW 300 1) as U. fold barK in U. destruct (steamW 300 ltac:(lra)) as (h & s & d & e & cp & cv & (A & _) & _).
  unfold u_h, method. rewrite (elements_is _ _ _ _ _ _ _ _ U). cbn [just option_map or_default absent].
  unfold broadcast3, broadcast. cbn [bind List.length Nat.eqb combine repeat traverse]. unfold elem_call. cbn [fst snd lift1].
  change (to_kelvin "K" 900) with 900. replace ((Some 300 * num (kpc (10 ^ 5)))%fl) with (Some 300) by (cbn; f_equal; unfold kpc; lra).
  change (num (-1)) with (Some (-1)). rewrite A. cbn [bind]. rewrite (scale_h_is _ _ _ _ _ _ _ _ U). cbn [bind map fmul lift2 num]. eexists. reflexivity.
Qed.
Lemma array_fails : u_h exW barK (Some [Some 900; Some 3000]) (just (Some 300)) None = Err PMParamError.
Proof.
  pose proof (unitsW 300 1) as U. fold barK in U. destruct (steamW 300 ltac:(lra)) as (h & s & d & e & cp & cv & (A & _) & _).
  unfold u_h, method. rewrite (elements_is _ _ _ _ _ _ _ _ U). cbn [just option_map or_default absent].
  unfold broadcast3, broadcast. cbn [bind List.length Nat.eqb combine repeat traverse]. unfold elem_call. cbn [fst snd lift1].
  change (to_kelvin "K" 900) with 900. change (to_kelvin "K" 3000) with 3000. replace ((Some 300 * num (kpc (10 ^ 5)))%fl) with (Some 300) by (cbn; f_equal; unfold kpc; lra).
  change (num (-1)) with (Some (-1)). rewrite A. cbn [bind]. unfold if_h.
  destruct (rejected_state exW (h_g exW) (h_f exW) 1 false false 3000 300 (-1)) as [Z _]; [unfold accepted_range; lra|lra|]. rewrite Z. reflexivity.
Qed.
Lemma saturated_W : exists T L V, u_hs exW barK (Some (Array [Some T])) None = Ok ([Some T], [Some 10], [Some L], [Some V]).
Proof.
  destruct phasesW as (T & hL & hV & sL & sV & HT & Hs & Hps & HP & _).
  pose proof (unitsW 300 1) as U. fold barK in U. exists T. unfold u_hs, saturated, sat_T. rewrite (atsc _ _ _ _ _ _ _ _ U). cbn [values map bind unconverted lift1].
  change (to_kelvin "K" T) with T.
  rewrite between_in by (intros r [<-|[]]; exists T; split; [reflexivity|cbn; lra]). cbn [bind map snd fst].
  unfold aconvert. rewrite (from_bar _ _ _ _ _ _ _ _ U). cbn [bind]. rewrite (scale_h_is _ _ _ _ _ _ _ _ U). cbn [bind traverse fst snd]. rewrite Hps, HP. cbn [bind map fst snd fmul lift2 num].
  do 2 eexists. apply f_equal. repeat apply f_equal2; try reflexivity. do 2 f_equal. lra.
Qed.
Lemma hsd_W : exists h s d, u_hsd exW barK (just (Some 900)) (just (Some 300)) None = Ok (h, s, d).
Proof.
  destruct (calls 300 1) as (h & s & d & e & cp & cv & _ & A & B & C & _). exists [Some h], [Some s], [Some d].
  apply (Proof_If97UnitsC.hsd_agrees exW barK _ _ _ _ _ _ (unitsW 300 1) (just (Some 900)) [300] None); [|auto].
  intros q [<-|[]]. lra.
Qed.
(* ---- T_s ---- *)
Definition exB : ifback := {| if_ts1 := [((0%Z, 0%Z, 300) : term)]; if_ts2a := [((0%Z, 0%Z, 600) : term)]; if_ts2b := [((0%Z, 0%Z, 700) : term)]; if_ts2c := [((0%Z, 0%Z, 800) : term)] |}.
Lemma T_s_W : exists s T, 452 < T < 454 /\ u_s exW barK None (just (Some 10)) (just (Some (1/4))) = Ok [Some s] /\
  u_T_s exW barK exB [Some s] (just (Some 10)) = Ok [(Some T, Some (1/4))].
Proof.
  destruct phasesW as (T & hL & hV & sL & sV & HT & Hs & Hps & _ & HP & _ & _ & Hlt).
  destruct (u_T_s_round_trip exW exB barK _ _ _ _ _ _ (unitsW 300 1) eq_refl eq_refl p5 eq_refl kmW 10 (1/4) T sL sV) as (s & A & B); auto; try lra.
  - cbn. lra.
  - exists s, T. auto.
Qed.
Lemma mixture_T_s : if_pt exW <= 10 <= if_pc exW /\ 10 < 165.292 /\ exists T sL sV, if_Ts exW (Some 10) = Some T /\
  phases exW (s_g exW) 1 (Some T) (Some 10) = Ok (Some sL, Some sV) /\ sL < sV.
Proof. destruct phasesW as (T & hL & hV & sL & sV & HT & Hs & Hps & _ & HP & _ & _ & Hlt). split; [cbn; lra|]. split; [lra|]. exists T, sL, sV. repeat split; auto; lra. Qed.
Theorem T_s_low_wrong : exists D E B kM p v, units_known E (if_mw D) "K" (9/5) (10^5) 1 1000 kM /\ 0 < p /\
  u_s D E (just (Some 900)) (just (Some p)) None = Ok [Some v] /\ u_T_s D E B [Some v] (just (Some p)) = Err PMParamError.
Proof.
  pose proof (unitsW 300 1) as U. fold barK in U. destruct (steamW 0.001 ltac:(lra)) as (h & s & d & e & cp & cv & (_ & A & _) & _).
  pose proof (entropy_report exW barK _ _ _ _ _ _ U (Some 900) (Some 0.001) None (10^5) ltac:(discriminate) ltac:(discriminate) eq_refl) as R.
  cbn [in_bar in_kelvin absent quality] in R. change (to_kelvin "K" 900) with 900 in R. replace (0.001 * 10 ^ 5 / 100000) with 0.001 in R by lra. rewrite A in R.
  pose proof mwW as M.
  apply reports_ok in R; [|rewrite M; lra|unfold kJ_per_kg_K; rewrite M; lra]. destruct R as (r & Er & _).
  exists exW, barK, exB, (1 / if_mw exW), 0.001, r. split; [exact U|]. split; [lra|]. split; [exact Er|].
  apply (twice_converted exW exB barK _ _ _ _ _ _ U); cbn; lra.
Qed.
Theorem T_s_Pa_wrong : exists D EPa B Ebar kM p s T x,
  units_known Ebar (if_mw D) "K" (9/5) (10^5) 1 1000 kM /\ units_known EPa (if_mw D) "K" (9/5) 1 1 1000 kM /\
  u_T_s D Ebar B [Some s] (just (Some p)) = Ok [(Some T, Some x)] /\
  forall s q, q < 165.292 * 100000 -> u_T_s D EPa B [Some s] (just (Some q)) = Err PMParamError.
Proof.
  destruct T_s_W as (s & T & _ & _ & A). exists exW, (water "K" "Pa" "kg" 300 1), exB, barK, (1 / if_mw exW), 10, s, T, (1/4).
  split; [apply unitsW|]. split; [apply unitsPa|]. split; [exact A|]. intros s' q Hq. apply (twice_converted exW exB _ _ _ _ _ _ _ (unitsPa 300 1)); cbn; lra.
Qed.

(* The density from one of e, h, s and the temperature (C81). *)
From Coq Require Import Reals ZArith List String Bool Lia Lra.
From Verif Require Import Base Model_Num Model_Units Model_Defaults Model_Igas Spec_Units Proof_Units Spec_Igas Proof_Igas
  Proof_IgasUnits Proof_IgasArgs Proof_IgasCalls Proof_IgasArr Proof_IgasAcc.
From Verif Require Import Proof_Jets Model_Hybrid Spec_Hybrid Proof_Hybrid.
From Verif Require Import Model_Mp1Calls Model_Mp1Warn Spec_Mp1 Spec_Mp1Calls Spec_Mp1Inv Proof_Mp1Units Proof_Mp1Poly Proof_Mp1Helm Proof_Mp1Res
  Proof_Mp1Props Proof_Mp1Thm Proof_Mp1Sat Proof_Mp1Args Proof_Mp1Calls Proof_Mp1Mix Proof_Mp1SatApi Proof_Mp1Hsd Proof_Mp1Alone Proof_Mp1Inv Proof_Mp1InvT.
Import ListNotations.
Local Open Scope R_scope.
Local Open Scope string_scope.
Local Open Scope list_scope.

Section ST.
  Variables (D : mpdata) (E : env) (fuel : nat) (z : sizes).
  Hypothesis Z : mp_sizes D E z.
  Hypothesis WF : mp_wf D.
  Hypothesis ET : ao_Tscale (mp_AO D) = ar_Tscale (mp_AR D).
  Local Notation kg := (kgs D (z_kM z)).
  Let kVp : 0 < z_kV z := kV_pos _ _ _ _ _ _ _ _ Z.
  Let kgp : 0 < kg := kgs_pos _ _ _ _ _ _ _ _ Z.
  Let kEp : 0 < z_kE z := kE_pos _ _ _ _ _ _ _ _ Z.
  Let kTp : 0 < z_kT z := kT_pos _ _ _ _ _ _ _ _ Z.

  Lemma eos_val n m F : In (n, m) (searched D E fuel) -> In (n, F) (searched_eos D) -> exists c, regular D F /\ 0 < c /\
    (forall varg kw, m varg kw = do l <- mp_argparse D E fuel varg kw;
                  Ok (map (fmul (Some c)) (map (mixed_at F l) l), map s_x l)) /\
    (forall r v, property_is D z n r v <-> v = / c * r) /\ (ar_coef2 (mp_AR D) = None -> forall T d, 0 < T -> 0 < d -> own_derivatives (F []) T d) /\
    n <> "T" /\ n <> "p" /\ n <> "d" /\ n <> "v" /\ n <> "x" /\
    (forall s a, dget n s = Some a -> (forall k, In k ["e"; "h"; "s"] -> k <> n -> dget k s = None) ->
       match dget "h" s, dget "e" s, dget "s" s with
       | Some v, _, _ => Some (in_h D, gH D (z_kE z) (z_kM z) v)
       | None, Some v, _ => Some (in_e D, gH D (z_kE z) (z_kM z) v)
       | None, None, Some v => Some (in_s D, gS D (z_kT z) (z_kE z) (z_kM z) v)
       | None, None, None => None
       end = Some (alone F, map (fmul (Some (/ c))) a)).
  Proof.
    assert (c1 : 0 < kg / z_kE z) by (apply Rdiv_lt_0_compat; assumption).
    assert (c2 : 0 < kg / z_kE z * (z_kT z / (9/5))) by (apply Rmult_lt_0_compat; [assumption|]; apply Rdiv_lt_0_compat; lra).
    assert (I1 : / (kg / z_kE z) = z_kE z / kg) by (field; lra).
    assert (I2 : / (kg / z_kE z * (z_kT z / (9/5))) = z_kE z / kg / (z_kT z / (9/5))) by (field; lra).
    assert (P1 : forall r v, energy_is D z r v <-> v = / (kg / z_kE z) * r).
    { intros r v. rewrite I1. unfold energy_is. fold (kgs D (z_kM z)). split; intro H; [rewrite <- H|rewrite H]; field; lra. }
    assert (P2 : forall r v, entropy_is D z r v <-> v = / (kg / z_kE z * (z_kT z / (9/5))) * r).
    { intros r v. rewrite I2. unfold entropy_is. fold (kgs D (z_kM z)). split; intro H; [rewrite <- H|rewrite H]; field; lra. }
    intros Hm HF.
    destruct Hm as [H|[H|[H|[]]]]; injection H as <- <-; (destruct HF as [H|[H|[H|[]]]]; try discriminate H; injection H as <-).
    - exists (kg / z_kE z). split; [now apply regular_e|]. split; [exact c1|]. split.
      { intros varg kw. unfold mm_e, method. destruct (mp_argparse _ _ _ _ _); [|reflexivity]. cbn [bind]. rewrite (out_energy_val _ _ _ _ _ _ _ _ Z). reflexivity. }
      split; [exact P1|]. split; [intros NC T d HT Hd; destruct (own_all D WF NC [] T d HT Hd) as (_ & _ & _ & _ & _ & Q); auto|].
      repeat (split; [discriminate|]). intros s a G A. rewrite (A "h"), G by (cbn; auto; discriminate). rewrite I1. reflexivity.
    - exists (kg / z_kE z). split; [now apply regular_h|]. split; [exact c1|]. split.
      { intros varg kw. apply (mm_h_val D E fuel z Z). }
      split; [exact P1|]. split; [intros NC T d HT Hd; destruct (own_all D WF NC [] T d HT Hd) as (_ & _ & _ & Q & _); auto|].
      repeat (split; [discriminate|]). intros s a G A. rewrite G. rewrite I1. reflexivity.
    - exists (kg / z_kE z * (z_kT z / (9/5))). split; [now apply regular_s|]. split; [exact c2|]. split.
      { intros varg kw. apply (mm_s_val D E fuel z Z). }
      split; [exact P2|]. split; [intros NC T d HT Hd; destruct (own_all D WF NC [] T d HT Hd) as (_ & Q & _); auto|].
      repeat (split; [discriminate|]). intros s a G A. rewrite (A "h"), (A "e"), G by (cbn; auto; discriminate). rewrite I2. reflexivity.
  Qed.

  Lemma argparse_sT n m F c varg kw i y t T : state_pair varg kw i n y "T" t -> kelvin_is E t T -> in_range (mp_Tlim D) T ->
    (n <> "T" /\ n <> "p" /\ n <> "d" /\ n <> "v" /\ n <> "x" /\
    (forall s a, dget n s = Some a -> (forall k, In k ["e"; "h"; "s"] -> k <> n -> dget k s = None) ->
       match dget "h" s, dget "e" s, dget "s" s with
       | Some v, _, _ => Some (in_h D, gH D (z_kE z) (z_kM z) v)
       | None, Some v, _ => Some (in_e D, gH D (z_kE z) (z_kM z) v)
       | None, None, Some v => Some (in_s D, gS D (z_kT z) (z_kE z) (z_kM z) v)
       | None, None, None => None
       end = Some (alone F, map (fmul (Some (/ c))) a))) -> In (n, m) (searched D E fuel) ->
    exists l, nth_error l i = Some (Some (/ c * y), Some T) /\ mp_argparse D E fuel varg kw = from_sT D E (alone F) l /\
      call_warns D E fuel varg kw = sT_warns D E (alone F) l.
  Proof.
    intros S Kt HT (N1 & N2 & N3 & N4 & N5 & HI) Hn.
    destruct (pair_args D E fuel _ _ _ _ _ _ _ S) as (a & b & Ea & Eb & Ga & Gb & A & Hc & Hi & -> & ->).
    rewrite (si_args_val _ _ _ _ _ _ _ _ Z).
    rewrite (A "p"), (A "x"), (A "v"), (A "d"), Gb by (try discriminate; now apply not_eq_sym).
    cbn [ores bind].
    assert (K1 : T = to_kelvin (z_T z) t) by (apply (tscale_K _ _ _ _ _ _ _ _ Z); exact Kt). subst T.
    destruct (elem_nth_in b i _ Eb) as [k Ek].
    destruct (limited_ok E (mp_Tlim D) (gT (z_T z) b) k (to_kelvin (z_T z) t)) as [LT LT2];
      [unfold gT; exact (nth_map_some (lift1 (to_kelvin (z_T z))) _ _ _ Ek)|exact HT|].
    rewrite LT. cbn [bind option_map].
    assert (IV := HI _ a Ga ltac:(intros q Hq Hq2; apply A; [exact Hq2|]; cbn in Hq; intuition congruence)).
    match goal with |- context [{| a_T := _; a_p := _; a_d := _; a_x := _; a_inv := ?m2 |}] =>
      replace m2 with (Some (alone F, map (fmul (Some (/ c))) a)) by (symmetry; exact IV) end.
    unfold from_args, args_warns. cbn [a_inv a_T a_p a_d a_x]. unfold gT. rewrite map_map.
    match goal with |- context [broadcast2 _ (map ?g b)] =>
      destruct (broadcast2_at (fmul (Some (/ c))) g a b i (Some y) (Some t) Ea Eb Hc Hi) as (l & BL & NL) end.
    rewrite BL. cbn [bind]. exists l. split; [|split; reflexivity].
    cbn [lift1] in NL, LT2. rewrite LT2 in NL. exact NL.
  Qed.

  Section AtT.
  Variables (F : list (fl * fl) -> inner) (T : R) (Y : R -> R).
  Hypothesis RF : regular D F.
  Hypothesis HT : 0 < T.
  Hypothesis EV : forall d, 0 < d -> evaluable D T d.
  Hypothesis HY : forall d, 0 < d -> at_state F T d (Y d).
  Lemma Y_at all d : 0 < d -> fits D all T d -> value0 (F all (Some T) (Some d) 0%nat) = Some (Y d) /\
    exists vT vd, F all (Some T) (Some d) 1%nat = (Some (Y d), Some vT, Some vd).
  Proof. intros Hd FI. apply (value_at D F T RF HT); auto. Qed.
  Lemma Y_alone d : 0 < d -> value0 (alone F (Some T) (Some d) 0%nat) = Some (Y d).
  Proof. intro Hd. exact (proj1 (Y_at _ d Hd (fits_one _ _ _))). Qed.
  Lemma limits_sT v lo0 hi : property_limits D T Y v lo0 hi ->
    exists d1 d2, plan_sT D (alone F) (Some v) (Some T) = {| st_da := Some lo0; st_db := Some hi; st_sat := false; st_d1 := d1; st_d2 := d2; st_x := num (-1) |}
      /\ d1 = None.
  Proof.
    intro H. unfold plan_sT. destruct H as [(H & -> & ->)|(H & dL & dV & (W1 & W2 & S1 & S2 & EL & EVv) & HV & HL & HH)].
    - unfold num. rewrite flt_false by exact H. do 2 eexists. split; reflexivity.
    - assert (ML : mp_dsl D (Some T) = Some dL) by (unfold mp_dsl; now rewrite (sat_curve_value _ _ W1 S1), EL).
      assert (MV : mp_dsv D (Some T) = Some dV) by (unfold mp_dsv; now rewrite (sat_curve_value _ _ W2 S2), EVv).
      unfold num. rewrite (flt_true T) by exact H. rewrite ML, MV.
      rewrite (Y_alone dL HL), (Y_alone dV HV).
      destruct HH as [(H1 & -> & ->)|(H0 & H1 & -> & ->)].
      + rewrite (fle_false v (Y dV)) by exact H1. rewrite andb_false_r, flt_true by exact H1. do 2 eexists. split; reflexivity.
      + rewrite (fle_false (Y dL) v) by exact H1. cbn [andb]. rewrite flt_false by exact H0. rewrite flt_true by exact H1. do 2 eexists. split; reflexivity.
  Qed.
  Let dmin := fst (mp_dlim D).
  Let dmax := snd (mp_dlim D).
  Hypothesis Hlim : 0 <= dmin < dmax.
  Lemma loop_sT v : forall n k0 w da, w = (dmax - dmin) / 10000 / 2 ^ k0 ->
    (k0 = 0%nat \/ Y (dmin + 2 * w) < v) ->
    sT_loop D n (alone F) (Some v) (Some T) (Some (dmin + w)) = Ok da ->
    exists k, (k0 <= k <= k0 + n)%nat /\ da = Some (dmin + (dmax - dmin) / 10000 / 2 ^ k) /\ v <= Y (dmin + (dmax - dmin) / 10000 / 2 ^ k) /\
      (k = 0%nat \/ Y (dmin + 2 * ((dmax - dmin) / 10000 / 2 ^ k)) < v).
  Proof.
    intro n. induction n as [|n IH]; intros k0 w da Ew Hp.
    all: assert (P2 : 0 < 2 ^ k0) by (apply pow_lt; lra).
    all: assert (Hw : 0 < w) by (rewrite Ew; apply Rdiv_lt_0_compat; lra).
    all: cbn [sT_loop]; rewrite (Y_alone (dmin + w) ltac:(lra)); cbn [flt];
      destruct (Rlt_dec (Y (dmin + w)) v) as [L|L]; try discriminate.
    - intro H. injection H as <-. exists k0. rewrite <- Ew. split; [lia|]. split; [reflexivity|]. split; [lra|exact Hp].
    - intro H. unfold num in H. cbn [fmul fadd lift2] in H. fold dmin in H.
      replace (5/10 * (dmin + (dmin + w))) with (dmin + w / 2) in H by lra.
      destruct (IH (S k0) (w / 2) da) as (k & Hk & R); [rewrite Ew; cbn [pow]; field; lra|right; replace (2 * (w/2)) with w by field; exact L|exact H|].
      exists k. split; [lia|exact R].
    - intro H. injection H as <-. exists k0. rewrite <- Ew. split; [lia|]. split; [reflexivity|]. split; [lra|exact Hp].
  Qed.
  Lemma lower_sT v lo0 hi d1 d2 x da : sT_lower D (alone F) (Some v) (Some T) {| st_da := Some lo0; st_db := Some hi; st_sat := false; st_d1 := d1; st_d2 := d2; st_x := x |} = Ok da ->
    exists lo, da = Some lo /\ lower_limit D Y v lo0 lo.
  Proof.
    unfold sT_lower, lower_limit. cbn [st_da st_sat]. destruct (Req_EM_T lo0 0) as [Q|Q].
    - unfold num. cbn [fmul fadd lift2]. fold dmin dmax. replace (9999/10000 * dmin + 1/10000 * dmax) with (dmin + (dmax - dmin) / 10000 / 2 ^ 0) by (cbn; field).
      intro H. destruct (loop_sT v 20 0 _ da eq_refl (or_introl eq_refl) H) as (k & Hk & -> & H1 & H2).
      eexists. split; [reflexivity|]. right. split; [exact Q|]. exists k. split; [lia|]. split; [reflexivity|]. split; [exact H1|].
      replace (dmin + (dmax - dmin) / 10000 / 2 ^ k - dmin) with ((dmax - dmin) / 10000 / 2 ^ k) by ring. exact H2.
    - intro H. injection H as <-. exists lo0. auto.
  Qed.
  End AtT.

  Theorem density_from_T n m F : In (n, m) (searched D E fuel) -> In (n, F) (searched_eos D) -> forall varg kw i y v t T ys xs,
    state_pair varg kw i n y "T" t -> property_is D z n y v -> kelvin_is E t T -> in_range (mp_Tlim D) T -> 0 < T ->
    0 <= fst (mp_dlim D) < snd (mp_dlim D) ->
    mm_d D E fuel varg kw = Ok (ys, xs) -> evaluated_alone D xs -> call_warns D E fuel varg kw = Ok false ->
    (forall d, 0 < d -> evaluable D T d) ->
    forall Y, (forall d, 0 < d -> at_state F T d (Y d)) ->
    forall lo0 hi, property_limits D T Y v lo0 hi ->
    nth_error xs i = Some (Some (-1)) /\
    exists lo, lower_limit D Y v lo0 lo /\
    (lo <= hi -> Y lo <> v -> Y hi <> v ->
    (bracketed Y lo hi v -> exists r d, nth_error ys i = Some (Some r) /\ density_is D z r d /\ solves Y lo hi v (1 / 1000000) d /\
       (ar_coef2 (mp_AR D) = None -> found Y lo hi v (1 / 1000000) d) /\
       (exists vs y', m varg kw = Ok (vs, xs) /\ nth_error vs i = Some (Some y') /\ property_is D z n y' (Y d)) /\
       (exists ts t', mm_T D E fuel varg kw = Ok (ts, xs) /\ nth_error ts i = Some (Some t') /\ kelvin_is E t' T)) /\
    (~ bracketed Y lo hi v -> e_oob E = None -> nth_error ys i = Some None)).
  Proof.
    intros Hm HF varg kw i y v t T ys xs S Py Kt HTr HT Hlim Hd AL Hw EV Y HY lo0 hi HL.
    destruct (eos_val n m F Hm HF) as (c & RF & Hc & HM & PI & OD & HI).
    destruct (argparse_sT n m F c varg kw i y t T S Kt HTr HI Hm) as (l & Nl & A & W). rewrite W in Hw. clear W HI.
    apply PI in Py. rewrite <- Py in Nl.
    rewrite (mm_d_val D E fuel _ _ _ _ _ _ Z), A in Hd. unfold from_sT in Hd. unfold sT_warns in Hw.
    destruct (traverse (sT_elem D (alone F)) _) as [es|] eqn:TR; [|discriminate]. cbn [bind] in Hd, Hw.
    destruct (hybrid1 true ep1 50 (xf_of (e_oob E)) es) as [[qs w]|] eqn:HYB; [|discriminate]. cbn [bind fst snd] in Hd, Hw.
    injection Hw as ->.
    match type of Hd with context [map2 ?f ?u qs] => set (la := map2 f u qs) in Hd end. injection Hd as <- <-.
    assert (FH : mp_argparse D E fuel varg kw = Ok la).
    { rewrite A. unfold from_sT. rewrite TR. cbn [bind]. rewrite HYB. reflexivity. }
    pose proof (nth_map_some (fun e => (e, plan_sT D (alone F) (fst e) (snd e))) _ _ _ Nl) as Nm. cbn [fst snd] in Nm.
    destruct (limits_sT F T Y RF HT EV HY v lo0 hi HL) as (d1 & d2 & PL & ->).
    match type of Nm with _ = Some (?u, _) => assert (Nm2 : nth_error (map (fun e => (e, plan_sT D (alone F) (fst e) (snd e))) l) i = Some (u, {| st_da := Some lo0; st_db := Some hi; st_sat := false; st_d1 := None; st_d2 := d2; st_x := num (-1) |})) by (rewrite Nm; do 2 f_equal; exact PL) end.
    destruct (traverse_nth _ _ _ _ _ TR Nm2) as (e & Fe & Ne). unfold sT_elem in Fe.
    destruct (sT_lower _ _ _ _ _) as [da|] eqn:LW; [|discriminate]. cbn [bind] in Fe. injection Fe as Fe.
    destruct (lower_sT F T Y RF HT EV HY Hlim v _ _ _ _ _ _ LW) as (lo & -> & LL). cbn [xf_of st_db st_d1 st_sat negb] in Fe.
    assert (PT : forall q, nth_error qs i = Some q -> nth_error la i = Some (single (Some T) (fl_of q))).
    { intros q Nq. unfold la, map2. rewrite (nth_map_some _ _ _ _ (nth_combine _ _ _ _ _ Nm2 Nq)). reflexivity. }
    assert (LEN : exists x, nth_error qs i = Some x).
    { destruct (nth_error qs i) as [x|] eqn:Q; [eauto|]. exfalso. apply nth_error_None in Q.
      unfold hybrid1 in HYB. destruct (existsb e_sel es && _)%bool; [discriminate|]. injection HYB as HYB _. rewrite <- HYB, map_length in Q.
      assert (i < List.length es)%nat by (apply nth_error_Some; congruence). lia. }
    destruct LEN as (x0 & Nx0).
    split; [rewrite (nth_map_some s_x _ _ _ (PT _ Nx0)); reflexivity|].
    exists lo. split; [exact LL|]. intros Hle Na Nb.
    assert (Hlo : 0 < lo).
    { destruct LL as [(Q & ->)|(Q & k & _ & -> & _)].
      - destruct HL as [(_ & -> & _)|(_ & dL & dV & _ & HV & HL & [(_ & -> & _)|(_ & _ & -> & _)])]; lra.
      - assert (0 < 2 ^ k) by (apply pow_lt; lra). assert (0 < (snd (mp_dlim D) - fst (mp_dlim D)) / 10000 / 2 ^ k) by (apply Rdiv_lt_0_compat; lra). lra. }
    assert (PR : problem e Y lo hi v).
    { subst e. constructor; cbn [e_min e_max e_y e_fn]; try reflexivity; [exact Hle| | |].
      - intros x [Hx _]. destruct (proj2 (Y_at F T Y RF HT EV HY [(Some T, Some x)] x ltac:(lra) (fits_one _ _ _))) as (vT & vd & Q).
        exists (Fin vd). split; [|discriminate]. exact (f_equal (fun t : fl * fl * fl => let '(y, _, yd) := t in (xf_of y, xf_of yd)) Q).
      - intros [Q _]. contradiction.
      - intros [Q _]. contradiction. }
    assert (SE : e_sel e = true) by (subst e; reflexivity).
    assert (EP : 0 <= ep1) by (unfold ep1; lra).
    destruct (hybrid_elem _ _ _ _ _ _ _ _ _ _ _ EP HYB Ne SE PR) as [HB HN]. split.
    - intro B. destruct (HB B) as (d & Nd & SV). specialize (PT _ Nd). cbn [fl_of] in PT.
      assert (Hd0 : 0 < d) by (destruct SV as [[V _] _]; lra).
      exists (z_kV z / kg * d), d.
      split; [rewrite (nth_map_some _ _ _ _ (nth_map_some mix_density _ _ _ PT)); reflexivity|].
      split; [unfold density_is; fold (kgs D (z_kM z)); field; lra|].
      split; [exact SV|].
      split; [intro NC; apply solves_found; [exact EP|intros x Hx; apply (continuous_at D F T Y RF HT NC HY); [intros; now apply OD|lra]|exact SV]|]. split.
      + exists (map (fmul (Some c)) (map (mixed_at F la) la)), (c * Y d). rewrite HM, FH. cbn [bind]. split; [reflexivity|].
        split; [|apply PI; field; lra].
        assert (LN : lone D la (single (Some T) (Some d))) by (apply (lone_nth D la _ i (map s_x la)); [exact AL|now rewrite map_length|exact PT]).
        pose proof (lone_liquid D la _ T d LN eq_refl eq_refl) as FI.
        rewrite (nth_map_some _ _ _ _ (nth_map_some _ _ _ _ PT)). unfold mixed_at, single. cbn [s_sat s_T s_d1].
        rewrite (proj1 (Y_at F T Y RF HT EV HY _ d Hd0 FI)). reflexivity.
      + do 2 eexists. rewrite (mm_T_val D E fuel z Z), FH. cbn [bind]. split; [reflexivity|].
        split; [rewrite (nth_map_some _ _ _ _ (nth_map_some _ _ _ _ PT)); reflexivity|].
        apply (tscale_K _ _ _ _ _ _ _ _ Z). now rewrite to_from_kelvin.
    - intros B O. specialize (PT _ (HN B)). rewrite O in PT. cbn [xf_of fl_of] in PT.
      rewrite (nth_map_some _ _ _ _ (nth_map_some mix_density _ _ _ PT)). reflexivity.
  Qed.

  (* between the saturated liquid and the saturated vapor nothing is searched for *)
  Theorem saturated_from_T n m F : In (n, m) (searched D E fuel) -> In (n, F) (searched_eos D) -> forall varg kw i y v t T ys xs,
    state_pair varg kw i n y "T" t -> property_is D z n y v -> kelvin_is E t T -> in_range (mp_Tlim D) T -> 0 < T ->
    forall dL dV vL vV, T < mp_Tc D -> saturation D T dL dV -> 0 < dL -> 0 < dV ->
    evaluable D T dL -> evaluable D T dV -> at_state F T dL vL -> at_state F T dV vV -> vL < vV -> vL <= v <= vV ->
    m varg kw = Ok (ys, xs) -> evaluated_alone D xs ->
    exists x, nth_error xs i = Some (Some x) /\ 0 <= x <= 1 /\ v = (1 - x) * vL + x * vV /\ nth_error ys i = Some (Some y) /\
      (exists ts t', mm_T D E fuel varg kw = Ok (ts, xs) /\ nth_error ts i = Some (Some t') /\ kelvin_is E t' T).
  Proof.
    intros Hm HF varg kw i y v t T ys xs S Py Kt HTr HT dL dV vL vV HTc (W1 & W2 & S1 & S2 & EL & EV) HL HV EVL EVV GL GV Hlt Hv Hr AL.
    destruct (eos_val n m F Hm HF) as (c & RF & Hc & HM & PI & OD & HI).
    destruct (argparse_sT n m F c varg kw i y t T S Kt HTr HI Hm) as (l & Nl & A & _). clear HI.
    apply PI in Py. rewrite <- Py in Nl.
    assert (AL1 : value0 (alone F (Some T) (Some dL) 0%nat) = Some vL) by exact (proj1 (value_at D F T RF HT _ dL vL HL EVL GL (fits_one _ _ _))).
    assert (AV1 : value0 (alone F (Some T) (Some dV) 0%nat) = Some vV) by exact (proj1 (value_at D F T RF HT _ dV vV HV EVV GV (fits_one _ _ _))).
    assert (ML : mp_dsl D (Some T) = Some dL) by (unfold mp_dsl; now rewrite (sat_curve_value _ _ W1 S1), EL).
    assert (MV : mp_dsv D (Some T) = Some dV) by (unfold mp_dsv; now rewrite (sat_curve_value _ _ W2 S2), EV).
    set (x := (v - vL) / (vV - vL)).
    assert (PL : exists da db, plan_sT D (alone F) (Some v) (Some T) = {| st_da := da; st_db := db; st_sat := true; st_d1 := Some dL; st_d2 := Some dV; st_x := Some x |}).
    { unfold plan_sT, num. rewrite flt_true by exact HTc. rewrite ML, MV. rewrite AL1, AV1, !fle_true by lra. cbn [andb].
      cbn [fsub lift2]. rewrite fdiv_ok by lra. do 2 eexists. reflexivity. }
    destruct PL as (da & db & PL).
    rewrite HM, A in Hr. unfold from_sT in Hr.
    destruct (traverse (sT_elem D (alone F)) _) as [es|] eqn:TR; [|discriminate]. cbn [bind] in Hr.
    destruct (hybrid1 true ep1 50 (xf_of (e_oob E)) es) as [[qs w]|] eqn:HYB; [|discriminate]. cbn [bind fst snd] in Hr.
    match type of Hr with context [map2 ?f ?u qs] => set (la := map2 f u qs) in Hr end. injection Hr as <- <-.
    assert (FH : mp_argparse D E fuel varg kw = Ok la).
    { rewrite A. unfold from_sT. rewrite TR. cbn [bind]. rewrite HYB. reflexivity. }
    pose proof (nth_map_some (fun e => (e, plan_sT D (alone F) (fst e) (snd e))) _ _ _ Nl) as Nm. cbn [fst snd] in Nm.
    destruct (traverse_nth _ _ _ _ _ TR Nm) as (e & Fe & Ne).
    assert (LEN : exists q, nth_error qs i = Some q).
    { destruct (nth_error qs i) as [q|] eqn:Q; [eauto|]. exfalso. apply nth_error_None in Q.
      unfold hybrid1 in HYB. destruct (existsb e_sel es && _)%bool; [discriminate|]. injection HYB as HYB _. rewrite <- HYB, map_length in Q.
      assert (i < List.length es)%nat by (apply nth_error_Some; congruence). lia. }
    destruct LEN as (q & Nq).
    assert (PT : nth_error la i = Some {| s_T := Some T; s_d1 := Some dL; s_d2 := Some dV; s_x := Some x; s_sat := true |}).
    { unfold la, map2. rewrite (nth_map_some _ _ _ _ (nth_combine _ _ _ _ _ Nm Nq)). cbn [fst snd].
      match goal with |- context [plan_sT D (alone F) ?u ?w] => assert (PL2 : plan_sT D (alone F) u w = {| st_da := da; st_db := db; st_sat := true; st_d1 := Some dL; st_d2 := Some dV; st_x := Some x |}) by exact PL end.
      rewrite PL2. reflexivity. }
    exists x. split; [rewrite (nth_map_some s_x _ _ _ PT); reflexivity|].
    split. { unfold x. split; [apply Rmult_le_pos; [lra|left; apply Rinv_0_lt_compat; lra]|].
      apply (Rmult_le_reg_r (vV - vL)); [lra|]. unfold Rdiv. rewrite Rmult_assoc, Rinv_l by lra. lra. }
    assert (MIX : v = (1 - x) * vL + x * vV) by (unfold x; field; lra).
    split; [exact MIX|]. split.
    - assert (LN : lone D la {| s_T := Some T; s_d1 := Some dL; s_d2 := Some dV; s_x := Some x; s_sat := true |}) by (apply (lone_nth D la _ i (map s_x la)); [exact AL|now rewrite map_length|exact PT]).
      pose proof (lone_liquid D la _ T dL LN eq_refl eq_refl) as F1. pose proof (lone_vapor D la _ T dV LN eq_refl eq_refl eq_refl) as F2.
      rewrite (nth_map_some _ _ _ _ (nth_map_some _ _ _ _ PT)). unfold mixed_at. cbn [s_sat s_T s_d1 s_d2 s_x].
      rewrite (proj1 (value_at D F T RF HT _ dL vL HL EVL GL F1)), (proj1 (value_at D F T RF HT _ dV vV HV EVV GV F2)).
      unfold num. cbn [fmul fadd fsub lift2]. do 2 f_equal. replace (vL * (1 - x) + vV * x) with v by (rewrite MIX; ring). rewrite Py. field. lra.
    - do 2 eexists. rewrite (mm_T_val D E fuel z Z), FH. cbn [bind]. split; [reflexivity|].
      split; [rewrite (nth_map_some _ _ _ _ (nth_map_some _ _ _ _ PT)); reflexivity|].
      apply (tscale_K _ _ _ _ _ _ _ _ Z). now rewrite to_from_kelvin.
  Qed.
End ST.

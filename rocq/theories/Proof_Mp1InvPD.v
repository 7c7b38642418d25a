(* The temperature from pressure and density (C87). *)
From Coq Require Import Reals ZArith List String Bool Lia Lra.
From Verif Require Import Base Model_Num Model_Units Model_Defaults Model_Igas Spec_Units Proof_Units Spec_Igas Proof_Igas
  Proof_IgasUnits Proof_IgasArgs Proof_IgasCalls Proof_IgasArr Proof_IgasAcc Proof_Iter.
From Verif Require Import Proof_Jets Model_Hybrid Spec_Hybrid Proof_Hybrid.
From Verif Require Import Model_Mp1Calls Model_Mp1Warn Spec_Mp1 Spec_Mp1Calls Spec_Mp1Inv Spec_Mp1InvP Spec_Mp1InvPD Proof_Mp1Units Proof_Mp1Poly Proof_Mp1Helm Proof_Mp1Res
  Proof_Mp1Props Proof_Mp1Thm Proof_Mp1Sat Proof_Mp1Args Proof_Mp1Calls Proof_Mp1Mix Proof_Mp1SatApi Proof_Mp1Hsd Proof_Mp1Alone Proof_Mp1Inv Proof_Mp1InvT Proof_Mp1InvS
  Spec_Mp1Ts Proof_Mp1Ts Proof_Mp1InvP.
Import ListNotations.
Local Open Scope R_scope.
Local Open Scope string_scope.
Local Open Scope list_scope.

Section PD.
  Variables (D : mpdata) (E : env) (fuel : nat) (z : sizes).
  Hypothesis Z : mp_sizes D E z.
  Hypothesis WF : mp_wf D.
  Local Notation kg := (kgs D (z_kM z)).
  Let kVp : 0 < z_kV z := kV_pos _ _ _ _ _ _ _ _ Z.
  Let kgp : 0 < kg := kgs_pos _ _ _ _ _ _ _ _ Z.
  Let kPp : 0 < z_kP z := kP_pos D E z Z.

  Lemma argparse_pd varg kw i q p dn r d : state_pair varg kw i "p" q dn r -> pressure_is z q p -> in_range (mp_plim D) p ->
    density_arg D z dn r d ->
    exists l, nth_error l i = Some (Some d, Some p) /\ mp_argparse D E fuel varg kw = from_pd D E l /\
      call_warns D E fuel varg kw = T_warns D E l.
  Proof.
    intros S Kp Hp Hdn.
    destruct (pair_args D E fuel _ _ _ _ _ _ _ S) as (a & b & Ea & Eb & Ga & Gb & A & Hc & Hi & -> & ->).
    rewrite (si_args_val _ _ _ _ _ _ _ _ Z).
    destruct (density_val D E z Z _ _ _ Hdn) as (f & Fr & HF).
    assert (DN : (dn = "d" \/ dn = "v")) by (destruct Hdn as [(-> & _)|(-> & _)]; auto).
    rewrite (A "T"), (A "x"), (A "h"), (A "e"), (A "s"), Ga by (try discriminate; destruct DN; subst; discriminate).
    cbn [ores bind]. unfold pressure_is in Kp.
    destruct (elem_nth_in a i _ Ea) as [k Ek].
    destruct (limited_ok E (mp_plim D) (gP (z_kP z) a) k p) as [LP LP2];
      [unfold gP; rewrite (nth_map_some (fmul (Some (z_kP z))) _ _ _ Ek); cbn; do 2 f_equal; rewrite <- Kp; ring|exact Hp|].
    rewrite LP. cbn [bind option_map].
    assert (DV := HF _ b Gb ltac:(intros k0 Hk Hk2; apply A; [cbn in Hk; intuition congruence|exact Hk2])).
    match goal with |- context [{| a_T := _; a_p := _; a_d := ?m; a_x := _; a_inv := _ |}] =>
      replace m with (Some (map f b)) by (symmetry; exact DV) end.
    unfold from_args, args_warns. cbn [a_inv a_T a_p a_d a_x]. unfold gP. rewrite map_map.
    match goal with |- context [broadcast2 _ (map ?g a)] =>
      destruct (broadcast2_at f g b a i (Some r) (Some q) Eb Ea ltac:(destruct Hc as [Q|[Q|Q]]; rewrite ?Q; auto) ltac:(lia)) as (l & BL & NL) end.
    rewrite BL. cbn [bind]. exists l. split; [|split; reflexivity].
    cbn [fmul lift2] in NL. replace (z_kP z * q) with p in NL by (rewrite <- Kp; ring). rewrite LP2, Fr in NL. exact NL.
  Qed.

  (* what a call computes *)
  Definition sel_of (l : list (fl * fl)) := map (fun e : fl * fl => (negb (fle (num (mp_pc D)) (snd e)), snd e)) l.
  Record pd_run (l : list (fl * fl)) (la : list point) : Type := {
    k_cells : list cell; k_w1 : bool; k_plans : list T_plan; k_qs : list xf; k_w2 : bool;
    k_Ts : iter_loop ep_default (mp_Tt D * (99/100)) (mp_Tc D) 20 20 (map (Ts_cell D) (sel_of l)) = Ok (k_cells, k_w1);
    k_pl : k_plans = map2 (fun e t => plan_T D (fst e) (snd e) t) l (map c_x k_cells);
    k_hy : hybrid1 true ep1 20 (xf_of (e_oob E)) (map2 (fun e pl => T_elem D (fst e) (snd e) pl) l k_plans) = Ok (k_qs, k_w2);
    k_la : la = map2 (fun e t => let '(d, p) := e in let '(T, pl) := t in
      if tp_sat pl
      then {| s_T := T; s_d1 := tp_dsL pl; s_d2 := tp_dsV pl; s_x := quality_of d (tp_dsL pl) (tp_dsV pl); s_sat := true |}
      else single T d) l (map2 (fun t pl => (fl_of t, pl)) k_qs k_plans);
    k_w : T_warns D E l = Ok (k_w1 || k_w2)%bool }.
  Lemma run_pd l la : from_pd D E l = Ok la -> pd_run l la.
  Proof.
    unfold from_pd, mp_T, mp_Ts. fold (sel_of l). destruct (iter_loop _ _ _ _ _ _) as [[cs w1]|] eqn:L; cbn [bind fst snd]; [|discriminate].
    destruct (hybrid1 _ _ _ _ _) as [[qs w2]|] eqn:HY; cbn [bind fst snd]; [|discriminate]. intro H. injection H as <-.
    econstructor; try reflexivity; try eassumption. unfold T_warns, Ts_warns, mp_Ts. fold (sel_of l). rewrite L. cbn [bind fst snd]. rewrite HY. reflexivity.
  Qed.
  Lemma run_pd_at l la (k : pd_run l la) i d p : nth_error l i = Some (Some d, Some p) ->
    exists c q, nth_error (k_cells _ _ k) i = Some c /\
      nth_error (map2 (fun e pl => T_elem D (fst e) (snd e) pl) l (k_plans _ _ k)) i = Some (T_elem D (Some d) (Some p) (plan_T D (Some d) (Some p) (c_x c))) /\
      nth_error (k_qs _ _ k) i = Some q /\
      nth_error la i = Some (let pl := plan_T D (Some d) (Some p) (c_x c) in
        if tp_sat pl
        then {| s_T := fl_of q; s_d1 := tp_dsL pl; s_d2 := tp_dsV pl; s_x := quality_of (Some d) (tp_dsL pl) (tp_dsV pl); s_sat := true |}
        else single (fl_of q) (Some d)).
  Proof.
    intro Nl. destruct k as [cs w1 plans qs w2 L PL HY LA HW]. cbn.
    assert (Hi : (i < List.length l)%nat) by (apply nth_error_Some; congruence).
    pose proof (iter_length _ _ _ _ _ _ _ _ L) as LC. unfold sel_of in LC. rewrite !map_length in LC.
    destruct (nth_error cs i) as [c|] eqn:Nc; [|exfalso; apply nth_error_None in Nc; lia].
    assert (NP : nth_error plans i = Some (plan_T D (Some d) (Some p) (c_x c))).
    { rewrite PL. unfold map2. rewrite (nth_map_some _ _ _ _ (nth_combine _ _ _ _ _ Nl (nth_map_some c_x _ _ _ Nc))). reflexivity. }
    assert (NE : nth_error (map2 (fun e pl => T_elem D (fst e) (snd e) pl) l plans) i = Some (T_elem D (Some d) (Some p) (plan_T D (Some d) (Some p) (c_x c)))).
    { unfold map2. rewrite (nth_map_some _ _ _ _ (nth_combine _ _ _ _ _ Nl NP)). reflexivity. }
    assert (LQ : exists q, nth_error qs i = Some q).
    { destruct (nth_error qs i) as [q|] eqn:Q; [eauto|]. exfalso. apply nth_error_None in Q.
      unfold hybrid1 in HY. destruct (existsb e_sel _ && _)%bool; [discriminate|]. injection HY as HY _. rewrite <- HY, map_length in Q.
      assert (i < List.length (map2 (fun e pl => T_elem D (fst e) (snd e) pl) l plans))%nat by (apply nth_error_Some; congruence). lia. }
    destruct LQ as (q & Nq). exists c, q. split; [reflexivity|]. split; [exact NE|]. split; [exact Nq|].
    assert (N2 : nth_error (map2 (fun t pl => (fl_of t, pl)) qs plans) i = Some (fl_of q, plan_T D (Some d) (Some p) (c_x c))).
    { unfold map2. rewrite (nth_map_some _ _ _ _ (nth_combine _ _ _ _ _ Nq NP)). reflexivity. }
    rewrite LA. unfold map2 at 1. rewrite (nth_map_some _ _ _ _ (nth_combine _ _ _ _ _ Nl N2)). reflexivity.
  Qed.

  (* the boiling point of one element *)
  Lemma boiling_val l la (k : pd_run l la) i d q p Ts c : 0 < mp_Tt D < mp_Tc D -> pressure_is z q p -> nth_error l i = Some (Some d, Some p) ->
    boiling_point D E q p Ts -> nth_error (k_cells _ _ k) i = Some c -> c_x c = Some Ts.
  Proof.
    intros HT0 Kp Nl B Nc.
    assert (SEL : p < mp_pc D -> nth_error (sel_of l) i = Some (true, Some p)).
    { intro Hp. etransitivity; [exact (nth_map_some (fun e : fl * fl => (negb (fle (num (mp_pc D)) (snd e)), snd e)) _ _ _ Nl)|].
      cbn [snd]. unfold num. rewrite fle_false by lra. reflexivity. }
    destruct B as [(Hp & B)|(Hp & Hpc & ->)].
    - destruct (Ts_same D E z Z q p Ts _ i _ _ HT0 Kp ltac:(lra) B (k_Ts _ _ k) (SEL ltac:(lra))) as (c2 & N2 & X2). congruence.
    - pose proof (k_Ts _ _ k) as H.
      assert (CALM : Forall (calm (mp_Tt D * (99/100)) (mp_Tc D)) (map (Ts_cell D) (sel_of l))).
      { apply Forall_forall. intros c0 Hc. apply in_map_iff in Hc. destruct Hc as ([sel q0] & <- & _). intros _. apply outside_false. cbn. lra. }
      apply iter_pointwise in H; [|exact CALM]. destruct H as (rs & F & E1 & _).
      pose proof (nth_map_some (Ts_cell D) _ _ _ (SEL Hpc)) as N0.
      destruct (Forall2_nth_some _ _ _ F _ _ N0) as (r & Nr & S). rewrite E1, (nth_map_some fst _ _ _ Nr) in Nc. injection Nc as <-.
      unfold solo_iter in S. rewrite iter_solo_off in S by (cbn; destruct (Rle_dec (mp_pt D) p); [lra|reflexivity]). injection S as S _. rewrite <- S. unfold Ts_cell. cbn [c_x]. unfold num. apply (f_equal (@Some R)). field.
  Qed.

  Lemma sat_dens T dL dV : saturation D T dL dV -> mp_dsl D (Some T) = Some dL /\ mp_dsv D (Some T) = Some dV.
  Proof.
    intros (W1 & W2 & S1 & S2 & EL & EV). unfold mp_dsl, mp_dsv. now rewrite (sat_curve_value _ _ W1 S1), (sat_curve_value _ _ W2 S2), EL, EV.
  Qed.
  Lemma plan_T_go q p d lo hi Tsat : isochore_limits D E q p d lo hi -> (forall Ts, boiling_point D E q p Ts -> Tsat = Some Ts) ->
    exists dsL dsV, plan_T D (Some d) (Some p) Tsat = {| tp_Ta := Some lo; tp_Tb := Some hi; tp_T := num 0; tp_sat := false; tp_dsL := dsL; tp_dsV := dsV |}.
  Proof.
    intros H HS. unfold plan_T, num. destruct H as [(H & -> & ->)|(Ts & dL & dV & B & SA & Hle & HH)].
    - rewrite fle_true by exact H. eauto.
    - rewrite (HS Ts B). rewrite fle_false by (destruct B as [(? & _)|(? & ? & _)]; lra).
      destruct (sat_dens _ _ _ SA) as [-> ->]. do 2 eexists. destruct HH as [(H & -> & ->)|(H & -> & ->)].
      + rewrite (flt_true dL d) by exact H. rewrite (flt_false d dV) by lra. rewrite (fle_false d dL) by lra. rewrite andb_false_r.
        cbn [fmul lift2]. rewrite (Rmult_comm Ts). reflexivity.
      + rewrite (flt_false dL d) by lra. rewrite (flt_true d dV) by lra. rewrite (fle_false dV d) by lra. cbn [andb fmul lift2 fmax].
        unfold Rmax. destruct (Rle_dec (99/100 * Ts) (fst (mp_Tlim D))); reflexivity.
  Qed.

  (* the function searched *)
  Lemma along_val d T P : 0 < T -> 0 < d -> dome_at D T -> evaluable_around D T d -> pressure_along D d T P ->
    exists s1 s2, tditer D (Some d) (in_p D) (Some T) = (Some P, Some s1, Some s2) /\
      (~ under_dome D T d -> forall all, fits D all T d -> value0 (mp_p D all (Some T) (Some d) 0%nat) = Some P).
  Proof.
    intros HT Hd HD EV HP. pose proof (regular_p D WF) as RF.
    destruct (td_value D (mp_p D) d RF Hd T HT HD EV) as (v & s1 & s2 & V1 & V2 & _ & _ & _).
    exists s1, s2.
    destruct HP as [(U & G)|(L & dL & dV & x & pL & pV & SA & Hle & GL & GV & X & ->)].
    - assert (HP0 : hd_point D (Some T) (Some d) = single (Some T) (Some d)).
      { unfold hd_point. destruct (flt (Some T) (num (mp_Tc D))) eqn:L; [|reflexivity]. cbn [andb].
        unfold num in L. cbn in L. destruct (Rlt_dec T (mp_Tc D)) as [L'|]; [|discriminate]. destruct (HD L') as (dL & dV & SA & _).
        destruct (sat_dens _ _ _ SA) as [-> ->]. destruct (fle (Some dV) (Some d) && fle (Some d) (Some dL))%bool eqn:Q; [|reflexivity].
        exfalso. apply U. split; [exact L'|]. exists dL, dV. split; [exact SA|]. apply andb_prop in Q. destruct Q as [Q1 Q2]. cbn in Q1, Q2.
        destruct (Rle_dec dV d); [|discriminate]. destruct (Rle_dec d dL); [|discriminate]. lra. }
      assert (v = P) as ->.
      { specialize (V2 [single (Some T) (Some d)]). rewrite HP0 in V2. specialize (V2 ltac:(right; reflexivity)).
        unfold mixed_at in V2. cbn [single s_sat s_T s_d1 liquid_all map] in V2.
        pose proof (proj1 (value_at D (mp_p D) T RF HT _ d P Hd (proj1 EV) G (fits_one _ _ _))) as Q. assert (Q2 : Some v = Some P) by (rewrite <- V2; exact Q). now injection Q2. }
      split; [exact V1|]. intros _ all FI. exact (proj1 (value_at D (mp_p D) T RF HT _ d P Hd (proj1 EV) G FI)).
    - destruct (HD L) as (dL' & dV' & SA' & HVL).
      destruct (sat_dens _ _ _ SA) as [ML MV]. destruct (sat_dens _ _ _ SA') as [ML' MV'].
      assert (dL' = dL) as -> by congruence. assert (dV' = dV) as -> by congruence. clear SA' ML' MV'.
      destruct (proj2 EV L dL dV SA) as [EVL EVV].
      assert (K2 : 1 < dL / dV). { apply (Rmult_lt_reg_r dV); [lra|]. unfold Rdiv. rewrite Rmult_assoc, Rinv_l; lra. }
      assert (XE : x = (dL / d - 1) / (dL / dV - 1)).
      { assert (HX : dL / d - 1 = x * (dL / dV - 1)).
        { replace (dL / d) with (dL * (1 / d)) by (field; lra). rewrite X. field. lra. }
        rewrite HX. field. split; lra. }
      assert (Q : quality_of (Some d) (Some dL) (Some dV) = Some x).
      { unfold quality_of, num. rewrite !fdiv_ok by lra. unfold fsub. cbn [lift2]. rewrite fdiv_ok by lra. now rewrite XE. }
      assert (HP0 : hd_point D (Some T) (Some d) = {| s_T := Some T; s_d1 := Some dL; s_d2 := Some dV; s_x := Some x; s_sat := true |}).
      { unfold hd_point. rewrite ML, MV. unfold num. rewrite flt_true by exact L. rewrite !fle_true by lra. cbn [andb]. now rewrite Q. }
      assert (v = (1 - x) * pL + x * pV) as ->.
      { specialize (V2 [hd_point D (Some T) (Some d)] ltac:(right; reflexivity)). rewrite HP0 in V2.
        unfold mixed_at in V2. cbn [s_sat s_T s_d1 s_d2 s_x liquid_all vapor_sat filter map] in V2.
        pose proof (proj1 (value_at D (mp_p D) T RF HT _ dL pL ltac:(lra) EVL GL (fits_one _ _ _))) as QL.
        pose proof (proj1 (value_at D (mp_p D) T RF HT _ dV pV ltac:(lra) EVV GV (fits_one _ _ _))) as QV.
        assert (V3 : (Some pL * (num 1 - Some x) + Some pV * Some x)%fl = Some v).
        { rewrite <- V2. f_equal; f_equal; symmetry; assumption. }
        cbn in V3. injection V3 as V3. rewrite <- V3. ring. }
      split; [exact V1|]. intros U. exfalso. apply U. split; [exact L|]. eauto.
  Qed.

  Theorem T_from_pd varg kw i q p dn r d ts xs : state_pair varg kw i "p" q dn r -> pressure_is z q p -> in_range (mp_plim D) p ->
    density_arg D z dn r d -> 0 < d -> 0 < mp_Tt D < mp_Tc D ->
    mm_T D E fuel varg kw = Ok (ts, xs) -> evaluated_alone D xs -> call_warns D E fuel varg kw = Ok false ->
    forall lo hi, isochore_limits D E q p d lo hi -> 0 < lo <= hi ->
    (forall T, lo <= T <= hi -> dome_at D T /\ evaluable_around D T d) ->
    forall Y, (forall T, lo <= T <= hi -> pressure_along D d T (Y T)) -> Y lo <> p -> Y hi <> p ->
    nth_error xs i = Some (Some (-1)) /\
    (bracketed Y lo hi p -> exists t T, nth_error ts i = Some (Some t) /\ kelvin_is E t T /\ solves Y lo hi p (1 / 1000000) T /\
       (exists ds r', mm_d D E fuel varg kw = Ok (ds, xs) /\ nth_error ds i = Some (Some r') /\ density_is D z r' d) /\
       (~ under_dome D T d -> exists qs q', mm_p D E fuel varg kw = Ok (qs, xs) /\ nth_error qs i = Some (Some q') /\ pressure_is z q' (Y T))) /\
    (~ bracketed Y lo hi p -> e_oob E = None -> nth_error ts i = Some None).
  Proof.
    intros S Kp Hp Hdn Hd HT0 HT AL Hw lo hi HL Hlh HD Y HY Ya Yb.
    destruct (argparse_pd varg kw i q p dn r d S Kp Hp Hdn) as (l & Nl & A & W). rewrite W in Hw. clear W.
    rewrite (mm_T_val D E fuel z Z), A in HT.
    destruct (from_pd D E l) as [la|] eqn:FH; [|discriminate]. cbn [bind] in HT. injection HT as <- <-.
    pose proof (run_pd l la FH) as RUN. rewrite (k_w _ _ RUN) in Hw. injection Hw as Hw. apply orb_false_elim in Hw. destruct Hw as [_ W2].
    destruct (run_pd_at l la RUN i d p Nl) as (cl & x0 & Ncl & Ne & Nq & Nla).
    destruct (plan_T_go q p d lo hi (c_x cl) HL) as (sL & sV & PL).
    { intros Ts B. exact (boiling_val l la RUN i d q p Ts cl HT0 Kp Nl B Ncl). }
    rewrite PL in Ne, Nla. cbn [tp_sat] in Nla. clear PL Ncl.
    assert (VAL : forall T, lo <= T <= hi -> exists s1, along_T_d D (Some d) (in_p D) (Fin T) = (Fin (Y T), Fin s1)).
    { intros T RT. destruct (HD T RT) as [H1 H2]. destruct (along_val d T (Y T) ltac:(lra) Hd H1 H2 (HY T RT)) as (s1 & s2 & V & _). exists s1.
      exact (f_equal (fun t : fl * fl * fl => let '(y, yt, _) := t in (xf_of y, xf_of yt)) V). }
    set (e := T_elem _ _ _ _) in Ne.
    assert (PR : problem e Y lo hi p).
    { subst e. unfold T_elem. constructor; cbn [e_min e_max e_y e_fn tp_Ta tp_Tb]; try reflexivity; try apply Hlh.
      - intros T RT. destruct (VAL T RT) as (s & V). exists (Fin s). split; [exact V|discriminate].
      - intros [Q _]. contradiction.
      - intros [Q _]. contradiction. }
    assert (EP : 0 <= ep1) by (unfold ep1; lra).
    pose proof (k_hy _ _ RUN) as HYB. rewrite W2 in HYB.
    destruct (hybrid_elem _ _ _ _ _ _ _ _ _ _ _ EP HYB Ne eq_refl PR) as [HB HN].
    split; [rewrite (nth_map_some s_x _ _ _ Nla); reflexivity|]. split.
    - intro B. destruct (HB B) as (T & NT & SV).
      assert (RT : lo <= T <= hi) by (destruct SV as [RT _]; exact RT). rewrite Nq in NT. injection NT as ->. cbn [fl_of] in *.
      exists (from_kelvin (z_T z) T), T. split; [rewrite (nth_map_some _ _ _ _ (nth_map_some _ _ _ _ Nla)); reflexivity|].
      split; [apply (tscale_K _ _ _ _ _ _ _ _ Z); now rewrite to_from_kelvin|]. split; [exact SV|]. split.
      + do 2 eexists. rewrite (mm_d_val D E fuel _ _ _ _ _ _ Z varg), A. cbn [bind]. split; [reflexivity|].
        split; [rewrite (nth_map_some _ _ _ _ (nth_map_some mix_density _ _ _ Nla)); reflexivity|].
        unfold density_is. fold (kgs D (z_kM z)). cbn. field. lra.
      + intro U. destruct (HD T RT) as [H1 H2]. destruct (along_val d T (Y T) ltac:(lra) Hd H1 H2 (HY T RT)) as (s1 & s2 & _ & V). specialize (V U).
        assert (LN : lone D la (single (Some T) (Some d))) by (apply (lone_nth D la _ i (map s_x la)); [exact AL|now rewrite map_length|exact Nla]).
        assert (FI2 : fits D (map (fun s => (s_T s, s_d2 s)) la) T d) by (destruct LN as [NC| ->]; [now left|right; reflexivity]).
        do 2 eexists. rewrite (mm_p_val D E fuel z Z), A. cbn [bind]. split; [reflexivity|].
        split; [rewrite (nth_map_some _ _ _ _ (nth_map_some _ _ _ _ Nla)); unfold single; cbn [s_T s_d2]; rewrite (V _ FI2); reflexivity|].
        unfold pressure_is. field. lra.
    - intros B O. specialize (HN B). rewrite Nq in HN. injection HN as ->. rewrite O in Nla. cbn [xf_of fl_of] in Nla.
      rewrite (nth_map_some _ _ _ _ (nth_map_some _ _ _ _ Nla)). reflexivity.
  Qed.

  Theorem saturated_from_pd varg kw i q p dn r d ts xs : state_pair varg kw i "p" q dn r -> pressure_is z q p -> in_range (mp_plim D) p ->
    density_arg D z dn r d -> 0 < mp_Tt D < mp_Tc D ->
    mm_T D E fuel varg kw = Ok (ts, xs) ->
    forall Ts dL dV, boiling_point D E q p Ts -> saturation D Ts dL dV -> 0 < dV < dL -> dV <= d <= dL ->
    exists t x, nth_error ts i = Some (Some t) /\ kelvin_is E t Ts /\
      nth_error xs i = Some (Some x) /\ 0 <= x <= 1 /\ 1 / d = (1 - x) / dL + x / dV /\
      (exists ds r', mm_d D E fuel varg kw = Ok (ds, xs) /\ nth_error ds i = Some (Some r') /\ density_is D z r' d) /\
      (forall pV, evaluated_alone D xs -> evaluable D Ts dV -> at_state (mp_p D) Ts dV pV ->
         exists qs q', mm_p D E fuel varg kw = Ok (qs, xs) /\ nth_error qs i = Some (Some q') /\ pressure_is z q' pV).
  Proof.
    intros S Kp Hp Hdn HT0 HT Ts dL dV B SA HVL Hle.
    destruct (argparse_pd varg kw i q p dn r d S Kp Hp Hdn) as (l & Nl & A & _).
    rewrite (mm_T_val D E fuel z Z), A in HT.
    destruct (from_pd D E l) as [la|] eqn:FH; [|discriminate]. cbn [bind] in HT. injection HT as <- <-.
    pose proof (run_pd l la FH) as RUN.
    destruct (run_pd_at l la RUN i d p Nl) as (cl & x0 & Ncl & Ne & Nq & Nla).
    rewrite (boiling_val l la RUN i d q p Ts cl HT0 Kp Nl B Ncl) in Ne, Nla.
    destruct (sat_dens _ _ _ SA) as [ML MV].
    assert (HTs : 0 < Ts) by (destruct SA as (_ & _ & S1 & _); apply S1).
    assert (PL : exists lo hi, plan_T D (Some d) (Some p) (Some Ts) =
       {| tp_Ta := lo; tp_Tb := hi; tp_T := Some Ts; tp_sat := true; tp_dsL := Some dL; tp_dsV := Some dV |}).
    { unfold plan_T, num. rewrite fle_false by (destruct B as [(? & _)|(? & ? & _)]; lra). rewrite ML, MV.
      rewrite (flt_false dL d), (flt_false d dV), !fle_true by lra. cbn [andb]. eauto. }
    destruct PL as (lo & hi & PL). rewrite PL in Ne, Nla. cbn [tp_sat tp_dsL tp_dsV] in Nla.
    assert (x0 = Fin Ts) as ->.
    { pose proof (k_hy _ _ RUN) as HYB. unfold hybrid1 in HYB. destruct (existsb e_sel _ && _)%bool; [discriminate|]. injection HYB as HYB _.
      rewrite <- HYB in Nq. rewrite (nth_map_some _ _ _ _ Ne) in Nq. cbn in Nq. congruence. }
    cbn [fl_of] in Nla.
    assert (K2 : 1 < dL / dV). { apply (Rmult_lt_reg_r dV); [lra|]. unfold Rdiv. rewrite Rmult_assoc, Rinv_l; lra. }
    set (x := (dL / d - 1) / (dL / dV - 1)).
    assert (Q : quality_of (Some d) (Some dL) (Some dV) = Some x).
    { unfold quality_of, num. rewrite !fdiv_ok by lra. unfold fsub. cbn [lift2]. rewrite fdiv_ok by lra. reflexivity. }
    rewrite Q in Nla.
    assert (XM : 1 / d = (1 - x) / dL + x / dV) by (unfold x; field; repeat split; lra).
    assert (X01 : 0 <= x <= 1).
    { assert (1 <= dL / d). { apply (Rmult_le_reg_r d); [lra|]. unfold Rdiv. rewrite Rmult_assoc, Rinv_l; lra. }
      assert (dL / d <= dL / dV). { unfold Rdiv. apply Rmult_le_compat_l; [lra|]. apply Rinv_le_contravar; lra. }
      unfold x. split; [apply Rmult_le_pos; [lra|left; apply Rinv_0_lt_compat; lra]|].
      apply (Rmult_le_reg_r (dL / dV - 1)); [lra|]. unfold Rdiv at 1. rewrite Rmult_assoc, Rinv_l by lra. lra. }
    exists (from_kelvin (z_T z) Ts), x.
    split; [rewrite (nth_map_some _ _ _ _ (nth_map_some _ _ _ _ Nla)); reflexivity|].
    split; [apply (tscale_K _ _ _ _ _ _ _ _ Z); now rewrite to_from_kelvin|].
    split; [rewrite (nth_map_some s_x _ _ _ Nla); reflexivity|]. split; [exact X01|]. split; [exact XM|]. split.
    - do 2 eexists. rewrite (mm_d_val D E fuel _ _ _ _ _ _ Z varg), A. cbn [bind]. split; [reflexivity|].
      assert (MD : mix_density {| s_T := Some Ts; s_d1 := Some dL; s_d2 := Some dV; s_x := Some x; s_sat := true |} = Some d).
      { unfold mix_density. cbn [s_T s_d1 s_d2 s_x s_sat]. unfold num. cbn [fsub lift2]. rewrite !fdiv_ok by lra. cbn [fadd lift2].
        rewrite <- XM, fdiv_ok by (apply Rgt_not_eq, Rdiv_lt_0_compat; lra). f_equal. field. lra. }
      split; [rewrite (nth_map_some _ _ _ _ (nth_map_some mix_density _ _ _ Nla)), MD; reflexivity|].
      unfold density_is. fold (kgs D (z_kM z)). cbn. field. lra.
    - intros pV AL EV GV.
      assert (LN : lone D la {| s_T := Some Ts; s_d1 := Some dL; s_d2 := Some dV; s_x := Some x; s_sat := true |}) by (apply (lone_nth D la _ i (map s_x la)); [exact AL|now rewrite map_length|exact Nla]).
      assert (FI2 : fits D (map (fun s => (s_T s, s_d2 s)) la) Ts dV) by (destruct LN as [NC| ->]; [now left|right; reflexivity]).
      do 2 eexists. rewrite (mm_p_val D E fuel z Z), A. cbn [bind]. split; [reflexivity|].
      split; [rewrite (nth_map_some _ _ _ _ (nth_map_some _ _ _ _ Nla)); cbn [s_T s_d2];
        rewrite (proj1 (value_at D (mp_p D) Ts (regular_p D WF) HTs _ dV pV ltac:(lra) EV GV FI2)); reflexivity|].
      unfold pressure_is. field. lra.
  Qed.
End PD.

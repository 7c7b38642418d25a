(* The statements of the mixture theorems, a concrete mixture, and the counterexamples. *)
From Coq Require Import Reals ZArith List String Lia Lra.
From Verif Require Import Base Model_Num Model_Units Model_Defaults Model_Igas Model_Igmix Spec_Units Spec_Igas
  Spec_Igmix Proof_Units Proof_Defaults Proof_Igas Proof_Igmix Proof_IgasUnits Proof_IgasState Proof_IgasArgs Proof_IgasCalls
  Proof_IgasRel Proof_IgasArr Proof_IgasProp Proof_IgasEx Proof_IgmixCalls Proof_IgmixProp Proof_IgmixMore.
Import ListNotations.
Local Open Scope R_scope.
Local Open Scope string_scope.
Local Open Scope list_scope.

Lemma boot_state coll m o : usable_mixture coll m -> bootstrap coll m fresh = (o, Ok tt) -> o = mix_state coll m.
Proof. intros H B. rewrite (bootstrap_ok _ _ H) in B. now injection B as <-. Qed.

Lemma partial_pressures' coll m o : usable_mixture coll m -> bootstrap coll m fresh = (o, Ok tt) ->
  forall E uT kT kP kV kE kM q t p K, e_oob E = None ->
    units_known E (x_mw o) uT kT kP kV kE kM -> In q [Pcp; Pcv; Ph; Pe; Ps; Pg; Pf] ->
    temperature_scale (e_cfg E) t None (Some "K") = Ok K -> common_range coll m K -> 0 < p ->
    exists X v vi ki,
      snd (mix_call coll m E fresh CX) = Ok (VDict X) /\
      snd (mix_call coll m E fresh (CProp q [] [("T", [Some t]); ("p", [Some p])])) = Ok (VArr [Some v]) /\
      (forall ss x, In (ss, x) X -> matter_size E (mw_in coll ss) (ki ss) /\ exists g, gas_in coll ss g /\
         ideal_method q g E [] [("T", [Some t]); ("p", [Some (x * p)])] = Ok [Some (vi ss)]) /\
      v / kM = sum_over (fun c => snd c * (vi (fst c) / ki (fst c))) X.
Proof. intros H B. rewrite (boot_state _ _ _ H B). apply (partial_pressures _ _ H). Qed.

Lemma mixing_increases' coll m o : usable_mixture coll m -> bootstrap coll m fresh = (o, Ok tt) ->
  forall E uT kT kP kV kE kM t p K, e_oob E = None ->
    units_known E (x_mw o) uT kT kP kV kE kM ->
    temperature_scale (e_cfg E) t None (Some "K") = Ok K -> common_range coll m K -> 0 < p ->
    exists X v vi ki,
      snd (mix_call coll m E fresh CX) = Ok (VDict X) /\
      snd (mix_call coll m E fresh (CProp Ps [] [("T", [Some t]); ("p", [Some p])])) = Ok (VArr [Some v]) /\
      (forall ss x, In (ss, x) X -> matter_size E (mw_in coll ss) (ki ss) /\ exists g, gas_in coll ss g /\
         ideal_method Ps g E [] [("T", [Some t]); ("p", [Some p])] = Ok [Some (vi ss)]) /\
      sum_over (fun c => snd c * (vi (fst c) / ki (fst c))) X <= v / kM.
Proof. intros H B. rewrite (boot_state _ _ _ H B). apply (mixing_increases _ _ H). Qed.

Lemma calls_as_gas coll m o : usable_mixture coll m -> bootstrap coll m fresh = (o, Ok tt) ->
  forall E uT kT kP kV kE kM, e_oob E = None -> units_known E (x_mw o) uT kT kP kV kE kM ->
  species E (mix_gas None coll o) /\
  forall q varg kw, snd (mix_call coll m E fresh (CProp q varg kw)) =
    do a <- ideal_method q (mix_gas None coll o) E varg kw; Ok (VArr a).
Proof.
  intros H B E uT kT kP kV kE kM Ho U. split.
  - split; [exact Ho|]. right. exists coll, m, o. auto.
  - rewrite (boot_state _ _ _ H B) in *. intros q varg kw. rewrite (call_ideal _ _ H E _ _ _ _ _ _ q varg kw Ho U). reflexivity.
Qed.

Lemma slopes' coll m o : usable_mixture coll m -> bootstrap coll m fresh = (o, Ok tt) ->
  forall K, smooth_point coll m K -> let g := mix_gas None coll o in
  exists cp s,
    g_cp g (Some K) = Some cp /\ fst (g_s g (Some K)) = Some s /\
    snd (g_h g (Some K)) = Some cp /\ has_slope (fun t => fst (g_h g t)) K cp /\
    snd (g_s g (Some K)) = Some (cp / K) /\ has_slope (fun t => fst (g_s g t)) K (cp / K) /\
    snd (g_e g (Some K)) = Some (cp - gas_constant) /\ has_slope (fun t => fst (g_e g t)) K (cp - gas_constant) /\
    has_slope (fun t => fst (g_g g t)) K (- s).
Proof.
  intros H B K S. rewrite (boot_state _ _ _ H B). cbn zeta. fold (G coll m).
  destruct (mix_slopes _ _ H K S) as (cp & s & A1 & A2 & A3 & A4 & A5 & A6 & A7 & A8 & A9 & A10).
  exists cp, s. auto 12.
Qed.

(* the common range is what Tlim() reports *)
Lemma Tlim_answer coll m : usable_mixture coll m ->
  forall E uT kT kP kV kE kM, units_known E (x_mw (mix_state coll m)) uT kT kP kV kE kM ->
  exists a b lo hi, snd (mix_call coll m E fresh CTlim) = Ok (VLim (Some lo) (Some hi)) /\
    temperature_scale (e_cfg E) a (Some "K") None = Ok lo /\ temperature_scale (e_cfg E) b (Some "K") None = Ok hi /\
    a <= b /\ forall K, common_range coll m K <-> a <= K <= b.
Proof.
  intros H E uT kT kP kV kE kM U.
  destruct (limits _ _ H) as (lo & hi & EG & El & Eh & _ & Hle & _).
  assert (forall r, exists v, temperature_scale (e_cfg E) r (Some "K") None = Ok v) as HT.
  { intro r. rewrite (tscale_from _ _ _ _ _ _ _ _ U). eauto. }
  destruct (HT lo) as (vl & Hvl). destruct (HT hi) as (vh & Hvh).
  exists lo, hi, vl, vh. unfold mix_call. rewrite (bootstrap_ok _ _ H). unfold mix_answer. rewrite El, Eh. cbn [olim].
  rewrite Hvl, Hvh. cbn [bind snd]. split; [reflexivity|]. split; [reflexivity|]. split; [reflexivity|]. split; [exact Hle|].
  intro K. rewrite (range_common _ _ H). unfold Tlow, Thigh. rewrite EG. reflexivity.
Qed.
Lemma Tlim_answer' coll m o : usable_mixture coll m -> bootstrap coll m fresh = (o, Ok tt) ->
  forall E uT kT kP kV kE kM, units_known E (x_mw o) uT kT kP kV kE kM ->
  exists a b lo hi, snd (mix_call coll m E fresh CTlim) = Ok (VLim (Some lo) (Some hi)) /\
    temperature_scale (e_cfg E) a (Some "K") None = Ok lo /\ temperature_scale (e_cfg E) b (Some "K") None = Ok hi /\
    a <= b /\ forall K, common_range coll m K <-> a <= K <= b.
Proof. intros H B. rewrite (boot_state _ _ _ H B). apply (Tlim_answer _ _ H). Qed.

(* atoms() *)
Lemma atoms_answer coll m E (atoms : string -> list (string * R)) : usable_mixture coll m ->
  (forall ss q, In (ss, q) (m_contents m) -> (exists D, dget ss coll = Some (MIg D (Some (atoms ss))) \/
       dget ss coll = Some (MIg2 D (Some (atoms ss)))) /\ NoDup (map fst (atoms ss))) ->
  exists X d, snd (mix_call coll m E fresh CX) = Ok (VDict X) /\
    snd (mix_call coll m E fresh Catoms) = Ok (VDict d) /\
    (forall a, In a (map fst d) <-> exists ss q, In (ss, q) (m_contents m) /\ In a (map fst (atoms ss))) /\
    (forall a, match dget a d with Some v => v | None => 0 end =
       sum_over (fun c => snd c * match dget a (atoms (fst c)) with Some v => v | None => 0 end) X).
Proof.
  intros H Ha. exists (Xs coll m).
  destruct (atoms_loop_val coll atoms (Xs coll m) []) as (d & Ed & Hd).
  { intros ss x Hx. destruct (X_contents _ _ _ _ Hx) as (q & Hc). destruct (Ha _ _ Hc) as ((D & HD) & Hn). split; [|exact Hn].
    unfold member_atoms. destruct HD as [-> | ->]; reflexivity. }
  exists d. rewrite X_answer by exact H. split; [reflexivity|].
  split. { unfold mix_call. rewrite (bootstrap_ok _ _ H). unfold mix_answer. cbn [x_x mix_state]. rewrite Ed. reflexivity. }
  split; intro a; destruct (Hd a) as (H1 & H2).
  - rewrite (H2 : In a (map fst d) <-> _). cbn [dkeys map]. split.
    + intros [[]|(ss & x & Hx & Hin)]. destruct (X_contents _ _ _ _ Hx) as (q & Hc). eauto.
    + intros (ss & q & Hc & Hin). right. exists ss, (kmol_of coll (m_bymass m) (ss, q) / Nk coll m). split; [|exact Hin].
      apply in_map_iff. exists (ss, q). auto.
  - unfold dval in H1. cbn [dget] in H1. rewrite Rplus_0_l in H1. exact H1.
Qed.

(* ---- a concrete mixture ---- *)
Definition D2 : igdata :=
  {| d_Tlim := [300; 1200]; d_C := [[0; 1000; 0; 0; 0; 0; 0; 0]]; d_mw := 40; d_pref := 100000 |}.
Definition collAB : collection := [("ig.A", MIg D1 (Some [("A", 1)])); ("ig.B", MIg D2 (Some [("A", 1); ("B", 2)])); ("mp.C", MOther)].
Definition mAB : mixdata := {| m_contents := [("ig.A", 1); ("ig.B", 3)]; m_bymass := false |}.
(* the same mixture by mass *)
Definition mABkg : mixdata := {| m_contents := [("ig.A", 2); ("ig.B", 12)]; m_bymass := true |}.

Lemma good_A : good_species D1.
Proof. split; [exact good_D1|]. cbn. repeat split; lra. Qed.
Lemma good_B : good_species D2.
Proof. split; [|cbn; repeat split; lra]. repeat split; cbn; try lra; try lia. repeat constructor. Qed.
Lemma loaded_A D : loaded collAB "ig.A" D -> D = D1.
Proof. intros (a & [E|E]); cbn in E; congruence. Qed.
Lemma loaded_B D : loaded collAB "ig.B" D -> D = D2.
Proof. intros (a & [E|E]); cbn in E; congruence. Qed.

Lemma usable_two q1 q2 bm : 0 < q1 -> 0 < q2 ->
  usable_mixture collAB {| m_contents := [("ig.A", q1); ("ig.B", q2)]; m_bymass := bm |}.
Proof.
  intros H1 H2. unfold usable_mixture. cbn [m_contents].
  split; [discriminate|]. split; [|split].
  - cbn. repeat constructor; cbn; intuition discriminate.
  - intros ss q [E|[E|[]]]; injection E as <- <-; (split; [assumption|]).
    + exists D1. split; [exists (Some [("A", 1)]); now left|exact good_A].
    + exists D2. split; [exists (Some [("A", 1); ("B", 2)]); now left|exact good_B].
  - exists 500. intros ss q D [E|[E|[]]] HL; injection E as <- <-.
    + rewrite (loaded_A _ HL). cbn. lra.
    + rewrite (loaded_B _ HL). cbn. lra.
Qed.
Lemma usable_AB : usable_mixture collAB mAB. Proof. apply usable_two; lra. Qed.
Lemma usable_ABkg : usable_mixture collAB mABkg. Proof. apply usable_two; lra. Qed.
Lemma common_AB : common_range collAB mAB 500.
Proof.
  intros ss q D [E|[E|[]]] HL; injection E as <- <-.
  - rewrite (loaded_A _ HL). cbn. lra.
  - rewrite (loaded_B _ HL). cbn. lra.
Qed.
Lemma smooth_AB : smooth_point collAB mAB 500.
Proof.
  intros ss q D [E|[E|[]]] HL; injection E as <- <-; exists 0%nat.
  - rewrite (loaded_A _ HL). cbn. split; [lia|lra].
  - rewrite (loaded_B _ HL). cbn. split; [lia|lra].
Qed.
Lemma units_any mw : 0 < mw -> units_known (session "Pa" 100000 "Pa") mw "K" (9/5) 1 1 1000 1.
Proof.
  intro Hm. constructor; cbn; try reflexivity; try lra; eauto using default_positive.
  all: try (eexists; split; reflexivity). all: auto.
Qed.
Lemma units_AB o : bootstrap collAB mAB fresh = (o, Ok tt) -> units_known (session "Pa" 100000 "Pa") (x_mw o) "K" (9/5) 1 1 1000 1.
Proof. intro B. rewrite (boot_state _ _ _ usable_AB B). apply units_any. apply (MW_pos _ _ usable_AB). Qed.
Lemma same_AB : Forall2 (fun c1 c2 => fst c1 = fst c2 /\ kmol_of collAB (m_bymass mAB) c1 = 10 * kmol_of collAB (m_bymass mABkg) c2)
    (m_contents mAB) (m_contents mABkg).
Proof.
  cbn [mAB mABkg m_contents m_bymass]. constructor; [|constructor; [|constructor]]; (split; [reflexivity|]);
    unfold kmol_of, mw_in; cbn [fst snd collAB dget String.eqb Ascii.eqb Bool.eqb d_mw D1 D2]; lra.
Qed.
Lemma boots_AB : exists o, bootstrap collAB mAB fresh = (o, Ok tt).
Proof. eexists. apply bootstrap_ok. exact usable_AB. Qed.

(* ---- C37: the slope reported with g is not its slope ---- *)
Lemma SM_AB : 0 < SM collAB mAB.
Proof.
  unfold SM, Xs, Nk. cbn [mAB m_contents m_bymass kmol_of snd fst map sum_over].
  pose proof Ru_bounds.
  assert (ln (1 / (1 + (3 + 0))) < 0) as L1.
  { pose proof (ln_increasing (1 / (1 + (3 + 0))) 1 ltac:(lra) ltac:(lra)) as L. rewrite ln_1 in L. exact L. }
  assert (ln (3 / (1 + (3 + 0))) < 0) as L2.
  { pose proof (ln_increasing (3 / (1 + (3 + 0))) 1 ltac:(lra) ltac:(lra)) as L. rewrite ln_1 in L. exact L. }
  nra.
Qed.
Lemma gibbs_slope : exists coll m o K d, usable_mixture coll m /\ bootstrap coll m fresh = (o, Ok tt) /\ smooth_point coll m K /\
  snd (g_g (mix_gas None coll o) (Some K)) = Some d /\ ~ has_slope (fun t => fst (g_g (mix_gas None coll o) t)) K d.
Proof.
  exists collAB, mAB, (mix_state collAB mAB), 500.
  destruct (mix_slopes _ _ usable_AB 500 smooth_AB) as (cp & s & A1 & A2 & A3 & A4 & A5 & A6 & A7 & A8 & A9 & A10).
  exists (- (s - SM collAB mAB)). split; [exact usable_AB|]. split; [apply bootstrap_ok; exact usable_AB|].
  split; [exact smooth_AB|]. split; [exact A6|]. intro Hs.
  pose proof (uniqueness_limite _ _ _ _ A10 Hs). pose proof SM_AB. lra.
Qed.

(* ---- C37: a constituent listed with amount zero ---- *)
Lemma bootstrap_any coll m : NoDup (map fst (m_contents m)) ->
  (forall ss q, In (ss, q) (m_contents m) -> exists D, loaded coll ss D /\ 0 < d_mw D) ->
  Nk coll m <> 0 -> Wk coll m <> 0 -> bootstrap coll m fresh = (mix_state coll m, Ok tt).
Proof.
  intros Hn Hl H1 H2. unfold bootstrap. cbn [fresh x_bs x_smix].
  rewrite boot_loop_ok; cbn [x_x x_y x_mw x_pref x_lo x_hi x_smix x_bs app map]; auto.
  rewrite !Rplus_0_l. fold (Nk coll m) (Wk coll m).
  destruct (Req_EM_T (Nk coll m) 0); [contradiction|]. destruct (Req_EM_T (Wk coll m) 0); [contradiction|].
  rewrite !map_map. cbn [fst snd]. reflexivity.
Qed.
Definition mA0 : mixdata := {| m_contents := [("ig.A", 1); ("ig.B", 0)]; m_bymass := false |}.
Lemma zero_amount : let E := session "Pa" 100000 "Pa" in
  snd (mix_call collAB mA0 E fresh (CProp Ps [] [("T", [Some 500]); ("p", [Some 100000])])) = Ok (VArr [None]) /\
  exists v, snd (mix_call collAB {| m_contents := [("ig.A", 1)]; m_bymass := false |} E fresh
     (CProp Ps [] [("T", [Some 500]); ("p", [Some 100000])])) = Ok (VArr [Some v]).
Proof.
  intro E.
  assert (Nk collAB mA0 = 1) as EN by (unfold Nk; cbn; ring).
  assert (Wk collAB mA0 = 20) as EW by (unfold Wk; cbn; ring).
  assert (MW collAB mA0 = 20) as EM by (unfold MW; rewrite EN; cbn; field).
  split.
  - unfold mix_call. rewrite bootstrap_any; [|cbn; repeat constructor; cbn; intuition discriminate| |lra|lra].
    2:{ intros ss q [K|[K|[]]]; injection K as <- <-; [exists D1|exists D2]; (split; [|cbn; lra]); eexists; left; reflexivity. }
    cbn [snd]. unfold mix_answer. cbn [x_smix mix_state]. unfold mx_method. cbn [e_oob E session].
    change {| e_setup := _ |} with E.
    set (g := mix_gas None collAB (mix_state collAB mA0)).
    assert (units_known E (g_mw g) "K" (9/5) 1 1 1000 1) as U.
    { apply units_any. unfold g. cbn [mix_gas g_mw x_mw mix_state]. rewrite EM. lra. }
    assert (Tlow g <= 500 <= Thigh g) as HR.
    { assert (m_contents mA0 <> []) as Hne by discriminate.
      destruct (low_nonempty collAB _ Hne) as (lo & El & _ & cl & Hcl & Ecl).
      destruct (high_nonempty collAB _ Hne) as (hi & Eh & _ & ch & Hch & Ech).
      unfold Tlow, Thigh, g, mix_gas. cbn [g_Tlim mix_state x_lo x_hi]. rewrite El, Eh. cbn [nth last].
      destruct Hcl as [<-|[<-|[]]]; destruct Hch as [<-|[<-|[]]]; unfold tlo in Ecl; unfold thi in Ech; cbn in Ecl, Ech; lra. }
    assert (argparse g E [] [("T", [Some 500]); ("p", [Some 100000])] =
      Ok ([Some (to_kelvin "K" 500)], Some [Some (1 * 100000)], None)) as A.
    { rewrite (argparse_TP _ _ _ _ _ _ _ _ U) by reflexivity. unfold bounds, inT, inP. cbn [map lift1 forallb].
      unfold out_of_range, flt. change (to_kelvin "K" 500) with 500.
      destruct (Rlt_dec 500 (Tlow g)); [lra|].
      destruct (Rlt_dec (Thigh g) 500); [lra|]. reflexivity. }
    unfold mx_s. rewrite A. cbn [bind the_p]. unfold map2. cbn [combine map fst snd].
    assert (forall t, fst (g_s g t) = None) as HN.
    { intro t. unfold g, mix_gas. cbn [g_s fst]. unfold smix_of. cbn [x_smix mix_state].
      replace (mixing_entropy (Xs collAB mA0)) with (@None R).
      - destruct (weighted _ _ _ _); reflexivity.
      - unfold Xs. rewrite EN. cbn [mA0 m_contents m_bymass kmol_of map fst snd]. unfold mixing_entropy. cbn [fold_left snd].
        unfold flog at 2. destruct (Rlt_dec 0 (0 / 1)) as [K|_]; [unfold Rdiv in K; rewrite Rmult_0_l in K; lra|].
        destruct (flog (Some (1 / 1))); reflexivity. }
    rewrite HN. cbn [fsub lift2]. rewrite (out_heat_val _ _ _ _ _ _ _ _ U). reflexivity.
  - set (m := {| m_contents := [("ig.A", 1)]; m_bymass := false |}).
    assert (usable_mixture collAB m) as H.
    { unfold usable_mixture. cbn [m m_contents]. split; [discriminate|]. split; [repeat constructor; intros []|]. split.
      - intros ss q [K|[]]. injection K as <- <-. split; [lra|]. exists D1. split; [exists (Some [("A", 1)]); now left|exact good_A].
      - exists 500. intros ss q D [K|[]] HL. injection K as <- <-. rewrite (loaded_A _ HL). cbn. lra. }
    destruct (partial_pressures _ _ H E "K" (9/5) 1 1 1000 1 Ps 500 100000 500) as (X & v & vi & ki & _ & E2 & _).
    + reflexivity.
    + apply units_any. apply (MW_pos _ _ H).
    + cbn. tauto.
    + reflexivity.
    + intros ss q D [K|[]] HL. injection K as <- <-. rewrite (loaded_A _ HL). cbn. lra.
    + lra.
    + exists v. exact E2.
Qed.

(* ---- C38 ---- *)
Definition mBad : mixdata := {| m_contents := [("ig.A", 2); ("ig.X", 1); ("ig.B", 3)]; m_bymass := false |}.
Lemma bad_later E c : exists o, mix_call collAB mBad E fresh c = (o, Err PMDataError) /\
  mix_call collAB mBad E o CX = (o, Ok (VDict [("ig.A", 2)])).
Proof.
  destruct (missing_then_silent collAB mBad E c [("ig.A", 2)] "ig.X" 1 [("ig.B", 3)]) as (o & E1 & E2 & _).
  - cbn. repeat constructor; cbn; intuition discriminate.
  - reflexivity.
  - left. reflexivity.
  - intros s x [K|[]]. injection K as <- <-. exists D1. split; [eexists; left; reflexivity|cbn; lra].
  - exists o. split; [exact E1|]. rewrite E2. cbn. reflexivity.
Qed.
Lemma bad_hyp : NoDup (map fst (m_contents mBad)) /\
  (forall ss q, In (ss, q) (m_contents mBad) -> (exists D, loaded collAB ss D /\ 0 < d_mw D) \/ unusable collAB ss) /\
  (exists ss q, In (ss, q) (m_contents mBad) /\ unusable collAB ss).
Proof.
  split; [cbn; repeat constructor; cbn; intuition discriminate|]. split.
  - intros ss q [K|[K|[K|[]]]]; injection K as <- <-.
    + left. exists D1. split; [eexists; left; reflexivity|cbn; lra].
    + right. left. reflexivity.
    + left. exists D2. split; [eexists; left; reflexivity|cbn; lra].
  - exists "ig.X", 1. split; [cbn; tauto|left; reflexivity].
Qed.
Lemma atoms_hyp : let atoms := fun ss => if String.eqb ss "ig.A" then [("A", 1)] else [("A", 1); ("B", 2)] in
  forall ss q, In (ss, q) (m_contents mAB) -> (exists D, dget ss collAB = Some (MIg D (Some (atoms ss))) \/
       dget ss collAB = Some (MIg2 D (Some (atoms ss)))) /\ NoDup (map fst (atoms ss)).
Proof.
  intros atoms ss q [K|[K|[]]]; injection K as <- <-; cbn.
  - split; [exists D1; now left|repeat constructor; intros []].
  - split; [exists D2; now left|repeat constructor; cbn; intuition discriminate].
Qed.

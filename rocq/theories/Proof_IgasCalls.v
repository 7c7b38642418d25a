(* C30 and C31: the ideal gas law, echoed arguments and the accepted calls. *)
From Coq Require Import Reals ZArith List String Bool Lia Lra.
From Verif Require Import Base Model_Num Model_Units Model_Defaults Model_Igas Spec_Units Proof_Units
  Proof_Defaults Model_Igmix Spec_Igas Proof_Igas Proof_Igmix Proof_Iter Proof_IgasUnits Proof_IgasState Proof_IgasArgs.
Import ListNotations.
Local Open Scope R_scope.
Local Open Scope string_scope.
Local Open Scope list_scope.

Lemma Ru_gas : const_Ru = gas_constant.
Proof. unfold const_Ru, gas_constant, const_k, const_Na, boltzmann, avogadro. reflexivity || (unfold p10; cbn; field). Qed.

Lemma species_low E g : species E g -> e_oob E = None /\ 0 < Tlow g /\ 0 < g_pref g /\ Tlow g <= Thigh g /\ 0 < g_mw g.
Proof.
  intros (Ho & [(D & (HD & H0 & Hm & Hp) & Hg) | (coll & m & o & Hu & Hb & ->)]); (split; [exact Ho|]).
  - destruct HD as ((Hi & Hl) & _).
    assert (nth 0 (d_Tlim D) 0 <= last (d_Tlim D) 0).
    { rewrite last_nth by lia. apply increasing_le; [exact Hi|lia|lia]. }
    destruct Hg as [-> | ->]; unfold Tlow, Thigh; cbn [ig_gas ig2_gas g_Tlim g_pref g_mw]; auto.
  - rewrite (bootstrap_ok _ _ Hu) in Hb. injection Hb as <-. exact (G_low _ _ Hu).
Qed.

(* the values at a temperature in range; the reported temperature derivatives of g and f are
   left out *)
Record pvalues (g : gas) (T cp h s : R) : Prop := {
  pv_cp : g_cp g (Some T) = Some cp;
  pv_h : g_h g (Some T) = (Some h, Some cp);
  pv_s : g_s g (Some T) = (Some s, Some (cp / T));
  pv_g : fst (g_g g (Some T)) = Some (h - T * s);
  pv_e : g_e g (Some T) = (Some (h - gas_constant * T), Some (cp - gas_constant));
  pv_f : fst (g_f g (Some T)) = Some ((h - gas_constant * T) - T * s) }.

Lemma species_values E g t : species E g -> Tlow g <= t <= Thigh g ->
  exists cp h s, pvalues g t cp h s.
Proof.
  intros (_ & [(D & (HD & H0 & _ & _) & Hg) | (coll & m & o & Hu & Hb & ->)]) Ht.
  - assert (Tlow g = nth 0 (d_Tlim D) 0 /\ Thigh g = last (d_Tlim D) 0) as [E1 E2].
    { destruct Hg as [-> | ->]; split; reflexivity. }
    rewrite E1, E2 in Ht.
    destruct (interval_exists (d_Tlim D) t (proj1 HD) Ht) as [i Hi].
    assert (0 < t) by lra.
    assert (exists cp h s, values_at g t cp h s) as (cp & h & s & [V1 V2 V3 V4 V5 V6]).
    { destruct Hg as [-> | ->]; do 3 eexists; [eapply ig_values|eapply ig2_values]; eassumption. }
    exists cp, h, s. constructor; auto; [rewrite V4|rewrite V6]; reflexivity.
  - rewrite (bootstrap_ok _ _ Hu) in Hb. injection Hb as <-. fold (G coll m) in Ht |- *.
    destruct (members_exist _ _ Hu t Ht) as (cp & h & s & M). pose proof (G_low _ _ Hu) as (Hl & _).
    destruct (mix_values _ _ Hu t cp h s M) as (V1 & V2 & V3 & V4 & V5 & V6 & _); [lra|].
    do 3 eexists. constructor; [exact V1|exact V2|exact V3|rewrite V4|exact V5|rewrite V6]; reflexivity.
Qed.

Lemma species_s_none E g : species E g -> fst (g_s g None) = None.
Proof.
  intros (_ & [(D & _ & Hg) | (coll & m & o & Hu & Hb & ->)]).
  - destruct Hg as [-> | ->]; cbn [ig_gas ig2_gas g_s fst]; rewrite piecewise_nan; reflexivity.
  - rewrite (bootstrap_ok _ _ Hu) in Hb. injection Hb as <-. exact (mix_s_none _ _ Hu).
Qed.

Lemma species_s_out E g t : species E g -> t < Tlow g \/ Thigh g < t -> fst (g_s g (Some t)) = None.
Proof.
  intros (_ & [(D & ((HD & _) & _) & Hg) | (coll & m & o & Hu & Hb & ->)]) Ht.
  - unfold Tlow, Thigh in Ht. destruct Hg as [-> | ->]; cbn [ig_gas ig2_gas g_Tlim g_s fst] in *;
      rewrite piecewise_out by assumption; reflexivity.
  - rewrite (bootstrap_ok _ _ Hu) in Hb. injection Hb as <-. exact (mix_s_out _ _ Hu t Ht).
Qed.

Lemma tscale_K E mw uT kT kP kV kE kM : units_known E mw uT kT kP kV kE kM -> forall x K,
  temperature_scale (e_cfg E) x None (Some "K") = Ok K <-> K = to_kelvin uT x.
Proof. intros U x K. rewrite (tscale_to _ _ _ _ _ _ _ _ U). split; intro H; [now injection H|now subst]. Qed.

Section C30.
  Variables (E : env) (g : gas) (uT : string) (kT kP kV kE kM : R).
  Hypothesis S : species E g.
  Hypothesis U : units_known E (g_mw g) uT kT kP kV kE kM.

  Let kPp : 0 < kP := kP_pos _ _ _ _ _ _ _ _ U.
  Let kVp : 0 < kV := kV_pos _ _ _ _ _ _ _ _ U.
  Let kMp : 0 < kM := kM_pos _ _ _ _ _ _ _ _ U.

  Lemma gas_law varg kw Ts Ps Ds Vs i T P D V K :
    (List.length varg + List.length kw <> 1)%nat ->
    m_T g E varg kw = Ok Ts -> m_p g E varg kw = Ok Ps ->
    m_d g E varg kw = Ok Ds -> m_v g E varg kw = Ok Vs ->
    nth_error Ts i = Some (Some T) -> nth_error Ps i = Some (Some P) ->
    nth_error Ds i = Some (Some D) -> nth_error Vs i = Some (Some V) ->
    temperature_scale (e_cfg E) T None (Some "K") = Ok K ->
    P * kP = D * (kM / kV) * (1000 * gas_constant) * K /\ D * V = 1 /\
    nth 0 (g_Tlim g) 0 <= K <= last (g_Tlim g) 0.
  Proof.
    intros Hl HT HP HD HV HTi HPi HDi HVi HK.
    apply (tscale_K _ _ _ _ _ _ _ _ U) in HK. subst K.
    destruct (species_low _ _ S) as (Ho & Hlow & _).
    unfold m_v in HV. rewrite HD in HV. cbn [bind] in HV. injection HV as <-.
    rewrite (m_T_val _ _ _ _ _ _ _ _ U) in HT by exact Hl.
    rewrite (m_p_val _ _ _ _ _ _ _ _ U) in HP.
    rewrite (m_d_val _ _ _ _ _ _ _ _ U) in HD.
    destruct (argparse g E varg kw) as [[[T0 p] d]|] eqn:A; cbn [bind] in HT, HP, HD; try discriminate.
    injection HT as <-. injection HP as <-. injection HD as <-. cbn [fst] in HTi.
    apply nth_map in HTi. destruct HTi as ([t|] & Ht & Ht'); [|discriminate].
    cbn in Ht'. injection Ht' as ->. rewrite to_from_kelvin.
    destruct (state_elem _ _ _ _ _ _ _ _ U Ho Hlow _ _ _ _ _ _ _ A Ht) as (Hr & pf & df & Hpf & Hdf & Hlaw).
    apply nth_map in HPi. destruct HPi as (pf' & Hpf' & HPe). rewrite Hpf in Hpf'. injection Hpf' as <-.
    destruct pf as [p0|]; [|discriminate]. cbn in HPe. injection HPe as ->.
    apply nth_map in HVi. destruct HVi as (dd & Hdd & HVe). rewrite HDi in Hdd. injection Hdd as <-.
    cbn in HVe. destruct (Req_EM_T D 0) as [|HD0]; [discriminate|]. injection HVe as ->.
    unfold scaled in HDi.
    apply nth_map in HDi. destruct HDi as (df' & Hdf' & HDe). rewrite Hdf in Hdf'. injection Hdf' as <-.
    destruct df as [d0|]; [|discriminate]. cbn in HDe. injection HDe as ->.
    pose proof (Hlaw _ _ eq_refl eq_refl) as ->. unfold R1000. rewrite Ru_gas.
    split; [|split; [|exact Hr]]; field; repeat split; try lra. intros ->. apply HD0. ring.
  Qed.

  (* the four calls succeed or fail together, and return arrays of the same length *)
  Lemma calls_together varg kw : (List.length varg + List.length kw <> 1)%nat ->
    (exists Ts Ps Ds Vs, m_T g E varg kw = Ok Ts /\ m_p g E varg kw = Ok Ps /\
       m_d g E varg kw = Ok Ds /\ m_v g E varg kw = Ok Vs /\
       List.length Ps = List.length Ts /\ List.length Ds = List.length Ts /\
       List.length Vs = List.length Ts) \/
    (exists e, m_T g E varg kw = Err e /\ m_p g E varg kw = Err e /\
       m_d g E varg kw = Err e /\ m_v g E varg kw = Err e).
  Proof.
    intro Hl. unfold m_v. rewrite (m_T_val _ _ _ _ _ _ _ _ U) by exact Hl.
    rewrite (m_p_val _ _ _ _ _ _ _ _ U), (m_d_val _ _ _ _ _ _ _ _ U).
    destruct (argparse g E varg kw) as [[[T0 p] d]|e] eqn:A; cbn [bind]; [left|right; eauto].
    do 4 eexists. repeat (split; [reflexivity|]).
    apply (argparse_inv _ _ _ _ _ _ _ _ U) in A.
    destruct A as (kw1 & kw2 & T1 & _ & _ & _ & _ & -> & [G1 G2 G3 _]).
    unfold scaled. cbn [fst]. rewrite !map_length.
    destruct p as [P|], d as [D|]; cbn [the_p the_d];
      try specialize (G1 _ eq_refl); try specialize (G2 _ eq_refl);
      unfold p_of, d_of; rewrite ?map2_length, ?map_length; try lia.
    destruct G3; congruence.
  Qed.

  (* specified values are reported back *)
  Lemma echo_T varg kw a Ts i T : NoDup (map fst kw) -> In ("T", a) (supplied varg kw) ->
    m_T g E varg kw = Ok Ts -> nth_error Ts i = Some (Some T) -> elem a i = Some (Some T).
  Proof.
    intros Hn Ha HT Hi. destruct (species_low _ _ S) as (Ho & _).
    assert (exists kw', NoDup (map fst kw') /\ In ("T", a) (supplied varg kw') /\
              (do st <- argparse g E varg kw'; Ok (map (lift1 (from_kelvin uT)) (fst (fst st)))) = Ok Ts)
      as (kw' & Hn' & Ha' & HT').
    { destruct (Nat.eq_dec (List.length varg + List.length kw) 1) as [E1|E1].
      - unfold m_T in HT. rewrite E1 in HT. cbn [Nat.eqb] in HT.
        exists (dset "p" [Some (e_defp E)] kw). split; [now apply dset_nodup|]. split.
        + unfold supplied in *. apply in_app_iff in Ha. apply in_app_iff.
          destruct Ha as [Ha|Ha]; [left|now right].
          destruct kw as [|[k v] [|? ?]]; cbn in E1; [destruct Ha| |lia].
          destruct Ha as [Ha|[]]. injection Ha as -> ->. cbn. now left.
        + destruct (argparse g E varg _) as [[[T0 p] d]|]; cbn [bind] in *; [|discriminate].
          rewrite (atscale_from _ _ _ _ _ _ _ _ U) in HT. exact HT.
      - exists kw. repeat split; auto. now rewrite <- (m_T_val _ _ _ _ _ _ _ _ U). }
    destruct (argparse g E varg kw') as [[[T0 p] d]|] eqn:A; cbn [bind fst] in HT'; [|discriminate].
    injection HT' as <-. apply nth_map in Hi. destruct Hi as ([t|] & Ht & He); [|discriminate].
    cbn in He. injection He as ->.
    destruct (echo_T_si _ _ _ _ _ _ _ _ U _ _ _ _ _ _ _ _ Hn' A Ha' Ho Ht) as (y & Hy & ->).
    now rewrite from_to_kelvin.
  Qed.

  Lemma fmul_cancel k x : k <> 0 -> fmul (Some (/ k)) (fmul (Some k) x) = x.
  Proof. intro H. destruct x; cbn; [f_equal; field; exact H|reflexivity]. Qed.

  Lemma echo_p varg kw a Ps i P : NoDup (map fst kw) -> In ("p", a) (supplied varg kw) ->
    m_p g E varg kw = Ok Ps -> nth_error Ps i = Some P -> elem a i = Some P.
  Proof.
    intros Hn Ha HP Hi. rewrite (m_p_val _ _ _ _ _ _ _ _ U) in HP.
    destruct (argparse g E varg kw) as [[[T0 p] d]|] eqn:A; cbn [bind] in HP; [|discriminate].
    injection HP as <-.
    destruct (echo_p_si _ _ _ _ _ _ _ _ U _ _ _ _ _ _ Hn A Ha) as (P' & -> & K).
    cbn [the_p] in Hi. apply nth_map in Hi. destruct Hi as (x & Hx & ->).
    apply K in Hx. apply elem_map in Hx. destruct Hx as (y & Hy & ->).
    rewrite fmul_cancel by lra. exact Hy.
  Qed.

  Lemma echo_d varg kw a Ds i D : NoDup (map fst kw) -> In ("d", a) (supplied varg kw) ->
    m_d g E varg kw = Ok Ds -> nth_error Ds i = Some D -> elem a i = Some D.
  Proof.
    intros Hn Ha HP Hi. rewrite (m_d_val _ _ _ _ _ _ _ _ U) in HP.
    destruct (argparse g E varg kw) as [[[T0 p] d]|] eqn:A; cbn [bind] in HP; [|discriminate].
    injection HP as <-.
    destruct (echo_d_si _ _ _ _ _ _ _ _ U _ _ _ _ _ _ Hn A Ha) as (P' & -> & K).
    cbn [the_d] in Hi. apply nth_map in Hi. destruct Hi as (x & Hx & ->).
    apply K in Hx. apply elem_map in Hx. destruct Hx as (y & Hy & ->).
    rewrite Hy. f_equal. destruct y as [y|]; cbn; [|reflexivity]. f_equal. field. lra.
  Qed.

  Lemma echo_v varg kw a Vs i V : NoDup (map fst kw) -> In ("v", a) (supplied varg kw) ->
    m_v g E varg kw = Ok Vs -> nth_error Vs i = Some (Some V) -> elem a i = Some (Some V).
  Proof.
    intros Hn Ha HP Hi. unfold m_v in HP. rewrite (m_d_val _ _ _ _ _ _ _ _ U) in HP.
    destruct (argparse g E varg kw) as [[[T0 p] d]|] eqn:A; cbn [bind] in HP; [|discriminate].
    injection HP as <-.
    destruct (echo_v_si _ _ _ _ _ _ _ _ U _ _ _ _ _ _ Hn A Ha) as (P' & -> & K).
    cbn [the_d] in Hi. apply nth_map in Hi. destruct Hi as (x' & Hx' & He).
    unfold scaled in Hx'. apply nth_map in Hx'. destruct Hx' as (x & Hx & ->).
    apply K in Hx. apply elem_map in Hx. destruct Hx as (y & Hy & ->).
    rewrite Hy. f_equal. rewrite He.
    destruct y as [y|]; [|discriminate]. unfold reciprocal in *. cbn in He |- *.
    destruct (Req_EM_T (kV / kM * y) 0) as [|Hk]; [discriminate|]. cbn in He |- *.
    assert (y <> 0) by (intros ->; apply Hk; ring).
    destruct (Req_EM_T (1 / (kV / kM * y) * (kV / kM)) 0) as [|Hk2]; [discriminate|].
    f_equal. field. repeat split; lra.
  Qed.
End C30.

(* ---- C31 ---- *)
Section C31.
  Variables (E : env) (g : gas) (uT : string) (kT kP kV kE kM : R).
  Hypothesis U : units_known E (g_mw g) uT kT kP kV kE kM.
  Hypothesis HDef : defaults_known E.

  Lemma def_T_ok : exists t, def_T (e_cfg E) (e_defT E) (e_defTu E) = Ok t.
  Proof.
    destruct HDef as [H1 _]. unfold def_T. destruct U.
    rewrite (tscale_resolved _ _ (Some (e_defTu E)) None (e_defTu E) uT) by (auto; reflexivity).
    rewrite tscale_not_abs; [eauto| |]; now apply scale_not_abs.
  Qed.
  Lemma def_p_ok : exists p, def_p (e_setup E) (e_cfg E) (e_defp E) (e_defpu E) = Ok p.
  Proof.
    destruct HDef as [_ [k Hk]]. destruct U. destruct uk_P as (u & Hu & Hs).
    eexists. apply (def_p_value _ _ _ _ u k kP); assumption.
  Qed.

  Lemma defaults_ok kw1 : exists kw2, defaults E kw1 = Ok kw2.
  Proof.
    destruct def_T_ok as [t Ht], def_p_ok as [p Hp]. unfold defaults. rewrite Ht, Hp.
    destruct (List.length kw1) as [|[|]]; cbn [bind]; eauto. destruct (dmem "T" kw1); eauto.
  Qed.

  Lemma dmem_in {A} n (kw : list (string * A)) : dmem n kw = true <-> In n (dkeys kw).
  Proof.
    unfold dmem. destruct (dget n kw) eqn:D.
    - split; [intros _|auto]. apply dget_some_in in D. apply (in_map fst) in D. exact D.
    - apply dget_none_iff in D. split; [discriminate|contradiction].
  Qed.

  (* kw2 after the defaults, in terms of the names *)
  Lemma defaults_names kw1 kw2 : NoDup (dkeys kw1) -> defaults E kw1 = Ok kw2 ->
    dkeys kw2 = match dkeys kw1 with
                | [] => ["T"; "p"]
                | [n] => if String.eqb n "T" then ["T"; "p"] else [n; "T"]
                | l => l
                end.
  Proof.
    intro Hn. destruct def_T_ok as [t Ht], def_p_ok as [p Hp]. unfold defaults. rewrite Ht, Hp.
    destruct kw1 as [|[n a] [|[n' a'] kw1]]; cbn [List.length bind dkeys map fst].
    - intro H. injection H as <-. reflexivity.
    - unfold dmem. cbn [dget]. destruct (String.eqb_spec "T" n) as [<-|Hne].
      + intro H. injection H as <-. reflexivity.
      + rewrite dset_fresh by (cbn; intros [?|[]]; congruence). intro H. injection H as <-.
        destruct (String.eqb_spec n "T"); [congruence|]. reflexivity.
    - intro H. injection H as <-. reflexivity.
  Qed.

  Definition legal_names (l : list string) : Prop :=
    (List.length l <= 2)%nat /\ (forall n, In n l -> In n legal_args) /\
    ~ (In "T" l /\ In "e" l) /\ ~ (In "T" l /\ In "h" l) /\ ~ (In "e" l /\ In "h" l) /\
    ~ (In "d" l /\ In "v" l).

  Lemma rules_spec kw2 :
    (rules kw2 = Ok tt /\ legal_names (dkeys kw2)) \/
    (rules kw2 = Err PMParamError /\ ~ legal_names (dkeys kw2)).
  Proof.
    unfold rules, legal_names.
    assert (List.length (dkeys kw2) = List.length kw2) as -> by apply map_length.
    destruct (Nat.ltb_spec 2 (List.length kw2)). { right. split; [reflexivity|]. intros [Q _]. lia. }
    destruct (existsb (fun k => negb (existsb (String.eqb k) legal_args)) (dkeys kw2)) eqn:Hx.
    { right. split; [reflexivity|]. intros (_ & Hl & _). apply existsb_exists in Hx.
      destruct Hx as (n & Hn & Hf). apply Hl in Hn.
      assert (existsb (String.eqb n) legal_args = true) as K.
      { apply existsb_exists. exists n. split; [exact Hn|apply String.eqb_refl]. }
      rewrite K in Hf. discriminate. }
    assert (forall n, In n (dkeys kw2) -> In n legal_args) as Hleg.
    { intros n Hn. destruct (existsb (String.eqb n) legal_args) eqn:Hl.
      - apply existsb_exists in Hl. destruct Hl as (m & Hm & He). apply String.eqb_eq in He. now subst.
      - exfalso. enough (existsb (fun k => negb (existsb (String.eqb k) legal_args)) (dkeys kw2) = true) by congruence.
        apply existsb_exists. exists n. split; [exact Hn|]. now rewrite Hl. }
    pose proof (dmem_in "T" kw2) as KT. pose proof (dmem_in "e" kw2) as Ke.
    pose proof (dmem_in "h" kw2) as Kh. pose proof (dmem_in "d" kw2) as Kd. pose proof (dmem_in "v" kw2) as Kv.
    cbn [filter]. destruct (dmem "T" kw2), (dmem "e" kw2), (dmem "h" kw2); cbn [List.length Nat.ltb Nat.leb];
      try (right; split; [reflexivity|]; tauto);
      destruct (dmem "v" kw2), (dmem "d" kw2); cbn [andb];
      try (right; split; [reflexivity|]; tauto);
      left; (split; [reflexivity|]); repeat split; auto; try lia;
      intros [Q1 Q2];
      repeat match goal with K : _ <-> _, Q : In _ _ |- _ => apply K in Q; discriminate Q end.
  Qed.

  Lemma names_acceptable varg kw : NoDup (dkeys kw) ->
    acceptable varg kw <->
    (exists kw1 kw2, positional varg kw = Ok kw1 /\ defaults E kw1 = Ok kw2 /\ rules kw2 = Ok tt).
  Proof.
    intro Hn. split.
    - intros (Hl & Hnd & H2 & Hleg & A1 & A2 & A3 & A4 & A5 & A6).
      assert (positional varg kw = Ok (supplied varg kw)) as HP.
      { rewrite positional_spec by exact Hn. destruct (Nat.leb_spec (List.length varg) 2); [|lia].
        destruct (existsb _ _) eqn:Hx; [exfalso|reflexivity].
        apply existsb_exists in Hx. destruct Hx as (n & Hi & Hm). apply dmem_in in Hm.
        unfold supplied in Hnd. rewrite map_app in Hnd.
        revert Hnd Hi Hm. fold (dkeys kw). fold (dkeys (combine ["T"; "p"] varg)).
        generalize (dkeys kw), (dkeys (combine ["T"; "p"] varg)). intros l m Hd Hi Hm.
        apply in_split in Hi. destruct Hi as (m1 & m2 & ->). rewrite app_assoc in Hd.
        apply NoDup_remove_2 in Hd. apply Hd. rewrite <- app_assoc. apply in_or_app. now left. }
      destruct (defaults_ok (supplied varg kw)) as [kw2 HD].
      exists (supplied varg kw), kw2. repeat split; auto.
      destruct (rules_spec kw2) as [[K _]|[_ K]]; [exact K|]. exfalso. apply K.
      pose proof (defaults_names _ _ Hnd HD) as ->. fold (dkeys (supplied varg kw)) in *.
      destruct (dkeys (supplied varg kw)) as [|n [|n' l]].
      + repeat split; cbn; auto; try tauto; intuition (try congruence; subst; cbn; tauto).
      + specialize (Hleg n (or_introl eq_refl)).
        destruct (String.eqb_spec n "T") as [->|Hne].
        * repeat split; cbn; auto; try tauto; intuition (try congruence; subst; cbn; tauto).
        * assert (n <> "e") by (intros ->; apply A5; reflexivity).
          assert (n <> "h") by (intros ->; apply A6; reflexivity).
          repeat split; cbn; auto; try (intuition congruence).
          intros m [<-|[<-|[]]]; [exact Hleg|cbn; tauto].
      + repeat split; auto.
    - intros (kw1 & kw2 & H1 & H2 & H3).
      apply positional_inv in H1; [|exact Hn]. destruct H1 as (-> & Hn1 & Hl).
      destruct (rules_spec kw2) as [[_ K]|[K _]]; [|congruence].
      rewrite (defaults_names _ _ Hn1 H2) in K. unfold acceptable. fold (dkeys (supplied varg kw)).
      destruct K as (K1 & K2 & K3 & K4 & K5 & K6).
      destruct (dkeys (supplied varg kw)) as [|n [|n' l]] eqn:Hk.
      + repeat split; cbn; auto; try tauto; try discriminate.
      + assert (NoDup [n]) as N1 by (constructor; [intros []|constructor]).
        assert (In n legal_args) as L1.
        { destruct (String.eqb_spec n "T") as [->|Hne]; [cbn; tauto|]. apply K2. now left. }
        assert (n <> "e") by (intros ->; apply K3; cbn; tauto).
        assert (n <> "h") by (intros ->; apply K4; cbn; tauto).
        split; [exact Hl|]. split; [exact N1|]. split; [cbn; lia|].
        split. { intros m [<-|[]]. exact L1. }
        cbn [In]. repeat split; intuition congruence.
      + split; [exact Hl|]. split; [exact Hn1|]. repeat (split; [assumption|]). split; discriminate.
  Qed.

  Lemma rejects varg kw : NoDup (map fst kw) -> ~ acceptable varg kw ->
    argparse g E varg kw = Err PMParamError.
  Proof.
    intros Hn Ha. rewrite names_acceptable in Ha by exact Hn. unfold argparse.
    destruct (positional varg kw) as [kw1|e1] eqn:P1; cbn [bind].
    - destruct (defaults E kw1) as [kw2|e2] eqn:P2; cbn [bind].
      + destruct (rules_spec kw2) as [[K _]|[K _]]; [|rewrite K; reflexivity].
        exfalso. apply Ha. eauto.
      + destruct (defaults_ok kw1) as [kw2 K]. congruence.
    - rewrite positional_spec in P1 by exact Hn.
      destruct (Nat.leb _ _); [|congruence]. destruct (existsb _ _); congruence.
  Qed.

  (* ---- errors of accepted calls ---- *)
  Definition compat2 (a b : arr) : Prop :=
    List.length a = List.length b \/ List.length a = 1%nat \/ List.length b = 1%nat.
  Lemma broadcast_err a b e : broadcast a b = Err e -> ~ compat2 a b.
  Proof.
    unfold broadcast, compat2. destruct (Nat.eqb_spec (List.length a) (List.length b)); [discriminate|].
    destruct a as [|x [|x2 a]]; destruct b as [|y [|y2 b]]; cbn in *; try discriminate; intros _; lia.
  Qed.

  Lemma bounds_err T e : bounds g E T = Err e ->
    e = PMParamError /\ forall x, In x T -> exists r, x = Some r /\ (r < Tlow g \/ Thigh g < r).
  Proof.
    unfold bounds. destruct (forallb (out_of_range g) T) eqn:F; [|discriminate].
    intro H. injection H as <-. split; [reflexivity|]. intros x Hx.
    rewrite forallb_forall in F. apply F in Hx. destruct x as [r|]; [|discriminate].
    exists r. split; [reflexivity|]. unfold out_of_range, flt in Hx.
    destruct (Rlt_dec r (Tlow g)); [now left|]. destruct (Rlt_dec (Thigh g) r); [now right|discriminate].
  Qed.

  Lemma iter1_in fns ys xs : Tlow g <= Thigh g -> iter1 (Tlow g) (Thigh g) fns ys = Ok xs ->
    forall x, In x xs -> match x with Some r => Tlow g <= r <= Thigh g | None => True end.
  Proof.
    intros Hle H. unfold iter1 in H. destruct (iter1_full _ _ _ _) as [[xs' w]|] eqn:F; [|discriminate].
    cbn in H. injection H as <-. apply iter1_bounded in F; [|exact Hle]. rewrite Forall_forall in F. exact F.
  Qed.

  Lemma elem_in (a : arr) i x : elem a i = Some x -> In x a.
  Proof.
    destruct a as [|y [|z a]]; cbn [elem].
    - destruct i; discriminate.
    - intro H. injection H as ->. now left.
    - intro H. apply nth_error_In in H. exact H.
  Qed.
  Lemma broadcast_elem a b a' b' s1 s2 : broadcast a b = Ok (a', b', s1, s2) ->
    (forall x, In x a' -> In x a) /\ (forall x, In x b' -> In x b) /\
    (a <> [] -> b <> [] -> a' <> [] /\ b' <> [] /\
       (forall x, In x a -> In x a') /\ (forall x, In x b -> In x b')).
  Proof.
    intro B. destruct (broadcast_ok _ _ _ _ _ _ B) as (Hl & H1 & H2). split; [|split].
    - intros x Hx. apply In_nth_error in Hx. destruct Hx as [i Hi]. eapply elem_in, H1, Hi.
    - intros x Hx. apply In_nth_error in Hx. destruct Hx as [i Hi]. eapply elem_in, H2, Hi.
    - intros Ha Hb. unfold broadcast in B.
      destruct (Nat.eqb _ _); [injection B as <- <- <- <-; auto|].
      destruct a as [|x [|x2 a]]; [contradiction| |].
      + injection B as <- <- <- <-. destruct b as [|y b]; [contradiction|]. cbn.
        repeat split; try discriminate; auto; tauto.
      + destruct b as [|y [|y2 b]]; try discriminate. injection B as <- <- <- <-. cbn.
        repeat split; try discriminate; auto; tauto.
  Qed.

  Lemma outside_inT (a T0 : arr) :
    (forall x, In x (inT uT a) -> In x T0) ->
    (forall x, In x T0 -> exists r, x = Some r /\ (r < Tlow g \/ Thigh g < r)) -> all_outside E g a.
  Proof.
    intros H1 H2 x Hx. assert (In (lift1 (to_kelvin uT) x) T0) as K by (apply H1, in_map, Hx).
    destruct (H2 _ K) as (r & Hr & Ho). destruct x as [y|]; [|discriminate]. cbn in Hr. injection Hr as <-.
    exists y, (to_kelvin uT y). split; [reflexivity|]. split; [|exact Ho].
    now apply (tscale_K _ _ _ _ _ _ _ _ U).
  Qed.

  Lemma iter1_not_outside fns ys xs (T0 : arr) : Tlow g <= Thigh g ->
    iter1 (Tlow g) (Thigh g) fns ys = Ok xs -> T0 <> [] -> (forall x, In x T0 -> In x xs) ->
    (forall x, In x T0 -> exists r, x = Some r /\ (r < Tlow g \/ Thigh g < r)) -> False.
  Proof.
    intros Hle I Hne Hin Ho. destruct T0 as [|x T0]; [contradiction|].
    specialize (Ho x (or_introl eq_refl)). specialize (Hin x (or_introl eq_refl)).
    pose proof (iter1_in _ _ _ Hle I x Hin) as K. destruct Ho as (r & -> & Ho). lra.
  Qed.

  Lemma map_ne {A B} (f : A -> B) l : l <> [] -> map f l <> [].
  Proof. destruct l; [contradiction|discriminate]. Qed.
  Lemma len_ne {A B} (l : list A) (m : list B) : List.length l = List.length m -> m <> [] -> l <> [].
  Proof. destruct l, m; cbn; try lia; try contradiction; discriminate. Qed.
  Lemma inplace_length sh (s w : arr) : List.length s = List.length w -> List.length (inplace_add sh s w) = List.length s.
  Proof.
    intro H. unfold inplace_add. destruct sh; rewrite ?repeat_length, map2_length; lia.
  Qed.

  Lemma accepted_errors varg kw e : Tlow g <= Thigh g -> NoDup (map fst kw) -> acceptable varg kw ->
    compatible (supplied varg kw) -> argparse g E varg kw = Err e ->
    (e = PMAnalysisError /\ exists n, In n ["e"; "h"; "s"] /\ In n (map fst (supplied varg kw))) \/
    (e = PMParamError /\ refused E g varg kw).
  Proof.
    intros Hle Hn Hacc Hcomp H. rewrite names_acceptable in Hacc by exact Hn.
    destruct Hacc as (kw1 & kw2 & P1 & P2 & P3). unfold argparse in H. rewrite P1 in H. cbn [bind] in H.
    rewrite P2 in H. cbn [bind] in H. rewrite P3 in H. cbn [bind] in H.
    apply positional_inv in P1; [|exact Hn]. destruct P1 as (-> & Hn1 & _).
    apply defaults_inv in P2; [|exact Hn1]. destruct P2 as (Hn2 & Hl2 & _ & _ & Hback).
    destruct (rules_spec kw2) as [[_ HL]|[K _]]; [|congruence].
    rewrite (solve_units _ _ _ _ _ _ _ _ U) in H.
    destruct HL as (L1 & L2 & L3 & L4 & L5 & L6).
    destruct kw2 as [|[n1 a] [|[n2 b] [|? ?]]]; cbn in Hl2, L1; try lia. clear Hl2 L1.
    assert (n1 <> n2) as Hne. { inversion Hn2; subst. cbn in H2. intuition congruence. }
    (* every array of kw2 is supplied or has one element *)
    assert (exists n, (List.length a = n \/ List.length a = 1%nat) /\ (List.length b = n \/ List.length b = 1%nat)) as (len & La & Lb).
    { destruct Hcomp as [n Hc]. exists n. split.
      - destruct (Hback n1 a (or_introl eq_refl)) as [K|[(_ & t & _ & -> & _)|(_ & t & _ & -> & _)]]; [eauto|now right..].
      - destruct (Hback n2 b (or_intror (or_introl eq_refl))) as [K|[(_ & t & _ & -> & _)|(_ & t & _ & -> & _)]]; [eauto|now right..]. }
    assert (forall n, In n ["e"; "h"; "s"] -> n = n1 \/ n = n2 ->
              exists n, In n ["e"; "h"; "s"] /\ In n (map fst (supplied varg kw))) as Hsrc.
    { intros n Hin Hor. exists n. split; [exact Hin|].
      assert (exists x, In (n, x) [(n1, a); (n2, b)]) as [x Hx].
      { destruct Hor as [-> | ->]; eexists; [now left|right; now left]. }
      destruct (Hback n x Hx) as [K|[(-> & _)|(-> & _)]].
      - apply (in_map fst) in K. exact K.
      - cbn in Hin. intuition discriminate.
      - cbn in Hin. intuition discriminate. }
    assert (forall x, all_outside E g x -> In ("T", x) [(n1, a); (n2, b)] -> refused E g varg kw) as HrT.
    { intros x Ho Hx. destruct (Hback "T" x Hx) as [K|[(_ & t & Ht & -> & Hlen & HnT)|(K & _)]]; [left; eauto| |discriminate].
      right; left. exists t. repeat split; auto. now rewrite map_length. }
    assert (a = [] \/ b = [] -> refused E g varg kw) as Hempty.
    { intro Hor. right; right; right. destruct Hor as [-> | ->].
      - exists n1. destruct (Hback n1 [] (or_introl eq_refl)) as [K|[(_ & t & _ & K & _)|(_ & t & _ & K & _)]]; [exact K|discriminate..].
      - exists n2. destruct (Hback n2 [] (or_intror (or_introl eq_refl))) as [K|[(_ & t & _ & K & _)|(_ & t & _ & K & _)]]; [exact K|discriminate..]. }
    assert (forall n x, In (n, x) [(n1, a); (n2, b)] -> n = "d" \/ n = "v" -> In n (map fst (supplied varg kw))) as Hdv.
    { intros n x Hx Hor. destruct (Hback n x Hx) as [K|[(-> & _)|(-> & _)]]; [apply (in_map fst) in K; exact K| |]; destruct Hor; discriminate. }
    assert (forall nd x y, In ("p", x) [(n1, a); (n2, b)] -> In (nd, y) [(n1, a); (n2, b)] -> nd = "d" \/ nd = "v" -> refused E g varg kw) as Hpd.
    { intros nd x y Hx Hy Hor. pose proof (Hdv nd y Hy Hor) as Hd.
      right; right; left. split; [|destruct Hor as [-> | ->]; auto].
      destruct (Hback "p" x Hx) as [K|[(K & _)|(_ & t & _ & _ & Hlen)]]; [apply (in_map fst) in K; exact K|discriminate|].
      exfalso.
      apply (three [(n1, a); (n2, b)] "T" "p" nd); try discriminate; try (destruct Hor; subst; discriminate).
      - cbn. lia.
      - intro K. apply dget_none_iff in K. apply K, Hlen.
      - intro K. apply dget_none_iff in K. apply K. apply (in_map fst) in Hx. exact Hx.
      - intro K. apply dget_none_iff in K. apply K. apply (in_map fst) in Hy. exact Hy. }
    assert (a = [] \/ b = [] \/ (a <> [] /\ b <> [])) as Hab.
    { destruct a; [now left|]. destruct b; [right; now left|]. right; right. split; discriminate. }
    assert (In n1 legal_args) as G1 by (apply L2; now left).
    assert (In n2 legal_args) as G2 by (apply L2; right; now left).
    clear Hback Hcomp Hn2 L2 P3 Hdv.
    unfold core in H.
    cbn in G1, G2.
    repeat (destruct G1 as [<-|G1]); try destruct G1;
      repeat (destruct G2 as [<-|G2]); try destruct G2; try (exfalso; apply Hne; reflexivity);
      try (exfalso; solve [apply L3; split; cbn; auto | apply L4; split; cbn; auto |
                           apply L5; split; cbn; auto | apply L6; split; cbn; auto]);
      clear L3 L4 L5 L6;
      cbn [dget String.eqb Ascii.eqb Bool.eqb option_map ores bind] in H.
    all: repeat match type of H with
      | context [broadcast ?x ?y] =>
          let B := fresh "B" in
          destruct (broadcast x y) as [[[[? ?] ?] ?]|] eqn:B;
          [ let L := fresh "L" in pose proof (proj1 (broadcast_ok _ _ _ _ _ _ B)) as L;
            apply broadcast_elem in B; cbn [bind] in H
          | exfalso; apply (broadcast_err _ _ _ B); unfold compat2;
            unfold inT, inP, inD, inV, inH, inS in *; rewrite ?map_length in *; lia ]
      | context [iter1 ?x1 ?x2 ?x3 ?x4] =>
          let I := fresh "I" in
          destruct (iter1 x1 x2 x3 x4) as [?|] eqn:I;
          [ let J := fresh "J" in pose proof I as J; apply iter1_length in J;
            [ | rewrite map_length; solve [reflexivity | lia] ];
            try rewrite inplace_length in J by (rewrite map_length; assumption);
            cbn [bind ores] in H
          | apply iter1_err in I; subst; cbn [bind] in H; injection H as <-; left; split; [reflexivity|];
            solve [ apply (Hsrc "e"); cbn; auto | apply (Hsrc "h"); cbn; auto | apply (Hsrc "s"); cbn; auto ] ]
      end.
    all: match type of H with context [bounds g E ?t] =>
           destruct (bounds g E t) eqn:Bo; cbn [bind] in H; [discriminate H|] end;
         injection H as <-; apply bounds_err in Bo; destruct Bo as [-> Bo].
    all: right; (split; [reflexivity|]);
         destruct Hab as [Q|[Q|[Qa Qb]]]; try (apply Hempty; auto; fail).
    all: try (match goal with B : _ |- _ => destruct B as (? & ? & B2);
           unfold inT, inP, inD, inV, inH, inS in B2;
           destruct B2 as (? & ? & ? & ?); [try (apply map_ne; assumption)|try (apply map_ne; assumption)|] end).
    all: try (match goal with J : List.length ?x = _ |- ?x <> [] => 
                eapply len_ne; [exact J|unfold inH, inS; apply map_ne; assumption] end).
    all: try (match goal with |- refused _ _ _ _ => idtac | _ => fail 1 "other" end).
    all: solve
      [ apply (HrT a); [eapply (outside_inT a); [|exact Bo]; unfold inT; assumption | cbn; auto]
      | apply (HrT b); [eapply (outside_inT b); [|exact Bo]; unfold inT; assumption | cbn; auto]
      | eapply (Hpd "d"); cbn; auto
      | eapply (Hpd "v"); cbn; auto
      | exfalso; match goal with I : iter1 _ _ _ _ = Ok ?xs, J : List.length ?xs = _ |- _ =>
          eapply (iter1_not_outside _ _ xs); [exact Hle|exact I| | |exact Bo];
          [ solve [assumption | eapply len_ne; [exact J|assumption]] | solve [assumption | auto] ] end ].
  Qed.
End C31.

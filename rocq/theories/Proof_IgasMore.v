(* C74: state() of the ideal gas classes, and the data accessors. *)
From Coq Require Import Reals ZArith List String Bool Lia Lra.
From Verif Require Import Base Model_Num Model_Units Model_Defaults Model_Igas Spec_Units Proof_Units
  Proof_Defaults Model_Igmix Spec_Igas Spec_IgasMore Proof_Igas Proof_Igmix Proof_Iter Proof_IgasUnits Proof_IgasState
  Proof_IgasArgs Proof_IgasCalls Proof_IgasRel.
Import ListNotations.
Local Open Scope R_scope.
Local Open Scope string_scope.
Local Open Scope list_scope.

Lemma species_cp_none E g : species E g -> g_cp g None = None /\ snd (g_h g None) = None.
Proof.
  intros (_ & [(D & _ & Hg) | (coll & m & o & Hu & Hb & ->)]).
  - destruct Hg as [-> | ->]; cbn [ig_gas ig2_gas g_cp g_h fst snd]; rewrite ?piecewise_nan; split; reflexivity.
  - rewrite (bootstrap_ok _ _ Hu) in Hb. injection Hb as <-.
    assert (exists ss q D, In (ss, q) (m_contents m) /\ loaded coll ss D) as (ss & q & D & Hc & HL).
    { destruct Hu as (Hne & _ & Hm & _). destruct (m_contents m) as [|[ss q] l]; [contradiction|].
      destruct (Hm ss q (or_introl eq_refl)) as (_ & D & HL & _). exists ss, q, D. split; [now left|exact HL]. }
    unfold mix_gas. cbn [g_cp g_h x_x mix_state fst snd].
    split; (apply (weighted_none coll m); exists ss, q; split; [exact Hc|];
      destruct (loaded_facts _ _ _ HL) as (_ & _ & _ & [K|K]); rewrite K;
      cbn [ig_gas ig2_gas g_cp g_h fst snd]; rewrite piecewise_nan; reflexivity).
Qed.

Section C74.
  Variables (E : env) (g : gas) (uT : string) (kT kP kV kE kM : R).
  Hypothesis S : species E g.
  Hypothesis U : units_known E (g_mw g) uT kT kP kV kE kM.

  Lemma cp_is_slope varg kw T p d : argparse g E varg kw = Ok (T, p, d) ->
    map (fun t => snd (g_h g t)) T = map (g_cp g) T.
  Proof.
    intro A. destruct (species_low _ _ S) as (Ho & Hlow & _).
    apply map_ext_in. intros t Ht. apply In_nth_error in Ht. destruct Ht as [i Hi].
    destruct t as [t|].
    - destruct (state_elem _ _ _ _ _ _ _ _ U Ho Hlow _ _ _ _ _ _ _ A Hi) as (Hr & _).
      destruct (species_values _ _ _ S Hr) as (cp & h & s & [V1 V2 _ _ _ _]).
      rewrite V1, V2. reflexivity.
    - destruct (species_cp_none _ _ S) as [-> ->]. reflexivity.
  Qed.

  Lemma state_agrees varg kw : (List.length varg + List.length kw <> 1)%nat ->
    (exists st, m_state g E varg kw = Ok st /\
       map fst st = ["T"; "p"; "d"; "v"; "h"; "e"; "gam"; "s"; "cp"; "cv"] /\
       forall n m, In (n, m) (state_entries g E) -> exists v, m varg kw = Ok v /\ dget n st = Some v) \/
    (exists e, m_state g E varg kw = Err e /\
       forall n m, In (n, m) (state_entries g E) -> m varg kw = Err e).
  Proof.
    intro Hl. unfold m_state.
    destruct (argparse g E varg kw) as [[[T p] d]|e] eqn:A; cbn [bind].
    - left. rewrite (atscale_from _ _ _ _ _ _ _ _ U), (p_out _ _ _ _ _ _ _ _ U),
        (density_out _ _ _ _ _ _ _ _ U g eq_refl), (energy_out _ _ _ _ _ _ _ _ U g eq_refl). cbn [bind].
      rewrite (heat_from_energy _ _ _ _ _ _ _ _ U). cbn [bind].
      eexists. split; [reflexivity|]. split; [reflexivity|].
      pose proof (cp_is_slope _ _ _ _ _ A) as Hcp.
      intros n m Hm. unfold state_entries in Hm. cbn [In] in Hm.
      repeat match goal with H : _ \/ _ |- _ => destruct H as [H|H] end; try contradiction;
        injection Hm as <- <-; cbn [dget String.eqb Ascii.eqb Bool.eqb].
      + rewrite (m_T_val _ _ _ _ _ _ _ _ U), A by exact Hl. eexists. split; reflexivity.
      + rewrite (m_p_val _ _ _ _ _ _ _ _ U), A. eexists. split; reflexivity.
      + rewrite (m_d_val _ _ _ _ _ _ _ _ U), A. eexists. split; reflexivity.
      + unfold m_v. rewrite (m_d_val _ _ _ _ _ _ _ _ U), A. eexists. split; reflexivity.
      + rewrite (m_h_val _ _ _ _ _ _ _ _ U), A. eexists. split; reflexivity.
      + rewrite (m_e_val _ _ _ _ _ _ _ _ U), A. eexists. split; [reflexivity|].
        do 2 f_equal. unfold map2. clear. induction T as [|t T IH]; [reflexivity|].
        cbn [map combine fst snd]. f_equal. exact IH.
      + rewrite (m_s_val _ _ _ _ _ _ _ _ U), A. eexists. split; reflexivity.
      + rewrite (m_cp_val _ _ _ _ _ _ _ _ U), A. eexists. split; [reflexivity|].
        rewrite Hcp. reflexivity.
      + rewrite (m_cv_val _ _ _ _ _ _ _ _ U), A. eexists. split; [reflexivity|].
        rewrite Hcp, map_map. reflexivity.
      + unfold m_gam. rewrite A. eexists. split; [reflexivity|].
        rewrite Hcp, map_map. f_equal. unfold map2. clear. induction T as [|t T IH]; [reflexivity|].
        cbn [map combine fst snd]. f_equal. exact IH.
    - right. exists e. split; [reflexivity|]. intros n m Hm. unfold state_entries in Hm. cbn [In] in Hm.
      repeat match goal with H : _ \/ _ |- _ => destruct H as [H|H] end; try contradiction; injection Hm as <- <-.
      + rewrite (m_T_val _ _ _ _ _ _ _ _ U), A by exact Hl. reflexivity.
      + unfold m_p. rewrite A. reflexivity.
      + unfold m_d. rewrite A. reflexivity.
      + unfold m_v, m_d. rewrite A. reflexivity.
      + unfold m_h. rewrite A. reflexivity.
      + unfold m_e. rewrite A. reflexivity.
      + unfold m_s. rewrite A. reflexivity.
      + unfold m_cp. rewrite A. reflexivity.
      + unfold m_cv. rewrite A. reflexivity.
      + unfold m_gam. rewrite A. reflexivity.
  Qed.

  Lemma Tlim_reported : exists lo hi, m_Tlim g E = Ok (lo, hi) /\
    temperature_scale (e_cfg E) lo None (Some "K") = Ok (nth 0 (g_Tlim g) 0) /\
    temperature_scale (e_cfg E) hi None (Some "K") = Ok (last (g_Tlim g) 0).
  Proof.
    unfold m_Tlim. rewrite !(tscale_from _ _ _ _ _ _ _ _ U). cbn [bind]. do 2 eexists. split; [reflexivity|].
    rewrite !(tscale_to _ _ _ _ _ _ _ _ U), !to_from_kelvin. split; reflexivity.
  Qed.
End C74.

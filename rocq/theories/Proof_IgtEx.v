(* Dynamic mixtures: calls with numbers succeed; instances. *)
From Coq Require Import Reals ZArith List String Bool Lia Lra Arith.
From Verif Require Import Proof_IgasRel Base Model_Num Model_Units Model_Igas Model_Igmix Model_Igtools Model_Igtprop
  Spec_Units Spec_Igas Spec_Igmix Spec_Igtools Spec_Igtprop Spec_IgtGas
  Proof_Solve Proof_Units Proof_Igas Proof_IgasUnits Proof_IgasState Proof_IgasCalls Proof_IgmixProp
  Proof_Igtshape Proof_Igtools Proof_IgtAdd Proof_IgtMore Proof_IgtItems Proof_IgtNew Proof_IgtProp Proof_IgtInst Proof_IgtGas Proof_IgtArgs Proof_IgtLaw Proof_IgtIdent Proof_IgtGiven Proof_IgtEnt.
Import ListNotations.
Local Open Scope R_scope.
Local Open Scope string_scope.
Local Open Scope list_scope.

Lemma sp_total P m pn : nsh pn = shape m -> exists a, sp_of P m pn = Ok a.
Proof.
  intro Hs. unfold sp_of.
  assert (L : forall names k sp, nsh sp = shape m -> exists a, sp_loop P names (x_q m) (sum_rows (x_q m)) k pn sp = Ok a).
  { induction names as [|s names IH]; intros k sp Hsp; cbn [sp_loop]; [eauto|].
    destruct (op_same fmul pn (row (x_q m) k) (shape m) Hs eq_refl) as (t1 & -> & T1 & _). cbn [bind].
    destruct (op_same fdiv t1 (sum_rows (x_q m)) (shape m) T1 eq_refl) as (t2 & -> & T2 & _). cbn [bind].
    assert (M : mask_fits (tl (nsh (x_q m))) (nsh (np_map (fun x => fdiv x (Some (g_pref (gas_of P s)))) t2)) = true).
    { unfold mask_fits. cbn [np_map nsh]. rewrite T2. apply shape_eqb_spec. unfold shape. apply firstn_all. }
    rewrite M. set (t4 := {| nsh := _; nel := _ |}).
    destruct (op_same fmul (row (x_q m) k) (np_map flog t4) (shape m) eq_refl T2) as (u & -> & Tu & _). cbn [bind].
    rewrite Hsp. destruct (bto_same u (shape m) Tu) as (w & -> & Tw & _). cbn [bind]. apply IH. reflexivity. }
  destruct (L (x_c m) 0%nat {| nsh := nsh pn; nel := fun _ => Some 0 |} Hs) as (a & ->). cbn [bind]. eauto.
Qed.

Section Numbers.
  Context (P : pool) (E : env) (m : mix) (n : string -> list nat -> R).
  Context (uT : string) (kT kP kV kE : R) (t s0 : R).
  Let K := to_kelvin uT t.
  Context (Hok : usable_at P E m n K).
  Context (U : forall s, In s (x_c m) -> exists k, units_known E (mw_of P s) uT kT kP kV kE k).

  Lemma st_args : (exists i, index_in (shape m) i) ->
    exists T pn, nargparse P E m [] [("s", scalar s0); ("T", scalar t)] = Ok (T, Some pn, None) /\
      nsh T = shape m /\ nsh pn = shape m /\ (forall i, nel T i = Some K).
  Proof.
    intros [i0 Hi0]. destruct (one P E m n uT kT kP kV kE t Hok U) as (q0 & k0 & Hq0 & U0).
    destruct (limits_value P E m n uT kT kP kV kE t Hok U) as (lo & hi & L1 & L2). fold K in L2.
    assert (Hm : mixture_ok m) by apply Hok. assert (Hne : x_c m <> []) by apply Hok.
    unfold nargparse. rewrite L1. cbn [bind npositional ndefaults List.length dmem dget String.eqb Ascii.eqb Bool.eqb Nat.ltb Nat.leb].
    cbn [fst snd].
    change (nrules [("s", scalar s0); ("T", scalar t)]) with (Ok tt). cbn [bind].
    assert (TT : exists T, ntscale E (atleast_1d (scalar t)) None (Some "K") = Ok T /\ nsh T = [1%nat] /\ forall i, nel T i = Some K).
    { unfold ntscale. rewrite (tscale_to E (mw_of P q0) uT kT kP kV kE k0 U0). cbn [bind]. eexists; split; [reflexivity|].
      split; [reflexivity|]. intro i. cbn [np_map nel atleast_1d scalar nsh]. rewrite (tscale_to E (mw_of P q0) uT kT kP kV kE k0 U0). reflexivity. }
    assert (SS : exists b c, nconvert E QEnergy (atleast_1d (scalar s0)) None (Some "kJ") None = Ok b /\
      nconvert E QTemperature b None (Some "K") (Some (-1)%Z) = Ok c /\ nsh c = [1%nat]).
    { unfold nconvert. rewrite (to_si E (mw_of P q0) uT kT kP kV kE k0 U0 QEnergy 1 "kJ" 1000 None I eq_refl).
      rewrite (to_si E (mw_of P q0) uT kT kP kV kE k0 U0 QTemperature 1 "K" (9/5) (Some (-1)%Z) I eq_refl).
      cbn [bind]. do 2 eexists. split; [reflexivity|]. split; [reflexivity|]. reflexivity. }
    destruct TT as (T & HT & T1 & T2). destruct SS as (b & c & Hb & Hc & C1).
    destruct (bs_number (shape m)) as [_ B]; [apply Hm|].
    assert (F : fits [1%nat] (shape m) = true).
    { destruct Hm as (_ & Hsh & _). unfold fits. cbn [List.length]. destruct (Nat.leb_spec 1 (List.length (shape m))) as [_|Hl]; [|destruct (shape m); [congruence|cbn in Hl; lia]].
      cbn [andb]. destruct (skipn (List.length (shape m) - 1) (shape m)); reflexivity. }
    set (T' := {| nsh := shape m; nel := fun i => nel T (bidx [1%nat] i) |}).
    assert (BT : broadcast_to T (shape m) = Ok T') by (unfold broadcast_to; now rewrite T1, F).
    assert (BS : exists x, broadcast_to c (shape m) = Ok x) by (unfold broadcast_to; rewrite C1, F; eauto).
    destruct BS as [x BS].
    destruct (p_from_s_str P m c T' (shape m) (nshape m Hm) (nshape m Hm) (stretches_refl _) (or_intror (or_introl C1)) eq_refl Hne) as (pn & P1 & P2 & _).
    assert (S : nsolve P E m lo hi [("s", scalar s0); ("T", scalar t)] = Ok (T', true, Some pn, None)).
    { unfold nsolve. cbn [dget String.eqb Ascii.eqb Bool.eqb ores]. rewrite HT. cbn [bind ores]. rewrite Hb. cbn [bind]. rewrite Hc. cbn [bind].
      rewrite C1, T1, B. cbn [bind]. rewrite B. cbn [bind]. rewrite BS. cbn [bind]. rewrite BT. cbn [bind]. rewrite P1. reflexivity. }
    rewrite S. cbn [bind].
    unfold nbounds. unfold to_list. cbn [T' nsh nel].
    assert (B1 : forallb (fun x => flt x (Some lo) || flt (Some hi) x) (map (fun i => nel T (bidx [1%nat] i)) (all_idx (shape m))) = false).
    { pose proof (all_idx_in _ _ Hi0) as Hin. destruct (all_idx (shape m)) as [|j l]; [contradiction|]. cbn [map forallb].
      rewrite T2. cbn [flt]. destruct (Rlt_dec K lo); [lra|]. destruct (Rlt_dec hi K); [lra|]. reflexivity. }
    assert (B2 : existsb (fun x => flt x (Some lo) || flt (Some hi) x) (map (fun i => nel T (bidx [1%nat] i)) (all_idx (shape m))) = false).
    { clear B1. induction (all_idx (shape m)) as [|j l IH]; [reflexivity|]. cbn [map existsb].
      rewrite T2. cbn [flt]. destruct (Rlt_dec K lo); [lra|]. destruct (Rlt_dec hi K); [lra|]. exact IH. }
    rewrite B1, B2. cbn [bind]. exists T', pn. split; [reflexivity|]. cbn [T' nsh nel]. auto.
  Qed.

  Lemma st_succeeds : (exists i, index_in (shape m) i) ->
    exists v, n_s P E m [] [("s", scalar s0); ("T", scalar t)] = Ok v /\ nsh v = shape m /\
      forall i, index_in (shape m) i -> (forall s, In s (x_c m) -> 0 <= n s i) -> 0 < total_amount m n i -> nel v i = Some s0.
  Proof.
    intro Hex. destruct (st_args Hex) as (T & pn & A & T1 & T2 & T3).
    destruct (one P E m n uT kT kP kV kE t Hok U) as (q0 & k0 & Hq0 & U0).
    assert (Hm : mixture_ok m) by apply Hok. assert (Hne : x_c m <> []) by apply Hok. assert (Ka : amounts_known m n) by apply Hok.
    assert (Like : like_mixture m [] [("s", scalar s0); ("T", scalar t)]).
    { intros k a Hin. left. cbn in Hin. destruct Hin as [X|[X|[]]]; injection X as <- <-; reflexivity. }
    assert (HT : exists vT, n_T P E m [] [("s", scalar s0); ("T", scalar t)] = Ok vT /\ forall i, nel vT i = Some t).
    { unfold n_T. rewrite A. cbn [bind]. unfold ntscale. rewrite (tscale_from E _ uT kT kP kV kE k0 U0). cbn [bind]. eexists; split; [reflexivity|].
      intro i. cbn [np_map nel]. rewrite T3, (tscale_from E _ uT kT kP kV kE k0 U0). unfold K. now rewrite from_to_kelvin. }
    destruct HT as (vT & HT & VT).
    assert (HS : exists v, n_s P E m [] [("s", scalar s0); ("T", scalar t)] = Ok v).
    { unfold n_s. rewrite A. cbn [bind need_p].
      destruct (propeval_str P m (fun g x => fst (g_s g x)) T (shape m) (nshape m Hm) (nshape m Hm) (stretches_refl _) T1 Hne) as (c & -> & C1 & _). cbn [bind].
      destruct (sp_total P m pn T2) as (w & W). rewrite W. cbn [bind]. apply sp_of_shape in W.
      destruct (op_same fadd c w (shape m) C1 ltac:(congruence)) as (z & -> & _). cbn [bind].
      destruct (heat_out P E m n uT kT kP kV kE t Hok U z) as (v & -> & _). eauto. }
    destruct HS as (v & HS). exists v. split; [exact HS|].
    destruct (given_s P E m n [] _ Hm Ka Like (scalar s0) "T" (scalar t) v vT eq_refl (or_introl eq_refl) eq_refl HT HS) as (N1 & N2 & N3).
    split; [exact N1|]. intros i Hi Hpos Htot. apply (N3 i t s0 uT kT kP kV kE k0 (mw_of P q0) Hi (VT i)); auto.
  Qed.

  Lemma tp_succeeds q p : 0 < p -> (exists i, index_in (shape m) i) ->
    exists v, dynamic_method q P E m [] [("T", scalar t); ("p", scalar p)] = Ok v /\ nsh v = shape m.
  Proof.
    intros Hp Hex. destruct (args_value P E m n uT kT kP kV kE t p Hok U Hex) as (T & pn & A & T1 & T2 & T3 & T4).
    destruct (one P E m n uT kT kP kV kE t Hok U) as (q0 & k0 & Hq0 & U0).
    assert (Hm : mixture_ok m) by apply Hok. assert (Hne : x_c m <> []) by apply Hok.
    assert (Hd : exists v, n_d P E m [] [("T", scalar t); ("p", scalar p)] = Ok v /\ nsh v = shape m).
    { unfold n_d. rewrite A. cbn [bind].
      destruct (op_same fdiv pn (np_map (fmul (Some R1000)) T) (shape m) T2 T1) as (d & -> & D1 & _). cbn [bind].
      assert (Hk : exists k1, nmatter E (scalar 1) (mix_mw P m) (Some "kmol") None None = Ok k1 /\ (nsh k1 = [] \/ nsh k1 = shape m)).
      { unfold nmatter. rewrite (kmol_not_mass E uT kT kP kV kE k0 _ U0). cbn [bind].
        destruct (uk_M _ _ _ _ _ _ _ _ U0) as (uM & M1 & M2).
        assert (Is : exists b, ismass (e_setup E) (e_cfg E) None = Ok b).
        { unfold kmoles in M2. destruct (ismass_spec (e_setup E) (e_cfg E) uM (uk_setup _ _ _ _ _ _ _ _ U0)) as (S1 & S2 & _).
          change (ismass (e_setup E) (e_cfg E) None) with (do u <- cfg_get (e_cfg E) "unit_matter"; ismass (e_setup E) (e_cfg E) (Some u)).
          unfold cfg_get. rewrite M1. cbn [bind]. destruct (si (e_setup E) QMolar uM).
          - exists false. apply S2. discriminate.
          - destruct (si (e_setup E) QMass uM); [|discriminate]. exists true. apply S1. discriminate. }
        destruct Is as (b & Hb). rewrite Hb. cbn [bind]. destruct b; cbn [Bool.eqb].
        - destruct (op_nil (fun v w => match w with
           | Some w => if Req_EM_T w 0 then None
                       else match matter (e_setup E) (e_cfg E) 1 w (Some "kmol") None None with
                            | Ok k => fmul (Some k) v
                            | Err _ => None
                            end
           | None => None
           end) (scalar 1) (mix_mw P m) (shape m) eq_refl eq_refl) as (c & Q1 & Q2 & _). exists c. split; [exact Q1|now right].
        - pose proof (molar_units E uT kT kP kV kE k0 _ U0 false Hb eq_refl) as U1.
          rewrite (matter_from E 1 uT kT kP kV kE k0 U1 1 "kmol" 1 None) by reflexivity. cbn [bind]. eexists; split; [reflexivity|now left]. }
      destruct Hk as (k1 & -> & K1). cbn [bind]. unfold nconvert.
      rewrite (of_si E _ uT kT kP kV kE k0 U0 QVolume 1 "m3" 1 (Some (-1)%Z) I) by (cbn; f_equal; lra). cbn [bind].
      rewrite D1.
      match goal with |- context [broadcast_to ?x (shape m)] => destruct (bto_laid x (shape m) (nshape m Hm)) as (y & -> & _) end.
      { destruct K1 as [K1|K1]; [left; exact K1|right; right; cbn [np_map nsh]; rewrite K1; apply stretches_refl]. }
      cbn [bind]. eexists; split; [reflexivity|reflexivity]. }
    assert (Hprop : forall r, exists c, propeval P m r T = Ok c /\ nsh c = shape m).
    { intro r. destruct (propeval_str P m r T (shape m) (nshape m Hm) (nshape m Hm) (stretches_refl _) T1 Hne) as (c & C1 & C2 & _). eauto. }
    destruct (sp_total P m pn T2) as (w & W). pose proof (sp_of_shape _ _ _ _ W) as W1. rewrite T2 in W1.
    assert (Heat : forall z, nsh z = shape m -> exists v, n_heat E z = Ok v /\ nsh v = shape m).
    { intros z Hz. destruct (heat_out P E m n uT kT kP kV kE t Hok U z) as (v & V1 & V2 & _). exists v. split; [exact V1|congruence]. }
    assert (Energy : forall z, nsh z = shape m -> exists v, nconvert E QEnergy z (Some "kJ") None None = Ok v /\ nsh v = shape m).
    { intros z Hz. destruct (energy_out P E m n uT kT kP kV kE t Hok U z) as (v & V1 & V2 & _). exists v. split; [exact V1|congruence]. }
    destruct q; cbn [dynamic_method].
    - unfold n_T. rewrite A. cbn [bind]. unfold ntscale. rewrite (tscale_from E _ uT kT kP kV kE k0 U0). cbn [bind]. eexists; split; [reflexivity|exact T1].
    - unfold n_p. rewrite A. cbn [bind need_p]. unfold nconvert.
      rewrite (of_si E _ uT kT kP kV kE k0 U0 QPressure 1 "Pa" 1 None I) by (cbn; f_equal; lra). cbn [bind]. eexists; split; [reflexivity|exact T2].
    - exact Hd.
    - destruct Hd as (v & Hv & Sv). unfold n_v. rewrite Hv. cbn [bind]. eexists; split; [reflexivity|exact Sv].
    - unfold n_cp. rewrite A. cbn [bind]. destruct (Hprop g_cp) as (c & -> & C). cbn [bind]. now apply Heat.
    - unfold n_cv. rewrite A. cbn [bind]. destruct (Hprop g_cp) as (c & -> & C). cbn [bind].
      destruct (op_same fsub c (np_map (fmul (Some const_Ru)) (sum_rows (x_q m))) (shape m) C eq_refl) as (z & -> & Z & _). cbn [bind]. now apply Heat.
    - unfold n_gam. rewrite A. cbn [bind]. destruct (Hprop g_cp) as (c & -> & C). cbn [bind].
      destruct (op_same fdiv c (sum_rows (x_q m)) (shape m) C eq_refl) as (z & -> & Z & _). cbn [bind]. eexists; split; [reflexivity|exact Z].
    - unfold n_h. rewrite A. cbn [bind]. destruct (Hprop (fun g x => fst (g_h g x))) as (c & -> & C). cbn [bind]. now apply Energy.
    - unfold n_e. rewrite A. cbn [bind]. destruct (Hprop (fun g x => fst (g_e g x))) as (c & -> & C). cbn [bind]. now apply Energy.
    - unfold n_s. rewrite A. cbn [bind need_p]. destruct (Hprop (fun g x => fst (g_s g x))) as (c & -> & C). cbn [bind]. rewrite W. cbn [bind].
      destruct (op_same fadd c w (shape m) C W1) as (z & -> & Z & _). cbn [bind]. now apply Heat.
    - unfold n_g, n_gf. rewrite A. cbn [bind need_p]. destruct (Hprop (fun g x => fst (g_g g x))) as (c & -> & C). cbn [bind]. rewrite W. cbn [bind].
      destruct (op_same fmul T w (shape m) T1 W1) as (y & -> & Y & _). cbn [bind].
      destruct (op_same fsub c y (shape m) C Y) as (z & -> & Z & _). cbn [bind]. now apply Energy.
    - unfold n_f, n_gf. rewrite A. cbn [bind need_p]. destruct (Hprop (fun g x => fst (g_f g x))) as (c & -> & C). cbn [bind]. rewrite W. cbn [bind].
      destruct (op_same fmul T w (shape m) T1 W1) as (y & -> & Y & _). cbn [bind].
      destruct (op_same fsub c y (shape m) C Y) as (z & -> & Z & _). cbn [bind]. now apply Energy.
  Qed.
End Numbers.

(* two gases, 1 and 3 kmol *)
Definition TP : list (string * nd) := [("T", scalar 500); ("p", scalar 100000)].
Lemma like_numbers m (kw : list (string * nd)) : (forall k a, In (k, a) kw -> nsh a = []) -> like_mixture m [] kw.
Proof. intros H k a Hin. unfold named_args in Hin. cbn [combine] in Hin. rewrite app_nil_r in Hin. left. eauto. Qed.
Lemma like_TP : like_mixture m2 [] TP.
Proof. apply like_numbers. intros k a [H|[H|[]]]; injection H as <- <-; reflexivity. Qed.
Lemma total_m2 : total_amount m2 n2 [0%nat] = 4.
Proof. unfold total_amount, n2. cbn. lra. Qed.
Lemma k500 : to_kelvin "K" 500 = 500. Proof. reflexivity. Qed.
Lemma usable500 : usable_at PAB SK m2 n2 (to_kelvin "K" 500).
Proof. rewrite k500. exact usable_m2. Qed.
Lemma ex_m2 : exists i, index_in (shape m2) i. Proof. exists [0%nat]. repeat constructor. Qed.
Lemma all_m2 q : exists v, dynamic_method q PAB SK m2 [] TP = Ok v /\ nsh v = [1%nat].
Proof. apply (tp_succeeds PAB SK m2 n2 "K" (9/5) 1 1 1000 500 usable500 units_m2 q 100000); [lra|exact ex_m2]. Qed.
Lemma units_mean : units_known SK (mean_weight PAB m2 n2 [0%nat]) "K" (9/5) 1 1 1000 1.
Proof.
  assert (0 < mean_weight PAB m2 n2 [0%nat]).
  { unfold mean_weight. rewrite total_m2. cbn. unfold n2. cbn. lra. }
  constructor; cbn; try reflexivity; try lra; eauto using default_positive.
  all: try (eexists; split; reflexivity). all: auto.
Qed.

Lemma volume_recip P E m varg kw d : n_d P E m varg kw = Ok d ->
  exists v, n_v P E m varg kw = Ok v /\ nsh v = nsh d /\
    forall i x, nel d i = Some x -> x <> 0 -> nel v i = Some (1 / x).
Proof.
  intro H. unfold n_v. rewrite H. cbn [bind]. eexists; split; [reflexivity|]. split; [reflexivity|].
  intros i x Hx Hn. cbn [np_map nel]. rewrite Hx. unfold reciprocal. cbn. destruct (Req_EM_T x 0); [contradiction|]. f_equal; try (field; assumption).
Qed.

Lemma given_coordinate P E m n varg kw q a v : mixture_ok m -> amounts_known m n -> like_mixture m varg kw ->
  In q [(PT, "T"); (Pp, "p"); (Pd, "d")] -> dget (snd q) (named_args varg kw) = Some a ->
  dynamic_method (fst q) P E m varg kw = Ok v ->
  forall i uT kT kP kV kE kM, index_in (nsh v) i -> 0 < total_amount m n (project (shape m) i) ->
    units_known E (mean_weight P m n (project (shape m) i)) uT kT kP kV kE kM -> nel v i = at_index a i.
Proof.
  intros Hm K L Hq G H i uT kT kP kV kE kM Hi Ht U.
  destruct Hq as [<-|[<-|[<-|[]]]]; cbn [fst snd dynamic_method] in *.
  - eapply given_T; eassumption.
  - eapply given_p; eassumption.
  - eapply given_d; eassumption.
Qed.

(* instances *)
Lemma law_inst : exists vT vp vd, n_T PAB SK m2 [] TP = Ok vT /\ n_p PAB SK m2 [] TP = Ok vp /\ n_d PAB SK m2 [] TP = Ok vd /\
  nel vT [0%nat] = Some 500 /\ nel vp [0%nat] = Some 100000.
Proof.
  destruct (all_m2 PT) as (vT & H1 & S1). destruct (all_m2 Pp) as (vp & H2 & S2). destruct (all_m2 Pd) as (vd & H3 & S3).
  exists vT, vp, vd. repeat split; try assumption.
  - rewrite (given_coordinate PAB SK m2 n2 [] TP (PT, "T") (scalar 500) vT ok_m2 amounts_m2 like_TP ltac:(cbn; auto) eq_refl H1 [0%nat] "K" (9/5) 1 1 1000 1); [reflexivity| | |].
    + rewrite S1. repeat constructor.
    + change (project (shape m2) [0%nat]) with [0%nat]. rewrite total_m2. lra.
    + exact units_mean.
  - rewrite (given_coordinate PAB SK m2 n2 [] TP (Pp, "p") (scalar 100000) vp ok_m2 amounts_m2 like_TP ltac:(cbn; auto) eq_refl H2 [0%nat] "K" (9/5) 1 1 1000 1); [reflexivity| | |].
    + rewrite S2. repeat constructor.
    + change (project (shape m2) [0%nat]) with [0%nat]. rewrite total_m2. lra.
    + exact units_mean.
Qed.
Lemma d_inst : exists vd x, n_d PAB SK m2 [] TP = Ok vd /\ nel vd [0%nat] = Some x.
Proof.
  destruct (all_m2 Pd) as (vd & H3 & S3). 
  destruct (args_value PAB SK m2 n2 "K" (9/5) 1 1 1000 500 100000 usable500 units_m2 ex_m2) as (T & pn & A & T1 & T2 & T3 & T4).
  destruct (d_out PAB SK m2 n2 [] TP ok_m2 amounts_m2 like_TP T (Some pn) None vd A H3) as (u & kw2 & d1 & S & D1 & D2 & D3 & D4).
  assert (Hu : u = [1%nat]) by congruence. subst u. rewrite Hu in *.
  exists vd. specialize (D3 [0%nat] ltac:(repeat constructor)). destruct D3 as [(d0 & X & _)|(p0 & _ & X & D3)]; [discriminate|]. injection X as <-.
  rewrite T3, T4 in D3. cbn [fmul lift2 fdiv] in D3.
  assert (HR : 0 < R1000 * to_kelvin "K" 500).
  { rewrite k500. unfold R1000. pose proof Ru_pos. try (change gas_constant with const_Ru); nra. }
  destruct (Req_EM_T (R1000 * to_kelvin "K" 500) 0); [lra|].
  rewrite (D4 [0%nat] "K" (9/5) 1 1 1000 1 ltac:(repeat constructor)); [|change (project (shape m2) [0%nat]) with [0%nat]; rewrite total_m2; lra|exact units_mean].
  rewrite D3. cbn [fmul lift2]. eexists. split; [exact H3|reflexivity].
Qed.

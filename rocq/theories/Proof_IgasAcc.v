(* C31: which calls succeed, for every property method. *)
From Coq Require Import Reals ZArith List String Bool Lia Lra.
From Verif Require Import Base Model_Num Model_Units Model_Defaults Model_Igas Spec_Units Proof_Units
  Proof_Defaults Spec_Igas Proof_Igas Proof_Iter Proof_IgasUnits Proof_IgasState Proof_IgasArgs
  Proof_IgasCalls Proof_IgasRel Proof_IgasArr.
Import ListNotations.
Local Open Scope R_scope.
Local Open Scope string_scope.
Local Open Scope list_scope.

Section Acc.
  Variables (E : env) (g : gas) (uT : string) (kT kP kV kE kM : R).
  Hypothesis U : units_known E (g_mw g) uT kT kP kV kE kM.

  Let kPp : 0 < kP := kP_pos _ _ _ _ _ _ _ _ U.
  Let kVp : 0 < kV := kV_pos _ _ _ _ _ _ _ _ U.
  Let kMp : 0 < kM := kM_pos _ _ _ _ _ _ _ _ U.

  Lemma method_outcome m varg kw : In m (methods g E) -> (List.length varg + List.length kw <> 1)%nat ->
    match argparse g E varg kw with
    | Ok _ => exists out, m varg kw = Ok out
    | Err e => m varg kw = Err e
    end.
  Proof.
    intros Hm Hl. destruct Hm as [<-|[<-|[<-|[<-|[<-|[<-|[<-|[<-|[<-|[<-|[<-|[<-|[]]]]]]]]]]]]].
    - rewrite (m_T_val _ _ _ _ _ _ _ _ U) by exact Hl. destruct (argparse _ _ _ _) as [[[T p] d]|]; cbn [bind]; eauto.
    - rewrite (m_p_val _ _ _ _ _ _ _ _ U). destruct (argparse _ _ _ _) as [[[T p] d]|]; cbn [bind]; eauto.
    - rewrite (m_d_val _ _ _ _ _ _ _ _ U). destruct (argparse _ _ _ _) as [[[T p] d]|]; cbn [bind]; eauto.
    - unfold m_v. rewrite (m_d_val _ _ _ _ _ _ _ _ U). destruct (argparse _ _ _ _) as [[[T p] d]|]; cbn [bind]; eauto.
    - rewrite (m_cp_val _ _ _ _ _ _ _ _ U). destruct (argparse _ _ _ _) as [[[T p] d]|]; cbn [bind]; eauto.
    - rewrite (m_cv_val _ _ _ _ _ _ _ _ U). destruct (argparse _ _ _ _) as [[[T p] d]|]; cbn [bind]; eauto.
    - unfold m_gam. destruct (argparse _ _ _ _) as [[[T p] d]|]; cbn [bind]; eauto.
    - rewrite (m_h_val _ _ _ _ _ _ _ _ U). destruct (argparse _ _ _ _) as [[[T p] d]|]; cbn [bind]; eauto.
    - rewrite (m_e_val _ _ _ _ _ _ _ _ U). destruct (argparse _ _ _ _) as [[[T p] d]|]; cbn [bind]; eauto.
    - rewrite (m_s_val _ _ _ _ _ _ _ _ U). destruct (argparse _ _ _ _) as [[[T p] d]|]; cbn [bind]; eauto.
    - rewrite (m_g_val _ _ _ _ _ _ _ _ U). destruct (argparse _ _ _ _) as [[[T p] d]|]; cbn [bind]; eauto.
    - rewrite (m_f_val _ _ _ _ _ _ _ _ U). destruct (argparse _ _ _ _) as [[[T p] d]|]; cbn [bind]; eauto.
  Qed.

  (* not acceptable: refused by every method.  A single positional or keyword argument of T
     is read with the configured pressure, so T is stated for other numbers of arguments. *)
  Lemma all_reject m varg kw : defaults_known E -> In m (methods g E) ->
    (List.length varg + List.length kw <> 1)%nat ->
    NoDup (map fst kw) -> ~ acceptable varg kw -> m varg kw = Err PMParamError.
  Proof.
    intros HD Hm Hl Hn Ha. pose proof (method_outcome m varg kw Hm Hl) as K.
    rewrite (rejects E g uT kT kP kV kE kM U HD _ _ Hn Ha) in K. exact K.
  Qed.
  Lemma one_rejects m varg kw : defaults_known E -> In m (methods g E) -> m <> m_T g E ->
    NoDup (map fst kw) -> ~ acceptable varg kw -> m varg kw = Err PMParamError.
  Proof.
    intros HD Hm HT Hn Ha.
    pose proof (rejects E g uT kT kP kV kE kM U HD _ _ Hn Ha) as R.
    destruct Hm as [<-|[<-|[<-|[<-|[<-|[<-|[<-|[<-|[<-|[<-|[<-|[<-|[]]]]]]]]]]]]]; try contradiction;
      unfold m_v, m_p, m_d, m_cp, m_cv, m_gam, m_h, m_e, m_s, m_g, m_f; rewrite R; reflexivity.
  Qed.

  Lemma all_accepted_errors m varg kw e : defaults_known E -> Tlow g <= Thigh g ->
    In m (methods g E) -> (List.length varg + List.length kw <> 1)%nat ->
    NoDup (map fst kw) -> acceptable varg kw -> compatible (supplied varg kw) ->
    m varg kw = Err e ->
    (e = PMAnalysisError /\ exists n, In n ["e"; "h"; "s"] /\ In n (map fst (supplied varg kw))) \/
    (e = PMParamError /\ refused E g varg kw).
  Proof.
    intros HD Hle Hm Hl Hn Ha Hc He. pose proof (method_outcome m varg kw Hm Hl) as K.
    destruct (argparse g E varg kw) as [st|e'] eqn:A.
    - destruct K as [out K]. congruence.
    - assert (e' = e) as -> by congruence.
      exact (accepted_errors E g uT kT kP kV kE kM U HD _ _ _ Hle Hn Ha Hc A).
  Qed.

  Lemma in_range_false t : Tlow g <= t <= Thigh g -> out_of_range g (Some t) = false.
  Proof.
    intro H. unfold out_of_range, flt. destruct (Rlt_dec t (Tlow g)); [lra|].
    destruct (Rlt_dec (Thigh g) t); [lra|reflexivity].
  Qed.

  Lemma bounds_some T i t : nth_error T i = Some (Some t) -> Tlow g <= t <= Thigh g ->
    exists T', bounds g E T = Ok T'.
  Proof.
    intros Hi Ht. unfold bounds. destruct (forallb (out_of_range g) T) eqn:F; [|eauto].
    rewrite forallb_forall in F. apply nth_error_In in Hi. apply F in Hi.
    rewrite in_range_false in Hi by exact Ht. discriminate.
  Qed.

  Lemma broadcast_fits a b i x y : elem a i = Some x -> elem b i = Some y ->
    (List.length a = List.length b \/ List.length a = 1%nat \/ List.length b = 1%nat) ->
    (i < Nat.max (List.length a) (List.length b))%nat ->
    exists a' b' s1 s2, broadcast a b = Ok (a', b', s1, s2) /\
      nth_error a' i = Some x /\ nth_error b' i = Some y.
  Proof.
    intros Ha Hb Hc Hi. unfold broadcast.
    destruct (Nat.eqb_spec (List.length a) (List.length b)) as [Q|Q].
    - exists a, b, false, false. split; [reflexivity|].
      destruct a as [|a0 [|a1 a]], b as [|b0 [|b1 b]]; cbn in Q; try discriminate; cbn [elem] in *; auto.
      cbn in Hi. destruct i; [cbn; auto|lia].
    - destruct a as [|a0 [|a1 a]].
      + destruct i; discriminate.
      + destruct b as [|b0 [|b1 b]]; [destruct i; discriminate|cbn in Q; congruence|].
        do 4 eexists. split; [reflexivity|]. cbn [elem] in *. split; [|exact Hb].
        rewrite nth_error_repeat; [exact Ha|]. cbn [List.length] in *. lia.
      + destruct b as [|b0 [|b1 b]].
        * destruct i; discriminate.
        * do 4 eexists. split; [reflexivity|]. cbn [elem] in *. split; [exact Ha|].
          rewrite nth_error_repeat; [exact Hb|]. cbn [List.length] in *. lia.
        * cbn [List.length] in *. lia.
  Qed.

  (* T with p, d or v: one temperature inside the range is enough *)
  Lemma T_accepted m n a b i T K : In m (methods g E) -> In n ["p"; "d"; "v"] ->
    List.length a = List.length b \/ List.length a = 1%nat \/ List.length b = 1%nat ->
    (i < Nat.max (List.length a) (List.length b))%nat ->
    elem a i = Some (Some T) -> elem b i <> None ->
    temperature_scale (e_cfg E) T None (Some "K") = Ok K ->
    nth 0 (g_Tlim g) 0 <= K <= last (g_Tlim g) 0 ->
    exists out, m [] [("T", a); (n, b)] = Ok out.
  Proof.
    intros Hm Hn Hc Hi Ha Hb HK HR. pose proof (method_outcome m [] [("T", a); (n, b)] Hm ltac:(cbn; lia)) as O.
    apply (tscale_K _ _ _ _ _ _ _ _ U) in HK. subst K.
    assert (exists st, argparse g E [] [("T", a); (n, b)] = Ok st) as [st K]; [|rewrite K in O; exact O].
    destruct (elem b i) as [y|] eqn:Eb; [|contradiction].
    assert (forall f : fl -> fl, exists a' b' s1 s2, broadcast (inT uT a) (map f b) = Ok (a', b', s1, s2) /\
              nth_error a' i = Some (Some (to_kelvin uT T))) as B.
    { intro f. destruct (broadcast_fits (inT uT a) (map f b) i (Some (to_kelvin uT T)) (f y)) as (a' & b' & s1 & s2 & B & K1 & _).
      - unfold inT. rewrite elem_map_eq, Ha. reflexivity.
      - rewrite elem_map_eq, Eb. reflexivity.
      - unfold inT. now rewrite !map_length.
      - unfold inT. now rewrite !map_length.
      - eauto 8. }
    destruct Hn as [<-|[<-|[<-|[]]]]; rewrite argparse_two by reflexivity; rewrite (solve_units _ _ _ _ _ _ _ _ U);
      cbn [dget String.eqb Ascii.eqb Bool.eqb option_map]; unfold core; cbn [ores bind]; unfold inP, inD, inV;
      match goal with |- context [broadcast _ (map ?f b)] => destruct (B f) as (a' & b' & s1 & s2 & Bf & Ki) end;
      rewrite Bf; cbn [bind]; destruct (bounds_some a' i _ Ki HR) as [T' ->]; cbn [bind]; eauto.
  Qed.

  (* p with d or v: one pair with the ideal gas temperature inside the range is enough *)
  Lemma pd_accepted m a b i P D K : In m (methods g E) ->
    List.length a = List.length b \/ List.length a = 1%nat \/ List.length b = 1%nat ->
    (i < Nat.max (List.length a) (List.length b))%nat ->
    elem a i = Some (Some P) -> elem b i = Some (Some D) -> D <> 0 ->
    P * kP = D * (kM / kV) * (1000 * gas_constant) * K ->
    nth 0 (g_Tlim g) 0 <= K <= last (g_Tlim g) 0 ->
    (exists out, m [] [("p", a); ("d", b)] = Ok out) /\
    (exists out, m [] [("p", a); ("v", map (fun x => fdiv (Some 1) x) b)] = Ok out).
  Proof.
    intros Hm Hc Hi Ha Hb HD0 HG HR. pose proof Ru_pos as HRu. rewrite <- Ru_gas in HG.
    assert (K = (kP * P) / (R1000 * (kM / kV * D))) as EK.
    { unfold R1000. apply Rmult_eq_reg_r with (R1000 * (kM / kV * D)).
      - unfold R1000 at 1. rewrite Rmult_comm with (r1 := K). 
        replace (1000 * const_Ru * (kM / kV * D) * K) with (D * (kM / kV) * (1000 * const_Ru) * K) by ring.
        rewrite <- HG. unfold R1000. field. repeat split; lra.
      - unfold R1000. apply Rmult_integral_contrapositive. split; [lra|].
        apply Rmult_integral_contrapositive. split; [|exact HD0].
        apply Rgt_not_eq. apply Rdiv_lt_0_compat; lra. }
    assert (kM / kV <> 0) as Hk. { apply Rgt_not_eq. apply Rdiv_lt_0_compat; lra. }
    assert (R1000 * (kM / kV * D) <> 0) as Hz.
    { apply Rmult_integral_contrapositive. split; [unfold R1000; lra|].
      apply Rmult_integral_contrapositive. split; assumption. }
    assert (forall f : fl -> fl, f (Some D) = Some (kM / kV * D) ->
      exists a' b' s1 s2, broadcast (inP kP a) (map f b) = Ok (a', b', s1, s2) /\
        nth_error (map2 (fun p d => fdiv p (fmul (Some R1000) d)) a' b') i = Some (Some K)) as B.
    { intros f Hf. destruct (broadcast_fits (inP kP a) (map f b) i (Some (kP * P)) (Some (kM / kV * D))) as (a' & b' & s1 & s2 & B & K1 & K2).
      - unfold inP. rewrite elem_map_eq, Ha. reflexivity.
      - rewrite elem_map_eq, Hb. cbn. now rewrite Hf.
      - unfold inP. now rewrite !map_length.
      - unfold inP. now rewrite !map_length.
      - do 4 eexists. split; [exact B|]. apply nth_map2. do 2 eexists. split; [exact K1|]. split; [exact K2|].
        cbn. destruct (Req_EM_T (R1000 * (kM / kV * D)) 0); [contradiction|]. now rewrite EK. }
    split.
    - pose proof (method_outcome m [] [("p", a); ("d", b)] Hm ltac:(cbn; lia)) as O.
      rewrite argparse_two in O by reflexivity; rewrite (solve_units _ _ _ _ _ _ _ _ U) in O.
      cbn [dget String.eqb Ascii.eqb Bool.eqb option_map] in O; unfold core in O; cbn [ores bind] in O; unfold inD in O.
      match type of O with context [broadcast _ (map ?f b)] => destruct (B f eq_refl) as (a' & b' & s1 & s2 & Bf & Ki) end.
      rewrite Bf in O; cbn [bind] in O. destruct (bounds_some _ i _ Ki HR) as [T' KT]; rewrite KT in O; cbn [bind] in O; exact O.
    - pose proof (method_outcome m [] [("p", a); ("v", map (fun x => fdiv (Some 1) x) b)] Hm ltac:(cbn; lia)) as O.
      rewrite argparse_two in O by reflexivity; rewrite (solve_units _ _ _ _ _ _ _ _ U) in O.
      cbn [dget String.eqb Ascii.eqb Bool.eqb option_map] in O; unfold core in O; cbn [ores bind] in O; unfold inV in O.
      rewrite map_map in O.
      match type of O with context [broadcast _ (map ?f b)] => destruct (B f) as (a' & b' & s1 & s2 & Bf & Ki) end.
      { unfold reciprocal. cbn. destruct (Req_EM_T D 0); [contradiction|]. cbn.
        destruct (Req_EM_T (kV / kM * (1 / D)) 0) as [Z|Z].
        - exfalso. assert (kV / kM * (1 / D) * D = 0) as Z' by (rewrite Z; ring).
          replace (kV / kM * (1 / D) * D) with (kV / kM) in Z' by (field; split; lra).
          assert (0 < kV / kM) by (apply Rdiv_lt_0_compat; lra). lra.
        - f_equal. field. repeat split; lra. }
      rewrite Bf in O; cbn [bind] in O. destruct (bounds_some _ i _ Ki HR) as [T' KT]; rewrite KT in O; cbn [bind] in O; exact O.
  Qed.
End Acc.

(* C80: temperatures found from e, h or s, through the methods. *)
From Coq Require Import Reals ZArith List String Bool Lia Lra.
From Verif Require Import Base Model_Num Model_Units Model_Defaults Model_Igas Model_IgWarn Spec_Units Proof_Units
  Proof_Defaults Spec_Igas Spec_IgasMore Proof_Igas Proof_Iter Proof_IgasProp Proof_IgasUnits Proof_IgasState
  Proof_IgasArgs Proof_IgasCalls Proof_IgasRel Proof_IgasArr Proof_IgasMore.
Import ListNotations.
Local Open Scope R_scope.
Local Open Scope string_scope.
Local Open Scope list_scope.

Section Inv.
  Variables (E : env) (g : gas) (uT : string) (kT kP kV kE kM : R).
  Hypothesis S : species E g.
  Hypothesis U : units_known E (g_mw g) uT kT kP kV kE kM.
  Let kTp : 0 < kT := kT_pos _ _ _ _ _ _ _ _ U.
  Let kPp : 0 < kP := kP_pos _ _ _ _ _ _ _ _ U.
  Let kVp : 0 < kV := kV_pos _ _ _ _ _ _ _ _ U.
  Let kEp : 0 < kE := kE_pos _ _ _ _ _ _ _ _ U.
  Let kMp : 0 < kM := kM_pos _ _ _ _ _ _ _ _ U.
  Let kh := kh kE kM.
  Let ks := ks kT kE kM.
  Let khp : 0 < kh := kh_pos _ _ _ _ _ _ _ _ U.
  Let ksp : 0 < ks := ks_pos _ _ _ _ _ _ _ _ U.
  Let lo := Tlow g.
  Let hi := Thigh g.

  Lemma low_high : lo <= hi. Proof. apply (species_low _ _ S). Qed.
  Lemma low_pos : 0 < lo. Proof. apply (species_low _ _ S). Qed.

  Lemma full_of fns ys xs : iter1 lo hi fns ys = Ok xs -> warned (iter1_full lo hi fns ys) = false ->
    iter1_full lo hi fns ys = Ok (xs, false).
  Proof.
    unfold iter1. destruct (iter1_full lo hi fns ys) as [[x w]|]; cbn [bind fst warned]; [|discriminate].
    intros H ->. injection H as ->. reflexivity.
  Qed.

  Lemma not_out fns ys xs w : iter1_full lo hi fns ys = Ok (xs, w) ->
    map (fun t => if out_of_range g t then e_oob E else t) xs = xs /\
    (xs <> [] -> forallb (out_of_range g) xs = false).
  Proof.
    intro H. apply iter1_bounded in H; [|exact low_high].
    assert (forall x, In x xs -> out_of_range g x = false) as K.
    { intros x Hx. rewrite Forall_forall in H. specialize (H x Hx). destruct x as [r|]; [|reflexivity].
      unfold out_of_range, flt. fold lo hi. destruct (Rlt_dec r lo); [lra|]. destruct (Rlt_dec hi r); [lra|reflexivity]. }
    split.
    - rewrite <- (map_id xs) at 2. apply map_ext_in. intros x Hx. now rewrite (K x Hx).
    - intro Hn. destruct xs as [|x xs]; [contradiction|]. cbn [forallb]. rewrite (K x (or_introl eq_refl)). reflexivity.
  Qed.

  Lemma bounds_iter fns ys xs w T : iter1_full lo hi fns ys = Ok (xs, w) -> bounds g E xs = Ok T -> T = xs /\ xs <> [].
  Proof.
    intros H. destruct (not_out _ _ _ _ H) as [K _]. unfold bounds. rewrite K.
    destruct xs as [|x xs]; cbn [forallb]; [discriminate|].
    destruct (_ && _); [discriminate|]. intro Q. injection Q as <-. split; [reflexivity|discriminate].
  Qed.
  Lemma bounds_again fns ys xs w : iter1_full lo hi fns ys = Ok (xs, w) -> xs <> [] -> bounds g E xs = Ok xs.
  Proof. intros H Hn. destruct (not_out _ _ _ _ H) as [K1 K2]. unfold bounds. now rewrite K1, (K2 Hn). Qed.

  Lemma back_K xs : inT uT (map (lift1 (from_kelvin uT)) xs) = xs.
  Proof.
    unfold inT. rewrite map_map. rewrite <- (map_id xs) at 2. apply map_ext. intros [x|]; cbn; [|reflexivity].
    now rewrite to_from_kelvin.
  Qed.

  (* the temperature found for each energy, and the value reported there *)
  Lemma found fns ys xs (k : R) (v d : nat -> R -> R) m M : 0 < m ->
    List.length fns = List.length ys -> iter1_full lo hi fns ys = Ok (xs, false) ->
    (forall i f, nth_error fns i = Some f -> forall t, lo <= t <= hi -> f (Some t) = (Some (v i t), Some (d i t))) ->
    (forall i, (i < List.length ys)%nat -> steep (v i) (d i) lo hi m M) ->
    forall i y, nth_error ys i = Some (Some y) ->
    exists r, nth_error xs i = Some (Some r) /\ lo <= r <= hi /\ Rabs (v i r - y) <= M / m * (/ 1000000 * Rabs y).
  Proof.
    intros Hm Hl HF Hv Hs i y Hy.
    assert (exists f, nth_error fns i = Some f) as [f Hf].
    { destruct (nth_error fns i) eqn:Q; [eauto|]. apply nth_error_None in Q.
      assert (i < List.length ys)%nat by (apply nth_error_Some; congruence). lia. }
    assert (exists x, nth_error xs i = Some x) as [x Hx].
    { assert (List.length xs = List.length ys) as L.
      { apply (iter1_length lo hi fns ys xs Hl). unfold iter1. rewrite HF. reflexivity. }
      destruct (nth_error xs i) eqn:Q; [eauto|]. apply nth_error_None in Q.
      assert (i < List.length ys)%nat by (apply nth_error_Some; congruence). lia. }
    destruct (Hs i) as [Hs1 Hs2]. { apply nth_error_Some. congruence. }
    destruct (iter1_residual' lo hi fns ys xs i f (v i) (d i) m M y x low_high Hm Hl HF Hf Hy Hx) as (r & -> & Hr & Hres).
    - intros t Ht. split; [now apply (Hv i f Hf)|now apply Hs1].
    - exact Hs2.
    - exists r. split; [exact Hx|]. split; [exact Hr|].
      rewrite Rabs_minus_sym. exact Hres.
  Qed.

  Lemma bnd_scale k a b c : 0 < k -> Rabs (a - b) <= c -> Rabs (a * k - b * k) <= c * k.
  Proof.
    intros Hk H. replace (a * k - b * k) with ((a - b) * k) by ring. rewrite Rabs_mult, (Rabs_pos_eq k) by lra.
    apply Rmult_le_compat_r; lra.
  Qed.

  (* ---- h and e with p ---- *)
  Definition H_at (t : R) : R := value (fst (g_h g (Some t))).
  Definition E_at (t : R) : R := value (fst (g_e g (Some t))).
  Definition CP_at (t : R) : R := value (g_cp g (Some t)).

  Lemma h_fn t : lo <= t <= hi -> g_h g (Some t) = (Some (H_at t), Some (CP_at t)).
  Proof.
    intro Ht. unfold H_at, CP_at. destruct (species_values _ _ _ S Ht) as (cp & h & s & [V1 V2 _ _ _ _]).
    rewrite V1, V2. reflexivity.
  Qed.
  Lemma e_fn t : lo <= t <= hi -> g_e g (Some t) = (Some (E_at t), Some (CP_at t - gas_constant)).
  Proof.
    intro Ht. unfold E_at, CP_at. destruct (species_values _ _ _ S Ht) as (cp & h & s & [V1 _ _ _ V2 _]).
    rewrite V1, V2. reflexivity.
  Qed.

  Lemma inH_nth a i y : nth_error a i = Some (Some y) -> nth_error (inH kE kM a) i = Some (Some (kE / 1000 / kM * y)).
  Proof. intro H. exact (map_nth_error (fmul (Some (kE / 1000 / kM))) i a H). Qed.
  Lemma inS_nth a i y : nth_error a i = Some (Some y) ->
    nth_error (inS kT kE kM a) i = Some (Some (kE / 1000 / kM / (kT / (9/5)) * y)).
  Proof. intro H. exact (map_nth_error (fmul (Some (kE / 1000 / kM / (kT / (9/5))))) i a H). Qed.

  Lemma warns_energy n a b : In n ["h"; "e"] ->
    call_warns g E [(n, a); ("p", b)] = Ok false ->
    let fn := if String.eqb n "h" then g_h g else g_e g in
    warned (iter1_full lo hi (map (fun _ => fn) (inH kE kM a)) (inH kE kM a)) = false.
  Proof.
    intros Hn. unfold call_warns. fold lo hi.
    assert (forall v, (do v1 <- aconvert E QEnergy v None (Some "kJ") None;
        amatter E v1 (g_mw g) None (Some "kmol") (Some (-1)%Z)) = Ok (inH kE kM v)) as Hh
      by (intro v; apply (h_in _ _ _ _ _ _ _ _ U)).
    destruct Hn as [<-|[<-|[]]]; cbn [dget String.eqb Ascii.eqb Bool.eqb ores];
      rewrite (p_in _ _ _ _ _ _ _ _ U); cbn [bind]; rewrite Hh; cbn [bind opt_or];
      intros Q; apply (f_equal (fun r => match r with Ok b => b | Err _ => true end)) in Q; cbn beta iota in Q.
    - apply orb_false_iff in Q. exact (proj1 Q).
    - apply orb_false_iff in Q. destruct Q as [_ Q]. apply orb_false_iff in Q. exact (proj1 Q).
  Qed.

  Lemma arg_energy n a b T p d : In n ["h"; "e"] -> List.length a = List.length b ->
    argparse g E [] [(n, a); ("p", b)] = Ok (T, p, d) ->
    let fn := if String.eqb n "h" then g_h g else g_e g in
    exists xs w, iter1_full lo hi (map (fun _ => fn) (inH kE kM a)) (inH kE kM a) = Ok (xs, w) /\
      T = xs /\ xs <> [] /\ List.length xs = List.length a.
  Proof.
    intros Hn Hl A fn.
    assert (rules [(n, a); ("p", b)] = Ok tt) as Hr by (destruct Hn as [<-|[<-|[]]]; reflexivity).
    rewrite argparse_two in A by (exact Hr || reflexivity). rewrite (solve_units _ _ _ _ _ _ _ _ U) in A.
    assert (exists xs w, iter1_full lo hi (map (fun _ => fn) (inH kE kM a)) (inH kE kM a) = Ok (xs, w) /\
      bounds g E xs = Ok T /\ List.length xs = List.length a) as (xs & w & HF & HB & HL).
    { assert (List.length (map (fun _ : fl => fn) (inH kE kM a)) = List.length (inH kE kM a)) as HLm by apply map_length.
      assert (List.length (inH kE kM a) = List.length a) as HLh by apply map_length.
      destruct Hn as [<-|[<-|[]]]; cbn [dget String.eqb Ascii.eqb Bool.eqb option_map] in A; unfold core in A;
        cbn [ores bind] in A; fold lo hi in A; subst fn; cbn [String.eqb Ascii.eqb Bool.eqb] in *;
        (destruct (iter1 lo hi _ _) as [xs|] eqn:I in A; cbn [bind] in A; [|discriminate]);
        pose proof (iter1_length _ _ _ _ _ HLm I) as HLx;
        rewrite broadcast_same in A by (unfold inP; rewrite map_length; lia); cbn [bind] in A;
        (destruct (bounds g E xs) as [T'|] eqn:B; cbn [bind] in A; [|discriminate]);
        injection A as <- _ _; unfold iter1 in I;
        (destruct (iter1_full lo hi _ _) as [[xs' w]|] eqn:F in I; cbn [bind fst] in I; [|discriminate]);
        injection I as ->; exists xs, w; (split; [exact F|]); split; [exact B|lia|exact B|lia]. }
    destruct (bounds_iter _ _ _ _ _ HF HB) as [-> Hne]. exists xs, w. auto.
  Qed.

  Lemma energy_found n a b Ts m M : In n ["h"; "e"] -> List.length a = List.length b -> 0 < m ->
    m_T g E [] [(n, a); ("p", b)] = Ok Ts -> call_warns g E [(n, a); ("p", b)] = Ok false ->
    (if String.eqb n "h" then steep H_at CP_at lo hi m M
     else steep E_at (fun t => CP_at t - gas_constant) lo hi m M) ->
    exists out, (if String.eqb n "h" then m_h g E [] [("T", Ts); ("p", b)] else m_e g E [] [("T", Ts); ("p", b)]) = Ok out /\
      List.length out = List.length a /\
      forall i y, nth_error a i = Some (Some y) -> exists z, nth_error out i = Some (Some z) /\
        Rabs (z - y) <= M / m * (/ 1000000 * Rabs y).
  Proof.
    intros Hn Hl Hm HT HW HS.
    rewrite (m_T_val _ _ _ _ _ _ _ _ U) in HT by (cbn; lia).
    destruct (argparse g E [] [(n, a); ("p", b)]) as [[[T p] d]|] eqn:A; cbn [bind fst] in HT; [|discriminate].
    injection HT as <-.
    destruct (arg_energy n a b T p d Hn Hl A) as (xs & w & HF & -> & Hne & HL).
    pose proof (warns_energy n a b Hn HW) as W. cbn zeta in W. rewrite HF in W. cbn [warned] in W. subst w.
    set (fn := if String.eqb n "h" then g_h g else g_e g) in *.
    set (v := if String.eqb n "h" then H_at else E_at).
    set (dd := if String.eqb n "h" then CP_at else fun t => CP_at t - gas_constant).
    assert (steep v dd lo hi m M) as HS' by (subst v dd; destruct (String.eqb n "h"); exact HS).
    assert (forall t, lo <= t <= hi -> fn (Some t) = (Some (v t), Some (dd t))) as Hv.
    { subst fn v dd. destruct (String.eqb n "h"); [exact h_fn|exact e_fn]. }
    assert (argparse g E [] [("T", map (lift1 (from_kelvin uT)) xs); ("p", b)] = Ok (xs, Some (inP kP b), None)) as A2.
    { rewrite (argparse_TP _ _ _ _ _ _ _ _ U) by (rewrite map_length; lia). rewrite back_K.
      rewrite (bounds_again _ _ _ _ HF Hne). reflexivity. }
    assert (exists out, (if String.eqb n "h" then m_h g E [] [("T", map (lift1 (from_kelvin uT)) xs); ("p", b)]
       else m_e g E [] [("T", map (lift1 (from_kelvin uT)) xs); ("p", b)]) = Ok out /\
       out = scaled kh (map (fun t => if String.eqb n "h" then fst (g_h g t) else state_e g t) xs)) as (out & HO & ->).
    { destruct (String.eqb n "h"); [rewrite (m_h_val _ _ _ _ _ _ _ _ U)|rewrite (m_e_val _ _ _ _ _ _ _ _ U)];
        rewrite A2; eexists; split; reflexivity. }
    eexists. split; [exact HO|]. unfold scaled. rewrite !map_length. split; [exact HL|].
    intros i y Hy.
    destruct (found _ _ _ 1 (fun _ => v) (fun _ => dd) m M Hm (map_length _ _) HF) with (i := i) (y := kE / 1000 / kM * y)
      as (r & Hr & Hin & Hb).
    - intros j f Hf t Ht. apply nth_error_In, in_map_iff in Hf. destruct Hf as (q & <- & _). now apply Hv.
    - intros _ _. exact HS'.
    - now apply inH_nth.
    - assert ((if String.eqb n "h" then fst (g_h g (Some r)) else state_e g (Some r)) = Some (v r)) as Hval.
      { subst v. destruct (String.eqb n "h"); [rewrite (h_fn r Hin); reflexivity|].
        pose proof (e_fn r Hin) as Q. unfold g_e in Q. unfold state_e.
        destruct (g_h g (Some r)) as [h cp] eqn:GH. cbn [fst] in *. injection Q as Q1 _. exact Q1. }
      exists (v r * kh). rewrite nth_error_map, nth_error_map, Hr. cbn [option_map]. rewrite Hval. split; [reflexivity|].
      assert (0 < kE / 1000 / kM) as Hk by (apply Rdiv_lt_0_compat; lra).
      pose proof (bnd_scale kh _ _ _ khp Hb) as Q.
      replace (kE / 1000 / kM * y * kh) with y in Q by (unfold kh, Proof_IgasRel.kh; field; lra).
      rewrite Rabs_mult, (Rabs_pos_eq (kE / 1000 / kM)) in Q by lra.
      replace (M / m * (/ 1000000 * (kE / 1000 / kM * Rabs y)) * kh) with (M / m * (/ 1000000 * Rabs y)) in Q
        by (unfold kh, Proof_IgasRel.kh; field; lra).
      exact Q.
  Qed.

  (* ---- s with p ---- *)
  Definition S_at (t : R) : R := value (fst (g_s g (Some t))).
  Lemma s_fn t : lo <= t <= hi -> g_s g (Some t) = (Some (S_at t), Some (CP_at t / t)).
  Proof.
    intro Ht. unfold S_at, CP_at. destruct (species_values _ _ _ S Ht) as (cp & h & s & [V1 _ V2 _ _ _]).
    rewrite V1, V2. reflexivity.
  Qed.

  Lemma s_in' v : (do v1 <- (do v1 <- aconvert E QEnergy v None (Some "kJ") None;
                             amatter E v1 (g_mw g) None (Some "kmol") (Some (-1)%Z));
                   aconvert E QTemperature v1 None (Some "K") (Some (-1)%Z)) = Ok (inS kT kE kM v).
  Proof.
    pose proof (s_in _ _ _ _ _ _ _ _ U v) as H. unfold inS. rewrite <- H.
    destruct (aconvert E QEnergy v None (Some "kJ") None); reflexivity.
  Qed.

  Definition shifted (a b : arr) : arr :=
    map2 fadd (inS kT kE kM a) (map (fun x => fmul (Some const_Ru) (flog (fdiv x (Some (g_pref g))))) (inP kP b)).

  Lemma warns_sp a b : List.length a = List.length b -> call_warns g E [("s", a); ("p", b)] = Ok false ->
    warned (iter1_full lo hi (map (fun _ => g_s g) (shifted a b)) (shifted a b)) = false.
  Proof.
    intro Hl. unfold call_warns. fold lo hi. cbn [dget String.eqb Ascii.eqb Bool.eqb ores].
    rewrite (p_in _ _ _ _ _ _ _ _ U). cbn [bind]. rewrite s_in'. cbn [bind].
    rewrite broadcast_same by (unfold inS; rewrite !map_length; exact Hl). cbn [bind inplace_add].
    intros Q. apply (f_equal (fun r => match r with Ok b => b | Err _ => true end)) in Q. exact Q.
  Qed.

  Lemma arg_sp a b T p d : List.length a = List.length b ->
    argparse g E [] [("s", a); ("p", b)] = Ok (T, p, d) ->
    exists xs w, iter1_full lo hi (map (fun _ => g_s g) (shifted a b)) (shifted a b) = Ok (xs, w) /\
      T = xs /\ xs <> [] /\ List.length xs = List.length a.
  Proof.
    intros Hl A. rewrite argparse_two in A by reflexivity. rewrite (solve_units _ _ _ _ _ _ _ _ U) in A.
    cbn [dget String.eqb Ascii.eqb Bool.eqb option_map] in A. unfold core in A. cbn [ores bind] in A. fold lo hi in A.
    rewrite broadcast_same in A by (unfold inS, inP; rewrite !map_length; exact Hl). cbn [bind inplace_add] in A.
    fold (shifted a b) in A.
    destruct (iter1 lo hi _ _) as [xs|] eqn:I in A; cbn [bind] in A; [|discriminate].
    pose proof (iter1_length _ _ _ _ _ (map_length _ _) I) as HLx.
    destruct (bounds g E xs) as [T'|] eqn:B; cbn [bind] in A; [|discriminate]. injection A as <- _ _.
    unfold iter1 in I. destruct (iter1_full lo hi _ _) as [[xs' w]|] eqn:F in I; cbn [bind fst] in I; [|discriminate].
    injection I as ->. destruct (bounds_iter _ _ _ _ _ F B) as [-> Hne]. exists xs, w. repeat split; auto.
    rewrite HLx. unfold shifted, map2, inS, inP. rewrite map_length, combine_length, !map_length. lia.
  Qed.

  Lemma shifted_nth a b i y q : nth_error a i = Some (Some y) -> nth_error b i = Some (Some q) -> 0 < q ->
    nth_error (shifted a b) i = Some (Some (y / ks + gas_constant * ln (q * kP / g_pref g))) /\
    log_p g (fmul (Some kP) (Some q)) = Some (ln (q * kP / g_pref g)).
  Proof.
    intros Ha Hb Hq. destruct (species_low _ _ S) as (_ & _ & Hpr & _).
    assert (log_p g (fmul (Some kP) (Some q)) = Some (ln (q * kP / g_pref g))) as HL.
    { unfold log_p. cbn [fmul lift2 fdiv]. destruct (Req_EM_T (g_pref g) 0); [lra|]. cbn [flog].
      replace (kP * q / g_pref g) with (q * kP / g_pref g) by (field; lra).
      destruct (Rlt_dec 0 (q * kP / g_pref g)) as [|N]; [reflexivity|].
      exfalso. apply N. apply Rdiv_lt_0_compat; [|exact Hpr]. apply Rmult_lt_0_compat; lra. }
    split; [|exact HL].
    unfold shifted. apply nth_map2. exists (Some (kE / 1000 / kM / (kT / (9/5)) * y)), (Some (gas_constant * ln (q * kP / g_pref g))).
    split; [now apply inS_nth|]. split.
    - unfold inP. rewrite map_map. apply nth_map. exists (Some q). split; [exact Hb|].
      fold (log_p g (fmul (Some kP) (Some q))). rewrite HL. cbn [fmul lift2]. now rewrite Ru_gas.
    - cbn [fadd lift2]. do 2 f_equal. unfold ks, Proof_IgasRel.ks. field. lra.
  Qed.

  Lemma sp_found a b Ts r m M : List.length a = List.length b -> 0 < m ->
    m_T g E [] [("s", a); ("p", b)] = Ok Ts -> call_warns g E [("s", a); ("p", b)] = Ok false ->
    m_R g E = Ok r -> steep S_at (fun t => CP_at t / t) lo hi m M ->
    exists out, m_s g E [] [("T", Ts); ("p", b)] = Ok out /\ List.length out = List.length a /\
      forall i y q, nth_error a i = Some (Some y) -> nth_error b i = Some (Some q) -> 0 < q ->
        exists z, nth_error out i = Some (Some z) /\
        Rabs (z - y) <= M / m * (/ 1000000 * Rabs (y + r * ln (q * kP / g_pref g))).
  Proof.
    intros Hl Hm HT HW HR HS.
    rewrite (m_R_val _ _ _ _ _ _ _ _ U) in HR. injection HR as <-. fold ks.
    rewrite (m_T_val _ _ _ _ _ _ _ _ U) in HT by (cbn; lia).
    destruct (argparse g E [] [("s", a); ("p", b)]) as [[[T p] d]|] eqn:A; cbn [bind fst] in HT; [|discriminate].
    injection HT as <-.
    destruct (arg_sp a b T p d Hl A) as (xs & w & HF & -> & Hne & HL).
    pose proof (warns_sp a b Hl HW) as W. rewrite HF in W. cbn [warned] in W. subst w.
    rewrite (m_s_val _ _ _ _ _ _ _ _ U), (argparse_TP _ _ _ _ _ _ _ _ U) by (rewrite map_length; lia). rewrite back_K.
    rewrite (bounds_again _ _ _ _ HF Hne). cbn [bind the_p]. eexists. split; [reflexivity|].
    unfold scaled. rewrite map_length, map2_length. unfold inP. rewrite map_length. split; [lia|].
    intros i y q Hy Hq Hq0. destruct (shifted_nth a b i y q Hy Hq Hq0) as [Hsh Hlog].
    destruct (found _ _ _ 1 (fun _ => S_at) (fun _ t => CP_at t / t) m M Hm (map_length _ _) HF) with (i := i)
      (y := y / ks + gas_constant * ln (q * kP / g_pref g)) as (x & Hx & Hin & Hb).
    - intros j f Hf t Ht. apply nth_error_In, in_map_iff in Hf. destruct Hf as (z & <- & _). now apply s_fn.
    - intros _ _. exact HS.
    - exact Hsh.
    - exists ((S_at x - gas_constant * ln (q * kP / g_pref g)) * ks). split.
      + apply nth_map. exists (Some (S_at x - gas_constant * ln (q * kP / g_pref g))). split; [|reflexivity].
        apply nth_map2. exists (Some x), (fmul (Some kP) (Some q)). split; [exact Hx|]. split.
        * apply nth_map. exists (Some q). split; [exact Hq|reflexivity].
        * unfold state_s. rewrite Hlog, (s_fn x Hin), Ru_gas. reflexivity.
      + pose proof (bnd_scale ks _ _ _ ksp Hb) as Q. rewrite Ru_gas.
        replace ((S_at x - gas_constant * ln (q * kP / g_pref g)) * ks - y) with
          (S_at x * ks - (y / ks + gas_constant * ln (q * kP / g_pref g)) * ks) by (field; lra).
        replace (M / m * (/ 1000000 * Rabs (y + gas_constant * ks * ln (q * kP / g_pref g)))) with
          (M / m * (/ 1000000 * Rabs (y / ks + gas_constant * ln (q * kP / g_pref g))) * ks); [exact Q|].
        replace (y + gas_constant * ks * ln (q * kP / g_pref g)) with
          ((y / ks + gas_constant * ln (q * kP / g_pref g)) * ks) by (field; lra).
        rewrite Rabs_mult, (Rabs_pos_eq ks) by lra. field. lra.
  Qed.

  (* ---- s with d ---- *)
  Lemma warns_sd a b : List.length a = List.length b -> call_warns g E [("s", a); ("d", b)] = Ok false ->
    warned (iter1_full lo hi (map (sditer g) (inD kV kM b)) (inS kT kE kM a)) = false.
  Proof.
    intro Hl. unfold call_warns. fold lo hi. cbn [dget String.eqb Ascii.eqb Bool.eqb ores].
    rewrite (d_in _ _ _ _ _ _ _ _ U). cbn [bind]. rewrite s_in'. cbn [bind].
    rewrite broadcast_same by (unfold inS; rewrite !map_length; exact Hl). cbn [bind].
    intros Q. apply (f_equal (fun r => match r with Ok b => b | Err _ => true end)) in Q. exact Q.
  Qed.
  Lemma arg_sd a b T p d : List.length a = List.length b ->
    argparse g E [] [("s", a); ("d", b)] = Ok (T, p, d) ->
    exists xs w, iter1_full lo hi (map (sditer g) (inD kV kM b)) (inS kT kE kM a) = Ok (xs, w) /\
      T = xs /\ xs <> [] /\ List.length xs = List.length a.
  Proof.
    intros Hl A. rewrite argparse_two in A by reflexivity. rewrite (solve_units _ _ _ _ _ _ _ _ U) in A.
    cbn [dget String.eqb Ascii.eqb Bool.eqb option_map] in A. unfold core in A. cbn [ores bind] in A. fold lo hi in A.
    rewrite broadcast_same in A by (unfold inS, inD; rewrite !map_length; exact Hl). cbn [bind] in A.
    destruct (iter1 lo hi _ _) as [xs|] eqn:I in A; cbn [bind] in A; [|discriminate].
    assert (List.length (map (sditer g) (inD kV kM b)) = List.length (inS kT kE kM a)) as HLm
      by (unfold inS, inD; rewrite !map_length; now symmetry).
    pose proof (iter1_length _ _ _ _ _ HLm I) as HLx.
    destruct (bounds g E xs) as [T'|] eqn:B; cbn [bind] in A; [|discriminate]. injection A as <- _ _.
    unfold iter1 in I. destruct (iter1_full lo hi _ _) as [[xs' w]|] eqn:F in I; cbn [bind fst] in I; [|discriminate].
    injection I as ->. destruct (bounds_iter _ _ _ _ _ F B) as [-> Hne]. exists xs, w. repeat split; auto.
    rewrite HLx. unfold inS. apply map_length.
  Qed.
  Lemma argparse_TD a b : List.length a = List.length b ->
    argparse g E [] [("T", a); ("d", b)] =
    do T' <- bounds g E (inT uT a); Ok (T', None, Some (inD kV kM b)).
  Proof.
    intro Hl. rewrite argparse_two by reflexivity. rewrite (solve_units _ _ _ _ _ _ _ _ U).
    cbn [dget String.eqb Ascii.eqb Bool.eqb option_map]. unfold core. cbn [ores bind].
    rewrite broadcast_same by (unfold inT, inD; now rewrite !map_length). reflexivity.
  Qed.

  Definition pos_d (b : arr) : Prop := forall i q, nth_error b i = Some q -> exists r, q = Some r /\ 0 < r.

  Lemma sd_fn q t : 0 < q -> lo <= t <= hi ->
    sditer g (fmul (Some (kM / kV)) (Some q)) (Some t) =
      (Some (S_at t - gas_constant * ln (q * (kM / kV) * (1000 * gas_constant) * t / g_pref g)),
       Some ((CP_at t - gas_constant) / t)) /\
    log_p g (fmul (fmul (fmul (Some (kM / kV)) (Some q)) (Some R1000)) (Some t)) =
      Some (ln (q * (kM / kV) * (1000 * gas_constant) * t / g_pref g)) /\
    0 < q * (kM / kV) * (1000 * gas_constant) / g_pref g.
  Proof.
    intros Hq Ht. destruct (species_low _ _ S) as (_ & _ & Hpr & _). pose proof low_pos.
    assert (0 < gas_constant) as HR.
    { unfold gas_constant, boltzmann, avogadro. apply Rmult_lt_0_compat; [apply Rdiv_lt_0_compat|apply Rmult_lt_0_compat]; try apply pow_lt; lra. }
    assert (0 < kM / kV) by (apply Rdiv_lt_0_compat; lra).
    assert (0 < q * (kM / kV) * (1000 * gas_constant) / g_pref g) as H3.
    { apply Rdiv_lt_0_compat; [|exact Hpr]. apply Rmult_lt_0_compat; [apply Rmult_lt_0_compat; assumption|lra]. }
    assert (log_p g (fmul (fmul (fmul (Some (kM / kV)) (Some q)) (Some R1000)) (Some t)) =
      Some (ln (q * (kM / kV) * (1000 * gas_constant) * t / g_pref g))) as HL.
    { unfold log_p. cbn [fmul lift2 fdiv]. destruct (Req_EM_T (g_pref g) 0); [lra|]. cbn [flog]. unfold R1000. rewrite Ru_gas.
      replace (kM / kV * q * (1000 * gas_constant) * t / g_pref g) with
        (q * (kM / kV) * (1000 * gas_constant) * t / g_pref g) by (field; lra).
      destruct (Rlt_dec 0 _) as [|N]; [reflexivity|]. exfalso. apply N.
      replace (q * (kM / kV) * (1000 * gas_constant) * t / g_pref g) with
        (q * (kM / kV) * (1000 * gas_constant) / g_pref g * t) by (field; lra).
      apply Rmult_lt_0_compat; lra. }
    split; [|split; [exact HL|exact H3]].
    unfold sditer. rewrite (s_fn t Ht).
    unfold log_p in HL. rewrite HL. cbn [fmul lift2 fsub fdiv]. destruct (Req_EM_T t 0); [lra|]. rewrite Ru_gas.
    apply f_equal2; [reflexivity|]. cbn [lift2]. apply (f_equal Some). generalize gas_constant (CP_at t). intros. field. lra.
  Qed.

  Lemma sd_found a b Ts m M : List.length a = List.length b -> pos_d b -> 0 < m ->
    m_T g E [] [("s", a); ("d", b)] = Ok Ts -> call_warns g E [("s", a); ("d", b)] = Ok false ->
    steep (fun t => S_at t - gas_constant * ln t) (fun t => (CP_at t - gas_constant) / t) lo hi m M ->
    exists out, m_s g E [] [("T", Ts); ("d", b)] = Ok out /\ List.length out = List.length a /\
      forall i y, nth_error a i = Some (Some y) ->
        exists z, nth_error out i = Some (Some z) /\ Rabs (z - y) <= M / m * (/ 1000000 * Rabs y).
  Proof.
    intros Hl Hd Hm HT HW HS.
    rewrite (m_T_val _ _ _ _ _ _ _ _ U) in HT by (cbn; lia).
    destruct (argparse g E [] [("s", a); ("d", b)]) as [[[T p] d]|] eqn:A; cbn [bind fst] in HT; [|discriminate].
    injection HT as <-.
    destruct (arg_sd a b T p d Hl A) as (xs & w & HF & -> & Hne & HL).
    pose proof (warns_sd a b Hl HW) as W. rewrite HF in W. cbn [warned] in W. subst w.
    rewrite (m_s_val _ _ _ _ _ _ _ _ U), argparse_TD by (rewrite map_length; lia). rewrite back_K.
    rewrite (bounds_again _ _ _ _ HF Hne). cbn [bind the_p]. eexists. split; [reflexivity|].
    unfold scaled, p_of. rewrite map_length, !map2_length. unfold inD. rewrite map_length. split; [lia|].
    pose (q i := value (nth i b None)).
    assert (forall i, (i < List.length b)%nat -> nth_error b i = Some (Some (q i)) /\ 0 < q i) as Hq.
    { intros i Hi. destruct (nth_error b i) as [x|] eqn:Q; [|apply nth_error_None in Q; lia].
      destruct (Hd i x Q) as (r & -> & Hr). unfold q. rewrite (nth_error_nth b i None Q). cbn. auto. }
    assert (List.length (map (sditer g) (inD kV kM b)) = List.length (inS kT kE kM a)) as HLm
      by (unfold inS, inD; rewrite !map_length; now symmetry).
    intros i y Hy. assert (i < List.length b)%nat as Hi by (rewrite <- Hl; apply nth_error_Some; congruence).
    destruct (found _ _ _ 1
      (fun j t => S_at t - gas_constant * (ln (q j * (kM / kV) * (1000 * gas_constant) * t / g_pref g)))
      (fun j t => (CP_at t - gas_constant) / t) m M Hm HLm HF) with (i := i)
      (y := kE / 1000 / kM / (kT / (9/5)) * y) as (x & Hx & Hin & Hb).
    - intros j f Hf t Ht. apply nth_map in Hf. destruct Hf as (z & Hz & ->).
      unfold inD in Hz. apply nth_map in Hz. destruct Hz as (z0 & Hz & ->).
      assert (j < List.length b)%nat as Hj by (apply nth_error_Some; congruence).
      destruct (Hq j Hj) as [Hqj Hqp]. rewrite Hz in Hqj. injection Hqj as ->. now apply sd_fn.
    - intros j Hj. unfold inS in Hj. rewrite map_length, Hl in Hj. destruct HS as [HS1 HS2]. split; [exact HS1|].
      intros t1 t2 Ht1 Ht2. cbn beta. pose proof (HS2 t1 t2 Ht1 Ht2) as Q. cbn beta in Q. pose proof low_pos.
      destruct (Hq j Hj) as [_ Hqp]. destruct (sd_fn (q j) t1 Hqp ltac:(lra)) as (_ & _ & HC).
      assert (forall t, 0 < t -> ln (q j * (kM / kV) * (1000 * gas_constant) * t / g_pref g) =
        ln (q j * (kM / kV) * (1000 * gas_constant) / g_pref g) + ln t) as HLn.
      { intros t Ht. rewrite <- ln_mult by assumption. f_equal. unfold Rdiv. ring. }
      rewrite !HLn by lra. lra.
    - now apply inS_nth.
    - destruct (Hq i Hi) as [Hqi Hqp]. destruct (sd_fn (q i) x Hqp Hin) as (_ & HLog & _).
      set (lg := ln (q i * (kM / kV) * (1000 * gas_constant) * x / g_pref g)) in *.
      exists ((S_at x - gas_constant * lg) * ks). split.
      + apply nth_map. exists (Some (S_at x - gas_constant * lg)). split; [|reflexivity].
        apply nth_map2. exists (Some x), (fmul (fmul (fmul (Some (kM / kV)) (Some (q i))) (Some R1000)) (Some x)).
        split; [exact Hx|]. split.
        * apply nth_map2. exists (fmul (Some (kM / kV)) (Some (q i))), (Some x). split; [|split; [exact Hx|reflexivity]].
          apply nth_map. exists (Some (q i)). split; [exact Hqi|reflexivity].
        * unfold state_s. rewrite HLog, (s_fn x Hin), Ru_gas. reflexivity.
      + pose proof (bnd_scale ks _ _ _ ksp Hb) as Q. fold lg in Q.
        assert (kE / 1000 / kM / (kT / (9/5)) * ks = 1) as HK by (unfold ks, Proof_IgasRel.ks; field; lra).
        assert (0 < kE / 1000 / kM / (kT / (9/5))) as HK0.
        { apply Rdiv_lt_0_compat; [apply Rdiv_lt_0_compat; lra|lra]. }
        replace (kE / 1000 / kM / (kT / (9/5)) * y * ks) with y in Q
          by (replace (kE / 1000 / kM / (kT / (9/5)) * y * ks) with (kE / 1000 / kM / (kT / (9/5)) * ks * y) by ring; rewrite HK; ring).
        rewrite Rabs_mult, (Rabs_pos_eq (kE / 1000 / kM / (kT / (9/5)))) in Q by lra.
        replace (M / m * (/ 1000000 * (kE / 1000 / kM / (kT / (9/5)) * Rabs y)) * ks) with
          (M / m * (/ 1000000 * Rabs y) * (kE / 1000 / kM / (kT / (9/5)) * ks)) in Q by ring.
        rewrite HK, Rmult_1_r in Q. exact Q.
  Qed.
End Inv.

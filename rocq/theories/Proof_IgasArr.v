(* C32 (entropy and pressure), C61 (arrays), C62 (one-argument temperature calls). *)
From Coq Require Import Reals ZArith List String Bool Lia Lra.
From Verif Require Import Base Model_Num Model_Units Model_Defaults Model_Igas Spec_Units Proof_Units
  Proof_Defaults Spec_Igas Proof_Igas Proof_Iter Proof_IgasUnits Proof_IgasState Proof_IgasArgs
  Proof_IgasCalls Proof_IgasRel.
Import ListNotations.
Local Open Scope R_scope.
Local Open Scope string_scope.
Local Open Scope list_scope.

Lemma broadcast_same a b : List.length a = List.length b -> broadcast a b = Ok (a, b, false, false).
Proof. intro H. unfold broadcast. now rewrite H, Nat.eqb_refl. Qed.

Section Ent.
  Variables (E : env) (g : gas) (uT : string) (kT kP kV kE kM : R).
  Hypothesis S : species E g.
  Hypothesis U : units_known E (g_mw g) uT kT kP kV kE kM.

  Let kTp : 0 < kT := kT_pos _ _ _ _ _ _ _ _ U.
  Let kPp : 0 < kP := kP_pos _ _ _ _ _ _ _ _ U.
  Let kVp : 0 < kV := kV_pos _ _ _ _ _ _ _ _ U.
  Let kEp : 0 < kE := kE_pos _ _ _ _ _ _ _ _ U.
  Let kMp : 0 < kM := kM_pos _ _ _ _ _ _ _ _ U.

  Lemma argparse_two kw : List.length kw = 2%nat -> rules kw = Ok tt ->
    argparse g E [] kw = do st <- solve_state g E kw; match st with (T, p, d) =>
      do T' <- bounds g E T; Ok (T', p, d) end.
  Proof.
    intros Hl Hr. unfold argparse, positional, defaults. cbn [bind List.length Nat.ltb Nat.leb].
    rewrite Hl. cbn [bind]. rewrite Hr. reflexivity.
  Qed.

  Lemma argparse_TP a b : List.length a = List.length b ->
    argparse g E [] [("T", a); ("p", b)] =
    do T' <- bounds g E (inT uT a); Ok (T', Some (inP kP b), None).
  Proof.
    intro Hl. rewrite argparse_two by reflexivity. rewrite (solve_units _ _ _ _ _ _ _ _ U).
    cbn [dget String.eqb Ascii.eqb Bool.eqb option_map]. unfold core. cbn [ores bind].
    rewrite broadcast_same by (unfold inT, inP; now rewrite !map_length). reflexivity.
  Qed.

  Definition p_of_s (s t : fl) : fl :=
    fmul (Some (g_pref g)) (fexp (fdiv (fsub (fst (g_s g t)) s) (Some const_Ru))).

  Lemma argparse_Ts a s : List.length a = List.length s ->
    argparse g E [] [("T", a); ("s", s)] =
    do T' <- bounds g E (inT uT a);
    Ok (T', Some (map2 p_of_s (inS kT kE kM s) (inT uT a)), None).
  Proof.
    intro Hl. rewrite argparse_two by reflexivity. rewrite (solve_units _ _ _ _ _ _ _ _ U).
    cbn [dget String.eqb Ascii.eqb Bool.eqb option_map]. unfold core. cbn [ores bind].
    rewrite broadcast_same by (unfold inT, inS; rewrite !map_length; lia). reflexivity.
  Qed.

  Lemma bounds_nth T T' i x : bounds g E T = Ok T' -> nth_error T' i = Some x ->
    exists y, nth_error T i = Some y /\ x = (if out_of_range g y then e_oob E else y).
  Proof.
    unfold bounds. destruct (forallb _ _); [discriminate|]. intro H. injection H as <-. apply nth_map.
  Qed.
  Lemma bounds_len T T' : bounds g E T = Ok T' -> List.length T' = List.length T.
  Proof.
    unfold bounds. destruct (forallb _ _); [discriminate|]. intro H. injection H as <-. apply map_length.
  Qed.

  Lemma in_range_value t : out_of_range g (Some t) = false -> exists cp h s, pvalues g t cp h s.
  Proof.
    intro Ho. apply (species_values _ _ _ S). unfold out_of_range, flt in Ho.
    destruct (Rlt_dec t (Tlow g)), (Rlt_dec (Thigh g) t); try discriminate. lra.
  Qed.
  Lemma s_then_p a b Ss : List.length a = List.length b ->
    m_s g E [] [("T", a); ("p", b)] = Ok Ss ->
    exists Ps, m_p g E [] [("T", a); ("s", Ss)] = Ok Ps /\ List.length Ps = List.length b /\
      forall i s p, nth_error Ss i = Some (Some s) -> nth_error b i = Some (Some p) -> 0 < p ->
        nth_error Ps i = Some (Some p).
  Proof.
    intro Hl. rewrite (m_s_val _ _ _ _ _ _ _ _ U), argparse_TP by exact Hl.
    destruct (species_low _ _ S) as (Hoob & Hlow & Hpr & Hlh & _).
    destruct (bounds g E (inT uT a)) as [T'|] eqn:B; cbn [bind the_p]; [|discriminate].
    intro H. injection H as <-.
    pose proof (bounds_len _ _ B) as HlT. unfold inT in HlT. rewrite map_length in HlT.
    assert (List.length (scaled (ks kT kE kM) (map2 (state_s g) T' (inP kP b))) = List.length b) as Hls.
    { unfold scaled, inP. rewrite map_length, map2_length, map_length. lia. }
    rewrite (m_p_val _ _ _ _ _ _ _ _ U), argparse_Ts by lia. rewrite B. cbn [bind the_p].
    eexists. split; [reflexivity|]. split.
    { unfold inS, inT, inP. rewrite map_length, map2_length, !map_length. fold (inP kP b). lia. }
    intros i s p Hs Hp Hpos.
    apply scaled_nth in Hs. destruct Hs as (s1 & Hs & ->).
    pose proof Hs as Hs0.
    apply nth_map2 in Hs. destruct Hs as (t' & pf & Ht & Hpf & Hs).
    unfold inP in Hpf. apply nth_map in Hpf. destruct Hpf as (p' & Hp' & ->). rewrite Hp in Hp'. injection Hp' as <-.
    destruct (bounds_nth _ _ _ _ B Ht) as (t0 & Ht0 & Et).
    destruct (out_of_range g t0) eqn:Ho.
    { exfalso. subst t'. rewrite Hoob in Hs. unfold state_s in Hs.
      assert (fst (g_s g None) = None) as K.
      { exact (species_s_none _ _ S). }
      rewrite K in Hs. cbn in Hs. discriminate. }
    subst t0. destruct t' as [t|].
    2:{ exfalso. unfold state_s in Hs.
      assert (fst (g_s g None) = None) as K.
      { exact (species_s_none _ _ S). }
      rewrite K in Hs. cbn in Hs. discriminate. }
    destruct (in_range_value _ Ho) as (cp & h & s0 & V).
    apply nth_map. exists (Some (kP * p)). split; [|cbn; f_equal; field; lra].
    apply nth_map2. exists (fmul (Some (kE / 1000 / kM / (kT / (9/5)))) (Some (s1 * ks kT kE kM))), (Some t).
    split. { unfold inS. apply nth_map. exists (Some (s1 * ks kT kE kM)). split; [|reflexivity].
             apply scaled_nth. eauto. }
    split; [exact Ht0|].
    unfold state_s, log_p in Hs. destruct V as [_ _ Vs _ _ _]. rewrite Vs in Hs. unfold p_of_s. rewrite Vs.
    cbn in Hs |- *. destruct (Req_EM_T (g_pref g) 0); [lra|]. cbn in Hs.
    assert (0 < kP * p / g_pref g) as Hq by (apply Rdiv_lt_0_compat; [apply Rmult_lt_0_compat; lra|lra]).
    destruct (Rlt_dec 0 (kP * p / g_pref g)); [|contradiction]. cbn in Hs. injection Hs as ->.
    pose proof Ru_pos. destruct (Req_EM_T const_Ru 0); [lra|]. cbn. f_equal.
    replace ((s0 - kE / 1000 / kM / (kT / (9/5)) * ((s0 - const_Ru * ln (kP * p / g_pref g)) * ks kT kE kM)) / const_Ru)
      with (ln (kP * p / g_pref g)).
    { rewrite exp_ln by exact Hq. field. lra. }
    unfold ks. field. repeat split; lra.
  Qed.

  Lemma p_then_s a s Ps : List.length a = List.length s ->
    m_p g E [] [("T", a); ("s", s)] = Ok Ps ->
    exists Ss, m_s g E [] [("T", a); ("p", Ps)] = Ok Ss /\ List.length Ss = List.length s /\
      forall i p x, nth_error Ps i = Some (Some p) -> nth_error s i = Some (Some x) ->
        nth_error Ss i = Some (Some x) /\ 0 < p.
  Proof.
    intro Hl. rewrite (m_p_val _ _ _ _ _ _ _ _ U), argparse_Ts by exact Hl.
    destruct (species_low _ _ S) as (Hoob & Hlow & Hpr & Hlh & _).
    destruct (bounds g E (inT uT a)) as [T'|] eqn:B; cbn [bind the_p]; [|discriminate].
    intro H. injection H as <-.
    pose proof (bounds_len _ _ B) as HlT. unfold inT in HlT. rewrite map_length in HlT.
    assert (List.length (map (fmul (Some (/ kP))) (map2 p_of_s (inS kT kE kM s) (inT uT a))) = List.length s) as Hls.
    { unfold inS, inT. rewrite map_length, map2_length, !map_length. lia. }
    rewrite (m_s_val _ _ _ _ _ _ _ _ U), argparse_TP by lia. rewrite B. cbn [bind the_p].
    eexists. split; [reflexivity|]. split.
    { unfold scaled, inP. rewrite map_length, map2_length, map_length, Hls. lia. }
    intros i p x Hp Hx. pose proof Hp as Hp0.
    apply nth_map in Hp. destruct Hp as ([p1|] & Hp & He); [|discriminate]. cbn in He. injection He as ->.
    apply nth_map2 in Hp. destruct Hp as (s1 & t0 & Hs1 & Ht0 & Hp).
    unfold inS in Hs1. apply nth_map in Hs1. destruct Hs1 as (x' & Hx' & ->). rewrite Hx in Hx'. injection Hx' as <-.
    unfold p_of_s in Hp. destruct t0 as [t|].
    2:{ exfalso.
      assert (fst (g_s g None) = None) as K.
      { exact (species_s_none _ _ S). }
      rewrite K in Hp. cbn in Hp. discriminate. }
    assert (out_of_range g (Some t) = false) as Ho.
    { destruct (out_of_range g (Some t)) eqn:Ho; [exfalso|reflexivity].
      assert (fst (g_s g (Some t)) = None) as K.
      { assert (t < Tlow g \/ Thigh g < t) as Q.
        { unfold out_of_range, flt in Ho. destruct (Rlt_dec t (Tlow g)); [now left|].
          destruct (Rlt_dec (Thigh g) t); [now right|discriminate]. }
        exact (species_s_out _ _ _ S Q). }
      rewrite K in Hp. cbn in Hp. discriminate. }
    destruct (in_range_value _ Ho) as (cp & h & s0 & [_ _ Vs _ _ _]). rewrite Vs in Hp. cbn in Hp.
    pose proof Ru_pos. destruct (Req_EM_T const_Ru 0); [lra|]. cbn in Hp. injection Hp as ->.
    set (y := (s0 - kE / 1000 / kM / (kT / (9 / 5)) * x) / const_Ru).
    pose proof (exp_pos y) as Hy. split.
    2:{ apply Rmult_lt_0_compat; [now apply Rinv_0_lt_compat|]. apply Rmult_lt_0_compat; assumption. }
    assert (nth_error T' i = Some (Some t)) as HT'.
    { unfold bounds in B. destruct (forallb _ _); [discriminate|]. injection B as <-. apply nth_map.
      exists (Some t). split; [exact Ht0|]. now rewrite Ho. }
    apply scaled_nth. exists (x * / ks kT kE kM). split.
    2:{ unfold ks. field. repeat split; lra. }
    apply nth_map2. exists (Some t), (Some (kP * (/ kP * (g_pref g * exp y)))). split; [exact HT'|].
    split. { unfold inP. apply nth_map. eexists. split; [exact Hp0|]. reflexivity. }
    unfold state_s, log_p. rewrite Vs. cbn. destruct (Req_EM_T (g_pref g) 0); [lra|]. cbn.
    replace (kP * (/ kP * (g_pref g * exp y)) / g_pref g) with (exp y) by (field; lra).
    destruct (Rlt_dec 0 (exp y)); [|contradiction]. cbn. f_equal. rewrite ln_exp. unfold y, ks.
    field. repeat split; lra.
  Qed.
End Ent.

(* ---- arrays ---- *)
Definition sl (i : nat) (a : arr) : arr := match elem a i with Some x => [x] | None => [] end.
Definition at_ (i : nat) (a : arr) : arr := match nth_error a i with Some x => [x] | None => [] end.

Lemma elem_map_eq (f : fl -> fl) a i : elem (map f a) i = option_map f (elem a i).
Proof.
  destruct a as [|x [|y a]]; cbn [map elem].
  - destruct i; reflexivity.
  - reflexivity.
  - change (f x :: f y :: map f a) with (map f (x :: y :: a)). now rewrite nth_error_map.
Qed.
Lemma sl_map (f : fl -> fl) a i : map f (sl i a) = sl i (map f a).
Proof. unfold sl. rewrite elem_map_eq. destruct (elem a i); reflexivity. Qed.

Lemma elem_of_nth (a : arr) i x : nth_error a i = Some x -> elem a i = Some x.
Proof.
  destruct a as [|y [|z a]]; cbn [elem]; auto. destruct i as [|i]; cbn; [auto|destruct i; discriminate].
Qed.

Lemma iter1_elem lo hi (fns : list (fl -> fl * fl)) ys xs i f y x :
  List.length fns = List.length ys -> iter1 lo hi fns ys = Ok xs ->
  nth_error fns i = Some f -> nth_error ys i = Some y -> nth_error xs i = Some x ->
  iter1 lo hi [f] [y] = Ok [x].
Proof.
  intros Hl H Hf Hy Hx. unfold iter1 in *. destruct (iter1_full lo hi fns ys) as [[xs' w]|] eqn:F; [|discriminate].
  cbn in H. injection H as <-. apply iter1_pointwise in F; [|exact Hl].
  destruct F as (ws & Hw & _ & Hlx & K).
  destruct (nth_error ws i) as [b|] eqn:Hb.
  2:{ apply nth_error_None in Hb. apply (f_equal (fun o => match o with Some _ => true | None => false end)) in Hy.
      destruct (nth_error ys i) eqn:Q; [|discriminate]. assert (i < List.length ys)%nat by (apply nth_error_Some; congruence). lia. }
  cbn in Hx. rewrite (K i f y x b Hf Hy Hx Hb). reflexivity.
Qed.

Lemma iter1_sl lo hi f a X i : iter1 lo hi (map (fun _ => f) a) a = Ok X -> elem a i <> None ->
  iter1 lo hi (map (fun _ => f) (sl i a)) (sl i a) = Ok (sl i X) /\ elem X i <> None.
Proof.
  intros H Hi. pose proof (iter1_length _ _ _ _ _ (map_length _ _) H) as Hl.
  unfold sl. destruct (elem a i) as [y|] eqn:Ey; [|contradiction]. cbn [map].
  destruct a as [|y0 [|y1 a]].
  - destruct i; discriminate.
  - destruct X as [|x [|? ?]]; cbn in Hl; try discriminate. cbn in Ey. injection Ey as ->.
    cbn [elem]. split; [exact H|discriminate].
  - cbn [elem] in Ey. destruct (nth_error X i) as [x|] eqn:Ex.
    + rewrite (elem_of_nth _ _ _ Ex). split; [|discriminate].
      eapply iter1_elem; [|exact H| |exact Ey|exact Ex]; [now rewrite map_length|].
      apply nth_map. eauto.
    + exfalso. apply nth_error_None in Ex. assert (i < List.length (y0 :: y1 :: a))%nat by (apply nth_error_Some; congruence). lia.
Qed.

Lemma broadcast_sl a b a' b' s1 s2 i : broadcast a b = Ok (a', b', s1, s2) -> (i < List.length a')%nat ->
  exists x y, nth_error a' i = Some x /\ nth_error b' i = Some y /\ sl i a = [x] /\ sl i b = [y] /\
    elem a i = Some x /\ elem b i = Some y.
Proof.
  intros B Hi. destruct (broadcast_ok _ _ _ _ _ _ B) as (Hl & H1 & H2).
  destruct (nth_error a' i) as [x|] eqn:Ex; [|apply nth_error_None in Ex; lia].
  destruct (nth_error b' i) as [y|] eqn:Ey; [|apply nth_error_None in Ey; lia].
  exists x, y. unfold sl. rewrite (H1 _ _ Ex), (H2 _ _ Ey). auto 8.
Qed.
Lemma broadcast_one x y : broadcast [x] [y] = Ok ([x], [y], false, false).
Proof. reflexivity. Qed.

Section Arr.
  Variable g : gas.

  Definition osl i (o : option arr) := option_map (sl i) o.
  Definition oat i (o : option arr) := option_map (at_ i) o.

  Definition core2 (s T p d : option arr) : res (arr * option arr * option arr) :=
    let lo := Tlow g in let hi := Thigh g in
    match s, T, p, d with
    | Some s, _, _, Some d =>
        do b <- broadcast s d;
        match b with (s, d, _, _) =>
          do T <- iter1 lo hi (map (sditer g) d) s; Ok (T, None, Some d) end
    | Some s, _, Some p, None =>
        do b <- broadcast s p;
        match b with (s, p, shared, _) =>
          let s := inplace_add shared s
                     (map (fun x => fmul (Some const_Ru) (flog (fdiv x (Some (g_pref g))))) p) in
          do T <- iter1 lo hi (map (fun _ => g_s g) s) s; Ok (T, Some p, None) end
    | Some s, Some T, None, None =>
        do b <- broadcast s T;
        match b with (s, T, _, _) =>
          Ok (T, Some (map2 (fun s T => fmul (Some (g_pref g))
               (fexp (fdiv (fsub (fst (g_s g T)) s) (Some const_Ru)))) s T), None) end
    | Some _, None, None, None => Err PMParamError
    | None, Some T, Some p, _ =>
        do b <- broadcast T p; match b with (T, p, _, _) => Ok (T, Some p, None) end
    | None, Some T, None, Some d =>
        do b <- broadcast T d; match b with (T, d, _, _) => Ok (T, None, Some d) end
    | None, Some _, None, None => Err PMParamError
    | None, None, Some p, Some d =>
        do b <- broadcast p d;
        match b with (p, d, _, _) =>
          Ok (map2 (fun p d => fdiv p (fmul (Some R1000) d)) p d, Some p, Some d) end
    | None, None, Some _, None => Err PMParamError
    | None, None, None, _ => Err PMParamError
    end.

  Lemma core_core2 T p d v h e s : core g T p d v h e s =
    do Th <- ores h (fun a => iter1 (Tlow g) (Thigh g) (map (fun _ => g_h g) a) a);
    do Te <- ores e (fun a => iter1 (Tlow g) (Thigh g) (map (fun _ => g_e g) a) a);
    core2 s (match Te with Some x => Some x | None => match Th with Some x => Some x | None => T end end)
      p (match v with Some x => Some x | None => d end).
  Proof. reflexivity. Qed.

  Lemma at_some i a x : nth_error a i = Some x -> at_ i a = [x].
  Proof. unfold at_. now intros ->. Qed.

  Definition unshared (s p : option arr) (d : option arr) : Prop :=
    forall a b, s = Some a -> p = Some b -> d = None -> List.length a = 1%nat -> List.length b = 1%nat.

  Lemma core2_slice s T p d T' p' d' i x :
    unshared s p d -> core2 s T p d = Ok (T', p', d') -> nth_error T' i = Some x ->
    core2 (osl i s) (osl i T) (osl i p) (osl i d) = Ok ([x], oat i p', oat i d') /\
    (forall a, T = Some a -> (s = None \/ (p = None /\ d = None)) -> elem a i <> None).
  Proof.
    intros Hsh H Hx.
    assert (i < List.length T')%nat as Hi by (apply nth_error_Some; congruence).
    unfold core2 in H.
    destruct s as [s|].
    - destruct d as [d|].
      + assert (core2 (osl i (Some s)) (osl i T) (osl i p) (osl i (Some d)) = Ok ([x], oat i p', oat i d')) as K.
        { cut ((do b <- broadcast s d;
                match b with (s, d, _, _) =>
                  do T <- iter1 (Tlow g) (Thigh g) (map (sditer g) d) s; Ok (T, None, Some d) end)
               = Ok (T', p', d')). 2:{ destruct T; destruct p; exact H. }
          clear H. intro H.
          destruct (broadcast s d) as [[[[s' d1] b1] b2]|] eqn:B; cbn [bind] in H; [|discriminate].
          destruct (iter1 _ _ _ _) as [T0|] eqn:I; cbn [bind] in H; [|discriminate].
          injection H as -> <- <-.
          pose proof (broadcast_ok _ _ _ _ _ _ B) as (Hl & _ & _).
          pose proof I as HT. apply iter1_length in HT; [|rewrite map_length; lia].
          destruct (broadcast_sl _ _ _ _ _ _ i B ltac:(lia)) as (y & z & Hy & Hz & E1 & E2 & _ & _).
          assert (iter1 (Tlow g) (Thigh g) [sditer g z] [y] = Ok [x]) as K.
          { eapply iter1_elem; [|exact I| |exact Hy|exact Hx]; [rewrite map_length; lia|].
            apply nth_map. eauto. }
          assert ((do b <- broadcast (sl i s) (sl i d);
                match b with (s, d, _, _) =>
                  do T <- iter1 (Tlow g) (Thigh g) (map (sditer g) d) s; Ok (T, None, Some d) end)
               = Ok ([x], @None arr, Some [z])) as K2.
          { rewrite E1, E2, broadcast_one. cbn [bind map]. rewrite K. reflexivity. }
          unfold core2, osl, oat. cbn [option_map]. rewrite (at_some _ _ _ Hz).
          destruct T; destruct p; exact K2. }
        split; [exact K|]. intros a _ [?|[_ ?]]; discriminate.
      + destruct p as [p|].
        * split.
          2:{ intros a _ [?|[? _]]; discriminate. }
          cut ((do b <- broadcast s p;
                match b with (s, p, shared, _) =>
                let s := inplace_add shared s
                     (map (fun x => fmul (Some const_Ru) (flog (fdiv x (Some (g_pref g))))) p) in
                do T <- iter1 (Tlow g) (Thigh g) (map (fun _ => g_s g) s) s; Ok (T, Some p, None) end)
               = Ok (T', p', d')). 2:{ destruct T; exact H. }
          clear H. intro H.
          destruct (broadcast s p) as [[[[s' p1] b1] b2]|] eqn:B; cbn [bind] in H; [|discriminate].
          assert (b1 = false) as ->.
          { specialize (Hsh s p eq_refl eq_refl eq_refl). unfold broadcast in B.
            destruct (Nat.eqb (List.length s) (List.length p)) eqn:N; [injection B as <- <- <- <-; reflexivity|].
            apply Nat.eqb_neq in N.
            destruct s as [|y [|? s]].
            - destruct p as [|? [|? p]]; try discriminate; injection B as <- <- <- <-; reflexivity.
            - exfalso. specialize (Hsh eq_refl). cbn in N, Hsh. congruence.
            - destruct p as [|? [|? p]]; try discriminate; injection B as <- <- <- <-; reflexivity. }
          destruct (iter1 _ _ _ _) as [T0|] eqn:I; cbn [bind] in H; [|discriminate].
          injection H as -> <- <-. unfold inplace_add in I.
          pose proof (broadcast_ok _ _ _ _ _ _ B) as (Hl & _ & _).
          pose proof I as HT. apply iter1_length in HT; [|now rewrite map_length].
          rewrite map2_length, map_length in HT.
          assert (i < List.length s')%nat as His by lia.
          destruct (broadcast_sl _ _ _ _ _ _ i B His) as (y & z & Hy & Hz & E1 & E2 & _ & _).
          set (w := fun x0 => fmul (Some const_Ru) (flog (fdiv x0 (Some (g_pref g))))) in *.
          assert (iter1 (Tlow g) (Thigh g) [g_s g] [fadd y (w z)] = Ok [x]) as K.
          { eapply iter1_elem; [|exact I| | |exact Hx]; [now rewrite map_length| |].
            - apply nth_map. exists (fadd y (w z)). split; [|reflexivity].
              apply nth_map2. exists y, (w z). repeat split; auto. apply nth_map. eauto.
            - apply nth_map2. exists y, (w z). repeat split; auto. apply nth_map. eauto. }
          assert ((do b <- broadcast (sl i s) (sl i p);
                match b with (s, p, shared, _) =>
                let s := inplace_add shared s (map w p) in
                do T <- iter1 (Tlow g) (Thigh g) (map (fun _ => g_s g) s) s; Ok (T, Some p, None) end)
               = Ok ([x], Some [z], @None arr)) as K2.
          { rewrite E1, E2, broadcast_one. cbn beta iota zeta delta [bind map inplace_add]. change (map2 fadd [y] [w z]) with [fadd y (w z)]. cbn [map]. rewrite K. reflexivity. }
          unfold core2, osl, oat. cbn [option_map]. rewrite (at_some _ _ _ Hz).
          destruct T; exact K2.
        * destruct T as [T|]; [|discriminate].
          destruct (broadcast s T) as [[[[s' T1] b1] b2]|] eqn:B; cbn [bind] in H; [|discriminate].
          injection H as -> <- <-.
          pose proof (broadcast_ok _ _ _ _ _ _ B) as (Hl & _ & _).
          destruct (broadcast_sl _ _ _ _ _ _ i B ltac:(lia)) as (y & z & Hy & Hz & E1 & E2 & _ & E4).
          rewrite Hx in Hz. injection Hz as <-. split.
          2:{ intros a H _. injection H as <-. congruence. }
          unfold core2, osl, oat. cbn [option_map]. rewrite E1, E2, broadcast_one. cbn [bind map2].
          erewrite at_some; [reflexivity|]. apply nth_map2. exists y, x. auto.
    - destruct T as [T|].
      + destruct p as [p|].
        * destruct (broadcast T p) as [[[[T1 p1] b1] b2]|] eqn:B; cbn [bind] in H; [|discriminate].
          injection H as -> <- <-.
          destruct (broadcast_sl _ _ _ _ _ _ i B ltac:(lia)) as (y & z & Hy & Hz & E1 & E2 & E3 & _).
          rewrite Hx in Hy. injection Hy as <-. split.
          2:{ intros a H _. injection H as <-. congruence. }
          unfold core2, osl, oat. cbn [option_map]. rewrite E1, E2, broadcast_one, (at_some _ _ _ Hz).
          destruct d; reflexivity.
        * destruct d as [d|]; [|discriminate].
          destruct (broadcast T d) as [[[[T1 d1] b1] b2]|] eqn:B; cbn [bind] in H; [|discriminate].
          injection H as -> <- <-.
          destruct (broadcast_sl _ _ _ _ _ _ i B ltac:(lia)) as (y & z & Hy & Hz & E1 & E2 & E3 & _).
          rewrite Hx in Hy. injection Hy as <-. split.
          2:{ intros a H _. injection H as <-. congruence. }
          unfold core2, osl, oat. cbn [option_map]. rewrite E1, E2, broadcast_one, (at_some _ _ _ Hz). reflexivity.
      + destruct p as [p|]; [|discriminate]. destruct d as [d|]; [|discriminate].
        destruct (broadcast p d) as [[[[p1 d1] b1] b2]|] eqn:B; cbn [bind] in H; [|discriminate].
        injection H as <- <- <-.
        pose proof (broadcast_ok _ _ _ _ _ _ B) as (Hl & _ & _). rewrite map2_length in Hi.
        destruct (broadcast_sl _ _ _ _ _ _ i B ltac:(lia)) as (y & z & Hy & Hz & E1 & E2 & _ & _).
        split. 2:{ intros a ?; discriminate. }
        apply nth_map2 in Hx. destruct Hx as (y' & z' & Hy' & Hz' & ->).
        rewrite Hy in Hy'. rewrite Hz in Hz'. injection Hy' as <-. injection Hz' as <-.
        unfold core2, osl, oat. cbn [option_map]. rewrite E1, E2, broadcast_one, (at_some _ _ _ Hy), (at_some _ _ _ Hz).
        reflexivity.
  Qed.

  Lemma elem_len (a b : arr) i : List.length a = List.length b -> elem b i <> None -> elem a i <> None.
  Proof.
    intros Hl Hb. destruct a as [|x [|y a]], b as [|x' [|y' b]]; cbn in Hl; try discriminate; auto.
    cbn [elem] in *. intro K. apply nth_error_None in K. apply Hb. apply nth_error_None. cbn in *. lia.
  Qed.

  (* one element of the state *)
  Lemma core_slice T p d v h e s T' p' d' i x :
    unshared s p (match v with Some x => Some x | None => d end) ->
    (h <> None \/ e <> None -> s = None \/ (p = None /\ match v with Some x => Some x | None => d end = None)) ->
    h = None \/ e = None ->
    core g T p d v h e s = Ok (T', p', d') -> nth_error T' i = Some x ->
    core g (osl i T) (osl i p) (osl i d) (osl i v) (osl i h) (osl i e) (osl i s) =
      Ok ([x], oat i p', oat i d').
  Proof.
    rewrite !core_core2.
    assert (match osl i v with Some z => Some z | None => osl i d end =
            osl i (match v with Some z => Some z | None => d end)) as -> by (destruct v; reflexivity).
    generalize (match v with Some z => Some z | None => d end). clear v d. intros d Hsh Hhe Hor H Hx.
    destruct h as [h|].
    - destruct e as [e|]. { destruct Hor; discriminate. }
      cbn [ores bind] in H. destruct (iter1 _ _ _ _) as [Th|] eqn:I1; cbn [bind] in H; [|discriminate].
      destruct (core2_slice _ _ _ _ _ _ _ _ _ Hsh H Hx) as [K1 K2].
      pose proof (iter1_length _ _ _ _ _ (map_length _ _) I1) as Hl.
      specialize (K2 Th eq_refl (Hhe ltac:(left; discriminate))).
      destruct (iter1_sl _ _ _ _ _ i I1 (elem_len _ _ _ (eq_sym Hl) K2)) as [K3 _].
      cbn [osl option_map ores]. rewrite K3. cbn [bind]. exact K1.
    - destruct e as [e|].
      + cbn [ores bind] in H. destruct (iter1 _ _ _ _) as [Te|] eqn:I1; cbn [bind] in H; [|discriminate].
        destruct (core2_slice _ _ _ _ _ _ _ _ _ Hsh H Hx) as [K1 K2].
        pose proof (iter1_length _ _ _ _ _ (map_length _ _) I1) as Hl.
        specialize (K2 Te eq_refl (Hhe ltac:(right; discriminate))).
        destruct (iter1_sl _ _ _ _ _ i I1 (elem_len _ _ _ (eq_sym Hl) K2)) as [K3 _].
        cbn [osl option_map ores bind]. rewrite K3. cbn [bind]. exact K1.
      + cbn [ores bind osl option_map] in *. exact (proj1 (core2_slice _ _ _ _ _ _ _ _ _ Hsh H Hx)).
  Qed.
End Arr.

Section Elem.
  Variables (E : env) (g : gas) (uT : string) (kT kP kV kE kM : R).
  Hypothesis U : units_known E (g_mw g) uT kT kP kV kE kM.

  Definition slice i (kw : list (string * arr)) := map (fun x => (fst x, sl i (snd x))) kw.
  Lemma dget_slice i n kw : dget n (slice i kw) = option_map (sl i) (dget n kw).
  Proof.
    unfold slice. induction kw as [|[m a] kw IH]; cbn [map dget fst snd]; [reflexivity|].
    destruct (String.eqb n m); [reflexivity|exact IH].
  Qed.
  Lemma dmem_slice i n kw : dmem n (slice i kw) = dmem n kw.
  Proof. unfold dmem. rewrite dget_slice. destruct (dget n kw); reflexivity. Qed.
  Lemma rules_slice i kw : rules (slice i kw) = rules kw.
  Proof.
    unfold rules. rewrite !dmem_slice. unfold slice at 1. rewrite map_length.
    assert (dkeys (slice i kw) = dkeys kw) as ->.
    { unfold dkeys, slice. rewrite map_map. reflexivity. }
    assert (filter (fun k => dmem k (slice i kw)) ["T"; "e"; "h"] = filter (fun k => dmem k kw) ["T"; "e"; "h"]) as ->.
    { cbn [filter]. now rewrite !dmem_slice. }
    reflexivity.
  Qed.

  Lemma om_sl (f : arr -> arr) i o : (forall a, f (sl i a) = sl i (f a)) ->
    option_map f (option_map (sl i) o) = osl i (option_map f o).
  Proof. intro H. destruct o; cbn; [now rewrite H|reflexivity]. Qed.

  Lemma solve_slice (kw : kwargs) T p d i x :
    (forall s q : arr, dget "s" kw = Some s -> dget "p" kw = Some q -> List.length s = 1%nat -> List.length q = 1%nat) ->
    List.length kw = 2%nat -> rules kw = Ok tt ->
    solve_state g E kw = Ok (T, p, d) -> nth_error T i = Some x ->
    solve_state g E (slice i kw) = Ok ([x], oat i p, oat i d).
  Proof.
    intros Hsh Hl Hr. rewrite !(solve_units _ _ _ _ _ _ _ _ U). rewrite !dget_slice.
    rewrite !om_sl by (intro; apply sl_map).
    intros H Hx. refine (core_slice g _ _ _ _ _ _ _ _ _ _ _ _ _ _ _ H Hx); clear H Hx.
    - intros a b Ha Hb _.
      destruct (dget "s" kw) as [s|] eqn:Es; [|discriminate Ha]. destruct (dget "p" kw) as [q|] eqn:Ep; [|discriminate Hb].
      cbn in Ha, Hb. injection Ha as <-. injection Hb as <-. unfold inS, inP. rewrite !map_length. now apply Hsh.
    - intros Hh.
      destruct (dget "s" kw) as [s|] eqn:Es; [right|left; reflexivity].
      destruct (dget "p" kw) eqn:Ep; destruct (dget "v" kw) eqn:Ev; destruct (dget "d" kw) eqn:Ed;
        cbn [option_map]; try (split; reflexivity); exfalso;
        (destruct (dget "h" kw) eqn:Eh; [|destruct (dget "e" kw) eqn:Ee; [|destruct Hh as [Hh|Hh]; apply Hh; reflexivity]]);
        match goal with
        | K : dget "s" kw = Some _, L : dget ?a kw = Some _, M : dget ?b kw = Some _ |- _ =>
            first [constr_eq a "s"; fail 1 | constr_eq b "s"; fail 1 | constr_eq a b; fail 1 |
              refine (three kw "s" a b _ _ _ _ _ _ _); try discriminate; try lia; congruence]
        end.
    - destruct (dget "h" kw) eqn:Eh; [|left; reflexivity]. destruct (dget "e" kw) eqn:Ee; [|right; reflexivity].
      exfalso. apply rules_inv in Hr. destruct Hr as (_ & _ & Hc & _).
      assert (dmem "e" kw = true) as K1 by (unfold dmem; now rewrite Ee).
      assert (dmem "h" kw = true) as K2 by (unfold dmem; now rewrite Eh).
      cbn [filter] in Hc. rewrite K1, K2 in Hc. destruct (dmem "T" kw); cbn in Hc; lia.
  Qed.

  Lemma argparse_slice (kw : kwargs) T p d i x :
    (forall s q : arr, dget "s" kw = Some s -> dget "p" kw = Some q -> List.length s = 1%nat -> List.length q = 1%nat) ->
    List.length kw = 2%nat -> argparse g E [] kw = Ok (T, p, d) -> nth_error T i = Some x ->
    (argparse g E [] (slice i kw) = Ok ([x], oat i p, oat i d)) \/
    (argparse g E [] (slice i kw) = Err PMParamError /\ x = e_oob E).
  Proof.
    intros Hsh Hl H Hx.
    assert (rules kw = Ok tt) as Hr.
    { unfold argparse, positional, defaults in H. cbn [bind List.length Nat.ltb Nat.leb] in H.
      rewrite Hl in H. cbn [bind] in H. destruct (rules kw) as [[]|]; [reflexivity|discriminate]. }
    rewrite argparse_two in H by assumption.
    rewrite argparse_two; [|unfold slice; now rewrite map_length|now rewrite rules_slice].
    destruct (solve_state g E kw) as [[[T0 p0] d0]|] eqn:S; cbn [bind] in H; [|discriminate].
    destruct (bounds g E T0) as [T1|] eqn:B; cbn [bind] in H; [|discriminate]. injection H as -> -> ->.
    destruct (bounds_nth _ _ _ _ _ _ B Hx) as (y & Hy & ->).
    rewrite (solve_slice _ _ _ _ _ _ Hsh Hl Hr S Hy). cbn [bind]. unfold bounds. cbn [forallb map].
    destruct (out_of_range g y); cbn [andb bind]; auto.
  Qed.

  Lemma the_p_at T p d i x y : nth_error T i = Some x -> nth_error (the_p T p d) i = Some y ->
    the_p [x] (oat i p) (oat i d) = [y].
  Proof.
    intros Hx Hy. destruct p as [p|]; cbn [the_p oat option_map] in *; [now apply at_some|].
    destruct d as [d|]; cbn [the_p] in *; [|destruct i; discriminate].
    unfold p_of in *. apply nth_map2 in Hy. destruct Hy as (z & x' & Hz & Hx' & ->).
    unfold oat. cbn [option_map]. rewrite (at_some _ _ _ Hz). rewrite Hx in Hx'. injection Hx' as <-. reflexivity.
  Qed.
  Lemma the_d_at T p d i x y : nth_error T i = Some x -> nth_error (the_d T p d) i = Some y ->
    the_d [x] (oat i p) (oat i d) = [y].
  Proof.
    intros Hx Hy. destruct d as [d|]; [now cbn [the_d oat option_map] in *; apply at_some|].
    destruct p as [p|]; cbn [the_d oat option_map] in *; [|destruct i; discriminate].
    unfold d_of in *. apply nth_map2 in Hy. destruct Hy as (z & x' & Hz & Hx' & ->).
    rewrite (at_some _ _ _ Hz). rewrite Hx in Hx'. injection Hx' as <-. reflexivity.
  Qed.

  (* element i of the result of a method, for a call with two arguments *)
  Definition agrees (m : list (string * arr) -> res arr) : Prop :=
    forall kw out i o, List.length kw = 2%nat ->
      (forall s q : arr, dget "s" kw = Some s -> dget "p" kw = Some q -> List.length s = 1%nat -> List.length q = 1%nat) ->
      m kw = Ok out -> nth_error out i = Some o ->
      m (slice i kw) = Ok [o] \/
      (m (slice i kw) = Err PMParamError /\
       exists T p d, argparse g E [] kw = Ok (T, p, d) /\ nth_error T i = Some (e_oob E)).

  Definition shape (T : arr) (p d : option arr) : Prop :=
    (p <> None \/ d <> None) /\ (forall q, p = Some q \/ d = Some q -> List.length q = List.length T).

  Lemma agrees_of (m : list (string * arr) -> res arr) (F : arr -> option arr -> option arr -> arr) :
    (forall kw, List.length kw = 2%nat ->
        m kw = do st <- argparse g E [] kw; match st with (T, p, d) => Ok (F T p d) end) ->
    (forall T p d i x o, nth_error T i = Some x ->
         nth_error (F T p d) i = Some o -> F [x] (oat i p) (oat i d) = [o]) ->
    (forall T p d, shape T p d -> List.length (F T p d) = List.length T) -> agrees m.
  Proof.
    intros H1 H2 H3 kw out i o Hl Hsh Hm Ho. rewrite H1 in Hm by exact Hl.
    destruct (argparse g E [] kw) as [[[T p] d]|] eqn:A; cbn [bind] in Hm; [|discriminate]. injection Hm as <-.
    assert (shape T p d) as G.
    { destruct (argparse_inv _ _ _ _ _ _ _ _ U _ _ _ _ _ A) as (kw1 & kw2 & T0 & _ & _ & _ & _ & HT & G).
      split; [exact (gs_one _ _ _ G)|].
      intros q [Hq|Hq]; rewrite HT, map_length; [now apply (gs_p _ _ _ G)|now apply (gs_d _ _ _ G)]. }
    specialize (H3 _ _ _ G). specialize (H2 T p d i).
    destruct (nth_error T i) as [x|] eqn:Hx.
    2:{ exfalso. apply nth_error_None in Hx. assert (i < List.length (F T p d))%nat by (apply nth_error_Some; congruence). lia. }
    specialize (H2 _ _ eq_refl Ho). rewrite H1 by (unfold slice; now rewrite map_length).
    destruct (argparse_slice _ _ _ _ _ _ Hsh Hl A Hx) as [K|[K ->]]; rewrite K; cbn [bind].
    - left. now rewrite H2.
    - right. split; [reflexivity|]. exists T, p, d. auto.
  Qed.

  Lemma the_p_len T p d : shape T p d -> List.length (the_p T p d) = List.length T.
  Proof.
    intros [Ho Hs]. destruct p as [p|]; cbn [the_p]; [apply Hs; auto|].
    destruct d as [d|]; [|destruct Ho; congruence]. unfold p_of. rewrite map2_length, (Hs d) by auto. apply Nat.min_id.
  Qed.
  Lemma the_d_len T p d : shape T p d -> List.length (the_d T p d) = List.length T.
  Proof.
    intros [Ho Hs]. destruct d as [d|]; cbn [the_d]; [apply Hs; auto|].
    destruct p as [p|]; [|destruct Ho; congruence]. unfold d_of. rewrite map2_length, (Hs p) by auto. apply Nat.min_id.
  Qed.

  Lemma agrees_T (m : list (string * arr) -> res arr) (f : fl -> fl) :
    (forall kw, List.length kw = 2%nat ->
       m kw = do st <- argparse g E [] kw; match st with (T, p, d) => Ok (map f T) end) -> agrees m.
  Proof.
    intro H. apply (agrees_of m (fun T _ _ => map f T)); [exact H| |intros; apply map_length].
    intros T p d i x o Hx Ho.
    apply nth_map in Ho. destruct Ho as (y & Hy & ->). rewrite Hx in Hy. injection Hy as <-. reflexivity.
  Qed.
  Lemma agrees_Tp (m : list (string * arr) -> res arr) (k : R) (f : fl -> fl -> fl) :
    (forall kw, m kw = do st <- argparse g E [] kw; match st with (T, p, d) =>
                         Ok (scaled k (map2 f T (the_p T p d))) end) -> agrees m.
  Proof.
    intro H. apply (agrees_of m (fun T p d => scaled k (map2 f T (the_p T p d)))); [intros; apply H| |].
    - intros T p d i x o Hx Ho.
      unfold scaled in *. apply nth_map in Ho. destruct Ho as (y & Hy & ->).
      apply nth_map2 in Hy. destruct Hy as (x' & z & Hx' & Hz & ->). rewrite Hx in Hx'. injection Hx' as <-.
      rewrite (the_p_at _ _ _ _ _ _ Hx Hz). reflexivity.
    - intros T p d G. unfold scaled. rewrite map_length, map2_length, (the_p_len _ _ _ G). apply Nat.min_id.
  Qed.

  Lemma methods_agree m : In m [m_T g E []; m_p g E []; m_d g E []; m_v g E []; m_cp g E []; m_cv g E [];
      m_gam g E []; m_h g E []; m_e g E []; m_s g E []; m_g g E []; m_f g E []] -> agrees m.
  Proof.
    intros [<-|[<-|[<-|[<-|[<-|[<-|[<-|[<-|[<-|[<-|[<-|[<-|[]]]]]]]]]]]]].
    - apply agrees_T with (f := lift1 (from_kelvin uT)). intros kw Hl.
      rewrite (m_T_val _ _ _ _ _ _ _ _ U) by (cbn; lia).
      destruct (argparse g E [] kw) as [[[T p] d]|]; reflexivity.
    - apply (agrees_of _ (fun T p d => map (fmul (Some (/ kP))) (the_p T p d))).
      + intros. apply (m_p_val _ _ _ _ _ _ _ _ U).
      + intros T p d i x o Hx Ho. apply nth_map in Ho. destruct Ho as (y & Hy & ->).
        now rewrite (the_p_at _ _ _ _ _ _ Hx Hy).
      + intros T p d G. now rewrite map_length, the_p_len.
    - apply (agrees_of _ (fun T p d => scaled (kV / kM) (the_d T p d))).
      + intros. apply (m_d_val _ _ _ _ _ _ _ _ U).
      + intros T p d i x o Hx Ho. apply nth_map in Ho. destruct Ho as (y & Hy & ->).
        now rewrite (the_d_at _ _ _ _ _ _ Hx Hy).
      + intros T p d G. unfold scaled. now rewrite map_length, the_d_len.
    - apply (agrees_of _ (fun T p d => map reciprocal (scaled (kV / kM) (the_d T p d)))).
      + intros kw _. unfold m_v. rewrite (m_d_val _ _ _ _ _ _ _ _ U).
        destruct (argparse g E [] kw) as [[[T p] d]|]; reflexivity.
      + intros T p d i x o Hx Ho. apply nth_map in Ho. destruct Ho as (y & Hy & ->).
        unfold scaled in *. apply nth_map in Hy. destruct Hy as (z & Hz & ->).
        now rewrite (the_d_at _ _ _ _ _ _ Hx Hz).
      + intros T p d G. unfold scaled. now rewrite !map_length, the_d_len.
    - apply agrees_T with (f := fun t => fmul (g_cp g t) (Some (ks kT kE kM))). intros kw _.
      rewrite (m_cp_val _ _ _ _ _ _ _ _ U). unfold scaled.
      destruct (argparse g E [] kw) as [[[T p] d]|]; cbn [bind]; [now rewrite map_map|reflexivity].
    - apply agrees_T with (f := fun t => fmul (fsub (g_cp g t) (Some const_Ru)) (Some (ks kT kE kM))). intros kw _.
      rewrite (m_cv_val _ _ _ _ _ _ _ _ U). unfold scaled.
      destruct (argparse g E [] kw) as [[[T p] d]|]; cbn [bind]; [now rewrite map_map|reflexivity].
    - apply agrees_T with (f := fun t => let cp := g_cp g t in fdiv cp (fsub cp (Some const_Ru))). reflexivity.
    - apply agrees_T with (f := fun t => fmul (fst (g_h g t)) (Some (kh kE kM))). intros kw _.
      rewrite (m_h_val _ _ _ _ _ _ _ _ U). unfold scaled.
      destruct (argparse g E [] kw) as [[[T p] d]|]; cbn [bind]; [now rewrite map_map|reflexivity].
    - apply agrees_T with (f := fun t => fmul (state_e g t) (Some (kh kE kM))). intros kw _.
      rewrite (m_e_val _ _ _ _ _ _ _ _ U). unfold scaled.
      destruct (argparse g E [] kw) as [[[T p] d]|]; cbn [bind]; [now rewrite map_map|reflexivity].
    - eapply agrees_Tp. intro kw. apply (m_s_val _ _ _ _ _ _ _ _ U).
    - eapply agrees_Tp. intro kw. apply (m_g_val _ _ _ _ _ _ _ _ U).
    - eapply agrees_Tp. intro kw. apply (m_f_val _ _ _ _ _ _ _ _ U).
  Qed.

  (* the statement, without sl: the scalar call takes the elements of the arguments *)
  Lemma elementwise m kw out i o Ts :
    In m [m_T g E []; m_p g E []; m_d g E []; m_v g E []; m_cp g E []; m_cv g E [];
      m_gam g E []; m_h g E []; m_e g E []; m_s g E []; m_g g E []; m_f g E []] ->
    List.length kw = 2%nat -> NoDup (map fst kw) ->
    (forall s q : arr, In ("s", s) kw -> In ("p", q) kw -> List.length s = 1%nat -> List.length q = 1%nat) ->
    e_oob E = None -> m_T g E [] kw = Ok Ts ->
    m kw = Ok out -> nth_error out i = Some o ->
    forall kw1, Forall2 (fun x y => fst x = fst y /\ exists z, elem (snd x) i = Some z /\ snd y = [z]) kw kw1 ->
    m kw1 = Ok [o] \/ (m kw1 = Err PMParamError /\ nth_error Ts i = Some None).
  Proof.
    intros Hm Hl Hn Hsh Hoob HT H Ho kw1 Hk.
    assert (kw1 = slice i kw) as ->.
    { clear - Hk. induction Hk as [|[n a] [n' b] kw kw1 [E1 (z & E2 & E3)] _ IH]; [reflexivity|].
      cbn in *. subst. f_equal. unfold sl. now rewrite E2. }
    destruct (methods_agree m Hm kw out i o Hl) as [K|(K & T & p & d & A & Hx)]; auto.
    - intros s q Hs Hq. apply Hsh; now apply dget_some_in.
    - right. split; [exact K|]. rewrite (m_T_val _ _ _ _ _ _ _ _ U) in HT by (cbn; lia).
      rewrite A in HT. cbn [bind fst] in HT. injection HT as <-. apply nth_map. exists None.
      split; [congruence|reflexivity].
  Qed.
End Elem.

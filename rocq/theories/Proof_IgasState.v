(* Proofs about the argument handling and the property methods of the ideal gas classes. *)
From Coq Require Import Reals ZArith List String Lia Lra.
From Verif Require Import Base Model_Num Model_Units Model_Igas Spec_Units Proof_Units Proof_Defaults
  Spec_Igas Proof_Igas Proof_Iter Proof_IgasUnits.
Import ListNotations.
Local Open Scope R_scope.
Local Open Scope string_scope.
Local Open Scope list_scope.

(* ---- arrays ---- *)
Lemma map2_length {A B C} (f : A -> B -> C) l m :
  List.length (map2 f l m) = Nat.min (List.length l) (List.length m).
Proof. unfold map2. now rewrite map_length, combine_length. Qed.

Lemma nth_map2 {A B C} (f : A -> B -> C) l m i x :
  nth_error (map2 f l m) i = Some x <->
  exists a b, nth_error l i = Some a /\ nth_error m i = Some b /\ x = f a b.
Proof.
  revert m i. induction l as [|a l IH]; intros [|b m] i.
  - destruct i; cbn; split; try discriminate; intros (? & ? & ? & _); discriminate.
  - destruct i; cbn; split; try discriminate; intros (? & ? & ? & _); discriminate.
  - destruct i; cbn; split; try discriminate; intros (? & ? & ? & ? & _); discriminate.
  - rewrite map2_cons. destruct i as [|i]; cbn [nth_error].
    + split; [intro H; injection H as <-; eauto|]. intros (a' & b' & Ha & Hb & ->).
      injection Ha as ->. now injection Hb as ->.
    + apply IH.
Qed.

Lemma nth_map {A B} (f : A -> B) l i x :
  nth_error (map f l) i = Some x <-> exists a, nth_error l i = Some a /\ x = f a.
Proof.
  rewrite nth_error_map. destruct (nth_error l i) as [a|]; cbn; split; intro H.
  - injection H as <-. eauto.
  - destruct H as (a' & Ha & ->). now injection Ha as ->.
  - discriminate.
  - destruct H as (? & ? & _). discriminate.
Qed.

Lemma broadcast_ok a b a' b' s1 s2 : broadcast a b = Ok (a', b', s1, s2) ->
  List.length a' = List.length b' /\
  (forall i x, nth_error a' i = Some x -> elem a i = Some x) /\
  (forall i x, nth_error b' i = Some x -> elem b i = Some x).
Proof.
  unfold broadcast.
  assert (forall (l : arr) i x, nth_error l i = Some x -> elem l i = Some x) as K.
  { intros [|y [|z l]] i x; cbn; auto. destruct i as [|i]; cbn; [auto|destruct i; discriminate]. }
  assert (forall (y : fl) n i x, nth_error (repeat y n) i = Some x -> Some y = Some x) as Kr.
  { intros y n i x H. apply nth_error_In in H. apply repeat_spec in H. congruence. }
  destruct (Nat.eqb_spec (List.length a) (List.length b)) as [E|E].
  - intro H. injection H as <- <- <- <-. repeat split; auto.
  - destruct a as [|x [|x2 a]].
    + destruct b as [|y [|y2 b]]; intro H; try discriminate.
      injection H as <- <- <- <-. repeat split; auto. intros [|i] x; discriminate.
    + intro H. assert (Ok (repeat x (List.length b), b, true, false) = Ok (a', b', s1, s2)) as H'
        by (destruct b; exact H). clear H.
      injection H' as <- <- <- <-. rewrite repeat_length. repeat split; auto.
      intros i z Hz. cbn. eapply Kr; eauto.
    + destruct b as [|y [|y2 b]]; intro H; try discriminate.
      injection H as <- <- <- <-. split; [cbn; now rewrite repeat_length|]. split; [auto|].
      intros i z Hz. cbn. change (Some y = Some z). eapply (Kr y (S (S (List.length a))) i). exact Hz.
Qed.

Lemma iter1_length lo hi fns ys xs : List.length fns = List.length ys ->
  iter1 lo hi fns ys = Ok xs -> List.length xs = List.length ys.
Proof.
  intros Hl H. unfold iter1 in H.
  destruct (iter1_full lo hi fns ys) as [[x w]|] eqn:E; [|discriminate]. cbn in H. injection H as <-.
  apply iter1_pointwise in E; [|exact Hl]. destruct E as (ws & _ & _ & K & _). exact K.
Qed.

Lemma iter1_err lo hi fns ys e : iter1 lo hi fns ys = Err e -> e = PMAnalysisError.
Proof.
  unfold iter1. destruct (iter1_full lo hi fns ys) as [[x w]|] eqn:E; [discriminate|].
  cbn. intro H. injection H as <-. exact (iter1_errors _ _ _ _ _ E).
Qed.

(* ---- the state computation after unit conversion ---- *)
Section State.
  Variables (E : env) (g : gas) (uT : string) (kT kP kV kE kM : R).
  Hypothesis U : units_known E (g_mw g) uT kT kP kV kE kM.

  Definition core (T p d v h e s : option arr) : res (arr * option arr * option arr) :=
    let lo := Tlow g in let hi := Thigh g in
    let d := match v with Some x => Some x | None => d end in
    do Th <- ores h (fun a => iter1 lo hi (map (fun _ => g_h g) a) a);
    let T := match Th with Some x => Some x | None => T end in
    do Te <- ores e (fun a => iter1 lo hi (map (fun _ => g_e g) a) a);
    let T := match Te with Some x => Some x | None => T end in
    match s, T, p, d with
    | Some s, _, _, Some d =>
        do b <- broadcast s d;
        match b with (s, d, _, _) =>
          do T <- iter1 lo hi (map (sditer g) d) s; Ok (T, None, Some d) end
    | Some s, _, Some p, None =>
        do b <- broadcast s p;
        match b with (s, p, shared, _) =>
          let s := inplace_add shared s
                     (map (fun x => fmul (Some const_Ru) (flog (fdiv x (Some (g_pref g))))) p) in
          do T <- iter1 lo hi (map (fun _ => g_s g) s) s; Ok (T, Some p, None) end
    | Some s, Some T, None, None =>
        do b <- broadcast s T;
        match b with (s, T, _, _) =>
          Ok (T, Some (map2 (fun s T => fmul (Some (g_pref g))
               (fexp (fdiv (fsub (fst (g_s g T)) s) (Some const_Ru)))) s T), None) end
    | Some _, None, None, None => Err PMParamError
    | None, Some T, Some p, _ =>
        do b <- broadcast T p; match b with (T, p, _, _) => Ok (T, Some p, None) end
    | None, Some T, None, Some d =>
        do b <- broadcast T d; match b with (T, d, _, _) => Ok (T, None, Some d) end
    | None, Some _, None, None => Err PMParamError
    | None, None, Some p, Some d =>
        do b <- broadcast p d;
        match b with (p, d, _, _) =>
          Ok (map2 (fun p d => fdiv p (fmul (Some R1000) d)) p d, Some p, Some d) end
    | None, None, Some _, None => Err PMParamError
    | None, None, None, _ => Err PMParamError
    end.

  Definition inT := map (lift1 (to_kelvin uT)).
  Definition inP := map (fmul (Some kP)).
  Definition inD := map (fmul (Some (kM / kV))).
  Definition inV := map (fun x => reciprocal (fmul (Some (kV / kM)) x)).
  Definition inH := map (fmul (Some (kE / 1000 / kM))).
  Definition inS := map (fmul (Some (kE / 1000 / kM / (kT / (9/5))))).

  Lemma solve_units kw : solve_state g E kw =
    core (option_map inT (dget "T" kw)) (option_map inP (dget "p" kw))
         (option_map inD (dget "d" kw)) (option_map inV (dget "v" kw))
         (option_map inH (dget "h" kw)) (option_map inH (dget "e" kw))
         (option_map inS (dget "s" kw)).
  Proof.
    unfold solve_state, core.
    assert (forall fn a, invert g E fn a =
              iter1 (Tlow g) (Thigh g) (map (fun _ => fn) (inH a)) (inH a)) as Hinv.
    { intros fn a. pose proof (h_in _ _ _ _ _ _ _ _ U a) as H. unfold invert.
      destruct (aconvert E QEnergy a None (Some "kJ") None) as [v1|]; cbn [bind] in *; [|discriminate].
      rewrite H. reflexivity. }
    replace (ores (dget "T" kw) (fun v => atscale E v None (Some "K")))
      with (@Ok (option arr) (option_map inT (dget "T" kw))).
    2:{ destruct (dget "T" kw); cbn; [|reflexivity]. rewrite (atscale_to _ _ _ _ _ _ _ _ U). reflexivity. }
    cbn [bind].
    replace (ores (dget "p" kw) (fun v => aconvert E QPressure v None (Some "Pa") None))
      with (@Ok (option arr) (option_map inP (dget "p" kw))).
    2:{ destruct (dget "p" kw); cbn [ores option_map]; [|reflexivity]. rewrite (p_in _ _ _ _ _ _ _ _ U). reflexivity. }
    cbn [bind].
    match goal with |- context [ores (dget "d" kw) ?f] =>
      replace (ores (dget "d" kw) f) with (@Ok (option arr) (option_map inD (dget "d" kw))) end.
    2:{ destruct (dget "d" kw); cbn [ores option_map]; [|reflexivity]. rewrite (d_in _ _ _ _ _ _ _ _ U). reflexivity. }
    cbn [bind].
    match goal with |- context [ores (dget "v" kw) ?f] =>
      replace (ores (dget "v" kw) f) with (@Ok (option arr) (option_map inV (dget "v" kw))) end.
    2:{ destruct (dget "v" kw); cbn [ores option_map]; [|reflexivity]. rewrite (v_in _ _ _ _ _ _ _ _ U). reflexivity. }
    cbn [bind].
    replace (ores (dget "h" kw) (invert g E (g_h g)))
      with (ores (option_map inH (dget "h" kw)) (fun a => iter1 (Tlow g) (Thigh g) (map (fun _ => g_h g) a) a)).
    2:{ destruct (dget "h" kw); cbn [ores option_map]; [|reflexivity]. now rewrite Hinv. }
    replace (ores (dget "e" kw) (invert g E (g_e g)))
      with (ores (option_map inH (dget "e" kw)) (fun a => iter1 (Tlow g) (Thigh g) (map (fun _ => g_e g) a) a)).
    2:{ destruct (dget "e" kw); cbn [ores option_map]; [|reflexivity]. now rewrite Hinv. }
    match goal with |- context [ores (dget "s" kw) ?f] =>
      replace (ores (dget "s" kw) f) with (@Ok (option arr) (option_map inS (dget "s" kw))) end.
    2:{ destruct (dget "s" kw); cbn [ores option_map]; [|reflexivity]. rewrite (s_in _ _ _ _ _ _ _ _ U). reflexivity. }
    reflexivity.
  Qed.

  (* shape of the computed state *)
  Record good_state (T : arr) (p d : option arr) : Prop := {
    gs_p : forall P, p = Some P -> List.length P = List.length T;
    gs_d : forall D, d = Some D -> List.length D = List.length T;
    gs_one : p <> None \/ d <> None;
    gs_both : forall P D, p = Some P -> d = Some D ->
      T = map2 (fun p d => fdiv p (fmul (Some R1000) d)) P D }.

  Lemma core_good T p d v h e s T' p' d' : core T p d v h e s = Ok (T', p', d') -> good_state T' p' d'.
  Proof.
    unfold core. set (dd := match v with Some x => Some x | None => d end).
    destruct (ores h _) as [Th|]; cbn [bind]; [|discriminate].
    destruct (ores e _) as [Te|]; cbn [bind]; [|discriminate].
    set (TT := match Te with Some x => Some x | None => match Th with Some x => Some x | None => T end end).
    destruct s as [s|].
    - destruct dd as [dd|].
      + assert ((do b <- broadcast s dd;
                 match b with (s0, d0, _, _) =>
                   do T0 <- iter1 (Tlow g) (Thigh g) (map (sditer g) d0) s0; Ok (T0, None, Some d0) end)
                = Ok (T', p', d') -> good_state T' p' d') as K.
        { destruct (broadcast s dd) as [[[[s' dd'] b1] b2]|] eqn:B; cbn [bind]; [|discriminate].
          apply broadcast_ok in B. destruct B as (Hl & _ & _).
          destruct (iter1 _ _ _ _) as [T0|] eqn:I; cbn [bind]; [|discriminate].
          intro H. injection H as <- <- <-.
          apply iter1_length in I; [|rewrite map_length; lia].
          constructor; intros; try discriminate; [|now right]. injection H as <-. lia. }
        destruct TT; destruct p; exact K.
      + destruct p as [p|].
        * assert ((do b <- broadcast s p;
                   match b with (s0, p0, sh, _) =>
                     do T0 <- iter1 (Tlow g) (Thigh g) (map (fun _ => g_s g) (inplace_add sh s0
                       (map (fun x => fmul (Some const_Ru) (flog (fdiv x (Some (g_pref g))))) p0)))
                       (inplace_add sh s0
                       (map (fun x => fmul (Some const_Ru) (flog (fdiv x (Some (g_pref g))))) p0));
                     Ok (T0, Some p0, None) end) = Ok (T', p', d') -> good_state T' p' d') as K.
          { destruct (broadcast s p) as [[[[s' pp'] b1] b2]|] eqn:B; cbn [bind]; [|discriminate].
            apply broadcast_ok in B. destruct B as (Hl & _ & _).
            destruct (iter1 _ _ _ _) as [T0|] eqn:I; cbn [bind]; [|discriminate].
            intro H. injection H as <- <- <-.
            apply iter1_length in I; [|now rewrite map_length].
            assert (forall sh w, List.length (inplace_add sh s' (map w pp')) = List.length s') as Hi.
            { intros sh w. unfold inplace_add. destruct sh; rewrite ?repeat_length, map2_length, map_length; lia. }
            rewrite Hi in I.
            constructor; intros; try discriminate; [|now left]. injection H as <-. lia. }
          destruct TT; exact K.
        * destruct TT as [TT|]; [|discriminate].
          destruct (broadcast s TT) as [[[[s' T0] b1] b2]|] eqn:B; cbn [bind]; [|discriminate].
          apply broadcast_ok in B. destruct B as (Hl & _ & _).
          intro H. injection H as <- <- <-.
          constructor; intros; try discriminate; [|now left]. injection H as <-.
          rewrite map2_length. lia.
    - destruct TT as [TT|].
      + destruct p as [p|].
        * assert ((do b <- broadcast TT p; match b with (T0, p0, _, _) => Ok (T0, Some p0, None) end)
                  = Ok (T', p', d') -> good_state T' p' d') as K.
          { destruct (broadcast TT p) as [[[[T0 pp'] b1] b2]|] eqn:B; cbn [bind]; [|discriminate].
            apply broadcast_ok in B. destruct B as (Hl & _ & _).
            intro H. injection H as <- <- <-.
            constructor; intros; try discriminate; [|now left]. injection H as <-. lia. }
          destruct dd; exact K.
        * destruct dd as [dd|]; [|discriminate].
          destruct (broadcast TT dd) as [[[[T0 pp'] b1] b2]|] eqn:B; cbn [bind]; [|discriminate].
          apply broadcast_ok in B. destruct B as (Hl & _ & _).
          intro H. injection H as <- <- <-.
          constructor; intros; try discriminate; [|now right]. injection H as <-. lia.
      + destruct p as [p|]; [|discriminate].
        destruct dd as [dd|]; [|discriminate].
        destruct (broadcast p dd) as [[[[p0 d0] b1] b2]|] eqn:B; cbn [bind]; [|discriminate].
        apply broadcast_ok in B. destruct B as (Hl & _ & _).
        intro H. injection H as <- <- <-.
        constructor; intros; try (injection H as <-); rewrite ?map2_length; try lia; [now left|].
        injection H0 as <-. reflexivity.
  Qed.

  Lemma argparse_inv varg kw T p d : argparse g E varg kw = Ok (T, p, d) ->
    exists kw1 kw2 T0, positional varg kw = Ok kw1 /\ defaults E kw1 = Ok kw2 /\ rules kw2 = Ok tt /\
      solve_state g E kw2 = Ok (T0, p, d) /\
      T = map (fun t => if out_of_range g t then e_oob E else t) T0 /\
      good_state T0 p d.
  Proof.
    unfold argparse.
    destruct (positional varg kw) as [kw1|] eqn:H1; cbn [bind]; [|discriminate].
    destruct (defaults E kw1) as [kw2|] eqn:H2; cbn [bind]; [|discriminate].
    destruct (rules kw2) as [[]|] eqn:Hr; cbn [bind]; [|discriminate].
    destruct (solve_state g E kw2) as [[[T0 p0] d0]|] eqn:S; cbn [bind]; [|discriminate].
    unfold bounds. destruct (forallb _ _); cbn [bind]; [discriminate|].
    intro H. injection H as <- <- <-.
    assert (good_state T0 p0 d0) as G by (rewrite solve_units in S; exact (core_good _ _ _ _ _ _ _ _ _ _ S)).
    exists kw1, kw2, T0. auto 8.
  Qed.

  Hypothesis Hoob : e_oob E = None.
  Hypothesis Hlow : 0 < Tlow g.

  (* element i of the state *)
  Lemma state_elem varg kw T p d i t : argparse g E varg kw = Ok (T, p, d) ->
    nth_error T i = Some (Some t) ->
    Tlow g <= t <= Thigh g /\
    exists pf df, nth_error (the_p T p d) i = Some pf /\ nth_error (the_d T p d) i = Some df /\
      (forall P D, pf = Some P -> df = Some D -> P = D * R1000 * t).
  Proof.
    intros H Ht. apply argparse_inv in H.
    destruct H as (kw1 & kw2 & T0 & _ & _ & _ & _ & HT & G).
    rewrite HT in Ht. apply nth_map in Ht. destruct Ht as (t0 & Ht0 & He).
    rewrite Hoob in He. destruct (out_of_range g t0) eqn:Ho; [discriminate|]. subst t0.
    assert (Tlow g <= t <= Thigh g) as Hr.
    { unfold out_of_range, flt in Ho. destruct (Rlt_dec t (Tlow g)), (Rlt_dec (Thigh g) t); try discriminate. lra. }
    split; [exact Hr|].
    assert (0 < R1000) as HR. { unfold R1000. pose proof Ru_pos. lra. }
    assert (nth_error T i = Some (Some t)) as HTi.
    { rewrite HT. apply nth_map. exists (Some t). split; [exact Ht0|]. now rewrite Ho. }
    assert (i < List.length T0)%nat as Hi by (apply nth_error_Some; congruence).
    destruct p as [P|], d as [D|]; cbn [the_p the_d].
    - pose proof (gs_p _ _ _ G P eq_refl) as HP. pose proof (gs_d _ _ _ G D eq_refl) as HD.
      destruct (nth_error P i) as [pf|] eqn:Pi; [|apply nth_error_None in Pi; lia].
      destruct (nth_error D i) as [df|] eqn:Di; [|apply nth_error_None in Di; lia].
      exists pf, df. repeat split; auto. intros P0 D0 -> ->.
      rewrite (gs_both _ _ _ G P D eq_refl eq_refl) in Ht0.
      apply nth_map2 in Ht0. destruct Ht0 as (a & b & Ha & Hb & Hab).
      rewrite Pi in Ha. rewrite Di in Hb. injection Ha as <-. injection Hb as <-.
      cbn in Hab. destruct (Req_EM_T (R1000 * D0) 0) as [|Hn]; [discriminate|].
      injection Hab as ->. field. split; [|lra]. intros ->. apply Hn. ring.
    - pose proof (gs_p _ _ _ G P eq_refl) as HP.
      destruct (nth_error P i) as [pf|] eqn:Pi; [|apply nth_error_None in Pi; lia].
      exists pf, (fdiv pf (fmul (Some R1000) (Some t))). split; [reflexivity|].
      split. { apply nth_map2. eauto. }
      intros P0 D0 -> HD0. cbn in HD0.
      assert (R1000 * t <> 0) by (apply Rgt_not_eq, Rmult_lt_0_compat; lra).
      destruct (Req_EM_T (R1000 * t) 0); [contradiction|].
      injection HD0 as <-. field. split; lra.
    - pose proof (gs_d _ _ _ G D eq_refl) as HD.
      destruct (nth_error D i) as [df|] eqn:Di; [|apply nth_error_None in Di; lia].
      exists (fmul (fmul df (Some R1000)) (Some t)), df.
      split. { apply nth_map2. eauto. }
      split; [reflexivity|]. intros P0 D0 HP0 ->. cbn in HP0. now injection HP0 as <-.
    - destruct (gs_one _ _ _ G); congruence.
  Qed.
End State.

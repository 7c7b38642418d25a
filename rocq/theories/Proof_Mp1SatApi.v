(* The saturation methods es, hs, ss, ds against calls with T and quality 0 or 1 (C48). *)
From Coq Require Import Reals ZArith List String Bool Lia Lra.
From Verif Require Import Base Model_Num Model_Units Model_Defaults Model_Igas Spec_Units Proof_Units Spec_Igas Proof_Igas
  Proof_IgasUnits Proof_IgasArgs Proof_IgasCalls Proof_IgasArr Proof_IgasAcc.
From Verif Require Import Model_Mp1Calls Spec_Mp1 Spec_Mp1Calls Proof_Mp1Units Proof_Mp1Poly Proof_Mp1Sat Proof_Mp1Args Proof_Mp1Calls
  Proof_Mp1Mix.
Import ListNotations.
Local Open Scope R_scope.
Local Open Scope string_scope.
Local Open Scope list_scope.

Section Sat.
  Variables (D : mpdata) (E : env) (fuel : nat) (z : sizes).
  Hypothesis Z : mp_sizes D E z.
  Local Notation kg := (kgs D (z_kM z)).
  Local Notation gT := (gT (z_T z)).
  Let kVp : 0 < z_kV z := kV_pos _ _ _ _ _ _ _ _ Z.
  Let kEp : 0 < z_kE z := kE_pos _ _ _ _ _ _ _ _ Z.
  Let kTp : 0 < z_kT z := kT_pos _ _ _ _ _ _ _ _ Z.
  Let kgp : 0 < kg := kgs_pos _ _ _ _ _ _ _ _ Z.

  Lemma sat_argparse_T a l : sat_argparse D E (Some a) None = Ok l ->
    l = map (fun T => (T, mp_dsl D T, mp_dsv D T)) (gT a) /\
    forall T, In (Some T) (gT a) -> mp_Tt D <= T <= mp_Tc D.
  Proof.
    unfold sat_argparse. cbn [bind]. rewrite (atscale_to _ _ _ _ _ _ _ _ Z). cbn [bind]. fold (gT a).
    destruct (outside_sat (mp_Tt D) (mp_Tc D) (gT a)) eqn:O; cbn [bind]; [discriminate|].
    intro H. injection H as <-. split; [reflexivity|]. intros T HT.
    unfold outside_sat in O. apply orb_false_elim in O. destruct O as [O1 O2].
    split.
    - destruct (Rle_dec (mp_Tt D) T) as [|N]; [assumption|exfalso].
      enough (existsb (fun x => flt x (num (mp_Tt D))) (gT a) = true) by congruence.
      apply existsb_exists. eexists. split; [exact HT|]. apply flt_true. lra.
    - destruct (Rle_dec T (mp_Tc D)) as [|N]; [assumption|exfalso].
      enough (existsb (fun x => flt (num (mp_Tc D)) x) (gT a) = true) by congruence.
      apply existsb_exists. eexists. split; [exact HT|]. apply flt_true. lra.
  Qed.

  Definition sat_point (q : R) (T : fl) : point :=
    {| s_T := T; s_d1 := mp_dsl D T; s_d2 := mp_dsv D T; s_x := Some q; s_sat := true |}.

  Lemma combine_repeat {A B} (l : list A) (y : B) n : List.length l = n -> combine l (repeat y n) = map (fun x => (x, y)) l.
  Proof. intros <-. induction l as [|a l IH]; cbn; [reflexivity|]. now rewrite IH. Qed.
  Lemma broadcast2_scalar (a : arr) y : a <> [] -> broadcast2 a [y] = Ok (map (fun x => (x, y)) a).
  Proof.
    intro H. unfold broadcast2, broadcast.
    destruct (Nat.eqb_spec (List.length a) (List.length [y])) as [Q|Q].
    - cbn [bind]. f_equal. rewrite <- (combine_repeat a y 1) by exact Q. reflexivity.
    - destruct a as [|x [|x2 a]]; [contradiction|cbn in Q; congruence|]. cbn [bind]. f_equal.
      apply combine_repeat. reflexivity.
  Qed.

  Lemma from_Tx_ok (l : list (fl * fl)) : existsb (fun e => flt (num (mp_Tc D)) (fst e)) l = false ->
    existsb (fun e => flt (snd e) (num 0)) l = false ->
    from_Tx D l = Ok (map (fun e => {| s_T := fst e; s_d1 := mp_dsl D (fst e); s_d2 := mp_dsv D (fst e); s_x := snd e;
                            s_sat := true |}) l).
  Proof. intros B1 B2. unfold from_Tx. rewrite B1, B2. reflexivity. Qed.

  Lemma argparse_sat a q : a <> [] -> 0 <= q <= 1 -> (forall T, In (Some T) (gT a) -> mp_Tt D <= T <= mp_Tc D) ->
    fst (mp_Tlim D) <= mp_Tt D -> mp_Tc D <= snd (mp_Tlim D) ->
    mp_argparse D E fuel [] [("T", a); ("x", [Some q])] = Ok (map (sat_point q) (gT a)).
  Proof.
    intros Hne Hq HT H1 H2.
    change (mp_argparse D E fuel [] [("T", a); ("x", [Some q])])
      with (do x <- si_args D E [("T", a); ("x", [Some q])]; from_args D E fuel x).
    rewrite (si_args_val _ _ _ _ _ _ _ _ Z). cbn [dget String.eqb Ascii.eqb Bool.eqb ores bind option_map]. fold (gT a).
    assert (O : forall x, In x (gT a) -> (flt x (num (fst (mp_Tlim D))) || flt (num (snd (mp_Tlim D))) x)%bool = false).
    { intros [T|] Hx; [|reflexivity]. specialize (HT T Hx). unfold num. rewrite !flt_false by lra. reflexivity. }
    assert (Nn : gT a <> []) by (destruct a; [contradiction|discriminate]).
    assert (L : limited E (mp_Tlim D) (gT a) = Ok (gT a)).
    { unfold limited. destruct (forallb _ (gT a)) eqn:F.
      - exfalso. destruct (gT a) as [|x r]; [contradiction|]. cbn [forallb] in F. rewrite (O x) in F by (now left). discriminate.
      - f_equal. rewrite <- (map_id (gT a)) at 2. apply map_ext_in. intros x Hx. rewrite (O x Hx). reflexivity. }
    rewrite L. cbn [bind]. unfold gX. cbn [existsb]. unfold num. rewrite !flt_false by lra. cbn [orb bind].
    unfold from_args. cbn [a_inv a_T a_p a_d a_x]. rewrite (broadcast2_scalar _ _ Nn). cbn [bind].
    assert (B1 : existsb (fun e : fl * fl => flt (num (mp_Tc D)) (fst e)) (map (fun x => (x, Some q)) (gT a)) = false).
    { apply Proof_Iter.existsb_false. apply Forall_forall. intros e He. apply in_map_iff in He. destruct He as ([T|] & <- & Hx); [|reflexivity].
      cbn [fst]. apply flt_false. apply HT. exact Hx. }
    assert (B2 : existsb (fun e : fl * fl => flt (snd e) (num 0)) (map (fun x => (x, Some q)) (gT a)) = false).
    { apply Proof_Iter.existsb_false. apply Forall_forall. intros e He. apply in_map_iff in He. destruct He as (T & <- & Hx).
      cbn [snd]. apply flt_false. lra. }
    etransitivity; [exact (from_Tx_ok _ B1 B2)|]. rewrite map_map. reflexivity.
  Qed.

  Lemma filter_sat q l : filter s_sat (map (sat_point q) l) = map (sat_point q) l.
  Proof. induction l as [|a l IH]; cbn; [reflexivity|]. now rewrite IH. Qed.

  (* a property method and the corresponding saturation method *)
  Definition pairs : list (mp_call * (option arr -> option arr -> res (arr * arr))) :=
    [(mm_e D E fuel, mm_es D E); (mm_h D E fuel, mm_hs D E); (mm_s D E fuel, mm_ss D E)].

  Lemma pair_val m ms : In (m, ms) pairs -> exists F c, In F (routines D) /\
    (forall varg kw, m varg kw = do l <- mp_argparse D E fuel varg kw;
                  Ok (map (fmul (Some c)) (map (mixed_at F l) l), map s_x l)) /\
    (forall T p, ms T p = do l <- sat_argparse D E T p; Ok (scaled c (fst (sat_values F l)), scaled c (snd (sat_values F l)))).
  Proof.
    intros [H|[H|[H|[]]]]; injection H as <- <-.
    - exists (mp_e D), (kg / z_kE z). split; [cbn; tauto|]. split.
      + intros varg kw. unfold mm_e, method.
        destruct (mp_argparse _ _ _ _ _); [|reflexivity]. cbn [bind]. rewrite (out_energy_val _ _ _ _ _ _ _ _ Z). reflexivity.
      + intros T p. unfold mm_es, sat_energy. destruct (sat_argparse D E T p); cbn [bind]; [|reflexivity].
        rewrite (energy_c _ _ _ _ _ _ _ _ Z). cbn [bind]. rewrite (matter_c _ _ _ _ _ _ _ _ Z). cbn [bind].
        replace (/ z_kE z * kg) with (kg / z_kE z) by (unfold Rdiv; ring). reflexivity.
    - exists (mp_h D), (kg / z_kE z). split; [cbn; tauto|]. split.
      + intros varg kw. unfold mm_h, method.
        destruct (mp_argparse _ _ _ _ _); [|reflexivity]. cbn [bind]. rewrite (out_energy_val _ _ _ _ _ _ _ _ Z). reflexivity.
      + intros T p. unfold mm_hs, sat_energy. destruct (sat_argparse D E T p); cbn [bind]; [|reflexivity].
        rewrite (energy_c _ _ _ _ _ _ _ _ Z). cbn [bind]. rewrite (matter_c _ _ _ _ _ _ _ _ Z). cbn [bind].
        replace (/ z_kE z * kg) with (kg / z_kE z) by (unfold Rdiv; ring). reflexivity.
    - exists (mp_s D), (kg / z_kE z * (z_kT z / (9/5))). split; [cbn; tauto|]. split.
      + intros varg kw. unfold mm_s, method.
        destruct (mp_argparse _ _ _ _ _); [|reflexivity]. cbn [bind]. rewrite (out_heat_val _ _ _ _ _ _ _ _ Z). reflexivity.
      + intros T p. unfold mm_ss. destruct (sat_argparse D E T p); cbn [bind]; [|reflexivity].
        rewrite (energy_c _ _ _ _ _ _ _ _ Z). cbn [bind]. rewrite (matter_c _ _ _ _ _ _ _ _ Z). cbn [bind].
        rewrite (temp_c _ _ _ _ _ _ _ _ Z). cbn [bind].
        replace (/ z_kE z * kg * (z_kT z / (9 / 5))) with (kg / z_kE z * (z_kT z / (9/5))) by (unfold Rdiv; ring). reflexivity.
  Qed.

  Theorem saturated_phases m ms a yl yv : In (m, ms) pairs -> a <> [] ->
    fst (mp_Tlim D) <= mp_Tt D -> mp_Tc D <= snd (mp_Tlim D) -> ms (Some a) None = Ok (yl, yv) ->
    exists y0 x0 y1 x1, m [] [("T", a); ("x", [Some 0])] = Ok (y0, x0) /\ m [] [("T", a); ("x", [Some 1])] = Ok (y1, x1) /\
      List.length yl = List.length a /\ List.length yv = List.length a /\
      forall i rl rv, nth_error yl i = Some (Some rl) -> nth_error yv i = Some (Some rv) ->
        nth_error y0 i = Some (Some rl) /\ nth_error y1 i = Some (Some rv).
  Proof.
    intros Hm Hne H1 H2 Hs. destruct (pair_val m ms Hm) as (F & c & HF & V & VS).
    rewrite VS in Hs. destruct (sat_argparse D E (Some a) None) as [l|] eqn:S; cbn [bind] in Hs; [|discriminate].
    injection Hs as <- <-. destruct (sat_argparse_T a l S) as [-> HT].
    rewrite !V, (argparse_sat a 0 Hne ltac:(lra) HT H1 H2), (argparse_sat a 1 Hne ltac:(lra) HT H1 H2). cbn [bind].
    do 4 eexists. split; [reflexivity|]. split; [reflexivity|].
    unfold scaled, sat_values. cbn [fst snd]. rewrite !map_length.
    split; [unfold Proof_Mp1Units.gT; now rewrite map_length|]. split; [unfold Proof_Mp1Units.gT; now rewrite map_length|].
    intros i rl rv N1 N2.
    set (lT := gT a) in *. 
    rewrite !map_map in N1, N2. cbn [fst snd] in N1, N2.
    assert (LA : forall q, liquid_all (map (sat_point q) lT) = map (fun x => (x, mp_dsl D x)) lT).
    { intro q. unfold liquid_all. rewrite map_map. reflexivity. }
    assert (VA : forall q, vapor_sat (map (sat_point q) lT) = map (fun x => (x, mp_dsv D x)) lT).
    { intro q. unfold vapor_sat. rewrite filter_sat, map_map. reflexivity. }
    destruct (nth_error lT i) as [T|] eqn:NT.
    2:{ apply nth_error_None in NT. rewrite (proj2 (nth_error_None _ _)) in N1 by (rewrite map_length; exact NT). discriminate. }
    rewrite (nth_map_some _ _ _ _ NT) in N1. rewrite (nth_map_some _ _ _ _ NT) in N2. injection N1 as N1. injection N2 as N2.
    assert (Q : forall q, nth_error (map (fmul (Some c)) (map (mixed_at F (map (sat_point q) lT)) (map (sat_point q) lT))) i =
      Some (fmul (Some c) (mixed_at F (map (sat_point q) lT) (sat_point q T)))).
    { intro q. rewrite (nth_map_some _ _ _ _ (nth_map_some _ _ _ _ (nth_map_some _ _ _ _ NT))). reflexivity. }
    rewrite !Q. unfold mixed_at. cbn [s_sat sat_point s_T s_d1 s_d2 s_x]. rewrite !LA, !VA.
    match type of N1 with fmul ?u _ = _ => destruct u as [u1|]; [|discriminate] end.
    match type of N2 with fmul ?u _ = _ => destruct u as [u2|]; [|discriminate] end.
    cbn in N1, N2. injection N1 as <-. injection N2 as <-. cbn. split; do 2 f_equal; ring.
  Qed.

  Theorem saturated_densities a yl yv : a <> [] ->
    fst (mp_Tlim D) <= mp_Tt D -> mp_Tc D <= snd (mp_Tlim D) -> mm_ds D E (Some a) None = Ok (yl, yv) ->
    exists y0 x0 y1 x1, mm_d D E fuel [] [("T", a); ("x", [Some 0])] = Ok (y0, x0) /\
      mm_d D E fuel [] [("T", a); ("x", [Some 1])] = Ok (y1, x1) /\
      List.length yl = List.length a /\ List.length yv = List.length a /\
      forall i rl rv, nth_error yl i = Some (Some rl) -> nth_error yv i = Some (Some rv) -> rl <> 0 -> rv <> 0 ->
        nth_error y0 i = Some (Some rl) /\ nth_error y1 i = Some (Some rv).
  Proof.
    intros Hne H1 H2 Hs. unfold mm_ds in Hs. destruct (sat_argparse D E (Some a) None) as [l|] eqn:S; cbn [bind] in Hs; [|discriminate].
    rewrite (matter_c_pos _ _ _ _ _ _ _ _ Z) in Hs. cbn [bind] in Hs. rewrite (vol_c _ _ _ _ _ _ _ _ Z) in Hs. cbn [bind] in Hs.
    injection Hs as <- <-. destruct (sat_argparse_T a l S) as [-> HT].
    rewrite !(mm_d_val D E fuel _ _ _ _ _ _ Z), (argparse_sat a 0 Hne ltac:(lra) HT H1 H2), (argparse_sat a 1 Hne ltac:(lra) HT H1 H2). cbn [bind].
    do 4 eexists. split; [reflexivity|]. split; [reflexivity|].
    unfold scaled. rewrite !map_length.
    split; [unfold Proof_Mp1Units.gT; now rewrite map_length|]. split; [unfold Proof_Mp1Units.gT; now rewrite map_length|].
    intros i rl rv N1 N2 Z1 Z2. set (lT := gT a) in *.
    rewrite !map_map in N1, N2. cbn [fst snd] in N1, N2.
    destruct (nth_error lT i) as [T|] eqn:NT.
    2:{ apply nth_error_None in NT. rewrite (proj2 (nth_error_None _ _)) in N1 by (rewrite map_length; exact NT). discriminate. }
    rewrite (nth_map_some _ _ _ _ NT) in N1. rewrite (nth_map_some _ _ _ _ NT) in N2. injection N1 as N1. injection N2 as N2.
    assert (Q : forall q, nth_error (map (fmul (Some (z_kV z / kg))) (map mix_density (map (sat_point q) lT))) i =
      Some (fmul (Some (z_kV z / kg)) (mix_density (sat_point q T)))).
    { intro q. rewrite (nth_map_some _ _ _ _ (nth_map_some _ _ _ _ (nth_map_some _ _ _ _ NT))). reflexivity. }
    rewrite !Q. unfold mix_density, sat_point. cbn [s_sat s_T s_d1 s_d2 s_x].
    destruct (mp_dsl D T) as [u1|]; [|discriminate]. destruct (mp_dsv D T) as [u2|]; [|discriminate].
    cbn in N1, N2. injection N1 as <-. injection N2 as <-.
    assert (u1 <> 0) by (intros ->; apply Z1; ring). assert (u2 <> 0) by (intros ->; apply Z2; ring).
    unfold num, fsub, fadd. cbn [lift2]. rewrite !fdiv_ok by assumption. cbn [lift2].
    assert (/ u1 <> 0) by now apply Rinv_neq_0_compat. assert (/ u2 <> 0) by now apply Rinv_neq_0_compat.
    assert (A1 : (1 - 0) / u1 + 0 / u2 = / u1) by (field; auto).
    assert (A2 : (1 - 1) / u1 + 1 / u2 = / u2) by (field; auto).
    rewrite A1, A2. rewrite !fdiv_ok by assumption. unfold fmul. cbn [lift2]. 
    split; do 2 f_equal; field; repeat split; auto; lra.
  Qed.
End Sat.

(* The temperature from one of e, h, s and the pressure (C81). *)
From Coq Require Import Reals ZArith List String Bool Lia Lra.
From Verif Require Import Base Model_Num Model_Units Model_Defaults Model_Igas Spec_Units Proof_Units Spec_Igas Proof_Igas
  Proof_IgasUnits Proof_IgasArgs Proof_IgasCalls Proof_IgasArr Proof_IgasAcc Proof_Iter.
From Verif Require Import Proof_Jets Model_Hybrid Spec_Hybrid Proof_Hybrid.
From Verif Require Import Model_Mp1Calls Model_Mp1Warn Spec_Mp1 Spec_Mp1Calls Spec_Mp1Inv Spec_Mp1InvP Proof_Mp1Units Proof_Mp1Poly Proof_Mp1Helm Proof_Mp1Res
  Proof_Mp1Props Proof_Mp1Thm Proof_Mp1Sat Proof_Mp1Args Proof_Mp1Calls Proof_Mp1Mix Proof_Mp1SatApi Proof_Mp1Hsd Proof_Mp1Alone Proof_Mp1Inv Proof_Mp1InvT Proof_Mp1InvS
  Spec_Mp1Ts Proof_Mp1Ts.
Import ListNotations.
Local Open Scope R_scope.
Local Open Scope string_scope.
Local Open Scope list_scope.

(* the value an element starts with does not matter *)
Section Start.
  Variables (ep : R) (fn : xf -> xf * xf) (y : xf) (sw : bool).
  Lemma hloop_start n a b c lo hi x x' :
    hloop (S n) true ep fn y sw {| h_a := a; h_b := b; h_c := c; h_min := lo; h_max := hi; h_x := x; h_sel := true |} =
    hloop (S n) true ep fn y sw {| h_a := a; h_b := b; h_c := c; h_min := lo; h_max := hi; h_x := x'; h_sel := true |}.
  Proof.
    cbn [hloop h_sel].
    assert (G : next_guess true {| h_a := a; h_b := b; h_c := c; h_min := lo; h_max := hi; h_x := x; h_sel := true |} =
                next_guess true {| h_a := a; h_b := b; h_c := c; h_min := lo; h_max := hi; h_x := x'; h_sel := true |}).
    { unfold next_guess. cbn [h_a h_b h_c h_min h_max h_x]. destruct (xlt a b), (xlt b c), (xlt c a); reflexivity. }
    unfold hstep. rewrite G. reflexivity.
  Qed.
End Start.
Lemma solve_start ep N f y x x' sel lo hi :
  solve_elem true ep N {| e_fn := f; e_y := y; e_x := x; e_sel := sel; e_min := lo; e_max := hi |} =
  solve_elem true ep N {| e_fn := f; e_y := y; e_x := x'; e_sel := sel; e_min := lo; e_max := hi |}.
Proof.
  unfold solve_elem, hstart. cbn [e_fn e_y e_min e_max e_x]. destruct (f lo), (f hi). cbn [fst snd]. apply hloop_start.
Qed.
Lemma bracketed_start f y x x' sel lo hi :
  not_bracketed {| e_fn := f; e_y := y; e_x := x; e_sel := sel; e_min := lo; e_max := hi |} =
  not_bracketed {| e_fn := f; e_y := y; e_x := x'; e_sel := sel; e_min := lo; e_max := hi |}.
Proof. unfold not_bracketed, hstart. cbn [e_fn e_y e_min e_max]. destruct (f lo), (f hi). reflexivity. Qed.

Section HP.
  Variables (D : mpdata) (E : env) (fuel : nat) (z : sizes).
  Hypothesis Z : mp_sizes D E z.
  Hypothesis WF : mp_wf D.
  Hypothesis ET : ao_Tscale (mp_AO D) = ar_Tscale (mp_AR D).
  Local Notation kg := (kgs D (z_kM z)).
  Let kVp : 0 < z_kV z := kV_pos _ _ _ _ _ _ _ _ Z.
  Let kgp : 0 < kg := kgs_pos _ _ _ _ _ _ _ _ Z.

  (* the density of one element of an array is the one found for the element alone *)
  Lemma mp_d_elem l ds i T p u v d : mp_d D (e_oob E) fuel l = Ok ds -> nth_error l i = Some (true, T, p, u) ->
    mp_d D (e_oob E) fuel [(true, T, p, v)] = Ok [d] -> nth_error ds i = Some d.
  Proof.
    unfold mp_d. destruct (traverse (d_elem D fuel) l) as [es|] eqn:TR; [|discriminate]. cbn [bind traverse].
    intros H Nl H1. destruct (traverse_nth _ _ _ _ _ TR Nl) as (e & Fe & Ne). unfold d_elem in Fe, H1.
    destruct (d_limits D T p) as [da db]. destruct (d_lower D fuel T p da) as [da'|]; [|discriminate]. cbn [bind] in Fe, H1.
    injection Fe as <-. unfold hybrid1 in H, H1. cbn [existsb forallb e_sel negb orb andb map fst] in H1.
    rewrite (bracketed_start _ _ (xf_of v) (xf_of u)), (solve_start _ _ _ _ (xf_of v) (xf_of u)) in H1.
    destruct (existsb e_sel es && _)%bool; [discriminate|]. cbn [bind fst] in H. injection H as <-.
    match goal with |- nth_error (map fl_of (map ?f es)) i = _ => pose proof (nth_map_some fl_of _ _ _ (nth_map_some f _ _ _ Ne)) as N2 end.
    cbn [e_sel] in N2. rewrite N2.
    destruct (not_bracketed _); [discriminate|]. cbn [bind fst map] in H1. injection H1 as <-. reflexivity.
  Qed.
  Lemma mp_d_length l ds : mp_d D (e_oob E) fuel l = Ok ds -> List.length ds = List.length l.
  Proof.
    unfold mp_d. destruct (traverse (d_elem D fuel) l) as [es|] eqn:TR; [|discriminate]. cbn [bind]. unfold hybrid1.
    destruct (existsb e_sel es && _)%bool; [discriminate|]. cbn [bind fst]. intro H. injection H as <-. rewrite !map_length.
    clear -TR. revert es TR. induction l as [|a l IH]; cbn [traverse]; intros es TR; [injection TR as <-; reflexivity|].
    destruct (d_elem D fuel a); [|discriminate]. cbn [bind] in TR. destruct (traverse (d_elem D fuel) l) as [es'|]; [|discriminate].
    injection TR as <-. cbn. f_equal. now apply IH.
  Qed.

  (* the call with T and p alone *)
  Lemma one_state t T q p r x : kelvin_is E t T -> pressure_is z q p -> in_range (mp_Tlim D) T -> in_range (mp_plim D) p ->
    mm_d D E fuel [] [("T", [Some t]); ("p", [Some q])] = Ok ([r], [x]) ->
    exists d, mp_d D (e_oob E) fuel [(true, Some T, Some p, num 0)] = Ok [d] /\ r = fmul (Some (z_kV z / kg)) d /\ x = Some (-1) /\
      mp_argparse D E fuel [] [("T", [Some t]); ("p", [Some q])] = Ok [single (Some T) d].
  Proof.
    intros Kt Kp HT Hp H. rewrite (mm_d_val D E fuel _ _ _ _ _ _ Z), (proj1 (argparse_Tp1 D E fuel z Z t T q p Kt Kp HT Hp)) in H.
    rewrite (proj1 (argparse_Tp1 D E fuel z Z t T q p Kt Kp HT Hp)).
    unfold from_Tpx in *. cbn [map] in *. replace (flt (Some (-1)) (num 0)) with true in * by (unfold num; now rewrite flt_true by lra).
    destruct (mp_d D (e_oob E) fuel _) as [ds|] eqn:Q; [|discriminate].
    pose proof (mp_d_length _ _ Q) as L. destruct ds as [|d [|? ?]]; try discriminate. cbn [bind map2 combine map fst snd] in *.
    replace (flt (Some (-1)) (num 0)) with true in * by (unfold num; now rewrite flt_true by lra).
    injection H as <- <-. exists d. repeat split; reflexivity.
  Qed.

  Lemma argparse_hp n m F c varg kw i y q p : state_pair varg kw i n y "p" q -> pressure_is z q p -> in_range (mp_plim D) p ->
    (n <> "T" /\ n <> "p" /\ n <> "d" /\ n <> "v" /\ n <> "x" /\
    (forall s a, dget n s = Some a -> (forall k, In k ["e"; "h"; "s"] -> k <> n -> dget k s = None) ->
       match dget "h" s, dget "e" s, dget "s" s with
       | Some v, _, _ => Some (in_h D, gH D (z_kE z) (z_kM z) v)
       | None, Some v, _ => Some (in_e D, gH D (z_kE z) (z_kM z) v)
       | None, None, Some v => Some (in_s D, gS D (z_kT z) (z_kE z) (z_kM z) v)
       | None, None, None => None
       end = Some (alone F, map (fmul (Some (/ c))) a))) -> In (n, m) (searched D E fuel) ->
    exists l, nth_error l i = Some (Some (/ c * y), Some p) /\ mp_argparse D E fuel varg kw = from_hp D E fuel (alone F) l /\
      call_warns D E fuel varg kw = hp_warns D E fuel (alone F) l.
  Proof.
    intros S Kp Hp (N1 & N2 & N3 & N4 & N5 & HI) Hn.
    destruct (pair_args D E fuel _ _ _ _ _ _ _ S) as (a & b & Ea & Eb & Ga & Gb & A & Hc & Hi & -> & ->).
    rewrite (si_args_val _ _ _ _ _ _ _ _ Z).
    rewrite (A "T"), (A "x"), (A "v"), (A "d"), Gb by (try discriminate; now apply not_eq_sym).
    cbn [ores bind]. unfold pressure_is in Kp.
    destruct (elem_nth_in b i _ Eb) as [k Ek].
    destruct (limited_ok E (mp_plim D) (gP (z_kP z) b) k p) as [LP LP2];
      [unfold gP; rewrite (nth_map_some (fmul (Some (z_kP z))) _ _ _ Ek); cbn; do 2 f_equal; rewrite <- Kp; ring|exact Hp|].
    rewrite LP. cbn [bind option_map].
    assert (IV := HI _ a Ga ltac:(intros k0 Hq Hq2; apply A; [exact Hq2|]; cbn in Hq; intuition congruence)).
    match goal with |- context [{| a_T := _; a_p := _; a_d := _; a_x := _; a_inv := ?m2 |}] =>
      replace m2 with (Some (alone F, map (fmul (Some (/ c))) a)) by (symmetry; exact IV) end.
    unfold from_args, args_warns. cbn [a_inv a_T a_p a_d a_x]. unfold gP. rewrite map_map.
    match goal with |- context [broadcast2 _ (map ?g b)] =>
      destruct (broadcast2_at (fmul (Some (/ c))) g a b i (Some y) (Some q) Ea Eb Hc Hi) as (l & BL & NL) end.
    rewrite BL. cbn [bind]. exists l. split; [|split; reflexivity].
    cbn [fmul lift2] in NL. replace (z_kP z * q) with p in NL by (rewrite <- Kp; ring). rewrite LP2 in NL. exact NL.
  Qed.

  (* the saturation temperature of one element is the one Ts() reports for it alone *)
  Lemma Ts_same q p Ts ps i l w : 0 < mp_Tt D < mp_Tc D -> pressure_is z q p -> mp_pt D <= p <= mp_pc D -> boils_at D E q Ts ->
    iter_loop ep_default (mp_Tt D * (99/100)) (mp_Tc D) 20 20 (map (Ts_cell D) ps) = Ok (l, w) ->
    nth_error ps i = Some (true, Some p) -> exists c, nth_error l i = Some c /\ c_x c = Some Ts.
  Proof.
    intros HT0 Kp Hp (t & HTs & Kt) H Np.
    assert (CALM : forall ps, Forall (calm (mp_Tt D * (99/100)) (mp_Tc D)) (map (Ts_cell D) ps)).
    { intro ps0. apply Forall_forall. intros c Hc. apply in_map_iff in Hc. destruct Hc as ([sel q0] & <- & _). intros _.
      apply outside_false. cbn. lra. }
    apply iter_pointwise in H; [|apply CALM]. destruct H as (rs & F & -> & ->).
    pose proof (nth_map_some (Ts_cell D) _ _ _ Np) as Nc.
    destruct (Forall2_nth_some _ _ _ F _ _ Nc) as (r & Nr & S). exists (fst r). split; [exact (nth_map_some fst _ _ _ Nr)|].
    assert (W : exists w, Ts_call_warns D E [Some q] = Ok w) by (apply (proj2 (proj2 (Ts_range D E z Z [Some q])) _ HTs)).
    destruct W as (w & W). destruct (Ts_split D E z Z _ _ _ HTs W) as (_ & l & L & Q).
    unfold solo_iter in S. unfold pressure_is in Kp.
    assert (L2 : iter_loop ep_default (mp_Tt D * (99 / 100)) (mp_Tc D) 20 20 [Ts_cell D (true, Some p)] = Ok (l, w)).
    { rewrite <- L. replace p with (z_kP z * q) by (rewrite <- Kp; ring). reflexivity. }
    rewrite S in L2. injection L2 as <- _. cbn [map] in Q. injection Q as Q. destruct (c_x (fst r)) as [u|]; [|discriminate].
    cbn [lift1] in Q. injection Q as Q. f_equal. apply (tscale_K _ _ _ _ _ _ _ _ Z) in Kt. rewrite Kt, Q. now rewrite to_from_kelvin.
  Qed.

  (* what a call computes *)
  Record hp_run (F : list (fl * fl) -> inner) (l : list (fl * fl)) (la : list point) (w : bool) : Type := {
    r_ts : list fl; r_plans : list hp_plan; r_qs : list xf; r_ds : arr; r_w1 : bool; r_w2 : bool; r_cells : list cell;
    r_Ts : iter_loop ep_default (mp_Tt D * (99/100)) (mp_Tc D) 20 20
      (map (Ts_cell D) (map (fun e => (negb (fle (num (mp_pc D)) (snd e) || fle (snd e) (num (mp_pt D))), snd e)) l)) = Ok (r_cells, r_w1);
    r_tsv : r_ts = map c_x r_cells;
    r_pl : r_plans = map2 (fun e t => plan_hp D (alone F) (fst e) (snd e) t) l r_ts;
    r_hy : hybrid1 true ep1 50 (xf_of (e_oob E)) (map2 (fun e pl => hp_elem D E fuel (alone F) (fst e) (snd e) pl) l r_plans) = Ok (r_qs, r_w2);
    r_d : mp_d D (e_oob E) fuel (map2 (fun (e : fl * fl) (tp : fl * hp_plan) => (negb (hp_sat (snd tp)), fst tp, snd e, @None R)) l (combine (map fl_of r_qs) r_plans)) = Ok r_ds;
    r_la : la = map2 (fun tp d => let '(T, pl) := tp in
      if hp_sat pl then {| s_T := T; s_d1 := hp_d1 pl; s_d2 := hp_d2 pl; s_x := hp_x pl; s_sat := true |}
      else single T d) (combine (map fl_of r_qs) r_plans) r_ds;
    r_w : w = false -> r_w1 = false /\ r_w2 = false }.
  Lemma run_hp F l la w : from_hp D E fuel (alone F) l = Ok la -> hp_warns D E fuel (alone F) l = Ok w -> hp_run F l la w.
  Proof.
    unfold from_hp, hp_warns, mp_Ts, Ts_warns. destruct (iter_loop _ _ _ _ _ _) as [[cs w1]|] eqn:L; cbn [bind fst snd]; [|discriminate].
    destruct (hybrid1 _ _ _ _ _) as [[qs w2]|] eqn:HY; cbn [bind fst snd]; [|discriminate].
    destruct (mp_d _ _ _ _) as [ds|] eqn:Hd; cbn [bind]; [|discriminate].
    intros H1 H2. destruct (d_warns _ _ _ _) as [w3|]; cbn [bind] in H2; [|discriminate]. injection H1 as <-. injection H2 as <-.
    econstructor; try reflexivity; try eassumption. intro Q. destruct w1, w2; cbn in Q; try discriminate; auto.
  Qed.
  Lemma warns_total F l la : from_hp D E fuel (alone F) l = Ok la -> exists w, hp_warns D E fuel (alone F) l = Ok w.
  Proof.
    unfold from_hp, hp_warns, mp_Ts, Ts_warns. destruct (iter_loop _ _ _ _ _ _) as [[cs w1]|] eqn:L; cbn [bind fst snd]; [|discriminate].
    destruct (hybrid1 _ _ _ _ _) as [[qs w2]|] eqn:HY; cbn [bind fst snd]; [|discriminate].
    unfold mp_d, d_warns. destruct (traverse _ _) as [es|]; cbn [bind]; [|discriminate]. destruct (hybrid1 _ _ _ _ es); cbn [bind]; [|discriminate]. intros _. eexists. reflexivity.
  Qed.
  (* the parts of it for one element *)
  Lemma run_at F l la w (r : hp_run F l la w) i v p : nth_error l i = Some (Some v, Some p) ->
    exists c q d, nth_error (r_cells _ _ _ _ r) i = Some c /\
      nth_error (map2 (fun e pl => hp_elem D E fuel (alone F) (fst e) (snd e) pl) l (r_plans _ _ _ _ r)) i =
        Some (hp_elem D E fuel (alone F) (Some v) (Some p) (plan_hp D (alone F) (Some v) (Some p) (c_x c))) /\
      nth_error (r_qs _ _ _ _ r) i = Some q /\
      nth_error (map2 (fun (e : fl * fl) (tp : fl * hp_plan) => (negb (hp_sat (snd tp)), fst tp, snd e, @None R)) l (combine (map fl_of (r_qs _ _ _ _ r)) (r_plans _ _ _ _ r))) i =
        Some (negb (hp_sat (plan_hp D (alone F) (Some v) (Some p) (c_x c))), fl_of q, Some p, None) /\
      nth_error (r_ds _ _ _ _ r) i = Some d /\
      nth_error la i = Some (let pl := plan_hp D (alone F) (Some v) (Some p) (c_x c) in
        if hp_sat pl then {| s_T := fl_of q; s_d1 := hp_d1 pl; s_d2 := hp_d2 pl; s_x := hp_x pl; s_sat := true |} else single (fl_of q) d).
  Proof.
    intro Nl. destruct r as [ts plans qs ds w1 w2 cs L -> PL HY Hd LA HW]. cbn.
    assert (Hi : (i < List.length l)%nat) by (apply nth_error_Some; congruence).
    pose proof (iter_length _ _ _ _ _ _ _ _ L) as LC. rewrite !map_length in LC.
    destruct (nth_error cs i) as [c|] eqn:Nc; [|exfalso; apply nth_error_None in Nc; lia].
    assert (NP : nth_error plans i = Some (plan_hp D (alone F) (Some v) (Some p) (c_x c))).
    { rewrite PL. unfold map2. rewrite (nth_map_some _ _ _ _ (nth_combine _ _ _ _ _ Nl (nth_map_some c_x _ _ _ Nc))). reflexivity. }
    assert (NE : nth_error (map2 (fun e pl => hp_elem D E fuel (alone F) (fst e) (snd e) pl) l plans) i =
        Some (hp_elem D E fuel (alone F) (Some v) (Some p) (plan_hp D (alone F) (Some v) (Some p) (c_x c)))).
    { unfold map2. rewrite (nth_map_some _ _ _ _ (nth_combine _ _ _ _ _ Nl NP)). reflexivity. }
    assert (LQ : exists q, nth_error qs i = Some q).
    { destruct (nth_error qs i) as [q|] eqn:Q; [eauto|]. exfalso. apply nth_error_None in Q.
      unfold hybrid1 in HY. destruct (existsb e_sel _ && _)%bool; [discriminate|]. injection HY as HY _. rewrite <- HY, map_length in Q.
      assert (i < List.length (map2 (fun e pl => hp_elem D E fuel (alone F) (fst e) (snd e) pl) l plans))%nat by (apply nth_error_Some; congruence). lia. }
    destruct LQ as (q & Nq).
    pose proof (nth_combine _ _ _ _ _ (nth_map_some fl_of _ _ _ Nq) NP) as NC2.
    assert (ND : nth_error (map2 (fun (e : fl * fl) (tp : fl * hp_plan) => (negb (hp_sat (snd tp)), fst tp, snd e, @None R)) l (combine (map fl_of qs) plans)) i =
        Some (negb (hp_sat (plan_hp D (alone F) (Some v) (Some p) (c_x c))), fl_of q, Some p, None)).
    { unfold map2. rewrite (nth_map_some _ _ _ _ (nth_combine _ _ _ _ _ Nl NC2)). reflexivity. }
    pose proof (mp_d_length _ _ Hd) as LD.
    assert (Hi2 : (i < List.length ds)%nat) by (rewrite LD; apply nth_error_Some; intro X; discriminate (eq_trans (eq_sym ND) X)).
    destruct (nth_error ds i) as [d|] eqn:Nd; [|exfalso; apply nth_error_None in Nd; lia].
    exists c, q, d. split; [reflexivity|]. split; [exact NE|]. split; [exact Nq|]. split; [exact ND|]. split; [reflexivity|].
    rewrite LA. unfold map2. rewrite (nth_map_some _ _ _ _ (nth_combine _ _ _ _ _ NC2 Nd)). cbn. reflexivity.
  Qed.

  Section AtF.
  Variable F : list (fl * fl) -> inner.
  Hypothesis RF : regular D F.
  Lemma alone_val T d w : 0 < T -> 0 < d -> evaluable D T d -> at_state F T d w -> value0 (alone F (Some T) (Some d) 0%nat) = Some w.
  Proof. intros HT Hd EV G. exact (proj1 (value_at D F T RF HT _ d w Hd EV G (fits_one _ _ _))). Qed.
  Lemma plan_go q p v lo hi Tsat : temperature_limits D E F q p v lo hi ->
    (forall Ts, mp_pt D < p < mp_pc D -> boils_at D E q Ts -> Tsat = Some Ts) ->
    plan_hp D (alone F) (Some v) (Some p) Tsat =
      {| hp_Ta := Some lo; hp_Tb := Some hi; hp_T := None; hp_sat := false; hp_d1 := None; hp_d2 := None; hp_x := num (-1) |}.
  Proof.
    intros H HS. unfold plan_hp, num. destruct H as [(H & -> & ->)|(H & Ts & vL & vV & B & (dL & dV & (W1 & W2 & S1 & S2 & EL & EV) & HL & HV & EVL & EVV & GL & GV) & HH)].
    - assert (fle (Some (mp_pc D)) (Some p) || fle (Some p) (Some (mp_pt D)) = true)%bool as ->.
      { destruct H as [H|H]; [rewrite fle_true by exact H|rewrite (fle_true p) by exact H]; rewrite ?orb_true_r; reflexivity. }
      reflexivity.
    - rewrite (HS Ts H B). rewrite !fle_false by lra. cbn [orb].
      assert (HT : 0 < Ts) by (apply S1).
      assert (ML : mp_dsl D (Some Ts) = Some dL) by (unfold mp_dsl; now rewrite (sat_curve_value _ _ W1 S1), EL).
      assert (MV : mp_dsv D (Some Ts) = Some dV) by (unfold mp_dsv; now rewrite (sat_curve_value _ _ W2 S2), EV).
      rewrite ML, MV. rewrite (alone_val _ _ _ HT HL EVL GL), (alone_val _ _ _ HT HV EVV GV).
      destruct HH as [(H1 & -> & ->)|(H0 & H1 & -> & ->)].
      + rewrite (fle_false v vV) by exact H1. cbn [andb]. rewrite flt_true by exact H1. reflexivity.
      + rewrite (fle_false vL v) by exact H1. rewrite andb_false_r. rewrite flt_false by exact H0. rewrite flt_true by exact H1. reflexivity.
  Qed.
  End AtF.

  Theorem T_from_pressure n m F : In (n, m) (searched D E fuel) -> In (n, F) (searched_eos D) -> forall varg kw i y v q p ts xs,
    state_pair varg kw i n y "p" q -> property_is D z n y v -> pressure_is z q p -> in_range (mp_plim D) p -> 0 < mp_Tt D < mp_Tc D ->
    mm_T D E fuel varg kw = Ok (ts, xs) -> evaluated_alone D xs -> call_warns D E fuel varg kw = Ok false ->
    forall lo hi, temperature_limits D E F q p v lo hi -> in_range (mp_Tlim D) lo -> in_range (mp_Tlim D) hi -> 0 < lo <= hi ->
    forall Y, (forall t T, kelvin_is E t T -> lo <= T <= hi -> exists r d x,
       mm_d D E fuel [] [("T", [Some t]); ("p", [Some q])] = Ok ([Some r], [x]) /\ density_is D z r d /\ 0 < d /\ evaluable D T d /\ compressible D T d /\
       m [] [("T", [Some t]); ("p", [Some q])] = Ok ([Some (Y T)], [x])) ->
    Y lo <> y -> Y hi <> y ->
    nth_error xs i = Some (Some (-1)) /\
    (bracketed Y lo hi y -> exists t T, nth_error ts i = Some (Some t) /\ kelvin_is E t T /\ solves Y lo hi y (1 / 1000000) T /\
       (exists ys, m varg kw = Ok (ys, xs) /\ nth_error ys i = Some (Some (Y T))) /\
       (exists ds r x, mm_d D E fuel varg kw = Ok (ds, xs) /\ nth_error ds i = Some (Some r) /\
          mm_d D E fuel [] [("T", [Some t]); ("p", [Some q])] = Ok ([Some r], [x])) /\
       (exists ps q' x, mm_p D E fuel varg kw = Ok (ps, xs) /\ nth_error ps i = Some (Some q') /\
          mm_p D E fuel [] [("T", [Some t]); ("p", [Some q])] = Ok ([Some q'], [x]))) /\
    (~ bracketed Y lo hi y -> e_oob E = None -> nth_error ts i = Some None).
  Proof.
    intros Hm HF varg kw i y v q p ts xs S Py Kp Hp HT0 HT AL Hw lo hi HL Rlo Rhi Hlh Y HY Ya Yb.
    destruct (eos_val D E fuel z Z WF ET n m F Hm HF) as (c & RF & Hc & HM & PI & _ & HI).
    destruct (argparse_hp n m F c varg kw i y q p S Kp Hp HI Hm) as (l & Nl & A & W). rewrite W in Hw. clear W HI.
    apply PI in Py. rewrite <- Py in Nl.
    assert (kt : forall T, exists t, kelvin_is E t T /\ t = from_kelvin (z_T z) T).
    { intro T. exists (from_kelvin (z_T z) T). split; [|reflexivity]. apply (tscale_K _ _ _ _ _ _ _ _ Z). now rewrite to_from_kelvin. }
    rewrite (mm_T_val D E fuel z Z), A in HT.
    destruct (from_hp D E fuel (alone F) l) as [la|] eqn:FH; [|discriminate]. cbn [bind] in HT. injection HT as <- <-.
    pose proof (run_hp F l la false FH Hw) as RUN.
    destruct (run_at F l la false RUN i v p Nl) as (cl & x0 & d0 & Ncl & Ne & Nq & Nd0 & Nds & Nla).
    assert (PL : plan_hp D (alone F) (Some v) (Some p) (c_x cl) =
      {| hp_Ta := Some lo; hp_Tb := Some hi; hp_T := None; hp_sat := false; hp_d1 := None; hp_d2 := None; hp_x := num (-1) |}).
    { apply (plan_go F RF q p v lo hi); [exact HL|]. intros Ts Hpp B.
      assert (SEL : nth_error (map (fun e : fl * fl => (negb (fle (num (mp_pc D)) (snd e) || fle (snd e) (num (mp_pt D))), snd e)) l) i = Some (true, Some p)).
      { etransitivity; [exact (nth_map_some (fun e : fl * fl => (negb (fle (num (mp_pc D)) (snd e) || fle (snd e) (num (mp_pt D))), snd e)) _ _ _ Nl)|].
        cbn [snd]. unfold num. rewrite !fle_false by lra. reflexivity. }
      destruct (Ts_same q p Ts _ i _ _ HT0 Kp ltac:(lra) B (r_Ts _ _ _ _ RUN) SEL) as (c2 & N2 & X2). rewrite Ncl in N2. injection N2 as <-. exact X2. }
    rewrite PL in Ne, Nd0, Nla. cbn [hp_sat negb] in Nd0, Nla. clear Ncl PL.
    (* the function searched *)
    assert (VAL : forall T, lo <= T <= hi -> exists t r d x, kelvin_is E t T /\ t = from_kelvin (z_T z) T /\
       mm_d D E fuel [] [("T", [Some t]); ("p", [Some q])] = Ok ([Some r], [x]) /\ r = z_kV z / kg * d /\ 0 < d /\
       mp_d D (e_oob E) fuel [(true, Some T, Some p, num 0)] = Ok [Some d] /\
       mp_argparse D E fuel [] [("T", [Some t]); ("p", [Some q])] = Ok [single (Some T) (Some d)] /\
       evaluable D T d /\ (forall all, fits D all T d -> value0 (F all (Some T) (Some d) 0%nat) = Some (/ c * Y T)) /\
       exists s, along_T_p D (e_oob E) fuel (Some p) (alone F) (Fin T) = (Fin (/ c * Y T), Fin s)).
    { intros T RT. destruct (kt T) as (t & Kt & Et). destruct (HY t T Kt RT) as (r & d & x & H1 & H2 & Hd & EV & HC & H3).
      assert (RT' : in_range (mp_Tlim D) T) by (unfold in_range in *; lra).
      destruct (one_state t T q p _ _ Kt Kp RT' Hp H1) as (d' & D1 & D2 & _ & D4).
      destruct d' as [d'|]; [|discriminate]. cbn [fmul lift2] in D2. injection D2 as D2.
      assert (d' = d) as ->.
      { unfold density_is in H2. fold (kgs D (z_kM z)) in H2. rewrite <- H2, D2. field. lra. }
      destruct (RF T d ltac:(lra) Hd EV) as (v' & vT & vd & HR).
      assert (v' = / c * Y T) as ->.
      { rewrite HM, D4 in H3. cbn [bind map] in H3.
        assert (MX : mixed_at F [single (Some T) (Some d)] (single (Some T) (Some d)) = Some v') by exact (proj1 (HR _ (fits_one _ _ _))).
        rewrite MX in H3.
        cbn [fmul lift2] in H3. injection H3 as H3 _. rewrite <- H3. field. lra. }
      destruct HC as (pv & pT & pd & PQ & Hpd).
      exists t, r, d, x. split; [exact Kt|]. split; [exact Et|]. split; [exact H1|]. split; [exact D2|]. split; [exact Hd|]. split; [exact D1|]. split; [exact D4|].
      split; [exact EV|]. split; [intros all FI; exact (proj1 (HR all FI))|].
      assert (DO : d_one D (e_oob E) fuel (Some T) (Some p) = Ok (Some d)).
      { exact (f_equal (fun r : res arr => do l <- r; Ok (nth 0%nat l None)) D1). }
      assert (P2 : in_p D (Some T) (Some d) 1%nat = (Some pv, Some pT, Some pd)) by exact PQ.
      assert (F2 : alone F (Some T) (Some d) 1%nat = (Some (/ c * Y T), Some vT, Some vd)) by exact (proj2 (HR _ (fits_one _ _ _))).
      unfold along_T_p, tpiter. cbn [fl_of]. rewrite DO, F2, P2.
      cbn [fmul fsub lift2]. rewrite fdiv_ok by exact Hpd. cbn [fsub lift2 xf_of]. eexists. reflexivity. }
    set (e := hp_elem _ _ _ _ _ _ _) in Ne.
    assert (PR : problem e (fun T => / c * Y T) lo hi (/ c * y)).
    { subst e. unfold hp_elem. constructor; cbn [e_min e_max e_y e_fn hp_Ta hp_Tb]; try reflexivity; try (rewrite <- Py; reflexivity); try apply Hlh.
      - intros T RT. destruct (VAL T RT) as (t & r & d & x & _ & _ & _ & _ & _ & _ & _ & _ & _ & s & V). exists (Fin s). split; [exact V|discriminate].
      - intros [Q _]. apply Ya. apply (Rmult_eq_reg_l (/ c)); [exact Q|]. apply Rinv_neq_0_compat. lra.
      - intros [Q _]. apply Yb. apply (Rmult_eq_reg_l (/ c)); [exact Q|]. apply Rinv_neq_0_compat. lra. }
    assert (EP : 0 <= ep1) by (unfold ep1; lra).
    assert (ic : 0 < / c) by (now apply Rinv_0_lt_compat).
    pose proof (r_hy _ _ _ _ RUN) as HYB. rewrite (proj2 (r_w _ _ _ _ RUN eq_refl)) in HYB.
    destruct (hybrid_elem _ _ _ _ _ _ _ _ _ _ _ EP HYB Ne eq_refl PR) as [HB HN].
    split; [rewrite (nth_map_some s_x _ _ _ Nla); reflexivity|]. split.
    - intro B. destruct HB as (T & NT & SV).
      { revert B. apply bracketed_unscale; [exact ic|lra|reflexivity]. }
      assert (RT : lo <= T <= hi) by (destruct SV as [RT _]; exact RT). rewrite Nq in NT. injection NT as ->. cbn [fl_of] in *.
      destruct (VAL T RT) as (t & r & d & x & Kt & Et & H1 & Er & Hd & Hdd & HA & EV & V & _).
      assert (d0 = Some d) as ->.
      { pose proof (mp_d_elem _ _ i _ _ _ _ _ (r_d _ _ _ _ RUN) Nd0 Hdd) as N2. congruence. }
      assert (LN : lone D la (single (Some T) (Some d))) by (apply (lone_nth D la _ i (map s_x la)); [exact AL|now rewrite map_length|exact Nla]).
      pose proof (lone_liquid D la _ T d LN eq_refl eq_refl) as FI.
      exists t, T. split; [rewrite (nth_map_some _ _ _ _ (nth_map_some _ _ _ _ Nla)), Et; reflexivity|]. split; [exact Kt|].
      split. { replace y with (c * (/ c * y)) by (field; lra). apply (solves_scale (fun T => / c * Y T)); [exact Hc|intros u _; field; lra|exact SV]. }
      split; [|split].
      + eexists. rewrite HM, A. cbn [bind]. split; [reflexivity|].
        rewrite (nth_map_some _ _ _ _ (nth_map_some _ _ _ _ Nla)). unfold mixed_at, single. cbn [s_sat s_T s_d1]. rewrite V by exact FI. cbn. do 2 f_equal. field. lra.
      + do 3 eexists. rewrite (mm_d_val D E fuel _ _ _ _ _ _ Z varg), A. cbn [bind]. split; [reflexivity|].
        split; [rewrite (nth_map_some _ _ _ _ (nth_map_some mix_density _ _ _ Nla)); reflexivity|].
        cbn [fmul lift2 mix_density single s_sat s_d1]. rewrite <- Er. exact H1.
      + destruct (regular_p D WF T d ltac:(lra) Hd EV) as (pv & pvT & pvd & PV).
        assert (FI2 : fits D (map (fun s => (s_T s, s_d2 s)) la) T d) by (destruct LN as [NC| ->]; [now left|right; reflexivity]).
        do 3 eexists. rewrite !(mm_p_val D E fuel z Z), A, HA. cbn [bind]. split; [reflexivity|].
        split; [rewrite (nth_map_some _ _ _ _ (nth_map_some _ _ _ _ Nla)); unfold single; cbn [s_T s_d2];
                rewrite (proj1 (PV _ FI2)); reflexivity|].
        exact (f_equal (fun u => Ok ([fmul (Some (/ z_kP z)) u], [num (-1)])) (proj1 (PV _ (fits_one _ _ _)))).
    - intros B O. assert (NT : nth_error (r_qs _ _ _ _ RUN) i = Some (xf_of (e_oob E))).
      { apply HN. intro B2. apply B. apply (bracketed_scale Y (fun T => / c * Y T) lo hi y (/ c)); auto; lra. }
      rewrite Nq in NT. injection NT as ->. rewrite O in Nla. cbn [xf_of fl_of] in Nla.
      rewrite (nth_map_some _ _ _ _ (nth_map_some _ _ _ _ Nla)). reflexivity.
  Qed.

  (* between the saturated liquid and the saturated vapor: at the saturation temperature *)
  Theorem saturated_from_p n m F : In (n, m) (searched D E fuel) -> In (n, F) (searched_eos D) -> forall varg kw i y v q p ys xs,
    state_pair varg kw i n y "p" q -> property_is D z n y v -> pressure_is z q p -> in_range (mp_plim D) p -> 0 < mp_Tt D < mp_Tc D ->
    m varg kw = Ok (ys, xs) -> evaluated_alone D xs ->
    forall Ts vL vV, mp_pt D < p < mp_pc D -> boils_at D E q Ts -> phases_at D F Ts vL vV -> vL < vV -> vL <= v <= vV ->
    exists x, nth_error xs i = Some (Some x) /\ 0 <= x <= 1 /\ v = (1 - x) * vL + x * vV /\ nth_error ys i = Some (Some y) /\
      (exists ts t, mm_T D E fuel varg kw = Ok (ts, xs) /\ nth_error ts i = Some (Some t) /\ kelvin_is E t Ts).
  Proof.
    intros Hm HF varg kw i y v q p ys xs S Py Kp Hp HT0 Hr AL Ts vL vV Hpp B (dL & dV & (W1 & W2 & S1 & S2 & EL & EV) & HL & HV & EVL & EVV & GL & GV) Hlt Hv.
    destruct (eos_val D E fuel z Z WF ET n m F Hm HF) as (c & RF & Hc & HM & PI & _ & HI).
    destruct (argparse_hp n m F c varg kw i y q p S Kp Hp HI Hm) as (l & Nl & A & _). clear HI.
    apply PI in Py. rewrite <- Py in Nl.
    rewrite HM, A in Hr. destruct (from_hp D E fuel (alone F) l) as [la|] eqn:FH; [|discriminate]. cbn [bind] in Hr. injection Hr as <- <-.
    destruct (warns_total F l la FH) as (w & Hw). pose proof (run_hp F l la w FH Hw) as RUN.
    destruct (run_at F l la w RUN i v p Nl) as (cl & x0 & d0 & Ncl & Ne & Nq & _ & Nds & Nla).
    assert (SEL : nth_error (map (fun e : fl * fl => (negb (fle (num (mp_pc D)) (snd e) || fle (snd e) (num (mp_pt D))), snd e)) l) i = Some (true, Some p)).
    { etransitivity; [exact (nth_map_some (fun e : fl * fl => (negb (fle (num (mp_pc D)) (snd e) || fle (snd e) (num (mp_pt D))), snd e)) _ _ _ Nl)|].
      cbn [snd]. unfold num. rewrite !fle_false by lra. reflexivity. }
    destruct (Ts_same q p Ts _ i _ _ HT0 Kp ltac:(lra) B (r_Ts _ _ _ _ RUN) SEL) as (c2 & N2 & X2). rewrite Ncl in N2. injection N2 as <-. rewrite X2 in *.
    set (x := (v - vL) / (vV - vL)).
    assert (HT : 0 < Ts) by (apply S1).
    assert (ML : mp_dsl D (Some Ts) = Some dL) by (unfold mp_dsl; now rewrite (sat_curve_value _ _ W1 S1), EL).
    assert (MV : mp_dsv D (Some Ts) = Some dV) by (unfold mp_dsv; now rewrite (sat_curve_value _ _ W2 S2), EV).
    pose proof (alone_val F RF _ _ _ HT HL EVL GL) as VL. pose proof (alone_val F RF _ _ _ HT HV EVV GV) as VV.
    assert (PL : plan_hp D (alone F) (Some v) (Some p) (Some Ts) =
      {| hp_Ta := Some Ts; hp_Tb := Some Ts; hp_T := Some Ts; hp_sat := true; hp_d1 := Some dL; hp_d2 := Some dV; hp_x := Some x |}).
    { unfold plan_hp, num. rewrite !fle_false by lra. cbn [orb]. rewrite ML, MV. rewrite VL, VV, !fle_true by lra. cbn [andb fsub lift2].
      rewrite fdiv_ok by lra. reflexivity. }
    rewrite PL in Ne, Nla. cbn [hp_sat hp_d1 hp_d2 hp_x] in Nla.
    assert (x0 = Fin Ts) as ->.
    { pose proof (r_hy _ _ _ _ RUN) as HYB. unfold hybrid1 in HYB. destruct (existsb e_sel _ && _)%bool; [discriminate|]. injection HYB as HYB _.
      rewrite <- HYB in Nq. rewrite (nth_map_some _ _ _ _ Ne) in Nq. cbn in Nq. congruence. }
    cbn [fl_of] in Nla.
    exists x. split; [rewrite (nth_map_some s_x _ _ _ Nla); reflexivity|].
    split. { unfold x. split; [apply Rmult_le_pos; [lra|left; apply Rinv_0_lt_compat; lra]|].
      apply (Rmult_le_reg_r (vV - vL)); [lra|]. unfold Rdiv. rewrite Rmult_assoc, Rinv_l by lra. lra. }
    assert (MIX : v = (1 - x) * vL + x * vV) by (unfold x; field; lra).
    split; [exact MIX|]. split.
    - assert (LN : lone D la {| s_T := Some Ts; s_d1 := Some dL; s_d2 := Some dV; s_x := Some x; s_sat := true |}) by (apply (lone_nth D la _ i (map s_x la)); [exact AL|now rewrite map_length|exact Nla]).
      pose proof (lone_liquid D la _ Ts dL LN eq_refl eq_refl) as F1. pose proof (lone_vapor D la _ Ts dV LN eq_refl eq_refl eq_refl) as F2.
      rewrite (nth_map_some _ _ _ _ (nth_map_some _ _ _ _ Nla)). unfold mixed_at. cbn [s_sat s_T s_d1 s_d2 s_x].
      rewrite (proj1 (value_at D F Ts RF HT _ dL vL HL EVL GL F1)), (proj1 (value_at D F Ts RF HT _ dV vV HV EVV GV F2)).
      unfold num. cbn [fmul fadd fsub lift2]. do 2 f_equal. replace (vL * (1 - x) + vV * x) with v by (rewrite MIX; ring). rewrite Py. field. lra.
    - do 2 eexists. rewrite (mm_T_val D E fuel z Z), A. cbn [bind]. split; [reflexivity|].
      split; [rewrite (nth_map_some _ _ _ _ (nth_map_some _ _ _ _ Nla)); reflexivity|].
      apply (tscale_K _ _ _ _ _ _ _ _ Z). now rewrite to_from_kelvin.
  Qed.
End HP.

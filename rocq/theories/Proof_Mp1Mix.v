(* Saturated mixtures (C48). *)
From Coq Require Import Reals ZArith List String Bool Lia Lra.
From Verif Require Import Base Model_Num Model_Units Model_Defaults Model_Igas Spec_Units Proof_Units Spec_Igas Proof_Igas
  Proof_IgasUnits Proof_IgasArgs Proof_IgasCalls Proof_IgasArr Proof_IgasAcc.
From Verif Require Import Model_Mp1Calls Spec_Mp1 Spec_Mp1Calls Proof_Mp1Units Proof_Mp1Poly Proof_Mp1Sat Proof_Mp1Args Proof_Mp1Calls.
Import ListNotations.
Local Open Scope R_scope.
Local Open Scope string_scope.
Local Open Scope list_scope.

Definition routines (D : mpdata) : list (list (fl * fl) -> inner) := [mp_e D; mp_h D; mp_s D; mp_f D; mp_g D].

Lemma ar_indep D all all' T d n : ar_coef2 (mp_AR D) = None -> ar_at D all T d n = ar_at D all' T d n.
Proof. intro H. unfold ar_at, ar. rewrite H. reflexivity. Qed.
Lemma routine_indep D F all all' T d n : In F (routines D) -> ar_coef2 (mp_AR D) = None ->
  F all T d n = F all' T d n.
Proof.
  intros HF H. pose proof (ar_indep D all all' T d (n + 1) H) as A.
  destruct HF as [<-|[<-|[<-|[<-|[<-|[]]]]]]; unfold mp_e, mp_h, mp_s, mp_f, mp_g; rewrite A; reflexivity.
Qed.

(* the value of a routine at a point of the list *)
Definition mixed_at (F : list (fl * fl) -> inner) (l : list point) (s : point) : fl :=
  let y := value0 (F (liquid_all l) (s_T s) (s_d1 s) 0%nat) in
  if s_sat s
  then (y * (num 1 - s_x s) + value0 (F (vapor_sat l) (s_T s) (s_d2 s) 0%nat) * s_x s)%fl
  else y.

Section Mix.
  Variables (D : mpdata) (E : env) (fuel : nat) (uT : string) (kT kP kV kE kM : R).
  Hypothesis U : units_known E (mp_mw D) uT kT kP kV kE kM.
  Local Notation kg := (kgs D kM).
  Let kVp : 0 < kV := kV_pos _ _ _ _ _ _ _ _ U.
  Let kEp : 0 < kE := kE_pos _ _ _ _ _ _ _ _ U.
  Let kTp : 0 < kT := kT_pos _ _ _ _ _ _ _ _ U.
  Let kgp : 0 < kg := kgs_pos _ _ _ _ _ _ _ _ U.

  Lemma extensive_val m : In m (extensive D E fuel) ->
    exists F c, In F (routines D) /\ 0 < c /\ forall varg kw,
      m varg kw = do l <- mp_argparse D E fuel varg kw;
                  Ok (map (fmul (Some c)) (map (mixed_at F l) l), map s_x l).
  Proof.
    assert (c1 : 0 < kg / kE) by (apply Rdiv_lt_0_compat; assumption).
    assert (c2 : 0 < kg / kE * (kT / (9/5))).
    { apply Rmult_lt_0_compat; [assumption|]. apply Rdiv_lt_0_compat; lra. }
    intros [<-|[<-|[<-|[<-|[<-|[]]]]]].
    - exists (mp_e D), (kg / kE). split; [cbn; tauto|]. split; [exact c1|]. intros varg kw. unfold mm_e, method.
      destruct (mp_argparse _ _ _ _ _); [|reflexivity]. cbn [bind]. rewrite (out_energy_val _ _ _ _ _ _ _ _ U). reflexivity.
    - exists (mp_h D), (kg / kE). split; [cbn; tauto|]. split; [exact c1|]. intros varg kw. unfold mm_h, method.
      destruct (mp_argparse _ _ _ _ _); [|reflexivity]. cbn [bind]. rewrite (out_energy_val _ _ _ _ _ _ _ _ U). reflexivity.
    - exists (mp_s D), (kg / kE * (kT / (9/5))). split; [cbn; tauto|]. split; [exact c2|]. intros varg kw. unfold mm_s, method.
      destruct (mp_argparse _ _ _ _ _); [|reflexivity]. cbn [bind]. rewrite (out_heat_val _ _ _ _ _ _ _ _ U). reflexivity.
    - exists (mp_f D), (kg / kE). split; [cbn; tauto|]. split; [exact c1|]. intros varg kw. unfold mm_f, method.
      destruct (mp_argparse _ _ _ _ _); [|reflexivity]. cbn [bind]. rewrite (out_energy_val _ _ _ _ _ _ _ _ U). reflexivity.
    - exists (mp_g D), (kg / kE). split; [cbn; tauto|]. split; [exact c1|]. intros varg kw. unfold mm_g, method.
      destruct (mp_argparse _ _ _ _ _); [|reflexivity]. cbn [bind]. rewrite (out_energy_val _ _ _ _ _ _ _ _ U). reflexivity.
  Qed.

  Lemma mm_d_val varg kw : mm_d D E fuel varg kw =
    do l <- mp_argparse D E fuel varg kw; Ok (map (fmul (Some (kV / kg))) (map mix_density l), map s_x l).
  Proof.
    unfold mm_d, method. destruct (mp_argparse _ _ _ _ _); [|reflexivity]. cbn [bind].
    rewrite (out_density_val _ _ _ _ _ _ _ _ U). reflexivity.
  Qed.

  (* the quality array is the same whatever the method *)
  Lemma quality_same m varg kw y xs : In m (mp_methods D E fuel) -> m varg kw = Ok (y, xs) ->
    mm_x D E fuel varg kw = Ok xs.
  Proof.
    intros Hm. unfold mm_x.
    assert (A : forall f, method D E fuel f varg kw = Ok (y, xs) -> mm_x D E fuel varg kw = Ok xs).
    { intros f. unfold method, mm_x. destruct (mp_argparse _ _ _ _ _) as [l|]; cbn [bind]; [|discriminate].
      destruct (f l); cbn [bind]; [|discriminate]. intro H. injection H as _ <-. reflexivity. }
    destruct Hm as [<-|[<-|[<-|[<-|[<-|[<-|[<-|[<-|[<-|[<-|[<-|[<-|[<-|[]]]]]]]]]]]]]]; try (intro H; exact (A _ H)).
    unfold mm_v. intro H. destruct (mm_d D E fuel varg kw) as [[y' x']|] eqn:Q; cbn [bind fst snd] in H; [|discriminate].
    injection H as _ <-. revert Q. unfold mm_d, method.
    destruct (mp_argparse _ _ _ _ _) as [l|]; cbn [bind]; [|discriminate].
    destruct (out_density _ _ _); cbn [bind]; [|discriminate]. intro H. injection H as _ <-. reflexivity.
  Qed.

  Definition dome_point (T dL dV x : R) : point :=
    {| s_T := Some T; s_d1 := Some dL; s_d2 := Some dV; s_x := Some x; s_sat := true |}.

  Lemma from_Td_dome T d dL dV : T < mp_Tc D -> saturation D T dL dV -> 0 < dV -> dV < d -> d < dL ->
    from_Td D (Some T, Some d) = dome_point T dL dV ((dL / d - 1) / (dL / dV - 1)) /\
    0 < (dL / d - 1) / (dL / dV - 1) < 1 /\
    (1 - (dL / d - 1) / (dL / dV - 1)) / dL + (dL / d - 1) / (dL / dV - 1) / dV = 1 / d.
  Proof.
    intros HT (W1 & W2 & S1 & S2 & -> & ->) H0 H1 H2.
    set (dL := sat_value (mp_DSL D) T) in *. set (dV := sat_value (mp_DSV D) T) in *.
    unfold from_Td, mp_dsl, mp_dsv. rewrite (sat_curve_value _ _ W1 S1), (sat_curve_value _ _ W2 S2). fold dL dV.
    unfold num. rewrite !flt_true by assumption. cbn [andb].
    assert (K1 : 1 < dL / d). { apply (Rmult_lt_reg_r d); [lra|]. unfold Rdiv. rewrite Rmult_assoc, Rinv_l; lra. }
    assert (K2 : dL / d < dL / dV).
    { unfold Rdiv. apply Rmult_lt_compat_l; [lra|]. apply Rinv_lt_contravar; [apply Rmult_lt_0_compat; lra|lra]. }
    split; [|split].
    - unfold quality_of, dome_point. unfold num. rewrite !fdiv_ok by lra. unfold fsub. cbn [lift2].
      rewrite fdiv_ok by lra. reflexivity.
    - split.
      + apply Rdiv_lt_0_compat; lra.
      + apply (Rmult_lt_reg_r (dL / dV - 1)); [lra|]. unfold Rdiv at 1. rewrite Rmult_assoc, Rinv_l; lra.
    - field. split; [lra|]. split; [lra|]. lra.
  Qed.

  Lemma from_Td_single T d : ~ (T < mp_Tc D /\ exists dL dV, mp_dsl D (Some T) = Some dL /\ mp_dsv D (Some T) = Some dV /\ dV < d < dL) ->
    from_Td D (Some T, Some d) = single (Some T) (Some d).
  Proof.
    intro H. unfold from_Td.
    destruct (flt (Some T) (num (mp_Tc D)) && (flt (Some d) (mp_dsl D (Some T)) && flt (mp_dsv D (Some T)) (Some d)))%bool eqn:B; [|reflexivity].
    exfalso. apply H. apply andb_true_iff in B. destruct B as [B1 B]. apply andb_true_iff in B. destruct B as [B2 B3].
    apply flt_iff in B1, B2, B3. destruct B1 as (x1 & y1 & A1 & A2 & A3). destruct B2 as (x2 & y2 & A4 & A5 & A6).
    destruct B3 as (x3 & y3 & A7 & A8 & A9). unfold num in A2. injection A1 as <-. injection A2 as <-. injection A4 as <-. injection A8 as <-.
    split; [exact A3|]. exists y2, x3. auto.
  Qed.

  (* a mixture at temperature T with quality x, in a list of points *)
  Lemma mixed_dome F c (l : list point) i T dL dV x : nth_error l i = Some (dome_point T dL dV x) ->
    nth_error (map (fmul (Some c)) (map (mixed_at F l) l)) i =
      Some (fmul (Some c) (value0 (F (liquid_all l) (Some T) (Some dL) 0%nat) * Some (1 - x)%R
                + value0 (F (vapor_sat l) (Some T) (Some dV) 0%nat) * Some x)%fl) /\
    nth_error (map s_x l) i = Some (Some x).
  Proof.
    intro H. split.
    - rewrite (nth_map_some _ _ _ _ (nth_map_some _ _ _ _ H)). reflexivity.
    - rewrite (nth_map_some _ _ _ _ H). reflexivity.
  Qed.
  (* only the point itself matters *)
  Definition alone_in (l : list point) : Prop := ar_coef2 (mp_AR D) = None \/ List.length l = 1%nat.
  Lemma phases_alone F (l : list point) i T dL dV x : In F (routines D) -> alone_in l ->
    nth_error l i = Some (dome_point T dL dV x) ->
    F (liquid_all l) (Some T) (Some dL) 0%nat = F [(Some T, Some dL)] (Some T) (Some dL) 0%nat /\
    F (vapor_sat l) (Some T) (Some dV) 0%nat = F [(Some T, Some dV)] (Some T) (Some dV) 0%nat.
  Proof.
    intros HF [A|A] H.
    - split; now apply (routine_indep D).
    - destruct l as [|p [|q l]]; cbn in A; try discriminate. destruct i as [|[|i]]; cbn in H; try discriminate.
      injection H as ->. split; reflexivity.
  Qed.

  Definition phase (F : list (fl * fl) -> inner) (T d : R) : fl := value0 (F [(Some T, Some d)] (Some T) (Some d) 0%nat).
  Lemma mixed_alone F c (l : list point) i T dL dV x : In F (routines D) -> alone_in l ->
    nth_error l i = Some (dome_point T dL dV x) ->
    nth_error (map (fmul (Some c)) (map (mixed_at F l) l)) i =
      Some (fmul (Some c) (phase F T dL * Some (1 - x)%R + phase F T dV * Some x)%fl).
  Proof.
    intros HF A H. destruct (mixed_dome F c l i T dL dV x H) as [-> _].
    destruct (phases_alone F l i T dL dV x HF A H) as [-> ->]. reflexivity.
  Qed.
End Mix.

Section Thm.
  Variables (D : mpdata) (E : env) (fuel : nat) (z : sizes).
  Hypothesis Z : mp_sizes D E z.
  Local Notation kg := (kgs D (z_kM z)).
  Let kVp : 0 < z_kV z := kV_pos _ _ _ _ _ _ _ _ Z.
  Let kgp : 0 < kg := kgs_pos _ _ _ _ _ _ _ _ Z.

  Lemma z_eta : z = {| z_T := z_T z; z_kT := z_kT z; z_kP := z_kP z; z_kV := z_kV z; z_kE := z_kE z; z_kM := z_kM z |}.
  Proof. destruct z. reflexivity. Qed.

  Theorem dome_quality varg kw i T d dL dV : state_Td D E z varg kw i T d -> in_range (mp_Tlim D) T ->
    T < mp_Tc D -> saturation D T dL dV -> 0 < dV -> dV < d < dL ->
    exists ys xs r x, mm_d D E fuel varg kw = Ok (ys, xs) /\ mm_x D E fuel varg kw = Ok xs /\
      nth_error xs i = Some (Some x) /\ 0 < x < 1 /\ (1 - x) * (1 / dL) + x * (1 / dV) = 1 / d /\
      nth_error ys i = Some (Some r) /\ density_is D z r d.
  Proof.
    intros S HT Tc Sat H0 [H1 H2].
    destruct (argparse_Td D E fuel _ _ _ _ _ _ Z z varg kw i T d z_eta S HT) as (l & A & N).
    destruct (from_Td_dome D T d dL dV Tc Sat H0 H1 H2) as (Q & Qx & Qd).
    rewrite Q in N. rewrite (mm_d_val _ _ fuel _ _ _ _ _ _ Z). unfold mm_x. rewrite A. cbn [bind].
    do 4 eexists. split; [reflexivity|]. split; [reflexivity|].
    split; [rewrite (nth_map_some _ _ _ _ N); reflexivity|]. split; [exact Qx|].
    split; [rewrite <- Qd; unfold Rdiv; ring|].
    rewrite (nth_map_some _ _ _ _ (nth_map_some _ _ _ _ N)).
    unfold mix_density, dome_point. cbn [s_sat s_x s_d1 s_d2].
    set (x := (dL / d - 1) / (dL / dV - 1)) in *. unfold num, fsub, fadd. cbn [lift2].
    rewrite !fdiv_ok by lra. cbn [lift2]. rewrite Qd.
    assert (1 / d <> 0). { apply Rgt_not_eq. apply Rdiv_lt_0_compat; lra. }
    rewrite fdiv_ok by assumption. cbn [fmul lift2]. split; [reflexivity|].
    unfold density_is. fold (kgs D (z_kM z)). field. repeat split; lra.
  Qed.

  Theorem single_quality varg kw i T d : state_Td D E z varg kw i T d -> in_range (mp_Tlim D) T ->
    (mp_Tc D <= T \/ exists dL dV, saturation D T dL dV /\ (d <= dV \/ dL <= d)) ->
    exists ys xs r, mm_d D E fuel varg kw = Ok (ys, xs) /\ mm_x D E fuel varg kw = Ok xs /\
      nth_error xs i = Some (Some (-1)) /\ nth_error ys i = Some (Some r) /\ density_is D z r d.
  Proof.
    intros S HT Out.
    destruct (argparse_Td D E fuel _ _ _ _ _ _ Z z varg kw i T d z_eta S HT) as (l & A & N).
    rewrite from_Td_single in N.
    2:{ intros (H & dL & dV & E1 & E2 & H1 & H2). destruct Out as [Out|(dL' & dV' & (W1 & W2 & S1 & S2 & -> & ->) & Out)]; [lra|].
        unfold mp_dsl, mp_dsv in E1, E2. rewrite sat_curve_value in E1, E2 by assumption.
        injection E1 as <-. injection E2 as <-. lra. }
    rewrite (mm_d_val _ _ fuel _ _ _ _ _ _ Z). unfold mm_x. rewrite A. cbn [bind].
    do 3 eexists. split; [reflexivity|]. split; [reflexivity|].
    split; [rewrite (nth_map_some _ _ _ _ N); reflexivity|].
    rewrite (nth_map_some _ _ _ _ (nth_map_some _ _ _ _ N)). cbn. split; [reflexivity|].
    unfold density_is. fold (kgs D (z_kM z)). field. repeat split; lra.
  Qed.

  (* at temperature T with quality x, by T and x or by T and d *)
  Definition at_quality (varg : list arr) (kw : list (string * arr)) (i : nat) (T x : R) : Prop :=
    exists l dL dV, mp_argparse D E fuel varg kw = Ok l /\ saturation D T dL dV /\
      nth_error l i = Some (dome_point T dL dV x).
  Lemma at_quality_Td varg kw i T d dL dV : state_Td D E z varg kw i T d -> in_range (mp_Tlim D) T ->
    T < mp_Tc D -> saturation D T dL dV -> 0 < dV -> dV < d < dL ->
    exists x, 0 < x < 1 /\ (1 - x) * (1 / dL) + x * (1 / dV) = 1 / d /\ at_quality varg kw i T x.
  Proof.
    intros S HT Tc Sat H0 [H1 H2].
    destruct (argparse_Td D E fuel _ _ _ _ _ _ Z z varg kw i T d z_eta S HT) as (l & A & N).
    destruct (from_Td_dome D T d dL dV Tc Sat H0 H1 H2) as (Q & Qx & Qd).
    rewrite Q in N. eexists. split; [exact Qx|]. split; [rewrite <- Qd; unfold Rdiv; ring|].
    exists l, dL, dV. auto.
  Qed.
  Lemma at_quality_Tx varg kw i T x dL dV r : state_Tx E varg kw i T x -> in_range (mp_Tlim D) T ->
    saturation D T dL dV -> mp_argparse D E fuel varg kw = Ok r -> at_quality varg kw i T x.
  Proof.
    intros S HT Sat A. destruct (argparse_Tx D E fuel _ _ _ _ _ _ Z varg kw i T x S HT r A) as (N & _).
    exists r, dL, dV. split; [exact A|]. split; [exact Sat|]. rewrite N. unfold dome_point, mp_dsl, mp_dsv.
    destruct Sat as (W1 & W2 & S1 & S2 & -> & ->). rewrite !sat_curve_value by assumption. reflexivity.
  Qed.

  Lemma call_list m varg kw y xs : In m (extensive D E fuel) -> m varg kw = Ok (y, xs) ->
    exists l, mp_argparse D E fuel varg kw = Ok l /\ List.length y = List.length l /\ xs = map s_x l.
  Proof.
    intros Hm H. destruct (extensive_val D E fuel _ _ _ _ _ _ Z m Hm) as (F & c & _ & _ & V). rewrite V in H.
    destruct (mp_argparse _ _ _ _ _) as [l|]; cbn [bind] in H; [|discriminate]. injection H as <- <-.
    exists l. rewrite !map_length. auto.
  Qed.

  Lemma mixture_core m : In m (extensive D E fuel) ->
    forall vA kA i T x vB kB j vC kC k yA xA yB xB yC xC rB rC,
    at_quality vA kA i T x -> at_quality vB kB j T 0 -> at_quality vC kC k T 1 ->
    m vA kA = Ok (yA, xA) -> m vB kB = Ok (yB, xB) -> m vC kC = Ok (yC, xC) ->
    (ar_coef2 (mp_AR D) = None \/ (List.length yA = 1 /\ List.length yB = 1 /\ List.length yC = 1)%nat) ->
    nth_error yB j = Some (Some rB) -> nth_error yC k = Some (Some rC) ->
    nth_error yA i = Some (Some ((1 - x) * rB + x * rC)) /\ nth_error xA i = Some (Some x).
  Proof.
    intros Hm vA kA i T x vB kB j vC kC k yA xA yB xB yC xC rB rC
      (lA & dL & dV & AA & Sat & NA) (lB & dL1 & dV1 & AB & Sat1 & NB) (lC & dL2 & dV2 & AC & Sat2 & NC) MA MB MC Al HB HC.
    assert (dL1 = dL /\ dV1 = dV /\ dL2 = dL /\ dV2 = dV) as (-> & -> & -> & ->).
    { destruct Sat as (_ & _ & _ & _ & -> & ->), Sat1 as (_ & _ & _ & _ & -> & ->), Sat2 as (_ & _ & _ & _ & -> & ->). auto. }
    destruct (extensive_val D E fuel _ _ _ _ _ _ Z m Hm) as (F & c & HF & Hc & V).
    rewrite V, AA in MA. rewrite V, AB in MB. rewrite V, AC in MC. cbn [bind] in MA, MB, MC.
    injection MA as <- <-. injection MB as <- <-. injection MC as <- <-.
    rewrite !map_length in Al.
    assert (A1 : alone_in D lA) by (destruct Al as [?|?]; [left; assumption|right; tauto]).
    assert (A2 : alone_in D lB) by (destruct Al as [?|?]; [left; assumption|right; tauto]).
    assert (A3 : alone_in D lC) by (destruct Al as [?|?]; [left; assumption|right; tauto]).
    rewrite (mixed_alone D F c lA i T dL dV x HF A1 NA). rewrite (mixed_alone D F c lB j T dL dV 0 HF A2 NB) in HB.
    rewrite (mixed_alone D F c lC k T dL dV 1 HF A3 NC) in HC.
    destruct (phase F T dL) as [pL|], (phase F T dV) as [pV|]; cbn in HB, HC; try discriminate.
    injection HB as <-. injection HC as <-.
    split.
    - cbn. do 2 f_equal. ring.
    - rewrite (nth_map_some _ _ _ _ NA). reflexivity.
  Qed.
  Lemma convex_between a b x : 0 <= x <= 1 -> between a b ((1 - x) * a + x * b).
  Proof.
    intro H. unfold between. pose proof (Rmin_l a b). pose proof (Rmin_r a b). pose proof (Rmax_l a b). pose proof (Rmax_r a b).
    split; nra.
  Qed.

  Theorem mixture_Td m : In m (extensive D E fuel) ->
    forall vA kA i T d dL dV vB kB j vC kC k yA xA yB xB yC xC rB rC,
    state_Td D E z vA kA i T d -> state_Tx E vB kB j T 0 -> state_Tx E vC kC k T 1 ->
    in_range (mp_Tlim D) T -> T < mp_Tc D -> saturation D T dL dV -> 0 < dV -> dV < d < dL ->
    m vA kA = Ok (yA, xA) -> m vB kB = Ok (yB, xB) -> m vC kC = Ok (yC, xC) ->
    (ar_coef2 (mp_AR D) = None \/ (List.length yA = 1 /\ List.length yB = 1 /\ List.length yC = 1)%nat) ->
    nth_error yB j = Some (Some rB) -> nth_error yC k = Some (Some rC) ->
    exists x, 0 < x < 1 /\ nth_error xA i = Some (Some x) /\
      nth_error yA i = Some (Some ((1 - x) * rB + x * rC)) /\ between rB rC ((1 - x) * rB + x * rC).
  Proof.
    intros Hm vA kA i T d dL dV vB kB j vC kC k yA xA yB xB yC xC rB rC SA SB SC HT Tc Sat H0 H12 MA MB MC Al HB HC.
    destruct (at_quality_Td _ _ _ _ _ _ _ SA HT Tc Sat H0 H12) as (x & Hx & _ & QA).
    destruct (call_list m _ _ _ _ Hm MB) as (lB & AB & _). destruct (call_list m _ _ _ _ Hm MC) as (lC & AC & _).
    pose proof (at_quality_Tx _ _ _ _ _ _ _ _ SB HT Sat AB) as QB.
    pose proof (at_quality_Tx _ _ _ _ _ _ _ _ SC HT Sat AC) as QC.
    destruct (mixture_core m Hm _ _ _ _ _ _ _ _ _ _ _ _ _ _ _ _ _ _ _ QA QB QC MA MB MC Al HB HC) as [R1 R2].
    exists x. repeat split; auto; try lra. all: apply convex_between; lra.
  Qed.
  Theorem mixture_Tx m : In m (extensive D E fuel) ->
    forall vA kA i T x dL dV vB kB j vC kC k yA xA yB xB yC xC rB rC,
    state_Tx E vA kA i T x -> state_Tx E vB kB j T 0 -> state_Tx E vC kC k T 1 ->
    in_range (mp_Tlim D) T -> saturation D T dL dV ->
    m vA kA = Ok (yA, xA) -> m vB kB = Ok (yB, xB) -> m vC kC = Ok (yC, xC) ->
    (ar_coef2 (mp_AR D) = None \/ (List.length yA = 1 /\ List.length yB = 1 /\ List.length yC = 1)%nat) ->
    nth_error yB j = Some (Some rB) -> nth_error yC k = Some (Some rC) ->
    0 <= x <= 1 /\ nth_error xA i = Some (Some x) /\
      nth_error yA i = Some (Some ((1 - x) * rB + x * rC)) /\ between rB rC ((1 - x) * rB + x * rC).
  Proof.
    intros Hm vA kA i T x dL dV vB kB j vC kC k yA xA yB xB yC xC rB rC SA SB SC HT Sat MA MB MC Al HB HC.
    destruct (call_list m _ _ _ _ Hm MA) as (lA & AA & _).
    destruct (call_list m _ _ _ _ Hm MB) as (lB & AB & _). destruct (call_list m _ _ _ _ Hm MC) as (lC & AC & _).
    pose proof (at_quality_Tx _ _ _ _ _ _ _ _ SA HT Sat AA) as QA.
    pose proof (at_quality_Tx _ _ _ _ _ _ _ _ SB HT Sat AB) as QB.
    pose proof (at_quality_Tx _ _ _ _ _ _ _ _ SC HT Sat AC) as QC.
    destruct (mixture_core m Hm _ _ _ _ _ _ _ _ _ _ _ _ _ _ _ _ _ _ _ QA QB QC MA MB MC Al HB HC) as [R1 R2].
    destruct (argparse_Tx D E fuel _ _ _ _ _ _ Z _ _ _ _ _ SA HT _ AA) as (_ & _ & Hx & _).
    repeat split; auto; try lra. all: apply convex_between; lra.
  Qed.
  (* the density of a mixture of given quality *)
  Theorem density_Tx varg kw i T x dL dV ys xs : state_Tx E varg kw i T x -> in_range (mp_Tlim D) T ->
    saturation D T dL dV -> 0 < dL -> 0 < dV -> mm_d D E fuel varg kw = Ok (ys, xs) ->
    exists r d, nth_error ys i = Some (Some r) /\ density_is D z r d /\ 1 / d = (1 - x) * (1 / dL) + x * (1 / dV) /\
      nth_error xs i = Some (Some x).
  Proof.
    intros S HT Sat H1 H2. rewrite (mm_d_val _ _ fuel _ _ _ _ _ _ Z).
    destruct (mp_argparse D E fuel varg kw) as [l|] eqn:A; cbn [bind]; [|discriminate]. intro H. injection H as <- <-.
    destruct (argparse_Tx D E fuel _ _ _ _ _ _ Z _ _ _ _ _ S HT _ A) as (N & _ & Hx & _).
    destruct Sat as (W1 & W2 & S1 & S2 & -> & ->).
    set (dL := sat_value (mp_DSL D) T) in *. set (dV := sat_value (mp_DSV D) T) in *.
    assert (P : 0 < (1 - x) / dL + x / dV).
    { assert (I1 : 0 < / dL) by (apply Rinv_0_lt_compat; assumption). assert (I2 : 0 < / dV) by (apply Rinv_0_lt_compat; assumption).
      unfold Rdiv. destruct (Rle_dec x (1/2)); [assert (0 < (1 - x) * / dL) by (apply Rmult_lt_0_compat; lra);
        assert (0 <= x * / dV) by (apply Rmult_le_pos; lra); lra|
        assert (0 < x * / dV) by (apply Rmult_lt_0_compat; lra); assert (0 <= (1 - x) * / dL) by (apply Rmult_le_pos; lra); lra]. }
    rewrite (nth_map_some _ _ _ _ (nth_map_some _ _ _ _ N)).
    unfold mix_density, mp_dsl, mp_dsv. cbn [s_sat s_x s_d1 s_d2].
    rewrite !sat_curve_value by assumption. fold dL dV. unfold num, fsub, fadd. cbn [lift2].
    rewrite !fdiv_ok by lra. cbn [lift2]. rewrite fdiv_ok by lra. cbn [fmul lift2].
    do 2 eexists. split; [reflexivity|]. split; [unfold density_is; reflexivity|].
    split; [|rewrite (nth_map_some _ _ _ _ N); reflexivity].
    fold (kgs D (z_kM z)).
    set (q := (1 - x) / dL + x / dV) in *.
    replace ((1 - x) * (1 / dL) + x * (1 / dV)) with q by (unfold q, Rdiv; ring).
    field. repeat split; lra.
  Qed.
End Thm.

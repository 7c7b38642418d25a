(* The temperature from one of e, h, s and the density (C81). *)
From Coq Require Import Reals ZArith List String Bool Lia Lra.
From Verif Require Import Base Model_Num Model_Units Model_Defaults Model_Igas Spec_Units Proof_Units Spec_Igas Proof_Igas
  Proof_IgasUnits Proof_IgasArgs Proof_IgasCalls Proof_IgasArr Proof_IgasAcc.
From Verif Require Import Proof_Jets Model_Hybrid Spec_Hybrid Proof_Hybrid.
From Verif Require Import Model_Mp1Calls Model_Mp1Warn Spec_Mp1 Spec_Mp1Calls Spec_Mp1Inv Proof_Mp1Units Proof_Mp1Poly Proof_Mp1Helm Proof_Mp1Res
  Proof_Mp1Props Proof_Mp1Thm Proof_Mp1Sat Proof_Mp1Args Proof_Mp1Calls Proof_Mp1Mix Proof_Mp1SatApi Proof_Mp1Hsd Proof_Mp1Alone Proof_Mp1Inv.
Import ListNotations.
Local Open Scope R_scope.
Local Open Scope string_scope.
Local Open Scope list_scope.

(* the state s is one of the list l, the only one unless the data have no critical point terms *)
Definition lone (D : mpdata) (l : list point) (s : point) : Prop := ar_coef2 (mp_AR D) = None \/ l = [s].
Lemma lone_liquid D l s T d : lone D l s -> s_T s = Some T -> s_d1 s = Some d -> fits D (liquid_all l) T d.
Proof. intros [N| ->] H1 H2; [now left|right]. cbn. now rewrite H1, H2. Qed.
Lemma lone_vapor D l s T d : lone D l s -> s_sat s = true -> s_T s = Some T -> s_d2 s = Some d -> fits D (vapor_sat l) T d.
Proof. intros [N| ->] H0 H1 H2; [now left|right]. unfold vapor_sat. cbn [filter]. rewrite H0. cbn. now rewrite H1, H2. Qed.
Lemma lone_nth D l s i xs : evaluated_alone D xs -> List.length xs = List.length l -> nth_error l i = Some s -> lone D l s.
Proof.
  intros [N|L] LL H; [now left|right]. rewrite L in LL. destruct l as [|a [|b l]]; try discriminate. destruct i as [|[|i]]; try discriminate. now injection H as ->.
Qed.

Lemma sat_jet1 G T : sat_wf G -> sat_smooth G T -> exists vT w, sat_jet G (Some T) 1 = (Some (sat_value G T), Some vT, w).
Proof.
  intros W S. destruct (satcurve_exact G 1 T W S) as (v & vT & vTT & H & -> & _). unfold sat_jet. rewrite H. eauto.
Qed.

Section Along.
  Variables (D : mpdata) (F : list (fl * fl) -> inner) (d : R).
  Hypothesis RF : regular D F.
  Hypothesis Hd : 0 < d.
  Definition hd_point (T d : fl) : point :=
    if (flt T (num (mp_Tc D)) && (fle (mp_dsv D T) d && fle d (mp_dsl D T)))%bool
    then {| s_T := T; s_d1 := mp_dsl D T; s_d2 := mp_dsv D T; s_x := quality_of d (mp_dsl D T) (mp_dsv D T); s_sat := true |}
    else single T d.


  Lemma td_value T : 0 < T -> dome_at D T -> evaluable_around D T d -> exists v s1 s2,
    tditer D (Some d) (alone F) (Some T) = (Some v, Some s1, Some s2) /\
    (forall l, lone D l (hd_point (Some T) (Some d)) -> mixed_at F l (hd_point (Some T) (Some d)) = Some v) /\
    (forall l, lone D l (from_Td D (Some T, Some d)) -> mixed_at F l (from_Td D (Some T, Some d)) = Some v) /\
    mix_density (hd_point (Some T) (Some d)) = Some d /\ s_T (hd_point (Some T) (Some d)) = Some T.
  Proof.
    intros HT HD [EV EVS]. destruct (RF T d HT Hd EV) as (v & vT & vd & V).
    assert (V1 : alone F (Some T) (Some d) 1%nat = (Some v, Some vT, Some vd)) by exact (proj2 (V _ (fits_one _ _ _))).
    assert (OUT : forall l, lone D l (single (Some T) (Some d)) -> mixed_at F l (single (Some T) (Some d)) = Some v).
    { intros l Hl. pose proof (lone_liquid D l _ T d Hl eq_refl eq_refl) as FI. unfold mixed_at, single. cbn [s_T s_d1 s_sat]. apply (proj1 (V _ FI)). }
    unfold hd_point, from_Td.
    destruct (Rlt_dec T (mp_Tc D)) as [L|L].
    2:{ unfold num. rewrite flt_false by lra. cbn [andb]. exists v, vT, vd. split; [|repeat split; auto].
        unfold tditer. destruct (sat_jet (mp_DSL D) (Some T) 1) as [[a1 a2] a3]. destruct (sat_jet (mp_DSV D) (Some T) 1) as [[b1 b2] b3].
        unfold num. rewrite flt_false by lra. exact V1. }
    destruct (HD L) as (dL & dV & SA & HV0 & HVL). destruct (EVS L dL dV SA) as [EVL EVV]. destruct SA as (W1 & W2 & S1 & S2 & EL & EVv).
    assert (ML : mp_dsl D (Some T) = Some dL) by (unfold mp_dsl; now rewrite (sat_curve_value _ _ W1 S1), EL).
    assert (MV : mp_dsv D (Some T) = Some dV) by (unfold mp_dsv; now rewrite (sat_curve_value _ _ W2 S2), EVv).
    assert (JL : exists lT wl, sat_jet (mp_DSL D) (Some T) 1 = (Some dL, Some lT, wl)) by (rewrite EL; now apply sat_jet1).
    assert (JV : exists gT wg, sat_jet (mp_DSV D) (Some T) 1 = (Some dV, Some gT, wg)) by (rewrite EVv; now apply sat_jet1).
    destruct JL as (lT & wl & JL). destruct JV as (gT & wg & JV).
    rewrite ML, MV. unfold num. rewrite (flt_true T (mp_Tc D) L). cbn [andb].
    destruct (Rlt_dec d dV) as [C1|C1].
    { rewrite (fle_false dV d C1), (flt_false dV d) by lra. rewrite !andb_false_r. cbn [andb].
      exists v, vT, vd. split; [|repeat split; auto].
      unfold tditer. rewrite JL, JV, (fle_false dV d C1), !andb_false_r. exact V1. }
    destruct (Rlt_dec dL d) as [C2|C2].
    { rewrite (fle_false d dL C2), (flt_false d dL) by lra. rewrite !andb_false_r. cbn [andb].
      exists v, vT, vd. split; [|repeat split; auto].
      unfold tditer. rewrite JL, JV, (fle_false d dL C2), andb_false_r. exact V1. }
    rewrite (fle_true d dL), (fle_true dV d) by lra. cbn [andb].
    assert (K2 : 1 < dL / dV). { apply (Rmult_lt_reg_r dV); [lra|]. unfold Rdiv. rewrite Rmult_assoc, Rinv_l; lra. }
    destruct (RF T dV HT HV0 EVV) as (gv & gvT & gvd & GV). destruct (RF T dL HT ltac:(lra) EVL) as (lv & lvT & lvd & LV).
    assert (GV1 : alone F (Some T) (Some dV) 1%nat = (Some gv, Some gvT, Some gvd)) by exact (proj2 (GV _ (fits_one _ _ _))).
    assert (LV1 : alone F (Some T) (Some dL) 1%nat = (Some lv, Some lvT, Some lvd)) by exact (proj2 (LV _ (fits_one _ _ _))).
    set (x := (dL / d - 1) / (dL / dV - 1)).
    assert (Q : quality_of (Some d) (Some dL) (Some dV) = Some x).
    { unfold quality_of, num. rewrite !fdiv_ok by lra. unfold fsub. cbn [lift2]. rewrite fdiv_ok by lra. reflexivity. }
    rewrite Q. exists (lv * (1 - x) + gv * x).
    assert (TD : exists s1 s2, tditer D (Some d) (alone F) (Some T) = (Some (lv * (1 - x) + gv * x), Some s1, Some s2)).
    { unfold tditer. rewrite JL, JV. unfold num. rewrite (flt_true T (mp_Tc D) L), (fle_true d dL), (fle_true dV d) by lra. cbn [andb].
      rewrite GV1, LV1.
      rewrite (fdiv_ok dL dV), (fdiv_ok dL d), (fdiv_ok lT dL), (fdiv_ok gT dV) by lra. cbn [fsub lift2].
      rewrite (fdiv_ok 1 (dL / dV - 1)) by lra. cbn [fmul fadd fsub lift2 fneg lift1].
      repeat (rewrite !fdiv_ok by lra; cbn [fmul fadd fsub lift2 fneg lift1]).
      do 2 eexists. apply jet1_eq3; [|reflexivity|reflexivity]. unfold x. field. repeat split; lra. }
    destruct TD as (s1 & s2 & TD). exists s1, s2. split; [exact TD|].
    assert (MIX : forall l, lone D l {| s_T := Some T; s_d1 := Some dL; s_d2 := Some dV; s_x := Some x; s_sat := true |} -> mixed_at F l {| s_T := Some T; s_d1 := Some dL; s_d2 := Some dV; s_x := Some x; s_sat := true |} = Some (lv * (1 - x) + gv * x)).
    { intros l Hl. pose proof (lone_liquid D l _ T dL Hl eq_refl eq_refl) as F1. pose proof (lone_vapor D l _ T dV Hl eq_refl eq_refl eq_refl) as F2.
      unfold mixed_at. cbn [s_T s_d1 s_d2 s_x s_sat]. rewrite (proj1 (LV _ F1)), (proj1 (GV _ F2)). reflexivity. }
    split; [exact MIX|]. split.
    - intro l. destruct (Rlt_dec dV d) as [D1|D1]; [destruct (Rlt_dec d dL) as [D2|D2]|].
      + rewrite (flt_true d dL D2), (flt_true dV d D1). cbn [andb]. exact (MIX l).
      + rewrite (flt_false d dL) by lra. cbn [andb]. intro Hl. rewrite (OUT l Hl). f_equal. clear Hl.
        assert (Ed : d = dL) by lra. unfold x. rewrite Ed in *. pose proof (proj1 (V _ (fits_one _ _ _))) as P1. rewrite (proj1 (LV _ (fits_one _ _ _))) in P1. injection P1 as <-.
        field. split; lra.
      + rewrite (flt_false dV d) by lra. rewrite andb_false_r. intro Hl. rewrite (OUT l Hl). f_equal. clear Hl.
        assert (Ed : d = dV) by lra. unfold x. rewrite Ed in *. pose proof (proj1 (V _ (fits_one _ _ _))) as P1. rewrite (proj1 (GV _ (fits_one _ _ _))) in P1. injection P1 as <-.
        field. split; lra.
    - split; [|reflexivity]. unfold mix_density. cbn [s_T s_d1 s_d2 s_x s_sat]. unfold num. cbn [fsub lift2]. rewrite !fdiv_ok by lra.
      cbn [fadd lift2].
      assert (EQ : (1 - x) / dL + x / dV = 1 / d) by (unfold x; field; repeat split; lra).
      rewrite EQ, fdiv_ok by (apply Rgt_not_eq, Rdiv_lt_0_compat; lra). f_equal. field. lra.
  Qed.
End Along.

Lemma solves_scale f g a b y ep v k : 0 < k -> (forall x, a <= x <= b -> g x = k * f x) ->
  solves f a b y ep v -> solves g a b (k * y) ep v.
Proof.
  intros Hk G [Hv H]. split; [exact Hv|]. destruct H as [H|(lo & hi & L1 & L2 & L3 & Ev & W & B)].
  - left. rewrite G by exact Hv. replace (k * f v - k * y) with (k * (f v - y)) by ring.
    rewrite !Rabs_mult, (Rabs_right k) by lra. replace (ep * (k * Rabs y)) with (k * (ep * Rabs y)) by ring.
    apply Rmult_le_compat_l; lra.
  - right. exists lo, hi. repeat (split; [assumption|]). rewrite !G by lra.
    destruct B as [[B1 B2]|[B1 B2]]; [left|right]; split; apply Rmult_le_compat_l; lra.
Qed.
Lemma bracketed_scale f g a b y k : 0 < k -> a <= b -> (forall x, a <= x <= b -> g x = k * f x) ->
  bracketed g a b (k * y) -> bracketed f a b y.
Proof.
  intros Hk Hab G. unfold bracketed. rewrite !G by lra.
  assert (LT : forall p q, k * p < k * q -> p < q) by (intros p q; apply Rmult_lt_reg_l; exact Hk).
  assert (LE : forall p q, k * p <= k * q -> p <= q) by (intros p q; apply Rmult_le_reg_l; exact Hk).
  intros [[H1 H2]|[H1 H2]]; [left|right]; auto.
Qed.
Lemma bracketed_unscale f g a b y k : 0 < k -> a <= b -> (forall x, a <= x <= b -> g x = k * f x) ->
  bracketed f a b y -> bracketed g a b (k * y).
Proof.
  intros Hk Hab G. unfold bracketed. rewrite !G by lra.
  intros [[H1 H2]|[H1 H2]]; [left|right]; split; try (apply Rmult_lt_compat_l; lra); apply Rmult_le_compat_l; lra.
Qed.

Section HD.
  Variables (D : mpdata) (E : env) (fuel : nat) (z : sizes).
  Hypothesis Z : mp_sizes D E z.
  Hypothesis WF : mp_wf D.
  Hypothesis ET : ao_Tscale (mp_AO D) = ar_Tscale (mp_AR D).
  Local Notation kg := (kgs D (z_kM z)).
  Let kVp : 0 < z_kV z := kV_pos _ _ _ _ _ _ _ _ Z.
  Let kgp : 0 < kg := kgs_pos _ _ _ _ _ _ _ _ Z.
  Let kEp : 0 < z_kE z := kE_pos _ _ _ _ _ _ _ _ Z.
  Let kTp : 0 < z_kT z := kT_pos _ _ _ _ _ _ _ _ Z.

  (* the routine and the unit of a searched property *)
  Lemma searched_val n m : In (n, m) (searched D E fuel) -> exists F c, regular D F /\ 0 < c /\
    (forall varg kw, m varg kw = do l <- mp_argparse D E fuel varg kw;
                  Ok (map (fmul (Some c)) (map (mixed_at F l) l), map s_x l)) /\
    n <> "T" /\ n <> "p" /\ n <> "d" /\ n <> "v" /\ n <> "x" /\
    (forall s a, dget n s = Some a -> (forall k, In k ["e"; "h"; "s"] -> k <> n -> dget k s = None) ->
       match dget "h" s, dget "e" s, dget "s" s with
       | Some v, _, _ => Some (in_h D, gH D (z_kE z) (z_kM z) v)
       | None, Some v, _ => Some (in_e D, gH D (z_kE z) (z_kM z) v)
       | None, None, Some v => Some (in_s D, gS D (z_kT z) (z_kE z) (z_kM z) v)
       | None, None, None => None
       end = Some (alone F, map (fmul (Some (/ c))) a)).
  Proof.
    assert (c1 : 0 < kg / z_kE z) by (apply Rdiv_lt_0_compat; assumption).
    assert (c2 : 0 < kg / z_kE z * (z_kT z / (9/5))) by (apply Rmult_lt_0_compat; [assumption|]; apply Rdiv_lt_0_compat; lra).
    assert (I1 : / (kg / z_kE z) = z_kE z / kg) by (field; lra).
    assert (I2 : / (kg / z_kE z * (z_kT z / (9/5))) = z_kE z / kg / (z_kT z / (9/5))) by (field; lra).
    intros [H|[H|[H|[]]]]; injection H as <- <-.
    - exists (mp_e D), (kg / z_kE z). split; [now apply regular_e|]. split; [exact c1|]. split.
      { intros varg kw. unfold mm_e, method. destruct (mp_argparse _ _ _ _ _); [|reflexivity]. cbn [bind]. rewrite (out_energy_val _ _ _ _ _ _ _ _ Z). reflexivity. }
      repeat (split; [discriminate|]). intros s a G A. rewrite (A "h"), G by (cbn; auto; discriminate). rewrite I1. reflexivity.
    - exists (mp_h D), (kg / z_kE z). split; [now apply regular_h|]. split; [exact c1|]. split.
      { intros varg kw. apply (mm_h_val D E fuel z Z). }
      repeat (split; [discriminate|]). intros s a G A. rewrite G. rewrite I1. reflexivity.
    - exists (mp_s D), (kg / z_kE z * (z_kT z / (9/5))). split; [now apply regular_s|]. split; [exact c2|]. split.
      { intros varg kw. apply (mm_s_val D E fuel z Z). }
      repeat (split; [discriminate|]). intros s a G A. rewrite (A "h"), (A "e"), G by (cbn; auto; discriminate). rewrite I2. reflexivity.
  Qed.

  (* density or specific volume in SI units *)
  Lemma density_val n r d : density_arg D z n r d -> exists f : fl -> fl, f (Some r) = Some d /\
    forall s b, dget n s = Some b -> (forall k, In k ["d"; "v"] -> k <> n -> dget k s = None) ->
      match dget "v" s with Some v => Some (gV D (z_kV z) (z_kM z) v) | None => option_map (gD D (z_kV z) (z_kM z)) (dget "d" s) end = Some (map f b).
  Proof.
    intros [(-> & H)|(-> & Hr & H)]; unfold density_is in H; fold (kgs D (z_kM z)) in H.
    - exists (fmul (Some (kg / z_kV z))). split; [cbn; f_equal; rewrite <- H; field; lra|].
      intros s b G A. rewrite (A "v"), G by (cbn; auto; discriminate). reflexivity.
    - exists (fun x => reciprocal (fmul (Some (z_kV z / kg)) x)). split.
      + unfold reciprocal. cbn. destruct (Req_EM_T (z_kV z / kg * r) 0) as [Q|Q].
        * exfalso. apply Rmult_integral in Q. destruct Q as [Q|Q]; [|contradiction].
          assert (0 < z_kV z / kg) by (apply Rdiv_lt_0_compat; assumption). lra.
        * f_equal. rewrite <- H. field. repeat split; lra.
      + intros s b G A. rewrite G. reflexivity.
  Qed.

  Lemma argparse_hd n m dn varg kw i y r d F c : state_pair varg kw i n y dn r -> In (n, m) (searched D E fuel) -> density_arg D z dn r d ->
    (n <> "T" /\ n <> "p" /\ n <> "d" /\ n <> "v" /\ n <> "x" /\
    (forall s a, dget n s = Some a -> (forall k, In k ["e"; "h"; "s"] -> k <> n -> dget k s = None) ->
       match dget "h" s, dget "e" s, dget "s" s with
       | Some v, _, _ => Some (in_h D, gH D (z_kE z) (z_kM z) v)
       | None, Some v, _ => Some (in_e D, gH D (z_kE z) (z_kM z) v)
       | None, None, Some v => Some (in_s D, gS D (z_kT z) (z_kE z) (z_kM z) v)
       | None, None, None => None
       end = Some (alone F, map (fmul (Some (/ c))) a))) ->
    exists l, nth_error l i = Some (Some (/ c * y), Some d) /\ mp_argparse D E fuel varg kw = from_hd D E (alone F) l /\
      call_warns D E fuel varg kw = hd_warns D E (alone F) l.
  Proof.
    intros S Hn Hdn (N1 & N2 & N3 & N4 & N5 & HI).
    destruct (pair_args D E fuel _ _ _ _ _ _ _ S) as (a & b & Ea & Eb & Ga & Gb & A & Hc & Hi & -> & ->).
    rewrite (si_args_val _ _ _ _ _ _ _ _ Z).
    destruct (density_val _ _ _ Hdn) as (f & Fr & HF).
    assert (DN : (dn = "d" \/ dn = "v")) by (destruct Hdn as [(-> & _)|(-> & _)]; auto).
    rewrite (A "T"), (A "p"), (A "x") by (try assumption; try (now apply not_eq_sym); destruct DN; subst; discriminate).
    cbn [ores bind].
    assert (IV := HI _ a Ga ltac:(intros k Hk Hk2; apply A; [exact Hk2|]; destruct DN; subst; cbn in Hk; intuition congruence)).
    assert (DV := HF _ b Gb ltac:(intros k Hk Hk2; apply A; [cbn in Hk; intuition congruence|exact Hk2])).
    match goal with |- context [{| a_T := _; a_p := _; a_d := ?m; a_x := _; a_inv := ?m2 |}] =>
      replace m with (Some (map f b)) by (symmetry; exact DV); replace m2 with (Some (alone F, map (fmul (Some (/ c))) a)) by (symmetry; exact IV) end.
    unfold from_args, args_warns. cbn [a_inv a_T a_p a_d a_x].
    destruct (broadcast2_at (fmul (Some (/ c))) f a b i (Some y) (Some r) Ea Eb Hc Hi) as (l & BL & NL).
    rewrite BL. cbn [bind]. exists l. split; [exact (eq_trans NL (f_equal (fun v => Some (Some (/ c * y), v)) Fr))|]. split; reflexivity.
  Qed.
  Lemma scalar_Td dn t r T d : kelvin_is E t T -> density_arg D z dn r d -> state_Td D E z [] [("T", [Some t]); (dn, [Some r])] 0 T d.
  Proof.
    intros Kt Hdn. assert (DN : (dn = "d" \/ dn = "v")) by (destruct Hdn as [(-> & _)|(-> & _)]; auto).
    assert (NE : "T" <> dn) by (destruct DN; subst; discriminate).
    assert (A : mp_acceptable [] [("T", [Some t]); (dn, [Some r])]).
    { unfold mp_acceptable. destruct DN; subst; cbn; (split; [lia|]); (split; [repeat constructor; cbn; intuition discriminate|]);
      (split; [intros n [<-|[<-|[]]]; auto 8|]); (split; [left; lia|]); repeat split; intuition discriminate. }
    destruct (pair_scalar "T" t dn r NE A) as (P1 & P2 & P3 & _ & _ & P4 & P5).
    split; [exact P1|]. split; [exact P2|]. split; [exact P3|]. split; [exists t; auto|].
    destruct Hdn as [(-> & H)|(-> & Hr & H)]; [left|right]; exists r; auto.
  Qed.

  Theorem T_from_density n m : In (n, m) (searched D E fuel) -> forall dn varg kw i y r d ts xs,
    state_pair varg kw i n y dn r -> density_arg D z dn r d -> 0 < d ->
    forall a b, mp_Tlim D = (a, b) -> 0 < a <= b -> (forall T, a <= T <= b -> dome_at D T) ->
    (forall T, a <= T <= b -> evaluable_around D T d) ->
    mm_T D E fuel varg kw = Ok (ts, xs) -> evaluated_alone D xs -> call_warns D E fuel varg kw = Ok false ->
    forall Y, (forall t T, kelvin_is E t T -> a <= T <= b -> exists x, m [] [("T", [Some t]); (dn, [Some r])] = Ok ([Some (Y T)], [x])) ->
    Y a <> y -> Y b <> y ->
    (bracketed Y a b y -> exists t T, nth_error ts i = Some (Some t) /\ kelvin_is E t T /\ solves Y a b y (1 / 1000000) T /\
       (exists ys, m varg kw = Ok (ys, xs) /\ nth_error ys i = Some (Some (Y T))) /\
       (exists ds r', mm_d D E fuel varg kw = Ok (ds, xs) /\ nth_error ds i = Some (Some r') /\ density_is D z r' d)) /\
    (~ bracketed Y a b y -> e_oob E = None -> nth_error ts i = Some None).
  Proof.
    intros Hn dn varg kw i y r d ts xs S Hdn Hd a b Hab Hr HD EVA HT AL Hw Y HY Ya Yb.
    destruct (searched_val n m Hn) as (F & c & RF & Hc & HM & HI).
    destruct (argparse_hd n m dn varg kw i y r d F c S Hn Hdn HI) as (l & Nl & A & W). rewrite W in Hw. clear W HI.
    assert (kt : forall T, exists t, kelvin_is E t T /\ t = from_kelvin (z_T z) T).
    { intro T. exists (from_kelvin (z_T z) T). split; [|reflexivity]. apply (tscale_K _ _ _ _ _ _ _ _ Z). now rewrite to_from_kelvin. }
    (* the function searched *)
    assert (VAL : forall T, a <= T <= b -> exists s1 s2, tditer D (Some d) (alone F) (Some T) = (Some (/ c * Y T), Some s1, Some s2) /\
      (forall l, lone D l (hd_point D (Some T) (Some d)) -> mixed_at F l (hd_point D (Some T) (Some d)) = Some (/ c * Y T)) /\
      mix_density (hd_point D (Some T) (Some d)) = Some d /\ s_T (hd_point D (Some T) (Some d)) = Some T).
    { intros T RT. destruct (td_value D F d RF Hd T ltac:(lra) (HD T RT) (EVA T RT)) as (v & s1 & s2 & V1 & V2 & V3 & V4 & V5).
      destruct (kt T) as (t & Kt & _). destruct (HY t T Kt RT) as (x & HMt). rewrite HM in HMt.
      destruct (argparse_Td D E fuel _ _ _ _ _ _ Z _ _ _ _ _ _ (z_eta D E z Z) (scalar_Td dn t r T d Kt Hdn)) as (l1 & A1 & N1);
        [unfold in_range; rewrite Hab; exact RT|].
      rewrite A1 in HMt. cbn [bind] in HMt. injection HMt as Q1 Q2.
      destruct l1 as [|p1 [|p2 l1]]; try discriminate. cbn in N1. injection N1 as ->.
      cbn [map] in Q1. rewrite V3 in Q1 by (right; reflexivity). cbn [fmul lift2] in Q1. injection Q1 as Q1.
      assert (v = / c * Y T) as -> by (rewrite <- Q1; field; lra). exists s1, s2. repeat split; auto. }
    rewrite (mm_T_val D E fuel z Z), A in HT. unfold from_hd in HT. unfold hd_warns in Hw.
    destruct (hybrid1 true ep1 50 (xf_of (e_oob E)) (map (hd_elem D (alone F)) l)) as [[qs w]|] eqn:HYB; [|discriminate].
    cbn [bind fst snd] in HT, Hw. injection Hw as ->.
    match type of HT with context [map2 ?f l qs] => set (la := map2 f l qs) in HT end. injection HT as <- <-.
    assert (FH : mp_argparse D E fuel varg kw = Ok la).
    { rewrite A. unfold from_hd. rewrite HYB. reflexivity. }
    pose proof (nth_map_some (hd_elem D (alone F)) _ _ _ Nl) as Ne. cbn [hd_elem] in Ne.
    set (e := {| e_fn := _ |}) in Ne.
    assert (PR : problem e (fun T => / c * Y T) a b (/ c * y)).
    { subst e. constructor; cbn [e_min e_max e_y e_fn]; rewrite ?Hab; try reflexivity; [lra| | |].
      - intros T RT. destruct (VAL T RT) as (s1 & s2 & V & _). exists (Fin s1). split; [|discriminate].
        exact (f_equal (fun t : fl * fl * fl => let '(y, yt, _) := t in (xf_of y, xf_of yt)) V).
      - intros [Q _]. apply Ya. apply (Rmult_eq_reg_l (/ c)); [exact Q|]. apply Rinv_neq_0_compat. lra.
      - intros [Q _]. apply Yb. apply (Rmult_eq_reg_l (/ c)); [exact Q|]. apply Rinv_neq_0_compat. lra. }
    assert (EP : 0 <= ep1) by (unfold ep1; lra).
    assert (ic : 0 < / c) by (now apply Rinv_0_lt_compat).
    destruct (hybrid_elem _ _ _ _ _ _ _ _ _ _ _ EP HYB Ne eq_refl PR) as [HB HN].
    assert (PT : forall q, nth_error qs i = Some q -> nth_error la i = Some (hd_point D (fl_of q) (Some d))).
    { intros q Nq. unfold la, map2. rewrite (nth_map_some _ _ _ _ (nth_combine _ _ _ _ _ Nl Nq)). reflexivity. }
    split.
    - intro B. destruct HB as (T & NT & SV).
      { revert B. apply bracketed_unscale; [exact ic|lra|reflexivity]. }
      assert (RT : a <= T <= b) by (destruct SV as [RT _]; exact RT).
      destruct (VAL T RT) as (s1 & s2 & _ & V2 & V3 & V4). specialize (PT _ NT). cbn [fl_of] in PT.
      destruct (kt T) as (t & Kt & Et). exists t, T.
      split; [rewrite (nth_map_some _ _ _ _ (nth_map_some _ _ _ _ PT)), V4, Et; reflexivity|]. split; [exact Kt|].
      split. { replace y with (c * (/ c * y)) by (field; lra). apply (solves_scale (fun T => / c * Y T)); [exact Hc|intros x _; field; lra|exact SV]. }
      split.
      + eexists. rewrite HM, FH. cbn [bind]. split; [reflexivity|].
        rewrite (nth_map_some _ _ _ _ (nth_map_some _ _ _ _ PT)), V2 by (apply (lone_nth D la _ i (map s_x la)); [exact AL|now rewrite map_length|exact PT]). cbn. do 2 f_equal. field. lra.
      + do 2 eexists. rewrite (mm_d_val D E fuel _ _ _ _ _ _ Z), FH. cbn [bind]. split; [reflexivity|].
        split; [rewrite (nth_map_some _ _ _ _ (nth_map_some mix_density _ _ _ PT)), V3; reflexivity|].
        unfold density_is. fold (kgs D (z_kM z)). field. lra.
    - intros B O. assert (NT : nth_error qs i = Some (xf_of (e_oob E))).
      { apply HN. intro B2. apply B. revert B2. replace (/ c * y) with (/ c * y) by reflexivity.
        intro B2. apply (bracketed_scale Y (fun T => / c * Y T) a b y (/ c)); auto; lra. }
      specialize (PT _ NT). rewrite O in PT. cbn [xf_of fl_of] in PT.
      rewrite (nth_map_some _ _ _ _ (nth_map_some _ _ _ _ PT)). reflexivity.
  Qed.
End HD.

(* A concrete steam with the saturation coefficients of the release and short lists of terms. *)
From Coq Require Import Reals ZArith List Bool Lia Lra Arith.
From Verif Require Import Model_If97 Spec_Mp1 Spec_If97 Proof_Jets Proof_Mp1Poly Proof_If97Poly Proof_If97Sat Proof_If97En Proof_If97Bis Proof_If97Prop Proof_If97Inv.
Import ListNotations.
Local Open Scope R_scope.

Definition bxW : bound := {| b_0 := 3480.5185628969; b_1 := -11.671859879975; b_2 := 0.010192970039326; b_3 := 572.54459862746; b_4 := 139.1883977887 |}.
Definition bcW : bound := {| b_0 := 9058.4278514723; b_1 := -6.7955786399241; b_2 := 0.0012809002730136; b_3 := 2652.6571908428; b_4 := 45.257578905948 |}.
Definition exW : ifdata := {| if_R := 0.461526; if_mw := 18.015268; if_Tc := 647.096; if_pc := 220.64; if_dc := 322; if_Tt := 273.16; if_pt := 0.00611657;
  if_r1 := [((0%Z, 0%Z, 5) : term); ((1%Z, 1%Z, 3/10) : term)];
  if_r2o := [((0%Z, 1%Z, 10) : term)]; if_r2r := [((1%Z, 1%Z, -1/50) : term)];
  if_r3 := [((0%Z, (-1)%Z, 1) : term); ((2%Z, 0%Z, 1) : term)]; if_r3ln := 1;
  if_r5o := [((0%Z, (-1)%Z, 2) : term); ((0%Z, 0%Z, -20) : term); ((0%Z, 1%Z, 8) : term)]; if_r5r := [((1%Z, 1%Z, 1/100) : term)];
  if_r4 := rel4; if_b23 := bxW; if_b2bc := bcW;
  if_th1 := [((0%Z, 0%Z, 300) : term)]; if_th2a := [((0%Z, 0%Z, 600) : term)]; if_th2b := [((0%Z, 0%Z, 700) : term)]; if_th2c := [((0%Z, 0%Z, 800) : term)] |}.

Ltac usab := split; [discriminate|]; split;
  [cbn; unfold term_lt, tm, tn; cbn; repeat split; intros; intuition (subst; cbn; lia)
  |intros ? HH; cbn in HH; unfold tm, tn; repeat (destruct HH as [<-|HH]; [cbn; lia|]); destruct HH].
Lemma usW1 : usable (if_r1 exW). Proof. usab. Qed.
Lemma usW2o : usable (if_r2o exW). Proof. usab. Qed.
Lemma usW2r : usable (if_r2r exW). Proof. usab. Qed.
Lemma usW3 : usable (if_r3 exW). Proof. usab. Qed.
Lemma usW5o : usable (if_r5o exW). Proof. usab. Qed.
Lemma usW5r : usable (if_r5r exW). Proof. usab. Qed.
Ltac noneg := right; intros ? HH; cbn in HH; unfold tm, tn; repeat (destruct HH as [<-|HH]; [cbn; lia|]); destruct HH.
Lemma fitW1 T p : fit1 exW T p.
Proof. split; [exact usW1|]. split; noneg. Qed.
Lemma fitW2 T p : fit2 exW T p.
Proof. split; (split; [exact usW2o || exact usW2r|split; noneg]). Qed.
Lemma fitW5 T p : 0 < T -> fit5 exW T p.
Proof.
  intro HT. assert (1000 / T <> 0) by (apply Rgt_not_eq, Rdiv_lt_0_compat; lra).
  split; (split; [exact usW5o || exact usW5r|split; [noneg|left; assumption]]).
Qed.
Lemma fitW3 T : 0 < T -> fit3 exW T.
Proof. intro HT. split; [exact usW3|]. left. apply Rgt_not_eq, Rdiv_lt_0_compat; cbn; lra. Qed.

(* a saturated state at 10 bar *)
Lemma satW : exists T, 452 < T < 454 /\ on_branch rel4 1 (scaled_T rel4 T) /\ if_ps exW (Some T) = Some 10 /\ if_Ts exW (Some 10) = Some T.
Proof.
  destruct rel4_branch as (T & HT & HB). exists T. split; [exact HT|]. split; [exact HB|].
  destruct (curve_methods exW T 1) as [A B]; [cbn; lra|cbn; lra|exact HB|].
  replace (10 * 1 ^ 4) with 10 in * by ring. auto.
Qed.
Lemma regionW : exists T, 452 < T < 454 /\ region exW (Some T) (Some 20) = 1%Z /\ region exW (Some T) (Some 5) = 2%Z /\
  region exW (Some 650) (Some 300) = 3%Z /\ region exW (Some 900) (Some 300) = 2%Z /\ region exW (Some 1500) (Some 100) = 5%Z.
Proof.
  destruct satW as (T & HT & _ & Hs & _). exists T. split; [exact HT|]. split; [|split; [|split; [|split]]].
  - apply (region_one exW T 20 10 Hs). unfold accepted_range. lra.
  - apply region_two; [intros _; eauto|]. unfold accepted_range. split; [lra|]. left. split; [lra|]. exists 10. split; [exact Hs|lra].
  - apply region_three. unfold accepted_range, boundary23. cbn. lra.
  - apply region_two; [intro; lra|]. unfold accepted_range. lra.
  - apply region_five. unfold accepted_range. lra.
Qed.

(* its pressure in region 3 is (n + 2 n^3) dc R T / 100 *)
Lemma pressureW T n : 0 < n -> 0 < T -> pressure_is exW T n (322 * 0.461526 * T * (n + 2 * n^3) / 100).
Proof.
  intros Hn HT. exists (2 * n + / n). split.
  - eapply (D_ext_pos (fun u => powerRZ (647.096 / T) (-1) + (u * u + ln u))); [exact Hn| |].
    + intros u Hu. unfold phi3, poly. cbn [if_r3 exW]; unfold total; cbn [exW map fold_right ta tm tn fst snd if_r3ln if_Tc].
      change (powerRZ u 0) with 1. change (powerRZ (647.096 / T) 0) with 1. change (powerRZ u 2) with (u * (u * 1)). ring.
    + eapply D_eq.
      * apply D_plus; [apply D_const|]. apply D_plus; [apply D_mult; apply D_id|apply D_ln; exact Hn].
      * cbv beta; ring.
  - cbn [if_dc if_R exW]. field. lra.
Qed.
Lemma bracketW : exists p0 p1, pressure_is exW 650 0.1 p0 /\ pressure_is exW 650 2.4 p1 /\ p0 <= 300 < p1.
Proof.
  do 2 eexists. split; [apply (pressureW 650 0.1); lra|]. split; [apply (pressureW 650 2.4); lra|]. lra.
Qed.
(* at 900 bar and 650 K a substance with a weaker logarithm never reaches the pressure *)
Definition exV : ifdata := {| if_R := 0.461526; if_mw := 18.015268; if_Tc := 647.096; if_pc := 220.64; if_dc := 322; if_Tt := 273.16; if_pt := 0.00611657;
  if_r1 := if_r1 exW; if_r2o := if_r2o exW; if_r2r := if_r2r exW; if_r3 := [((0%Z, 0%Z, 1) : term)]; if_r3ln := 1/10;
  if_r5o := if_r5o exW; if_r5r := if_r5r exW; if_r4 := rel4; if_b23 := bxW; if_b2bc := bcW;
  if_th1 := if_th1 exW; if_th2a := if_th2a exW; if_th2b := if_th2b exW; if_th2c := if_th2c exW |}.
Lemma unreachedV : region exV (Some 650) (Some 900) = 3%Z /\ fit3 exV 650 /\
  (forall n q, 0.1 < n < 2.4 -> pressure_is exV 650 n q -> q <= 900).
Proof.
  split; [apply region_three; unfold accepted_range, boundary23; cbn; lra|]. split; [split; [usab|noneg]|].
  intros n q Hn (fx & HD & ->).
  assert (HD2 : deriv (fun u => phi3 exV u (if_Tc exV / 650)) n (1 / 10 * / n)).
  { eapply (D_ext_pos (fun u => 1 + 1 / 10 * ln u)); [lra| |].
    - intros u Hu. unfold phi3, poly. cbn [if_r3 exV]; unfold total; cbn [exV map fold_right ta tm tn fst snd if_r3ln if_Tc].
      change (powerRZ u 0) with 1. change (powerRZ (647.096 / 650) 0) with 1. ring.
    - eapply D_eq; [apply D_plus; [apply D_const|apply D_scal, D_ln; lra]|ring]. }
  rewrite (uniqueness_limite _ _ _ _ HD HD2). cbn [if_dc if_R exV].
  replace (n * n * (1 / 10 * / n)) with (n / 10) by (field; lra). lra.
Qed.

(* enthalpies of the phases *)
Lemma gibbsW1 p T h s v e cp : 0 < T -> gibbs_state (gibbs1 exW) p T h s v e cp -> h = 0.461526 * (3/10) * (7.1 - p / 165.3) * 1386.
Proof.
  intros HT (A & _ & Hh & _).
  assert (B : deriv (fun u => gibbs1 exW p u) T (0.461526 * (5 - 3/10 * (7.1 - p / 165.3) * 1.222))).
  { eapply (D_ext_pos (fun u => 0.461526 * (3/10 * (7.1 - p / 165.3) * 1386) + 0.461526 * (5 - 3/10 * (7.1 - p / 165.3) * 1.222) * u)); [exact HT| |].
    - intros u Hu. unfold gibbs1, gamma1, poly. cbn [if_r1 exW]; unfold total; cbn [exW map fold_right ta tm tn fst snd if_R].
      change (powerRZ ?a 0) with 1. change (powerRZ (7.1 - p / 165.3) 1) with ((7.1 - p / 165.3) * 1). change (powerRZ (1386 / u - 1.222) 1) with ((1386 / u - 1.222) * 1).
      change (powerRZ (7.1 - p / 165.3) 0) with 1. change (powerRZ (1386 / u - 1.222) 0) with 1. field. lra.
    - apply D_affine. }
  pose proof (uniqueness_limite _ _ _ _ A B) as Es. rewrite Hh. replace s with (- (0.461526 * (5 - 3/10 * (7.1 - p / 165.3) * 1.222))) by (rewrite <- Es; ring).
  unfold gibbs1, gamma1, poly. cbn [if_r1 exW]; unfold total; cbn [exW map fold_right ta tm tn fst snd if_R].
  change (powerRZ (7.1 - p / 165.3) 1) with ((7.1 - p / 165.3) * 1). change (powerRZ (1386 / T - 1.222) 1) with ((1386 / T - 1.222) * 1).
  change (powerRZ (7.1 - p / 165.3) 0) with 1. change (powerRZ (1386 / T - 1.222) 0) with 1. field. lra.
Qed.
Lemma gibbsW2 p T h s v e cp : 0 < T -> gibbs_state (gibbs2 exW) p T h s v e cp -> h = 0.461526 * (5400 - p / 10 * 540 / 50).
Proof.
  intros HT (A & _ & Hh & _).
  assert (B : deriv (fun u => gibbs2 exW p u) T (0.461526 * (p / 10 * 0.5 / 50 + ln (p / 10)))).
  { eapply (D_ext_pos (fun u => 0.461526 * (5400 - p / 10 * 540 / 50) + 0.461526 * (p / 10 * 0.5 / 50 + ln (p / 10)) * u)); [exact HT| |].
    - intros u Hu. unfold gibbs2, gamma2, poly. cbn [if_r2o if_r2r exW]; unfold total; cbn [exW map fold_right ta tm tn fst snd if_R].
      change (powerRZ (p / 10) 1) with (p / 10 * 1). change (powerRZ (540 / u) 1) with (540 / u * 1).
      change (powerRZ (540 / u - 0.5) 1) with ((540 / u - 0.5) * 1). change (powerRZ (p / 10) 0) with 1. field. lra.
    - apply D_affine. }
  pose proof (uniqueness_limite _ _ _ _ A B) as Es. rewrite Hh. replace s with (- (0.461526 * (p / 10 * 0.5 / 50 + ln (p / 10)))) by (rewrite <- Es; ring).
  unfold gibbs2, gamma2, poly. cbn [if_r2o if_r2r exW]; unfold total; cbn [exW map fold_right ta tm tn fst snd if_R].
  change (powerRZ (p / 10) 1) with (p / 10 * 1). change (powerRZ (540 / T) 1) with (540 / T * 1).
  change (powerRZ (540 / T - 0.5) 1) with ((540 / T - 0.5) * 1). change (powerRZ (p / 10) 0) with 1. field. lra.
Qed.
(* hsd with a temperature and a quality takes the phases at the default pressure *)
Theorem hsd_wrong : exists D T p x h s d, sat_state D false true (Some T) (Some p) = (Some T, Some 10) /\ 0 <= x <= 1 /\
  fit1 D T 10 /\ fit2 D T 10 /\
  prop_hsd D false (Some T) (Some p) (Some x) = Ok (h, s, d) /\ if_h D false true (Some T) (Some p) (Some x) <> Ok h.
Proof.
  destruct satW as (T & HT & _ & Hs & _). exists exW, T, 1.01325, 0.
  assert (ES : sat_state exW false true (Some T) (Some 1.01325) = (Some T, Some 10)) by (cbn [sat_state]; rewrite Hs; reflexivity).
  destruct (saturated_state exW false true (Some T) (Some 1.01325) 0 T 10 ES) as (hL & sL & vL & eL & cpL & hV & sV & vV & eV & cpV & S1 & S2 & A & _); try lra; [apply fitW1|apply fitW2|].
  destruct (saturated_state exW false false (Some T) (Some 1.01325) 0 T 1.01325 eq_refl) as (hL' & sL' & vL' & eL' & cpL' & hV' & sV' & vV' & eV' & cpV' & S1' & S2' & A' & B' & C'); try lra; [apply fitW1|apply fitW2|].
  assert (HD : exists d, prop_d exW false false (Some T) (Some 1.01325) (Some 0) = Ok d).
  { unfold prop_d. rewrite (flt_no 0 0 (Rle_refl 0) : flt (Some 0) (num 0) = false). cbn [sat_state].
    destruct (phases_of exW T 1.01325 (fitW1 _ _) (fitW2 _ _)) as (? & ? & ? & ? & ? & ? & ? & ? & ? & ? & ? & ? & _ & _ & _ & _ & _ & _ & Q & _); [lra|lra|].
    rewrite Q. eexists. reflexivity. }
  destruct HD as [d HD]. do 3 eexists. split; [exact ES|]. split; [lra|]. split; [apply fitW1|]. split; [apply fitW2|]. split.
  - apply (hsd_agrees exW false false). { right. split; [lra|]. right. split; [reflexivity|]. apply flt_no. lra. }
    split; [exact A'|]. split; [exact B'|exact HD].
  - rewrite A. intro Q. injection Q as Q. unfold mixed_value in Q.
    apply gibbsW1 in S1; [|lra]. apply gibbsW1 in S1'; [|lra]. lra.
Qed.
Lemma domeW : exists T hL hV, 452 < T < 454 /\ if_Ts exW (Some 10) = Some T /\ phases exW (h_g exW) 1 (Some T) (Some 10) = Ok (Some hL, Some hV) /\ hL < hV.
Proof.
  destruct satW as (T & HT & _ & _ & Hs).
  destruct (phases_of exW T 10 (fitW1 _ _) (fitW2 _ _)) as (hL & sL & vL & eL & cpL & cvL & hV & sV & vV & eV & cpV & cvV & S1 & _ & S2 & _ & Q & _); [lra|lra|].
  exists T, hL, hV. split; [exact HT|]. split; [exact Hs|]. split; [exact Q|].
  apply gibbsW1 in S1; [|lra]. apply gibbsW2 in S2; [|lra]. lra.
Qed.
(* T_h answers inside the dome *)
Lemma T_hW : exists T h, 0 < T /\ T_h exW (Some h) (Some 10) = Ok (Some T, Some (1/4)) /\ if_h exW true false None (Some 10) (Some (1/4)) = Ok (Some h).
Proof.
  destruct domeW as (T & hL & hV & HT & Hs & Q & L).
  destruct (T_h_round_trip exW false 10 (1/4) T hL hV) as (h & A & B); auto; [apply flt_yes; lra|lra|].
  exists T, h. split; [lra|]. split; [exact B|apply A].
Qed.

(* ---- the remaining instances ---- *)
Lemma cold_state D dT dp T p x : usable (if_r1 D) -> usable (if_r2o D) -> usable (if_r2r D) ->
  T < 273.15 -> 0 <= p <= 1000 -> x < 0 ->
  ~ documented_range T p /\ exists h, if_h D dT dp (Some T) (Some p) (Some x) = Ok h.
Proof. intros. split; [unfold documented_range; lra|now apply cold_answered]. Qed.
Lemma outW : ~ accepted_range 1500 600.
Proof. unfold accepted_range. lra. Qed.
Lemma inst_C53 : n9 (if_r4 exW) <= 0 /\ n9 (if_r4 exW) <> 0 /\ exists T, 452 < T < 454 /\ T < n10 (if_r4 exW) /\
  on_branch (if_r4 exW) 1 (scaled_T (if_r4 exW) T) /\ if_ps exW (Some T) = Some 10 /\ if_Ts exW (Some 10) = Some T.
Proof.
  split; [cbn; lra|]. split; [cbn; lra|]. destruct satW as (T & HT & HB & A & B). exists T. split; [exact HT|]. split; [cbn; lra|]. auto.
Qed.
Lemma inst_C54 : region exW (Some 650) (Some 300) = 3%Z /\ fit3 exW 650 /\ 0 < if_dc exW * if_R exW /\
  (exists p0 p1, pressure_is exW 650 0.1 p0 /\ pressure_is exW 650 2.4 p1 /\ p0 <= 300 < p1) /\
  region exV (Some 650) (Some 900) = 3%Z /\ fit3 exV 650 /\ (forall n q, 0.1 < n < 2.4 -> pressure_is exV 650 n q -> q <= 900).
Proof.
  destruct regionW as (_ & _ & _ & _ & R3 & _). split; [exact R3|]. split; [apply fitW3; lra|]. split; [cbn; lra|]. split; [exact bracketW|].
  exact unreachedV.
Qed.
Lemma inst_C70 : (exists T, 452 < T < 454 /\ region exW (Some T) (Some 20) = 1%Z /\ region exW (Some T) (Some 5) = 2%Z /\
  region exW (Some 650) (Some 300) = 3%Z /\ region exW (Some 900) (Some 300) = 2%Z /\ region exW (Some 1500) (Some 100) = 5%Z) /\
  (forall T p, fit1 exW T p /\ fit2 exW T p) /\ fit5 exW 1500 100 /\ fit3 exW 650 /\ if_dc exW * if_R exW <> 0.
Proof.
  split; [exact regionW|]. split; [intros; split; [apply fitW1|apply fitW2]|]. split; [apply fitW5; lra|]. split; [apply fitW3; lra|]. cbn. lra.
Qed.
Lemma saturation_of D dp T p : sat_state D true dp T p = (if_Ts D p, p) /\ sat_state D false true T p = (T, if_ps D T).
Proof. split; reflexivity. Qed.
Lemma inst_C71 : exists T, 452 < T < 454 /\ sat_state exW false true (Some T) None = (Some T, Some 10) /\
  sat_state exW true false None (Some 10) = (Some T, Some 10) /\ fit1 exW T 10 /\ fit2 exW T 10.
Proof.
  destruct satW as (T & HT & _ & A & B). exists T. split; [exact HT|]. cbn [sat_state]. rewrite A, B. split; [reflexivity|]. split; [reflexivity|]. split; [apply fitW1|apply fitW2].
Qed.
Lemma newton5_here k fn target t slope : fn t = Ok (Some 0, slope) -> flt (num 0) (num (1/1000000) * target)%fl = true -> newton5 (S k) fn target t = Ok (num 1000 / t)%fl.
Proof. intros E L. cbn [newton5]. rewrite E. cbn [bind]. replace (fabs (Some 0)) with (num 0) by (unfold num; cbn; now rewrite Rabs_R0). rewrite L. reflexivity. Qed.
Lemma back1000 T : T <> 0 -> (num 1000 / (num 1000 / Some T))%fl = Some T.
Proof.
  intro HT. unfold num. rewrite (fdiv_ok 1000 T HT). rewrite fdiv_ok; [apply f_equal; field; exact HT|].
  unfold Rdiv. apply Rmult_integral_contrapositive_currified; [lra|now apply Rinv_neq_0_compat].
Qed.
Lemma reads5 T p : 0 < T -> 0 < p -> exists J, g5 exW (Some T) (Some p) 2 = Ok (Some (p / 10), Some (1000 / T), gate2 2 J) /\
  b0 J = gamma5 exW (p / 10) (1000 / T) /\ deriv (fun u => gamma5 exW (p / 10) u) (1000 / T) (by_ J).
Proof.
  intros HT Hp. destruct (g5_jet exW usW5o usW5r) as (F & J & V & E).
  assert (N2 : 1000 / T <> 0). { apply Rgt_not_eq. apply Rdiv_lt_0_compat; lra. }
  assert (A : P2 (if_r5o exW) (if_r5r exW) (p / 10)) by (split; [lra|split; left; lra]).
  assert (B : Q2 (if_r5o exW) (if_r5r exW) 0 (1000 / T)) by (split; left; [|rewrite Rminus_0_r]; exact N2).
  exists (F (p / 10) (1000 / T)). split; [apply (E T p ltac:(lra) A B 2%nat)|]. split; [now apply V|].
  destruct (jet2_partials (rect (P2 (if_r5o exW) (if_r5r exW)) (Q2 (if_r5o exW) (if_r5r exW) 0)) F (gamma5 exW) (p / 10) (1000 / T)) as [[_ Q] _]; auto.
  - apply rect_open; [apply P2_open|apply Q2_open].
  - split; assumption.
  - intros u w [U1 U2]. now apply V.
Qed.
Lemma slope5 x t : t <> 0 -> deriv (fun u => gamma5 exW x u) t (8 + x / 100 - 2 / (t * t)).
Proof.
  intro Ht. eapply (D_ext_loc (fun u => (2 * / u + (-20 + 8 * u)) + x / 100 * u + ln x) _ t _ (Rabs t)); [now apply Rabs_pos_lt| |].
  - intros u Hu. assert (Hn : u <> 0). { intros ->. rewrite Rminus_0_l, Rabs_Ropp in Hu. lra. }
    unfold gamma5, poly. cbn [if_r5o if_r5r exW]; unfold total; cbn [exW map fold_right ta tm tn fst snd].
    change (powerRZ u 1) with (u * 1). change (powerRZ x 1) with (x * 1). change (powerRZ x 0) with 1. change (powerRZ u (-1)) with (/ (u * 1)). change (powerRZ u 0) with 1. field. exact Hn.
  - eapply D_eq; [apply D_plus; [apply D_plus; [apply D_plus; [apply D_scal, D_inv; exact Ht|apply D_plus; [apply D_const|apply D_scal, D_id]]|apply D_scal, D_id]|apply D_const]|].
    field. exact Ht.
Qed.
Lemma gamma5_W : gamma5 exW (100 / 10) (1000 / 1500) < 0.
Proof.
  unfold gamma5, poly. cbn [if_r5o if_r5r exW]; unfold total; cbn [exW map fold_right ta tm tn fst snd].
  replace (1000 / 1500) with (2 / 3) by lra. replace (100 / 10) with 10 by lra.
  change (powerRZ (2 / 3) 1) with (2 / 3 * 1). change (powerRZ 10 1) with (10 * 1). change (powerRZ 10 0) with 1. change (powerRZ (2 / 3) (-1)) with (/ (2 / 3 * 1)). change (powerRZ (2 / 3) 0) with 1.
  replace (/ (2 / 3 * 1)) with 1.5 by (field_simplify; lra).
  assert (ln 10 < 9). { pose proof (exp_ineq1 (ln 10)). assert (0 < ln 10) by (rewrite <- ln_1; apply ln_increasing; lra). rewrite exp_ln in H by lra. lra. }
  lra.
Qed.
Lemma inst_5 : exists h s, th5 exW (Some h) (Some 100) (Some 1500) = Ok (Some 1500) /\ ts5 exW (Some s) (Some 100) (Some 1500) = Ok (Some 1500).
Proof.
  destruct (reads5 1500 100 ltac:(lra) ltac:(lra)) as (J & E & V & HD).
  pose proof (slope5 (100 / 10) (1000 / 1500) ltac:(lra)) as HS. pose proof (uniqueness_limite _ _ _ _ HD HS) as Ey. clear HD HS.
  pose proof gamma5_W as G. rewrite <- V in G.
  assert (Ey2 : by_ J = 3.6). { rewrite Ey. replace (1000 / 1500) with (2 / 3) by lra. replace (2 / (2 / 3 * (2 / 3))) with 4.5 by lra. lra. }
  exists (0.461526 * 1000 * by_ J), (0.461526 * (1000 / 1500 * by_ J - b0 J)). split.
  - unfold th5. cbv zeta.
    assert (Eh : (Some (0.461526 * 1000 * by_ J)%R / num (if_R exW) / num 1000)%fl = Some (by_ J)).
    { unfold num. cbn [if_R exW]. rewrite fdiv_ok by lra. rewrite fdiv_ok by lra. apply f_equal. lra. }
    rewrite Eh. rewrite (newton5_here 29 _ (Some (by_ J)) _ (Some (byy J))).
    + apply f_equal. apply back1000. lra.
    + rewrite (back1000 1500) by lra. rewrite E. cbn [bind]. rewrite gate2_2. cbn [jy jyy fsub lift2]. now rewrite Rminus_eq_0.
    + apply flt_yes. lra.
  - unfold ts5. cbv zeta.
    assert (Eh : (Some (0.461526 * (1000 / 1500 * by_ J - b0 J))%R / num (if_R exW))%fl = Some (1000 / 1500 * by_ J - b0 J)).
    { unfold num. cbn [if_R exW]. rewrite fdiv_ok by lra. apply f_equal. lra. }
    rewrite Eh. rewrite (newton5_here 29 _ _ _ (Some (1000 / 1500 * byy J))).
    + apply f_equal. apply back1000. lra.
    + rewrite (back1000 1500) by lra. rewrite E. cbn [bind]. rewrite gate2_2. cbn [jy jyy jv].
      assert (Q : (num 1000 / Some 1500)%fl = Some (1000 / 1500)) by (apply (fdiv_ok 1000 1500); lra). rewrite Q. flc. now rewrite Rminus_eq_0.
    + apply flt_yes. lra.
Qed.
Lemma newton3_here k fn n t old m : fn n t = Ok (Some 0, Some 0, m) -> newton3 (S k) fn n t old = Ok (n, t).
Proof.
  intro E. cbn [newton3]. rewrite E. cbn [bind]. destruct m as [[[m1 m2] m3] m4]. cbn [fmul fadd lift2].
  unfold num. rewrite flt_yes by lra. reflexivity.
Qed.
Lemma inst_3 k : exists s p, ts3_in (S k) exW (Some s) (Some p) (Some 650) (Some 322) = Ok (Some 650).
Proof.
  destruct (f3_jet exW usW3) as (F & J & V & E).
  assert (Ht : can_raise tn (if_r3 exW) (if_Tc exW / 650)) by (left; cbn; lra).
  specialize (E 1 _ ltac:(lra) Ht). set (K := F 1 (if_Tc exW / 650)) in *. set (t := if_Tc exW / 650) in *.
  assert (Htn : t <> 0) by (unfold t; cbn; lra).
  exists (0.461526 * (t * by_ K - b0 K)), (322 * 0.461526 * 647.096 / 100 * (bx K / t)). unfold ts3_in. cbv zeta.
  assert (Es : (Some (0.461526 * (t * by_ K - b0 K))%R / num (if_R exW))%fl = Some (t * by_ K - b0 K)).
  { unfold num. cbn [if_R exW]. rewrite fdiv_ok by lra. apply f_equal. lra. }
  assert (Ep : (Some (322 * 0.461526 * 647.096 / 100 * (bx K / t))%R * num 100 / (num (if_dc exW) * num (if_R exW) * num (if_Tc exW)))%fl = Some (bx K / t)).
  { unfold num. cbn [if_R if_dc if_Tc exW fmul lift2]. rewrite fdiv_ok by lra. apply f_equal. generalize (bx K / t). intro. lra. }
  assert (En : (Some 322 / num (if_dc exW))%fl = Some 1). { unfold num. cbn [if_dc exW]. rewrite fdiv_ok by lra. apply f_equal. lra. }
  assert (Et : (num (if_Tc exW) / Some 650)%fl = Some t) by (unfold num; apply fdiv_ok; lra).
  rewrite Es, Ep, En, Et.
  assert (Q : exists m, sp3 exW (Some (t * by_ K - b0 K)) (Some (bx K / t)) (Some 1) (Some t) = Ok (Some 0, Some 0, m)).
  { unfold sp3. rewrite E. cbn [bind]. rewrite gate2_2.
    destruct (Req_EM_T t 0) as [|Hn]; [contradiction|]. flc. rewrite !(fdiv_ok _ t Htn). flc. eexists.
    replace (1 * 1 * bx K / t - bx K / t) with 0 by (field; exact Htn). replace (t * by_ K - b0 K - (t * by_ K - b0 K)) with 0 by ring. reflexivity. }
  destruct Q as [m Q]. rewrite (newton3_here k _ _ _ None m Q). cbn [bind]. apply f_equal.
  unfold num. rewrite fdiv_ok by exact Htn. apply f_equal. unfold t. cbn. field_simplify; [reflexivity|]. lra.
Qed.
Lemma inst_C72 : (exists T h, 0 < T /\ T_h exW (Some h) (Some 10) = Ok (Some T, Some (1/4)) /\
    if_h exW true false None (Some 10) (Some (1/4)) = Ok (Some h)) /\
  (exists T hL hV, 452 < T < 454 /\ if_Ts exW (Some 10) = Some T /\ phases exW (h_g exW) 1 (Some T) (Some 10) = Ok (Some hL, Some hV) /\ hL < hV) /\
  (exists h s, th5 exW (Some h) (Some 100) (Some 1500) = Ok (Some 1500) /\ ts5 exW (Some s) (Some 100) (Some 1500) = Ok (Some 1500)) /\
  (exists s p, ts3 exW (Some s) (Some p) (Some 650) (Some 322) = Ok (Some 650)).
Proof.
  split; [exact T_hW|]. split; [exact domeW|]. split; [exact inst_5|]. rewrite ts3_eq. exact (inst_3 199).
Qed.

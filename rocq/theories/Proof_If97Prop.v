(* The property methods of the IF-97 class. *)
From Coq Require Import Reals ZArith List Bool Lia Lra Arith.
From Verif Require Import Model_If97 Spec_Mp1 Spec_If97 Proof_Jets Proof_Mp1Poly Proof_If97Poly Proof_If97Sat Proof_If97En Proof_If97Bis.
Import ListNotations.
Local Open Scope R_scope.

Lemma gibbs_answers D dT dp T p x g r P Q F v xs ts :
  open1 P -> open1 Q -> jet2_on (rect P Q) F -> (forall a b, P a -> Q b -> b0 (F a b) = v a b) -> xs <> 0 ->
  0 < T -> 0 < p -> x < 0 -> P (p / xs) -> Q (ts / T) -> reads (g D) F xs ts T p ->
  region D (Some T) (Some p) = r ->
  (forall fg ff o, at_Tp D fg ff o (Some T) (Some p) = match r with
     | 3%Z => at_Tp D fg ff o (Some T) (Some p) | _ => do e <- g D (Some T) (Some p) o; Ok (fg (Some T) (Some p) e) end) ->
  r <> 3%Z ->
  exists h s vol e cp cv, gibbs_state (fun p T => if_R D * T * v (p / xs) (ts / T)) p T h s vol e cp /\
    gibbs_cv (fun p T => if_R D * T * v (p / xs) (ts / T)) p T cp cv /\
    (vol <> 0 -> answers D dT dp (Some T) (Some p) (Some x) (Some h) (Some s) (Some (1 / vol)) (Some e) (Some cp) cv).
Proof.
  intros HP HQ HF Hv Hxs HT Hp Hx H1 H2 HR Hr Hat H3.
  destruct (gibbs_properties D P Q F v xs ts (g D) HP HQ HF Hv Hxs T p HT Hp H1 H2 HR)
    as (h & s & vol & e & cp & cv & S1 & S2 & A & B & C & E & G & K & L).
  exists h, s, vol, e, cp, cv. split; [exact S1|]. split; [exact S2|]. intro Hvol.
  assert (Z : forall fg ff o, at_Tp D fg ff o (Some T) (Some p) = do e <- g D (Some T) (Some p) o; Ok (fg (Some T) (Some p) e)).
  { intros. rewrite Hat. destruct r as [|[[|q|]| |]|]; try reflexivity; congruence. }
  assert (X : flt (Some x) (num 0) = true) by (apply flt_yes; exact Hx).
  unfold answers, if_h, if_s, if_e, if_cp, if_cv, prop, prop_d. rewrite X, !Z.
  split; [apply A|]. split; [apply B|]. split; [apply E; exact Hvol|]. split; [apply G|]. split; [apply K|apply L].
Qed.

Lemma at_region D fg ff o T p r : region D T p = r -> at_Tp D fg ff o T p =
  match r with
  | 1%Z => do e <- g1 D T p o; Ok (fg T p e) | 2%Z => do e <- g2 D T p o; Ok (fg T p e)
  | 3%Z => do e <- f3 D T p; Ok (ff T p e) | 5%Z => do e <- g5 D T p o; Ok (fg T p e) | _ => Err PMParamError end.
Proof. intro H. unfold at_Tp. rewrite H. reflexivity. Qed.

Theorem region1_state D dT dp T p x : region D (Some T) (Some p) = 1%Z -> fit1 D T p -> 0 < T -> 0 < p -> x < 0 ->
  exists h s vol e cp cv, gibbs_state (gibbs1 D) p T h s vol e cp /\ gibbs_cv (gibbs1 D) p T cp cv /\
    (vol <> 0 -> answers D dT dp (Some T) (Some p) (Some x) (Some h) (Some s) (Some (1 / vol)) (Some e) (Some cp) cv).
Proof.
  intros Hr (HU & Hx1 & Hy1) HT Hp Hx. destruct (g1_jet D HU) as (F & J & V & E).
  apply (gibbs_answers D dT dp T p x g1 1%Z _ _ F (gamma1 D) 165.3 1386 (open1_sub_l 7.1 _ (open1_raise tm (if_r1 D))) (open1_sub_r 1.222 _ (open1_raise tn (if_r1 D)))); auto; try lra.
  - apply E; auto. lra.
  - intros. now rewrite (at_region _ _ _ _ _ _ _ Hr).
  - discriminate.
Qed.
Theorem region2_state D dT dp T p x : region D (Some T) (Some p) = 2%Z -> fit2 D T p -> 0 < T -> 0 < p -> x < 0 ->
  exists h s vol e cp cv, gibbs_state (gibbs2 D) p T h s vol e cp /\ gibbs_cv (gibbs2 D) p T cp cv /\
    (vol <> 0 -> answers D dT dp (Some T) (Some p) (Some x) (Some h) (Some s) (Some (1 / vol)) (Some e) (Some cp) cv).
Proof.
  intros Hr ((HU & Hx1 & Hy1) & (HU2 & Hx2 & Hy2)) HT Hp Hx. destruct (g2_jet D HU HU2) as (F & J & V & E).
  assert (A : P2 (if_r2o D) (if_r2r D) (p / 10)) by (split; [lra|split; assumption]).
  assert (B : Q2 (if_r2o D) (if_r2r D) 0.5 (540 / T)) by (split; assumption).
  apply (gibbs_answers D dT dp T p x g2 2%Z _ _ F (gamma2 D) 10 540 (P2_open (if_r2o D) (if_r2r D)) (Q2_open (if_r2o D) (if_r2r D) 0.5)); auto; try lra.
  - apply E; auto. lra.
  - intros. now rewrite (at_region _ _ _ _ _ _ _ Hr).
  - discriminate.
Qed.
Theorem region5_state D dT dp T p x : region D (Some T) (Some p) = 5%Z -> fit5 D T p -> 0 < T -> 0 < p -> x < 0 ->
  exists h s vol e cp cv, gibbs_state (gibbs5 D) p T h s vol e cp /\ gibbs_cv (gibbs5 D) p T cp cv /\
    (vol <> 0 -> answers D dT dp (Some T) (Some p) (Some x) (Some h) (Some s) (Some (1 / vol)) (Some e) (Some cp) cv).
Proof.
  intros Hr ((HU & Hx1 & Hy1) & (HU2 & Hx2 & Hy2)) HT Hp Hx. destruct (g5_jet D HU HU2) as (F & J & V & E).
  assert (A : P2 (if_r5o D) (if_r5r D) (p / 10)) by (split; [lra|split; assumption]).
  assert (B : Q2 (if_r5o D) (if_r5r D) 0 (1000 / T)) by (split; [|rewrite Rminus_0_r]; assumption).
  apply (gibbs_answers D dT dp T p x g5 5%Z _ _ F (gamma5 D) 10 1000 (P2_open (if_r5o D) (if_r5r D)) (Q2_open (if_r5o D) (if_r5r D) 0)); auto; try lra.
  - apply E; auto. lra.
  - intros. now rewrite (at_region _ _ _ _ _ _ _ Hr).
  - discriminate.
Qed.
Theorem region3_state D dT dp T p x : region D (Some T) (Some p) = 3%Z -> fit3 D T -> 0 < T -> if_dc D * if_R D <> 0 -> x < 0 ->
  exists d p' h s e cv cp, 0.1 < d / if_dc D < 2.4 /\ helmholtz_state (helmholtz3 D) d T p' h s e cv /\ helmholtz_cp (helmholtz3 D) d T cv cp /\
    answers D dT dp (Some T) (Some p) (Some x) (Some h) (Some s) (Some d) (Some e) cp (Some cv).
Proof.
  intros Hr (HU & Ht) HT HR Hx. destruct (f3_search D T p HU HT Ht HR) as (n & F & J & V & E & N & _).
  assert (Hdc : if_dc D <> 0) by (intro Q; apply HR; rewrite Q; ring).
  destruct (helmholtz_properties D T n F HU HT) as (h & s & e & cv & cp & S1 & S2 & S3); auto; [lra|].
  exists (if_dc D * n), (pressure3 D T n (bx (F n (if_Tc D / T)))), h, s, e, cv, cp.
  replace (if_dc D * n / if_dc D) with n by (field; exact Hdc). split; [exact N|]. split; [exact S1|]. split; [exact S2|].
  assert (X : flt (Some x) (num 0) = true) by (apply flt_yes; exact Hx).
  unfold answers, if_h, if_s, if_e, if_cp, if_cv, prop, prop_d. rewrite X, !(at_region _ _ _ _ _ _ _ Hr), E. cbn [bind].
  destruct (S3 (Some p)) as (A & B & C & G & K & L). rewrite A, B, C, G, K, L. auto 7.
Qed.

(* ---- saturated states ---- *)
Lemma phases_of D T p : fit1 D T p -> fit2 D T p -> 0 < T -> 0 < p ->
  exists hL sL vL eL cpL cvL hV sV vV eV cpV cvV,
    gibbs_state (gibbs1 D) p T hL sL vL eL cpL /\ gibbs_cv (gibbs1 D) p T cpL cvL /\
    gibbs_state (gibbs2 D) p T hV sV vV eV cpV /\ gibbs_cv (gibbs2 D) p T cpV cvV /\
    phases D (h_g D) 1 (Some T) (Some p) = Ok (Some hL, Some hV) /\ phases D (s_g D) 1 (Some T) (Some p) = Ok (Some sL, Some sV) /\
    phases D (v_g D) 1 (Some T) (Some p) = Ok (Some vL, Some vV) /\ phases D (e_g D) 1 (Some T) (Some p) = Ok (Some eL, Some eV) /\
    phases D (cp_g D) 2 (Some T) (Some p) = Ok (Some cpL, Some cpV) /\ phases D (cv_g D) 2 (Some T) (Some p) = Ok (cvL, cvV).
Proof.
  intros (HU & Hx1 & Hy1) ((HU1 & Hx2 & Hy2) & (HU2 & Hx3 & Hy3)) HT Hp.
  destruct (g1_jet D HU) as (F & J & V & E). destruct (g2_jet D HU1 HU2) as (F2 & J2' & V2 & E2).
  assert (A : P2 (if_r2o D) (if_r2r D) (p / 10)) by (split; [lra|split; assumption]).
  assert (B : Q2 (if_r2o D) (if_r2r D) 0.5 (540 / T)) by (split; assumption).
  destruct (gibbs_properties D _ _ F (gamma1 D) 165.3 1386 (g1 D) (open1_sub_l 7.1 _ (open1_raise tm (if_r1 D))) (open1_sub_r 1.222 _ (open1_raise tn (if_r1 D))) J V ltac:(lra) T p HT Hp Hx1 Hy1)
    as (hL & sL & vL & eL & cpL & cvL & S1 & S2 & A1 & A2 & A3 & _ & A4 & A5 & A6); [apply E; auto; lra|].
  destruct (gibbs_properties D _ _ F2 (gamma2 D) 10 540 (g2 D) (P2_open (if_r2o D) (if_r2r D)) (Q2_open (if_r2o D) (if_r2r D) 0.5) J2' V2 ltac:(lra) T p HT Hp A B)
    as (hV & sV & vV & eV & cpV & cvV & S3 & S4 & B1 & B2 & B3 & _ & B4 & B5 & B6); [apply E2; auto; lra|].
  exists hL, sL, vL, eL, cpL, cvL, hV, sV, vV, eV, cpV, cvV.
  split; [exact S1|]. split; [exact S2|]. split; [exact S3|]. split; [exact S4|]. unfold phases.
  assert (Z : forall o (fg : gibbs_form) u w, (do r <- g1 D (Some T) (Some p) o; Ok (fg (Some T) (Some p) r)) = Ok u ->
     (do r <- g2 D (Some T) (Some p) o; Ok (fg (Some T) (Some p) r)) = Ok w ->
     (do l <- g1 D (Some T) (Some p) o; do v <- g2 D (Some T) (Some p) o; Ok (fg (Some T) (Some p) l, fg (Some T) (Some p) v)) = Ok (u, w)).
  { intros o fg u w X Y. destruct (g1 D (Some T) (Some p) o); cbn [bind] in *; [|discriminate].
    destruct (g2 D (Some T) (Some p) o); cbn [bind] in *; [|discriminate]. congruence. }
  repeat split; apply Z; auto.
Qed.

Theorem saturated_state D dT dp T p x Ts ps : sat_state D dT dp T p = (Some Ts, Some ps) -> 0 <= x -> fit1 D Ts ps -> fit2 D Ts ps -> 0 < Ts -> 0 < ps ->
  exists hL sL vL eL cpL hV sV vV eV cpV,
    gibbs_state (gibbs1 D) ps Ts hL sL vL eL cpL /\ gibbs_state (gibbs2 D) ps Ts hV sV vV eV cpV /\
    if_h D dT dp T p (Some x) = Ok (Some (mixed_value x hL hV)) /\
    if_s D dT dp T p (Some x) = Ok (Some (mixed_value x sL sV)) /\
    if_e D dT dp T p (Some x) = Ok (Some (mixed_value x eL eV)) /\
    if_cp D dT dp T p (Some x) = Ok (Some (mixed_value x cpL cpV)) /\
    (mixed_value x vL vV <> 0 -> prop_d D dT dp T p (Some x) = Ok (Some (1 / mixed_value x vL vV))).
Proof.
  intros HS Hx F1 F2 HT Hp.
  destruct (phases_of D Ts ps F1 F2 HT Hp) as (hL & sL & vL & eL & cpL & cvL & hV & sV & vV & eV & cpV & cvV & S1 & S2 & S3 & S4 & A & B & C & E & G & K).
  exists hL, sL, vL, eL, cpL, hV, sV, vV, eV, cpV. split; [exact S1|]. split; [exact S3|].
  assert (X : flt (Some x) (num 0) = false) by (apply flt_no; exact Hx).
  unfold if_h, if_s, if_e, if_cp, prop, prop_d. rewrite X, HS, A, B, C, E, G. cbn [bind]. unfold mean, mixed_value. cbn [fst snd]. flc.
  repeat split; try (apply f_equal, f_equal; ring). intro Hn.
  assert (Ev : vL + (vV - vL) * x = (1 - x) * vL + x * vV) by ring. rewrite Ev, fdiv_ok by exact Hn. reflexivity.
Qed.

(* ---- hsd ---- *)
Theorem hsd_agrees D dT dp T p x h s d :
  (x < 0 \/ (0 <= x /\ (dT = true \/ (dp = false /\ flt p (num 0) = false)))) ->
  prop_hsd D dT T p (Some x) = Ok (h, s, d) <->
  if_h D dT dp T p (Some x) = Ok h /\ if_s D dT dp T p (Some x) = Ok s /\ prop_d D dT dp T p (Some x) = Ok d.
Proof.
  intro Hc. unfold prop_hsd, if_h, if_s, prop, prop_d.
  assert (Z : forall (a b c : res fl), (do u <- a; do v <- b; do w <- c; Ok (u, v, w)) = Ok (h, s, d) <-> a = Ok h /\ b = Ok s /\ c = Ok d).
  { intros a b c. destruct a, b, c; cbn [bind]; split; intro Q; try discriminate; try (destruct Q as (? & ? & ?); congruence).
    injection Q as -> -> ->. auto. }
  destruct Hc as [Hx|[Hx Hc]].
  - rewrite !(flt_yes x 0 Hx : flt (Some x) (num 0) = true). apply Z.
  - rewrite !(flt_no x 0 Hx : flt (Some x) (num 0) = false).
    assert (E : (if dT then (if_Ts D p, p) else if flt p (num 0) then (T, if_ps D T) else (T, p)) = sat_state D dT dp T p).
    { unfold sat_state. destruct Hc as [->|[-> ->]]; [reflexivity|]. destruct dT; reflexivity. }
    rewrite E. destruct (sat_state D dT dp T p) as [T1 p1].
    etransitivity; [|apply Z]. destruct (phases D (h_g D) 1 T1 p1); cbn [bind]; [|tauto].
    destruct (phases D (s_g D) 1 T1 p1); cbn [bind]; [|tauto]. destruct (phases D (v_g D) 1 T1 p1); cbn [bind]; tauto.
Qed.

(* ---- the Newton inversions ---- *)
Lemma newton5_stops k fn target : forall t T, newton5 k fn target t = Ok T ->
  exists t' test slope, T = (num 1000 / t')%fl /\ fn t' = Ok (test, slope) /\ flt (fabs test) (num (1/1000000) * target)%fl = true.
Proof.
  induction k as [|k IH]; intros t T; cbn [newton5]; [discriminate|].
  destruct (fn t) as [[test slope]|] eqn:E; cbn [bind]; [|discriminate].
  destruct (flt (fabs test) (num (1/1000000) * target)%fl) eqn:L.
  - intro Q. assert (T = (num 1000 / t)%fl) by congruence. exists t, test, slope. auto.
  - intro Q. exact (IH _ _ Q).
Qed.
Lemma newton5_errors k fn target : (forall t e, fn t = Err e -> e = EException \/ e = EIndexError) ->
  forall t e, newton5 k fn target t = Err e -> e = PMAnalysisError \/ e = EException \/ e = EIndexError.
Proof.
  intro Hf. induction k as [|k IH]; intros t e; cbn [newton5]; [intro Q; injection Q as <-; auto|].
  destruct (fn t) as [[test slope]|e2] eqn:E; cbn [bind].
  - destruct (flt _ _); [discriminate|]. intro Q. exact (IH _ _ Q).
  - intro Q. injection Q as <-. right. destruct (Hf _ _ E); auto.
Qed.
Lemma g5_scaled D t p r : g5 D (num 1000 / t)%fl p 2 = Ok r -> forall tt, t = Some tt -> tt <> 0 -> exists pi g, r = (pi, Some tt, g).
Proof.
  intros H tt -> Htt. unfold g5 in H. cbv zeta in H. unfold num in H. rewrite (fdiv_ok 1000 tt Htt) in H.
  assert (Q : 1000 / tt <> 0). { unfold Rdiv. apply Rmult_integral_contrapositive_currified; [lra|]. now apply Rinv_neq_0_compat. }
  rewrite (fdiv_ok 1000 _ Q) in H. replace (1000 / (1000 / tt)) with tt in H by (field; exact Htt).
  destruct (peval _ _ (if_r5o D) 2); cbn [bind] in H; [|discriminate]. destruct (peval _ _ (if_r5r D) 2); cbn [bind] in H; [|discriminate].
  injection H as <-. eauto.
Qed.
Lemma sum_none_l (o : jet2) x r : jv (add_log 2 x o r) = fadd (jv o) (fadd (jv r) (flog x)) /\ jy (add_log 2 x o r) = fadd (jy o) (jy r).
Proof. destruct o as [[[[[? ?] ?] ?] ?] ?], r as [[[[[? ?] ?] ?] ?] ?]. split; reflexivity. Qed.

(* the temperature that is returned reproduces the enthalpy at the pressure *)
Theorem th5_inverts D h p Ti T : 0 < if_R D -> th5 D (Some h) p Ti = Ok (Some T) ->
  exists e h', g5 D (Some T) p 2 = Ok e /\ h_g D (Some T) p e = Some h' /\ Rabs (h' - h) < 1 / 1000000 * h.
Proof.
  intros HR H. unfold th5 in H. cbv zeta in H.
  assert (Eh : (Some h / num (if_R D) / num 1000)%fl = Some (h / if_R D / 1000)) by (unfold num; rewrite fdiv_ok by lra; apply fdiv_ok; lra).
  rewrite Eh in H. clear Eh. apply newton5_stops in H. destruct H as (t & test & slope & HT & Hf & L).
  destruct (g5 D (num 1000 / t)%fl p 2) as [[[pi tt] g]|] eqn:E; cbn [bind] in Hf; [|discriminate]. injection Hf as <- <-.
  symmetry in HT. apply fdiv_some in HT. destruct HT as (a & tr & Ha & Et & Ht & ->). injection Ha as <-.
  destruct (g5_scaled D t p _ E tr Et Ht) as (pi' & g' & Q). injection Q as <- -> <-.
  subst t. assert (E' : (num 1000 / Some tr)%fl = Some (1000 / tr)) by (apply (fdiv_ok 1000 tr Ht)). rewrite E' in E.
  exists (pi, Some tr, g). destruct (jy g) as [gt|] eqn:Eg; [|discriminate L].
  unfold num in L. cbn [fabs fsub fmul lift1 lift2] in L. apply flt_iff in L.
  exists (if_R D * (1000 / tr) * tr * gt). split; [exact E|]. split; [unfold h_g; rewrite Eg; reflexivity|].
  replace (if_R D * (1000 / tr) * tr * gt - h) with ((if_R D * 1000) * (gt - h / if_R D / 1000)) by (field; repeat split; try exact Ht; lra).
  rewrite Rabs_mult, (Rabs_right (if_R D * 1000)) by lra.
  apply (Rmult_lt_compat_l (if_R D * 1000)) in L; [|lra].
  replace (if_R D * 1000 * (1 / 1000000 * (h / if_R D / 1000))) with (1 / 1000000 * h) in L by (field; lra). exact L.
Qed.
Theorem ts5_inverts D s p Ti T : 0 < if_R D -> ts5 D (Some s) p Ti = Ok (Some T) ->
  exists e s', g5 D (Some T) p 2 = Ok e /\ s_g D (Some T) p e = Some s' /\ Rabs (s' - s) < 1 / 1000000 * s.
Proof.
  intros HR H. unfold ts5 in H. cbv zeta in H.
  assert (Eh : (Some s / num (if_R D))%fl = Some (s / if_R D)) by (apply fdiv_ok; lra).
  rewrite Eh in H. clear Eh. apply newton5_stops in H. destruct H as (t & test & slope & HT & Hf & L).
  destruct (g5 D (num 1000 / t)%fl p 2) as [[[pi tt] g]|] eqn:E; cbn [bind] in Hf; [|discriminate]. injection Hf as <- <-.
  symmetry in HT. apply fdiv_some in HT. destruct HT as (a & tr & Ha & Et & Ht & ->). injection Ha as <-.
  destruct (g5_scaled D t p _ E tr Et Ht) as (pi' & g' & Q). injection Q as <- -> <-.
  subst t. assert (E' : (num 1000 / Some tr)%fl = Some (1000 / tr)) by (apply (fdiv_ok 1000 tr Ht)). rewrite E' in E.
  exists (pi, Some tr, g). destruct (jy g) as [gt|] eqn:Eg; [|discriminate L]. destruct (jv g) as [gv|] eqn:Ev; [|discriminate L].
  unfold num in L. cbn [fabs fsub fmul lift1 lift2] in L. apply flt_iff in L.
  exists (if_R D * (tr * gt - gv)). split; [exact E|]. split; [unfold s_g; rewrite Eg, Ev; reflexivity|].
  replace (if_R D * (tr * gt - gv) - s) with (if_R D * (tr * gt - gv - s / if_R D)) by (field; lra).
  rewrite Rabs_mult, (Rabs_right (if_R D)) by lra. apply (Rmult_lt_compat_l (if_R D)) in L; [|lra].
  replace (if_R D * (1 / 1000000 * (s / if_R D))) with (1 / 1000000 * s) in L by (field; lra). exact L.
Qed.
Lemma newton3_stops k fn : forall n t old n' t', newton3 k fn n t old = Ok (n', t') ->
  exists u w m, fn n' t' = Ok (u, w, m) /\ flt (u * u + w * w)%fl (num (1/100000 * (1/100000))) = true.
Proof.
  induction k as [|k IH]; intros n t old n' t'; cbn [newton3]; [discriminate|].
  destruct (fn n t) as [[[u w] [[[m1 m2] m3] m4]]|] eqn:E; cbn [bind]; [|discriminate].
  destruct (flt (u * u + w * w)%fl _) eqn:L.
  - intro Q. injection Q as <- <-. eauto 8.
  - assert (N : (do d <- solve2 m1 m2 m3 m4 (- u)%fl (- w)%fl; let (dn, dt) := d in
       newton3 k fn (n + dn)%fl (t + dt)%fl (Some (n, t, (u * u + w * w)%fl, (dn, dt)))) = Ok (n', t') ->
       exists u w m, fn n' t' = Ok (u, w, m) /\ flt (u * u + w * w)%fl (num (1/100000 * (1/100000))) = true).
    { destruct (solve2 _ _ _ _ _ _) as [[dn dt]|]; cbn [bind]; [|discriminate]. intro Q. exact (IH _ _ _ _ _ Q). }
    destruct old as [[[[no to] eo] [dn dt]]|]; [|exact N]. destruct (fle eo _); [|exact N]. intro Q. exact (IH _ _ _ _ _ Q).
Qed.
Lemma sum_squares u w b : 0 < b -> u * u + w * w < b * b -> Rabs u < b /\ Rabs w < b.
Proof. intros Hb H. split; apply Rabs_def1; nra. Qed.
(* in region 3 a density is found with it *)
Lemma th3_any k D h p Ti di T : 0 < if_R D -> 0 < if_dc D -> 0 < if_Tc D -> th3_in k D (Some h) (Some p) Ti di = Ok (Some T) ->
  exists n v, T <> 0 /\ f3_at D (Some n) (Some (if_Tc D / T)) = Ok v /\
    exists h' q, h_f D (Some T) (Some p) (Some n, Some (if_Tc D / T), v) = Some h' /\ jx v = Some q /\
      Rabs (h' - h) < 1 / 100000 * (if_R D * if_Tc D) /\
      Rabs (if_dc D * if_R D * T * (n * n * q) / 100 - p) < 1 / 100000 * (if_dc D * if_R D * if_Tc D / 100).
Proof.
  intros HR Hdc HTc H. unfold th3_in in H. cbv zeta in H.
  assert (HK : if_dc D * if_R D * if_Tc D <> 0). { apply Rgt_not_eq. repeat apply Rmult_lt_0_compat; assumption. }
  assert (Eh : (Some h / (num (if_R D) * num (if_Tc D)))%fl = Some (h / (if_R D * if_Tc D))) by (apply (fdiv_ok h (if_R D * if_Tc D)); nra).
  assert (Ep : (Some p * num 100 / (num (if_dc D) * num (if_R D) * num (if_Tc D)))%fl = Some (p * 100 / (if_dc D * if_R D * if_Tc D))) by (apply (fdiv_ok (p * 100) _ HK)).
  rewrite Eh, Ep in H. clear Eh Ep.
  destruct (newton3 k _ _ _ None) as [[n t]|] eqn:E; cbn [bind] in H; [|discriminate]. assert (H2 : (num (if_Tc D) / t)%fl = Some T) by (clear E; congruence). clear H. rename H2 into H.
  apply newton3_stops in E. destruct E as (u & w & m & E & L).
  apply fdiv_some in H. destruct H as (a & tr & Ha & -> & Ht & ->). injection Ha as <-.
  unfold hp3 in E. destruct (f3_at D n (Some tr)) as [v|] eqn:Ev; cbn [bind] in E; [|discriminate].
  destruct v as [[[[[f fx] fy] fxx] fxy] fyy]. injection E as <- <- <-.
  destruct n as [n|]; [|discriminate L]. destruct fx as [fx|]; [|discriminate L]. 
  unfold num in L. cbn [fmul lift2] in L.
  rewrite !(fdiv_ok _ tr Ht) in L. destruct fy as [fy|]; [|discriminate L]. cbn [fmul fadd fsub lift2] in L. apply flt_iff in L.
  assert (HT : if_Tc D / tr <> 0). { unfold Rdiv. apply Rmult_integral_contrapositive_currified; [lra|now apply Rinv_neq_0_compat]. }
  assert (Et : if_Tc D / (if_Tc D / tr) = tr) by (field; split; [exact Ht|lra]).
  exists n, (f, Some fx, Some fy, fxx, fxy, fyy). split; [exact HT|]. rewrite Et. split; [exact Ev|].
  exists (if_R D * (if_Tc D / tr) * (n * fx + tr * fy)), fx. split; [reflexivity|]. split; [reflexivity|].
  apply sum_squares in L; [|lra]. destruct L as [L1 L2]. split.
  - replace (if_R D * (if_Tc D / tr) * (n * fx + tr * fy) - h) with ((if_R D * if_Tc D) * (n * fx / tr + fy - h / (if_R D * if_Tc D))) by (field; repeat split; try lra; exact Ht).
    rewrite Rabs_mult, (Rabs_right (if_R D * if_Tc D)) by nra.
    rewrite (Rmult_comm (1 / 100000)). apply Rmult_lt_compat_l; [nra|exact L2].
  - assert (HK2 : 0 < if_dc D * if_R D * if_Tc D / 100). { apply Rdiv_lt_0_compat; [repeat apply Rmult_lt_0_compat; assumption|lra]. }
    replace (if_dc D * if_R D * (if_Tc D / tr) * (n * n * fx) / 100 - p) with
      ((if_dc D * if_R D * if_Tc D / 100) * (n * n * fx / tr - p * 100 / (if_dc D * if_R D * if_Tc D))) by (field; repeat split; try lra; exact Ht).
    rewrite Rabs_mult, (Rabs_right (if_dc D * if_R D * if_Tc D / 100)) by lra.
    rewrite (Rmult_comm (1 / 100000)). apply Rmult_lt_compat_l; [exact HK2|exact L1].
Qed.

Lemma th3_eq : th3 = th3_in 200.
Proof. reflexivity. Qed.
Theorem th3_inverts D h p Ti di T : 0 < if_R D -> 0 < if_dc D -> 0 < if_Tc D -> th3 D (Some h) (Some p) Ti di = Ok (Some T) ->
  exists n v, T <> 0 /\ f3_at D (Some n) (Some (if_Tc D / T)) = Ok v /\
    exists h' q, h_f D (Some T) (Some p) (Some n, Some (if_Tc D / T), v) = Some h' /\ jx v = Some q /\
      Rabs (h' - h) < 1 / 100000 * (if_R D * if_Tc D) /\
      Rabs (if_dc D * if_R D * T * (n * n * q) / 100 - p) < 1 / 100000 * (if_dc D * if_R D * if_Tc D / 100).
Proof. intros HR Hdc HTc H. rewrite th3_eq in H. exact (th3_any _ D h p Ti di T HR Hdc HTc H). Qed.

(* ---- T_h on the saturation dome ---- *)
Theorem T_h_saturated D p h T hL hV : flt (Some p) (num (165292/1000)) = true -> if_Ts D (Some p) = Some T ->
  phases D (h_g D) 1 (Some T) (Some p) = Ok (Some hL, Some hV) -> hL <= h < hV ->
  T_h D (Some h) (Some p) = Ok (Some T, Some ((h - hL) / (hV - hL))).
Proof.
  intros Hp HT HP Hh. unfold T_h, T_h_with. rewrite Hp. cbv zeta. rewrite HT. unfold enthalpy. unfold phases in HP.
  destruct (g1 D (Some T) (Some p) 1); cbn [bind] in *; [|discriminate]. destruct (g2 D (Some T) (Some p) 1); cbn [bind] in *; [|discriminate].
  injection HP as -> ->. rewrite (flt_no h hL), (flt_yes h hV) by lra. flc. rewrite fdiv_ok by lra. reflexivity.
Qed.
(* the quality a mixture was made with comes back *)
Theorem T_h_round_trip D dp p x T hL hV : flt (Some p) (num (165292/1000)) = true -> if_Ts D (Some p) = Some T ->
  phases D (h_g D) 1 (Some T) (Some p) = Ok (Some hL, Some hV) -> hL < hV -> 0 <= x < 1 ->
  exists h, (forall T0, if_h D true dp T0 (Some p) (Some x) = Ok (Some h)) /\ T_h D (Some h) (Some p) = Ok (Some T, Some x).
Proof.
  intros Hp HT HP Hlv Hx. exists (hL + (hV - hL) * x). split.
  - intro T0. unfold if_h, prop. rewrite (flt_no x 0 : 0 <= x -> flt (Some x) (num 0) = false) by lra. cbn [sat_state]. rewrite HT, HP. reflexivity.
  - rewrite (T_h_saturated D p _ T hL hV Hp HT HP) by nra. apply f_equal, f_equal, f_equal. field. lra.
Qed.

(* ---- region 3, as the density method reports it ---- *)
Theorem bracket3 D T p : usable (if_r3 D) -> 0 < T -> can_raise tn (if_r3 D) (if_Tc D / T) -> 0 < if_dc D * if_R D ->
  exists n t v a b, f3 D (Some T) (Some p) = Ok (Some n, t, v) /\ (n = a \/ n = b) /\
    0.1 <= a /\ a < b /\ b <= 2.4 /\ b - a = 2.3 / 2 ^ 14 /\
    (a = 0.1 \/ exists q, pressure_is D T a q /\ q <= p) /\ (b = 2.4 \/ exists q, pressure_is D T b q /\ p < q).
Proof.
  intros HU HT Ht HR. destruct (f3_search D T p HU HT Ht) as (n & F & J & V & E & N & a & b & A1 & A2 & A3 & W & En & Q); [lra|].
  exists n. do 2 eexists. exists a, b. split; [exact E|]. destruct (Q HR) as [Ea Eb].
  repeat split; try lra; try assumption.
  - destruct Ea as [Ea|Ea]; [now left|right]. eexists. split; [apply (jet_pressure D T a F); auto; lra|exact Ea].
  - destruct Eb as [Eb|Eb]; [now left|right]. eexists. split; [apply (jet_pressure D T b F); auto; lra|exact Eb].
Qed.
Lemma density3 D dT dp T p x n t v : region D (Some T) (Some p) = 3%Z -> x < 0 -> f3 D (Some T) (Some p) = Ok (n, t, v) ->
  prop_d D dT dp (Some T) (Some p) (Some x) = Ok (num (if_dc D) * n)%fl.
Proof.
  intros Hr Hx E. unfold prop_d. rewrite (flt_yes x 0 Hx : flt (Some x) (num 0) = true), (at_region _ _ _ _ _ _ _ Hr), E. reflexivity.
Qed.
Theorem density_found D dT dp T p x p0 p1 : region D (Some T) (Some p) = 3%Z -> x < 0 -> fit3 D T -> 0 < T -> 0 < if_dc D * if_R D ->
  pressure_is D T 0.1 p0 -> pressure_is D T 2.4 p1 -> p0 <= p < p1 ->
  exists n, prop_d D dT dp (Some T) (Some p) (Some x) = Ok (Some (if_dc D * n)) /\
    exists r, Rabs (n - r) <= 2.3 / 2 ^ 14 /\ 0.1 <= r <= 2.4 /\ pressure_is D T r p.
Proof.
  intros Hr Hx [HU Ht] HT HR H0 H1 Hp. destruct (f3_density D T p p0 p1 HU HT Ht HR H0 H1 Hp) as (n & t & v & E & Q).
  exists n. split; [exact (density3 _ _ _ _ _ _ _ _ _ Hr Hx E)|exact Q].
Qed.
Theorem density_unreached D dT dp T p x : region D (Some T) (Some p) = 3%Z -> x < 0 -> fit3 D T -> 0 < T -> 0 < if_dc D * if_R D ->
  (forall n q, 0.1 < n < 2.4 -> pressure_is D T n q -> q <= p) ->
  prop_d D dT dp (Some T) (Some p) (Some x) = Ok (Some (if_dc D * (2.4 - 2.3 / 2 ^ 14))).
Proof.
  intros Hr Hx [HU Ht] HT HR H. destruct (f3_unreached D T p HU HT Ht HR H) as (t & v & E).
  exact (density3 _ _ _ _ _ _ _ _ _ Hr Hx E).
Qed.

(* ---- below the lower limit ---- *)
Lemma g1_answers D T p o : usable (if_r1 D) -> exists e, g1 D T p o = Ok e.
Proof.
  intro HU. unfold g1. cbv zeta. destruct (proj2 (peval_accepts (num (71/10) - p / num (1653/10))%fl (num 1386 / T - num (1222/1000))%fl (if_r1 D) o) HU) as [r ->].
  destruct r as [[[[[? ?] ?] ?] ?] ?]. eexists. reflexivity.
Qed.
Lemma g2_answers D T p o : usable (if_r2o D) -> usable (if_r2r D) -> exists e, g2 D T p o = Ok e.
Proof.
  intros HU HU2. unfold g2. cbv zeta. destruct (proj2 (peval_accepts (p / num 10)%fl (num 540 / T)%fl (if_r2o D) o) HU) as [r ->].
  destruct (proj2 (peval_accepts (p / num 10)%fl (num 540 / T - num (5/10))%fl (if_r2r D) o) HU2) as [r2 ->]. eexists. reflexivity.
Qed.
Theorem cold_answered D dT dp T p x : usable (if_r1 D) -> usable (if_r2o D) -> usable (if_r2r D) ->
  T < 273.15 -> 0 <= p <= 1000 -> x < 0 -> exists h, if_h D dT dp (Some T) (Some p) (Some x) = Ok h.
Proof.
  intros H1 H2 H3 HT Hp Hx. unfold if_h, prop. rewrite (flt_yes x 0 Hx : flt (Some x) (num 0) = true).
  destruct (cold_accepted D T p HT Hp) as [Hr|Hr]; rewrite (at_region _ _ _ _ _ _ _ Hr).
  - destruct (g1_answers D (Some T) (Some p) 1 H1) as [e ->]. eexists. reflexivity.
  - destruct (g2_answers D (Some T) (Some p) 1 H2 H3) as [e ->]. eexists. reflexivity.
Qed.

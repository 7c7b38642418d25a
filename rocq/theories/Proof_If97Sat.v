(* The region map and the saturation curve of the IF-97 class. *)
From Coq Require Import Reals ZArith List Bool Lia Lra Arith.
From Verif Require Import Model_If97 Spec_Mp1 Spec_If97 Proof_Mp1Poly.
Import ListNotations.
Local Open Scope R_scope.

(* ---- comparisons ---- *)
Lemma flt_yes x y : x < y -> flt (Some x) (Some y) = true.
Proof. intro H. cbn. destruct (Rlt_dec x y); [reflexivity|contradiction]. Qed.
Lemma flt_no x y : y <= x -> flt (Some x) (Some y) = false.
Proof. intro H. cbn. destruct (Rlt_dec x y); [lra|reflexivity]. Qed.
Lemma flt_iff x y : flt (Some x) (Some y) = true <-> x < y.
Proof. cbn. destruct (Rlt_dec x y); split; intro; try assumption; try reflexivity; try discriminate; contradiction. Qed.
Lemma flt_false_iff x y : flt (Some x) (Some y) = false <-> y <= x.
Proof. cbn. destruct (Rlt_dec x y); split; intro; try discriminate; try reflexivity; lra. Qed.

(* ---- the region map ---- *)
Lemma region_cases D T p : region D T p = (-1)%Z \/ region D T p = 1%Z \/ region D T p = 2%Z \/ region D T p = 3%Z \/ region D T p = 5%Z.
Proof.
  unfold region. repeat match goal with |- context [if ?b then _ else _] => destruct b end; tauto.
Qed.
Lemma b23_value D T : b23_T D (Some T) = Some (boundary23 D T).
Proof. unfold b23_T, boundary23. flc. f_equal. ring. Qed.
Ltac regs := unfold region; cbv zeta; flc; rewrite ?b23_value.
Lemma region_rejects D T p : region D (Some T) (Some p) = (-1)%Z <-> ~ accepted_range T p.
Proof.
  unfold accepted_range. regs. unfold num, flt.
  destruct (Rlt_dec p 0); [cbn [orb]; split; [lra|reflexivity]|].
  destruct (Rlt_dec 1000 p); [cbn [orb]; split; [lra|reflexivity]|]. cbn [orb].
  destruct (Rlt_dec (227315/100) T); [split; [lra|reflexivity]|].
  destruct (Rlt_dec (107315/100) T).
  - destruct (Rlt_dec 500 p); [split; [lra|reflexivity]|]. split; [discriminate|lra].
  - split; [|lra]. repeat match goal with |- context [if ?b then _ else _] => destruct b end;
      repeat match goal with |- context [match ?b with Some _ => _ | None => _ end] => destruct b end;
      repeat match goal with |- context [if ?b then _ else _] => destruct b end; discriminate.
Qed.
Lemma region_five D T p : region D (Some T) (Some p) = 5%Z <-> accepted_range T p /\ 1073.15 < T.
Proof.
  unfold accepted_range. regs. unfold num, flt.
  destruct (Rlt_dec p 0); [cbn [orb]; split; [discriminate|lra]|].
  destruct (Rlt_dec 1000 p); [cbn [orb]; split; [discriminate|lra]|]. cbn [orb].
  destruct (Rlt_dec (227315/100) T); [split; [discriminate|lra]|].
  destruct (Rlt_dec (107315/100) T).
  - destruct (Rlt_dec 500 p); [split; [discriminate|lra]|]. split; [lra|reflexivity].
  - split; [|lra]. repeat match goal with |- context [if ?b then _ else _] => destruct b end;
      repeat match goal with |- context [match ?b with Some _ => _ | None => _ end] => destruct b end;
      repeat match goal with |- context [if ?b then _ else _] => destruct b end; discriminate.
Qed.
Lemma region_three D T p : region D (Some T) (Some p) = 3%Z <->
  accepted_range T p /\ 623.15 < T <= 863.15 /\ boundary23 D T <= p.
Proof.
  unfold accepted_range. regs. unfold num, flt.
  destruct (Rlt_dec p 0); [cbn [orb]; split; [discriminate|lra]|].
  destruct (Rlt_dec 1000 p); [cbn [orb]; split; [discriminate|lra]|]. cbn [orb].
  destruct (Rlt_dec (227315/100) T); [split; [discriminate|lra]|].
  destruct (Rlt_dec (107315/100) T). { destruct (Rlt_dec 500 p); split; try discriminate; lra. }
  destruct (Rlt_dec (86315/100) T); [split; [discriminate|lra]|].
  destruct (Rlt_dec (62315/100) T).
  - destruct (Rlt_dec p (boundary23 D T)); split; try discriminate; try reflexivity; lra.
  - split; [|lra]. destruct (if_ps D (Some T)) as [q|]; [|discriminate]. destruct (Rlt_dec p q); discriminate.
Qed.
Lemma region_one D T p q : if_ps D (Some T) = Some q ->
  (region D (Some T) (Some p) = 1%Z <-> accepted_range T p /\ T <= 623.15 /\ q <= p).
Proof.
  intro Hq. unfold accepted_range. regs. rewrite Hq. unfold num, flt.
  destruct (Rlt_dec p 0); [cbn [orb]; split; [discriminate|lra]|].
  destruct (Rlt_dec 1000 p); [cbn [orb]; split; [discriminate|lra]|]. cbn [orb].
  destruct (Rlt_dec (227315/100) T); [split; [discriminate|lra]|].
  destruct (Rlt_dec (107315/100) T). { destruct (Rlt_dec 500 p); split; try discriminate; lra. }
  destruct (Rlt_dec (86315/100) T); [split; [discriminate|lra]|].
  destruct (Rlt_dec (62315/100) T).
  - destruct (Rlt_dec p (boundary23 D T)); split; try discriminate; lra.
  - destruct (Rlt_dec p q); split; try discriminate; try reflexivity; lra.
Qed.
Lemma region_two D T p : (T <= 623.15 -> exists q, if_ps D (Some T) = Some q) ->
  (region D (Some T) (Some p) = 2%Z <-> accepted_range T p /\
     ((T <= 623.15 /\ exists q, if_ps D (Some T) = Some q /\ p < q) \/
      (623.15 < T <= 863.15 /\ p < boundary23 D T) \/ 863.15 < T <= 1073.15)).
Proof.
  intro Hq. unfold accepted_range. regs. unfold num, flt.
  destruct (Rlt_dec p 0); [cbn [orb]; split; [discriminate|lra]|].
  destruct (Rlt_dec 1000 p); [cbn [orb]; split; [discriminate|lra]|]. cbn [orb].
  destruct (Rlt_dec (227315/100) T); [split; [discriminate|intros [? [[? _]|?]]; lra]|].
  destruct (Rlt_dec (107315/100) T). { destruct (Rlt_dec 500 p); (split; [discriminate|intros [? [[? _]|?]]; lra]). }
  destruct (Rlt_dec (86315/100) T). { split; [|reflexivity]. intros _. split; [lra|]. right. right. lra. }
  destruct (Rlt_dec (62315/100) T).
  - destruct (Rlt_dec p (boundary23 D T)).
    + split; [|reflexivity]. intros _. split; [lra|]. right. left. lra.
    + split; [discriminate|]. intros [? [[? _]|?]]; lra.
  - destruct Hq as [q Hq]; [lra|]. rewrite Hq. destruct (Rlt_dec p q).
    + split; [|reflexivity]. intros _. split; [lra|]. left. split; [lra|]. eauto.
    + split; [discriminate|]. intros [? [[? [q' [E Q]]]|?]]; [injection E as <-; lra|lra].
Qed.
(* nothing is computed for a rejected state *)
Lemma rejected_state D fg ff order dT dp T p x : ~ accepted_range T p -> x < 0 ->
  prop D fg ff order dT dp (Some T) (Some p) (Some x) = Err PMParamError /\
  prop_d D dT dp (Some T) (Some p) (Some x) = Err PMParamError /\
  prop_hsd D dT (Some T) (Some p) (Some x) = Err PMParamError.
Proof.
  intros H Hx. apply (region_rejects D) in H. unfold prop, prop_d, prop_hsd, at_Tp. unfold num. rewrite (flt_yes x 0 Hx), H.
  repeat split; reflexivity.
Qed.
(* the lower temperature limit is not checked *)
Lemma cold_accepted D T p : T < 273.15 -> 0 <= p <= 1000 -> region D (Some T) (Some p) = 1%Z \/ region D (Some T) (Some p) = 2%Z.
Proof.
  intros HT Hp. destruct (region_cases D (Some T) (Some p)) as [H|[H|[H|[H|H]]]]; auto; exfalso.
  - apply region_rejects in H. apply H. unfold accepted_range. lra.
  - apply region_three in H. lra.
  - apply region_five in H. lra.
Qed.

(* ---- the saturation curve ---- *)
Lemma fdiv_some x y z : fdiv x y = Some z -> exists a b, x = Some a /\ y = Some b /\ b <> 0 /\ z = a / b.
Proof.
  destruct x as [a|], y as [b|]; try discriminate. cbn. destruct (Req_EM_T b 0); [discriminate|]. intro Q. injection Q as <-. eauto 8.
Qed.
Lemma fsqrt_some x z : fsqrt x = Some z -> exists a, x = Some a /\ 0 <= a /\ z = sqrt a.
Proof. destruct x as [a|]; [|discriminate]. cbn. destruct (Rle_dec 0 a); [|discriminate]. intro Q. injection Q as <-. eauto. Qed.
Lemma fadd_some x y z : fadd x y = Some z -> exists a b, x = Some a /\ y = Some b /\ z = a + b.
Proof. destruct x, y; try discriminate. intro Q. injection Q as <-. eauto. Qed.
Lemma fsub_some x y z : fsub x y = Some z -> exists a b, x = Some a /\ y = Some b /\ z = a - b.
Proof. destruct x, y; try discriminate. intro Q. injection Q as <-. eauto. Qed.
Lemma fmul_some x y z : fmul x y = Some z -> exists a b, x = Some a /\ y = Some b /\ z = a * b.
Proof. destruct x, y; try discriminate. intro Q. injection Q as <-. eauto. Qed.
Lemma fneg_some x z : fneg x = Some z -> exists a, x = Some a /\ z = - a.
Proof. destruct x; [|discriminate]. intro Q. injection Q as <-. eauto. Qed.

(* a root of a quadratic equation in the form both routines use *)
Lemma root_form a b c s : s * s = b * b - 4 * a * c -> - b + s <> 0 ->
  a * (2 * c / (- b + s))^2 + b * (2 * c / (- b + s)) + c = 0.
Proof.
  intros Hs Hd.
  replace (a * (2 * c / (- b + s))^2 + b * (2 * c / (- b + s)) + c) with (c * (4 * a * c - b * b + s * s) / (- b + s)^2) by (field; exact Hd).
  rewrite Hs. field. exact Hd.
Qed.

Lemma ps_on_curve D T p : if_ps D (Some T) = Some p -> T <> n10 (if_r4 D) /\
  exists b, p = 10 * b^4 /\ sat_equation (if_r4 D) b (scaled_T (if_r4 D) T).
Proof.
  intro H. unfold if_ps in H. set (c4 := if_r4 D) in *. unfold scaled_T.
  cbv zeta in H. unfold num in H. cbn [fsub lift2] in H. change (fsub (Some T) (Some (n10 c4))) with (Some (T - n10 c4)) in H.
  destruct (Req_EM_T (T - n10 c4) 0) as [Q|Q].
  { assert (E : fdiv (Some (n9 c4)) (Some (T - n10 c4)) = None) by (cbn; destruct (Req_EM_T _ _); [reflexivity|contradiction]).
    rewrite E in H. cbn in H. discriminate. }
  assert (HT : T <> n10 c4) by lra. split; [exact HT|].
  rewrite (fdiv_ok _ _ Q) in H. flc. cbn [fadd fsub fmul fneg lift1 lift2] in H.
  set (t := T + n9 c4 / (T - n10 c4)) in *.
  set (a := (t + n1 c4) * t + n2 c4) in *. set (b := (n3 c4 * t + n4 c4) * t + n5 c4) in *.
  set (c := (n6 c4 * t + n7 c4) * t + n8 c4) in *.
  unfold fsqrt in H. destruct (Rle_dec 0 (b * b - 4 * a * c)) as [Hd|]; [|discriminate]. cbn [fadd lift2] in H.
  destruct (Req_EM_T (- b + sqrt (b * b - 4 * a * c)) 0) as [Z|Z].
  { assert (E : fdiv (Some (2 * c)) (Some (- b + sqrt (b * b - 4 * a * c))) = None) by (cbn; destruct (Req_EM_T _ _); [reflexivity|contradiction]).
    rewrite E in H. cbn in H. discriminate. }
  rewrite (fdiv_ok _ _ Z) in H. cbn [fmul lift2] in H. injection H as <-.
  exists (2 * c / (- b + sqrt (b * b - 4 * a * c))). split; [ring|].
  pose proof (root_form a b c _ (sqrt_sqrt _ Hd) Z) as P. set (x := 2 * c / (- b + sqrt (b * b - 4 * a * c))) in *.
  unfold sat_equation. unfold a, b, c in P. rewrite <- P. ring.
Qed.
Lemma fourth_root x : 0 < x -> Rpower x (1/4) ^ 4 = x.
Proof.
  intro H. rewrite <- Rpower_pow by apply exp_pos. rewrite Rpower_mult.
  replace (1 / 4 * INR 4) with 1 by (cbn; lra). apply Rpower_1. exact H.
Qed.
Lemma fourth_root_pow b : 0 < b -> Rpower (b^4) (1/4) = b.
Proof.
  intro H. rewrite <- Rpower_pow by exact H. rewrite Rpower_mult.
  replace (INR 4 * (1 / 4)) with 1 by (cbn; lra). apply Rpower_1. exact H.
Qed.

Lemma Ts_on_curve D p T : 0 < p -> n9 (if_r4 D) <> 0 -> if_Ts D (Some p) = Some T -> T <> n10 (if_r4 D) /\
  exists b, 0 < b /\ p = 10 * b^4 /\ sat_equation (if_r4 D) b (scaled_T (if_r4 D) T).
Proof.
  intros Hp H9 H. unfold if_Ts in H. set (c4 := if_r4 D) in *. unfold scaled_T. cbv zeta in H. unfold num in H.
  rewrite (fdiv_ok p 10) in H by lra. unfold fpow in H. destruct (Rlt_dec 0 (p / 10)) as [Hp'|]; [|lra].
  set (b := Rpower (p / 10) (1/4)) in *. cbn [fadd fsub fmul fneg lift1 lift2] in H.
  set (E := (b + n3 c4) * b + n6 c4) in *. set (F := (n1 c4 * b + n4 c4) * b + n7 c4) in *.
  set (G := (n2 c4 * b + n5 c4) * b + n8 c4) in *.
  unfold fsqrt at 2 in H. destruct (Rle_dec 0 (F * F - 4 * E * G)) as [Hd|].
  2:{ unfold fsqrt in H. destruct (Rle_dec 0 (F * F - 4 * E * G)); [contradiction|]. cbn in H. discriminate. }
  cbn [fsub fadd fmul fneg lift1 lift2] in H.
  unfold fsqrt in H. destruct (Rle_dec 0 (F * F - 4 * E * G)) as [Hd'|]; [|contradiction]. cbn [fsub lift2] in H.
  destruct (Req_EM_T (- F - sqrt (F * F - 4 * E * G)) 0) as [Z|Z].
  { assert (Q : fdiv (Some (2 * G)) (Some (- F - sqrt (F * F - 4 * E * G))) = None) by (cbn; destruct (Req_EM_T _ _); [reflexivity|contradiction]).
    rewrite Q in H. cbn in H. discriminate. }
  rewrite (fdiv_ok _ _ Z) in H. set (th := 2 * G / (- F - sqrt (F * F - 4 * E * G))) in *.
  cbn [fsub fadd fmul fneg lift1 lift2] in H.
  set (tt := n10 c4 + th) in *.
  destruct (Rle_dec 0 (tt * tt - 4 * (n9 c4 + n10 c4 * th))) as [Hd2|]; [|discriminate]. cbn [fsub fmul lift2] in H. injection H as <-.
  set (s2 := sqrt (tt * tt - 4 * (n9 c4 + n10 c4 * th))).
  assert (S2 : s2 * s2 = tt * tt - 4 * (n9 c4 + n10 c4 * th)) by (apply sqrt_sqrt; exact Hd2).
  set (T := 5 / 10 * (tt - s2)).
  assert (Q : T * T - tt * T + (n9 c4 + n10 c4 * th) = 0). { unfold T. nra. }
  assert (HT : T <> n10 c4). { intro E1. rewrite E1 in Q. apply H9. unfold tt in Q. lra. }
  split; [exact HT|]. exists b. split; [apply exp_pos|]. split. { unfold b. rewrite fourth_root by exact Hp'. field. }
  assert (Eth : T + n9 c4 / (T - n10 c4) = th).
  { assert (T - n10 c4 <> 0) by lra. apply (Rmult_eq_reg_r (T - n10 c4)); [|assumption]. field_simplify; [|assumption].
    unfold tt in Q. lra. }
  rewrite Eth.
  assert (P : E * th^2 + F * th + G = 0).
  { unfold th. replace (- F - sqrt (F * F - 4 * E * G)) with (- F + - sqrt (F * F - 4 * E * G)) by ring.
    apply root_form; [|intro Q2; apply Z; lra]. rewrite Rmult_opp_opp. apply sqrt_sqrt. exact Hd. }
  unfold sat_equation. unfold E, F, G in P. rewrite <- P. ring.
Qed.

(* on the branch the two routines are inverse to each other *)
Lemma curve_methods D T b : n9 (if_r4 D) <= 0 -> T < n10 (if_r4 D) ->
  on_branch (if_r4 D) b (scaled_T (if_r4 D) T) ->
  if_ps D (Some T) = Some (10 * b^4) /\ if_Ts D (Some (10 * b^4)) = Some T.
Proof.
  intros H9 HT (Heq & Hb & Hth & Hsb & HG & HC). set (c4 := if_r4 D) in *. unfold scaled_T in *.
  set (t := T + n9 c4 / (T - n10 c4)) in *. assert (HT0 : T - n10 c4 <> 0) by lra. split.
  - unfold if_ps. fold c4. cbv zeta. flc. rewrite (fdiv_ok _ _ HT0). flc. fold t.
    set (a := (t + n1 c4) * t + n2 c4) in *. set (bb := (n3 c4 * t + n4 c4) * t + n5 c4) in *.
    set (c := (n6 c4 * t + n7 c4) * t + n8 c4) in *.
    assert (Ec : c = - b * (a * b + bb)). { unfold a, bb, c. unfold sat_equation in Heq. lra. }
    assert (Hc : c <> 0). { intro Q. apply HC. rewrite <- Q. unfold c. ring. }
    assert (Es : slope_b c4 b t = 2 * a * b + bb). { unfold slope_b, a, bb. ring. }
    assert (Ed : bb * bb - 4 * a * c = Rsqr (- (2 * a * b + bb))). { rewrite Ec. unfold Rsqr. ring. }
    rewrite Ed. unfold fsqrt. destruct (Rle_dec 0 (Rsqr (- (2 * a * b + bb)))) as [_|n]; [|destruct (n (Rle_0_sqr _))].
    rewrite sqrt_Rsqr by lra. flc.
    assert (Hn : a * b + bb <> 0). { intro Q. apply Hc. rewrite Ec, Q. ring. }
    assert (Hd : - bb + - (2 * a * b + bb) <> 0) by lra. rewrite (fdiv_ok _ _ Hd). flc. f_equal.
    replace (2 * c / (- bb + - (2 * a * b + bb))) with b; [ring|]. rewrite Ec. field. lra.
  - unfold if_Ts. fold c4. cbv zeta. flc. rewrite (fdiv_ok (10 * b^4) 10) by lra.
    replace (10 * b^4 / 10) with (b^4) by field. unfold fpow.
    destruct (Rlt_dec 0 (b^4)) as [_|n]; [|destruct (n (pow_lt _ _ Hb))]. rewrite fourth_root_pow by exact Hb. flc.
    set (E := (b + n3 c4) * b + n6 c4) in *. set (F := (n1 c4 * b + n4 c4) * b + n7 c4) in *.
    set (G := (n2 c4 * b + n5 c4) * b + n8 c4) in *.
    assert (EG : G = - t * (E * t + F)). { unfold E, F, G. unfold sat_equation in Heq. lra. }
    assert (HG' : G <> 0). { intro Q. apply HG. rewrite <- Q. unfold G. ring. }
    assert (Es : slope_th c4 b t = 2 * E * t + F). { unfold slope_th, E, F. ring. }
    assert (Ed : F * F - 4 * E * G = Rsqr (2 * E * t + F)). { rewrite EG. unfold Rsqr. ring. }
    assert (Er : fsqrt (Some (F * F - 4 * E * G)) = Some (2 * E * t + F)).
    { rewrite Ed. unfold fsqrt. destruct (Rle_dec 0 (Rsqr (2 * E * t + F))) as [_|n]; [|destruct (n (Rle_0_sqr _))].
      rewrite sqrt_Rsqr by lra. reflexivity. }
    rewrite Er. flc.
    assert (Hn : E * t + F <> 0). { intro Q. apply HG'. rewrite EG, Q. ring. }
    assert (Hd : - F - (2 * E * t + F) <> 0) by lra. rewrite (fdiv_ok _ _ Hd). flc.
    replace (2 * G / (- F - (2 * E * t + F))) with t by (rewrite EG; field; lra).
    set (u := T - n10 c4) in *. assert (Eu : T = n10 c4 + u) by (unfold u; ring).
    assert (Et : t = T + n9 c4 / u) by reflexivity.
    assert (Q : (n10 c4 + t) * (n10 c4 + t) - 4 * (n9 c4 + n10 c4 * t) = Rsqr (n9 c4 / u - u)).
    { rewrite Et, Eu. unfold Rsqr. field. exact HT0. }
    assert (Hs : 0 <= n9 c4 / u - u).
    { assert (0 <= n9 c4 / u). { unfold Rdiv. rewrite <- Rmult_opp_opp. apply Rmult_le_pos; [lra|].
        assert (/ u < 0); [apply Rinv_lt_0_compat; lra|lra]. }
      lra. }
    rewrite Q. unfold fsqrt. destruct (Rle_dec 0 (Rsqr (n9 c4 / u - u))) as [_|n]; [|destruct (n (Rle_0_sqr _))].
    rewrite sqrt_Rsqr by exact Hs. flc. f_equal. rewrite Et, Eu. field. exact HT0.
Qed.

(* ---- an instance: the coefficients of the release (table 34), at 10 bar ---- *)
Definition rel4 : sat4 := {| n1 := 1167.0521452767; n2 := -724213.16703206; n3 := -17.073846940092; n4 := 12020.824702470;
  n5 := -3232555.0322333; n6 := 14.915108613530; n7 := -4823.2657361591; n8 := 405113.40542057;
  n9 := -0.23855557567849; n10 := 650.17534844798 |}.
Lemma rel4_branch : exists T, 452 < T < 454 /\ on_branch rel4 1 (scaled_T rel4 T).
Proof.
  pose (E := 1 + n3 rel4 + n6 rel4). pose (F := n1 rel4 + n4 rel4 + n7 rel4). pose (G := n2 rel4 + n5 rel4 + n8 rel4).
  pose (s := sqrt (F * F - 4 * E * G)).
  assert (Hd : 53504000 < F * F - 4 * E * G < 53506000) by (unfold E, F, G; cbn; lra).
  assert (Hs : s * s = F * F - 4 * E * G) by (apply sqrt_sqrt; lra).
  assert (Hp : 0 <= s) by apply sqrt_pos.
  assert (Hb : 7314 < s < 7315) by (split; nra).
  pose (th := (- F + s) / (2 * E)).
  assert (HE : E <> 0) by (unfold E; cbn; lra).
  assert (Hq : E * th^2 + F * th + G = 0).
  { unfold th. replace (E * ((- F + s) / (2 * E))^2 + F * ((- F + s) / (2 * E)) + G) with ((s * s - (F * F - 4 * E * G)) / (4 * E)) by (field; exact HE).
    rewrite Hs. field. exact HE. }
  assert (Hth : 452.5 < th < 453.5).
  { assert (H1 : 2 * E * th + F = s) by (unfold th; field; exact HE). unfold E, F in H1. cbn in H1. lra. }
  pose (tt := n10 rel4 + th). pose (s2 := sqrt (tt * tt - 4 * (n9 rel4 + n10 rel4 * th))).
  assert (D2 : tt * tt - 4 * (n9 rel4 + n10 rel4 * th) = (n10 rel4 - th) * (n10 rel4 - th) - 4 * n9 rel4) by (unfold tt; ring).
  assert (D3 : 0 <= tt * tt - 4 * (n9 rel4 + n10 rel4 * th)) by (rewrite D2; cbn; nra).
  assert (S2 : s2 * s2 = tt * tt - 4 * (n9 rel4 + n10 rel4 * th)) by (apply sqrt_sqrt; exact D3).
  assert (P2 : 0 <= s2) by apply sqrt_pos.
  assert (B2 : n10 rel4 - th <= s2 <= n10 rel4 - th + 0.01). { cbn in *. split; nra. }
  exists (5 / 10 * (tt - s2)). set (T := 5 / 10 * (tt - s2)).
  assert (HT : 452 < T < 454). { unfold T, tt. cbn in *. lra. }
  split; [exact HT|].
  assert (HT0 : T - n10 rel4 <> 0) by (cbn; lra).
  assert (Eq : scaled_T rel4 T = th).
  { unfold scaled_T. apply (Rmult_eq_reg_r (T - n10 rel4)); [|exact HT0].
    replace ((T + n9 rel4 / (T - n10 rel4)) * (T - n10 rel4)) with (T * (T - n10 rel4) + n9 rel4) by (field; exact HT0).
    unfold T, tt in *. nra. }
  rewrite Eq. unfold on_branch, sat_equation, slope_th, slope_b. split; [|split; [lra|split; [|split; [|split]]]].
  - rewrite <- Hq. unfold E, F, G. ring.
  - assert (H1 : 2 * E * th + F = s) by (unfold th; field; exact HE). unfold E, F in H1. lra.
  - cbn in *. nra.
  - cbn. lra.
  - cbn in *. nra.
Qed.

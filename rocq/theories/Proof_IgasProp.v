(* Forms of the ideal gas lemmas used in the property statements. *)
From Coq Require Import Reals ZArith List String Bool Lia Lra.
From Verif Require Import Base Model_Num Model_Units Model_Igas Spec_Units Spec_Igas
  Proof_Units Proof_Igas Proof_Iter.
Import ListNotations.
Local Open Scope R_scope.
Local Open Scope list_scope.

Lemma ig_value_slopes oob D i T : good_data D -> (S i < List.length (d_Tlim D))%nat ->
  nth i (d_Tlim D) 0 < T < nth (S i) (d_Tlim D) 0 -> 0 < T ->
  exists cp h s, values_at (ig_gas oob D) T cp h s /\ slopes_at (ig_gas oob D) T cp s.
Proof.
  intros HD Hi HT Hp. do 3 eexists. split.
  - apply (ig_values oob D i T HD); [|exact Hp]. apply interior_in; assumption.
  - apply ig_slopes; assumption.
Qed.

Lemma ig2_value_slopes oob D i T : good_data D -> (S i < List.length (d_Tlim D))%nat ->
  nth i (d_Tlim D) 0 < T < nth (S i) (d_Tlim D) 0 -> 0 < T ->
  exists cp h s, values_at (ig2_gas oob D) T cp h s /\ slopes_at (ig2_gas oob D) T cp s.
Proof.
  intros HD Hi HT Hp. do 3 eexists. split.
  - apply (ig2_values oob D i T HD); [|exact Hp]. apply interior_in; assumption.
  - apply ig2_slopes; assumption.
Qed.

Lemma one_interval Tlim T : good_limits Tlim -> nth 0 Tlim 0 <= T <= last Tlim 0 ->
  exists i, in_interval Tlim i T /\ forall j, in_interval Tlim j T -> j = i.
Proof.
  intros G H. destruct (interval_exists Tlim T G H) as [i Hi]. exists i. split; [exact Hi|].
  intros j Hj. apply (interval_unique Tlim j i T); [apply G|exact Hj|exact Hi].
Qed.

Lemma piecewise_in' Tlim C oob F T i : good_limits Tlim -> in_interval Tlim i T ->
  piecewise Tlim C oob F (Some T) = F (nth i C []) T.
Proof. apply piecewise_in. Qed.

Lemma piecewise_limits Tlim C oob F i : good_limits Tlim -> (S i < List.length Tlim)%nat ->
  piecewise Tlim C oob F (Some (nth i Tlim 0)) = F (nth i C []) (nth i Tlim 0) /\
  (S (S i) = List.length Tlim ->
   piecewise Tlim C oob F (Some (nth (S i) Tlim 0)) = F (nth i C []) (nth (S i) Tlim 0)).
Proof.
  intros G Hi. pose proof (increasing_nth Tlim (proj1 G) i (S i) ltac:(lia) Hi) as Hlt. split.
  - apply piecewise_in; [exact G|]. split; [exact Hi|]. split; [lra|]. left. exact Hlt.
  - intro Hl. apply piecewise_in; [exact G|]. split; [exact Hi|]. split; [lra|]. right. auto.
Qed.

Lemma ep_val : ep_default = / 1000000.
Proof. unfold ep_default. rewrite p10_neg_eq. change (Pos.to_nat 6) with 6%nat. f_equal. simpl. lra. Qed.

Lemma iter1_accurate' lo hi fns ys xs i f (v d : R -> R) y x w :
  lo <= hi -> List.length fns = List.length ys -> iter1_full lo hi fns ys = Ok (xs, w) ->
  nth_error fns i = Some f -> nth_error ys i = Some (Some y) -> nth_error xs i = Some x ->
  (forall t, lo <= t <= hi -> f (Some t) = (Some (v t), Some (d t)) /\ d t <> 0) ->
  exists r x0 k, x = Some r /\ lo <= r <= hi /\ lo <= x0 <= hi /\ (k <= 20)%nat /\
    r = x0 + (y - v x0) / d x0 / 2 ^ k /\
    (w = false -> Rabs (y - v x0) <= Rabs (/ 1000000 * y)).
Proof.
  intros. rewrite <- ep_val. eapply iter1_accurate; eauto.
Qed.

Lemma iter1_residual' lo hi fns ys xs i f (v d : R -> R) m M y x : lo <= hi -> 0 < m ->
  List.length fns = List.length ys -> iter1_full lo hi fns ys = Ok (xs, false) ->
  nth_error fns i = Some f -> nth_error ys i = Some (Some y) -> nth_error xs i = Some x ->
  (forall t, lo <= t <= hi -> f (Some t) = (Some (v t), Some (d t)) /\ m <= d t <= M) ->
  (forall a b, lo <= a <= b -> b <= hi -> m * (b - a) <= v b - v a <= M * (b - a)) ->
  exists r, x = Some r /\ lo <= r <= hi /\ Rabs (y - v r) <= M / m * (/ 1000000 * Rabs y).
Proof.
  intros. rewrite <- ep_val. eapply iter1_residual; eauto.
Qed.

Lemma iter1_unreachable lo hi f (v d : R -> R) y :
  lo <= hi -> (forall t, lo <= t <= hi -> f (Some t) = (Some (v t), Some (d t)) /\ d t <> 0) ->
  (forall t, lo <= t <= hi -> Rabs (/ 1000000 * y) < Rabs (y - v t)) ->
  (exists xs, iter1_full lo hi [f] [Some y] = Ok (xs, true)) \/
  iter1_full lo hi [f] [Some y] = Err PMAnalysisError.
Proof.
  intros Hlh Hr Hu. destruct (iter1_full lo hi [f] [Some y]) as [[xs w]|e] eqn:E.
  - destruct w; [left; eauto|]. exfalso.
    pose proof E as E2. apply iter1_pointwise in E2; [|reflexivity]. destruct E2 as (ws & _ & _ & Hl & _).
    destruct xs as [|x [|x2 xs]]; try discriminate.
    destruct (iter1_accurate' lo hi [f] [Some y] [x] 0 f v d y x false Hlh eq_refl E eq_refl eq_refl eq_refl Hr)
      as (r & x0 & k & _ & _ & Hx0 & _ & _ & Ha).
    specialize (Ha eq_refl). specialize (Hu x0 Hx0). lra.
  - right. f_equal. exact (iter1_errors _ _ _ _ _ E).
Qed.

Ltac decide_reals :=
  repeat match goal with
  | |- context [Rlt_dec ?a ?b] => destruct (Rlt_dec a b); try (exfalso; lra)
  | |- context [Req_EM_T ?a ?b] => destruct (Req_EM_T a b); try (exfalso; lra)
  end.

Lemma iter1_instance :
  let lin := fun t : fl => (fmul (Some 2) t, Some 2) in
  iter1_full 0 10 [lin; lin] [Some 4; Some 10] = Ok ([Some 2; Some 5], false) /\
  (forall t, 0 <= t <= 10 -> lin (Some t) = (Some ((fun x => 2 * x) t), Some ((fun _ => 2) t)) /\
             (fun _ : R => 2) t <> 0) /\
  (forall t, 0 <= t <= 10 -> Rabs (/ 1000000 * 50) < Rabs (50 - 2 * t)).
Proof.
  intro lin. split; [|split].
  - unfold iter1_full. rewrite ep_val.
    assert (forall N c, existsb (outside 0 10) c = false -> oob_loop 0 10 N c = Ok c) as HO.
    { intros [|N] c H; cbn; rewrite H; reflexivity. }
    assert (forall a b, map2 (start 0 10) [a; b] [Some 4; Some 10] =
       [start 0 10 a (Some 4); start 0 10 b (Some 10)]) as -> by reflexivity.
    set (M := 20%nat) at 1.
    change 20%nat with (S (S 18)).
    assert (forall l cs, existsb c_on cs = false -> iter_loop (/ 1000000) 0 10 M l cs = Ok (cs, false)) as HI.
    { intros [|l] cs H; cbn; rewrite H; reflexivity. }
    set (c1 x e dx on := {| c_fn := lin; c_y := Some 4; c_x := Some x; c_dx := Some dx; c_err := Some e; c_on := on |}).
    set (c2 x e dx on := {| c_fn := lin; c_y := Some 10; c_x := Some x; c_dx := Some dx; c_err := Some e; c_on := on |}).
    replace (start 0 10 lin (Some 4)) with (c1 5 0 0 true).
    2:{ unfold start, c1. repeat f_equal; lra. }
    replace (start 0 10 lin (Some 10)) with (c2 5 0 0 true).
    2:{ unfold start, c2. repeat f_equal; lra. }
    assert (newton (c1 5 0 0 true) = c1 2 (-6) (-3) true) as N1.
    { unfold newton, c1. cbn. decide_reals. repeat f_equal; lra. }
    assert (newton (c2 5 0 0 true) = c2 5 0 0 true) as N2.
    { unfold newton, c2. cbn. decide_reals. repeat f_equal; lra. }
    assert (newton (c1 2 (-6) (-3) true) = c1 2 0 0 true) as N3.
    { unfold newton, c1. cbn. decide_reals. repeat f_equal; lra. }
    assert (newton (c2 5 0 0 false) = c2 5 0 0 false) as N4 by reflexivity.
    assert (check (/ 1000000) (c1 2 (-6) (-3) true) = c1 2 (-6) (-3) true) as K1.
    { unfold check, c1. cbn. rewrite (Rabs_left (-6)) by lra. rewrite Rabs_right by lra. decide_reals. reflexivity. }
    assert (check (/ 1000000) (c2 5 0 0 true) = c2 5 0 0 false) as K2.
    { unfold check, c2. cbn. rewrite Rabs_R0. pose proof (Rabs_pos (/ 1000000 * 10)). decide_reals. reflexivity. }
    assert (check (/ 1000000) (c1 2 0 0 true) = c1 2 0 0 false) as K3.
    { unfold check, c1. cbn. rewrite Rabs_R0. pose proof (Rabs_pos (/ 1000000 * 4)). decide_reals. reflexivity. }
    assert (check (/ 1000000) (c2 5 0 0 false) = c2 5 0 0 false) as K4 by reflexivity.
    assert (forall e dx e' dx' on on', existsb (outside 0 10) [c1 2 e dx on; c2 5 e' dx' on'] = false) as Hout.
    { intros. cbn. unfold outside, c1, c2. cbn. decide_reals. reflexivity. }
    cbn [iter_loop existsb map]. rewrite N1, N2, HO by apply Hout. cbn [c1 c2 c_on orb bind map].
    fold (c1 2 (-6) (-3) true). fold (c2 5 0 0 true). rewrite K1, K2.
    cbn [existsb map]. rewrite N3, N4, HO by apply Hout. cbn [c1 c2 c_on orb bind map].
    fold (c1 2 0 0 true). fold (c2 5 0 0 false). rewrite K3, K4.
    cbn [iter_loop existsb map c_on c1 c2 orb bind fst snd c_x]. reflexivity.
  - intros t Ht. split; [reflexivity|]. lra.
  - intros t Ht. rewrite !Rabs_right by lra. lra.
Qed.

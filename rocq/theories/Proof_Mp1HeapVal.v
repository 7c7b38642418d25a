(* The values of Model_Mp1Calls that are also those of an argument. *)
From Coq Require Import Reals ZArith List Bool Arith String Lra Lia.
From Verif Require Import Base Model_Num Model_Units Model_Igas Model_IgHeap Model_Hybrid Model_Mp1Calls Model_Mp1Heap Proof_Mp1Ts Proof_IgasState.
Import ListNotations.
Local Open Scope R_scope.
Local Open Scope string_scope.
Local Open Scope list_scope.

(* an array stretched to n elements *)
Definition ext (n : nat) (x : arr) : arr := if Nat.eqb (List.length x) n then x else repeat (nth 0 x None) n.
Definition fits (n : nat) (x : arr) : Prop := List.length x = n \/ List.length x = 1%nat.
Lemma ext_len n x : List.length (ext n x) = n.
Proof. unfold ext. destruct (Nat.eqb_spec (List.length x) n); [assumption | apply repeat_length]. Qed.
Lemma ext_fits n x m : fits n x -> (n = m \/ n = 1%nat) -> ext m (ext n x) = ext m x.
Proof.
  intros F N. unfold ext at 2. destruct (Nat.eqb_spec (List.length x) n) as [e|e]; [reflexivity|].
  destruct F as [F|F]; [contradiction|]. destruct N as [->| ->]; [|contradiction].
  unfold ext. rewrite repeat_length, Nat.eqb_refl. apply Nat.eqb_neq in e. now rewrite e.
Qed.
Lemma broadcast_ext x y a b s1 s2 : broadcast x y = Ok (a, b, s1, s2) ->
  exists n, a = ext n x /\ b = ext n y /\ fits n x /\ fits n y /\ (n = List.length x \/ n = List.length y).
Proof.
  unfold broadcast, ext, fits. destruct (Nat.eqb_spec (List.length x) (List.length y)) as [e|e].
  - intro H. injection H as <- <- _ _. exists (List.length x). rewrite <- e, Nat.eqb_refl. auto 6.
  - destruct x as [|x1 [|x2 x]]; destruct y as [|y1 [|y2 y]]; intro H; try discriminate H; try (cbn in e; lia);
      injection H as <- <- _ _; cbn [List.length] in e.
    + exists 0%nat. cbn. auto 7.
    + exists 0%nat. cbn. auto 7.
    + exists (S (S (List.length y))). cbn [List.length nth repeat]. rewrite Nat.eqb_refl. cbn [Nat.eqb]. auto 7.
    + exists (S (S (List.length x))). cbn [List.length nth repeat]. rewrite Nat.eqb_refl. cbn [Nat.eqb]. auto 7.
Qed.
Lemma map_fst_combine {A B} (a : list A) (b : list B) : List.length a = List.length b -> map fst (combine a b) = a.
Proof. revert b. induction a as [|x a IH]; intros [|y b] L; cbn in *; try discriminate; [reflexivity|]. f_equal. apply IH. lia. Qed.
Lemma map_snd_combine {A B} (a : list A) (b : list B) : List.length a = List.length b -> map snd (combine a b) = b.
Proof. revert b. induction a as [|x a IH]; intros [|y b] L; cbn in *; try discriminate; [reflexivity|]. f_equal. apply IH. lia. Qed.
Lemma broadcast2_ext x y l : broadcast2 x y = Ok l ->
  map fst l = ext (List.length l) x /\ map snd l = ext (List.length l) y /\ fits (List.length l) x /\ fits (List.length l) y.
Proof.
  unfold broadcast2. destruct (broadcast x y) as [[[[a b] s1] s2]|] eqn:B; [|discriminate]. cbn [bind]. intro H. injection H as <-.
  destruct (broadcast_ext _ _ _ _ _ _ B) as (n & -> & -> & F1 & F2 & _).
  assert (L : List.length (combine (ext n x) (ext n y)) = n) by (rewrite combine_length, !ext_len; lia).
  rewrite L, map_fst_combine, map_snd_combine by now rewrite !ext_len. auto.
Qed.
Definition e1 (e : fl * fl * fl) : fl := fst (fst e).
Definition e3 (e : fl * fl * fl) : fl := snd e.
Lemma broadcast3_ext x y z l : broadcast3 x y z = Ok l ->
  map e1 l = ext (List.length l) x /\ map e3 l = ext (List.length l) z /\
  fits (List.length l) x /\ fits (List.length l) y /\ fits (List.length l) z.
Proof.
  unfold broadcast3. destruct (broadcast x y) as [[[[a b] s1] s2]|] eqn:B1; [|discriminate]. cbn [bind].
  destruct (broadcast a z) as [[[[a2 c] s3] s4]|] eqn:B2; [|discriminate]. cbn [bind].
  destruct (broadcast b c) as [[[[b3 c3] s5] s6]|] eqn:B3; [|discriminate]. cbn [bind]. intro H. injection H as <-.
  destruct (broadcast_ext _ _ _ _ _ _ B1) as (n1 & -> & -> & F1 & F2 & N1).
  destruct (broadcast_ext _ _ _ _ _ _ B2) as (n2 & -> & -> & F3 & F4 & N2).
  destruct (broadcast_ext _ _ _ _ _ _ B3) as (n3 & -> & -> & F5 & F6 & N3).
  unfold fits in F3, F5, F6. rewrite ?ext_len in F3, F5, F6, N2, N3.
  rewrite (ext_len n2 z) in N3. assert (n3 = n2) by lia. subst n3.
  assert (N12 : n1 = n2 \/ n1 = 1%nat) by lia.
  rewrite (ext_fits n1 x n2 F1 N12), (ext_fits n1 y n2 F2 N12).
  replace (ext n2 (ext n2 z)) with (ext n2 z) by (symmetry; apply ext_fits; auto).
  assert (L1 : List.length (combine (ext n2 x) (ext n2 y)) = n2) by (rewrite combine_length, !ext_len; lia).
  assert (L : List.length (combine (combine (ext n2 x) (ext n2 y)) (ext n2 z)) = n2) by (rewrite combine_length, L1, ext_len; lia).
  rewrite L. unfold e1, e3. rewrite <- (map_map fst fst).
  rewrite map_fst_combine, map_fst_combine, map_snd_combine by now rewrite ?L1, ?ext_len.
  split; [reflexivity|]. split; [reflexivity|]. unfold fits in *. split; [|split]; lia.
Qed.

(* ---- lengths ---- *)
Lemma traverse_len {A B} (f : A -> res B) l bs : traverse f l = Ok bs -> List.length bs = List.length l.
Proof.
  revert bs. induction l as [|a l IH]; cbn [traverse]; intros bs H; [injection H as <-; reflexivity|].
  destruct (f a); [|discriminate]. cbn [bind] in H. destruct (traverse f l) as [bs'|]; [|discriminate]. cbn [bind] in H.
  injection H as <-. cbn. f_equal. now apply IH.
Qed.
Lemma hybrid_len p ep n oob es r : hybrid1 p ep n oob es = Ok r -> List.length (fst r) = List.length es.
Proof. unfold hybrid1. destruct (existsb e_sel es && _)%bool; [discriminate|]. intro H. injection H as <-. cbn [fst]. apply map_length. Qed.
Lemma m2_len {A B C} (f : A -> B -> C) l m : List.length l = List.length m -> List.length (map2 f l m) = List.length l.
Proof. intro H. unfold map2. rewrite map_length, combine_length. lia. Qed.
Lemma mp_Ts_len D ps Ts : mp_Ts D ps = Ok Ts -> List.length Ts = List.length ps.
Proof.
  unfold mp_Ts. destruct (iter_loop _ _ _ _ _ _) as [[cs w]|] eqn:I; [|discriminate]. cbn [bind fst]. intro H. injection H as <-.
  apply iter_length in I. rewrite map_length, I, map_length. reflexivity.
Qed.
Lemma mp_T_len D oob l r : mp_T D oob l = Ok r -> List.length r = List.length l.
Proof.
  unfold mp_T. destruct (mp_Ts D _) as [Ts|] eqn:I; [|discriminate]. cbn [bind]. apply mp_Ts_len in I. rewrite map_length in I.
  destruct (hybrid1 _ _ _ _ _) as [s|] eqn:Hy; [|discriminate]. cbn [bind]. intro H. injection H as <-. apply hybrid_len in Hy.
  assert (L1 : List.length (map2 (fun e t => plan_T D (fst e) (snd e) t) l Ts) = List.length l) by (apply m2_len; lia).
  rewrite (m2_len _ l _ (eq_sym L1)) in Hy. rewrite m2_len; [exact Hy|]. rewrite L1. exact Hy.
Qed.
Lemma mp_d_len D oob fuel l ds : mp_d D oob fuel l = Ok ds -> List.length ds = List.length l.
Proof.
  unfold mp_d. destruct (traverse (d_elem D fuel) l) as [es|] eqn:TR; [|discriminate]. cbn [bind].
  destruct (hybrid1 _ _ _ _ _) as [s|] eqn:Hy; [|discriminate]. cbn [bind]. intro H. injection H as <-. apply hybrid_len in Hy.
  rewrite map_length, Hy. exact (traverse_len _ _ _ TR).
Qed.

(* ---- map over map2 ---- *)
Lemma map_m2_l {A B C R} (f : A -> B -> C) (g : C -> R) (k : A -> R) l m : List.length l = List.length m ->
  (forall a b, In (a, b) (combine l m) -> g (f a b) = k a) -> map g (map2 f l m) = map k l.
Proof.
  revert m. induction l as [|a l IH]; intros [|b m] L H; cbn in *; try discriminate; [reflexivity|].
  f_equal; [apply H; now left|]. apply (IH m); [lia|]. intros a' b' I. apply H. now right.
Qed.
Lemma existsb_m2 {A B C} (f : A -> B -> C) (g : C -> bool) l m : existsb g (map2 f l m) = false ->
  forall a b, In (a, b) (combine l m) -> g (f a b) = false.
Proof.
  unfold map2. intros H a b I. destruct (g (f a b)) eqn:Q; [|reflexivity]. exfalso.
  assert (existsb g (map (fun p => f (fst p) (snd p)) (combine l m)) = true); [|congruence].
  apply existsb_exists. exists (f a b). split; [|exact Q]. apply in_map_iff. exists (a, b). auto.
Qed.

Section Vals.
Variables (D : mpdata) (E : env) (fuel : nat).
Lemma hd_d1 fn l pts : from_hd D E fn l = Ok pts -> some_sat pts = false -> map s_d1 pts = map snd l.
Proof.
  unfold from_hd. destruct (hybrid1 _ _ _ _ _) as [r|] eqn:Hy; [|discriminate]. cbn [bind]. intro H. injection H as <-.
  apply hybrid_len in Hy. rewrite map_length in Hy. unfold some_sat. intro S. apply map_m2_l; [lia|].
  intros (h, d) T' I. specialize (existsb_m2 _ _ _ _ S _ _ I). cbv zeta beta iota.
  destruct (flt (fl_of T') (num (mp_Tc D)) && _)%bool; cbn [s_sat s_d1 single]; [discriminate | reflexivity].
Qed.
Lemma sT_T fn l pts : from_sT D E fn l = Ok pts -> map s_T pts = map snd l.
Proof.
  unfold from_sT. cbv zeta. destruct (traverse _ _) as [es|] eqn:TR; [|discriminate]. cbn [bind].
  destruct (hybrid1 _ _ _ _ _) as [r|] eqn:Hy; [|discriminate]. cbn [bind]. intro H. injection H as <-.
  apply hybrid_len in Hy. apply traverse_len in TR. rewrite map_length in TR.
  rewrite (map_m2_l _ s_T (fun e => snd (fst e))); [rewrite map_map; reflexivity | rewrite map_length; lia|].
  intros ((s, T), pl) d' _. destruct (st_sat pl); reflexivity.
Qed.
Lemma Td_T l : map s_T (map (from_Td D) l) = map fst l.
Proof. rewrite map_map. apply map_ext. intros (T, d). unfold from_Td. destruct (flt _ _ && _)%bool; reflexivity. Qed.
Lemma Td_d1 l : some_sat (map (from_Td D) l) = false -> map s_d1 (map (from_Td D) l) = map snd l.
Proof.
  unfold some_sat. induction l as [|(T, d) l IH]; cbn [map existsb]; [reflexivity|]. intro H. apply orb_false_iff in H. destruct H as (H1 & H2).
  f_equal; [|exact (IH H2)]. unfold from_Td in *. destruct (flt _ _ && _)%bool; cbn in *; [discriminate | reflexivity].
Qed.
Lemma Tx_vals l pts : from_Tx D l = Ok pts -> map s_T pts = map fst l /\ map s_x pts = map snd l.
Proof.
  unfold from_Tx. destruct (existsb _ l); [discriminate|]. destruct (existsb _ l); [discriminate|]. intro H. injection H as <-.
  rewrite !map_map. split; reflexivity.
Qed.
Lemma pd_d1 l pts : from_pd D E l = Ok pts -> some_sat pts = false -> map s_d1 pts = map fst l.
Proof.
  unfold from_pd. destruct (mp_T D _ l) as [r|] eqn:HT; [|discriminate]. cbn [bind]. intro H. injection H as <-.
  apply mp_T_len in HT. unfold some_sat. intro S. apply map_m2_l; [lia|].
  intros (d, p) (T, pl) I. specialize (existsb_m2 _ _ _ _ S _ _ I). cbn. destruct (tp_sat pl); cbn; [discriminate | reflexivity].
Qed.
Lemma px_x p x pts : from_px D p x = Ok pts -> map s_x pts = ext (List.length pts) x /\ fits (List.length pts) x.
Proof.
  unfold from_px. destruct (existsb _ p); [discriminate|]. destruct (existsb _ x); [discriminate|].
  destruct (broadcast2 p x) as [l|] eqn:B; [|discriminate]. cbn [bind]. destruct (mp_Ts D _) as [Ts|] eqn:HT; [|discriminate]. cbn [bind].
  intro H. injection H as <-. apply mp_Ts_len in HT. rewrite map_length in HT. destruct (broadcast2_ext _ _ _ B) as (_ & B2 & _ & B4).
  rewrite m2_len by lia. split; [|exact B4]. rewrite <- B2. apply map_m2_l; [lia|]. reflexivity.
Qed.
Lemma Tpx_vals l pts : from_Tpx D E fuel l = Ok pts ->
  List.length pts = List.length l /\ (too_hot D l = false -> map s_T pts = map e1 l /\ map s_x pts = map e3 l).
Proof.
  unfold from_Tpx. destruct (mp_d D _ fuel _) as [ds|] eqn:Hd; [|discriminate]. cbn [bind]. intro H. injection H as <-.
  apply mp_d_len in Hd. rewrite map_length in Hd. split; [rewrite m2_len; lia|]. intro NH.
  assert (K : forall e d, In (e, d) (combine l ds) -> let '(T, _, x) := e in (negb (flt x (num 0)) && flt (num (mp_Tc D)) T)%bool = false).
  { intros ((T, p), x) d I. apply in_combine_l in I. destruct (negb _ && _)%bool eqn:Q; [|reflexivity]. exfalso.
    assert (too_hot D l = true); [|congruence]. apply existsb_exists. exists (T, p, x). auto. }
  split; apply map_m2_l; try lia; intros ((T, p), x) d I; specialize (K _ _ I); cbn in K; unfold e1, e3; cbn [fst snd];
    destruct (flt x (num 0)); try reflexivity; cbn in K; rewrite K; reflexivity.
Qed.
End Vals.

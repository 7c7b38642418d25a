(* Shapes and broadcasting (igtools.py 563-611) against numpy's rule. *)
From Coq Require Import Reals List String Bool Lia Arith.
From Verif Require Import Base Model_Num Model_Igtools Spec_Igtools.
Import ListNotations.
Local Open Scope list_scope.
Local Open Scope nat_scope.

Definition dim_rule (a b c : nat) : Prop :=
  (a = b \/ a = 1 \/ b = 1) /\ c = (if Nat.eqb a 1 then b else a).

Lemma np_rev_spec s : forall t u,
  np_rev s t = Some u <->
  (List.length u = Nat.max (List.length s) (List.length t) /\
   forall j, j < List.length u -> dim_rule (nth j s 1) (nth j t 1) (nth j u 1)).
Proof.
  induction s as [|a s IH]; intros t u.
  - cbn [np_rev]. split.
    + intro H; injection H as ->. split; [cbn; lia|]. intros j _. unfold dim_rule.
      destruct j; cbn; auto.
    + intros [Hl Hd]. f_equal. cbn in Hl. apply nth_ext with (d := 1) (d' := 1); [lia|].
      intros j Hj. destruct (Hd j ltac:(lia)) as [_ E]. rewrite E. destruct j; reflexivity.
  - destruct t as [|b t]; cbn [np_rev].
    + split.
      * intro H; injection H as <-. split; [cbn; lia|]. intros j _. unfold dim_rule.
        assert (nth j (@nil nat) 1 = 1) by (destruct j; reflexivity). rewrite H. split; [auto|].
        destruct (Nat.eqb_spec (nth j (a :: s) 1) 1); lia.
      * intros [Hl Hd]. f_equal. apply nth_ext with (d := 1) (d' := 1); [cbn in *; lia|].
        intros j Hj. destruct (Hd j ltac:(cbn in *; lia)) as [_ E]. rewrite E.
        assert (nth j (@nil nat) 1 = 1) by (destruct j; reflexivity). rewrite H.
        destruct (Nat.eqb_spec (nth j (a :: s) 1) 1); lia.
    + split.
      * intro H. destruct (np_rev s t) as [r|] eqn:Er; [|discriminate].
        destruct (proj1 (IH t r) Er) as [Hl Hd].
        assert (K : forall c, dim_rule a b c -> u = c :: r -> List.length u = Nat.max (List.length (a :: s)) (List.length (b :: t)) /\
           forall j, j < List.length u -> dim_rule (nth j (a :: s) 1) (nth j (b :: t) 1) (nth j u 1)).
        { intros c Hc ->. split; [cbn [List.length]; lia|]. intros [|j] Hj; cbn [nth]; [exact Hc|].
          apply Hd. cbn in Hj; lia. }
        destruct (Nat.eqb_spec a b) as [->|Hab].
        -- cbn [orb] in H. injection H as <-. apply (K b); [|reflexivity].
           split; [auto|]. destruct (Nat.eqb_spec b 1); lia.
        -- destruct (Nat.eqb_spec a 1) as [->|Ha1]; cbn [orb] in H.
           ++ injection H as <-. apply (K b); [|reflexivity]. split; [auto|reflexivity].
           ++ destruct (Nat.eqb_spec b 1) as [->|]; [|discriminate]. injection H as <-.
              apply (K a); [|reflexivity]. split; [auto|]. destruct (Nat.eqb_spec a 1); lia.
      * intros [Hl Hd]. destruct u as [|c u]; [cbn in Hl; lia|].
        assert (Er : np_rev s t = Some u).
        { apply IH. split; [cbn in Hl; lia|]. intros j Hj. apply (Hd (S j)). cbn; lia. }
        rewrite Er. destruct (Hd 0 ltac:(cbn; lia)) as [Hc Ec]. cbn in Hc, Ec.
        destruct (Nat.eqb_spec a b) as [->|Hab].
        -- cbn [orb]. rewrite Ec. destruct (Nat.eqb_spec b 1); subst; auto.
        -- destruct (Nat.eqb_spec a 1) as [->|Ha1]; cbn [orb].
           ++ rewrite Ec. reflexivity.
           ++ destruct (Nat.eqb_spec b 1) as [->|]; [|lia]. rewrite Ec. reflexivity.
Qed.

Lemma np_shape_spec s t u : np_shape s t = Some u <-> numpy_broadcast s t u.
Proof.
  unfold np_shape, numpy_broadcast, from_end.
  destruct (np_rev (rev s) (rev t)) as [r|] eqn:E.
  - destruct (proj1 (np_rev_spec _ _ _) E) as [Hl Hd]. rewrite !rev_length in Hl. split.
    + intro H; injection H as <-. rewrite rev_length, rev_involutive. split; [exact Hl|].
      intros j Hj. cbv zeta. exact (Hd j Hj).
    + intros [Hl2 Hd2]. f_equal. rewrite <- (rev_involutive u). f_equal.
      apply nth_ext with (d := 1) (d' := 1); rewrite ?rev_length; [lia|].
      intros j Hj. destruct (Hd j Hj) as [_ E1]. destruct (Hd2 j ltac:(lia)) as [_ E2].
      rewrite E1, E2. reflexivity.
  - split; [discriminate|]. intros [Hl2 Hd2].
    assert (np_rev (rev s) (rev t) = Some (rev u)); [|congruence].
    apply np_rev_spec. rewrite !rev_length. split; [exact Hl2|]. intros j Hj. exact (Hd2 j Hj).
Qed.

Lemma dims_loop_spec s : forall q u, List.length s = List.length q ->
  (dims_loop s q = Ok u <->
   (List.length u = List.length s /\ forall j, j < List.length u -> dim_rule (nth j q 1) (nth j s 1) (nth j u 1))).
Proof.
  induction s as [|a s IH]; intros [|b q] u Hlen; try discriminate; cbn [dims_loop].
  - split.
    + intro H; injection H as <-. split; [reflexivity|]. cbn; lia.
    + intros [Hl _]. destruct u; [reflexivity|discriminate].
  - injection Hlen as Hlen. specialize (IH q).
    assert (Kf : forall c, dim_rule b a c -> forall r, dims_loop s q = Ok r -> u = c :: r ->
       List.length u = List.length (a :: s) /\ forall j, j < List.length u -> dim_rule (nth j (b :: q) 1) (nth j (a :: s) 1) (nth j u 1)).
    { intros c Hc r Hr ->. destruct (proj1 (IH r Hlen) Hr) as [Hl Hd]. split; [cbn; lia|].
      intros [|j] Hj; [exact Hc|]. apply Hd. cbn in Hj; lia. }
    split.
    + destruct (Nat.eqb_spec a b) as [->|Hab]; cbn [orb].
      * destruct (dims_loop s q) as [r|e] eqn:Er; cbn [bind]; [|discriminate].
        intro H; injection H as <-. apply (Kf b) with (r := r); auto.
        split; [auto|]. destruct (Nat.eqb_spec b 1); lia.
      * destruct (Nat.eqb_spec a 1) as [->|Ha].
        -- destruct (dims_loop s q) as [r|e] eqn:Er; cbn [bind]; [|discriminate].
           intro H; injection H as <-. apply (Kf b) with (r := r); auto.
           split; [auto|]. destruct (Nat.eqb_spec b 1); lia.
        -- destruct (Nat.eqb_spec b 1) as [->|Hb]; [|discriminate].
           destruct (dims_loop s q) as [r|e] eqn:Er; cbn [bind]; [|discriminate].
           intro H; injection H as <-. apply (Kf a) with (r := r); auto. split; auto.
    + intros [Hl Hd]. destruct u as [|c u]; [discriminate|].
      assert (Er : dims_loop s q = Ok u).
      { apply IH; [exact Hlen|]. split; [cbn in Hl; lia|]. intros j Hj. apply (Hd (S j)). cbn; lia. }
      rewrite Er. cbn [bind]. destruct (Hd 0 ltac:(cbn; lia)) as [Hc Ec]. cbn in Hc, Ec.
      destruct (Nat.eqb_spec a b) as [->|Hab]; cbn [orb].
      * rewrite Ec. destruct (Nat.eqb_spec b 1); subst; reflexivity.
      * destruct (Nat.eqb_spec a 1) as [->|Ha].
        -- rewrite Ec. destruct (Nat.eqb_spec b 1); [lia|reflexivity].
        -- destruct (Nat.eqb_spec b 1) as [->|Hb]; [|lia]. rewrite Ec. reflexivity.
Qed.

Lemma dims_loop_err s : forall q e, dims_loop s q = Err e -> e = PMParamError.
Proof.
  induction s as [|a s IH]; intros [|b q] e; cbn; try discriminate.
  specialize (IH q).
  destruct (Nat.eqb a b || Nat.eqb a 1).
  - destruct (dims_loop s q); cbn; [discriminate|]. intro H; injection H as <-. auto.
  - destruct (Nat.eqb b 1).
    + destruct (dims_loop s q); cbn; [discriminate|]. intro H; injection H as <-. auto.
    + congruence.
Qed.

Lemma pad_right_same s n : n <= List.length s -> pad_right s n = s.
Proof. intro H. unfold pad_right. replace (n - List.length s) with 0 by lia. apply app_nil_r. Qed.
Lemma pad_right_len s n : List.length (pad_right s n) = Nat.max (List.length s) n.
Proof. unfold pad_right. rewrite app_length, repeat_length. lia. Qed.

Lemma from_end_nth s j : from_end s j = (if Nat.ltb j (List.length s) then nth (List.length s - 1 - j) s 1 else 1).
Proof.
  unfold from_end. destruct (Nat.ltb_spec j (List.length s)) as [H|H].
  - rewrite rev_nth by exact H. f_equal. lia.
  - apply nth_overflow. rewrite rev_length. exact H.
Qed.

Lemma dim_rule_symm a b c : dim_rule a b c <-> dim_rule b a c.
Proof.
  unfold dim_rule. destruct (Nat.eqb_spec a 1), (Nat.eqb_spec b 1); lia.
Qed.

(* same List.length *)
Lemma dims_numpy s q u : List.length s = List.length q ->
  (dims_loop s q = Ok u <-> numpy_broadcast q s u).
Proof.
  intro Hlen. rewrite dims_loop_spec by exact Hlen. unfold numpy_broadcast.
  rewrite Hlen, Nat.max_id.
  split; intros [Hl Hd]; (split; [exact Hl|]); intros j Hj.
  - cbv zeta. rewrite !from_end_nth, Hl, Hlen. destruct (Nat.ltb_spec j (List.length q)); [|lia].
    specialize (Hd (List.length q - 1 - j) ltac:(lia)). exact Hd.
  - specialize (Hd (List.length q - 1 - j) ltac:(lia)). cbv zeta in Hd.
    rewrite !from_end_nth, Hl, Hlen in Hd. destruct (Nat.ltb_spec (List.length q - 1 - j) (List.length q)); [|lia].
    replace (List.length q - 1 - (List.length q - 1 - j)) with j in Hd by lia. exact Hd.
Qed.

(* "all ones" shapes *)
Definition ones (s : list nat) : Prop := forall d, In d s -> d = 1.
Lemma ones_nth s j : ones s -> nth j s 1 = 1.
Proof.
  intro H. destruct (Nat.ltb_spec j (List.length s)).
  - apply H. apply nth_In; assumption.
  - apply nth_overflow; lia.
Qed.
Lemma ones_from_end s j : ones s -> from_end s j = 1.
Proof.
  intro H. unfold from_end. apply ones_nth. intros d Hd. apply H. apply in_rev. exact Hd.
Qed.
Lemma ones_pad s n : ones s -> ones (pad_right s n).
Proof.
  intros H d Hd. unfold pad_right in Hd. apply in_app_or in Hd. destruct Hd as [Hd|Hd]; [auto|].
  now apply repeat_spec in Hd.
Qed.
Lemma numpy_ones s q u : ones s -> List.length s <= List.length q -> (numpy_broadcast q s u <-> u = q).
Proof.
  intros H Hl. rewrite <- np_shape_spec.
  assert (N : np_shape q s = Some q).
  { apply np_shape_spec. split; [lia|]. intros j Hj. cbv zeta. rewrite (ones_from_end s) by exact H.
    split; [auto|]. destruct (Nat.eqb_spec (from_end q j) 1); lia. }
  rewrite N. split; congruence.
Qed.
Lemma numpy_sym s q u : numpy_broadcast s q u <-> numpy_broadcast q s u.
Proof.
  unfold numpy_broadcast. rewrite (Nat.max_comm (List.length s)).
  split; intros [Hl Hd]; (split; [exact Hl|]); intros j Hj; cbv zeta;
    apply dim_rule_symm; exact (Hd j Hj).
Qed.

(* the agreement: same number of dimensions, or the shorter shape consists of ones *)
Definition agreeable (q s : list nat) : Prop :=
  List.length q = List.length s \/ (List.length s < List.length q /\ ones s) \/ (List.length q < List.length s /\ ones q).

Lemma broadcast_agrees q s u : (q <> [] \/ s <> []) -> agreeable q s ->
  (broadcast_shape q s = Ok u <-> numpy_broadcast q s u).
Proof.
  intros Hne Hag.
  assert (B : broadcast_shape q s = dims_loop (pad_right s (List.length q)) (pad_right q (List.length s))).
  { unfold broadcast_shape. destruct q, s; try reflexivity. destruct Hne; congruence. }
  rewrite B. destruct Hag as [Hl|[[Hl Ho]|[Hl Ho]]].
  - rewrite !pad_right_same by lia. apply dims_numpy. lia.
  - rewrite (pad_right_same q) by lia. rewrite dims_numpy by (rewrite pad_right_len; lia).
    rewrite !numpy_ones; try (rewrite ?pad_right_len; lia); try exact Ho;
      try (apply ones_pad; exact Ho). reflexivity.
  - rewrite (pad_right_same s) by lia. rewrite dims_numpy by (rewrite pad_right_len; lia).
    rewrite (numpy_sym (pad_right _ _)), (numpy_sym q).
    rewrite !numpy_ones; try (rewrite ?pad_right_len; lia); try exact Ho;
      try (apply ones_pad; exact Ho). reflexivity.
Qed.

Lemma broadcast_err q s e : broadcast_shape q s = Err e -> e = PMParamError.
Proof. unfold broadcast_shape. destruct q, s; try discriminate; apply dims_loop_err. Qed.

Lemma broadcast_rejects q s : (q <> [] \/ s <> []) -> agreeable q s ->
  (broadcast_shape q s = Err PMParamError <-> ~ exists u, numpy_broadcast q s u).
Proof.
  intros Hne Hag. destruct (broadcast_shape q s) as [u|e] eqn:E.
  - split; [discriminate|]. intro H. exfalso. apply H. exists u. now apply broadcast_agrees.
  - rewrite (broadcast_err _ _ _ E). split; [|reflexivity]. intros _ [u Hu].
    apply (broadcast_agrees q s u Hne Hag) in Hu. congruence.
Qed.

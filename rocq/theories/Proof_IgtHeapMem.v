(* Proofs about arrays in memory (C93). *)
From Coq Require Import Reals ZArith List String Bool Lia Lra.
From Verif Require Import Base Model_Num Model_Units Model_Igas Model_Igtools Model_Igtprop Model_Igtmix Model_Igtview Model_IgtHeap
  Spec_Units Spec_Igtools Spec_Igtprop Spec_Igtmix Spec_Igtview Spec_IgtHeap
  Proof_Units Proof_Igtshape Proof_Igtools Proof_Igtmix Proof_Igtview.
Import ListNotations.
Local Open Scope R_scope.
Local Open Scope string_scope.
Local Open Scope list_scope.

Lemma set_nth_length {A} (x : A) : forall i l, List.length (set_nth i x l) = List.length l.
Proof. induction i as [|i IH]; destruct l; cbn; auto. Qed.
Lemma set_nth_same {A} (x : A) d : forall i l, (i < List.length l)%nat -> nth i (set_nth i x l) d = x.
Proof. induction i as [|i IH]; destruct l; cbn; intro H; try lia; auto. apply IH. lia. Qed.
Lemma set_nth_other {A} (x : A) d : forall i j l, i <> j -> nth j (set_nth i x l) d = nth j l d.
Proof. induction i as [|i IH]; destruct l, j; cbn; intro H; try congruence; auto. Qed.
Lemma set_nth_error_same {A} (x : A) : forall i l, (i < List.length l)%nat -> nth_error (set_nth i x l) i = Some x.
Proof. induction i as [|i IH]; destruct l; cbn; intro H; try lia; auto. apply IH. lia. Qed.
Lemma set_nth_error_other {A} (x : A) : forall i j l, i <> j -> nth_error (set_nth i x l) j = nth_error l j.
Proof. induction i as [|i IH]; destruct l, j; cbn; intro H; try congruence; auto. Qed.
Lemma map_set_nth {A B} (f : A -> B) x : forall i l, map f (set_nth i x l) = set_nth i (f x) (map f l).
Proof. induction i as [|i IH]; destruct l; cbn; congruence. Qed.
Lemma set_nth_self {A} (x : A) : forall i l, nth_error l i = Some x -> set_nth i x l = l.
Proof. induction i as [|i IH]; destruct l; cbn; intro H; try congruence. f_equal. auto. Qed.

Lemma count_idx s : List.length (all_idx s) = count s.
Proof. apply idx_length. Qed.
Lemma rank_lt s i : index_in s i -> (rank s i < count s)%nat.
Proof. apply rank_bound. Qed.

(* ---- tables ---- *)
Lemma look_list s l i : List.length l = count s -> index_in s i -> nel (of_list s l) i = nth (rank s i) l None.
Proof.
  intros Hl Hi. cbn [of_list nel]. destruct (rank_idx s i Hi) as [H1 H2]. rewrite count_idx in H2.
  apply (look_nth _ (idx_nodup s) _ (rank s i)); [exact H1|]. apply nth_error_nth'. lia.
Qed.
Lemma to_list_of_list s l : List.length l = count s -> to_list (of_list s l) = l.
Proof.
  intro Hl. unfold to_list. cbn [of_list nsh]. apply nth_ext with (d := None) (d' := None).
  - now rewrite map_length, count_idx.
  - rewrite map_length. intros r Hr.
    destruct (rank_onto s r) as (i & Hi & <-); [rewrite <- (count_idx s : _ = size s); exact Hr|].
    destruct (rank_idx s i Hi) as [H1 _].
    rewrite (nth_indep _ None (nel (of_list s l) [])) by (now rewrite map_length). rewrite map_nth.
    rewrite (nth_error_nth _ _ _ H1). now apply look_list.
Qed.
Lemma to_list_length a : List.length (to_list a) = count (nsh a).
Proof. unfold to_list. now rewrite map_length, count_idx. Qed.
Lemma to_list_ext a b : nsh a = nsh b -> (forall i, index_in (nsh a) i -> nel a i = nel b i) -> to_list a = to_list b.
Proof. intros Hs H. unfold to_list. rewrite <- Hs. apply map_ext_in. intros i Hi. apply H. now apply idx_index. Qed.
Lemma table_ext a b : nsh a = nsh b -> (forall i, index_in (nsh a) i -> nel a i = nel b i) -> table a = table b.
Proof. intros Hs H. unfold table. now rewrite (to_list_ext a b Hs H), Hs. Qed.
Lemma table_el a i : index_in (nsh a) i -> nel (table a) i = nel a i.
Proof.
  intro H. unfold table. rewrite look_list by (auto; apply to_list_length). unfold to_list.
  destruct (rank_idx _ i H) as [H1 H2].
  rewrite (nth_indep _ None (nel a [])) by (rewrite map_length; exact H2). rewrite map_nth. f_equal. now apply nth_error_nth.
Qed.
Lemma table_table a : table (table a) = table a.
Proof. apply table_ext; [reflexivity|]. intros i Hi. now apply table_el. Qed.

(* ---- reading ---- *)
Definition bounded (m : memory) (a : harr) : Prop :=
  (h_buf a < List.length m)%nat /\ (h_off a + count (h_sh a) <= List.length (nth (h_buf a) m []))%nat.

Lemma block_length m a : bounded m a -> List.length (block m a) = count (h_sh a).
Proof. intros [_ H]. unfold block. rewrite firstn_length, skipn_length. lia. Qed.
Lemma nth_firstn {A} (d : A) : forall n l i, (i < n)%nat -> nth i (firstn n l) d = nth i l d.
Proof. induction n; destruct l, i; cbn; intros; try lia; auto. apply IHn. lia. Qed.
Lemma nth_skipn {A} (d : A) : forall n l i, nth i (skipn n l) d = nth (n + i) l d.
Proof. induction n; destruct l; cbn; intros; auto. now destruct i. Qed.
Lemma read_el m a i : bounded m a -> index_in (h_sh a) i ->
  nel (read m a) i = nth (h_off a + rank (h_sh a) i) (nth (h_buf a) m []) None.
Proof.
  intros B Hi. unfold read. rewrite look_list by (auto; now apply block_length). unfold block.
  rewrite nth_firstn by (now apply rank_lt). now rewrite nth_skipn.
Qed.
Lemma read_is_table m a : bounded m a -> table (read m a) = read m a.
Proof. intro B. unfold table. cbn [read of_list nsh]. unfold read. now rewrite to_list_of_list by (now apply block_length). Qed.
Lemma read_table m a v : bounded m a -> nsh v = h_sh a -> (forall i, index_in (h_sh a) i -> nel (read m a) i = nel v i) ->
  read m a = table v.
Proof. intros B Hs H. rewrite <- (read_is_table m a B). apply table_ext; [now symmetry|exact H]. Qed.
Lemma read_same m m' a : nth (h_buf a) m [] = nth (h_buf a) m' [] -> read m a = read m' a.
Proof. intro H. unfold read, block. now rewrite H. Qed.

Lemma row_bounded m a k n s : h_sh a = n :: s -> (k < n)%nat -> bounded m a -> bounded m (hrow a k).
Proof.
  intros Hs Hk [B1 B2]. unfold bounded, hrow. cbn [h_buf h_off h_sh]. rewrite Hs in *. cbn [tl]. change (count (n :: s)) with (n * count s)%nat in B2.
  split; [exact B1|]. assert (S k * count s <= n * count s)%nat by (apply Nat.mul_le_mono_r; lia). cbn [Nat.mul] in *. lia.
Qed.
Lemma rows_bounded m a i c n s : h_sh a = n :: s -> (i + c <= n)%nat -> bounded m a -> bounded m (hrows a i c).
Proof.
  intros Hs Hk [B1 B2]. unfold bounded, hrows. cbn [h_buf h_off h_sh]. rewrite Hs in *. cbn [tl]. change (count (n :: s)) with (n * count s)%nat in B2.
  change (count (c :: s)) with (c * count s)%nat.
  split; [exact B1|]. assert (Q : ((i + c) * count s <= n * count s)%nat) by (apply Nat.mul_le_mono_r; lia). rewrite Nat.mul_add_distr_r in Q. lia.
Qed.
Lemma row_el m a k n s i : h_sh a = n :: s -> (k < n)%nat -> bounded m a -> index_in s i ->
  nel (read m (hrow a k)) i = nel (read m a) (k :: i).
Proof.
  intros Hs Hk B Hi. rewrite !read_el; auto.
  - cbn [hrow h_off h_sh h_buf]. rewrite Hs. cbn [tl rank]. unfold count. f_equal. lia.
  - rewrite Hs. now constructor.
  - now apply (row_bounded _ _ _ n s).
  - cbn. now rewrite Hs.
Qed.
Lemma rows_el m a j c n s k i : h_sh a = n :: s -> (j + c <= n)%nat -> bounded m a -> (k < c)%nat -> index_in s i ->
  nel (read m (hrows a j c)) (k :: i) = nel (read m a) ((j + k)%nat :: i).
Proof.
  intros Hs Hk B Hc Hi. rewrite !read_el; auto.
  - cbn [hrows h_off h_sh h_buf]. rewrite Hs. cbn [tl rank]. unfold count. f_equal. lia.
  - rewrite Hs. constructor; [lia|assumption].
  - now apply (rows_bounded _ _ _ _ n s).
  - cbn. rewrite Hs. cbn. now constructor.
Qed.

(* ---- allocation ---- *)
Lemma alloc_old m v b : (b < List.length m)%nat -> nth b (fst (alloc m v)) [] = nth b m [].
Proof. intro H. cbn. now rewrite app_nth1. Qed.
Lemma alloc_bounded m v : bounded (fst (alloc m v)) (snd (alloc m v)).
Proof.
  unfold bounded. cbn [alloc fst snd h_buf h_off h_sh]. rewrite app_length, app_nth2, Nat.sub_diag by lia. cbn [nth List.length]. rewrite to_list_length. lia.
Qed.
Lemma alloc_read m v : read (fst (alloc m v)) (snd (alloc m v)) = table v.
Proof.
  unfold read, block, table. cbn [alloc fst snd h_buf h_off h_sh skipn]. rewrite app_nth2, Nat.sub_diag by lia. cbn [nth]. f_equal.
  apply firstn_all2. rewrite to_list_length. lia.
Qed.

(* ---- writing ---- *)
Section Write.
  Context (m : memory) (a : harr) (v : nd) (B : bounded m a).
  Let old := nth (h_buf a) m [].
  Let new := firstn (h_off a) old ++ map (nel v) (all_idx (h_sh a)) ++ skipn (h_off a + count (h_sh a)) old.
  Lemma write_buf : nth (h_buf a) (write m a v) [] = new.
  Proof. unfold write. destruct B as [B1 _]. now rewrite set_nth_same. Qed.
  Lemma write_new_length : List.length new = List.length old.
  Proof.
    destruct B as [_ B2]. fold old in B2. unfold new. rewrite !app_length, firstn_length, map_length, skipn_length, count_idx. lia.
  Qed.
  Lemma write_length : List.length (write m a v) = List.length m.
  Proof. apply set_nth_length. Qed.
  Lemma write_buf_length b : List.length (nth b (write m a v) []) = List.length (nth b m []).
  Proof.
    destruct (Nat.eq_dec b (h_buf a)) as [->|N]; [rewrite write_buf; apply write_new_length|].
    unfold write. now rewrite set_nth_other by congruence.
  Qed.
  Lemma write_other b : b <> h_buf a -> nth b (write m a v) [] = nth b m [].
  Proof. intro N. unfold write. now rewrite set_nth_other by congruence. Qed.
  Lemma write_in i : index_in (h_sh a) i -> nth (h_off a + rank (h_sh a) i) (nth (h_buf a) (write m a v) []) None = nel v i.
  Proof.
    intro Hi. rewrite write_buf. unfold new. destruct B as [_ B2]. fold old in B2.
    pose proof (rank_lt _ _ Hi) as L. destruct (rank_idx _ i Hi) as [H1 H2].
    rewrite app_nth2 by (rewrite firstn_length; lia). rewrite firstn_length, Nat.min_l by lia.
    replace (h_off a + rank (h_sh a) i - h_off a)%nat with (rank (h_sh a) i) by lia.
    rewrite app_nth1 by (rewrite map_length; exact H2).
    rewrite (nth_indep _ None (nel v [])) by (rewrite map_length; exact H2). rewrite map_nth. f_equal. now apply nth_error_nth.
  Qed.
  Lemma write_out p : (p < h_off a \/ h_off a + count (h_sh a) <= p)%nat ->
    nth p (nth (h_buf a) (write m a v) []) None = nth p old None.
  Proof.
    intro Hp. rewrite write_buf. unfold new. destruct B as [_ B2]. fold old in B2.
    destruct Hp as [Hp|Hp].
    - rewrite app_nth1 by (rewrite firstn_length; lia). apply nth_firstn. exact Hp.
    - rewrite app_nth2 by (rewrite firstn_length; lia). rewrite firstn_length, Nat.min_l by lia.
      rewrite app_nth2 by (rewrite map_length, count_idx; lia). rewrite map_length, count_idx, nth_skipn. f_equal. lia.
  Qed.
  Lemma write_bounded b : bounded m b -> bounded (write m a v) b.
  Proof. intros [B1 B2]. split; [now rewrite write_length|now rewrite write_buf_length]. Qed.
  Lemma write_read : nsh v = h_sh a -> read (write m a v) a = table v.
  Proof.
    intro Hs. apply read_table; [now apply write_bounded|exact Hs|]. intros i Hi.
    rewrite read_el by (auto; now apply write_bounded). now apply write_in.
  Qed.
End Write.

(* writing a row *)
Lemma write_row_el m q k n s v j i : h_sh q = n :: s -> (k < n)%nat -> bounded m q -> (j < n)%nat -> index_in s i ->
  nel (read (write m (hrow q k) v) q) (j :: i) = if Nat.eqb j k then nel v i else nel (read m q) (j :: i).
Proof.
  intros Hs Hk B Hj Hi. pose proof (row_bounded m q k n s Hs Hk B) as Br.
  assert (Ij : index_in (h_sh q) (j :: i)) by (rewrite Hs; now constructor).
  rewrite read_el by (auto; now apply write_bounded). pose proof (rank_lt _ _ Hi) as L.
  assert (Rk : rank (h_sh q) (j :: i) = (j * count s + rank s i)%nat) by (rewrite Hs; reflexivity). rewrite Rk.
  destruct (Nat.eqb_spec j k) as [->|N].
  - rewrite <- (write_in m (hrow q k) v Br i) by (cbn; now rewrite Hs). cbn [hrow h_off h_sh h_buf]. rewrite Hs. cbn [tl]. f_equal. lia.
  - rewrite read_el by auto. rewrite Rk. change (h_buf q) with (h_buf (hrow q k)) at 1. rewrite write_out; [reflexivity|exact Br|].
    cbn [hrow h_off h_sh]. rewrite Hs. cbn [tl]. destruct (Nat.lt_ge_cases j k) as [C|C]; [left; nia|right; nia].
Qed.

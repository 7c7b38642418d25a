(* Proofs about the operations on mixtures in memory (C93). *)
From Coq Require Import Reals ZArith List String Bool Lia Lra.
From Verif Require Import Base Model_Num Model_Units Model_Igas Model_Igtools Model_Igtprop Model_Igtmix Model_Igtview Model_IgtHeap
  Spec_Units Spec_Igtools Spec_Igtprop Spec_Igtmix Spec_Igtview Spec_IgtHeap
  Proof_Units Proof_Igtshape Proof_Igtools Proof_Igtmix Proof_Igtview Proof_IgtHeapMem.
Import ListNotations.
Local Open Scope R_scope.
Local Open Scope string_scope.
Local Open Scope list_scope.

(* ---- shapes ---- *)
Lemma dims_nonempty s : forall q u, s <> [] -> q <> [] -> dims_loop s q = Ok u -> u <> [].
Proof.
  intros q u Hs Hq H. destruct s as [|a s]; [congruence|]. destruct q as [|b q]; [congruence|]. cbn in H.
  destruct (Nat.eqb a b || Nat.eqb a 1); [|destruct (Nat.eqb b 1); [|discriminate]];
    destruct (dims_loop s q); try discriminate; apply ok_inj in H; subst; discriminate.
Qed.
Lemma bshape_nonempty q s u : s <> [] -> broadcast_shape q s = Ok u -> u <> [].
Proof.
  intros Hs H. unfold broadcast_shape in H.
  assert (H' : dims_loop (pad_right s (List.length q)) (pad_right q (List.length s)) = Ok u) by (destruct q, s; congruence).
  apply dims_nonempty in H'; [exact H'| |].
  - intro E. apply (f_equal (@List.length nat)) in E. rewrite pad_right_len in E. destruct s; [congruence|]. cbn [List.length] in E. lia.
  - intro E. apply (f_equal (@List.length nat)) in E. rewrite pad_right_len in E. destruct s; [congruence|]. cbn [List.length] in E. lia.
Qed.
Lemma dims_same s : dims_loop s s = Ok s.
Proof. induction s as [|a s IH]; [reflexivity|]. cbn. now rewrite Nat.eqb_refl, IH. Qed.
Lemma bshape_same s : s <> [] -> broadcast_shape s s = Ok s.
Proof. intro H. rewrite bshape_dims by auto. apply dims_same. Qed.

Lemma np_rev_last s : forall t n u, (List.length s <= List.length t)%nat -> np_rev s (t ++ [n]) = Some u ->
  exists u', u = u' ++ [n] /\ List.length u' = List.length t.
Proof.
  induction s as [|a s IH]; intros t n u L H; cbn in H.
  - injection H as <-. eauto.
  - destruct t as [|b t]; [cbn in L; lia|]. cbn in H. destruct (np_rev s (t ++ [n])) as [r|] eqn:Q; [|discriminate].
    cbn in L. destruct (IH t n r ltac:(lia) Q) as (r' & -> & Lr).
    destruct (Nat.eqb a b || Nat.eqb a 1); [|destruct (Nat.eqb b 1); [|discriminate]]; injection H as <-.
    + exists (b :: r'). cbn. split; [reflexivity|lia].
    + exists (a :: r'). cbn. split; [reflexivity|lia].
Qed.
Lemma np_shape_hd s n t u : (List.length s <= List.length t)%nat -> np_shape s (n :: t) = Some u ->
  exists u', u = n :: u' /\ List.length u' = List.length t.
Proof.
  unfold np_shape. intros L H. cbn [rev] in H. destruct (np_rev (rev s) (rev t ++ [n])) as [r|] eqn:Q; [|discriminate].
  injection H as <-. apply np_rev_last in Q; [|now rewrite !rev_length]. destruct Q as (u' & -> & Lu).
  exists (rev u'). rewrite rev_app_distr, rev_length. cbn. split; [reflexivity|]. now rewrite Lu, rev_length.
Qed.

Lemma Forall2_skipn {A B} (R : A -> B -> Prop) l m : Forall2 R l m -> forall n, Forall2 R (skipn n l) (skipn n m).
Proof. induction 1; intros [|n]; cbn; auto. Qed.
Lemma map2_in s : forall t i, List.length s = List.length t -> index_in t i ->
  forallb (fun p => dim_fits (fst p) (snd p)) (combine s t) = true ->
  index_in s (map2 (fun d k => if Nat.eqb d 1 then 0%nat else k) s i).
Proof.
  induction s as [|d s IH]; intros t i L Hi F.
  - destruct t; [|discriminate]. inversion Hi; subst. constructor.
  - destruct t as [|e t]; [discriminate|]. inversion Hi as [|k ? i' ? Hk Hi']; subst. cbn [combine forallb fst snd] in F.
    apply andb_true_iff in F. destruct F as [F1 F2]. 
    match goal with |- index_in _ (map2 ?f _ _) => change (index_in (d :: s) (f d k :: map2 f s i')) end. constructor.
    + cbn beta. unfold dim_fits in F1. destruct (Nat.eqb_spec d 1) as [->|]; [lia|]. cbn in F1. apply Nat.eqb_eq in F1. lia.
    + apply (IH t); auto.
Qed.
Lemma fits_bidx s t i : fits s t = true -> index_in t i -> index_in s (bidx s i).
Proof.
  unfold fits, bidx. intros F Hi. apply andb_true_iff in F. destruct F as [F1 F2]. apply Nat.leb_le in F1.
  pose proof (index_in_len _ _ Hi) as L. rewrite L.
  apply (map2_in s (skipn (List.length t - List.length s) t)); [rewrite skipn_length; lia| |exact F2].
  now apply Forall2_skipn.
Qed.

(* ---- names ---- *)
Lemma add_names_ext bc : forall c, exists r, add_names bc c = c ++ r.
Proof.
  unfold add_names. induction bc as [|s bc IH]; intro c; cbn [fold_left]; [exists []; now rewrite app_nil_r|].
  destruct (memb s c); [apply IH|]. destruct (IH (c ++ [s])) as [r ->]. exists ([s] ++ r). now rewrite <- app_assoc.
Qed.
Lemma add_names_in bc : forall c s, In s bc -> In s (add_names bc c).
Proof.
  induction bc as [|x bc IH]; intros c s H; [destruct H|]. unfold add_names. cbn [fold_left]. fold (add_names bc (if memb x c then c else c ++ [x])).
  destruct H as [->|H]; [|now apply IH].
  destruct (add_names_ext bc (if memb s c then c else c ++ [s])) as [r ->]. apply in_or_app. left.
  destruct (memb s c) eqn:M; [now apply memb_spec|]. apply in_or_app. right. now left.
Qed.
Lemma index_in_names s l : In s l -> exists k, index_of s l = Some k /\ (k < List.length l)%nat.
Proof.
  intro H. destruct (index_of s l) as [k|] eqn:Q; [|now apply index_of_none in Q].
  exists k. split; [reflexivity|]. now apply index_of_some in Q.
Qed.
Lemma index_of_first s : forall l j k, nth_error l j = Some s -> index_of s l = Some k -> (k <= j)%nat.
Proof.
  induction l as [|x l IH]; intros j k H K; [now destruct j|]. cbn in K. destruct (String.eqb_spec s x) as [->|N].
  - injection K as <-. lia.
  - destruct (index_of s l) as [n|]; [|discriminate]. injection K as <-. destruct j as [|j]; [cbn in H; congruence|].
    cbn in H. specialize (IH j n H eq_refl). lia.
Qed.

(* ---- what an operation does to memory ---- *)
Definition obj_ok (o : hobj) : Prop := h_sh (h_q o) = List.length (h_c o) :: hshape o /\ hshape o <> [].
Definition quiet (m m' : memory) : Prop :=
  (List.length m <= List.length m')%nat /\ forall b, (b < List.length m)%nat -> nth b m' [] = nth b m [].
Definition frame (b : nat) (m m' : memory) : Prop :=
  (List.length m <= List.length m')%nat /\
  forall b', (b' < List.length m)%nat -> List.length (nth b' m' []) = List.length (nth b' m []) /\ (b' <> b -> nth b' m' [] = nth b' m []).
Definition sound (m : memory) (o : hobj) (x : memory * hobj * res unit) : Prop :=
  let '(m', o', r) := x in
  frame (h_buf (h_q o)) m m' /\ bounded m' (h_q o') /\
  (h_buf (h_q o') = h_buf (h_q o) \/ (List.length m <= h_buf (h_q o'))%nat) /\ (r = Ok tt -> obj_ok o').

Lemma quiet_refl m : quiet m m. Proof. split; auto. Qed.
Lemma quiet_frame b m m' : quiet m m' -> frame b m m'.
Proof. intros [H1 H2]. split; [exact H1|]. intros b' Hb. now rewrite H2. Qed.
Lemma frame_refl b m : frame b m m. Proof. apply quiet_frame, quiet_refl. Qed.
Lemma frame_trans b m1 m2 m3 : frame b m1 m2 -> frame b m2 m3 -> frame b m1 m3.
Proof.
  intros [H1 H2] [H3 H4]. split; [lia|]. intros b' Hb. destruct (H2 b' Hb) as [A1 A2]. destruct (H4 b' ltac:(lia)) as [B1 B2].
  split; [congruence|]. intro N. now rewrite B2, A2.
Qed.
Lemma quiet_trans m1 m2 m3 : quiet m1 m2 -> quiet m2 m3 -> quiet m1 m3.
Proof. intros [H1 H2] [H3 H4]. split; [lia|]. intros b Hb. rewrite H4 by lia. auto. Qed.
Lemma alloc_quiet m v : quiet m (fst (alloc m v)).
Proof. split; [cbn; rewrite app_length; lia|]. intros b Hb. now apply alloc_old. Qed.
(* writing into a buffer made since *)
Lemma frame_fresh b b2 m1 m2 m3 : quiet m1 m2 -> frame b2 m2 m3 -> (List.length m1 <= b2)%nat -> frame b m1 m3.
Proof.
  intros [H1 H2] [H3 H4] L. split; [lia|]. intros b' Hb. destruct (H4 b' ltac:(lia)) as [B1 B2]. rewrite B2 by lia. now rewrite H2.
Qed.
Lemma quiet_fresh b2 m1 m2 m3 : quiet m1 m2 -> frame b2 m2 m3 -> (List.length m1 <= b2)%nat -> quiet m1 m3.
Proof.
  intros [H1 H2] [H3 H4] L. split; [lia|]. intros b' Hb. destruct (H4 b' ltac:(lia)) as [B1 B2]. rewrite B2 by lia. now rewrite H2.
Qed.
Lemma write_frame m a v : bounded m a -> frame (h_buf a) m (write m a v).
Proof.
  intro B. split; [now rewrite write_length|]. intros b' Hb. split; [now apply write_buf_length|]. intro N. now apply write_other.
Qed.
Lemma frame_bounded b m m' a : frame b m m' -> bounded m a -> bounded m' a.
Proof. intros [H1 H2] [B1 B2]. destruct (H2 _ B1) as [A _]. split; [lia|]. now rewrite A. Qed.
Lemma frame_read b m m' a : frame b m m' -> bounded m a -> h_buf a <> b -> read m' a = read m a.
Proof. intros [H1 H2] [B1 B2] N. destruct (H2 _ B1) as [_ A]. apply read_same. now apply A. Qed.
Lemma quiet_read m m' a : quiet m m' -> bounded m a -> read m' a = read m a.
Proof. intros [H1 H2] [B1 B2]. apply read_same. now apply H2. Qed.
Lemma quiet_bounded m m' a : quiet m m' -> bounded m a -> bounded m' a.
Proof. intros Q. apply (frame_bounded 0). now apply quiet_frame. Qed.

(* a new array in the object *)
Lemma alloc_sound m o v c : nsh v = List.length c :: tl (nsh v) -> tl (nsh v) <> [] ->
  sound m o (let (m', q) := alloc m v in (m', {| h_c := c; h_q := q |}, Ok tt)).
Proof.
  intros H1 H2. cbn [alloc]. split; [apply quiet_frame, (alloc_quiet m v)|]. split; [apply (alloc_bounded m v)|].
  split; [right; cbn; lia|]. intros _. split; cbn; assumption.
Qed.

(* ---- the rows added ---- *)
Lemma rows_frame c q n s : h_sh q = n :: s -> forall bc bq bi m, bounded m q ->
  (forall x, In x bc -> exists k, index_of x c = Some k /\ (k < n)%nat) ->
  frame (h_buf q) m (fst (h_add_rows c bc bq bi q m)).
Proof.
  intros Hs bc. induction bc as [|x bc IH]; intros bq bi m B Hin; cbn [h_add_rows]; [apply frame_refl|].
  destruct (broadcast_to _ _) as [v|e]; [|apply frame_refl].
  destruct (Hin x (or_introl eq_refl)) as (k & Hk & Lk). rewrite Hk.
  pose proof (row_bounded m q k n s Hs Lk B) as Br.
  set (w := {| nsh := _; nel := _ |}).
  apply (frame_trans _ _ (write m (hrow q k) w)); [apply (write_frame m (hrow q k) w Br)|].
  apply IH; [now apply write_bounded|]. intros y Hy. apply Hin. now right.
Qed.

Lemma rows_value c q n s nb sb : h_sh q = n :: s -> forall bc bq bi m qv bqv, bounded m q -> bounded m bq ->
  h_sh bq = nb :: sb -> nsh bqv = h_sh bq -> nsh qv = h_sh q ->
  (forall x, In x bc -> exists k, index_of x c = Some k /\ (k < n)%nat) -> (bi + List.length bc <= nb)%nat ->
  (h_buf bq <> h_buf q \/ (bq = q /\ forall j x k, nth_error bc j = Some x -> index_of x c = Some k -> (k <= bi + j)%nat)) ->
  (forall i, index_in (h_sh q) i -> nel qv i = nel (read m q) i) ->
  (forall k i, (bi <= k < nb)%nat -> index_in sb i -> nel bqv (k :: i) = nel (read m bq) (k :: i)) ->
  fits sb s = true ->
  exists m' qv', h_add_rows c bc bq bi q m = (m', Ok tt) /\ add_rows c bc bqv bi qv = Ok qv' /\ nsh qv' = h_sh q /\
    bounded m' q /\ forall i, index_in (h_sh q) i -> nel qv' i = nel (read m' q) i.
Proof.
  intros Hs bc. induction bc as [|x bc IH]; intros bq bi m qv bqv B Bb Hb Nb Nq Hin Lb Sep Hq Hbq F; cbn [h_add_rows add_rows].
  - exists m, qv. repeat split; try apply B; auto.
  - destruct (Hin x (or_introl eq_refl)) as (k & Hk & Lk). rewrite Hk.
    pose proof (row_bounded m q k n s Hs Lk B) as Br. cbn [List.length] in Lb.
    assert (E1 : broadcast_to (read m (hrow bq bi)) (tl (h_sh q)) = Ok {| nsh := s; nel := fun i => nel (read m (hrow bq bi)) (bidx sb i) |}).
    { unfold broadcast_to. change (nsh (read m (hrow bq bi))) with (tl (h_sh bq)). rewrite Hb, Hs. cbn [tl]. now rewrite F. }
    assert (E2 : broadcast_to (row bqv bi) (tl (nsh qv)) = Ok {| nsh := s; nel := fun i => nel (row bqv bi) (bidx sb i) |}).
    { unfold broadcast_to. change (nsh (row bqv bi)) with (tl (nsh bqv)). rewrite Nb, Nq, Hb, Hs. cbn [tl]. now rewrite F. }
    rewrite E1, E2. cbn [bind].
    match goal with |- context [write m ?a ?x] => set (w := x) end.
    match goal with |- context [set_row qv k ?x] => set (w' := x) end.
    assert (Wr : forall j i, (j < n)%nat -> index_in s i ->
       nel (read (write m (hrow q k) w) q) (j :: i) = if Nat.eqb j k then nel w i else nel (read m q) (j :: i)).
    { intros j i Hj Hi. now apply (write_row_el m q k n s). }
    apply IH.
    + now apply write_bounded.
    + now apply write_bounded.
    + exact Hb.
    + exact Nb.
    + exact Nq.
    + intros y Hy. apply Hin. now right.
    + lia.
    + destruct Sep as [Sep|[-> Sep]]; [now left|right; split; [reflexivity|]]. intros j y k' Hj Hk'.
      specialize (Sep (S j) y k' Hj Hk'). lia.
    + intros i Hi. rewrite Hs in Hi. inversion Hi as [|j ? i' ? Hj Hi']; subst. rewrite (Wr j i' Hj Hi').
      cbn [set_row nel]. destruct (Nat.eqb_spec j k) as [->|N]; [|apply Hq; now rewrite Hs].
      unfold w, w'. cbn [nel]. f_equal.
      * rewrite Hq by (rewrite Hs; now constructor). symmetry. now apply (row_el m q k n s i' Hs Lk B Hi').
      * cbn [row nel]. rewrite Hbq by (try lia; now apply (fits_bidx sb s)). symmetry.
        apply (row_el m bq bi nb sb (bidx sb i') Hb); [lia|exact Bb|exact (fits_bidx sb s i' F Hi')].
    + intros j i Hj Hi. rewrite Hbq by (auto; lia). symmetry. destruct Sep as [Sep|[-> Sep]].
      * rewrite (frame_read (h_buf (hrow q k)) m); [reflexivity|now apply write_frame|exact Bb|exact Sep].
      * assert (n = nb /\ s = sb) as [-> ->] by (split; congruence). rewrite (Wr j i) by (auto; lia).
        specialize (Sep 0%nat x k eq_refl Hk). destruct (Nat.eqb_spec j k); [lia|reflexivity].
    + exact F.
Qed.

Lemma rows_fail c q n s nb sb bqv qv bq bi m bc : h_sh q = n :: s -> h_sh bq = nb :: sb -> nsh bqv = h_sh bq -> nsh qv = h_sh q ->
  fits sb s = false -> bc <> [] ->
  h_add_rows c bc bq bi q m = (m, Err EValueError) /\ add_rows c bc bqv bi qv = Err EValueError.
Proof.
  intros Hs Hb Nb Nq F Hbc. destruct bc as [|x bc]; [congruence|]. cbn [h_add_rows add_rows].
  unfold broadcast_to. change (nsh (read m (hrow bq bi))) with (tl (h_sh bq)). change (nsh (row bqv bi)) with (tl (nsh bqv)).
  rewrite Nb, Nq, Hb, Hs. cbn [tl]. rewrite F. now split.
Qed.

(* ---- a += b ---- *)
Lemma iadd_sound m a b same : bounded m (h_q a) -> obj_ok a -> sound m a (h_iadd m a b same).
Proof.
  intros B [O1 O2]. unfold h_iadd. destruct (broadcast_shape (hshape b) (hshape a)) as [sh|e] eqn:Bs.
  2:{ split; [apply frame_refl|]. split; [exact B|]. split; [now left|discriminate]. }
  set (c := add_names (h_c b) (h_c a)).
  assert (Hin : forall n, n = List.length c -> forall x, In x (h_c b) -> exists k, index_of x c = Some k /\ (k < n)%nat).
  { intros n -> x Hx. apply index_in_names. now apply add_names_in. }
  destruct (orb _ _) eqn:G.
  - destruct (broadcast_to _ _) as [v|e]; cbn [bind].
    2:{ split; [apply frame_refl|]. split; [exact B|]. split; [now left|discriminate]. }
    set (w := {| nsh := List.length c :: sh; nel := _ |}).
    pose proof (alloc_quiet m w) as Q. pose proof (alloc_bounded m w) as Bw. cbn [alloc fst snd] in Q, Bw. cbn [alloc].
    set (q := {| h_buf := List.length m; h_off := 0; h_sh := nsh w |}) in *.
    destruct (h_add_rows c (h_c b) (if same then q else h_q b) 0 q (m ++ [to_list w])) as [m2 r] eqn:R.
    pose proof (rows_frame c q (List.length c) sh eq_refl (h_c b) (if same then q else h_q b) 0 (m ++ [to_list w]) Bw (Hin _ eq_refl)) as Fr.
    rewrite R in Fr. cbn [fst] in Fr. split; [apply (frame_fresh _ (h_buf q) m (m ++ [to_list w])); auto|].
    split; [now apply (frame_bounded (h_buf q) (m ++ [to_list w]))|]. split; [right; cbn; lia|]. intros _.
    split; cbn; [reflexivity|]. now apply (bshape_nonempty (hshape b) (hshape a)).
  - apply orb_false_iff in G. destruct G as [G1 G2]. apply negb_false_iff in G1, G2. apply Nat.eqb_eq in G1. apply shape_eqb_spec in G2.
    destruct (h_add_rows c (h_c b) (if same then h_q a else h_q b) 0 (h_q a) m) as [m2 r] eqn:R.
    pose proof (rows_frame c (h_q a) _ _ O1 (h_c b) (if same then h_q a else h_q b) 0 m B (Hin _ (eq_sym G1))) as Fr. rewrite R in Fr. cbn [fst] in Fr.
    split; [exact Fr|]. split; [now apply (frame_bounded (h_buf (h_q a)) m)|]. split; [now left|].
    intros _. split; [|exact O2]. unfold hshape. cbn [h_q h_c]. rewrite G1. exact O1.
Qed.

(* the value A is the mixture in memory *)
Definition like (m : memory) (a : hobj) (A : mix) : Prop :=
  x_c A = h_c a /\ nsh (x_q A) = h_sh (h_q a) /\
  forall i, index_in (h_sh (h_q a)) i -> nel (x_q A) i = nel (read m (h_q a)) i.
Lemma like_refl m a : like m a (mix_of m a).
Proof. repeat split. Qed.
Lemma like_table m a A : bounded m (h_q a) -> like m a A -> mix_of m a = mix_table A.
Proof.
  intros B (L1 & L2 & L3). unfold mix_of, mix_table. rewrite L1. f_equal. apply read_table; auto. intros i Hi. symmetry. now apply L3.
Qed.

Lemma iadd_value m a b same A Bm : bounded m (h_q a) -> obj_ok a -> bounded m (h_q b) -> obj_ok b ->
  (h_buf (h_q b) <> h_buf (h_q a) /\ same = false) \/ b = a -> like m a A -> like m b Bm ->
  let '(m', o', r) := h_iadd m a b same in
  mix_of m' o' = mix_table (fst (iadd A Bm)) /\ r = snd (iadd A Bm).
Proof.
  intros B O Bb Ob Sep (La1 & La2 & La3) (Lb1 & Lb2 & Lb3). unfold h_iadd, iadd, shape, nsubst. rewrite La1, La2, Lb1, Lb2.
  change (tl (h_sh (h_q b))) with (hshape b). change (tl (h_sh (h_q a))) with (hshape a).
  destruct O as [O1 O2]. destruct Ob as [Ob1 Ob2].
  assert (K : forall c0, mix_of m {| h_c := c0; h_q := h_q a |} = mix_table {| x_c := c0; x_q := x_q A |}).
  { intros c0. apply like_table; [exact B|]. split; [reflexivity|]. split; assumption. }
  destruct (broadcast_shape (hshape b) (hshape a)) as [sh|e] eqn:Bs; [|split; [now apply K|reflexivity]].
  set (c := add_names (h_c b) (h_c a)).
  assert (Hin : forall n, n = List.length c -> forall x, In x (h_c b) -> exists k, index_of x c = Some k /\ (k < n)%nat).
  { intros n -> x Hx. apply index_in_names. now apply add_names_in. }
  destruct (orb _ _) eqn:G.
  - unfold broadcast_to. change (nsh (read m (h_q a))) with (h_sh (h_q a)). rewrite La2.
    destruct (fits (h_sh (h_q a)) (List.length (h_c a) :: sh)) eqn:Fa; cbn [bind]; [|split; [now apply K|reflexivity]]. cbn [nel].
    match goal with |- context [alloc m ?x] => set (w := x) end.
    match goal with |- context [match add_rows c (h_c b) (x_q Bm) 0 ?x with _ => _ end] => set (w' := x) end.
    assert (Ww : forall i, index_in (nsh w) i -> nel w i = nel w' i).
    { intros i Hi. unfold w, w' in *. cbn [nsh nel] in *. destruct i as [|j i]; [reflexivity|]. destruct (Nat.ltb_spec j (List.length (h_c a))) as [Lj|]; [|reflexivity].
      symmetry. apply La3. apply (fits_bidx _ _ _ Fa). inversion Hi; subst. now constructor. }
    assert (Sep' : b <> a).
    { intros ->. apply orb_true_iff in G. unfold c in G. rewrite add_names_incl in G by (now apply incl_refl).
      rewrite Nat.eqb_refl in G. destruct G as [G|G]; [discriminate|]. rewrite bshape_same in Bs by exact O2. apply ok_inj in Bs. subst sh.
      apply negb_true_iff in G. destruct (shape_eqb (hshape a) (hshape a)) eqn:X; [discriminate|].
      assert (shape_eqb (hshape a) (hshape a) = true) by (now apply shape_eqb_spec). congruence. }
    destruct Sep as [[Sep ->]|Sep]; [|contradiction].
    pose proof (alloc_quiet m w) as Q. pose proof (alloc_bounded m w) as Bw. pose proof (alloc_read m w) as Rw. cbn [alloc fst snd] in Q, Bw, Rw. cbn [alloc].
    set (q := {| h_buf := List.length m; h_off := 0; h_sh := nsh w |}) in *.
    assert (Rq : read (m ++ [to_list w]) q = table w') by (rewrite Rw; apply table_ext; [reflexivity|exact Ww]).
    assert (Lb : (0 + List.length (h_c b) <= List.length (h_c b))%nat) by lia.
    assert (Nb : h_buf (h_q b) <> h_buf q) by (destruct Bb as [Bb1 _]; cbn; lia).
    destruct (fits (hshape b) sh) eqn:F.
    + destruct (rows_value c q (List.length c) sh (List.length (h_c b)) (hshape b) eq_refl (h_c b) (h_q b) 0 (m ++ [to_list w]) w' (x_q Bm))
        as (m' & qv' & H1 & H2 & H3 & H4 & H5).
      * exact Bw.
      * now apply (quiet_bounded m).
      * exact Ob1.
      * exact Lb2.
      * reflexivity.
      * now apply Hin.
      * exact Lb.
      * now left.
      * intros i Hi. rewrite Rq. symmetry. now apply table_el.
      * intros k i Hk Hi. rewrite (quiet_read m (m ++ [to_list w]) (h_q b) Q Bb). apply Lb3. rewrite Ob1. constructor; [lia|exact Hi].
      * exact F.
      * rewrite H1. rewrite H2. split; [|reflexivity]. unfold mix_of, mix_table. cbn [fst h_c h_q x_c x_q]. f_equal.
        apply read_table; [exact H4|exact H3|]. intros i Hi. symmetry. now apply H5.
    + destruct (h_c b) as [|x bc] eqn:Ec.
      * cbn [h_add_rows add_rows]. split; [|reflexivity]. unfold mix_of, mix_table. cbn [fst h_c h_q x_c x_q]. now rewrite Rq.
      * rewrite <- Ec in *.
        destruct (rows_fail c q (List.length c) sh (List.length (h_c b)) (hshape b) (x_q Bm) w' (h_q b) 0 (m ++ [to_list w]) (h_c b)) as [H1 H2];
          auto; [rewrite Ec; discriminate|].
        rewrite H1, H2. split; [|reflexivity]. unfold mix_of, mix_table. cbn [fst h_c h_q x_c x_q]. now rewrite Rq.
  - apply orb_false_iff in G. destruct G as [G1 G2]. apply negb_false_iff in G1, G2. apply Nat.eqb_eq in G1. apply shape_eqb_spec in G2. subst sh.
    assert (Eq : (if same then h_q a else h_q b) = h_q b).
    { destruct Sep as [[_ ->]| ->]; [reflexivity|]. now destruct same. }
    rewrite Eq. destruct (fits (hshape b) (hshape a)) eqn:F.
    + destruct (rows_value c (h_q a) _ _ (List.length (h_c b)) (hshape b) O1 (h_c b) (h_q b) 0 m (x_q A) (x_q Bm))
        as (m' & qv' & H1 & H2 & H3 & H4 & H5); auto.
      * destruct Sep as [[Sep _]| ->]; [now left|]. right. split; [reflexivity|]. intros j x k Hj Hk.
        unfold c in Hk. rewrite add_names_incl in Hk by (now apply incl_refl). now apply (index_of_first x (h_c a)).
      * intros k i Hk Hi. apply Lb3. rewrite Ob1. constructor; [lia|exact Hi].
      * rewrite H1, H2. split; [|reflexivity]. unfold mix_of, mix_table. cbn [fst h_c h_q x_c x_q]. f_equal.
        apply read_table; [exact H4|exact H3|]. intros i Hi. symmetry. now apply H5.
    + destruct (h_c b) as [|x bc] eqn:Ec.
      * cbn [h_add_rows add_rows]. split; [|reflexivity]. now apply K.
      * rewrite <- Ec in *.
        destruct (rows_fail c (h_q a) _ _ (List.length (h_c b)) (hshape b) (x_q Bm) (x_q A) (h_q b) 0 m (h_c b) O1 Ob1) as [H1 H2];
          auto; [rewrite Ec; discriminate|].
        rewrite H1, H2. split; [|reflexivity]. now apply K.
Qed.

(* ---- a *= b ---- *)
Definition factor_fits (a : hobj) (b : nd) : Prop := nsh b = [] \/ (List.length (nsh b) <= List.length (hshape a))%nat.
Lemma factor_dims a b : obj_ok a -> factor_fits a b -> (List.length (nsh (atleast_1d b)) <= List.length (hshape a))%nat.
Proof.
  intros [_ O2] H. unfold atleast_1d. destruct (nsh b) as [|d s] eqn:Q.
  - cbn. destruct (hshape a); [congruence|cbn; lia].
  - rewrite Q. destruct H as [H|H]; [congruence|]. now rewrite Q in H.
Qed.
Lemma imul_sound m a b : bounded m (h_q a) -> obj_ok a -> factor_fits a b -> sound m a (h_imul m a b).
Proof.
  intros B O Hf. pose proof (factor_dims a b O Hf) as D. destruct O as [O1 O2]. unfold h_imul. destruct (shape_eqb _ _).
  - destruct (broadcast_to _ _) as [v|e].
    + split; [now apply write_frame|]. split; [now apply write_bounded|]. split; [now left|]. intros _. now split.
    + split; [apply frame_refl|]. split; [exact B|]. split; [now left|discriminate].
  - destruct (np_op _ _ _) as [v|e] eqn:N.
    + unfold np_op in N. cbn [read of_list nsh] in N. rewrite O1 in N. destruct (np_shape _ _) as [u|] eqn:S; [|discriminate]. apply ok_inj in N.
      apply np_shape_hd in S; [|exact D]. destruct S as (u' & -> & Lu). subst v.
      apply (alloc_sound m a _ (h_c a)); cbn [nsh tl]; [reflexivity|]. intros ->. cbn in Lu. destruct (hshape a); [congruence|discriminate].
    + split; [apply frame_refl|]. split; [exact B|]. split; [now left|discriminate].
Qed.
Definition or_keep (m : mix) (r : res mix) : mix := match r with Ok m' => m' | Err _ => m end.
Definition unit_of {A} (r : res A) : res unit := match r with Ok _ => Ok tt | Err e => Err e end.
Lemma keep_table m a : bounded m (h_q a) -> mix_of m a = mix_table (mix_of m a).
Proof. intro B. unfold mix_of, mix_table. cbn [x_c x_q]. now rewrite read_is_table. Qed.
Lemma imul_value m a b : bounded m (h_q a) -> obj_ok a ->
  let '(m', o', r) := h_imul m a b in
  mix_of m' o' = mix_table (or_keep (mix_of m a) (imul (mix_of m a) b)) /\ r = unit_of (imul (mix_of m a) b).
Proof.
  intros B O. unfold h_imul, imul. change (shape (mix_of m a)) with (hshape a). change (x_q (mix_of m a)) with (read m (h_q a)).
  change (x_c (mix_of m a)) with (h_c a). destruct (shape_eqb _ _).
  - destruct (broadcast_to _ _) as [v|e]; cbn [bind or_keep unit_of]; (split; [|reflexivity]); [|now apply keep_table].
    unfold mix_of, mix_table. cbn [h_c x_c x_q]. f_equal. now apply write_read.
  - destruct (np_op _ _ _) as [v|e]; cbn [bind or_keep unit_of]; [|split; [now apply keep_table|reflexivity]].
    pose proof (alloc_read m v) as Rv. cbn [alloc fst snd] in Rv. cbn [alloc]. split; [|reflexivity].
    unfold mix_of, mix_table. cbn [h_c h_q x_c x_q]. now rewrite Rv.
Qed.
Lemma np_map_sh f b : nsh (np_map f b) = nsh b. Proof. reflexivity. Qed.
Lemma idiv_sound m a b : bounded m (h_q a) -> obj_ok a -> factor_fits a b -> sound m a (h_idiv m a b).
Proof.
  intros B O Hf.
  assert (G : sound m a (h_imul m a (np_map reciprocal b))) by (now apply imul_sound).
  unfold h_idiv. destruct (nsh b); [|exact G]. destruct (nel b []); [|exact G]. destruct (Req_EM_T r 0); [|exact G].
  split; [apply frame_refl|]. split; [exact B|]. split; [now left|discriminate].
Qed.
Lemma idiv_value m a b : bounded m (h_q a) -> obj_ok a ->
  let '(m', o', r) := h_idiv m a b in
  mix_of m' o' = mix_table (or_keep (mix_of m a) (truediv (mix_of m a) b)) /\ r = unit_of (truediv (mix_of m a) b).
Proof.
  intros B O. pose proof (imul_value m a (np_map reciprocal b) B O) as G.
  unfold h_idiv, truediv. destruct (nsh b); [|exact G]. destruct (nel b []); [|exact G]. destruct (Req_EM_T r 0); [|exact G].
  split; [|reflexivity]. now apply keep_table.
Qed.

(* ---- a[s] = v ---- *)
Lemma setitem_sound P E m a s v : bounded m (h_q a) -> obj_ok a -> sound m a (h_setitem P E m a s v).
Proof.
  intros B [O1 O2]. unfold h_setitem.
  destruct (index_of (full_sid s) (h_c a)) as [k|] eqn:K; [|split; [apply frame_refl|split; [exact B|split; [now left|discriminate]]]].
  destruct (broadcast_shape _ _) as [sh|e] eqn:Bs; [|split; [apply frame_refl|split; [exact B|split; [now left|discriminate]]]].
  apply index_of_some in K. destruct K as [Lk _]. destruct (shape_eqb sh (hshape a)) eqn:G.
  - destruct (do v0 <- _; _) as [w|e]; [|split; [apply frame_refl|split; [exact B|split; [now left|discriminate]]]].
    pose proof (row_bounded m (h_q a) k _ _ O1 Lk B) as Br. split; [apply (write_frame m (hrow (h_q a) k) w Br)|].
    split; [now apply write_bounded|]. split; [now left|]. intros _. now split.
  - destruct (broadcast_to _ _) as [x|e] eqn:X; cbn [bind]; [|split; [apply frame_refl|split; [exact B|split; [now left|discriminate]]]].
    unfold broadcast_to in X. destruct (fits _ _); [|discriminate]. apply ok_inj in X.
    assert (Nx : nsh x = List.length (h_c a) :: sh) by (subst x; cbn [nsh]; now rewrite O1).
    assert (Sh : sh <> []) by (now apply (bshape_nonempty _ _ _ O2 Bs)).
    pose proof (alloc_quiet m x) as Q. pose proof (alloc_bounded m x) as Bw. cbn [alloc fst snd] in Q, Bw. cbn [alloc].
    set (q := {| h_buf := List.length m; h_off := 0; h_sh := nsh x |}) in *.
    destruct (do v0 <- _; _) as [w|e].
    + pose proof (row_bounded (m ++ [to_list x]) q k _ _ Nx Lk Bw) as Br. split; [apply (frame_fresh _ (h_buf q) m (m ++ [to_list x])); auto|].
      * apply (write_frame _ (hrow q k) w Br).
      * cbn [h_q]. split; [now apply write_bounded|]. split; [right; cbn; lia|]. intros _. split; cbn [hshape h_q h_c h_sh q].
        -- unfold hshape. cbn [h_q q h_sh]. rewrite Nx. reflexivity.
        -- unfold hshape. cbn [h_q q h_sh]. rewrite Nx. exact Sh.
    + split; [now apply quiet_frame|]. split; [exact Bw|]. split; [right; cbn; lia|discriminate].
Qed.
Lemma setitem_value P E m a s v : bounded m (h_q a) -> obj_ok a ->
  let '(m', o', r) := h_setitem P E m a s v in
  mix_of m' o' = mix_table (fst (setitem P E (mix_of m a) s v)) /\ r = snd (setitem P E (mix_of m a) s v).
Proof.
  intros B O. unfold h_setitem, setitem, sindex. change (shape (mix_of m a)) with (hshape a). change (x_q (mix_of m a)) with (read m (h_q a)).
  change (x_c (mix_of m a)) with (h_c a). change (nsh (read m (h_q a))) with (h_sh (h_q a)). pose proof (keep_table m a B) as Kt. destruct O as [O1 O2].
  destruct (index_of (full_sid s) (h_c a)) as [k|] eqn:K; [|now split].
  destruct (broadcast_shape _ _) as [sh|e] eqn:Bs; [|now split].
  apply index_of_some in K. destruct K as [Lk _]. destruct (shape_eqb sh (hshape a)) eqn:G.
  - apply shape_eqb_spec in G. subst sh. destruct (do v0 <- _; _) as [w|e] eqn:W; [|now split]. split; [|reflexivity].
    unfold mix_of, mix_table. cbn [fst h_c h_q x_c x_q]. f_equal. pose proof (row_bounded m (h_q a) k _ _ O1 Lk B) as Br.
    apply read_table; [now apply write_bounded|reflexivity|]. intros i Hi. rewrite O1 in Hi. inversion Hi as [|j ? i' ? Hj Hi']; subst.
    rewrite (write_row_el m (h_q a) k _ _ w j i' O1 Lk B Hj Hi'). cbn [set_row nel]. now destruct (Nat.eqb j k).
  - destruct (broadcast_to (read m (h_q a)) _) as [x|e] eqn:X; cbn [bind]; [|now split].
    unfold broadcast_to in X. destruct (fits _ _); [|discriminate]. apply ok_inj in X.
    assert (Nx : nsh x = List.length (h_c a) :: sh) by (subst x; cbn [nsh]; now rewrite O1).
    pose proof (alloc_bounded m x) as Bw. pose proof (alloc_read m x) as Rx. cbn [alloc fst snd] in Bw, Rx. cbn [alloc].
    set (q := {| h_buf := List.length m; h_off := 0; h_sh := nsh x |}) in *.
    destruct (do v0 <- _; _) as [w|e].
    + split; [|reflexivity]. unfold mix_of, mix_table. cbn [fst h_c h_q x_c x_q]. f_equal. pose proof (row_bounded (m ++ [to_list x]) q k _ _ Nx Lk Bw) as Br.
      apply read_table; [now apply write_bounded|reflexivity|]. intros i Hi. change (h_sh q) with (nsh x) in Hi. rewrite Nx in Hi. inversion Hi as [|j ? i' ? Hj Hi']; subst i.
      rewrite (write_row_el _ q k _ _ w j i' Nx Lk Bw Hj Hi'). cbn [set_row nel]. destruct (Nat.eqb j k); [reflexivity|].
      rewrite Rx. apply table_el. rewrite Nx. now constructor.
    + split; [|reflexivity]. unfold mix_of, mix_table. cbn [fst h_c h_q x_c x_q]. now rewrite Rx.
Qed.

(* ---- new arrays ---- *)
Lemma init_names_ok P : forall l sh names sh', init_names P l sh = Ok (names, sh') -> sh <> [] -> sh' <> [].
Proof.
  induction l as [|[s q] l IH]; intros sh names sh' H Hs; cbn in H; [now injection H as <- <-|].
  destruct (get_gas P (full_sid s)); [|discriminate]. cbn in H. destruct (broadcast_shape (nsh q) sh) as [u|] eqn:Bq; [|discriminate]. cbn in H.
  destruct (init_names P l u) as [[n' u']|] eqn:I; [|discriminate]. cbn in H. injection H as <- <-. apply (IH u n' u' I). now apply (bshape_nonempty _ _ _ Hs Bq).
Qed.
Lemma init_rows_sh P E units sh : forall l k q q', init_rows P E units sh l k q = Ok q' -> nsh q' = nsh q.
Proof.
  induction l as [|[s v] l IH]; intros k q q' H; cbn in H; [now injection H as <-|].
  destruct (nd_matter _ _ _ _ _); [|discriminate]. cbn in H. destruct (broadcast_to _ _); [|discriminate]. cbn in H. apply IH in H. exact H.
Qed.
Lemma new_mix_ok P E units l x : new_mix P E units l = Ok x -> nsh (x_q x) = List.length (x_c x) :: tl (nsh (x_q x)) /\ tl (nsh (x_q x)) <> [].
Proof.
  unfold new_mix. destruct (init_names P l [1%nat]) as [[names sh]|] eqn:I; [|discriminate]. cbn [bind].
  destruct (init_rows _ _ _ _ _ _ _) as [q|] eqn:R; [|discriminate]. cbn [bind]. intro H. apply ok_inj in H. subst x. cbn [x_q x_c].
  apply init_rows_sh in R. cbn [nsh] in R. rewrite R. cbn [tl]. split; [reflexivity|]. apply (init_names_ok _ _ _ _ _ I). discriminate.
Qed.
Lemma insert_ok P E m s v units x : shape m <> [] -> insert P E m s v units = Ok x -> nsh (x_q x) = List.length (x_c x) :: tl (nsh (x_q x)) /\ tl (nsh (x_q x)) <> [].
Proof.
  intros Hs. unfold insert. destruct (get_gas _ _); [|discriminate]. cbn [bind]. destruct (memb _ _); [discriminate|].
  destruct (match units with Some _ => _ | None => _ end) as [q|]; [|discriminate]. cbn [bind].
  destruct (broadcast_shape _ _) as [sh|] eqn:Bs; [|discriminate]. cbn [bind]. destruct (broadcast_to q sh); [|discriminate]. cbn [bind].
  destruct (broadcast_to _ _); [|discriminate]. cbn [bind]. intro H. apply ok_inj in H. subst x. cbn [x_q x_c set_row nsh tl].
  split; [|now apply (bshape_nonempty _ _ _ Hs Bs)]. f_equal. rewrite app_length. cbn. unfold nsubst. lia.
Qed.
Lemma remove_at_length {A} : forall k (l : list A), (k < List.length l)%nat -> List.length (remove_at k l) = (List.length l - 1)%nat.
Proof. induction k as [|k IH]; destruct l as [|x l]; cbn; intro H; try lia. rewrite IH by lia. destruct l; cbn in *; lia. Qed.
Lemma remove_ok m s x : nsh (x_q m) = List.length (x_c m) :: shape m -> shape m <> [] -> remove m s = Ok x ->
  nsh (x_q x) = List.length (x_c x) :: tl (nsh (x_q x)) /\ tl (nsh (x_q x)) <> [].
Proof.
  intros H1 H2. unfold remove. destruct (sindex m s) as [k|] eqn:K; [|discriminate]. intro H. apply ok_inj in H. subst x. cbn [x_q x_c nsh tl].
  split; [|exact H2]. rewrite H1. cbn [hd]. unfold sindex in K. apply index_of_some in K. destruct K as [K _]. now rewrite remove_at_length.
Qed.

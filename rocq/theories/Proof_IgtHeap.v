(* Proofs about sessions with mixtures in memory (C93). *)
From Coq Require Import Reals ZArith List String Bool Lia Lra.
From Verif Require Import Base Model_Num Model_Units Model_Igas Model_Igtools Model_Igtprop Model_Igtmix Model_Igtview Model_IgtHeap
  Spec_Units Spec_Igtools Spec_Igtprop Spec_Igtmix Spec_Igtview Spec_IgtHeap
  Proof_Units Proof_Igtshape Proof_Igtools Proof_Igtmix Proof_Igtview Proof_IgtHeapMem Proof_IgtHeapOps.
Import ListNotations.
Local Open Scope R_scope.
Local Open Scope string_scope.
Local Open Scope list_scope.

(* ---- invariants ---- *)
Definition wf (h : heap) : Prop :=
  (forall a o, nth_error (h_objs h) a = Some o -> bounded (h_mem h) (h_q o) /\ obj_ok o) /\
  (forall x a, nth_error (h_arrs h) x = Some a -> bounded (h_mem h) a).
(* an array in memory and its family *)
Definition member (h : heap) (F : families) (a : harr) (f : nat) : Prop :=
  (exists i o, nth_error (h_objs h) i = Some o /\ h_q o = a /\ nth_error (f_mixs F) i = Some f) \/
  (exists x, nth_error (h_arrs h) x = Some a /\ nth_error (f_arrs F) x = Some f).
Definition fam (h : heap) (F : families) : Prop :=
  List.length (f_mixs F) = List.length (h_objs h) /\ List.length (f_arrs F) = List.length (h_arrs h) /\
  (forall a f, member h F a f -> (f < f_next F)%nat) /\
  forall a f a' f', member h F a f -> member h F a' f' -> h_buf a = h_buf a' -> f = f'.

Lemma member_bounded h F a f : wf h -> member h F a f -> bounded (h_mem h) a.
Proof. intros [W1 W2] [(i & o & H1 & <- & _)|(x & H1 & _)]; [now apply (W1 i)|now apply (W2 x)]. Qed.
Lemma nth_error_app_inv {A} (l : list A) x i y : nth_error (l ++ [x]) i = Some y ->
  nth_error l i = Some y \/ (i = List.length l /\ x = y).
Proof.
  intro H. destruct (Nat.lt_ge_cases i (List.length l)) as [L|L]; [left; now rewrite nth_error_app1 in H|].
  rewrite nth_error_app2 in H by exact L. destruct (i - List.length l)%nat as [|n] eqn:D; [|now destruct n].
  right. cbn in H. split; [lia|congruence].
Qed.
Lemma nth_error_app_old {A} (l r : list A) i y : nth_error l i = Some y -> nth_error (l ++ r) i = Some y.
Proof. intro H. rewrite nth_error_app1; [exact H|]. apply nth_error_Some. congruence. Qed.
Lemma fam_entry h F i o : fam h F -> nth_error (h_objs h) i = Some o -> exists f, nth_error (f_mixs F) i = Some f /\ member h F (h_q o) f.
Proof.
  intros (L & _) H. destruct (nth_error (f_mixs F) i) as [f|] eqn:Q.
  - exists f. split; [reflexivity|]. left. now exists i, o.
  - apply nth_error_None in Q. assert (i < List.length (h_objs h))%nat by (apply nth_error_Some; congruence). lia.
Qed.
Lemma fam_arr h F i a : fam h F -> nth_error (h_arrs h) i = Some a -> exists f, nth_error (f_arrs F) i = Some f /\ member h F a f.
Proof.
  intros (_ & L & _) H. destruct (nth_error (f_arrs F) i) as [f|] eqn:Q.
  - exists f. split; [reflexivity|]. right. now exists i.
  - apply nth_error_None in Q. assert (i < List.length (h_arrs h))%nat by (apply nth_error_Some; congruence). lia.
Qed.

(* what a step guarantees: the invariants, and nothing of other families changes *)
Definition kept (F : families) (f : option nat) (h h' : heap) : Prop :=
  (forall i o g, nth_error (h_objs h) i = Some o -> nth_error (f_mixs F) i = Some g -> f <> Some g ->
     nth_error (h_objs h') i = Some o /\ mix_of (h_mem h') o = mix_of (h_mem h) o) /\
  (forall x a g, nth_error (h_arrs h) x = Some a -> nth_error (f_arrs F) x = Some g -> f <> Some g ->
     nth_error (h_arrs h') x = Some a /\ read (h_mem h') a = read (h_mem h) a).
Definition good (F F' : families) (f : option nat) (h : heap) (x : heap * res unit) : Prop :=
  kept F f h (fst x) /\ (snd x = Ok tt -> wf (fst x) /\ fam (fst x) F').

Lemma kept_refl F f h : kept F f h h. Proof. now split. Qed.
Lemma good_fail F F' f h e : good F F' f h (h, Err e).
Proof. split; [apply kept_refl|discriminate]. Qed.

Section Put.
  Context (h : heap) (F : families) (W : wf h) (Fm : fam h F).

  Lemma put_good a o x : nth_error (h_objs h) a = Some o -> sound (h_mem h) o x ->
    good F F (nth_error (f_mixs F) a) h (put_obj h a x).
  Proof.
    intros Ho S. destruct x as [[m' o'] r]. destruct S as (Fr & Bo & Loc & Ok'). destruct (fam_entry h F a o Fm Ho) as (fa & Hfa & Ma).
    destruct Fm as (L1 & L2 & L3 & L4). assert (La : (a < List.length (h_objs h))%nat) by (apply nth_error_Some; congruence).
    unfold put_obj. split; cbn [fst snd].
    - split; cbn [h_objs h_arrs h_mem].
      + intros i o2 g Hi Hg N. rewrite Hfa in N. assert (i <> a) by (intros ->; congruence). rewrite set_nth_error_other by auto. split; [exact Hi|].
        unfold mix_of. f_equal. apply (frame_read (h_buf (h_q o)) (h_mem h)); [exact Fr|now apply (proj1 W i)|].
        intro Q. apply N. f_equal. symmetry. apply (L4 (h_q o2) g (h_q o) fa); auto. left. now exists i, o2.
      + intros x2 a2 g Hx Hg N. rewrite Hfa in N. split; [exact Hx|].
        apply (frame_read (h_buf (h_q o)) (h_mem h)); [exact Fr|now apply (proj2 W x2)|].
        intro Q. apply N. f_equal. symmetry. apply (L4 a2 g (h_q o) fa); auto. right. now exists x2.
    - intros ->. specialize (Ok' eq_refl). split.
      + split; cbn [h_objs h_arrs h_mem].
        * intros i o2 Hi. destruct (Nat.eq_dec i a) as [->|N].
          -- rewrite set_nth_error_same in Hi by exact La. injection Hi as <-. now split.
          -- rewrite set_nth_error_other in Hi by auto. destruct (proj1 W i o2 Hi) as [B2 O2]. split; [now apply (frame_bounded _ _ _ _ Fr)|exact O2].
        * intros x2 a2 Hx. apply (frame_bounded _ _ _ _ Fr). now apply (proj2 W x2).
      + unfold fam. cbn [h_objs h_arrs h_mem]. split; [now rewrite set_nth_length|]. split; [exact L2|].
        (* every array of the new heap is an old one, or the new one of a *)
        assert (K : forall b f, member {| h_mem := m'; h_objs := set_nth a o' (h_objs h); h_arrs := h_arrs h |} F b f ->
                    (b = h_q o' /\ f = fa) \/ member h F b f).
        { intros b f [(i & o2 & H1 & H2 & H3)|(x2 & H1 & H2)]; cbn [h_objs h_arrs] in H1.
          - destruct (Nat.eq_dec i a) as [->|N].
            + rewrite set_nth_error_same in H1 by exact La. injection H1 as <-. left. split; [now symmetry|congruence].
            + rewrite set_nth_error_other in H1 by auto. right. left. now exists i, o2.
          - right. right. now exists x2. }
        assert (K2 : forall b f, member h F b f -> h_buf b = h_buf (h_q o') -> f = fa).
        { intros b f Mb Q. destruct Loc as [Loc|Loc]; [apply (L4 b f (h_q o) fa); auto; congruence|].
          pose proof (member_bounded h F b f W Mb) as [Bb _]. lia. }
        split.
        * intros b f Mb. destruct (K b f Mb) as [[_ ->]|Mb']; [now apply (L3 (h_q o))|now apply (L3 b)].
        * intros b f b' f' Mb Mb' Q. destruct (K b f Mb) as [[-> ->]|H1], (K b' f' Mb') as [[-> ->]|H2]; auto.
          -- symmetry. apply (K2 b'); auto.
          -- now apply (K2 b).
          -- now apply (L4 b f b' f').
  Qed.

  (* appending *)
  Lemma fam_append_mix o f : (f <= f_next F)%nat ->
    (forall b g, member h F b g -> h_buf b = h_buf (h_q o) -> g = f) -> forall m nx, (f_next F <= nx)%nat -> (f < nx)%nat ->
    fam {| h_mem := m; h_objs := h_objs h ++ [o]; h_arrs := h_arrs h |} {| f_mixs := f_mixs F ++ [f]; f_arrs := f_arrs F; f_next := nx |}.
  Proof.
    destruct Fm as (L1 & L2 & L3 & L4). intros Hf Hb m nx Hn Hl. unfold fam. cbn [h_objs h_arrs f_mixs f_arrs f_next].
    split; [rewrite !app_length; cbn; lia|]. split; [exact L2|].
    match goal with |- (forall a f, member ?h' ?F' a f -> _) /\ _ =>
      assert (K : forall b g, member h' F' b g -> (b = h_q o /\ g = f) \/ member h F b g) end.
    { intros b g [(i & o2 & H1 & H2 & H3)|(x2 & H1 & H2)]; cbn [h_objs h_arrs f_mixs f_arrs] in *.
      - apply nth_error_app_inv in H1. apply nth_error_app_inv in H3. destruct H1 as [H1|[Hi H1]], H3 as [H3|[Hj H3]].
        + right. left. now exists i, o2.
        + assert (i < List.length (h_objs h))%nat by (apply nth_error_Some; congruence). lia.
        + assert (i < List.length (f_mixs F))%nat by (apply nth_error_Some; congruence). lia.
        + left. split; congruence.
      - right. right. now exists x2. }
    split.
    - intros b g M. destruct (K b g M) as [[_ ->]|M']; [exact Hl|]. specialize (L3 b g M'). lia.
    - intros b g b' g' M M' Q. destruct (K b g M) as [[-> ->]|H1], (K b' g' M') as [[-> ->]|H2]; auto.
      + symmetry. apply (Hb b'); auto.
      + now apply (Hb b).
      + now apply (L4 b g b' g').
  Qed.
  Lemma fam_append_arr o f : (f <= f_next F)%nat ->
    (forall b g, member h F b g -> h_buf b = h_buf o -> g = f) -> forall m nx, (f_next F <= nx)%nat -> (f < nx)%nat ->
    fam {| h_mem := m; h_objs := h_objs h; h_arrs := h_arrs h ++ [o] |} {| f_mixs := f_mixs F; f_arrs := f_arrs F ++ [f]; f_next := nx |}.
  Proof.
    destruct Fm as (L1 & L2 & L3 & L4). intros Hf Hb m nx Hn Hl. unfold fam. cbn [h_objs h_arrs f_mixs f_arrs f_next].
    split; [exact L1|]. split; [rewrite !app_length; cbn; lia|].
    match goal with |- (forall a f, member ?h' ?F' a f -> _) /\ _ =>
      assert (K : forall b g, member h' F' b g -> (b = o /\ g = f) \/ member h F b g) end.
    { intros b g [(i & o2 & H1 & H2 & H3)|(x2 & H1 & H2)]; cbn [h_objs h_arrs f_mixs f_arrs] in *.
      - right. left. now exists i, o2.
      - apply nth_error_app_inv in H1. apply nth_error_app_inv in H2. destruct H1 as [H1|[Hi H1]], H2 as [H2|[Hj H2]].
        + right. right. now exists x2.
        + assert (x2 < List.length (h_arrs h))%nat by (apply nth_error_Some; congruence). lia.
        + assert (x2 < List.length (f_arrs F))%nat by (apply nth_error_Some; congruence). lia.
        + left. split; congruence. }
    split.
    - intros b g M. destruct (K b g M) as [[_ ->]|M']; [exact Hl|]. specialize (L3 b g M'). lia.
    - intros b g b' g' M M' Q. destruct (K b g M) as [[-> ->]|H1], (K b' g' M') as [[-> ->]|H2]; auto.
      + symmetry. apply (Hb b'); auto.
      + now apply (Hb b).
      + now apply (L4 b g b' g').
  Qed.
  Lemma append_kept m f objs arrs : quiet (h_mem h) m ->
    kept F f h {| h_mem := m; h_objs := h_objs h ++ objs; h_arrs := h_arrs h ++ arrs |}.
  Proof.
    intro Q. split; cbn [h_objs h_arrs h_mem].
    - intros i o g Hi _ _. split; [now apply nth_error_app_old|]. unfold mix_of. f_equal. apply (quiet_read (h_mem h)); [exact Q|now apply (proj1 W i)].
    - intros x a g Hx _ _. split; [now apply nth_error_app_old|]. apply (quiet_read (h_mem h)); [exact Q|now apply (proj2 W x)].
  Qed.
  Lemma wf_append_mix m o : quiet (h_mem h) m -> bounded m (h_q o) -> obj_ok o ->
    wf {| h_mem := m; h_objs := h_objs h ++ [o]; h_arrs := h_arrs h |}.
  Proof.
    intros Q B O. split; cbn [h_objs h_arrs h_mem].
    - intros i o2 Hi. apply nth_error_app_inv in Hi. destruct Hi as [Hi|[_ <-]]; [|now split].
      destruct (proj1 W i o2 Hi) as [B2 O2]. split; [now apply (quiet_bounded (h_mem h))|exact O2].
    - intros x a Hx. apply (quiet_bounded (h_mem h)); [exact Q|now apply (proj2 W x)].
  Qed.
  Lemma wf_append_arr m a : quiet (h_mem h) m -> bounded m a -> wf {| h_mem := m; h_objs := h_objs h; h_arrs := h_arrs h ++ [a] |}.
  Proof.
    intros Q B. split; cbn [h_objs h_arrs h_mem].
    - intros i o2 Hi. destruct (proj1 W i o2 Hi) as [B2 O2]. split; [now apply (quiet_bounded (h_mem h))|exact O2].
    - intros x b Hx. apply nth_error_app_inv in Hx. destruct Hx as [Hx|[_ <-]]; [|exact B].
      apply (quiet_bounded (h_mem h)); [exact Q|now apply (proj2 W x)].
  Qed.
  Lemma new_obj_good m o f : quiet (h_mem h) m -> bounded m (h_q o) -> obj_ok o -> (List.length (h_mem h) <= h_buf (h_q o))%nat ->
    good F (fam_new_mix F) f h (new_obj h m o).
  Proof.
    intros Q B O L. unfold new_obj. split; cbn [fst snd].
    - pose proof (append_kept m f [o] [] Q) as K. now rewrite app_nil_r in K.
    - intros _. split; [now apply wf_append_mix|]. apply fam_append_mix; try lia.
      intros b g M Qb. pose proof (member_bounded h F b g W M) as [Bb _]. lia.
  Qed.
  Lemma new_arr_good m a f : quiet (h_mem h) m -> bounded m a -> (List.length (h_mem h) <= h_buf a)%nat ->
    good F (fam_new_arr F) f h (new_arr h m a).
  Proof.
    intros Q B L. unfold new_arr. split; cbn [fst snd].
    - pose proof (append_kept m f [] [a] Q) as K. now rewrite app_nil_r in K.
    - intros _. split; [now apply wf_append_arr|]. apply fam_append_arr; try lia.
      intros b g M Qb. pose proof (member_bounded h F b g W M) as [Bb _]. lia.
  Qed.
  (* sharing the memory of object a *)
  Lemma share_obj_good a o o' f : nth_error (h_objs h) a = Some o -> h_buf (h_q o') = h_buf (h_q o) -> bounded (h_mem h) (h_q o') -> obj_ok o' ->
    good F {| f_mixs := f_mixs F ++ [nth a (f_mixs F) 0%nat]; f_arrs := f_arrs F; f_next := f_next F |} f h (new_obj h (h_mem h) o').
  Proof.
    intros Ho Hb B O. destruct (fam_entry h F a o Fm Ho) as (fa & Hfa & Ma). rewrite (nth_error_nth _ _ _ Hfa).
    destruct Fm as (L1 & L2 & L3 & L4). pose proof (L3 _ _ Ma) as La. unfold new_obj. split; cbn [fst snd].
    - pose proof (append_kept (h_mem h) f [o'] [] (quiet_refl _)) as K. now rewrite app_nil_r in K.
    - intros _. split; [apply wf_append_mix; auto using quiet_refl|]. apply fam_append_mix; try lia.
      intros b g M Qb. apply (L4 b g (h_q o) fa); auto. congruence.
  Qed.
  Lemma share_arr_good a o x f : nth_error (h_objs h) a = Some o -> h_buf x = h_buf (h_q o) -> bounded (h_mem h) x ->
    good F {| f_mixs := f_mixs F; f_arrs := f_arrs F ++ [nth a (f_mixs F) 0%nat]; f_next := f_next F |} f h (new_arr h (h_mem h) x).
  Proof.
    intros Ho Hb B. destruct (fam_entry h F a o Fm Ho) as (fa & Hfa & Ma). rewrite (nth_error_nth _ _ _ Hfa).
    destruct Fm as (L1 & L2 & L3 & L4). pose proof (L3 _ _ Ma) as La. unfold new_arr. split; cbn [fst snd].
    - pose proof (append_kept (h_mem h) f [] [x] (quiet_refl _)) as K. now rewrite app_nil_r in K.
    - intros _. split; [apply wf_append_arr; auto using quiet_refl|]. apply fam_append_arr; try lia.
      intros b g M Qb. apply (L4 b g (h_q o) fa); auto. congruence.
  Qed.
  (* an operation on a new object *)
  Lemma new_from_good m1 c x f : quiet (h_mem h) m1 -> (List.length (h_mem h) <= h_buf (h_q c))%nat -> sound m1 c x ->
    good F (fam_new_mix F) f h (new_from h x).
  Proof.
    intros Q L S. destruct x as [[m2 o] r]. destruct S as (Fr & B & Loc & O). assert (Q2 : quiet (h_mem h) m2) by (apply (quiet_fresh (h_buf (h_q c)) _ m1); auto).
    unfold new_from. destruct r as [[]|e].
    - apply new_obj_good; auto. destruct Q as [Q _]. destruct Loc as [Loc|Loc]; lia.
    - split; [|discriminate]. cbn [fst]. pose proof (append_kept m2 f [] [] Q2) as K. now rewrite !app_nil_r in K.
  Qed.
End Put.

Lemma sound_quiet m m1 o x : quiet m m1 -> sound m1 o x -> sound m o x.
Proof.
  intros Q. destruct x as [[m2 o2] r]. intros (Fr & B & Loc & O). split; [apply (frame_trans _ _ m1); [now apply quiet_frame|exact Fr]|].
  split; [exact B|]. split; [|exact O]. destruct Loc as [Loc|Loc]; [now left|right]. destruct Q as [Q _]. lia.
Qed.

(* ---- copies and negatives ---- *)
Lemma copy_facts m o : bounded m (h_q o) -> obj_ok o -> forall m1 c, h_copy m o = (m1, c) ->
  quiet m m1 /\ bounded m1 (h_q c) /\ obj_ok c /\ h_buf (h_q c) = List.length m /\ hshape c = hshape o /\ like m1 c (mix_of m o).
Proof.
  intros B O m1 c H. unfold h_copy in H. pose proof (alloc_quiet m (read m (h_q o))) as Q. pose proof (alloc_bounded m (read m (h_q o))) as Bc.
  pose proof (alloc_read m (read m (h_q o))) as Rc. destruct (alloc m (read m (h_q o))) as [m' q] eqn:A. injection H as <- <-. cbn [fst snd] in *.
  unfold alloc in A. injection A as _ Aq. split; [exact Q|]. split; [exact Bc|]. split; [subst q; exact O|]. split; [now subst q|]. split; [now subst q|].
  split; [reflexivity|]. split; [subst q; reflexivity|]. intros i Hi. cbn [h_q]. rewrite Rc. symmetry. cbn [mix_of x_q]. apply table_el. subst q. exact Hi.
Qed.
Lemma neg_facts m o : bounded m (h_q o) -> obj_ok o -> forall m1 c, h_neg m o = (m1, c) ->
  quiet m m1 /\ bounded m1 (h_q c) /\ obj_ok c /\ h_buf (h_q c) = List.length m /\ like m1 c (neg (mix_of m o)).
Proof.
  intros B O m1 c H. unfold h_neg in H. set (v := np_map (lift1 Ropp) (read m (h_q o))) in *. pose proof (alloc_quiet m v) as Q. pose proof (alloc_bounded m v) as Bc.
  pose proof (alloc_read m v) as Rc. destruct (alloc m v) as [m' q] eqn:A. injection H as <- <-. cbn [fst snd] in *.
  unfold alloc in A. injection A as _ Aq. split; [exact Q|]. split; [exact Bc|]. split; [subst q; exact O|]. split; [now subst q|].
  split; [reflexivity|]. split; [subst q; reflexivity|]. intros i Hi. cbn [h_q]. rewrite Rc. symmetry. apply (table_el v). subst q. exact Hi.
Qed.
Lemma alloc_facts m v m1 q : alloc m v = (m1, q) -> quiet m m1 /\ bounded m1 q /\ h_buf q = List.length m /\ h_sh q = nsh v /\ read m1 q = table v.
Proof.
  intro H. pose proof (alloc_quiet m v) as Q. pose proof (alloc_bounded m v) as B. pose proof (alloc_read m v) as R. rewrite H in *. cbn [fst snd] in *.
  unfold alloc in H. injection H as _ <-. auto.
Qed.

(* ---- values ---- *)
Lemma v_mix_in h a o : nth_error (h_objs h) a = Some o -> v_mix (values_in h) a = Ok (mix_of (h_mem h) o).
Proof. intro H. unfold v_mix, values_in. cbn [v_mixs]. now rewrite nth_error_map, H. Qed.
Lemma operand_same h v : operand_value h v = v_operand (values_in h) v.
Proof. destruct v as [v|x]; [reflexivity|]. cbn. unfold arr_at, v_arr, values_in. cbn [v_arrs]. rewrite nth_error_map. now destruct (nth_error (h_arrs h) x). Qed.
Lemma contents_same h c : contents_value h c = v_contents (values_in h) c.
Proof. induction c as [|[s v] c IH]; [reflexivity|]. cbn [contents_value v_contents]. now rewrite operand_same, IH. Qed.

(* every statement is good *)
Section Step.
  Context (P : pool) (E : env) (h : heap) (F : families) (W : wf h) (Fm : fam h F).
  Local Ltac fail_case := apply good_fail.

  Lemma slice_ok o i j : bounded (h_mem h) (h_q o) -> obj_ok o ->
    let i := Nat.min i (List.length (h_c o)) in let n := (Nat.min j (List.length (h_c o)) - i)%nat in
    bounded (h_mem h) (hrows (h_q o) i n) /\ obj_ok {| h_c := firstn n (skipn i (h_c o)); h_q := hrows (h_q o) i n |}.
  Proof.
    intros B [O1 O2] i' n. assert (L : (i' + n <= List.length (h_c o))%nat) by (unfold n, i'; lia).
    split; [now apply (rows_bounded _ _ _ _ _ _ O1)|]. unfold obj_ok, hshape. cbn [h_q h_c hrows h_sh tl]. split; [|exact O2].
    f_equal. rewrite firstn_length, skipn_length. lia.
  Qed.

  Lemma step_good st : regular (values_in h) st -> good F (fam_step E F st) (target F st) h (h_step P E h st).
  Proof.
    intro Rg. destruct W as [W1 W2].
    assert (WO : forall a (k : hobj -> heap * res unit) F' t,
       (forall o, nth_error (h_objs h) a = Some o -> bounded (h_mem h) (h_q o) -> obj_ok o -> good F F' t h (k o)) -> good F F' t h (with_obj h a k)).
    { intros a k F' t H. unfold with_obj, obj. destruct (nth_error (h_objs h) a) as [o|] eqn:Q; [|apply good_fail].
      destruct (W1 a o Q). now apply H. }
    assert (WV : forall A (v : res A) (k : A -> heap * res unit) F' t, (forall x, v = Ok x -> good F F' t h (k x)) -> good F F' t h (with_val h v k)).
    { intros A v k F' t H. unfold with_val. destruct v; [now apply H|apply good_fail]. }
    assert (FF : forall a k o v, factor_ok (values_in h) a k -> nth_error (h_objs h) a = Some o -> operand_value h k = Ok v -> factor_fits o v).
    { intros a k o v Hf Ho Hv. apply (Hf (mix_of (h_mem h) o) v); [now apply v_mix_in|now rewrite <- operand_same]. }
    destruct st; cbn [h_step fam_step target regular] in *.
    - (* New *) apply WV; intros x Hx; cbn beta. destruct (contents_value h contents) as [cv|]; [|discriminate]. cbn [bind] in Hx. apply new_mix_ok in Hx. destruct Hx as [N1 N2].
      destruct (alloc (h_mem h) (x_q x)) as [m' q] eqn:A. destruct (alloc_facts _ _ _ _ A) as (Q & B & L & Sq & _).
      apply new_obj_good; auto; cbn [h_q]; [|lia]. split; unfold hshape; cbn [h_q h_c]; rewrite Sq; assumption.
    - (* Copy *) apply WO; intros o Ho B O; cbn beta. destruct (h_copy (h_mem h) o) as [m1 c] eqn:C. destruct (copy_facts _ _ B O _ _ C) as (Q & Bc & Oc & Lc & _).
      apply new_obj_good; auto. lia.
    - (* Neg *) apply WO; intros o Ho B O; cbn beta. destruct (h_neg (h_mem h) o) as [m1 c] eqn:C. destruct (neg_facts _ _ B O _ _ C) as (Q & Bc & Oc & Lc & _).
      apply new_obj_good; auto. lia.
    - (* Add *) apply WO; intros o Ho B O; cbn beta. apply WO; intros p Hp Bp Op; cbn beta.
      destruct (h_copy (h_mem h) o) as [m1 c] eqn:C. destruct (copy_facts _ _ B O _ _ C) as (Q & Bc & Oc & Lc & _).
      apply (new_from_good h F W Fm m1 c); [exact Q|lia|]. now apply iadd_sound.
    - (* Sub *) apply WO; intros o Ho B O; cbn beta. apply WO; intros p Hp Bp Op; cbn beta.
      destruct (h_neg (h_mem h) p) as [m1 c] eqn:C. destruct (neg_facts _ _ Bp Op _ _ C) as (Q & Bc & Oc & Lc & _).
      apply (new_from_good h F W Fm m1 c); [exact Q|lia|]. now apply iadd_sound.
    - (* Mul *) apply WO; intros o Ho B O; cbn beta. apply WV; intros v Hv; cbn beta.
      destruct (h_copy (h_mem h) o) as [m1 c] eqn:C. destruct (copy_facts _ _ B O _ _ C) as (Q & Bc & Oc & Lc & Sc & _).
      apply (new_from_good h F W Fm m1 c); [exact Q|lia|]. apply imul_sound; auto. unfold factor_fits. rewrite Sc. now apply (FF a k o v).
    - (* Div *) apply WO; intros o Ho B O; cbn beta. apply WV; intros v Hv; cbn beta.
      destruct (h_copy (h_mem h) o) as [m1 c] eqn:C. destruct (copy_facts _ _ B O _ _ C) as (Q & Bc & Oc & Lc & Sc & _).
      apply (new_from_good h F W Fm m1 c); [exact Q|lia|]. apply idiv_sound; auto. unfold factor_fits. rewrite Sc. now apply (FF a k o v).
    - (* Iadd *) apply WO; intros o Ho B O; cbn beta. apply WO; intros p Hp Bp Op; cbn beta. apply (put_good h F W Fm a o); auto. now apply iadd_sound.
    - (* Isub *) apply WO; intros o Ho B O; cbn beta. apply WO; intros p Hp Bp Op; cbn beta.
      destruct (h_neg (h_mem h) p) as [m1 c] eqn:C. destruct (neg_facts _ _ Bp Op _ _ C) as (Q & Bc & Oc & Lc & _).
      apply (put_good h F W Fm a o); auto. apply (sound_quiet _ m1); [exact Q|]. apply iadd_sound; auto. now apply (quiet_bounded (h_mem h)).
    - (* Imul *) apply WO; intros o Ho B O; cbn beta. apply WV; intros v Hv; cbn beta. apply (put_good h F W Fm a o); auto. apply imul_sound; auto. now apply (FF a k o v).
    - (* Idiv *) apply WO; intros o Ho B O; cbn beta. apply WV; intros v Hv; cbn beta. apply (put_good h F W Fm a o); auto. apply idiv_sound; auto. now apply (FF a k o v).
    - (* Set *) apply WO; intros o Ho B O; cbn beta. apply WV; intros v' Hv; cbn beta. apply (put_good h F W Fm a o); auto. now apply setitem_sound.
    - (* Insert *) apply WO; intros o Ho B O; cbn beta. apply WV; intros v' Hv; cbn beta. apply WV; intros x Hx; cbn beta.
      apply insert_ok in Hx; [|apply O]. destruct Hx as [N1 N2]. pose proof (alloc_sound (h_mem h) o (x_q x) (x_c x) N1 N2) as S.
      destruct (alloc (h_mem h) (x_q x)) as [m' q]. now apply (put_good h F W Fm a o).
    - (* Remove *) apply WO; intros o Ho B O; cbn beta. apply WV; intros x Hx; cbn beta.
      apply remove_ok in Hx; [|apply O|apply O]. destruct Hx as [N1 N2]. pose proof (alloc_sound (h_mem h) o (x_q x) (x_c x) N1 N2) as S.
      destruct (alloc (h_mem h) (x_q x)) as [m' q]. now apply (put_good h F W Fm a o).
    - (* Reshape *) apply WO; intros o Ho B O; cbn beta. destruct (Nat.eqb_spec (count (hd 0%nat (h_sh (h_q o)) :: t)) (count (h_sh (h_q o)))) as [Q|]; [|apply good_fail].
      apply (put_good h F W Fm a o); auto. split; [apply frame_refl|]. split; [split; [apply B|cbn [h_q h_off h_sh h_buf]; rewrite Q; apply B]|].
      split; [now left|]. intros _. destruct O as [O1 O2]. split; unfold hshape; cbn [h_q h_c h_sh tl]; [|exact Rg]. rewrite O1. reflexivity.
    - (* Slice *) apply WO; intros o Ho B O; cbn beta. destruct (slice_ok o i j B O) as [B' O'].
      apply (share_obj_good h F W Fm a o); auto.
    - (* Get *) apply WO; intros o Ho B O; cbn beta. destruct (index_of (full_sid s) (h_c o)) as [k|] eqn:K; [|apply good_fail].
      apply index_of_some in K. destruct K as [Lk _]. apply WV; intros u Hu; cbn beta.
      destruct (m_mw (gas_of P (nth k (h_c o) "")) E); [|discriminate]. cbn [bind] in Hu. unfold shares_memory. rewrite Hu.
      destruct (String.eqb "kmol" u).
      + apply (share_arr_good h F W Fm a o); auto. destruct O as [O1 O2]. now apply (row_bounded _ _ _ _ _ O1).
      + apply WV; intros v Hv; cbn beta. destruct (alloc (h_mem h) v) as [m' x] eqn:A. destruct (alloc_facts _ _ _ _ A) as (Q & B' & L & _). apply new_arr_good; auto. lia.
    - (* Item *) apply WO; intros o Ho B O; cbn beta. destruct (Nat.ltb_spec k (List.length (h_c o))) as [Lk|]; [|apply good_fail].
      apply (share_arr_good h F W Fm a o); auto. destruct O as [O1 O2]. now apply (row_bounded _ _ _ _ _ O1).
    - (* Array *) destruct (alloc (h_mem h) v) as [m' x] eqn:A. destruct (alloc_facts _ _ _ _ A) as (Q & B' & L & _). apply new_arr_good; auto. lia.
    - (* Amul *) apply WV. intros a Ha. unfold arr_at in Ha. destruct (nth_error (h_arrs h) x) as [a'|] eqn:Hx; [|discriminate]. apply ok_inj in Ha. subst a'.
      pose proof (W2 x a Hx) as B. set (v := {| nsh := h_sh a; nel := _ |}). destruct (fam_arr h F x a Fm Hx) as (fa & Hfa & Ma). rewrite Hfa.
      pose proof (write_frame (h_mem h) a v B) as Fr. split; cbn [fst snd].
      + destruct Fm as (L1 & L2 & L3 & L4). split; cbn [h_objs h_arrs h_mem].
        * intros i o g Hi Hg N. split; [exact Hi|]. unfold mix_of. f_equal. apply (frame_read (h_buf a) (h_mem h)); [exact Fr|now apply (W1 i)|].
          intro Qb. apply N. f_equal. symmetry. apply (L4 (h_q o) g a fa); auto. left. now exists i, o.
        * intros y b g Hy Hg N. split; [exact Hy|]. apply (frame_read (h_buf a) (h_mem h)); [exact Fr|now apply (W2 y)|].
          intro Qb. apply N. f_equal. symmetry. apply (L4 b g a fa); auto. right. now exists y.
      + intros _. split; [|exact Fm]. split; cbn [h_objs h_arrs h_mem].
        * intros i o Hi. destruct (W1 i o Hi) as [B1 O1]. split; [now apply (frame_bounded _ _ _ _ Fr)|exact O1].
        * intros y b Hy. apply (frame_bounded _ _ _ _ Fr). now apply (W2 y).
  Qed.
End Step.

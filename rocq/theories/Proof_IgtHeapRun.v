(* Proofs about sessions with mixtures in memory: the theorems (C93). *)
From Coq Require Import Reals ZArith List String Bool Lia Lra.
From Verif Require Import Base Model_Num Model_Units Model_Igas Model_Igtools Model_Igtprop Model_Igtmix Model_Igtview Model_IgtHeap
  Spec_Units Spec_Igtools Spec_Igtprop Spec_Igtmix Spec_Igtview Spec_IgtHeap
  Proof_Units Proof_Igtshape Proof_Igtools Proof_Igtmix Proof_Igtview Proof_IgtHeapMem Proof_IgtHeapOps Proof_IgtHeap.
Import ListNotations.
Local Open Scope R_scope.
Local Open Scope string_scope.
Local Open Scope list_scope.

Lemma list_ext {A} : forall l l' : list A, (forall i, nth_error l i = nth_error l' i) -> l = l'.
Proof.
  induction l as [|x l IH]; intros [|y l'] H; [reflexivity|specialize (H 0%nat); discriminate|specialize (H 0%nat); discriminate|].
  pose proof (H 0%nat) as H0. cbn in H0. injection H0 as ->. f_equal. apply IH. intro i. apply (H (S i)).
Qed.

(* ---- nothing of other families changes ---- *)
Lemma fam_grows E F st : (exists r, f_mixs (fam_step E F st) = f_mixs F ++ r) /\ (exists r, f_arrs (fam_step E F st) = f_arrs F ++ r).
Proof.
  destruct st; cbn [fam_step]; try (split; exists []; now rewrite app_nil_r);
    try (split; [eexists; reflexivity|exists []; now rewrite app_nil_r]);
    try (split; [exists []; now rewrite app_nil_r|eexists; reflexivity]).
  destruct (shares_memory E (Get a s)); (split; [exists []; now rewrite app_nil_r|eexists; reflexivity]).
Qed.
Lemma fam_mix_old E F st i f : nth_error (f_mixs F) i = Some f -> nth_error (f_mixs (fam_step E F st)) i = Some f.
Proof. intro H. destruct (fam_grows E F st) as [[r ->] _]. now apply nth_error_app_old. Qed.
Lemma fam_arr_old E F st i f : nth_error (f_arrs F) i = Some f -> nth_error (f_arrs (fam_step E F st)) i = Some f.
Proof. intro H. destruct (fam_grows E F st) as [_ [r ->]]. now apply nth_error_app_old. Qed.

Lemma run_kept P E f : forall l h F, wf h -> fam h F -> regular_session P E h l -> leaves E F f l ->
  (forall i o, nth_error (h_objs h) i = Some o -> nth_error (f_mixs F) i = Some f ->
     nth_error (h_objs (fst (h_run P E h l))) i = Some o /\ mix_of (h_mem (fst (h_run P E h l))) o = mix_of (h_mem h) o) /\
  (forall x a, nth_error (h_arrs h) x = Some a -> nth_error (f_arrs F) x = Some f ->
     nth_error (h_arrs (fst (h_run P E h l))) x = Some a /\ read (h_mem (fst (h_run P E h l))) a = read (h_mem h) a).
Proof.
  induction l as [|st l IH]; intros h F W Fm R Lv; cbn [h_run]; [split; auto|].
  cbn [regular_session leaves] in R, Lv. destruct R as [R1 R2]. destruct Lv as [T Lv].
  destruct (step_good P E h F W Fm st R1) as [[K1 K2] G].
  destruct (h_step P E h st) as [h' [[]|e]]; cbn [fst snd] in *.
  - destruct (G eq_refl) as [W' F']. destruct (IH h' (fam_step E F st) W' F' R2 Lv) as [I1 I2]. split.
    + intros i o Hi Hf. destruct (K1 i o f Hi Hf T) as [A1 A2]. destruct (I1 i o A1 (fam_mix_old _ _ _ _ _ Hf)) as [B1 B2]. split; [exact B1|congruence].
    + intros x a Hx Hf. destruct (K2 x a f Hx Hf T) as [A1 A2]. destruct (I2 x a A1 (fam_arr_old _ _ _ _ _ Hf)) as [B1 B2]. split; [exact B1|congruence].
  - split; [intros i o Hi Hf; now apply (K1 i o f)|intros x a Hx Hf; now apply (K2 x a f)].
Qed.
Lemma run_wf P E : forall l h F, wf h -> fam h F -> regular_session P E h l -> forall h', h_run P E h l = (h', Ok tt) ->
  wf h' /\ fam h' (fam_run E F l).
Proof.
  induction l as [|st l IH]; intros h F W Fm R h' H; cbn [h_run] in H; [injection H as <-; now split|].
  cbn [regular_session] in R. destruct R as [R1 R2]. destruct (step_good P E h F W Fm st R1) as [_ G].
  destruct (h_step P E h st) as [h1 [[]|e]]; cbn [fst snd] in *; [|discriminate].
  destruct (G eq_refl) as [W' F']. exact (IH h1 _ W' F' R2 h' H).
Qed.
Lemma regular_app P E : forall l1 l2 h, regular_session P E h (l1 ++ l2) -> regular_session P E h l1 /\
  forall h1, h_run P E h l1 = (h1, Ok tt) -> regular_session P E h1 l2.
Proof.
  induction l1 as [|st l1 IH]; intros l2 h R; cbn [app regular_session h_run] in *; [split; [exact I|]; intros h1 H; now injection H as <-|].
  destruct R as [R1 R2]. destruct (h_step P E h st) as [h' [[]|e]]; [|split; [now split|discriminate]].
  destruct (IH l2 h' R2) as [I1 I2]. now split.
Qed.
Lemma empty_wf : wf empty_heap /\ fam empty_heap no_families.
Proof.
  split; [split; intros i o H; now destruct i|]. split; [reflexivity|]. split; [reflexivity|].
  split; [intros a f [(i & o & H & _)|(x & H & _)]|intros a f a' f' [(i & o & H & _)|(x & H & _)]]; cbn in H; now destruct i || now destruct x.
Qed.
Lemma empty_start : wf empty_heap. Proof. apply empty_wf. Qed.
Lemma untouched P E l1 l2 h1 h2 r : regular_session P E empty_heap (l1 ++ l2) ->
  h_run P E empty_heap l1 = (h1, Ok tt) -> h_run P E h1 l2 = (h2, r) ->
  (forall i m f, v_mix (values_in h1) i = Ok m -> nth_error (f_mixs (fam_run E no_families l1)) i = Some f ->
     leaves E (fam_run E no_families l1) f l2 -> v_mix (values_in h2) i = Ok m) /\
  (forall x v f, v_arr (values_in h1) x = Ok v -> nth_error (f_arrs (fam_run E no_families l1)) x = Some f ->
     leaves E (fam_run E no_families l1) f l2 -> v_arr (values_in h2) x = Ok v).
Proof.
  intros R H1 H2. destruct (regular_app P E l1 l2 _ R) as [R1 R2]. specialize (R2 h1 H1). destruct empty_wf as [W0 F0].
  destruct (run_wf P E l1 _ _ W0 F0 R1 h1 H1) as [W1 F1]. split.
  - intros i m f Hm Hf Lv. destruct (run_kept P E f l2 h1 _ W1 F1 R2 Lv) as [K _]. rewrite H2 in K. cbn [fst] in K.
    unfold v_mix, values_in in *. cbn [v_mixs] in *. rewrite nth_error_map in *. destruct (nth_error (h_objs h1) i) as [o|] eqn:Ho; [|discriminate].
    destruct (K i o Ho Hf) as [K1 K2]. rewrite K1. cbn in *. apply ok_inj in Hm. congruence.
  - intros i m f Hm Hf Lv. destruct (run_kept P E f l2 h1 _ W1 F1 R2 Lv) as [_ K]. rewrite H2 in K. cbn [fst] in K.
    unfold v_arr, values_in in *. cbn [v_arrs] in *. rewrite nth_error_map in *. destruct (nth_error (h_arrs h1) i) as [o|] eqn:Ho; [|discriminate].
    destruct (K i o Ho Hf) as [K1 K2]. rewrite K1. cbn in *. apply ok_inj in Hm. congruence.
Qed.

(* ---- sessions without sharing ---- *)
Definition distinct (F : families) : Prop := NoDup (f_mixs F ++ f_arrs F).
Lemma distinct_mix F i j f : distinct F -> nth_error (f_mixs F) i = Some f -> nth_error (f_mixs F) j = Some f -> i = j.
Proof.
  intros D Hi Hj. unfold distinct in D. rewrite NoDup_nth_error in D. apply D.
  - rewrite app_length. apply Nat.lt_lt_add_r. apply nth_error_Some. congruence.
  - rewrite (nth_error_app_old _ _ _ _ Hi). symmetry. now apply nth_error_app_old.
Qed.
Lemma nth_error_app_r {A} (l r : list A) i : nth_error (l ++ r) (List.length l + i) = nth_error r i.
Proof. rewrite nth_error_app2 by lia. f_equal. lia. Qed.
Lemma distinct_arr F i j f : distinct F -> nth_error (f_arrs F) i = Some f -> nth_error (f_arrs F) j = Some f -> i = j.
Proof.
  intros D Hi Hj. unfold distinct in D. rewrite NoDup_nth_error in D.
  assert (List.length (f_mixs F) + i = List.length (f_mixs F) + j)%nat; [|lia]. apply D.
  - rewrite app_length. apply Nat.add_lt_mono_l. apply nth_error_Some. congruence.
  - rewrite !nth_error_app_r. congruence.
Qed.
Lemma distinct_both F i x f : distinct F -> nth_error (f_mixs F) i = Some f -> nth_error (f_arrs F) x = Some f -> False.
Proof.
  intros D Hi Hx. unfold distinct in D. rewrite NoDup_nth_error in D.
  assert (i < List.length (f_mixs F))%nat by (apply nth_error_Some; congruence).
  assert (i = List.length (f_mixs F) + x)%nat; [|lia]. apply D.
  - rewrite app_length. lia.
  - rewrite nth_error_app_r, Hx. now apply nth_error_app_old.
Qed.
Lemma fam_bound h F : fam h F -> forall f, In f (f_mixs F ++ f_arrs F) -> (f < f_next F)%nat.
Proof.
  intros (L1 & L2 & L3 & _) f H. apply in_app_or in H. destruct H as [H|H]; apply In_nth_error in H; destruct H as [i Hi].
  - destruct (nth_error (h_objs h) i) as [o|] eqn:Ho; [|apply nth_error_None in Ho; assert (i < List.length (f_mixs F))%nat by (apply nth_error_Some; congruence); lia].
    apply (L3 (h_q o)). left. now exists i, o.
  - destruct (nth_error (h_arrs h) i) as [o|] eqn:Ho; [|apply nth_error_None in Ho; assert (i < List.length (f_arrs F))%nat by (apply nth_error_Some; congruence); lia].
    apply (L3 o). right. now exists i.
Qed.
Lemma distinct_step E h F st : fam h F -> distinct F -> shares_memory E st = false -> distinct (fam_step E F st).
Proof.
  intros Fm D S. pose proof (fam_bound h F Fm) as B.
  assert (N : ~ In (f_next F) (f_mixs F ++ f_arrs F)) by (intro H; specialize (B _ H); lia).
  assert (D1 : distinct (fam_new_mix F)).
  { unfold distinct, fam_new_mix. cbn [f_mixs f_arrs]. rewrite <- app_assoc. cbn [app]. apply NoDup_Add with (a := f_next F) (l := f_mixs F ++ f_arrs F); [apply Add_app|]. now split. }
  assert (D2 : distinct (fam_new_arr F)).
  { unfold distinct, fam_new_arr. cbn [f_mixs f_arrs]. rewrite app_assoc. apply NoDup_Add with (a := f_next F) (l := f_mixs F ++ f_arrs F); [|now split].
    rewrite <- (app_nil_r (f_mixs F ++ f_arrs F)) at 1. apply Add_app. }
  destruct st; cbn [fam_step]; auto; try discriminate. now rewrite S.
Qed.

(* the values after a change of one mixture, or a new one *)
Lemma set_values h F h' a o o' : fam h F -> distinct F -> kept F (nth_error (f_mixs F) a) h h' ->
  nth_error (h_objs h) a = Some o -> List.length (h_objs h') = List.length (h_objs h) -> List.length (h_arrs h') = List.length (h_arrs h) ->
  nth_error (h_objs h') a = Some o' ->
  values_in h' = {| v_mixs := set_nth a (mix_of (h_mem h') o') (v_mixs (values_in h)); v_arrs := v_arrs (values_in h) |}.
Proof.
  intros Fm D [K1 K2] Ho L1 L2 Ho'. unfold values_in. cbn [v_mixs v_arrs]. destruct (fam_entry h F a o Fm Ho) as (fa & Hfa & _). rewrite Hfa in *.
  assert (La : (a < List.length (h_objs h))%nat) by (apply nth_error_Some; congruence). f_equal; apply list_ext; intro i.
  - rewrite nth_error_map. destruct (Nat.eq_dec i a) as [->|N].
    + rewrite set_nth_error_same by (now rewrite map_length). now rewrite Ho'.
    + rewrite set_nth_error_other by auto. rewrite nth_error_map. destruct (nth_error (h_objs h) i) as [oi|] eqn:Hi.
      * destruct (fam_entry h F i oi Fm Hi) as (fi & Hfi & _). destruct (K1 i oi fi Hi Hfi) as [A1 A2]; [intro Q; injection Q as ->; apply N; now apply (distinct_mix F i a fi)|].
        rewrite A1. cbn. now rewrite A2.
      * apply nth_error_None in Hi. rewrite <- L1 in Hi. apply nth_error_None in Hi. now rewrite Hi.
  - rewrite !nth_error_map. destruct (nth_error (h_arrs h) i) as [oi|] eqn:Hi.
    + destruct (fam_arr h F i oi Fm Hi) as (fi & Hfi & _). destruct (K2 i oi fi Hi Hfi) as [A1 A2]; [intro Q; injection Q as ->; now apply (distinct_both F a i fi)|].
      rewrite A1. cbn. now rewrite A2.
    + apply nth_error_None in Hi. rewrite <- L2 in Hi. apply nth_error_None in Hi. now rewrite Hi.
Qed.
Lemma set_arr_values h F h' x a : fam h F -> distinct F -> kept F (nth_error (f_arrs F) x) h h' ->
  nth_error (h_arrs h) x = Some a -> h_objs h' = h_objs h -> h_arrs h' = h_arrs h ->
  values_in h' = {| v_mixs := v_mixs (values_in h); v_arrs := set_nth x (read (h_mem h') a) (v_arrs (values_in h)) |}.
Proof.
  intros Fm D [K1 K2] Ha E1 E2. unfold values_in. cbn [v_mixs v_arrs]. destruct (fam_arr h F x a Fm Ha) as (fa & Hfa & _). rewrite Hfa in *.
  assert (La : (x < List.length (h_arrs h))%nat) by (apply nth_error_Some; congruence). rewrite E1, E2. f_equal; apply list_ext; intro i.
  - rewrite !nth_error_map. destruct (nth_error (h_objs h) i) as [oi|] eqn:Hi; [|reflexivity].
    destruct (fam_entry h F i oi Fm Hi) as (fi & Hfi & _). destruct (K1 i oi fi Hi Hfi) as [A1 A2]; [intro Q; injection Q as ->; now apply (distinct_both F i x fi)|].
    cbn. now rewrite A2.
  - rewrite nth_error_map. destruct (Nat.eq_dec i x) as [->|N].
    + rewrite set_nth_error_same by (now rewrite map_length). now rewrite Ha.
    + rewrite set_nth_error_other by auto. rewrite nth_error_map. destruct (nth_error (h_arrs h) i) as [oi|] eqn:Hi; [|reflexivity].
      destruct (fam_arr h F i oi Fm Hi) as (fi & Hfi & _). destruct (K2 i oi fi Hi Hfi) as [A1 A2]; [intro Q; injection Q as ->; apply N; now apply (distinct_arr F i x fi)|].
      cbn. now rewrite A2.
Qed.
Lemma append_values h m objs arrs : wf h -> quiet (h_mem h) m ->
  values_in {| h_mem := m; h_objs := h_objs h ++ objs; h_arrs := h_arrs h ++ arrs |} =
  {| v_mixs := v_mixs (values_in h) ++ map (mix_of m) objs; v_arrs := v_arrs (values_in h) ++ map (read m) arrs |}.
Proof.
  intros [W1 W2] Q. unfold values_in. cbn [h_objs h_arrs h_mem v_mixs v_arrs]. rewrite !map_app. f_equal; f_equal; apply map_ext_in; intros o Ho; apply In_nth_error in Ho; destruct Ho as [i Hi].
  - unfold mix_of. f_equal. apply (quiet_read (h_mem h)); [exact Q|now apply (W1 i)].
  - apply (quiet_read (h_mem h)); [exact Q|now apply (W2 i)].
Qed.
Lemma new_obj_values h m o : wf h -> quiet (h_mem h) m ->
  values_in (fst (new_obj h m o)) = {| v_mixs := v_mixs (values_in h) ++ [mix_of m o]; v_arrs := v_arrs (values_in h) |}.
Proof. intros W Q. pose proof (append_values h m [o] [] W Q) as A. cbn [map] in A. rewrite !app_nil_r in A. exact A. Qed.
Lemma new_arr_values h m a : wf h -> quiet (h_mem h) m ->
  values_in (fst (new_arr h m a)) = {| v_mixs := v_mixs (values_in h); v_arrs := v_arrs (values_in h) ++ [read m a] |}.
Proof. intros W Q. pose proof (append_values h m [] [a] W Q) as A. cbn [map] in A. rewrite !app_nil_r in A. exact A. Qed.
Lemma same_values h m : wf h -> quiet (h_mem h) m -> values_in {| h_mem := m; h_objs := h_objs h; h_arrs := h_arrs h |} = values_in h.
Proof. intros W Q. pose proof (append_values h m [] [] W Q) as A. cbn [map] in A. rewrite !app_nil_r in A. exact A. Qed.

Definition agrees (V : values * res unit) (x : heap * res unit) : Prop := V = (values_in (fst x), snd x).
Lemma agrees_fail h e : agrees (values_in h, Err e) (h, Err e). Proof. reflexivity. Qed.
Lemma put_agrees h F a o x m' o' r A : wf h -> fam h F -> distinct F -> nth_error (h_objs h) a = Some o -> x = (m', o', r) -> sound (h_mem h) o x ->
  mix_of m' o' = mix_table A -> agrees ({| v_mixs := set_nth a (mix_table A) (v_mixs (values_in h)); v_arrs := v_arrs (values_in h) |}, r) (put_obj h a x).
Proof.
  intros W Fm D Ho -> S Hm. destruct (put_good h F W Fm a o _ Ho S) as [K _]. unfold agrees, put_obj in *. cbn [fst snd] in *. f_equal.
  symmetry. rewrite <- Hm. assert (La : (a < List.length (h_objs h))%nat) by (apply nth_error_Some; congruence).
  apply (set_values h F {| h_mem := m'; h_objs := set_nth a o' (h_objs h); h_arrs := h_arrs h |} a o o'); auto; cbn [h_objs h_arrs].
  - apply set_nth_length.
  - now apply set_nth_error_same.
Qed.
Lemma new_from_agrees h m1 c x m' o' r A : wf h -> quiet (h_mem h) m1 -> (List.length (h_mem h) <= h_buf (h_q c))%nat -> x = (m', o', r) -> sound m1 c x ->
  (r = Ok tt -> mix_of m' o' = mix_table A) ->
  agrees (match r with Ok _ => ({| v_mixs := v_mixs (values_in h) ++ [mix_table A]; v_arrs := v_arrs (values_in h) |}, Ok tt) | Err e => (values_in h, Err e) end) (new_from h x).
Proof.
  intros W Q L -> S Hm. destruct S as (Fr & B & Loc & O). assert (Q2 : quiet (h_mem h) m') by (apply (quiet_fresh (h_buf (h_q c)) _ m1); auto).
  unfold new_from, agrees. destruct r as [[]|e]; cbn [snd].
  - rewrite (new_obj_values h m' o' W Q2), (Hm eq_refl). reflexivity.
  - cbn [fst snd]. now rewrite (same_values h m' W Q2).
Qed.
Lemma set_same_values h a o : nth_error (h_objs h) a = Some o -> bounded (h_mem h) (h_q o) ->
  {| v_mixs := set_nth a (mix_table (mix_of (h_mem h) o)) (v_mixs (values_in h)); v_arrs := v_arrs (values_in h) |} = values_in h.
Proof.
  intros Ho B. rewrite <- keep_table by exact B. unfold values_in at 3. cbn [v_mixs v_arrs]. f_equal.
  apply set_nth_self. now rewrite nth_error_map, Ho.
Qed.
Lemma imul_value_like m a b A : bounded m (h_q a) -> like m a A -> A = mix_of m a ->
  obj_ok a -> let '(m', o', r) := h_imul m a b in mix_of m' o' = mix_table (or_keep A (imul A b)) /\ r = unit_of (imul A b).
Proof. intros B L -> O. now apply imul_value. Qed.

Ltac look NO YO a := let o := fresh "o" in let Ho := fresh "Ho" in let V := fresh "V" in let O := fresh "O" in let B := fresh "B" in let K := fresh "K" in
  match goal with |- context [obj ?h a] => destruct (nth_error (h_objs h) a) as [o|] eqn:Ho end;
  [destruct (YO a o Ho) as (V & O & B & K); unfold with_obj; rewrite V, O; cbn [bind]
  |destruct (NO a Ho) as [V O]; unfold with_obj; rewrite V, O; apply agrees_fail].

Section Step.
  Context (P : pool) (E : env) (h : heap) (F : families) (W : wf h) (Fm : fam h F) (D : distinct F).

  Lemma step_agrees st : regular (values_in h) st -> shares_memory E st = false -> agrees (v_step P E (values_in h) st) (h_step P E h st).
  Proof.
    intros Rg Sh. pose proof W as W'. destruct W as [W1 W2].
    assert (NO : forall a, nth_error (h_objs h) a = None -> v_mix (values_in h) a = Err ENameError /\ obj h a = Err ENameError).
    { intros a H. unfold v_mix, obj, values_in. cbn [v_mixs]. now rewrite nth_error_map, H. }
    assert (YO : forall a o, nth_error (h_objs h) a = Some o -> v_mix (values_in h) a = Ok (mix_of (h_mem h) o) /\ obj h a = Ok o /\ bounded (h_mem h) (h_q o) /\ obj_ok o).
    { intros a o H. destruct (W1 a o H). split; [now apply v_mix_in|]. split; [unfold obj; now rewrite H|]. now split. }
    assert (FF : forall a k o v, factor_ok (values_in h) a k -> nth_error (h_objs h) a = Some o -> v_operand (values_in h) k = Ok v -> factor_fits o v).
    { intros a k o v Hf Ho Hv. apply (Hf (mix_of (h_mem h) o) v); [now apply v_mix_in|exact Hv]. }
    destruct st; cbn [h_step]; unfold v_step; unfold with_obj; cbn [effect_of regular] in *; try discriminate.
    - (* New *) rewrite contents_same. destruct (v_contents (values_in h) contents) as [cv|e]; cbn [bind]; [|apply agrees_fail].
      cbn [apply_effect]. unfold with_val, result_of. destruct (new_mix P E units cv) as [x|e]; [|apply agrees_fail].
      destruct (alloc (h_mem h) (x_q x)) as [m' q] eqn:A. destruct (alloc_facts _ _ _ _ A) as (Q & B & L & Sq & Rq).
      unfold agrees. rewrite (new_obj_values h m' _ W' Q). cbn [new_obj snd]. unfold mix_of, mix_table. cbn [h_c h_q]. now rewrite Rq.
    - (* Copy *) look NO YO a. destruct (h_copy (h_mem h) o) as [m1 c] eqn:C. destruct (copy_facts _ _ B K _ _ C) as (Q & Bc & Oc & Lc & _ & Lk).
      unfold agrees. rewrite (new_obj_values h m1 _ W' Q), (like_table _ _ _ Bc Lk). reflexivity.
    - (* Neg *) look NO YO a. destruct (h_neg (h_mem h) o) as [m1 c] eqn:C. destruct (neg_facts _ _ B K _ _ C) as (Q & Bc & Oc & Lc & Lk).
      unfold agrees. rewrite (new_obj_values h m1 _ W' Q), (like_table _ _ _ Bc Lk). reflexivity.
    - (* Add *) look NO YO a. look NO YO b. cbn [apply_effect].
      destruct (h_copy (h_mem h) o) as [m1 c] eqn:C. destruct (copy_facts _ _ B K _ _ C) as (Q & Bc & Oc & Lc & _ & Lk).
      pose proof (iadd_sound m1 c o0 false Bc Oc) as S.
      assert (Bp : bounded m1 (h_q o0)) by (now apply (quiet_bounded (h_mem h))).
      assert (Ne : h_buf (h_q o0) <> h_buf (h_q c)) by (destruct B0; lia).
      assert (Lp : like m1 o0 (mix_of (h_mem h) o0)) by (split; [reflexivity|split; [reflexivity|]]; intros i Hi; now rewrite (quiet_read (h_mem h))).
      pose proof (iadd_value m1 c o0 false (mix_of (h_mem h) o) (mix_of (h_mem h) o0) Bc Oc Bp K0 (or_introl (conj Ne eq_refl)) Lk Lp) as Vl.
      destruct (h_iadd m1 c o0 false) as [[m' o'] r] eqn:H. destruct Vl as [Vm Vr].
      pose proof (new_from_agrees h m1 c _ m' o' r _ W' Q ltac:(lia) eq_refl S (fun _ => Vm)) as G.
      unfold add, returns. rewrite <- Vr. destruct r; exact G.
    - (* Sub *) look NO YO a. look NO YO b. cbn [apply_effect].
      destruct (h_neg (h_mem h) o0) as [m1 c] eqn:C. destruct (neg_facts _ _ B0 K0 _ _ C) as (Q & Bc & Oc & Lc & Lk).
      pose proof (iadd_sound m1 c o false Bc Oc) as S.
      assert (Bp : bounded m1 (h_q o)) by (now apply (quiet_bounded (h_mem h))).
      assert (Ne : h_buf (h_q o) <> h_buf (h_q c)) by (destruct B; lia).
      assert (Lp : like m1 o (mix_of (h_mem h) o)) by (split; [reflexivity|split; [reflexivity|]]; intros i Hi; now rewrite (quiet_read (h_mem h))).
      pose proof (iadd_value m1 c o false _ _ Bc Oc Bp K (or_introl (conj Ne eq_refl)) Lk Lp) as Vl.
      destruct (h_iadd m1 c o false) as [[m' o'] r] eqn:H. destruct Vl as [Vm Vr].
      pose proof (new_from_agrees h m1 c _ m' o' r _ W' Q ltac:(lia) eq_refl S (fun _ => Vm)) as G.
      unfold sub, returns. rewrite <- Vr. destruct r; exact G.
    - (* Mul *) look NO YO a. rewrite operand_same. destruct (v_operand (values_in h) k) as [v|e] eqn:Hv; cbn [bind with_val]; [|apply agrees_fail]. cbn [apply_effect].
      destruct (h_copy (h_mem h) o) as [m1 c] eqn:C. destruct (copy_facts _ _ B K _ _ C) as (Q & Bc & Oc & Lc & Sc & Lk).
      assert (Hf : factor_fits c v) by (unfold factor_fits; rewrite Sc; now apply (FF a k o v)).
      pose proof (imul_sound m1 c v Bc Oc Hf) as S. pose proof (imul_value m1 c v Bc Oc) as Vl.
      assert (Ec : mix_of m1 c = mix_of (h_mem h) o) by (rewrite (like_table _ _ _ Bc Lk); symmetry; now apply keep_table).
      destruct (h_imul m1 c v) as [[m' o'] r] eqn:H. destruct Vl as [Vm Vr]. rewrite Ec in Vm, Vr.
      pose proof (new_from_agrees h m1 c _ m' o' r _ W' Q ltac:(lia) eq_refl S (fun _ => Vm)) as G.
      unfold mul. destruct (imul (mix_of (h_mem h) o) v) as [x|e]; subst r; exact G.
    - (* Div *) look NO YO a. rewrite operand_same. destruct (v_operand (values_in h) k) as [v|e] eqn:Hv; cbn [bind with_val]; [|apply agrees_fail]. cbn [apply_effect].
      destruct (h_copy (h_mem h) o) as [m1 c] eqn:C. destruct (copy_facts _ _ B K _ _ C) as (Q & Bc & Oc & Lc & Sc & Lk).
      assert (Hf : factor_fits c v) by (unfold factor_fits; rewrite Sc; now apply (FF a k o v)).
      pose proof (idiv_sound m1 c v Bc Oc Hf) as S. pose proof (idiv_value m1 c v Bc Oc) as Vl.
      assert (Ec : mix_of m1 c = mix_of (h_mem h) o) by (rewrite (like_table _ _ _ Bc Lk); symmetry; now apply keep_table).
      destruct (h_idiv m1 c v) as [[m' o'] r] eqn:H. destruct Vl as [Vm Vr]. rewrite Ec in Vm, Vr.
      pose proof (new_from_agrees h m1 c _ m' o' r _ W' Q ltac:(lia) eq_refl S (fun _ => Vm)) as G.
      destruct (truediv (mix_of (h_mem h) o) v) as [x|e]; subst r; exact G.
    - (* Iadd *) look NO YO a. look NO YO b. cbn [apply_effect]. pose proof (iadd_sound (h_mem h) o o0 (Nat.eqb a b) B K) as S.
      assert (Sep : (h_buf (h_q o0) <> h_buf (h_q o) /\ Nat.eqb a b = false) \/ o0 = o).
      { destruct (Nat.eqb_spec a b) as [->|N]; [right; congruence|left]. split; [|reflexivity]. intro Q.
        destruct (fam_entry h F a o Fm Ho) as (fa & Hfa & Ma). destruct (fam_entry h F b o0 Fm Ho0) as (fb & Hfb & Mb).
        destruct Fm as (_ & _ & _ & L4). pose proof (L4 _ _ _ _ Mb Ma Q). subst fb. apply N. now apply (distinct_mix F a b fa). }
      pose proof (iadd_value (h_mem h) o o0 (Nat.eqb a b) _ _ B K B0 K0 Sep (like_refl _ _) (like_refl _ _)) as Vl.
      destruct (h_iadd (h_mem h) o o0 (Nat.eqb a b)) as [[m' o'] r] eqn:H. destruct Vl as [Vm Vr]. rewrite <- Vr.
      now apply (put_agrees h F a o _ m' o' r).
    - (* Isub *) look NO YO a. look NO YO b. cbn [apply_effect]. destruct (h_neg (h_mem h) o0) as [m1 c] eqn:C. destruct (neg_facts _ _ B0 K0 _ _ C) as (Q & Bc & Oc & Lc & Lk).
      assert (Bp : bounded m1 (h_q o)) by (now apply (quiet_bounded (h_mem h))). pose proof (iadd_sound m1 o c false Bp K) as S.
      assert (Ne : h_buf (h_q c) <> h_buf (h_q o)) by (destruct B; lia).
      assert (Lp : like m1 o (mix_of (h_mem h) o)) by (split; [reflexivity|split; [reflexivity|]]; intros i Hi; now rewrite (quiet_read (h_mem h))).
      pose proof (iadd_value m1 o c false _ _ Bp K Bc Oc (or_introl (conj Ne eq_refl)) Lp Lk) as Vl.
      apply (sound_quiet (h_mem h) m1 o _ Q) in S.
      destruct (h_iadd m1 o c false) as [[m' o'] r] eqn:H. destruct Vl as [Vm Vr]. unfold isub. rewrite <- Vr.
      now apply (put_agrees h F a o _ m' o' r).
    - (* Imul *) look NO YO a. rewrite operand_same. destruct (v_operand (values_in h) k) as [v|e] eqn:Hv; cbn [bind with_val]; [|apply agrees_fail].
      pose proof (imul_sound (h_mem h) o v B K (FF a k o v Rg Ho Hv)) as S. pose proof (imul_value (h_mem h) o v B K) as Vl.
      destruct (h_imul (h_mem h) o v) as [[m' o'] r] eqn:H. destruct Vl as [Vm Vr].
      pose proof (put_agrees h F a o _ m' o' r _ W' Fm D Ho eq_refl S Vm) as G.
      destruct (imul (mix_of (h_mem h) o) v) as [x|e]; subst r; cbn [or_same apply_effect or_keep] in *; exact G.
    - (* Idiv *) look NO YO a. rewrite operand_same. destruct (v_operand (values_in h) k) as [v|e] eqn:Hv; cbn [bind with_val]; [|apply agrees_fail].
      pose proof (idiv_sound (h_mem h) o v B K (FF a k o v Rg Ho Hv)) as S. pose proof (idiv_value (h_mem h) o v B K) as Vl.
      destruct (h_idiv (h_mem h) o v) as [[m' o'] r] eqn:H. destruct Vl as [Vm Vr].
      pose proof (put_agrees h F a o _ m' o' r _ W' Fm D Ho eq_refl S Vm) as G.
      destruct (truediv (mix_of (h_mem h) o) v) as [x|e]; subst r; cbn [or_same apply_effect or_keep] in *; exact G.
    - (* Set *) look NO YO a. rewrite operand_same. destruct (v_operand (values_in h) v) as [w|e] eqn:Hv; cbn [bind with_val]; [|apply agrees_fail]. cbn [apply_effect].
      pose proof (setitem_sound P E (h_mem h) o s w B K) as S. pose proof (setitem_value P E (h_mem h) o s w B K) as Vl.
      destruct (h_setitem P E (h_mem h) o s w) as [[m' o'] r] eqn:H. destruct Vl as [Vm Vr]. rewrite <- Vr.
      now apply (put_agrees h F a o _ m' o' r).
    - (* Insert *) look NO YO a. rewrite operand_same. destruct (v_operand (values_in h) v) as [w|e] eqn:Hv; cbn [bind with_val]; [|apply agrees_fail].
      destruct (insert P E (mix_of (h_mem h) o) s w units) as [x|e] eqn:I; cbn [or_same apply_effect with_val].
      + apply insert_ok in I; [|apply K]. destruct I as [N1 N2]. pose proof (alloc_sound (h_mem h) o (x_q x) (x_c x) N1 N2) as S.
        destruct (alloc (h_mem h) (x_q x)) as [m' q] eqn:A. destruct (alloc_facts _ _ _ _ A) as (_ & _ & _ & _ & Rq).
        apply (put_agrees h F a o _ m' {| h_c := x_c x; h_q := q |}); auto. unfold mix_of, mix_table. cbn [h_c h_q]. now rewrite Rq.
      + unfold agrees. cbn [fst snd]. now rewrite set_same_values.
    - (* Remove *) look NO YO a. destruct (remove (mix_of (h_mem h) o) s) as [x|e] eqn:I; cbn [or_same apply_effect with_val].
      + apply remove_ok in I; [|apply K|apply K]. destruct I as [N1 N2]. pose proof (alloc_sound (h_mem h) o (x_q x) (x_c x) N1 N2) as S.
        destruct (alloc (h_mem h) (x_q x)) as [m' q] eqn:A. destruct (alloc_facts _ _ _ _ A) as (_ & _ & _ & _ & Rq).
        apply (put_agrees h F a o _ m' {| h_c := x_c x; h_q := q |}); auto. unfold mix_of, mix_table. cbn [h_c h_q]. now rewrite Rq.
      + unfold agrees. cbn [fst snd]. now rewrite set_same_values.
    - (* Reshape *) look NO YO a. unfold reshape, np_reshape. cbn [mix_of x_q read of_list nsh].
      change (fold_right Nat.mul 1%nat (hd 0%nat (h_sh (h_q o)) :: t)) with (count (hd 0%nat (h_sh (h_q o)) :: t)).
      change (fold_right Nat.mul 1%nat (h_sh (h_q o))) with (count (h_sh (h_q o))).
      destruct (Nat.eqb_spec (count (hd 0%nat (h_sh (h_q o)) :: t)) (count (h_sh (h_q o)))) as [Q|]; cbn [bind or_same apply_effect].
      + set (q := {| h_buf := h_buf (h_q o); h_off := h_off (h_q o); h_sh := _ |}).
        assert (Bq : bounded (h_mem h) q) by (split; [apply B|cbn [q h_off h_sh h_buf]; rewrite Q; apply B]).
        apply (put_agrees h F a o _ (h_mem h) {| h_c := h_c o; h_q := q |}); auto.
        * split; [apply frame_refl|]. split; [exact Bq|]. split; [now left|]. intros _. destruct K as [O1 O2].
          split; unfold hshape; cbn [h_q h_c h_sh tl q]; [|exact Rg]. rewrite O1. reflexivity.
        * unfold mix_of, mix_table. cbn [h_c h_q x_c x_q]. f_equal. rewrite <- (read_is_table (h_mem h) q Bq). f_equal.
          unfold read. cbn [h_sh q]. f_equal. rewrite to_list_of_list by (now apply block_length). unfold block. cbn [h_sh h_off h_buf q]. now rewrite Q.
      + unfold agrees. cbn [fst snd]. change {| x_c := h_c o; x_q := of_list (h_sh (h_q o)) (block (h_mem h) (h_q o)) |} with (mix_of (h_mem h) o). now rewrite set_same_values.
    - (* Get *) look NO YO a. unfold getitem, sindex. cbn [mix_of x_c x_q]. destruct (index_of (full_sid s) (h_c o)) as [k|] eqn:Ek; [|apply agrees_fail].
      apply index_of_some in Ek. destruct Ek as [Lk _]. set (g := gas_of P (nth k (h_c o) "")). cbn [shares_memory] in Sh. cbn [apply_effect result_of]. unfold nd_matter.
      destruct (m_mw g E) as [mw|e]; cbn [bind with_val]; [|apply agrees_fail]. unfold matter. cbn [bind].
      destruct (cfg_get (e_cfg E) "unit_matter") as [u|e]; cbn [bind with_val]; [|apply agrees_fail]. rewrite Sh.
      match goal with |- context [bind ?x _] => destruct x as [c|e] eqn:Hc end; cbn [bind with_val]; [|apply agrees_fail].
      destruct (alloc (h_mem h) _) as [m' x] eqn:A. destruct (alloc_facts _ _ _ _ A) as (Q & B' & L & _ & Rq).
      unfold agrees. rewrite (new_arr_values h m' x W' Q), Rq. cbn [result_of new_arr snd]. do 4 f_equal.
      destruct K as [O1 O2]. apply table_ext; [reflexivity|]. intros i Hi. cbn [np_map nel row]. f_equal. symmetry.
      apply (row_el (h_mem h) (h_q o) k _ _ i O1 Lk B). exact Hi.
    - (* Array *) destruct (alloc (h_mem h) v) as [m' x] eqn:A. destruct (alloc_facts _ _ _ _ A) as (Q & B' & L & _ & Rq).
      unfold agrees. rewrite (new_arr_values h m' x W' Q), Rq. reflexivity.
    - (* Amul *) unfold arr_at, v_arr, values_in at 1. cbn [v_arrs]. rewrite nth_error_map. destruct (nth_error (h_arrs h) x) as [a|] eqn:Hx; cbn [option_map bind with_val]; [|apply agrees_fail].
      pose proof (W2 x a Hx) as B. set (v := {| nsh := h_sh a; nel := _ |}).
      pose proof (step_good P E h F W' Fm (Amul x k) I) as [Kp _]. cbn [h_step target] in Kp. unfold arr_at in Kp. rewrite Hx in Kp. cbn [with_val fst] in Kp. fold v in Kp.
      unfold agrees. cbn [fst snd]. rewrite (set_arr_values h F _ x a Fm D Kp Hx eq_refl eq_refl). cbn [h_mem apply_effect]. rewrite (write_read (h_mem h) a v B eq_refl). reflexivity.
  Qed.
End Step.

Lemma run_agrees P E : forall l h F, wf h -> fam h F -> distinct F -> regular_session P E h l -> Forall (fun st => shares_memory E st = false) l ->
  v_run P E (values_in h) l = (values_in (fst (h_run P E h l)), snd (h_run P E h l)).
Proof.
  induction l as [|st l IH]; intros h F W Fm D R S; cbn [v_run h_run]; [reflexivity|].
  cbn [regular_session] in R. destruct R as [R1 R2]. inversion S as [|? ? S1 S2]; subst.
  rewrite (step_agrees P E h F W Fm D st R1 S1). destruct (step_good P E h F W Fm st R1) as [_ G].
  destruct (h_step P E h st) as [h' [[]|e]]; cbn [fst snd] in *; [|reflexivity].
  destruct (G eq_refl) as [W' F']. apply (IH h' (fam_step E F st)); auto. now apply (distinct_step E h).
Qed.
Lemma independent P E l : regular_session P E empty_heap l -> Forall (fun st => shares_memory E st = false) l ->
  v_run P E no_values l = (values_in (fst (h_run P E empty_heap l)), snd (h_run P E empty_heap l)).
Proof. intros R S. destruct empty_wf as [W0 F0]. apply (run_agrees P E l empty_heap no_families W0 F0); auto. constructor. Qed.

(* ---- slices ---- *)
Lemma shape_eqb_refl s : shape_eqb s s = true.
Proof. now apply shape_eqb_spec. Qed.
Lemma add_names_incl bc : forall c, incl bc c -> add_names bc c = c.
Proof.
  induction bc as [|s bc IH]; intros c H; [reflexivity|]. unfold add_names in *. cbn [fold_left].
  rewrite (proj2 (memb_spec s c) (H s (or_introl eq_refl))). apply IH. intros x Hx. apply H. now right.
Qed.
Lemma iadd_in_place m a b same : incl (h_c b) (h_c a) -> broadcast_shape (hshape b) (hshape a) = Ok (hshape a) -> snd (fst (h_iadd m a b same)) = a.
Proof.
  intros I S. unfold h_iadd. rewrite (add_names_incl _ _ I), S. cbn [bind]. rewrite Nat.eqb_refl, shape_eqb_refl. cbn [negb orb].
  destruct (h_add_rows _ _ _ _ _ _) as [m2 r]. now destruct a.
Qed.
Lemma imul_in_place m a b : nsh (atleast_1d b) = hshape a -> snd (fst (h_imul m a b)) = a.
Proof. intro S. unfold h_imul. rewrite S, shape_eqb_refl. now destruct (broadcast_to _ _). Qed.
Lemma atleast_map f b : nsh (atleast_1d (np_map f b)) = nsh (atleast_1d b).
Proof. unfold atleast_1d. cbn [np_map nsh]. now destruct (nsh b). Qed.
Lemma idiv_in_place m a b : nsh (atleast_1d b) = hshape a -> snd (fst (h_idiv m a b)) = a.
Proof.
  intro S. unfold h_idiv. assert (Hm : snd (fst (h_imul m a (np_map reciprocal b))) = a) by (apply imul_in_place; now rewrite atleast_map).
  destruct (nsh b); [|exact Hm]. destruct (nel b []); [|exact Hm]. now destruct (Req_EM_T r 0).
Qed.
Lemma setitem_in_place P E m a s v : broadcast_shape (nsh (atleast_1d v)) (hshape a) = Ok (hshape a) -> snd (fst (h_setitem P E m a s v)) = a.
Proof.
  intro S. unfold h_setitem. destruct (index_of _ _); [|reflexivity]. rewrite S, shape_eqb_refl.
  destruct (do _ <- _; _); cbn [fst snd]; now destruct a.
Qed.
Lemma put_at h a x o : nth_error (h_objs h) a = Some o -> snd (fst x) = o -> forall j p, nth_error (h_objs h) j = Some p -> nth_error (h_objs (fst (put_obj h a x))) j = Some p.
Proof.
  intros Ho Hx j p Hj. destruct x as [[m' o'] r]. cbn in *. subst o'. now rewrite set_nth_self.
Qed.
Lemma put_other h a x : forall j p, j <> a -> nth_error (h_objs h) j = Some p -> nth_error (h_objs (fst (put_obj h a x))) j = Some p.
Proof. intros j p N Hj. destruct x as [[m' o'] r]. cbn. rewrite set_nth_error_other; auto. Qed.
Lemma new_obj_keep h m o j p : nth_error (h_objs h) j = Some p -> nth_error (h_objs (fst (new_obj h m o))) j = Some p.
Proof. intro H. now apply nth_error_app_old. Qed.
Lemma new_from_keep h x j p : nth_error (h_objs h) j = Some p -> nth_error (h_objs (fst (new_from h x))) j = Some p.
Proof. intro H. destruct x as [[m o] [[]|e]]; [now apply nth_error_app_old|exact H]. Qed.

Lemma step_keeps P E h st j p : nth_error (h_objs h) j = Some p -> (changes_mix st j -> in_place (values_in h) st) ->
  nth_error (h_objs (fst (h_step P E h st))) j = Some p.
Proof.
  intros Hj Hp.
  assert (VM : forall a o, nth_error (h_objs h) a = Some o -> v_mix (values_in h) a = Ok (mix_of (h_mem h) o)) by (intros; now apply v_mix_in).
  assert (PUT : forall a x o, nth_error (h_objs h) a = Some o -> (j = a -> snd (fst x) = o) -> nth_error (h_objs (fst (put_obj h a x))) j = Some p).
  { intros a x o Ho Hx. destruct (Nat.eq_dec j a) as [Q|N]; [now apply (put_at h a x o Ho (Hx Q))|now apply put_other]. }
  assert (WO : forall a (k : hobj -> heap * res unit), (forall o, nth_error (h_objs h) a = Some o -> nth_error (h_objs (fst (k o))) j = Some p) ->
    nth_error (h_objs (fst (with_obj h a k))) j = Some p).
  { intros a k Hk. unfold with_obj, obj. destruct (nth_error (h_objs h) a) as [o|] eqn:Ho; [now apply Hk|exact Hj]. }
  assert (WV : forall T (v : res T) (k : T -> heap * res unit), (forall x, v = Ok x -> nth_error (h_objs (fst (k x))) j = Some p) ->
    nth_error (h_objs (fst (with_val h v k))) j = Some p).
  { intros T v k Hk. unfold with_val. destruct v; [now apply Hk|exact Hj]. }
  destruct st; cbn [h_step changes_mix in_place] in *.
  - apply WV. intros x _. destruct (alloc _ _). now apply new_obj_keep.
  - apply WO. intros o _. destruct (h_copy _ _). now apply new_obj_keep.
  - apply WO. intros o _. destruct (h_neg _ _). now apply new_obj_keep.
  - apply WO. intros o _. apply WO. intros o' _. destruct (h_copy _ _). now apply new_from_keep.
  - apply WO. intros o _. apply WO. intros o' _. destruct (h_neg _ _). now apply new_from_keep.
  - apply WO. intros o _. apply WV. intros v _. destruct (h_copy _ _). now apply new_from_keep.
  - apply WO. intros o _. apply WV. intros v _. destruct (h_copy _ _). now apply new_from_keep.
  - apply WO. intros o Ho. apply WO. intros o' Ho'. apply (PUT _ _ o Ho). intro Q. destruct (Hp Q _ _ (VM _ _ Ho) (VM _ _ Ho')) as [I S]. now apply iadd_in_place.
  - apply WO. intros o Ho. apply WO. intros o' Ho'. destruct (h_neg (h_mem h) o') as [m1 c] eqn:C. apply (PUT _ _ o Ho). intro Q.
    destruct (Hp Q _ _ (VM _ _ Ho) (VM _ _ Ho')) as [I S]. unfold h_neg, alloc in C. injection C as _ <-. now apply iadd_in_place.
  - apply WO. intros o Ho. apply WV. intros v Hv. rewrite operand_same in Hv. apply (PUT _ _ o Ho). intro Q. apply imul_in_place. apply (Hp Q _ _ (VM _ _ Ho) Hv).
  - apply WO. intros o Ho. apply WV. intros v Hv. rewrite operand_same in Hv. apply (PUT _ _ o Ho). intro Q. apply idiv_in_place. apply (Hp Q _ _ (VM _ _ Ho) Hv).
  - apply WO. intros o Ho. apply WV. intros w Hv. rewrite operand_same in Hv. apply (PUT _ _ o Ho). intro Q. apply setitem_in_place. apply (Hp Q _ _ (VM _ _ Ho) Hv).
  - apply WO. intros o Ho. apply WV. intros w Hv. apply WV. intros x _. destruct (alloc _ _). apply (PUT _ _ o Ho). intro Q. destruct (Hp Q).
  - apply WO. intros o Ho. apply WV. intros x _. destruct (alloc _ _). apply (PUT _ _ o Ho). intro Q. destruct (Hp Q).
  - apply WO. intros o Ho. destruct (Nat.eqb _ _); [|exact Hj]. apply (PUT _ _ o Ho). intro Q. destruct (Hp Q).
  - apply WO. intros o Ho. now apply new_obj_keep.
  - apply WO. intros o Ho. destruct (index_of _ _); [|exact Hj]. apply WV. intros u _. destruct (String.eqb _ _); [exact Hj|]. apply WV. intros v _. destruct (alloc _ _). exact Hj.
  - apply WO. intros o Ho. destruct (Nat.ltb _ _); exact Hj.
  - destruct (alloc _ _). exact Hj.
  - apply WV. intros a _. exact Hj.
Qed.
Lemma run_keeps P E a b : forall l h, written_in_place P E a b h l -> forall h', h_run P E h l = (h', Ok tt) ->
  (forall p, nth_error (h_objs h) a = Some p -> nth_error (h_objs h') a = Some p) /\
  (forall p, nth_error (h_objs h) b = Some p -> nth_error (h_objs h') b = Some p).
Proof.
  induction l as [|st l IH]; intros h Wr h' H; cbn [h_run written_in_place] in *; [injection H as <-; auto|]. destruct Wr as [W1 W2].
  pose proof (step_keeps P E h st a) as Ka. pose proof (step_keeps P E h st b) as Kb.
  destruct (h_step P E h st) as [h1 [[]|e]]; [|discriminate]. cbn [fst] in *. destruct (IH h1 W2 h' H) as [I1 I2]. split; intros p Hp; auto.
Qed.
Lemma slice_value m o i j : bounded m (h_q o) -> obj_ok o ->
  let i' := Nat.min i (List.length (h_c o)) in let n := (Nat.min j (List.length (h_c o)) - i')%nat in
  mix_of m {| h_c := firstn n (skipn i' (h_c o)); h_q := hrows (h_q o) i' n |} = mix_table (v_slice (mix_of m o) i j).
Proof.
  intros B [O1 O2] i' n. assert (L : (i' + n <= List.length (h_c o))%nat) by (unfold n, i'; lia).
  pose proof (rows_bounded m (h_q o) i' n _ _ O1 L B) as Br. unfold mix_table, v_slice, mix_of at 1. cbn [mix_of x_c h_c h_q x_q]. fold i' n. f_equal.
  change (shape {| x_c := h_c o; x_q := read m (h_q o) |}) with (hshape o).
  apply (read_table m _ _ Br); [reflexivity|]. intros ix Hix. cbn [hrows h_sh] in Hix. change (tl (h_sh (h_q o))) with (hshape o) in Hix.
  destruct ix as [|k r]; [inversion Hix|]. inversion Hix as [|? ? ? ? Hk Hr]; subst. cbn [nel].
  exact (rows_el m (h_q o) i' n _ _ k r O1 L B Hk Hr).
Qed.
Lemma slices_follow P E l1 l2 h1 h2 h3 a i j : regular_session P E empty_heap (l1 ++ Slice a i j :: l2) ->
  h_run P E empty_heap l1 = (h1, Ok tt) -> h_step P E h1 (Slice a i j) = (h2, Ok tt) ->
  written_in_place P E a (List.length (v_mixs (values_in h1))) h2 l2 -> h_run P E h2 l2 = (h3, Ok tt) ->
  exists m, v_mix (values_in h3) a = Ok m /\ v_mix (values_in h3) (List.length (v_mixs (values_in h1))) = Ok (mix_table (v_slice m i j)).
Proof.
  intros R H1 H2 Wr H3. destruct (regular_app P E l1 _ _ R) as [R1 R2]. specialize (R2 h1 H1). cbn [regular_session] in R2. rewrite H2 in R2. destruct R2 as [_ R2].
  destruct empty_wf as [W0 F0]. destruct (run_wf P E l1 _ _ W0 F0 R1 h1 H1) as [Wh1 F1].
  pose proof (step_good P E h1 _ Wh1 F1 (Slice a i j) I) as [_ G]. rewrite H2 in G. destruct (G eq_refl) as [Wh2 F2]. cbn [fst] in *.
  destruct (run_wf P E l2 _ _ Wh2 F2 R2 h3 H3) as [Wh3 _].
  unfold values_in in Wr at 1. unfold values_in at 3. cbn [v_mixs] in *. rewrite map_length in *.
  destruct (run_keeps P E a _ l2 h2 Wr h3 H3) as [Ka Kb].
  cbn [h_step] in H2. unfold with_obj, obj in H2. destruct (nth_error (h_objs h1) a) as [o|] eqn:Ho; [|discriminate].
  unfold new_obj in H2. injection H2 as <-. cbn [h_objs] in Ka, Kb. specialize (Ka o (nth_error_app_old _ _ _ _ Ho)).
  specialize (Kb _ (eq_trans (nth_error_app2 _ _ (Nat.le_refl _)) (f_equal _ (Nat.sub_diag _)))).
  exists (mix_of (h_mem h3) o). split; [now apply v_mix_in|]. rewrite (v_mix_in _ _ _ Kb). f_equal.
  destruct Wh3 as [W3 _]. destruct (W3 a o Ka) as [B O]. now apply slice_value.
Qed.

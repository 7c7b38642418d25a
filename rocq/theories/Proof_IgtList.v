(* Dynamic mixtures as collections of substances. *)
From Coq Require Import Reals ZArith List String Ascii Bool Lia.
From Verif Require Import Base Text Model_Num Model_Units Model_Igas Model_Igtools Model_Igtview Model_IgtList Spec_Units Spec_Igtools Spec_Igtview Spec_IgtList
  Proof_Igtools Proof_IgtItems Proof_IgtThm Proof_Igtview.
From Verif Require Model_Catalog.
Import ListNotations.
Local Open Scope R_scope.
Local Open Scope string_scope.
Local Open Scope list_scope.

Lemma listed_in s l : listed s l = true <-> In s l.
Proof.
  unfold listed. rewrite existsb_exists. split.
  - intros (x & Hx & E). apply String.eqb_eq in E. now subst.
  - intro H. exists s. split; [exact H|apply String.eqb_refl].
Qed.
Lemma listed_memb s l : memb s l = listed s l.
Proof. destruct (memb s l) eqn:A, (listed s l) eqn:B; auto; [apply memb_spec in A; apply listed_in in A; congruence|apply listed_in in B; apply memb_spec in B; congruence]. Qed.
Lemma listed_app s l r : listed s (l ++ r) = listed s l || listed s r.
Proof. apply existsb_app. Qed.

(* ---- names ---- *)
Lemma add_names_filter bc : forall c, NoDup bc -> add_names bc c = c ++ filter (fun s => negb (listed s c)) bc.
Proof.
  induction bc as [|s bc IH]; intros c H; cbn [add_names fold_left filter]; [now rewrite app_nil_r|].
  inversion H as [|? ? Hs Hb]; subst. fold (add_names bc (if memb s c then c else c ++ [s])). rewrite IH by exact Hb. rewrite listed_memb.
  destruct (listed s c) eqn:E; cbn [negb]; [reflexivity|]. rewrite <- app_assoc. cbn [app]. f_equal. f_equal.
  apply filter_ext_in. intros x Hx. rewrite listed_app. destruct (listed x [s]) eqn:F; [|now rewrite orb_false_r].
  apply listed_in in F. destruct F as [->|[]]. contradiction.
Qed.
Lemma iadd_names a b : x_c (fst (iadd a b)) = add_names (x_c b) (x_c a).
Proof.
  unfold iadd. destruct (broadcast_shape _ _); [|reflexivity]. cbv zeta.
  match goal with |- context [match ?g with Ok _ => _ | Err _ => _ end] => destruct g as [q|] end; [|reflexivity].
  destruct (add_rows _ _ _ _ _); reflexivity.
Qed.
Lemma setitem_names P E m s v : x_c (fst (setitem P E m s v)) = x_c m.
Proof.
  unfold setitem. destruct (sindex m s); [|reflexivity]. cbv zeta. destruct (broadcast_shape _ _); [|reflexivity].
  match goal with |- context [match ?g with Ok _ => _ | Err _ => _ end] => destruct g as [q|] end; [|reflexivity].
  match goal with |- context [match ?g with Ok _ => _ | Err _ => _ end] => destruct g end; reflexivity.
Qed.
Lemma set_all_names P E l q : forall k m, x_c (fst (set_all P E l q k m)) = x_c m.
Proof.
  induction l as [|s l IH]; intros k m; cbn [set_all]; [reflexivity|]. pose proof (setitem_names P E m s (row q k)) as S.
  destruct (setitem P E m s (row q k)) as [m1 [?|?]]; cbn [fst] in *; [now rewrite IH|exact S].
Qed.
Lemma imul_names a b m : imul a b = Ok m -> x_c m = x_c a.
Proof.
  unfold imul. cbv zeta. destruct (shape_eqb _ _); [destruct (broadcast_to _ _)|destruct (np_op _ _ _)]; cbn [bind]; intro H; try discriminate; now injection H as <-.
Qed.
Lemma reshape_names m t m' : reshape m t = Ok m' -> x_c m' = x_c m.
Proof. unfold reshape. destruct (np_reshape _ _); cbn [bind]; intro H; [|discriminate]. now injection H as <-. Qed.
Lemma reshape_to_names m t m' : reshape_to m t = Ok m' -> x_c m' = x_c m.
Proof.
  unfold reshape_to. cbv zeta. destruct (unknowns _) as [|[|n]]; [apply reshape_names| |discriminate].
  destruct (Nat.eqb _ 0); [discriminate|]. destruct (Nat.eqb _ 0); [apply reshape_names|discriminate].
Qed.
Lemma has_dot_full s : has_dot (full_sid s) = true.
Proof. unfold full_sid. destruct (has_dot s) eqn:E; [exact E|destruct s; reflexivity]. Qed.
Lemma full_dot s : has_dot s = true -> full_sid s = s.
Proof. unfold full_sid. now intros ->. Qed.
Lemma collection_dot s : collection_of s = "ig" -> has_dot s = true.
Proof. unfold collection_of. destruct (has_dot s); [reflexivity|discriminate]. Qed.
Lemma resolve_meant P k s : find_subst P k = Ok s -> meant k = [s] /\ full_sid s = s /\ dget s P <> None.
Proof.
  destruct k as [n|n|n|n]; cbn [find_subst meant]; try discriminate.
  - unfold get_gas. destruct (dget (full_sid n) P) eqn:G; cbn [bind]; intro H; [|discriminate]. injection H as <-.
    split; [reflexivity|]. split; [apply full_dot, has_dot_full|congruence].
  - destruct (String.eqb_spec (collection_of n) "ig") as [C|]; [|discriminate]. unfold get_gas. destruct (dget n P) eqn:G; cbn [bind]; intro H; [|discriminate].
    injection H as <-. split; [reflexivity|]. split; [apply full_dot, collection_dot; exact C|congruence].
Qed.
Lemma insert_names P E m s q u m' : full_sid s = s -> insert P E m s q u = Ok m' -> x_c m' = x_c m ++ [s] /\ ~ In s (x_c m).
Proof.
  intro F. unfold insert. rewrite F. destruct (get_gas P s); cbn [bind]; [|discriminate]. destruct (memb s (x_c m)) eqn:M; [discriminate|]. cbv zeta.
  intro H. assert (N : ~ In s (x_c m)) by (intro I; apply memb_spec in I; congruence). split; [|exact N]. revert H.
  match goal with |- context [bind ?g _] => destruct g as [v|] end; cbn [bind]; [|discriminate].
  destruct (broadcast_shape _ _); cbn [bind]; [|discriminate]. destruct (broadcast_to v _); cbn [bind]; [|discriminate].
  destruct (broadcast_to (x_q m) _); cbn [bind]; [|discriminate]. intro H. now injection H as <-.
Qed.
Lemma remove_at_filter l : forall k s, NoDup l -> index_of s l = Some k -> remove_at k l = filter (fun x => negb (listed x [s])) l.
Proof.
  induction l as [|y l IH]; intros k s H I; cbn [index_of] in I; [discriminate|]. inversion H as [|? ? Hy Hl]; subst. cbn [filter listed existsb].
  rewrite orb_false_r, (String.eqb_sym y s). destruct (String.eqb_spec s y) as [->|N]; cbn [negb].
  - injection I as <-. cbn [remove_at]. symmetry. clear -Hy. induction l as [|x l IH]; cbn [filter]; [reflexivity|].
    cbn [listed existsb]. rewrite orb_false_r. destruct (String.eqb_spec x y) as [->|N]; cbn [negb]; [exfalso; apply Hy; now left|].
    f_equal. apply IH. intro. apply Hy. now right.
  - destruct (index_of s l) as [n|] eqn:Q; [|discriminate]. injection I as <-. cbn [remove_at]. f_equal. now apply IH.
Qed.
Lemma remove_names m s m' : NoDup (x_c m) -> remove m s = Ok m' -> x_c m' = filter (fun x => negb (listed x [full_sid s])) (x_c m) /\ In (full_sid s) (x_c m).
Proof.
  intros N. unfold remove, sindex. destruct (index_of (full_sid s) (x_c m)) as [k|] eqn:I; [|discriminate]. intro H. injection H as <-. cbn [x_c].
  split; [now apply remove_at_filter|]. destruct (index_of_some _ _ _ I) as [L <-]. now apply nth_In.
Qed.
Lemma remove_key_names m k m' : NoDup (x_c m) -> remove_key m k = Ok m' -> exists s, meant k = [s] /\ In s (x_c m) /\ x_c m' = filter (fun x => negb (listed x (meant k))) (x_c m).
Proof.
  intros N. destruct k as [s|s|s|s]; cbn [remove_key meant]; try discriminate.
  - intro H. destruct (remove_names _ _ _ N H) as [A B]. eauto.
  - destruct (has_dot s) eqn:D; [|discriminate]. intro H. destruct (remove_names _ _ _ N H) as [A B]. rewrite (full_dot _ D) in *. eauto.
Qed.
Lemma nodup_app_filter (l r : list string) : NoDup l -> NoDup r -> NoDup (l ++ filter (fun s => negb (listed s l)) r).
Proof.
  intros A B. induction r as [|s r IH]; cbn [filter]; [now rewrite app_nil_r|]. inversion B as [|? ? Hs Hr]; subst.
  destruct (listed s l) eqn:E; cbn [negb]; [auto|]. apply (Permutation.Permutation_NoDup (Permutation.Permutation_middle _ _ s)).
  constructor; [|auto]. intro H. apply in_app_or in H. destruct H as [H|H]; [apply listed_in in H; congruence|apply filter_In in H; tauto].
Qed.
Lemma step_names P E m c m' r : NoDup (x_c m) -> distinct_operands [c] -> step P E m c = (m', r) ->
  x_c m' = names_after (x_c m) (c, r) /\ NoDup (x_c m').
Proof.
  intros N D H.
  assert (G : x_c m' = names_after (x_c m) (c, r) -> NoDup (names_after (x_c m) (c, r)) -> x_c m' = names_after (x_c m) (c, r) /\ NoDup (x_c m')) by (intros -> X; auto).
  destruct c as [k q u|k|b|b|s v|v|b|b|t]; cbn [step] in H.
  - unfold when_ok in H. destruct (find_subst P k) as [s|] eqn:R; cbn [bind] in H; [|injection H as <- <-; cbn [names_after]; auto].
    destruct (insert P E m s q u) as [x|] eqn:I; injection H as <- <-; cbn [names_after]; [|auto].
    destruct (resolve_meant _ _ _ R) as (M & F & _). destruct (insert_names _ _ _ _ _ _ _ F I) as [X Y]. rewrite M, X. split; [reflexivity|].
    apply (Permutation.Permutation_NoDup (Permutation.Permutation_cons_append _ _)). constructor; assumption.
  - unfold when_ok in H. destruct (remove_key m k) as [x|] eqn:I; injection H as <- <-; cbn [names_after]; [|auto].
    destruct (remove_key_names _ _ _ N I) as (s & _ & _ & X). rewrite X. split; [reflexivity|now apply NoDup_filter].
  - pose proof (iadd_names m b) as X. rewrite H in X. cbn [fst] in X. assert (B : NoDup (x_c b)) by (apply D; left; now left).
    rewrite add_names_filter in X by exact B. apply G; [exact X|]. cbn [names_after]. now apply nodup_app_filter.
  - unfold isub in H. pose proof (iadd_names m (neg b)) as X. rewrite H in X. cbn [fst neg x_c] in X. assert (B : NoDup (x_c b)) by (apply D; right; now left).
    rewrite add_names_filter in X by exact B. apply G; [exact X|]. cbn [names_after]. now apply nodup_app_filter.
  - pose proof (setitem_names P E m s v) as X. rewrite H in X. cbn [fst] in X. apply G; cbn [names_after]; assumption.
  - unfold setslice in H. pose proof (set_all_names P E (x_c v) (x_q v) 0 m) as X. rewrite H in X. cbn [fst] in X. apply G; cbn [names_after]; assumption.
  - unfold when_ok in H. destruct (imul m b) as [x|] eqn:I; injection H as <- <-; cbn [names_after]; [|auto]. apply imul_names in I. rewrite I. auto.
  - unfold when_ok in H. destruct (truediv m b) as [x|] eqn:I; injection H as <- <-; cbn [names_after]; [|auto].
    assert (J : x_c x = x_c m).
    { unfold truediv in I. destruct (nsh b); [destruct (nel b []); [destruct (Req_EM_T _ 0); [discriminate|]|]|]; now apply imul_names in I. }
    rewrite J. auto.
  - unfold when_ok in H. destruct (reshape_to m t) as [x|] eqn:I; injection H as <- <-; cbn [names_after]; [|auto]. apply reshape_to_names in I. rewrite I. auto.
Qed.
Theorem session_names P E l : forall m m' h, NoDup (x_c m) -> distinct_operands l -> run_changes P E m l = (m', h) ->
  map fst h = l /\ x_c m' = fold_left names_after h (x_c m) /\ NoDup (x_c m').
Proof.
  induction l as [|c l IH]; intros m m' h N D H; cbn [run_changes] in H.
  - injection H as <- <-. auto.
  - destruct (step P E m c) as [m1 r] eqn:S. destruct (run_changes P E m1 l) as [m2 h2] eqn:Q. injection H as <- <-.
    assert (D1 : distinct_operands [c]) by (intros b [[->|[]]|[->|[]]]; apply D; [left|right]; now left).
    assert (D2 : distinct_operands l) by (intros b [B|B]; apply D; [left|right]; now right).
    destruct (step_names _ _ _ _ _ _ N D1 S) as [X Y]. destruct (IH _ _ _ Y D2 Q) as (A & B & C).
    cbn [map fst fold_left]. rewrite A, <- X. auto.
Qed.
Lemma listed_filter_not s k l : listed s (filter (fun x => negb (listed x k)) l) = if listed s k then false else listed s l.
Proof.
  destruct (listed s k) eqn:K.
  - destruct (listed s (filter _ l)) eqn:F; [|reflexivity]. apply listed_in, filter_In in F. destruct F as [_ F]. rewrite K in F. discriminate.
  - destruct (listed s l) eqn:L.
    + apply listed_in. apply filter_In. split; [now apply listed_in|now rewrite K].
    + destruct (listed s (filter _ l)) eqn:F; [|reflexivity]. apply listed_in, filter_In in F. destruct F as [F _]. apply listed_in in F. congruence.
Qed.
Lemma present_names s h : forall l, listed s (fold_left names_after h l) = present s (listed s l) h.
Proof.
  induction h as [|e h IH]; intro l; cbn [fold_left present]; [reflexivity|]. rewrite IH. f_equal.
  destruct e as [[k q u|k|b|b|x v|v|b|b|t] [y|y]]; cbn [names_after]; try reflexivity.
  - rewrite listed_app. destruct (listed s (meant k)), (listed s l); reflexivity.
  - apply listed_filter_not.
  - rewrite listed_app. rewrite listed_filter_not. destruct (listed s l), (listed s (x_c b)); reflexivity.
  - rewrite listed_app. rewrite listed_filter_not. destruct (listed s l), (listed s (x_c b)); reflexivity.
  - rewrite listed_app. rewrite listed_filter_not. destruct (listed s l), (listed s (x_c b)); reflexivity.
  - rewrite listed_app. rewrite listed_filter_not. destruct (listed s l), (listed s (x_c b)); reflexivity.
Qed.
Theorem session_members P E l m m' h : NoDup (x_c m) -> distinct_operands l -> run_changes P E m l = (m', h) ->
  (forall s, contained m' (IName s) = Ok (present (full_sid s) (listed (full_sid s) (x_c m)) h)) /\
  (forall s, contained m' (IGas s) = Ok (present s (listed s (x_c m)) h)).
Proof.
  intros N D H. destruct (session_names _ _ _ _ _ _ N D H) as (_ & B & _).
  assert (X : forall s, memb s (x_c m') = present s (listed s (x_c m)) h) by (intro s; now rewrite listed_memb, B, present_names).
  split; intro s; cbn [contained]; rewrite <- X; reflexivity.
Qed.
(* ---- what inserting and removing answer ---- *)
Theorem remove_outcome P E m k s : NoDup (x_c m) -> meant k = [s] -> has_dot s = true ->
  (In s (x_c m) -> exists m', step P E m (Remove k) = (m', Ok tt)) /\
  (~ In s (x_c m) -> step P E m (Remove k) = (m, Err PMParamError)).
Proof.
  intros N M D. assert (R : remove_key m k = remove m s).
  { destruct k; cbn [meant] in M; try discriminate; injection M as <-; cbn [remove_key].
    - unfold remove, sindex. now rewrite (full_dot _ D).
    - now rewrite D. }
  cbn [step]. rewrite R. unfold remove, sindex. rewrite (full_dot _ D). split; intro I.
  - destruct (index_of s (x_c m)) eqn:Q; [|apply index_of_none in Q; contradiction]. cbn [when_ok]. eauto.
  - apply index_of_none in I. now rewrite I.
Qed.
Theorem insert_refused P E m k q u : (forall s, meant k = [s] -> In s (x_c m) \/ dget s P = None) -> step P E m (Insert k q u) = (m, Err PMParamError).
Proof.
  intros H. cbn [step]. destruct (find_subst P k) as [t|e] eqn:R.
  - destruct (resolve_meant _ _ _ R) as (M' & F & G). destruct (H t M') as [I|I]; [|contradiction]. clear H. rename I into H.
    cbn [bind]. unfold insert. rewrite F. unfold get_gas. destruct (dget t P); [|congruence]. cbn [bind]. apply memb_spec in H. rewrite H. reflexivity.
  - assert (e = PMParamError).
    { destruct k as [n|n|n|n]; cbn [find_subst] in R; [| |congruence|congruence]; unfold get_gas in R.
      - destruct (dget (full_sid n) P); cbn [bind] in R; congruence.
      - destruct (String.eqb _ _); [destruct (dget n P); cbn [bind] in R|]; congruence. }
    subst. reflexivity.
Qed.

(* ---- construction ---- *)
Lemma key_eqb_eq a b : key_eqb a b = true <-> a = b.
Proof.
  destruct a, b; cbn [key_eqb]; split; intro H; try discriminate; try (apply String.eqb_eq in H; congruence); try (apply Nat.eqb_eq in H; congruence);
    injection H as <-; try apply String.eqb_refl; apply Nat.eqb_refl.
Qed.
Lemma fromkeys_firsts l : forall seen, fromkeys l seen = filter (fun x => negb (existsb (key_eqb x) seen)) (firsts l).
Proof.
  induction l as [|k l IH]; intro seen; cbn [fromkeys firsts filter]; [reflexivity|].
  assert (FF : forall (f g : key -> bool) (r : list key), filter f (filter g r) = filter (fun x => g x && f x) r).
  { intros f g r. induction r as [|x r IHr]; cbn [filter]; [reflexivity|]. destruct (g x); cbn [filter andb]; [destruct (f x); now rewrite IHr|exact IHr]. }
  rewrite FF. destruct (existsb (key_eqb k) seen) eqn:E; cbn [negb]; rewrite IH.
  - apply filter_ext. intro x. destruct (key_dec x k) as [->|N]; [now rewrite E|reflexivity].
  - f_equal. apply filter_ext. intro x. cbn [existsb]. destruct (key_dec x k) as [->|N]; cbn [andb].
    + replace (key_eqb k k) with true by (symmetry; now apply key_eqb_eq). reflexivity.
    + destruct (key_eqb x k) eqn:Q; [apply key_eqb_eq in Q; contradiction|]. reflexivity.
Qed.
Lemma filter_true {A} (l : list A) : filter (fun _ => true) l = l.
Proof. induction l; cbn [filter]; congruence. Qed.
Definition named (c : key * nd) : string * nd := (hd "" (meant (fst c)), snd c).
Lemma init_names_ids P l : forall sh names sh', init_names P l sh = Ok (names, sh') -> names = map (fun c => full_sid (fst c)) l.
Proof.
  induction l as [|[s q] l IH]; intros sh names sh' H; cbn [init_names] in H; [injection H as <- <-; reflexivity|].
  destruct (get_gas P (full_sid s)); cbn [bind] in H; [|discriminate]. destruct (broadcast_shape _ _); cbn [bind] in H; [|discriminate].
  destruct (init_names P l _) as [[n x]|] eqn:Q; cbn [bind] in H; [|discriminate]. injection H as <- <-. cbn [map fst]. f_equal. now apply IH in Q.
Qed.
Lemma init_keys_names P l : (forall c, In c l -> exists s, find_subst P (fst c) = Ok s) -> forall sh,
  init_keys P l sh = (do r <- init_names P (map named l) sh; Ok (map named l, snd r)).
Proof.
  induction l as [|[k q] l IH]; intros H sh; cbn [init_keys map init_names]; [reflexivity|].
  destruct (H (k, q) (or_introl eq_refl)) as [s R]. cbn [fst] in R. destruct (resolve_meant _ _ _ R) as (M & F & G). rewrite R. cbn [bind].
  unfold named at 1. cbn [fst snd]. rewrite M. cbn [hd]. unfold get_gas. rewrite F. destruct (dget s P); [|congruence]. cbn [bind].
  destruct (broadcast_shape _ _); cbn [bind]; [|reflexivity]. rewrite IH by (intros c Hc; apply H; now right).
  destruct (init_names P (map named l) _) as [[n x]|]; cbn [bind]; [|reflexivity]. unfold named. cbn [fst snd]. rewrite ?M. reflexivity.
Qed.
Lemma from_keys_new P E units l : (forall c, In c l -> exists s, find_subst P (fst c) = Ok s) -> from_keys P E units l = new_mix P E units (map named l).
Proof.
  intro H. unfold from_keys, new_mix. rewrite (init_keys_names P l H). destruct (init_names P (map named l) [1%nat]) as [[n sh]|] eqn:Q; cbn [bind]; [|reflexivity].
  apply init_names_ids in Q. cbn [snd]. assert (N : n = map fst (map named l)).
  { rewrite Q. rewrite !map_map. apply map_ext_in. intros c Hc. destruct (H c Hc) as [s R]. destruct (resolve_meant _ _ _ R) as (M & F & _). unfold named. cbn [fst]. rewrite M. exact F. }
  rewrite N, !map_length. reflexivity.
Qed.
Lemma split_nonempty c s : Model_Catalog.split_char c s <> [].
Proof. induction s as [|a s IH]; cbn [Model_Catalog.split_char]; [discriminate|]. destruct (Model_Catalog.split_char c s); [contradiction|]. destruct (Ascii.eqb _ _); discriminate. Qed.
Lemma collection_ig j : collection_of (append "ig." j) = "ig".
Proof.
  unfold collection_of. replace (has_dot (append "ig." j)) with true by (destruct j; reflexivity). cbn [append Model_Catalog.split_char].
  pose proof (split_nonempty "."%char j) as N. destruct (Model_Catalog.split_char "."%char j) as [|w ws]; [contradiction|]. reflexivity.
Qed.
Lemma usable_resolve P k s : usable_key P k s -> find_subst P k = Ok s.
Proof.
  intros (M & G & O). destruct k as [n|n|n|n]; cbn [meant] in M; try discriminate; injection M as <-; cbn [find_subst].
  - unfold get_gas. destruct (dget _ P); [reflexivity|congruence].
  - destruct O as [j ->]. rewrite collection_ig. cbn [String.eqb Ascii.eqb Bool.eqb]. unfold get_gas. destruct (dget _ P); [reflexivity|congruence].
Qed.
Theorem make_thm P E km kn units uM (k : string -> R) g kw l u : mass_molar E km kn -> counts E km kn uM -> entries g kw l -> l <> [] ->
  (forall c, In c l -> exists s, usable_key P (fst c) s /\ 0 < mw_of P s /\ unit_size E units uM (mw_of P s) (k s)) ->
  NoDup (flat_map (fun c => meant (fst c)) l) -> shapes_combine (map snd l) [1%nat] u ->
  exists m, make P E g units kw = Ok m /\ mixture_ok m /\ shape m = u /\ x_c m = flat_map (fun c => meant (fst c)) l /\
    forall c s i, In c l -> meant (fst c) = [s] -> index_in u i -> amount m s i = fmul (Some (k s)) (at_index (snd c) i).
Proof.
  intros HM HC En Hne HU ND SC.
  assert (RS : forall c, In c l -> exists s, find_subst P (fst c) = Ok s) by (intros c Hc; destruct (HU c Hc) as (s & U & _); exists s; now apply usable_resolve).
  assert (FK : make P E g units kw = from_keys P E units l).
  { destruct En as [kw|s kw d Hd|s kw|l0 kw|l0 kw]; cbn [make]; try reflexivity.
    - rewrite Hd. reflexivity.
    - rewrite fromkeys_firsts. cbn [existsb negb]. now rewrite filter_true. }
  rewrite FK, (from_keys_new P E units l RS). clear FK En.
  assert (ID : forall c, In c l -> meant (fst c) = [full_sid (fst (named c))] /\ fst (named c) = full_sid (fst (named c))).
  { intros c Hc. destruct (RS c Hc) as [s R]. destruct (resolve_meant _ _ _ R) as (M & F & _). unfold named. cbn [fst]. rewrite M. cbn [hd]. rewrite F. auto. }
  assert (NM : flat_map (fun c => meant (fst c)) l = map (fun c => full_sid (fst c)) (map named l)).
  { clear -ID. induction l as [|c l IH]; cbn [flat_map map]; [reflexivity|]. destruct (ID c (or_introl eq_refl)) as [A _]. rewrite A. cbn [app]. f_equal. apply IH. intros; apply ID; now right. }
  rewrite NM in *.
  destruct (new_thm P E km kn units uM k (map named l) u HM HC) as (m & A & B & C & D & F).
  - intros c Hc. apply in_map_iff in Hc. destruct Hc as (c0 & <- & Hc). destruct (ID c0 Hc) as [I1 _]. destruct (HU c0 Hc) as (s & (U1 & U2 & _) & U3 & U4).
    assert (Q : full_sid (fst (named c0)) = s) by congruence. rewrite Q. auto.
  - destruct l; [congruence|discriminate].
  - exact ND.
  - rewrite map_map. cbn [named snd]. exact SC.
  - exists m. do 4 (split; [assumption|]). intros c s i Hc Ms Hi. destruct (ID c Hc) as [I1 _]. assert (Q : s = full_sid (fst (named c))) by congruence. subst s.
    apply (F (named c) i); [now apply in_map|exact Hi].
Qed.

(* ---- shapes ---- *)
Lemma fill_filled n t : filled t n (fill n t).
Proof. induction t as [|[k|] t IH]; cbn [fill map]; constructor; auto. Qed.
Lemma filled_fill n t u : filled t n u -> u = fill n t.
Proof. intro H. induction H as [|d x t u [->|[-> ->]] _ IH]; cbn [fill map]; [reflexivity| |]; now rewrite IH at 1. Qed.
Lemma size_fill n t : size (fill n t) = (known t * n ^ unknowns t)%nat.
Proof.
  induction t as [|[k|] t IH]; [reflexivity| |]; unfold size, fill, known, unknowns in *; cbn [map fold_right]; rewrite IH; cbn [Nat.pow]; lia.
Qed.
Lemma unknowns_open t : unknowns t = open_dims t.
Proof. unfold open_dims. induction t as [|[k|] t IH]; [reflexivity| |]; unfold unknowns in *; cbn [fold_right filter List.length]; now rewrite IH. Qed.
Lemma len_reshape m u m' : mixture_ok m -> x_c m <> [] -> u <> [] -> reshape m u = Ok m' -> len m' = len m.
Proof.
  intros H C U R. destruct (reshape_iff m u H C) as [[A _] _]. destruct (reshape_ok m u m' H U R) as (_ & _ & S & _).
  assert (Sz : size u = size (shape m)) by (apply A; eauto). unfold len. rewrite S. destruct H as (_ & Hs & _).
  destruct u; [congruence|]. destruct (shape m); [congruence|]. f_equal. exact Sz.
Qed.
Theorem reshape_open m t : mixture_ok m -> x_c m <> [] -> t <> [] ->
  (forall m', reshape_to m t = Ok m' -> exists n u, filled t n u /\ size u = size (shape m) /\ reshape m u = Ok m' /\ len m' = len m) /\
  ((open_dims t <= 1)%nat -> forall n u, filled t n u -> size u = size (shape m) -> (0 < size u)%nat -> reshape_to m t = reshape m u) /\
  ((1 < open_dims t)%nat \/ (forall n u, filled t n u -> size u <> size (shape m)) -> reshape_to m t = Err EValueError).
Proof.
  intros H C T. assert (Hn := proj1 H). assert (L : List.length (x_c m) <> 0%nat) by (destruct (x_c m); [congruence|discriminate]).
  assert (FT : forall n, fill n t <> []) by (intro n; destruct t; [congruence|discriminate]).
  assert (RI : forall n m', reshape m (fill n t) = Ok m' -> exists n u, filled t n u /\ size u = size (shape m) /\ reshape m u = Ok m' /\ len m' = len m).
  { intros n m' R. exists n, (fill n t). split; [apply fill_filled|]. destruct (reshape_iff m (fill n t) H C) as [[A _] _]. split; [apply A; eauto|].
    split; [exact R|]. exact (len_reshape _ _ _ H C (FT n) R). }
  unfold reshape_to. cbv zeta. rewrite Hn. cbn [hd]. rewrite <- unknowns_open.
  replace (unknowns (Dim (List.length (x_c m)) :: t)) with (unknowns t) by reflexivity.
  replace (known (Dim (List.length (x_c m)) :: t)) with (List.length (x_c m) * known t)%nat by reflexivity.
  replace (fold_right Nat.mul 1%nat (List.length (x_c m) :: shape m)) with (List.length (x_c m) * size (shape m))%nat by reflexivity.
  remember (List.length (x_c m)) as N eqn:EN. clear EN Hn.
  destruct (unknowns t) as [|[|k]] eqn:Un.
  - split; [apply RI|]. split.
    + intros _ n u F _ _. apply filled_fill in F. subst u. f_equal. clear -Un. induction t as [|[k|] t IH]; cbn [fill map]; [reflexivity| |discriminate].
      f_equal. apply IH. exact Un.
    + intros [X|X]; [lia|]. apply (reshape_iff m (fill 0 t) H C). apply (X 0%nat). apply fill_filled.
  - assert (SF : forall n, size (fill n t) = (known t * n)%nat) by (intro n; rewrite size_fill, Un; cbn [Nat.pow]; lia).
    destruct (Nat.eqb_spec (N * known t) 0) as [Z|Z].
    + assert (K0 : known t = 0%nat) by (destruct (known t); [reflexivity|lia]).
      split; [discriminate|]. split; [|reflexivity]. intros _ n u F S P. apply filled_fill in F. subst u. rewrite SF, K0 in P. lia.
    + assert (K0 : known t <> 0%nat) by (intro Q; rewrite Q in Z; lia).
      rewrite Nat.mul_mod_distr_l by assumption. rewrite Nat.div_mul_cancel_l by assumption.
      destruct (Nat.eqb_spec (N * (size (shape m) mod known t)) 0) as [M|M].
      * assert (M0 : (size (shape m) mod known t = 0)%nat) by (destruct (size (shape m) mod known t)%nat; [reflexivity|lia]).
        split; [apply RI|]. split.
        -- intros _ n u F S P. apply filled_fill in F. subst u. rewrite SF in S. rewrite <- S. rewrite Nat.mul_comm, Nat.div_mul by assumption. reflexivity.
        -- intros [X|X]; [lia|]. exfalso. apply (X (size (shape m) / known t)%nat (fill (size (shape m) / known t) t) (fill_filled _ _)).
           rewrite SF. symmetry. apply Nat.div_exact; assumption.
      * split; [discriminate|]. split; [|reflexivity]. intros _ n u F S P. exfalso. apply M. apply filled_fill in F. subst u. rewrite SF in S. rewrite <- S.
        rewrite Nat.mul_comm. rewrite (Nat.mul_comm (known t)), Nat.mod_mul by assumption. reflexivity.
  - split; [discriminate|]. split; [intros X; lia|reflexivity].
Qed.
Theorem sizes m : mixture_ok m -> len m = Ok (size (shape m)) /\ ndim m = List.length (shape m).
Proof.
  intros (H1 & H2 & _). unfold len, ndim. rewrite H1. cbn [List.length]. split; [|lia]. destruct (shape m); [congruence|reflexivity].
Qed.
Lemma hills_all A l : forall r, hills A l = Ok r -> Forall2 (fun s h => Model_Catalog.hill (A s) s = Ok h) l r.
Proof.
  induction l as [|s l IH]; intros r H; cbn [hills] in H; [injection H as <-; constructor|].
  destruct (Model_Catalog.hill (A s) s) eqn:Q; cbn [bind] in H; [|discriminate]. destruct (hills A l); cbn [bind] in H; [|discriminate].
  injection H as <-. constructor; auto.
Qed.
Theorem lists_thm A m : tolist A m "sid" = Ok (x_c m) /\ tolist A m "instance" = Ok (x_c m) /\ iterate m = x_c m /\
  (forall l, tolist A m "hill" = Ok l -> Forall2 (fun s h => Model_Catalog.hill (A s) s = Ok h) (x_c m) l) /\
  forall mode, mode <> "sid" -> mode <> "hill" -> mode <> "instance" -> tolist A m mode = Err PMParamError.
Proof.
  do 3 (split; [reflexivity|]). split; [intros l H; now apply hills_all|]. intros mode H1 H2 H3. unfold tolist.
  apply String.eqb_neq in H1, H2, H3. now rewrite H1, H2, H3.
Qed.

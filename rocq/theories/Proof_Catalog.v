From Coq Require Import ZArith QArith Ascii Sorted Permutation Lia DecimalString DecimalZ DecimalFacts.
From Verif Require Import Base Text Model_Reg Model_Catalog Spec_Catalog.
Local Open Scope list_scope.
Local Open Scope string_scope.

(* ---- collections ---- *)
Lemma before_some c s p : before c s = Some p <-> no_char c p /\ exists rest, s = p ++ String c rest.
Proof.
  revert p. induction s as [|d s IH]; intro p; cbn.
  - split; [discriminate|]. intros (_ & r & H). destruct p; discriminate.
  - destruct (Ascii.eqb_spec c d) as [->|Hn].
    + split.
      * intro H. injection H as <-. split; [exact I|]. now exists s.
      * intros (Hp & r & H). destruct p as [|x p]; [reflexivity|]. cbn in *. injection H as -> _.
        now destruct Hp.
    + destruct (before c s) as [q|] eqn:E.
      * destruct (proj1 (IH q) eq_refl) as (Hq & r & ->). split.
        -- intro H. injection H as <-. split; [now split|]. now exists r.
        -- intros (Hp & r' & H). destruct p as [|x p]; cbn in H.
           ++ injection H as -> _. congruence.
           ++ injection H as -> H. destruct Hp as [_ Hp].
              assert (H' : Some q = Some p) by (apply IH; split; [exact Hp|now exists r']). congruence.
      * split; [discriminate|]. intros (Hp & r & H). destruct p as [|x p]; cbn in H.
        -- injection H as -> _. congruence.
        -- injection H as -> H. destruct Hp as [_ Hp].
           assert (H' : None = Some p) by (apply IH; split; [exact Hp|now exists r]). discriminate.
Qed.

Lemma before_none c s : before c s = None <-> no_char c s.
Proof.
  induction s as [|d s IH]; cbn; [easy|].
  destruct (Ascii.eqb_spec c d) as [->|Hn]; [split; [discriminate|intros [? _]; congruence]|].
  destruct (before c s); [split; [discriminate|intros [_ H]; apply IH in H; discriminate]|]. intuition congruence.
Qed.

Lemma collection_iff id c : c <> "" -> (collection_of id = c <-> in_collection id c).
Proof.
  intro Hc. unfold collection_of, in_collection. rewrite <- before_some.
  destruct (before "." id) as [p|].
  - split; congruence.
  - split; [intro H; congruence|discriminate].
Qed.

Lemma collection_none id : no_char "." id -> collection_of id = "".
Proof. intro H. unfold collection_of. apply before_none in H. now rewrite H. Qed.

(* ---- search ---- *)
Lemma opt_eq_iff a s : opt_eq a s = true <-> a = Some s.
Proof.
  destruct a as [t|]; cbn; [|split; discriminate]. rewrite String.eqb_eq. split; congruence.
Qed.

Lemma name_match_iff n o : name_match n o = true <-> meets_name n o.
Proof.
  unfold name_match, meets_name, occurs.
  destruct (contains n (ob_id o)) eqn:E.
  - apply contains_iff in E. intuition.
  - assert (Hn : ~ exists a b, ob_id o = a ++ n ++ b).
    { intro H. apply contains_iff in H. congruence. }
    destruct (ob_names o) as [ns|].
    + rewrite existsb_exists. split.
      * intros (c & Hc & Hm). right. exists ns, c. apply contains_iff in Hm. auto.
      * intros [H|(ns' & c & H1 & H2 & H3)]; [contradiction|]. injection H1 as <-.
        exists c. split; [assumption|]. now apply contains_iff.
    + split; [discriminate|]. intros [H|(ns & c & H & _)]; [contradiction|discriminate].
Qed.

Definition none_of (l : list string) : list (string * option Q) := fold_left (fun d a => dset a None d) l [].

Lemma atoms_list_in l a (q : option Q) d :
  In (a, q) (fold_left (fun d a => dset a None d) l d) ->
  (q = None /\ In a l) \/ In (a, q) d.
Proof.
  revert d. induction l as [|b l IH]; intro d; cbn; [auto|].
  intro H. apply IH in H. destruct H as [[H1 H2]|H]; [left; auto|].
  assert (H' : forall d : list (string * option Q), In (a, q) (dset b None d) -> (a = b /\ q = None) \/ In (a, q) d).
  { clear. induction d as [|[k v] d IH]; cbn.
    - intros [E|[]]. injection E as <- <-. auto.
    - destruct (String.eqb_spec b k) as [->|]; cbn.
      + intros [E|E]; [injection E as <- <-; auto|auto].
      + intros [E|E]; [auto|]. apply IH in E. tauto. }
  apply H' in H. destruct H as [[-> ->]|H]; auto.
Qed.

Lemma atoms_list_keys l (d : list (string * option Q)) a :
  (In a l \/ In a (dkeys d)) -> In a (dkeys (fold_left (fun d a => dset a None d) l d)).
Proof.
  revert d. induction l as [|b l IH]; intro d; cbn; [intros [[]|]; auto|].
  intro H. apply IH. rewrite dset_keys. intuition.
Qed.

Lemma atoms_match_iff w have : atoms_match (atoms_arg w) have = true <-> meets_contents w have.
Proof.
  unfold atoms_match. rewrite forallb_forall.
  assert (K : forall a (q : option Q), (match dget a have with Some (Some cq) => match q with None => true | Some q => Qeq_bool cq q end | _ => false end) = true
      <-> exists cq, dget a have = Some (Some cq) /\ (forall w, q = Some w -> (cq == w)%Q)).
  { intros a q. destruct (dget a have) as [[cq|]|].
    - destruct q as [q|].
      + rewrite Qeq_bool_iff. split.
        * intro H. exists cq. split; [reflexivity|]. intros w0 E. now injection E as <-.
        * intros (c & E & H). injection E as <-. now apply H.
      + split; [|reflexivity]. intros _. exists cq. split; [reflexivity|discriminate].
    - split; [discriminate|]. intros (? & ? & _). discriminate.
    - split; [discriminate|]. intros (? & ? & _). discriminate. }
  destruct w as [a|d|l]; cbn [atoms_arg meets_contents].
  - split.
    + intro H. specialize (H (a, None) (or_introl eq_refl)). apply K in H. destruct H as (q & H & _). eauto.
    + intros (q & H) x [<-|[]]. apply (K a None). exists q. split; [assumption|discriminate].
  - split.
    + intros H a want Hin. specialize (H (a, want) Hin). now apply K in H.
    + intros H [a want] Hin. apply (K a want). now apply H.
  - split.
    + intros H a Ha. assert (Hk := atoms_list_keys l [] a (or_introl Ha)).
      apply dget_in_keys in Hk. destruct Hk as [v Hv]. apply dget_some_in in Hv.
      specialize (H _ Hv). cbn in H. apply K in H. destruct H as (q & H & _). eauto.
    + intros H [a want] Hin. apply atoms_list_in in Hin. destruct Hin as [[-> Hin]|[]].
      apply (K a None). destruct (H a Hin) as [q Hq]. exists q. split; [assumption|discriminate].
Qed.

Definition simple_match (c : criteria) (o : obj) : bool :=
  match c_pmclass c with Some s => String.eqb s (ob_class o) | None => true end &&
  match c_collection c with Some s => String.prefix s (ob_id o) | None => true end &&
  match c_cas c with Some s => opt_eq (ob_cas o) s | None => true end &&
  match c_inchi c with Some s => opt_eq (ob_inchi o) s | None => true end &&
  match c_name c with Some s => name_match s o | None => true end.

Lemma supplied_iff {A} (o : option A) (P : A -> Prop) (f : A -> bool) :
  (forall a, f a = true <-> P a) ->
  (match o with Some a => f a | None => true end) = true <-> supplied o P.
Proof.
  intro H. unfold supplied. destruct o as [a|].
  - rewrite H. split; [intros Ha b E; now injection E as <-|auto].
  - split; [discriminate|reflexivity].
Qed.

Lemma simple_match_iff c o : simple_match c o = true <-> meets_simple c o.
Proof.
  unfold simple_match, meets_simple. rewrite !andb_true_iff.
  rewrite (supplied_iff (c_pmclass c) (fun s => ob_class o = s) (fun s => String.eqb s (ob_class o)));
    [|intro; rewrite String.eqb_eq; split; congruence].
  rewrite (supplied_iff (c_collection c) (fun s => exists rest, ob_id o = s ++ rest) (fun s => String.prefix s (ob_id o)));
    [|intro; apply prefix_iff].
  rewrite (supplied_iff (c_cas c) (fun s => ob_cas o = Some s) (fun s => opt_eq (ob_cas o) s)); [|intro; apply opt_eq_iff].
  rewrite (supplied_iff (c_inchi c) (fun s => ob_inchi o = Some s) (fun s => opt_eq (ob_inchi o) s)); [|intro; apply opt_eq_iff].
  rewrite (supplied_iff (c_name c) (fun s => meets_name s o) (fun s => name_match s o)); [|intro; apply name_match_iff].
  tauto.
Qed.

Lemma candidate_eq c o : candidate_match c o =
  match simple_match c o, c_contains c with
  | true, Some w => match ob_atoms o with Some have => Ok (atoms_match (atoms_arg w) have) | None => Err PMDataError end
  | m, _ => Ok m
  end.
Proof. unfold candidate_match, simple_match. destruct (_ && _)%bool; reflexivity. Qed.

Lemma candidate_ok c o b : candidate_match c o = Ok b -> (b = true <-> meets c o).
Proof.
  rewrite candidate_eq. unfold meets. rewrite <- simple_match_iff.
  destruct (simple_match c o).
  - destruct (c_contains c) as [w|].
    + destruct (ob_atoms o) as [have|]; [|discriminate]. intro H. injection H as <-.
      rewrite atoms_match_iff. unfold supplied. split.
      * intro H. split; [reflexivity|]. intros a E. injection E as <-. eauto.
      * intros [_ H]. destruct (H w eq_refl) as (h & E & Hm). now injection E as <-.
    + intro H. injection H as <-. split; [|reflexivity]. intros _. split; [reflexivity|discriminate].
  - intro H. injection H as <-. split; [discriminate|]. intros [? _]. discriminate.
Qed.

(* a search fails exactly when it needs the atoms of a mixture that has none *)
Lemma candidate_err c o x : candidate_match c o = Err x <->
  x = PMDataError /\ c_contains c <> None /\ meets_simple c o /\ ob_atoms o = None.
Proof.
  rewrite candidate_eq, <- simple_match_iff. destruct (simple_match c o).
  - destruct (c_contains c) as [w|]; [destruct (ob_atoms o)|].
    + split; [discriminate|]. intros (_ & _ & _ & ?). discriminate.
    + split; [intro H; injection H as <-; repeat split; discriminate|]. intros (-> & _). reflexivity.
    + split; [discriminate|]. intros (_ & ? & _). congruence.
  - split; [discriminate|]. intros (_ & _ & ? & _). discriminate.
Qed.

Lemma set_add_in o s x : In x (set_add o s) -> In x s \/ x = o.
Proof. unfold set_add. destruct (existsb _ s); [auto|]. rewrite in_app_iff. cbn. intuition. Qed.
Lemma set_add_keep o s x : In x s -> In x (set_add o s).
Proof. unfold set_add. destruct (existsb _ s); [auto|]. rewrite in_app_iff. auto. Qed.
Lemma set_add_ref o s : exists x, In x (set_add o s) /\ ob_ref x = ob_ref o.
Proof.
  unfold set_add. destruct (existsb _ s) eqn:E.
  - apply existsb_exists in E. destruct E as (x & H & E). apply Nat.eqb_eq in E. eauto.
  - exists o. rewrite in_app_iff. cbn. auto.
Qed.
Lemma nodup_app_one {A} (a : A) l : NoDup l -> ~ In a l -> NoDup (l ++ [a]).
Proof.
  intros H Hn. induction H as [|b l Hb H IH]; cbn; [constructor; [intros []|constructor]|].
  constructor.
  - rewrite in_app_iff. cbn. intros [|[->|[]]]; [contradiction|]. apply Hn. now left.
  - apply IH. intro. apply Hn. now right.
Qed.
Lemma set_add_nodup o s : NoDup (map ob_ref s) -> NoDup (map ob_ref (set_add o s)).
Proof.
  intro H. unfold set_add. destruct (existsb _ s) eqn:E; [assumption|].
  rewrite map_app. apply nodup_app_one; [assumption|]. intro Hin. apply in_map_iff in Hin.
  destruct Hin as (x & Hx & Hi).
  assert (Ht : existsb (fun x => Nat.eqb (ob_ref x) (ob_ref o)) s = true).
  { apply existsb_exists. exists x. split; [assumption|]. now apply Nat.eqb_eq. }
  congruence.
Qed.

Lemma search_loop_spec c ms : forall acc out, search_loop c ms acc = Ok out ->
  distinct_refs (acc ++ ms) ->
  (NoDup (map ob_ref acc) -> NoDup (map ob_ref out)) /\
  forall o, In o out <-> In o acc \/ (In o ms /\ meets c o).
Proof.
  induction ms as [|m ms IH]; intros acc out H Hd; cbn in H.
  - injection H as <-. split; [auto|]. intro o. cbn. intuition.
  - destruct (candidate_match c m) as [b|x] eqn:E; [|discriminate].
    apply candidate_ok in E. destruct b.
    + assert (Hm : meets c m) by now apply E.
      assert (Hd' : distinct_refs (set_add m acc ++ ms)).
      { intros x y Hx Hy. apply Hd; apply in_app_iff;
        (apply in_app_iff in Hx; apply in_app_iff in Hy);
        [destruct Hx as [Hx|Hx]|destruct Hy as [Hy|Hy]]; cbn;
        try (apply set_add_in in Hx; destruct Hx; subst); try (apply set_add_in in Hy; destruct Hy; subst); auto. }
      destruct (IH _ _ H Hd') as [H1 H2]. split.
      * intro Hn. apply H1. now apply set_add_nodup.
      * intro o. rewrite H2. cbn. split.
        -- intros [Ho|[Ho Hmo]]; [|auto]. apply set_add_in in Ho. destruct Ho as [Ho|Ho]; [auto|subst; auto].
        -- intros [Ho|[[<-|Ho] Hmo]]; [left; now apply set_add_keep| |auto].
           left. destruct (set_add_ref m acc) as (x & Hx & Hr).
           assert (x = m); [|now subst]. apply Hd'; [apply in_app_iff; auto| |assumption].
           apply in_app_iff. unfold set_add in *.
           destruct (existsb (fun x0 => Nat.eqb (ob_ref x0) (ob_ref m)) acc) eqn:Ex; [|left; apply in_app_iff; cbn; auto].
           apply existsb_exists in Ex. destruct Ex as (z & Hz & Ez). apply Nat.eqb_eq in Ez.
           left. replace m with z; [assumption|]. apply Hd; [apply in_app_iff; auto|apply in_app_iff; cbn; auto|assumption].
    + assert (Hm : ~ meets c m) by (intro Hc; apply E in Hc; discriminate).
      assert (Hd' : distinct_refs (acc ++ ms)).
      { intros x y Hx Hy. apply Hd; apply in_app_iff; apply in_app_iff in Hx, Hy; cbn; intuition. }
      destruct (IH _ _ H Hd') as [H1 H2]. split; [exact H1|]. intro o. rewrite H2. cbn. split; [intuition|].
      intros [Ho|[[<-|Ho] Hmo]]; [auto|contradiction|auto].
Qed.

Lemma search_exact c ms out : distinct_refs ms -> search c ms = Ok out ->
  NoDup out /\ forall o, In o out <-> In o ms /\ meets c o.
Proof.
  intros Hd H. destruct (search_loop_spec c ms [] out H Hd) as [H1 H2]. split.
  - specialize (H1 (NoDup_nil _)). eapply NoDup_map_inv; eauto.
  - intro o. rewrite H2. cbn. intuition.
Qed.

Lemma search_loop_total c ms : forall acc,
  (forall o, In o ms -> meets_simple c o -> c_contains c <> None -> ob_atoms o <> None) ->
  exists out, search_loop c ms acc = Ok out.
Proof.
  induction ms as [|m ms IH]; intros acc H; cbn; [eauto|].
  destruct (candidate_match c m) as [[]|x] eqn:E.
  - apply IH. intros; apply H; cbn; auto.
  - apply IH. intros; apply H; cbn; auto.
  - apply candidate_err in E. destruct E as (_ & H1 & H2 & H3). exfalso. now apply (H m (or_introl eq_refl) H2 H1).
Qed.
Lemma search_loop_fails c ms : forall acc x, search_loop c ms acc = Err x ->
  x = PMDataError /\ exists o, In o ms /\ meets_simple c o /\ c_contains c <> None /\ ob_atoms o = None.
Proof.
  induction ms as [|m ms IH]; intros acc x H; cbn in H; [discriminate|].
  destruct (candidate_match c m) as [[]|y] eqn:E.
  - destruct (IH _ _ H) as (? & o & ? & ?). split; [assumption|]. exists o. cbn. auto.
  - destruct (IH _ _ H) as (? & o & ? & ?). split; [assumption|]. exists o. cbn. auto.
  - injection H as <-. apply candidate_err in E. destruct E as (-> & ? & ? & ?). split; [reflexivity|].
    exists m. cbn. auto.
Qed.
Lemma search_succeeds c ms :
  (exists out, search c ms = Ok out) <->
  (forall o, In o ms -> meets_simple c o -> c_contains c <> None -> ob_atoms o <> None).
Proof.
  split; [|apply search_loop_total].
  intros [out H] o Ho Hs Hc Ha. unfold search in H. revert H. generalize (@nil obj).
  induction ms as [|m ms IH]; intro acc; [destruct Ho|]. cbn. destruct Ho as [<-|Ho].
  - assert (E : candidate_match c m = Err PMDataError) by (apply candidate_err; auto). rewrite E. discriminate.
  - destruct (candidate_match c m) as [[]|x]; [now apply IH|now apply IH|discriminate].
Qed.

Lemma distinct_sub l l' : (forall o, In o l' -> In o l) -> distinct_refs l -> distinct_refs l'.
Proof. intros H Hd x y Hx Hy. apply Hd; auto. Qed.

Lemma search_refine c1 c2 ms o1 o2 : distinct_refs ms ->
  search c1 ms = Ok o1 -> search c2 o1 = Ok o2 ->
  forall o, In o o2 <-> In o ms /\ meets c1 o /\ meets c2 o.
Proof.
  intros Hd H1 H2 o. destruct (search_exact _ _ _ Hd H1) as [_ E1].
  assert (Hd1 : distinct_refs o1) by (eapply distinct_sub; [|exact Hd]; intros x Hx; now apply E1 in Hx).
  destruct (search_exact _ _ _ Hd1 H2) as [_ E2]. rewrite E2, E1. tauto.
Qed.

Lemma supplied_both {A} (a b : option A) P : one_or_other a b ->
  (supplied (both a b) P <-> supplied a P /\ supplied b P).
Proof.
  unfold supplied, both. intros [->| ->].
  - intuition discriminate.
  - destruct a; intuition discriminate.
Qed.
Lemma meets_together c1 c2 o : no_overlap c1 c2 -> (meets (together c1 c2) o <-> meets c1 o /\ meets c2 o).
Proof.
  intros (H1 & H2 & H3 & H4 & H5 & H6). unfold meets, meets_simple, together. cbn [c_name c_contains c_collection c_pmclass c_cas c_inchi].
  rewrite !supplied_both by assumption. tauto.
Qed.
Lemma search_refine_together c1 c2 ms o1 o2 o3 : distinct_refs ms -> no_overlap c1 c2 ->
  search c1 ms = Ok o1 -> search c2 o1 = Ok o2 -> search (together c1 c2) ms = Ok o3 ->
  forall o, In o o2 <-> In o o3.
Proof.
  intros Hd Hn H1 H2 H3 o. rewrite (search_refine c1 c2 ms o1 o2 Hd H1 H2).
  destruct (search_exact _ _ _ Hd H3) as [_ E]. rewrite E, meets_together by assumption. tauto.
Qed.
Lemma search_order c ms ms' out out' : distinct_refs ms -> Permutation ms ms' ->
  search c ms = Ok out -> search c ms' = Ok out' -> Permutation out out'.
Proof.
  intros Hd Hp H H'.
  assert (Hd' : distinct_refs ms').
  { eapply distinct_sub; [|exact Hd]. intros o Ho. eapply Permutation_in; [symmetry; eassumption|assumption]. }
  destruct (search_exact _ _ _ Hd H) as [N1 E1]. destruct (search_exact _ _ _ Hd' H') as [N2 E2].
  apply NoDup_Permutation; [assumption|assumption|]. intro o. rewrite E1, E2.
  split; intros [Hi Hm]; (split; [|assumption]); [eapply Permutation_in; eassumption|].
  eapply Permutation_in; [symmetry; eassumption|assumption].
Qed.
Lemma search_no_criteria ms : distinct_refs ms ->
  exists out, search no_criteria ms = Ok out /\ forall o, In o out <-> In o ms.
Proof.
  intro Hd. destruct (proj2 (search_succeeds no_criteria ms)) as [out H].
  - intros o _ _ Hc. now destruct Hc.
  - exists out. split; [assumption|]. destruct (search_exact _ _ _ Hd H) as [_ E]. intro o. rewrite E.
    unfold meets, meets_simple, supplied. cbn. intuition discriminate.
Qed.

(* collection criterion *)
Lemma meets_only_collection c o : meets (only_collection c) o <-> exists rest, ob_id o = c ++ rest.
Proof.
  unfold meets, meets_simple, supplied. cbn. split.
  - intros [(_ & H & _) _]. now apply H.
  - intro H. repeat split; try discriminate. intros a E. now injection E as <-.
Qed.
Lemma search_collection_complete c ms out o : distinct_refs ms -> c <> "" ->
  search (only_collection c) ms = Ok out -> In o ms -> collection_of (ob_id o) = c -> In o out.
Proof.
  intros Hd Hc H Ho E. apply collection_iff in E; [|assumption]. destruct E as (_ & rest & E).
  apply (search_exact _ _ _ Hd H). split; [assumption|]. apply meets_only_collection. eauto.
Qed.
Lemma search_collection_dot c ms out : distinct_refs ms -> c <> "" -> no_char "." c ->
  search (only_collection (c ++ ".")) ms = Ok out ->
  forall o, In o out <-> In o ms /\ collection_of (ob_id o) = c.
Proof.
  intros Hd Hc Hn H o. destruct (search_exact _ _ _ Hd H) as [_ E].
  rewrite E, meets_only_collection, collection_iff by assumption. unfold in_collection.
  split; intros [H1 H2]; (split; [assumption|]).
  - split; [assumption|]. destruct H2 as [rest H2]. exists rest. rewrite H2, app_assoc_s. reflexivity.
  - destruct H2 as [_ [rest H2]]. exists rest. rewrite H2, app_assoc_s. reflexivity.
Qed.

(* ---- info ---- *)
Lemma info_keeps c : List.length (items c) <> 1%nat -> fst (info c) = c.
Proof. unfold info. destruct (items c) as [|o [|p l]]; cbn; congruence. Qed.
Lemma info_table c rows : snd (info c) = Ok (Table rows) ->
  Permutation (items c) rows /\ Sorted (fun a b => String.leb (ob_id a) (ob_id b) = true) rows.
Proof.
  unfold info. destruct (items c) as [|o [|p l]]; [discriminate|destruct c; discriminate|].
  cbn [snd]. generalize (o :: p :: l). intros L H. injection H as <-.
  split; [apply sort_perm|apply (sort_sorted ob_id)].
Qed.
Lemma info_nothing c : snd (info c) = Ok Nothing <-> items c = [].
Proof.
  unfold info. destruct (items c) as [|o [|p l]]; [now split|split; [destruct c|]; discriminate|split; discriminate].
Qed.
Lemma info_single_list o : fst (info (CList [o])) = CList [] /\ fst (info (CSet [o])) = CSet [].
Proof. split; reflexivity. Qed.
Lemma info_single_tuple o : snd (info (CTuple [o])) = Err EAttributeError.
Proof. reflexivity. Qed.
Definition nitrogen : obj :=
  {| ob_ref := 1; ob_id := "ig.N2"; ob_class := "ig2"; ob_cas := None; ob_inchi := None; ob_names := None; ob_atoms := None |}.
Lemma search_collection_wrong : exists ms out o, distinct_refs ms /\
  search (only_collection "i") ms = Ok out /\ In o out /\ collection_of (ob_id o) <> "i".
Proof.
  exists [nitrogen], [nitrogen], nitrogen. repeat split; [|now left|discriminate].
  intros x y [<-|[]] [<-|[]] _. reflexivity.
Qed.

From Coq Require Import List String Bool Arith Lia Sorted Permutation.
From Verif Require Import Base Text Model_Dat Spec_Dat.
Import ListNotations.
Local Open Scope string_scope.
Local Open Scope list_scope.

(* ---------- names ---------- *)
Lemma length_pos (a : string) : a <> "" <-> 0 < String.length a.
Proof. destruct a; cbn; split; intros; try lia; try congruence. Qed.

Lemma data_name_iff name :
  (Nat.ltb 4 (String.length name) && ends_with ".hpd" name) = true <-> data_name name.
Proof.
  rewrite andb_true_iff, Nat.ltb_lt, ends_with_iff. unfold data_name. split.
  - intros [Hl [a ->]]. exists a. split; [|reflexivity]. apply length_pos.
    rewrite app_length_s in Hl. cbn in Hl. lia.
  - intros (a & Ha & ->). apply length_pos in Ha. rewrite app_length_s. cbn. split; [lia|eauto].
Qed.

Lemma suppressed_name_iff name :
  (Nat.ltb 5 (String.length name) && ends_with ".hpd~" name) = true <-> suppressed_name name.
Proof.
  rewrite andb_true_iff, Nat.ltb_lt, ends_with_iff. unfold suppressed_name. split.
  - intros [Hl [a ->]]. exists a. split; [|reflexivity]. apply length_pos.
    rewrite app_length_s in Hl. cbn in Hl. lia.
  - intros (a & Ha & ->). apply length_pos in Ha. rewrite app_length_s. cbn. split; [lia|eauto].
Qed.

Definition followedb (rec : bool) (name : string) (n : node) : bool :=
  (rec && is_dir n) || (Nat.ltb 4 (String.length name) && ends_with ".hpd" name).

Lemma followed_iff rec name n : followedb rec name n = true <-> followed rec name n.
Proof.
  unfold followedb, followed. rewrite orb_true_iff, data_name_iff, andb_true_iff.
  assert (Hd : is_dir n = true <-> exists es, n = NDir es).
  { destruct n; cbn; split; intros H; try discriminate; try (destruct H; discriminate); eauto. }
  rewrite Hd. tauto.
Qed.

(* ---------- running over items ---------- *)
Definition run_item (cfg : datcfg) (reg : registry) (i : item) (st : dstate) : dstate * option exn :=
  match i with
  | File p c => load_one_file cfg reg p c st
  | Suppressed p => (note_suppressed st p, None)
  end.
Fixpoint run_items (cfg : datcfg) (reg : registry) (l : list item) (st : dstate) : dstate * option exn :=
  match l with
  | [] => (st, None)
  | i :: l' => match run_item cfg reg i st with
               | (st', None) => run_items cfg reg l' st'
               | (st', Some x) => (st', Some x)
               end
  end.

Lemma run_items_app cfg reg l1 l2 st :
  run_items cfg reg (l1 ++ l2) st =
  match run_items cfg reg l1 st with
  | (st', None) => run_items cfg reg l2 st'
  | (st', Some x) => (st', Some x)
  end.
Proof.
  revert st. induction l1 as [|i l1 IH]; intro st; cbn; [reflexivity|].
  destruct (run_item cfg reg i st) as [st' [x|]]; [reflexivity|]. apply IH.
Qed.

(* ---------- named pieces of load_node ---------- *)
Definition job (cfg : datcfg) (reg : registry) (path : string) (e : string * node) : dstate -> dstate * option exn :=
  let (name, m) := e in
  if followedb (recursive cfg) name m
  then load_node cfg reg (join path name) m
  else if Nat.ltb 5 (String.length name) && ends_with ".hpd~" name
  then fun st => (note_suppressed st (join path name), None)
  else fun st => (st, None).

Fixpoint run_jobs (js : list (string * (dstate -> dstate * option exn))) (st : dstate) : dstate * option exn :=
  match js with
  | [] => (st, None)
  | (_, f) :: js' => match f st with
                     | (st', None) => run_jobs js' st'
                     | (st', Some x) => (st', Some x)
                     end
  end.

Lemma load_node_dir cfg reg path entries st :
  load_node cfg reg path (NDir entries) st =
  run_jobs (sort fst (map (fun e => (fst e, job cfg reg path e)) entries)) st.
Proof.
  cbn [load_node].
  match goal with |- context [sort fst ?j] =>
    replace j with (map (fun e => (fst e, job cfg reg path e)) entries) end.
  - generalize (sort fst (map (fun e => (fst e, job cfg reg path e)) entries)). intro js.
    revert st. induction js as [|[s f] js IH]; intro st; cbn; [reflexivity|].
    destruct (f st) as [st' [x|]]; [reflexivity|]. apply IH.
  - induction entries as [|[name m] entries IH]; cbn; [reflexivity|]. rewrite IH. reflexivity.
Qed.

Lemma insert_map {A B} (ka : A -> string) (kb : B -> string) (f : A -> B) x l :
  (forall a, kb (f a) = ka a) -> insert kb (f x) (map f l) = map f (insert ka x l).
Proof.
  intro H. induction l as [|y l IH]; cbn; [reflexivity|]. rewrite !H.
  destruct (String.leb (ka x) (ka y)); cbn; [reflexivity|]. now rewrite IH.
Qed.
Lemma sort_map {A B} (ka : A -> string) (kb : B -> string) (f : A -> B) l :
  (forall a, kb (f a) = ka a) -> sort kb (map f l) = map f (sort ka l).
Proof.
  intro H. induction l as [|x l IH]; [reflexivity|].
  change (insert kb (f x) (sort kb (map f l)) = map f (insert ka x (sort ka l))).
  rewrite IH. now apply insert_map.
Qed.

Lemma sorted_is_sort (entries es : list (string * node)) :
  NoDup (map fst entries) -> Permutation entries es ->
  Sorted (fun a b => String.leb (fst a) (fst b) = true) es -> sort fst entries = es.
Proof.
  intros Hnd Hp Hs. apply (sorted_unique fst).
  - eapply Permutation_NoDup; [apply Permutation_map, sort_perm|assumption].
  - rewrite <- (sort_perm fst entries). exact Hp.
  - apply sort_sorted.
  - exact Hs.
Qed.

Scheme visits_mut := Minimality for visits Sort Prop
  with visits_list_mut := Minimality for visits_list Sort Prop.

Lemma load_node_visits cfg reg p n l :
  visits (recursive cfg) p n l ->
  forall st, load_node cfg reg p n st = run_items cfg reg l st.
Proof.
  intro H.
  apply (visits_mut (recursive cfg)
    (fun p n l => forall st, load_node cfg reg p n st = run_items cfg reg l st)
    (fun p es l => forall st, run_jobs (map (fun e => (fst e, job cfg reg p e)) es) st = run_items cfg reg l st));
    [| | | | | | |exact H]; clear.
  - intros p c st. cbn. destruct (load_one_file cfg reg p c st) as [st' [x|]]; reflexivity.
  - reflexivity.
  - intros p entries es l Hnd Hp Hs _ IH st. rewrite load_node_dir.
    rewrite (sort_map fst fst) by reflexivity. rewrite (sorted_is_sort entries es Hnd Hp Hs). apply IH.
  - reflexivity.
  - intros p name n es l1 l2 Hf _ IH1 _ IH2 st. cbn [map run_jobs job fst].
    apply followed_iff in Hf. rewrite Hf, run_items_app. rewrite (IH1 st : load_node cfg reg (join p name) n st = _).
    destruct (run_items cfg reg l1 st) as [st' [x|]]; [reflexivity|]. apply IH2.
  - intros p name n es l Hf Hsn _ IH st. cbn [map run_jobs job fst run_items run_item].
    destruct (followedb (recursive cfg) name n) eqn:E; [apply followed_iff in E; contradiction|].
    apply suppressed_name_iff in Hsn. rewrite Hsn. apply IH.
  - intros p name n es l Hf Hsn _ IH st. cbn [map run_jobs job fst].
    destruct (followedb (recursive cfg) name n) eqn:E; [apply followed_iff in E; contradiction|].
    destruct (Nat.ltb 5 (String.length name) && ends_with ".hpd~" name) eqn:E2;
      [apply suppressed_name_iff in E2; contradiction|]. apply IH.
Qed.

Lemma load_dirs_visits cfg reg ds l :
  visits_dirs (recursive cfg) ds l ->
  forall st, load_dirs cfg reg ds st = run_items cfg reg l st.
Proof.
  induction 1 as [|p ds l H IH|p n ds l1 l2 H1 H2 IH]; intro st; cbn [load_dirs].
  - reflexivity.
  - apply IH.
  - rewrite run_items_app, (load_node_visits _ _ _ _ _ H1).
    destruct (run_items cfg reg l1 st) as [st' [x|]]; [reflexivity|]. apply IH.
Qed.

Scheme wf_node_mut := Minimality for wf_node Sort Prop
  with wf_list_mut := Minimality for wf_list Sort Prop.

Lemma visits_exist rec n : wf_node n -> forall p, exists l, visits rec p n l.
Proof.
  intro H.
  apply (wf_node_mut (fun n => forall p, exists l, visits rec p n l)
    (fun es => Forall (fun e => forall p, exists l, visits rec p (snd e) l) es)); [| | | | |exact H]; clear.
  - intros c p. eexists. constructor.
  - intros p. eexists. constructor.
  - intros es Hnd _ IH p.
    assert (Hs : Forall (fun e => forall p, exists l, visits rec p (snd e) l) (sort fst es)).
    { rewrite Forall_forall in *. intros e He. apply IH. eapply Permutation_in; [|exact He].
      symmetry. apply sort_perm. }
    assert (Hl : exists l, visits_list rec p (sort fst es) l).
    { induction Hs as [|[name n] es' Hn _ [l2 IHs]].
      - eexists. constructor.
      - cbn in Hn. destruct (followedb rec name n) eqn:E.
        + destruct (Hn (p ++ "/" ++ name)%string) as [l1 H1]. eexists. apply vl_follow; eauto. now apply followed_iff.
        + assert (Hnf : ~ followed rec name n) by (rewrite <- followed_iff; congruence).
          destruct (Nat.ltb 5 (String.length name) && ends_with ".hpd~" name) eqn:E2.
          * apply suppressed_name_iff in E2. eexists. apply vl_suppressed; eauto.
          * eexists. apply vl_skip; eauto. rewrite <- suppressed_name_iff. congruence. }
    destruct Hl as [l Hl]. exists l. apply (v_dir rec p es (sort fst es) l Hnd); [| |exact Hl].
    + apply sort_perm.
    + apply (sort_sorted fst).
  - constructor.
  - intros. constructor; auto.
Qed.

(* ---------- one file ---------- *)
Inductive outcome := OSkip | ODef (id : string) (d : jdict) | OStrange.
Definition outcome_of (p : string) (c : content) : outcome :=
  match load_file c with
  | Err _ => OSkip
  | Ok v => match with_source v p with
            | Err _ => OStrange
            | Ok d => match str_field "id" d with Ok id => ODef id d | Err _ => OStrange end
            end
  end.

Lemma definition_outcome p c id d :
  definition p c = Some (id, d) -> outcome_of p c = ODef id d.
Proof.
  unfold definition, outcome_of, load_file. destruct c as [|[| | | | |dd]]; try discriminate.
  cbn [json_in]. destruct (dmem "id" dd) eqn:E1; [|discriminate]. destruct (dmem "doc" dd) eqn:E2; [|discriminate].
  destruct (dmem "class" dd) eqn:E3; [|discriminate]. cbn [andb with_source].
  destruct (dget "id" dd) as [[| | |s| |]|] eqn:E; try discriminate. intro H. injection H as <- <-.
  unfold str_field. rewrite dget_dset_other by discriminate. rewrite E. reflexivity.
Qed.

Lemma outcome_definition p c id d :
  outcome_of p c = ODef id d -> definition p c = Some (id, d).
Proof.
  unfold definition, outcome_of, load_file. destruct c as [|v]; [discriminate|].
  destruct v as [|b|q|s|l|dd]; cbn [json_in]; try discriminate.
  - destruct (contains "id" s), (contains "doc" s), (contains "class" s); discriminate.
  - repeat match goal with |- context [existsb ?f l] => destruct (existsb f l) end; discriminate.
  - destruct (dmem "id" dd) eqn:E1, (dmem "doc" dd) eqn:E2, (dmem "class" dd) eqn:E3; try discriminate.
    cbn [with_source andb]. unfold str_field. rewrite dget_dset_other by discriminate.
    destruct (dget "id" dd) as [[| | |s| |]|]; try discriminate. intro H. injection H as <- <-. reflexivity.
Qed.

Lemma malformed_skip p c : malformed c -> outcome_of p c = OSkip.
Proof.
  unfold outcome_of. intros [->|(d & -> & H)]; [reflexivity|]. cbn.
  unfold dmem. destruct (dget "id" d), (dget "doc" d), (dget "class" d); try reflexivity.
  destruct H as [H|[H|H]]; discriminate.
Qed.

Lemma malformed_no_definition p c : malformed c -> definition p c = None.
Proof.
  intro H. pose proof (malformed_skip p c H) as Ho.
  destruct (definition p c) as [[id d]|] eqn:E; [|reflexivity].
  apply definition_outcome in E. congruence.
Qed.

Lemma construct_ok reg d s : construct reg d = Ok s -> s_data s = d /\
  exists cl ctor, dget "class" d = Some (JStr cl) /\ s_class s = cl /\ dget cl reg = Some ctor /\ ctor d = None.
Proof.
  unfold construct. destruct (dget "class" d) as [[| | |cl| |]|]; try discriminate.
  destruct (dget cl reg) as [ctor|] eqn:E; [|discriminate]. destruct (ctor d) eqn:E2; [discriminate|].
  intro H. injection H as <-. cbn. split; [reflexivity|]. exists cl, ctor. auto.
Qed.

Lemma load_one_file_plain cfg reg p c data :
  load_one_file cfg reg p c {| mem := data; chk := None |} =
  match outcome_of p c with
  | OSkip => ({| mem := data; chk := None |}, None)
  | OStrange => load_one_file cfg reg p c {| mem := data; chk := None |}
  | ODef id d =>
      if dmem id data && exist_fatal cfg then ({| mem := data; chk := None |}, Some PMDataError)
      else if dmem id data && negb (overwrite cfg) then ({| mem := data; chk := None |}, None)
      else match construct reg d with
           | Ok s => ({| mem := dset id s data; chk := None |}, None)
           | Err x => ({| mem := data; chk := None |}, Some x)
           end
  end.
Proof.
  destruct (outcome_of p c) as [|id d|] eqn:E; [| |reflexivity];
  unfold outcome_of in E; unfold load_one_file.
  - destruct (load_file c) as [v|x]; [|reflexivity].
    destruct (with_source v p) as [d|x]; [|discriminate]. destruct (str_field "id" d); discriminate.
  - destruct (load_file c) as [v|x]; [|discriminate].
    destruct (with_source v p) as [d'|x]; [|discriminate]. destruct (str_field "id" d') as [id'|]; [|discriminate].
    injection E as -> ->. unfold loadto. cbn [chk mem]. destruct (dmem id data); cbn [andb note_redundant chk note_first].
    + destruct (exist_fatal cfg); [reflexivity|]. destruct (overwrite cfg); cbn [negb]; [|reflexivity].
      destruct (construct reg d); reflexivity.
    + destruct (construct reg d); reflexivity.
Qed.

Lemma load_one_file_chk_none cfg reg p c data st' x :
  load_one_file cfg reg p c {| mem := data; chk := None |} = (st', x) -> chk st' = None.
Proof.
  unfold load_one_file. destruct (load_file c) as [v|]; [|intro H; injection H as <- _; reflexivity].
  destruct (with_source v p) as [d|]; [|intro H; injection H as <- _; reflexivity].
  destruct (str_field "id" d) as [id|]; [|intro H; injection H as <- _; reflexivity].
  unfold loadto. cbn [chk mem note_redundant note_first].
  destruct (dmem id data), (exist_fatal cfg), (negb (overwrite cfg)), (construct reg d);
    intro H; injection H as <- _; reflexivity.
Qed.

Lemma load_one_file_strange cfg reg p c st : outcome_of p c = OStrange ->
  exists x, load_one_file cfg reg p c st = (st, Some x).
Proof.
  unfold outcome_of, load_one_file. destruct (load_file c) as [v|]; [|discriminate].
  destruct (with_source v p) as [d|]; [|eauto]. destruct (str_field "id" d); [discriminate|eauto].
Qed.

Definition plain (data : collection) : dstate := {| mem := data; chk := None |}.

Lemma run_items_plain cfg reg l : forall data, chk (fst (run_items cfg reg l (plain data))) = None.
Proof.
  induction l as [|[p c|p] l IH]; intro data; cbn; [reflexivity| |apply IH].
  destruct (load_one_file cfg reg p c (plain data)) as [st' x] eqn:E.
  pose proof (load_one_file_chk_none _ _ _ _ _ _ _ E) as Hc.
  destruct x as [x|]; [exact Hc|]. destruct st' as [m c']. cbn in Hc. subst c'. apply IH.
Qed.

Lemma load_unfold cfg reg ds l data : visits_dirs (recursive cfg) ds l ->
  load cfg reg ds data =
  (mem (fst (run_items cfg reg l (plain data))), snd (run_items cfg reg l (plain data))).
Proof.
  intro H. unfold load. rewrite (load_dirs_visits _ _ _ _ H). fold (plain data).
  destruct (run_items cfg reg l (plain data)); reflexivity.
Qed.

Lemma defs_cons i l : defs (i :: l) =
  (match i with File p c => match definition p c with Some x => [x] | None => [] end | Suppressed _ => [] end) ++ defs l.
Proof. reflexivity. Qed.

(* successful loads, mode by mode *)
Lemma dget_app {A} k (l1 l2 : list (string * A)) :
  dget k (l1 ++ l2) = match dget k l1 with Some v => Some v | None => dget k l2 end.
Proof.
  induction l1 as [|[k' v] l1 IH]; cbn; [reflexivity|]. destruct (String.eqb k k'); auto.
Qed.

Lemma overwrite_run cfg reg l : overwrite cfg = true -> exist_fatal cfg = false ->
  forall data st', run_items cfg reg l (plain data) = (st', None) ->
  forall id, dat_of (mem st') id = match last_def id l with Some d => Some d | None => dat_of data id end.
Proof.
  intros Ho Hf. induction l as [|[p c|p] l IH]; intros data st' H id.
  - injection H as <-. reflexivity.
  - cbn [run_items run_item] in H. unfold plain in H. rewrite load_one_file_plain in H.
    unfold last_def. rewrite defs_cons.
    destruct (outcome_of p c) as [|id' d|] eqn:E.
    + destruct (definition p c) as [[id' d]|] eqn:E2; [apply definition_outcome in E2; congruence|].
      now apply IH.
    + rewrite (outcome_definition _ _ _ _ E). rewrite Hf, Ho in H. cbn [negb] in H. rewrite !andb_false_r in H.
      destruct (construct reg d) as [s|x] eqn:Ec; [|discriminate].
      specialize (IH _ _ H id). unfold last_def in IH. rewrite IH. cbn [app rev].
      rewrite dget_app. destruct (dget id (rev (defs l))); [reflexivity|]. cbn.
      unfold dat_of. destruct (String.eqb_spec id id') as [->|Hn].
      * rewrite dget_dset_same. cbn. apply construct_ok in Ec. destruct Ec as [-> _]. reflexivity.
      * now rewrite dget_dset_other.
    + destruct (load_one_file_strange cfg reg p c {| mem := data; chk := None |} E) as [x Hx].
      rewrite Hx in H. discriminate.
  - cbn in H. now apply IH.
Qed.

Lemma ignore_run cfg reg l : overwrite cfg = false -> exist_fatal cfg = false ->
  forall data st', run_items cfg reg l (plain data) = (st', None) ->
  forall id, dat_of (mem st') id = match dat_of data id with Some d => Some d | None => first_def id l end.
Proof.
  intros Ho Hf. induction l as [|[p c|p] l IH]; intros data st' H id.
  - injection H as <-. cbn. now destruct (dat_of data id).
  - cbn [run_items run_item] in H. unfold plain in H. rewrite load_one_file_plain in H.
    unfold first_def. rewrite defs_cons.
    destruct (outcome_of p c) as [|id' d|] eqn:E.
    + destruct (definition p c) as [[id' d]|] eqn:E2; [apply definition_outcome in E2; congruence|].
      now apply IH.
    + rewrite (outcome_definition _ _ _ _ E). rewrite Hf, Ho in H. cbn [negb] in H. rewrite andb_false_r, andb_true_r in H.
      destruct (dmem id' data) eqn:Em.
      * specialize (IH _ _ H id). rewrite IH. unfold dat_of in *. cbn. unfold dmem in Em.
        destruct (dget id data) as [s|] eqn:Eg; [reflexivity|]. cbn.
        destruct (String.eqb_spec id id') as [->|Hn]; [rewrite Eg in Em; discriminate|reflexivity].
      * destruct (construct reg d) as [s|x] eqn:Ec; [|discriminate].
        specialize (IH _ _ H id). rewrite IH. cbn. unfold dat_of, dmem in *.
        destruct (String.eqb_spec id id') as [->|Hn].
        -- rewrite dget_dset_same. cbn. destruct (dget id' data); [discriminate|]. cbn.
           apply construct_ok in Ec. destruct Ec as [-> _]. reflexivity.
        -- rewrite dget_dset_other by assumption. destruct (dget id data); reflexivity.
    + destruct (load_one_file_strange cfg reg p c {| mem := data; chk := None |} E) as [x Hx].
      rewrite Hx in H. discriminate.
  - cbn in H. now apply IH.
Qed.

Lemma all_loadable_cons reg i l : all_loadable reg (i :: l) -> all_loadable reg l.
Proof. intros H p c Hin. apply H. now right. Qed.

Lemma loadable_outcome reg p c l : all_loadable reg (File p c :: l) ->
  (outcome_of p c = OSkip /\ definition p c = None) \/
  exists id d s, outcome_of p c = ODef id d /\ definition p c = Some (id, d) /\ construct reg d = Ok s.
Proof.
  intro H. destruct (H p c) as [Hm|(id & d & cl & ctor & H1 & H2 & H3 & H4)]; [now left| |].
  - left. split; [now apply malformed_skip|now apply malformed_no_definition].
  - right. exists id, d, {| s_class := cl; s_data := d |}. split; [now apply definition_outcome|].
    split; [assumption|]. unfold construct. now rewrite H2, H3, H4.
Qed.

Lemma loadable_run cfg reg l : exist_fatal cfg = false -> all_loadable reg l ->
  forall data, snd (run_items cfg reg l (plain data)) = None.
Proof.
  intros Hf. induction l as [|[p c|p] l IH]; intros Hl data; [reflexivity| |].
  - cbn [run_items run_item]. unfold plain. rewrite load_one_file_plain.
    destruct (loadable_outcome _ _ _ _ Hl) as [[-> _]|(id & d & s & -> & _ & Hs)].
    + apply IH. eapply all_loadable_cons; eauto.
    + rewrite Hf, andb_false_r, Hs. destruct (dmem id data && negb (overwrite cfg)); apply IH; eapply all_loadable_cons; eauto.
  - cbn. apply IH. eapply all_loadable_cons; eauto.
Qed.

(* fatal mode *)
Lemma dmem_iff {A} k (d : list (string * A)) : dmem k d = true <-> In k (dkeys d).
Proof.
  unfold dmem. rewrite <- dget_in_keys. destruct (dget k d); split; intros H; try congruence; eauto.
  destruct H; discriminate.
Qed.

Lemma fatal_run cfg reg l : exist_fatal cfg = true -> all_loadable reg l ->
  forall data,
   (snd (run_items cfg reg l (plain data)) = None /\
    NoDup (map fst (defs l)) /\ (forall id, In id (map fst (defs l)) -> ~ In id (dkeys data))) \/
   (snd (run_items cfg reg l (plain data)) = Some PMDataError /\
    ~ (NoDup (map fst (defs l)) /\ (forall id, In id (map fst (defs l)) -> ~ In id (dkeys data)))).
Proof.
  intros Hf. induction l as [|[p c|p] l IH]; intros Hl data.
  - left. cbn. split; [reflexivity|]. split; [constructor|]. intros id [].
  - cbn [run_items run_item]. unfold plain at 1 2. rewrite load_one_file_plain, defs_cons.
    destruct (loadable_outcome _ _ _ _ Hl) as [[-> ->]|(id & d & s & -> & -> & Hs)].
    + apply IH. eapply all_loadable_cons; eauto.
    + rewrite Hf, andb_true_r. cbn [app map fst]. destruct (dmem id data) eqn:Em.
      * right. split; [reflexivity|]. intros [_ H]. apply (H id); [now left|]. now apply dmem_iff.
      * cbn [andb]. rewrite Hs. fold (plain (dset id s data)).
        destruct (IH (all_loadable_cons _ _ _ Hl) (dset id s data)) as [(H1 & H2 & H3)|(H1 & H2)].
        -- left. split; [exact H1|]. split.
           ++ constructor; [|assumption]. intro Hin. apply (H3 id Hin). apply dset_keys. now left.
           ++ intros id' [<-|Hin]; [intro Hk; apply dmem_iff in Hk; congruence|].
              intro Hk. apply (H3 id' Hin). apply dset_keys. now right.
        -- right. split; [exact H1|]. intros [Hn Hd]. apply H2. inversion Hn as [|? ? Hni Hnd]; subst.
           split; [assumption|]. intros id' Hin Hk. apply dset_keys in Hk. destruct Hk as [->|Hk]; [contradiction|].
           apply (Hd id'); [now right|assumption].
  - cbn. apply IH. eapply all_loadable_cons; eauto.
Qed.

(* C17 *)
Lemma load_overwrite cfg reg ds l data data' :
  overwrite cfg = true -> exist_fatal cfg = false -> visits_dirs (recursive cfg) ds l ->
  load cfg reg ds data = (data', None) ->
  forall id, dat_of data' id = match last_def id l with Some d => Some d | None => dat_of data id end.
Proof.
  intros Ho Hf Hv H. rewrite (load_unfold _ _ _ _ _ Hv) in H.
  destruct (run_items cfg reg l (plain data)) as [st' x] eqn:E. injection H as <- ->.
  eapply overwrite_run; eauto.
Qed.
Lemma load_ignore cfg reg ds l data data' :
  overwrite cfg = false -> exist_fatal cfg = false -> visits_dirs (recursive cfg) ds l ->
  load cfg reg ds data = (data', None) ->
  forall id, dat_of data' id = match dat_of data id with Some d => Some d | None => first_def id l end.
Proof.
  intros Ho Hf Hv H. rewrite (load_unfold _ _ _ _ _ Hv) in H.
  destruct (run_items cfg reg l (plain data)) as [st' x] eqn:E. injection H as <- ->.
  eapply ignore_run; eauto.
Qed.
Lemma load_fatal cfg reg ds l data :
  exist_fatal cfg = true -> visits_dirs (recursive cfg) ds l -> all_loadable reg l ->
  (snd (load cfg reg ds data) = None <->
   NoDup (map fst (defs l)) /\ (forall id, In id (map fst (defs l)) -> ~ In id (dkeys data))) /\
  (snd (load cfg reg ds data) <> None -> snd (load cfg reg ds data) = Some PMDataError).
Proof.
  intros Hf Hv Hl. rewrite (load_unfold _ _ _ _ _ Hv). cbn [snd].
  destruct (fatal_run cfg reg l Hf Hl data) as [(-> & H)|(-> & H)].
  - split; [tauto|congruence].
  - split; [|reflexivity]. split; [discriminate|contradiction].
Qed.
Lemma load_succeeds cfg reg ds l data :
  exist_fatal cfg = false -> visits_dirs (recursive cfg) ds l -> all_loadable reg l ->
  snd (load cfg reg ds data) = None.
Proof.
  intros Hf Hv Hl. rewrite (load_unfold _ _ _ _ _ Hv). cbn. now apply loadable_run.
Qed.

(* C18 *)
Definition skippedb (c : content) : bool := match load_file c with Err _ => true | Ok _ => false end.

Fixpoint relevant (l : list item) : list item :=
  match l with
  | [] => []
  | File p c :: l' => if skippedb c then relevant l' else File p c :: relevant l'
  | Suppressed _ :: l' => relevant l'
  end.

Lemma run_relevant cfg reg l : forall data, run_items cfg reg l (plain data) = run_items cfg reg (relevant l) (plain data).
Proof.
  induction l as [|[p c|p] l IH]; intro data; [reflexivity| |].
  - cbn [run_items run_item relevant]. destruct (skippedb c) eqn:E.
    + unfold skippedb in E. unfold load_one_file at 1. destruct (load_file c); [discriminate|]. cbn. apply IH.
    + cbn [run_items run_item]. destruct (load_one_file cfg reg p c (plain data)) as [st' x] eqn:E2.
      pose proof (load_one_file_chk_none _ _ _ _ _ _ _ E2) as Hc. destruct x; [reflexivity|].
      destruct st' as [m c']. cbn in Hc. subst c'. apply IH.
  - cbn. apply IH.
Qed.

Lemma malformed_skippedb c : malformed c -> skippedb c = true.
Proof.
  intro H. pose proof (malformed_skip "" c H) as Ho. unfold outcome_of in Ho. unfold skippedb.
  destruct (load_file c) as [v|]; [|reflexivity]. destruct (with_source v "") as [d|]; [|discriminate].
  destruct (str_field "id" d); discriminate.
Qed.

Lemma same_relevant l1 l2 : same_but_malformed l1 l2 -> relevant l1 = relevant l2.
Proof.
  induction 1; cbn; auto.
  - destruct i; [|assumption]. destruct (skippedb c); [assumption|]. now f_equal.
  - now rewrite (malformed_skippedb _ H).
  - now rewrite (malformed_skippedb _ H).
Qed.

Lemma load_ignores_malformed cfg reg ds1 ds2 l1 l2 data :
  visits_dirs (recursive cfg) ds1 l1 -> visits_dirs (recursive cfg) ds2 l2 ->
  same_but_malformed l1 l2 -> load cfg reg ds1 data = load cfg reg ds2 data.
Proof.
  intros H1 H2 H. rewrite (load_unfold _ _ _ _ _ H1), (load_unfold _ _ _ _ _ H2).
  now rewrite (run_relevant _ _ l1), (run_relevant _ _ l2), (same_relevant _ _ H).
Qed.

Lemma visits_names rec p n l : visits rec p n l ->
  forall q c, In (File q c) l -> (exists d name, q = join d name /\ data_name name) \/ (n = NFile c /\ q = p).
Proof.
  intro H.
  apply (visits_mut rec
    (fun p n l => forall q c, In (File q c) l -> (exists d name, q = join d name /\ data_name name) \/ (n = NFile c /\ q = p))
    (fun p es l => forall q c, In (File q c) l -> exists d name, q = join d name /\ data_name name));
    [| | | | | | |exact H]; clear.
  - intros p c q c' [E|[]]. injection E as <- <-. now right.
  - intros p q c [].
  - intros p entries es l _ _ _ _ IH q c Hin. left. eauto.
  - intros p q c [].
  - intros p name n es l1 l2 Hf _ IH1 _ IH2 q c Hin. apply in_app_or in Hin. destruct Hin as [Hin|Hin]; [|eauto].
    destruct (IH1 _ _ Hin) as [H|[-> ->]]; [exact H|]. destruct Hf as [[_ [es' E]]|Hd]; [discriminate|].
    exists p, name. auto.
  - intros p name n es l _ _ _ IH q c [E|Hin]; [discriminate|]. eauto.
  - intros p name n es l _ _ _ IH q c Hin. eauto.
Qed.

Lemma visits_dirs_names rec ds l : visits_dirs rec ds l ->
  (forall p n, In (p, Some n) ds -> exists es, n = NDir es) ->
  forall q c, In (File q c) l -> exists d name, q = join d name /\ data_name name.
Proof.
  induction 1 as [|p ds l H IH|p n ds l1 l2 H1 H2 IH]; intros Hd q c Hin.
  - destruct Hin.
  - apply (IH (fun p n Hp => Hd p n (or_intror Hp)) q c Hin).
  - apply in_app_or in Hin. destruct Hin as [Hin|Hin].
    + destruct (visits_names _ _ _ _ H1 _ _ Hin) as [Hx|[-> _]]; [exact Hx|].
      destruct (Hd p (NFile c)) as [es E]; [now left|discriminate].
    + apply (IH (fun p n Hp => Hd p n (or_intror Hp)) q c Hin).
Qed.

(* provenance of everything in memory *)
Lemma run_provenance cfg reg l : forall data,
  forall id s, dget id (mem (fst (run_items cfg reg l (plain data)))) = Some s ->
  dget id data = Some s \/ exists p c, In (File p c) l /\ definition p c = Some (id, s_data s).
Proof.
  induction l as [|[p c|p] l IH]; intros data id s H; [now left| |].
  - cbn [run_items run_item] in H. unfold plain in H at 1. rewrite load_one_file_plain in H.
    destruct (outcome_of p c) as [|id' d|] eqn:E.
    + destruct (IH _ _ _ H) as [Hd|(p' & c' & Hi & Hd)]; [now left|]. right. exists p', c'. split; [now right|assumption].
    + destruct (dmem id' data && exist_fatal cfg); [now left|].
      destruct (dmem id' data && negb (overwrite cfg)).
      * destruct (IH _ _ _ H) as [Hd|(p' & c' & Hi & Hd)]; [now left|]. right. exists p', c'. split; [now right|assumption].
      * destruct (construct reg d) as [s'|x] eqn:Ec; [|now left].
        destruct (IH _ _ _ H) as [Hd|(p' & c' & Hi & Hd)].
        -- destruct (String.string_dec id id') as [->|Hn].
           ++ rewrite dget_dset_same in Hd. injection Hd as <-. right. exists p, c. split; [now left|].
              apply construct_ok in Ec. destruct Ec as [-> _]. now apply outcome_definition.
           ++ rewrite dget_dset_other in Hd by assumption. now left.
        -- right. exists p', c'. split; [now right|assumption].
    + destruct (load_one_file_strange cfg reg p c {| mem := data; chk := None |} E) as [x Hx].
      rewrite Hx in H. now left.
  - cbn in H. destruct (IH _ _ _ H) as [Hd|(p' & c' & Hi & Hd)]; [now left|]. right. exists p', c'. split; [now right|assumption].
Qed.

Lemma definition_source p c id d : definition p c = Some (id, d) ->
  dget "fromfile" d = Some (JStr p) /\ dget "id" d = Some (JStr id).
Proof.
  unfold definition. destruct c as [|[| | | | |dd]]; try discriminate.
  destruct (dmem "id" dd && dmem "doc" dd && dmem "class" dd); [|discriminate].
  destruct (dget "id" dd) as [[| | |s| |]|] eqn:E; try discriminate. intro H. injection H as <- <-.
  rewrite dget_dset_same, dget_dset_other by discriminate. auto.
Qed.

Lemma loaded_only_hpd cfg reg ds l data :
  visits_dirs (recursive cfg) ds l ->
  (forall p n, In (p, Some n) ds -> exists es, n = NDir es) ->
  forall id s, dget id (fst (load cfg reg ds data)) = Some s ->
  dget id data = Some s \/
  exists d name, dget "fromfile" (s_data s) = Some (JStr (join d name)) /\ data_name name.
Proof.
  intros Hv Hd id s H. rewrite (load_unfold _ _ _ _ _ Hv) in H. cbn in H.
  destruct (run_provenance _ _ _ _ _ _ H) as [H1|(p & c & Hin & Hdef)]; [now left|]. right.
  destruct (visits_dirs_names _ _ _ Hv Hd _ _ Hin) as (d & name & -> & Hn).
  apply definition_source in Hdef. destruct Hdef as [Hf _]. eauto.
Qed.

(* C20 *)
Lemma keyed_dset reg data id s :
  keyed reg data -> dget "id" (s_data s) = Some (JStr id) -> dget "class" (s_data s) = Some (JStr (s_class s)) ->
  (exists ctor, dget (s_class s) reg = Some ctor /\ ctor (s_data s) = None) ->
  keyed reg (dset id s data).
Proof.
  intros [Hn Hk] H1 H2 H3. split; [now apply dset_nodup|]. intros id' s' H.
  destruct (String.string_dec id' id) as [->|Hd].
  - rewrite dget_dset_same in H. injection H as <-. auto.
  - rewrite dget_dset_other in H by assumption. auto.
Qed.

Lemma run_keyed cfg reg l : forall data, keyed reg data -> keyed reg (mem (fst (run_items cfg reg l (plain data)))).
Proof.
  induction l as [|[p c|p] l IH]; intros data H; [exact H| |].
  - cbn [run_items run_item]. unfold plain at 1. rewrite load_one_file_plain.
    destruct (outcome_of p c) as [|id' d|] eqn:E.
    + now apply IH.
    + destruct (dmem id' data && exist_fatal cfg); [exact H|].
      destruct (dmem id' data && negb (overwrite cfg)); [now apply IH|].
      destruct (construct reg d) as [s'|x] eqn:Ec; [|exact H]. apply IH.
      apply construct_ok in Ec. destruct Ec as (Hd & cl & ctor & H1 & H2 & H3 & H4). subst.
      apply outcome_definition, definition_source in E. apply keyed_dset; try tauto. eauto.
    + destruct (load_one_file_strange cfg reg p c {| mem := data; chk := None |} E) as [x Hx]. now rewrite Hx.
  - cbn. now apply IH.
Qed.

Lemma visits_dirs_exist rec ds : wf_dirs ds -> exists l, visits_dirs rec ds l.
Proof.
  induction ds as [|[p [n|]] ds IH]; intro H.
  - eexists. constructor.
  - destruct IH as [l2 H2]; [intros p' n' Hin; eapply H; right; eauto|].
    destruct (visits_exist rec n (H p n (or_introl eq_refl)) p) as [l1 H1]. eexists. econstructor; eauto.
  - destruct IH as [l2 H2]; [intros p' n' Hin; eapply H; right; eauto|]. eexists. econstructor; eauto.
Qed.

(* ---------- C19 : check mode ---------- *)
Lemma load_one_file_mem cfg reg p c m r :
  mem (fst (load_one_file cfg reg p c {| mem := m; chk := Some r |})) = m /\
  exists r', chk (fst (load_one_file cfg reg p c {| mem := m; chk := Some r |})) = Some r'.
Proof.
  unfold load_one_file. destruct (load_file c) as [v|]; [|cbn; eauto].
  destruct (with_source v p) as [d|]; [|cbn; eauto]. destruct (str_field "id" d) as [id|]; [|cbn; eauto].
  cbn [loadto chk note_redundant note_first mem].
  destruct (dmem id (rdata r)).
  - destruct (exist_fatal cfg); [cbn; eauto|]. destruct (negb (overwrite cfg)); [cbn; eauto|].
    destruct (construct reg d); cbn; eauto.
  - destruct (construct reg d); cbn; eauto.
Qed.

Lemma run_items_mem cfg reg l : forall m r,
  mem (fst (run_items cfg reg l {| mem := m; chk := Some r |})) = m /\
  exists r', chk (fst (run_items cfg reg l {| mem := m; chk := Some r |})) = Some r'.
Proof.
  induction l as [|[p c|p] l IH]; intros m r; cbn [run_items run_item]; [cbn; eauto| |cbn; apply IH].
  destruct (load_one_file_mem cfg reg p c m r) as [H1 [r' H2]].
  destruct (load_one_file cfg reg p c {| mem := m; chk := Some r |}) as [[m' c'] [x|]]; cbn in *; subst; [eauto|apply IH].
Qed.

Lemma load_dirs_mem cfg reg ds : forall m r,
  wf_dirs ds -> mem (fst (load_dirs cfg reg ds {| mem := m; chk := Some r |})) = m.
Proof.
  intros m r Hw. destruct (visits_dirs_exist (recursive cfg) ds Hw) as [l Hl].
  rewrite (load_dirs_visits _ _ _ _ Hl). apply run_items_mem.
Qed.

Lemma defs_app l1 l2 : defs (l1 ++ l2) = defs l1 ++ defs l2.
Proof. apply flat_map_app. Qed.

Record report_ok (data : collection) (l : list item) (r : report) : Prop := {
  rk_keys : forall id, In id (dkeys (rdata r)) <-> In id (map fst (defs l));
  rk_changed : forall id, In id (changed r) <->
    exists d s, first_def id l = Some d /\ dget id data = Some s /\ data_eq (s_data s) d = false;
  rk_added : forall id, In id (added r) <-> In id (dkeys data) /\ ~ In id (map fst (defs l));
  rk_nodup : NoDup (added r);
  rk_removed : forall id, In id (removed r) <-> In id (map fst (defs l)) /\ ~ In id (dkeys data);
  rk_bad : bad r = malformed_files l;
  rk_sup : suppressed r = suppressed_files l;
  rk_one : forall id p, files_of id l = [p] -> exists s, dget id (rdata r) = Some s /\ file_of s = p;
  rk_red : forall id, dget id (redundant r) =
    match files_of id l with [] => None | [_] => None | ps => Some ps end
}.

Lemma first_def_in id l : first_def id l <> None <-> In id (map fst (defs l)).
Proof.
  unfold first_def. pose proof (dget_none_iff id (defs l)) as H. unfold dkeys in H. split.
  - intro Hn. destruct (in_dec String.string_dec id (map fst (defs l))) as [Hi|Hi]; [assumption|]. tauto.
  - intros Hi He. apply H in He. contradiction.
Qed.

Lemma files_of_in id l : files_of id l <> [] <-> In id (map fst (defs l)).
Proof.
  induction l as [|[p c|p] l IH]; cbn [files_of flat_map].
  - split; [congruence|intros []].
  - change (defs (File p c :: l)) with ((match definition p c with Some x => [x] | None => [] end) ++ defs l).
    fold (files_of id l). destruct (definition p c) as [[id' d]|]; [|exact IH]. cbn.
    destruct (String.eqb_spec id id') as [->|Hn]; cbn.
    + split; [now left|discriminate].
    + rewrite IH. split; [now right|]. intros [E|E]; [congruence|assumption].
  - exact IH.
Qed.

Lemma files_of_app id l1 l2 : files_of id (l1 ++ l2) = files_of id l1 ++ files_of id l2.
Proof. apply flat_map_app. Qed.

Lemma remove_first_in x y l : NoDup l -> (In y (remove_first x l) <-> In y l /\ y <> x).
Proof.
  induction l as [|z l IH]; cbn; intro Hn; [tauto|]. inversion Hn as [|? ? Hz Hl]; subst.
  destruct (String.eqb_spec x z) as [->|Hd].
  - split.
    + intro Hy. split; [now right|]. intros ->. contradiction.
    + intros [[->|Hy] Hne]; [congruence|assumption].
  - cbn. rewrite IH by assumption. split.
    + intros [->|[Hy Hne]]; [split; [now left|congruence]|split; [now right|assumption]].
    + intros [[->|Hy] Hne]; [now left|right; auto].
Qed.
Lemma remove_first_nodup x l : NoDup l -> NoDup (remove_first x l).
Proof.
  induction l as [|z l IH]; cbn; intro Hn; [constructor|]. inversion Hn as [|? ? Hz Hl]; subst.
  destruct (String.eqb x z); [assumption|]. constructor; [|auto].
  rewrite remove_first_in by assumption. tauto.
Qed.

Lemma single_def p c id d : definition p c = Some (id, d) -> defs [File p c] = [(id, d)].
Proof. intro H. unfold defs. cbn. now rewrite H. Qed.
Lemma single_none p c : definition p c = None -> defs [File p c] = [].
Proof. intro H. unfold defs. cbn. now rewrite H. Qed.

Lemma map_fst_app {A B} (a b : list (A * B)) : map fst (a ++ b) = map fst a ++ map fst b.
Proof. apply map_app. Qed.

Lemma step_report cfg reg data l p c r :
  exist_fatal cfg = false -> all_loadable reg [File p c] -> report_ok data l r ->
  exists r', load_one_file cfg reg p c {| mem := data; chk := Some r |} = ({| mem := data; chk := Some r' |}, None)
             /\ report_ok data (l ++ [File p c]) r'.
Proof.
  intros Hf Hl [K1 K2 K3 K4 K5 K6 K7 K8 K9].
  destruct (loadable_outcome _ _ _ _ Hl) as [[Ho Hd]|(id & d & s & Ho & Hd & Hs)].
  - (* malformed *)
    unfold outcome_of in Ho. unfold load_one_file.
    destruct (load_file c) as [v|x].
    { destruct (with_source v p) as [d|]; [|discriminate]. destruct (str_field "id" d); discriminate. }
    eexists. split; [reflexivity|].
    assert (Hdefs : defs (l ++ [File p c]) = defs l) by (rewrite defs_app, single_none, app_nil_r; auto).
    assert (Hfo : forall id, files_of id (l ++ [File p c]) = files_of id l).
    { intro id. rewrite files_of_app. cbn. now rewrite Hd, app_nil_r. }
    constructor; cbn [rdata changed added removed redundant suppressed bad]; unfold first_def in *; rewrite ?Hdefs; auto.
    + unfold malformed_files. rewrite flat_map_app, K6. cbn. now rewrite Hd.
    + unfold suppressed_files. rewrite flat_map_app, K7. cbn. now rewrite app_nil_r.
    + intros id q. rewrite Hfo. apply K8.
    + intros id. rewrite Hfo. apply K9.
  - unfold outcome_of in Ho. unfold load_one_file.
    destruct (load_file c) as [v|x]; [|discriminate].
    destruct (with_source v p) as [d'|x]; [|discriminate]. destruct (str_field "id" d') as [id'|]; [|discriminate].
    injection Ho as -> ->. cbn [loadto chk].
    pose proof (construct_ok _ _ _ Hs) as (Hsd & _).
    assert (Hsf : file_of s = p).
    { unfold file_of. rewrite Hsd. destruct (definition_source _ _ _ _ Hd) as [-> _]. reflexivity. }
    assert (Hdefs : defs (l ++ [File p c]) = defs l ++ [(id, d)]) by (rewrite defs_app, (single_def _ _ _ _ Hd); auto).
    assert (Hfo : forall i, files_of i (l ++ [File p c]) = files_of i l ++ if String.eqb i id then [p] else []).
    { intro i. rewrite files_of_app. cbn. rewrite Hd. now rewrite app_nil_r. }
    assert (Hmf : malformed_files (l ++ [File p c]) = malformed_files l).
    { unfold malformed_files. rewrite flat_map_app. cbn. now rewrite Hd, app_nil_r. }
    assert (Hsp : suppressed_files (l ++ [File p c]) = suppressed_files l).
    { unfold suppressed_files. rewrite flat_map_app. cbn. now rewrite app_nil_r. }
    destruct (dmem id (rdata r)) eqn:Em.
    + (* redundant *)
      apply dmem_iff, K1 in Em.
      assert (Hin : forall i, In i (map fst (defs l ++ [(id, d)])) <-> In i (map fst (defs l))).
      { intro i. rewrite map_fst_app, in_app_iff. cbn. split; [intros [H|[<-|[]]]; assumption|now left]. }
      assert (Hfd : forall i, dget i (defs l ++ [(id, d)]) = dget i (defs l)).
      { intro i. rewrite dget_app. destruct (dget i (defs l)) eqn:E; [reflexivity|]. cbn.
        destruct (String.eqb_spec i id) as [->|]; [|reflexivity].
        exfalso. apply dget_none_iff in E. contradiction. }
      rewrite Hf. cbn [note_redundant chk].
      set (newl := match dget id (redundant r) with Some l0 => l0 ++ [p] | None => _ end).
      assert (Hnew : newl = files_of id l ++ [p]).
      { unfold newl. rewrite K9. apply files_of_in in Em.
        destruct (files_of id l) as [|q1 [|q2 qs]] eqn:E; [congruence| |reflexivity].
        destruct (K8 id q1 E) as (s1 & -> & ->). reflexivity. }
      assert (Hred : forall i, dget i (dset id newl (redundant r)) =
                match files_of i (l ++ [File p c]) with [] => None | [_] => None | ps => Some ps end).
      { intro i. rewrite Hfo. destruct (String.eqb_spec i id) as [->|Hn].
        - rewrite dget_dset_same, Hnew. apply files_of_in in Em.
          destruct (files_of id l) as [|q1 [|q2 qs]]; [congruence|reflexivity|reflexivity].
        - rewrite dget_dset_other by assumption. rewrite app_nil_r. apply K9. }
      assert (Hone : forall i q, files_of i (l ++ [File p c]) = [q] -> i <> id /\ files_of i l = [q]).
      { intros i q. rewrite Hfo. destruct (String.eqb_spec i id) as [->|Hn].
        - intro H. apply files_of_in in Em. destruct (files_of id l) as [|q1 qs]; [congruence|].
          destruct qs; discriminate.
        - rewrite app_nil_r. auto. }
      destruct (overwrite cfg); cbn [negb].
      * rewrite Hs. eexists. split; [reflexivity|].
        constructor; cbn [rdata changed added removed redundant suppressed bad]; unfold first_def in *; rewrite ?Hdefs; auto.
        -- intro i. rewrite Hin, <- K1, dset_keys. split; [intros [->|H]; [now apply K1|assumption]|now right].
        -- intro i. rewrite Hfd. apply K2.
        -- intro i. rewrite Hin. apply K3.
        -- intro i. rewrite Hin. apply K5.
        -- congruence.
        -- congruence.
        -- intros i q H. destruct (Hone _ _ H) as [Hn H']. rewrite dget_dset_other by assumption. now apply K8.
      * eexists. split; [reflexivity|].
        constructor; cbn [rdata changed added removed redundant suppressed bad]; unfold first_def in *; rewrite ?Hdefs; auto.
        -- intro i. rewrite Hin. apply K1.
        -- intro i. rewrite Hfd. apply K2.
        -- intro i. rewrite Hin. apply K3.
        -- intro i. rewrite Hin. apply K5.
        -- congruence.
        -- congruence.
        -- intros i q H. destruct (Hone _ _ H) as [Hn H']. now apply K8.
    + (* first file with this id *)
      assert (Hni : ~ In id (map fst (defs l))).
      { rewrite <- K1, <- dmem_iff. congruence. }
      assert (Hfn : files_of id l = []).
      { destruct (files_of id l) eqn:E; [reflexivity|]. exfalso. apply Hni, files_of_in. congruence. }
      assert (Hfd0 : dget id (defs l) = None) by (apply dget_none_iff; exact Hni).
      cbn [note_first chk]. rewrite Hs. cbn [store chk mem]. eexists. split; [reflexivity|].
      constructor; cbn [rdata changed added removed redundant suppressed bad]; unfold first_def in *; rewrite ?Hdefs, ?Hmf, ?Hsp; auto.
      * intro i. rewrite dset_keys, map_fst_app, in_app_iff, K1. cbn. intuition congruence.
      * intro i. rewrite dget_app. 
        destruct (dget id data) as [s0|] eqn:Eg.
        -- destruct (data_eq (s_data s0) d) eqn:Ee.
           ++ rewrite K2. destruct (dget i (defs l)) eqn:Ei; [reflexivity|]. cbn [dget].
              destruct (String.eqb_spec i id) as [->|Hn].
              ** split; [intros (d1 & s1 & H1 & _); discriminate|].
                 intros (d1 & s1 & H1 & H2 & H3). injection H1 as <-. rewrite Eg in H2. injection H2 as <-. congruence.
              ** reflexivity.
           ++ rewrite in_app_iff, K2. destruct (String.eqb_spec i id) as [->|Hn].
              ** rewrite Hfd0. cbn [dget]. rewrite String.eqb_refl. split.
                 { intros _. exists d, s0. auto. }
                 { intros _. right. now left. }
              ** cbn [dget In]. destruct (dget i (defs l)) eqn:Ei.
                 --- split; [intros [H|[H|[]]]; [assumption|congruence]|auto].
                 --- destruct (String.eqb_spec i id) as [|_]; [contradiction|]. split.
                     +++ intros [H|[H|[]]]; [assumption|congruence].
                     +++ auto.
        -- rewrite K2. destruct (dget i (defs l)) eqn:Ei; [reflexivity|]. cbn [dget].
           destruct (String.eqb_spec i id) as [->|Hn]; [|reflexivity].
           split; intros (d1 & s1 & H1 & H2 & H3); congruence.
      * intro i. rewrite remove_first_in, K3, map_fst_app, in_app_iff by assumption. cbn. intuition congruence.
      * now apply remove_first_nodup.
      * intro i. rewrite map_fst_app, in_app_iff. cbn. destruct (dmem id data) eqn:Emd.
        -- rewrite K5. apply dmem_iff in Emd. split; [tauto|]. intros [[H|[<-|[]]] H2]; tauto.
        -- assert (Hd' : ~ In id (dkeys data)) by (rewrite <- dmem_iff; congruence).
           rewrite in_app_iff, K5. cbn. split.
           ++ intros [[H1 H2]|[<-|[]]]; [tauto|]. split; [right; now left|assumption].
           ++ intros [[H|[<-|[]]] H2]; [left; tauto|right; now left].
      * intros i q. rewrite Hfo. destruct (String.eqb_spec i id) as [->|Hn].
        -- rewrite Hfn. cbn. intro H. injection H as <-. rewrite dget_dset_same. eauto.
        -- rewrite app_nil_r, dget_dset_other by assumption. apply K8.
      * intro i. rewrite Hfo, K9. destruct (String.eqb_spec i id) as [->|Hn].
        -- rewrite Hfn. reflexivity.
        -- now rewrite app_nil_r.
Qed.

Lemma step_report_sup data l p r : report_ok data l r ->
  exists r', note_suppressed {| mem := data; chk := Some r |} p = {| mem := data; chk := Some r' |} /\
             report_ok data (l ++ [Suppressed p]) r'.
Proof.
  intros [K1 K2 K3 K4 K5 K6 K7 K8 K9]. eexists. split; [reflexivity|].
  assert (Hdefs : defs (l ++ [Suppressed p]) = defs l) by (rewrite defs_app; cbn; apply app_nil_r).
  assert (Hfo : forall id, files_of id (l ++ [Suppressed p]) = files_of id l).
  { intro id. rewrite files_of_app. cbn. now rewrite app_nil_r. }
  constructor; cbn [rdata changed added removed redundant suppressed bad]; unfold first_def in *; rewrite ?Hdefs; auto.
  - unfold malformed_files. rewrite flat_map_app. cbn. now rewrite app_nil_r.
  - unfold suppressed_files. rewrite flat_map_app, K7. reflexivity.
  - intros id q. rewrite Hfo. apply K8.
  - intros id. rewrite Hfo. apply K9.
Qed.

Lemma run_report cfg reg data l2 : exist_fatal cfg = false -> all_loadable reg l2 ->
  forall l1 r, report_ok data l1 r ->
  exists r', run_items cfg reg l2 {| mem := data; chk := Some r |} = ({| mem := data; chk := Some r' |}, None) /\
             report_ok data (l1 ++ l2) r'.
Proof.
  intros Hf. induction l2 as [|[p c|p] l2 IH]; intros Hl l1 r Hr.
  - exists r. rewrite app_nil_r. auto.
  - assert (Hl1 : all_loadable reg [File p c]).
    { intros q c' [E|[]]. apply Hl. left. exact E. }
    destruct (step_report cfg reg data l1 p c r Hf Hl1 Hr) as (r1 & E1 & Hr1).
    destruct (IH (all_loadable_cons _ _ _ Hl) _ _ Hr1) as (r2 & E2 & Hr2).
    exists r2. cbn [run_items run_item]. rewrite E1, E2. split; [reflexivity|].
    now rewrite <- app_assoc in Hr2.
  - destruct (step_report_sup data l1 p r Hr) as (r1 & E1 & Hr1).
    destruct (IH (all_loadable_cons _ _ _ Hl) _ _ Hr1) as (r2 & E2 & Hr2).
    exists r2. cbn [run_items run_item]. rewrite E1, E2. split; [reflexivity|].
    now rewrite <- app_assoc in Hr2.
Qed.

Lemma new_report_ok data : NoDup (dkeys data) -> report_ok data [] (new_report data).
Proof.
  intro Hn. constructor; cbn; auto; try tauto.
  - intro id. split; [intros []|]. intros (d & s & H & _). discriminate.
  - discriminate.
Qed.

Lemma check_report cfg reg ds l data :
  exist_fatal cfg = false -> NoDup (dkeys data) ->
  visits_dirs (recursive cfg) ds l -> all_loadable reg l ->
  exists r, load_check cfg reg ds data = (data, Ok r) /\ report_ok data l r.
Proof.
  intros Hf Hn Hv Hl. unfold load_check. rewrite (load_dirs_visits _ _ _ _ Hv).
  destruct (run_report cfg reg data l Hf Hl [] (new_report data) (new_report_ok data Hn)) as (r & -> & Hr).
  exists r. auto.
Qed.

Lemma check_preserves cfg reg ds data : wf_dirs ds -> fst (load_check cfg reg ds data) = data.
Proof.
  intro Hw. unfold load_check. pose proof (load_dirs_mem cfg reg ds data (new_report data) Hw) as H.
  destruct (load_dirs cfg reg ds {| mem := data; chk := Some (new_report data) |}) as [st x]. exact H.
Qed.

(* equality of data dictionaries *)
Section json_ind.
  Variable P : json -> Prop.
  Hypothesis Hs : forall v, (forall l, v <> JList l) -> (forall d, v <> JObj d) -> P v.
  Hypothesis Hl : forall l, Forall P l -> P (JList l).
  Hypothesis Hd : forall d, Forall (fun kv => P (snd kv)) d -> P (JObj d).
  Lemma json_ind2 : forall v, P v.
  Proof.
    fix IH 1. intros [| | | |l|d]; try (apply Hs; intros ? H; discriminate H).
    - apply Hl. induction l as [|x l IHl]; constructor; [apply IH|exact IHl].
    - apply Hd. induction d as [|[k x] d IHd]; constructor; [apply IH|exact IHd].
  Qed.
End json_ind.

Scheme json_wf_mut := Minimality for json_wf Sort Prop
  with jlist_wf_mut := Minimality for jlist_wf Sort Prop.

Lemma jeq_refl v : json_wf v -> jeq v v = true.
Proof.
  intro H. apply (json_wf_mut (fun v => jeq v v = true) (fun l => Forall (fun v => jeq v v = true) l));
    [| | | | | | | |exact H]; clear.
  - reflexivity.
  - intros []; reflexivity.
  - intro q. cbn. apply QArith_base.Qeq_bool_refl.
  - intro s. cbn. apply String.eqb_refl.
  - intros l _ IH. cbn. induction IH as [|v l Hv _ IHl]; [reflexivity|]. now rewrite Hv.
  - intros d Hn _ IH. cbn. rewrite Nat.eqb_refl. cbn.
    assert (G : forall x, (forall k v, In (k, v) x -> dget k d = Some v) -> Forall (fun v => jeq v v = true) (map snd x) ->
      (fix go (x : list (string * json)) : bool :=
         match x with
         | [] => true
         | (k, u) :: x' => match dget k d with Some v => jeq u v | None => false end && go x'
         end) x = true).
    { induction x as [|[k u] x IHx]; intros H1 H2; [reflexivity|]. cbn in H2. inversion H2; subst.
      rewrite (H1 k u) by now left. rewrite H3. cbn. apply IHx; [intros; apply H1; now right|assumption]. }
    apply G; [|assumption]. intros k v Hin. now apply dget_in_nodup.
  - constructor.
  - intros. constructor; auto.
Qed.

(* loading an empty collection and then checking the same non-redundant tree reports nothing *)
Lemma last_first_nodup id l : NoDup (map fst (defs l)) -> last_def id l = first_def id l.
Proof.
  unfold last_def, first_def. generalize (defs l). intros ds Hn.
  destruct (dget id ds) as [d|] eqn:E.
  - apply dget_some_in in E. apply dget_in_nodup.
    + unfold dkeys. rewrite map_rev. now apply NoDup_rev.
    + now apply in_rev in E.
  - apply dget_none_iff. apply dget_none_iff in E. unfold dkeys in *. rewrite map_rev, <- in_rev. exact E.
Qed.

Lemma load_then_check cfg reg ds l data :
  exist_fatal cfg = false ->
  visits_dirs (recursive cfg) ds l -> all_loadable reg l -> NoDup (map fst (defs l)) ->
  (forall id d, In (id, d) (defs l) -> json_wf (JObj d)) ->
  load cfg reg ds [] = (data, None) ->
  exists r, load_check cfg reg ds data = (data, Ok r) /\
            changed r = [] /\ added r = [] /\ removed r = [] /\ redundant r = [].
Proof.
  intros Hf Hv Hl Hn Hwf HL.
  assert (Hdat : forall id, dat_of data id = first_def id l).
  { intro id. destruct (overwrite cfg) eqn:Ho.
    - rewrite (load_overwrite _ _ _ _ _ _ Ho Hf Hv HL). rewrite last_first_nodup by assumption.
      destruct (first_def id l); reflexivity.
    - now rewrite (load_ignore _ _ _ _ _ _ Ho Hf Hv HL). }
  assert (Hk : NoDup (dkeys data)).
  { pose proof (run_keyed cfg reg l []) as HK. rewrite (load_unfold _ _ _ _ _ Hv) in HL. injection HL as <- _.
    apply HK. split; [constructor|]. intros id s H. discriminate. }
  destruct (check_report cfg reg ds l data Hf Hk Hv Hl) as (r & E & R).
  exists r. split; [exact E|]. destruct R as [K1 K2 K3 K4 K5 K6 K7 K8 K9].
  assert (Hkeys : forall id, In id (dkeys data) <-> In id (map fst (defs l))).
  { intro id. rewrite <- first_def_in, <- Hdat, <- dget_in_keys. unfold dat_of.
    destruct (dget id data); cbn; split; intro H; try congruence; eauto. destruct H; discriminate. }
  assert (Hnil : forall (x : list string), (forall i, ~ In i x) -> x = []).
  { intros [|a x] H; [reflexivity|]. exfalso. apply (H a). now left. }
  split; [|split; [|split]].
  - apply Hnil. intros i Hi. apply K2 in Hi. destruct Hi as (d & s & H1 & H2 & H3).
    specialize (Hdat i). unfold dat_of in Hdat. rewrite H2, H1 in Hdat. cbn in Hdat. injection Hdat as Hd.
    unfold data_eq in H3. rewrite Hd, jeq_refl in H3; [discriminate|]. apply (Hwf i).
    now apply dget_some_in.
  - apply Hnil. intros i Hi. apply K3 in Hi. destruct Hi as [H1 H2]. apply H2, Hkeys, H1.
  - apply Hnil. intros i Hi. apply K5 in Hi. destruct Hi as [H1 H2]. apply H2, Hkeys, H1.
  - assert (Hone : forall i, files_of i l = [] \/ exists q, files_of i l = [q]).
    { intro i. clear -Hn. induction l as [|[p c|p] l IH]; [now left| |apply IH, Hn].
      cbn [files_of flat_map]. fold (files_of i l).
      change (defs (File p c :: l)) with ((match definition p c with Some x => [x] | None => [] end) ++ defs l) in Hn.
      destruct (definition p c) as [[id' d]|]; [|apply IH, Hn]. cbn in Hn. inversion Hn as [|? ? Hni Hn']; subst.
      destruct (String.eqb_spec i id') as [->|Hd]; [|apply IH, Hn'].
      right. exists p. destruct (files_of id' l) eqn:E; [reflexivity|]. exfalso. apply Hni, files_of_in. congruence. }
    destruct (redundant r) as [|[i x] rr] eqn:Er; [reflexivity|]. exfalso.
    specialize (K9 i). cbn in K9. rewrite String.eqb_refl in K9.
    destruct (Hone i) as [->|[q ->]] in K9; discriminate.
Qed.

(* C20 over histories *)
Lemma step_keyed reg data o : op_wf o -> keyed reg data -> keyed reg (dat_step reg data o).
Proof.
  intros Hw Hk. destruct o as [cfg ds|cfg ds| |d]; cbn [dat_step].
  - destruct (visits_dirs_exist (recursive cfg) ds Hw) as [l Hl]. rewrite (load_unfold _ _ _ _ _ Hl).
    now apply run_keyed.
  - now rewrite check_preserves.
  - split; [constructor|]. intros id s H. discriminate.
  - unfold new. destruct (dmem "id" d && dmem "class" d); [|exact Hk].
    destruct (dget "class" d) as [[| | |cl| |]|] eqn:Ec; try exact Hk.
    destruct (dget cl reg) as [ctor|] eqn:Er; [|exact Hk].
    unfold str_field. destruct (dget "id" d) as [[| | |id| |]|] eqn:Ei; destruct (ctor d) eqn:Ect; try exact Hk.
    cbn [fst]. apply keyed_dset; cbn; eauto.
Qed.

Lemma run_history_keyed reg ops : Forall op_wf ops -> forall data, keyed reg data -> keyed reg (dat_run reg data ops).
Proof.
  induction 1 as [|o ops Ho _ IH]; intros data Hk; cbn; [exact Hk|]. apply IH. now apply step_keyed.
Qed.

Lemma get_iff data id s : get data id = Ok s <-> dget id data = Some s.
Proof. unfold get. destruct (dget id data); split; intro H; congruence. Qed.
Lemma get_fails data id : ~ In id (dkeys data) -> get data id = Err PMParamError.
Proof. intro H. apply dget_none_iff in H. unfold get. now rewrite H. Qed.

(* one bad file does stop the load in these cases *)
Lemma unknown_class_aborts cfg reg p c id d rest data :
  definition p c = Some (id, d) -> dmem id data = false ->
  (forall cl, dget "class" d = Some (JStr cl) -> dget cl reg = None) ->
  fst (run_items cfg reg (File p c :: rest) (plain data)) = plain data /\
  snd (run_items cfg reg (File p c :: rest) (plain data)) <> None.
Proof.
  intros Hd Hm Hc. cbn [run_items run_item]. unfold plain at 1 3. rewrite load_one_file_plain.
  rewrite (definition_outcome _ _ _ _ Hd), Hm. cbn [andb].
  unfold construct. destruct (dget "class" d) as [[| | |cl| |]|] eqn:E; try (split; [reflexivity|discriminate]).
  rewrite (Hc cl eq_refl). split; [reflexivity|discriminate].
Qed.

Lemma check_exact cfg reg ds l data :
  exist_fatal cfg = false -> NoDup (dkeys data) ->
  visits_dirs (recursive cfg) ds l -> all_loadable reg l ->
  exists r, load_check cfg reg ds data = (data, Ok r) /\
    (forall id, In id (changed r) <->
       exists d s, first_def id l = Some d /\ dget id data = Some s /\ data_eq (s_data s) d = false) /\
    (forall id, In id (added r) <-> In id (dkeys data) /\ ~ In id (map fst (defs l))) /\
    (forall id, In id (removed r) <-> In id (map fst (defs l)) /\ ~ In id (dkeys data)) /\
    (forall id, dget id (redundant r) =
       match files_of id l with [] => None | [_] => None | ps => Some ps end) /\
    bad r = malformed_files l /\ suppressed r = suppressed_files l.
Proof.
  intros Hf Hn Hv Hl. destruct (check_report cfg reg ds l data Hf Hn Hv Hl) as (r & E & R).
  exists r. split; [exact E|]. destruct R. auto 8.
Qed.

Lemma data_eq_refl d : json_wf (JObj d) -> data_eq d d = true.
Proof. apply jeq_refl. Qed.

Lemma history_keyed reg ops : Forall op_wf ops -> keyed reg (dat_run reg [] ops).
Proof.
  intro H. apply run_history_keyed; [assumption|]. split; [constructor|]. intros id s E. discriminate.
Qed.

Lemma get_own_id reg ops id s :
  Forall op_wf ops -> get (dat_run reg [] ops) id = Ok s ->
  dget "id" (s_data s) = Some (JStr id) /\ dmem (s_class s) reg = true.
Proof.
  intros H E. apply get_iff in E. destruct (history_keyed reg ops H) as [_ Hk].
  destruct (Hk id s E) as (H1 & H2 & ctor & H3 & _). split; [exact H1|]. unfold dmem. now rewrite H3.
Qed.

Lemma get_finds reg ops id :
  In id (dkeys (dat_run reg [] ops)) -> exists s, get (dat_run reg [] ops) id = Ok s.
Proof. intro H. apply dget_in_keys in H. destruct H as [s H]. exists s. now apply get_iff. Qed.

Lemma visits_two rec p n1 c1 n2 c2 :
  data_name n1 -> data_name n2 -> n1 <> n2 -> String.leb n1 n2 = true ->
  visits_dirs rec [(p, Some (NDir [(n1, NFile c1); (n2, NFile c2)]))]
    [File (p ++ "/" ++ n1)%string c1; File (p ++ "/" ++ n2)%string c2].
Proof.
  intros H1 H2 Hn Hl. change [File (p ++ "/" ++ n1)%string c1; File (p ++ "/" ++ n2)%string c2]
    with ([File (p ++ "/" ++ n1)%string c1; File (p ++ "/" ++ n2)%string c2] ++ []).
  apply vd_dir; [|constructor]. apply v_dir with (sorted := [(n1, NFile c1); (n2, NFile c2)]).
  - cbn. constructor; [intros [E|[]]; congruence|]. constructor; [intros []|constructor].
  - reflexivity.
  - constructor; [constructor; [constructor|constructor]|]. constructor. exact Hl.
  - change [File (p ++ "/" ++ n1)%string c1; File (p ++ "/" ++ n2)%string c2]
      with ([File (p ++ "/" ++ n1)%string c1] ++ [File (p ++ "/" ++ n2)%string c2] ++ []).
    apply vl_follow; [now right|constructor|]. apply vl_follow; [now right|constructor|constructor].
Qed.

Definition jsf (id cl : string) : content :=
  Parsed (JObj [("id", JStr id); ("class", JStr cl); ("doc", JStr "")]).
Definition cfgx : datcfg := {| exist_fatal := false; overwrite := true; recursive := true |}.

Lemma bad_class_stops_load : exists ds l data',
  visits_dirs true ds l /\ last_def "ig.B" l <> None /\
  load cfgx [("ig", base_ctor [])] ds [] = (data', Some PMDataError) /\ dget "ig.B" data' = None.
Proof.
  exists [("/d", Some (NDir [("a.hpd", NFile (jsf "ig.A" "obsolete")); ("b.hpd", NFile (jsf "ig.B" "ig"))]))].
  eexists; eexists. split.
  { apply visits_two; try discriminate; [exists "a"|exists "b"|reflexivity]; split; try discriminate; reflexivity. }
  split; [discriminate|]. split; reflexivity.
Qed.

Lemma json_list_stops_load : exists ds l data',
  visits_dirs true ds l /\ last_def "ig.B" l <> None /\
  load cfgx [("ig", base_ctor [])] ds [] = (data', Some ETypeError) /\ dget "ig.B" data' = None.
Proof.
  exists [("/d", Some (NDir [("a.hpd", NFile (Parsed (JList [JStr "id"; JStr "doc"; JStr "class"])));
                             ("b.hpd", NFile (jsf "ig.B" "ig"))]))].
  eexists; eexists. split.
  { apply visits_two; try discriminate; [exists "a"|exists "b"|reflexivity]; split; try discriminate; reflexivity. }
  split; [discriminate|]. split; reflexivity.
Qed.

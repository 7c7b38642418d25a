(* What creating, overwriting, deleting and suppressing a file does, for disks in order. *)
From Coq Require Import List String Bool Sorted Permutation Lia Ascii PeanoNat.
From Verif Require Import Base Text Model_Dat Spec_Dat Proof_Dat Model_Update Spec_Update Proof_UpdateDisk.
Import ListNotations.
Local Open Scope string_scope.
Local Open Scope list_scope.

Lemma n_all_iff n : forall path t k, In (t, k) (n_all path n) <-> node_at path n t k.
Proof.
  induction n as [c0| |es IH] using node_ind2; intros path t k.
  - cbn. split; [intros [E|[]]; injection E as <- <-; constructor|inversion 1; subst; now left].
  - cbn. split; [intros [E|[]]; injection E as <- <-; constructor|inversion 1; subst; now left].
  - rewrite Forall_forall in IH. cbn [n_all]. split.
    + intros [E|Hin]; [injection E as <- <-; constructor|]. apply in_flat_map in Hin. destruct Hin as ([x m] & Hin & H).
      apply (IH _ Hin) in H. now apply at_entry with x m.
    + inversion 1 as [|? ? x m ? ? Hin Hn]; subst; [now left|]. right. apply in_flat_map. exists (x, m). split; [exact Hin|].
      now apply (IH _ Hin).
Qed.
Lemma d_all_iff d t k : In (t, k) (d_all d) <-> on_disk d t k.
Proof.
  unfold d_all, on_disk. rewrite in_flat_map. split.
  - intros ([p [n|]] & Hin & H); [|destruct H]. exists p, n. split; [exact Hin|]. now apply n_all_iff.
  - intros (p & n & Hin & H). exists (p, Some n). split; [exact Hin|]. now apply n_all_iff.
Qed.

Definition onepath (d : disk) : Prop := forall t k k', In (t, k) (d_all d) -> In (t, k') (d_all d) -> k = k'.
Lemma onepath_iff d : consistent d <-> onepath d.
Proof. unfold consistent, onepath. split; intros H t k k' H1 H2; apply (H t); now apply d_all_iff. Qed.

Lemma walk_all rec n : forall path p c, In (p, c) (walk rec path n) -> In (p, NFile c) (n_all path n).
Proof.
  induction n as [c0| |es IH] using node_ind2; intros path p c.
  - cbn. intros [E|[]]. injection E as <- <-. now left.
  - intros [].
  - rewrite Forall_forall in IH. cbn [walk n_all]. intro Hin. right. apply in_flat_map in Hin. destruct Hin as ([x m] & Hin & H).
    cbn [fst snd] in H. destruct (followedb rec x m); [|destruct H]. apply in_flat_map. exists (x, m). split; [exact Hin|].
    now apply (IH _ Hin).
Qed.
Lemma dwalk_all rec d p c : In (p, c) (dwalk rec d) -> In (p, NFile c) (d_all d).
Proof.
  unfold dwalk, d_all. rewrite !in_flat_map. intros ([q [n|]] & Hin & H); [|destruct H].
  exists (q, Some n). split; [exact Hin|]. now apply (walk_all rec).
Qed.
Lemma onepath_get d t k : onepath d -> In (t, k) (d_all d) -> dget t (d_all d) = Some k.
Proof.
  intros H Hin. destruct (dget t (d_all d)) as [k'|] eqn:E.
  - f_equal. apply dget_some_in in E. symmetry. now apply (H t).
  - apply dget_none_iff in E. exfalso. apply E. unfold dkeys. apply in_map_iff. exists (t, k). auto.
Qed.

(* ---- d_all of each operation ---- *)
Lemma all_write t c n : forall path, n_all path (n_write t c path n) =
  map (fun e => (fst e, n_write t c (fst e) (snd e))) (n_all path n).
Proof.
  induction n as [c0| |es IH] using node_ind2; intro path.
  - cbn. now destruct (String.eqb path t).
  - reflexivity.
  - cbn [n_write n_all map fst snd]. f_equal. rewrite map_flat_map, flat_map_map. apply flat_map_ext_in.
    rewrite Forall_forall in IH. intros [x m] Hin. apply (IH _ Hin).
Qed.
Lemma d_all_write t c d : d_all (d_write t c d) = map (fun e => (fst e, n_write t c (fst e) (snd e))) (d_all d).
Proof.
  unfold d_all, d_write. rewrite map_flat_map, flat_map_map. apply flat_map_ext_in. intros [p [n|]] _; cbn [option_map]; [|reflexivity].
  apply all_write.
Qed.
Definition removed_entry (t : string) (e : string * node) : list (string * node) :=
  match n_remove t (fst e) (snd e) with Some m => [(fst e, m)] | None => [] end.
Lemma all_remove t n : forall path,
  match n_remove t path n with Some m => n_all path m | None => [] end = flat_map (removed_entry t) (n_all path n).
Proof.
  induction n as [c0| |es IH] using node_ind2; intro path.
  - cbn. unfold removed_entry. cbn. now destruct (String.eqb path t).
  - reflexivity.
  - cbn [n_all flat_map]. unfold removed_entry at 1. cbn [fst snd n_remove n_all app]. f_equal.
    rewrite !flat_map_flat_map. apply flat_map_ext_in. rewrite Forall_forall in IH. intros [x m] Hin.
    specialize (IH _ Hin (join path x)). cbn [snd] in IH. rewrite <- IH.
    destruct (n_remove t (join path x) m); [|reflexivity]. cbn. now rewrite app_nil_r.
Qed.
Lemma d_all_remove t d : d_all (d_remove t d) = flat_map (removed_entry t) (d_all d).
Proof.
  unfold d_all, d_remove. rewrite flat_map_flat_map, flat_map_map. apply flat_map_ext_in. intros [p [n|]] _; [|reflexivity].
  apply all_remove.
Qed.
Lemma all_create dir name c n : forall path q m, In (q, m) (n_all path (n_create dir name c path n)) ->
  (exists k, In (q, k) (n_all path n) /\ m = n_create dir name c q k) \/ (q = join dir name /\ m = NFile c).
Proof.
  induction n as [c0| |es IH] using node_ind2; intros path q m.
  - cbn. intros [E|[]]. injection E as <- <-. left. exists (NFile c0). auto.
  - cbn. intros [E|[]]. injection E as <- <-. left. exists NOther. auto.
  - rewrite Forall_forall in IH. cbn [n_create n_all]. intros [E|Hin].
    + injection E as <- <-. left. exists (NDir es). split; [now left|]. reflexivity.
    + assert (G : In (q, m) (flat_map (fun e => let '(name0, m0) := e in n_all (join path name0) m0)
          (map (fun e => let '(x, m) := e in (x, n_create dir name c (join path x) m)) es)) ->
        (exists k, In (q, k) (n_all path (NDir es)) /\ m = n_create dir name c q k) \/ q = join dir name /\ m = NFile c).
      { intro G. rewrite flat_map_map in G. apply in_flat_map in G. destruct G as ([x k] & Hx & Hk).
        apply (IH _ Hx) in Hk. destruct Hk as [(k' & Hk & ->)|Hk]; [|now right]. left. exists k'. split; [|reflexivity].
        cbn [n_all]. right. apply in_flat_map. exists (x, k). auto. }
      destruct (String.eqb_spec path dir) as [->|Hd]; [|exact (G Hin)].
      rewrite flat_map_app in Hin. apply in_app_or in Hin. destruct Hin as [Hin|Hin]; [exact (G Hin)|].
      cbn in Hin. destruct Hin as [E|[]]. injection E as <- <-. now right.
Qed.
Lemma d_all_create dir name c d q m : In (q, m) (d_all (d_create dir name c d)) ->
  (exists k, In (q, k) (d_all d) /\ m = n_create dir name c q k) \/ (q = join dir name /\ m = NFile c).
Proof.
  unfold d_all, d_create. rewrite flat_map_map. intro Hin. apply in_flat_map in Hin. destruct Hin as ([p [n|]] & Hp & H); [|destruct H].
  cbn [option_map] in H. apply all_create in H. destruct H as [(k & Hk & ->)|H]; [|now right].
  left. exists k. split; [|reflexivity]. apply in_flat_map. exists (p, Some n). auto.
Qed.

(* ---- the state of the disk the theorems are about ---- *)
Record tidy (rec : bool) (d : disk) : Prop := {
  t_wf : wf_dirs d; t_top : tops d; t_one : onepath d; t_nodup : NoDup (map fst (dwalk rec d)) }.

Lemma look_in rec d p c : look rec d p = Some c -> In (p, c) (dwalk rec d).
Proof. apply dget_some_in. Qed.
Lemma look_file rec d p c : tidy rec d -> look rec d p = Some c -> dget p (d_all d) = Some (NFile c).
Proof. intros H E. apply onepath_get; [apply (t_one _ _ H)|]. apply (dwalk_all rec). now apply look_in. Qed.

Lemma keys_remove t d q : In q (map fst (d_all (d_remove t d))) -> In q (map fst (d_all d)).
Proof.
  rewrite d_all_remove. intro H. apply in_map_iff in H. destruct H as ([p m] & <- & H). apply in_flat_map in H.
  destruct H as ([p' k] & Hin & H). unfold removed_entry in H. cbn [fst snd] in H.
  destruct (n_remove t p' k); [|destruct H]. destruct H as [E|[]]. injection E as <- <-. apply in_map_iff. exists (p', k). auto.
Qed.
Lemma keys_write t c d : map fst (d_all (d_write t c d)) = map fst (d_all d).
Proof. rewrite d_all_write, map_map. reflexivity. Qed.
Lemma keys_create dir name c d q : In q (map fst (d_all (d_create dir name c d))) -> In q (map fst (d_all d)) \/ q = join dir name.
Proof.
  intro H. apply in_map_iff in H. destruct H as ([p m] & <- & H). apply d_all_create in H.
  destruct H as [(k & Hk & _)|[-> _]]; [|now right]. left. apply in_map_iff. exists (p, k). auto.
Qed.

Lemma tidy_write rec t c d : tidy rec d -> tidy rec (d_write t c d).
Proof.
  intros [H1 H2 H3 H4]. split.
  - now apply wf_dirs_write.
  - now apply tops_write.
  - intros q k k'. rewrite d_all_write. intros Hk Hk'. apply in_map_iff in Hk, Hk'.
    destruct Hk as ([a x] & E & Hx), Hk' as ([b y] & E' & Hy). cbn [fst snd] in *. injection E as -> <-. injection E' as -> <-.
    now rewrite (H3 q x y).
  - now rewrite dwalk_write, keys_upd.
Qed.
Lemma nodup_filter_keys t l : NoDup (map fst l) -> NoDup (map fst (filter (keep t) l)).
Proof.
  induction l as [|[k v] l IH]; cbn [map filter fst]; intro H; [constructor|]. inversion H as [|? ? Hn Hd]; subst.
  destruct (keep t (k, v)); [|now apply IH]. cbn [map fst]. constructor; [|now apply IH].
  intro Hin. apply Hn. apply in_map_iff in Hin. destruct Hin as (e & <- & Hin). apply filter_In in Hin. apply in_map, Hin.
Qed.
Lemma tidy_remove rec t d : tidy rec d -> tidy rec (d_remove t d).
Proof.
  intros [H1 H2 H3 H4]. split.
  - now apply wf_dirs_remove.
  - now apply tops_remove.
  - intros q k k'. rewrite d_all_remove. intros Hk Hk'. apply in_flat_map in Hk, Hk'.
    destruct Hk as ([a x] & Hx & E), Hk' as ([b y] & Hy & E'). unfold removed_entry in *. cbn [fst snd] in *.
    destruct (n_remove t a x) eqn:E1; [|destruct E]. destruct (n_remove t b y) eqn:E2; [|destruct E'].
    destruct E as [E|[]], E' as [E'|[]]. injection E as -> <-. injection E' as -> <-.
    rewrite (H3 q x y) in E1 by assumption. congruence.
  - rewrite dwalk_remove. now apply nodup_filter_keys.
Qed.
Lemma onepath_create dir name c d : onepath d -> dget (join dir name) (d_all d) = None -> onepath (d_create dir name c d).
Proof.
  intros H3 Hno q k k' Hk Hk'. apply dget_none_iff in Hno.
  apply d_all_create in Hk, Hk'. destruct Hk as [(x & Hx & ->)|[E ->]], Hk' as [(y & Hy & ->)|[E' ->]].
  - now rewrite (H3 q x y).
  - exfalso. apply Hno. rewrite <- E'. unfold dkeys. apply in_map_iff. exists (q, x). auto.
  - exfalso. apply Hno. rewrite <- E. unfold dkeys. apply in_map_iff. exists (q, y). auto.
  - reflexivity.
Qed.

Lemma NoDup_dget_perm {A} (l1 l2 : list (string * A)) k : NoDup (map fst l1) -> Permutation l1 l2 -> dget k l1 = dget k l2.
Proof.
  intros Hn Hp. assert (Hn2 : NoDup (map fst l2)) by (eapply Permutation_NoDup; [apply Permutation_map, Hp|exact Hn]).
  destruct (dget k l1) as [v|] eqn:E.
  - symmetry. apply dget_in_nodup; [exact Hn2|]. eapply Permutation_in; [exact Hp|]. now apply dget_some_in.
  - symmetry. apply dget_none_iff. apply dget_none_iff in E. intro Hin. apply E. unfold dkeys in *.
    eapply Permutation_in; [symmetry; apply Permutation_map, Hp|exact Hin].
Qed.

Lemma walk_keys_all rec d p : In p (map fst (dwalk rec d)) -> In p (map fst (d_all d)).
Proof. intro H. apply in_map_iff in H. destruct H as ([q c] & <- & H). apply dwalk_all in H. apply in_map_iff. eexists. split; [|exact H]. reflexivity. Qed.

(* a new file *)
Lemma create_data rec dir name c d : tidy rec d -> dget (join dir name) (d_all d) = None -> hpdb name = true -> dhits rec dir d = 1 ->
  tidy rec (d_create dir name c d) /\
  forall p, look rec (d_create dir name c d) p = if String.eqb p (join dir name) then Some c else look rec d p.
Proof.
  intros [H1 H2 H3 H4] Hno Hh Hone.
  pose proof (dwalk_create rec dir name c d) as P. rewrite Hh, Hone in P. cbn [repeat] in P.
  assert (P' : Permutation (dwalk rec (d_create dir name c d)) ((join dir name, c) :: dwalk rec d)).
  { etransitivity; [exact P|]. symmetry. apply Permutation_cons_append. }
  assert (Hfresh : ~ In (join dir name) (map fst (dwalk rec d))).
  { intro Hin. apply walk_keys_all in Hin. apply dget_none_iff in Hno. apply Hno, Hin. }
  assert (Hnd : NoDup (map fst (dwalk rec (d_create dir name c d)))).
  { eapply Permutation_NoDup; [symmetry; apply Permutation_map, P'|]. cbn [map fst]. now constructor. }
  split.
  - split; [now apply wf_dirs_create|now apply tops_create|now apply onepath_create|exact Hnd].
  - intro p. unfold look. rewrite (NoDup_dget_perm _ _ p Hnd P'). reflexivity.
Qed.
Lemma create_other rec dir name c d : tidy rec d -> dget (join dir name) (d_all d) = None -> hpdb name = false ->
  tidy rec (d_create dir name c d) /\ forall p, look rec (d_create dir name c d) p = look rec d p.
Proof.
  intros [H1 H2 H3 H4] Hno Hh.
  pose proof (dwalk_create rec dir name c d) as P. rewrite Hh, app_nil_r in P.
  assert (Hnd : NoDup (map fst (dwalk rec (d_create dir name c d)))).
  { eapply Permutation_NoDup; [symmetry; apply Permutation_map, P|]. exact H4. }
  split.
  - split; [now apply wf_dirs_create|now apply tops_create|now apply onepath_create|exact Hnd].
  - intro p. unfold look. now rewrite (NoDup_dget_perm _ _ p Hnd P).
Qed.

(* os.path.split *)
Lemma split_no_slash s : no_slash s -> split_path s = None.
Proof.
  induction s as [|c s IH]; [reflexivity|]. intros [Hc Hs]. cbn. rewrite (IH Hs).
  destruct (Ascii.eqb_spec c "/"); [contradiction|reflexivity].
Qed.
Lemma split_join dir name : no_slash name -> split_path (join dir name) = Some (dir, name).
Proof.
  intro H. unfold join. induction dir as [|c dir IH]; cbn [append split_path].
  - now rewrite (split_no_slash _ H).
  - cbn [append] in IH. now rewrite IH.
Qed.
Lemma split_path_spec t : forall dir name, split_path t = Some (dir, name) -> t = join dir name /\ no_slash name.
Proof.
  induction t as [|c t IH]; intros dir name; [discriminate|]. cbn [split_path].
  destruct (split_path t) as [[d b]|] eqn:E.
  - intro X. injection X as <- <-. destruct (IH d b eq_refl) as [-> Hb]. split; [reflexivity|exact Hb].
  - destruct (Ascii.eqb_spec c "/") as [->|Hc]; [|discriminate]. intro X. injection X as <- <-. split; [reflexivity|].
    clear -E. induction t as [|c t IHt]; [exact I|]. cbn in E. destruct (split_path t) as [[d b]|]; [discriminate|].
    destruct (Ascii.eqb_spec c "/"); [discriminate|]. split; [assumption|auto].
Qed.

(* every file read is called <something>.hpd *)
Lemma walk_names rec d p c : tidy rec d -> In (p, c) (dwalk rec d) -> ends_with ".hpd" p = true /\ (4 < String.length p)%nat /\
  exists dir name, p = join dir name /\ hpdb name = true.
Proof.
  intros H Hin. destruct (visits_dirs_exist rec d (t_wf _ _ H)) as [l Hl].
  assert (Hf : In (File p c) l).
  { pose proof (Permutation_in _ (Permutation_sym (visits_dwalk rec d l Hl)) Hin) as X. unfold files in X.
    apply in_flat_map in X. destruct X as ([q b|q] & Hq & X); [|destruct X]. destruct X as [E|[]]. injection E as -> ->. exact Hq. }
  destruct (visits_dirs_names rec d l Hl (t_top _ _ H) p c Hf) as (dir & name & -> & Hn).
  pose proof Hn as Hn'. apply data_name_iff in Hn'. destruct Hn as (a & Ha & ->). unfold join. split; [|split].
  - apply ends_with_iff. exists (dir ++ "/" ++ a)%string. now rewrite !app_assoc_s.
  - rewrite !app_length_s. cbn. lia.
  - exists dir, (a ++ ".hpd")%string. split; [reflexivity|]. exact Hn'.
Qed.

(* overwriting or creating something load does not read *)
Lemma put_unread rec t c d d' : tidy rec d -> ends_with ".hpd" t = false -> put t c d = Some d' ->
  tidy rec d' /\ (forall p, look rec d' p = look rec d p) /\
  (forall q, In q (map fst (d_all d')) -> In q (map fst (d_all d)) \/ q = t) /\ forall dir, dhits rec dir d' = dhits rec dir d.
Proof.
  intros H He Hp. unfold put in Hp. destruct (dget t (d_all d)) as [[c0|es|]|] eqn:E; try discriminate.
  - injection Hp as <-. split; [now apply tidy_write|]. split; [|split].
    + intro p. rewrite look_write. destruct (look rec d p) as [v|] eqn:El; [|reflexivity].
      destruct (String.eqb_spec p t) as [->|Hn]; [|reflexivity]. apply look_in in El. apply walk_names in El; [|exact H].
      destruct El as [El _]. congruence.
    + intros q Hq. rewrite keys_write in Hq. now left.
    + intro dir. apply dhits_write.
  - destruct (split_path t) as [[dir name]|] eqn:Es.
    + injection Hp as <-. apply split_path_spec in Es. destruct Es as [-> Hns].
      assert (Hh : hpdb name = false).
      { unfold hpdb. destruct (ends_with ".hpd" name) eqn:Ee; [|apply andb_false_r]. apply ends_with_iff in Ee.
        destruct Ee as [a ->]. exfalso. unfold join in He. rewrite <- !app_assoc_s in He. now rewrite ends_with_app in He. }
      destruct (create_other rec dir name c d H E Hh) as [Ht Hl]. split; [exact Ht|]. split; [exact Hl|]. split.
      * intros q Hq. apply keys_create in Hq. exact Hq.
      * intro x. apply dhits_create.
    + injection Hp as <-. split; [exact H|]. split; [auto|]. split; [auto|]. auto.
Qed.

(* one saved file *)
Lemma ok_truncate d p : do_step (fun _ => true) (Truncate p) d = match truncate p d with Some d' => d' | None => d end.
Proof. reflexivity. Qed.

Lemma save_old rec d p x c : tidy rec d -> look rec d p = Some c ->
  let d' := run_steps (fun _ => true) (save p x) d in
  tidy rec d' /\ (forall q, look rec d' q = if String.eqb q p then Some (Parsed (JObj x)) else look rec d q) /\
  (forall q, In q (map fst (d_all d')) -> In q (map fst (d_all d))) /\ forall dir, dhits rec dir d' = dhits rec dir d.
Proof.
  intros H Hc. cbn [save run_steps fold_left do_step negb]. unfold truncate, put.
  rewrite (look_file rec d p c H Hc). cbn zeta. split; [|split; [|split]].
  - now apply tidy_write, tidy_write.
  - intro q. rewrite !look_write. destruct (String.eqb_spec q p) as [->|Hq]; [now rewrite Hc|]. now destruct (look rec d q).
  - intros q. now rewrite !keys_write.
  - intro dir. now rewrite !dhits_write.
Qed.

Lemma save_new rec d dir name x : tidy rec d -> no_slash name -> hpdb name = true -> dhits rec dir d = 1 ->
  ~ In (join dir name) (map fst (d_all d)) ->
  let d' := run_steps (fun _ => true) (save (join dir name) x) d in
  tidy rec d' /\ (forall q, look rec d' q = if String.eqb q (join dir name) then Some (Parsed (JObj x)) else look rec d q) /\
  (forall q, In q (map fst (d_all d')) -> In q (map fst (d_all d)) \/ q = join dir name) /\ forall e, dhits rec e d' = dhits rec e d.
Proof.
  intros H Hs Hh Hone Hno. cbn [save run_steps fold_left do_step negb]. unfold truncate, put.
  assert (Hg : dget (join dir name) (d_all d) = None) by now apply dget_none_iff.
  rewrite Hg, (split_join _ _ Hs). cbn zeta. destruct (create_data rec dir name Unreadable d H Hg Hh Hone) as [Ht Hl].
  split; [|split; [|split]].
  - now apply tidy_write.
  - intro q. rewrite look_write, Hl. destruct (String.eqb_spec q (join dir name)); [reflexivity|]. now destruct (look rec d q).
  - intros q. rewrite keys_write. apply keys_create.
  - intro e. now rewrite dhits_write, dhits_create.
Qed.

Lemma drop_unlink rec d p : tidy rec d ->
  let d' := do_step (fun _ => true) (Unlink p) d in
  tidy rec d' /\ (forall q, look rec d' q = if String.eqb q p then None else look rec d q) /\
  (forall q, In q (map fst (d_all d')) -> In q (map fst (d_all d))) /\ forall dir, dhits rec dir d' = dhits rec dir d.
Proof.
  intros H. cbn [do_step negb]. cbn zeta. split; [now apply tidy_remove|]. split; [intro q; apply look_remove|].
  split; [intro q; apply keys_remove|]. intro dir. apply dhits_remove.
Qed.

Lemma ends_tilde s : ends_with ".hpd" (s ++ "~") = false.
Proof. apply ends_hpd_tilde. Qed.

Lemma tilde_ne s : (s ++ "~")%string <> s.
Proof. intro H. apply (f_equal String.length) in H. rewrite app_length_s in H. cbn in H. lia. Qed.

(* suppressing a file: nothing of that name, or a file, is there *)
Lemma drop_suppress rec d p : tidy rec d -> In p (map fst (dwalk rec d)) \/ ~ In p (map fst (d_all d)) ->
  (forall k, In ((p ++ "~")%string, k) (d_all d) -> exists c, k = NFile c) ->
  let d' := do_step (fun _ => true) (Suppress p) d in
  tidy rec d' /\ (forall q, look rec d' q = if String.eqb q p then None else look rec d q) /\
  (forall q, In q (map fst (d_all d')) -> In q (map fst (d_all d)) \/ q = (p ++ "~")%string) /\
  forall dir, dhits rec dir d' = dhits rec dir d.
Proof.
  intros H Hp Hk. cbn [do_step negb]. cbn zeta.
  assert (Hnone : ~ In p (map fst (d_all d)) -> forall q, look rec d q = if String.eqb q p then None else look rec d q).
  { intros Hn q. destruct (String.eqb_spec q p) as [->|]; [|reflexivity]. apply dget_none_iff. intro X. apply Hn.
    now apply walk_keys_all in X. }
  assert (Hsame : ~ In p (map fst (d_all d)) -> d_suppress p d = d).
  { intro Hn. unfold d_suppress. apply dget_none_iff in Hn. unfold dkeys in Hn. now rewrite Hn. }
  destruct Hp as [Hp|Hp].
  2: { destruct (_ && _); [rewrite (Hsame Hp)|]; (split; [exact H|]; split; [now apply Hnone|]; split; auto). }
  apply in_map_iff in Hp. destruct Hp as ([p' c] & E & Hin). cbn in E. subst p'.
  destruct (walk_names rec d p c H Hin) as (He & Hl & _). apply Nat.ltb_lt in Hl. rewrite He, Hl. cbn [andb].
  assert (Hc : look rec d p = Some c) by (apply dget_in_nodup; [apply (t_nodup _ _ H)|exact Hin]).
  unfold d_suppress. rewrite (look_file rec d p c H Hc).
  pose proof (tidy_remove rec p d H) as Ht.
  destruct (put (p ++ "~") c (d_remove p d)) as [d'|] eqn:Ep.
  - destruct (put_unread rec _ _ _ _ Ht (ends_tilde p) Ep) as (A & B & C & D). split; [exact A|]. split; [|split].
    + intro q. rewrite B. apply look_remove.
    + intros q Hq. apply C in Hq. destruct Hq as [Hq|Hq]; [|now right]. left. now apply keys_remove in Hq.
    + intro dir. rewrite D. apply dhits_remove.
  - exfalso. unfold put in Ep. destruct (dget (p ++ "~") (d_all (d_remove p d))) as [k|] eqn:Eg.
    + apply dget_some_in in Eg. rewrite d_all_remove in Eg. apply in_flat_map in Eg. destruct Eg as ([a x] & Hx & Eg).
      unfold removed_entry in Eg. cbn [fst snd] in Eg. destruct (n_remove p a x) eqn:Er; [|destruct Eg].
      destruct Eg as [Eg|[]]. injection Eg as -> ->. destruct (Hk _ Hx) as [c0 ->]. cbn in Er.
      destruct (String.eqb_spec (p ++ "~") p) as [X|X]; [now apply tilde_ne in X|]. injection Er as <-. discriminate.
    + destruct (split_path (p ++ "~")) as [[? ?]|]; discriminate.
Qed.

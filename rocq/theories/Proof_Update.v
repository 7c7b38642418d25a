(* updatefiles and red_repair. *)
From Coq Require Import List String Bool Sorted Permutation Lia Ascii PeanoNat ZArith.
From Verif Require Import Base Text Model_Dat Spec_Dat Proof_Dat Model_Update Spec_Update Proof_UpdateDisk Proof_UpdateOps Proof_UpdateRun.
Import ListNotations.
Local Open Scope string_scope.
Local Open Scope list_scope.

(* ---- the visit list and the map of the files ---- *)
Lemma in_files p c l : In (p, c) (files l) <-> In (File p c) l.
Proof.
  unfold files. rewrite in_flat_map. split.
  - intros ([q b|q] & Hq & H); [|destruct H]. destruct H as [E|[]]. injection E as -> ->. exact Hq.
  - intro H. exists (File p c). split; [exact H|now left].
Qed.
Lemma look_visits rec d l q c : tidy rec d -> visits_dirs rec d l -> (look rec d q = Some c <-> In (File q c) l).
Proof.
  intros H Hv. pose proof (visits_dwalk rec d l Hv) as P. rewrite <- in_files. split; intro X.
  - apply look_in in X. eapply Permutation_in; [symmetry; exact P|exact X].
  - apply dget_in_nodup; [apply (t_nodup _ _ H)|]. eapply Permutation_in; [exact P|exact X].
Qed.
Lemma tidy_paths rec d l : tidy rec d -> visits_dirs rec d l -> NoDup (map fst (files l)).
Proof.
  intros H Hv. eapply Permutation_NoDup; [symmetry; apply Permutation_map, (visits_dwalk rec d l Hv)|apply (t_nodup _ _ H)].
Qed.
Lemma good_tidy rec d l : good_disk d l -> visits_dirs rec d l -> tidy rec d.
Proof.
  intros (A & B & C & D & _) Hv. split; [exact A|exact B|now apply onepath_iff|].
  eapply Permutation_NoDup; [apply Permutation_map, (visits_dwalk rec d l Hv)|exact D].
Qed.

Lemma in_files_of id p l : In p (files_of id l) <-> exists c dd, In (File p c) l /\ definition p c = Some (id, dd).
Proof.
  unfold files_of. rewrite in_flat_map. split.
  - intros ([q b|q] & Hq & H); [|destruct H]. destruct (definition q b) as [[id' dd]|] eqn:E; [|destruct H].
    destruct (String.eqb_spec id id') as [->|]; [|destruct H]. destruct H as [->|[]]. exists b, dd. auto.
  - intros (c & dd & Hin & E). exists (File p c). split; [exact Hin|]. rewrite E, String.eqb_refl. now left.
Qed.
Lemma files_of_nodup id l : NoDup (map fst (files l)) -> NoDup (files_of id l).
Proof.
  induction l as [|[p c|p] l IH]; cbn [files flat_map app map fst files_of]; intro H; [constructor| |now apply IH].
  fold (files l) in H. fold (files_of id l). inversion H as [|? ? Hn Hd]; subst.
  destruct (definition p c) as [[id' dd]|]; [|now apply IH]. destruct (String.eqb id id'); [|now apply IH].
  cbn [app]. constructor; [|now apply IH]. intro Hin. apply Hn. apply in_files_of in Hin. destruct Hin as (c' & dd' & Hin & _).
  apply in_map_iff. exists (p, c'). split; [reflexivity|]. now apply in_files.
Qed.
Lemma in_defs id dd l : In (id, dd) (defs l) <-> exists p c, In (File p c) l /\ definition p c = Some (id, dd).
Proof.
  unfold defs. rewrite in_flat_map. split.
  - intros ([q b|q] & Hq & H); [|destruct H]. destruct (definition q b) as [[id' dd']|] eqn:E; [|destruct H].
    destruct H as [X|[]]. injection X as -> ->. exists q, b. auto.
  - intros (p & c & Hin & E). exists (File p c). split; [exact Hin|]. rewrite E. now left.
Qed.
Lemma defs_ids id l : In id (map fst (defs l)) <-> exists p, In p (files_of id l).
Proof.
  rewrite <- files_of_in. destruct (files_of id l) as [|p ps]; split; intro H; try congruence.
  - destruct H as [p []].
  - exists p. now left.
Qed.

(* no substance has two files *)
Definition single (l : list item) : Prop := forall id p p', In p (files_of id l) -> In p' (files_of id l) -> p = p'.

Lemma single_files id p l : NoDup (map fst (files l)) -> single l -> In p (files_of id l) -> files_of id l = [p].
Proof.
  intros Hn Hs Hin. pose proof (files_of_nodup id l Hn) as Hd. destruct (files_of id l) as [|a [|b r]] eqn:E.
  - destruct Hin.
  - destruct Hin as [->|[]]. reflexivity.
  - exfalso. assert (a = b) by (apply (Hs id); rewrite E; cbn; auto). subst b. inversion Hd as [|? ? Hni _]. apply Hni. now left.
Qed.
Lemma file_fun l p c c' : NoDup (map fst (files l)) -> In (File p c) l -> In (File p c') l -> c = c'.
Proof.
  intros Hn H1 H2. apply in_files in H1, H2. pose proof (dget_in_nodup p c (files l) Hn H1) as E1.
  pose proof (dget_in_nodup p c' (files l) Hn H2) as E2. congruence.
Qed.
Lemma defs_fun l id dd dd' : NoDup (map fst (files l)) -> single l -> In (id, dd) (defs l) -> In (id, dd') (defs l) -> dd = dd'.
Proof.
  intros Hn Hs H1 H2. apply in_defs in H1, H2. destruct H1 as (p & c & I1 & E1), H2 as (p' & c' & I2 & E2).
  assert (p = p') by (apply (Hs id); apply in_files_of; eauto). subst p'.
  rewrite (file_fun l p c c' Hn I1 I2) in E1. congruence.
Qed.
Lemma unique_dget {A} k (v : A) l : In (k, v) l -> (forall v', In (k, v') l -> v' = v) -> dget k l = Some v.
Proof.
  intros Hin Hu. destruct (dget k l) as [v'|] eqn:E.
  - apply dget_some_in in E. now rewrite (Hu _ E).
  - apply dget_none_iff in E. exfalso. apply E. unfold dkeys. apply in_map_iff. exists (k, v). auto.
Qed.
Lemma first_def_single l id dd : NoDup (map fst (files l)) -> single l -> In (id, dd) (defs l) -> first_def id l = Some dd.
Proof. intros Hn Hs Hin. apply unique_dget; [exact Hin|]. intros v Hv. now apply (defs_fun l id). Qed.
Lemma last_def_single l id dd : NoDup (map fst (files l)) -> single l -> In (id, dd) (defs l) -> last_def id l = Some dd.
Proof.
  intros Hn Hs Hin. apply unique_dget; [now apply -> in_rev|]. intros v Hv. apply in_rev in Hv. now apply (defs_fun l id).
Qed.

(* what load puts into an empty collection *)
Lemma load_single cfg reg d l : exist_fatal cfg = false -> visits_dirs (recursive cfg) d l -> all_loadable reg l ->
  NoDup (map fst (files l)) -> single l ->
  exists data, load cfg reg d [] = (data, None) /\ forall id dd, dat_of data id = Some dd <-> In (id, dd) (defs l).
Proof.
  intros Hf Hv Hl Hn Hs. pose proof (load_succeeds cfg reg d l [] Hf Hv Hl) as HL.
  destruct (load cfg reg d []) as [data x] eqn:E. cbn in HL. subst x. exists data. split; [reflexivity|].
  assert (Hd : forall id, dat_of data id = first_def id l).
  { intro id. destruct (overwrite cfg) eqn:Ho.
    - rewrite (load_overwrite _ _ _ _ _ _ Ho Hf Hv E). destruct (last_def id l) as [dd|] eqn:E1.
      + unfold last_def in E1. apply dget_some_in in E1. apply in_rev in E1. now rewrite (first_def_single l id dd).
      + unfold last_def in E1. apply dget_none_iff in E1. symmetry. apply dget_none_iff. unfold dkeys in *.
        rewrite map_rev in E1. rewrite <- in_rev in E1. exact E1.
    - now rewrite (load_ignore _ _ _ _ _ _ Ho Hf Hv E). }
  intros id dd. rewrite Hd. split; intro H.
  - unfold first_def in H. now apply dget_some_in.
  - now apply first_def_single.
Qed.

(* ---- the plan of the second part ---- *)
Lemma no_source_path dest id d : no_source d -> save_path dest id d = Ok (join dest (id ++ ".hpd")).
Proof. unfold save_path. intros [->|[->| ->]]; reflexivity. Qed.

Lemma added_plan dest mem ids : (forall id, In id ids -> exists s, dget id mem = Some s /\
    dget "id" (s_data s) = Some (JStr id) /\ no_source (s_data s)) ->
  exists S, save_added dest mem ids = (saves S, None) /\
    forall p x, In (p, x) S <-> exists id s, In id ids /\ dget id mem = Some s /\ p = join dest (id ++ ".hpd") /\ x = s_data s.
Proof.
  induction ids as [|id ids IH]; intro H.
  - exists []. split; [reflexivity|]. intros p x. split; [intros []|]. intros (id & s & [] & _).
  - destruct (H id (or_introl eq_refl)) as (s & Hs & Hid & Hno). destruct IH as (S & E & HS); [intros i Hi; apply H; now right|].
    exists ((join dest (id ++ ".hpd"), s_data s) :: S). split.
    + cbn [save_added]. rewrite Hs. unfold str_field. rewrite Hid, (no_source_path dest id _ Hno), E. reflexivity.
    + intros p x. split.
      * intros [X|X].
        -- injection X as <- <-. exists id, s. repeat split; auto. now left.
        -- apply HS in X. destruct X as (i & s' & A & B). exists i, s'. split; [now right|exact B].
      * intros (i & s' & [<-|A] & B & -> & ->); [left; congruence|]. right. apply HS. exists i, s'. auto.
Qed.
Lemma changed_plan mem found ids : (forall id, In id ids -> exists s s0, dget id mem = Some s /\ dget id found = Some s0) ->
  exists S, save_changed false mem found ids = (saves S, None) /\
    forall p x, In (p, x) S <-> exists id s s0, In id ids /\ dget id mem = Some s /\ dget id found = Some s0 /\ p = file_of s0 /\ x = s_data s.
Proof.
  induction ids as [|id ids IH]; intro H.
  - exists []. split; [reflexivity|]. intros p x. split; [intros []|]. intros (id & s & s0 & [] & _).
  - destruct (H id (or_introl eq_refl)) as (s & s0 & Hs & Hs0). destruct IH as (S & E & HS); [intros i Hi; apply H; now right|].
    exists ((file_of s0, s_data s) :: S). split.
    + cbn [save_changed]. rewrite Hs, Hs0. cbn [andb]. rewrite E. reflexivity.
    + intros p x. split.
      * intros [X|X].
        -- injection X as <- <-. exists id, s, s0. repeat split; auto. now left.
        -- apply HS in X. destruct X as (i & s' & s0' & A & B). exists i, s', s0'. split; [now right|exact B].
      * intros (i & s' & s0' & [<-|A] & B & C & -> & ->); [left; congruence|]. right. apply HS. exists i, s', s0'. auto.
Qed.
Lemma removed_plan del found ids : (forall id, In id ids -> exists s0, dget id found = Some s0) ->
  exists P, drop_removed false del found ids = (map (drop del) P, None) /\
    forall p, In p P <-> exists id s0, In id ids /\ dget id found = Some s0 /\ p = file_of s0.
Proof.
  induction ids as [|id ids IH]; intro H.
  - exists []. split; [reflexivity|]. intros p. split; [intros []|]. intros (id & s0 & [] & _).
  - destruct (H id (or_introl eq_refl)) as (s0 & Hs0). destruct IH as (P & E & HP); [intros i Hi; apply H; now right|].
    exists (file_of s0 :: P). split.
    + cbn [drop_removed]. rewrite Hs0. cbn [andb]. rewrite E. reflexivity.
    + intros p. split.
      * intros [X|X].
        -- subst p. exists id, s0. repeat split; auto. now left.
        -- apply HP in X. destruct X as (i & s0' & A & B). exists i, s0'. split; [now right|exact B].
      * intros (i & s0' & [<-|A] & C & ->); [left; congruence|]. right. apply HP. exists i, s0'. auto.
Qed.

Lemma saves_app a b : saves (a ++ b) = saves a ++ saves b.
Proof. apply flat_map_app. Qed.

(* ---- data dictionaries ---- *)
Lemma jeq_obj a b : NoDup (dkeys a) -> NoDup (dkeys b) -> data_eq a b = true ->
  forall k, match dget k a, dget k b with Some u, Some v => jeq u v = true | None, None => True | _, _ => False end.
Proof.
  intros Ha Hb H. unfold data_eq in H. cbn [jeq] in H. apply andb_prop in H. destruct H as [Hl H]. apply Nat.eqb_eq in Hl.
  assert (G : forall k u, In (k, u) a -> exists v, dget k b = Some v /\ jeq u v = true).
  { clear Ha Hl. revert H. induction a as [|[k u] a IH]; intros H k' u' Hin; [destruct Hin|].
    apply andb_prop in H. destruct H as [H1 H2]. destruct Hin as [E|Hin]; [|now apply IH].
    injection E as -> ->. destruct (dget k' b) as [v|]; [|discriminate]. eauto. }
  assert (I1 : incl (dkeys a) (dkeys b)).
  { intros k Hk. unfold dkeys in Hk. apply in_map_iff in Hk. destruct Hk as ([k' u] & <- & Hin). destruct (G _ _ Hin) as (v & Hv & _).
    apply dget_some_in in Hv. unfold dkeys. apply in_map_iff. exists (k', v). auto. }
  assert (I2 : incl (dkeys b) (dkeys a)).
  { apply NoDup_length_incl; [exact Ha| |exact I1]. unfold dkeys. rewrite !map_length. lia. }
  intro k. destruct (dget k a) as [u|] eqn:Ea.
  - apply dget_some_in in Ea. destruct (G _ _ Ea) as (v & -> & Hv). exact Hv.
  - destruct (dget k b) as [v|] eqn:Eb; [|exact I]. apply dget_none_iff in Ea. apply Ea, I2. apply dget_some_in in Eb.
    unfold dkeys. apply in_map_iff. exists (k, v). auto.
Qed.
Lemma same_refl d : json_wf (JObj d) -> same_but_source d d.
Proof.
  intros H k _. destruct (dget k d) as [v|] eqn:E; [|exact I]. apply jeq_refl.
  inversion H as [| | | | |d' Hn Hw]; subst. apply dget_some_in in E. clear -Hw E.
  induction d as [|[k' u] d IH]; [destruct E|]. cbn in Hw. inversion Hw; subst. destruct E as [X|X]; [congruence|auto].
Qed.
Lemma same_source d p : json_wf (JObj d) -> same_but_source (dset "fromfile" (JStr p) d) d.
Proof. intros H k Hk. rewrite dget_dset_other by assumption. now apply same_refl. Qed.

(* the file written for a substance defines it *)
Lemma saved_definition reg mem id s p : keyed reg mem -> dget id mem = Some s -> dget "doc" (s_data s) <> None ->
  definition p (Parsed (JObj (s_data s))) = Some (id, dset "fromfile" (JStr p) (s_data s)).
Proof.
  intros [_ Hk] Hs Hd. destruct (Hk id s Hs) as (H1 & H2 & _). unfold definition, dmem. rewrite H1, H2.
  destruct (dget "doc" (s_data s)); [reflexivity|congruence].
Qed.

(* ---- the second part ---- *)
Section Second.
Variables (cfg : datcfg) (reg : registry) (del : bool) (dest : string) (mem : collection).
Variables (d : disk) (l : list item) (r : report).
Let rec := recursive cfg.
Hypothesis Ht : tidy rec d.
Hypothesis Hv : visits_dirs rec d l.
Hypothesis Hsing : single l.
Hypothesis Hload : all_loadable reg l.
Hypothesis Hr : report_ok mem l r.
Hypothesis Hm : good_memory reg mem.
Hypothesis Hctor : source_irrelevant reg.
Hypothesis Hdest : dhits rec dest d = 1.
Hypothesis Hnew : forall id s, dget id mem = Some s -> ~ In id (map fst (defs l)) ->
  no_source (s_data s) /\ id <> "" /\ no_slash id /\ ~ In (join dest (id ++ ".hpd")) (map fst (d_all d)).
Hypothesis Htilde : forall p c, In (File p c) l -> ~ dirkey d (p ++ "~").

Let Hpaths : NoDup (map fst (files l)) := tidy_paths rec d l Ht Hv.

Lemma found_file id p : In p (files_of id l) -> exists s0, dget id (rdata r) = Some s0 /\ file_of s0 = p.
Proof. intro H. apply (rk_one _ _ _ Hr). now apply single_files. Qed.

Lemma no_slash_app a b : no_slash a -> no_slash b -> no_slash (a ++ b).
Proof. induction a as [|c a IH]; [auto|]. intros [H1 H2] Hb. split; auto. Qed.

Lemma append_inj_r a b c : (a ++ c)%string = (b ++ c)%string -> a = b.
Proof.
  revert b. induction a as [|x a IH]; intros [|y b] H; cbn in H.
  - reflexivity.
  - exfalso. apply (f_equal String.length) in H. cbn in H. rewrite app_length_s in H. lia.
  - exfalso. apply (f_equal String.length) in H. cbn in H. rewrite app_length_s in H. lia.
  - injection H as -> H. f_equal. now apply IH.
Qed.
Lemma append_inj_l a b c : (c ++ a)%string = (c ++ b)%string -> a = b.
Proof. induction c as [|x c IH]; cbn; intro H; [exact H|]. injection H as H. auto. Qed.
Lemma new_path_inj id id' : join dest (id ++ ".hpd") = join dest (id' ++ ".hpd") -> id = id'.
Proof. unfold join. intro H. apply append_inj_l in H. cbn in H. injection H as H. now apply append_inj_r in H. Qed.

(* what becomes of each file *)
Definition saved (p : string) (id : string) (s : subst) : Prop :=
  dget id mem = Some s /\
  ((~ In id (map fst (defs l)) /\ p = join dest (id ++ ".hpd")) \/
   (In p (files_of id l) /\ exists dd, In (id, dd) (defs l) /\ data_eq (s_data s) dd = false)).
Definition dropped (p : string) : Prop := exists id, In p (files_of id l) /\ ~ In id (dkeys mem).

Lemma saved_fun p id s id' s' : saved p id s -> saved p id' s' -> id = id' /\ s = s'.
Proof.
  intros [H1 H2] [H1' H2'].
  enough (E : id = id') by (split; [exact E|]; rewrite <- E in H1'; congruence).
  assert (A : forall i i' t, dget i mem = Some t -> ~ In i (map fst (defs l)) -> p = join dest (i ++ ".hpd") -> In p (files_of i' l) -> False).
  { intros i i' t X1 X2 -> X3. destruct (Hnew i t X1 X2) as (_ & _ & _ & X4). apply X4. apply in_files_of in X3.
    destruct X3 as (c & dd & Hin & _). apply walk_keys_all with rec. apply look_key.
    apply (look_visits rec d l _ c Ht Hv) in Hin. congruence. }
  destruct H2 as [[N1 P1]|[N1 _]], H2' as [[N2 P2]|[N2 _]].
  - apply new_path_inj. congruence.
  - exfalso. exact (A id id' s H1 N1 P1 N2).
  - exfalso. exact (A id' id s' H1' N2 P2 N1).
  - apply in_files_of in N1, N2. destruct N1 as (c & dd & I1 & E1), N2 as (c' & dd' & I2 & E2).
    rewrite (file_fun l p c c' Hpaths I1 I2) in E1. congruence.
Qed.

Lemma second_plan : exists S P, second_part false del dest mem r = (saves S ++ map (drop del) P, None) /\
  (forall p x, In (p, x) S <-> exists id s, saved p id s /\ x = s_data s) /\
  (forall p, In p P <-> dropped p) /\
  (forall p x, In (p, x) S -> savable rec dest d p) /\
  (forall p x y, In (p, x) S -> In (p, y) S -> x = y) /\
  (forall p, In p P -> droppable rec d p /\ ~ dirkey d (p ++ "~")) /\
  (forall p x, In p P -> ~ In (p, x) S).
Proof.
  destruct Hm as [[Hnd Hkey] Hdoc]. destruct Hr as [K1 K2 K3 K4 K5 K6 K7 K8 K9].
  destruct (added_plan dest mem (added r)) as (SA & EA & HA).
  { intros id Hid. apply K3 in Hid. destruct Hid as [Hid Hno]. apply dget_in_keys in Hid. destruct Hid as [s Hs].
    exists s. split; [exact Hs|]. split; [apply (Hkey id s Hs)|]. apply (Hnew id s Hs Hno). }
  destruct (changed_plan mem (rdata r) (changed r)) as (SC & EC & HC).
  { intros id Hid. apply K2 in Hid. destruct Hid as (dd & s & H1 & H2 & _). exists s.
    assert (Hin : In id (map fst (defs l))) by (apply first_def_in; congruence). apply K1 in Hin. apply dget_in_keys in Hin.
    destruct Hin as [s0 Hs0]. exists s0. auto. }
  destruct (removed_plan del (rdata r) (removed r)) as (P & EP & HP).
  { intros id Hid. apply K5 in Hid. destruct Hid as [Hid _]. apply K1 in Hid. apply dget_in_keys in Hid. exact Hid. }
  exists (SA ++ SC), P. split.
  { unfold second_part. rewrite EA, EC, EP. unfold seq. cbn [fst snd]. now rewrite saves_app, app_assoc. }
  assert (HS : forall p x, In (p, x) (SA ++ SC) <-> exists id s, saved p id s /\ x = s_data s).
  { intros p x. rewrite in_app_iff, HA, HC. split.
    - intros [(id & s & H1 & H2 & -> & ->)|(id & s & s0 & H1 & H2 & H3 & -> & ->)].
      + exists id, s. split; [|reflexivity]. split; [exact H2|]. left. split; [|reflexivity]. now apply K3.
      + exists id, s. split; [|reflexivity]. split; [exact H2|]. right. apply K2 in H1. destruct H1 as (dd & s' & F1 & F2 & F3).
        assert (s' = s) by congruence. subst s'. unfold first_def in F1. apply dget_some_in in F1.
        assert (Hin : exists q, In q (files_of id l)) by (apply defs_ids; apply in_map_iff; exists (id, dd); auto).
        destruct Hin as [q Hq]. destruct (found_file id q Hq) as (s1 & E1 & <-). assert (s1 = s0) by congruence. subst s1.
        split; [exact Hq|]. exists dd. auto.
    - intros (id & s & [H1 [[H2 ->]|[H2 (dd & H3 & H4)]]] & ->).
      + left. exists id, s. repeat split; auto. apply K3. split; [|exact H2]. apply dget_in_keys. eauto.
      + right. destruct (found_file id p H2) as (s0 & E0 & <-). exists id, s, s0. repeat split; auto.
        apply K2. exists dd, s. split; [|auto]. now apply first_def_single. }
  assert (HD : forall p, In p P <-> dropped p).
  { intro p. rewrite HP. split.
    - intros (id & s0 & H1 & H2 & ->). apply K5 in H1. destruct H1 as [H1 H3]. exists id. split; [|exact H3].
      apply defs_ids in H1. destruct H1 as [q Hq]. destruct (found_file id q Hq) as (s1 & E1 & E2).
      assert (s1 = s0) by congruence. subst s1. now rewrite E2.
    - intros (id & H1 & H2). destruct (found_file id p H1) as (s0 & E0 & <-). exists id, s0. repeat split; auto.
      apply K5. split; [|exact H2]. apply defs_ids. eauto. }
  split; [exact HS|]. split; [exact HD|].
  assert (Hdisj : forall p id s, dropped p -> ~ saved p id s).
  { intros p id s (i & D1 & D2) [S1 [[S2 ->]|[S2 _]]].
    - destruct (Hnew id s S1 S2) as (_ & _ & _ & X4). apply X4. apply walk_keys_all with rec. apply look_key.
      apply in_files_of in D1. destruct D1 as (c & dd & Hin & _). apply (look_visits rec d l _ c Ht Hv) in Hin. congruence.
    - apply in_files_of in D1, S2. destruct D1 as (c & dd & I1 & E1), S2 as (c' & dd' & I2 & E2).
      rewrite (file_fun l p c c' Hpaths I1 I2) in E1. assert (i = id) by congruence. subst i. apply D2. apply dget_in_keys. eauto. }
  split; [|split; [|split]].
  - intros p x Hin. apply HS in Hin. destruct Hin as (id & s & [H1 [[H2 ->]|[H2 _]]] & ->).
    + right. destruct (Hnew id s H1 H2) as (_ & X2 & X3 & X4). exists (id ++ ".hpd")%string. split; [reflexivity|]. split; [|split; [|exact X4]].
      * apply no_slash_app; [exact X3|]. repeat split; discriminate.
      * unfold hpdb. rewrite ends_with_app, andb_true_r. apply Nat.ltb_lt. rewrite app_length_s. cbn.
        destruct id; [congruence|]. cbn. lia.
    + left. apply in_files_of in H2. destruct H2 as (c & dd & Hin & _). apply (look_visits rec d l _ c Ht Hv) in Hin. congruence.
  - intros p x y Hx Hy. apply HS in Hx, Hy. destruct Hx as (id & s & Hs & ->), Hy as (id' & s' & Hs' & ->).
    destruct (saved_fun p id s id' s' Hs Hs') as [_ ->]. reflexivity.
  - intros p Hp. apply HD in Hp. destruct Hp as (id & H1 & H2). apply in_files_of in H1. destruct H1 as (c & dd & Hin & _). split.
    + apply (look_visits rec d l _ c Ht Hv) in Hin. split; [apply look_in in Hin; now apply walk_names in Hin|]. left. apply look_key. congruence.
    + now apply (Htilde p c).
  - intros p x Hp Hx. apply HD in Hp. apply HS in Hx. destruct Hx as (id & s & Hs & _). now apply (Hdisj p id s).
Qed.

(* the saves and the removals, or the first few of them *)
Lemma plan_run S P : (forall p x, In (p, x) S -> savable rec dest d p) ->
  (forall p x y, In (p, x) S -> In (p, y) S -> x = y) ->
  (forall p, In p P -> droppable rec d p /\ ~ dirkey d (p ++ "~")) ->
  (forall p x, In p P -> ~ In (p, x) S) ->
  let d' := run_steps yes (saves S ++ map (drop del) P) d in
  evo rec (fun q => True) d d' /\
  forall q, look rec d' q = if in_dec string_dec q P then None
                            else match dget q S with Some x => Some (Parsed (JObj x)) | None => look rec d q end.
Proof.
  intros C1 C2 C3 C4. rewrite run_app. cbn zeta. destruct (saves_run rec dest S d Ht Hdest C1 C2) as [A1 A2].
  remember (run_steps yes (saves S) d) as d1 eqn:Ed1.
  destruct (drops_run rec del P d1 (e_tidy _ _ _ _ A1)) as (B1 & B2 & _).
  { intros p Hp. destruct (C3 p Hp) as [[D1 D2] _]. split; [exact D1|]. destruct D2 as [D2|D2].
    - left. apply look_key. apply look_key in D2. rewrite A2. destruct (dget p S); congruence.
    - right. intro Hx. apply (e_keys _ _ _ _ A1) in Hx. destruct Hx as [Hx|Hx]; [contradiction|].
      apply in_map_iff in Hx. destruct Hx as ([p' x] & E & Hx). cbn in E. subst p'. now apply (C4 p x). }
  { intros p Hp Hx. apply (e_dirs _ _ _ _ A1) in Hx. now apply (C3 p Hp). }
  split.
  - eapply evo_trans; [eapply evo_weaken; [|exact A1]|eapply evo_weaken; [|exact B1]]; auto.
  - intro q. now rewrite B2, A2.
Qed.

Lemma second_run : exists tr, second_part false del dest mem r = (tr, None) /\
  let d' := run_steps yes tr d in
  evo rec (fun q => True) d d' /\
  (forall q, (dropped q -> look rec d' q = None) /\
             (forall id s, saved q id s -> look rec d' q = Some (Parsed (JObj (s_data s)))) /\
             (~ dropped q -> (forall id s, ~ saved q id s) -> look rec d' q = look rec d q)).
Proof.
  destruct second_plan as (S & P & E & HS & HD & C1 & C2 & C3 & C4). exists (saves S ++ map (drop del) P). split; [exact E|].
  destruct (plan_run S P C1 C2 C3 C4) as [A B]. split; [exact A|].
  intro q. rewrite B. split; [|split].
  - intro Hq. apply HD in Hq. destruct (in_dec string_dec q P); [reflexivity|contradiction].
  - intros id s Hs. assert (Hin : In (q, s_data s) S) by (apply HS; eauto).
    destruct (in_dec string_dec q P) as [Hq|_]; [exfalso; now apply (C4 q (s_data s))|].
    rewrite (unique_dget q (s_data s)); [reflexivity|exact Hin|]. intros v Hv'. now apply (C2 q).
  - intros Hq Hns. destruct (in_dec string_dec q P) as [Hq'|_]; [apply HD in Hq'; contradiction|].
    destruct (dget q S) as [x|] eqn:Ex; [|reflexivity]. apply dget_some_in in Ex. apply HS in Ex.
    destruct Ex as (id & s & Hs & _). now destruct (Hns id s).
Qed.
End Second.

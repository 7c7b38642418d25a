(* Interrupted updates, failing operations and the interactive repair. *)
From Coq Require Import List String Bool Sorted Permutation Lia Ascii PeanoNat ZArith.
From Verif Require Import Base Text Model_Dat Spec_Dat Proof_Dat Model_Update Spec_Update Proof_UpdateDisk Proof_UpdateOps Proof_UpdateRun Proof_Update Proof_UpdateAll Proof_UpdateThm.
Import ListNotations.
Local Open Scope string_scope.
Local Open Scope list_scope.

(* ---- prefixes of a plan ---- *)
Lemma firstn_plan del P k : forall S,
  (exists S' S'', S = S' ++ S'' /\ firstn k (saves S ++ map (drop del) P) = saves S') \/
  (exists S' p x S'', S = S' ++ (p, x) :: S'' /\ firstn k (saves S ++ map (drop del) P) = saves S' ++ [Truncate p]) \/
  (exists P' P'', P = P' ++ P'' /\ firstn k (saves S ++ map (drop del) P) = saves S ++ map (drop del) P').
Proof.
  intro S. revert k. induction S as [|[p x] S IH]; intro k.
  - right; right. cbn [saves flat_map app]. exists (firstn k P), (skipn k P). split; [symmetry; apply firstn_skipn|].
    clear. revert k. induction P as [|p P IH]; intros [|k]; cbn; [reflexivity|reflexivity|reflexivity|]. now rewrite IH.
  - change (saves ((p, x) :: S)) with (Truncate p :: Fill p x :: saves S). destruct k as [|[|k]].
    + left. exists [], ((p, x) :: S). split; reflexivity.
    + right; left. exists [], p, x, S. split; reflexivity.
    + cbn [app firstn]. destruct (IH k) as [(S' & S'' & E1 & E2)|[(S' & q & y & S'' & E1 & E2)|(P' & P'' & E1 & E2)]].
      * left. exists ((p, x) :: S'), S''. split; [now rewrite E1|]. now rewrite E2.
      * right; left. exists ((p, x) :: S'), q, y, S''. split; [now rewrite E1|]. now rewrite E2.
      * right; right. exists P', P''. split; [exact E1|]. now rewrite E2.
Qed.

Lemma truncate_one rec dest d p : tidy rec d -> dhits rec dest d = 1 -> savable rec dest d p ->
  tidy rec (do_step yes (Truncate p) d) /\
  (forall q, look rec (do_step yes (Truncate p) d) q = if String.eqb q p then Some Unreadable else look rec d q).
Proof.
  intros H Hh [Hs|(name & -> & Hn & Hp & Hf)]; cbn [do_step yes negb]; unfold truncate, put.
  - destruct (look rec d p) as [c|] eqn:Ec; [|congruence]. rewrite (look_file rec d p c H Ec). split; [now apply tidy_write|].
    intro q. rewrite look_write. destruct (String.eqb_spec q p) as [->|Hq]; [now rewrite Ec|]. now destruct (look rec d q).
  - assert (Hg : dget (join dest name) (d_all d) = None) by now apply dget_none_iff.
    rewrite Hg, (split_join _ _ Hn). apply (create_data rec dest name Unreadable d H Hg Hp Hh).
Qed.

Lemma look_files rec d l q : tidy rec d -> visits_dirs rec d l -> dget q (files l) = look rec d q.
Proof. intros H Hv. apply NoDup_dget_perm; [now apply (tidy_paths rec d)|now apply visits_dwalk]. Qed.

Lemma nodup_defs_single l : NoDup (map fst (defs l)) -> single l.
Proof.
  intro Hn. assert (Hone : forall i, files_of i l = [] \/ exists q, files_of i l = [q]).
  { intro i. induction l as [|[p c|p] l IH]; [now left| |apply IH, Hn].
    cbn [files_of flat_map]. fold (files_of i l).
    change (defs (File p c :: l)) with ((match definition p c with Some x => [x] | None => [] end) ++ defs l) in Hn.
    destruct (definition p c) as [[id' dd]|]; [|apply IH, Hn]. cbn in Hn. inversion Hn as [|? ? Hni Hn']; subst.
    destruct (String.eqb_spec i id') as [->|Hd]; [|apply IH, Hn'].
    right. exists p. destruct (files_of id' l) eqn:E; [reflexivity|]. exfalso. apply Hni, files_of_in. congruence. }
  intros id p p' H H'. destruct (Hone id) as [E|[q E]]; rewrite E in H, H'; [destruct H|]. destruct H as [<-|[]], H' as [<-|[]]. reflexivity.
Qed.
Lemma single_no_redundant mem l r : NoDup (map fst (files l)) -> report_ok mem l r -> single l -> redundant r = [].
Proof.
  intros Hn Hr Hs. destruct (redundant r) as [|[i x] rr] eqn:Erd; [reflexivity|]. exfalso.
  pose proof (rk_red _ _ _ Hr i) as K9. rewrite Erd in K9. cbn in K9. rewrite String.eqb_refl in K9.
  destruct (files_of i l) as [|a q] eqn:Ef; [discriminate|]. rewrite (single_files i a l) in Ef; [|exact Hn|exact Hs|rewrite Ef; now left].
  injection Ef as <-. discriminate.
Qed.

(* an update that is cut short *)
Lemma update_crash int_of cfg reg del dest ins mem d l :
  exist_fatal cfg = false -> visits_dirs (recursive cfg) d l -> all_loadable reg l ->
  good_disk d l -> good_memory reg mem ->
  count_occ string_dec (searched_dirs (recursive cfg) d) dest = 1 -> room_for_new d l dest mem ->
  malformed_files l = [] -> NoDup (map fst (defs l)) ->
  exists tr d' l', updatefiles (fun _ => true) int_of cfg reg false del dest ins mem d = (tr, d', None) /\
    visits_dirs (recursive cfg) d' l' /\
    forall k, exists lk p, visits_dirs (recursive cfg) (run_steps (fun _ => true) (firstn k tr) d) lk /\
      forall q, dget q (files lk) = dget q (files l) \/ dget q (files lk) = dget q (files l') \/
                (q = p /\ dget q (files lk) = Some Unreadable).
Proof.
  intros Hf Hv Hload Hgd Hm Hcount Hroom Hmal Hdup.
  pose proof (good_tidy (recursive cfg) d l Hgd Hv) as Ht. pose proof (tidy_paths _ d l Ht Hv) as Hpaths.
  pose proof (nodup_defs_single l Hdup) as Hsing.
  assert (Hnd : NoDup (dkeys mem)) by apply Hm.
  assert (Htilde : forall p c, In (File p c) l -> ~ dirkey d (p ++ "~")).
  { intros p c Hin (k & Hk & Hno). destruct Hgd as (_ & _ & _ & _ & _ & X). destruct (X p c k Hin) as [c' ->]; [now apply d_all_iff|]. now destruct (Hno c'). }
  destruct (check_report cfg reg d l mem Hf Hnd Hv Hload) as (r & Er & Hr).
  assert (Hred : redundant r = []) by now apply (single_no_redundant mem l).
  assert (Hbad : bad r = []) by (rewrite (rk_bad _ _ _ Hr); exact Hmal).
  assert (Hdest : dhits (recursive cfg) dest d = 1) by (rewrite dhits_count; exact Hcount).
  assert (Hnew : forall id s, dget id mem = Some s -> ~ In id (map fst (defs l)) ->
     no_source (s_data s) /\ id <> "" /\ no_slash id /\ ~ In (join dest (id ++ ".hpd")) (map fst (d_all d))).
  { intros id s Hs Hno. destruct (Hroom id s Hs Hno) as (X1 & X2 & X3 & X4). repeat split; auto.
    intro Hx. apply in_map_iff in Hx. destruct Hx as ([q k] & E & Hx). cbn in E. subst q. apply d_all_iff in Hx. now apply (X4 k). }
  destruct (second_plan cfg reg del dest mem d l r Ht Hv Hsing Hr Hm Hdest Hnew Htilde) as (S & P & E2 & HS & HD & C1 & C2 & C3 & C4).
  destruct (plan_run cfg del dest d Ht Hdest S P C1 C2 C3 C4) as [A B].
  remember (saves S ++ map (drop del) P) as tr eqn:Etr.
  pose proof (e_tidy _ _ _ _ A) as Ht'. destruct (visits_dirs_exist (recursive cfg) _ (t_wf _ _ Ht')) as [l' Hv'].
  exists tr, (run_steps yes tr d), l'. split; [|split; [exact Hv'|]].
  { unfold updatefiles. rewrite Er. cbn [snd]. unfold first_part, seq. rewrite Hred, Hbad. cbn [bad_steps fst snd app run_steps fold_left].
    rewrite E2. reflexivity. }
  intro k.
  assert (Hx : forall q x, In (q, x) S -> look (recursive cfg) (run_steps yes tr d) q = Some (Parsed (JObj x))).
  { intros q x Hin. rewrite B. destruct (in_dec string_dec q P) as [Hp|_]; [exfalso; now apply (C4 q x)|].
    rewrite (unique_dget q x S Hin); [reflexivity|]. intros v Hv2. now apply (C2 q). }
  change (run_steps (fun _ => true)) with (run_steps yes).
  destruct (firstn_plan del P k S) as [(S' & S'' & F1 & F2)|[(S' & p & x & S'' & F1 & F2)|(P' & P'' & F1 & F2)]]; rewrite <- Etr in F2; rewrite F2; clear F2.
  - assert (Hsub : forall e, In e S' -> In e S) by (intros e He; rewrite F1; apply in_or_app; now left).
    destruct (saves_run (recursive cfg) dest S' d Ht Hdest) as [A1 A2].
    { intros q y Hin. apply (C1 q y). now apply Hsub. }
    { intros q y z H1 H2. apply (C2 q); now apply Hsub. }
    pose proof (e_tidy _ _ _ _ A1) as Hk. destruct (visits_dirs_exist (recursive cfg) _ (t_wf _ _ Hk)) as [lk Hvk].
    exists lk, "". split; [exact Hvk|]. intro q.
    rewrite (look_files _ _ lk q Hk Hvk), (look_files _ _ l q Ht Hv), (look_files _ _ l' q Ht' Hv'), A2.
    destruct (dget q S') as [y|] eqn:E; [|now left]. right; left. apply dget_some_in in E. symmetry. apply Hx. now apply Hsub.
  - assert (Hsub : forall e, In e S' -> In e S) by (intros e He; rewrite F1; apply in_or_app; now left).
    assert (Hp : In (p, x) S) by (rewrite F1; apply in_or_app; right; now left).
    destruct (saves_run (recursive cfg) dest S' d Ht Hdest) as [A1 A2].
    { intros q y Hin. apply (C1 q y). now apply Hsub. }
    { intros q y z H1 H2. apply (C2 q); now apply Hsub. }
    rewrite run_app. remember (run_steps yes (saves S') d) as d1 eqn:Ed1.
    destruct (truncate_one (recursive cfg) dest d1 p (e_tidy _ _ _ _ A1)) as [A3 A4].
    { now rewrite (e_hits _ _ _ _ A1). }
    { destruct (look (recursive cfg) d1 p) as [c|] eqn:El; [left; congruence|]. destruct (C1 p x Hp) as [X|(name & X1 & X2 & X3 & X4)].
      - exfalso. rewrite A2 in El. destruct (dget p S'); [discriminate|contradiction].
      - right. exists name. repeat split; try assumption. intro Hin. apply (e_keys _ _ _ _ A1) in Hin. destruct Hin as [Hin|Hin]; [contradiction|].
        rewrite A2 in El. destruct (dget p S') eqn:Eg; [discriminate|]. apply dget_none_iff in Eg. contradiction. }
    change (run_steps yes [Truncate p] d1) with (do_step yes (Truncate p) d1).
    destruct (visits_dirs_exist (recursive cfg) _ (t_wf _ _ A3)) as [lk Hvk].
    exists lk, p. split; [exact Hvk|]. intro q.
    rewrite (look_files _ _ lk q A3 Hvk), (look_files _ _ l q Ht Hv), (look_files _ _ l' q Ht' Hv'), A4, A2.
    destruct (String.eqb_spec q p) as [->|Hn]; [now right; right|].
    destruct (dget q S') as [y|] eqn:E; [|now left]. right; left. apply dget_some_in in E. symmetry. apply Hx. now apply Hsub.
  - assert (Hsub : forall e, In e P' -> In e P) by (intros e He; rewrite F1; apply in_or_app; now left).
    destruct (plan_run cfg del dest d Ht Hdest S P' C1 C2) as [A1 A2].
    { intros p Hp. apply C3. now apply Hsub. }
    { intros p x Hp. apply C4. now apply Hsub. }
    pose proof (e_tidy _ _ _ _ A1) as Hk. destruct (visits_dirs_exist (recursive cfg) _ (t_wf _ _ Hk)) as [lk Hvk].
    exists lk, "". split; [exact Hvk|]. intro q.
    rewrite (look_files _ _ lk q Hk Hvk), (look_files _ _ l q Ht Hv), (look_files _ _ l' q Ht' Hv'), A2.
    destruct (in_dec string_dec q P') as [Hq|Hq].
    + right; left. rewrite B. destruct (in_dec string_dec q P) as [_|Hno]; [reflexivity|exfalso; apply Hno; now apply Hsub].
    + destruct (dget q S) as [y|] eqn:E; [|now left]. right; left. apply dget_some_in in E. symmetry. now apply Hx.
Qed.

(* ---- any operations may fail ---- *)
Lemma in_upd t c0 q c L : q <> t -> (In (q, c) (map (upd t c0) L) <-> In (q, c) L).
Proof.
  intro Hq. rewrite in_map_iff. split.
  - intros ([k v] & E & Hin). unfold upd in E. cbn [fst] in E. destruct (String.eqb_spec k t) as [->|Hk]; [injection E as -> _; contradiction|].
    injection E as -> ->. exact Hin.
  - intro Hin. exists (q, c). split; [|exact Hin]. unfold upd. cbn [fst]. apply String.eqb_neq in Hq. now rewrite Hq.
Qed.
Lemma put_frame rec t c0 d d' q c : put t c0 d = Some d' -> q <> t -> (In (q, c) (dwalk rec d') <-> In (q, c) (dwalk rec d)).
Proof.
  unfold put. destruct (dget t (d_all d)) as [[c1|es|]|]; try discriminate.
  - intros E Hq. injection E as <-. rewrite dwalk_write. now apply in_upd.
  - destruct (split_path t) as [[dir name]|] eqn:Es; intros E Hq; injection E as <-; [|reflexivity].
    apply split_path_spec in Es. destruct Es as [-> _]. pose proof (dwalk_create rec dir name c0 d) as P. split; intro Hin.
    + apply (Permutation_in _ P) in Hin. apply in_app_or in Hin. destruct Hin as [Hin|Hin]; [exact Hin|].
      destruct (hpdb name); [|destruct Hin]. apply repeat_spec in Hin. injection Hin as -> _. contradiction.
    + apply (Permutation_in _ (Permutation_sym P)). apply in_or_app. now left.
Qed.
Lemma remove_frame rec t d q c : q <> t -> (In (q, c) (dwalk rec (d_remove t d)) <-> In (q, c) (dwalk rec d)).
Proof.
  intro Hq. rewrite dwalk_remove, filter_In. unfold keep. cbn [fst]. apply String.eqb_neq in Hq. rewrite Hq. cbn. tauto.
Qed.
Lemma step_frame rec ok s d q c : ~ In q (touches s) -> (In (q, c) (dwalk rec (do_step ok s d)) <-> In (q, c) (dwalk rec d)).
Proof.
  intro Hq. unfold do_step. destruct (negb (ok s)); [reflexivity|]. destruct s as [p|p x|p|p]; cbn [touches In] in Hq.
  - unfold truncate. destruct (put p Unreadable d) eqn:E; [|reflexivity]. apply (put_frame rec p Unreadable d); [exact E|]. intuition.
  - destruct (ok (Truncate p)); [|reflexivity]. rewrite dwalk_write. apply in_upd. intuition.
  - apply remove_frame. intuition.
  - destruct (_ && _); [|reflexivity]. unfold d_suppress. destruct (dget p (d_all d)) as [[c0|es|]|]; try reflexivity.
    destruct (put (p ++ "~") c0 (d_remove p d)) eqn:E; [|reflexivity].
    rewrite (put_frame rec _ _ _ _ q c E) by (intro X; apply Hq; subst q; auto). apply remove_frame. intuition.
Qed.
Lemma run_frame rec ok tr q c : forall d, (forall s, In s tr -> ~ In q (touches s)) ->
  (In (q, c) (dwalk rec (run_steps ok tr d)) <-> In (q, c) (dwalk rec d)).
Proof.
  induction tr as [|s tr IH]; intros d H; [reflexivity|].
  change (run_steps ok (s :: tr) d) with (run_steps ok tr (do_step ok s d)). rewrite IH by (intros s' Hs'; apply H; now right).
  apply step_frame. apply H. now left.
Qed.
Lemma wf_put t c d d' : put t c d = Some d' -> wf_dirs d -> wf_dirs d'.
Proof.
  unfold put. destruct (dget t (d_all d)) as [[c1|es|]|] eqn:E; try discriminate.
  - intros X. injection X as <-. apply wf_dirs_write.
  - destruct (split_path t) as [[dir name]|] eqn:Es; intros X; injection X as <-; [|auto]. intro H. apply wf_dirs_create; [exact H|].
    apply split_path_spec in Es. destruct Es as [<- _]. exact E.
Qed.
Lemma wf_step ok s d : wf_dirs d -> wf_dirs (do_step ok s d).
Proof.
  intro H. unfold do_step. destruct (negb (ok s)); [exact H|]. destruct s as [p|p x|p|p].
  - unfold truncate. destruct (put p Unreadable d) eqn:E; [|exact H]. now apply (wf_put p Unreadable d).
  - destruct (ok (Truncate p)); [now apply wf_dirs_write|exact H].
  - now apply wf_dirs_remove.
  - destruct (_ && _); [|exact H]. unfold d_suppress. destruct (dget p (d_all d)) as [[c0|es|]|]; try exact H.
    destruct (put (p ++ "~") c0 (d_remove p d)) eqn:E; [|exact H]. apply (wf_put _ _ _ _ E). now apply wf_dirs_remove.
Qed.
Lemma wf_run ok tr : forall d, wf_dirs d -> wf_dirs (run_steps ok tr d).
Proof. induction tr as [|s tr IH]; intros d H; [exact H|]. apply (IH (do_step ok s d)). now apply wf_step. Qed.

Lemma visits_frame rec ok tr d l q c : wf_dirs d -> visits_dirs rec d l -> (forall s, In s tr -> ~ In q (touches s)) -> In (File q c) l ->
  exists l', visits_dirs rec (run_steps ok tr d) l' /\ In (File q c) l'.
Proof.
  intros Hw Hv Ht Hin. destruct (visits_dirs_exist rec (run_steps ok tr d) (wf_run ok tr d Hw)) as [l' Hv']. exists l'. split; [exact Hv'|].
  apply in_files. eapply Permutation_in; [symmetry; apply (visits_dwalk rec _ l' Hv')|]. apply run_frame; [exact Ht|].
  eapply Permutation_in; [apply (visits_dwalk rec d l Hv)|]. now apply in_files.
Qed.

(* what the second part touches, talking or not *)
Definition planned (dest : string) (mem : collection) (r : report) (q : string) : Prop :=
  (exists id s name, In id (added r) /\ dget id mem = Some s /\ dget "id" (s_data s) = Some (JStr name) /\ save_path dest name (s_data s) = Ok q) \/
  (exists id s, In id (changed r) /\ dget id (rdata r) = Some s /\ q = file_of s) \/
  (exists id s, In id (removed r) /\ dget id (rdata r) = Some s /\ (q = file_of s \/ q = (file_of s ++ "~")%string)).

Lemma added_touches dest mem ids : forall s q, In s (fst (save_added dest mem ids)) -> In q (touches s) ->
  exists id x name, In id ids /\ dget id mem = Some x /\ dget "id" (s_data x) = Some (JStr name) /\ save_path dest name (s_data x) = Ok q.
Proof.
  induction ids as [|id ids IH]; intros s q Hs Hq; [destruct Hs|]. cbn [save_added] in Hs.
  destruct (dget id mem) as [x|] eqn:Ex; [|destruct Hs]. unfold str_field in Hs.
  destruct (dget "id" (s_data x)) as [[]|] eqn:Ei; try (destruct Hs; fail).
  destruct (save_path dest s0 (s_data x)) as [p|] eqn:Ep; [|destruct Hs].
  destruct (save_added dest mem ids) as [tr y] eqn:Et. cbn [fst] in *. apply in_app_or in Hs. destruct Hs as [Hs|Hs].
  - exists id, x, s0. split; [now left|]. split; [exact Ex|]. split; [exact Ei|]. rewrite Ep.
    destruct Hs as [<-|[<-|[]]]; destruct Hq as [<-|[]]; reflexivity.
  - destruct (IH s q Hs Hq) as (i & z & n & A & B). exists i, z, n. split; [now right|exact B].
Qed.
Lemma changed_touches verbose mem found ids : forall s q, In s (fst (save_changed verbose mem found ids)) -> In q (touches s) ->
  exists id x, In id ids /\ dget id found = Some x /\ q = file_of x.
Proof.
  induction ids as [|id ids IH]; intros s q Hs Hq; [destruct Hs|]. cbn [save_changed] in Hs.
  destruct (dget id mem) as [x|]; [|destruct Hs]. destruct (dget id found) as [x0|] eqn:Ex; [|destruct Hs].
  destruct (verbose && _); [destruct Hs|]. destruct (save_changed verbose mem found ids) as [tr y] eqn:Et. cbn [fst] in *.
  apply in_app_or in Hs. destruct Hs as [Hs|Hs].
  - exists id, x0. split; [now left|]. split; [exact Ex|]. destruct Hs as [<-|[<-|[]]]; destruct Hq as [<-|[]]; reflexivity.
  - destruct (IH s q Hs Hq) as (i & z & A & B). exists i, z. split; [now right|exact B].
Qed.
Lemma removed_touches verbose del found ids : forall s q, In s (fst (drop_removed verbose del found ids)) -> In q (touches s) ->
  exists id x, In id ids /\ dget id found = Some x /\ (q = file_of x \/ q = (file_of x ++ "~")%string).
Proof.
  induction ids as [|id ids IH]; intros s q Hs Hq; [destruct Hs|]. cbn [drop_removed] in Hs.
  destruct (dget id found) as [x0|] eqn:Ex; [|destruct Hs].
  destruct (verbose && del); [destruct Hs|]. destruct (drop_removed verbose del found ids) as [tr y] eqn:Et. cbn [fst] in *.
  destruct Hs as [<-|Hs].
  - exists id, x0. split; [now left|]. split; [exact Ex|]. destruct del; cbn [touches In] in Hq; intuition.
  - destruct (IH s q Hs Hq) as (i & z & A & B). exists i, z. split; [now right|exact B].
Qed.
Lemma seq_in a b s : In s (fst (seq a b)) -> In s (fst a) \/ In s (fst b).
Proof. unfold seq. destruct (snd a); [now left|]. cbn. apply in_app_or. Qed.
Lemma second_touches verbose del dest mem r s q : In s (fst (second_part verbose del dest mem r)) -> In q (touches s) -> planned dest mem r q.
Proof.
  intros Hs Hq. unfold second_part in Hs. apply seq_in in Hs. destruct Hs as [Hs|Hs]; [|apply seq_in in Hs; destruct Hs as [Hs|Hs]].
  - left. apply (added_touches _ _ _ s q Hs Hq).
  - right; left. apply (changed_touches _ _ _ _ s q Hs Hq).
  - right; right. apply (removed_touches _ _ _ _ s q Hs Hq).
Qed.

Lemma in_firstn {A} k (l : list A) x : In x (firstn k l) -> In x l.
Proof. revert l. induction k as [|k IH]; intros [|y l] H; cbn in *; try contradiction. destruct H as [->|H]; auto. Qed.

(* files of substances that did not change survive failures and interruptions *)
Lemma update_untouched ok int_of cfg reg verbose del dest ins mem d l tr d' x :
  exist_fatal cfg = false -> visits_dirs (recursive cfg) d l -> all_loadable reg l ->
  wf_dirs d -> (forall p n, In (p, Some n) d -> exists es, n = NDir es) -> NoDup (map fst (files l)) -> NoDup (dkeys mem) ->
  malformed_files l = [] -> NoDup (map fst (defs l)) ->
  updatefiles ok int_of cfg reg verbose del dest ins mem d = (tr, d', x) ->
  d' = run_steps ok tr d /\
  forall p c id dd s, In (File p c) l -> definition p c = Some (id, dd) -> dget id mem = Some s -> data_eq (s_data s) dd = true ->
    (forall id' s', dget id' mem = Some s' -> ~ In id' (map fst (defs l)) ->
       dget "fromfile" (s_data s') <> Some (JStr p) /\
       forall name, dget "id" (s_data s') = Some (JStr name) -> p <> (dest ++ "/" ++ name ++ ".hpd")%string) ->
    forall k, exists lk, visits_dirs (recursive cfg) (run_steps ok (firstn k tr) d) lk /\ In (File p c) lk.
Proof.
  intros Hf Hv Hload Hw Htop Hpaths Hnd Hmal Hdup E.
  pose proof (nodup_defs_single l Hdup) as Hsing.
  destruct (check_report cfg reg d l mem Hf Hnd Hv Hload) as (r & Er & Hr).
  assert (Hred : redundant r = []) by now apply (single_no_redundant mem l).
  assert (Hbad : bad r = []) by (rewrite (rk_bad _ _ _ Hr); exact Hmal).
  unfold updatefiles in E. rewrite Er in E. cbn [snd] in E. unfold first_part, seq in E. rewrite Hred, Hbad in E.
  cbn [bad_steps fst snd app run_steps fold_left] in E.
  destruct (second_part verbose del dest mem r) as [t2 x2] eqn:E2. injection E as <- <- <-. split; [reflexivity|].
  intros p c id dd s Hin Hdf Hs Heq Hsafe k. apply (visits_frame _ ok (firstn k t2) d l p c Hw Hv); [|exact Hin].
  intros st Hst Hq. apply in_firstn in Hst. assert (Hst' : In st (fst (second_part verbose del dest mem r))) by now rewrite E2.
  apply (second_touches _ _ _ _ _ st p Hst') in Hq. destruct Hr as [K1 K2 K3 K4 K5 K6 K7 K8 K9].
  assert (Hfile : forall i z, dget i (rdata r) = Some z -> In (file_of z) (files_of i l)).
  { intros i z Hz. assert (Hi : In i (map fst (defs l))) by (apply K1, dget_in_keys; eauto). apply defs_ids in Hi. destruct Hi as [q Hi].
    destruct (K8 i q) as (z' & Z1 & Z2); [now apply single_files|]. assert (z' = z) by congruence. subst z'. now rewrite Z2. }
  assert (Hown : forall i, In p (files_of i l) -> i = id).
  { intros i Hi. apply in_files_of in Hi. destruct Hi as (c' & dd' & Hin' & E'). rewrite (file_fun l p c c' Hpaths Hin Hin') in Hdf. congruence. }
  destruct Hq as [(i & z & name & Q1 & Q2 & Q3 & Q4)|[(i & z & Q1 & Q2 & Q3)|(i & z & Q1 & Q2 & [Q3|Q3])]].
  - apply K3 in Q1. destruct Q1 as [_ Q1]. destruct (Hsafe i z Q2 Q1) as [X1 X2]. unfold save_path in Q4.
    destruct (dget "fromfile" (s_data z)) as [v|]; [destruct (truthy v); [destruct v; try discriminate|]|];
      injection Q4 as Q4; try (apply (X2 name Q3); symmetry; exact Q4). congruence.
  - apply K2 in Q1. destruct Q1 as (dd' & s' & Y1 & Y2 & Y3). pose proof (Hfile i z Q2) as Y4. rewrite <- Q3 in Y4. apply Hown in Y4. subst i.
    assert (s' = s) by congruence. subst s'. rewrite (first_def_single l id dd Hpaths Hsing) in Y1; [congruence|]. apply in_defs. eauto.
  - apply K5 in Q1. destruct Q1 as [_ Q1]. pose proof (Hfile i z Q2) as Y4. rewrite <- Q3 in Y4. apply Hown in Y4. subst i.
    apply Q1, dget_in_keys. eauto.
  - destruct (visits_dirs_names (recursive cfg) d l Hv Htop p c Hin) as (dir & name & -> & (a & _ & ->)).
    assert (Y : ends_with ".hpd" (join dir (a ++ ".hpd")) = true).
    { apply ends_with_iff. exists (dir ++ "/" ++ a)%string. unfold join. now rewrite !app_assoc_s. }
    rewrite Q3, ends_tilde in Y. discriminate.
Qed.

(* ---- the menus ---- *)
Lemma menu_range int_of N : forall ins mode sel act k rest, menu int_of N mode sel ins = Ok (act, k, rest) ->
  (act = "d" \/ act = "s") -> (0 <= k < N)%Z.
Proof.
  induction ins as [|i ins IH]; intros mode sel act k rest; cbn [menu]; [discriminate|]. destruct mode as [a|].
  - destruct (String.eqb (lower i) "b"); [apply IH|]. destruct (int_of (lower i)) as [z|]; [|apply IH].
    destruct (Z.ltb z 0 || Z.leb N z) eqn:E; [apply IH|]. intros X _. injection X as _ <- _.
    apply orb_false_iff in E. destruct E as [E1 E2]. apply Z.ltb_ge in E1. apply Z.leb_gt in E2. lia.
  - destruct (contains (lower i) "ids"); [|apply IH]. destruct (contains (lower i) "ds") eqn:E; [apply IH|].
    intros X Ha. injection X as X1 X2 X3. rewrite <- X1 in Ha. exfalso. destruct Ha as [Ha|Ha]; rewrite Ha in E; vm_compute in E; discriminate.
Qed.
Lemma but_index_misses {A} (l : list A) : forall i k x, NoDup l -> nth_error l (Z.to_nat (k - i)) = Some x -> (i <= k)%Z -> ~ In x (but_index i k l).
Proof.
  induction l as [|y l IH]; intros i k x Hn Hx Hi; cbn [but_index].
  - destruct (Z.to_nat (k - i)); discriminate.
  - inversion Hn as [|? ? Hni Hn']; subst. destruct (Z.eqb_spec i k) as [->|Hne].
    + rewrite Z.sub_diag in Hx. cbn in Hx. injection Hx as <-. assert (G : forall (m : list A) j, (k < j)%Z -> forall z, In z (but_index j k m) -> In z m).
      { clear. induction m as [|w m IHm]; intros j Hj z Hz; [exact Hz|]. cbn [but_index] in Hz. destruct (Z.eqb_spec j k); [lia|].
        destruct Hz as [->|Hz]; [now left|right; apply (IHm (j + 1)%Z); [lia|exact Hz]]. }
      intro Hin. apply Hni. apply (G l (k + 1)%Z); [lia|exact Hin].
    + assert (Hk : Z.to_nat (k - i) = S (Z.to_nat (k - (i + 1)))) by lia. rewrite Hk in Hx. cbn in Hx.
      intros [->|Hin].
      * apply Hni. now apply nth_error_In in Hx.
      * now apply (IH (i + 1)%Z k x Hn' Hx ltac:(lia)).
Qed.
Lemma but_index_in {A} (l : list A) : forall i k x, In x (but_index i k l) -> In x l.
Proof.
  induction l as [|y l IH]; intros i k x Hx; [exact Hx|]. cbn [but_index] in Hx. destruct (Z.eqb i k); [right; eauto|].
  destruct Hx as [->|Hx]; [now left|right; eauto].
Qed.
Lemma repair_steps_touch act k fs s q : In s (repair_steps act k fs) -> In q (touches s) ->
  exists p, In p (but_index 0 k fs) /\ (q = p \/ q = (p ++ "~")%string) /\ (act = "d" \/ act = "s").
Proof.
  unfold repair_steps. destruct (String.eqb_spec act "d") as [->|_]; [|destruct (String.eqb_spec act "s") as [->|_]; [|intros []]];
    intros Hs Hq; apply in_map_iff in Hs; destruct Hs as (p & <- & Hp); exists p; (split; [exact Hp|]); cbn [touches In] in Hq; intuition.
Qed.

(* whatever is typed, one file of each substance is left alone *)
Lemma talk_leaves_one int_of (isfile : string -> Prop) : (forall p, isfile p -> ends_with ".hpd" p = true) ->
  forall RED sel ins, (forall id fs, In (id, fs) RED -> fs <> [] /\ NoDup fs /\ forall p, In p fs -> isfile p) ->
  (forall id fs id' fs' p, In (id, fs) RED -> In (id', fs') RED -> In p fs -> In p fs' -> (id, fs) = (id', fs')) ->
  NoDup (map fst RED) ->
  forall id fs, In (id, fs) RED -> exists p, In p fs /\ forall s, In s (fst (repair_talk int_of RED sel ins)) -> ~ In p (touches s).
Proof.
  intros Hhpd. induction RED as [|[i fs0] RED IH]; intros sel ins Hfs Hdis Hnd id fs Hin; [destruct Hin|].
  cbn [repair_talk].
  assert (Hfirst : forall p, In p fs -> exists q, In q fs) by eauto.
  inversion Hnd as [|? ? Hni Hnd']; subst.
  destruct (menu int_of (Z.of_nat (List.length fs0)) None sel ins) as [[[act k] rest]|x] eqn:Em.
  2: { destruct (Hfs id fs Hin) as (Hne & _). destruct fs as [|p fs]; [congruence|]. exists p. split; [now left|]. intros s []. }
  destruct (repair_talk int_of RED k rest) as [tr y] eqn:Et. cbn [fst].
  assert (IH' : forall id fs, In (id, fs) RED -> exists p, In p fs /\ forall s, In s tr -> ~ In p (touches s)).
  { intros id' fs' Hin'. specialize (IH k rest). rewrite Et in IH. apply IH with id'; auto.
    - intros. apply (Hfs id0). now right.
    - intros. apply (Hdis id0 fs1 id'0 fs'0 p); auto; now right. }
  destruct Hin as [E|Hin].
  - injection E as -> ->. destruct (Hfs id fs (or_introl eq_refl)) as (Hne & Hnf & Hff).
    (* no later step touches a file of this substance *)
    assert (Hlater : forall p s, In p fs -> In s tr -> ~ In p (touches s)).
    { assert (Htr : forall RED sel ins s q, In s (fst (repair_talk int_of RED sel ins)) -> In q (touches s) ->
        exists i f p, In (i, f) RED /\ In p f /\ (q = p \/ q = (p ++ "~")%string)).
      { clear. induction RED as [|[i f] RED IH]; intros sel ins s q Hs Hq; [destruct Hs|]. cbn [repair_talk] in Hs.
        destruct (menu int_of (Z.of_nat (List.length f)) None sel ins) as [[[act k] rest]|x]; [|destruct Hs].
        destruct (repair_talk int_of RED k rest) as [tr y] eqn:Et. cbn [fst] in Hs. apply in_app_or in Hs. destruct Hs as [Hs|Hs].
        - destruct (repair_steps_touch act k f s q Hs Hq) as (p & Hp & Hpq & _). exists i, f, p. split; [now left|]. split; [now apply but_index_in in Hp|exact Hpq].
        - destruct (IH k rest s q) as (i' & f' & p & A & B & C); [now rewrite Et|exact Hq|]. exists i', f', p. split; [now right|]. auto. }
      intros p s Hp Hs Hq. destruct (Htr RED k rest s p) as (i' & f' & p' & A & B & C); [now rewrite Et|exact Hq|]. destruct C as [->|C].
      - assert (X : (id, fs) = (i', f')) by (apply (Hdis id fs i' f' p'); auto; [now left|now right]). injection X as <- <-.
        apply Hni. apply in_map_iff. exists (id, fs). auto.
      - pose proof (Hhpd p (Hff p Hp)) as Y. rewrite C, ends_tilde in Y. discriminate. }
    destruct (in_dec string_dec act ["d"; "s"]) as [Ha|Ha].
    + assert (Ha' : act = "d" \/ act = "s") by (cbn in Ha; intuition).
      pose proof (menu_range int_of _ _ _ _ _ _ _ Em Ha') as Hk.
      destruct (nth_error fs (Z.to_nat k)) as [p|] eqn:Ep.
      2: { apply nth_error_None in Ep. lia. }
      exists p. split; [now apply nth_error_In in Ep|]. intros s Hs Hq. apply in_app_or in Hs. destruct Hs as [Hs|Hs].
      * destruct (repair_steps_touch act k fs s p Hs Hq) as (p' & Hp' & [->|Hpq] & _).
        -- apply (but_index_misses fs 0 k p' Hnf); [now rewrite Z.sub_0_r|lia|exact Hp'].
        -- apply nth_error_In in Ep. pose proof (Hhpd p (Hff p Ep)) as Y. rewrite Hpq, ends_tilde in Y. discriminate.
      * apply nth_error_In in Ep. now apply (Hlater p s).
    + destruct fs as [|p fs]; [congruence|]. exists p. split; [now left|]. intros s Hs Hq. apply in_app_or in Hs. destruct Hs as [Hs|Hs].
      * destruct (repair_steps_touch act k (p :: fs) s p Hs Hq) as (_ & _ & _ & X). apply Ha. cbn. intuition.
      * apply (Hlater p s); [now left|exact Hs|exact Hq].
  - destruct (IH' id fs Hin) as (p & Hp & Hs). exists p. split; [exact Hp|]. intros s Hst Hq. apply in_app_or in Hst. destruct Hst as [Hst|Hst]; [|now apply (Hs s)].
    destruct (repair_steps_touch act k fs0 s p Hst Hq) as (p' & Hp' & [->|Hpq] & _).
    + assert (X : (i, fs0) = (id, fs)) by (apply (Hdis i fs0 id fs p'); auto; [now left|now right|now apply but_index_in in Hp']).
      injection X as <- <-. apply Hni. apply in_map_iff. exists (i, fs0). auto.
    + pose proof (Hhpd p (proj2 (proj2 (Hfs id fs (or_intror Hin))) p Hp)) as Y. rewrite Hpq, ends_tilde in Y. discriminate.
Qed.

Lemma repair_talk_keeps ok int_of cfg reg action sel ins mem d l r tr x :
  exist_fatal cfg = false -> visits_dirs (recursive cfg) d l -> all_loadable reg l -> NoDup (dkeys mem) ->
  wf_dirs d -> (forall p n, In (p, Some n) d -> exists es, n = NDir es) -> NoDup (map fst (files l)) ->
  snd (load_check cfg reg d mem) = Ok r ->
  red_repair int_of true action sel ins (redundant r) = (tr, x) ->
  (forall id, In id (map fst (defs l)) -> exists p c dd lk, In (File p c) l /\ definition p c = Some (id, dd) /\
     visits_dirs (recursive cfg) (run_steps ok tr d) lk /\ In (File p c) lk) /\
  (forall p c, In (File p c) l -> (forall id, In p (files_of id l) -> files_of id l = [p]) ->
     exists lk, visits_dirs (recursive cfg) (run_steps ok tr d) lk /\ In (File p c) lk).
Proof.
  intros Hf Hv Hload Hnd Hw Htop Hpaths Er Et. cbn [red_repair] in Et.
  destruct (check_report cfg reg d l mem Hf Hnd Hv Hload) as (r' & Er' & Hr). rewrite Er' in Er. injection Er as ->.
  assert (Hrn : NoDup (dkeys (redundant r))) by (apply (check_red_nodup cfg reg d l mem r Hv); now rewrite Er').
  assert (Hhpd : forall p c, In (File p c) l -> ends_with ".hpd" p = true).
  { intros p c Hin. destruct (visits_dirs_names (recursive cfg) d l Hv Htop p c Hin) as (dir & name & -> & (a & _ & ->)).
    apply ends_with_iff. exists (dir ++ "/" ++ a)%string. unfold join. now rewrite !app_assoc_s. }
  assert (Hred : forall id fs, In (id, fs) (redundant r) -> fs = files_of id l /\ fs <> [] /\ forall p, fs <> [p]).
  { intros id fs Hin. apply (dget_in_nodup _ _ _ Hrn) in Hin. rewrite (rk_red _ _ _ Hr) in Hin.
    destruct (files_of id l) as [|a [|b q]]; try discriminate. injection Hin as <-. repeat split; discriminate. }
  assert (Hown : forall id id' p, In p (files_of id l) -> In p (files_of id' l) -> id = id').
  { intros id id' p H1 H2. apply in_files_of in H1, H2. destruct H1 as (c & dd & I1 & E1), H2 as (c' & dd' & I2 & E2).
    rewrite (file_fun l p c c' Hpaths I1 I2) in E1. congruence. }
  pose proof (talk_leaves_one int_of (fun p => exists c, In (File p c) l)) as T.
  specialize (T (fun p X => match X with ex_intro _ c Hc => Hhpd p c Hc end) (redundant r) sel ins).
  assert (Touch : forall s q, In s tr -> In q (touches s) -> exists i p, In p (files_of i l) /\ (q = p \/ q = (p ++ "~")%string) /\ forall p', files_of i l <> [p']).
  { assert (Htr : forall RED sel ins s q, In s (fst (repair_talk int_of RED sel ins)) -> In q (touches s) ->
        exists i f p, In (i, f) RED /\ In p f /\ (q = p \/ q = (p ++ "~")%string)).
    { clear. induction RED as [|[i f] RED IH]; intros sel ins s q Hs Hq; [destruct Hs|]. cbn [repair_talk] in Hs.
      destruct (menu int_of (Z.of_nat (List.length f)) None sel ins) as [[[act k] rest]|x]; [|destruct Hs].
      destruct (repair_talk int_of RED k rest) as [tr y] eqn:Et. cbn [fst] in Hs. apply in_app_or in Hs. destruct Hs as [Hs|Hs].
      - destruct (repair_steps_touch act k f s q Hs Hq) as (p & Hp & Hpq & _). exists i, f, p. split; [now left|]. split; [now apply but_index_in in Hp|exact Hpq].
      - destruct (IH k rest s q) as (i' & f' & p & A & B & C); [now rewrite Et|exact Hq|]. exists i', f', p. split; [now right|]. auto. }
    intros s q Hs Hq. destruct (Htr (redundant r) sel ins s q) as (i & f & p & A & B & C); [now rewrite Et|exact Hq|].
    destruct (Hred i f A) as (-> & _ & X). exists i, p. auto. }
  split.
  - intros id Hid. apply defs_ids in Hid. destruct Hid as [p0 Hp0].
    assert (G : exists p, In p (files_of id l) /\ forall s, In s tr -> ~ In p (touches s)).
    { destruct (dget id (redundant r)) as [fs|] eqn:Eg.
      - apply dget_some_in in Eg. destruct (Hred id fs Eg) as (Hfs & _). destruct (T) with id fs as (p & P1 & P2).
        + intros i f Hif. destruct (Hred i f Hif) as (-> & X & _). split; [exact X|]. split; [now apply files_of_nodup|].
          intros p Hp. apply in_files_of in Hp. destruct Hp as (c & dd & Hp & _). eauto.
        + intros i f i' f' p H1 H2 H3 H4. destruct (Hred i f H1) as (-> & _). destruct (Hred i' f' H2) as (-> & _).
          now rewrite (Hown i i' p H3 H4).
        + exact Hrn.
        + exact Eg.
        + exists p. split; [now rewrite <- Hfs|]. intros s Hs. apply P2. rewrite Et. exact Hs.
      - exists p0. split; [exact Hp0|]. intros s Hs Hq. destruct (Touch s p0 Hs Hq) as (i & p & X1 & [->|X2] & X3).
        + rewrite (Hown id i p Hp0 X1) in Eg. rewrite (rk_red _ _ _ Hr) in Eg. destruct (files_of i l) as [|a [|b q]]; [destruct X1| |discriminate].
          now apply (X3 a).
        + apply in_files_of in Hp0. destruct Hp0 as (c & dd & Hp0 & _). pose proof (Hhpd p0 c Hp0) as Y. rewrite X2, ends_tilde in Y. discriminate. }
    destruct G as (p & Hp & Hs). apply in_files_of in Hp. destruct Hp as (c & dd & Hin & E).
    destruct (visits_frame (recursive cfg) ok tr d l p c Hw Hv Hs Hin) as (lk & L1 & L2). exists p, c, dd, lk. auto.
  - intros p c Hin Hone. apply (visits_frame (recursive cfg) ok tr d l p c Hw Hv); [|exact Hin].
    intros s Hs Hq. destruct (Touch s p Hs Hq) as (i & p' & X1 & [->|X2] & X3).
    + now apply (X3 p'), Hone.
    + pose proof (Hhpd p c Hin) as Y. rewrite X2, ends_tilde in Y. discriminate.
Qed.

(* The theorems of C83 and C84. *)
From Coq Require Import List String Bool Sorted Permutation Lia Ascii PeanoNat ZArith.
From Verif Require Import Base Text Model_Dat Spec_Dat Proof_Dat Model_Update Spec_Update Proof_UpdateDisk Proof_UpdateOps Proof_UpdateRun Proof_Update Proof_UpdateAll.
Import ListNotations.
Local Open Scope string_scope.
Local Open Scope list_scope.

Lemma head_not_surplus l id p : NoDup (map fst (files l)) -> hd_error (files_of id l) = Some p -> ~ surplus l p.
Proof.
  intros Hn Hh (id' & Hs). assert (H1 : In p (files_of id l)) by (destruct (files_of id l); [discriminate|injection Hh as ->; now left]).
  assert (H2 : In p (files_of id' l)) by (destruct (files_of id' l); [destruct Hs|now right]).
  apply in_files_of in H1, H2. destruct H1 as (c & dd & I1 & E1), H2 as (c' & dd' & I2 & E2).
  rewrite (file_fun l p c c' Hn I1 I2) in E1. assert (id' = id) by congruence. subst id'.
  pose proof (files_of_nodup id l Hn) as Hd. destruct (files_of id l) as [|a q]; [discriminate|]. injection Hh as ->.
  cbn in Hs. inversion Hd. contradiction.
Qed.
Lemma not_surplus_head l id p : In p (files_of id l) -> ~ surplus l p -> hd_error (files_of id l) = Some p.
Proof.
  intros Hin Hs. destruct (files_of id l) as [|a q] eqn:E; [destruct Hin|]. destruct Hin as [->|Hin]; [reflexivity|].
  exfalso. apply Hs. exists id. now rewrite E.
Qed.
Lemma in_malformed p l : In p (malformed_files l) <-> exists c, In (File p c) l /\ definition p c = None.
Proof.
  unfold malformed_files. rewrite in_flat_map. split.
  - intros ([q c|q] & Hq & H); [|destruct H]. destruct (definition q c) eqn:E; [destruct H|]. destruct H as [->|[]]. eauto.
  - intros (c & Hin & E). exists (File p c). split; [exact Hin|]. rewrite E. now left.
Qed.

(* a disk from which surplus and perhaps malformed files have gone *)
Section Repaired.
Variables (cfg : datcfg) (reg : registry) (d d1 : disk) (l l1 : list item) (gone : string -> Prop).
Local Notation rec := (recursive cfg).
Hypothesis Ht : tidy rec d.
Hypothesis Hv : visits_dirs rec d l.
Hypothesis Ht1 : tidy rec d1.
Hypothesis Hv1 : visits_dirs rec d1 l1.
Hypothesis Hload : all_loadable reg l.
Hypothesis Hlook : forall q, (surplus l q \/ gone q -> look rec d1 q = None) /\ (~ surplus l q -> ~ gone q -> look rec d1 q = look rec d q).
Hypothesis Hgone : forall q, gone q -> In q (malformed_files l).
Hypothesis Hgdec : forall q, gone q \/ ~ gone q.

Lemma surplus_dec q : surplus l q \/ ~ surplus l q.
Proof.
  destruct (existsb (fun id => if in_dec string_dec q (tl (files_of id l)) then true else false) (map fst (defs l))) eqn:E.
  - left. apply existsb_exists in E. destruct E as (id & _ & H). destruct (in_dec string_dec q (tl (files_of id l))); [now exists id|discriminate].
  - right. intros (id & H). assert (X : existsb (fun id => if in_dec string_dec q (tl (files_of id l)) then true else false) (map fst (defs l)) = true).
    { apply existsb_exists. exists id. split; [|destruct (in_dec string_dec q (tl (files_of id l))); [reflexivity|contradiction]].
      apply defs_ids. exists q. destruct (files_of id l); [destruct H|now right]. }
    congruence.
Qed.
Lemma repaired_file p c : In (File p c) l1 <-> In (File p c) l /\ ~ surplus l p /\ ~ gone p.
Proof.
  rewrite <- (look_visits rec d1 l1 p c Ht1 Hv1), <- (look_visits rec d l p c Ht Hv). destruct (Hlook p) as [A B]. split.
  - intro H. assert (~ surplus l p) by (intro X; rewrite A in H; [discriminate|now left]).
    assert (~ gone p) by (intro X; rewrite A in H; [discriminate|now right]). rewrite B in H by assumption. auto.
  - intros (H1 & H2 & H3). now rewrite B.
Qed.
Lemma repaired_loadable : all_loadable reg l1.
Proof. intros p c Hin. apply repaired_file in Hin. now apply (Hload p c). Qed.
Lemma repaired_files_of id p : In p (files_of id l1) <-> hd_error (files_of id l) = Some p.
Proof.
  pose proof (tidy_paths rec d l Ht Hv) as Hn. split.
  - intro H. apply in_files_of in H. destruct H as (c & dd & Hin & E). apply repaired_file in Hin. destruct Hin as (Hin & Hs & _).
    apply not_surplus_head; [|exact Hs]. apply in_files_of. eauto.
  - intro H. assert (Hin : In p (files_of id l)) by (destruct (files_of id l); [discriminate|injection H as ->; now left]).
    apply in_files_of in Hin. destruct Hin as (c & dd & Hin & E). apply in_files_of. exists c, dd. split; [|exact E].
    apply repaired_file. split; [exact Hin|]. split; [now apply head_not_surplus with id|]. intro X. apply Hgone in X.
    apply in_malformed in X. destruct X as (c' & Hin' & E'). rewrite (file_fun l p c c' Hn Hin Hin') in E. congruence.
Qed.
Lemma repaired_single : single l1.
Proof. intros id p p' H H'. apply repaired_files_of in H, H'. congruence. Qed.
Lemma repaired_ids id : In id (map fst (defs l1)) <-> In id (map fst (defs l)).
Proof.
  rewrite !defs_ids. split.
  - intros (p & H). apply repaired_files_of in H. exists p. destruct (files_of id l); [discriminate|]. injection H as ->. now left.
  - intros (p & H). destruct (files_of id l) as [|a q] eqn:E; [destruct H|]. exists a. apply repaired_files_of. now rewrite E.
Qed.
End Repaired.

Lemma dset_same {A} k (v : A) d : dget k d = Some v -> dset k v d = d.
Proof.
  induction d as [|[k' v'] d IH]; cbn [dget dset]; [discriminate|].
  destruct (String.eqb_spec k k') as [->|Hn]; intro H; [now injection H as ->|]. now rewrite IH.
Qed.
Lemma nil_of {A} (x : list A) : (forall i, ~ In i x) -> x = [].
Proof. destruct x as [|a x]; [reflexivity|]. intro H. exfalso. apply (H a). now left. Qed.

Lemma definition_data p c id dd : definition p c = Some (id, dd) -> exists v, c = Parsed (JObj v) /\ dd = dset "fromfile" (JStr p) v.
Proof.
  unfold definition. destruct c as [|[]]; try discriminate. destruct (_ && _); [|discriminate].
  destruct (dget "id" d) as [[]|]; try discriminate. intro X. injection X as _ <-. eauto.
Qed.

(* updatefiles run quietly, everything permitted *)
Lemma update_all int_of cfg reg del dest ins mem d l :
  exist_fatal cfg = false -> visits_dirs (recursive cfg) d l -> all_loadable reg l ->
  good_disk d l -> good_memory reg mem -> source_irrelevant reg ->
  count_occ string_dec (searched_dirs (recursive cfg) d) dest = 1 -> room_for_new d l dest mem ->
  exists tr d' l' data',
    updatefiles (fun _ => true) int_of cfg reg false del dest ins mem d = (tr, d', None) /\
    visits_dirs (recursive cfg) d' l' /\
    load cfg reg d' [] = (data', None) /\ same_entries mem data' /\
    (forall id, In id (dkeys mem) -> exists p, files_of id l' = [p]) /\
    (* files of substances that are the same in memory are not touched *)
    (forall id p c dd s, In (File p c) l -> definition p c = Some (id, dd) -> hd_error (files_of id l) = Some p ->
       dget id mem = Some s -> data_eq (s_data s) dd = true -> In (File p c) l') /\
    (* the next check *)
    (exists r, load_check cfg reg d' mem = (mem, Ok r) /\ added r = [] /\ removed r = [] /\ redundant r = [] /\
       forall id, In id (changed r) -> exists s p, dget id mem = Some s /\ files_of id l' = [p] /\
         dget "fromfile" (s_data s) <> Some (JStr p)).
Proof.
  intros Hf Hv Hload Hgd Hm Hctor Hcount Hroom.
  pose proof (good_tidy (recursive cfg) d l Hgd Hv) as Ht. pose proof (tidy_paths _ d l Ht Hv) as Hpaths.
  assert (Hnd : NoDup (dkeys mem)) by apply Hm.
  assert (Htilde : forall p c, In (File p c) l -> ~ dirkey d (p ++ "~")).
  { intros p c Hin (k & Hk & Hno). destruct Hgd as (_ & _ & _ & _ & _ & X). destruct (X p c k Hin) as [c' ->]; [now apply d_all_iff|]. now destruct (Hno c'). }
  destruct (check_report cfg reg d l mem Hf Hnd Hv Hload) as (r & Er & Hr).
  assert (Hrn : NoDup (dkeys (redundant r))) by (apply (check_red_nodup cfg reg d l mem r Hv); now rewrite Er).
  destruct (first_run cfg del mem d l r int_of ins Ht Hv Hr Hrn Htilde) as (t1 & E1 & A1 & B1).
  remember (run_steps yes t1 d) as d1 eqn:Ed1. pose proof (e_tidy _ _ _ _ A1) as Ht1.
  destruct (visits_dirs_exist (recursive cfg) d1 (t_wf _ _ Ht1)) as [l1 Hv1].
  set (gone := fun q => del = true /\ In q (malformed_files l)).
  assert (Hlook : forall q, (surplus l q \/ gone q -> look (recursive cfg) d1 q = None) /\
     (~ surplus l q -> ~ gone q -> look (recursive cfg) d1 q = look (recursive cfg) d q)).
  { intro q. destruct (B1 q) as (X1 & X2 & X3). split; [intros [X|X]; auto|auto]. }
  assert (Hgone : forall q, gone q -> In q (malformed_files l)) by (intros q [_ X]; exact X).
  pose proof (repaired_file cfg d d1 l l1 gone Ht Hv Ht1 Hv1 Hlook) as RF.
  pose proof (repaired_loadable cfg reg d d1 l l1 gone Ht Hv Ht1 Hv1 Hload Hlook) as RL.
  pose proof (repaired_single cfg d d1 l l1 gone Ht Hv Ht1 Hv1 Hlook Hgone) as RS.
  pose proof (repaired_ids cfg d d1 l l1 gone Ht Hv Ht1 Hv1 Hlook Hgone) as RI.
  pose proof (repaired_files_of cfg d d1 l l1 gone Ht Hv Ht1 Hv1 Hlook Hgone) as RO.
  (* the second check *)
  assert (H2 : exists r2, match bad r, redundant r with [], [] => Ok r | _, _ => snd (load_check cfg reg d1 mem) end = Ok r2 /\ report_ok mem l1 r2).
  { destruct (check_report cfg reg d1 l1 mem Hf Hnd Hv1 RL) as (r2 & Er2 & Hr2).
    destruct (bad r) as [|b bs] eqn:Eb; [destruct (redundant r) as [|e es] eqn:Ee|].
    - exists r2. split; [|exact Hr2].
      assert (t1 = []) by (unfold first_part, seq in E1; rewrite Ee, Eb in E1; cbn in E1; congruence). subst t1. cbn in Ed1. subst d1.
      rewrite Er in Er2. congruence.
    - exists r2. now rewrite Er2.
    - exists r2. now rewrite Er2. }
  destruct H2 as (r2 & Er2 & Hr2).
  assert (Hdest1 : dhits (recursive cfg) dest d1 = 1) by (rewrite (e_hits _ _ _ _ A1), dhits_count; exact Hcount).
  assert (Hnew1 : forall id s, dget id mem = Some s -> ~ In id (map fst (defs l1)) ->
     no_source (s_data s) /\ id <> "" /\ no_slash id /\ ~ In (join dest (id ++ ".hpd")) (map fst (d_all d1))).
  { intros id s Hs Hno. rewrite RI in Hno. destruct (Hroom id s Hs Hno) as (X1 & X2 & X3 & X4). repeat split; auto.
    intro Hx. apply (e_keys _ _ _ _ A1) in Hx. destruct Hx as [Hx|(p & Hx)].
    - apply in_map_iff in Hx. destruct Hx as ([q k] & E & Hx). cbn in E. subst q. apply d_all_iff in Hx. now apply (X4 k).
    - assert (Y : ends_with ".hpd" (join dest (id ++ ".hpd")) = true).
      { apply ends_with_iff. exists (dest ++ "/" ++ id)%string. unfold join. now rewrite !app_assoc_s. }
      rewrite Hx, ends_tilde in Y. discriminate. }
  assert (Htilde1 : forall p c, In (File p c) l1 -> ~ dirkey d1 (p ++ "~")).
  { intros p c Hin Hx. apply RF in Hin. apply (e_dirs _ _ _ _ A1) in Hx. now apply (Htilde p c). }
  destruct (second_result cfg reg del dest mem d1 l1 r2 Ht1 Hv1 RS RL Hr2 Hm Hctor Hdest1 Hnew1 Htilde1)
    as (t2 & l' & E2 & Hv' & Ht' & Hl' & Hs' & F1 & F2 & F3).
  remember (run_steps yes t2 d1) as d' eqn:Ed'.
  pose proof (tidy_paths _ d' l' Ht' Hv') as Hpaths'.
  destruct (load_single cfg reg d' l' Hf Hv' Hl' Hpaths' Hs') as (data' & EL & HL).
  exists (t1 ++ t2), d', l', data'.
  assert (Hwf1 : forall id dd, In (id, dd) (defs l) -> NoDup (dkeys dd)).
  { intros id dd Hin. apply in_defs in Hin. destruct Hin as (p & c & Hin & E). apply definition_data in E. destruct E as (v & -> & ->).
    destruct Hgd as (_ & _ & _ & _ & X & _). specialize (X _ _ Hin). inversion X; subst. now apply dset_nodup. }
  assert (Hsub : forall id dd, In (id, dd) (defs l1) -> In (id, dd) (defs l)).
  { intros id dd Hin. apply in_defs in Hin. destruct Hin as (p & c & Hin & E). apply RF in Hin. apply in_defs. exists p, c. tauto. }
  split.
  { unfold updatefiles. rewrite Er. cbn [snd]. rewrite E1.
    change (run_steps (fun _ => true) t1 d) with (run_steps yes t1 d). rewrite <- Ed1.
    rewrite Er2, E2. change (run_steps (fun _ => true) t2 d1) with (run_steps yes t2 d1). now rewrite <- Ed'. }
  split; [exact Hv'|]. split; [exact EL|]. split; [|split; [|split]].
  - intro id. destruct (dat_of mem id) as [x|] eqn:Em.
    + unfold dat_of in Em. destruct (dget id mem) as [s|] eqn:Es; [|discriminate]. injection Em as <-.
      destruct (proj2 Hm id s Es) as [Hw _]. assert (Hw' : NoDup (dkeys (s_data s))) by (inversion Hw; assumption).
      destruct (F1 id s Es) as (p & dd & P1 & P2 & P3).
      pose proof (proj2 (HL id dd) P2) as Hd. rewrite Hd. destruct P3 as [->|(P3 & _ & P4)].
      * intros k Hk. rewrite dget_dset_other by assumption. now apply same_refl.
      * intros k _. apply jeq_obj; [exact Hw'|apply (Hwf1 id), Hsub, P3|exact P4].
    + unfold dat_of in Em. destruct (dget id mem) as [s|] eqn:Es; [discriminate|].
      destruct (dat_of data' id) as [dd|] eqn:Ed; [|exact I]. apply HL in Ed. apply dget_none_iff in Es. apply Es, F2.
      apply in_map_iff. exists (id, dd). auto.
  - intros id Hid. apply dget_in_keys in Hid. destruct Hid as [s Hs]. destruct (F1 id s Hs) as (p & dd & P1 & _).
    exists p. now apply single_files.
  - intros id p c dd s Hin Hdf Hh Hs Heq. apply F3.
    + apply RF. split; [exact Hin|]. split; [now apply head_not_surplus with id|]. intro X. apply Hgone in X.
      apply in_malformed in X. destruct X as (c' & Hin' & E'). rewrite (file_fun l p c c' Hpaths Hin Hin') in Hdf. congruence.
    + intros id' dd' X. rewrite Hdf in X. injection X as <- <-. eauto.
  - destruct (check_report cfg reg d' l' mem Hf Hnd Hv' Hl') as (r' & Er' & Hr'). exists r'. split; [exact Er'|].
    destruct Hr' as [K1 K2 K3 K4 K5 K6 K7 K8 K9].
    split; [|split; [|split]].
    + apply nil_of. intros id Hid. apply K3 in Hid. destruct Hid as [Hid Hno]. apply dget_in_keys in Hid. destruct Hid as [s Hs].
      destruct (F1 id s Hs) as (p & dd & _ & P2 & _). apply Hno. apply in_map_iff. exists (id, dd). auto.
    + apply nil_of. intros id Hid. apply K5 in Hid. destruct Hid as [Hid Hno]. now apply Hno, F2.
    + destruct (redundant r') as [|[i x] rr] eqn:Erd; [reflexivity|]. exfalso. specialize (K9 i). cbn in K9. rewrite String.eqb_refl in K9.
      destruct (files_of i l') as [|a q] eqn:Ef; [discriminate|]. rewrite (single_files i a l') in Ef; [|exact Hpaths'|exact Hs'|rewrite Ef; now left].
      injection Ef as <-. discriminate.
    + intros id Hid. apply K2 in Hid. destruct Hid as (dd & s & X1 & X2 & X3). exists s.
      destruct (F1 id s X2) as (p & dd' & P1 & P2 & P3). exists p. split; [exact X2|]. split; [now apply single_files|].
      rewrite (first_def_single l' id dd' Hpaths' Hs' P2) in X1. injection X1 as <-.
      intro Hsrc. destruct P3 as [->|(_ & _ & P4)]; [|congruence]. rewrite (dset_same _ _ _ Hsrc) in X3.
      rewrite data_eq_refl in X3; [discriminate|]. apply (proj2 Hm id s X2).
Qed.

(* red_repair run quietly with its defaults *)
Lemma repair_quiet_all int_of cfg reg ins mem d l r :
  exist_fatal cfg = false -> visits_dirs (recursive cfg) d l -> all_loadable reg l -> NoDup (dkeys mem) ->
  good_disk d l -> snd (load_check cfg reg d mem) = Ok r ->
  exists tr l', red_repair int_of false "s" 0 ins (redundant r) = (tr, None) /\
    visits_dirs (recursive cfg) (run_steps (fun _ => true) tr d) l' /\
    (forall id, files_of id l' = match files_of id l with [] => [] | p :: _ => [p] end) /\
    (forall p c, In (File p c) l' <-> In (File p c) l /\ (definition p c = None \/ exists id, hd_error (files_of id l) = Some p)).
Proof.
  intros Hf Hv Hload Hnd Hgd Er.
  pose proof (good_tidy (recursive cfg) d l Hgd Hv) as Ht. pose proof (tidy_paths _ d l Ht Hv) as Hpaths.
  assert (Htilde : forall p c, In (File p c) l -> ~ dirkey d (p ++ "~")).
  { intros p c Hin (k & Hk & Hno). destruct Hgd as (_ & _ & _ & _ & _ & X). destruct (X p c k Hin) as [c' ->]; [now apply d_all_iff|]. now destruct (Hno c'). }
  destruct (check_report cfg reg d l mem Hf Hnd Hv Hload) as (r' & Er' & Hr). rewrite Er' in Er. injection Er as ->.
  assert (Hrn : NoDup (dkeys (redundant r))) by (apply (check_red_nodup cfg reg d l mem r Hv); now rewrite Er').
  destruct (repair_run cfg mem d l r int_of ins Ht Hv Hr Hrn Htilde) as (tr & E & A & B & _).
  pose proof (e_tidy _ _ _ _ A) as Ht1. destruct (visits_dirs_exist (recursive cfg) _ (t_wf _ _ Ht1)) as [l' Hv'].
  exists tr, l'.
  assert (Hlook : forall q, (surplus l q \/ False -> look (recursive cfg) (run_steps yes tr d) q = None) /\
     (~ surplus l q -> ~ False -> look (recursive cfg) (run_steps yes tr d) q = look (recursive cfg) d q)).
  { intro q. destruct (B q) as (X1 & X2). split; [intros [X|[]]; auto|auto]. }
  pose proof (repaired_file cfg d _ l l' (fun _ => False) Ht Hv Ht1 Hv' Hlook) as RF.
  pose proof (repaired_files_of cfg d _ l l' (fun _ => False) Ht Hv Ht1 Hv' Hlook (fun q X => False_ind _ X)) as RO.
  pose proof (repaired_single cfg d _ l l' (fun _ => False) Ht Hv Ht1 Hv' Hlook (fun q X => False_ind _ X)) as RS.
  pose proof (tidy_paths _ _ l' Ht1 Hv') as Hpaths'.
  split; [|split; [exact Hv'|split]].
  - destruct (redundant r); [|exact E]. injection E as <-. reflexivity.
  - intro id. destruct (files_of id l) as [|p q] eqn:Ef.
    + apply nil_of. intros p Hp. apply RO in Hp. rewrite Ef in Hp. discriminate.
    + apply single_files; [exact Hpaths'|exact RS|]. apply RO. now rewrite Ef.
  - intros p c. rewrite RF. split.
    + intros (H1 & H2 & _). split; [exact H1|]. destruct (definition p c) as [[id dd]|] eqn:Ed; [|now left]. right. exists id.
      apply not_surplus_head; [|exact H2]. apply in_files_of. eauto.
    + intros (H1 & H2). split; [exact H1|]. split; [|tauto]. destruct H2 as [H2|[id H2]]; [|now apply head_not_surplus with id].
      intros (id & Hs). assert (X : In p (files_of id l)) by (destruct (files_of id l); [destruct Hs|now right]).
      apply in_files_of in X. destruct X as (c' & dd & Hin' & E'). rewrite (file_fun l p c c' Hpaths H1 Hin') in H2. congruence.
Qed.

From Coq Require Import Ascii Lia PeanoNat.
From Verif Require Import Base Text Model_Reg Model_Catalog Spec_Catalog.
Local Open Scope string_scope.
Local Open Scope list_scope.

Lemma reg_file_name_iff n : reg_file_name n = true <-> registry_name n.
Proof.
  unfold reg_file_name, registry_name. destruct n as [|c n].
  - cbn. split; [discriminate|]. intros (c & r & H & _). discriminate.
  - rewrite !andb_true_iff, !negb_true_iff, Nat.ltb_lt, ends_with_iff.
    split.
    + intros [[[H1 H2] H3] [a Ha]]. apply Ascii.eqb_neq in H1, H2.
      destruct a as [|x a].
      * cbn in Ha. rewrite Ha in H3. cbn in H3. lia.
      * cbn in Ha. injection Ha as -> ->. exists x, a. auto.
    + intros (x & a & H & H1 & H2). cbn in H. injection H as -> ->.
      apply Ascii.eqb_neq in H1, H2. rewrite H1, H2. repeat split.
      * cbn. rewrite app_length_s. cbn. lia.
      * now exists (String x a).
Qed.

Section S.
Context {C : Type}.
Implicit Types (r l : list (string * C)) (ns : namespace C).

Lemma dget_app k l1 l2 : dget k (l1 ++ l2) = match dget k l1 with Some v => Some v | None => dget k l2 end.
Proof. induction l1 as [|[k' v] l1 IH]; cbn; [reflexivity|]. destruct (String.eqb k k'); auto. Qed.

Lemma dget_dset k n (c : C) r : dget k (dset n c r) = if String.eqb k n then Some c else dget k r.
Proof.
  destruct (String.eqb_spec k n) as [->|H]; [apply dget_dset_same|now apply dget_dset_other].
Qed.

Lemma register_overwrite cfg ns r :
  reg_exist_fatal cfg = false -> reg_overwrite cfg = true ->
  snd (register cfg ns r) = None /\
  forall k, dget k (fst (register cfg ns r)) = match last_of k (classes ns) with Some c => Some c | None => dget k r end.
Proof.
  intros Hf Ho. unfold last_of. revert r. induction ns as [|[n [c|]] ns IH]; intro r.
  - cbn. auto.
  - cbn [register classes flat_map snd fst app rev].
    rewrite Hf, Ho.
    assert (E : forall A (b : bool) (x : A), (if b then x else x) = x) by now intros ? [].
    rewrite E. destruct (IH (dset n c r)) as [H1 H2]. split; [exact H1|]. intro k. rewrite H2. fold (classes ns).
    rewrite dget_app. cbn [dget]. destruct (dget k (rev (classes ns))); [reflexivity|].
    rewrite dget_dset. destruct (String.eqb k n); reflexivity.
  - cbn [register classes flat_map snd fst app]. apply IH.
Qed.

Lemma register_ignore cfg ns r :
  reg_exist_fatal cfg = false -> reg_overwrite cfg = false ->
  snd (register cfg ns r) = None /\
  forall k, dget k (fst (register cfg ns r)) = match dget k r with Some c => Some c | None => first_of k (classes ns) end.
Proof.
  intros Hf Ho. unfold first_of. revert r. induction ns as [|[n [c|]] ns IH]; intro r.
  - cbn. split; [reflexivity|]. intro k. now destruct (dget k r).
  - cbn [register classes flat_map snd fst app]. rewrite Hf, Ho. fold (classes ns).
    destruct (dmem n r) eqn:E.
    + destruct (IH r) as [H1 H2]. split; [exact H1|]. intro k. rewrite H2. cbn [dget].
      destruct (String.eqb_spec k n) as [->|]; [|reflexivity].
      apply dmem_true in E. destruct E as [v ->]. reflexivity.
    + destruct (IH (dset n c r)) as [H1 H2]. split; [exact H1|]. intro k. rewrite H2, dget_dset. cbn [dget].
      destruct (String.eqb_spec k n) as [->|]; [|reflexivity].
      apply dmem_false in E. now rewrite E.
  - cbn [register classes flat_map snd fst app]. apply IH.
Qed.

Definition fresh l r : Prop := NoDup (map fst l) /\ forall k, In k (map fst l) -> ~ In k (dkeys r).

Lemma register_fatal cfg ns r :
  reg_exist_fatal cfg = true ->
  (snd (register cfg ns r) = None <-> fresh (classes ns) r) /\
  (snd (register cfg ns r) <> None -> snd (register cfg ns r) = Some PMFileError) /\
  (snd (register cfg ns r) = None ->
    forall k, dget k (fst (register cfg ns r)) = match dget k r with Some c => Some c | None => first_of k (classes ns) end).
Proof.
  intros Hf. unfold first_of. revert r. induction ns as [|[n [c|]] ns IH]; intro r.
  - cbn. split; [|split; [congruence|]].
    + split; [|reflexivity]. intros _. split; [constructor|intros k []].
    + intros _ k. now destruct (dget k r).
  - cbn [register classes flat_map snd fst app]. rewrite Hf. fold (classes ns).
    destruct (dmem n r) eqn:E.
    + split; [|split; [reflexivity|discriminate]]. split; [discriminate|].
      intros [_ H]. exfalso. apply (H n); [now left|]. apply dget_in_keys. now apply dmem_true.
    + destruct (IH (dset n c r)) as (H1 & H2 & H3). split; [|split; [exact H2|]].
      * rewrite H1. unfold fresh. cbn [map fst]. split.
        -- intros [Hn Hd]. split.
           ++ constructor; [|exact Hn]. intro Hin. apply (Hd n Hin). apply dset_keys. now left.
           ++ intros k [<-|Hk].
              ** apply dget_none_iff. now apply dmem_false.
              ** intro Hr. apply (Hd k Hk). apply dset_keys. now right.
        -- intros [Hn Hd]. inversion Hn; subst. split; [assumption|].
           intros k Hk Hr. apply dset_keys in Hr. destruct Hr as [->|Hr]; [contradiction|].
           apply (Hd k); [now right|assumption].
      * intros Hs k. rewrite (H3 Hs), dget_dset. cbn [dget].
        destruct (String.eqb_spec k n) as [->|]; [|reflexivity].
        apply dmem_false in E. now rewrite E.
  - cbn [register classes flat_map snd fst app]. apply IH.
Qed.

(* a whole run as one namespace *)
Lemma register_app cfg n1 n2 r :
  register cfg (n1 ++ n2) r =
  match register cfg n1 r with (r', None) => register cfg n2 r' | (r', Some x) => (r', Some x) end.
Proof.
  revert r. induction n1 as [|[n [c|]] n1 IH]; intro r; cbn [register app]; [reflexivity| |apply IH].
  destruct (dmem n r); [|apply IH].
  destruct (reg_exist_fatal cfg); [reflexivity|]. destruct (reg_overwrite cfg); apply IH.
Qed.

Fixpoint flat_files (fs : list (string * namespace C)) : namespace C :=
  match fs with [] => [] | (n, ns) :: fs' => if reg_file_name n then ns ++ flat_files fs' else flat_files fs' end.

Lemma reg_files_flat cfg fs r : reg_files cfg fs r = register cfg (flat_files fs) r.
Proof.
  revert r. induction fs as [|[n ns] fs IH]; intro r; cbn; [reflexivity|].
  destruct (reg_file_name n); [|apply IH]. rewrite register_app.
  destruct (register cfg ns r) as [r' [x|]]; [reflexivity|apply IH].
Qed.

Fixpoint flat_dirs (ds : list (option (list (string * namespace C)))) : namespace C :=
  match ds with [] => [] | None :: ds' => flat_dirs ds' | Some fs :: ds' => flat_files fs ++ flat_dirs ds' end.

Lemma reg_dirs_flat cfg ds r : Forall (fun d => d <> None) ds -> reg_dirs cfg ds r = register cfg (flat_dirs ds) r.
Proof.
  revert r. induction ds as [|[fs|] ds IH]; intros r H; cbn; [reflexivity| |inversion H; congruence].
  inversion H; subst. rewrite reg_files_flat, register_app.
  destruct (register cfg (flat_files fs) r) as [r' [x|]]; [reflexivity|now apply IH].
Qed.

Lemma classes_app n1 n2 : @classes C (n1 ++ n2) = classes n1 ++ classes n2.
Proof. unfold classes. apply flat_map_app. Qed.

Lemma dir_defs_flat fs l : dir_defs fs l -> l = classes (flat_files fs).
Proof.
  induction 1; cbn [flat_files]; [reflexivity| |].
  - apply reg_file_name_iff in H. rewrite H, classes_app. congruence.
  - destruct (reg_file_name n) eqn:E; [|assumption]. apply reg_file_name_iff in E. contradiction.
Qed.
Lemma dir_defs_ex fs : dir_defs fs (classes (flat_files fs)).
Proof.
  induction fs as [|[n ns] fs IH]; cbn [flat_files]; [constructor|].
  destruct (reg_file_name n) eqn:E.
  - rewrite classes_app. apply dd_file; [now apply reg_file_name_iff|assumption].
  - apply dd_skip; [|assumption]. intro H. apply reg_file_name_iff in H. congruence.
Qed.
Lemma all_defs_flat ds l : all_defs ds l -> l = classes (flat_dirs ds) /\ Forall (fun d => d <> None) ds.
Proof.
  induction 1 as [|fs l ds l' H H' [IH1 IH2]]; cbn [flat_dirs]; [split; [reflexivity|constructor]|].
  apply dir_defs_flat in H. rewrite classes_app. split; [congruence|]. constructor; [discriminate|assumption].
Qed.
Lemma all_defs_exist (ds : list (option (list (string * namespace C)))) :
  Forall (fun d => d <> None) ds -> exists l, all_defs ds l.
Proof.
  induction 1 as [|[fs|] ds H Hf [l IH]]; [exists []; constructor| |congruence].
  eexists. apply ad_dir; [apply dir_defs_ex|exact IH].
Qed.

Lemma regload_overwrite cfg ds l prev :
  reg_exist_fatal cfg = false -> reg_overwrite cfg = true -> all_defs ds l ->
  snd (regload cfg ds prev) = None /\ forall k, dget k (fst (regload cfg ds prev)) = last_of k l.
Proof.
  intros Hf Ho Hd. apply all_defs_flat in Hd. destruct Hd as [-> Hd]. unfold regload.
  rewrite (reg_dirs_flat _ _ _ Hd). destruct (register_overwrite cfg (flat_dirs ds) [] Hf Ho) as [H1 H2].
  split; [exact H1|]. intro k. rewrite H2. cbn. now destruct (last_of k _).
Qed.
Lemma regload_ignore cfg ds l prev :
  reg_exist_fatal cfg = false -> reg_overwrite cfg = false -> all_defs ds l ->
  snd (regload cfg ds prev) = None /\ forall k, dget k (fst (regload cfg ds prev)) = first_of k l.
Proof.
  intros Hf Ho Hd. apply all_defs_flat in Hd. destruct Hd as [-> Hd]. unfold regload.
  rewrite (reg_dirs_flat _ _ _ Hd). destruct (register_ignore cfg (flat_dirs ds) [] Hf Ho) as [H1 H2].
  split; [exact H1|]. intro k. now rewrite H2.
Qed.
Lemma regload_fatal cfg ds l prev :
  reg_exist_fatal cfg = true -> all_defs ds l ->
  (snd (regload cfg ds prev) = None <-> NoDup (map fst l)) /\
  (snd (regload cfg ds prev) <> None -> snd (regload cfg ds prev) = Some PMFileError) /\
  (snd (regload cfg ds prev) = None -> forall k, dget k (fst (regload cfg ds prev)) = first_of k l).
Proof.
  intros Hf Hd. apply all_defs_flat in Hd. destruct Hd as [-> Hd]. unfold regload.
  rewrite (reg_dirs_flat _ _ _ Hd). destruct (register_fatal cfg (flat_dirs ds) [] Hf) as (H1 & H2 & H3).
  split; [|split; [exact H2|]].
  - rewrite H1. unfold fresh. cbn. intuition.
  - intros Hs k. now rewrite (H3 Hs).
Qed.
Lemma regload_fresh cfg ds p1 p2 : @regload C cfg ds p1 = regload cfg ds p2.
Proof. reflexivity. Qed.

Lemma regload_missing cfg ds1 ds2 l prev :
  reg_exist_fatal cfg = false -> @all_defs C ds1 l ->
  snd (regload cfg (ds1 ++ None :: ds2) prev) = Some EException /\
  fst (regload cfg (ds1 ++ None :: ds2) prev) = fst (regload cfg ds1 prev).
Proof.
  intros Hf Hd. apply all_defs_flat in Hd. destruct Hd as [_ Hd]. unfold regload.
  generalize (@nil (string * C)). revert Hd. induction ds1 as [|[fs|] ds IH]; intros Hd r; cbn.
  - auto.
  - inversion Hd; subst. rewrite reg_files_flat.
    assert (HN : snd (register cfg (flat_files fs) r) = None).
    { destruct (reg_overwrite cfg) eqn:Ho;
      [apply (register_overwrite cfg (flat_files fs) r Hf Ho)|apply (register_ignore cfg (flat_files fs) r Hf Ho)]. }
    destruct (register cfg (flat_files fs) r) as [r' [x|]]; [discriminate|]. now apply IH.
  - inversion Hd; congruence.
Qed.
End S.

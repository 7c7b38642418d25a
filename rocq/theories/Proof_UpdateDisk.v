(* The operations on the disk, seen through the files that a load reads. *)
From Coq Require Import List String Bool Sorted Permutation Lia Ascii.
From Verif Require Import Base Text Model_Dat Spec_Dat Proof_Dat Model_Update Spec_Update.
Import ListNotations.
Local Open Scope string_scope.
Local Open Scope list_scope.

Section node_ind.
  Variable P : node -> Prop.
  Hypothesis Hf : forall c, P (NFile c).
  Hypothesis Ho : P NOther.
  Hypothesis Hd : forall es, Forall (fun e => P (snd e)) es -> P (NDir es).
  Lemma node_ind2 : forall n, P n.
  Proof.
    fix IH 1. intros [c|es|]; [apply Hf| |apply Ho].
    apply Hd. induction es as [|[k x] es IHd]; constructor; [apply IH|exact IHd].
  Qed.
End node_ind.

(* the files a load reads, in no particular order *)
Fixpoint walk (rec : bool) (path : string) (n : node) : list (string * content) :=
  match n with
  | NFile c => [(path, c)]
  | NDir es => flat_map (fun e => if followedb rec (fst e) (snd e) then walk rec (join path (fst e)) (snd e) else []) es
  | NOther => []
  end.
Definition owalk (rec : bool) (path : string) (n : option node) : list (string * content) :=
  match n with Some n => walk rec path n | None => [] end.
Definition dwalk (rec : bool) (d : disk) : list (string * content) :=
  flat_map (fun e => owalk rec (fst e) (snd e)) d.

Lemma perm_flat_map {A B} (f : A -> list B) l1 l2 : Permutation l1 l2 -> Permutation (flat_map f l1) (flat_map f l2).
Proof.
  induction 1; cbn.
  - constructor.
  - now apply Permutation_app_head.
  - rewrite !app_assoc. apply Permutation_app_tail. apply Permutation_app_comm.
  - etransitivity; eassumption.
Qed.

Lemma files_app l1 l2 : files (l1 ++ l2) = files l1 ++ files l2.
Proof. unfold files. apply flat_map_app. Qed.

Lemma visits_walk rec p n l : visits rec p n l -> Permutation (files l) (walk rec p n).
Proof.
  intro H.
  apply (visits_mut rec
    (fun p n l => Permutation (files l) (walk rec p n))
    (fun p es l => Permutation (files l)
       (flat_map (fun e => if followedb rec (fst e) (snd e) then walk rec (join p (fst e)) (snd e) else []) es)));
    [| | | | | | |exact H]; clear.
  - intros p c. reflexivity.
  - intros p. reflexivity.
  - intros p entries es l _ Hp _ _ IH. cbn [walk]. etransitivity; [exact IH|]. apply perm_flat_map. now symmetry.
  - intros p. reflexivity.
  - intros p name n es l1 l2 Hf _ IH1 _ IH2. rewrite files_app. cbn [flat_map fst snd].
    apply followed_iff in Hf. rewrite Hf. apply Permutation_app; assumption.
  - intros p name n es l Hf _ _ IH. cbn [flat_map fst snd files].
    destruct (followedb rec name n) eqn:E; [apply followed_iff in E; contradiction|]. exact IH.
  - intros p name n es l Hf _ _ IH. cbn [flat_map fst snd files].
    destruct (followedb rec name n) eqn:E; [apply followed_iff in E; contradiction|]. exact IH.
Qed.

Lemma visits_dwalk rec d l : visits_dirs rec d l -> Permutation (files l) (dwalk rec d).
Proof.
  induction 1 as [|p ds l H IH|p n ds l1 l2 H1 H2 IH].
  - reflexivity.
  - exact IH.
  - rewrite files_app. cbn [dwalk flat_map fst snd owalk]. apply Permutation_app; [|exact IH]. now apply visits_walk.
Qed.

(* what is in the files, as a map *)
Definition look (rec : bool) (d : disk) (p : string) : option content := dget p (dwalk rec d).

Lemma dget_flat_map_filter {A} t k (l : list (string * A)) :
  dget k (filter (fun e => negb (String.eqb (fst e) t)) l) = if String.eqb k t then None else dget k l.
Proof.
  induction l as [|[k' v] l IH]; cbn [filter fst dget]; [now destruct (String.eqb k t)|].
  destruct (String.eqb_spec k' t) as [->|Hn]; cbn [negb dget]; rewrite IH.
  - destruct (String.eqb_spec k t) as [->|Hk]; reflexivity.
  - destruct (String.eqb_spec k k') as [->|Hk]; [|reflexivity].
    destruct (String.eqb_spec k' t); [contradiction|reflexivity].
Qed.

(* ---- remove ---- *)
Definition keep (t : string) (e : string * content) : bool := negb (String.eqb (fst e) t).

Lemma n_remove_dir t path n m : n_remove t path n = Some m -> is_dir m = is_dir n.
Proof. destruct n; cbn; intro H; [destruct (String.eqb path t); [discriminate|]|idtac|]; now injection H as <-. Qed.

Lemma filter_flat_map {A B} (f : A -> list B) g l : filter g (flat_map f l) = flat_map (fun x => filter g (f x)) l.
Proof. induction l as [|x l IH]; cbn; [reflexivity|]. now rewrite filter_app, IH. Qed.

Lemma flat_map_flat_map {A B C} (f : B -> list C) (g : A -> list B) l :
  flat_map f (flat_map g l) = flat_map (fun x => flat_map f (g x)) l.
Proof. induction l as [|x l IH]; cbn; [reflexivity|]. now rewrite flat_map_app, IH. Qed.

Lemma flat_map_ext_in {A B} (f g : A -> list B) l : (forall x, In x l -> f x = g x) -> flat_map f l = flat_map g l.
Proof. induction l as [|x l IH]; cbn; intro H; [reflexivity|]. rewrite (H x) by now left. rewrite IH; auto. Qed.

Lemma walk_remove rec t n : forall path, owalk rec path (n_remove t path n) = filter (keep t) (walk rec path n).
Proof.
  induction n as [c| |es IH] using node_ind2; intro path.
  - cbn [n_remove walk filter keep fst]. unfold keep. cbn [fst]. destruct (String.eqb path t); reflexivity.
  - reflexivity.
  - cbn [n_remove walk owalk]. rewrite filter_flat_map, flat_map_flat_map. apply flat_map_ext_in.
    intros [name m] Hin. cbn [fst snd]. rewrite Forall_forall in IH. specialize (IH _ Hin (join path name)). cbn [snd] in IH.
    destruct (n_remove t (join path name) m) as [m'|] eqn:E; cbn [flat_map app fst snd owalk] in *.
    + rewrite app_nil_r. unfold followedb in *. rewrite (n_remove_dir _ _ _ _ E).
      destruct (_ || _); [exact IH|reflexivity].
    + destruct (followedb rec name m); [exact IH|reflexivity].
Qed.

Lemma dwalk_remove rec t d : dwalk rec (d_remove t d) = filter (keep t) (dwalk rec d).
Proof.
  unfold dwalk, d_remove. rewrite filter_flat_map. induction d as [|[p [n|]] d IH]; cbn [map flat_map fst snd owalk filter].
  - reflexivity.
  - rewrite IH. f_equal. apply walk_remove.
  - exact IH.
Qed.

Lemma look_remove rec t d p : look rec (d_remove t d) p = if String.eqb p t then None else look rec d p.
Proof. unfold look. rewrite dwalk_remove. apply (dget_flat_map_filter t p (dwalk rec d)). Qed.

(* ---- write ---- *)
Definition upd (t : string) (c : content) (e : string * content) : string * content :=
  if String.eqb (fst e) t then (fst e, c) else e.

Lemma n_write_dir t c path n : is_dir (n_write t c path n) = is_dir n.
Proof. destruct n; cbn; try reflexivity. now destruct (String.eqb path t). Qed.

Lemma map_flat_map {A B C} (f : A -> list B) (g : B -> C) l : map g (flat_map f l) = flat_map (fun x => map g (f x)) l.
Proof. induction l as [|x l IH]; cbn; [reflexivity|]. now rewrite map_app, IH. Qed.

Lemma flat_map_map {A B C} (f : B -> list C) (g : A -> B) l : flat_map f (map g l) = flat_map (fun x => f (g x)) l.
Proof. induction l as [|x l IH]; cbn; [reflexivity|]. now rewrite IH. Qed.

Lemma walk_write rec t c n : forall path, walk rec path (n_write t c path n) = map (upd t c) (walk rec path n).
Proof.
  induction n as [c0| |es IH] using node_ind2; intro path.
  - cbn [n_write walk map]. unfold upd. cbn [fst]. destruct (String.eqb path t); reflexivity.
  - reflexivity.
  - cbn [n_write walk]. rewrite map_flat_map, flat_map_map. apply flat_map_ext_in.
    intros [name m] Hin. cbn [fst snd]. rewrite Forall_forall in IH. specialize (IH _ Hin (join path name)). cbn [snd] in IH.
    unfold followedb. rewrite n_write_dir. destruct (_ || _); [exact IH|reflexivity].
Qed.

Lemma dwalk_write rec t c d : dwalk rec (d_write t c d) = map (upd t c) (dwalk rec d).
Proof.
  unfold dwalk, d_write. rewrite map_flat_map, flat_map_map. apply flat_map_ext_in. intros [p [n|]] _; cbn [fst snd owalk option_map].
  - apply walk_write.
  - reflexivity.
Qed.

Lemma dget_upd t c k l :
  dget k (map (upd t c) l) = match dget k l with Some v => Some (if String.eqb k t then c else v) | None => None end.
Proof.
  induction l as [|[k' v] l IH]; cbn [map dget]; [reflexivity|]. unfold upd at 1. cbn [fst].
  destruct (String.eqb_spec k' t) as [->|Hn]; cbn [dget].
  - destruct (String.eqb_spec k t) as [->|Hk]; [reflexivity|exact IH].
  - destruct (String.eqb_spec k k') as [->|Hk]; [|exact IH]. destruct (String.eqb_spec k' t); [contradiction|reflexivity].
Qed.

Lemma look_write rec t c d p :
  look rec (d_write t c d) p = match look rec d p with Some v => Some (if String.eqb p t then c else v) | None => None end.
Proof. unfold look. rewrite dwalk_write. apply dget_upd. Qed.

Lemma keys_upd t c l : map fst (map (upd t c) l) = map fst l.
Proof. rewrite map_map. apply map_ext. intros [k v]. unfold upd. now destruct (String.eqb (fst (k, v)) t). Qed.

(* ---- create ---- *)
Lemma n_create_dir dir name c path n : is_dir (n_create dir name c path n) = is_dir n.
Proof. destruct n; reflexivity. Qed.

Fixpoint hits (rec : bool) (dir path : string) (n : node) : nat :=
  match n with
  | NDir es => (if String.eqb path dir then 1 else 0) +
               fold_right (fun e k => (if followedb rec (fst e) (snd e) then hits rec dir (join path (fst e)) (snd e) else 0) + k) 0 es
  | _ => 0
  end.
Definition dhits (rec : bool) (dir : string) (d : disk) : nat :=
  fold_right (fun e k => (match snd e with Some n => hits rec dir (fst e) n | None => 0 end) + k) 0 d.

Definition hpdb (name : string) : bool := Nat.ltb 4 (String.length name) && ends_with ".hpd" name.

Lemma walk_create rec dir name c n : forall path,
  Permutation (walk rec path (n_create dir name c path n))
    (walk rec path n ++ (if hpdb name then repeat (join dir name, c) (hits rec dir path n) else [])).
Proof.
  induction n as [c0| |es IH] using node_ind2; intro path.
  - cbn. now destruct (hpdb name).
  - cbn. now destruct (hpdb name).
  - assert (G : Permutation
      (flat_map (fun e => if followedb rec (fst e) (snd e) then walk rec (join path (fst e)) (snd e) else [])
         (map (fun e => let '(x, m) := e in (x, n_create dir name c (join path x) m)) es))
      (flat_map (fun e => if followedb rec (fst e) (snd e) then walk rec (join path (fst e)) (snd e) else []) es ++
       (if hpdb name then repeat (join dir name, c)
          (fold_right (fun e k => (if followedb rec (fst e) (snd e) then hits rec dir (join path (fst e)) (snd e) else 0) + k) 0 es) else []))).
    { induction IH as [|[x m] es Hx _ IHes].
      - cbn. now destruct (hpdb name).
      - cbn [map flat_map fst snd fold_right] in *. unfold followedb at 1. rewrite n_create_dir. fold (followedb rec x m).
        destruct (followedb rec x m).
        + specialize (Hx (join path x)). rewrite Hx, IHes. destruct (hpdb name).
          * rewrite repeat_app. rewrite <- !app_assoc. apply Permutation_app_head.
            rewrite !app_assoc. apply Permutation_app_tail. apply Permutation_app_comm.
          * now rewrite !app_nil_r.
        + cbn [app]. exact IHes. }
    cbn [n_create walk hits]. destruct (String.eqb_spec path dir) as [->|Hn].
    + rewrite flat_map_app. cbn [flat_map fst snd]. rewrite G. 
      replace (followedb rec name (NFile c)) with (hpdb name) by (unfold followedb; cbn [is_dir]; now rewrite andb_false_r).
      destruct (hpdb name); cbn [walk app].
      * rewrite <- app_assoc. apply Permutation_app_head. rewrite repeat_app.
        etransitivity; [apply Permutation_app_comm|]. reflexivity.
      * rewrite !app_nil_r. reflexivity.
    + exact G.
Qed.

Lemma dwalk_create rec dir name c d :
  Permutation (dwalk rec (d_create dir name c d))
    (dwalk rec d ++ (if hpdb name then repeat (join dir name, c) (dhits rec dir d) else [])).
Proof.
  induction d as [|[p [n|]] d IH].
  - cbn. now destruct (hpdb name).
  - cbn [d_create map dwalk flat_map fst snd option_map owalk dhits fold_right].
    fold (d_create dir name c d). fold (dwalk rec (d_create dir name c d)). fold (dwalk rec d). fold (dhits rec dir d).
    rewrite walk_create, IH. destruct (hpdb name).
    + rewrite repeat_app. rewrite <- !app_assoc. apply Permutation_app_head.
      rewrite !app_assoc. apply Permutation_app_tail. apply Permutation_app_comm.
    + now rewrite !app_nil_r.
  - cbn [d_create map dwalk flat_map fst snd option_map owalk dhits fold_right]. exact IH.
Qed.

(* ---- the same names and directories after each operation ---- *)
Lemma hits_write rec dir t c n : forall path, hits rec dir path (n_write t c path n) = hits rec dir path n.
Proof.
  induction n as [c0| |es IH] using node_ind2; intro path; [cbn; now destruct (String.eqb path t)|reflexivity|].
  cbn [n_write hits]. f_equal. induction IH as [|[x m] es Hx _ IHes]; cbn [map fold_right fst snd] in *; [reflexivity|].
  rewrite IHes. unfold followedb. rewrite n_write_dir. now rewrite Hx.
Qed.
Lemma dhits_write rec dir t c d : dhits rec dir (d_write t c d) = dhits rec dir d.
Proof.
  induction d as [|[p [n|]] d IH]; cbn [d_write map dhits fold_right fst snd option_map]; [reflexivity| |exact IH].
  fold (d_write t c d). fold (dhits rec dir (d_write t c d)). rewrite IH. now rewrite hits_write.
Qed.
Lemma hits_create rec dir dir' name c n : forall path, hits rec dir path (n_create dir' name c path n) = hits rec dir path n.
Proof.
  induction n as [c0| |es IH] using node_ind2; intro path; [reflexivity|reflexivity|].
  assert (G : forall l, fold_right (fun e k => (if followedb rec (fst e) (snd e) then hits rec dir (join path (fst e)) (snd e) else 0) + k) 0
    (l ++ [(name, NFile c)]) = fold_right (fun e k => (if followedb rec (fst e) (snd e) then hits rec dir (join path (fst e)) (snd e) else 0) + k) 0 l).
  { intro l. rewrite fold_right_app. cbn. now destruct (followedb rec name (NFile c)). }
  assert (H : fold_right (fun e k => (if followedb rec (fst e) (snd e) then hits rec dir (join path (fst e)) (snd e) else 0) + k) 0
      (map (fun e => let '(x, m) := e in (x, n_create dir' name c (join path x) m)) es) =
      fold_right (fun e k => (if followedb rec (fst e) (snd e) then hits rec dir (join path (fst e)) (snd e) else 0) + k) 0 es).
  { clear G. induction IH as [|[x m] es Hx _ IHes]; cbn [map fold_right fst snd] in *; [reflexivity|].
    rewrite IHes. unfold followedb. rewrite n_create_dir. now rewrite Hx. }
  cbn [n_create hits]. f_equal. destruct (String.eqb path dir'); [rewrite G|]; exact H.
Qed.
Lemma dhits_create rec dir dir' name c d : dhits rec dir (d_create dir' name c d) = dhits rec dir d.
Proof.
  induction d as [|[p [n|]] d IH]; cbn [d_create map dhits fold_right fst snd option_map]; [reflexivity| |exact IH].
  fold (d_create dir' name c d). fold (dhits rec dir (d_create dir' name c d)). rewrite IH. now rewrite hits_create.
Qed.
Lemma hits_remove rec dir t n : forall path,
  match n_remove t path n with Some m => hits rec dir path m | None => 0 end = hits rec dir path n.
Proof.
  induction n as [c0| |es IH] using node_ind2; intro path; [cbn; now destruct (String.eqb path t)|reflexivity|].
  cbn [n_remove hits]. f_equal. induction IH as [|[x m] es Hx _ IHes]; cbn [flat_map fold_right fst snd] in *; [reflexivity|].
  specialize (Hx (join path x)). rewrite fold_right_app, IHes.
  destruct (n_remove t (join path x) m) as [m'|] eqn:E; cbn [fold_right fst snd].
  - unfold followedb. rewrite (n_remove_dir _ _ _ _ E). now rewrite Hx.
  - rewrite <- Hx. now destruct (followedb rec x m).
Qed.
Lemma dhits_remove rec dir t d : dhits rec dir (d_remove t d) = dhits rec dir d.
Proof.
  induction d as [|[p [n|]] d IH]; cbn [d_remove map dhits fold_right fst snd]; [reflexivity| |exact IH].
  fold (d_remove t d). fold (dhits rec dir (d_remove t d)). rewrite IH. now rewrite hits_remove.
Qed.

(* ---- well-formedness ---- *)
Lemma wf_list_forall es : wf_list es <-> Forall (fun e => wf_node (snd e)) es.
Proof.
  split; intro H.
  - induction es as [|[x m] es IH]; inversion H; subst; constructor; auto.
  - induction H as [|[x m] es Hx _ IH]; constructor; auto.
Qed.
Lemma wf_dir_inv es : wf_node (NDir es) -> NoDup (map fst es) /\ Forall (fun e => wf_node (snd e)) es.
Proof. intro H. inversion H; subst. split; [assumption|now apply wf_list_forall]. Qed.
Lemma wf_dir_intro es : NoDup (map fst es) -> Forall (fun e => wf_node (snd e)) es -> wf_node (NDir es).
Proof. intros H1 H2. constructor; [assumption|now apply wf_list_forall]. Qed.

Lemma wf_write t c n : forall path, wf_node n -> wf_node (n_write t c path n).
Proof.
  induction n as [c0| |es IH] using node_ind2; intros path H; [cbn; destruct (String.eqb path t); constructor|constructor|].
  apply wf_dir_inv in H. destruct H as [Hn Hw]. cbn [n_write]. apply wf_dir_intro.
  - rewrite map_map. erewrite map_ext; [exact Hn|]. now intros [x m].
  - rewrite Forall_forall in *. intros e He. apply in_map_iff in He. destruct He as ([x m] & <- & Hin). cbn. apply (IH _ Hin), (Hw _ Hin).
Qed.
Lemma wf_remove t n : forall path m, wf_node n -> n_remove t path n = Some m -> wf_node m.
Proof.
  induction n as [c0| |es IH] using node_ind2; intros path m H E.
  - cbn in E. destruct (String.eqb path t); [discriminate|]. injection E as <-. constructor.
  - injection E as <-. constructor.
  - apply wf_dir_inv in H. destruct H as [Hn Hw]. cbn [n_remove] in E. injection E as <-. apply wf_dir_intro.
    + clear -Hn. induction es as [|[x m] es IHes]; cbn [flat_map map fst] in *; [constructor|].
      inversion Hn as [|? ? Hni Hn']; subst. specialize (IHes Hn'). destruct (n_remove t (join path x) m); cbn [app map fst]; [|exact IHes].
      constructor; [|exact IHes]. intro Hin. apply Hni. clear -Hin.
      induction es as [|[y m] es IHes]; cbn [flat_map map fst] in *; [exact Hin|].
      destruct (n_remove t (join path y) m); cbn [app map fst In] in *; intuition.
    + rewrite Forall_forall in *. intros e He. apply in_flat_map in He. destruct He as ([x m] & Hin & He).
      destruct (n_remove t (join path x) m) as [m'|] eqn:E; [|destruct He]. destruct He as [<-|[]]. cbn.
      apply (IH _ Hin _ _ (Hw _ Hin) E).
Qed.
Lemma n_all_root path n : In path (map fst (n_all path n)).
Proof. destruct n; now left. Qed.
Lemma wf_create dir name c n : forall path, wf_node n -> ~ In (join dir name) (map fst (n_all path n)) ->
  wf_node (n_create dir name c path n).
Proof.
  induction n as [c0| |es IH] using node_ind2; intros path H Hno; [constructor|constructor|].
  apply wf_dir_inv in H. destruct H as [Hn Hw]. cbn [n_create].
  assert (Hnames : map fst (map (fun e => let '(x, m) := e in (x, n_create dir name c (join path x) m)) es) = map fst es).
  { rewrite map_map. apply map_ext. now intros [x m]. }
  assert (Hsub : Forall (fun e => wf_node (snd e)) (map (fun e => let '(x, m) := e in (x, n_create dir name c (join path x) m)) es)).
  { rewrite Forall_forall in *. intros e He. apply in_map_iff in He. destruct He as ([x m] & <- & Hin). cbn.
    apply (IH _ Hin _ (Hw _ Hin)). intro Hx. apply Hno. cbn [n_all map fst]. right.
    rewrite map_flat_map. apply in_flat_map. exists (x, m). auto. }
  destruct (String.eqb_spec path dir) as [->|Hd]; apply wf_dir_intro.
  - rewrite map_app, Hnames. cbn [map fst].
    apply (Permutation_NoDup (l := name :: map fst es)); [apply Permutation_cons_append|].
    constructor; [|exact Hn]. intro Hin. apply in_map_iff in Hin. destruct Hin as ([x m] & Ex & Hin). cbn in Ex. subst x.
    apply Hno. cbn [n_all map fst]. right. rewrite map_flat_map. apply in_flat_map. exists (name, m). split; [exact Hin|].
    apply n_all_root.
  - apply Forall_app. split; [exact Hsub|]. constructor; [constructor|constructor].
  - now rewrite Hnames.
  - exact Hsub.
Qed.

Definition tops (d : disk) : Prop := forall p n, In (p, Some n) d -> exists es, n = NDir es.

Lemma wf_dirs_write t c d : wf_dirs d -> wf_dirs (d_write t c d).
Proof.
  intros H p n Hin. apply in_map_iff in Hin. destruct Hin as ([p' [m|]] & E & Hin); cbn in E; [|discriminate].
  injection E as <- <-. apply wf_write, (H _ _ Hin).
Qed.
Lemma wf_dirs_remove t d : wf_dirs d -> wf_dirs (d_remove t d).
Proof.
  intros H p n Hin. apply in_map_iff in Hin. destruct Hin as ([p' [m|]] & E & Hin); cbn in E; [|discriminate].
  injection E as <- E. apply (wf_remove _ _ _ _ (H _ _ Hin) E).
Qed.
Lemma wf_dirs_create dir name c d : wf_dirs d -> dget (join dir name) (d_all d) = None -> wf_dirs (d_create dir name c d).
Proof.
  intros H Hno p n Hin. apply in_map_iff in Hin. destruct Hin as ([p' [m|]] & E & Hin); cbn in E; [|discriminate].
  injection E as <- <-. apply wf_create; [apply (H _ _ Hin)|]. intro Hx. apply dget_none_iff in Hno. apply Hno.
  unfold dkeys, d_all. rewrite map_flat_map. apply in_flat_map. exists (p', Some m). auto.
Qed.
Lemma tops_write t c d : tops d -> tops (d_write t c d).
Proof.
  intros H p n Hin. apply in_map_iff in Hin. destruct Hin as ([p' [m|]] & E & Hin); cbn in E; [|discriminate].
  injection E as <- <-. destruct (H _ _ Hin) as [es ->]. cbn. eauto.
Qed.
Lemma tops_remove t d : tops d -> tops (d_remove t d).
Proof.
  intros H p n Hin. apply in_map_iff in Hin. destruct Hin as ([p' [m|]] & E & Hin); cbn in E; [|discriminate].
  injection E as <- E. destruct (H _ _ Hin) as [es ->]. cbn in E. injection E as <-. eauto.
Qed.
Lemma tops_create dir name c d : tops d -> tops (d_create dir name c d).
Proof.
  intros H p n Hin. apply in_map_iff in Hin. destruct Hin as ([p' [m|]] & E & Hin); cbn in E; [|discriminate].
  injection E as <- <-. destruct (H _ _ Hin) as [es ->]. cbn. eauto.
Qed.

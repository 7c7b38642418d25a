(* Quiet repair with failing operations; example disks; findings. *)
From Coq Require Import List String Bool Sorted Permutation Lia Ascii PeanoNat ZArith.
From Verif Require Import Base Text Model_Dat Spec_Dat Proof_Dat Model_Update Spec_Update Proof_UpdateDisk Proof_UpdateOps Proof_UpdateRun Proof_Update Proof_UpdateAll Proof_UpdateThm Proof_UpdateCrash.
Import ListNotations.
Local Open Scope string_scope.
Local Open Scope list_scope.

Lemma quiet_touch k RED : forall s q, In s (fst (repair_quiet "s" k RED)) -> In q (touches s) ->
  exists i f p, In (i, f) RED /\ In p (but_index 0 k f) /\ (q = p \/ q = (p ++ "~")%string).
Proof.
  induction RED as [|[i f] RED IH]; intros s q Hs Hq; [destruct Hs|]. cbn [repair_quiet String.eqb] in Hs.
  change (String.eqb "s" "d") with false in Hs. cbv iota in Hs.
  destruct (repair_quiet "s" k RED) as [tr y] eqn:Et. cbn [fst] in *. apply in_app_or in Hs. destruct Hs as [Hs|Hs].
  - destruct (repair_steps_touch "s" k f s q Hs Hq) as (p & Hp & Hpq & _). exists i, f, p. split; [now left|]. auto.
  - destruct (IH s q Hs Hq) as (i' & f' & p & A & B & C). exists i', f', p. split; [now right|]. auto.
Qed.

(* a quiet repair that keeps the file with a valid index *)
Lemma repair_quiet_keeps ok int_of cfg reg k ins mem d l r tr x :
  exist_fatal cfg = false -> visits_dirs (recursive cfg) d l -> all_loadable reg l -> NoDup (dkeys mem) ->
  wf_dirs d -> (forall p n, In (p, Some n) d -> exists es, n = NDir es) -> NoDup (map fst (files l)) ->
  snd (load_check cfg reg d mem) = Ok r ->
  red_repair int_of false "s" (Z.of_nat k) ins (redundant r) = (tr, x) ->
  forall id p c, In (File p c) l -> (nth_error (files_of id l) k = Some p \/ files_of id l = [p]) ->
    exists lk, visits_dirs (recursive cfg) (run_steps ok tr d) lk /\ In (File p c) lk.
Proof.
  intros Hf Hv Hload Hnd Hw Htop Hpaths Er Et id p c Hin Hk. cbn [red_repair] in Et.
  destruct (check_report cfg reg d l mem Hf Hnd Hv Hload) as (r' & Er' & Hr). rewrite Er' in Er. injection Er as ->.
  assert (Hrn : NoDup (dkeys (redundant r))) by (apply (check_red_nodup cfg reg d l mem r Hv); now rewrite Er').
  assert (Hown : forall id id' p, In p (files_of id l) -> In p (files_of id' l) -> id = id').
  { intros i i' q H1 H2. apply in_files_of in H1, H2. destruct H1 as (c1 & dd & I1 & E1), H2 as (c' & dd' & I2 & E2).
    rewrite (file_fun l q c1 c' Hpaths I1 I2) in E1. congruence. }
  assert (Hp : In p (files_of id l)) by (destruct Hk as [Hk| ->]; [now apply nth_error_In in Hk|now left]).
  apply (visits_frame (recursive cfg) ok tr d l p c Hw Hv); [|exact Hin].
  intros s Hs Hq. destruct (quiet_touch (Z.of_nat k) (redundant r) s p) as (i & f & q & A & B & C); [now rewrite Et|exact Hq|].
  apply (dget_in_nodup _ _ _ Hrn) in A. rewrite (rk_red _ _ _ Hr) in A.
  assert (Hf' : f = files_of i l /\ forall a, files_of i l <> [a]).
  { destruct (files_of i l) as [|a [|b w]]; try discriminate. injection A as <-. split; [reflexivity|discriminate]. }
  destruct Hf' as [-> Hmany]. destruct C as [<-|C].
  - assert (i = id) by (apply (Hown i id p); [now apply but_index_in in B|exact Hp]). subst i. destruct Hk as [Hk|Hk]; [|now apply (Hmany p)].
    apply (but_index_misses (files_of id l) 0 (Z.of_nat k) p); [now apply files_of_nodup|rewrite Z.sub_0_r, Nat2Z.id; exact Hk|lia|exact B].
  - destruct (visits_dirs_names (recursive cfg) d l Hv Htop p c Hin) as (dir & name & -> & (a & _ & ->)).
    assert (Y : ends_with ".hpd" (join dir (a ++ ".hpd")) = true).
    { apply ends_with_iff. exists (dir ++ "/" ++ a)%string. unfold join. now rewrite !app_assoc_s. }
    rewrite C, ends_tilde in Y. discriminate.
Qed.

(* ---- examples ---- *)
Lemma nodup_consistent d : NoDup (map fst (d_all d)) -> consistent d.
Proof.
  intros H t k k' A B. apply d_all_iff in A, B. apply (dget_in_nodup _ _ _ H) in A. apply (dget_in_nodup _ _ _ H) in B. congruence.
Qed.

Definition sub (id doc : string) : jdict := [("id", JStr id); ("class", JStr "ig"); ("doc", JStr doc)].
Definition src (p : string) (x : jdict) : jdict := dset "fromfile" (JStr p) x.
Definition body (x : jdict) : node := NFile (Parsed (JObj x)).
Definition entry (x : jdict) : subst := {| s_class := "ig"; s_data := x |}.
Definition ctor0 (d : jdict) : option exn := if forallb (fun k => dmem k d) ["id"; "class"; "doc"] then None else Some PMDataError.
Definition ureg : registry := [("ig", ctor0)].
Definition ucfg : datcfg := {| exist_fatal := false; overwrite := true; recursive := true |}.
Definition no_int : string -> option Z := fun s => if String.eqb s "0" then Some 0%Z else if String.eqb s "1" then Some 1%Z else None.
Definition all_ok : oracle := fun _ => true.

(* A is the same in memory, B was edited, C was removed, D is new, E is defined twice, and one
   file cannot be read *)
Definition disk1 : disk :=
  [("/d", Some (NDir [("a.hpd", body (sub "ig.A" "a")); ("b.hpd", body (sub "ig.B" "b"));
                      ("c", NDir [("c.hpd", body (sub "ig.C" "c")); ("e.hpd", body (sub "ig.E" "e2"))]);
                      ("e.hpd", body (sub "ig.E" "e1")); ("junk.hpd", NFile Unreadable)]));
   ("/missing", None)].
Definition visit1 : list item :=
  [File "/d/a.hpd" (Parsed (JObj (sub "ig.A" "a"))); File "/d/b.hpd" (Parsed (JObj (sub "ig.B" "b")));
   File "/d/c/c.hpd" (Parsed (JObj (sub "ig.C" "c"))); File "/d/c/e.hpd" (Parsed (JObj (sub "ig.E" "e2")));
   File "/d/e.hpd" (Parsed (JObj (sub "ig.E" "e1"))); File "/d/junk.hpd" Unreadable].
Definition mem1 : collection :=
  [("ig.A", entry (src "/d/a.hpd" (sub "ig.A" "a"))); ("ig.B", entry (src "/d/b.hpd" (sub "ig.B" "edited")));
   ("ig.D", entry (sub "ig.D" "new")); ("ig.E", entry (src "/d/e.hpd" (sub "ig.E" "e1")))].
(* the same without what needs a repair *)
Definition disk2 : disk :=
  [("/d", Some (NDir [("a.hpd", body (sub "ig.A" "a")); ("b.hpd", body (sub "ig.B" "b"));
                      ("c", NDir [("c.hpd", body (sub "ig.C" "c"))])]))].
Definition visit2 : list item :=
  [File "/d/a.hpd" (Parsed (JObj (sub "ig.A" "a"))); File "/d/b.hpd" (Parsed (JObj (sub "ig.B" "b")));
   File "/d/c/c.hpd" (Parsed (JObj (sub "ig.C" "c")))].
Definition mem2 : collection :=
  [("ig.A", entry (src "/d/a.hpd" (sub "ig.A" "a"))); ("ig.B", entry (src "/d/b.hpd" (sub "ig.B" "edited")));
   ("ig.D", entry (sub "ig.D" "new"))].

Ltac nd := repeat (constructor; [cbn; intuition discriminate|]); constructor.
Ltac inl H := repeat (destruct H as [H|H]; [|]); [..|destruct H].
Ltac data_file s := eapply vl_follow; [right; exists s; split; [discriminate|reflexivity]|constructor|].

Lemma visits1 : visits_dirs true disk1 visit1.
Proof.
  assert (H : exists l, visits_dirs true disk1 l /\ l = visit1); [|destruct H as (l & H & <-); exact H]. eexists. split.
  - eapply vd_dir; [|apply vd_missing; constructor]. eapply v_dir; [nd|apply (sort_perm fst)|apply (sort_sorted fst)|].
    cbn. data_file "a". data_file "b".
    eapply vl_follow; [left; split; [reflexivity|eexists; reflexivity]| |].
    + eapply v_dir; [nd|apply (sort_perm fst)|apply (sort_sorted fst)|]. cbn. data_file "c". data_file "e". constructor.
    + data_file "e". data_file "junk". constructor.
  - reflexivity.
Qed.
Lemma visits2 : visits_dirs true disk2 visit2.
Proof.
  assert (H : exists l, visits_dirs true disk2 l /\ l = visit2); [|destruct H as (l & H & <-); exact H]. eexists. split.
  - eapply vd_dir; [|constructor]. eapply v_dir; [nd|apply (sort_perm fst)|apply (sort_sorted fst)|].
    cbn. data_file "a". data_file "b".
    eapply vl_follow; [left; split; [reflexivity|eexists; reflexivity]| |].
    + eapply v_dir; [nd|apply (sort_perm fst)|apply (sort_sorted fst)|]. cbn. data_file "c". constructor.
    + constructor.
  - reflexivity.
Qed.

Lemma wf1 : wf_dirs disk1.
Proof. intros p n [H|[H|[]]]; [|discriminate]. injection H as <- <-. repeat (constructor || (cbn; intuition discriminate)). Qed.
Lemma wf2 : wf_dirs disk2.
Proof. intros p n [H|[]]. injection H as <- <-. repeat (constructor || (cbn; intuition discriminate)). Qed.
Lemma top1 p n : In (p, Some n) disk1 -> exists es, n = NDir es.
Proof. intros [H|[H|[]]]; [|discriminate]. injection H as <- <-. eexists; reflexivity. Qed.
Lemma top2 p n : In (p, Some n) disk2 -> exists es, n = NDir es.
Proof. intros [H|[]]. injection H as <- <-. eexists; reflexivity. Qed.

Lemma sub_wf id doc : json_wf (JObj (sub id doc)).
Proof. constructor; [nd|]. repeat constructor. Qed.
Lemma src_wf p id doc : json_wf (JObj (src p (sub id doc))).
Proof. constructor; [nd|]. repeat constructor. Qed.

Ltac decide_on H := apply d_all_iff in H; cbn in H; repeat (destruct H as [H|H]; [discriminate|]); destruct H.

Lemma good1 : good_disk disk1 visit1.
Proof.
  split; [exact wf1|]. split; [exact top1|]. split; [apply nodup_consistent; cbn; nd|]. split; [cbn; nd|]. split.
  - intros p v H. cbn in H. repeat (destruct H as [H|H]; [try discriminate; injection H as <- <-; apply sub_wf|]). destruct H.
  - intros p c k H. cbn in H. repeat (destruct H as [H|H]; [injection H as <- <-; intro K; decide_on K|]). destruct H.
Qed.
Lemma good2 : good_disk disk2 visit2.
Proof.
  split; [exact wf2|]. split; [exact top2|]. split; [apply nodup_consistent; cbn; nd|]. split; [cbn; nd|]. split.
  - intros p v H. cbn in H. repeat (destruct H as [H|H]; [try discriminate; injection H as <- <-; apply sub_wf|]). destruct H.
  - intros p c k H. cbn in H. repeat (destruct H as [H|H]; [injection H as <- <-; intro K; decide_on K|]). destruct H.
Qed.
Lemma load1 : all_loadable ureg visit1.
Proof.
  intros p c H. cbn in H. repeat (destruct H as [H|H]; [injection H as <- <-; first [left; now left | right; repeat eexists; reflexivity]|]). destruct H.
Qed.
Lemma load2 : all_loadable ureg visit2.
Proof.
  intros p c H. cbn in H. repeat (destruct H as [H|H]; [injection H as <- <-; first [left; now left | right; repeat eexists; reflexivity]|]). destruct H.
Qed.
Lemma gmem1 : good_memory ureg mem1.
Proof.
  split; [split; [cbn; nd|]|].
  - intros id s H. apply dget_some_in in H. cbn in H. repeat (destruct H as [H|H]; [injection H as <- <-; repeat split; eexists; split; reflexivity|]). destruct H.
  - intros id s H. apply dget_some_in in H. cbn in H. repeat (destruct H as [H|H]; [injection H as <- <-; split; [first [apply src_wf|apply sub_wf]|discriminate]|]). destruct H.
Qed.
Lemma gmem2 : good_memory ureg mem2.
Proof.
  split; [split; [cbn; nd|]|].
  - intros id s H. apply dget_some_in in H. cbn in H. repeat (destruct H as [H|H]; [injection H as <- <-; repeat split; eexists; split; reflexivity|]). destruct H.
  - intros id s H. apply dget_some_in in H. cbn in H. repeat (destruct H as [H|H]; [injection H as <- <-; split; [first [apply src_wf|apply sub_wf]|discriminate]|]). destruct H.
Qed.
Lemma room1 : room_for_new disk1 visit1 "/d" mem1.
Proof.
  intros id s H N. apply dget_some_in in H. cbn in H.
  repeat (destruct H as [H|H]; [injection H as <- <-; first [exfalso; apply N; cbn; tauto |
    split; [now left|]; split; [discriminate|]; split; [cbn; repeat split; discriminate|]; intros k K; decide_on K]|]). destruct H.
Qed.
Lemma room2 : room_for_new disk2 visit2 "/d" mem2.
Proof.
  intros id s H N. apply dget_some_in in H. cbn in H.
  repeat (destruct H as [H|H]; [injection H as <- <-; first [exfalso; apply N; cbn; tauto |
    split; [now left|]; split; [discriminate|]; split; [cbn; repeat split; discriminate|]; intros k K; decide_on K]|]). destruct H.
Qed.
Lemma ctor_source : source_irrelevant ureg.
Proof.
  intros cl ctor d p H. cbn in H. destruct (String.eqb cl "ig"); [|discriminate]. injection H as <-. unfold ctor0. cbn [forallb].
  unfold dmem. rewrite !dget_dset_other by discriminate. auto.
Qed.

Ltac upd t := let v := eval vm_compute in t in match v with (?tr, ?d, _) => exists tr, d end.
Ltac chk t := let v := eval vm_compute in t in match v with (_, Ok ?r) => exists r end.
(* ---- findings ---- *)
(* stopped between opening and writing the file of an edited substance *)
Lemma torn_file : exists k, let tr := fst (fst (updatefiles all_ok no_int ucfg ureg false false "/d" [] mem2 disk2)) in
  dget "/d/b.hpd" (d_all (run_steps all_ok (firstn k tr) disk2)) = Some (NFile Unreadable) /\
  dget "ig.B" (fst (load ucfg ureg (run_steps all_ok (firstn k tr) disk2) [])) = None.
Proof. exists 3. vm_compute. split; reflexivity. Qed.

(* a copy of A's data under a new id, with the record of its source left in *)
Definition memcopy : collection :=
  [("ig.A", entry (src "/d/a.hpd" (sub "ig.A" "a"))); ("ig.Anew", entry (src "/d/a.hpd" (sub "ig.Anew" "a")));
   ("ig.B", entry (src "/d/b.hpd" (sub "ig.B" "b"))); ("ig.C", entry (src "/d/c/c.hpd" (sub "ig.C" "c")))].
Lemma copied_entry : exists tr d', good_memory ureg memcopy /\
  updatefiles all_ok no_int ucfg ureg false false "/d" [] memcopy disk2 = (tr, d', None) /\
  dget "ig.A" memcopy <> None /\ dget "ig.A" (fst (load ucfg ureg disk2 [])) <> None /\
  dget "ig.A" (fst (load ucfg ureg d' [])) = None.
Proof.
  upd (updatefiles all_ok no_int ucfg ureg false false "/d" [] memcopy disk2). split; [|vm_compute; repeat split; discriminate].
  split; [split; [cbn; nd|]|].
  - intros id s H. apply dget_some_in in H. cbn in H. repeat (destruct H as [H|H]; [injection H as <- <-; repeat split; eexists; split; reflexivity|]). destruct H.
  - intros id s H. apply dget_some_in in H. cbn in H. repeat (destruct H as [H|H]; [injection H as <- <-; split; [apply src_wf|discriminate]|]). destruct H.
Qed.

(* a new id whose file name is already taken by another substance *)
Definition disktaken : disk := [("/d", Some (NDir [("ig.D.hpd", body (sub "ig.A" "a"))]))].
Definition memtaken : collection :=
  [("ig.A", entry (src "/d/ig.D.hpd" (sub "ig.A" "a"))); ("ig.D", entry (sub "ig.D" "new"))].
Lemma taken_name : exists tr d',
  updatefiles all_ok no_int ucfg ureg false false "/d" [] memtaken disktaken = (tr, d', None) /\
  dget "ig.A" memtaken <> None /\ dget "ig.A" (fst (load ucfg ureg disktaken [])) <> None /\
  dget "ig.A" (fst (load ucfg ureg d' [])) = None.
Proof. upd (updatefiles all_ok no_int ucfg ureg false false "/d" [] memtaken disktaken). vm_compute; repeat split; discriminate. Qed.

(* a saved new substance is reported as changed *)
Lemma new_still_changed : exists tr d' r,
  updatefiles all_ok no_int ucfg ureg false false "/d" [] mem2 disk2 = (tr, d', None) /\
  load_check ucfg ureg d' mem2 = (mem2, Ok r) /\ changed r = ["ig.D"].
Proof.
  upd (updatefiles all_ok no_int ucfg ureg false false "/d" [] mem2 disk2).
  chk (load_check ucfg ureg (snd (fst (updatefiles all_ok no_int ucfg ureg false false "/d" [] mem2 disk2))) mem2). vm_compute. repeat split.
Qed.

(* asking about a file that cannot be read ends the update before anything is saved *)
Definition diskbad : disk := [("/d", Some (NDir [("junk.hpd", NFile Unreadable)]))].
Lemma verbose_fails : updatefiles all_ok no_int ucfg ureg true false "/d" ["i"; "i"; "i"] mem2 diskbad = ([], diskbad, Some ENameError).
Proof. vm_compute. reflexivity. Qed.
(* quietly, such a file is neither suppressed nor reported *)
Lemma bad_not_suppressed : exists r, updatefiles all_ok no_int ucfg ureg false false "/d" [] [] diskbad = ([], diskbad, None) /\
  load_check ucfg ureg diskbad [] = ([], Ok r) /\ bad r = ["/d/junk.hpd"].
Proof. chk (load_check ucfg ureg diskbad []). vm_compute. repeat split. Qed.

(* quiet repairs *)
Definition disktwice : disk := [("/d", Some (NDir [("a.hpd", body (sub "ig.A" "a1")); ("b.hpd", body (sub "ig.A" "a2"))]))].
Lemma quiet_delete : exists r, load_check ucfg ureg disktwice [] = ([], Ok r) /\ redundant r <> [] /\
  red_repair no_int false "d" 0 [] (redundant r) = ([], Some EUnboundLocal).
Proof. chk (load_check ucfg ureg disktwice []). vm_compute. repeat split; discriminate. Qed.
Lemma quiet_range : exists r tr, load_check ucfg ureg disktwice [] = ([], Ok r) /\
  red_repair no_int false "s" 2 [] (redundant r) = (tr, None) /\
  load ucfg ureg (run_steps all_ok tr disktwice) [] = ([], None) /\ dget "ig.A" (fst (load ucfg ureg disktwice [])) <> None.
Proof. chk (load_check ucfg ureg disktwice []). exists [Suppress "/d/a.hpd"; Suppress "/d/b.hpd"]. vm_compute. repeat split; discriminate. Qed.
Lemma upper_case_action : exists r, load_check ucfg ureg disktwice [] = ([], Ok r) /\ redundant r <> [] /\
  red_repair no_int false "S" 0 [] (redundant r) = ([], None).
Proof. chk (load_check ucfg ureg disktwice []). vm_compute. repeat split; discriminate. Qed.
(* a directory configured twice: the only file of a substance counts as redundant *)
Definition diskover : disk := let n := NDir [("a.hpd", body (sub "ig.A" "a"))] in [("/d", Some n); ("/d", Some n)].
Lemma listed_twice : exists r tr, load_check ucfg ureg diskover [] = ([], Ok r) /\
  red_repair no_int false "s" 0 [] (redundant r) = (tr, None) /\
  load ucfg ureg (run_steps all_ok tr diskover) [] = ([], None) /\ dget "ig.A" (fst (load ucfg ureg diskover [])) <> None.
Proof. chk (load_check ucfg ureg diskover []). exists [Suppress "/d/a.hpd"]. vm_compute. repeat split; discriminate. Qed.
(* an empty answer is taken as an action: the file to keep is asked for and nothing is done *)
Lemma empty_answer : exists r, load_check ucfg ureg disktwice [] = ([], Ok r) /\ redundant r <> [] /\
  red_repair no_int true "s" 0 [""; "1"] (redundant r) = ([], None).
Proof. chk (load_check ucfg ureg disktwice []). vm_compute. repeat split; discriminate. Qed.

(* ---- the examples together ---- *)
Lemma update_instance :
  (exist_fatal ucfg = false /\ visits_dirs (recursive ucfg) disk1 visit1 /\ all_loadable ureg visit1 /\
   good_disk disk1 visit1 /\ good_memory ureg mem1 /\ source_irrelevant ureg /\
   count_occ string_dec (searched_dirs (recursive ucfg) disk1) "/d" = 1 /\ room_for_new disk1 visit1 "/d" mem1) /\
  (visits_dirs (recursive ucfg) disk2 visit2 /\ all_loadable ureg visit2 /\ good_disk disk2 visit2 /\ good_memory ureg mem2 /\
   count_occ string_dec (searched_dirs (recursive ucfg) disk2) "/d" = 1 /\ room_for_new disk2 visit2 "/d" mem2 /\
   malformed_files visit2 = [] /\ NoDup (map fst (defs visit2))) /\
  snd (fst (updatefiles (fun _ => true) no_int ucfg ureg false false "/d" [] mem1 disk1)) =
    [("/d", Some (NDir [("a.hpd", body (sub "ig.A" "a")); ("b.hpd", body (src "/d/b.hpd" (sub "ig.B" "edited")));
        ("c", NDir [("e.hpd", body (src "/d/e.hpd" (sub "ig.E" "e1"))); ("c.hpd~", body (sub "ig.C" "c"))]);
        ("junk.hpd", NFile Unreadable); ("e.hpd~", body (sub "ig.E" "e1")); ("ig.D.hpd", body (sub "ig.D" "new"))]));
     ("/missing", None)].
Proof.
  split; [|split].
  - exact (conj eq_refl (conj visits1 (conj load1 (conj good1 (conj gmem1 (conj ctor_source (conj eq_refl room1))))))).
  - refine (conj visits2 (conj load2 (conj good2 (conj gmem2 (conj eq_refl (conj room2 (conj eq_refl _))))))). cbn; nd.
  - vm_compute. reflexivity.
Qed.
Lemma repair_instance :
  (exist_fatal ucfg = false /\ visits_dirs (recursive ucfg) disk1 visit1 /\ all_loadable ureg visit1 /\ NoDup (dkeys mem1) /\
   good_disk disk1 visit1) /\
  (exists r, snd (load_check ucfg ureg disk1 mem1) = Ok r /\ redundant r = [("ig.E", ["/d/c/e.hpd"; "/d/e.hpd"])] /\
     red_repair no_int false "s" 0 [] (redundant r) = ([Suppress "/d/e.hpd"], None) /\
     red_repair no_int true "i" 0 ["x"; "D"; "b"; "d"; "7"; "1"] (redundant r) = ([Unlink "/d/c/e.hpd"], None)).
Proof.
  split.
  - split; [reflexivity|]. split; [exact visits1|]. split; [exact load1|]. split; [cbn; nd|exact good1].
  - chk (load_check ucfg ureg disk1 mem1). vm_compute. repeat split.
Qed.

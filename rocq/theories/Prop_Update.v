(* Property theorems C83, C84: writing the collection back to the data files
   (src/pyromat/dat.py updatefiles) and repairing redundant files
   (src/pyromat/utility.py red_repair). *)
From Coq Require Import List String Bool ZArith.
From Verif Require Import Base Text Model_Dat Spec_Dat Proof_Dat Model_Update Spec_Update Proof_UpdateThm Proof_UpdateCrash Proof_UpdateEx.
Import ListNotations.
Local Open Scope string_scope.
Local Open Scope list_scope.

(* ---- C83: updatefiles ---- *)
(* Quietly and with every operation permitted, an update makes the files say what the
   collection in memory says: a load from them gives the same substances with the same data;
   every substance is then defined by one file; the files of substances that were not changed
   are as before; and a check finds nothing added, removed or redundant. *)
Theorem C83_update_then_load : forall int_of cfg reg del dest ins mem d l,
  exist_fatal cfg = false -> visits_dirs (recursive cfg) d l -> all_loadable reg l ->
  good_disk d l -> good_memory reg mem -> source_irrelevant reg ->
  count_occ string_dec (searched_dirs (recursive cfg) d) dest = 1 -> room_for_new d l dest mem ->
  exists tr d' l' data',
    updatefiles (fun _ => true) int_of cfg reg false del dest ins mem d = (tr, d', None) /\
    visits_dirs (recursive cfg) d' l' /\
    load cfg reg d' [] = (data', None) /\ same_entries mem data' /\
    (forall id, In id (dkeys mem) -> exists p, files_of id l' = [p]) /\
    (forall id p c dd s, In (File p c) l -> definition p c = Some (id, dd) -> hd_error (files_of id l) = Some p ->
       dget id mem = Some s -> data_eq (s_data s) dd = true -> In (File p c) l') /\
    (exists r, load_check cfg reg d' mem = (mem, Ok r) /\ added r = [] /\ removed r = [] /\ redundant r = [] /\
       forall id, In id (changed r) -> exists s p, dget id mem = Some s /\ files_of id l' = [p] /\
         dget "fromfile" (s_data s) <> Some (JStr p)).
Proof. exact update_all. Qed.
Print Assumptions C83_update_then_load.

(* If it is stopped after any number of operations, every file but at most one has its contents
   from before or those from after the complete update; the one exception is the file being
   written, which then cannot be read. *)
Theorem C83_interrupted : forall int_of cfg reg del dest ins mem d l,
  exist_fatal cfg = false -> visits_dirs (recursive cfg) d l -> all_loadable reg l ->
  good_disk d l -> good_memory reg mem ->
  count_occ string_dec (searched_dirs (recursive cfg) d) dest = 1 -> room_for_new d l dest mem ->
  malformed_files l = [] -> NoDup (map fst (defs l)) ->
  exists tr d' l', updatefiles (fun _ => true) int_of cfg reg false del dest ins mem d = (tr, d', None) /\
    visits_dirs (recursive cfg) d' l' /\
    forall k, exists lk p, visits_dirs (recursive cfg) (run_steps (fun _ => true) (firstn k tr) d) lk /\
      forall q, dget q (files lk) = dget q (files l) \/ dget q (files lk) = dget q (files l') \/
                (q = p /\ dget q (files lk) = Some Unreadable).
Proof. exact update_crash. Qed.
Print Assumptions C83_interrupted.

(* Whatever operations fail, whenever it is stopped, talking or not and with or without an
   exception: the file of a substance that is the same in memory stays, unless some substance that
   is only in memory names it as its source or has its file name. *)
Theorem C83_unchanged_files_survive : forall ok int_of cfg reg verbose del dest ins mem d l tr d' x,
  exist_fatal cfg = false -> visits_dirs (recursive cfg) d l -> all_loadable reg l ->
  wf_dirs d -> (forall p n, In (p, Some n) d -> exists es, n = NDir es) -> NoDup (map fst (files l)) -> NoDup (dkeys mem) ->
  malformed_files l = [] -> NoDup (map fst (defs l)) ->
  updatefiles ok int_of cfg reg verbose del dest ins mem d = (tr, d', x) ->
  d' = run_steps ok tr d /\
  forall p c id dd s, In (File p c) l -> definition p c = Some (id, dd) -> dget id mem = Some s -> data_eq (s_data s) dd = true ->
    (forall id' s', dget id' mem = Some s' -> ~ In id' (map fst (defs l)) ->
       dget "fromfile" (s_data s') <> Some (JStr p) /\
       forall name, dget "id" (s_data s') = Some (JStr name) -> p <> (dest ++ "/" ++ name ++ ".hpd")%string) ->
    forall k, exists lk, visits_dirs (recursive cfg) (run_steps ok (firstn k tr) d) lk /\ In (File p c) lk.
Proof. exact update_untouched. Qed.
Print Assumptions C83_unchanged_files_survive.

(* FINDING: a changed file is emptied before it is written; stopped in between, neither the old
   nor the new data can be loaded *)
Theorem C83_torn_write_refuted : exists k,
  let tr := fst (fst (updatefiles all_ok no_int ucfg ureg false false "/d" [] mem2 disk2)) in
  dget "/d/b.hpd" (d_all (run_steps all_ok (firstn k tr) disk2)) = Some (NFile Unreadable) /\
  dget "ig.B" (fst (load ucfg ureg (run_steps all_ok (firstn k tr) disk2) [])) = None.
Proof. exact torn_file. Qed.
Print Assumptions C83_torn_write_refuted.

(* FINDING: a substance made from a copy of another's data still names that one's file, and is
   saved over it: the original is lost *)
Theorem C83_copied_data_refuted : exists tr d', good_memory ureg memcopy /\
  updatefiles all_ok no_int ucfg ureg false false "/d" [] memcopy disk2 = (tr, d', None) /\
  dget "ig.A" memcopy <> None /\ dget "ig.A" (fst (load ucfg ureg disk2 [])) <> None /\
  dget "ig.A" (fst (load ucfg ureg d' [])) = None.
Proof. exact copied_entry. Qed.
Print Assumptions C83_copied_data_refuted.

(* FINDING: so is one whose file happens to be called like a new substance *)
Theorem C83_name_taken_refuted : exists tr d',
  updatefiles all_ok no_int ucfg ureg false false "/d" [] memtaken disktaken = (tr, d', None) /\
  dget "ig.A" memtaken <> None /\ dget "ig.A" (fst (load ucfg ureg disktaken [])) <> None /\
  dget "ig.A" (fst (load ucfg ureg d' [])) = None.
Proof. exact taken_name. Qed.
Print Assumptions C83_name_taken_refuted.

(* FINDING: a new substance is still reported as changed after it was saved *)
Theorem C83_saved_still_changed_refuted : exists tr d' r,
  updatefiles all_ok no_int ucfg ureg false false "/d" [] mem2 disk2 = (tr, d', None) /\
  load_check ucfg ureg d' mem2 = (mem2, Ok r) /\ changed r = ["ig.D"].
Proof. exact new_still_changed. Qed.
Print Assumptions C83_saved_still_changed_refuted.

(* FINDING: by default (verbose) one file that cannot be read stops the update with a NameError
   before anything is saved *)
Theorem C83_verbose_prompt_refuted :
  updatefiles all_ok no_int ucfg ureg true false "/d" ["i"; "i"; "i"] mem2 diskbad = ([], diskbad, Some ENameError).
Proof. exact verbose_fails. Qed.
Print Assumptions C83_verbose_prompt_refuted.

(* FINDING: a quiet update without deletefiles leaves files that cannot be read as they are,
   instead of suppressing them *)
Theorem C83_bad_files_kept_refuted : exists r,
  updatefiles all_ok no_int ucfg ureg false false "/d" [] [] diskbad = ([], diskbad, None) /\
  load_check ucfg ureg diskbad [] = ([], Ok r) /\ bad r = ["/d/junk.hpd"].
Proof. exact bad_not_suppressed. Qed.
Print Assumptions C83_bad_files_kept_refuted.

(* The hypotheses are met by a disk with an unchanged, an edited, a removed, a new and a doubly
   defined substance and an unreadable file; and, without the last two, those of the others. *)
Example C83_instance :
  (exist_fatal ucfg = false /\ visits_dirs (recursive ucfg) disk1 visit1 /\ all_loadable ureg visit1 /\
   good_disk disk1 visit1 /\ good_memory ureg mem1 /\ source_irrelevant ureg /\
   count_occ string_dec (searched_dirs (recursive ucfg) disk1) "/d" = 1 /\ room_for_new disk1 visit1 "/d" mem1) /\
  (visits_dirs (recursive ucfg) disk2 visit2 /\ all_loadable ureg visit2 /\ good_disk disk2 visit2 /\ good_memory ureg mem2 /\
   count_occ string_dec (searched_dirs (recursive ucfg) disk2) "/d" = 1 /\ room_for_new disk2 visit2 "/d" mem2 /\
   malformed_files visit2 = [] /\ NoDup (map fst (defs visit2))) /\
  snd (fst (updatefiles (fun _ => true) no_int ucfg ureg false false "/d" [] mem1 disk1)) =
    [("/d", Some (NDir [("a.hpd", body (sub "ig.A" "a")); ("b.hpd", body (src "/d/b.hpd" (sub "ig.B" "edited")));
        ("c", NDir [("e.hpd", body (src "/d/e.hpd" (sub "ig.E" "e1"))); ("c.hpd~", body (sub "ig.C" "c"))]);
        ("junk.hpd", NFile Unreadable); ("e.hpd~", body (sub "ig.E" "e1")); ("ig.D.hpd", body (sub "ig.D" "new"))]));
     ("/missing", None)].
Proof. exact update_instance. Qed.

(* ---- C84: red_repair ---- *)
(* Quietly, as updatefiles uses it: each substance keeps its first file and no other, and files that
   define nothing stay. *)
Theorem C84_quiet_keeps_first : forall int_of cfg reg ins mem d l r,
  exist_fatal cfg = false -> visits_dirs (recursive cfg) d l -> all_loadable reg l -> NoDup (dkeys mem) ->
  good_disk d l -> snd (load_check cfg reg d mem) = Ok r ->
  exists tr l', red_repair int_of false "s" 0 ins (redundant r) = (tr, None) /\
    visits_dirs (recursive cfg) (run_steps (fun _ => true) tr d) l' /\
    (forall id, files_of id l' = match files_of id l with [] => [] | p :: _ => [p] end) /\
    (forall p c, In (File p c) l' <-> In (File p c) l /\ (definition p c = None \/ exists id, hd_error (files_of id l) = Some p)).
Proof. exact repair_quiet_all. Qed.
Print Assumptions C84_quiet_keeps_first.

(* Quietly with any index, whatever operations fail: the file with that index, and files of
   substances with only one, stay. *)
Theorem C84_quiet_selected_survives : forall ok int_of cfg reg k ins mem d l r tr x,
  exist_fatal cfg = false -> visits_dirs (recursive cfg) d l -> all_loadable reg l -> NoDup (dkeys mem) ->
  wf_dirs d -> (forall p n, In (p, Some n) d -> exists es, n = NDir es) -> NoDup (map fst (files l)) ->
  snd (load_check cfg reg d mem) = Ok r ->
  red_repair int_of false "s" (Z.of_nat k) ins (redundant r) = (tr, x) ->
  forall id p c, In (File p c) l -> (nth_error (files_of id l) k = Some p \/ files_of id l = [p]) ->
    exists lk, visits_dirs (recursive cfg) (run_steps ok tr d) lk /\ In (File p c) lk.
Proof. exact repair_quiet_keeps. Qed.
Print Assumptions C84_quiet_selected_survives.

(* Interactively: whatever is typed, whatever operations fail and whether or not it ends in an
   exception, every substance still has one of its files, unchanged, and nothing happens to the
   files of substances that have only one or to files that define nothing. *)
Theorem C84_interactive_keeps_one : forall ok int_of cfg reg action sel ins mem d l r tr x,
  exist_fatal cfg = false -> visits_dirs (recursive cfg) d l -> all_loadable reg l -> NoDup (dkeys mem) ->
  wf_dirs d -> (forall p n, In (p, Some n) d -> exists es, n = NDir es) -> NoDup (map fst (files l)) ->
  snd (load_check cfg reg d mem) = Ok r ->
  red_repair int_of true action sel ins (redundant r) = (tr, x) ->
  (forall id, In id (map fst (defs l)) -> exists p c dd lk, In (File p c) l /\ definition p c = Some (id, dd) /\
     visits_dirs (recursive cfg) (run_steps ok tr d) lk /\ In (File p c) lk) /\
  (forall p c, In (File p c) l -> (forall id, In p (files_of id l) -> files_of id l = [p]) ->
     exists lk, visits_dirs (recursive cfg) (run_steps ok tr d) lk /\ In (File p c) lk).
Proof. exact repair_talk_keeps. Qed.
Print Assumptions C84_interactive_keeps_one.

(* FINDING: quietly, action 'd' fails *)
Theorem C84_quiet_delete_refuted : exists r, load_check ucfg ureg disktwice [] = ([], Ok r) /\ redundant r <> [] /\
  red_repair no_int false "d" 0 [] (redundant r) = ([], Some EUnboundLocal).
Proof. exact quiet_delete. Qed.
Print Assumptions C84_quiet_delete_refuted.

(* FINDING: quietly, an index out of range suppresses every file of the substance *)
Theorem C84_quiet_index_refuted : exists r tr, load_check ucfg ureg disktwice [] = ([], Ok r) /\
  red_repair no_int false "s" 2 [] (redundant r) = (tr, None) /\
  load ucfg ureg (run_steps all_ok tr disktwice) [] = ([], None) /\ dget "ig.A" (fst (load ucfg ureg disktwice [])) <> None.
Proof. exact quiet_range. Qed.
Print Assumptions C84_quiet_index_refuted.

(* FINDING: an upper-case action is silently ignored *)
Theorem C84_upper_case_refuted : exists r, load_check ucfg ureg disktwice [] = ([], Ok r) /\ redundant r <> [] /\
  red_repair no_int false "S" 0 [] (redundant r) = ([], None).
Proof. exact upper_case_action. Qed.
Print Assumptions C84_upper_case_refuted.

(* FINDING: with a directory configured twice, the only file of a substance is suppressed *)
Theorem C84_overlapping_directories_refuted : exists r tr, load_check ucfg ureg diskover [] = ([], Ok r) /\
  red_repair no_int false "s" 0 [] (redundant r) = (tr, None) /\
  load ucfg ureg (run_steps all_ok tr diskover) [] = ([], None) /\ dget "ig.A" (fst (load ucfg ureg diskover [])) <> None.
Proof. exact listed_twice. Qed.
Print Assumptions C84_overlapping_directories_refuted.

(* FINDING: an empty answer is taken as an action: the file to keep is asked for, and then
   nothing is done *)
Theorem C84_empty_answer_refuted : exists r, load_check ucfg ureg disktwice [] = ([], Ok r) /\ redundant r <> [] /\
  red_repair no_int true "s" 0 [""; "1"] (redundant r) = ([], None).
Proof. exact empty_answer. Qed.
Print Assumptions C84_empty_answer_refuted.

Example C84_instance :
  (exist_fatal ucfg = false /\ visits_dirs (recursive ucfg) disk1 visit1 /\ all_loadable ureg visit1 /\ NoDup (dkeys mem1) /\
   good_disk disk1 visit1) /\
  (exists r, snd (load_check ucfg ureg disk1 mem1) = Ok r /\ redundant r = [("ig.E", ["/d/c/e.hpd"; "/d/e.hpd"])] /\
     red_repair no_int false "s" 0 [] (redundant r) = ([Suppress "/d/e.hpd"], None) /\
     red_repair no_int true "i" 0 ["x"; "D"; "b"; "d"; "7"; "1"] (redundant r) = ([Unlink "/d/c/e.hpd"], None)).
Proof. exact repair_instance. Qed.

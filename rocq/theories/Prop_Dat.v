(* Property theorems C17-C20: the data collection (src/pyromat/dat.py, __init__.py get). *)
From Coq Require Import List String Bool QArith Sorted Permutation.
From Verif Require Import Base Text Model_Dat Spec_Dat Proof_Dat.
Import ListNotations.
Local Open Scope string_scope.
Local Open Scope list_scope.

(* ---- C17 : precedence.  l is the list of files in the order in which they count. ---- *)
Theorem C17_overwrite_last_wins : forall cfg reg ds l data data',
  overwrite cfg = true -> exist_fatal cfg = false -> visits_dirs (recursive cfg) ds l ->
  load cfg reg ds data = (data', None) ->
  forall id, dat_of data' id = match last_def id l with Some d => Some d | None => dat_of data id end.
Proof. exact load_overwrite. Qed.
Print Assumptions C17_overwrite_last_wins.

Theorem C17_ignore_first_wins : forall cfg reg ds l data data',
  overwrite cfg = false -> exist_fatal cfg = false -> visits_dirs (recursive cfg) ds l ->
  load cfg reg ds data = (data', None) ->
  forall id, dat_of data' id = match dat_of data id with Some d => Some d | None => first_def id l end.
Proof. exact load_ignore. Qed.
Print Assumptions C17_ignore_first_wins.

Theorem C17_fatal_iff_redundant : forall cfg reg ds l data,
  exist_fatal cfg = true -> visits_dirs (recursive cfg) ds l -> all_loadable reg l ->
  (snd (load cfg reg ds data) = None <->
   NoDup (map fst (defs l)) /\ (forall id, In id (map fst (defs l)) -> ~ In id (dkeys data))) /\
  (snd (load cfg reg ds data) <> None -> snd (load cfg reg ds data) = Some PMDataError).
Proof. exact load_fatal. Qed.
Print Assumptions C17_fatal_iff_redundant.

(* the visit order exists for every tree, and a load without fatal mode succeeds when every
   file is either malformed or loadable *)
Theorem C17_order_exists : forall rec ds, wf_dirs ds -> exists l, visits_dirs rec ds l.
Proof. exact visits_dirs_exist. Qed.
Print Assumptions C17_order_exists.

Theorem C17_load_succeeds : forall cfg reg ds l data,
  exist_fatal cfg = false -> visits_dirs (recursive cfg) ds l -> all_loadable reg l ->
  snd (load cfg reg ds data) = None.
Proof. exact load_succeeds. Qed.
Print Assumptions C17_load_succeeds.

Definition js (id cl doc : string) : content :=
  Parsed (JObj [("id", JStr id); ("class", JStr cl); ("doc", JStr doc)]).
Definition reg0 : registry := [("ig", base_ctor [])].
Definition tree0 : node :=
  NDir [("b.hpd", NFile (js "ig.X" "ig" "second")); ("notes.txt", NFile (js "ig.Z" "ig" "no"));
        ("a", NDir [("x.hpd", NFile (js "ig.X" "ig" "first")); ("bad.hpd", NFile Unreadable);
                    ("y.hpd~", NFile (js "ig.Y" "ig" "suppressed"))])].
Definition cfg0 : datcfg := {| exist_fatal := false; overwrite := true; recursive := true |}.
Definition cfg1 : datcfg := {| exist_fatal := false; overwrite := false; recursive := true |}.
Definition cfg2 : datcfg := {| exist_fatal := true; overwrite := true; recursive := true |}.

Example C17_instance :
  (exists l, visits_dirs true [("/d", Some tree0)] l /\ defs l <> []) /\
  (exists s, load cfg0 reg0 [("/d", Some tree0)] [] = ([("ig.X", s)], None) /\
             dget "doc" (s_data s) = Some (JStr "second")) /\
  (exists s, load cfg1 reg0 [("/d", Some tree0)] [] = ([("ig.X", s)], None) /\
             dget "doc" (s_data s) = Some (JStr "first")) /\
  snd (load cfg2 reg0 [("/d", Some tree0)] []) = Some PMDataError.
Proof.
  split.
  - eexists. split.
    + eapply vd_dir; [|constructor]. eapply v_dir.
      * repeat constructor; cbn; intuition discriminate.
      * apply (sort_perm fst).
      * apply (sort_sorted fst).
      * cbn. eapply vl_follow; [left; split; [reflexivity|eexists; reflexivity]| |].
        -- eapply v_dir; [repeat constructor; cbn; intuition discriminate|apply (sort_perm fst)|apply (sort_sorted fst)|].
           cbn. eapply vl_follow; [right; exists "bad"; split; [discriminate|reflexivity]|constructor|].
           eapply vl_follow; [right; exists "x"; split; [discriminate|reflexivity]|constructor|].
           eapply vl_suppressed; [intro H; apply followed_iff in H; discriminate|exists "y"; split; [discriminate|reflexivity]|].
           constructor.
        -- eapply vl_follow; [right; exists "b"; split; [discriminate|reflexivity]|constructor|].
           eapply vl_skip; [intro H; apply followed_iff in H; discriminate|intro H; apply suppressed_name_iff in H; discriminate|].
           constructor.
    + cbn. discriminate.
  - repeat split; try (eexists; split; reflexivity).
Qed.

(* ---- C18 ---- *)
(* only files named <something>.hpd get into the collection *)
Theorem C18_only_hpd_files : forall cfg reg ds l data,
  visits_dirs (recursive cfg) ds l ->
  (forall p n, In (p, Some n) ds -> exists es, n = NDir es) ->
  forall id s, dget id (fst (load cfg reg ds data)) = Some s ->
  dget id data = Some s \/
  exists d name, dget "fromfile" (s_data s) = Some (JStr (join d name)) /\ data_name name.
Proof. exact loaded_only_hpd. Qed.
Print Assumptions C18_only_hpd_files.

(* adding or removing malformed and suppressed files anywhere changes nothing *)
Theorem C18_malformed_files_ignored : forall cfg reg ds1 ds2 l1 l2 data,
  visits_dirs (recursive cfg) ds1 l1 -> visits_dirs (recursive cfg) ds2 l2 ->
  same_but_malformed l1 l2 -> load cfg reg ds1 data = load cfg reg ds2 data.
Proof. exact load_ignores_malformed. Qed.
Print Assumptions C18_malformed_files_ignored.

(* FINDING: a file that names an unregistered class (or lacks an entry its class requires)
   stops the load: files after it are not loaded *)
Theorem C18_one_bad_file_stops_load_refuted : exists ds l data',
  visits_dirs true ds l /\ last_def "ig.B" l <> None /\
  load cfg0 reg0 ds [] = (data', Some PMDataError) /\ dget "ig.B" data' = None.
Proof. exact bad_class_stops_load. Qed.
Print Assumptions C18_one_bad_file_stops_load_refuted.

(* FINDING: so does a JSON list or string that mentions "id", "doc" and "class" *)
Theorem C18_json_list_stops_load_refuted : exists ds l data',
  visits_dirs true ds l /\ last_def "ig.B" l <> None /\
  load cfg0 reg0 ds [] = (data', Some ETypeError) /\ dget "ig.B" data' = None.
Proof. exact json_list_stops_load. Qed.
Print Assumptions C18_json_list_stops_load_refuted.

Example C18_instance :
  same_but_malformed [File "/d/a.hpd" Unreadable; File "/d/b.hpd" (js "ig.B" "ig" "")]
                     [File "/d/b.hpd" (js "ig.B" "ig" ""); Suppressed "/d/c.hpd~"].
Proof. apply sb_left; [now left|]. apply sb_same. apply sb_sright. constructor. Qed.

(* ---- C19 ---- *)
Theorem C19_check_does_not_modify : forall cfg reg ds data,
  wf_dirs ds -> fst (load_check cfg reg ds data) = data.
Proof. exact check_preserves. Qed.
Print Assumptions C19_check_does_not_modify.

(* The report, for trees with or without redundant files (with redundant files `changed`
   compares with the first of them). *)
Theorem C19_report_exact : forall cfg reg ds l data,
  exist_fatal cfg = false -> NoDup (dkeys data) ->
  visits_dirs (recursive cfg) ds l -> all_loadable reg l ->
  exists r, load_check cfg reg ds data = (data, Ok r) /\
    (forall id, In id (changed r) <->
       exists d s, first_def id l = Some d /\ dget id data = Some s /\ data_eq (s_data s) d = false) /\
    (forall id, In id (added r) <-> In id (dkeys data) /\ ~ In id (map fst (defs l))) /\
    (forall id, In id (removed r) <-> In id (map fst (defs l)) /\ ~ In id (dkeys data)) /\
    (forall id, dget id (redundant r) =
       match files_of id l with [] => None | [_] => None | ps => Some ps end) /\
    bad r = malformed_files l /\ suppressed r = suppressed_files l.
Proof. exact check_exact. Qed.
Print Assumptions C19_report_exact.

(* loading a tree without redundant files and checking it reports no difference *)
Theorem C19_load_then_check_clean : forall cfg reg ds l data,
  exist_fatal cfg = false ->
  visits_dirs (recursive cfg) ds l -> all_loadable reg l -> NoDup (map fst (defs l)) ->
  (forall id d, In (id, d) (defs l) -> json_wf (JObj d)) ->
  load cfg reg ds [] = (data, None) ->
  exists r, load_check cfg reg ds data = (data, Ok r) /\
            changed r = [] /\ added r = [] /\ removed r = [] /\ redundant r = [].
Proof. exact load_then_check. Qed.
Print Assumptions C19_load_then_check_clean.

(* Python equality of data dictionaries, the meaning of "differs": insensitive to key order *)
Theorem C19_equality_reflexive : forall d, json_wf (JObj d) -> data_eq d d = true.
Proof. exact data_eq_refl. Qed.
Print Assumptions C19_equality_reflexive.

Example C19_instance :
  let data := fst (load cfg0 reg0 [("/d", Some tree0)] []) in
  let data2 := dset "ig.N" {| s_class := "ig"; s_data := [] |} data in
  match snd (load_check cfg0 reg0 [("/d", Some tree0)] data2) with
  | Ok r => added r = ["ig.N"] /\ changed r = ["ig.X"] /\ removed r = [] /\
            redundant r = [("ig.X", ["/d/a/x.hpd"; "/d/b.hpd"])] /\
            bad r = ["/d/a/bad.hpd"] /\ suppressed r = ["/d/a/y.hpd~"]
  | Err _ => False
  end.
Proof. vm_compute. repeat split. Qed.

(* ---- C20 ---- *)
Theorem C20_keyed_after_any_history : forall reg ops,
  Forall op_wf ops -> keyed reg (dat_run reg [] ops).
Proof. exact history_keyed. Qed.
Print Assumptions C20_keyed_after_any_history.

Theorem C20_get_returns_own_id : forall reg ops id s,
  Forall op_wf ops -> get (dat_run reg [] ops) id = Ok s ->
  dget "id" (s_data s) = Some (JStr id) /\ dmem (s_class s) reg = true.
Proof. exact get_own_id. Qed.
Print Assumptions C20_get_returns_own_id.

Theorem C20_get_fails_otherwise : forall data id,
  ~ In id (dkeys data) -> get data id = Err PMParamError.
Proof. exact get_fails. Qed.
Print Assumptions C20_get_fails_otherwise.

Theorem C20_get_finds_stored : forall reg ops id,
  In id (dkeys (dat_run reg [] ops)) -> exists s, get (dat_run reg [] ops) id = Ok s.
Proof. exact get_finds. Qed.
Print Assumptions C20_get_finds_stored.

Example C20_instance :
  dkeys (dat_run reg0 [] [DLoad cfg0 [("/d", Some tree0)];
                          DNew [("id", JStr "ig.N"); ("class", JStr "ig"); ("doc", JStr ""); ("fromfile", JStr "")];
                          DNew [("id", JStr "ig.M"); ("class", JStr "ig")]])
  = ["ig.X"; "ig.N"] /\
  Forall op_wf [DLoad cfg0 [("/d", Some tree0)]; DClear].
Proof.
  split; [reflexivity|]. constructor; [|constructor; [exact I|constructor]].
  intros p n [E|[]]. injection E as <- <-. constructor.
  - repeat constructor; cbn; intuition discriminate.
  - repeat constructor; cbn; intuition discriminate.
Qed.

(* Property theorems C21-C27 and C59: registry, catalogue queries, file utilities. *)
From Coq Require Import ZArith QArith Ascii Sorted Permutation.
From Verif Require Import Base Text Model_Reg Model_Catalog Model_Files Spec_Dat Spec_Catalog
  Proof_Reg Proof_Catalog Proof_Hill Proof_Files.
Local Open Scope list_scope.
Local Open Scope string_scope.

(* ---- C21 ---- *)
Theorem C21_overwrite_last_wins : forall (C : Type) cfg (ds : list (option (list (string * namespace C)))) l prev,
  reg_exist_fatal cfg = false -> reg_overwrite cfg = true -> all_defs ds l ->
  snd (regload cfg ds prev) = None /\ forall k, dget k (fst (regload cfg ds prev)) = last_of k l.
Proof. exact @regload_overwrite. Qed.
Print Assumptions C21_overwrite_last_wins.

Theorem C21_ignore_first_wins : forall (C : Type) cfg (ds : list (option (list (string * namespace C)))) l prev,
  reg_exist_fatal cfg = false -> reg_overwrite cfg = false -> all_defs ds l ->
  snd (regload cfg ds prev) = None /\ forall k, dget k (fst (regload cfg ds prev)) = first_of k l.
Proof. exact @regload_ignore. Qed.
Print Assumptions C21_ignore_first_wins.

Theorem C21_fatal_iff_redundant : forall (C : Type) cfg (ds : list (option (list (string * namespace C)))) l prev,
  reg_exist_fatal cfg = true -> all_defs ds l ->
  (snd (regload cfg ds prev) = None <-> NoDup (map fst l)) /\
  (snd (regload cfg ds prev) <> None -> snd (regload cfg ds prev) = Some PMFileError) /\
  (snd (regload cfg ds prev) = None -> forall k, dget k (fst (regload cfg ds prev)) = first_of k l).
Proof. exact @regload_fatal. Qed.
Print Assumptions C21_fatal_iff_redundant.

(* every list of existing directories has such a list of definitions *)
Theorem C21_definitions_exist : forall (C : Type) (ds : list (option (list (string * namespace C)))),
  Forall (fun d => d <> None) ds -> exists l, all_defs ds l.
Proof. exact @all_defs_exist. Qed.
Print Assumptions C21_definitions_exist.

(* nothing of the previous registry survives *)
Theorem C21_rebuilt_from_scratch : forall (C : Type) cfg (ds : list (option (list (string * namespace C)))) p1 p2,
  regload cfg ds p1 = regload cfg ds p2.
Proof. exact @regload_fresh. Qed.
Print Assumptions C21_rebuilt_from_scratch.

(* a missing directory stops the load; the classes found before it stay registered *)
Theorem C21_missing_directory : forall (C : Type) cfg (ds1 ds2 : list (option (list (string * namespace C)))) l prev,
  reg_exist_fatal cfg = false -> all_defs ds1 l ->
  snd (regload cfg (ds1 ++ None :: ds2)%list prev) = Some EException /\
  fst (regload cfg (ds1 ++ None :: ds2)%list prev) = fst (regload cfg ds1 prev).
Proof. exact @regload_missing. Qed.
Print Assumptions C21_missing_directory.

Example C21_instance :
  let ds := [Some [("ig.py", [("pm", OtherObj); ("ig", DataClass 1%nat)]); ("__init__.py", [("x", DataClass 9%nat)])];
             Some [("mine.py", [("ig", DataClass 2%nat); ("ig9", DataClass 3%nat)])]] in
  all_defs ds [("ig", 1%nat); ("ig", 2%nat); ("ig9", 3%nat)] /\
  regload {| reg_exist_fatal := false; reg_overwrite := true |} ds [] = ([("ig", 2%nat); ("ig9", 3%nat)], None) /\
  regload {| reg_exist_fatal := false; reg_overwrite := false |} ds [] = ([("ig", 1%nat); ("ig9", 3%nat)], None) /\
  snd (regload {| reg_exist_fatal := true; reg_overwrite := true |} ds []) = Some PMFileError.
Proof.
  cbn zeta. split; [|repeat split].
  apply (ad_dir _ [("ig", 1%nat)] _ [("ig", 2%nat); ("ig9", 3%nat)]).
  - apply (dd_file "ig.py" [("pm", OtherObj); ("ig", DataClass 1%nat)] _ []).
    + exists "i"%char, "g". repeat split; discriminate.
    + apply dd_skip; [|constructor]. intros (c & r & H & H1 & _). injection H as <- _. now apply H1.
  - apply (ad_dir _ [("ig", 2%nat); ("ig9", 3%nat)] _ []); [|constructor].
    apply (dd_file "mine.py" [("ig", DataClass 2%nat); ("ig9", DataClass 3%nat)] _ []); [|constructor].
    exists "m"%char, "ine". repeat split; discriminate.
Qed.

(* ---- C22 ---- *)
Theorem C22_search_exact : forall c ms out, distinct_refs ms -> search c ms = Ok out ->
  NoDup out /\ forall o, In o out <-> In o ms /\ meets c o.
Proof. exact search_exact. Qed.
Print Assumptions C22_search_exact.

(* a search fails only for a mixture whose atoms() fails, when contents are asked for *)
Theorem C22_search_succeeds : forall c ms,
  (exists out, search c ms = Ok out) <->
  (forall o, In o ms -> meets_simple c o -> c_contains c <> None -> ob_atoms o <> None).
Proof. exact search_succeeds. Qed.
Print Assumptions C22_search_succeeds.

Theorem C22_refining : forall c1 c2 ms o1 o2, distinct_refs ms ->
  search c1 ms = Ok o1 -> search c2 o1 = Ok o2 ->
  forall o, In o o2 <-> In o ms /\ meets c1 o /\ meets c2 o.
Proof. exact search_refine. Qed.
Print Assumptions C22_refining.

Theorem C22_refining_is_one_search : forall c1 c2 ms o1 o2 o3, distinct_refs ms -> no_overlap c1 c2 ->
  search c1 ms = Ok o1 -> search c2 o1 = Ok o2 -> search (together c1 c2) ms = Ok o3 ->
  forall o, In o o2 <-> In o o3.
Proof. exact search_refine_together. Qed.
Print Assumptions C22_refining_is_one_search.

Theorem C22_order_irrelevant : forall c ms ms' out out', distinct_refs ms -> Permutation ms ms' ->
  search c ms = Ok out -> search c ms' = Ok out' -> Permutation out out'.
Proof. exact search_order. Qed.
Print Assumptions C22_order_irrelevant.

Theorem C22_no_criteria_returns_all : forall ms, distinct_refs ms ->
  exists out, search no_criteria ms = Ok out /\ forall o, In o out <-> In o ms.
Proof. exact search_no_criteria. Qed.
Print Assumptions C22_no_criteria_returns_all.

Definition water : obj :=
  {| ob_ref := 1; ob_id := "ig.H2O"; ob_class := "ig2"; ob_cas := Some "7732-18-5"; ob_inchi := None;
     ob_names := Some ["Water"; "Steam"]; ob_atoms := Some [("H", Some 2%Q); ("O", Some 1%Q)] |}.
Definition hydrogen : obj :=
  {| ob_ref := 2; ob_id := "ig.H2"; ob_class := "ig2"; ob_cas := None; ob_inchi := None;
     ob_names := None; ob_atoms := Some [("H", Some 2%Q)] |}.
Definition want : criteria :=
  {| c_name := Some "steam"; c_contains := Some (Amounts [("H", Some 2%Q); ("O", None)]); c_collection := Some "ig";
     c_pmclass := None; c_cas := None; c_inchi := None |}.
Example C22_instance :
  distinct_refs [water; hydrogen; water] /\ search want [water; hydrogen; water] = Ok [water] /\
  ~ meets want hydrogen.
Proof.
  split; [|split].
  - intros x y [<-|[<-|[<-|[]]]] [<-|[<-|[<-|[]]]] H; try reflexivity; discriminate.
  - reflexivity.
  - intros [(H & _) _]. destruct (H "steam" eq_refl) as [(a & b & E)|(ns & n & E & _)]; [|discriminate].
    cbn in E. destruct a as [|c1 [|c2 [|c3 [|c4 [|c5 [|c6 a]]]]]]; cbn in E; discriminate.
Qed.

(* ---- C23 ---- *)
(* every member of the collection is found *)
Theorem C23_collection_complete_partial : forall c ms out o, distinct_refs ms -> c <> "" ->
  search (only_collection c) ms = Ok out -> In o ms -> collection_of (ob_id o) = c -> In o out.
Proof. exact search_collection_complete. Qed.
Print Assumptions C23_collection_complete_partial.

(* with the period the criterion selects exactly the collection *)
Theorem C23_collection_with_period_exact : forall c ms out, distinct_refs ms -> c <> "" -> no_char "." c ->
  search (only_collection (c ++ ".")) ms = Ok out ->
  forall o, In o out <-> In o ms /\ collection_of (ob_id o) = c.
Proof. exact search_collection_dot. Qed.
Print Assumptions C23_collection_with_period_exact.

(* collection() is the part of the id before its first period *)
Theorem C23_collection_of_id : forall id c, c <> "" -> (collection_of id = c <-> in_collection id c).
Proof. exact collection_iff. Qed.
Print Assumptions C23_collection_of_id.

(* FINDING: without the period, members of other collections are selected too *)
Theorem C23_collection_prefix_refuted : exists ms out o, distinct_refs ms /\
  search (only_collection "i") ms = Ok out /\ In o out /\ collection_of (ob_id o) <> "i".
Proof. exact search_collection_wrong. Qed.
Print Assumptions C23_collection_prefix_refuted.

Example C23_instance : search (only_collection "ig.") [water; hydrogen] = Ok [water; hydrogen] /\
  collection_of "ig.H2O" = "ig" /\ collection_of "H2O" = "".
Proof. repeat split. Qed.

(* ---- C24 ---- *)
Theorem C24_hill_order_and_quantities : forall aa rest,
  NoDup (dkeys aa) -> dkeys aa <> ["e"] -> (Z.abs (electrons aa) <= 1)%Z -> others aa rest ->
  hill (Some aa) "" = Ok (spell (entry_of "C" aa) ++ spell (entry_of "H" aa) ++ spell rest ++ sign (electrons aa)).
Proof. exact (fun aa rest => hill_meets aa rest). Qed.
Print Assumptions C24_hill_order_and_quantities.

(* the alphabetical list of the other elements exists and is unique *)
Theorem C24_others_exist : forall aa, NoDup (dkeys aa) ->
  exists rest, others aa rest /\ forall r2, others aa r2 -> r2 = rest.
Proof. exact others_exist. Qed.
Print Assumptions C24_others_exist.

Theorem C24_entry_order_irrelevant : forall a b id, NoDup (dkeys a) -> Permutation a b ->
  hill (Some a) id = hill (Some b) id.
Proof. exact (fun a b _ => hill_order a b). Qed.
Print Assumptions C24_entry_order_irrelevant.

(* the formula determines the composition *)
Theorem C24_hill_determines_composition : forall a b id, formula a -> formula b ->
  hill (Some a) id = hill (Some b) id -> Permutation a b.
Proof. exact (fun a b _ => hill_injective a b). Qed.
Print Assumptions C24_hill_determines_composition.

Theorem C24_electron : forall aa id, dkeys aa = ["e"] -> hill (Some aa) id = Ok "e-".
Proof. exact (fun aa _ => hill_lone aa). Qed.
Print Assumptions C24_electron.

(* substances without atoms: the formula is taken from the id *)
Theorem C24_from_id : forall coll name tl,
  no_char "." coll -> no_char "." name -> no_char "_" name -> no_char "." tl ->
  hill None (coll ++ "." ++ name ++ "_" ++ tl) = Ok name /\ hill None (coll ++ "." ++ name) = Ok name.
Proof. exact hill_by_id. Qed.
Print Assumptions C24_from_id.

(* FINDING: every substance with two or more elementary charges makes hill() fail *)
Theorem C24_multiple_charge_fails_refuted : forall aa id,
  NoDup (dkeys aa) -> dkeys aa <> ["e"] -> (1 < Z.abs (electrons aa))%Z -> hill (Some aa) id = Err ENameError.
Proof. exact (fun aa _ => hill_fails aa). Qed.
Print Assumptions C24_multiple_charge_fails_refuted.

(* FINDING: an id without a period and no atoms also makes it fail *)
Theorem C24_id_without_period_fails_refuted : forall id, no_char "." id -> hill None id = Err EIndexError.
Proof. exact hill_no_period. Qed.
Print Assumptions C24_id_without_period_fails_refuted.

Example C24_instance :
  hill (Some [("O", 2%Z); ("e", (-1)%Z); ("H", 12%Z); ("Ar", 1%Z); ("C", 1%Z)]) "ig.x" = Ok "CH12ArO2+" /\
  formula [("O", 2%Z); ("e", (-1)%Z)] /\
  others [("O", 2%Z); ("C", 1%Z); ("Ar", 1%Z)] [("Ar", 1%Z); ("O", 2%Z)].
Proof.
  split; [reflexivity|split].
  - split; [repeat constructor; cbn; intuition discriminate|]. split; [|split].
    + intros a n [E|[E|[]]] H; injection E as <- <-; [|congruence]. cbn. unfold upper_letter. cbn. repeat split; auto with arith.
      all: repeat constructor.
    + intros n [E|[E|[]]]; [discriminate|injection E as <-; auto].
    + exists "O", 2%Z. split; [now left|discriminate].
  - split.
    + intros a n. cbn. split.
      * intros [E|[E|[]]]; injection E as <- <-; repeat split; auto; discriminate.
      * intros [[E|[E|[E|[]]]] (H1 & H2 & H3)]; injection E as <- <-; auto.
    + constructor; [constructor; [constructor|constructor]|]. constructor; [reflexivity|constructor].
Qed.

(* ---- C25 ---- *)
Theorem C25_info_keeps_its_argument_partial : forall c,
  List.length (items c) <> 1%nat -> fst (info c) = c.
Proof. exact info_keeps. Qed.
Print Assumptions C25_info_keeps_its_argument_partial.

(* FINDING: a list or set with one member is emptied *)
Theorem C25_single_member_removed_refuted : forall o,
  fst (info (CList [o])) = CList [] /\ fst (info (CSet [o])) = CSet [].
Proof. exact info_single_list. Qed.
Print Assumptions C25_single_member_removed_refuted.

Example C25_instance : fst (info (CSet [water; hydrogen])) = CSet [water; hydrogen].
Proof. reflexivity. Qed.

(* ---- C59 ---- *)
Theorem C59_info_lists_everything_in_order : forall c rows, snd (info c) = Ok (Table rows) ->
  Permutation (items c) rows /\ Sorted (fun a b => String.leb (ob_id a) (ob_id b) = true) rows.
Proof. exact info_table. Qed.
Print Assumptions C59_info_lists_everything_in_order.

Theorem C59_info_reports_nothing_only_when_empty : forall c, snd (info c) = Ok Nothing <-> items c = [].
Proof. exact info_nothing. Qed.
Print Assumptions C59_info_reports_nothing_only_when_empty.

Example C59_instance : snd (info (CSet [water; hydrogen])) = Ok (Table [hydrogen; water]).
Proof. reflexivity. Qed.

(* ---- C26 ---- *)
Theorem C26_suppress_then_revive_partial : forall (T : Type) ok path (fs : fsys T) c, data_name path ->
  ok path (path ++ "~") = true -> ok (path ++ "~") path = true ->
  fs path = Some (EFile c) -> fs (path ++ "~") = None ->
  exists fs1 fs2, suppress_file ok path fs = (fs1, None) /\ fs1 path = None /\
    revive_file ok (path ++ "~") fs1 = (fs2, None) /\ forall p, fs2 p = fs p.
Proof. exact @suppress_revive. Qed.
Print Assumptions C26_suppress_then_revive_partial.

Theorem C26_revive_then_suppress_partial : forall (T : Type) ok path (fs : fsys T) c, data_name path ->
  ok path (path ++ "~") = true -> ok (path ++ "~") path = true ->
  fs (path ++ "~") = Some (EFile c) -> fs path = None ->
  exists fs1 fs2, revive_file ok (path ++ "~") fs = (fs1, None) /\ fs1 path = Some (EFile c) /\
    suppress_file ok path fs1 = (fs2, None) /\ forall p, fs2 p = fs p.
Proof. exact @revive_suppress. Qed.
Print Assumptions C26_revive_then_suppress_partial.

(* whatever was there before, only the two names are touched *)
Theorem C26_suppress_touches_two_names : forall (T : Type) ok path (fs : fsys T) c, data_name path ->
  ok path (path ++ "~") = true -> fs path = Some (EFile c) -> fs (path ++ "~") <> Some EDir ->
  exists fs', suppress_file ok path fs = (fs', None) /\
    fs' path = None /\ fs' (path ++ "~") = Some (EFile c) /\
    forall p, p <> path -> p <> path ++ "~" -> fs' p = fs p.
Proof. exact @suppress_ok. Qed.
Print Assumptions C26_suppress_touches_two_names.

Theorem C26_failure_changes_nothing : forall (T : Type) ok path (fs : fsys T) x,
  (snd (suppress_file ok path fs) = Some x -> x = PMFileError /\ fst (suppress_file ok path fs) = fs) /\
  (snd (revive_file ok path fs) = Some x -> x = PMFileError /\ fst (revive_file ok path fs) = fs).
Proof. exact (fun T ok path fs x => conj (@suppress_fail T ok path fs x) (@revive_fail T ok path fs x)). Qed.
Print Assumptions C26_failure_changes_nothing.

(* a call that reports no error found the file and moved it *)
Theorem C26_no_error_means_moved : forall (T : Type) ok path (fs fs' : fsys T),
  (suppress_file ok path fs = (fs', None) ->
   exists c, fs path = Some (EFile c) /\ fs' path = None /\ fs' (path ++ "~") = Some (EFile c)) /\
  (revive_file ok (path ++ "~") fs = (fs', None) ->
   exists c, fs (path ++ "~") = Some (EFile c) /\ fs' (path ++ "~") = None /\ fs' path = Some (EFile c)).
Proof. exact (fun T ok path fs fs' => conj (@suppress_success T ok path fs fs') (@revive_success T ok path fs fs')). Qed.
Print Assumptions C26_no_error_means_moved.

Theorem C26_other_names_refused : forall (T : Type) ok path (fs : fsys T),
  (~ data_name path -> suppress_file ok path fs = (fs, Some PMFileError)) /\
  (~ suppressed_name path -> revive_file ok path fs = (fs, Some PMFileError)).
Proof. exact (fun T ok path fs => conj (@suppress_refuses T ok path fs) (@revive_refuses T ok path fs)). Qed.
Print Assumptions C26_other_names_refused.

(* the new name is one that loading passes over and check mode lists as suppressed (C18, C19) *)
Theorem C26_suppressed_name_not_loaded : forall path, data_name path ->
  ~ data_name (path ++ "~") /\ suppressed_name (path ++ "~").
Proof. exact (fun path H => conj (suppressed_not_data path) (suppressed_of_data path H)). Qed.
Print Assumptions C26_suppressed_name_not_loaded.

(* FINDING: an older suppressed copy is destroyed *)
Theorem C26_older_copy_destroyed_refuted : forall (T : Type) ok path (fs : fsys T) c old, data_name path ->
  ok path (path ++ "~") = true -> ok (path ++ "~") path = true ->
  fs path = Some (EFile c) -> fs (path ++ "~") = Some (EFile old) ->
  exists fs1 fs2, suppress_file ok path fs = (fs1, None) /\ revive_file ok (path ++ "~") fs1 = (fs2, None) /\
    fs2 (path ++ "~") = None.
Proof. exact @suppress_destroys. Qed.
Print Assumptions C26_older_copy_destroyed_refuted.

Example C26_instance :
  let fs : fsys nat := fun p => if String.eqb p "/d/a.hpd" then Some (EFile 7%nat) else None in
  data_name "/d/a.hpd" /\ fs "/d/a.hpd" = Some (EFile 7%nat) /\ fs "/d/a.hpd~" = None /\
  snd (suppress_file (fun _ _ => true) "/d/a.hpd" fs) = None.
Proof. cbn zeta. split; [exists "/d/a"; split; [discriminate|reflexivity]|repeat split]. Qed.

(* ---- C27 ---- *)
Theorem C27_words_kept_in_order : forall text lead tail width out ws,
  all_chars blank lead -> all_chars blank tail ->
  Words text ws ->
  (forall w, In w ws -> (String.length w + String.length lead + String.length tail <= width)%nat) ->
  split_lines text lead tail width = Some out -> Words out ws.
Proof. exact wrap_words. Qed.
Print Assumptions C27_words_kept_in_order.

(* words that do not fit are cut, but no character is lost *)
Theorem C27_characters_kept : forall text lead tail width out ws ws',
  all_chars blank lead -> all_chars blank tail -> Words text ws -> Words out ws' ->
  split_lines text lead tail width = Some out -> cat ws' = cat ws.
Proof. exact wrap_characters. Qed.
Print Assumptions C27_characters_kept.

Theorem C27_lines_fit : forall text lead tail width out ws,
  no_char (ascii_of_nat 10) lead -> no_char (ascii_of_nat 10) tail -> Words text ws ->
  (forall w, In w ws -> (String.length w + String.length lead + String.length tail <= width)%nat) ->
  split_lines text lead tail width = Some out -> lines_fit width 0 out.
Proof. exact wrap_lines. Qed.
Print Assumptions C27_lines_fit.

(* without a lead the lines fit for every text *)
Theorem C27_lines_fit_without_lead : forall text tail width out,
  no_char (ascii_of_nat 10) tail -> split_lines text "" tail width = Some out -> lines_fit width 0 out.
Proof. exact wrap_fits_any. Qed.
Print Assumptions C27_lines_fit_without_lead.

Theorem C27_refuses_exactly_when_no_room : forall text lead tail width,
  split_lines text lead tail width = None <-> (width <= String.length lead + String.length tail)%nat.
Proof. exact wrap_refuses. Qed.
Print Assumptions C27_refuses_exactly_when_no_room.

Example C27_instance :
  split_lines "one two three" "" "" 7 = Some (String.concat newline ["one two"; "three"; ""]) /\
  Words "one two" ["one"; "two"].
Proof.
  split; [vm_compute; reflexivity|]. apply Words_iff. reflexivity.
Qed.

(* ---- C60 : the lead ---- *)
(* FINDING: a word longer than the line gets the lead twice, and the line is too long *)
Theorem C60_long_word_overflows_refuted : exists text lead out,
  split_lines text lead "" 10 = Some out /\ ~ lines_fit 10 0 out.
Proof. exact wrap_overflow. Qed.
Print Assumptions C60_long_word_overflows_refuted.

(* FINDING: the first line of every paragraph but the first has no lead *)
Theorem C60_paragraph_without_lead_refuted : 
  split_lines (String.concat newline ["a"; ""; "b"]) "> " "" 10 = Some (String.concat newline ["> a"; "b"; ""]).
Proof. exact wrap_no_lead. Qed.
Print Assumptions C60_paragraph_without_lead_refuted.

(* a single paragraph whose words fit has the lead on every line *)
Theorem C60_every_line_has_lead_partial : forall text lead width out ws,
  no_char (ascii_of_nat 10) lead -> no_break text -> Words text ws ->
  (forall w, In w ws -> (String.length w + String.length lead <= width)%nat) ->
  split_lines text lead "" width = Some out ->
  exists ls, out = cat (map (fun l => lead ++ l ++ String (ascii_of_nat 10) "") ls) /\
             Forall (no_char (ascii_of_nat 10)) ls.
Proof. exact wrap_leads. Qed.
Print Assumptions C60_every_line_has_lead_partial.

Example C60_instance :
  split_lines "one two three" "> " "" 9 = Some (cat (map (fun l => "> " ++ l ++ newline) ["one two"; "three"])).
Proof. vm_compute. reflexivity. Qed.

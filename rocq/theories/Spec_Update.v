(* Independent specification vocabulary for the repair of the data files, C83 and C84. *)
From Coq Require Import List String Bool QArith Ascii.
From Verif Require Import Base Text Model_Dat Spec_Dat.   (* Model_Dat for the types node, content, json *)
From Verif Require Import Model_Update.                  (* for the type step *)
Import ListNotations.
Local Open Scope string_scope.
Local Open Scope list_scope.

(* the files a load reads, with what is in them *)
Definition files (l : list item) : list (string * content) :=
  flat_map (fun i => match i with File p c => [(p, c)] | Suppressed _ => [] end) l.

(* the directories whose listing a load reads *)
Fixpoint directories (rec : bool) (path : string) (n : node) : list string :=
  match n with
  | NDir es => path :: flat_map (fun e => let '(name, m) := e in
                 if rec || (Nat.ltb 4 (String.length name) && ends_with ".hpd" name)
                 then directories rec (path ++ "/" ++ name)%string m else []) es
  | _ => []
  end.
Definition searched_dirs (rec : bool) (ds : list (string * option node)) : list string :=
  flat_map (fun e => let '(p, n) := e in match n with Some n => directories rec p n | None => [] end) ds.

(* what exists in the configured directories, and where *)
Inductive node_at : string -> node -> string -> node -> Prop :=
| at_here p n : node_at p n p n
| at_entry p es name m t k : In (name, m) es -> node_at (p ++ "/" ++ name)%string m t k -> node_at p (NDir es) t k.
Definition on_disk (ds : list (string * option node)) (t : string) (k : node) : Prop :=
  exists p n, In (p, Some n) ds /\ node_at p n t k.
(* a path means one thing, however it is reached *)
Definition consistent (ds : list (string * option node)) : Prop :=
  forall t k k', on_disk ds t k -> on_disk ds t k' -> k = k'.

(* the same entries, apart from the record of the file they were read from *)
Definition same_but_source (a b : jdict) : Prop :=
  forall k, k <> "fromfile" ->
    match dget k a, dget k b with
    | Some u, Some v => jeq u v = true
    | None, None => True
    | _, _ => False
    end.
Definition same_entries (a b : collection) : Prop :=
  forall id, match dat_of a id, dat_of b id with
             | Some x, Some y => same_but_source x y
             | None, None => True
             | _, _ => False
             end.

(* a name without a separator *)
Fixpoint no_slash (s : string) : Prop :=
  match s with "" => True | String c s' => c <> "/"%char /\ no_slash s' end.

(* no record of the file the data come from *)
Definition no_source (d : jdict) : Prop :=
  dget "fromfile" d = None \/ dget "fromfile" d = Some JNull \/ dget "fromfile" d = Some (JStr "").

(* constructors take no notice of which file is recorded *)
Definition source_irrelevant (reg : registry) : Prop :=
  forall cl ctor d p, dget cl reg = Some ctor -> ctor d = None -> ctor (dset "fromfile" (JStr p) d) = None.

(* the collection in memory: substances stored under their own ids by constructors that
   accepted them, with distinct keys and a documentation string *)
Definition good_memory (reg : registry) (m : collection) : Prop :=
  keyed reg m /\ forall id s, dget id m = Some s -> json_wf (JObj (s_data s)) /\ dget "doc" (s_data s) <> None.

(* the disk: entry names are distinct, the configured paths are directories, paths are
   unambiguous, no data file is reached twice, parsed files have distinct keys, and no directory has the name a suppressed data
   file would get *)
Definition good_disk (d : list (string * option node)) (l : list item) : Prop :=
  wf_dirs d /\ (forall p n, In (p, Some n) d -> exists es, n = NDir es) /\ consistent d /\
  NoDup (map fst (files l)) /\ (forall p v, In (File p (Parsed v)) l -> json_wf v) /\
  (forall p c k, In (File p c) l -> on_disk d (p ++ "~") k -> exists c', k = NFile c').

(* an id that is only in memory can be saved as dest/<id>.hpd *)
Definition room_for_new (d : list (string * option node)) (l : list item) (dest : string) (m : collection) : Prop :=
  forall id s, dget id m = Some s -> ~ In id (map fst (defs l)) ->
    no_source (s_data s) /\ id <> "" /\ no_slash id /\ forall k, ~ on_disk d (dest ++ "/" ++ id ++ ".hpd") k.

(* the paths an operation concerns *)
Definition touches (s : step) : list string :=
  match s with
  | Truncate p | Fill p _ | Unlink p => [p]
  | Suppress p => [p; (p ++ "~")%string]
  end.

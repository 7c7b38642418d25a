(* Independent specification vocabulary for the data collection, C17-C20. *)
From Coq Require Import List String Sorted Permutation.
From Verif Require Import Base Text Model_Dat.   (* Model_Dat for the types node, content, json *)
Import ListNotations.
Local Open Scope string_scope.
Local Open Scope list_scope.

(* a file name of the form  something.hpd  /  something.hpd~ *)
Definition data_name (name : string) : Prop := exists a, a <> "" /\ name = (a ++ ".hpd")%string.
Definition suppressed_name (name : string) : Prop := exists a, a <> "" /\ name = (a ++ ".hpd~")%string.

(* what a load comes across, in order *)
Inductive item :=
| File (path : string) (c : content)
| Suppressed (path : string).

(* is the directory entry descended into / read? *)
Definition followed (rec : bool) (name : string) (n : node) : Prop :=
  (rec = true /\ exists es, n = NDir es) \/ data_name name.

(* The order in which the files of a tree count: each directory's entries in sorted name
   order, sub-directories at their sorted place.  Entry names are distinct. *)
Inductive visits (rec : bool) : string -> node -> list item -> Prop :=
| v_file p c : visits rec p (NFile c) [File p c]
| v_other p : visits rec p NOther []
| v_dir p entries sorted l :
    NoDup (map fst entries) ->
    Permutation entries sorted ->
    Sorted (fun a b => String.leb (fst a) (fst b) = true) sorted ->
    visits_list rec p sorted l ->
    visits rec p (NDir entries) l
with visits_list (rec : bool) : string -> list (string * node) -> list item -> Prop :=
| vl_nil p : visits_list rec p [] []
| vl_follow p name n es l1 l2 :
    followed rec name n ->
    visits rec (p ++ "/" ++ name)%string n l1 -> visits_list rec p es l2 ->
    visits_list rec p ((name, n) :: es) (l1 ++ l2)
| vl_suppressed p name n es l :
    ~ followed rec name n -> suppressed_name name -> visits_list rec p es l ->
    visits_list rec p ((name, n) :: es) (Suppressed (p ++ "/" ++ name)%string :: l)
| vl_skip p name n es l :
    ~ followed rec name n -> ~ suppressed_name name -> visits_list rec p es l ->
    visits_list rec p ((name, n) :: es) l.

(* the configured directories, in order; missing ones contribute nothing *)
Inductive visits_dirs (rec : bool) : list (string * option node) -> list item -> Prop :=
| vd_nil : visits_dirs rec [] []
| vd_missing p ds l : visits_dirs rec ds l -> visits_dirs rec ((p, None) :: ds) l
| vd_dir p n ds l1 l2 : visits rec p n l1 -> visits_dirs rec ds l2 ->
    visits_dirs rec ((p, Some n) :: ds) (l1 ++ l2).

(* the substance a well-formed file defines: (id, data with its source recorded) *)
Definition definition (p : string) (c : content) : option (string * jdict) :=
  match c with
  | Parsed (JObj d) =>
      if dmem "id" d && dmem "doc" d && dmem "class" d
      then match dget "id" d with
           | Some (JStr id) => Some (id, dset "fromfile" (JStr p) d)
           | _ => None
           end
      else None
  | _ => None
  end.

Definition defs (l : list item) : list (string * jdict) :=
  flat_map (fun i => match i with
                     | File p c => match definition p c with Some x => [x] | None => [] end
                     | Suppressed _ => []
                     end) l.

(* a file that cannot be opened or parsed, or whose dictionary lacks id, doc or class *)
Definition malformed (c : content) : Prop :=
  c = Unreadable \/
  exists d, c = Parsed (JObj d) /\ (dget "id" d = None \/ dget "doc" d = None \/ dget "class" d = None).

(* every file of the list either is malformed or defines a substance whose class is
   registered and accepts it *)
Definition all_loadable (reg : registry) (l : list item) : Prop :=
  forall p c, In (File p c) l ->
    malformed c \/
    exists id d cl ctor, definition p c = Some (id, d) /\ dget "class" d = Some (JStr cl) /\
      dget cl reg = Some ctor /\ ctor d = None.

(* last / first definition of an id *)
Definition last_def (id : string) (l : list item) : option jdict := dget id (rev (defs l)).
Definition first_def (id : string) (l : list item) : option jdict := dget id (defs l).

(* the files defining an id, those that define nothing, and the suppressed ones, in order *)
Definition files_of (id : string) (l : list item) : list string :=
  flat_map (fun i => match i with
                     | File p c => match definition p c with
                                   | Some (id', _) => if String.eqb id id' then [p] else []
                                   | None => []
                                   end
                     | Suppressed _ => []
                     end) l.
Definition malformed_files (l : list item) : list string :=
  flat_map (fun i => match i with
                     | File p c => match definition p c with Some _ => [] | None => [p] end
                     | Suppressed _ => []
                     end) l.
Definition suppressed_files (l : list item) : list string :=
  flat_map (fun i => match i with File _ _ => [] | Suppressed p => [p] end) l.

(* the data stored under an id *)
Definition dat_of (data : collection) (id : string) : option jdict := option_map s_data (dget id data).

(* trees with distinct names in each directory *)
Inductive wf_node : node -> Prop :=
| wf_file c : wf_node (NFile c)
| wf_other : wf_node NOther
| wf_dir es : NoDup (map fst es) -> wf_list es -> wf_node (NDir es)
with wf_list : list (string * node) -> Prop :=
| wl_nil : wf_list []
| wl_cons name n es : wf_node n -> wf_list es -> wf_list ((name, n) :: es).

Definition wf_dirs (ds : list (string * option node)) : Prop :=
  forall p n, In (p, Some n) ds -> wf_node n.

(* two visit lists that differ only in malformed and suppressed files *)
Inductive same_but_malformed : list item -> list item -> Prop :=
| sb_nil : same_but_malformed [] []
| sb_same i l1 l2 : same_but_malformed l1 l2 -> same_but_malformed (i :: l1) (i :: l2)
| sb_left p c l1 l2 : malformed c -> same_but_malformed l1 l2 -> same_but_malformed (File p c :: l1) l2
| sb_right p c l1 l2 : malformed c -> same_but_malformed l1 l2 -> same_but_malformed l1 (File p c :: l2)
| sb_sleft p l1 l2 : same_but_malformed l1 l2 -> same_but_malformed (Suppressed p :: l1) l2
| sb_sright p l1 l2 : same_but_malformed l1 l2 -> same_but_malformed l1 (Suppressed p :: l2).

(* every substance is stored under its own id, its class is registered and accepted it *)
Definition keyed (reg : registry) (data : collection) : Prop :=
  NoDup (dkeys data) /\
  forall id s, dget id data = Some s ->
    dget "id" (s_data s) = Some (JStr id) /\ dget "class" (s_data s) = Some (JStr (s_class s)) /\
    exists ctor, dget (s_class s) reg = Some ctor /\ ctor (s_data s) = None.

(* a JSON value as json.load returns it: object keys are distinct *)
Inductive json_wf : json -> Prop :=
| jw_null : json_wf JNull
| jw_bool b : json_wf (JBool b)
| jw_num q : json_wf (JNum q)
| jw_str s : json_wf (JStr s)
| jw_list l : jlist_wf l -> json_wf (JList l)
| jw_obj d : NoDup (dkeys d) -> jlist_wf (map snd d) -> json_wf (JObj d)
with jlist_wf : list json -> Prop :=
| jl_nil : jlist_wf []
| jl_cons v l : json_wf v -> jlist_wf l -> jlist_wf (v :: l).

Definition op_wf (o : dat_op) : Prop :=
  match o with DLoad _ ds | DCheck _ ds => wf_dirs ds | _ => True end.


(* Model of the data collection: src/pyromat/dat.py 37-356 (load, clear, new), the file
   reader src/pyromat/utility.py 513-557 (load_file) and src/pyromat/__init__.py 71-82 (get). *)
From Coq Require Import ZArith QArith Ascii.
From Verif Require Export Base Text.
Local Open Scope string_scope.
Local Open Scope list_scope.

(* Result of json.load.  JSON floats are rationals (nan/inf are not modelled). *)
Inductive json :=
| JNull
| JBool (b : bool)
| JNum (q : Q)
| JStr (s : string)
| JList (l : list json)
| JObj (d : list (string * json)).
Definition jdict := list (string * json).

(* Python == on such values: numbers and booleans compare by value, dictionaries
   regardless of order. *)
Definition bool_num (b : bool) : Q := if b then 1%Q else 0%Q.
Fixpoint jeq (a b : json) {struct a} : bool :=
  match a, b with
  | JNull, JNull => true
  | JBool x, JBool y => Bool.eqb x y
  | JNum x, JNum y => Qeq_bool x y
  | JBool x, JNum y => Qeq_bool (bool_num x) y
  | JNum x, JBool y => Qeq_bool x (bool_num y)
  | JStr x, JStr y => String.eqb x y
  | JList x, JList y =>
      (fix go (x y : list json) : bool :=
         match x, y with
         | [], [] => true
         | u :: x', v :: y' => jeq u v && go x' y'
         | _, _ => false
         end) x y
  | JObj x, JObj y =>
      Nat.eqb (List.length x) (List.length y) &&
      (fix go (x : list (string * json)) : bool :=
         match x with
         | [] => true
         | (k, u) :: x' => match dget k y with Some v => jeq u v | None => false end && go x'
         end) x
  | _, _ => false
  end.
Definition data_eq (a b : jdict) : bool := jeq (JObj a) (JObj b).

(* A file's text, as far as load_file can tell: not readable or not JSON, or some JSON value *)
Inductive content := Unreadable | Parsed (v : json).

(* A directory tree.  NOther: exists but is neither file nor directory, or a dangling link. *)
Inductive node :=
| NFile (c : content)
| NDir (entries : list (string * node))
| NOther.

(* `mh in readin` (utility.py 547) for a JSON value; None when it raises TypeError *)
Definition json_in (k : string) (v : json) : option bool :=
  match v with
  | JObj d => Some (dmem k d)
  | JList l => Some (existsb (fun x => match x with JStr s => String.eqb k s | _ => false end) l)
  | JStr s => Some (contains k s)
  | _ => None
  end.

(* utility.py 513-557; any exception here is caught by the caller, dat.py 156-166 *)
Definition load_file (c : content) : res json :=
  match c with
  | Unreadable => Err PMFileError
  | Parsed v =>
      match json_in "id" v, json_in "doc" v, json_in "class" v with
      | Some true, Some true, Some true => Ok v
      | None, _, _ | _, None, _ | _, _, None => Err ETypeError
      | _, _, _ => Err PMFileError
      end
  end.

(* A loaded substance: reg.py 87-94.  s_data is the data dictionary. *)
Record subst := { s_class : string; s_data : jdict }.
Definition collection := list (string * subst).

(* The registry: for each class name, what its constructor does with the data dictionary
   (None: it succeeds; Some x: it raises x).  Constructors are taken to store the
   dictionary unchanged (reg.py 92). *)
Definition registry := list (string * (jdict -> option exn)).

(* reg.py 101-132, the constructor check of __basedata__ with a class's mandatory list *)
Definition base_ctor (mandatory : list string) : jdict -> option exn :=
  fun d => if forallb (fun k => dmem k d) (["id"; "class"; "doc"; "fromfile"] ++ mandatory)
           then None else Some PMDataError.

(* the configuration entries load() reads (dat.py 97-101) *)
Record datcfg := { exist_fatal : bool; overwrite : bool; recursive : bool }.

(* the dictionary returned by load(check=True) (dat.py 110) *)
Record report := {
  changed : list string; added : list string; removed : list string;
  redundant : list (string * list string); suppressed : list string; bad : list string;
  rdata : collection
}.

(* load's state: pm.dat.data and, in check mode, the report being built *)
Record dstate := { mem : collection; chk : option report }.

(* list.remove (first occurrence) *)
Fixpoint remove_first (x : string) (l : list string) : list string :=
  match l with
  | [] => []
  | y :: l' => if String.eqb x y then l' else y :: remove_first x l'
  end.

(* temp['id'] and temp['class'] after temp['fromfile'] = datasource (dat.py 169-172).
   Only a dict supports the assignment.  SIMPLIFICATION: ids that are JSON numbers,
   booleans or null (hashable, so legal dictionary keys in the code) are treated like
   unhashable ones. *)
Definition with_source (v : json) (path : string) : res jdict :=
  match v with
  | JObj d => Ok (dset "fromfile" (JStr path) d)
  | _ => Err ETypeError
  end.
Definition str_field (k : string) (d : jdict) : res string :=
  match dget k d with
  | Some (JStr s) => Ok s
  | Some _ => Err ETypeError
  | None => Err EKeyError
  end.

(* dat.py 216-223: find the class and construct the substance.  A class that is not a
   string is not a key of the registry (lists and dicts are unhashable). *)
Definition construct (reg : registry) (d : jdict) : res subst :=
  match dget "class" d with
  | Some (JStr cl) =>
      match dget cl reg with
      | Some ctor => match ctor d with None => Ok {| s_class := cl; s_data := d |} | Some x => Err x end
      | None => Err PMDataError
      end
  | Some (JList _) | Some (JObj _) => Err ETypeError
  | Some _ => Err PMDataError
  | None => Err EKeyError
  end.

Definition file_of (s : subst) : string :=
  match dget "fromfile" (s_data s) with Some (JStr p) => p | _ => "" end.

(* loadto (dat.py 113, 122) and storing into it (dat.py 223) *)
Definition loadto (st : dstate) : collection :=
  match chk st with Some r => rdata r | None => mem st end.
Definition store (st : dstate) (id : string) (s : subst) : dstate :=
  match chk st with
  | Some r => {| mem := mem st; chk := Some {| changed := changed r; added := added r; removed := removed r;
                  redundant := redundant r; suppressed := suppressed r; bad := bad r; rdata := dset id s (rdata r) |} |}
  | None => {| mem := dset id s (mem st); chk := None |}
  end.

(* dat.py 178-187: note a redundant file *)
Definition note_redundant (st : dstate) (id path : string) : dstate :=
  match chk st with
  | None => st
  | Some r =>
      let l := match dget id (redundant r) with
               | Some l => l ++ [path]
               | None => [match dget id (rdata r) with Some s => file_of s | None => "" end; path]
               end in
      {| mem := mem st; chk := Some {| changed := changed r; added := added r; removed := removed r;
           redundant := dset id l (redundant r); suppressed := suppressed r; bad := bad r; rdata := rdata r |} |}
  end.

(* dat.py 204-215: the checks made for the first file with an id *)
Definition note_first (st : dstate) (id : string) (d : jdict) : dstate :=
  match chk st with
  | None => st
  | Some r =>
      {| mem := mem st; chk := Some {|
           changed := match dget id (mem st) with
                      | Some s => if data_eq (s_data s) d then changed r else changed r ++ [id]
                      | None => changed r
                      end;
           added := remove_first id (added r);
           removed := if dmem id (mem st) then removed r else removed r ++ [id];
           redundant := redundant r; suppressed := suppressed r; bad := bad r; rdata := rdata r |} |}
  end.

Definition note_bad (st : dstate) (path : string) : dstate :=
  match chk st with
  | None => st
  | Some r => {| mem := mem st; chk := Some {| changed := changed r; added := added r; removed := removed r;
                   redundant := redundant r; suppressed := suppressed r; bad := bad r ++ [path]; rdata := rdata r |} |}
  end.

Definition note_suppressed (st : dstate) (path : string) : dstate :=
  match chk st with
  | None => st
  | Some r => {| mem := mem st; chk := Some {| changed := changed r; added := added r; removed := removed r;
                   redundant := redundant r; suppressed := suppressed r ++ [path]; bad := bad r; rdata := rdata r |} |}
  end.

(* dat.py 146-223: a data source that is a file *)
Definition load_one_file (cfg : datcfg) (reg : registry) (path : string) (c : content) (st : dstate)
  : dstate * option exn :=
  match load_file c with
  | Err _ => (note_bad st path, None)
  | Ok v =>
      match with_source v path with
      | Err x => (st, Some x)
      | Ok d =>
          match str_field "id" d with
          | Err x => (st, Some x)
          | Ok id =>
              let finish st := match construct reg d with
                               | Ok s => (store st id s, None)
                               | Err x => (st, Some x)
                               end in
              if dmem id (loadto st) then
                let st := note_redundant st id path in
                if exist_fatal cfg then (st, Some PMDataError)
                else if negb (overwrite cfg) then (st, None)
                else finish st
              else finish (note_first st id d)
          end
      end
  end.

Definition is_dir (n : node) : bool := match n with NDir _ => true | _ => false end.

(* os.path.join *)
Definition join (dir name : string) : string := (dir ++ "/" ++ name)%string.

(* dat.py 127-227: load(datasource).  The directory listing is sorted by name
   (dat.py 136).  SIMPLIFICATION: names inside a tree contain no '$' and do not start with
   '~', so that expanding the joined path again (dat.py 129-132) changes nothing. *)
Fixpoint load_node (cfg : datcfg) (reg : registry) (path : string) (n : node) (st : dstate)
  {struct n} : dstate * option exn :=
  match n with
  | NFile c => load_one_file cfg reg path c st
  | NOther => (st, None)
  | NDir entries =>
      let jobs := (fix prep (es : list (string * node)) : list (string * (dstate -> dstate * option exn)) :=
        match es with
        | [] => []
        | (name, m) :: es' =>
            (name, if (recursive cfg && is_dir m)
                        || (Nat.ltb 4 (String.length name) && ends_with ".hpd" name)
                   then load_node cfg reg (join path name) m
                   else if Nat.ltb 5 (String.length name) && ends_with ".hpd~" name
                   then fun st => (note_suppressed st (join path name), None)
                   else fun st => (st, None)) :: prep es'
        end) entries in
      (fix run (js : list (string * (dstate -> dstate * option exn))) (st : dstate) : dstate * option exn :=
         match js with
         | [] => (st, None)
         | (_, f) :: js' => match f st with
                            | (st', None) => run js' st'
                            | (st', Some x) => (st', Some x)
                            end
         end) (sort fst jobs) st
  end.

(* dat.py 228-233: load() over the configured directories, given with what each path
   (already expanded) refers to; None: no such file or directory.  An empty string in
   dat_dir would recurse for ever and is not modelled. *)
Fixpoint load_dirs (cfg : datcfg) (reg : registry) (dirs : list (string * option node)) (st : dstate)
  : dstate * option exn :=
  match dirs with
  | [] => (st, None)
  | (path, n) :: dirs' =>
      match match n with Some n => load_node cfg reg path n st | None => (st, None) end with
      | (st', None) => load_dirs cfg reg dirs' st'
      | (st', Some x) => (st', Some x)
      end
  end.

(* load() with check false *)
Definition load (cfg : datcfg) (reg : registry) (dirs : list (string * option node)) (data : collection)
  : collection * option exn :=
  let (st, x) := load_dirs cfg reg dirs {| mem := data; chk := None |} in (mem st, x).

(* load(check=True): dat.py 108-120, 236-276 *)
Definition new_report (data : collection) : report :=
  {| changed := []; added := dkeys data; removed := []; redundant := []; suppressed := []; bad := [];
     rdata := [] |}.
Definition load_check (cfg : datcfg) (reg : registry) (dirs : list (string * option node)) (data : collection)
  : collection * res report :=
  let (st, x) := load_dirs cfg reg dirs {| mem := data; chk := Some (new_report data) |} in
  (mem st, match x, chk st with
           | None, Some r => Ok r
           | Some x, _ => Err x
           | None, None => Err EException
           end).

(* dat.py 314-316 *)
Definition clear (_ : collection) : collection := [].

(* dat.py 327-356; an unknown class makes print_error fail with TypeError (two arguments) *)
Definition new (reg : registry) (newdata : jdict) (data : collection) : collection * option exn :=
  if dmem "id" newdata && dmem "class" newdata then
    match dget "class" newdata with
    | Some (JStr cl) =>
        match dget cl reg with
        | Some ctor =>
            match str_field "id" newdata, ctor newdata with
            | Ok id, None => (dset id {| s_class := cl; s_data := newdata |} data, None)
            | _, Some x => (data, Some x)
            | Err x, None => (data, Some x)
            end
        | None => (data, Some ETypeError)
        end
    | _ => (data, Some ETypeError)
    end
  else (data, Some PMDataError).

(* __init__.py 71-82 *)
Definition get (data : collection) (id : string) : res subst :=
  match dget id data with Some s => Ok s | None => Err PMParamError end.

(* what a user does to the collection *)
Inductive dat_op :=
| DLoad (cfg : datcfg) (dirs : list (string * option node))
| DCheck (cfg : datcfg) (dirs : list (string * option node))
| DClear
| DNew (d : jdict).
Definition dat_step (reg : registry) (data : collection) (o : dat_op) : collection :=
  match o with
  | DLoad cfg dirs => fst (load cfg reg dirs data)
  | DCheck cfg dirs => fst (load_check cfg reg dirs data)
  | DClear => clear data
  | DNew d => fst (new reg d data)
  end.
Definition dat_run (reg : registry) (data : collection) (ops : list dat_op) : collection :=
  fold_left (dat_step reg) ops data.

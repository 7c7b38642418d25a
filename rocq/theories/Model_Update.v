(* Model of the repair of the data files: src/pyromat/utility.py 630-768 (red_repair) and
   src/pyromat/dat.py 365-571 (updatefiles), over the directory trees of Model_Dat. *)
From Coq Require Import ZArith QArith Ascii.
From Verif Require Export Base Text Model_Dat.
Local Open Scope string_scope.
Local Open Scope list_scope.

(* The configured directories and what each refers to, as load() sees them.
   SIMPLIFICATION: paths are absolute and normalised (os.path.abspath is the identity); files
   that are in none of the configured directories are not recorded. *)
Definition disk := list (string * option node).

(* ---- os.remove: the file t disappears; directories are not removed ---- *)
Fixpoint n_remove (t path : string) (n : node) : option node :=
  match n with
  | NFile _ => if String.eqb path t then None else Some n
  | NDir es => Some (NDir (flat_map (fun e => let '(name, m) := e in
                 match n_remove t (join path name) m with Some m' => [(name, m')] | None => [] end) es))
  | NOther => Some NOther
  end.
Definition d_remove (t : string) (d : disk) : disk :=
  map (fun e => let '(p, n) := e in (p, match n with Some n => n_remove t p n | None => None end)) d.

(* ---- open(t,'w') and what is written ---- *)
(* an existing file gets the content c *)
Fixpoint n_write (t : string) (c : content) (path : string) (n : node) : node :=
  match n with
  | NFile c0 => if String.eqb path t then NFile c else NFile c0
  | NDir es => NDir (map (fun e => let '(name, m) := e in (name, n_write t c (join path name) m)) es)
  | NOther => NOther
  end.
Definition d_write (t : string) (c : content) (d : disk) : disk :=
  map (fun e => let '(p, n) := e in (p, option_map (n_write t c p) n)) d.
(* a new file `name` in the directory `dir` *)
Fixpoint n_create (dir name : string) (c : content) (path : string) (n : node) : node :=
  match n with
  | NDir es =>
      let es' := map (fun e => let '(x, m) := e in (x, n_create dir name c (join path x) m)) es in
      NDir (if String.eqb path dir then es' ++ [(name, NFile c)] else es')
  | _ => n
  end.
Definition d_create (dir name : string) (c : content) (d : disk) : disk :=
  map (fun e => let '(p, n) := e in (p, option_map (n_create dir name c p) n)) d.
(* everything there is, with its path *)
Fixpoint n_all (path : string) (n : node) : list (string * node) :=
  (path, n) :: match n with
               | NDir es => flat_map (fun e => let '(name, m) := e in n_all (join path name) m) es
               | _ => []
               end.
Definition d_all (d : disk) : list (string * node) :=
  flat_map (fun e => let '(p, n) := e in match n with Some n => n_all p n | None => [] end) d.
(* os.path.split *)
Fixpoint split_path (s : string) : option (string * string) :=
  match s with
  | "" => None
  | String c s' =>
      match split_path s' with
      | Some (d, b) => Some (String c d, b)
      | None => if Ascii.eqb c "/" then Some ("", s') else None
      end
  end.
(* put the content c at t: an existing file is overwritten, a new one is created; None: t is a
   directory.  A file that is in none of the configured directories is not recorded. *)
Definition put (t : string) (c : content) (d : disk) : option disk :=
  match dget t (d_all d) with
  | Some (NFile _) => Some (d_write t c d)
  | Some _ => None
  | None => match split_path t with
            | Some (dir, name) => Some (d_create dir name c d)
            | None => Some d
            end
  end.
(* open(t,'w') leaves an empty file until something is written *)
Definition truncate (t : string) (d : disk) : option disk := put t Unreadable d.

(* ---- os.rename(t, t + '~') in suppress_file, utility.py 586-592: a file of that name is
   replaced, a directory of that name makes it fail ---- *)
Definition d_suppress (t : string) (d : disk) : disk :=
  match dget t (d_all d) with
  | Some (NFile c) => match put (t ++ "~") c (d_remove t d) with Some d' => d' | None => d end
  | _ => d
  end.

(* ---- what the two functions do to the disk, one operation at a time ---- *)
Inductive step :=
| Truncate (path : string)              (* open(path,'w') *)
| Fill (path : string) (d : jdict)      (* json.dump and close *)
| Unlink (path : string)                (* os.remove *)
| Suppress (path : string).             (* utility.suppress_file *)
(* Whether the operating system lets an operation happen, and for Fill whether json can
   represent the data; arbitrary. *)
Definition oracle := step -> bool.
Definition do_step (ok : oracle) (s : step) (d : disk) : disk :=
  if negb (ok s) then d else
  match s with
  | Truncate p => match truncate p d with Some d' => d' | None => d end
  | Fill p x => if ok (Truncate p) then d_write p (Parsed (JObj x)) d else d
  | Unlink p => d_remove p d
  | Suppress p => (* utility.py 583-585 *) if Nat.ltb 4 (String.length p) && ends_with ".hpd" p then d_suppress p d else d
  end.
Definition run_steps (ok : oracle) (l : list step) (d : disk) : disk := fold_left (fun d s => do_step ok s d) l d.

(* ---- red_repair ---- *)
(* utility.py 742-768: all but the selected file *)
Fixpoint but_index {A} (i : Z) (sel : Z) (l : list A) : list A :=
  match l with
  | [] => []
  | x :: l' => if Z.eqb i sel then but_index (i + 1) sel l' else x :: but_index (i + 1) sel l'
  end.
Definition repair_steps (action : string) (sel : Z) (files : list string) : list step :=
  if String.eqb action "d" then map Unlink (but_index 0 sel files)
  else if String.eqb action "s" then map Suppress (but_index 0 sel files)
  else [].
(* utility.py 678-740: the menus, given what the user types; int_of is Python's int().
   mode: None while an action is asked for, Some action while a file is. *)
Section Menu.
Variable int_of : string -> option Z.
Fixpoint menu (N : Z) (mode : option string) (sel : Z) (ins : list string) : res (string * Z * list string) :=
  match ins with
  | [] => Err EException              (* EOFError *)
  | i :: rest =>
      let i := lower i in
      match mode with
      | None => if contains i "ids"
                then (if contains i "ds" then menu N (Some i) sel rest else Ok (i, sel, rest))
                else menu N None sel rest
      | Some act =>
          if String.eqb i "b" then menu N None 0 rest
          else match int_of i with
               | None => menu N mode (-1) rest
               | Some k => if Z.ltb k 0 || Z.leb N k then menu N mode k rest else Ok (act, k, rest)
               end
      end
  end.
(* utility.py 670-768 with verbose true: the operations, and the exception that ends it *)
Fixpoint repair_talk (RED : list (string * list string)) (sel : Z) (ins : list string) : list step * option exn :=
  match RED with
  | [] => ([], None)
  | (_, files) :: RED' =>
      match menu (Z.of_nat (List.length files)) None sel ins with
      | Err x => ([], Some x)
      | Ok (act, sel', rest) =>
          let (l, x) := repair_talk RED' sel' rest in (repair_steps act sel' files ++ l, x)
      end
  end.
(* with verbose false: the number of files is only known in the branch for 's' (758), so 'd'
   fails with UnboundLocalError (745) *)
Fixpoint repair_quiet (action : string) (sel : Z) (RED : list (string * list string)) : list step * option exn :=
  match RED with
  | [] => ([], None)
  | (_, files) :: RED' =>
      if String.eqb action "d" then ([], Some EUnboundLocal)
      else let (l, x) := repair_quiet action sel RED' in (repair_steps action sel files ++ l, x)
  end.
Definition red_repair (verbose : bool) (action : string) (sel : Z) (ins : list string) (RED : list (string * list string))
  : list step * option exn :=
  if verbose then repair_talk RED sel ins else repair_quiet action sel RED.
End Menu.

(* ---- updatefiles ---- *)
(* the truth value of a JSON value *)
Definition truthy (v : json) : bool :=
  match v with
  | JNull => false
  | JBool b => b
  | JNum q => negb (Qeq_bool q 0)
  | JStr s => negb (String.eqb s "")
  | JList l => match l with [] => false | _ => true end
  | JObj d => match d with [] => false | _ => true end
  end.
(* dat.py 478-485: the file a new entry is saved to.  A 'fromfile' that is not a string makes
   os.path.abspath fail.  dest has no trailing separator. *)
Definition save_path (dest id : string) (d : jdict) : res string :=
  match dget "fromfile" d with
  | Some v => if truthy v then match v with JStr s => Ok s | _ => Err ETypeError end
              else Ok (join dest (id ++ ".hpd"))
  | None => Ok (join dest (id ++ ".hpd"))
  end.
Definition save (p : string) (d : jdict) : list step := [Truncate p; Fill p d].
(* dat.py 476-499 *)
Fixpoint save_added (dest : string) (mem : collection) (ids : list string) : list step * option exn :=
  match ids with
  | [] => ([], None)
  | id :: ids' =>
      match dget id mem with
      | None => ([], Some EKeyError)
      | Some s =>
          match str_field "id" (s_data s) with
          | Err x => ([], Some x)
          | Ok name =>
              match save_path dest name (s_data s) with
              | Err x => ([], Some x)
              | Ok p => let (l, x) := save_added dest mem ids' in (save p (s_data s) ++ l, x)
              end
          end
      end
  end.
(* dat.py 504-539.  verbose and a 'fromfile' that differs from the file found: the prompt calls
   raw_input, which Python 3 does not have. *)
Fixpoint save_changed (verbose : bool) (mem found : collection) (ids : list string) : list step * option exn :=
  match ids with
  | [] => ([], None)
  | id :: ids' =>
      match dget id mem, dget id found with
      | Some s, Some s0 =>
          if verbose && negb (match dget "fromfile" (s_data s) with Some (JStr p) => String.eqb p (file_of s0) | _ => false end)
          then ([], Some ENameError)
          else let (l, x) := save_changed verbose mem found ids' in (save (file_of s0) (s_data s) ++ l, x)
      | _, _ => ([], Some EKeyError)
      end
  end.
(* dat.py 543-571 *)
Fixpoint drop_removed (verbose deletefiles : bool) (found : collection) (ids : list string) : list step * option exn :=
  match ids with
  | [] => ([], None)
  | id :: ids' =>
      match dget id found with
      | None => ([], Some EKeyError)
      | Some s0 =>
          if verbose && deletefiles then ([], Some ENameError)
          else let (l, x) := drop_removed verbose deletefiles found ids' in
               ((if deletefiles then Unlink (file_of s0) else Suppress (file_of s0)) :: l, x)
      end
  end.
Definition seq (a : list step * option exn) (b : list step * option exn) : list step * option exn :=
  match snd a with Some _ => a | None => (fst a ++ fst b, snd b) end.
(* dat.py 423-464: what is done about files that cannot be read.  Quietly without deletefiles
   the code calls a function that does not exist and ignores the error: nothing happens. *)
Definition bad_steps (verbose deletefiles : bool) (bad : list string) : list step * option exn :=
  match bad with
  | [] => ([], None)
  | _ => if verbose then ([], Some ENameError)
         else ((if deletefiles then map Unlink bad else []), None)
  end.
(* the two parts of updatefiles: before (410-464) and after (467-571) the second check *)
Definition first_part (int_of : string -> option Z) (verbose deletefiles : bool) (ins : list string) (r : report)
  : list step * option exn :=
  seq (match redundant r with [] => ([], None) | RED => red_repair int_of verbose "s" 0 ins RED end)
      (bad_steps verbose deletefiles (bad r)).
Definition second_part (verbose deletefiles : bool) (dest : string) (mem : collection) (r : report) : list step * option exn :=
  seq (save_added dest mem (added r))
      (seq (save_changed verbose mem (rdata r) (changed r)) (drop_removed verbose deletefiles (rdata r) (removed r))).

(* dat.py 365-571.  The trace is the list of all operations done; the disk is the one they
   leave.  The collection in memory is not changed. *)
Definition updatefiles (ok : oracle) (int_of : string -> option Z) (cfg : datcfg) (reg : registry)
    (verbose deletefiles : bool) (dest : string) (ins : list string) (mem : collection) (d : disk)
  : list step * disk * option exn :=
  match snd (load_check cfg reg d mem) with
  | Err x => ([], d, Some x)
  | Ok r =>
      let (l1, x1) := first_part int_of verbose deletefiles ins r in
      let d1 := run_steps ok l1 d in
      match x1 with
      | Some x => (l1, d1, Some x)
      | None =>
          match (match bad r, redundant r with
                 | [], [] => Ok r
                 | _, _ => snd (load_check cfg reg d1 mem)
                 end) with
          | Err x => (l1, d1, Some x)
          | Ok r2 =>
              let (l2, x2) := second_part verbose deletefiles dest mem r2 in
              (l1 ++ l2, run_steps ok l2 d1, x2)
          end
      end
  end.

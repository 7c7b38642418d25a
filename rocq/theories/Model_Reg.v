(* Model of the class registry loader: src/pyromat/reg.py 283-378 (regload). *)
From Coq Require Import Ascii.
From Verif Require Export Base Text.
Local Open Scope string_scope.
Local Open Scope list_scope.

(* What executing a registry file leaves in its namespace, in order (reg.py 334-347): each
   name is bound to a subclass of __basedata__ or to something else.  If the file raises, the
   bindings made before that remain (the exception is caught, reg.py 340-343); a file that
   cannot be opened or compiled leaves none.  SIMPLIFICATION: a class is an abstract
   identity C, and executing a file is taken not to depend on the files executed before. *)
Inductive binding (C : Type) := DataClass (c : C) | OtherObj.
Arguments DataClass {C} _.
Arguments OtherObj {C}.
Definition namespace (C : Type) := list (string * binding C).

(* the configuration regload() reads (reg.py 310-311) *)
Record regcfg := { reg_exist_fatal : bool; reg_overwrite : bool }.

Section Reg.
Context {C : Type}.
Definition reg_table := list (string * C).

(* reg.py 347-374: register the classes found in one file *)
Fixpoint register (cfg : regcfg) (ns : namespace C) (r : reg_table) : reg_table * option exn :=
  match ns with
  | [] => (r, None)
  | (name, OtherObj) :: ns' => register cfg ns' r
  | (name, DataClass c) :: ns' =>
      if dmem name r then
        if reg_exist_fatal cfg then (r, Some PMFileError)
        else if reg_overwrite cfg then register cfg ns' (dset name c r)
        else register cfg ns' r
      else register cfg ns' (dset name c r)
  end.

(* reg.py 326-327; directory entries are never empty strings *)
Definition reg_file_name (fil : string) : bool :=
  match fil with
  | "" => false
  | String ch _ => negb (Ascii.eqb ch "_") && negb (Ascii.eqb ch ".")
  end && Nat.ltb 3 (String.length fil) && ends_with ".py" fil.

(* reg.py 325-378: the files of one directory, in listing order *)
Fixpoint reg_files (cfg : regcfg) (files : list (string * namespace C)) (r : reg_table) : reg_table * option exn :=
  match files with
  | [] => (r, None)
  | (name, ns) :: fs =>
      if reg_file_name name then
        match register cfg ns r with
        | (r', None) => reg_files cfg fs r'
        | (r', Some x) => (r', Some x)
        end
      else reg_files cfg fs r
  end.

(* reg.py 314-321: the directories; None: os.listdir raises *)
Fixpoint reg_dirs (cfg : regcfg) (dirs : list (option (list (string * namespace C)))) (r : reg_table)
  : reg_table * option exn :=
  match dirs with
  | [] => (r, None)
  | None :: _ => (r, Some EException)
  | Some files :: ds =>
      match reg_files cfg files r with
      | (r', None) => reg_dirs cfg ds r'
      | (r', Some x) => (r', Some x)
      end
  end.

(* reg.py 283-378; the previous registry is dropped at 304 *)
Definition regload (cfg : regcfg) (dirs : list (option (list (string * namespace C)))) (_previous : reg_table)
  : reg_table * option exn := reg_dirs cfg dirs [].
End Reg.

(* Model of the substance descriptions and of the catalogue queries:
   src/pyromat/reg.py 162-278 (collection, hill) and src/pyromat/__init__.py 86-345
   (search, the effect of info on its argument, the order of its table). *)
From Coq Require Import ZArith QArith Ascii DecimalString.
From Verif Require Export Base Text.
Local Open Scope string_scope.
Local Open Scope list_scope.

(* s.split(c, 1)[0] when c occurs, else None *)
Fixpoint before (c : ascii) (s : string) : option string :=
  match s with
  | "" => None
  | String d s' => if Ascii.eqb c d then Some ""
                   else match before c s' with Some p => Some (String d p) | None => None end
  end.

(* reg.py 170-173 *)
Definition collection_of (id : string) : string :=
  match before "." id with Some p => p | None => "" end.

(* s.split(c) *)
Fixpoint split_char (c : ascii) (s : string) : list string :=
  match s with
  | "" => [""]
  | String d s' =>
      match split_char c s' with
      | [] => []
      | w :: ws => if Ascii.eqb c d then "" :: w :: ws else String d w :: ws
      end
  end.

(* f"{n}" for an int *)
Definition show_int (n : Z) : string := NilEmpty.string_of_int (Z.to_int n).

(* reg.py 251-255 and 263-266: one element *)
Definition element (aa : list (string * Z)) (this : string) : string :=
  match dget this aa with
  | Some n => if Z.eqb n 1 then this else (this ++ show_int n)%string
  | None => this
  end.

(* list.remove: first occurrence *)
Fixpoint remove1 (x : string) (l : list string) : list string :=
  match l with
  | [] => []
  | y :: l' => if String.eqb x y then l' else y :: remove1 x l'
  end.

Definition mem_str (x : string) (l : list string) : bool := existsb (String.eqb x) l.

(* reg.py 243-274, for a substance with an atoms dictionary.  Quantities are integers
   (the dictionaries in the data files); `qty` at 274 is not defined there. *)
Definition hill_atoms (aa : list (string * Z)) : res string :=
  let contents := dkeys aa in
  match contents with
  | ["e"] => Ok "e-"
  | _ =>
      let '(out, contents) :=
        fold_left (fun '(out, contents) this =>
                     if mem_str this contents
                     then ((out ++ element aa this)%string, remove1 this contents)
                     else (out, contents)) ["C"; "H"] ("", contents) in
      let '(charge, contents) :=
        if mem_str "e" contents
        then (match dget "e" aa with Some n => Z.opp n | None => 0%Z end, remove1 "e" contents)
        else (0%Z, contents) in
      let contents := sort (fun s => s) contents in
      let out := fold_left (fun out this => (out ++ element aa this)%string) contents out in
      let '(out, charge) :=
        if Z.ltb charge 0 then ((out ++ "-")%string, Z.opp charge)
        else if Z.ltb 0 charge then ((out ++ "+")%string, charge)
        else (out, charge) in
      if Z.ltb 1 charge then Err ENameError else Ok out
  end.

(* reg.py 229-278 *)
Definition hill (atoms : option (list (string * Z))) (id : string) : res string :=
  match atoms with
  | Some aa => hill_atoms aa
  | None =>
      match split_char "." id with
      | _ :: out :: _ => Ok (hd "" (split_char "_" out))
      | _ => Err EIndexError
      end
  end.

(* A substance object, as search sees it.  ob_ref is the object's identity (Python's default
   hash and equality).  ob_atoms is what its atoms() method returns; None stands for an
   exception there (igmix.py 645-665 without atomic data).  'names' is a list of strings. *)
Record obj := {
  ob_ref : nat; ob_id : string; ob_class : string;
  ob_cas : option string; ob_inchi : option string; ob_names : option (list string);
  ob_atoms : option (list (string * option Q))
}.

(* the forms of the `contains` argument (__init__.py 201-210) *)
Inductive contents :=
| OneAtom (a : string)
| Amounts (d : list (string * option Q))
| Atoms (l : list string).
Definition atoms_arg (c : contents) : list (string * option Q) :=
  match c with
  | OneAtom a => [(a, None)]
  | Amounts d => d
  | Atoms l => fold_left (fun d a => dset a None d) l []
  end.

Record criteria := {
  c_name : option string; c_contains : option contents; c_collection : option string;
  c_pmclass : option string; c_cas : option string; c_inchi : option string
}.

Definition opt_eq (a : option string) (s : string) : bool :=
  match a with Some t => String.eqb s t | None => false end.

(* __init__.py 213-222: a quantity None in the argument matches any; catoms.get is None when
   the atom is missing (or its stored quantity is None) *)
Definition atoms_match (want : list (string * option Q)) (have : list (string * option Q)) : bool :=
  forallb (fun '(a, q) =>
    match dget a have with
    | Some (Some cq) => match q with None => true | Some q => Qeq_bool cq q end
    | _ => false
    end) want.

(* __init__.py 184-198 *)
Definition name_match (name : string) (o : obj) : bool :=
  if contains name (ob_id o) then true
  else match ob_names o with
       | Some ns => existsb (fun cname => contains (lower name) (lower cname)) ns
       | None => false
       end.

(* __init__.py 164-226, one candidate *)
Definition candidate_match (c : criteria) (o : obj) : res bool :=
  let m := match c_pmclass c with Some s => String.eqb s (ob_class o) | None => true end in
  let m := m && match c_collection c with Some s => String.prefix s (ob_id o) | None => true end in
  let m := m && match c_cas c with Some s => opt_eq (ob_cas o) s | None => true end in
  let m := m && match c_inchi c with Some s => opt_eq (ob_inchi o) s | None => true end in
  let m := m && match c_name c with Some s => name_match s o | None => true end in
  match m, c_contains c with
  | true, Some w => match ob_atoms o with
                    | Some have => Ok (atoms_match (atoms_arg w) have)
                    | None => Err PMDataError
                    end
  | _, _ => Ok m
  end.

(* set.add *)
Definition set_add (o : obj) (s : list obj) : list obj :=
  if existsb (fun x => Nat.eqb (ob_ref x) (ob_ref o)) s then s else s ++ [o].

(* __init__.py 153-232; `members` lists the candidates in iteration order *)
Fixpoint search_loop (c : criteria) (members acc : list obj) : res (list obj) :=
  match members with
  | [] => Ok acc
  | o :: ms =>
      match candidate_match c o with
      | Ok true => search_loop c ms (set_add o acc)
      | Ok false => search_loop c ms acc
      | Err x => Err x
      end
  end.
Definition search (c : criteria) (members : list obj) : res (list obj) := search_loop c members [].

(* The kinds of collection a caller may pass to info(), with what .pop() does to each. *)
Inductive container := CList (l : list obj) | CSet (l : list obj) | CTuple (l : list obj).
Definition items (c : container) : list obj := match c with CList l | CSet l | CTuple l => l end.

(* what info() shows: nothing, one substance's summary, or a table with these rows *)
Inductive shown := Nothing | Summary (o : obj) | Table (rows : list obj).

(* __init__.py 270-395: info(members) for a collection.  Returns the caller's collection
   afterwards.  list.pop() and set.pop() remove the only element (286); tuples have no pop.
   The text itself is not modelled. *)
Definition info (c : container) : container * res shown :=
  match items c with
  | [] => (c, Ok Nothing)
  | [o] => match c with
           | CList _ => (CList [], Ok (Summary o))
           | CSet _ => (CSet [], Ok (Summary o))
           | CTuple _ => (c, Err EAttributeError)
           end
  | l => (c, Ok (Table (sort ob_id l)))
  end.

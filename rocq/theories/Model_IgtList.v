(* Model of a dynamic mixture as a collection of substances: construction from anything, membership,
   lists, length, and sequences of changes, src/pyromat/igtools.py 329-401, 518-561, 982-1060,
   1062-1216. *)
From Coq Require Import Reals ZArith List String Ascii Bool.
From Verif Require Export Model_Igtools Model_Igtview.
From Verif Require Model_Catalog.
Import ListNotations.
Local Open Scope R_scope.
Local Open Scope string_scope.
Local Open Scope list_scope.

(* what can stand for a substance: a string, a substance object (by its id: objects are the loaded
   ones, compared by identity), a mixture, anything else (both by identity) *)
Inductive key := KName (s : string) | KGas (s : string) | KMix (ref : nat) | KOther (ref : nat).

(* reg.py 162-174 *)
Definition collection_of (sid : string) : string :=
  if has_dot sid then hd "" (Model_Catalog.split_char "."%char sid) else "".
(* igtools.py 366-384 and 1080-1099: the substance found *)
Definition find_subst (P : pool) (k : key) : res string :=
  match k with
  | KName s => do _ <- get_gas P (full_sid s); Ok (full_sid s)
  | KGas s => if String.eqb (collection_of s) "ig" then do _ <- get_gas P s; Ok s else Err PMParamError
  | KMix _ => Err PMParamError
  | KOther _ => Err PMParamError
  end.

(* ---- construction ---- *)
(* igtools.py 363-388: the first loop, for keys of any sort *)
Fixpoint init_keys (P : pool) (contents : list (key * nd)) (sh : list nat)
  : res (list (string * nd) * list nat) :=
  match contents with
  | [] => Ok ([], sh)
  | (k, qty) :: rest =>
      do s <- find_subst P k;
      do sh' <- broadcast_shape (nsh qty) sh;
      do r <- init_keys P rest sh';
      Ok ((s, qty) :: fst r, snd r)
  end.
(* igtools.py 361-397: contents is a dictionary; np.empty's contents are modelled as nan *)
Definition from_keys (P : pool) (E : env) (units : option string) (contents : list (key * nd)) : res mix :=
  do r <- init_keys P contents [1%nat];
  let (named, sh) := r in
  do q <- init_rows P E units sh named 0 {| nsh := List.length named :: sh; nel := fun _ => None |};
  Ok {| x_c := map fst named; x_q := q |}.

(* equality of dictionary keys *)
Definition key_eqb (a b : key) : bool :=
  match a, b with
  | KName s, KName t => String.eqb s t
  | KGas s, KGas t => String.eqb s t
  | KMix n, KMix k => Nat.eqb n k
  | KOther n, KOther k => Nat.eqb n k
  | _, _ => false
  end.
(* the keys of dict.fromkeys(l,0): each key once, where it first stood *)
Fixpoint fromkeys (l : list key) (seen : list key) : list key :=
  match l with
  | [] => []
  | k :: rest => if existsb (key_eqb k) seen then fromkeys rest seen else k :: fromkeys rest (k :: seen)
  end.

(* the argument `contents` *)
Inductive given :=
| GNothing | GCopy (m : mix) | GText (s : string) | GGas (s : string) | GList (l : list key)
| GDict (l : list (key * nd)) | GOther.
(* igtools.py 329-397: IgtMix(contents, units=units, **kwarg).  A dictionary's keys are distinct. *)
Definition make (P : pool) (E : env) (contents : given) (units : option string) (kwarg : list (string * nd))
  : res mix :=
  match contents with
  | GNothing => from_keys P E units (map (fun c => (KName (fst c), snd c)) kwarg)
  | GCopy m => Ok m
  | GText s => do d <- parse_mixstr s;
               from_keys P E units (map (fun c => (KName (fst c), scalar (snd c))) d)
  | GGas s => from_keys P E units [(KGas s, scalar 1)]
  | GList l => from_keys P E units (map (fun k => (k, scalar 0)) (fromkeys l []))
  | GDict l => from_keys P E units l
  | GOther => Err EException
  end.

(* ---- membership, lists, sizes ---- *)
(* what can stand in m[...] and before `in`: an int, a slice, a string, a substance object, a tuple,
   anything else *)
Inductive index := IInt (n : Z) | ISlice | IName (s : string) | IGas (s : string)
| ITuple (l : list index) | IOther.
(* igtools.py 518-561 and 982-983 *)
Fixpoint contained (m : mix) (i : index) : res bool :=
  match i with
  | IInt _ => Ok true
  | ISlice => Ok true
  | IName s => Ok (match sindex m s with Some _ => true | None => false end)
  | IGas s => Ok (memb s (x_c m))
  | ITuple [] => Err EIndexError
  | ITuple (j :: _) => contained m j
  | IOther => Ok false
  end.
(* igtools.py 400-401: the substances met by `for subst in m` *)
Definition iterate (m : mix) : list string := x_c m.
(* igtools.py 1186-1215.  A s is the atoms entry of the data of s; objects are named by their id *)
Fixpoint hills (A : string -> option (list (string * Z))) (l : list string) : res (list string) :=
  match l with
  | [] => Ok []
  | s :: rest => do h <- Model_Catalog.hill (A s) s; do r <- hills A rest; Ok (h :: r)
  end.
Definition tolist (A : string -> option (list (string * Z))) (m : mix) (mode : string) : res (list string) :=
  if String.eqb mode "sid" then Ok (x_c m)
  else if String.eqb mode "hill" then hills A (x_c m)
  else if String.eqb mode "instance" then Ok (x_c m)
  else Err PMParamError.
(* igtools.py 988-991 with len(): np.prod(()) is the float 1.0, which len() refuses *)
Definition len (m : mix) : res nat :=
  match shape m with [] => Err ETypeError | sh => Ok (fold_right Nat.mul 1%nat sh) end.
(* igtools.py 1046-1052 *)
Definition ndim (m : mix) : nat := (List.length (nsh (x_q m)) - 1)%nat.

(* ---- reshape with a dimension of -1 ---- *)
Inductive dim := Dim (n : nat) | Rest.
Definition known (t : list dim) : nat :=
  fold_right (fun d k => match d with Dim n => (n * k)%nat | Rest => k end) 1%nat t.
Definition unknowns (t : list dim) : nat :=
  fold_right (fun d k => match d with Dim _ => k | Rest => S k end) 0%nat t.
Definition fill (n : nat) (t : list dim) : list nat := map (fun d => match d with Dim k => k | Rest => n end) t.
(* igtools.py 1035-1044 with numpy's rule: one dimension may be -1, and becomes the number that is
   left when the others divide the number of elements *)
Definition reshape_to (m : mix) (newshape : list dim) : res mix :=
  let t := Dim (hd 0%nat (nsh (x_q m))) :: newshape in
  match unknowns t with
  | 0%nat => reshape m (fill 0 newshape)
  | 1%nat =>
      let total := fold_right Nat.mul 1%nat (nsh (x_q m)) in
      if Nat.eqb (known t) 0 then Err EValueError
      else if Nat.eqb (Nat.modulo total (known t)) 0
      then reshape m (fill (Nat.div total (known t)) newshape)
      else Err EValueError
  | _ => Err EValueError
  end.

(* ---- sequences of changes ---- *)
Inductive change :=
| Insert (k : key) (q : nd) (units : option string)       (* m.insert(k, q, units=units) *)
| Remove (k : key)                                        (* m.remove(k) *)
| Add (b : mix)                                           (* m += b *)
| Subtract (b : mix)                                      (* m -= b *)
| Assign (s : string) (v : nd)                            (* m[s] = v *)
| AssignAll (v : mix)                                     (* m[:] = v *)
| Scale (b : nd)                                          (* m *= b *)
| Divide (b : nd)                                         (* m /= b *)
| Reshape (t : list dim).                                 (* m.reshape(t) *)
(* a method that replaces the object's fields when it returns and leaves them when it raises *)
Definition when_ok (m : mix) (r : res mix) : mix * res unit :=
  match r with Ok m' => (m', Ok tt) | Err e => (m, Err e) end.
(* igtools.py 1119-1131; an object that is not in the list is not found (557-560) *)
Definition remove_key (m : mix) (k : key) : res mix :=
  match k with
  | KName s => remove m s
  | KGas s => if has_dot s then remove m s else Err PMParamError
  | _ => Err PMParamError
  end.
(* igtools.py 512-513: /= is self.__imul__(1./b) *)
Definition step (P : pool) (E : env) (m : mix) (c : change) : mix * res unit :=
  match c with
  | Insert k q units => when_ok m (do s <- find_subst P k; insert P E m s q units)
  | Remove k => when_ok m (remove_key m k)
  | Add b => iadd m b
  | Subtract b => isub m b
  | Assign s v => setitem P E m s v
  | AssignAll v => setslice P E m v
  | Scale b => when_ok m (imul m b)
  | Divide b => when_ok m (truediv m b)
  | Reshape t => when_ok m (reshape_to m t)
  end.
(* the mixture after the changes, each with its outcome; an exception does not end the session *)
Fixpoint run_changes (P : pool) (E : env) (m : mix) (l : list change) : mix * list (change * res unit) :=
  match l with
  | [] => (m, [])
  | c :: rest =>
      let (m1, r) := step P E m c in
      let (m2, h) := run_changes P E m1 rest in
      (m2, (c, r) :: h)
  end.

(* Model of what a dynamic mixture shows of its contents, src/pyromat/igtools.py 1035-1044 and
   1219-1258. *)
From Coq Require Import Reals List String.
From Verif Require Export Model_Igtools Model_Igtprop.
Import ListNotations.
Local Open Scope R_scope.
Local Open Scope string_scope.
Local Open Scope list_scope.

(* numpy's a.reshape(t): the elements keep their order in memory.  A dimension of -1, which numpy
   replaces by what is left, is not modelled. *)
Definition np_reshape (a : nd) (t : list nat) : res nd :=
  if Nat.eqb (fold_right Nat.mul 1%nat t) (fold_right Nat.mul 1%nat (nsh a))
  then Ok (of_list t (to_list a)) else Err EValueError.
(* igtools.py 1035-1044: the mixture after the call; when it raises, the mixture is as before *)
Definition reshape (m : mix) (newshape : list nat) : res mix :=
  do q <- np_reshape (x_q m) (hd 0%nat (nsh (x_q m)) :: newshape);
  Ok {| x_c := x_c m; x_q := q |}.

(* igtools.py 1219-1231: a dictionary comprehension over items(), the pairs of the constituents and
   their rows (1328-1340) *)
Fixpoint todict_loop (P : pool) (E : env) (units : option string) (names : list string) (q : nd)
  (k : nat) (out : list (string * nd)) : res (list (string * nd)) :=
  match names with
  | [] => Ok out
  | s :: rest =>
      do v <- nd_matter E (gas_of P s) (row q k) (Some "kmol") units;
      todict_loop P E units rest q (S k) (dset s v out)
  end.
Definition todict (P : pool) (E : env) (units : option string) (m : mix) : res (list (string * nd)) :=
  todict_loop P E units (x_c m) (x_q m) 0 [].

(* igtools.py 1251-1257: the inner loop over subst.atoms().items(); `working += qty * aq` changes
   the array in the dictionary *)
Fixpoint atoms_inner (qty : nd) (l : list (string * R)) (out : list (string * nd)) : list (string * nd) :=
  match l with
  | [] => out
  | (atom, aq) :: rest =>
      let working := match dget atom out with
                     | Some w => w
                     | None => {| nsh := nsh qty; nel := fun _ => Some 0 |}
                     end in
      atoms_inner qty rest
        (dset atom {| nsh := nsh working;
                      nel := fun i => fadd (nel working i) (fmul (nel qty i) (Some aq)) |} out)
  end.
(* igtools.py 1248-1258.  A s is the result of subst.atoms(): reg.py 225-227 (the data's dictionary,
   or an empty one), igmix.py 645-665 for a static mixture in a mixture. *)
Fixpoint igt_atoms_loop (A : string -> res (list (string * R))) (E : env) (names : list string) (q : nd)
  (k : nat) (out : list (string * nd)) : res (list (string * nd)) :=
  match names with
  | [] => Ok out
  | s :: rest =>
      do u <- cfg_get (e_cfg E) "unit_molar";
      do c <- convert (units_of (e_setup E) QMolar) (e_cfg E) 1 (Some "kmol") (Some u) None;
      do l <- A s;
      igt_atoms_loop A E rest q (S k) (atoms_inner (np_map (fmul (Some c)) (row q k)) l out)
  end.
Definition igt_atoms (A : string -> res (list (string * R))) (E : env) (m : mix) : res (list (string * nd)) :=
  igt_atoms_loop A E (x_c m) (x_q m) 0 [].

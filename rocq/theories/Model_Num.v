(* Floating point numbers and numpy arrays as the thermodynamic models use them.
   A float is a real number, or None for every non-finite float (nan, and also the
   infinities numpy produces for a division by zero or log(0)); rounding is not modelled.
   Arrays are one-dimensional lists; a scalar argument is the list of one element
   (np.reshape(value, (1,)), e.g. registry/ig.py 170-174). *)
From Coq Require Export Reals.
From Coq Require Export List.
From Verif Require Export Base.
Local Open Scope R_scope.
Local Open Scope list_scope.

Definition fl := option R.
Definition arr := list fl.

Definition lift1 (f : R -> R) (a : fl) : fl :=
  match a with Some x => Some (f x) | None => None end.
Definition lift2 (f : R -> R -> R) (a b : fl) : fl :=
  match a, b with Some x, Some y => Some (f x y) | _, _ => None end.

Definition fadd := lift2 Rplus.
Definition fsub := lift2 Rminus.
Definition fmul := lift2 Rmult.
(* numpy division: a zero divisor gives a non-finite number *)
Definition fdiv (a b : fl) : fl :=
  match a, b with
  | Some x, Some y => if Req_EM_T y 0 then None else Some (x / y)
  | _, _ => None
  end.
(* np.log: non-finite for arguments that are not positive *)
Definition flog (a : fl) : fl :=
  match a with
  | Some x => if Rlt_dec 0 x then Some (ln x) else None
  | None => None
  end.
Definition fexp := lift1 exp.
Definition fabs := lift1 Rabs.

(* comparisons with a nan are False *)
Definition flt (a b : fl) : bool :=
  match a, b with Some x, Some y => if Rlt_dec x y then true else false | _, _ => false end.
Definition fle (a b : fl) : bool :=
  match a, b with Some x, Some y => if Rle_dec x y then true else false | _, _ => false end.

Definition map2 {A B C} (f : A -> B -> C) (l : list A) (m : list B) : list C :=
  map (fun p => f (fst p) (snd p)) (combine l m).

(* np.broadcast_arrays(a, b) for one-dimensional arrays.  The booleans say that all the
   elements of the returned array are one memory cell (an array of length 1 stretched). *)
Definition broadcast (a b : arr) : res (arr * arr * bool * bool) :=
  if Nat.eqb (List.length a) (List.length b) then Ok (a, b, false, false)
  else match a, b with
       | [x], _ => Ok (repeat x (List.length b), b, true, false)
       | _, [y] => Ok (a, repeat y (List.length a), false, true)
       | _, _ => Err EValueError
       end.

(* s += w.  When the elements of s share one memory cell numpy computes all the sums and
   stores them one after the other in that cell: the last one remains. *)
Definition inplace_add (shared : bool) (s w : arr) : arr :=
  let sum := map2 fadd s w in
  if shared then repeat (last sum None) (List.length sum) else sum.

(* Model of the generic solver, src/pyromat/solve.py.  Numbers are those of Model_Hybrid (reals,
   infinities, nan); rounding is not modelled. *)
From Coq Require Import Reals List Bool Arith String.
From Verif Require Import Base Model_Hybrid.
Import ListNotations.
Local Open Scope R_scope.
Local Open Scope string_scope.
Local Open Scope list_scope.

Definition xmul (a b : xf) : xf :=
  match a, b with
  | NaN, _ | _, NaN => NaN
  | Fin x, Fin y => Fin (x * y)
  | Fin x, i | i, Fin x => if Req_EM_T x 0 then NaN else if Rlt_dec 0 x then i else xneg i
  | PInf, i => i
  | NInf, i => xneg i
  end.
(* max(a,b) and min(a,b) of Python: the first argument unless the second is beyond it *)
Definition pymax (a b : xf) : xf := if xlt a b then b else a.
Definition pymin (a b : xf) : xf := if xlt b a then b else a.

(* an argument: a number, or an iterable with a length *)
Inductive sarg := Sca (x : xf) | Vec (l : list xf).
Definition sargs := list (string * sarg).

(* ---- _vectorize_args (17-104) ---- *)
(* 43-80: the length of the iteration and the keys that are iterated.  The keys are visited in
   the order of the dictionary (in the code a set); the result does not depend on it. *)
Fixpoint vec_keys (N : nat) (args : sargs) : res (nat * list string) :=
  match args with
  | [] => Ok (N, [])
  | (k, Vec l) :: rest =>
      if Nat.eqb (List.length l) 1 then vec_keys N rest
      else if Nat.eqb N 1 then
        do r <- vec_keys (List.length l) rest; let (n, ks) := r in Ok (n, k :: ks)
      else if Nat.eqb N (List.length l) then
        do r <- vec_keys N rest; let (n, ks) := r in Ok (n, k :: ks)
      else Err PMParamError
  | (k, Sca _) :: rest => vec_keys N rest
  end.
Definition vec_y (y : sarg) : nat * bool :=
  match y with
  | Sca _ => (1%nat, false)
  | Vec l => if Nat.eqb (List.length l) 1 then (1%nat, false) else (List.length l, true)
  end.
(* 82-87: the copy starts with the keys that are not iterated *)
Definition vec_copy (iter : list string) (args : sargs) : sargs :=
  filter (fun kv => negb (existsb (String.eqb (fst kv)) iter)) args.
(* 97-104.  A target of length one is passed on as it is; an array of one element acts as its
   element in what follows (a list raises TypeError instead). *)
Definition vec_at (args : sargs) (i : nat) (iter : list string) (copy : sargs) : sargs :=
  fold_left (fun c k => match dget k args with
                        | Some (Vec l) => dset k (Sca (nth i l NaN)) c
                        | _ => c
                        end) iter copy.
Definition vec_target (y : sarg) (itery : bool) (i : nat) : xf :=
  match y with
  | Sca x => x
  | Vec l => if itery then nth i l NaN else nth 0 l NaN
  end.

(* ---- solve1n (127-507) ---- *)
Inductive mode :=
| MFdf (fdf : sargs -> res (xf * xf))
| MF (name : option string) (f : sargs -> res xf)
| MFDf (name : option string) (f df : sargs -> res xf).
Inductive guess := GVal (x : xf) | GFun (f : sargs -> res xf).
Inductive limit := LVal (lo hi : xf) | LFun (f : sargs -> res (xf * xf)).
Record solver := { s_param : string; s_mode : mode; s_name : option string; s_init : option guess; s_lim : option limit;
  s_eps : xf; s_small : xf; s_max : nat; s_defaults : sargs }.

(* 252-350, with the arguments of the right types *)
Definition solve_new (param : string) (fn : option mode) (name : option string) (init : option guess) (lim : option limit)
  (eps small : xf) (max : nat) (defaults : sargs) : res solver :=
  match fn with
  | None => Err PMAnalysisError
  | Some m =>
      match init, lim with
      | None, None => Err PMAnalysisError
      | _, _ =>
          if match lim with Some (LVal lo hi) => xle hi lo | _ => false end then Err PMAnalysisError
          else Ok {| s_param := param; s_mode := m; s_name := name; s_init := init; s_lim := lim;
                     s_eps := eps; s_small := small; s_max := max; s_defaults := defaults |}
      end
  end.
(* 496-507.  With fdf alone self._f is None, which has no name. *)
Definition prop_name (S : solver) : res string :=
  match s_name S with
  | Some n => Ok n
  | None => match s_mode S with
            | MFdf _ => Err PMAnalysisError
            | MF (Some n) _ | MFDf (Some n) _ _ => Ok n
            | _ => Err PMAnalysisError
            end
  end.
(* 469-494 *)
Definition fdf (S : solver) (args : sargs) : res (xf * xf) :=
  match s_mode S with
  | MFdf g => g args
  | MF _ f =>
      do f0 <- f args;
      match dget (s_param S) args with
      | Some (Sca x0) =>
          let dx := pymax (xabs (xmul x0 (s_eps S))) (s_small S) in
          do f1 <- f (dset (s_param S) (Sca (xadd x0 dx)) args);
          Ok (f0, xdiv (xsub f1 f0) dx)
      | _ => Err EKeyError
      end
  | MFDf _ f df => do f0 <- f args; do d0 <- df args; Ok (f0, d0)
  end.

(* 419-458: `for count in range(max_iter)`.  The value is the converged x, if any, the copy with
   the last x in it, and whether the loop ever ran.  ae is aerror_old, dx the step. *)
Fixpoint search (n : nat) (S : solver) (limits : option (xf * xf)) (y thr : xf) (x x_old dx ae : xf) (copy : sargs)
  : res (option xf * sargs) :=
  match n with
  | O => Ok (None, copy)
  | S k =>
      let copy := dset (s_param S) (Sca x) copy in
      do r <- fdf S copy;
      let (f, df) := r in
      let error := xsub f y in
      let aerror := xabs error in
      if xlt aerror thr then Ok (Some x, copy)
      else if negb (xlt aerror ae) then
        let dx := xhalf dx in search k S limits y thr (xadd x_old dx) x_old dx ae copy
      else
        let dx := xdiv (xneg error) df in
        let x' := xadd x dx in
        let x' := match limits with Some (lo, hi) => pymax (pymin x' hi) lo | None => x' end in
        search k S limits y thr x' x dx aerror copy
  end.
(* 391-413: the limits, the first guess and the threshold *)
Definition the_limits (S : solver) (args : sargs) : res (option (xf * xf)) :=
  match s_lim S with
  | None => Ok None
  | Some (LVal lo hi) => Ok (Some (lo, hi))
  | Some (LFun f) => do l <- f args; Ok (Some l)
  end.
Definition the_guess (S : solver) (limits : option (xf * xf)) (args : sargs) : res xf :=
  match s_init S with
  | Some (GVal x) => Ok x
  | Some (GFun f) => f args
  | None => match limits with Some (lo, hi) => Ok (xhalf (xadd lo hi)) | None => Err ETypeError end
  end.
Definition threshold (S : solver) (y : xf) : xf := pymax (s_small S) (xabs (xmul (s_eps S) y)).
(* 389-461, one element: the converged value and the copy.  461 reads `count`, which is not
   bound when max_iter is 0 and below max_iter otherwise. *)
Definition solve_one (S : solver) (y : xf) (copy : sargs) : res (option xf * sargs) :=
  do limits <- the_limits S copy;
  do x <- the_guess S limits copy;
  do r <- search (s_max S) S limits y (threshold S y) x x (Fin 0) PInf copy;
  match s_max S with
  | O => Err EUnboundLocal
  | S _ => Ok r
  end.
(* 387-461: the elements in order; one copy of the arguments serves all of them *)
Fixpoint solve_from (S : solver) (y : sarg) (itery : bool) (args : sargs) (iter : list string) (i n : nat) (copy : sargs) : res (list xf) :=
  match n with
  | O => Ok []
  | S k =>
      let copy := vec_at args i iter copy in
      do r <- solve_one S (vec_target y itery i) copy;
      let (x, copy) := r in
      do rest <- solve_from S y itery args iter (i + 1) k copy;
      Ok (match x with Some v => v | None => Fin 0 end :: rest)
  end.
(* 359-466.  np.float at 465 is the float of older numpy; from numpy 1.24 on it does not exist
   and every call with one element ends with AttributeError. *)
Definition solve_call (S : solver) (y : option sarg) (kw : sargs) : res (list xf) :=
  let args := fold_left (fun c kv => dset (fst kv) (snd kv) c) kw (s_defaults S) in
  do name <- prop_name S;
  do r <- match dget name args, y with
          | Some _, Some _ => Err PMAnalysisError
          | Some v, None => Ok (v, ddel name args)
          | None, Some v => Ok (v, args)
          | None, None => Err PMAnalysisError
          end;
  let (y, args) := r in
  let (N, itery) := vec_y y in
  do k <- vec_keys N args;
  let (N, iter) := k in
  solve_from S y itery args iter 0 N (vec_copy iter args).

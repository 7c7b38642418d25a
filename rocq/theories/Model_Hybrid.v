(* The bracketing solver of the multi-phase class: src/pyromat/registry/mp1.py 1083-1329.
   Numbers are reals, the two infinities and nan, because the choice of the next guess depends
   on which of them a division by a zero slope gives.  Rounding is not modelled, and the sign
   of a zero divisor is taken as positive (only the sign of the infinity depends on it). *)
From Coq Require Import Reals List Bool Arith.
From Verif Require Import Base.
Import ListNotations.
Local Open Scope R_scope.
Local Open Scope list_scope.

Inductive xf := Fin (r : R) | PInf | NInf | NaN.

(* numpy + - / abs on floats *)
Definition xneg (a : xf) : xf :=
  match a with Fin r => Fin (- r) | PInf => NInf | NInf => PInf | NaN => NaN end.
Definition xadd (a b : xf) : xf :=
  match a, b with
  | NaN, _ | _, NaN => NaN
  | Fin x, Fin y => Fin (x + y)
  | PInf, NInf | NInf, PInf => NaN
  | PInf, _ | _, PInf => PInf
  | NInf, _ | _, NInf => NInf
  end.
Definition xsub (a b : xf) : xf := xadd a (xneg b).
Definition xdiv (a b : xf) : xf :=
  match a, b with
  | NaN, _ | _, NaN => NaN
  | Fin x, Fin y =>
      if Req_EM_T y 0
      then (if Req_EM_T x 0 then NaN else if Rlt_dec 0 x then PInf else NInf)
      else Fin (x / y)
  | Fin _, _ => Fin 0
  | PInf, Fin y => if Rlt_dec y 0 then NInf else PInf
  | NInf, Fin y => if Rlt_dec y 0 then PInf else NInf
  | _, _ => NaN
  end.
(* 0.5*a *)
Definition xhalf (a : xf) : xf := match a with Fin r => Fin (1 / 2 * r) | _ => a end.
Definition xabs (a : xf) : xf :=
  match a with Fin r => Fin (Rabs r) | PInf | NInf => PInf | NaN => NaN end.
(* comparisons with a nan are False *)
Definition xlt (a b : xf) : bool :=
  match a, b with
  | NaN, _ | _, NaN => false
  | Fin x, Fin y => if Rlt_dec x y then true else false
  | NInf, NInf => false | NInf, _ => true
  | _, NInf => false
  | _, PInf => match a with PInf => false | _ => true end
  | PInf, _ => false
  end.
Definition xle (a b : xf) : bool :=
  match a, b with
  | NaN, _ | _, NaN => false
  | Fin x, Fin y => if Rle_dec x y then true else false
  | NInf, _ => true
  | _, PInf => true
  | _, _ => false
  end.

(* One element of the arrays.  fn is the inner routine at the parameters of the element, with
   its value and its derivative (fx_index); it acts on the element alone. *)
Record elem := { e_fn : xf -> xf * xf; e_y : xf; e_x : xf; e_sel : bool; e_min : xf; e_max : xf }.

(* the values of the loop for one element, and whether it is still selected *)
Record hstate := { h_a : xf; h_b : xf; h_c : xf; h_min : xf; h_max : xf; h_x : xf; h_sel : bool }.

(* mp1.py 1262-1281: the choice of the next guess *)
Definition next_guess (paranoid : bool) (s : hstate) : xf :=
  let iab := xlt (h_a s) (h_b s) in
  let ibc := xlt (h_b s) (h_c s) in
  let ica := xlt (h_c s) (h_a s) in
  let x := if Bool.eqb iab ica then h_a s else h_x s in
  let x := if Bool.eqb iab ibc then h_b s else x in
  let x := if Bool.eqb ibc ica then h_c s else x in
  if paranoid then
    let x := if xlt (h_a s) (h_min s) || xlt (h_max s) (h_a s) then h_c s else x in
    if xlt (h_b s) (h_min s) || xlt (h_max s) (h_b s) then h_c s else x
  else
    if xlt x (h_min s) || xlt (h_max s) (h_a s) then h_c s else x.

(* mp1.py 1284-1322: the body of the loop for a selected element *)
Definition hstep (paranoid : bool) (ep : R) (fn : xf -> xf * xf) (y : xf) (iswap : bool) (s : hstate) : hstate :=
  let x := next_guess paranoid s in
  let '(yy, yyx) := fn x in
  let proj := xadd x (xdiv (xsub y yy) yyx) in
  let low := xorb (xle yy y) iswap in
  let lo := if low then x else h_min s in
  let hi := if low then h_max s else x in
  {| h_a := if low then proj else h_a s;
     h_b := if low then h_b s else proj;
     h_c := xhalf (xadd hi lo);
     h_min := lo; h_max := hi; h_x := x;
     h_sel := xlt (Fin ep) (xabs (xdiv (xsub hi lo) x)) && xlt (Fin ep) (xabs (xdiv (xsub yy y) y)) |}.

(* mp1.py 1236-1326: `while Ids.any(): if count>Nmax: return ...`: at most Nmax+1 passes.  The
   passes of different elements do not interact, and an element that is not selected any more
   keeps its values. *)
Fixpoint hloop (n : nat) (paranoid : bool) (ep : R) (fn : xf -> xf * xf) (y : xf) (iswap : bool) (s : hstate) : hstate :=
  match n with
  | O => s
  | S n' => if h_sel s then hloop n' paranoid ep fn y iswap (hstep paranoid ep fn y iswap s) else s
  end.

(* mp1.py 1184-1207: evaluation at the limits *)
Definition hstart (e : elem) : bool * bool * hstate :=
  let '(ya, dya) := e_fn e (e_min e) in
  let '(yb, dyb) := e_fn e (e_max e) in
  let iswap := xle (e_y e) ya in
  let bad := negb (xorb iswap (xle (e_y e) yb)) in
  (iswap, bad,
   {| h_a := xadd (e_min e) (xdiv (xsub (e_y e) ya) dya);
      h_b := xadd (e_max e) (xdiv (xsub (e_y e) yb) dyb);
      h_c := xhalf (xadd (e_min e) (e_max e));
      h_min := e_min e; h_max := e_max e; h_x := e_x e; h_sel := true |}).
Definition not_bracketed (e : elem) : bool := snd (fst (hstart e)).
Definition solve_elem (paranoid : bool) (ep : R) (Nmax : nat) (e : elem) : hstate :=
  hloop (S Nmax) paranoid ep (e_fn e) (e_y e) (fst (fst (hstart e))) (snd (hstart e)).

(* mp1.py 1083-1329.  oob is config['def_oob']; the array x is the result, the boolean says
   that the warning about unconverged elements was printed (1237). *)
Definition hybrid1 (paranoid : bool) (ep : R) (Nmax : nat) (oob : xf) (es : list elem) : res (list xf * bool) :=
  if existsb e_sel es && forallb (fun e => negb (e_sel e) || not_bracketed e) es then Err PMParamError
  else Ok (map (fun e => if e_sel e then
                           (if not_bracketed e then oob else h_x (solve_elem paranoid ep Nmax e))
                         else e_x e) es,
           existsb (fun e => e_sel e && negb (not_bracketed e) && h_sel (solve_elem paranoid ep Nmax e)) es).

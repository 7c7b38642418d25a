(* Independent vocabulary for the bracketing solver (C44). *)
From Coq Require Import Reals List.
From Verif Require Import Model_Hybrid.
Import ListNotations.
Local Open Scope R_scope.
Local Open Scope list_scope.

(* fn computes f on [a, b], with some slope that is a number or an infinity *)
Definition computes (fn : xf -> xf * xf) (f : R -> R) (a b : R) : Prop :=
  forall x, a <= x <= b -> exists m, fn (Fin x) = (Fin (f x), m) /\ m <> NaN.
(* the target is not met with slope zero at the limit x (the Newton step would be 0/0) *)
Definition not_flat_root (fn : xf -> xf * xf) (f : R -> R) (y x : R) : Prop :=
  ~ (f x = y /\ snd (fn (Fin x)) = Fin 0).
(* the limits have the target between them, as the solver tests it *)
Definition bracketed (f : R -> R) (a b y : R) : Prop := f a < y <= f b \/ f b < y <= f a.

(* an inversion problem: find x in [a, b] with f x = y *)
Record problem (e : elem) (f : R -> R) (a b y : R) : Prop :=
  { pr_min : e_min e = Fin a; pr_max : e_max e = Fin b; pr_y : e_y e = Fin y; pr_le : a <= b;
    pr_fn : computes (e_fn e) f a b;
    pr_a : not_flat_root (e_fn e) f y a; pr_b : not_flat_root (e_fn e) f y b }.
(* the same problem with a routine that may differ outside the limits *)
Definition same_inside (e e' : elem) : Prop :=
  e_y e' = e_y e /\ e_x e' = e_x e /\ e_sel e' = e_sel e /\ e_min e' = e_min e /\ e_max e' = e_max e /\
  forall a b, e_min e = Fin a -> e_max e = Fin b ->
    forall x, a <= x <= b -> e_fn e' (Fin x) = e_fn e (Fin x).
(* v solves the problem to the relative tolerance ep, in the value or in the argument *)
Definition good_root (f : R -> R) (a b y ep v : R) : Prop :=
  Rabs (f v - y) <= ep * Rabs y \/
  exists r, a <= r <= b /\ f r = y /\ Rabs (v - r) <= ep * Rabs v.

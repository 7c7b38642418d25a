(* Independent vocabulary for the generic solver (C55, C73). *)
From Coq Require Import Reals List String.
From Verif Require Import Base Model_Hybrid Model_Solve.
Import ListNotations.
Local Open Scope R_scope.
Local Open Scope list_scope.

(* the value of an argument of the call: the keyword, or else the default *)
Definition given (S : solver) (kw : sargs) (k : string) : option sarg :=
  match dget k kw with Some v => Some v | None => dget k (s_defaults S) end.
(* the target, positional or under the name of the property *)
Definition target_is (S : solver) (y : option sarg) (kw : sargs) (t : sarg) : Prop :=
  exists name, prop_name S = Ok name /\
    ((y = Some t /\ given S kw name = None) \/ (y = None /\ given S kw name = Some t)).
(* what element i of a call sees of an argument: iterables of one element are not iterated *)
Definition at_element (i : nat) (a : sarg) : sarg :=
  match a with
  | Vec l => if Nat.eqb (List.length l) 1 then a else Sca (nth i l NaN)
  | Sca x => a
  end.
Definition target_at (i : nat) (t : sarg) : xf :=
  match t with
  | Sca x => x
  | Vec l => if Nat.eqb (List.length l) 1 then nth 0 l NaN else nth i l NaN
  end.
(* a are the arguments of element i with the parameter x *)
Definition element_args (S : solver) (kw : sargs) (i : nat) (x : xf) (a : sargs) : Prop :=
  forall name, prop_name S = Ok name -> forall k,
    dget k a = if String.eqb k (s_param S) then Some (Sca x)
               else if String.eqb k name then None
               else option_map (at_element i) (given S kw k).
(* the property at some arguments *)
Definition property (S : solver) (a : sargs) : res xf :=
  match s_mode S with
  | MFdf g => do r <- g a; Ok (fst r)
  | MF _ f | MFDf _ f _ => f a
  end.
(* the functions look at the names and values of their arguments only *)
Definition same_args (a b : sargs) : Prop := forall k, dget k a = dget k b.
Definition same_but (p : string) (a b : sargs) : Prop := forall k, k <> p -> dget k a = dget k b.
Definition well_behaved (S : solver) : Prop :=
  match s_mode S with
  | MFdf g => forall a b, same_args a b -> g a = g b
  | MF _ f => forall a b, same_args a b -> f a = f b
  | MFDf _ f df => forall a b, same_args a b -> f a = f b /\ df a = df b
  end.
(* the guess and the limits are numbers, or functions that ignore the parameter *)
Definition ignores_parameter (S : solver) : Prop :=
  match s_init S with Some (GFun f) => forall a b, same_but (s_param S) a b -> f a = f b | _ => True end /\
  match s_lim S with Some (LFun f) => forall a b, same_but (s_param S) a b -> f a = f b | _ => True end.
(* the properties never raise when the parameter is among their arguments; the guess and the
   limits are numbers *)
Definition never_raises (S : solver) : Prop :=
  (forall a x, dget (s_param S) a = Some (Sca x) ->
    match s_mode S with
    | MFdf g => exists r, g a = Ok r
    | MF _ f => exists r, f a = Ok r
    | MFDf _ f df => (exists r, f a = Ok r) /\ exists r, df a = Ok r
    end) /\
  match s_init S with Some (GFun _) => False | _ => True end /\
  match s_lim S with Some (LFun _) => False | _ => True end /\
  (s_init S = None -> s_lim S <> None).
(* the lengths of the iterables agree *)
Definition same_lengths (l : list sarg) (n : nat) : Prop :=
  forall a, In (Vec a) l -> List.length a = 1%nat \/ List.length a = n.
(* a property that is a function F of the parameter alone, with its derivative F' *)
Definition at_param (p : string) (F : R -> R) (f : sargs -> res xf) : Prop :=
  forall a x, dget p a = Some (Sca (Fin x)) -> f a = Ok (Fin (F x)).
Definition property_is (S : solver) (F F' : R -> R) : Prop :=
  match s_mode S with
  | MFdf g => forall a x, dget (s_param S) a = Some (Sca (Fin x)) -> g a = Ok (Fin (F x), Fin (F' x))
  | MF _ f => False
  | MFDf _ f df => at_param (s_param S) F f /\ at_param (s_param S) F' df
  end.
Definition clamp (lo hi x : R) : R := Rmax (Rmin x hi) lo.
Definition tolerance (sm ep t : R) : R := Rmax sm (Rabs (ep * t)).
(* a property that is a straight line; the slope is given with it or estimated by the solver *)
Definition line_like (S : solver) (m b : R) : Prop :=
  match s_mode S with MF _ f => at_param (s_param S) (fun x => m * x + b) f | _ => property_is S (fun x => m * x + b) (fun _ => m) end.

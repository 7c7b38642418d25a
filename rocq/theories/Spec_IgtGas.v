(* Vocabulary for the gas law and the identities of dynamic mixtures. *)
From Coq Require Import Reals List String.
From Verif Require Import Base Model_Num Model_Units Model_Igas Model_Igtools Spec_Units Spec_Igtools.
Import ListNotations.
Local Open Scope R_scope.
Local Open Scope string_scope.
Local Open Scope list_scope.

(* the arguments of a call by name: keyword arguments, then positional T, p *)
Definition named_args (varg : list nd) (kw : list (string * nd)) : list (string * nd) :=
  kw ++ combine ["T"; "p"] varg.
(* every argument is a number or an array with as many dimensions as the mixture *)
Definition like_mixture (m : mix) (varg : list nd) (kw : list (string * nd)) : Prop :=
  forall k a, In (k, a) (named_args varg kw) -> nsh a = [] \/ List.length (nsh a) = List.length (shape m).
(* total amount (kmol) and mean molecular weight (kg/kmol) of the mixture at an index *)
Definition total_amount (m : mix) (n : string -> list nat -> R) (i : list nat) : R :=
  rsum (fun s => n s i) (x_c m).
Definition mean_weight (P : pool) (m : mix) (n : string -> list nat -> R) (i : list nat) : R :=
  rsum (fun s => n s i * mw_of P s) (x_c m) / total_amount m n i.

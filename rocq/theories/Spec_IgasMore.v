(* The entries of the dictionary returned by state() and the methods of the same name. *)
From Coq Require Import Reals List String.
From Verif Require Import Base Model_Num Model_Units Model_Defaults Model_Igas.
Import ListNotations.
Local Open Scope string_scope.
Local Open Scope list_scope.

Definition state_entries (g : gas) (E : env) : list (string * (list arr -> list (string * arr) -> res arr)) :=
  [("T", m_T g E); ("p", m_p g E); ("d", m_d g E); ("v", m_v g E); ("h", m_h g E); ("e", m_e g E);
   ("s", m_s g E); ("cp", m_cp g E); ("cv", m_cv g E); ("gam", m_gam g E)].

(* F is increasing on [lo, hi], F' is its slope, and slopes lie between m and M *)
Local Open Scope R_scope.
Definition steep (F F' : R -> R) (lo hi m M : R) : Prop :=
  (forall t, lo <= t <= hi -> m <= F' t <= M) /\
  (forall a b, lo <= a <= b -> b <= hi -> m * (b - a) <= F b - F a <= M * (b - a)).

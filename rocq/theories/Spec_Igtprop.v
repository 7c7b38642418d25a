(* Vocabulary for the properties of dynamic mixtures. *)
From Coq Require Import Reals List String.
From Verif Require Import Base Model_Num Model_Units Model_Igas Model_Igmix Model_Igtools Model_Igtprop
  Spec_Units Spec_Igas Spec_Igmix Spec_Igtools.
Import ListNotations.
Local Open Scope R_scope.
Local Open Scope string_scope.
Local Open Scope list_scope.

(* the method of a dynamic mixture for each property *)
Definition dynamic_method (q : quantity_of) : pool -> env -> mix -> list nd -> list (string * nd) -> res nd :=
  match q with
  | PT => n_T | Pp => n_p | Pd => n_d | Pv => n_v | Pcp => n_cp | Pcv => n_cv | Pgam => n_gam
  | Ph => n_h | Pe => n_e | Ps => n_s | Pg => n_g | Pf => n_f
  end.

(* The mixture's constituents are loaded species, K (kelvin) is in the range of each of them,
   and no amount is negative *)
Definition usable_at (P : pool) (E : env) (m : mix) (n : string -> list nat -> R) (K : R) : Prop :=
  mixture_ok m /\ x_c m <> [] /\ amounts_known m n /\
  (forall s, In s (x_c m) -> exists g, dget s P = Some g /\ species E g /\
     nth 0 (g_Tlim g) 0 <= K <= last (g_Tlim g) 0).

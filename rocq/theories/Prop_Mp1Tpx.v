(* Property theorems C91: states of the multi-phase class given by temperature, pressure and
   quality together, src/pyromat/registry/mp1.py. *)
From Coq Require Import Reals List String Lra.
From Verif Require Import Base Model_Igas Spec_Igas Model_Mp1Calls Spec_Mp1Calls
  Proof_Mp1Tpx Proof_Mp1CallsEx Proof_Mp1ElemEx.
Import ListNotations.
Local Open Scope R_scope.
Local Open Scope string_scope.
Local Open Scope list_scope.

(* With a negative quality the call is the one with the temperature and the pressure alone: same
   values, same errors, and the quality given is reported. *)
Theorem C91_single : forall D E fuel z, mp_sizes D E z ->
  forall m (T p : arr) x, In m (mp_methods D E fuel) -> -1 <= x < 0 ->
  m [] [("T", T); ("p", p); ("x", [Some x])] =
  do y <- m [] [("T", T); ("p", p)]; Ok (fst y, repeat (Some x) (List.length (snd y))).
Proof. exact single_methods. Qed.
Print Assumptions C91_single.

(* Whenever the temperature and the quality determine a state, giving a pressure as well makes no
   difference, whether or not it is the vapor pressure. *)
Theorem C91_mixture : forall D E fuel z, mp_sizes D E z ->
  forall m (T x : arr) p y, In m (mp_methods D E fuel) -> m [] [("T", T); ("x", x)] = Ok y ->
  in_range (mp_plim D) (p * z_kP z) ->
  m [] [("T", T); ("p", [Some p]); ("x", x)] = Ok y.
Proof. exact mixture_methods. Qed.
Print Assumptions C91_mixture.

Theorem C91_mixture_state : forall D E fuel z, mp_sizes D E z ->
  forall (T x : arr) p y, mm_state D E fuel [] [("T", T); ("x", x)] = Ok y ->
  in_range (mp_plim D) (p * z_kP z) ->
  mm_state D E fuel [] [("T", T); ("p", [Some p]); ("x", x)] = Ok y.
Proof. exact mixture_state. Qed.
Print Assumptions C91_mixture_state.

(* The converse fails above the critical temperature: the temperature and the quality alone are
   refused, but with a pressure the answer is nan, for the temperature too, and nothing is raised. *)
Theorem C91_above_critical_refuted : forall fuel,
  mm_T exP exE fuel [] [("T", [Some 700]); ("x", [Some (1/2)])] = Err PMParamError /\
  mm_T exP exE fuel [] [("T", [Some 700]); ("p", [Some 1]); ("x", [Some (1/2)])] = Ok ([None], [None]).
Proof. exact above_critical. Qed.
Print Assumptions C91_above_critical_refuted.

(* a gas at 700 K and 1 bar, and a mixture at 500 K with any pressure up to 1000 bar *)
Example C91_instance : forall fuel, mp_sizes exP exE exz /\
  (exists r, mm_d exP exE fuel [] [("T", [Some 700]); ("p", [Some 1])] = Ok ([Some r], [Some (-1)]) /\
    mm_d exP exE fuel [] [("T", [Some 700]); ("p", [Some 1]); ("x", [Some (-1)])] = Ok ([Some r], [Some (-1)])) /\
  mm_s exP exE 0 [] (kTx (1/4)) = Ok ([Some (18 / 1000 * (3/4 * exs 900 + 1/4 * exs 9))], [Some (1/4)]) /\
  (forall q, 0 <= q <= 1000 -> mm_s exP exE 0 [] [("T", [Some 500]); ("p", [Some q]); ("x", [Some (1/4)])] = mm_s exP exE 0 [] (kTx (1/4))).
Proof. exact inst_C91. Qed.

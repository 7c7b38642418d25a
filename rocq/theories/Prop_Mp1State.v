(* Property theorems C78: the method state() of the multi-phase class,
   src/pyromat/registry/mp1.py, against the separate methods. *)
From Coq Require Import Reals List String.
From Verif Require Import Base Model_Igas Spec_Igas Model_Mp1Calls Spec_Mp1 Spec_Mp1Calls Proof_Mp1State
  Proof_Mp1CallsEx Proof_Mp1StateEx.
Import ListNotations.
Local Open Scope R_scope.
Local Open Scope string_scope.
Local Open Scope list_scope.

(* Every call of state() that returns reports the temperature, pressure, density, specific volume and quality
   that T(), p(), d(), v() and x() return for the same arguments (and quality=True). *)
Theorem C78_coordinates : forall D E fuel z, mp_sizes D E z -> forall varg kw st,
  mm_state D E fuel varg kw = Ok st ->
  mm_T D E fuel varg kw = Ok (o_T st, o_x st) /\ mm_p D E fuel varg kw = Ok (o_p st, o_x st) /\
  mm_d D E fuel varg kw = Ok (o_d st, o_x st) /\ mm_v D E fuel varg kw = Ok (o_v st, o_x st) /\
  mm_x D E fuel varg kw = Ok (o_x st).
Proof. exact state_coordinates. Qed.
Print Assumptions C78_coordinates.

(* It fails exactly when T() fails, with the same exception. *)
Theorem C78_failures : forall D E fuel z, mp_sizes D E z -> forall varg kw e,
  mm_state D E fuel varg kw = Err e <-> mm_T D E fuel varg kw = Err e.
Proof. exact state_failure. Qed.
Print Assumptions C78_failures.

(* The same for e(), h(), s(), cp() and gam().  What is missing: arrays of several states of a substance with
   critical point terms (the `.any()` tests of _ar make these methods treat the states of an array together,
   and state() forms the arrays differently). *)
Theorem C78_properties_partial : forall D E fuel z, mp_sizes D E z -> forall varg kw st,
  mm_state D E fuel varg kw = Ok st ->
  ar_coef2 (mp_AR D) = None \/ List.length (o_x st) = 1%nat ->
  mm_e D E fuel varg kw = Ok (o_e st, o_x st) /\ mm_h D E fuel varg kw = Ok (o_h st, o_x st) /\
  mm_s D E fuel varg kw = Ok (o_s st, o_x st) /\ mm_cp D E fuel varg kw = Ok (o_cp st, o_x st) /\
  mm_gam D E fuel varg kw = Ok (o_gam st, o_x st).
Proof. exact state_properties. Qed.
Print Assumptions C78_properties_partial.

(* Wherever state() reports a number for cv it is the one cv() returns, unless cv() fails (C75).  At saturated
   states state() reports nan, as documented. *)
Theorem C78_cv_partial : forall D E fuel z, mp_sizes D E z -> forall varg kw st i y c x,
  mm_state D E fuel varg kw = Ok st ->
  ar_coef2 (mp_AR D) = None \/ List.length (o_x st) = 1%nat ->
  nth_error (o_cv st) i = Some (Some y) -> mm_cv D E fuel varg kw = Ok (c, x) ->
  x = o_x st /\ nth_error c i = Some (Some y).
Proof. exact state_cv. Qed.
Print Assumptions C78_cv_partial.

(* f and g are computed from e, h and s; they are still those of f() and g(), for data whose two groups have the same
   temperature scale *)
Theorem C78_free_energies_partial : forall D E fuel z, mp_sizes D E z -> forall varg kw st,
  mm_state D E fuel varg kw = Ok st ->
  ar_coef2 (mp_AR D) = None \/ List.length (o_x st) = 1%nat ->
  ao_Tscale (mp_AO D) = ar_Tscale (mp_AR D) ->
  exists f g, mm_f D E fuel varg kw = Ok (f, o_x st) /\ mm_g D E fuel varg kw = Ok (g, o_x st) /\
    (forall i y, nth_error (o_f st) i = Some (Some y) -> nth_error f i = Some (Some y)) /\
    (forall i y, nth_error (o_g st) i = Some (Some y) -> nth_error g i = Some (Some y)).
Proof. exact state_free. Qed.
Print Assumptions C78_free_energies_partial.

(* and they are numbers wherever the temperature, e, s (and h) are *)
Theorem C78_free_energies_defined : forall D E fuel z, mp_sizes D E z -> forall varg kw st i T e s,
  mm_state D E fuel varg kw = Ok st ->
  nth_error (o_T st) i = Some (Some T) -> nth_error (o_e st) i = Some (Some e) -> nth_error (o_s st) i = Some (Some s) ->
  (exists f, nth_error (o_f st) i = Some (Some f)) /\
  forall h, nth_error (o_h st) i = Some (Some h) -> exists g, nth_error (o_g st) i = Some (Some g).
Proof. exact state_free_defined. Qed.
Print Assumptions C78_free_energies_defined.

(* the mixture at 500 K and quality 1/4, and the liquid at 500 K and 60 kmol/m3 *)
Example C78_instance : mp_sizes exP exE exz /\ ar_coef2 (mp_AR exP) = None /\
  ao_Tscale (mp_AO exP) = ar_Tscale (mp_AR exP) /\
  (exists st, mm_state exP exE 0 [] (kTx (1/4)) = Ok st /\
     o_T st = [Some 500] /\ o_h st = [Some (2305 * 9 / 2)] /\ o_cv st = [None] /\
     (exists f g, o_f st = [Some f] /\ o_g st = [Some g])) /\
  (exists st, mm_state exP exE 0 [] [("T", [Some 500]); ("d", [Some 60])] = Ok st /\
     o_d st = [Some 60] /\ exists cv, o_cv st = [Some cv]).
Proof. exact inst_C78. Qed.

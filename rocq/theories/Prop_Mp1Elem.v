(* Property theorems C90: array calls of the multi-phase class, src/pyromat/registry/mp1.py. *)
From Coq Require Import Reals List String Lra.
From Verif Require Import Base Model_Igas Spec_Igas Model_Mp1Calls Spec_Mp1Calls Spec_Mp1Elem
  Proof_Mp1ElemCall Proof_Mp1CallsEx Proof_Mp1TsEx Proof_Mp1ElemEx.
Import ListNotations.
Local Open Scope R_scope.
Local Open Scope string_scope.
Local Open Scope list_scope.

(* Whatever pair or triple of properties the state is given by, and however the arguments are
   broadcast: element i of what an array call returns is what the scalar call with the elements i
   returns, value and quality alike.  The scalar call may instead be refused because the state is
   out of range, and then the array call shows nan for the temperature or the density of that
   element.  Whether other elements need more iterations, or fail, makes no difference.
   What is missing: data with critical point terms, where the elements do influence each other
   (C69), and elements whose pressure is out of range (next theorem but two). *)
Theorem C90_elementwise_partial : forall D E fuel z,
  ar_coef2 (mp_AR D) = None -> 0 < mp_Tt D < mp_Tc D -> mp_sizes D E z -> e_oob E = None ->
  forall i varg varg1 kw kw1 Ts qs ds qs',
  NoDup (map fst kw) -> pressure_in_range D z i varg kw -> scalar_call i varg varg1 kw kw1 ->
  mm_T D E fuel varg kw = Ok (Ts, qs) -> mm_d D E fuel varg kw = Ok (ds, qs') ->
  forall m ys xs y x, In m (mp_methods D E fuel) -> m varg kw = Ok (ys, xs) ->
  nth_error ys i = Some y -> nth_error xs i = Some x ->
  m varg1 kw1 = Ok ([y], [x]) \/
  (m varg1 kw1 = Err PMParamError /\ (nth_error Ts i = Some None \/ nth_error ds i = Some None)).
Proof. exact call_elementwise. Qed.
Print Assumptions C90_elementwise_partial.

(* the same for every entry of the dictionary of state() *)
Theorem C90_state_partial : forall D E fuel z,
  ar_coef2 (mp_AR D) = None -> 0 < mp_Tt D < mp_Tc D -> mp_sizes D E z -> e_oob E = None ->
  forall i varg varg1 kw kw1 Ts qs ds qs',
  NoDup (map fst kw) -> pressure_in_range D z i varg kw -> scalar_call i varg varg1 kw kw1 ->
  mm_T D E fuel varg kw = Ok (Ts, qs) -> mm_d D E fuel varg kw = Ok (ds, qs') ->
  forall st, mm_state D E fuel varg kw = Ok st -> (i < List.length (o_x st))%nat ->
  (exists st1, mm_state D E fuel varg1 kw1 = Ok st1 /\
     forall f, In f fields -> exists y, nth_error (f st) i = Some y /\ f st1 = [y]) \/
  (mm_state D E fuel varg1 kw1 = Err PMParamError /\ (nth_error Ts i = Some None \/ nth_error ds i = Some None)).
Proof. exact dict_elementwise. Qed.
Print Assumptions C90_state_partial.

(* the same for hsd() *)
Theorem C90_hsd_partial : forall D E fuel z,
  ar_coef2 (mp_AR D) = None -> 0 < mp_Tt D < mp_Tc D -> mp_sizes D E z -> e_oob E = None ->
  forall i varg varg1 kw kw1 Ts qs ds qs',
  NoDup (map fst kw) -> pressure_in_range D z i varg kw -> scalar_call i varg varg1 kw kw1 ->
  mm_T D E fuel varg kw = Ok (Ts, qs) -> mm_d D E fuel varg kw = Ok (ds, qs') ->
  forall hs ss dd xs h s d x, mm_hsd D E fuel varg kw = Ok (hs, ss, dd, xs) ->
  nth_error hs i = Some h -> nth_error ss i = Some s -> nth_error dd i = Some d -> nth_error xs i = Some x ->
  mm_hsd D E fuel varg1 kw1 = Ok ([h], [s], [d], [x]) \/
  (mm_hsd D E fuel varg1 kw1 = Err PMParamError /\ (nth_error Ts i = Some None \/ nth_error ds i = Some None)).
Proof. exact triple_elementwise. Qed.
Print Assumptions C90_hsd_partial.

(* A pressure beyond the limits is refused alone; in an array next to an acceptable one it is
   answered as if it were a saturated state, at some temperature, and nothing is marked. *)
Theorem C90_out_of_range_refuted : forall fuel,
  exists t, mm_T exL exE fuel [] (kpx [Some 110; Some 2000]) = Ok ([Some 400; Some t], [Some (1/2); Some (1/2)]) /\
  mm_T exL exE fuel [] (kpx [Some 110]) = Ok ([Some 400], [Some (1/2)]) /\
  mm_T exL exE fuel [] (kpx [Some 2000]) = Err PMParamError.
Proof. exact px_array. Qed.
Print Assumptions C90_out_of_range_refuted.

(* three temperatures and one density: a mixture, a temperature out of range, and a gas *)
Example C90_instance : forall fuel,
  mp_sizes exP exE exz /\ ar_coef2 (mp_AR exP) = None /\ 0 < mp_Tt exP < mp_Tc exP /\ e_oob exE = None /\
  mm_T exP exE fuel [] kE1 = Ok ([Some 500; None; Some 700], [Some (4/99); Some (-1); Some (-1)]) /\
  mm_d exP exE fuel [] kE1 = Ok ([Some 10; Some 10; Some 10], [Some (4/99); Some (-1); Some (-1)]) /\
  mm_T exP exE fuel [] (kE1T 700) = Ok ([Some 700], [Some (-1)]) /\ mm_T exP exE fuel [] (kE1T 2000) = Err PMParamError.
Proof. exact inst_C90. Qed.
Example C90_instance_calls :
  scalar_call 2 [] [] kE1 (kE1T 700) /\ scalar_call 1 [] [] kE1 (kE1T 2000) /\
  (forall i, pressure_in_range exP exz i [] kE1) /\ NoDup (map fst kE1).
Proof. exact kE1_calls. Qed.

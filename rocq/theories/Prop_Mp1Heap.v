(* Property theorems C89: the arrays a caller passes to the multi-phase property methods
   (src/pyromat/registry/mp1.py). *)
From Coq Require Import Reals List String.
From Verif Require Import Base Model_Num Model_Units Model_Igas Model_IgHeap Spec_IgHeap Model_Mp1Calls Spec_Mp1Calls Model_Mp1Heap Spec_Mp1Heap Proof_Mp1CallsEx Proof_Mp1TsEx
  Proof_Mp1Heap Proof_Mp1HeapEx.
Import ListNotations.
Local Open Scope R_scope.
Local Open Scope string_scope.
Local Open Scope list_scope.

(* For every substance, session and memory h, whatever the arguments (numbers or arrays of h) and
   whether the call succeeds or raises: the arrays that are not at risk keep their contents.
   Partial: the arrays at risk are those the code does write into (the refuted theorems below),
   and none of them may be passed under two names. *)
Theorem C89_unmodified_partial : forall D E fuel owns h varg kw, allocated h varg kw -> one_name D E fuel owns h varg kw ->
  forall m, In m mp_methods ->
  unmodified_except (at_risk D E fuel owns h varg kw) h (fst (fst m D E fuel owns varg kw h)).
Proof. exact kept_methods. Qed.
Print Assumptions C89_unmodified_partial.

Theorem C89_unmodified_several_partial : forall D E fuel owns h varg kw, allocated h varg kw -> one_name D E fuel owns h varg kw ->
  unmodified_except (at_risk D E fuel owns h varg kw) h (fst (hp_x D E fuel owns varg kw h)) /\
  unmodified_except (at_risk D E fuel owns h varg kw) h (fst (hp_hsd D E fuel owns varg kw h)) /\
  unmodified_except (at_risk D E fuel owns h varg kw) h (fst (hp_state D E fuel owns varg kw h)).
Proof. exact kept_several. Qed.
Print Assumptions C89_unmodified_several_partial.

(* The arrays returned hold what the same method returns for the values of the arguments (the
   methods of which the other properties speak), whatever the arrays share: none of the writes
   into the caller's arrays, and none of the arrays shared between the arguments and the results,
   changes an answer. *)
Theorem C89_answers_partial : forall D E fuel owns h varg kw, allocated h varg kw -> one_name D E fuel owns h varg kw ->
  forall m, In m mp_methods ->
  agrees2 (fst m D E fuel owns varg kw h) (snd m D E fuel (positionals h varg) (keywords h kw)).
Proof. exact values_methods. Qed.
Print Assumptions C89_answers_partial.

Theorem C89_answers_several_partial : forall D E fuel owns h varg kw, allocated h varg kw -> one_name D E fuel owns h varg kw ->
  agrees1 (hp_x D E fuel owns varg kw h) (mm_x D E fuel (positionals h varg) (keywords h kw)) /\
  agrees4 (hp_hsd D E fuel owns varg kw h) (mm_hsd D E fuel (positionals h varg) (keywords h kw)) /\
  agrees_state (hp_state D E fuel owns varg kw h) (mm_state D E fuel (positionals h varg) (keywords h kw)).
Proof. exact values_several. Qed.
Print Assumptions C89_answers_several_partial.

(* two arrays, of which none is at risk *)
Example C89_unmodified_instance : forall fuel owns, allocated safe [] k_safe /\ (forall l, ~ at_risk exP exE fuel owns safe [] k_safe l) /\
  one_name exP exE fuel owns safe [] k_safe /\ passed [] k_safe "T" 0 /\ passed [] k_safe "d" 1.
Proof. exact inst_safe_mp. Qed.
(* three arrays, of which two are *)
Example C89_at_risk_instance : forall fuel, allocated hot [] k_hot /\ one_name exL si fuel [] hot [] k_hot /\
  at_risk exL si fuel [] hot [] k_hot 0 /\ at_risk exL si fuel [] hot [] k_hot 2 /\ ~ at_risk exL si fuel [] hot [] k_hot 1.
Proof. exact inst_risk_mp. Qed.

(* In kelvin, a temperature out of range is erased from the caller's array, when another one is in
   range. *)
Theorem C89_temperatures_refuted : forall D fuel owns m Ts d t1 t2, In m [hp_p; hp_e; hp_f; hp_g; hp_h; hp_s; hp_a; hp_cp; hp_cv; hp_gam] ->
  In (Some t1) Ts -> in_range (mp_Tlim D) t1 -> In (Some t2) Ts -> ~ in_range (mp_Tlim D) t2 ->
  let h' := fst (m D si fuel owns [] [("T", HArr 0); ("d", HVal [Some d])] [Ts]) in ~ In (Some t2) (nth 0 h' []) /\ ~ unmodified [Ts] h'.
Proof. exact T_changed. Qed.
Print Assumptions C89_temperatures_refuted.
Example C89_temperatures_instance : In (Some 300) [Some 300; Some 100] /\ in_range (mp_Tlim exP) 300 /\
  In (Some 100) [Some 300; Some 100] /\ ~ in_range (mp_Tlim exP) 100.
Proof. exact inst_T_out. Qed.

(* In pascal, so is a pressure out of range. *)
Theorem C89_pressures_refuted : forall D fuel owns m ps x p1 p2, In m [hp_p; hp_e; hp_f; hp_g; hp_h; hp_s; hp_a; hp_cp; hp_cv; hp_gam] ->
  0 <= x <= 1 -> In (Some p1) ps -> in_range (mp_plim D) p1 -> In (Some p2) ps -> ~ in_range (mp_plim D) p2 ->
  let h' := fst (m D si fuel owns [] [("p", HArr 0); ("x", HVal [Some x])] [ps]) in ~ In (Some p2) (nth 0 h' []) /\ ~ unmodified [ps] h'.
Proof. exact p_changed. Qed.
Print Assumptions C89_pressures_refuted.
Example C89_pressures_instance : In (Some 50000) [Some 50000; Some 200000000] /\ in_range (mp_plim exP) 50000 /\
  In (Some 200000000) [Some 50000; Some 200000000] /\ ~ in_range (mp_plim exP) 200000000.
Proof. exact inst_p_out. Qed.

(* T = [500, 700] K, p and x = [0.5, 0.5], with the critical point at 600 K: the caller's second
   temperature and second quality are erased. *)
Theorem C89_quality_refuted : forall fuel m, In m [hp_p; hp_e; hp_f; hp_g; hp_h; hp_s; hp_a; hp_cp; hp_cv; hp_gam] ->
  let h' := fst (m exL si fuel [] [] [("T", HArr 0); ("p", HArr 1); ("x", HArr 2)]
                   [[Some 500; Some 700]; [Some 1000000; Some 1000000]; [Some (1/2); Some (1/2)]]) in
  nth 0 h' [] = [Some 500; None] /\ nth 2 h' [] = [Some (1/2); None].
Proof. exact quality_changed. Qed.
Print Assumptions C89_quality_refuted.

(* A mixture of liquid (900 kg/m3) and vapor (9 kg/m3) given by its pressure and density, in Pa,
   kg and m3: the first call replaces the caller's density by that of the liquid, so that the same
   call with the same arrays then reports pure liquid. *)
Theorem C89_density_refuted : forall fuel d, 9 <= d < 900 -> exists h1 T1 x1 h2 T2 x2 q1,
  hp_T exL si fuel [] [] [("p", HArr 0); ("d", HArr 1)] [[Some 16500000]; [Some d]] = (h1, Ok (T1, x1)) /\
  hp_T exL si fuel [] [] [("p", HArr 0); ("d", HArr 1)] h1 = (h2, Ok (T2, x2)) /\
  nth 1 h1 [] = [Some 900] /\ hget h1 x1 = [Some q1] /\ 0 < q1 <= 1 /\ 1 / d = (1 - q1) / 900 + q1 / 9 /\ hget h2 x2 = [Some 0].
Proof. exact sat_twice. Qed.
Print Assumptions C89_density_refuted.

(* In kelvin the array returned by T() is the caller's own: what is written into one is written
   into the other. *)
Theorem C89_own_array_refuted : forall D fuel owns Ts d t1, In (Some t1) Ts -> in_range (mp_Tlim D) t1 ->
  exists h' x, hp_T D si fuel owns [] [("T", HArr 0); ("d", HVal [Some d])] [Ts] = (h', Ok (Whole 0, x)).
Proof. exact T_alias. Qed.
Print Assumptions C89_own_array_refuted.

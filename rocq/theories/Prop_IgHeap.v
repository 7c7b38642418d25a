(* Property theorems C56: the arrays a caller passes to the ideal gas property methods
   (src/pyromat/registry/ig.py, ig2.py). *)
From Coq Require Import Reals List String.
From Verif Require Import Base Model_Num Model_Units Model_Igas Model_IgHeap Spec_IgHeap Proof_IgasEx Proof_IgHeap Proof_IgHeapEx.
Import ListNotations.
Local Open Scope R_scope.
Local Open Scope string_scope.
Local Open Scope list_scope.

(* In any memory h, whatever the arguments (numbers or arrays of h, the same one twice included)
   and whether the call succeeds or raises.  Partial: two uses are excepted, in which the code does
   write into the caller's array (the refuted theorems below). *)
Theorem C56_unmodified_partial : forall m g E varg kw h, In m methods ->
  (kelvins E -> forall l, passed varg kw "T" l -> within_range g h l) ->
  (forall l, passed varg kw "s" l -> with_pressure varg kw -> ~ own_entropy E) ->
  unmodified h (fst (m g E varg kw h)).
Proof. exact unmodified_lemma. Qed.
Print Assumptions C56_unmodified_partial.
Example C56_unmodified_instance : let E := session "bar" 1 "bar" in let h := [[Some 300; Some 400]; [Some 1; Some 2]] in
  let kw := [("T", HArr 0); ("p", HArr 1)] in
  (kelvins E -> forall l, passed [] kw "T" l -> within_range g1 h l) /\
  (forall l, passed [] kw "s" l -> with_pressure [] kw -> ~ own_entropy E) /\
  passed [] kw "T" 0 /\ passed [] kw "p" 1 /\ kelvins E.
Proof. exact inst_safe. Qed.

(* In kelvin, h(T, p) erases from the caller's array every temperature out of range, when another
   one is in range. *)
Theorem C56_out_of_range_refuted : forall g dp u Ts p t1 t2,
  In (Some t1) Ts -> Tlow g <= t1 <= Thigh g -> In (Some t2) Ts -> ~ (Tlow g <= t2 <= Thigh g) ->
  ~ unmodified [Ts] (fst (hm_h g (session "Pa" dp u) [] [("T", HArr 0); ("p", HVal [Some p])] [Ts])) /\
  ~ In (Some t2) (nth 0 (fst (hm_h g (session "Pa" dp u) [] [("T", HArr 0); ("p", HVal [Some p])] [Ts])) []).
Proof. exact oob_changed. Qed.
Print Assumptions C56_out_of_range_refuted.
Example C56_out_of_range_instance : let E := session "Pa" 100000 "Pa" in
  In (Some 300) [Some 300; Some 100] /\ (Tlow g1 <= 300 <= Thigh g1) /\ ~ (Tlow g1 <= 100 <= Thigh g1) /\
  nth 0 (fst (hm_h g1 E [] [("T", HArr 0); ("p", HVal [Some 100000])] [[Some 300; Some 100]])) [] = [Some 300; None].
Proof. exact inst_oob. Qed.

(* In kJ, kmol and kelvin, T(s, p) replaces the entropies of the caller by those at the reference
   pressure, so that the same call repeated answers another question. *)
Theorem C56_entropy_refuted : forall g dp u Ss p s, 0 < g_pref g -> 0 < p -> p <> g_pref g -> In (Some s) Ss ->
  let h' := fst (hm_T g (session "Pa" dp u) [] [("s", HArr 0); ("p", HVal [Some p])] [Ss]) in
  In (Some (s + const_Ru * ln (p / g_pref g))) (nth 0 h' []) /\ ~ unmodified [Ss] h'.
Proof. exact entropy_changed. Qed.
Print Assumptions C56_entropy_refuted.
Example C56_entropy_instance : 0 < g_pref g1 /\ 0 < 200000 /\ 200000 <> g_pref g1 /\ In (Some 500) [Some 500].
Proof. cbn. repeat split; try apply Rlt_0_1; try (apply IZR_lt; reflexivity); [|now left]. intro H. apply eq_IZR in H. discriminate. Qed.

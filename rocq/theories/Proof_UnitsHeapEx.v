(* Instances of C92. *)
From Coq Require Import Reals ZArith List Bool String Lia Lra.
From Verif Require Import Base Model_Units Model_UnitsHeap Spec_Units Spec_UnitsHeap Proof_Units Proof_UnitsHeap.
Import ListNotations.
Local Open Scope R_scope.
Local Open Scope string_scope.
Local Open Scope list_scope.

(* an array of three floats, an array of one integer; every second element of the first, backwards *)
Definition mem0 : memory := [Floats [1; 2; 3]; Ints [4%Z]].
Definition back2 : view := {| buf := 0; cells := [2; 0]%nat |}.
Definition whole0 : view := {| buf := 0; cells := [0; 1; 2]%nat |}.
Definition ints1 : view := {| buf := 1; cells := [0]%nat |}.
Definition metres (m : memory) (v : value) (t : string) (ip : bool) := m_convert (units_of default_setup QLength) [] m v (Some "m") (Some t) None ip.
Lemma metres_cm m v ip : metres m v "cm" ip = apply m v ip (fun x => x * (1 / (1/100))).
Proof.
  unfold metres, m_convert. cbn [bind default_unit]. change (String.eqb "m" "cm") with false.
  change (tget (table (units_of default_setup QLength)) "m") with (Ok 1). change (tget (table (units_of default_setup QLength)) "cm") with (Ok (1/100)). cbn [bind].
  unfold pdiv. destruct (Req_EM_T (1/100) 0); [lra|]. reflexivity.
Qed.
Lemma floats0 : float_array mem0 back2 /\ float_array mem0 whole0 /\ int_array mem0 ints1.
Proof.
  split; [|split]; (split; [eexists; split; [reflexivity|]; split; [cbn; repeat constructor; cbn; intuition discriminate|cbn; intuition lia]|eexists; reflexivity]).
Qed.
Lemma inst_C92 : float_array mem0 back2 /\ int_array mem0 ints1 /\
  metres mem0 (VArr back2) "cm" true = ([Floats [100; 2; 300]; Ints [4%Z]], Ok (VArr back2)) /\
  metres mem0 (VArr back2) "cm" false = (mem0 ++ [Floats [300; 100]], Ok (VArr {| buf := 2; cells := [0; 1]%nat |})) /\
  metres mem0 (VArr ints1) "cm" false = (mem0 ++ [Floats [400]], Ok (VArr {| buf := 2; cells := [0]%nat |})) /\
  metres mem0 (VArr ints1) "cm" true = (mem0, Err ETypeError) /\
  metres mem0 (VNum 5) "cm" true = (mem0, Ok (VNum 500)) /\
  metres mem0 (VArr back2) "cubit" true = (mem0, Err EKeyError).
Proof.
  split; [apply floats0|]. split; [apply floats0|]. rewrite !metres_cm.
  assert (E1 : 1 * (1 / (1/100)) = 100) by lra. assert (E3 : 3 * (1 / (1/100)) = 300) by lra.
  assert (E4 : 4 * (1 / (1/100)) = 400) by lra. assert (E5 : 5 * (1 / (1/100)) = 500) by lra.
  split; [|split; [|split; [|split; [|split]]]]; try reflexivity.
  - unfold apply, store, vread, put. cbn [buf cells back2 mem0 nth map cell_value combine fold_left fst snd set_nth]. rewrite E1, E3. reflexivity.
  - unfold apply, result, fresh, vread. cbn [buf cells back2 mem0 nth map cell_value]. rewrite E1, E3. reflexivity.
  - unfold apply, result, fresh, vread. cbn [buf cells ints1 mem0 nth map cell_value]. rewrite E4. reflexivity.
  - unfold apply, result. rewrite E5. reflexivity.
Qed.
(* nothing to convert: the argument itself is returned *)
Lemma aliased : exists w, metres mem0 (VArr whole0) "m" false = (mem0, Ok w) /\
  exists m1, metres mem0 w "cm" true = (m1, Ok w) /\ vread mem0 whole0 = [1; 2; 3] /\ vread m1 whole0 = [100; 200; 300].
Proof.
  exists (VArr whole0). split; [reflexivity|]. rewrite metres_cm. eexists. split; [reflexivity|]. split; [reflexivity|].
  cbn. f_equal; [lra|]. f_equal; [lra|]. f_equal. lra.
Qed.

(* C95 : where the temperature at an entropy and a pressure is answered and where it is refused. *)
From Coq Require Import Reals ZArith List String.
From Verif Require Import Base Model_Units Model_If97 Model_If97Units Spec_Units Spec_Igas Spec_If97 Spec_If97Units
  Proof_If97Ex Proof_If97UnitsEx Proof_If97TsAns Proof_If97TsArr.
Import ListNotations.
Local Open Scope R_scope.
Local Open Scope string_scope.
Local Open Scope list_scope.

(* on the saturation curve below 165.292 bar, every entropy below the one the class itself gives at
   1073.15 K is answered.  What is missing: higher pressures and entropies, where the searches of
   regions 3 and 5 may end without an answer, and the other units (C95_pressure_refuted). *)
Theorem C95_answers_partial : forall D B E uT kT kP kV kE kM, units_known E (if_mw D) uT kT kP kV kE kM ->
  uT = "K" -> kT = 9/5 -> kP = 100000 -> kE = 1000 -> kM * if_mw D = 1 ->
  forall s p T sL sV s25, 0 < p < 165.292 -> if_pt D <= p <= if_pc D -> if_Ts D (Some p) = Some T ->
  phases D (s_g D) 1 (Some T) (Some p) = Ok (Some sL, Some sV) ->
  u_s D E (Some [Some 1073.15]) (Some [Some p]) None = Ok [Some s25] -> s < s25 -> entropy_inverses_fit B s p ->
  exists t x, u_T_s D E B [Some s] (Some [Some p]) = Ok [(Some t, Some x)].
Proof. exact u_T_s_answers. Qed.
Print Assumptions C95_answers_partial.

(* whatever the units, a pressure above 1000 bar is refused *)
Theorem C95_refuses : forall D B E uT kT kP kV kE kM, units_known E (if_mw D) uT kT kP kV kE kM ->
  forall s q, 1000 < q * kP / 100000 -> u_T_s D E B [Some s] (Some [Some q]) = Err PMParamError.
Proof. exact u_T_s_refuses. Qed.
Print Assumptions C95_refuses.

(* an entropy above the one the class gives at 2273.15 K is refused *)
Theorem C95_too_hot : forall D B E uT kT kP kV kE kM, units_known E (if_mw D) uT kT kP kV kE kM ->
  uT = "K" -> kT = 9/5 -> kP = 100000 -> kE = 1000 -> kM * if_mw D = 1 ->
  forall s p T sL sV s25 s5, p < 165.292 -> if_pt D <= p <= if_pc D -> if_Ts D (Some p) = Some T ->
  phases D (s_g D) 1 (Some T) (Some p) = Ok (Some sL, Some sV) ->
  u_s D E (Some [Some 1073.15]) (Some [Some p]) None = Ok [Some s25] ->
  u_s D E (Some [Some 2273.15]) (Some [Some p]) None = Ok [Some s5] ->
  sL <= s -> sV <= s -> s25 <= s -> s5 < s -> (40 <= p -> 5.85 <= s) ->
  u_T_s D E B [Some s] (Some [Some p]) = Err PMParamError.
Proof. exact u_T_s_too_hot. Qed.
Print Assumptions C95_too_hot.

(* at 10 bar: -1 is answered and 6 is refused *)
Example C95_answers_instance :
  (exists T sL sV, if_pt exW <= 10 <= if_pc exW /\ if_Ts exW (Some 10) = Some T /\
     phases exW (s_g exW) 1 (Some T) (Some 10) = Ok (Some sL, Some sV) /\ sL < 0 /\ sV < 0) /\
  (exists s25 s5, u_s exW barK (Some [Some 1073.15]) (Some [Some 10]) None = Ok [Some s25] /\
     u_s exW barK (Some [Some 2273.15]) (Some [Some 10]) None = Ok [Some s5] /\ -1 < s25 < 6 /\ s5 < 6) /\
  (forall s p, entropy_inverses_fit exB s p) /\ units_known barK (if_mw exW) "K" (9/5) (10^5) 1 1000 (1 / if_mw exW).
Proof. exact (conj sides_W (conj entropies_W (conj inversesB (unitsW 300 1)))). Qed.

(* arrays: an element of the answer is the answer for that element, and a call fails as one of its
   elements does *)
Theorem C95_elements : forall D B E uT kT kP kV kE kM, units_known E (if_mw D) uT kT kP kV kE kM ->
  forall s p v, u_T_s D E B s p = Ok v -> v <> [] /\ fits_to (List.length v) (Some s) /\ fits_to (List.length v) p /\
  forall i r, nth_error v i = Some r -> exists z, elem s i = Some z /\ u_T_s D E B [z] (element p i) = Ok [r].
Proof. exact T_s_elem. Qed.
Print Assumptions C95_elements.

Theorem C95_failures : forall D B E uT kT kP kV kE kM, units_known E (if_mw D) uT kT kP kV kE kM ->
  forall s p e n, (0 < n)%nat -> fits_to n (Some s) -> fits_to n p -> u_T_s D E B s p = Err e ->
  exists i z, (i < n)%nat /\ elem s i = Some z /\ u_T_s D E B [z] (element p i) = Err e.
Proof. exact T_s_fails. Qed.
Print Assumptions C95_failures.

Theorem C94_T_h_failures : forall D E uT kT kP kV kE kM, units_known E (if_mw D) uT kT kP kV kE kM ->
  forall h p e n, (0 < n)%nat -> fits_to n (Some h) -> fits_to n p -> u_T_h D E h p = Err e ->
  exists i z, (i < n)%nat /\ elem h i = Some z /\ u_T_h D E [z] (element p i) = Err e.
Proof. exact T_h_fails. Qed.
Print Assumptions C94_T_h_failures.

Example C95_elements_instance : (exists s T, u_T_s exW barK exB [Some s; Some s] (Some [Some 10]) = Ok [(Some T, Some (1/4)); (Some T, Some (1/4))]) /\
  (exists e, u_T_s exW barK exB [Some 0; Some 1] (Some [Some 2000]) = Err e) /\
  exists e, u_T_h exW barK [Some 0; Some 1] (Some [Some 2000]) = Err e.
Proof. exact (conj two_W (conj refused_W refused_h_W)). Qed.

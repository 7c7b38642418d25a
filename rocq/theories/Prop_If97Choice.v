(* C72 : which part of the release answers at an enthalpy and a pressure. *)
From Coq Require Import Reals ZArith List.
From Verif Require Import Base Model_If97 Spec_If97 Spec_If97Units Spec_If97Choice Proof_If97Ex Proof_If97Choice.
Local Open Scope R_scope.

(* the boundaries are the enthalpies of the phases, those at 623.15 K in region 1, on the boundary of
   regions 2 and 3, at 1073.15 K and 2273.15 K in region 5, the curve between 2b and 2c, and 40,
   45.257578905948, 165.292, 500 and 1000 bar.  What is missing is as in C72_T_h_partial. *)
Theorem C72_choice_partial : forall D h p T x, 0 < if_R D -> 0 < if_dc D -> 0 < if_Tc D -> 0 < p -> 0 < T -> boundaries_fit D p ->
  T_h D (Some h) (Some p) = Ok (Some T, Some x) -> chosen_h D h p T x.
Proof. exact T_h_choice. Qed.
Print Assumptions C72_choice_partial.

Example C72_choice_instance : boundaries_fit exW 10 /\ boundaries_fit exW 1000 /\
  exists T h, 0 < T /\ T_h exW (Some h) (Some 10) = Ok (Some T, Some (1/4)) /\ if_h exW true false None (Some 10) (Some (1/4)) = Ok (Some h).
Proof. exact (conj (proj1 boundariesW) (conj (proj2 boundariesW) T_hW)). Qed.

(* below 165.292 bar every enthalpy below that of 1073.15 K is answered.  Missing: above 165.292 bar, and
   above 1073.15 K, where the search of region 3 or region 5 may end without an answer. *)
Theorem C72_answers_partial : forall D h p, 0 < p < 165.292 -> boundaries_fit D p -> inverses_fit D h p ->
  (forall h25, enthalpy_of (gibbs5 D) p 1073.15 h25 -> h < h25) -> exists T x, T_h D (Some h) (Some p) = Ok (Some T, Some x).
Proof. exact T_h_answers. Qed.
Print Assumptions C72_answers_partial.

Example C72_answers_instance : boundaries_fit exW 10 /\ inverses_fit exW 2000 10 /\ forall h25, enthalpy_of (gibbs5 exW) 10 1073.15 h25 -> 2000 < h25.
Proof. exact (conj (proj1 boundariesW) answersW). Qed.

(* above 1000 bar no enthalpy is answered *)
Theorem C72_refuses : forall D h p, 1000 < p -> T_h D (Some h) (Some p) = Err PMParamError.
Proof. exact T_h_refuses. Qed.
Print Assumptions C72_refuses.

(* nor, below 165.292 bar, is an enthalpy above that of 2273.15 K *)
Theorem C72_too_hot : forall D h p, 0 < p < 165.292 -> boundaries_fit D p ->
  (forall t h', enthalpy_of (gibbs5 D) p t h' -> t = 1073.15 \/ t = 2273.15 -> h' < h) ->
  (forall Ts h', if_Ts D (Some p) = Some Ts -> enthalpy_of (gibbs1 D) p Ts h' \/ enthalpy_of (gibbs2 D) p Ts h' -> h' <= h) ->
  (45.257578905948 < p -> ~ below h (b2bc_p D (Some p))) ->
  T_h D (Some h) (Some p) = Err PMParamError.
Proof. exact T_h_too_hot. Qed.
Print Assumptions C72_too_hot.

Example C72_too_hot_instance : boundaries_fit exW 10 /\
  (forall t h', enthalpy_of (gibbs5 exW) 10 t h' -> t = 1073.15 \/ t = 2273.15 -> h' < 5000) /\
  (forall Ts h', if_Ts exW (Some 10) = Some Ts -> enthalpy_of (gibbs1 exW) 10 Ts h' \/ enthalpy_of (gibbs2 exW) 10 Ts h' -> h' <= 5000).
Proof. exact (conj (proj1 boundariesW) hotW). Qed.

(* above 165.292 bar: region 1, and region 2 from its boundary with region 3 up to 1073.15 K, where the
   method h itself answers on that boundary.  Missing: the searches of regions 3 and 5. *)
Theorem C72_answers_high_partial : forall D h p, 165.292 <= p <= 1000 -> boundaries_fit D p -> inverses_fit D h p ->
  (forall h13, enthalpy_of (gibbs1 D) p 623.15 h13 -> h < h13) \/
  ((forall T23 h23, b23_p D (Some p) = Some T23 -> enthalpy_of (gibbs2 D) p T23 h23 -> h23 <= h) /\
   (forall T23, b23_p D (Some p) = Some T23 -> exists v, if_h D false false (Some T23) (Some p) (Some (-1)) = Ok v) /\
   (forall h25, enthalpy_of (gibbs5 D) p 1073.15 h25 -> h < h25)) ->
  exists T, T_h D (Some h) (Some p) = Ok (Some T, Some (-1)).
Proof. exact T_h_answers_high. Qed.
Print Assumptions C72_answers_high_partial.

Example C72_answers_high_instance : boundaries_fit exW 1000 /\ inverses_fit exW 100 1000 /\
  forall h13, enthalpy_of (gibbs1 exW) 1000 623.15 h13 -> 100 < h13.
Proof. exact highW. Qed.

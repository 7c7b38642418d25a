(* Property theorems C85: conversions between dynamic and static mixtures, src/pyromat/igtools.py
   (toigmix, fromigmix). *)
From Coq Require Import Reals List String.
From Verif Require Import Base Model_Num Model_Units Model_Igas Model_Igmix Model_Igtools Model_Igtprop Model_Igtmix
  Spec_Units Spec_Igas Spec_Igmix Spec_Igtools Spec_Igtprop Spec_IgtGas Spec_Igtmix
  Proof_Igas Proof_IgasEx Proof_IgmixInst Proof_IgtInst Proof_Igtmix Proof_IgtmixEx.
Import ListNotations.
Local Open Scope R_scope.
Local Open Scope string_scope.
Local Open Scope list_scope.

(* toigmix() makes one static mixture for every index of the dynamic mixture, in memory order, that
   lists every constituent with its amount at the index; no two have the same name, and a single
   one has the name requested. *)
Theorem C85_list : forall m n sid, mixture_ok m -> amounts_known m n ->
  List.length (toigmix m sid) = fold_right Nat.mul 1%nat (shape m) /\ NoDup (map k_id (toigmix m sid)) /\
  (forall i, index_in (shape m) i -> exists r, nth_error (toigmix m sid) (rank (shape m) i) = Some r /\
     describes r (static_at m n i) /\
     k_id r = if Nat.ltb 1 (List.length (toigmix m sid)) then (sid ++ "_" ++ repr_nat (rank (shape m) i))%string else sid).
Proof. exact static_list. Qed.
Print Assumptions C85_list.
Example C85_list_instance : map k_id (toigmix (uniform ["ig.A"] [2%nat; 2%nat] [1]) "ig.new") = ["ig.new_0"; "ig.new_1"; "ig.new_2"; "ig.new_3"] /\
  map k_id (toigmix m2 "ig.new") = ["ig.new"] /\ rank [2%nat; 2%nat] [1%nat; 0%nat] = 2%nat.
Proof. exact inst_list. Qed.

(* The static mixture reports the mole fractions that the dynamic mixture reports at the index, and
   the molecular weight of the mixture. *)
Theorem C85_composition : forall P coll m n i,
  usable_mixture coll (static_at m n i) -> same_gases P coll (x_c m) -> mixture_ok m -> amounts_known m n -> index_in (shape m) i ->
  forall E, exists Xs o, mix_call coll (static_at m n i) E fresh CX = (o, Ok (VDict Xs)) /\ map fst Xs = x_c m /\
    x_mw o = mean_weight P m n i /\
    forall s x, In (s, x) Xs -> x * total_amount m n i = n s i /\ exists a, In (s, a) (X m) /\ nel a i = Some x.
Proof. exact composition. Qed.
Print Assumptions C85_composition.

(* For every temperature and pressure the property w that the static mixture reports, per configured
   unit of matter (kM kmol of the mixture), times the amount of the dynamic mixture is the property
   that the dynamic mixture reports at the index. *)
Theorem C85_properties : forall P coll E m n i uT kT kP kV kE kM t p q,
  usable_at P E m n (to_kelvin uT t) -> index_in (shape m) i ->
  usable_mixture coll (static_at m n i) -> same_gases P coll (x_c m) -> e_oob E = None ->
  (forall s, In s (x_c m) -> exists k, units_known E (mw_of P s) uT kT kP kV kE k) ->
  units_known E (mean_weight P m n i) uT kT kP kV kE kM -> 0 < p -> In q [Pcp; Pcv; Ph; Pe; Ps; Pg; Pf] ->
  exists v a w, dynamic_method q P E m [] [("T", scalar t); ("p", scalar p)] = Ok v /\ nel v i = Some a /\
    snd (mix_call coll (static_at m n i) E fresh (CProp q [] [("T", [Some t]); ("p", [Some p])])) = Ok (VArr [Some w]) /\
    a = total_amount m n i * (w / kM).
Proof. exact same_properties. Qed.
Print Assumptions C85_properties.

(* Finding: a constituent of amount zero is converted too, and makes the entropy of the static
   mixture nan (C37), while that of the dynamic mixture has a value. *)
Theorem C85_zero_amount_refuted : let E := session "Pa" 100000 "Pa" in
  (exists v a, dynamic_method Ps PAB E mZ [] [("T", scalar 500); ("p", scalar 100000)] = Ok v /\ nel v [0%nat] = Some a) /\
  (exists r, nth_error (toigmix mZ "ig.new") 0 = Some r /\ describes r mA0) /\
  snd (mix_call collAB mA0 E fresh (CProp Ps [] [("T", [Some 500]); ("p", [Some 100000])])) = Ok (VArr [None]).
Proof. exact zero_static. Qed.
Print Assumptions C85_zero_amount_refuted.

Example C85_instance : mixture_ok m2 /\ amounts_known m2 n2 /\ index_in (shape m2) [0%nat] /\
  usable_at PAB SK m2 n2 (to_kelvin "K" 500) /\ usable_mixture collAB (static_at m2 n2 [0%nat]) /\ same_gases PAB collAB (x_c m2) /\
  (forall s, In s (x_c m2) -> exists k, units_known SK (mw_of PAB s) "K" (9/5) 1 1 1000 k) /\
  units_known SK (mean_weight PAB m2 n2 [0%nat]) "K" (9/5) 1 1 1000 1.
Proof. exact inst_C85. Qed.

(* fromigmix() makes a dynamic mixture of one unit of matter (kM kmol) with the mole fractions that
   the static mixture reports, whether the unit of matter is one of mass or molar.
   What is missing: a unit of mass when the configured units of mass and molar amount differ in size
   (C67_mass_refuted). *)
Theorem C85_from_static_partial : forall P coll E md km kn uM kM,
  usable_mixture coll md -> same_gases P coll (map fst (m_contents md)) ->
  (forall s, In s (map fst (m_contents md)) -> full_sid s = s) ->
  mass_molar E km kn -> dget "unit_matter" (e_cfg E) = Some uM -> counts E km kn uM ->
  exists o Xs, mix_call coll md E fresh CX = (o, Ok (VDict Xs)) /\
  (kmoles (e_setup E) (x_mw o) uM = Some kM ->
  exists m, fromigmix P E coll md fresh = (o, Ok m) /\ mixture_ok m /\ shape m = [1%nat] /\ x_c m = map fst (m_contents md) /\
    forall s x, In (s, x) Xs -> amount m s [0%nat] = Some (x * kM)).
Proof. exact from_static. Qed.
Print Assumptions C85_from_static_partial.

(* Converted to a static mixture and back, the mixture at an index has the proportions it had. *)
Theorem C85_round_trip_partial : forall P coll E m n i km kn uM kM,
  usable_mixture coll (static_at m n i) -> same_gases P coll (x_c m) ->
  (forall s, In s (x_c m) -> full_sid s = s) ->
  mass_molar E km kn -> dget "unit_matter" (e_cfg E) = Some uM -> counts E km kn uM ->
  kmoles (e_setup E) (mean_weight P m n i) uM = Some kM ->
  exists o m', fromigmix P E coll (static_at m n i) fresh = (o, Ok m') /\ mixture_ok m' /\ shape m' = [1%nat] /\ x_c m' = x_c m /\
    forall s, In s (x_c m) -> amount m' s [0%nat] = Some (n s i / total_amount m n i * kM).
Proof. exact round_trip. Qed.
Print Assumptions C85_round_trip_partial.

(* in kilograms *)
Example C85_from_instance : let E := session2 "kmol" "kg" in
  (forall s, In s (x_c m2) -> full_sid s = s) /\ mass_molar E 1 1 /\ dget "unit_matter" (e_cfg E) = Some "kg" /\ counts E 1 1 "kg" /\
  kmoles (e_setup E) (mean_weight PAB m2 n2 [0%nat]) "kg" = Some (1 / mean_weight PAB m2 n2 [0%nat]).
Proof. exact inst_from. Qed.

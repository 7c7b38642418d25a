(* Property theorems C77 and C86: atoms and other views of a dynamic mixture, src/pyromat/igtools.py
   (atoms, todict, reshape). *)
From Coq Require Import Reals List String.
From Verif Require Import Base Model_Num Model_Units Model_Igas Model_Igmix Model_Igtools Model_Igtprop Model_Igtmix Model_Igtview
  Spec_Units Spec_Igas Spec_Igmix Spec_Igtools Spec_Igtprop Spec_IgtGas Spec_Igtmix Spec_Igtview
  Proof_IgmixInst Proof_IgtInst Proof_Igtview Proof_IgtviewEx.
Import ListNotations.
Local Open Scope R_scope.
Local Open Scope string_scope.
Local Open Scope list_scope.

(* ---- C77 : atoms ---- *)
(* atoms() has one entry for every sort of atom of a constituent and counts, at every index, the
   atoms of all constituents in the configured molar unit (kn kmol). *)
Theorem C77_count : forall A E km kn m n, mass_molar E km kn -> mixture_ok m -> amounts_known m n -> compositions A (x_c m) ->
  exists out, igt_atoms A E m = Ok out /\ NoDup (map fst out) /\
    (forall a, In a (map fst out) <-> exists s l, In s (x_c m) /\ A s = Ok l /\ In a (map fst l)) /\
    forall a v, In (a, v) out -> nsh v = shape m /\
      forall i, index_in (shape m) i -> exists x, nel v i = Some x /\ x * kn = rsum (fun s => n s i * atom_count A a s) (x_c m).
Proof. exact atoms_thm. Qed.
Print Assumptions C77_count.
Example C77_instance : mass_molar SK 1 1 /\ mixture_ok m2 /\ amounts_known m2 n2 /\ compositions atomsAB (x_c m2) /\
  rsum (fun s => n2 s [0%nat] * atom_count atomsAB "A" s) (x_c m2) = 4 /\ rsum (fun s => n2 s [0%nat] * atom_count atomsAB "B" s) (x_c m2) = 6.
Proof. exact inst_atoms. Qed.

(* Adding mixtures adds their atoms.  Missing: mixtures with different numbers of dimensions, which
   are added wrongly (C39_dimensions_refuted). *)
Theorem C77_sum_partial : forall A E km kn a b c na nb oa ob, mass_molar E km kn -> mixture_ok a -> mixture_ok b ->
  List.length (shape a) = List.length (shape b) -> amounts_known a na -> amounts_known b nb ->
  compositions A (x_c a) -> compositions A (x_c b) ->
  add a b = Ok c -> igt_atoms A E a = Ok oa -> igt_atoms A E b = Ok ob ->
  exists oc, igt_atoms A E c = Ok oc /\
    (forall x, In x (map fst oc) <-> In x (map fst oa) \/ In x (map fst ob)) /\
    forall x i, index_in (shape c) i ->
      shown oc x i = fadd (shown oa x (project (shape a) i)) (shown ob x (project (shape b) i)).
Proof. exact atoms_sum. Qed.
Print Assumptions C77_sum_partial.
Theorem C77_scaled : forall A E km kn a na c oa k, mass_molar E km kn -> mixture_ok a -> amounts_known a na -> compositions A (x_c a) ->
  mul a (scalar k) = Ok c -> igt_atoms A E a = Ok oa ->
  exists oc, igt_atoms A E c = Ok oc /\ forall x i, index_in (shape a) i -> shown oc x i = fmul (Some k) (shown oa x i).
Proof. exact atoms_scaled. Qed.
Print Assumptions C77_scaled.
Example C77_sum_instance : exists c oa ob, mixture_ok m3 /\ amounts_known m3 (nu ["ig.A"; "ig.B"; "ig.C"] [1; 2; 3]) /\
  compositions atomsAB (x_c m3) /\ List.length (shape m2) = List.length (shape m3) /\
  add m2 m3 = Ok c /\ igt_atoms atomsAB SK m2 = Ok oa /\ igt_atoms atomsAB SK m3 = Ok ob /\
  exists c', mul m2 (scalar 5) = Ok c'.
Proof. exact inst_atoms_sum. Qed.

(* The static mixture of the same composition names the same atoms; its counts, per mole of mixture,
   times the amount of mixture are those of the dynamic mixture. *)
Theorem C77_static : forall P coll A E km kn m n i, mass_molar E km kn -> mixture_ok m -> amounts_known m n -> index_in (shape m) i ->
  usable_mixture coll (static_at m n i) -> same_gases P coll (x_c m) -> same_compositions coll A (x_c m) ->
  exists out d, igt_atoms A E m = Ok out /\ snd (mix_call coll (static_at m n i) E fresh Catoms) = Ok (VDict d) /\
    (forall a, In a (map fst out) <-> In a (map fst d)) /\
    forall a, exists x, shown out a i = Some x /\
      x * kn = total_amount m n i * match dget a d with Some v => v | None => 0 end.
Proof. exact atoms_static. Qed.
Print Assumptions C77_static.
Example C77_static_instance : usable_mixture collAB (static_at m2 n2 [0%nat]) /\ same_gases PAB collAB (x_c m2) /\
  same_compositions collAB atomsAB (x_c m2) /\ index_in (shape m2) [0%nat].
Proof. exact inst_atoms_static. Qed.

(* ---- C86 : dictionaries and shapes ---- *)
(* todict() lists every constituent with its amounts in the unit asked for (k kmol for each
   substance).  Mass units are right only when the configured units correspond (`counts`). *)
Theorem C86_dictionary_partial : forall P E km kn units uM (k : string -> R) m, mass_molar E km kn -> counts E km kn uM -> mixture_ok m ->
  (forall s, In s (x_c m) -> 0 < mw_of P s /\ unit_size E units uM (mw_of P s) (k s)) -> x_c m <> [] ->
  exists d, todict P E units m = Ok d /\ map fst d = x_c m /\
    forall s v, In (s, v) d -> nsh v = shape m /\ forall i, nel v i = fdiv (amount m s i) (Some (k s)).
Proof. exact todict_thm. Qed.
Print Assumptions C86_dictionary_partial.
(* Finding: with kg and mol configured one kilomole of a substance of 20 kg/kmol is 0.02 kg. *)
Theorem C86_dictionary_refuted : exists d v, todict PAB (session2 "mol" "kmol") (Some "kg") (uniform ["ig.A"] [1%nat] [1]) = Ok d /\
  dget "ig.A" d = Some v /\ nel v [0%nat] = Some (2/100) /\ mw_of PAB "ig.A" = 20.
Proof. exact dict_mass_wrong. Qed.
Print Assumptions C86_dictionary_refuted.

(* In every unit, a mixture made of the dictionary of a mixture is the same mixture. *)
Theorem C86_round_trip : forall P E km kn units uM (k : string -> R) m, mass_molar E km kn -> mixture_ok m -> x_c m <> [] ->
  listed_in P (x_c m) -> (forall s, In s (x_c m) -> unit_size E units uM (mw_of P s) (k s)) ->
  exists d m', todict P E units m = Ok d /\ new_mix P E units d = Ok m' /\ x_c m' = x_c m /\ Spec_Igtools.same_mixture m m'.
Proof. exact round_thm. Qed.
Print Assumptions C86_round_trip.
Example C86_instance : let E := session2 "mol" "kg" in mass_molar E 1 (1/1000) /\ mixture_ok m2 /\ listed_in PAB (x_c m2) /\
  (forall s, In s (x_c m2) -> unit_size E (Some "lb") "lb" (mw_of PAB s) (1 / mw_of PAB s * (match si (e_setup E) QMass "lb" with Some k => k | None => 0 end))) /\
  counts E 1 (1/1000) "mol" /\ (forall s, In s (x_c m2) -> 0 < mw_of PAB s /\ unit_size E (Some "mol") "mol" (mw_of PAB s) (1/1000)).
Proof. exact inst_dict. Qed.

(* reshape() accepts exactly the shapes for the same number of mixtures, and every mixture stays
   what it was, at the same place in memory order. *)
Theorem C86_reshape : forall m t, mixture_ok m -> x_c m <> [] -> t <> [] ->
  (size t = size (shape m) -> exists m', reshape m t = Ok m' /\ mixture_ok m' /\ x_c m' = x_c m /\ shape m' = t /\
     (forall i, index_in t i -> exists j, index_in (shape m) j /\ rank t i = rank (shape m) j /\ forall s, amount m' s i = amount m s j) /\
     forall j, index_in (shape m) j -> exists i, index_in t i /\ rank t i = rank (shape m) j /\ forall s, amount m' s i = amount m s j) /\
  (size t <> size (shape m) -> reshape m t = Err EValueError).
Proof. exact reshape_thm. Qed.
Print Assumptions C86_reshape.
Theorem C86_reshape_back : forall m t m', mixture_ok m -> t <> [] -> reshape m t = Ok m' ->
  exists m'', reshape m' (shape m) = Ok m'' /\ Spec_Igtools.same_mixture m m''.
Proof. exact reshape_back. Qed.
Print Assumptions C86_reshape_back.
Example C86_reshape_instance : mixture_ok m23 /\ size [3; 2]%nat = size (shape m23) /\ size [4; 2]%nat <> size (shape m23) /\
  exists m', reshape m23 [3; 2]%nat = Ok m' /\ amount m' "ig.B" [2; 0]%nat = amount m23 "ig.B" [1; 1]%nat /\
    amount m23 "ig.B" [1; 1]%nat = Some (INR 10).
Proof. exact inst_reshape. Qed.

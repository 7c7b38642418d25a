(* Instances and counterexamples for dynamic mixtures as collections of substances. *)
From Coq Require Import Reals ZArith List String Ascii Bool Lia Lra.
From Verif Require Import Base Text Model_Num Model_Units Model_Igas Model_Igtools Model_Igtview Model_IgtList Spec_Units Spec_Igtools Spec_Igtview Spec_IgtList
  Proof_Units Proof_IgasEx Proof_IgmixInst Proof_IgtItems Proof_IgtInst Proof_IgtThm Proof_IgtList.
Import ListNotations.
Local Open Scope R_scope.
Local Open Scope string_scope.
Local Open Scope list_scope.

Definition prog : list change :=
  [Remove (KName "A"); Insert (KGas "ig.C") (scalar 2) None; Remove (KName "D"); Insert (KName "B") (scalar 1) None;
   Add (uniform ["ig.A"; "ig.C"] [1%nat] [1; 1]); Reshape [Rest; Dim 1]].
Lemma inst_session : NoDup (x_c m2) /\ distinct_operands prog /\
  exists m' h, run_changes PAB SK m2 prog = (m', h) /\ map snd h = [Ok tt; Ok tt; Err PMParamError; Err PMParamError; Ok tt; Ok tt] /\
    x_c m' = ["ig.B"; "ig.C"; "ig.A"] /\ shape m' = [1%nat; 1%nat].
Proof.
  split; [exact nodup_AB|]. split.
  - intros b [H|H]; cbn in H; intuition try discriminate. injection H0 as <-. cbn. repeat constructor; cbn; intuition discriminate.
  - do 2 eexists. split; [reflexivity|]. split; [reflexivity|]. split; reflexivity.
Qed.
Lemma inst_make : let E := session2 "kmol" "kg" in mass_molar E 1 1 /\ counts E 1 1 "kg" /\
  entries (GDict [(KName "A", scalar 20); (KGas "ig.B", two 1 2)]) [] [(KName "A", scalar 20); (KGas "ig.B", two 1 2)] /\
  usable_key PAB (KName "A") "ig.A" /\ usable_key PAB (KGas "ig.B") "ig.B" /\
  unit_size E None "kg" (mw_of PAB "ig.A") (1 / 20) /\ unit_size E None "kg" (mw_of PAB "ig.B") (1 / 40) /\
  NoDup ["ig.A"; "ig.B"] /\ shapes_combine [scalar 20; two 1 2] [1%nat] [2%nat].
Proof.
  cbv zeta. split; [apply mm_ex; reflexivity|]. split; [now left|]. split; [constructor|].
  split; [split; [reflexivity|split; [discriminate|exact I]]|]. split; [split; [reflexivity|split; [discriminate|now exists "B"]]|].
  split; [split; reflexivity|]. split; [split; reflexivity|].
  split; [exact nodup_AB|]. exists [1%nat]. split; [now left|]. exists [2%nat]. split; [|reflexivity].
  right. split; [discriminate|]. split; [now left|]. split; [reflexivity|]. intros j Hj. destruct j as [|j]; [|cbn in Hj; lia]. cbn. auto.
Qed.
Lemma inst_open : mixture_ok (uniform ["ig.A"] [2%nat; 3%nat] [1]) /\ filled [Rest; Dim 2] 3 [3%nat; 2%nat] /\ size [3%nat; 2%nat] = 6%nat /\
  exists m', reshape_to (uniform ["ig.A"] [2%nat; 3%nat] [1]) [Rest; Dim 2] = Ok m' /\ shape m' = [3%nat; 2%nat].
Proof.
  split; [apply uniform_ok; [discriminate|apply nodup_1]|]. split; [constructor; [now right|constructor; [now left|constructor]]|]. split; [reflexivity|].
  eexists. split; [reflexivity|reflexivity].
Qed.
(* ---- counterexamples ---- *)
Lemma kmol1 g a units : g_mw g > 0 -> units = None \/ units = Some "kmol" -> nd_matter SK g a units (Some "kmol") = Ok (np_map (fmul (Some (1 / 1))) a).
Proof.
  intros H U. unfold SK. apply (nd_matter_value (session2 "kmol" "kmol") "kg" "kmol" 1 1) with (uf := "kmol") (ut := "kmol") (kf := 1) (kt := 1);
    try reflexivity; [exact default_positive|exact H|destruct U as [-> | ->]; reflexivity].
Qed.
(* one substance under its two names is listed twice, and only the first entry is read *)
Lemma twice_wrong : exists m, make PAB SK (GDict [(KName "A", scalar 1); (KName "ig.A", scalar 2)]) None [] = Ok m /\
  x_c m = ["ig.A"; "ig.A"] /\ amount m "ig.A" [0%nat] = Some 1.
Proof.
  cbn [make]. unfold from_keys. cbn [init_keys find_subst]. change (get_gas PAB (full_sid "A")) with (Ok g1). change (get_gas PAB (full_sid "ig.A")) with (Ok g1). cbn [bind scalar nsh].
  do 2 (change (broadcast_shape [] [1%nat]) with (Ok [1%nat] : res (list nat)); cbn [bind fst snd init_rows]).
  change (gas_of PAB (full_sid (full_sid "A"))) with g1. change (gas_of PAB (full_sid (full_sid "ig.A"))) with g1.
  assert (G : g_mw g1 > 0) by (cbn; lra). rewrite !(kmol1 g1 _ None G) by auto.
  cbn [bind]. change (full_sid "A") with "ig.A". change (full_sid "ig.A") with "ig.A". eexists. split; [reflexivity|]. split; [reflexivity|].
  cbn. f_equal. field.
Qed.
(* keywords beside contents are ignored *)
Lemma keywords_wrong : exists m, make PAB SK (GGas "ig.A") None [("B", scalar 1)] = Ok m /\ contained m (IName "B") = Ok false.
Proof.
  cbn [make]. unfold from_keys. cbn [init_keys find_subst]. change (String.eqb (collection_of "ig.A") "ig") with true. cbv iota.
  change (get_gas PAB "ig.A") with (Ok g1). cbn [bind scalar nsh].
  change (broadcast_shape [] [1%nat]) with (Ok [1%nat] : res (list nat)). cbn [bind fst snd init_rows].
  change (gas_of PAB (full_sid "ig.A")) with g1. assert (G : g_mw g1 > 0) by (cbn; lra). rewrite !(kmol1 g1 _ None G) by auto.
  cbn [bind]. eexists. split; reflexivity.
Qed.
(* a substance of another collection is refused as an object, and accepted by its name *)
Lemma collection_wrong : exists m, make [("mp.W", g1)] SK (GDict [(KName "mp.W", scalar 1)]) None [] = Ok m /\ x_c m = ["mp.W"] /\
  make [("mp.W", g1)] SK (GDict [(KGas "mp.W", scalar 1)]) None [] = Err PMParamError.
Proof.
  cbn [make]. unfold from_keys. cbn [init_keys find_subst]. change (String.eqb (collection_of "mp.W") "ig") with false. cbv iota.
  change (get_gas [("mp.W", g1)] (full_sid "mp.W")) with (Ok g1). cbn [bind scalar nsh].
  change (broadcast_shape [] [1%nat]) with (Ok [1%nat] : res (list nat)). cbn [bind fst snd init_rows].
  change (gas_of [("mp.W", g1)] (full_sid (full_sid "mp.W"))) with g1. assert (G : g_mw g1 > 0) by (cbn; lra). rewrite !(kmol1 g1 _ None G) by auto.
  cbn [bind]. eexists. split; [reflexivity|]. split; reflexivity.
Qed.
(* an integer is always "in" the mixture *)
Lemma integers_wrong : contained m2 (IInt 7) = Ok true /\ nsubst m2 = 2%nat.
Proof. split; reflexivity. Qed.
(* a mixture without dimensions has no length *)
Lemma length_wrong : exists m', reshape_to m2 [] = Ok m' /\ len m' = Err ETypeError.
Proof. eexists. split; reflexivity. Qed.
(* an argument that is none of these raises something else than the library's error *)
Lemma other_wrong P E units kw : make P E GOther units kw = Err EException.
Proof. reflexivity. Qed.
Lemma inst_hill : tolist (fun s => if String.eqb s "ig.A" then Some [("H", 2%Z); ("C", 1%Z)] else None) m2 "hill" = Ok ["CH2"; "B"].
Proof. reflexivity. Qed.
Lemma inst_outcomes : meant (KGas "ig.A") = ["ig.A"] /\ In "ig.A" (x_c m2) /\ ~ In "ig.C" (x_c m2) /\ dget "ig.D" PAB = None.
Proof. split; [reflexivity|]. split; [now left|]. split; [cbn; intuition discriminate|reflexivity]. Qed.

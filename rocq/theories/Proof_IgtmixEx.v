(* Instances and a counterexample for C85. *)
From Coq Require Import Reals ZArith List String Bool Lia Lra.
From Verif Require Import Base Model_Num Model_Units Model_Igas Model_Igmix Model_Igtools Model_Igtprop Model_Igtmix
  Spec_Units Spec_Igas Spec_Igmix Spec_Igtools Spec_Igtprop Spec_IgtGas Spec_Igtmix
  Proof_Units Proof_Igas Proof_IgasUnits Proof_IgasEx Proof_Igmix Proof_IgmixProp Proof_IgmixInst
  Proof_Igtools Proof_IgtProp Proof_IgtInst Proof_IgtEx Proof_Igtmix.
Import ListNotations.
Local Open Scope R_scope.
Local Open Scope string_scope.
Local Open Scope list_scope.

Lemma same_AB : same_gases PAB collAB ["ig.A"; "ig.B"].
Proof.
  intros s [<-|[<-|[]]]; (split; [discriminate|]).
  - exists D1, (Some [("A", 1)]). left. split; reflexivity.
  - exists D2, (Some [("A", 1); ("B", 2)]). left. split; reflexivity.
Qed.
Lemma static_m2 : static_at m2 n2 [0%nat] = mAB.
Proof. reflexivity. Qed.
Lemma inst_C85 : mixture_ok m2 /\ amounts_known m2 n2 /\ index_in (shape m2) [0%nat] /\
  usable_at PAB SK m2 n2 (to_kelvin "K" 500) /\ usable_mixture collAB (static_at m2 n2 [0%nat]) /\ same_gases PAB collAB (x_c m2) /\
  (forall s, In s (x_c m2) -> exists k, units_known SK (mw_of PAB s) "K" (9/5) 1 1 1000 k) /\
  units_known SK (mean_weight PAB m2 n2 [0%nat]) "K" (9/5) 1 1 1000 1.
Proof.
  split; [exact ok_m2|]. split; [exact amounts_m2|]. split; [repeat constructor|]. split; [exact usable500|].
  split; [rewrite static_m2; exact usable_AB|]. split; [exact same_AB|]. split; [exact units_m2|exact units_mean].
Qed.
Lemma inst_list : map k_id (toigmix (uniform ["ig.A"] [2%nat; 2%nat] [1]) "ig.new") = ["ig.new_0"; "ig.new_1"; "ig.new_2"; "ig.new_3"] /\
  map k_id (toigmix m2 "ig.new") = ["ig.new"] /\ rank [2%nat; 2%nat] [1%nat; 0%nat] = 2%nat.
Proof. repeat split. Qed.
(* in kilograms and kmol *)
Lemma inst_from : let E := session2 "kmol" "kg" in
  (forall s, In s (x_c m2) -> full_sid s = s) /\ mass_molar E 1 1 /\ dget "unit_matter" (e_cfg E) = Some "kg" /\ counts E 1 1 "kg" /\
  kmoles (e_setup E) (mean_weight PAB m2 n2 [0%nat]) "kg" = Some (1 / mean_weight PAB m2 n2 [0%nat]).
Proof.
  intro E. split; [intros s [<-|[<-|[]]]; reflexivity|]. split; [|split; [reflexivity|split; [now left|reflexivity]]].
  split; [exact default_positive|]. split; eexists; split; reflexivity.
Qed.

(* a constituent of amount zero *)
Definition mZ := uniform ["ig.A"; "ig.B"] [1%nat] [1; 0].
Definition nZ (s : string) (i : list nat) : R := if String.eqb s "ig.A" then 1 else 0.
Lemma zero_static : let E := session "Pa" 100000 "Pa" in
  (exists v a, dynamic_method Ps PAB E mZ [] [("T", scalar 500); ("p", scalar 100000)] = Ok v /\ nel v [0%nat] = Some a) /\
  (exists r, nth_error (toigmix mZ "ig.new") 0 = Some r /\ describes r mA0) /\
  snd (mix_call collAB mA0 E fresh (CProp Ps [] [("T", [Some 500]); ("p", [Some 100000])])) = Ok (VArr [None]).
Proof.
  intro E.
  assert (KN : amounts_known mZ nZ).
  { intros s i Hi. unfold amount, nZ. cbn [mZ uniform x_c x_q amount_in]. destruct (String.eqb s "ig.A"); [reflexivity|]. destruct (String.eqb s "ig.B"); reflexivity. }
  assert (OKZ : mixture_ok mZ) by (apply uniform_ok; [discriminate|apply nodup_AB]).
  assert (II : index_in (shape mZ) [0%nat]) by (repeat constructor).
  split; [|split; [|exact (proj1 zero_amount)]].
  - assert (UZ : usable_at PAB E mZ nZ (to_kelvin "K" 500)).
    { split; [exact OKZ|]. split; [discriminate|]. split; [exact KN|]. intros s [<-|[<-|[]]].
      - exists g1. split; [reflexivity|]. split; [|cbn; unfold to_kelvin; cbn; lra]. split; [reflexivity|]. left. exists D1. split; [exact good_A|now left].
      - exists g2. split; [reflexivity|]. split; [|cbn; unfold to_kelvin; cbn; lra]. split; [reflexivity|]. left. exists D2. split; [exact good_B|now left]. }
    destruct (sum_of_constituents PAB E mZ nZ "K" (9/5) 1 1 1000 500 100000 UZ) with (q := Ps) as (v & H1 & _ & H2).
    + intros s Hs. exists 1. pose proof (mw_AB s Hs). constructor; cbn; try reflexivity; try lra; eauto using default_positive.
      all: try (eexists; split; reflexivity). all: auto.
    + lra.
    + cbn. auto 12.
    + exists [0%nat]. exact II.
    + destruct (H2 [0%nat] II) as (vi & ki & _ & _ & G).
      * intros s Hs. unfold nZ. destruct (String.eqb s "ig.A"); lra.
      * cbn. unfold nZ. cbn. lra.
      * eauto.
  - destruct (static_list mZ nZ "ig.new" OKZ KN) as (_ & _ & L). destruct (L [0%nat] II) as (r & H1 & H2 & _). exists r. split; [exact H1|exact H2].
Qed.

(* Instances and a counterexample for C77 and C86. *)
From Coq Require Import Reals ZArith List String Bool Lia Lra.
From Verif Require Import Base Model_Num Model_Units Model_Igas Model_Igmix Model_Igtools Model_Igtprop Model_Igtmix Model_Igtview
  Spec_Units Spec_Igas Spec_Igmix Spec_Igtools Spec_Igtprop Spec_IgtGas Spec_Igtmix Spec_Igtview
  Proof_Units Proof_Igas Proof_IgasUnits Proof_IgasEx Proof_Igmix Proof_IgmixProp Proof_IgmixInst
  Proof_Igtools Proof_IgtMore Proof_IgtItems Proof_IgtProp Proof_IgtInst Proof_IgtThm Proof_IgtEx Proof_Igtmix Proof_IgtmixEx Proof_Igtview.
Import ListNotations.
Local Open Scope R_scope.
Local Open Scope string_scope.
Local Open Scope list_scope.

(* six mixtures of two substances in two rows; every amount is different *)
Definition m23 : mix :=
  {| x_c := ["ig.A"; "ig.B"];
     x_q := {| nsh := [2; 2; 3]%nat; nel := fun i => Some (INR (rank [2; 2; 3]%nat i)) |} |}.
Lemma inst_reshape : mixture_ok m23 /\ size [3; 2]%nat = size (shape m23) /\ size [4; 2]%nat <> size (shape m23) /\
  exists m', reshape m23 [3; 2]%nat = Ok m' /\ amount m' "ig.B" [2; 0]%nat = amount m23 "ig.B" [1; 1]%nat /\
    amount m23 "ig.B" [1; 1]%nat = Some (INR 10).
Proof.
  split; [split; [reflexivity|split; [discriminate|exact nodup_AB]]|]. split; [reflexivity|]. split; [discriminate|].
  eexists. split; [reflexivity|]. split; reflexivity.
Qed.
Lemma inst_dict : let E := session2 "mol" "kg" in mass_molar E 1 (1/1000) /\ mixture_ok m2 /\ listed_in PAB (x_c m2) /\
  (forall s, In s (x_c m2) -> unit_size E (Some "lb") "lb" (mw_of PAB s) (1 / mw_of PAB s * (match si (e_setup E) QMass "lb" with Some k => k | None => 0 end))) /\
  counts E 1 (1/1000) "mol" /\ (forall s, In s (x_c m2) -> 0 < mw_of PAB s /\ unit_size E (Some "mol") "mol" (mw_of PAB s) (1/1000)).
Proof.
  intro E. split; [split; [exact default_positive|split; eexists; split; reflexivity]|]. split; [exact ok_m2|].
  split; [intros s [<-|[<-|[]]]; (split; [reflexivity|split; [discriminate|cbn; lra]])|].
  split; [|split; [right; discriminate|intros s Hs; split; [exact (mw_AB s Hs)|split; reflexivity]]].
  intros s Hs. pose proof (mw_AB s Hs). split; [reflexivity|]. unfold kmoles. cbn. f_equal. field. lra.
Qed.
(* with kg and mol configured, one kilomole of a substance of 20 kg/kmol is shown as 0.02 kg *)
Lemma dict_mass_wrong : exists d v, todict PAB (session2 "mol" "kmol") (Some "kg") (uniform ["ig.A"] [1%nat] [1]) = Ok d /\
  dget "ig.A" d = Some v /\ nel v [0%nat] = Some (2/100) /\ mw_of PAB "ig.A" = 20.
Proof.
  unfold todict. cbn [uniform x_c x_q todict_loop].
  rewrite (nd_matter_value (session2 "mol" "kmol") "kg" "mol" 1 (1/1000)) with (uf := "kmol") (ut := "kg") (kf := 1) (kt := 1 / (20 * (1/1000/1)));
    try reflexivity; try exact default_positive; try (cbn; lra).
  cbn [bind]. eexists _, _. split; [reflexivity|]. split; [reflexivity|]. split; [|reflexivity].
  cbn [np_map nel row uniform x_q hd nth]. cbn [fmul lift2]. f_equal. field.
Qed.

(* C77 *)
Definition atomsAB (s : string) : res (list (string * R)) :=
  Ok (if String.eqb s "ig.A" then [("A", 1)] else [("A", 1); ("B", 2)]).
Lemma comp_AB names : compositions atomsAB names.
Proof.
  intros s _. unfold atomsAB. destruct (String.eqb s "ig.A"); eexists; (split; [reflexivity|]); repeat constructor; cbn; intuition discriminate.
Qed.
Lemma inst_atoms : mass_molar SK 1 1 /\ mixture_ok m2 /\ amounts_known m2 n2 /\ compositions atomsAB (x_c m2) /\
  rsum (fun s => n2 s [0%nat] * atom_count atomsAB "A" s) (x_c m2) = 4 /\ rsum (fun s => n2 s [0%nat] * atom_count atomsAB "B" s) (x_c m2) = 6.
Proof.
  split; [split; [exact default_positive|split; eexists; split; reflexivity]|]. split; [exact ok_m2|]. split; [exact amounts_m2|].
  split; [apply comp_AB|]. split; cbn; unfold n2; cbn; ring.
Qed.
Definition nu (names : list string) (r : list R) (s : string) (_ : list nat) : R :=
  match index_of s names with Some k => nth k r 0 | None => 0 end.
Lemma uniform_known names sh r : amounts_known (uniform names sh r) (nu names r).
Proof. intros s i _. rewrite amount_index. unfold nu. cbn [uniform x_c x_q nel hd]. destruct (index_of s names); reflexivity. Qed.
Lemma inst_atoms_sum : exists c oa ob, mixture_ok m3 /\ amounts_known m3 (nu ["ig.A"; "ig.B"; "ig.C"] [1; 2; 3]) /\
  compositions atomsAB (x_c m3) /\ List.length (shape m2) = List.length (shape m3) /\
  add m2 m3 = Ok c /\ igt_atoms atomsAB SK m2 = Ok oa /\ igt_atoms atomsAB SK m3 = Ok ob /\
  exists c', mul m2 (scalar 5) = Ok c'.
Proof.
  destruct inst_atoms as (M & O2 & K2 & C2 & _).
  destruct (atoms_thm atomsAB SK 1 1 m2 n2 M O2 K2 C2) as (oa & A1 & _).
  destruct (atoms_thm atomsAB SK 1 1 m3 _ M ok_m3 (uniform_known _ _ _) (comp_AB _)) as (ob & B1 & _).
  destruct (scale_number m2 5 O2) as (c' & S1 & _).
  eexists _, oa, ob. split; [exact ok_m3|]. split; [apply uniform_known|]. split; [apply comp_AB|]. split; [reflexivity|].
  split; [reflexivity|]. split; [exact A1|]. split; [exact B1|]. now exists c'.
Qed.
Lemma inst_atoms_static : usable_mixture collAB (static_at m2 n2 [0%nat]) /\ same_gases PAB collAB (x_c m2) /\
  same_compositions collAB atomsAB (x_c m2) /\ index_in (shape m2) [0%nat].
Proof.
  split; [rewrite static_m2; exact usable_AB|]. split; [exact same_AB|]. split; [|repeat constructor].
  intros s [<-|[<-|[]]].
  - exists D1, [("A", 1)]. split; [now left|]. split; [reflexivity|]. repeat constructor; cbn; intuition discriminate.
  - exists D2, [("A", 1); ("B", 2)]. split; [now left|]. split; [reflexivity|]. repeat constructor; cbn; intuition discriminate.
Qed.

(* The temperature at an entropy, for arrays. *)
From Coq Require Import Reals ZArith List Bool String Lia Lra Arith.
From Verif Require Import Base Model_Num Model_Units Model_Igas Model_Mp1Calls Model_If97 Model_If97Units Spec_Units Spec_Igas Spec_Mp1 Spec_If97 Spec_If97Units
  Proof_Units Proof_IgasUnits Proof_IgasArr Proof_Mp1Elem Proof_Mp1HeapVal Proof_If97Units Proof_If97UnitsB Proof_If97UnitsC Proof_If97Ex Proof_If97UnitsEx Proof_If97Choice Proof_If97TsAns.
Import ListNotations.
Local Open Scope R_scope.
Local Open Scope string_scope.
Local Open Scope list_scope.

Lemma broadcast2_fit a b n : (List.length a = n \/ List.length a = 1%nat) -> (List.length b = n \/ List.length b = 1%nat) -> (0 < n)%nat ->
  exists l, broadcast2 a b = Ok l /\ (0 < List.length l <= n)%nat.
Proof.
  intros Ha Hb Hn. unfold broadcast2, broadcast. destruct (List.length a =? List.length b)%nat eqn:E.
  - apply Nat.eqb_eq in E. cbn [bind]. eexists. split; [reflexivity|]. rewrite combine_length. lia.
  - apply Nat.eqb_neq in E. destruct a as [|x [|x' a]]; destruct b as [|y [|y' b]]; cbn [List.length] in *; try (exfalso; lia);
      cbn [bind]; (eexists; split; [reflexivity|]); rewrite combine_length; cbn [List.length]; rewrite ?repeat_length; cbn [List.length]; lia.
Qed.

Section U.
  Variables (D : ifdata) (B : ifback) (E : env) (uT : string) (kT kP kV kE kM : R).
  Hypothesis U : units_known E (if_mw D) uT kT kP kV kE kM.
  Lemma T_s_elem s p v : u_T_s D E B s p = Ok v -> v <> [] /\ fits_to (List.length v) (Some s) /\ fits_to (List.length v) p /\
    forall i r, nth_error v i = Some r -> exists z, elem s i = Some z /\ u_T_s D E B [z] (element p i) = Ok [r].
  Proof.
    unfold u_T_s. rewrite !(aconv_bar _ _ _ _ _ _ _ _ U). cbn [bind]. destruct (T_h_scale _ _ _ _ _ _ _ _ U) as [-> Hm]. cbn [bind]. rewrite Hm. cbn [bind].
    rewrite (to_si _ _ _ _ _ _ _ _ U QTemperature _ "K" (9/5) None I (K_size _)). cbn [bind].
    destruct (broadcast2 _ _) as [l|] eqn:Bc; cbn [bind]; [|discriminate]. destruct l as [|e l]; [discriminate|]. remember (e :: l) as m. intro Tr.
    destruct (trav_nth _ _ _ Tr) as [L K]. destruct (broadcast2_ext _ _ _ Bc) as (_ & _ & F1 & F2). rewrite L.
    split; [destruct v; [subst m; discriminate L|discriminate]|]. split; [exact F1|]. split.
    { apply (fits_or _ p (e_defp E)). unfold fits in *. now rewrite map_length in F2. }
    intros i r Hr. destruct (K i r Hr) as ([z q] & Na & Fa). destruct (bc2 _ _ _ _ _ _ Bc Na) as (E1 & E2). exists z. split; [exact E1|].
    rewrite elem_map_eq in E2. destruct (elem (or_default p (e_defp E)) i) as [q0|] eqn:E3; [|discriminate]. injection E2 as <-.
    rewrite (aconv_bar _ _ _ _ _ _ _ _ U). cbn [bind].
    destruct (elem_or _ _ _ _ E3) as [-> _]. cbn [map]. unfold broadcast2, broadcast. cbn [bind List.length Nat.eqb combine traverse]. cbn [fst snd] in *.
    rewrite Fa. reflexivity.
  Qed.
  Lemma T_s_fails s p e n : (0 < n)%nat -> fits_to n (Some s) -> fits_to n p -> u_T_s D E B s p = Err e ->
    exists i z, (i < n)%nat /\ elem s i = Some z /\ u_T_s D E B [z] (element p i) = Err e.
  Proof.
    intros Hn Fs Fp. unfold u_T_s. rewrite !(aconv_bar _ _ _ _ _ _ _ _ U). cbn [bind]. destruct (T_h_scale _ _ _ _ _ _ _ _ U) as [-> Hm]. cbn [bind]. rewrite Hm. cbn [bind].
    rewrite (to_si _ _ _ _ _ _ _ _ U QTemperature _ "K" (9/5) None I (K_size _)). cbn [bind].
    assert (Fd : List.length (or_default p (e_defp E)) = n \/ List.length (or_default p (e_defp E)) = 1%nat) by (destruct p as [a|]; cbn in *; auto).
    destruct (broadcast2_fit s (map (bars kP) (or_default p (e_defp E))) n Fs) as (l & Bc & Hl); [now rewrite map_length|exact Hn|]. rewrite Bc. cbn [bind].
    destruct l as [|e0 l]; [cbn in Hl; lia|]. remember (e0 :: l) as m. intro Tr.
    destruct (trav_err _ _ _ Tr) as (i & [z q] & Na & Fa). destruct (bc2 _ _ _ _ _ _ Bc Na) as (E1 & E2). exists i, z.
    assert (Hi : (i < List.length m)%nat) by (apply nth_error_Some; congruence). split; [lia|]. split; [exact E1|].
    rewrite elem_map_eq in E2. destruct (elem (or_default p (e_defp E)) i) as [q0|] eqn:E3; [|discriminate]. injection E2 as <-.
    rewrite (aconv_bar _ _ _ _ _ _ _ _ U). cbn [bind].
    destruct (elem_or _ _ _ _ E3) as [-> _]. cbn [map]. unfold broadcast2, broadcast. cbn [bind List.length Nat.eqb combine traverse]. cbn [fst snd] in *.
    rewrite Fa. reflexivity.
  Qed.
  (* T_h fails as an element does *)
  Lemma T_h_fails h p e n : (0 < n)%nat -> fits_to n (Some h) -> fits_to n p -> u_T_h D E h p = Err e ->
    exists i z, (i < n)%nat /\ elem h i = Some z /\ u_T_h D E [z] (element p i) = Err e.
  Proof.
    intros Hn Fs Fp. unfold u_T_h. rewrite !(to_bar _ _ _ _ _ _ _ _ U). cbn [bind]. destruct (T_h_scale _ _ _ _ _ _ _ _ U) as [-> Hm]. cbn [bind]. rewrite Hm. cbn [bind].
    assert (Fd : List.length (or_default p (e_defp E)) = n \/ List.length (or_default p (e_defp E)) = 1%nat) by (destruct p as [a|]; cbn in *; auto).
    destruct (broadcast2_fit h (or_default p (e_defp E)) n Fs Fd Hn) as (l & Bc & Hl). rewrite Bc. cbn [bind].
    destruct l as [|e0 l]; [cbn in Hl; lia|]. remember (e0 :: l) as m. intro Tr.
    destruct (trav_err _ _ _ Tr) as (i & [z q] & Na & Fa). destruct (bc2 _ _ _ _ _ _ Bc Na) as (E1 & E2). exists i, z.
    assert (Hi : (i < List.length m)%nat) by (apply nth_error_Some; congruence). split; [lia|]. split; [exact E1|].
    destruct (elem_or _ _ _ _ E2) as [-> _]. unfold broadcast2, broadcast. cbn [bind List.length Nat.eqb combine traverse]. cbn [fst snd] in *.
    rewrite Fa. reflexivity.
  Qed.
End U.

(* the instances *)
Lemma two_W : exists s T, u_T_s exW barK exB [Some s; Some s] (Some [Some 10]) = Ok [(Some T, Some (1/4)); (Some T, Some (1/4))].
Proof.
  destruct T_s_W as (s & T & _ & _ & A). exists s, T. pose proof (unitsW 300 1) as U. fold barK in U. unfold just in A. cbn [option_map] in A.
  unfold u_T_s in *. cbn [or_default] in *. rewrite (aconv_bar _ _ _ _ _ _ _ _ U) in *. cbn [bind] in *. destruct (T_h_scale _ _ _ _ _ _ _ _ U) as [H1 Hm]. rewrite H1 in *. cbn [bind] in *.
  rewrite Hm in *. cbn [bind] in *. rewrite (to_si _ _ _ _ _ _ _ _ U QTemperature _ "K" (9/5) None I (K_size _)) in *. cbn [bind map] in *.
  unfold broadcast2, broadcast in *. cbn [bind List.length Nat.eqb combine traverse repeat] in *.
  match type of A with bind ?u _ = _ => destruct u as [r|] eqn:Q; cbn [bind] in A; [|discriminate A] end.
  apply okj in A. injection A as ->. reflexivity.
Qed.
Lemma refused_W : exists e, u_T_s exW barK exB [Some 0; Some 1] (Some [Some 2000]) = Err e.
Proof.
  pose proof (unitsW 300 1) as U. fold barK in U. destruct (u_T_s exW barK exB [Some 0; Some 1] (Some [Some 2000])) as [v|e] eqn:Q; [|eauto].
  destruct (T_s_elem exW exB barK _ _ _ _ _ _ U _ _ _ Q) as (Nv & _ & _ & K). destruct v as [|r v]; [now exfalso|].
  destruct (K 0%nat r eq_refl) as (z & Ez & Qz). cbn in Ez. injection Ez as <-. cbn [element elem] in Qz.
  rewrite (u_T_s_refuses exW exB barK _ _ _ _ _ _ U) in Qz by lra. discriminate.
Qed.
Lemma refused_h_W : exists e, u_T_h exW barK [Some 0; Some 1] (Some [Some 2000]) = Err e.
Proof.
  pose proof (unitsW 300 1) as U. fold barK in U. destruct (u_T_h exW barK [Some 0; Some 1] (Some [Some 2000])) as [v|e] eqn:Q; [|eauto].
  destruct (T_h_elem exW barK _ _ _ _ _ _ U _ _ _ Q) as (Nv & _ & _ & K). destruct v as [|r v]; [now exfalso|].
  destruct (K 0%nat r eq_refl) as (z & Ez & Qz). cbn [elem nth_error] in Ez. injection Ez as <-. cbn [element elem] in Qz.
  pose proof (T_h_good exW barK _ _ _ _ _ _ U 0 2000 p5 kmW (or_introl eq_refl)) as G. rewrite (T_h_refuses exW _ 2000) in G by lra. pose proof (eq_trans (eq_sym Qz) G). discriminate.
Qed.

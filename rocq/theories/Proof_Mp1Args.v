(* Argument handling of the multi-phase class: which names are accepted (C49). *)
From Coq Require Import Reals ZArith List String Bool Lia Lra.
From Verif Require Import Base Model_Num Model_Units Model_Defaults Model_Igas Spec_Units Proof_Units Spec_Igas Proof_Igas
  Proof_IgasUnits Proof_IgasArgs Proof_IgasCalls.
From Verif Require Import Model_Mp1Calls Spec_Mp1 Spec_Mp1Calls Proof_Mp1Units.
Import ListNotations.
Local Open Scope R_scope.
Local Open Scope string_scope.
Local Open Scope list_scope.

(* a gas with the molar mass of D: Proof_IgasCalls uses only that of it *)
Definition stand_in (D : mpdata) : gas :=
  ig_gas None {| d_Tlim := []; d_C := []; d_pref := 1; d_mw := mp_mw D |}.

Lemma mem_in k l : mem k l = true <-> In k l.
Proof.
  unfold mem. rewrite existsb_exists. split.
  - intros (x & Hx & He). apply String.eqb_eq in He. now subst.
  - intro H. exists k. split; [exact H|apply String.eqb_refl].
Qed.
Lemma existsb_not {A} (f : A -> bool) l : existsb (fun k => negb (f k)) l = false <-> forall x, In x l -> f x = true.
Proof.
  split.
  - intros H x Hx. destruct (f x) eqn:F; [reflexivity|].
    enough (existsb (fun k => negb (f k)) l = true) by congruence.
    apply existsb_exists. exists x. rewrite F. auto.
  - intro H. destruct (existsb _ l) eqn:F; [|reflexivity].
    apply existsb_exists in F. destruct F as (x & Hx & Hf). rewrite (H x Hx) in Hf. discriminate.
Qed.

Definition mp_names (l : list string) : Prop :=
  ((List.length l <= 2)%nat \/ forall n, In n l -> In n ["T"; "p"; "x"]) /\
  (forall n, In n l -> In n mp_legal) /\
  ~ (In "e" l /\ In "h" l) /\ ~ (In "e" l /\ In "s" l) /\ ~ (In "h" l /\ In "s" l) /\
  ~ (In "d" l /\ In "v" l).

Lemma mp_rules_spec kw2 :
  (mp_rules kw2 = Ok tt /\ mp_names (dkeys kw2)) \/
  (mp_rules kw2 = Err PMParamError /\ ~ mp_names (dkeys kw2)).
Proof.
  unfold mp_rules, mp_names.
  assert (List.length (dkeys kw2) = List.length kw2) as -> by apply map_length.
  destruct (Nat.ltb 2 (List.length kw2) && existsb (fun k => negb (mem k ["T"; "p"; "x"])) (dkeys kw2))%bool eqn:A.
  { right. split; [reflexivity|]. intros [Q _]. apply andb_true_iff in A. destruct A as [A1 A2].
    apply Nat.ltb_lt in A1. destruct Q as [Q|Q]; [lia|].
    enough (existsb (fun k => negb (mem k ["T"; "p"; "x"])) (dkeys kw2) = false) by congruence.
    apply existsb_not. intros x Hx. apply mem_in, Q, Hx. }
  destruct (existsb (fun k => negb (mem k mp_legal)) (dkeys kw2)) eqn:Hx.
  { right. split; [reflexivity|]. intros (_ & Q & _).
    enough (existsb (fun k => negb (mem k mp_legal)) (dkeys kw2) = false) by congruence.
    apply existsb_not. intros x Hi. apply mem_in, Q, Hi. }
  assert (L1 : (List.length kw2 <= 2)%nat \/ forall n, In n (dkeys kw2) -> In n ["T"; "p"; "x"]).
  { apply andb_false_iff in A. destruct A as [A|A]; [left; apply Nat.ltb_ge in A; exact A|right].
    rewrite existsb_not in A. intros n Hn. apply mem_in, A, Hn. }
  assert (L2 : forall n, In n (dkeys kw2) -> In n mp_legal).
  { rewrite existsb_not in Hx. intros n Hn. apply mem_in, Hx, Hn. }
  pose proof (dmem_in "s" kw2) as Ks. pose proof (dmem_in "e" kw2) as Ke.
  pose proof (dmem_in "h" kw2) as Kh. pose proof (dmem_in "d" kw2) as Kd. pose proof (dmem_in "v" kw2) as Kv.
  unfold mp_inverse.
  cbn [filter]. destruct (dmem "s" kw2), (dmem "e" kw2), (dmem "h" kw2); cbn [List.length Nat.ltb Nat.leb];
    try (right; split; [reflexivity|]; tauto);
    destruct (dmem "v" kw2), (dmem "d" kw2); cbn [andb];
    try (right; split; [reflexivity|]; tauto);
    left; (split; [reflexivity|]); (split; [exact L1|]); (split; [exact L2|]); repeat split;
    intros [Q1 Q2];
    repeat match goal with K : _ <-> _, Q : In _ _ |- _ => apply K in Q; discriminate Q end.
Qed.

Definition rest_ok (names : list string) : Prop :=
  (forall n, In n names -> In n ["T"; "p"; "d"; "v"; "x"; "e"; "h"; "s"]) /\
  ((List.length names <= 2)%nat \/ forall n, In n names -> In n ["T"; "p"; "x"]) /\
  ~ (In "e" names /\ In "h" names) /\ ~ (In "e" names /\ In "s" names) /\
  ~ (In "h" names /\ In "s" names) /\ ~ (In "d" names /\ In "v" names) /\
  (In "x" names -> forall n, In n names -> In n ["T"; "p"; "x"]).
Lemma no_name : rest_ok [].
Proof.
  unfold rest_ok. repeat split; try (intros [[] _]); try (intros ? []); try (intros []).
  left. cbn. lia.
Qed.
Lemma one_name n : In n ["T"; "p"; "d"; "v"; "x"; "e"; "h"; "s"] -> n = "x" \/ n <> "x" -> rest_ok [n].
Proof.
  intros H _. unfold rest_ok. split; [intros m [<-|[]]; exact H|]. split; [left; cbn; lia|].
  repeat split; try (intros [[A|[]] [B|[]]]; congruence).
  intros [->|[]] m [<-|[]]. cbn. tauto.
Qed.

Section Args.
  Variables (D : mpdata) (E : env) (fuel : nat) (uT : string) (kT kP kV kE kM : R).
  Hypothesis U : units_known E (mp_mw D) uT kT kP kV kE kM.

  Lemma positional_ok varg kw : NoDup (dkeys kw) -> (List.length varg <= 2)%nat ->
    NoDup (map fst (supplied varg kw)) -> positional varg kw = Ok (supplied varg kw).
  Proof.
    intros Hn Hl Hnd. rewrite positional_spec by exact Hn. destruct (Nat.leb_spec (List.length varg) 2); [|lia].
    destruct (existsb _ _) eqn:Hx; [exfalso|reflexivity].
    apply existsb_exists in Hx. destruct Hx as (n & Hi & Hm). apply dmem_in in Hm.
    unfold supplied in Hnd. rewrite map_app in Hnd.
    revert Hnd Hi Hm. fold (dkeys kw). fold (dkeys (combine ["T"; "p"] varg)).
    generalize (dkeys kw), (dkeys (combine ["T"; "p"] varg)). intros l m Hd Hi Hm.
    apply in_split in Hi. destruct Hi as (m1 & m2 & ->). rewrite app_assoc in Hd.
    apply NoDup_remove_2 in Hd. apply Hd. rewrite <- app_assoc. apply in_or_app. now left.
  Qed.
  Lemma acceptable_names varg kw : mp_acceptable varg kw -> mp_names (map fst (supplied varg kw)).
  Proof.
    intros (_ & _ & H1 & H2 & H3 & H4 & H5 & H6 & _). repeat split; auto.
    intros n Hn. apply H1 in Hn. cbn in Hn |- *. tauto.
  Qed.
  (* two arguments or more: no defaults *)
  Lemma argparse_supplied varg kw : NoDup (map fst kw) -> mp_acceptable varg kw ->
    (2 <= List.length (supplied varg kw))%nat ->
    mp_argparse D E fuel varg kw = do a <- si_args D E (supplied varg kw); from_args D E fuel a.
  Proof.
    intros Hn Ha Hl. unfold mp_argparse. pose proof (acceptable_names _ _ Ha) as N.
    destruct Ha as (Hv & Hnd & _). rewrite (positional_ok _ _ Hn Hv Hnd). cbn [bind].
    assert (defaults E (supplied varg kw) = Ok (supplied varg kw)) as ->.
    { unfold defaults. destruct (List.length (supplied varg kw)) as [|[|n]]; try lia. reflexivity. }
    cbn [bind]. destruct (mp_rules_spec (supplied varg kw)) as [[K _]|[_ K]]; [rewrite K; reflexivity|contradiction].
  Qed.
End Args.

Section Reject.
  Variables (D : mpdata) (E : env) (fuel : nat) (uT : string) (kT kP kV kE kM : R).
  Hypothesis U : units_known E (mp_mw D) uT kT kP kV kE kM.
  Hypothesis HDef : defaults_known E.
  Let U' : units_known E (g_mw (stand_in D)) uT kT kP kV kE kM := U.

  Lemma limited_err lim v e : limited E lim v = Err e -> e = PMParamError.
  Proof. unfold limited. destruct (forallb _ v); congruence. Qed.
  Lemma si_args_err kw e : si_args D E kw = Err e -> e = PMParamError.
  Proof.
    rewrite (si_args_val _ _ _ _ _ _ _ _ U).
    destruct (dget "T" kw) as [T|]; cbn [ores bind]; [destruct (limited E (mp_Tlim D) _) eqn:L1; cbn [bind]|];
      try (intro H; injection H as <-; exact (limited_err _ _ _ L1)).
    all: destruct (dget "p" kw) as [p|]; cbn [ores bind]; [destruct (limited E (mp_plim D) _) eqn:L2; cbn [bind]|];
      try (intro H; injection H as <-; exact (limited_err _ _ _ L2)).
    all: destruct (dget "x" kw) as [x|]; cbn [ores bind]; [unfold gX; destruct (existsb _ x || existsb _ x)%bool; cbn [bind]|]; congruence.
  Qed.
  Lemma si_args_names kw a : si_args D E kw = Ok a ->
    (a_T a = None <-> ~ In "T" (dkeys kw)) /\ (a_p a = None <-> ~ In "p" (dkeys kw)) /\
    (a_x a = None <-> ~ In "x" (dkeys kw)) /\
    (a_d a = None <-> ~ In "d" (dkeys kw) /\ ~ In "v" (dkeys kw)) /\
    (a_inv a = None <-> ~ In "e" (dkeys kw) /\ ~ In "h" (dkeys kw) /\ ~ In "s" (dkeys kw)).
  Proof.
    rewrite (si_args_val _ _ _ _ _ _ _ _ U). rewrite <- !dget_none_iff.
    destruct (dget "T" kw) as [T|]; cbn [ores bind]; [destruct (limited E (mp_Tlim D) _) eqn:L1; cbn [bind]; [|discriminate]|].
    all: destruct (dget "p" kw) as [p|]; cbn [ores bind]; [destruct (limited E (mp_plim D) _) eqn:L2; cbn [bind]; [|discriminate]|].
    all: destruct (dget "x" kw) as [x|]; cbn [ores bind]; [unfold gX; destruct (existsb _ x || existsb _ x)%bool; cbn [bind]; [discriminate|]|].
    all: intro H; injection H as <-; cbn [a_T a_p a_x a_d a_inv].
    all: destruct (dget "d" kw), (dget "v" kw), (dget "e" kw), (dget "h" kw), (dget "s" kw);
      cbn [option_map]; repeat split; try congruence; try tauto; intuition congruence.
  Qed.

  Lemma mp_rejects varg kw : NoDup (map fst kw) -> ~ mp_acceptable varg kw ->
    mp_argparse D E fuel varg kw = Err PMParamError.
  Proof.
    intros Hn Ha. unfold mp_argparse.
    destruct (positional varg kw) as [kw1|e1] eqn:P1; cbn [bind].
    2:{ rewrite positional_spec in P1 by exact Hn.
        destruct (Nat.leb _ _); [|congruence]. destruct (existsb _ _); congruence. }
    apply positional_inv in P1; [|exact Hn]. destruct P1 as (-> & Hn1 & Hl).
    destruct (defaults_ok E (stand_in D) uT kT kP kV kE kM U' HDef (supplied varg kw)) as [kw2 P2].
    rewrite P2. cbn [bind].
    destruct (mp_rules_spec kw2) as [[K N]|[K _]]; rewrite K; cbn [bind]; [|reflexivity].
    destruct (si_args D E kw2) as [a|e] eqn:S; cbn [bind]; [|now rewrite (si_args_err _ _ S)].
    apply si_args_names in S. destruct S as (S1 & S2 & S3 & S4 & S5).
    pose proof (defaults_names E (stand_in D) uT kT kP kV kE kM U' HDef _ _ Hn1 P2) as DN.
    destruct N as (N1 & N2 & N3 & N4 & N5 & N6).
    (* either the names are acceptable or x comes with something else *)
    assert (X : In "x" (dkeys kw2) /\ exists n, In n (dkeys kw2) /\ ~ In n ["T"; "p"; "x"]).
    { destruct (in_dec string_dec "x" (dkeys (supplied varg kw))) as [X|X].
      - destruct (dkeys (supplied varg kw)) as [|n [|n' l]] eqn:DK.
        + destruct X.
        + exfalso. apply Ha. unfold mp_acceptable. fold (dkeys (supplied varg kw)). rewrite DK.
          destruct X as [->|[]]. split; [exact Hl|]. split; [repeat constructor; intros []|].
          apply one_name; [apply mem_in; reflexivity|now left].
        + rewrite DN in *.
          destruct (existsb (fun k => negb (mem k ["T"; "p"; "x"])) (n :: n' :: l)) eqn:Q.
          * split; [exact X|]. apply existsb_exists in Q. destruct Q as (m & Hm & Hq). exists m. split; [exact Hm|].
            intro W. apply mem_in in W. rewrite W in Hq. discriminate.
          * exfalso. apply Ha. unfold mp_acceptable. fold (dkeys (supplied varg kw)). rewrite DK.
            rewrite existsb_not in Q.
            assert (Q' : forall m, In m (n :: n' :: l) -> In m ["T"; "p"; "x"]) by (intros m Hm; apply mem_in, Q, Hm).
            repeat (split; [assumption|]). split. { intros m Hm. apply Q' in Hm. clear - Hm. cbn in Hm |- *. tauto. }
            repeat (split; [assumption|]). intros _. exact Q'.
      - exfalso. apply Ha. unfold mp_acceptable. fold (dkeys (supplied varg kw)).
        split; [exact Hl|]. split; [exact Hn1|].
        destruct (dkeys (supplied varg kw)) as [|n [|n' l]] eqn:DK.
        + apply no_name.
        + assert (In n mp_legal) as L1.
          { destruct (String.eqb_spec n "T") as [->|Hne]; [apply mem_in; reflexivity|]. rewrite DN in N2. apply N2. now left. }
          apply one_name; [clear - L1; cbn in L1 |- *; tauto|]. right. intros ->. apply X. now left.
        + rewrite DN in *. split. { intros m Hm. apply N2 in Hm. clear - Hm. cbn in Hm |- *. tauto. }
          repeat (split; [assumption|]). intro W. contradiction. }
    destruct X as (X & n & Hn' & Hnn).
    assert (L2 : (List.length (dkeys kw2) <= 2)%nat) by (destruct N1 as [N1|N1]; [exact N1|destruct (Hnn (N1 n Hn'))]).
    assert (ND : NoDup (dkeys kw2)).
    { apply (defaults_inv E (supplied varg kw) kw2 Hn1) in P2. tauto. }
    assert (PX : ~ In "T" (dkeys kw2) /\ ~ In "p" (dkeys kw2)).
    { assert (forall k, k <> "x" -> k <> n -> ~ In k (dkeys kw2)) as Q.
      { intros k K1 K2 K3. assert (incl ["x"; n; k] (dkeys kw2)) as I.
        { intros y [<-|[<-|[<-|[]]]]; assumption. }
        apply NoDup_incl_length in I; [cbn in I; lia|].
        assert (n <> "x") by (intros ->; apply Hnn; cbn; auto).
        clear - K1 K2 H. repeat constructor; cbn [In]; intuition congruence. }
      split; apply Q; try discriminate; intro W; subst n; clear - Hnn; cbn in Hnn; tauto. }
    unfold from_args.
    assert (PT : a_T a = None) by (apply S1, PX). assert (PP : a_p a = None) by (apply S2, PX).
    assert (QX : a_x a <> None) by (intro W; apply S3 in W; contradiction). rewrite PT, PP.
    destruct (a_x a) as [x|]; [|congruence].
    destruct (a_inv a) as [[fn h]|] eqn:AI.
    - destruct (a_d a) as [d|] eqn:AD; [|reflexivity]. exfalso.
      (* x, d and an inverse: three names *)
      assert (Q1 : In "d" (dkeys kw2) \/ In "v" (dkeys kw2)).
      { destruct (in_dec string_dec "d" (dkeys kw2)); [now left|]. destruct (in_dec string_dec "v" (dkeys kw2)); [now right|].
        enough (@None arr = Some d) by discriminate. symmetry. rewrite <- (proj2 S4); auto. }
      assert (Q2 : In "e" (dkeys kw2) \/ In "h" (dkeys kw2) \/ In "s" (dkeys kw2)).
      { destruct (in_dec string_dec "e" (dkeys kw2)); [now left|]. destruct (in_dec string_dec "h" (dkeys kw2)); [now right; left|].
        destruct (in_dec string_dec "s" (dkeys kw2)); [now right; right|].
        enough (@None (inner * arr) = Some (fn, h)) by discriminate. symmetry. rewrite <- (proj2 S5); auto. }
      destruct Q1 as [Q1|Q1], Q2 as [Q2|[Q2|Q2]];
        match type of Q1 with In ?k _ => match type of Q2 with In ?m _ =>
          assert (incl ["x"; k; m] (dkeys kw2)) as I by (intros y [<-|[<-|[<-|[]]]]; assumption) end end;
        (apply NoDup_incl_length in I; [cbn in I; lia|clear; repeat constructor; cbn [In]; intuition congruence]).
    - destruct (a_d a); reflexivity.
  Qed.
End Reject.

(* Proofs about the arguments of ideal gas calls: acceptance, the gas law, echoed values. *)
From Coq Require Import Reals ZArith List String Bool Lia Lra.
From Verif Require Import Base Model_Num Model_Units Model_Defaults Model_Igas Spec_Units Proof_Units
  Proof_Defaults Spec_Igas Proof_Igas Proof_Iter Proof_IgasUnits Proof_IgasState.
Import ListNotations.
Local Open Scope R_scope.
Local Open Scope string_scope.
Local Open Scope list_scope.

(* ---- dictionaries ---- *)
Lemma dset_fresh {A} k (v : A) d : ~ In k (dkeys d) -> dset k v d = d ++ [(k, v)].
Proof.
  induction d as [|[k' v'] d IH]; cbn; intro H; [reflexivity|].
  destruct (String.eqb_spec k k') as [->|]; [tauto|]. f_equal. apply IH. tauto.
Qed.

Lemma dget_app {A} k (a b : list (string * A)) :
  dget k (a ++ b) = match dget k a with Some v => Some v | None => dget k b end.
Proof.
  induction a as [|[k' v'] a IH]; cbn; [reflexivity|]. destruct (String.eqb k k'); auto.
Qed.

Lemma dkeys_app {A} (a b : list (string * A)) : dkeys (a ++ b) = dkeys a ++ dkeys b.
Proof. apply map_app. Qed.

Lemma NoDup_snoc {A} (l : list A) x : NoDup (l ++ [x]) <-> NoDup l /\ ~ In x l.
Proof.
  split.
  - intro H. split.
    + induction l as [|a l IH]; [constructor|]. inversion H; subst. constructor.
      * intro; apply H2; apply in_or_app; tauto.
      * apply IH; assumption.
    + apply NoDup_remove_2 in H. now rewrite app_nil_r in H.
  - intros [H Hn]. induction l as [|a l IH]; cbn; [repeat constructor; auto|].
    inversion H; subst. constructor.
    + rewrite in_app_iff. cbn. intros [?|[?|[]]]; [contradiction|]. subst. apply Hn. now left.
    + apply IH; [assumption|]. intro; apply Hn; now right.
Qed.

Lemma positional_spec varg kw : NoDup (dkeys kw) ->
  positional varg kw =
    if Nat.leb (List.length varg) 2
    then if (existsb (fun n => dmem n kw) (dkeys (combine ["T"; "p"] varg)))
         then Err PMParamError else Ok (supplied varg kw)
    else Err PMParamError.
Proof.
  intro Hn. unfold positional, supplied. destruct varg as [|a [|b [|c varg]]]; cbn.
  - now rewrite app_nil_r.
  - destruct (dmem "T" kw) eqn:HT; cbn; [reflexivity|].
    rewrite dset_fresh; [reflexivity|]. apply dmem_false in HT. now apply dget_none_iff.
  - destruct (dmem "T" kw) eqn:HT; cbn; [reflexivity|].
    assert (~ In "T" (dkeys kw)) as H1. { apply dmem_false in HT. now apply dget_none_iff. }
    rewrite dset_fresh by exact H1.
    assert (dmem "p" (kw ++ [("T", a)]) = dmem "p" kw) as ->.
    { unfold dmem. rewrite dget_app. cbn. destruct (dget "p" kw); reflexivity. }
    destruct (dmem "p" kw) eqn:Hp; cbn; [reflexivity|].
    rewrite dset_fresh. { now rewrite <- app_assoc. }
    rewrite dkeys_app, in_app_iff. cbn. intros [H|[H|[]]]; [|discriminate].
    apply dmem_false in Hp. apply dget_none_iff in Hp. contradiction.
  - destruct (dmem "T" kw) eqn:HT; cbn; [reflexivity|].
    destruct (dmem "p" (dset "T" a kw)); reflexivity.
Qed.

Lemma positional_inv varg kw kw1 : NoDup (dkeys kw) -> positional varg kw = Ok kw1 ->
  kw1 = supplied varg kw /\ NoDup (dkeys kw1) /\ (List.length varg <= 2)%nat.
Proof.
  intros Hn H. rewrite positional_spec in H by exact Hn.
  destruct (Nat.leb_spec (List.length varg) 2) as [Hl|]; [|discriminate].
  destruct (existsb _ _) eqn:Hx; [discriminate|]. injection H as <-.
  split; [reflexivity|]. split; [|exact Hl]. unfold supplied. rewrite dkeys_app.
  destruct varg as [|a [|b [|c varg]]]; cbn in Hl, Hx |- *.
  - now rewrite app_nil_r.
  - apply NoDup_snoc. split; [exact Hn|]. apply dget_none_iff, dmem_false.
    now apply orb_false_elim in Hx.
  - apply orb_false_elim in Hx. destruct Hx as [H1 H2]. apply orb_false_elim in H2. destruct H2 as [H2 _].
    change (NoDup (dkeys kw ++ ["T"; "p"])). replace (dkeys kw ++ ["T"; "p"]) with ((dkeys kw ++ ["T"]) ++ ["p"]) by (now rewrite <- app_assoc).
    apply NoDup_snoc. split.
    + apply NoDup_snoc. split; [exact Hn|]. now apply dget_none_iff, dmem_false.
    + rewrite in_app_iff. cbn. intros [H|[H|[]]]; [|discriminate]. revert H. now apply dget_none_iff, dmem_false.
  - lia.
Qed.

Lemma defaults_inv E kw1 kw2 : NoDup (dkeys kw1) -> defaults E kw1 = Ok kw2 ->
  NoDup (dkeys kw2) /\ (2 <= List.length kw2)%nat /\
  (forall n a, In (n, a) kw1 -> dget n kw2 = Some a) /\
  (List.length kw1 <> 1%nat -> List.length kw1 <> 0%nat -> kw2 = kw1) /\
  (forall n a, In (n, a) kw2 -> In (n, a) kw1 \/
     (n = "T" /\ exists t, def_T (e_cfg E) (e_defT E) (e_defTu E) = Ok t /\ a = [Some t] /\
        (List.length kw1 <= 1)%nat /\ ~ In "T" (dkeys kw1)) \/
     (n = "p" /\ exists p, def_p (e_setup E) (e_cfg E) (e_defp E) (e_defpu E) = Ok p /\ a = [Some p] /\
        (List.length kw1 <= 1)%nat /\ In "T" (dkeys kw2))).
Proof.
  intros Hn. unfold defaults.
  generalize (def_T (e_cfg E) (e_defT E) (e_defTu E)) (def_p (e_setup E) (e_cfg E) (e_defp E) (e_defpu E)).
  intros dT dP.
  destruct kw1 as [|[n a] [|[n' a'] kw1]]; cbn [List.length].
  - destruct dT as [t|]; cbn; [|discriminate].
    destruct dP as [p|]; cbn; [|discriminate].
    intro H. injection H as <-. cbn. split; [|split; [lia|split; [intros ? ? []|split; [lia|]]]].
    + repeat constructor; cbn; try tauto. intros [H|[]]; discriminate.
    + intros n a [H|[H|[]]]; injection H as <- <-; right; [left|right]; split; try reflexivity;
        eexists; repeat split; auto; cbn; tauto.
  - unfold dmem. cbn [dget]. destruct (String.eqb_spec "T" n) as [<-|Hne].
    + destruct dP as [p|]; cbn; [|discriminate].
      intro H. injection H as <-. cbn. split; [|split; [lia|split; [|split; [lia|]]]].
      * repeat constructor; cbn; try tauto. intros [H|[]]; discriminate.
      * intros n b [H|[]]. injection H as <- <-. reflexivity.
      * intros n b [H|[H|[]]]; injection H as <- <-; [now left; left|].
        right; right. split; [reflexivity|]. eexists; repeat split; auto; cbn; tauto.
    + destruct dT as [t|]; cbn [bind]; [|discriminate].
      rewrite dset_fresh by (cbn; intros [?|[]]; congruence). intro H. injection H as <-. cbn.
      split; [|split; [lia|split; [|split; [lia|]]]].
      * constructor; [cbn; intros [HH|[]]; congruence|]. constructor; [intros []|constructor].
      * intros m b [H|[]]. injection H as <- <-. now rewrite String.eqb_refl.
      * intros m b [H|[H|[]]]; injection H as <- <-; [now left; left|].
        right; left. split; [reflexivity|]. eexists; repeat split; auto. cbn. intros [?|[]]; congruence.
  - intro H. injection H as <-. split; [exact Hn|]. split; [cbn; lia|].
    split; [intros m b Hm; now apply dget_in_nodup|]. split; [reflexivity|]. tauto.
Qed.

Lemma rules_inv kw2 : rules kw2 = Ok tt ->
  (List.length kw2 <= 2)%nat /\
  (forall n, In n (dkeys kw2) -> In n legal_args) /\
  (List.length (filter (fun k => dmem k kw2) ["T"; "e"; "h"]) <= 1)%nat /\
  (dmem "v" kw2 && dmem "d" kw2 = false)%bool.
Proof.
  unfold rules. destruct (Nat.ltb_spec 2 (List.length kw2)); [discriminate|].
  destruct (existsb _ _) eqn:Hx; [discriminate|].
  destruct (Nat.ltb_spec 1 (List.length (filter (fun k => dmem k kw2) ["T"; "e"; "h"]))); [discriminate|].
  destruct (dmem "v" kw2 && dmem "d" kw2)%bool eqn:Hv; [discriminate|].
  intros _. repeat split; auto.
  intros n Hn. destruct (existsb (String.eqb n) legal_args) eqn:Hl.
  - apply existsb_exists in Hl. destruct Hl as (m & Hm & He). apply String.eqb_eq in He. now subst.
  - exfalso. enough (existsb (fun k => negb (existsb (String.eqb k) legal_args)) (dkeys kw2) = true) by congruence.
    apply existsb_exists. exists n. split; [exact Hn|]. now rewrite Hl.
Qed.

Lemma three {A} (kw : list (string * A)) a b c : a <> b -> b <> c -> a <> c ->
  (List.length kw <= 2)%nat -> dget a kw <> None -> dget b kw <> None -> dget c kw <> None -> False.
Proof.
  intros Hab Hbc Hac Hl Ha Hb Hc.
  assert (forall k, dget k kw <> None -> In k (dkeys kw)) as K.
  { intros k Hk. destruct (in_dec string_dec k (dkeys kw)) as [|Hn]; [assumption|].
    apply dget_none_iff in Hn. contradiction. }
  assert (incl [a; b; c] (dkeys kw)) as Hi.
  { intros x [<-|[<-|[<-|[]]]]; auto. }
  apply NoDup_incl_length in Hi.
  - cbn in Hi. unfold dkeys in Hi. rewrite map_length in Hi. lia.
  - repeat constructor; cbn; intuition congruence.
Qed.

Section Args.
  Variables (E : env) (g : gas) (uT : string) (kT kP kV kE kM : R).
  Hypothesis U : units_known E (g_mw g) uT kT kP kV kE kM.

  Let kTp : 0 < kT := kT_pos _ _ _ _ _ _ _ _ U.
  Let kPp : 0 < kP := kP_pos _ _ _ _ _ _ _ _ U.
  Let kVp : 0 < kV := kV_pos _ _ _ _ _ _ _ _ U.
  Let kEp : 0 < kE := kE_pos _ _ _ _ _ _ _ _ U.
  Let kMp : 0 < kM := kM_pos _ _ _ _ _ _ _ _ U.

  Lemma m_T_val varg kw : (List.length varg + List.length kw <> 1)%nat ->
    m_T g E varg kw = do st <- argparse g E varg kw; Ok (map (lift1 (from_kelvin uT)) (fst (fst st))).
  Proof.
    intro H. unfold m_T. destruct (Nat.eqb_spec (List.length varg + List.length kw) 1); [contradiction|].
    destruct (argparse g E varg kw) as [[[T p] d]|]; cbn [bind]; [|reflexivity].
    apply (atscale_from _ _ _ _ _ _ _ _ U).
  Qed.
  Lemma m_p_val varg kw :
    m_p g E varg kw = do st <- argparse g E varg kw;
      match st with (T, p, d) => Ok (map (fmul (Some (/ kP))) (the_p T p d)) end.
  Proof.
    unfold m_p. destruct (argparse g E varg kw) as [[[T p] d]|]; cbn [bind]; [|reflexivity].
    apply (p_out _ _ _ _ _ _ _ _ U).
  Qed.
  Lemma m_d_val varg kw :
    m_d g E varg kw = do st <- argparse g E varg kw;
      match st with (T, p, d) => Ok (scaled (kV / kM) (the_d T p d)) end.
  Proof.
    unfold m_d. destruct (argparse g E varg kw) as [[[T p] d]|]; cbn [bind]; [|reflexivity].
    rewrite (density_out _ _ _ _ _ _ _ _ U g eq_refl). reflexivity.
  Qed.

  (* echoed arguments in SI terms *)
  Lemma kw2_facts varg kw T p d : NoDup (dkeys kw) -> argparse g E varg kw = Ok (T, p, d) ->
    exists kw2 T0, NoDup (dkeys kw2) /\ List.length kw2 = 2%nat /\
      (forall n a, In (n, a) (supplied varg kw) -> dget n kw2 = Some a) /\
      (forall n, In n (dkeys kw2) -> In n legal_args) /\
      (List.length (filter (fun k => dmem k kw2) ["T"; "e"; "h"]) <= 1)%nat /\
      (dmem "v" kw2 && dmem "d" kw2 = false)%bool /\
      core g (option_map (inT uT) (dget "T" kw2)) (option_map (inP kP) (dget "p" kw2))
         (option_map (inD kV kM) (dget "d" kw2)) (option_map (inV kV kM) (dget "v" kw2))
         (option_map (inH kE kM) (dget "h" kw2)) (option_map (inH kE kM) (dget "e" kw2))
         (option_map (inS kT kE kM) (dget "s" kw2)) = Ok (T0, p, d) /\
      T = map (fun t => if out_of_range g t then e_oob E else t) T0.
  Proof.
    intros Hn H. apply (argparse_inv _ _ _ _ _ _ _ _ U) in H.
    destruct H as (kw1 & kw2 & T0 & H1 & H2 & H3 & H4 & H5 & _).
    apply positional_inv in H1; [|exact Hn]. destruct H1 as (-> & Hn1 & _).
    apply defaults_inv in H2; [|exact Hn1]. destruct H2 as (Hn2 & Hl & Hg & _ & _).
    apply rules_inv in H3. destruct H3 as (Hl2 & Hleg & H3a & H3b).
    rewrite (solve_units _ _ _ _ _ _ _ _ U) in H4.
    exists kw2, T0. repeat split; auto. lia.
  Qed.

  Lemma elem_map (f : fl -> fl) a i x : elem (map f a) i = Some x -> exists y, elem a i = Some y /\ x = f y.
  Proof.
    destruct a as [|y [|z a]]; cbn [map elem].
    - destruct i; discriminate.
    - intro H. injection H as <-. eauto.
    - intro H. change (nth_error (map f (y :: z :: a)) i = Some x) in H. apply nth_map in H.
      destruct H as (w & Hw & ->). exists w. auto.
  Qed.

  Ltac crack H :=
    repeat match type of H with
    | context [broadcast ?a ?b] =>
        let B := fresh "B" in destruct (broadcast a b) as [[[[? ?] ?] ?]|] eqn:B;
        [apply broadcast_ok in B; destruct B as (? & ? & ?); cbn [bind] in H|discriminate H]
    | context [iter1 ?a ?b ?c ?d] =>
        destruct (iter1 a b c d) as [?|] ; [cbn [bind ores] in H|discriminate H]
    end.

  Lemma echo_T_si varg kw T p d a i t : NoDup (dkeys kw) -> argparse g E varg kw = Ok (T, p, d) ->
    In ("T", a) (supplied varg kw) -> e_oob E = None -> nth_error T i = Some (Some t) ->
    exists y, elem a i = Some (Some y) /\ t = to_kelvin uT y.
  Proof.
    intros Hn H Ha Hoob Ht. destruct (kw2_facts _ _ _ _ _ Hn H) as
      (kw2 & T0 & Hn2 & Hl & Hg & Hleg & H3 & H4 & Hc & HT).
    apply Hg in Ha. subst T. apply nth_map in Ht. destruct Ht as (t0 & Ht0 & He).
    rewrite Hoob in He. destruct (out_of_range g t0); [discriminate|]. subst t0.
    assert (elem (inT uT a) i = Some (Some t)) as K.
    { rewrite Ha in Hc. cbn [option_map] in Hc.
      cbn [filter] in H3. unfold dmem in H3. rewrite Ha in H3.
      destruct (dget "e" kw2) eqn:De; [cbn in H3; destruct (dget "h" kw2); cbn in H3; lia|].
      destruct (dget "h" kw2) eqn:Dh; [cbn in H3; lia|].
      unfold core in Hc. cbn [option_map ores bind] in Hc.
      destruct (dget "s" kw2) eqn:Ds, (dget "p" kw2) eqn:Dp, (dget "d" kw2) eqn:Dd, (dget "v" kw2) eqn:Dv;
        try (exfalso; apply (three kw2 "T" "s" "p"); solve [congruence | lia]);
        try (exfalso; apply (three kw2 "T" "s" "d"); solve [congruence | lia]);
        try (exfalso; apply (three kw2 "T" "s" "v"); solve [congruence | lia]);
        cbn [option_map] in Hc; crack Hc; try discriminate; injection Hc as <- _ _; auto. }
    apply elem_map in K. destruct K as ([y|] & Hy & Hf); [|discriminate]. cbn in Hf. injection Hf as ->. eauto.
  Qed.

  Lemma echo_p_si varg kw T p d a : NoDup (dkeys kw) -> argparse g E varg kw = Ok (T, p, d) ->
    In ("p", a) (supplied varg kw) ->
    exists P, p = Some P /\ forall i x, nth_error P i = Some x -> elem (inP kP a) i = Some x.
  Proof.
    intros Hn H Ha. destruct (kw2_facts _ _ _ _ _ Hn H) as
      (kw2 & T0 & Hn2 & Hl & Hg & Hleg & H3 & H4 & Hc & HT).
    apply Hg in Ha. rewrite Ha in Hc. cbn [option_map] in Hc. unfold core in Hc.
    destruct (dget "e" kw2) eqn:De, (dget "h" kw2) eqn:Dh, (dget "T" kw2) eqn:DT,
      (dget "s" kw2) eqn:Ds, (dget "d" kw2) eqn:Dd, (dget "v" kw2) eqn:Dv;
      try (exfalso; apply (three kw2 "p" "s" "d"); solve [congruence | lia]);
      try (exfalso; apply (three kw2 "p" "s" "v"); solve [congruence | lia]);
      cbn [option_map ores bind] in Hc; crack Hc; try discriminate Hc;
      injection Hc as _ <- _; eexists; (split; [reflexivity|]); assumption.
  Qed.

  Lemma echo_d_si varg kw T p d a : NoDup (dkeys kw) -> argparse g E varg kw = Ok (T, p, d) ->
    In ("d", a) (supplied varg kw) ->
    exists D, d = Some D /\ forall i x, nth_error D i = Some x -> elem (inD kV kM a) i = Some x.
  Proof.
    intros Hn H Ha. destruct (kw2_facts _ _ _ _ _ Hn H) as
      (kw2 & T0 & Hn2 & Hl & Hg & Hleg & H3 & H4 & Hc & HT).
    apply Hg in Ha. rewrite Ha in Hc. cbn [option_map] in Hc. unfold core in Hc.
    unfold dmem in H4. rewrite Ha in H4. destruct (dget "v" kw2); [discriminate|].
    destruct (dget "e" kw2) eqn:De, (dget "h" kw2) eqn:Dh, (dget "T" kw2) eqn:DT,
      (dget "s" kw2) eqn:Ds, (dget "p" kw2) eqn:Dp;
      try (exfalso; apply (three kw2 "d" "T" "p"); solve [congruence | lia]);
      try (exfalso; apply (three kw2 "d" "e" "p"); solve [congruence | lia]);
      try (exfalso; apply (three kw2 "d" "h" "p"); solve [congruence | lia]);
      cbn [option_map ores bind] in Hc; crack Hc; try discriminate Hc;
      injection Hc as _ _ <-; eexists; (split; [reflexivity|]); assumption.
  Qed.

  Lemma echo_v_si varg kw T p d a : NoDup (dkeys kw) -> argparse g E varg kw = Ok (T, p, d) ->
    In ("v", a) (supplied varg kw) ->
    exists D, d = Some D /\ forall i x, nth_error D i = Some x -> elem (inV kV kM a) i = Some x.
  Proof.
    intros Hn H Ha. destruct (kw2_facts _ _ _ _ _ Hn H) as
      (kw2 & T0 & Hn2 & Hl & Hg & Hleg & H3 & H4 & Hc & HT).
    apply Hg in Ha. rewrite Ha in Hc. cbn [option_map] in Hc. unfold core in Hc.
    destruct (dget "e" kw2) eqn:De, (dget "h" kw2) eqn:Dh, (dget "T" kw2) eqn:DT,
      (dget "s" kw2) eqn:Ds, (dget "p" kw2) eqn:Dp;
      try (exfalso; apply (three kw2 "v" "T" "p"); solve [congruence | lia]);
      try (exfalso; apply (three kw2 "v" "e" "p"); solve [congruence | lia]);
      try (exfalso; apply (three kw2 "v" "h" "p"); solve [congruence | lia]);
      cbn [option_map ores bind] in Hc; crack Hc; try discriminate Hc;
      injection Hc as _ _ <-; eexists; (split; [reflexivity|]); assumption.
  Qed.
End Args.

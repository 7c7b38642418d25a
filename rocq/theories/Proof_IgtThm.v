(* The dynamic mixture lemmas in the form used by the property theorems. *)
From Coq Require Import Reals ZArith List String Ascii Bool Lia Lra.
From Verif Require Import Base Model_Num Model_Units Model_Igas Model_Igmix Model_Igtools Model_Igtprop
  Spec_Units Spec_Igas Spec_Igmix Spec_Igtools Spec_Igtprop
  Proof_Units Proof_Igas Proof_IgasUnits Proof_IgasState Proof_IgasCalls Proof_IgasEx Proof_IgmixProp Proof_IgmixInst
  Proof_Igtshape Proof_Igtools Proof_IgtAdd Proof_IgtMore Proof_IgtItems Proof_IgtNew Proof_IgtStr Proof_IgtProp Proof_IgtInst.
Import ListNotations.
Local Open Scope R_scope.
Local Open Scope string_scope.
Local Open Scope list_scope.

Lemma Y_thm P E km kn m n : mass_molar E km kn -> mixture_ok m -> amounts_known m n -> (forall s, In s (x_c m) -> 0 < mw_of P s) ->
  exists Ys, Y P E m = Ok Ys /\ map fst Ys = x_c m /\ (forall s x, In (s, x) Ys -> nsh x = shape m) /\
  forall i, index_in (shape m) i -> (forall s, In s (x_c m) -> 0 <= n s i) -> 0 < rsum (fun s => n s i) (x_c m) ->
    (forall s y, In (s, y) Ys -> exists v, nel y i = Some v /\ 0 <= v <= 1 /\
        v * rsum (fun s => n s i * mw_of P s) (x_c m) = n s i * mw_of P s) /\
    fsum (fun p => nel (snd p) i) Ys = Some 1.
Proof. intros (H & (um & U1 & U2) & (un & N1 & N2)). exact (Y_fractions E um un km kn H U1 U2 N1 N2 P m n). Qed.
Lemma mass_thm P E k m n : mass_molar E k k -> mixture_ok m -> amounts_known m n -> (forall s, In s (x_c m) -> 0 < mw_of P s) ->
  exists a, mass P E m = Ok a /\ nsh a = shape m /\ forall i, index_in (shape m) i ->
    exists v, nel a i = Some v /\ v * k = rsum (fun s => n s i * mw_of P s) (x_c m).
Proof.
  intros (H & (um & U1 & U2) & (un & N1 & N2)) H1 H2 H3.
  destruct (mass_value E um un k k H U1 U2 N1 N2 P m n H1 H2 H3) as (a & A1 & A2 & A3). exists a. split; [exact A1|]. split; [exact A2|].
  intros i Hi. destruct (A3 i Hi) as (v & V1 & V2). exists v. split; [exact V1|]. rewrite <- V2.
  assert (0 < k) by exact (si_pos _ _ _ _ H U2). field. lra.
Qed.
Lemma molar_thm E km kn m n : mass_molar E km kn -> mixture_ok m -> amounts_known m n ->
  exists a, molar E m = Ok a /\ nsh a = shape m /\ forall i, index_in (shape m) i ->
    exists v, nel a i = Some v /\ v * kn = rsum (fun s => n s i) (x_c m).
Proof. intros (H & (um & U1 & U2) & (un & N1 & N2)) H1 H2. exact (molar_value E un kn H N1 N2 m n H1 H2). Qed.

Lemma get_thm P E km kn m s uM k : mass_molar E km kn -> counts E km kn uM ->
  In (full_sid s) (x_c m) -> 0 < mw_of P (full_sid s) -> unit_size E None uM (mw_of P (full_sid s)) k ->
  exists a, getitem P E m s = Ok a /\ nsh a = shape m /\
    forall i, nel a i = fdiv (amount m (full_sid s) i) (Some k).
Proof.
  intros (H & (um & U1 & U2) & (un & N1 & N2)) Hc Hi Hw [H1 H2].
  exact (getitem_value P E um un km kn H U1 U2 N1 N2 m s uM k Hi Hw H1 Hc H2).
Qed.
Lemma in_range i sh : List.length i = List.length sh -> (forallb (fun p => Nat.ltb (fst p) (snd p)) (combine i sh) = true <-> index_in sh i).
Proof.
  revert sh. induction i as [|a i IH]; intros [|b sh] H; try discriminate; cbn [combine forallb fst snd].
  - split; [constructor|reflexivity].
  - rewrite andb_true_iff, Nat.ltb_lt, IH by (cbn in H; lia). split.
    + intros [A B]. now constructor.
    + intro F. inversion F. auto.
Qed.
Lemma get_at_thm P E km kn m s uM k i : mass_molar E km kn -> counts E km kn uM ->
  In (full_sid s) (x_c m) -> 0 < mw_of P (full_sid s) -> unit_size E None uM (mw_of P (full_sid s)) k ->
  List.length i = List.length (shape m) ->
  (index_in (shape m) i -> getitem_at P E m s i = Ok (fdiv (amount m (full_sid s) i) (Some k))) /\
  (~ index_in (shape m) i -> getitem_at P E m s i = Err EIndexError).
Proof.
  intros Hm Hc Hi Hw Hu Hl. destruct (get_thm P E km kn m s uM k Hm Hc Hi Hw Hu) as (a & A1 & A2 & A3).
  destruct (sindex_in m s Hi) as (j & J1 & J2 & J3). unfold getitem in A1. unfold getitem_at. rewrite J1 in *.
  replace (Nat.ltb (List.length (shape m)) (List.length i)) with false by (symmetry; apply Nat.ltb_ge; lia).
  destruct (forallb (fun p => Nat.ltb (fst p) (snd p)) (combine i (shape m))) eqn:Ef.
  - split; [intros _|intro N; exfalso; apply N; now apply in_range]. unfold nd_matter in A1.
    destruct (m_mw (gas_of P (nth j (x_c m) "")) E) as [w|]; [|discriminate]. cbn [bind] in *.
    destruct (matter (e_setup E) (e_cfg E) 1 w (Some "kmol") None None) as [c|]; [|discriminate]. cbn [bind] in *.
    injection A1 as <-. rewrite <- A3. reflexivity.
  - split; [intro N; apply in_range in N; congruence|reflexivity].
Qed.
Lemma set_thm P E km kn m s q u uM k : mass_molar E km kn -> counts E km kn uM -> mixture_ok m ->
  In (full_sid s) (x_c m) -> 0 < mw_of P (full_sid s) -> unit_size E None uM (mw_of P (full_sid s)) k -> combines q (shape m) u ->
  exists m', setitem P E m s q = (m', Ok tt) /\ mixture_ok m' /\ x_c m' = x_c m /\ shape m' = u /\
    forall t i, index_in u i -> amount m' t i =
      if String.eqb t (full_sid s) then fmul (Some k) (at_index q i) else amount m t (project (shape m) i).
Proof.
  intros (H & (um & U1 & U2) & (un & N1 & N2)) Hc Hm Hi Hw [H1 H2] Hq.
  exact (setitem_value P E um un km kn H U1 U2 N1 N2 m s q u uM k Hm Hi Hw H1 Hc H2 Hq).
Qed.
Lemma read_thm P E km kn m s q u uM k : mass_molar E km kn -> mixture_ok m ->
  In (full_sid s) (x_c m) -> 0 < mw_of P (full_sid s) -> unit_size E None uM (mw_of P (full_sid s)) k -> combines q (shape m) u ->
  exists m' a, setitem P E m s q = (m', Ok tt) /\ getitem P E m' s = Ok a /\ nsh a = u /\
    (forall i, index_in u i -> nel a i = at_index q i) /\
    forall t, In (full_sid t) (x_c m) -> 0 < mw_of P (full_sid t) -> full_sid t <> full_sid s ->
      exists b b', getitem P E m t = Ok b /\ getitem P E m' t = Ok b' /\
        forall i, index_in u i -> nel b' i = nel b (project (shape m) i).
Proof.
  intros (H & (um & U1 & U2) & (un & N1 & N2)) Hm Hi Hw [H1 H2] Hq.
  exact (read_back P E um un km kn H U1 U2 N1 N2 m s q u uM k Hm Hi Hw H1 H2 Hq).
Qed.
Lemma insert_thm P E km kn m s g q u units k : mass_molar E km kn -> mixture_ok m -> dget (full_sid s) P = Some g -> 0 < g_mw g ->
  ~ In (full_sid s) (x_c m) -> combines q (shape m) u ->
  match units with
  | None => k = 1
  | Some v => counts E km kn v /\ unit_size E units v (g_mw g) k
  end ->
  exists m', Model_Igtools.insert P E m s q units = Ok m' /\ mixture_ok m' /\
    x_c m' = x_c m ++ [full_sid s] /\ shape m' = u /\
    forall t i, index_in u i -> amount m' t i =
      if String.eqb t (full_sid s) then fmul (Some k) (at_index q i) else amount m t (project (shape m) i).
Proof.
  intros (H & (um & U1 & U2) & (un & N1 & N2)) H1 H2 H3 H4 H5 H6.
  apply (insert_value P E um un km kn H U1 U2 N1 N2 m s g q u units k H1 H2 H3 H4 H5).
  destruct units as [v|]; [|exact H6]. destruct H6 as [Hc [_ Hk]]. auto.
Qed.
Lemma insert_remove_thm P E km kn m s g q units k : mass_molar E km kn -> mixture_ok m -> dget (full_sid s) P = Some g -> 0 < g_mw g ->
  ~ In (full_sid s) (x_c m) -> nsh q = [] ->
  match units with
  | None => k = 1
  | Some v => counts E km kn v /\ unit_size E units v (g_mw g) k
  end ->
  exists m1 m2, Model_Igtools.insert P E m s q units = Ok m1 /\ Model_Igtools.remove m1 s = Ok m2 /\ Spec_Igtools.same_mixture m m2.
Proof.
  intros (H & (um & U1 & U2) & (un & N1 & N2)) H1 H2 H3 H4 H5 H6.
  apply (insert_remove P E um un km kn H U1 U2 N1 N2 m s g q units k H1 H2 H3 H4 H5).
  destruct units as [v|]; [|exact H6]. destruct H6 as [Hc [_ Hk]]. auto.
Qed.
Lemma failed_set_thm P E km kn m s q uM k m' e : mass_molar E km kn -> mixture_ok m -> 0 < mw_of P (full_sid s) ->
  unit_size E None uM (mw_of P (full_sid s)) k -> List.length (nsh q) = List.length (shape m) ->
  setitem P E m s q = (m', Err e) -> m' = m /\ e = PMParamError.
Proof.
  intros (H & (um & U1 & U2) & (un & N1 & N2)) H1 H2 [H3 H4] H5 H6.
  exact (setitem_failed_unchanged P E um un km kn m s q uM k m' e H U1 U2 N1 N2 H1 H2 H3 H4 H5 H6).
Qed.
Lemma new_thm P E km kn units uM (k : string -> R) contents u : mass_molar E km kn -> counts E km kn uM ->
  (forall c, In c contents -> dget (full_sid (fst c)) P <> None /\ 0 < mw_of P (full_sid (fst c)) /\
     unit_size E units uM (mw_of P (full_sid (fst c))) (k (full_sid (fst c)))) ->
  contents <> [] -> NoDup (map (fun c => full_sid (fst c)) contents) ->
  shapes_combine (map snd contents) [1%nat] u ->
  exists m, new_mix P E units contents = Ok m /\ mixture_ok m /\ shape m = u /\
    x_c m = map (fun c => full_sid (fst c)) contents /\
    forall c i, In c contents -> index_in u i ->
      amount m (full_sid (fst c)) i = fmul (Some (k (full_sid (fst c)))) (at_index (snd c) i).
Proof.
  intros (H & (um & U1 & U2) & (un & N1 & N2)) Hc H1 Hne H2 H3.
  apply (new_amounts P E um un km kn H U1 U2 N1 N2 units uM k contents u); auto.
  - intros c Hin. destruct (H1 c Hin) as (A & B & _ & C). auto.
  - destruct contents as [|c l]; [congruence|]. destruct (H1 c) as (_ & _ & A & _); [now left|]. exact A.
Qed.
Lemma new_unknown_thm P E units contents s q : In (s, q) contents -> dget (full_sid s) P = None ->
  exists e, new_mix P E units contents = Err e.
Proof. intros H1 H2. destruct (new_unknown P E units contents s q H1 H2) as [H|H]; eauto. Qed.

(* one kilomole of A given as 20 kg, with moles configured as the molar unit *)
Lemma new_wrong : exists m, new_mix PAB (session2 "mol" "kmol") (Some "kg") [("A", scalar 20)] = Ok m /\
  mw_of PAB "ig.A" = 20 /\ amount m "ig.A" [0%nat] = Some 1000.
Proof.
  unfold new_mix. cbn [init_names]. change (get_gas PAB (full_sid "A")) with (Ok g1). cbn [bind scalar nsh].
  change (broadcast_shape [] [1%nat]) with (Ok [1%nat] : res (list nat)). cbn [bind fst snd init_rows].
  change (gas_of PAB (full_sid "A")) with g1.
  rewrite (nd_matter_value (session2 "mol" "kmol") "kg" "mol" 1 (1/1000)) with (uf := "kg") (ut := "kmol") (kf := 1 / (20 * (1/1000/1))) (kt := 1);
    try reflexivity; [|exact default_positive|cbn; lra].
  cbn [bind]. change (full_sid "A") with "ig.A". eexists. split; [reflexivity|]. split; [reflexivity|].
  cbn. f_equal. field.
Qed.

Lemma mm_ex molar matter kn : si default_setup QMolar molar = Some kn -> mass_molar (session2 molar matter) 1 kn.
Proof.
  intro H. split; [exact default_positive|]. split; [now exists "kg"|]. exists molar. auto.
Qed.

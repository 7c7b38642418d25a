(* Items of dynamic mixtures: construction, reading, assignment, insertion and removal. *)
From Coq Require Import Reals ZArith List String Bool Lia Lra Arith.
From Verif Require Import Base Model_Num Model_Units Model_Igas Model_Igtools Spec_Units Spec_Igtools
  Proof_Units Proof_IgasUnits Proof_Igtshape Proof_Igtools Proof_IgtAdd Proof_IgtMore.
Import ListNotations.
Local Open Scope R_scope.
Local Open Scope string_scope.
Local Open Scope list_scope.

(* ---- quantities ---- *)
Lemma pad_nil n : pad_right [] n = repeat 1%nat n.
Proof. unfold pad_right. cbn. now rewrite Nat.sub_0_r. Qed.
Lemma bs_number s : s <> [] -> broadcast_shape [] s = Ok s /\ broadcast_shape [1%nat] s = Ok s.
Proof.
  intro H. destruct s as [|d s]; [congruence|].
  assert (D : forall s, dims_loop s (repeat 1%nat (List.length s)) = Ok s).
  { induction s0 as [|a r IH]; [reflexivity|]. cbn [List.length repeat dims_loop]. rewrite IH. cbn [bind].
    destruct (Nat.eqb_spec a 1) as [->|]; [reflexivity|]. rewrite orb_false_r. reflexivity. }
  split; unfold broadcast_shape, pad_right; cbn [List.length app Nat.sub repeat].
  - rewrite app_nil_r. exact (D (d :: s)).
  - rewrite Nat.sub_0_r, app_nil_r. exact (D (d :: s)).
Qed.
Lemma combines_shape q s u : s <> [] -> combines q s u ->
  broadcast_shape (nsh q) s = Ok u /\ broadcast_shape (nsh (atleast_1d q)) s = Ok u /\
  u <> [] /\ stretches s u /\ (nsh q = [] \/ stretches (nsh q) u) /\ List.length u = List.length s.
Proof.
  intros Hs [[Hq ->]|[Hl Hn]].
  - destruct (bs_number s Hs) as [B1 B2]. unfold atleast_1d. rewrite Hq. cbn [nsh]. repeat split; auto. apply stretches_refl.
  - assert (Hq : nsh q <> []) by (destruct (nsh q), s; try discriminate; congruence).
    assert (A : atleast_1d q = q) by (unfold atleast_1d; destruct (nsh q); [congruence|reflexivity]).
    assert (B : broadcast_shape (nsh q) s = Ok u) by (apply broadcast_agrees; [now left|left; exact Hl|exact Hn]).
    rewrite A. split; [exact B|]. split; [exact B|].
    rewrite bshape_dims in B by auto. destruct (dims_stretches _ _ _ (eq_sym Hl) B) as [S1 S2].
    repeat split; auto; [|now rewrite (Forall2_len _ _ _ S1)].
    intro E. rewrite E in S1. inversion S1. subst. congruence.
Qed.
Lemma np_map_at f q i : at_index (np_map f q) i = f (at_index q i).
Proof. unfold at_index, np_map. cbn. destruct (nsh q); reflexivity. Qed.

(* broadcasting a number or an array of the same number of dimensions *)
Lemma bto q u : u <> [] -> (nsh q = [] \/ stretches (nsh q) u) ->
  (exists v, broadcast_to q u = Ok v /\ nsh v = u /\
     forall i, List.length i = List.length u -> nel v i = at_index q i) /\
  (exists v, broadcast_to (atleast_1d q) u = Ok v /\ nsh v = u /\
     forall i, List.length i = List.length u -> nel v i = at_index q i).
Proof.
  intros Hu [Hq|Hs].
  - split.
    + unfold broadcast_to, at_index. rewrite Hq. unfold fits. cbn [List.length combine forallb Nat.leb andb].
      eexists; split; [reflexivity|]. split; [reflexivity|]. intros i _. reflexivity.
    + unfold broadcast_to, at_index, atleast_1d. rewrite Hq. cbn [nsh nel].
      assert (F : fits [1%nat] u = true).
      { unfold fits. cbn [List.length]. destruct (Nat.leb_spec 1 (List.length u)); [|destruct u; [congruence|cbn in *; lia]].
        cbn [andb]. destruct (skipn (List.length u - 1) u); reflexivity. }
      rewrite F. eexists; split; [reflexivity|]. split; reflexivity.
  - assert (Hq : nsh q <> []) by (intro E; rewrite E in Hs; inversion Hs; subst; congruence).
    assert (A : atleast_1d q = q) by (unfold atleast_1d; destruct (nsh q); [congruence|reflexivity]).
    rewrite A. assert (B := broadcast_to_same q u Hs). destruct B as (v & V1 & V2 & V3).
    assert (G : forall i, List.length i = List.length u -> nel v i = at_index q i).
    { intros i Hi. rewrite (V3 i Hi). unfold at_index. destruct (nsh q); [congruence|reflexivity]. }
    split; exists v; auto.
Qed.

Lemma map_one f q : np_map f (atleast_1d q) = atleast_1d (np_map f q).
Proof. unfold atleast_1d. cbn. destruct (nsh q) eqn:E; [reflexivity|]. unfold np_map. now rewrite E. Qed.

(* ---- units ---- *)
Section Items.
  Context (P : pool) (E : env) (um un : string) (km kn : R) (Hs : positive_setup (e_setup E)).
  Context (Hum : dget "unit_mass" (e_cfg E) = Some um) (Hkm : si (e_setup E) QMass um = Some km).
  Context (Hun : dget "unit_molar" (e_cfg E) = Some un) (Hkn : si (e_setup E) QMolar un = Some kn).

  Lemma gas_mw s : g_mw (gas_of P s) = mw_of P s.
  Proof. unfold gas_of, mw_of. destruct (dget s P); reflexivity. Qed.
  Lemma user_pos g : 0 < g_mw g -> 0 < g_mw g * (kn / km).
  Proof.
    assert (0 < km) by (eapply si_pos; eauto). assert (0 < kn) by (eapply si_pos; eauto).
    intro H1. apply Rmult_lt_0_compat; [exact H1|]. now apply Rdiv_lt_0_compat.
  Qed.
  Lemma counts_kmoles u mw : counts E km kn u -> kmoles (e_setup E) (mw * (kn / km)) u = kmoles (e_setup E) mw u.
  Proof.
    assert (0 < km) by (eapply si_pos; eauto). intros [->|H1]; unfold kmoles.
    - replace (mw * (kn / kn)) with mw; [reflexivity|]. assert (0 < kn) by (eapply si_pos; eauto). field. lra.
    - destruct (si (e_setup E) QMolar u); [reflexivity|congruence].
  Qed.
  Definition named (f : option string) (u : string) : Prop :=
    match f with Some v => v = u | None => dget "unit_matter" (e_cfg E) = Some u end.
  Lemma nd_matter_value g a f t uf ut kf kt : 0 < g_mw g -> named f uf -> named t ut ->
    kmoles (e_setup E) (g_mw g * (kn / km)) uf = Some kf -> kmoles (e_setup E) (g_mw g * (kn / km)) ut = Some kt ->
    nd_matter E g a f t = Ok (np_map (fmul (Some (kf / kt))) a).
  Proof.
    intros Hg Hf Ht K1 K2. unfold nd_matter. rewrite (m_mw_value E um un km kn Hs Hum Hkm Hun Hkn). cbn [bind].
    assert (R : matter (e_setup E) (e_cfg E) 1 (g_mw g * (kn / km)) f t None
              = matter (e_setup E) (e_cfg E) 1 (g_mw g * (kn / km)) (Some uf) (Some ut) None).
    { unfold matter. unfold named in *.
      destruct f as [f|], t as [t|]; subst; unfold cfg_get; rewrite ?Hf, ?Ht; try reflexivity.
      replace ut with uf by congruence. reflexivity. }
    rewrite R, (matter_spec _ _ _ _ uf ut None kf kt Hs (user_pos g Hg) K1 K2). cbn [bind effective_exponent].
    rewrite zpow_1. do 3 f_equal. f_equal. lra.
  Qed.
  Lemma kmol_size mw : kmoles (e_setup E) mw "kmol" = Some 1.
  Proof. reflexivity. Qed.
  Lemma size_pos g u k : 0 < g_mw g -> kmoles (e_setup E) (g_mw g * (kn / km)) u = Some k -> 0 < k.
  Proof. intros Hg Hk. exact (kmoles_pos _ _ _ _ Hs (user_pos g Hg) Hk). Qed.

  (* ---- reading ---- *)
  Lemma sindex_in m s : In (full_sid s) (x_c m) -> exists k, sindex m s = Some k /\
    (k < List.length (x_c m))%nat /\ nth k (x_c m) "" = full_sid s.
  Proof.
    intro H. unfold sindex. destruct (index_of (full_sid s) (x_c m)) as [k|] eqn:Ek.
    - exists k. split; [reflexivity|]. now apply index_of_some.
    - apply index_of_none in Ek. contradiction.
  Qed.
  Lemma getitem_raw m s uM k : In (full_sid s) (x_c m) -> 0 < mw_of P (full_sid s) ->
    dget "unit_matter" (e_cfg E) = Some uM ->
    kmoles (e_setup E) (mw_of P (full_sid s) * (kn / km)) uM = Some k ->
    exists a, getitem P E m s = Ok a /\ nsh a = shape m /\
      forall i, nel a i = fdiv (amount m (full_sid s) i) (Some k).
  Proof.
    intros Hin Hmw HM Hk. destruct (sindex_in m s Hin) as (j & J1 & J2 & J3).
    unfold getitem. rewrite J1, J3. rewrite <- gas_mw in Hmw, Hk.
    pose proof (size_pos _ _ _ Hmw Hk) as Kp.
    rewrite (nd_matter_value (gas_of P (full_sid s)) _ (Some "kmol") None "kmol" uM 1 k Hmw eq_refl HM (kmol_size _) Hk).
    eexists; split; [reflexivity|]. split; [reflexivity|]. intro i. rewrite amount_index.
    unfold sindex in J1. rewrite J1. cbn [np_map nel row].
    destruct (nel (x_q m) (j :: i)); cbn; [|reflexivity].
    destruct (Req_EM_T k 0); [lra|]. f_equal. field. lra.
  Qed.
  Lemma getitem_value m s uM k : In (full_sid s) (x_c m) -> 0 < mw_of P (full_sid s) ->
    dget "unit_matter" (e_cfg E) = Some uM -> counts E km kn uM ->
    kmoles (e_setup E) (mw_of P (full_sid s)) uM = Some k ->
    exists a, getitem P E m s = Ok a /\ nsh a = shape m /\
      forall i, nel a i = fdiv (amount m (full_sid s) i) (Some k).
  Proof. intros H1 H2 H3 H4 H5. apply (getitem_raw m s uM k H1 H2 H3). now rewrite counts_kmoles. Qed.

  (* ---- assignment ---- *)
  Lemma setitem_raw m s q u uM k : mixture_ok m -> In (full_sid s) (x_c m) -> 0 < mw_of P (full_sid s) ->
    dget "unit_matter" (e_cfg E) = Some uM ->
    kmoles (e_setup E) (mw_of P (full_sid s) * (kn / km)) uM = Some k -> combines q (shape m) u ->
    exists m', setitem P E m s q = (m', Ok tt) /\ mixture_ok m' /\ x_c m' = x_c m /\ shape m' = u /\
      forall t i, index_in u i -> amount m' t i =
        if String.eqb t (full_sid s) then fmul (Some k) (at_index q i) else amount m t (project (shape m) i).
  Proof.
    intros (H1 & H2 & H3) Hin Hmw HM Hk Hc. destruct (sindex_in m s Hin) as (j & J1 & J2 & J3).
    destruct (combines_shape q (shape m) u H2 Hc) as (B0 & B1 & U0 & St & Sq & Lu).
    unfold setitem. rewrite J1, B1, J3. rewrite <- gas_mw in Hmw, Hk.
    rewrite (nd_matter_value (gas_of P (full_sid s)) _ None (Some "kmol") uM "kmol" k 1 Hmw HM eq_refl Hk (kmol_size _)).
    cbn [bind]. rewrite map_one. destruct (bto (np_map (fmul (Some (k / 1))) q) u U0 Sq) as [_ (v & V1 & V2 & V3)].
    rewrite V1.
    match goal with |- context [if ?x then ?y else ?z] => set (grown := if x then y else z) end.
    assert (G : exists g, grown = Ok g /\ nsh g = List.length (x_c m) :: u /\
       forall r i, (r < List.length (x_c m))%nat -> index_in u i -> nel g (r :: i) = nel (x_q m) (r :: project (shape m) i)).
    { unfold grown. destruct (shape_eqb u (shape m)) eqn:Es.
      - apply shape_eqb_spec in Es. exists (x_q m). split; [reflexivity|]. split; [now rewrite Es|].
        intros r i Hr Hi. rewrite Es in Hi. now rewrite project_id.
      - rewrite H1. cbn [hd]. destruct (broadcast_to_same (x_q m) (List.length (x_c m) :: u)) as (w & W1 & W2 & W3).
        { rewrite H1. constructor; [now right|exact St]. }
        exists w. split; [exact W1|]. split; [exact W2|]. intros r i Hr Hi.
        rewrite W3 by (cbn; now rewrite (index_in_len _ _ Hi)). rewrite H1. cbn [project].
        destruct (Nat.eqb_spec (List.length (x_c m)) 1); [replace r with 0%nat by lia|]; reflexivity. }
    destruct G as (g & -> & G2 & G3). eexists; split; [reflexivity|].
    split; [|split; [reflexivity|split; [unfold shape; cbn; now rewrite G2|]]].
    - unfold mixture_ok, shape. cbn. rewrite G2. cbn. auto.
    - intros t i Hi. rewrite !amount_index. cbn [x_c x_q].
      unfold sindex in J1. destruct (String.eqb_spec t (full_sid s)) as [->|Ht].
      + rewrite J1. cbn [set_row nel]. rewrite Nat.eqb_refl, V3 by now apply index_in_len.
        rewrite np_map_at. f_equal. f_equal. field.
      + destruct (index_of t (x_c m)) as [r|] eqn:Er; [|reflexivity]. cbn [set_row nel].
        destruct (index_of_some _ _ _ Er) as [Hr Nr].
        destruct (Nat.eqb_spec r j) as [->|]; [congruence|]. now apply G3.
  Qed.
  Lemma setitem_value m s q u uM k : mixture_ok m -> In (full_sid s) (x_c m) -> 0 < mw_of P (full_sid s) ->
    dget "unit_matter" (e_cfg E) = Some uM -> counts E km kn uM ->
    kmoles (e_setup E) (mw_of P (full_sid s)) uM = Some k -> combines q (shape m) u ->
    exists m', setitem P E m s q = (m', Ok tt) /\ mixture_ok m' /\ x_c m' = x_c m /\ shape m' = u /\
      forall t i, index_in u i -> amount m' t i =
        if String.eqb t (full_sid s) then fmul (Some k) (at_index q i) else amount m t (project (shape m) i).
  Proof. intros H0 H1 H2 H3 H4 H5. apply (setitem_raw m s q u uM k H0 H1 H2 H3). now rewrite counts_kmoles. Qed.

  (* what is assigned is what is read, in every unit *)
  Lemma read_back m s q u uM k : mixture_ok m -> In (full_sid s) (x_c m) -> 0 < mw_of P (full_sid s) ->
    dget "unit_matter" (e_cfg E) = Some uM ->
    kmoles (e_setup E) (mw_of P (full_sid s)) uM = Some k -> combines q (shape m) u ->
    exists m' a, setitem P E m s q = (m', Ok tt) /\ getitem P E m' s = Ok a /\ nsh a = u /\
      (forall i, index_in u i -> nel a i = at_index q i) /\
      forall t, In (full_sid t) (x_c m) -> 0 < mw_of P (full_sid t) -> full_sid t <> full_sid s ->
        exists b b', getitem P E m t = Ok b /\ getitem P E m' t = Ok b' /\
          forall i, index_in u i -> nel b' i = nel b (project (shape m) i).
  Proof.
    intros H0 H1 H2 H3 H4 H5.
    assert (K' : forall t, exists k', kmoles (e_setup E) (mw_of P t * (kn / km)) uM = Some k').
    { intro t. unfold kmoles in *. destruct (si (e_setup E) QMolar uM); [eauto|].
      destruct (si (e_setup E) QMass uM); [eauto|discriminate]. }
    destruct (K' (full_sid s)) as [k' Hk'].
    assert (Kp : 0 < k').
    { rewrite <- gas_mw in H2, Hk'. exact (size_pos _ _ _ H2 Hk'). }
    destruct (setitem_raw m s q u uM k' H0 H1 H2 H3 Hk' H5) as (m' & M1 & M2 & M3 & M4 & M5).
    rewrite <- M3 in H1. destruct (getitem_raw m' s uM k' H1 H2 H3 Hk') as (a & A1 & A2 & A3).
    exists m', a. split; [exact M1|]. split; [exact A1|]. split; [congruence|]. split.
    - intros i Hi. rewrite A3, (M5 _ _ Hi), String.eqb_refl.
      destruct (at_index q i); cbn; [|reflexivity]. destruct (Req_EM_T k' 0); [lra|]. f_equal. field. lra.
    - intros t Ht Hmt Hne. destruct (K' (full_sid t)) as [kt Hkt].
      destruct (getitem_raw m t uM kt Ht Hmt H3 Hkt) as (b & B1 & B2 & B3).
      rewrite <- M3 in Ht. destruct (getitem_raw m' t uM kt Ht Hmt H3 Hkt) as (b' & B1' & B2' & B3').
      exists b, b'. split; [exact B1|]. split; [exact B1'|]. intros i Hi. rewrite B3', B3, (M5 _ _ Hi).
      destruct (String.eqb_spec (full_sid t) (full_sid s)); [contradiction|reflexivity].
  Qed.

  (* ---- insertion ---- *)
  Lemma index_of_last (c : list string) s : ~ In s c -> index_of s (c ++ [s]) = Some (List.length c).
  Proof.
    induction c as [|x c IH]; cbn; intro H; [now rewrite String.eqb_refl|].
    destruct (String.eqb_spec s x) as [->|]; [exfalso; apply H; now left|]. rewrite IH; [reflexivity|tauto].
  Qed.
  Lemma NoDup_snoc (c : list string) s : NoDup c -> ~ In s c -> NoDup (c ++ [s]).
  Proof.
    intros Hc Hn. induction c as [|x c IH]; cbn; [constructor; [intros []|constructor]|].
    inversion Hc; subst. constructor; [|apply IH; [assumption|intro; apply Hn; now right]].
    intro H. apply in_app_or in H. destruct H as [H|[->|[]]]; [contradiction|apply Hn; now left].
  Qed.
  Lemma insert_value m s g q u units k : mixture_ok m -> dget (full_sid s) P = Some g -> 0 < g_mw g ->
    ~ In (full_sid s) (x_c m) -> combines q (shape m) u ->
    match units with
    | None => k = 1
    | Some v => counts E km kn v /\ kmoles (e_setup E) (g_mw g) v = Some k
    end ->
    exists m', Model_Igtools.insert P E m s q units = Ok m' /\ mixture_ok m' /\
      x_c m' = x_c m ++ [full_sid s] /\ shape m' = u /\
      forall t i, index_in u i -> amount m' t i =
        if String.eqb t (full_sid s) then fmul (Some k) (at_index q i) else amount m t (project (shape m) i).
  Proof.
    intros (H1 & H2 & H3) Hg Hmw Hin Hc Hk.
    destruct (combines_shape q (shape m) u H2 Hc) as (B0 & B1 & U0 & St & Sq & Lu).
    unfold Model_Igtools.insert, get_gas. rewrite Hg. cbn [bind].
    assert (Hm : memb (full_sid s) (x_c m) = false).
    { destruct (memb (full_sid s) (x_c m)) eqn:Em; [|reflexivity]. apply memb_spec in Em. contradiction. }
    rewrite Hm.
    assert (Q : exists f, match units with Some v => nd_matter E g (atleast_1d q) (Some v) (Some "kmol")
                          | None => Ok (atleast_1d q) end = Ok (atleast_1d (np_map f q)) /\
              forall x, f x = fmul (Some k) x).
    { destruct units as [v|].
      - destruct Hk as [Hcv Hkv]. rewrite <- (counts_kmoles _ _ Hcv) in Hkv.
        rewrite (nd_matter_value g _ (Some v) (Some "kmol") v "kmol" k 1 Hmw eq_refl eq_refl Hkv (kmol_size _)).
        exists (fmul (Some (k / 1))). split; [now rewrite map_one|]. intro x. destruct x; cbn; f_equal; field.
      - exists (fun x => x). split.
        + f_equal. unfold atleast_1d, np_map. destruct q as [sh el]; cbn. destruct sh; reflexivity.
        + intro x. subst k. destruct x; cbn; f_equal; lra. }
    destruct Q as (f & -> & Hf). cbn [bind].
    replace (nsh (atleast_1d (np_map f q))) with (nsh (atleast_1d q))
      by (rewrite <- map_one; reflexivity).
    rewrite B1. cbn [bind].
    destruct (bto (np_map f q) u U0 Sq) as [_ (v & V1 & V2 & V3)]. rewrite V1. cbn [bind].
    destruct (broadcast_to_same (x_q m) (nsubst m :: u)) as (w & W1 & W2 & W3).
    { rewrite H1. constructor; [now right|exact St]. }
    rewrite W1. cbn [bind]. eexists; split; [reflexivity|].
    split; [|split; [reflexivity|split; [reflexivity|]]].
    - unfold mixture_ok, shape. cbn [x_c x_q set_row nsh tl]. rewrite app_length, Nat.add_comm. cbn [List.length plus].
      split; [reflexivity|]. split; [exact U0|]. now apply NoDup_snoc.
    - intros t i Hi. rewrite !amount_index. cbn [x_c x_q].
      destruct (String.eqb_spec t (full_sid s)) as [->|Ht].
      + rewrite index_of_last by exact Hin. cbn [set_row nel]. unfold nsubst. rewrite Nat.eqb_refl.
        rewrite V3 by now apply index_in_len. rewrite np_map_at. apply Hf.
      + destruct (index_of t (x_c m)) as [r|] eqn:Er.
        * rewrite (index_of_app _ _ _ _ Er). cbn [set_row nel].
          destruct (index_of_some _ _ _ Er) as [Hr Nr]. unfold nsubst.
          destruct (Nat.eqb_spec r (List.length (x_c m))); [lia|].
          rewrite W3 by (cbn; now rewrite (index_in_len _ _ Hi)). rewrite H1. cbn [project].
          destruct (Nat.eqb_spec (List.length (x_c m)) 1); [replace r with 0%nat by lia|]; reflexivity.
        * assert (N : ~ In t (x_c m ++ [full_sid s])).
          { intro H. apply in_app_or in H. destruct H as [H|[H|[]]]; [apply index_of_none in Er; contradiction|congruence]. }
          apply index_of_none in N. now rewrite N.
  Qed.

  (* ---- removal ---- *)
  Lemma remove_at_in {A} (l : list A) : forall k x, In x (remove_at k l) -> In x l.
  Proof.
    induction l as [|y l IH]; intros [|k] x H; cbn in *; try tauto. destruct H as [->|H]; [now left|right; eauto].
  Qed.
  Lemma remove_at_nodup (l : list string) : forall k, NoDup l -> NoDup (remove_at k l).
  Proof.
    induction l as [|y l IH]; intros [|k] H; cbn; auto; inversion H; subst; [assumption|].
    constructor; [|now apply IH]. intro Hin. apply remove_at_in in Hin. contradiction.
  Qed.
  Lemma remove_at_len {A} (l : list A) : forall k, (k < List.length l)%nat ->
    List.length (remove_at k l) = (List.length l - 1)%nat.
  Proof.
    induction l as [|y l IH]; intros [|k] H; cbn in *; try lia. rewrite IH by lia. lia.
  Qed.
  Lemma remove_at_index (l : list string) : forall k t, NoDup l -> (k < List.length l)%nat -> t <> nth k l "" ->
    match index_of t (remove_at k l) with
    | Some r => index_of t l = Some (if Nat.ltb r k then r else S r)
    | None => index_of t l = None
    end.
  Proof.
    induction l as [|y l IH]; intros [|k] t Hnd Hk Ht; cbn [remove_at index_of nth List.length] in *; try lia.
    - destruct (String.eqb_spec t y); [congruence|]. destruct (index_of t l); reflexivity.
    - inversion Hnd; subst. destruct (String.eqb_spec t y) as [->|Hy]; [reflexivity|].
      specialize (IH k t ltac:(assumption) ltac:(lia) Ht). destruct (index_of t (remove_at k l)) as [r|].
      + rewrite IH. change (S r <? S k)%nat with (r <? k)%nat. destruct (r <? k)%nat; reflexivity.
      + now rewrite IH.
  Qed.
  Lemma remove_at_gone (l : list string) : forall k, NoDup l -> (k < List.length l)%nat -> ~ In (nth k l "") (remove_at k l).
  Proof.
    induction l as [|y l IH]; intros [|k] Hnd Hk; cbn in *; try lia; inversion Hnd as [|? ? N1 N2]; subst; [assumption|].
    intros [E1|H]; [|exact (IH k N2 ltac:(lia) H)]. apply N1. rewrite E1. apply nth_In. lia.
  Qed.
  Lemma remove_value m s : mixture_ok m -> In (full_sid s) (x_c m) ->
    exists m', Model_Igtools.remove m s = Ok m' /\ mixture_ok m' /\ shape m' = shape m /\
      ~ In (full_sid s) (x_c m') /\ (forall t, t <> full_sid s -> (In t (x_c m') <-> In t (x_c m))) /\
      forall t i, index_in (shape m) i -> amount m' t i = if String.eqb t (full_sid s) then Some 0 else amount m t i.
  Proof.
    intros (H1 & H2 & H3) Hin. destruct (sindex_in m s Hin) as (j & J1 & J2 & J3).
    unfold Model_Igtools.remove. rewrite J1. eexists; split; [reflexivity|].
    assert (N : ~ In (full_sid s) (remove_at j (x_c m))) by (rewrite <- J3; now apply remove_at_gone).
    assert (I : forall t, t <> full_sid s -> match index_of t (remove_at j (x_c m)) with
      | Some r => index_of t (x_c m) = Some (if Nat.ltb r j then r else S r)
      | None => index_of t (x_c m) = None end).
    { intros t Ht. apply remove_at_index; auto. now rewrite J3. }
    split; [|split; [reflexivity|split; [exact N|split]]].
    - unfold mixture_ok, shape. cbn [x_c x_q nsh tl]. rewrite H1. cbn [hd]. rewrite remove_at_len by exact J2.
      split; [reflexivity|]. split; [exact H2|]. now apply remove_at_nodup.
    - intros t Ht. cbn [x_c]. specialize (I t Ht). split; [apply remove_at_in|]. intro Hi.
      destruct (index_of t (remove_at j (x_c m))) as [r|] eqn:Er.
      + apply index_of_some in Er. destruct Er as [E1 <-]. now apply nth_In.
      + apply index_of_none in I. contradiction.
    - intros t i Hi. rewrite !amount_index. cbn [x_c x_q].
      destruct (String.eqb_spec t (full_sid s)) as [->|Ht].
      + apply index_of_none in N. now rewrite N.
      + specialize (I t Ht). destruct (index_of t (remove_at j (x_c m))) as [r|]; rewrite I; reflexivity.
  Qed.

  Lemma insert_remove m s g q units k : mixture_ok m -> dget (full_sid s) P = Some g -> 0 < g_mw g ->
    ~ In (full_sid s) (x_c m) -> nsh q = [] ->
    match units with
    | None => k = 1
    | Some v => counts E km kn v /\ kmoles (e_setup E) (g_mw g) v = Some k
    end ->
    exists m1 m2, Model_Igtools.insert P E m s q units = Ok m1 /\ Model_Igtools.remove m1 s = Ok m2 /\ same_mixture m m2.
  Proof.
    intros H0 Hg Hmw Hin Hq Hk.
    destruct (insert_value m s g q (shape m) units k H0 Hg Hmw Hin (or_introl (conj Hq eq_refl)) Hk)
      as (m1 & A1 & A2 & A3 & A4 & A5).
    assert (I1 : In (full_sid s) (x_c m1)) by (rewrite A3; apply in_or_app; right; now left).
    destruct (remove_value m1 s A2 I1) as (m2 & B1 & B2 & B3 & B4 & B5 & B6).
    exists m1, m2. split; [exact A1|]. split; [exact B1|]. split; [congruence|].
    intros t i Hi. rewrite B6 by (rewrite A4; exact Hi). rewrite (A5 t i Hi).
    rewrite project_id by exact Hi.
    destruct (String.eqb_spec t (full_sid s)) as [->|]; [now apply amount_absent|reflexivity].
  Qed.

  Lemma absent_rejected m s q : ~ In (full_sid s) (x_c m) ->
    getitem P E m s = Err PMParamError /\ setitem P E m s q = (m, Err PMParamError) /\
    Model_Igtools.remove m s = Err PMParamError.
  Proof.
    intro H. unfold getitem, setitem, Model_Igtools.remove, sindex. apply index_of_none in H. rewrite H. auto.
  Qed.
  Lemma present_rejected m s q units : In (full_sid s) (x_c m) ->
    Model_Igtools.insert P E m s q units = Err PMParamError.
  Proof.
    intro H. unfold Model_Igtools.insert, get_gas. destruct (dget (full_sid s) P); [|reflexivity]. cbn [bind].
    rewrite (proj2 (memb_spec _ _) H). reflexivity.
  Qed.
  Lemma unknown_rejected m s q units : dget (full_sid s) P = None ->
    Model_Igtools.insert P E m s q units = Err PMParamError.
  Proof. intro H. unfold Model_Igtools.insert, get_gas. now rewrite H. Qed.
End Items.

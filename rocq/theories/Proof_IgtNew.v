(* Construction of dynamic mixtures, and their temperature limits. *)
From Coq Require Import Reals ZArith List String Bool Lia Lra Arith.
From Verif Require Import Base Model_Num Model_Units Model_Igas Model_Igtools Spec_Units Spec_Igtools
  Proof_Units Proof_IgasUnits Proof_Igtshape Proof_Igtools Proof_IgtAdd Proof_IgtMore Proof_IgtItems.
Import ListNotations.
Local Open Scope R_scope.
Local Open Scope string_scope.
Local Open Scope list_scope.

Definition laid (q : nd) (u : list nat) : Prop := nsh q = [] \/ nsh q = [1%nat] \/ stretches (nsh q) u.
Lemma bto_laid q u : u <> [] -> laid q u ->
  exists v, broadcast_to q u = Ok v /\ nsh v = u /\
     forall i, List.length i = List.length u -> nel v i = at_index q i.
Proof.
  intros Hu [H|[H|H]].
  - apply (bto q u Hu). now left.
  - unfold broadcast_to. rewrite H.
    assert (F : fits [1%nat] u = true).
    { unfold fits. cbn [List.length]. destruct (Nat.leb_spec 1 (List.length u)); [|destruct u; [congruence|cbn in *; lia]].
      cbn [andb]. destruct (skipn (List.length u - 1) u); reflexivity. }
    rewrite F. eexists; split; [reflexivity|]. split; [reflexivity|]. intros i Hi. cbn [nel].
    unfold at_index. rewrite H. unfold bidx. cbn [List.length project].
    assert (L : List.length (skipn (List.length i - 1) i) = 1%nat).
    { rewrite skipn_length, Hi. destruct u; [congruence|cbn [List.length]; lia]. }
    destruct (skipn (List.length i - 1) i) as [|x [|y r]]; try discriminate. cbn [map2 Nat.eqb].
    destruct i; [cbn in Hi; destruct u; [congruence|discriminate]|reflexivity].
  - apply (bto q u Hu). now right.
Qed.

Lemma step_ok q s s' : s <> [] -> shape_step q s s' ->
  broadcast_shape (nsh q) s = Ok s' /\ s' <> [] /\ laid q s' /\ (s = [1%nat] \/ stretches s s').
Proof.
  intros Hs [[Hq ->]|(Hq & Hl & Hn)].
  - rewrite Hq. split; [now apply bs_number|]. split; [exact Hs|]. split; [now left|]. right. apply stretches_refl.
  - destruct Hl as [->|Hl].
    + assert (On : ones [1%nat]) by (intros d [<-|[]]; reflexivity).
      assert (Ls : (List.length [1%nat] <= List.length (nsh q))%nat) by (destruct (nsh q); [congruence|cbn; lia]).
      assert (Es : s' = nsh q) by now apply (numpy_ones [1%nat] (nsh q) s' On Ls).
      subst s'. split; [|split; [exact Hq|split; [right; right; apply stretches_refl|now left]]].
      apply broadcast_agrees; [now left| |exact Hn].
      destruct (Nat.eq_dec (List.length (nsh q)) 1) as [E|E]; [left; exact E|right; left]. split; [cbn in *; lia|exact On].
    + destruct (combines_shape q s s' Hs) as (B0 & B1 & U0 & St & Sq & Lu); [right; auto|].
      split; [exact B0|]. split; [exact U0|]. split; [right; right; tauto|]. now right.
Qed.
Lemma chain_ok qs : forall s u, s <> [] -> shapes_combine qs s u ->
  u <> [] /\ (s = [1%nat] \/ stretches s u) /\ forall q, In q qs -> laid q u.
Proof.
  induction qs as [|q qs IH]; intros s u Hs H; cbn in H.
  - subst u. split; [exact Hs|]. split; [right; apply stretches_refl|intros q []].
  - destruct H as (s' & H1 & H2). destruct (step_ok q s s' Hs H1) as (_ & Hs' & Lq & St).
    destruct (IH s' u Hs' H2) as (Hu & St' & Hq). split; [exact Hu|]. split.
    + destruct St as [->|St]; [now left|]. destruct St' as [->|St'].
      * inversion St as [|x y l l' [->| ->] Hl E]; subst; inversion Hl; subst; now left.
      * right. eapply stretches_trans; eassumption.
    + intros x [<-|Hx]; [|now apply Hq]. destruct Lq as [L|[L|L]]; [now left|right; now left|].
      destruct St' as [->|St'].
      * inversion L as [|x y l l' Hxy Hl E]; subst; inversion Hl; subst. right; left. destruct Hxy as [->| ->]; congruence.
      * right; right. eapply stretches_trans; eassumption.
Qed.

Section New.
  Context (P : pool) (E : env) (um un : string) (km kn : R) (Hs : positive_setup (e_setup E)).
  Context (Hum : dget "unit_mass" (e_cfg E) = Some um) (Hkm : si (e_setup E) QMass um = Some km).
  Context (Hun : dget "unit_molar" (e_cfg E) = Some un) (Hkn : si (e_setup E) QMolar un = Some kn).

  Lemma names_ok contents : forall s u, s <> [] -> (forall c, In c contents -> dget (full_sid (fst c)) P <> None) ->
    shapes_combine (map snd contents) s u ->
    init_names P contents s = Ok (map (fun c => full_sid (fst c)) contents, u).
  Proof.
    induction contents as [|[sid q] r IH]; intros s u Hs0 Hp H; cbn [map shapes_combine snd] in H.
    - subst u. reflexivity.
    - destruct H as (s' & H1 & H2). destruct (step_ok q s s' Hs0 H1) as (B & Hs' & _ & _).
      cbn [init_names map fst]. unfold get_gas.
      pose proof (Hp (sid, q) (or_introl eq_refl)) as Hg. cbn [fst] in Hg.
      destruct (dget (full_sid sid) P) as [g|]; [|congruence]. cbn [bind]. rewrite B. cbn [bind].
      rewrite (IH s' u Hs'); [reflexivity| |exact H2]. intros c Hc; apply Hp; now right.
  Qed.

  Lemma rows_ok units uM (k : string -> R) u : u <> [] -> named E units uM -> forall contents j q,
    (forall c, In c contents -> 0 < mw_of P (full_sid (fst c)) /\
       kmoles (e_setup E) (mw_of P (full_sid (fst c)) * (kn / km)) uM = Some (k (full_sid (fst c))) /\ laid (snd c) u) ->
    exists q', init_rows P E units u contents j q = Ok q' /\ nsh q' = nsh q /\
      forall r i, List.length i = List.length u ->
        nel q' (r :: i) =
          match nth_error contents (r - j) with
          | Some c => if Nat.ltb r j then nel q (r :: i) else fmul (Some (k (full_sid (fst c)))) (at_index (snd c) i)
          | None => nel q (r :: i)
          end.
  Proof.
    intros Hu Hn contents. induction contents as [|[sid qty] rest IH]; intros j q H; cbn [init_rows].
    - exists q. split; [reflexivity|]. split; [reflexivity|]. intros r i _. now destruct (r - j)%nat.
    - destruct (H _ (or_introl eq_refl)) as (Hmw & Hk & Hl). cbn [fst snd] in *.
      rewrite <- gas_mw in Hmw, Hk.
      rewrite (nd_matter_value E um un km kn Hs Hum Hkm Hun Hkn (gas_of P (full_sid sid)) qty units (Some "kmol")
                 uM "kmol" _ 1 Hmw Hn eq_refl Hk (kmol_size E _)). cbn [bind].
      destruct (bto_laid (np_map (fmul (Some (k (full_sid sid) / 1))) qty) u Hu Hl) as (v & V1 & V2 & V3).
      rewrite V1. cbn [bind].
      destruct (IH (S j) (set_row q j v)) as (q' & Q1 & Q2 & Q3). { intros c Hc; apply H; now right. }
      exists q'. split; [exact Q1|]. split; [exact Q2|]. intros r i Hi. rewrite (Q3 r i Hi).
      cbn [set_row nel]. destruct (Nat.eqb_spec r j) as [->|Hr].
      + replace (j - S j)%nat with 0%nat by lia. rewrite Nat.sub_diag. cbn [nth_error fst snd].
        destruct (Nat.ltb_spec j (S j)); [|lia]. destruct (Nat.ltb_spec j j); [lia|].
        assert (G : nel v i = fmul (Some (k (full_sid sid))) (at_index qty i)).
        { rewrite (V3 i Hi), np_map_at. f_equal. f_equal. field. }
        destruct rest; cbn; rewrite G; reflexivity.
      + destruct (Nat.ltb_spec r j) as [Hrj|Hrj].
        * replace (r - j)%nat with 0%nat by lia. replace (r - S j)%nat with 0%nat by lia. cbn [nth_error].
          destruct (Nat.ltb_spec r (S j)); [|lia]. destruct rest; reflexivity.
        * replace (r - j)%nat with (S (r - S j)) by lia. cbn [nth_error].
          destruct (Nat.ltb_spec r (S j)); [lia|]. reflexivity.
  Qed.

  Lemma new_amounts units uM (k : string -> R) contents u :
    (forall c, In c contents -> dget (full_sid (fst c)) P <> None /\ 0 < mw_of P (full_sid (fst c)) /\
       kmoles (e_setup E) (mw_of P (full_sid (fst c))) uM = Some (k (full_sid (fst c)))) ->
    NoDup (map (fun c => full_sid (fst c)) contents) -> named E units uM -> counts E km kn uM ->
    shapes_combine (map snd contents) [1%nat] u ->
    exists m, new_mix P E units contents = Ok m /\ mixture_ok m /\ shape m = u /\
      x_c m = map (fun c => full_sid (fst c)) contents /\
      forall c i, In c contents -> index_in u i ->
        amount m (full_sid (fst c)) i = fmul (Some (k (full_sid (fst c)))) (at_index (snd c) i).
  Proof.
    intros H Hnd Hn Hc Hsh.
    assert (N1 : [1%nat] <> []) by discriminate.
    destruct (chain_ok _ _ _ N1 Hsh) as (Hu & _ & Hl).
    unfold new_mix. rewrite (names_ok contents [1%nat] u N1) by (auto; intros c Hc'; apply H; exact Hc'). cbn [bind].
    destruct (rows_ok units uM k u Hu Hn contents 0
       {| nsh := List.length (map (fun c => full_sid (fst c)) contents) :: u; nel := fun _ => None |}) as (q & Q1 & Q2 & Q3).
    { intros c Hc'. destruct (H c Hc') as (_ & H1 & H2). split; [exact H1|].
      split; [rewrite (counts_kmoles E um un km kn Hs Hkm Hkn) by exact Hc; exact H2|].
      apply Hl. now apply in_map. }
    rewrite Q1. cbn [bind]. eexists; split; [reflexivity|].
    split; [|split; [unfold shape; cbn; now rewrite Q2|split; [reflexivity|]]].
    - unfold mixture_ok, shape. cbn. rewrite Q2. cbn. auto.
    - intros c i Hin Hi. rewrite amount_index. cbn [x_c x_q].
      apply In_nth_error in Hin. destruct Hin as [r Hr].
      assert (Lr : (r < List.length contents)%nat) by (apply nth_error_Some; congruence).
      assert (I : index_of (full_sid (fst c)) (map (fun c => full_sid (fst c)) contents) = Some r).
      { replace (full_sid (fst c)) with (nth r (map (fun c => full_sid (fst c)) contents) "").
        - apply index_of_nth; [exact Hnd|now rewrite map_length].
        - apply nth_error_nth. rewrite nth_error_map, Hr. reflexivity. }
      rewrite I, (Q3 r i (index_in_len _ _ Hi)), Nat.sub_0_r, Hr. reflexivity.
  Qed.

  (* an unknown substance is rejected *)
  Lemma new_unknown units contents s q : In (s, q) contents -> dget (full_sid s) P = None ->
    new_mix P E units contents = Err PMParamError \/ exists e, new_mix P E units contents = Err e.
  Proof.
    intros Hin Hg. right.
    assert (forall c sh, In (s, q) c -> exists e, init_names P c sh = Err e) as N.
    { induction c as [|[t x] r IH]; intros sh [] ; cbn [init_names].
      - injection H as -> ->. unfold get_gas. rewrite Hg. cbn. eauto.
      - unfold get_gas. destruct (dget (full_sid t) P); cbn [bind]; [|eauto].
        destruct (broadcast_shape (nsh x) sh) as [sh'|]; cbn [bind]; [|eauto].
        destruct (IH sh' H) as [e ->]. cbn. eauto. }
    unfold new_mix. destruct (N contents [1%nat] Hin) as [e ->]. cbn. eauto.
  Qed.

  (* ---- temperature limits ---- *)
  Lemma tlim_loop_ok names : forall lo hi (a b : string -> R),
    (forall s, In s names -> m_Tlim (gas_of P s) E = Ok (a s, b s)) -> names <> [] \/ (lo <> None /\ hi <> None) ->
    exists l h, tlim_loop P E names lo hi = Ok (Some l, Some h) /\
      (forall x, lo = Some x -> l <= x) /\ (forall x, hi = Some x -> x <= h) /\
      (forall s, In s names -> l <= a s /\ b s <= h) /\
      (lo = Some l \/ exists s, In s names /\ l = a s) /\ (hi = Some h \/ exists s, In s names /\ h = b s).
  Proof.
    induction names as [|s names IH]; intros lo hi a b H Hne; cbn [tlim_loop].
    - destruct Hne as [Hne|[H1 H2]]; [congruence|]. destruct lo as [l|]; [|congruence]. destruct hi as [h|]; [|congruence].
      exists l, h. split; [reflexivity|]. split; [intros x E1; injection E1 as ->; lra|].
      split; [intros x E1; injection E1 as ->; lra|]. split; [intros s []|]. split; now left.
    - rewrite (H s (or_introl eq_refl)). cbn [bind fst snd].
      destruct (IH (low_step lo (a s)) (high_step hi (b s)) a b) as (l & h & L1 & L2 & L3 & L4 & L5 & L6).
      { intros t Ht; apply H; now right. }
      { right. split; [destruct lo|destruct hi]; cbn; [destruct (Rlt_dec _ _)| |destruct (Rlt_dec _ _)|]; discriminate. }
      exists l, h. split; [exact L1|].
      assert (A : l <= a s /\ (forall x, lo = Some x -> l <= x) /\ (low_step lo (a s) = lo \/ low_step lo (a s) = Some (a s))).
      { destruct lo as [x|]; cbn in *.
        - destruct (Rlt_dec (a s) x) as [Hx|Hx]; pose proof (L2 _ eq_refl).
          + split; [lra|]. split; [intros y Ey; injection Ey as <-; lra|now right].
          + split; [lra|]. split; [intros y Ey; injection Ey as <-; lra|now left].
        - pose proof (L2 _ eq_refl). split; [lra|]. split; [discriminate|now right]. }
      assert (B : b s <= h /\ (forall x, hi = Some x -> x <= h) /\ (high_step hi (b s) = hi \/ high_step hi (b s) = Some (b s))).
      { destruct hi as [x|]; cbn in *.
        - destruct (Rlt_dec x (b s)) as [Hx|Hx]; pose proof (L3 _ eq_refl).
          + split; [lra|]. split; [intros y Ey; injection Ey as <-; lra|now right].
          + split; [lra|]. split; [intros y Ey; injection Ey as <-; lra|now left].
        - pose proof (L3 _ eq_refl). split; [lra|]. split; [discriminate|now right]. }
      destruct A as (A1 & A2 & A3). destruct B as (B1 & B2 & B3).
      split; [exact A2|]. split; [exact B2|]. split.
      + intros t [<-|Ht]; [now split|now apply L4].
      + split.
        * destruct L5 as [L5|(t & Ht & ->)]; [|right; exists t; split; [now right|reflexivity]].
          destruct A3 as [A3|A3]; rewrite A3 in L5; [now left|]. right. exists s. split; [now left|congruence].
        * destruct L6 as [L6|(t & Ht & ->)]; [|right; exists t; split; [now right|reflexivity]].
          destruct B3 as [B3|B3]; rewrite B3 in L6; [now left|]. right. exists s. split; [now left|congruence].
  Qed.
  (* the limits returned enclose every constituent's and are attained *)
  Lemma Tlim_hull m (a b : string -> R) : x_c m <> [] ->
    (forall s, In s (x_c m) -> m_Tlim (gas_of P s) E = Ok (a s, b s)) ->
    exists l h, igt_Tlim P E m = Ok (Some l, Some h) /\
      (forall s, In s (x_c m) -> l <= a s /\ b s <= h) /\
      (exists s, In s (x_c m) /\ l = a s) /\ (exists s, In s (x_c m) /\ h = b s).
  Proof.
    intros Hne H. destruct (tlim_loop_ok (x_c m) None None a b H (or_introl Hne)) as (l & h & L1 & _ & _ & L4 & L5 & L6).
    exists l, h. split; [exact L1|]. split; [exact L4|]. destruct L5 as [L5|L5]; [discriminate|].
    destruct L6 as [L6|L6]; [discriminate|]. auto.
  Qed.
  Lemma Tlim_equal m (a b : R) : x_c m <> [] ->
    (forall s, In s (x_c m) -> m_Tlim (gas_of P s) E = Ok (a, b)) -> igt_Tlim P E m = Ok (Some a, Some b).
  Proof.
    intros Hne H. destruct (Tlim_hull m (fun _ => a) (fun _ => b) Hne H) as (l & h & L1 & _ & (s & _ & ->) & (t & _ & ->)).
    exact L1.
  Qed.
End New.

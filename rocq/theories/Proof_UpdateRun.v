(* Sequences of saves and removals. *)
From Coq Require Import List String Bool Sorted Permutation Lia Ascii PeanoNat.
From Verif Require Import Base Text Model_Dat Spec_Dat Proof_Dat Model_Update Spec_Update Proof_UpdateDisk Proof_UpdateOps.
Import ListNotations.
Local Open Scope string_scope.
Local Open Scope list_scope.

Definition yes : oracle := fun _ => true.

(* something other than a file *)
Definition dirkey (d : disk) (q : string) : Prop := exists k, In (q, k) (d_all d) /\ forall c, k <> NFile c.

Lemma dirkey_write t c d q : dirkey (d_write t c d) q -> dirkey d q.
Proof.
  intros (k & Hk & Hf). rewrite d_all_write in Hk. apply in_map_iff in Hk. destruct Hk as ([p m] & E & Hin). cbn [fst snd] in E.
  injection E as -> <-. exists m. split; [exact Hin|]. intros c0 ->. cbn in Hf. destruct (String.eqb q t); eapply Hf; reflexivity.
Qed.
Lemma dirkey_remove t d q : dirkey (d_remove t d) q -> dirkey d q.
Proof.
  intros (k & Hk & Hf). rewrite d_all_remove in Hk. apply in_flat_map in Hk. destruct Hk as ([p m] & Hin & E).
  unfold removed_entry in E. cbn [fst snd] in E. destruct (n_remove t p m) eqn:Er; [|destruct E]. destruct E as [E|[]].
  injection E as -> ->. exists m. split; [exact Hin|]. intros c0 ->. cbn in Er. destruct (String.eqb q t); [discriminate|].
  injection Er as <-. now apply (Hf c0).
Qed.
Lemma dirkey_create dir name c d q : dirkey (d_create dir name c d) q -> dirkey d q.
Proof.
  intros (k & Hk & Hf). apply d_all_create in Hk. destruct Hk as [(m & Hin & ->)|[_ ->]]; [|now destruct (Hf c)].
  exists m. split; [exact Hin|]. intros c0 ->. now apply (Hf c0).
Qed.
Lemma dirkey_put t c d d' q : put t c d = Some d' -> dirkey d' q -> dirkey d q.
Proof.
  unfold put. destruct (dget t (d_all d)) as [[c0|es|]|]; try discriminate.
  - intro E. injection E as <-. apply dirkey_write.
  - destruct (split_path t) as [[? ?]|]; intro E; injection E as <-; [apply dirkey_create|auto].
Qed.
Lemma dirkey_step s d q : dirkey (do_step yes s d) q -> dirkey d q.
Proof.
  unfold yes. destruct s as [p|p x|p|p]; cbn [do_step negb].
  - unfold truncate. destruct (put p Unreadable d) eqn:E; [now apply dirkey_put with p Unreadable|auto].
  - apply dirkey_write.
  - apply dirkey_remove.
  - destruct (_ && _); [|auto]. unfold d_suppress. destruct (dget p (d_all d)) as [[c0|es|]|]; auto.
    destruct (put (p ++ "~") c0 (d_remove p d)) eqn:E; [|auto]. intro H. apply (dirkey_put _ _ _ _ _ E) in H. now apply dirkey_remove in H.
Qed.

Record evo (rec : bool) (new : string -> Prop) (d d' : disk) : Prop := {
  e_tidy : tidy rec d';
  e_hits : forall dir, dhits rec dir d' = dhits rec dir d;
  e_keys : forall q, In q (map fst (d_all d')) -> In q (map fst (d_all d)) \/ new q;
  e_dirs : forall q, dirkey d' q -> dirkey d q }.

Lemma evo_refl rec new d : tidy rec d -> evo rec new d d.
Proof. intro H. split; auto. Qed.
Lemma evo_trans rec new d d1 d2 : evo rec new d d1 -> evo rec new d1 d2 -> evo rec new d d2.
Proof.
  intros [A1 A2 A3 A4] [B1 B2 B3 B4]. split.
  - exact B1.
  - intro. now rewrite B2.
  - intros q Hq. apply B3 in Hq. destruct Hq as [Hq|Hq]; auto.
  - auto.
Qed.
Lemma evo_weaken rec (new new' : string -> Prop) d d' : (forall q, new q -> new' q) -> evo rec new d d' -> evo rec new' d d'.
Proof. intros H [A1 A2 A3 A4]. split; auto. intros q Hq. destruct (A3 q Hq); auto. Qed.

Lemma run_app ok a b d : run_steps ok (a ++ b) d = run_steps ok b (run_steps ok a d).
Proof. apply fold_left_app. Qed.
Lemma dirkey_run l : forall d q, dirkey (run_steps yes l d) q -> dirkey d q.
Proof.
  induction l as [|s l IH]; intros d q H; [exact H|]. change (run_steps yes (s :: l) d) with (run_steps yes l (do_step yes s d)) in H.
  apply IH in H. now apply dirkey_step in H.
Qed.

(* ---- saves ---- *)
Definition savable (rec : bool) (dest : string) (d : disk) (p : string) : Prop :=
  look rec d p <> None \/
  (exists name, p = join dest name /\ no_slash name /\ hpdb name = true /\ ~ In p (map fst (d_all d))).

Lemma save_one rec dest d p x : tidy rec d -> dhits rec dest d = 1 -> savable rec dest d p ->
  let d' := run_steps yes (save p x) d in
  evo rec (eq p) d d' /\ (forall q, look rec d' q = if String.eqb q p then Some (Parsed (JObj x)) else look rec d q).
Proof.
  intros H Hh [Hs|(name & -> & Hn & Hp & Hf)].
  - destruct (look rec d p) as [c|] eqn:Ec; [|congruence]. destruct (save_old rec d p x c H Ec) as (A & B & C & D).
    split; [|exact B]. split; [exact A|exact D|auto|]. intro q. apply dirkey_run.
  - destruct (save_new rec d dest name x H Hn Hp Hh Hf) as (A & B & C & D).
    split; [|exact B]. split; [exact A|exact D| |].
    + intros q Hq. destruct (C q Hq); auto.
    + intro q. apply dirkey_run.
Qed.

Definition saves (S : list (string * jdict)) : list step := flat_map (fun e => save (fst e) (snd e)) S.

Lemma saves_run rec dest S : forall d, tidy rec d -> dhits rec dest d = 1 ->
  (forall p x, In (p, x) S -> savable rec dest d p) ->
  (forall p x y, In (p, x) S -> In (p, y) S -> x = y) ->
  let d' := run_steps yes (saves S) d in
  evo rec (fun q => In q (map fst S)) d d' /\
  (forall q, look rec d' q = match dget q S with Some x => Some (Parsed (JObj x)) | None => look rec d q end).
Proof.
  induction S as [|[p x] S IH]; intros d H Hh Hs Hu.
  - cbn. split; [now apply evo_refl|reflexivity].
  - change (saves ((p, x) :: S)) with (save p x ++ saves S). rewrite run_app. cbn zeta.
    destruct (save_one rec dest d p x H Hh (Hs p x (or_introl eq_refl))) as [A B].
    remember (run_steps yes (save p x) d) as d1 eqn:Ed.
    destruct (IH d1 (e_tidy _ _ _ _ A)) as [C D].
    + rewrite (e_hits _ _ _ _ A). exact Hh.
    + intros p' x' Hin. destruct (String.eqb_spec p' p) as [->|Hn].
      * left. rewrite B, String.eqb_refl. discriminate.
      * destruct (Hs p' x' (or_intror Hin)) as [Hl|(name & E1 & E2 & E3 & E4)].
        -- left. rewrite B. apply String.eqb_neq in Hn. now rewrite Hn.
        -- right. exists name. repeat split; try assumption. intro Hx. apply (e_keys _ _ _ _ A) in Hx. destruct Hx as [Hx|Hx]; congruence.
    + intros p' a b Ha Hb. apply (Hu p'); now right.
    + split.
      * eapply evo_trans; [eapply evo_weaken; [|exact A]|eapply evo_weaken; [|exact C]].
        -- intros q <-. now left.
        -- intros q Hq. now right.
      * intro q. rewrite D, B. cbn [dget]. destruct (String.eqb_spec q p) as [->|Hn]; [|reflexivity].
        destruct (dget p S) as [y|] eqn:E; [|reflexivity]. apply dget_some_in in E.
        rewrite (Hu p x y); [reflexivity|now left|now right].
Qed.

(* ---- removals ---- *)
Definition drop (del : bool) (p : string) : step := if del then Unlink p else Suppress p.

Definition droppable (rec : bool) (d : disk) (p : string) : Prop :=
  ends_with ".hpd" p = true /\ (In p (map fst (dwalk rec d)) \/ ~ In p (map fst (d_all d))).

Lemma look_key rec d p : look rec d p <> None <-> In p (map fst (dwalk rec d)).
Proof.
  unfold look. rewrite dget_none_iff. unfold dkeys. destruct (in_dec string_dec p (map fst (dwalk rec d))); tauto.
Qed.

Lemma gone_remove rec d p : tidy rec d -> In p (map fst (dwalk rec d)) -> ~ In p (map fst (d_all (d_remove p d))).
Proof.
  intros H Hin Hx. apply in_map_iff in Hin. destruct Hin as ([p' c] & E & Hin). cbn in E. subst p'. apply dwalk_all in Hin.
  apply in_map_iff in Hx. destruct Hx as ([p' m] & E & Hx). cbn in E. subst p'. rewrite d_all_remove in Hx.
  apply in_flat_map in Hx. destruct Hx as ([a k] & Hk & Hx). unfold removed_entry in Hx. cbn [fst snd] in Hx.
  destruct (n_remove p a k) eqn:Er; [|destruct Hx]. destruct Hx as [E|[]]. injection E as -> ->.
  rewrite (t_one _ _ H p k (NFile c)) in Er by assumption. cbn in Er. rewrite String.eqb_refl in Er. discriminate.
Qed.

Lemma drop_one rec del d p : tidy rec d -> droppable rec d p -> ~ dirkey d (p ++ "~") ->
  let d' := do_step yes (drop del p) d in
  evo rec (eq (p ++ "~")%string) d d' /\ (forall q, look rec d' q = if String.eqb q p then None else look rec d q) /\
  (forall q, droppable rec d q -> droppable rec d' q).
Proof.
  intros H [He Hp] Hd. cbn zeta.
  assert (Hdrop : forall d', (forall q, look rec d' q = if String.eqb q p then None else look rec d q) ->
     (forall q, In q (map fst (d_all d')) -> In q (map fst (d_all d)) \/ q = (p ++ "~")%string) ->
     ~ In p (map fst (d_all d')) -> forall q, droppable rec d q -> droppable rec d' q).
  { intros d' Hl Hk Hg q [Hq1 Hq2]. split; [exact Hq1|]. destruct (String.eqb_spec q p) as [->|Hn]; [now right|].
    destruct Hq2 as [Hq2|Hq2].
    - left. apply look_key. apply look_key in Hq2. rewrite Hl. apply String.eqb_neq in Hn. now rewrite Hn.
    - right. intro Hx. apply Hk in Hx. destruct Hx as [Hx|Hx]; [contradiction|]. subst q. now rewrite ends_tilde in Hq1. }
  destruct del; cbn [drop].
  - destruct (drop_unlink rec d p H) as (A & B & C & D). split; [|split; [exact B|]].
    + split; [exact A|exact D|auto|]. intro q. apply dirkey_step.
    + apply Hdrop; [exact B|intros q Hq; left; now apply C|]. intro Hx. destruct Hp as [Hp|Hp].
      * now apply (gone_remove rec d p H Hp).
      * apply C in Hx. contradiction.
  - assert (Hk : forall k, In ((p ++ "~")%string, k) (d_all d) -> exists c, k = NFile c).
    { intros k Hk. destruct k as [c|es|]; [eauto| |]; exfalso; apply Hd; eexists; (split; [exact Hk|]); discriminate. }
    destruct (drop_suppress rec d p H Hp Hk) as (A & B & C & D). split; [|split; [exact B|]].
    + split; [exact A|exact D| |].
      * intros q Hq. destruct (C q Hq); auto.
      * intro q. apply dirkey_step.
    + apply Hdrop; [exact B|exact C|]. intro Hx. destruct Hp as [Hp|Hp].
      2: { apply C in Hx. destruct Hx as [Hx|Hx]; [contradiction|]. symmetry in Hx. now apply tilde_ne in Hx. }
      cbn [do_step yes negb] in Hx.
      pose proof Hp as Hp'. apply in_map_iff in Hp'. destruct Hp' as ([p' c] & E & Hin). cbn in E. subst p'.
      destruct (walk_names rec d p c H Hin) as (_ & Hl & _). apply Nat.ltb_lt in Hl. rewrite He, Hl in Hx. cbn [andb] in Hx.
      assert (Hc : look rec d p = Some c) by (apply dget_in_nodup; [apply (t_nodup _ _ H)|exact Hin]).
      unfold d_suppress in Hx. rewrite (look_file rec d p c H Hc) in Hx.
      destruct (put (p ++ "~") c (d_remove p d)) as [d'|] eqn:Ep.
      * destruct (put_unread rec _ _ _ _ (tidy_remove rec p d H) (ends_tilde p) Ep) as (_ & _ & Hkk & _). apply Hkk in Hx.
        destruct Hx as [Hx|Hx]; [now apply (gone_remove rec d p H Hp)|]. symmetry in Hx. now apply tilde_ne in Hx.
      * (* the suppression cannot fail *)
        unfold put in Ep. destruct (dget (p ++ "~") (d_all (d_remove p d))) as [k|] eqn:Eg.
        -- apply dget_some_in in Eg. assert (Hk' : exists c0, k = NFile c0).
           { destruct k as [c0|es|]; [eauto| |]; exfalso; apply Hd, (dirkey_remove p); eexists; (split; [exact Eg|]); discriminate. }
           destruct Hk' as [c0 ->]. discriminate.
        -- destruct (split_path (p ++ "~")) as [[? ?]|]; discriminate.
Qed.

Lemma drops_run rec del ps : forall d, tidy rec d ->
  (forall p, In p ps -> droppable rec d p) -> (forall p, In p ps -> ~ dirkey d (p ++ "~")) ->
  let d' := run_steps yes (map (drop del) ps) d in
  evo rec (fun q => exists p, In p ps /\ q = (p ++ "~")%string) d d' /\
  (forall q, look rec d' q = if in_dec string_dec q ps then None else look rec d q) /\
  (forall q, droppable rec d q -> droppable rec d' q).
Proof.
  induction ps as [|p ps IH]; intros d H Hp Hd; cbn [map].
  - cbn. split; [now apply evo_refl|]. auto.
  - change (run_steps yes (drop del p :: map (drop del) ps) d) with (run_steps yes (map (drop del) ps) (do_step yes (drop del p) d)).
    cbn zeta. destruct (drop_one rec del d p H (Hp p (or_introl eq_refl)) (Hd p (or_introl eq_refl))) as (A & B & C).
    remember (do_step yes (drop del p) d) as d1.
    destruct (IH d1 (e_tidy _ _ _ _ A)) as (D & E & F).
    + intros q Hq. apply C, Hp. now right.
    + intros q Hq Hx. apply (e_dirs _ _ _ _ A) in Hx. apply (Hd q); [now right|exact Hx].
    + split; [|split].
      * eapply evo_trans; [eapply evo_weaken; [|exact A]|eapply evo_weaken; [|exact D]].
        -- intros q <-. exists p. split; [now left|reflexivity].
        -- intros q (p' & Hin & ->). exists p'. split; [now right|reflexivity].
      * intro q. rewrite E, B. destruct (in_dec string_dec q ps) as [Hq|Hq]; destruct (in_dec string_dec q (p :: ps)) as [Hq'|Hq'].
        -- reflexivity.
        -- exfalso. apply Hq'. now right.
        -- destruct Hq' as [->|Hq']; [now rewrite String.eqb_refl|contradiction].
        -- destruct (String.eqb_spec q p) as [->|Hn]; [|reflexivity]. exfalso. apply Hq'. now left.
      * auto.
Qed.

(* how often a directory is searched *)
Lemma hits_count rec dir n : forall path, hits rec dir path n = count_occ string_dec (directories rec path n) dir.
Proof.
  induction n as [c0| |es IH] using node_ind2; intro path; [reflexivity|reflexivity|].
  cbn [hits directories count_occ]. assert (G : fold_right (fun e k => (if followedb rec (fst e) (snd e) then hits rec dir (join path (fst e)) (snd e) else 0) + k) 0 es =
    count_occ string_dec (flat_map (fun e => let '(name, m) := e in
       if rec || (Nat.ltb 4 (String.length name) && ends_with ".hpd" name) then directories rec (path ++ "/" ++ name)%string m else []) es) dir).
  { induction IH as [|[x m] es Hx _ IHes]; [reflexivity|]. cbn [fold_right flat_map fst snd] in *. rewrite count_occ_app, IHes. f_equal.
    specialize (Hx (join path x)). unfold followedb. fold (hpdb x). destruct (hpdb x); [rewrite !orb_true_r; exact Hx|].
    rewrite !orb_false_r. destruct rec; cbn [andb]; [|reflexivity]. destruct (is_dir m) eqn:E; [exact Hx|].
    destruct m; [reflexivity|discriminate|reflexivity]. }
  rewrite G. destruct (string_dec path dir) as [->|Hn].
  - rewrite String.eqb_refl. reflexivity.
  - apply String.eqb_neq in Hn. rewrite Hn. reflexivity.
Qed.
Lemma dhits_count rec dir d : dhits rec dir d = count_occ string_dec (searched_dirs rec d) dir.
Proof.
  induction d as [|[p [n|]] d IH]; [reflexivity| |exact IH].
  cbn [dhits fold_right fst snd searched_dirs flat_map]. rewrite count_occ_app. fold (dhits rec dir d). rewrite IH. f_equal. apply hits_count.
Qed.

(* What updatefiles and red_repair achieve. *)
From Coq Require Import List String Bool Sorted Permutation Lia Ascii PeanoNat ZArith.
From Verif Require Import Base Text Model_Dat Spec_Dat Proof_Dat Model_Update Spec_Update Proof_UpdateDisk Proof_UpdateOps Proof_UpdateRun Proof_Update.
Import ListNotations.
Local Open Scope string_scope.
Local Open Scope list_scope.

Lemma look_none_visits rec d l q : tidy rec d -> visits_dirs rec d l -> (look rec d q = None <-> forall c, ~ In (File q c) l).
Proof.
  intros H Hv. split.
  - intros Hn c Hc. apply (look_visits rec d l q c H Hv) in Hc. congruence.
  - intro Hn. destruct (look rec d q) as [c|] eqn:E; [|reflexivity]. apply (look_visits rec d l q c H Hv) in E. now destruct (Hn c).
Qed.

Section Result.
Variables (cfg : datcfg) (reg : registry) (del : bool) (dest : string) (mem : collection).
Variables (d : disk) (l : list item) (r : report).
Local Notation rec := (recursive cfg).
Hypothesis Ht : tidy rec d.
Hypothesis Hv : visits_dirs rec d l.
Hypothesis Hsing : single l.
Hypothesis Hload : all_loadable reg l.
Hypothesis Hr : report_ok mem l r.
Hypothesis Hm : good_memory reg mem.
Hypothesis Hctor : source_irrelevant reg.
Hypothesis Hdest : dhits rec dest d = 1.
Hypothesis Hnew : forall id s, dget id mem = Some s -> ~ In id (map fst (defs l)) ->
  no_source (s_data s) /\ id <> "" /\ no_slash id /\ ~ In (join dest (id ++ ".hpd")) (map fst (d_all d)).
Hypothesis Htilde : forall p c, In (File p c) l -> ~ dirkey d (p ++ "~").

Lemma file_kept_or p c : In (File p c) l ->
  dropped mem l p \/ (exists id s, saved dest mem l p id s) \/
  (~ dropped mem l p /\ (forall id s, ~ saved dest mem l p id s) /\
   forall id dd, definition p c = Some (id, dd) -> exists s, dget id mem = Some s /\ data_eq (s_data s) dd = true).
Proof.
  intro Hin. pose proof (tidy_paths rec d l Ht Hv) as Hpaths.
  assert (Hcont : forall id s, dget id mem = Some s -> ~ In id (map fst (defs l)) -> p <> join dest (id ++ ".hpd")).
  { intros id s H1 H2 ->. destruct (Hnew id s H1 H2) as (_ & _ & _ & X). apply X. apply walk_keys_all with rec. apply look_key.
    apply (look_visits rec d l _ c Ht Hv) in Hin. congruence. }
  destruct (definition p c) as [[id dd]|] eqn:E.
  - assert (Hf : In p (files_of id l)) by (apply in_files_of; eauto).
    assert (Hid : In (id, dd) (defs l)) by (apply in_defs; eauto).
    assert (Hown : forall id' q, In q (files_of id' l) -> q = p -> id' = id).
    { intros id' q Hq ->. apply in_files_of in Hq. destruct Hq as (c' & dd' & Hin' & E').
      rewrite (file_fun l p c c' Hpaths Hin Hin') in E. congruence. }
    destruct (dget id mem) as [s|] eqn:Es.
    + assert (Hnd : ~ dropped mem l p).
      { intros (id' & Hq & Hn). rewrite (Hown id' p Hq eq_refl) in Hn. apply Hn, dget_in_keys. eauto. }
      destruct (data_eq (s_data s) dd) eqn:Ed.
      * right; right. split; [exact Hnd|]. split.
        -- intros id' s' [H1 [[H2 H3]|[H2 (dd' & H3 & H4)]]]; [now apply (Hcont id' s' H1 H2)|].
           assert (id' = id) by (apply (Hown id' p H2 eq_refl)). subst id'. assert (s' = s) by congruence. subst s'.
           rewrite (defs_fun l id dd dd' Hpaths Hsing Hid H3) in Ed. congruence.
        -- intros id' dd' X. injection X as <- <-. eauto.
      * right; left. exists id, s. split; [exact Es|]. right. split; [exact Hf|]. exists dd. auto.
    + left. exists id. split; [exact Hf|]. now apply dget_none_iff.
  - right; right. split; [|split].
    + intros (id & Hq & _). apply in_files_of in Hq. destruct Hq as (c' & dd' & Hin' & E').
      rewrite (file_fun l p c c' Hpaths Hin Hin') in E. congruence.
    + intros id s [H1 [[H2 H3]|[H2 _]]]; [now apply (Hcont id s H1 H2)|]. apply in_files_of in H2.
      destruct H2 as (c' & dd' & Hin' & E'). rewrite (file_fun l p c c' Hpaths Hin Hin') in E. congruence.
    + intros id dd X. discriminate.
Qed.

Lemma second_result : exists tr l', second_part false del dest mem r = (tr, None) /\
  visits_dirs rec (run_steps yes tr d) l' /\ tidy rec (run_steps yes tr d) /\ all_loadable reg l' /\ single l' /\
  (* each substance in memory has its file *)
  (forall id s, dget id mem = Some s -> exists p dd, In p (files_of id l') /\ In (id, dd) (defs l') /\
     (dd = dset "fromfile" (JStr p) (s_data s) \/ (In (id, dd) (defs l) /\ In p (files_of id l) /\ data_eq (s_data s) dd = true))) /\
  (* and no other does *)
  (forall id, In id (map fst (defs l')) -> In id (dkeys mem)) /\
  (* nothing else is touched *)
  (forall p c, In (File p c) l ->
     (forall id dd, definition p c = Some (id, dd) -> exists s, dget id mem = Some s /\ data_eq (s_data s) dd = true) ->
     In (File p c) l').
Proof.
  pose proof (tidy_paths rec d l Ht Hv) as Hpaths.
  destruct (second_run cfg reg del dest mem d l r Ht Hv Hsing Hr Hm Hdest Hnew Htilde) as (tr & E & A & B).
  remember (run_steps yes tr d) as d' eqn:Ed'.
  pose proof (e_tidy _ _ _ _ A) as Ht'. destruct (visits_dirs_exist rec d' (t_wf _ _ Ht')) as [l' Hl'].
  exists tr, l'. rewrite <- Ed'.
  destruct Hm as [Hkey Hdoc].
  pose proof (tidy_paths rec d' l' Ht' Hl') as Hpaths'.
  (* every file of the new disk *)
  assert (HF : forall p c, In (File p c) l' ->
    (exists id s, saved dest mem l p id s /\ c = Parsed (JObj (s_data s))) \/
    (In (File p c) l /\ forall id dd, definition p c = Some (id, dd) -> exists s, dget id mem = Some s /\ data_eq (s_data s) dd = true)).
  { intros p c Hin. apply (look_visits rec d' l' p c Ht' Hl') in Hin. destruct (B p) as (B1 & B2 & B3).
    assert (Hnd : ~ dropped mem l p) by (intro X; rewrite (B1 X) in Hin; discriminate).
    destruct (look rec d p) as [c0|] eqn:El.
    - apply (look_visits rec d l p c0 Ht Hv) in El as Hin0. destruct (file_kept_or p c0 Hin0) as [X|[(id & s & X)|(X1 & X2 & X3)]].
      + contradiction.
      + left. exists id, s. split; [exact X|]. rewrite (B2 id s X) in Hin. congruence.
      + right. rewrite (B3 X1 X2) in Hin. injection Hin as <-. auto.
    - destruct (in_dec string_dec p (map (fun e => join dest (fst e ++ ".hpd")) (filter (fun e => negb (dmem (fst e) (defs l))) mem))) as [Hx|Hx].
      + apply in_map_iff in Hx. destruct Hx as ([id s0] & <- & Hx). apply filter_In in Hx. destruct Hx as [Hx1 Hx2]. cbn [fst] in *.
        assert (Hs : dget id mem = Some s0) by (apply dget_in_nodup; [apply Hkey|exact Hx1]).
        assert (X : saved dest mem l (join dest (id ++ ".hpd")) id s0).
        { split; [exact Hs|]. left. split; [|reflexivity]. apply negb_true_iff, dmem_false in Hx2. now apply dget_none_iff in Hx2. }
        left. exists id, s0. split; [exact X|]. rewrite (B2 _ _ X) in Hin. congruence.
      + exfalso. rewrite B3 in Hin; [discriminate|exact Hnd|]. intros id s [H1 [[H2 H3]|[H2 _]]].
        * apply Hx. apply in_map_iff. exists (id, s). split; [now rewrite H3|]. apply filter_In. split; [now apply dget_some_in|].
          cbn [fst]. apply negb_true_iff, dmem_false, dget_none_iff. exact H2.
        * apply in_files_of in H2. destruct H2 as (c1 & dd & Hin1 & _). apply (look_visits rec d l p c1 Ht Hv) in Hin1. congruence. }
  assert (HS : forall p id s, saved dest mem l p id s -> In (File p (Parsed (JObj (s_data s)))) l').
  { intros p id s X. apply (look_visits rec d' l' p _ Ht' Hl'). destruct (B p) as (_ & B2 & _). now apply B2 with id. }
  assert (HK : forall p c, In (File p c) l ->
     (forall id dd, definition p c = Some (id, dd) -> exists s, dget id mem = Some s /\ data_eq (s_data s) dd = true) -> In (File p c) l').
  { intros p c Hin Hun. destruct (file_kept_or p c Hin) as [(id & X1 & X2)|[(id & s & X1 & X2)|(X1 & X2 & _)]].
    - apply in_files_of in X1. destruct X1 as (c' & dd' & Hin' & E'). rewrite (file_fun l p c c' Hpaths Hin Hin') in Hun.
      destruct (Hun id dd' E') as (s & Hs & _). exfalso. apply X2, dget_in_keys. eauto.
    - exfalso. destruct X2 as [[X2 ->]|[X2 (dd & X3 & X4)]].
      + destruct (Hnew id s X1 X2) as (_ & _ & _ & X). apply X. apply walk_keys_all with rec. apply look_key.
        apply (look_visits rec d l _ c Ht Hv) in Hin. congruence.
      + apply in_files_of in X2. destruct X2 as (c' & dd' & Hin' & E'). rewrite (file_fun l p c c' Hpaths Hin Hin') in Hun.
        destruct (Hun id dd' E') as (s' & Hs & Heq). assert (s' = s) by congruence. subst s'.
        rewrite (defs_fun l id dd dd' Hpaths Hsing X3) in X4; [congruence|]. apply in_defs. eauto.
    - apply (look_visits rec d' l' p c Ht' Hl'). destruct (B p) as (_ & _ & B3). rewrite (B3 X1 X2). now apply (look_visits rec d l p c Ht Hv). }
  assert (HD : forall p id s, saved dest mem l p id s ->
     definition p (Parsed (JObj (s_data s))) = Some (id, dset "fromfile" (JStr p) (s_data s))).
  { intros p id s [X _]. apply (saved_definition reg mem id s p Hkey X). apply (Hdoc id s X). }
  split; [exact E|]. split; [exact Hl'|]. split; [exact Ht'|]. split; [|split; [|split; [|split; [|exact HK]]]].
  - intros p c Hin. destruct (HF p c Hin) as [(id & s & X & ->)|[Hin0 _]]; [|exact (Hload p c Hin0)].
    right. exists id, (dset "fromfile" (JStr p) (s_data s)), (s_class s).
    destruct (proj2 Hkey id s (proj1 X)) as (_ & Hcl & ctor & Hc1 & Hc2). exists ctor. split; [apply (HD p id s X)|].
    split; [|split; [exact Hc1|]].
    + rewrite dget_dset_other by discriminate. exact Hcl.
    + apply (Hctor _ _ _ p Hc1 Hc2).
  - (* single *)
    assert (Hsame : forall p p' id s, saved dest mem l p id s -> saved dest mem l p' id s -> p = p').
    { intros p p' id s [X1 [[X2 ->]|[X2 _]]] [Y1 [[Y2 ->]|[Y2 _]]].
      - reflexivity.
      - exfalso. apply X2, defs_ids. eauto.
      - exfalso. apply Y2, defs_ids. eauto.
      - apply (Hsing id); assumption. }
    assert (Hmix : forall p p' c id s dd, saved dest mem l p id s -> In (File p' c) l -> definition p' c = Some (id, dd) ->
       (exists s, dget id mem = Some s /\ data_eq (s_data s) dd = true) -> False).
    { intros p p' c id s dd [X1 [[X2 ->]|[X2 (dd' & X3 & X4)]]] Hin Hdf (s' & Hs & Heq).
      - apply X2. apply in_map_iff. exists (id, dd). split; [reflexivity|]. apply in_defs. eauto.
      - assert (s' = s) by congruence. subst s'. rewrite (defs_fun l id dd' dd Hpaths Hsing X3) in X4; [congruence|]. apply in_defs. eauto. }
    intros id p p' Hp Hp'. apply in_files_of in Hp, Hp'. destruct Hp as (c & dd & I1 & E1), Hp' as (c' & dd' & I2 & E2).
    destruct (HF p c I1) as [(i & s & X & ->)|[X1 X2]]; destruct (HF p' c' I2) as [(i' & s' & Y & ->)|[Y1 Y2]].
    + rewrite (HD p i s X) in E1. rewrite (HD p' i' s' Y) in E2. injection E1 as -> _. injection E2 as -> _.
      assert (s' = s) by (destruct X, Y; congruence). subst s'. now apply (Hsame p p' id s).
    + rewrite (HD p i s X) in E1. injection E1 as -> _. exfalso. eapply (Hmix p p' c' id s dd'); eauto.
    + rewrite (HD p' i' s' Y) in E2. injection E2 as -> _. exfalso. eapply (Hmix p' p c id s' dd); eauto.
    + apply (Hsing id); apply in_files_of; eauto.
  - intros id s Hs. destruct (in_dec string_dec id (map fst (defs l))) as [Hid|Hid].
    + apply defs_ids in Hid. destruct Hid as [p Hp]. pose proof Hp as Hp'. apply in_files_of in Hp'. destruct Hp' as (c & dd & Hin & Hdf).
      assert (Hdd : In (id, dd) (defs l)) by (apply in_defs; eauto).
      destruct (data_eq (s_data s) dd) eqn:Eq.
      * assert (Hin' : In (File p c) l').
        { apply HK; [exact Hin|]. intros id' dd' X. rewrite Hdf in X. injection X as <- <-. eauto. }
        exists p, dd. split; [apply in_files_of; eauto|]. split; [apply in_defs; eauto|]. right. auto.
      * assert (X : saved dest mem l p id s) by (split; [exact Hs|]; right; split; [exact Hp|]; eauto).
        pose proof (HS p id s X). pose proof (HD p id s X).
        exists p, (dset "fromfile" (JStr p) (s_data s)). split; [apply in_files_of; eauto|split; [apply in_defs; eauto|now left]].
    + assert (X : saved dest mem l (join dest (id ++ ".hpd")) id s) by (split; [exact Hs|]; left; auto).
      exists (join dest (id ++ ".hpd")), (dset "fromfile" (JStr (join dest (id ++ ".hpd"))) (s_data s)).
      pose proof (HS _ id s X). pose proof (HD _ id s X).
      split; [apply in_files_of; eauto|split; [apply in_defs; eauto|now left]].
  - intros id Hid. apply in_map_iff in Hid. destruct Hid as ([id' dd] & <- & Hid). cbn [fst]. apply in_defs in Hid.
    destruct Hid as (p & c & Hin & Hdf). destruct (HF p c Hin) as [(i & s & X & ->)|[X1 X2]].
    + rewrite (HD p i s X) in Hdf. injection Hdf as -> _. destruct X as [X _]. apply dget_in_keys. eauto.
    + destruct (X2 _ _ Hdf) as (s & Hs & _). apply dget_in_keys. eauto.
Qed.
End Result.

(* ---- the first part, done quietly ---- *)
Lemma run_red_nodup cfg reg l : forall st st' x r, chk st = Some r -> NoDup (dkeys (redundant r)) ->
  run_items cfg reg l st = (st', x) -> forall r', chk st' = Some r' -> NoDup (dkeys (redundant r')).
Proof.
  assert (One : forall p c st st' x r, chk st = Some r -> NoDup (dkeys (redundant r)) ->
     load_one_file cfg reg p c st = (st', x) -> exists r', chk st' = Some r' /\ NoDup (dkeys (redundant r'))).
  { intros p c [m k] st' x r Hk Hn. cbn in Hk. subst k. unfold load_one_file. destruct (load_file c) as [v|y].
    2: { intro E. injection E as <- _. eexists. split; [reflexivity|]. exact Hn. }
    destruct (with_source v p) as [dd|y]; [|intro E; injection E as <- _; eexists; split; [reflexivity|exact Hn]].
    destruct (str_field "id" dd) as [id|y]; [|intro E; injection E as <- _; eexists; split; [reflexivity|exact Hn]].
    cbn [loadto chk]. destruct (dmem id (rdata r)).
    - destruct (exist_fatal cfg); [intro E; injection E as <- _; eexists; split; [reflexivity|apply dset_nodup, Hn]|].
      destruct (overwrite cfg); cbn [negb].
      + destruct (construct reg dd); intro E; injection E as <- _; eexists; (split; [reflexivity|]); apply dset_nodup, Hn.
      + intro E; injection E as <- _; eexists; split; [reflexivity|apply dset_nodup, Hn].
    - destruct (construct reg dd); intro E; injection E as <- _; eexists; (split; [reflexivity|]); exact Hn. }
  induction l as [|i l IH]; intros st st' x r Hk Hn E r' Hr'.
  - injection E as <- _. congruence.
  - cbn [run_items] in E. assert (G : exists r1, chk (fst (run_item cfg reg i st)) = Some r1 /\ NoDup (dkeys (redundant r1))).
    { destruct i as [p c|p]; cbn [run_item].
      - destruct (load_one_file cfg reg p c st) as [st1 x1] eqn:E1. apply (One p c st st1 x1 r Hk Hn E1).
      - cbn [fst]. unfold note_suppressed. rewrite Hk. eexists. split; [reflexivity|exact Hn]. }
    destruct G as (r1 & G1 & G2). destruct (run_item cfg reg i st) as [st1 [x1|]]; cbn [fst] in G1.
    + injection E as <- _. congruence.
    + now apply (IH st1 st' x r1 G1 G2 E).
Qed.
Lemma check_red_nodup cfg reg d l data r : visits_dirs (recursive cfg) d l -> snd (load_check cfg reg d data) = Ok r ->
  NoDup (dkeys (redundant r)).
Proof.
  intros Hv. unfold load_check. rewrite (load_dirs_visits _ _ _ _ Hv).
  destruct (run_items cfg reg l {| mem := data; chk := Some (new_report data) |}) as [st' x] eqn:E. cbn [snd].
  destruct x; [discriminate|]. destruct (chk st') as [r'|] eqn:Ek; [|discriminate]. intro X. injection X as <-.
  apply (run_red_nodup cfg reg l {| mem := data; chk := Some (new_report data) |} st' None (new_report data) eq_refl (NoDup_nil _) E r' Ek).
Qed.

Lemma but_zero {A} (l : list A) : but_index 0 0 l = tl l.
Proof.
  destruct l as [|x l]; [reflexivity|]. cbn [but_index tl Z.eqb].
  assert (G : forall (l : list A) i, (0 < i)%Z -> but_index i 0 l = l).
  { clear. induction l as [|x l IH]; intros i Hi; [reflexivity|]. cbn [but_index].
    destruct (Z.eqb_spec i 0) as [->|_]; [lia|]. rewrite IH; [reflexivity|lia]. }
  apply G. lia.
Qed.
Lemma quiet_steps int_of ins RED : red_repair int_of false "s" 0 ins RED =
  (map (drop false) (flat_map (fun e => tl (snd e)) RED), None).
Proof.
  unfold red_repair. induction RED as [|[id fs] RED IH]; [reflexivity|]. cbn [repair_quiet String.eqb Ascii.eqb Bool.eqb].
  rewrite IH. unfold repair_steps. cbn [String.eqb Ascii.eqb Bool.eqb flat_map snd]. rewrite but_zero, map_app. reflexivity.
Qed.

(* all but the first file of each substance *)
Definition surplus (l : list item) (p : string) : Prop := exists id, In p (tl (files_of id l)).

Section First.
Variables (cfg : datcfg) (reg : registry) (del : bool) (mem : collection).
Variables (d : disk) (l : list item) (r : report).
Variables (int_of : string -> option Z) (ins : list string).
Local Notation rec := (recursive cfg).
Hypothesis Ht : tidy rec d.
Hypothesis Hv : visits_dirs rec d l.
Hypothesis Hload : all_loadable reg l.
Hypothesis Hr : report_ok mem l r.
Hypothesis Hrn : NoDup (dkeys (redundant r)).
Hypothesis Htilde : forall p c, In (File p c) l -> ~ dirkey d (p ++ "~").

Lemma surplus_red p : In p (flat_map (fun e => tl (snd e)) (redundant r)) <-> surplus l p.
Proof.
  rewrite in_flat_map. split.
  - intros ([id fs] & Hin & Hp). exists id. cbn [snd] in Hp. apply (dget_in_nodup _ _ _ Hrn) in Hin. rewrite (rk_red _ _ _ Hr) in Hin.
    destruct (files_of id l) as [|a [|b q]]; try discriminate. injection Hin as <-. exact Hp.
  - intros (id & Hp). pose proof (rk_red _ _ _ Hr id) as E. destruct (files_of id l) as [|a [|b q]] eqn:Ef; [destruct Hp|destruct Hp|].
    exists (id, a :: b :: q). split; [now apply dget_some_in|exact Hp].
Qed.
Lemma surplus_file p : surplus l p -> exists c, In (File p c) l.
Proof.
  intros (id & H). assert (X : In p (files_of id l)) by (destruct (files_of id l); [destruct H|now right]).
  apply in_files_of in X. destruct X as (c & dd & X & _). eauto.
Qed.

Lemma repair_run : exists tr,
  (match redundant r with [] => ([], None) | RED => red_repair int_of false "s" 0 ins RED end) = (tr, None) /\
  let d' := run_steps yes tr d in
  evo rec (fun q => exists p, q = (p ++ "~")%string) d d' /\
  (forall q, (surplus l q -> look rec d' q = None) /\ (~ surplus l q -> look rec d' q = look rec d q)) /\
  (forall q, droppable rec d q -> droppable rec d' q).
Proof.
  exists (map (drop false) (flat_map (fun e => tl (snd e)) (redundant r))). split.
  { destruct (redundant r) as [|e RED]; [reflexivity|]. apply quiet_steps. }
  destruct (drops_run rec false (flat_map (fun e => tl (snd e)) (redundant r)) d Ht) as (A & B & C).
  { intros p Hp. apply surplus_red in Hp. apply surplus_file in Hp. destruct Hp as [c Hp]. apply (look_visits rec d l p c Ht Hv) in Hp.
    split; [apply look_in in Hp; now apply walk_names in Hp|]. left. apply look_key. congruence. }
  { intros p Hp. apply surplus_red in Hp. apply surplus_file in Hp. destruct Hp as [c Hp]. now apply (Htilde p c). }
  cbn zeta. split; [|split].
  - eapply evo_weaken; [|exact A]. intros q (p & _ & ->). eauto.
  - intro q. rewrite B. destruct (in_dec string_dec q _) as [Hq|Hq]; rewrite surplus_red in Hq; split; intro X; auto; contradiction.
  - exact C.
Qed.

Lemma first_run : exists tr, first_part int_of false del ins r = (tr, None) /\
  let d' := run_steps yes tr d in
  evo rec (fun q => exists p, q = (p ++ "~")%string) d d' /\
  (forall q, (surplus l q -> look rec d' q = None) /\
             (~ surplus l q -> ~ (del = true /\ In q (malformed_files l)) -> look rec d' q = look rec d q) /\
             (del = true /\ In q (malformed_files l) -> look rec d' q = None)).
Proof.
  destruct repair_run as (tr & E & A & B & C). cbn zeta in *. unfold first_part, seq. rewrite E. cbn [fst snd]. unfold bad_steps.
  rewrite (rk_bad _ _ _ Hr).
  assert (HX : exists tr2, (match malformed_files l with [] => ([], None) | _ => ((if del then map Unlink (malformed_files l) else []), @None exn) end) = (tr2, None) /\
    tr2 = (if del then map (drop true) (malformed_files l) else [])).
  { destruct (malformed_files l); [exists []; now destruct del|]. eexists. split; [reflexivity|]. now destruct del. }
  destruct HX as (tr2 & E2 & Etr2). rewrite E2. cbn [fst snd]. exists (tr ++ tr2). split; [reflexivity|]. rewrite run_app.
  remember (run_steps yes tr d) as d1 eqn:Ed1.
  destruct del; subst tr2.
  2: { cbn [run_steps fold_left]. split; [exact A|]. intro q. destruct (B q) as [B1 B2]. split; [exact B1|]. split; [intros X _; auto|].
       intros [X _]. discriminate. }
  destruct (drops_run rec true (malformed_files l) d1 (e_tidy _ _ _ _ A)) as (D & F & G).
  { intros p Hp. apply C. unfold malformed_files in Hp. apply in_flat_map in Hp. destruct Hp as ([q c|q] & Hq & Hp); [|destruct Hp].
    destruct (definition q c); [destruct Hp|]. destruct Hp as [->|[]]. apply (look_visits rec d l p c Ht Hv) in Hq.
    split; [apply look_in in Hq; now apply walk_names in Hq|]. left. apply look_key. congruence. }
  { intros p Hp Hx. apply (e_dirs _ _ _ _ A) in Hx. unfold malformed_files in Hp. apply in_flat_map in Hp. destruct Hp as ([q c|q] & Hq & Hp); [|destruct Hp].
    destruct (definition q c); [destruct Hp|]. destruct Hp as [->|[]]. now apply (Htilde p c). }
  split.
  { eapply evo_trans; [exact A|]. eapply evo_weaken; [|exact D]. intros q (p & _ & ->). eauto. }
  intro q. rewrite F. destruct (B q) as [B1 B2]. destruct (in_dec string_dec q (malformed_files l)) as [Hq|Hq].
  - split; [auto|]. split; [|auto]. intros _ X. exfalso. apply X. auto.
  - split; [exact B1|]. split; [intros X _; auto|]. intros [_ X]. contradiction.
Qed.
End First.

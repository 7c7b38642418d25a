From Coq Require Import List String Bool Arith Lia.
From Verif Require Import Model_Config Spec_Config.
Local Open Scope string_scope.
Local Open Scope list_scope.

(* induction over nested values *)
Section pyval_ind.
  Variable P : pyval -> Prop.
  Hypothesis Hscalar : forall v, (forall l, v <> VList l) -> P v.
  Hypothesis Hlist : forall l, Forall P l -> P (VList l).
  Lemma pyval_ind2 : forall v, P v.
  Proof.
    fix IH 1. intros [| | | | |l|]; try (apply Hscalar; intros ? H; discriminate H).
    apply Hlist. induction l as [|x l IHl]; constructor; [apply IH|exact IHl].
  Qed.
End pyval_ind.

(* the inner loop of entry_write, named *)
Fixpoint write_all (env : pyenv) (e : entry) (l : list pyval) : entry * option exn :=
  match l with
  | [] => (e, None)
  | v :: l' => match entry_write env e v with
               | (e', None) => write_all env e' l'
               | (e', Some x) => (e', Some x)
               end
  end.

Lemma entry_write_list env e l :
  entry_write env e (VList l) =
  if negb (e_write e) then (e, Some PMParamError)
  else if e_append e then write_all env e l else write_scalar env e (VList l).
Proof.
  cbn [entry_write]. destruct (negb (e_write e)); [reflexivity|].
  destruct (e_append e); [|reflexivity].
  revert e. induction l as [|v l IH]; intro e; cbn; [reflexivity|].
  destruct (entry_write env e v) as [e' [x|]]; [reflexivity|]. apply IH.
Qed.

Lemma entry_write_scalar env e v :
  (forall l, v <> VList l) ->
  entry_write env e v = if negb (e_write e) then (e, Some PMParamError) else write_scalar env e v.
Proof. destruct v; intro H; try reflexivity. exfalso. eapply H; reflexivity. Qed.

Lemma leaves_list l : leaves (VList l) = flat_map leaves l.
Proof. induction l as [|v l IH]; cbn; [reflexivity|]. now rewrite <- IH. Qed.

Lemma leaves_scalar v : (forall l, v <> VList l) -> leaves v = [v].
Proof. destruct v; intro H; try reflexivity. exfalso. eapply H; reflexivity. Qed.

(* static fields *)
Definition same_static (e e' : entry) : Prop :=
  e_default e' = e_default e /\ e_append e' = e_append e /\ e_write e' = e_write e /\ e_etype e' = e_etype e.

Lemma same_static_refl e : same_static e e.
Proof. repeat split. Qed.
Lemma same_static_trans a b c : same_static a b -> same_static b c -> same_static a c.
Proof. unfold same_static; intuition congruence. Qed.
Lemma same_static_value e v : same_static e (set_value e v).
Proof. repeat split. Qed.

Lemma write_scalar_static env e v : same_static e (fst (write_scalar env e v)).
Proof.
  unfold write_scalar. destruct (match e_etype e with Some t => cast env t v | None => Some v end); cbn;
  [|apply same_static_refl].
  destruct (e_append e); [|apply same_static_value].
  destruct (e_value e); try apply same_static_refl. apply same_static_value.
Qed.

Lemma entry_write_static env v : forall e, same_static e (fst (entry_write env e v)).
Proof.
  induction v as [v Hs|l IH] using pyval_ind2; intro e.
  - rewrite entry_write_scalar by assumption. destruct (negb (e_write e)); [apply same_static_refl|].
    apply write_scalar_static.
  - rewrite entry_write_list. destruct (negb (e_write e)); [apply same_static_refl|].
    destruct (e_append e); [|apply write_scalar_static].
    revert e. induction IH as [|v l Hv _ IHl]; intro e; [apply same_static_refl|].
    cbn [write_all]. specialize (Hv e). destruct (entry_write env e v) as [e' [x|]]; cbn in *; [exact Hv|].
    eapply same_static_trans; eauto.
Qed.

Lemma entry_write_readonly env e v : e_write e = false -> entry_write env e v = (e, Some PMParamError).
Proof. intro H. destruct v; cbn [entry_write]; rewrite H; reflexivity. Qed.

(* append entries: exactly the castable prefix of the leaves is appended *)
Lemma castable_app env t l1 l2 :
  castable_prefix env t (l1 ++ l2) =
  if forallb (fun v => match cast env t v with Some _ => true | None => false end) l1
  then castable_prefix env t l1 ++ castable_prefix env t l2 else castable_prefix env t l1.
Proof.
  induction l1 as [|v l1 IH]; cbn; [reflexivity|].
  destruct (cast env t v); [|reflexivity]. cbn. rewrite IH. destruct (forallb _ l1); reflexivity.
Qed.

Definition allc env t l := forallb (fun v => match cast env t v with Some _ => true | None => false end) l.

Lemma allc_spec env t l : allc env t l = true <-> all_castable env t l.
Proof.
  unfold allc, all_castable. rewrite forallb_forall, Forall_forall.
  split; intros H v Hv; specialize (H v Hv); destruct (cast env t v); congruence.
Qed.

Lemma append_write env t v : forall e l,
  e_append e = true -> e_write e = true -> e_etype e = Some t -> e_value e = VList l ->
  e_value (fst (entry_write env e v)) = VList (l ++ castable_prefix env t (leaves v)) /\
  snd (entry_write env e v) = if allc env t (leaves v) then None else Some PMParamError.
Proof.
  induction v as [v Hs|vs IH] using pyval_ind2; intros e l Ha Hw Ht Hl.
  - rewrite entry_write_scalar, leaves_scalar by assumption. rewrite Hw. cbn [negb].
    unfold write_scalar. rewrite Ht, Ha, Hl. cbn [castable_prefix allc forallb].
    destruct (cast env t v); cbn; [auto|]. rewrite Hl, app_nil_r. auto.
  - rewrite entry_write_list, Hw, Ha, leaves_list. cbn [negb].
    revert e l Ha Hw Ht Hl. induction IH as [|v vs Hv _ IHl]; intros e l Ha Hw Ht Hl.
    + cbn. rewrite Hl, app_nil_r. auto.
    + cbn [write_all flat_map]. destruct (Hv e l Ha Hw Ht Hl) as [H1 H2].
      pose proof (entry_write_static env v e) as (_ & S2 & S3 & S4).
      destruct (entry_write env e v) as [e' x] eqn:E. cbn [fst snd] in *.
      unfold allc in *. rewrite castable_app, forallb_app.
      destruct (forallb _ (leaves v)) eqn:F; subst x.
      * destruct (IHl e' (l ++ castable_prefix env t (leaves v))) as [G1 G2]; try congruence.
        rewrite G1, G2, <- app_assoc. auto.
      * cbn. auto.
Qed.

(* read-only entries *)
Lemma dset_same {A} k (e : A) c : dget k c = Some e -> dset k e c = c.
Proof.
  induction c as [|[k' e'] c IH]; cbn; [discriminate|].
  destruct (String.eqb_spec k k') as [->|]; intro H; [congruence|]. now rewrite IH.
Qed.

Section Step.
  (* A property of the entry stored under k that every basic entry operation preserves is
     preserved by every configuration operation. *)
  Variable env : pyenv.
  Variable k : string.
  Variable P : entry -> Prop.
  Hypothesis Pwrite : forall e v, P e -> P (fst (entry_write env e v)).

  Definition holds (c : config) := exists e, dget k c = Some e /\ P e.

  Lemma holds_dset c k' e' : holds c -> (k' = k -> P e') -> holds (dset k' e' c).
  Proof.
    intros (e & He & HP) H. unfold holds. destruct (String.string_dec k k') as [<-|Hn].
    - rewrite dget_dset_same. eauto.
    - rewrite dget_dset_other by assumption. eauto.
  Qed.

  Lemma setitem_holds c k' v : holds c -> holds (fst (cfg_setitem env c k' v)).
  Proof.
    intros H. unfold cfg_setitem. destruct (dget k' c) as [e'|] eqn:E; [|exact H].
    cbn. apply holds_dset; [assumption|]. intros ->. destruct H as (e & He & HP).
    rewrite He in E. injection E as <-. now apply Pwrite.
  Qed.

  Lemma update_holds new : forall c, holds c -> holds (fst (cfg_update env c new)).
  Proof.
    induction new as [|[k' v] new IH]; intros c H; cbn; [exact H|].
    pose proof (setitem_holds c k' v H) as H'.
    destruct (cfg_setitem env c k' v) as [c' [x|]]; cbn in *; [exact H'|]. now apply IH.
  Qed.

  Lemma load_holds fs fuel : forall c i found, holds c ->
    holds (fst (fst (load_loop env fs fuel c i found))).
  Proof.
    induction fuel as [|fuel IH]; intros c i found H; cbn [load_loop]; [exact H|].
    destruct (dget "config_file" c) as [e|]; [|exact H].
    destruct (e_value e); try exact H.
    destruct (nth_error l i) as [[]|]; try exact H.
    destruct (existsb _ found); [now apply IH|].
    assert (H' : holds (fst (load_one env fs c (norm_path env s)))).
    { unfold load_one. destruct (dget (norm_path env s) fs) as [[|vars]|]; cbn; try exact H.
      now apply update_holds. }
    destruct (load_one env fs c (norm_path env s)) as [c' [x|]]; cbn in *; [exact H'|]. now apply IH.
  Qed.

  Lemma step_holds c o :
    (forall e v, o = OEntryDefault k v -> P e -> P (fst (entry_set_default env e v))) ->
    (forall e, o = ORestore (Some k) -> P e -> P (entry_restore e)) ->
    holds c -> holds (fst (cfg_step env c o)).
  Proof.
    intros HD HR H. destruct o as [k'|k' v|new|[k'|]|fs fuel|k'|k' v|k' v]; cbn [cfg_step].
    - exact H.
    - now apply setitem_holds.
    - now apply update_holds.
    - unfold cfg_restore. destruct (dget k' c) as [e'|] eqn:E; [|exact H].
      cbn. apply holds_dset; [assumption|]. intros ->. destruct H as (e & He & HP).
      rewrite He in E. injection E as <-. now apply HR.
    - exact H.
    - pose proof (load_holds fs fuel c 0 [] H) as H'.
      destruct (load_loop env fs fuel c 0 []) as [[c' f] x]. exact H'.
    - exact H.
    - unfold entry_op. destruct (dget k' c) as [e'|] eqn:E; [|exact H].
      destruct (entry_write env e' v) as [e2 x] eqn:E2. cbn. apply holds_dset; [assumption|].
      intros ->. destruct H as (e & He & HP). rewrite He in E. injection E as <-.
      pose proof (Pwrite e v HP) as HW. rewrite E2 in HW. exact HW.
    - unfold entry_op. destruct (dget k' c) as [e'|] eqn:E; [|exact H].
      destruct (entry_set_default env e' v) as [e2 x] eqn:E2. cbn. apply holds_dset; [assumption|].
      intros ->. destruct H as (e & He & HP). rewrite He in E. injection E as <-.
      pose proof (HD e v eq_refl HP) as HW. rewrite E2 in HW. exact HW.
  Qed.

  Lemma run_holds ops : forall c,
    (forall e v, In (OEntryDefault k v) ops -> P e -> P (fst (entry_set_default env e v))) ->
    (forall e, In (ORestore (Some k)) ops -> P e -> P (entry_restore e)) ->
    holds c -> holds (cfg_run env c ops).
  Proof.
    induction ops as [|o ops IH]; intros c HD HR H; cbn; [exact H|].
    apply IH.
    - intros e v Hin. apply HD. now right.
    - intros e Hin. apply HR. now right.
    - apply step_holds; [| |assumption].
      + intros e v Ho. apply HD. now left.
      + intros e Ho. apply HR. now left.
  Qed.
End Step.

Lemma readonly_run env c ops k e :
  dget k c = Some e -> e_write e = false -> dget k (cfg_run env c ops) = Some e.
Proof.
  intros He Hw.
  destruct (run_holds env k (fun e' => e' = e)) with (ops := ops) (c := c) as (e' & He' & ->).
  - intros e' v ->. now rewrite entry_write_readonly.
  - intros e' v _ ->. unfold entry_set_default. now rewrite Hw.
  - intros e' _ ->. unfold entry_restore. now rewrite Hw.
  - exists e; auto.
  - exact He'.
Qed.

Lemma write_scalar_prefix env e v l :
  e_append e = true -> e_value e = VList l ->
  exists l', e_value (fst (write_scalar env e v)) = VList (l ++ l').
Proof.
  intros Ha Hl. unfold write_scalar.
  destruct (match e_etype e with Some t => cast env t v | None => Some v end); cbn.
  - rewrite Ha, Hl. cbn. eauto.
  - exists []. now rewrite app_nil_r.
Qed.

Lemma entry_write_prefix env v : forall e l,
  e_append e = true -> e_value e = VList l ->
  exists l', e_value (fst (entry_write env e v)) = VList (l ++ l').
Proof.
  induction v as [v Hs|vs IH] using pyval_ind2; intros e l Ha Hl.
  - rewrite entry_write_scalar by assumption. destruct (negb (e_write e)).
    + exists []. now rewrite app_nil_r.
    + now apply write_scalar_prefix.
  - rewrite entry_write_list, Ha. destruct (negb (e_write e)).
    + exists []. now rewrite app_nil_r.
    + revert e l Ha Hl. induction IH as [|v vs Hv _ IHl]; intros e l Ha Hl.
      * exists []. cbn. now rewrite app_nil_r.
      * cbn [write_all]. destruct (Hv e l Ha Hl) as [l1 H1].
        pose proof (entry_write_static env v e) as (_ & S2 & _).
        destruct (entry_write env e v) as [e' [x|]]; cbn [fst] in *; [eauto|].
        destruct (IHl e' (l ++ l1)) as [l2 H2]; try congruence. exists (l1 ++ l2)%list. now rewrite app_assoc.
Qed.

Lemma set_default_static env e v :
  e_append (fst (entry_set_default env e v)) = e_append e /\
  e_value (fst (entry_set_default env e v)) = e_value e /\
  e_write (fst (entry_set_default env e v)) = e_write e /\
  e_etype (fst (entry_set_default env e v)) = e_etype e.
Proof.
  unfold entry_set_default. destruct (negb (e_write e)); [auto|].
  destruct (e_etype e) eqn:E; cbn; [|auto]. destruct (cast env e0 v); cbn; auto.
Qed.

Lemma append_grows env c ops k e l :
  dget k c = Some e -> e_append e = true -> e_value e = VList l ->
  ~ In (ORestore (Some k)) ops ->
  exists e' l', dget k (cfg_run env c ops) = Some e' /\ e_value e' = VList (l ++ l').
Proof.
  intros He Ha Hl Hno.
  destruct (run_holds env k (fun e' => e_append e' = true /\ exists l', e_value e' = VList (l ++ l')))
    with (ops := ops) (c := c) as (e' & He' & _ & l' & Hl').
  - intros e' v (Ha' & l1 & H1). split.
    + pose proof (entry_write_static env v e') as (_ & S2 & _). congruence.
    + destruct (entry_write_prefix env v e' _ Ha' H1) as [l2 H2]. exists (l1 ++ l2)%list. now rewrite app_assoc.
  - intros e' v _ (Ha' & l1 & H1). destruct (set_default_static env e' v) as (S1 & S2 & _).
    split; [congruence|]. exists l1. congruence.
  - intros e' Hin. contradiction.
  - exists e. split; [assumption|]. split; [assumption|]. exists []. now rewrite app_nil_r.
  - eauto.
Qed.

(* self assignment diverges *)
Lemma write_self_diverges env fuel : forall e i l,
  e_append e = true -> e_write e = true -> e_etype e = Some TStr ->
  e_value e = VList l -> Forall (has_type TStr) l -> i < List.length l ->
  exists e', write_self env fuel e i = (e', Some EOutOfFuel).
Proof.
  induction fuel as [|fuel IH]; intros e i l Ha Hw Ht Hl Hf Hi; cbn [write_self]; [eauto|].
  rewrite Hl. destruct (nth_error l i) as [v|] eqn:E.
  2:{ apply nth_error_None in E. lia. }
  assert (Hv : has_type TStr v).
  { rewrite Forall_forall in Hf. apply Hf. eapply nth_error_In; eauto. }
  destruct v; try contradiction. cbn [entry_write]. rewrite Hw. cbn [negb].
  unfold write_scalar. rewrite Ht, Ha, Hl. cbn [cast pystr].
  apply (IH _ _ (l ++ [VStr s])%list); try assumption; try reflexivity.
  - apply Forall_app. split; [assumption|]. constructor; [exact I|constructor].
  - rewrite app_length. cbn. lia.
Qed.

(* types *)
Lemma cast_type env t v w : cast env t v = Some w -> has_type t w.
Proof.
  destruct t; cbn.
  - intro H; injection H as <-; exact I.
  - intro H; injection H as <-; exact I.
  - destruct v; try discriminate; try (intro H; injection H as <-; exact I).
    destruct (parse_float env s); [|discriminate]. intro H; injection H as <-; exact I.
Qed.

Lemma write_scalar_typed env e v : well_typed e -> well_typed (fst (write_scalar env e v)).
Proof.
  unfold well_typed, write_scalar. destruct (e_etype e) as [t|] eqn:Ht.
  - intros [Hd Hv]. destruct (cast env t v) as [w|] eqn:Ec; cbn; [|rewrite Ht; auto].
    apply cast_type in Ec. destruct (e_append e) eqn:Ha.
    + destruct Hv as (l & Hl & Hf). rewrite Hl. cbn. rewrite Ht, Ha. split; [assumption|].
      eexists; split; [reflexivity|]. apply Forall_app. auto.
    + cbn. rewrite Ht, Ha. auto.
  - intros _. destruct (e_append e); cbn; [|now rewrite Ht]. destruct (e_value e); cbn; now rewrite Ht.
Qed.

Lemma entry_write_typed env v : forall e, well_typed e -> well_typed (fst (entry_write env e v)).
Proof.
  induction v as [v Hs|vs IH] using pyval_ind2; intros e H.
  - rewrite entry_write_scalar by assumption. destruct (negb (e_write e)); [assumption|].
    now apply write_scalar_typed.
  - rewrite entry_write_list. destruct (negb (e_write e)); [assumption|].
    destruct (e_append e); [|now apply write_scalar_typed].
    revert e H. induction IH as [|v vs Hv _ IHl]; intros e H; [exact H|].
    cbn [write_all]. specialize (Hv e H). destruct (entry_write env e v) as [e' [x|]]; cbn in *; auto.
Qed.

Lemma set_default_typed env e v : well_typed e -> well_typed (fst (entry_set_default env e v)).
Proof.
  unfold entry_set_default. destruct (negb (e_write e)); [auto|].
  destruct (e_etype e) as [t|] eqn:Ht; [|auto].
  destruct (cast env t v) as [w|] eqn:Ec; [|auto]. cbn.
  unfold well_typed. cbn. rewrite Ht. intros [_ H]. split; [now apply cast_type in Ec|assumption].
Qed.

Lemma restore_typed e : well_typed e -> well_typed (entry_restore e).
Proof.
  unfold entry_restore. destruct (negb (e_write e)); [auto|].
  unfold well_typed. cbn. destruct (e_etype e) as [t|]; [|auto].
  intros [Hd _]. split; [assumption|]. destruct (e_append e); [|assumption].
  eexists; split; [reflexivity|]. auto.
Qed.

Lemma typed_run env c ops k e :
  dget k c = Some e -> well_typed e ->
  exists e', dget k (cfg_run env c ops) = Some e' /\ well_typed e'.
Proof.
  intros He Ht. apply (run_holds env k well_typed).
  - intros; now apply entry_write_typed.
  - intros; now apply set_default_typed.
  - intros; now apply restore_typed.
  - exists e; auto.
Qed.

(* static description of entries is fixed too *)
Lemma static_run env c ops k e :
  dget k c = Some e ->
  exists e', dget k (cfg_run env c ops) = Some e' /\ e_append e' = e_append e /\
             e_write e' = e_write e /\ e_etype e' = e_etype e.
Proof.
  intros He. apply (run_holds env k (fun e' => e_append e' = e_append e /\
             e_write e' = e_write e /\ e_etype e' = e_etype e)).
  - intros e' v (H1 & H2 & H3). pose proof (entry_write_static env v e') as (_ & S2 & S3 & S4).
    repeat split; congruence.
  - intros e' v _ (H1 & H2 & H3). destruct (set_default_static env e' v) as (S1 & S2 & S3 & S4).
    repeat split; congruence.
  - intros e' _ (H1 & H2 & H3). unfold entry_restore. destruct (negb (e_write e')); cbn; auto.
  - exists e; auto.
Qed.

(* keys *)
Lemma dset_dkeys {A} k (e e' : A) c : dget k c = Some e -> dkeys (dset k e' c) = dkeys c.
Proof.
  induction c as [|[k2 e2] c IH]; cbn; [discriminate|].
  destruct (String.eqb_spec k k2) as [->|]; cbn; [reflexivity|]. intro H. f_equal. now apply IH.
Qed.

Lemma setitem_keys env c k v : dkeys (fst (cfg_setitem env c k v)) = dkeys c.
Proof. unfold cfg_setitem. destruct (dget k c) eqn:E; [|reflexivity]. cbn. now apply dset_dkeys with (e := e). Qed.

Lemma update_keys env new : forall c, dkeys (fst (cfg_update env c new)) = dkeys c.
Proof.
  induction new as [|[k v] new IH]; intro c; cbn; [reflexivity|].
  pose proof (setitem_keys env c k v) as H. destruct (cfg_setitem env c k v) as [c' [x|]]; cbn in *; [exact H|].
  rewrite IH. exact H.
Qed.

Lemma load_keys env fs fuel : forall c i found,
  dkeys (fst (fst (load_loop env fs fuel c i found))) = dkeys c.
Proof.
  induction fuel as [|fuel IH]; intros c i found; cbn [load_loop]; [reflexivity|].
  destruct (dget "config_file" c) as [e|]; [|reflexivity].
  destruct (e_value e); try reflexivity. destruct (nth_error l i) as [[]|]; try reflexivity.
  destruct (existsb _ found); [apply IH|].
  assert (H : dkeys (fst (load_one env fs c (norm_path env s))) = dkeys c).
  { unfold load_one. destruct (dget (norm_path env s) fs) as [[|vars]|]; try reflexivity. apply update_keys. }
  destruct (load_one env fs c (norm_path env s)) as [c' [x|]]; cbn in *; [exact H|]. rewrite IH. exact H.
Qed.

Lemma step_keys env c o : dkeys (fst (cfg_step env c o)) = dkeys c.
Proof.
  destruct o as [k|k v|new|[k|]|fs fuel|k|k v|k v]; cbn [cfg_step]; try reflexivity.
  - apply setitem_keys.
  - apply update_keys.
  - unfold cfg_restore. destruct (dget k c) eqn:E; [|reflexivity]. cbn. now apply dset_dkeys with (e := e).
  - pose proof (load_keys env fs fuel c 0 []) as H. destruct (load_loop env fs fuel c 0 []) as [[c' f] x]. exact H.
  - unfold entry_op. destruct (dget k c) eqn:E; [|reflexivity].
    destruct (entry_write env e v). cbn. now apply dset_dkeys with (e := e).
  - unfold entry_op. destruct (dget k c) eqn:E; [|reflexivity].
    destruct (entry_set_default env e v). cbn. now apply dset_dkeys with (e := e).
Qed.

Lemma run_keys env ops : forall c, dkeys (cfg_run env c ops) = dkeys c.
Proof.
  induction ops as [|o ops IH]; intro c; cbn; [reflexivity|].
  transitivity (dkeys (fst (cfg_step env c o))); [apply IH|apply step_keys].
Qed.

Lemma unknown_key env c k v : ~ In k (dkeys c) ->
  cfg_getitem c k = Err PMParamError /\ cfg_setitem env c k v = (c, Some PMParamError).
Proof.
  intro H. apply dget_none_iff in H. unfold cfg_getitem, cfg_setitem. now rewrite H.
Qed.

Lemma setitem_frame env c k k' v : k' <> k ->
  dget k' (fst (cfg_setitem env c k v)) = dget k' c.
Proof.
  intro H. unfold cfg_setitem. destruct (dget k c); [|reflexivity]. cbn. now apply dget_dset_other.
Qed.

Lemma setitem_effect env c k v e : dget k c = Some e -> e_append e = false -> e_write e = true ->
  forall t w, e_etype e = Some t -> cast env t v = Some w ->
  cfg_getitem (fst (cfg_setitem env c k v)) k = Ok w /\ snd (cfg_setitem env c k v) = None.
Proof.
  intros He Ha Hw t w Ht Hc. unfold cfg_setitem, cfg_getitem. rewrite He. cbn. split; [|reflexivity].
  rewrite dget_dset_same. f_equal.
  assert (Hws : e_value (fst (write_scalar env e v)) = w).
  { unfold write_scalar. rewrite Ht, Hc, Ha. reflexivity. }
  destruct v; cbn [entry_write]; rewrite Hw; cbn [negb]; rewrite ?Ha; exact Hws.
Qed.

(* a non-castable value leaves a non-append entry unchanged, silently *)
Lemma setitem_bad env c k v e t : dget k c = Some e -> e_append e = false ->
  e_etype e = Some t -> cast env t v = None -> cfg_setitem env c k v = (c, None).
Proof.
  intros He Ha Ht Hc. unfold cfg_setitem. rewrite He.
  assert (Hws : fst (write_scalar env e v) = e).
  { unfold write_scalar. rewrite Ht, Hc. reflexivity. }
  f_equal. rewrite <- (dset_same k e c He) at 2. f_equal.
  destruct v; cbn [entry_write]; rewrite ?Ha; destruct (negb (e_write e)); auto.
Qed.

(* restore *)
Lemma restore_effect c k e : dget k c = Some e ->
  snd (cfg_restore c (Some k)) = None /\
  cfg_getitem (fst (cfg_restore c (Some k))) k =
    Ok (if e_write e then (if e_append e then VList [e_default e] else e_default e) else e_value e) /\
  forall k', k' <> k -> dget k' (fst (cfg_restore c (Some k))) = dget k' c.
Proof.
  intro He. unfold cfg_restore, cfg_getitem. rewrite He. cbn. rewrite dget_dset_same.
  split; [reflexivity|]. split.
  - unfold entry_restore. destruct (e_write e); reflexivity.
  - intros k' Hk. now apply dget_dset_other.
Qed.

(* load *)
Lemma setitem_config_files env c names k v :
  config_files c names ->
  config_files (fst (cfg_setitem env c k v))
    (names ++ if String.eqb k "config_file" then map (pystr env) (leaves v) else []).
Proof.
  intros (e & He & Ha & Hw & Ht & Hv). unfold cfg_setitem.
  destruct (String.eqb_spec k "config_file") as [->|Hk].
  - rewrite He. cbn [fst]. unfold config_files. rewrite dget_dset_same. eexists. split; [reflexivity|].
    pose proof (entry_write_static env v e) as (_ & S2 & S3 & S4).
    destruct (append_write env TStr v e _ Ha Hw Ht Hv) as [H1 _].
    repeat split; try congruence. rewrite H1. f_equal. rewrite map_app. f_equal.
    generalize (leaves v). intro l. induction l as [|x l IH]; cbn; [reflexivity|]. now rewrite IH.
  - rewrite app_nil_r. destruct (dget k c) as [e'|] eqn:E; [|exists e; auto 6].
    cbn [fst]. unfold config_files. rewrite dget_dset_other by congruence. exists e; auto 6.
Qed.

Lemma update_config_files env vars : forall c names,
  config_files c names ->
  exists added, config_files (fst (cfg_update env c vars)) (names ++ added) /\
    (exists rest, adds env vars = added ++ rest)%list /\
    (snd (cfg_update env c vars) = None -> added = adds env vars) /\
    snd (cfg_update env c vars) <> Some EOutOfFuel.
Proof.
  induction vars as [|[k v] vars IH]; intros c names H; cbn [cfg_update adds flat_map fst snd].
  - exists []. rewrite app_nil_r. split; [assumption|]. split; [exists []; reflexivity|]. split; [auto|discriminate].
  - pose proof (setitem_config_files env c names k v H) as H1.
    destruct (cfg_setitem env c k v) as [c' x] eqn:E. cbn [fst] in H1. destruct x as [x|]; cbn [fst snd].
    + assert (Hcc : c' = c /\ dget k c = None /\ x = PMParamError).
      { unfold cfg_setitem in E. destruct (dget k c); [discriminate|]. injection E as <- <-. auto. }
      destruct Hcc as (-> & Hk & ->). exists []. rewrite app_nil_r. split; [assumption|].
      split; [eexists; reflexivity|]. split; [discriminate|discriminate].
    + destruct (IH c' _ H1) as (added & G1 & (rest & G2) & G3 & G4).
      fold (adds env vars).
      eexists. rewrite app_assoc. split; [exact G1|]. split.
      * exists rest. rewrite <- app_assoc. f_equal. exact G2.
      * split; [|exact G4]. intro Hn. f_equal. now apply G3.
Qed.

Definition file_adds (env : pyenv) (x : cfgfile) : list string :=
  match x with CRaises => [] | CDefines vars => adds env vars end.

Lemma existsb_eqb x l : existsb (String.eqb x) l = true <-> In x l.
Proof.
  rewrite existsb_exists. split.
  - intros (y & Hy & E). apply String.eqb_eq in E. now subst.
  - intro H. exists x. split; [assumption|apply String.eqb_refl].
Qed.

(* what remains to be added by files not yet found *)
Fixpoint potential (env : pyenv) (fs : cfgfs) (found : list string) : nat :=
  match fs with
  | [] => 0
  | (f, x) :: fs' => (if existsb (String.eqb f) found then 0 else List.length (file_adds env x))
                     + potential env fs' found
  end.

Lemma potential_mono env fs found f : potential env fs (found ++ [f]) <= potential env fs found.
Proof.
  induction fs as [|[g x] fs IH]; cbn; [lia|]. rewrite existsb_app. cbn.
  destruct (existsb (String.eqb g) found); cbn; [lia|]. destruct (String.eqb g f); cbn; lia.
Qed.

Lemma potential_found env fs found f x : dget f fs = Some x -> ~ In f found ->
  potential env fs (found ++ [f]) + List.length (file_adds env x) <= potential env fs found.
Proof.
  induction fs as [|[g y] fs IH]; cbn; [discriminate|]. intros H Hn. rewrite existsb_app. cbn.
  destruct (String.eqb_spec f g) as [->|Hfg].
  - injection H as ->. destruct (existsb (String.eqb g) found) eqn:E.
    + apply existsb_eqb in E. contradiction.
    + rewrite String.eqb_refl. cbn. pose proof (potential_mono env fs found g). lia.
  - specialize (IH H Hn). destruct (existsb (String.eqb g) found); cbn; [lia|].
    destruct (String.eqb g f); cbn; lia.
Qed.

Lemma load_terminates_gen env fs fuel : forall c i found names,
  config_files c names ->
  (List.length names - i) + potential env fs found < fuel ->
  snd (load_loop env fs fuel c i found) <> Some EOutOfFuel.
Proof.
  induction fuel as [|fuel IH]; intros c i found names Hc Hm; [lia|].
  cbn [load_loop]. pose proof Hc as (e & He & Ha & Hw & Ht & Hv). rewrite He, Hv.
  destruct (nth_error (map VStr names) i) as [v|] eqn:E; [|cbn; discriminate].
  assert (Hi : i < List.length names).
  { assert (i < List.length (map VStr names)) by (apply nth_error_Some; congruence). now rewrite map_length in H. }
  rewrite nth_error_map in E. destruct (nth_error names i) as [s|] eqn:En; [|discriminate].
  injection E as <-.
  destruct (existsb (String.eqb (norm_path env s)) found) eqn:Ef.
  - apply (IH c (S i) found names Hc). lia.
  - assert (Hnf : ~ In (norm_path env s) found) by (rewrite <- existsb_eqb; congruence).
    unfold load_one. destruct (dget (norm_path env s) fs) as [[|vars]|] eqn:Ed.
    + cbn. discriminate.
    + destruct (update_config_files env vars c names Hc) as (added & H1 & (rest & H2) & H3 & H4).
      destruct (cfg_update env c vars) as [c' [x|]]; cbn [fst snd] in *; [assumption|].
      apply (IH c' (S i) _ _ H1). pose proof (potential_found env fs found _ _ Ed Hnf) as Hp.
      cbn [file_adds] in Hp. rewrite app_length. rewrite H2 in Hp. rewrite app_length in Hp. lia.
    + apply (IH c (S i) _ names Hc). pose proof (potential_mono env fs found (norm_path env s)). lia.
Qed.

Lemma load_terminates env fs c names : config_files c names ->
  exists N, forall fuel, N <= fuel -> snd (load_loop env fs fuel c 0 []) <> Some EOutOfFuel.
Proof.
  intro H. exists (S (List.length names + potential env fs [])). intros fuel Hf.
  eapply load_terminates_gen; eauto. lia.
Qed.

(* every file handed to the loader is handed once, only reachable ones, and on success all *)
Lemma load_correct_gen env fs init fuel : forall c i found names c' found' x,
  config_files c names ->
  NoDup found ->
  incl init names ->
  (forall s, In s names -> reachable env fs init (norm_path env s)) ->
  (forall f, In f found -> reachable env fs init f) ->
  (forall j s, j < i -> nth_error names j = Some s -> In (norm_path env s) found) ->
  (forall f vars, In f found -> dget f fs = Some (CDefines vars) -> incl (adds env vars) names) ->
  load_loop env fs fuel c i found = (c', found', x) ->
  NoDup found' /\ (forall f, In f found' -> reachable env fs init f) /\
  (x = None -> forall f, reachable env fs init f -> In f found').
Proof.
  induction fuel as [|fuel IH]; intros c i found names c' found' x Hc Hnd Hin Hr Hf Hj Ha Hl; cbn [load_loop] in Hl.
  - injection Hl as <- <- <-. repeat split; auto. discriminate.
  - pose proof Hc as (e & He & Hap & Hw & Ht & Hv). rewrite He, Hv in Hl.
    rewrite nth_error_map in Hl. destruct (nth_error names i) as [s|] eqn:En; cbn [option_map] in Hl.
    + assert (Hs : In s names) by (eapply nth_error_In; eauto).
      destruct (existsb (String.eqb (norm_path env s)) found) eqn:Ef.
      * apply (IH c (S i) found names c' found' x Hc Hnd Hin Hr Hf); auto.
        intros j s' Hlt Hn. destruct (Nat.eq_dec j i) as [->|Hne].
        -- rewrite En in Hn. injection Hn as <-. now apply existsb_eqb.
        -- apply (Hj j); [lia|assumption].
      * assert (Hnf : ~ In (norm_path env s) found) by (rewrite <- existsb_eqb; congruence).
        assert (Hnd' : NoDup (found ++ [norm_path env s])).
        { apply NoDup_rev in Hnd. rewrite <- (rev_involutive (found ++ _)). apply NoDup_rev.
          rewrite rev_app_distr. cbn. constructor; [|assumption]. now rewrite <- in_rev. }
        assert (Hf' : forall f, In f (found ++ [norm_path env s]) -> reachable env fs init f).
        { intros f Hfi. apply in_app_or in Hfi. destruct Hfi as [Hfi|[<-|[]]]; auto. }
        unfold load_one in Hl. destruct (dget (norm_path env s) fs) as [[|vars]|] eqn:Ed.
        -- injection Hl as <- <- <-. repeat split; auto. discriminate.
        -- destruct (update_config_files env vars c names Hc) as (added & H1 & (rest & H2) & H3 & H4).
           destruct (cfg_update env c vars) as [c1 [y|]]; cbn [fst snd] in *.
           ++ injection Hl as <- <- <-. repeat split; auto. discriminate.
           ++ specialize (H3 eq_refl). subst added.
              apply (IH c1 (S i) _ (names ++ adds env vars)%list c' found' x H1 Hnd'); auto.
              ** intros a Hai. apply in_or_app. left. now apply Hin.
              ** intros s' Hs'. apply in_app_or in Hs'. destruct Hs' as [Hs'|Hs']; [now apply Hr|].
                 eapply reach_step; eauto.
              ** intros j s' Hlt Hn. apply in_or_app. destruct (Nat.eq_dec j i) as [->|Hne].
                 --- right. rewrite nth_error_app1 in Hn by (apply nth_error_Some; congruence).
                     rewrite En in Hn. injection Hn as <-. now left.
                 --- left. apply (Hj j); [lia|]. rewrite nth_error_app1 in Hn; [assumption|].
                     assert (i < List.length names) by (apply nth_error_Some; congruence). lia.
              ** intros f vars' Hfi Hd a Ha'. apply in_or_app. apply in_app_or in Hfi.
                 destruct Hfi as [Hfi|[<-|[]]].
                 --- left. eapply Ha; eauto.
                 --- right. rewrite Ed in Hd. injection Hd as <-. assumption.
        -- apply (IH c (S i) _ names c' found' x Hc Hnd'); auto.
           ++ intros j s' Hlt Hn. apply in_or_app. destruct (Nat.eq_dec j i) as [->|Hne].
              ** right. rewrite En in Hn. injection Hn as <-. now left.
              ** left. apply (Hj j); [lia|assumption].
           ++ intros f vars' Hfi Hd. apply in_app_or in Hfi. destruct Hfi as [Hfi|[<-|[]]]; [eauto|congruence].
    + injection Hl as <- <- <-. repeat split; auto. intros _ f Hfr.
      apply nth_error_None in En.
      assert (Hall : forall s, In s names -> In (norm_path env s) found).
      { intros s Hs. apply In_nth_error in Hs. destruct Hs as [j Hjn]. apply (Hj j); [|assumption].
        assert (j < List.length names) by (apply nth_error_Some; congruence). lia. }
      induction Hfr as [s Hs|g vars s Hg IHg Hd Hs].
      * apply Hall, Hin, Hs.
      * apply Hall. eapply Ha; eauto.
Qed.

Lemma load_correct env fs fuel c names c' found x :
  config_files c names -> load_loop env fs fuel c 0 [] = (c', found, x) ->
  NoDup found /\ (forall f, In f found -> reachable env fs names f) /\
  (x = None -> forall f, reachable env fs names f -> In f found).
Proof.
  intros Hc Hl. eapply (load_correct_gen env fs names fuel c 0 [] names); eauto.
  - constructor.
  - apply incl_refl.
  - intros. now constructor.
  - intros f [].
  - intros j s Hlt. lia.
  - intros f vars [].
Qed.

(* the initial configuration *)
Lemma init_ok env dir ver : exists c, init_config env dir ver = Some c /\
  config_files c [(dir ++ "/config.py")%string] /\
  (forall k e, dget k c = Some e -> well_typed e) /\
  (exists e, dget "version" c = Some e /\ e_write e = false /\ e_value e = VStr ver) /\
  (exists e, dget "install_dir" c = Some e /\ e_write e = false /\ e_value e = VStr dir) /\
  (exists e, dget "dat_dir" c = Some e /\ e_append e = true /\ e_write e = true /\
       e_etype e = Some TStr /\ e_value e = VList [VStr (dir ++ "/data")%string]).
Proof.
  eexists. split; [reflexivity|]. split.
  { eexists. split; [reflexivity|]. repeat split. }
  split.
  { intros k e He. apply dget_some_in in He. cbn in He.
    repeat (destruct He as [He|He]; [injection He as <- <-; unfold well_typed; cbn;
      split; [exact I|]; first [exact I | eexists; split; [reflexivity|]; constructor; [exact I|constructor]]|]).
    contradiction. }
  split; [eexists; split; [reflexivity|]; repeat split|].
  split; [eexists; split; [reflexivity|]; repeat split|].
  eexists; split; [reflexivity|]; repeat split.
Qed.

Lemma version_run env dir ver ops c :
  init_config env dir ver = Some c ->
  cfg_getitem (cfg_run env c ops) "version" = Ok (VStr ver) /\
  cfg_getitem (cfg_run env c ops) "install_dir" = Ok (VStr dir).
Proof.
  intro H. destruct (init_ok env dir ver) as (c' & H' & _ & _ & (e1 & A1 & A2 & A3) & (e2 & B1 & B2 & B3) & _).
  rewrite H in H'. injection H' as <-. unfold cfg_getitem.
  rewrite (readonly_run env c ops _ _ A1 A2), (readonly_run env c ops _ _ B1 B2), A3, B3. auto.
Qed.

Lemma append_write_iff env t v e l :
  e_append e = true -> e_write e = true -> e_etype e = Some t -> e_value e = VList l ->
  e_value (fst (entry_write env e v)) = VList (l ++ castable_prefix env t (leaves v)) /\
  (snd (entry_write env e v) = None <-> all_castable env t (leaves v)).
Proof.
  intros Ha Hw Ht Hl. destruct (append_write env t v e l Ha Hw Ht Hl) as [H1 H2].
  split; [exact H1|]. rewrite H2, <- allc_spec. destruct (allc env t (leaves v)); split; congruence.
Qed.

Lemma write_self_never_ends env fuel e l :
  e_append e = true -> e_write e = true -> e_etype e = Some TStr ->
  e_value e = VList l -> Forall (has_type TStr) l -> l <> [] ->
  snd (write_self env fuel e 0) = Some EOutOfFuel.
Proof.
  intros Ha Hw Ht Hl Hf Hn.
  destruct (write_self_diverges env fuel e 0 l Ha Hw Ht Hl Hf) as [e' ->]; [|reflexivity].
  destruct l; [contradiction|]. cbn. lia.
Qed.

Lemma typed_from_init env dir ver ops c k e :
  init_config env dir ver = Some c ->
  dget k (cfg_run env c ops) = Some e -> well_typed e.
Proof.
  intros H He. destruct (init_ok env dir ver) as (c' & H' & _ & Ht & _).
  rewrite H in H'. injection H' as <-.
  destruct (dget k c) as [e0|] eqn:E.
  - destruct (typed_run env c ops k e0 E (Ht _ _ E)) as (e' & He' & Hw). congruence.
  - apply dget_none_iff in E. rewrite <- (run_keys env ops c) in E. apply dget_none_iff in E. congruence.
Qed.

Lemma init_all_typed env dir ver c k e :
  init_config env dir ver = Some c -> dget k c = Some e -> e_etype e <> None.
Proof.
  intros H He. injection H as <-. apply dget_some_in in He. cbn in He.
  repeat (destruct He as [He|He]; [injection He as <- <-; discriminate|]). contradiction.
Qed.

Lemma config_files_run env dir ver ops c :
  init_config env dir ver = Some c -> exists names, config_files (cfg_run env c ops) names.
Proof.
  intro H. destruct (init_ok env dir ver) as (c' & H' & Hc & _).
  rewrite H in H'. injection H' as <-. destruct Hc as (e & He & Ha & Hw & Ht & Hv).
  destruct (static_run env c ops _ _ He) as (e' & He' & A & B & C).
  pose proof (typed_from_init env dir ver ops c _ _ H He') as Htt.
  unfold well_typed in Htt. rewrite C, Ht, A, Ha in Htt. destruct Htt as (_ & l & Hl & Hf).
  assert (Hn : exists names, l = map VStr names).
  { clear -Hf. induction Hf as [|v l Hv _ [names ->]]; [exists []; reflexivity|].
    destruct v; try contradiction. exists (s :: names). reflexivity. }
  destruct Hn as [names ->]. exists names, e'. repeat split; try congruence.
Qed.

Lemma default_run env c ops k e :
  dget k c = Some e -> (forall d, ~ In (OEntryDefault k d) ops) ->
  exists e', dget k (cfg_run env c ops) = Some e' /\ e_default e' = e_default e.
Proof.
  intros He Hno. apply (run_holds env k (fun x => e_default x = e_default e)).
  - intros x v Hx. pose proof (entry_write_static env v x) as (S1 & _). congruence.
  - intros x v Hin. exfalso. eapply Hno; eauto.
  - intros x _ Hx. unfold entry_restore. destruct (negb (e_write x)); exact Hx.
  - exists e; auto.
Qed.

Lemma init_value_default env dir ver c k e :
  init_config env dir ver = Some c -> dget k c = Some e ->
  e_value e = if e_append e then VList [e_default e] else e_default e.
Proof.
  intros H He. injection H as <-. apply dget_some_in in He. cbn in He.
  repeat (destruct He as [He|He]; [injection He as <- <-; reflexivity|]). contradiction.
Qed.

Lemma restore_initial env dir ver ops c k v :
  init_config env dir ver = Some c -> cfg_getitem c k = Ok v ->
  (forall d, ~ In (OEntryDefault k d) ops) ->
  cfg_getitem (fst (cfg_restore (cfg_run env c ops) (Some k))) k = Ok v.
Proof.
  intros H Hg Hno. unfold cfg_getitem in Hg. destruct (dget k c) as [e|] eqn:E; [|discriminate].
  injection Hg as <-. pose proof (init_value_default env dir ver c k e H E) as Hv.
  destruct (e_write e) eqn:Hw.
  - destruct (default_run env c ops k e E Hno) as (e' & He' & Hd).
    destruct (static_run env c ops k e E) as (e2 & He2 & A & B & C).
    rewrite He' in He2. injection He2 as <-.
    destruct (restore_effect _ _ _ He') as (_ & G & _). rewrite G, B, Hw, A, Hd, Hv. reflexivity.
  - pose proof (readonly_run env c ops k e E Hw) as He'.
    destruct (restore_effect _ _ _ He') as (_ & G & _). rewrite G, Hw. reflexivity.
Qed.

Lemma restore_all_fails (c : config) : cfg_restore c None = (c, Some EAttributeError).
Proof. reflexivity. Qed.

Lemma initial_values env dir ver c k v :
  init_config env dir ver = Some c -> In (k, v) (documented_initial dir ver) ->
  cfg_getitem c k = Ok v.
Proof.
  intros H Hi. injection H as <-. cbn in Hi.
  repeat (destruct Hi as [Hi|Hi]; [injection Hi as <- <-; reflexivity|]). contradiction.
Qed.

Lemma initial_names env dir ver c k :
  init_config env dir ver = Some c ->
  (In k (dkeys c) <-> In k (map fst (documented_initial dir ver))).
Proof. intro H. injection H as <-. cbn. tauto. Qed.

Lemma appended_iff env dir ver ops c k e :
  init_config env dir ver = Some c -> dget k (cfg_run env c ops) = Some e ->
  (e_append e = true <-> In k appended) /\ (e_write e = false <-> In k read_only).
Proof.
  intros H He.
  assert (G : forall k e, dget k c = Some e ->
    (e_append e = true <-> In k appended) /\ (e_write e = false <-> In k read_only)).
  { injection H as <-. clear. intros k e He. apply dget_some_in in He. cbn in He.
    repeat (destruct He as [He|He]; [injection He as <- <-; cbn; split; split; intro X;
      first [discriminate X | tauto | reflexivity
            | exfalso; repeat (destruct X as [X|X]; [discriminate X|]); exact X]|]).
    contradiction. }
  destruct (dget k c) as [e0|] eqn:E0.
  - destruct (static_run env c ops _ _ E0) as (e' & He' & A & B & C).
    rewrite He in He'. injection He' as <-. rewrite A, B. exact (G _ _ E0).
  - exfalso. assert (In k (dkeys (cfg_run env c ops))) as X.
    { apply dget_some_in in He. apply (in_map fst) in He. exact He. }
    rewrite run_keys in X. apply dget_none_iff in E0. contradiction.
Qed.

Lemma list_valued_iff env dir ver ops c k v :
  init_config env dir ver = Some c -> cfg_getitem (cfg_run env c ops) k = Ok v ->
  ((exists l, v = VList l) <-> In k appended).
Proof.
  intros H Hv. unfold cfg_getitem in Hv.
  destruct (dget k (cfg_run env c ops)) as [e|] eqn:He; [|discriminate].
  injection Hv as <-.
  destruct (appended_iff _ _ _ _ _ _ _ H He) as [A _]. rewrite <- A.
  pose proof (typed_from_init _ _ _ ops _ _ _ H He) as W.
  destruct (e_etype e) as [t|] eqn:Et.
  - unfold well_typed in W. rewrite Et in W. destruct W as [_ W].
    destruct (e_append e).
    + split; [reflexivity|]. intros _. destruct W as (l & Hl & _). exists l. exact Hl.
    + split; [|discriminate]. intros [l Hl]. rewrite Hl in W. destruct t; contradiction.
  - exfalso. destruct (dget k c) as [e0|] eqn:E0.
    + destruct (static_run env c ops _ _ E0) as (e' & He' & _ & _ & C).
      rewrite He in He'. injection He' as <-. rewrite Et in C.
      apply (init_all_typed _ _ _ _ _ _ H E0). symmetry. exact C.
    + assert (In k (dkeys (cfg_run env c ops))) as X.
      { apply dget_some_in in He. apply (in_map fst) in He. exact He. }
      rewrite run_keys in X. apply dget_none_iff in E0. contradiction.
Qed.

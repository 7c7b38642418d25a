(* Property theorems C11-C16: configuration (src/pyromat/utility.py 61-387). *)
From Coq Require Import List String Bool Arith QArith.
From Verif Require Import Model_Config Spec_Config Proof_Config.
Local Open Scope string_scope.
Local Open Scope list_scope.

(* a concrete environment for the instances: names are already absolute *)
Definition env0 : pyenv :=
  {| repr_of := fun _ => "obj"; parse_float := fun _ => None; norm_path := fun s => s |}.

(* ---- C11 ---- *)
Theorem C11_read_only_never_changes : forall env c ops k e,
  dget k c = Some e -> e_write e = false ->
  dget k (cfg_run env c ops) = Some e.
Proof. exact readonly_run. Qed.
Print Assumptions C11_read_only_never_changes.

(* exactly install_dir and version are read only, whatever is done to the configuration *)
Theorem C11_exactly_these_read_only : forall env dir ver ops c k e,
  init_config env dir ver = Some c -> dget k (cfg_run env c ops) = Some e ->
  (e_append e = true <-> In k appended) /\ (e_write e = false <-> In k read_only).
Proof. exact appended_iff. Qed.
Print Assumptions C11_exactly_these_read_only.

(* in particular version and install_dir, from the configuration the package creates *)
Theorem C11_version_and_install_dir : forall env dir ver ops c,
  init_config env dir ver = Some c ->
  cfg_getitem (cfg_run env c ops) "version" = Ok (VStr ver) /\
  cfg_getitem (cfg_run env c ops) "install_dir" = Ok (VStr dir).
Proof. exact version_run. Qed.
Print Assumptions C11_version_and_install_dir.

Example C11_instance : exists c,
  init_config env0 "/opt/pm" "2.2.6" = Some c /\
  cfg_step env0 c (OEntryWrite "version" (VStr "596.0.1")) = (c, Some PMParamError) /\
  cfg_step env0 c (OSet "def_T" (VInt 300)) <> (c, None).
Proof. eexists. split; [reflexivity|]. split; [reflexivity|]. vm_compute. discriminate. Qed.

(* ---- C12 ---- *)
Theorem C12_append_only_grows : forall env c ops k e l,
  dget k c = Some e -> e_append e = true -> e_value e = VList l ->
  ~ In (ORestore (Some k)) ops ->
  exists e' l', dget k (cfg_run env c ops) = Some e' /\ e_value e' = VList (l ++ l').
Proof. exact append_grows. Qed.
Print Assumptions C12_append_only_grows.

(* one write appends exactly the scalars of the (nested) list, cast to the declared type, in
   order, up to the first one that cannot be cast; it reports failure exactly in that case *)
Theorem C12_write_appends_leaves : forall env t v e l,
  e_append e = true -> e_write e = true -> e_etype e = Some t -> e_value e = VList l ->
  e_value (fst (entry_write env e v)) = VList (l ++ castable_prefix env t (leaves v)) /\
  (snd (entry_write env e v) = None <-> all_castable env t (leaves v)).
Proof. exact append_write_iff. Qed.
Print Assumptions C12_write_appends_leaves.

(* exactly config_file, dat_dir and reg_dir are such parameters: whatever is done to the
   configuration, reading one of these gives a list and reading any other gives no list *)
Theorem C12_exactly_these_append : forall env dir ver ops c k v,
  init_config env dir ver = Some c -> cfg_getitem (cfg_run env c ops) k = Ok v ->
  ((exists l, v = VList l) <-> In k appended).
Proof. exact list_valued_iff. Qed.
Print Assumptions C12_exactly_these_append.

(* FINDING: assigning the list read from an append entry back to it (also the last step of
   config['dat_dir'] += [...]) never ends, for any amount of fuel *)
Theorem C57_self_assignment_refuted : forall env fuel e l,
  e_append e = true -> e_write e = true -> e_etype e = Some TStr ->
  e_value e = VList l -> Forall (has_type TStr) l -> l <> [] ->
  snd (write_self env fuel e 0) = Some EOutOfFuel.
Proof. exact write_self_never_ends. Qed.
Print Assumptions C57_self_assignment_refuted.

Example C12_instance : exists c e,
  init_config env0 "/opt/pm" "2.2.6" = Some c /\ dget "dat_dir" c = Some e /\
  e_append e = true /\ e_value e = VList [VStr "/opt/pm/data"] /\
  cfg_getitem (cfg_run env0 c [OSet "dat_dir" (VStr "a"); OSet "dat_dir" (VList [VStr "b"; VList [VStr "c"]])]) "dat_dir"
  = Ok (VList [VStr "/opt/pm/data"; VStr "a"; VStr "b"; VStr "c"]).
Proof. eexists; eexists. split; [reflexivity|]. split; [reflexivity|]. split; [reflexivity|]. split; reflexivity. Qed.

(* ---- C13 ---- *)
Theorem C13_values_typed : forall env dir ver ops c k e,
  init_config env dir ver = Some c ->
  dget k (cfg_run env c ops) = Some e -> well_typed e.
Proof. exact typed_from_init. Qed.
Print Assumptions C13_values_typed.

(* the declared type, mode and writability of an entry never change *)
Theorem C13_declaration_fixed : forall env c ops k e,
  dget k c = Some e ->
  exists e', dget k (cfg_run env c ops) = Some e' /\ e_append e' = e_append e /\
             e_write e' = e_write e /\ e_etype e' = e_etype e.
Proof. exact static_run. Qed.
Print Assumptions C13_declaration_fixed.

(* every entry of the package's configuration does declare a type *)
Theorem C13_all_entries_declare_a_type : forall env dir ver c k e,
  init_config env dir ver = Some c -> dget k c = Some e -> e_etype e <> None.
Proof. exact init_all_typed. Qed.
Print Assumptions C13_all_entries_declare_a_type.

Example C13_instance : exists c,
  init_config env0 "/opt/pm" "2.2.6" = Some c /\
  cfg_getitem (cfg_run env0 c [OSet "dat_verbose" (VStr "yes"); OSet "def_T" (VInt 300); OSet "def_p" (VObj 0)]) "def_T"
  = Ok (VFloat (FNum 300)) /\
  cfg_getitem (cfg_run env0 c [OSet "def_p" (VObj 0)]) "def_p" = Ok (VFloat (FNum (101325 # 100000))).
Proof. eexists. repeat split. Qed.

(* ---- C14 ---- *)
(* a session starts from the documented names and the documented values *)
Theorem C14_documented_names : forall env dir ver c k,
  init_config env dir ver = Some c ->
  (In k (dkeys c) <-> In k (map fst (documented_initial dir ver))).
Proof. exact initial_names. Qed.
Print Assumptions C14_documented_names.

Theorem C14_documented_values : forall env dir ver c k v,
  init_config env dir ver = Some c -> In (k, v) (documented_initial dir ver) ->
  cfg_getitem c k = Ok v.
Proof. exact initial_values. Qed.
Print Assumptions C14_documented_values.

Theorem C14_keys_fixed : forall env ops c, dkeys (cfg_run env c ops) = dkeys c.
Proof. exact run_keys. Qed.
Print Assumptions C14_keys_fixed.

Theorem C14_unknown_rejected : forall env c k v,
  ~ In k (dkeys c) ->
  cfg_getitem c k = Err PMParamError /\ cfg_setitem env c k v = (c, Some PMParamError).
Proof. exact unknown_key. Qed.
Print Assumptions C14_unknown_rejected.

Theorem C14_write_touches_one_key : forall env c k k' v,
  k' <> k -> dget k' (fst (cfg_setitem env c k v)) = dget k' c.
Proof. exact setitem_frame. Qed.
Print Assumptions C14_write_touches_one_key.

(* reads see the value written, cast to the declared type; a value that cannot be cast is
   dropped without an exception *)
Theorem C14_read_after_write : forall env c k v e,
  dget k c = Some e -> e_append e = false -> e_write e = true ->
  forall t w, e_etype e = Some t -> cast env t v = Some w ->
  cfg_getitem (fst (cfg_setitem env c k v)) k = Ok w /\ snd (cfg_setitem env c k v) = None.
Proof. exact setitem_effect. Qed.
Print Assumptions C14_read_after_write.

Theorem C14_bad_value_dropped : forall env c k v e t,
  dget k c = Some e -> e_append e = false ->
  e_etype e = Some t -> cast env t v = None -> cfg_setitem env c k v = (c, None).
Proof. exact setitem_bad. Qed.
Print Assumptions C14_bad_value_dropped.

Example C14_instance : exists c,
  init_config env0 "/opt/pm" "2.2.6" = Some c /\ ~ In "unit_presure" (dkeys c) /\ In "unit_pressure" (dkeys c).
Proof.
  eexists. split; [reflexivity|]. split.
  - cbn. intuition discriminate.
  - cbn. tauto.
Qed.

(* ---- C15 ---- *)
Theorem C15_load_terminates : forall env fs c names,
  config_files c names ->
  exists N, forall fuel, (N <= fuel)%nat -> snd (load_loop env fs fuel c 0 []) <> Some EOutOfFuel.
Proof. exact load_terminates. Qed.
Print Assumptions C15_load_terminates.

(* no file is executed twice, only reachable files are executed, and a load that raises
   nothing executed every reachable file *)
Theorem C15_load_each_reachable_once : forall env fs fuel c names c' found x,
  config_files c names -> load_loop env fs fuel c 0 [] = (c', found, x) ->
  NoDup found /\ (forall f, In f found -> reachable env fs names f) /\
  (x = None -> forall f, reachable env fs names f -> In f found).
Proof. exact load_correct. Qed.
Print Assumptions C15_load_each_reachable_once.

(* the hypothesis config_files holds initially and after every history *)
Theorem C15_config_files_always : forall env dir ver ops c,
  init_config env dir ver = Some c ->
  exists names, config_files (cfg_run env c ops) names.
Proof. exact config_files_run. Qed.
Print Assumptions C15_config_files_always.

(* two files naming each other *)
Example C15_instance : exists c,
  init_config env0 "/pm" "2" = Some c /\ config_files c ["/pm/config.py"] /\
  let fs := [("/pm/config.py", CDefines [("config_file", VList [VStr "/a"; VStr "/b"])]);
             ("/a", CDefines [("config_file", VStr "/b"); ("def_T", VInt 300)]);
             ("/b", CDefines [("config_file", VStr "/a")])] in
  snd (fst (load_loop env0 fs 20 c 0 [])) = ["/pm/config.py"; "/a"; "/b"] /\
  snd (load_loop env0 fs 20 c 0 []) = None.
Proof.
  eexists. split; [reflexivity|]. split.
  { eexists. split; [reflexivity|]. repeat split. }
  split; reflexivity.
Qed.

(* ---- C16 ---- *)
Theorem C16_restore_one_entry : forall c k e,
  dget k c = Some e ->
  snd (cfg_restore c (Some k)) = None /\
  cfg_getitem (fst (cfg_restore c (Some k))) k =
    Ok (if e_write e then (if e_append e then VList [e_default e] else e_default e) else e_value e) /\
  forall k', k' <> k -> dget k' (fst (cfg_restore c (Some k))) = dget k' c.
Proof. exact restore_effect. Qed.
Print Assumptions C16_restore_one_entry.

(* from any reachable state restoring puts back the original value, unless set_default was
   used on the entry *)
Theorem C16_restore_returns_initial_value : forall env dir ver ops c k v,
  init_config env dir ver = Some c -> cfg_getitem c k = Ok v ->
  (forall d, ~ In (OEntryDefault k d) ops) ->
  cfg_getitem (fst (cfg_restore (cfg_run env c ops) (Some k))) k = Ok v.
Proof. exact restore_initial. Qed.
Print Assumptions C16_restore_returns_initial_value.

(* FINDING: restoring everything raises AttributeError and restores nothing *)
Theorem C16_restore_all_refuted : forall c, cfg_restore c None = (c, Some EAttributeError).
Proof. exact restore_all_fails. Qed.
Print Assumptions C16_restore_all_refuted.

Example C16_instance : exists c,
  init_config env0 "/pm" "2" = Some c /\
  cfg_getitem (cfg_run env0 c [OSet "unit_pressure" (VStr "Pa"); OSet "dat_dir" (VStr "x")]) "dat_dir"
    = Ok (VList [VStr "/pm/data"; VStr "x"]) /\
  cfg_getitem (cfg_run env0 c [OSet "unit_pressure" (VStr "Pa"); OSet "dat_dir" (VStr "x"); ORestore (Some "dat_dir")]) "dat_dir"
    = Ok (VList [VStr "/pm/data"]).
Proof. eexists. repeat split. Qed.

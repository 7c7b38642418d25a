(* Independent specification vocabulary for the configuration properties C11-C16. *)
From Coq Require Import List String QArith.
From Verif Require Import Model_Config.
Import ListNotations.
Local Open Scope string_scope.
Local Open Scope list_scope.

(* v is an instance of the Python type *)
Definition has_type (t : etype) (v : pyval) : Prop :=
  match t, v with
  | TStr, VStr _ => True
  | TBool, VBool _ => True
  | TFloat, VFloat _ => True
  | _, _ => False
  end.

(* a configuration entry holds a value of its declared type, element by element for
   append entries *)
Definition well_typed (e : entry) : Prop :=
  match e_etype e with
  | None => True
  | Some t =>
      has_type t (e_default e) /\
      (if e_append e
       then exists l, e_value e = VList l /\ Forall (has_type t) l
       else has_type t (e_value e))
  end.

(* the scalars of a possibly nested list, left to right *)
Fixpoint leaves (v : pyval) : list pyval :=
  match v with
  | VList l => (fix go l := match l with [] => [] | x :: l' => leaves x ++ go l' end) l
  | _ => [v]
  end.

(* cast every element; the elements before the first failure *)
Fixpoint castable_prefix (env : pyenv) (t : etype) (l : list pyval) : list pyval :=
  match l with
  | [] => []
  | v :: l' => match cast env t v with Some w => w :: castable_prefix env t l' | None => [] end
  end.
Definition all_castable (env : pyenv) (t : etype) (l : list pyval) : Prop :=
  Forall (fun v => cast env t v <> None) l.

(* names a configuration script adds to config_file *)
Definition adds (env : pyenv) (vars : list (string * pyval)) : list string :=
  flat_map (fun kv => if String.eqb (fst kv) "config_file"
                      then map (pystr env) (leaves (snd kv)) else []) vars.

(* files reachable from a list of configuration file names *)
Inductive reachable (env : pyenv) (fs : cfgfs) (init : list string) : string -> Prop :=
| reach_init s : In s init -> reachable env fs init (norm_path env s)
| reach_step f vars s :
    reachable env fs init f -> dget f fs = Some (CDefines vars) -> In s (adds env vars) ->
    reachable env fs init (norm_path env s).

(* the list of configuration files held by a configuration *)
Definition config_files (c : config) (names : list string) : Prop :=
  exists e, dget "config_file" c = Some e /\ e_append e = true /\ e_write e = true /\
            e_etype e = Some TStr /\ e_value e = VList (map VStr names).

(* the initial values documented in config.py and in the comments of utility.py 188-234: the
   values a session starts from before any configuration file is read *)
Definition documented_initial (dir ver : string) : list (string * pyval) :=
  [("install_dir", VStr dir); ("version", VStr ver);
   ("config_file", VList [VStr (dir ++ "/config.py")%string]);
   ("dat_dir", VList [VStr (dir ++ "/data")%string]);
   ("reg_dir", VList [VStr (dir ++ "/registry")%string]);
   ("config_verbose", VBool false); ("warning_verbose", VBool true);
   ("error_verbose", VBool true); ("dat_verbose", VBool true); ("reg_verbose", VBool true);
   ("dat_overwrite", VBool true); ("reg_overwrite", VBool true);
   ("dat_exist_fatal", VBool false); ("reg_exist_fatal", VBool false);
   ("dat_recursive", VBool true);
   ("def_T", VFloat (FNum (29815 # 100))); ("def_T_unit", VStr "K");
   ("def_p", VFloat (FNum (101325 # 100000))); ("def_p_unit", VStr "bar");
   ("def_oob", VFloat FNan);
   ("unit_force", VStr "N"); ("unit_energy", VStr "kJ"); ("unit_temperature", VStr "K");
   ("unit_pressure", VStr "bar"); ("unit_molar", VStr "kmol"); ("unit_volume", VStr "m3");
   ("unit_length", VStr "m"); ("unit_mass", VStr "kg"); ("unit_time", VStr "s");
   ("unit_matter", VStr "kg")].

(* the parameters that keep a list of every value assigned to them, and the ones that can
   never be written *)
Definition appended : list string := ["config_file"; "dat_dir"; "reg_dir"].
Definition read_only : list string := ["install_dir"; "version"].

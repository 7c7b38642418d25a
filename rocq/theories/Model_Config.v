(* Model of the configuration classes, src/pyromat/utility.py 61-387. *)
From Coq Require Import ZArith QArith.
From Verif Require Export Base.
Local Open Scope string_scope.

(* Python values that can be assigned to a configuration entry.  list and tuple behave
   alike here (utility.py 107) and are both VList; any other object is VObj.  Floats
   are rationals plus nan: only their type and truth value matter here. *)
Inductive pyfloat := FNum (q : Q) | FNan.
Inductive pyval :=
| VNone
| VBool (b : bool)
| VInt (z : Z)
| VFloat (f : pyfloat)
| VStr (s : string)
| VList (l : list pyval)
| VObj (n : nat).

(* What the model does not define about Python and the operating system: str() of a
   non-string, float() of a string, and expanduser+expandvars+abspath
   (utility.py 317-319). *)
Record pyenv := {
  repr_of : pyval -> string;
  parse_float : string -> option pyfloat;
  norm_path : string -> string
}.

(* etype arguments used by PMConfig.__init__ (utility.py 203-233): str, bool, float *)
Inductive etype := TStr | TBool | TFloat.

(* bool(v) *)
Definition truthy (v : pyval) : bool :=
  match v with
  | VNone => false
  | VBool b => b
  | VInt z => negb (Z.eqb z 0)
  | VFloat (FNum q) => negb (Qeq_bool q 0)
  | VFloat FNan => true
  | VStr s => negb (String.eqb s "")
  | VList l => match l with [] => false | _ => true end
  | VObj _ => true
  end.

(* str(v) *)
Definition pystr (env : pyenv) (v : pyval) : string :=
  match v with VStr s => s | _ => repr_of env v end.

(* etype(value) (utility.py 115, 162); None when the cast raises *)
Definition cast (env : pyenv) (t : etype) (v : pyval) : option pyval :=
  match t with
  | TStr => Some (VStr (pystr env v))
  | TBool => Some (VBool (truthy v))
  | TFloat =>
      match v with
      | VBool b => Some (VFloat (FNum (if b then 1 else 0)%Q))
      | VInt z => Some (VFloat (FNum (inject_Z z)))
      | VFloat f => Some (VFloat f)
      | VStr s => match parse_float env s with Some f => Some (VFloat f) | None => None end
      | _ => None
      end
  end.

(* utility.py 84-93: one configuration entry *)
Record entry := {
  e_default : pyval;
  e_append : bool;
  e_write : bool;
  e_etype : option etype;
  e_value : pyval
}.

(* self.value = v *)
Definition set_value (e : entry) (v : pyval) : entry :=
  {| e_default := e_default e; e_append := e_append e; e_write := e_write e;
     e_etype := e_etype e; e_value := v |}.

(* utility.py 112-125: the part of write() after the list case.  Appending to a value
   that is not a list raises AttributeError; the constructor makes it a list. *)
Definition write_scalar (env : pyenv) (e : entry) (v : pyval) : entry * option exn :=
  match (match e_etype e with Some t => cast env t v | None => Some v end) with
  | None => (e, Some PMParamError)
  | Some tv =>
      if e_append e then
        match e_value e with
        | VList l => (set_value e (VList (l ++ [tv])), None)
        | _ => (e, Some EAttributeError)
        end
      else (set_value e tv, None)
  end.

(* utility.py 98-125: PMConfigEntry.write.  The entry reached when an exception is raised
   is returned with it, because earlier elements of a list stay appended. *)
Fixpoint entry_write (env : pyenv) (e : entry) (v : pyval) {struct v} : entry * option exn :=
  if negb (e_write e) then (e, Some PMParamError)
  else
    match v with
    | VList l =>
        if e_append e then
          (fix go (e : entry) (l : list pyval) : entry * option exn :=
             match l with
             | [] => (e, None)
             | v :: l' => match entry_write env e v with
                          | (e', None) => go e' l'
                          | (e', Some x) => (e', Some x)
                          end
             end) e l
        else write_scalar env e v
    | _ => write_scalar env e v
    end.

(* utility.py 138-147 *)
Definition entry_restore (e : entry) : entry :=
  if negb (e_write e) then e
  else set_value e (if e_append e then VList [e_default e] else e_default e).

(* utility.py 150-166; without an etype the code refers to an undefined name `value` *)
Definition entry_set_default (env : pyenv) (e : entry) (d : pyval) : entry * option exn :=
  if negb (e_write e) then (e, Some PMParamError)
  else match e_etype e with
       | Some t => match cast env t d with
                   | Some d' => ({| e_default := d'; e_append := e_append e; e_write := e_write e;
                                    e_etype := e_etype e; e_value := e_value e |}, None)
                   | None => (e, Some PMParamError)
                   end
       | None => (e, Some ENameError)
       end.

(* utility.py 84-93: the constructor; None when it raises *)
Definition new_entry (env : pyenv) (default : pyval) (append write : bool) (t : option etype)
  : option entry :=
  let e0 := {| e_default := VNone; e_append := append; e_write := true; e_etype := t; e_value := VNone |} in
  match entry_set_default env e0 default with
  | (e1, None) =>
      let e2 := entry_restore e1 in
      Some {| e_default := e_default e2; e_append := e_append e2; e_write := write;
              e_etype := e_etype e2; e_value := e_value e2 |}
  | (_, Some _) => None
  end.

(* utility.py 203: the entries dictionary *)
Definition config := list (string * entry).

(* utility.py 363-369 *)
Definition cfg_getitem (c : config) (k : string) : res pyval :=
  match dget k c with Some e => Ok (e_value e) | None => Err PMParamError end.

(* utility.py 372-382: a failing write is reported and swallowed *)
Definition cfg_setitem (env : pyenv) (c : config) (k : string) (v : pyval) : config * option exn :=
  match dget k c with
  | None => (c, Some PMParamError)
  | Some e => (dset k (fst (entry_write env e v)) c, None)
  end.

(* utility.py 332-341 *)
Fixpoint cfg_update (env : pyenv) (c : config) (new : list (string * pyval)) : config * option exn :=
  match new with
  | [] => (c, None)
  | (k, v) :: new' => match cfg_setitem env c k v with
                      | (c', None) => cfg_update env c' new'
                      | (c', Some x) => (c', Some x)
                      end
  end.

(* utility.py 343-360; dict has no iteritems() in Python 3 *)
Definition cfg_restore (c : config) (item : option string) : config * option exn :=
  match item with
  | None => (c, Some EAttributeError)
  | Some k => match dget k c with
              | None => (c, Some EKeyError)
              | Some e => (dset k (entry_restore e) c, None)
              end
  end.

(* Files as seen by PMConfig.load: a missing file, a script that raises, or the
   dictionary of variables the script defines (utility.py 277-289). *)
Inductive cfgfile := CRaises | CDefines (vars : list (string * pyval)).
Definition cfgfs := list (string * cfgfile).

(* utility.py 272-300 (messages not modelled) *)
Definition load_one (env : pyenv) (fs : cfgfs) (c : config) (f : string) : config * option exn :=
  match dget f fs with
  | None => (c, None)
  | Some CRaises => (c, Some EException)
  | Some (CDefines vars) => cfg_update env c vars
  end.

(* utility.py 302-329: the root call.  State: the configuration, the index k, the list
   `found`.  Also returns the list of files handed to load() in order (= found). *)
Fixpoint load_loop (env : pyenv) (fs : cfgfs) (fuel : nat) (c : config) (k : nat)
  (found : list string) : config * list string * option exn :=
  match fuel with
  | O => (c, found, Some EOutOfFuel)
  | S fuel' =>
      match dget "config_file" c with
      | None => (c, found, Some EKeyError)
      | Some e =>
          match e_value e with
          | VList cfiles =>
              match nth_error cfiles k with
              | None => (c, found, None)
              | Some (VStr s) =>
                  let thisfile := norm_path env s in
                  if existsb (String.eqb thisfile) found
                  then load_loop env fs fuel' c (S k) found
                  else match load_one env fs c thisfile with
                       | (c', None) => load_loop env fs fuel' c' (S k) (found ++ [thisfile])
                       | (c', Some x) => (c', found, Some x)
                       end
              | Some _ => (c, found, Some ETypeError)
              end
          | _ => (c, found, Some ETypeError)
          end
      end
  end.

(* utility.py 341-387, 188: the operations a user can perform on pm.config.  OEntryWrite and OEntryDefault are
   config.entries[k].write(v) and .set_default(v); PMConfig defines no __delitem__, so
   `del config[k]` (ODel) raises. *)
Inductive cfg_op :=
| OGet (k : string)
| OSet (k : string) (v : pyval)
| OUpdate (new : list (string * pyval))
| ORestore (k : option string)
| OLoad (fs : cfgfs) (fuel : nat)
| ODel (k : string)
| OEntryWrite (k : string) (v : pyval)
| OEntryDefault (k : string) (v : pyval).

Definition entry_op (c : config) (k : string) (f : entry -> entry * option exn)
  : config * option exn :=
  match dget k c with
  | None => (c, Some EKeyError)
  | Some e => let (e', x) := f e in (dset k e' c, x)
  end.

Definition cfg_step (env : pyenv) (c : config) (o : cfg_op) : config * option exn :=
  match o with
  | OGet k => (c, match cfg_getitem c k with Ok _ => None | Err x => Some x end)
  | OSet k v => cfg_setitem env c k v
  | OUpdate new => cfg_update env c new
  | ORestore k => cfg_restore c k
  | OLoad fs fuel => let '(c', _, x) := load_loop env fs fuel c 0 [] in (c', x)
  | ODel k => (c, Some EAttributeError)
  | OEntryWrite k v => entry_op c k (fun e => entry_write env e v)
  | OEntryDefault k v => entry_op c k (fun e => entry_set_default env e v)
  end.

Definition cfg_run (env : pyenv) (c : config) (ops : list cfg_op) : config :=
  fold_left (fun c o => fst (cfg_step env c o)) ops c.

(* utility.py 203-233: the table of entries, as (name, default, append, write, etype) *)
Definition entry_table (install_dir version : string)
  : list (string * (pyval * bool * bool * option etype)) :=
  let str s := (VStr s, false, true, Some TStr) in
  let bool b := (VBool b, false, true, Some TBool) in
  let float f := (VFloat f, false, true, Some TFloat) in
  [("install_dir", (VStr install_dir, false, false, Some TStr));
   ("version", (VStr version, false, false, Some TStr));
   ("config_file", (VStr (install_dir ++ "/config.py"), true, true, Some TStr));
   ("config_verbose", bool false);
   ("warning_verbose", bool true);
   ("error_verbose", bool true);
   ("dat_dir", (VStr (install_dir ++ "/data"), true, true, Some TStr));
   ("dat_verbose", bool true);
   ("dat_overwrite", bool true);
   ("dat_exist_fatal", bool false);
   ("dat_recursive", bool true);
   ("reg_dir", (VStr (install_dir ++ "/registry"), true, true, Some TStr));
   ("reg_verbose", bool true);
   ("reg_overwrite", bool true);
   ("reg_exist_fatal", bool false);
   ("def_T", float (FNum (29815 # 100)));
   ("def_T_unit", str "K");
   ("def_p", float (FNum (101325 # 100000)));
   ("def_p_unit", str "bar");
   ("def_oob", float FNan);
   ("unit_force", str "N");
   ("unit_energy", str "kJ");
   ("unit_temperature", str "K");
   ("unit_pressure", str "bar");
   ("unit_molar", str "kmol");
   ("unit_volume", str "m3");
   ("unit_length", str "m");
   ("unit_mass", str "kg");
   ("unit_time", str "s");
   ("unit_matter", str "kg")].

Fixpoint make_entries (env : pyenv) (l : list (string * (pyval * bool * bool * option etype)))
  : option config :=
  match l with
  | [] => Some []
  | (k, (d, a, w, t)) :: l' =>
      match new_entry env d a w t, make_entries env l' with
      | Some e, Some c => Some ((k, e) :: c)
      | _, _ => None
      end
  end.

(* utility.py 188-234 with load=False *)
Definition init_config (env : pyenv) (install_dir version : string) : option config :=
  make_entries env (entry_table install_dir version).

(* The loop of utility.py 107-110 when the assigned list IS the entry's own list object
   (config['dat_dir'] = config['dat_dir'], or config['dat_dir'] += [...] whose final step
   is that assignment): every iteration appends to the list being iterated. *)
Fixpoint write_self (env : pyenv) (fuel : nat) (e : entry) (i : nat) : entry * option exn :=
  match fuel with
  | O => (e, Some EOutOfFuel)
  | S fuel' =>
      match e_value e with
      | VList l => match nth_error l i with
                   | None => (e, None)
                   | Some v => match entry_write env e v with
                               | (e', None) => write_self env fuel' e' (S i)
                               | (e', Some x) => (e', Some x)
                               end
                   end
      | _ => (e, Some ETypeError)
      end
  end.

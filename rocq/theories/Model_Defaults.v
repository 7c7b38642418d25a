(* Model of the default state, src/pyromat/utility.py 390-407.  The units part of the
   configuration is a ucfg as in Model_Units; def_T, def_T_unit, def_p, def_p_unit are
   passed as arguments. *)
From Coq Require Import Reals String List.
From Verif Require Export Model_Units.
Local Open Scope string_scope.

(* utility.py 390-397 *)
Definition def_T (c : ucfg) (value : R) (unit : string) : res R :=
  temperature_scale c value (Some unit) None.

(* utility.py 399-406 *)
Definition def_p (s : setup_args) (c : ucfg) (value : R) (unit : string) : res R :=
  convert (units_of s QPressure) c value (Some unit) None None.

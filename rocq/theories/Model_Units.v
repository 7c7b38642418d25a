(* Model of src/pyromat/units.py (lines 59-601).  Floats are real numbers. *)
From Coq Require Export Reals ZArith.
From Verif Require Export Base.
Local Open Scope R_scope.
Local Open Scope string_scope.

(* Python float division: raises on a zero divisor. *)
Definition pdiv (a b : R) : res R :=
  if Req_EM_T b 0 then Err EZeroDivision else Ok (a / b).

(* conv ** n for an integer n; a zero base with a negative exponent raises. *)
Definition ppow (a : R) (n : Z) : res R :=
  if Req_EM_T a 0
  then if (n <? 0)%Z then Err EZeroDivision else Ok (powerRZ a n)
  else Ok (powerRZ a n).

(* The part of pm.config the units module reads (units.py 136,143,431,466,469,577,580):
   a mapping from configuration keys to unit strings.  A missing key raises
   PMParamError (utility.py 200-206). *)
Definition ucfg := list (string * string).
Definition cfg_get (c : ucfg) (k : string) : res string :=
  match dget k c with Some u => Ok u | None => Err PMParamError end.

(* units.py 87-116: Conversion object = table and configuration key. *)
Record conversion := { table : list (string * R); config_default : option string }.

(* units.py 148, 160: self.table[unit] *)
Definition tget (t : list (string * R)) (k : string) : res R :=
  match dget k t with Some v => Ok v | None => Err EKeyError end.

(* units.py 131-136 / 138-143 *)
Definition default_unit (cv : conversion) (c : ucfg) (u : option string) : res string :=
  match u with
  | Some s => Ok s
  | None => match config_default cv with
            | None => Err PMParamError
            | Some k => cfg_get c k
            end
  end.

(* units.py 149-150: `if exponent: conv **= exponent` - None and 0 are both falsy.
   Exponents are modelled as integers (float exponents are not modelled). *)
Definition apply_exponent (conv : R) (e : option Z) : res R :=
  match e with
  | None => Ok conv
  | Some n => if (n =? 0)%Z then Ok conv else ppow conv n
  end.

(* units.py 123-156: Conversion.__call__, element-wise; the in-place variant
   returns the same numbers (aliasing is modelled separately). *)
Definition convert (cv : conversion) (c : ucfg) (value : R)
  (from_units to_units : option string) (exponent : option Z) : res R :=
  do f <- default_unit cv c from_units;
  do t <- default_unit cv c to_units;
  if String.eqb f t then Ok value
  else
    do t_from <- tget (table cv) f;
    do t_to <- tget (table cv) t;
    do conv <- pdiv t_from t_to;
    do conv' <- apply_exponent conv exponent;
    Ok (value * conv').

(* units.py 174-270: arguments of setup() *)
Record setup_args := { Tstd : R; pstd : R; grav : R; dh2o : R; dhg : R }.

(* units.py 174: the defaults *)
Definition default_setup : setup_args :=
  {| Tstd := 273 + 15/100; pstd := 1 + 1325/100000; grav := 980665/100000;
     dh2o := 999972/1000; dhg := 135951/10 |}.

Definition p10 (n : Z) : R := powerRZ 10 n.

(* units.py 251-258 *)
Definition const_k : R := 1380649 * p10 (-29).
Definition const_Na : R := 602214076 * p10 15.
Definition const_q : R := 1602176634 * p10 (-28).
Definition const_Ru : R := const_k * const_Na.
(* units.py 264 *)
Definition const_dstd (s : setup_args) : R := pstd s * p10 5 / const_Ru / Tstd s.

(* Reading an entry that setup() itself has just stored (e.g. length['in'],
   units.py 286).  The key is always present; Proof_Units shows every key used. *)
Definition rd (k : string) (t : list (string * R)) : R :=
  match dget k t with Some v => v | None => 0 end.

(* The statements `table[k] = expression reading the table`, run in order. *)
Definition build (t : list (string * R)) (l : list (string * (list (string * R) -> R)))
  : list (string * R) :=
  fold_left (fun t kf => dset (fst kf) (snd kf t) t) l t.

(* units.py 275-289 *)
Definition length_tab : list (string * R) :=
  build [("km", p10 3); ("m", 1); ("cm", 1/100); ("mm", p10 (-3)); ("um", p10 (-6));
         ("nm", p10 (-9)); ("A", p10 (-10)); ("in", 254/10000); ("nmi", 1852)]
    [("ft", fun t => rd "in" t * 12);
     ("yd", fun t => rd "ft" t * 3);
     ("mile", fun t => rd "ft" t * 5280);
     ("mi", fun t => rd "mile" t)].

(* units.py 292-301 *)
Definition time_tab : list (string * R) :=
  [("ns", p10 (-9)); ("us", p10 (-6)); ("ms", p10 (-3)); ("s", 1); ("min", 60);
   ("hr", 3600); ("day", 86400); ("year", 31536000)].

(* units.py 306-318 *)
Definition mass_tab (s : setup_args) : list (string * R) :=
  build [("kg", 1); ("g", p10 (-3)); ("mg", p10 (-6)); ("lbm", 45359237 * p10 (-8))]
    [("lb", fun t => rd "lbm" t);
     ("oz", fun t => rd "lbm" t / 16);
     ("slug", fun t => rd "lb" t / (rd "ft" length_tab / (grav s * rd "m" length_tab)));
     ("u", fun _ => 1 / (const_Na * 1000));
     ("amu", fun t => rd "u" t)].

(* units.py 321-328 *)
Definition force_tab (s : setup_args) : list (string * R) :=
  build [("N", 1); ("kN", 1000); ("lb", grav s * rd "lb" (mass_tab s)); ("kgf", grav s)]
    [("lbf", fun t => rd "lb" t);
     ("oz", fun t => rd "lb" t / 16)].

(* units.py 333-344 *)
Definition molar_tab (s : setup_args) : list (string * R) :=
  build [("kmol", rd "kg" (mass_tab s)); ("mol", rd "g" (mass_tab s));
         ("lbmol", rd "lbm" (mass_tab s))]
    [("n", fun t => rd "mol" t / const_Na);
     ("Nm3", fun t => rd "mol" t * const_dstd s);
     ("Ncum", fun t => rd "Nm3" t);
     ("NL", fun t => rd "Nm3" t * p10 (-3));
     ("Ncc", fun t => rd "Nm3" t * p10 (-6));
     ("scf", fun t => rd "Nm3" t * (rd "ft" length_tab / rd "m" length_tab) ^ 3);
     ("sci", fun t => rd "scf" t * (rd "in" length_tab / rd "ft" length_tab) ^ 3)].

(* units.py 349-355 *)
Definition temperature_tab : list (string * R) :=
  [("K", 18/10); ("C", 18/10); ("F", 1); ("R", 1); ("eV", 18/10 * const_q / const_k)].

(* units.py 358-367 *)
Definition energy_tab (s : setup_args) : list (string * R) :=
  build [("J", 1); ("kJ", 1000); ("cal", 4184/1000); ("kcal", 4184); ("eV", const_q)]
    [("BTU", fun t => rd "cal" t * (rd "lbm" (mass_tab s) / rd "g" (mass_tab s))
                      * (rd "F" temperature_tab / rd "C" temperature_tab))].

(* units.py 370-389 *)
Definition volume_tab : list (string * R) :=
  build [("m3", rd "m" length_tab ^ 3); ("mm3", rd "mm" length_tab ^ 3);
         ("cm3", rd "cm" length_tab ^ 3); ("in3", rd "in" length_tab ^ 3);
         ("ft3", rd "ft" length_tab ^ 3)]
    [("L", fun t => rd "m3" t / 1000);
     ("mL", fun t => rd "L" t / 1000);
     ("uL", fun t => rd "L" t / p10 6);
     ("cum", fun t => rd "m3" t);
     ("cc", fun t => rd "cm3" t);
     ("cumm", fun t => rd "mm3" t);
     ("cuin", fun t => rd "in3" t);
     ("cuft", fun t => rd "ft3" t);
     ("gal", fun t => rd "in3" t * 231);
     ("USgal", fun t => rd "gal" t);
     ("UKgal", fun t => rd "L" t * (454609 * p10 (-5)));
     ("qt", fun t => rd "gal" t / 4);
     ("pt", fun t => rd "gal" t / 8)].

(* units.py 392-407 *)
Definition pressure_tab (s : setup_args) : list (string * R) :=
  build [("Pa", 1); ("kPa", p10 3); ("MPa", p10 6); ("GPa", p10 9); ("bar", p10 5);
         ("atm", p10 5 * pstd s); ("Torr", pstd s * p10 5 / 760);
         ("mmHg", dhg s * grav s * rd "mm" length_tab);
         ("mmH2O", dh2o s * grav s * rd "mm" length_tab);
         ("psi", (rd "lb" (force_tab s) / rd "N" (force_tab s))
                 * (rd "m" length_tab / rd "in" length_tab) ^ 2)]
    [("psf", fun t => rd "psi" t * (rd "in" length_tab / rd "ft" length_tab) ^ 2);
     ("ksi", fun t => rd "psi" t * 1000);
     ("inHg", fun t => rd "mmHg" t * rd "in" length_tab / rd "mm" length_tab);
     ("inH2O", fun t => rd "mmH2O" t * rd "in" length_tab / rd "mm" length_tab)].

(* The nine Conversion objects setup() creates (units.py 275-403). *)
Inductive quantity :=
| QLength | QTime | QMass | QForce | QMolar | QTemperature | QEnergy | QVolume | QPressure.

Definition tab_of (s : setup_args) (q : quantity) : list (string * R) :=
  match q with
  | QLength => length_tab | QTime => time_tab | QMass => mass_tab s
  | QForce => force_tab s | QMolar => molar_tab s | QTemperature => temperature_tab
  | QEnergy => energy_tab s | QVolume => volume_tab | QPressure => pressure_tab s
  end.

Definition key_of (q : quantity) : string :=
  match q with
  | QLength => "unit_length" | QTime => "unit_time" | QMass => "unit_mass"
  | QForce => "unit_force" | QMolar => "unit_molar" | QTemperature => "unit_temperature"
  | QEnergy => "unit_energy" | QVolume => "unit_volume" | QPressure => "unit_pressure"
  end.

Definition units_of (s : setup_args) (q : quantity) : conversion :=
  {| table := tab_of s q; config_default := Some (key_of q) |}.

(* units.py 416-436 *)
Definition ismass (s : setup_args) (c : ucfg) (u : option string) : res bool :=
  do u <- match u with None => cfg_get c "unit_matter" | Some u => Ok u end;
  if dmem u (mass_tab s) then Ok true
  else if dmem u (molar_tab s) then Ok false
  else Err PMParamError.

(* units.py 495-503: value in K; a unit that is none of C, R, F, eV is left as it is *)
Definition to_kelvin (u : string) (v : R) : R :=
  if String.eqb u "C" then v + (273 + 15/100)
  else if String.eqb u "R" then v / (18/10)
  else if String.eqb u "F" then v / (18/10) + 2553722222222222 * p10 (-13)
  else if String.eqb u "eV" then v * (const_q / const_k)
  else v.

(* units.py 505-513 *)
Definition from_kelvin (u : string) (v : R) : R :=
  if String.eqb u "C" then v - (273 + 15/100)
  else if String.eqb u "R" then v * (18/10)
  else if String.eqb u "F" then (v - 2553722222222222 * p10 (-13)) * (18/10)
  else if String.eqb u "eV" then v / (const_q / const_k)
  else v.

(* units.py 440-514 *)
Definition temperature_scale (c : ucfg) (value : R) (from_units to_units : option string)
  : res R :=
  do f <- match from_units with None => cfg_get c "unit_temperature" | Some u => Ok u end;
  do t <- match to_units with None => cfg_get c "unit_temperature" | Some u => Ok u end;
  if String.eqb f t then Ok value
  else if String.eqb f "abs" then
    if String.eqb t "C" then Ok (from_kelvin t (to_kelvin "K" value))
    else if String.eqb t "F" then Ok (from_kelvin t (to_kelvin "R" value))
    else Ok value
  else if String.eqb t "abs" then
    if String.eqb f "C" then Ok (from_kelvin "K" (to_kelvin f value))
    else if String.eqb f "F" then Ok (from_kelvin "R" (to_kelvin f value))
    else Ok value
  else Ok (from_kelvin t (to_kelvin f value)).

(* The interpreter state relevant to gauge_to_abs/abs_to_gauge: the arguments of the
   last setup() call, and the value their default argument `patm=const_pstd` captured
   when the functions were defined (units.py 413, 518, 541). *)
Record units_state := { now : setup_args; patm_default : R }.

(* units.py 413-541: importing the module *)
Definition import_units : units_state :=
  {| now := default_setup; patm_default := pstd default_setup |}.

(* A user's later call of units.setup(...) *)
Definition call_setup (u : units_state) (s : setup_args) : units_state :=
  {| now := s; patm_default := patm_default u |}.

(* units.py 518-537 *)
Definition gauge_to_abs (st : units_state) (c : ucfg) (value : R) (u : option string)
  (patm : option R) : res R :=
  let patm := match patm with None => patm_default st | Some x => x end in
  do off <- convert (units_of (now st) QPressure) c patm (Some "bar") u None;
  Ok (value + off).

(* units.py 541-559 *)
Definition abs_to_gauge (st : units_state) (c : ucfg) (value : R) (u : option string)
  (patm : option R) : res R :=
  let patm := match patm with None => patm_default st | Some x => x end in
  do off <- convert (units_of (now st) QPressure) c patm (Some "bar") u None;
  Ok (value - off).

(* units.py 562-601 *)
Definition matter (s : setup_args) (c : ucfg) (value mw : R)
  (from_units to_units : option string) (exponent : option Z) : res R :=
  do f <- match from_units with None => cfg_get c "unit_matter" | Some u => Ok u end;
  do t <- match to_units with None => cfg_get c "unit_matter" | Some u => Ok u end;
  if String.eqb f t then Ok value
  else if dmem f (mass_tab s) then
    if dmem t (mass_tab s)
    then convert (units_of s QMass) c value (Some f) (Some t) exponent
    else
      do mf <- tget (mass_tab s) f;
      do a <- pdiv mf mw;
      do mt <- tget (molar_tab s) t;
      do conv <- pdiv a mt;
      do conv' <- apply_exponent conv exponent;
      Ok (value * conv')
  else
    if dmem t (molar_tab s)
    then convert (units_of s QMolar) c value (Some f) (Some t) exponent
    else
      do mf <- tget (molar_tab s) f;
      do mt <- tget (mass_tab s) t;
      do conv <- pdiv (mf * mw) mt;
      do conv' <- apply_exponent conv exponent;
      Ok (value * conv').

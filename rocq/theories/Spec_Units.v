(* Independent specification of the units PYroMat supports: the size of every unit in
   SI terms (metre, second, kilogram, newton, kilomole, degree Rankine, joule, cubic
   metre, pascal), written from the physical definitions and not from the code.
   The parameters are the user's conventions: standard temperature and pressure,
   gravity, and the densities of water and mercury. *)
From Coq Require Import Reals List String.
From Verif Require Import Model_Units.   (* only for setup_args and quantity *)
Import ListNotations.
Local Open Scope R_scope.
Local Open Scope string_scope.

(* exact SI (2019) constants *)
Definition boltzmann : R := 1380649 / 10 ^ 29.
Definition avogadro : R := 602214076 * 10 ^ 15.
Definition electron_charge : R := 1602176634 / 10 ^ 28.
Definition gas_constant : R := boltzmann * avogadro.   (* J/mol/K *)

Definition pound : R := 45359237 / 10 ^ 8.             (* kg *)
Definition inch : R := 254 / 10 ^ 4.                   (* m *)
Definition foot : R := 3048 / 10 ^ 4.                  (* m *)
Definition normal_cubic_metre (s : setup_args) : R :=  (* kmol: pV/(RT) *)
  (pstd s * 10 ^ 5) * 1 / (gas_constant * Tstd s) / 1000.

Definition si_table (s : setup_args) (q : quantity) : list (string * R) :=
  match q with
  | QLength => [("km", 1000); ("m", 1); ("cm", 1/100); ("mm", 1/1000); ("um", 1/10^6);
                ("nm", 1/10^9); ("A", 1/10^10); ("in", inch); ("nmi", 1852); ("ft", foot);
                ("yd", 9144/10^4); ("mile", 1609344/1000); ("mi", 1609344/1000)]
  | QTime => [("ns", 1/10^9); ("us", 1/10^6); ("ms", 1/1000); ("s", 1); ("min", 60);
              ("hr", 60*60); ("day", 24*60*60); ("year", 365*24*60*60)]
  | QMass => [("kg", 1); ("g", 1/1000); ("mg", 1/10^6); ("lbm", pound); ("lb", pound);
              ("oz", pound/16); ("slug", pound * grav s / foot);
              ("u", 1/(1000*avogadro)); ("amu", 1/(1000*avogadro))]
  | QForce => [("N", 1); ("kN", 1000); ("lb", pound * grav s); ("kgf", 1 * grav s);
               ("lbf", pound * grav s); ("oz", pound * grav s / 16)]
  | QMolar => [("kmol", 1); ("mol", 1/1000); ("lbmol", pound); ("n", 1/(1000*avogadro));
               ("Nm3", normal_cubic_metre s); ("Ncum", normal_cubic_metre s);
               ("NL", normal_cubic_metre s / 1000); ("Ncc", normal_cubic_metre s / 10^6);
               ("scf", normal_cubic_metre s * foot^3); ("sci", normal_cubic_metre s * inch^3)]
  | QTemperature => [("K", 9/5); ("C", 9/5); ("F", 1); ("R", 1);
                     ("eV", 9/5 * electron_charge / boltzmann)]
  | QEnergy => [("J", 1); ("kJ", 1000); ("cal", 4184/1000); ("kcal", 4184);
                ("eV", electron_charge); ("BTU", (4184/1000) * (1000 * pound) * (5/9))]
  | QVolume => [("m3", 1); ("mm3", 1/10^9); ("cm3", 1/10^6); ("in3", inch^3); ("ft3", foot^3);
                ("L", 1/1000); ("mL", 1/10^6); ("uL", 1/10^9); ("cum", 1); ("cc", 1/10^6);
                ("cumm", 1/10^9); ("cuin", inch^3); ("cuft", foot^3); ("gal", 231*inch^3);
                ("USgal", 231*inch^3); ("UKgal", 454609/10^8); ("qt", 231*inch^3/4);
                ("pt", 231*inch^3/8)]
  | QPressure => [("Pa", 1); ("kPa", 1000); ("MPa", 10^6); ("GPa", 10^9); ("bar", 10^5);
                  ("atm", pstd s * 10^5); ("Torr", pstd s * 10^5 / 760);
                  ("mmHg", dhg s * grav s / 1000); ("mmH2O", dh2o s * grav s / 1000);
                  ("psi", pound * grav s / inch^2); ("psf", pound * grav s / foot^2);
                  ("ksi", 1000 * (pound * grav s / inch^2));
                  ("inHg", dhg s * grav s * inch); ("inH2O", dh2o s * grav s * inch)]
  end.

(* size of unit u of quantity q, if it is a unit *)
Definition si (s : setup_args) (q : quantity) (u : string) : option R :=
  dget u (si_table s q).

Definition positive_setup (s : setup_args) : Prop :=
  0 < Tstd s /\ 0 < pstd s /\ 0 < grav s /\ 0 < dh2o s /\ 0 < dhg s.

(* integer power of a nonzero real, from first principles *)
Definition zpow (x : R) (n : Z) : R :=
  match n with
  | Z0 => 1
  | Zpos p => x ^ (Pos.to_nat p)
  | Zneg p => / (x ^ (Pos.to_nat p))
  end.

(* What the exponent argument selects in the code: omitted and 0 both mean 1. *)
Definition effective_exponent (e : option Z) : Z :=
  match e with None => 1%Z | Some n => if (n =? 0)%Z then 1%Z else n end.

(* Thermodynamic temperature in kelvin of a reading v on scale u. *)
Definition kelvin (u : string) (v : R) : option R :=
  if String.eqb u "K" then Some v
  else if String.eqb u "C" then Some (v + 27315/100)
  else if String.eqb u "R" then Some (v * (5/9))
  else if String.eqb u "F" then Some ((v + 45967/100) * (5/9))
  else if String.eqb u "eV" then Some (v * (electron_charge / boltzmann))
  else None.

Definition scales : list string := ["K"; "C"; "F"; "R"; "eV"].

(* matter: amount in kilomoles of one unit u, for molecular weight mw (kg/kmol) *)
Definition kmoles (s : setup_args) (mw : R) (u : string) : option R :=
  match si s QMolar u with
  | Some m => Some m
  | None => match si s QMass u with Some kg => Some (kg / mw) | None => None end
  end.

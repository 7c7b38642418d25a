(* The inversion routines of the multi-phase class, src/pyromat/registry/mp1.py: saturation
   temperature, density from temperature and pressure, temperature from density and pressure,
   and the two wrappers used to invert a property in temperature.

   Arrays are lists of elements.  A routine called on a part of an array (T[I]) is modelled
   on the whole list with a flag telling which elements are selected.
   Simplifications: during an iteration the inner routines are evaluated on each element
   alone (`all` is the element itself; only data with critical point terms can tell, C69); a
   saturation fit of an unknown form, which raises (C46_unknown_form), is a nan here. *)
From Coq Require Import Reals ZArith List Bool.
From Verif Require Export Model_Igas.
From Verif Require Import Model_Hybrid.
From Verif Require Export Model_Mp1.
Import ListNotations.
Local Open Scope R_scope.
Local Open Scope list_scope.

Definition xf_of (a : fl) : xf := match a with Some r => Fin r | None => NaN end.
Definition fl_of (a : xf) : fl := match a with Fin r => Some r | _ => None end.

Fixpoint traverse {A B} (f : A -> res B) (l : list A) : res (list B) :=
  match l with
  | [] => Ok []
  | a :: l' => do b <- f a; do bs <- traverse f l'; Ok (b :: bs)
  end.

(* an inner routine: T, d, diff -> value, T derivative, d derivative *)
Definition inner := fl -> fl -> nat -> jet1.
Definition value0 (j : jet1) : fl := fst (fst j).

(* np.maximum: nan if one of the arguments is *)
Definition fmax (a b : fl) : fl :=
  match a, b with Some x, Some y => Some (Rmax x y) | _, _ => None end.

Section Inv.
Variable D : mpdata.
Variable oob : fl.               (* config['def_oob'] *)

Definition alone (f : list (fl * fl) -> inner) : inner := fun T d diff => f [(T, d)] T d diff.
Definition in_p : inner := alone (mp_p D).
Definition in_e : inner := alone (mp_e D).
Definition in_h : inner := alone (mp_h D).
Definition in_s : inner := alone (mp_s D).

(* mp1.py 1878-1919, 2017-2040 *)
Definition sat_jet (G : satgroup) (T : fl) (diff : nat) : jet1 :=
  match satcurve G T diff with Ok j => j | Err _ => (None, None, None) end.
Definition mp_ps (T : fl) : fl := value0 (sat_jet (mp_PS D) T 0).
Definition mp_dsl (T : fl) : fl := value0 (sat_jet (mp_DSL D) T 0).
Definition mp_dsv (T : fl) : fl := value0 (sat_jet (mp_DSV D) T 0).
Definition mp_psT (T : fl) : fl * fl :=
  let '(p, pt, _) := sat_jet (mp_PS D) T 1 in (p, pt).

(* mp1.py 2043-2063, on the selected elements: _iter1 (978-1080, the same loop as in ig.py,
   modelled in Model_Igas) from the middle of the range.  Pressures outside [pt, pc] keep the
   starting temperature.  The limits are the same for all elements; the elements that are not
   iterated stay at the starting value, which is inside them. *)
Definition Ts_cell (e : bool * fl) : cell :=
  let (sel, p) := e in
  {| c_fn := mp_psT; c_y := p; c_x := num (5/10 * (mp_Tt D + mp_Tc D)); c_dx := num 0; c_err := num 0;
     c_on := sel && (fle (num (mp_pt D)) p && fle p (num (mp_pc D))) |}.
Definition mp_Ts (ps : list (bool * fl)) : res arr :=
  do r <- iter_loop ep_default (mp_Tt D * (99/100)) (mp_Tc D) 20%nat 20%nat (map Ts_cell ps);
  Ok (map c_x (fst r)).

(* mp1.py 2107-2141: the densities between which _d searches, for one element *)
Definition d_limits (T p : fl) : fl * fl :=
  if fle (num (mp_Tc D)) T
  then ((num (1/10) * p / (num (mp_R D) * T))%fl, num (snd (mp_dlim D)))
  else if flt p (mp_ps T)
  then ((num (5/10) * p / (num (mp_R D) * T))%fl, (mp_dsv T * num (101/100))%fl)
  else ((mp_dsl T * num (99/100))%fl, num (snd (mp_dlim D))).
(* mp1.py 2144-2147: `while p(T,da) > p: da /= 2`, which the code does not bound *)
Fixpoint d_lower (fuel : nat) (T p da : fl) : res fl :=
  if flt p (value0 (in_p T da 0%nat)) then
    match fuel with
    | O => Err EOutOfFuel
    | S n => d_lower n T p (da / num 2)%fl
    end
  else Ok da.
(* the routine handed to _hybrid1 with fx_index = 2 (density) or 1 (temperature) *)
Definition along_d (fn : inner) (T : fl) (d : xf) : xf * xf :=
  let '(y, _, yd) := fn T (fl_of d) 1%nat in (xf_of y, xf_of yd).
Definition ep1 : R := 1 / 1000000.          (* the default ep of _hybrid1 (1083) *)

(* a selected element: T, p; init is the value an element that is not selected keeps *)
Definition d_elem (fuel : nat) (e : bool * fl * fl * fl) : res elem :=
  let '(sel, T, p, init) := e in
  let (da, db) := d_limits T p in
  do da <- (if sel then d_lower fuel T p da else Ok da);
  Ok {| e_fn := along_d in_p T; e_y := xf_of p; e_x := xf_of init; e_sel := sel;
        e_min := xf_of da; e_max := xf_of db |}.
(* mp1.py 2093-2164 *)
Definition mp_d (fuel : nat) (l : list (bool * fl * fl * fl)) : res arr :=
  do es <- traverse (d_elem fuel) l;
  do r <- hybrid1 true ep1 50%nat (xf_of oob) es;
  Ok (map fl_of (fst r)).

(* mp1.py 1332-1407, for one element and diff=1 *)
Definition tditer (d : fl) (fn : inner) (T : fl) : jet1 :=
  let '(dsL, dsLt, _) := sat_jet (mp_DSL D) T 1 in
  let '(dsV, dsVt, _) := sat_jet (mp_DSV D) T 1 in
  if flt T (num (mp_Tc D)) && (fle d dsL && fle dsV d) then
    let xd := (num 1 / (dsL / dsV - num 1))%fl in
    let x := ((dsL / d - num 1) * xd)%fl in
    let xt := (x * xd * (dsL / dsV) * (dsVt / dsV - dsLt / dsL) + xd * dsLt / d)%fl in
    let xd := (xd * (- dsL / d / d))%fl in
    let '(y, yt, yd) := fn T dsV 1%nat in
    let '(yy, yyt, yyd) := fn T dsL 1%nat in
    let x' := (num 1 - x)%fl in
    ((x * y + x' * yy)%fl, (x * yt + xt * y + x' * yyt - xt * yy)%fl,
     (x * yd + xd * y + x' * yyd - xd * yy)%fl)
  else fn T d 1%nat.
Definition along_T_d (d : fl) (fn : inner) (T : xf) : xf * xf :=
  let '(y, yt, _) := tditer d fn (fl_of T) in (xf_of y, xf_of yt).

(* mp1.py 1410-1480, for one element and diff=1.  When the inner search for the density of
   this element fails the result is def_oob (2140 does so unless every element fails, in
   which case it raises). *)
Definition d_one (fuel : nat) (T p : fl) : res fl :=
  do l <- mp_d fuel [(true, T, p, num 0)];
  Ok (nth 0%nat l None).
Definition tpiter (fuel : nat) (p : fl) (fn : inner) (T : fl) : jet1 :=
  let d := match d_one fuel T p with Ok d => d | Err _ => oob end in
  let '(y, yt, yd) := fn T d 1%nat in
  let '(_, pt, pd) := in_p T d 1%nat in
  (y, (yt - yd * pt / pd)%fl, (yd / pd)%fl).
Definition along_T_p (fuel : nat) (p : fl) (fn : inner) (T : xf) : xf * xf :=
  let '(y, yt, _) := tpiter fuel p fn (fl_of T) in (xf_of y, xf_of yt).

(* mp1.py 2192-2261: for one element of _T, the limits of the search, whether it is
   saturated, and the saturation densities.  Tsat is the saturation temperature. *)
Record T_plan := { tp_Ta : fl; tp_Tb : fl; tp_T : fl; tp_sat : bool; tp_dsL : fl; tp_dsV : fl }.
Definition plan_T (d p Tsat : fl) : T_plan :=
  let T0 := num (fst (mp_Tlim D)) in let T1 := num (snd (mp_Tlim D)) in
  if fle (num (mp_pc D)) p
  then {| tp_Ta := T0; tp_Tb := T1; tp_T := num 0; tp_sat := false; tp_dsL := num 0; tp_dsV := num 0 |}
  else
    let dsL := mp_dsl Tsat in let dsV := mp_dsv Tsat in
    let liquid := flt dsL d in let vapor := flt d dsV in
    let sat := fle dsV d && fle d dsL in
    let Ta := if liquid then T0 else Tsat in
    let Tb := if liquid then (Tsat * num (101/100))%fl else num 0 in
    let Tb := if vapor then T1 else Tb in
    let Ta := if vapor then fmax (num (99/100) * Ta)%fl T0 else Ta in
    if sat then {| tp_Ta := T0; tp_Tb := T1; tp_T := Ta; tp_sat := true; tp_dsL := dsL; tp_dsV := dsV |}
    else {| tp_Ta := Ta; tp_Tb := Tb; tp_T := num 0; tp_sat := false; tp_dsL := dsL; tp_dsV := dsV |}.
Definition T_elem (d p : fl) (pl : T_plan) : elem :=
  {| e_fn := along_T_d d in_p; e_y := xf_of p; e_x := xf_of (tp_T pl); e_sel := negb (tp_sat pl);
     e_min := xf_of (tp_Ta pl); e_max := xf_of (tp_Tb pl) |}.
(* mp1.py 2167-2274 with sat=True: (temperature, plan) of each element; Nmax is the default 20 *)
Definition mp_T (l : list (fl * fl)) : res (list (fl * T_plan)) :=
  do Tsat <- mp_Ts (map (fun e => (negb (fle (num (mp_pc D)) (snd e)), snd e)) l);
  let plans := map2 (fun e t => plan_T (fst e) (snd e) t) l Tsat in
  do r <- hybrid1 true ep1 20%nat (xf_of oob) (map2 (fun e pl => T_elem (fst e) (snd e) pl) l plans);
  Ok (map2 (fun t pl => (fl_of t, pl)) (fst r) plans).
End Inv.

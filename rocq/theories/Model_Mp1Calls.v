(* The user interface of the multi-phase class, src/pyromat/registry/mp1.py: argument
   handling (2277-2989), saturation properties and property methods (3271-4458).
   Arrays are one-dimensional.  The environment (units, defaults, def_oob) and the handling
   of positional and default arguments are those of Model_Igas: the code is the same.
   fuel bounds the unbounded loop of _d (Model_Mp1Inv). *)
From Coq Require Import Reals ZArith List Bool String.
From Verif Require Export Model_Mp1Inv.
From Verif Require Import Model_Hybrid.
Import ListNotations.
Local Open Scope R_scope.
Local Open Scope string_scope.
Local Open Scope list_scope.

(* np.broadcast_arrays, without the memory layout *)
Definition broadcast2 (a b : arr) : res (list (fl * fl)) :=
  do r <- broadcast a b;
  let '(a, b, _, _) := r in Ok (combine a b).
Definition broadcast3 (a b c : arr) : res (list (fl * fl * fl)) :=
  do r <- broadcast a b;
  let '(a, b, _, _) := r in
  do r <- broadcast a c;
  let '(a, c, _, _) := r in
  do r <- broadcast b c;
  let '(b, c, _, _) := r in Ok (combine (combine a b) c).

(* what _argparse returns for one element: T, d1, d2, x, I *)
Record point := { s_T : fl; s_d1 : fl; s_d2 : fl; s_x : fl; s_sat : bool }.
Definition single (T d : fl) : point := {| s_T := T; s_d1 := d; s_d2 := d; s_x := num (-1); s_sat := false |}.

Section Calls.
Variable D : mpdata.
Variable E : env.
Variable fuel : nat.
Let oob := e_oob E.
Let dsl := mp_dsl D.
Let dsv := mp_dsv D.

(* ---- argument rules ---- *)
Definition mp_inverse : list string := ["e"; "h"; "s"].
Definition mp_legal : list string := ["e"; "h"; "s"; "T"; "p"; "d"; "v"; "x"].
Definition mem (k : string) (l : list string) : bool := existsb (String.eqb k) l.
(* mp1.py 2385-2432 *)
Definition mp_rules (kw : kwargs) : res unit :=
  if Nat.ltb 2 (List.length kw) && existsb (fun k => negb (mem k ["T"; "p"; "x"])) (dkeys kw)
  then Err PMParamError
  else if existsb (fun k => negb (mem k mp_legal)) (dkeys kw) then Err PMParamError
  else if Nat.ltb 1 (List.length (filter (fun k => dmem k kw) mp_inverse)) then Err PMParamError
  else if dmem "v" kw && dmem "d" kw then Err PMParamError
  else Ok tt.

(* mp1.py 2455-2465, 2468-2478 *)
Definition limited (lim : R * R) (v : arr) : res arr :=
  let out x := flt x (num (fst lim)) || flt (num (snd lim)) x in
  if forallb out v then Err PMParamError
  else Ok (map (fun x => if out x then oob else x) v).

(* the arguments in SI units *)
Record sargs := { a_T : option arr; a_p : option arr; a_d : option arr; a_x : option arr;
                  a_inv : option (inner * arr) }.

(* mp1.py 2494-2502 *)
Definition si_energy (v : arr) : res arr :=
  do v1 <- aconvert E QEnergy v None (Some "J") None;
  amatter E v1 (mp_mw D) None (Some "kg") (Some (-1)%Z).
(* mp1.py 2453-2512 *)
Definition si_args (kw : kwargs) : res sargs :=
  do T <- ores (dget "T" kw) (fun v =>
    do v1 <- atscale E v None (Some "K"); limited (mp_Tlim D) v1);
  do p <- ores (dget "p" kw) (fun v =>
    do v1 <- aconvert E QPressure v None (Some "Pa") None; limited (mp_plim D) v1);
  do d <- ores (dget "d" kw) (fun v =>
    do v1 <- aconvert E QVolume v None (Some "m3") (Some (-1)%Z);
    amatter E v1 (mp_mw D) None (Some "kg") None);
  do dv <- ores (dget "v" kw) (fun v =>
    do v1 <- aconvert E QVolume v None (Some "m3") None;
    do v2 <- amatter E v1 (mp_mw D) None (Some "kg") (Some (-1)%Z);
    Ok (map reciprocal v2));
  do h <- ores (dget "h" kw) si_energy;
  do e <- ores (dget "e" kw) si_energy;
  do s <- ores (dget "s" kw) (fun v =>
    do v1 <- si_energy v;
    aconvert E QTemperature v1 None (Some "K") (Some (-1)%Z));
  do x <- ores (dget "x" kw) (fun v =>
    if existsb (fun x => flt (num 1) x) v || existsb (fun x => flt x (num (-1))) v
    then Err PMParamError else Ok v);
  Ok {| a_T := T; a_p := p; a_d := match dv with Some v => Some v | None => d end; a_x := x;
        a_inv := match h, e, s with
                 | Some v, _, _ => Some (in_h D, v)
                 | None, Some v, _ => Some (in_e D, v)
                 | None, None, Some v => Some (in_s D, v)
                 | None, None, None => None
                 end |}.

(* ---- the state from each pair of arguments ---- *)
(* the quality of a saturated mixture of density d: (dsL/d - 1)/(dsL/dsV - 1) *)
Definition quality_of (d dL dV : fl) : fl := ((dL / d - num 1) / (dL / dV - num 1))%fl.

(* mp1.py 2855-2884: T, d.  The point is under the dome for dsV < d < dsL. *)
Definition from_Td (e : fl * fl) : point :=
  let (T, d) := e in
  if flt T (num (mp_Tc D)) && (flt d (dsl T) && flt (dsv T) d)
  then {| s_T := T; s_d1 := dsl T; s_d2 := dsv T; s_x := quality_of d (dsl T) (dsv T); s_sat := true |}
  else single T d.

(* mp1.py 2806-2852: T, p, and x (-1 when it is not given) *)
Definition from_Tpx (l : list (fl * fl * fl)) : res (list point) :=
  do ds <- mp_d D oob fuel (map (fun e => let '(T, p, x) := e in (flt x (num 0), T, p, num 0)) l);
  Ok (map2 (fun e d => let '(T, p, x) := e in
    if flt x (num 0) then {| s_T := T; s_d1 := d; s_d2 := d; s_x := x; s_sat := false |}
    else if flt (num (mp_Tc D)) T
    then {| s_T := oob; s_d1 := oob; s_d2 := oob; s_x := oob; s_sat := false |}
    else {| s_T := T; s_d1 := dsl T; s_d2 := dsv T; s_x := x; s_sat := true |}) l ds).

(* mp1.py 2888-2898: T, x *)
Definition from_Tx (l : list (fl * fl)) : res (list point) :=
  if existsb (fun e => flt (num (mp_Tc D)) (fst e)) l then Err PMParamError
  else if existsb (fun e => flt (snd e) (num 0)) l then Err PMParamError
  else Ok (map (fun e => {| s_T := fst e; s_d1 := dsl (fst e); s_d2 := dsv (fst e); s_x := snd e;
                            s_sat := true |}) l).

(* mp1.py 2914-2942: p, d; l holds (d, p) *)
Definition from_pd (l : list (fl * fl)) : res (list point) :=
  do r <- mp_T D oob l;
  Ok (map2 (fun e t => let '(d, p) := e in let '(T, pl) := t in
    if tp_sat pl
    then {| s_T := T; s_d1 := tp_dsL pl; s_d2 := tp_dsV pl; s_x := quality_of d (tp_dsL pl) (tp_dsV pl);
            s_sat := true |}
    else single T d) l r).

(* mp1.py 2946-2961: p, x.  The checks come before the arrays are broadcast. *)
Definition from_px (p x : arr) : res (list point) :=
  if existsb (fun p => flt (num (mp_pc D)) p) p then Err PMParamError
  else if existsb (fun x => flt x (num 0)) x then Err PMParamError
  else
    do l <- broadcast2 p x;
    do Ts <- mp_Ts D (map (fun e => (true, fst e)) l);
    Ok (map2 (fun e T => {| s_T := T; s_d1 := dsl T; s_d2 := dsv T; s_x := snd e; s_sat := true |}) l Ts).

(* mp1.py 2526-2631: h (or e, s), p; l holds (h, p).  The plan of one element. *)
Record hp_plan := { hp_Ta : fl; hp_Tb : fl; hp_T : fl; hp_sat : bool; hp_d1 : fl; hp_d2 : fl; hp_x : fl }.
Definition plan_hp (fn : inner) (h p Tsat : fl) : hp_plan :=
  let T0 := num (fst (mp_Tlim D)) in let T1 := num (snd (mp_Tlim D)) in
  let go Ta Tb := {| hp_Ta := Ta; hp_Tb := Tb; hp_T := None; hp_sat := false;
                     hp_d1 := None; hp_d2 := None; hp_x := num (-1) |} in
  if fle (num (mp_pc D)) p || fle p (num (mp_pt D)) then go T0 T1
  else
    let d1 := dsl Tsat in let d2 := dsv Tsat in
    let hL := value0 (fn Tsat d1 0%nat) in let hV := value0 (fn Tsat d2 0%nat) in
    if fle h hV && fle hL h
    then {| hp_Ta := Tsat; hp_Tb := Tsat; hp_T := Tsat; hp_sat := true; hp_d1 := d1; hp_d2 := d2;
            hp_x := ((h - hL) / (hV - hL))%fl |}
    else if flt hV h then go (Tsat * num (1 + 1/1000000))%fl T1
    else if flt h hL then go T0 (Tsat * num (1 - 1/1000000))%fl
    else go None None.       (* comparisons with a nan: np.empty, anything *)
Definition hp_elem (fn : inner) (h p : fl) (pl : hp_plan) : elem :=
  {| e_fn := along_T_p D oob fuel p fn; e_y := xf_of h; e_x := xf_of (hp_T pl);
     e_sel := negb (hp_sat pl); e_min := xf_of (hp_Ta pl); e_max := xf_of (hp_Tb pl) |}.
Definition from_hp (fn : inner) (l : list (fl * fl)) : res (list point) :=
  do Tsat <- mp_Ts D (map (fun e => (negb (fle (num (mp_pc D)) (snd e) || fle (snd e) (num (mp_pt D))), snd e)) l);
  let plans := map2 (fun e t => plan_hp fn (fst e) (snd e) t) l Tsat in
  do r <- hybrid1 true ep1 50%nat (xf_of oob) (map2 (fun e pl => hp_elem fn (fst e) (snd e) pl) l plans);
  let Ts := map fl_of (fst r) in
  do ds <- mp_d D oob fuel
    (map2 (fun (e : fl * fl) (tp : fl * hp_plan) => (negb (hp_sat (snd tp)), fst tp, snd e, None)) l (combine Ts plans));
  Ok (map2 (fun tp d => let '(T, pl) := tp in
    if hp_sat pl
    then {| s_T := T; s_d1 := hp_d1 pl; s_d2 := hp_d2 pl; s_x := hp_x pl; s_sat := true |}
    else single T d) (combine Ts plans) ds).

(* mp1.py 2635-2680: h (or e, s), d; l holds (h, d) *)
Definition hd_elem (fn : inner) (e : fl * fl) : elem :=
  let (h, d) := e in
  {| e_fn := along_T_d D d fn; e_y := xf_of h; e_x := NaN; e_sel := true;
     e_min := Fin (fst (mp_Tlim D)); e_max := Fin (snd (mp_Tlim D)) |}.
Definition from_hd (fn : inner) (l : list (fl * fl)) : res (list point) :=
  do r <- hybrid1 true ep1 50%nat (xf_of oob) (map (hd_elem fn) l);
  Ok (map2 (fun (e : fl * fl) T' => let (h, d) := e in let T := fl_of T' in
    if flt T (num (mp_Tc D)) && (fle (dsv T) d && fle d (dsl T))
    then {| s_T := T; s_d1 := dsl T; s_d2 := dsv T; s_x := quality_of d (dsl T) (dsv T); s_sat := true |}
    else single T d) l (fst r)).

(* mp1.py 2692-2788: s (or h, e), T; l holds (s, T) *)
Record sT_plan := { st_da : fl; st_db : fl; st_sat : bool; st_d1 : fl; st_d2 : fl; st_x : fl }.
Definition plan_sT (fn : inner) (s T : fl) : sT_plan :=
  let lo := num (fst (mp_dlim D)) in let hi := num (snd (mp_dlim D)) in
  let go da db := {| st_da := da; st_db := db; st_sat := false; st_d1 := None; st_d2 := None;
                     st_x := num (-1) |} in
  if flt T (num (mp_Tc D)) then
    let d1 := dsl T in let d2 := dsv T in
    let sL := value0 (fn T d1 0%nat) in let sV := value0 (fn T d2 0%nat) in
    if fle sL s && fle s sV
    then {| st_da := num 0; st_db := hi; st_sat := true; st_d1 := d1; st_d2 := d2;
            st_x := ((s - sL) / (sV - sL))%fl |}
    else if flt sV s then go lo (num (101/100) * d2)%fl
    else if flt s sL then go (num (99/100) * d1)%fl hi
    else go (num 0) hi
  else go (num 0) hi.
(* mp1.py 2745-2762: `da == 0`: raise the lower limit until the value there is not below s *)
Fixpoint sT_loop (left : nat) (fn : inner) (s T da : fl) : res fl :=
  if flt (value0 (fn T da 0%nat)) s then
    match left with
    | O => Err PMAnalysisError
    | S n => sT_loop n fn s T (num (5/10) * (num (fst (mp_dlim D)) + da))%fl
    end
  else Ok da.
Definition sT_lower (fn : inner) (s T : fl) (pl : sT_plan) : res fl :=
  match st_da pl with
  | Some da =>
      if Req_EM_T da 0 then
        if st_sat pl then Ok (Some da)
        else sT_loop 20 fn s T
               (num (9999/10000) * num (fst (mp_dlim D)) + num (1/10000) * num (snd (mp_dlim D)))%fl
      else Ok (Some da)
  | None => Ok None
  end.
Definition sT_elem (fn : inner) (e : fl * fl * sT_plan) : res elem :=
  let '(s, T, pl) := e in
  do da <- sT_lower fn s T pl;
  Ok {| e_fn := along_d fn T; e_y := xf_of s; e_x := xf_of (st_d1 pl); e_sel := negb (st_sat pl);
        e_min := xf_of da; e_max := xf_of (st_db pl) |}.
Definition from_sT (fn : inner) (l : list (fl * fl)) : res (list point) :=
  let pls := map (fun e => (e, plan_sT fn (fst e) (snd e))) l in
  do es <- traverse (sT_elem fn) pls;
  do r <- hybrid1 true ep1 50%nat (xf_of oob) es;
  Ok (map2 (fun e d' => let '((s, T), pl) := e in
    if st_sat pl
    then {| s_T := T; s_d1 := st_d1 pl; s_d2 := st_d2 pl; s_x := st_x pl; s_sat := true |}
    else single T (fl_of d')) pls (fst r)).

(* mp1.py 2516-2989 *)
Definition from_args (a : sargs) : res (list point) :=
  match a_inv a with
  | Some (fn, h) =>
      match a_p a, a_d a, a_x a, a_T a with
      | Some p, _, _, _ => do l <- broadcast2 h p; from_hp fn l
      | None, Some d, _, _ => do l <- broadcast2 h d; from_hd fn l
      | None, None, Some _, _ => Err PMParamError
      | None, None, None, Some T => do l <- broadcast2 h T; from_sT fn l
      | None, None, None, None => Err EKeyError      (* pop from an empty set *)
      end
  | None =>
      match a_T a, a_p a, a_d a, a_x a with
      | Some T, Some p, _, x =>
          let x := match x with Some x => x | None => [num (-1)] end in
          do l <- broadcast3 T p x; from_Tpx l
      | Some T, None, Some d, _ => do l <- broadcast2 T d; Ok (map from_Td l)
      | Some T, None, None, Some x => do l <- broadcast2 T x; from_Tx l
      | None, Some p, Some d, _ => do l <- broadcast2 d p; from_pd l
      | None, Some p, None, Some x => from_px p x
      | _, _, _, _ => Err PMParamError     (* d, x and the "report a bug" cases *)
      end
  end.

(* mp1.py 2321-2989 *)
Definition mp_argparse (varg : list arr) (kw : kwargs) : res (list point) :=
  do kw1 <- positional varg kw;
  do kw2 <- defaults E kw1;
  do _ <- mp_rules kw2;
  do a <- si_args kw2;
  from_args a.

(* ---- the methods ---- *)
Definition liquid_all (l : list point) : list (fl * fl) := map (fun s => (s_T s, s_d1 s)) l.
Definition vapor_sat (l : list point) : list (fl * fl) :=
  map (fun s => (s_T s, s_d2 s)) (filter s_sat l).
(* `y = fn(T,d1); y[I] *= (1.-x[I]); y[I] += fn(T[I],d2[I]) * x[I]` (e.g. 3930-3933) *)
Definition mixed_value (f : list (fl * fl) -> inner) (l : list point) : arr :=
  map (fun s =>
    let y := value0 (f (liquid_all l) (s_T s) (s_d1 s) 0%nat) in
    if s_sat s
    then (y * (num 1 - s_x s) + value0 (f (vapor_sat l) (s_T s) (s_d2 s) 0%nat) * s_x s)%fl
    else y) l.
(* 1/((1-x)/d1 + x/d2) at saturated points (3636-3638) *)
Definition mix_density (s : point) : fl :=
  if s_sat s
  then (num 1 / ((num 1 - s_x s) / s_d1 s + s_x s / s_d2 s))%fl
  else s_d1 s.

Definition out_energy (v : arr) : res arr :=
  do v1 <- aconvert E QEnergy v (Some "J") None None;
  amatter E v1 (mp_mw D) (Some "kg") None (Some (-1)%Z).
Definition out_heat (v : arr) : res arr :=
  do v1 <- out_energy v;
  aconvert E QTemperature v1 (Some "K") None (Some (-1)%Z).
Definition out_density (v : arr) : res arr :=
  do v1 <- amatter E v (mp_mw D) (Some "kg") None None;
  aconvert E QVolume v1 (Some "m3") None (Some (-1)%Z).

(* Every method also returns the quality when called with quality=True; here it is always
   returned, as the second array. *)
Definition mp_call := list arr -> kwargs -> res (arr * arr).
Definition method (f : list point -> res arr) : mp_call := fun varg kw =>
  do l <- mp_argparse varg kw;
  do y <- f l;
  Ok (y, map s_x l).

(* mp1.py 3568-3605 *)
Definition mm_p : mp_call := method (fun l =>
  aconvert E QPressure
    (map (fun s => value0 (mp_p D (map (fun s => (s_T s, s_d2 s)) l) (s_T s) (s_d2 s) 0%nat)) l)
    (Some "Pa") None None).
(* mp1.py 3608-3644 *)
Definition mm_d : mp_call := method (fun l => out_density (map mix_density l)).
(* mp1.py 3647-3676 *)
Definition mm_v : mp_call := fun varg kw =>
  do r <- mm_d varg kw; Ok (map reciprocal (fst r), snd r).
(* mp1.py 3678-3712 *)
Definition mm_T : mp_call := method (fun l => atscale E (map s_T l) (Some "K") None).
(* mp1.py 3714-3742 *)
Definition mm_x (varg : list arr) (kw : kwargs) : res arr :=
  do l <- mp_argparse varg kw; Ok (map s_x l).
(* mp1.py 3903-4100 *)
Definition mm_e : mp_call := method (fun l => out_energy (mixed_value (mp_e D) l)).
Definition mm_f : mp_call := method (fun l => out_energy (mixed_value (mp_f D) l)).
Definition mm_g : mp_call := method (fun l => out_energy (mixed_value (mp_g D) l)).
Definition mm_h : mp_call := method (fun l => out_energy (mixed_value (mp_h D) l)).
Definition mm_s : mp_call := method (fun l => out_heat (mixed_value (mp_s D) l)).
(* mp1.py 4103-4144: def_oob at saturated points *)
Definition mm_a : mp_call := method (fun l =>
  do v <- aconvert E QLength
    (map (fun s => if s_sat s then oob else mp_a D (liquid_all l) (s_T s) (s_d1 s)) l)
    (Some "m") None None;
  aconvert E QTime v (Some "s") None (Some (-1)%Z)).
(* mp1.py 4248-4291: infinite at saturated points *)
Definition mm_cp : mp_call := method (fun l =>
  out_heat (map (fun s => if s_sat s then None else mp_cp D (liquid_all l) (s_T s) (s_d1 s)) l)).

(* mp1.py 4330-4343: cv at a saturated point.  The code multiplies arrays of the saturated
   points by the whole array x: unless every point is saturated (or none is) the shapes do not
   match and numpy raises a ValueError. *)
Definition cv_two_phase (satL satV : list (fl * fl)) (s : point) : fl :=
  let T := s_T s in let x := s_x s in
  let '(_, dVT, _) := sat_jet (mp_DSV D) T 1 in
  let '(_, dLT, _) := sat_jet (mp_DSL D) T 1 in
  let temp := (s_d1 s / s_d2 s)%fl in
  let xT := ((dLT / s_d1 s * (num 1 - x) + temp * dVT / s_d2 s * x) / (temp - num 1))%fl in
  let '(eL, eLT, eLd) := mp_e D satL T (s_d1 s) 1%nat in
  let '(eV, eVT, eVd) := mp_e D satV T (s_d2 s) 1%nat in
  ((eLT + eLd * dLT) * (num 1 - x) + (eVT + eVd * dVT) * x + (eV - eL) * xT)%fl.
Definition cv_values (l : list point) : res arr :=
  if existsb s_sat l && negb (forallb s_sat l) then Err EValueError
  else Ok (map (fun s => if s_sat s then cv_two_phase (liquid_all l) (vapor_sat l) s
                         else mp_cv D (liquid_all l) (s_T s) (s_d1 s)) l).
(* mp1.py 4294-4353 *)
Definition mm_cv : mp_call := method (fun l => do v <- cv_values l; out_heat v).
(* mp1.py 4356-4391 *)
Definition mm_gam : mp_call := method (fun l =>
  Ok (map (fun s => if s_sat s then None
                    else (mp_cp D (liquid_all l) (s_T s) (s_d1 s)
                          / mp_cv D (liquid_all l) (s_T s) (s_d1 s))%fl) l)).

(* mp1.py 4176-4232: enthalpy and entropy of hsd() before scaling, for one element *)
Definition hsd_raw (all : list (fl * fl)) (T d : fl) : fl * fl :=
  let '(t0, d0) := red_ao D T d in
  let '(a, at_, _, _, _, _) := ao_at D T d 1 in
  let h := (num 1 + t0 * at_)%fl in
  let s := (t0 * at_ - a)%fl in
  let '(t1, d1) := red_ar D T d in
  let '(b, bt, bd, _, _, _) := ar_at D all T d 1 in
  ((h + (d1 * bd + t1 * bt))%fl, (s + (t1 * bt - b))%fl).
Definition hsd_values (l : list point) : arr * arr * arr :=
  let hs := map (fun s =>
    let (h, e) := hsd_raw (liquid_all l) (s_T s) (s_d1 s) in
    if s_sat s then
      let (hv, ev) := hsd_raw (vapor_sat l) (s_T s) (s_d2 s) in
      ((h * (num 1 - s_x s) + hv * s_x s)%fl, (e * (num 1 - s_x s) + ev * s_x s)%fl)
    else (h, e)) l in
  (map2 (fun s he => (fst he * (num (mp_R D) * s_T s))%fl) l hs,
   map (fun he => (snd he * num (mp_R D))%fl) hs, map mix_density l).
(* mp1.py 4147-4245: conv for h lacks exponent=-1 on matter (4236), and conv for s also on
   temperature (4238) *)
Definition mm_hsd (varg : list arr) (kw : kwargs) : res (arr * arr * arr * arr) :=
  do l <- mp_argparse varg kw;
  let '(h, s, d) := hsd_values l in
  do c <- convert (units_of (e_setup E) QEnergy) (e_cfg E) 1 (Some "J") None None;
  do c1 <- matter (e_setup E) (e_cfg E) c (mp_mw D) (Some "kg") None None;
  do c2 <- convert (units_of (e_setup E) QTemperature) (e_cfg E) c1 (Some "K") None None;
  do d' <- out_density d;
  Ok (scaled c1 h, scaled c2 s, d', map s_x l).

(* mp1.py 3748-3900: the state dictionary *)
Record mp_state := { o_T : arr; o_p : arr; o_d : arr; o_v : arr; o_x : arr; o_e : arr; o_h : arr;
                     o_s : arr; o_f : arr; o_g : arr; o_cp : arr; o_cv : arr; o_gam : arr }.
(* 3784-3823 (and 3836-3867): p, e, h, s, cp, cv of one element *)
Definition st_calc (all : list (fl * fl)) (T d : fl) : fl * fl * fl * fl * fl * fl :=
  let R := num (mp_R D) in
  let '(t0, d0) := red_ao D T d in
  let '(a, at_, ad, att, atd, add) := ao_at D T d 2 in
  let p := num 1 in
  let e := at_ in
  let h := (num 1 + t0 * at_)%fl in
  let s := (t0 * at_ - a)%fl in
  let cp := (- t0 * t0 * att)%fl in
  let cv := (t0 * t0 * att)%fl in
  let Ts := num (ar_Tscale (mp_AR D)) in
  let '(t1, d1) := red_ar D T d in
  let '(a, at_, ad, att, atd, add) := ar_at D all T d 2 in
  let p := ((p + d1 * ad) * (T * d * R))%fl in
  let e := ((e + at_) * (R * Ts))%fl in
  let h := ((h + (d1 * ad + t1 * at_)) * (R * T))%fl in
  let s := ((s + (t1 * at_ - a)) * R)%fl in
  let temp := (num 1 + d1 * (ad - t1 * atd))%fl in
  let cp := ((cp + (- t1 * t1 * att + temp * temp / (num 1 + d1 * (num 2 * ad + d1 * add)))) * R)%fl in
  let cv := ((cv + t1 * t1 * att) * - R)%fl in
  (p, e, h, s, cp, cv).
Definition st_point (vall lall : list (fl * fl)) (q : point) : fl * fl * fl * fl * fl * fl :=
  let '(p, e, h, s, cp, cv) := st_calc vall (s_T q) (s_d2 q) in
  if s_sat q then
    let '(_, eL, hL, sL, _, _) := st_calc lall (s_T q) (s_d1 q) in
    let x := s_x q in let x' := (num 1 - s_x q)%fl in
    (p, (e * x + eL * x')%fl, (h * x + hL * x')%fl, (s * x + sL * x')%fl, None, None)
  else (p, e, h, s, cp, cv).
Definition state_dict (l : list point) : res mp_state :=
  let vall := map (fun s => (s_T s, s_d2 s)) l in
  let lall := map (fun s => (s_T s, s_d1 s)) (filter s_sat l) in
  let q := map (fun s => (s, st_point vall lall s)) l in
  let pick (g : fl * fl * fl * fl * fl * fl -> fl) := map (fun r => g (snd r)) q in
  let e := pick (fun r => let '(_, e, _, _, _, _) := r in e) in
  let h := pick (fun r => let '(_, _, h, _, _, _) := r in h) in
  let s := pick (fun r => let '(_, _, _, s, _, _) := r in s) in
  let f := map2 (fun es T => (fst es - T * snd es)%fl) (combine e s) (map s_T l) in
  let g := map2 (fun fe h => (fst fe - snd fe + h)%fl) (combine f e) h in
  do c <- convert (units_of (e_setup E) QEnergy) (e_cfg E) 1 (Some "J") None None;
  do c1 <- matter (e_setup E) (e_cfg E) c (mp_mw D) (Some "kg") None (Some (-1)%Z);
  do c2 <- convert (units_of (e_setup E) QTemperature) (e_cfg E) c1 (Some "K") None (Some (-1)%Z);
  do p <- aconvert E QPressure (pick (fun r => let '(p, _, _, _, _, _) := r in p)) (Some "Pa") None None;
  do T <- atscale E (map s_T l) (Some "K") None;
  do k <- convert (units_of (e_setup E) QVolume) (e_cfg E) 1 (Some "m3") None (Some (-1)%Z);
  do k1 <- matter (e_setup E) (e_cfg E) k (mp_mw D) (Some "kg") None None;
  let cp := scaled c2 (pick (fun r => let '(_, _, _, _, cp, _) := r in cp)) in
  let cv := scaled c2 (pick (fun r => let '(_, _, _, _, _, cv) := r in cv)) in
  let d := scaled k1 (map mix_density l) in
  Ok {| o_T := T; o_p := p; o_d := d; o_v := map reciprocal d; o_x := map s_x l;
        o_e := scaled c1 e; o_h := scaled c1 h; o_s := scaled c2 s; o_f := scaled c1 f; o_g := scaled c1 g;
        o_cp := cp; o_cv := cv;
        o_gam := map2 (fun s r => if s_sat s then None else r) l (map2 fdiv cp cv) |}.
Definition mm_state (varg : list arr) (kw : kwargs) : res mp_state :=
  do l <- mp_argparse varg kw; state_dict l.

(* mp1.py 4394-4458: the deprecated wrappers.  The last case of T_s and T_h passes
   config['def_p'] without converting it and ignores quality. *)
Definition mm_T_s (s : arr) (p d : option arr) : res (arr * arr) :=
  match p, d with
  | Some p, _ => mm_T [] [("s", s); ("p", p)]
  | None, Some d => mm_T [] [("s", s); ("d", d)]
  | None, None => mm_T [] [("s", s); ("p", [Some (e_defp E)])]
  end.
Definition mm_d_s (s : arr) (T : option arr) : res (arr * arr) :=
  match T with
  | Some T => mm_d [] [("s", s); ("T", T)]
  | None => mm_d [] [("s", s)]
  end.
Definition mm_T_h (h : arr) (p d : option arr) : res (arr * arr) :=
  match p, d with
  | Some p, _ => mm_T [] [("h", h); ("p", p)]
  | None, Some d => mm_T [] [("h", h); ("d", d)]
  | None, None => mm_T [] [("h", h); ("p", [Some (e_defp E)])]
  end.

(* ---- saturation properties ---- *)
Definition outside_sat (lo hi : R) (v : arr) : bool :=
  existsb (fun x => flt x (num lo)) v || existsb (fun x => flt (num hi) x) v.
(* mp1.py 2277-2318 *)
Definition sat_argparse (T p : option arr) : res (list (fl * fl * fl)) :=
  do Ts <- match T, p with
           | _, None =>
               do T <- match T with
                       | Some T => Ok T
                       | None => do t <- def_T (e_cfg E) (e_defT E) (e_defTu E); Ok [Some t]
                       end;
               do T <- atscale E T None (Some "K");
               if outside_sat (mp_Tt D) (mp_Tc D) T then Err PMParamError else Ok T
           | None, Some p =>
               do p <- aconvert E QPressure p None (Some "Pa") None;
               if outside_sat (mp_pt D) (mp_pc D) p then Err PMParamError
               else mp_Ts D (map (fun p => (true, p)) p)
           | Some _, Some _ => Err PMParamError
           end;
  Ok (map (fun T => (T, dsl T, dsv T)) Ts).
(* mp1.py 3386-3415 *)
Definition mm_ps (T : option arr) : res arr :=
  do T <- match T with
          | Some T => Ok T
          | None => do t <- def_T (e_cfg E) (e_defT E) (e_defTu E); Ok [Some t]
          end;
  do T <- atscale E T None (Some "K");
  if outside_sat (mp_Tt D) (mp_Tc D) T then Err PMParamError
  else aconvert E QPressure (map (mp_ps D) T) (Some "Pa") None None.
(* mp1.py 3418-3447 *)
Definition mm_Ts (p : option arr) : res arr :=
  do p <- match p with
          | Some p => Ok p
          | None => do p <- def_p (e_setup E) (e_cfg E) (e_defp E) (e_defpu E); Ok [Some p]
          end;
  do p <- aconvert E QPressure p None (Some "Pa") None;
  if outside_sat (mp_pt D) (mp_pc D) p then Err PMParamError
  else do T <- mp_Ts D (map (fun p => (true, p)) p); atscale E T (Some "K") None.
(* mp1.py 3450-3469: conv = matter(1., from kg) and then volume *)
Definition mm_ds (T p : option arr) : res (arr * arr) :=
  do l <- sat_argparse T p;
  do c <- matter (e_setup E) (e_cfg E) 1 (mp_mw D) (Some "kg") None None;
  do c1 <- convert (units_of (e_setup E) QVolume) (e_cfg E) c (Some "m3") None (Some (-1)%Z);
  Ok (scaled c1 (map (fun e => snd (fst e)) l), scaled c1 (map snd l)).
(* mp1.py 3471-3484 *)
Definition mm_vs (T p : option arr) : res (arr * arr) :=
  do r <- mm_ds T p; Ok (map reciprocal (fst r), map reciprocal (snd r)).
(* mp1.py 3487-3560: es, hs, ss *)
Definition sat_values (f : list (fl * fl) -> inner) (l : list (fl * fl * fl)) : arr * arr :=
  let aL := map fst l in
  let aV := map (fun e => (fst (fst e), snd e)) l in
  (map (fun e => value0 (f aL (fst (fst e)) (snd (fst e)) 0%nat)) l,
   map (fun e => value0 (f aV (fst (fst e)) (snd e) 0%nat)) l).
Definition sat_energy (f : list (fl * fl) -> inner) (T p : option arr) : res (arr * arr) :=
  do l <- sat_argparse T p;
  let '(yL, yV) := sat_values f l in
  do c <- convert (units_of (e_setup E) QEnergy) (e_cfg E) 1 (Some "J") None None;
  do c1 <- matter (e_setup E) (e_cfg E) c (mp_mw D) (Some "kg") None (Some (-1)%Z);
  Ok (scaled c1 yL, scaled c1 yV).
Definition mm_es := sat_energy (mp_e D).
Definition mm_hs := sat_energy (mp_h D).
Definition mm_ss (T p : option arr) : res (arr * arr) :=
  do l <- sat_argparse T p;
  let '(yL, yV) := sat_values (mp_s D) l in
  do c <- convert (units_of (e_setup E) QEnergy) (e_cfg E) 1 (Some "J") None None;
  do c1 <- matter (e_setup E) (e_cfg E) c (mp_mw D) (Some "kg") None (Some (-1)%Z);
  do c2 <- convert (units_of (e_setup E) QTemperature) (e_cfg E) c1 (Some "K") None (Some (-1)%Z);
  Ok (scaled c2 yL, scaled c2 yV).
(* mp1.py 3341-3367 *)
Definition mm_critical : res (arr * arr * arr) :=
  do T <- atscale E [Some (mp_Tc D)] (Some "K") None;
  do p <- aconvert E QPressure [Some (mp_pc D)] (Some "Pa") None None;
  do d <- out_density [Some (mp_dc D)];
  Ok (T, p, d).
(* mp1.py 3370-3380 *)
Definition mm_triple : res (arr * arr) :=
  do T <- atscale E [Some (mp_Tt D)] (Some "K") None;
  do p <- aconvert E QPressure [Some (mp_pt D)] (Some "Pa") None None;
  Ok (T, p).
(* mp1.py 3271-3296 *)
Definition mm_Tlim : res arr :=
  atscale E [Some (fst (mp_Tlim D)); Some (snd (mp_Tlim D))] (Some "K") None.
Definition mm_plim : res arr :=
  aconvert E QPressure [Some (fst (mp_plim D)); Some (snd (mp_plim D))] (Some "Pa") None None.
End Calls.

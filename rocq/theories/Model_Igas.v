(* Model of the two single-species ideal gas classes, src/pyromat/registry/ig.py and
   ig2.py.  Apart from the property formulas and the reference pressure the two files
   contain the same code, so it is modelled once; line numbers are those of ig.py with
   those of ig2.py in brackets. *)
From Coq Require Import Reals ZArith List String.
From Verif Require Export Model_Num Model_Units Model_Defaults.
Import ListNotations.
Local Open Scope R_scope.
Local Open Scope string_scope.
Local Open Scope list_scope.

(* What the code reads from the session: units.setup(), pm.config unit entries, the
   default state (utility.py 219-223) and def_oob. *)
Record env := {
  e_setup : setup_args; e_cfg : ucfg;
  e_defT : R; e_defTu : string; e_defp : R; e_defpu : string;
  e_oob : fl }.

(* self.data of a species; ig.py 65 fixes pref = 1e5 *)
Record igdata := { d_Tlim : list R; d_C : list (list R); d_mw : R; d_pref : R }.

(* A species: its data and the inner routines of its class.  A routine called with
   diff=True returns the value and the temperature derivative; with diff=False the same
   value (the derivative is then None in the code and ignored here). *)
Record gas := {
  g_Tlim : list R; g_mw : R; g_pref : R;
  g_cp : fl -> fl; g_h : fl -> fl * fl; g_s : fl -> fl * fl; g_g : fl -> fl * fl }.

(* ig.py 300-316 [ig2.py 286-302] *)
Definition crange (Tlim : list R) (T : fl) (index : nat) : bool :=
  let lo := Some (nth index Tlim 0) in
  let hi := Some (nth (S index) Tlim 0) in
  if Nat.eqb index (List.length Tlim - 2)
  then andb (fle lo T) (fle T hi)
  else andb (fle lo T) (flt T hi).

(* The loop `for ii in range(len(Tlim)-1): out[I] = formula(C[ii], T[I])`, started from
   out = def_oob (e.g. ig.py 433-441).  C[ii] is total here (Python raises IndexError when
   it is missing); the theorems assume len(Tlim) = len(C)+1, which ig._test checks. *)
Definition piecewise (Tlim : list R) (C : list (list R)) (oob : fl)
  (formula : list R -> R -> fl) (T : fl) : fl :=
  fold_left (fun out ii =>
    if crange Tlim T ii
    then match T with Some x => formula (nth ii C []) x | None => out end
    else out)
    (seq 0 (List.length Tlim - 1)) oob.

Definition cf (C : list R) (i : nat) : R := nth i C 0.   (* C[i] *)

(* ---- Shomate formulas, ig.py 427-555 ---- *)
Definition nonzero (t : R) (v : R) : fl := if Req_EM_T t 0 then None else Some v.
Definition positive (t : R) (v : R) : fl := if Rlt_dec 0 t then Some v else None.

(* ig.py 440-441 *)
Definition sh_cp (C : list R) (T : R) : fl :=
  let t := T / 1000 in
  nonzero t (cf C 0 + t*(cf C 1 + t*(cf C 2 + t*cf C 3)) + cf C 4 / (t*t)).
(* ig.py 464-465 *)
Definition sh_h (C : list R) (T : R) : fl :=
  let t := T / 1000 in
  nonzero t (cf C 5 + t*(cf C 0 + t*(cf C 1/2 + t*(cf C 2/3 + t*cf C 3/4))) - cf C 4/t).
(* ig.py 466-467 *)
Definition sh_hT (C : list R) (T : R) : fl :=
  let t := T / 1000 in
  nonzero t (cf C 0 + t*(cf C 1 + t*(cf C 2 + t*cf C 3)) + cf C 4/(t*t)).
(* ig.py 506-507 *)
Definition sh_s (C : list R) (T : R) : fl :=
  let t := T / 1000 in
  positive t (cf C 6 + cf C 0*ln t + t*(cf C 1 + t*(cf C 2/2 + t*cf C 3/3)) - cf C 4 / (2*t*t)).
(* ig.py 508-511 *)
Definition sh_sT (C : list R) (T : R) : fl :=
  let t := T / 1000 in
  nonzero t ((cf C 0/t + cf C 1 + t*(cf C 2 + t*cf C 3) + cf C 4/(t*t*t)) / 1000).
(* ig.py 534-536 *)
Definition sh_g (C : list R) (T : R) : fl :=
  let t := T / 1000 in
  let logt := ln t in
  positive t (cf C 5 - cf C 0*t*logt
    + t*(cf C 0-cf C 6 + t*(-(5/10)*cf C 1 + t*(-(1/6)*cf C 2 + t*(-(1/12)*cf C 3))))
    - 5/10*cf C 4/t).
(* ig.py 537-538 *)
Definition sh_gT (C : list R) (T : R) : fl :=
  let t := T / 1000 in
  let logt := ln t in
  positive t (-cf C 0*(logt+1) + cf C 0-cf C 6
    + t*(-cf C 1 + t*(-(5/10)*cf C 2 + t*(-(1/3)*cf C 3))) + 5/10*cf C 4/t/t).

(* ig.py 427-555: the inner routines; `out *= 1000.` (469, 539) also scales def_oob *)
Definition ig_gas (oob : fl) (D : igdata) : gas :=
  let pw := piecewise (d_Tlim D) (d_C D) oob in
  {| g_Tlim := d_Tlim D; g_mw := d_mw D; g_pref := d_pref D;
     g_cp := pw sh_cp;
     g_h := fun T => (fmul (pw sh_h T) (Some 1000), pw sh_hT T);
     g_s := fun T => (pw sh_s T, pw sh_sT T);
     g_g := fun T => (fmul (pw sh_g T) (Some 1000), pw sh_gT T) |}.

(* ---- NASA polynomials, ig2.py 734-885 ---- *)
(* ig2.py 745-747: Horner over C[4::-1] *)
Definition na_cp (C : list R) (T : R) : fl :=
  Some (fold_left (fun out c => c + out*T) (rev (firstn 5 C)) 0).

(* ig2.py 769-779: loop state (out, dh, term) *)
Definition na_hloop (C : list R) (T : R) : R * R * R :=
  fold_left (fun st c =>
    match st with (out, dh, term) =>
      let temp := c / term + out in
      (T * temp, temp + T * dh, term - 1)
    end) (rev (firstn 5 C)) (0, 0, 5).
Definition na_h (C : list R) (T : R) : fl :=
  Some (match na_hloop C T with (out, _, _) => out + cf C 5 end).
Definition na_hT (C : list R) (T : R) : fl :=
  Some (match na_hloop C T with (_, dh, _) => dh end).

(* ig2.py 804-810 *)
Definition na_g (C : list R) (T : R) : fl :=
  let logt := ln T in
  positive T (-cf C 0*T*logt + cf C 5 + T*(cf C 0-cf C 6 + T*(-(5/10)*cf C 1
    + T*(-(1/6)*cf C 2 + T*(-(1/12)*cf C 3 + T*(-(5/100)*cf C 4)))))).
Definition na_gT (C : list R) (T : R) : fl :=
  let logt := ln T in
  positive T (-cf C 0*(1+logt) + cf C 0-cf C 6 + T*(-cf C 1 + T*(-(5/10)*cf C 2
    + T*(-(1/3)*cf C 3 + T*(-(25/100)*cf C 4))))).

(* ig2.py 865-879: loop state (out, sT, term) over C[4:0:-1] *)
Definition na_sloop (C : list R) (T : R) : R * R * R :=
  fold_left (fun st c =>
    match st with (out, sT, term) =>
      (c / term + T * out, out + T * sT, term - 1)
    end) (rev (skipn 1 (firstn 5 C))) (0, 0, 4).
Definition na_s (C : list R) (T : R) : fl :=
  positive T (match na_sloop C T with (out, _, _) => T*out + cf C 6 + cf C 0 * ln T end).
Definition na_sT (C : list R) (T : R) : fl :=
  nonzero T (match na_sloop C T with (out, sT, _) => out + T*sT + cf C 0 / T end).

(* ig2.py 734-885: the inner routines, scaled by the gas constant *)
Definition ig2_gas (oob : fl) (D : igdata) : gas :=
  let pw := piecewise (d_Tlim D) (d_C D) oob in
  let Ru := Some const_Ru in
  {| g_Tlim := d_Tlim D; g_mw := d_mw D; g_pref := d_pref D;
     g_cp := fun T => fmul Ru (pw na_cp T);
     g_h := fun T => (fmul Ru (pw na_h T), fmul Ru (pw na_hT T));
     g_s := fun T => (fmul Ru (pw na_s T), fmul Ru (pw na_sT T));
     g_g := fun T => (fmul Ru (pw na_g T), fmul Ru (pw na_gT T)) |}.

(* ig.py 472-485 [ig2.py 814-828] *)
Definition g_e (g : gas) (T : fl) : fl * fl :=
  let (h, hT) := g_h g T in
  (fsub h (fmul (Some const_Ru) T), fsub hT (Some const_Ru)).
(* ig.py 542-555 [ig2.py 830-844] *)
Definition g_f (g : gas) (T : fl) : fl * fl :=
  let (v, gT) := g_g g T in
  (fsub v (fmul (Some const_Ru) T), fsub gT (Some const_Ru)).

(* R = 1000 * const_Ru, J/kmol/K (ig.py 222) *)
Definition R1000 : R := 1000 * const_Ru.

(* ig.py 415-423 [ig2.py 724-732] *)
Definition sditer (g : gas) (d : fl) (T : fl) : fl * fl :=
  let (s, sT) := g_s g T in
  (fsub s (fmul (Some const_Ru)
     (flog (fdiv (fmul (fmul d (Some R1000)) T) (Some (g_pref g))))),
   fsub sT (fdiv (Some const_Ru) T)).

(* ---- _iter1, ig.py 319-413 [ig2.py 631-722] ----
   The parallel arrays y, x, dx, error, Ids are one list of cells; the property being
   inverted is given per element because its array parameters are per element. *)
Record cell := {
  c_fn : fl -> fl * fl;      (* fn(x) = value, derivative *)
  c_y : fl; c_x : fl; c_dx : fl; c_err : fl; c_on : bool (* Ids *) }.

(* ig.py 372-391: one Newton step of the elements still under iteration *)
Definition newton (c : cell) : cell :=
  if c_on c then
    let (yy, yyx) := c_fn c (c_x c) in
    let err := fsub (c_y c) yy in
    let dx := fdiv err yyx in
    {| c_fn := c_fn c; c_y := c_y c; c_x := fadd (c_x c) dx; c_dx := dx; c_err := err;
       c_on := true |}
  else c.

(* ig.py 393, 398 *)
Definition outside (xmin xmax : R) (c : cell) : bool :=
  orb (flt (c_x c) (Some xmin)) (flt (Some xmax) (c_x c)).

(* ig.py 396-397 *)
Definition halve (xmin xmax : R) (c : cell) : cell :=
  if outside xmin xmax c then
    let dx := fdiv (c_dx c) (Some 2) in
    {| c_fn := c_fn c; c_y := c_y c; c_x := fsub (c_x c) dx; c_dx := dx;
       c_err := c_err c; c_on := c_on c |}
  else c.

(* ig.py 393-403: `left` is Nmax - count_oob *)
Fixpoint oob_loop (xmin xmax : R) (left : nat) (cs : list cell) : res (list cell) :=
  if existsb (outside xmin xmax) cs then
    let cs' := map (halve xmin xmax) cs in
    match left with
    | O => Err PMAnalysisError
    | S left' => oob_loop xmin xmax left' cs'
    end
  else Ok cs.

(* ig.py 405-406: Ids[Ids] = abs(error[Ids]) > abs(ep*y[Ids]) *)
Definition check (ep : R) (c : cell) : cell :=
  if c_on c then
    {| c_fn := c_fn c; c_y := c_y c; c_x := c_x c; c_dx := c_dx c; c_err := c_err c;
       c_on := flt (fabs (fmul (Some ep) (c_y c))) (fabs (c_err c)) |}
  else c.

(* ig.py 371-413: `left` is Nmax - count; the boolean is True when the loop was abandoned
   with a warning (409-413) *)
Fixpoint iter_loop (ep xmin xmax : R) (Nmax left : nat) (cs : list cell)
  : res (list cell * bool) :=
  if existsb c_on cs then
    do cs1 <- oob_loop xmin xmax Nmax (map newton cs);
    let cs2 := map (check ep) cs1 in
    match left with
    | O => Ok (cs2, true)
    | S left' => iter_loop ep xmin xmax Nmax left' cs2
    end
  else Ok (cs, false).

(* ig.py 319-413 called with the defaults ep=1e-6, Nmax=20, from the middle of the range
   and with every element selected (e.g. ig.py 198-201).  Returns the array x. *)
Definition start (xmin xmax : R) (fn : fl -> fl * fl) (y : fl) : cell :=
  {| c_fn := fn; c_y := y; c_x := Some (5/10 * (xmin + xmax)); c_dx := Some 0;
     c_err := Some 0; c_on := true |}.
Definition ep_default : R := p10 (-6).
(* the array x and whether the warning "failed to converge" was printed *)
Definition iter1_full (xmin xmax : R) (fns : list (fl -> fl * fl)) (ys : arr) : res (arr * bool) :=
  do r <- iter_loop ep_default xmin xmax 20 20 (map2 (start xmin xmax) fns ys);
  Ok (map c_x (fst r), snd r).
Definition iter1 (xmin xmax : R) (fns : list (fl -> fl * fl)) (ys : arr) : res arr :=
  do r <- iter1_full xmin xmax fns ys; Ok (fst r).

(* ---- unit conversion of arrays ---- *)
(* Conversion.__call__ on an array: every element is multiplied by the factor, the
   result of converting 1 (units.py 145-156) *)
Definition aconvert (E : env) (q : quantity) (v : arr) (f t : option string) (e : option Z)
  : res arr :=
  do k <- convert (units_of (e_setup E) q) (e_cfg E) 1 f t e;
  Ok (map (fmul (Some k)) v).
Definition amatter (E : env) (v : arr) (mw : R) (f t : option string) (e : option Z)
  : res arr :=
  do k <- matter (e_setup E) (e_cfg E) 1 mw f t e;
  Ok (map (fmul (Some k)) v).
(* units.py 440-514 on an array *)
Definition atscale (E : env) (v : arr) (f t : option string) : res arr :=
  do _ <- temperature_scale (e_cfg E) 0 f t;
  Ok (map (fun x => match x with
                    | Some r => match temperature_scale (e_cfg E) r f t with
                                | Ok y => Some y | Err _ => None end
                    | None => None end) v).

Definition Tlow (g : gas) : R := nth 0 (g_Tlim g) 0.
Definition Thigh (g : gas) : R := last (g_Tlim g) 0.

(* ---- argument handling, ig.py 70-298 [ig2.py 55-283] ---- *)
(* Python passes keyword arguments with distinct names. *)
Definition kwargs := list (string * arr).

(* ig.py 107-117: positional arguments *)
Definition positional (varg : list arr) (kw : kwargs) : res kwargs :=
  do kw <- match varg with
           | [] => Ok kw
           | a :: _ => if dmem "T" kw then Err PMParamError else Ok (dset "T" a kw)
           end;
  do kw <- match varg with
           | _ :: b :: _ => if dmem "p" kw then Err PMParamError else Ok (dset "p" b kw)
           | _ => Ok kw
           end;
  if Nat.ltb 2 (List.length varg) then Err PMParamError else Ok kw.

(* ig.py 119-130: defaults *)
Definition defaults (E : env) (kw : kwargs) : res kwargs :=
  let dT := def_T (e_cfg E) (e_defT E) (e_defTu E) in
  let dp := def_p (e_setup E) (e_cfg E) (e_defp E) (e_defpu E) in
  match List.length kw with
  | 1%nat => if dmem "T" kw
             then do p <- dp; Ok (dset "p" [Some p] kw)
             else do t <- dT; Ok (dset "T" [Some t] kw)
  | 0%nat => do t <- dT; do p <- dp; Ok (dset "p" [Some p] (dset "T" [Some t] kw))
  | _ => Ok kw
  end.

(* ig.py 136 *)
Definition legal_args : list string := ["T"; "p"; "d"; "v"; "e"; "h"; "s"].

(* ig.py 132-165 *)
Definition rules (kw : kwargs) : res unit :=
  if Nat.ltb 2 (List.length kw) then Err PMParamError
  else if existsb (fun k => negb (existsb (String.eqb k) legal_args)) (dkeys kw)
  then Err PMParamError
  else if Nat.ltb 1 (List.length (filter (fun k => dmem k kw) ["T"; "e"; "h"]))
  then Err PMParamError
  else if andb (dmem "v" kw) (dmem "d" kw) then Err PMParamError
  else Ok tt.

Definition ores {A B} (o : option A) (f : A -> res B) : res (option B) :=
  match o with Some a => do b <- f a; Ok (Some b) | None => Ok None end.

Definition reciprocal (a : fl) : fl := fdiv (Some 1) a.

(* ig.py 193-212, for h and for e: conversion to kJ/kmol and inversion for T *)
Definition invert (g : gas) (E : env) (fn : fl -> fl * fl) (value : arr) : res arr :=
  do v1 <- aconvert E QEnergy value None (Some "kJ") None;
  do v2 <- amatter E v1 (g_mw g) None (Some "kmol") (Some (-1)%Z);
  iter1 (Tlow g) (Thigh g) (map (fun _ => fn) v2) v2.

(* ig.py 181-287: unit conversion, equivalent arguments, and the state *)
Definition solve_state (g : gas) (E : env) (kw : kwargs) : res (arr * option arr * option arr) :=
  (* ig.py 182-219 *)
  do T <- ores (dget "T" kw) (fun v => atscale E v None (Some "K"));
  do p <- ores (dget "p" kw) (fun v => aconvert E QPressure v None (Some "Pa") None);
  do d <- ores (dget "d" kw) (fun v =>
    do v1 <- aconvert E QVolume v None (Some "m3") (Some (-1)%Z);
    amatter E v1 (g_mw g) None (Some "kmol") None);
  do dv <- ores (dget "v" kw) (fun v =>
    do v1 <- aconvert E QVolume v None (Some "m3") None;
    do v2 <- amatter E v1 (g_mw g) None (Some "kmol") (Some (-1)%Z);
    Ok (map reciprocal v2));
  let d := match dv with Some x => Some x | None => d end in
  do Th <- ores (dget "h" kw) (invert g E (g_h g));
  let T := match Th with Some x => Some x | None => T end in
  do Te <- ores (dget "e" kw) (invert g E (g_e g));
  let T := match Te with Some x => Some x | None => T end in
  do s <- ores (dget "s" kw) (fun v =>
    do v1 <- aconvert E QEnergy v None (Some "kJ") None;
    do v2 <- amatter E v1 (g_mw g) None (Some "kmol") (Some (-1)%Z);
    aconvert E QTemperature v2 None (Some "K") (Some (-1)%Z));
  let lo := Tlow g in let hi := Thigh g in
  match s, T, p, d with
  (* ig.py 228-234: entropy and density *)
  | Some s, _, _, Some d =>
      do b <- broadcast s d;
      match b with (s, d, _, _) =>
        do T <- iter1 lo hi (map (sditer g) d) s;
        Ok (T, None, Some d)
      end
  (* ig.py 236-245: entropy and pressure *)
  | Some s, _, Some p, None =>
      do b <- broadcast s p;
      match b with (s, p, shared, _) =>
        let s := inplace_add shared s
                   (map (fun x => fmul (Some const_Ru) (flog (fdiv x (Some (g_pref g))))) p) in
        do T <- iter1 lo hi (map (fun _ => g_s g) s) s;
        Ok (T, Some p, None)
      end
  (* ig.py 246-251: entropy and temperature *)
  | Some s, Some T, None, None =>
      do b <- broadcast s T;
      match b with (s, T, _, _) =>
        let p := map2 (fun s T =>
          fmul (Some (g_pref g))
               (fexp (fdiv (fsub (fst (g_s g T)) s) (Some const_Ru)))) s T in
        Ok (T, Some p, None)
      end
  | Some _, None, None, None => Err PMParamError          (* ig.py 253-254 *)
  (* ig.py 256-269 *)
  | None, Some T, Some p, _ =>
      do b <- broadcast T p;
      match b with (T, p, _, _) => Ok (T, Some p, None) end
  | None, Some T, None, Some d =>
      do b <- broadcast T d;
      match b with (T, d, _, _) => Ok (T, None, Some d) end
  | None, Some _, None, None => Err PMParamError          (* "report a bug: [T]" *)
  (* ig.py 270-280 *)
  | None, None, Some p, Some d =>
      do b <- broadcast p d;
      match b with (p, d, _, _) =>
        Ok (map2 (fun p d => fdiv p (fmul (Some R1000) d)) p d, Some p, Some d)
      end
  | None, None, Some _, None => Err PMParamError          (* "report a bug: [p]" *)
  | None, None, None, _ => Err PMParamError               (* "report a bug: [MASTER]" *)
  end.

(* ig.py 290: outside the validity range; a nan is not outside *)
Definition out_of_range (g : gas) (T : fl) : bool :=
  orb (flt T (Some (Tlow g))) (flt (Some (Thigh g)) T).

(* ig.py 289-297 *)
Definition bounds (g : gas) (E : env) (T : arr) : res arr :=
  if forallb (out_of_range g) T then Err PMParamError
  else Ok (map (fun t => if out_of_range g t then e_oob E else t) T).

(* ig.py 70-298 [ig2.py 55-283] *)
Definition argparse (g : gas) (E : env) (varg : list arr) (kw : kwargs)
  : res (arr * option arr * option arr) :=
  do kw1 <- positional varg kw;
  do kw2 <- defaults E kw1;
  do _ <- rules kw2;
  do st <- solve_state g E kw2;
  match st with (T, p, d) =>
    do T' <- bounds g E T;
    Ok (T', p, d)
  end.

(* ---- property methods ---- *)
(* p = d * 1000 Ru * T when only the density is known (ig.py 1533-1534) *)
Definition p_of (T d : arr) : arr := map2 (fun d T => fmul (fmul d (Some R1000)) T) d T.
(* d = p / (1000 Ru * T) (ig.py 1451) *)
Definition d_of (T p : arr) : arr := map2 (fun p T => fdiv p (fmul (Some R1000) T)) p T.

(* the pressure of the state returned by _argparse, which gives p, d or both *)
Definition the_p (T : arr) (p d : option arr) : arr :=
  match p, d with
  | Some p, _ => p
  | None, Some d => p_of T d
  | None, None => []          (* never: _argparse returns p or d *)
  end.
Definition the_d (T : arr) (p d : option arr) : arr :=
  match d, p with
  | Some d, _ => d
  | None, Some p => d_of T p
  | None, None => []
  end.

Definition state_of := (arr * option arr * option arr)%type.

(* scale factors computed by converting the number 1 *)
(* ig.py 1453-1454 *)
Definition scale_density (g : gas) (E : env) : res R :=
  do k <- matter (e_setup E) (e_cfg E) 1 (g_mw g) (Some "kmol") None None;
  convert (units_of (e_setup E) QVolume) (e_cfg E) k (Some "m3") None (Some (-1)%Z).
(* ig.py 1677-1678 *)
Definition scale_energy (g : gas) (E : env) : res R :=
  do k <- convert (units_of (e_setup E) QEnergy) (e_cfg E) 1 (Some "kJ") None None;
  matter (e_setup E) (e_cfg E) k (g_mw g) (Some "kmol") None (Some (-1)%Z).
(* ig.py 1814-1815: e() uses J and mol *)
Definition scale_energy_e (g : gas) (E : env) : res R :=
  do k <- convert (units_of (e_setup E) QEnergy) (e_cfg E) 1 (Some "J") None None;
  matter (e_setup E) (e_cfg E) k (g_mw g) (Some "mol") None (Some (-1)%Z).
(* ig.py 1613-1615 *)
Definition scale_heat (g : gas) (E : env) : res R :=
  do k <- convert (units_of (e_setup E) QEnergy) (e_cfg E) 1 (Some "kJ") None None;
  do k2 <- convert (units_of (e_setup E) QTemperature) (e_cfg E) k (Some "K") None (Some (-1)%Z);
  matter (e_setup E) (e_cfg E) k2 (g_mw g) (Some "kmol") None (Some (-1)%Z).

Definition scaled (k : R) (v : arr) : arr := map (fun x => fmul x (Some k)) v.

(* ig.py 1429-1456 [ig2.py 904-931] *)
Definition m_d (g : gas) (E : env) (varg : list arr) (kw : kwargs) : res arr :=
  do st <- argparse g E varg kw;
  match st with (T, p, d) =>
    do k <- scale_density g E;
    Ok (scaled k (the_d T p d))
  end.

(* ig.py 1458-1479 [ig2.py 933-954] *)
Definition m_v (g : gas) (E : env) (varg : list arr) (kw : kwargs) : res arr :=
  do d <- m_d g E varg kw;
  Ok (map reciprocal d).

(* ig.py 1481-1510 [ig2.py 956-985].  With one argument the configured number def_p is
   inserted as it stands. *)
Definition m_T (g : gas) (E : env) (varg : list arr) (kw : kwargs) : res arr :=
  let kw := if Nat.eqb (List.length varg + List.length kw) 1
            then dset "p" [Some (e_defp E)] kw else kw in
  do st <- argparse g E varg kw;
  match st with (T, _, _) => atscale E T (Some "K") None end.

(* ig.py 1512-1537 [ig2.py 987-1012] *)
Definition m_p (g : gas) (E : env) (varg : list arr) (kw : kwargs) : res arr :=
  do st <- argparse g E varg kw;
  match st with (T, p, d) =>
    aconvert E QPressure (the_p T p d) (Some "Pa") None None
  end.

(* ig.py 1539-1548 [ig2.py 1014-1023] *)
Definition m_mw (g : gas) (E : env) : res R :=
  do m <- convert (units_of (e_setup E) QMass) (e_cfg E) (g_mw g) (Some "g") None None;
  convert (units_of (e_setup E) QMolar) (e_cfg E) m (Some "mol") None (Some (-1)%Z).

(* ig.py 1550-1560 [ig2.py 1025-1035] *)
Definition m_R (g : gas) (E : env) : res R :=
  do r1 <- convert (units_of (e_setup E) QEnergy) (e_cfg E) const_Ru (Some "J") None None;
  do r2 <- convert (units_of (e_setup E) QTemperature) (e_cfg E) r1 (Some "K") None (Some (-1)%Z);
  matter (e_setup E) (e_cfg E) r2 (g_mw g) (Some "mol") None (Some (-1)%Z).

(* ig.py 1413-1425 [ig2.py 889-901] *)
Definition m_Tlim (g : gas) (E : env) : res (R * R) :=
  do lo <- temperature_scale (e_cfg E) (Tlow g) (Some "K") None;
  do hi <- temperature_scale (e_cfg E) (Thigh g) (Some "K") None;
  Ok (lo, hi).

(* ig.py 1562-1586 [ig2.py 1037-1061] *)
Definition m_gam (g : gas) (E : env) (varg : list arr) (kw : kwargs) : res arr :=
  do st <- argparse g E varg kw;
  match st with (T, _, _) =>
    Ok (map (fun t => let cp := g_cp g t in fdiv cp (fsub cp (Some const_Ru))) T)
  end.

(* ig.py 1588-1618 [ig2.py 1063-1093] *)
Definition m_cp (g : gas) (E : env) (varg : list arr) (kw : kwargs) : res arr :=
  do st <- argparse g E varg kw;
  match st with (T, _, _) =>
    do k <- scale_heat g E; Ok (scaled k (map (g_cp g) T))
  end.

(* ig.py 1620-1650 [ig2.py 1095-1125] *)
Definition m_cv (g : gas) (E : env) (varg : list arr) (kw : kwargs) : res arr :=
  do st <- argparse g E varg kw;
  match st with (T, _, _) =>
    do k <- scale_heat g E;
    Ok (scaled k (map (fun t => fsub (g_cp g t) (Some const_Ru)) T))
  end.

(* ig.py 1652-1681 [ig2.py 1127-1156] *)
Definition m_h (g : gas) (E : env) (varg : list arr) (kw : kwargs) : res arr :=
  do st <- argparse g E varg kw;
  match st with (T, _, _) =>
    do k <- scale_energy g E; Ok (scaled k (map (fun t => fst (g_h g t)) T))
  end.

(* Ru * log(p / pref), ig.py 1710, 1746, 1780 *)
Definition log_p (g : gas) (p : fl) : fl := flog (fdiv p (Some (g_pref g))).

(* ig.py 1683-1717 [ig2.py 1224-1255] *)
Definition m_g (g : gas) (E : env) (varg : list arr) (kw : kwargs) : res arr :=
  do st <- argparse g E varg kw;
  match st with (T, p, d) =>
    do k <- scale_energy g E;
    Ok (scaled k (map2 (fun t p =>
      fadd (fst (g_g g t)) (fmul (fmul t (Some const_Ru)) (log_p g p))) T (the_p T p d)))
  end.

(* ig.py 1719-1753 [ig2.py 1257-1288] *)
Definition m_f (g : gas) (E : env) (varg : list arr) (kw : kwargs) : res arr :=
  do st <- argparse g E varg kw;
  match st with (T, p, d) =>
    do k <- scale_energy g E;
    Ok (scaled k (map2 (fun t p =>
      fadd (fst (g_f g t)) (fmul (fmul t (Some const_Ru)) (log_p g p))) T (the_p T p d)))
  end.

(* ig.py 1755-1787 [ig2.py 1158-1191] *)
Definition m_s (g : gas) (E : env) (varg : list arr) (kw : kwargs) : res arr :=
  do st <- argparse g E varg kw;
  match st with (T, p, d) =>
    do k <- scale_heat g E;
    Ok (scaled k (map2 (fun t p =>
      fsub (fst (g_s g t)) (fmul (Some const_Ru) (log_p g p))) T (the_p T p d)))
  end.

(* ig.py 1789-1818 [ig2.py 1193-1222] *)
Definition m_e (g : gas) (E : env) (varg : list arr) (kw : kwargs) : res arr :=
  do st <- argparse g E varg kw;
  match st with (T, _, _) =>
    do k <- scale_energy_e g E;
    Ok (scaled k (map (fun t => fsub (fst (g_h g t)) (fmul (Some const_Ru) t)) T))
  end.

(* ig.py 1820-1874 [ig2.py 1290-1343]; the dictionary as a list *)
Definition m_state (g : gas) (E : env) (varg : list arr) (kw : kwargs)
  : res (list (string * arr)) :=
  do st <- argparse g E varg kw;
  match st with (T, p, d) =>
    let dd := the_d T p d in
    let pp := the_p T p d in
    let s := map2 (fun t p => fsub (fst (g_s g t)) (fmul (Some const_Ru) (log_p g p))) T pp in
    let h := map (fun t => fst (g_h g t)) T in
    let cp := map (fun t => snd (g_h g t)) T in
    let cv := map (fun c => fsub c (Some const_Ru)) cp in
    let gam := map2 fdiv cp cv in
    let e := map2 (fun h t => fsub h (fmul (Some const_Ru) t)) h T in
    do oT <- atscale E T (Some "K") None;
    do op <- aconvert E QPressure pp (Some "Pa") None None;
    do kd <- scale_density g E;
    let od := scaled kd dd in
    do ke <- scale_energy g E;
    do ks <- convert (units_of (e_setup E) QTemperature) (e_cfg E) ke (Some "K") None (Some (-1)%Z);
    Ok [("T", oT); ("p", op); ("d", od); ("v", map reciprocal od);
        ("h", scaled ke h); ("e", scaled ke e); ("gam", gam);
        ("s", scaled ks s); ("cp", scaled ks cp); ("cv", scaled ks cv)]
  end.

(* ig.py 1876-1935 [ig2.py 1345-1403]: deprecated wrappers; an omitted argument is None *)
Definition m_T_s (g : gas) (E : env) (s : arr) (p d : option arr) : res arr :=
  match p, d with
  | Some p, _ => m_T g E [] [("s", s); ("p", p)]
  | None, Some d => m_T g E [] [("s", s); ("d", d)]
  | None, None => m_T g E [] [("s", s)]
  end.
Definition m_T_h (g : gas) (E : env) (h : arr) (p d : option arr) : res arr :=
  match p, d with
  | Some p, _ => m_T g E [] [("h", h); ("p", p)]
  | None, Some d => m_T g E [] [("h", h); ("d", d)]
  | None, None => m_T g E [] [("h", h)]
  end.
Definition m_p_s (g : gas) (E : env) (s : arr) (T : option arr) : res arr :=
  match T with
  | Some T => m_p g E [] [("s", s); ("T", T)]
  | None => m_p g E [] [("s", s)]
  end.

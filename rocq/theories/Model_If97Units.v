(* Model of the public methods of the IAPWS-IF97 steam class as they are called, with arrays and
   in the configured units: src/pyromat/registry/if97.py 796-2278.  The arithmetic on one element
   is that of Model_If97; T_s and its polynomials (233-243, 309-343, 2141-2278) are added here.

   Arrays are lists of their elements (Model_Igas); shapes beyond that, the docstrings and
   the warning above 623.15 K (print_warning, e.g. 1031-1033) are left out.  Several products are written with
   their factors in another order than in the code. *)
From Coq Require Import Reals ZArith List Bool String.
From Verif Require Export Model_If97 Model_Mp1Inv Model_Mp1Calls.
Import ListNotations.
Local Open Scope R_scope.
Local Open Scope string_scope.
Local Open Scope list_scope.

(* ---- the polynomials for the entropy ---- *)
(* data['ts1'], data['ts2a'], data['ts2b'], data['ts2c'] *)
Record ifback := { if_ts1 : list term; if_ts2a : list term; if_ts2b : list term; if_ts2c : list term }.
(* if97.py 233-243, 309-343 *)
Definition ts1 (B : ifback) (s p : fl) : res fl := backward (if_ts1 B) (p / num 10)%fl (s + num 2)%fl.
Definition ts2a (B : ifback) (s p : fl) : res fl := backward (if_ts2a B) (fpow (p / num 10)%fl (1/4)) (s / num 2 - num 2)%fl.
Definition ts2b (B : ifback) (s p : fl) : res fl := backward (if_ts2b B) (p / num 10)%fl (num 10 - s / num (7853/10000))%fl.
Definition ts2c (B : ifback) (s p : fl) : res fl := backward (if_ts2c B) (p / num 10)%fl (num 2 - s / num (29251/10000))%fl.

(* if97.py 2194-2272, one element; s in kJ/kg/K and p in bar.  self_Ts and self_s are the public
   methods Ts(p) and s(T,p), called with these numbers. *)
Section Ts.
Variables (D : ifdata) (B : ifback) (self_Ts : fl -> res fl) (self_s : fl -> fl -> res fl).
Definition sat_entropy (g : ifdata -> fl -> fl -> nat -> res energies) (T p : fl) : res fl :=
  do e <- g D T p 1%nat; Ok (s_g D T p e).
(* 2216-2223, 2234-2241, 2263-2271 *)
Definition T_s5 (s p s25 : fl) : res (fl * fl) :=
  let T25 := num (107315/100) in
  let T5max := num (227315/100) in
  do s5 <- self_s T5max p;
  if flt s5 s then Err PMParamError
  else
    do T <- ts5 D s p (T25 + (T5max - T25) * (s - s25) / (s5 - s25))%fl;
    Ok (T, num (-1)).
Definition T_s (s p : fl) : res (fl * fl) :=
  let T13 := num (62315/100) in
  let T25 := num (107315/100) in
  let plain r := do T <- r; Ok (T, num (-1)) in
  if flt p (num (165292/1000)) then
    do Ts <- self_Ts p;
    do sL <- sat_entropy g1 Ts p;
    do sV <- sat_entropy g2 Ts p;
    if flt s sL then plain (ts1 B s p)
    else if flt s sV then Ok (Ts, ((s - sL) / (sV - sL))%fl)
    else if flt p (num 40) then
      do s25 <- self_s T25 p;
      if flt s s25 then plain (ts2a B s p) else T_s5 s p s25
    else if flt s (num (585/100)) then plain (ts2c B s p)
    else
      do s25 <- self_s T25 p;
      if flt s s25 then plain (ts2b B s p) else T_s5 s p s25
  else if fle p (num 1000) then
    do s13 <- self_s T13 p;
    if flt s s13 then plain (ts1 B s p)
    else
      let T23 := b23_p D p in
      do s23 <- self_s T23 p;
      if flt s s23 then plain (ts3 D s p (T13 + (T23 - T13) * (s - s13) / (s23 - s13))%fl (num 500))
      else if flt s (num (585/100)) then plain (ts2c B s p)
      else
        do s25 <- self_s T25 p;
        if flt s s25 then plain (ts2b B s p)
        else if fle p (num 500) then T_s5 s p s25
        else Err PMParamError
  else Err PMParamError.
End Ts.

Section Units.
Variables (D : ifdata) (E : env).
Let mw := if_mw D.
Let to q v u e := convert (units_of (e_setup E) q) (e_cfg E) v None (Some u) e.
Let from q v u e := convert (units_of (e_setup E) q) (e_cfg E) v (Some u) None e.

(* units.py 440-514 on one element *)
Definition escale (x : fl) (f t : option string) : res fl :=
  do l <- atscale E [x] f t; Ok (hd None l).

(* ---- the factors applied to the results ---- *)
(* 1458-1459, 1735-1736 *)
Definition scale_h : res R :=
  do k <- from QEnergy 1 "kJ" None;
  matter (e_setup E) (e_cfg E) k mw (Some "kg") None (Some (-1)%Z).
(* 1642-1644, and 1365-1366 in hsd: the temperature without the exponent *)
Definition scale_s : res R := do k <- scale_h; from QTemperature k "K" None.
(* 1828-1830, 1931-1933 *)
Definition scale_c : res R := do k <- scale_h; from QTemperature k "K" (Some (-1)%Z).
(* 1550-1551 *)
Definition scale_d : res R :=
  do k <- from QVolume 1 "m3" (Some (-1)%Z);
  matter (e_setup E) (e_cfg E) k mw (Some "kg") None None.

(* ---- h, d, s, e, cp, cv, hsd ---- *)
(* T, p, x as given; the defaults are numbers of the configuration: config['def_T'] (1392-1405) *)
Definition or_default (a : option arr) (d : R) : arr := match a with Some a => a | None => [num d] end.
Definition absent {A} (a : option A) : bool := match a with Some _ => false | None => true end.
(* 1391-1454: np.nditer refuses operands without elements *)
Definition elements {A} (f : bool -> bool -> fl -> fl -> fl -> res A) (T p x : option arr) : res (list A) :=
  do k <- to QPressure 1 "bar" None;
  do l <- broadcast3 (or_default T (e_defT E)) (or_default p (e_defp E)) (or_default x (-1));
  match l with
  | [] => Err EValueError
  | _ => traverse (fun e =>
           let '(T_, p_, x_) := e in
           do TT <- escale T_ None (Some "K");
           f (absent T) (absent p) TT (p_ * num k)%fl x_) l
  end.
Definition method (f : bool -> bool -> fl -> fl -> fl -> res fl) (scale : res R) (T p x : option arr) : res arr :=
  do v <- elements f T p x;
  do k <- scale;
  Ok (map (fmul (num k)) v).
(* 1373-1460, 1465-1552, 1557-1645, 1650-1738, 1742-1832, 1836-1935 *)
Definition u_h := method (if_h D) scale_h.
Definition u_d := method (prop_d D) scale_d.
Definition u_s := method (if_s D) scale_s.
Definition u_e := method (if_e D) scale_h.
Definition u_cp := method (if_cp D) scale_c.
Definition u_cv := method (if_cv D) scale_c.
(* 1262-1370 *)
Definition u_hsd (T p x : option arr) : res (arr * arr * arr) :=
  do v <- elements (fun defT _ => prop_hsd D defT) T p x;
  do kh <- scale_h;
  do ks <- scale_s;
  do kd <- scale_d;
  Ok (map (fun r => fmul (num kh) (fst (fst r))) v,
      map (fun r => fmul (num ks) (snd (fst r))) v,
      map (fun r => fmul (num kd) (snd r)) v).
(* 1957: cp and cv are not names of the module *)
Definition u_gam (T p x : option arr) : res arr := Err ENameError.
(* 1976-1978 *)
Definition u_mw : res R :=
  do k <- from QMass mw "g" None;
  from QMolar k "mol" (Some (-1)%Z).

(* ---- limits ---- *)
(* 893-901, 906-914 *)
Definition in_user_units (T p : R) : res (R * R) :=
  do T <- temperature_scale (e_cfg E) T (Some "K") None;
  do p <- from QPressure p "bar" None;
  Ok (T, p).
Definition u_critical := in_user_units (if_Tc D) (if_pc D).
Definition u_triple := in_user_units (if_Tt D) (if_pt D).
(* 812-840, 860-888: one number when all elements agree, otherwise one for each element *)
Inductive limit := One (x : R) | Each (a : list R).
Definition choose (big : list bool) (above below : R) : limit :=
  if forallb (fun b => b) big then One above
  else if negb (existsb (fun b => b) big) then One below
  else Each (map (fun b : bool => if b then above else below) big).
Definition u_Tlim (p : option arr) : res (R * limit) :=
  do p <- aconvert E QPressure (or_default p (e_defp E)) None (Some "bar") None;
  do bigT <- temperature_scale (e_cfg E) (227315/100) (Some "K") None;
  do smallT <- temperature_scale (e_cfg E) (107315/100) (Some "K") None;
  do Tmin <- temperature_scale (e_cfg E) (27315/100) (Some "K") None;
  Ok (Tmin, choose (map (fun p => flt (num 500) p) p) smallT bigT).
Definition u_plim (T : option arr) : res (R * limit) :=
  do T <- atscale E (or_default T (e_defT E)) None (Some "K");
  do bigp <- from QPressure 1000 "bar" None;
  do smallp <- from QPressure 500 "bar" None;
  do pmin <- from QPressure (if_pt D) "bar" None;
  Ok (pmin, choose (map (fun T => flt (num (107315/100)) T) T) smallp bigp).

(* ---- saturation ---- *)
(* the two checks, e.g. 932-937 *)
Definition between (a : arr) (lo hi : R) : res arr :=
  if existsb (fun x => flt x (num lo)) a then Err PMParamError
  else if existsb (fun x => flt (num hi) x) a then Err PMParamError
  else Ok a.
(* 918-940, 944-966 *)
Definition u_ps (T : option arr) : res arr :=
  do T <- atscale E (or_default T (e_defT E)) None (Some "K");
  do T <- between T (if_Tt D) (if_Tc D);
  aconvert E QPressure (map (if_ps D) T) (Some "bar") None None.
Definition u_Ts (p : option arr) : res arr :=
  do p <- aconvert E QPressure (or_default p (e_defp E)) None (Some "bar") None;
  do p <- between p (if_pt D) (if_pc D);
  atscale E (map (if_Ts D) p) (Some "K") None.

(* An argument of hs, es, ds, ss: these do not make arrays of numbers.  A conversion makes one
   (numpy), but when the units agree the number is returned as it was (units.py 145, 471) and
   `(TT < ...).any()` has no such method.  Lists and other sequences are not modelled. *)
Inductive given := Number (x : R) | Array (a : arr).
Definition values (g : given) : arr := match g with Number x => [num x] | Array a => a end.
Definition unconverted (g : given) (key unit : string) : bool :=
  match g with
  | Number _ => match dget key (e_cfg E) with Some u => String.eqb u unit | None => false end
  | Array _ => false
  end.
Definition sat_T (T : given) : res arr :=
  do a <- atscale E (values T) None (Some "K");
  if unconverted T "unit_temperature" "K" then Err EAttributeError
  else between a (if_Tt D) (if_Tc D).
Definition sat_p (p : given) : res arr :=
  do a <- aconvert E QPressure (values p) None (Some "bar") None;
  if unconverted p "unit_pressure" "bar" then Err EAttributeError
  else between a (if_pt D) (if_pc D).
(* hs 998-1038, es 1070-1111, ds 1143-1184, ss 1216-1257: with tp=True *)
Definition saturated (fg : gibbs_form) (scale : res R) (T p : option given) : res (arr * arr * arr * arr) :=
  let p := match T, p with None, None => Some (Number (e_defp E)) | _, _ => p end in
  do TT <- match T with Some T => do a <- sat_T T; Ok (Some a) | None => Ok None end;
  do pp <- match p with Some p => do a <- sat_p p; Ok (Some a) | None => Ok None end;
  do l <- match TT, pp with
          | Some T, Some p => broadcast2 T p
          | Some T, None => Ok (map (fun t => (t, if_ps D t)) T)
          | None, Some p => Ok (map (fun q => (if_Ts D q, q)) p)
          | None, None => Err EUnboundLocal
          end;
  do pu <- match p with
           | Some p => Ok (values p)
           | None => aconvert E QPressure (map snd l) (Some "bar") None None
           end;
  do Tu <- match T with
           | Some T => Ok (values T)
           | None => atscale E (map fst l) (Some "K") None
           end;
  do k <- scale;
  do lv <- traverse (fun e => phases D fg 1%nat (fst e) (snd e)) l;
  Ok (Tu, pu, map (fun r => fmul (num k) (fst r)) lv, map (fun r => fmul (num k) (snd r)) lv).
Definition u_hs := saturated (h_g D) scale_h.
Definition u_es := saturated (e_g D) scale_h.
Definition u_ds := saturated (d_g D) scale_d.
(* 1249-1250: no temperature *)
Definition u_ss := saturated (s_g D) scale_h.

(* ---- T_h and T_s, with quality=True ---- *)
(* 2016-2038, 2133: the pressure handed on is p_, not pp; the matter without the exponent *)
Definition u_T_h (h : arr) (p : option arr) : res (list (fl * fl)) :=
  do _ <- to QPressure 1 "bar" None;
  do k <- to QEnergy 1 "kJ" None;
  do k <- matter (e_setup E) (e_cfg E) k mw None (Some "kg") None;
  do l <- broadcast2 h (or_default p (e_defp E));
  match l with
  | [] => Err EValueError
  | _ => traverse (fun e =>
           do r <- T_h_with D (fun T p => u_h (Some [T]) (Some [p]) None) (fst e * num k)%fl (snd e);
           do T <- escale (fst r) (Some "K") None;
           Ok (T, snd r)) l
  end.
(* 2175-2196, 2274: the pressure is in bar, and passed to Ts and s *)
Definition u_T_s (B : ifback) (s : arr) (p : option arr) : res (list (fl * fl)) :=
  do p <- aconvert E QPressure (or_default p (e_defp E)) None (Some "bar") None;
  do k <- to QEnergy 1 "kJ" None;
  do k <- matter (e_setup E) (e_cfg E) k mw None (Some "kg") None;
  do k <- to QTemperature k "K" None;
  do l <- broadcast2 s p;
  match l with
  | [] => Err EValueError
  | _ => traverse (fun e =>
           do r <- T_s D B (fun p => do a <- u_Ts (Some [p]); Ok (hd None a))
                         (fun T p => do a <- u_s (Some [T]) (Some [p]) None; Ok (hd None a))
                     (fst e * num k)%fl (snd e);
           do T <- escale (fst r) (Some "K") None;
           Ok (T, snd r)) l
  end.
End Units.

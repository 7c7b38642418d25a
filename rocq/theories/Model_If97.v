(* Model of the IAPWS-IF97 steam class, src/pyromat/registry/if97.py: the polynomial evaluator,
   the free energies of the regions, the region map, the saturation equation, the search for the
   density in region 3, the Newton inversions in regions 3 and 5 and the property methods.

   Numbers are those of Model_Num.  The methods act on numpy arrays element by element
   (np.nditer), so they are modelled on one element, in the units the class computes with
   (K, bar, kJ, kg).  The unit conversions around them, Tlim, plim, gam, T_s (2141-2278) and the
   entropy polynomials _ts1 .. _ts2c are in Model_If97Units. *)
From Coq Require Import Reals ZArith List Bool String.
From Verif Require Export Model_Igas.
From Verif Require Export Model_Mp1.
Import ListNotations.
Local Open Scope R_scope.
Local Open Scope string_scope.
Local Open Scope list_scope.

(* a term: the exponent of x, the exponent of y, the coefficient (exponents are integers) *)
Definition term := (Z * Z * R)%type.
Definition tm (t : term) : Z := fst (fst t).
Definition tn (t : term) : Z := snd (fst t).
Definition ta (t : term) : R := snd t.

(* x**k of numpy for an integer k: 0**k is infinite for k < 0 (a Python float raises instead) *)
Definition ipow (x : fl) (k : Z) : fl :=
  match x with
  | Some r => if (if Req_EM_T r 0 then Z.ltb k 0 else false) then None else Some (powerRZ r k)
  | None => None
  end.

Definition LARGE : Z := 100.            (* if97.py 68 *)

(* if97.py 100-127: the loop over the terms with x exponent m; rows are the terms at `index`
   and below, the next one first.  Returns the exponent after the loop, the terms left and
   q, dq, ddq.  fuel bounds the passes; the code ends by itself because n is checked. *)
Fixpoint peval_y (fuel : nat) (order : nat) (y : fl) (m n : Z) (rows : list term) (s : jet1)
  : res (Z * list term * jet1) :=
  match rows with
  | (m', n', a) :: rest =>
      if Z.eqb m' m then
        match fuel with
        | O => Err EOutOfFuel
        | S k =>
            let '(q, dq, ddq) := s in
            let hit := Z.eqb n n' in
            let ddq := if diff2 order then (ddq * y + num 2 * dq)%fl else ddq in
            let dq := if diff1 order then (dq * y + q)%fl else dq in
            let q := if hit then (q * y + num a)%fl else (q * y)%fl in
            let rows := if hit then rest else rows in
            let n := (n - 1)%Z in
            if Z.ltb n (- LARGE) then Err EException
            else peval_y k order y m n rows (q, dq, ddq)
        end
      else Ok (n, rows, s)
  | [] => Ok (n, rows, s)
  end.

(* if97.py 132-142, 180-189: a power and its first two derivatives, n <> 0 *)
Definition power_jet (y : fl) (n : Z) : jet1 :=
  if Z.eqb n 1 then (y, num 1, num 0)
  else
    let ddyn := ipow y (n - 2) in
    let dyn := (ddyn * y)%fl in
    let yn := (dyn * y)%fl in
    (yn, (dyn * num (IZR n))%fl, (ddyn * num (IZR ((n - 1) * n)))%fl).

(* if97.py 129-148 *)
Definition peval_shift_y (order : nat) (y : fl) (n : Z) (s : jet1) : jet1 :=
  if Z.eqb n 0 then s
  else
    let '(q, dq, ddq) := s in
    let '(yn, dyn, ddyn) := power_jet y n in
    ((q * yn)%fl,
     if diff1 order then (q * dyn + dq * yn)%fl else dq,
     if diff2 order then (ddq * yn + num 2 * dq * dyn + q * ddyn)%fl else ddq).

(* if97.py 149-157: a sub-polynomial was built *)
Definition peval_add (order : nat) (x : fl) (q : jet1) (s : jet2) : jet2 :=
  let '(q, dq, ddq) := q in
  let '(p, px, py, pxx, pxy, pyy) := s in
  ((p * x + q)%fl,
   if diff1 order then (px * x + p)%fl else px,
   if diff1 order then (py * x + dq)%fl else py,
   if diff2 order then (pxx * x + num 2 * px)%fl else pxx,
   if diff2 order then (pxy * x + py)%fl else pxy,
   if diff2 order then (pyy * x + ddq)%fl else pyy).
(* if97.py 160-168 *)
Definition peval_skip (order : nat) (x : fl) (s : jet2) : jet2 :=
  let '(p, px, py, pxx, pxy, pyy) := s in
  ((p * x)%fl,
   if diff1 order then (px * x + p)%fl else px,
   if diff1 order then (py * x)%fl else py,
   if diff2 order then (pxx * x + num 2 * px)%fl else pxx,
   if diff2 order then (pxy * x + py)%fl else pxy,
   if diff2 order then (pyy * x)%fl else pyy).

Definition passes : nat := 203.         (* more than n and m can take: they go from 100 to -100 *)
(* if97.py 87-173 *)
Fixpoint peval_x (fuel : nat) (order : nat) (x y : fl) (m : Z) (rows : list term) (s : jet2)
  : res (Z * jet2) :=
  match rows with
  | (m', n', _) :: _ =>
      match fuel with
      | O => Err EOutOfFuel
      | S k =>
          do r <- (if Z.eqb m' m then
                     if Z.ltb LARGE n' then Err EException
                     else
                       do r <- peval_y passes order y m n' rows (num 0, num 0, num 0);
                       let '(n, rows, q) := r in
                       Ok (rows, peval_add order x (peval_shift_y order y (n + 1)%Z q) s)
                   else Ok (rows, peval_skip order x s));
          let (rows, s) := r in
          let m := (m - 1)%Z in
          if Z.ltb m (- LARGE) then Err EException else peval_x k order x y m rows s
      end
  | [] => Ok (m, s)
  end.
(* if97.py 175-198 *)
Definition peval_shift_x (order : nat) (x : fl) (m : Z) (s : jet2) : jet2 :=
  if Z.eqb m 0 then s
  else
    let '(p, px, py, pxx, pxy, pyy) := s in
    let '(xm, dxm, ddxm) := power_jet x m in
    ((p * xm)%fl,
     if diff1 order then (px * xm + p * dxm)%fl else px,
     if diff1 order then (py * xm)%fl else py,
     if diff2 order then (pxx * xm + num 2 * px * dxm + p * ddxm)%fl else pxx,
     if diff2 order then (pxy * xm + py * dxm)%fl else pxy,
     if diff2 order then (pyy * xm)%fl else pyy).
Definition zero_jet : jet2 := (num 0, num 0, num 0, num 0, num 0, num 0).
(* if97.py 47-200.  The list is processed from its end. *)
Definition peval (x y : fl) (A : list term) (order : nat) : res jet2 :=
  match rev A with
  | [] => Err EIndexError
  | (m, n, a) :: rest =>
      if Z.ltb LARGE m then Err EException
      else
        do r <- peval_x passes order x y m ((m, n, a) :: rest) zero_jet;
        let (m, s) := r in
        Ok (peval_shift_x order x (m + 1)%Z s)
  end.

(* ---- data ---- *)
(* the coefficients of the saturation equation, data['r4'] *)
Record sat4 := { n1 : R; n2 : R; n3 : R; n4 : R; n5 : R; n6 : R; n7 : R; n8 : R; n9 : R; n10 : R }.
(* the coefficients of a boundary, data['b23'] and data['b2bc'] *)
Record bound := { b_0 : R; b_1 : R; b_2 : R; b_3 : R; b_4 : R }.
Record ifdata := { if_R : R; if_mw : R; if_Tc : R; if_pc : R; if_dc : R; if_Tt : R; if_pt : R;
  if_r1 : list term; if_r2o : list term; if_r2r : list term; if_r3 : list term; if_r3ln : R;
  if_r5o : list term; if_r5r : list term;
  if_r4 : sat4; if_b23 : bound; if_b2bc : bound;
  if_th1 : list term; if_th2a : list term; if_th2b : list term; if_th2c : list term }.

(* ---- free energies ---- *)
(* the result of _g1, _g2, _g5, _f3: two scaled arguments and the jet *)
Definition energies := (fl * fl * jet2)%type.
(* if97.py 204-218 *)
Definition g1 (D : ifdata) (T p : fl) (order : nat) : res energies :=
  let t := (num 1386 / T)%fl in
  let pi := (p / num (1653/10))%fl in
  do j <- peval (num (71/10) - pi)%fl (t - num (1222/1000))%fl (if_r1 D) order;
  let '(g, gp, gt, gpp, gpt, gtt) := j in
  Ok (pi, t, (g, (- gp)%fl, gt, gpp, (- gpt)%fl, gtt)).
(* the logarithm and the residual part: if97.py 259-270, 589-600 *)
Definition add_log (order : nat) (pi : fl) (o r : jet2) : jet2 :=
  let '(g, gp, gt, gpp, gpt, gtt) := o in
  let '(h, hp, ht, hpp, hpt, htt) := r in
  let LP := (num 1 / pi)%fl in
  ((g + (h + flog pi))%fl,
   if diff1 order then (gp + (hp + LP))%fl else gp,
   if diff1 order then (gt + ht)%fl else gt,
   if diff2 order then (gpp + (hpp + - LP / pi))%fl else gpp,
   if diff2 order then (gpt + hpt)%fl else gpt,
   if diff2 order then (gtt + htt)%fl else gtt).
(* if97.py 246-270 *)
Definition g2 (D : ifdata) (T p : fl) (order : nat) : res energies :=
  let t := (num 540 / T)%fl in
  let pi := (p / num 10)%fl in
  do o <- peval pi t (if_r2o D) order;
  do r <- peval pi (t - num (5/10))%fl (if_r2r D) order;
  Ok (pi, t, add_log order pi o r).
(* if97.py 576-600 *)
Definition g5 (D : ifdata) (T p : fl) (order : nat) : res energies :=
  let t := (num 1000 / T)%fl in
  let pi := (p / num 10)%fl in
  do o <- peval pi t (if_r5o D) order;
  do r <- peval pi t (if_r5r D) order;
  Ok (pi, t, add_log order pi o r).

(* if97.py 381-395: the free energy at a density, with the logarithm *)
Definition f3_at (D : ifdata) (n t : fl) : res jet2 :=
  do j <- peval n t (if_r3 D) 2%nat;
  let '(f, fx, fy, fxx, fxy, fyy) := j in
  let DLN := (num (if_r3ln D) / n)%fl in
  Ok ((f + num (if_r3ln D) * flog n)%fl, (fx + DLN)%fl, fy, (fxx - DLN / n)%fl, fxy, fyy).
(* if97.py 397-406, with the pressure _pfromd computes from the values.  The result is the last
   midpoint and the values there (unset without a pass). *)
Fixpoint bisect (passes : nat) (f : fl -> res jet2) (pp na nb : fl) (last : option (fl * jet2))
  : res (fl * jet2) :=
  match passes with
  | O => match last with Some r => Ok r | None => Err EUnboundLocal end
  | S k =>
      let nc := (num (5/10) * (na + nb))%fl in
      do v <- f nc;
      let '(_, fx, _, _, _, _) := v in
      let pc := (nc * nc * fx)%fl in
      if flt pp pc then bisect k f pp na nc (Some (nc, v)) else bisect k f pp nc nb (Some (nc, v))
  end.
(* if97.py 346-408, for one element *)
Definition f3 (D : ifdata) (T p : fl) : res energies :=
  let pp := (p * num 100 / (num (if_dc D) * num (if_R D) * T))%fl in
  let t := (num (if_Tc D) / T)%fl in
  do r <- bisect 14 (fun n => f3_at D n t) pp (num (1/10)) (num (24/10)) None;
  let (n, v) := r in Ok (n, t, v).

(* ---- saturation and regions ---- *)
(* if97.py 754-772; pmpa**4 *)
Definition if_ps (D : ifdata) (T : fl) : fl :=
  let c4 := if_r4 D in
  let t := (T + num (n9 c4) / (T - num (n10 c4)))%fl in
  let a := ((t + num (n1 c4)) * t + num (n2 c4))%fl in
  let b := ((num (n3 c4) * t + num (n4 c4)) * t + num (n5 c4))%fl in
  let c := ((num (n6 c4) * t + num (n7 c4)) * t + num (n8 c4))%fl in
  let r := (num 2 * c / (- b + fsqrt (b * b - num 4 * a * c)))%fl in
  (r * r * r * r * num 10)%fl.
(* if97.py 774-794 *)
Definition if_Ts (D : ifdata) (p : fl) : fl :=
  let c4 := if_r4 D in
  let pp := fpow (p / num 10)%fl (1/4) in
  let a := ((pp + num (n3 c4)) * pp + num (n6 c4))%fl in
  let b := ((num (n1 c4) * pp + num (n4 c4)) * pp + num (n7 c4))%fl in
  let c := ((num (n2 c4) * pp + num (n5 c4)) * pp + num (n8 c4))%fl in
  let t := (num 2 * c / (- b - fsqrt (b * b - num 4 * a * c)))%fl in
  let tt := (num (n10 c4) + t)%fl in
  (num (5/10) * (tt - fsqrt (tt * tt - num 4 * (num (n9 c4) + num (n10 c4) * t))))%fl.
(* if97.py 669-684 *)
Definition b23_T (D : ifdata) (T : fl) : fl :=
  let n := if_b23 D in ((num (b_2 n) * T + num (b_1 n)) * T + num (b_0 n))%fl.
Definition b23_p (D : ifdata) (p : fl) : fl :=
  let n := if_b23 D in (num (b_3 n) + fsqrt ((p - num (b_4 n)) / num (b_2 n)))%fl.

(* if97.py 705-751; T in K, p in bar *)
Definition region (D : ifdata) (T p : fl) : Z :=
  if flt p (num 0) || flt (num 1000) p then -1
  else if flt (num (227315/100)) T then -1
  else if flt (num (107315/100)) T then (if flt (num 500) p then -1 else 5)
  else if flt (num (86315/100)) T then 2
  else if flt (num (62315/100)) T then (if flt p (b23_T D T) then 2 else 3)
  else if flt p (if_ps D T) then 2 else 1.

(* ---- properties of one element; T in K, p in bar ---- *)
Section Props.
Variable D : ifdata.
Let R_ := num (if_R D).

(* the formulas the methods repeat in each branch, for a Gibbs energy (e.g. 1320-1322) *)
Definition jv (j : jet2) : fl := let '(v, _, _, _, _, _) := j in v.
Definition jx (j : jet2) : fl := let '(_, v, _, _, _, _) := j in v.
Definition jy (j : jet2) : fl := let '(_, _, v, _, _, _) := j in v.
Definition jxx (j : jet2) : fl := let '(_, _, _, v, _, _) := j in v.
Definition jxy (j : jet2) : fl := let '(_, _, _, _, v, _) := j in v.
Definition jyy (j : jet2) : fl := let '(_, _, _, _, _, v) := j in v.
Definition gibbs_form := fl -> fl -> energies -> fl.
Definition h_g : gibbs_form := fun T p e => let '(pi, t, g) := e in (R_ * T * t * jy g)%fl.
Definition s_g : gibbs_form := fun T p e => let '(pi, t, g) := e in (R_ * (t * jy g - jv g))%fl.
Definition v_g : gibbs_form := fun T p e => let '(pi, t, g) := e in ((R_ * T * pi * jx g) / (p * num 100))%fl.
Definition d_g : gibbs_form := fun T p e => let '(pi, t, g) := e in (p * num 100 / (R_ * T * pi * jx g))%fl.
Definition e_g : gibbs_form := fun T p e => let '(pi, t, g) := e in (T * R_ * (t * jy g - pi * jx g))%fl.
Definition cp_g : gibbs_form := fun T p e => let '(pi, t, g) := e in (- R_ * t * t * jyy g)%fl.
Definition cv_g : gibbs_form := fun T p e => let '(pi, t, g) := e in
  let temp := (jx g - t * jxy g)%fl in
  let temp := (temp * temp / jxx g)%fl in (R_ * (temp - t * t * jyy g))%fl.
(* and for the Helmholtz energy of region 3 (1330-1332, 1699, 1777, 1876) *)
Definition h_f : gibbs_form := fun T p e => let '(n, t, f) := e in (R_ * T * (n * jx f + t * jy f))%fl.
Definition s_f : gibbs_form := fun T p e => let '(n, t, f) := e in (R_ * (t * jy f - jv f))%fl.
Definition d_f : gibbs_form := fun T p e => let '(n, t, f) := e in (num (if_dc D) * n)%fl.
Definition e_f : gibbs_form := fun T p e => let '(n, t, f) := e in (T * R_ * t * jy f)%fl.
Definition cp_f : gibbs_form := fun T p e => let '(n, t, f) := e in
  let temp := (n * jx f - n * t * jxy f)%fl in
  let temp := (temp * temp / (num 2 * n * jx f + n * n * jxx f))%fl in (R_ * (- (t * t * jyy f) + temp))%fl.
Definition cv_f : gibbs_form := fun T p e => let '(n, t, f) := e in (- R_ * t * t * jyy f)%fl.

(* the branch `x_<0.` (e.g. 1418-1436) *)
Definition at_Tp (fg ff : gibbs_form) (order : nat) (T p : fl) : res fl :=
  match region D T p with
  | 1%Z => do e <- g1 D T p order; Ok (fg T p e)
  | 2%Z => do e <- g2 D T p order; Ok (fg T p e)
  | 3%Z => do e <- f3 D T p; Ok (ff T p e)
  | 5%Z => do e <- g5 D T p order; Ok (fg T p e)
  | _ => Err PMParamError
  end.
(* the other branch: the properties of the two phases (e.g. 1441-1453) *)
Definition phases (fg : gibbs_form) (order : nat) (T p : fl) : res (fl * fl) :=
  do l <- g1 D T p order;
  do v <- g2 D T p order;
  Ok (fg T p l, fg T p v).
Definition mean (x : fl) (lv : fl * fl) : fl := (fst lv + (snd lv - fst lv) * x)%fl.
(* the state of a saturated element (1440-1447): defT and defp say that T, p were not given *)
Definition sat_state (defT defp : bool) (T p : fl) : fl * fl :=
  if defT then (if_Ts D p, p) else if defp then (T, if_ps D T) else (T, p).

(* h, s, e, cp, cv (1391-1460, 1575-1645, 1668-1737, 1760-1831, 1854-1935) *)
Definition prop (fg ff : gibbs_form) (order : nat) (defT defp : bool) (T p x : fl) : res fl :=
  if flt x (num 0) then at_Tp fg ff order T p
  else
    let (T, p) := sat_state defT defp T p in
    do lv <- phases fg order T p; Ok (mean x lv).
(* d (1483-1552) *)
Definition prop_d (defT defp : bool) (T p x : fl) : res fl :=
  if flt x (num 0) then at_Tp d_g d_f 1%nat T p
  else
    let (T, p) := sat_state defT defp T p in
    do lv <- phases v_g 1%nat T p; Ok (num 1 / mean x lv)%fl.
(* the methods themselves: h 1373, s 1557, e 1650, cp 1742, cv 1836 *)
Definition if_h := prop h_g h_f 1.
Definition if_s := prop s_g s_f 1.
Definition if_e := prop e_g e_f 1.
Definition if_cp := prop cp_g cp_f 2.
Definition if_cv := prop cv_g cv_f 2.
(* hsd (1262-1370): the pressure of a saturated element is replaced only when it is negative *)
Definition prop_hsd (defT : bool) (T p x : fl) : res (fl * fl * fl) :=
  if flt x (num 0) then
    do h <- at_Tp h_g h_f 1%nat T p;
    do s <- at_Tp s_g s_f 1%nat T p;
    do d <- at_Tp d_g d_f 1%nat T p;
    Ok (h, s, d)
  else
    let (T, p) := if defT then (if_Ts D p, p) else if flt p (num 0) then (T, if_ps D T) else (T, p) in
    do h <- phases h_g 1%nat T p;
    do s <- phases s_g 1%nat T p;
    do v <- phases v_g 1%nat T p;
    Ok (mean x h, mean x s, (num 1 / mean x v)%fl).
End Props.

(* ---- Newton inversions in region 5 (if97.py 603-666) ---- *)
(* the test and the slope: value - target, derivative *)
Fixpoint newton5 (left : nat) (fn : fl -> res (fl * fl)) (target : fl) (t : fl) : res fl :=
  match left with
  | O => Err PMAnalysisError
  | S k =>
      do r <- fn t;
      let (test, slope) := r in
      if flt (fabs test) (num (1/1000000) * target)%fl then Ok (num 1000 / t)%fl
      else newton5 k fn target (t - test / slope)%fl
  end.
Definition th5 (D : ifdata) (h p Tinit : fl) : res fl :=
  let hh := (h / num (if_R D) / num 1000)%fl in
  newton5 30 (fun t =>
    do e <- g5 D (num 1000 / t)%fl p 2%nat;
    let '(_, _, g) := e in Ok ((jy g - hh)%fl, jyy g)) hh (num 1000 / Tinit)%fl.
Definition ts5 (D : ifdata) (s p Tinit : fl) : res fl :=
  let ss := (s / num (if_R D))%fl in
  newton5 30 (fun t =>
    do e <- g5 D (num 1000 / t)%fl p 2%nat;
    let '(_, _, g) := e in Ok ((t * jy g - jv g - ss)%fl, (t * jyy g)%fl)) ss (num 1000 / Tinit)%fl.

(* ---- Newton inversions in region 3 (if97.py 412-573) ---- *)
(* np.linalg.solve of a two by two system; a singular matrix raises LinAlgError *)
Definition solve2 (a b c d u v : fl) : res (fl * fl) :=
  let det := (a * d - b * c)%fl in
  match det with
  | Some r => if Req_EM_T r 0 then Err EException
              else Ok (((u * d - b * v) / det)%fl, ((a * v - u * c) / det)%fl)
  | None => Ok (None, None)
  end.
(* the loop 446-491, 530-573.  fn gives the two tests and the matrix; old is the point, the error
   and the step of the last Newton step, None before it (error_old = inf).  An error that is not
   finite takes the Newton branch here; in the code an infinite one takes the other. *)
Fixpoint newton3 (left : nat) (fn : fl -> fl -> res (fl * fl * (fl * fl * fl * fl))) (n t : fl)
  (old : option (fl * fl * fl * (fl * fl))) : res (fl * fl) :=
  match left with
  | O => Err PMAnalysisError
  | S k =>
      do r <- fn n t;
      let '(ptest, htest, (dpdn, dpdt, dhdn, dhdt)) := r in
      let error := (ptest * ptest + htest * htest)%fl in
      let newton :=
        do d <- solve2 dpdn dpdt dhdn dhdt (- ptest)%fl (- htest)%fl;
        let (dn, dt) := d in
        newton3 k fn (n + dn)%fl (t + dt)%fl (Some (n, t, error, (dn, dt))) in
      if flt error (num (1/100000 * (1/100000))) then Ok (n, t)
      else match old with
           | Some (n_old, t_old, error_old, (dn, dt)) =>
               if fle error_old error then
                 let dn := (dn / num 2)%fl in
                 let dt := (dt / num 2)%fl in
                 newton3 k fn (n_old + dn)%fl (t_old + dt)%fl (Some (n_old, t_old, error_old, (dn, dt)))
               else newton
           | None => newton
           end
  end.
(* if97.py 452-457: the values at a point, and 480-483 *)
Definition hp3 (D : ifdata) (hh pp : fl) (n t : fl) : res (fl * fl * (fl * fl * fl * fl)) :=
  do j <- f3_at D n t;
  let '(f, fx, fy, fxx, fxy, fyy) := j in
  let ptest := (n * n * fx / t - pp)%fl in
  let htest := (n * fx / t + fy - hh)%fl in
  Ok (ptest, htest,
      ((n / t * (num 2 * fx + n * fxx))%fl, (n * n / t * (fxy - fx / t))%fl,
       (fxy + (fx + n * fxx) / t)%fl, (fyy + n / t * (fxy - fx / t))%fl)).
(* if97.py 412-491 *)
Definition th3_in (passes : nat) (D : ifdata) (h p Tinit dinit : fl) : res fl :=
  let pp := (p * num 100 / (num (if_dc D) * num (if_R D) * num (if_Tc D)))%fl in
  let hh := (h / (num (if_R D) * num (if_Tc D)))%fl in
  do r <- newton3 passes (hp3 D hh pp) (dinit / num (if_dc D))%fl (num (if_Tc D) / Tinit)%fl None;
  let (n, t) := r in Ok (num (if_Tc D) / t)%fl.
Definition th3 := th3_in 200.
(* if97.py 545-565 *)
Definition sp3 (D : ifdata) (ss pp : fl) (n t : fl) : res (fl * fl * (fl * fl * fl * fl)) :=
  do j <- f3_at D n t;
  let '(f, fx, fy, fxx, fxy, fyy) := j in
  let ptest := (n * n * fx / t - pp)%fl in
  let stest := (t * fy - f - ss)%fl in
  Ok (ptest, stest,
      ((n / t * (num 2 * fx + n * fxx))%fl, (n * n / t * (fxy - fx / t))%fl,
       (t * fxy - fx)%fl, (t * fyy)%fl)).
(* if97.py 494-573 *)
Definition ts3_in (passes : nat) (D : ifdata) (s p Tinit dinit : fl) : res fl :=
  let pp := (p * num 100 / (num (if_dc D) * num (if_R D) * num (if_Tc D)))%fl in
  let ss := (s / num (if_R D))%fl in
  do r <- newton3 passes (sp3 D ss pp) (dinit / num (if_dc D))%fl (num (if_Tc D) / Tinit)%fl None;
  let (n, t) := r in Ok (num (if_Tc D) / t)%fl.
Definition ts3 := ts3_in 200.

(* ---- temperature from enthalpy and pressure ---- *)
(* if97.py 221-231, 273-306: the backward polynomials *)
Definition backward (A : list term) (x y : fl) : res fl :=
  do j <- peval x y A 0%nat; Ok (jv j).
Definition th1 (D : ifdata) (h p : fl) : res fl := backward (if_th1 D) (p / num 10)%fl (h / num 2500 + num 1)%fl.
Definition th2a (D : ifdata) (h p : fl) : res fl := backward (if_th2a D) (p / num 10)%fl (h / num 2000 - num (21/10))%fl.
Definition th2b (D : ifdata) (h p : fl) : res fl := backward (if_th2b D) (p / num 10 - num 2)%fl (h / num 2000 - num (26/10))%fl.
Definition th2c (D : ifdata) (h p : fl) : res fl := backward (if_th2c D) (p / num 10 + num 25)%fl (h / num 2000 - num (18/10))%fl.
(* if97.py 687-702 *)
Definition b2bc_p (D : ifdata) (p : fl) : fl :=
  let n := if_b2bc D in (num (b_3 n) + fsqrt ((p - num (b_4 n)) / num (b_2 n)))%fl.
Definition enthalpy (D : ifdata) (g : ifdata -> fl -> fl -> nat -> res energies) (T p : fl) : res fl :=
  do e <- g D T p 1%nat; Ok (h_g D T p e).
(* if97.py 2056-2066, 2079-2088, 2117-2127: the part at and above the boundary of region 5 *)
Definition T_h5 (D : ifdata) (h p h25 : fl) : res (fl * fl) :=
  let T25 := num (107315/100) in
  let T5max := num (227315/100) in
  do h5 <- enthalpy D g5 T5max p;
  if flt h5 h then Err PMParamError
  else
    do T <- th5 D h p (T25 + (T5max - T25) * (h - h25) / (h5 - h25))%fl;
    Ok (T, num (-1)).
(* if97.py 2031-2135, one element: the temperature and the quality.  The call of self.h(T,p) at 2101
   has no effect but the errors it can raise. *)
Definition T_h_with {A} (D : ifdata) (self_h : fl -> fl -> res A) (h p : fl) : res (fl * fl) :=
  let T13 := num (62315/100) in
  let T25 := num (107315/100) in
  let plain r := do T <- r; Ok (T, num (-1)) in
  if flt p (num (165292/1000)) then
    let Ts := if_Ts D p in
    do hL <- enthalpy D g1 Ts p;
    do hV <- enthalpy D g2 Ts p;
    if flt h hL then plain (th1 D h p)
    else if flt h hV then Ok (Ts, ((h - hL) / (hV - hL))%fl)
    else if flt p (num 40) then
      do h25 <- enthalpy D g5 T25 p;
      if flt h h25 then plain (th2a D h p) else T_h5 D h p h25
    else if flt (num (45257578905948/1000000000000)) p && flt h (b2bc_p D p) then plain (th2c D h p)
    else
      do h25 <- enthalpy D g5 T25 p;
      if flt h h25 then plain (th2b D h p) else T_h5 D h p h25
  else if fle p (num 1000) then
    do h13 <- enthalpy D g1 T13 p;
    if flt h h13 then plain (th1 D h p)
    else
      let T23 := b23_p D p in
      do _ <- self_h T23 p;
      do h23 <- enthalpy D g2 T23 p;
      if flt h h23 then plain (th3 D h p (T13 + (T23 - T13) * (h - h13) / (h23 - h13))%fl (num 500))
      else if flt h (b2bc_p D p) then plain (th2c D h p)
      else
        do h25 <- enthalpy D g5 T25 p;
        if flt h h25 then plain (th2b D h p)
        else if flt p (num 500) then T_h5 D h p h25
        else Err PMParamError
  else Err PMParamError.
Definition T_h (D : ifdata) : fl -> fl -> res (fl * fl) :=
  T_h_with D (fun T p => prop D (h_g D) (h_f D) 1%nat false false T p (num (-1))).

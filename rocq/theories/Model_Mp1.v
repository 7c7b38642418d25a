(* Model of the primitive and inner routines of the multi-phase class,
   src/pyromat/registry/mp1.py: the polynomial evaluators, the Helmholtz free energy terms,
   the saturation fits and the property routines built on them.

   Numbers are those of Model_Num (a real, or None for a non-finite float).  The routines of
   the file act on arrays element by element, so they are modelled on one element; the only
   exception, the two `.any()` tests of _ar, is modelled by passing the list of all the
   elements of the array (parameter `all`).  The code's tt (a Coq constant) is called tau. *)
From Coq Require Import Reals ZArith List Bool Arith.
From Verif Require Export Model_Num.
Import ListNotations.
Local Open Scope list_scope.

Declare Scope fl_scope.
Delimit Scope fl_scope with fl.
Bind Scope fl_scope with fl.
Notation "x + y" := (fadd x y) : fl_scope.
Notation "x - y" := (fsub x y) : fl_scope.
Notation "x * y" := (fmul x y) : fl_scope.
Notation "x / y" := (fdiv x y) : fl_scope.
Definition num (r : R) : fl := Some r.
Definition fneg (x : fl) : fl := lift1 Ropp x.
Notation "- x" := (fneg x) : fl_scope.

(* numpy's x**r for a float x: 0**0 = 1, 0**r = inf for r < 0, a negative base gives nan
   unless the exponent is an integer. *)
Definition fpow (x : fl) (r : R) : fl :=
  match x with
  | None => None
  | Some x =>
      if Rlt_dec 0 x then Some (Rpower x r)
      else if Req_EM_T x 0 then
        if Req_EM_T r 0 then Some 1%R else if Rlt_dec 0 r then Some 0%R else None
      else if Req_EM_T (IZR (Int_part r)) r then Some (powerRZ x (Int_part r)) else None
  end.
(* np.sqrt *)
Definition fsqrt (x : fl) : fl :=
  match x with Some x => if Rle_dec 0 x then Some (sqrt x) else None | None => None end.

Definition diff1 (diff : nat) : bool := Nat.ltb 0 diff.   (* diff>0 *)
Definition diff2 (diff : nat) : bool := Nat.ltb 1 diff.   (* diff>1 *)

(* ---- one variable polynomials ---- *)
(* One coefficient list of a group: [pre, post, [power, coefficient], ...] (mp1.py 843-877).
   A list without any term makes coef[2] raise an IndexError; such a list is not
   represented: there is a first term. *)
Record coef1 := { c1_pre : R; c1_post : R; c1_first : Z * R; c1_rest : list (Z * R) }.
Definition c1_rows (c : coef1) : list (Z * R) := c1_first c :: c1_rest c.
Definition group1 := list coef1.

Definition jet1 := (fl * fl * fl)%type.        (* value and first two derivatives *)

(* mp1.py 926-946: the loop `for ii in range(II,-1,-1)`; n - 1 is the current ii and rows
   are the terms from `index` on. *)
Fixpoint loop1 (diff : nat) (x0 : fl) (n : nat) (rows : list (Z * R)) (st : jet1) : jet1 :=
  match n with
  | O => st
  | S m =>
      let '(p, px, pxx) := st in
      let pxx' := if diff2 diff then (num 2 * px + x0 * pxx)%fl else pxx in
      let px' := if diff1 diff then (p + x0 * px)%fl else px in
      match rows with
      | (i, c) :: rest =>
          if Z.eqb i (Z.of_nat m)
          then loop1 diff x0 m rest ((num c + x0 * p)%fl, px', pxx')
          else loop1 diff x0 m rows ((x0 * p)%fl, px', pxx')
      | [] => loop1 diff x0 m rows ((x0 * p)%fl, px', pxx')
      end
  end.

(* mp1.py 900-912 (and 673-702): the pre-exponential and its derivatives *)
Definition pre_power (diff : nat) (x : fl) (pre : R) : jet1 :=
  if Req_EM_T pre 1 then (x, num 1, num 0)
  else
    let x0 := fpow x pre in
    let x1 := if diff1 diff then (x0 * num pre / x)%fl else num 0 in
    let x2 := if diff2 diff then (x1 * num (pre - 1) / x)%fl else num 0 in
    (x0, x1, x2).

(* mp1.py 889-964: one coefficient list *)
Definition poly1_coef (x : fl) (c : coef1) (diff : nat) : jet1 :=
  let '(x0, x1, x2) := pre_power diff x (c1_pre c) in
  let II := fst (c1_first c) in
  let '(p, px, pxx) := loop1 diff x0 (Z.to_nat (II + 1)) (c1_rows c) (num 0, num 0, num 0) in
  (* 949-953 *)
  let pxx := if Req_EM_T (c1_pre c) 1 then pxx
             else if diff2 diff then (pxx * x1 * x1 + px * x2)%fl else pxx in
  let px := if Req_EM_T (c1_pre c) 1 then px
            else if diff1 diff then (px * x1)%fl else px in
  (* 956-964 *)
  if Req_EM_T (c1_post c) 0 then (p, px, pxx)
  else
    let post := c1_post c in
    let f := fpow x post in
    let fx := (num post * f / x)%fl in
    let fxx := (fx * num (post - 1) / x)%fl in
    ((p * f)%fl,
     (if diff1 diff then px * f + p * fx else px)%fl,
     (if diff2 diff then pxx * f + num 2 * px * fx + p * fxx else pxx)%fl).

(* mp1.py 818-975.  A group of one list returns it, otherwise the lists are summed. *)
Definition poly1 (x : fl) (g : group1) (diff : nat) : jet1 :=
  match g with
  | [c] => poly1_coef x c diff
  | _ =>
      fold_left (fun st c =>
        let '(s, sx, sxx) := st in
        let '(p, px, pxx) := poly1_coef x c diff in
        ((s + p)%fl,
         (if diff1 diff then sx + px else sx)%fl,
         (if diff2 diff then sxx + pxx else sxx)%fl)) g (num 0, num 0, num 0)
  end.

(* ---- two variable polynomials ---- *)
(* [[prex, prey], [postx, posty], [powx, powy, coefficient], ...] (mp1.py 597-650), again
   with at least one term *)
Record coef2 := { c2_prex : R; c2_prey : R; c2_postx : R; c2_posty : R;
                  c2_first : Z * Z * R; c2_rest : list (Z * Z * R) }.
Definition c2_rows (c : coef2) : list (Z * Z * R) := c2_first c :: c2_rest c.
Definition group2 := list coef2.

(* value, x, y, xx, xy, yy *)
Definition jet2 := (fl * fl * fl * fl * fl * fl)%type.

(* mp1.py 728-742: the inner loop on jj for one ii; returns the terms not used *)
Fixpoint loopy (diff : nat) (y0 : fl) (ii : Z) (n : nat) (rows : list (Z * Z * R)) (st : jet1)
  : list (Z * Z * R) * jet1 :=
  match n with
  | O => (rows, st)
  | S m =>
      let '(q, qy, qyy) := st in
      let qyy' := if diff2 diff then (num 2 * qy + y0 * qyy)%fl else qyy in
      let qy' := if diff1 diff then (q + y0 * qy)%fl else qy in
      match rows with
      | (i, j, c) :: rest =>
          if andb (Z.eqb i ii) (Z.eqb j (Z.of_nat m))
          then loopy diff y0 ii m rest ((num c + y0 * q)%fl, qy', qyy')
          else loopy diff y0 ii m rows ((q * y0)%fl, qy', qyy')
      | [] => loopy diff y0 ii m rows ((q * y0)%fl, qy', qyy')
      end
  end.

(* mp1.py 744-764: fold the inner polynomial into the outer one *)
Definition fold_q (diff : nat) (x0 : fl) (q qy qyy : fl) (st : jet2) : jet2 :=
  let '(p, px, py, pxx, pxy, pyy) := st in
  ((q + x0 * p)%fl,
   (if diff1 diff then p + x0 * px else px)%fl,
   (if diff1 diff then qy + x0 * py else py)%fl,
   (if diff2 diff then num 2 * px + x0 * pxx else pxx)%fl,
   (if diff2 diff then py + x0 * pxy else pxy)%fl,
   (if diff2 diff then qyy + x0 * pyy else pyy)%fl).
Definition fold_none (diff : nat) (x0 : fl) (st : jet2) : jet2 :=
  let '(p, px, py, pxx, pxy, pyy) := st in
  ((x0 * p)%fl,
   (if diff1 diff then p + x0 * px else px)%fl,
   (if diff1 diff then x0 * py else py)%fl,
   (if diff2 diff then num 2 * px + x0 * pxx else pxx)%fl,
   (if diff2 diff then py + x0 * pxy else pxy)%fl,
   (if diff2 diff then x0 * pyy else pyy)%fl).

(* mp1.py 714-764: the outer loop on ii *)
Fixpoint loopx (diff : nat) (x0 y0 : fl) (n : nat) (rows : list (Z * Z * R)) (st : jet2) : jet2 :=
  match n with
  | O => st
  | S m =>
      match rows with
      | (i, j, c) :: _ =>
          if Z.eqb i (Z.of_nat m)
          then
            let '(rows', (q, qy, qyy)) :=
              loopy diff y0 i (Z.to_nat (j + 1)) rows (num 0, num 0, num 0) in
            loopx diff x0 y0 m rows' (fold_q diff x0 q qy qyy st)
          else loopx diff x0 y0 m rows (fold_none diff x0 st)
      | [] => loopx diff x0 y0 m rows (fold_none diff x0 st)
      end
  end.

(* mp1.py 767-774: the chain rule for the pre-exponentials.  The code applies it to both
   variables, and only when prex != 1. *)
Definition pre_chain (diff : nat) (prex : R) (X Y : jet1) (st : jet2) : jet2 :=
  let '(_, x1, x2) := X in let '(_, y1, y2) := Y in
  let '(p, px, py, pxx, pxy, pyy) := st in
  if Req_EM_T prex 1 then st
  else (p,
    (if diff1 diff then px * x1 else px)%fl,
    (if diff1 diff then py * y1 else py)%fl,
    (if diff2 diff then pxx * x1 * x1 + px * x2 else pxx)%fl,
    (if diff2 diff then pxy * x1 * y1 else pxy)%fl,
    (if diff2 diff then pyy * y1 * y1 + py * y2 else pyy)%fl).

(* mp1.py 777-788 *)
Definition post_x (diff : nat) (x : fl) (postx : R) (st : jet2) : jet2 :=
  let '(p, px, py, pxx, pxy, pyy) := st in
  if Req_EM_T postx 0 then st
  else
    let f := fpow x postx in
    let fx := (num postx * f / x)%fl in
    let fxx := (fx * num (postx - 1) / x)%fl in
    ((p * f)%fl,
     (if diff1 diff then px * f + p * fx else px)%fl,
     (if diff1 diff then py * f else py)%fl,
     (if diff2 diff then pxx * f + num 2 * px * fx + p * fxx else pxx)%fl,
     (if diff2 diff then pxy * f + py * fx else pxy)%fl,
     (if diff2 diff then pyy * f else pyy)%fl).
(* mp1.py 789-800 *)
Definition post_y (diff : nat) (y : fl) (posty : R) (st : jet2) : jet2 :=
  let '(p, px, py, pxx, pxy, pyy) := st in
  if Req_EM_T posty 0 then st
  else
    let f := fpow y posty in
    let fy := (num posty * f / y)%fl in
    let fyy := (fy * num (posty - 1) / y)%fl in
    ((p * f)%fl,
     (if diff1 diff then px * f else px)%fl,
     (if diff1 diff then py * f + p * fy else py)%fl,
     (if diff2 diff then pxx * f else pxx)%fl,
     (if diff2 diff then pxy * f + px * fy else pxy)%fl,
     (if diff2 diff then pyy * f + num 2 * py * fy + p * fyy else pyy)%fl).

Definition zero2 : jet2 := (num 0, num 0, num 0, num 0, num 0, num 0).

(* mp1.py 658-800: one coefficient list *)
Definition poly2_coef (x y : fl) (c : coef2) (diff : nat) : jet2 :=
  let X := pre_power diff x (c2_prex c) in
  let Y := pre_power diff y (c2_prey c) in
  let II := fst (fst (c2_first c)) in
  let st := loopx diff (fst (fst X)) (fst (fst Y)) (Z.to_nat (II + 1)) (c2_rows c) zero2 in
  post_y diff y (c2_posty c) (post_x diff x (c2_postx c) (pre_chain diff (c2_prex c) X Y st)).

(* mp1.py 576-815 *)
Definition poly2 (x y : fl) (g : group2) (diff : nat) : jet2 :=
  match g with
  | [c] => poly2_coef x y c diff
  | _ =>
      fold_left (fun st c =>
        let '(s, sx, sy, sxx, sxy, syy) := st in
        let '(p, px, py, pxx, pxy, pyy) := poly2_coef x y c diff in
        ((s + p)%fl,
         (if diff1 diff then sx + px else sx)%fl,
         (if diff1 diff then sy + py else sy)%fl,
         (if diff2 diff then sxx + pxx else sxx)%fl,
         (if diff2 diff then sxy + pxy else sxy)%fl,
         (if diff2 diff then syy + pyy else syy)%fl)) g zero2
  end.

(* ---- ideal gas part of the Helmholtz free energy ---- *)
(* self.data['AOgroup']; the optional members are None when the key is absent *)
Record aogroup := { ao_Tscale : R; ao_dscale : R; ao_logt : option R; ao_tlogt : option R;
                    ao_coef0 : option group1; ao_coef1 : option (list (R * R)) }.

(* A running sum of a value and its derivatives; derivatives are added only when diff asks
   for them *)
Definition add1 (diff : nat) (S J : jet1) : jet1 :=
  let '(A, At, Att) := S in
  let '(p, pt, ptt) := J in
  ((A + p)%fl, (if diff1 diff then At + pt else At)%fl, (if diff2 diff then Att + ptt else Att)%fl).

(* mp1.py 1484-1570: first the terms in tau, added to log(dd) *)
Definition ao_tau (G : aogroup) (tau : fl) (diff : nat) (A : fl) : jet1 :=
  let S := (A, num 0, num 0) in
  (* 1524-1533 *)
  let S := match ao_logt G with
           | None => S
           | Some c =>
               let pt := (num c / tau)%fl in
               add1 diff S ((num c * flog tau)%fl, pt, (- pt / tau)%fl)
           end in
  (* 1536-1545 *)
  let S := match ao_tlogt G with
           | None => S
           | Some c => add1 diff S ((num c * tau * flog tau)%fl, (num c * (flog tau + num 1))%fl,
                                    (num c / tau)%fl)
           end in
  (* 1549-1555 *)
  let S := match ao_coef0 G with
           | None => S
           | Some g => add1 diff S (poly1 tau g diff)
           end in
  (* 1558-1568 *)
  match ao_coef1 G with
  | None => S
  | Some l =>
      fold_left (fun S tc =>
        let '(theta, c) := tc in
        let e := fexp (- num theta * tau)%fl in
        let pt := (num theta * e / (num 1 - e))%fl in
        let ptt := (- pt * (num theta + pt))%fl in
        add1 diff S ((num c * flog (num 1 - e))%fl, (num c * pt)%fl, (num c * ptt)%fl)) l S
  end.
Definition ao (G : aogroup) (tau dd : fl) (diff : nat) : jet2 :=
  let Ad := if diff1 diff then (num 1 / dd)%fl else num 0 in
  let Add := if diff2 diff then (- Ad / dd)%fl else num 0 in
  let '(A, At, Att) := ao_tau G tau diff (flog dd) in
  (A, At, Ad, Att, num 0, Add).

(* ---- residual part ---- *)
(* mp1.py 1638: [t, d, b, a, gam, ep, c] *)
Record ar1 := { r1_t : R; r1_d : R; r1_b : R; r1_a : R; r1_gam : R; r1_ep : R; r1_c : R }.
(* mp1.py 1665: [a, b, m, A, B, C, D, c] *)
Record ar2 := { r2_a : R; r2_b : R; r2_m : R; r2_A : R; r2_B : R; r2_C : R; r2_D : R; r2_c : R }.
(* self.data['ARgroup']; coef0 has at least one group (coef0[0], 1596) *)
Record argroup := { ar_Tscale : R; ar_dscale : R; ar_first : group2; ar_rest : list group2;
                    ar_coef1 : option (list ar1); ar_coef2 : option (list ar2) }.

(* A running sum of the six values; derivatives are added only when diff asks for them *)
Definition add_jet (diff : nat) (S J : jet2) : jet2 :=
  let '(A, At, Ad, Att, Atd, Add) := S in
  let '(p, pt, pd, ptt, ptd, pdd) := J in
  ((A + p)%fl, (if diff1 diff then At + pt else At)%fl, (if diff1 diff then Ad + pd else Ad)%fl,
   (if diff2 diff then Att + ptt else Att)%fl, (if diff2 diff then Atd + ptd else Atd)%fl,
   (if diff2 diff then Add + pdd else Add)%fl).

(* mp1.py 1601-1632: one term exp(-dd**k) * poly; ddk is dd**k.  The values of derivatives
   that diff does not ask for are never used. *)
Definition ar0_term (tau dd : fl) (k : nat) (ddk : fl) (g : group2) (diff : nat) : jet2 :=
  let '(p, pt, pd, ptt, ptd, pdd) := poly2 tau dd g diff in
  let e := fexp (- ddk)%fl in
  let ed := (num (- INR k) * ddk / dd)%fl in
  let edd := (ed * (num (INR k - 1) / dd + ed))%fl in
  ((p * e)%fl, (pt * e)%fl, (e * (p * ed + pd))%fl, (ptt * e)%fl,
   (e * (ptd + pt * ed))%fl, (e * (p * edd + num 2 * pd * ed + pdd))%fl).
Fixpoint ar0_loop (tau dd : fl) (k : nat) (ddk : fl) (gs : list group2) (diff : nat) (S : jet2)
  : jet2 :=
  match gs with
  | [] => S
  | g :: gs' =>
      let ddk' := (ddk * dd)%fl in
      ar0_loop tau dd (k + 1) ddk' gs' diff
        (add_jet diff S (ar0_term tau dd (k + 1) ddk' g diff))
  end.

(* mp1.py 1638-1661 *)
Definition ar1_term (tau dd : fl) (r : ar1) : jet2 :=
  let t := r1_t r in let d := r1_d r in let a := r1_a r in let b := r1_b r in
  let ddm1 := (dd - num (r1_ep r))%fl in
  let ttm1 := (tau - num (r1_gam r))%fl in
  let e := fexp (- num a * (ddm1 * ddm1) - num b * (ttm1 * ttm1))%fl in
  let p := (num (r1_c r) * fpow dd d * fpow tau t)%fl in
  let pt := (num t * p / tau)%fl in
  let pd := (num d * p / dd)%fl in
  let et := (num (-2) * num b * ttm1 * e)%fl in
  let ed := (num (-2) * num a * ddm1 * e)%fl in
  let ptt := (num (t - 1) * pt / tau)%fl in
  let pdd := (num (d - 1) * pd / dd)%fl in
  let ptd := (num d * pt / dd)%fl in
  let ett := (num (-2) * num b * (e + ttm1 * et))%fl in
  let edd := (num (-2) * num a * (e + ddm1 * ed))%fl in
  let etd := (num (-2) * num b * ttm1 * ed)%fl in
  ((e * p)%fl, (e * pt + et * p)%fl, (e * pd + ed * p)%fl,
   (e * ptt + num 2 * et * pt + ett * p)%fl,
   (e * ptd + ed * pt + et * pd + etd * p)%fl,
   (e * pdd + num 2 * ed * pd + edd * p)%fl).

(* mp1.py 1666-1752: Delta of one element and its derivatives in dd, before the exponent b.
   small says that some element of the array has |dd-1| < 1e-6 (1687).  1/m is total here; m = 0 is a ZeroDivisionError in the code. *)
Definition ar2_delta (small : bool) (tau dd : fl) (r : ar2) : jet2 :=
  let ddm1 := (dd - num 1)%fl in
  let ttm1 := (tau - num 1)%fl in
  let m := (1 / r2_m r)%R in
  let a := r2_a r in
  let sq := (ddm1 * ddm1)%fl in
  let p := (num (r2_A r) * fpow sq (/ 2 * m))%fl in
  (* 1683-1705 *)
  let pd := if small then (num (r2_A r) * num m * fpow sq (/ 2 * m - / 2))%fl
            else (num m * p / ddm1)%fl in
  let pdd := if small then (num (r2_A r) * num m * num (m - 1) * fpow sq (/ 2 * m - 1))%fl
             else (pd * num (m - 1) / ddm1)%fl in
  (* 1708-1729 *)
  let p := (p - ttm1)%fl in
  let pt := num (-1) in
  let ptt := (num 2 * pt * pt)%fl in
  let ptd := (num 2 * pt * pd)%fl in
  let pdd := (num 2 * pd * pd + num 2 * p * pdd)%fl in
  let pt := (num 2 * p * pt)%fl in
  let pd := (num 2 * p * pd)%fl in
  let p := (p * p)%fl in
  (* 1733-1752 *)
  let e := (num (r2_B r) * fpow sq a)%fl in
  let ed := if small then (num (r2_B r) * num 2 * num a * fpow sq (a - / 2))%fl
            else (num 2 * num a * e / ddm1)%fl in
  let edd := if small
             then (num (r2_B r) * num 2 * num a * num (2 * a - 1) * fpow sq (a - 1))%fl
             else (num (2 * a - 1) * ed / ddm1)%fl in
  ((p + e)%fl, pt, (pd + ed)%fl, ptt, ptd, (pdd + edd)%fl).

(* mp1.py 1757-1790: Delta**b.  small says that some element of the array has |Delta| < 1e-6
   (1761).  Line 1789 uses ptt where the mixed derivative needs ptd; the model keeps it. *)
Definition ar2_power (small : bool) (b : R) (D : jet2) : jet2 :=
  let '(p, pt, pd, ptt, ptd, pdd) := D in
  let e := fpow p b in
  if small then
    let temp := (num b * fpow p (b - 1))%fl in
    let temp2 := (num b * num (b - 1) * fpow p (b - 2))%fl in
    (e, (temp * pt)%fl, (temp * pd)%fl,
     (temp * ptt + temp2 * pt * pt)%fl, (temp * ptd + temp2 * pt * pd)%fl,
     (temp * pdd + temp2 * pd * pd)%fl)
  else
    let et := (num b * e * pt / p)%fl in
    let ed := (num b * e * pd / p)%fl in
    (e, et, ed,
     ((num (b - 1) * et * pt + num b * e * ptt) / p)%fl,
     ((num (b - 1) * et * pd + num b * e * ptt) / p)%fl,
     ((num (b - 1) * ed * pd + num b * e * pdd) / p)%fl).

(* mp1.py 1687, 1761 *)
Definition is_small (x : fl) : bool := flt (fabs x) (num (1 / 1000000)).

(* mp1.py 1665-1821: one term for one element; all are the (tau, dd) of the whole array *)
Definition ar2_term (all : list (fl * fl)) (tau dd : fl) (r : ar2) : jet2 :=
  let small := existsb (fun e : fl * fl => is_small (snd e - num 1)%fl) all in
  let small2 := existsb (fun e : fl * fl =>
                  let '(p, _, _, _, _, _) := ar2_delta small (fst e) (snd e) r in
                  is_small p) all in
  let '(e, et, ed, ett, etd, edd) := ar2_power small2 (r2_b r) (ar2_delta small tau dd r) in
  let c := num (r2_c r) in
  let p := (c * dd * e)%fl in
  let pt := (c * dd * et)%fl in
  let pd := (c * (e + dd * ed))%fl in
  let ptt := (c * dd * ett)%fl in
  let ptd := (c * (et + dd * etd))%fl in
  let pdd := (c * (num 2 * ed + dd * edd))%fl in
  (* 1805-1821 *)
  let ddm1 := (dd - num 1)%fl in
  let ttm1 := (tau - num 1)%fl in
  let CC := num (r2_C r) in let DD := num (r2_D r) in
  let e := fexp (- CC * (ddm1 * ddm1) - DD * (ttm1 * ttm1))%fl in
  let et := (num (-2) * DD * ttm1 * e)%fl in
  let ed := (num (-2) * CC * ddm1 * e)%fl in
  let ett := (num (-2) * DD * (ttm1 * et + e))%fl in
  let etd := (num (-2) * CC * ddm1 * et)%fl in
  let edd := (num (-2) * CC * (ddm1 * ed + e))%fl in
  ((p * e)%fl, (pt * e + p * et)%fl, (pd * e + p * ed)%fl,
   (ptt * e + num 2 * pt * et + p * ett)%fl,
   (ptd * e + pt * ed + pd * et + p * etd)%fl,
   (pdd * e + num 2 * pd * ed + p * edd)%fl).

(* mp1.py 1573-1824 *)
Definition ar (G : argroup) (all : list (fl * fl)) (tau dd : fl) (diff : nat) : jet2 :=
  let S := poly2 tau dd (ar_first G) diff in
  let S := ar0_loop tau dd 0 (num 1) (ar_rest G) diff S in
  let S := match ar_coef1 G with
           | None => S
           | Some l => fold_left (fun S r => add_jet diff S (ar1_term tau dd r)) l S
           end in
  match ar_coef2 G with
  | None => S
  | Some l => fold_left (fun S r => add_jet diff S (ar2_term all tau dd r)) l S
  end.

(* ---- saturation fits ---- *)
(* mp1.py 1828-1875.  Any other fn leaves p unbound: UnboundLocalError. *)
Definition satfit (tau : fl) (fn : Z) (g : group1) (diff : nat) : res jet1 :=
  let d1 := diff1 diff in let d2 := diff2 diff in
  if Z.eqb fn 0 then Ok (poly1 tau g diff)
  else
    let '(p, pt, ptt) := poly1 (num 1 - tau)%fl g diff in
    if Z.eqb fn 1 then Ok (p, (if d1 then - pt else pt)%fl, ptt)
    else if Z.eqb fn 2 then
      let p := fexp p in
      let pt := if d1 then (- pt)%fl else pt in
      let ptt := if d2 then (p * (ptt + pt * pt))%fl else ptt in
      let pt := if d1 then (pt * p)%fl else pt in
      Ok (p, pt, ptt)
    else if Z.eqb fn 3 then
      let invt := (num 1 / tau)%fl in
      let p := (p * invt)%fl in
      let pt := if d1 then (invt * (- pt - p))%fl else pt in
      let ptt := if d2 then (invt * (ptt - num 2 * pt))%fl else ptt in
      let p := fexp p in
      let ptt := if d2 then (p * (ptt + pt * pt))%fl else ptt in
      let pt := if d1 then (p * pt)%fl else pt in
      Ok (p, pt, ptt)
    else Err EUnboundLocal.

(* PSgroup, DSLgroup, DSVgroup: the scale is pscale or dscale *)
Record satgroup := { sg_Tscale : R; sg_scale : R; sg_fn : Z; sg_coef : group1 }.

(* mp1.py 1878-1897 (_dsv), 1900-1919 (_dsl), 2017-2040 (_ps): the same code *)
Definition satcurve (G : satgroup) (T : fl) (diff : nat) : res jet1 :=
  match satfit (T / num (sg_Tscale G))%fl (sg_fn G) (sg_coef G) diff with
  | Err e => Err e
  | Ok (d, dt, dtt) =>
      let scale := num (sg_scale G) in
      let Ts := num (sg_Tscale G) in
      Ok ((d * scale)%fl,
          (if diff1 diff then dt * (scale / Ts) else dt)%fl,
          (if diff2 diff then dtt * ((scale / Ts) / Ts) else dtt)%fl)
  end.

(* ---- property routines ---- *)
Record mpdata := { mp_R : R; mp_mw : R; mp_AO : aogroup; mp_AR : argroup;
                   mp_PS : satgroup; mp_DSL : satgroup; mp_DSV : satgroup;
                   mp_Tc : R; mp_pc : R; mp_dc : R; mp_Tt : R; mp_pt : R;
                   mp_Tlim : R * R; mp_plim : R * R; mp_dlim : R * R }.

Section Props.
Variable D : mpdata.
Let Rgas := num (mp_R D).

(* the reduced arrays: tau = Tscale/T, dd = d/dscale (e.g. mp1.py 2077-2081) *)
Definition red_ao (T d : fl) : fl * fl :=
  ((num (ao_Tscale (mp_AO D)) / T)%fl, (d / num (ao_dscale (mp_AO D)))%fl).
Definition red_ar (T d : fl) : fl * fl :=
  ((num (ar_Tscale (mp_AR D)) / T)%fl, (d / num (ar_dscale (mp_AR D)))%fl).
Definition ao_at (T d : fl) (diff : nat) : jet2 :=
  ao (mp_AO D) (fst (red_ao T d)) (snd (red_ao T d)) diff.
(* all: the (T, d) of the whole array *)
Definition ar_at (all : list (fl * fl)) (T d : fl) (diff : nat) : jet2 :=
  ar (mp_AR D) (map (fun e => red_ar (fst e) (snd e)) all)
     (fst (red_ar T d)) (snd (red_ar T d)) diff.

Variable all : list (fl * fl).

(* mp1.py 2066-2090; the derivatives are 0. (pressure) or None (the others) when diff is 0,
   both are num 0 here *)
Definition mp_p (T d : fl) (diff : nat) : jet1 :=
  let '(tau, dd) := red_ar T d in
  let '(_, _, ard, _, artd, ardd) := ar_at all T d (diff + 1) in
  ((T * d * Rgas * (num 1 + dd * ard))%fl,
   (if diff1 diff then Rgas * d * (num 1 + dd * ard - tau * dd * artd) else num 0)%fl,
   (if diff1 diff then Rgas * T * (num 1 + num 2 * dd * ard + dd * dd * ardd) else num 0)%fl).

(* mp1.py 2993-3027.  The sum is scaled with the Tscale of ARgroup (3019, 3024). *)
Definition mp_e (T d : fl) (diff : nat) : jet1 :=
  let '(tt0, dd0) := red_ao T d in
  let ds0 := num (ao_dscale (mp_AO D)) in
  let '(_, at0, _, att0, atd0, _) := ao_at T d (diff + 1) in
  let '(tau, dd) := red_ar T d in
  let Ts := num (ar_Tscale (mp_AR D)) in
  let ds := num (ar_dscale (mp_AR D)) in
  let '(_, at1, _, att, atd, _) := ar_at all T d (diff + 1) in
  (((at0 + at1) * (Rgas * Ts))%fl,
   (if diff1 diff then (tt0 * tt0 * att0 + tau * tau * att) * - Rgas else num 0)%fl,
   (if diff1 diff then (atd0 / ds0 + atd / ds) * (Rgas * Ts) else num 0)%fl).

(* mp1.py 3030-3063 *)
Definition mp_h (T d : fl) (diff : nat) : jet1 :=
  let '(tt0, dd0) := red_ao T d in
  let ds0 := num (ao_dscale (mp_AO D)) in
  let '(_, at0, _, att0, atd0, _) := ao_at T d (diff + 1) in
  let '(tau, dd) := red_ar T d in
  let ds := num (ar_dscale (mp_AR D)) in
  let '(_, at1, ad, att, atd, add) := ar_at all T d (diff + 1) in
  (((num 1 + tt0 * at0 + (dd * ad + tau * at1)) * (Rgas * T))%fl,
   (if diff1 diff
    then (num 1 - tt0 * tt0 * att0 + (dd * ad - tau * (tau * att + dd * atd))) * Rgas
    else num 0)%fl,
   (if diff1 diff
    then (tt0 * atd0 / ds0 + (ad + dd * add + tau * atd) / ds) * (Rgas * T) else num 0)%fl).

(* mp1.py 3066-3099 *)
Definition mp_s (T d : fl) (diff : nat) : jet1 :=
  let '(tt0, dd0) := red_ao T d in
  let ds0 := num (ao_dscale (mp_AO D)) in
  let '(a0, at0, ad0, att0, atd0, _) := ao_at T d (diff + 1) in
  let '(tau, dd) := red_ar T d in
  let ds := num (ar_dscale (mp_AR D)) in
  let '(a, at1, ad, att, atd, _) := ar_at all T d (diff + 1) in
  (((tt0 * at0 - a0 + (tau * at1 - a)) * Rgas)%fl,
   (if diff1 diff then (tt0 * tt0 * att0 + tau * tau * att) * (- Rgas / T) else num 0)%fl,
   (if diff1 diff then ((tt0 * atd0 - ad0) / ds0 + (tau * atd - ad) / ds) * Rgas else num 0)%fl).

(* mp1.py 3102-3138 *)
Definition mp_f (T d : fl) (diff : nat) : jet1 :=
  let '(tt0, dd0) := red_ao T d in
  let ds0 := num (ao_dscale (mp_AO D)) in
  let '(a0, at0, ad0, _, _, _) := ao_at T d (diff + 1) in
  let '(tau, dd) := red_ar T d in
  let ds := num (ar_dscale (mp_AR D)) in
  let '(a, at1, ad, _, _, _) := ar_at all T d (diff + 1) in
  (((a0 + a) * (Rgas * T))%fl,
   (if diff1 diff then (a0 - tt0 * at0 + (a - tau * at1)) * Rgas else num 0)%fl,
   (if diff1 diff then (ad0 / ds0 + ad / ds) * (Rgas * T) else num 0)%fl).

(* mp1.py 3141-3175 *)
Definition mp_g (T d : fl) (diff : nat) : jet1 :=
  let '(tt0, dd0) := red_ao T d in
  let ds0 := num (ao_dscale (mp_AO D)) in
  let '(a0, at0, ad0, _, _, _) := ao_at T d (diff + 1) in
  let '(tau, dd) := red_ar T d in
  let ds := num (ar_dscale (mp_AR D)) in
  let '(a, at1, ad, _, atd, add) := ar_at all T d (diff + 1) in
  (((a0 + num 1 + (a + dd * ad)) * (Rgas * T))%fl,
   (if diff1 diff
    then (a0 + num 1 - tt0 * at0 + (a + dd * ad - tau * (at1 + dd * atd))) * Rgas else num 0)%fl,
   (if diff1 diff
    then (ad0 / ds0 + (num 2 * ad + dd * add) / ds) * (Rgas * T) else num 0)%fl).

(* mp1.py 3178-3205 *)
Definition mp_a (T d : fl) : fl :=
  let '(tt0, dd0) := red_ao T d in
  let '(_, _, _, att0, _, _) := ao_at T d 2 in
  let '(tau, dd) := red_ar T d in
  let '(_, _, ad, att, atd, add) := ar_at all T d 2 in
  let B := (num 1 + dd * (num 2 * ad + dd * add))%fl in
  let C := (num 1 + dd * (ad - tau * atd))%fl in
  let E := (tt0 * tt0 * att0 + tau * tau * att)%fl in
  fsqrt (Rgas * T * (B - C * C / E))%fl.

(* mp1.py 3208-3233 *)
Definition mp_cp (T d : fl) : fl :=
  let '(tt0, dd0) := red_ao T d in
  let '(_, _, _, att0, _, _) := ao_at T d 2 in
  let '(tau, dd) := red_ar T d in
  let '(_, _, ad, att, atd, add) := ar_at all T d 2 in
  let temp := (num 1 + dd * (ad - tau * atd))%fl in
  ((- tt0 * tt0 * att0
    + (- tau * tau * att + temp * temp / (num 1 + dd * (num 2 * ad + dd * add)))) * Rgas)%fl.

(* mp1.py 3236-3259 *)
Definition mp_cv (T d : fl) : fl :=
  let '(tt0, dd0) := red_ao T d in
  let '(_, _, _, att0, _, _) := ao_at T d 2 in
  let '(tau, dd) := red_ar T d in
  let '(_, _, _, att, _, _) := ar_at all T d 2 in
  ((tt0 * tt0 * att0 + tau * tau * att) * - Rgas)%fl.
End Props.

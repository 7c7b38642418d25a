(* Model of the property methods of the dynamic mixtures, src/pyromat/igtools.py 616-914 and
   1345-1801. *)
From Coq Require Import Reals ZArith List String.
From Verif Require Export Model_Igtools.
Import ListNotations.
Local Open Scope R_scope.
Local Open Scope string_scope.
Local Open Scope list_scope.

(* ---- array helpers ---- *)
(* all the indices of an array, in memory order *)
Fixpoint all_idx (s : list nat) : list (list nat) :=
  match s with
  | [] => [[]]
  | n :: s' => flat_map (fun k => map (cons k) (all_idx s')) (seq 0 n)
  end.
Definition to_list (a : nd) : list fl := map (nel a) (all_idx (nsh a)).
Fixpoint look (i : list nat) (l : list (list nat * fl)) : fl :=
  match l with
  | [] => None
  | (j, v) :: l' => if shape_eqb i j then v else look i l'
  end.
Definition of_list (s : list nat) (l : list fl) : nd :=
  {| nsh := s; nel := fun i => look i (combine (all_idx s) l) |}.

(* units.py 123-156 and 440-514 on an array *)
Definition nconvert (E : env) (q : quantity) (a : nd) (f t : option string) (e : option Z) : res nd :=
  do k <- convert (units_of (e_setup E) q) (e_cfg E) 1 f t e;
  Ok (np_map (fmul (Some k)) a).
Definition ntscale (E : env) (a : nd) (f t : option string) : res nd :=
  do _ <- temperature_scale (e_cfg E) 0 f t;
  Ok (np_map (fun x => match x with
                       | Some r => match temperature_scale (e_cfg E) r f t with
                                   | Ok y => Some y | Err _ => None end
                       | None => None end) a).

(* units.py 562-601 with an array of molecular weights: the array enters only between mass
   and molar units; numpy's division by a zero weight is not finite. *)
Definition nmatter (E : env) (a mw : nd) (f t : option string) (e : option Z) : res nd :=
  do mf <- ismass (e_setup E) (e_cfg E) f;
  do mt <- ismass (e_setup E) (e_cfg E) t;
  if Bool.eqb mf mt
  then do k <- matter (e_setup E) (e_cfg E) 1 1 f t e; Ok (np_map (fmul (Some k)) a)
  else np_op (fun v w =>
         match w with
         | Some w => if Req_EM_T w 0 then None
                     else match matter (e_setup E) (e_cfg E) 1 w f t e with
                          | Ok k => fmul (Some k) v
                          | Err _ => None
                          end
         | None => None
         end) a mw.

(* igtools.py 1345-1375: sum of quantity times the constituent's property *)
Fixpoint prop_loop (P : pool) (routine : gas -> fl -> fl) (names : list string) (q : nd) (k : nat)
  (T pval : nd) : res nd :=
  match names with
  | [] => Ok pval
  | s :: rest =>
      do t <- np_op fmul (row q k) (np_map (routine (gas_of P s)) T);
      do v <- np_op fadd pval t;
      prop_loop P routine rest q (S k) T v
  end.
Definition propeval (P : pool) (m : mix) (routine : gas -> fl -> fl) (T : nd) : res nd :=
  prop_loop P routine (x_c m) (x_q m) 0 T (scalar 0).

(* igtools.py 876-913: the pressure part of the entropy.  temp[I] = 1. with a boolean array
   I of the mixture's shape: numpy requires the leading dimensions to be equal. *)
Definition mask_fits (s t : list nat) : bool := shape_eqb (firstn (List.length s) t) s.
Fixpoint sp_loop (P : pool) (names : list string) (q qt : nd) (k : nat) (p sp : nd) : res nd :=
  match names with
  | [] => Ok sp
  | s :: rest =>
      do t1 <- np_op fmul p (row q k);
      do t2 <- np_op fdiv t1 qt;
      let t3 := np_map (fun x => fdiv x (Some (g_pref (gas_of P s)))) t2 in
      if mask_fits (tl (nsh q)) (nsh t3) then
        let t4 := {| nsh := nsh t3;
                     nel := fun i => if fle (nel q (k :: firstn (List.length (tl (nsh q))) i)) (Some 0)
                                     then Some 1 else nel t3 i |} in
        do u <- np_op fmul (row q k) (np_map flog t4);
        do v <- broadcast_to u (nsh sp);
        sp_loop P rest q qt (S k) p {| nsh := nsh sp; nel := fun i => fsub (nel sp i) (nel v i) |}
      else Err EIndexError
  end.
Definition sp_of (P : pool) (m : mix) (p : nd) : res nd :=
  do s <- sp_loop P (x_c m) (x_q m) (sum_rows (x_q m)) 0 p {| nsh := nsh p; nel := fun _ => Some 0 |};
  Ok (np_map (fun x => fmul x (Some const_Ru)) s).

(* igtools.py 1377-1406: the mean reference pressure.  When all are equal a number is
   returned; otherwise the logarithmic mean.  Positive reference pressures. *)
Definition pref_of (P : pool) (m : mix) : nd :=
  let prefs := map (fun s => g_pref (gas_of P s)) (x_c m) in
  match prefs with
  | [] => scalar 1                 (* an empty mixture raises earlier *)
  | p0 :: _ =>
      if forallb (fun p => if Req_EM_T p p0 then true else false) prefs then scalar p0
      else {| nsh := shape m;
              nel := fun i => fexp (fdiv (nel (sum_rows (weigh (map ln prefs) (x_q m))) i)
                                         (nel (sum_rows (x_q m)) i)) |}
  end.

(* ---- _argparse, igtools.py 616-863 ---- *)
Definition nkw := list (string * nd).
(* igtools.py 659-669 *)
Definition npositional (varg : list nd) (kw : nkw) : res nkw :=
  do kw <- match varg with
           | [] => Ok kw
           | a :: _ => if dmem "T" kw then Err PMParamError else Ok (dset "T" a kw)
           end;
  do kw <- match varg with
           | _ :: b :: _ => if dmem "p" kw then Err PMParamError else Ok (dset "p" b kw)
           | _ => Ok kw
           end;
  if Nat.ltb 2 (List.length varg) then Err PMParamError else Ok kw.
(* igtools.py 671-680 *)
Definition ndefaults (E : env) (kw : nkw) : res nkw :=
  let dT := def_T (e_cfg E) (e_defT E) (e_defTu E) in
  let dp := def_p (e_setup E) (e_cfg E) (e_defp E) (e_defpu E) in
  match List.length kw with
  | 1%nat => if dmem "T" kw
             then do p <- dp; Ok (dset "p" (scalar p) kw)
             else do t <- dT; Ok (dset "T" (scalar t) kw)
  | 0%nat => do t <- dT; do p <- dp; Ok (dset "p" (scalar p) (dset "T" (scalar t) kw))
  | _ => Ok kw
  end.
(* igtools.py 682-717 *)
Definition nrules (kw : nkw) : res unit :=
  if Nat.ltb 2 (List.length kw) then Err PMParamError
  else if existsb (fun k => negb (existsb (String.eqb k) legal_args)) (dkeys kw)
  then Err PMParamError
  else if Nat.ltb 1 (List.length (filter (fun k => dmem k kw) ["T"; "e"; "h"]))
  then Err PMParamError
  else if andb (dmem "v" kw) (dmem "d" kw) then Err PMParamError
  else Ok tt.

(* the temperature limits in K (igtools.py 653-655).  A mixture without constituents has
   infinite limits and every state is then out of bounds: PMParamError (856-858). *)
Definition limits (P : pool) (E : env) (m : mix) : res (R * R) :=
  do l <- igt_Tlim P E m;
  match l with
  | (Some lo, Some hi) =>
      do lo <- temperature_scale (e_cfg E) lo None (Some "K");
      do hi <- temperature_scale (e_cfg E) hi None (Some "K");
      Ok (lo, hi)
  | _ => Err PMParamError
  end.

(* _propeval at one element: the quantities of one mixture of the array *)
Definition cell_fn (P : pool) (m : mix) (routine : gas -> fl -> fl * fl) (i : list nat) (T : fl)
  : fl * fl :=
  let term (f : fl * fl -> fl) :=
    fold_left (fun acc k =>
      fadd acc (fmul (nel (x_q m) (k :: bidx (shape m) i))
                     (f (routine (gas_of P (nth k (x_c m) "")) T))))
      (seq 0 (nsubst m)) (Some 0) in
  (term fst, term snd).
(* igtools.py 1408-1480 from the middle of the range with every element selected: the loop
   is that of ig.py 319-413.  The property array must have the shape of the temperatures. *)
Definition niter (P : pool) (m : mix) (lo hi : R) (routine : gas -> fl -> fl * fl) (y : nd) : res nd :=
  match np_shape (shape m) (nsh y) with
  | Some s => if shape_eqb s (nsh y)
              then do x <- iter1 lo hi (map (cell_fn P m routine) (all_idx (nsh y))) (to_list y);
                   Ok (of_list (nsh y) x)
              else Err EValueError
  | None => Err EValueError
  end.
(* igtools.py 745-762 *)
Definition ninvert (P : pool) (E : env) (m : mix) (lo hi : R) (routine : gas -> fl -> fl * fl)
  (value : nd) : res nd :=
  do v <- nconvert E QEnergy value None (Some "kJ") None;
  do sh <- broadcast_shape (nsh v) (shape m);
  do y <- broadcast_to v sh;
  niter P m lo hi routine y.

(* both shapes of a pair with the mixture, e.g. igtools.py 815-818 *)
Definition pair_up (m : mix) (a b : nd) : res (nd * nd) :=
  do s1 <- broadcast_shape (nsh a) (shape m);
  do s2 <- broadcast_shape (nsh b) s1;
  do a' <- broadcast_to a s2;
  do b' <- broadcast_to b s2;
  Ok (a', b').

(* T, whether T is a read-only view (np.broadcast_to), p, d *)
Definition nstate := (nd * bool * option nd * option nd)%type.

(* igtools.py 796-806: pressure from entropy and temperature *)
Definition p_from_s (P : pool) (m : mix) (s T : nd) : res nd :=
  do t <- propeval P m (fun g x => fst (g_s g x)) T;
  do sp <- np_op fsub s t;
  let q := x_q m in
  let qt := sum_rows q in
  let mixing := {| nsh := shape m;
    nel := fun i => fmul (Some const_Ru)
      (fold_left (fun acc k =>
         fadd acc (fmul (nel q (k :: i))
           (flog (if fle (nel q (k :: i)) (Some 0) then Some 1
                  else fdiv (nel q (k :: i)) (nel qt i)))))
        (seq 0 (hd 0%nat (nsh q))) (Some 0)) |} in
  do sp2 <- np_op fadd sp mixing;
  do ex <- np_op fdiv (np_map (fun x => fdiv (lift1 Ropp x) (Some const_Ru)) sp2) qt;
  np_op fmul (pref_of P m) (np_map fexp ex).

(* igtools.py 734-852 *)
Definition nsolve (P : pool) (E : env) (m : mix) (lo hi : R) (kw : nkw) : res nstate :=
  let mw := mix_mw P m in
  let arg k := match dget k kw with Some a => Some (atleast_1d a) | None => None end in
  do T <- ores (arg "T") (fun v => ntscale E v None (Some "K"));
  do p <- ores (arg "p") (fun v => nconvert E QPressure v None (Some "Pa") None);
  do d <- ores (arg "d") (fun v =>
    do v1 <- nconvert E QVolume v None (Some "m3") (Some (-1)%Z);
    nmatter E v1 mw None (Some "kmol") None);
  do dv <- ores (arg "v") (fun v =>
    do v1 <- nconvert E QVolume v None (Some "m3") None;
    do v2 <- nmatter E v1 mw None (Some "kmol") (Some (-1)%Z);
    Ok (np_map reciprocal v2));
  let dd := match dv with Some x => Some x | None => d end in
  do Th <- ores (arg "h") (ninvert P E m lo hi g_h);
  let T := match Th with Some x => Some x | None => T end in
  do Te <- ores (arg "e") (ninvert P E m lo hi g_e);
  let T := match Te with Some x => Some x | None => T end in
  do s <- ores (arg "s") (fun v =>
    do v1 <- nconvert E QEnergy v None (Some "kJ") None;
    nconvert E QTemperature v1 None (Some "K") (Some (-1)%Z));
  match s with
  | Some s =>
      match d, p, T with
      | Some _, _, _ => Err PMParamError                    (* igtools.py 777-778 *)
      | None, Some p, _ =>                                  (* igtools.py 780-789 *)
          do s1 <- broadcast_shape (nsh s) (shape m);
          do s2 <- broadcast_shape (nsh p) s1;
          do p' <- broadcast_to p s2;
          do w <- sp_of P m p';
          do y <- np_op fsub s w;
          do T' <- niter P m lo hi g_s y;
          Ok (T', false, Some p', None)
      | None, None, Some T =>                               (* igtools.py 791-806 *)
          do s1 <- broadcast_shape (nsh s) (shape m);
          do s2 <- broadcast_shape (nsh T) s1;
          do _ <- broadcast_to s s2;
          do T' <- broadcast_to T s2;
          do p' <- p_from_s P m s T';
          Ok (T', true, Some p', None)
      | None, None, None => Err PMParamError                (* igtools.py 809-810 *)
      end
  | None =>
      match T, p, dd with
      | Some T, Some p, _ =>                                (* igtools.py 814-818 *)
          do r <- pair_up m T p; Ok (fst r, true, Some (snd r), None)
      | Some T, None, Some d =>                             (* igtools.py 819-823 *)
          do r <- pair_up m T d; Ok (fst r, true, None, Some (snd r))
      | Some _, None, None => Err PMParamError
      | None, Some p, Some d =>                             (* igtools.py 833-838 *)
          do r <- pair_up m p d;
          do T <- np_op (fun p d => fdiv p (fmul (Some R1000) d)) (fst r) (snd r);
          Ok (T, false, Some (fst r), Some (snd r))
      | None, _, _ => Err PMParamError
      end
  end.

(* igtools.py 854-863.  Assigning into a read-only view raises ValueError. *)
Definition nbounds (E : env) (lo hi : R) (T : nd) (ro : bool) : res nd :=
  let out x := orb (flt x (Some lo)) (flt (Some hi) x) in
  if forallb out (to_list T) then Err PMParamError
  else if existsb out (to_list T) then
    if ro then Err EValueError
    else Ok (np_map (fun x => if out x then e_oob E else x) T)
  else Ok T.

Definition nargparse (P : pool) (E : env) (m : mix) (varg : list nd) (kw : nkw)
  : res (nd * option nd * option nd) :=
  do lim <- limits P E m;
  do kw1 <- npositional varg kw;
  do kw2 <- ndefaults E kw1;
  do _ <- nrules kw2;
  do st <- nsolve P E m (fst lim) (snd lim) kw2;
  match st with (T, ro, p, d) =>
    do T' <- nbounds E (fst lim) (snd lim) T ro;
    Ok (T', p, d)
  end.

(* igtools.py 1653-1655 and others *)
Definition need_p (T : nd) (p d : option nd) : res nd :=
  match p, d with
  | Some p, _ => Ok p
  | None, Some d => np_op fmul d (np_map (fmul (Some R1000)) T)
  | None, None => Err PMParamError          (* never: _argparse returns p or d *)
  end.

(* ---- the methods ---- *)
Definition n_heat (E : env) (a : nd) : res nd :=
  do v <- nconvert E QEnergy a (Some "kJ") None None;
  nconvert E QTemperature v (Some "K") None (Some (-1)%Z).
(* igtools.py 1528-1548 *)
Definition n_cp (P : pool) (E : env) (m : mix) (varg : list nd) (kw : nkw) : res nd :=
  do st <- nargparse P E m varg kw;
  match st with (T, _, _) => do v <- propeval P m g_cp T; n_heat E v end.
(* igtools.py 1550-1572 *)
Definition n_cv (P : pool) (E : env) (m : mix) (varg : list nd) (kw : nkw) : res nd :=
  do st <- nargparse P E m varg kw;
  match st with (T, _, _) =>
    do v <- propeval P m g_cp T;
    do w <- np_op fsub v (np_map (fmul (Some const_Ru)) (sum_rows (x_q m)));
    n_heat E w
  end.
(* igtools.py 1574-1592 *)
Definition n_gam (P : pool) (E : env) (m : mix) (varg : list nd) (kw : nkw) : res nd :=
  do st <- nargparse P E m varg kw;
  match st with (T, _, _) =>
    do v <- propeval P m g_cp T;
    do cp <- np_op fdiv v (sum_rows (x_q m));
    Ok (np_map (fun c => fdiv c (fsub c (Some const_Ru))) cp)
  end.
(* igtools.py 1594-1613 *)
Definition n_h (P : pool) (E : env) (m : mix) (varg : list nd) (kw : nkw) : res nd :=
  do st <- nargparse P E m varg kw;
  match st with (T, _, _) =>
    do v <- propeval P m (fun g x => fst (g_h g x)) T; nconvert E QEnergy v (Some "kJ") None None
  end.
(* igtools.py 1615-1634 *)
Definition n_e (P : pool) (E : env) (m : mix) (varg : list nd) (kw : nkw) : res nd :=
  do st <- nargparse P E m varg kw;
  match st with (T, _, _) =>
    do v <- propeval P m (fun g x => fst (g_e g x)) T; nconvert E QEnergy v (Some "kJ") None None
  end.
(* igtools.py 1636-1659 *)
Definition n_s (P : pool) (E : env) (m : mix) (varg : list nd) (kw : nkw) : res nd :=
  do st <- nargparse P E m varg kw;
  match st with (T, p, d) =>
    do p <- need_p T p d;
    do v <- propeval P m (fun g x => fst (g_s g x)) T;
    do w <- sp_of P m p;
    do s <- np_op fadd v w;
    n_heat E s
  end.
(* igtools.py 1661-1683 and 1685-1707 *)
Definition n_gf (routine : gas -> fl -> fl * fl) (P : pool) (E : env) (m : mix)
  (varg : list nd) (kw : nkw) : res nd :=
  do st <- nargparse P E m varg kw;
  match st with (T, p, d) =>
    do p <- need_p T p d;
    do v <- propeval P m (fun g x => fst (routine g x)) T;
    do w <- sp_of P m p;
    do tw <- np_op fmul T w;
    do g <- np_op fsub v tw;
    nconvert E QEnergy g (Some "kJ") None None
  end.
Definition n_g := n_gf g_g.
Definition n_f := n_gf g_f.
(* igtools.py 1709-1730 *)
Definition n_T (P : pool) (E : env) (m : mix) (varg : list nd) (kw : nkw) : res nd :=
  do st <- nargparse P E m varg kw;
  match st with (T, _, _) => ntscale E T (Some "K") None end.
(* igtools.py 1732-1755 *)
Definition n_p (P : pool) (E : env) (m : mix) (varg : list nd) (kw : nkw) : res nd :=
  do st <- nargparse P E m varg kw;
  match st with (T, p, d) =>
    do p <- need_p T p d; nconvert E QPressure p (Some "Pa") None None
  end.
(* igtools.py 1757-1783; np.multiply(d, scale, out=d) *)
Definition n_d (P : pool) (E : env) (m : mix) (varg : list nd) (kw : nkw) : res nd :=
  do st <- nargparse P E m varg kw;
  match st with (T, p, d) =>
    do d <- match d, p with
            | Some d, _ => Ok d
            | None, Some p => np_op fdiv p (np_map (fmul (Some R1000)) T)
            | None, None => Err PMParamError
            end;
    do k1 <- nmatter E (scalar 1) (mix_mw P m) (Some "kmol") None None;
    do k2 <- nconvert E QVolume k1 (Some "m3") None (Some (-1)%Z);
    do k3 <- broadcast_to k2 (nsh d);
    Ok {| nsh := nsh d; nel := fun i => fmul (nel d i) (nel k3 i) |}
  end.
(* igtools.py 1785-1801 *)
Definition n_v (P : pool) (E : env) (m : mix) (varg : list nd) (kw : nkw) : res nd :=
  do d <- n_d P E m varg kw; Ok (np_map reciprocal d).

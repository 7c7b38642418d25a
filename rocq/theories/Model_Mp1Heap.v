(* The argument handling and the property methods of the multi-phase class
   (src/pyromat/registry/mp1.py 2321-2989, 3568-4391) at the level of memory: which array each
   name refers to, and which statements write into it.  The memory, the arguments and the unit
   conversions are those of Model_IgHeap; the values are those of Model_Mp1Calls. *)
From Coq Require Import Reals ZArith List Bool Arith String.
From Verif Require Import Base Model_Num Model_Units Model_Igas Model_IgHeap Model_Mp1Calls.
Import ListNotations.
Local Open Scope R_scope.
Local Open Scope string_scope.
Local Open Scope list_scope.

Section MpHeap.
Variable D : mpdata.
Variable E : env.
Variable fuel : nat.
(* which arrays of the caller own their memory (`.base is None`); slices and other views do not.
   New arrays do, which for those made from a number (np.reshape of an array of zero dimensions)
   is a simplification: nobody else can see them. *)
Variable owns : list bool.
Definition owned (r : ref) : bool := match r with Whole l => nth l owns true | Rep _ _ => false end.

(* mp1.py 2385-2432: the rules look at the names only *)
Definition hp_rules (kw : hkwargs) : res unit := mp_rules (map (fun kv => (fst kv, [])) kw).

(* mp1.py 2455-2465, 2468-2478: kwarg['T'][Ioob] = def_oob, when some element is outside *)
Definition outside (lim : R * R) (x : fl) : bool := flt x (num (fst lim)) || flt (num (snd lim)) x.
Definition h_limited (lim : R * R) (r : ref) : M unit :=
  run v <- read r;
  run w <- lift (limited E lim v);
  if existsb (outside lim) v then write r w else ret tt.

(* the arguments in SI units *)
Record hsargs := { ha_T : option ref; ha_p : option ref; ha_d : option ref; ha_x : option ref;
                   ha_inv : option (inner * ref) }.
(* mp1.py 2494-2502 *)
Definition h_si_energy (r : ref) : M ref :=
  run r1 <- h_convert E QEnergy None (Some "J") None r;
  h_matter E (mp_mw D) None (Some "kg") (Some (-1)%Z) r1.
(* mp1.py 2453-2512 *)
Definition h_si_args (kw : list (string * ref)) : M hsargs :=
  run T <- mores (dget "T" kw) (fun r =>
    run r1 <- h_tscale E None (Some "K") r;
    run _ <- h_limited (mp_Tlim D) r1; ret r1);
  run p <- mores (dget "p" kw) (fun r =>
    run r1 <- h_convert E QPressure None (Some "Pa") None r;
    run _ <- h_limited (mp_plim D) r1; ret r1);
  run d <- mores (dget "d" kw) (fun r =>
    run r1 <- h_convert E QVolume None (Some "m3") (Some (-1)%Z) r;
    h_matter E (mp_mw D) None (Some "kg") None r1);
  run dv <- mores (dget "v" kw) (fun r =>
    run r1 <- h_convert E QVolume None (Some "m3") None r;
    run r2 <- h_matter E (mp_mw D) None (Some "kg") (Some (-1)%Z) r1;
    run v <- read r2;
    new (map reciprocal v));
  run h <- mores (dget "h" kw) h_si_energy;
  run e <- mores (dget "e" kw) h_si_energy;
  run s <- mores (dget "s" kw) (fun r =>
    run r1 <- h_si_energy r;
    h_convert E QTemperature None (Some "K") (Some (-1)%Z) r1);
  run x <- mores (dget "x" kw) (fun r =>
    run v <- read r;
    if existsb (fun x => flt (num 1) x) v || existsb (fun x => flt x (num (-1))) v
    then fail PMParamError else ret r);
  ret {| ha_T := T; ha_p := p; ha_d := match dv with Some v => Some v | None => d end; ha_x := x;
         ha_inv := match h, e, s with
                   | Some v, _, _ => Some (in_h D, v)
                   | None, Some v, _ => Some (in_e D, v)
                   | None, None, Some v => Some (in_s D, v)
                   | None, None, None => None
                   end |}.

(* np.broadcast_arrays: arrays of equal shapes are returned themselves; otherwise all of them
   become views, those of one element stretched.  The boolean says which of the two. *)
Definition stretch (n : nat) (v : arr) (r : ref) : ref :=
  if Nat.eqb (List.length v) n then r else Rep (ref_loc r) n.
Definition h_broadcast2 (a b : ref) : M (list (fl * fl) * bool * ref * ref) :=
  run x <- read a;
  run y <- read b;
  run l <- lift (broadcast2 x y);
  let n := List.length l in
  ret (l, Nat.eqb (List.length x) n && Nat.eqb (List.length y) n, stretch n x a, stretch n y b).
Definition h_broadcast3 (a b c : ref) : M (list (fl * fl * fl) * bool * ref * ref * ref) :=
  run x <- read a;
  run y <- read b;
  run z <- read c;
  run l <- lift (broadcast3 x y z);
  let n := List.length l in
  ret (l, Nat.eqb (List.length x) n && Nat.eqb (List.length y) n && Nat.eqb (List.length z) n,
       stretch n x a, stretch n y b, stretch n z c).

(* what _argparse returns: the values of every element, and the arrays T, d1 and x that hold
   them (d2 and I are never arrays of the caller) *)
Record hstate := { hs_pts : list point; hs_T : ref; hs_d1 : ref; hs_x : ref }.
Definition pts_T (l : list point) : arr := map s_T l.
Definition pts_d1 (l : list point) : arr := map s_d1 l.
Definition pts_x (l : list point) : arr := map s_x l.
Definition some_sat (l : list point) : bool := existsb s_sat l.
(* `if a.base is not None: a = np.array(a)`, followed by an assignment to some elements *)
Definition overwrite (own : bool) (r : ref) (v : arr) : M ref :=
  if own then run _ <- write r v; ret r else new v.

(* mp1.py 2526-2631: T, d1, x are new *)
Definition hs_hp (fn : inner) (h p : ref) : M hstate :=
  run b <- h_broadcast2 h p;
  let '(l, _, _, _) := b in
  run pts <- lift (from_hp D E fuel fn l);
  run T <- new (pts_T pts); run d1 <- new (pts_d1 pts); run x <- new (pts_x pts);
  ret {| hs_pts := pts; hs_T := T; hs_d1 := d1; hs_x := x |}.
(* mp1.py 2635-2680: d1 = d.copy() if some point is saturated, otherwise d1 = d *)
Definition hs_hd (fn : inner) (h d : ref) : M hstate :=
  run b <- h_broadcast2 h d;
  let '(l, _, _, d) := b in
  run pts <- lift (from_hd D E fn l);
  run T <- new (pts_T pts);
  run d1 <- (if some_sat pts then new (pts_d1 pts) else ret d);
  run x <- new (pts_x pts);
  ret {| hs_pts := pts; hs_T := T; hs_d1 := d1; hs_x := x |}.
(* mp1.py 2692-2788 *)
Definition hs_sT (fn : inner) (s T : ref) : M hstate :=
  run b <- h_broadcast2 s T;
  let '(l, _, _, T) := b in
  run pts <- lift (from_sT D E fn l);
  run d1 <- new (pts_d1 pts); run x <- new (pts_x pts);
  ret {| hs_pts := pts; hs_T := T; hs_d1 := d1; hs_x := x |}.
(* mp1.py 2834-2852: quality given above the critical temperature *)
Definition too_hot (l : list (fl * fl * fl)) : bool :=
  existsb (fun e => let '(T, _, x) := e in negb (flt x (num 0)) && flt (num (mp_Tc D)) T) l.
(* mp1.py 2806-2852: T and x are written into unless they are views *)
Definition hs_Tpx (T p x : ref) : M hstate :=
  run b <- h_broadcast3 T p x;
  let '(l, eq, T, _, x) := b in
  run pts <- lift (from_Tpx D E fuel l);
  run d1 <- new (pts_d1 pts);
  run T <- (if too_hot l then overwrite (eq && owned T) T (pts_T pts) else ret T);
  run x <- (if too_hot l then overwrite (eq && owned x) x (pts_x pts) else ret x);
  ret {| hs_pts := pts; hs_T := T; hs_d1 := d1; hs_x := x |}.
(* mp1.py 2855-2884: d1 = d1.copy() if some point is saturated *)
Definition hs_Td (T d : ref) : M hstate :=
  run b <- h_broadcast2 T d;
  let '(l, _, T, d) := b in
  let pts := map (from_Td D) l in
  run d1 <- (if some_sat pts then new (pts_d1 pts) else ret d);
  run x <- new (pts_x pts);
  ret {| hs_pts := pts; hs_T := T; hs_d1 := d1; hs_x := x |}.
(* mp1.py 2888-2898 *)
Definition hs_Tx (T x : ref) : M hstate :=
  run b <- h_broadcast2 T x;
  let '(l, _, T, x) := b in
  run pts <- lift (from_Tx D l);
  run d1 <- new (pts_d1 pts);
  ret {| hs_pts := pts; hs_T := T; hs_d1 := d1; hs_x := x |}.
(* mp1.py 2914-2942: `if d1.base is not None: d1 = d1.copy()`, then d1[Isat] = dsL[Isat] *)
Definition hs_pd (d p : ref) : M hstate :=
  run b <- h_broadcast2 d p;
  let '(l, eq, d, _) := b in
  run pts <- lift (from_pd D E l);
  run T <- new (pts_T pts);
  run d1 <- (if some_sat pts then overwrite (eq && owned d) d (pts_d1 pts) else ret d);
  run x <- new (pts_x pts);
  ret {| hs_pts := pts; hs_T := T; hs_d1 := d1; hs_x := x |}.
(* mp1.py 2946-2961 *)
Definition hs_px (p x : ref) : M hstate :=
  run pv <- read p;
  run xv <- read x;
  run pts <- lift (from_px D pv xv);
  run T <- new (pts_T pts); run d1 <- new (pts_d1 pts);
  ret {| hs_pts := pts; hs_T := T; hs_d1 := d1; hs_x := stretch (List.length pts) xv x |}.

(* mp1.py 2516-2989 *)
Definition h_from_args (a : hsargs) : M hstate :=
  match ha_inv a with
  | Some (fn, h) =>
      match ha_p a, ha_d a, ha_x a, ha_T a with
      | Some p, _, _, _ => hs_hp fn h p
      | None, Some d, _, _ => hs_hd fn h d
      | None, None, Some _, _ => fail PMParamError
      | None, None, None, Some T => hs_sT fn h T
      | None, None, None, None => fail EKeyError
      end
  | None =>
      match ha_T a, ha_p a, ha_d a, ha_x a with
      | Some T, Some p, _, Some x => hs_Tpx T p x
      | Some T, Some p, _, None => run x <- new [num (-1)]; hs_Tpx T p x
      | Some T, None, Some d, _ => hs_Td T d
      | Some T, None, None, Some x => hs_Tx T x
      | None, Some p, Some d, _ => hs_pd d p
      | None, Some p, None, Some x => hs_px p x
      | _, _, _, _ => fail PMParamError
      end
  end.
(* mp1.py 2321-2989 *)
Definition hp_argparse (varg : list harg) (kw : hkwargs) : M hstate :=
  run kw1 <- lift (h_positional varg kw);
  run kw2 <- lift (h_defaults E kw1);
  run _ <- lift (hp_rules kw2);
  run kw3 <- h_arrays kw2;
  run a <- h_si_args kw3;
  h_from_args a.

(* ---- the methods: the arrays returned are the property and the quality ---- *)
Definition hp_call := list harg -> hkwargs -> M (ref * ref).
(* p, e, f, g, h, s, a, cp, cv, gam: a new array *)
Definition hp_method (f : list point -> res arr) : hp_call := fun varg kw =>
  run st <- hp_argparse varg kw;
  run y <- lift (f (hs_pts st));
  run r <- new y;
  ret (r, hs_x st).
(* mp1.py 3568-3605 *)
Definition hp_p : hp_call := hp_method (fun l =>
  aconvert E QPressure
    (map (fun s => value0 (mp_p D (map (fun s => (s_T s, s_d2 s)) l) (s_T s) (s_d2 s) 0%nat)) l)
    (Some "Pa") None None).
(* mp1.py 3903-4100 *)
Definition hp_e : hp_call := hp_method (fun l => out_energy D E (mixed_value (mp_e D) l)).
Definition hp_f : hp_call := hp_method (fun l => out_energy D E (mixed_value (mp_f D) l)).
Definition hp_g : hp_call := hp_method (fun l => out_energy D E (mixed_value (mp_g D) l)).
Definition hp_h : hp_call := hp_method (fun l => out_energy D E (mixed_value (mp_h D) l)).
Definition hp_s : hp_call := hp_method (fun l => out_heat D E (mixed_value (mp_s D) l)).
(* mp1.py 4103-4144 *)
Definition hp_a : hp_call := hp_method (fun l =>
  do v <- aconvert E QLength
    (map (fun s => if s_sat s then e_oob E else mp_a D (liquid_all l) (s_T s) (s_d1 s)) l)
    (Some "m") None None;
  aconvert E QTime v (Some "s") None (Some (-1)%Z)).
(* mp1.py 4248-4291, 4294-4353, 4356-4391 *)
Definition hp_cp : hp_call := hp_method (fun l =>
  out_heat D E (map (fun s => if s_sat s then None else mp_cp D (liquid_all l) (s_T s) (s_d1 s)) l)).
Definition hp_cv : hp_call := hp_method (fun l => do v <- cv_values D l; out_heat D E v).
Definition hp_gam : hp_call := hp_method (fun l =>
  Ok (map (fun s => if s_sat s then None
                    else (mp_cp D (liquid_all l) (s_T s) (s_d1 s)
                          / mp_cv D (liquid_all l) (s_T s) (s_d1 s))%fl) l)).

(* `d1[I] = ...` (3634-3638, 4222-4225, 3879): the density of the mixture, in place *)
Definition h_mix (st : hstate) : M unit :=
  if some_sat (hs_pts st) then write (hs_d1 st) (map mix_density (hs_pts st)) else ret tt.
(* mp1.py 3634-3644 *)
Definition hp_d : hp_call := fun varg kw =>
  run st <- hp_argparse varg kw;
  run _ <- h_mix st;
  run r1 <- h_matter E (mp_mw D) (Some "kg") None None (hs_d1 st);
  run r2 <- h_convert E QVolume (Some "m3") None (Some (-1)%Z) r1;
  ret (r2, hs_x st).
(* mp1.py 3673-3676 *)
Definition hp_v : hp_call := fun varg kw =>
  run r <- hp_d varg kw;
  run v <- read (fst r);
  run r' <- new (map reciprocal v);
  ret (r', snd r).
(* mp1.py 3708-3712 *)
Definition hp_T : hp_call := fun varg kw =>
  run st <- hp_argparse varg kw;
  run r <- h_tscale E (Some "K") None (hs_T st);
  ret (r, hs_x st).
(* mp1.py 3741-3742 *)
Definition hp_x (varg : list harg) (kw : hkwargs) : M ref :=
  run st <- hp_argparse varg kw; ret (hs_x st).

(* the conversions with inplace=True *)
Definition h_matter_in (f t : option string) (e : option Z) (r : ref) : M unit :=
  run u <- lift (cfg_pair E "unit_matter" f t);
  run v <- read r;
  run w <- lift (amatter E v (mp_mw D) f t e);
  if String.eqb (fst u) (snd u) then ret tt else write r w.
Definition h_convert_in (q : quantity) (f t : option string) (e : option Z) (r : ref) : M unit :=
  run u <- lift (unit_pair (units_of (e_setup E) q) E f t);
  run v <- read r;
  run w <- lift (aconvert E q v f t e);
  if String.eqb (fst u) (snd u) then ret tt else write r w.
(* mp1.py 4147-4245 *)
Definition hp_hsd (varg : list harg) (kw : hkwargs) : M (ref * ref * ref * ref) :=
  run st <- hp_argparse varg kw;
  run _ <- h_mix st;
  let '(h, s, _) := hsd_values D (hs_pts st) in
  run c <- lift (convert (units_of (e_setup E) QEnergy) (e_cfg E) 1 (Some "J") None None);
  run c1 <- lift (matter (e_setup E) (e_cfg E) c (mp_mw D) (Some "kg") None None);
  run c2 <- lift (convert (units_of (e_setup E) QTemperature) (e_cfg E) c1 (Some "K") None None);
  run rh <- new (scaled c1 h);
  run rs <- new (scaled c2 s);
  run _ <- h_matter_in (Some "kg") None None (hs_d1 st);
  run _ <- h_convert_in QVolume (Some "m3") None (Some (-1)%Z) (hs_d1 st);
  ret (rh, rs, hs_d1 st, hs_x st).
(* mp1.py 3748-3900: the dictionary.  Its arrays T, d and x can be arrays of the caller; the others
   are new and are given by their values. *)
Definition hp_state (varg : list harg) (kw : hkwargs) : M (mp_state * ref * ref * ref) :=
  run st <- hp_argparse varg kw;
  run _ <- h_mix st;
  run o <- lift (state_dict D E (hs_pts st));
  run T <- h_tscale E (Some "K") None (hs_T st);
  run k <- lift (convert (units_of (e_setup E) QVolume) (e_cfg E) 1 (Some "m3") None (Some (-1)%Z));
  run k1 <- lift (matter (e_setup E) (e_cfg E) k (mp_mw D) (Some "kg") None None);
  run _ <- h_scale k1 (hs_d1 st);
  ret (o, T, hs_d1 st, hs_x st).
End MpHeap.

(* Model of the ideal gas mixture class, src/pyromat/registry/igmix.py.
   Its _argparse (174-395), _iter1 (398-485) and _sditer (487-499) are the text of ig.py with
   self._mw, self._Tlim and self._pref_pa in place of the species data, so that argparse of
   Model_Igas is used for them, applied to the gas record of the mixture. *)
From Coq Require Import Reals ZArith List String.
From Verif Require Export Model_Num Model_Units Model_Defaults Model_Igas.
Import ListNotations.
Local Open Scope R_scope.
Local Open Scope string_scope.
Local Open Scope list_scope.

(* pm.dat.data: what _bootstrap distinguishes of a collection member.  The last component of
   a species is its 'atoms' entry, if any. *)
Inductive member :=
| MIg (D : igdata) (atoms : option (list (string * R)))
| MIg2 (D : igdata) (atoms : option (list (string * R)))
| MOther.                                  (* any other class, e.g. mp1 or igmix *)
Definition collection := list (string * member).

(* self.data of a mixture: 'contents' (a dictionary) and 'bymass' *)
Record mixdata := { m_contents : list (string * R); m_bymass : bool }.

(* The attributes of a mixture object.  _smix does not exist before the bootstrap has
   finished (igmix.py 62-81): None.  The limits are None while infinite.  _pref_pa is a
   real number here: the theorems assume positive reference pressures, for which np.log and
   np.exp are finite. *)
Record mixobj := {
  x_bs : bool; x_x : list (string * R); x_y : list (string * R);
  x_mw : R; x_pref : R; x_lo : option R; x_hi : option R; x_smix : option fl }.

(* igmix.py 62-81 *)
Definition fresh : mixobj :=
  {| x_bs := false; x_x := []; x_y := []; x_mw := 0; x_pref := 0; x_lo := None; x_hi := None;
     x_smix := None |}.

(* max(a, -inf), min(b, inf) *)
Definition omax (a : R) (b : option R) : R := match b with Some c => Rmax a c | None => a end.
Definition omin (a : R) (b : option R) : R := match b with Some c => Rmin a c | None => a end.

(* igmix.py 119-132: a constituent that can be used *)
Definition constituent (coll : collection) (ss : string) : res igdata :=
  match dget ss coll with
  | None => Err PMDataError
  | Some (MIg D _) => Ok D
  | Some (MIg2 D _) => Ok D
  | Some MOther => Err PMDataError
  end.

(* igmix.py 134-156: one constituent; division by a zero molecular weight raises *)
Definition add_spec (bymass : bool) (ss : string) (qty : R) (D : igdata)
  (o : mixobj) (tx ty : R) : res (mixobj * R * R) :=
  if andb bymass (if Req_EM_T (d_mw D) 0 then true else false) then Err EZeroDivision
  else
    let spec_y := if bymass then qty else qty * d_mw D in
    let spec_x := if bymass then qty / d_mw D else qty in
    Ok ({| x_bs := x_bs o;
           x_y := dset ss spec_y (x_y o); x_x := dset ss spec_x (x_x o);
           x_mw := x_mw o + d_mw D * spec_x;
           x_pref := x_pref o + ln (d_pref D) * spec_x;
           x_lo := Some (omax (nth 0 (d_Tlim D) 0) (x_lo o));
           x_hi := Some (omin (last (d_Tlim D) 0) (x_hi o));
           x_smix := x_smix o |}, tx + spec_x, ty + spec_y).

(* igmix.py 117-156: the loop; an exception leaves the object as it is at that moment *)
Fixpoint boot_loop (coll : collection) (bymass : bool) (contents : list (string * R))
  (o : mixobj) (tx ty : R) : mixobj * res (R * R) :=
  match contents with
  | [] => (o, Ok (tx, ty))
  | (ss, qty) :: rest =>
      match constituent coll ss with
      | Err e => (o, Err e)
      | Ok D =>
          match add_spec bymass ss qty D o tx ty with
          | Err e => (o, Err e)
          | Ok (o', tx', ty') => boot_loop coll bymass rest o' tx' ty'
          end
      end
  end.

(* igmix.py 165-171: _smix = -Ru * sum x ln x; np.log(0) is not finite *)
Definition mixing_entropy (x : list (string * R)) : fl :=
  fmul (fold_left (fun acc p => fsub acc (fmul (Some (snd p)) (flog (Some (snd p))))) x (Some 0))
       (Some const_Ru).

(* igmix.py 84-171.  `fst` of the result is the object afterwards, also when it raised.  The
   two divisions by a total of zero raise ZeroDivisionError (158, 167-168); _mw and the
   fractions are Python floats.  The partial update of _x and _y when total_y is zero is
   simplified: they keep their values from before the second loop. *)
Definition bootstrap (coll : collection) (m : mixdata) (o : mixobj) : mixobj * res unit :=
  if x_bs o then (o, Ok tt)
  else
    let o0 := {| x_bs := true; x_x := []; x_y := []; x_mw := 0; x_pref := 0;
                 x_lo := None; x_hi := None; x_smix := x_smix o |} in
    match boot_loop coll (m_bymass m) (m_contents m) o0 0 0 with
    | (o1, Err e) => (o1, Err e)
    | (o1, Ok (tx, ty)) =>
        if Req_EM_T tx 0 then (o1, Err EZeroDivision)
        else
          let o2 := {| x_bs := true; x_x := x_x o1; x_y := x_y o1; x_mw := x_mw o1 / tx;
                       x_pref := exp (x_pref o1 / tx); x_lo := x_lo o1; x_hi := x_hi o1;
                       x_smix := Some (Some 0) |} in
          if Req_EM_T ty 0 then (o2, Err EZeroDivision)
          else
            let xs := map (fun p => (fst p, snd p / tx)) (x_x o1) in
            let ys := map (fun p => (fst p, snd p / ty)) (x_y o1) in
            ({| x_bs := true; x_x := xs; x_y := ys; x_mw := x_mw o2; x_pref := x_pref o2;
                x_lo := x_lo o2; x_hi := x_hi o2; x_smix := Some (mixing_entropy xs) |}, Ok tt)
    end.

(* ---- inner routines ---- *)
(* pm.dat.data[ss].  The collection is the one _bootstrap saw, in which the constituents are
   present; the value for a missing one (Python raises KeyError) is never used. *)
Definition member_gas (oob : fl) (coll : collection) (ss : string) : gas :=
  match dget ss coll with
  | Some (MIg D _) => ig_gas oob D
  | Some (MIg2 D _) => ig2_gas oob D
  | _ => {| g_Tlim := []; g_mw := 0; g_pref := 0; g_cp := fun _ => None;
            g_h := fun _ => (None, None); g_s := fun _ => (None, None);
            g_g := fun _ => (None, None) |}
  end.

(* the loops `out += x * pm.dat.data[ss]._cp(T)` (509-515, 534-541, 562-569, 590-597, 618-625) *)
Definition weighted (oob : fl) (coll : collection) (xs : list (string * R))
  (routine : gas -> fl) : fl :=
  fold_left (fun out p => fadd out (fmul (Some (snd p)) (routine (member_gas oob coll (fst p)))))
    xs (Some 0).

Definition smix_of (o : mixobj) : fl := match x_smix o with Some v => v | None => None end.

(* igmix.py 501-640: _cp, _h, _s (with the entropy of mixing), _g (less T times the entropy of
   mixing; its derivative is not corrected) *)
Definition mix_gas (oob : fl) (coll : collection) (o : mixobj) : gas :=
  let w := weighted oob coll (x_x o) in
  {| g_Tlim := match x_lo o, x_hi o with Some lo, Some hi => [lo; hi] | _, _ => [] end;
     g_mw := x_mw o; g_pref := x_pref o;
     g_cp := fun T => w (fun g => g_cp g T);
     g_h := fun T => (w (fun g => fst (g_h g T)), w (fun g => snd (g_h g T)));
     g_s := fun T => (fadd (w (fun g => fst (g_s g T))) (smix_of o),
                      w (fun g => snd (g_s g T)));
     g_g := fun T => (fsub (w (fun g => fst (g_g g T))) (fmul T (smix_of o)),
                      w (fun g => snd (g_g g T))) |}.

(* igmix.py 575-600: _f sums the constituents' _f *)
Definition mix_f (oob : fl) (coll : collection) (o : mixobj) (T : fl) : fl * fl :=
  let w := weighted oob coll (x_x o) in
  (fsub (w (fun g => fst (g_f g T))) (fmul T (smix_of o)), w (fun g => snd (g_f g T))).
(* _e (629-642) is the text of ig.py 472-485: g_e of Model_Igas *)

(* ---- unit conversions in place, one after the other ---- *)
(* igmix.py 955-956 and others *)
Definition out_energy (g : gas) (E : env) (v : arr) : res arr :=
  do v1 <- aconvert E QEnergy v (Some "kJ") None None;
  amatter E v1 (g_mw g) (Some "kmol") None (Some (-1)%Z).
(* igmix.py 890-892 and others *)
Definition out_heat (g : gas) (E : env) (v : arr) : res arr :=
  do v1 <- aconvert E QEnergy v (Some "kJ") None None;
  do v2 <- amatter E v1 (g_mw g) (Some "kmol") None (Some (-1)%Z);
  aconvert E QTemperature v2 (Some "K") None (Some (-1)%Z).
(* igmix.py 713-714 *)
Definition out_density (g : gas) (E : env) (v : arr) : res arr :=
  do v1 <- amatter E v (g_mw g) (Some "kmol") None None;
  aconvert E QVolume v1 (Some "m3") None (Some (-1)%Z).

(* ---- property methods, after _bootstrap ---- *)
(* igmix.py 686-715 *)
Definition mx_d (g : gas) (E : env) (varg : list arr) (kw : kwargs) : res arr :=
  do st <- argparse g E varg kw;
  match st with (T, p, d) => out_density g E (the_d T p d) end.
(* igmix.py 717-738 *)
Definition mx_v (g : gas) (E : env) (varg : list arr) (kw : kwargs) : res arr :=
  do d <- mx_d g E varg kw; Ok (map reciprocal d).
(* igmix.py 862-893 *)
Definition mx_cp (g : gas) (E : env) (varg : list arr) (kw : kwargs) : res arr :=
  do st <- argparse g E varg kw;
  match st with (T, _, _) => out_heat g E (map (g_cp g) T) end.
(* igmix.py 896-927 *)
Definition mx_cv (g : gas) (E : env) (varg : list arr) (kw : kwargs) : res arr :=
  do st <- argparse g E varg kw;
  match st with (T, _, _) =>
    out_heat g E (map (fun t => fsub (g_cp g t) (Some const_Ru)) T) end.
(* igmix.py 930-957 *)
Definition mx_h (g : gas) (E : env) (varg : list arr) (kw : kwargs) : res arr :=
  do st <- argparse g E varg kw;
  match st with (T, _, _) => out_energy g E (map (fun t => fst (g_h g t)) T) end.
(* igmix.py 993-1020 *)
Definition mx_e (g : gas) (E : env) (varg : list arr) (kw : kwargs) : res arr :=
  do st <- argparse g E varg kw;
  match st with (T, _, _) => out_energy g E (map (fun t => fst (g_e g t)) T) end.
(* igmix.py 960-991 *)
Definition mx_g (g : gas) (E : env) (varg : list arr) (kw : kwargs) : res arr :=
  do st <- argparse g E varg kw;
  match st with (T, p, d) =>
    out_energy g E (map2 (fun t p =>
      fadd (fst (g_g g t)) (fmul (fmul t (Some const_Ru)) (log_p g p))) T (the_p T p d)) end.
(* igmix.py 1022-1053; _f is the mixture's own *)
Definition mx_f (f : fl -> fl * fl) (g : gas) (E : env) (varg : list arr) (kw : kwargs) : res arr :=
  do st <- argparse g E varg kw;
  match st with (T, p, d) =>
    out_energy g E (map2 (fun t p =>
      fadd (fst (f t)) (fmul (fmul t (Some const_Ru)) (log_p g p))) T (the_p T p d)) end.
(* igmix.py 1088-1117 *)
Definition mx_s (g : gas) (E : env) (varg : list arr) (kw : kwargs) : res arr :=
  do st <- argparse g E varg kw;
  match st with (T, p, d) =>
    out_heat g E (map2 (fun t p =>
      fsub (fst (g_s g t)) (fmul (Some const_Ru) (log_p g p))) T (the_p T p d)) end.
(* p (741-768), T (771-800), gam (1120-1144), R (1073-1085) and state (806-859) are the text of
   ig.py: m_p, m_T, m_gam, m_R, m_state of Model_Igas. *)
(* igmix.py 1055-1070: kg and kmol instead of g and mol *)
Definition mx_mw (g : gas) (E : env) : res R :=
  do m <- convert (units_of (e_setup E) QMass) (e_cfg E) (g_mw g) (Some "kg") None None;
  convert (units_of (e_setup E) QMolar) (e_cfg E) m (Some "kmol") None (Some (-1)%Z).

(* ---- calls on a mixture object: every method starts with self._bootstrap() ---- *)
Inductive quantity_of := PT | Pp | Pd | Pv | Pcp | Pcv | Pgam | Ph | Pe | Ps | Pg | Pf.

Definition mx_method (q : quantity_of) (coll : collection) (o : mixobj) (E : env)
  (varg : list arr) (kw : kwargs) : res arr :=
  let g := mix_gas (e_oob E) coll o in
  match q with
  | PT => m_T g E varg kw | Pp => m_p g E varg kw | Pd => mx_d g E varg kw
  | Pv => mx_v g E varg kw | Pcp => mx_cp g E varg kw | Pcv => mx_cv g E varg kw
  | Pgam => m_gam g E varg kw | Ph => mx_h g E varg kw | Pe => mx_e g E varg kw
  | Ps => mx_s g E varg kw | Pg => mx_g g E varg kw
  | Pf => mx_f (mix_f (e_oob E) coll o) g E varg kw
  end.

(* the calls: a property method, X(), Y(), mw(), R(), Tlim(), atoms() *)
Inductive mixcall :=
| CProp (q : quantity_of) (varg : list arr) (kw : kwargs)
| CX | CY | Cmw | CR | CTlim | Catoms.
Inductive mixvalue :=
| VArr (a : arr) | VDict (d : list (string * R)) | VNum (r : R) | VLim (lo hi : option R).

(* igmix.py 645-665: atoms; a constituent without atomic data raises *)
Definition member_atoms (coll : collection) (ss : string) : option (list (string * R)) :=
  match dget ss coll with Some (MIg _ a) => a | Some (MIg2 _ a) => a | _ => None end.
Definition add_atoms (x : R) (acc : list (string * R)) (l : list (string * R)) : list (string * R) :=
  fold_left (fun acc p =>
    dset (fst p) ((match dget (fst p) acc with Some v => v | None => 0 end) + snd p * x) acc) l acc.
Fixpoint atoms_loop (coll : collection) (xs : list (string * R)) (acc : list (string * R))
  : res (list (string * R)) :=
  match xs with
  | [] => Ok acc
  | (ss, x) :: rest =>
      match member_atoms coll ss with
      | None => Err PMDataError
      | Some l => atoms_loop coll rest (add_atoms x acc l)
      end
  end.

(* igmix.py 669-680: temperature_scale of an infinite limit is infinite *)
Definition olim (E : env) (t : option R) : res (option R) :=
  match t with
  | Some r => do v <- temperature_scale (e_cfg E) r (Some "K") None; Ok (Some v)
  | None => do _ <- temperature_scale (e_cfg E) 0 (Some "K") None; Ok None
  end.

(* In the state left by a failed bootstrap _smix does not exist: the property methods are not
   modelled there (Err EAttributeError stands for whatever they do). *)
Definition mix_answer (c : mixcall) (coll : collection) (o : mixobj) (E : env) : res mixvalue :=
  match c with
  | CProp q varg kw =>
      match x_smix o with
      | Some _ => do a <- mx_method q coll o E varg kw; Ok (VArr a)
      | None => Err EAttributeError
      end
  | CX => Ok (VDict (x_x o))                       (* igmix.py 1147-1156 *)
  | CY => Ok (VDict (x_y o))                       (* igmix.py 1160-1169 *)
  | Cmw => do r <- mx_mw (mix_gas (e_oob E) coll o) E; Ok (VNum r)
  | CR => do r <- m_R (mix_gas (e_oob E) coll o) E; Ok (VNum r)
  | CTlim => do lo <- olim E (x_lo o); do hi <- olim E (x_hi o); Ok (VLim lo hi)
  | Catoms => do a <- atoms_loop coll (x_x o) []; Ok (VDict a)
  end.

Definition mix_call (coll : collection) (m : mixdata) (E : env) (o : mixobj) (c : mixcall)
  : mixobj * res mixvalue :=
  match bootstrap coll m o with
  | (o', Err e) => (o', Err e)
  | (o', Ok _) => (o', mix_answer c coll o' E)
  end.

(* a history of calls on one object, with the answers in order *)
Fixpoint mix_run (coll : collection) (m : mixdata) (E : env) (o : mixobj) (cs : list mixcall)
  : mixobj * list (res mixvalue) :=
  match cs with
  | [] => (o, [])
  | c :: rest =>
      let (o1, r) := mix_call coll m E o c in
      let (o2, rs) := mix_run coll m E o1 rest in (o2, r :: rs)
  end.

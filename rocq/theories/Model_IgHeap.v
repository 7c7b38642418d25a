(* The same argument handling and property methods as Model_Igas, at the level of memory: which
   array each name refers to, and which calls write into it.  src/pyromat/registry/ig.py (the line
   numbers of ig2.py as in Model_Igas). *)
From Coq Require Import Reals ZArith List Bool Arith String.
From Verif Require Import Base Model_Num Model_Units Model_Igas.
Import ListNotations.
Local Open Scope R_scope.
Local Open Scope string_scope.
Local Open Scope list_scope.

(* the memory: arrays, by address.  An array name refers to a whole array, or to an array of one
   element stretched to a length by np.broadcast_arrays, all of whose elements are one cell. *)
Definition heap := list arr.
Inductive ref := Whole (l : nat) | Rep (l n : nat).
Definition ref_loc (r : ref) : nat := match r with Whole l => l | Rep l _ => l end.
Definition hget (h : heap) (r : ref) : arr :=
  match r with
  | Whole l => nth l h []
  | Rep l n => repeat (nth 0 (nth l h []) None) n
  end.
Fixpoint upd (l : nat) (v : arr) (h : heap) : heap :=
  match h, l with
  | [], _ => []
  | _ :: h, O => v :: h
  | a :: h, S l => a :: upd l v h
  end.

(* a computation that may write to memory and may raise *)
Definition M (A : Type) := heap -> heap * res A.
Definition ret {A} (x : A) : M A := fun h => (h, Ok x).
Definition fail {A} (e : exn) : M A := fun h => (h, Err e).
Definition mbind {A B} (a : M A) (f : A -> M B) : M B :=
  fun h => match a h with (h', Ok x) => f x h' | (h', Err e) => (h', Err e) end.
Notation "'run' x <- a ; b" := (mbind a (fun x => b)) (at level 200, x name, a at level 100, b at level 200).
Definition lift {A} (r : res A) : M A := fun h => (h, r).
(* a new array *)
Definition new (v : arr) : M ref := fun h => (h ++ [v], Ok (Whole (List.length h))).
Definition read (r : ref) : M arr := fun h => (h, Ok (hget h r)).
(* store the elements of v into the array r, one after the other *)
Definition write (r : ref) (v : arr) : M unit := fun h =>
  match r with
  | Whole l => (upd l v h, Ok tt)
  | Rep l _ => (match v with [] => h | _ => upd l [last v None] h end, Ok tt)
  end.

(* an argument: a float array of the caller (at an address), or a number, list or integer array,
   of which np.asarray(..., dtype=float) makes a new array.  An array of zero dimensions behaves
   as one of one element: np.reshape shares its memory (ig.py 170-174). *)
Inductive harg := HVal (v : arr) | HArr (l : nat).
Definition hkwargs := list (string * harg).

(* ig.py 107-117 *)
Definition h_positional (varg : list harg) (kw : hkwargs) : res hkwargs :=
  do kw <- match varg with
           | [] => Ok kw
           | a :: _ => if dmem "T" kw then Err PMParamError else Ok (dset "T" a kw)
           end;
  do kw <- match varg with
           | _ :: b :: _ => if dmem "p" kw then Err PMParamError else Ok (dset "p" b kw)
           | _ => Ok kw
           end;
  if Nat.ltb 2 (List.length varg) then Err PMParamError else Ok kw.
(* ig.py 119-130 *)
Definition h_defaults (E : env) (kw : hkwargs) : res hkwargs :=
  let dT := def_T (e_cfg E) (e_defT E) (e_defTu E) in
  let dp := def_p (e_setup E) (e_cfg E) (e_defp E) (e_defpu E) in
  match List.length kw with
  | 1%nat => if dmem "T" kw
             then do p <- dp; Ok (dset "p" (HVal [Some p]) kw)
             else do t <- dT; Ok (dset "T" (HVal [Some t]) kw)
  | 0%nat => do t <- dT; do p <- dp; Ok (dset "p" (HVal [Some p]) (dset "T" (HVal [Some t]) kw))
  | _ => Ok kw
  end.
(* ig.py 132-165; rules looks at the names only *)
Definition h_rules (kw : hkwargs) : res unit := rules (map (fun kv => (fst kv, [])) kw).

(* ig.py 170-174 *)
Definition asarray (a : harg) : M ref :=
  match a with HVal v => new v | HArr l => ret (Whole l) end.
Definition mores {A B} (o : option A) (f : A -> M B) : M (option B) :=
  match o with Some a => run b <- f a; ret (Some b) | None => ret None end.

(* the unit a conversion starts from and the one it ends at *)
Definition unit_pair (cv : conversion) (E : env) (f t : option string) : res (string * string) :=
  do a <- default_unit cv (e_cfg E) f; do b <- default_unit cv (e_cfg E) t; Ok (a, b).
Definition cfg_pair (E : env) (key : string) (f t : option string) : res (string * string) :=
  do a <- match f with None => cfg_get (e_cfg E) key | Some u => Ok u end;
  do b <- match t with None => cfg_get (e_cfg E) key | Some u => Ok u end; Ok (a, b).
(* units.py 123-156: with equal units the array itself is returned, otherwise a new one *)
Definition h_convert (E : env) (q : quantity) (f t : option string) (e : option Z) (r : ref) : M ref :=
  run u <- lift (unit_pair (units_of (e_setup E) q) E f t);
  run v <- read r;
  run w <- lift (aconvert E q v f t e);
  if String.eqb (fst u) (snd u) then ret r else new w.
(* units.py 556-601; 588 and 593 end in Conversion.__call__ *)
Definition h_matter (E : env) (mw : R) (f t : option string) (e : option Z) (r : ref) : M ref :=
  run u <- lift (cfg_pair E "unit_matter" f t);
  run v <- read r;
  run w <- lift (amatter E v mw f t e);
  if String.eqb (fst u) (snd u) then ret r else new w.
(* units.py 440-493 *)
Definition same_scale (f t : string) : bool :=
  if String.eqb f t then true
  else if String.eqb f "abs" then negb (orb (String.eqb t "C") (String.eqb t "F"))
  else if String.eqb t "abs" then negb (orb (String.eqb f "C") (String.eqb f "F"))
  else false.
Definition h_tscale (E : env) (f t : option string) (r : ref) : M ref :=
  run u <- lift (cfg_pair E "unit_temperature" f t);
  run v <- read r;
  run w <- lift (atscale E v f t);
  if same_scale (fst u) (snd u) then ret r else new w.

(* np.broadcast_arrays: equal shapes give the arrays themselves, otherwise one is a view *)
Definition h_broadcast (a b : ref) : M (ref * ref) :=
  run x <- read a;
  run y <- read b;
  run z <- lift (broadcast x y);
  match z with (_, _, sa, sb) =>
    ret (if sa then Rep (ref_loc a) (List.length y) else a, if sb then Rep (ref_loc b) (List.length x) else b)
  end.

(* ig.py 193-212: the converted values are read only; T is new *)
Definition h_invert (g : gas) (E : env) (fn : fl -> fl * fl) (a : ref) : M ref :=
  run r1 <- h_convert E QEnergy None (Some "kJ") None a;
  run r2 <- h_matter E (g_mw g) None (Some "kmol") (Some (-1)%Z) r1;
  run v <- read r2;
  run T <- lift (iter1 (Tlow g) (Thigh g) (map (fun _ => fn) v) v);
  new T.

(* ig.py 181-287 *)
Definition h_solve (g : gas) (E : env) (kw : list (string * ref)) : M (ref * option ref * option ref) :=
  run T <- mores (dget "T" kw) (h_tscale E None (Some "K"));
  run p <- mores (dget "p" kw) (h_convert E QPressure None (Some "Pa") None);
  run d <- mores (dget "d" kw) (fun r =>
    run r1 <- h_convert E QVolume None (Some "m3") (Some (-1)%Z) r;
    h_matter E (g_mw g) None (Some "kmol") None r1);
  run dv <- mores (dget "v" kw) (fun r =>
    run r1 <- h_convert E QVolume None (Some "m3") None r;
    run r2 <- h_matter E (g_mw g) None (Some "kmol") (Some (-1)%Z) r1;
    run v <- read r2;
    new (map reciprocal v));
  let d := match dv with Some x => Some x | None => d end in
  run Th <- mores (dget "h" kw) (h_invert g E (g_h g));
  let T := match Th with Some x => Some x | None => T end in
  run Te <- mores (dget "e" kw) (h_invert g E (g_e g));
  let T := match Te with Some x => Some x | None => T end in
  run s <- mores (dget "s" kw) (fun r =>
    run r1 <- h_convert E QEnergy None (Some "kJ") None r;
    run r2 <- h_matter E (g_mw g) None (Some "kmol") (Some (-1)%Z) r1;
    h_convert E QTemperature None (Some "K") (Some (-1)%Z) r2);
  let lo := Tlow g in let hi := Thigh g in
  match s, T, p, d with
  | Some s, _, _, Some d =>
      run b <- h_broadcast s d;
      let (s, d) := (b : ref * ref) in
      run sv <- read s;
      run dv <- read d;
      run T <- lift (iter1 lo hi (map (sditer g) dv) sv);
      run T <- new T;
      ret (T, None, Some d)
  | Some s, _, Some p, None =>
      run b <- h_broadcast s p;
      let (s, p) := (b : ref * ref) in
      run sv <- read s;
      run pv <- read p;
      (* ig.py 240: the entropy array is changed in place *)
      run _ <- write s (map2 fadd sv (map (fun x => fmul (Some const_Ru) (flog (fdiv x (Some (g_pref g))))) pv));
      run sv <- read s;
      run T <- lift (iter1 lo hi (map (fun _ => g_s g) sv) sv);
      run T <- new T;
      ret (T, Some p, None)
  | Some s, Some T, None, None =>
      run b <- h_broadcast s T;
      let (s, T) := (b : ref * ref) in
      run sv <- read s;
      run Tv <- read T;
      run p <- new (map2 (fun s T => fmul (Some (g_pref g)) (fexp (fdiv (fsub (fst (g_s g T)) s) (Some const_Ru)))) sv Tv);
      ret (T, Some p, None)
  | Some _, None, None, None => fail PMParamError
  | None, Some T, Some p, _ =>
      run b <- h_broadcast T p;
      let (T, p) := (b : ref * ref) in ret (T, Some p, None)
  | None, Some T, None, Some d =>
      run b <- h_broadcast T d;
      let (T, d) := (b : ref * ref) in ret (T, None, Some d)
  | None, Some _, None, None => fail PMParamError
  | None, None, Some p, Some d =>
      run b <- h_broadcast p d;
      let (p, d) := (b : ref * ref) in
      run pv <- read p;
      run dv <- read d;
      run T <- new (map2 (fun p d => fdiv p (fmul (Some R1000) d)) pv dv);
      ret (T, Some p, Some d)
  | None, None, Some _, None => fail PMParamError
  | None, None, None, _ => fail PMParamError
  end.

(* ig.py 289-297: T[I] = def_oob, when some element is out of range, writes into T *)
Definition h_bounds (g : gas) (E : env) (T : ref) : M unit :=
  run v <- read T;
  run w <- lift (bounds g E v);
  if existsb (out_of_range g) v then write T w else ret tt.

Fixpoint h_arrays (kw : hkwargs) : M (list (string * ref)) :=
  match kw with
  | [] => ret []
  | (k, a) :: kw => run r <- asarray a; run rest <- h_arrays kw; ret ((k, r) :: rest)
  end.
(* ig.py 70-298 *)
Definition h_argparse (g : gas) (E : env) (varg : list harg) (kw : hkwargs) : M (ref * option ref * option ref) :=
  run kw1 <- lift (h_positional varg kw);
  run kw2 <- lift (h_defaults E kw1);
  run _ <- lift (h_rules kw2);
  run kw3 <- h_arrays kw2;
  run st <- h_solve g E kw3;
  match st with (T, p, d) =>
    run _ <- h_bounds g E T;
    ret (T, p, d)
  end.

(* ---- property methods.  The names of the state are read; results are new arrays, except in
   d(), T() and p(), which convert in place the array they return. ---- *)
(* the pressure or density when _argparse gave only the other *)
Definition h_the_p (T : ref) (p d : option ref) : M ref :=
  match p, d with
  | Some p, _ => ret p
  | None, Some d => run t <- read T; run d <- read d; new (p_of t d)
  | None, None => new []
  end.
Definition h_the_d (T : ref) (p d : option ref) : M ref :=
  match d, p with
  | Some d, _ => ret d
  | None, Some p => run t <- read T; run p <- read p; new (d_of t p)
  | None, None => new []
  end.
(* np.multiply(r, k, out=r) *)
Definition h_scale (k : R) (r : ref) : M unit := run v <- read r; write r (scaled k v).
(* ig.py 1449-1456 *)
Definition hm_d (g : gas) (E : env) (varg : list harg) (kw : hkwargs) : M ref :=
  run st <- h_argparse g E varg kw;
  match st with (T, p, d) =>
    run d <- h_the_d T p d;
    run k <- lift (scale_density g E);
    run _ <- h_scale k d;
    ret d
  end.
(* ig.py 1478-1479 *)
Definition hm_v (g : gas) (E : env) (varg : list harg) (kw : hkwargs) : M ref :=
  run d <- hm_d g E varg kw;
  run v <- read d;
  new (map reciprocal v).
(* ig.py 1502-1510; temperature_scale(T, from_units='K', inplace=True) *)
Definition hm_T (g : gas) (E : env) (varg : list harg) (kw : hkwargs) : M ref :=
  let kw := if Nat.eqb (List.length varg + List.length kw) 1
            then dset "p" (HVal [Some (e_defp E)]) kw else kw in
  run st <- h_argparse g E varg kw;
  match st with (T, _, _) =>
    run u <- lift (cfg_pair E "unit_temperature" (Some "K") None);
    run v <- read T;
    run w <- lift (atscale E v (Some "K") None);
    run _ <- (if same_scale (fst u) (snd u) then ret tt else write T w);
    ret T
  end.
(* ig.py 1532-1537; pressure(p, from_units='Pa', inplace=True) *)
Definition hm_p (g : gas) (E : env) (varg : list harg) (kw : hkwargs) : M ref :=
  run st <- h_argparse g E varg kw;
  match st with (T, p, d) =>
    run p <- h_the_p T p d;
    run u <- lift (unit_pair (units_of (e_setup E) QPressure) E (Some "Pa") None);
    run v <- read p;
    run w <- lift (aconvert E QPressure v (Some "Pa") None None);
    run _ <- (if String.eqb (fst u) (snd u) then ret tt else write p w);
    ret p
  end.
(* cp, cv, gam, h, e (one temperature) and s, g, f (temperature and pressure): a new array *)
Definition hm_temp (f : arr -> res arr) (g : gas) (E : env) (varg : list harg) (kw : hkwargs) : M ref :=
  run st <- h_argparse g E varg kw;
  match st with (T, _, _) => run v <- read T; run w <- lift (f v); new w end.
Definition hm_temp_p (f : arr -> arr -> res arr) (g : gas) (E : env) (varg : list harg) (kw : hkwargs) : M ref :=
  run st <- h_argparse g E varg kw;
  match st with (T, p, d) =>
    run p <- h_the_p T p d; run v <- read T; run q <- read p; run w <- lift (f v q); new w end.
(* ig.py 1604-1650 *)
Definition hm_cp g E := hm_temp (fun T => do k <- scale_heat g E; Ok (scaled k (map (g_cp g) T))) g E.
(* ig.py 1652-1681 *)
Definition hm_h g E := hm_temp (fun T => do k <- scale_energy g E; Ok (scaled k (map (fun t => fst (g_h g t)) T))) g E.
(* ig.py 1789-1818 *)
Definition hm_e g E :=
  hm_temp (fun T => do k <- scale_energy_e g E; Ok (scaled k (map (fun t => fsub (fst (g_h g t)) (fmul (Some const_Ru) t)) T))) g E.
(* ig.py 1755-1787 *)
Definition hm_s g E :=
  hm_temp_p (fun T p => do k <- scale_heat g E;
    Ok (scaled k (map2 (fun t p => fsub (fst (g_s g t)) (fmul (Some const_Ru) (log_p g p))) T p))) g E.
(* ig.py 1620-1650 *)
Definition hm_cv g E := hm_temp (fun T => do k <- scale_heat g E; Ok (scaled k (map (fun t => fsub (g_cp g t) (Some const_Ru)) T))) g E.
(* ig.py 1562-1586 *)
Definition hm_gam g E :=
  hm_temp (fun T => Ok (map (fun t => let cp := g_cp g t in fdiv cp (fsub cp (Some const_Ru))) T)) g E.
(* ig.py 1683-1717, 1719-1753 *)
Definition hm_g g E :=
  hm_temp_p (fun T p => do k <- scale_energy g E;
    Ok (scaled k (map2 (fun t p => fadd (fst (g_g g t)) (fmul (fmul t (Some const_Ru)) (log_p g p))) T p))) g E.
Definition hm_f g E :=
  hm_temp_p (fun T p => do k <- scale_energy g E;
    Ok (scaled k (map2 (fun t p => fadd (fst (g_f g t)) (fmul (fmul t (Some const_Ru)) (log_p g p))) T p))) g E.

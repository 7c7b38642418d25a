(* Whether a call of an ideal gas method prints the warning "failed to converge" of _iter1
   (src/pyromat/registry/ig.py 409-413 [ig2.py 718-722]) while it inverts e, h or s. *)
From Coq Require Import Reals ZArith List String Bool.
From Verif Require Import Base Model_Num Model_Units Model_Defaults Model_Igas.
Import ListNotations.
Local Open Scope R_scope.
Local Open Scope string_scope.
Local Open Scope list_scope.

Definition warned (r : res (arr * bool)) : bool := match r with Ok (_, w) => w | Err _ => false end.
Definition opt_or {A} (o : option A) (f : A -> bool) : bool := match o with Some a => f a | None => false end.

(* ig.py 181-245: the same conversions and calls of _iter1 as solve_state of Model_Igas, which
   has the value; an error has no warning of its own *)
Definition call_warns (g : gas) (E : env) (kw : kwargs) : res bool :=
  let energy v := do v1 <- aconvert E QEnergy v None (Some "kJ") None;
                  amatter E v1 (g_mw g) None (Some "kmol") (Some (-1)%Z) in
  do p <- ores (dget "p" kw) (fun v => aconvert E QPressure v None (Some "Pa") None);
  do d <- ores (dget "d" kw) (fun v =>
    do v1 <- aconvert E QVolume v None (Some "m3") (Some (-1)%Z);
    amatter E v1 (g_mw g) None (Some "kmol") None);
  do dv <- ores (dget "v" kw) (fun v =>
    do v1 <- aconvert E QVolume v None (Some "m3") None;
    do v2 <- amatter E v1 (g_mw g) None (Some "kmol") (Some (-1)%Z);
    Ok (map reciprocal v2));
  let d := match dv with Some x => Some x | None => d end in
  do h <- ores (dget "h" kw) energy;
  do e <- ores (dget "e" kw) energy;
  do s <- ores (dget "s" kw) (fun v =>
    do v1 <- energy v; aconvert E QTemperature v1 None (Some "K") (Some (-1)%Z));
  let inv fns ys := warned (iter1_full (Tlow g) (Thigh g) fns ys) in
  do ws <- match s, d, p with
           | Some s, Some d, _ =>
               do b <- broadcast s d;
               match b with (s, d, _, _) => Ok (inv (map (sditer g) d) s) end
           | Some s, None, Some p =>
               do b <- broadcast s p;
               match b with (s, p, shared, _) =>
                 let s := inplace_add shared s
                   (map (fun x => fmul (Some const_Ru) (flog (fdiv x (Some (g_pref g))))) p) in
                 Ok (inv (map (fun _ => g_s g) s) s)
               end
           | _, _, _ => Ok false
           end;
  Ok (opt_or h (fun a => inv (map (fun _ => g_h g) a) a) ||
      (opt_or e (fun a => inv (map (fun _ => g_e g) a) a) || ws)).

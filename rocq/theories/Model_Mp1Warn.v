(* Whether a call of a multi-phase method prints one of the warnings "failed to converge" of
   _iter1 and _hybrid1 (src/pyromat/registry/mp1.py 1076-1080, 1242-1244) while it looks for the
   state.  The values are those of Model_Mp1Calls.  Simplification: the warnings of the density
   searches made inside of a temperature search (_tpiter) are left out. *)
From Coq Require Import Reals ZArith List String Bool.
From Verif Require Import Base Model_Num Model_Units Model_Defaults Model_Igas Model_Hybrid Model_Mp1Calls.
Import ListNotations.
Local Open Scope R_scope.
Local Open Scope string_scope.
Local Open Scope list_scope.

Section Warn.
Variable D : mpdata.
Variable E : env.
Variable fuel : nat.
Let oob := e_oob E.

(* mp1.py 2043-2063 *)
Definition Ts_warns (ps : list (bool * fl)) : res bool :=
  do r <- iter_loop ep_default (mp_Tt D * (99/100)) (mp_Tc D) 20%nat 20%nat (map (Ts_cell D) ps); Ok (snd r).
(* mp1.py 2093-2164 *)
Definition d_warns (l : list (bool * fl * fl * fl)) : res bool :=
  do es <- traverse (d_elem D fuel) l;
  do r <- hybrid1 true ep1 50%nat (xf_of oob) es;
  Ok (snd r).
(* mp1.py 2167-2274 *)
Definition T_warns (l : list (fl * fl)) : res bool :=
  let ps := map (fun e : fl * fl => (negb (fle (num (mp_pc D)) (snd e)), snd e)) l in
  do w1 <- Ts_warns ps;
  do Tsat <- mp_Ts D ps;
  let plans := map2 (fun e t => plan_T D (fst e) (snd e) t) l Tsat in
  do r <- hybrid1 true ep1 20%nat (xf_of oob) (map2 (fun e pl => T_elem D (fst e) (snd e) pl) l plans);
  Ok (w1 || snd r).
(* mp1.py 2526-2631 *)
Definition hp_warns (fn : inner) (l : list (fl * fl)) : res bool :=
  let ps := map (fun e : fl * fl => (negb (fle (num (mp_pc D)) (snd e) || fle (snd e) (num (mp_pt D))), snd e)) l in
  do w1 <- Ts_warns ps;
  do Tsat <- mp_Ts D ps;
  let plans := map2 (fun e t => plan_hp D fn (fst e) (snd e) t) l Tsat in
  do r <- hybrid1 true ep1 50%nat (xf_of oob) (map2 (fun e pl => hp_elem D E fuel fn (fst e) (snd e) pl) l plans);
  let Ts := map fl_of (fst r) in
  do w2 <- d_warns
    (map2 (fun (e : fl * fl) (tp : fl * hp_plan) => (negb (hp_sat (snd tp)), fst tp, snd e, None)) l (combine Ts plans));
  Ok (w1 || (snd r || w2)).
(* mp1.py 2635-2680 *)
Definition hd_warns (fn : inner) (l : list (fl * fl)) : res bool :=
  do r <- hybrid1 true ep1 50%nat (xf_of oob) (map (hd_elem D fn) l); Ok (snd r).
(* mp1.py 2692-2788 *)
Definition sT_warns (fn : inner) (l : list (fl * fl)) : res bool :=
  do es <- traverse (sT_elem D fn) (map (fun e => (e, plan_sT D fn (fst e) (snd e))) l);
  do r <- hybrid1 true ep1 50%nat (xf_of oob) es; Ok (snd r).

(* mp1.py 2516-2989 *)
Definition args_warns (a : sargs) : res bool :=
  match a_inv a with
  | Some (fn, h) =>
      match a_p a, a_d a, a_x a, a_T a with
      | Some p, _, _, _ => do l <- broadcast2 h p; hp_warns fn l
      | None, Some d, _, _ => do l <- broadcast2 h d; hd_warns fn l
      | None, None, None, Some T => do l <- broadcast2 h T; sT_warns fn l
      | _, _, _, _ => Ok false
      end
  | None =>
      match a_T a, a_p a, a_d a, a_x a with
      | Some T, Some p, _, x =>
          let x := match x with Some x => x | None => [num (-1)] end in
          do l <- broadcast3 T p x;
          d_warns (map (fun e => let '(T, p, x) := e in (flt x (num 0), T, p, num 0)) l)
      | None, Some p, Some d, _ => do l <- broadcast2 d p; T_warns l
      | None, Some p, None, Some x => do l <- broadcast2 p x; Ts_warns (map (fun e => (true, fst e)) l)
      | _, _, _, _ => Ok false
      end
  end.
(* mp1.py 2321-2989 *)
Definition call_warns (varg : list arr) (kw : kwargs) : res bool :=
  do kw1 <- positional varg kw;
  do kw2 <- defaults E kw1;
  do _ <- mp_rules kw2;
  do a <- si_args D E kw2;
  args_warns a.
(* mp1.py 3418-3447: Ts() with an argument *)
Definition Ts_call_warns (p : arr) : res bool :=
  do p <- aconvert E QPressure p None (Some "Pa") None;
  if outside_sat (mp_pt D) (mp_pc D) p then Err PMParamError
  else Ts_warns (map (fun p => (true, p)) p).
End Warn.

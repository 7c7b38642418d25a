(* Independent vocabulary for the arrays passed to the multi-phase class (C89).  passed, kelvins,
   unit_is and unmodified are those of Spec_IgHeap (C56). *)
From Coq Require Import Reals List Bool String.
From Verif Require Import Base Model_Num Model_Units Model_Igas Model_IgHeap Spec_IgHeap Model_Mp1Calls Spec_Mp1Calls Model_Mp1Heap.
Import ListNotations.
Local Open Scope R_scope.
Local Open Scope string_scope.
Local Open Scope list_scope.

(* the numbers an argument stands for, in the memory h *)
Definition given (h : heap) (a : harg) : arr := match a with HVal v => v | HArr l => nth l h [] end.
Definition positionals (h : heap) (varg : list harg) : list arr := map (given h) varg.
Definition keywords (h : heap) (kw : hkwargs) : kwargs := map (fun kv => (fst kv, given h (snd kv))) kw.
(* the argument of this name *)
Definition argument (varg : list harg) (kw : hkwargs) (name : string) (a : harg) : Prop :=
  dget name kw = Some a \/ (name = "T" /\ nth_error varg 0 = Some a) \/ (name = "p" /\ nth_error varg 1 = Some a).
(* the arrays passed exist *)
Definition allocated (h : heap) (varg : list harg) (kw : hkwargs) : Prop :=
  forall l, In (HArr l) varg \/ In (HArr l) (map snd kw) -> (l < List.length h)%nat.

Section Risk.
Variables (D : mpdata) (E : env) (fuel : nat) (owns : list bool) (h : heap) (varg : list harg) (kw : hkwargs).
(* the array at l owns its memory: it is not a slice or another view *)
Definition owner (l : nat) : Prop := nth l owns true = true.
(* temperatures in kelvin, or pressures in pascal, some of them out of range *)
Definition T_out (l : nat) : Prop :=
  kelvins E /\ passed varg kw "T" l /\ exists t, In (Some t) (nth l h []) /\ ~ in_range (mp_Tlim D) t.
Definition p_out (l : nat) : Prop :=
  unit_is E "unit_pressure" "Pa" /\ passed varg kw "p" l /\ exists p, In (Some p) (nth l h []) /\ ~ in_range (mp_plim D) p.
(* T, p and x are given, with a quality that is not negative at a temperature above the critical
   one; ts are the temperatures in kelvin, those out of range replaced by def_oob *)
Definition quality_above_critical (l : nat) : Prop :=
  owner l /\ ((kelvins E /\ passed varg kw "T" l) \/ passed varg kw "x" l) /\
  exists T p x ts i t q, argument varg kw "T" T /\ argument varg kw "p" p /\ argument varg kw "x" x /\
    (do v <- atscale E (given h T) None (Some "K"); limited E (mp_Tlim D) v) = Ok ts /\
    nth_error ts i = Some (Some t) /\ mp_Tc D < t /\ nth_error (given h x) i = Some q /\ ~ (exists y, q = Some y /\ y < 0).
(* densities in kg/m3, given with a pressure, some of them of a saturated mixture *)
Definition densities_saturated (l : nat) : Prop :=
  owner l /\ unit_is E "unit_volume" "m3" /\ unit_is E "unit_matter" "kg" /\ passed varg kw "d" l /\
  (exists p, argument varg kw "p" p) /\
  exists pts, mp_argparse D E fuel (positionals h varg) (keywords h kw) = Ok pts /\ exists s, In s pts /\ s_sat s = true.
(* the arrays the code writes into *)
Definition at_risk (l : nat) : Prop := T_out l \/ p_out l \/ quality_above_critical l \/ densities_saturated l.
(* none of them is passed under two names *)
Definition one_name : Prop := forall k1 k2 l, at_risk l -> passed varg kw k1 l -> passed varg kw k2 l -> k1 = k2.
End Risk.
(* every array of the caller, except those at risk, still holds what it held *)
Definition unmodified_except (risk : nat -> Prop) (h h' : heap) : Prop :=
  (List.length h <= List.length h')%nat /\ forall l, (l < List.length h)%nat -> ~ risk l -> nth l h' [] = nth l h [].

(* the arrays of memory hold what the method on values returns, or both raise the same exception *)
Definition agrees2 (r : heap * res (ref * ref)) (v : res (arr * arr)) : Prop :=
  match snd r, v with
  | Ok (y, x), Ok (vy, vx) => hget (fst r) y = vy /\ hget (fst r) x = vx
  | Err e, Err e' => e = e'
  | _, _ => False
  end.
Definition agrees1 (r : heap * res ref) (v : res arr) : Prop :=
  match snd r, v with Ok y, Ok vy => hget (fst r) y = vy | Err e, Err e' => e = e' | _, _ => False end.
Definition agrees4 (r : heap * res (ref * ref * ref * ref)) (v : res (arr * arr * arr * arr)) : Prop :=
  match snd r, v with
  | Ok (a, b, c, x), Ok (va, vb, vc, vx) =>
      hget (fst r) a = va /\ hget (fst r) b = vb /\ hget (fst r) c = vc /\ hget (fst r) x = vx
  | Err e, Err e' => e = e'
  | _, _ => False
  end.
Definition agrees_state (r : heap * res (mp_state * ref * ref * ref)) (v : res mp_state) : Prop :=
  match snd r, v with
  | Ok (o, T, d, x), Ok st => o = st /\ hget (fst r) T = o_T st /\ hget (fst r) d = o_d st /\ hget (fst r) x = o_x st
  | Err e, Err e' => e = e'
  | _, _ => False
  end.

(* each method in memory and on values *)
Definition mp_methods : list ((mpdata -> env -> nat -> list bool -> hp_call) * (mpdata -> env -> nat -> mp_call)) :=
  [(hp_p, mm_p); (hp_d, mm_d); (hp_v, mm_v); (hp_T, mm_T); (hp_e, mm_e); (hp_f, mm_f); (hp_g, mm_g); (hp_h, mm_h);
   (hp_s, mm_s); (hp_a, mm_a); (hp_cp, mm_cp); (hp_cv, mm_cv); (hp_gam, mm_gam)].

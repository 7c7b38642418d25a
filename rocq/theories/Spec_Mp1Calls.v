(* Independent vocabulary for calls of the multi-phase class (C48-C50, C70-C75). *)
From Coq Require Import Reals List String.
From Verif Require Import Base Model_Num Model_Units Model_Defaults Spec_Units Model_Mp1Calls Spec_Igas Spec_Mp1.
Import ListNotations.
Local Open Scope R_scope.
Local Open Scope string_scope.
Local Open Scope list_scope.

(* the documented argument combinations: up to two of the eight properties, or T, p and x;
   given once; not two of e, h, s; not both d and v; x only with T and p *)
Definition mp_acceptable (varg : list arr) (kw : list (string * arr)) : Prop :=
  let names := map fst (supplied varg kw) in
  (List.length varg <= 2)%nat /\ NoDup names /\
  (forall n, In n names -> In n ["T"; "p"; "d"; "v"; "x"; "e"; "h"; "s"]) /\
  ((List.length names <= 2)%nat \/ forall n, In n names -> In n ["T"; "p"; "x"]) /\
  ~ (In "e" names /\ In "h" names) /\ ~ (In "e" names /\ In "s" names) /\
  ~ (In "h" names /\ In "s" names) /\ ~ (In "d" names /\ In "v" names) /\
  (In "x" names -> forall n, In n names -> In n ["T"; "p"; "x"]).

(* the property methods that take a state *)
Definition mp_methods (D : mpdata) (E : env) (fuel : nat) : list mp_call :=
  [mm_T D E fuel; mm_p D E fuel; mm_d D E fuel; mm_v D E fuel; mm_e D E fuel; mm_h D E fuel;
   mm_s D E fuel; mm_f D E fuel; mm_g D E fuel; mm_cp D E fuel; mm_cv D E fuel; mm_gam D E fuel;
   mm_a D E fuel].
(* the properties of a mixture that are sums over the phases *)
Definition extensive (D : mpdata) (E : env) (fuel : nat) : list mp_call :=
  [mm_e D E fuel; mm_h D E fuel; mm_s D E fuel; mm_f D E fuel; mm_g D E fuel].

(* the configured units and their sizes (Spec_Igas) *)
Definition mp_sizes (D : mpdata) (E : env) (z : sizes) : Prop := has_sizes E (mp_mw D) z.
(* r in configured units is the density d in kg/m3 *)
Definition density_is (D : mpdata) (z : sizes) (r d : R) : Prop := r * (z_kM z * mp_mw D) / z_kV z = d.
Definition pressure_is (z : sizes) (r p : R) : Prop := r * z_kP z = p.
Definition energy_is (D : mpdata) (z : sizes) (r e : R) : Prop := r * z_kE z / (z_kM z * mp_mw D) = e.
(* kT is in degrees Rankine: 9/5 of them are one kelvin *)
Definition entropy_is (D : mpdata) (z : sizes) (r s : R) : Prop :=
  r * z_kE z / (z_kM z * mp_mw D) / (z_kT z / (9/5)) = s.
Definition kelvin_is (E : env) (r T : R) : Prop := temperature_scale (e_cfg E) r None (Some "K") = Ok T.

(* argument n of the call is a, and its i-th element (stretched if it has one) is r *)
Definition argument (varg : list arr) (kw : list (string * arr)) (i : nat) (n : string) (r : R) : Prop :=
  exists a, In (n, a) (supplied varg kw) /\ Spec_Igas.elem a i = Some (Some r).
(* the result of the call has an element i: the arrays can be broadcast to more than i elements *)
Definition in_result (varg : list arr) (kw : list (string * arr)) (i : nat) : Prop :=
  compatible (supplied varg kw) /\ exists n a, In (n, a) (supplied varg kw) /\ (i < List.length a)%nat.

(* element i of the call is at temperature T (in K) and density d (in kg/m3), by T and d or v *)
Definition state_Td (D : mpdata) (E : env) (z : sizes) (varg : list arr) (kw : list (string * arr))
    (i : nat) (T d : R) : Prop :=
  NoDup (map fst kw) /\ mp_acceptable varg kw /\ in_result varg kw i /\
  (exists t, argument varg kw i "T" t /\ kelvin_is E t T) /\
  ((exists r, argument varg kw i "d" r /\ density_is D z r d) \/
   (exists v, argument varg kw i "v" v /\ v <> 0 /\ density_is D z (1 / v) d)).
(* element i of the call is at temperature T and quality x *)
Definition state_Tx (E : env) (varg : list arr) (kw : list (string * arr)) (i : nat) (T x : R) : Prop :=
  NoDup (map fst kw) /\ mp_acceptable varg kw /\ in_result varg kw i /\
  ~ In "p" (map fst (supplied varg kw)) /\
  (exists t, argument varg kw i "T" t /\ kelvin_is E t T) /\ argument varg kw i "x" x.

(* the saturation densities at T are dL and dV, from fits that can be evaluated there *)
Definition saturation (D : mpdata) (T dL dV : R) : Prop :=
  sat_wf (mp_DSL D) /\ sat_wf (mp_DSV D) /\ sat_smooth (mp_DSL D) T /\ sat_smooth (mp_DSV D) T /\
  dL = sat_value (mp_DSL D) T /\ dV = sat_value (mp_DSV D) T.
Definition in_range (lim : R * R) (x : R) : Prop := fst lim <= x <= snd lim.

(* y is between a and b *)
Definition between (a b y : R) : Prop := Rmin a b <= y <= Rmax a b.

(* the arguments of a call with the configured defaults: T and p without arguments, p next to
   T, T next to anything else *)
Definition call_args (E : env) (varg : list arr) (kw args : list (string * arr)) : Prop :=
  let s := supplied varg kw in
  match map fst s with
  | [] => exists t p, def_T (e_cfg E) (e_defT E) (e_defTu E) = Ok t /\
            def_p (e_setup E) (e_cfg E) (e_defp E) (e_defpu E) = Ok p /\
            args = [("T", [Some t]); ("p", [Some p])]
  | [n] => if String.eqb n "T"
           then exists p, def_p (e_setup E) (e_cfg E) (e_defp E) (e_defpu E) = Ok p /\ args = s ++ [("p", [Some p])]
           else exists t, def_T (e_cfg E) (e_defT E) (e_defTu E) = Ok t /\ args = s ++ [("T", [Some t])]
  | _ => args = s
  end.

Definition T_outside (D : mpdata) (E : env) (x : fl) : Prop :=
  exists r K, x = Some r /\ kelvin_is E r K /\ ~ in_range (mp_Tlim D) K.
Definition p_outside (D : mpdata) (z : sizes) (x : fl) : Prop :=
  exists r P, x = Some r /\ pressure_is z r P /\ ~ in_range (mp_plim D) P.
(* No temperature (pressure) is inside the limits of the substance, or a quality is not a
   quality, or quality is given with T or with p only, and a quality is negative, or T or p
   is inside the limits but above the critical point. *)
Definition out_of_range (D : mpdata) (E : env) (z : sizes) (args : list (string * arr)) : Prop :=
  (exists a, In ("T", a) args /\ forall x, In x a -> T_outside D E x) \/
  (exists a, In ("p", a) args /\ forall x, In x a -> p_outside D z x) \/
  (exists a r, In ("x", a) args /\ In (Some r) a /\ (r < -1 \/ 1 < r)) \/
  (In "x" (map fst args) /\ ~ (In "T" (map fst args) /\ In "p" (map fst args)) /\
   ((exists a r, In ("x", a) args /\ In (Some r) a /\ r < 0) \/
    (exists a r K, In ("T", a) args /\ In (Some r) a /\ kelvin_is E r K /\ in_range (mp_Tlim D) K /\ mp_Tc D < K) \/
    (exists a r P, In ("p", a) args /\ In (Some r) a /\ pressure_is z r P /\ in_range (mp_plim D) P /\ mp_pc D < P))).
(* T with density, specific volume or quality: nothing has to be searched for *)
Definition direct (args : list (string * arr)) : Prop :=
  forall n, In n ["p"; "e"; "h"; "s"] -> ~ In n (map fst args).
(* the methods that report a number at every point, in units that are those of the arguments *)
Definition mp_plain (D : mpdata) (E : env) (fuel : nat) : list mp_call :=
  [mm_T D E fuel; mm_p D E fuel; mm_d D E fuel; mm_v D E fuel; mm_e D E fuel; mm_h D E fuel;
   mm_s D E fuel; mm_f D E fuel; mm_g D E fuel; mm_cp D E fuel; mm_gam D E fuel].

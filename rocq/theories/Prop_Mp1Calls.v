(* Property theorems C48-C50: the property calls of the multi-phase class,
   src/pyromat/registry/mp1.py. *)
From Coq Require Import Reals List String Lra.
From Verif Require Import Base Model_Igas Spec_Igas Model_Mp1Calls Spec_Mp1Calls Proof_Mp1Mix Proof_Mp1SatApi Proof_Mp1Acc
  Proof_Mp1Hsd Proof_Mp1CallsEx.
Import ListNotations.
Local Open Scope R_scope.
Local Open Scope string_scope.
Local Open Scope list_scope.

(* ---- C48 : quality and the two-phase region ---- *)
(* a density strictly between the saturation densities: the quality is inside (0,1), it is the
   one of the lever rule, and the density computed back from it is the given density *)
Theorem C48_inside : forall D E fuel z, mp_sizes D E z ->
  forall varg kw i T d dL dV, state_Td D E z varg kw i T d -> in_range (mp_Tlim D) T -> T < mp_Tc D ->
  saturation D T dL dV -> 0 < dV -> dV < d < dL ->
  exists ys xs r x, mm_d D E fuel varg kw = Ok (ys, xs) /\ mm_x D E fuel varg kw = Ok xs /\
    nth_error xs i = Some (Some x) /\ 0 < x < 1 /\ (1 - x) * (1 / dL) + x * (1 / dV) = 1 / d /\
    nth_error ys i = Some (Some r) /\ density_is D z r d.
Proof. exact dome_quality. Qed.
Print Assumptions C48_inside.

(* every other density, and every temperature from the critical one up: quality -1 *)
Theorem C48_outside : forall D E fuel z, mp_sizes D E z ->
  forall varg kw i T d, state_Td D E z varg kw i T d -> in_range (mp_Tlim D) T ->
  mp_Tc D <= T \/ (exists dL dV, saturation D T dL dV /\ (d <= dV \/ dL <= d)) ->
  exists ys xs r, mm_d D E fuel varg kw = Ok (ys, xs) /\ mm_x D E fuel varg kw = Ok xs /\
    nth_error xs i = Some (Some (-1)) /\ nth_error ys i = Some (Some r) /\ density_is D z r d.
Proof. exact single_quality. Qed.
Print Assumptions C48_outside.

(* all methods report the same quality *)
Theorem C48_one_quality : forall D E fuel m varg kw y xs, In m (mp_methods D E fuel) ->
  m varg kw = Ok (y, xs) -> mm_x D E fuel varg kw = Ok xs.
Proof. exact quality_same. Qed.
Print Assumptions C48_one_quality.

(* a property of the mixture is the mean of its values at x = 0 and x = 1 at the same temperature,
   weighted with the reported quality, hence between them.  What is missing: arrays of several
   states of a substance with critical point terms, where a neighbour changes values (C69). *)
Theorem C48_mixture_density_partial : forall D E fuel z, mp_sizes D E z ->
  forall m, In m (extensive D E fuel) ->
  forall vA kA i T d dL dV vB kB j vC kC k yA xA yB xB yC xC rB rC,
  state_Td D E z vA kA i T d -> state_Tx E vB kB j T 0 -> state_Tx E vC kC k T 1 ->
  in_range (mp_Tlim D) T -> T < mp_Tc D -> saturation D T dL dV -> 0 < dV -> dV < d < dL ->
  m vA kA = Ok (yA, xA) -> m vB kB = Ok (yB, xB) -> m vC kC = Ok (yC, xC) ->
  ar_coef2 (mp_AR D) = None \/ (List.length yA = 1 /\ List.length yB = 1 /\ List.length yC = 1)%nat ->
  nth_error yB j = Some (Some rB) -> nth_error yC k = Some (Some rC) ->
  exists x, 0 < x < 1 /\ nth_error xA i = Some (Some x) /\
    nth_error yA i = Some (Some ((1 - x) * rB + x * rC)) /\ between rB rC ((1 - x) * rB + x * rC).
Proof. exact mixture_Td. Qed.
Print Assumptions C48_mixture_density_partial.

Theorem C48_mixture_quality_partial : forall D E fuel z, mp_sizes D E z ->
  forall m, In m (extensive D E fuel) ->
  forall vA kA i T x dL dV vB kB j vC kC k yA xA yB xB yC xC rB rC,
  state_Tx E vA kA i T x -> state_Tx E vB kB j T 0 -> state_Tx E vC kC k T 1 ->
  in_range (mp_Tlim D) T -> saturation D T dL dV ->
  m vA kA = Ok (yA, xA) -> m vB kB = Ok (yB, xB) -> m vC kC = Ok (yC, xC) ->
  ar_coef2 (mp_AR D) = None \/ (List.length yA = 1 /\ List.length yB = 1 /\ List.length yC = 1)%nat ->
  nth_error yB j = Some (Some rB) -> nth_error yC k = Some (Some rC) ->
  0 <= x <= 1 /\ nth_error xA i = Some (Some x) /\
  nth_error yA i = Some (Some ((1 - x) * rB + x * rC)) /\ between rB rC ((1 - x) * rB + x * rC).
Proof. exact mixture_Tx. Qed.
Print Assumptions C48_mixture_quality_partial.

(* the density from T and x is the one of the lever rule *)
Theorem C48_density : forall D E fuel z, mp_sizes D E z ->
  forall varg kw i T x dL dV ys xs, state_Tx E varg kw i T x -> in_range (mp_Tlim D) T ->
  saturation D T dL dV -> 0 < dL -> 0 < dV -> mm_d D E fuel varg kw = Ok (ys, xs) ->
  exists r d, nth_error ys i = Some (Some r) /\ density_is D z r d /\
    1 / d = (1 - x) * (1 / dL) + x * (1 / dV) /\ nth_error xs i = Some (Some x).
Proof. exact density_Tx. Qed.
Print Assumptions C48_density.

(* x = 0 and x = 1 are the phases es, hs, ss and ds report *)
Theorem C48_saturated : forall D E fuel z, mp_sizes D E z -> forall m ms (a yl yv : arr),
  In (m, ms) [(mm_e D E fuel, mm_es D E); (mm_h D E fuel, mm_hs D E); (mm_s D E fuel, mm_ss D E)] -> a <> [] ->
  fst (mp_Tlim D) <= mp_Tt D -> mp_Tc D <= snd (mp_Tlim D) -> ms (Some a) None = Ok (yl, yv) ->
  exists y0 x0 y1 x1, m [] [("T", a); ("x", [Some 0])] = Ok (y0, x0) /\ m [] [("T", a); ("x", [Some 1])] = Ok (y1, x1) /\
    List.length yl = List.length a /\ List.length yv = List.length a /\
    forall i rl rv, nth_error yl i = Some (Some rl) -> nth_error yv i = Some (Some rv) ->
      nth_error y0 i = Some (Some rl) /\ nth_error y1 i = Some (Some rv).
Proof. exact saturated_phases. Qed.
Print Assumptions C48_saturated.

Theorem C48_saturated_density : forall D E fuel z, mp_sizes D E z -> forall (a yl yv : arr), a <> [] ->
  fst (mp_Tlim D) <= mp_Tt D -> mp_Tc D <= snd (mp_Tlim D) -> mm_ds D E (Some a) None = Ok (yl, yv) ->
  exists y0 x0 y1 x1, mm_d D E fuel [] [("T", a); ("x", [Some 0])] = Ok (y0, x0) /\
    mm_d D E fuel [] [("T", a); ("x", [Some 1])] = Ok (y1, x1) /\
    List.length yl = List.length a /\ List.length yv = List.length a /\
    forall i rl rv, nth_error yl i = Some (Some rl) -> nth_error yv i = Some (Some rv) -> rl <> 0 -> rv <> 0 ->
      nth_error y0 i = Some (Some rl) /\ nth_error y1 i = Some (Some rv).
Proof. exact saturated_densities. Qed.
Print Assumptions C48_saturated_density.

(* 500 K at 10 and 60 kmol/m3 of a substance with saturation densities 900 and 9 kg/m3 *)
Example C48_instance : mp_sizes exP exE exz /\
  state_Td exP exE exz [] kTd 0 500 180 /\ state_Td exP exE exz [] kTd 1 500 1080 /\
  in_range (mp_Tlim exP) 500 /\ 500 < mp_Tc exP /\ saturation exP 500 900 9 /\ ar_coef2 (mp_AR exP) = None /\
  fst (mp_Tlim exP) <= mp_Tt exP /\ mp_Tc exP <= snd (mp_Tlim exP) /\
  (forall q, state_Tx exE [] (kTx q) 0 500 q) /\
  mm_s exP exE 0 [] (kTx (1/4)) = Ok ([Some (18 / 1000 * (3/4 * exs 900 + 1/4 * exs 9))], [Some (1/4)]) /\
  (exists y, mm_ss exP exE (Some [Some 500]) None = Ok y).
Proof. exact (conj exZ inst_C48). Qed.

(* ---- C49 : which calls are accepted ---- *)
(* every other combination is rejected with PMParamError *)
Theorem C49_combinations : forall D E fuel z, mp_sizes D E z -> forall m varg kw, defaults_known E ->
  In m (mp_methods D E fuel) -> NoDup (map fst kw) -> ~ mp_acceptable varg kw -> m varg kw = Err PMParamError.
Proof. exact others_rejected. Qed.
Print Assumptions C49_combinations.

(* so is a documented combination out of range *)
Theorem C49_range : forall D E fuel z, mp_sizes D E z -> forall m varg kw args,
  In m (mp_methods D E fuel) -> NoDup (map fst kw) -> mp_acceptable varg kw -> call_args E varg kw args ->
  compatible args -> (forall n a, In (n, a) args -> a <> []) -> out_of_range D E z args ->
  m varg kw = Err PMParamError.
Proof. exact range_rejected. Qed.
Print Assumptions C49_range.

(* a documented combination in range is accepted when nothing has to be searched for *)
Theorem C49_accepted_partial : forall D E fuel z, mp_sizes D E z -> forall m varg kw args,
  In m (mp_plain D E fuel) -> NoDup (map fst kw) -> mp_acceptable varg kw -> call_args E varg kw args ->
  compatible args -> e_oob E = None -> direct args -> ~ out_of_range D E z args ->
  exists out, m varg kw = Ok out.
Proof. exact direct_accepted. Qed.
Print Assumptions C49_accepted_partial.

(* and otherwise fails only by the search.  What is missing: that the searches succeed, and the
   heat capacity cv and speed of sound a, which fail for other reasons (C75). *)
Theorem C49_failures_partial : forall D E fuel z, mp_sizes D E z -> forall m varg kw args e,
  In m (mp_plain D E fuel) -> NoDup (map fst kw) -> mp_acceptable varg kw -> call_args E varg kw args ->
  compatible args -> e_oob E = None -> m varg kw = Err e ->
  (e = PMParamError /\ out_of_range D E z args) \/
  (~ direct args /\ (e = PMParamError \/ e = PMAnalysisError \/ e = EOutOfFuel)).
Proof. exact failures_explained. Qed.
Print Assumptions C49_failures_partial.

Example C49_instance : mp_sizes exP exE exz /\
  defaults_known exE /\ e_oob exE = None /\
  ~ mp_acceptable [] [("h", [Some 2]); ("s", [Some 3])] /\ ~ mp_acceptable [] [("d", [Some 2]); ("x", [Some 0])] /\
  mp_acceptable [] kbad /\ call_args exE [] kbad kbad /\ compatible kbad /\ (forall n a, In (n, a) kbad -> a <> []) /\
  out_of_range exP exE exz kbad /\ mm_h exP exE 0 [] kbad = Err PMParamError /\
  mp_acceptable [] kTd /\ call_args exE [] kTd kTd /\ direct kTd /\ compatible kTd /\ ~ out_of_range exP exE exz kTd /\
  call_args exE [[Some 500]] [] [("T", [Some 500]); ("p", [Some 1])].
Proof. exact (conj exZ inst_C49). Qed.

(* ---- C50 : the combined routine hsd ---- *)
(* it agrees when one unit of matter is a kilogram (and a degree is a kelvin, for the entropy) *)
Theorem C50_agrees_partial : forall D E fuel z, mp_sizes D E z -> forall varg kw h s d x,
  z_kM z * mp_mw D = 1 -> mm_hsd D E fuel varg kw = Ok (h, s, d, x) ->
  mm_h D E fuel varg kw = Ok (h, x) /\ mm_d D E fuel varg kw = Ok (d, x) /\
  (z_kT z / (9/5) = 1 -> mm_s D E fuel varg kw = Ok (s, x)).
Proof. exact hsd_agrees. Qed.
Print Assumptions C50_agrees_partial.

(* in every other unit of matter its enthalpy is not that of h *)
Theorem C50_refuted : forall D E fuel z, mp_sizes D E z -> forall varg kw h s d x i y,
  z_kM z * mp_mw D <> 1 -> mm_hsd D E fuel varg kw = Ok (h, s, d, x) -> nth_error h i = Some (Some y) -> y <> 0 ->
  exists h', mm_h D E fuel varg kw = Ok (h', x) /\ nth_error h' i <> Some (Some y).
Proof. exact hsd_differs. Qed.
Print Assumptions C50_refuted.

(* exactly: the unit factors are applied with the wrong sign of the exponent; density, quality and
   exceptions agree *)
Theorem C50_factors_partial : forall D E fuel z, mp_sizes D E z -> forall varg kw,
  let kg := z_kM z * mp_mw D in let kt := z_kT z / (9/5) in
  match mm_hsd D E fuel varg kw, mm_h D E fuel varg kw, mm_s D E fuel varg kw, mm_d D E fuel varg kw with
  | Ok (h, s, d, x), Ok (h', x1), Ok (s', x2), Ok (d', x3) =>
      d = d' /\ x = x1 /\ x = x2 /\ x = x3 /\
      h' = map (fun y => fmul (Some (kg * kg)) y) h /\ s' = map (fun y => fmul (Some (kg * kg * kt * kt)) y) s
  | Err e, Err e1, Err e2, Err e3 => e = e1 /\ e = e2 /\ e = e3
  | _, _, _, _ => False
  end.
Proof. exact hsd_related. Qed.
Print Assumptions C50_factors_partial.

Example C50_instance : mp_sizes exP exE exz /\ z_kM exz * mp_mw exP <> 1 /\
  exists s d x, mm_hsd exP exE 0 [] (kTx (1/4)) = Ok ([Some (2305 / 72)], s, d, x) /\
    mm_h exP exE 0 [] (kTx (1/4)) = Ok ([Some (2305 * 9 / 2)], x).
Proof. exact (conj exZ inst_C50). Qed.

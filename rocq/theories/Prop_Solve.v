(* The generic solver: answers, failures, limits and call conventions. *)
From Coq Require Import Reals List Bool Arith String Lra.
From Verif Require Import Base Model_Hybrid Model_Solve Spec_Solve Proof_Solve Proof_SolveEx.
Import ListNotations.
Local Open Scope R_scope.
Local Open Scope string_scope.
Local Open Scope list_scope.

(* C55.  Every element of an answer is a parameter at which the property, called with the
   arguments of that element, is within tolerance of the target.  What is missing: an element on
   which the iteration did not converge is 0 instead (see C55_signal_refuted). *)
Theorem C55_tolerance_partial : forall S y kw out t i v ti sm ep,
  NoDup (dkeys (s_defaults S)) -> NoDup (dkeys kw) ->
  target_is S y kw t -> target_at i t = Fin ti -> s_small S = Fin sm -> s_eps S = Fin ep ->
  solve_call S y kw = Ok out -> nth_error out i = Some v ->
  v = Fin 0 \/ exists a u, element_args S kw i v a /\ property S a = Ok (Fin u) /\ Rabs (u - ti) < tolerance sm ep ti.
Proof. exact tolerance_real. Qed.
Print Assumptions C55_tolerance_partial.
Example C55_tolerance_instance : exists out, solve_call sum_S (Some (Vec [Fin 11; Fin 21])) sum_kw = Ok out /\
  target_is sum_S (Some (Vec [Fin 11; Fin 21])) sum_kw (Vec [Fin 11; Fin 21]) /\ target_at 1 (Vec [Fin 11; Fin 21]) = Fin 21.
Proof.
  destruct sum_call as (out & E). exists out. split; [exact E|]. split; [|reflexivity].
  exists "h". split; [reflexivity | left; split; reflexivity].
Qed.

(* C55.  On a straight line, with the slope given or estimated by the solver, two passes find the
   solution: the answer is the root, or the guess when that was already within tolerance. *)
Theorem C55_line : forall S m b sm ep t x0 kw name,
  NoDup (dkeys kw) -> line_like S m b -> m <> 0 ->
  (match s_lim S with None => True | Some (LVal (Fin lo) (Fin hi)) => lo <= (t - b) / m <= hi | _ => False end) ->
  (match s_init S with None => s_lim S <> None | Some (GVal g) => g = Fin x0 | _ => False end) ->
  s_small S = Fin sm -> 0 < sm -> s_eps S = Fin ep -> (2 <= s_max S)%nat ->
  prop_name S = Ok name -> given S kw name = None ->
  same_lengths (map snd kw ++ map snd (s_defaults S)) 1 ->
  exists v, solve_call S (Some (Sca (Fin t))) kw = Ok [Fin v] /\ Rabs (m * v + b - t) < tolerance sm ep t.
Proof. exact line_lemma. Qed.
Print Assumptions C55_line.
Example C55_line_instance : line_like line_S 2 3 /\ exists v, solve_call line_S (Some (Sca (Fin 13))) [] = Ok [Fin v].
Proof. split; [exact line_ok|]. destruct line_call as (v & E & _). exists v. exact E. Qed.

(* C55, refuted.  A solver whose property is never within tolerance of the target does not signal
   it: whatever the number of passes allowed, the call returns 0. *)
Theorem C55_signal_refuted : forall S t kw name,
  NoDup (dkeys (s_defaults S)) -> NoDup (dkeys kw) -> never_raises S -> s_max S <> 0%nat ->
  prop_name S = Ok name -> given S kw name = None ->
  same_lengths (map snd kw ++ map snd (s_defaults S)) 1 ->
  (forall a f, property S a = Ok f -> xlt (xabs (xsub f t)) (threshold S t) = false) ->
  solve_call S (Some (Sca t)) kw = Ok [Fin 0].
Proof. exact silent_lemma. Qed.
Print Assumptions C55_signal_refuted.
Example C55_signal_instance : never_raises flat_S /\
  (forall a f, property flat_S a = Ok f -> xlt (xabs (xsub f (Fin 0))) (threshold flat_S (Fin 0)) = false) /\
  solve_call flat_S (Some (Sca (Fin 0))) [] = Ok [Fin 0].
Proof. exact (conj flat_fine (conj flat_far flat_call)). Qed.

(* C55.  With no passes allowed there is no answer. *)
Theorem C55_no_passes : forall S y kw, s_max S = 0%nat -> forall out, solve_call S y kw = Ok out -> out = [].
Proof. exact zero_passes_lemma. Qed.
Print Assumptions C55_no_passes.
Example C55_no_passes_instance :
  solve_call (mk (MFDf (Some "h") (of_T (fun _ => 1)) (of_T (fun _ => 1))) (Some (GVal (Fin 1))) None 0) (Some (Sca (Fin 0))) [] = Err EUnboundLocal.
Proof. reflexivity. Qed.

(* C55.  When, inside the limits, every Newton step cut at the limits lowers the error, the
   answer is inside the limits.  What is missing: a step that does not lower the error is halved
   from its length before the cut, and may then leave the limits (C55_limits_refuted). *)
Theorem C55_limits_partial : forall S F F' lo hi sm ep t x0 kw out v,
  NoDup (dkeys (s_defaults S)) -> NoDup (dkeys kw) ->
  property_is S F F' -> s_lim S = Some (LVal (Fin lo) (Fin hi)) -> lo <= hi ->
  s_init S = None \/ (s_init S = Some (GVal (Fin x0)) /\ lo <= x0 <= hi) ->
  s_small S = Fin sm -> s_eps S = Fin ep ->
  (forall x, lo <= x <= hi -> tolerance sm ep t <= Rabs (F x - t) ->
     F' x <> 0 /\ Rabs (F (clamp lo hi (x - (F x - t) / F' x)) - t) < Rabs (F x - t)) ->
  solve_call S (Some (Sca (Fin t))) kw = Ok out -> In v out ->
  v = Fin 0 \/ exists r, v = Fin r /\ lo <= r <= hi.
Proof. exact limits_lemma. Qed.
Print Assumptions C55_limits_partial.
Example C55_limits_instance : property_is guess_S (fun x => 2 * x + 3) (fun _ => 2) /\
  forall x, 0 <= x <= 100 -> tolerance (1 / 10000000000) (1 / 1000000) 13 <= Rabs (2 * x + 3 - 13) ->
    2 <> 0 /\ Rabs (2 * clamp 0 100 (x - (2 * x + 3 - 13) / 2) + 3 - 13) < Rabs (2 * x + 3 - 13).
Proof.
  split; [split; apply of_T_at|]. intros x Hx Ht. split; [lra|].
  replace (x - (2 * x + 3 - 13) / 2) with 5 by field. rewrite clamp_id by lra.
  replace (2 * 5 + 3 - 13) with 0 by ring. rewrite Rabs_R0.
  apply Rlt_le_trans with (2 := Ht). unfold tolerance. pose proof (Rmax_l (1 / 10000000000) (Rabs (1 / 1000000 * 13))). lra.
Qed.

(* C55, refuted.  A cubic property with its exact derivative, limits 0 and 10 and a guess of 5:
   the solver answers 55. *)
Theorem C55_limits_refuted :
  (forall x, derivable_pt_lim cub x (dcub x)) /\ property_is cub_S cub dcub /\
  s_lim cub_S = Some (LVal (Fin 0) (Fin 10)) /\ s_init cub_S = Some (GVal (Fin 5)) /\
  solve_call cub_S (Some (Sca (Fin 0))) [] = Ok [Fin 55].
Proof. exact (conj cub_D (conj (conj (of_T_at cub) (of_T_at dcub)) (conj eq_refl (conj eq_refl cub_call)))). Qed.
Print Assumptions C55_limits_refuted.

(* C73.  The target is given exactly once, positionally or under the name of the property. *)
Theorem C73_target_twice : forall S t kw name v, NoDup (dkeys kw) -> prop_name S = Ok name -> given S kw name = Some v ->
  solve_call S (Some t) kw = Err PMAnalysisError.
Proof. exact twice_lemma. Qed.
Print Assumptions C73_target_twice.
Theorem C73_target_missing : forall S kw name, NoDup (dkeys kw) -> prop_name S = Ok name -> given S kw name = None ->
  solve_call S None kw = Err PMAnalysisError.
Proof. exact never_lemma. Qed.
Print Assumptions C73_target_missing.
Example C73_target_instance :
  solve_call line_S (Some (Sca (Fin 13))) [("h", Sca (Fin 13))] = Err PMAnalysisError /\
  solve_call line_S None [("p", Sca (Fin 13))] = Err PMAnalysisError /\
  prop_name line_S = Ok "h".
Proof. repeat split; reflexivity. Qed.

(* C73.  Iterables of different lengths, other than one, are refused. *)
Theorem C73_lengths : forall S t kw name a b,
  NoDup (dkeys (s_defaults S)) -> NoDup (dkeys kw) -> prop_name S = Ok name -> given S kw name = None ->
  ((t = Vec a \/ exists k, given S kw k = Some (Vec a)) /\ exists k, given S kw k = Some (Vec b)) ->
  List.length a <> 1%nat -> List.length b <> 1%nat -> List.length a <> List.length b ->
  solve_call S (Some t) kw = Err PMParamError.
Proof. exact lengths_lemma. Qed.
Print Assumptions C73_lengths.
Example C73_lengths_instance : solve_call sum_S (Some (Vec [Fin 1; Fin 2; Fin 3])) sum_kw = Err PMParamError.
Proof. reflexivity. Qed.

(* C73.  An answer has as many elements as the iterables. *)
Theorem C73_count : forall S t kw out, NoDup (dkeys (s_defaults S)) -> NoDup (dkeys kw) ->
  solve_call S (Some t) kw = Ok out ->
  (forall l, t = Vec l -> List.length l <> 1%nat -> List.length out = List.length l) /\
  (forall k l, given S kw k = Some (Vec l) -> List.length l <> 1%nat -> List.length out = List.length l).
Proof. exact count_lemma. Qed.
Print Assumptions C73_count.
Example C73_count_instance : exists out, solve_call sum_S (Some (Sca (Fin 11))) sum_kw = Ok out /\ given sum_S sum_kw "p" = Some (Vec [Fin 1; Fin 5]).
Proof.
  destruct (call_total sum_S (Sca (Fin 11)) sum_kw "h" 2) as (out & E); try reflexivity.
  - constructor; [intros []|constructor].
  - exact sum_fine.
  - discriminate.
  - intros a [Q|[Q|[]]]; [discriminate|]. injection Q as <-. right. reflexivity.
  - exists out. split; [exact E | reflexivity].
Qed.

(* C73.  Element i of an array call is the answer of the scalar call with the target and the
   arguments of element i, if the guess and the limits do not look at the parameter. *)
Theorem C73_elementwise_partial : forall S y kw out t i v kw',
  NoDup (dkeys (s_defaults S)) -> NoDup (dkeys kw) -> NoDup (dkeys kw') ->
  well_behaved S -> ignores_parameter S ->
  target_is S y kw t -> solve_call S y kw = Ok out -> nth_error out i = Some v ->
  (forall name k, prop_name S = Ok name -> given S kw' k = if String.eqb k name then None else option_map (at_element i) (given S kw k)) ->
  solve_call S (Some (Sca (target_at i t))) kw' = Ok [v].
Proof. exact elementwise_lemma. Qed.
Print Assumptions C73_elementwise_partial.
Example C73_elementwise_instance : well_behaved sum_S /\ ignores_parameter sum_S /\
  (exists out, solve_call sum_S (Some (Vec [Fin 11; Fin 21])) sum_kw = Ok out) /\
  forall name k, prop_name sum_S = Ok name -> given sum_S [("p", Sca (Fin 5))] k =
    if String.eqb k name then None else option_map (at_element 1) (given sum_S sum_kw k).
Proof.
  split; [exact sum_well|]. split; [split; exact I|]. split; [exact sum_call|].
  intros name k E. injection E as <-. unfold given. cbn [dget sum_kw sum_S mk s_defaults].
  destruct (String.eqb k "p") eqn:Ep; [apply String.eqb_eq in Ep; subst; reflexivity|]. destruct (String.eqb k "h"); reflexivity.
Qed.

(* C73, refuted.  A guess that is a function of the other arguments receives the parameter too
   from the second element on: each target alone is solved, both together are not. *)
Theorem C73_elementwise_refuted :
  well_behaved guess_S /\
  solve_call guess_S (Some (Sca (Fin 13))) [] = Ok [Fin ((13 - 3) / 2)] /\
  solve_call guess_S (Some (Sca (Fin 23))) [] = Ok [Fin ((23 - 3) / 2)] /\
  solve_call guess_S (Some (Vec [Fin 13; Fin 23])) [] = Err ETypeError.
Proof. exact guess_refutes. Qed.
Print Assumptions C73_elementwise_refuted.

(* C73, refuted.  With fdf alone, as documented, and no prop_name, no call ever succeeds. *)
Theorem C73_fdf_refuted : forall S y kw g, s_name S = None -> s_mode S = MFdf g -> solve_call S y kw = Err PMAnalysisError.
Proof. exact nameless_lemma. Qed.
Print Assumptions C73_fdf_refuted.
Example C73_fdf_instance : exists S, solve_new "T" (Some (MFdf (fun a => do f <- of_T (fun x => 2 * x) a; do d <- of_T (fun _ => 2) a; Ok (f, d)))) None
  (Some (GVal (Fin 1))) None (Fin 1) (Fin 1) 30 [] = Ok S /\ solve_call S (Some (Sca (Fin 4))) [] = Err PMAnalysisError.
Proof. eexists. split; reflexivity. Qed.

(* C73.  A solver exists only with a property, a guess or limits, and limits in order; it then
   holds what it was given. *)
Theorem C73_construction : forall param fn name init lim eps small max defaults S,
  solve_new param fn name init lim eps small max defaults = Ok S ->
  fn <> None /\ (init <> None \/ lim <> None) /\ (forall lo hi, lim = Some (LVal (Fin lo) (Fin hi)) -> lo < hi) /\
  s_param S = param /\ Some (s_mode S) = fn /\ s_init S = init /\ s_lim S = lim /\ s_eps S = eps /\ s_small S = small /\
  s_max S = max /\ s_defaults S = defaults.
Proof. exact new_lemma. Qed.
Print Assumptions C73_construction.
Example C73_construction_instance :
  solve_new "T" (Some (s_mode line_S)) None None (Some (LVal PInf NInf)) (Fin 1) (Fin 1) 30 [] = Err PMAnalysisError /\ exists S, solve_new "T" (Some (s_mode line_S)) None None (Some (LVal NInf PInf)) (Fin 1) (Fin 1) 30 [] = Ok S.
Proof. split; [reflexivity | eexists; reflexivity]. Qed.

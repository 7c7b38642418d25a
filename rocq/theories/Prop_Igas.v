(* Property theorems C28, C29, C34, C35: the ideal gas classes' inner routines
   (src/pyromat/registry/ig.py, ig2.py). *)
From Coq Require Import Reals List String Bool Lia Lra.
From Verif Require Import Base Model_Num Model_Units Model_Igas Spec_Units Spec_Igas
  Proof_Igas Proof_Iter Proof_IgasProp.
Import ListNotations.
Local Open Scope R_scope.
Local Open Scope list_scope.

(* ---- C28 : class ig.  At every temperature of the i-th interval the routines return the
   Shomate values and related values; inside it, these are the true derivatives. ---- *)
Theorem C28_ig_values : forall oob D i T,
  good_data D -> in_interval (d_Tlim D) i T -> 0 < T ->
  let C := nth i (d_C D) [] in
  values_at (ig_gas oob D) T (shomate_cp C T) (shomate_h C T) (shomate_s C T).
Proof. exact ig_values. Qed.
Print Assumptions C28_ig_values.

Theorem C28_ig_slopes : forall oob D i T,
  good_data D -> (S i < List.length (d_Tlim D))%nat ->
  nth i (d_Tlim D) 0 < T < nth (S i) (d_Tlim D) 0 -> 0 < T ->
  exists cp h s, values_at (ig_gas oob D) T cp h s /\ slopes_at (ig_gas oob D) T cp s.
Proof. exact ig_value_slopes. Qed.
Print Assumptions C28_ig_slopes.

(* ---- C29 : class ig2, the NASA polynomials ---- *)
Theorem C29_ig2_values : forall oob D i T,
  good_data D -> in_interval (d_Tlim D) i T -> 0 < T ->
  let C := nth i (d_C D) [] in
  values_at (ig2_gas oob D) T (nasa_cp C T) (nasa_h C T) (nasa_s C T).
Proof. exact ig2_values. Qed.
Print Assumptions C29_ig2_values.

Theorem C29_ig2_slopes : forall oob D i T,
  good_data D -> (S i < List.length (d_Tlim D))%nat ->
  nth i (d_Tlim D) 0 < T < nth (S i) (d_Tlim D) 0 -> 0 < T ->
  exists cp h s, values_at (ig2_gas oob D) T cp h s /\ slopes_at (ig2_gas oob D) T cp s.
Proof. exact ig2_value_slopes. Qed.
Print Assumptions C29_ig2_slopes.

(* a two-interval data set *)
Definition D0 : igdata :=
  {| d_Tlim := [200; 1000; 6000]; d_C := [[28; 1; 2; 3; 4; 5; 6; 7]; [30; 1; 0; 0; 0; 2; 3; 0]];
     d_mw := 28; d_pref := 100000 |}.
Example C28_instance : good_data D0 /\ in_interval (d_Tlim D0) 1 1000 /\
  nth 1 (d_Tlim D0) 0 < 2000 < nth 2 (d_Tlim D0) 0 /\
  g_cp (ig_gas None D0) (Some 1000) = Some 31.
Proof.
  assert (good_data D0) as H.
  { repeat split; cbn; try lra; try lia. repeat constructor. }
  assert (in_interval (d_Tlim D0) 1 1000) as Hi.
  { split; [cbn; lia|]. split; [cbn; lra|]. left. cbn. lra. }
  split; [exact H|]. split; [exact Hi|]. split; [cbn; lra|].
  destruct (ig_values None D0 1 1000 H Hi ltac:(lra)) as [Hc _ _ _ _ _]. rewrite Hc.
  f_equal. unfold shomate_cp. cbn. field.
Qed.
Example C29_instance : good_data D0 /\ in_interval (d_Tlim D0) 0 200 /\
  g_cp (ig2_gas None D0) (Some 0) = None /\
  exists cp, g_cp (ig2_gas None D0) (Some 6000) = Some cp /\ cp = gas_constant * 6030.
Proof.
  assert (good_data D0) as H by apply C28_instance.
  assert (in_interval (d_Tlim D0) 1 6000) as Hi.
  { split; [cbn; lia|]. split; [cbn; lra|]. right. split; reflexivity. }
  split; [exact H|]. split. { split; [cbn; lia|]. split; [cbn; lra|]. left; cbn; lra. }
  split.
  - cbn [g_cp ig2_gas]. rewrite piecewise_out; [reflexivity|apply H|left; cbn; lra].
  - destruct (ig2_values None D0 1 6000 H Hi ltac:(lra)) as [Hc _ _ _ _ _]. eexists. split; [exact Hc|].
    unfold nasa_cp. cbn [nth d_C D0]. ring.
Qed.

(* ---- C34 : the intervals ---- *)
Theorem C34_exactly_one_interval : forall Tlim T,
  good_limits Tlim -> nth 0 Tlim 0 <= T <= last Tlim 0 ->
  exists i, in_interval Tlim i T /\ forall j, in_interval Tlim j T -> j = i.
Proof. exact one_interval. Qed.
Print Assumptions C34_exactly_one_interval.

(* whatever formula is evaluated, it is evaluated with the coefficients of that interval *)
Theorem C34_evaluated_there : forall Tlim C oob formula T i,
  good_limits Tlim -> in_interval Tlim i T ->
  piecewise Tlim C oob formula (Some T) = formula (nth i C []) T.
Proof. exact piecewise_in'. Qed.
Print Assumptions C34_evaluated_there.

(* an interior limit belongs to the upper interval, the top limit to the last *)
Theorem C34_limits : forall Tlim C oob formula i,
  good_limits Tlim -> (S i < List.length Tlim)%nat ->
  piecewise Tlim C oob formula (Some (nth i Tlim 0)) = formula (nth i C []) (nth i Tlim 0) /\
  (S (S i) = List.length Tlim ->
   piecewise Tlim C oob formula (Some (nth (S i) Tlim 0)) = formula (nth i C []) (nth (S i) Tlim 0)).
Proof. exact piecewise_limits. Qed.
Print Assumptions C34_limits.

Theorem C34_outside_flagged : forall Tlim C oob formula T,
  good_limits Tlim -> T < nth 0 Tlim 0 \/ last Tlim 0 < T ->
  piecewise Tlim C oob formula (Some T) = oob.
Proof. exact piecewise_out. Qed.
Print Assumptions C34_outside_flagged.

Example C34_instance : good_limits [200; 1000; 6000] /\ nth 0 [200; 1000; 6000] 0 <= 1000 <= last [200; 1000; 6000] 0 /\
  piecewise [200; 1000; 6000] [[1]; [2]] None (fun c t => Some (nth 0 c 0 + t)) (Some 1000) = Some 1002 /\
  piecewise [200; 1000; 6000] [[1]; [2]] None (fun c t => Some (nth 0 c 0 + t)) (Some 6000) = Some 6002 /\
  piecewise [200; 1000; 6000] [[1]; [2]] None (fun c t => Some (nth 0 c 0 + t)) (Some 199) = None.
Proof.
  assert (good_limits [200; 1000; 6000]) as G by (split; cbn; [lra|lia]).
  split; [exact G|]. split; [cbn; lra|].
  repeat split.
  - rewrite (piecewise_in _ _ _ _ _ 1 G); [cbn; f_equal; ring|]. repeat split; cbn; try lia; try lra; left; lra.
  - rewrite (piecewise_in _ _ _ _ _ 1 G); [cbn; f_equal; ring|]. repeat split; cbn; try lia; try lra; right; split; [reflexivity|lra].
  - apply piecewise_out; [exact G|cbn; lra].
Qed.

(* ---- C35 : the inversion.  The k-th element inverts the function fns[k] at ys[k]. ---- *)
Theorem C35_result_inside : forall lo hi fns ys xs warned,
  lo <= hi -> iter1_full lo hi fns ys = Ok (xs, warned) ->
  Forall (fun x => match x with Some r => lo <= r <= hi | None => True end) xs.
Proof. exact iter1_bounded. Qed.
Print Assumptions C35_result_inside.

(* the loop always ends: with an array, or with PMAnalysisError *)
Theorem C35_only_error : forall lo hi fns ys e,
  iter1_full lo hi fns ys = Err e -> e = PMAnalysisError.
Proof. exact iter1_errors. Qed.
Print Assumptions C35_only_error.

(* the functions are never evaluated at a number outside [lo, hi]: replacing them there by
   anything else changes nothing *)
Theorem C35_evaluated_inside_only : forall lo hi fns fns' ys,
  lo <= hi ->
  Forall2 (fun f f' : fl -> fl * fl =>
             f None = f' None /\ forall x, lo <= x <= hi -> f (Some x) = f' (Some x)) fns fns' ->
  iter1_full lo hi fns ys = iter1_full lo hi fns' ys.
Proof. exact iter1_inside_only. Qed.
Print Assumptions C35_evaluated_inside_only.

(* an array is inverted element by element; the warning is printed when an element needs it *)
Theorem C35_elementwise : forall lo hi fns ys xs warned,
  List.length fns = List.length ys ->
  (iter1_full lo hi fns ys = Ok (xs, warned) <->
   exists ws, List.length ws = List.length ys /\ warned = existsb (fun b => b) ws /\
     List.length xs = List.length ys /\
     forall i f y x b, nth_error fns i = Some f -> nth_error ys i = Some y ->
       nth_error xs i = Some x -> nth_error ws i = Some b ->
       iter1_full lo hi [f] [y] = Ok ([x], b)).
Proof. exact iter1_pointwise. Qed.
Print Assumptions C35_elementwise.

(* for a function with values v and nonzero derivatives d on [lo, hi]: the last evaluated
   point x0 is inside, and without a warning it meets the relative tolerance 1e-6 *)
Theorem C35_converged_meets_tolerance : forall lo hi fns ys xs i f (v d : R -> R) y x warned,
  lo <= hi -> List.length fns = List.length ys -> iter1_full lo hi fns ys = Ok (xs, warned) ->
  nth_error fns i = Some f -> nth_error ys i = Some (Some y) -> nth_error xs i = Some x ->
  (forall t, lo <= t <= hi -> f (Some t) = (Some (v t), Some (d t)) /\ d t <> 0) ->
  exists r x0 k, x = Some r /\ lo <= r <= hi /\ lo <= x0 <= hi /\ (k <= 20)%nat /\
    r = x0 + (y - v x0) / d x0 / 2 ^ k /\
    (warned = false -> Rabs (y - v x0) <= Rabs (/ 1000000 * y)).
Proof. exact iter1_accurate'. Qed.
Print Assumptions C35_converged_meets_tolerance.

(* the residual at the returned point, for an increasing function of slope between m and M *)
Theorem C35_residual : forall lo hi fns ys xs i f (v d : R -> R) m M y x,
  lo <= hi -> 0 < m -> List.length fns = List.length ys ->
  iter1_full lo hi fns ys = Ok (xs, false) ->
  nth_error fns i = Some f -> nth_error ys i = Some (Some y) -> nth_error xs i = Some x ->
  (forall t, lo <= t <= hi -> f (Some t) = (Some (v t), Some (d t)) /\ m <= d t <= M) ->
  (forall a b, lo <= a <= b -> b <= hi -> m * (b - a) <= v b - v a <= M * (b - a)) ->
  exists r, x = Some r /\ lo <= r <= hi /\ Rabs (y - v r) <= M / m * (/ 1000000 * Rabs y).
Proof. exact iter1_residual'. Qed.
Print Assumptions C35_residual.

(* a target that the function does not take in [lo, hi] is never reported as found *)
Theorem C35_unreachable_is_reported : forall lo hi f (v d : R -> R) y,
  lo <= hi -> (forall t, lo <= t <= hi -> f (Some t) = (Some (v t), Some (d t)) /\ d t <> 0) ->
  (forall t, lo <= t <= hi -> Rabs (/ 1000000 * y) < Rabs (y - v t)) ->
  (exists xs, iter1_full lo hi [f] [Some y] = Ok (xs, true)) \/
  iter1_full lo hi [f] [Some y] = Err PMAnalysisError.
Proof. exact iter1_unreachable. Qed.
Print Assumptions C35_unreachable_is_reported.

(* a linear function is inverted in one step *)
Definition lin (t : fl) : fl * fl := (fmul (Some 2) t, Some 2).
Example C35_instance :
  iter1_full 0 10 [lin; lin] [Some 4; Some 10] = Ok ([Some 2; Some 5], false) /\
  (forall t, 0 <= t <= 10 -> lin (Some t) = (Some ((fun x => 2 * x) t), Some ((fun _ => 2) t)) /\
             (fun _ => 2) t <> 0) /\
  (forall t, 0 <= t <= 10 -> Rabs (/ 1000000 * 50) < Rabs (50 - 2 * t)).
Proof. exact iter1_instance. Qed.

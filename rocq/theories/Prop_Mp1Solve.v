(* Property theorems C44 and C46: the bracketing solver and the saturation fits of
   src/pyromat/registry/mp1.py. *)
From Coq Require Import Reals ZArith List Lia Lra.
From Verif Require Import Base Model_Hybrid Spec_Hybrid Proof_Hybrid Model_Mp1 Spec_Mp1 Proof_Mp1Sat.
Import ListNotations.
Local Open Scope R_scope.
Local Open Scope list_scope.

(* ---- C44 : bracketed inversion ---- *)
(* the result depends only on the values of the routine between the limits: it is never
   evaluated outside, nor at nan *)
Theorem C44_only_inside_the_limits_partial : forall paranoid ep N oob es es', 0 <= ep ->
  Forall2 (fun e e' => same_inside e e' /\ exists f a b y, problem e f a b y) es es' ->
  hybrid1 paranoid ep N oob es' = hybrid1 paranoid ep N oob es.
Proof. exact only_inside. Qed.
Print Assumptions C44_only_inside_the_limits_partial.

(* it fails exactly when no selected element has the target between its limits *)
Theorem C44_fails_iff_partial : forall paranoid ep N oob es (fs : elem -> R -> R) (lo hi y : elem -> R),
  (forall e, In e es -> problem e (fs e) (lo e) (hi e) (y e)) ->
  (hybrid1 paranoid ep N oob es = Err PMParamError <->
   (exists e, In e es /\ e_sel e = true) /\
   forall e, In e es -> e_sel e = true -> ~ bracketed (fs e) (lo e) (hi e) (y e)) /\
  (forall x, hybrid1 paranoid ep N oob es = Err x -> x = PMParamError).
Proof. exact fails_iff. Qed.
Print Assumptions C44_fails_iff_partial.

(* otherwise: unselected elements are untouched, elements without a bracket are marked, and
   every other result is inside its limits and, unless the warning was printed, solves the
   problem to the tolerance.  What is missing (here and above): a target met with slope zero
   at a limit, which gives nan (below). *)
Theorem C44_result_partial : forall paranoid ep N oob es xs warned i e f a b y, 0 <= ep ->
  hybrid1 paranoid ep N oob es = Ok (xs, warned) -> nth_error es i = Some e ->
  List.length xs = List.length es /\
  (e_sel e = false -> nth_error xs i = Some (e_x e)) /\
  (e_sel e = true -> problem e f a b y ->
   (~ bracketed f a b y -> nth_error xs i = Some oob) /\
   (bracketed f a b y -> exists v, nth_error xs i = Some (Fin v) /\ a <= v <= b /\
      (warned = false -> (forall x, a <= x <= b -> continuity_pt f x) -> good_root f a b y ep v))).
Proof. exact result_sound. Qed.
Print Assumptions C44_result_partial.

(* after any number of passes the final interval has the target between the values at its
   ends, one of which is the result; and with more passes it only shrinks *)
Theorem C44_bracket_kept : forall e f a b y paranoid ep N, problem e f a b y -> 0 <= ep -> bracketed f a b y ->
  exists lo hi v, h_min (solve_elem paranoid ep N e) = Fin lo /\ h_max (solve_elem paranoid ep N e) = Fin hi /\
  h_x (solve_elem paranoid ep N e) = Fin v /\
  a <= lo /\ lo <= hi /\ hi <= b /\ (v = lo \/ v = hi) /\
  (f lo <= y <= f hi \/ f hi <= y <= f lo) /\
  (h_sel (solve_elem paranoid ep N e) = false -> Rabs (f v - y) <= ep * Rabs y \/ hi - lo <= ep * Rabs v).
Proof. exact final_bracket. Qed.
Print Assumptions C44_bracket_kept.
Theorem C44_bracket_shrinks : forall e f a b y paranoid ep N, problem e f a b y -> 0 <= ep -> bracketed f a b y ->
  exists lo hi lo' hi',
  h_min (solve_elem paranoid ep N e) = Fin lo /\ h_max (solve_elem paranoid ep N e) = Fin hi /\
  h_min (solve_elem paranoid ep (S N) e) = Fin lo' /\ h_max (solve_elem paranoid ep (S N) e) = Fin hi' /\
  lo <= lo' /\ hi' <= hi.
Proof. exact shrinking. Qed.
Print Assumptions C44_bracket_shrinks.

(* FINDING: an increasing function whose solution is the lower limit itself is refused: x = 1
   on [1, 2] *)
Theorem C44_lower_limit_refuted : forall paranoid ep N oob,
  problem ident (fun x => x) 1 2 1 /\ hybrid1 paranoid ep N oob [ident] = Err PMParamError.
Proof. exact lower_limit_root. Qed.
Print Assumptions C44_lower_limit_refuted.

(* FINDING: -x^2/(1+x^2) = 0 on [0, 1] is accepted and gives nan without a warning *)
Theorem C44_flat_root_refuted : forall ep N oob, hybrid1 true ep N oob [flat] = Ok ([NaN], false).
Proof. exact flat_root_nan. Qed.
Print Assumptions C44_flat_root_refuted.

(* x^2 = 2 on [1, 2] *)
Example C44_instance : problem square (fun x => x * x) 1 2 2 /\ bracketed (fun x => x * x) 1 2 2 /\
  forall N, exists xs w, hybrid1 true (1 / 1000000) N NaN [square] = Ok (xs, w).
Proof.
  assert (P : problem square (fun x => x * x) 1 2 2).
  { split; try reflexivity; try lra.
    - intros x _. exists (Fin (2 * x)). split; [reflexivity|discriminate].
    - intros [H _]. lra.
    - intros [H _]. lra. }
  assert (B : bracketed (fun x => x * x) 1 2 2) by (unfold bracketed; lra).
  split; [exact P|]. split; [exact B|]. intro N.
  destruct (hybrid1 true (1 / 1000000) N NaN [square]) as [[xs w]|e] eqn:E; [exists xs, w; reflexivity|].
  exfalso. destruct (C44_fails_iff_partial true (1 / 1000000) N NaN [square] (fun _ x => x * x) (fun _ => 1) (fun _ => 2) (fun _ => 2)) as [F G].
  { intros e' [<-|[]]. exact P. }
  pose proof (G _ E) as ->. destruct (proj1 F E) as [_ H]. apply (H square (or_introl eq_refl) eq_refl). exact B.
Qed.

(* ---- C46 : saturation fits ---- *)
(* for the four forms of fit, at every temperature at which the fit is smooth *)
Theorem C46_saturation_fit : forall G diff T, sat_wf G -> sat_smooth G T ->
  exists v vT vTT, satcurve G (Some T) diff = Ok (Some v, Some vT, Some vTT) /\
    v = sat_value G T /\
    (if (0 <? diff)%nat then deriv (sat_value G) T vT else vT = 0) /\
    (if (1 <? diff)%nat then deriv2 (sat_value G) T vTT else vTT = 0).
Proof. exact satcurve_exact. Qed.
Print Assumptions C46_saturation_fit.

(* the value at the critical temperature *)
Theorem C46_critical_value : forall G, sat_wf G -> sg_fn G <> 0%Z ->
  Forall (fun c => 0 < c1_pre c /\ 0 <= c1_post c) (sg_coef G) ->
  satcurve G (Some (sg_Tscale G)) 0 = Ok (Some (sat_value G (sg_Tscale G)), Some 0, Some 0).
Proof. exact satcurve_critical. Qed.
Print Assumptions C46_critical_value.

(* the exponential forms are positive *)
Theorem C46_positive : forall G T, 0 < sg_scale G -> (sg_fn G = 2 \/ sg_fn G = 3)%Z -> 0 < sat_value G T.
Proof. exact satcurve_positive. Qed.
Print Assumptions C46_positive.

(* any other form is an error *)
Theorem C46_unknown_form : forall G T diff, ~ (0 <= sg_fn G <= 3)%Z -> satcurve G T diff = Err EUnboundLocal.
Proof. exact satcurve_unknown. Qed.
Print Assumptions C46_unknown_form.

(* a vapor pressure fit as shipped: exp((-7.8 v + 1.8 v^1.5)/tau), v = 1 - tau, at 300 K *)
Example C46_instance :
  let G := {| sg_Tscale := 647; sg_scale := 22000000; sg_fn := 3%Z;
     sg_coef := [{| c1_pre := 1; c1_post := 0; c1_first := (1%Z, -39/5); c1_rest := [] |};
                 {| c1_pre := 1/2; c1_post := 1; c1_first := (1%Z, 9/5); c1_rest := [] |}] |} in
  sat_wf G /\ sat_smooth G 300 /\ sg_fn G <> 0%Z /\
  Forall (fun c => 0 < c1_pre c /\ 0 <= c1_post c) (sg_coef G).
Proof.
  cbv zeta. split; [|split; [|split]].
  - split; [|cbn; split; [lra|lia]].
    constructor; [|constructor; [|constructor]]; (split; [cbn; intros t [<-|[]]; cbn; lia|cbn; split; [intros b []|exact I]]).
  - split; [lra|]. right. right. cbn. lra.
  - discriminate.
  - cbn. constructor; [cbn; lra|constructor; [cbn; lra|constructor]].
Qed.

(* Property theorems C43: the polynomial evaluators of src/pyromat/registry/mp1.py. *)
From Coq Require Import Reals ZArith List Lia Lra.
From Verif Require Import Model_Mp1 Spec_Mp1 Proof_Jets Proof_Mp1Poly.
Import ListNotations.
Local Open Scope R_scope.
Local Open Scope list_scope.

(* ---- C43 : polynomials and their derivatives ---- *)
(* One variable: positive arguments for every group, all arguments for ordinary polynomials *)
Theorem C43_poly1_exact : forall g diff x,
  Forall ordered1 g -> (0 < x \/ Forall plain1 g) ->
  exists p px pxx, poly1 (Some x) g diff = (Some p, Some px, Some pxx) /\
    p = value1 g x /\
    (if (0 <? diff)%nat then deriv (value1 g) x px else px = 0) /\
    (if (1 <? diff)%nat then deriv2 (value1 g) x pxx else pxx = 0).
Proof. exact poly1_exact. Qed.
Print Assumptions C43_poly1_exact.

(* at zero (the critical point of the saturation fits) *)
Theorem C43_poly1_at_zero : forall g,
  Forall ordered1 g -> Forall (fun c => 0 < c1_pre c /\ 0 <= c1_post c) g ->
  poly1 (Some 0) g 0 = (Some (value1 g 0), Some 0, Some 0).
Proof. exact poly1_at_zero. Qed.
Print Assumptions C43_poly1_at_zero.

(* Two variables.  What is missing: derivatives for lists with prex = 1 and prey <> 1, for
   which they are wrong (below). *)
Theorem C43_poly2_partial : forall g diff x y,
  Forall ordered2 g -> 0 < x -> 0 < y -> (diff = 0%nat \/ Forall prey_ok g) ->
  exists p px py pxx pxy pyy,
    poly2 (Some x) (Some y) g diff = (Some p, Some px, Some py, Some pxx, Some pxy, Some pyy) /\
    p = value2 g x y /\
    (if (0 <? diff)%nat then partials1 (value2 g) x y px py else px = 0 /\ py = 0) /\
    (if (1 <? diff)%nat then partials2 (value2 g) x y pxx pxy pyy
     else pxx = 0 /\ pxy = 0 /\ pyy = 0).
Proof. exact poly2_exact. Qed.
Print Assumptions C43_poly2_partial.

(* FINDING: the documented group of y^2 written with prey = 2 is accepted and gets the
   derivative 1 instead of 2y *)
Theorem C43_prey_refuted : forall x y, 0 < x -> 0 < y ->
  ordered2 y2 /\ (forall v, 0 < v -> value2 [y2] x v = v * v) /\
  exists p px pxx pxy pyy, poly2 (Some x) (Some y) [y2] 1 = (p, px, Some 1, pxx, pxy, pyy) /\
  deriv (fun v => value2 [y2] x v) y (2 * y).
Proof. exact prey_wrong. Qed.
Print Assumptions C43_prey_refuted.

(* FINDING: the example of the docstring of _poly1, p(x) = 2 x^-1.5 - x^.5 written with its
   terms in ascending order, loses its second term *)
Theorem C43_docstring_example_refuted : forall x, 0 < x ->
  exists px pxx, poly1 (Some x) [docstring_coef] 0 = (Some (2 * Rpower x (- 3 / 2)), px, pxx).
Proof. exact docstring_wrong. Qed.
Print Assumptions C43_docstring_example_refuted.

(* 3 x^2 - 1 + sqrt(x) (x^1.5 + 4), and (x^2 y + 2 x y^3 - 5) x^(-1/2) *)
Example C43_instance :
  let g := [{| c1_pre := 1; c1_post := 0; c1_first := (2%Z, 3); c1_rest := [(0%Z, -1)] |};
            {| c1_pre := 3/2; c1_post := 1/2; c1_first := (1%Z, 1); c1_rest := [(0%Z, 4)] |}] in
  let h := [{| c2_prex := 1; c2_prey := 1; c2_postx := -1/2; c2_posty := 0;
               c2_first := (2%Z, 1%Z, 1); c2_rest := [(1%Z, 3%Z, 2); (0%Z, 0%Z, -5)] |}] in
  Forall ordered1 g /\ Forall ordered2 h /\ Forall prey_ok h /\
  value1 g 1 = 7 /\ value2 h 1 1 = -2.
Proof.
  cbv zeta. split; [|split; [|split; [|split]]].
  - repeat constructor; unfold c1_rows; cbn -[Z.le Z.lt]; try (intros t [<-|[<-|[]]]; cbn; lia);
      try (intros b [<-|[]]; cbn; lia); intros b [].
  - constructor; [|constructor]. unfold ordered2, c2_rows. split; cbn -[Z.le Z.lt].
    + intros t [<-|[<-|[<-|[]]]]; cbn; lia.
    + split; [intros b [<-|[<-|[]]]; cbn; lia|]. split; [intros b [<-|[]]; cbn; lia|].
      split; [intros b []|exact I].
  - constructor; [right; reflexivity|constructor].
  - unfold value1, total, c1_rows. cbn [fold_right c1_pre c1_post c1_first c1_rest fst snd].
    rewrite !power_pos by lra. unfold Rpower. rewrite ln_1, !Rmult_0_r, exp_0.
    rewrite !pow1. ring.
  - unfold value2, total, c2_rows.
    cbn [fold_right c2_prex c2_prey c2_postx c2_posty c2_first c2_rest fst snd].
    rewrite !power_pos by lra. unfold Rpower. rewrite ln_1, !Rmult_0_r, exp_0.
    rewrite !pow1. ring.
Qed.

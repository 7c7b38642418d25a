(* Concrete data sets for the instances of C45, C47 and C69. *)
From Coq Require Import Reals ZArith List Lra Lia Bool Arith.
From Verif Require Import Model_Mp1 Spec_Mp1.
Import ListNotations.
Local Open Scope R_scope.
Local Open Scope list_scope.

(* a0 = ln d + 2.5 ln t + (3 t - 4) + 0.8 ln(1 - exp(-5 t)) *)
Definition ex_ao (Ts : R) : aogroup :=
  {| ao_Tscale := Ts; ao_dscale := 300; ao_logt := Some (5/2); ao_tlogt := None;
     ao_coef0 := Some [{| c1_pre := 1; c1_post := 0; c1_first := (1%Z, 3); c1_rest := [(0%Z, -4)] |}];
     ao_coef1 := Some [(5, 4/5)] |}.
(* (0.1 t d - 2 d) + exp(-d) t^(1/2) d^2 + 0.3 d t exp(-20 (d-1)^2 - 100 (t-1.2)^2) *)
Definition ex_ar (crit : option (list ar2)) : argroup :=
  {| ar_Tscale := 600; ar_dscale := 300;
     ar_first := [{| c2_prex := 1; c2_prey := 1; c2_postx := 0; c2_posty := 0;
                     c2_first := (1%Z, 1%Z, 1/10); c2_rest := [(0%Z, 1%Z, -2)] |}];
     ar_rest := [[{| c2_prex := 1/2; c2_prey := 1; c2_postx := 0; c2_posty := 0;
                     c2_first := (1%Z, 2%Z, 1); c2_rest := [] |}]];
     ar_coef1 := Some [{| r1_t := 1; r1_d := 1; r1_b := 100; r1_a := 20; r1_gam := 6/5; r1_ep := 1; r1_c := 3/10 |}];
     ar_coef2 := crit |}.
Definition ex_sat : satgroup := {| sg_Tscale := 600; sg_scale := 1; sg_fn := 0%Z; sg_coef := [] |}.
Definition ex_data (Ts : R) (crit : option (list ar2)) : mpdata :=
  {| mp_R := 461; mp_mw := 18; mp_AO := ex_ao Ts; mp_AR := ex_ar crit;
     mp_PS := ex_sat; mp_DSL := ex_sat; mp_DSV := ex_sat;
     mp_Tc := 600; mp_pc := 22000000; mp_dc := 300; mp_Tt := 273; mp_pt := 600;
     mp_Tlim := (273, 1200); mp_plim := (0, 100000000); mp_dlim := (0, 1000) |}.
(* the critical point terms of the shipped water data *)
Definition ex_row : ar2 :=
  {| r2_a := 7/2; r2_b := 17/20; r2_m := 3/10; r2_A := 8/25; r2_B := 1/5; r2_C := 28; r2_D := 700; r2_c := -3/20 |}.

Lemma ex_ordered1 : Forall ordered1 [{| c1_pre := 1; c1_post := 0; c1_first := (1%Z, 3); c1_rest := [(0%Z, -4)] |}].
Proof.
  constructor; [|constructor]. split; cbn.
  - intros t [<-|[<-|[]]]; cbn; lia.
  - split; [intros b [<-|[]]; cbn; lia|]. split; [intros b []|exact I].
Qed.
Lemma ex_wf Ts crit : 0 < Ts -> mp_wf (ex_data Ts crit).
Proof.
  intro H. split; [|split; [|split]].
  - split; cbn.
    + intros g E. injection E as <-. apply ex_ordered1.
    + intros l E. injection E as <-. constructor; [cbn; lra|constructor].
  - split; cbn.
    + constructor; [|constructor]. split; cbn.
      * intros t [<-|[<-|[]]]; cbn; lia.
      * split; [intros b [<-|[]]; cbn; lia|]. split; [intros b []|exact I].
    + constructor; [|constructor]. constructor; [|constructor]. split; cbn.
      * intros t [<-|[]]; cbn; lia.
      * split; [intros b []|exact I].
  - split; cbn.
    + constructor; [|constructor]. right. reflexivity.
    + constructor; [|constructor]. constructor; [|constructor]. right. reflexivity.
  - cbn. repeat split; lra.
Qed.
Lemma ex_row_wf : crit_wf ex_row.
Proof. unfold crit_wf, ex_row; cbn. repeat split; lra. Qed.
(* liquid at 500 K *)
Lemma ex_delta : 1 / 1000000 <= delta_fn ex_row (600 / 500) (600 / 300).
Proof.
  unfold delta_fn, dist, ex_row; cbn [r2_a r2_b r2_m r2_A r2_B r2_C r2_D r2_c].
  replace (600 / 300) with 2 by lra. destruct (Req_EM_T 2 1) as [E|_]; [lra|].
  replace ((2 - 1)^2) with 1 by ring.
  assert (P1 : forall q, Rpower 1 q = 1) by (intro q; unfold Rpower; rewrite ln_1, Rmult_0_r; apply exp_0).
  rewrite !P1. set (z := (1 - 600 / 500 + 8 / 25 * 1)^2). assert (0 <= z) by apply pow2_ge_0. lra.
Qed.

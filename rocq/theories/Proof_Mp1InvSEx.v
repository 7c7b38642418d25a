(* Instances of C81, density from a property and the temperature. *)
From Coq Require Import Reals ZArith List String Bool Lia Lra.
From Verif Require Import Base Model_Num Model_Units Model_Igas Spec_Igas Proof_Igas Proof_Units Proof_IgasEx Model_Hybrid Spec_Hybrid Model_Mp1Calls Model_Mp1Warn Spec_Mp1 Spec_Mp1Calls Spec_Mp1Inv
  Proof_IgasAcc Proof_Jets Proof_Mp1Poly Proof_Mp1Units Proof_Mp1Thm Proof_Mp1Sat Proof_Mp1Calls Proof_Mp1Mix Proof_Mp1SatApi Proof_Mp1Hsd Proof_Mp1CallsEx Proof_Mp1Cv Proof_Mp1CvEx Proof_Mp1Alone Proof_Mp1Inv Proof_Mp1InvT Proof_Mp1InvEx Proof_Mp1InvS.
Import ListNotations.
Local Open Scope R_scope.
Local Open Scope string_scope.
Local Open Scope list_scope.

(* the substance of the other instances with a residual energy -d: its enthalpy falls linearly
   with the density *)
Definition exQ : mpdata :=
  {| mp_R := 461; mp_mw := 18;
     mp_AO := mp_AO exP;
     mp_AR := {| ar_Tscale := 600; ar_dscale := 300;
       ar_first := [{| c2_prex := 1; c2_prey := 1; c2_postx := 0; c2_posty := 0; c2_first := (0%Z, 1%Z, -1); c2_rest := [] |}];
       ar_rest := []; ar_coef1 := None; ar_coef2 := None |};
     mp_PS := flat 1000000; mp_DSL := flat 900; mp_DSV := flat 9;
     mp_Tc := 600; mp_pc := 22000000; mp_dc := 300; mp_Tt := 273; mp_pt := 600;
     mp_Tlim := (273, 1200); mp_plim := (0, 100000000); mp_dlim := (0, 1000) |}.
Lemma exQZ : mp_sizes exQ exE exz.
Proof.
  constructor; cbn; try reflexivity; try lra; eauto using default_positive.
  all: try (eexists; split; reflexivity). all: auto.
Qed.
Lemma exQ_wf : mp_wf exQ.
Proof.
  unfold mp_wf. split; [exact (proj1 ex_wf)|]. split; [|split; [|cbn; repeat split; lra]].
  - split; [|constructor]. constructor; [|constructor]. split; cbn.
    + intros t [<-|[]]. cbn. lia.
    + split; [intros b []|exact I].
  - split; [|constructor]. constructor; [|constructor]. right. reflexivity.
Qed.
Lemma exQ_f T d : helmholtz exQ T d = 461 * T * (ln (d / 300) + 3/2 * ln (600 / T) - d / 300).
Proof.
  assert (P0 : forall x, power x 0 = 1) by (intro x; unfold power; destruct (Req_EM_T 0 0); [reflexivity|lra]).
  assert (P1 : forall x, power x 1 = x) by (intro x; unfold power; destruct (Req_EM_T 1 0); [lra|]; destruct (Req_EM_T 1 1); [reflexivity|lra]).
  unfold helmholtz, ideal_energy, residual_energy, value2, opt_total, total, exp_terms.
  cbn [mp_R mp_AO mp_AR exQ exP ao_Tscale ao_dscale ao_logt ao_tlogt ao_coef0 ao_coef1 ar_Tscale ar_dscale ar_first ar_rest ar_coef1 ar_coef2 fold_right c2_rows c2_first c2_rest c2_prex c2_prey c2_postx c2_posty fst snd].
  rewrite !P0, !P1. change (Z.to_nat 0) with 0%nat. change (Z.to_nat 1) with 1%nat. cbn [pow]. field.
Qed.
Lemma ln_quot a b : 0 < a -> 0 < b -> ln (a / b) = ln a - ln b.
Proof. intros Ha Hb. unfold Rdiv. rewrite ln_mult, ln_Rinv by (try apply Rinv_0_lt_compat; assumption). ring. Qed.
Definition exH (d : R) : R := 461 * 700 * (5/2 - d / 300).
Lemma exQ_h d : 0 < d -> at_state (mp_h exQ) 700 d (exH d).
Proof.
  intro Hd. destruct (property_values exQ exQ_wf [(Some 700, Some d)] 700 d ltac:(lra) Hd ltac:(now left)) as (fT & fd & (P1 & P2) & V).
  destruct (V 0%nat) as (_ & _ & _ & G & _). replace (exH d) with (helmholtz exQ 700 d - 700 * fT + d * fd); [exact G|].
  assert (fd = 461 * 700 * (/ d - 1 / 300)) as ->.
  { apply (uniqueness_limite (fun v => helmholtz exQ 700 v) d); [exact P2|].
    apply (D_ext_pos (fun v => 461 * 700 * (ln v - ln 300 + 3/2 * ln (600 / 700) - v * / 300))); [exact Hd| |].
    - intros v Hv. rewrite exQ_f. rewrite (ln_quot v 300) by lra. lra.
    - assert (Q : derivable_pt_lim (fun v => 461 * 700 * (ln v - ln 300 + 3/2 * ln (600 / 700) - v * / 300)) d (461 * 700 * (/ d - 0 + 0 - (1 * / 300)))).
      { apply (derivable_pt_lim_scal (fun v => ln v - ln 300 + 3/2 * ln (600 / 700) - v * / 300)).
        apply (derivable_pt_lim_minus (fun v => ln v - ln 300 + 3/2 * ln (600 / 700)) (fun v => v * / 300)).
        - apply (derivable_pt_lim_plus (fun v => ln v - ln 300) (fun _ => 3/2 * ln (600 / 700))); [|apply derivable_pt_lim_const].
          apply (derivable_pt_lim_minus ln (fun _ => ln 300)); [now apply derivable_pt_lim_ln|apply derivable_pt_lim_const].
        - replace (1 * / 300) with (1 * / 300 + d * 0) by ring. apply (derivable_pt_lim_mult (fun v => v) (fun _ => / 300)); [apply derivable_pt_lim_id|apply derivable_pt_lim_const]. }
      replace (461 * 700 * (/ d - 1 / 300)) with (461 * 700 * (/ d - 0 + 0 - (1 * / 300))) by (field; lra). exact Q. }
  assert (fT = 461 * (ln (d / 300) + 3/2 * ln (600 / 700) - d / 300) - 461 * (3/2)) as ->.
  { apply (uniqueness_limite (fun u => helmholtz exQ u d) 700); [exact P1|].
    apply (D_ext_pos (fun u => 461 * (u * (ln (d / 300) + 3/2 * (ln 600 - ln u) - d / 300)))); [lra| |].
    - intros u Hu. rewrite exQ_f. rewrite (ln_quot 600 u) by lra. ring.
    - replace (461 * (ln (d / 300) + 3/2 * ln (600 / 700) - d / 300) - 461 * (3/2)) with
        (461 * (1 * (ln (d / 300) + 3/2 * (ln 600 - ln 700) - d / 300) + 700 * (0 + 3/2 * (0 - / 700) - 0))).
      2:{ rewrite (ln_quot 600 700) by lra. field. }
      apply (derivable_pt_lim_scal (fun u => u * (ln (d / 300) + 3/2 * (ln 600 - ln u) - d / 300))).
      apply (derivable_pt_lim_mult (fun u => u) (fun u => ln (d / 300) + 3/2 * (ln 600 - ln u) - d / 300)); [apply derivable_pt_lim_id|].
      apply (derivable_pt_lim_minus (fun u => ln (d / 300) + 3/2 * (ln 600 - ln u)) (fun _ => d / 300)); [|apply derivable_pt_lim_const].
      apply (derivable_pt_lim_plus (fun _ => ln (d / 300)) (fun u => 3/2 * (ln 600 - ln u))); [apply derivable_pt_lim_const|].
      apply (derivable_pt_lim_scal (fun u => ln 600 - ln u)).
      apply (derivable_pt_lim_minus (fun _ => ln 600) ln); [apply derivable_pt_lim_const|apply derivable_pt_lim_ln; lra]. }
  unfold exH. rewrite exQ_f. field. lra.
Qed.
Lemma exQ_ev d : 0 < d -> evaluable exQ 700 d.
Proof. intros _. now apply evaluable_nc. Qed.
Lemma exQ_h1 all d : 0 < d -> exists w, mp_h exQ all (Some 700) (Some d) 1 = (Some (exH d), Some w, Some (- (461 * 700 / 300))).
Proof.
  intro Hd. assert (RF := regular_h exQ exQ_wf).
  assert (HT : 0 < 700) by lra.
  destruct (proj2 (Y_at exQ (mp_h exQ) 700 exH RF HT exQ_ev exQ_h all d Hd (fits_nc exQ _ _ _ eq_refl))) as (w & s & H). exists w. rewrite H. do 2 f_equal.
  destruct (own_all exQ exQ_wf eq_refl [] 700 d HT Hd) as (_ & _ & _ & (v & vT & vd & Q & O) & _).
  assert (V : forall u w, 0 < u -> 0 < w -> gives (mp_h exQ [] (Some u) (Some w) 0%nat) (match fst (fst (mp_h exQ [] (Some u) (Some w) 0%nat)) with Some v => v | None => 0 end)).
  { intros u x Hu Hx. destruct (RF u x Hu Hx (evaluable_nc exQ _ _ eq_refl)) as (v' & vT' & vd' & H'). pose proof (proj1 (H' [] (fits_nc exQ _ _ _ eq_refl))) as P0. unfold value0, gives in *. now rewrite P0. }
  destruct (O (fun u w => match fst (fst (mp_h exQ [] (Some u) (Some w) 0%nat)) with Some v => v | None => 0 end) V) as (_ & _ & P2).
  assert (vd = s) as ->.
  { destruct (RF 700 d HT Hd (evaluable_nc exQ _ _ eq_refl)) as (v' & vT' & vd' & H'). pose proof (proj2 (H' [] (fits_nc exQ _ _ _ eq_refl))) as A1. pose proof (proj2 (H' all (fits_nc exQ _ _ _ eq_refl))) as A2. congruence. }
  f_equal. apply (uniqueness_limite exH d).
  - match type of P2 with deriv ?g _ _ => apply (D_ext_pos g exH d s Hd); [|exact P2] end. intros x Hx. pose proof (proj1 (Y_at exQ (mp_h exQ) 700 exH RF HT exQ_ev exQ_h [] x Hx (fits_nc exQ _ _ _ eq_refl))) as G. unfold value0 in G. now rewrite G.
  - unfold exH. assert (Q2 : derivable_pt_lim (fun x => 461 * 700 * (5/2 - x * / 300)) d (461 * 700 * (0 - (1 * / 300)))).
    { apply (derivable_pt_lim_scal (fun x => 5/2 - x * / 300)).
      apply (derivable_pt_lim_minus (fun _ => 5/2) (fun x => x * / 300)); [apply derivable_pt_lim_const|].
      replace (1 * / 300) with (1 * / 300 + d * 0) by ring. apply (derivable_pt_lim_mult (fun v => v) (fun _ => / 300)); [apply derivable_pt_lim_id|apply derivable_pt_lim_const]. }
    replace (- (461 * 700 / 300)) with (461 * 700 * (0 - 1 * / 300)) by lra. exact Q2.
Qed.

(* 13940.64 kJ/kmol and 700 K *)
Definition khT : list (string * arr) := [("h", [Some (18/1000 * exH 30)]); ("T", [Some 700])].
Lemma ex_acc_2 n1 n2 y t : (n1 = "h" \/ n1 = "s") -> n2 = "T" -> mp_acceptable [] [(n1, [Some y]); (n2, [Some t])].
Proof.
  intros [->| ->] ->.
  - unfold mp_acceptable. cbn. split; [lia|]. split; [repeat constructor; cbn; intuition discriminate|].
    split; [intros n [<-|[<-|[]]]; cbn; auto 12|]. split; [left; lia|]. repeat split; intuition discriminate.
  - unfold mp_acceptable. cbn. split; [lia|]. split; [repeat constructor; cbn; intuition discriminate|].
    split; [intros n [<-|[<-|[]]]; cbn; auto 12|]. split; [left; lia|]. repeat split; intuition discriminate.
Qed.
Lemma inst_sT : forall fuel,
  In ("h", mm_h exQ exE fuel) (searched exQ exE fuel) /\ In ("h", mp_h exQ) (searched_eos exQ) /\ mp_wf exQ /\
  state_pair [] khT 0 "h" (18/1000 * exH 30) "T" 700 /\ property_is exQ exz "h" (18/1000 * exH 30) (exH 30) /\ kelvin_is exE 700 700 /\
  (forall d, 0 < d -> at_state (mp_h exQ) 700 d (exH d)) /\
  property_limits exQ 700 exH (exH 30) 0 1000 /\ lower_limit exQ exH (exH 30) 0 (1 / 10) /\ bracketed exH (1 / 10) 1000 (exH 30) /\
  call_warns exQ exE fuel [] khT = Ok false /\
  exists r, mm_d exQ exE fuel [] khT = Ok ([Some r], [Some (-1)]) /\ density_is exQ exz r 30.
Proof.
  intro fuel.
  assert (S : state_pair [] khT 0 "h" (18/1000 * exH 30) "T" 700) by (apply pair_scalar; [discriminate|apply ex_acc_2; auto]).
  assert (K : kelvin_is exE 700 700) by apply ex_K.
  assert (PI : property_is exQ exz "h" (18/1000 * exH 30) (exH 30)) by (unfold property_is, energy_is; cbn; field).
  assert (PL : property_limits exQ 700 exH (exH 30) 0 1000) by (left; cbn; repeat split; lra).
  assert (LL : lower_limit exQ exH (exH 30) 0 (1 / 10)).
  { right. split; [reflexivity|]. exists 0%nat. cbn. split; [lia|]. split; [lra|]. split; [unfold exH; lra|auto]. }
  assert (AR : mp_argparse exQ exE fuel [] khT = from_sT exQ exE (in_h exQ) [(Some (exH 30), Some 700)] /\
    call_warns exQ exE fuel [] khT = sT_warns exQ exE (in_h exQ) [(Some (exH 30), Some 700)]).
  { destruct (pair_args exQ exE fuel _ _ _ _ _ _ _ S) as (a & b & _ & _ & Ga & Gb & A & _ & _ & -> & ->).
    assert (a = [Some (18/1000 * exH 30)]) as -> by (injection Ga as <-; reflexivity).
    assert (b = [Some 700]) as -> by (injection Gb as <-; reflexivity).
    rewrite (si_args_val _ _ _ _ _ _ _ _ exQZ), Ga, Gb, (A "d"), (A "p"), (A "x"), (A "v") by discriminate. cbn [ores bind option_map].
    destruct (limited_ok exE (mp_Tlim exQ) (gT (z_T exz) [Some 700]) 0 700) as [LT LT2]; [reflexivity|unfold in_range; cbn; lra|].
    rewrite LT. cbn [bind].
    unfold from_args, args_warns. cbn [a_inv a_T a_p a_d a_x].
    assert (G1 : gH exQ (z_kE exz) (z_kM exz) [Some (18/1000 * exH 30)] = [Some (exH 30)]) by (unfold gH, kgs; cbn; do 2 f_equal; field).
    split; (match goal with |- context [broadcast2 ?u ?v] => replace u with ([Some (exH 30)] : arr) by (symmetry; exact G1); replace v with ([Some 700] : arr) by (cbn [gT map z_T exz lift1]; cbn [gT map z_T exz lift1] in LT2; cbn; f_equal; symmetry; exact LT2) end; reflexivity). }
  destruct AR as [A W].
  assert (HF : hybrid1 true ep1 50 (xf_of (e_oob exE)) [{| e_fn := along_d (in_h exQ) (Some 700); e_y := Fin (exH 30); e_x := NaN; e_sel := true; e_min := Fin (1/10); e_max := Fin 1000 |}] = Ok ([Fin 30], false)).
  { apply (line_found _ (- (461 * 700 / 300)) (461 * 700 * (5/2)) (1/10) 1000 (exH 30)); try reflexivity; try lra; try (unfold exH; lra).
    - intros x Hx. cbn [e_fn]. destruct (exQ_h1 [(Some 700, Some x)] x ltac:(lra)) as (w & H).
      unfold along_d, in_h, alone. cbn [fl_of].
      replace (- (461 * 700 / 300) * x + 461 * 700 * (5/2)) with (exH x) by (unfold exH; lra).
      exact (f_equal (fun t : fl * fl * fl => let '(y, _, yd) := t in (xf_of y, xf_of yd)) H).
    - unfold ep1. lra. }
  assert (PP : plan_sT exQ (in_h exQ) (Some (exH 30)) (Some 700) = {| st_da := Some 0; st_db := Some 1000; st_sat := false; st_d1 := None; st_d2 := None; st_x := num (-1) |}).
  { destruct (limits_sT exQ (mp_h exQ) 700 exH (regular_h exQ exQ_wf) ltac:(lra) exQ_ev exQ_h (exH 30) 0 1000 PL) as (d1 & d2 & Q & ->).
    unfold plan_sT, num in *. cbn [mp_Tc exQ] in *. rewrite flt_false in * by lra. reflexivity. }
  assert (LW : sT_lower exQ (in_h exQ) (Some (exH 30)) (Some 700) {| st_da := Some 0; st_db := Some 1000; st_sat := false; st_d1 := None; st_d2 := None; st_x := num (-1) |} = Ok (Some (1/10))).
  { unfold sT_lower. cbn [st_da st_sat]. destruct (Req_EM_T 0 0); [|lra]. unfold num. cbn [mp_dlim exQ fst snd fmul fadd lift2].
    replace (9999/10000 * 0 + 1/10000 * 1000) with (1/10) by lra. cbn [sT_loop].
    assert (V : value0 (in_h exQ (Some 700) (Some (1/10)) 0%nat) = Some (exH (1/10))) by (exact (Y_alone exQ (mp_h exQ) 700 exH (regular_h exQ exQ_wf) ltac:(lra) exQ_ev exQ_h (1/10) ltac:(lra))).
    rewrite V. rewrite flt_false by (unfold exH; lra). reflexivity. }
  assert (TR : traverse (sT_elem exQ (in_h exQ)) (map (fun e => (e, plan_sT exQ (in_h exQ) (fst e) (snd e))) [(Some (exH 30), Some 700)]) =
    Ok [{| e_fn := along_d (in_h exQ) (Some 700); e_y := Fin (exH 30); e_x := NaN; e_sel := true; e_min := Fin (1/10); e_max := Fin 1000 |}]).
  { cbn [map fst snd]. match goal with |- context [plan_sT exQ (in_h exQ) ?u ?w] => replace (plan_sT exQ (in_h exQ) u w) with {| st_da := Some 0; st_db := Some 1000; st_sat := false; st_d1 := None; st_d2 := None; st_x := num (-1) |} by (symmetry; exact PP) end.
    cbn [traverse]. unfold sT_elem.
    match goal with |- context [sT_lower ?a ?b ?c ?d ?e] => replace (sT_lower a b c d e) with (Ok (Some (1/10) : fl)) by (symmetry; exact LW) end. reflexivity. }
  split; [cbn; auto|]. split; [cbn; auto|]. split; [exact exQ_wf|]. split; [exact S|]. split; [exact PI|]. split; [exact K|]. split; [exact exQ_h|].
  split; [exact PL|]. split; [exact LL|]. split; [unfold bracketed, exH; right; lra|]. split.
  - rewrite W. unfold sT_warns. match goal with |- context [traverse ?a ?b] => replace (traverse a b) with (Ok [{| e_fn := along_d (in_h exQ) (Some 700); e_y := Fin (exH 30); e_x := NaN; e_sel := true; e_min := Fin (1/10); e_max := Fin 1000 |}]) by (symmetry; exact TR) end.
    cbn [bind]. rewrite HF. reflexivity.
  - exists (1 / kgs exQ 1 * 30). split.
    + rewrite (mm_d_val exQ exE fuel _ _ _ _ _ _ exQZ), A. unfold from_sT. match goal with |- context [traverse ?a ?b] => replace (traverse a b) with (Ok [{| e_fn := along_d (in_h exQ) (Some 700); e_y := Fin (exH 30); e_x := NaN; e_sel := true; e_min := Fin (1/10); e_max := Fin 1000 |}]) by (symmetry; exact TR) end.
      cbn [bind]. rewrite HF. cbn [bind fst map map2 combine fl_of snd].
      match goal with |- context [plan_sT exQ (in_h exQ) ?u ?w] => replace (plan_sT exQ (in_h exQ) u w) with {| st_da := Some 0; st_db := Some 1000; st_sat := false; st_d1 := None; st_d2 := None; st_x := num (-1) |} by (symmetry; exact PP) end.
      reflexivity.
    + unfold density_is, kgs. cbn. field.
Qed.

(* 500 K and the entropy halfway between saturated liquid and vapor *)
Definition exS (d : R) : R := 461 * (3/2 - ln (d / 300) - 3/2 * ln (600 / 500)).
Definition ksT : list (string * arr) := [("s", [Some (18/1000 * (1/2 * exS 900 + 1/2 * exS 9))]); ("T", [Some 500])].
Lemma exS_lt : exS 900 < exS 9.
Proof. unfold exS. assert (ln (9/300) < ln (900/300)) by (apply ln_increasing; lra). lra. Qed.
Lemma inst_sT_sat : forall fuel,
  In ("s", mm_s exP exE fuel) (searched exP exE fuel) /\ In ("s", mp_s exP) (searched_eos exP) /\
  state_pair [] ksT 0 "s" (18/1000 * (1/2 * exS 900 + 1/2 * exS 9)) "T" 500 /\
  property_is exP exz "s" (18/1000 * (1/2 * exS 900 + 1/2 * exS 9)) (1/2 * exS 900 + 1/2 * exS 9) /\ kelvin_is exE 500 500 /\
  saturation exP 500 900 9 /\ at_state (mp_s exP) 500 900 (exS 900) /\ at_state (mp_s exP) 500 9 (exS 9) /\
  exS 900 < exS 9 /\ exists ys xs, mm_s exP exE fuel [] ksT = Ok (ys, xs).
Proof.
  intro fuel. pose proof exS_lt as LT. set (v := 1/2 * exS 900 + 1/2 * exS 9) in *.
  assert (S : state_pair [] ksT 0 "s" (18/1000 * v) "T" 500) by (apply pair_scalar; [discriminate|apply ex_acc_2; auto]).
  assert (GL : at_state (mp_s exP) 500 900 (exS 900)) by (exact (ex_s [(Some 500, Some 900)] 500 900 ltac:(lra) ltac:(lra))).
  assert (GV : at_state (mp_s exP) 500 9 (exS 9)) by (exact (ex_s [(Some 500, Some 9)] 500 9 ltac:(lra) ltac:(lra))).
  assert (AR : mp_argparse exP exE fuel [] ksT = from_sT exP exE (in_s exP) [(Some v, Some 500)]).
  { destruct (pair_args exP exE fuel _ _ _ _ _ _ _ S) as (a & b & _ & _ & Ga & Gb & A & _ & _ & -> & _).
    assert (a = [Some (18/1000 * v)]) as -> by (injection Ga as <-; reflexivity).
    assert (b = [Some 500]) as -> by (injection Gb as <-; reflexivity).
    rewrite (si_args_val _ _ _ _ _ _ _ _ exZ), Ga, Gb, (A "d"), (A "p"), (A "x"), (A "v"), (A "h"), (A "e") by discriminate. cbn [ores bind option_map].
    destruct (limited_ok exE (mp_Tlim exP) (gT (z_T exz) [Some 500]) 0 500) as [Q LT2]; [reflexivity|unfold in_range; cbn; lra|].
    rewrite Q. cbn [bind].
    unfold from_args. cbn [a_inv a_T a_p a_d a_x].
    assert (G1 : gS exP (z_kT exz) (z_kE exz) (z_kM exz) [Some (18/1000 * v)] = [Some v]) by (unfold gS, kgs; cbn; do 2 f_equal; field).
    match goal with |- context [broadcast2 ?u ?w] => replace u with ([Some v] : arr) by (symmetry; exact G1); replace w with ([Some 500] : arr) by (cbn; f_equal; symmetry; exact LT2) end; reflexivity. }
  split; [cbn; auto|]. split; [cbn; auto|]. split; [exact S|].
  split; [unfold property_is, entropy_is; cbn; field|]. split; [apply ex_K|]. split; [apply ex_saturation; lra|]. split; [exact GL|]. split; [exact GV|]. split; [exact LT|].
  rewrite (mm_s_val exP exE fuel exz exZ), AR. unfold from_sT.
  assert (PP : exists x da db, plan_sT exP (in_s exP) (Some v) (Some 500) = {| st_da := da; st_db := db; st_sat := true; st_d1 := Some 900; st_d2 := Some 9; st_x := x |}).
  { unfold plan_sT, num. cbn [mp_Tc exP]. rewrite flt_true by lra. rewrite (proj1 ex_sat_d), (proj2 ex_sat_d).
    assert (V1 : forall d, 0 < d -> value0 (in_s exP (Some 500) (Some d) 0%nat) = Some (exS d)) by (intros d Hd; apply ex_s; lra).
    rewrite !V1 by lra. rewrite !fle_true by (unfold v; lra). cbn [andb]. do 3 eexists. reflexivity. }
  destruct PP as (x & da & db & PP). 
  assert (TR : exists e, traverse (sT_elem exP (in_s exP)) (map (fun e => (e, plan_sT exP (in_s exP) (fst e) (snd e))) [(Some v, Some 500)]) = Ok [e] /\ e_sel e = false).
  { cbn [map fst snd]. match goal with |- context [plan_sT exP (in_s exP) ?u ?w] => replace (plan_sT exP (in_s exP) u w) with {| st_da := da; st_db := db; st_sat := true; st_d1 := Some 900; st_d2 := Some 9; st_x := x |} by (symmetry; exact PP) end.
    cbn [traverse]. unfold sT_elem, sT_lower. cbn [st_da st_sat]. destruct da as [da|]; [destruct (Req_EM_T da 0)|]; cbn [bind]; eexists; (split; [reflexivity|reflexivity]). }
  destruct TR as (e & TR & SE).
  match goal with |- context [traverse ?a ?b] => replace (traverse a b) with (Ok [e]) by (symmetry; exact TR) end. cbn [bind].
  unfold hybrid1. cbn [existsb forallb map]. rewrite SE. cbn [negb orb andb bind fst]. eauto.
Qed.

(* The property routines of mp1.py as derivatives of one Helmholtz free energy (C47). *)
From Coq Require Import Reals ZArith List Lra Lia Bool Arith.
From Verif Require Import Model_Mp1 Spec_Mp1 Proof_Jets Proof_Mp1Poly Proof_Mp1Helm Proof_Mp1Res Proof_Mp1Crit.
Import ListNotations.
Local Open Scope R_scope.
Local Open Scope list_scope.

Definition jinvT (c T : R) : J1 := mk1 (c / T) (- (c / T) / T) (2 * (c / T) / T / T).
Definition jscale (c d : R) : J1 := mk1 (d / c) (/ c) 0.
Lemma jinvT_jet c : jet1_on (fun T => 0 < T) (jinvT c).
Proof.
  intros T HT. assert (N : T <> 0) by lra. unfold jinvT. cbn. split.
  - apply (D_eq _ _ (c * - / (T * T))).
    + apply (D_ext (fun u => c * / u)); [intro u; reflexivity|]. apply (D_scal (fun u => / u) c). apply D_inv. exact N.
    + field. exact N.
  - apply (D_eq _ _ (- c * ((- / (T * T)) * / T + / T * - / (T * T)))).
    + apply (D_ext (fun u => - c * (/ u * / u))); [intro u; unfold Rdiv; ring|].
      apply (D_scal (fun u => / u * / u) (- c)).
      apply (D_mult (fun u => / u) (fun u => / u)); apply D_inv; exact N.
    + field. exact N.
Qed.
Lemma jscale_jet U c : jet1_on U (jscale c).
Proof.
  intros d _. unfold jscale. cbn. split; [|apply D_const].
  apply (D_eq _ _ (/ c * 1)); [|ring].
  apply (D_ext (fun u => / c * u)); [intro u; unfold Rdiv; ring|]. apply (D_scal (fun u => u) (/ c)). apply D_id.
Qed.

Section Energy.
Variable D : mpdata.
Hypothesis WF : mp_wf D.
Let Ts0 := ao_Tscale (mp_AO D).
Let ds0 := ao_dscale (mp_AO D).
Let Ts := ar_Tscale (mp_AR D).
Let ds := ar_dscale (mp_AR D).
Let Rg := mp_R D.
(* the residual jet and its domain *)
Variable JR : R -> R -> J2.

Definition jhelm (T d : R) : J2 :=
  j2mul (j2const Rg) (j2mul (j2x (j1var T))
    (j2add (j2args (rao2 (mp_AO D) (Ts0 / T) (d / ds0)) (jinvT Ts0 T) (jscale ds0 d))
           (j2args (JR (Ts / T) (d / ds)) (jinvT Ts T) (jscale ds d)))).

Lemma scaled (U V : R -> R -> Prop) : (forall x y, U x y -> opos x y) ->
  (forall x y, V x y -> opos x y /\ U (Ts / x) (y / ds)) -> jet2_on U JR -> jet2_on V jhelm.
Proof.
  intros HU HV HJ. destruct WF as (W1 & W2 & W3 & P1 & P2 & P3 & P4 & P5).
  unfold jhelm.
  apply (jet2_mul V (fun _ _ => j2const Rg) (fun T d => j2mul (j2x (j1var T))
    (j2add (j2args (rao2 (mp_AO D) (Ts0 / T) (d / ds0)) (jinvT Ts0 T) (jscale ds0 d))
           (j2args (JR (Ts / T) (d / ds)) (jinvT Ts T) (jscale ds d))))); [apply jet2_const|].
  apply (jet2_mul V (fun T _ => j2x (j1var T)) (fun T d => 
    j2add (j2args (rao2 (mp_AO D) (Ts0 / T) (d / ds0)) (jinvT Ts0 T) (jscale ds0 d))
           (j2args (JR (Ts / T) (d / ds)) (jinvT Ts T) (jscale ds d)))).
  { apply (jet2_x V (fun _ => True) j1var); [intros; exact I|apply jet1_var]. }
  apply (jet2_add V (fun T d => j2args (rao2 (mp_AO D) (Ts0 / T) (d / ds0)) (jinvT Ts0 T) (jscale ds0 d))
     (fun T d => j2args (JR (Ts / T) (d / ds)) (jinvT Ts T) (jscale ds d))).
  - apply (jet2_args V opos (fun x => 0 < x) (fun _ => True) (jinvT Ts0) (jscale ds0) (rao2 (mp_AO D))).
    + intros x y H. destruct (HV x y H) as [[Hx Hy] _]. split; [exact Hx|]. split; [exact I|].
      split; cbn; apply Rdiv_lt_0_compat; assumption.
    + apply jinvT_jet.
    + apply jscale_jet.
    + apply rao2_jet. exact W1.
  - apply (jet2_args V U (fun x => 0 < x) (fun _ => True) (jinvT Ts) (jscale ds) JR).
    + intros x y H. destruct (HV x y H) as [[Hx Hy] K]. split; [exact Hx|]. split; [exact I|exact K].
    + apply jinvT_jet.
    + apply jscale_jet.
    + exact HJ.
Qed.

(* one state *)
Variables (all : list (fl * fl)) (T d : R).
Hypothesis HT : 0 < T.
Hypothesis Hd : 0 < d.
Variable err : R.
Hypothesis AR : forall n, ar_at D all (Some T) (Some d) n = gate2 n (mixerr err (JR (Ts / T) (d / ds))).

Lemma red_ao_eq : red_ao D (Some T) (Some d) = (Some (Ts0 / T), Some (d / ds0)).
Proof.
  destruct WF as (_ & _ & _ & P1 & P2 & P3 & P4 & P5). unfold red_ao, num. rewrite !fdiv_ok by lra. reflexivity.
Qed.
Lemma red_ar_eq : red_ar D (Some T) (Some d) = (Some (Ts / T), Some (d / ds)).
Proof.
  destruct WF as (_ & _ & _ & P1 & P2 & P3 & P4 & P5). unfold red_ar, num. rewrite !fdiv_ok by lra. reflexivity.
Qed.
Lemma ao_at_eq n : ao_at D (Some T) (Some d) n = gate2 n (rao2 (mp_AO D) (Ts0 / T) (d / ds0)).
Proof.
  destruct WF as (W1 & _ & _ & P1 & P2 & P3 & P4 & P5). unfold ao_at. rewrite red_ao_eq. cbn [fst snd].
  apply ao_gate; [exact W1| |]; apply Rdiv_lt_0_compat; assumption.
Qed.
Lemma rao2_d G t x : by_ (rao2 G t x) = / x.
Proof. unfold rao2, j2add, j2x, j2y, j1ln. cbn. ring. Qed.
Lemma rao2_td G t x : bxy (rao2 G t x) = 0.
Proof. unfold rao2, j2add, j2x, j2y, j1ln. cbn. ring. Qed.
Lemma rao2_dd G t x : byy (rao2 G t x) = - / (x * x).
Proof. unfold rao2, j2add, j2x, j2y, j1ln. cbn. ring. Qed.

(* the values the routines return, from the derivatives of the free energy *)
Let F := jhelm T d.
(* the mixed derivative as the code has it *)
Definition Ftd : R := bxy F - Rg * T * err * (Ts / T) / (T * ds).

Ltac start := destruct WF as (W1 & W2 & W3 & P1 & P2 & P3 & P4 & P5);
  fold Ts0 in P1; fold ds0 in P2; fold Ts in P3; fold ds in P4;
  assert (N1 : T <> 0) by lra; assert (N2 : d <> 0) by lra; assert (N3 : Ts <> 0) by lra;
  assert (N4 : ds <> 0) by lra; assert (N5 : Ts0 <> 0) by lra; assert (N6 : ds0 <> 0) by lra;
  fold Rg in P5; assert (N7 : Rg <> 0) by lra.
Ltac unf diff :=
  rewrite ?Nat.add_1_r, ?red_ar_eq, ?red_ao_eq, ?ao_at_eq, ?AR; unfold gate2;
  rewrite ?rao2_d, ?rao2_td, ?rao2_dd;
  unfold mixerr; cbn [b0 bx by_ bxx bxy byy fst snd];
  destruct diff as [|diff]; cbn [Nat.add diff1 diff2 Nat.ltb Nat.leb];
  fold Rg Ts ds Ts0 ds0; flc; cbn [lift1 lift2];
  unfold fadd, fsub, fmul, fneg; cbn [lift1 lift2].
Ltac divs := repeat (rewrite fdiv_ok by assumption; cbn [lift1 lift2]).
Ltac expand := unfold Ftd, F, jhelm; cbn [b0 bx by_ bxx bxy byy j2mul j2const j2x j2add j2args a0 a1 a2 j1var jinvT jscale];
  rewrite ?rao2_d, ?rao2_td, ?rao2_dd.
Lemma jet1_eq3 (p q s p' q' s' : R) : p = p' -> q = q' -> s = s' -> (Some p, Some q, Some s) = (Some p', Some q', Some s') :> jet1.
Proof. intros -> -> ->. reflexivity. Qed.

Lemma mp_f_eq diff : mp_f D all (Some T) (Some d) diff =
  (Some (b0 F), Some (if diff1 diff then bx F else 0), Some (if diff1 diff then by_ F else 0)).
Proof.
  start. unfold mp_f. unf diff; divs; apply jet1_eq3; try reflexivity; expand; field; repeat split; assumption.
Qed.
Lemma mp_s_eq diff : mp_s D all (Some T) (Some d) diff =
  (Some (- bx F), Some (if diff1 diff then - bxx F else 0), Some (if diff1 diff then - Ftd else 0)).
Proof.
  start. unfold mp_s. unf diff; divs; apply jet1_eq3; try reflexivity; expand; field; repeat split; assumption.
Qed.
Lemma mp_p_eq diff : mp_p D all (Some T) (Some d) diff =
  (Some (d * d * by_ F), Some (if diff1 diff then d * d * Ftd else 0),
   Some (if diff1 diff then 2 * d * by_ F + d * d * byy F else 0)).
Proof.
  start. unfold mp_p. unf diff; divs; apply jet1_eq3; try reflexivity; expand; field; repeat split; assumption.
Qed.
Lemma mp_h_eq diff : mp_h D all (Some T) (Some d) diff =
  (Some (b0 F - T * bx F + d * by_ F),
   Some (if diff1 diff then - T * bxx F + d * Ftd else 0),
   Some (if diff1 diff then - T * Ftd + 2 * by_ F + d * byy F else 0)).
Proof.
  start. unfold mp_h. unf diff; divs; apply jet1_eq3; try reflexivity; expand; field; repeat split; assumption.
Qed.
Lemma mp_g_eq diff : mp_g D all (Some T) (Some d) diff =
  (Some (b0 F + d * by_ F),
   Some (if diff1 diff then bx F + d * Ftd else 0),
   Some (if diff1 diff then 2 * by_ F + d * byy F else 0)).
Proof.
  start. unfold mp_g. unf diff; divs; apply jet1_eq3; try reflexivity; expand; field; repeat split; assumption.
Qed.
Lemma mp_e_eq diff : Ts0 = Ts -> mp_e D all (Some T) (Some d) diff =
  (Some (b0 F - T * bx F),
   Some (if diff1 diff then - T * bxx F else 0),
   Some (if diff1 diff then by_ F - T * Ftd else 0)).
Proof.
  intro ET. start. unfold mp_e. unf diff; divs; rewrite ?ET; apply jet1_eq3; try reflexivity; expand; rewrite ?ET; field; repeat split; assumption.
Qed.
Ltac unf2 :=
  rewrite ?red_ar_eq, ?red_ao_eq, ?ao_at_eq, ?AR; unfold gate2;
  rewrite ?rao2_d, ?rao2_td, ?rao2_dd;
  unfold mixerr; cbn [b0 bx by_ bxx bxy byy fst snd];
  cbn [diff1 diff2 Nat.ltb Nat.leb];
  fold Rg Ts ds Ts0 ds0; flc; cbn [lift1 lift2];
  unfold fadd, fsub, fmul, fneg; cbn [lift1 lift2].
Lemma mp_cv_eq : mp_cv D all (Some T) (Some d) = Some (- T * bxx F).
Proof.
  start. unfold mp_cv. unf2. apply some_eq. expand. field. repeat split; assumption.
Qed.
(* the derivatives of pressure *)
Definition pT : R := d * d * Ftd.
Definition pd : R := 2 * d * by_ F + d * d * byy F.
Lemma mp_cp_eq : pd <> 0 ->
  mp_cp D all (Some T) (Some d) = Some (- T * bxx F + T * (pT * pT) / (d * d * pd)).
Proof.
  intro Hp. start. unfold mp_cp. unf2.
  match goal with |- context [fdiv (Some ?x) (Some ?y)] => set (X := x); set (Y := y) end.
  assert (EX : X = (pT / (Rg * d)) * (pT / (Rg * d))).
  { unfold X, pT. expand. field. repeat split; assumption. }
  assert (EY : Y = pd / (Rg * T)).
  { unfold Y, pd. expand. field. repeat split; assumption. }
  assert (NY : Y <> 0).
  { rewrite EY. intro Z. apply Hp. apply (Rmult_eq_reg_r (/ (Rg * T))).
    - unfold Rdiv in Z. rewrite Z. ring.
    - apply Rinv_neq_0_compat. apply Rmult_integral_contrapositive_currified; assumption. }
  rewrite (fdiv_ok X Y NY). cbn [lift2]. apply some_eq. rewrite EX, EY.
  clear EX EY NY X Y. set (q := pT) in *. set (w := pd) in *. clearbody q w.
  expand. field. repeat split; assumption.
Qed.
Lemma mp_cp_none : pd = 0 -> mp_cp D all (Some T) (Some d) = None.
Proof.
  intro Hp. start. unfold mp_cp. unf2.
  match goal with |- context [fdiv (Some ?x) (Some ?y)] => set (X := x); set (Y := y) end.
  assert (EY : Y = pd / (Rg * T)).
  { unfold Y, pd. expand. field. repeat split; assumption. }
  unfold fdiv. rewrite EY, Hp. destruct (Req_EM_T (0 / (Rg * T)) 0) as [_|N]; [reflexivity|].
  exfalso. apply N. unfold Rdiv. ring.
Qed.
Lemma mp_a_eq : bxx F <> 0 ->
  mp_a D all (Some T) (Some d) = fsqrt (Some (pd - pT * pT / (d * d * bxx F))).
Proof.
  intro Hp. start. unfold mp_a. unf2.
  match goal with |- context [fdiv (Some ?x) (Some ?y)] => set (X := x); set (Y := y) end.
  assert (EX : X = (pT / (Rg * d)) * (pT / (Rg * d))).
  { unfold X, pT. expand. field. repeat split; assumption. }
  assert (EY : Y = T * bxx F / Rg).
  { unfold Y. expand. field. repeat split; assumption. }
  assert (NY : Y <> 0).
  { rewrite EY. intro Z. apply Hp. apply (Rmult_eq_reg_r (T / Rg)).
    - transitivity (T * bxx F / Rg); [field; exact N7|]. rewrite Z. ring.
    - apply Rmult_integral_contrapositive_currified; [exact N1|apply Rinv_neq_0_compat; exact N7]. }
  rewrite (fdiv_ok X Y NY). cbn [lift2]. f_equal. apply some_eq. rewrite EX, EY.
  clear EX EY NY X Y. set (q := pT) in *. set (z := bxx F) in *.
  assert (PD : pd = Rg * T * (1 + d / ds * (2 * by_ (JR (Ts / T) (d / ds)) + d / ds * byy (JR (Ts / T) (d / ds))))).
  { unfold pd. expand. field. repeat split; assumption. }
  rewrite PD. clearbody q z. field. repeat split; assumption.
Qed.
End Energy.

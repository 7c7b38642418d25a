(* Derivatives of the Helmholtz free energy along curves in the T, d plane. *)
From Coq Require Import Reals ZArith List Lra Lia Bool Arith.
From Verif Require Import Model_Mp1 Spec_Mp1 Proof_Jets Proof_Mp1Poly Proof_Mp1Helm Proof_Mp1Res Proof_Mp1Props.
Import ListNotations.
Local Open Scope R_scope.
Local Open Scope list_scope.

(* the jet F, and its first two components, along any differentiable curve *)
Definition cur2_on (U : R -> R -> Prop) (F : R -> R -> J2) : Prop := forall x y, U x y ->
  forall (X Y : R -> R) s a b, X s = x -> Y s = y -> D X s a -> D Y s b ->
  D (fun u => b0 (F (X u) (Y u))) s (bx (F x y) * a + by_ (F x y) * b) /\
  D (fun u => bx (F (X u) (Y u))) s (bxx (F x y) * a + bxy (F x y) * b) /\
  D (fun u => by_ (F (X u) (Y u))) s (bxy (F x y) * a + byy (F x y) * b).

Lemma cur2_const U c : cur2_on U (fun _ _ => j2const c).
Proof.
  intros x y _ X Y s a b _ _ _ _. cbn. repeat split; (eapply D_eq; [apply D_const|ring]).
Qed.
Lemma cur2_x (U : R -> R -> Prop) (Ux : R -> Prop) F : (forall x y, U x y -> Ux x) -> jet1_on Ux F ->
  cur2_on U (fun x _ => j2x (F x)).
Proof.
  intros H HF x y Hu X Y s a b EX EY HX HY. destruct (HF x (H _ _ Hu)) as [F1 F2]. cbn. subst x.
  split; [|split].
  - eapply D_eq; [exact (D_comp _ _ _ _ _ HX F1)|ring].
  - eapply D_eq; [exact (D_comp _ _ _ _ _ HX F2)|ring].
  - eapply D_eq; [apply D_const|ring].
Qed.
Lemma cur2_y (U : R -> R -> Prop) (Uy : R -> Prop) F : (forall x y, U x y -> Uy y) -> jet1_on Uy F ->
  cur2_on U (fun _ y => j2y (F y)).
Proof.
  intros H HF x y Hu X Y s a b EX EY HX HY. destruct (HF y (H _ _ Hu)) as [F1 F2]. cbn. subst y.
  split; [|split].
  - eapply D_eq; [exact (D_comp _ _ _ _ _ HY F1)|ring].
  - eapply D_eq; [apply D_const|ring].
  - eapply D_eq; [exact (D_comp _ _ _ _ _ HY F2)|ring].
Qed.
Lemma cur2_add U F G : cur2_on U F -> cur2_on U G -> cur2_on U (fun x y => j2add (F x y) (G x y)).
Proof.
  intros HF HG x y Hu X Y s a b EX EY HX HY.
  destruct (HF x y Hu X Y s a b EX EY HX HY) as (A1 & A2 & A3).
  destruct (HG x y Hu X Y s a b EX EY HX HY) as (B1 & B2 & B3). cbn.
  split; [|split]; (eapply D_eq; [eapply D_plus; eassumption|ring]).
Qed.
Lemma cur2_mul U F G : cur2_on U F -> cur2_on U G -> cur2_on U (fun x y => j2mul (F x y) (G x y)).
Proof.
  intros HF HG x y Hu X Y s a b EX EY HX HY.
  destruct (HF x y Hu X Y s a b EX EY HX HY) as (A1 & A2 & A3).
  destruct (HG x y Hu X Y s a b EX EY HX HY) as (B1 & B2 & B3). cbn. subst x y.
  split; [|split].
  - eapply D_eq; [exact (D_mult _ _ _ _ _ A1 B1)|cbn beta; ring].
  - eapply D_eq; [exact (D_plus _ _ _ _ _ (D_mult _ _ _ _ _ A2 B1) (D_mult _ _ _ _ _ A1 B2))|cbn beta; ring].
  - eapply D_eq; [exact (D_plus _ _ _ _ _ (D_mult _ _ _ _ _ A3 B1) (D_mult _ _ _ _ _ A1 B3))|cbn beta; ring].
Qed.
Lemma cur2_args (U V : R -> R -> Prop) (Ux Uy : R -> Prop) X Y F :
  (forall x y, U x y -> Ux x /\ Uy y /\ V (a0 (X x)) (a0 (Y y))) ->
  jet1_on Ux X -> jet1_on Uy Y -> cur2_on V F ->
  cur2_on U (fun x y => j2args (F (a0 (X x)) (a0 (Y y))) (X x) (Y y)).
Proof.
  intros H HX HY HF x y Hu X' Y' s a b EX EY HX' HY'. destruct (H x y Hu) as (Hx & Hy & Hv).
  destruct (HX x Hx) as [X1 X2]. destruct (HY y Hy) as [Y1 Y2]. subst x y.
  pose proof (D_comp _ _ _ _ _ HX' X1) as P1. pose proof (D_comp _ _ _ _ _ HX' X2) as P2.
  pose proof (D_comp _ _ _ _ _ HY' Y1) as Q1. pose proof (D_comp _ _ _ _ _ HY' Y2) as Q2. cbn beta in P1, P2, Q1, Q2.
  destruct (HF _ _ Hv (fun u => a0 (X (X' u))) (fun u => a0 (Y (Y' u))) s _ _ eq_refl eq_refl P1 Q1) as (A1 & A2 & A3). cbn.
  split; [|split].
  - eapply D_eq; [exact A1|ring].
  - eapply D_eq; [exact (D_mult _ _ _ _ _ A2 P2)|cbn beta; ring].
  - eapply D_eq; [exact (D_mult _ _ _ _ _ A3 Q2)|cbn beta; ring].
Qed.
Lemma cur2_comp (U : R -> R -> Prop) (V : R -> Prop) F G :
  cur2_on U F -> (forall x y, U x y -> V (b0 (F x y))) -> jet1_on V G ->
  cur2_on U (fun x y => j2comp (G (b0 (F x y))) (F x y)).
Proof.
  intros HF H HG x y Hu X Y s a b EX EY HX HY.
  destruct (HF x y Hu X Y s a b EX EY HX HY) as (A1 & A2 & A3).
  destruct (HG _ (H x y Hu)) as [G1 G2]. subst x y. cbn.
  pose proof (D_comp _ _ _ _ _ A1 G1) as E1. pose proof (D_comp _ _ _ _ _ A1 G2) as E2.
  split; [|split].
  - eapply D_eq; [exact E1|ring].
  - eapply D_eq; [exact (D_mult _ _ _ _ _ E2 A2)|cbn beta; ring].
  - eapply D_eq; [exact (D_mult _ _ _ _ _ E2 A3)|cbn beta; ring].
Qed.
Lemma cur2_ext (U : R -> R -> Prop) F G : (forall x y, F x y = G x y) -> cur2_on U F -> cur2_on U G.
Proof.
  intros E HF x y Hu X Y s a b EX EY HX HY.
  destruct (HF x y Hu X Y s a b EX EY HX HY) as (A1 & A2 & A3). rewrite <- (E x y).
  split; [|split].
  - exact (D_ext _ _ _ _ (fun u => f_equal b0 (E (X u) (Y u))) A1).
  - exact (D_ext _ _ _ _ (fun u => f_equal bx (E (X u) (Y u))) A2).
  - exact (D_ext _ _ _ _ (fun u => f_equal by_ (E (X u) (Y u))) A3).
Qed.

Lemma rlx_cur U n rows F : cur2_on U F -> cur2_on U (fun x y => rlx x y n rows (F x y)).
Proof.
  revert rows F. induction n as [|m IH]; intros rows F HF; [exact HF|].
  assert (SQ : forall q, jet1_on (fun _ => True) q -> cur2_on U (fun x y => stepq x (q y) (F x y))).
  { intros q Hq. apply (cur2_ext U (fun x y => j2add (j2y (q y)) (j2mul (j2x (j1var x)) (F x y)))).
    - intros x y. unfold j2add, j2mul, j2x, j2y, j1var, stepq. cbn [a0 a1 a2 b0 bx by_ bxx bxy byy].
      f_equal; ring.
    - apply cur2_add; [apply (cur2_y U (fun _ => True)); auto|].
      apply cur2_mul; [apply (cur2_x U (fun _ => True)); [auto|apply jet1_var]|exact HF]. }
  assert (S0 : cur2_on U (fun x y => step00 x (F x y))).
  { apply (cur2_ext U (fun x y => j2mul (j2x (j1var x)) (F x y))).
    - intros x y. unfold j2mul, j2x, j1var, step00. cbn [a0 a1 a2 b0 bx by_ bxx bxy byy].
      f_equal; ring.
    - apply cur2_mul; [apply (cur2_x U (fun _ => True)); [auto|apply jet1_var]|exact HF]. }
  cbn [rlx]. destruct rows as [|[[i j] c] rest].
  - apply (IH [] (fun x y => step00 x (F x y))). exact S0.
  - destruct (Z.eqb i (Z.of_nat m)).
    + apply (IH _ (fun x y => stepq x (snd (rly y i (Z.to_nat (j + 1)) ((i, j, c) :: rest) (j1const 0))) (F x y))).
      apply (SQ (fun y => snd (rly y i (Z.to_nat (j + 1)) ((i, j, c) :: rest) (j1const 0)))).
      apply (rly_jet _ i (Z.to_nat (j + 1)) ((i, j, c) :: rest) (fun _ => j1const 0)). apply jet1_const.
    + apply (IH ((i, j, c) :: rest) (fun x y => step00 x (F x y))). exact S0.
Qed.
Lemma rpoly2_cur U c : cur2_on U (rpoly2 c).
Proof. apply (rlx_cur U (size2 c) (c2_rows c) (fun _ _ => j2const 0)). apply cur2_const. Qed.
Lemma rcoef2_cur c : cur2_on opos (rcoef2 c).
Proof.
  apply (cur2_mul opos (fun x y => j2mul (j2args (rpoly2 c (Rpower x (c2_prex c)) (Rpower y (c2_prey c)))
                 (j1pow (c2_prex c) x) (j1pow (c2_prey c) y)) (j2x (j1pow (c2_postx c) x)))
    (fun _ y => j2y (j1pow (c2_posty c) y))).
  - apply (cur2_mul opos (fun x y => j2args (rpoly2 c (Rpower x (c2_prex c)) (Rpower y (c2_prey c)))
                 (j1pow (c2_prex c) x) (j1pow (c2_prey c) y)) (fun x _ => j2x (j1pow (c2_postx c) x))).
    + apply (cur2_args opos (fun _ _ => True) (fun x => 0 < x) (fun y => 0 < y)
               (j1pow (c2_prex c)) (j1pow (c2_prey c)) (rpoly2 c)).
      * intros x y [Hx Hy]. auto.
      * apply jet1_pow.
      * apply jet1_pow.
      * apply rpoly2_cur.
    + apply (cur2_x opos (fun x => 0 < x)); [intros x y [Hx _]; exact Hx|apply jet1_pow].
  - apply (cur2_y opos (fun x => 0 < x)); [intros x y [_ Hy]; exact Hy|apply jet1_pow].
Qed.
Lemma j2sum_cur {A} U (f : R -> R -> A -> J2) l :
  (forall c, In c l -> cur2_on U (fun x y => f x y c)) -> cur2_on U (fun x y => j2sum (f x y) l).
Proof.
  induction l as [|c l IH]; intro H; cbn [j2sum fold_right]; [apply cur2_const|].
  apply (cur2_add U (fun x y => f x y c) (fun x y => j2sum (f x y) l)).
  - apply H. left. reflexivity.
  - apply IH. intros c' Hc'. apply H. right. exact Hc'.
Qed.
Lemma rgroup2_cur g : cur2_on opos (rgroup2 g).
Proof. apply (j2sum_cur opos (fun x y c => rcoef2 c x y)). intros c _. apply rcoef2_cur. Qed.
Lemma rterm0_cur k g : cur2_on opos (rterm0 k g).
Proof.
  apply (cur2_mul opos (rgroup2 g) (fun _ d => j2y (jexpk k d))); [apply rgroup2_cur|].
  apply (cur2_y opos (fun d => 0 < d) (jexpk k)); [intros x y [_ H]; exact H|apply jexpk_jet].
Qed.
Lemma rsum0_cur k gs : cur2_on opos (rsum0 k gs).
Proof.
  revert k. induction gs as [|g gs IH]; intro k; [apply cur2_const|].
  apply (cur2_add opos (rterm0 k g) (rsum0 (S k) gs)); [apply rterm0_cur|apply IH].
Qed.
Lemma jgauss_cur (U : R -> R -> Prop) a e b g : cur2_on U (jgauss a e b g).
Proof.
  apply (cur2_comp U (fun _ => True) (jarg a e b g) j1exp).
  - apply (cur2_add U (fun _ y => j2y (jquad a e y)) (fun x _ => j2x (jquad b g x))).
    + apply (cur2_y U (fun _ => True) (jquad a e)); [intros; exact I|apply jquad_jet].
    + apply (cur2_x U (fun _ => True) (jquad b g)); [intros; exact I|apply jquad_jet].
  - intros; exact I.
  - apply jet1_exp.
Qed.
Lemma rterm1_cur r : cur2_on opos (rterm1 r).
Proof.
  unfold rterm1.
  apply (cur2_mul opos (fun t d => j2mul (j2mul (j2const (r1_c r)) (j2y (j1pow (r1_d r) d))) (j2x (j1pow (r1_t r) t)))
     (jgauss (r1_a r) (r1_ep r) (r1_b r) (r1_gam r))); [|apply jgauss_cur].
  apply (cur2_mul opos (fun t d => j2mul (j2const (r1_c r)) (j2y (j1pow (r1_d r) d))) (fun t _ => j2x (j1pow (r1_t r) t))).
  - apply (cur2_mul opos (fun _ _ => j2const (r1_c r)) (fun _ d => j2y (j1pow (r1_d r) d))); [apply cur2_const|].
    apply (cur2_y opos (fun y => 0 < y) (j1pow (r1_d r))); [intros x y [_ H]; exact H|apply jet1_pow].
  - apply (cur2_x opos (fun y => 0 < y) (j1pow (r1_t r))); [intros x y [H _]; exact H|apply jet1_pow].
Qed.
Lemma rar01_cur G : cur2_on opos (rar01 G).
Proof.
  unfold rar01.
  apply (cur2_add opos (fun t d => j2add (rgroup2 (ar_first G) t d) (rsum0 1 (ar_rest G) t d))
    (fun t d => jopt2 (j2sum (fun r => rterm1 r t d)) (ar_coef1 G))).
  - apply (cur2_add opos (rgroup2 (ar_first G)) (rsum0 1 (ar_rest G))); [apply rgroup2_cur|apply rsum0_cur].
  - destruct (ar_coef1 G) as [l|]; cbn [jopt2]; [|apply cur2_const].
    apply (j2sum_cur opos (fun t d r => rterm1 r t d)). intros r _. apply rterm1_cur.
Qed.
Lemma rao2_cur G : ao_wf G -> cur2_on opos (rao2 G).
Proof.
  intro W. unfold rao2. apply (cur2_add opos (fun _ d => j2y (j1ln d)) (fun t _ => j2x (rao G t))).
  - apply (cur2_y opos (fun y => 0 < y) j1ln); [intros x y [_ H]; exact H|apply jet1_ln].
  - apply (cur2_x opos (fun y => 0 < y) (rao G)); [intros x y [H _]; exact H|apply rao_jet; exact W].
Qed.

Section Energy.
Variable D : mpdata.
Hypothesis WF : mp_wf D.
Let Ts0 := ao_Tscale (mp_AO D).
Let ds0 := ao_dscale (mp_AO D).
Let Ts := ar_Tscale (mp_AR D).
Let ds := ar_dscale (mp_AR D).
Let Rg := mp_R D.
Variable JR : R -> R -> J2.
Lemma jhelm_cur (U V : R -> R -> Prop) : (forall x y, U x y -> opos x y) ->
  (forall x y, V x y -> opos x y /\ U (Ts / x) (y / ds)) -> cur2_on U JR -> cur2_on V (jhelm D JR).
Proof.
  intros HU HV HJ. destruct WF as (W1 & W2 & W3 & P1 & P2 & P3 & P4 & P5).
  unfold jhelm.
  apply (cur2_mul V (fun _ _ => j2const Rg) (fun T d => j2mul (j2x (j1var T))
    (j2add (j2args (rao2 (mp_AO D) (Ts0 / T) (d / ds0)) (jinvT Ts0 T) (jscale ds0 d))
           (j2args (JR (Ts / T) (d / ds)) (jinvT Ts T) (jscale ds d))))); [apply cur2_const|].
  apply (cur2_mul V (fun T _ => j2x (j1var T)) (fun T d => 
    j2add (j2args (rao2 (mp_AO D) (Ts0 / T) (d / ds0)) (jinvT Ts0 T) (jscale ds0 d))
           (j2args (JR (Ts / T) (d / ds)) (jinvT Ts T) (jscale ds d)))).
  { apply (cur2_x V (fun _ => True) j1var); [intros; exact I|apply jet1_var]. }
  apply (cur2_add V (fun T d => j2args (rao2 (mp_AO D) (Ts0 / T) (d / ds0)) (jinvT Ts0 T) (jscale ds0 d))
     (fun T d => j2args (JR (Ts / T) (d / ds)) (jinvT Ts T) (jscale ds d))).
  - apply (cur2_args V opos (fun x => 0 < x) (fun _ => True) (jinvT Ts0) (jscale ds0) (rao2 (mp_AO D))).
    + intros x y H. destruct (HV x y H) as [[Hx Hy] _]. split; [exact Hx|]. split; [exact I|].
      split; cbn; apply Rdiv_lt_0_compat; assumption.
    + apply jinvT_jet.
    + apply jscale_jet.
    + apply rao2_cur. exact W1.
  - apply (cur2_args V U (fun x => 0 < x) (fun _ => True) (jinvT Ts) (jscale ds) JR).
    + intros x y H. destruct (HV x y H) as [[Hx Hy] K]. split; [exact Hx|]. split; [exact I|exact K].
    + apply jinvT_jet.
    + apply jscale_jet.
    + exact HJ.
Qed.
End Energy.

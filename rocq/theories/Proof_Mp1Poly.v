(* The polynomial evaluators of mp1.py (C43). *)
From Coq Require Import Reals ZArith List Lra Lia Bool Arith.
From Verif Require Import Model_Mp1 Spec_Mp1 Proof_Jets.
Import ListNotations.
Local Open Scope R_scope.
Local Open Scope list_scope.

(* ---- powers ---- *)
Lemma power_pos x r : 0 < x -> power x r = Rpower x r.
Proof.
  intro H. unfold power. destruct (Req_EM_T r 0) as [->|].
  - symmetry. apply Rpower_O. exact H.
  - destruct (Req_EM_T r 1) as [->|]; [symmetry; apply Rpower_1; exact H|].
    destruct (Rlt_dec 0 x); [reflexivity|contradiction].
Qed.
Lemma rpower_m1 x r : 0 < x -> Rpower x (r - 1) = Rpower x r / x.
Proof.
  intro H. unfold Rminus. rewrite Rpower_plus, Rpower_Ropp, Rpower_1 by exact H. reflexivity.
Qed.
Lemma rpower_m2 x r : 0 < x -> Rpower x (r - 2) = Rpower x r / x / x.
Proof.
  intro H. replace (r - 2) with (r - 1 - 1) by ring. rewrite !rpower_m1 by exact H. reflexivity.
Qed.
Lemma rpower_pos x r : 0 < Rpower x r.
Proof. apply exp_pos. Qed.
Lemma fpow_pos x r : 0 < x -> fpow (Some x) r = Some (Rpower x r).
Proof. intro H. unfold fpow. destruct (Rlt_dec 0 x); [reflexivity|contradiction]. Qed.
Lemma fdiv_ok x y : y <> 0 -> fdiv (Some x) (Some y) = Some (x / y).
Proof. intro H. unfold fdiv. destruct (Req_EM_T y 0); [contradiction|reflexivity]. Qed.

Lemma diff_cases diff :
  (diff1 diff = false /\ diff2 diff = false) \/ (diff1 diff = true /\ diff2 diff = false) \/
  (diff1 diff = true /\ diff2 diff = true).
Proof. destruct diff as [|[|diff]]; cbn; auto. Qed.

(* ---- one variable ---- *)
(* a jet with the derivatives that diff does not ask for replaced by zero *)
Definition gate1 (diff : nat) (J : J1) : jet1 :=
  (Some (a0 J), Some (if diff1 diff then a1 J else 0), Some (if diff2 diff then a2 J else 0)).

Definition step1 (c x : R) (s : J1) : J1 :=
  mk1 (c + x * a0 s) (a0 s + x * a1 s) (2 * a1 s + x * a2 s).
Definition step0 (x : R) (s : J1) : J1 :=
  mk1 (x * a0 s) (a0 s + x * a1 s) (2 * a1 s + x * a2 s).

Fixpoint rl1 (x : R) (n : nat) (rows : list (Z * R)) (s : J1) : J1 :=
  match n with
  | O => s
  | S m =>
      match rows with
      | (i, c) :: rest =>
          if Z.eqb i (Z.of_nat m) then rl1 x m rest (step1 c x s) else rl1 x m rows (step0 x s)
      | [] => rl1 x m rows (step0 x s)
      end
  end.

Lemma loop1_gate diff x n rows s :
  loop1 diff (Some x) n rows (gate1 diff s) = gate1 diff (rl1 x n rows s).
Proof.
  revert rows s. induction n as [|m IH]; intros rows s; [reflexivity|].
  assert (E : forall c rows',
    loop1 diff (Some x) m rows'
      ((num c + Some x * Some (a0 s))%fl,
       (if diff1 diff then Some (a0 s) + Some x * Some (if diff1 diff then a1 s else 0)
        else Some (if diff1 diff then a1 s else 0))%fl,
       (if diff2 diff
        then num 2 * Some (if diff1 diff then a1 s else 0) + Some x * Some (if diff2 diff then a2 s else 0)
        else Some (if diff2 diff then a2 s else 0))%fl)
    = gate1 diff (rl1 x m rows' (step1 c x s))).
  { intros c rows'. rewrite <- IH. f_equal. unfold gate1, step1.
    destruct (diff_cases diff) as [[-> ->]|[[-> ->]|[-> ->]]]; reflexivity. }
  assert (E0 : forall rows',
    loop1 diff (Some x) m rows'
      ((Some x * Some (a0 s))%fl,
       (if diff1 diff then Some (a0 s) + Some x * Some (if diff1 diff then a1 s else 0)
        else Some (if diff1 diff then a1 s else 0))%fl,
       (if diff2 diff
        then num 2 * Some (if diff1 diff then a1 s else 0) + Some x * Some (if diff2 diff then a2 s else 0)
        else Some (if diff2 diff then a2 s else 0))%fl)
    = gate1 diff (rl1 x m rows' (step0 x s))).
  { intros rows'. rewrite <- IH. f_equal. unfold gate1, step0.
    destruct (diff_cases diff) as [[-> ->]|[[-> ->]|[-> ->]]]; reflexivity. }
  cbn [loop1 rl1 gate1]. unfold gate1 at 1. cbv zeta iota beta.
  destruct rows as [|[i c] rest]; [apply E0|].
  destruct (Z.eqb i (Z.of_nat m)); [apply E | apply E0].
Qed.

Lemma rl1_jet U n rows F : jet1_on U F -> jet1_on U (fun x => rl1 x n rows (F x)).
Proof.
  revert rows F. induction n as [|m IH]; intros rows F HF; [exact HF|].
  assert (S1 : forall c, jet1_on U (fun x => step1 c x (F x))).
  { intro c. apply (jet1_ext U (fun x => j1add (j1const c) (j1mul (j1var x) (F x)))).
    - intro x. unfold j1add, j1mul, j1const, j1var, step1. cbn [a0 a1 a2]. f_equal; ring.
    - apply jet1_add; [apply jet1_const|]. apply jet1_mul; [apply jet1_var|exact HF]. }
  assert (S0 : jet1_on U (fun x => step0 x (F x))).
  { apply (jet1_ext U (fun x => j1mul (j1var x) (F x))).
    - intro x. unfold j1mul, j1var, step0. cbn [a0 a1 a2]. f_equal; ring.
    - apply jet1_mul; [apply jet1_var|exact HF]. }
  cbn [rl1]. destruct rows as [|[i c] rest].
  - apply (IH [] (fun x => step0 x (F x))). exact S0.
  - destruct (Z.eqb i (Z.of_nat m)).
    + apply (IH rest (fun x => step1 c x (F x))). apply S1.
    + apply (IH ((i, c) :: rest) (fun x => step0 x (F x))). exact S0.
Qed.

Definition polysum (x : R) (rows : list (Z * R)) : R :=
  total (fun t => snd t * x ^ Z.to_nat (fst t)) rows.

Lemma rl1_value x n rows s :
  (forall t, In t rows -> (0 <= fst t < Z.of_nat n)%Z) ->
  descending (fun b a : Z * R => (fst b < fst a)%Z) rows ->
  a0 (rl1 x n rows s) = a0 s * x ^ n + polysum x rows.
Proof.
  revert rows s. induction n as [|m IH]; intros rows s Hb Hd.
  - destruct rows as [|t rows]; [cbn; ring|].
    exfalso. specialize (Hb t (or_introl eq_refl)). cbn in Hb. lia.
  - cbn [rl1]. destruct rows as [|[i c] rest].
    + rewrite IH; [|intros t []|exact I]. cbn. ring.
    + destruct Hd as [Hlt Hd]. destruct (Z.eqb_spec i (Z.of_nat m)) as [->|Hne].
      * rewrite IH; [|intros t Ht|exact Hd].
        -- cbn [step1 a0 polysum total fold_right snd fst]. unfold polysum, total.
           cbn [fold_right snd fst]. rewrite Nat2Z.id. cbn [pow]. ring.
        -- pose proof (Hb t (or_intror Ht)). specialize (Hlt t Ht). cbn in Hlt. lia.
      * rewrite IH; [|intros t Ht|split; assumption].
        -- cbn [step0 a0 pow]. ring.
        -- pose proof (Hb t Ht) as Hbt. pose proof (Hb _ (or_introl eq_refl)) as Hi. cbn in Hi.
           destruct Ht as [<-|Ht]; [cbn; lia|]. specialize (Hlt t Ht). cbn in Hlt. lia.
Qed.

(* one coefficient list, at positive arguments *)
Definition size1 (c : coef1) : nat := Z.to_nat (fst (c1_first c) + 1).
Definition rpoly (c : coef1) (x : R) : J1 := rl1 x (size1 c) (c1_rows c) (j1const 0).
Definition rcoef1 (c : coef1) (x : R) : J1 :=
  j1mul (j1comp (rpoly c (Rpower x (c1_pre c))) (j1pow (c1_pre c) x)) (j1pow (c1_post c) x).

Lemma gate1_zero diff : gate1 diff (j1const 0) = (num 0, num 0, num 0).
Proof.
  unfold gate1, j1const. cbn [a0 a1 a2].
  destruct (diff_cases diff) as [[-> ->]|[[-> ->]|[-> ->]]]; reflexivity.
Qed.

Lemma gate1_eq diff p px pxx J : p = a0 J -> (diff1 diff = true -> px = a1 J) ->
  (diff1 diff = false -> px = 0) -> (diff2 diff = true -> pxx = a2 J) ->
  (diff2 diff = false -> pxx = 0) -> (Some p, Some px, Some pxx) = gate1 diff J.
Proof.
  intros -> H1 H1' H2 H2'. unfold gate1.
  destruct (diff_cases diff) as [[E1 E2]|[[E1 E2]|[E1 E2]]]; rewrite E1, E2 in *.
  - rewrite H1', H2' by reflexivity. reflexivity.
  - rewrite H1, H2' by reflexivity. reflexivity.
  - rewrite H1, H2 by reflexivity. reflexivity.
Qed.

Lemma pre_power_pos diff x r : 0 < x -> exists x1 x2,
  pre_power diff (Some x) r = (Some (Rpower x r), Some x1, Some x2) /\
  (diff1 diff = true -> x1 = a1 (j1pow r x)) /\ (diff2 diff = true -> x2 = a2 (j1pow r x)).
Proof.
  intro H. assert (Hx : x <> 0) by lra. unfold pre_power. destruct (Req_EM_T r 1) as [->|Hr].
  - exists 1, 0. split; [rewrite Rpower_1 by exact H; reflexivity|]. unfold j1pow. cbn [a1 a2].
    replace (1 - 1) with 0 by ring. rewrite Rpower_O by exact H. split; intros _; ring.
  - rewrite fpow_pos by exact H.
    destruct (diff_cases diff) as [[E1 E2]|[[E1 E2]|[E1 E2]]]; rewrite E1, E2; cbv beta iota zeta.
    + exists 0, 0. split; [reflexivity|]. split; discriminate.
    + exists (Rpower x r * r / x), 0. unfold num, fmul, lift2. rewrite fdiv_ok by exact Hx.
      split; [reflexivity|]. split; [|discriminate]. intros _. unfold j1pow. cbn [a1].
      rewrite rpower_m1 by exact H. field. exact Hx.
    + exists (Rpower x r * r / x), (Rpower x r * r / x * (r - 1) / x).
      unfold num, fmul, lift2. rewrite !fdiv_ok by exact Hx.
      split; [reflexivity|]. unfold j1pow. cbn [a1 a2].
      rewrite rpower_m1, rpower_m2 by exact H. split; intros _; field; exact Hx.
Qed.

Ltac flc := unfold num; cbn [fadd fsub fmul fneg lift1 lift2].
Ltac fls Hx := flc; repeat (rewrite (fdiv_ok _ _ Hx); flc).

Lemma j1pow_1 x : 0 < x -> j1pow 1 x = mk1 x 1 0.
Proof.
  intro H. unfold j1pow. rewrite Rpower_1 by exact H. replace (1 - 1) with 0 by ring.
  rewrite Rpower_O by exact H. f_equal; ring.
Qed.
Lemma j1pow_0 x : 0 < x -> j1pow 0 x = mk1 1 0 0.
Proof. intro H. unfold j1pow. rewrite Rpower_O by exact H. f_equal; ring. Qed.
Lemma j1pow_a1 x r : 0 < x -> a1 (j1pow r x) = r * Rpower x r / x.
Proof. intro H. cbn. rewrite rpower_m1 by exact H. field. lra. Qed.
Lemma j1pow_a2 x r : 0 < x -> a2 (j1pow r x) = r * Rpower x r / x * (r - 1) / x.
Proof. intro H. cbn. rewrite rpower_m2 by exact H. field. lra. Qed.

Lemma poly1_coef_pos diff x c : 0 < x -> poly1_coef (Some x) c diff = gate1 diff (rcoef1 c x).
Proof.
  intro H. assert (Hx : x <> 0) by lra. unfold poly1_coef.
  destruct (pre_power_pos diff x (c1_pre c) H) as (x1 & x2 & -> & H1 & H2).
  cbv beta iota zeta. rewrite <- (gate1_zero diff), loop1_gate.
  fold (size1 c). change (rl1 (Rpower x (c1_pre c)) (size1 c) (c1_rows c) (j1const 0))
    with (rpoly c (Rpower x (c1_pre c))).
  unfold rcoef1. set (P := rpoly c (Rpower x (c1_pre c))). unfold gate1 at 1. cbv beta iota zeta.
  rewrite fpow_pos by exact H.
  destruct (diff_cases diff) as [[E1 E2]|[[E1 E2]|[E1 E2]]]; rewrite E1, E2 in *;
    destruct (Req_EM_T (c1_pre c) 1) as [Ep|Ep]; destruct (Req_EM_T (c1_post c) 0) as [E0|E0];
    rewrite ?Ep, ?E0; fls Hx;
    apply gate1_eq; rewrite ?E1, ?E2; try discriminate; try (intros _; reflexivity);
    try (intros _); unfold j1mul, j1comp;
    cbn [a0 a1 a2]; rewrite ?H1, ?H2 by reflexivity; rewrite ?Ep, ?E0;
    rewrite ?j1pow_1, ?j1pow_0 by exact H; cbn [a0 a1 a2];
    rewrite ?j1pow_a1, ?j1pow_a2 by exact H; cbn [a0 j1pow]; try (field; exact Hx); ring.
Qed.

Lemma poly1_coef_plain diff x c : plain1 c ->
  poly1_coef (Some x) c diff = gate1 diff (rpoly c x).
Proof.
  intros [Ep E0]. unfold poly1_coef, pre_power. rewrite Ep, E0.
  destruct (Req_EM_T 1 1) as [_|N]; [|contradiction]. destruct (Req_EM_T 0 0) as [_|N]; [|contradiction].
  rewrite <- (gate1_zero diff), loop1_gate. reflexivity.
Qed.

(* ---- groups ---- *)
Definition j1sum {A} (f : A -> J1) (l : list A) : J1 := fold_right (fun c s => j1add (f c) s) (j1const 0) l.

Lemma gate1_add diff A B :
  (let '(s, sx, sxx) := gate1 diff A in
   let '(p, px, pxx) := gate1 diff B in
   ((s + p)%fl, (if diff1 diff then sx + px else sx)%fl, (if diff2 diff then sxx + pxx else sxx)%fl))
  = gate1 diff (j1add A B).
Proof.
  unfold gate1, j1add. cbn [a0 a1 a2].
  destruct (diff_cases diff) as [[-> ->]|[[-> ->]|[-> ->]]]; reflexivity.
Qed.
Lemma j1add_assoc A B C : j1add A (j1add B C) = j1add (j1add A B) C.
Proof. unfold j1add. cbn [a0 a1 a2]. f_equal; ring. Qed.
Lemma j1add_0l A : j1add (j1const 0) A = A.
Proof. destruct A as [u v w]. unfold j1add, j1const. cbn [a0 a1 a2]. f_equal; ring. Qed.
Lemma j1add_0r A : j1add A (j1const 0) = A.
Proof. destruct A as [u v w]. unfold j1add, j1const. cbn [a0 a1 a2]. f_equal; ring. Qed.

Lemma poly1_sum diff x g (f : coef1 -> J1) :
  (forall c, In c g -> poly1_coef (Some x) c diff = gate1 diff (f c)) ->
  poly1 (Some x) g diff = gate1 diff (j1sum f g).
Proof.
  intro H.
  assert (F : forall l A, (forall c, In c l -> poly1_coef (Some x) c diff = gate1 diff (f c)) ->
    fold_left (fun st c =>
        let '(s, sx, sxx) := st in
        let '(p, px, pxx) := poly1_coef (Some x) c diff in
        ((s + p)%fl,
         (if diff1 diff then sx + px else sx)%fl,
         (if diff2 diff then sxx + pxx else sxx)%fl)) l (gate1 diff A)
    = gate1 diff (j1add A (j1sum f l))).
  { intro l. induction l as [|c l IH]; intros A Hl; cbn [fold_left j1sum fold_right].
    - rewrite j1add_0r. reflexivity.
    - rewrite (Hl c (or_introl eq_refl)), gate1_add, IH.
      + rewrite <- j1add_assoc. reflexivity.
      + intros c' Hc'. apply Hl. right. exact Hc'. }
  unfold poly1. destruct g as [|c [|c' g]].
  - cbn. symmetry. apply gate1_zero.
  - cbn. rewrite (H c (or_introl eq_refl)), j1add_0r. reflexivity.
  - rewrite <- (gate1_zero diff). rewrite F by exact H. rewrite j1add_0l. reflexivity.
Qed.

Lemma j1sum_jet {A} U (f : R -> A -> J1) l :
  (forall c, In c l -> jet1_on U (fun x => f x c)) -> jet1_on U (fun x => j1sum (f x) l).
Proof.
  induction l as [|c l IH]; intro H; cbn [j1sum fold_right]; [apply jet1_const|].
  apply (jet1_add U (fun x => f x c) (fun x => j1sum (f x) l)).
  - apply H. left. reflexivity.
  - apply IH. intros c' Hc'. apply H. right. exact Hc'.
Qed.
Lemma j1sum_value {A} (f : A -> J1) l : a0 (j1sum f l) = total (fun c => a0 (f c)) l.
Proof.
  induction l as [|c l IH]; [reflexivity|].
  change (a0 (f c) + a0 (j1sum f l) = a0 (f c) + total (fun c => a0 (f c)) l). rewrite IH. reflexivity.
Qed.

Lemma total_ext {A} (f g : A -> R) l : (forall c, In c l -> f c = g c) -> total f l = total g l.
Proof.
  induction l as [|c l IH]; intro H; cbn; [reflexivity|].
  rewrite (H c (or_introl eq_refl)). f_equal. apply IH. intros c' Hc. apply H. right. exact Hc.
Qed.

Lemma rpoly_jet U c : jet1_on U (rpoly c).
Proof. apply (rl1_jet U (size1 c) (c1_rows c) (fun _ => j1const 0)). apply jet1_const. Qed.
Lemma rpoly_value c x : ordered1 c -> a0 (rpoly c x) = polysum x (c1_rows c).
Proof.
  intros [Hp Hd]. unfold rpoly. rewrite rl1_value; [cbn [a0 j1const]; ring| |exact Hd].
  intros t Ht. split; [exact (Hp t Ht)|]. unfold size1.
  pose proof (Hp _ (or_introl eq_refl)) as H0. cbn [c1_rows] in *.
  assert (fst t <= fst (c1_first c))%Z.
  { destruct Ht as [<-|Ht]; [lia|]. destruct Hd as [Hlt _]. specialize (Hlt t Ht). cbn in Hlt. lia. }
  unfold c1_rows in *. lia.
Qed.
Lemma rcoef1_jet c : jet1_on (fun x => 0 < x) (rcoef1 c).
Proof.
  apply (jet1_mul _ (fun x => j1comp (rpoly c (Rpower x (c1_pre c))) (j1pow (c1_pre c) x))
                    (j1pow (c1_post c))); [|apply jet1_pow].
  apply (jet1_comp (fun x => 0 < x) (fun _ => True) (j1pow (c1_pre c)) (rpoly c)).
  - apply jet1_pow.
  - intros; exact I.
  - apply rpoly_jet.
Qed.
Lemma rcoef1_value c x : 0 < x -> ordered1 c -> a0 (rcoef1 c x) =
  power x (c1_post c) *
    total (fun t => snd t * power x (c1_pre c) ^ Z.to_nat (fst t)) (c1_rows c).
Proof.
  intros Hx Ho. unfold rcoef1, j1mul, j1comp. cbn [a0]. rewrite rpoly_value by exact Ho.
  rewrite !power_pos by exact Hx. cbn [j1pow a0]. unfold polysum. ring.
Qed.

Lemma jet_derivs F (v : R -> R) (U : R -> Prop) x eps : 0 < eps -> (forall u, Rabs (u - x) < eps -> U u) ->
  jet1_on U F -> (forall u, U u -> a0 (F u) = v u) ->
  deriv v x (a1 (F x)) /\ deriv2 v x (a2 (F x)).
Proof.
  intros He HU HF Hv.
  assert (Ux : U x). { apply HU. rewrite Rminus_eq_0, Rabs_R0. exact He. }
  assert (G : forall u, Rabs (u - x) < eps / 2 -> deriv v u (a1 (F u))).
  { intros u Hu. assert (Uu : U u) by (apply HU; lra).
    apply (D_ext_loc (fun w => a0 (F w)) v u _ (eps / 2)); [lra| |apply (HF u Uu)].
    intros w Hw. apply Hv. apply HU.
    replace (w - x) with ((w - u) + (u - x)) by ring.
    eapply Rle_lt_trans; [apply Rabs_triang|]. lra. }
  split.
  - apply G. rewrite Rminus_eq_0, Rabs_R0. lra.
  - exists (fun u => a1 (F u)), (eps / 2). split; [lra|]. split; [exact G|]. apply (HF x Ux).
Qed.

Theorem poly1_exact : forall g diff x,
  Forall ordered1 g -> (0 < x \/ Forall plain1 g) ->
  exists p px pxx, poly1 (Some x) g diff = (Some p, Some px, Some pxx) /\
    p = value1 g x /\
    (if (0 <? diff)%nat then deriv (value1 g) x px else px = 0) /\
    (if (1 <? diff)%nat then deriv2 (value1 g) x pxx else pxx = 0).
Proof.
  intros g diff x Ho Hd.
  assert (K : forall F, poly1 (Some x) g diff = gate1 diff (F x) -> a0 (F x) = value1 g x ->
    (deriv (value1 g) x (a1 (F x)) /\ deriv2 (value1 g) x (a2 (F x))) ->
    exists p px pxx, poly1 (Some x) g diff = (Some p, Some px, Some pxx) /\
    p = value1 g x /\
    (if (0 <? diff)%nat then deriv (value1 g) x px else px = 0) /\
    (if (1 <? diff)%nat then deriv2 (value1 g) x pxx else pxx = 0)).
  { intros F E V [D1 D2]. rewrite E. unfold gate1.
    fold (diff1 diff). fold (diff2 diff).
    destruct (diff_cases diff) as [[-> ->]|[[-> ->]|[-> ->]]];
      eexists; eexists; eexists; (split; [reflexivity|]); auto. }
  destruct Hd as [Hx|Hp].
  - apply (K (fun u => j1sum (fun c => rcoef1 c u) g)).
    + apply poly1_sum. intros c _. apply poly1_coef_pos. exact Hx.
    + rewrite j1sum_value. apply total_ext. intros c Hc. apply rcoef1_value; [exact Hx|].
      exact (proj1 (Forall_forall _ _) Ho c Hc).
    + apply (jet_derivs (fun u => j1sum (fun c => rcoef1 c u) g) (value1 g) (fun u => 0 < u) x x Hx).
      * intros u Hu. apply Rabs_def2 in Hu. lra.
      * apply (j1sum_jet _ (fun u c => rcoef1 c u)). intros c _. apply rcoef1_jet.
      * intros u Hu. rewrite j1sum_value. apply total_ext. intros c Hc.
        apply rcoef1_value; [exact Hu|]. exact (proj1 (Forall_forall _ _) Ho c Hc).
  - assert (V : forall u, a0 (j1sum (fun c => rpoly c u) g) = value1 g u).
    { intro u. rewrite j1sum_value. apply total_ext. intros c Hc.
      rewrite rpoly_value by exact (proj1 (Forall_forall _ _) Ho c Hc).
      destruct (proj1 (Forall_forall _ _) Hp c Hc) as [-> ->]. unfold power.
      destruct (Req_EM_T 0 0) as [_|N]; [|contradiction].
      destruct (Req_EM_T 1 0) as [N|_]; [lra|].
      destruct (Req_EM_T 1 1) as [_|N]; [|contradiction]. rewrite Rmult_1_l. reflexivity. }
    apply (K (fun u => j1sum (fun c => rpoly c u) g)).
    + apply poly1_sum. intros c Hc. apply poly1_coef_plain.
      exact (proj1 (Forall_forall _ _) Hp c Hc).
    + apply V.
    + apply (jet_derivs (fun u => j1sum (fun c => rpoly c u) g) (value1 g) (fun _ => True) x 1); [lra|auto| |auto].
      apply (j1sum_jet _ (fun u c => rpoly c u)). intros c _. apply rpoly_jet.
Qed.

(* the value at zero, where only diff = 0 is used (saturation at the critical point) *)
Lemma poly1_coef_zero c : 0 < c1_pre c -> 0 <= c1_post c -> ordered1 c ->
  exists J, poly1_coef (Some 0) c 0 = gate1 0 J /\ a0 J =
    power 0 (c1_post c) * total (fun t => snd t * power 0 (c1_pre c) ^ Z.to_nat (fst t)) (c1_rows c).
Proof.
  intros Hpre Hpost Ho.
  assert (Z0 : ~ 0 < 0) by lra.
  assert (E1 : pre_power 0 (Some 0) (c1_pre c) = (Some 0, if Req_EM_T (c1_pre c) 1 then num 1 else num 0, num 0)).
  { unfold pre_power. destruct (Req_EM_T (c1_pre c) 1) as [_|_]; [reflexivity|].
    cbn [diff1 diff2 Nat.ltb Nat.leb]. unfold fpow. destruct (Rlt_dec 0 0); [contradiction|].
    destruct (Req_EM_T 0 0); [|contradiction]. destruct (Req_EM_T (c1_pre c) 0); [lra|].
    destruct (Rlt_dec 0 (c1_pre c)); [reflexivity|contradiction]. }
  assert (E2 : power 0 (c1_pre c) = 0).
  { unfold power. destruct (Req_EM_T (c1_pre c) 0); [lra|]. destruct (Req_EM_T (c1_pre c) 1); [reflexivity|].
    destruct (Rlt_dec 0 0); [contradiction|reflexivity]. }
  assert (E3 : total (fun t => snd t * power 0 (c1_pre c) ^ Z.to_nat (fst t)) (c1_rows c)
             = a0 (rpoly c 0)).
  { rewrite E2, rpoly_value by exact Ho. reflexivity. }
  rewrite E3. unfold poly1_coef. rewrite E1.
  assert (E4 : loop1 0 (Some 0) (Z.to_nat (fst (c1_first c) + 1)) (c1_rows c) (num 0, num 0, num 0)
             = gate1 0 (rpoly c 0)).
  { rewrite <- (gate1_zero 0), loop1_gate. reflexivity. }
  cbv beta iota zeta. rewrite E4. unfold gate1 at 1. cbn [diff1 diff2 Nat.ltb Nat.leb].
  assert (Ei : forall A (d : {c1_pre c = 1} + {c1_pre c <> 1}) (a : A), (if d then a else a) = a)
    by (intros A [_|_] a; reflexivity).
  rewrite !Ei. destruct (Req_EM_T (c1_post c) 0) as [E0|E0].
  - exists (rpoly c 0). split; [reflexivity|]. rewrite E0. unfold power.
    destruct (Req_EM_T 0 0); [ring|contradiction].
  - exists (mk1 (a0 (rpoly c 0) * 0) 0 0).
    assert (Ef : fpow (Some 0) (c1_post c) = Some 0).
    { unfold fpow. destruct (Rlt_dec 0 0); [contradiction|]. destruct (Req_EM_T 0 0); [|contradiction].
      destruct (Req_EM_T (c1_post c) 0); [contradiction|].
      destruct (Rlt_dec 0 (c1_post c)); [reflexivity|lra]. }
    rewrite Ef. split; [reflexivity|]. cbn [a0]. unfold power.
    destruct (Req_EM_T (c1_post c) 0); [contradiction|]. destruct (Req_EM_T (c1_post c) 1); [ring|].
    destruct (Rlt_dec 0 0); [contradiction|ring].
Qed.

Lemma poly1_at_zero g : Forall ordered1 g -> Forall (fun c => 0 < c1_pre c /\ 0 <= c1_post c) g ->
  poly1 (Some 0) g 0 = (Some (value1 g 0), Some 0, Some 0).
Proof.
  intros Ho Hp.
  assert (K : forall c, In c g -> exists J, poly1_coef (Some 0) c 0 = gate1 0 J /\ a0 J =
    power 0 (c1_post c) * total (fun t => snd t * power 0 (c1_pre c) ^ Z.to_nat (fst t)) (c1_rows c)).
  { intros c Hc. destruct (proj1 (Forall_forall _ _) Hp c Hc) as [A B].
    apply poly1_coef_zero; [exact A|exact B|]. exact (proj1 (Forall_forall _ _) Ho c Hc). }
  set (f := fun c => mk1 (power 0 (c1_post c) *
     total (fun t => snd t * power 0 (c1_pre c) ^ Z.to_nat (fst t)) (c1_rows c)) 0 0).
  rewrite (poly1_sum 0 0 g f).
  - unfold gate1. cbn [diff1 diff2 Nat.ltb Nat.leb]. rewrite j1sum_value. reflexivity.
  - intros c Hc. destruct (K c Hc) as (J & -> & E). unfold gate1. cbn [diff1 diff2 Nat.ltb Nat.leb].
    rewrite E. reflexivity.
Qed.

(* ---- two variables ---- *)
Definition gate2 (diff : nat) (J : J2) : jet2 :=
  (Some (b0 J), Some (if diff1 diff then bx J else 0), Some (if diff1 diff then by_ J else 0),
   Some (if diff2 diff then bxx J else 0), Some (if diff2 diff then bxy J else 0),
   Some (if diff2 diff then byy J else 0)).

(* the inner loop *)
Fixpoint rly (y : R) (ii : Z) (n : nat) (rows : list (Z * Z * R)) (s : J1)
  : list (Z * Z * R) * J1 :=
  match n with
  | O => (rows, s)
  | S m =>
      match rows with
      | (i, j, c) :: rest =>
          if andb (Z.eqb i ii) (Z.eqb j (Z.of_nat m))
          then rly y ii m rest (step1 c y s) else rly y ii m rows (step0 y s)
      | [] => rly y ii m rows (step0 y s)
      end
  end.

Lemma loopy_gate diff y ii n rows s :
  loopy diff (Some y) ii n rows (gate1 diff s)
  = (fst (rly y ii n rows s), gate1 diff (snd (rly y ii n rows s))).
Proof.
  revert rows s. induction n as [|m IH]; intros rows s; [reflexivity|].
  assert (E : forall c rows',
    loopy diff (Some y) ii m rows'
      ((num c + Some y * Some (a0 s))%fl,
       (if diff1 diff then Some (a0 s) + Some y * Some (if diff1 diff then a1 s else 0)
        else Some (if diff1 diff then a1 s else 0))%fl,
       (if diff2 diff
        then num 2 * Some (if diff1 diff then a1 s else 0) + Some y * Some (if diff2 diff then a2 s else 0)
        else Some (if diff2 diff then a2 s else 0))%fl)
    = (fst (rly y ii m rows' (step1 c y s)), gate1 diff (snd (rly y ii m rows' (step1 c y s))))).
  { intros c rows'. rewrite <- IH. f_equal. unfold gate1, step1.
    destruct (diff_cases diff) as [[-> ->]|[[-> ->]|[-> ->]]]; reflexivity. }
  assert (E0 : forall rows',
    loopy diff (Some y) ii m rows'
      ((Some (a0 s) * Some y)%fl,
       (if diff1 diff then Some (a0 s) + Some y * Some (if diff1 diff then a1 s else 0)
        else Some (if diff1 diff then a1 s else 0))%fl,
       (if diff2 diff
        then num 2 * Some (if diff1 diff then a1 s else 0) + Some y * Some (if diff2 diff then a2 s else 0)
        else Some (if diff2 diff then a2 s else 0))%fl)
    = (fst (rly y ii m rows' (step0 y s)), gate1 diff (snd (rly y ii m rows' (step0 y s))))).
  { intros rows'. rewrite <- IH. f_equal. unfold gate1, step0. cbn [fmul lift2 a0].
    rewrite (Rmult_comm (a0 s) y).
    destruct (diff_cases diff) as [[-> ->]|[[-> ->]|[-> ->]]]; reflexivity. }
  cbn [loopy rly]. unfold gate1 at 1. cbv zeta iota beta.
  destruct rows as [|[[i j] c] rest]; [apply E0|].
  destruct (andb (Z.eqb i ii) (Z.eqb j (Z.of_nat m))); [apply E | apply E0].
Qed.

(* the rows left over do not depend on y *)
Fixpoint left_rows (ii : Z) (n : nat) (rows : list (Z * Z * R)) : list (Z * Z * R) :=
  match n with
  | O => rows
  | S m =>
      match rows with
      | (i, j, c) :: rest =>
          if andb (Z.eqb i ii) (Z.eqb j (Z.of_nat m)) then left_rows ii m rest else left_rows ii m rows
      | [] => left_rows ii m rows
      end
  end.
Lemma rly_left y ii n rows s : fst (rly y ii n rows s) = left_rows ii n rows.
Proof.
  revert rows s. induction n as [|m IH]; intros rows s; [reflexivity|]. cbn [rly left_rows].
  destruct rows as [|[[i j] c] rest]; [apply IH|].
  destruct (andb (Z.eqb i ii) (Z.eqb j (Z.of_nat m))); apply IH.
Qed.
Lemma rly_jet U ii n rows F : jet1_on U F -> jet1_on U (fun y => snd (rly y ii n rows (F y))).
Proof.
  revert rows F. induction n as [|m IH]; intros rows F HF; [exact HF|].
  assert (S1 : forall c, jet1_on U (fun x => step1 c x (F x))).
  { intro c. apply (jet1_ext U (fun x => j1add (j1const c) (j1mul (j1var x) (F x)))).
    - intro x. unfold j1add, j1mul, j1const, j1var, step1. cbn [a0 a1 a2]. f_equal; ring.
    - apply jet1_add; [apply jet1_const|]. apply jet1_mul; [apply jet1_var|exact HF]. }
  assert (S0 : jet1_on U (fun x => step0 x (F x))).
  { apply (jet1_ext U (fun x => j1mul (j1var x) (F x))).
    - intro x. unfold j1mul, j1var, step0. cbn [a0 a1 a2]. f_equal; ring.
    - apply jet1_mul; [apply jet1_var|exact HF]. }
  cbn [rly]. destruct rows as [|[[i j] c] rest].
  - apply (IH [] (fun x => step0 x (F x))). exact S0.
  - destruct (andb (Z.eqb i ii) (Z.eqb j (Z.of_nat m))).
    + apply (IH rest (fun x => step1 c x (F x))). apply S1.
    + apply (IH ((i, j, c) :: rest) (fun x => step0 x (F x))). exact S0.
Qed.

(* the outer loop *)
Definition stepq (x : R) (q : J1) (s : J2) : J2 :=
  mk2 (a0 q + x * b0 s) (b0 s + x * bx s) (a1 q + x * by_ s)
      (2 * bx s + x * bxx s) (by_ s + x * bxy s) (a2 q + x * byy s).
Definition step00 (x : R) (s : J2) : J2 :=
  mk2 (x * b0 s) (b0 s + x * bx s) (x * by_ s)
      (2 * bx s + x * bxx s) (by_ s + x * bxy s) (x * byy s).
Fixpoint rlx (x y : R) (n : nat) (rows : list (Z * Z * R)) (s : J2) : J2 :=
  match n with
  | O => s
  | S m =>
      match rows with
      | (i, j, c) :: _ =>
          if Z.eqb i (Z.of_nat m)
          then rlx x y m (left_rows i (Z.to_nat (j + 1)) rows)
                 (stepq x (snd (rly y i (Z.to_nat (j + 1)) rows (j1const 0))) s)
          else rlx x y m rows (step00 x s)
      | [] => rlx x y m rows (step00 x s)
      end
  end.

Lemma loopx_gate diff x y n rows s :
  loopx diff (Some x) (Some y) n rows (gate2 diff s) = gate2 diff (rlx x y n rows s).
Proof.
  revert rows s. induction n as [|m IH]; intros rows s; [reflexivity|].
  assert (Q : forall q, (let '(q, qy, qyy) := gate1 diff q in fold_q diff (Some x) q qy qyy (gate2 diff s))
              = gate2 diff (stepq x q s)).
  { intro q. unfold gate1, gate2, fold_q, stepq. cbn [b0 bx by_ bxx bxy byy].
    destruct (diff_cases diff) as [[-> ->]|[[-> ->]|[-> ->]]]; reflexivity. }
  assert (N : fold_none diff (Some x) (gate2 diff s) = gate2 diff (step00 x s)).
  { unfold gate2, fold_none, step00. cbn [b0 bx by_ bxx bxy byy].
    destruct (diff_cases diff) as [[-> ->]|[[-> ->]|[-> ->]]]; reflexivity. }
  cbn [loopx rlx]. destruct rows as [|[[i j] c] rest]; [rewrite N; apply IH|].
  destruct (Z.eqb i (Z.of_nat m)); [|rewrite N; apply IH].
  rewrite <- (gate1_zero diff), loopy_gate, rly_left.
  set (q := snd (rly y i (Z.to_nat (j + 1)) ((i, j, c) :: rest) (j1const 0))).
  rewrite <- IH, <- Q. unfold gate1. reflexivity.
Qed.

Lemma rlx_jet U n rows F : jet2_on U F -> jet2_on U (fun x y => rlx x y n rows (F x y)).
Proof.
  revert rows F. induction n as [|m IH]; intros rows F HF; [exact HF|].
  assert (SQ : forall q, jet1_on (fun _ => True) q -> jet2_on U (fun x y => stepq x (q y) (F x y))).
  { intros q Hq. apply (jet2_ext U (fun x y => j2add (j2y (q y)) (j2mul (j2x (j1var x)) (F x y)))).
    - intros x y. unfold j2add, j2mul, j2x, j2y, j1var, stepq. cbn [a0 a1 a2 b0 bx by_ bxx bxy byy].
      f_equal; ring.
    - apply jet2_add; [apply (jet2_y U (fun _ => True)); auto|].
      apply jet2_mul; [apply (jet2_x U (fun _ => True)); [auto|apply jet1_var]|exact HF]. }
  assert (S0 : jet2_on U (fun x y => step00 x (F x y))).
  { apply (jet2_ext U (fun x y => j2mul (j2x (j1var x)) (F x y))).
    - intros x y. unfold j2mul, j2x, j1var, step00. cbn [a0 a1 a2 b0 bx by_ bxx bxy byy].
      f_equal; ring.
    - apply jet2_mul; [apply (jet2_x U (fun _ => True)); [auto|apply jet1_var]|exact HF]. }
  cbn [rlx]. destruct rows as [|[[i j] c] rest].
  - apply (IH [] (fun x y => step00 x (F x y))). exact S0.
  - destruct (Z.eqb i (Z.of_nat m)).
    + apply (IH _ (fun x y => stepq x (snd (rly y i (Z.to_nat (j + 1)) ((i, j, c) :: rest) (j1const 0))) (F x y))).
      apply (SQ (fun y => snd (rly y i (Z.to_nat (j + 1)) ((i, j, c) :: rest) (j1const 0)))).
      apply (rly_jet _ i (Z.to_nat (j + 1)) ((i, j, c) :: rest) (fun _ => j1const 0)). apply jet1_const.
    + apply (IH ((i, j, c) :: rest) (fun x y => step00 x (F x y))). exact S0.
Qed.

(* ---- the value of the two variable loop ---- *)
Definition lexlt (b a : Z * Z * R) : Prop :=
  (fst (fst b) < fst (fst a))%Z \/ (fst (fst b) = fst (fst a) /\ (snd (fst b) < snd (fst a))%Z).
Definition sum2 (x y : R) (rows : list (Z * Z * R)) : R :=
  total (fun t => snd t * x ^ Z.to_nat (fst (fst t)) * y ^ Z.to_nat (snd (fst t))) rows.

Lemma total_app {A} (f : A -> R) l1 l2 : total f (l1 ++ l2) = total f l1 + total f l2.
Proof.
  induction l1 as [|a l1 IH]; [change (total f l2 = 0 + total f l2); ring|].
  change (f a + total f (l1 ++ l2) = f a + total f l1 + total f l2). rewrite IH. ring.
Qed.
Lemma total_scal {A} (f : A -> R) k l : total (fun a => k * f a) l = k * total f l.
Proof.
  induction l as [|a l IH]; [cbn; ring|].
  change (k * f a + total (fun a => k * f a) l = k * (f a + total f l)). rewrite IH. ring.
Qed.

Lemma descending_app {A} (less : A -> A -> Prop) l1 l2 :
  descending less (l1 ++ l2) -> descending less l1 /\ descending less l2.
Proof.
  induction l1 as [|a l1 IH]; [intro H; split; [exact I|exact H]|].
  intros [H1 H2]. destruct (IH H2) as [A1 A2]. split; [split; [|exact A1]|exact A2].
  intros b Hb. apply H1. apply in_or_app. left. exact Hb.
Qed.

(* rows sorted by power of x: those with the largest power come first *)
Lemma split_rows m rows : descending lexlt rows -> (forall t, In t rows -> (fst (fst t) <= m)%Z) ->
  exists pre post, rows = pre ++ post /\ (forall t, In t pre -> fst (fst t) = m) /\
    (forall t, In t post -> (fst (fst t) < m)%Z).
Proof.
  induction rows as [|t rows IH]; intros Hd Hm.
  - exists [], []. split; [reflexivity|]. split; intros t [].
  - destruct Hd as [H1 H2]. destruct (Z.eq_dec (fst (fst t)) m) as [E|N].
    + destruct (IH H2) as (pre & post & -> & A & B).
      { intros u Hu. apply Hm. right. exact Hu. }
      exists (t :: pre), post. split; [reflexivity|]. split; [|exact B].
      intros u [<-|Hu]; [exact E|exact (A u Hu)].
    + exists [], (t :: rows). split; [reflexivity|]. split; [intros u []|].
      assert (Ht : (fst (fst t) < m)%Z) by (pose proof (Hm t (or_introl eq_refl)); lia).
      intros u [<-|Hu]; [exact Ht|]. destruct (H1 u Hu); lia.
Qed.

Lemma rly_value y ii n pre post s :
  (forall t, In t pre -> fst (fst t) = ii /\ (0 <= snd (fst t) < Z.of_nat n)%Z) ->
  (forall t, In t post -> fst (fst t) <> ii) ->
  descending lexlt pre ->
  left_rows ii n (pre ++ post) = post /\
  a0 (snd (rly y ii n (pre ++ post) s))
  = a0 s * y ^ n + total (fun t => snd t * y ^ Z.to_nat (snd (fst t))) pre.
Proof.
  revert pre s. induction n as [|m IH]; intros pre s Hp Hq Hd.
  - destruct pre as [|t pre]; [cbn; split; [reflexivity|ring]|].
    exfalso. specialize (Hp t (or_introl eq_refl)). cbn in Hp. lia.
  - destruct pre as [|[[i j] c] pre].
    + assert (E : left_rows ii (S m) post = left_rows ii m post /\
        forall s, rly y ii (S m) post s = rly y ii m post (step0 y s)).
      { destruct post as [|[[i j] c] post]; [split; reflexivity|]. cbn [left_rows rly].
        pose proof (Hq _ (or_introl eq_refl)) as N. cbn in N.
        destruct (Z.eqb_spec i ii); [contradiction|]. split; reflexivity. }
      destruct E as [E1 E2]. cbn [app]. rewrite E1, E2.
      destruct (IH [] (step0 y s)) as [A B]; [intros t []|exact Hq|exact I|]. cbn [app] in A, B.
      rewrite A, B. split; [reflexivity|]. cbn [step0 a0 total fold_right pow]. ring.
    + destruct (Hp _ (or_introl eq_refl)) as [Ei Ej]. cbn in Ei, Ej. subst i.
      cbn [app left_rows rly]. rewrite Z.eqb_refl. cbn [andb]. destruct Hd as [H1 H2].
      destruct (Z.eqb_spec j (Z.of_nat m)) as [->|N].
      * destruct (IH pre (step1 c y s)) as [A B]; [|exact Hq|exact H2|].
        -- intros t Ht. destruct (Hp t (or_intror Ht)) as [Et Hj]. split; [exact Et|].
           destruct (H1 t Ht) as [L|[_ L]]; cbn in L; lia.
        -- rewrite A, B. split; [reflexivity|]. unfold total. cbn [fold_right snd fst step1 a0 pow].
           rewrite Nat2Z.id. ring.
      * destruct (IH ((ii, j, c) :: pre) (step0 y s)) as [A B]; [|exact Hq|split; assumption|].
        -- intros t [<-|Ht]; [cbn; lia|]. destruct (Hp t (or_intror Ht)) as [Et Hj].
           split; [exact Et|]. destruct (H1 t Ht) as [L|[_ L]]; cbn in L; lia.
        -- cbn [app] in A, B. rewrite A, B. split; [reflexivity|]. cbn [step0 a0 pow]. ring.
Qed.

Lemma rlx_value x y n rows s :
  (forall t, In t rows -> (0 <= fst (fst t) < Z.of_nat n)%Z /\ (0 <= snd (fst t))%Z) ->
  descending lexlt rows ->
  b0 (rlx x y n rows s) = b0 s * x ^ n + sum2 x y rows.
Proof.
  revert rows s. induction n as [|m IH]; intros rows s Hb Hd.
  - destruct rows as [|t rows]; [cbn; ring|].
    exfalso. specialize (Hb t (or_introl eq_refl)). cbn in Hb. lia.
  - destruct rows as [|[[i j] c] rest].
    + cbn [rlx]. rewrite IH; [|intros t []|exact I]. cbn [sum2 total fold_right step00 b0 pow].
      unfold sum2, total. cbn [fold_right]. ring.
    + cbn [rlx]. destruct (Z.eqb_spec i (Z.of_nat m)) as [->|N].
      * destruct (split_rows (Z.of_nat m) _ Hd) as (pre & post & E & Hpre & Hpost).
        { intros t Ht. destruct (Hb t Ht). lia. }
        destruct pre as [|[[i' j'] c'] pre].
        { exfalso. cbn [app] in E. subst post. specialize (Hpost _ (or_introl eq_refl)). cbn in Hpost. lia. }
        pose proof E as E'. cbn [app] in E'. injection E' as <- <- <- E'.
        rewrite E in *. destruct (descending_app _ _ _ Hd) as [D1 D2].
        destruct (rly_value y (Z.of_nat m) (Z.to_nat (j + 1)) ((Z.of_nat m, j, c) :: pre) post (j1const 0))
          as [A B]; [| |exact D1|].
        -- intros t Ht. split; [exact (Hpre t Ht)|].
           assert (In t (((Z.of_nat m, j, c) :: pre) ++ post)) as Hin by (apply in_or_app; left; exact Ht).
           destruct (Hb t Hin) as [_ Hs]. split; [exact Hs|].
           destruct (Hb (Z.of_nat m, j, c) (or_introl eq_refl)) as [_ Hj]. cbn in Hj.
           destruct Ht as [<-|Ht]; [cbn; lia|].
           destruct D1 as [L _]. destruct (L t Ht) as [L'|[_ L']]; cbn in L'; [|lia].
           pose proof (Hpre t (or_intror Ht)). lia.
        -- intros t Ht Et. specialize (Hpost t Ht). lia.
        -- rewrite A. rewrite IH; [|intros t Ht|exact D2].
           ++ cbn [stepq b0]. rewrite B. unfold sum2. rewrite total_app. cbn [a0 j1const pow].
              replace (total (fun t => snd t * x ^ Z.to_nat (fst (fst t)) * y ^ Z.to_nat (snd (fst t)))
                         ((Z.of_nat m, j, c) :: pre))
                with (x ^ m * total (fun t => snd t * y ^ Z.to_nat (snd (fst t))) ((Z.of_nat m, j, c) :: pre)).
              ** ring.
              ** rewrite <- total_scal. apply total_ext. intros t Ht. rewrite (Hpre t Ht), Nat2Z.id. ring.
           ++ assert (In t (((Z.of_nat m, j, c) :: pre) ++ post)) as Hin by (apply in_or_app; right; exact Ht).
              destruct (Hb t Hin) as [H1 H2]. specialize (Hpost t Ht). split; [lia|exact H2].
      * rewrite IH; [cbn [step00 b0 pow]; ring| |exact Hd].
        intros t Ht. destruct (Hb t Ht) as [H1 H2]. split; [|exact H2].
        destruct (Hb _ (or_introl eq_refl)) as [H3 _]. cbn in H3.
        destruct Ht as [<-|Ht]; [cbn; lia|]. destruct Hd as [L _].
        destruct (L t Ht) as [L'|[L' _]]; cbn in L'; lia.
Qed.

Definition size2 (c : coef2) : nat := Z.to_nat (fst (fst (c2_first c)) + 1).
Definition rpoly2 (c : coef2) (x y : R) : J2 := rlx x y (size2 c) (c2_rows c) (j2const 0).
Lemma rpoly2_jet U c : jet2_on U (rpoly2 c).
Proof. apply (rlx_jet U (size2 c) (c2_rows c) (fun _ _ => j2const 0)). apply jet2_const. Qed.
Lemma rpoly2_value c x y : ordered2 c -> b0 (rpoly2 c x y) = sum2 x y (c2_rows c).
Proof.
  intros [Hp Hd]. unfold rpoly2. rewrite rlx_value; [cbn [b0 j2const]; ring| |exact Hd].
  intros t Ht. destruct (Hp t Ht) as [H1 H2]. split; [|exact H2]. split; [exact H1|].
  unfold size2. destruct (Hp _ (or_introl eq_refl)) as [H0 _].
  assert (fst (fst t) <= fst (fst (c2_first c)))%Z.
  { destruct Ht as [<-|Ht]; [lia|]. destruct Hd as [Hlt _]. destruct (Hlt t Ht) as [L|[L _]]; lia. }
  lia.
Qed.

(* one coefficient list; G is what pre_chain leaves, correct when prex <> 1 or prey = 1 *)
Notation chain_ok := prey_ok (only parsing).
Definition rcoef2 (c : coef2) (x y : R) : J2 :=
  j2mul (j2mul (j2args (rpoly2 c (Rpower x (c2_prex c)) (Rpower y (c2_prey c)))
                 (j1pow (c2_prex c) x) (j1pow (c2_prey c) y))
               (j2x (j1pow (c2_postx c) x))) (j2y (j1pow (c2_posty c) y)).

Lemma gate2_zero diff : gate2 diff (j2const 0) = zero2.
Proof.
  unfold gate2, j2const, zero2. cbn [b0 bx by_ bxx bxy byy].
  destruct (diff_cases diff) as [[-> ->]|[[-> ->]|[-> ->]]]; reflexivity.
Qed.
Lemma gate2_eq diff p px py pxx pxy pyy J : p = b0 J ->
  (if diff1 diff then px = bx J /\ py = by_ J else px = 0 /\ py = 0) ->
  (if diff2 diff then pxx = bxx J /\ pxy = bxy J /\ pyy = byy J else pxx = 0 /\ pxy = 0 /\ pyy = 0) ->
  (Some p, Some px, Some py, Some pxx, Some pxy, Some pyy) = gate2 diff J.
Proof.
  intros -> H1 H2. unfold gate2. destruct (diff1 diff), (diff2 diff);
    destruct H1 as [-> ->]; destruct H2 as (-> & -> & ->); reflexivity.
Qed.

Lemma pre_chain_pos diff x y c P : 0 < x -> 0 < y -> chain_ok c ->
  pre_chain diff (c2_prex c) (pre_power diff (Some x) (c2_prex c)) (pre_power diff (Some y) (c2_prey c))
    (gate2 diff P)
  = gate2 diff (j2args P (j1pow (c2_prex c) x) (j1pow (c2_prey c) y)).
Proof.
  intros Hx Hy Hc. unfold pre_chain.
  destruct (pre_power_pos diff x (c2_prex c) Hx) as (x1 & x2 & -> & H1 & H2).
  destruct (pre_power_pos diff y (c2_prey c) Hy) as (y1 & y2 & -> & G1 & G2).
  cbv beta iota zeta. unfold gate2 at 1 2. destruct (Req_EM_T (c2_prex c) 1) as [E|E].
  - destruct Hc as [N|E']; [contradiction|]. rewrite E, E', (j1pow_1 x Hx), (j1pow_1 y Hy).
    unfold j2args. cbn [a0 a1 a2].
    apply gate2_eq; [reflexivity| |]; cbn [b0 bx by_ bxx bxy byy].
    + destruct (diff1 diff); split; ring.
    + destruct (diff2 diff); repeat split; ring.
  - destruct (diff_cases diff) as [[E1 E2]|[[E1 E2]|[E1 E2]]]; rewrite E1, E2 in *; flc;
      apply gate2_eq; rewrite ?E1, ?E2; rewrite ?H1, ?H2, ?G1, ?G2 by reflexivity;
      unfold j2args; cbn [b0 bx by_ bxx bxy byy]; repeat split.
Qed.

Lemma post_x_pos diff x r P : 0 < x ->
  post_x diff (Some x) r (gate2 diff P) = gate2 diff (j2mul P (j2x (j1pow r x))).
Proof.
  intro Hx. assert (Hn : x <> 0) by lra. unfold post_x. unfold gate2 at 1.
  destruct (Req_EM_T r 0) as [->|E].
  - rewrite j1pow_0 by exact Hx. apply gate2_eq; unfold j2mul, j2x; cbn [a0 a1 a2 b0 bx by_ bxx bxy byy].
    + ring.
    + destruct (diff1 diff); split; ring.
    + destruct (diff2 diff); repeat split; ring.
  - rewrite fpow_pos by exact Hx.
    destruct (diff_cases diff) as [[E1 E2]|[[E1 E2]|[E1 E2]]]; rewrite E1, E2 in *; fls Hn;
      apply gate2_eq; rewrite ?E1, ?E2;
      unfold j2mul, j2x; cbn [b0 bx by_ bxx bxy byy];
      rewrite ?j1pow_a1, ?j1pow_a2 by exact Hx; cbn [a0 j1pow]; repeat split; field; exact Hn.
Qed.
Lemma post_y_pos diff y r P : 0 < y ->
  post_y diff (Some y) r (gate2 diff P) = gate2 diff (j2mul P (j2y (j1pow r y))).
Proof.
  intro Hx. assert (Hn : y <> 0) by lra. unfold post_y. unfold gate2 at 1.
  destruct (Req_EM_T r 0) as [->|E].
  - rewrite j1pow_0 by exact Hx. apply gate2_eq; unfold j2mul, j2y; cbn [a0 a1 a2 b0 bx by_ bxx bxy byy].
    + ring.
    + destruct (diff1 diff); split; ring.
    + destruct (diff2 diff); repeat split; ring.
  - rewrite fpow_pos by exact Hx.
    destruct (diff_cases diff) as [[E1 E2]|[[E1 E2]|[E1 E2]]]; rewrite E1, E2 in *; fls Hn;
      apply gate2_eq; rewrite ?E1, ?E2;
      unfold j2mul, j2y; cbn [b0 bx by_ bxx bxy byy];
      rewrite ?j1pow_a1, ?j1pow_a2 by exact Hx; cbn [a0 j1pow]; repeat split; field; exact Hn.
Qed.

Lemma poly2_coef_pos diff x y c : 0 < x -> 0 < y -> chain_ok c ->
  poly2_coef (Some x) (Some y) c diff = gate2 diff (rcoef2 c x y).
Proof.
  intros Hx Hy Hc. unfold poly2_coef.
  assert (X0 : fst (fst (pre_power diff (Some x) (c2_prex c))) = Some (Rpower x (c2_prex c))).
  { destruct (pre_power_pos diff x (c2_prex c) Hx) as (x1 & x2 & -> & _). reflexivity. }
  assert (Y0 : fst (fst (pre_power diff (Some y) (c2_prey c))) = Some (Rpower y (c2_prey c))).
  { destruct (pre_power_pos diff y (c2_prey c) Hy) as (y1 & y2 & -> & _). reflexivity. }
  cbv zeta. rewrite X0, Y0. rewrite <- (gate2_zero diff), loopx_gate.
  rewrite pre_chain_pos by assumption. rewrite post_x_pos by exact Hx. rewrite post_y_pos by exact Hy.
  reflexivity.
Qed.

Lemma rcoef2_jet c : jet2_on opos (rcoef2 c).
Proof.
  apply (jet2_mul opos (fun x y => j2mul (j2args (rpoly2 c (Rpower x (c2_prex c)) (Rpower y (c2_prey c)))
                 (j1pow (c2_prex c) x) (j1pow (c2_prey c) y)) (j2x (j1pow (c2_postx c) x)))
    (fun _ y => j2y (j1pow (c2_posty c) y))).
  - apply (jet2_mul opos (fun x y => j2args (rpoly2 c (Rpower x (c2_prex c)) (Rpower y (c2_prey c)))
                 (j1pow (c2_prex c) x) (j1pow (c2_prey c) y)) (fun x _ => j2x (j1pow (c2_postx c) x))).
    + apply (jet2_args opos (fun _ _ => True) (fun x => 0 < x) (fun y => 0 < y)
               (j1pow (c2_prex c)) (j1pow (c2_prey c)) (rpoly2 c)).
      * intros x y [Hx Hy]. auto.
      * apply jet1_pow.
      * apply jet1_pow.
      * apply rpoly2_jet.
    + apply (jet2_x opos (fun x => 0 < x)); [intros x y [Hx _]; exact Hx|apply jet1_pow].
  - apply (jet2_y opos (fun x => 0 < x)); [intros x y [_ Hy]; exact Hy|apply jet1_pow].
Qed.
Lemma rcoef2_value c x y : 0 < x -> 0 < y -> ordered2 c -> b0 (rcoef2 c x y) =
  power x (c2_postx c) * power y (c2_posty c) *
    total (fun t => snd t * power x (c2_prex c) ^ Z.to_nat (fst (fst t))
                          * power y (c2_prey c) ^ Z.to_nat (snd (fst t))) (c2_rows c).
Proof.
  intros Hx Hy Ho. unfold rcoef2, j2mul, j2args, j2x, j2y. cbn [b0]. rewrite rpoly2_value by exact Ho.
  rewrite !power_pos by assumption. cbn [j1pow a0]. unfold sum2. ring.
Qed.

(* ---- groups ---- *)
Definition j2sum {A} (f : A -> J2) (l : list A) : J2 := fold_right (fun c s => j2add (f c) s) (j2const 0) l.
Lemma gate2_add diff A B : add_jet diff (gate2 diff A) (gate2 diff B) = gate2 diff (j2add A B).
Proof.
  unfold add_jet, gate2, j2add. cbn [b0 bx by_ bxx bxy byy].
  destruct (diff_cases diff) as [[-> ->]|[[-> ->]|[-> ->]]]; reflexivity.
Qed.
Lemma j2add_assoc A B C : j2add A (j2add B C) = j2add (j2add A B) C.
Proof. unfold j2add. cbn [b0 bx by_ bxx bxy byy]. f_equal; ring. Qed.
Lemma j2add_0l A : j2add (j2const 0) A = A.
Proof. destruct A as [u1 u2 u3 u4 u5 u6]. unfold j2add, j2const. cbn [b0 bx by_ bxx bxy byy]. f_equal; ring. Qed.
Lemma j2add_0r A : j2add A (j2const 0) = A.
Proof. destruct A as [u1 u2 u3 u4 u5 u6]. unfold j2add, j2const. cbn [b0 bx by_ bxx bxy byy]. f_equal; ring. Qed.

Lemma poly2_sum diff x y g (f : coef2 -> J2) :
  (forall c, In c g -> poly2_coef (Some x) (Some y) c diff = gate2 diff (f c)) ->
  poly2 (Some x) (Some y) g diff = gate2 diff (j2sum f g).
Proof.
  intro H.
  assert (F : forall l A, (forall c, In c l -> poly2_coef (Some x) (Some y) c diff = gate2 diff (f c)) ->
    fold_left (fun st c =>
        let '(s, sx, sy, sxx, sxy, syy) := st in
        let '(p, px, py, pxx, pxy, pyy) := poly2_coef (Some x) (Some y) c diff in
        ((s + p)%fl,
         (if diff1 diff then sx + px else sx)%fl,
         (if diff1 diff then sy + py else sy)%fl,
         (if diff2 diff then sxx + pxx else sxx)%fl,
         (if diff2 diff then sxy + pxy else sxy)%fl,
         (if diff2 diff then syy + pyy else syy)%fl)) l (gate2 diff A)
    = gate2 diff (j2add A (j2sum f l))).
  { intro l. induction l as [|c l IH]; intros A Hl; cbn [fold_left j2sum fold_right].
    - rewrite j2add_0r. reflexivity.
    - rewrite (Hl c (or_introl eq_refl)).
      change (fold_left (fun st c =>
        let '(s, sx, sy, sxx, sxy, syy) := st in
        let '(p, px, py, pxx, pxy, pyy) := poly2_coef (Some x) (Some y) c diff in
        ((s + p)%fl,
         (if diff1 diff then sx + px else sx)%fl,
         (if diff1 diff then sy + py else sy)%fl,
         (if diff2 diff then sxx + pxx else sxx)%fl,
         (if diff2 diff then sxy + pxy else sxy)%fl,
         (if diff2 diff then syy + pyy else syy)%fl)) l
          (add_jet diff (gate2 diff A) (gate2 diff (f c)))
        = gate2 diff (j2add A (j2add (f c) (j2sum f l)))).
      rewrite gate2_add, IH.
      + rewrite <- j2add_assoc. reflexivity.
      + intros c' Hc'. apply Hl. right. exact Hc'. }
  unfold poly2. destruct g as [|c [|c' g]].
  - cbn [fold_left j2sum fold_right]. symmetry. apply gate2_zero.
  - cbn [j2sum fold_right]. rewrite (H c (or_introl eq_refl)), j2add_0r. reflexivity.
  - rewrite <- (gate2_zero diff). rewrite F by exact H. rewrite j2add_0l. reflexivity.
Qed.
Lemma j2sum_jet {A} U (f : R -> R -> A -> J2) l :
  (forall c, In c l -> jet2_on U (fun x y => f x y c)) -> jet2_on U (fun x y => j2sum (f x y) l).
Proof.
  induction l as [|c l IH]; intro H; cbn [j2sum fold_right]; [apply jet2_const|].
  apply (jet2_add U (fun x y => f x y c) (fun x y => j2sum (f x y) l)).
  - apply H. left. reflexivity.
  - apply IH. intros c' Hc'. apply H. right. exact Hc'.
Qed.
Lemma j2sum_value {A} (f : A -> J2) l : b0 (j2sum f l) = total (fun c => b0 (f c)) l.
Proof.
  induction l as [|c l IH]; [reflexivity|].
  change (b0 (f c) + b0 (j2sum f l) = b0 (f c) + total (fun c => b0 (f c)) l). rewrite IH. reflexivity.
Qed.

Definition rgroup2 (g : group2) (x y : R) : J2 := j2sum (fun c => rcoef2 c x y) g.
Lemma rgroup2_jet g : jet2_on opos (rgroup2 g).
Proof. apply (j2sum_jet opos (fun x y c => rcoef2 c x y)). intros c _. apply rcoef2_jet. Qed.
Lemma rgroup2_value g x y : 0 < x -> 0 < y -> Forall ordered2 g -> b0 (rgroup2 g x y) = value2 g x y.
Proof.
  intros Hx Hy Ho. unfold rgroup2. rewrite j2sum_value. apply total_ext. intros c Hc.
  apply rcoef2_value; [exact Hx|exact Hy|]. exact (proj1 (Forall_forall _ _) Ho c Hc).
Qed.
Lemma poly2_pos diff g x y : 0 < x -> 0 < y -> Forall chain_ok g ->
  poly2 (Some x) (Some y) g diff = gate2 diff (rgroup2 g x y).
Proof.
  intros Hx Hy Hc. apply poly2_sum. intros c H. apply poly2_coef_pos; [exact Hx|exact Hy|].
  exact (proj1 (Forall_forall _ _) Hc c H).
Qed.

Lemma poly2_pos0 g x y : 0 < x -> 0 < y ->
  poly2 (Some x) (Some y) g 0 = gate2 0 (rgroup2 g x y).
Proof.
  intros Hx Hy. apply poly2_sum. intros c _. unfold poly2_coef.
  assert (X0 : fst (fst (pre_power 0 (Some x) (c2_prex c))) = Some (Rpower x (c2_prex c))).
  { destruct (pre_power_pos 0 x (c2_prex c) Hx) as (x1 & x2 & -> & _). reflexivity. }
  assert (Y0 : fst (fst (pre_power 0 (Some y) (c2_prey c))) = Some (Rpower y (c2_prey c))).
  { destruct (pre_power_pos 0 y (c2_prey c) Hy) as (y1 & y2 & -> & _). reflexivity. }
  cbv zeta. rewrite X0, Y0. rewrite <- (gate2_zero 0), loopx_gate.
  assert (E : forall P, pre_chain 0 (c2_prex c) (pre_power 0 (Some x) (c2_prex c))
      (pre_power 0 (Some y) (c2_prey c)) (gate2 0 P)
    = gate2 0 (j2args P (j1pow (c2_prex c) x) (j1pow (c2_prey c) y))).
  { intro P. unfold pre_chain.
    destruct (pre_power 0 (Some x) (c2_prex c)) as [[u1 u2] u3].
    destruct (pre_power 0 (Some y) (c2_prey c)) as [[v1 v2] v3].
    unfold gate2. destruct (Req_EM_T (c2_prex c) 1); reflexivity. }
  rewrite E. rewrite post_x_pos by exact Hx. rewrite post_y_pos by exact Hy. reflexivity.
Qed.

(* jets of a function give its partial derivatives *)
Lemma jet2_partials U F (v : R -> R -> R) x y : axis_open U -> U x y ->
  jet2_on U F -> (forall u w, U u w -> b0 (F u w) = v u w) ->
  partials1 v x y (bx (F x y)) (by_ (F x y)) /\
  partials2 v x y (bxx (F x y)) (bxy (F x y)) (byy (F x y)).
Proof.
  intros HO Hu HF Hv.
  assert (PX : forall u w, U u w -> deriv (fun z => v z w) u (bx (F u w))).
  { intros u w Huw. destruct (HO u w Huw) as (e & He & Ox & _).
    apply (D_ext_loc (fun z => b0 (F z w)) _ u _ e He); [|apply (HF u w Huw)].
    intros z Hz. apply Hv. apply Ox. exact Hz. }
  assert (PY : forall u w, U u w -> deriv (fun z => v u z) w (by_ (F u w))).
  { intros u w Huw. destruct (HO u w Huw) as (e & He & _ & Oy).
    apply (D_ext_loc (fun z => b0 (F u z)) _ w _ e He); [|apply (HF u w Huw)].
    intros z Hz. apply Hv. apply Oy. exact Hz. }
  destruct (HO x y Hu) as (e & He & Ox & Oy).
  split; [split; [apply PX|apply PY]; exact Hu|].
  destruct (HF x y Hu) as (A1 & A2 & A3 & A4 & A5 & A6).
  split; [|split].
  - exists (fun u => bx (F u y)), e. split; [exact He|]. split; [|exact A3].
    intros u Huu. apply (PX u y). apply Ox. exact Huu.
  - exists (fun w => bx (F x w)), e. split; [exact He|]. split; [|exact A4].
    intros w Hw. apply (PX x w). apply Oy. exact Hw.
  - exists (fun w => by_ (F x w)), e. split; [exact He|]. split; [|exact A6].
    intros w Hw. apply (PY x w). apply Oy. exact Hw.
Qed.

Theorem poly2_exact : forall g diff x y,
  Forall ordered2 g -> 0 < x -> 0 < y -> (diff = 0%nat \/ Forall prey_ok g) ->
  exists p px py pxx pxy pyy,
    poly2 (Some x) (Some y) g diff = (Some p, Some px, Some py, Some pxx, Some pxy, Some pyy) /\
    p = value2 g x y /\
    (if (0 <? diff)%nat then partials1 (value2 g) x y px py else px = 0 /\ py = 0) /\
    (if (1 <? diff)%nat then partials2 (value2 g) x y pxx pxy pyy else pxx = 0 /\ pxy = 0 /\ pyy = 0).
Proof.
  intros g diff x y Ho Hx Hy Hc.
  assert (E : poly2 (Some x) (Some y) g diff = gate2 diff (rgroup2 g x y)).
  { destruct Hc as [->|Hc]; [apply poly2_pos0|apply poly2_pos]; assumption. }
  destruct (jet2_partials opos (rgroup2 g) (value2 g) x y axis_open_pos (conj Hx Hy) (rgroup2_jet g)) as [P1 P2].
  { intros u w [Hu Hw]. apply rgroup2_value; assumption. }
  rewrite E. unfold gate2. fold (diff1 diff). fold (diff2 diff).
  pose proof (rgroup2_value g x y Hx Hy Ho) as V.
  do 6 eexists. split; [reflexivity|]. split; [exact V|].
  destruct (diff1 diff), (diff2 diff); repeat split; try exact P1; try exact P2;
    first [apply P1 | apply P2].
Qed.

(* ---- refuted: the chain rule of the second pre-exponent when the first is 1 ---- *)
Definition y2 : coef2 :=
  {| c2_prex := 1; c2_prey := 2; c2_postx := 0; c2_posty := 0; c2_first := (0%Z, 1%Z, 1); c2_rest := [] |}.
Lemma prey_wrong x y : 0 < x -> 0 < y ->
  ordered2 y2 /\ (forall v, 0 < v -> value2 [y2] x v = v * v) /\
  exists p px pxx pxy pyy, poly2 (Some x) (Some y) [y2] 1 = (p, px, Some 1, pxx, pxy, pyy) /\
  deriv (fun v => value2 [y2] x v) y (2 * y).
Proof.
  intros Hx Hy.
  assert (V : forall v, 0 < v -> value2 [y2] x v = v * v).
  { intros v Hv. unfold value2, total, y2, c2_rows.
    cbn [fold_right c2_prex c2_prey c2_postx c2_posty c2_first c2_rest fst snd].
    rewrite !power_pos by assumption. rewrite !Rpower_O by assumption.
    change (Z.to_nat 0) with 0%nat. change (Z.to_nat 1) with 1%nat. cbn [pow].
    replace 2 with (INR 2) by (cbn; ring). rewrite Rpower_pow by exact Hv. cbn. ring. }
  split.
  { split; [intros t [<-|[]]; cbn; lia|]. cbn. split; [intros b []|exact I]. }
  split; [exact V|].
  destruct (pre_power_pos 1 y 2 Hy) as (y1' & y2' & Ey & _).
  exists (Some (Rpower y 2)), (Some 0), (Some 0), (Some 0), (Some 0). split.
  - unfold poly2, poly2_coef, y2.
    cbn [c2_prex c2_prey c2_postx c2_posty c2_first c2_rest c2_rows fst snd]. rewrite Ey.
    unfold pre_power. destruct (Req_EM_T 1 1) as [_|N]; [|contradiction].
    cbn [fst snd]. change (Z.to_nat (0 + 1)) with 1%nat.
    rewrite <- (gate2_zero 1), loopx_gate. unfold c2_rows. cbn [c2_first c2_rest].
    unfold pre_chain. destruct (Req_EM_T 1 1) as [_|N]; [|contradiction].
    unfold gate2. unfold post_x, post_y. destruct (Req_EM_T 0 0) as [_|N]; [|contradiction].
    cbn [diff1 diff2 Nat.ltb Nat.leb].
    cbn [rlx Z.eqb Z.of_nat]. change (Z.to_nat (1 + 1)) with 2%nat.
    cbn. 
    repeat match goal with |- context [Some ?e] => idtac end.
    match goal with |- (Some ?a, Some ?b, Some ?c, Some ?d, Some ?e, Some ?f) = _ =>
      replace a with (Rpower y 2) by ring; replace b with 0 by ring; replace c with 1 by ring end.
    reflexivity.
  - apply (D_ext_pos (fun v => v * v) _ y _ Hy); [intros u Hu; symmetry; apply V; exact Hu|].
    apply (D_eq _ _ (1 * y + y * 1)); [apply (D_mult (fun v => v) (fun v => v)); apply D_id|ring].
Qed.

(* ---- refuted: the example of the docstring of _poly1 ---- *)
Definition docstring_coef : coef1 :=
  {| c1_pre := / 2; c1_post := - 3 / 2; c1_first := (0%Z, 2); c1_rest := [(4%Z, -1)] |}.
Lemma docstring_wrong x : 0 < x ->
  exists px pxx, poly1 (Some x) [docstring_coef] 0 = (Some (2 * Rpower x (- 3 / 2)), px, pxx).
Proof.
  intro Hx. unfold poly1. rewrite poly1_coef_pos by exact Hx.
  unfold gate1. cbn [diff1 diff2 Nat.ltb Nat.leb]. eexists; eexists.
  unfold rcoef1, j1mul, j1comp. cbn [a0]. unfold docstring_coef at 1 2 3.
  unfold rpoly, size1, c1_rows. cbn [c1_first c1_rest fst c1_post c1_pre].
  change (Z.to_nat (0 + 1)) with 1%nat. cbn [rl1 Z.eqb Z.of_nat step1 a0 j1pow j1const].
  match goal with |- (Some ?a, _, _) = (Some ?b, _, _) => replace a with b by (cbn; ring) end.
  reflexivity.
Qed.

(* Proofs about the bracketing solver of mp1.py (C44). *)
From Coq Require Import Reals List Bool Arith Lra Lia.
From Verif Require Import Base Model_Hybrid Spec_Hybrid.
Import ListNotations.
Local Open Scope R_scope.
Local Open Scope list_scope.

Definition inside (x : xf) (lo hi : R) : Prop := exists v, x = Fin v /\ lo <= v <= hi.
Lemma xlt_fin x y : xlt (Fin x) (Fin y) = true <-> x < y.
Proof. unfold xlt. destruct (Rlt_dec x y); split; intro; try assumption; try reflexivity; try discriminate; contradiction. Qed.
Lemma xlt_fin_f x y : xlt (Fin x) (Fin y) = false <-> y <= x.
Proof. unfold xlt. destruct (Rlt_dec x y); split; intro; try reflexivity; try discriminate; lra. Qed.
Lemma xle_fin x y : xle (Fin x) (Fin y) = true <-> x <= y.
Proof. unfold xle. destruct (Rle_dec x y); split; intro; try assumption; try reflexivity; try discriminate; contradiction. Qed.
Lemma xle_fin_f x y : xle (Fin x) (Fin y) = false <-> y < x.
Proof. unfold xle. destruct (Rle_dec x y); split; intro; try reflexivity; try discriminate; lra. Qed.

(* a candidate that passes the test of the limits *)
Lemma in_limits x lo hi : x <> NaN -> xlt x (Fin lo) || xlt (Fin hi) x = false -> inside x lo hi.
Proof.
  intros N H. apply orb_false_iff in H. destruct H as [H1 H2]. destruct x as [v| | |]; try discriminate; [|contradiction].
  apply xlt_fin_f in H1. apply xlt_fin_f in H2. exists v. split; [reflexivity|lra].
Qed.

Lemma guess_inside paranoid s lo hi : h_min s = Fin lo -> h_max s = Fin hi -> lo <= hi ->
  h_c s = Fin (1 / 2 * (lo + hi)) -> h_a s <> NaN -> h_b s <> NaN ->
  inside (next_guess paranoid s) lo hi.
Proof.
  intros Emin Emax Hle Ec Na Nb. unfold next_guess. rewrite Emin, Emax.
  assert (C : inside (h_c s) lo hi) by (exists (1 / 2 * (lo + hi)); split; [exact Ec|lra]).
  destruct paranoid.
  - destruct (xlt (h_b s) (Fin lo) || xlt (Fin hi) (h_b s)) eqn:B; [exact C|].
    destruct (xlt (h_a s) (Fin lo) || xlt (Fin hi) (h_a s)) eqn:A; [exact C|].
    pose proof (in_limits _ _ _ Na A) as IA. pose proof (in_limits _ _ _ Nb B) as IB.
    destruct (xlt (h_a s) (h_b s)), (xlt (h_b s) (h_c s)), (xlt (h_c s) (h_a s)); cbn; assumption.
  - destruct (xlt (Fin hi) (h_a s)) eqn:A; [rewrite orb_true_r; exact C|]. rewrite orb_false_r.
    set (x := if Bool.eqb (xlt (h_b s) (h_c s)) (xlt (h_c s) (h_a s)) then h_c s else _).
    destruct (xlt x (Fin lo)) eqn:L; [exact C|].
    assert (K : x <> NaN /\ xlt (Fin hi) x = false).
    { unfold x in *. rewrite Ec in *.
      destruct (h_a s) as [va| | |] eqn:Ea; destruct (h_b s) as [vb| | |] eqn:Eb; try contradiction; cbn [xlt] in *;
      repeat (match goal with |- context [Rlt_dec ?u ?w] => destruct (Rlt_dec u w)
              | H : context [Rlt_dec ?u ?w] |- _ => destruct (Rlt_dec u w) end; cbn [Bool.eqb] in *); cbn [Bool.eqb] in *;
      (split; [discriminate|]); cbn [xlt] in *;
      repeat (match goal with |- context [Rlt_dec ?u ?w] => destruct (Rlt_dec u w) end); try reflexivity; try discriminate; try lra. }
    destruct K as [K1 K2]. apply in_limits; [exact K1|]. rewrite L, K2. reflexivity.
Qed.

Lemma newton_ok x y m : m <> NaN -> ~ (y = 0 /\ m = Fin 0) -> xadd (Fin x) (xdiv (Fin y) m) <> NaN.
Proof.
  intros N Z. destruct m as [v| | |]; try contradiction; cbn; try discriminate.
  destruct (Req_EM_T v 0) as [->|Hv]; [|cbn; discriminate].
  destruct (Req_EM_T y 0) as [Hy|Hy]; [exfalso; apply Z; split; [exact Hy|reflexivity]|].
  destruct (Rlt_dec 0 y); cbn; discriminate.
Qed.

Section Solve.
Variables (e : elem) (f : R -> R) (a b y : R).
Hypothesis P : problem e f a b y.
Variables (paranoid : bool) (ep : R) (iswap : bool).
Hypothesis Hep : 0 <= ep.

(* f at the two limits: below the target at one, above at the other *)
Definition sides (lo hi : R) : Prop := if iswap then f hi <= y <= f lo else f lo <= y <= f hi.
Definition hinv (s : hstate) : Prop :=
  exists lo hi, h_min s = Fin lo /\ h_max s = Fin hi /\ a <= lo /\ lo <= hi /\ hi <= b /\ sides lo hi /\
    h_c s = Fin (1 / 2 * (lo + hi)) /\
    (h_sel s = true -> h_a s <> NaN /\ h_b s <> NaN).
(* what a pass leaves behind *)
Definition hpost (s s' : hstate) : Prop :=
  exists lo hi lo' hi' v, h_min s = Fin lo /\ h_max s = Fin hi /\ h_min s' = Fin lo' /\ h_max s' = Fin hi' /\
    lo <= lo' /\ hi' <= hi /\ h_x s' = Fin v /\ (v = lo' \/ v = hi') /\
    (h_sel s' = false -> Rabs (f v - y) <= ep * Rabs y \/ hi' - lo' <= ep * Rabs v).

Lemma test_false u w : xlt (Fin ep) (xabs (xdiv (Fin u) (Fin w))) = false -> Rabs u <= ep * Rabs w.
Proof.
  cbn. destruct (Req_EM_T w 0) as [->|Hw].
  - destruct (Req_EM_T u 0) as [->|Hu].
    + intros _. rewrite Rabs_R0. lra.
    + destruct (Rlt_dec 0 u); cbn; discriminate.
  - intro H. apply xlt_fin_f in H. unfold Rdiv in H. rewrite Rabs_mult, Rabs_inv in H.
    assert (Hp : 0 < Rabs w) by (apply Rabs_pos_lt; exact Hw).
    apply (Rmult_le_compat_r (Rabs w)) in H; [|lra].
    rewrite Rmult_assoc, Rinv_l, Rmult_1_r in H by lra. exact H.
Qed.
Lemma test_zero w : xlt (Fin ep) (xabs (xdiv (Fin 0) (Fin w))) = false.
Proof.
  cbn. destruct (Req_EM_T w 0) as [->|Hw].
  - destruct (Req_EM_T 0 0) as [_|N]; [reflexivity|contradiction].
  - apply xlt_fin_f. unfold Rdiv. rewrite Rmult_0_l, Rabs_R0. exact Hep.
Qed.

Lemma hstep_inv s : hinv s -> h_sel s = true ->
  hinv (hstep paranoid ep (e_fn e) (e_y e) iswap s) /\ hpost s (hstep paranoid ep (e_fn e) (e_y e) iswap s) /\
  exists v, next_guess paranoid s = Fin v /\ a <= v <= b.
Proof.
  intros (lo & hi & E1 & E2 & Ha & Hle & Hb & Hs & Ec & Hn) Hsel. destruct (Hn Hsel) as [Na Nb].
  destruct (guess_inside paranoid s lo hi E1 E2 Hle Ec Na Nb) as (v & Ev & Hv).
  destruct P as [Pmin Pmax Py Pab Pfn _ _].
  destruct (Pfn v ltac:(lra)) as (m & Em & Nm).
  unfold hstep. rewrite Ev, Em, Py, E1, E2. cbn [xsub xneg xadd].
  set (proj := xadd (Fin v) (xdiv (Fin (y + - f v)) m)).
  set (low := xorb (xle (Fin (f v)) (Fin y)) iswap).
  assert (Hlow : if low then sides v hi else sides lo v).
  { unfold low, sides in *. destruct (xle (Fin (f v)) (Fin y)) eqn:L.
    - apply xle_fin in L. destruct iswap; cbn [xorb]; lra.
    - apply xle_fin_f in L. destruct iswap; cbn [xorb]; lra. }
  set (lo' := if low then v else lo). set (hi' := if low then hi else v).
  assert (Elo : (if low then Fin v else Fin lo) = Fin lo') by (unfold lo'; destruct low; reflexivity).
  assert (Ehi : (if low then Fin hi else Fin v) = Fin hi') by (unfold hi'; destruct low; reflexivity).
  rewrite Elo, Ehi. cbn [xsub xneg xadd xhalf].
  assert (S' : sides lo' hi') by (unfold lo', hi'; destruct low; exact Hlow).
  assert (B' : lo <= lo' /\ lo' <= hi' /\ hi' <= hi) by (unfold lo', hi'; destruct low; lra).
  assert (V' : v = lo' \/ v = hi') by (unfold lo', hi'; destruct low; [left|right]; reflexivity).
  split; [|split].
  - exists lo', hi'. cbn [h_min h_max h_c h_sel h_a h_b].
    split; [reflexivity|]. split; [reflexivity|]. split; [lra|]. split; [lra|]. split; [lra|].
    split; [exact S'|]. split; [f_equal; ring|].
    intro Sel. apply andb_true_iff in Sel. destruct Sel as [_ Sel].
    assert (NP : proj <> NaN).
    { apply newton_ok; [exact Nm|]. intros [Z _].
      assert (Z2 : f v + - y = 0) by lra. rewrite Z2 in Sel.
      rewrite (test_zero y) in Sel. discriminate. }
    split; destruct low; assumption.
  - exists lo, hi, lo', hi', v. cbn [h_min h_max h_x h_sel].
    split; [exact E1|]. split; [exact E2|]. split; [reflexivity|]. split; [reflexivity|].
    split; [lra|]. split; [lra|]. split; [reflexivity|]. split; [exact V'|].
    intro Sel. apply andb_false_iff in Sel. destruct Sel as [Sel|Sel].
    + right. apply test_false in Sel. rewrite Rabs_pos_eq in Sel by lra. lra.
    + left. apply test_false in Sel. exact Sel.
  - exists v. split; [reflexivity|lra].
Qed.

(* the bracket of a state *)
Definition within (s : hstate) (lo hi : R) : Prop := h_min s = Fin lo /\ h_max s = Fin hi.
Lemma hloop_inv n : forall s, hinv s -> hinv (hloop n paranoid ep (e_fn e) (e_y e) iswap s).
Proof.
  induction n as [|n IH]; intros s Hs; [exact Hs|]. cbn [hloop].
  destruct (h_sel s) eqn:Sel; [|exact Hs]. apply IH. apply hstep_inv; assumption.
Qed.
Definition nested (s s' : hstate) : Prop :=
  exists lo hi lo' hi', within s lo hi /\ within s' lo' hi' /\ lo <= lo' /\ hi' <= hi.
Lemma nested_refl s : hinv s -> nested s s.
Proof. intros (lo & hi & E1 & E2 & _). exists lo, hi, lo, hi. repeat split; try assumption; lra. Qed.
Lemma nested_trans s1 s2 s3 : nested s1 s2 -> nested s2 s3 -> nested s1 s3.
Proof.
  intros (l1 & u1 & l2 & u2 & A1 & A2 & A3 & A4) (l2' & u2' & l3 & u3 & B1 & B2 & B3 & B4).
  destruct A2 as [A2 A2']. destruct B1 as [B1 B1']. rewrite A2 in B1. rewrite A2' in B1'.
  injection B1 as <-. injection B1' as <-. exists l1, u1, l3, u3. split; [exact A1|]. split; [exact B2|]. lra.
Qed.
Lemma hpost_nested s s' : hpost s s' -> nested s s'.
Proof.
  intros (lo & hi & lo' & hi' & v & A & B & C & E & F & G & _). exists lo, hi, lo', hi'.
  repeat split; assumption.
Qed.
Lemma hloop_nested n : forall s, hinv s -> nested s (hloop n paranoid ep (e_fn e) (e_y e) iswap s).
Proof.
  induction n as [|n IH]; intros s Hs; [apply nested_refl; exact Hs|]. cbn [hloop].
  destruct (h_sel s) eqn:Sel; [|apply nested_refl; exact Hs].
  destruct (hstep_inv s Hs Sel) as (I & Po & _).
  apply (nested_trans _ _ _ (hpost_nested _ _ Po)). apply IH. exact I.
Qed.
Lemma hloop_S n : forall s, hloop (S n) paranoid ep (e_fn e) (e_y e) iswap s =
  let s' := hloop n paranoid ep (e_fn e) (e_y e) iswap s in
  if h_sel s' then hstep paranoid ep (e_fn e) (e_y e) iswap s' else s'.
Proof.
  induction n as [|n IH]; intro s; [reflexivity|].
  change (hloop (S (S n)) paranoid ep (e_fn e) (e_y e) iswap s) with
    (if h_sel s then hloop (S n) paranoid ep (e_fn e) (e_y e) iswap (hstep paranoid ep (e_fn e) (e_y e) iswap s) else s).
  cbn [hloop]. destruct (h_sel s) eqn:Sel; [|rewrite Sel; reflexivity]. apply IH.
Qed.
(* the last pass *)
Lemma hloop_last n s : hinv s -> h_sel s = true ->
  exists s0, hinv s0 /\ h_sel s0 = true /\
    hloop (S n) paranoid ep (e_fn e) (e_y e) iswap s = hstep paranoid ep (e_fn e) (e_y e) iswap s0.
Proof.
  intros Hs Sel. induction n as [|n (s0 & I & S0 & E)].
  - exists s. split; [exact Hs|]. split; [exact Sel|]. cbn. rewrite Sel. reflexivity.
  - rewrite hloop_S. cbv zeta. destruct (h_sel (hloop (S n) paranoid ep (e_fn e) (e_y e) iswap s)) eqn:S1.
    + exists (hloop (S n) paranoid ep (e_fn e) (e_y e) iswap s). split; [apply hloop_inv; exact Hs|]. split; [exact S1|reflexivity].
    + exists s0. split; [exact I|]. split; [exact S0|exact E].
Qed.
End Solve.

Section Start.
Variables (e : elem) (f : R -> R) (a b y : R).
Hypothesis P : problem e f a b y.

Lemma start_eq : exists xa xb, xa <> NaN /\ xb <> NaN /\
  hstart e = (xle (Fin y) (Fin (f a)), negb (xorb (xle (Fin y) (Fin (f a))) (xle (Fin y) (Fin (f b)))),
   {| h_a := xa; h_b := xb; h_c := Fin (1 / 2 * (a + b)); h_min := Fin a; h_max := Fin b; h_x := e_x e; h_sel := true |}).
Proof.
  destruct P as [Pmin Pmax Py Pab Pfn Pa Pb].
  destruct (Pfn a ltac:(lra)) as (ma & Ea & Na). destruct (Pfn b ltac:(lra)) as (mb & Eb & Nb).
  unfold hstart. rewrite Pmin, Pmax, Ea, Eb, Py. cbn [xsub xneg xadd xhalf].
  do 2 eexists. split; [|split; [|reflexivity]].
  - apply newton_ok; [exact Na|]. intros [Z ->]. apply Pa. split; [lra|]. rewrite Ea. reflexivity.
  - apply newton_ok; [exact Nb|]. intros [Z ->]. apply Pb. split; [lra|]. rewrite Eb. reflexivity.
Qed.
Lemma bracket_iff : not_bracketed e = false <-> bracketed f a b y.
Proof.
  unfold not_bracketed. destruct start_eq as (xa & xb & _ & _ & E). rewrite E. cbn [fst snd].
  unfold bracketed.
  destruct (xle (Fin y) (Fin (f a))) eqn:A; destruct (xle (Fin y) (Fin (f b))) eqn:B; cbn [xorb negb];
    (apply xle_fin in A || apply xle_fin_f in A); (apply xle_fin in B || apply xle_fin_f in B);
    split; intro H; try discriminate; try reflexivity; try lra.
Qed.
Lemma start_inv : bracketed f a b y ->
  hinv f a b y (fst (fst (hstart e))) (snd (hstart e)) /\ h_sel (snd (hstart e)) = true.
Proof.
  intro B. destruct start_eq as (xa & xb & Na & Nb & E). rewrite E. cbn [fst snd].
  split; [|reflexivity]. pose proof (pr_le _ _ _ _ _ P).
  exists a, b. cbn. split; [reflexivity|]. split; [reflexivity|]. split; [lra|]. split; [lra|]. split; [lra|].
  split; [|split; [reflexivity|split; assumption]].
  unfold sides, bracketed in *. fold (xle (Fin y) (Fin (f a))).
  destruct (xle (Fin y) (Fin (f a))) eqn:A; [apply xle_fin in A|apply xle_fin_f in A]; lra.
Qed.
End Start.

Section Result.
Variables (e : elem) (f : R -> R) (a b y : R) (paranoid : bool) (ep : R) (N : nat).
Hypothesis P : problem e f a b y.
Hypothesis Hep : 0 <= ep.
Hypothesis B : bracketed f a b y.
Let s := solve_elem paranoid ep N e.

Theorem final_bracket : exists lo hi v, h_min s = Fin lo /\ h_max s = Fin hi /\ h_x s = Fin v /\
  a <= lo /\ lo <= hi /\ hi <= b /\ (v = lo \/ v = hi) /\
  (f lo <= y <= f hi \/ f hi <= y <= f lo) /\
  (h_sel s = false -> Rabs (f v - y) <= ep * Rabs y \/ hi - lo <= ep * Rabs v).
Proof.
  destruct (start_inv e f a b y P B) as [I Sel]. unfold s, solve_elem.
  destruct (hloop_last e f a b y P paranoid ep _ Hep N _ I Sel) as (s0 & I0 & S0 & E). rewrite E.
  destruct (hstep_inv e f a b y P paranoid ep _ Hep s0 I0 S0)
    as ((lo' & hi' & I1 & I2 & I3 & I4 & I5 & I6 & _) & (lo & hi & lo2 & hi2 & v & A1 & A2 & A3 & A4 & A5 & A6 & A7 & A8 & A9) & _).
  rewrite I1 in A3. injection A3 as <-. rewrite I2 in A4. injection A4 as <-.
  exists lo', hi', v. split; [exact I1|]. split; [exact I2|]. split; [exact A7|]. split; [lra|]. split; [lra|]. split; [lra|].
  split; [exact A8|]. split; [|exact A9].
  unfold sides in I6. match type of I6 with context [if ?c then _ else _] => destruct c end; [right|left]; exact I6.
Qed.
Theorem shrinking : exists lo hi lo' hi',
  h_min s = Fin lo /\ h_max s = Fin hi /\
  h_min (solve_elem paranoid ep (S N) e) = Fin lo' /\ h_max (solve_elem paranoid ep (S N) e) = Fin hi' /\
  lo <= lo' /\ hi' <= hi.
Proof.
  destruct (start_inv e f a b y P B) as [I Sel]. unfold s, solve_elem. rewrite (hloop_S e paranoid ep _ (S N)).
  cbv zeta. set (s1 := hloop (S N) _ _ _ _ _ _).
  assert (I1 : hinv f a b y (fst (fst (hstart e))) s1) by (apply (hloop_inv e f a b y P); assumption).
  destruct (h_sel s1) eqn:S1.
  - destruct (hstep_inv e f a b y P paranoid ep _ Hep s1 I1 S1) as (_ & Po & _).
    destruct Po as (lo & hi & lo' & hi' & v & A1 & A2 & A3 & A4 & A5 & A6 & _).
    exists lo, hi, lo', hi'. repeat split; assumption.
  - destruct I1 as (lo & hi & E1 & E2 & _). exists lo, hi, lo, hi. repeat split; try assumption; lra.
Qed.

(* root of a continuous function between the limits *)
Lemma root_between lo hi : a <= lo -> lo <= hi -> hi <= b -> (forall x, a <= x <= b -> continuity_pt f x) ->
  (f lo <= y <= f hi \/ f hi <= y <= f lo) -> exists r, lo <= r <= hi /\ f r = y.
Proof.
  intros H1 H2 H3 C S.
  assert (X : forall g : R -> R, (forall x, a <= x <= b -> continuity_pt g x) -> g lo <= 0 <= g hi ->
    exists r, lo <= r <= hi /\ g r = 0).
  { intros g Cg [S1 S2].
    destruct (Req_EM_T (g lo) 0) as [Z|N1]; [exists lo; split; [lra|exact Z]|].
    destruct (Req_EM_T (g hi) 0) as [Z|N2]; [exists hi; split; [lra|exact Z]|].
    assert (L : lo < hi) by (destruct (Rle_lt_or_eq_dec lo hi H2) as [L| ->]; [exact L|lra]).
    destruct (Ranalysis5.IVT_interv g lo hi) as (r & Hr & Er); [intros; apply Cg; lra|exact L|lra|lra|].
    exists r. split; assumption. }
  destruct S as [S|S].
  - destruct (X (fun x => f x - y)) as (r & Hr & Er); [|lra|exists r; split; [exact Hr|lra]].
    intros x Hx. apply (continuity_pt_minus f (fun _ => y)); [apply C; exact Hx|apply continuity_pt_const; intros u w; reflexivity].
  - destruct (X (fun x => y - f x)) as (r & Hr & Er); [|lra|exists r; split; [exact Hr|lra]].
    intros x Hx. apply (continuity_pt_minus (fun _ => y) f); [apply continuity_pt_const; intros u w; reflexivity|apply C; exact Hx].
Qed.
Theorem converged_root v : h_x s = Fin v -> h_sel s = false -> (forall x, a <= x <= b -> continuity_pt f x) ->
  good_root f a b y ep v.
Proof.
  intros Ev Sel C. destruct final_bracket as (lo & hi & v' & _ & _ & E & H1 & H2 & H3 & V & S & K).
  rewrite Ev in E. injection E as <-. destruct (K Sel) as [K1|K1]; [left; exact K1|right].
  destruct (root_between lo hi H1 H2 H3 C S) as (r & Hr & Er). exists r. split; [lra|]. split; [exact Er|].
  apply (Rle_trans _ (hi - lo)); [|exact K1]. unfold Rabs. destruct (Rcase_abs (v - r)); destruct V as [ -> | -> ]; lra.
Qed.
End Result.

(* ---- the array routine ---- *)
Lemma same_start e e' f a b y : problem e f a b y -> same_inside e e' -> hstart e' = hstart e.
Proof.
  intros [Pmin Pmax Py Pab _ _ _] (S1 & S2 & S3 & S4 & S5 & S6).
  unfold hstart. rewrite S1, S2, S4, S5, Pmin, Pmax.
  rewrite !(S6 a b Pmin Pmax) by lra. reflexivity.
Qed.
Lemma same_solve e e' f a b y paranoid ep N : problem e f a b y -> same_inside e e' -> 0 <= ep -> bracketed f a b y ->
  solve_elem paranoid ep N e' = solve_elem paranoid ep N e.
Proof.
  intros P S Hep B. unfold solve_elem. rewrite (same_start e e' f a b y P S).
  destruct (start_inv e f a b y P B) as [I Sel].
  destruct S as (S1 & S2 & S3 & S4 & S5 & S6). rewrite S1.
  generalize dependent (snd (hstart e)). generalize (fst (fst (hstart e))) as sw. generalize (S N) as n.
  induction n as [|n IH]; intros sw s I Sel; [reflexivity|]. cbn [hloop]. rewrite Sel.
  destruct (hstep_inv e f a b y P paranoid ep sw Hep s I Sel) as (I' & _ & (v & Ev & Hv)).
  assert (E : hstep paranoid ep (e_fn e') (e_y e) sw s = hstep paranoid ep (e_fn e) (e_y e) sw s).
  { unfold hstep. rewrite Ev. rewrite (S6 a b (pr_min _ _ _ _ _ P) (pr_max _ _ _ _ _ P) v Hv). reflexivity. }
  rewrite E. destruct (h_sel (hstep paranoid ep (e_fn e) (e_y e) sw s)) eqn:S'.
  - apply IH; assumption.
  - destruct n; cbn [hloop]; [reflexivity|]. rewrite S'. reflexivity.
Qed.

Definition any_problem (e : elem) : Prop := exists f a b y, problem e f a b y.

Theorem only_inside : forall paranoid ep N oob es es', 0 <= ep ->
  Forall2 (fun e e' => same_inside e e' /\ any_problem e) es es' ->
  hybrid1 paranoid ep N oob es' = hybrid1 paranoid ep N oob es.
Proof.
  intros paranoid ep N oob es es' Hep F.
  assert (K : forall e e', same_inside e e' /\ any_problem e ->
    e_sel e' = e_sel e /\ e_x e' = e_x e /\ not_bracketed e' = not_bracketed e /\
    (not_bracketed e = false -> solve_elem paranoid ep N e' = solve_elem paranoid ep N e)).
  { intros e e' [S (f & a & b & y & P)]. pose proof S as (S1 & S2 & S3 & _).
    split; [exact S3|]. split; [exact S2|]. split; [unfold not_bracketed; rewrite (same_start e e' f a b y P S); reflexivity|].
    intro NB. apply (bracket_iff e f a b y P) in NB. eapply same_solve; eassumption. }
  assert (E : existsb e_sel es' = existsb e_sel es /\
    forallb (fun e => negb (e_sel e) || not_bracketed e) es' = forallb (fun e => negb (e_sel e) || not_bracketed e) es /\
    map (fun e => if e_sel e then (if not_bracketed e then oob else h_x (solve_elem paranoid ep N e)) else e_x e) es'
    = map (fun e => if e_sel e then (if not_bracketed e then oob else h_x (solve_elem paranoid ep N e)) else e_x e) es /\
    existsb (fun e => e_sel e && negb (not_bracketed e) && h_sel (solve_elem paranoid ep N e)) es'
    = existsb (fun e => e_sel e && negb (not_bracketed e) && h_sel (solve_elem paranoid ep N e)) es).
  { induction F as [|e e' l l' H F IH]; [repeat split|].
    destruct IH as (I1 & I2 & I3 & I4). destruct (K _ _ H) as (K1 & K2 & K3 & K4).
    cbn [existsb forallb map]. rewrite I1, I2, I3, I4, K1, K2, K3.
    destruct (not_bracketed e).
    - cbn [negb]. rewrite !andb_false_r. repeat split.
    - rewrite (K4 eq_refl). repeat split. }
  destruct E as (E1 & E2 & E3 & E4). unfold hybrid1. rewrite E1, E2, E3, E4. reflexivity.
Qed.

Theorem error_iff : forall paranoid ep N oob es,
  (hybrid1 paranoid ep N oob es = Err PMParamError <->
   (exists e, In e es /\ e_sel e = true) /\ forall e, In e es -> e_sel e = true -> not_bracketed e = true) /\
  (forall x, hybrid1 paranoid ep N oob es = Err x -> x = PMParamError).
Proof.
  intros. unfold hybrid1.
  destruct (existsb e_sel es && forallb (fun e => negb (e_sel e) || not_bracketed e) es) eqn:E.
  - split; [|intros x H; injection H as <-; reflexivity]. split; [intros _|reflexivity].
    apply andb_true_iff in E. destruct E as [E1 E2]. apply existsb_exists in E1. rewrite forallb_forall in E2.
    split; [exact E1|]. intros e He Hs. specialize (E2 e He). rewrite Hs in E2. exact E2.
  - split; [|discriminate]. split; [discriminate|]. intros [H1 H2]. exfalso.
    apply andb_false_iff in E. destruct E as [E|E].
    + apply existsb_exists in H1. congruence.
    + assert (T : forallb (fun e => negb (e_sel e) || not_bracketed e) es = true); [|congruence].
      apply forallb_forall. intros e He. destruct (e_sel e) eqn:S; [cbn; apply H2; assumption|reflexivity].
Qed.

Theorem fails_iff : forall paranoid ep N oob es (fs : elem -> R -> R) (lo hi y : elem -> R),
  (forall e, In e es -> problem e (fs e) (lo e) (hi e) (y e)) ->
  (hybrid1 paranoid ep N oob es = Err PMParamError <->
   (exists e, In e es /\ e_sel e = true) /\
   forall e, In e es -> e_sel e = true -> ~ bracketed (fs e) (lo e) (hi e) (y e)) /\
  (forall x, hybrid1 paranoid ep N oob es = Err x -> x = PMParamError).
Proof.
  intros paranoid ep N oob es fs lo hi y P. destruct (error_iff paranoid ep N oob es) as [A B].
  split; [|exact B]. rewrite A. split; intros [H1 H2]; (split; [exact H1|]); intros e He Hs.
  - intro K. apply (bracket_iff e _ _ _ _ (P e He)) in K. rewrite (H2 e He Hs) in K. discriminate.
  - destruct (not_bracketed e) eqn:NB; [reflexivity|]. exfalso. apply (H2 e He Hs).
    apply (bracket_iff e _ _ _ _ (P e He)). exact NB.
Qed.

Theorem result_sound : forall paranoid ep N oob es xs warned i e f a b y, 0 <= ep ->
  hybrid1 paranoid ep N oob es = Ok (xs, warned) -> nth_error es i = Some e ->
  List.length xs = List.length es /\
  (e_sel e = false -> nth_error xs i = Some (e_x e)) /\
  (e_sel e = true -> problem e f a b y ->
   (~ bracketed f a b y -> nth_error xs i = Some oob) /\
   (bracketed f a b y -> exists v, nth_error xs i = Some (Fin v) /\ a <= v <= b /\
      (warned = false -> (forall x, a <= x <= b -> continuity_pt f x) -> good_root f a b y ep v))).
Proof.
  intros paranoid ep N oob es xs warned i e f a b y Hep H Hi. unfold hybrid1 in H.
  match type of H with context [if ?c then _ else _] => destruct c; [discriminate|] end.
  injection H as <- <-. rewrite map_length. split; [reflexivity|].
  rewrite nth_error_map, Hi. cbn [option_map]. split; [intro S; rewrite S; reflexivity|].
  intros S P. rewrite S. split.
  - intro NB. destruct (not_bracketed e) eqn:E; [reflexivity|]. exfalso. apply NB. apply (bracket_iff e f a b y P). exact E.
  - intro B. pose proof (proj2 (bracket_iff e f a b y P) B) as E. rewrite E.
    destruct (final_bracket e f a b y paranoid ep N P Hep B) as (lo & hi & v & _ & _ & Ev & H1 & H2 & H3 & V & _).
    exists v. rewrite Ev. split; [reflexivity|]. split; [destruct V as [ -> | -> ]; lra|].
    intros W C. apply (converged_root e f a b y paranoid ep N P Hep B v Ev); [|exact C].
    destruct (h_sel (solve_elem paranoid ep N e)) eqn:Q; [|reflexivity]. exfalso.
    assert (T : existsb (fun e => e_sel e && negb (not_bracketed e) && h_sel (solve_elem paranoid ep N e)) es = true); [|congruence].
    apply existsb_exists. exists e. split; [exact (nth_error_In _ _ Hi)|]. rewrite S, E, Q. reflexivity.
Qed.

(* ---- refuted ---- *)
(* a solution at the lower limit of an increasing function *)
Definition ident : elem :=
  {| e_fn := fun x => (x, Fin 1); e_y := Fin 1; e_x := Fin 0; e_sel := true; e_min := Fin 1; e_max := Fin 2 |}.
Lemma ident_problem : problem ident (fun x => x) 1 2 1.
Proof.
  split; try reflexivity; try lra.
  - intros x _. exists (Fin 1). split; [reflexivity|discriminate].
  - intros [_ H]. cbn in H. injection H. lra.
  - intros [H _]. lra.
Qed.
Theorem lower_limit_root : forall paranoid ep N oob,
  problem ident (fun x => x) 1 2 1 /\ hybrid1 paranoid ep N oob [ident] = Err PMParamError.
Proof.
  intros. split; [exact ident_problem|]. apply (proj1 (error_iff paranoid ep N oob [ident])). split.
  - exists ident. split; [left; reflexivity|reflexivity].
  - intros e [<-|[]] _. unfold not_bracketed, hstart. cbn.
    destruct (Rle_dec 1 1) as [_|N1]; [|exfalso; lra]. destruct (Rle_dec 1 2) as [_|N1]; [reflexivity|exfalso; lra].
Qed.
(* a flat solution at the lower limit of a decreasing function *)
Definition flat_fn (x : xf) : xf * xf :=
  match x with
  | Fin r => (Fin (- (r * r) / (1 + r * r)), Fin (- (2 * r) / ((1 + r * r) * (1 + r * r))))
  | _ => (NaN, NaN)
  end.
Definition flat : elem :=
  {| e_fn := flat_fn; e_y := Fin 0; e_x := Fin 0; e_sel := true; e_min := Fin 0; e_max := Fin 1 |}.
Theorem flat_root_nan : forall ep N oob, hybrid1 true ep N oob [flat] = Ok ([NaN], false).
Proof.
  intros. 
  assert (S : hstart flat = (true, false, {| h_a := NaN; h_b := Fin 0; h_c := Fin (1/2 * (0 + 1)); h_min := Fin 0;
     h_max := Fin 1; h_x := Fin 0; h_sel := true |})).
  { unfold hstart, flat. cbn [e_fn e_y e_min e_max e_x flat_fn].
    replace (- (0 * 0) / (1 + 0 * 0)) with 0 by field. replace (- (2 * 0) / ((1 + 0 * 0) * (1 + 0 * 0))) with 0 by field.
    replace (- (1 * 1) / (1 + 1 * 1)) with (- (1 / 2)) by field.
    replace (- (2 * 1) / ((1 + 1 * 1) * (1 + 1 * 1))) with (- (1 / 2)) by field.
    cbn [xsub xneg xadd xhalf xle xdiv].
    destruct (Req_EM_T 0 0) as [_|N0]; [|contradiction].
    destruct (Req_EM_T (0 + - 0) 0) as [_|N0]; [|exfalso; lra].
    destruct (Req_EM_T (- (1/2)) 0) as [N0|_]; [exfalso; lra|].
    destruct (Rle_dec 0 0) as [_|N0]; [|exfalso; lra].
    destruct (Rle_dec 0 (- (1/2))) as [N0|_]; [exfalso; lra|]. cbn [xadd xorb negb].
    replace (1 + (0 + - - (1 / 2)) / - (1 / 2)) with 0 by field. reflexivity. }
  assert (L : solve_elem true ep N flat = {| h_a := NaN; h_b := Fin 0; h_c := NaN; h_min := NaN; h_max := Fin 1; h_x := NaN; h_sel := false |}).
  { unfold solve_elem. rewrite S. cbn [fst snd hloop h_sel].
    assert (X : hstep true ep (e_fn flat) (e_y flat) true {| h_a := NaN; h_b := Fin 0; h_c := Fin (1/2 * (0 + 1)); h_min := Fin 0;
     h_max := Fin 1; h_x := Fin 0; h_sel := true |} = {| h_a := NaN; h_b := Fin 0; h_c := NaN; h_min := NaN; h_max := Fin 1; h_x := NaN; h_sel := false |}).
    { assert (G : next_guess true {| h_a := NaN; h_b := Fin 0; h_c := Fin (1/2 * (0 + 1)); h_min := Fin 0;
         h_max := Fin 1; h_x := Fin 0; h_sel := true |} = NaN).
      { unfold next_guess. cbn [h_a h_b h_c h_min h_max h_x xlt].
        destruct (Rlt_dec 0 (1 / 2 * (0 + 1))) as [_|N0]; [|exfalso; lra].
        destruct (Rlt_dec 0 0) as [N0|_]; [exfalso; lra|]. destruct (Rlt_dec 1 0) as [N0|_]; [exfalso; lra|]. reflexivity. }
      unfold hstep. rewrite G. reflexivity. }
    rewrite X. destruct N; reflexivity. }
  unfold hybrid1. unfold not_bracketed. cbn [existsb forallb map e_sel]. rewrite S. cbn [fst snd].
  change (e_sel flat) with true. cbn [orb negb andb]. rewrite L. reflexivity.
Qed.

(* x^2 = 2 on [1, 2] *)
Definition square : elem :=
  {| e_fn := fun x => match x with Fin r => (Fin (r * r), Fin (2 * r)) | _ => (NaN, NaN) end;
     e_y := Fin 2; e_x := Fin 0; e_sel := true; e_min := Fin 1; e_max := Fin 2 |}.

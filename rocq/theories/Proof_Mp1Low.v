(* Asking for second derivatives does not change the value and the first derivatives that the
   evaluators of mp1.py return: whatever the data and the arguments, nan included. *)
From Coq Require Import Reals ZArith List Bool Arith.
From Verif Require Import Model_Num Model_Mp1.
Import ListNotations.

Definition low1 (j : jet1) : fl * fl := let '(a, b, _) := j in (a, b).
Definition low (j : jet2) : fl * fl * fl := let '(a, b, c, _, _, _) := j in (a, b, c).

Lemma low_eq (a b c a' b' c' d e f d' e' f' : fl) : low (a, b, c, d, e, f) = low (a', b', c', d', e', f') ->
  a = a' /\ b = b' /\ c = c'.
Proof. intro H. injection H; auto. Qed.
Lemma low1_eq (a b a' b' c c' : fl) : low1 (a, b, c) = low1 (a', b', c') -> a = a' /\ b = b'.
Proof. intro H. injection H; auto. Qed.

Lemma pre_low x pre : low1 (pre_power 1 x pre) = low1 (pre_power 2 x pre).
Proof. unfold pre_power. destruct (Req_EM_T pre 1); reflexivity. Qed.
Lemma loop1_low x0 n : forall rows s s', low1 s = low1 s' -> low1 (loop1 1 x0 n rows s) = low1 (loop1 2 x0 n rows s').
Proof.
  induction n as [|n IH]; intros rows [[p px] pxx] [[p' px'] pxx'] H; [exact H|].
  apply low1_eq in H as [-> ->]. cbn [loop1 diff1 diff2].
  destruct rows as [|[i c] rest]; [apply IH; reflexivity|].
  destruct (Z.eqb i (Z.of_nat n)); apply IH; reflexivity.
Qed.
Lemma coef1_low x c : low1 (poly1_coef x c 1) = low1 (poly1_coef x c 2).
Proof.
  unfold poly1_coef. pose proof (pre_low x (c1_pre c)) as H.
  destruct (pre_power 1 x (c1_pre c)) as [[x0 x1] x2], (pre_power 2 x (c1_pre c)) as [[x0' x1'] x2'].
  apply low1_eq in H as [-> ->].
  pose proof (loop1_low x0' (Z.to_nat (fst (c1_first c) + 1)) (c1_rows c) (num 0, num 0, num 0) _ eq_refl) as H.
  destruct (loop1 1 _ _ _ _) as [[p px] pxx], (loop1 2 _ _ _ _) as [[p' px'] pxx'].
  apply low1_eq in H as [-> ->].
  destruct (Req_EM_T (c1_post c) 0), (Req_EM_T (c1_pre c) 1); reflexivity.
Qed.
Lemma poly1_low x g : low1 (poly1 x g 1) = low1 (poly1 x g 2).
Proof.
  assert (F : forall l s s', low1 s = low1 s' ->
    low1 (fold_left (fun st c => let '(s, sx, sxx) := st in let '(p, px, pxx) := poly1_coef x c 1 in
        ((s + p)%fl, (if diff1 1 then sx + px else sx)%fl, (if diff2 1 then sxx + pxx else sxx)%fl)) l s) =
    low1 (fold_left (fun st c => let '(s, sx, sxx) := st in let '(p, px, pxx) := poly1_coef x c 2 in
        ((s + p)%fl, (if diff1 2 then sx + px else sx)%fl, (if diff2 2 then sxx + pxx else sxx)%fl)) l s')).
  { induction l as [|c l IH]; intros [[s sx] sxx] [[s' sx'] sxx'] H; [exact H|]. cbn [fold_left]. apply IH.
    apply low1_eq in H as [-> ->]. pose proof (coef1_low x c) as K.
    destruct (poly1_coef x c 1) as [[p px] pxx], (poly1_coef x c 2) as [[p' px'] pxx'].
    apply low1_eq in K as [-> ->]. reflexivity. }
  unfold poly1. destruct g as [|c [|c' g]]; [reflexivity|apply coef1_low|]. apply F. reflexivity.
Qed.

Lemma loopy_low y0 ii n : forall rows s s', low1 s = low1 s' ->
  fst (loopy 1 y0 ii n rows s) = fst (loopy 2 y0 ii n rows s') /\
  low1 (snd (loopy 1 y0 ii n rows s)) = low1 (snd (loopy 2 y0 ii n rows s')).
Proof.
  induction n as [|n IH]; intros rows [[p px] pxx] [[p' px'] pxx'] H; [split; [reflexivity|exact H]|].
  apply low1_eq in H as [-> ->]. cbn [loopy diff1 diff2].
  destruct rows as [|[[i j] c] rest]; [apply IH; reflexivity|].
  destruct (andb (Z.eqb i ii) (Z.eqb j (Z.of_nat n))); apply IH; reflexivity.
Qed.
Lemma loopx_low x0 y0 n : forall rows s s', low s = low s' ->
  low (loopx 1 x0 y0 n rows s) = low (loopx 2 x0 y0 n rows s').
Proof.
  induction n as [|n IH]; intros rows s s' H; [exact H|].
  assert (N : low (fold_none 1 x0 s) = low (fold_none 2 x0 s')).
  { destruct s as [[[[[? ?] ?] ?] ?] ?], s' as [[[[[? ?] ?] ?] ?] ?]. apply low_eq in H as (-> & -> & ->). reflexivity. }
  cbn [loopx]. destruct rows as [|[[i j] c] rest]; [apply IH, N|].
  destruct (Z.eqb i (Z.of_nat n)); [|apply IH, N].
  pose proof (loopy_low y0 i (Z.to_nat (j + 1)) ((i, j, c) :: rest) (num 0, num 0, num 0) _ eq_refl) as [R K].
  destruct (loopy 1 _ _ _ _ _) as [r [[q qy] qyy]], (loopy 2 _ _ _ _ _) as [r' [[q' qy'] qyy']].
  cbn [fst snd] in R, K. subst r'. apply low1_eq in K as [-> ->]. apply IH.
  destruct s as [[[[[? ?] ?] ?] ?] ?], s' as [[[[[? ?] ?] ?] ?] ?]. apply low_eq in H as (-> & -> & ->). reflexivity.
Qed.
Lemma chain_low prex X X' Y Y' s s' : low1 X = low1 X' -> low1 Y = low1 Y' -> low s = low s' ->
  low (pre_chain 1 prex X Y s) = low (pre_chain 2 prex X' Y' s').
Proof.
  destruct X as [[? ?] ?], X' as [[? ?] ?], Y as [[? ?] ?], Y' as [[? ?] ?].
  intros HX HY H. apply low1_eq in HX as [-> ->]. apply low1_eq in HY as [-> ->].
  destruct s as [[[[[? ?] ?] ?] ?] ?], s' as [[[[[? ?] ?] ?] ?] ?]. apply low_eq in H as (-> & -> & ->).
  unfold pre_chain. destruct (Req_EM_T prex 1); reflexivity.
Qed.
Lemma postx_low x r s s' : low s = low s' -> low (post_x 1 x r s) = low (post_x 2 x r s').
Proof.
  destruct s as [[[[[? ?] ?] ?] ?] ?], s' as [[[[[? ?] ?] ?] ?] ?]. intro H. apply low_eq in H as (-> & -> & ->).
  unfold post_x. destruct (Req_EM_T r 0); reflexivity.
Qed.
Lemma posty_low x r s s' : low s = low s' -> low (post_y 1 x r s) = low (post_y 2 x r s').
Proof.
  destruct s as [[[[[? ?] ?] ?] ?] ?], s' as [[[[[? ?] ?] ?] ?] ?]. intro H. apply low_eq in H as (-> & -> & ->).
  unfold post_y. destruct (Req_EM_T r 0); reflexivity.
Qed.
Lemma coef2_low x y c : low (poly2_coef x y c 1) = low (poly2_coef x y c 2).
Proof.
  unfold poly2_coef. apply posty_low, postx_low, chain_low; [apply pre_low|apply pre_low|].
  assert (F : forall z p, fst (fst (pre_power 1 z p)) = fst (fst (pre_power 2 z p))).
  { intros z p. pose proof (pre_low z p) as K. destruct (pre_power 1 z p) as [[? ?] ?], (pre_power 2 z p) as [[? ?] ?].
    apply low1_eq in K as [-> _]. reflexivity. }
  rewrite !F. apply loopx_low. reflexivity.
Qed.
Lemma poly2_low x y g : low (poly2 x y g 1) = low (poly2 x y g 2).
Proof.
  unfold poly2. destruct g as [|c [|c' g]]; [reflexivity|apply coef2_low|].
  generalize (c :: c' :: g). intro l.
  assert (F : forall s s', low s = low s' ->
    low (fold_left (fun st c => let '(s, sx, sy, sxx, sxy, syy) := st in
        let '(p, px, py, pxx, pxy, pyy) := poly2_coef x y c 1 in
        ((s + p)%fl, (if diff1 1 then sx + px else sx)%fl, (if diff1 1 then sy + py else sy)%fl,
         (if diff2 1 then sxx + pxx else sxx)%fl, (if diff2 1 then sxy + pxy else sxy)%fl,
         (if diff2 1 then syy + pyy else syy)%fl)) l s) =
    low (fold_left (fun st c => let '(s, sx, sy, sxx, sxy, syy) := st in
        let '(p, px, py, pxx, pxy, pyy) := poly2_coef x y c 2 in
        ((s + p)%fl, (if diff1 2 then sx + px else sx)%fl, (if diff1 2 then sy + py else sy)%fl,
         (if diff2 2 then sxx + pxx else sxx)%fl, (if diff2 2 then sxy + pxy else sxy)%fl,
         (if diff2 2 then syy + pyy else syy)%fl)) l s')).
  { induction l as [|k l IH]; intros s s' H; [exact H|]. cbn [fold_left]. apply IH.
    destruct s as [[[[[? ?] ?] ?] ?] ?], s' as [[[[[? ?] ?] ?] ?] ?]. apply low_eq in H as (-> & -> & ->).
    pose proof (coef2_low x y k) as K.
    destruct (poly2_coef x y k 1) as [[[[[? ?] ?] ?] ?] ?], (poly2_coef x y k 2) as [[[[[? ?] ?] ?] ?] ?].
    apply low_eq in K as (-> & -> & ->). reflexivity. }
  apply F. reflexivity.
Qed.

Lemma add1_low s s' j j' : low1 s = low1 s' -> low1 j = low1 j' -> low1 (add1 1 s j) = low1 (add1 2 s' j').
Proof.
  destruct s as [[? ?] ?], s' as [[? ?] ?], j as [[? ?] ?], j' as [[? ?] ?].
  intros H K. apply low1_eq in H as [-> ->]. apply low1_eq in K as [-> ->]. reflexivity.
Qed.
Lemma ao_low G t d : low (ao G t d 1) = low (ao G t d 2).
Proof.
  unfold ao.
  assert (H : low1 (ao_tau G t 1 (flog d)) = low1 (ao_tau G t 2 (flog d))).
  { unfold ao_tau.
    assert (F : forall l s s', low1 s = low1 s' ->
      low1 (fold_left (fun S tc => let '(theta, c) := tc in
        let e := fexp (- num theta * t)%fl in
        let pt := (num theta * e / (num 1 - e))%fl in
        let ptt := (- pt * (num theta + pt))%fl in
        add1 1 S ((num c * flog (num 1 - e))%fl, (num c * pt)%fl, (num c * ptt)%fl)) l s) =
      low1 (fold_left (fun S tc => let '(theta, c) := tc in
        let e := fexp (- num theta * t)%fl in
        let pt := (num theta * e / (num 1 - e))%fl in
        let ptt := (- pt * (num theta + pt))%fl in
        add1 2 S ((num c * flog (num 1 - e))%fl, (num c * pt)%fl, (num c * ptt)%fl)) l s')).
    { induction l as [|[th c] l IH]; intros s s' H; [exact H|]. cbn [fold_left]. apply IH, add1_low; [exact H|reflexivity]. }
    destruct (ao_coef1 G) as [l|]; [apply F|].
    all: destruct (ao_coef0 G); [apply add1_low; [|apply poly1_low]|].
    all: destruct (ao_tlogt G); [apply add1_low; [|reflexivity]|].
    all: destruct (ao_logt G); [apply add1_low; reflexivity|reflexivity]. }
  destruct (ao_tau G t 1 (flog d)) as [[? ?] ?], (ao_tau G t 2 (flog d)) as [[? ?] ?].
  apply low1_eq in H as [-> ->]. reflexivity.
Qed.

Lemma addj_low s s' j j' : low s = low s' -> low j = low j' -> low (add_jet 1 s j) = low (add_jet 2 s' j').
Proof.
  destruct s as [[[[[? ?] ?] ?] ?] ?], s' as [[[[[? ?] ?] ?] ?] ?],
    j as [[[[[? ?] ?] ?] ?] ?], j' as [[[[[? ?] ?] ?] ?] ?].
  intros H K. apply low_eq in H as (-> & -> & ->). apply low_eq in K as (-> & -> & ->). reflexivity.
Qed.
Lemma term0_low t d k dk g : low (ar0_term t d k dk g 1) = low (ar0_term t d k dk g 2).
Proof.
  unfold ar0_term. pose proof (poly2_low t d g) as H.
  destruct (poly2 t d g 1) as [[[[[? ?] ?] ?] ?] ?], (poly2 t d g 2) as [[[[[? ?] ?] ?] ?] ?].
  apply low_eq in H as (-> & -> & ->). reflexivity.
Qed.
Lemma loop0_low t d gs : forall k dk s s', low s = low s' ->
  low (ar0_loop t d k dk gs 1 s) = low (ar0_loop t d k dk gs 2 s').
Proof.
  induction gs as [|g gs IH]; intros k dk s s' H; [exact H|]. cbn [ar0_loop]. apply IH, addj_low; [exact H|apply term0_low].
Qed.
Lemma terms_low {A} (f : A -> jet2) l : forall s s', low s = low s' ->
  low (fold_left (fun S r => add_jet 1 S (f r)) l s) = low (fold_left (fun S r => add_jet 2 S (f r)) l s').
Proof. induction l as [|r l IH]; intros s s' H; [exact H|]. cbn [fold_left]. apply IH, addj_low; [exact H|reflexivity]. Qed.
Lemma ar_low G all t d : low (ar G all t d 1) = low (ar G all t d 2).
Proof.
  unfold ar.
  destruct (ar_coef2 G); [apply terms_low|]; (destruct (ar_coef1 G); [apply terms_low|]); apply loop0_low, poly2_low.
Qed.

Lemma ao_at_low D T d : low (ao_at D T d 1) = low (ao_at D T d 2).
Proof. apply ao_low. Qed.
Lemma ar_at_low D all T d : low (ar_at D all T d 1) = low (ar_at D all T d 2).
Proof. apply ar_low. Qed.

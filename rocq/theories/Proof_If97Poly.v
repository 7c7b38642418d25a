(* The polynomial evaluator of the IF-97 class. *)
From Coq Require Import Reals ZArith List Bool Lia Lra Arith.
From Verif Require Import Model_If97 Spec_Mp1 Spec_If97 Proof_Jets Proof_Mp1Poly.
Import ListNotations.
Local Open Scope R_scope.
Local Open Scope list_scope.

Ltac pairs := match goal with
  | |- (_, _) = (_, _) => apply f_equal2; pairs
  | |- Some _ = Some _ => apply f_equal; ring
  | _ => reflexivity end.
(* ---- integer powers ---- *)
Definition zp (n : Z) (y : R) : J1 :=
  mk1 (powerRZ y n) (IZR n * powerRZ y (n - 1)) (IZR n * IZR (n - 1) * powerRZ y (n - 2)).
Definition zok (n : Z) (y : R) : Prop := y <> 0 \/ (0 <= n)%Z.

Lemma pz_nat y k : powerRZ y (Z.of_nat k) = y ^ k.
Proof. symmetry. apply pow_powerRZ. Qed.
Lemma pz_shift y n k : zok n y -> (n <= k)%Z -> y ^ Z.to_nat (k - n) * powerRZ y n = powerRZ y k.
Proof.
  intros [Hy|Hn] Hk.
  - rewrite <- pz_nat, Z2Nat.id by lia. rewrite <- powerRZ_add by exact Hy. f_equal. lia.
  - rewrite <- (Z2Nat.id n), <- (Z2Nat.id k) by lia. rewrite !pz_nat, <- pow_add. f_equal. lia.
Qed.
Lemma D_pz n y : zok n y -> D (fun u => powerRZ u n) y (IZR n * powerRZ y (n - 1)).
Proof.
  intro H. destruct (Z_le_gt_dec 0 n) as [Hn|Hn].
  - destruct (Z.eq_dec n 0) as [->|H0].
    + cbn [powerRZ]. replace (0 * powerRZ y (0 - 1)) with 0 by ring. apply D_const.
    + assert (E : n = Z.of_nat (S (Z.to_nat (n - 1)))) by lia.
      apply (D_ext (fun u => u ^ S (Z.to_nat (n - 1)))). { intro u. rewrite E at 2. symmetry. apply pz_nat. }
      eapply D_eq; [apply derivable_pt_lim_pow|]. cbn [Init.Nat.pred].
      rewrite <- (pz_nat y (Z.to_nat (n - 1))), Z2Nat.id by lia. f_equal. rewrite INR_IZR_INZ. f_equal. lia.
  - assert (Hy : y <> 0) by (destruct H; [assumption|lia]).
    pose (k := Z.to_nat (- n)).
    assert (Hk : (- n)%Z = Z.of_nat k) by (unfold k; lia).
    assert (P : forall u, powerRZ u n = / u ^ k).
    { intro u. destruct n as [|q|q]; try lia. cbn [powerRZ]. replace k with (Pos.to_nat q); [reflexivity|]. unfold k. cbn. lia. }
    apply (D_ext (fun u => / u ^ k)); [intro u; now rewrite P|].
    eapply D_eq.
    + apply (D_comp (fun u => u ^ k) (fun v => / v)); [apply derivable_pt_lim_pow|]. apply D_inv. now apply pow_nonzero.
    + assert (Hp : y ^ k <> 0) by now apply pow_nonzero.
      destruct k as [|j] eqn:Ek; [lia|].
      replace (n - 1)%Z with (n + -1)%Z by lia. rewrite powerRZ_add by exact Hy. rewrite P.
      cbn [Init.Nat.pred powerRZ]. rewrite Pos2Nat.inj_1, pow_1.
      replace (IZR n) with (- INR (S j)). 2:{ rewrite INR_IZR_INZ, <- Hk, opp_IZR. lra. }
      cbn [pow] in *. field. split; [exact Hy|]. intro Q. apply Hp. rewrite Q. ring.
Qed.
Lemma zok_open n y : zok n y -> exists e, 0 < e /\ forall u, Rabs (u - y) < e -> zok n u.
Proof.
  intros [H|H].
  - exists (Rabs y). split; [now apply Rabs_pos_lt|]. intros u Hu. left. intros ->.
    rewrite Rminus_0_l, Rabs_Ropp in Hu. lra.
  - exists 1. split; [lra|]. intros u _. now right.
Qed.
Lemma zp_jet n : jet1_on (zok n) (zp n).
Proof.
  intros y Hy. cbn [zp a0 a1 a2]. split; [now apply D_pz|].
  destruct (Z.eq_dec n 0) as [->|H0].
  - replace (0 * IZR (0 - 1) * powerRZ y (0 - 2)) with 0 by ring.
    apply (D_ext (fun _ => 0)); [intro u; ring|]. apply D_const.
  - rewrite Rmult_assoc. replace (n - 2)%Z with (n - 1 - 1)%Z by lia. apply D_scal. apply D_pz.
    destruct Hy as [H|H]; [now left|right; lia].
Qed.
Lemma power_jet_ok y n : zok n y -> n <> 0%Z ->
  power_jet (Some y) n = (Some (a0 (zp n y)), Some (a1 (zp n y)), Some (a2 (zp n y))).
Proof.
  intros Hy H0. unfold power_jet. cbn [zp a0 a1 a2].
  destruct (Z.eqb_spec n 1) as [->|H1].
  - unfold num. change (1 - 1)%Z with 0%Z. change (1 - 2)%Z with (-1)%Z.
    rewrite powerRZ_1, powerRZ_O, Rmult_1_r.
    rewrite Rmult_0_r, Rmult_0_l. reflexivity.
  - unfold ipow. assert ((if Req_EM_T y 0 then (n - 2 <? 0)%Z else false) = false) as ->.
    { destruct (Req_EM_T y 0) as [Q|]; [|reflexivity]. apply Z.ltb_ge. destruct Hy; [contradiction|lia]. }
    assert (Z2 : zok (n - 2) y) by (destruct Hy as [H|H]; [now left|right; lia]).
    pose proof (pz_shift y (n - 2) n Z2 ltac:(lia)) as P2.
    pose proof (pz_shift y (n - 2) (n - 1) Z2 ltac:(lia)) as P1.
    replace (n - (n - 2))%Z with 2%Z in P2 by lia. replace (n - 1 - (n - 2))%Z with 1%Z in P1 by lia.
    change (Z.to_nat 2) with 2%nat in P2. change (Z.to_nat 1) with 1%nat in P1. cbn [pow] in P1, P2.
    flc. rewrite <- P1, <- P2. rewrite mult_IZR. apply f_equal2; [apply f_equal2|]; apply f_equal; ring.
Qed.

(* ---- the inner loop ---- *)
Definition hs (o : option R) (y : R) (s : J1) : J1 :=
  mk1 (match o with Some a => a0 s * y + a | None => a0 s * y end) (a1 s * y + a0 s) (a2 s * y + 2 * a1 s).
Definition run_y (tr : list (option R)) (y : R) (s : J1) : J1 := fold_left (fun s o => hs o y s) tr s.

Fixpoint cy (fuel : nat) (m n : Z) (rows : list term) : res (Z * list term * list (option R)) :=
  match rows with
  | (m', n', a) :: rest =>
      if Z.eqb m' m then
        match fuel with
        | O => Err EOutOfFuel
        | S k =>
            if Z.ltb (n - 1) (- LARGE) then Err EException
            else
              do r <- cy k m (n - 1) (if Z.eqb n n' then rest else rows);
              let '(n2, rows2, tr) := r in Ok (n2, rows2, (if Z.eqb n n' then Some a else None) :: tr)
        end
      else Ok (n, rows, [])
  | [] => Ok (n, rows, [])
  end.

Lemma peval_y_run fuel order y m n rows s :
  peval_y fuel order (Some y) m n rows (gate1 order s) =
  do r <- cy fuel m n rows;
  let '(n2, rows2, tr) := r in Ok (n2, rows2, gate1 order (run_y tr y s)).
Proof.
  revert n rows s. induction fuel as [|k IH]; intros n rows s; destruct rows as [|[[m' n'] a] rest]; try reflexivity.
  - cbn [peval_y cy]. destruct (Z.eqb m' m); reflexivity.
  - cbn [peval_y cy]. destruct (Z.eqb m' m); [|reflexivity].
    change (gate1 order s) with (Some (a0 s), Some (if diff1 order then a1 s else 0), Some (if diff2 order then a2 s else 0)).
    cbv zeta. destruct (Z.ltb (n - 1) (- LARGE)); [reflexivity|].
    set (hit := Z.eqb n n').
    match goal with |- peval_y _ _ _ _ _ _ ?t = _ => replace t with (gate1 order (hs (if hit then Some a else None) y s)) end.
    + rewrite IH. destruct (cy k m (n - 1) _) as [[[n2 rows2] tr]|]; [|reflexivity]. cbn [bind]. reflexivity.
    + unfold gate1, hs. cbn [a0 a1 a2]. destruct (diff_cases order) as [[-> ->]|[[-> ->]|[-> ->]]]; destruct hit; reflexivity.
Qed.

Lemma hs_jet o : forall U F, jet1_on U F -> jet1_on U (fun y => hs o y (F y)).
Proof.
  intros U F HF. destruct o as [a|].
  - apply (jet1_ext U (fun y => j1add (j1const a) (j1mul (j1var y) (F y)))).
    + intro y. unfold j1add, j1mul, j1const, j1var, hs. cbn [a0 a1 a2]. f_equal; ring.
    + apply jet1_add; [apply jet1_const|]. apply jet1_mul; [apply jet1_var|exact HF].
  - apply (jet1_ext U (fun y => j1mul (j1var y) (F y))).
    + intro y. unfold j1mul, j1var, hs. cbn [a0 a1 a2]. f_equal; ring.
    + apply jet1_mul; [apply jet1_var|exact HF].
Qed.
Lemma run_y_jet tr : forall U F, jet1_on U F -> jet1_on U (fun y => run_y tr y (F y)).
Proof.
  induction tr as [|o tr IH]; intros U F HF; [exact HF|]. cbn [run_y fold_left].
  apply (IH U (fun y => hs o y (F y))). now apply hs_jet.
Qed.

Definition head_not (m : Z) (rows : list term) : Prop :=
  match rows with [] => True | t :: _ => tm t <> m end.
Lemma cy_spec fuel : forall m n rows n2 rows2 tr, cy fuel m n rows = Ok (n2, rows2, tr) ->
  exists pre, rows = pre ++ rows2 /\ head_not m rows2 /\ (n2 + Z.of_nat (List.length tr) = n)%Z /\
    (tr <> [] -> (-100 <= n2)%Z) /\ (pre = [] -> tr = []) /\ (pre <> [] -> exists t, In t pre /\ tn t = (n2 + 1)%Z) /\
    (forall t, In t pre -> tm t = m /\ (n2 < tn t <= n)%Z) /\ descending (fun b a => (tn b < tn a)%Z) pre /\
    forall y s, a0 (run_y tr y s) = a0 s * y ^ List.length tr + total (fun t => ta t * y ^ Z.to_nat (tn t - (n2 + 1))) pre.
Proof.
  induction fuel as [|k IH]; intros m n rows n2 rows2 tr H; destruct rows as [|[[m' n'] a] rest]; cbn [cy] in H.
  - injection H as <- <- <-. exists []. cbn. repeat split; try tauto; try lia; try contradiction. intros; ring.
  - destruct (Z.eqb_spec m' m) as [->|Hm]; [discriminate|]. injection H as <- <- <-. exists []. cbn.
    repeat split; try tauto; try lia; try contradiction. intros; ring.
  - injection H as <- <- <-. exists []. cbn. repeat split; try tauto; try lia; try contradiction. intros; ring.
  - destruct (Z.eqb_spec m' m) as [->|Hm].
    2:{ injection H as <- <- <-. exists []. cbn. repeat split; try tauto; try lia; try contradiction. intros; ring. }
    destruct (Z.ltb_spec (n - 1) (- LARGE)) as [|Hl]; [discriminate|]. unfold LARGE in Hl.
    destruct (cy k m (n - 1) _) as [[[n3 rows3] tr3]|] eqn:C; [|discriminate]. cbn [bind] in H. injection H as <- <- <-.
    destruct (IH _ _ _ _ _ _ C) as (pre & E & Hd & Hn & Hlo & He & Hl1 & Hb & Hdesc & V).
    destruct (Z.eqb_spec n n') as [<-|Hne].
    + exists ((m, n, a) :: pre). rewrite E. split; [reflexivity|]. split; [exact Hd|]. cbn [List.length].
      split; [lia|]. split. { intros _. destruct tr3; [cbn in Hn; lia|apply Hlo; discriminate]. }
      split; [discriminate|]. split.
      { intros _. destruct pre as [|t pre'] eqn:Ep.
        - exists (m, n, a). split; [now left|]. rewrite (He eq_refl) in Hn. cbn in Hn. cbn. lia.
        - destruct Hl1 as (t' & T1 & T2); [discriminate|]. exists t'. split; [now right|exact T2]. }
      split. { intros t [<-|Ht]; [cbn; lia|]. destruct (Hb t Ht). split; [assumption|lia]. }
      split. { cbn [descending]. split; [|exact Hdesc]. intros b Hb2. destruct (Hb b Hb2). cbn. lia. }
      intros y s. change (run_y (Some a :: tr3) y s) with (run_y tr3 y (hs (Some a) y s)). rewrite V.
      cbn [hs a0 pow total fold_right ta tn fst snd]. fold (total (fun t : term => ta t * y ^ Z.to_nat (tn t - (n3 + 1))) pre).
      replace (Z.to_nat (n - (n3 + 1))) with (List.length tr3) by lia. ring.
    + assert (pre <> []) as Hp. { intros ->. cbn in E. rewrite <- E in Hd. cbn in Hd. congruence. }
      exists pre. split; [exact E|]. split; [exact Hd|]. cbn [List.length]. split; [lia|].
      split. { intros _. destruct tr3; [cbn in Hn; lia|apply Hlo; discriminate]. }
      split; [contradiction|]. split; [exact Hl1|].
      split. { intros t Ht. destruct (Hb t Ht). split; [assumption|lia]. }
      split; [exact Hdesc|].
      intros y s. change (run_y (None :: tr3) y s) with (run_y tr3 y (hs None y s)). rewrite V. cbn [hs a0 pow]. ring.
Qed.

Lemma cy_err fuel : forall m n rows e, cy fuel m n rows = Err e -> (0 < fuel)%nat -> (n + 102 <= Z.of_nat fuel)%Z -> e = EException.
Proof.
  induction fuel as [|k IH]; intros m n rows e H F1 F2; [lia|]. destruct rows as [|[[m' n'] a] rest]; cbn [cy] in H; [discriminate|].
  destruct (Z.eqb m' m); [|discriminate]. destruct (Z.ltb_spec (n - 1) (- LARGE)) as [|Hl]; [congruence|]. unfold LARGE in Hl.
  destruct (cy k m (n - 1) _) as [[[n3 rows3] tr3]|] eqn:C; [discriminate|]. cbn [bind] in H. injection H as <-.
  apply (IH _ _ _ _ C); lia.
Qed.
Lemma cy_ok fuel : forall m n rows, (n <= 100)%Z -> (0 < fuel)%nat -> (n + 102 <= Z.of_nat fuel)%Z ->
  descending term_lt rows -> (forall t, In t rows -> (tm t <= m)%Z /\ (-99 <= tn t)%Z) ->
  (forall t, In t rows -> tm t = m -> (tn t <= n)%Z) -> exists r, cy fuel m n rows = Ok r.
Proof.
  induction fuel as [|k IH]; intros m n rows Hn F1 F2 Hd Hb Hm; [lia|]. destruct rows as [|[[m' n'] a] rest]; cbn [cy]; [eauto|].
  destruct (Z.eqb_spec m' m) as [->|Hne]; [|eauto].
  assert (Hh : (n' <= n)%Z) by (apply (Hm (m, n', a)); [now left|reflexivity]).
  assert (Hlo : (-99 <= n')%Z) by (apply (Hb (m, n', a)); now left).
  destruct (Z.ltb_spec (n - 1) (- LARGE)) as [Hl|Hl]; unfold LARGE in Hl; [lia|].
  match goal with |- context [cy k ?u ?v ?w] => assert (exists r, cy k u v w = Ok r) as [[[n3 rows3] tr3] E] end.
  { cbn [descending] in Hd. destruct Hd as [D1 D2]. apply IH; try lia.
    - destruct (Z.eqb n n'); [exact D2|cbn [descending]; auto].
    - intros t Ht. apply Hb. destruct (Z.eqb n n'); [now right|exact Ht].
    - intros t Ht Et. destruct (Z.eqb_spec n n') as [<-|Hx].
      + destruct (D1 t Ht) as [Q|[_ Q]]; cbn in Q; lia.
      + destruct Ht as [<-|Ht]; [cbn; lia|]. destruct (D1 t Ht) as [Q|[_ Q]]; cbn in Q; lia. }
  rewrite E. cbn [bind]. eauto.
Qed.

(* ---- the outer loop ---- *)
Definition shift1 (n : Z) (y : R) (q : J1) : J1 := if Z.eqb n 0 then q else j1mul q (zp n y).
Definition add2 (x : R) (q : J1) (s : J2) : J2 :=
  mk2 (b0 s * x + a0 q) (bx s * x + b0 s) (by_ s * x + a1 q) (bxx s * x + 2 * bx s) (bxy s * x + by_ s) (byy s * x + a2 q).
Definition skip2 (x : R) (s : J2) : J2 :=
  mk2 (b0 s * x) (bx s * x + b0 s) (by_ s * x) (bxx s * x + 2 * bx s) (bxy s * x + by_ s) (byy s * x).
Definition ins := option (Z * list (option R)).
Definition xs (i : ins) (x y : R) (s : J2) : J2 :=
  match i with
  | Some (n, tr) => add2 x (shift1 n y (run_y tr y (j1const 0))) s
  | None => skip2 x s
  end.
Definition run_x (l : list ins) (x y : R) (s : J2) : J2 := fold_left (fun s i => xs i x y s) l s.
Definition ins_ok (y : R) (i : ins) : Prop := match i with Some (n, _) => zok n y | None => True end.

Fixpoint cx (fuel : nat) (m : Z) (rows : list term) : res (Z * list ins) :=
  match rows with
  | (m', n', _) :: _ =>
      match fuel with
      | O => Err EOutOfFuel
      | S k =>
          do r <- (if Z.eqb m' m then
                     if Z.ltb LARGE n' then Err EException
                     else do r <- cy passes m n' rows;
                          let '(n, rows, tr) := r in Ok (rows, Some ((n + 1)%Z, tr))
                   else Ok (rows, None));
          let (rows, i) := r in
          if Z.ltb (m - 1) (- LARGE) then Err EException
          else do r <- cx k (m - 1) rows; let (m2, l) := r in Ok (m2, i :: l)
      end
  | [] => Ok (m, [])
  end.

Lemma shift_y_gate order y n q : zok n y -> peval_shift_y order (Some y) n (gate1 order q) = gate1 order (shift1 n y q).
Proof.
  intro Hz. unfold peval_shift_y, shift1. destruct (Z.eqb_spec n 0) as [|H0]; [reflexivity|].
  rewrite (power_jet_ok y n Hz H0). unfold gate1, j1mul. cbn [a0 a1 a2]. flc.
  destruct (diff_cases order) as [[-> ->]|[[-> ->]|[-> ->]]]; cbv iota; flc; pairs.
Qed.
Lemma add_gate order x q s : peval_add order (Some x) (gate1 order q) (gate2 order s) = gate2 order (add2 x q s).
Proof.
  unfold peval_add, add2, gate1, gate2. cbn [a0 a1 a2 b0 bx by_ bxx bxy byy].
  destruct (diff_cases order) as [[-> ->]|[[-> ->]|[-> ->]]]; reflexivity.
Qed.
Lemma skip_gate order x s : peval_skip order (Some x) (gate2 order s) = gate2 order (skip2 x s).
Proof.
  unfold peval_skip, skip2, gate2. cbn [a0 a1 a2 b0 bx by_ bxx bxy byy].
  destruct (diff_cases order) as [[-> ->]|[[-> ->]|[-> ->]]]; reflexivity.
Qed.
Lemma peval_y_ctl fuel order y m : forall n rows s,
  match cy fuel m n rows with
  | Ok (n2, rows2, _) => exists j, peval_y fuel order y m n rows s = Ok (n2, rows2, j)
  | Err e => peval_y fuel order y m n rows s = Err e
  end.
Proof.
  induction fuel as [|k IH]; intros n rows s; destruct rows as [|[[m' n'] a] rest]; cbn [cy peval_y].
  - eauto.
  - destruct (Z.eqb m' m); eauto.
  - eauto.
  - destruct (Z.eqb m' m); [|eauto]. destruct s as [[q dq] ddq]. cbv zeta.
    destruct (Z.ltb (n - 1) (- LARGE)); [reflexivity|].
    match goal with |- context [peval_y k order y m _ _ ?t] => specialize (IH (n - 1)%Z (if (n =? n')%Z then rest else (m', n', a) :: rest) t) end.
    destruct (cy k m (n - 1) _) as [[[n3 rows3] tr3]|]; cbn [bind]; exact IH.
Qed.
Lemma peval_x_err fuel order x y : forall m rows s e, cx fuel m rows = Err e -> peval_x fuel order x y m rows s = Err e.
Proof.
  induction fuel as [|k IH]; intros m rows s e; destruct rows as [|[[m' n'] a] rest]; cbn [cx peval_x]; try discriminate; [congruence|].
  destruct (Z.eqb m' m).
  - destruct (Z.ltb LARGE n'); [cbn [bind]; congruence|].
    pose proof (peval_y_ctl passes order y m n' (((m', n', a) : term) :: rest) (num 0, num 0, num 0)) as P.
    destruct (cy passes m n' _) as [[[n2 rows2] tr]|e2].
    + destruct P as [j P]. rewrite P. cbn [bind]. destruct (Z.ltb (m - 1) (- LARGE)); [congruence|].
      destruct (cx k (m - 1) rows2) as [[m2 l]|e3] eqn:C; cbn [bind]; [discriminate|]. intro Q. injection Q as <-. apply IH. exact C.
    + rewrite P. cbn [bind]. congruence.
  - cbn [bind]. destruct (Z.ltb (m - 1) (- LARGE)); [congruence|].
    destruct (cx k (m - 1) _) as [[m2 l]|e3] eqn:C; cbn [bind]; [discriminate|]. intro Q. injection Q as <-. apply IH. exact C.
Qed.
Lemma gate2_zero_if order : gate2 order (j2const 0) = zero_jet.
Proof.
  unfold gate2, j2const, zero_jet. cbn [b0 bx by_ bxx bxy byy].
  destruct (diff_cases order) as [[-> ->]|[[-> ->]|[-> ->]]]; reflexivity.
Qed.
Lemma peval_x_run fuel order x y : forall m rows s m2 l, cx fuel m rows = Ok (m2, l) -> Forall (ins_ok y) l ->
  peval_x fuel order (Some x) (Some y) m rows (gate2 order s) = Ok (m2, gate2 order (run_x l x y s)).
Proof.
  induction fuel as [|k IH]; intros m rows s m2 l; destruct rows as [|[[m' n'] a] rest]; cbn [cx peval_x]; try discriminate.
  - intros Q _. injection Q as <- <-. reflexivity.
  - intros Q _. injection Q as <- <-. reflexivity.
  - destruct (Z.eqb m' m).
    + destruct (Z.ltb LARGE n'); [discriminate|]. rewrite <- (gate1_zero order), peval_y_run.
      destruct (cy passes m n' _) as [[[n2 rows2] tr]|e2]; cbn [bind]; [|discriminate].
      destruct (Z.ltb (m - 1) (- LARGE)); [discriminate|].
      destruct (cx k (m - 1) rows2) as [[m3 l3]|e3] eqn:C; cbn [bind]; [|discriminate]. intros Q F. injection Q as <- <-.
      inversion F as [|i l' F1 F2]; subst. cbn [ins_ok] in F1. rewrite shift_y_gate by exact F1. rewrite add_gate.
      rewrite (IH _ _ _ _ _ C F2). reflexivity.
    + cbn [bind]. destruct (Z.ltb (m - 1) (- LARGE)); [discriminate|].
      destruct (cx k (m - 1) _) as [[m3 l3]|e3] eqn:C; cbn [bind]; [|discriminate]. intros Q F. injection Q as <- <-.
      inversion F as [|i l' F1 F2]; subst. rewrite skip_gate, (IH _ _ _ _ _ C F2). reflexivity.
Qed.

Lemma add2_jet (U : R -> R -> Prop) (V : R -> Prop) q F : (forall x y, U x y -> V y) -> jet1_on V q -> jet2_on U F ->
  jet2_on U (fun x y => add2 x (q y) (F x y)).
Proof.
  intros HV Hq HF. apply (jet2_ext U (fun x y => j2add (j2y (q y)) (j2mul (j2x (j1var x)) (F x y)))).
  - intros x y. unfold j2add, j2mul, j2x, j2y, j1var, add2. cbn [a0 a1 a2 b0 bx by_ bxx bxy byy]. f_equal; ring.
  - apply jet2_add; [apply (jet2_y U V); auto|].
    apply jet2_mul; [apply (jet2_x U (fun _ => True)); [auto|apply jet1_var]|exact HF].
Qed.
Lemma skip2_jet (U : R -> R -> Prop) F : jet2_on U F -> jet2_on U (fun x y => skip2 x (F x y)).
Proof.
  intros HF. apply (jet2_ext U (fun x y => j2mul (j2x (j1var x)) (F x y))).
  - intros x y. unfold j2mul, j2x, j1var, skip2. cbn [a0 a1 a2 b0 bx by_ bxx bxy byy]. f_equal; ring.
  - apply jet2_mul; [apply (jet2_x U (fun _ => True)); [auto|apply jet1_var]|exact HF].
Qed.
Lemma shift1_jet n q : jet1_on (fun _ => True) q -> jet1_on (zok n) (fun y => shift1 n y (q y)).
Proof.
  intro Hq. unfold shift1. destruct (Z.eqb n 0); [apply (jet1_sub (fun _ => True)); auto|].
  apply jet1_mul; [apply (jet1_sub (fun _ => True)); auto|apply zp_jet].
Qed.
Lemma run_x_jet (U : R -> R -> Prop) l : (forall x y, U x y -> Forall (ins_ok y) l) ->
  forall F, jet2_on U F -> jet2_on U (fun x y => run_x l x y (F x y)).
Proof.
  induction l as [|i l IH]; intros HU F HF; [exact HF|]. cbn [run_x fold_left].
  assert (HU2 : forall x y, U x y -> Forall (ins_ok y) l) by (intros x y H; specialize (HU x y H); now inversion HU).
  apply (IH HU2 (fun x y => xs i x y (F x y))). destruct i as [[n tr]|]; cbn [xs].
  - apply (add2_jet U (zok n) (fun y => shift1 n y (run_y tr y (j1const 0)))); [|apply shift1_jet|exact HF].
    + intros x y H. specialize (HU x y H). inversion HU; assumption.
    + apply (run_y_jet tr (fun _ => True) (fun _ => j1const 0)). apply jet1_const.
  - now apply skip2_jet.
Qed.

Lemma total_app_ {A} (f : A -> R) l1 l2 : total f (l1 ++ l2) = total f l1 + total f l2.
Proof. apply total_app. Qed.
Lemma shift1_value n y q : a0 (shift1 n y q) = a0 q * powerRZ y n.
Proof. unfold shift1. destruct (Z.eqb_spec n 0) as [->|]; cbn; ring. Qed.
Lemma descending_lex (l1 l2 : list term) m : descending (fun b a => (tn b < tn a)%Z) l1 -> descending term_lt l2 ->
  (forall t, In t l1 -> tm t = m) -> (forall t, In t l2 -> (tm t < m)%Z) -> descending term_lt (l1 ++ l2).
Proof.
  intros D1 D2 H1 H2. induction l1 as [|a l1 IH]; [exact D2|]. cbn [app descending] in *. destruct D1 as [A1 A2].
  split; [|apply IH; auto; intros; apply H1; now right].
  intros b Hb. apply in_app_or in Hb. unfold term_lt. rewrite (H1 a (or_introl eq_refl)). destruct Hb as [Hb|Hb].
  - right. split; [apply H1; now right|apply A1; exact Hb].
  - left. apply H2. exact Hb.
Qed.

Lemma cx_spec fuel : forall m rows m2 l, cx fuel m rows = Ok (m2, l) ->
  (m2 + Z.of_nat (List.length l) = m)%Z /\ (rows = [] -> l = []) /\ (l <> [] -> (-100 <= m2)%Z) /\
  (rows <> [] -> exists t, In t rows /\ tm t = (m2 + 1)%Z) /\
  (forall t, In t rows -> (m2 < tm t <= m)%Z /\ (-99 <= tn t <= 100)%Z) /\ descending term_lt rows /\
  (forall y, can_raise tn rows y -> Forall (ins_ok y) l) /\
  forall x y s, can_raise tn rows y -> b0 (run_x l x y s) = b0 s * x ^ List.length l +
    total (fun t => ta t * x ^ Z.to_nat (tm t - (m2 + 1)) * powerRZ y (tn t)) rows.
Proof.
  induction fuel as [|k IH]; intros m rows m2 l; destruct rows as [|[[m' n'] a] rest]; cbn [cx]; try discriminate.
  - intro Q. injection Q as <- <-. split; [cbn; lia|]. split; [auto|]. split; [congruence|]. split; [congruence|].
    split; [intros ? []|]. split; [exact I|]. split; [constructor|]. intros; cbn; ring.
  - intro Q. injection Q as <- <-. split; [cbn; lia|]. split; [auto|]. split; [congruence|]. split; [congruence|].
    split; [intros ? []|]. split; [exact I|]. split; [constructor|]. intros; cbn; ring.
  - remember (((m', n', a) : term) :: rest) as rows eqn:Er. destruct (Z.eqb_spec m' m) as [->|Hm].
    + destruct (Z.ltb_spec LARGE n') as [|Hn]; [discriminate|]. unfold LARGE in Hn.
      destruct (cy passes m n' rows) as [[[n2 rows2] tr]|e2] eqn:Cy; cbn [bind]; [|discriminate].
      destruct (Z.ltb_spec (m - 1) (- LARGE)) as [|Hl]; [discriminate|]. unfold LARGE in Hl.
      destruct (cx k (m - 1) rows2) as [[m3 l3]|e3] eqn:C; cbn [bind]; [|discriminate]. intro Q. injection Q as <- <-.
      destruct (cy_spec _ _ _ _ _ _ _ Cy) as (pre & E & Hd & Hlen & Hlo & He & Hlast & Hb & Hdesc & V).
      destruct (IH _ _ _ _ C) as (I1 & I2 & I3 & I4 & I5 & I6 & I7 & I8).
      assert (Hp : pre <> []). { intros ->. cbn in E. rewrite <- E, Er in Hd. cbn in Hd. congruence. }
      assert (Htr : tr <> []). { intros ->. destruct (Hlast Hp) as (t & T1 & T2). destruct (Hb t T1). cbn in Hlen. lia. }
      destruct (Hlast Hp) as (tl & TL1 & TL2).
      assert (CR : forall y, can_raise tn rows y -> zok (n2 + 1) y /\ can_raise tn rows2 y).
      { intros y [H|H]; [split; now left|]. split; right.
        - rewrite <- TL2. apply H. rewrite E. apply in_or_app. now left.
        - intros t Ht. apply H. rewrite E. apply in_or_app. now right. }
      split; [cbn [List.length]; lia|]. split; [rewrite Er; intro Q0; discriminate Q0|]. split.
      { intros _. destruct l3; [cbn in I1; lia|apply I3; discriminate]. }
      split.
      { intros _. destruct rows2 as [|t2 r2] eqn:Er2.
        - rewrite (I2 eq_refl) in I1. cbn in I1. exists tl. split; [rewrite E; apply in_or_app; now left|].
          destruct (Hb tl TL1). lia.
        - destruct I4 as (t & T1 & T2); [discriminate|]. exists t. split; [rewrite E; apply in_or_app; now right|exact T2]. }
      split.
      { intros t Ht. rewrite E in Ht. apply in_app_or in Ht. destruct Ht as [Ht|Ht].
        - destruct (Hb t Ht) as [T1 T2]. specialize (Hlo Htr). lia.
        - destruct (I5 t Ht). lia. }
      split. { rewrite E. apply (descending_lex _ _ m); auto; [intros t Ht; apply Hb; exact Ht|]. intros t Ht. destruct (I5 t Ht). lia. }
      split. { intros y Hy. destruct (CR y Hy) as [Z1 Z2]. constructor; [exact Z1|apply I7; exact Z2]. }
      intros x y s Hy. destruct (CR y Hy) as [Z1 Z2].
      match goal with |- context [run_x (?i :: l3) x y s] => change (run_x (i :: l3) x y s) with (run_x l3 x y (xs i x y s)) end.
      rewrite (I8 x y _ Z2). cbn [xs add2 b0 List.length pow].
      rewrite shift1_value, V. cbn [j1const a0]. rewrite E, total_app_.
      assert (S1 : total (fun t : term => ta t * x ^ Z.to_nat (tm t - (m3 + 1)) * powerRZ y (tn t)) pre =
              x ^ List.length l3 * (total (fun t => ta t * y ^ Z.to_nat (tn t - (n2 + 1))) pre * powerRZ y (n2 + 1))).
      { rewrite (total_ext _ (fun t => x ^ List.length l3 * (powerRZ y (n2 + 1) * (ta t * y ^ Z.to_nat (tn t - (n2 + 1)))))).
        - rewrite !total_scal. ring.
        - intros t Ht. destruct (Hb t Ht) as [T1 T2]. rewrite T1.
          replace (Z.to_nat (m - (m3 + 1))) with (List.length l3) by lia.
          rewrite <- (pz_shift y (n2 + 1) (tn t) Z1) by lia. ring. }
      rewrite S1. ring.
    + destruct (Z.ltb_spec (m - 1) (- LARGE)) as [|Hl]; [discriminate|]. unfold LARGE in Hl. cbn [bind].
      destruct (cx k (m - 1) rows) as [[m3 l3]|e3] eqn:C; cbn [bind]; [|discriminate]. intro Q. injection Q as <- <-.
      destruct (IH _ _ _ _ C) as (I1 & I2 & I3 & I4 & I5 & I6 & I7 & I8).
      split; [cbn [List.length]; lia|]. split; [rewrite Er; intro Q0; discriminate Q0|]. split.
      { intros _. destruct l3; [cbn in I1; lia|apply I3; discriminate]. }
      split; [exact I4|]. split. { intros t Ht. destruct (I5 t Ht). lia. }
      split; [exact I6|]. split. { intros y Hy. constructor; [exact I|auto]. }
      intros x y s Hy. change (run_x (None :: l3) x y s) with (run_x l3 x y (skip2 x s)). rewrite (I8 x y _ Hy).
      cbn [skip2 b0 List.length pow]. ring.
Qed.

Lemma cx_err fuel : forall m rows e, cx fuel m rows = Err e -> (0 < fuel)%nat -> (m + 102 <= Z.of_nat fuel)%Z -> e = EException.
Proof.
  induction fuel as [|k IH]; intros m rows e H F1 F2; [lia|]. destruct rows as [|[[m' n'] a] rest]; cbn [cx] in H; [discriminate|].
  remember (((m', n', a) : term) :: rest) as rows eqn:Er.
  assert (N : forall rows2, (if (m - 1 <? - LARGE)%Z then Err EException
     else do r <- cx k (m - 1) rows2; let (m2, l) := r in Ok (m2, @None (Z * list (option R)) :: l)) = Err e -> e = EException).
  { intros rows2. destruct (Z.ltb_spec (m - 1) (- LARGE)) as [|Hl]; [congruence|]. unfold LARGE in Hl.
    destruct (cx k (m - 1) rows2) as [[m3 l3]|e3] eqn:C; cbn [bind]; [discriminate|]. intro Q. injection Q as <-. apply (IH _ _ _ C); lia. }
  destruct (Z.eqb m' m).
  - destruct (Z.ltb_spec LARGE n') as [|Hn]; [cbn [bind] in H; congruence|]. unfold LARGE in Hn.
    destruct (cy passes m n' rows) as [[[n2 rows2] tr]|e2] eqn:Cy; cbn [bind] in H.
    + apply (N rows2). destruct (Z.ltb (m - 1) (- LARGE)); [exact H|].
      destruct (cx k (m - 1) rows2) as [[m3 l3]|e3]; cbn [bind] in *; [discriminate|exact H].
    + injection H as <-. apply (cy_err _ _ _ _ _ Cy); unfold passes; lia.
  - cbn [bind] in H. apply (N rows). exact H.
Qed.
Lemma descending_app_inv (l1 l2 : list term) : descending term_lt (l1 ++ l2) -> descending term_lt l2 /\
  forall t b, In t l1 -> In b l2 -> term_lt b t.
Proof.
  induction l1 as [|a l1 IH]; cbn [app descending]; [intro H; split; [exact H|intros t b []]|].
  intros [H1 H2]. destruct (IH H2) as [I1 I2]. split; [exact I1|]. intros t b [<-|Ht] Hb; [|auto].
  apply H1. apply in_or_app. now right.
Qed.
Lemma cx_ok fuel : forall m rows, (m <= 100)%Z -> (0 < fuel)%nat -> (m + 102 <= Z.of_nat fuel)%Z -> descending term_lt rows ->
  (forall t, In t rows -> (-99 <= tm t <= m)%Z /\ (-99 <= tn t <= 100)%Z) -> exists r, cx fuel m rows = Ok r.
Proof.
  induction fuel as [|k IH]; intros m rows Hm F1 F2 Hd Hb; [lia|]. destruct rows as [|[[m' n'] a] rest]; cbn [cx]; [eauto|].
  remember (((m', n', a) : term) :: rest) as rows eqn:Er.
  assert (Hh : (-99 <= m' <= m)%Z /\ (-99 <= n' <= 100)%Z) by (apply (Hb (m', n', a)); rewrite Er; now left).
  assert (N : forall rows2 i, descending term_lt rows2 -> (forall t, In t rows2 -> (-99 <= tm t <= m - 1)%Z /\ (-99 <= tn t <= 100)%Z) ->
     exists r, (if (m - 1 <? - LARGE)%Z then Err EException
     else do r <- cx k (m - 1) rows2; let (m2, l) := r in Ok (m2, (i : ins) :: l)) = Ok r).
  { intros rows2 i D2 B2. destruct (Z.ltb_spec (m - 1) (- LARGE)) as [Hl|Hl]; unfold LARGE in Hl; [lia|].
    destruct (IH (m - 1)%Z rows2) as [[m2 l] E]; try lia; auto. rewrite E. cbn [bind]. eauto. }
  destruct (Z.eqb_spec m' m) as [->|Hne].
  - destruct (Z.ltb_spec LARGE n') as [Hn|Hn]; unfold LARGE in Hn; [lia|].
    destruct (cy_ok passes m n' rows) as [[[n2 rows2] tr] Cy]; unfold passes; try lia; auto.
    { intros t Ht. destruct (Hb t Ht). lia. }
    { intros t Ht Et. rewrite Er in Ht, Hd. cbn [descending] in Hd. destruct Ht as [<-|Ht]; [cbn; lia|].
      destruct Hd as [D1 _]. destruct (D1 t Ht) as [Q|[_ Q]]; cbn in Q; lia. }
    fold passes. rewrite Cy. cbn [bind]. destruct (cy_spec _ _ _ _ _ _ _ Cy) as (pre & E & Hdn & _ & _ & _ & _ & Hbp & _ & _).
    rewrite E in Hd. destruct (descending_app_inv _ _ Hd) as [D2 D3]. apply N; [exact D2|].
    intros t Ht. assert (In t rows) as Ht' by (rewrite E; apply in_or_app; now right). destruct (Hb t Ht') as [B1 B2].
    split; [|exact B2]. split; [lia|].
    assert (tm t <> m); [|lia]. destruct rows2 as [|r2 rr]; [destruct Ht|]. cbn [head_not] in Hdn.
    destruct Ht as [<-|Ht]; [exact Hdn|]. cbn [descending] in D2. destruct D2 as [D2 _].
    assert (In r2 rows) as Hr by (rewrite E; apply in_or_app; right; now left). destruct (Hb r2 Hr).
    destruct (D2 t Ht) as [Q|[Q _]]; lia.
  - cbn [bind]. apply N; [exact Hd|]. intros t Ht. destruct (Hb t Ht) as [B1 B2]. split; [|exact B2]. split; [lia|].
    rewrite Er in Ht, Hd. cbn [descending] in Hd. destruct Ht as [<-|Ht]; [cbn; lia|]. destruct Hd as [D1 _].
    destruct (D1 t Ht) as [Q|[Q _]]; cbn in Q; lia.
Qed.

(* ---- the evaluator ---- *)
Definition shift2 (m : Z) (x : R) (s : J2) : J2 := if Z.eqb m 0 then s else j2mul s (j2x (zp m x)).
Lemma shift_x_gate order x m s : zok m x -> peval_shift_x order (Some x) m (gate2 order s) = gate2 order (shift2 m x s).
Proof.
  intro Hz. unfold peval_shift_x, shift2. destruct (Z.eqb_spec m 0) as [|H0]; [reflexivity|].
  rewrite (power_jet_ok x m Hz H0). unfold gate2, j2mul, j2x. cbn [a0 a1 a2 b0 bx by_ bxx bxy byy]. flc.
  destruct (diff_cases order) as [[-> ->]|[[-> ->]|[-> ->]]]; cbv iota; flc; pairs.
Qed.

Lemma ascending_rev A : ascending A <-> descending term_lt (rev A).
Proof.
  assert (G : forall l a, descending term_lt (l ++ [a]) <-> descending term_lt l /\ forall t, In t l -> term_lt a t).
  { induction l as [|b l IH]; intro a; cbn [app descending]; [split; intros _; split; auto; intros ? []|]. rewrite IH. split.
    - intros [H1 [H2 H3]]. split; [split; [intros t Ht; apply H1; apply in_or_app; now left|exact H2]|].
      intros t [<-|Ht]; [apply H1; apply in_or_app; right; now left|auto].
    - intros [[H1 H2] H3]. split; [|split; [exact H2|intros t Ht; apply H3; now right]].
      intros t Ht. apply in_app_or in Ht. destruct Ht as [Ht|[<-|[]]]; [auto|]. apply H3. now left. }
  induction A as [|a A IH]; [cbn; tauto|]. cbn [ascending rev]. rewrite G, IH. split; intros [H1 H2]; split; auto.
  - intros t Ht. apply H1. now apply in_rev.
  - intros t Ht. apply H2. now apply in_rev in Ht.
Qed.

Theorem peval_accepts x y A order : (exists r, peval x y A order = Ok r) <-> usable A.
Proof.
  unfold peval, usable. split.
  - intros [r H]. assert (forall t, In t A <-> In t (rev A)) as HI by (intro t; apply in_rev).
    destruct (rev A) as [|[[m n] a] rest] eqn:Er; [discriminate|].
    destruct (Z.ltb_spec LARGE m) as [|Hm]; [discriminate|]. unfold LARGE in Hm.
    destruct (cx passes m ((m, n, a) :: rest)) as [[m2 l]|e] eqn:C; [|rewrite (peval_x_err _ _ _ _ _ _ _ _ C) in H; discriminate].
    destruct (cx_spec _ _ _ _ _ C) as (I1 & I2 & I3 & I4 & I5 & I6 & _ & _).
    split. { intros ->. discriminate. }
    split. { apply ascending_rev. rewrite Er. exact I6. }
    intros t Ht. apply HI in Ht. destruct (I5 t Ht) as [J1 J2]. split; [|exact J2].
    assert (l <> []). { intros ->. destruct I4 as (t' & T1 & T2); [discriminate|]. destruct (I5 t' T1). cbn in I1. lia. }
    specialize (I3 H0). lia.
  - intros (Hn & Ha & Hb). apply ascending_rev in Ha. assert (forall t, In t (rev A) -> In t A) as HI by (intros t Ht; now apply in_rev).
    destruct (rev A) as [|[[m n] a] rest] eqn:Er.
    + destruct A; [congruence|]. apply (f_equal (@List.length term)) in Er. rewrite rev_length in Er. discriminate.
    + destruct (Hb (m, n, a)) as [B1 B2]; [apply HI; now left|]. cbn in B1, B2.
      destruct (Z.ltb_spec LARGE m) as [Hm|Hm]; unfold LARGE in Hm; [lia|].
      destruct (cx_ok passes m ((m, n, a) :: rest)) as [[m2 l] C]; unfold passes; try lia; auto.
      { intros t Ht. destruct (Hb t (HI t Ht)) as [C1 C2]. split; [|exact C2]. split; [lia|]. cbn [descending] in Ha.
        destruct Ht as [<-|Ht]; [cbn; lia|]. destruct Ha as [A1 _]. destruct (A1 t Ht) as [Q|[Q _]]; cbn in Q; lia. }
      fold passes.
      assert (G : forall fuel m rows s r, cx fuel m rows = Ok r -> exists m' s', peval_x fuel order x y m rows s = Ok (m', s')).
      { clear. induction fuel as [|k IH]; intros m rows s r; destruct rows as [|[[m' n'] a] rest]; cbn [cx peval_x]; try discriminate; eauto.
        destruct (Z.eqb m' m).
        - destruct (Z.ltb LARGE n'); [discriminate|].
          pose proof (peval_y_ctl passes order y m n' (((m', n', a) : term) :: rest) (num 0, num 0, num 0)) as P.
          destruct (cy passes m n' _) as [[[n2 rows2] tr]|e2]; cbn [bind]; [|discriminate]. destruct P as [j P]. rewrite P. cbn [bind].
          destruct (Z.ltb (m - 1) (- LARGE)); [discriminate|].
          destruct (cx k (m - 1) rows2) as [[m3 l3]|e3] eqn:C; cbn [bind]; [|discriminate]. intros _. eapply IH. exact C.
        - cbn [bind]. destruct (Z.ltb (m - 1) (- LARGE)); [discriminate|].
          destruct (cx k (m - 1) _) as [[m3 l3]|e3] eqn:C; cbn [bind]; [|discriminate]. intros _. eapply IH. exact C. }
      destruct (G _ _ _ zero_jet _ C) as (m' & s' & E). rewrite E. cbn [bind]. eauto.
Qed.
Theorem peval_fails x y A order e : peval x y A order = Err e -> (e = EIndexError /\ A = []) \/ e = EException.
Proof.
  unfold peval. destruct (rev A) as [|[[m n] a] rest] eqn:Er.
  - intro Q. injection Q as <-. left. split; [reflexivity|]. rewrite <- (rev_involutive A), Er. reflexivity.
  - destruct (Z.ltb_spec LARGE m) as [|Hm]; [intro Q; right; congruence|]. unfold LARGE in Hm.
    destruct (cx passes m ((m, n, a) :: rest)) as [[m2 l]|e2] eqn:C.
    + intro H. right. exfalso. assert (exists r, peval x y A order = Ok r) as [r R].
      { apply peval_accepts. destruct (cx_spec _ _ _ _ _ C) as (I1 & I2 & I3 & I4 & I5 & I6 & _ & _).
        split; [intros ->; discriminate|]. split; [apply ascending_rev; rewrite Er; exact I6|].
        intros t Ht. apply in_rev in Ht. rewrite Er in Ht. destruct (I5 t Ht) as [J1 J2]. split; [|exact J2].
        assert (l <> []). { intros ->. destruct I4 as (t' & T1 & T2); [discriminate|]. destruct (I5 t' T1). cbn in I1. lia. }
        specialize (I3 H0). lia. }
      unfold peval in R. rewrite Er in R. destruct (Z.ltb_spec LARGE m) as [Q|Q]; unfold LARGE in Q; [lia|]. congruence.
    + rewrite (peval_x_err _ _ _ _ _ _ _ _ C). cbn [bind]. intro Q. injection Q as <-. right.
      apply (cx_err _ _ _ _ C); unfold passes; lia.
Qed.

(* on the arguments that can be raised to the exponents, the evaluator is one jet *)
Definition dom (A : list term) (x y : R) : Prop := can_raise tm A x /\ can_raise tn A y.
Theorem peval_jet A : usable A -> exists F, jet2_on (dom A) F /\ (forall x y, dom A x y -> b0 (F x y) = poly A x y) /\
  forall order x y, dom A x y -> peval (Some x) (Some y) A order = Ok (gate2 order (F x y)).
Proof.
  intro HU. destruct (proj2 (peval_accepts (Some 1) (Some 1) A 0) HU) as [r0 H0]. unfold peval in *.
  assert (HI : forall t, In t A <-> In t (rev A)) by (intro t; apply in_rev).
  destruct (rev A) as [|[[m n] a] rest] eqn:Er; [discriminate|].
  destruct (Z.ltb LARGE m); [discriminate|].
  destruct (cx passes m ((m, n, a) :: rest)) as [[m2 l]|e2] eqn:C.
  2:{ rewrite (peval_x_err _ _ _ _ _ _ _ _ C) in H0. discriminate. }
  destruct (cx_spec _ _ _ _ _ C) as (I1 & I2 & I3 & I4 & I5 & I6 & I7 & I8).
  assert (Y : forall y, can_raise tn A y -> can_raise tn ((m, n, a) :: rest) y).
  { intros y [H|H]; [now left|right]. intros t Ht. apply H. apply HI. exact Ht. }
  assert (X : forall x, can_raise tm A x -> zok (m2 + 1) x).
  { intros x [H|H]; [now left|right]. destruct I4 as (t & T1 & T2); [discriminate|]. rewrite <- T2. apply H. apply HI. exact T1. }
  exists (fun x y => shift2 (m2 + 1) x (run_x l x y (j2const 0))). split; [|split].
  - assert (J : jet2_on (dom A) (fun x y => run_x l x y (j2const 0))).
    { apply (run_x_jet (dom A) l); [intros x y [_ H]; apply I7; auto|]. intros x y _. cbn. repeat split; apply D_const. }
    unfold shift2. destruct (Z.eqb (m2 + 1) 0); [exact J|].
    apply jet2_mul; [exact J|]. apply (jet2_x (dom A) (zok (m2 + 1))); [intros x y [H _]; auto|apply zp_jet].
  - intros x y [Hx Hy].
    assert (E : b0 (shift2 (m2 + 1) x (run_x l x y (j2const 0))) = b0 (run_x l x y (j2const 0)) * powerRZ x (m2 + 1)).
    { unfold shift2. destruct (Z.eqb_spec (m2 + 1) 0) as [Q|]; [rewrite Q; cbn; ring|]. cbn. ring. }
    rewrite E, I8 by auto. cbn [j2const b0]. rewrite Rmult_0_l, Rplus_0_l. unfold poly.
    assert (P : total (fun t : term => ta t * powerRZ x (tm t) * powerRZ y (tn t)) A =
                total (fun t : term => ta t * powerRZ x (tm t) * powerRZ y (tn t)) (((m, n, a) : term) :: rest)).
    { rewrite <- Er. clear. induction A as [|t A IH]; [reflexivity|]. cbn [rev]. rewrite total_app_, <- IH. unfold total. cbn [fold_right]. ring. }
    rewrite P, Rmult_comm, <- total_scal. apply total_ext. intros t Ht. destruct (I5 t Ht) as [J1 _].
    rewrite <- (pz_shift x (m2 + 1) (tm t)) by (auto; lia). ring.
  - intros order x y [Hx Hy]. rewrite <- (gate2_zero_if order). rewrite (peval_x_run _ _ _ _ _ _ _ _ _ C) by auto.
    cbn [bind]. rewrite shift_x_gate by auto. reflexivity.
Qed.
Lemma dom_open A : axis_open (dom A).
Proof.
  assert (G : forall e x, can_raise e A x -> exists d, 0 < d /\ forall u, Rabs (u - x) < d -> can_raise e A u).
  { intros e x [H|H].
    - exists (Rabs x). split; [now apply Rabs_pos_lt|]. intros u Hu. left. intros ->. rewrite Rminus_0_l, Rabs_Ropp in Hu. lra.
    - exists 1. split; [lra|]. intros u _. now right. }
  intros x y [Hx Hy]. destruct (G _ _ Hx) as (d1 & P1 & Q1). destruct (G _ _ Hy) as (d2 & P2 & Q2).
  exists (Rmin d1 d2). split; [now apply Rmin_pos|]. split.
  - intros u Hu. split; [|exact Hy]. apply Q1. eapply Rlt_le_trans; [exact Hu|apply Rmin_l].
  - intros u Hu. split; [exact Hx|]. apply Q2. eapply Rlt_le_trans; [exact Hu|apply Rmin_r].
Qed.
Lemma gate2_exact (U : R -> R -> Prop) F v order x y : axis_open U -> U x y -> jet2_on U F -> (forall u w, U u w -> b0 (F u w) = v u w) ->
  exact2 order v x y (gate2 order (F x y)).
Proof.
  intros HO Hu HF Hv. destruct (jet2_partials U F v x y HO Hu HF Hv) as [P1 P2].
  unfold exact2, gate2. fold (diff1 order). fold (diff2 order). do 6 eexists. split; [reflexivity|]. split; [now apply Hv|].
  destruct (diff1 order), (diff2 order); repeat split; try exact P1; try exact P2; first [apply P1 | apply P2].
Qed.
Theorem peval_exact A order x y r : can_raise tm A x -> can_raise tn A y ->
  peval (Some x) (Some y) A order = Ok r -> exact2 order (poly A) x y r.
Proof.
  intros Hx Hy H. assert (HU : usable A) by (apply (peval_accepts (Some x) (Some y) A order); eauto).
  destruct (peval_jet A HU) as (F & J & V & P). rewrite (P order x y (conj Hx Hy)) in H. injection H as <-.
  apply (gate2_exact (dom A)); auto using dom_open. split; assumption.
Qed.

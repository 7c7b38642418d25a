(* Proofs about the inner routines of the ideal gas classes. *)
From Coq Require Import Reals List String Lia Lra Arith.
From Coquelicot Require Import Coquelicot.
From Verif Require Import Base Model_Num Model_Igas Spec_Units Proof_Units Spec_Igas.
Import ListNotations.
Local Open Scope R_scope.

(* ---- intervals ---- *)
Lemma increasing_nth l : increasing l -> forall i j, (i < j)%nat -> (j < List.length l)%nat ->
  nth i l 0 < nth j l 0.
Proof.
  induction l as [|a l IH]; cbn [List.length]; intros H i j Hij Hj; [lia|].
  destruct l as [|b l].
  - cbn in Hj. lia.
  - destruct H as [Hab H].
    destruct j as [|j]; [lia|].
    destruct i as [|i].
    + destruct j as [|j]; [exact Hab|].
      change (nth 0 (a :: b :: l) 0) with a.
      change (nth (S (S j)) (a :: b :: l) 0) with (nth (S j) (b :: l) 0).
      apply Rlt_trans with b; [exact Hab|].
      apply (IH H 0%nat (S j)); cbn [List.length] in *; lia.
    + apply (IH H i j); cbn [List.length] in *; lia.
Qed.

Lemma increasing_le l : increasing l -> forall i j, (i <= j)%nat -> (j < List.length l)%nat ->
  nth i l 0 <= nth j l 0.
Proof.
  intros H i j Hij Hj. destruct (Nat.eq_dec i j) as [->|]; [lra|].
  left. apply increasing_nth; [exact H|lia|exact Hj].
Qed.

Lemma crange_spec Tlim x i : (S i < List.length Tlim)%nat -> (2 <= List.length Tlim)%nat ->
  increasing Tlim -> (crange Tlim (Some x) i = true <-> in_interval Tlim i x).
Proof.
  intros Hi H2 Hinc. unfold crange, in_interval, fle, flt.
  pose proof (increasing_nth _ Hinc i (S i) ltac:(lia) Hi) as Hlt.
  destruct (Nat.eqb_spec i (List.length Tlim - 2)) as [He|He];
    destruct (Rle_dec (nth i Tlim 0) x); cbn [andb].
  - destruct (Rle_dec x (nth (S i) Tlim 0)) as [Hle|]; split; intro H; try reflexivity; try discriminate.
    + repeat split; auto. destruct Hle as [|Hle]; [now left|]. right. split; [lia|exact Hle].
    + destruct H as (_ & _ & [H|[_ H]]); lra.
  - split; [discriminate|]. intros (_ & H & _). lra.
  - destruct (Rlt_dec x (nth (S i) Tlim 0)) as [Hle|]; split; intro H; try reflexivity; try discriminate.
    + repeat split; auto.
    + destruct H as (_ & _ & [H|[H' _]]); [lra|lia].
  - split; [discriminate|]. intros (_ & H & _). lra.
Qed.

Lemma interval_exists Tlim x : good_limits Tlim -> nth 0 Tlim 0 <= x <= last Tlim 0 ->
  exists i, in_interval Tlim i x.
Proof.
  intros [Hinc H2] [Hlo Hhi].
  assert (Hlast : last Tlim 0 = nth (List.length Tlim - 1) Tlim 0).
  { clear -H2. induction Tlim as [|a l IH]; [cbn in H2; lia|].
    destruct l as [|b l]; [reflexivity|].
    destruct l as [|c l]; [reflexivity|].
    change (last (a :: b :: c :: l) 0) with (last (b :: c :: l) 0).
    rewrite IH by (cbn; lia). cbn [List.length]. 
    replace (S (S (S (List.length l))) - 1)%nat with (S (S (S (List.length l)) - 1))%nat by lia.
    reflexivity. }
  rewrite Hlast in Hhi.
  assert (forall n, (S n < List.length Tlim)%nat -> x <= nth (S n) Tlim 0 ->
            exists i, in_interval Tlim i x \/ (x = nth (S n) Tlim 0 /\ i = n)) as H.
  { induction n as [|n IH]; intros Hn Hx.
    - exists 0%nat. destruct Hx as [Hx|Hx]; [left; repeat split; auto|right; auto].
    - destruct (Rlt_dec x (nth (S n) Tlim 0)) as [Hlt|Hge].
      + destruct IH as [i [Hi|[Hi _]]]; [lia|lra|exists i; now left|lra].
      + destruct Hx as [Hx|Hx].
        * exists (S n). left. repeat split; auto. lra.
        * exists (S n). right; auto. }
  destruct (H (List.length Tlim - 2)%nat) as [i [Hi|[Hx ->]]].
  - lia.
  - replace (S (List.length Tlim - 2)) with (List.length Tlim - 1)%nat by lia. exact Hhi.
  - now exists i.
  - exists (List.length Tlim - 2)%nat. unfold in_interval.
    split; [lia|]. split.
    + rewrite Hx. apply increasing_le; [exact Hinc|lia|lia].
    + right. split; [lia|exact Hx].
Qed.

Lemma last_nth (Tlim : list R) : (1 <= List.length Tlim)%nat ->
  last Tlim 0 = nth (List.length Tlim - 1) Tlim 0.
Proof.
  induction Tlim as [|a l IH]; [cbn; lia|]. intros _.
  destruct l as [|b l]; [reflexivity|].
  change (last (a :: b :: l) 0) with (last (b :: l) 0).
  rewrite IH by (cbn; lia). cbn [List.length].
  replace (S (S (List.length l)) - 1)%nat with (S (S (List.length l) - 1)) by lia.
  reflexivity.
Qed.

Lemma interval_unique Tlim i j x : increasing Tlim ->
  in_interval Tlim i x -> in_interval Tlim j x -> i = j.
Proof.
  intros Hinc (Hi & Hi1 & Hi2) (Hj & Hj1 & Hj2).
  destruct (lt_eq_lt_dec i j) as [[Hlt| ->]|Hlt]; [|reflexivity|]; exfalso.
  - pose proof (increasing_le _ Hinc (S i) j ltac:(lia) ltac:(lia)).
    destruct Hi2 as [|[? ?]]; [lra|lia].
  - pose proof (increasing_le _ Hinc (S j) i ltac:(lia) ltac:(lia)).
    destruct Hj2 as [|[? ?]]; [lra|lia].
Qed.

Lemma interval_range Tlim i x : increasing Tlim -> in_interval Tlim i x ->
  nth 0 Tlim 0 <= x <= last Tlim 0.
Proof.
  intros Hinc (Hi & Hi1 & Hi2). rewrite last_nth by lia. split.
  - apply Rle_trans with (nth i Tlim 0); [|exact Hi1]. apply increasing_le; [exact Hinc|lia|lia].
  - apply Rle_trans with (nth (S i) Tlim 0); [destruct Hi2 as [|[_ ->]]; lra|].
    apply increasing_le; [exact Hinc|lia|lia].
Qed.

Section Fold.
  Variables (P : nat -> bool) (f : nat -> fl).
  Let step := fun (out : fl) ii => if P ii then f ii else out.
  Lemma fold_none l out : (forall i, In i l -> P i = false) -> fold_left step l out = out.
  Proof.
    revert out; induction l as [|a l IH]; intros out H; [reflexivity|]. cbn [fold_left].
    unfold step at 2. rewrite (H a (or_introl eq_refl)). apply IH. intros; apply H; now right.
  Qed.
  Lemma fold_one l out k : NoDup l -> In k l -> (forall i, In i l -> (P i = true <-> i = k)) ->
    fold_left step l out = f k.
  Proof.
    revert out; induction l as [|a l IH]; intros out Hnd Hin H; [destruct Hin|]. cbn [fold_left].
    inversion Hnd; subst.
    destruct Hin as [->|Hin].
    - unfold step at 2. rewrite (proj2 (H k (or_introl eq_refl)) eq_refl).
      apply fold_none. intros i Hi. destruct (P i) eqn:Hp; [|reflexivity].
      apply H in Hp; [subst; contradiction|now right].
    - apply IH; auto. intros; apply H; now right.
  Qed.
End Fold.

Lemma piecewise_in Tlim C oob F x i : good_limits Tlim -> in_interval Tlim i x ->
  piecewise Tlim C oob F (Some x) = F (nth i C []) x.
Proof.
  intros [Hinc H2] Hi. unfold piecewise.
  rewrite (fold_one (crange Tlim (Some x)) (fun ii => F (nth ii C []) x) _ oob i).
  - reflexivity.
  - apply seq_NoDup.
  - apply in_seq. destruct Hi as [Hi _]. lia.
  - intros j Hj. apply in_seq in Hj.
    rewrite crange_spec by (auto; lia). split.
    + intro H. apply (interval_unique Tlim j i x); auto.
    + intros ->. exact Hi.
Qed.

Lemma piecewise_out Tlim C oob F x : good_limits Tlim ->
  x < nth 0 Tlim 0 \/ last Tlim 0 < x -> piecewise Tlim C oob F (Some x) = oob.
Proof.
  intros [Hinc H2] Hx. unfold piecewise.
  rewrite (fold_none (crange Tlim (Some x)) (fun ii => F (nth ii C []) x)); [reflexivity|].
  intros j Hj. apply in_seq in Hj.
  destruct (crange Tlim (Some x) j) eqn:E; [|reflexivity].
  apply crange_spec in E; [|lia|lia|exact Hinc].
  apply interval_range in E; [|exact Hinc]. lra.
Qed.

Lemma piecewise_nan Tlim C oob F : piecewise Tlim C oob F None = oob.
Proof.
  unfold piecewise.
  set (l := seq 0 (List.length Tlim - 1)). clearbody l. revert oob.
  induction l as [|a l IH]; intro oob; [reflexivity|]. cbn [fold_left].
  destruct (crange Tlim None a); apply IH.
Qed.

(* the open interior of an interval *)
Lemma interior_in Tlim i x : (S i < List.length Tlim)%nat ->
  nth i Tlim 0 < x < nth (S i) Tlim 0 -> in_interval Tlim i x.
Proof. intros H1 H2. split; [exact H1|]. split; [lra|left; lra]. Qed.

(* ---- derivative of a piecewise function inside an interval ---- *)
Lemma lim_local (f g : R -> R) x d a b : a < x < b -> (forall y, a < y < b -> f y = g y) ->
  derivable_pt_lim g x d -> derivable_pt_lim f x d.
Proof.
  intros Hx Heq Hg. apply is_derive_Reals. apply is_derive_Reals in Hg.
  apply (is_derive_ext_loc g); [|exact Hg].
  assert (0 < Rmin (x - a) (b - x)) as Hd by (apply Rmin_pos; lra).
  exists (mkposreal _ Hd). intros y Hy. symmetry. apply Heq.
  unfold ball in Hy; cbn in Hy. unfold AbsRing_ball, abs, minus, plus, opp in Hy; cbn in Hy.
  pose proof (Rmin_l (x - a) (b - x)). pose proof (Rmin_r (x - a) (b - x)).
  apply Rabs_def2 in Hy. lra.
Qed.

Lemma slope_piecewise (post : fl -> fl) Tlim C oob F G T i d :
  good_limits Tlim -> (S i < List.length Tlim)%nat ->
  nth i Tlim 0 < T < nth (S i) Tlim 0 -> 0 < T ->
  (forall x, 0 < x -> value (post (F (nth i C []) x)) = G x) ->
  derivable_pt_lim G T d ->
  has_slope (fun t => post (piecewise Tlim C oob F t)) T d.
Proof.
  intros Hg Hi HT Hpos HF HG. unfold has_slope.
  apply (lim_local _ G _ _ (Rmax 0 (nth i Tlim 0)) (nth (S i) Tlim 0)); [|intros y Hy|exact HG].
  - split; [|lra]. unfold Rmax. destruct (Rle_dec 0 (nth i Tlim 0)); lra.
  - pose proof (Rmax_l 0 (nth i Tlim 0)). pose proof (Rmax_r 0 (nth i Tlim 0)).
    rewrite (piecewise_in _ _ _ _ _ i Hg) by (apply interior_in; [exact Hi|lra]).
    apply HF. lra.
Qed.

Lemma nonzero_pos t v : 0 < t -> nonzero t v = Some v.
Proof. intro. unfold nonzero. destruct (Req_EM_T t 0); [lra|reflexivity]. Qed.
Lemma positive_pos t v : 0 < t -> positive t v = Some v.
Proof. intro. unfold positive. destruct (Rlt_dec 0 t); [reflexivity|lra]. Qed.

Lemma Ru_pos : 0 < const_Ru.
Proof.
  rewrite const_Ru_eq. unfold gas_constant.
  apply Rmult_lt_0_compat; [exact boltz_pos|exact avo_pos].
Qed.

(* ---- Shomate: the polynomials as functions of T ---- *)
Section Shomate.
  Variable C : list R.
  Lemma sh_cp_val T : 0 < T -> sh_cp C T = Some (shomate_cp C T).
  Proof.
    intro H. unfold sh_cp. rewrite nonzero_pos by lra. f_equal. unfold cf, shomate_cp. field. lra.
  Qed.
  Lemma sh_h_val T : 0 < T -> fmul (sh_h C T) (Some 1000) = Some (shomate_h C T).
  Proof.
    intro H. unfold sh_h. rewrite nonzero_pos by lra. cbn. f_equal. unfold cf, shomate_h. field. lra.
  Qed.
  Lemma sh_hT_val T : 0 < T -> sh_hT C T = Some (shomate_cp C T).
  Proof. exact (sh_cp_val T). Qed.
  Lemma sh_s_val T : 0 < T -> sh_s C T = Some (shomate_s C T).
  Proof.
    intro H. unfold sh_s. rewrite positive_pos by lra. f_equal. unfold cf, shomate_s. field. lra.
  Qed.
  Lemma sh_sT_val T : 0 < T -> sh_sT C T = Some (shomate_cp C T / T).
  Proof.
    intro H. unfold sh_sT. rewrite nonzero_pos by lra. f_equal. unfold cf, shomate_cp. field. lra.
  Qed.
  Lemma sh_g_val T : 0 < T -> fmul (sh_g C T) (Some 1000) = Some (shomate_h C T - T * shomate_s C T).
  Proof.
    intro H. unfold sh_g. rewrite positive_pos by lra. cbn. f_equal.
    unfold cf, shomate_h, shomate_s. field. lra.
  Qed.
  Lemma sh_gT_val T : 0 < T -> sh_gT C T = Some (- shomate_s C T).
  Proof.
    intro H. unfold sh_gT. rewrite positive_pos by lra. f_equal.
    unfold cf, shomate_s. field. lra.
  Qed.

  Lemma shP_h_deriv T : 0 < T -> derivable_pt_lim (shomate_h C) T (shomate_cp C T).
  Proof.
    intro H. apply is_derive_Reals. unfold shomate_h, shomate_cp. auto_derive; [repeat split; lra|].
    field. lra.
  Qed.
  Lemma shP_s_deriv T : 0 < T -> derivable_pt_lim (shomate_s C) T (shomate_cp C T / T).
  Proof.
    intro H. apply is_derive_Reals. unfold shomate_s, shomate_cp.
    auto_derive; [repeat split; try lra|field; lra].
    apply Rgt_not_eq. unfold Rdiv. simpl. rewrite Rmult_1_r.
    apply Rmult_lt_0_compat; [lra|]. apply Rmult_lt_0_compat; lra.
  Qed.
End Shomate.

(* ---- NASA: the polynomials as functions of T ---- *)
Section Nasa.
  Variable C : list R.
  Hypothesis len : (7 <= List.length C)%nat.

  Ltac coeffs :=
    destruct C as [|c0 [|c1 [|c2 [|c3 [|c4 [|c5 [|c6 l]]]]]]]; cbn [List.length] in len;
    try lia; rewrite const_Ru_eq; cbn -[gas_constant Rplus Rmult Rminus Rdiv ln pow Ropp].

  Lemma na_cp_val T : fmul (Some const_Ru) (na_cp C T) = Some (nasa_cp C T).
  Proof. unfold na_cp, nasa_cp. coeffs. f_equal. ring. Qed.
  Lemma na_h_val T : fmul (Some const_Ru) (na_h C T) = Some (nasa_h C T).
  Proof. unfold na_h, nasa_h, na_hloop, cf. coeffs. f_equal. field. Qed.
  Lemma na_hT_val T : fmul (Some const_Ru) (na_hT C T) = Some (nasa_cp C T).
  Proof. unfold na_hT, nasa_cp, na_hloop, cf. coeffs. f_equal. field. Qed.
  Lemma na_s_val T : 0 < T -> fmul (Some const_Ru) (na_s C T) = Some (nasa_s C T).
  Proof.
    intro H. unfold na_s. rewrite positive_pos by exact H. unfold nasa_s, na_sloop, cf. coeffs.
    f_equal. field.
  Qed.
  Lemma na_sT_val T : 0 < T -> fmul (Some const_Ru) (na_sT C T) = Some (nasa_cp C T / T).
  Proof.
    intro H. unfold na_sT. rewrite nonzero_pos by exact H. unfold nasa_cp, na_sloop, cf. coeffs.
    f_equal. field. lra.
  Qed.
  Lemma na_g_val T : 0 < T -> fmul (Some const_Ru) (na_g C T) = Some (nasa_h C T - T * nasa_s C T).
  Proof.
    intro H. unfold na_g. rewrite positive_pos by exact H. unfold nasa_h, nasa_s, cf. coeffs.
    f_equal. field.
  Qed.
  Lemma na_gT_val T : 0 < T -> fmul (Some const_Ru) (na_gT C T) = Some (- nasa_s C T).
  Proof.
    intro H. unfold na_gT. rewrite positive_pos by exact H. unfold nasa_s, cf. coeffs.
    f_equal. field.
  Qed.

  Lemma naP_h_deriv T : derivable_pt_lim (nasa_h C) T (nasa_cp C T).
  Proof.
    apply is_derive_Reals. unfold nasa_h, nasa_cp. generalize gas_constant. intro Ru.
    auto_derive; [exact I|]. field.
  Qed.
  Lemma naP_s_deriv T : 0 < T -> derivable_pt_lim (nasa_s C) T (nasa_cp C T / T).
  Proof.
    intro H. apply is_derive_Reals. unfold nasa_s, nasa_cp. generalize gas_constant. intro Ru.
    auto_derive; [exact H|]. field. lra.
  Qed.
End Nasa.

(* ---- the two classes ---- *)
Lemma good_coef D i : good_data D -> (S i < List.length (d_Tlim D))%nat ->
  (7 <= List.length (nth i (d_C D) []))%nat.
Proof.
  intros (_ & Hl & Hc) Hi. rewrite Forall_forall in Hc.
  rewrite (Hc (nth i (d_C D) [])); [lia|]. apply nth_In. lia.
Qed.

Lemma values_intro g T cp h s :
  g_cp g (Some T) = Some cp -> g_h g (Some T) = (Some h, Some cp) ->
  g_s g (Some T) = (Some s, Some (cp / T)) ->
  g_g g (Some T) = (Some (h - T * s), Some (- s)) -> values_at g T cp h s.
Proof.
  intros H1 H2 H3 H4. constructor; auto; rewrite <- const_Ru_eq.
  - unfold g_e. rewrite H2. reflexivity.
  - unfold g_f. rewrite H4. cbn. f_equal. f_equal. ring.
Qed.

Lemma ig_values oob D i T : good_data D -> in_interval (d_Tlim D) i T -> 0 < T ->
  let C := nth i (d_C D) [] in
  values_at (ig_gas oob D) T (shomate_cp C T) (shomate_h C T) (shomate_s C T).
Proof.
  intros (Hg & _ & _) Hi HT C. apply values_intro; cbn [ig_gas g_cp g_h g_s g_g];
    rewrite ?(piecewise_in _ _ _ _ _ i Hg Hi); fold C.
  - apply sh_cp_val, HT.
  - rewrite sh_h_val, sh_hT_val by exact HT. reflexivity.
  - rewrite sh_s_val, sh_sT_val by exact HT. reflexivity.
  - rewrite sh_g_val, sh_gT_val by exact HT. reflexivity.
Qed.

Lemma ig2_values oob D i T : good_data D -> in_interval (d_Tlim D) i T -> 0 < T ->
  let C := nth i (d_C D) [] in
  values_at (ig2_gas oob D) T (nasa_cp C T) (nasa_h C T) (nasa_s C T).
Proof.
  intros HD Hi HT C. pose proof (good_coef D i HD (proj1 Hi)) as Hl. fold C in Hl.
  destruct HD as (Hg & _ & _). apply values_intro; cbn [ig2_gas g_cp g_h g_s g_g];
    rewrite ?(piecewise_in _ _ _ _ _ i Hg Hi); fold C.
  - apply na_cp_val, Hl.
  - rewrite na_h_val, na_hT_val by exact Hl. reflexivity.
  - rewrite na_s_val, na_sT_val by assumption. reflexivity.
  - rewrite na_g_val, na_gT_val by assumption. reflexivity.
Qed.

Lemma gibbs_deriv (h s cp : R -> R) T : 0 < T ->
  derivable_pt_lim h T (cp T) -> derivable_pt_lim s T (cp T / T) ->
  derivable_pt_lim (fun t => h t - t * s t) T (- s T).
Proof.
  intros HT Hh Hs.
  replace (- s T) with (cp T - (1 * s T + T * (cp T / T))) by (field; lra).
  apply (derivable_pt_lim_minus h (fun t => t * s t)); [exact Hh|].
  apply (derivable_pt_lim_mult (fun t => t) s); [|exact Hs].
  apply derivable_pt_lim_id.
Qed.

Lemma minus_lin_deriv (h : R -> R) k T d : derivable_pt_lim h T d ->
  derivable_pt_lim (fun t => h t - k * t) T (d - k).
Proof.
  intros Hh. replace (d - k) with (d - k * 1) by ring.
  apply (derivable_pt_lim_minus h (fun t => k * t)); [exact Hh|].
  apply (derivable_pt_lim_scal (fun t => t) k). apply derivable_pt_lim_id.
Qed.

Lemma slopes_intro g Tlim i T (h s cp : R -> R) :
  good_limits Tlim -> (S i < List.length Tlim)%nat ->
  nth i Tlim 0 < T < nth (S i) Tlim 0 -> 0 < T ->
  (forall x, 0 < x -> in_interval Tlim i x -> values_at g x (cp x) (h x) (s x)) ->
  derivable_pt_lim h T (cp T) -> derivable_pt_lim s T (cp T / T) ->
  slopes_at g T (cp T) (s T).
Proof.
  intros Hg Hi HT Hpos Hv Hh Hs. pose proof const_Ru_eq as HRu.
  assert (forall F G d, (forall x, 0 < x -> in_interval Tlim i x -> value (F (Some x)) = G x) ->
            derivable_pt_lim G T d -> has_slope F T d) as K.
  { intros F G d HF HG. unfold has_slope.
    apply (lim_local _ G _ _ (Rmax 0 (nth i Tlim 0)) (nth (S i) Tlim 0)); [|intros y Hy|exact HG].
    - split; [|lra]. unfold Rmax. destruct (Rle_dec 0 (nth i Tlim 0)); lra.
    - pose proof (Rmax_l 0 (nth i Tlim 0)). pose proof (Rmax_r 0 (nth i Tlim 0)).
      apply HF; [lra|]. apply interior_in; [exact Hi|lra]. }
  constructor.
  - apply (K _ h); [|exact Hh]. intros x Hx Hin. rewrite (va_h _ _ _ _ _ (Hv x Hx Hin)). reflexivity.
  - apply (K _ s); [|exact Hs]. intros x Hx Hin. rewrite (va_s _ _ _ _ _ (Hv x Hx Hin)). reflexivity.
  - apply (K _ (fun t => h t - t * s t)); [|apply (gibbs_deriv h s cp); assumption].
    intros x Hx Hin. rewrite (va_g _ _ _ _ _ (Hv x Hx Hin)). reflexivity.
  - apply (K _ (fun t => h t - gas_constant * t)); [|apply minus_lin_deriv, Hh].
    intros x Hx Hin. rewrite (va_e _ _ _ _ _ (Hv x Hx Hin)). reflexivity.
  - apply (K _ (fun t => (h t - t * s t) - gas_constant * t)).
    + intros x Hx Hin. rewrite (va_f _ _ _ _ _ (Hv x Hx Hin)). cbn [fst value]. ring.
    + apply (minus_lin_deriv (fun t => h t - t * s t)). apply (gibbs_deriv h s cp); assumption.
Qed.

Lemma ig_slopes oob D i T : good_data D -> (S i < List.length (d_Tlim D))%nat ->
  nth i (d_Tlim D) 0 < T < nth (S i) (d_Tlim D) 0 -> 0 < T ->
  let C := nth i (d_C D) [] in slopes_at (ig_gas oob D) T (shomate_cp C T) (shomate_s C T).
Proof.
  intros HD Hi HT Hpos C.
  apply (slopes_intro _ (d_Tlim D) i T (shomate_h C) (shomate_s C) (shomate_cp C)); auto.
  - apply HD.
  - intros x Hx Hin. apply ig_values; assumption.
  - apply shP_h_deriv, Hpos.
  - apply shP_s_deriv, Hpos.
Qed.

Lemma ig2_slopes oob D i T : good_data D -> (S i < List.length (d_Tlim D))%nat ->
  nth i (d_Tlim D) 0 < T < nth (S i) (d_Tlim D) 0 -> 0 < T ->
  let C := nth i (d_C D) [] in slopes_at (ig2_gas oob D) T (nasa_cp C T) (nasa_s C T).
Proof.
  intros HD Hi HT Hpos C.
  apply (slopes_intro _ (d_Tlim D) i T (nasa_h C) (nasa_s C) (nasa_cp C)); auto.
  - apply HD.
  - intros x Hx Hin. apply ig2_values; assumption.
  - apply naP_h_deriv.
  - apply naP_s_deriv, Hpos.
Qed.

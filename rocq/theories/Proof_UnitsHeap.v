(* C92: the conversions on memory. *)
From Coq Require Import Reals ZArith List Bool String Lia Lra.
From Verif Require Import Base Model_Units Model_UnitsHeap Spec_Units Spec_UnitsHeap Proof_Units.
Import ListNotations.
Local Open Scope R_scope.
Local Open Scope string_scope.
Local Open Scope list_scope.

(* ---- memory ---- *)
Lemma set_nth_length {A} i (x : A) l : List.length (set_nth i x l) = List.length l.
Proof. revert i. induction l as [|y l IH]; intros [|i]; cbn; auto. Qed.
Lemma set_nth_same {A} i (x : A) l : (i < List.length l)%nat -> nth_error (set_nth i x l) i = Some x.
Proof. revert i. induction l as [|y l IH]; intros [|i] H; cbn in *; try lia; auto. apply IH. lia. Qed.
Lemma set_nth_other {A} i j (x : A) l : i <> j -> nth_error (set_nth i x l) j = nth_error l j.
Proof. revert i j. induction l as [|y l IH]; intros [|i] [|j] H; cbn; auto; try congruence. Qed.
Lemma put_length cs : forall vs l, List.length (put l cs vs) = List.length l.
Proof.
  unfold put. induction cs as [|c cs IH]; intros [|v vs] l; cbn; auto.
  change (List.length (put (set_nth c v l) cs vs) = List.length l). unfold put. rewrite IH, set_nth_length. reflexivity.
Qed.
Lemma put_other cs : forall vs l j, ~ In j cs -> nth_error (put l cs vs) j = nth_error l j.
Proof.
  unfold put. induction cs as [|c cs IH]; intros [|v vs] l j H; cbn; auto. cbn in H.
  rewrite IH by tauto. apply set_nth_other. tauto.
Qed.
Lemma put_read cs : forall vs l, NoDup cs -> (forall i, In i cs -> (i < List.length l)%nat) -> List.length vs = List.length cs ->
  map (fun i => nth i (put l cs vs) 0) cs = vs.
Proof.
  induction cs as [|c cs IH]; intros [|v vs] l ND B HL; try discriminate; [reflexivity|]. inversion ND; subst. cbn [map].
  change (put l (c :: cs) (v :: vs)) with (put (set_nth c v l) cs vs). f_equal.
  - apply nth_error_nth. rewrite put_other by assumption. apply set_nth_same. apply B. now left.
  - apply IH; [assumption|intros i Hi; rewrite set_nth_length; apply B; now right|now injection HL].
Qed.

Lemma only_refl a m : only_changes a m m.
Proof. split; auto. Qed.
Lemma only_trans a m1 m2 m3 : only_changes a m1 m2 -> only_changes a m2 m3 -> only_changes a m1 m3.
Proof. intros [L1 H1] [L2 H2]. split; [intros b N; rewrite L2, L1 by assumption; reflexivity|intros i N; rewrite H2, H1 by assumption; reflexivity]. Qed.

Lemma store_float m a f : float_array m a -> exists m', store m a f = (m', Ok tt) /\ float_array m' a /\
  vread m' a = map f (vread m a) /\ only_changes a m m'.
Proof.
  intros ((b & Hb & ND & B) & l & Hl). assert (b = Floats l) by congruence. subst b. cbn [cells_of] in B.
  assert (HN : nth (buf a) m (Floats []) = Floats l) by (apply nth_error_nth; exact Hl).
  assert (HLt : (buf a < List.length m)%nat) by (apply nth_error_Some; congruence).
  unfold store. rewrite HN. eexists. split; [reflexivity|].
  set (l' := put l (cells a) (map f (vread m a))). set (m' := set_nth (buf a) (Floats l') m).
  assert (HM : nth_error m' (buf a) = Some (Floats l')) by (apply set_nth_same; exact HLt).
  assert (LL : List.length l' = List.length l) by apply put_length.
  split; [|split].
  - split; [exists (Floats l')|exists l'; exact HM]. split; [exact HM|]. split; [exact ND|]. intros i Hi. cbn [cells_of]. rewrite LL. auto.
  - unfold vread at 1. rewrite (nth_error_nth _ _ _ HM). cbn [cell_value]. apply put_read; auto. unfold vread. now rewrite !map_length.
  - split; [intros b NE; apply set_nth_other; congruence|]. intros i N. unfold cell. rewrite HM, Hl. unfold l'. rewrite put_other by exact N. reflexivity.
Qed.
Lemma store_int m a f : int_array m a -> store m a f = (m, Err ETypeError).
Proof. intros (_ & l & Hl). unfold store. rewrite (nth_error_nth _ _ _ Hl). reflexivity. Qed.

Definition chain (l : list (R -> R)) (x : R) : R := fold_left (fun x f => f x) l x.
Lemma steps_float l : forall m a, float_array m a -> exists m', steps m a l = (m', Ok (VArr a)) /\ float_array m' a /\
  vread m' a = map (chain l) (vread m a) /\ only_changes a m m'.
Proof.
  induction l as [|f l IH]; intros m a F.
  - exists m. split; [reflexivity|]. split; [exact F|]. split; [unfold chain; cbn; now rewrite map_id|apply only_refl].
  - destruct (store_float m a f F) as (m1 & S & F1 & R1 & O1). destruct (IH m1 a F1) as (m2 & S2 & F2 & R2 & O2).
    exists m2. cbn [steps]. rewrite S, S2. split; [reflexivity|]. split; [exact F2|]. split; [rewrite R2, R1, map_map; reflexivity|exact (only_trans _ _ _ _ O1 O2)].
Qed.
Lemma steps_int l m a : int_array m a -> steps m a l = (m, match l with [] => Ok (VArr a) | _ => Err ETypeError end).
Proof. intro H. destruct l as [|f l]; [reflexivity|]. cbn [steps]. now rewrite store_int. Qed.

(* ---- new arrays ---- *)
Lemma fresh_spec m vs : exists a, fresh m vs = (m ++ [Floats vs], VArr a) /\ buf a = List.length m /\ float_array (m ++ [Floats vs]) a /\ vread (m ++ [Floats vs]) a = vs.
Proof.
  eexists. split; [reflexivity|]. cbn [buf cells].
  assert (H : nth_error (m ++ [Floats vs]) (List.length m) = Some (Floats vs)) by (rewrite nth_error_app2, Nat.sub_diag by lia; reflexivity).
  split; [reflexivity|]. split.
  - split; [exists (Floats vs)|exists vs; exact H]. split; [exact H|]. split; [apply seq_NoDup|]. intros i Hi. apply in_seq in Hi. cbn. lia.
  - unfold vread. cbn [buf cells]. rewrite (nth_error_nth _ _ _ H). cbn [cell_value].
    clear H. induction vs as [|v vs IH]; [reflexivity|]. cbn [List.length seq map nth]. f_equal. rewrite <- seq_shift, map_map. exact IH.
Qed.
Lemma nth_error_ext {A} (l l' : list A) : (forall n, nth_error l n = nth_error l' n) -> l = l'.
Proof.
  revert l'. induction l as [|x l IH]; intros [|y l'] H; [reflexivity|discriminate (H O)|discriminate (H O)|].
  f_equal; [now injection (H O)|apply IH; intro n; exact (H (S n))].
Qed.
Lemma only_new a m x m' : only_changes a (m ++ [x]) m' -> buf a = List.length m -> array_in m' a -> exists y, m' = m ++ [y].
Proof.
  intros [H _] B (y & HY & _). exists y. apply nth_error_ext. intro n. destruct (Nat.eq_dec n (buf a)) as [->|N].
  - rewrite HY, B, nth_error_app2, Nat.sub_diag by lia. reflexivity.
  - rewrite H by exact N. destruct (Nat.lt_ge_cases n (List.length m)); [rewrite !nth_error_app1 by assumption; reflexivity|].
    rewrite !nth_error_app2 by assumption. destruct (n - List.length m)%nat as [|k] eqn:E; [lia|]. destruct k; reflexivity.
Qed.

(* ---- what a call does: nothing, one function, or several in a row ---- *)
Definition scaled_run (ops : list (R -> R)) (ip : bool) (m : memory) (v : value) : memory * res value :=
  match ip, v with
  | true, VArr a => steps m a ops
  | _, _ => match fresh m (contents m v) with (m', VArr a) => steps m' a ops | (m', w) => (m', Ok w) end
  end.
Definition behaves (F : bool -> memory -> value -> memory * res value) (g : R -> res R) : Prop :=
  (exists e, (forall x, g x = Err e) /\ forall ip m v, F ip m v = (m, Err e)) \/
  ((forall x, g x = Ok x) /\ forall ip m v, F ip m v = (m, Ok v)) \/
  (exists k, (forall x, g x = Ok (k x)) /\ forall ip m v, F ip m v = apply m v ip k) \/
  (exists ops, (forall x, g x = Ok (chain ops x)) /\ forall ip m v, F ip m v = scaled_run ops ip m v).
Lemma behaves_err F g e : (forall x, g x = Err e) -> (forall ip m v, F ip m v = (m, Err e)) -> behaves F g.
Proof. left; eauto. Qed.
Lemma behaves_id F g : (forall x, g x = Ok x) -> (forall ip m v, F ip m v = (m, Ok v)) -> behaves F g.
Proof. right; left; eauto. Qed.
Lemma behaves_fn F g k : (forall x, g x = Ok (k x)) -> (forall ip m v, F ip m v = apply m v ip k) -> behaves F g.
Proof. right; right; left; eauto. Qed.
Lemma behaves_ops F g ops : (forall x, g x = Ok (chain ops x)) -> (forall ip m v, F ip m v = scaled_run ops ip m v) -> behaves F g.
Proof. right; right; right; eauto. Qed.

Lemma convert_behaves cv c f t e : behaves (fun ip m v => m_convert cv c m v f t e ip) (fun x => convert cv c x f t e).
Proof.
  unfold m_convert, convert. destruct (default_unit cv c f) as [u|]; [|eapply behaves_err; reflexivity]. cbn [bind].
  destruct (default_unit cv c t) as [w|]; [|eapply behaves_err; reflexivity]. cbn [bind].
  destruct (String.eqb u w); [apply behaves_id; reflexivity|].
  destruct (tget _ u) as [a|]; [|eapply behaves_err; reflexivity]. cbn [bind].
  destruct (tget _ w) as [b|]; [|eapply behaves_err; reflexivity]. cbn [bind].
  destruct (pdiv a b) as [k|]; [|eapply behaves_err; reflexivity]. cbn [bind].
  destruct (apply_exponent k e) as [k'|]; [|eapply behaves_err; reflexivity]. cbn [bind].
  eapply behaves_fn; reflexivity.
Qed.
Lemma chain_app l l' x : chain (l ++ l') x = chain l' (chain l x).
Proof. unfold chain. apply fold_left_app. Qed.
Lemma chain_from f x : chain (scale_from f) x = to_kelvin f x.
Proof. unfold scale_from, to_kelvin. repeat destruct (String.eqb f _); reflexivity. Qed.
Lemma chain_to t x : chain (scale_to t) x = from_kelvin t x.
Proof. unfold scale_to, from_kelvin. repeat destruct (String.eqb t _); reflexivity. Qed.
Lemma scale_run_ops f t : behaves (fun ip m v => m_scale_run m v ip f t) (fun x => Ok (from_kelvin t (to_kelvin f x))).
Proof.
  apply (behaves_ops _ _ (scale_from f ++ scale_to t)); [intro x; now rewrite chain_app, chain_from, chain_to|].
  intros ip m v. unfold m_scale_run, scaled_run. reflexivity.
Qed.
Lemma scale_behaves c f t : behaves (fun ip m v => m_scale c m v f t ip) (fun x => temperature_scale c x f t).
Proof.
  unfold m_scale, temperature_scale.
  destruct (match f with None => cfg_get c "unit_temperature" | Some u => Ok u end) as [u|]; [|eapply behaves_err; reflexivity]. cbn [bind].
  destruct (match t with None => cfg_get c "unit_temperature" | Some w => Ok w end) as [w|]; [|eapply behaves_err; reflexivity]. cbn [bind].
  destruct (String.eqb u w); [apply behaves_id; reflexivity|].
  destruct (String.eqb u "abs"); [destruct (String.eqb w "C"); [apply scale_run_ops|]; destruct (String.eqb w "F"); [apply scale_run_ops|apply behaves_id; reflexivity]|].
  destruct (String.eqb w "abs"); [destruct (String.eqb u "C"); [apply scale_run_ops|]; destruct (String.eqb u "F"); [apply scale_run_ops|apply behaves_id; reflexivity]|].
  apply scale_run_ops.
Qed.
Lemma matter_behaves s c mw f t e : behaves (fun ip m v => m_matter s c m v mw f t e ip) (fun x => matter s c x mw f t e).
Proof.
  unfold m_matter, matter.
  destruct (match f with None => cfg_get c "unit_matter" | Some u => Ok u end) as [u|]; [|eapply behaves_err; reflexivity]. cbn [bind].
  destruct (match t with None => cfg_get c "unit_matter" | Some w => Ok w end) as [w|]; [|eapply behaves_err; reflexivity]. cbn [bind].
  destruct (String.eqb u w); [apply behaves_id; reflexivity|].
  destruct (dmem u (mass_tab s)).
  - destruct (dmem w (mass_tab s)); [apply convert_behaves|].
    destruct (tget _ u) as [a|]; [|eapply behaves_err; reflexivity]. cbn [bind].
    destruct (pdiv a mw) as [a'|]; [|eapply behaves_err; reflexivity]. cbn [bind].
    destruct (tget _ w) as [b|]; [|eapply behaves_err; reflexivity]. cbn [bind].
    destruct (pdiv a' b) as [k|]; [|eapply behaves_err; reflexivity]. cbn [bind].
    destruct (apply_exponent k e) as [k'|]; [|eapply behaves_err; reflexivity]. cbn [bind]. eapply behaves_fn; reflexivity.
  - destruct (dmem w (molar_tab s)); [apply convert_behaves|].
    destruct (tget _ u) as [a|]; [|eapply behaves_err; reflexivity]. cbn [bind].
    destruct (tget _ w) as [b|]; [|eapply behaves_err; reflexivity]. cbn [bind].
    destruct (pdiv _ b) as [k|]; [|eapply behaves_err; reflexivity]. cbn [bind].
    destruct (apply_exponent k e) as [k'|]; [|eapply behaves_err; reflexivity]. cbn [bind]. eapply behaves_fn; reflexivity.
Qed.
Lemma all_behave F g : conversion_call F g -> behaves F g.
Proof.
  intros [s q c f t e|c f t|st c u patm|st c u patm|s c mw f t e]; [apply convert_behaves|apply scale_behaves| | |apply matter_behaves].
  - unfold m_gauge_to_abs, gauge_to_abs. cbv zeta. destruct (convert _ _ _ _ _ _) as [off|]; [|eapply behaves_err; reflexivity]. cbn [bind]. eapply behaves_fn; reflexivity.
  - unfold m_abs_to_gauge, abs_to_gauge. cbv zeta. destruct (convert _ _ _ _ _ _) as [off|]; [|eapply behaves_err; reflexivity]. cbn [bind]. eapply behaves_fn; reflexivity.
Qed.

(* ---- C92 ---- *)
Lemma Forall2_map_ok (g : R -> res R) k l : (forall x, g x = Ok (k x)) -> Forall2 (fun x y => g x = Ok y) l (map k l).
Proof. intro H. induction l; cbn; constructor; auto. Qed.
Lemma Forall2_id_ok (g : R -> res R) l : (forall x, g x = Ok x) -> Forall2 (fun x y => g x = Ok y) l l.
Proof. intro H. induction l; cbn; constructor; auto. Qed.

Theorem not_in_place F g m v m' r : conversion_call F g -> value_in m v -> F false m v = (m', r) ->
  exists l, m' = m ++ l /\
  ((exists e, r = Err e /\ l = [] /\ forall x, g x = Err e) \/
   (exists w, r = Ok w /\ value_in m' w /\ Forall2 (fun x y => g x = Ok y) (contents m v) (contents m' w) /\
      (w = v \/ forall a, w = VArr a -> (List.length m <= buf a)%nat))).
Proof.
  intros C V H. destruct (all_behave F g C) as [(e & G & HF)|[(G & HF)|[(k & G & HF)|(ops & G & HF)]]]; rewrite HF in H; clear HF.
  - injection H as <- <-. exists []. rewrite app_nil_r. split; [reflexivity|]. left. eauto.
  - injection H as <- <-. exists []. rewrite app_nil_r. split; [reflexivity|]. right. exists v. repeat split; auto. apply Forall2_id_ok. exact G.
  - unfold apply, result in H. destruct v as [x|a].
    + injection H as <- <-. exists []. rewrite app_nil_r. split; [reflexivity|]. right. exists (VNum (k x)). split; [reflexivity|]. split; [discriminate|]. split; [cbn; auto|]. right. discriminate.
    + destruct (fresh_spec m (map k (vread m a))) as (b & E & B & FA & RD). rewrite E in H. injection H as <- <-. exists [Floats (map k (vread m a))]. split; [reflexivity|].
      right. exists (VArr b). split; [reflexivity|]. split; [intros b' Q; injection Q as <-; exact (proj1 FA)|]. split; [cbn [contents]; rewrite RD; apply Forall2_map_ok; exact G|].
      right. intros b' Q. injection Q as <-. lia.
  - unfold scaled_run in H. destruct (fresh_spec m (contents m v)) as (b & E & B & FA & RD). rewrite E in H.
    destruct (steps_float ops _ b FA) as (m2 & S2 & F2 & R2 & O2). rewrite S2 in H. injection H as <- <-.
    destruct (only_new b m _ m2 O2 B (proj1 F2)) as (y & ->). exists [y]. split; [reflexivity|]. right. exists (VArr b). split; [reflexivity|].
    split; [intros b' Q; injection Q as <-; exact (proj1 F2)|]. split; [cbn [contents]; rewrite R2, RD; apply Forall2_map_ok; exact G|]. right. intros b' Q. injection Q as <-. lia.
Qed.

Theorem in_place F g m a m' r : conversion_call F g -> float_array m a -> F true m (VArr a) = (m', r) ->
  (exists e, r = Err e /\ m' = m /\ forall x, g x = Err e) \/
  (r = Ok (VArr a) /\ float_array m' a /\ only_changes a m m' /\ Forall2 (fun x y => g x = Ok y) (vread m a) (vread m' a)).
Proof.
  intros C V H. destruct (all_behave F g C) as [(e & G & HF)|[(G & HF)|[(k & G & HF)|(ops & G & HF)]]]; rewrite HF in H; clear HF.
  - injection H as <- <-. left. eauto.
  - injection H as <- <-. right. split; [reflexivity|]. split; [exact V|]. split; [apply only_refl|]. apply Forall2_id_ok. exact G.
  - unfold apply in H. destruct (store_float m a k V) as (m1 & S & F1 & R1 & O1). rewrite S in H. injection H as <- <-. right. split; [reflexivity|].
    split; [exact F1|]. split; [exact O1|]. rewrite R1. apply Forall2_map_ok. exact G.
  - unfold scaled_run in H. destruct (steps_float ops m a V) as (m1 & S & F1 & R1 & O1). rewrite S in H. injection H as <- <-. right. split; [reflexivity|].
    split; [exact F1|]. split; [exact O1|]. rewrite R1. apply Forall2_map_ok. exact G.
Qed.

Theorem numbers F g m x : conversion_call F g -> F true m (VNum x) = F false m (VNum x).
Proof.
  intros C. destruct (all_behave F g C) as [(e & G & HF)|[(G & HF)|[(k & G & HF)|(ops & G & HF)]]]; rewrite !HF; reflexivity.
Qed.

Theorem integers F g m a m' r : conversion_call F g -> int_array m a -> F true m (VArr a) = (m', r) -> m' = m /\
  (r = Err ETypeError \/ (exists e, r = Err e /\ forall x, g x = Err e) \/ (r = Ok (VArr a) /\ forall x, g x = Ok x)).
Proof.
  intros C V H. destruct (all_behave F g C) as [(e & G & HF)|[(G & HF)|[(k & G & HF)|(ops & G & HF)]]]; rewrite HF in H; clear HF.
  - injection H as <- <-. split; [reflexivity|]. right. left. eauto.
  - injection H as <- <-. auto.
  - unfold apply in H. rewrite store_int in H by exact V. injection H as <- <-. auto.
  - unfold scaled_run in H. rewrite steps_int in H by exact V. injection H as <- <-. split; [reflexivity|]. destruct ops; auto.
Qed.

Lemma back_calls F G : there_and_back F G -> exists g g', conversion_call F g /\ conversion_call G g' /\ forall x y, g x = Ok y -> g' y = Ok x.
Proof.
  intros [s q c f t e P|c f t|st c u patm|st c u patm|s c mw f t e P M].
  - exists (fun x => convert (units_of s q) c x f t e), (fun x => convert (units_of s q) c x t f e). split; [apply call_convert|]. split; [apply call_convert|]. intros x y. now apply round_trip.
  - exists (fun x => temperature_scale c x f t), (fun x => temperature_scale c x t f). split; [apply call_scale|]. split; [apply call_scale|]. intros x y. apply tscale_round_trip.
  - exists (fun x => gauge_to_abs st c x u patm), (fun x => abs_to_gauge st c x u patm). split; [apply call_gauge_to_abs|]. split; [apply call_abs_to_gauge|]. intros x y. apply gauge_inverse.
  - exists (fun x => abs_to_gauge st c x u patm), (fun x => gauge_to_abs st c x u patm). split; [apply call_abs_to_gauge|]. split; [apply call_gauge_to_abs|]. intros x y. apply gauge_inverse'.
  - exists (fun x => matter s c x mw (Some f) (Some t) e), (fun x => matter s c x mw (Some t) (Some f) e). split; [apply call_matter|]. split; [apply call_matter|]. intros x y. now apply matter_round_trip.
Qed.
Lemma same_memory m m' a : float_array m a -> float_array m' a -> only_changes a m m' -> vread m' a = vread m a -> m' = m.
Proof.
  intros ((b & Hb & ND & B) & l & Hl) (A' & l' & Hl') [O1 O2] RD. apply nth_error_ext. intro n. destruct (Nat.eq_dec n (buf a)) as [->|N]; [|now apply O1].
  rewrite Hl, Hl'. f_equal. f_equal. apply nth_error_ext. intro i. destruct (in_dec Nat.eq_dec i (cells a)) as [Hi|Hi].
  - assert (Hb' : b = Floats l) by congruence. subst b. cbn [cells_of] in B. destruct A' as (b & Hb' & _ & B'). assert (b = Floats l') by congruence. subst b. cbn [cells_of] in B'.
    unfold vread in RD. rewrite (nth_error_nth _ _ _ Hl), (nth_error_nth _ _ _ Hl') in RD. cbn [cell_value] in RD.
    assert (E : nth i l' 0 = nth i l 0).
    { clear -RD Hi. induction (cells a) as [|c cs IH]; [destruct Hi|]. cbn in RD. injection RD as R1 R2. destruct Hi as [->|Hi]; [exact R1|exact (IH R2 Hi)]. }
    rewrite (nth_error_nth' l' 0 (B' i Hi)), (nth_error_nth' l 0 (B i Hi)). now f_equal.
  - specialize (O2 i Hi). unfold cell in O2. rewrite Hl, Hl' in O2. destruct (nth_error l' i), (nth_error l i); cbn in O2; congruence.
Qed.
Theorem round_trip_memory F G m a m1 : there_and_back F G -> float_array m a -> F true m (VArr a) = (m1, Ok (VArr a)) ->
  G true m1 (VArr a) = (m, Ok (VArr a)).
Proof.
  intros T V H. destruct (back_calls F G T) as (g & g' & C & C' & I).
  destruct (in_place F g m a m1 _ C V H) as [(e & Q & _)|(_ & V1 & O1 & R1)]; [discriminate|].
  destruct (G true m1 (VArr a)) as [m2 r] eqn:HG.
  assert (R' : forall l l', Forall2 (fun x y => g x = Ok y) l l' -> forall l2, Forall2 (fun x y => g' x = Ok y) l' l2 -> l2 = l).
  { induction 1 as [|x y l l' Hxy _ IH]; intros l2 H2; inversion H2; subst; [reflexivity|]. f_equal; [|auto]. specialize (I x y Hxy). congruence. }
  destruct (in_place G g' m1 a m2 r C' V1 HG) as [(e & -> & -> & Ge)|(-> & V2 & O2 & R2)].
  - exfalso. destruct (all_behave F g C) as [(e' & Q & HF)|[(Q & HF)|[(k & Q & HF)|(ops & Q & HF)]]].
    + rewrite HF in H. discriminate.
    + specialize (I _ _ (Q 0)). rewrite Ge in I. discriminate.
    + specialize (I _ _ (Q 0)). rewrite Ge in I. discriminate.
    + specialize (I _ _ (Q 0)). rewrite Ge in I. discriminate.
  - f_equal. apply (same_memory m m2 a V V2 (only_trans _ _ _ _ O1 O2)). exact (R' _ _ R1 _ R2).
Qed.

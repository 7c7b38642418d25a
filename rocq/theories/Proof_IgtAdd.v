(* Addition of dynamic mixtures: commutative, associative, totals, differences, failures. *)
From Coq Require Import Reals List String Bool Lia Lra Arith Permutation.
From Verif Require Import Base Model_Num Model_Units Model_Igas Model_Igtools Spec_Igtools Proof_Igtshape Proof_Igtools.
Import ListNotations.
Local Open Scope R_scope.
Local Open Scope string_scope.
Local Open Scope list_scope.

Definition same_ndim (a b : mix) : Prop := List.length (shape a) = List.length (shape b).

(* the result of a sum: shape and amounts *)
Definition is_sum (a b c : mix) : Prop :=
  mixture_ok c /\ numpy_broadcast (shape a) (shape b) (shape c) /\
  (forall s, In s (x_c c) <-> In s (x_c a) \/ In s (x_c b)) /\
  forall s i, index_in (shape c) i ->
    amount c s i = fadd (amount a s (project (shape a) i)) (amount b s (project (shape b) i)).

Lemma add_full a b : mixture_ok a -> mixture_ok b -> same_ndim a b ->
  (forall sh, broadcast_shape (shape b) (shape a) = Ok sh ->
     exists c, iadd a b = (c, Ok tt) /\ add a b = Ok c /\ is_sum a b c /\
        shape c = sh /\ stretches (shape a) sh /\ stretches (shape b) sh) /\
  (forall c, add a b = Ok c -> broadcast_shape (shape b) (shape a) = Ok (shape c)).
Proof.
  intros Ha Hb Hl.
  assert (F : forall sh, broadcast_shape (shape b) (shape a) = Ok sh ->
     exists c, iadd a b = (c, Ok tt) /\ add a b = Ok c /\ is_sum a b c /\
        shape c = sh /\ stretches (shape a) sh /\ stretches (shape b) sh).
  { intros sh Hsh. destruct (iadd_amounts a b sh Ha Hb Hl Hsh)
      as (c & H1 & H2 & H3 & H4 & H5 & [r H6] & H7 & H8 & H9).
    exists c. split; [exact H1|]. unfold add, returns. rewrite H1. cbn. split; [reflexivity|].
    split; [|auto]. split; [exact H2|]. split; [|split].
    - rewrite H3. apply numpy_sym. apply broadcast_agrees; [|left; symmetry; exact Hl|exact Hsh].
      left. apply Hb.
    - intro s. split; [apply H8|]. intros [H|H]; [|now apply H7]. rewrite H6. apply in_or_app; now left.
    - rewrite H3. exact H9. }
  split; [exact F|]. intros c Hc.
  destruct (broadcast_shape (shape b) (shape a)) as [sh|e] eqn:E.
  - destruct (F sh eq_refl) as (c' & _ & H1 & _ & H2 & _). rewrite Hc in H1. injection H1 as ->. now rewrite H2.
  - unfold add, returns, iadd in Hc. rewrite E in Hc. discriminate.
Qed.

(* a + b succeeds exactly when the shapes are compatible for numpy *)
Lemma sum_amounts a b : mixture_ok a -> mixture_ok b -> same_ndim a b ->
  (forall c, add a b = Ok c -> is_sum a b c) /\
  ((exists u, numpy_broadcast (shape a) (shape b) u) -> exists c, add a b = Ok c) /\
  ((~ exists u, numpy_broadcast (shape a) (shape b) u) -> add a b = Err PMParamError).
Proof.
  intros Ha Hb Hl. destruct (add_full a b Ha Hb Hl) as [F G].
  assert (NE : shape b <> [] \/ shape a <> []) by (left; apply Hb).
  assert (AG : agreeable (shape b) (shape a)) by (left; symmetry; exact Hl).
  split; [|split].
  - intros c Hc. destruct (F (shape c) (G c Hc)) as (c' & _ & H1 & H2 & _). congruence.
  - intros [u Hu]. apply numpy_sym in Hu. apply (broadcast_agrees _ _ _ NE AG) in Hu.
    destruct (F u Hu) as (c & _ & H & _). now exists c.
  - intro Hn. assert (Hn' : ~ exists u, numpy_broadcast (shape b) (shape a) u).
    { intros [u Hu]. apply Hn. exists u. now apply numpy_sym. }
    apply (broadcast_rejects _ _ NE AG) in Hn'. unfold add, returns, iadd. now rewrite Hn'.
Qed.

Lemma add_comm a b c : mixture_ok a -> mixture_ok b -> same_ndim a b -> add a b = Ok c ->
  exists d, add b a = Ok d /\ same_mixture c d.
Proof.
  intros Ha Hb Hl Hc. destruct (sum_amounts a b Ha Hb Hl) as (S1 & _ & _).
  destruct (S1 c Hc) as (C1 & C2 & C3 & C4).
  assert (Hl' : same_ndim b a) by (symmetry; exact Hl).
  destruct (sum_amounts b a Hb Ha Hl') as (S2 & E2 & _).
  destruct E2 as [d Hd]. { exists (shape c). now apply numpy_sym. }
  exists d. split; [exact Hd|]. destruct (S2 d Hd) as (D1 & D2 & D3 & D4).
  assert (Es : shape c = shape d).
  { apply numpy_sym in D2. apply np_shape_spec in C2, D2. congruence. }
  split; [exact Es|]. intros s i Hi. rewrite C4 by exact Hi. rewrite D4 by (rewrite <- Es; exact Hi). apply fadd_comm.
Qed.

Lemma dims_assoc s : forall q r u x, List.length s = List.length q -> List.length q = List.length r ->
  dims_loop s q = Ok u -> dims_loop u r = Ok x ->
  exists v, dims_loop q r = Ok v /\ dims_loop s v = Ok x.
Proof.
  induction s as [|a s IH]; intros [|b q] [|c r] u x L1 L2 H1 H2; try discriminate.
  - cbn in H1. injection H1 as <-. cbn in H2. injection H2 as <-. exists []. split; reflexivity.
  - injection L1 as L1. injection L2 as L2. cbn [dims_loop] in H1.
    assert (K : exists d u', u = d :: u' /\ dims_loop s q = Ok u' /\
              ((a = b \/ a = 1%nat) /\ d = b \/ (a <> b /\ a <> 1%nat /\ b = 1%nat /\ d = a))).
    { destruct (Nat.eqb_spec a b) as [E|E]; cbn [orb] in H1.
      - destruct (dims_loop s q) as [u'|]; [|discriminate]. cbn in H1. injection H1 as <-.
        exists b, u'. split; [reflexivity|]. split; [reflexivity|]. left; auto.
      - destruct (Nat.eqb_spec a 1) as [E'|E'].
        + destruct (dims_loop s q) as [u'|]; [|discriminate]. cbn in H1. injection H1 as <-. exists b, u'. split; [reflexivity|]. split; [reflexivity|]. left; auto.
        + destruct (Nat.eqb_spec b 1) as [E2|E2]; [|discriminate].
          destruct (dims_loop s q) as [u'|]; [|discriminate]. cbn in H1. injection H1 as <-.
          exists a, u'. split; [reflexivity|]. split; [reflexivity|]. right. auto. }
    destruct K as (d & u' & -> & Hu' & Hd). cbn [dims_loop] in H2.
    assert (K : exists e x', x = e :: x' /\ dims_loop u' r = Ok x' /\
              ((d = c \/ d = 1%nat) /\ e = c \/ (d <> c /\ d <> 1%nat /\ c = 1%nat /\ e = d))).
    { destruct (Nat.eqb_spec d c) as [E|E]; cbn [orb] in H2.
      - destruct (dims_loop u' r) as [x'|]; [|discriminate]. cbn in H2. injection H2 as <-. exists c, x'. split; [reflexivity|]. split; [reflexivity|]. left; auto.
      - destruct (Nat.eqb_spec d 1) as [E'|E'].
        + destruct (dims_loop u' r) as [x'|]; [|discriminate]. cbn in H2. injection H2 as <-. exists c, x'. split; [reflexivity|]. split; [reflexivity|]. left; auto.
        + destruct (Nat.eqb_spec c 1) as [E2|E2]; [|discriminate].
          destruct (dims_loop u' r) as [x'|]; [|discriminate]. cbn in H2. injection H2 as <-.
          exists d, x'. split; [reflexivity|]. split; [reflexivity|]. right. auto. }
    destruct K as (e & x' & -> & Hx' & He).
    destruct (IH q r u' x' L1 L2 Hu' Hx') as (v' & V1 & V2).
    assert (K : exists w, dims_loop (b :: q) (c :: r) = Ok (w :: v') /\
              ((a = w \/ a = 1%nat) /\ e = w \/ (a <> w /\ a <> 1%nat /\ w = 1%nat /\ e = a))).
    { cbn [dims_loop]. rewrite V1. cbn [bind].
      destruct (Nat.eqb_spec b c) as [E|E]; cbn [orb].
      - exists c. split; [reflexivity|]. lia.
      - destruct (Nat.eqb_spec b 1) as [E'|E'].
        + exists c. split; [reflexivity|]. lia.
        + destruct (Nat.eqb_spec c 1) as [E2|E2]; [|exfalso; lia].
          exists b. split; [reflexivity|]. lia. }
    destruct K as (w & W1 & W2). exists (w :: v'). split; [exact W1|]. cbn [dims_loop]. rewrite V2. cbn [bind].
    destruct (Nat.eqb_spec a w) as [E|E]; cbn [orb].
    + f_equal. f_equal. lia.
    + destruct (Nat.eqb_spec a 1) as [E'|E'].
      * f_equal. f_equal. lia.
      * destruct (Nat.eqb_spec w 1) as [E2|E2]; [|exfalso; lia]. f_equal. f_equal. lia.
Qed.

Lemma add_assoc a b c ab x : mixture_ok a -> mixture_ok b -> mixture_ok c ->
  same_ndim a b -> same_ndim b c -> add a b = Ok ab -> add ab c = Ok x ->
  exists bc y, add b c = Ok bc /\ add a bc = Ok y /\ same_mixture x y.
Proof.
  intros Ha Hb Hc L1 L2 H1 H2.
  destruct (add_full a b Ha Hb L1) as [F1 G1]. pose proof (G1 ab H1) as B1.
  destruct (F1 _ B1) as (ab' & _ & E1 & S1 & _ & St1 & St2). rewrite H1 in E1. injection E1 as <-.
  assert (Hab : mixture_ok ab) by apply S1.
  assert (L3 : same_ndim ab c).
  { unfold same_ndim. rewrite <- (Forall2_len _ _ _ St2). exact L2. }
  destruct (add_full ab c Hab Hc L3) as [F2 G2]. pose proof (G2 x H2) as B2.
  destruct (F2 _ B2) as (x' & _ & E2 & S2 & _ & St3 & St4). rewrite H2 in E2. injection E2 as <-.
  assert (D1 := B1). rewrite bshape_dims in D1; [|apply Ha|exact L1].
  assert (D2 := B2). rewrite bshape_dims in D2; [|apply Hab|exact L3].
  destruct (dims_assoc _ _ _ _ _ L1 L2 D1 D2) as (v & V1 & V2).
  destruct (add_full b c Hb Hc L2) as [F3 G3].
  rewrite <- (bshape_dims (shape b) (shape c)) in V1; [|apply Hb|exact L2].
  destruct (F3 v V1) as (bc & _ & E3 & S3 & Sv & St5 & St6). subst v.
  assert (Hbc : mixture_ok bc) by apply S3.
  assert (L4 : same_ndim a bc).
  { unfold same_ndim. rewrite <- (Forall2_len _ _ _ St5). exact L1. }
  destruct (add_full a bc Ha Hbc L4) as [F4 G4].
  rewrite <- (bshape_dims (shape a) (shape bc)) in V2; [|apply Ha|exact L4].
  destruct (F4 _ V2) as (y & _ & E4 & S4 & Sy & St7 & St8).
  exists bc, y. split; [exact E3|]. split; [exact E4|]. split; [now symmetry|].
  intros s i Hi.
  destruct S1 as (_ & _ & _ & A1). destruct S2 as (_ & _ & _ & A2).
  destruct S3 as (_ & _ & _ & A3). destruct S4 as (_ & _ & _ & A4).
  rewrite (A2 s i Hi). rewrite (A4 s i) by (rewrite Sy; exact Hi).
  rewrite (A1 s _ (project_in _ _ _ St3 Hi)), (A3 s _ (project_in _ _ _ St8 Hi)).
  pose proof (index_in_len _ _ Hi) as Li.
  rewrite !project_project; try assumption;
    try (rewrite Li; symmetry; eapply Forall2_len; eassumption).
  apply fadd_assoc.
Qed.

(* ---- totals ---- *)
Lemma fsum_ext {A} (f g : A -> fl) l : (forall x, In x l -> f x = g x) -> fsum f l = fsum g l.
Proof.
  induction l as [|x l IH]; intro H; [reflexivity|]. cbn. rewrite H by now left. f_equal. apply IH.
  intros y Hy; apply H; now right.
Qed.
Lemma fsum_add {A} (f g : A -> fl) l : fsum (fun x => fadd (f x) (g x)) l = fadd (fsum f l) (fsum g l).
Proof.
  induction l as [|x l IH]; cbn [fsum]; [cbn; f_equal; lra|]. rewrite IH.
  rewrite !fadd_assoc. f_equal. rewrite <- !fadd_assoc. f_equal. apply fadd_comm.
Qed.
Lemma fsum_app {A} (f : A -> fl) l r : fsum f (l ++ r) = fadd (fsum f l) (fsum f r).
Proof. induction l as [|x l IH]; cbn [app fsum]; [now rewrite fadd_0_l|]. now rewrite IH, fadd_assoc. Qed.
Lemma fsum_perm {A} (f : A -> fl) l r : Permutation l r -> fsum f l = fsum f r.
Proof.
  induction 1; cbn [fsum]; [reflexivity|congruence| |congruence].
  rewrite <- !fadd_assoc. f_equal. apply fadd_comm.
Qed.
Lemma fsum_zero {A} (f : A -> fl) l : (forall x, In x l -> f x = Some 0) -> fsum f l = Some 0.
Proof.
  induction l as [|x l IH]; intro H; [reflexivity|]. cbn [fsum]. rewrite H by now left.
  rewrite IH by (intros y Hy; apply H; now right). cbn. f_equal; lra.
Qed.

Lemma perm_split (l c : list string) : NoDup l -> NoDup c -> incl l c ->
  exists r, Permutation c (l ++ r) /\ forall x, In x r -> ~ In x l.
Proof.
  intros Hl Hc Hi.
  exists (filter (fun x => negb (memb x l)) c). split.
  - assert (P1 : Permutation c (filter (fun x => memb x l) c ++ filter (fun x => negb (memb x l)) c)).
    { clear. induction c as [|x c IH]; [constructor|]. cbn. destruct (memb x l); cbn.
      - now constructor.
      - rewrite <- Permutation_middle. now constructor. }
    rewrite P1 at 1. apply Permutation_app_tail. apply NoDup_Permutation.
    + now apply NoDup_filter.
    + exact Hl.
    + intro x. rewrite filter_In, memb_spec. split; [tauto|]. intro H; split; [now apply Hi|exact H].
  - intros x Hx Hc'. apply filter_In in Hx. destruct Hx as [_ Hx].
    rewrite (proj2 (memb_spec x l) Hc') in Hx. discriminate.
Qed.

Lemma total_superset m c i : NoDup (x_c m) -> NoDup c -> incl (x_c m) c ->
  fsum (fun s => amount m s i) c = total m i.
Proof.
  intros H1 H2 H3. destruct (perm_split (x_c m) c H1 H2 H3) as (r & Hp & Hr).
  rewrite (fsum_perm _ _ _ Hp), fsum_app. unfold total. rewrite (fsum_zero _ r).
  - apply fadd_0_r.
  - intros x Hx. apply amount_absent. now apply Hr.
Qed.

Lemma totals_add a b c : mixture_ok a -> mixture_ok b -> same_ndim a b -> add a b = Ok c ->
  forall i, index_in (shape c) i ->
    total c i = fadd (total a (project (shape a) i)) (total b (project (shape b) i)).
Proof.
  intros Ha Hb Hl Hc i Hi. destruct (sum_amounts a b Ha Hb Hl) as (S & _ & _).
  destruct (S c Hc) as (C1 & C2 & C3 & C4).
  unfold total at 1. rewrite (fsum_ext _ _ _ (fun s _ => C4 s i Hi)), fsum_add.
  rewrite !total_superset; try reflexivity; try apply Ha; try apply Hb; try apply C1;
    intros s Hs; apply C3; auto.
Qed.

(* ---- the arrays of totals ---- *)
Lemma fold_fadd {A} (f : A -> fl) l : forall acc,
  fold_left (fun acc k => fadd acc (f k)) l acc = fadd acc (fsum f l).
Proof.
  induction l as [|x l IH]; intro acc; cbn [fold_left fsum]; [now rewrite fadd_0_r|].
  now rewrite IH, fadd_assoc.
Qed.
Lemma fsum_map {A B} (g : A -> B) (f : B -> fl) l : fsum f (map g l) = fsum (fun x => f (g x)) l.
Proof. induction l as [|x l IH]; cbn; [reflexivity|]. now rewrite IH. Qed.
Lemma seq_nth_map (c : list string) : map (fun k => nth k c "") (seq 0 (List.length c)) = c.
Proof.
  apply nth_ext with (d := "") (d' := ""); rewrite map_length, seq_length; [reflexivity|].
  intros k Hk. rewrite (nth_indep _ "" (nth 0 c "")) by (rewrite map_length, seq_length; exact Hk).
  rewrite (map_nth (fun k => nth k c "") (seq 0 (List.length c)) 0%nat k).
  now rewrite seq_nth.
Qed.
Lemma sum_rows_total m i : mixture_ok m -> nel (sum_rows (x_q m)) i = total m i.
Proof.
  intros (H1 & H2 & H3). cbn [sum_rows nel]. rewrite fold_fadd, fadd_0_l, H1. cbn [hd].
  unfold total. rewrite <- (seq_nth_map (x_c m)) at 2. rewrite fsum_map.
  apply fsum_ext. intros k Hk. apply in_seq in Hk. rewrite amount_index, index_of_nth; [reflexivity|exact H3|lia].
Qed.

(* ---- differences ---- *)
Lemma neg_ok a : mixture_ok a -> mixture_ok (neg a).
Proof. exact (fun H => H). Qed.
Lemma neg_amount a s i : amount (neg a) s i = lift1 Ropp (amount a s i).
Proof.
  rewrite !amount_index. cbn [neg x_c x_q np_map nel]. destruct (index_of s (x_c a)); [reflexivity|].
  cbn. f_equal; lra.
Qed.
Lemma fadd_neg_l a b : fadd (lift1 Ropp a) b = fsub b a.
Proof. destruct a, b; cbn; f_equal; lra. Qed.
Lemma difference a b : mixture_ok a -> mixture_ok b -> same_ndim a b ->
  (forall c, sub a b = Ok c -> mixture_ok c /\ numpy_broadcast (shape a) (shape b) (shape c) /\
     forall s i, index_in (shape c) i ->
       amount c s i = fsub (amount a s (project (shape a) i)) (amount b s (project (shape b) i))) /\
  ((exists u, numpy_broadcast (shape a) (shape b) u) -> exists c, sub a b = Ok c).
Proof.
  intros Ha Hb Hl.
  assert (Hl' : same_ndim (neg b) a) by (symmetry; exact Hl).
  destruct (sum_amounts (neg b) a (neg_ok b Hb) Ha Hl') as (S & E & _).
  change (shape (neg b)) with (shape b) in *. split.
  - intros c Hc. destruct (S c Hc) as (C1 & C2 & _ & C4). split; [exact C1|]. split; [now apply numpy_sym|].
    intros s i Hi. rewrite (C4 s i Hi), neg_amount. apply fadd_neg_l.
  - intros [u Hu]. apply E. exists u. now apply numpy_sym.
Qed.

(* a - a is empty of everything *)
Lemma self_difference a s i : mixture_ok a -> exists c, sub a a = Ok c /\
  (index_in (shape c) i -> amount a s i <> None -> amount c s i = Some 0).
Proof.
  intros Ha. destruct (difference a a Ha Ha eq_refl) as [D E].
  assert (N : numpy_broadcast (shape a) (shape a) (shape a)).
  { split; [lia|]. intros j _. cbv zeta. split; [auto|]. now destruct (Nat.eqb (from_end (shape a) j) 1). }
  destruct E as [c Hc]; [eauto|]. exists c. split; [exact Hc|].
  destruct (D c Hc) as (C1 & C2 & C3).
  assert (Es : shape c = shape a) by (apply np_shape_spec in C2, N; congruence).
  intros Hi Hn. rewrite C3 by exact Hi. rewrite Es in Hi. rewrite project_id by exact Hi.
  destruct (amount a s i); [cbn; f_equal; lra|congruence].
Qed.

(* ---- a failed in-place addition ---- *)
Lemma failed_unchanged a b a' e : mixture_ok a -> mixture_ok b -> same_ndim a b ->
  incl (x_c b) (x_c a) -> iadd a b = (a', Err e) -> a' = a.
Proof.
  intros Ha Hb Hl Hi H. destruct (add_full a b Ha Hb Hl) as [F _].
  destruct (broadcast_shape (shape b) (shape a)) as [sh|e'] eqn:E.
  - destruct (F sh eq_refl) as (c & H1 & _). congruence.
  - unfold iadd in H. rewrite E, (add_names_incl _ _ Hi) in H. injection H as <- _. now destruct a.
Qed.

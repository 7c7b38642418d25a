(* Calls of the multi-phase class with arrays: each element is what a call with that element
   alone returns. *)
From Coq Require Import Reals ZArith List String Bool Lia Lra.
From Verif Require Import Base Model_Num Model_Units Model_Igas Proof_IgasState Proof_Iter Model_Hybrid Model_Mp1Calls Spec_Mp1Calls Proof_IgasCalls Proof_Mp1Args Proof_Mp1Neg Proof_Mp1Inv Proof_IgtArgs Spec_Igas.
Import ListNotations.
Local Open Scope R_scope.
Local Open Scope string_scope.
Local Open Scope list_scope.

Definition one {B} (r : res (list B)) (Q : B -> Prop) (b : B) : Prop := r = Ok [b] \/ (r = Err PMParamError /\ Q b).

Lemma nth_map2_inv {A B C} (f : A -> B -> C) l m i c : nth_error (map2 f l m) i = Some c ->
  exists a b, nth_error l i = Some a /\ nth_error m i = Some b /\ c = f a b.
Proof. apply nth_map2. Qed.
Lemma nth_map_inv {A B} (f : A -> B) l i c : nth_error (map f l) i = Some c -> exists a, nth_error l i = Some a /\ c = f a.
Proof. apply nth_map. Qed.
Lemma nth_combine {A B} (u : list A) (v : list B) i z : nth_error (combine u v) i = Some z ->
  exists x y, nth_error u i = Some x /\ nth_error v i = Some y /\ z = (x, y).
Proof.
  intro H. apply (nth_map2_inv pair u v). unfold map2. rewrite <- (map_id (combine u v)) in H. rewrite <- H. f_equal.
  apply map_ext. now intros [].
Qed.
Lemma traverse_length {A B} (f : A -> res B) l bs : traverse f l = Ok bs -> List.length bs = List.length l.
Proof.
  revert bs. induction l as [|x l IH]; intros bs H; cbn [traverse] in H; [injection H as <-; reflexivity|].
  destruct (f x) as [b|]; [|discriminate]. cbn [bind] in H. destruct (traverse f l) as [b'|]; [|discriminate].
  cbn [bind] in H. injection H as <-. cbn. now rewrite (IH b' eq_refl).
Qed.
Lemma traverse_nth' {A B} (f : A -> res B) l bs i b : traverse f l = Ok bs -> nth_error bs i = Some b ->
  exists a, nth_error l i = Some a /\ f a = Ok b.
Proof.
  intros H N. destruct (nth_error l i) as [a|] eqn:Q.
  - destruct (traverse_nth f l bs i a H Q) as (b' & H1 & H2). exists a. split; [reflexivity|congruence].
  - apply nth_error_None in Q. rewrite <- (traverse_length _ _ _ H) in Q. apply nth_error_None in Q. congruence.
Qed.
Lemma traverse_one {A B} (f : A -> res B) a b : f a = Ok b -> traverse f [a] = Ok [b].
Proof. intro H. cbn [traverse]. rewrite H. reflexivity. Qed.

Lemma hybrid_elem par ep N oob es qs w i q : hybrid1 par ep N oob es = Ok (qs, w) -> nth_error qs i = Some q ->
  exists e, nth_error es i = Some e /\ ((exists w', hybrid1 par ep N oob [e] = Ok ([q], w')) \/ (hybrid1 par ep N oob [e] = Err PMParamError /\ e_sel e = true /\ q = oob)).
Proof.
  unfold hybrid1. destruct (existsb e_sel es && _)%bool; [discriminate|]. intro H. injection H as <- _.
  intro H. apply nth_map_inv in H. destruct H as (e & He & ->). exists e. split; [exact He|].
  destruct (existsb e_sel [e] && _)%bool eqn:X; [right|left; cbn [map]; eauto].
  cbn [existsb forallb] in X. destruct (e_sel e); [|discriminate]. cbn in X. destruct (not_bracketed e); [auto|discriminate].
Qed.

Lemma F2_len {A B} (R : A -> B -> Prop) l m : Forall2 R l m -> List.length l = List.length m.
Proof. induction 1; cbn; congruence. Qed.
Lemma elem_In (a : arr) i x : elem a i = Some x -> In x a.
Proof. destruct a as [|y [|z a]]; [destruct i; discriminate|intro H; injection H as ->; now left|]. apply nth_error_In. Qed.
Lemma nth_elem (l : arr) i x : nth_error l i = Some x -> elem l i = Some x.
Proof. destruct l as [|y [|z l]]; cbn; auto. destruct i as [|i]; cbn; [auto|destruct i; discriminate]. Qed.
Lemma bc_elem a b a' b' s1 s2 : broadcast a b = Ok (a', b', s1, s2) ->
  (forall i x, elem a' i = Some x -> elem a i = Some x) /\ (forall i x, elem b' i = Some x -> elem b i = Some x).
Proof.
  assert (K : forall (y x : fl) n i, elem (repeat y n) i = Some x -> x = y).
  { intros y x n i H. apply elem_In, repeat_spec in H. exact H. }
  unfold broadcast. destruct (Nat.eqb _ _); [intro H; injection H as <- <- _ _; auto|].
  destruct a as [|x [|x' a]]; destruct b as [|y [|y' b]]; try discriminate; intro H; injection H as <- <- _ _; (split; intros i z Hz; [try exact Hz|try exact Hz]); 
    try (apply (K _ _ _ _) in Hz; subst; reflexivity); try (destruct i; discriminate).
  all: try (change (elem (repeat x (List.length (y :: y' :: b))) i = Some z) in Hz; apply K in Hz; subst; reflexivity).
  all: try (change (elem (repeat y (List.length (x :: x' :: a))) i = Some z) in Hz; apply K in Hz; subst; reflexivity).
Qed.
Lemma bc2 a b l i x y : broadcast2 a b = Ok l -> nth_error l i = Some (x, y) -> elem a i = Some x /\ elem b i = Some y.
Proof.
  unfold broadcast2. destruct (broadcast a b) as [[[[a' b'] s1] s2]|] eqn:B; [|discriminate]. cbn [bind]. intro H. injection H as <-.
  intro N. apply nth_combine in N. destruct N as (u & v & Nu & Nv & Q). injection Q as -> ->. apply bc_elem in B. destruct B as [B1 B2].
  split; [apply B1|apply B2]; now apply nth_elem.
Qed.
Lemma bc3 a b c l i x y z : broadcast3 a b c = Ok l -> nth_error l i = Some (x, y, z) -> elem a i = Some x /\ elem b i = Some y /\ elem c i = Some z.
Proof.
  unfold broadcast3. destruct (broadcast a b) as [[[[a' b'] s1] s2]|] eqn:B; [|discriminate]. cbn [bind].
  destruct (broadcast a' c) as [[[[a2 c'] s3] s4]|] eqn:B2; [|discriminate]. cbn [bind].
  destruct (broadcast b' c') as [[[[b2 c2] s5] s6]|] eqn:B3; [|discriminate]. cbn [bind]. intro H. injection H as <-.
  intro N. apply nth_combine in N. destruct N as (u & w & Nu & Nw & Q). injection Q as <- ->. apply nth_combine in Nu. destruct Nu as (u' & v & Nu & Nv & Q). injection Q as -> ->.
  apply bc_elem in B, B2, B3. destruct B as [P1 P2], B2 as [P3 P4], B3 as [P5 P6].
  apply nth_elem in Nu, Nw, Nv. auto.
Qed.

Section Elem.
  Variable D : mpdata.
  Variable E : env.
  Variable fuel : nat.
  Hypothesis TT : 0 < mp_Tt D < mp_Tc D.

  Definition lost (s : point) : Prop := s_T s = e_oob E \/ (s_d1 s = e_oob E /\ s_sat s = false).
  Lemma fl_xf (x : fl) : fl_of (xf_of x) = x.
  Proof. destruct x; reflexivity. Qed.
  Lemma Ts_elem ps Ts i t : mp_Ts D ps = Ok Ts -> nth_error Ts i = Some t ->
    exists a, nth_error ps i = Some a /\ mp_Ts D [a] = Ok [t].
  Proof.
    unfold mp_Ts. intros H N.
    assert (CALM : forall ps, Forall (calm (mp_Tt D * (99/100)) (mp_Tc D)) (map (Ts_cell D) ps)).
    { intro l. apply Forall_forall. intros c Hc. apply in_map_iff in Hc. destruct Hc as ((b & p') & <- & _). intros _.
      unfold outside, Ts_cell. cbn [c_x]. unfold flt, num. destruct (Rlt_dec _ _); [exfalso; lra|]. destruct (Rlt_dec _ _); [exfalso; lra|reflexivity]. }
    destruct (iter_loop _ _ _ _ _ _) as [[cs w]|] eqn:L; [|discriminate]. cbn [bind fst] in H. injection H as <-.
    apply (iter_pointwise _ _ _ _ _ _ _ _ (CALM ps)) in L. destruct L as (rs & F & -> & _).
    rewrite map_map in N. apply nth_map_inv in N. destruct N as (r & Nr & ->).
    assert (G : exists a, nth_error ps i = Some a /\ solo_iter ep_default (mp_Tt D * (99/100)) (mp_Tc D) 20 20 (Ts_cell D a) r).
    { clear - F Nr. remember (map (Ts_cell D) ps) as cs eqn:Q. revert ps i Q Nr. induction F as [|c r0 cs rs Hc F IH]; intros [|p ps] i Q Nr; try discriminate; [destruct i; discriminate|].
      injection Q as -> ->. destruct i as [|i]; [injection Nr as <-; exists p; auto|]. exact (IH ps i eq_refl Nr). }
    destruct G as (a & Na & S). exists a. split; [exact Na|]. unfold solo_iter in S. cbn [map]. rewrite S. reflexivity.
  Qed.
  Lemma d_elem_one l ds i d : mp_d D (e_oob E) fuel l = Ok ds -> nth_error ds i = Some d ->
    exists a, nth_error l i = Some a /\ one (mp_d D (e_oob E) fuel [a]) (fun d => d = e_oob E /\ (let '(sel, _, _, _) := a in sel) = true) d.
  Proof.
    unfold mp_d. intros H N. destruct (traverse _ l) as [es|] eqn:T; [|discriminate]. cbn [bind] in H.
    destruct (hybrid1 _ _ _ _ es) as [[qs w]|] eqn:Q; [|discriminate]. cbn [bind fst] in H. injection H as <-.
    apply nth_map_inv in N. destruct N as (q & Nq & ->). destruct (hybrid_elem _ _ _ _ _ _ _ _ _ Q Nq) as (e & Ne & H1).
    destruct (traverse_nth' _ _ _ _ _ T Ne) as (a & Na & Fa). exists a. split; [exact Na|].
    rewrite (traverse_one _ _ _ Fa). cbn [bind]. destruct H1 as [(w' & ->)|(-> & Hs & ->)]; [left; reflexivity|right]. split; [reflexivity|]. split; [apply fl_xf|].
    destruct a as [[[sel T0] p] x0]. cbn [d_elem] in Fa. destruct (d_limits _ _ _) as [da db]. destruct (if sel then _ else _) as [da'|]; [|discriminate]. cbn [bind] in Fa. injection Fa as <-. exact Hs.
  Qed.
  Lemma T_elem_one l r i t : mp_T D (e_oob E) l = Ok r -> nth_error r i = Some t ->
    exists a, nth_error l i = Some a /\ one (mp_T D (e_oob E) [a]) (fun t => fst t = e_oob E) t.
  Proof.
    unfold mp_T. intros H N. destruct (mp_Ts D _) as [Ts|] eqn:S; [|discriminate]. cbn [bind] in H.
    destruct (hybrid1 _ _ _ _ _) as [[qs w]|] eqn:Q; [|discriminate]. cbn [bind fst] in H. injection H as <-.
    apply nth_map2_inv in N. destruct N as (q & pl & Nq & Npl & ->).
    apply nth_map2_inv in Npl. destruct Npl as (a & ts & Na & Nt & ->).
    destruct (Ts_elem _ _ _ _ S Nt) as (a' & Na' & S1). apply nth_map_inv in Na'. destruct Na' as (a2 & Na2 & ->).
    assert (a2 = a) by congruence. subst a2.
    destruct (hybrid_elem _ _ _ _ _ _ _ _ _ Q Nq) as (e & Ne & H1). apply nth_map2_inv in Ne. destruct Ne as (a3 & pl3 & Na3 & Npl3 & ->).
    apply nth_map2_inv in Npl3. destruct Npl3 as (a4 & t4 & Na4 & Nt4 & ->).
    assert (a3 = a) by congruence. assert (a4 = a) by congruence. assert (t4 = ts) by congruence. subst a3 a4 t4.
    exists a. split; [exact Na|]. cbn [map]. rewrite S1. cbn [bind map2 combine map fst snd].
    destruct H1 as [(w' & H1)|(H1 & _ & ->)]; unfold map2; cbn [combine map fst snd]; rewrite H1; [left; reflexivity|right]. split; [reflexivity|]. apply fl_xf.
  Qed.

  Lemma Tpx_elem l pts i s : from_Tpx D E fuel l = Ok pts -> nth_error pts i = Some s ->
    exists a, nth_error l i = Some a /\ one (from_Tpx D E fuel [a]) lost s.
  Proof.
    unfold from_Tpx. intros H N. destruct (mp_d _ _ _ _) as [ds|] eqn:M; [|discriminate]. cbn [bind] in H. injection H as <-.
    apply nth_map2_inv in N. destruct N as (a & d & Na & Nd & ->). destruct (d_elem_one _ _ _ _ M Nd) as (b & Nb & O).
    apply nth_map_inv in Nb. destruct Nb as (a2 & Na2 & ->). assert (a2 = a) by congruence. subst a2.
    exists a. split; [exact Na|]. cbn [map]. destruct a as [[T p] x]. destruct O as [->|(-> & -> & Q)]; [left; reflexivity|right]. split; [reflexivity|].
    rewrite Q. right. split; reflexivity.
  Qed.
  Lemma Tx_elem l pts i s : from_Tx D l = Ok pts -> nth_error pts i = Some s ->
    exists a, nth_error l i = Some a /\ one (from_Tx D [a]) lost s.
  Proof.
    unfold from_Tx. intros H N. destruct (existsb _ l) eqn:X1; [discriminate|]. destruct (existsb _ l) eqn:X2 in H; [discriminate|]. injection H as <-.
    apply nth_map_inv in N. destruct N as (a & Na & ->). exists a. split; [exact Na|]. left. pose proof (nth_error_In _ _ Na) as IN.
    rewrite !Proof_Iter.existsb_false, Forall_forall in *.
    cbn [existsb]. rewrite (X1 _ IN), (X2 _ IN). reflexivity.
  Qed.
  Lemma pd_elem l pts i s : from_pd D E l = Ok pts -> nth_error pts i = Some s ->
    exists a, nth_error l i = Some a /\ one (from_pd D E [a]) lost s.
  Proof.
    unfold from_pd. intros H N. destruct (mp_T _ _ _) as [r|] eqn:M; [|discriminate]. cbn [bind] in H. injection H as <-.
    apply nth_map2_inv in N. destruct N as (a & t & Na & Nt & ->). destruct (T_elem_one _ _ _ _ M Nt) as (a2 & Na2 & O).
    assert (a2 = a) by congruence. subst a2.
    exists a. split; [exact Na|]. destruct O as [->|(-> & Q)]; [left; reflexivity|right]. split; [reflexivity|]. left. destruct a as [d p], t as [T pl]. cbn [fst] in Q. subst T.
    destruct (tp_sat pl); reflexivity.
  Qed.
  Lemma hp_elem_one fn l pts i s : from_hp D E fuel fn l = Ok pts -> nth_error pts i = Some s ->
    exists a, nth_error l i = Some a /\ one (from_hp D E fuel fn [a]) lost s.
  Proof.
    unfold from_hp. intros H N. destruct (mp_Ts _ _) as [Ts|] eqn:S; [|discriminate]. cbn [bind] in H.
    destruct (hybrid1 _ _ _ _ _) as [[qs w]|] eqn:Q; [|discriminate]. cbn [bind fst] in H.
    destruct (mp_d _ _ _ _) as [ds|] eqn:M; [|discriminate]. cbn [bind] in H. injection H as <-.
    apply nth_map2_inv in N. destruct N as (tp & d & Ntp & Nd & ->).
    destruct (d_elem_one _ _ _ _ M Nd) as (b & Nb & O).
    apply nth_map2_inv in Nb. destruct Nb as (a & tp2 & Na & Ntp2 & ->). assert (tp2 = tp) by congruence. subst tp2.
    assert (K : exists q pl, nth_error qs i = Some q /\ nth_error (map2 (fun e t => plan_hp D fn (fst e) (snd e) t) l Ts) i = Some pl /\ tp = (fl_of q, pl)).
    { apply nth_combine in Ntp. destruct Ntp as (x & y & Hx & Hy & ->). apply nth_map_inv in Hx. destruct Hx as (q & Hq & ->). eauto. }
    destruct K as (q & pl & Nq & Npl & ->).
    apply nth_map2_inv in Npl. destruct Npl as (a1 & ts & Na1 & Nt & ->). assert (a1 = a) by congruence. subst a1.
    destruct (Ts_elem _ _ _ _ S Nt) as (a' & Na' & S1). apply nth_map_inv in Na'. destruct Na' as (a2 & Na2 & ->).
    assert (a2 = a) by congruence. subst a2.
    destruct (hybrid_elem _ _ _ _ _ _ _ _ _ Q Nq) as (e & Ne & H1). apply nth_map2_inv in Ne. destruct Ne as (a3 & pl3 & Na3 & Npl3 & ->).
    apply nth_map2_inv in Npl3. destruct Npl3 as (a4 & t4 & Na4 & Nt4 & ->).
    assert (a3 = a) by congruence. assert (a4 = a) by congruence. assert (t4 = ts) by congruence. subst a3 a4 t4.
    exists a. split; [exact Na|]. cbn [map]. rewrite S1. unfold map2. cbn [bind combine map fst snd].
    destruct H1 as [(w' & H1)|(H1 & _ & ->)]; rewrite H1; cbn [bind fst map combine];
      [|right; split; [reflexivity|]; left; rewrite fl_xf; destruct (hp_sat _); reflexivity].
    cbn [fst snd] in O. unfold map2. cbn [combine map fst snd]. destruct O as [O|(O & -> & Q')]; (match goal with |- one (bind ?m _) _ _ => match type of O with _ = ?r => replace m with r by (symmetry; exact O) end end); [left; reflexivity|right].
    split; [reflexivity|]. right. destruct (hp_sat _); [discriminate|]. split; reflexivity.
  Qed.
  Lemma hd_elem_one fn l pts i s : from_hd D E fn l = Ok pts -> nth_error pts i = Some s ->
    exists a, nth_error l i = Some a /\ one (from_hd D E fn [a]) lost s.
  Proof.
    unfold from_hd. intros H N. destruct (hybrid1 _ _ _ _ _) as [[qs w]|] eqn:Q; [|discriminate]. cbn [bind fst] in H. injection H as <-.
    apply nth_map2_inv in N. destruct N as (a & q & Na & Nq & ->). destruct (hybrid_elem _ _ _ _ _ _ _ _ _ Q Nq) as (e & Ne & H1).
    apply nth_map_inv in Ne. destruct Ne as (a2 & Na2 & ->). assert (a2 = a) by congruence. subst a2.
    exists a. split; [exact Na|]. cbn [map]. destruct a as [h d]. destruct H1 as [(w' & ->)|(-> & _ & ->)]; [left; reflexivity|right]. split; [reflexivity|].
    left. rewrite fl_xf. destruct (_ && _)%bool; reflexivity.
  Qed.
  Lemma sT_elem_one fn l pts i s : from_sT D E fn l = Ok pts -> nth_error pts i = Some s ->
    exists a, nth_error l i = Some a /\ one (from_sT D E fn [a]) lost s.
  Proof.
    unfold from_sT. cbv zeta. intros H N. destruct (traverse _ _) as [es|] eqn:T; [|discriminate]. cbn [bind] in H.
    destruct (hybrid1 _ _ _ _ _) as [[qs w]|] eqn:Q; [|discriminate]. cbn [bind fst] in H. injection H as <-.
    apply nth_map2_inv in N. destruct N as (a & q & Na & Nq & ->). destruct (hybrid_elem _ _ _ _ _ _ _ _ _ Q Nq) as (e & Ne & H1).
    destruct (traverse_nth' _ _ _ _ _ T Ne) as (b & Nb & Fb). assert (b = a) by congruence. subst b.
    apply nth_map_inv in Na. destruct Na as (a2 & Na2 & ->). exists a2. split; [exact Na2|].
    cbn [map]. rewrite (traverse_one _ _ _ Fb). cbn [bind]. destruct a2 as [x T0].
    destruct H1 as [(w' & ->)|(-> & Hs & ->)]; [left; reflexivity|right]. split; [reflexivity|]. right.
    cbn [sT_elem fst snd] in Fb. destruct (sT_lower _ _ _ _ _) as [da|]; [|discriminate]. cbn [bind] in Fb. injection Fb as <-. cbn [e_sel fst snd] in Hs.
    cbn [fst snd]. destruct (st_sat _); [discriminate|]. split; [apply fl_xf|reflexivity].
  Qed.
  Lemma px_elem (p x : arr) pts i s pi xi : from_px D p x = Ok pts -> nth_error pts i = Some s -> elem p i = Some pi -> elem x i = Some xi ->
    one (from_px D [pi] [xi]) lost s.
  Proof.
    unfold from_px. intros H N Ep Ex. destruct (existsb _ p) eqn:X1; [discriminate|]. destruct (existsb _ x) eqn:X2; [discriminate|].
    destruct (broadcast2 p x) as [l|] eqn:B; [|discriminate]. cbn [bind] in H.
    destruct (mp_Ts D _) as [Ts|] eqn:S; [|discriminate]. cbn [bind] in H. injection H as <-.
    apply nth_map2_inv in N. destruct N as ((p0 & x0) & t & Na & Nt & ->).
    destruct (bc2 _ _ _ _ _ _ B Na) as (Ep' & Ex'). assert (p0 = pi) by congruence. assert (x0 = xi) by congruence. subst p0 x0.
    destruct (Ts_elem _ _ _ _ S Nt) as (a' & Na' & S1). apply nth_map_inv in Na'. destruct Na' as (a2 & Na2 & ->).
    assert (a2 = (pi, xi)) by congruence. subst a2. left. cbn [existsb].
    rewrite Proof_Iter.existsb_false, Forall_forall in X1, X2. rewrite (X1 _ (elem_In _ _ _ Ep)), (X2 _ (elem_In _ _ _ Ex)). cbn [orb].
    change (broadcast2 [pi] [xi]) with (Ok [(pi, xi)] : res (list (fl * fl))). cbn [bind map fst]. cbn [fst] in S1. rewrite S1. reflexivity.
  Qed.

  (* ---- arguments ---- *)
  Variable i : nat.
  Definition at1 (a b : arr) : Prop := exists z, elem a i = Some z /\ b = [z].
  Definition atk (kw kw1 : kwargs) : Prop := Forall2 (fun x y => fst x = fst y /\ at1 (snd x) (snd y)) kw kw1.
  Definition oat (o o1 : option arr) : Prop := match o, o1 with Some a, Some b => at1 a b | None, None => True | _, _ => False end.

  Lemma dget_at k kw kw1 : atk kw kw1 -> oat (dget k kw) (dget k kw1).
  Proof.
    induction 1 as [|[k1 a] [k2 b] kw kw1 [Q R] F IH]; [exact I|]. cbn [fst snd] in *. subst k2. cbn [dget].
    destruct (String.eqb k k1); [exact R|exact IH].
  Qed.
  Lemma dmem_at k kw kw1 : atk kw kw1 -> dmem k kw1 = dmem k kw.
  Proof. intro H. pose proof (dget_at k kw kw1 H) as G. unfold dmem, oat in *. destruct (dget k kw), (dget k kw1); tauto. Qed.
  Lemma dset_at k a b kw kw1 : at1 a b -> atk kw kw1 -> atk (dset k a kw) (dset k b kw1).
  Proof.
    intros Hab. induction 1 as [|[k1 x] [k2 y] kw kw1 [Q R] F IH]; [constructor; [auto|constructor]|]. cbn [fst snd] in *. subst k2. cbn [dset].
    destruct (String.eqb k k1); constructor; auto.
  Qed.
  Lemma keys_at kw kw1 : atk kw kw1 -> dkeys kw1 = dkeys kw.
  Proof. induction 1 as [|[k1 x] [k2 y] kw kw1 [Q R] F IH]; [reflexivity|]. unfold dkeys in *. cbn [map fst] in *. rewrite Q, IH. reflexivity. Qed.
  Lemma len_at kw kw1 : atk kw kw1 -> List.length kw1 = List.length kw.
  Proof. intro H. symmetry. exact (F2_len _ _ _ H). Qed.
  Lemma const_at (x : fl) : at1 [x] [x].
  Proof. exists x. split; reflexivity. Qed.

  Lemma positional_at varg varg1 kw kw1 k : Forall2 at1 varg varg1 -> atk kw kw1 -> positional varg kw = Ok k ->
    exists k1, positional varg1 kw1 = Ok k1 /\ atk k k1.
  Proof.
    intros F K. unfold positional.
    destruct F as [|a a1 v v1 Ha F]; [intro H; injection H as <-; exists kw1; auto|].
    rewrite (dmem_at "T" _ _ K). destruct (dmem "T" kw); [discriminate|]. cbn [bind].
    pose proof (dset_at "T" _ _ _ _ Ha K) as K2.
    destruct F as [|b b1 v v1 Hb F]; [intro H; injection H as <-; eexists; split; [reflexivity|exact K2]|].
    rewrite (dmem_at "p" _ _ K2). destruct (dmem "p" _); [discriminate|]. cbn [bind].
    pose proof (dset_at "p" _ _ _ _ Hb K2) as K3. cbn [List.length]. rewrite (F2_len _ _ _ F).
    destruct (Nat.ltb 2 _); [discriminate|]. intro H. injection H as <-. eexists. split; [reflexivity|exact K3].
  Qed.
  Lemma defaults_at kw kw1 k : atk kw kw1 -> defaults E kw = Ok k -> exists k1, defaults E kw1 = Ok k1 /\ atk k k1.
  Proof.
    intro K. unfold defaults. cbv zeta. rewrite (len_at _ _ K), (dmem_at "T" _ _ K).
    destruct (List.length kw) as [|[|n]].
    - destruct (def_T _ _ _) as [t|]; [|discriminate]. cbn [bind]. destruct (def_p _ _ _ _) as [p|]; [|discriminate]. cbn [bind].
      intro H. apply ok_inj in H. subst k. eexists. split; [reflexivity|]. apply dset_at; [apply const_at|]. apply dset_at; [apply const_at|exact K].
    - destruct (dmem "T" kw).
      + destruct (def_p _ _ _ _) as [p|]; [|discriminate]. cbn [bind].
        intro H. apply ok_inj in H. subst k. eexists. split; [reflexivity|]. apply dset_at; [apply const_at|exact K].
      + destruct (def_T _ _ _) as [p|]; [|discriminate]. cbn [bind].
        intro H. apply ok_inj in H. subst k. eexists. split; [reflexivity|]. apply dset_at; [apply const_at|exact K].
    - intro H. injection H as <-. eauto.
  Qed.
  Lemma rules_at kw kw1 : atk kw kw1 -> mp_rules kw1 = mp_rules kw.
  Proof.
    intro K. unfold mp_rules. rewrite (len_at _ _ K), (keys_at _ _ K), (dmem_at "v" _ _ K), (dmem_at "d" _ _ K).
    replace (filter (fun k => dmem k kw1) mp_inverse) with (filter (fun k => dmem k kw) mp_inverse); [reflexivity|].
    apply filter_ext. intro k. symmetry. exact (dmem_at k _ _ K).
  Qed.

  (* ---- conversions ---- *)
  Definition ew (F : arr -> res arr) : Prop := forall v w, F v = Ok w -> exists g, w = map g v /\ forall u, F u = Ok (map g u).
  Definition loc (Q : arr -> arr -> Prop) (F : arr -> res arr) : Prop := forall a b x, F a = Ok b -> elem a i = Some x ->
    (F [x] = Err PMParamError /\ Q a b) \/ exists y, F [x] = Ok [y] /\ elem b i = Some y.
  Lemma ew_comp F G : ew F -> ew G -> ew (fun v => do w <- F v; G w).
  Proof.
    intros HF HG v w H. destruct (F v) as [v1|] eqn:Q; [|discriminate]. cbn [bind] in H.
    destruct (HF _ _ Q) as (f & -> & Hf). destruct (HG _ _ H) as (g & -> & Hg). exists (fun x => g (f x)). rewrite map_map. split; [reflexivity|].
    intro u. rewrite Hf. cbn [bind]. now rewrite Hg, map_map.
  Qed.
  Lemma ew_convert q f t e : ew (fun v => aconvert E q v f t e).
  Proof. intros v w. unfold aconvert. destruct (convert _ _ _ _ _ _) as [k|]; [|discriminate]. cbn [bind]. intro H. injection H as <-. eauto. Qed.
  Lemma ew_matter mw f t e : ew (fun v => amatter E v mw f t e).
  Proof. intros v w. unfold amatter. destruct (matter _ _ _ _ _ _ _) as [k|]; [|discriminate]. cbn [bind]. intro H. injection H as <-. eauto. Qed.
  Lemma ew_tscale f t : ew (fun v => atscale E v f t).
  Proof. intros v w. unfold atscale. destruct (temperature_scale _ _ _ _) as [k|]; [|discriminate]. cbn [bind]. intro H. injection H as <-. eauto. Qed.
  Lemma ew_map g : ew (fun v => Ok (map g v)).
  Proof. intros v w H. injection H as <-. eauto. Qed.
  Lemma ew_id : ew (fun v => Ok v).
  Proof. intros v w H. injection H as <-. exists (fun x => x). split; [symmetry; apply map_id|]. intro u. now rewrite map_id. Qed.
  Lemma ew_energy : ew (si_energy D E).
  Proof. apply (ew_comp _ (fun v => amatter E v _ _ _ _)); [apply ew_convert|apply ew_matter]. Qed.
  Lemma elem_map g (a : arr) x : elem a i = Some x -> elem (map g a) i = Some (g x).
  Proof.
    destruct a as [|y [|z a]]; [destruct i; discriminate| |].
    - cbn. intro H. now injection H as <-.
    - unfold elem. change (map g (y :: z :: a)) with (g y :: g z :: map g a). intro H.
      change (nth_error (map g (y :: z :: a)) i = Some (g x)). exact (map_nth_error g i _ H).
  Qed.
  Lemma loc_ew Q F : ew F -> loc Q F.
  Proof. intros HF a b x H Ex. destruct (HF _ _ H) as (g & -> & Hg). right. exists (g x). split; [exact (Hg [x])|exact (elem_map _ _ _ Ex)]. Qed.
  Definition out lim (x : fl) : bool := flt x (num (fst lim)) || flt (num (snd lim)) x.
  Definition outside_of (F : arr -> res arr) lim (a b : arr) : Prop := exists w x, F a = Ok w /\ elem w i = Some x /\ out lim x = true /\ elem b i = Some (e_oob E).
  Lemma loc_limited F lim : ew F -> loc (outside_of F lim) (fun v => do w <- F v; limited E lim w).
  Proof.
    intros HF a b x H Ex. destruct (F a) as [a1|] eqn:Q; [|discriminate]. cbn [bind] in H. destruct (HF _ _ Q) as (g & -> & Hg). rewrite Hg. cbn [bind map].
    pose proof (elem_map g _ _ Ex) as Ey. revert H. unfold limited. cbv zeta. fold (out lim). change (fun x0 : fl => flt x0 (num (fst lim)) || flt (num (snd lim)) x0) with (out lim).
    destruct (forallb _ (map g a)); [discriminate|]. intro H. injection H as <-.
    cbn [forallb]. destruct (out lim (g x)) eqn:O; cbn [andb]; [left|right; exists (g x)]; (split; [first [reflexivity|change (Ok [if out lim (g x) then e_oob E else g x] = Ok [g x]); rewrite O; reflexivity]|]).
    - exists (map g a), (g x). split; [exact Q|]. split; [exact Ey|]. split; [exact O|]. rewrite (elem_map _ _ _ Ey). change (Some (if out lim (g x) then e_oob E else g x) = Some (e_oob E)). now rewrite O.
    - rewrite (elem_map _ _ _ Ey). change (Some (if out lim (g x) then e_oob E else g x) = Some (g x)). now rewrite O.
  Qed.
  Lemma loc_quality : loc (fun _ _ => False) (fun v => if existsb (fun x => flt (num 1) x) v || existsb (fun x => flt x (num (-1))) v then Err PMParamError else Ok v).
  Proof.
    intros a b x H Ex. destruct (existsb _ a) eqn:X1; [discriminate|]. destruct (existsb _ a) eqn:X2 in H; [discriminate|]. injection H as <-.
    right. exists x. split; [|exact Ex]. rewrite !Proof_Iter.existsb_false, !Forall_forall in X1, X2. cbn [existsb].
    rewrite (X1 _ (elem_In _ _ _ Ex)), (X2 _ (elem_In _ _ _ Ex)). reflexivity.
  Qed.
  Lemma ores_at Q F o o1 b : loc Q F -> oat o o1 -> ores o F = Ok b ->
    (ores o1 F = Err PMParamError /\ exists a c, o = Some a /\ b = Some c /\ Q a c) \/ exists b1, ores o1 F = Ok b1 /\ oat b b1.
  Proof.
    intros HF. destruct o as [a|], o1 as [a1|]; cbn [oat ores]; try tauto; [|intros _ H; injection H as <-; right; exists None; cbn; auto].
    intros (x & Ex & ->) H. destruct (F a) as [c|] eqn:W; [|discriminate]. cbn [bind] in H. injection H as <-.
    destruct (HF _ _ _ W Ex) as [(-> & L)|(y & -> & Ey)]; [left|right]; cbn [bind]; [split; [reflexivity|eauto]|]. eexists. split; [reflexivity|]. exists y. auto.
  Qed.
  Record sat1 (a b : sargs) : Prop := {
    q_T : oat (a_T a) (a_T b); q_p : oat (a_p a) (a_p b); q_d : oat (a_d a) (a_d b); q_x : oat (a_x a) (a_x b);
    q_inv : match a_inv a, a_inv b with Some (f, v), Some (f1, v1) => f = f1 /\ at1 v v1 | None, None => True | _, _ => False end }.
  Definition refused_or {B} (Q : Prop) (P : B -> Prop) (r : res B) : Prop := (r = Err PMParamError /\ Q) \/ exists b, r = Ok b /\ P b.
  Definition lost_T (a : sargs) : Prop := exists T, a_T a = Some T /\ elem T i = Some (e_oob E).
  Definition p_in (kw : kwargs) : Prop := forall v w y, dget "p" kw = Some v -> aconvert E QPressure v None (Some "Pa") None = Ok w -> elem w i = Some y -> out (mp_plim D) y = false.
  Ltac stp H K k L := let b := fresh "b" in let Q := fresh "Q" in let b1 := fresh "c" in let R := fresh "rel" in
    match type of H with bind (ores (dget k ?w) ?F) _ = _ => destruct (ores (dget k w) F) as [b|] eqn:Q; [|discriminate]; cbn [bind] in H;
      apply (ores_at _ F _ _ _ L (dget_at k _ _ K)) in Q; destruct Q as [(Q & R)|(b1 & Q & R)]; 
      match goal with |- refused_or _ _ (bind ?m _) => match type of Q with _ = ?r => replace m with r by (symmetry; exact Q) end end; clear Q; cbn [bind];
      [left; split; [reflexivity|]; try (exfalso; destruct R as (? & ? & _ & _ & R); exact R)|] end.
  Lemma si_at kw kw1 a : atk kw kw1 -> p_in kw -> si_args D E kw = Ok a -> refused_or (lost_T a) (sat1 a) (si_args D E kw1).
  Proof.
    intros K HP. unfold si_args. intro H.
    assert (L1 : loc (outside_of (fun v => atscale E v None (Some "K")) (mp_Tlim D)) (fun v => do v1 <- atscale E v None (Some "K"); limited E (mp_Tlim D) v1)) by (apply loc_limited, ew_tscale).
    assert (L2 : loc (outside_of (fun v => aconvert E QPressure v None (Some "Pa") None) (mp_plim D)) (fun v => do v1 <- aconvert E QPressure v None (Some "Pa") None; limited E (mp_plim D) v1)) by (apply loc_limited, ew_convert).
    assert (L3 : loc (fun _ _ => False) (fun v => do v1 <- aconvert E QVolume v None (Some "m3") (Some (-1)%Z); amatter E v1 (mp_mw D) None (Some "kg") None)) by (apply loc_ew, (ew_comp (fun v => aconvert E _ v _ _ _) (fun v => amatter E v _ _ _ _)); [apply ew_convert|apply ew_matter]).
    assert (L4 : loc (fun _ _ => False) (fun v => do v1 <- aconvert E QVolume v None (Some "m3") None; do v2 <- amatter E v1 (mp_mw D) None (Some "kg") (Some (-1)%Z); Ok (map reciprocal v2))).
    { apply loc_ew, (ew_comp (fun v => aconvert E _ v _ _ _) (fun v1 => do v2 <- amatter E v1 _ _ _ _; Ok (map reciprocal v2))); [apply ew_convert|].
      apply (ew_comp (fun v => amatter E v _ _ _ _) (fun v2 => Ok (map reciprocal v2))); [apply ew_matter|apply ew_map]. }
    assert (L5 : loc (fun _ _ => False) (si_energy D E)) by (apply loc_ew, ew_energy).
    assert (L6 : loc (fun _ _ => False) (fun v => do v1 <- si_energy D E v; aconvert E QTemperature v1 None (Some "K") (Some (-1)%Z))) by (apply loc_ew, (ew_comp _ (fun v => aconvert E _ v _ _ _)); [apply ew_energy|apply ew_convert]).
    stp H K "T" L1.
    { destruct rel as (v & c & Gv & -> & (w & x & Hw & Ex & O & Ec)).
      repeat (match type of H with bind ?m _ = _ => destruct m; [|discriminate]; cbn [bind] in H end). injection H as <-. exists c. split; [reflexivity|exact Ec]. }
    stp H K "p" L2.
    { exfalso. destruct rel0 as (v & c' & Gv & -> & (w & x & Hw & Ex & O & Ec)). rewrite (HP v w x Gv Hw Ex) in O. discriminate. }
    stp H K "d" L3. stp H K "v" L4. stp H K "h" L5. stp H K "e" L5. stp H K "s" L6. stp H K "x" loc_quality.
    injection H as <-. right. eexists. split; [reflexivity|].
    constructor; cbn [a_T a_p a_d a_x a_inv]; try assumption.
    - destruct b2, c2; cbn [oat] in *; tauto.
    - destruct b3, c3; cbn [oat] in *; try tauto. destruct b4, c4; cbn [oat] in *; try tauto. destruct b5, c5; cbn [oat] in *; tauto.
  Qed.

  Ltac refuse := intros; discriminate.
  Lemma args_at a b pts s : sat1 a b -> from_args D E fuel a = Ok pts -> nth_error pts i = Some s -> one (from_args D E fuel b) lost s.
  Proof.
    intros [qT qp qd qx qi]. unfold from_args. destruct (a_inv a) as [[fn h]|], (a_inv b) as [[fn' h']|]; try tauto.
    - destruct qi as (<- & (zh & Eh & ->)).
      destruct (a_p a) as [p|], (a_p b) as [p'|]; cbn [oat] in qp; try tauto.
      { destruct qp as (zp & Ezp & ->). change (broadcast2 [zh] [zp]) with (Ok [(zh, zp)] : res (list (fl * fl))). cbn [bind].
        destruct (broadcast2 h p) as [l|] eqn:B; [|refuse]. cbn [bind]. intros H N. destruct (hp_elem_one _ _ _ _ _ H N) as ((u & v) & Nu & O).
        destruct (bc2 _ _ _ _ _ _ B Nu). assert (u = zh) by congruence. assert (v = zp) by congruence. subst u v. exact O. }
      destruct (a_d a) as [p|], (a_d b) as [p'|]; cbn [oat] in qd; try tauto.
      { destruct qd as (zp & Ezp & ->). change (broadcast2 [zh] [zp]) with (Ok [(zh, zp)] : res (list (fl * fl))). cbn [bind].
        destruct (broadcast2 h p) as [l|] eqn:B; [|refuse]. cbn [bind]. intros H N. destruct (hd_elem_one _ _ _ _ _ H N) as ((u & v) & Nu & O).
        destruct (bc2 _ _ _ _ _ _ B Nu). assert (u = zh) by congruence. assert (v = zp) by congruence. subst u v. exact O. }
      destruct (a_x a) as [x|], (a_x b) as [x'|]; cbn [oat] in qx; try tauto; try refuse.
      destruct (a_T a) as [p|], (a_T b) as [p'|]; cbn [oat] in qT; try tauto; try refuse.
      destruct qT as (zp & Ezp & ->). change (broadcast2 [zh] [zp]) with (Ok [(zh, zp)] : res (list (fl * fl))). cbn [bind].
      destruct (broadcast2 h p) as [l|] eqn:B; [|refuse]. cbn [bind]. intros H N. destruct (sT_elem_one _ _ _ _ _ H N) as ((u & v) & Nu & O).
      destruct (bc2 _ _ _ _ _ _ B Nu). assert (u = zh) by congruence. assert (v = zp) by congruence. subst u v. exact O.
    - destruct (a_T a) as [T|], (a_T b) as [T'|]; cbn [oat] in qT; try tauto;
      destruct (a_p a) as [p|], (a_p b) as [p'|]; cbn [oat] in qp; try tauto.
      + destruct qT as (zT & EzT & ->). destruct qp as (zp & Ezp & ->). cbv zeta.
        set (x := match a_x a with Some x => x | None => [num (-1)] end).
        assert (X : exists zx, elem x i = Some zx /\ match a_x b with Some x => x | None => [num (-1)] end = [zx]).
        { subst x. destruct (a_x a) as [x|], (a_x b) as [x'|]; cbn [oat] in qx; try (exfalso; exact qx); [destruct qx as (zx & Ezx & ->); eauto|exists (num (-1)); split; reflexivity]. }
        destruct X as (zx & Ezx & ->). change (broadcast3 [zT] [zp] [zx]) with (Ok [(zT, zp, zx)] : res (list (fl * fl * fl))). cbn [bind].
        destruct (broadcast3 T p x) as [l|] eqn:B; [|refuse]. cbn [bind]. intros H N. destruct (Tpx_elem _ _ _ _ H N) as (((u & v) & w) & Nu & O).
        destruct (bc3 _ _ _ _ _ _ _ _ B Nu) as (? & ? & ?). assert (u = zT) by congruence. assert (v = zp) by congruence. assert (w = zx) by congruence. subst u v w. exact O.
      + destruct qT as (zT & EzT & ->). destruct (a_d a) as [d|], (a_d b) as [d'|]; cbn [oat] in qd; try tauto.
        * destruct qd as (zd & Ezd & ->). change (broadcast2 [zT] [zd]) with (Ok [(zT, zd)] : res (list (fl * fl))). cbn [bind].
          destruct (broadcast2 T d) as [l|] eqn:B; [|refuse]. cbn [bind]. intros H N. injection H as <-. apply nth_map_inv in N. destruct N as ((u & v) & Nu & ->).
          destruct (bc2 _ _ _ _ _ _ B Nu). assert (u = zT) by congruence. assert (v = zd) by congruence. subst u v. left. reflexivity.
        * destruct (a_x a) as [d|], (a_x b) as [d'|]; cbn [oat] in qx; try tauto; try refuse.
          destruct qx as (zd & Ezd & ->). change (broadcast2 [zT] [zd]) with (Ok [(zT, zd)] : res (list (fl * fl))). cbn [bind].
          destruct (broadcast2 T d) as [l|] eqn:B; [|refuse]. cbn [bind]. intros H N. destruct (Tx_elem _ _ _ _ H N) as ((u & v) & Nu & O).
          destruct (bc2 _ _ _ _ _ _ B Nu). assert (u = zT) by congruence. assert (v = zd) by congruence. subst u v. exact O.
      + destruct qp as (zp & Ezp & ->). destruct (a_d a) as [d|], (a_d b) as [d'|]; cbn [oat] in qd; try tauto.
        * destruct qd as (zd & Ezd & ->). change (broadcast2 [zd] [zp]) with (Ok [(zd, zp)] : res (list (fl * fl))). cbn [bind].
          destruct (broadcast2 d p) as [l|] eqn:B; [|refuse]. cbn [bind]. intros H N. destruct (pd_elem _ _ _ _ H N) as ((u & v) & Nu & O).
          destruct (bc2 _ _ _ _ _ _ B Nu). assert (u = zd) by congruence. assert (v = zp) by congruence. subst u v. exact O.
        * destruct (a_x a) as [d|], (a_x b) as [d'|]; cbn [oat] in qx; try tauto; try refuse.
          destruct qx as (zd & Ezd & ->). intros H N. exact (px_elem _ _ _ _ _ _ _ H N Ezp Ezd).
      + destruct (a_d a); refuse.
  Qed.

  Lemma few kw : mp_rules kw = Ok tt -> forall a b c, In a (dkeys kw) -> In b (dkeys kw) -> In c (dkeys kw) -> a <> b -> a <> c -> b <> c -> ~ In a ["T"; "p"; "x"] -> False.
  Proof.
    intros R a b c Ha Hb Hc N1 N2 N3 N4. destruct (mp_rules_spec kw) as [[_ M]|[M _]]; [|congruence]. destruct M as ([L|L] & _); [|exact (N4 (L a Ha))].
    assert (NoDup [a; b; c]) as ND by (repeat constructor; cbn; intuition congruence).
    assert (3 <= List.length (dkeys kw))%nat as L3; [|lia].
    apply (NoDup_incl_length ND). intros x [<-|[<-|[<-|[]]]]; assumption.
  Qed.
  Lemma si_shape kw a : mp_rules kw = Ok tt -> si_args D E kw = Ok a -> a_T a <> None -> a_inv a <> None -> a_p a = None /\ a_d a = None.
  Proof.
    intros R. unfold si_args. intro H.
    assert (O : forall k F b, ores (dget k kw) F = Ok b -> b <> (@None arr) -> In k (dkeys kw)).
    { intros k F b G Nb. apply dmem_in. unfold dmem. destruct (dget k kw); [reflexivity|]. injection G as <-. congruence. }
    repeat (match type of H with bind ?m _ = _ => let b := fresh "b" in let Q := fresh "Q" in destruct m as [b|] eqn:Q; [|discriminate]; cbn [bind] in H; pose proof (O _ _ _ Q) as Q'; clear Q; rename Q' into Q end).
    injection H as <-. cbn [a_T a_p a_d a_inv]. intros HT HI.
    assert (I3 : exists n, In n (dkeys kw) /\ ~ In n ["T"; "p"; "d"; "v"; "x"]).
    { destruct b3; [exists "h"|destruct b4; [exists "e"|destruct b5; [exists "s"|congruence]]]; (split; [auto; match goal with Q : _ -> In _ _ |- _ => apply Q; discriminate end|cbn; intuition discriminate]). }
    destruct I3 as (n & In_ & Nn). cbn [In] in Nn.
    assert (F3 : forall m, In m ["p"; "d"; "v"] -> In m (dkeys kw) -> False).
    { intros m Hm Im. cbn in Hm. assert (In "T" (dkeys kw)) by auto. apply (few kw R n "T" m); auto; cbn; intuition (subst; try congruence; try discriminate). }
    destruct b0; [exfalso; apply (F3 "p"); [cbn; auto|apply Q0; discriminate]|]. split; [reflexivity|].
    destruct b2; [exfalso; apply (F3 "v"); [cbn; auto|apply Q2; discriminate]|].
    destruct b1; [exfalso; apply (F3 "d"); [cbn; auto|apply Q1; discriminate]|reflexivity].
  Qed.
  Lemma lost_at a pts s : (a_T a <> None -> a_inv a <> None -> a_p a = None /\ a_d a = None) -> lost_T a -> from_args D E fuel a = Ok pts -> nth_error pts i = Some s -> lost s.
  Proof.
    intros SH (T & HT & ET). unfold from_args. rewrite HT in *. destruct (a_inv a) as [[fn h]|].
    - destruct SH as [-> ->]; [discriminate|discriminate|]. destruct (a_x a); [discriminate|].
      destruct (broadcast2 h T) as [l|] eqn:B; [|discriminate]. cbn [bind]. unfold from_sT. cbv zeta. intros H N.
      destruct (traverse _ _) as [es|] eqn:Tr; [|discriminate]. cbn [bind] in H.
      destruct (hybrid1 _ _ _ _ _) as [[qs w]|] eqn:Q; [|discriminate]. cbn [bind fst] in H. injection H as <-.
      apply nth_map2_inv in N. destruct N as (a' & q & Na & Nq & ->). apply nth_map_inv in Na. destruct Na as ([s0 T0] & Na & ->).
      destruct (bc2 _ _ _ _ _ _ B Na) as [_ E2]. assert (T0 = e_oob E) by congruence. subst T0. left. cbn [fst snd]. destruct (st_sat _); reflexivity.
    - destruct (a_p a) as [p|].
      + cbv zeta. destruct (broadcast3 T p _) as [l|] eqn:B; [|discriminate]. cbn [bind]. unfold from_Tpx. intros H N.
        destruct (mp_d _ _ _ _) as [ds|] eqn:M; [|discriminate]. cbn [bind] in H. injection H as <-.
        apply nth_map2_inv in N. destruct N as ([[T0 p0] x0] & d & Na & Nd & ->). destruct (bc3 _ _ _ _ _ _ _ _ B Na) as (E2 & _ & _).
        assert (T0 = e_oob E) by congruence. subst T0. left. repeat match goal with |- s_T (if ?c then _ else _) = _ => destruct c end; reflexivity.
      + destruct (a_d a) as [d|].
        * destruct (broadcast2 T d) as [l|] eqn:B; [|discriminate]. cbn [bind]. intros H N. injection H as <-. apply nth_map_inv in N. destruct N as ([T0 d0] & Na & ->).
          destruct (bc2 _ _ _ _ _ _ B Na) as (E2 & _). assert (T0 = e_oob E) by congruence. subst T0. left. unfold from_Td. destruct (_ && _)%bool; reflexivity.
        * destruct (a_x a) as [x|]; [|discriminate]. destruct (broadcast2 T x) as [l|] eqn:B; [|discriminate]. cbn [bind]. unfold from_Tx. intros H N.
          destruct (existsb _ l); [discriminate|]. destruct (existsb _ l); [discriminate|]. injection H as <-. apply nth_map_inv in N. destruct N as ([T0 d0] & Na & ->).
          destruct (bc2 _ _ _ _ _ _ B Na) as (E2 & _). left. cbn [fst s_T]. congruence.
  Qed.
  Lemma argparse_at varg varg1 kw kw1 pts s : Forall2 at1 varg varg1 -> atk kw kw1 ->
    (forall k k2 a, positional varg kw = Ok k -> defaults E k = Ok k2 -> mp_rules k2 = Ok tt -> si_args D E k2 = Ok a -> p_in k2) ->
    mp_argparse D E fuel varg kw = Ok pts -> nth_error pts i = Some s ->
    one (mp_argparse D E fuel varg1 kw1) lost s.
  Proof.
    intros F K HP H N. unfold mp_argparse in *. destruct (positional varg kw) as [k|] eqn:P; [|discriminate]. cbn [bind] in H.
    destruct (positional_at _ _ _ _ _ F K P) as (k1 & -> & K1). cbn [bind].
    destruct (defaults E k) as [k2|] eqn:P2; [|discriminate]. cbn [bind] in H. destruct (defaults_at _ _ _ K1 P2) as (k3 & -> & K3). cbn [bind].
    rewrite (rules_at _ _ K3). destruct (mp_rules k2) as [[]|] eqn:RU; [|discriminate]. cbn [bind] in *.
    destruct (si_args D E k2) as [a|] eqn:S; [|discriminate]. cbn [bind] in H.
    destruct (si_at _ _ _ K3 (HP _ _ _ eq_refl P2 RU S) S) as [(-> & L)|(b & -> & Q)]; cbn [bind]; [right; split; [reflexivity|]|exact (args_at _ _ _ _ Q H N)].
    exact (lost_at _ _ _ (si_shape _ _ RU S) L H N).
  Qed.

  (* ---- methods ---- *)
  Hypothesis N2 : ar_coef2 (mp_AR D) = None.
  Definition pw (f : list point -> res arr) : Prop := forall l y s v, f l = Ok y -> nth_error l i = Some s -> nth_error y i = Some v -> f [s] = Ok [v].
  Lemma pw_map F (g : list point -> point -> fl) : ew F -> (forall l l' s, g l s = g l' s) -> pw (fun l => F (map (g l) l)).
  Proof.
    intros HF HG l y s v H Ns Nv. destruct (HF _ _ H) as (c & -> & Hc). rewrite map_map in Nv. apply nth_map_inv in Nv. destruct Nv as (s' & Ns' & ->).
    assert (s' = s) by congruence. subst s'. cbn [map]. rewrite Hc. cbn [map]. now rewrite (HG l [s] s).
  Qed.
  Lemma ew_out_energy : ew (out_energy D E).
  Proof. apply (ew_comp (fun v => aconvert E _ v _ _ _) (fun v => amatter E v _ _ _ _)); [apply ew_convert|apply ew_matter]. Qed.
  Lemma ew_out_heat : ew (out_heat D E).
  Proof. apply (ew_comp _ (fun v => aconvert E _ v _ _ _)); [apply ew_out_energy|apply ew_convert]. Qed.
  Lemma ew_out_density : ew (out_density D E).
  Proof. apply (ew_comp (fun v => amatter E v _ _ _ _) (fun v => aconvert E _ v _ _ _)); [apply ew_matter|apply ew_convert]. Qed.
  Lemma pw_mixed F f : ew F -> (forall all all' T d, f all T d 0%nat = f all' T d 0%nat) -> pw (fun l => F (mixed_value f l)).
  Proof.
    intros HF Hf. apply (pw_map F (fun l s => let y := value0 (f (liquid_all l) (s_T s) (s_d1 s) 0%nat) in
      if s_sat s then (y * (num 1 - s_x s) + value0 (f (vapor_sat l) (s_T s) (s_d2 s) 0%nat) * s_x s)%fl else y) HF).
    intros l l' s. cbv zeta. rewrite (Hf (liquid_all l) (liquid_all l')), (Hf (vapor_sat l) (vapor_sat l')). reflexivity.
  Qed.
  Lemma cv_indep l l' v v' s : cv_two_phase D l v s = cv_two_phase D l' v' s.
  Proof.
    unfold cv_two_phase. destruct (elementwise D l l' (s_T s) (s_d1 s) 1%nat N2) as (_ & -> & _).
    destruct (elementwise D v v' (s_T s) (s_d2 s) 1%nat N2) as (_ & -> & _). reflexivity.
  Qed.
  Lemma pw_cv : pw (fun l => do v <- cv_values D l; out_heat D E v).
  Proof.
    intros l y s v H Ns Nv. unfold cv_values in H. destruct (_ && _)%bool; [discriminate|]. cbn [bind] in H.
    destruct (ew_out_heat _ _ H) as (c & -> & Hc). rewrite map_map in Nv. apply nth_map_inv in Nv. destruct Nv as (s' & Ns' & ->).
    assert (s' = s) by congruence. subst s'. unfold cv_values. cbn [existsb forallb].
    replace (_ && _)%bool with false by (destruct (s_sat s); reflexivity). cbn [bind map]. rewrite Hc. cbn [map]. do 3 f_equal.
    destruct (s_sat s); [apply cv_indep|]. apply (elementwise D _ _ (s_T s) (s_d1 s) 0%nat N2).
  Qed.
  Section Call.
  Variables (varg varg1 : list arr) (kw kw1 : kwargs).
  Hypothesis HF : Forall2 at1 varg varg1.
  Hypothesis HK : atk kw kw1.
  Hypothesis HP : forall k k2 a, positional varg kw = Ok k -> defaults E k = Ok k2 -> mp_rules k2 = Ok tt -> si_args D E k2 = Ok a -> p_in k2.
  Definition gone : Prop := exists l s, mp_argparse D E fuel varg kw = Ok l /\ nth_error l i = Some s /\ lost s.
  Lemma method_at f ys xs y x : pw f -> method D E fuel f varg kw = Ok (ys, xs) ->
    nth_error ys i = Some y -> nth_error xs i = Some x -> method D E fuel f varg1 kw1 = Ok ([y], [x]) \/ (method D E fuel f varg1 kw1 = Err PMParamError /\ gone).
  Proof.
    intros PW H Ny Nx. unfold method in *. destruct (mp_argparse D E fuel varg kw) as [l|] eqn:A; [|discriminate]. cbn [bind] in H.
    destruct (f l) as [v|] eqn:Fl; [|discriminate]. cbn [bind] in H. injection H as <- <-. apply nth_map_inv in Nx. destruct Nx as (s & Ns & ->).
    destruct (argparse_at _ _ _ _ _ _ HF HK HP A Ns) as [->|(-> & L)]; [left|right; split; [reflexivity|exists l, s; auto]]. cbn [bind]. rewrite (PW _ _ _ _ Fl Ns Ny). reflexivity.
  Qed.
  Lemma methods_at m ys xs y x : In m (mp_methods D E fuel) -> m varg kw = Ok (ys, xs) ->
    nth_error ys i = Some y -> nth_error xs i = Some x -> m varg1 kw1 = Ok ([y], [x]) \/ (m varg1 kw1 = Err PMParamError /\ gone).
  Proof.
    assert (EL := fun all all' T d n => elementwise D all all' T d n N2).
    assert (PD : pw (fun l => out_density D E (map mix_density l))) by (apply (pw_map _ (fun _ => mix_density) ew_out_density); reflexivity).
    intros HIn. unfold mp_methods in HIn. repeat (destruct HIn as [<-|HIn]); [..|destruct HIn]; try apply method_at.
    - apply (pw_map (fun v => atscale E v (Some "K") None) (fun _ => s_T) (ew_tscale _ _)). reflexivity.
    - apply (pw_map (fun v => aconvert E QPressure v (Some "Pa") None None) (fun l s => value0 (mp_p D (map (fun s => (s_T s, s_d2 s)) l) (s_T s) (s_d2 s) 0%nat)) (ew_convert _ _ _ _)).
      intros l l' s. f_equal. apply EL.
    - exact PD.
    - intros H Ny Nx. unfold mm_v in *. destruct (mm_d D E fuel varg kw) as [[ds xs']|] eqn:M; [|discriminate]. cbn [bind fst snd] in H. injection H as <- <-.
      apply nth_map_inv in Ny. destruct Ny as (d & Nd & ->). destruct (method_at _ _ _ _ _ PD M Nd Nx) as [Q|[Q L]]; unfold mm_d; rewrite Q; [left; reflexivity|right; split; [reflexivity|exact L]].
    - apply pw_mixed; [apply ew_out_energy|]. intros. apply EL.
    - apply pw_mixed; [apply ew_out_energy|]. intros. apply EL.
    - apply pw_mixed; [apply ew_out_heat|]. intros. apply EL.
    - apply pw_mixed; [apply ew_out_energy|]. intros. apply EL.
    - apply pw_mixed; [apply ew_out_energy|]. intros. apply EL.
    - apply (pw_map _ (fun l s => if s_sat s then None else mp_cp D (liquid_all l) (s_T s) (s_d1 s)) ew_out_heat). intros l l' s. destruct (s_sat s); [reflexivity|]. apply (EL _ _ _ _ 0%nat).
    - exact pw_cv.
    - apply (pw_map _ (fun l s => if s_sat s then None else (mp_cp D (liquid_all l) (s_T s) (s_d1 s) / mp_cv D (liquid_all l) (s_T s) (s_d1 s))%fl) ew_id).
      intros l l' s. destruct (s_sat s); [reflexivity|]. destruct (EL (liquid_all l) (liquid_all l') (s_T s) (s_d1 s) 0%nat) as (_ & _ & _ & _ & _ & _ & _ & -> & ->). reflexivity.
    - apply (pw_map (fun v => do w <- aconvert E QLength v (Some "m") None None; aconvert E QTime w (Some "s") None (Some (-1)%Z))
        (fun l s => if s_sat s then e_oob E else mp_a D (liquid_all l) (s_T s) (s_d1 s))).
      + apply (ew_comp (fun v => aconvert E _ v _ _ _) (fun v => aconvert E _ v _ _ _)); apply ew_convert.
      + intros l l' s. destruct (s_sat s); [reflexivity|]. apply (EL _ _ _ _ 0%nat).
  Qed.
  End Call.
End Elem.

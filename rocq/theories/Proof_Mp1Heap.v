(* The methods of the multi-phase class in memory: what they leave of the caller's arrays, and
   that they return what the methods on values return. *)
From Coq Require Import Reals ZArith List Bool Arith String Lra Lia.
From Verif Require Import Base Model_Num Model_Units Model_Igas Model_IgHeap Spec_IgHeap Proof_IgHeap Model_Mp1Calls Spec_Mp1Calls Proof_Mp1Args Proof_Mp1Acc
  Model_Mp1Heap Spec_Mp1Heap Proof_Mp1HeapLow Proof_Mp1HeapVal Proof_Mp1HeapSi Proof_Mp1HeapSt.
Import ListNotations.
Local Open Scope R_scope.
Local Open Scope string_scope.
Local Open Scope list_scope.

(* ---- names ---- *)
Lemma ok_inj {A} (a b : A) : Ok a = Ok b -> a = b.
Proof. congruence. Qed.
Lemma map_repeat {A B} (f : A -> B) x n : map f (repeat x n) = repeat (f x) n.
Proof. induction n as [|n IH]; cbn; [reflexivity | now rewrite IH]. Qed.
Lemma rules_keys kw1 kw2 : dkeys kw1 = dkeys kw2 -> mp_rules kw1 = mp_rules kw2.
Proof.
  intro H. destruct (mp_rules_spec kw1) as [[-> N1]|[-> N1]], (mp_rules_spec kw2) as [[-> N2]|[-> N2]]; try reflexivity; rewrite H in N1; contradiction.
Qed.
Lemma hp_rules_kval h kw : hp_rules kw = mp_rules (kval h kw).
Proof. apply rules_keys. unfold dkeys, kval. rewrite !map_map. reflexivity. Qed.
Lemma pos_p_val varg kw kw1 x : h_positional varg kw = Ok kw1 -> dget "p" kw1 = Some x -> dget "p" kw = Some x \/ nth_error varg 1 = Some x.
Proof.
  unfold h_positional. destruct varg as [|a varg].
  - cbn. intro H. injection H as <-. auto.
  - destruct (dmem "T" kw) eqn:Mt; [discriminate|]. cbn [bind]. destruct varg as [|b varg]; cbn [bind].
    + cbn. intros H Hg. injection H as <-. rewrite dget_dset_other in Hg by discriminate. auto.
    + destruct (dmem "p" (dset "T" a kw)); [discriminate|]. cbn [bind]. destruct (Nat.ltb _ _); [discriminate|].
      intros H Hg. injection H as <-. rewrite dget_dset_same in Hg. right. exact Hg.
Qed.
Lemma pos_argument varg kw kw1 k a : h_positional varg kw = Ok kw1 -> dget k kw1 = Some a -> argument varg kw k a.
Proof.
  intros H G. destruct (string_dec k "T") as [->|N1]; [destruct (pos_T _ _ _ _ H G); [left; auto | right; left; auto]|].
  destruct (string_dec k "p") as [->|N2]; [destruct (pos_p_val _ _ _ _ H G); [left; auto | right; right; auto]|].
  left. rewrite <- (pos_other _ _ _ _ H N1 N2). exact G.
Qed.
Lemma def_passed E varg kw kw1 kw2 k l : h_positional varg kw = Ok kw1 -> h_defaults E kw1 = Ok kw2 -> dget k kw2 = Some (HArr l) -> passed varg kw k l.
Proof.
  intros H1 H2 G. destruct (def_get _ _ _ _ _ H2 G) as [G1|(v & G1)]; [|discriminate]. exact (pos_argument _ _ _ _ _ H1 G1).
Qed.
(* beside another argument, a pressure is not the default one *)
Lemma def_none E kw kw2 k : h_defaults E kw = Ok kw2 -> k <> "T" -> k <> "p" -> dget k kw2 <> None -> dget "p" kw2 <> None -> kw2 = kw.
Proof.
  unfold h_defaults. cbv zeta. intros H N1 N2 Hk Hp. destruct kw as [|[k1 v1] [|[k2 v2] kw]]; cbn [List.length] in H.
  - apply bind_ok in H. destruct H as (t & _ & H). apply bind_ok in H. destruct H as (p & _ & H). injection H as <-. exfalso. apply Hk. cbn.
    destruct (String.eqb k "T") eqn:K1; [apply String.eqb_eq in K1; contradiction|]. destruct (String.eqb k "p") eqn:K2; [apply String.eqb_eq in K2; contradiction | reflexivity].
  - exfalso. unfold dmem in H. cbn [dget] in H. destruct (String.eqb "T" k1) eqn:E1; apply bind_ok in H; destruct H as (t & _ & H); apply ok_inj in H; subst kw2.
    + apply String.eqb_eq in E1. subst k1. apply Hk. cbn [dset dget String.eqb Ascii.eqb Bool.eqb]. apply String.eqb_neq in N1, N2. cbn. now rewrite N1, N2.
    + cbn [dset] in Hk, Hp. rewrite ?E1 in Hk, Hp. cbn [dget] in Hk, Hp. destruct (String.eqb "p" k1) eqn:E2; [|cbn in Hp; contradiction].
      apply String.eqb_eq in E2. subst k1. apply String.eqb_neq in N1, N2. rewrite N2, N1 in Hk. contradiction.
  - injection H as <-. reflexivity.
Qed.
Lemma pos_in varg kw kw1 k a : h_positional varg kw = Ok kw1 -> In (k, a) kw1 -> In a varg \/ In a (map snd kw).
Proof.
  assert (Ds : forall (k' : string) (b : harg) m k a, In (k, a) (dset k' b m) -> a = b \/ In a (map snd m)).
  { intros k' b m k2 a2. induction m as [|[k3 c] m IH]; cbn; [intros [Q|[]]; injection Q as <- <-; auto|].
    destruct (String.eqb k' k3); cbn; intros [Q|Q].
    - injection Q as <- <-. auto.
    - right. right. apply in_map_iff. exists (k2, a2). auto.
    - injection Q as <- <-. auto.
    - destruct (IH Q); auto. }
  unfold h_positional. destruct varg as [|x varg].
  - cbn. intros H. injection H as <-. intro I. right. apply in_map_iff. exists (k, a). auto.
  - destruct (dmem "T" kw); [discriminate|]. cbn [bind]. destruct varg as [|y varg]; cbn [bind].
    + cbn. intro H. injection H as <-. intro I. destruct (Ds _ _ _ _ _ I); auto.
    + destruct (dmem "p" (dset "T" x kw)); [discriminate|]. cbn [bind]. destruct (Nat.ltb _ _); [discriminate|].
      intro H. injection H as <-. intro I. destruct (Ds _ _ _ _ _ I) as [->|I2]; [left; cbn; auto|].
      apply in_map_iff in I2. destruct I2 as ((k2, a2) & <- & I2). destruct (Ds _ _ _ _ _ I2) as [->|I3]; [left; cbn; auto | right; exact I3].
Qed.
Lemma def_in E kw kw2 k l : h_defaults E kw = Ok kw2 -> In (k, HArr l) kw2 -> In (k, HArr l) kw.
Proof.
  assert (Ds : forall (k' : string) v m, In (k, HArr l) (dset k' (HVal v) m) -> In (k, HArr l) m).
  { intros k' v m. induction m as [|[k3 c] m IH]; cbn; [intros [Q|[]]; discriminate|].
    destruct (String.eqb k' k3); cbn; intros [Q|Q]; auto. discriminate. }
  unfold h_defaults. cbv zeta. destruct (List.length kw) as [|[|n]]; intro H.
  - apply bind_ok in H. destruct H as (t & _ & H). apply bind_ok in H. destruct H as (p & _ & H). injection H as <-. intro I. exact (Ds _ _ _ (Ds _ _ _ I)).
  - destruct (dmem "T" kw); apply bind_ok in H; destruct H as (p & _ & H); injection H as <-; apply Ds.
  - injection H as <-. auto.
Qed.
Lemma out_some lim v : existsb (outside lim) v = true -> exists t, In (Some t) v /\ ~ in_range lim t.
Proof.
  intro H. apply existsb_exists in H. destruct H as (x & Hx & O). apply (proj1 (outb_true lim x)) in O. destruct O as (t & -> & N). eauto.
Qed.

Section Call.
Variables (D : mpdata) (E : env) (fuel : nat) (owns : list bool) (h0 : heap) (varg : list harg) (kw : hkwargs).
Notation S := (at_risk D E fuel owns h0 varg kw).
Notation frame := (frame h0 S).
Hypothesis Al : allocated h0 varg kw.
Hypothesis One : one_name D E fuel owns h0 varg kw.
Notation good := (good E h0 S).

Lemma ex_argparse : ex (hp_argparse D E fuel owns varg kw) (mp_argparse D E fuel (positionals h0 varg) (keywords h0 kw)) h0 good frame.
Proof.
  assert (F0 : frame h0) by (apply step_grow, grow_refl).
  assert (Ev : mp_argparse D E fuel (positionals h0 varg) (keywords h0 kw) =
    do kw1 <- h_positional varg kw; do kw2 <- h_defaults E kw1; do _ <- hp_rules kw2; do a <- si_args D E (kval h0 kw2); from_args D E fuel a).
  { unfold mp_argparse. change (positionals h0 varg) with (map (hval h0) varg). change (keywords h0 kw) with (kval h0 kw). rewrite positional_kval.
    destruct (h_positional varg kw) as [kw1|]; [|reflexivity]. cbn [rmap bind]. rewrite defaults_kval.
    destruct (h_defaults E kw1) as [kw2|]; [|reflexivity]. cbn [rmap bind]. rewrite (hp_rules_kval h0). reflexivity. }
  rewrite Ev. unfold hp_argparse.
  apply ex_lift; [exact F0|]. intros kw1 H1. apply ex_lift; [exact F0|]. intros kw2 H2. apply ex_lift; [exact F0|]. intros [] H3.
  rewrite H1 in Ev. cbn [bind] in Ev. rewrite H2 in Ev. cbn [bind] in Ev. rewrite H3 in Ev. cbn [bind] in Ev.
  assert (In2 : inside h0 kw2).
  { intros k l I. apply Al. exact (pos_in _ _ _ _ _ H1 (def_in _ _ _ _ _ H2 I)). }
  assert (Pa : forall k l, dget k kw2 = Some (HArr l) -> passed varg kw k l) by (intros k l; exact (def_passed _ _ _ _ _ _ _ H1 H2)).
  assert (ST : forall l, RT D E h0 kw2 l -> S l).
  { intros l (K & G & O). left. split; [exact K|]. split; [exact (Pa _ _ G) | exact (out_some _ _ O)]. }
  assert (SP : forall l, RP D E h0 kw2 l -> S l).
  { intros l (K & G & O). right. left. split; [exact K|]. split; [exact (Pa _ _ G) | exact (out_some _ _ O)]. }
  assert (SC : forall l, RC D E owns h0 kw2 l -> S l).
  { intros l (K & G & aT & ap & ax & ts & i & t & q & A1 & A2 & A3 & V). right. right. left. split; [exact K|].
    split; [destruct G as [(G1 & G2)|G]; [left; split; auto | right; auto]|].
    assert (kw2 = kw1) as -> by (apply (def_none _ _ _ "x" H2); congruence).
    exists aT, ap, ax, ts, i, t, q. split; [exact (pos_argument _ _ _ _ _ H1 A1)|]. split; [exact (pos_argument _ _ _ _ _ H1 A2)|].
    split; [exact (pos_argument _ _ _ _ _ H1 A3) | exact V]. }
  assert (SD : forall l, RD D E fuel owns h0 kw2 l -> S l).
  { intros l (K & (U1 & U2) & G & (ap & A2) & pts & Ep & Ss). right. right. right. split; [exact K|]. split; [exact U1|]. split; [exact U2|].
    split; [exact (Pa _ _ G)|].
    assert (kw2 = kw1) as -> by (apply (def_none _ _ _ "d" H2); congruence).
    split; [exists ap; exact (pos_argument _ _ _ _ _ H1 A2)|]. exists pts. split; [rewrite Ev; exact Ep|].
    apply existsb_exists in Ss. exact Ss. }
  destruct (arrays_ok h0 kw2 In2 h0 (grow_refl _)) as (h3 & kw3 & Eq & G3 & A3 & D3).
  eapply ex_run; [exact Eq|].
  eapply ex_bind'; [apply (si_ok D E h0 kw2 kw3 h3 S ST SP)|].
  - intros k1 k2 l R G1 G2. apply (One k1 k2 l); [destruct R; auto | auto | auto].
  - exact G3.
  - intro k. specialize (A3 k). destruct (dget k kw3), (dget k kw2); auto. destruct A3 as (B1 & B2 & _). auto.
  - exact D3.
  - intros a v h4 Si (Ar & F4). apply (good_args D E fuel owns h0 kw2 S SC SD); auto.
    intros l R G1 G2. specialize (One "T" "x" l (SC l R) (Pa _ _ G1) (Pa _ _ G2)). discriminate.
Qed.

(* ---- methods ---- *)
Definition two (r : ref * ref) (v : arr * arr) (h : heap) : Prop := hget h (fst r) = fst v /\ hget h (snd r) = snd v /\ frame h.
Lemma frame_new h v : frame h -> frame (h ++ [v]).
Proof. intro F. exact (frame_grow _ _ _ _ F (grow_new _ _)). Qed.
Lemma hp_method_ok f : ex (hp_method D E fuel owns f varg kw) (method D E fuel f (positionals h0 varg) (keywords h0 kw)) h0 two frame.
Proof.
  unfold hp_method, method. eapply ex_bind; [exact ex_argparse|]. intros st pts h (<- & HT & Hd & Hx & F & _).
  apply ex_lift; [exact F|]. intros y _. apply ex_new. apply ex_ret.
  split; [apply has_new|]. split; [exact (proj1 (has_grow _ _ _ _ (grow_new _ _) Hx)) | exact (frame_new _ _ F)].
Qed.
(* after the density of the mixture is stored *)
Definition mixed (st : hstate) (pts : list point) (v : arr) (h : heap) : Prop :=
  has h (hs_T st) (pts_T pts) /\ has h (hs_d1 st) v /\ has h (hs_x st) (pts_x pts) /\ frame h /\
  ((free h0 S (hs_d1 st) /\ ref_loc (hs_d1 st) <> ref_loc (hs_T st) /\ ref_loc (hs_d1 st) <> ref_loc (hs_x st)) \/ (native_d E /\ flat h (hs_d1 st))).
Lemma mixed_grow st pts v h h' : grow h h' -> mixed st pts v h -> mixed st pts v h'.
Proof.
  intros G (HT & Hd & Hx & F & C). split; [exact (has_grow _ _ _ _ G HT)|]. split; [exact (has_grow _ _ _ _ G Hd)|].
  split; [exact (has_grow _ _ _ _ G Hx)|]. split; [exact (frame_grow _ _ _ _ F G)|].
  destruct C as [C|(C1 & C2)]; [auto|]. right. split; [exact C1 | exact (flat_grow _ _ _ G (proj2 Hd) C2)].
Qed.
Lemma mixed_upd st pts h l w : mixed st pts w h -> (l = ref_loc (hs_d1 st)) -> free h0 S (hs_d1 st) ->
  ref_loc (hs_d1 st) <> ref_loc (hs_T st) -> ref_loc (hs_d1 st) <> ref_loc (hs_x st) ->
  forall c v, hget (upd l c h) (hs_d1 st) = v -> mixed st pts v (upd l c h).
Proof.
  intros (HT & Hd & Hx & F & _) -> Fr N1 N2 c v Hv.
  split; [split; [rewrite <- (proj1 HT); apply hget_loc, upd_other; auto | rewrite upd_length; exact (proj2 HT)]|].
  split; [split; [exact Hv | rewrite upd_length; exact (proj2 Hd)]|].
  split; [split; [rewrite <- (proj1 Hx); apply hget_loc, upd_other; auto | rewrite upd_length; exact (proj2 Hx)]|].
  split; [|left; auto]. destruct F as (L & F). split; [rewrite upd_length; exact L|]. intros j Hj Nj. rewrite upd_other; [auto|].
  intros <-. destruct Fr; [lia | contradiction].
Qed.
Lemma mix_none pts : some_sat pts = false -> map mix_density pts = pts_d1 pts.
Proof.
  unfold some_sat, pts_d1. intro H. apply map_ext_in. intros s Hs. unfold mix_density. destruct (s_sat s) eqn:Q; [|reflexivity]. exfalso.
  assert (existsb s_sat pts = true); [|congruence]. apply existsb_exists. eauto.
Qed.
Lemma mix_ok st pts h : good st pts h -> exists h', h_mix st h = (h', Ok tt) /\ mixed st pts (map mix_density pts) h'.
Proof.
  intros (Ep & HT & Hd & Hx & F & C). unfold h_mix. rewrite Ep.
  destruct (some_sat pts) eqn:Ss.
  - destruct C as [(Fr & N1 & N2 & W)|(C & _)]; [|discriminate]. destruct (W eq_refl) as (l & El).
    exists (upd l (map mix_density pts) h). rewrite El. split; [reflexivity|].
    apply (mixed_upd st pts h l (pts_d1 pts)); auto; [split; [|split; [|split; [|split]]]; auto | rewrite El; reflexivity|].
    rewrite El. cbn. apply upd_same. pose proof (proj2 Hd) as L. rewrite El in L. exact L.
  - exists h. split; [reflexivity|]. rewrite (mix_none _ Ss). split; [exact HT|]. split; [exact Hd|]. split; [exact Hx|]. split; [exact F|].
    destruct C as [(Fr & N1 & N2 & _)|(_ & C)]; auto.
Qed.
Lemma hp_d_ok : ex (hp_d D E fuel owns varg kw) (mm_d D E fuel (positionals h0 varg) (keywords h0 kw)) h0
  (fun r v h => two r v h /\ (ref_loc (fst r) < List.length h /\ ref_loc (snd r) < List.length h)%nat) frame.
Proof.
  unfold hp_d, mm_d, method. eapply ex_bind; [exact ex_argparse|]. intros st pts h Gd. destruct (mix_ok _ _ _ Gd) as (h1 & Em & HT & Hd & Hx & F & _).
  eapply ex_run; [exact Em|]. unfold out_density.
  assert (Assoc : forall A B C (r : res A) (f : A -> res B) (g : B -> res C), (do y <- (do x <- r; f x); g y) = (do x <- r; do y <- f x; g y)) by (intros; destruct r; reflexivity).
  rewrite Assoc. eapply ex_bind; [apply ex_pl_matter; [exact Hd | intros h' G; exact (frame_grow _ _ _ _ F G)]|].
  intros r1 v1 h2 (P1 & P2 & _). assert (F2 := frame_grow _ _ _ _ F P2).
  eapply ex_bind; [apply ex_pl_convert; [exact P1 | intros h' G; exact (frame_grow _ _ _ _ F2 G)]|].
  intros r2 v2 h3 (Q1 & Q2 & _). apply ex_ret. assert (Hx3 := has_grow _ _ _ _ (grow_trans _ _ _ P2 Q2) Hx).
  split; [|split; [exact (proj2 Q1) | exact (proj2 Hx3)]].
  split; [exact (proj1 Q1)|]. split; [exact (proj1 Hx3) | exact (frame_grow _ _ _ _ F2 Q2)].
Qed.
Lemma hp_v_ok : ex (hp_v D E fuel owns varg kw) (mm_v D E fuel (positionals h0 varg) (keywords h0 kw)) h0 two frame.
Proof.
  unfold hp_v, mm_v. eapply ex_bind; [exact hp_d_ok|]. intros r v h ((H1 & H2 & F) & L1 & L2).
  apply (ex_read _ _ _ (fst v)); [split; auto|]. apply ex_new. apply ex_ret. split; [apply has_new|].
  split; [|exact (frame_new _ _ F)]. assert (Hx : has h (snd r) (snd v)) by (split; auto). exact (proj1 (has_grow _ _ _ _ (grow_new _ _) Hx)).
Qed.
Lemma hp_T_ok : ex (hp_T D E fuel owns varg kw) (mm_T D E fuel (positionals h0 varg) (keywords h0 kw)) h0 two frame.
Proof.
  unfold hp_T, mm_T, method. eapply ex_bind; [exact ex_argparse|]. intros st pts h (<- & HT & Hd & Hx & F & _).
  eapply ex_bind; [apply ex_tscale; [exact HT | intros h' G; exact (frame_grow _ _ _ _ F G)]|].
  intros r1 v1 h2 (P1 & Mv). apply ex_ret.
  assert (G : grow h h2) by (destruct Mv as [(_ & -> & _)|(_ & G)]; [apply grow_refl | exact G]).
  split; [exact (proj1 P1)|]. split; [exact (proj1 (has_grow _ _ _ _ G Hx)) | exact (frame_grow _ _ _ _ F G)].
Qed.
Lemma hp_x_ok : ex (hp_x D E fuel owns varg kw) (mm_x D E fuel (positionals h0 varg) (keywords h0 kw)) h0 (fun r v h => hget h r = v /\ frame h) frame.
Proof.
  unfold hp_x, mm_x. eapply ex_bind; [exact ex_argparse|]. intros st pts h (<- & HT & Hd & Hx & F & _).
  apply ex_ret. split; [exact (proj1 Hx) | exact F].
Qed.

(* ---- conversions in place ---- *)
Lemma write_map st pts v h (f : fl -> fl) : mixed st pts v h -> free h0 S (hs_d1 st) ->
  ref_loc (hs_d1 st) <> ref_loc (hs_T st) -> ref_loc (hs_d1 st) <> ref_loc (hs_x st) ->
  exists h', write (hs_d1 st) (map f v) h = (h', Ok tt) /\ mixed st pts (map f v) h' /\ step (fun j => j = ref_loc (hs_d1 st)) h h'.
Proof.
  intros Mx Fr N1 N2. pose proof Mx as (_ & (Hv & L) & _).
  destruct (hs_d1 st) as [l|l n] eqn:El; cbn [write hget ref_loc] in *.
  - eexists. split; [reflexivity|]. split; [|apply step_upd; reflexivity]. apply (mixed_upd st pts h l v); rewrite ?El; auto. cbn. apply upd_same. exact L.
  - subst v. rewrite map_repeat. destruct n as [|n].
    + exists h. split; [reflexivity | split; [exact Mx | apply step_grow, grow_refl]].
    + eexists. split; [reflexivity|]. split; [|apply step_upd; reflexivity]. apply (mixed_upd st pts h l _ Mx); rewrite ?El; auto.
      change (f (nth 0 (nth l h []) None) :: repeat (f (nth 0 (nth l h []) None)) n) with (repeat (f (nth 0 (nth l h []) None)) (Datatypes.S n)).
      rewrite last_repeat. cbn [hget]. rewrite upd_same by exact L. reflexivity.
Qed.
Lemma write_same st pts v h : mixed st pts v h -> native_d E /\ flat h (hs_d1 st) -> write (hs_d1 st) v h = (h, Ok tt).
Proof.
  intros (_ & (Hv & L) & _) (_ & Fl). destruct (hs_d1 st) as [l|l n]; cbn [write hget flat ref_loc] in *.
  - rewrite <- Hv. rewrite upd_self. reflexivity.
  - destruct Fl as (c & Ec). subst v. rewrite Ec. cbn [nth]. destruct n as [|n]; [reflexivity|].
    change (repeat c (Datatypes.S n)) with (c :: repeat c n) at 1. cbv iota. change (c :: repeat c n) with (repeat c (Datatypes.S n)).
    rewrite last_repeat, <- Ec, upd_self. reflexivity.
Qed.
Lemma ex_matter_in st pts v h : mixed st pts v h ->
  ex (h_matter_in D E (Some "kg") None None (hs_d1 st)) (amatter E v (mp_mw D) (Some "kg") None None) h (fun _ w h' => mixed st pts w h' /\ step (fun j => j = ref_loc (hs_d1 st)) h h') frame.
Proof.
  intro Mx. pose proof Mx as (_ & Hd & _ & F & C). unfold h_matter_in. pose proof (matter_pair E (mp_mw D) (Some "kg") None None v) as P.
  destruct (cfg_pair E _ _ _) as [(a, b)|x] eqn:Eu; [|rewrite P; split; [reflexivity | exact F]].
  eapply ex_run; [reflexivity|]. apply (ex_read _ _ _ _ _ _ _ Hd). cbn [fst snd].
  destruct (String.eqb a b) eqn:Es.
  - destruct P as (_ & ->). eapply ex_run; [reflexivity|]. apply ex_ret. split; [exact Mx | apply step_grow, grow_refl].
  - destruct (amatter E v (mp_mw D) (Some "kg") None None) as [w|x] eqn:Aw; [|split; [reflexivity | exact F]].
    eapply ex_run; [reflexivity|]. unfold amatter in Aw. apply bind_ok in Aw. destruct Aw as (k & _ & Aw). apply ok_inj in Aw. subst w.
    destruct C as [(Fr & N1 & N2)|((_ & C) & _)].
    + destruct (write_map st pts v h (fmul (Some k)) Mx Fr N1 N2) as (h' & Ew & Mx'). unfold ex. rewrite Ew. exact Mx'.
    + exfalso. unfold unit_is in C. cbn in Eu. rewrite C in Eu. cbn in Eu. injection Eu as <- <-. discriminate.
Qed.
Lemma ex_convert_in st pts v h : mixed st pts v h ->
  ex (h_convert_in E QVolume (Some "m3") None (Some (-1)%Z) (hs_d1 st)) (aconvert E QVolume v (Some "m3") None (Some (-1)%Z)) h (fun _ w h' => mixed st pts w h' /\ step (fun j => j = ref_loc (hs_d1 st)) h h') frame.
Proof.
  intro Mx. pose proof Mx as (_ & Hd & _ & F & C). unfold h_convert_in. pose proof (conv_pair E QVolume (Some "m3") None (Some (-1)%Z) v) as P.
  destruct (unit_pair _ E _ _) as [(a, b)|x] eqn:Eu; [|rewrite P; split; [reflexivity | exact F]].
  eapply ex_run; [reflexivity|]. apply (ex_read _ _ _ _ _ _ _ Hd). cbn [fst snd].
  destruct (String.eqb a b) eqn:Es.
  - destruct P as (_ & ->). eapply ex_run; [reflexivity|]. apply ex_ret. split; [exact Mx | apply step_grow, grow_refl].
  - destruct (aconvert E QVolume v (Some "m3") None (Some (-1)%Z)) as [w|x] eqn:Aw; [|split; [reflexivity | exact F]].
    eapply ex_run; [reflexivity|]. unfold aconvert in Aw. apply bind_ok in Aw. destruct Aw as (k & _ & Aw). apply ok_inj in Aw. subst w.
    destruct C as [(Fr & N1 & N2)|((C & _) & _)].
    + destruct (write_map st pts v h (fmul (Some k)) Mx Fr N1 N2) as (h' & Ew & Mx'). unfold ex. rewrite Ew. exact Mx'.
    + exfalso. unfold unit_is in C. unfold unit_pair in Eu. cbn [default_unit bind units_of config_default key_of] in Eu. rewrite C in Eu. cbn in Eu. injection Eu as <- <-. discriminate.
Qed.
Definition four (r : ref * ref * ref * ref) (v : arr * arr * arr * arr) (h : heap) : Prop :=
  let '(a, b, c, x) := r in let '(va, vb, vc, vx) := v in hget h a = va /\ hget h b = vb /\ hget h c = vc /\ hget h x = vx /\ frame h.
Lemma hp_hsd_ok : ex (hp_hsd D E fuel owns varg kw) (mm_hsd D E fuel (positionals h0 varg) (keywords h0 kw)) h0 four frame.
Proof.
  unfold hp_hsd, mm_hsd. eapply ex_bind; [exact ex_argparse|]. intros st pts h Gd. destruct (mix_ok _ _ _ Gd) as (h1 & Em & Mx).
  eapply ex_run; [exact Em|]. rewrite (proj1 Gd). assert (Ed : snd (hsd_values D pts) = map mix_density pts) by reflexivity.
  destruct (hsd_values D pts) as ((hv, sv), dv). cbn [snd] in Ed. subst dv. clear Gd Em. pose proof Mx as (_ & (_ & Ld1) & _ & F & _).
  apply ex_lift; [exact F|]. intros c _. apply ex_lift; [exact F|]. intros c1 _. apply ex_lift; [exact F|]. intros c2 _.
  apply ex_new. apply ex_new.
  set (h2 := (h1 ++ [scaled c1 hv]) ++ [scaled c2 sv]).
  assert (G2 : grow h1 h2) by exact (grow_trans _ _ _ (grow_new _ _) (grow_new _ _)).
  assert (Hh : has h2 (Whole (List.length h1)) (scaled c1 hv)) by (apply (has_grow _ _ _ _ (grow_new _ _)), has_new).
  assert (Hs : has h2 (Whole (List.length (h1 ++ [scaled c1 hv]))) (scaled c2 sv)) by apply has_new.
  apply (mixed_grow _ _ _ _ _ G2) in Mx.
  unfold out_density.
  assert (Ld : (ref_loc (hs_d1 st) < List.length h1)%nat) by exact Ld1.
  assert (Assoc : forall A B C (r : res A) (f : A -> res B) (g : B -> res C), (do y <- (do x <- r; f x); g y) = (do x <- r; do y <- f x; g y)) by (intros; destruct r; reflexivity).
  rewrite Assoc. eapply ex_bind; [apply (ex_matter_in _ _ _ _ Mx)|]. intros _ v1 h3 (M3 & S3).
  eapply ex_bind; [apply (ex_convert_in _ _ _ _ M3)|]. intros _ v2 h4 (M4 & S4).
  apply ex_ret. assert (S24 := step_trans _ _ _ _ S3 S4).
  split; [refine (proj1 (step_has _ _ _ _ _ S24 _ Hh)); cbn; lia|].
  split; [refine (proj1 (step_has _ _ _ _ _ S24 _ Hs)); cbn; rewrite app_length; lia|].
  destruct M4 as (_ & Hd & Hx & F4 & _). split; [exact (proj1 Hd)|]. split; [exact (proj1 Hx) | exact F4].
Qed.

(* ---- the dictionary ---- *)
Lemma state_inv pts st : state_dict D E pts = Ok st -> atscale E (pts_T pts) (Some "K") None = Ok (o_T st) /\
  (exists k k1, convert (units_of (e_setup E) QVolume) (e_cfg E) 1 (Some "m3") None (Some (-1)%Z) = Ok k /\
     matter (e_setup E) (e_cfg E) k (mp_mw D) (Some "kg") None None = Ok k1 /\ o_d st = scaled k1 (map mix_density pts)) /\
  o_x st = pts_x pts.
Proof.
  unfold state_dict. intro H.
  apply bind_ok in H. destruct H as (c & _ & H). apply bind_ok in H. destruct H as (c1 & _ & H). apply bind_ok in H. destruct H as (c2 & _ & H).
  apply bind_ok in H. destruct H as (p & _ & H). apply bind_ok in H. destruct H as (T & HT & H).
  apply bind_ok in H. destruct H as (k & Hk & H). apply bind_ok in H. destruct H as (k1 & Hk1 & H). apply ok_inj in H. subst st.
  cbn [o_T o_d o_x]. split; [exact HT|]. split; [|reflexivity]. exists k, k1. auto.
Qed.
Lemma scaled_map k v : scaled k v = map (fun x => fmul x (Some k)) v.
Proof. reflexivity. Qed.
Definition dict (r : mp_state * ref * ref * ref) (st : mp_state) (h : heap) : Prop :=
  let '(o, T, d, x) := r in o = st /\ hget h T = o_T st /\ hget h d = o_d st /\ hget h x = o_x st /\ frame h.
Lemma hp_state_ok : ex (hp_state D E fuel owns varg kw) (mm_state D E fuel (positionals h0 varg) (keywords h0 kw)) h0 dict frame.
Proof.
  unfold hp_state, mm_state. eapply ex_bind; [exact ex_argparse|]. intros st pts h Gd. destruct (mix_ok _ _ _ Gd) as (h1 & Em & Mx).
  eapply ex_run; [exact Em|]. rewrite (proj1 Gd). clear Gd Em. pose proof Mx as (HT & Hd & _ & F & _).
  apply ex_lift_end; [exact F|]. intros o Eo. destruct (state_inv _ _ Eo) as (ET & (k & k1 & Ek & Ek1 & Edd) & Ex).
  pose proof (ex_tscale E h1 (hs_T st) (pts_T pts) frame HT (fun h' G => frame_grow _ _ _ _ F G) (Some "K") None) as Ts. rewrite ET in Ts.
  unfold ex in Ts. destruct (h_tscale E (Some "K") None (hs_T st) h1) as (h2, [rT|e]) eqn:Eq; [|contradiction]. destruct Ts as (H2 & Mv).
  eapply ex_run; [exact Eq|]. eapply ex_run; [unfold lift; rewrite Ek; reflexivity|]. eapply ex_run; [unfold lift; rewrite Ek1; reflexivity|].
  assert (G : grow h1 h2) by (destruct Mv as [(_ & -> & _)|(_ & G)]; [apply grow_refl | exact G]).
  apply (mixed_grow _ _ _ _ _ G) in Mx. assert (Ld := proj2 Hd). clear HT Hd F.
  pose proof Mx as (HT & Hd & Hx & F & C).
  assert (Q : exists h3, h_scale k1 (hs_d1 st) h2 = (h3, Ok tt) /\ mixed st pts (o_d o) h3 /\ hget h3 rT = o_T o).
  { unfold h_scale, mbind, read. rewrite (proj1 Hd). destruct C as [(Fr & N1 & N2)|(Nd & Fl)].
    - rewrite scaled_map. destruct (write_map st pts _ h2 (fun x => fmul x (Some k1)) Mx Fr N1 N2) as (h3 & Ew & M3 & S3).
      exists h3. split; [exact Ew|]. split; [rewrite Edd; exact M3|]. refine (proj1 (step_has _ _ _ _ _ S3 _ H2)).
      destruct Mv as [(-> & _ & _)|(-> & _)]; [auto | cbn; lia].
    - assert (k1 = 1) as ->.
      { destruct Nd as (U1 & U2). unfold unit_is in U1, U2. unfold convert in Ek. cbn [default_unit bind units_of config_default key_of] in Ek.
        rewrite U1 in Ek. cbn in Ek. apply ok_inj in Ek. subst k. unfold matter in Ek1. cbn [bind] in Ek1. rewrite U2 in Ek1. cbn in Ek1. apply ok_inj in Ek1. auto. }
      rewrite scaled_1 in *. exists h2. split; [exact (write_same _ _ _ _ Mx (conj Nd Fl))|]. rewrite Edd. split; [exact Mx | exact (proj1 H2)]. }
  destruct Q as (h3 & Eq3 & M3 & HT3). eapply ex_run; [exact Eq3|]. apply ex_ret. destruct M3 as (_ & Hd3 & Hx3 & F3 & _).
  split; [reflexivity|]. split; [exact HT3|]. split; [exact (proj1 Hd3)|]. split; [rewrite Ex; exact (proj1 Hx3) | exact F3].
Qed.
End Call.

(* ---- the statements ---- *)
Section Final.
Variables (D : mpdata) (E : env) (fuel : nat) (owns : list bool) (h : heap) (varg : list harg) (kw : hkwargs).
Hypothesis Al : allocated h varg kw.
Hypothesis One : one_name D E fuel owns h varg kw.
Notation S := (at_risk D E fuel owns h varg kw).
Lemma methods_ok m : In m mp_methods -> ex (fst m D E fuel owns varg kw) (snd m D E fuel (positionals h varg) (keywords h kw)) h (two D E fuel owns h varg kw) (frame h S).
Proof.
  intro I. cbn [mp_methods In] in I.
  repeat (destruct I as [<-|I]; [cbn [fst snd]; try exact (hp_method_ok D E fuel owns h varg kw Al One _)|]); [| | |contradiction].
  - eapply ex_post; [exact (hp_d_ok D E fuel owns h varg kw Al One)|]. intros r v h' (H & _). exact H.
  - exact (hp_v_ok D E fuel owns h varg kw Al One).
  - exact (hp_T_ok D E fuel owns h varg kw Al One).
Qed.
Lemma kept_methods m : In m mp_methods -> unmodified_except S h (fst (fst m D E fuel owns varg kw h)).
Proof.
  intro I. pose proof (methods_ok m I) as H. unfold ex in H. destruct (fst m D E fuel owns varg kw h) as (h', [r|e]), (snd m D E fuel _ _) as [v|e']; try contradiction; cbn [fst].
  - exact (proj2 (proj2 H)).
  - exact (proj2 H).
Qed.
Lemma kept_x : unmodified_except S h (fst (hp_x D E fuel owns varg kw h)).
Proof.
  pose proof (hp_x_ok D E fuel owns h varg kw Al One) as H. unfold ex in H. destruct (hp_x D E fuel owns varg kw h) as (h', [r|e]), (mm_x D E fuel _ _) as [v|e']; try contradiction; cbn [fst].
  - exact (proj2 H).
  - exact (proj2 H).
Qed.
Lemma kept_hsd : unmodified_except S h (fst (hp_hsd D E fuel owns varg kw h)).
Proof.
  pose proof (hp_hsd_ok D E fuel owns h varg kw Al One) as H. unfold ex in H. destruct (hp_hsd D E fuel owns varg kw h) as (h', [[[[a b] c] x]|e]), (mm_hsd D E fuel _ _) as [[[[va vb] vc] vx]|e']; try contradiction; cbn [fst].
  - destruct H as (_ & _ & _ & _ & H). exact H.
  - exact (proj2 H).
Qed.
Lemma kept_state : unmodified_except S h (fst (hp_state D E fuel owns varg kw h)).
Proof.
  pose proof (hp_state_ok D E fuel owns h varg kw Al One) as H. unfold ex in H. destruct (hp_state D E fuel owns varg kw h) as (h', [[[[o a] b] x]|e]), (mm_state D E fuel _ _) as [v|e']; try contradiction; cbn [fst].
  - destruct H as (_ & _ & _ & _ & H). exact H.
  - exact (proj2 H).
Qed.
Lemma values_methods m : In m mp_methods -> agrees2 (fst m D E fuel owns varg kw h) (snd m D E fuel (positionals h varg) (keywords h kw)).
Proof.
  intro I. pose proof (methods_ok m I) as H. unfold ex in H. unfold agrees2. destruct (fst m D E fuel owns varg kw h) as (h', [[y x]|e]), (snd m D E fuel _ _) as [[vy vx]|e']; try contradiction; cbn [fst snd].
  - destruct H as (H1 & H2 & _). auto.
  - exact (proj1 H).
Qed.
Lemma values_x : agrees1 (hp_x D E fuel owns varg kw h) (mm_x D E fuel (positionals h varg) (keywords h kw)).
Proof.
  pose proof (hp_x_ok D E fuel owns h varg kw Al One) as H. unfold ex in H. unfold agrees1. destruct (hp_x D E fuel owns varg kw h) as (h', [r|e]), (mm_x D E fuel _ _) as [v|e']; try contradiction; cbn [fst snd]; exact (proj1 H).
Qed.
Lemma values_hsd : agrees4 (hp_hsd D E fuel owns varg kw h) (mm_hsd D E fuel (positionals h varg) (keywords h kw)).
Proof.
  pose proof (hp_hsd_ok D E fuel owns h varg kw Al One) as H. unfold ex in H. unfold agrees4. destruct (hp_hsd D E fuel owns varg kw h) as (h', [[[[a b] c] x]|e]), (mm_hsd D E fuel _ _) as [[[[va vb] vc] vx]|e']; try contradiction; cbn [fst snd].
  - destruct H as (H1 & H2 & H3 & H4 & _). auto.
  - exact (proj1 H).
Qed.
Lemma values_state : agrees_state (hp_state D E fuel owns varg kw h) (mm_state D E fuel (positionals h varg) (keywords h kw)).
Proof.
  pose proof (hp_state_ok D E fuel owns h varg kw Al One) as H. unfold ex in H. unfold agrees_state. destruct (hp_state D E fuel owns varg kw h) as (h', [[[[o a] b] x]|e]), (mm_state D E fuel _ _) as [v|e']; try contradiction; cbn [fst snd].
  - destruct H as (H0 & H1 & H2 & H3 & _). auto.
  - exact (proj1 H).
Qed.
End Final.

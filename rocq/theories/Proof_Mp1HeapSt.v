(* The state built from the arguments, in memory. *)
From Coq Require Import Reals ZArith List Bool Arith String Lra Lia.
From Verif Require Import Base Model_Num Model_Units Model_Igas Model_IgHeap Spec_IgHeap Proof_IgHeap Model_Mp1Calls Model_Mp1Heap Proof_Mp1Calls Proof_Mp1Acc Proof_Mp1HeapLow Proof_Mp1HeapVal Proof_Mp1HeapSi.
Import ListNotations.
Local Open Scope R_scope.
Local Open Scope string_scope.
Local Open Scope list_scope.

(* ---- values ---- *)
Lemma bind_ok {A B} (r : res A) (f : A -> res B) b : bind r f = Ok b -> exists a, r = Ok a /\ f a = Ok b.
Proof. destruct r; cbn; [eauto | discriminate]. Qed.
Lemma si_inv D E kw a : si_args D E kw = Ok a ->
  (forall w, a_T a = Some w -> exists v, dget "T" kw = Some v /\ (do v1 <- atscale E v None (Some "K"); limited E (mp_Tlim D) v1) = Ok w) /\
  (forall w, a_p a = Some w -> exists v, dget "p" kw = Some v) /\
  (forall w, a_x a = Some w -> dget "x" kw = Some w).
Proof.
  unfold si_args. intro H.
  apply bind_ok in H. destruct H as (T & HT & H). apply bind_ok in H. destruct H as (p & Hp & H).
  apply bind_ok in H. destruct H as (d & _ & H). apply bind_ok in H. destruct H as (dv & _ & H).
  apply bind_ok in H. destruct H as (eh & _ & H). apply bind_ok in H. destruct H as (ee & _ & H).
  apply bind_ok in H. destruct H as (es & _ & H). apply bind_ok in H. destruct H as (x & Hx & H).
  injection H as <-. cbn [a_T a_p a_x]. split; [|split]; intros w ->.
  - destruct (dget "T" kw) as [v|]; cbn [ores] in HT; [|discriminate]. exists v. split; [reflexivity|].
    apply bind_ok in HT. destruct HT as (w' & HT & Q). injection Q as <-. exact HT.
  - destruct (dget "p" kw) as [v|]; [eauto | discriminate].
  - destruct (dget "x" kw) as [v|]; cbn [ores] in Hx; [|discriminate]. destruct (_ || _)%bool; [discriminate|]. cbn in Hx. injection Hx as ->. reflexivity.
Qed.
Lemma too_hot_at D l : too_hot D l = true -> exists i t q, nth_error (map e1 l) i = Some (Some t) /\ mp_Tc D < t /\
  nth_error (map e3 l) i = Some q /\ ~ (exists y, q = Some y /\ y < 0).
Proof.
  intro H. apply existsb_exists in H. destruct H as (((T, p), x) & Hin & C). apply andb_true_iff in C. destruct C as (C1 & C2).
  apply In_nth_error in Hin. destruct Hin as (i & Hi). apply flt_iff in C2. destruct C2 as (a & t & Ea & -> & Lt). injection Ea as <-.
  exists i, t, x. rewrite !nth_error_map, Hi. cbn. split; [reflexivity|]. split; [exact Lt|]. split; [reflexivity|].
  intros (y & -> & Ly). apply negb_true_iff in C1. assert (flt (Some y) (num 0) = true); [|congruence]. apply flt_iff. exists y, 0. auto.
Qed.
Lemma ext_in n x c : In c (ext n x) -> fits n x -> In c x.
Proof.
  unfold ext, fits. destruct (Nat.eqb_spec (List.length x) n) as [e|e]; [auto|]. intros H [F|F]; [contradiction|].
  apply repeat_spec in H. subst c. destruct x as [|y x]; [discriminate|]. now left.
Qed.

(* ---- memory ---- *)
Definition flat (h : heap) (r : ref) : Prop := match r with Whole _ => True | Rep l _ => exists c, nth l h [] = [c] end.
Lemma has_stretch h l v n : has h (Whole l) v -> fits n v ->
  has h (stretch n v (Whole l)) (ext n v) /\ flat h (stretch n v (Whole l)) /\ ref_loc (stretch n v (Whole l)) = l.
Proof.
  intros (Hv & L) F. cbn in Hv, L. unfold stretch, ext. destruct (Nat.eqb_spec (List.length v) n) as [e|e].
  - repeat split; auto.
  - destruct F as [F|F]; [contradiction|]. cbn [ref_loc flat]. split; [split; [cbn; now rewrite Hv | exact L]|]. split; [|reflexivity].
    rewrite Hv. destruct v as [|c [|]]; try discriminate. eauto.
Qed.
Lemma ex_b2 {A B} a b v w h (f : list (fl * fl) * bool * ref * ref -> M A) (g : list (fl * fl) -> res B) Q (X : heap -> Prop) :
  has h a v -> has h b w -> X h ->
  (forall l, broadcast2 v w = Ok l ->
     ex (f (l, Nat.eqb (List.length v) (List.length l) && Nat.eqb (List.length w) (List.length l),
            stretch (List.length l) v a, stretch (List.length l) w b)%bool) (g l) h Q X) ->
  ex (mbind (h_broadcast2 a b) f) (do l <- broadcast2 v w; g l) h Q X.
Proof.
  intros (Ha & _) (Hb & _) HX H. unfold h_broadcast2, ex, mbind, read, lift, ret in *. rewrite Ha, Hb.
  destruct (broadcast2 v w) as [l|e]; [exact (H l eq_refl) | cbn; auto].
Qed.

Lemma ex_lift_end {B A'} (r : res B) (f : B -> M A') h Q (X : heap -> Prop) :
  X h -> (forall x, r = Ok x -> ex (f x) (Ok x) h Q X) -> ex (mbind (lift r) f) r h Q X.
Proof. intros HX H. destruct r as [x|e]; [exact (H x eq_refl) | split; auto]. Qed.

Section St.
Variables (D : mpdata) (E : env) (fuel : nat) (owns : list bool) (h0 : heap) (kw2 : hkwargs).
Notation n0 := (List.length h0).
Notation kv := (kval h0 kw2).
Definition HC : Prop := exists aT ap ax ts i t q, dget "T" kw2 = Some aT /\ dget "p" kw2 = Some ap /\ dget "x" kw2 = Some ax /\
  (do v <- atscale E (hval h0 aT) None (Some "K"); limited E (mp_Tlim D) v) = Ok ts /\
  nth_error ts i = Some (Some t) /\ mp_Tc D < t /\ nth_error (hval h0 ax) i = Some q /\ ~ (exists y, q = Some y /\ y < 0).
Definition RC (l : nat) : Prop :=
  nth l owns true = true /\ ((kelvins E /\ dget "T" kw2 = Some (HArr l)) \/ dget "x" kw2 = Some (HArr l)) /\ HC.
Definition HD : Prop := exists pts, (do a <- si_args D E kv; from_args D E fuel a) = Ok pts /\ some_sat pts = true.
Definition RD (l : nat) : Prop :=
  nth l owns true = true /\ native_d E /\ dget "d" kw2 = Some (HArr l) /\ (exists a, dget "p" kw2 = Some a) /\ HD.
Variable S : nat -> Prop.
Hypothesis SC : forall l, RC l -> S l.
Hypothesis SD : forall l, RD l -> S l.
Hypothesis SepC : forall l, RC l -> dget "T" kw2 = Some (HArr l) -> dget "x" kw2 = Some (HArr l) -> False.
Notation frame := (frame h0 S).

Definition free (r : ref) : Prop := (n0 <= ref_loc r)%nat \/ S (ref_loc r).
Definition good (st : hstate) (pts : list point) (h : heap) : Prop :=
  hs_pts st = pts /\ has h (hs_T st) (pts_T pts) /\ has h (hs_d1 st) (pts_d1 pts) /\ has h (hs_x st) (pts_x pts) /\ frame h /\
  ((free (hs_d1 st) /\ ref_loc (hs_d1 st) <> ref_loc (hs_T st) /\ ref_loc (hs_d1 st) <> ref_loc (hs_x st) /\
    (some_sat pts = true -> exists l, hs_d1 st = Whole l)) \/
   (some_sat pts = false /\ native_d E /\ flat h (hs_d1 st))).

Lemma free_new h : frame h -> free (Whole (List.length h)).
Proof. intros (L & _). left. exact L. Qed.
Lemma flat_grow h h' r : grow h h' -> (ref_loc r < List.length h)%nat -> flat h r -> flat h' r.
Proof. intros G L. destruct r as [l|l n]; cbn in *; [auto|]. intros (c & H). exists c. rewrite <- H. exact (grow_nth _ _ _ G L). Qed.

(* three new arrays *)
Lemma good3 pts h : frame h ->
  good {| hs_pts := pts; hs_T := Whole (List.length h); hs_d1 := Whole (List.length (h ++ [pts_T pts]));
          hs_x := Whole (List.length ((h ++ [pts_T pts]) ++ [pts_d1 pts])) |} pts (((h ++ [pts_T pts]) ++ [pts_d1 pts]) ++ [pts_x pts]).
Proof.
  intro F. split; [reflexivity|]. cbn [hs_T hs_d1 hs_x].
  split; [apply (has_grow _ _ _ _ (grow_new _ _)), (has_grow _ _ _ _ (grow_new _ _)), has_new|].
  split; [apply (has_grow _ _ _ _ (grow_new _ _)), has_new|]. split; [apply has_new|].
  assert (F1 := frame_grow _ _ _ _ F (grow_new h (pts_T pts))).
  split; [exact (frame_grow _ _ _ _ (frame_grow _ _ _ _ F1 (grow_new _ _)) (grow_new _ _))|].
  left. split; [apply free_new; exact F1|]. cbn. rewrite !app_length. cbn. split; [lia|]. split; [lia | eauto].
Qed.


Section H.
Variables (h : heap) (F : frame h).
Lemma st_hp fn a b v w : has h a v -> has h b w ->
  ex (hs_hp D E fuel fn a b) (do l <- broadcast2 v w; from_hp D E fuel fn l) h good frame.
Proof.
  intros Ha Hb. unfold hs_hp. apply (ex_b2 _ _ _ _ _ _ _ _ _ Ha Hb F). intros l _.
  apply ex_lift_end; [exact F|]. intros pts _. exact (good3 pts h F).
Qed.
(* T and x are new, d1 is d *)
Lemma good_d pts d : has h d (pts_d1 pts) -> some_sat pts = false -> (n0 <= ref_loc d)%nat \/ (native_d E /\ flat h d) ->
  good {| hs_pts := pts; hs_T := Whole (List.length h); hs_d1 := d; hs_x := Whole (List.length (h ++ [pts_T pts])) |}
    pts ((h ++ [pts_T pts]) ++ [pts_x pts]).
Proof.
  intros Hd Ns C. assert (G : grow h ((h ++ [pts_T pts]) ++ [pts_x pts])) by exact (grow_trans _ _ _ (grow_new _ _) (grow_new _ _)).
  split; [reflexivity|]. cbn [hs_T hs_d1 hs_x]. split; [apply (has_grow _ _ _ _ (grow_new _ _)), has_new|].
  split; [exact (has_grow _ _ _ _ G Hd)|]. split; [apply has_new|]. split; [exact (frame_grow _ _ _ _ F G)|].
  destruct Hd as (_ & L). destruct C as [C|(C1 & C2)].
  - left. split; [left; exact C|]. cbn. rewrite app_length. cbn. split; [lia|]. split; [lia | congruence].
  - right. split; [exact Ns|]. split; [exact C1 | exact (flat_grow _ _ _ G L C2)].
Qed.
Lemma st_hd fn a d v w : has h a v -> ok_at h0 kw2 "d" (native_d E) d w h ->
  ex (hs_hd D E fn a d) (do l <- broadcast2 v w; from_hd D E fn l) h good frame.
Proof.
  intros Ha (Hd & ld & -> & Cd). unfold hs_hd. apply (ex_b2 _ _ _ _ _ _ _ _ _ Ha Hd F). intros l Bl.
  destruct (broadcast2_ext _ _ _ Bl) as (_ & B2 & _ & B4).
  apply ex_lift_end; [exact F|]. intros pts Hp. apply ex_new.
  destruct (some_sat pts) eqn:Ss; [exact (good3 pts h F)|].
  destruct (has_stretch h ld w _ Hd B4) as (Hs & Fl & Ls). rewrite <- B2, <- (hd_d1 D E fn l pts Hp Ss) in Hs.
  apply (good_d pts _ Hs Ss). rewrite Ls. destruct Cd as [Cd|(Cd & _)]; auto.
Qed.
Lemma st_sT fn a T v w : has h a v -> ok_at h0 kw2 "T" (kelvins E) T w h ->
  ex (hs_sT D E fn a T) (do l <- broadcast2 v w; from_sT D E fn l) h good frame.
Proof.
  intros Ha (Hd & ld & -> & Cd). unfold hs_sT. apply (ex_b2 _ _ _ _ _ _ _ _ _ Ha Hd F). intros l Bl.
  destruct (broadcast2_ext _ _ _ Bl) as (_ & B2 & _ & B4).
  apply ex_lift_end; [exact F|]. intros pts Hp.
  destruct (has_stretch h ld w _ Hd B4) as (Hs & _ & Ls). rewrite <- B2, <- (sT_T D E fn l pts Hp) in Hs.
  assert (G : grow h ((h ++ [pts_d1 pts]) ++ [pts_x pts])) by exact (grow_trans _ _ _ (grow_new _ _) (grow_new _ _)).
  split; [reflexivity|]. cbn [hs_T hs_d1 hs_x]. split; [exact (has_grow _ _ _ _ G Hs)|].
  split; [apply (has_grow _ _ _ _ (grow_new _ _)), has_new|]. split; [apply has_new|]. split; [exact (frame_grow _ _ _ _ F G)|].
  left. split; [exact (free_new h F)|]. destruct Hs as (_ & L). cbn. rewrite app_length. cbn. split; [lia|]. split; [lia | eauto].
Qed.
Lemma st_Td T d v w : ok_at h0 kw2 "T" (kelvins E) T v h -> ok_at h0 kw2 "d" (native_d E) d w h ->
  (ref_loc T = ref_loc d -> (ref_loc T < n0)%nat) ->
  ex (hs_Td D T d) (do l <- broadcast2 v w; Ok (map (from_Td D) l)) h good frame.
Proof.
  intros (HT & lT & -> & CT) (Hd & ld & -> & Cd) Ap. unfold hs_Td. apply (ex_b2 _ _ _ _ _ _ _ _ _ HT Hd F). intros l Bl.
  destruct (broadcast2_ext _ _ _ Bl) as (B1 & B2 & B3 & B4). cbv zeta.
  destruct (has_stretch h lT v _ HT B3) as (HsT & _ & LsT). rewrite <- B1, <- (Td_T D l) in HsT.
  destruct (has_stretch h ld w _ Hd B4) as (Hsd & Fl & Lsd).
  destruct (some_sat (map (from_Td D) l)) eqn:Ss.
  - assert (G : grow h ((h ++ [pts_d1 (map (from_Td D) l)]) ++ [pts_x (map (from_Td D) l)])) by exact (grow_trans _ _ _ (grow_new _ _) (grow_new _ _)).
    split; [reflexivity|]. cbn [hs_T hs_d1 hs_x]. split; [exact (has_grow _ _ _ _ G HsT)|].
    split; [apply (has_grow _ _ _ _ (grow_new _ _)), has_new|]. split; [apply has_new|]. split; [exact (frame_grow _ _ _ _ F G)|].
    left. split; [exact (free_new h F)|]. destruct HsT as (_ & L). cbn [ref_loc]. rewrite app_length. cbn [List.length].
    split; [lia|]. split; [lia | eauto].
  - rewrite <- B2, <- (Td_d1 D l Ss) in Hsd.
    assert (G := grow_new h (pts_x (map (from_Td D) l))).
    split; [reflexivity|]. cbn [hs_T hs_d1 hs_x]. split; [exact (has_grow _ _ _ _ G HsT)|]. split; [exact (has_grow _ _ _ _ G Hsd)|].
    split; [apply has_new|]. split; [exact (frame_grow _ _ _ _ F G)|].
    destruct Cd as [Cd|(Cd & _)].
    + left. unfold free. rewrite Lsd, LsT. split; [left; exact Cd|]. cbn in Ap. cbn [ref_loc]. destruct Hd as (_ & L). cbn in L.
      split; [lia|]. split; [lia | congruence].
    + right. split; [exact Ss|]. split; [exact Cd|]. apply (flat_grow _ _ _ G); [rewrite Lsd; exact (proj2 Hd) | exact Fl].
Qed.
Lemma good_Tx pts T x : has h T (pts_T pts) -> has h x (pts_x pts) ->
  good {| hs_pts := pts; hs_T := T; hs_d1 := Whole (List.length h); hs_x := x |} pts (h ++ [pts_d1 pts]).
Proof.
  intros HT Hx. assert (G := grow_new h (pts_d1 pts)).
  split; [reflexivity|]. cbn [hs_T hs_d1 hs_x]. split; [exact (has_grow _ _ _ _ G HT)|]. split; [apply has_new|].
  split; [exact (has_grow _ _ _ _ G Hx)|]. split; [exact (frame_grow _ _ _ _ F G)|].
  left. split; [exact (free_new h F)|]. destruct HT as (_ & L1). destruct Hx as (_ & L2). cbn. split; [lia|]. split; [lia | eauto].
Qed.
Lemma st_Tx T x v w : ok_at h0 kw2 "T" (kelvins E) T v h -> ok_at h0 kw2 "x" True x w h ->
  ex (hs_Tx D T x) (do l <- broadcast2 v w; from_Tx D l) h good frame.
Proof.
  intros (HT & lT & -> & _) (Hx & lx & -> & _). unfold hs_Tx. apply (ex_b2 _ _ _ _ _ _ _ _ _ HT Hx F). intros l Bl.
  destruct (broadcast2_ext _ _ _ Bl) as (B1 & B2 & B3 & B4).
  apply ex_lift_end; [exact F|]. intros pts Hp. destruct (Tx_vals D l pts Hp) as (V1 & V2).
  apply good_Tx.
  - unfold pts_T. rewrite V1, B1. now apply has_stretch.
  - unfold pts_x. rewrite V2, B2. now apply has_stretch.
Qed.
Lemma st_px p x v w : has h p v -> ok_at h0 kw2 "x" True x w h -> ex (hs_px D p x) (from_px D v w) h good frame.
Proof.
  intros Hp (Hx & lx & -> & _). unfold hs_px. apply (ex_read _ _ _ _ _ _ _ Hp). apply (ex_read _ _ _ _ _ _ _ Hx).
  apply ex_lift_end; [exact F|]. intros pts Ep. destruct (px_x D v w pts Ep) as (V & Fi).
  assert (Hs := proj1 (has_stretch h lx w _ Hx Fi)). rewrite <- V in Hs.
  assert (G : grow h ((h ++ [pts_T pts]) ++ [pts_d1 pts])) by exact (grow_trans _ _ _ (grow_new _ _) (grow_new _ _)).
  split; [reflexivity|]. cbn [hs_T hs_d1 hs_x]. split; [apply (has_grow _ _ _ _ (grow_new _ _)), has_new|]. split; [apply has_new|].
  split; [exact (has_grow _ _ _ _ G Hs)|]. split; [exact (frame_grow _ _ _ _ F G)|].
  left. split; [exact (free_new _ (frame_grow _ _ _ _ F (grow_new h (pts_T pts))))|]. destruct Hs as (_ & L).
  cbn [ref_loc]. rewrite app_length. cbn [List.length]. split; [lia|]. split; [lia | eauto].
Qed.
Lemma ext_self n x : Nat.eqb (List.length x) n = true -> ext n x = x.
Proof. unfold ext. now intros ->. Qed.
Lemma st_pd d p w v : ok_at h0 kw2 "d" (native_d E) d w h -> has h p v -> (exists a, dget "p" kw2 = Some a) ->
  (forall pts, (do l <- broadcast2 w v; from_pd D E l) = Ok pts -> some_sat pts = true -> HD) ->
  ex (hs_pd D E owns d p) (do l <- broadcast2 w v; from_pd D E l) h good frame.
Proof.
  intros (Hd & ld & -> & Cd) Hp Ap Hsat. unfold hs_pd. apply (ex_b2 _ _ _ _ _ _ _ _ _ Hd Hp F). intros l Bl. rewrite Bl in Hsat. cbn [bind] in Hsat.
  destruct (broadcast2_ext _ _ _ Bl) as (B1 & _ & B3 & _).
  apply ex_lift_end; [exact F|]. intros pts Ep. apply ex_new.
  destruct (has_stretch h ld w _ Hd B3) as (Hs & Fl & Ls).
  destruct (some_sat pts) eqn:Ss.
  - unfold overwrite. destruct (_ && _)%bool eqn:Ov; [|exact (good3 pts h F)].
    apply andb_true_iff in Ov. destruct Ov as (Ov & Ow). apply andb_true_iff in Ov. destruct Ov as (Ov & _).
    unfold stretch in Ow |- *. rewrite Ov in Ow |- *. cbn [owned] in Ow.
    assert (Ld := proj2 Hd). cbn in Ld. assert (F1 := frame_grow _ _ _ _ F (grow_new h (pts_T pts))).
    assert (Sd : (n0 <= ld)%nat \/ S ld).
    { destruct Cd as [Cd|(Cd & Cd')]; [auto|]. right. apply SD. split; [exact Ow|]. split; [exact Cd|]. split; [exact Cd'|]. split; [exact Ap|]. eauto. }
    assert (F2 : frame (upd ld (pts_d1 pts) (h ++ [pts_T pts]))).
    { destruct F1 as (L1 & F1). split; [rewrite upd_length; exact L1|]. intros j Hj Nj. rewrite upd_other; [auto|]. intros ->. destruct Sd; [lia | contradiction]. }
    set (h1 := upd ld (pts_d1 pts) (h ++ [pts_T pts])) in *.
    assert (L1 : List.length h1 = Datatypes.S (List.length h)) by (unfold h1; rewrite upd_length, app_length; cbn; lia).
    assert (G := grow_new h1 (pts_x pts)).
    split; [reflexivity|]. cbn [hs_T hs_d1 hs_x]. split.
    { apply (has_grow _ _ _ _ G). split; [|cbn; lia]. cbn. unfold h1. rewrite upd_other by lia. rewrite app_nth2, Nat.sub_diag by lia. reflexivity. }
    split.
    { apply (has_grow _ _ _ _ G). split; [|cbn; lia]. cbn. unfold h1. apply upd_same. rewrite app_length. lia. }
    split; [apply has_new|]. split; [exact (frame_grow _ _ _ _ F2 G)|].
    left. split; [exact Sd|]. cbn [ref_loc]. rewrite ?upd_length, ?app_length. cbn [List.length]. split; [lia|]. split; [lia | eauto].
  - rewrite <- B1, <- (pd_d1 D E l pts Ep Ss) in Hs. apply (good_d pts _ Hs Ss). rewrite Ls. destruct Cd as [Cd|(Cd & _)]; auto.
Qed.
(* T, p, x *)
Lemma ex_b3 {A B} a b c v w u (f : list (fl * fl * fl) * bool * ref * ref * ref -> M A) (g : list (fl * fl * fl) -> res B) Q (X : heap -> Prop) :
  has h a v -> has h b w -> has h c u -> X h ->
  (forall l, broadcast3 v w u = Ok l ->
     ex (f (l, Nat.eqb (List.length v) (List.length l) && Nat.eqb (List.length w) (List.length l) && Nat.eqb (List.length u) (List.length l),
            stretch (List.length l) v a, stretch (List.length l) w b, stretch (List.length l) u c)%bool) (g l) h Q X) ->
  ex (mbind (h_broadcast3 a b c) f) (do l <- broadcast3 v w u; g l) h Q X.
Proof.
  intros (Ha & _) (Hb & _) (Hc & _) HX H. unfold h_broadcast3, ex, mbind, read, lift, ret in *. rewrite Ha, Hb, Hc.
  destruct (broadcast3 v w u) as [l|e]; [exact (H l eq_refl) | cbn; auto].
Qed.
Lemma st_Tpx T p x v w u : ok_at h0 kw2 "T" (kelvins E) T v h -> has h p w -> ok_at h0 kw2 "x" True x u h ->
  (ref_loc T = ref_loc x -> (ref_loc T < n0)%nat) ->
  (forall l, broadcast3 v w u = Ok l -> too_hot D l = true -> map e1 l = v -> map e3 l = u -> HC) ->
  ex (hs_Tpx D E fuel owns T p x) (do l <- broadcast3 v w u; from_Tpx D E fuel l) h good frame.
Proof.
  intros (HT & lT & -> & CT) Hp (Hx & lx & -> & Cx) Ap Hot. unfold hs_Tpx. apply (ex_b3 _ _ _ _ _ _ _ _ _ _ HT Hp Hx F). intros l Bl.
  destruct (broadcast3_ext _ _ _ _ Bl) as (B1 & B2 & B3 & _ & B4). specialize (Hot l Bl).
  apply ex_lift_end; [exact F|]. intros pts Ep. destruct (Tpx_vals D E fuel l pts Ep) as (_ & V). apply ex_new.
  destruct (has_stretch h lT v _ HT B3) as (HsT & _ & LsT). destruct (has_stretch h lx u _ Hx B4) as (Hsx & _ & Lsx).
  destruct (too_hot D l) eqn:Th.
  2:{ destruct (V eq_refl) as (V1 & V2). rewrite <- B1, <- V1 in HsT. rewrite <- B2, <- V2 in Hsx. exact (good_Tx pts _ _ HsT Hsx). }
  assert (LT := proj2 HT). assert (Lx := proj2 Hx). cbn in LT, Lx, Ap.
  unfold overwrite. destruct (Nat.eqb (List.length v) (List.length l)) eqn:Q1; cbn [andb].
  2:{ (* a view: both new *)
    cbn. set (h1 := h ++ [pts_d1 pts]). assert (G1 := grow_new h (pts_d1 pts)).
    split; [reflexivity|]. cbn [hs_T hs_d1 hs_x].
    split; [apply (has_grow _ _ _ _ (grow_new _ _)), has_new|].
    split; [apply (has_grow _ _ _ _ (grow_trans _ _ _ (grow_new _ _) (grow_new _ _))), has_new|]. split; [apply has_new|].
    split; [exact (frame_grow _ _ _ _ F (grow_trans _ _ _ G1 (grow_trans _ _ _ (grow_new _ _) (grow_new _ _))))|].
    left. split; [exact (free_new h F)|]. unfold h1. cbn [ref_loc]. rewrite !app_length. cbn [List.length]. split; [lia|]. split; [lia | eauto]. }
  destruct (Nat.eqb (List.length u) (List.length l)) eqn:Q3.
  2:{ rewrite andb_false_r. cbn. set (h1 := h ++ [pts_d1 pts]). assert (G1 := grow_new h (pts_d1 pts)).
    split; [reflexivity|]. cbn [hs_T hs_d1 hs_x].
    split; [apply (has_grow _ _ _ _ (grow_new _ _)), has_new|].
    split; [apply (has_grow _ _ _ _ (grow_trans _ _ _ (grow_new _ _) (grow_new _ _))), has_new|]. split; [apply has_new|].
    split; [exact (frame_grow _ _ _ _ F (grow_trans _ _ _ G1 (grow_trans _ _ _ (grow_new _ _) (grow_new _ _))))|].
    left. split; [exact (free_new h F)|]. unfold h1. cbn [ref_loc]. rewrite !app_length. cbn [List.length]. split; [lia|]. split; [lia | eauto]. }
  rewrite andb_true_r. assert (Hc : HC).
  { apply Hot; [reflexivity | rewrite B1; now apply ext_self | rewrite B2; now apply ext_self]. } clear Hot.
  unfold stretch. rewrite Q1, Q3. set (q2 := Nat.eqb (List.length w) (List.length l)). clearbody q2. cbn [owned].
  assert (RT' : nth lT owns true = true -> (n0 <= lT)%nat \/ RC lT).
  { intro O. destruct CT as [CT|CT]; [auto | right]. split; [exact O|]. split; [left; exact CT | exact Hc]. }
  assert (RX' : nth lx owns true = true -> (n0 <= lx)%nat \/ RC lx).
  { intro O. destruct Cx as [Cx|Cx]; [auto | right]. split; [exact O|]. split; [right; exact (proj2 Cx) | exact Hc]. }
  assert (Ne : (nth lT owns true = true \/ nth lx owns true = true) -> lT <> lx).
  { intros O EQ. subst lx. assert (O1 : nth lT owns true = true) by tauto. specialize (Ap eq_refl). destruct (RT' O1) as [R1|R1]; [lia|].
    apply (SepC lT R1); [destruct CT as [CT|(_ & CT)]; [lia | exact CT] | destruct Cx as [Cx|(_ & Cx)]; [lia | exact Cx]]. }
  set (h1 := h ++ [pts_d1 pts]). assert (F1 : frame h1) by exact (frame_grow _ _ _ _ F (grow_new _ _)).
  assert (L1 : List.length h1 = Datatypes.S (List.length h)) by (unfold h1; rewrite app_length; cbn; lia).
  assert (Hd1 : has h1 (Whole (List.length h)) (pts_d1 pts)) by apply has_new.
  (* after T *)
  assert (P : exists h2 T2, (if (q2 && nth lT owns true)%bool then run _ <- write (Whole lT) (pts_T pts); ret (Whole lT) else new (pts_T pts)) h1 = (h2, Ok T2) /\
     has h2 T2 (pts_T pts) /\ has h2 (Whole (List.length h)) (pts_d1 pts) /\ frame h2 /\ (List.length h1 <= List.length h2)%nat /\
     ref_loc T2 <> List.length h /\ (nth lx owns true = true -> ref_loc T2 <> lx)).
  { destruct (q2 && nth lT owns true)%bool eqn:O.
    - apply andb_true_iff in O. destruct O as (_ & O).
      exists (upd lT (pts_T pts) h1), (Whole lT). split; [reflexivity|]. split; [split; [cbn; apply upd_same; lia | cbn; rewrite upd_length; lia]|].
      split; [split; [cbn; rewrite upd_other by lia; exact (proj1 Hd1) | cbn; rewrite upd_length; lia]|].
      split; [|split; [rewrite upd_length; lia | split; [cbn; lia | intros _; cbn; apply Ne; auto]]].
      destruct F1 as (A1 & F1). split; [rewrite upd_length; exact A1|]. intros j Hj Nj. rewrite upd_other; [auto|]. intros ->.
      destruct (RT' O) as [R1|R1]; [lia | exact (Nj (SC _ R1))].
    - exists (h1 ++ [pts_T pts]), (Whole (List.length h1)). split; [reflexivity|]. split; [apply has_new|].
      split; [exact (has_grow _ _ _ _ (grow_new _ _) Hd1)|]. split; [exact (frame_grow _ _ _ _ F1 (grow_new _ _))|].
      split; [rewrite app_length; lia|]. split; [cbn; lia|]. intros _; cbn; lia. }
  destruct P as (h2 & T2 & EqT & HT2 & Hd2 & F2 & L2 & N1 & N2).
  eapply ex_run; [exact EqT|]. clear EqT.
  destruct (q2 && nth lx owns true)%bool eqn:O.
  - apply andb_true_iff in O. destruct O as (_ & O). eapply ex_run; [reflexivity|].
    split; [reflexivity|]. cbn [hs_T hs_d1 hs_x]. specialize (N2 O).
    split; [split; [rewrite <- (proj1 HT2); apply hget_loc, upd_other; auto | rewrite upd_length; exact (proj2 HT2)]|].
    split; [split; [rewrite <- (proj1 Hd2); apply hget_loc, upd_other; cbn; lia | rewrite upd_length; exact (proj2 Hd2)]|].
    split; [split; [cbn; apply upd_same; lia | cbn; rewrite upd_length; lia]|]. split.
    + destruct F2 as (A2 & F2). split; [rewrite upd_length; exact A2|]. intros j Hj Nj. rewrite upd_other; [auto|]. intros ->.
      destruct (RX' O) as [R1|R1]; [lia | exact (Nj (SC _ R1))].
    + left. split; [exact (free_new h F)|]. cbn [ref_loc]. split; [auto|]. split; [lia | eauto].
  - eapply ex_run; [reflexivity|].
    split; [reflexivity|]. cbn [hs_T hs_d1 hs_x]. split; [exact (has_grow _ _ _ _ (grow_new _ _) HT2)|].
    split; [exact (has_grow _ _ _ _ (grow_new _ _) Hd2)|]. split; [apply has_new|]. split; [exact (frame_grow _ _ _ _ F2 (grow_new _ _))|].
    left. split; [exact (free_new h F)|]. cbn [ref_loc]. split; [auto|]. split; [lia | eauto].
Qed.
End H.

Lemma good_args a v h : argsrel E h0 kw2 a v h -> frame h -> si_args D E kv = Ok v ->
  ex (h_from_args D E fuel owns a) (from_args D E fuel v) h good frame.
Proof.
  intros (RT' & RP' & RD' & RX & RI & ApD & ApX) F Si. destruct (si_inv _ _ _ _ Si) as (IT & IP & IX).
  unfold h_from_args, from_args.
  destruct (ha_inv a) as [(fn, rh)|] eqn:Ai, (a_inv v) as [(fn', wh)|] eqn:Vi; cbn in RI; try contradiction.
  - destruct RI as (<- & Hh).
    destruct (ha_p a) as [rp|] eqn:Ep, (a_p v) as [wp|] eqn:Vp; cbn in RP'; try contradiction; [apply (st_hp h F); [exact Hh | exact (proj1 RP')]|].
    destruct (ha_d a) as [rd|] eqn:Ed, (a_d v) as [wd|] eqn:Vd; cbn in RD'; try contradiction; [now apply (st_hd h F)|].
    destruct (ha_x a) as [rx|], (a_x v) as [wx|]; cbn in RX; try contradiction; [apply ex_fail; exact F|].
    destruct (ha_T a) as [rT|], (a_T v) as [wT|]; cbn in RT'; try contradiction; [now apply (st_sT h F) | apply ex_fail; exact F].
  - destruct (ha_T a) as [rT|] eqn:ET, (a_T v) as [wT|] eqn:VT; cbn in RT'; try contradiction.
    + destruct (ha_p a) as [rp|] eqn:Ep, (a_p v) as [wp|] eqn:Vp; cbn in RP'; try contradiction.
      * destruct (ha_x a) as [rx|] eqn:Ex, (a_x v) as [wx|] eqn:Vx; cbn in RX; try contradiction.
        -- assert (EqL : (match ha_d a with Some _ => hs_Tpx D E fuel owns rT rp rx | None => hs_Tpx D E fuel owns rT rp rx end) = hs_Tpx D E fuel owns rT rp rx) by (destruct (ha_d a); reflexivity).
           assert (EqR : forall A (z : A), match a_d v with Some _ => z | None => z end = z) by (intros; destruct (a_d v); reflexivity).
           rewrite ?EqL, ?EqR.
           apply (st_Tpx h F); [exact RT' | exact (proj1 RP') | exact RX | intro Q; exact (ApX rT rx eq_refl eq_refl Q) |]. intros l Bl Th E1 E2.
           destruct (IT wT eq_refl) as (vT & DT & LT). destruct (IP wp eq_refl) as (vp & DP). specialize (IX wx eq_refl).
           rewrite dget_kval in DT, DP, IX.
           destruct (dget "T" kw2) as [aT|] eqn:KT; [|discriminate]. destruct (dget "p" kw2) as [ap|] eqn:KP; [|discriminate].
           destruct (dget "x" kw2) as [ax|] eqn:KX; [|discriminate].
           destruct (too_hot_at D l Th) as (i & t & q & T1 & T2 & T3 & T4). rewrite E1 in T1. rewrite E2 in T3.
           exists aT, ap, ax, wT, i, t, q. injection DT as <-. injection IX as IX. rewrite IX. repeat split; auto.
        -- assert (EqR : forall A (z : A), match a_d v with Some _ => z | None => z end = z) by (intros; destruct (a_d v); reflexivity).
           assert (EqL : forall A (z : A), match ha_d a with Some _ => z | None => z end = z) by (intros; destruct (ha_d a); reflexivity).
           rewrite ?EqL, ?EqR. apply ex_new. assert (G := grow_new h [num (-1)]). assert (Lh := proj1 F).
           destruct RT' as (HT & CT). apply (st_Tpx _ (frame_grow _ _ _ _ F G)).
           ++ split; [exact (has_grow _ _ _ _ G HT) | exact CT].
           ++ exact (has_grow _ _ _ _ G (proj1 RP')).
           ++ split; [apply has_new|]. exists (List.length h). split; [reflexivity | left; exact Lh].
           ++ cbn. destruct HT as (_ & L). lia.
           ++ intros l Bl Th _ E2. exfalso. destruct (too_hot_at D l Th) as (i & t & q & _ & _ & T3 & T4). rewrite E2 in T3.
              destruct i as [|[|i]]; cbn in T3; try discriminate. injection T3 as <-. apply T4. exists (-1). split; [reflexivity | lra].
      * destruct (ha_d a) as [rd|] eqn:Ed, (a_d v) as [wd|] eqn:Vd; cbn in RD'; try contradiction.
        -- apply (st_Td h F); auto. intro Q. exact (ApD rT rd eq_refl eq_refl Q).
        -- destruct (ha_x a) as [rx|], (a_x v) as [wx|]; cbn in RX; try contradiction; [now apply (st_Tx h F) | apply ex_fail; exact F].
    + destruct (ha_p a) as [rp|] eqn:Ep, (a_p v) as [wp|] eqn:Vp; cbn in RP'; try contradiction; [|apply ex_fail; exact F].
      destruct (ha_d a) as [rd|] eqn:Ed, (a_d v) as [wd|] eqn:Vd; cbn in RD'; try contradiction.
      * apply (st_pd h F); [exact RD' | exact (proj1 RP') | |].
        -- destruct (IP wp eq_refl) as (vp & DP). rewrite dget_kval in DP. destruct (dget "p" kw2); [eauto | discriminate].
        -- intros pts Ep' Ss. exists pts. split; [|exact Ss]. rewrite Si. cbn [bind]. unfold from_args. rewrite Vi, VT, Vp, Vd. exact Ep'.
      * destruct (ha_x a) as [rx|], (a_x v) as [wx|]; cbn in RX; try contradiction; [|apply ex_fail; exact F].
        apply (st_px h F); [exact (proj1 RP') | exact RX].
Qed.
End St.

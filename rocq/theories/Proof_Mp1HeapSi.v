(* The arguments in SI units, in memory. *)
From Coq Require Import Reals ZArith List Bool Arith String Lra Lia.
From Verif Require Import Base Model_Num Model_Units Model_Igas Model_IgHeap Spec_IgHeap Proof_IgHeap Model_Mp1Calls Model_Mp1Heap Proof_Mp1Acc Proof_Mp1HeapLow.
Import ListNotations.
Local Open Scope R_scope.
Local Open Scope string_scope.
Local Open Scope list_scope.

Lemma ex_bind' {A B A' B'} (m : M A) (f : A -> M A') (r : res B) (g : B -> res B') h P Q X :
  ex m r h P X -> (forall x v h', r = Ok v -> P x v h' -> ex (f x) (g v) h' Q X) -> ex (mbind m f) (bind r g) h Q X.
Proof.
  unfold ex at 1 3, mbind. destruct (m h) as (h', [x|e]); destruct r as [v|e']; cbn [bind]; try contradiction; [|auto].
  intros H1 H2. exact (H2 x v h' eq_refl H1).
Qed.
Lemma ex_last {A B A'} (m : M A) (f : A -> M A') (r : res B) h P Q X :
  ex m r h P X -> (forall x v h', P x v h' -> ex (f x) (Ok v) h' Q X) -> ex (mbind m f) r h Q X.
Proof.
  intros H1 H2. pose proof (ex_bind m f r Ok h P Q X H1 H2) as H. destruct r; exact H.
Qed.

Lemma ex_post {A B} (m : M A) (r : res B) h (P Q : A -> B -> heap -> Prop) (X : heap -> Prop) :
  ex m r h P X -> (forall x v h', P x v h' -> Q x v h') -> ex m r h Q X.
Proof. intros H1 H2. exact (ex_mono _ _ _ _ _ _ _ H1 H2 (fun h' H => H)). Qed.

(* what was not in S is as before *)
Definition step (S : nat -> Prop) (h h' : heap) : Prop :=
  (List.length h <= List.length h')%nat /\ forall l, (l < List.length h)%nat -> ~ S l -> nth l h' [] = nth l h [].
Lemma step_grow S h h' : grow h h' -> step S h h'.
Proof. intro G. split; [apply grow_len, G|]. intros l L _. exact (grow_nth _ _ _ G L). Qed.
Lemma step_trans S a b c : step S a b -> step S b c -> step S a c.
Proof. intros (L1 & H1) (L2 & H2). split; [lia|]. intros l L N. rewrite H2 by (auto; lia). auto. Qed.
Lemma step_mono (S S' : nat -> Prop) h h' : (forall l, S l -> S' l) -> step S h h' -> step S' h h'.
Proof. intros I (L & H). split; [exact L|]. intros l Hl N. apply H; auto. Qed.
Lemma step_has S h h' r v : step S h h' -> ~ S (ref_loc r) -> has h r v -> has h' r v.
Proof. intros (L & H) N (<- & Hl). split; [apply hget_loc, H; auto | lia]. Qed.
Lemma step_upd (S : nat -> Prop) l v h : S l -> step S h (upd l v h).
Proof. intro H. split; [rewrite upd_length; lia|]. intros k _ N. apply upd_other. congruence. Qed.

(* ---- T[Ioob] = def_oob ---- *)
Lemma limited_none E lim v w : existsb (outside lim) v = false -> limited E lim v = Ok w -> w = v.
Proof.
  intros H L. destruct (limited_val E lim v) as [[_ Q]|[_ Q]]; [congruence|].
  assert (w = map (fun x => if outb lim x then e_oob E else x) v) as -> by congruence. clear L Q.
  rewrite <- (map_id v) at 2. apply map_ext_in. intros x Hx. destruct (outb lim x) eqn:O; [|reflexivity]. exfalso.
  assert (existsb (outside lim) v = true); [|congruence]. apply existsb_exists. exists x. auto.
Qed.

Definition kept (lim : R * R) (r : ref) (v : arr) (same : Prop) (h : heap) (r' : ref) (w : arr) (h' : heap) : Prop :=
  has h' r' w /\ step (fun j => j = ref_loc r /\ same /\ existsb (outside lim) v = true) h h' /\
  ((r' = r /\ same) \/ exists l, r' = Whole l /\ (List.length h <= l)%nat).
Lemma ex_stage E conv (cv : arr -> res arr) lim l v h same (X : heap -> Prop) : has h (Whole l) v ->
  ex (conv (Whole l)) (cv v) h (fun r' w h' => has h' r' w /\ moved (Whole l) r' h h' same) X ->
  (forall h', grow h h' -> X h') ->
  ex (run r1 <- conv (Whole l); run _ <- h_limited E lim r1; ret r1) (do v1 <- cv v; limited E lim v1) h
     (kept lim (Whole l) v same h) X.
Proof.
  intros Hr Hc HX. eapply ex_bind; [exact Hc|]. intros r1 v1 h1 (H1 & Mv). clear Hc.
  unfold h_limited, ex, mbind, read, lift, ret. rewrite (proj1 H1).
  assert (G : grow h h1) by (destruct Mv as [(_ & -> & _)|(_ & G)]; [apply grow_refl | exact G]).
  destruct (limited E lim v1) as [w|e] eqn:L; [|split; [reflexivity | apply HX, G]].
  destruct (existsb (outside lim) v1) eqn:O.
  - assert (R1 : exists l1, r1 = Whole l1) by (destruct Mv as [(-> & _)|(-> & _)]; eauto). destruct R1 as (l1 & ->).
    cbn [write]. pose proof (proj2 H1) as L1. cbn in L1. split; [split; [cbn; now apply upd_same | cbn; rewrite upd_length; exact L1]|].
    split; [|destruct Mv as [(-> & _ & Sm)|(E1 & _)]; [left; auto | right; injection E1 as ->; eauto]].
    destruct Mv as [(E1 & -> & Sm)|(E1 & G1)].
    + injection E1 as ->. rewrite (has_fun _ _ _ _ H1 Hr) in O. apply step_upd. cbn. auto.
    + injection E1 as ->. split; [rewrite upd_length; apply grow_len, G|]. intros j Hj _. rewrite upd_other by lia. exact (grow_nth _ _ _ G Hj).
  - rewrite (limited_none _ _ _ _ O L) in *. split; [exact H1|]. split; [apply step_grow, G|].
    destruct Mv as [(-> & _ & Sm)|(-> & _)]; [left; auto | right; eauto].
Qed.

(* a value that no stage writes into *)
Definition plain (r : ref) (same : Prop) (h : heap) (r' : ref) (w : arr) (h' : heap) : Prop :=
  has h' r' w /\ grow h h' /\ ((r' = r /\ same) \/ exists l, r' = Whole l /\ (List.length h <= l)%nat).
Lemma moved_plain r r' h h' w same : has h' r' w -> moved r r' h h' same -> plain r same h r' w h'.
Proof.
  intros H Mv. split; [exact H|]. destruct Mv as [(-> & -> & Sm)|(-> & G)].
  - split; [apply grow_refl | left; auto].
  - split; [exact G | right; eauto].
Qed.
Lemma plain_trans r r1 r2 h h1 h2 w1 w2 A B : plain r A h r1 w1 h1 -> plain r1 B h1 r2 w2 h2 -> plain r (A /\ B) h r2 w2 h2.
Proof.
  intros (_ & G1 & C1) (H2 & G2 & C2). split; [exact H2|]. split; [exact (grow_trans _ _ _ G1 G2)|].
  destruct C2 as [(-> & b)|(l & -> & Hl)]; [|right; exists l; split; [reflexivity | pose proof (grow_len _ _ G1); lia]].
  destruct C1 as [(-> & a)|C1]; [left; auto | right; exact C1].
Qed.

Section Plain.
Variables (D : mpdata) (E : env) (X : heap -> Prop).
Lemma ex_pl_convert q f t e r v h : has h r v -> (forall h', grow h h' -> X h') ->
  ex (h_convert E q f t e r) (aconvert E q v f t e) h (plain r (conv_same E q f t) h) X.
Proof. intros H HX. eapply ex_post; [apply ex_convert; eassumption |]. intros r' w h' (H1 & M1). exact (moved_plain _ _ _ _ _ _ H1 M1). Qed.
Lemma ex_pl_matter mw f t e r v h : has h r v -> (forall h', grow h h' -> X h') ->
  ex (h_matter E mw f t e r) (amatter E v mw f t e) h (plain r (matter_same E f t) h) X.
Proof. intros H HX. eapply ex_post; [apply ex_matter; eassumption |]. intros r' w h' (H1 & M1). exact (moved_plain _ _ _ _ _ _ H1 M1). Qed.
Lemma ex_pl_bind conv1 conv2 (c1 c2 : arr -> res arr) r v h A B : (forall h', grow h h' -> X h') ->
  ex (conv1 r) (c1 v) h (plain r A h) X ->
  (forall r1 v1 h1, has h1 r1 v1 -> (forall h', grow h1 h' -> X h') -> ex (conv2 r1) (c2 v1) h1 (plain r1 B h1) X) ->
  ex (run r1 <- conv1 r; conv2 r1) (do v1 <- c1 v; c2 v1) h (plain r (A /\ B) h) X.
Proof.
  intros HX H1 H2. eapply ex_bind; [exact H1|]. intros r1 v1 h1 P1. eapply ex_post; [apply H2|].
  - exact (proj1 P1).
  - intros h' G. apply HX. exact (grow_trans _ _ _ (proj1 (proj2 P1)) G).
  - intros r2 v2 h2 P2. exact (plain_trans _ _ _ _ _ _ _ _ _ _ P1 P2).
Qed.
Lemma ex_energy r v h : has h r v -> (forall h', grow h h' -> X h') ->
  ex (h_si_energy D E r) (si_energy D E v) h (plain r (conv_same E QEnergy None (Some "J") /\ matter_same E None (Some "kg")) h) X.
Proof.
  intros H HX. unfold h_si_energy, si_energy.
  apply (ex_pl_bind (h_convert E QEnergy None (Some "J") None) (h_matter E (mp_mw D) None (Some "kg") (Some (-1)%Z))
    (fun v => aconvert E QEnergy v None (Some "J") None) (fun v => amatter E v (mp_mw D) None (Some "kg") (Some (-1)%Z))); auto.
  - now apply ex_pl_convert.
  - intros. now apply ex_pl_matter.
Qed.
End Plain.

Lemma ex_mores {A B A' B'} (o : option A) (o' : option B) (f : A -> M A') (g : B -> res B') h (P : A -> B -> A' -> B' -> heap -> Prop) X :
  match o, o' with Some a, Some b => ex (f a) (g b) h (P a b) X | None, None => True | _, _ => False end ->
  ex (mores o f) (ores o' g) h (fun x y h' => match o, o', x, y with
     | Some a, Some b, Some x, Some y => P a b x y h' | None, None, None, None => h' = h | _, _, _, _ => False end) X.
Proof.
  destruct o as [a|], o' as [b|]; cbn [mores ores]; try contradiction; [|intros _; reflexivity].
  intro H. eapply ex_bind; [exact H|]. intros x v h' Hp. exact Hp.
Qed.

Section Si.
Variables (D : mpdata) (E : env) (h0 : heap) (kw2 : hkwargs) (kw3 : list (string * ref)) (h3 : heap).
Notation n0 := (List.length h0).
Definition RT (l : nat) : Prop := kelvins E /\ dget "T" kw2 = Some (HArr l) /\ existsb (outside (mp_Tlim D)) (nth l h0 []) = true.
Definition RP (l : nat) : Prop := unit_is E "unit_pressure" "Pa" /\ dget "p" kw2 = Some (HArr l) /\ existsb (outside (mp_plim D)) (nth l h0 []) = true.
Variable S : nat -> Prop.
Hypothesis ST : forall l, RT l -> S l.
Hypothesis SP : forall l, RP l -> S l.
(* an array that is written into has no other name *)
Hypothesis Sep : forall k1 k2 l, RT l \/ RP l -> dget k1 kw2 = Some (HArr l) -> dget k2 kw2 = Some (HArr l) -> k1 = k2.
Hypothesis G3 : grow h0 h3.
Hypothesis A3 : forall k, match dget k kw3, dget k kw2 with
   | Some r, Some a => has h3 r (hval h0 a) /\ origin h0 kw2 k r
   | None, None => True | _, _ => False end.
Hypothesis D3 : forall k1 k2 r1 r2, dget k1 kw3 = Some r1 -> dget k2 kw3 = Some r2 -> k1 <> k2 -> ref_loc r1 = ref_loc r2 -> (ref_loc r1 < n0)%nat.

Definition frame (h' : heap) : Prop := step S h0 h'.
Lemma frame_step h h' : frame h -> step S h h' -> frame h'.
Proof. apply step_trans. Qed.
Lemma frame_grow h h' : frame h -> grow h h' -> frame h'.
Proof. intros F G. exact (step_trans _ _ _ _ F (step_grow _ _ _ G)). Qed.
Lemma frame3 : frame h3.
Proof. apply step_grow, G3. Qed.

Lemma kelvin_scale : scale_same E None (Some "K") -> kelvins E.
Proof.
  intros (a & b & H & Sc). unfold cfg_pair in H. destruct (cfg_get (e_cfg E) "unit_temperature") as [a'|] eqn:Ec; [|discriminate].
  cbn [bind] in H. injection H as -> <-. unfold kelvins, unit_is. rewrite Ec. destruct (same_scale_K a Sc); subst; auto.
Qed.
Lemma pascals : conv_same E QPressure None (Some "Pa") -> unit_is E "unit_pressure" "Pa".
Proof. exact (conv_units E QPressure "Pa"). Qed.
Lemma cubic : conv_same E QVolume None (Some "m3") -> unit_is E "unit_volume" "m3".
Proof. exact (conv_units E QVolume "m3"). Qed.
Lemma kilos : matter_same E None (Some "kg") -> unit_is E "unit_matter" "kg".
Proof. intros (u & H1 & H2). injection H2 as <-. exact H1. Qed.

(* where an argument in SI units is *)
Definition ok_at (k : string) (native : Prop) (r : ref) (w : arr) (h : heap) : Prop :=
  has h r w /\ exists l, r = Whole l /\ ((n0 <= l)%nat \/ (native /\ dget k kw2 = Some (HArr l))).
Definition native_d : Prop := unit_is E "unit_volume" "m3" /\ unit_is E "unit_matter" "kg".
Definition orel {A B} (P : A -> B -> Prop) (o : option A) (o' : option B) : Prop :=
  match o, o' with Some a, Some b => P a b | None, None => True | _, _ => False end.
Definition apart (o o' : option ref) : Prop := forall r r', o = Some r -> o' = Some r' -> ref_loc r = ref_loc r' -> (ref_loc r < n0)%nat.
Definition argsrel (a : hsargs) (v : sargs) (h : heap) : Prop :=
  orel (fun r w => ok_at "T" (kelvins E) r w h) (ha_T a) (a_T v) /\
  orel (fun r w => has h r w /\ exists l, r = Whole l) (ha_p a) (a_p v) /\
  orel (fun r w => ok_at "d" native_d r w h) (ha_d a) (a_d v) /\
  orel (fun r w => ok_at "x" True r w h) (ha_x a) (a_x v) /\
  orel (fun r w => fst r = fst w /\ has h (snd r) (snd w)) (ha_inv a) (a_inv v) /\
  apart (ha_T a) (ha_d a) /\ apart (ha_T a) (ha_x a).

(* the arguments not yet converted *)
Definition todo (k : string) (h : heap) : Prop :=
  match dget k kw3, dget k kw2 with Some r, Some a => has h r (hval h0 a) | None, None => True | _, _ => False end.
Lemma todo3 k : todo k h3.
Proof. unfold todo. specialize (A3 k). destruct (dget k kw3), (dget k kw2); try exact A3. exact (proj1 A3). Qed.
Lemma todo_grow k h h' : grow h h' -> todo k h -> todo k h'.
Proof. unfold todo. intro G. destruct (dget k kw3), (dget k kw2); auto. apply has_grow, G. Qed.

Definition RK (k : string) (lim : R * R) (native : Prop) (l : nat) : Prop :=
  native /\ dget k kw2 = Some (HArr l) /\ existsb (outside lim) (nth l h0 []) = true.
Definition came (k : string) (same : Prop) (h : heap) (r' : ref) : Prop :=
  exists r, dget k kw3 = Some r /\ ((r' = r /\ same) \/ exists l, r' = Whole l /\ (List.length h <= l)%nat).
Section Write.
Variables (k : string) (lim : R * R) (native : Prop).
Hypothesis Sub : forall l, RK k lim native l -> S l.
Hypothesis Alone : forall k2 l, RK k lim native l -> dget k2 kw2 = Some (HArr l) -> k = k2.
(* the array of k1 is that of k2 *)
Lemma risk_val l a : dget k kw3 = Some (Whole l) -> dget k kw2 = Some a -> (l < n0)%nat -> a = HArr l.
Proof.
  intros E1 E2 L. pose proof (A3 k) as B. rewrite E1, E2 in B. destruct B as (_ & l1 & Q & [B|B]); injection Q as <-; [lia | congruence].
Qed.
Lemma after_frame r a h r' w h' : dget k kw3 = Some r -> dget k kw2 = Some a -> kept lim r (hval h0 a) native h r' w h' -> frame h -> frame h'.
Proof.
  intros E1 E2 (_ & (L & St) & _) (Lf & F). split; [lia|]. intros j Hj N. rewrite <- (F j Hj N). apply St; [lia|].
  intros (-> & Na & O). pose proof (A3 k) as B. rewrite E1, E2 in B. destruct B as (_ & l1 & -> & _). cbn [ref_loc] in *.
  assert (Ea := risk_val l1 a E1 E2 Hj). subst a. apply N, Sub. split; [exact Na | split; [exact E2 | exact O]].
Qed.
Lemma after_has k2 r2 v2 r a h r' w h' : dget k kw3 = Some r -> dget k kw2 = Some a -> kept lim r (hval h0 a) native h r' w h' ->
  k <> k2 -> dget k2 kw3 = Some r2 -> has h r2 v2 -> has h' r2 v2.
Proof.
  intros E1 E2 (_ & St & _) N E3. apply (step_has _ _ _ _ _ St). intros (Q & Na & O).
  pose proof (A3 k) as B. pose proof (A3 k2) as B2. rewrite E1, E2 in B. rewrite E3 in B2.
  destruct (dget k2 kw2) as [a2|] eqn:E4; [|contradiction].
  destruct B as (_ & l1 & -> & _). destruct B2 as (_ & l2 & -> & B2). cbn [ref_loc] in *. subst l2.
  assert (Hl : (l1 < n0)%nat) by exact (D3 k k2 _ _ E1 E3 N eq_refl).
  assert (Ea := risk_val l1 a E1 E2 Hl). subst a. apply N, (Alone k2 l1); [split; [exact Na | split; [exact E2 | exact O]]|]. destruct B2 as [B2|B2]; [lia | congruence].
Qed.
Lemma after_new l v r a h r' w h' : dget k kw3 = Some r -> kept lim r (hval h0 a) native h r' w h' -> has h3 r (hval h0 a) ->
  (List.length h3 <= l)%nat -> has h (Whole l) v -> has h' (Whole l) v.
Proof. intros E1 (_ & St & _) (_ & Lr) L. apply (step_has _ _ _ _ _ St). intros (Q & _). cbn in Q. lia. Qed.
Lemma ex_opt_w conv (cv : arr -> res arr) h : frame h -> (List.length h3 <= List.length h)%nat -> todo k h ->
  (forall l v, has h (Whole l) v -> ex (conv (Whole l)) (cv v) h (fun r' w h' => has h' r' w /\ moved (Whole l) r' h h' native) frame) ->
  ex (mores (dget k kw3) (fun r => run r1 <- conv r; run _ <- h_limited E lim r1; ret r1))
     (ores (dget k (kval h0 kw2)) (fun v => do v1 <- cv v; limited E lim v1)) h
     (fun o o' h' => frame h' /\ (List.length h <= List.length h')%nat /\
       (forall k2 r2 v2, k <> k2 -> dget k2 kw3 = Some r2 -> has h r2 v2 -> has h' r2 v2) /\
       (forall l v, (List.length h3 <= l)%nat -> has h (Whole l) v -> has h' (Whole l) v) /\
       orel (fun r' w => has h' r' w /\ came k native h r') o o') frame.
Proof.
  intros F L3 Td C. eapply ex_post; [apply (ex_mores _ _ _ _ _ (fun r v r' w h' => kept lim r v native h r' w h'))|].
  - unfold todo in Td. rewrite dget_kval. specialize (A3 k). destruct (dget k kw3) as [r|], (dget k kw2) as [a|]; try exact A3.
    destruct A3 as (_ & l & -> & _). apply ex_stage; [exact Td | apply C; exact Td | intros h' G; exact (frame_grow _ _ F G)].
  - intros o o' h' H. rewrite dget_kval in H. pose proof (A3 k) as B.
    destruct (dget k kw3) as [r|] eqn:E1; destruct (dget k kw2) as [a|] eqn:E2; try contradiction.
    + destruct o as [r'|], o' as [w|]; try contradiction. destruct B as (B & _).
      split; [exact (after_frame _ _ _ _ _ _ E1 E2 H F)|]. split; [exact (proj1 (proj1 (proj2 H)))|].
      split; [intros k2 r2 v2; exact (after_has k2 r2 v2 _ _ _ _ _ _ E1 E2 H)|].
      split; [intros l v; exact (after_new l v _ _ _ _ _ _ E1 H B)|]. split; [exact (proj1 H)|]. exists r. split; [exact E1 | exact (proj2 (proj2 H))].
    + destruct o, o'; try contradiction. subst h'. split; [exact F|]. split; [lia|]. split; [auto|]. split; [auto | exact I].
Qed.
End Write.
Lemma ex_opt k f g same h : frame h -> todo k h ->
  (forall r v, has h r v -> ex (f r) (g v) h (plain r same h) frame) ->
  ex (mores (dget k kw3) f) (ores (dget k (kval h0 kw2)) g) h
     (fun o o' h' => grow h h' /\ orel (fun r' w => has h' r' w /\ came k same h r') o o') frame.
Proof.
  intros F Td C. eapply ex_post; [apply (ex_mores _ _ _ _ _ (fun r v r' w h' => plain r same h r' w h'))|].
  - unfold todo in Td. rewrite dget_kval. destruct (dget k kw3) as [r|], (dget k kw2) as [a|]; try exact Td. apply C, Td.
  - intros o o' h' H. rewrite dget_kval in H. pose proof (A3 k) as B.
    destruct (dget k kw3) as [r|] eqn:E1; destruct (dget k kw2) as [a|] eqn:E2; try contradiction.
    + destruct o as [r'|], o' as [w|]; try contradiction. destruct H as (H1 & H2 & H3).
      split; [exact H2|]. split; [exact H1|]. exists r. split; [exact E1 | exact H3].
    + destruct o, o'; try contradiction. subst h'. split; [apply grow_refl | exact I].
Qed.
Lemma came_ok k same h r' w h' : (n0 <= List.length h)%nat -> has h' r' w -> came k same h r' -> ok_at k same r' w h'.
Proof.
  intros L H (r & Er & [(-> & Sm)|(l & -> & Hl)]); (split; [exact H|]).
  - specialize (A3 k). rewrite Er in A3. destruct (dget k kw2) as [a|] eqn:E2; [|contradiction].
    destruct A3 as (_ & l & -> & [B|B]); exists l; split; auto. right. split; congruence.
  - exists l. split; [reflexivity|]. left. lia.
Qed.
Lemma came_whole k same h r' : came k same h r' -> exists l, r' = Whole l.
Proof.
  intros (r & Er & [(-> & Sm)|(l & -> & Hl)]); [|eauto].
  specialize (A3 k). rewrite Er in A3. destruct (dget k kw2) as [a|] eqn:E2; [|contradiction]. destruct A3 as (_ & l & -> & _). eauto.
Qed.
Lemma came_apart k1 k2 s1 s2 h1 h1' h2 r1 r2 w1 : k1 <> k2 -> came k1 s1 h1 r1 -> has h1' r1 w1 -> came k2 s2 h2 r2 ->
  (List.length h3 <= List.length h1)%nat -> (List.length h1' <= List.length h2)%nat -> ref_loc r1 = ref_loc r2 -> (ref_loc r1 < n0)%nat.
Proof.
  intros N (a1 & E1 & C1) (_ & L1) (a2 & E2 & C2) L3 L12 Q.
  destruct C2 as [(-> & _)|(l2 & -> & Hl2)]; [|cbn in Q; lia].
  destruct C1 as [(-> & _)|(l1 & -> & Hl1)].
  - exact (D3 k1 k2 _ _ E1 E2 N Q).
  - pose proof (A3 k2) as B. rewrite E2 in B. destruct (dget k2 kw2); [|contradiction]. destruct B as ((_ & B) & _). cbn in Q. lia.
Qed.
Lemma orel_mono {A B} (P Q : A -> B -> Prop) o o' : (forall a b, P a b -> Q a b) -> orel P o o' -> orel Q o o'.
Proof. intro H. destruct o, o'; cbn; auto. Qed.

Lemma si_ok : ex (h_si_args D E kw3) (si_args D E (kval h0 kw2)) h3 (fun a v h' => argsrel a v h' /\ frame h') frame.
Proof.
  unfold h_si_args, si_args.
  eapply ex_bind.
  { apply (ex_opt_w "T" (mp_Tlim D) (kelvins E) ST) with (cv := fun v => atscale E v None (Some "K")).
    - intros k2 l H1 H2. apply (Sep "T" k2 l); auto. exact (proj1 (proj2 H1)).
    - exact frame3.
    - lia.
    - apply todo3.
    - intros l v H. eapply ex_post; [apply ex_tscale; [exact H | intros h' G; exact (frame_grow _ _ frame3 G)]|].
      intros r' w h' (H1 & [(-> & -> & Sc)|Mv]); split; auto; [left; split; [|split]; auto; now apply kelvin_scale | right; exact Mv]. }
  intros T vT hT (FT & LT & KT & _ & CT).
  eapply ex_bind.
  { apply (ex_opt_w "p" (mp_plim D) (unit_is E "unit_pressure" "Pa") SP) with (cv := fun v => aconvert E QPressure v None (Some "Pa") None).
    - intros k2 l H1 H2. apply (Sep "p" k2 l); auto. exact (proj1 (proj2 H1)).
    - exact FT.
    - exact LT.
    - pose proof (todo3 "p") as Tp. unfold todo in *. destruct (dget "p" kw3) eqn:E1, (dget "p" kw2); auto. apply (KT "p"); auto. discriminate.
    - intros l v H. eapply ex_post; [apply ex_convert; [exact H | intros h' G; exact (frame_grow _ _ FT G)]|].
      intros r' w h' (H1 & [(-> & -> & Sc)|Mv]); split; auto; [left; split; [|split]; auto; now apply pascals | right; exact Mv]. }
  intros p vp hp (Fp & Lp & Kp & Np & Cp).
  assert (CT' : orel (fun r' w => has hp r' w /\ came "T" (kelvins E) h3 r') T vT).
  { destruct T as [rT|], vT as [wT|]; try exact CT. destruct CT as (H1 & C). split; [|exact C].
    destruct C as (r & Er & [(-> & _)|(l & -> & Hl)]); [apply (Kp "T"); auto; discriminate | apply Np; auto]. }
  assert (Tds : forall k, k <> "T" -> k <> "p" -> todo k hp).
  { intros k N1 N2. pose proof (todo3 k) as Tk. unfold todo in *. destruct (dget k kw3) eqn:E1, (dget k kw2); auto. apply (Kp k); auto. apply (KT k); auto. }
  assert (L3p : (List.length h3 <= List.length hp)%nat) by lia. clear Kp Np KT.
  eapply ex_bind.
  { apply (ex_opt "d" _ _ native_d); [exact Fp | apply Tds; discriminate|]. intros r v H.
    eapply ex_post; [apply (ex_pl_bind frame (h_convert E QVolume None (Some "m3") (Some (-1)%Z)) (h_matter E (mp_mw D) None (Some "kg") None)
      (fun v => aconvert E QVolume v None (Some "m3") (Some (-1)%Z)) (fun v => amatter E v (mp_mw D) None (Some "kg") None))|].
    - intros h' G. exact (frame_grow _ _ Fp G).
    - apply ex_pl_convert; [exact H | intros h' G; exact (frame_grow _ _ Fp G)].
    - intros. now apply ex_pl_matter.
    - intros r' w h' (P1 & P2 & P3). split; [exact P1|]. split; [exact P2|]. destruct P3 as [(-> & Sm1 & Sm2)|P3]; [left|right; exact P3].
      split; [reflexivity|]. split; [now apply cubic | now apply kilos]. }
  intros d vd hd (Gd & Cd). assert (Fd := frame_grow _ _ Fp Gd).
  eapply ex_bind.
  { apply (ex_opt "v" _ _ False); [exact Fd | apply (todo_grow _ _ _ Gd), Tds; discriminate|]. intros r v H.
    eapply ex_bind; [apply ex_pl_convert; [exact H | intros h' G; exact (frame_grow _ _ Fd G)]|]. intros r1 v1 h1 (P1 & P2 & _).
    assert (F1 := frame_grow _ _ Fd P2).
    eapply ex_bind; [apply ex_pl_matter; [exact P1 | intros h' G; exact (frame_grow _ _ F1 G)]|]. intros r2 v2 h2 (Q1 & Q2 & _).
    apply (ex_read _ _ _ _ _ _ _ Q1). cbn. split; [apply has_new|]. split; [exact (grow_trans _ _ _ P2 (grow_trans _ _ _ Q2 (grow_new _ _)))|].
    right. exists (List.length h2). split; [reflexivity|]. pose proof (grow_len _ _ P2). pose proof (grow_len _ _ Q2). lia. }
  intros dv vdv hv (Gv & Cv). assert (Fv := frame_grow _ _ Fd Gv). assert (Gpv := grow_trans _ _ _ Gd Gv).
  eapply ex_bind.
  { apply (ex_opt "h"); [exact Fv | apply (todo_grow _ _ _ Gpv), Tds; discriminate|]. intros r v H.
    apply ex_energy; [exact H | intros h' G; exact (frame_grow _ _ Fv G)]. }
  intros h vh hh (Gh & Ch). assert (Fh := frame_grow _ _ Fv Gh). assert (Gph := grow_trans _ _ _ Gpv Gh).
  eapply ex_bind.
  { apply (ex_opt "e"); [exact Fh | apply (todo_grow _ _ _ Gph), Tds; discriminate|]. intros r v H.
    apply ex_energy; [exact H | intros h' G; exact (frame_grow _ _ Fh G)]. }
  intros e ve he (Ge & Ce). assert (Fe := frame_grow _ _ Fh Ge). assert (Gpe := grow_trans _ _ _ Gph Ge).
  eapply ex_bind.
  { apply (ex_opt "s"); [exact Fe | apply (todo_grow _ _ _ Gpe), Tds; discriminate|]. intros r v H.
    eapply (ex_pl_bind frame (h_si_energy D E) (h_convert E QTemperature None (Some "K") (Some (-1)%Z))
      (si_energy D E) (fun v => aconvert E QTemperature v None (Some "K") (Some (-1)%Z))).
    - intros h' G. exact (frame_grow _ _ Fe G).
    - apply ex_energy; [exact H | intros h' G; exact (frame_grow _ _ Fe G)].
    - intros. now apply ex_pl_convert. }
  intros s vs hs (Gs & Cs). assert (Fs := frame_grow _ _ Fe Gs). assert (Gps := grow_trans _ _ _ Gpe Gs).
  eapply ex_bind.
  { apply (ex_opt "x" _ _ True); [exact Fs | apply (todo_grow _ _ _ Gps), Tds; discriminate|]. intros r v H.
    apply (ex_read _ _ _ _ _ _ _ H). destruct (_ || _)%bool; [apply ex_fail; exact Fs|]. apply ex_ret.
    split; [exact H|]. split; [apply grow_refl | left; auto]. }
  intros x vx hx (Gx & Cx). assert (Gpx := grow_trans _ _ _ Gps Gx).
  apply ex_ret. split; [|exact (frame_grow _ _ Fs Gx)].
  assert (L03 := grow_len _ _ G3). assert (Lpd := grow_len _ _ Gd). assert (Ldv := grow_len _ _ Gv). assert (Lps := grow_len _ _ Gps).
  assert (Gdx := grow_trans _ _ _ (grow_trans _ _ _ Gv (grow_trans _ _ _ Gh (grow_trans _ _ _ Ge Gs))) Gx).
  assert (Gvx := grow_trans _ _ _ (grow_trans _ _ _ Gh (grow_trans _ _ _ Ge Gs)) Gx).
  unfold argsrel. cbn [ha_T ha_p ha_d ha_x ha_inv a_T a_p a_d a_x a_inv].
  split; [revert CT'; apply orel_mono; intros r w (H & C); apply (has_grow _ _ _ _ Gpx) in H; exact (came_ok _ _ _ _ _ _ L03 H C)|].
  split; [revert Cp; apply orel_mono; intros r w (H & C); split; [exact (has_grow _ _ _ _ Gpx H) | exact (came_whole _ _ _ _ C)]|].
  split.
  { destruct dv as [rdv|], vdv as [wdv|]; cbn in Cv |- *; try contradiction.
    - destruct Cv as (H & r & _ & [(_ & [])|(l & -> & Hl)]). split; [exact (has_grow _ _ _ _ Gvx H)|]. exists l. split; [reflexivity|]. left. lia.
    - revert Cd; apply orel_mono; intros r w (H & C). apply (has_grow _ _ _ _ Gdx) in H. apply (came_ok "d" native_d hp); auto. lia. }
  split; [revert Cx; apply orel_mono; intros r w (H & C); apply (came_ok "x" True hs); auto; lia|].
  split.
  { destruct h as [rh|], vh as [wh|]; cbn in Ch; try contradiction;
      [cbn; split; [reflexivity | exact (has_grow _ _ _ _ (grow_trans _ _ _ Ge (grow_trans _ _ _ Gs Gx)) (proj1 Ch))]|].
    destruct e as [re|], ve as [we|]; cbn in Ce; try contradiction;
      [cbn; split; [reflexivity | exact (has_grow _ _ _ _ (grow_trans _ _ _ Gs Gx) (proj1 Ce))]|].
    destruct s as [rs|], vs as [ws|]; cbn in Cs; try contradiction; [|exact I].
    cbn; split; [reflexivity | exact (has_grow _ _ _ _ Gx (proj1 Cs))]. }
  split; intros r r' -> E2 Q.
  - destruct vT as [wT|]; [|contradiction]. destruct CT as (HT & CT). destruct dv as [rdv|].
    + injection E2 as ->. destruct vdv as [wdv|]; [|contradiction]. destruct Cv as (_ & Cv).
      apply (came_apart "T" "v" _ _ _ _ _ _ _ _ ltac:(discriminate) CT HT Cv); auto. lia.
    + subst d. destruct vd as [wd|]; [|contradiction]. destruct Cd as (_ & Cd).
      apply (came_apart "T" "d" _ _ _ _ _ _ _ _ ltac:(discriminate) CT HT Cd); auto.
  - destruct vT as [wT|]; [|contradiction]. destruct CT as (HT & CT). subst x. destruct vx as [wx|]; [|contradiction]. destruct Cx as (_ & Cx).
    apply (came_apart "T" "x" _ _ _ _ _ _ _ _ ltac:(discriminate) CT HT Cx); auto. lia.
Qed.
End Si.

(* Proofs about the arrays of the caller. *)
From Coq Require Import Reals ZArith List Bool Arith String Lra Lia.
From Verif Require Import Base Model_Num Model_Units Model_Igas Model_IgHeap Spec_IgHeap.
Import ListNotations.
Local Open Scope R_scope.
Local Open Scope string_scope.
Local Open Scope list_scope.

Lemma upd_length l v h : List.length (upd l v h) = List.length h.
Proof. revert l. induction h as [|a h IH]; intros [|l]; cbn; auto. Qed.
Lemma upd_same l v h : (l < List.length h)%nat -> nth l (upd l v h) [] = v.
Proof. revert l. induction h as [|a h IH]; intros [|l] H; cbn in *; try lia; [reflexivity|]. apply IH. lia. Qed.
Lemma upd_other l k v h : l <> k -> nth k (upd l v h) [] = nth k h [].
Proof.
  revert l k. induction h as [|a h IH]; intros [|l] [|k] H; cbn; try reflexivity; try contradiction. apply IH. congruence.
Qed.
Lemma upd_self h : forall l, upd l (nth l h []) h = h.
Proof. induction h as [|a h IH]; intros [|l]; cbn; try reflexivity. rewrite IH. reflexivity. Qed.

Section Keep.
Variable h0 : heap.
Definition keeps (h : heap) : Prop := unmodified h0 h.
Definition sp {A} (m : M A) (Q : A -> Prop) : Prop :=
  forall h, keeps h -> keeps (fst (m h)) /\ forall x, snd (m h) = Ok x -> Q x.
Definition fresh (r : ref) : Prop := (List.length h0 <= ref_loc r)%nat.

Lemma sp_ret {A} (x : A) (Q : A -> Prop) : Q x -> sp (ret x) Q.
Proof. intros H h K. split; [exact K|]. cbn. intros y E. injection E as <-. exact H. Qed.
Lemma sp_fail {A} e (Q : A -> Prop) : sp (fail e) Q.
Proof. intros h K. split; [exact K|]. cbn. discriminate. Qed.
Lemma sp_lift {A} (r : res A) (Q : A -> Prop) : (forall x, r = Ok x -> Q x) -> sp (lift r) Q.
Proof. intros H h K. split; [exact K | exact H]. Qed.
Lemma sp_bind {A B} (m : M A) (f : A -> M B) P Q : sp m P -> (forall x, P x -> sp (f x) Q) -> sp (mbind m f) Q.
Proof.
  intros Hm Hf h K. unfold mbind. destruct (Hm h K) as (K1 & P1). destruct (m h) as (h1, [x|e]); cbn [fst snd] in *.
  - exact (Hf x (P1 x eq_refl) h1 K1).
  - split; [exact K1 | discriminate].
Qed.
Lemma sp_mono {A} (m : M A) (P Q : A -> Prop) : sp m P -> (forall x, P x -> Q x) -> sp m Q.
Proof. intros H I h K. destruct (H h K) as (K1 & P1). split; [exact K1|]. intros x E. apply I, P1, E. Qed.
Lemma sp_new v (Q : ref -> Prop) : (forall r, fresh r -> Q r) -> sp (new v) Q.
Proof.
  intros H h (K1 & K2). unfold new. cbn [fst snd]. split.
  - split; [rewrite app_length; lia|]. intros l L. rewrite app_nth1 by lia. exact (K2 l L).
  - intros x E. injection E as <-. apply H. unfold fresh. cbn. exact K1.
Qed.
Lemma sp_read r (Q : arr -> Prop) : (forall v, (~ fresh r -> v = hget h0 r) -> Q v) -> sp (read r) Q.
Proof.
  intros H h (K1 & K2). split; [split; assumption|]. cbn. intros x E. injection E as <-. apply H.
  intro F. unfold fresh in F. destruct r as [l|l n]; cbn in *; rewrite K2 by lia; reflexivity.
Qed.
Lemma sp_write r v : fresh r -> sp (write r v) (fun _ => True).
Proof.
  intros F h (K1 & K2). unfold fresh in F.
  assert (U : forall l w, (List.length h0 <= l)%nat -> keeps (upd l w h)).
  { intros l w L. split; [rewrite upd_length; exact K1|]. intros k Hk. rewrite upd_other by lia. exact (K2 k Hk). }
  destruct r as [l|l n]; cbn [write fst snd ref_loc] in *; (split; [|auto]).
  - exact (U l v F).
  - destruct v as [|x v]; [split; assumption | exact (U _ _ F)].
Qed.
Lemma sp_mores {A B} (o : option A) (f : A -> M B) (Q : B -> Prop) : (forall a, o = Some a -> sp (f a) Q) ->
  sp (mores o f) (fun b => match b with Some b => o <> None /\ Q b | None => o = None end).
Proof.
  intro H. destruct o as [a|]; cbn [mores].
  - eapply sp_bind; [exact (H a eq_refl)|]. intros b Qb. apply sp_ret. split; [discriminate | exact Qb].
  - apply sp_ret. reflexivity.
Qed.

(* where a converted array lives *)
Definition from (r r' : ref) (same : Prop) : Prop := fresh r' \/ (r' = r /\ same).
Lemma sp_convert E q f t e r : sp (h_convert E q f t e r)
  (fun r' => from r r' (exists u, default_unit (units_of (e_setup E) q) (e_cfg E) f = Ok u /\ default_unit (units_of (e_setup E) q) (e_cfg E) t = Ok u)).
Proof.
  unfold h_convert. eapply sp_bind; [apply sp_lift; intros x Ex; exact Ex|]. intros (a, b) Eu.
  eapply sp_bind; [apply sp_read; intros ? _; exact I|]. intros v _.
  eapply sp_bind; [apply sp_lift; intros ? _; exact I|]. intros w _. cbn [fst snd].
  unfold unit_pair in Eu. destruct (default_unit _ _ f) as [a'|]; [|discriminate]. cbn [bind] in Eu.
  destruct (default_unit _ _ t) as [b'|] eqn:E2; [|discriminate]. cbn [bind] in Eu. injection Eu as -> ->.
  destruct (String.eqb a b) eqn:Es.
  - apply sp_ret. right. split; [reflexivity|]. apply String.eqb_eq in Es. subst b. exists a. auto.
  - apply sp_new. intros r' F. left. exact F.
Qed.
Lemma sp_matter E mw f t e r : sp (h_matter E mw f t e r)
  (fun r' => from r r' (exists u, (match f with None => cfg_get (e_cfg E) "unit_matter" | Some u => Ok u end) = Ok u /\
      (match t with None => cfg_get (e_cfg E) "unit_matter" | Some u => Ok u end) = Ok u)).
Proof.
  unfold h_matter. eapply sp_bind; [apply sp_lift; intros x Ex; exact Ex|]. intros (a, b) Eu.
  eapply sp_bind; [apply sp_read; intros ? _; exact I|]. intros v _.
  eapply sp_bind; [apply sp_lift; intros ? _; exact I|]. intros w _. cbn [fst snd].
  unfold cfg_pair in Eu. destruct (match f with None => _ | Some u => _ end) as [a'|]; [|discriminate]. cbn [bind] in Eu.
  destruct (match t with None => _ | Some u => _ end) as [b'|] eqn:E2; [|discriminate]. cbn [bind] in Eu. injection Eu as -> ->.
  destruct (String.eqb a b) eqn:Es.
  - apply sp_ret. right. split; [reflexivity|]. apply String.eqb_eq in Es. subst b. exists a. auto.
  - apply sp_new. intros r' F. left. exact F.
Qed.
Lemma same_scale_K u : same_scale u "K" = true -> u = "K" \/ u = "abs".
Proof.
  unfold same_scale. destruct (String.eqb u "K") eqn:E1; [apply String.eqb_eq in E1; auto|].
  destruct (String.eqb u "abs") eqn:E2; [apply String.eqb_eq in E2; auto|]. cbn. discriminate.
Qed.
Lemma sp_tscale E r : sp (h_tscale E None (Some "K") r) (fun r' => from r r' (kelvins E)).
Proof.
  unfold h_tscale. eapply sp_bind; [apply sp_lift; intros x Ex; exact Ex|]. intros (a, b) Eu.
  eapply sp_bind; [apply sp_read; intros ? _; exact I|]. intros v _.
  eapply sp_bind; [apply sp_lift; intros ? _; exact I|]. intros w _. cbn [fst snd].
  unfold cfg_pair in Eu. destruct (cfg_get (e_cfg E) "unit_temperature") as [a'|] eqn:Ec; [|discriminate]. cbn [bind] in Eu.
  injection Eu as -> <-.
  destruct (same_scale a "K") eqn:Es.
  - apply sp_ret. right. split; [reflexivity|]. unfold kelvins, unit_is. rewrite Ec. destruct (same_scale_K a Es); subst; auto.
  - apply sp_new. intros r' F. left. exact F.
Qed.
Lemma sp_invert g E fn r : sp (h_invert g E fn r) fresh.
Proof.
  unfold h_invert. eapply sp_bind; [apply sp_convert|]. intros r1 _. eapply sp_bind; [apply sp_matter|]. intros r2 _.
  eapply sp_bind; [apply sp_read; intros ? _; exact I|]. intros v _. eapply sp_bind; [apply sp_lift; intros ? _; exact I|]. intros T _.
  apply sp_new. auto.
Qed.
(* a stretched array of the caller has one element *)
Definition view (r : ref) : Prop :=
  match r with Whole _ => True | Rep l n => ~ fresh r -> exists x, nth l h0 [] = [x] end.
Lemma view_stretch r v n : (~ fresh r -> v = hget h0 r) -> List.length v = 1%nat -> view r -> view (Rep (ref_loc r) n).
Proof.
  intros Hv L V F. assert (F' : ~ fresh r) by exact F. specialize (Hv F'). destruct r as [l|l m]; cbn [hget ref_loc] in *.
  - rewrite <- Hv. destruct v as [|x [|y v]]; try discriminate L. exists x. reflexivity.
  - exact (V F').
Qed.
Lemma broadcast_len x y u v sa sb : broadcast x y = Ok (u, v, sa, sb) ->
  (sa = true -> List.length x = 1%nat) /\ (sb = true -> List.length y = 1%nat).
Proof.
  unfold broadcast. destruct (Nat.eqb _ _); [intro H; injection H as <- <- <- <-; split; discriminate|].
  destruct x as [|x1 [|x2 x]]; destruct y as [|y1 [|y2 y]]; intro H; try discriminate H; injection H as <- <- <- <-;
    split; try discriminate; reflexivity.
Qed.
Lemma sp_broadcast a b : sp (h_broadcast a b) (fun r => (ref_loc (fst r) = ref_loc a /\ (view a -> view (fst r))) /\
  (ref_loc (snd r) = ref_loc b /\ (view b -> view (snd r)))).
Proof.
  unfold h_broadcast. eapply (sp_bind _ _ (fun v => ~ fresh a -> v = hget h0 a)); [apply sp_read; auto|]. intros x Hx.
  eapply (sp_bind _ _ (fun v => ~ fresh b -> v = hget h0 b)); [apply sp_read; auto|]. intros y Hy.
  eapply sp_bind; [apply sp_lift; intros z Ez; exact Ez|].
  intros (((u, v), sa), sb) Eb. apply sp_ret. cbn [fst snd]. destruct (broadcast_len _ _ _ _ _ _ Eb) as (La & Lb). split.
  - destruct sa; [|auto]. split; [reflexivity | exact (view_stretch a x _ Hx (La eq_refl))].
  - destruct sb; [|auto]. split; [reflexivity | exact (view_stretch b y _ Hy (Lb eq_refl))].
Qed.


Lemma conv_units E q k : (exists u, default_unit (units_of (e_setup E) q) (e_cfg E) None = Ok u /\
  default_unit (units_of (e_setup E) q) (e_cfg E) (Some k) = Ok u) -> unit_is E (key_of q) k.
Proof. intros (u & H1 & H2). cbn in H1, H2. injection H2 as ->. exact H1. Qed.
Lemma matter_units E : (exists u, cfg_get (e_cfg E) "unit_matter" = Ok u /\ Ok "kmol" = Ok u) -> unit_is E "unit_matter" "kmol".
Proof. intros (u & H1 & H2). injection H2 as <-. exact H1. Qed.

(* ---- the state ---- *)
Variables (g : gas) (E : env) (kw2 : hkwargs).
Definition arrays_of (kw3 : list (string * ref)) : Prop := forall k,
  match dget k kw3 with
  | Some r => fresh r \/ exists l, r = Whole l /\ dget k kw2 = Some (HArr l)
  | None => True
  end /\ (dget k kw3 = None <-> dget k kw2 = None).
Definition good_T (T : ref) : Prop := fresh T \/ (kelvins E /\ dget "T" kw2 = Some (HArr (ref_loc T))).
Definition good_p (p : ref) : Prop := fresh p \/ unit_is E "unit_pressure" "Pa".
Definition good_d (d : ref) : Prop := fresh d \/ (view d /\ unit_is E "unit_volume" "m3" /\ unit_is E "unit_matter" "kmol").
Definition good_state (st : ref * option ref * option ref) : Prop :=
  good_T (fst (fst st)) /\ match snd (fst st) with Some p => good_p p | None => True end /\
  match snd st with Some d => good_d d | None => True end.

Lemma good_T_loc T T' : ref_loc T' = ref_loc T /\ (view T -> view T') -> good_T T -> good_T T'.
Proof. intros (L & _). unfold good_T, fresh. rewrite L. auto. Qed.
Lemma good_p_loc T T' : ref_loc T' = ref_loc T /\ (view T -> view T') -> good_p T -> good_p T'.
Proof. intros (L & _). unfold good_p, fresh. rewrite L. auto. Qed.
Lemma good_d_loc T T' : ref_loc T' = ref_loc T /\ (view T -> view T') -> good_d T -> good_d T'.
Proof. intros (L & V) [F|(W & U)]; [left; unfold fresh in *; rewrite L; exact F | right; auto]. Qed.

Hypothesis Hs : forall l, dget "s" kw2 = Some (HArr l) -> dget "p" kw2 <> None -> ~ own_entropy E.

Lemma sp_solve kw3 : arrays_of kw3 -> sp (h_solve g E kw3) good_state.
Proof.
  intro A. unfold h_solve.
  eapply sp_bind.
  { apply (sp_mores _ _ good_T). intros r Er. eapply sp_mono; [apply sp_tscale|]. intros r' [F|(-> & K)]; [left; exact F|].
    destruct (A "T") as (B & _). rewrite Er in B. destruct B as [F|(l & -> & G)]; [left; exact F | right; split; [exact K | exact G]]. }
  intros T GT. eapply sp_bind.
  { apply (sp_mores _ _ good_p). intros r Er. eapply sp_mono; [apply sp_convert|]. intros r' [F|(-> & K)]; [left; exact F|].
    right. exact (conv_units _ _ _ K). }
  intros p Gp. eapply sp_bind.
  { apply (sp_mores _ _ good_d). intros r Er. eapply sp_bind; [apply sp_convert|]. intros r1 F1. eapply sp_mono; [apply sp_matter|].
    intros r' [F|(-> & K)]; [left; exact F|]. destruct F1 as [F|(-> & K1)]; [left; exact F|].
    destruct (A "d") as (B & _). rewrite Er in B. destruct B as [F|(l & -> & G)]; [left; exact F|].
    right. split; [exact I|]. split; [exact (conv_units _ _ _ K1) | exact (matter_units _ K)]. }
  intros d Gd. eapply sp_bind.
  { apply (sp_mores _ _ fresh). intros r Er. eapply sp_bind; [apply sp_convert|]. intros r1 _. eapply sp_bind; [apply sp_matter|].
    intros r2 _. eapply sp_bind; [apply sp_read; intros ? _; exact I|]. intros v _. apply sp_new. auto. }
  intros dv Gdv. cbv zeta. set (d' := match dv with Some x => Some x | None => d end).
  assert (Gd' : match d' with Some d => good_d d | None => True end).
  { unfold d'. destruct dv as [x|]; [left; exact (proj2 Gdv)|]. destruct d as [x|]; [exact (proj2 Gd) | exact I]. }
  clearbody d'. eapply sp_bind.
  { apply (sp_mores _ _ fresh). intros r _. apply sp_invert. }
  intros Th GTh. set (T1 := match Th with Some x => Some x | None => T end).
  assert (GT1 : match T1 with Some x => good_T x | None => True end).
  { unfold T1. destruct Th as [x|]; [left; exact (proj2 GTh)|]. destruct T as [x|]; [exact (proj2 GT) | exact I]. }
  clearbody T1. eapply sp_bind.
  { apply (sp_mores _ _ fresh). intros r _. apply sp_invert. }
  intros Te GTe. set (T2 := match Te with Some x => Some x | None => T1 end).
  assert (GT2 : match T2 with Some x => good_T x | None => True end).
  { unfold T2. destruct Te as [x|]; [left; exact (proj2 GTe)|]. exact GT1. }
  clearbody T2. eapply sp_bind.
  { apply (sp_mores _ _ (fun s => fresh s \/ (own_entropy E /\ exists l, dget "s" kw2 = Some (HArr l)))). intros r Er.
    eapply sp_bind; [apply sp_convert|]. intros r1 F1. eapply sp_bind; [apply sp_matter|]. intros r2 F2.
    eapply sp_mono; [apply sp_convert|]. intros r' [F|(-> & K)]; [left; exact F|].
    destruct F2 as [F|(-> & K2)]; [left; exact F|]. destruct F1 as [F|(-> & K1)]; [left; exact F|].
    destruct (A "s") as (B & _). rewrite Er in B. destruct B as [F|(l & -> & G)]; [left; exact F|].
    right. split; [|exists l; exact G].
    split; [exact (conv_units _ _ _ K1)|]. split; [exact (matter_units _ K2) | exact (conv_units _ _ _ K)]. }
  intros s Gs.
  assert (Sp : forall x, s = Some x -> p <> None -> fresh x).
  { intros x -> Hp. destruct Gs as (_ & [F|(O & l & G)]); [exact F|]. exfalso. apply (Hs l G); [|exact O].
    intro Q. destruct p as [p|]; [|contradiction]. destruct Gp as (Gp & _). apply Gp. apply (proj2 (A "p")). exact Q. }
  clear Gs.
  Ltac rd := eapply sp_bind; [apply sp_read; intros ? _; exact I|]; intros ? _.
  Ltac nw := eapply sp_bind; [apply (sp_new _ fresh); auto|]; let F := fresh "Fn" in intros ? F.
  assert (Bsd : forall s d, good_d d -> sp
      (run b <- h_broadcast s d; (let (s, d) := (b : ref * ref) in
        run sv <- read s; run dv <- read d; run T <- lift (iter1 (Tlow g) (Thigh g) (map (sditer g) dv) sv); run T <- new T; ret (T, None, Some d))) good_state).
  { intros s1 d1 G1. eapply sp_bind; [apply sp_broadcast|]. intros (s', d2) (L1 & L2). cbn [fst snd] in L1, L2. rd. rd.
    eapply sp_bind; [apply sp_lift; intros ? _; exact I|]. intros Tv _. nw.
    apply sp_ret. split; [left; assumption|]. split; [exact I|]. exact (good_d_loc _ _ L2 G1). }
  assert (Bsp : forall s p, fresh s -> good_p p -> sp
      (run b <- h_broadcast s p; (let (s, p) := (b : ref * ref) in
      run sv <- read s; run pv <- read p;
      run _ <- write s (map2 fadd sv (map (fun x => fmul (Some const_Ru) (flog (fdiv x (Some (g_pref g))))) pv));
      run sv <- read s; run T <- lift (iter1 (Tlow g) (Thigh g) (map (fun _ => g_s g) sv) sv); run T <- new T; ret (T, Some p, None))) good_state).
  { intros s1 p1 F1 G1. eapply sp_bind; [apply sp_broadcast|]. intros (s', p2) (L1 & L2). cbn [fst snd] in L1, L2. rd. rd.
    eapply sp_bind; [apply sp_write; unfold fresh in *; rewrite (proj1 L1); exact F1|]. intros _ _. rd.
    eapply sp_bind; [apply sp_lift; intros ? _; exact I|]. intros Tv _. nw.
    apply sp_ret. split; [left; assumption|]. split; [exact (good_p_loc _ _ L2 G1) | exact I]. }
  destruct p as [p|]; [pose proof (proj2 Gp) as Gp'|]; clear Gp.
  - destruct s as [s|].
    + pose proof (Sp s eq_refl ltac:(discriminate)) as Fs.
      destruct T2 as [T2|]; (destruct d' as [d'|]; [apply Bsd; exact Gd' | apply Bsp; assumption]).
    + destruct T2 as [T2|].
      * eapply sp_bind; [apply sp_broadcast|]. intros (T', p1) (L1 & L2). cbn [fst snd] in L1, L2. apply sp_ret.
        split; [exact (good_T_loc _ _ L1 GT2)|]. split; [exact (good_p_loc _ _ L2 Gp') | exact I].
      * destruct d' as [d'|]; [|apply sp_fail].
        eapply sp_bind; [apply sp_broadcast|]. intros (p1, d1) (L1 & L2). cbn [fst snd] in L1, L2. rd. rd. nw. apply sp_ret.
        split; [left; assumption|]. split; [exact (good_p_loc _ _ L1 Gp') | exact (good_d_loc _ _ L2 Gd')].
  - destruct s as [s|].
    + destruct T2 as [T2|].
      * destruct d' as [d'|]; [apply Bsd; exact Gd'|].
        eapply sp_bind; [apply sp_broadcast|]. intros (s', T') (L1 & L2). cbn [fst snd] in L1, L2. rd. rd. nw. apply sp_ret.
        split; [exact (good_T_loc _ _ L2 GT2)|]. split; [left; assumption | exact I].
      * destruct d' as [d'|]; [apply Bsd; exact Gd' | apply sp_fail].
    + destruct T2 as [T2|]; [|apply sp_fail]. destruct d' as [d'|]; [|apply sp_fail].
      eapply sp_bind; [apply sp_broadcast|]. intros (T', d1) (L1 & L2). cbn [fst snd] in L1, L2. apply sp_ret.
      split; [exact (good_T_loc _ _ L1 GT2)|]. split; [exact I | exact (good_d_loc _ _ L2 Gd')].
Qed.

Hypothesis HT : kelvins E -> forall l, dget "T" kw2 = Some (HArr l) -> within_range g h0 l.

Lemma range_false x : Tlow g <= x <= Thigh g -> out_of_range g (Some x) = false.
Proof.
  intro H. unfold out_of_range, flt. destruct (Rlt_dec x (Tlow g)); [lra|]. destruct (Rlt_dec (Thigh g) x); [lra | reflexivity].
Qed.
Lemma sp_bounds T : good_T T -> sp (h_bounds g E T) (fun _ => True).
Proof.
  intro GT. unfold h_bounds. eapply (sp_bind _ _ (fun v => ~ fresh T -> v = hget h0 T)); [apply sp_read; auto|].
  intros v Hv. eapply sp_bind; [apply sp_lift; intros ? _; exact I|]. intros w _.
  destruct (existsb (out_of_range g) v) eqn:Ex; [|apply sp_ret; exact I].
  destruct GT as [F|(K & G)]; [apply sp_write; exact F|].
  destruct (le_dec (List.length h0) (ref_loc T)) as [F|F]; [apply sp_write; exact F|]. exfalso.
  specialize (Hv F). pose proof (HT K _ G) as W. apply existsb_exists in Ex. destruct Ex as (x & Hx & Ho).
  subst v. destruct x as [x|]; [|discriminate Ho].
  assert (In (Some x) (nth (ref_loc T) h0 [])) as Hin.
  { destruct T as [l|l n]; cbn [hget ref_loc] in *; [exact Hx|]. apply repeat_spec in Hx. rewrite Hx.
    destruct (nth l h0 []) as [|y ys]; [discriminate Hx|]. left. reflexivity. }
  rewrite (range_false x (W x Hin)) in Ho. discriminate.
Qed.
End Keep.

(* ---- the arguments ---- *)
Lemma sp_arrays h0 kw : sp h0 (h_arrays kw) (arrays_of h0 kw).
Proof.
  induction kw as [|[k a] kw IH]; cbn [h_arrays].
  - apply sp_ret. intro k. cbn. split; [exact I | tauto].
  - apply (sp_bind h0 _ _ (fun r => fresh h0 r \/ exists l, r = Whole l /\ a = HArr l)).
    { destruct a as [v|l]; cbn [asarray]; [apply sp_new; auto | apply sp_ret; right; exists l; auto]. }
    intros r Hr. eapply sp_bind; [exact IH|]. intros rest Hrest. apply sp_ret. intro k'. cbn [dget].
    destruct (String.eqb k' k); [|exact (Hrest k')]. split.
    + destruct Hr as [F|(l & -> & ->)]; [left; exact F | right; exists l; auto].
    + split; discriminate.
Qed.

Lemma pos_T varg kw kw1 x : h_positional varg kw = Ok kw1 -> dget "T" kw1 = Some x -> dget "T" kw = Some x \/ nth_error varg 0 = Some x.
Proof.
  unfold h_positional. destruct varg as [|a varg].
  - cbn. intro H. injection H as <-. auto.
  - destruct (dmem "T" kw) eqn:M; [discriminate|]. cbn [bind].
    assert (D : dget "T" (dset "T" a kw) = Some a) by apply dget_dset_same.
    destruct varg as [|b varg]; cbn [bind].
    + cbn. intros H Hg. injection H as <-. right. congruence.
    + destruct (dmem "p" (dset "T" a kw)); [discriminate|]. cbn [bind]. destruct (Nat.ltb _ _); [discriminate|].
      intros H Hg. injection H as <-. rewrite dget_dset_other in Hg by discriminate. right. cbn. congruence.
Qed.
Lemma pos_other varg kw kw1 k : h_positional varg kw = Ok kw1 -> k <> "T" -> k <> "p" -> dget k kw1 = dget k kw.
Proof.
  intros H N1 N2. unfold h_positional in H. destruct varg as [|a varg].
  - cbn in H. injection H as <-. reflexivity.
  - destruct (dmem "T" kw); [discriminate|]. cbn [bind] in H. destruct varg as [|b varg]; cbn [bind] in H.
    + cbn in H. injection H as <-. apply dget_dset_other. congruence.
    + destruct (dmem "p" (dset "T" a kw)); [discriminate|]. cbn [bind] in H. destruct (Nat.ltb _ _); [discriminate|].
      injection H as <-. rewrite !dget_dset_other by congruence. reflexivity.
Qed.
Lemma pos_p varg kw kw1 : h_positional varg kw = Ok kw1 -> dget "p" kw1 <> None -> dget "p" kw <> None \/ nth_error varg 1 <> None.
Proof.
  unfold h_positional. destruct varg as [|a varg].
  - cbn. intro H. injection H as <-. auto.
  - destruct (dmem "T" kw); [discriminate|]. cbn [bind]. destruct varg as [|b varg]; cbn [bind].
    + cbn. intro H. injection H as <-. rewrite dget_dset_other by discriminate. auto.
    + intros _ _. right. cbn. discriminate.
Qed.
Lemma def_get E kw kw2 k x : h_defaults E kw = Ok kw2 -> dget k kw2 = Some x -> dget k kw = Some x \/ exists v, x = HVal v.
Proof.
  unfold h_defaults. cbv zeta. intros H G.
  assert (S1 : forall k' v kw', dget k (dset k' (HVal v) kw') = Some x -> dget k kw' = Some x \/ exists v, x = HVal v).
  { intros k' v kw' Q. destruct (string_dec k k') as [->|N]; [rewrite dget_dset_same in Q; injection Q as <-; right; eauto|].
    rewrite dget_dset_other in Q by congruence. auto. }
  destruct (List.length kw) as [|[|n]].
  - destruct (def_T _ _ _) as [t|]; [|discriminate]. cbn [bind] in H. destruct (def_p _ _ _ _) as [q|]; [|discriminate]. cbn [bind] in H.
    injection H as <-. destruct (S1 _ _ _ G) as [Q|Q]; [|auto]. exact (S1 _ _ _ Q).
  - destruct (dmem "T" kw).
    + destruct (def_p _ _ _ _) as [q|]; [|discriminate]. cbn [bind] in H. injection H as <-. exact (S1 _ _ _ G).
    + destruct (def_T _ _ _) as [t|]; [|discriminate]. cbn [bind] in H. injection H as <-. exact (S1 _ _ _ G).
  - injection H as <-. auto.
Qed.
Lemma def_p_given E kw kw2 : h_defaults E kw = Ok kw2 -> dget "s" kw <> None -> dget "p" kw2 <> None -> dget "p" kw <> None.
Proof.
  unfold h_defaults. cbv zeta. intros H Hs Hp. destruct kw as [|[k1 v1] [|[k2 v2] kw]]; cbn [List.length] in H.
  - cbn in Hs. contradiction.
  - unfold dmem in H. cbn [dget] in *. destruct (String.eqb "s" k1) eqn:E1; [|contradiction].
    apply String.eqb_eq in E1. subst k1. cbn [String.eqb Ascii.eqb Bool.eqb] in H.
    destruct (def_T (e_cfg E) (e_defT E) (e_defTu E)) as [t|]; [|discriminate]. cbn [bind] in H. injection H as <-. cbn in Hp. contradiction.
  - injection H as <-. exact Hp.
Qed.

Definition safe_args (g : gas) (E : env) (h0 : heap) (varg : list harg) (kw : hkwargs) : Prop :=
  (kelvins E -> forall l, passed varg kw "T" l -> within_range g h0 l) /\
  (forall l, passed varg kw "s" l -> with_pressure varg kw -> ~ own_entropy E).

(* the weaker facts that the argument handling itself needs *)
Definition safe_in (g : gas) (E : env) (h0 : heap) (varg : list harg) (kw : hkwargs) : Prop :=
  (kelvins E -> forall l, passed varg kw "T" l -> within_range g h0 l) /\
  (forall l, dget "s" kw = Some (HArr l) -> dget "p" kw <> None \/ nth_error varg 1 <> None -> ~ own_entropy E).

Lemma sp_argparse g E h0 varg kw : safe_in g E h0 varg kw ->
  sp h0 (h_argparse g E varg kw) (fun st => exists kw2, good_state h0 E kw2 st).
Proof.
  intros (ST & SS). unfold h_argparse. eapply sp_bind; [apply sp_lift; intros x Ex; exact Ex|]. intros kw1 E1.
  eapply sp_bind; [apply sp_lift; intros x Ex; exact Ex|]. intros kw2 E2.
  eapply sp_bind; [apply sp_lift; intros x Ex; exact I|]. intros _ _.
  eapply sp_bind; [apply sp_arrays|]. intros kw3 A.
  assert (HT : kelvins E -> forall l, dget "T" kw2 = Some (HArr l) -> within_range g h0 l).
  { intros K l G. apply (ST K). destruct (def_get _ _ _ _ _ E2 G) as [Q|(v & Q)]; [|discriminate].
    destruct (pos_T _ _ _ _ E1 Q) as [W|W]; [left; exact W | right; left; auto]. }
  assert (Hs : forall l, dget "s" kw2 = Some (HArr l) -> dget "p" kw2 <> None -> ~ own_entropy E).
  { intros l G P. destruct (def_get _ _ _ _ _ E2 G) as [Q|(v & Q)]; [|discriminate].
    apply (SS l); [rewrite <- (pos_other _ _ _ "s" E1) by discriminate; exact Q|].
    apply (pos_p _ _ _ E1). apply (def_p_given E _ _ E2); [congruence | exact P]. }
  eapply sp_bind; [apply (sp_solve h0 g E kw2 Hs kw3 A)|]. intros ((T, p), d) G.
  eapply sp_bind; [apply (sp_bounds h0 g E kw2 HT T); exact (proj1 G)|]. intros _ _. apply sp_ret. exists kw2. exact G.
Qed.

Lemma safe_weaken g E h0 varg kw : safe_args g E h0 varg kw -> safe_in g E h0 varg kw.
Proof.
  intros (ST & SS). split; [exact ST|]. intros l G P. apply (SS l); [left; exact G|].
  destruct P as [P|P]; [left; exact P | right; left; exact P].
Qed.
Lemma safe_T g E h0 varg kw : safe_args g E h0 varg kw ->
  safe_in g E h0 varg (if Nat.eqb (List.length varg + List.length kw) 1 then dset "p" (HVal [Some (e_defp E)]) kw else kw).
Proof.
  intro S. destruct (Nat.eqb _ 1) eqn:N; [|apply safe_weaken; exact S]. apply Nat.eqb_eq in N. destruct S as (ST & SS). split.
  - intros K l P. apply (ST K). destruct P as [P|P]; [|right; exact P]. left. rewrite dget_dset_other in P by discriminate. exact P.
  - intros l G _. rewrite dget_dset_other in G by discriminate. apply (SS l); [left; exact G | right; right; exact N].
Qed.

(* ---- the methods ---- *)
Lemma fmul_1 x : fmul x (Some 1) = x.
Proof. destruct x as [r|]; cbn; [rewrite Rmult_1_r|]; reflexivity. Qed.
Lemma scaled_1 v : scaled 1 v = v.
Proof. unfold scaled. rewrite (map_ext _ (fun x => x)); [apply map_id | exact fmul_1]. Qed.

Lemma density_factor g E : unit_is E "unit_volume" "m3" -> unit_is E "unit_matter" "kmol" -> scale_density g E = Ok 1.
Proof.
  unfold unit_is, scale_density. intros H1 H2. unfold matter. cbn [bind]. rewrite H2. cbn [bind String.eqb Ascii.eqb Bool.eqb].
  unfold convert. cbn [default_unit bind]. cbn [units_of config_default key_of]. rewrite H1. reflexivity.
Qed.
Lemma last_repeat {A} (x d : A) n : last (repeat x (S n)) d = x.
Proof. induction n as [|n IH]; [reflexivity|]. cbn [repeat last] in *. exact IH. Qed.
Lemma sp_scale_1 h0 r : view h0 r -> sp h0 (h_scale 1 r) (fun _ => True).
Proof.
  intros V. destruct (le_dec (List.length h0) (ref_loc r)) as [F|F].
  { unfold h_scale. eapply sp_bind; [apply sp_read; intros ? _; exact I|]. intros v _. apply sp_write. exact F. }
  intros h K. unfold h_scale, mbind, read. cbn [fst snd]. rewrite scaled_1. destruct r as [l|l n]; cbn [write fst snd hget].
  - rewrite upd_self. auto.
  - split; [|auto]. destruct (V F) as (x & Ex). cbn [ref_loc] in F.
    assert (Eh : nth l h [] = [x]) by (rewrite (proj2 K) by lia; exact Ex). rewrite Eh. cbn [nth].
    destruct n as [|n]; [exact K|]. change (repeat x (S n)) with (x :: repeat x n) at 1. cbv iota.
    change (x :: repeat x n) with (repeat x (S n)). rewrite last_repeat, <- Eh, upd_self. exact K.
Qed.

Lemma sp_the_d h0 E kw2 T p d : good_state h0 E kw2 (T, p, d) -> sp h0 (h_the_d T p d) (good_d h0 E).
Proof.
  intros (_ & _ & Gd). cbn [fst snd] in Gd. destruct d as [d|]; cbn [h_the_d]; [apply sp_ret; exact Gd|].
  destruct p as [p|].
  - eapply sp_bind; [apply sp_read; intros ? _; exact I|]. intros t _. eapply sp_bind; [apply sp_read; intros ? _; exact I|]. intros q _.
    apply sp_new. intros r F. left. exact F.
  - apply sp_new. intros r F. left. exact F.
Qed.
Lemma sp_the_p h0 E kw2 T p d : good_state h0 E kw2 (T, p, d) -> sp h0 (h_the_p T p d) (good_p h0 E).
Proof.
  intros (_ & Gp & _). cbn [fst snd] in Gp. destruct p as [p|]; cbn [h_the_p]; [apply sp_ret; exact Gp|].
  destruct d as [d|].
  - eapply sp_bind; [apply sp_read; intros ? _; exact I|]. intros t _. eapply sp_bind; [apply sp_read; intros ? _; exact I|]. intros q _.
    apply sp_new. intros r F. left. exact F.
  - apply sp_new. intros r F. left. exact F.
Qed.

Section Methods.
Variables (g : gas) (E : env) (h0 : heap) (varg : list harg) (kw : hkwargs).
Hypothesis safe : safe_args g E h0 varg kw.

Lemma sp_hm_d : sp h0 (hm_d g E varg kw) (fun _ => True).
Proof.
  unfold hm_d. eapply sp_bind; [apply sp_argparse, safe_weaken, safe|]. intros ((T, p), d) (kw2 & G).
  eapply sp_bind; [exact (sp_the_d h0 E kw2 T p d G)|]. intros r Gr.
  eapply sp_bind; [apply sp_lift; intros x Ex; exact Ex|]. intros k Ek.
  eapply sp_bind; [|intros _ _; apply sp_ret; exact I]. destruct Gr as [F|(V & U1 & U2)].
  - unfold h_scale. eapply sp_bind; [apply sp_read; intros ? _; exact I|]. intros v _. apply sp_write. exact F.
  - rewrite (density_factor g E U1 U2) in Ek. injection Ek as <-. apply sp_scale_1. exact V.
Qed.
Lemma sp_hm_v : sp h0 (hm_v g E varg kw) (fun _ => True).
Proof.
  unfold hm_v. eapply sp_bind; [exact sp_hm_d|]. intros d _. eapply sp_bind; [apply sp_read; intros ? _; exact I|]. intros v _.
  apply sp_new. auto.
Qed.
Lemma same_scale_sym u : same_scale "K" u = false -> same_scale u "K" = false.
Proof.
  unfold same_scale. rewrite (String.eqb_sym u "K"). destruct (String.eqb "K" u) eqn:E1; [discriminate|]. cbn.
  destruct (String.eqb u "abs") eqn:E2; [discriminate | reflexivity].
Qed.
Lemma sp_hm_T : sp h0 (hm_T g E varg kw) (fun _ => True).
Proof.
  unfold hm_T. cbv zeta. eapply sp_bind; [apply sp_argparse, safe_T, safe|]. intros ((T, p), d) (kw2 & (GT & _)). cbn [fst] in GT.
  eapply sp_bind; [apply sp_lift; intros x Ex; exact Ex|]. intros (a, b) Eu.
  eapply sp_bind; [apply sp_read; intros ? _; exact I|]. intros v _. eapply sp_bind; [apply sp_lift; intros ? _; exact I|]. intros w _.
  eapply (sp_bind _ _ _ (fun _ => True)); [|intros _ _; apply sp_ret; exact I]. cbn [fst snd].
  destruct (same_scale a b) eqn:Es; [apply sp_ret; exact I|]. destruct GT as [F|(K & _)]; [apply sp_write; exact F|]. exfalso.
  unfold cfg_pair in Eu. cbn [bind] in Eu. unfold kelvins, unit_is in K.
  destruct (cfg_get (e_cfg E) "unit_temperature") as [u|]; [|discriminate]. cbn [bind] in Eu. injection Eu as <- <-.
  destruct K as [K|K]; injection K as ->; discriminate Es.
Qed.
Lemma sp_hm_p : sp h0 (hm_p g E varg kw) (fun _ => True).
Proof.
  unfold hm_p. eapply sp_bind; [apply sp_argparse, safe_weaken, safe|]. intros ((T, p), d) (kw2 & G).
  eapply sp_bind; [exact (sp_the_p h0 E kw2 T p d G)|]. intros r Gr.
  eapply sp_bind; [apply sp_lift; intros x Ex; exact Ex|]. intros (a, b) Eu.
  eapply sp_bind; [apply sp_read; intros ? _; exact I|]. intros v _. eapply sp_bind; [apply sp_lift; intros ? _; exact I|]. intros w _.
  eapply (sp_bind _ _ _ (fun _ => True)); [|intros _ _; apply sp_ret; exact I]. cbn [fst snd].
  destruct (String.eqb a b) eqn:Es; [apply sp_ret; exact I|]. destruct Gr as [F|K]; [apply sp_write; exact F|]. exfalso.
  unfold unit_pair in Eu. cbn [default_unit bind units_of config_default key_of] in Eu. unfold unit_is in K. rewrite K in Eu. cbn [bind] in Eu.
  injection Eu as <- <-. discriminate Es.
Qed.
Lemma sp_hm_temp f : sp h0 (hm_temp f g E varg kw) (fun _ => True).
Proof.
  unfold hm_temp. eapply sp_bind; [apply sp_argparse, safe_weaken, safe|]. intros ((T, p), d) _.
  eapply sp_bind; [apply sp_read; intros ? _; exact I|]. intros v _. eapply sp_bind; [apply sp_lift; intros ? _; exact I|]. intros w _.
  apply sp_new. auto.
Qed.
Lemma sp_hm_temp_p f : sp h0 (hm_temp_p f g E varg kw) (fun _ => True).
Proof.
  unfold hm_temp_p. eapply sp_bind; [apply sp_argparse, safe_weaken, safe|]. intros ((T, p), d) (kw2 & G).
  eapply sp_bind; [exact (sp_the_p h0 E kw2 T p d G)|]. intros r _.
  eapply sp_bind; [apply sp_read; intros ? _; exact I|]. intros v _. eapply sp_bind; [apply sp_read; intros ? _; exact I|]. intros q _.
  eapply sp_bind; [apply sp_lift; intros ? _; exact I|]. intros w _. apply sp_new. auto.
Qed.
Lemma sp_methods m : In m methods -> sp h0 (m g E varg kw) (fun _ => True).
Proof.
  unfold methods. cbn [In]. intro H.
  repeat (destruct H as [<-|H]; [first [exact sp_hm_d | exact sp_hm_v | exact sp_hm_T | exact sp_hm_p | apply sp_hm_temp | apply sp_hm_temp_p]|]).
  destruct H.
Qed.
End Methods.

Lemma unmodified_lemma m g E varg kw h : In m methods ->
  (kelvins E -> forall l, passed varg kw "T" l -> within_range g h l) ->
  (forall l, passed varg kw "s" l -> with_pressure varg kw -> ~ own_entropy E) ->
  unmodified h (fst (m g E varg kw h)).
Proof.
  intros Hm H1 H2. refine (proj1 (sp_methods g E h varg kw (conj H1 H2) m Hm h _)). split; [lia | reflexivity].
Qed.

(* Memory-level calls followed step by step with the calls on values. *)
From Coq Require Import Reals ZArith List Bool Arith String Lra Lia.
From Verif Require Import Base Model_Num Model_Units Model_Igas Model_IgHeap Spec_IgHeap Proof_IgHeap.
Import ListNotations.
Local Open Scope R_scope.
Local Open Scope string_scope.
Local Open Scope list_scope.

Definition grow (h h' : heap) : Prop := exists x, h' = h ++ x.
Definition has (h : heap) (r : ref) (v : arr) : Prop := hget h r = v /\ (ref_loc r < List.length h)%nat.
Lemma grow_refl h : grow h h.
Proof. exists []. rewrite app_nil_r. reflexivity. Qed.
Lemma grow_trans a b c : grow a b -> grow b c -> grow a c.
Proof. intros (x & ->) (y & ->). exists (x ++ y). now rewrite app_assoc. Qed.
Lemma grow_new h v : grow h (h ++ [v]).
Proof. exists [v]. reflexivity. Qed.
Lemma grow_len h h' : grow h h' -> (List.length h <= List.length h')%nat.
Proof. intros (x & ->). rewrite app_length. lia. Qed.
Lemma grow_nth h h' l : grow h h' -> (l < List.length h)%nat -> nth l h' [] = nth l h [].
Proof. intros (x & ->) L. now apply app_nth1. Qed.
Lemma hget_loc h h' r : nth (ref_loc r) h' [] = nth (ref_loc r) h [] -> hget h' r = hget h r.
Proof. destruct r as [l|l n]; cbn [hget ref_loc]; intro H; [exact H|]. f_equal. f_equal. exact H. Qed.
Lemma has_grow h h' r v : grow h h' -> has h r v -> has h' r v.
Proof.
  intros G (H & L). split; [|pose proof (grow_len _ _ G); lia]. rewrite <- H. apply hget_loc, (grow_nth _ _ _ G L).
Qed.
Lemma has_new h v : has (h ++ [v]) (Whole (List.length h)) v.
Proof. split; cbn; [rewrite app_nth2, Nat.sub_diag by lia; reflexivity | rewrite app_length; cbn; lia]. Qed.
Lemma has_fun h r v w : has h r v -> has h r w -> v = w.
Proof. intros (<- & _) (<- & _). reflexivity. Qed.

(* m in the heap h and r agree; Q holds after success, X after an exception *)
Definition ex {A B} (m : M A) (r : res B) (h : heap) (Q : A -> B -> heap -> Prop) (X : heap -> Prop) : Prop :=
  match m h, r with
  | (h', Ok x), Ok v => Q x v h'
  | (h', Err e), Err e' => e = e' /\ X h'
  | _, _ => False
  end.
Lemma ex_bind {A B A' B'} (m : M A) (f : A -> M A') (r : res B) (g : B -> res B') h P Q X :
  ex m r h P X -> (forall x v h', P x v h' -> ex (f x) (g v) h' Q X) -> ex (mbind m f) (bind r g) h Q X.
Proof.
  unfold ex at 1 3, mbind. destruct (m h) as (h', [x|e]); destruct r as [v|e']; cbn [bind]; try contradiction; [|auto].
  intros H1 H2. exact (H2 x v h' H1).
Qed.
Lemma ex_mono {A B} (m : M A) (r : res B) h (P Q : A -> B -> heap -> Prop) (X Y : heap -> Prop) :
  ex m r h P X -> (forall x v h', P x v h' -> Q x v h') -> (forall h', X h' -> Y h') -> ex m r h Q Y.
Proof. unfold ex. destruct (m h) as (h', [x|e]); destruct r as [v|e']; intuition auto. Qed.
Lemma ex_read {A B} (f : arr -> M A) (R : res B) r v h Q X : has h r v -> ex (f v) R h Q X -> ex (mbind (read r) f) R h Q X.
Proof. intros (<- & _) H. exact H. Qed.
Lemma ex_new {A B} (f : ref -> M A) (R : res B) v h Q X :
  ex (f (Whole (List.length h))) R (h ++ [v]) Q X -> ex (mbind (new v) f) R h Q X.
Proof. intro H. exact H. Qed.
Lemma ex_lift {A A' B'} (r : res A) (f : A -> M A') (g : A -> res B') h Q (X : heap -> Prop) :
  X h -> (forall x, r = Ok x -> ex (f x) (g x) h Q X) -> ex (mbind (lift r) f) (bind r g) h Q X.
Proof. intros HX H. destruct r as [x|e]; [exact (H x eq_refl) | split; auto]. Qed.
Lemma ex_ret {A B} (x : A) (v : B) h Q X : (Q x v h : Prop) -> ex (ret x) (Ok v) h Q X.
Proof. intro H. exact H. Qed.
Lemma ex_fail {A B} e h Q (X : heap -> Prop) : X h -> @ex A B (fail e) (Err e) h Q X.
Proof. intro H. split; auto. Qed.
Lemma ex_run {A A' B} (m : M A) (f : A -> M A') (R : res B) h h' x Q X :
  m h = (h', Ok x) -> ex (f x) R h' Q X -> ex (mbind m f) R h Q X.
Proof. unfold ex, mbind. intros ->. auto. Qed.

(* ---- conversions ---- *)
Lemma fmul_one v : map (fmul (Some 1)) v = v.
Proof. rewrite <- (map_id v) at 2. apply map_ext. intros [x|]; cbn; [now rewrite Rmult_1_l | reflexivity]. Qed.
Definition moved (r r' : ref) (h h' : heap) (same : Prop) : Prop :=
  (r' = r /\ h' = h /\ same) \/ (r' = Whole (List.length h) /\ grow h h').
Definition conv_same E q f t : Prop :=
  exists u, default_unit (units_of (e_setup E) q) (e_cfg E) f = Ok u /\ default_unit (units_of (e_setup E) q) (e_cfg E) t = Ok u.
Definition matter_same E f t : Prop :=
  exists u, (match f with None => cfg_get (e_cfg E) "unit_matter" | Some u => Ok u end) = Ok u /\
      (match t with None => cfg_get (e_cfg E) "unit_matter" | Some u => Ok u end) = Ok u.
Definition scale_same E f t : Prop :=
  exists a b, cfg_pair E "unit_temperature" f t = Ok (a, b) /\ same_scale a b = true.
(* whether the units are equal, and the values if they are *)
Lemma conv_pair E q f t e v : match unit_pair (units_of (e_setup E) q) E f t with
  | Ok (a, b) => if String.eqb a b then conv_same E q f t /\ aconvert E q v f t e = Ok v else True
  | Err x => aconvert E q v f t e = Err x
  end.
Proof.
  unfold unit_pair, aconvert, convert, conv_same. destruct (default_unit _ _ f) as [a|x]; cbn [bind]; [|reflexivity].
  destruct (default_unit _ _ t) as [b|x] eqn:E2; cbn [bind]; [|reflexivity].
  destruct (String.eqb a b) eqn:Es; [|exact I]. cbn [bind]. apply String.eqb_eq in Es. subst b. split; [exists a; auto|].
  now rewrite fmul_one.
Qed.
Lemma matter_pair E mw f t e v : match cfg_pair E "unit_matter" f t with
  | Ok (a, b) => if String.eqb a b then matter_same E f t /\ amatter E v mw f t e = Ok v else True
  | Err x => amatter E v mw f t e = Err x
  end.
Proof.
  unfold cfg_pair, amatter, matter, matter_same. destruct (match f with None => _ | Some u => _ end) as [a|x]; cbn [bind]; [|reflexivity].
  destruct (match t with None => _ | Some u => _ end) as [b|x]; cbn [bind]; [|reflexivity].
  destruct (String.eqb a b) eqn:Es; [|exact I]. cbn [bind]. apply String.eqb_eq in Es. subst b. split; [exists a; auto|].
  now rewrite fmul_one.
Qed.
Lemma scale_pair E f t v : match cfg_pair E "unit_temperature" f t with
  | Ok (a, b) => if same_scale a b then atscale E v f t = Ok v else True
  | Err x => atscale E v f t = Err x
  end.
Proof.
  unfold cfg_pair, atscale, temperature_scale. destruct (match f with None => _ | Some u => _ end) as [a|x]; cbn [bind]; [|reflexivity].
  destruct (match t with None => _ | Some u => _ end) as [b|x]; cbn [bind]; [|reflexivity].
  destruct (same_scale a b) eqn:Es; [|exact I]. unfold same_scale in Es.
  assert (Z : forall r, (if String.eqb a b then Ok r else if String.eqb a "abs" then
     if String.eqb b "C" then Ok (from_kelvin b (to_kelvin "K" r)) else if String.eqb b "F" then Ok (from_kelvin b (to_kelvin "R" r)) else Ok r
     else if String.eqb b "abs" then
     if String.eqb a "C" then Ok (from_kelvin "K" (to_kelvin a r)) else if String.eqb a "F" then Ok (from_kelvin "R" (to_kelvin a r)) else Ok r
     else Ok (from_kelvin b (to_kelvin a r))) = Ok r).
  { intro r. destruct (String.eqb a b); [reflexivity|]. destruct (String.eqb a "abs").
    - destruct (String.eqb b "C"); [discriminate|]. destruct (String.eqb b "F"); [discriminate | reflexivity].
    - destruct (String.eqb b "abs"); [|discriminate]. destruct (String.eqb a "C"); [discriminate|]. destruct (String.eqb a "F"); [discriminate | reflexivity]. }
  rewrite Z. cbn [bind]. f_equal. rewrite <- (map_id v) at 2. apply map_ext. intros [r|]; [rewrite Z|]; reflexivity.
Qed.

Section Conv.
Variables (E : env) (h : heap) (r : ref) (v : arr) (X : heap -> Prop).
Hypothesis Hr : has h r v.
Hypothesis HX : forall h', grow h h' -> X h'.
Lemma ex_convert q f t e : ex (h_convert E q f t e r) (aconvert E q v f t e) h
  (fun r' w h' => has h' r' w /\ moved r r' h h' (conv_same E q f t)) X.
Proof.
  unfold h_convert. pose proof (conv_pair E q f t e v) as P. destruct (unit_pair _ E f t) as [(a, b)|x].
  2:{ rewrite P. split; [reflexivity | apply HX, grow_refl]. }
  eapply ex_run; [reflexivity|]. apply (ex_read _ _ _ _ _ _ _ Hr). cbn [fst snd].
  destruct (String.eqb a b).
  - destruct P as (P1 & ->). eapply ex_run; [reflexivity|]. apply ex_ret. split; [exact Hr|]. left. auto.
  - destruct (aconvert E q v f t e) as [w|x]; [|split; [reflexivity | apply HX, grow_refl]].
    cbn. split; [apply has_new|]. right. split; [reflexivity | apply grow_new].
Qed.
Lemma ex_matter mw f t e : ex (h_matter E mw f t e r) (amatter E v mw f t e) h
  (fun r' w h' => has h' r' w /\ moved r r' h h' (matter_same E f t)) X.
Proof.
  unfold h_matter. pose proof (matter_pair E mw f t e v) as P. destruct (cfg_pair E _ f t) as [(a, b)|x].
  2:{ rewrite P. split; [reflexivity | apply HX, grow_refl]. }
  eapply ex_run; [reflexivity|]. apply (ex_read _ _ _ _ _ _ _ Hr). cbn [fst snd].
  destruct (String.eqb a b).
  - destruct P as (P1 & ->). eapply ex_run; [reflexivity|]. apply ex_ret. split; [exact Hr|]. left. auto.
  - destruct (amatter E v mw f t e) as [w|x]; [|split; [reflexivity | apply HX, grow_refl]].
    cbn. split; [apply has_new|]. right. split; [reflexivity | apply grow_new].
Qed.
Lemma ex_tscale f t : ex (h_tscale E f t r) (atscale E v f t) h
  (fun r' w h' => has h' r' w /\ moved r r' h h' (scale_same E f t)) X.
Proof.
  unfold h_tscale. pose proof (scale_pair E f t v) as P. destruct (cfg_pair E _ f t) as [(a, b)|x] eqn:Eu.
  2:{ rewrite P. split; [reflexivity | apply HX, grow_refl]. }
  eapply ex_run; [reflexivity|]. apply (ex_read _ _ _ _ _ _ _ Hr). cbn [fst snd].
  destruct (same_scale a b) eqn:Es.
  - rewrite P. eapply ex_run; [reflexivity|]. apply ex_ret. split; [exact Hr|]. left. split; [reflexivity|]. split; [reflexivity|]. exists a, b. auto.
  - destruct (atscale E v f t) as [w|x]; [|split; [reflexivity | apply HX, grow_refl]].
    cbn. split; [apply has_new|]. right. split; [reflexivity | apply grow_new].
Qed.
End Conv.

Lemma moved_trans r r1 r2 h h1 h2 (A B : Prop) : moved r r1 h h1 A -> moved r1 r2 h1 h2 B ->
  (r2 = r /\ h2 = h /\ A /\ B) \/ (exists l, r2 = Whole l /\ (List.length h <= l)%nat /\ grow h h2).
Proof.
  intros [(-> & -> & HA)|(-> & G)] [(-> & -> & HB)|(-> & G2)].
  - left. auto.
  - right. exists (List.length h). auto.
  - right. exists (List.length h). auto.
  - right. exists (List.length h1). split; [reflexivity|]. split; [apply grow_len; exact G | exact (grow_trans _ _ _ G G2)].
Qed.

(* ---- the arguments ---- *)
Section Values.
Variable h0 : heap.
Definition hval (a : harg) : arr := match a with HVal v => v | HArr l => nth l h0 [] end.
Definition kval (kw : hkwargs) : kwargs := map (fun kv => (fst kv, hval (snd kv))) kw.
Definition rmap {A B} (f : A -> B) (r : res A) : res B := match r with Ok x => Ok (f x) | Err e => Err e end.
Lemma dget_kval k kw : dget k (kval kw) = match dget k kw with Some a => Some (hval a) | None => None end.
Proof. induction kw as [|[k' a] kw IH]; cbn; [reflexivity|]. destruct (String.eqb k k'); [reflexivity | exact IH]. Qed.
Lemma dmem_kval k kw : dmem k (kval kw) = dmem k kw.
Proof. unfold dmem. rewrite dget_kval. destruct (dget k kw); reflexivity. Qed.
Lemma dset_kval k a kw : dset k (hval a) (kval kw) = kval (dset k a kw).
Proof. induction kw as [|[k' b] kw IH]; cbn; [reflexivity|]. destruct (String.eqb k k'); [reflexivity|]. cbn [kval map fst snd]. f_equal. exact IH. Qed.
Lemma length_kval kw : List.length (kval kw) = List.length kw.
Proof. apply map_length. Qed.
Lemma positional_kval varg kw : positional (map hval varg) (kval kw) = rmap kval (h_positional varg kw).
Proof.
  unfold positional, h_positional. rewrite map_length, !dmem_kval. destruct varg as [|a varg]; cbn [map].
  - cbn [bind]. destruct (Nat.ltb _ _); reflexivity.
  - destruct (dmem "T" kw); [reflexivity|]. cbn [bind]. rewrite dset_kval. destruct varg as [|b varg]; cbn [map].
    + cbn [bind]. destruct (Nat.ltb _ _); reflexivity.
    + rewrite dmem_kval. destruct (dmem "p" _); [reflexivity|]. cbn [bind]. rewrite dset_kval. destruct (Nat.ltb _ _); reflexivity.
Qed.
Lemma defaults_kval E kw : defaults E (kval kw) = rmap kval (h_defaults E kw).
Proof.
  unfold defaults, h_defaults. rewrite length_kval, dmem_kval. destruct (List.length kw) as [|[|n]]; [| |reflexivity].
  - destruct (def_T _ _ _) as [t|]; [|reflexivity]. cbn [bind]. destruct (def_p _ _ _ _) as [p|]; [|reflexivity]. cbn [bind rmap].
    rewrite <- !dset_kval. reflexivity.
  - destruct (dmem "T" kw).
    + destruct (def_p _ _ _ _) as [p|]; [|reflexivity]. cbn [bind rmap]. rewrite <- dset_kval. reflexivity.
    + destruct (def_T _ _ _) as [t|]; [|reflexivity]. cbn [bind rmap]. rewrite <- dset_kval. reflexivity.
Qed.

(* np.asarray of every argument *)
Definition origin (kw : hkwargs) (k : string) (r : ref) : Prop :=
  exists l, r = Whole l /\ ((List.length h0 <= l)%nat \/ dget k kw = Some (HArr l)).
Definition inside (kw : hkwargs) : Prop := forall k l, In (k, HArr l) kw -> (l < List.length h0)%nat.
Lemma arrays_ok kw : inside kw -> forall h, grow h0 h -> exists h' kw3, h_arrays kw h = (h', Ok kw3) /\ grow h h' /\
  (forall k, match dget k kw3, dget k kw with
   | Some r, Some a => has h' r (hval a) /\ origin kw k r /\ ((List.length h <= ref_loc r)%nat \/ a = HArr (ref_loc r))
   | None, None => True | _, _ => False end) /\
  (forall k1 k2 r1 r2, dget k1 kw3 = Some r1 -> dget k2 kw3 = Some r2 -> k1 <> k2 -> ref_loc r1 = ref_loc r2 -> (ref_loc r1 < List.length h0)%nat).
Proof.
  intro In0. induction kw as [|[k a] kw IH]; intros h G.
  { exists h, []. split; [reflexivity|]. split; [apply grow_refl|]. split; [intro; exact I | discriminate]. }
  assert (In1 : inside kw) by (intros k' l H; apply (In0 k'); right; exact H).
  cbn [h_arrays]. destruct a as [v|l]; cbn [asarray].
  - destruct (IH In1 (h ++ [v]) (grow_trans _ _ _ G (grow_new h v))) as (h' & kw3 & Eq & G' & P & S).
    exists h', ((k, Whole (List.length h)) :: kw3). unfold mbind, new. rewrite Eq. cbn [ret]. split; [reflexivity|].
    split; [exact (grow_trans _ _ _ (grow_new h v) G')|]. pose proof (grow_len _ _ G) as GL. split.
    + intro k'. cbn [dget]. destruct (String.eqb k' k) eqn:Ek.
      * split; [apply (has_grow _ _ _ _ G'), has_new|]. split; [exists (List.length h); auto | left; cbn; lia].
      * specialize (P k'). destruct (dget k' kw3) as [r|], (dget k' kw) as [b|] eqn:Eb; try exact P. destruct P as (P1 & (l & -> & P2) & P3).
        split; [exact P1|]. split; [|destruct P3 as [P3|P3]; [left; rewrite app_length in P3; cbn in P3 |- *; lia | right; exact P3]].
        exists l. split; [reflexivity|]. cbn [dget]. rewrite Ek. exact P2.
    + assert (Fr : forall k' r, dget k' kw3 = Some r -> ref_loc r = List.length h -> (List.length h < List.length h0)%nat).
      { intros k' r E1 E2. specialize (P k'). rewrite E1 in P. destruct (dget k' kw) as [b|] eqn:Eb; [|contradiction]. destruct P as (_ & _ & [P3|P3]).
        - rewrite app_length in P3. cbn in P3. lia.
        - rewrite E2 in P3. apply (In1 k'). apply dget_some_in in Eb. rewrite P3 in Eb. exact Eb. }
      intros k1 k2 r1 r2 E1 E2 N L. cbn [dget] in E1, E2. destruct (String.eqb k1 k) eqn:K1, (String.eqb k2 k) eqn:K2.
      * apply String.eqb_eq in K1, K2. congruence.
      * injection E1 as <-. cbn in L |- *. exact (Fr k2 r2 E2 (eq_sym L)).
      * injection E2 as <-. cbn in L. rewrite L. exact (Fr k1 r1 E1 L).
      * exact (S k1 k2 r1 r2 E1 E2 N L).
  - destruct (IH In1 h G) as (h' & kw3 & Eq & G' & P & S). pose proof (In0 k l (or_introl eq_refl)) as Ll.
    exists h', ((k, Whole l) :: kw3). unfold mbind, ret. rewrite Eq. split; [reflexivity|]. split; [exact G'|]. split.
    + intro k'. cbn [dget]. destruct (String.eqb k' k) eqn:Ek.
      * split; [|split; [exists l; split; [reflexivity|]; right; cbn [dget]; rewrite Ek; reflexivity | right; reflexivity]].
        apply (has_grow h0 _ _ _ (grow_trans _ _ _ G G')). split; [reflexivity | exact Ll].
      * specialize (P k'). destruct (dget k' kw3) as [r|], (dget k' kw) as [b|] eqn:Eb; try exact P. destruct P as (P1 & (l' & -> & P2) & P3).
        split; [exact P1|]. split; [|exact P3]. exists l'. split; [reflexivity|]. cbn [dget]. rewrite Ek. exact P2.
    + intros k1 k2 r1 r2 E1 E2 N L. cbn [dget] in E1, E2. destruct (String.eqb k1 k), (String.eqb k2 k).
      * injection E1 as <-. exact Ll.
      * injection E1 as <-. exact Ll.
      * injection E2 as <-. rewrite L. exact Ll.
      * exact (S k1 k2 r1 r2 E1 E2 N L).
Qed.
End Values.

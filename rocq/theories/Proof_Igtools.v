(* Arithmetic of dynamic mixtures (igtools.py 403-516). *)
From Coq Require Import Reals List String Bool Lia Lra Arith Permutation.
From Verif Require Import Base Model_Num Model_Units Model_Igas Model_Igtools Spec_Igtools Proof_Igtshape.
Import ListNotations.
Local Open Scope R_scope.
Local Open Scope string_scope.
Local Open Scope list_scope.

Lemma Forall2_len {A B} (P : A -> B -> Prop) l m : Forall2 P l m -> List.length l = List.length m.
Proof. induction 1; cbn; congruence. Qed.

(* ---- numbers ---- *)
Lemma fadd_comm a b : fadd a b = fadd b a.
Proof. destruct a, b; cbn; f_equal; lra. Qed.
Lemma fadd_assoc a b c : fadd (fadd a b) c = fadd a (fadd b c).
Proof. destruct a, b, c; cbn; f_equal; lra. Qed.
Lemma fadd_0_l a : fadd (Some 0) a = a.
Proof. destruct a; cbn; f_equal; lra. Qed.
Lemma fadd_0_r a : fadd a (Some 0) = a.
Proof. destruct a; cbn; f_equal; lra. Qed.

(* ---- positions ---- *)
Lemma index_of_some s l k : index_of s l = Some k -> (k < List.length l)%nat /\ nth k l "" = s.
Proof.
  revert k; induction l as [|x l IH]; cbn; [discriminate|]. intros k H.
  destruct (String.eqb_spec s x) as [->|Hsx].
  - injection H as <-. split; [lia|reflexivity].
  - destruct (index_of s l) as [n|]; [|discriminate]. injection H as <-.
    destruct (IH n eq_refl). split; [lia|assumption].
Qed.
Lemma index_of_none s l : index_of s l = None <-> ~ In s l.
Proof.
  induction l as [|x l IH]; cbn; [tauto|].
  destruct (String.eqb_spec s x) as [->|Hn].
  - split; [discriminate|]. intro H; exfalso; apply H; auto.
  - destruct (index_of s l) as [n|].
    + split; [discriminate|]. intro H. exfalso.
      assert (~ In s l) by tauto. apply IH in H0. discriminate.
    + split; [|reflexivity]. intros _ [E|E]; [congruence|]. now apply IH.
Qed.
Lemma index_of_nth l k : NoDup l -> (k < List.length l)%nat -> index_of (nth k l "") l = Some k.
Proof.
  revert k; induction l as [|x l IH]; cbn; intros k Hnd Hk; [lia|].
  inversion Hnd as [|? ? Hni Hnd']; subst. destruct k as [|k].
  - now rewrite String.eqb_refl.
  - destruct (String.eqb_spec (nth k l "") x) as [E|_].
    + exfalso. apply Hni. rewrite <- E. apply nth_In. lia.
    + rewrite IH by (assumption || lia). reflexivity.
Qed.
Lemma memb_spec s l : memb s l = true <-> In s l.
Proof.
  unfold memb. destruct (index_of s l) eqn:E.
  - split; [intros _|reflexivity]. apply index_of_some in E. destruct E as [H <-]. now apply nth_In.
  - split; [discriminate|]. intro H. apply index_of_none in E. contradiction.
Qed.
Lemma index_of_app s l r k : index_of s l = Some k -> index_of s (l ++ r) = Some k.
Proof.
  revert k; induction l as [|x l IH]; cbn; [discriminate|]. intros k H.
  destruct (String.eqb s x); [exact H|]. destruct (index_of s l) as [n|]; [|discriminate].
  rewrite (IH n eq_refl). exact H.
Qed.

Lemma amount_in_shift names q s i : forall k,
  amount_in names k q s i =
  match index_of s names with Some n => nel q ((k + n)%nat :: i) | None => Some 0 end.
Proof.
  induction names as [|x names IH]; intro k; cbn; [reflexivity|].
  destruct (String.eqb s x).
  - now rewrite Nat.add_0_r.
  - rewrite IH. destruct (index_of s names) as [n|]; [|reflexivity].
    now replace (k + S n)%nat with (S k + n)%nat by lia.
Qed.
Lemma amount_index m s i :
  amount m s i = match index_of s (x_c m) with Some n => nel (x_q m) (n :: i) | None => Some 0 end.
Proof. unfold amount. now rewrite amount_in_shift. Qed.
Lemma amount_absent m s i : ~ In s (x_c m) -> amount m s i = Some 0.
Proof. intro H. rewrite amount_index. apply index_of_none in H. now rewrite H. Qed.

(* ---- the names of a sum ---- *)
Lemma add_names_spec bc : forall c, NoDup c ->
  exists r, add_names bc c = c ++ r /\ NoDup (c ++ r) /\ incl bc (c ++ r) /\ incl r bc.
Proof.
  induction bc as [|s bc IH]; intros c Hnd; cbn.
  - exists []. rewrite app_nil_r. repeat split; auto; intros x [].
  - destruct (memb s c) eqn:E.
    + destruct (IH c Hnd) as (r & H1 & H2 & H3 & H4). exists r. repeat split; auto.
      * intros x [<-|Hx]; [|auto]. apply in_or_app. left. now apply memb_spec.
      * intros x Hx. right. auto.
    + assert (Hnd' : NoDup (c ++ [s])).
      { assert (Hs : ~ In s c) by (intro H; apply memb_spec in H; congruence).
        clear -Hnd Hs. induction c as [|y c IHc]; cbn.
        - constructor; [intros []|constructor].
        - inversion Hnd as [|? ? Hy Hc]; subst. constructor.
          + intro H. apply in_app_or in H. destruct H as [H|[->|[]]]; [contradiction|]. apply Hs; now left.
          + apply IHc; [assumption|]. intro H; apply Hs; now right. }
      destruct (IH (c ++ [s]) Hnd') as (r & H1 & H2 & H3 & H4).
      exists (s :: r). replace (c ++ s :: r) with ((c ++ [s]) ++ r) by (rewrite <- app_assoc; reflexivity).
      repeat split; auto.
      * intros x [<-|Hx]; [|auto]. apply in_or_app; left. apply in_or_app; right. now left.
      * intros x [<-|Hx]; [now left|right; auto].
Qed.
Lemma add_names_incl bc c : incl bc c -> add_names bc c = c.
Proof.
  unfold add_names. revert c; induction bc as [|s bc IH]; intros c H; cbn; [reflexivity|].
  rewrite (proj2 (memb_spec s c)) by (apply H; now left). apply IH. intros x Hx; apply H; now right.
Qed.

(* ---- stretching, same number of dimensions ---- *)
Lemma map2_project s : forall i, List.length i = List.length s ->
  map2 (fun d k => if Nat.eqb d 1 then 0%nat else k) s i = project s i.
Proof.
  induction s as [|d s IH]; intros [|k i] H; try discriminate; [reflexivity|].
  cbn. f_equal. apply IH. now injection H.
Qed.
Lemma bidx_project s i : List.length i = List.length s -> bidx s i = project s i.
Proof. intro H. unfold bidx. rewrite H, Nat.sub_diag. cbn [skipn]. now apply map2_project. Qed.
Lemma project_len s : forall i, List.length i = List.length s -> List.length (project s i) = List.length s.
Proof.
  induction s as [|d s IH]; intros [|k i] H; try discriminate; [reflexivity|]. cbn. f_equal. apply IH. now injection H.
Qed.

Definition stretches (s u : list nat) : Prop := Forall2 (fun d e => d = 1%nat \/ d = e) s u.
Lemma stretches_fits s u : stretches s u -> fits s u = true.
Proof.
  intro H. assert (L := Forall2_len _ _ _ H). unfold fits. rewrite L, Nat.leb_refl, Nat.sub_diag. cbn [skipn andb].
  clear L. induction H as [|d e s u Hd H IH]; [reflexivity|]. cbn [combine forallb fst snd].
  rewrite IH, andb_true_r. unfold dim_fits. destruct Hd as [->| ->]; [reflexivity|].
  rewrite Nat.eqb_refl. apply orb_true_r.
Qed.
Lemma stretches_refl s : stretches s s.
Proof. induction s; constructor; auto. Qed.
Lemma dims_stretches s : forall q u, List.length s = List.length q -> dims_loop s q = Ok u ->
  stretches s u /\ stretches q u.
Proof.
  induction s as [|a s IH]; intros [|b q] u Hl H; try discriminate; cbn in H.
  - injection H as <-. split; constructor.
  - injection Hl as Hl. destruct (Nat.eqb_spec a b) as [->|Hab]; cbn [orb] in H.
    + destruct (dims_loop s q) as [r|] eqn:E; [|discriminate]. injection H as <-.
      destruct (IH q r Hl E). split; constructor; auto.
    + destruct (Nat.eqb_spec a 1) as [->|Ha].
      * destruct (dims_loop s q) as [r|] eqn:E; [|discriminate]. injection H as <-.
        destruct (IH q r Hl E). split; constructor; auto.
      * destruct (Nat.eqb_spec b 1) as [->|Hb]; [|discriminate].
        destruct (dims_loop s q) as [r|] eqn:E; [|discriminate]. injection H as <-.
        destruct (IH q r Hl E). split; constructor; auto.
Qed.
Lemma index_in_len s i : index_in s i -> List.length i = List.length s.
Proof. apply Forall2_len. Qed.
Lemma project_in s : forall u i, stretches s u -> index_in u i -> index_in s (project s i).
Proof.
  induction s as [|d s IH]; intros u i Hs Hi; inversion Hs; subst; cbn; [constructor|].
  inversion Hi as [|k e i' u' Hk Hi']; subst. constructor.
  - match goal with H : _ \/ _ |- _ => destruct H as [->| ->] end; cbn; [lia|].
    destruct (Nat.eqb_spec y 1); lia.
  - eapply IH; eassumption.
Qed.
Lemma project_id s : forall i, index_in s i -> project s i = i.
Proof.
  induction s as [|d s IH]; intros i Hi; inversion Hi; subst; cbn; [reflexivity|].
  rewrite IH by assumption. destruct (Nat.eqb_spec d 1); [f_equal; lia|reflexivity].
Qed.
Lemma project_project s : forall u i, stretches s u -> List.length i = List.length u ->
  project s (project u i) = project s i.
Proof.
  induction s as [|d s IH]; intros u i Hs Hi; inversion Hs as [|? e ? u' He Hs']; subst; [reflexivity|].
  destruct i as [|k i]; [discriminate|]. cbn. rewrite IH by (assumption || now injection Hi).
  f_equal. destruct He as [->| ->]; cbn; [reflexivity|]. now destruct (Nat.eqb e 1).
Qed.
Lemma stretches_trans a b c : stretches a b -> stretches b c -> stretches a c.
Proof.
  intro H; revert c. induction H as [|d e a b Hd H IH]; intros c Hc; [exact Hc|].
  inversion Hc as [|? y ? c' Hy Hc']; subst. constructor; [|now apply IH].
  destruct Hd as [->| ->]; [now left|exact Hy].
Qed.

Lemma broadcast_to_same a t : stretches (nsh a) t ->
  exists v, broadcast_to a t = Ok v /\ nsh v = t /\
    forall i, List.length i = List.length t -> nel v i = nel a (project (nsh a) i).
Proof.
  intro H. unfold broadcast_to. rewrite (stretches_fits _ _ H). eexists; split; [reflexivity|].
  split; [reflexivity|]. intros i Hi. cbn. rewrite bidx_project; [reflexivity|].
  rewrite Hi. symmetry. apply (Forall2_len _ _ _ H).
Qed.

(* ---- the addition of the rows ---- *)
Lemma add_rows_spec c bq sh : NoDup c ->
  stretches (nsh (row bq 0)) sh -> forall bc, NoDup bc -> incl bc c -> forall bi q, nsh q = List.length c :: sh ->
  exists q', add_rows c bc bq bi q = Ok q' /\ nsh q' = nsh q /\
    forall k i, (k < List.length c)%nat -> List.length i = List.length sh ->
      nel q' (k :: i) = fadd (nel q (k :: i))
                             (amount_in bc bi bq (nth k c "") (project (nsh (row bq 0)) i)).
Proof.
  intros Hc Hs bc. induction bc as [|s bc IH]; intros Hnd Hincl bi q Hq; cbn [add_rows].
  - exists q. repeat split. intros k i _ _. cbn. now rewrite fadd_0_r.
  - inversion Hnd as [|? ? Hns Hnd']; subst.
    assert (Hin : In s c) by (apply Hincl; now left).
    destruct (index_of s c) as [ai|] eqn:Ea; [|exfalso; apply index_of_none in Ea; contradiction].
    destruct (index_of_some _ _ _ Ea) as [Hai Hnth].
    rewrite Hq. cbn [tl].
    destruct (broadcast_to_same (row bq bi) sh Hs) as (v & Hv & Hvs & Hve). rewrite Hv. cbn [bind].
    set (q1 := set_row q ai _).
    destruct (IH Hnd' (fun x Hx => Hincl x (or_intror Hx)) (S bi) q1) as (q' & H1 & H2 & H3).
    { unfold q1. exact Hq. }
    exists q'. split; [exact H1|]. split; [rewrite H2; unfold q1; exact Hq|].
    intros k i Hk Hi. rewrite (H3 k i Hk Hi). cbn [amount_in]. unfold q1. cbn [set_row nel].
    destruct (Nat.eqb_spec k ai) as [->|Hne].
    + rewrite Hnth, String.eqb_refl, (Hve i Hi). cbn [row nel nsh].
      rewrite (amount_in_shift bc bq s (project (tl (nsh bq)) i) (S bi)).
      rewrite (proj2 (index_of_none s bc) Hns). apply fadd_0_r.
    + destruct (String.eqb_spec (nth k c "") s) as [E|_]; [|reflexivity].
      exfalso. apply Hne. pose proof (index_of_nth c k Hc Hk) as K. rewrite E, Ea in K. congruence.
Qed.

Lemma shape_eqb_spec s t : shape_eqb s t = true <-> s = t.
Proof. unfold shape_eqb. destruct (list_eq_dec Nat.eq_dec s t); split; congruence. Qed.

Lemma bshape_dims a b : a <> [] -> List.length a = List.length b -> broadcast_shape b a = dims_loop a b.
Proof.
  intros Ha Hl. unfold broadcast_shape. destruct b, a; try congruence; try discriminate.
  now rewrite !pad_right_same by lia.
Qed.

Lemma iadd_amounts a b sh : mixture_ok a -> mixture_ok b ->
  List.length (shape a) = List.length (shape b) ->
  broadcast_shape (shape b) (shape a) = Ok sh ->
  exists c, iadd a b = (c, Ok tt) /\ mixture_ok c /\ shape c = sh /\
    stretches (shape a) sh /\ stretches (shape b) sh /\
    (exists r, x_c c = x_c a ++ r) /\ incl (x_c b) (x_c c) /\
    (forall s, In s (x_c c) -> In s (x_c a) \/ In s (x_c b)) /\
    forall s i, index_in sh i ->
      amount c s i = fadd (amount a s (project (shape a) i)) (amount b s (project (shape b) i)).
Proof.
  intros (Ha1 & Ha2 & Ha3) (Hb1 & Hb2 & Hb3) Hl Hsh.
  pose proof Hsh as Hd. rewrite bshape_dims in Hd by assumption.
  destruct (dims_stretches _ _ _ Hl Hd) as [Sa Sb].
  destruct (add_names_spec (x_c b) (x_c a) Ha3) as (r & Hn & Hnd & Hin & Hr).
  unfold iadd. rewrite Hsh, Hn.
  set (c := x_c a ++ r) in *.
  match goal with |- context [if ?x then ?y else ?z] => set (grown := if x then y else z) end.
  assert (G : exists q, grown = Ok q /\ nsh q = List.length c :: sh /\
     forall k i, (k < List.length c)%nat -> index_in sh i ->
       nel q (k :: i) = amount a (nth k c "") (project (shape a) i)).
  { unfold grown.
    assert (AM : forall k i, (k < List.length c)%nat ->
       amount a (nth k c "") i = if Nat.ltb k (nsubst a) then nel (x_q a) (k :: i) else Some 0).
    { intros k i Hk. rewrite amount_index. unfold nsubst. destruct (Nat.ltb_spec k (List.length (x_c a))) as [Hka|Hka].
      - unfold c. rewrite app_nth1 by exact Hka. now rewrite index_of_nth.
      - assert (Hni : ~ In (nth k c "") (x_c a)).
        { intro Hc'. apply In_nth with (d := "") in Hc'. destruct Hc' as (j & Hj & Ej).
          pose proof (index_of_nth c k Hnd Hk) as K1.
          assert (Hjc : (j < List.length c)%nat) by (unfold c; rewrite app_length; lia).
          pose proof (index_of_nth c j Hnd Hjc) as K2. unfold c in K2 at 1. rewrite app_nth1 in K2 by exact Hj.
          rewrite Ej in K2. rewrite K1 in K2. injection K2 as ->. lia. }
        apply index_of_none in Hni. now rewrite Hni. }
    destruct (negb (Nat.eqb (List.length c) (nsubst a)) || negb (shape_eqb (shape a) sh)) eqn:Eg.
    - destruct (broadcast_to_same (x_q a) (nsubst a :: sh)) as (v & Hv & Hvs & Hve).
      { rewrite Ha1. unfold nsubst. constructor; [now right|exact Sa]. }
      rewrite Hv. cbn [bind]. eexists; split; [reflexivity|]. split; [reflexivity|].
      intros k i Hk Hi. cbn [nel]. rewrite AM by exact Hk.
      destruct (Nat.ltb_spec k (nsubst a)) as [Hka|Hka]; [|reflexivity].
      rewrite Hve by (cbn; now rewrite (index_in_len _ _ Hi)). rewrite Ha1. cbn [project].
      destruct (Nat.eqb_spec (List.length (x_c a)) 1) as [E1|]; [|reflexivity].
      unfold nsubst in Hka. replace k with 0%nat by lia. reflexivity.
    - apply orb_false_iff in Eg. destruct Eg as [E1 E2]. apply negb_false_iff in E1, E2.
      apply Nat.eqb_eq in E1. apply shape_eqb_spec in E2.
      exists (x_q a). split; [reflexivity|]. split; [rewrite Ha1, E2; unfold nsubst in E1; now rewrite E1|].
      intros k i Hk Hi. rewrite AM by exact Hk. rewrite E1 in Hk.
      destruct (Nat.ltb_spec k (nsubst a)); [|lia]. f_equal. f_equal. rewrite E2.
      now rewrite project_id by exact Hi. }
  destruct G as (q & Gq & Gs & Ge). rewrite Gq.
  destruct (add_rows_spec c (x_q b) sh Hnd) with (bc := x_c b) (bi := 0%nat) (q := q)
    as (q' & H1 & H2 & H3); auto.
  rewrite H1. eexists; split; [reflexivity|].
  assert (Hq' : nsh q' = List.length c :: sh) by congruence.
  split; [|split; [|split; [exact Sa|split; [exact Sb|split; [exists r; reflexivity|split; [exact Hin|split]]]]]].
  - unfold mixture_ok, shape. cbn. rewrite Hq'. cbn. split; [reflexivity|]. split; [|exact Hnd].
    intro E. rewrite E in Sa. inversion Sa. congruence.
  - unfold shape. cbn. now rewrite Hq'.
  - intros s Hs. cbn in Hs. unfold c in Hs. apply in_app_or in Hs. destruct Hs; auto.
  - intros s i Hi. rewrite amount_index at 1. cbn [x_c x_q].
    destruct (index_of s c) as [k|] eqn:Ek.
    + destruct (index_of_some _ _ _ Ek) as [Hk Hnk].
      rewrite (H3 k i Hk (index_in_len _ _ Hi)), (Ge k i Hk Hi), Hnk. reflexivity.
    + apply index_of_none in Ek.
      rewrite (amount_absent a) by (intro H; apply Ek; unfold c; apply in_or_app; now left).
      rewrite (amount_absent b) by (intro H; apply Ek; now apply Hin). cbn. f_equal. lra.
Qed.

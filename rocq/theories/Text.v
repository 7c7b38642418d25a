(* Python string operations used by several models, with their elementary lemmas. *)
From Coq Require Import String Ascii List Bool Arith Lia NArith Sorted Permutation.
Import ListNotations.
Local Open Scope string_scope.

(* s[-n:] == suf, for a suffix of length n (a shorter s is compared as a whole) *)
Definition ends_with (suf s : string) : bool :=
  String.eqb (substring (String.length s - String.length suf) (String.length suf) s) suf.

(* sub in s *)
Fixpoint contains (sub s : string) : bool :=
  String.prefix sub s ||
  match s with "" => false | String _ s' => contains sub s' end.

(* c.lower() for ASCII letters; other characters are unchanged (non-ASCII letters are not
   modelled) *)
Definition lower_ascii (c : ascii) : ascii :=
  let n := nat_of_ascii c in
  if (Nat.leb 65 n && Nat.leb n 90)%bool then ascii_of_nat (n + 32) else c.
Fixpoint lower (s : string) : string :=
  match s with "" => "" | String c s' => String (lower_ascii c) (lower s') end.

(* sorted(l): insertion sort by key; Python compares strings code point by code point *)
Section Sort.
  Context {A : Type} (key : A -> string).
  Fixpoint insert (x : A) (l : list A) : list A :=
    match l with
    | [] => [x]
    | y :: l' => if String.leb (key x) (key y) then x :: l else y :: insert x l'
    end.
  Definition sort (l : list A) : list A := fold_right insert [] l.

  Lemma insert_perm x l : Permutation (x :: l) (insert x l).
  Proof.
    induction l as [|y l IH]; cbn; [reflexivity|].
    destruct (String.leb (key x) (key y)); [reflexivity|].
    rewrite perm_swap. now constructor.
  Qed.
  Lemma sort_perm l : Permutation l (sort l).
  Proof.
    induction l as [|x l IH]; cbn; [reflexivity|].
    rewrite <- insert_perm. now constructor.
  Qed.
  Definition le_key (a b : A) : Prop := String.leb (key a) (key b) = true.
  Lemma insert_sorted x l : Sorted le_key l -> Sorted le_key (insert x l).
  Proof.
    induction l as [|y l IH]; cbn; intro H; [repeat constructor|].
    destruct (String.leb (key x) (key y)) eqn:E.
    - constructor; [assumption|]. constructor. exact E.
    - inversion H as [|? ? Hs Hh]; subst. constructor; [now apply IH|].
      assert (Hyx : le_key y x).
      { unfold le_key. destruct (String.leb_total (key x) (key y)); congruence. }
      destruct l as [|z l]; cbn; [now constructor|].
      destruct (String.leb (key x) (key z)); constructor; [exact Hyx|]. now inversion Hh.
  Qed.
  Lemma sort_sorted l : Sorted le_key (sort l).
  Proof. induction l as [|x l IH]; cbn; [constructor|]. now apply insert_sorted. Qed.
End Sort.

(* order lemmas *)
Lemma ascii_compare_N a b : Ascii.compare a b = N.compare (N_of_ascii a) (N_of_ascii b).
Proof. reflexivity. Qed.

Lemma string_compare_refl s : String.compare s s = Eq.
Proof.
  induction s as [|c s IH]; cbn; [reflexivity|]. rewrite ascii_compare_N, N.compare_refl. exact IH.
Qed.

Lemma leb_refl s : String.leb s s = true.
Proof. unfold String.leb. now rewrite string_compare_refl. Qed.

Lemma leb_trans a b c : String.leb a b = true -> String.leb b c = true -> String.leb a c = true.
Proof.
  unfold String.leb. revert b c.
  induction a as [|x a IH]; intros [|y b] [|z c]; cbn; try reflexivity; try discriminate.
  rewrite !ascii_compare_N.
  destruct (N.compare_spec (N_of_ascii x) (N_of_ascii y)) as [E1|L1|G1]; try discriminate;
  destruct (N.compare_spec (N_of_ascii y) (N_of_ascii z)) as [E2|L2|G2]; try discriminate;
  destruct (N.compare_spec (N_of_ascii x) (N_of_ascii z)) as [E3|L3|G3]; try reflexivity; try lia; try discriminate.
  apply IH.
Qed.

Lemma sorted_strong {A} (key : A -> string) l : Sorted (le_key key) l -> StronglySorted (le_key key) l.
Proof. apply Sorted_StronglySorted. intros a b c. apply leb_trans. Qed.

(* a sorted arrangement of a list with distinct keys is unique *)
Lemma sorted_unique {A} (key : A -> string) (l1 l2 : list A) :
  NoDup (map key l1) -> Permutation l1 l2 ->
  Sorted (le_key key) l1 -> Sorted (le_key key) l2 -> l1 = l2.
Proof.
  intros Hnd Hp H1 H2. apply sorted_strong in H1, H2.
  revert l2 Hp H2 Hnd. induction H1 as [|x l1 Hs IH Hf]; intros l2 Hp H2 Hnd.
  - apply Permutation_nil in Hp. now subst.
  - destruct l2 as [|y l2]; [apply Permutation_sym, Permutation_nil in Hp; discriminate|].
    inversion H2 as [|? ? Hs2 Hf2]; subst.
    assert (Hxy : x = y).
    { assert (Hy : In y (x :: l1)) by (eapply Permutation_in; [symmetry; exact Hp|now left]).
      assert (Hx : In x (y :: l2)) by (eapply Permutation_in; [exact Hp|now left]).
      destruct Hy as [Hy|Hy]; [exact Hy|]. destruct Hx as [Hx|Hx]; [now symmetry|].
      rewrite Forall_forall in Hf, Hf2. specialize (Hf y Hy). specialize (Hf2 x Hx).
      pose proof (String.leb_antisym _ _ Hf Hf2) as Hk. exfalso.
      inversion Hnd as [|? ? Hni _]; subst. apply Hni. rewrite Hk. now apply in_map. }
    subst y. f_equal. apply IH; [eapply Permutation_cons_inv; eauto|assumption|].
    now inversion Hnd.
Qed.

Lemma app_length_s a b : String.length (a ++ b) = (String.length a + String.length b)%nat.
Proof. induction a; cbn; lia. Qed.
Lemma app_assoc_s a b c : (a ++ b) ++ c = a ++ (b ++ c).
Proof. induction a as [|x a IH]; cbn; [reflexivity|]. now rewrite IH. Qed.
Lemma app_nil_s a : a ++ "" = a.
Proof. induction a as [|x a IH]; cbn; [reflexivity|]. now rewrite IH. Qed.
Lemma substring_all s : substring 0 (String.length s) s = s.
Proof. induction s as [|c s IH]; cbn; [reflexivity|]. now rewrite IH. Qed.
Lemma substring_skip a b n : substring (String.length a) n (a ++ b) = substring 0 n b.
Proof. induction a as [|c a IH]; cbn; [reflexivity|]. exact IH. Qed.
Lemma substring_take a b : substring 0 (String.length a) (a ++ b) = a.
Proof. induction a as [|c a IH]; cbn; [now destruct b|]. now rewrite IH. Qed.

Lemma ends_with_app suf s : ends_with suf (s ++ suf) = true.
Proof.
  unfold ends_with. rewrite app_length_s.
  replace (String.length s + String.length suf - String.length suf)%nat with (String.length s) by lia.
  rewrite substring_skip, substring_all. apply String.eqb_refl.
Qed.

Lemma split_at (s : string) n : (n <= String.length s)%nat ->
  exists a b, s = a ++ b /\ String.length a = n.
Proof.
  revert n. induction s as [|c s IH]; intros n Hn; cbn in Hn.
  - exists "", "". split; [reflexivity|cbn; lia].
  - destruct n; [exists "", (String c s); auto|].
    destruct (IH n) as (a & b & -> & Hl); [lia|]. exists (String c a), b. cbn. auto.
Qed.

Lemma ends_with_iff suf s : ends_with suf s = true <-> exists a, s = a ++ suf.
Proof.
  split.
  - unfold ends_with. intro H. apply String.eqb_eq in H.
    destruct (le_lt_dec (String.length suf) (String.length s)) as [Hle|Hlt].
    + destruct (split_at s (String.length s - String.length suf)) as (a & b & E & Hl); [lia|].
      assert (Hb : String.length b = String.length suf).
      { assert (HL : String.length s = (String.length a + String.length b)%nat) by (rewrite E at 1; apply app_length_s). lia. }
      rewrite <- Hl in H. rewrite E in H at 1.
      rewrite substring_skip, <- Hb, substring_all in H. subst b. eauto.
    + (* s shorter than suf: substring 0 n s has length < n *)
      exfalso. replace (String.length s - String.length suf)%nat with 0%nat in H by lia.
      assert (Hs : forall n t, (String.length (substring 0 n t) <= String.length t)%nat).
      { induction n as [|n IHn]; intros [|c t]; cbn; try lia. specialize (IHn t). lia. }
      specialize (Hs (String.length suf) s). rewrite H in Hs. lia.
  - intros [a ->]. apply ends_with_app.
Qed.

(* the last character decides *)
Fixpoint last_char (s : string) : option ascii :=
  match s with "" => None | String c "" => Some c | String _ s' => last_char s' end.
Lemma last_char_app a c : last_char (a ++ String c "") = Some c.
Proof. induction a as [|x a IH]; cbn; [reflexivity|]. rewrite IH. now destruct a. Qed.

Lemma ends_hpd_tilde s : ends_with ".hpd" (s ++ "~") = false.
Proof.
  destruct (ends_with ".hpd" (s ++ "~")) eqn:E; [|reflexivity].
  apply ends_with_iff in E. destruct E as [a E].
  pose proof (last_char_app s "~"%char) as H. rewrite E in H.
  change ".hpd" with (".hp" ++ String "d" "") in H. rewrite <- app_assoc_s, last_char_app in H. discriminate.
Qed.

(* contains: sub occurs somewhere *)
Lemma prefix_iff a s : String.prefix a s = true <-> exists t, s = a ++ t.
Proof.
  revert s. induction a as [|c a IH]; intros [|d s]; cbn.
  - split; eauto.
  - split; eauto.
  - split; [discriminate|intros [t H]; discriminate].
  - destruct (ascii_dec c d) as [->|Hn].
    + rewrite IH. split; intros [t H]; exists t; congruence.
    + split; [discriminate|intros [t H]; congruence].
Qed.

Lemma contains_iff sub s : contains sub s = true <-> exists a b, s = a ++ sub ++ b.
Proof.
  induction s as [|c s IH]; cbn [contains]; rewrite orb_true_iff, prefix_iff.
  - split.
    + intros [[t H]|H]; [|discriminate]. exists "", t. exact H.
    + intros (a & b & H). left. destruct a; [|discriminate]. exists b. exact H.
  - rewrite IH. split.
    + intros [[t H]|(a & b & H)]; [exists "", t; exact H|]. exists (String c a), b. cbn. now rewrite H.
    + intros ([|d a] & b & H); [left; now exists b|]. right. cbn in H. injection H as -> H. eauto.
Qed.

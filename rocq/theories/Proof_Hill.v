From Coq Require Import ZArith Ascii Sorted Permutation Lia DecimalString DecimalZ DecimalFacts Decimal.
From Verif Require Import Base Text Model_Catalog Spec_Catalog.
Local Open Scope list_scope.
Local Open Scope string_scope.

(* ---- the algorithm unfolded ---- *)
Definition rest_keys (l : list string) : list string :=
  filter (fun a => negb (String.eqb a "C") && negb (String.eqb a "H") && negb (String.eqb a "e")) l.

Lemma mem_str_iff x l : mem_str x l = true <-> In x l.
Proof.
  unfold mem_str. rewrite existsb_exists. split.
  - intros (y & H & E). apply String.eqb_eq in E. now subst.
  - intro H. exists x. split; [assumption|]. apply String.eqb_refl.
Qed.

Lemma remove1_filter x l : NoDup l -> remove1 x l = filter (fun y => negb (String.eqb y x)) l.
Proof.
  induction 1 as [|y l Hy H IH]; cbn; [reflexivity|].
  rewrite (String.eqb_sym x y). destruct (String.eqb_spec y x) as [->|]; cbn.
  - symmetry. clear IH. induction l as [|z l IHl]; cbn; [reflexivity|].
    destruct (String.eqb_spec z x) as [->|]; cbn; [exfalso; apply Hy; now left|].
    f_equal. apply IHl; [|now inversion H]. intro. apply Hy. now right.
  - now rewrite IH.
Qed.
Lemma filter_id {A} f (l : list A) : (forall x, In x l -> f x = true) -> filter f l = l.
Proof.
  induction l as [|x l IH]; cbn; intro H; [reflexivity|]. rewrite (H x (or_introl eq_refl)). f_equal. auto.
Qed.
Lemma remove_if x l : NoDup l -> (if mem_str x l then remove1 x l else l) = filter (fun y => negb (String.eqb y x)) l.
Proof.
  intro H. destruct (mem_str x l) eqn:E; [now apply remove1_filter|].
  symmetry. apply filter_id. intros y Hy. apply negb_true_iff. apply String.eqb_neq. intros ->.
  apply mem_str_iff in Hy. congruence.
Qed.
Lemma filter_nodup {A} f (l : list A) : NoDup l -> NoDup (filter f l).
Proof. apply NoDup_filter. Qed.

Lemma filter_filter {A} (f g : A -> bool) l : filter f (filter g l) = filter (fun x => g x && f x)%bool l.
Proof.
  induction l as [|x l IH]; cbn; [reflexivity|]. destruct (g x); cbn; [destruct (f x)|]; now rewrite IH.
Qed.

Lemma element_spell aa k : match dget k aa with Some n => element aa k = spell [(k, n)] | None => True end.
Proof.
  unfold element. destruct (dget k aa) as [n|]; [|exact I]. cbn. unfold quantity, decimal.
  destruct (Z.eqb n 1); cbn; now rewrite ?app_nil_s.
Qed.

Lemma spell_app a b : spell (a ++ b)%list = spell a ++ spell b.
Proof.
  induction a as [|[k n] a IH]; cbn; [reflexivity|]. now rewrite IH, !app_assoc_s.
Qed.

Definition pick (aa : list (string * Z)) (l : list string) : list (string * Z) :=
  flat_map (fun k => entry_of k aa) l.

Lemma fold_element aa l out : (forall k, In k l -> In k (dkeys aa)) ->
  fold_left (fun out this => out ++ element aa this) l out = out ++ spell (pick aa l).
Proof.
  revert out. induction l as [|k l IH]; intros out H; cbn.
  - now rewrite app_nil_s.
  - rewrite IH by (intros; apply H; now right). rewrite spell_app, <- app_assoc_s. f_equal.
    f_equal. assert (Hk := H k (or_introl eq_refl)). apply dget_in_keys in Hk. destruct Hk as [n Hn].
    pose proof (element_spell aa k) as He. unfold entry_of. rewrite Hn in *. exact He.
Qed.

Definition hill_text (aa : list (string * Z)) : string :=
  spell (entry_of "C" aa ++ entry_of "H" aa ++ pick aa (sort (fun s => s) (rest_keys (dkeys aa))))%list.

Definition lone_electron (aa : list (string * Z)) : Prop := dkeys aa = ["e"].

Lemma step_element aa k (out : string) contents :
  (forall x, In x contents <-> In x (dkeys aa) /\ True) \/ True ->
  mem_str k contents = dmem k aa ->
  (if mem_str k contents then (out ++ element aa k, remove1 k contents) else (out, contents)) =
  (out ++ spell (entry_of k aa), if mem_str k contents then remove1 k contents else contents).
Proof.
  intros _ H. unfold entry_of. pose proof (element_spell aa k) as He. rewrite H. unfold dmem.
  destruct (dget k aa); [now rewrite He|]. cbn. now rewrite app_nil_s.
Qed.

Lemma mem_filter k f l : f k = true -> mem_str k (filter f l) = mem_str k l.
Proof.
  intro H. apply eq_true_iff_eq. rewrite !mem_str_iff, filter_In. tauto.
Qed.
Lemma mem_keys k (aa : list (string * Z)) : mem_str k (dkeys aa) = dmem k aa.
Proof. apply eq_true_iff_eq. rewrite mem_str_iff, dmem_true. symmetry. apply dget_in_keys. Qed.

Lemma hill_eq aa : NoDup (dkeys aa) -> ~ lone_electron aa ->
  hill_atoms aa =
  (let q := Z.opp (electrons aa) in
   if Z.ltb 1 (Z.abs q) then Err ENameError
   else Ok (hill_text aa ++ (if Z.ltb q 0 then "-" else if Z.ltb 0 q then "+" else ""))).
Proof.
  intros Hn He. unfold hill_atoms.
  match goal with |- _ = ?r => set (rhs := r) end.
  transitivity (let '(out, contents) :=
        fold_left (fun '(out, contents) this =>
                     if mem_str this contents
                     then ((out ++ element aa this)%string, remove1 this contents)
                     else (out, contents)) ["C"; "H"] ("", dkeys aa) in
      let '(charge, contents) :=
        if mem_str "e" contents
        then (match dget "e" aa with Some n => Z.opp n | None => 0%Z end, remove1 "e" contents)
        else (0%Z, contents) in
      let contents := sort (fun s => s) contents in
      let out := fold_left (fun out this => (out ++ element aa this)%string) contents out in
      let '(out, charge) :=
        if Z.ltb charge 0 then ((out ++ "-")%string, Z.opp charge)
        else if Z.ltb 0 charge then ((out ++ "+")%string, charge)
        else (out, charge) in
      if Z.ltb 1 charge then Err ENameError else Ok out).
  { unfold lone_electron in He.
    destruct (dkeys aa) as [|k [|k2 l]]; try reflexivity.
    - destruct (String.eqb_spec k "e") as [->|Hk]; [congruence|].
      destruct k as [|[[] [] [] [] [] [] [] []] [|]]; try reflexivity. now destruct Hk.
    - destruct k as [|[[] [] [] [] [] [] [] []] [|]]; reflexivity. }
  cbn [fold_left].
  rewrite (step_element aa "C") by (auto using mem_keys).
  rewrite remove_if by assumption.
  rewrite (step_element aa "H"); [|auto|rewrite mem_filter by reflexivity; apply mem_keys].
  rewrite remove_if by now apply filter_nodup.
  rewrite filter_filter.
  match goal with |- context [filter ?f (dkeys aa)] => set (f2 := f) end.
  assert (Hn2 : NoDup (filter f2 (dkeys aa))) by now apply filter_nodup.
  assert (E : (if mem_str "e" (filter f2 (dkeys aa))
     then (match dget "e" aa with Some n => Z.opp n | None => 0%Z end, remove1 "e" (filter f2 (dkeys aa)))
     else (0%Z, filter f2 (dkeys aa))) = (Z.opp (electrons aa), rest_keys (dkeys aa))).
  { assert (Hr : rest_keys (dkeys aa) = (if mem_str "e" (filter f2 (dkeys aa)) then remove1 "e" (filter f2 (dkeys aa)) else filter f2 (dkeys aa))).
    { rewrite remove_if by assumption. rewrite filter_filter. reflexivity. }
    rewrite Hr. rewrite mem_filter by reflexivity. rewrite mem_keys. unfold dmem, electrons.
    destruct (dget "e" aa); reflexivity. }
  rewrite E. clear E.
  rewrite fold_element.
  2:{ intros k Hk. apply (Permutation_in _ (Permutation_sym (sort_perm (fun s => s) _))) in Hk.
      unfold rest_keys in Hk. apply filter_In in Hk. tauto. }
  unfold rhs, hill_text. cbn zeta. rewrite !spell_app. cbn [append].
  rewrite <- !app_assoc_s. set (q := Z.opp (electrons aa)).
  destruct (Z.ltb_spec q 0).
  - rewrite Z.abs_neq by lia. destruct (Z.ltb 1 (- q)); reflexivity.
  - rewrite Z.abs_eq by lia. destruct (Z.ltb_spec 0 q).
    + destruct (Z.ltb 1 q); reflexivity.
    + destruct (Z.ltb_spec 1 q); [lia|]. now rewrite app_nil_s.
Qed.

(* ---- the specification is met ---- *)
Lemma pick_in aa l a n : NoDup (dkeys aa) -> (In (a, n) (pick aa l) <-> In a l /\ In (a, n) aa).
Proof.
  intro Hn. unfold pick. rewrite in_flat_map. unfold entry_of. split.
  - intros (k & Hk & H). destruct (dget k aa) as [m|] eqn:E; [|destruct H].
    destruct H as [H|[]]. injection H as -> ->. split; [assumption|]. now apply dget_some_in.
  - intros [Ha Hi]. exists a. split; [assumption|]. rewrite (dget_in_nodup a n aa Hn Hi). now left.
Qed.

Lemma leb_lt a b : String.leb a b = true -> a <> b -> String.compare a b = Lt.
Proof.
  unfold String.leb. destruct (String.compare a b) eqn:E; try discriminate; [|reflexivity].
  intros _ H. apply String.compare_eq_iff in E. contradiction.
Qed.

Lemma pick_sorted aa l : StronglySorted (le_key (fun s => s)) l -> NoDup l ->
  StronglySorted (fun x y => String.compare (fst x) (fst y) = Lt) (pick aa l).
Proof.
  induction 1 as [|k l Hs IH Hf]; intro Hn; cbn; [constructor|].
  inversion Hn as [|? ? Hni Hn']; subst. specialize (IH Hn').
  assert (Hall : Forall (fun y : string * Z => String.compare k (fst y) = Lt) (pick aa l)).
  { rewrite Forall_forall in *. intros [b m] Hb. unfold pick in Hb. apply in_flat_map in Hb.
    destruct Hb as (c & Hc & Hb). unfold entry_of in Hb. destruct (dget c aa); [|destruct Hb].
    destruct Hb as [Hb|[]]. injection Hb as <- _. cbn. apply leb_lt; [now apply Hf|]. intros ->. contradiction. }
  unfold entry_of. destruct (dget k aa) as [n|]; cbn; [|exact IH]. constructor; auto.
Qed.

Lemma rest_keys_in l a : In a (rest_keys l) <-> In a l /\ a <> "C" /\ a <> "H" /\ a <> "e".
Proof.
  unfold rest_keys. rewrite filter_In, !andb_true_iff, !negb_true_iff, !String.eqb_neq. tauto.
Qed.

Lemma others_pick aa : NoDup (dkeys aa) -> others aa (pick aa (sort (fun s => s) (rest_keys (dkeys aa)))).
Proof.
  intro Hn. set (ks := sort _ _).
  assert (Hp : Permutation (rest_keys (dkeys aa)) ks) by apply sort_perm.
  split.
  - intros a n. rewrite pick_in by assumption.
    assert (Ha : In a ks <-> In a (dkeys aa) /\ a <> "C" /\ a <> "H" /\ a <> "e").
    { rewrite <- rest_keys_in. split; apply Permutation_in; [symmetry|]; assumption. }
    rewrite Ha. split; [tauto|]. intros [Hi Hk]. split; [|assumption]. split; [|assumption].
    apply (in_map fst) in Hi. exact Hi.
  - apply pick_sorted.
    + apply sorted_strong. apply sort_sorted.
    + eapply Permutation_NoDup; [exact Hp|]. now apply filter_nodup.
Qed.

(* others are unique, so the notation is *)
Lemma lt_irrefl_s a : String.compare a a <> Lt.
Proof. rewrite string_compare_refl. discriminate. Qed.
Lemma lt_leb a b : String.compare a b = Lt -> String.leb a b = true.
Proof. unfold String.leb. now intros ->. Qed.

Lemma ssorted_map_nodup (l : list (string * Z)) :
  StronglySorted (fun x y => String.compare (fst x) (fst y) = Lt) l -> NoDup (map fst l).
Proof.
  induction 1 as [|x l Hs IH Hf]; cbn; constructor; [|assumption].
  intro H. apply in_map_iff in H. destruct H as (y & E & Hy). rewrite Forall_forall in Hf.
  specialize (Hf y Hy). rewrite E in Hf. now apply lt_irrefl_s in Hf.
Qed.

Lemma others_unique aa r1 r2 : others aa r1 -> others aa r2 -> r1 = r2.
Proof.
  intros [H1 S1] [H2 S2].
  assert (N1 := ssorted_map_nodup _ S1). assert (N2 := ssorted_map_nodup _ S2).
  apply (sorted_unique fst); [assumption| | |].
  - apply NoDup_Permutation; [eapply NoDup_map_inv; eassumption|eapply NoDup_map_inv; eassumption|].
    intros [a n]. now rewrite H1, H2.
  - clear -S1. apply StronglySorted_Sorted. induction S1 as [|x l Hs IH Hf]; constructor; [assumption|].
    rewrite Forall_forall in *. intros y Hy. apply lt_leb. now apply Hf.
  - clear -S2. apply StronglySorted_Sorted. induction S2 as [|x l Hs IH Hf]; constructor; [assumption|].
    rewrite Forall_forall in *. intros y Hy. apply lt_leb. now apply Hf.
Qed.

Lemma hill_meets aa rest : NoDup (dkeys aa) -> dkeys aa <> ["e"] -> (Z.abs (electrons aa) <= 1)%Z ->
  others aa rest ->
  hill_atoms aa = Ok (spell (entry_of "C" aa) ++ spell (entry_of "H" aa) ++ spell rest ++ sign (electrons aa)).
Proof.
  intros Hn He Hq Ho. rewrite hill_eq by assumption. cbn zeta.
  rewrite (others_unique aa rest _ Ho (others_pick aa Hn)).
  destruct (Z.ltb_spec 1 (Z.abs (- electrons aa))) as [H|_]; [rewrite Z.abs_opp in H; lia|].
  f_equal. unfold hill_text. rewrite !spell_app, !app_assoc_s. do 3 f_equal.
  unfold sign. set (q := electrons aa) in *.
  destruct (Z.eqb_spec q 1) as [->|]; [reflexivity|]. destruct (Z.eqb_spec q (-1)) as [->|]; [reflexivity|].
  assert (q = 0%Z) by lia. now subst q; rewrite H.
Qed.

Lemma hill_lone aa : dkeys aa = ["e"] -> hill_atoms aa = Ok "e-".
Proof. unfold hill_atoms. now intros ->. Qed.

Lemma hill_fails aa : NoDup (dkeys aa) -> dkeys aa <> ["e"] -> (1 < Z.abs (electrons aa))%Z ->
  hill_atoms aa = Err ENameError.
Proof.
  intros Hn He Hq. rewrite hill_eq by assumption. cbn zeta. rewrite Z.abs_opp.
  destruct (Z.ltb_spec 1 (Z.abs (electrons aa))); [reflexivity|lia].
Qed.

Lemma dget_perm k (a b : list (string * Z)) : NoDup (dkeys a) -> Permutation a b -> dget k a = dget k b.
Proof.
  intros Hn Hp.
  assert (Hnb : NoDup (dkeys b)) by (eapply Permutation_NoDup; [apply Permutation_map; exact Hp|exact Hn]).
  destruct (dget k a) as [v|] eqn:E.
  - symmetry. apply dget_in_nodup; [assumption|]. eapply Permutation_in; [exact Hp|]. now apply dget_some_in.
  - symmetry. apply dget_none_iff. apply dget_none_iff in E. intro H. apply E.
    eapply Permutation_in; [apply Permutation_map; symmetry; exact Hp|exact H].
Qed.

Lemma hill_order a b : NoDup (dkeys a) -> Permutation a b -> hill_atoms a = hill_atoms b.
Proof.
  intros Hn Hp.
  assert (Hnb : NoDup (dkeys b)) by (eapply Permutation_NoDup; [apply Permutation_map; exact Hp|exact Hn]).
  assert (Hkp : Permutation (dkeys a) (dkeys b)) by (apply Permutation_map; exact Hp).
  destruct (list_eq_dec string_dec (dkeys a) ["e"]) as [E|E].
  - rewrite hill_lone by assumption. rewrite E in Hkp.
    apply Permutation_length_1_inv in Hkp. now rewrite hill_lone.
  - assert (E' : dkeys b <> ["e"]).
    { intro H. rewrite H in Hkp. symmetry in Hkp. apply Permutation_length_1_inv in Hkp. contradiction. }
    rewrite !hill_eq by assumption.
    assert (Hq : electrons a = electrons b) by (unfold electrons; now rewrite (dget_perm "e" a b)).
    rewrite <- Hq. cbn zeta. unfold hill_text, entry_of.
    rewrite <- !(dget_perm _ a b Hn Hp).
    assert (Ho : others a (pick b (sort (fun s => s) (rest_keys (dkeys b))))).
    { destruct (others_pick b Hnb) as [H1 H2]. split; [|assumption]. intros x n. rewrite H1.
      split; intros [Hi Hk]; (split; [|assumption]); eapply Permutation_in; try eassumption. now symmetry. }
    now rewrite (others_unique a _ _ (others_pick a Hn) Ho).
Qed.

(* ---- the notation determines the composition ---- *)
Lemma all_chars_app P a b : all_chars P (a ++ b) <-> all_chars P a /\ all_chars P b.
Proof. induction a as [|c a IH]; cbn; [tauto|]. rewrite IH. tauto. Qed.

Definition head_not (P : ascii -> Prop) (s : string) : Prop :=
  match s with "" => True | String c _ => ~ P c end.

Lemma run_split P a1 a2 s1 s2 : all_chars P a1 -> all_chars P a2 -> head_not P s1 -> head_not P s2 ->
  a1 ++ s1 = a2 ++ s2 -> a1 = a2 /\ s1 = s2.
Proof.
  revert a2. induction a1 as [|c a1 IH]; intros [|d a2] H1 H2 Hs1 Hs2 E; cbn in *.
  - auto.
  - subst s1. cbn in Hs1. tauto.
  - subst s2. cbn in Hs2. tauto.
  - injection E as -> E. destruct (IH a2) as [-> ->]; tauto.
Qed.

Definition digit (c : ascii) : Prop := (48 <= nat_of_ascii c <= 57)%nat.
Lemma uint_digits d : all_chars digit (NilEmpty.string_of_uint d).
Proof. induction d; cbn; try exact I; (split; [unfold digit; cbn; lia|assumption]). Qed.

Lemma decimal_pos n : (0 < n)%Z -> exists u, Z.to_int n = Pos u /\ u <> Nil.
Proof.
  intro H. destruct n as [|p|p]; try lia. cbn. exists (Pos.to_uint p). split; [reflexivity|].
  apply DecimalPos.Unsigned.to_uint_nonnil.
Qed.

Lemma decimal_nonempty n : (0 < n)%Z -> decimal n <> "" /\ all_chars digit (decimal n).
Proof.
  intro H. unfold decimal. destruct (decimal_pos n H) as (u & -> & Hu). cbn.
  split; [|apply uint_digits]. destruct u; cbn; congruence.
Qed.

Lemma decimal_inj n m : (0 < n)%Z -> (0 < m)%Z -> decimal n = decimal m -> n = m.
Proof.
  intros Hn Hm. unfold decimal. destruct (decimal_pos n Hn) as (u & Eu & _). destruct (decimal_pos m Hm) as (v & Ev & _).
  rewrite Eu, Ev. cbn. intro H. assert (Hu : Some u = Some v).
  { rewrite <- (NilEmpty.usu u), <- (NilEmpty.usu v). now rewrite H. }
  injection Hu as ->. rewrite <- Ev in Eu. rewrite <- (of_to n), <- (of_to m). now rewrite Eu.
Qed.

Lemma quantity_inj n m : (0 < n)%Z -> (0 < m)%Z -> quantity n = quantity m -> n = m.
Proof.
  intros Hn Hm. unfold quantity. destruct (decimal_nonempty n Hn) as [N _]. destruct (decimal_nonempty m Hm) as [M _].
  destruct (Z.eqb_spec n 1), (Z.eqb_spec m 1); intro H; try congruence. now apply decimal_inj.
Qed.
Lemma quantity_digits n : (0 < n)%Z -> all_chars digit (quantity n).
Proof. intro H. unfold quantity. destruct (Z.eqb n 1); [exact I|]. now apply decimal_nonempty. Qed.

Definition good (l : list (string * Z)) : Prop := forall a n, In (a, n) l -> symbol a /\ (0 < n)%Z.
(* what may follow an element: nothing, another element or a sign *)
Definition boundary (s : string) : Prop := head_not lower_letter s /\ head_not digit s.

Lemma head_app P a b : head_not P b -> (match a with "" => True | String c _ => ~ P c end) -> head_not P (a ++ b).
Proof. destruct a; cbn; auto. Qed.

Lemma digits_not_lower d s : all_chars digit d -> head_not lower_letter s -> head_not lower_letter (d ++ s).
Proof.
  intros H Hs. destruct d as [|c d]; [exact Hs|]. cbn in *. destruct H as [H _]. unfold digit, lower_letter in *. lia.
Qed.

Lemma spell_boundary l e : good l -> (e = "" \/ e = "-" \/ e = "+") -> boundary (spell l ++ e).
Proof.
  intros Hg He. destruct l as [|[a n] l]; cbn.
  - destruct He as [->|[->| ->]]; split; cbn; try exact I; unfold lower_letter, digit; cbn; lia.
  - destruct (Hg a n (or_introl eq_refl)) as [Ha _]. destruct a as [|c a]; [destruct Ha|].
    destruct Ha as [Ha _]. split; cbn; unfold lower_letter, digit, upper_letter in *; lia.
Qed.

Lemma spell_inj l1 : forall l2 e1 e2, good l1 -> good l2 ->
  (e1 = "" \/ e1 = "-" \/ e1 = "+") -> (e2 = "" \/ e2 = "-" \/ e2 = "+") ->
  spell l1 ++ e1 = spell l2 ++ e2 -> l1 = l2 /\ e1 = e2.
Proof.
  induction l1 as [|[a n] l1 IH]; intros l2 e1 e2 G1 G2 E1 E2 H.
  - destruct l2 as [|[b m] l2]; [auto|]. exfalso.
    destruct (G2 b m (or_introl eq_refl)) as [Hb _]. destruct b as [|c b]; [destruct Hb|].
    destruct Hb as [Hb _]. cbn in H. unfold upper_letter in Hb.
    destruct E1 as [->|[->| ->]]; [discriminate| |]; injection H as <- _; cbn in Hb; lia.
  - destruct l2 as [|[b m] l2].
    + exfalso. destruct (G1 a n (or_introl eq_refl)) as [Hb _]. destruct a as [|c a]; [destruct Hb|].
      destruct Hb as [Hb _]. cbn in H. unfold upper_letter in Hb.
      destruct E2 as [->|[->| ->]]; [discriminate| |]; injection H as -> _; cbn in Hb; lia.
    + destruct (G1 a n (or_introl eq_refl)) as [Ha Hn]. destruct (G2 b m (or_introl eq_refl)) as [Hb Hm].
      destruct a as [|c a]; [destruct Ha|]. destruct b as [|d b]; [destruct Hb|].
      destruct Ha as [_ Ha], Hb as [_ Hb].
      cbn in H. injection H as -> H. rewrite !app_assoc_s in H.
      assert (G1' : good l1) by (intros x k Hx; apply G1; now right).
      assert (G2' : good l2) by (intros x k Hx; apply G2; now right).
      destruct (spell_boundary l1 e1 G1' E1) as [B1 B1'].
      destruct (spell_boundary l2 e2 G2' E2) as [B2 B2'].
      apply (run_split lower_letter) in H; try assumption;
        try (apply digits_not_lower; [now apply quantity_digits|assumption]).
      destruct H as [-> H].
      apply (run_split digit) in H; try assumption; try now apply quantity_digits.
      destruct H as [Hq H]. apply quantity_inj in Hq; try assumption. subst m.
      destruct (IH l2 e1 e2 G1' G2' E1 E2 H) as [-> ->]. auto.
Qed.

Lemma entry_of_in aa k a n : NoDup (dkeys aa) -> (In (a, n) (entry_of k aa) <-> a = k /\ In (a, n) aa).
Proof.
  intro Hn. unfold entry_of. destruct (dget k aa) as [m|] eqn:E; cbn.
  - split.
    + intros [H|[]]. injection H as -> ->. split; [reflexivity|]. now apply dget_some_in.
    + intros [-> H]. apply (dget_in_nodup k n aa Hn) in H. left. congruence.
  - split; [intros []|]. intros [-> H]. apply dget_none_iff in E. apply E. apply (in_map fst) in H. exact H.
Qed.

Lemma sign_cases e : sign e = "" \/ sign e = "-" \/ sign e = "+".
Proof. unfold sign. destruct (Z.eqb e 1); auto. destruct (Z.eqb e (-1)); auto. Qed.

Lemma hill_injective a b : formula a -> formula b -> hill_atoms a = hill_atoms b -> Permutation a b.
Proof.
  intros (Na & Ga & Ea & Xa) (Nb & Gb & Eb & Xb) H.
  assert (He : forall aa : list (string * Z), NoDup (dkeys aa) -> (forall n, In ("e", n) aa -> n = 1%Z \/ n = (-1)%Z) -> (Z.abs (electrons aa) <= 1)%Z).
  { intros aa Hn E. unfold electrons. destruct (dget "e" aa) as [n|] eqn:G; [|cbn; lia].
    apply dget_some_in in G. apply E in G. destruct G as [->| ->]; cbn; lia. }
  assert (Hk : forall aa : list (string * Z), (exists x n, In (x, n) aa /\ x <> "e") -> dkeys aa <> ["e"]).
  { intros aa (x & n & Hi & Hx) E. apply (in_map fst) in Hi. unfold dkeys in E. rewrite E in Hi. destruct Hi as [Hi|[]]. cbn in Hi. congruence. }
  rewrite (hill_meets a _ Na (Hk a Xa) (He a Na Ea) (others_pick a Na)) in H.
  rewrite (hill_meets b _ Nb (Hk b Xb) (He b Nb Eb) (others_pick b Nb)) in H.
  injection H as H. rewrite <- !app_assoc_s, <- !spell_app in H.
  assert (HL : forall aa : list (string * Z), NoDup (dkeys aa) -> forall x n,
     In (x, n) ((entry_of "C" aa ++ entry_of "H" aa) ++ pick aa (sort (fun s => s) (rest_keys (dkeys aa))))%list <-> In (x, n) aa /\ x <> "e").
  { intros aa Hn x n. rewrite !in_app_iff, !entry_of_in by assumption. destruct (others_pick aa Hn) as [Ho _]. rewrite Ho.
    split.
    - intros [[[-> Hi]|[-> Hi]]|[Hi (_ & _ & Hx)]]; (split; [assumption|]); try discriminate; assumption.
    - intros [Hi Hx]. destruct (string_dec x "C") as [->|]; [tauto|]. destruct (string_dec x "H") as [->|]; tauto. }
  assert (HG : forall aa : list (string * Z), NoDup (dkeys aa) -> (forall x n, In (x, n) aa -> x <> "e" -> symbol x /\ (0 < n)%Z) ->
     good ((entry_of "C" aa ++ entry_of "H" aa) ++ pick aa (sort (fun s => s) (rest_keys (dkeys aa))))%list).
  { intros aa Hn G x n Hi. apply HL in Hi; [|assumption]. destruct Hi. now apply G. }
  apply spell_inj in H; try apply sign_cases; try (apply HG; assumption).
  destruct H as [HT HS].
  apply NoDup_Permutation; [eapply NoDup_map_inv; exact Na|eapply NoDup_map_inv; exact Nb|].
  assert (Helec : electrons a = electrons b).
  { pose proof (He a Na Ea). pose proof (He b Nb Eb). unfold sign in HS.
    destruct (Z.eqb_spec (electrons a) 1); destruct (Z.eqb_spec (electrons b) 1); try congruence;
    destruct (Z.eqb_spec (electrons a) (-1)); destruct (Z.eqb_spec (electrons b) (-1)); try discriminate; try congruence; lia. }
  intros [x n]. destruct (string_dec x "e") as [->|Hx].
  - assert (HE : forall aa bb : list (string * Z), NoDup (dkeys aa) -> NoDup (dkeys bb) ->
       (forall n, In ("e", n) aa -> n = 1%Z \/ n = (-1)%Z) ->
       electrons aa = electrons bb -> In ("e", n) aa -> In ("e", n) bb).
    { intros aa bb HNa HNb E EE Hi. pose proof (E n Hi) as Hn. unfold electrons in EE.
      rewrite (dget_in_nodup "e" n aa HNa Hi) in EE. destruct (dget "e" bb) as [m|] eqn:Em.
      - apply dget_some_in in Em. congruence.
      - lia. }
    split; apply HE; auto.
  - pose proof (HL a Na x n) as A. pose proof (HL b Nb x n) as B. rewrite HT in A. tauto.
Qed.

(* without atoms: the part of the id between the first period and the first underscore *)
Lemma split_char_nonempty c s : split_char c s <> [].
Proof. induction s as [|d s IH]; cbn; [discriminate|]. destruct (split_char c s); [congruence|]. now destruct (Ascii.eqb c d). Qed.
Lemma split_char_none c s : no_char c s -> split_char c s = [s].
Proof.
  induction s as [|d s IH]; cbn; [reflexivity|]. intros [H Hs]. rewrite (IH Hs).
  destruct (Ascii.eqb_spec c d); [contradiction|reflexivity].
Qed.
Lemma split_char_first c a s : no_char c a -> split_char c (a ++ String c s) = a :: split_char c s.
Proof.
  induction a as [|d a IH]; cbn.
  - intros _. rewrite Ascii.eqb_refl. pose proof (split_char_nonempty c s). now destruct (split_char c s).
  - intros [H Ha]. rewrite (IH Ha). destruct (Ascii.eqb_spec c d); [contradiction|reflexivity].
Qed.
Lemma hill_by_id coll name tl :
  no_char "." coll -> no_char "." name -> no_char "_" name -> no_char "." tl ->
  hill None (coll ++ "." ++ name ++ "_" ++ tl) = Ok name /\ hill None (coll ++ "." ++ name) = Ok name.
Proof.
  intros Hc Hn Hu Ht. unfold hill.
  assert (Hd : forall a b, no_char "." a -> no_char "." b -> no_char "." (a ++ b)).
  { induction a as [|x a IH]; cbn; [auto|]. intros b [H1 H2] Hb. split; [assumption|]. now apply IH. }
  split.
  - change (coll ++ "." ++ name ++ "_" ++ tl) with (coll ++ String "." (name ++ "_" ++ tl)).
    rewrite split_char_first by assumption. rewrite (split_char_none "." (name ++ "_" ++ tl)).
    + change (name ++ "_" ++ tl) with (name ++ String "_" tl). rewrite split_char_first by assumption. reflexivity.
    + apply Hd; [assumption|]. cbn. split; [discriminate|assumption].
  - change (coll ++ "." ++ name) with (coll ++ String "." name).
    rewrite split_char_first by assumption. rewrite split_char_none by assumption.
    rewrite split_char_none by assumption. reflexivity.
Qed.
Lemma hill_no_period id : no_char "." id -> hill None id = Err EIndexError.
Proof. intro H. unfold hill. now rewrite split_char_none. Qed.
Lemma others_exist aa : NoDup (dkeys aa) -> exists rest, others aa rest /\ forall r2, others aa r2 -> r2 = rest.
Proof.
  intro H. eexists. split; [apply others_pick; exact H|]. intros r2 H2. eapply others_unique; [exact H2|]. now apply others_pick.
Qed.

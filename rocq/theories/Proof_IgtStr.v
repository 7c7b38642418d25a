(* Mixture strings are read back as they were written. *)
From Coq Require Import Reals ZArith List String Ascii Bool Lia Lra Arith.
From Verif Require Import Base Model_Num Model_Igtools Spec_Igtools Proof_Igtools Proof_IgtMore.
Import ListNotations.
Local Open Scope R_scope.
Local Open Scope string_scope.
Local Open Scope list_scope.

Lemma split_plus_one w : ~ In "+"%char w -> split_plus w = [w].
Proof.
  induction w as [|c w IH]; intro H; [reflexivity|]. cbn [split_plus].
  destruct (Ascii.eqb_spec c "+"%char) as [->|]; [exfalso; apply H; now left|].
  rewrite IH; [reflexivity|]. intro; apply H; now right.
Qed.
Lemma split_plus_cons w r : ~ In "+"%char w -> split_plus (w ++ "+"%char :: r) = w :: split_plus r.
Proof.
  induction w as [|c w IH]; intro H; [reflexivity|]. cbn [app split_plus].
  destruct (Ascii.eqb_spec c "+"%char) as [->|]; [exfalso; apply H; now left|].
  rewrite IH; [reflexivity|]. intro; apply H; now right.
Qed.
Lemma split_join ws : ws <> [] -> (forall w, In w ws -> ~ In "+"%char w) -> split_plus (join_plus ws) = ws.
Proof.
  induction ws as [|w ws IH]; intros Hn H; [congruence|]. destruct ws as [|w' ws].
  - cbn [join_plus]. apply split_plus_one. apply H. now left.
  - change (join_plus (w :: w' :: ws)) with (w ++ "+"%char :: join_plus (w' :: ws)).
    rewrite split_plus_cons by (apply H; now left). f_equal. apply IH; [discriminate|].
    intros x Hx. apply H. now right.
Qed.

Lemma first_alpha_app p : forall n k, (forall c, In c p -> is_alpha c = false) ->
  is_alpha (hd " "%char n) = true -> first_alpha (p ++ n) k = Some (k + List.length p)%nat.
Proof.
  induction p as [|c p IH]; intros n k Hp Hn; cbn [app first_alpha List.length].
  - destruct n as [|c n]; [discriminate Hn|]. cbn in Hn |- *. rewrite Hn. f_equal. lia.
  - rewrite (Hp c (or_introl eq_refl)), IH; [f_equal; lia| |exact Hn]. intros x Hx; apply Hp; now right.
Qed.
Lemma lstrip_app l w : (forall c, In c l -> is_space c = true) -> lstrip (l ++ w) = lstrip w.
Proof.
  induction l as [|c l IH]; intro H; [reflexivity|]. cbn [app lstrip]. rewrite (H c (or_introl eq_refl)).
  apply IH. intros x Hx; apply H; now right.
Qed.
Lemma lstrip_id w : w <> [] -> is_space (hd " "%char w) = false -> lstrip w = w.
Proof. destruct w as [|c w]; [congruence|]. cbn. intros _ ->. reflexivity. Qed.
Lemma blank_space l : blank l -> forall c, In c l -> is_space c = true.
Proof. intros H c Hc. rewrite (H c Hc). reflexivity. Qed.
Lemma lstrip_blank l : blank l -> lstrip l = [].
Proof. intro H. rewrite <- (app_nil_r l), lstrip_app by now apply blank_space. reflexivity. Qed.
Lemma blank_rev l : blank l -> blank (rev l).
Proof. intros H c Hc. apply H. now apply in_rev. Qed.
Lemma hd_rev (w : list ascii) : hd " "%char (rev w) = last w " "%char.
Proof.
  destruct (list_eq_dec ascii_dec w []) as [->|Hn]; [reflexivity|].
  destruct (exists_last Hn) as (w' & c & ->). rewrite rev_app_distr, last_last. reflexivity.
Qed.
Lemma strip_core l w r : blank l -> blank r -> w <> [] ->
  is_space (hd " "%char w) = false -> is_space (last w " "%char) = false -> strip (l ++ w ++ r) = w.
Proof.
  intros Hl Hr Hw Hh He. unfold strip. rewrite lstrip_app by now apply blank_space.
  assert (E1 : lstrip (w ++ r) = w ++ r).
  { apply lstrip_id; [destruct w; [congruence|discriminate]|]. destruct w; [congruence|exact Hh]. }
  rewrite E1, rev_app_distr, lstrip_app by (apply blank_space; now apply blank_rev).
  rewrite lstrip_id; [apply rev_involutive| |now rewrite hd_rev].
  intro E. apply Hw. rewrite <- (rev_involutive w), E. reflexivity.
Qed.
Lemma strip_blank l : blank l -> strip l = [].
Proof. intro H. unfold strip. rewrite (lstrip_blank l H). reflexivity. Qed.

(* numbers *)
Lemma digits_app n : forall r acc, all_digits n -> (forall c r', r = c :: r' -> is_digit c = false) ->
  digits (n ++ r) acc = (acc * 10 ^ (List.length n) + digits_value n, r, List.length n).
Proof.
  induction n as [|c n IH]; intros r acc Hn Hr; cbn [app digits List.length digits_value].
  - replace (acc * 10 ^ 0 + 0) with acc by (cbn; ring).
    destruct r as [|c r]; [reflexivity|]. cbn [digits]. now rewrite (Hr c r eq_refl).
  - rewrite (Hn c (or_introl eq_refl)), IH; [|intros x Hx; apply Hn; now right|exact Hr].
    replace (acc * 10 ^ S (List.length n) + (INR (nat_of_ascii c - 48) * 10 ^ List.length n + digits_value n))
      with ((10 * acc + digit_value c) * 10 ^ List.length n + digits_value n) by (unfold digit_value; cbn [pow]; ring).
    reflexivity.
Qed.
Lemma unsigned_dec w v : decimal w v -> hd " "%char w <> "-"%char -> unsigned w = Some v.
Proof.
  intros H Hm. destruct H as [n Hn Hd|n f Hn Hd Hf|w v H H'].
  - unfold unsigned. rewrite <- (app_nil_r n) at 1. rewrite digits_app; [|exact Hd|discriminate].
    destruct n as [|c n]; [congruence|]. cbn [List.length Nat.eqb]. f_equal. lra.
  - unfold unsigned. rewrite digits_app; [|exact Hd|intros c r' E; injection E as <- <-; reflexivity].
    cbn [Ascii.eqb Bool.eqb]. rewrite <- (app_nil_r f) at 1. rewrite digits_app; [|exact Hf|discriminate].
    assert (E : Nat.eqb (List.length n + List.length f) 0 = false).
    { apply Nat.eqb_neq. intro E. apply Hn. destruct n, f; cbn in E; try lia. reflexivity. }
    rewrite E. f_equal. field. apply pow_nonzero. lra.
  - now cbn in Hm.
Qed.
Lemma parse_dec w v : decimal w v -> parse_float w = Some v.
Proof.
  intro H. destruct w as [|c w].
  - inversion H; subst; try congruence; destruct n; discriminate.
  - destruct (ascii_dec c "-"%char) as [->|Hc].
    + inversion H as [n Hn Hd|n f Hn Hd Hf E|w' v' H1 H2]; subst.
      * exfalso. specialize (Hd _ (or_introl eq_refl)). discriminate Hd.
      * destruct n as [|c n]; cbn in E; [discriminate E|]. injection E as -> _.
        specialize (Hd _ (or_introl eq_refl)). discriminate Hd.
      * cbn [parse_float Ascii.eqb Bool.eqb]. now rewrite (unsigned_dec w v').
    + assert (Hp : c <> "+"%char).
      { intros ->. inversion H as [n Hn Hd|n f Hn Hd Hf E|w' v' H1 H2]; subst.
        - specialize (Hd _ (or_introl eq_refl)). discriminate Hd.
        - destruct n as [|c n]; cbn in E; [discriminate E|]. injection E as -> _.
          specialize (Hd _ (or_introl eq_refl)). discriminate Hd. }
      cbn [parse_float]. destruct (Ascii.eqb_spec c "-"%char); [contradiction|].
      destruct (Ascii.eqb_spec c "+"%char); [contradiction|]. now apply unsigned_dec.
Qed.
Lemma digit_kind c : is_digit c = true -> is_alpha c = false /\ is_space c = false /\ c <> "+"%char.
Proof.
  unfold is_digit, is_alpha, is_space. intro H. apply andb_prop in H. destruct H as [H1 H2].
  apply Nat.leb_le in H1, H2. repeat split.
  - destruct (Nat.leb_spec 65 (nat_of_ascii c)); [lia|]. destruct (Nat.leb_spec 97 (nat_of_ascii c)); [lia|reflexivity].
  - destruct (Nat.eqb_spec (nat_of_ascii c) 32); [lia|]. destruct (Nat.leb_spec (nat_of_ascii c) 13); [lia|].
    now rewrite andb_false_r.
  - intros ->. cbn in H1. lia.
Qed.
Lemma dec_chars w v : decimal w v -> forall c, In c w ->
  is_alpha c = false /\ is_space c = false /\ c <> "+"%char.
Proof.
  induction 1 as [n Hn Hd|n f Hn Hd Hf|w v H IH H']; intros c Hc.
  - now apply digit_kind, Hd.
  - apply in_app_or in Hc. destruct Hc as [Hc|[<-|Hc]].
    + now apply digit_kind, Hd.
    + repeat split; try reflexivity. discriminate.
    + now apply digit_kind, Hf.
  - destruct Hc as [<-|Hc]; [repeat split; try reflexivity; discriminate|now apply IH].
Qed.
Lemma dec_nonempty w v : decimal w v -> w <> [].
Proof. intros [n Hn Hd|n f Hn Hd Hf|w' v' H H'] E; try congruence; destruct n; discriminate. Qed.
Lemma last_in (w : list ascii) : w <> [] -> In (last w " "%char) w.
Proof. intro H. destruct (exists_last H) as (w' & c & ->). rewrite last_last. apply in_or_app. right; now left. Qed.

Section Item.
  Context (t : item) (v : R) (Hg : good_item t) (Hv : item_value t v).

  Lemma coef_chars c : In c (it_coef t) -> is_alpha c = false /\ is_space c = false /\ c <> "+"%char.
  Proof. intro H. destruct Hv as [E|w D]; [rewrite E in H; contradiction|]. now apply (dec_chars _ _ D). Qed.
  Lemma item_no_plus : ~ In "+"%char (item_text t).
  Proof.
    destruct Hg as ((_ & N & _) & B1 & B2 & B3). unfold item_text. rewrite !in_app_iff.
    intros [H|[H|[H|[H|H]]]].
    - specialize (B1 _ H). discriminate.
    - apply coef_chars in H. tauto.
    - specialize (B2 _ H). discriminate.
    - contradiction.
    - specialize (B3 _ H). discriminate.
  Qed.
  Lemma alpha_not_space c : is_alpha c = true -> is_space c = false.
  Proof.
    unfold is_alpha, is_space. intro H. apply orb_prop in H.
    assert (65 <= nat_of_ascii c)%nat.
    { destruct H as [H|H]; apply andb_prop in H; destruct H as [H _]; apply Nat.leb_le in H; lia. }
    destruct (Nat.eqb_spec (nat_of_ascii c) 32); [lia|]. destruct (Nat.leb_spec (nat_of_ascii c) 13); [lia|].
    now rewrite andb_false_r.
  Qed.
  Lemma item_step rest before acc :
    mixstr_loop (item_text t :: rest) before acc =
    mixstr_loop rest (Some (List.length (it_l t ++ it_coef t ++ it_m t)))
      (dset (string_of_list_ascii (it_name t)) v acc).
  Proof.
    destruct Hg as ((A & N & L) & B1 & B2 & B3).
    set (pre := it_l t ++ it_coef t ++ it_m t).
    assert (E : item_text t = pre ++ it_name t ++ it_r t) by (unfold item_text, pre; now rewrite <- !app_assoc).
    assert (Nn : it_name t <> []) by (intro Z; rewrite Z in A; discriminate A).
    assert (Hs : scan (item_text t) before = Some (List.length pre)).
    { unfold scan. rewrite E, first_alpha_app.
      - destruct (pre ++ it_name t ++ it_r t) eqn:Z; [|reflexivity].
        apply app_eq_nil in Z. destruct Z as [_ Z]. apply app_eq_nil in Z. tauto.
      - unfold pre. intros c. rewrite !in_app_iff. intros [H|[H|H]].
        + now rewrite (B1 _ H).
        + now apply coef_chars in H.
        + now rewrite (B2 _ H).
      - destruct (it_name t); [congruence|exact A]. }
    cbn [mixstr_loop]. rewrite Hs, E.
    rewrite firstn_app, firstn_all, Nat.sub_diag. cbn [firstn]. rewrite app_nil_r.
    rewrite skipn_app, skipn_all, Nat.sub_diag. cbn [skipn app].
    assert (S2 : strip (it_name t ++ it_r t) = it_name t).
    { apply (strip_core [] (it_name t) (it_r t)); auto; [intros c []|now apply alpha_not_space]. }
    rewrite S2. destruct Hv as [C|w D].
    - assert (P : strip pre = []).
      { apply strip_blank. unfold pre. rewrite C. cbn [app]. intros c Hc. apply in_app_or in Hc. destruct Hc; auto. }
      rewrite P. reflexivity.
    - assert (C : strip pre = it_coef t).
      { pose proof (dec_nonempty _ _ D) as Dn. apply strip_core; auto.
        - destruct (it_coef t) as [|c r] eqn:Z; [congruence|]. apply (dec_chars _ _ D). now left.
        - apply (dec_chars _ _ D). now apply last_in. }
      rewrite C, (parse_dec _ _ D). destruct (it_coef t) eqn:Z; [|reflexivity].
      exfalso. apply (dec_nonempty _ _ D). reflexivity.
  Qed.
End Item.

Lemma ascii_of_string l : list_ascii_of_string (string_of_list_ascii l) = l.
Proof. apply list_ascii_of_string_of_list_ascii. Qed.

Lemma loop_items l : forall vs before acc, Forall2 (fun t v => good_item t /\ item_value t v) l vs ->
  NoDup (map fst acc ++ map (fun t => string_of_list_ascii (it_name t)) l) ->
  mixstr_loop (map item_text l) before acc =
    Ok (acc ++ combine (map (fun t => string_of_list_ascii (it_name t)) l) vs).
Proof.
  induction l as [|t l IH]; intros vs before acc H Hnd; inversion H as [|? v ? vs' [Hg Hv] Hl]; subst; cbn [map combine].
  - cbn. now rewrite app_nil_r.
  - rewrite (item_step t v Hg Hv).
    assert (F : ~ In (string_of_list_ascii (it_name t)) (map fst acc)).
    { cbn in Hnd. intro Hin. apply NoDup_remove_2 in Hnd. apply Hnd. apply in_or_app; now left. }
    rewrite (dset_fresh _ _ _ F). rewrite (IH vs'); [now rewrite <- app_assoc|exact Hl|].
    rewrite map_app. cbn [map fst]. rewrite <- app_assoc. exact Hnd.
Qed.

Lemma mixstr_round_trip l vs : l <> [] -> Forall2 (fun t v => good_item t /\ item_value t v) l vs ->
  NoDup (map it_name l) ->
  parse_mixstr (string_of_list_ascii (join_plus (map item_text l))) =
    Ok (combine (map (fun t => string_of_list_ascii (it_name t)) l) vs).
Proof.
  intros Hn H Hnd. unfold parse_mixstr. rewrite ascii_of_string, split_join.
  - rewrite (loop_items l vs); [reflexivity|exact H|]. cbn [map app].
    rewrite <- map_map. clear -Hnd. induction (map it_name l) as [|x r IH]; [constructor|].
    inversion Hnd; subst. cbn. constructor; [|now apply IH]. intro Hin. apply in_map_iff in Hin.
    destruct Hin as (y & E & Hy). apply (f_equal list_ascii_of_string) in E. rewrite !ascii_of_string in E. now subst.
  - destruct l; [congruence|discriminate].
  - intros w Hw. apply in_map_iff in Hw. destruct Hw as (t & <- & Ht).
    clear -H Ht. induction H as [|x v l vs [G V] F IH]; [contradiction|].
    destruct Ht as [->|Ht]; [now apply (item_no_plus t v)|now apply IH].
Qed.

(* strings with no reading as a number in front of a name are rejected *)
Lemma bad_coefficient t w : good_name (it_name t) -> blank (it_l t) -> blank (it_m t) -> blank (it_r t) ->
  it_coef t = w -> w <> [] -> (forall c, In c w -> is_alpha c = false /\ is_space c = false /\ c <> "+"%char) ->
  parse_float w = None -> parse_mixstr (string_of_list_ascii (item_text t)) = Err PMParamError.
Proof.
  intros (A & N & L) B1 B2 B3 Ew Hw Hc Hp. unfold parse_mixstr. rewrite ascii_of_string, split_plus_one.
  - set (pre := it_l t ++ it_coef t ++ it_m t).
    assert (E : item_text t = pre ++ it_name t ++ it_r t) by (unfold item_text, pre; now rewrite <- !app_assoc).
    assert (Nn : it_name t <> []) by (intro Z; rewrite Z in A; discriminate A).
    cbn [mixstr_loop].
    assert (Hs : scan (item_text t) None = Some (List.length pre)).
    { unfold scan. rewrite E, first_alpha_app.
      - destruct (pre ++ it_name t ++ it_r t) eqn:Z; [|reflexivity].
        apply app_eq_nil in Z. destruct Z as [_ Z]. apply app_eq_nil in Z. tauto.
      - unfold pre. intros c. rewrite !in_app_iff, Ew. intros [H|[H|H]].
        + now rewrite (B1 _ H).
        + now apply Hc in H.
        + now rewrite (B2 _ H).
      - destruct (it_name t); [congruence|exact A]. }
    rewrite Hs, E. rewrite firstn_app, firstn_all, Nat.sub_diag. cbn [firstn]. rewrite app_nil_r.
    assert (C : strip pre = w).
    { unfold pre. rewrite Ew. apply strip_core; auto.
      - destruct w as [|c r] eqn:Z; [congruence|]. apply Hc. now left.
      - apply Hc. now apply last_in. }
    rewrite C, Hp. destruct w; [congruence|reflexivity].
  - unfold item_text. rewrite !in_app_iff, Ew. intros [H|[H|[H|[H|H]]]].
    + specialize (B1 _ H). discriminate.
    + apply Hc in H. tauto.
    + specialize (B2 _ H). discriminate.
    + contradiction.
    + specialize (B3 _ H). discriminate.
Qed.

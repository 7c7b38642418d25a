From Coq Require Import Ascii Lia PeanoNat.
From Verif Require Import Base Text Model_Files Spec_Dat Spec_Catalog.
Local Open Scope list_scope.
Local Open Scope string_scope.

(* ---- suppress / revive ---- *)
Lemma tilde_neq (s : string) : s ++ "~" <> s.
Proof. intro H. apply (f_equal String.length) in H. rewrite app_length_s in H. cbn in H. lia. Qed.

Lemma chop_tilde s : chop (s ++ "~") = s.
Proof.
  unfold chop. rewrite app_length_s. cbn [String.length].
  replace (String.length s + 1 - 1)%nat with (String.length s) by lia. apply substring_take.
Qed.

Lemma data_name_guard path : data_name path <->
  (Nat.leb (String.length path) 4 || negb (ends_with ".hpd" path) = false)%bool.
Proof.
  rewrite orb_false_iff, negb_false_iff, Nat.leb_gt, ends_with_iff. unfold data_name. split.
  - intros (a & Ha & ->). split; [|eauto]. rewrite app_length_s. destruct a; [congruence|]. cbn. lia.
  - intros [Hl [a ->]]. exists a. split; [|reflexivity]. intros ->. cbn in Hl. lia.
Qed.
Lemma suppressed_name_guard path : suppressed_name path <->
  (Nat.leb (String.length path) 5 || negb (ends_with ".hpd~" path) = false)%bool.
Proof.
  rewrite orb_false_iff, negb_false_iff, Nat.leb_gt, ends_with_iff. unfold suppressed_name. split.
  - intros (a & Ha & ->). split; [|eauto]. rewrite app_length_s. destruct a; [congruence|]. cbn. lia.
  - intros [Hl [a ->]]. exists a. split; [|reflexivity]. intros ->. cbn in Hl. lia.
Qed.
Lemma suppressed_of_data path : data_name path -> suppressed_name (path ++ "~").
Proof. intros (a & Ha & ->). exists a. split; [assumption|]. now rewrite app_assoc_s. Qed.
Lemma data_of_suppressed path : suppressed_name path -> exists p, path = p ++ "~" /\ data_name p.
Proof.
  intros (a & Ha & ->). exists (a ++ ".hpd"). split; [now rewrite app_assoc_s|]. now exists a.
Qed.
Lemma suppressed_not_data path : ~ data_name (path ++ "~").
Proof.
  intros H. apply data_name_guard in H. rewrite orb_false_iff, negb_false_iff, ends_hpd_tilde in H. now destruct H.
Qed.

Section FS.
Context {T : Type}.
Implicit Types fs : fsys T.

Lemma suppress_ok ok path fs c : data_name path -> ok path (path ++ "~") = true ->
  fs path = Some (EFile c) -> fs (path ++ "~") <> Some EDir ->
  exists fs', suppress_file ok path fs = (fs', None) /\
    fs' path = None /\ fs' (path ++ "~") = Some (EFile c) /\
    forall p, p <> path -> p <> path ++ "~" -> fs' p = fs p.
Proof.
  intros Hd Hok Hc Ht. unfold suppress_file. apply data_name_guard in Hd. rewrite Hd.
  unfold rename. rewrite Hok, Hc. cbn [negb].
  assert (Hne := tilde_neq path).
  destruct (fs (path ++ "~")) as [[c'|]|] eqn:E; [|congruence|];
  (eexists; split; [reflexivity|]; split; [|split];
   [destruct (String.eqb_spec path (path ++ "~")); [congruence|]; now rewrite String.eqb_refl
   |now rewrite String.eqb_refl
   |intros p H1 H2; destruct (String.eqb_spec p (path ++ "~")); [congruence|]; destruct (String.eqb_spec p path); congruence]).
Qed.

Lemma revive_ok ok path fs c : data_name path -> ok (path ++ "~") path = true ->
  fs (path ++ "~") = Some (EFile c) -> fs path <> Some EDir ->
  exists fs', revive_file ok (path ++ "~") fs = (fs', None) /\
    fs' (path ++ "~") = None /\ fs' path = Some (EFile c) /\
    forall p, p <> path -> p <> path ++ "~" -> fs' p = fs p.
Proof.
  intros Hd Hok Hc Ht. unfold revive_file. apply suppressed_of_data, suppressed_name_guard in Hd. rewrite Hd.
  rewrite chop_tilde. unfold rename. rewrite Hok, Hc. cbn [negb].
  assert (Hne := tilde_neq path).
  destruct (fs path) as [[c'|]|] eqn:E; [|congruence|];
  (eexists; split; [reflexivity|]; split; [|split];
   [destruct (String.eqb_spec (path ++ "~") path); [congruence|]; now rewrite String.eqb_refl
   |now rewrite String.eqb_refl
   |intros p H1 H2; destruct (String.eqb_spec p path); [congruence|]; destruct (String.eqb_spec p (path ++ "~")); congruence]).
Qed.

Lemma suppress_revive ok path fs c : data_name path ->
  ok path (path ++ "~") = true -> ok (path ++ "~") path = true ->
  fs path = Some (EFile c) -> fs (path ++ "~") = None ->
  exists fs1 fs2, suppress_file ok path fs = (fs1, None) /\ fs1 path = None /\
    revive_file ok (path ++ "~") fs1 = (fs2, None) /\ forall p, fs2 p = fs p.
Proof.
  intros Hd H1 H2 Hc Ht.
  destruct (suppress_ok ok path fs c Hd H1 Hc) as (fs1 & E1 & A1 & B1 & C1); [congruence|].
  destruct (revive_ok ok path fs1 c Hd H2 B1) as (fs2 & E2 & A2 & B2 & C2); [congruence|].
  exists fs1, fs2. repeat split; try assumption. intro p.
  destruct (string_dec p path) as [->|Hp]; [congruence|].
  destruct (string_dec p (path ++ "~")) as [->|Hp2]; [congruence|].
  now rewrite C2, C1.
Qed.

Lemma revive_suppress ok path fs c : data_name path ->
  ok path (path ++ "~") = true -> ok (path ++ "~") path = true ->
  fs (path ++ "~") = Some (EFile c) -> fs path = None ->
  exists fs1 fs2, revive_file ok (path ++ "~") fs = (fs1, None) /\ fs1 path = Some (EFile c) /\
    suppress_file ok path fs1 = (fs2, None) /\ forall p, fs2 p = fs p.
Proof.
  intros Hd H1 H2 Hc Ht.
  destruct (revive_ok ok path fs c Hd H2 Hc) as (fs1 & E1 & A1 & B1 & C1); [congruence|].
  destruct (suppress_ok ok path fs1 c Hd H1 B1) as (fs2 & E2 & A2 & B2 & C2); [congruence|].
  exists fs1, fs2. repeat split; try assumption. intro p.
  destruct (string_dec p path) as [->|Hp]; [congruence|].
  destruct (string_dec p (path ++ "~")) as [->|Hp2]; [congruence|].
  now rewrite C2, C1.
Qed.

Lemma suppress_fail ok path fs x : snd (suppress_file ok path fs) = Some x ->
  x = PMFileError /\ fst (suppress_file ok path fs) = fs.
Proof.
  unfold suppress_file. destruct (_ || _)%bool; [|destruct (rename _ _ _ _)]; cbn; intro H; try discriminate;
  injection H as <-; auto.
Qed.
Lemma revive_fail ok path fs x : snd (revive_file ok path fs) = Some x ->
  x = PMFileError /\ fst (revive_file ok path fs) = fs.
Proof.
  unfold revive_file. destruct (_ || _)%bool; [|destruct (rename _ _ _ _)]; cbn; intro H; try discriminate;
  injection H as <-; auto.
Qed.

(* names that are not data files are refused *)
Lemma suppress_refuses ok path fs : ~ data_name path -> suppress_file ok path fs = (fs, Some PMFileError).
Proof.
  intro H. unfold suppress_file. destruct (_ || _)%bool eqn:E; [reflexivity|].
  exfalso. apply H. now apply data_name_guard.
Qed.
Lemma revive_refuses ok path fs : ~ suppressed_name path -> revive_file ok path fs = (fs, Some PMFileError).
Proof.
  intro H. unfold revive_file. destruct (_ || _)%bool eqn:E; [reflexivity|].
  exfalso. apply H. now apply suppressed_name_guard.
Qed.

(* no error means the file was there and was moved *)
Lemma suppress_success ok path fs fs' : suppress_file ok path fs = (fs', None) ->
  exists c, fs path = Some (EFile c) /\ fs' path = None /\ fs' (path ++ "~") = Some (EFile c).
Proof.
  unfold suppress_file. destruct (_ || _)%bool; [discriminate|].
  unfold rename. destruct (negb _); [discriminate|]. assert (Hne := tilde_neq path).
  destruct (fs path) as [[c|]|] eqn:E; try discriminate.
  destruct (fs (path ++ "~")) as [[c'|]|]; try discriminate; intro H; injection H as <-;
    (exists c; split; [reflexivity|]; split;
     [destruct (String.eqb_spec path (path ++ "~")); [congruence|]|]; now rewrite String.eqb_refl).
Qed.
Lemma revive_success ok path fs fs' : revive_file ok (path ++ "~") fs = (fs', None) ->
  exists c, fs (path ++ "~") = Some (EFile c) /\ fs' (path ++ "~") = None /\ fs' path = Some (EFile c).
Proof.
  unfold revive_file. destruct (_ || _)%bool; [discriminate|].
  rewrite chop_tilde. unfold rename. destruct (negb _); [discriminate|]. assert (Hne := tilde_neq path).
  destruct (fs (path ++ "~")) as [[c|]|] eqn:E; try discriminate.
  destruct (fs path) as [[c'|]|]; try discriminate; intro H; injection H as <-;
    (exists c; split; [reflexivity|]; split;
     [destruct (String.eqb_spec (path ++ "~") path); [congruence|]|]; now rewrite String.eqb_refl).
Qed.
Lemma suppress_destroys ok path fs c old : data_name path ->
  ok path (path ++ "~") = true -> ok (path ++ "~") path = true ->
  fs path = Some (EFile c) -> fs (path ++ "~") = Some (EFile old) ->
  exists fs1 fs2, suppress_file ok path fs = (fs1, None) /\ revive_file ok (path ++ "~") fs1 = (fs2, None) /\
    fs2 (path ++ "~") = None.
Proof.
  intros Hd H1 H2 Hc Ht.
  destruct (suppress_ok ok path fs c Hd H1 Hc) as (fs1 & E1 & A1 & B1 & C1); [congruence|].
  destruct (revive_ok ok path fs1 c Hd H2 B1) as (fs2 & E2 & A2 & B2 & C2); [congruence|].
  exists fs1, fs2. auto.
Qed.
End FS.

(* ---- words ---- *)
Lemma is_space_iff c : is_space c = true <-> blank c.
Proof.
  unfold is_space, blank. rewrite orb_true_iff, !andb_true_iff, !Nat.leb_le. tauto.
Qed.
Lemma is_space_false c : is_space c = false <-> ~ blank c.
Proof. rewrite <- is_space_iff. destruct (is_space c); split; congruence. Qed.

Definition solid (w : string) : Prop := all_chars (fun c => ~ blank c) w.
Definition ends_word (s : string) : Prop := match s with "" => True | String c _ => blank c end.

Lemma solid_app a b : solid (a ++ b) <-> solid a /\ solid b.
Proof. unfold solid. induction a as [|c a IH]; cbn; [tauto|]. rewrite IH. tauto. Qed.

Lemma words_aux_solid w s cur : solid w -> words_aux (w ++ s) cur = words_aux s (cur ++ w).
Proof.
  revert cur. induction w as [|c w IH]; intros cur H; cbn.
  - now rewrite app_nil_s.
  - destruct H as [Hc H]. apply is_space_false in Hc. rewrite Hc, IH by assumption.
    now rewrite app_assoc_s.
Qed.

Lemma words_end s cur : ends_word s -> cur <> "" -> words_aux s cur = cur :: words_aux s "".
Proof.
  intros H Hc. destruct s as [|c s]; cbn.
  - destruct cur; [congruence|reflexivity].
  - apply is_space_iff in H. rewrite H. destruct cur; [congruence|reflexivity].
Qed.

Lemma words_word w s : w <> "" -> solid w -> ends_word s -> words (w ++ s) = w :: words s.
Proof. intros Hn Hw Hs. unfold words. rewrite words_aux_solid by assumption. cbn. now apply words_end. Qed.
Lemma words_blank c s : blank c -> words (String c s) = words s.
Proof. intro H. unfold words. cbn. apply is_space_iff in H. now rewrite H. Qed.

Lemma Words_words s ws : Words s ws -> words s = ws.
Proof.
  induction 1; [reflexivity|now rewrite words_blank|]. rewrite words_word by assumption. now rewrite IHWords.
Qed.

(* longest solid prefix *)
Lemma solid_prefix s : exists w t, s = w ++ t /\ solid w /\ ends_word t.
Proof.
  induction s as [|c s (w & t & -> & Hw & Ht)]; [exists "", ""; repeat split|].
  destruct (is_space c) eqn:E.
  - exists "", (String c (w ++ t)). repeat split. cbn. now apply is_space_iff.
  - exists (String c w), t. repeat split; try assumption. now apply is_space_false.
Qed.

Lemma words_Words s : Words s (words s).
Proof.
  assert (H : forall n s, (String.length s <= n)%nat -> Words s (words s)).
  { induction n as [|n IH]; intros t Hl.
    - destruct t; [constructor|cbn in Hl; lia].
    - destruct (solid_prefix t) as (w & u & -> & Hw & Hu). destruct w as [|c w].
      + destruct u as [|c u]; [constructor|]. cbn [append]. rewrite words_blank by exact Hu.
        apply W_blank; [exact Hu|]. apply IH. cbn in Hl. lia.
      + rewrite words_word; [|discriminate|assumption|assumption].
        apply W_word; [discriminate|assumption|exact Hu|]. apply IH. rewrite app_length_s in Hl. cbn in Hl. lia. }
  apply (H (String.length s)). lia.
Qed.

Lemma Words_iff s ws : Words s ws <-> words s = ws.
Proof. split; [apply Words_words|intros <-; apply words_Words]. Qed.

(* each word is non-empty and solid *)
Lemma words_solid s w : In w (words s) -> w <> "" /\ solid w.
Proof.
  intro H. pose proof (words_Words s) as HW. revert H. generalize dependent (words s). intros ws HW.
  induction HW; cbn; [intros []|assumption|]. intros [<-|Hi]; auto.
Qed.

(* appending *)
Definition blanks (s : string) : Prop := all_chars blank s.
Lemma words_app_end a b : ends_word b -> words (a ++ b) = (words a ++ words b)%list.
Proof.
  intro Hb.
  assert (H : forall n a, (String.length a <= n)%nat -> words (a ++ b) = (words a ++ words b)%list).
  { induction n as [|n IH]; intros t Hl.
    - destruct t; [reflexivity|cbn in Hl; lia].
    - destruct (solid_prefix t) as (w & u & -> & Hw & Hu). destruct w as [|c w].
      + destruct u as [|c u]; [reflexivity|]. cbn [append]. rewrite !words_blank by exact Hu.
        apply IH. cbn in Hl. lia.
      + rewrite app_assoc_s. rewrite words_word; [|discriminate|assumption|destruct u; assumption].
        rewrite (words_word (String c w) u); [|discriminate|assumption|assumption].
        cbn. f_equal. apply IH. rewrite app_length_s in Hl. cbn in Hl. lia. }
  apply (H (String.length a)). lia.
Qed.

(* a ends in a blank or is empty *)
Fixpoint blank_end (s : string) : Prop :=
  match s with "" => True | String c "" => blank c | String _ s' => blank_end s' end.
Lemma words_app_start a b : blank_end a -> words (a ++ b) = (words a ++ words b)%list.
Proof.
  assert (H : forall n a, (String.length a <= n)%nat -> blank_end a -> words (a ++ b) = (words a ++ words b)%list).
  { induction n as [|n IH]; intros t Hl He.
    - destruct t; [reflexivity|cbn in Hl; lia].
    - destruct (solid_prefix t) as (w & u & -> & Hw & Hu). destruct w as [|c w].
      + destruct u as [|c u]; [reflexivity|]. cbn [append]. rewrite !words_blank by exact Hu.
        apply IH; [cbn in Hl; lia|]. cbn in He. destruct u; [exact I|exact He].
      + assert (Hu2 : u <> "").
        { intros ->. rewrite app_nil_s in He. clear -Hw He. revert c Hw He.
          induction w as [|d w IHw]; intros c Hw He; cbn in *; [tauto|].
          destruct w; [destruct Hw as (_ & H & _); contradiction|]. apply (IHw d); tauto. }
        rewrite app_assoc_s. rewrite words_word; [|discriminate|assumption|destruct u; [congruence|exact Hu]].
        rewrite (words_word (String c w) u); [|discriminate|assumption|assumption].
        cbn. f_equal. apply IH.
        * rewrite app_length_s in Hl. cbn in Hl. lia.
        * clear -He Hu2. revert c He. induction w as [|d w IHw]; intros c He.
          -- cbn in He. destruct u; [congruence|exact He].
          -- apply (IHw d). cbn in *. exact He. }
  apply (H (String.length a)). lia.
Qed.

Lemma blanks_words s : blanks s -> words s = [].
Proof.
  induction s as [|c s IH]; [reflexivity|]. intros [Hc Hs]. rewrite words_blank by assumption. auto.
Qed.
Lemma blanks_app a b : blanks (a ++ b) <-> blanks a /\ blanks b.
Proof. unfold blanks. induction a as [|c a IH]; cbn; [tauto|]. rewrite IH. tauto. Qed.
Lemma blank_end_app a b : b <> "" -> blank_end b -> blank_end (a ++ b).
Proof.
  intros Hb H. induction a as [|c a IH]; [exact H|]. cbn. destruct (a ++ b) eqn:E; [|exact IH].
  destruct a; cbn in E; [congruence|discriminate].
Qed.
Lemma blanks_end s : blanks s -> blank_end s.
Proof. induction s as [|c s IH]; [auto|]. cbn. intros [Hc Hs]. destruct s; [exact Hc|]. now apply IH. Qed.
Lemma blank_nl : blank nl.
Proof. unfold blank. cbn. lia. Qed.

(* ---- paragraphs keep the words ---- *)
Lemma paragraphs_step c d t cur : paragraphs_aux (String c (String d t)) cur =
  if (Ascii.eqb c nl && Ascii.eqb d nl)%bool then cur :: paragraphs_aux t "" else paragraphs_aux (String d t) (cur ++ String c "").
Proof. reflexivity. Qed.
Lemma paragraphs_words s : forall cur, words (cur ++ s) = flat_map words (paragraphs_aux s cur).
Proof.
  assert (H : forall n s cur, (String.length s <= n)%nat -> words (cur ++ s) = flat_map words (paragraphs_aux s cur)).
  { induction n as [|n IH]; intros t cur Hl.
    - destruct t; [|cbn in Hl; lia]. cbn. now rewrite app_nil_s, app_nil_r.
    - destruct t as [|c t]; [cbn; now rewrite app_nil_s, app_nil_r|].
      destruct t as [|d t]; [cbn; now rewrite app_nil_r|].
      rewrite paragraphs_step.
      destruct (Ascii.eqb_spec c nl) as [->|]; [destruct (Ascii.eqb_spec d nl) as [->|]|]; cbn [andb].
      + cbn [flat_map]. rewrite <- (IH t ""); [|cbn in Hl; lia]. cbn [append].
        rewrite words_app_end by apply blank_nl. now rewrite !words_blank by apply blank_nl.
      + rewrite <- IH; [|cbn in *; lia]. now rewrite app_assoc_s.
      + rewrite <- IH; [|cbn in *; lia]. now rewrite app_assoc_s. }
  intro cur. apply (H (String.length s)). lia.
Qed.

(* ---- wrapping keeps the words ---- *)
Section Wrap.
Variables (lead tail0 : string) (nmax : nat).
Let tail := tail0 ++ newline.
Hypotheses (Hlead : blanks lead) (Htail : blanks tail0) (Hmax : (0 < nmax)%nat).

Lemma tail_blanks : blanks tail.
Proof. apply blanks_app. split; [assumption|]. split; [apply blank_nl|exact I]. Qed.
Lemma tail_ne : tail <> "".
Proof. unfold tail. destruct tail0; discriminate. Qed.
Lemma tail_ends : ends_word tail.
Proof. unfold tail. destruct tail0 as [|c t]; [apply blank_nl|]. exact (proj1 Htail). Qed.

(* state after some words: nothing on the line means a blank end *)
Definition inv (ws : list string) (st : string * nat) : Prop :=
  words (fst st) = ws /\ (snd st = 0%nat -> blank_end (fst st)).

Lemma cut_short w out n : (String.length w <= nmax)%nat -> cut_word lead tail nmax (String.length w) w out n = (w, out, n).
Proof.
  intro H. destruct w as [|c w]; [reflexivity|]. cbn [cut_word String.length].
  apply Nat.ltb_ge in H. now cbn [String.length] in H; rewrite H.
Qed.

Lemma put_short ws st w : w <> "" -> solid w -> (String.length w <= nmax)%nat ->
  inv ws st -> inv (ws ++ [w])%list (put_word lead tail nmax st w).
Proof.
  intros Hn Hs Hl [H1 H2]. destruct st as [out n]. cbn [fst snd] in H1, H2. unfold put_word. rewrite cut_short by assumption.
  assert (Hw : words w = [w]).
  { rewrite <- (app_nil_s w) at 1. rewrite words_word; auto. exact I. }
  assert (Hlen : String.length w <> 0%nat) by (destruct w; [congruence|discriminate]).
  destruct (Nat.ltb nmax (n + 1 + String.length w)).
  - split; [|cbn; intro; congruence]. cbn [fst].
    rewrite words_app_end by (pose proof tail_ends; pose proof tail_ne; destruct tail; [congruence|exact H]).
    rewrite H1. f_equal. rewrite words_app_start by (apply blanks_end, tail_blanks).
    rewrite (blanks_words tail tail_blanks), words_app_start by now apply blanks_end.
    now rewrite (blanks_words lead Hlead), Hw.
  - destruct (Nat.eqb_spec n 0) as [->|].
    + split; [|cbn; intro; congruence]. cbn [fst]. rewrite words_app_start by auto. now rewrite H1, Hw.
    + split; [|cbn; lia]. cbn [fst]. rewrite words_app_end by (cbn; unfold blank; cbn; lia).
      rewrite H1. f_equal. cbn [append]. rewrite words_blank by (unfold blank; cbn; lia). exact Hw.
Qed.

Lemma put_words_short l : (forall w, In w l -> w <> "" /\ solid w /\ (String.length w <= nmax)%nat) ->
  forall ws st, inv ws st -> inv (ws ++ l)%list (fold_left (put_word lead tail nmax) l st).
Proof.
  induction l as [|w l IH]; intros Hl ws st Hi; cbn.
  - now rewrite app_nil_r.
  - replace (ws ++ w :: l)%list with ((ws ++ [w]) ++ l)%list by now rewrite <- app_assoc.
    apply IH; [intros; apply Hl; now right|]. destruct (Hl w (or_introl eq_refl)) as (? & ? & ?).
    now apply put_short.
Qed.

Lemma par_short par out : (forall w, In w (words par) -> (String.length w <= nmax)%nat) ->
  blank_end out ->
  words (put_par lead tail nmax out par) = (words out ++ words par)%list /\
  blank_end (put_par lead tail nmax out par).
Proof.
  intros Hw Hb. unfold put_par.
  assert (Hi : inv (words out ++ words par)%list (fold_left (put_word lead tail nmax) (words par) (out, 0%nat))).
  { apply put_words_short.
    - intros w Hin. destruct (words_solid par w Hin). auto.
    - split; cbn; auto. }
  destruct Hi as [H1 _]. split.
  - rewrite words_app_end by (pose proof tail_ends; pose proof tail_ne; destruct tail; [congruence|assumption]).
    rewrite H1, (blanks_words tail tail_blanks). now rewrite app_nil_r.
  - apply blank_end_app; [apply tail_ne|apply blanks_end, tail_blanks].
Qed.

Lemma pars_short ps : (forall p w, In p ps -> In w (words p) -> (String.length w <= nmax)%nat) ->
  forall out, blank_end out -> words (fold_left (put_par lead tail nmax) ps out) = (words out ++ flat_map words ps)%list.
Proof.
  induction ps as [|p ps IH]; intros Hp out Hb; cbn [fold_left flat_map]; [now rewrite app_nil_r|].
  destruct (par_short p out) as [H1 H2]; [intros; apply (Hp p w); cbn; auto|assumption|].
  rewrite IH; [|intros q w Hq Hw; apply (Hp q w); cbn; auto|assumption]. now rewrite H1, app_assoc.
Qed.

(* --- all words: the visible characters are kept --- *)
Definition visible (s : string) : string := String.concat "" (words s).
End Wrap.

Lemma wrap_keeps_words text lead tail width out :
  blanks lead -> blanks tail ->
  (forall w, In w (words text) -> (String.length w + String.length lead + String.length tail <= width)%nat) ->
  split_lines text lead tail width = Some out -> words out = words text.
Proof.
  intros Hl Ht Hw H. unfold split_lines in H. set (nmax := (width - _ - _)%nat) in H.
  destruct (Nat.eqb_spec nmax 0) as [|Hn]; [discriminate|]. injection H as <-.
  pose proof (paragraphs_words text "") as Hp. cbn [append] in Hp. fold (paragraphs text) in Hp.
  rewrite (pars_short lead tail nmax Hl Ht); [|lia| |now apply blanks_end].
  - rewrite (blanks_words lead Hl), <- Hp. reflexivity.
  - intros p w Hpi Hwi. assert (Hin : In w (words text)).
    { rewrite Hp. apply in_flat_map. eauto. }
    specialize (Hw w Hin). unfold nmax. lia.
Qed.

(* ---- visible characters ---- *)
Fixpoint strip (s : string) : string :=
  match s with "" => "" | String c s' => if is_space c then strip s' else String c (strip s') end.
Lemma strip_app a b : strip (a ++ b) = strip a ++ strip b.
Proof. induction a as [|c a IH]; cbn; [reflexivity|]. destruct (is_space c); [exact IH|]. cbn. now rewrite IH. Qed.
Lemma strip_blanks s : blanks s -> strip s = "".
Proof. induction s as [|c s IH]; cbn; [reflexivity|]. intros [Hc Hs]. apply is_space_iff in Hc. rewrite Hc. auto. Qed.
Lemma strip_solid s : solid s -> strip s = s.
Proof. induction s as [|c s IH]; cbn; [reflexivity|]. intros [Hc Hs]. apply is_space_false in Hc. rewrite Hc. f_equal. auto. Qed.

Lemma strip_words s : strip s = cat (words s).
Proof.
  pose proof (words_Words s) as H. induction H as [|c s ws Hc H IH|w s ws Hn Hs He H IH]; cbn.
  - reflexivity.
  - apply is_space_iff in Hc. now rewrite Hc.
  - now rewrite strip_app, (strip_solid w), IH by assumption.
Qed.

Lemma substring_full n s : (String.length s <= n)%nat -> substring 0 n s = s.
Proof.
  revert s. induction n as [|n IH]; intros [|c s] H; cbn in *; try reflexivity; try lia. f_equal. apply IH. lia.
Qed.
Lemma take_drop n s : take n s ++ drop n s = s.
Proof.
  unfold take, drop. revert s. induction n as [|n IH]; intros [|c s]; cbn; try reflexivity.
  - now rewrite substring_all.
  - f_equal. apply IH.
Qed.
Lemma take_length n s : (n <= String.length s)%nat -> String.length (take n s) = n.
Proof.
  unfold take. revert s. induction n as [|n IH]; intros [|c s] H; cbn in *; try reflexivity; try lia.
  f_equal. apply IH. lia.
Qed.
Lemma drop_length n s : (n <= String.length s)%nat -> String.length (drop n s) = (String.length s - n)%nat.
Proof.
  intro H. pose proof (take_drop n s) as E. apply (f_equal String.length) in E. rewrite app_length_s, take_length in E by assumption. lia.
Qed.

Section Visible.
Variables (lead tail0 : string) (nmax : nat).
Hypotheses (Hlead : blanks lead) (Htail : blanks tail0) (Hmax : (0 < nmax)%nat).
Let tail := tail0 ++ newline.
Lemma vtail : strip tail = "".
Proof. apply strip_blanks. apply blanks_app. split; [assumption|]. split; [apply blank_nl|exact I]. Qed.
Lemma vlead : strip lead = "".
Proof. now apply strip_blanks. Qed.

Lemma cut_visible fuel : forall w out n w' out' n',
  cut_word lead tail nmax fuel w out n = (w', out', n') -> strip out' ++ strip w' = strip out ++ strip w.
Proof.
  induction fuel as [|fuel IH]; intros w out n w' out' n' H; cbn [cut_word] in H.
  - injection H as <- <- <-. reflexivity.
  - destruct (Nat.ltb nmax (String.length w)); [|injection H as <- <- <-; reflexivity].
    apply IH in H. rewrite H. clear H IH.
    rewrite <- (take_drop nmax w) at 3. rewrite !strip_app, vlead, vtail.
    destruct (Nat.ltb 0 n); rewrite ?strip_app, ?vtail, ?app_nil_s; cbn [append]; now rewrite app_assoc_s.
Qed.
Lemma put_visible st w : strip (fst (put_word lead tail nmax st w)) = strip (fst st) ++ strip w.
Proof.
  destruct st as [out n]. unfold put_word.
  destruct (cut_word lead tail nmax (String.length w) w out n) as [[w' out'] n'] eqn:E.
  apply cut_visible in E. cbn [fst]. rewrite <- E.
  destruct (Nat.ltb nmax (n' + 1 + String.length w')); [|destruct (Nat.eqb n' 0)]; cbn [fst].
  - now rewrite !strip_app, vlead, vtail.
  - apply strip_app.
  - rewrite !strip_app. reflexivity.
Qed.
Lemma put_words_visible l : forall st, strip (fst (fold_left (put_word lead tail nmax) l st)) = strip (fst st) ++ cat (map strip l).
Proof.
  induction l as [|w l IH]; intro st; cbn; [now rewrite app_nil_s|].
  rewrite IH, put_visible. apply app_assoc_s.
Qed.
Lemma cat_map_strip l : (forall w, In w l -> solid w) -> cat (map strip l) = cat l.
Proof.
  induction l as [|w l IH]; intro H; cbn; [reflexivity|]. rewrite (strip_solid w), IH; auto; intros; apply H; cbn; auto.
Qed.
Lemma pars_visible ps : forall out, strip (fold_left (put_par lead tail nmax) ps out) = strip out ++ cat (flat_map words ps).
Proof.
  induction ps as [|p ps IH]; intro out; cbn [fold_left flat_map]; [now rewrite app_nil_s|].
  rewrite IH. unfold put_par. rewrite strip_app, vtail, app_nil_s, put_words_visible.
  rewrite cat_map_strip by (intros w Hw; now apply words_solid in Hw).
  assert (E : forall a b, cat (a ++ b)%list = cat a ++ cat b).
  { induction a as [|x a IHa]; intro b; cbn; [reflexivity|]. rewrite IHa. now rewrite app_assoc_s. }
  rewrite E. cbn [fst]. apply app_assoc_s.
Qed.
End Visible.

Lemma wrap_keeps_characters text lead tail width out :
  blanks lead -> blanks tail -> split_lines text lead tail width = Some out -> cat (words out) = cat (words text).
Proof.
  intros Hl Ht H. unfold split_lines in H. destruct (Nat.eqb _ 0) eqn:E; [discriminate|]. injection H as <-.
  rewrite <- strip_words, pars_visible by assumption.
  rewrite (strip_blanks lead Hl). cbn [append]. f_equal.
  pose proof (paragraphs_words text "") as Hp. cbn [append] in Hp. now rewrite Hp.
Qed.

(* ---- line lengths ---- *)
Fixpoint run (w : nat) (s : string) (cur : nat) : option nat :=
  match s with
  | "" => Some cur
  | String c s' => if Ascii.eqb c nl then run w s' 0 else if Nat.ltb cur w then run w s' (S cur) else None
  end.
Lemma run_app w a b cur : run w (a ++ b) cur = match run w a cur with Some n => run w b n | None => None end.
Proof.
  revert cur. induction a as [|c a IH]; intro cur; cbn [run append]; [reflexivity|].
  destruct (Ascii.eqb c nl); [apply IH|]. destruct (Nat.ltb cur w); [apply IH|reflexivity].
Qed.
Lemma run_fit w s cur : lines_fit w cur s <-> run w s cur <> None.
Proof.
  revert cur. induction s as [|c s IH]; intro cur; cbn [run lines_fit]; [split; [discriminate|auto]|].
  change (ascii_of_nat 10) with nl. destruct (Ascii.eqb c nl); [apply IH|].
  destruct (Nat.ltb_spec cur w).
  - rewrite IH. intuition.
  - split; [intros [? _]; lia|congruence].
Qed.
Definition no_nl (s : string) : Prop := no_char nl s.
Lemma run_plain w s cur : no_nl s -> (cur + String.length s <= w)%nat -> run w s cur = Some (cur + String.length s)%nat.
Proof.
  revert cur. induction s as [|c s IH]; intros cur Hn H; cbn [run String.length no_nl no_char] in *; [f_equal; lia|].
  destruct Hn as [Hc Hn]. destruct (Ascii.eqb_spec c nl); [congruence|].
  destruct (Nat.ltb_spec cur w); [|lia]. rewrite IH by (assumption || lia). f_equal. lia.
Qed.
Lemma solid_no_nl s : solid s -> no_nl s.
Proof.
  induction s as [|c s IH]; cbn; [auto|]. intros [Hc Hs]. split; [|now apply IH]. intros <-. apply Hc. apply blank_nl.
Qed.
Lemma solid_take_drop n s : solid s -> solid (take n s) /\ solid (drop n s).
Proof. intro H. rewrite <- (take_drop n s) in H. now apply solid_app in H. Qed.

Section Fit.
Variables (lead tail0 : string) (width nmax : nat).
Let tail := tail0 ++ newline.
Hypotheses (Hlead : no_nl lead) (Htail : no_nl tail0)
  (Hmax : (nmax + String.length lead + String.length tail0 = width)%nat) (Hpos : (0 < nmax)%nat).

Lemma run_tail cur : (cur + String.length tail0 <= width)%nat -> run width tail cur = Some 0%nat.
Proof.
  intro H. unfold tail. rewrite run_app, run_plain by assumption. cbn. reflexivity.
Qed.

Definition linv (st : string * nat) : Prop :=
  exists cur, run width (fst st) 0 = Some cur /\ (cur <= String.length lead + snd st)%nat /\ (snd st <= nmax)%nat.

Lemma put_fit_core out n w : linv (out, n) -> solid w -> (String.length w <= nmax)%nat ->
  linv (if Nat.ltb nmax (n + 1 + String.length w) then (out ++ tail ++ lead ++ w, String.length w)
        else if Nat.eqb n 0 then (out ++ w, String.length w) else (out ++ " " ++ w, n + 1 + String.length w)%nat).
Proof.
  intros (cur & H1 & H2 & H3) Hs Hl. cbn [fst snd] in *.
  destruct (Nat.ltb_spec nmax (n + 1 + String.length w)); [|destruct (Nat.eqb_spec n 0) as [->|Hn]]; unfold linv; cbn [fst snd].
  - rewrite run_app, H1, run_app, run_tail by lia.
    rewrite run_app, (run_plain _ lead) by (assumption || lia).
    rewrite run_plain by (try apply solid_no_nl; (assumption || lia)).
    eexists. split; [reflexivity|]. lia.
  - rewrite run_app, H1, run_plain by (try apply solid_no_nl; (assumption || lia)).
    eexists. split; [reflexivity|]. lia.
  - rewrite run_app, H1. cbn [run append]. change (Ascii.eqb " " nl) with false.
    destruct (Nat.ltb_spec cur width); [|lia].
    rewrite run_plain by (try apply solid_no_nl; (assumption || lia)).
    eexists. split; [reflexivity|]. lia.
Qed.

Lemma put_fit st w : linv st -> solid w -> (String.length w <= nmax)%nat -> linv (put_word lead tail nmax st w).
Proof.
  intros Hi Hs Hl. destruct st as [out n]. unfold put_word. unfold tail at 1. rewrite cut_short by assumption.
  now apply put_fit_core.
Qed.

(* with an empty lead, words of any length *)
Lemma cut_fit : lead = "" -> forall fuel w out n w' out' n', (String.length w <= fuel)%nat -> solid w -> linv (out, n) ->
  cut_word lead tail nmax fuel w out n = (w', out', n') ->
  linv (out', n') /\ solid w' /\ (String.length w' <= nmax)%nat.
Proof.
  intro Hempty. induction fuel as [|fuel IH]; intros w out n w' out' n' Hf Hs Hi H; cbn [cut_word] in H.
  - injection H as <- <- <-. split; [assumption|]. split; [assumption|]. lia.
  - destruct (Nat.ltb_spec nmax (String.length w)) as [Hlt|Hle].
    2:{ injection H as <- <- <-. auto. }
    apply IH in H; [exact H| | |]; clear IH H.
    + rewrite drop_length by lia. lia.
    + now apply solid_take_drop.
    + destruct Hi as (cur & H1 & H2 & H3). cbn [fst snd] in *. rewrite Hempty in *. cbn [append String.length] in *.
      destruct (solid_take_drop nmax w Hs) as [Ht _].
      assert (Hrun : run width (take nmax w ++ tail ++ "") 0 = Some 0%nat).
      { rewrite run_app, run_plain; [|now apply solid_no_nl|rewrite take_length; lia].
        rewrite take_length by lia. rewrite run_app, run_tail by lia. reflexivity. }
      exists 0%nat. cbn [fst snd]. split; [|lia].
      destruct (Nat.ltb_spec 0 n).
      * rewrite run_app. rewrite run_app, H1, run_tail by lia. exact Hrun.
      * assert (cur = 0%nat) by lia. subst cur. rewrite run_app, H1. exact Hrun.
Qed.
Lemma put_fit_any st w : lead = "" -> linv st -> solid w -> linv (put_word lead tail nmax st w).
Proof.
  intros He Hi Hs. destruct st as [out n]. unfold put_word.
  destruct (cut_word lead tail nmax (String.length w) w out n) as [[w' out'] n'] eqn:E.
  apply (cut_fit He) in E; [|lia|assumption|assumption]. destruct E as (H1 & H2 & H3).
  now apply put_fit_core.
Qed.

Lemma fold_fit (P : string -> Prop) l : (forall st w, P w -> linv st -> linv (put_word lead tail nmax st w)) ->
  (forall w, In w l -> P w) -> forall st, linv st -> linv (fold_left (put_word lead tail nmax) l st).
Proof.
  intros Hp. induction l as [|w l IH]; intros Hl st Hi; cbn; [assumption|].
  apply IH; [intros; apply Hl; now right|]. apply Hp; [apply Hl; now left|assumption].
Qed.

Lemma pars_fit (P : string -> Prop) ps :
  (forall st w, P w -> linv st -> linv (put_word lead tail nmax st w)) ->
  (forall p w, In p ps -> In w (words p) -> P w) ->
  forall out cur, run width out 0 = Some cur -> (cur <= String.length lead)%nat ->
  run width (fold_left (put_par lead tail nmax) ps out) 0 <> None.
Proof.
  intros Hp. induction ps as [|p ps IH]; intros Hps out cur Hr Hc; cbn; [congruence|].
  assert (Hi : linv (fold_left (put_word lead tail nmax) (words p) (out, 0%nat))).
  { apply (fold_fit P); [assumption|intros w Hw; apply (Hps p); cbn; auto|]. exists cur. cbn. lia || (repeat split; [assumption|lia|lia]). }
  destruct Hi as (cur' & H1 & H2 & H3).
  apply IH with (cur := 0%nat); [intros q w Hq; apply Hps; now right| |lia].
  unfold put_par. rewrite run_app, H1. apply run_tail. lia.
Qed.
End Fit.

Lemma wrap_fits text lead tail width out : no_nl lead -> no_nl tail ->
  (forall w, In w (words text) -> (String.length w + String.length lead + String.length tail <= width)%nat) ->
  split_lines text lead tail width = Some out -> lines_fit width 0 out.
Proof.
  intros Hl Ht Hw H. unfold split_lines in H. set (nmax := (width - _ - _)%nat) in H.
  destruct (Nat.eqb_spec nmax 0) as [|Hn]; [discriminate|]. injection H as <-. apply run_fit.
  assert (Hm : (nmax + String.length lead + String.length tail = width)%nat) by (unfold nmax in *; lia).
  pose proof (paragraphs_words text "") as Hp. cbn [append] in Hp. fold (paragraphs text) in Hp.
  apply (pars_fit lead tail width nmax) with (P := fun w => solid w /\ (String.length w <= nmax)%nat) (cur := String.length lead).
  - assumption.
  - assumption.
  - lia.
  - intros st w [Hs Hlw] Hi. apply (put_fit lead tail width nmax); try assumption. lia.
  - intros p w Hpi Hwi. assert (Hin : In w (words text)).
    { rewrite Hp. apply in_flat_map. eauto. }
    specialize (Hw w Hin). split; [now apply words_solid in Hin|]. unfold nmax. lia.
  - rewrite run_plain by (assumption || lia). reflexivity.
  - lia.
Qed.
Lemma wrap_fits_any text tail width out : no_nl tail ->
  split_lines text "" tail width = Some out -> lines_fit width 0 out.
Proof.
  intros Ht H. unfold split_lines in H. set (nmax := (width - _ - _)%nat) in H.
  destruct (Nat.eqb_spec nmax 0) as [|Hn]; [discriminate|]. injection H as <-. apply run_fit.
  assert (Hm : (nmax + String.length "" + String.length tail = width)%nat) by (unfold nmax in *; cbn in *; lia).
  apply (pars_fit "" tail width nmax) with (P := solid) (cur := 0%nat).
  - assumption.
  - lia.
  - lia.
  - intros st w Hs Hi. apply (put_fit_any "" tail width nmax); try assumption; (exact I || lia || reflexivity).
  - intros p w Hpi Hwi. now apply words_solid in Hwi.
  - reflexivity.
  - cbn. lia.
Qed.
Lemma wrap_refuses text lead tail width :
  split_lines text lead tail width = None <-> (width <= String.length lead + String.length tail)%nat.
Proof.
  unfold split_lines. destruct (Nat.eqb_spec (width - String.length lead - String.length tail) 0); split; try discriminate; try lia; auto.
Qed.

Lemma wrap_words text lead tail width out ws :
  all_chars blank lead -> all_chars blank tail -> Words text ws ->
  (forall w, In w ws -> (String.length w + String.length lead + String.length tail <= width)%nat) ->
  split_lines text lead tail width = Some out -> Words out ws.
Proof.
  intros Hl Ht Hw Hf H. apply Words_iff in Hw. subst ws. apply Words_iff. exact (wrap_keeps_words text lead tail width out Hl Ht Hf H).
Qed.
Lemma wrap_characters text lead tail width out ws ws' :
  all_chars blank lead -> all_chars blank tail -> Words text ws -> Words out ws' ->
  split_lines text lead tail width = Some out -> cat ws' = cat ws.
Proof.
  intros Hl Ht Hw Hw' H. apply Words_iff in Hw, Hw'. subst. exact (wrap_keeps_characters text lead tail width out Hl Ht H).
Qed.
Lemma wrap_lines text lead tail width out ws :
  no_char (ascii_of_nat 10) lead -> no_char (ascii_of_nat 10) tail -> Words text ws ->
  (forall w, In w ws -> (String.length w + String.length lead + String.length tail <= width)%nat) ->
  split_lines text lead tail width = Some out -> lines_fit width 0 out.
Proof. intros Hl Ht Hw Hf H. apply Words_iff in Hw. subst ws. exact (wrap_fits text lead tail width out Hl Ht Hf H). Qed.

Lemma wrap_overflow : exists text lead out, split_lines text lead "" 10 = Some out /\ ~ lines_fit 10 0 out.
Proof.
  exists "abcdefghijklmn", "> ". eexists. split; [vm_compute; reflexivity|].
  cbn. lia.
Qed.
Lemma wrap_no_lead : 
  split_lines (String.concat newline ["a"; ""; "b"]) "> " "" 10 = Some (String.concat newline ["> a"; "b"; ""]).
Proof. reflexivity. Qed.

(* one paragraph *)
Lemma no_break_tail c s : no_break (String c s) -> no_break s.
Proof. intros H (a & b & ->). apply H. now exists (String c a), b. Qed.
Lemma paragraphs_one s : forall cur, no_break s -> paragraphs_aux s cur = [cur ++ s].
Proof.
  induction s as [|c s IH]; intros cur H; [cbn; now rewrite app_nil_s|].
  destruct s as [|d s]; [reflexivity|]. rewrite paragraphs_step.
  destruct (Ascii.eqb_spec c nl) as [->|]; [destruct (Ascii.eqb_spec d nl) as [->|]|]; cbn [andb].
  - exfalso. apply H. now exists "", s.
  - rewrite IH by now apply no_break_tail in H. now rewrite app_assoc_s.
  - rewrite IH by now apply no_break_tail in H. now rewrite app_assoc_s.
Qed.

Section Leads.
Variables (lead : string) (nmax : nat).
Definition lines_of (ls : list string) : string := cat (map (fun l => lead ++ l ++ newline) ls).
(* finished lines, then the lead and the current line *)
Definition ginv (st : string * nat) : Prop :=
  exists ls cur, fst st = lines_of ls ++ lead ++ cur /\ no_nl cur /\ Forall no_nl ls.
Lemma lines_of_app ls l : lines_of (ls ++ [l])%list = lines_of ls ++ lead ++ l ++ newline.
Proof.
  unfold lines_of. induction ls as [|x ls IH]; cbn; [now rewrite app_nil_s|].
  rewrite IH. now rewrite !app_assoc_s.
Qed.
Lemma no_nl_app a b : no_nl a -> no_nl b -> no_nl (a ++ b).
Proof. unfold no_nl. induction a as [|c a IH]; cbn; [auto|]. intros [H1 H2] Hb. split; auto. Qed.
Lemma put_lead st w : ginv st -> solid w -> (String.length w <= nmax)%nat -> ginv (put_word lead newline nmax st w).
Proof.
  intros (ls & cur & H1 & H2 & H3) Hs Hl. destruct st as [out n]. cbn [fst] in H1. unfold put_word.
  change newline with ("" ++ newline) at 1. rewrite (cut_short lead "") by assumption.
  assert (Hw := solid_no_nl w Hs).
  destruct (Nat.ltb nmax (n + 1 + String.length w)); [|destruct (Nat.eqb n 0)]; unfold ginv; cbn [fst].
  - exists (ls ++ [cur])%list, w. split; [|split; [assumption|]].
    + rewrite lines_of_app, H1. now rewrite !app_assoc_s.
    + apply Forall_app. split; [assumption|]. now constructor.
  - exists ls, (cur ++ w). rewrite H1, !app_assoc_s. repeat split; try assumption. now apply no_nl_app.
  - exists ls, (cur ++ " " ++ w). rewrite H1, !app_assoc_s. repeat split; try assumption.
    apply no_nl_app; [assumption|]. apply no_nl_app; [|assumption]. split; [discriminate|exact I].
Qed.
Lemma put_leads l : (forall w, In w l -> solid w /\ (String.length w <= nmax)%nat) ->
  forall st, ginv st -> ginv (fold_left (put_word lead newline nmax) l st).
Proof.
  induction l as [|w l IH]; intros Hl st Hi; cbn [fold_left]; [assumption|].
  apply IH; [intros; apply Hl; now right|]. destruct (Hl w (or_introl eq_refl)). now apply put_lead.
Qed.
End Leads.

Lemma wrap_leads text lead width out ws :
  no_char (ascii_of_nat 10) lead -> no_break text -> Words text ws ->
  (forall w, In w ws -> (String.length w + String.length lead <= width)%nat) ->
  split_lines text lead "" width = Some out ->
  exists ls, out = cat (map (fun l => lead ++ l ++ String (ascii_of_nat 10) "") ls) /\
             Forall (no_char (ascii_of_nat 10)) ls.
Proof.
  intros Hl Hb Hw Hf H. apply Words_iff in Hw. subst ws. unfold split_lines in H.
  set (nmax := (width - _ - _)%nat) in H. destruct (Nat.eqb_spec nmax 0) as [|Hn]; [discriminate|]. injection H as <-.
  unfold paragraphs. rewrite paragraphs_one by assumption. cbn [append fold_left]. unfold put_par.
  destruct (put_leads lead nmax (words text)) with (st := (lead, 0%nat)) as (ls & cur & H1 & H2 & H3).
  - intros w Hi. split; [now apply words_solid in Hi|]. specialize (Hf w Hi). unfold nmax. cbn. lia.
  - exists [], "". cbn. rewrite app_nil_s. repeat split. constructor.
  - exists (ls ++ [cur])%list. split.
    + rewrite H1. pose proof (lines_of_app lead ls cur) as E. unfold lines_of in E at 1.
      change (String (ascii_of_nat 10) "") with newline. rewrite E. now rewrite !app_assoc_s.
    + apply Forall_app. split; [assumption|]. now constructor.
Qed.

(* Shapes of the arrays a dynamic mixture's methods work with. *)
From Coq Require Import Reals ZArith List String Bool Lia Lra Arith.
From Verif Require Import Base Model_Num Model_Units Model_Igas Model_Igmix Model_Igtools Model_Igtprop
  Spec_Units Spec_Igas Spec_Igmix Spec_Igtools Spec_Igtprop Spec_IgtGas
  Proof_Solve Proof_Units Proof_Igas Proof_IgasUnits Proof_IgasState Proof_IgasCalls Proof_IgmixProp
  Proof_Igtshape Proof_Igtools Proof_IgtAdd Proof_IgtMore Proof_IgtItems Proof_IgtNew Proof_IgtProp.
Import ListNotations.
Local Open Scope R_scope.
Local Open Scope string_scope.
Local Open Scope list_scope.

Tactic Notation "bi" ident(H) ident(x) ident(Hx) := apply bind_ok in H; destruct H as (x & Hx & H).

Lemma np_shape_stretches s u : stretches s u -> np_shape s u = Some u.
Proof.
  intro H. apply np_shape_spec. pose proof (Forall2_len _ _ _ H) as L. split; [lia|].
  intros j Hj. cbv zeta. unfold from_end. rewrite !rev_nth by lia. rewrite L.
  assert (K : forall s u k, stretches s u -> (k < List.length u)%nat -> nth k s 1%nat = 1%nat \/ nth k s 1%nat = nth k u 1%nat).
  { clear. intros s u k H. revert k. induction H as [|d e s u Hd H IH]; intros [|k] Hk; cbn in *; try lia; try exact Hd. apply IH. lia. }
  destruct (K s u (List.length u - S j)%nat H ltac:(lia)) as [->| ->]; [split; [auto|reflexivity]|].
  split; [auto|]. now destruct (Nat.eqb_spec (nth (List.length u - S j) u 1%nat) 1) as [->|].
Qed.
Lemma np_shape_one u : u <> [] -> np_shape [1%nat] u = Some u.
Proof.
  intro H. apply np_shape_spec. apply numpy_sym. apply numpy_ones; [intros d [<-|[]]; reflexivity| |reflexivity].
  destruct u; [congruence|cbn; lia].
Qed.
Lemma np_shape_comm s t u : np_shape s t = Some u -> np_shape t s = Some u.
Proof. rewrite !np_shape_spec. apply numpy_sym. Qed.
Lemma np_shape_laid a u : u <> [] -> laid a u -> np_shape (nsh a) u = Some u.
Proof.
  intros Hu [->|[->|H]]; [apply np_shape_nil|now apply np_shape_one|now apply np_shape_stretches].
Qed.

(* the element of a laid array used at an index *)
Lemma laid_at a u i : u <> [] -> laid a u -> index_in u i -> nel a (bidx (nsh a) i) = at_index a i.
Proof.
  intros Hu H Hi. destruct (bto_laid a u Hu H) as (v & V1 & V2 & V3). rewrite <- V3 by now apply index_in_len.
  unfold broadcast_to in V1. destruct (fits (nsh a) u); [|discriminate]. now injection V1 as <-.
Qed.
Lemma at_same a u i : nsh a = u -> index_in u i -> at_index a i = nel a i.
Proof. intros <- Hi. unfold at_index. destruct (nsh a) eqn:E; [now inversion Hi|]. now rewrite project_id. Qed.
Lemma laid_same a u : nsh a = u -> laid a u.
Proof. intros <-. right; right. apply stretches_refl. Qed.

(* arithmetic of arrays laid on a shape, one of them having it *)
Lemma op_laid f a b u : u <> [] -> laid a u -> laid b u -> nsh a = u \/ nsh b = u ->
  exists c, np_op f a b = Ok c /\ nsh c = u /\
    forall i, index_in u i -> nel c i = f (at_index a i) (at_index b i).
Proof.
  intros Hu La Lb Hn. unfold np_op.
  assert (S : np_shape (nsh a) (nsh b) = Some u).
  { destruct Hn as [Hn|Hn].
    - apply np_shape_comm. rewrite Hn. now apply np_shape_laid.
    - rewrite Hn. now apply np_shape_laid. }
  rewrite S. eexists; split; [reflexivity|]. split; [reflexivity|]. intros i Hi. cbn [nel].
  now rewrite !(laid_at _ u).
Qed.

(* ---- shapes of the arguments ---- *)
Definition flat (s : list nat) (a : nd) : Prop := nsh a = [1%nat] \/ List.length (nsh a) = List.length s.
Lemma flat_arg s a : s <> [] -> nsh a = [] \/ List.length (nsh a) = List.length s -> flat s (atleast_1d a).
Proof.
  intros Hs [H|H]; unfold flat, atleast_1d.
  - rewrite H. now left.
  - destruct (nsh a) eqn:E; [destruct s; [congruence|discriminate]|]. right. now rewrite E.
Qed.
Lemma flat_shape s s' a : List.length s = List.length s' -> flat s a -> flat s' a.
Proof. intros H [F|F]; [now left|right; congruence]. Qed.
Lemma flat_map s f a : flat s a -> flat s (np_map f a).
Proof. exact (fun H => H). Qed.
Lemma stretches_len s u : stretches s u -> List.length s = List.length u.
Proof. apply Forall2_len. Qed.
Lemma laid_up a s u : laid a s -> stretches s u -> laid a u.
Proof. intros [H|[H|H]] S; [now left|right; now left|right; right; eapply stretches_trans; eassumption]. Qed.

Lemma flat_broadcast s a u : s <> [] -> flat s a -> broadcast_shape (nsh a) s = Ok u ->
  u <> [] /\ stretches s u /\ laid a u.
Proof.
  intros Hs [F|F] B.
  - rewrite F in B. rewrite (proj2 (bs_number s Hs)) in B. injection B as <-.
    split; [exact Hs|]. split; [apply stretches_refl|right; now left].
  - assert (Hq : nsh a <> []) by (destruct (nsh a), s; try discriminate; congruence).
    assert (N : numpy_broadcast (nsh a) s u) by (apply broadcast_agrees; [now left|left; exact F|exact B]).
    destruct (combines_shape a s u Hs (or_intror (conj F N))) as (_ & _ & U0 & St & Sq & _).
    split; [exact U0|]. split; [exact St|]. destruct Sq as [Sq|Sq]; [now left|right; now right].
Qed.
Lemma nonempty_stretch s u : s <> [] -> stretches s u -> u <> [].
Proof. intros H S ->. inversion S. congruence. Qed.

Lemma pair_up_shape m a b r : shape m <> [] -> flat (shape m) a -> flat (shape m) b -> pair_up m a b = Ok r ->
  exists u, u <> [] /\ stretches (shape m) u /\ laid a u /\ laid b u /\ nsh (fst r) = u /\ nsh (snd r) = u /\
    (forall i, index_in u i -> nel (fst r) i = at_index a i) /\ (forall i, index_in u i -> nel (snd r) i = at_index b i).
Proof.
  intros Hs Fa Fb H. unfold pair_up in H. bi H s1 B1. bi H s2 B2. bi H a' A. bi H b' B. injection H as <-. cbn [fst snd].
  destruct (flat_broadcast _ _ _ Hs Fa B1) as (N1 & S1 & L1).
  destruct (flat_broadcast s1 b s2 N1) as (N2 & S2 & L2); [eapply flat_shape; [apply stretches_len, S1|exact Fb]|exact B2|].
  pose proof (laid_up _ _ _ L1 S2) as L1'.
  exists s2. split; [exact N2|]. split; [eapply stretches_trans; eassumption|]. split; [exact L1'|]. split; [exact L2|].
  destruct (bto_laid a s2 N2 L1') as (v & V1 & V2 & V3). rewrite V1 in A. injection A as <-.
  destruct (bto_laid b s2 N2 L2) as (w & W1 & W2 & W3). rewrite W1 in B. injection B as <-.
  split; [exact V2|]. split; [exact W2|]. split; intros i Hi; [apply V3|apply W3]; now apply index_in_len.
Qed.

(* ---- the property sums on stretched temperatures ---- *)
Lemma row_at m k u i : stretches (shape m) u -> shape m <> [] -> index_in u i ->
  at_index (row (x_q m) k) i = nel (x_q m) (k :: project (shape m) i).
Proof.
  intros S Hs Hi. unfold at_index. cbn [row nsh nel]. fold (shape m). destruct (shape m) eqn:E; [congruence|]. reflexivity.
Qed.
Lemma laid_row m k u : stretches (shape m) u -> laid (row (x_q m) k) u.
Proof. intro S. right; right. exact S. Qed.
Lemma prop_loop_str P r m T u names : u <> [] -> shape m <> [] -> stretches (shape m) u -> nsh T = u -> forall k pval, nsh pval = u ->
  exists v, prop_loop P r names (x_q m) k T pval = Ok v /\ nsh v = u /\
    forall i, index_in u i -> nel v i = fadd (nel pval i)
      (fsum (fun p => fmul (nel (x_q m) (fst p :: project (shape m) i)) (r (gas_of P (snd p)) (nel T i))) (combine (seq k (List.length names)) names)).
Proof.
  intros Hu Hs S HT. induction names as [|x names IH]; intros k pval Hp; cbn [prop_loop].
  - exists pval. split; [reflexivity|]. split; [exact Hp|]. intros i _. cbn. now rewrite fadd_0_r.
  - destruct (op_laid fmul (row (x_q m) k) (np_map (r (gas_of P x)) T) u Hu (laid_row m k u S) (laid_same _ _ HT) (or_intror HT)) as (t & -> & Ht & Et). cbn [bind].
    destruct (op_same fadd pval t u Hp Ht) as (w & -> & Hw & Ew). cbn [bind].
    destruct (IH (Datatypes.S k) w Hw) as (v & V1 & V2 & V3). exists v. split; [exact V1|]. split; [exact V2|].
    intros i Hi. rewrite (V3 i Hi), (Ew i Hi), (Et i Hi), (row_at m k u i S Hs Hi), (at_same _ u) by assumption.
    cbn [List.length seq combine fsum fst snd nel np_map]. now rewrite fadd_assoc.
Qed.
Lemma propeval_str P m r T u : u <> [] -> shape m <> [] -> stretches (shape m) u -> nsh T = u -> x_c m <> [] ->
  exists v, propeval P m r T = Ok v /\ nsh v = u /\
    forall i, index_in u i -> nel v i =
      fsum (fun p => fmul (nel (x_q m) (fst p :: project (shape m) i)) (r (gas_of P (snd p)) (nel T i)))
        (combine (seq 0 (List.length (x_c m))) (x_c m)).
Proof.
  intros Hu Hs S HT Hne. unfold propeval. destruct (x_c m) as [|x names]; [congruence|]. cbn [prop_loop].
  destruct (op_laid fmul (row (x_q m) 0) (np_map (r (gas_of P x)) T) u Hu (laid_row m 0 u S) (laid_same _ _ HT) (or_intror HT)) as (t & -> & Ht & Et). cbn [bind].
  destruct (op_nil fadd (scalar 0) t u eq_refl Ht) as (w & -> & Hw & Ew). cbn [bind].
  destruct (prop_loop_str P r m T u names Hu Hs S HT 1%nat w Hw) as (v & V1 & V2 & V3).
  exists v. split; [exact V1|]. split; [exact V2|]. intros i Hi. rewrite (V3 i Hi), (Ew i Hi), (Et i Hi), (row_at m 0 u i S Hs Hi), (at_same _ u) by assumption.
  cbn [scalar nel]. rewrite fadd_0_l. cbn [List.length seq combine fsum fst snd row nel np_map]. reflexivity.
Qed.

(* ---- the pressure part keeps the shape of the pressure ---- *)
Lemma sp_loop_shape P q qt p : forall names k sp a, sp_loop P names q qt k p sp = Ok a -> nsh a = nsh sp.
Proof.
  induction names as [|s names IH]; intros k sp a H; cbn [sp_loop] in H; [now injection H as <-|].
  bi H t1 H1. bi H t2 H2. destruct (mask_fits _ _); [|discriminate]. bi H u0 H3. bi H v H4. apply IH in H. exact H.
Qed.
Lemma sp_of_shape P m p a : sp_of P m p = Ok a -> nsh a = nsh p.
Proof. intro H. unfold sp_of in H. bi H s H1. injection H as <-. apply sp_loop_shape in H1. exact H1. Qed.

Lemma laid_sum_rows m u : stretches (shape m) u -> laid (sum_rows (x_q m)) u.
Proof. intro S. right; right. exact S. Qed.
Lemma laid_pref P m u : stretches (shape m) u -> laid (pref_of P m) u.
Proof.
  intro S. unfold pref_of. destruct (map _ (x_c m)); [now left|]. destruct (forallb _ _); [now left|]. right; right. exact S.
Qed.

Lemma p_from_s_str P m s T u : u <> [] -> shape m <> [] -> stretches (shape m) u -> laid s u -> nsh T = u -> x_c m <> [] ->
  exists p, p_from_s P m s T = Ok p /\ nsh p = u /\ forall i, index_in u i ->
    nel p i = fmul (at_index (pref_of P m) i) (fexp (fdiv (fdiv (lift1 Ropp
      (fadd (fsub (at_index s i)
        (fsum (fun p => fmul (nel (x_q m) (fst p :: project (shape m) i)) (fst (g_s (gas_of P (snd p)) (nel T i))))
          (combine (seq 0 (List.length (x_c m))) (x_c m))))
       (fmul (Some const_Ru) (fold_left (fun acc k =>
         fadd acc (fmul (nel (x_q m) (k :: project (shape m) i))
           (flog (if fle (nel (x_q m) (k :: project (shape m) i)) (Some 0) then Some 1
                  else fdiv (nel (x_q m) (k :: project (shape m) i)) (nel (sum_rows (x_q m)) (project (shape m) i))))))
        (seq 0 (hd 0%nat (nsh (x_q m)))) (Some 0))))) (Some const_Ru)) (nel (sum_rows (x_q m)) (project (shape m) i)))).
Proof.
  intros Hu Hs S Ls HT Hne. unfold p_from_s.
  destruct (propeval_str P m (fun g x => fst (g_s g x)) T u Hu Hs S HT Hne) as (t & -> & Ht & Et). cbn [bind].
  destruct (op_laid fsub s t u Hu Ls (laid_same _ _ Ht) (or_intror Ht)) as (sp & -> & Hsp & Esp). cbn [bind].
  match goal with |- context [np_op fadd sp ?x] => set (mx := x) end.
  assert (Lx : laid mx u) by (right; right; exact S).
  destruct (op_laid fadd sp mx u Hu (laid_same _ _ Hsp) Lx (or_introl Hsp)) as (s2 & -> & H2 & E2). cbn [bind].
  destruct (op_laid fdiv (np_map (fun x => fdiv (lift1 Ropp x) (Some const_Ru)) s2) (sum_rows (x_q m)) u Hu
    (laid_same _ _ H2) (laid_sum_rows m u S) (or_introl H2)) as (ex & -> & Hx & Ex). cbn [bind].
  destruct (op_laid fmul (pref_of P m) (np_map fexp ex) u Hu (laid_pref P m u S) (laid_same _ _ Hx) (or_intror Hx)) as (pp & -> & Hp & Ep).
  exists pp. split; [reflexivity|]. split; [exact Hp|]. intros i Hi.
  rewrite (Ep i Hi). rewrite (at_same (np_map fexp ex) u) by assumption. cbn [np_map nel]. rewrite (Ex i Hi).
  rewrite (at_same (np_map (fun x => fdiv (lift1 Ropp x) (Some const_Ru)) s2) u) by assumption. cbn [np_map nel]. rewrite (E2 i Hi).
  rewrite (at_same sp u), (Esp i Hi), (at_same t u), (Et i Hi) by assumption.
  assert (A1 : forall a, nsh a = shape m -> at_index a i = nel a (project (shape m) i)).
  { intros a Ha. unfold at_index. rewrite Ha. destruct (shape m); [congruence|reflexivity]. }
  rewrite (A1 mx eq_refl), (A1 (sum_rows (x_q m)) eq_refl). reflexivity.
Qed.

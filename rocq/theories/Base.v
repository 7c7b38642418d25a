(* Shared vocabulary of the models: Python exceptions as values and Python
   dictionaries as association lists. *)
From Coq Require Export List String Bool.
Export ListNotations.

(* The exceptions the modelled code can raise.  PMParamError .. PMFileError are
   the package's own (src/pyromat/utility.py 19-56); the others are Python's. *)
Inductive exn : Type :=
| PMParamError | PMDataError | PMFileError | PMAnalysisError
| EKeyError | ETypeError | ENameError | EIndexError | EAttributeError
| EValueError | EZeroDivision | EUnboundLocal | EException
| EOutOfFuel.   (* not a Python exception: a model loop ran out of fuel *)

Inductive res (A : Type) : Type :=
| Ok : A -> res A
| Err : exn -> res A.
Arguments Ok {A} _.
Arguments Err {A} _.

Definition bind {A B} (x : res A) (f : A -> res B) : res B :=
  match x with Ok a => f a | Err e => Err e end.
Notation "'do' x <- a ; b" := (bind a (fun x => b))
  (at level 200, x pattern, a at level 100, b at level 200, right associativity).

Definition is_ok {A} (x : res A) : bool :=
  match x with Ok _ => true | Err _ => false end.

(* Python dict with string keys, in insertion order. *)
Fixpoint dget {A} (k : string) (d : list (string * A)) : option A :=
  match d with
  | [] => None
  | (k', v) :: d' => if String.eqb k k' then Some v else dget k d'
  end.

(* d[k] = v : replaces in place, or appends a new key. *)
Fixpoint dset {A} (k : string) (v : A) (d : list (string * A)) : list (string * A) :=
  match d with
  | [] => [(k, v)]
  | (k', v') :: d' => if String.eqb k k' then (k', v) :: d' else (k', v') :: dset k v d'
  end.

Definition dmem {A} (k : string) (d : list (string * A)) : bool :=
  match dget k d with Some _ => true | None => false end.

Fixpoint ddel {A} (k : string) (d : list (string * A)) : list (string * A) :=
  match d with
  | [] => []
  | (k', v) :: d' => if String.eqb k k' then ddel k d' else (k', v) :: ddel k d'
  end.

Definition dkeys {A} (d : list (string * A)) : list string := map fst d.

Lemma dget_dset_same {A} k (v : A) d : dget k (dset k v d) = Some v.
Proof.
  induction d as [|[k' v'] d IH]; cbn.
  - now rewrite String.eqb_refl.
  - destruct (String.eqb k k') eqn:E; cbn; now rewrite E.
Qed.

Lemma dget_dset_other {A} k k' (v : A) d :
  k <> k' -> dget k (dset k' v d) = dget k d.
Proof.
  intro H; induction d as [|[k2 v2] d IH]; cbn.
  - destruct (String.eqb_spec k k'); congruence.
  - destruct (String.eqb_spec k' k2) as [->|]; cbn.
    + destruct (String.eqb_spec k k2); congruence.
    + destruct (String.eqb k k2); auto.
Qed.

Lemma dget_some_in {A} k (v : A) d : dget k d = Some v -> In (k, v) d.
Proof.
  induction d as [|[k' v'] d IH]; cbn; [discriminate|].
  destruct (String.eqb_spec k k') as [->|]; intro H.
  - injection H as ->; now left.
  - right; auto.
Qed.

Lemma dget_none_iff {A} k (d : list (string * A)) : dget k d = None <-> ~ In k (dkeys d).
Proof.
  induction d as [|[k' v'] d IH]; cbn; [intuition|].
  destruct (String.eqb_spec k k') as [->|Hn].
  - split; [discriminate | intro H; exfalso; apply H; now left].
  - rewrite IH; intuition congruence.
Qed.

Lemma dget_in_keys {A} k (d : list (string * A)) :
  (exists v, dget k d = Some v) <-> In k (dkeys d).
Proof.
  destruct (dget k d) as [v|] eqn:E.
  - split; [intros _ | eauto].
    apply dget_some_in in E. apply (in_map fst) in E. exact E.
  - apply dget_none_iff in E. split; [intros [v H]; discriminate | contradiction].
Qed.

Lemma dget_in_nodup {A} k (v : A) d :
  NoDup (dkeys d) -> In (k, v) d -> dget k d = Some v.
Proof.
  induction d as [|[k' v'] d IH]; cbn; intros Hnd Hin; [contradiction|].
  inversion Hnd as [|? ? Hni Hnd']; subst.
  destruct Hin as [Heq|Hin].
  - injection Heq as -> ->. now rewrite String.eqb_refl.
  - destruct (String.eqb_spec k k') as [->|]; auto.
    exfalso; apply Hni. apply (in_map fst) in Hin. exact Hin.
Qed.

Lemma dset_keys {A} k (v : A) d x : In x (dkeys (dset k v d)) <-> x = k \/ In x (dkeys d).
Proof.
  induction d as [|[k' v'] d IH]; cbn; [intuition|].
  destruct (String.eqb_spec k k') as [->|]; cbn; [intuition|].
  rewrite IH; intuition.
Qed.

Lemma dset_nodup {A} k (v : A) d : NoDup (dkeys d) -> NoDup (dkeys (dset k v d)).
Proof.
  induction d as [|[k' v'] d IH]; cbn; intro H.
  - constructor; [intros []|constructor].
  - inversion H as [|? ? Hni Hnd]; subst.
    destruct (String.eqb_spec k k') as [->|Hk]; cbn; [exact H|].
    constructor; [|auto]. intro Hc; apply (proj1 (dset_keys k v d k')) in Hc; destruct Hc as [->|]; auto.
Qed.

Lemma ddel_keys {A} k (d : list (string * A)) x :
  In x (dkeys (ddel k d)) <-> x <> k /\ In x (dkeys d).
Proof.
  induction d as [|[k' v'] d IH]; cbn; [intuition|].
  destruct (String.eqb_spec k k') as [->|]; cbn; rewrite IH; intuition congruence.
Qed.

Lemma dget_ddel_other {A} k k' (d : list (string * A)) :
  k <> k' -> dget k (ddel k' d) = dget k d.
Proof.
  intro H; induction d as [|[k2 v2] d IH]; cbn; [reflexivity|].
  destruct (String.eqb_spec k' k2) as [->|]; cbn.
  - destruct (String.eqb_spec k k2); congruence.
  - destruct (String.eqb k k2); auto.
Qed.

Lemma dget_ddel_same {A} k (d : list (string * A)) : dget k (ddel k d) = None.
Proof. apply dget_none_iff. rewrite ddel_keys. tauto. Qed.

Lemma dmem_true {A} k (d : list (string * A)) : dmem k d = true <-> exists v, dget k d = Some v.
Proof. unfold dmem; destruct (dget k d); split; eauto; try discriminate; intros [? ?]; discriminate. Qed.

Lemma dmem_false {A} k (d : list (string * A)) : dmem k d = false <-> dget k d = None.
Proof. unfold dmem; destruct (dget k d); split; congruence. Qed.

(* Proofs about the generic solver. *)
From Coq Require Import Reals List Bool Arith String Lra Lia.
From Verif Require Import Base Model_Hybrid Model_Solve Spec_Solve.
Import ListNotations.
Local Open Scope R_scope.
Local Open Scope string_scope.
Local Open Scope list_scope.

Lemma bind_ok {A B} (a : res A) (f : A -> res B) b : bind a f = Ok b -> exists x, a = Ok x /\ f x = Ok b.
Proof. destruct a as [x|e]; simpl; intro H; [exists x; auto | discriminate]. Qed.

(* ---- dictionaries ---- *)
Lemma merge_get (kw : sargs) : NoDup (dkeys kw) -> forall d k,
  dget k (fold_left (fun c kv => dset (fst kv) (snd kv) c) kw d) = match dget k kw with Some v => Some v | None => dget k d end.
Proof.
  induction kw as [|[k0 v0] kw IH]; intros ND d k; [reflexivity|].
  inversion ND as [|? ? NI ND']; subst.
  cbn [fold_left fst snd dget]. rewrite (IH ND').
  destruct (String.eqb k k0) eqn:E.
  - apply String.eqb_eq in E. subst k.
    assert (dget k0 kw = None) as -> by (apply dget_none_iff; exact NI).
    rewrite dget_dset_same. reflexivity.
  - destruct (dget k kw); [reflexivity|]. apply dget_dset_other. apply String.eqb_neq in E. congruence.
Qed.
Lemma merge_nodup (kw d : sargs) : NoDup (dkeys d) -> NoDup (dkeys (fold_left (fun c kv => dset (fst kv) (snd kv) c) kw d)).
Proof.
  revert d. induction kw as [|[k0 v0] kw IH]; intros d ND; [exact ND|]. cbn [fold_left]. apply IH. apply dset_nodup, ND.
Qed.
Lemma ddel_nodup {A} k (d : list (string * A)) : NoDup (dkeys d) -> NoDup (dkeys (ddel k d)).
Proof.
  induction d as [|[k' v] d IH]; intro ND; [exact ND|].
  inversion ND as [|? ? NI ND']; subst. cbn [ddel].
  destruct (String.eqb k k'); [apply IH, ND'|].
  cbn. constructor; [|apply IH, ND'].
  intro Q. apply ddel_keys in Q. exact (NI (proj2 Q)).
Qed.

(* ---- the iteration over iterable arguments ---- *)
Lemma in_get (k : string) (v : sarg) (args : sargs) : NoDup (dkeys args) -> (In (k, v) args <-> dget k args = Some v).
Proof. intro ND. split; [intro H; apply dget_in_nodup; assumption | apply dget_some_in]. Qed.

Lemma vec_keys_in args : forall N n ks, vec_keys N args = Ok (n, ks) ->
  forall k, In k ks <-> exists l, In (k, Vec l) args /\ List.length l <> 1%nat.
Proof.
  induction args as [|[k0 [x|l0]] args IH]; intros N n ks H k; cbn [vec_keys] in H.
  - injection H as <- <-. split; [intros [] | intros (l & [] & _)].
  - rewrite (IH _ _ _ H k). split; intros (l & Hl & Hn); exists l; (split; [|exact Hn]).
    + right. exact Hl.
    + destruct Hl as [Q|Q]; [discriminate | exact Q].
  - destruct (Nat.eqb (List.length l0) 1) eqn:E1.
    + apply Nat.eqb_eq in E1. rewrite (IH _ _ _ H k). split; intros (l & Hl & Hn); exists l; (split; [|exact Hn]).
      * right. exact Hl.
      * destruct Hl as [Q|Q]; [injection Q as <- <-; contradiction | exact Q].
    + apply Nat.eqb_neq in E1.
      assert (Aux : forall M, (do r <- vec_keys M args; (let (n, ks) := r in Ok (n, k0 :: ks))) = Ok (n, ks) ->
                In k ks <-> (exists l, In (k, Vec l) ((k0, Vec l0) :: args) /\ List.length l <> 1%nat)).
      { intros M Q. apply bind_ok in Q. destruct Q as ((n', ks') & Q1 & Q2). injection Q2 as -> <-.
        pose proof (IH _ _ _ Q1 k) as W. cbn [In]. rewrite W. split.
        - intros [Q|(l & Hl & Hn)]; [subst k0; exists l0; auto | exists l; auto].
        - intros (l & [Q|Q] & Hn); [injection Q as <- <-; auto | right; exists l; auto]. }
      destruct (Nat.eqb N 1); [exact (Aux _ H)|].
      destruct (Nat.eqb N (List.length l0)); [exact (Aux _ H)|discriminate].
Qed.

Lemma vec_keys_scalar args : (forall k l, In (k, Vec l) args -> List.length l = 1%nat) -> vec_keys 1 args = Ok (1%nat, []).
Proof.
  induction args as [|[k0 [x|l0]] args IH]; intro H; cbn [vec_keys]; [reflexivity | |].
  - apply IH. intros k l Q. apply (H k l). right. exact Q.
  - rewrite (H k0 l0 (or_introl eq_refl)). cbn [Nat.eqb]. apply IH. intros k l Q. apply (H k l). right. exact Q.
Qed.

Lemma vec_keys_fine args : forall N n, same_lengths (map snd args) n -> n <> 1%nat -> N = 1%nat \/ N = n ->
  exists ks, vec_keys N args = Ok (if existsb (fun kv => match snd kv with Vec l => negb (Nat.eqb (List.length l) 1) | Sca _ => false end) args then n else N, ks).
Proof.
  induction args as [|[k0 [x|l0]] args IH]; intros N n H Hn HN; cbn [vec_keys existsb map snd] in *.
  - exists []. reflexivity.
  - destruct (IH N n (fun a Ha => H a (or_intror Ha)) Hn HN) as (ks & ->). exists ks. reflexivity.
  - destruct (Nat.eqb (List.length l0) 1) eqn:E1; cbn [negb orb].
    + destruct (IH N n (fun a Ha => H a (or_intror Ha)) Hn HN) as (ks & ->). exists ks. reflexivity.
    + apply Nat.eqb_neq in E1. destruct (H l0 (or_introl eq_refl)) as [Q|Q]; [contradiction|]. rewrite Q.
      destruct (IH n n (fun a Ha => H a (or_intror Ha)) Hn (or_intror eq_refl)) as (ks & W).
      assert (W' : vec_keys n args = Ok (n, ks)).
      { rewrite W. destruct (existsb _ args); reflexivity. }
      destruct HN as [->| ->].
      * cbn [Nat.eqb]. rewrite W'. cbn. eexists. reflexivity.
      * destruct (Nat.eqb n 1) eqn:E2; [apply Nat.eqb_eq in E2; contradiction|]. rewrite Nat.eqb_refl, W'. cbn. eexists. reflexivity.
Qed.

Lemma vec_copy_get iter args k :
  dget k (vec_copy iter args) = if existsb (String.eqb k) iter then None else dget k args.
Proof.
  unfold vec_copy. induction args as [|[k0 v0] args IH]; cbn [filter fst dget].
  - destruct (existsb _ iter); reflexivity.
  - destruct (existsb (String.eqb k0) iter) eqn:E0; cbn [negb].
    + rewrite IH. destruct (String.eqb k k0) eqn:E; [|reflexivity].
      apply String.eqb_eq in E. subst. rewrite E0. reflexivity.
    + cbn [dget]. destruct (String.eqb k k0) eqn:E; [|exact IH].
      apply String.eqb_eq in E. subst. rewrite E0. reflexivity.
Qed.

Lemma existsb_in k (l : list string) : existsb (String.eqb k) l = true <-> In k l.
Proof.
  rewrite existsb_exists. split.
  - intros (x & Hx & E). apply String.eqb_eq in E. subst. exact Hx.
  - intro H. exists k. split; [exact H | apply String.eqb_refl].
Qed.

Lemma vec_at_out args i k iter : forall copy, ~ In k iter -> dget k (vec_at args i iter copy) = dget k copy.
Proof.
  unfold vec_at. induction iter as [|k0 iter IH]; intros copy NI; [reflexivity|]. cbn [fold_left].
  rewrite IH; [|intro Q; apply NI; right; exact Q].
  destruct (dget k0 args) as [[x|l]|]; try reflexivity.
  apply dget_dset_other. intro Q. apply NI. left. congruence.
Qed.
Lemma vec_at_in args i k l iter : dget k args = Some (Vec l) -> forall copy,
  In k iter -> dget k (vec_at args i iter copy) = Some (Sca (nth i l NaN)).
Proof.
  intro G. unfold vec_at. induction iter as [|k0 iter IH]; intros copy HI; [destruct HI|].
  destruct (in_dec string_dec k iter) as [Q|Q]; [exact (IH _ Q)|].
  destruct HI as [->|W]; [|contradiction]. cbn [fold_left].
  rewrite G. etransitivity; [exact (vec_at_out args i k iter _ Q) | apply dget_dset_same].
Qed.

(* the arguments of element i before the parameter is set *)
Definition base_args (args : sargs) (i : nat) (k : string) : option sarg := option_map (at_element i) (dget k args).

Lemma vec_at_base args N n iter i copy p :
  NoDup (dkeys args) -> vec_keys N args = Ok (n, iter) ->
  (forall k, k <> p -> ~ In k iter -> dget k copy = dget k args) ->
  forall k, k <> p -> dget k (vec_at args i iter copy) = base_args args i k.
Proof.
  intros ND V C k Hk. unfold base_args.
  destruct (in_dec string_dec k iter) as [Q|Q].
  - destruct (proj1 (vec_keys_in _ _ _ _ V k) Q) as (l & Hl & Hn). apply (in_get _ _ _ ND) in Hl.
    rewrite (vec_at_in _ _ _ _ _ Hl _ Q), Hl. cbn.
    apply Nat.eqb_neq in Hn. rewrite Hn. reflexivity.
  - rewrite vec_at_out by exact Q. rewrite (C k Hk Q).
    destruct (dget k args) as [[x|l]|] eqn:G; cbn; try reflexivity.
    destruct (Nat.eqb (List.length l) 1) eqn:E; [reflexivity|]. exfalso. apply Q.
    apply (proj2 (vec_keys_in _ _ _ _ V k)). exists l. split; [apply in_get; assumption | apply Nat.eqb_neq; exact E].
Qed.

(* ---- one element ---- *)
Lemma search_keeps S lim y thr n : forall x xo dx ae copy r c,
  search n S lim y thr x xo dx ae copy = Ok (r, c) -> same_but (s_param S) copy c.
Proof.
  induction n as [|n IH]; intros x xo dx ae copy r c H; cbn [search] in H.
  - injection H as <- <-. intros k _. reflexivity.
  - apply bind_ok in H. destruct H as ((f, df) & E & H). cbv zeta in H.
    assert (B : same_but (s_param S) copy (dset (s_param S) (Sca x) copy)).
    { intros k Hk. symmetry. apply dget_dset_other. congruence. }
    destruct (xlt _ thr).
    + injection H as <- <-. exact B.
    + assert (same_but (s_param S) (dset (s_param S) (Sca x) copy) c) as W.
      { destruct (negb _); exact (IH _ _ _ _ _ _ _ H). }
      intros k Hk. rewrite (B k Hk). exact (W k Hk).
Qed.

Lemma fdf_property S a f d : fdf S a = Ok (f, d) -> property S a = Ok f.
Proof.
  unfold fdf, property. destruct (s_mode S) as [g|nm g|nm g dg]; intro H.
  - rewrite H. reflexivity.
  - apply bind_ok in H. destruct H as (f0 & E & H). destruct (dget (s_param S) a) as [[x0|]|]; try discriminate.
    apply bind_ok in H. destruct H as (f1 & E1 & H). injection H as <- _. exact E.
  - apply bind_ok in H. destruct H as (f0 & E & H). apply bind_ok in H. destruct H as (d0 & E0 & H). injection H as <- _. exact E.
Qed.

Lemma search_converged S lim y thr n : forall x xo dx ae copy v c,
  search n S lim y thr x xo dx ae copy = Ok (Some v, c) ->
  exists f, property S c = Ok f /\ xlt (xabs (xsub f y)) thr = true /\ dget (s_param S) c = Some (Sca v).
Proof.
  induction n as [|n IH]; intros x xo dx ae copy v c H; cbn [search] in H; [discriminate|].
  apply bind_ok in H. destruct H as ((f, df) & E & H). cbv zeta in H.
  destruct (xlt _ thr) eqn:T.
  - injection H as <- <-. exists f. split; [exact (fdf_property _ _ _ _ E)|]. split; [exact T | apply dget_dset_same].
  - destruct (negb _); exact (IH _ _ _ _ _ _ _ H).
Qed.

Lemma one_parts S y copy r c : solve_one S y copy = Ok (r, c) -> exists lim x,
  the_limits S copy = Ok lim /\ the_guess S lim copy = Ok x /\ s_max S <> 0%nat /\
  search (s_max S) S lim y (threshold S y) x x (Fin 0) PInf copy = Ok (r, c).
Proof.
  unfold solve_one. intro H. apply bind_ok in H. destruct H as (lim & E1 & H). apply bind_ok in H. destruct H as (x & E2 & H).
  apply bind_ok in H. destruct H as (q & E3 & H). exists lim, x.
  destruct (s_max S) eqn:M; [discriminate|]. injection H as ->. auto.
Qed.

(* the elements of a call *)
Lemma from_nth S y itery args N0 n0 iter :
  NoDup (dkeys args) -> vec_keys N0 args = Ok (n0, iter) ->
  forall n i copy out, (forall k, k <> s_param S -> ~ In k iter -> dget k copy = dget k args) ->
  solve_from S y itery args iter i n copy = Ok out ->
  List.length out = n /\
  forall j v, nth_error out j = Some v -> exists a r c,
    (forall k, k <> s_param S -> dget k a = base_args args (i + j) k) /\
    solve_one S (vec_target y itery (i + j)) a = Ok (r, c) /\ v = match r with Some x => x | None => Fin 0 end.
Proof.
  intros ND V. induction n as [|n IH]; intros i copy out C H; cbn [solve_from] in H.
  - injection H as <-. split; [reflexivity|]. intros [|j] v Q; discriminate Q.
  - cbv zeta in H. apply bind_ok in H. destruct H as ((r, c) & E & H). apply bind_ok in H. destruct H as (rest & R & H).
    injection H as <-.
    pose proof (vec_at_base args N0 n0 iter i copy (s_param S) ND V C) as B.
    destruct (one_parts _ _ _ _ _ E) as (lim & x & _ & _ & _ & K).
    pose proof (search_keeps _ _ _ _ _ _ _ _ _ _ _ _ K) as K'.
    assert (C' : forall k, k <> s_param S -> ~ In k iter -> dget k c = dget k args).
    { intros k Hk Q. rewrite <- (K' k Hk), vec_at_out by exact Q. exact (C k Hk Q). }
    destruct (IH _ _ _ C' R) as (L & W). split; [cbn; rewrite L; reflexivity|].
    intros [|j] v Q.
    + injection Q as <-. rewrite Nat.add_0_r. exists (vec_at args i iter copy), r, c. split; [exact B|]. split; [exact E | reflexivity].
    + cbn in Q. destruct (W j v Q) as (a & r' & c' & W1 & W2 & W3). exists a, r', c'.
      replace (i + Datatypes.S j)%nat with (i + 1 + j)%nat by lia. auto.
Qed.

Lemma vec_target_at t i : vec_target t (snd (vec_y t)) i = target_at i t.
Proof. destruct t as [x|l]; [reflexivity|]. cbn. destruct (Nat.eqb _ 1); reflexivity. Qed.

(* the parts of a call *)
Lemma call_parts S y kw out : NoDup (dkeys (s_defaults S)) -> NoDup (dkeys kw) -> solve_call S y kw = Ok out ->
  exists name t args n iter, prop_name S = Ok name /\ target_is S y kw t /\ NoDup (dkeys args) /\
    (forall k, dget k args = if String.eqb k name then None else given S kw k) /\
    vec_keys (fst (vec_y t)) args = Ok (n, iter) /\
    solve_from S t (snd (vec_y t)) args iter 0 n (vec_copy iter args) = Ok out.
Proof.
  intros ND NK H. unfold solve_call in H. cbv zeta in H.
  set (m := fold_left (fun c kv => dset (fst kv) (snd kv) c) kw (s_defaults S)) in H.
  assert (G : forall k, dget k m = given S kw k) by (intro k; apply merge_get; exact NK).
  assert (NM : NoDup (dkeys m)) by (apply merge_nodup; exact ND).
  apply bind_ok in H. destruct H as (name & En & H). apply bind_ok in H. destruct H as ((t, args) & Et & H).
  destruct (vec_y t) as (N, itery) eqn:Ey. apply bind_ok in H. destruct H as ((n, iter) & Ek & H).
  exists name, t, args, n, iter. rewrite Ey. cbn [fst snd].
  split; [exact En|].
  destruct (dget name m) as [v|] eqn:Gn; destruct y as [t'|]; try discriminate Et; injection Et as <- <-.
  - split; [exists name; split; [exact En|]; right; split; [reflexivity | rewrite <- G; exact Gn]|].
    split; [apply ddel_nodup, NM|]. split; [|split; assumption].
    intro k. destruct (String.eqb k name) eqn:E.
    + apply String.eqb_eq in E. subst. apply dget_ddel_same.
    + apply String.eqb_neq in E. rewrite dget_ddel_other by exact E. apply G.
  - split; [exists name; split; [exact En|]; left; split; [reflexivity | rewrite <- G; exact Gn]|].
    split; [exact NM|]. split; [|split; assumption].
    intro k. destruct (String.eqb k name) eqn:E; [|apply G].
    apply String.eqb_eq in E. subst. exact Gn.
Qed.
Lemma copy_agrees S args iter k : k <> s_param S -> ~ In k iter -> dget k (vec_copy iter args) = dget k args.
Proof.
  intros _ Q. rewrite vec_copy_get. destruct (existsb (String.eqb k) iter) eqn:E; [|reflexivity].
  exfalso. apply Q, existsb_in, E.
Qed.

Lemma target_unique S y kw t t' : target_is S y kw t -> target_is S y kw t' -> t = t'.
Proof.
  intros (n & E & [(A & _)|(A & B)]) (n' & E' & [(A' & _)|(A' & B')]); congruence.
Qed.

(* ---- the answer is within tolerance ---- *)
Lemma tolerance_lemma S y kw out t i v :
  NoDup (dkeys (s_defaults S)) -> NoDup (dkeys kw) ->
  target_is S y kw t -> solve_call S y kw = Ok out -> nth_error out i = Some v ->
  v = Fin 0 \/
  exists a f, element_args S kw i v a /\ property S a = Ok f /\
    xlt (xabs (xsub f (target_at i t))) (threshold S (target_at i t)) = true.
Proof.
  intros ND NK Ht H Hi. destruct (call_parts _ _ _ _ ND NK H) as (name & t' & args & n & iter & En & Ht' & NA & G & V & F).
  rewrite (target_unique _ _ _ _ _ Ht' Ht) in *. clear Ht'.
  destruct (from_nth S t (snd (vec_y t)) args _ _ iter NA V n 0 _ out (fun k => copy_agrees S args iter k) F) as (_ & W).
  destruct (W i v Hi) as (a & r & c & A & E & Q). rewrite Nat.add_0_l in *. rewrite vec_target_at in E.
  destruct r as [x|]; [|left; exact Q]. right. subst v.
  destruct (one_parts _ _ _ _ _ E) as (lim & x0 & _ & _ & _ & K).
  destruct (search_converged _ _ _ _ _ _ _ _ _ _ _ _ K) as (f & P1 & P2 & P3).
  exists c, f. split; [|split; assumption].
  intros name' En' k. assert (name' = name) as -> by congruence.
  destruct (String.eqb k (s_param S)) eqn:Ep.
  - apply String.eqb_eq in Ep. subst. exact P3.
  - apply String.eqb_neq in Ep. rewrite <- (search_keeps _ _ _ _ _ _ _ _ _ _ _ _ K k Ep), (A k Ep).
    unfold base_args. rewrite G. destruct (String.eqb k name); reflexivity.
Qed.

Lemma within_real S f t sm ep : s_small S = Fin sm -> s_eps S = Fin ep ->
  xlt (xabs (xsub f (Fin t))) (threshold S (Fin t)) = true -> exists u, f = Fin u /\ Rabs (u - t) < Rmax sm (Rabs (ep * t)).
Proof.
  intros Es Ee H. unfold threshold in H. rewrite Es, Ee in H. cbn [xmul xabs] in H.
  assert (T : pymax (Fin sm) (Fin (Rabs (ep * t))) = Fin (Rmax sm (Rabs (ep * t)))).
  { unfold pymax. cbn [xlt]. destruct (Rlt_dec sm (Rabs (ep * t))) as [L|L].
    - rewrite Rmax_right by lra. reflexivity.
    - rewrite Rmax_left by lra. reflexivity. }
  rewrite T in H. destruct f as [u| | |]; try discriminate H.
  exists u. split; [reflexivity|].
  replace (xabs (xsub (Fin u) (Fin t))) with (Fin (Rabs (u - t))) in H by reflexivity.
  cbn [xlt] in H. destruct (Rlt_dec _ _) as [L|L] in H; [exact L | discriminate H].
Qed.

(* ---- the array call agrees with scalar calls ---- *)
Lemma fdf_same S a b : well_behaved S -> same_args a b -> fdf S a = fdf S b.
Proof.
  unfold well_behaved, fdf. destruct (s_mode S) as [g|nm g|nm g dg]; intros W E.
  - exact (W a b E).
  - rewrite (W a b E), (E (s_param S)). destruct (g b) as [f0|]; cbn [bind]; [|reflexivity].
    destruct (dget (s_param S) b) as [[x0|]|]; try reflexivity.
    rewrite (W (dset (s_param S) (Sca (xadd x0 (pymax (xabs (xmul x0 (s_eps S))) (s_small S)))) a)
               (dset (s_param S) (Sca (xadd x0 (pymax (xabs (xmul x0 (s_eps S))) (s_small S)))) b)); [reflexivity|].
    intro k. destruct (string_dec k (s_param S)) as [->|Q]; [rewrite !dget_dset_same; reflexivity|].
    rewrite !dget_dset_other by congruence. apply E.
  - destruct (W a b E) as (W1 & W2). rewrite W1, W2. reflexivity.
Qed.

Lemma search_same S lim y thr n : well_behaved S -> forall x xo dx ae a b r c,
  same_but (s_param S) a b -> search n S lim y thr x xo dx ae a = Ok (r, c) ->
  exists c', search n S lim y thr x xo dx ae b = Ok (r, c').
Proof.
  intro W. induction n as [|n IH]; intros x xo dx ae a b r c E H; cbn [search] in *.
  - injection H as <- <-. exists b. reflexivity.
  - assert (E' : same_args (dset (s_param S) (Sca x) a) (dset (s_param S) (Sca x) b)).
    { intro k. destruct (string_dec k (s_param S)) as [->|Q]; [rewrite !dget_dset_same; reflexivity|].
      rewrite !dget_dset_other by congruence. exact (E k Q). }
    rewrite (fdf_same S _ _ W E') in H. destruct (fdf S _) as [[f df]|]; [|discriminate]. cbn [bind] in *. cbv zeta in *.
    destruct (xlt _ thr).
    + injection H as <- <-. eexists. reflexivity.
    + destruct (negb _); exact (IH _ _ _ _ _ _ _ _ (fun k _ => E' k) H).
Qed.

Lemma one_same S y a b r c : well_behaved S -> ignores_parameter S -> same_but (s_param S) a b ->
  solve_one S y a = Ok (r, c) -> exists c', solve_one S y b = Ok (r, c').
Proof.
  intros W (I1 & I2) E H. destruct (one_parts _ _ _ _ _ H) as (lim & x & L & G & M & K).
  unfold solve_one.
  assert (L' : the_limits S b = Ok lim).
  { rewrite <- L. unfold the_limits. destruct (s_lim S) as [[lo hi|f]|]; try reflexivity. rewrite (I2 a b E). reflexivity. }
  assert (G' : the_guess S lim b = Ok x).
  { rewrite <- G. unfold the_guess. destruct (s_init S) as [[g|f]|]; try reflexivity. rewrite (I1 a b E). reflexivity. }
  rewrite L'. cbn [bind]. rewrite G'. cbn [bind].
  destruct (search_same _ _ _ _ _ W _ _ _ _ _ _ _ _ E K) as (c' & ->). cbn [bind].
  destruct (s_max S); [contradiction|]. exists c'. reflexivity.
Qed.

Lemma elementwise_lemma S y kw out t i v kw' :
  NoDup (dkeys (s_defaults S)) -> NoDup (dkeys kw) -> NoDup (dkeys kw') ->
  well_behaved S -> ignores_parameter S ->
  target_is S y kw t -> solve_call S y kw = Ok out -> nth_error out i = Some v ->
  (forall name k, prop_name S = Ok name -> given S kw' k = if String.eqb k name then None else option_map (at_element i) (given S kw k)) ->
  solve_call S (Some (Sca (target_at i t))) kw' = Ok [v].
Proof.
  intros ND NK NK' W I Ht H Hi G'. destruct (call_parts _ _ _ _ ND NK H) as (name & t' & args & n & iter & En & Ht' & NA & G & V & F).
  rewrite (target_unique _ _ _ _ _ Ht' Ht) in *. clear Ht'. specialize (G' name).
  destruct (from_nth S t (snd (vec_y t)) args _ _ iter NA V n 0 _ out (fun k => copy_agrees S args iter k) F) as (_ & N).
  destruct (N i v Hi) as (a & r & c & A & E & Q). rewrite Nat.add_0_l in *. rewrite vec_target_at in E.
  unfold solve_call. cbv zeta. set (m := fold_left (fun c kv => dset (fst kv) (snd kv) c) kw' (s_defaults S)).
  assert (Gm : forall k, dget k m = given S kw' k) by (intro k; apply merge_get; exact NK').
  assert (NM : NoDup (dkeys m)) by (apply merge_nodup; exact ND).
  rewrite En. cbn [bind].
  assert (dget name m = None) as -> by (rewrite Gm, (G' name En), String.eqb_refl; reflexivity).
  cbn [bind vec_y].
  assert (V' : vec_keys 1 m = Ok (1%nat, [])).
  { apply vec_keys_scalar. intros k l Hl. apply (in_get _ _ _ NM) in Hl. rewrite Gm, (G' k En) in Hl.
    destruct (String.eqb k name); [discriminate|]. destruct (given S kw k) as [[x|l0]|]; cbn in Hl; try discriminate.
    destruct (Nat.eqb (List.length l0) 1) eqn:El; [|discriminate]. injection Hl as <-. apply Nat.eqb_eq, El. }
  rewrite V'. cbn [bind solve_from]. cbv zeta. unfold vec_at. cbn [fold_left vec_target].
  assert (B : same_but (s_param S) a (vec_copy [] m)).
  { intros k Hk. rewrite (A k Hk), vec_copy_get. cbn [existsb]. rewrite Gm, (G' k En). unfold base_args. rewrite G.
    destruct (String.eqb k name); reflexivity. }
  destruct (one_same S _ _ _ _ _ W I B E) as (c' & ->). cbn [bind]. rewrite Q. reflexivity.
Qed.

(* ---- non-convergence is never signalled ---- *)
Lemma fdf_total S a : never_raises S -> (exists x, dget (s_param S) a = Some (Sca x)) -> exists r, fdf S a = Ok r.
Proof.
  intros (NR & _) (x & G). unfold fdf. pose proof (NR a x G) as NRa. destruct (s_mode S) as [g|nm g|nm g dg].
  - exact NRa.
  - destruct NRa as (r & ->). cbn [bind]. rewrite G.
    destruct (NR (dset (s_param S) (Sca (xadd x (pymax (xabs (xmul x (s_eps S))) (s_small S)))) a) _ (dget_dset_same _ _ _)) as (r1 & ->). cbn. eexists. reflexivity.
  - destruct NRa as ((r & ->) & (r1 & ->)). cbn. eexists. reflexivity.
Qed.
Lemma search_total S lim y thr n : never_raises S -> forall x xo dx ae a, exists r, search n S lim y thr x xo dx ae a = Ok r.
Proof.
  intro NR. induction n as [|n IH]; intros x xo dx ae a; cbn [search]; [eexists; reflexivity|].
  destruct (fdf_total S (dset (s_param S) (Sca x) a) NR) as ((f, df) & ->); [exists x; apply dget_dset_same|].
  cbn [bind]. cbv zeta. destruct (xlt _ thr); [eexists; reflexivity|]. destruct (negb _); apply IH.
Qed.
Lemma one_total S y a : never_raises S -> s_max S <> 0%nat -> exists r, solve_one S y a = Ok r.
Proof.
  intros NR M. pose proof NR as (_ & I & L & IL). unfold solve_one.
  assert (exists lim, the_limits S a = Ok lim /\ (s_init S = None -> lim <> None)) as (lim & -> & Hl).
  { unfold the_limits. destruct (s_lim S) as [[lo hi|f]|].
    - exists (Some (lo, hi)). split; [reflexivity | discriminate].
    - contradiction.
    - exists None. split; [reflexivity | intro Q; exfalso; exact (IL Q eq_refl)]. }
  cbn [bind].
  assert (exists x, the_guess S lim a = Ok x) as (x & ->).
  { unfold the_guess. destruct (s_init S) as [[g|f]|]; [eexists; reflexivity | contradiction |].
    destruct lim as [[lo hi]|]; [eexists; reflexivity | exfalso; exact (Hl eq_refl eq_refl)]. }
  cbn [bind]. destruct (search_total S lim y (threshold S y) (s_max S) NR x x (Fin 0) PInf a) as (r & ->). cbn [bind].
  destruct (s_max S); [contradiction | eexists; reflexivity].
Qed.
Lemma from_total S y itery args iter : never_raises S -> s_max S <> 0%nat -> forall n i copy,
  exists out, solve_from S y itery args iter i n copy = Ok out.
Proof.
  intros NR M. induction n as [|n IH]; intros i copy; cbn [solve_from]; [eexists; reflexivity|]. cbv zeta.
  destruct (one_total S (vec_target y itery i) (vec_at args i iter copy) NR M) as ((r, c) & ->). cbn [bind].
  destruct (IH (i + 1)%nat c) as (out & ->). cbn. eexists. reflexivity.
Qed.

Lemma vec_keys_total args n : same_lengths (map snd args) n -> forall N, N = 1%nat \/ N = n ->
  exists r, vec_keys N args = Ok r.
Proof.
  intro H. destruct (Nat.eq_dec n 1) as [->|Hn].
  - intros N HN. assert (N = 1%nat) as -> by (destruct HN; assumption). exists (1%nat, []). apply vec_keys_scalar.
    intros k l Q. destruct (H l (in_map snd _ _ Q)); assumption.
  - intros N HN. destruct (vec_keys_fine args N n H Hn HN) as (ks & ->). eexists. reflexivity.
Qed.

Lemma call_total S t kw name n : NoDup (dkeys kw) ->
  never_raises S -> s_max S <> 0%nat -> prop_name S = Ok name -> given S kw name = None ->
  same_lengths (t :: map snd kw ++ map snd (s_defaults S)) n ->
  exists out, solve_call S (Some t) kw = Ok out.
Proof.
  intros NK NR M En G L. unfold solve_call. cbv zeta. set (m := fold_left (fun c kv => dset (fst kv) (snd kv) c) kw (s_defaults S)).
  assert (Gm : forall k, dget k m = given S kw k) by (intro k; apply merge_get; exact NK).
  rewrite En. cbn [bind]. rewrite Gm, G. cbn [bind].
  assert (Lm : same_lengths (map snd m) n).
  { assert (Aux : forall (kw d : sargs) a, In a (map snd (fold_left (fun c kv => dset (fst kv) (snd kv) c) kw d)) -> In a (map snd kw ++ map snd d)).
    { clear. induction kw as [|[k0 v0] kw IH]; intros d a H; [exact H|]. cbn [fold_left map fst snd app] in *.
      apply IH in H. apply in_app_or in H. destruct H as [H|H]; [right; apply in_or_app; left; exact H|].
      assert (In a (v0 :: map snd d)).
      { clear - H. induction d as [|[k1 v1] d IH]; cbn [dset] in H.
        - exact H.
        - destruct (String.eqb k0 k1); cbn [map snd In] in *.
          + destruct H as [H|H]; auto.
          + destruct H as [H|H]; [auto|]. destruct (IH H); auto. }
      destruct H0; [left; assumption | right; apply in_or_app; right; assumption]. }
    intros a Ha. apply L. right. apply Aux. exact Ha. }
  assert (LN : fst (vec_y t) = 1%nat \/ fst (vec_y t) = n).
  { destruct t as [x|l]; [left; reflexivity|]. cbn. destruct (L l (or_introl eq_refl)) as [Q|Q]; rewrite Q; cbn; [left; reflexivity|].
    destruct (Nat.eqb n 1); [left; reflexivity | right; reflexivity]. }
  destruct (vec_y t) as (N, itery) eqn:Ey. destruct (vec_keys_total m n Lm N LN) as ((n', ks) & ->). cbn [bind].
  apply from_total; assumption.
Qed.

Lemma unconverged_zero S t kw out :
  NoDup (dkeys (s_defaults S)) -> NoDup (dkeys kw) -> solve_call S (Some t) kw = Ok out ->
  (forall a f i, property S a = Ok f -> xlt (xabs (xsub f (target_at i t))) (threshold S (target_at i t)) = false) ->
  forall v, In v out -> v = Fin 0.
Proof.
  intros ND NK H Hn v Hv. apply In_nth_error in Hv. destruct Hv as (i & Hi).
  assert (Ht : target_is S (Some t) kw t).
  { destruct (call_parts _ _ _ _ ND NK H) as (name & t' & args & n & iter & En & Ht & _).
    destruct Ht as (nm & E1 & [(E2 & E3)|(E2 & E3)]); [|discriminate]. exists nm. split; [exact E1|]. left. split; [reflexivity | exact E3]. }
  destruct (tolerance_lemma _ _ _ _ _ _ _ ND NK Ht H Hi) as [Q|(a & f & _ & P & T)]; [exact Q|].
  rewrite (Hn a f i P) in T. discriminate.
Qed.

(* ---- the conventions of a call ---- *)
Lemma twice_lemma S t kw name v : NoDup (dkeys kw) -> prop_name S = Ok name -> given S kw name = Some v ->
  solve_call S (Some t) kw = Err PMAnalysisError.
Proof.
  intros NK En G. unfold solve_call. cbv zeta. rewrite En. cbn [bind]. rewrite merge_get by exact NK.
  unfold given in G. rewrite G. reflexivity.
Qed.
Lemma never_lemma S kw name : NoDup (dkeys kw) -> prop_name S = Ok name -> given S kw name = None ->
  solve_call S None kw = Err PMAnalysisError.
Proof.
  intros NK En G. unfold solve_call. cbv zeta. rewrite En. cbn [bind]. rewrite merge_get by exact NK.
  unfold given in G. rewrite G. reflexivity.
Qed.
Lemma nameless_lemma S y kw g : s_name S = None -> s_mode S = MFdf g -> solve_call S y kw = Err PMAnalysisError.
Proof. intros E1 E2. unfold solve_call, prop_name. rewrite E1, E2. reflexivity. Qed.

Lemma vec_keys_bad args : forall N, N <> 1%nat -> (exists k l, In (k, Vec l) args /\ List.length l <> 1%nat /\ List.length l <> N) ->
  vec_keys N args = Err PMParamError.
Proof.
  induction args as [|[k0 [x|l0]] args IH]; intros N HN (k & l & Hl & H1 & H2).
  - destruct Hl.
  - cbn [vec_keys]. apply IH; [exact HN|]. exists k, l. destruct Hl as [Q|Q]; [discriminate | auto].
  - cbn [vec_keys]. destruct (Nat.eqb (List.length l0) 1) eqn:E1.
    + apply IH; [exact HN|]. exists k, l. apply Nat.eqb_eq in E1. destruct Hl as [Q|Q]; [injection Q as <- <-; contradiction | auto].
    + apply Nat.eqb_neq in HN. rewrite HN. apply Nat.eqb_neq in HN.
      destruct (Nat.eqb N (List.length l0)) eqn:E2; [|reflexivity].
      apply Nat.eqb_eq in E2. rewrite IH; [reflexivity | exact HN|]. exists k, l.
      destruct Hl as [Q|Q]; [injection Q as <- <-; congruence | auto].
Qed.
Lemma vec_keys_bad2 args : forall k l k' l', NoDup (dkeys args) -> In (k, Vec l) args -> In (k', Vec l') args ->
  List.length l <> 1%nat -> List.length l' <> 1%nat -> List.length l <> List.length l' ->
  forall N, vec_keys N args = Err PMParamError.
Proof.
  induction args as [|[k0 [x|l0]] args IH]; intros k l k' l' ND H1 H2 N1 N2 N3 N; [destruct H1 | |].
  - cbn [vec_keys]. destruct H1 as [Q|H1]; [discriminate|]. destruct H2 as [Q|H2]; [discriminate|].
    inversion ND; subst. eapply (IH k l k' l'); eassumption.
  - inversion ND as [|? ? NI ND']; subst. cbn [vec_keys].
    destruct (Nat.eqb (List.length l0) 1) eqn:E1.
    + apply Nat.eqb_eq in E1. destruct H1 as [Q|H1]; [injection Q as <- <-; contradiction|].
      destruct H2 as [Q|H2]; [injection Q as <- <-; contradiction|]. eapply (IH k l k' l'); eassumption.
    + apply Nat.eqb_neq in E1.
      assert (T : vec_keys (List.length l0) args = Err PMParamError).
      { destruct H1 as [Q|H1]; [|destruct H2 as [Q|H2]].
        - injection Q as -> ->. destruct H2 as [Q|H2]; [injection Q as -> ->; congruence|].
          apply vec_keys_bad; [exact E1|]. exists k', l'. auto.
        - injection Q as -> ->. apply vec_keys_bad; [exact E1|]. exists k, l. auto.
        - eapply (IH k l k' l'); eassumption. }
      destruct (Nat.eqb N 1); [rewrite T; reflexivity|].
      destruct (Nat.eqb N (List.length l0)) eqn:E2; [|reflexivity]. apply Nat.eqb_eq in E2. subst N. rewrite T. reflexivity.
Qed.

Lemma lengths_lemma S t kw name a b :
  NoDup (dkeys (s_defaults S)) -> NoDup (dkeys kw) -> prop_name S = Ok name -> given S kw name = None ->
  ((t = Vec a \/ exists k, given S kw k = Some (Vec a)) /\ exists k, given S kw k = Some (Vec b)) ->
  List.length a <> 1%nat -> List.length b <> 1%nat -> List.length a <> List.length b ->
  solve_call S (Some t) kw = Err PMParamError.
Proof.
  intros ND NK En G (Ha & kb & Hb) N1 N2 N3. unfold solve_call. cbv zeta. set (m := fold_left (fun c kv => dset (fst kv) (snd kv) c) kw (s_defaults S)).
  assert (Gm : forall k, dget k m = given S kw k) by (intro k; apply merge_get; exact NK).
  assert (NM : NoDup (dkeys m)) by (apply merge_nodup; exact ND).
  rewrite En. cbn [bind]. rewrite Gm, G. cbn [bind]. rewrite <- Gm in Hb. apply dget_some_in in Hb.
  destruct (vec_y t) as (N, itery) eqn:Ey.
  assert (T : vec_keys N m = Err PMParamError).
  { destruct Ha as [->|(ka & Ha)].
    - cbn in Ey. apply Nat.eqb_neq in N1. rewrite N1 in Ey. injection Ey as <- _. apply Nat.eqb_neq in N1.
      apply vec_keys_bad; [exact N1|]. exists kb, b. auto.
    - rewrite <- Gm in Ha. apply dget_some_in in Ha. exact (vec_keys_bad2 m ka a kb b NM Ha Hb N1 N2 N3 N). }
  rewrite T. reflexivity.
Qed.
Lemma count_lemma S t kw out : NoDup (dkeys (s_defaults S)) -> NoDup (dkeys kw) ->
  solve_call S (Some t) kw = Ok out ->
  (forall l, t = Vec l -> List.length l <> 1%nat -> List.length out = List.length l) /\
  (forall k l, given S kw k = Some (Vec l) -> List.length l <> 1%nat -> List.length out = List.length l).
Proof.
  intros ND NK H. destruct (call_parts _ _ _ _ ND NK H) as (name & t' & args & n & iter & En & Ht & NA & G & V & F).
  assert (t' = t). { destruct Ht as (nm & _ & [(Q & _)|(Q & _)]); congruence. } subst t'.
  destruct (from_nth S t (snd (vec_y t)) args _ _ iter NA V n 0 _ out (fun k => copy_agrees S args iter k) F) as (L & _).
  rewrite L.
  assert (Aux : forall args N n ks, vec_keys N args = Ok (n, ks) -> (N <> 1%nat -> n = N) /\
     forall k l, In (k, Vec l) args -> List.length l <> 1%nat -> n = List.length l).
  { clear. induction args as [|[k0 [x|l0]] args IH]; intros N n ks H; cbn [vec_keys] in H.
    - injection H as <- <-. split; [reflexivity | intros k l []].
    - destruct (IH _ _ _ H) as (A & B). split; [exact A|]. intros k l [Q|Q] W; [discriminate | exact (B k l Q W)].
    - destruct (Nat.eqb (List.length l0) 1) eqn:E1.
      + destruct (IH _ _ _ H) as (A & B). split; [exact A|]. apply Nat.eqb_eq in E1.
        intros k l [Q|Q] W; [injection Q as <- <-; contradiction | exact (B k l Q W)].
      + apply Nat.eqb_neq in E1. destruct (Nat.eqb N 1) eqn:EN.
        * apply bind_ok in H. destruct H as ((n', ks') & Q1 & Q2). injection Q2 as -> <-. destruct (IH _ _ _ Q1) as (A & B).
          apply Nat.eqb_eq in EN. split; [intro; contradiction|]. intros k l [Q|Q] W; [injection Q as <- <-; exact (A E1) | exact (B k l Q W)].
        * destruct (Nat.eqb N (List.length l0)) eqn:E2; [|discriminate]. apply Nat.eqb_eq in E2.
          apply bind_ok in H. destruct H as ((n', ks') & Q1 & Q2). injection Q2 as -> <-. destruct (IH _ _ _ Q1) as (A & B).
          apply Nat.eqb_neq in EN. split; [exact A|]. intros k l [Q|Q] W; [injection Q as <- <-; rewrite <- E2; exact (A EN) | exact (B k l Q W)]. }
  destruct (Aux _ _ _ _ V) as (A & B). split.
  - intros l -> Hl. cbn in A. apply Nat.eqb_neq in Hl. rewrite Hl in A. apply Nat.eqb_neq in Hl. exact (A Hl).
  - intros k l Hg Hl. assert (k <> name).
    { intros ->. destruct Ht as (nm & E & [(_ & Q)|(Q & _)]); [|discriminate]. congruence. }
    apply (B k l); [|exact Hl]. apply dget_some_in. rewrite G. apply String.eqb_neq in H0. rewrite H0. exact Hg.
Qed.

(* ---- the steps on real functions ---- *)
Lemma fdf_real S F F' a x : property_is S F F' -> dget (s_param S) a = Some (Sca (Fin x)) -> fdf S a = Ok (Fin (F x), Fin (F' x)).
Proof.
  unfold property_is, fdf. destruct (s_mode S) as [g|nm g|nm g dg]; intros P G; [exact (P a x G) | contradiction |].
  destruct P as (P1 & P2). rewrite (P1 a x G), (P2 a x G). reflexivity.
Qed.
Lemma pyclamp lo hi x : lo <= hi -> pymax (pymin (Fin x) (Fin hi)) (Fin lo) = Fin (clamp lo hi x).
Proof.
  intro L. unfold pymax, pymin, clamp. cbn [xlt].
  destruct (Rlt_dec hi x) as [H|H].
  - rewrite Rmin_right by lra. cbn [xlt]. destruct (Rlt_dec hi lo); [lra|]. rewrite Rmax_left by lra. reflexivity.
  - rewrite Rmin_left by lra. cbn [xlt]. destruct (Rlt_dec x lo); [rewrite Rmax_right by lra | rewrite Rmax_left by lra]; reflexivity.
Qed.
Lemma clamp_in lo hi x : lo <= hi -> lo <= clamp lo hi x <= hi.
Proof. intro L. unfold clamp. split; [apply Rmax_r | apply Rmax_lub; [apply Rmin_r | exact L]]. Qed.
Lemma clamp_id lo hi x : lo <= x <= hi -> clamp lo hi x = x.
Proof. intro L. unfold clamp. rewrite Rmin_left by lra. apply Rmax_left. lra. Qed.

Lemma thr_real S sm ep t : s_small S = Fin sm -> s_eps S = Fin ep -> threshold S (Fin t) = Fin (tolerance sm ep t).
Proof.
  intros E1 E2. unfold threshold, pymax, tolerance. rewrite E1, E2. cbn [xmul xabs xlt].
  destruct (Rlt_dec sm (Rabs (ep * t))); [rewrite Rmax_right by lra | rewrite Rmax_left by lra]; reflexivity.
Qed.

(* the first pass, and each pass after a decrease, of the loop on a real function *)
Lemma search_step S F F' lo hi t d n x xo dx ae copy : property_is S F F' -> lo <= hi -> F' x <> 0 ->
  (ae = PInf \/ exists e, ae = Fin e /\ Rabs (F x - t) < e) ->
  search (Datatypes.S n) S (Some (Fin lo, Fin hi)) (Fin t) (Fin d) (Fin x) xo dx ae copy =
  if Rlt_dec (Rabs (F x - t)) d then Ok (Some (Fin x), dset (s_param S) (Sca (Fin x)) copy)
  else search n S (Some (Fin lo, Fin hi)) (Fin t) (Fin d) (Fin (clamp lo hi (x + - (F x - t) / F' x))) (Fin x)
         (Fin (- (F x - t) / F' x)) (Fin (Rabs (F x - t))) (dset (s_param S) (Sca (Fin x)) copy).
Proof.
  intros P L Hd Ha. cbn [search]. rewrite (fdf_real S F F' _ x P) by apply dget_dset_same. cbn [bind]. cbv zeta.
  replace (xabs (xsub (Fin (F x)) (Fin t))) with (Fin (Rabs (F x - t))) by reflexivity.
  replace (xdiv (xneg (xsub (Fin (F x)) (Fin t))) (Fin (F' x))) with (Fin (- (F x - t) / F' x)).
  2:{ unfold xsub. cbn [xneg xadd xdiv]. destruct (Req_EM_T (F' x) 0); [contradiction | reflexivity]. }
  cbn [xlt]. destruct (Rlt_dec (Rabs (F x - t)) d); [reflexivity|].
  assert (xlt (Fin (Rabs (F x - t))) ae = true) as Q.
  { destruct Ha as [->|(e & -> & He)]; [reflexivity|]. cbn [xlt]. destruct (Rlt_dec _ e); [reflexivity | contradiction]. }
  cbn [xlt] in Q. rewrite Q. cbn [negb xadd]. rewrite pyclamp by exact L. reflexivity.
Qed.

Lemma search_back S F F' lim t d n x xo dx e copy : property_is S F F' -> d <= Rabs (F x - t) -> e <= Rabs (F x - t) ->
  search (Datatypes.S n) S lim (Fin t) (Fin d) (Fin x) (Fin xo) (Fin dx) (Fin e) copy =
  search n S lim (Fin t) (Fin d) (Fin (xo + 1 / 2 * dx)) (Fin xo) (Fin (1 / 2 * dx)) (Fin e) (dset (s_param S) (Sca (Fin x)) copy).
Proof.
  intros P Hd He. cbn [search]. rewrite (fdf_real S F F' _ x P) by apply dget_dset_same. cbn [bind]. cbv zeta.
  replace (xabs (xsub (Fin (F x)) (Fin t))) with (Fin (Rabs (F x - t))) by reflexivity.
  cbn [xlt]. destruct (Rlt_dec (Rabs (F x - t)) d); [lra|]. destruct (Rlt_dec (Rabs (F x - t)) e); [lra|]. reflexivity.
Qed.
Lemma search_done S F F' lim t d n x xo dx e copy : property_is S F F' -> Rabs (F x - t) < d ->
  search (Datatypes.S n) S lim (Fin t) (Fin d) (Fin x) xo dx e copy = Ok (Some (Fin x), dset (s_param S) (Sca (Fin x)) copy).
Proof.
  intros P Hd. cbn [search]. rewrite (fdf_real S F F' _ x P) by apply dget_dset_same. cbn [bind]. cbv zeta.
  replace (xabs (xsub (Fin (F x)) (Fin t))) with (Fin (Rabs (F x - t))) by reflexivity.
  cbn [xlt]. destruct (Rlt_dec (Rabs (F x - t)) d); [reflexivity | contradiction].
Qed.

Lemma search_inside S F F' lo hi t d : property_is S F F' -> lo <= hi ->
  (forall x, lo <= x <= hi -> d <= Rabs (F x - t) ->
     F' x <> 0 /\ Rabs (F (clamp lo hi (x - (F x - t) / F' x)) - t) < Rabs (F x - t)) ->
  forall n x xo dx ae copy v c, lo <= x <= hi -> (ae = PInf \/ exists e, ae = Fin e /\ Rabs (F x - t) < e) ->
  search n S (Some (Fin lo, Fin hi)) (Fin t) (Fin d) (Fin x) xo dx ae copy = Ok (Some v, c) ->
  exists r, v = Fin r /\ lo <= r <= hi.
Proof.
  intros P L D. induction n as [|n IH]; intros x xo dx ae copy v c Hx Ha H; [discriminate|].
  destruct (Rlt_dec (Rabs (F x - t)) d) as [T|T].
  - cbn [search] in H. rewrite (fdf_real S F F' _ x P) in H by apply dget_dset_same. cbn [bind] in H. cbv zeta in H.
    replace (xabs (xsub (Fin (F x)) (Fin t))) with (Fin (Rabs (F x - t))) in H by reflexivity. cbn [xlt] in H.
    destruct (Rlt_dec (Rabs (F x - t)) d) as [_|Q] in H; [|contradiction]. injection H as <- <-. exists x. auto.
  - destruct (D x Hx (Rnot_lt_le _ _ T)) as (N & Dn).
    rewrite (search_step S F F' lo hi t d n x xo dx ae copy P L N Ha) in H.
    destruct (Rlt_dec (Rabs (F x - t)) d) as [Q|_] in H; [contradiction|].
    replace (x + - (F x - t) / F' x) with (x - (F x - t) / F' x) in H by (field; exact N).
    apply (IH _ _ _ _ _ _ _ (clamp_in lo hi _ L)) in H; [exact H|]. right. eexists. split; [reflexivity | exact Dn].
Qed.

Lemma limits_lemma S F F' lo hi sm ep t x0 kw out v :
  NoDup (dkeys (s_defaults S)) -> NoDup (dkeys kw) ->
  property_is S F F' -> s_lim S = Some (LVal (Fin lo) (Fin hi)) -> lo <= hi ->
  s_init S = None \/ (s_init S = Some (GVal (Fin x0)) /\ lo <= x0 <= hi) ->
  s_small S = Fin sm -> s_eps S = Fin ep ->
  (forall x, lo <= x <= hi -> tolerance sm ep t <= Rabs (F x - t) ->
     F' x <> 0 /\ Rabs (F (clamp lo hi (x - (F x - t) / F' x)) - t) < Rabs (F x - t)) ->
  solve_call S (Some (Sca (Fin t))) kw = Ok out -> In v out ->
  v = Fin 0 \/ exists r, v = Fin r /\ lo <= r <= hi.
Proof.
  intros ND NK P Hl L Hi Es Ee D H Hv. apply In_nth_error in Hv. destruct Hv as (i & Hv).
  destruct (call_parts _ _ _ _ ND NK H) as (name & t' & args & n & iter & En & Ht & NA & G & V & Fm).
  assert (t' = Sca (Fin t)). { destruct Ht as (nm & _ & [(Q & _)|(Q & _)]); congruence. } subst t'.
  destruct (from_nth S _ _ args _ _ iter NA V n 0 _ out (fun k => copy_agrees S args iter k) Fm) as (_ & W).
  destruct (W i v Hv) as (a & r & c & A & E & Q). cbn [vec_target] in E.
  destruct r as [x|]; [|left; exact Q]. right. subst v.
  destruct (one_parts _ _ _ _ _ E) as (lim & x1 & E1 & E2 & _ & K).
  unfold the_limits in E1. rewrite Hl in E1. injection E1 as <-.
  rewrite (thr_real S sm ep t Es Ee) in K.
  assert (exists y, x1 = Fin y /\ lo <= y <= hi) as (y & -> & Hy).
  { unfold the_guess in E2. destruct Hi as [Q|(Q & R)]; rewrite Q in E2; injection E2 as <-.
    - cbn. eexists. split; [reflexivity|]. lra.
    - eexists. split; [reflexivity | exact R]. }
  eapply (search_inside S F F' lo hi t); [exact P | exact L | exact D | exact Hy | left; reflexivity | exact K].
Qed.

(* a straight line is solved in two passes *)
Lemma fdf_line S m b sm ep a x : line_like S m b -> s_small S = Fin sm -> 0 < sm -> s_eps S = Fin ep ->
  dget (s_param S) a = Some (Sca (Fin x)) -> fdf S a = Ok (Fin (m * x + b), Fin m).
Proof.
  intros P Es Hs Ee G. unfold line_like in P. destruct (s_mode S) as [g|nm f|nm f df] eqn:M.
  - exact (fdf_real S _ _ a x P G).
  - unfold fdf. rewrite M, (P a x G). cbn [bind]. rewrite G, Es, Ee. cbn [xmul xabs].
    set (h := Rmax (Rabs (x * ep)) sm).
    assert (T : pymax (Fin (Rabs (x * ep))) (Fin sm) = Fin h).
    { unfold pymax, h. cbn [xlt]. destruct (Rlt_dec (Rabs (x * ep)) sm); [rewrite Rmax_right by lra | rewrite Rmax_left by lra]; reflexivity. }
    assert (0 < h) by (unfold h; pose proof (Rmax_r (Rabs (x * ep)) sm); lra).
    rewrite T. cbn [xadd]. rewrite (P _ (x + h)) by apply dget_dset_same. cbn [bind]. unfold xsub. cbn [xneg xadd xdiv].
    destruct (Req_EM_T h 0); [lra|]. do 2 f_equal. f_equal. field. assumption.
  - exact (fdf_real S _ _ a x P G).
Qed.
Lemma line_lemma S m b sm ep t x0 kw name :
  NoDup (dkeys kw) -> line_like S m b -> m <> 0 ->
  (match s_lim S with None => True | Some (LVal (Fin lo) (Fin hi)) => lo <= (t - b) / m <= hi | _ => False end) ->
  (match s_init S with None => s_lim S <> None | Some (GVal g) => g = Fin x0 | _ => False end) ->
  s_small S = Fin sm -> 0 < sm -> s_eps S = Fin ep -> (2 <= s_max S)%nat ->
  prop_name S = Ok name -> given S kw name = None ->
  same_lengths (map snd kw ++ map snd (s_defaults S)) 1 ->
  exists v, solve_call S (Some (Sca (Fin t))) kw = Ok [Fin v] /\ Rabs (m * v + b - t) < tolerance sm ep t.
Proof.
  intros NK P Hm Hl Hi Es Hs Ee Hx En G SL.
  assert (One : forall a, exists v c, solve_one S (Fin t) a = Ok (Some (Fin v), c) /\ Rabs (m * v + b - t) < tolerance sm ep t).
  { intro a. unfold solve_one.
    assert (exists lim, the_limits S a = Ok lim /\ (lim = None -> s_lim S = None) /\
      match lim with None => True | Some (Fin lo, Fin hi) => lo <= (t - b) / m <= hi | _ => False end) as (lim & -> & Nl & Hlim).
    { unfold the_limits. destruct (s_lim S) as [[lo hi|f]|]; [|contradiction|].
      - exists (Some (lo, hi)). split; [reflexivity|]. split; [discriminate|]. destruct lo; try contradiction. destruct hi; try contradiction. exact Hl.
      - exists None. auto. }
    cbn [bind].
    assert (exists g, the_guess S lim a = Ok (Fin g)) as (g & ->).
    { unfold the_guess. destruct (s_init S) as [[g|f]|]; [exists x0; rewrite Hi; reflexivity | contradiction|].
      destruct lim as [[lo hi]|]; [|exfalso; exact (Hi (Nl eq_refl))].
      destruct lo; try contradiction. destruct hi; try contradiction. cbn. eexists. reflexivity. }
    cbn [bind]. rewrite (thr_real S sm ep t Es Ee).
    destruct (s_max S) as [|[|k]]; [lia | lia|].
    cbn [search]. rewrite (fdf_line S m b sm ep _ g P Es Hs Ee) by apply dget_dset_same. cbn [bind]. cbv zeta.
    replace (xabs (xsub (Fin (m * g + b)) (Fin t))) with (Fin (Rabs (m * g + b - t))) by reflexivity.
    assert (0 < tolerance sm ep t) as Tp by (unfold tolerance; pose proof (Rmax_l sm (Rabs (ep * t))); lra).
    assert (N : xlt (Fin (Rabs (m * g + b - t))) PInf = true) by reflexivity. rewrite N. cbn [negb xlt].
    destruct (Rlt_dec (Rabs (m * g + b - t)) (tolerance sm ep t)) as [T|T].
    { exists g. eexists. cbn [bind]. split; [reflexivity | exact T]. }
    replace (xdiv (xneg (xsub (Fin (m * g + b)) (Fin t))) (Fin m)) with (Fin (- (m * g + b - t) / m)).
    2:{ unfold xsub. cbn [xneg xadd xdiv]. destruct (Req_EM_T m 0); [contradiction | reflexivity]. }
    assert (X : match lim with Some (lo, hi) => pymax (pymin (xadd (Fin g) (Fin (- (m * g + b - t) / m))) hi) lo
                 | None => xadd (Fin g) (Fin (- (m * g + b - t) / m)) end = Fin ((t - b) / m)).
    { cbn [xadd]. replace (g + - (m * g + b - t) / m) with ((t - b) / m) by (field; exact Hm).
      destruct lim as [[[lo| | |] [hi| | |]]|]; try contradiction; [|reflexivity].
      rewrite pyclamp by lra. rewrite clamp_id by exact Hlim. reflexivity. }
    rewrite X. rewrite (fdf_line S m b sm ep _ ((t - b) / m) P Es Hs Ee) by apply dget_dset_same. cbn [bind].
    replace (xabs (xsub (Fin (m * ((t - b) / m) + b)) (Fin t))) with (Fin (Rabs (m * ((t - b) / m) + b - t))) by reflexivity.
    assert (Z : Rabs (m * ((t - b) / m) + b - t) = 0) by (replace (m * ((t - b) / m) + b - t) with 0 by (field; exact Hm); apply Rabs_R0).
    cbn [xlt]. destruct (Rlt_dec (Rabs (m * ((t - b) / m) + b - t)) (tolerance sm ep t)) as [T2|T2]; [|rewrite Z in T2; lra].
    exists ((t - b) / m). eexists. cbn [bind]. split; [reflexivity|]. rewrite Z. exact Tp. }
  unfold solve_call. cbv zeta. set (mm := fold_left (fun c kv => dset (fst kv) (snd kv) c) kw (s_defaults S)).
  rewrite En. cbn [bind]. unfold mm. rewrite merge_get by exact NK. unfold given in G. rewrite G. cbn [bind vec_y].
  assert (V : vec_keys 1 mm = Ok (1%nat, [])).
  { apply vec_keys_scalar. intros k l Hk.
    assert (Aux : forall (kw d : sargs) a, In a (map snd (fold_left (fun c kv => dset (fst kv) (snd kv) c) kw d)) -> In a (map snd kw ++ map snd d)).
    { clear. induction kw as [|[k0 v0] kw IH]; intros d a H; [exact H|]. cbn [fold_left map fst snd app] in *.
      apply IH in H. apply in_app_or in H. destruct H as [H|H]; [right; apply in_or_app; left; exact H|].
      assert (In a (v0 :: map snd d)).
      { clear - H. induction d as [|[k1 v1] d IH]; cbn [dset] in H.
        - exact H.
        - destruct (String.eqb k0 k1); cbn [map snd In] in *.
          + destruct H as [H|H]; auto.
          + destruct H as [H|H]; [auto|]. destruct (IH H); auto. }
      destruct H0; [left; assumption | right; apply in_or_app; right; assumption]. }
    destruct (SL l (Aux _ _ _ (in_map snd _ _ Hk))); assumption. }
  fold mm. rewrite V. cbn [bind solve_from]. cbv zeta. cbn [vec_target].
  destruct (One (vec_at mm 0 [] (vec_copy [] mm))) as (v & c & -> & T). cbn [bind]. exists v. auto.
Qed.

Lemma call_single S t kw out : NoDup (dkeys (s_defaults S)) -> NoDup (dkeys kw) ->
  solve_call S (Some (Sca t)) kw = Ok out -> (forall k l, given S kw k = Some (Vec l) -> List.length l = 1%nat) -> List.length out = 1%nat.
Proof.
  intros ND NK H L. destruct (call_parts _ _ _ _ ND NK H) as (name & t' & args & n & iter & En & Ht & NA & G & V & F).
  assert (t' = Sca t). { destruct Ht as (nm & _ & [(Q & _)|(Q & _)]); congruence. } subst t'.
  destruct (from_nth S _ _ args _ _ iter NA V n 0 _ out (fun k => copy_agrees S args iter k) F) as (Q & _).
  cbn [vec_y fst] in V. rewrite vec_keys_scalar in V; [congruence|].
  intros k l Hk. apply (in_get _ _ _ NA) in Hk. rewrite G in Hk. destruct (String.eqb k name); [discriminate | exact (L k l Hk)].
Qed.
Lemma silent_lemma S t kw name :
  NoDup (dkeys (s_defaults S)) -> NoDup (dkeys kw) -> never_raises S -> s_max S <> 0%nat ->
  prop_name S = Ok name -> given S kw name = None ->
  same_lengths (map snd kw ++ map snd (s_defaults S)) 1 ->
  (forall a f, property S a = Ok f -> xlt (xabs (xsub f t)) (threshold S t) = false) ->
  solve_call S (Some (Sca t)) kw = Ok [Fin 0].
Proof.
  intros ND NK NR M En G SL Nv.
  assert (SL' : same_lengths (Sca t :: map snd kw ++ map snd (s_defaults S)) 1).
  { intros a [Q|Q]; [discriminate | exact (SL a Q)]. }
  destruct (call_total S (Sca t) kw name 1 NK NR M En G SL') as (out & H).
  pose proof (unconverged_zero S (Sca t) kw out ND NK H (fun a f i => Nv a f)) as Z.
  assert (L : List.length out = 1%nat).
  { apply (call_single S t kw out ND NK H). intros k l Hk. unfold given in Hk.
    assert (In (Vec l) (map snd kw ++ map snd (s_defaults S))) as I.
    { apply in_or_app. destruct (dget k kw) as [v|] eqn:E.
      - injection Hk as ->. left. apply dget_some_in in E. exact (in_map snd _ _ E).
      - right. apply dget_some_in in Hk. exact (in_map snd _ _ Hk). }
    destruct (SL l I); assumption. }
  rewrite H. destruct out as [|v [|w out]]; try discriminate L. rewrite (Z v (or_introl eq_refl)). reflexivity.
Qed.
Lemma zero_passes_lemma S y kw : s_max S = 0%nat -> forall out, solve_call S y kw = Ok out -> out = [].
Proof.
  intros M out H. unfold solve_call in H. cbv zeta in H.
  apply bind_ok in H. destruct H as (name & _ & H). apply bind_ok in H. destruct H as ((t, args) & _ & H).
  destruct (vec_y t) as (N, it). apply bind_ok in H. destruct H as ((n, iter) & _ & H).
  destruct n as [|n]; cbn [solve_from] in H; [congruence|]. cbv zeta in H.
  apply bind_ok in H. destruct H as ((r, c) & E & _). destruct (one_parts _ _ _ _ _ E) as (? & ? & _ & _ & Q & _). contradiction.
Qed.
Lemma tolerance_real S y kw out t i v ti sm ep :
  NoDup (dkeys (s_defaults S)) -> NoDup (dkeys kw) ->
  target_is S y kw t -> target_at i t = Fin ti -> s_small S = Fin sm -> s_eps S = Fin ep ->
  solve_call S y kw = Ok out -> nth_error out i = Some v ->
  v = Fin 0 \/ exists a u, element_args S kw i v a /\ property S a = Ok (Fin u) /\ Rabs (u - ti) < tolerance sm ep ti.
Proof.
  intros ND NK Ht Et Es Ee H Hi. destruct (tolerance_lemma _ _ _ _ _ _ _ ND NK Ht H Hi) as [Q|(a & f & A & P & T)]; [left; exact Q|].
  right. rewrite Et in T. destruct (within_real S f ti sm ep Es Ee T) as (u & -> & L). exists a, u. auto.
Qed.

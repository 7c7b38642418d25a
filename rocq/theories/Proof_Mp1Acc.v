(* Which calls of the multi-phase class are accepted, and why the others fail (C49). *)
From Coq Require Import Reals ZArith List String Bool Lia Lra.
From Verif Require Import Base Model_Num Model_Units Model_Defaults Model_Igas Spec_Units Proof_Units Spec_Igas Proof_Igas
  Proof_IgasUnits Proof_IgasArgs Proof_IgasCalls Proof_IgasArr Proof_IgasAcc Proof_Iter.
From Verif Require Import Model_Hybrid Model_Mp1Calls Spec_Mp1 Spec_Mp1Calls Proof_Mp1Units Proof_Mp1Sat Proof_Mp1Args Proof_Mp1Calls.
Import ListNotations.
Local Open Scope R_scope.
Local Open Scope string_scope.
Local Open Scope list_scope.

(* ---- errors of the searches ---- *)
Definition search_error (e : exn) : Prop := e = PMParamError \/ e = PMAnalysisError \/ e = EOutOfFuel.

Lemma hybrid_err p ep n o es e : hybrid1 p ep n o es = Err e -> search_error e.
Proof. unfold hybrid1, search_error. destruct (_ && _)%bool; [intro H; injection H; auto|discriminate]. Qed.
Lemma Ts_err D l e : mp_Ts D l = Err e -> search_error e.
Proof.
  unfold mp_Ts. destruct (iter_loop _ _ _ _ _ _) as [r|e'] eqn:I; cbn [bind]; [discriminate|].
  intro H. injection H as <-. apply iter_err in I. right; left; exact I.
Qed.
Lemma traverse_err {A B} (f : A -> res B) l e : traverse f l = Err e -> exists a, In a l /\ f a = Err e.
Proof.
  induction l as [|a l IH]; cbn [traverse]; [discriminate|].
  destruct (f a) as [b|e'] eqn:F; cbn [bind].
  - destruct (traverse f l) as [bs|e'']; cbn [bind]; [discriminate|]. intro H. destruct (IH H) as (x & Hx & Hf).
    exists x. split; [now right|exact Hf].
  - intro H. injection H as <-. exists a. split; [now left|exact F].
Qed.
Lemma lower_err D fuel T p : forall da e, d_lower D fuel T p da = Err e -> e = EOutOfFuel.
Proof.
  induction fuel as [|n IH]; intros da e; cbn [d_lower]; destruct (flt p _); try discriminate; [congruence|].
  apply IH.
Qed.
Lemma d_err D oob fuel l e : mp_d D oob fuel l = Err e -> search_error e.
Proof.
  unfold mp_d. destruct (traverse _ l) as [es|e'] eqn:T; cbn [bind].
  - destruct (hybrid1 _ _ _ _ _) as [r|e''] eqn:H; cbn [bind]; [discriminate|].
    intro Q. injection Q as <-. now apply hybrid_err in H.
  - intro Q. injection Q as <-. apply traverse_err in T. destruct T as ([[[sel T] p] i] & _ & F).
    unfold d_elem in F. destruct (d_limits D T p) as [da db]. destruct sel; cbn [bind] in F; [|discriminate].
    destruct (d_lower D fuel T p da) as [x|e''] eqn:L; cbn [bind] in F; [discriminate|].
    injection F as <-. apply lower_err in L. right; right; exact L.
Qed.
Lemma T_err D oob l e : mp_T D oob l = Err e -> search_error e.
Proof.
  unfold mp_T. destruct (mp_Ts D _) as [Ts|e'] eqn:T; cbn [bind].
  - destruct (hybrid1 _ _ _ _ _) as [r|e''] eqn:H; cbn [bind]; [discriminate|].
    intro Q. injection Q as <-. now apply hybrid_err in H.
  - intro Q. injection Q as <-. now apply Ts_err in T.
Qed.

Section Acc.
  Variables (D : mpdata) (E : env) (fuel : nat) (z : sizes).
  Hypothesis Z : mp_sizes D E z.
  Local Notation gT := (gT (z_T z)).
  Local Notation gP := (gP (z_kP z)).
  Let kPp : 0 < z_kP z := kP_pos _ _ _ _ _ _ _ _ Z.

  Lemma Tpx_err l e : from_Tpx D E fuel l = Err e -> search_error e.
  Proof.
    unfold from_Tpx. destruct (mp_d _ _ _ _) eqn:H; cbn [bind]; [discriminate|].
    intro Q. injection Q as <-. now apply d_err in H.
  Qed.
  Lemma pd_err l e : from_pd D E l = Err e -> search_error e.
  Proof.
    unfold from_pd. destruct (mp_T _ _ _) eqn:H; cbn [bind]; [discriminate|].
    intro Q. injection Q as <-. now apply T_err in H.
  Qed.
  Lemma hp_err fn l e : from_hp D E fuel fn l = Err e -> search_error e.
  Proof.
    unfold from_hp. destruct (mp_Ts D _) eqn:H; cbn [bind].
    - destruct (hybrid1 _ _ _ _ _) eqn:H2; cbn [bind].
      + destruct (mp_d _ _ _ _) eqn:H3; cbn [bind]; [discriminate|]. intro Q. injection Q as <-. now apply d_err in H3.
      + intro Q. injection Q as <-. now apply hybrid_err in H2.
    - intro Q. injection Q as <-. now apply Ts_err in H.
  Qed.
  Lemma hd_err fn l e : from_hd D E fn l = Err e -> search_error e.
  Proof.
    unfold from_hd. destruct (hybrid1 _ _ _ _ _) eqn:H; cbn [bind]; [discriminate|].
    intro Q. injection Q as <-. now apply hybrid_err in H.
  Qed.
  Lemma sT_loop_err fn s T : forall left da e, sT_loop D left fn s T da = Err e -> e = PMAnalysisError.
  Proof.
    induction left as [|n IH]; intros da e; cbn [sT_loop]; destruct (flt _ s); try discriminate; [congruence|].
    apply IH.
  Qed.
  Lemma sT_err fn l e : from_sT D E fn l = Err e -> search_error e.
  Proof.
    unfold from_sT. destruct (traverse _ _) eqn:H; cbn [bind].
    - destruct (hybrid1 _ _ _ _ _) eqn:H2; cbn [bind]; [discriminate|]. intro Q. injection Q as <-. now apply hybrid_err in H2.
    - intro Q. injection Q as <-. apply traverse_err in H. destruct H as ([[s T] pl] & _ & F).
      unfold sT_elem in F. destruct (sT_lower D fn s T pl) as [x|e''] eqn:L; cbn [bind] in F; [discriminate|].
      injection F as <-. unfold sT_lower in L. destruct (st_da pl) as [da|]; [|discriminate].
      destruct (Req_EM_T da 0); [|discriminate]. destruct (st_sat pl); [discriminate|].
      apply sT_loop_err in L. right; left; exact L.
  Qed.

  (* ---- sizes of arrays ---- *)
  Lemma broadcast2_ok a b : compat2 a b -> exists l, broadcast2 a b = Ok l.
  Proof.
    intro H. unfold broadcast2. destruct (broadcast a b) as [[[[x y] s1] s2]|e] eqn:B; cbn [bind]; [eauto|].
    apply broadcast_err in B. contradiction.
  Qed.
  Lemma broadcast_len a b x y s1 s2 : broadcast a b = Ok (x, y, s1, s2) ->
    List.length x = List.length y /\ (List.length x = List.length a \/ List.length x = List.length b) /\
    (List.length a = 1%nat \/ List.length x = List.length a) /\ (List.length b = 1%nat \/ List.length x = List.length b).
  Proof.
    unfold broadcast. destruct (Nat.eqb_spec (List.length a) (List.length b)).
    - intro H. injection H as <- <- _ _. auto.
    - destruct a as [|u [|u' a]]; destruct b as [|w [|w' b]]; try discriminate; intro H; injection H as <- <- _ _;
        rewrite ?repeat_length; cbn in *; rewrite ?repeat_length; auto.
  Qed.
  Lemma broadcast3_ok a b c : (exists n, forall v, In v [a; b; c] -> List.length v = n \/ List.length v = 1%nat) ->
    exists l, broadcast3 a b c = Ok l.
  Proof.
    intros (n & H). assert (Ha := H a ltac:(cbn; auto)). assert (Hb := H b ltac:(cbn; auto)). assert (Hc := H c ltac:(cbn; auto)).
    unfold broadcast3. destruct (broadcast a b) as [[[[x y] s1] s2]|e] eqn:B1; cbn [bind].
    2:{ apply broadcast_err in B1. exfalso. apply B1. unfold compat2. lia. }
    apply broadcast_len in B1. destruct B1 as (L1 & L2 & L3 & L4).
    destruct (broadcast x c) as [[[[x2 c2] s3] s4]|e] eqn:B2; cbn [bind].
    2:{ apply broadcast_err in B2. exfalso. apply B2. unfold compat2. lia. }
    apply broadcast_len in B2. destruct B2 as (M1 & M2 & M3 & M4).
    destruct (broadcast y c2) as [[[[y3 c3] s5] s6]|e] eqn:B3; cbn [bind]; [eauto|].
    apply broadcast_err in B3. exfalso. apply B3. unfold compat2. lia.
  Qed.
  Lemma limited_len lim v w : limited E lim v = Ok w -> List.length w = List.length v.
  Proof. unfold limited. destruct (forallb _ v); [discriminate|]. intro H. injection H as <-. apply map_length. Qed.

  (* ---- the arguments with the defaults ---- *)
  Definition good_args (args : list (string * arr)) : Prop :=
    NoDup (dkeys args) /\ (2 <= List.length args)%nat /\ mp_names (dkeys args) /\
    (In "x" (dkeys args) -> forall n, In n (dkeys args) -> In n ["T"; "p"; "x"]).

  Lemma Tp_good a b : good_args [("T", a); ("p", b)].
  Proof.
    split; [|split; [|split]].
    - repeat constructor; cbn; intuition congruence.
    - cbn. lia.
    - split; [right; cbn; tauto|]. split; [cbn; tauto|]. cbn. intuition congruence.
    - cbn. intros; tauto.
  Qed.
  Lemma one_good n a t : In n ["p"; "d"; "v"; "x"; "e"; "h"; "s"] -> good_args [(n, a); ("T", t)].
  Proof.
    intro H. cbn in H. destruct H as [<-|[<-|[<-|[<-|[<-|[<-|[<-|[]]]]]]]].
    all: split; [repeat constructor; cbn; intuition congruence|]; split; [cbn; lia|]; split;
      [split; [left; cbn; lia|]; split; [cbn; tauto|]; cbn; intuition congruence|].
    all: cbn; intuition congruence.
  Qed.

  Lemma argparse_args varg kw args : NoDup (map fst kw) -> mp_acceptable varg kw -> call_args E varg kw args ->
    good_args args /\ mp_argparse D E fuel varg kw = do a <- si_args D E args; from_args D E fuel a.
  Proof.
    intros Hn Ha Hc. pose proof (acceptable_names _ _ Ha) as N.
    assert (Hleg : forall n, In n (map fst (supplied varg kw)) -> In n ["T"; "p"; "d"; "v"; "x"; "e"; "h"; "s"])
      by (destruct Ha as (_ & _ & H & _); exact H).
    assert (G : good_args args /\ defaults E (supplied varg kw) = Ok args /\ mp_names (dkeys args)).
    { unfold call_args in Hc. destruct Ha as (Hv & Hnd & _ & _ & _ & _ & _ & _ & Hx).
      unfold defaults. destruct (supplied varg kw) as [|[n a] [|[n' a'] s]] eqn:S; cbn [map fst List.length] in *.
      - destruct Hc as (t & p & -> & -> & ->). pose proof (Tp_good [Some t] [Some p]) as G. cbn [bind].
        split; [exact G|]. split; [reflexivity|]. apply G.
      - unfold dmem. cbn [dget]. rewrite String.eqb_sym. destruct (String.eqb_spec n "T") as [->|K].
        + destruct Hc as (p & -> & ->). pose proof (Tp_good a [Some p]) as G. cbn [bind].
          split; [exact G|]. split; [reflexivity|]. apply G.
        + destruct Hc as (t & -> & ->). cbn [bind app].
          assert (G : good_args [(n, a); ("T", [Some t])]).
          { apply one_good. specialize (Hleg n (or_introl eq_refl)). cbn in Hleg |- *. intuition congruence. }
          split; [exact G|]. split; [|apply G]. rewrite dset_fresh; [reflexivity|].
          intros [Q|[]]. exact (K Q).
      - subst args. split; [|split; [reflexivity|exact N]].
        split; [exact Hnd|]. split; [cbn; lia|]. split; [exact N|exact Hx]. }
    destruct G as (G & Df & Nm). split; [exact G|].
    unfold mp_argparse. destruct Ha as (Hv & Hnd & _). rewrite (positional_ok _ _ Hn Hv Hnd). cbn [bind].
    rewrite Df. cbn [bind]. destruct (mp_rules_spec args) as [[K _]|[_ K]]; [rewrite K; reflexivity|contradiction].
  Qed.

  (* ---- conversions and limits ---- *)
  Lemma gT_in a T : In (Some T) (gT a) <-> exists r, In (Some r) a /\ kelvin_is E r T.
  Proof.
    unfold Proof_Mp1Units.gT, kelvin_is. rewrite in_map_iff. split.
    - intros ([r|] & H & Hi); [|discriminate]. injection H as H. exists r. split; [exact Hi|].
      apply (tscale_K _ _ _ _ _ _ _ _ Z). now symmetry.
    - intros (r & Hi & H). apply (tscale_K _ _ _ _ _ _ _ _ Z) in H. subst. exists (Some r). auto.
  Qed.
  Lemma gP_in a P : In (Some P) (gP a) <-> exists r, In (Some r) a /\ pressure_is z r P.
  Proof.
    unfold Proof_Mp1Units.gP, pressure_is. rewrite in_map_iff. split.
    - intros ([r|] & H & Hi); [|discriminate]. injection H as H. exists r. split; [exact Hi|]. rewrite <- H. ring.
    - intros (r & Hi & H). subst. exists (Some r). split; [cbn; f_equal; ring|exact Hi].
  Qed.
  Definition outb (lim : R * R) (x : fl) : bool := (flt x (num (fst lim)) || flt (num (snd lim)) x)%bool.
  Lemma outb_true lim x : outb lim x = true <-> exists r, x = Some r /\ ~ in_range lim r.
  Proof.
    unfold outb, in_range. rewrite orb_true_iff, !flt_iff. split.
    - intros [(r & y & -> & H & L)|(y & r & H & -> & L)]; injection H as <-; exists r; split; auto; lra.
    - intros (r & -> & H). destruct (Rlt_le_dec r (fst lim)); [left|right]; [exists r, (fst lim)|exists (snd lim), r]; repeat split; lra.
  Qed.
  Lemma limited_val lim v : (forall x, In x v -> outb lim x = true) /\ limited E lim v = Err PMParamError \/
    (exists x, In x v /\ outb lim x = false) /\ limited E lim v = Ok (map (fun x => if outb lim x then e_oob E else x) v).
  Proof.
    unfold limited. fold (outb lim).
    change (fun x : fl => (flt x (num (fst lim)) || flt (num (snd lim)) x)%bool) with (outb lim).
    destruct (forallb (outb lim) v) eqn:F; [left|right].
    - split; [|reflexivity]. now apply forallb_forall.
    - split; [|reflexivity].
      assert (H : existsb (fun x => negb (outb lim x)) v = true).
      { clear - F. induction v as [|a v IH]; cbn in *; [discriminate|]. destruct (outb lim a); cbn in *; auto. }
      apply existsb_exists in H. destruct H as (x & Hx & H). exists x. split; [exact Hx|]. now apply negb_true_iff.
  Qed.

  Lemma T_out_all a : (forall x, In x (gT a) -> outb (mp_Tlim D) x = true) <-> forall x, In x a -> T_outside D E x.
  Proof.
    split.
    - intros H x Hx. specialize (H (lift1 (to_kelvin (z_T z)) x) (in_map _ _ _ Hx)).
      apply outb_true in H. destruct H as (K & HK & L). destruct x as [r|]; [|discriminate].
      exists r, K. split; [reflexivity|]. split; [|exact L]. injection HK as HK.
      apply (tscale_K _ _ _ _ _ _ _ _ Z). now symmetry.
    - intros H x Hx. apply in_map_iff in Hx. destruct Hx as (y & <- & Hy).
      destruct (H y Hy) as (r & K & -> & HK & L). apply (tscale_K _ _ _ _ _ _ _ _ Z) in HK. subst.
      apply outb_true. exists (to_kelvin (z_T z) r). split; [reflexivity|exact L].
  Qed.
  Lemma p_out_all a : (forall x, In x (gP a) -> outb (mp_plim D) x = true) <-> forall x, In x a -> p_outside D z x.
  Proof.
    split.
    - intros H x Hx. specialize (H (fmul (Some (z_kP z)) x) (in_map _ _ _ Hx)).
      apply outb_true in H. destruct H as (P & HP & L). destruct x as [r|]; [|discriminate].
      exists r, P. split; [reflexivity|]. split; [|exact L]. injection HP as HP. unfold pressure_is. rewrite <- HP. ring.
    - intros H x Hx. apply in_map_iff in Hx. destruct Hx as (y & <- & Hy).
      destruct (H y Hy) as (r & P & -> & HP & L). unfold pressure_is in HP. subst.
      apply outb_true. exists (z_kP z * r). split; [reflexivity|]. now rewrite Rmult_comm.
  Qed.
  Lemma quality_out a : (existsb (fun x => flt (num 1) x) a || existsb (fun x => flt x (num (-1))) a)%bool = true <->
    exists r, In (Some r) a /\ (r < -1 \/ 1 < r).
  Proof.
    rewrite orb_true_iff, !existsb_exists. split.
    - intros [(x & Hx & H)|(x & Hx & H)]; apply flt_iff in H; destruct H as (u & w & H1 & H2 & L).
      + injection H1 as <-. subst. eauto.
      + injection H2 as <-. subst. eauto.
    - intros (r & Hr & [L|L]); [right|left]; exists (Some r); (split; [exact Hr|]); now apply flt_true.
  Qed.
  Lemma quality_neg a : existsb (fun x => flt x (num 0)) a = true <-> exists r, In (Some r) a /\ r < 0.
  Proof.
    rewrite existsb_exists. split.
    - intros (x & Hx & H). apply flt_iff in H. destruct H as (u & w & -> & H2 & L). injection H2 as <-. eauto.
    - intros (r & Hr & L). exists (Some r). split; [exact Hr|]. now apply flt_true.
  Qed.
  Lemma above_limited lim c v w : limited E lim v = Ok w ->
    (forall r, In (Some r) v -> in_range lim r -> In (Some r) w) /\
    (e_oob E = None -> forall r, In (Some r) w -> In (Some r) v /\ in_range lim r) /\
    existsb (fun x => flt (num c) x) w = existsb (fun x => flt (num c) x) w.
  Proof.
    intro L. destruct (limited_val lim v) as [[_ H]|[_ H]]; [congruence|].
    assert (w = map (fun x => if outb lim x then e_oob E else x) v) as -> by congruence.
    split; [|split; [|reflexivity]].
    - intros r Hr Hi. apply in_map_iff. exists (Some r). split; [|exact Hr].
      destruct (outb lim (Some r)) eqn:O; [|reflexivity]. apply outb_true in O. destruct O as (r' & Q & N).
      injection Q as <-. contradiction.
    - intros Ho r Hr. apply in_map_iff in Hr. destruct Hr as (x & Q & Hx).
      destruct (outb lim x) eqn:O; [congruence|]. subst x. split; [exact Hx|].
      destruct (Rlt_le_dec r (fst lim)); [|destruct (Rlt_le_dec (snd lim) r); [|split; assumption]];
        (assert (outb lim (Some r) = true) by (apply outb_true; exists r; split; [reflexivity|unfold in_range; lra]); congruence).
  Qed.

  (* ---- why a call fails ---- *)
  Lemma arg_in (args : list (string * arr)) n a : dget n args = Some a -> In (n, a) args.
  Proof.
    induction args as [|[k v] args IH]; cbn; [discriminate|].
    destruct (String.eqb_spec n k) as [->|]; [intro H; injection H as <-; now left|]. intro H. right. auto.
  Qed.
  Lemma in_arg (args : list (string * arr)) n a : NoDup (dkeys args) -> In (n, a) args -> dget n args = Some a.
  Proof. intros. apply dget_in_nodup; assumption. Qed.
  Lemma in_names (args : list (string * arr)) n : In n (dkeys args) <-> dget n args <> None.
  Proof.
    rewrite dget_none_iff. split.
    - intros H Q. now apply Q.
    - intro H. destruct (in_dec string_dec n (dkeys args)); tauto.
  Qed.

  Lemma compat_args args n a m b : compatible args -> In (n, a) args -> In (m, b) args ->
    forall a' b', List.length a' = List.length a -> List.length b' = List.length b -> compat2 a' b'.
  Proof.
    intros (k & H) Ha Hb a' b' La Lb. apply H in Ha. apply H in Hb. unfold compat2. lia.
  Qed.

  Lemma si_args_fails args e : si_args D E args = Err e -> e = PMParamError /\ out_of_range D E z args.
  Proof.
    intro H. split; [exact (si_args_err _ _ _ _ _ _ _ _ Z _ _ H)|]. revert H. rewrite (si_args_val _ _ _ _ _ _ _ _ Z).
    destruct (dget "T" args) as [T|] eqn:GT; cbn [ores bind].
    - destruct (limited_val (mp_Tlim D) (gT T)) as [[A ->]|[_ ->]]; cbn [bind].
      { intros _. left. exists T. split; [now apply arg_in|]. now apply T_out_all. }
      destruct (dget "p" args) as [p|] eqn:GP; cbn [ores bind].
      + destruct (limited_val (mp_plim D) (gP p)) as [[A ->]|[_ ->]]; cbn [bind].
        { intros _. right; left. exists p. split; [now apply arg_in|]. now apply p_out_all. }
        destruct (dget "x" args) as [x|] eqn:GX; cbn [ores bind]; [|discriminate].
        unfold gX. destruct (_ || _)%bool eqn:Q; cbn [bind]; [|discriminate]. intros _. right; right; left.
        apply quality_out in Q. destruct Q as (r & Hr & L). exists x, r. split; [now apply arg_in|auto].
      + destruct (dget "x" args) as [x|] eqn:GX; cbn [ores bind]; [|discriminate].
        unfold gX. destruct (_ || _)%bool eqn:Q; cbn [bind]; [|discriminate]. intros _. right; right; left.
        apply quality_out in Q. destruct Q as (r & Hr & L). exists x, r. split; [now apply arg_in|auto].
    - destruct (dget "p" args) as [p|] eqn:GP; cbn [ores bind].
      + destruct (limited_val (mp_plim D) (gP p)) as [[A ->]|[_ ->]]; cbn [bind].
        { intros _. right; left. exists p. split; [now apply arg_in|]. now apply p_out_all. }
        destruct (dget "x" args) as [x|] eqn:GX; cbn [ores bind]; [|discriminate].
        unfold gX. destruct (_ || _)%bool eqn:Q; cbn [bind]; [|discriminate]. intros _. right; right; left.
        apply quality_out in Q. destruct Q as (r & Hr & L). exists x, r. split; [now apply arg_in|auto].
      + destruct (dget "x" args) as [x|] eqn:GX; cbn [ores bind]; [|discriminate].
        unfold gX. destruct (_ || _)%bool eqn:Q; cbn [bind]; [|discriminate]. intros _. right; right; left.
        apply quality_out in Q. destruct Q as (r & Hr & L). exists x, r. split; [now apply arg_in|auto].
  Qed.

  Lemma si_args_inv args a : si_args D E args = Ok a ->
    match dget "T" args with Some v => exists w, limited E (mp_Tlim D) (gT v) = Ok w /\ a_T a = Some w | None => a_T a = None end /\
    match dget "p" args with Some v => exists w, limited E (mp_plim D) (gP v) = Ok w /\ a_p a = Some w | None => a_p a = None end /\
    a_x a = dget "x" args /\
    (match dget "x" args with Some v => gX v = Ok v | None => True end).
  Proof.
    rewrite (si_args_val _ _ _ _ _ _ _ _ Z).
    destruct (dget "T" args) as [T|]; cbn [ores bind]; [destruct (limited E (mp_Tlim D) _) eqn:L1; cbn [bind]; [|discriminate]|].
    all: destruct (dget "p" args) as [p|]; cbn [ores bind]; [destruct (limited E (mp_plim D) _) eqn:L2; cbn [bind]; [|discriminate]|].
    all: destruct (dget "x" args) as [x|]; cbn [ores bind]; [unfold gX; destruct (existsb _ x || existsb _ x)%bool; cbn [bind]; [discriminate|]|].
    all: intro H; injection H as <-; cbn [a_T a_p a_x]; repeat split; eauto.
  Qed.
  Lemma si_args_d args a d : si_args D E args = Ok a -> a_d a = Some d ->
    exists n v, (n = "d" \/ n = "v") /\ In (n, v) args /\ List.length d = List.length v.
  Proof.
    rewrite (si_args_val _ _ _ _ _ _ _ _ Z).
    destruct (ores (dget "T" args) _); cbn [bind]; [|discriminate].
    destruct (ores (dget "p" args) _); cbn [bind]; [|discriminate].
    destruct (ores (dget "x" args) _); cbn [bind]; [|discriminate].
    intros H Hd. injection H as <-. cbn [a_d] in Hd. destruct (dget "v" args) as [v|] eqn:G.
    - injection Hd as <-. exists "v", v. split; [auto|]. split; [now apply arg_in|]. apply map_length.
    - destruct (dget "d" args) as [v|] eqn:G2; [|discriminate]. injection Hd as <-. exists "d", v.
      split; [auto|]. split; [now apply arg_in|]. apply map_length.
  Qed.
  Lemma si_args_inverse args a fn h : si_args D E args = Ok a -> a_inv a = Some (fn, h) ->
    exists n v, In n ["e"; "h"; "s"] /\ In (n, v) args /\ List.length h = List.length v.
  Proof.
    rewrite (si_args_val _ _ _ _ _ _ _ _ Z).
    destruct (ores (dget "T" args) _); cbn [bind]; [|discriminate].
    destruct (ores (dget "p" args) _); cbn [bind]; [|discriminate].
    destruct (ores (dget "x" args) _); cbn [bind]; [|discriminate].
    intros H Hd. injection H as <-. cbn [a_inv] in Hd.
    destruct (dget "h" args) as [v|] eqn:G; [|destruct (dget "e" args) as [v|] eqn:G1; [|destruct (dget "s" args) as [v|] eqn:G2; [|discriminate]]].
    - exists "h", v. split; [cbn; auto|]. split; [now apply arg_in|]. injection Hd as _ <-. apply map_length.
    - exists "e", v. split; [cbn; auto|]. split; [now apply arg_in|]. injection Hd as _ <-. apply map_length.
    - exists "s", v. split; [cbn; auto|]. split; [now apply arg_in|]. injection Hd as _ <-. apply map_length.
  Qed.

  Lemma few (args : list (string * arr)) n : good_args args -> (forall k, In k (dkeys args) -> k = n) -> False.
  Proof.
    intros (Nd & L & _) H. rewrite <- (map_length fst) in L. fold (dkeys args) in L.
    assert (K : (List.length (dkeys args) <= List.length [n])%nat).
    { apply NoDup_incl_length; [exact Nd|]. intros k Hk. left. symmetry. auto. }
    cbn in K. lia.
  Qed.
  Lemma name_in (args : list (string * arr)) n a : In (n, a) args -> In n (dkeys args).
  Proof. apply (in_map fst). Qed.

  Lemma from_args_fails args a e : good_args args -> compatible args -> e_oob E = None ->
    si_args D E args = Ok a -> from_args D E fuel a = Err e ->
    (e = PMParamError /\ out_of_range D E z args) \/ (~ direct args /\ search_error e).
  Proof.
    intros G C Ho S F. destruct (si_args_inv _ _ S) as (IT & Ip & Ix & IX).
    destruct (si_args_names _ _ _ _ _ _ _ _ Z _ _ S) as (ST & Sp & Sx & Sd & Si).
    assert (LT : forall T', a_T a = Some T' -> exists T, In ("T", T) args /\ limited E (mp_Tlim D) (gT T) = Ok T' /\ List.length T' = List.length T).
    { intros T' HT. destruct (dget "T" args) as [T|] eqn:GT; [|congruence]. destruct IT as (w & L & Q).
      assert (w = T') by congruence. subst w. exists T. split; [now apply arg_in|]. split; [exact L|].
      apply limited_len in L. rewrite L. apply map_length. }
    assert (Lp : forall p', a_p a = Some p' -> exists p, In ("p", p) args /\ limited E (mp_plim D) (gP p) = Ok p' /\ List.length p' = List.length p).
    { intros p' HT. destruct (dget "p" args) as [p|] eqn:GT; [|congruence]. destruct Ip as (w & L & Q).
      assert (w = p') by congruence. subst w. exists p. split; [now apply arg_in|]. split; [exact L|].
      apply limited_len in L. rewrite L. apply map_length. }
    assert (Lx : forall x', a_x a = Some x' -> In ("x", x') args).
    { intros x' HT. apply arg_in. congruence. }
    unfold from_args in F. destruct (a_inv a) as [[fn h]|] eqn:Qi.
    { destruct (si_args_inverse _ _ _ _ S Qi) as (n & v & Hn & Iv & Lh).
      assert (ND : ~ direct args).
      { intro Dr. apply (Dr n); [right; exact Hn|]. exact (name_in _ _ _ Iv). }
      right. split; [exact ND|].
      destruct (a_p a) as [p|] eqn:Qp.
      { destruct (Lp p eq_refl) as (p0 & Ip0 & _ & Ll).
        destruct (broadcast2_ok h p (compat_args _ _ _ _ _ C Iv Ip0 _ _ Lh Ll)) as [l B].
        rewrite B in F. cbn [bind] in F. exact (hp_err _ _ _ F). }
      destruct (a_d a) as [d|] eqn:Qd.
      { destruct (si_args_d _ _ _ S Qd) as (n' & v' & _ & Iv' & Ll).
        destruct (broadcast2_ok h d (compat_args _ _ _ _ _ C Iv Iv' _ _ Lh Ll)) as [l B].
        rewrite B in F. cbn [bind] in F. exact (hd_err _ _ _ F). }
      destruct (a_x a) as [x|] eqn:Qx.
      { exfalso. destruct G as (_ & _ & _ & Gx). pose proof (Gx (name_in _ _ _ (Lx x eq_refl)) _ (name_in _ _ _ Iv)) as Q.
        clear - Hn Q. cbn in Hn, Q. destruct Hn as [<-|[<-|[<-|[]]]], Q as [Q|[Q|[Q|[]]]]; discriminate Q. }
      destruct (a_T a) as [T|] eqn:QT.
      { destruct (LT T eq_refl) as (T0 & IT0 & _ & Ll).
        destruct (broadcast2_ok h T (compat_args _ _ _ _ _ C Iv IT0 _ _ Lh Ll)) as [l B].
        rewrite B in F. cbn [bind] in F. exact (sT_err _ _ _ F). }
      exfalso. apply (few args n G). intros k Hk.
      destruct G as (_ & _ & (_ & N1 & N2 & N3 & N4 & _) & _). pose proof (N1 k Hk) as Q. pose proof (name_in _ _ _ Iv) as Hn'.
      pose proof (proj1 ST eq_refl) as K1. pose proof (proj1 Sp eq_refl) as K2. pose proof (proj1 Sx eq_refl) as K3.
      pose proof (proj1 Sd eq_refl) as [K4 K5]. clear - Q Hk Hn Hn' N2 N3 N4 K1 K2 K3 K4 K5.
      cbn in Q, Hn. destruct Hn as [<-|[<-|[<-|[]]]], Q as [<-|[<-|[<-|[<-|[<-|[<-|[<-|[<-|[]]]]]]]]]; tauto. }
    destruct (a_T a) as [T|] eqn:QT.
    - destruct (LT T eq_refl) as (T0 & IT0 & LLT & Ll).
      destruct (a_p a) as [p|] eqn:Qp.
      + destruct (Lp p eq_refl) as (p0 & Ip0 & _ & Ll2).
        right. split; [intro Dr; apply (Dr "p"); [left; reflexivity|exact (name_in _ _ _ Ip0)]|].
        destruct C as (n & C).
        match type of F with context [broadcast3 ?u ?v ?w] => destruct (broadcast3_ok u v w) as [l B] end.
        { exists n. intros v [<-|[<-|[<-|[]]]].
          - rewrite Ll. exact (C _ _ IT0).
          - rewrite Ll2. exact (C _ _ Ip0).
          - destruct (a_x a) as [x|]; [exact (C _ _ (Lx x eq_refl))|now right]. }
        rewrite B in F. cbn [bind] in F. exact (Tpx_err _ _ F).
      + destruct (a_d a) as [d|] eqn:Qd.
        { destruct (si_args_d _ _ _ S Qd) as (n' & v' & _ & Iv' & Ll2).
          destruct (broadcast2_ok T d (compat_args _ _ _ _ _ C IT0 Iv' _ _ Ll Ll2)) as [l B].
          rewrite B in F. cbn [bind] in F. discriminate. }
        destruct (a_x a) as [x|] eqn:Qx.
        * destruct (broadcast2_ok T x (compat_args _ _ _ _ _ C IT0 (Lx x eq_refl) _ _ Ll eq_refl)) as [l B].
          rewrite B in F. cbn [bind] in F. left. unfold from_Tx in F.
          assert (Bl : forall e', In e' l -> In (fst e') T /\ In (snd e') x).
          { unfold broadcast2 in B. destruct (broadcast T x) as [[[[T2 x2] s1] s2]|] eqn:B2; cbn [bind] in B; [|discriminate].
            injection B as <-. intros [u w] Hi. destruct (broadcast_elem _ _ _ _ _ _ B2) as (E1 & E2 & _).
            split; [apply E1, (in_combine_l _ _ _ _ Hi)|apply E2, (in_combine_r _ _ _ _ Hi)]. }
          assert (Nx : In "x" (map fst args)) by exact (name_in _ _ _ (Lx x eq_refl)).
          assert (Np : ~ (In "T" (map fst args) /\ In "p" (map fst args))) by (intros [_ Q]; exact (proj1 Sp eq_refl Q)).
          destruct (existsb _ l) eqn:X1.
          { split; [congruence|]. right; right; right. split; [exact Nx|]. split; [exact Np|].
            right; left. apply existsb_exists in X1. destruct X1 as (e' & Hi & L'). apply flt_iff in L'.
            destruct L' as (c & K & Hc & HK & L'). injection Hc as <-. destruct (Bl _ Hi) as [HT _]. rewrite HK in HT.
            destruct (above_limited (mp_Tlim D) 0 _ _ LLT) as (_ & A2 & _). destruct (A2 Ho K HT) as [Hin Hr].
            apply gT_in in Hin. destruct Hin as (r & Hr1 & Hr2). exists T0, r, K. auto. }
          destruct (existsb _ l) eqn:X2 in F; [|discriminate].
          split; [congruence|]. right; right; right. split; [exact Nx|]. split; [exact Np|].
          left. apply existsb_exists in X2. destruct X2 as (e' & Hi & L'). apply flt_iff in L'.
          destruct L' as (q & c & Hq & Hc & L'). injection Hc as <-. destruct (Bl _ Hi) as [_ HX]. rewrite Hq in HX.
          exists x, q. split; [exact (Lx x eq_refl)|]. split; [exact HX|exact L'].
        * exfalso. apply (few args "T" G). intros k Hk.
          destruct G as (_ & _ & (_ & N1 & _) & _). pose proof (N1 k Hk) as Q.
          pose proof (proj1 Sp eq_refl) as K2. pose proof (proj1 Sx eq_refl) as K3.
          pose proof (proj1 Sd eq_refl) as [K4 K5]. pose proof (proj1 Si eq_refl) as (K6 & K7 & K8).
          clear - Q Hk K2 K3 K4 K5 K6 K7 K8.
          cbn in Q. destruct Q as [<-|[<-|[<-|[<-|[<-|[<-|[<-|[<-|[]]]]]]]]]; tauto.
    - destruct (a_p a) as [p|] eqn:Qp.
      + destruct (Lp p eq_refl) as (p0 & Ip0 & LLp & Ll2).
        assert (ND : ~ direct args) by (intro Dr; apply (Dr "p"); [left; reflexivity|exact (name_in _ _ _ Ip0)]).
        destruct (a_d a) as [d|] eqn:Qd.
        { destruct (si_args_d _ _ _ S Qd) as (n' & v' & _ & Iv' & Ll3).
          destruct (broadcast2_ok d p (compat_args _ _ _ _ _ C Iv' Ip0 _ _ Ll3 Ll2)) as [l B].
          rewrite B in F. cbn [bind] in F. right. split; [exact ND|]. exact (pd_err _ _ F). }
        destruct (a_x a) as [x|] eqn:Qx.
        * unfold from_px in F.
          assert (Nx : In "x" (map fst args)) by exact (name_in _ _ _ (Lx x eq_refl)).
          assert (Np : ~ (In "T" (map fst args) /\ In "p" (map fst args))) by (intros [Q _]; exact (proj1 ST eq_refl Q)).
          destruct (existsb _ p) eqn:X1 in F.
          { left. split; [congruence|]. right; right; right. split; [exact Nx|]. split; [exact Np|].
            right; right. apply existsb_exists in X1. destruct X1 as (e' & Hi & L'). apply flt_iff in L'.
            destruct L' as (c & K & Hc & HK & L'). injection Hc as <-. rewrite HK in Hi.
            destruct (above_limited (mp_plim D) 0 _ _ LLp) as (_ & A2 & _). destruct (A2 Ho K Hi) as [Hin Hr].
            apply gP_in in Hin. destruct Hin as (r & Hr1 & Hr2). exists p0, r, K. auto. }
          destruct (existsb _ x) eqn:X2 in F.
          { left. split; [congruence|]. right; right; right. split; [exact Nx|]. split; [exact Np|].
            left. apply quality_neg in X2. destruct X2 as (r & Hr & L'). exists x, r. split; [exact (Lx x eq_refl)|auto]. }
          right. split; [exact ND|].
          destruct (broadcast2_ok p x (compat_args _ _ _ _ _ C Ip0 (Lx x eq_refl) _ _ Ll2 eq_refl)) as [l B].
          rewrite B in F. cbn [bind] in F. destruct (mp_Ts D _) eqn:HTs; cbn [bind] in F; [discriminate|].
          apply Ts_err in HTs. congruence.
        * exfalso. apply (few args "p" G). intros k Hk.
          destruct G as (_ & _ & (_ & N1 & _) & _). pose proof (N1 k Hk) as Q.
          pose proof (proj1 ST eq_refl) as K2. pose proof (proj1 Sx eq_refl) as K3.
          pose proof (proj1 Sd eq_refl) as [K4 K5]. pose proof (proj1 Si eq_refl) as (K6 & K7 & K8).
          clear - Q Hk K2 K3 K4 K5 K6 K7 K8.
          cbn in Q. destruct Q as [<-|[<-|[<-|[<-|[<-|[<-|[<-|[<-|[]]]]]]]]]; tauto.
      + exfalso.
        pose proof (proj1 ST eq_refl) as K1. pose proof (proj1 Sp eq_refl) as K2.
        pose proof (proj1 Si eq_refl) as (K6 & K7 & K8).
        destruct G as (Nd & L2 & (Nl & N1 & _ & _ & _ & Ndv) & Gx).
        assert (KK : exists n, forall k, In k (dkeys args) -> k = n).
        { destruct (in_dec string_dec "x" (dkeys args)) as [Hx|Hx].
          - exists "x". intros k Hk. pose proof (Gx Hx k Hk) as Q. clear - Q Hk K1 K2.
            cbn in Q. destruct Q as [<-|[<-|[<-|[]]]]; tauto.
          - destruct (in_dec string_dec "d" (dkeys args)) as [Hd|Hd]; [exists "d"|exists "v"]; intros k Hk; pose proof (N1 k Hk) as Q;
            clear - Q Hk K1 K2 K6 K7 K8 Hx Hd Ndv;
            cbn in Q; destruct Q as [<-|[<-|[<-|[<-|[<-|[<-|[<-|[<-|[]]]]]]]]]; tauto. }
        destruct KK as (n & KK). assert (KL : (List.length (dkeys args) <= List.length [n])%nat)
          by (apply NoDup_incl_length; [exact Nd|intros k Hk; left; symmetry; auto]).
        rewrite <- (map_length fst) in L2. fold (dkeys args) in L2. cbn in KL. lia.
  Qed.

  (* ---- out of range ---- *)
  Lemma out_of_range_fails args : good_args args -> compatible args -> (forall n a, In (n, a) args -> a <> []) ->
    out_of_range D E z args -> (do a <- si_args D E args; from_args D E fuel a) = Err PMParamError.
  Proof.
    intros G C Ne H.
    destruct (si_args D E args) as [a|e] eqn:S; cbn [bind].
    2:{ now rewrite (si_args_err _ _ _ _ _ _ _ _ Z _ _ S). }
    destruct (si_args_inv _ _ S) as (IT & Ip & Ix & IX). pose proof (proj1 G) as Nd.
    destruct (si_args_names _ _ _ _ _ _ _ _ Z _ _ S) as (ST & Sp & Sx & Sd & Si).
    destruct H as [(T & HT & A)|[(p & Hp & A)|[(x & r & Hx & Hr & L)|(Hx & Np & H)]]].
    - exfalso. rewrite (in_arg _ _ _ Nd HT) in IT. destruct IT as (w & L & _).
      destruct (limited_val (mp_Tlim D) (gT T)) as [[_ Q]|[(y & Hy & O) _]]; [congruence|].
      apply T_out_all with (x := y) in A; [congruence|exact Hy].
    - exfalso. rewrite (in_arg _ _ _ Nd Hp) in Ip. destruct Ip as (w & L & _).
      destruct (limited_val (mp_plim D) (gP p)) as [[_ Q]|[(y & Hy & O) _]]; [congruence|].
      apply p_out_all with (x := y) in A; [congruence|exact Hy].
    - exfalso. rewrite (in_arg _ _ _ Nd Hx) in IX. unfold gX in IX.
      assert (Q : (existsb (fun x => flt (num 1) x) x || existsb (fun x => flt x (num (-1))) x)%bool = true)
        by (apply quality_out; eauto).
      rewrite Q in IX. discriminate.
    - destruct G as (_ & L2 & (_ & N1 & N2 & N3 & N4 & N5) & Gx). specialize (Gx Hx).
      assert (K : forall n, In n ["e"; "h"; "s"; "d"; "v"] -> ~ In n (dkeys args)).
      { intros n Hn Hi. pose proof (Gx n Hi) as Q. clear - Hn Q. cbn in Hn, Q.
        destruct Hn as [<-|[<-|[<-|[<-|[<-|[]]]]]], Q as [Q|[Q|[Q|[]]]]; discriminate Q. }
      assert (Qi : a_inv a = None).
      { apply Si. repeat split; apply K; apply mem_in; reflexivity. }
      assert (Qd : a_d a = None).
      { apply Sd. split; apply K; apply mem_in; reflexivity. }
      destruct (dget "x" args) as [x|] eqn:GX.
      2:{ exfalso. apply in_names in Hx. contradiction. }
      unfold from_args. rewrite Qi, Qd, Ix.
      destruct (dget "T" args) as [T|] eqn:GT.
      + destruct IT as (T' & LT & QT). rewrite QT.
        destruct (dget "p" args) as [p|] eqn:GP.
        { exfalso. apply Np. split; apply in_names; congruence. }
        rewrite Ip. assert (IT0 : In ("T", T) args) by now apply arg_in. assert (Ix0 : In ("x", x) args) by now apply arg_in.
        assert (LL : List.length T' = List.length T) by (apply limited_len in LT; rewrite LT; apply map_length).
        destruct (broadcast2_ok T' x (compat_args _ _ _ _ _ C IT0 Ix0 _ _ LL eq_refl)) as [l B].
        rewrite B. cbn [bind].
        assert (Bl : (forall y, In y T' -> exists w, In (y, w) l) /\ (forall w, In w x -> exists y, In (y, w) l)).
        { unfold broadcast2 in B. destruct (broadcast T' x) as [[[[T2 x2] s1] s2]|] eqn:B2; cbn [bind] in B; [|discriminate].
          injection B as <-. destruct (broadcast_elem _ _ _ _ _ _ B2) as (_ & _ & E3).
          destruct E3 as (_ & _ & E4 & E5).
          { intros ->. apply (Ne _ _ IT0). destruct T; [reflexivity|discriminate LL]. }
          { exact (Ne _ _ Ix0). }
          pose proof (broadcast_len _ _ _ _ _ _ B2) as (L12 & _).
          split; intros y Hy.
          - apply E4, In_nth_error in Hy. destruct Hy as [i Hi].
            destruct (nth_error x2 i) as [w|] eqn:Hw.
            + exists w. apply (nth_error_In _ i). now apply nth_combine.
            + apply nth_error_None in Hw. assert (i < List.length T2)%nat by (apply nth_error_Some; congruence). lia.
          - apply E5, In_nth_error in Hy. destruct Hy as [i Hi].
            destruct (nth_error T2 i) as [w|] eqn:Hw.
            + exists w. apply (nth_error_In _ i). now apply nth_combine.
            + apply nth_error_None in Hw. assert (i < List.length x2)%nat by (apply nth_error_Some; congruence). lia. }
        destruct Bl as [Bl1 Bl2]. unfold from_Tx.
        destruct (existsb _ l) eqn:X1; [reflexivity|]. destruct (existsb _ l) eqn:X2 at 1; [reflexivity|exfalso].
        destruct H as [(x' & r & Hx' & Hr & L)|[(T1 & r & Kk & HT & Hr & Kr & Rr & L)|(p & r & P & Hp & _)]].
        * assert (x' = x) by (apply (in_arg _ _ _ Nd) in Hx'; congruence). subst x'.
          destruct (Bl2 _ Hr) as (y & Hy). rewrite existsb_false, Forall_forall in X2. specialize (X2 _ Hy).
          cbn [snd] in X2. unfold num in X2. rewrite flt_true in X2 by exact L. discriminate.
        * assert (T1 = T) by (apply (in_arg _ _ _ Nd) in HT; congruence). subst T1.
          destruct (above_limited (mp_Tlim D) 0 _ _ LT) as (A1 & _).
          destruct (Bl1 _ (A1 Kk (proj2 (gT_in T Kk) (ex_intro _ r (conj Hr Kr))) Rr)) as (y & Hy).
          rewrite existsb_false, Forall_forall in X1. specialize (X1 _ Hy).
          cbn [fst] in X1. unfold num in X1. rewrite flt_true in X1 by exact L. discriminate.
        * apply (in_arg _ _ _ Nd) in Hp. congruence.
      + rewrite IT. destruct (dget "p" args) as [p|] eqn:GP.
        2:{ exfalso. rewrite dget_none_iff in GT, GP. apply (few args "x"); [repeat split; auto; tauto|].
            intros k Hk. pose proof (Gx k Hk) as Q. clear - Q Hk GT GP. cbn in Q. destruct Q as [<-|[<-|[<-|[]]]]; tauto. }
        destruct Ip as (p' & LP & Qp). rewrite Qp. unfold from_px.
        destruct (existsb _ p') eqn:X1; [reflexivity|]. destruct (existsb _ x) eqn:X2; [reflexivity|exfalso].
        destruct H as [(x' & r & Hx' & Hr & L)|[(T1 & r & Kk & HT & _)|(p1 & r & P & Hp & Hr & Pr & Rr & L)]].
        * assert (x' = x) by (apply (in_arg _ _ _ Nd) in Hx'; congruence). subst x'.
          enough (existsb (fun x => flt x (num 0)) x = true) by congruence. apply quality_neg. eauto.
        * apply (in_arg _ _ _ Nd) in HT. congruence.
        * assert (p1 = p) by (apply (in_arg _ _ _ Nd) in Hp; congruence). subst p1.
          destruct (above_limited (mp_plim D) 0 _ _ LP) as (A1 & _).
          pose proof (A1 P (proj2 (gP_in p P) (ex_intro _ r (conj Hr Pr))) Rr) as Hi.
          rewrite existsb_false, Forall_forall in X1. specialize (X1 _ Hi).
          unfold num in X1. rewrite flt_true in X1 by exact L. discriminate.
  Qed.

  (* ---- the methods ---- *)
  Lemma method_err m varg kw e : In m (mp_methods D E fuel) -> mp_argparse D E fuel varg kw = Err e -> m varg kw = Err e.
  Proof.
    intros Hm H. assert (A : forall f, method D E fuel f varg kw = Err e) by (intro f; unfold method; rewrite H; reflexivity).
    destruct Hm as [<-|[<-|[<-|[<-|[<-|[<-|[<-|[<-|[<-|[<-|[<-|[<-|[<-|[]]]]]]]]]]]]]]; try apply A.
    unfold mm_v. unfold mm_d. rewrite A. reflexivity.
  Qed.
  Lemma plain_ok m varg kw l : In m (mp_plain D E fuel) -> mp_argparse D E fuel varg kw = Ok l ->
    exists out, m varg kw = Ok out.
  Proof.
    intros Hm H. assert (A : forall f, (forall l, exists v, f l = Ok v) -> exists out, method D E fuel f varg kw = Ok out).
    { intros f Hf. unfold method. rewrite H. cbn [bind]. destruct (Hf l) as [v ->]. cbn [bind]. eauto. }
    destruct Hm as [<-|[<-|[<-|[<-|[<-|[<-|[<-|[<-|[<-|[<-|[<-|[]]]]]]]]]]]].
    - apply A. intro. rewrite (atscale_from _ _ _ _ _ _ _ _ Z). eauto.
    - apply A. intro. rewrite (p_out _ _ _ _ _ _ _ _ Z). eauto.
    - apply A. intro. rewrite (out_density_val _ _ _ _ _ _ _ _ Z). eauto.
    - unfold mm_v. destruct (A (fun l => out_density D E (map mix_density l))) as [out Q].
      { intro. rewrite (out_density_val _ _ _ _ _ _ _ _ Z). eauto. }
      unfold mm_d. rewrite Q. cbn [bind]. eauto.
    - apply A. intro. rewrite (out_energy_val _ _ _ _ _ _ _ _ Z). eauto.
    - apply A. intro. rewrite (out_energy_val _ _ _ _ _ _ _ _ Z). eauto.
    - apply A. intro. rewrite (out_heat_val _ _ _ _ _ _ _ _ Z). eauto.
    - apply A. intro. rewrite (out_energy_val _ _ _ _ _ _ _ _ Z). eauto.
    - apply A. intro. rewrite (out_energy_val _ _ _ _ _ _ _ _ Z). eauto.
    - apply A. intro. rewrite (out_heat_val _ _ _ _ _ _ _ _ Z). eauto.
    - apply A. intro. eauto.
  Qed.
  Lemma plain_err m varg kw e : In m (mp_plain D E fuel) -> m varg kw = Err e -> mp_argparse D E fuel varg kw = Err e.
  Proof.
    intros Hm H. destruct (mp_argparse D E fuel varg kw) as [l|e'] eqn:A.
    - destruct (plain_ok _ _ _ _ Hm A). congruence.
    - apply method_err with (m := m) in A; [congruence|].
      clear - Hm. unfold mp_plain in Hm. unfold mp_methods. cbn in *. intuition auto.
  Qed.

  Theorem others_rejected m varg kw : defaults_known E -> In m (mp_methods D E fuel) ->
    NoDup (map fst kw) -> ~ mp_acceptable varg kw -> m varg kw = Err PMParamError.
  Proof. intros Df Hm Hn Ha. apply method_err; [exact Hm|]. exact (mp_rejects D E fuel _ _ _ _ _ _ Z Df varg kw Hn Ha). Qed.

  Theorem range_rejected m varg kw args : In m (mp_methods D E fuel) -> NoDup (map fst kw) -> mp_acceptable varg kw ->
    call_args E varg kw args -> compatible args -> (forall n a, In (n, a) args -> a <> []) ->
    out_of_range D E z args -> m varg kw = Err PMParamError.
  Proof.
    intros Hm Hn Ha Hc C Ne H. apply method_err; [exact Hm|]. destruct (argparse_args _ _ _ Hn Ha Hc) as [G ->].
    apply out_of_range_fails; assumption.
  Qed.

  Theorem failures_explained m varg kw args e : In m (mp_plain D E fuel) -> NoDup (map fst kw) -> mp_acceptable varg kw ->
    call_args E varg kw args -> compatible args -> e_oob E = None -> m varg kw = Err e ->
    (e = PMParamError /\ out_of_range D E z args) \/
    (~ direct args /\ (e = PMParamError \/ e = PMAnalysisError \/ e = EOutOfFuel)).
  Proof.
    intros Hm Hn Ha Hc C Ho H. apply plain_err in H; [|exact Hm]. destruct (argparse_args _ _ _ Hn Ha Hc) as [G Q].
    rewrite Q in H. destruct (si_args D E args) as [a|e'] eqn:S; cbn [bind] in H.
    - exact (from_args_fails _ _ _ G C Ho S H).
    - left. injection H as <-. exact (si_args_fails _ _ S).
  Qed.

  Theorem direct_accepted m varg kw args : In m (mp_plain D E fuel) -> NoDup (map fst kw) -> mp_acceptable varg kw ->
    call_args E varg kw args -> compatible args -> e_oob E = None -> direct args ->
    ~ out_of_range D E z args -> exists out, m varg kw = Ok out.
  Proof.
    intros Hm Hn Ha Hc C Ho Dr No. destruct (m varg kw) as [out|e] eqn:H; [eauto|exfalso].
    destruct (failures_explained _ _ _ _ _ Hm Hn Ha Hc C Ho H) as [[_ K]|[K _]]; contradiction.
  Qed.
End Acc.

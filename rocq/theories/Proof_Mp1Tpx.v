(* C91: what a state given by temperature, pressure and quality is. *)
From Coq Require Import Reals ZArith List String Bool Lia Lra.
From Verif Require Import Base Model_Num Model_Units Model_Defaults Model_Igas Proof_Igas Proof_IgasState Proof_IgasUnits Proof_IgasArgs Proof_IgasCalls Proof_IgtArgs Model_Hybrid Model_Mp1Calls Spec_Mp1 Spec_Mp1Calls Proof_Mp1Units Proof_Mp1Elem Spec_Igas.
Import ListNotations.
Local Open Scope R_scope.
Local Open Scope string_scope.
Local Open Scope list_scope.

Lemma map2_repeat {A B} (l : list A) (c : B) : combine l (repeat c (List.length l)) = map (fun a => (a, c)) l.
Proof. induction l as [|a l IH]; [reflexivity|]. cbn. now rewrite IH. Qed.
Lemma bc_const a c : exists s1 s2, broadcast a [c] = Ok (a, repeat c (List.length a), s1, s2).
Proof. destruct a as [|x [|y a]]; unfold broadcast; cbn [List.length Nat.eqb]; eauto. Qed.
Lemma bc_len a b a' b' s1 s2 : broadcast a b = Ok (a', b', s1, s2) -> List.length a' = List.length b'.
Proof. intro H. apply broadcast_ok in H. tauto. Qed.
Lemma bc_same a b : List.length a = List.length b -> broadcast a b = Ok (a, b, false, false).
Proof. intro H. unfold broadcast. rewrite H, Nat.eqb_refl. reflexivity. Qed.
Lemma broadcast3_const a b c : broadcast3 a b [c] = do l <- broadcast2 a b; Ok (map (fun e => (e, c)) l).
Proof.
  unfold broadcast3, broadcast2. destruct (broadcast a b) as [[[[a' b'] s1] s2]|] eqn:B; [|reflexivity]. cbn [bind].
  destruct (bc_const a' c) as (s3 & s4 & ->). cbn [bind]. pose proof (bc_len _ _ _ _ _ _ B) as L.
  rewrite bc_same by (rewrite repeat_length; auto). cbn [bind].
  replace (List.length a') with (List.length (combine a' b')) by (rewrite combine_length; lia). now rewrite map2_repeat.
Qed.
Lemma combine_mid (a c : arr) (q : fl) : List.length a = List.length c ->
  combine (combine a (repeat q (List.length a))) c = map (fun e => (fst e, q, snd e)) (combine a c).
Proof.
  revert c. induction a as [|x a IH]; intros [|y c] L; try discriminate; [reflexivity|]. cbn. f_equal. apply IH. cbn in L. lia.
Qed.
Lemma broadcast3_mid a c q : broadcast3 a [q] c = do l <- broadcast2 a c; Ok (map (fun e => (fst e, q, snd e)) l).
Proof.
  unfold broadcast3, broadcast2. destruct (bc_const a q) as (s1 & s2 & ->). cbn [bind].
  destruct (broadcast a c) as [[[[a' c'] s3] s4]|] eqn:B; [|reflexivity]. cbn [bind]. pose proof (bc_len _ _ _ _ _ _ B) as L.
  assert (Q : exists s5 s6, broadcast (repeat q (List.length a)) c' = Ok (repeat q (List.length a'), c', s5, s6)).
  { destruct (Nat.eq_dec (List.length a) (List.length a')) as [Ea|Na].
    - rewrite Ea. rewrite bc_same by (rewrite repeat_length; auto). eauto.
    - unfold broadcast in B. destruct (Nat.eqb_spec (List.length a) (List.length c)) as [|N]; [injection B as <- <- _ _; congruence|].
      destruct a as [|x [|x' a]]; destruct c as [|y [|y' c]]; try discriminate; injection B as <- <- _ _; try congruence; try (cbn in Na; congruence).
      + cbn. eauto.
      + cbn [List.length repeat]. unfold broadcast. rewrite repeat_length. cbn [List.length Nat.eqb]. eauto. }
  destruct Q as (s5 & s6 & ->). cbn [bind]. now rewrite combine_mid.
Qed.

Section Tpx.
  Variable D : mpdata.
  Variable E : env.
  Variable fuel : nat.
  Variable z : sizes.
  Hypothesis U : mp_sizes D E z.

  Lemma parse_Tpx (T p x : arr) : mp_argparse D E fuel [] [("T", T); ("p", p); ("x", x)] =
    do T' <- limited E (mp_Tlim D) (gT (z_T z) T); do p' <- limited E (mp_plim D) (gP (z_kP z) p); do x' <- gX x;
    do l <- broadcast3 T' p' x'; from_Tpx D E fuel l.
  Proof.
    unfold mp_argparse. change (positional [] [("T", T); ("p", p); ("x", x)]) with (Ok [("T", T); ("p", p); ("x", x)] : res kwargs). cbn [bind].
    change (defaults E [("T", T); ("p", p); ("x", x)]) with (Ok [("T", T); ("p", p); ("x", x)] : res kwargs). cbn [bind].
    change (mp_rules [("T", T); ("p", p); ("x", x)]) with (Ok tt). cbn [bind]. rewrite (si_args_val _ _ _ _ _ _ _ _ U).
    cbn [dget String.eqb Ascii.eqb Bool.eqb ores]. destruct (limited E (mp_Tlim D) _); [|reflexivity]. cbn [bind].
    destruct (limited E (mp_plim D) _); [|reflexivity]. cbn [bind]. destruct (gX x); reflexivity.
  Qed.
  Lemma parse_Tp (T p : arr) : mp_argparse D E fuel [] [("T", T); ("p", p)] =
    do T' <- limited E (mp_Tlim D) (gT (z_T z) T); do p' <- limited E (mp_plim D) (gP (z_kP z) p); 
    do l <- broadcast3 T' p' [num (-1)]; from_Tpx D E fuel l.
  Proof.
    unfold mp_argparse. change (positional [] [("T", T); ("p", p)]) with (Ok [("T", T); ("p", p)] : res kwargs). cbn [bind].
    change (defaults E [("T", T); ("p", p)]) with (Ok [("T", T); ("p", p)] : res kwargs). cbn [bind].
    change (mp_rules [("T", T); ("p", p)]) with (Ok tt). cbn [bind]. rewrite (si_args_val _ _ _ _ _ _ _ _ U).
    cbn [dget String.eqb Ascii.eqb Bool.eqb ores]. destruct (limited E (mp_Tlim D) _); [|reflexivity]. cbn [bind].
    destruct (limited E (mp_plim D) _); reflexivity.
  Qed.
  Lemma parse_Tx (T x : arr) : mp_argparse D E fuel [] [("T", T); ("x", x)] =
    do T' <- limited E (mp_Tlim D) (gT (z_T z) T); do x' <- gX x; do l <- broadcast2 T' x'; from_Tx D l.
  Proof.
    unfold mp_argparse. change (positional [] [("T", T); ("x", x)]) with (Ok [("T", T); ("x", x)] : res kwargs). cbn [bind].
    change (defaults E [("T", T); ("x", x)]) with (Ok [("T", T); ("x", x)] : res kwargs). cbn [bind].
    change (mp_rules [("T", T); ("x", x)]) with (Ok tt). cbn [bind]. rewrite (si_args_val _ _ _ _ _ _ _ _ U).
    cbn [dget String.eqb Ascii.eqb Bool.eqb ores]. destruct (limited E (mp_Tlim D) _); [|reflexivity]. cbn [bind].
    destruct (gX x); reflexivity.
  Qed.

  (* ---- a quality of at least 0: the pressure is not used ---- *)
  Lemma unselected_d l : (forall e, In e l -> (let '(sel, _, _, _) := e in sel) = false) -> exists ds, mp_d D (e_oob E) fuel l = Ok ds /\ List.length ds = List.length l.
  Proof.
    intro H. unfold mp_d. assert (exists es, traverse (d_elem D fuel) l = Ok es /\ List.length es = List.length l /\ forallb (fun e => negb (e_sel e)) es = true) as (es & -> & L & S).
    { induction l as [|[[[sel T] p] x] l IH]; [exists []; auto|]. destruct IH as (es & IH1 & IH2 & IH3); [intros e He; apply H; now right|].
      pose proof (H _ (or_introl eq_refl)) as Q. cbn beta iota in Q. subst sel. cbn [traverse d_elem]. destruct (d_limits D T p) as [da db]. cbn [bind]. rewrite IH1. cbn [bind].
      eexists. split; [reflexivity|]. cbn [List.length forallb e_sel negb andb]. auto. }
    cbn [bind]. unfold hybrid1. replace (existsb e_sel es) with false.
    - cbn [andb bind fst]. eexists. split; [reflexivity|]. now rewrite !map_length.
    - symmetry. clear -S. induction es as [|e es IH]; [reflexivity|]. cbn in *. destruct (e_sel e); [discriminate|]. auto.
  Qed.
  Theorem mixture_parse (T x : arr) q l : mp_argparse D E fuel [] [("T", T); ("x", x)] = Ok l ->
    fst (mp_plim D) <= q * z_kP z <= snd (mp_plim D) -> mp_argparse D E fuel [] [("T", T); ("p", [Some q]); ("x", x)] = Ok l.
  Proof.
    rewrite parse_Tx, parse_Tpx. destruct (limited E (mp_Tlim D) _) as [T'|]; [|discriminate]. cbn [bind]. intros H Hq.
    assert (LP : limited E (mp_plim D) (gP (z_kP z) [Some q]) = Ok [Some (z_kP z * q)]).
    { unfold gP, limited. cbn [map]. change (fmul (Some (z_kP z)) (Some q)) with (Some (z_kP z * q)). cbv zeta. cbn [forallb].
      unfold num. assert (FF : forall u w, w <= u -> flt (Some u) (Some w) = false) by (intros u w Huw; unfold flt; destruct (Rlt_dec u w); [lra|reflexivity]).
      cbn [map]. rewrite (FF (z_kP z * q)) by lra. rewrite (FF (snd (mp_plim D))) by lra. reflexivity. }
    rewrite LP. cbn [bind]. destruct (gX x) as [x'|]; [|discriminate]. cbn [bind] in *. rewrite broadcast3_mid.
    destruct (broadcast2 T' x') as [b|]; [|discriminate]. cbn [bind] in *. unfold from_Tx in H.
    destruct (existsb (fun e => flt (num (mp_Tc D)) (fst e)) b) eqn:X1; [discriminate|]. destruct (existsb (fun e => flt (snd e) (num 0)) b) eqn:X2; [discriminate|].
    injection H as <-. rewrite Proof_Iter.existsb_false, Forall_forall in X1, X2. unfold from_Tpx. rewrite map_map. cbn [fst snd].
    destruct (unselected_d (map (fun e : fl * fl => (flt (snd e) (num 0), fst e, Some (z_kP z * q), num 0)) b)) as (ds & Hds & L).
    { intros e He. apply in_map_iff in He. destruct He as (e' & <- & He). exact (X2 _ He). }
    match goal with |- bind ?m _ = _ => replace m with (Ok ds) by (symmetry; exact Hds) end.
    cbn [bind]. f_equal. rewrite map_length in L. clear -L X1 X2. revert ds L. induction b as [|[T0 x0] b IH]; intros [|d ds] L; try discriminate; [reflexivity|].
    cbn [map fst snd]. unfold map2 in *. cbn [combine map fst snd]. rewrite (IH (fun e He => X1 e (or_intror He)) (fun e He => X2 e (or_intror He)) ds) by (cbn in L; lia).
    f_equal. pose proof (X1 _ (or_introl eq_refl)) as Y1. pose proof (X2 _ (or_introl eq_refl)) as Y2. cbn [fst snd] in Y1, Y2. rewrite Y2, Y1. reflexivity.
  Qed.
  (* ---- a negative quality: the quality is not used ---- *)
  Definition with_x (r : fl) (s : point) : point := {| s_T := s_T s; s_d1 := s_d1 s; s_d2 := s_d2 s; s_x := r; s_sat := s_sat s |}.
  Theorem single_parse (T p : arr) r : -1 <= r < 0 ->
    mp_argparse D E fuel [] [("T", T); ("p", p); ("x", [Some r])] = do l <- mp_argparse D E fuel [] [("T", T); ("p", p)]; Ok (map (with_x (Some r)) l).
  Proof.
    intro Hr. rewrite parse_Tpx, parse_Tp. destruct (limited E (mp_Tlim D) _) as [T'|]; [|reflexivity]. cbn [bind].
    destruct (limited E (mp_plim D) _) as [p'|]; [|reflexivity]. cbn [bind].
    assert (FF : forall u w, w <= u -> flt (Some u) (Some w) = false) by (intros u w Huw; unfold flt; destruct (Rlt_dec u w); [lra|reflexivity]).
    assert (FT : forall u w, u < w -> flt (Some u) (Some w) = true) by (intros u w Huw; unfold flt; destruct (Rlt_dec u w); [reflexivity|lra]).
    unfold gX. cbn [existsb]. unfold num. rewrite (FF 1 r), (FF r (-1)) by lra. cbn [orb bind]. rewrite !broadcast3_const. fold (num (-1)).
    destruct (broadcast2 T' p') as [b|]; [|reflexivity]. cbn [bind]. unfold from_Tpx. rewrite !map_map.
    assert (Q : map (fun x : fl * fl => let '(T0, p0, x0) := (x, Some r) in (flt x0 (num 0), T0, p0, num 0)) b = map (fun x : fl * fl => let '(T0, p0, x0) := (x, num (-1)) in (flt x0 (num 0), T0, p0, num 0)) b).
    { apply map_ext. intros [T0 p0]. unfold num. rewrite (FT r 0), (FT (-1) 0) by lra. reflexivity. }
    rewrite Q. destruct (mp_d _ _ _ _) as [ds|]; [|reflexivity]. cbn [bind]. f_equal.
    clear -Hr FT. revert ds. induction b as [|[T0 p0] b IH]; intros [|d ds]; [reflexivity|reflexivity|reflexivity|].
    unfold map2 in *. cbn [map combine fst snd]. rewrite IH. f_equal. unfold num. rewrite (FT r 0), (FT (-1) 0) by lra. reflexivity.
  Qed.
  Lemma single_unsat (T p : arr) l : mp_argparse D E fuel [] [("T", T); ("p", p)] = Ok l -> forall s, In s l -> s_sat s = false.
  Proof.
    rewrite parse_Tp. destruct (limited E (mp_Tlim D) _) as [T'|]; [|discriminate]. cbn [bind].
    destruct (limited E (mp_plim D) _) as [p'|]; [|discriminate]. cbn [bind]. rewrite broadcast3_const.
    destruct (broadcast2 T' p') as [b|]; [|discriminate]. cbn [bind]. unfold from_Tpx. destruct (mp_d _ _ _ _) as [ds|]; [|discriminate]. cbn [bind].
    intros H s Hs. injection H as <-. unfold map2 in Hs. apply in_map_iff in Hs. destruct Hs as ([[[T0 p0] x0] d] & <- & Hc). apply in_combine_l, in_map_iff in Hc.
    destruct Hc as (e & Hc & _). injection Hc as _ <-. cbn [fst snd]. unfold num, flt. destruct (Rlt_dec (-1) 0); [reflexivity|lra].
  Qed.
  Definition xfree (f : list point -> res arr) : Prop := forall l r, (forall s, In s l -> s_sat s = false) -> f (map (with_x r) l) = f l.
  Lemma xfree_map F (g : list point -> point -> fl) : (forall l r s, s_sat s = false -> g (map (with_x r) l) (with_x r s) = g l s) -> xfree (fun l => F (map (g l) l)).
  Proof. intros H l r HS. f_equal. rewrite map_map. apply map_ext_in. intros s Hs. apply H, HS, Hs. Qed.
  Lemma liquid_x l r : liquid_all (map (with_x r) l) = liquid_all l.
  Proof. unfold liquid_all. rewrite map_map. reflexivity. Qed.
  Lemma vapor_x l r : vapor_sat (map (with_x r) l) = vapor_sat l.
  Proof. unfold vapor_sat. induction l as [|s l IH]; [reflexivity|]. cbn [map filter]. destruct s as [? ? ? ? []]; [cbn; f_equal; exact IH|exact IH]. Qed.
  Lemma xfree_mixed F f : xfree (fun l => F (mixed_value f l)).
  Proof.
    apply (xfree_map F (fun l s => let y := value0 (f (liquid_all l) (s_T s) (s_d1 s) 0%nat) in
      if s_sat s then (y * (num 1 - s_x s) + value0 (f (vapor_sat l) (s_T s) (s_d2 s) 0%nat) * s_x s)%fl else y)).
    intros l r s S. cbn [with_x s_T s_d1 s_d2 s_x s_sat]. rewrite S, liquid_x. reflexivity.
  Qed.
  Lemma method_single f (T p : arr) r : xfree f -> -1 <= r < 0 ->
    method D E fuel f [] [("T", T); ("p", p); ("x", [Some r])] = do y <- method D E fuel f [] [("T", T); ("p", p)]; Ok (fst y, repeat (Some r) (List.length (snd y))).
  Proof.
    intros XF Hr. unfold method. rewrite (single_parse T p r Hr). destruct (mp_argparse D E fuel [] [("T", T); ("p", p)]) as [l|] eqn:A; [|reflexivity]. cbn [bind].
    rewrite (XF l (Some r) (single_unsat _ _ _ A)). destruct (f l) as [y|]; [|reflexivity]. cbn [bind fst snd]. do 2 f_equal.
    clear. induction l as [|s l IH]; [reflexivity|]. cbn [map List.length repeat]. rewrite <- IH. reflexivity.
  Qed.
  Theorem single_methods m (T p : arr) r : In m (mp_methods D E fuel) -> -1 <= r < 0 ->
    m [] [("T", T); ("p", p); ("x", [Some r])] = do y <- m [] [("T", T); ("p", p)]; Ok (fst y, repeat (Some r) (List.length (snd y))).
  Proof.
    intros HIn Hr. assert (PD : xfree (fun l => out_density D E (map mix_density l))).
    { apply (xfree_map (out_density D E) (fun _ => mix_density)). intros l r' s S. unfold mix_density. cbn [with_x s_sat s_d1]. now rewrite S. }
    unfold mp_methods in HIn. repeat (destruct HIn as [<-|HIn]); [..|destruct HIn]; try (apply method_single; [|exact Hr]).
    - apply (xfree_map (fun v => atscale E v (Some "K") None) (fun _ => s_T)). reflexivity.
    - apply (xfree_map (fun v => aconvert E QPressure v (Some "Pa") None None) (fun l s => value0 (mp_p D (map (fun s => (s_T s, s_d2 s)) l) (s_T s) (s_d2 s) 0%nat))).
      intros l r' s S. rewrite map_map. reflexivity.
    - exact PD.
    - unfold mm_v, mm_d. rewrite (method_single _ T p r PD Hr). destruct (method D E fuel _ [] [("T", T); ("p", p)]) as [[y x]|]; reflexivity.
    - apply xfree_mixed.
    - apply xfree_mixed.
    - apply xfree_mixed.
    - apply xfree_mixed.
    - apply xfree_mixed.
    - apply (xfree_map (out_heat D E) (fun l s => if s_sat s then None else mp_cp D (liquid_all l) (s_T s) (s_d1 s))). intros l r' s S. rewrite liquid_x. reflexivity.
    - intros l r' HS. unfold cv_values. rewrite liquid_x, vapor_x.
      assert (A1 : existsb s_sat (map (with_x r') l) = existsb s_sat l) by (clear; induction l as [|s l IH]; [reflexivity|]; cbn; now rewrite IH).
      assert (A2 : forallb s_sat (map (with_x r') l) = forallb s_sat l) by (clear; induction l as [|s l IH]; [reflexivity|]; cbn; now rewrite IH).
      rewrite A1, A2. destruct (_ && _)%bool; [reflexivity|]. cbn [bind]. f_equal. rewrite map_map. apply map_ext_in. intros s Hs. cbn [with_x s_sat]. rewrite (HS s Hs). reflexivity.
    - apply (xfree_map (fun v => Ok v) (fun l s => if s_sat s then None else (mp_cp D (liquid_all l) (s_T s) (s_d1 s) / mp_cv D (liquid_all l) (s_T s) (s_d1 s))%fl)).
      intros l r' s S. rewrite liquid_x. reflexivity.
    - apply (xfree_map (fun v => do w <- aconvert E QLength v (Some "m") None None; aconvert E QTime w (Some "s") None (Some (-1)%Z))
        (fun l s => if s_sat s then e_oob E else mp_a D (liquid_all l) (s_T s) (s_d1 s))). intros l r' s S. rewrite liquid_x. reflexivity.
  Qed.
  Theorem mixture_methods m (T x : arr) q r : In m (mp_methods D E fuel) -> m [] [("T", T); ("x", x)] = Ok r ->
    fst (mp_plim D) <= q * z_kP z <= snd (mp_plim D) -> m [] [("T", T); ("p", [Some q]); ("x", x)] = Ok r.
  Proof.
    intros HIn H Hq.
    assert (M : forall f r, method D E fuel f [] [("T", T); ("x", x)] = Ok r -> method D E fuel f [] [("T", T); ("p", [Some q]); ("x", x)] = Ok r).
    { intros f r'. unfold method. destruct (mp_argparse D E fuel [] [("T", T); ("x", x)]) as [l|] eqn:A; [|discriminate]. now rewrite (mixture_parse _ _ _ _ A Hq). }
    unfold mp_methods in HIn. repeat (destruct HIn as [<-|HIn]); [..|destruct HIn]; try exact (M _ _ H).
    unfold mm_v, mm_d in *. destruct (method D E fuel _ [] [("T", T); ("x", x)]) as [y|] eqn:A; [|discriminate]. rewrite (M _ _ A). exact H.
  Qed.
  Theorem mixture_state (T x : arr) q r : mm_state D E fuel [] [("T", T); ("x", x)] = Ok r ->
    fst (mp_plim D) <= q * z_kP z <= snd (mp_plim D) -> mm_state D E fuel [] [("T", T); ("p", [Some q]); ("x", x)] = Ok r.
  Proof.
    unfold mm_state. intros H Hq. destruct (mp_argparse D E fuel [] [("T", T); ("x", x)]) as [l|] eqn:A; [|discriminate]. now rewrite (mixture_parse _ _ _ _ A Hq).
  Qed.
End Tpx.

(* The saturation methods, the limits and hsd in the configured units. *)
From Coq Require Import Reals ZArith List Bool String Lia Lra Arith.
From Verif Require Import Base Model_Num Model_Units Model_If97 Model_If97Units Spec_Units Spec_Igas Spec_If97 Spec_If97Units
  Proof_Units Proof_IgasUnits Proof_Mp1HeapVal Proof_If97Poly Proof_If97Units.
Import ListNotations.
Local Open Scope R_scope.
Local Open Scope string_scope.

Lemma combine_map {A B C} (g : A -> B) (h : A -> C) l : combine (map g l) (map h l) = map (fun a => (g a, h a)) l.
Proof. induction l; cbn; congruence. Qed.
Lemma repeat_map {A B} (y : B) (l : list A) : repeat y (List.length l) = map (fun _ => y) l.
Proof. induction l; cbn; congruence. Qed.
Lemma bcast_one a y : a <> [] -> exists s1 s2, broadcast a [y] = Ok (a, map (fun _ => y) a, s1, s2).
Proof.
  unfold broadcast. destruct a as [|x [|x' a]]; [congruence|cbn; eauto|]. intros _.
  change (Nat.eqb (List.length (x :: x' :: a)) (List.length [y])) with false. rewrite <- repeat_map. eauto.
Qed.
Lemma bcast_one_l a y : a <> [] -> exists s1 s2, broadcast [y] a = Ok (map (fun _ => y) a, a, s1, s2).
Proof.
  unfold broadcast. destruct a as [|x [|x' a]]; [congruence|cbn; eauto|]. intros _.
  change (Nat.eqb (List.length [y]) (List.length (x :: x' :: a))) with false. rewrite <- repeat_map. eauto.
Qed.
Lemma bcast_eq a b : List.length a = List.length b -> broadcast a b = Ok (a, b, false, false).
Proof. intro H. unfold broadcast. now rewrite H, Nat.eqb_refl. Qed.
Lemma bc3_T (a : arr) q z : a <> [] -> broadcast3 a [q] [z] = Ok (map (fun t => (t, q, z)) a).
Proof.
  intro H. unfold broadcast3. destruct (bcast_one a q H) as (s1 & s2 & ->). cbn [bind].
  destruct (bcast_one a z H) as (s3 & s4 & ->). cbn [bind]. rewrite bcast_eq by now rewrite !map_length. cbn [bind].
  f_equal. rewrite <- (map_id a) at 1. now rewrite combine_map, combine_map.
Qed.
Lemma bc3_p (a : arr) t z : a <> [] -> broadcast3 [t] a [z] = Ok (map (fun q => (t, q, z)) a).
Proof.
  intro H. unfold broadcast3. destruct (bcast_one_l a t H) as (s1 & s2 & ->). cbn [bind].
  destruct (bcast_one (map (fun _ => t) a) z) as (s3 & s4 & ->); [destruct a; [congruence|discriminate]|]. cbn [bind].
  rewrite map_map, bcast_eq by now rewrite map_length. cbn [bind].
  f_equal. rewrite <- (map_id a) at 2. now rewrite combine_map, combine_map.
Qed.

Lemma trav_map {A B C} (f : B -> res C) (g : A -> B) l : traverse f (map g l) = traverse (fun a => f (g a)) l.
Proof. induction l as [|a l IH]; [reflexivity|]. cbn [map traverse]. now rewrite IH. Qed.
Lemma trav_ext {A B} (f g : A -> res B) l : (forall a, f a = g a) -> traverse f l = traverse g l.
Proof. intro H. induction l as [|a l IH]; [reflexivity|]. cbn [traverse]. now rewrite H, IH. Qed.
Lemma trav_post {A B C} (f : A -> res B) (g : B -> C) l v : traverse f l = Ok v -> traverse (fun a => do b <- f a; Ok (g b)) l = Ok (map g v).
Proof.
  revert v. induction l as [|a l IH]; cbn [traverse]; intros v H; [apply okj in H; now subst|].
  destruct (f a); cbn [bind] in *; [|discriminate]. destruct (traverse f l); cbn [bind] in *; [|discriminate]. apply okj in H. subst v.
  rewrite (IH _ eq_refl). reflexivity.
Qed.
Lemma mean0 l v : l <> None -> v <> None -> mean (Some 0) (l, v) = l.
Proof. destruct l, v; try congruence. intros _ _. cbn. f_equal. ring. Qed.
Lemma mean1 l v : l <> None -> v <> None -> mean (Some 1) (l, v) = v.
Proof. destruct l, v; try congruence. intros _ _. cbn. f_equal. ring. Qed.
Lemma fmul_finite k x : fmul (num k) x <> None -> x <> None.
Proof. destruct x; cbn; congruence. Qed.

(* the density is one over the volume *)
Lemma pi1 D T p e : g1 D T p 1 = Ok e -> fst (fst e) = (p / num (1653/10))%fl.
Proof. unfold g1. destruct (peval _ _ _ _) as [[[[[[a b] c] d] x] y]|]; cbn [bind]; [|discriminate]. intro H. apply okj in H. now subst. Qed.
Lemma pi2 D T p e : g2 D T p 1 = Ok e -> fst (fst e) = (p / num 10)%fl.
Proof.
  unfold g2. destruct (peval _ _ (if_r2o D) _); cbn [bind]; [|discriminate]. destruct (peval _ _ (if_r2r D) _); cbn [bind]; [|discriminate].
  intro H. apply okj in H. now subst.
Qed.
Lemma volume_density D T p e c : 0 < c -> fst (fst e) = (p / num c)%fl -> d_g D T p e <> None ->
  exists v, v_g D T p e = Some v /\ (num 1 / Some v)%fl = d_g D T p e.
Proof.
  intros Hc Hpi. destruct e as [[pi t] j]. cbn [fst] in Hpi. subst pi. unfold d_g, v_g.
  destruct p as [p|]; [|cbn; congruence]. cbn [fdiv lift2 num]. destruct (Req_EM_T c 0); [lra|].
  destruct T as [T|]; [|cbn; congruence]. destruct (jx j) as [g|]; [|cbn; congruence]. cbn.
  set (w := if_R D * T * (p / c) * g). destruct (Req_EM_T w 0) as [|Hw]; [congruence|]. intros _.
  assert (p <> 0). { intro; subst p. apply Hw. unfold w. field. exact n. }
  destruct (Req_EM_T (p * 100) 0); [exfalso; lra|]. exists (w / (p * 100)). split; [reflexivity|].
  destruct (Req_EM_T (w / (p * 100)) 0) as [Z|Z].
  { exfalso. apply Hw. apply (Rmult_eq_reg_r (/ (p * 100))); [unfold Rdiv in Z; lra|]. now apply Rinv_neq_0_compat. }
  f_equal. field. repeat split; lra.
Qed.

Section S.
  Variables (D : ifdata) (E : env) (uT : string) (kT kP kV kE kM : R).
  Hypothesis U : units_known E (if_mw D) uT kT kP kV kE kM.
  Let mw := if_mw D.
  Let PT : 0 < kT := kT_pos _ _ _ _ _ _ _ _ U.
  Let PP : 0 < kP := kP_pos _ _ _ _ _ _ _ _ U.
  Notation kel := (lift1 (to_kelvin uT)).
  Definition bars (q : fl) : fl := fmul (Some (kP / 100000)) q.

  Lemma aconv_bar v : aconvert E QPressure v None (Some "bar") None = Ok (map bars v).
  Proof. unfold aconvert. rewrite (to_bar _ _ _ _ _ _ _ _ U). reflexivity. Qed.
  Lemma atsc v : atscale E v None (Some "K") = Ok (map kel v).
  Proof. apply (atscale_to _ _ _ _ _ _ _ _ U). Qed.
  Lemma between_ok a lo hi v : between a lo hi = Ok v -> v = a.
  Proof. unfold between. destruct (existsb _ a); [discriminate|]. destruct (existsb _ a); [discriminate|]. congruence. Qed.

  (* what the saturated methods compute from the arrays *)
  Lemma saturated_T fg scale a Tu pu L V : saturated D E fg scale (Some (Array a)) None = Ok (Tu, pu, L, V) ->
    Tu = a /\ u_ps D E (Some a) = Ok pu /\
    exists k lv, scale = Ok k /\ traverse (fun t => phases D fg 1%nat (kel t) (if_ps D (kel t))) a = Ok lv /\
      L = map (fun r => fmul (num k) (fst r)) lv /\ V = map (fun r => fmul (num k) (snd r)) lv.
  Proof.
    unfold saturated, sat_T, u_ps. cbn [values or_default unconverted]. rewrite atsc. cbn [bind].
    destruct (between (map kel a) _ _) as [b|] eqn:B; cbn [bind]; [|discriminate]. apply between_ok in B. subst b.
    destruct (aconvert E QPressure (map snd _) _ _ _) as [q|] eqn:Q; cbn [bind]; [|discriminate].
    destruct scale as [k|]; cbn [bind]; [|discriminate]. destruct (traverse _ _) as [lv|] eqn:Tr; cbn [bind]; [|discriminate].
    intro H. apply okj in H. injection H as <- <- <- <-. split; [reflexivity|]. split.
    - rewrite map_map in Q. cbn [snd] in Q. exact Q.
    - exists k, lv. split; [reflexivity|]. split; [|auto]. rewrite !trav_map in Tr. exact Tr.
  Qed.
  Lemma saturated_p fg scale a Tu pu L V : saturated D E fg scale None (Some (Array a)) = Ok (Tu, pu, L, V) ->
    pu = a /\ u_Ts D E (Some a) = Ok Tu /\
    exists k lv, scale = Ok k /\ traverse (fun q => phases D fg 1%nat (if_Ts D (bars q)) (bars q)) a = Ok lv /\
      L = map (fun r => fmul (num k) (fst r)) lv /\ V = map (fun r => fmul (num k) (snd r)) lv.
  Proof.
    unfold saturated, sat_p, u_Ts. cbn [values or_default unconverted]. cbn [bind]. rewrite aconv_bar. cbn [bind].
    destruct (between (map bars a) _ _) as [b|] eqn:B; cbn [bind]; [|discriminate]. apply between_ok in B. subst b.
    destruct (atscale E (map fst _) _ _) as [q|] eqn:Q; cbn [bind]; [|discriminate].
    destruct scale as [k|]; cbn [bind]; [|discriminate]. destruct (traverse _ _) as [lv|] eqn:Tr; cbn [bind]; [|discriminate].
    intro H. apply okj in H. injection H as <- <- <- <-. split; [reflexivity|]. split.
    - rewrite map_map in Q. cbn [fst] in Q. exact Q.
    - exists k, lv. split; [reflexivity|]. split; [|auto]. rewrite !trav_map in Tr. exact Tr.
  Qed.

  (* the calls with a quality *)
  Lemma flt00 z : 0 <= z -> flt (Some z) (num 0) = false.
  Proof. intro. cbn. destruct (Rlt_dec z 0); [lra|reflexivity]. Qed.
  Lemma quality_T f scale a z : a <> [] -> method E f scale (Some a) None (Some [Some z]) =
    do v <- traverse (fun t => f false true (kel t) (bars (Some (e_defp E))) (Some z)) a; do k <- scale; Ok (map (fmul (num k)) v).
  Proof.
    intro Ha. unfold method. rewrite (elements_is _ _ _ _ _ _ _ _ U). cbn [or_default absent].
    change [num (e_defp E)] with [Some (e_defp E)]. rewrite bc3_T by exact Ha. cbn [bind].
    destruct (map _ a) as [|m l] eqn:M; [destruct a; [congruence|discriminate]|]. rewrite <- M, trav_map. unfold elem_call. cbn [fst snd].
    unfold bars. replace ((Some (e_defp E) * num (kpc kP))%fl) with (fmul (Some (kP / 100000)) (Some (e_defp E)));
      [reflexivity|]. cbn. f_equal. unfold kpc. ring.
  Qed.
  Lemma quality_p f scale a z : a <> [] -> method E f scale None (Some a) (Some [Some z]) =
    do v <- traverse (fun q => f true false (kel (Some (e_defT E))) (bars q) (Some z)) a; do k <- scale; Ok (map (fmul (num k)) v).
  Proof.
    intro Ha. unfold method. rewrite (elements_is _ _ _ _ _ _ _ _ U). cbn [or_default absent].
    change [num (e_defT E)] with [Some (e_defT E)]. rewrite bc3_p by exact Ha. cbn [bind].
    destruct (map _ a) as [|m l] eqn:M; [destruct a; [congruence|discriminate]|]. rewrite <- M, trav_map. unfold elem_call. cbn [fst snd].
    rewrite (trav_ext _ (fun q => f true false (kel (Some (e_defT E))) (bars q) (Some z)) a); [reflexivity|].
    intro q. f_equal. unfold bars. destruct q; cbn; [f_equal; unfold kpc; ring|reflexivity].
  Qed.
  (* mixing with quality 0 and 1 *)
  Lemma means k lv : all_finite (map (fun r => fmul (num k) (fst r)) lv) -> all_finite (map (fun r => fmul (num k) (snd r)) lv) ->
    map (fmul (num k)) (map (mean (Some 0)) lv) = map (fun r => fmul (num k) (fst r)) lv /\
    map (fmul (num k)) (map (mean (Some 1)) lv) = map (fun r => fmul (num k) (snd r)) lv.
  Proof.
    unfold all_finite. induction lv as [|[l v] lv IH]; [auto|]. cbn [map fst snd]. intros HL HV.
    assert (l <> None). { intro; subst. apply HL. left. reflexivity. }
    assert (v <> None). { intro; subst. apply HV. left. reflexivity. }
    destruct IH as [I0 I1]; [intro; apply HL; now right|intro; apply HV; now right|].
    rewrite I0, I1, mean0, mean1 by assumption. auto.
  Qed.
  Lemma prop_T fg ff a lv z : 0 <= z ->
    traverse (fun t => phases D fg 1%nat (kel t) (if_ps D (kel t))) a = Ok lv ->
    traverse (fun t => prop D fg ff 1 false true (kel t) (bars (Some (e_defp E))) (Some z)) a = Ok (map (mean (Some z)) lv).
  Proof.
    intros Hz H. rewrite <- (trav_post _ (mean (Some z)) _ _ H). apply trav_ext. intro t. unfold prop. rewrite flt00 by exact Hz. reflexivity.
  Qed.
  Lemma prop_p fg ff a lv z : 0 <= z ->
    traverse (fun q => phases D fg 1%nat (if_Ts D (bars q)) (bars q)) a = Ok lv ->
    traverse (fun q => prop D fg ff 1 true false (kel (Some (e_defT E))) (bars q) (Some z)) a = Ok (map (mean (Some z)) lv).
  Proof.
    intros Hz H. rewrite <- (trav_post _ (mean (Some z)) _ _ H). apply trav_ext. intro t. unfold prop. rewrite flt00 by exact Hz. reflexivity.
  Qed.
  (* densities: mixing volumes *)
  Lemma vol_phases T p lv : phases D (d_g D) 1 T p = Ok lv -> fst lv <> None -> snd lv <> None ->
    exists vl vv, phases D (v_g D) 1 T p = Ok (vl, vv) /\
      (num 1 / mean (Some 0) (vl, vv))%fl = fst lv /\ (num 1 / mean (Some 1) (vl, vv))%fl = snd lv.
  Proof.
    unfold phases. destruct (g1 D T p 1) as [e1|] eqn:G1; cbn [bind]; [|discriminate]. destruct (g2 D T p 1) as [e2|] eqn:G2; cbn [bind]; [|discriminate].
    intro H. apply okj in H. subst lv. cbn [fst snd]. intros N1 N2.
    destruct (volume_density D T p e1 (1653/10)) as (v1 & A1 & B1); [lra|eapply pi1; eassumption|exact N1|].
    destruct (volume_density D T p e2 10) as (v2 & A2 & B2); [lra|eapply pi2; eassumption|exact N2|].
    rewrite A1, A2. exists (Some v1), (Some v2). split; [reflexivity|]. rewrite mean0, mean1 by discriminate. auto.
  Qed.
  Lemma vol_trav {A} (g h : A -> fl) a lv k : traverse (fun t => phases D (d_g D) 1%nat (g t) (h t)) a = Ok lv ->
    all_finite (map (fun r => fmul (num k) (fst r)) lv) -> all_finite (map (fun r => fmul (num k) (snd r)) lv) ->
    traverse (fun t => do lv <- phases D (v_g D) 1%nat (g t) (h t); Ok (num 1 / mean (Some 0) lv)%fl) a = Ok (map fst lv) /\
    traverse (fun t => do lv <- phases D (v_g D) 1%nat (g t) (h t); Ok (num 1 / mean (Some 1) lv)%fl) a = Ok (map snd lv).
  Proof.
    unfold all_finite. revert lv. induction a as [|t a IH]; cbn [traverse]; intros lv H HL HV; [apply okj in H; subst; auto|].
    destruct (phases D (d_g D) 1 (g t) (h t)) as [r|] eqn:P; cbn [bind] in H; [|discriminate]. destruct (traverse _ a) as [w|]; cbn [bind] in H; [|discriminate].
    apply okj in H. subst lv. cbn [map] in *.
    assert (fst r <> None). { intro Q. apply HL. left. rewrite Q. reflexivity. }
    assert (snd r <> None). { intro Q. apply HV. left. rewrite Q. reflexivity. }
    destruct (IH w eq_refl) as [I0 I1]; [intro; apply HL; now right|intro; apply HV; now right|].
    destruct (vol_phases _ _ _ P) as (vl & vv & Q & Q0 & Q1); [assumption|assumption|].
    rewrite Q. cbn [bind]. rewrite I0, I1, Q0, Q1. auto.
  Qed.

  Lemma sat_prop fg ff scale : consistent D E (saturated D E fg scale) (method E (prop D fg ff 1) scale).
  Proof.
    split; intros a Tu pu L V Ha H.
    - apply saturated_T in H. destruct H as (-> & Hp & k & lv & Hk & Tr & -> & ->). split; [reflexivity|]. split; [exact Hp|].
      intros FL FV. destruct (means k lv FL FV) as [M0 M1]. rewrite !quality_T by exact Ha.
      rewrite (prop_T fg ff a lv 0), (prop_T fg ff a lv 1) by (exact Tr || lra). rewrite Hk. cbn [bind]. rewrite M0, M1. auto.
    - apply saturated_p in H. destruct H as (-> & Hp & k & lv & Hk & Tr & -> & ->). split; [reflexivity|]. split; [exact Hp|].
      intros FL FV. destruct (means k lv FL FV) as [M0 M1]. rewrite !quality_p by exact Ha.
      rewrite (prop_p fg ff a lv 0), (prop_p fg ff a lv 1) by (exact Tr || lra). rewrite Hk. cbn [bind]. rewrite M0, M1. auto.
  Qed.
  Lemma sat_dens : consistent D E (u_ds D E) (u_d D E).
  Proof.
    split; intros a Tu pu L V Ha H.
    - apply saturated_T in H. destruct H as (-> & Hp & k & lv & Hk & Tr & -> & ->). split; [reflexivity|]. split; [exact Hp|].
      intros FL FV. destruct (vol_trav _ _ a lv k Tr FL FV) as [M0 M1]. unfold u_d. rewrite !quality_T by exact Ha.
      assert (Q : forall z w, 0 <= z ->
        traverse (fun t => do lv <- phases D (v_g D) 1%nat (kel t) (if_ps D (kel t)); Ok (num 1 / mean (Some z) lv)%fl) a = Ok w ->
        traverse (fun t => prop_d D false true (kel t) (bars (Some (e_defp E))) (Some z)) a = Ok w).
      { intros z w Hz <-. apply trav_ext. intro t. unfold prop_d. rewrite flt00 by exact Hz. reflexivity. }
      rewrite (Q 0 _ ltac:(lra) M0), (Q 1 _ ltac:(lra) M1), Hk. cbn [bind]. rewrite !map_map. auto.
    - apply saturated_p in H. destruct H as (-> & Hp & k & lv & Hk & Tr & -> & ->). split; [reflexivity|]. split; [exact Hp|].
      intros FL FV. destruct (vol_trav _ _ a lv k Tr FL FV) as [M0 M1]. unfold u_d. rewrite !quality_p by exact Ha.
      assert (Q : forall z w, 0 <= z ->
        traverse (fun q => do lv <- phases D (v_g D) 1%nat (if_Ts D (bars q)) (bars q); Ok (num 1 / mean (Some z) lv)%fl) a = Ok w ->
        traverse (fun q => prop_d D true false (kel (Some (e_defT E))) (bars q) (Some z)) a = Ok w).
      { intros z w Hz <-. apply trav_ext. intro t. unfold prop_d. rewrite flt00 by exact Hz. reflexivity. }
      rewrite (Q 0 _ ltac:(lra) M0), (Q 1 _ ltac:(lra) M1), Hk. cbn [bind]. rewrite !map_map. auto.
  Qed.
  Lemma sat_pairs fs f : In (fs, f) (saturation_pairs D E) -> consistent D E fs f.
  Proof.
    intro H. cbn in H. repeat destruct H as [H|H]; try contradiction; injection H as <- <-; [apply sat_prop|apply sat_prop|exact sat_dens].
  Qed.
  Lemma sat_entropy_ok : kT = 9/5 -> consistent D E (u_ss D E) (u_s D E).
  Proof.
    intro Hk. unfold u_s. replace (scale_s D E) with (scale_h D E); [apply sat_prop|].
    rewrite (scale_s_is _ _ _ _ _ _ _ _ U), (scale_h_is _ _ _ _ _ _ _ _ U), Hk. f_equal. field.
    pose proof (kE_pos _ _ _ _ _ _ _ _ U). pose proof (kM_pos _ _ _ _ _ _ _ _ U). repeat split; lra.
  Qed.
  (* otherwise ss and s disagree *)
  Lemma sat_entropy_wrong t l v : kT <> 9/5 -> forall Tu pu, u_ss D E (Some (Array [Some t])) None = Ok (Tu, pu, [Some l], [Some v]) -> l <> 0 ->
    u_s D E (Some [Some t]) None (Some [Some 0]) <> Ok [Some l].
  Proof.
    intros Hk Tu pu H Hl. apply saturated_T in H. destruct H as (_ & _ & k & lv & Hs & Tr & HL & HV).
    unfold u_s. rewrite quality_T by discriminate. unfold if_s. rewrite (prop_T (s_g D) (s_f D) [Some t] lv 0) by (exact Tr || lra). cbn [bind].
    rewrite (scale_s_is _ _ _ _ _ _ _ _ U). rewrite (scale_h_is _ _ _ _ _ _ _ _ U) in Hs. apply okj in Hs. cbn [bind]. rewrite Hs.
    destruct lv as [|[a b] [|]]; try discriminate. cbn [map fst snd] in *. injection HL as HL. injection HV as HV.
    destruct a as [a|]; [|discriminate]. destruct b as [b|]; [|discriminate]. cbn [fmul lift2 num] in *. injection HL as HL.
    rewrite mean0 by discriminate. cbn [fmul lift2]. intro Q. apply okj in Q. injection Q as Q.
    assert (Q2 : l * (9 / 5 / kT) = l) by (transitivity (k * a * (9 / 5 / kT)); [now rewrite HL|rewrite <- Q; ring]).
    apply Hk. assert (9 / 5 / kT = 1) by (apply (Rmult_eq_reg_l l); lra).
    apply (Rmult_eq_reg_r (/ kT)); [|apply Rinv_neq_0_compat; lra]. rewrite Rinv_r by lra. symmetry. assumption.
  Qed.
  (* plain numbers *)
  Lemma number_T fg scale T p : dget "unit_temperature" (e_cfg E) = Some "K" -> saturated D E fg scale (Some (Number T)) p = Err EAttributeError.
  Proof. intro H. unfold saturated, sat_T. rewrite atsc. cbn [bind unconverted]. rewrite H. reflexivity. Qed.
  Lemma number_p fg scale o : dget "unit_pressure" (e_cfg E) = Some "bar" -> saturated D E fg scale None (option_map Number o) = Err EAttributeError.
  Proof. intro H. unfold saturated, sat_p. destruct o; cbn [option_map bind]; rewrite aconv_bar; cbn [bind unconverted]; rewrite H; reflexivity. Qed.
  (* the range *)
  Lemma between_err a lo hi r : In (Some r) a -> r < lo \/ hi < r -> between a lo hi = Err PMParamError.
  Proof.
    intros HI Hr. unfold between.
    destruct (existsb (fun x => flt x (num lo)) a) eqn:E1; [reflexivity|].
    destruct (existsb (fun x => flt (num hi) x) a) eqn:E2; [reflexivity|]. exfalso. destruct Hr as [Hr|Hr].
    - enough (existsb (fun x => flt x (num lo)) a = true) by congruence. apply existsb_exists. exists (Some r). split; [exact HI|]. cbn. destruct (Rlt_dec r lo); [reflexivity|lra].
    - enough (existsb (fun x => flt (num hi) x) a = true) by congruence. apply existsb_exists. exists (Some r). split; [exact HI|]. cbn. destruct (Rlt_dec hi r); [reflexivity|lra].
  Qed.
  Lemma range_T fg scale a t : In (Some t) a -> to_kelvin uT t < if_Tt D \/ if_Tc D < to_kelvin uT t ->
    saturated D E fg scale (Some (Array a)) None = Err PMParamError /\ u_ps D E (Some a) = Err PMParamError.
  Proof.
    intros HI Hr. unfold saturated, sat_T, u_ps. cbn [values or_default unconverted]. rewrite atsc. cbn [bind].
    rewrite (between_err _ _ _ (to_kelvin uT t)); [auto| |exact Hr]. change (Some (to_kelvin uT t)) with (kel (Some t)). now apply in_map.
  Qed.
  Lemma range_p fg scale a q : In (Some q) a -> q * kP / 100000 < if_pt D \/ if_pc D < q * kP / 100000 ->
    saturated D E fg scale None (Some (Array a)) = Err PMParamError /\ u_Ts D E (Some a) = Err PMParamError.
  Proof.
    intros HI Hr. unfold saturated, sat_p, u_Ts. cbn [values or_default unconverted bind]. rewrite aconv_bar. cbn [bind].
    rewrite (between_err _ _ _ (q * kP / 100000)); [auto| |exact Hr]. replace (Some (q * kP / 100000)) with (bars (Some q)) by (cbn; f_equal; field). now apply in_map.
  Qed.
  Lemma between_in a lo hi : (forall r, In r a -> exists x, r = Some x /\ lo <= x <= hi) -> between a lo hi = Ok a.
  Proof.
    intro H. unfold between.
    destruct (existsb (fun x => flt x (num lo)) a) eqn:E1.
    { apply existsb_exists in E1. destruct E1 as (r & HI & F). destruct (H r HI) as (x & -> & Hx). cbn in F. destruct (Rlt_dec x lo); [lra|discriminate]. }
    destruct (existsb (fun x => flt (num hi) x) a) eqn:E2; [|reflexivity].
    apply existsb_exists in E2. destruct E2 as (r & HI & F). destruct (H r HI) as (x & -> & Hx). cbn in F. destruct (Rlt_dec hi x); [lra|discriminate].
  Qed.
  Lemma phases_total fg T p : usable (if_r1 D) -> usable (if_r2o D) -> usable (if_r2r D) -> exists lv, phases D fg 1 T p = Ok lv.
  Proof.
    intros H1 H2 H3. unfold phases, g1, g2.
    match goal with |- context [peval ?x ?y (if_r1 D) ?o] => destruct (proj2 (peval_accepts x y _ o) H1) as [r ->] end. cbn [bind].
    destruct r as [[[[[? ?] ?] ?] ?] ?]. cbn [bind].
    match goal with |- context [peval ?x ?y (if_r2o D) ?o] => destruct (proj2 (peval_accepts x y _ o) H2) as [r ->] end. cbn [bind].
    match goal with |- context [peval ?x ?y (if_r2r D) ?o] => destruct (proj2 (peval_accepts x y _ o) H3) as [r' ->] end. cbn [bind]. eauto.
  Qed.
  Lemma trav_total {A B} (f : A -> res B) l : (forall a, exists b, f a = Ok b) -> exists v, traverse f l = Ok v.
  Proof. intro H. induction l as [|a l [v IH]]; [now exists []|]. cbn [traverse]. destruct (H a) as [b ->]. rewrite IH. cbn [bind]. eauto. Qed.
  Lemma answers_T fg scale k a : scale = Ok k -> usable (if_r1 D) -> usable (if_r2o D) -> usable (if_r2r D) ->
    (forall t, In t a -> if_Tt D <= to_kelvin uT t <= if_Tc D) ->
    exists r, saturated D E fg scale (Some (Array (map Some a))) None = Ok r.
  Proof.
    intros Hs H1 H2 H3 Ha. unfold saturated, sat_T. cbn [values unconverted]. rewrite atsc. cbn [bind]. rewrite between_in.
    2:{ intros r Hr. rewrite map_map in Hr. apply in_map_iff in Hr. destruct Hr as (t & <- & Ht). cbn. eauto. }
    cbn [bind]. unfold aconvert. rewrite (from_bar _ _ _ _ _ _ _ _ U). cbn [bind]. rewrite Hs. cbn [bind].
    destruct (trav_total (fun e : fl * fl => phases D fg 1 (fst e) (snd e)) (map (fun t => (t, if_ps D t)) (map kel (map Some a)))) as [v Hv];
      [intro e; now apply phases_total|]. rewrite Hv. cbn [bind]. eauto.
  Qed.
End S.

(* Limits, hsd, T_h and the default state in the configured units. *)
From Coq Require Import Reals ZArith List Bool String Lia Lra Arith.
From Verif Require Import Base Model_Num Model_Units Model_If97 Model_If97Units Spec_Units Spec_Igas Spec_If97 Spec_If97Units
  Proof_Units Proof_IgasUnits Proof_Mp1Elem Proof_Mp1HeapVal Proof_If97Poly Proof_If97Sat Proof_If97Units Proof_If97UnitsB.
Import ListNotations.
Local Open Scope R_scope.
Local Open Scope string_scope.

(* the entry of a limit that belongs to element i *)
Lemma choose_at big hi lo i b : nth_error big i = Some b -> limit_at (choose big hi lo) i = Some (if b then hi else lo).
Proof.
  intro H. unfold choose. destruct (forallb (fun b => b) big) eqn:A.
  - rewrite forallb_forall in A. assert (b = true) as -> by (apply A; eapply nth_error_In; eassumption). reflexivity.
  - destruct (existsb (fun b => b) big) eqn:B; cbn [negb].
    + cbn [limit_at]. rewrite nth_error_map, H. reflexivity.
    + destruct b; [|reflexivity]. exfalso. enough (existsb (fun b => b) big = true) by congruence. apply existsb_exists. exists true.
      split; [eapply nth_error_In; eassumption|reflexivity].
Qed.

Section S.
  Variables (D : ifdata) (E : env) (uT : string) (kT kP kV kE kM : R).
  Hypothesis U : units_known E (if_mw D) uT kT kP kV kE kM.
  Let mw := if_mw D.
  Let Pmw : 0 < mw := uk_mw _ _ _ _ _ _ _ _ U.
  Let PP : 0 < kP := kP_pos _ _ _ _ _ _ _ _ U.
  Let PE : 0 < kE := kE_pos _ _ _ _ _ _ _ _ U.
  Let PM : 0 < kM := kM_pos _ _ _ _ _ _ _ _ U.
  Notation kel := (lift1 (to_kelvin uT)).

  Lemma user_point T p : exists T' p', in_user_units E T p = Ok (T', p') /\ to_kelvin uT T' = T /\ p' * kP = p * 100000.
  Proof.
    unfold in_user_units. rewrite (tscale_from _ _ _ _ _ _ _ _ U). cbn [bind]. rewrite (from_bar _ _ _ _ _ _ _ _ U). cbn [bind].
    do 2 eexists. split; [reflexivity|]. rewrite to_from_kelvin. split; [reflexivity|]. field. lra.
  Qed.
  Lemma critical_is : exists T p, u_critical D E = Ok (T, p) /\ to_kelvin uT T = if_Tc D /\ p * kP = if_pc D * 100000.
  Proof. apply user_point. Qed.
  Lemma triple_is : exists T p, u_triple D E = Ok (T, p) /\ to_kelvin uT T = if_Tt D /\ p * kP = if_pt D * 100000.
  Proof. apply user_point. Qed.

  Lemma Tlim_is a : exists lo hi, u_Tlim E (Some (map Some a)) = Ok (lo, hi) /\ to_kelvin uT lo = 273.15 /\
    forall i q, nth_error a i = Some q -> exists x, limit_at hi i = Some x /\
      (0 <= q * kP / 100000 <= 1000 -> forall T, accepted_range T (q * kP / 100000) <-> T <= to_kelvin uT x).
  Proof.
    unfold u_Tlim. cbn [or_default]. rewrite (aconv_bar _ _ _ _ _ _ _ _ U). cbn [bind]. rewrite !(tscale_from _ _ _ _ _ _ _ _ U). cbn [bind].
    do 2 eexists. split; [reflexivity|]. rewrite to_from_kelvin. split; [lra|]. intros i q Hq.
    assert (N : nth_error (map (fun p => flt (num 500) p) (map (bars kP) (map Some a))) i = Some (flt (num 500) (bars kP (Some q)))).
    { rewrite !nth_error_map, Hq. reflexivity. }
    rewrite (choose_at _ _ _ _ _ N). eexists. split; [reflexivity|]. intros Hr T. unfold accepted_range.
    unfold bars. cbn [fmul lift2]. cbn [flt num]. replace (kP / 100000 * q) with (q * kP / 100000) by field.
    destruct (Rlt_dec 500 (q * kP / 100000)) as [L|L]; rewrite to_from_kelvin; split; intros; lra.
  Qed.
  Lemma plim_is a : exists lo hi, u_plim D E (Some (map Some a)) = Ok (lo, hi) /\ lo * kP = if_pt D * 100000 /\
    forall i t, nth_error a i = Some t -> exists x, limit_at hi i = Some x /\
      (to_kelvin uT t <= 2273.15 -> forall p, accepted_range (to_kelvin uT t) p <-> 0 <= p <= x * kP / 100000).
  Proof.
    unfold u_plim. cbn [or_default]. rewrite (atsc _ _ _ _ _ _ _ _ U). cbn [bind]. rewrite !(from_bar _ _ _ _ _ _ _ _ U). cbn [bind].
    do 2 eexists. split; [reflexivity|]. split; [field; lra|]. intros i t Ht.
    assert (N : nth_error (map (fun T => flt (num (107315/100)) T) (map kel (map Some a))) i = Some (flt (num (107315/100)) (kel (Some t)))).
    { rewrite !nth_error_map, Ht. reflexivity. }
    rewrite (choose_at _ _ _ _ _ N). eexists. split; [reflexivity|]. intros Hr p. unfold accepted_range.
    cbn [lift1 flt num].
    destruct (Rlt_dec (107315/100) (to_kelvin uT t)) as [L|L].
    - replace (500 * (100000 / kP) * kP / 100000) with 500 by (field; lra). split; intros; lra.
    - replace (1000 * (100000 / kP) * kP / 100000) with 1000 by (field; lra). split; intros; lra.
  Qed.
  Lemma mw_is um un km kn : dget "unit_mass" (e_cfg E) = Some um -> si (e_setup E) QMass um = Some km ->
    dget "unit_molar" (e_cfg E) = Some un -> si (e_setup E) QMolar un = Some kn ->
    exists r, u_mw D E = Ok r /\ r * (km / kn) = mw.
  Proof.
    intros H1 H2 H3 H4. pose proof (uk_setup _ _ _ _ _ _ _ _ U) as Hs.
    pose proof (si_pos _ _ _ _ Hs H2). pose proof (si_pos _ _ _ _ Hs H4). unfold u_mw.
    rewrite (convert_resolved (e_setup E) QMass (e_cfg E) _ (Some "g") None None "g" um) by (auto; reflexivity).
    rewrite (convert_spec _ _ _ _ _ _ _ (1/1000) km Hs) by (cbn; (f_equal; lra) || assumption). cbn [bind].
    rewrite (convert_resolved (e_setup E) QMolar (e_cfg E) _ (Some "mol") None _ "mol" un) by (auto; reflexivity).
    rewrite (convert_spec _ _ _ _ _ _ _ (1/1000) kn Hs) by (cbn; (f_equal; lra) || assumption).
    eexists. split; [reflexivity|]. cbn [effective_exponent Z.eqb]. rewrite zpow_1, zpow_m1. unfold mw. field. lra.
  Qed.

  (* ---- hsd ---- *)
  Lemma hsd_elem dT T p x : flt p (num 0) = false ->
    prop_hsd D dT T p x = do h <- if_h D dT false T p x; do s <- if_s D dT false T p x; do d <- prop_d D dT false T p x; Ok (h, s, d).
  Proof.
    intro Hp. unfold prop_hsd, if_h, if_s, prop, prop_d. destruct (flt x (num 0)); [reflexivity|].
    rewrite Hp. unfold sat_state. destruct dT.
    - destruct (phases D (h_g D) 1 _ _); cbn [bind]; [|reflexivity]. destruct (phases D (s_g D) 1 _ _); cbn [bind]; [|reflexivity].
      destruct (phases D (v_g D) 1 _ _); reflexivity.
    - destruct (phases D (h_g D) 1 _ _); cbn [bind]; [|reflexivity]. destruct (phases D (s_g D) 1 _ _); cbn [bind]; [|reflexivity].
      destruct (phases D (v_g D) 1 _ _); reflexivity.
  Qed.
  Lemma trav3 {A X Y Z} (f : A -> res X) (g : A -> res Y) (k : A -> res Z) l h s d :
    (exists v, traverse (fun a => do h <- f a; do s <- g a; do d <- k a; Ok (h, s, d)) l = Ok v /\
       map (fun r => fst (fst r)) v = h /\ map (fun r => snd (fst r)) v = s /\ map snd v = d) <->
    (traverse f l = Ok h /\ traverse g l = Ok s /\ traverse k l = Ok d).
  Proof.
    split.
    - intros (v & H & <- & <- & <-). revert v H. induction l as [|a l IH]; cbn [traverse]; intros v H; [apply okj in H; subst; auto|].
      destruct (f a); cbn [bind] in *; [|discriminate]. destruct (g a); cbn [bind] in *; [|discriminate]. destruct (k a); cbn [bind] in *; [|discriminate].
      destruct (traverse _ l) as [w|]; cbn [bind] in *; [|discriminate]. apply okj in H. subst v.
      destruct (IH w eq_refl) as (-> & -> & ->). auto.
    - revert h s d. induction l as [|a l IH]; cbn [traverse]; intros h s d (H1 & H2 & H3).
      + apply okj in H1, H2, H3. subst. exists []. auto.
      + destruct (f a) as [x|]; cbn [bind] in *; [|discriminate]. destruct (g a) as [y|]; cbn [bind] in *; [|discriminate]. destruct (k a) as [z|]; cbn [bind] in *; [|discriminate].
        destruct (traverse f l) as [h'|]; cbn [bind] in *; [|discriminate]. destruct (traverse g l) as [s'|]; cbn [bind] in *; [|discriminate].
        destruct (traverse k l) as [d'|]; cbn [bind] in *; [|discriminate]. apply okj in H1, H2, H3. subst.
        destruct (IH h' s' d') as (v & -> & <- & <- & <-); [auto|]. cbn [bind]. eexists. split; [reflexivity|]. auto.
  Qed.
  Lemma trav_ext_in {A B} (f g : A -> res B) l : (forall a, In a l -> f a = g a) -> traverse f l = traverse g l.
  Proof. intro H. induction l as [|a l IH]; [reflexivity|]. cbn [traverse]. rewrite H by now left. rewrite IH; [reflexivity|]. intros; apply H; now right. Qed.
  Lemma map_fmul_inj k a b : k <> 0 -> map (fmul (num k)) a = map (fmul (num k)) b -> a = b.
  Proof.
    intro Hk. revert b. induction a as [|x a IH]; intros [|y b] H; cbn [map] in H; try discriminate; [reflexivity|]. injection H as H1 H2. f_equal; [|auto].
    destruct x, y; cbn in H1; try discriminate; [|reflexivity]. injection H1 as H1. f_equal. now apply Rmult_eq_reg_l in H1.
  Qed.
  Lemma scales_pos : kJ_per_kg mw / (kE / kM) <> 0 /\ kJ_per_kg mw / (kE / kM) * (9 / 5 / kT) <> 0 /\ kg_per_m3 mw / (kM / kV) <> 0.
  Proof.
    pose proof (kT_pos _ _ _ _ _ _ _ _ U). pose proof (kV_pos _ _ _ _ _ _ _ _ U).
    assert (A : 0 < kJ_per_kg mw / (kE / kM)). { unfold kJ_per_kg. repeat apply Rdiv_lt_0_compat; lra. }
    split; [lra|]. split; [apply Rgt_not_eq, Rmult_lt_0_compat; [exact A|apply Rdiv_lt_0_compat; lra]|].
    unfold kg_per_m3. apply Rgt_not_eq. repeat apply Rdiv_lt_0_compat; lra.
  Qed.
  Lemma hsd_agrees T a x h s d : (forall q, In q a -> 0 <= q) ->
    (u_hsd D E T (Some (map Some a)) x = Ok (h, s, d) <->
     u_h D E T (Some (map Some a)) x = Ok h /\ u_s D E T (Some (map Some a)) x = Ok s /\ u_d D E T (Some (map Some a)) x = Ok d).
  Proof.
    intro Ha. unfold u_hsd, u_h, u_s, u_d, method. rewrite !(elements_is _ _ _ _ _ _ _ _ U).
    rewrite (scale_h_is _ _ _ _ _ _ _ _ U), (scale_s_is _ _ _ _ _ _ _ _ U), (scale_d_is _ _ _ _ _ _ _ _ U).
    destruct scales_pos as (N1 & N2 & N3). fold mw. set (c1 := kJ_per_kg mw / (kE / kM)) in *. set (c2 := c1 * (9 / 5 / kT)) in *. set (c3 := kg_per_m3 mw / (kM / kV)) in *.
    cbn [or_default absent]. destruct (broadcast3 _ _ _) as [l|] eqn:B; cbn [bind]; [|split; [discriminate|intros (H & _); discriminate]].
    assert (P : forall e, In e l -> elem_call uT kP (fun defT _ => prop_hsd D defT) (absent T) false e =
      do h <- elem_call uT kP (if_h D) (absent T) false e; do s <- elem_call uT kP (if_s D) (absent T) false e;
      do d <- elem_call uT kP (prop_d D) (absent T) false e; Ok (h, s, d)).
    { intros [[t q] z] He. unfold elem_call. cbn [fst snd]. apply hsd_elem.
      destruct (In_nth_error _ _ He) as (i & Hi). destruct (bc3 _ _ _ _ _ _ _ _ B Hi) as (_ & E2 & _).
      assert (exists r, q = Some r /\ 0 <= r) as (r & -> & Hr).
      { assert (In q (map Some a)). { unfold elem in E2. destruct (map Some a) as [|u [|w b]]; [destruct i; discriminate|injection E2 as <-; now left|eapply nth_error_In; exact E2]. }
        apply in_map_iff in H. destruct H as (r & <- & Hr). eauto. }
      cbn. unfold kpc. assert (0 <= r * (kP / 100000)) by (apply Rmult_le_pos; [exact Hr|apply Rlt_le, Rdiv_lt_0_compat; lra]).
      destruct (Rlt_dec (r * (kP / 100000)) 0); [lra|reflexivity]. }
    destruct l as [|e l]; [cbn [bind]; split; [discriminate|intros (H & _); discriminate]|]. remember (e :: l) as m.
    rewrite (trav_ext_in _ _ m P).
    split.
    - destruct (traverse _ m) as [v|] eqn:Tr; cbn [bind]; [|discriminate]. intro H. apply okj in H. injection H as <- <- <-.
      destruct (proj1 (trav3 _ _ _ m _ _ _) (ex_intro _ v (conj Tr (conj eq_refl (conj eq_refl eq_refl))))) as (T1 & T2 & T3).
      rewrite T1, T2, T3. cbn [bind]. rewrite !map_map. auto.
    - intros (H1 & H2 & H3).
      destruct (traverse (elem_call uT kP (if_h D) _ _) m) as [vh|] eqn:T1; cbn [bind] in H1; [|discriminate].
      destruct (traverse (elem_call uT kP (if_s D) _ _) m) as [vs|] eqn:T2; cbn [bind] in H2; [|discriminate].
      destruct (traverse (elem_call uT kP (prop_d D) _ _) m) as [vd|] eqn:T3; cbn [bind] in H3; [|discriminate].
      apply okj in H1, H2, H3. subst h s d.
      destruct (proj2 (trav3 _ _ _ m vh vs vd) (conj T1 (conj T2 T3))) as (v & -> & <- & <- & <-). cbn [bind]. rewrite !map_map. reflexivity.
  Qed.

  (* ---- T_h ---- *)
  Lemma T_h_with_ext {A B} (f : fl -> fl -> res A) (g : fl -> fl -> res B) h p :
    (fle p (num 1000) = true -> flt p (num (165292/1000)) = false ->
     match f (b23_p D p) p, g (b23_p D p) p with Ok _, Ok _ => True | Err a, Err b => a = b | _, _ => False end) ->
    T_h_with D f h p = T_h_with D g h p.
  Proof.
    intro H. unfold T_h_with. cbv zeta. destruct (flt p (num (165292/1000))); [reflexivity|]. destruct (fle p (num 1000)); [|reflexivity].
    specialize (H eq_refl eq_refl). destruct (enthalpy D g1 _ _); cbn [bind]; [|reflexivity]. destruct (flt h _); [reflexivity|].
    destruct (f _ _), (g _ _); cbn [bind]; try contradiction; [reflexivity|now subst].
  Qed.
  Lemma T_h_scale : convert (units_of (e_setup E) QEnergy) (e_cfg E) 1 None (Some "kJ") None = Ok (kE / 1000) /\
    forall v, matter (e_setup E) (e_cfg E) v mw None (Some "kg") None = Ok (v * (kM * mw)).
  Proof.
    split.
    - rewrite (to_si _ _ _ _ _ _ _ _ U QEnergy 1 "kJ" 1000 None I eq_refl). cbn [effective_exponent ksize]. rewrite zpow_1. f_equal. field.
    - intro v. rewrite (matter_to _ _ _ _ _ _ _ _ U _ "kg" (1 / mw) _ (kg_size _ _)). cbn [effective_exponent]. rewrite zpow_1. f_equal. field. lra.
  Qed.
  (* what is computed for one element *)
  Lemma u_T_h_one h q : u_T_h D E [Some h] (Some [Some q]) =
    do r <- T_h_with D (fun T p => u_h D E (Some [T]) (Some [p]) None) (Some (h * (kE / 1000 * (kM * mw)))) (Some q);
    Ok [(lift1 (from_kelvin uT) (fst r), snd r)].
  Proof.
    unfold u_T_h. rewrite (to_bar _ _ _ _ _ _ _ _ U). cbn [bind]. destruct T_h_scale as [-> Hm]. cbn [bind]. fold mw. rewrite Hm. cbn [bind or_default].
    unfold broadcast2, broadcast. cbn [bind List.length Nat.eqb combine traverse fst snd]. cbn [fmul lift2 num].
    destruct (T_h_with _ _ _ _) as [[T x]|]; cbn [bind fst snd]; [|reflexivity].
    rewrite (escale_from _ _ _ _ _ _ _ _ U). reflexivity.
  Qed.
  Lemma u_h_inner T q : kP = 100000 -> uT = "K" ->
    match u_h D E (Some [T]) (Some [Some q]) None, prop D (h_g D) (h_f D) 1 false false T (Some q) (num (-1)) with
    | Ok _, Ok _ => True | Err a, Err b => a = b | _, _ => False end.
  Proof.
    intros HP HT. unfold u_h, method. rewrite (elements_is _ _ _ _ _ _ _ _ U). cbn [or_default absent].
    unfold broadcast3, broadcast. cbn [bind List.length Nat.eqb combine traverse]. unfold elem_call. cbn [fst snd].
    replace (kel T) with T by (destruct T; cbn; [rewrite HT|]; reflexivity).
    replace ((Some q * num (kpc kP))%fl) with (Some q) by (cbn; f_equal; unfold kpc; rewrite HP; field).
    unfold if_h. destruct (prop _ _ _ _ _ _ _ _) as [v|]; cbn [bind]; [|reflexivity].
    rewrite (scale_h_is _ _ _ _ _ _ _ _ U). cbn [bind]. exact I.
  Qed.
  Lemma T_h_good h q : kP = 100000 -> kM * mw = 1 -> uT = "K" \/ q < 165.292 ->
    match T_h D (Some (h * kE / 1000)) (Some q) with
    | Ok (T, x) => exists T', u_T_h D E [Some h] (Some [Some q]) = Ok [(T', x)] /\ reads uT T' T
    | Err e => u_T_h D E [Some h] (Some [Some q]) = Err e
    end.
  Proof.
    intros HP HM Hq. rewrite u_T_h_one, HM.
    replace (h * (kE / 1000 * 1)) with (h * kE / 1000) by field. unfold T_h.
    rewrite (T_h_with_ext (fun T p => u_h D E (Some [T]) (Some [p]) None) (fun T p => prop D (h_g D) (h_f D) 1 false false T p (num (-1)))).
    2:{ intros _ F. destruct Hq as [HT|Hq]; [now apply u_h_inner|]. exfalso. cbn in F. destruct (Rlt_dec q (165292/1000)); [discriminate|lra]. }
    destruct (T_h_with _ _ _ _) as [[T x]|]; cbn [bind fst snd]; [|reflexivity]. eexists. split; [reflexivity|].
    destruct T; cbn; [apply to_from_kelvin|exact I].
  Qed.
  (* the pressure is not converted *)
  Lemma T_h_unconverted h q : 1000 < q -> u_T_h D E [Some h] (Some [Some q]) = Err PMParamError.
  Proof.
    intro Hq. rewrite u_T_h_one. unfold T_h_with. cbv zeta. cbn [flt fle num]. destruct (Rlt_dec q (165292/1000)); [lra|].
    destruct (Rle_dec q 1000); [lra|]. reflexivity.
  Qed.
  (* element by element *)
  Lemma T_h_elem h p v : u_T_h D E h p = Ok v -> v <> [] /\ fits_to (List.length v) (Some h) /\ fits_to (List.length v) p /\
    forall i r, nth_error v i = Some r -> exists z, elem h i = Some z /\ u_T_h D E [z] (element p i) = Ok [r].
  Proof.
    unfold u_T_h. rewrite (to_bar _ _ _ _ _ _ _ _ U). cbn [bind]. destruct T_h_scale as [-> Hm]. cbn [bind]. fold mw. rewrite Hm. cbn [bind].
    destruct (broadcast2 _ _) as [l|] eqn:B; cbn [bind]; [|discriminate]. destruct l as [|e l]; [discriminate|]. remember (e :: l) as m. intro Tr.
    destruct (trav_nth _ _ _ Tr) as [L K]. destruct (broadcast2_ext _ _ _ B) as (_ & _ & F1 & F2). rewrite L.
    split; [destruct v; [subst m; discriminate L|discriminate]|]. split; [exact F1|]. split; [eapply fits_or; eassumption|].
    intros i r Hr. destruct (K i r Hr) as ([z q] & Na & Fa). destruct (bc2 _ _ _ _ _ _ B Na) as (E1 & E2). exists z. split; [exact E1|].
    destruct (elem_or _ _ _ _ E2) as [-> _]. unfold broadcast2, broadcast. cbn [bind List.length Nat.eqb combine traverse]. cbn [fst snd] in *.
    rewrite Fa. reflexivity.
  Qed.

  (* ---- the default state ---- *)
  Lemma default_raw f : In f (property_methods D E) -> f None None None = f (just (Some (e_defT E))) (just (Some (e_defp E))) None.
  Proof.
    assert (K : forall g scale, (forall a b T p, g a b T p (Some (-1)) = g false false T p (Some (-1))) ->
      method E g scale None None None = method E g scale (just (Some (e_defT E))) (just (Some (e_defp E))) None).
    { intros g scale H. unfold method. rewrite !(elements_is _ _ _ _ _ _ _ _ U). cbn [just option_map or_default absent].
      unfold broadcast3, broadcast. cbn [bind List.length Nat.eqb combine traverse]. unfold elem_call. cbn [fst snd num]. now rewrite H. }
    assert (P : forall fg ff o a b T p, prop D fg ff o a b T p (Some (-1)) = prop D fg ff o false false T p (Some (-1))).
    { intros. unfold prop. cbn [flt num]. destruct (Rlt_dec (-1) 0); [reflexivity|lra]. }
    intro H. cbn in H. repeat destruct H as [<-|H]; try contradiction; apply K; try (intros; apply P).
    intros. unfold prop_d. cbn [flt num]. destruct (Rlt_dec (-1) 0); [reflexivity|lra].
  Qed.
End S.

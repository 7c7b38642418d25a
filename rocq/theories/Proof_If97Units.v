(* The steam methods in the configured units. *)
From Coq Require Import Reals ZArith List Bool String Lia Lra Arith.
From Verif Require Import Base Model_Num Model_Units Model_If97 Model_If97Units Spec_Units Spec_Igas Spec_If97 Spec_If97Units
  Proof_Units Proof_IgasUnits Proof_Mp1Acc Proof_Mp1Elem Proof_Mp1HeapVal.
Import ListNotations.
Local Open Scope R_scope.
Local Open Scope string_scope.

Lemma okj {A} (a b : A) : Ok a = Ok b -> a = b. Proof. congruence. Qed.

Lemma trav_nth {A B} (f : A -> res B) l v : traverse f l = Ok v ->
  List.length v = List.length l /\ forall i b, nth_error v i = Some b -> exists a, nth_error l i = Some a /\ f a = Ok b.
Proof.
  revert v. induction l as [|a l IH]; cbn [traverse]; intros v H.
  - apply okj in H. subst. split; [reflexivity|]. intros [|i] b Hb; discriminate.
  - destruct (f a) as [b|] eqn:Ea; cbn [bind] in H; [|discriminate]. destruct (traverse f l) as [w|]; cbn [bind] in H; [|discriminate].
    apply okj in H. subst v. destruct (IH w eq_refl) as [L K]. split; [cbn; congruence|].
    intros [|i] c Hc; cbn in *; [injection Hc as <-; eauto|auto].
Qed.

Section S.
  Variables (D : ifdata) (E : env) (uT : string) (kT kP kV kE kM : R).
  Hypothesis U : units_known E (if_mw D) uT kT kP kV kE kM.
  Let mw := if_mw D.
  Let Pmw : 0 < mw := uk_mw _ _ _ _ _ _ _ _ U.
  Let PT : 0 < kT := kT_pos _ _ _ _ _ _ _ _ U.
  Let PP : 0 < kP := kP_pos _ _ _ _ _ _ _ _ U.
  Let PV : 0 < kV := kV_pos _ _ _ _ _ _ _ _ U.
  Let PE : 0 < kE := kE_pos _ _ _ _ _ _ _ _ U.
  Let PM : 0 < kM := kM_pos _ _ _ _ _ _ _ _ U.

  Lemma kg_size : kmoles (e_setup E) mw "kg" = Some (1 / mw).
  Proof. cbn; f_equal; lra. Qed.
  Lemma K_size : si (e_setup E) QTemperature "K" = Some (9/5).
  Proof. cbn; f_equal; lra. Qed.
  Lemma bar_size : si (e_setup E) QPressure "bar" = Some 100000.
  Proof. cbn; f_equal; lra. Qed.

  Lemma to_bar : convert (units_of (e_setup E) QPressure) (e_cfg E) 1 None (Some "bar") None = Ok (kP / 100000).
  Proof.
    rewrite (to_si _ _ _ _ _ _ _ _ U QPressure 1 "bar" 100000 None I bar_size). cbn [effective_exponent ksize]. rewrite zpow_1. f_equal. field.
  Qed.
  Lemma from_bar v : convert (units_of (e_setup E) QPressure) (e_cfg E) v (Some "bar") None None = Ok (v * (100000 / kP)).
  Proof.
    rewrite (of_si _ _ _ _ _ _ _ _ U QPressure v "bar" 100000 None I bar_size). cbn [effective_exponent ksize]. rewrite zpow_1. reflexivity.
  Qed.
  Lemma scale_h_is : scale_h D E = Ok (kJ_per_kg mw / (kE / kM)).
  Proof.
    unfold scale_h. rewrite (of_si _ _ _ _ _ _ _ _ U QEnergy 1 "kJ" 1000 None I eq_refl). cbn [bind].
    rewrite (matter_from _ _ _ _ _ _ _ _ U _ "kg" (1 / mw) _ kg_size). cbn [effective_exponent ksize Z.eqb]. rewrite zpow_1, zpow_m1.
    unfold kJ_per_kg. f_equal. field. repeat split; lra.
  Qed.
  Lemma scale_s_is : scale_s D E = Ok (kJ_per_kg mw / (kE / kM) * ((9/5) / kT)).
  Proof.
    unfold scale_s. rewrite scale_h_is. cbn [bind].
    rewrite (of_si _ _ _ _ _ _ _ _ U QTemperature _ "K" (9/5) None I K_size). cbn [effective_exponent ksize]. rewrite zpow_1. reflexivity.
  Qed.
  Lemma scale_c_is : scale_c D E = Ok (kJ_per_kg_K mw / (kE / kM / kT)).
  Proof.
    unfold scale_c. rewrite scale_h_is. cbn [bind].
    rewrite (of_si _ _ _ _ _ _ _ _ U QTemperature _ "K" (9/5) (Some (-1)%Z) I K_size). cbn [effective_exponent ksize Z.eqb]. rewrite zpow_m1.
    unfold kJ_per_kg, kJ_per_kg_K. f_equal. field. repeat split; lra.
  Qed.
  Lemma scale_d_is : scale_d D E = Ok (kg_per_m3 mw / (kM / kV)).
  Proof.
    unfold scale_d. rewrite (of_si _ _ _ _ _ _ _ _ U QVolume 1 "m3" 1 (Some (-1)%Z) I) by (cbn; f_equal; lra). cbn [bind].
    rewrite (matter_from _ _ _ _ _ _ _ _ U _ "kg" (1 / mw) _ kg_size). cbn [effective_exponent ksize Z.eqb]. rewrite zpow_1, zpow_m1.
    unfold kg_per_m3. f_equal. field. repeat split; lra.
  Qed.

  Lemma escale_to x : escale E x None (Some "K") = Ok (lift1 (to_kelvin uT) x).
  Proof. unfold escale. rewrite (atscale_to _ _ _ _ _ _ _ _ U). reflexivity. Qed.
  Lemma escale_from x : escale E x (Some "K") None = Ok (lift1 (from_kelvin uT) x).
  Proof. unfold escale. rewrite (atscale_from _ _ _ _ _ _ _ _ U). reflexivity. Qed.

  (* one element *)
  Definition kpc : R := kP / 100000.
  Definition elem_call {A} (f : bool -> bool -> fl -> fl -> fl -> res A) (a b : bool) (e : fl * fl * fl) : res A :=
    f a b (lift1 (to_kelvin uT) (fst (fst e))) (snd (fst e) * num kpc)%fl (snd e).
  Lemma elements_is {A} (f : bool -> bool -> fl -> fl -> fl -> res A) T p x :
    elements E f T p x =
    do l <- broadcast3 (or_default T (e_defT E)) (or_default p (e_defp E)) (or_default x (-1));
    match l with [] => Err EValueError | _ => traverse (elem_call f (absent T) (absent p)) l end.
  Proof.
    unfold elements. rewrite to_bar. cbn [bind]. destruct (broadcast3 _ _ _) as [l|]; [|reflexivity]. cbn [bind].
    destruct l as [|e l]; [reflexivity|]. generalize (e :: l). clear e l. intro l.
    induction l as [|[[t q] z] l IH]; [reflexivity|]. cbn [traverse]. rewrite IH. unfold elem_call at 1. cbn [fst snd].
    rewrite escale_to. reflexivity.
  Qed.
  Lemma one_list o d : or_default (just o) d = [Some (match o with Some r => r | None => d end)].
  Proof. destruct o; reflexivity. Qed.
  Lemma absent_one o : absent (just o) = absent o. Proof. destruct o; reflexivity. Qed.

  Definition state_known (T p : option R) (kd : R) : Prop :=
    (T = None -> e_defTu E = uT) /\ (p = None -> kd = kP).
  Lemma elements_one {A} (f : bool -> bool -> fl -> fl -> fl -> res A) T p x kd :
    (T = None -> e_defTu E = uT) -> (p = None -> kd = kP) ->
    elements E f (just T) (just p) (just x) =
    do v <- f (absent T) (absent p) (Some (in_kelvin E uT T)) (Some (in_bar E kP kd p)) (Some (quality x)); Ok [v].
  Proof.
    intros HT Hp. rewrite elements_is, !one_list, !absent_one. cbn [bind broadcast3 broadcast List.length Nat.eqb combine traverse].
    unfold broadcast3, broadcast. cbn [bind List.length Nat.eqb combine traverse].
    unfold elem_call. cbn [fst snd lift1 fmul lift2 num].
    replace (to_kelvin uT match T with Some r => r | None => e_defT E end) with (in_kelvin E uT T)
      by (destruct T; cbn; [reflexivity|now rewrite HT]).
    replace (match p with Some r => r | None => e_defp E end * kpc) with (in_bar E kP kd p)
      by (unfold kpc; destruct p; cbn; [|rewrite Hp by reflexivity]; field).
    replace (match x with Some r => r | None => -1 end) with (quality x) by reflexivity.
    destruct (f _ _ _ _ _); reflexivity.
  Qed.
  Lemma method_one f scale T p x kd own user : (T = None -> e_defTu E = uT) -> (p = None -> kd = kP) -> user <> 0 -> scale = Ok (own / user) ->
    reports (method E f scale (just T) (just p) (just x))
      (f (absent T) (absent p) (Some (in_kelvin E uT T)) (Some (in_bar E kP kd p)) (Some (quality x))) user own.
  Proof.
    intros HT Hp Hu Hs. unfold method, reports. rewrite (elements_one f T p x kd HT Hp).
    destruct (f _ _ _ _ _) as [v|e]; cbn [bind]; [|reflexivity]. rewrite Hs. cbn [bind map].
    eexists. split; [reflexivity|]. destruct v as [v|]; cbn; [field; exact Hu|exact I].
  Qed.

  Lemma user_h : kE / kM <> 0. Proof. apply Rgt_not_eq, Rdiv_lt_0_compat; assumption. Qed.
  Lemma user_d : kM / kV <> 0. Proof. apply Rgt_not_eq, Rdiv_lt_0_compat; assumption. Qed.
  Lemma user_c : kE / kM / kT <> 0. Proof. apply Rgt_not_eq, Rdiv_lt_0_compat; [apply Rdiv_lt_0_compat|]; assumption. Qed.

  Lemma five_report T p x kd : (T = None -> e_defTu E = uT) -> (p = None -> kd = kP) ->
    forall f g user own, In (f, g, user, own) (measured D E kT kV kE kM) ->
    reports (f (just T) (just p) (just x))
      (g (absent T) (absent p) (Some (in_kelvin E uT T)) (Some (in_bar E kP kd p)) (Some (quality x))) user own.
  Proof.
    intros HT Hp f g user own HI. cbn in HI.
    repeat destruct HI as [HI|HI]; try contradiction; injection HI as <- <- <- <-; apply method_one; try assumption;
      auto using user_h, user_d, user_c, scale_h_is, scale_c_is, scale_d_is.
  Qed.
  (* the entropy: the factor of the temperature is upside down *)
  Lemma entropy_report T p x kd : (T = None -> e_defTu E = uT) -> (p = None -> kd = kP) -> kT = 9/5 ->
    reports (u_s D E (just T) (just p) (just x))
      (if_s D (absent T) (absent p) (Some (in_kelvin E uT T)) (Some (in_bar E kP kd p)) (Some (quality x))) (kE / kM / kT) (kJ_per_kg_K mw).
  Proof.
    intros HT Hp Hk. apply method_one; try assumption; [apply user_c|]. rewrite scale_s_is, Hk. unfold kJ_per_kg_K, kJ_per_kg. f_equal. field.
    repeat split; lra.
  Qed.
  Lemma entropy_wrong T p x kd v : (T = None -> e_defTu E = uT) -> (p = None -> kd = kP) -> kT <> 9/5 ->
    if_s D (absent T) (absent p) (Some (in_kelvin E uT T)) (Some (in_bar E kP kd p)) (Some (quality x)) = Ok (Some v) -> v <> 0 ->
    exists r, u_s D E (just T) (just p) (just x) = Ok [Some r] /\ ~ same_amount (kE / kM / kT) (kJ_per_kg_K mw) (Some r) (Some v).
  Proof.
    intros HT Hp Hk Hv Hv0. unfold u_s, method. rewrite (elements_one (if_s D) T p x kd HT Hp), Hv. cbn [bind]. rewrite scale_s_is. cbn [bind map fmul lift2 num].
    eexists. split; [reflexivity|]. cbn. intro H.
    assert (Q : v * (kJ_per_kg_K mw) * ((9/5) * (9/5) / (kT * kT)) = v * kJ_per_kg_K mw).
    { etransitivity; [|exact H]. clear H. unfold kJ_per_kg_K, kJ_per_kg. field. repeat split; lra. }
    assert (N : kJ_per_kg_K mw <> 0). { unfold kJ_per_kg_K. apply Rgt_not_eq. apply Rdiv_lt_0_compat; [|lra]. apply Rdiv_lt_0_compat; [lra|]. apply Rdiv_lt_0_compat; lra. }
    assert (Q2 : (9/5) * (9/5) / (kT * kT) = 1).
    { apply (Rmult_eq_reg_l (v * kJ_per_kg_K mw)); [lra|]. now apply Rmult_integral_contrapositive_currified. }
    assert (Q3 : (9/5) * (9/5) = kT * kT). { apply (Rmult_eq_reg_r (/ (kT * kT))); [|apply Rinv_neq_0_compat; nra]. rewrite Rinv_r by nra. exact Q2. }
    apply Hk. nra.
  Qed.

  (* ---- arrays ---- *)
  Lemma elem_or o d i z : elem (or_default o d) i = Some z -> or_default (element o i) d = [z] /\ absent (element o i) = absent o.
  Proof. destruct o as [a|]; cbn [or_default element]; intro H; [rewrite H; auto|]. injection H as <-. auto. Qed.
  Lemma fits_or n o d : fits n (or_default o d) -> fits_to n o.
  Proof. destruct o as [a|]; cbn; [|auto]. unfold fits. auto. Qed.
  Lemma method_elem f scale T p x v : method E f scale T p x = Ok v ->
    v <> [] /\ fits_to (List.length v) T /\ fits_to (List.length v) p /\ fits_to (List.length v) x /\
    forall i r, nth_error v i = Some r -> method E f scale (element T i) (element p i) (element x i) = Ok [r].
  Proof.
    unfold method. rewrite elements_is. destruct (broadcast3 _ _ _) as [l|] eqn:B; cbn [bind]; [|discriminate].
    destruct l as [|e l]; [discriminate|]. remember (e :: l) as m. destruct (traverse _ m) as [w|] eqn:Tr; cbn [bind]; [|discriminate].
    destruct scale as [k|]; cbn [bind]; [|discriminate]. intro H. apply okj in H. subst v.
    destruct (trav_nth _ _ _ Tr) as [L K]. destruct (broadcast3_ext _ _ _ _ B) as (_ & _ & F1 & F2 & F3).
    rewrite map_length, L. repeat split; try (eapply fits_or; eassumption).
    - destruct w; [subst m; discriminate L|discriminate].
    - intros i r Hr. rewrite nth_error_map in Hr. destruct (nth_error w i) as [b|] eqn:Nb; [|discriminate]. injection Hr as <-.
      destruct (K i b Nb) as ([[t q] z] & Na & Fa). destruct (bc3 _ _ _ _ _ _ _ _ B Na) as (E1 & E2 & E3).
      rewrite elements_is. destruct (elem_or _ _ _ _ E1) as [-> ->]. destruct (elem_or _ _ _ _ E2) as [-> ->]. destruct (elem_or _ _ _ _ E3) as [-> _].
      unfold broadcast3, broadcast. cbn [bind List.length Nat.eqb combine traverse]. rewrite Fa. reflexivity.
  Qed.
  Lemma six_elem f T p x v : In f (property_methods D E) -> f T p x = Ok v ->
    v <> [] /\ fits_to (List.length v) T /\ fits_to (List.length v) p /\ fits_to (List.length v) x /\
    forall i r, nth_error v i = Some r -> f (element T i) (element p i) (element x i) = Ok [r].
  Proof. intro H. cbn in H. repeat destruct H as [<-|H]; try contradiction; apply method_elem. Qed.
  Lemma trav_err {A B} (f : A -> res B) l e : traverse f l = Err e -> exists i a, nth_error l i = Some a /\ f a = Err e.
  Proof.
    induction l as [|a l IH]; cbn [traverse]; [discriminate|]. destruct (f a) as [b|e'] eqn:Fa; cbn [bind].
    - destruct (traverse f l) as [w|e2]; cbn [bind]; [discriminate|]. intro H. destruct (IH H) as (i & c & N & Q). exists (S i), c. auto.
    - intro H. injection H as ->. exists 0%nat, a. auto.
  Qed.
  Lemma method_fails f scale T p x k e n : scale = Ok k -> (0 < n)%nat -> fits_to n T -> fits_to n p -> fits_to n x ->
    method E f scale T p x = Err e ->
    exists i, (i < n)%nat /\ method E f scale (element T i) (element p i) (element x i) = Err e.
  Proof.
    intros Hs Hn FT Fp Fx. unfold method. rewrite elements_is.
    assert (FD : forall o d, fits_to n o -> List.length (or_default o d) = n \/ List.length (or_default o d) = 1%nat) by (intros [a|] d; cbn; auto).
    destruct (broadcast3_ok (or_default T (e_defT E)) (or_default p (e_defp E)) (or_default x (-1))) as [l B].
    { exists n. intros v [<-|[<-|[<-|[]]]]; apply FD; assumption. }
    rewrite B. cbn [bind]. destruct (broadcast3_ext _ _ _ _ B) as (X1 & X3 & F1 & F2 & F3). unfold fits in *.
    destruct l as [|e0 l].
    { exfalso. pose proof (FD T (e_defT E) FT). cbn in F1. destruct F1 as [F1|F1]; [lia|].
      pose proof B as B'. unfold broadcast3 in B'.
      assert (L1 := F1). pose proof (FD p (e_defp E) Fp). pose proof (FD x (-1) Fx). cbn in F2, F3.
      destruct F2 as [F2|F2]; [lia|]. destruct F3 as [F3|F3]; [lia|].
      destruct (or_default T (e_defT E)) as [|t [|]]; try discriminate. destruct (or_default p (e_defp E)) as [|q [|]]; try discriminate.
      destruct (or_default x (-1)) as [|z [|]]; try discriminate. }
    remember (e0 :: l) as m. destruct (traverse _ m) as [w|e1] eqn:Tr; cbn [bind]; [rewrite Hs; discriminate|].
    intro H. injection H as ->. destruct (trav_err _ _ _ Tr) as (i & [[t q] z] & Na & Fa).
    destruct (bc3 _ _ _ _ _ _ _ _ B Na) as (E1 & E2 & E3).
    assert (Hi : (i < List.length m)%nat) by (apply nth_error_Some; congruence).
    assert (Hmn : (List.length m <= n)%nat).
    { pose proof (FD T (e_defT E) FT). pose proof (FD p (e_defp E) Fp). pose proof (FD x (-1) Fx).
      destruct (Nat.le_gt_cases (List.length m) n) as [|G]; [assumption|]. exfalso.
      assert (L1 : List.length (or_default T (e_defT E)) = 1%nat) by lia.
      assert (L2 : List.length (or_default p (e_defp E)) = 1%nat) by lia.
      assert (L3 : List.length (or_default x (-1)) = 1%nat) by lia.
      destruct (or_default T (e_defT E)) as [|t' [|]]; try discriminate. destruct (or_default p (e_defp E)) as [|q' [|]]; try discriminate.
      destruct (or_default x (-1)) as [|z' [|]]; try discriminate. cbn in B. apply okj in B. rewrite <- B in G. cbn in G. lia. }
    exists i. split; [lia|].
    rewrite elements_is. destruct (elem_or _ _ _ _ E1) as [-> ->]. destruct (elem_or _ _ _ _ E2) as [-> ->]. destruct (elem_or _ _ _ _ E3) as [-> _].
    unfold broadcast3, broadcast. cbn [bind List.length Nat.eqb combine traverse]. rewrite Fa. reflexivity.
  Qed.
  Lemma six_fails f T p x e n : In f (property_methods D E) -> (0 < n)%nat -> fits_to n T -> fits_to n p -> fits_to n x -> f T p x = Err e ->
    exists i, (i < n)%nat /\ f (element T i) (element p i) (element x i) = Err e.
  Proof.
    intro H. cbn in H. repeat destruct H as [<-|H]; try contradiction; intros Hn F1 F2 F3 Q.
    - exact (method_fails _ _ _ _ _ _ _ _ scale_h_is Hn F1 F2 F3 Q).
    - exact (method_fails _ _ _ _ _ _ _ _ scale_s_is Hn F1 F2 F3 Q).
    - exact (method_fails _ _ _ _ _ _ _ _ scale_h_is Hn F1 F2 F3 Q).
    - exact (method_fails _ _ _ _ _ _ _ _ scale_c_is Hn F1 F2 F3 Q).
    - exact (method_fails _ _ _ _ _ _ _ _ scale_c_is Hn F1 F2 F3 Q).
    - exact (method_fails _ _ _ _ _ _ _ _ scale_d_is Hn F1 F2 F3 Q).
  Qed.
End S.

(* The gas law, the identities between properties, and the given coordinates of dynamic
   mixtures. *)
From Coq Require Import Reals ZArith List String Bool Lia Lra Arith.
From Verif Require Import Proof_IgasRel Base Model_Num Model_Units Model_Igas Model_Igmix Model_Igtools Model_Igtprop
  Spec_Units Spec_Igas Spec_Igmix Spec_Igtools Spec_Igtprop Spec_IgtGas
  Proof_Solve Proof_Units Proof_Igas Proof_IgasUnits Proof_IgasState Proof_IgasCalls Proof_IgmixProp
  Proof_Igtshape Proof_Igtools Proof_IgtAdd Proof_IgtMore Proof_IgtItems Proof_IgtNew Proof_IgtProp Proof_IgtGas Proof_IgtArgs.
Import ListNotations.
Local Open Scope R_scope.
Local Open Scope string_scope.
Local Open Scope list_scope.

Tactic Notation "bi" ident(H) ident(x) ident(Hx) := apply bind_ok in H; destruct H as (x & Hx & H).

Lemma laid_project b v u i : v <> [] -> laid b v -> stretches v u -> index_in u i -> at_index b (project v i) = at_index b i.
Proof.
  intros Hv L S Hi. unfold at_index. destruct L as [L|[L|L]].
  - now rewrite L.
  - rewrite L. destruct v as [|x v]; [congruence|]. inversion S; subst. inversion Hi; subst. reflexivity.
  - destruct (nsh b) as [|x s] eqn:Eb; [reflexivity|]. rewrite (project_project (x :: s) v i L); [reflexivity|].
    rewrite (index_in_len _ _ Hi). symmetry. now apply stretches_len.
Qed.

(* ---- sums ---- *)
Lemma numbered' m n (r : string -> R) (f : nat * string -> fl) i : mixture_ok m -> index_in (shape m) i ->
  (forall k s, index_of s (x_c m) = Some k -> In s (x_c m) -> f (k, s) = Some (n s i * r s)) ->
  fsum f (combine (seq 0 (List.length (x_c m))) (x_c m)) = Some (rsum (fun s => n s i * r s) (x_c m)).
Proof.
  intros Hm Hi Hf. rewrite (fsum_real f (fun q => n (snd q) i * r (snd q))).
  - f_equal. apply (rsum_combine (x_c m) 0 (fun s => n s i * r s)).
  - intros [k s] Hin. destruct (combine_in _ _ _ _ Hin) as (j & -> & J1 & <-). cbn [snd plus]. apply Hf.
    + apply index_of_nth; [apply Hm|exact J1].
    + now apply nth_In.
Qed.
Lemma sum_weigh m n (f : string -> R) i : mixture_ok m -> amounts_known m n -> index_in (shape m) i ->
  nel (sum_rows (weigh (map f (x_c m)) (x_q m))) i = Some (rsum (fun s => n s i * f s) (x_c m)).
Proof.
  intros Hm K Hi. set (m' := {| x_c := x_c m; x_q := weigh (map f (x_c m)) (x_q m) |}).
  assert (Hm' : mixture_ok m') by exact Hm.
  change (nel (sum_rows (x_q m')) i = Some (rsum (fun s => n s i * f s) (x_c m))). rewrite (sum_rows_total m' i Hm'). unfold total.
  apply fsum_real. intros s Hs. rewrite amount_index. cbn [m' x_c x_q weigh nel hd].
  cbn [x_c] in Hs. destruct (index_of s (x_c m)) as [k|] eqn:Ek; [|apply index_of_none in Ek; contradiction].
  rewrite (amount_row m n s k i K Ek Hi). destruct (index_of_some _ _ _ Ek) as [Hk1 Hk2].
  rewrite (nth_indep _ 0 (f "")) by (rewrite map_length; exact Hk1). rewrite map_nth, Hk2. reflexivity.
Qed.
Lemma mix_mw_value P m n i : mixture_ok m -> amounts_known m n -> index_in (shape m) i -> 0 < total_amount m n i ->
  nel (mix_mw P m) i = Some (mean_weight P m n i).
Proof.
  intros Hm K Hi Hpos. cbn [mix_mw nel].
  rewrite (sum_weigh m n (fun s => g_mw (gas_of P s)) i Hm K Hi), (sum_rows_total m i Hm), (total_known m n i Hm K Hi). cbn [fdiv].
  fold (total_amount m n i). destruct (Req_EM_T (total_amount m n i) 0); [lra|]. unfold mean_weight. do 2 f_equal. apply rsum_ext.
  intros s _. unfold gas_of, mw_of. destruct (dget s P); reflexivity.
Qed.

(* ---- unit conversions ---- *)
Section Conv.
  Context (P : pool) (E : env) (m : mix) (n : string -> list nat -> R) (Hm : mixture_ok m) (K : amounts_known m n).
  Context (uT : string) (kT kP kV kE kM w : R) (U : units_known E w uT kT kP kV kE kM).

  Lemma out_T a v : ntscale E a (Some "K") None = Ok v -> nsh v = nsh a /\ forall i, nel v i = lift1 (from_kelvin uT) (nel a i).
  Proof.
    unfold ntscale. intro H. bi H x Hx. injection H as <-. split; [reflexivity|]. intro i. cbn [np_map nel].
    destruct (nel a i); [|reflexivity]. rewrite (tscale_from E w uT kT kP kV kE kM U). reflexivity.
  Qed.
  Lemma in_T a v : ntscale E a None (Some "K") = Ok v -> nsh v = nsh a /\ forall i, nel v i = lift1 (to_kelvin uT) (nel a i).
  Proof.
    unfold ntscale. intro H. bi H x Hx. injection H as <-. split; [reflexivity|]. intro i. cbn [np_map nel].
    destruct (nel a i); [|reflexivity]. rewrite (tscale_to E w uT kT kP kV kE kM U). reflexivity.
  Qed.
  Lemma conv_in q a v u k e : used q -> si (e_setup E) q u = Some k -> nconvert E q a None (Some u) e = Ok v ->
    nsh v = nsh a /\ forall i, nel v i = fmul (Some (zpow (ksize kT kP kV kE q / k) (effective_exponent e))) (nel a i).
  Proof.
    intros Hq Hk H. unfold nconvert in H. rewrite (to_si E w uT kT kP kV kE kM U q 1 u k e Hq Hk) in H. cbn [bind] in H.
    injection H as <-. split; [reflexivity|]. intro i. cbn [np_map nel]. now rewrite Rmult_1_l.
  Qed.
  Lemma conv_out q a v u k e : used q -> si (e_setup E) q u = Some k -> nconvert E q a (Some u) None e = Ok v ->
    nsh v = nsh a /\ forall i, nel v i = fmul (Some (zpow (k / ksize kT kP kV kE q) (effective_exponent e))) (nel a i).
  Proof.
    intros Hq Hk H. unfold nconvert in H. rewrite (of_si E w uT kT kP kV kE kM U q 1 u k e Hq Hk) in H. cbn [bind] in H.
    injection H as <-. split; [reflexivity|]. intro i. cbn [np_map nel]. now rewrite Rmult_1_l.
  Qed.
  Lemma heat_conv a v : n_heat E a = Ok v -> nsh v = nsh a /\ forall i, nel v i = fmul (Some (1000 / kE * (kT / (9/5)))) (nel a i).
  Proof.
    unfold n_heat. intro H. bi H b Hb. apply (conv_out QEnergy a b "kJ" 1000 None I eq_refl) in Hb. destruct Hb as [B1 B2].
    apply (conv_out QTemperature b v "K" (9/5) (Some (-1)%Z) I eq_refl) in H. destruct H as [V1 V2].
    split; [congruence|]. intro i. rewrite V2, B2. cbn [effective_exponent Z.eqb ksize]. rewrite zpow_1, zpow_m1, fmul_fmul.
    pose proof (kE_pos _ _ _ _ _ _ _ _ U). pose proof (kT_pos _ _ _ _ _ _ _ _ U). do 2 f_equal. field. lra.
  Qed.
  Lemma energy_conv a v : nconvert E QEnergy a (Some "kJ") None None = Ok v -> nsh v = nsh a /\ forall i, nel v i = fmul (Some (1000 / kE)) (nel a i).
  Proof.
    intro H. apply (conv_out QEnergy a v "kJ" 1000 None I eq_refl) in H. destruct H as [V1 V2].
    split; [exact V1|]. intro i. rewrite V2. cbn [effective_exponent ksize]. now rewrite zpow_1.
  Qed.

  Lemma molar_units mt : ismass (e_setup E) (e_cfg E) None = Ok mt ->
    (mt = false -> units_known E 1 uT kT kP kV kE kM).
  Proof.
    intros H ->. destruct U. destruct uk_M as (u & M1 & M2). split; auto; [lra|]. exists u. split; [exact M1|].
    unfold ismass in H. unfold cfg_get in H. rewrite M1 in H. cbn [bind] in H.
    destruct (ismass_spec (e_setup E) (e_cfg E) u uk_setup) as (_ & S & _).
    assert (Q : si (e_setup E) QMolar u <> None) by (apply S; exact H).
    unfold kmoles in *. destruct (si (e_setup E) QMolar u); [exact M2|congruence].
  Qed.
  Lemma kmol_not_mass : ismass (e_setup E) (e_cfg E) (Some "kmol") = Ok false.
  Proof. destruct U. apply (ismass_spec (e_setup E) (e_cfg E) "kmol" uk_setup). discriminate. Qed.

  Lemma np_shape_both a v : shape m <> [] -> flat (shape m) a \/ nsh a = [] -> np_shape (nsh a) (shape m) = Some v ->
    stretches (shape m) v /\ laid a v.
  Proof.
    intros Hs F N. destruct F as [F|F].
    - destruct F as [F|F].
      + rewrite F, np_shape_one in N by exact Hs. injection N as <-. split; [apply stretches_refl|right; now left].
      + apply np_shape_spec in N. assert (Hq : nsh a <> []) by (destruct (nsh a), (shape m); try discriminate; congruence).
        apply broadcast_agrees in N; [|now left|left; exact F].
        destruct (flat_broadcast (shape m) a v Hs (or_intror F) N) as (_ & A & B). auto.
    - rewrite F, np_shape_nil in N. injection N as <-. split; [apply stretches_refl|now left].
  Qed.

  (* a conversion of the amounts of matter *)
  Lemma matter_conv a b (f t : option string) e k u i : shape m <> [] -> flat (shape m) a \/ nsh a = [] ->
    ((f = None /\ t = Some "kmol") \/ (f = Some "kmol" /\ t = None)) ->
    (forall w', units_known E w' uT kT kP kV kE kM -> matter (e_setup E) (e_cfg E) 1 w' f t e = Ok k) ->
    nel (mix_mw P m) (project (shape m) i) = Some w ->
    laid b u -> u <> [] -> stretches (shape m) u -> laid a u -> index_in u i ->
    nmatter E a (mix_mw P m) f t e = Ok b -> at_index b i = fmul (Some k) (at_index a i).
  Proof.
    intros Hs F Hft Hk Hw Lb Hu S La Hi H. unfold nmatter in H. bi H mf Hf. bi H mt Ht.
    assert (Mw : w <> 0). { destruct U. lra. }
    destruct (Bool.eqb mf mt) eqn:EB.
    - apply Bool.eqb_prop in EB. subst mt.
      assert (U1 : units_known E 1 uT kT kP kV kE kM).
      { destruct Hft as [[-> ->]|[-> ->]].
        - rewrite kmol_not_mass in Ht. injection Ht as <-. now apply (molar_units false).
        - rewrite kmol_not_mass in Hf. injection Hf as <-. now apply (molar_units false). }
      rewrite (Hk 1 U1) in H. cbn [bind] in H. injection H as <-. unfold at_index. cbn [np_map nsh nel]. now destruct (nsh a).
    - unfold np_op in H. destruct (np_shape (nsh a) (nsh (mix_mw P m))) as [v|] eqn:N; [|discriminate]. apply ok_inj in H. subst b.
      change (nsh (mix_mw P m)) with (shape m) in N. destruct (np_shape_both a v Hs F N) as (S1 & L1).
      pose proof (nonempty_stretch _ _ Hs S1) as Hv.
      assert (Sv : stretches v u).
      { destruct Lb as [Lb|[Lb|Lb]]; cbn [nsh] in Lb; [congruence| |exact Lb]. subst v.
        assert (L : List.length (shape m) = 1%nat) by now rewrite (stretches_len _ _ S1).
        pose proof (stretches_len _ _ S) as Lu. destruct u as [|x [|y u]]; [congruence| |cbn in Lu; lia]. constructor; [now left|constructor]. }
      assert (Hpi : index_in v (project v i)) by (eapply project_in; eassumption).
      assert (Q : forall z : nd, nsh z = v -> at_index z i = nel z (project v i)).
      { intros z Hz. unfold at_index. rewrite Hz. destruct v; [congruence|reflexivity]. }
      rewrite Q by reflexivity. cbn [nel].
      rewrite (laid_at a v _ Hv L1 Hpi), (laid_project a v u i Hv L1 Sv Hi).
      change (nsh (mix_mw P m)) with (shape m).
      rewrite (bidx_project (shape m)) by (rewrite (index_in_len _ _ Hpi); symmetry; now apply stretches_len).
      rewrite (project_project (shape m) v i S1) by (rewrite (index_in_len _ _ Hi); symmetry; now apply stretches_len).
      rewrite Hw. destruct (Req_EM_T w 0); [contradiction|]. rewrite (Hk w U). reflexivity.
  Qed.
End Conv.

(* ---- the gas law ---- *)
Section Law.
  Context (P : pool) (E : env) (m : mix) (n : string -> list nat -> R) (varg : list nd) (kw : list (string * nd)).
  Context (Hm : mixture_ok m) (K : amounts_known m n) (Hlike : like_mixture m varg kw).

  Lemma nshape : shape m <> []. Proof. apply Hm. Qed.

  Lemma need_p_at T p d u kw2 q : stands P E m kw2 T p d u -> need_p T p d = Ok q ->
    nsh q = u /\ forall i, index_in u i -> (exists p0, p = Some p0 /\ nel q i = nel p0 i) \/
      (exists d0, p = None /\ d = Some d0 /\ nel q i = fmul (nel d0 i) (fmul (Some R1000) (nel T i))).
  Proof.
    intros S H. destruct p as [p0|]; cbn [need_p] in H.
    - injection H as <-. split; [now apply (st_p _ _ _ _ _ _ _ _ S)|]. intros i _. left. eauto.
    - destruct d as [d0|]; [|discriminate].
      destruct (op_same fmul d0 (np_map (fmul (Some R1000)) T) u (st_d _ _ _ _ _ _ _ _ S _ eq_refl) (st_T _ _ _ _ _ _ _ _ S)) as (c & C1 & C2 & C3).
      rewrite C1 in H. injection H as <-. split; [exact C2|]. intros i Hi. right. exists d0. rewrite (C3 i Hi). auto.
  Qed.

  (* density in configured units from kmol/m3 *)
  Lemma d_out T p d vd : nargparse P E m varg kw = Ok (T, p, d) -> n_d P E m varg kw = Ok vd ->
    exists u kw2 d1, stands P E m kw2 T p d u /\ nsh d1 = u /\ nsh vd = u /\
      (forall i, index_in u i -> (exists d0, d = Some d0 /\ nel d1 i = nel d0 i) \/
         (exists p0, d = None /\ p = Some p0 /\ nel d1 i = fdiv (nel p0 i) (fmul (Some R1000) (nel T i)))) /\
      forall i uT kT kP kV kE kM, index_in u i -> 0 < total_amount m n (project (shape m) i) ->
        units_known E (mean_weight P m n (project (shape m) i)) uT kT kP kV kE kM ->
        nel vd i = fmul (nel d1 i) (Some (kV / kM)).
  Proof.
    intros A H. destruct (argparse_stands P E m varg kw T p d Hm Hlike A) as (_ & u & kw2 & S & _).
    unfold n_d in H. rewrite A in H. cbn [bind] in H. bi H d1 H1. bi H k1 H2. bi H k2 H3. bi H k3 H4.
    apply ok_inj in H. subst vd.
    assert (D1 : nsh d1 = u /\ forall i, index_in u i -> (exists d0, d = Some d0 /\ nel d1 i = nel d0 i) \/
         (exists p0, d = None /\ p = Some p0 /\ nel d1 i = fdiv (nel p0 i) (fmul (Some R1000) (nel T i)))).
    { destruct d as [d0|].
      - injection H1 as <-. split; [now apply (st_d _ _ _ _ _ _ _ _ S)|]. intros i _. left. eauto.
      - destruct p as [p0|]; [|discriminate].
        destruct (op_same fdiv p0 (np_map (fmul (Some R1000)) T) u (st_p _ _ _ _ _ _ _ _ S _ eq_refl) (st_T _ _ _ _ _ _ _ _ S)) as (c & C1 & C2 & C3).
        rewrite C1 in H1. injection H1 as <-. split; [exact C2|]. intros i Hi. right. exists p0. rewrite (C3 i Hi). auto. }
    destruct D1 as [D1 D2]. exists u, kw2, d1. split; [exact S|]. split; [exact D1|]. split; [exact D1|]. split; [exact D2|].
    intros i uT kT kP kV kE kM Hi Htot U. cbn [nel]. f_equal.
    pose proof (st_u _ _ _ _ _ _ _ _ S) as Hu. pose proof (st_m _ _ _ _ _ _ _ _ S) as Sm.
    assert (Hpi : index_in (shape m) (project (shape m) i)) by (eapply project_in; eassumption).
    destruct (conv_out E uT kT kP kV kE kM _ U QVolume k1 k2 "m3" 1 (Some (-1)%Z) I ltac:(cbn; f_equal; lra) H3) as [C1 C2].
    assert (L1 : laid k1 u).
    { unfold nmatter in H2. bi H2 mf X1. bi H2 mt X2. destruct (Bool.eqb mf mt).
      - bi H2 k X3. injection H2 as <-. now left.
      - destruct (op_nil (fun v w => match w with
         | Some w => if Req_EM_T w 0 then None
                     else match matter (e_setup E) (e_cfg E) 1 w (Some "kmol") None None with
                          | Ok k => fmul (Some k) v
                          | Err _ => None
                          end
         | None => None
         end) (scalar 1) (mix_mw P m) (shape m) eq_refl eq_refl) as (c & Q1 & Q2 & _).
        rewrite Q1 in H2. injection H2 as <-. right; right. rewrite Q2. exact Sm. }
    assert (L2 : laid k2 u) by (eapply laid_eq; eassumption).
    rewrite D1 in H4. destruct (bto_laid k2 u Hu L2) as (v & V1 & V2 & V3). rewrite V1 in H4. injection H4 as <-.
    rewrite V3 by now apply index_in_len.
    assert (Q : at_index k1 i = fmul (Some (1 * zpow (1 / kM) (effective_exponent None))) (at_index (scalar 1) i)).
    { eapply (matter_conv P E m uT kT kP kV kE kM _ U (scalar 1) k1 (Some "kmol") None None _ u i nshape); eauto.
      - intros w' U'. apply (matter_from E w' uT kT kP kV kE kM U' 1 "kmol" 1 None). reflexivity.
      - now apply mix_mw_value.
      - now left. }
    assert (Q2 : at_index k2 i = fmul (Some (zpow (1 / kV) (-1))) (at_index k1 i)).
    { unfold at_index. rewrite C1. destruct (nsh k1); apply C2. }
    rewrite Q2, Q. cbn [at_index scalar nsh nel fmul lift2 effective_exponent]. rewrite zpow_1, zpow_m1.
    pose proof (kV_pos _ _ _ _ _ _ _ _ U). pose proof (kM_pos _ _ _ _ _ _ _ _ U). f_equal. field. lra.
  Qed.

  Lemma gas_law vT vp vd : e_oob E = None ->
    n_T P E m varg kw = Ok vT -> n_p P E m varg kw = Ok vp -> n_d P E m varg kw = Ok vd ->
    nsh vp = nsh vT /\ nsh vd = nsh vT /\ List.length (nsh vT) = List.length (shape m) /\
    forall i t p d, index_in (nsh vT) i -> nel vT i = Some t -> nel vp i = Some p -> nel vd i = Some d ->
      forall uT kT kP kV kE kM, 0 < total_amount m n (project (shape m) i) ->
        units_known E (mean_weight P m n (project (shape m) i)) uT kT kP kV kE kM ->
        p * kP = d * kM / kV * (1000 * gas_constant) * to_kelvin uT t.
  Proof.
    intros Ho HT Hp Hd. unfold n_T in HT. bi HT st A. destruct st as [[T p0] d0].
    unfold n_p in Hp. rewrite A in Hp. cbn [bind] in Hp. bi Hp q Hq.
    destruct (d_out _ _ _ _ A Hd) as (u & kw2 & d1 & S & D1 & D2 & D3 & D4).
    destruct (need_p_at _ _ _ _ _ _ S Hq) as [Q1 Q2].
    pose proof (st_T _ _ _ _ _ _ _ _ S) as ST.
    pose proof (ntscale_shape _ _ _ _ _ HT) as VT. pose proof (nconvert_shape _ _ _ _ _ _ _ Hp) as VP.
    split; [congruence|]. split; [congruence|].
    split. { rewrite VT, ST. symmetry. apply stretches_len. apply (st_m _ _ _ _ _ _ _ _ S). }
    rewrite VT, ST. intros i t p d Hi Et Ep Ed uT kT kP kV kE kM Htot U.
    destruct (out_T E uT kT kP kV kE kM _ U T vT HT) as [_ T2]. rewrite T2 in Et.
    destruct (nel T i) as [x|] eqn:ET; [|discriminate]. cbn [lift1] in Et. injection Et as <-. rewrite to_from_kelvin.
    destruct (conv_out E uT kT kP kV kE kM _ U QPressure q vp "Pa" 1 None I eq_refl Hp) as [_ P2]. rewrite P2 in Ep.
    destruct (nel q i) as [pp|] eqn:EP; [|discriminate]. cbn [effective_exponent ksize fmul lift2] in Ep. rewrite zpow_1 in Ep. injection Ep as <-.
    rewrite (D4 i uT kT kP kV kE kM Hi Htot U) in Ed. destruct (nel d1 i) as [dd|] eqn:ED; [|discriminate].
    cbn [fmul lift2] in Ed. injection Ed as <-.
    pose proof (kV_pos _ _ _ _ _ _ _ _ U). pose proof (kM_pos _ _ _ _ _ _ _ _ U). pose proof (kP_pos _ _ _ _ _ _ _ _ U).
    assert (L : pp = dd * R1000 * x).
    { destruct (Q2 i Hi) as [(p1 & -> & E1)|(d2 & -> & -> & E1)].
      - rewrite EP in E1. destruct (D3 i Hi) as [(d2 & -> & E2)|(p2 & -> & Hp2 & E2)].
        + rewrite ED in E2. destruct (st_law _ _ _ _ _ _ _ _ S Ho _ _ eq_refl eq_refl i Hi) as [L|L]; [congruence|].
          rewrite ET, <- E1, <- E2 in L. cbn [fmul lift2 fdiv] in L. destruct (Req_EM_T (R1000 * dd) 0) as [|Hne]; [discriminate|].
          injection L as ->. field. split; intro Z; apply Hne; rewrite Z; ring.
        + injection Hp2 as <-. rewrite ED, <- E1, ET in E2. cbn [fmul lift2 fdiv] in E2. destruct (Req_EM_T (R1000 * x) 0) as [|Hne]; [discriminate|].
          injection E2 as ->. field. split; intro Z; apply Hne; rewrite Z; ring.
      - rewrite EP, ET in E1. destruct (D3 i Hi) as [(d3 & Hd3 & E2)|(p2 & Hc & _)]; [|discriminate].
        injection Hd3 as <-. rewrite ED in E2. rewrite <- E2 in E1. cbn [fmul lift2] in E1. injection E1 as ->. ring. }
    rewrite L. unfold R1000. change const_Ru with gas_constant. field. lra.
  Qed.
End Law.

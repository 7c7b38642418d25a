(* Identities between the properties of a dynamic mixture, and the given coordinates. *)
From Coq Require Import Reals ZArith List String Bool Lia Lra Arith.
From Verif Require Import Proof_IgasRel Base Model_Num Model_Units Model_Igas Model_Igmix Model_Igtools Model_Igtprop
  Spec_Units Spec_Igas Spec_Igmix Spec_Igtools Spec_Igtprop Spec_IgtGas
  Proof_Solve Proof_Units Proof_Igas Proof_IgasUnits Proof_IgasState Proof_IgasCalls Proof_IgmixProp
  Proof_Igtshape Proof_Igtools Proof_IgtAdd Proof_IgtMore Proof_IgtItems Proof_IgtNew Proof_IgtProp Proof_IgtGas Proof_IgtArgs Proof_IgtLaw.
Import ListNotations.
Local Open Scope R_scope.
Local Open Scope string_scope.
Local Open Scope list_scope.

Tactic Notation "bi" ident(H) ident(x) ident(Hx) := apply bind_ok in H; destruct H as (x & Hx & H).

Lemma rsum_lin2 (l : list string) (k a b : string -> R) x :
  rsum (fun s => k s * (a s - x * b s)) l = rsum (fun s => k s * a s) l - x * rsum (fun s => k s * b s) l.
Proof. induction l as [|s l IH]; cbn [rsum]; [ring|]. rewrite IH. ring. Qed.
Lemma rsum_shift (l : list string) (k a : string -> R) x :
  rsum (fun s => k s * (a s - x)) l = rsum (fun s => k s * a s) l - x * rsum (fun s => k s) l.
Proof. induction l as [|s l IH]; cbn [rsum]; [ring|]. rewrite IH. ring. Qed.

Section Ident.
  Context (P : pool) (E : env) (m : mix) (n : string -> list nat -> R) (varg : list nd) (kw : list (string * nd)).
  Context (Hm : mixture_ok m) (K : amounts_known m n) (Hlike : like_mixture m varg kw).

  Lemma prop_at r (v : string -> R) T u a i x : u <> [] -> stretches (shape m) u -> nsh T = u -> x_c m <> [] ->
    propeval P m r T = Ok a -> index_in u i -> nel T i = Some x ->
    (forall s, In s (x_c m) -> r (gas_of P s) (Some x) = Some (v s)) ->
    nsh a = u /\ nel a i = Some (rsum (fun s => n s (project (shape m) i) * v s) (x_c m)).
  Proof.
    intros Hu S HT Hne H Hi Ex Hv. destruct (propeval_str P m r T u Hu (nshape m Hm) S HT Hne) as (b & B1 & B2 & B3).
    rewrite B1 in H. injection H as <-. split; [exact B2|]. rewrite (B3 i Hi).
    assert (Hpi : index_in (shape m) (project (shape m) i)) by (eapply project_in; eassumption).
    apply numbered'; [exact Hm|exact Hpi|]. intros k s Hk Hs. cbn [fst snd]. rewrite (amount_row m n s k _ K Hk Hpi), Ex, (Hv s Hs). reflexivity.
  Qed.
  Lemma prop_shape r T u a : u <> [] -> stretches (shape m) u -> nsh T = u -> x_c m <> [] ->
    propeval P m r T = Ok a -> nsh a = u.
  Proof.
    intros Hu S HT Hne H. destruct (propeval_str P m r T u Hu (nshape m Hm) S HT Hne) as (b & B1 & B2 & _). congruence.
  Qed.
  Lemma total_at u i : stretches (shape m) u -> index_in u i ->
    at_index (sum_rows (x_q m)) i = Some (total_amount m n (project (shape m) i)).
  Proof.
    intros S Hi. assert (Hpi : index_in (shape m) (project (shape m) i)) by (eapply project_in; eassumption).
    unfold at_index. cbn [sum_rows nsh]. fold (shape m). destruct (shape m) as [|x l] eqn:Es; [destruct (nshape m Hm); exact Es|].
    rewrite <- Es in *. change (nel _ (project (shape m) i)) with (nel (sum_rows (x_q m)) (project (shape m) i)).
    rewrite (sum_rows_total m _ Hm). now apply total_known.
  Qed.

  (* values of the constituents *)
  Lemma known x : usable_at P E m n x -> forall s, In s (x_c m) ->
    pvalues (gas_of P s) x (match g_cp (gas_of P s) (Some x) with Some v => v | None => 0 end)
      (match fst (g_h (gas_of P s) (Some x)) with Some v => v | None => 0 end)
      (match fst (g_s (gas_of P s) (Some x)) with Some v => v | None => 0 end).
  Proof.
    intros (_ & _ & _ & H) s Hs. destruct (H s Hs) as (g & G1 & G2 & G3). unfold gas_of. rewrite G1.
    destruct (species_values E g x G2 G3) as (c & h & s1 & V). rewrite (pv_cp _ _ _ _ _ V), (pv_h _ _ _ _ _ V), (pv_s _ _ _ _ _ V). exact V.
  Qed.

  Lemma heats (v : quantity_of -> nd) :
    (forall q, In q [PT; Ph; Pe; Pcp; Pcv; Pgam] -> dynamic_method q P E m varg kw = Ok (v q)) ->
    (forall q, In q [Ph; Pe; Pcp; Pcv; Pgam] -> nsh (v q) = nsh (v PT)) /\ List.length (nsh (v PT)) = List.length (shape m) /\
    forall i t uT kT kP kV kE kM w, index_in (nsh (v PT)) i -> nel (v PT) i = Some t ->
      units_known E w uT kT kP kV kE kM -> usable_at P E m n (to_kelvin uT t) ->
      0 < total_amount m n (project (shape m) i) ->
      exists h e cp cv, nel (v Ph) i = Some h /\ nel (v Pe) i = Some e /\ nel (v Pcp) i = Some cp /\ nel (v Pcv) i = Some cv /\
        (h - e) * kE = total_amount m n (project (shape m) i) * (1000 * gas_constant) * to_kelvin uT t /\
        (cp - cv) * kE = total_amount m n (project (shape m) i) * (1000 * gas_constant) * (kT / (9/5)) /\
        (cv <> 0 -> nel (v Pgam) i = Some (cp / cv)).
  Proof.
    intros H.
    pose proof (H PT ltac:(cbn; tauto)) as HT. pose proof (H Ph ltac:(cbn; tauto)) as Hh. pose proof (H Pe ltac:(cbn; tauto)) as He.
    pose proof (H Pcp ltac:(cbn; tauto)) as Hcp. pose proof (H Pcv ltac:(cbn; tauto)) as Hcv. pose proof (H Pgam ltac:(cbn; tauto)) as Hg. clear H.
    cbn [dynamic_method] in *. unfold n_T in HT. bi HT st A. destruct st as [[T p] d].
    unfold n_h in Hh. unfold n_e in He. unfold n_cp in Hcp. unfold n_cv in Hcv. unfold n_gam in Hg.
    rewrite A in Hh, He, Hcp, Hcv, Hg. cbn [bind] in *.
    bi Hh a1 H1. bi He a2 H2. bi Hcp a3 H3. bi Hcv a4 H4. bi Hcv b4 H4'. bi Hg a5 H5. bi Hg b5 H5'. apply ok_inj in Hg.
    destruct (argparse_stands P E m varg kw T p d Hm Hlike A) as (Hne & u & kw2 & S & _).
    pose proof (st_u _ _ _ _ _ _ _ _ S) as Hu. pose proof (st_m _ _ _ _ _ _ _ _ S) as Sm. pose proof (st_T _ _ _ _ _ _ _ _ S) as ST.
    pose proof (prop_shape _ _ _ _ Hu Sm ST Hne H1) as N1. pose proof (prop_shape _ _ _ _ Hu Sm ST Hne H2) as N2.
    pose proof (prop_shape _ _ _ _ Hu Sm ST Hne H3) as N3. pose proof (prop_shape _ _ _ _ Hu Sm ST Hne H4) as N4.
    pose proof (prop_shape _ _ _ _ Hu Sm ST Hne H5) as N5.
    assert (Lq : laid (np_map (fmul (Some const_Ru)) (sum_rows (x_q m))) u) by (right; right; exact Sm).
    destruct (op_laid fsub a4 _ u Hu (laid_same _ _ N4) Lq (or_introl N4)) as (c4 & C1 & C2 & C3). rewrite C1 in H4'. injection H4' as <-.
    destruct (op_laid fdiv a5 (sum_rows (x_q m)) u Hu (laid_same _ _ N5) (laid_sum_rows m u Sm) (or_introl N5)) as (c5 & D1 & D2 & D3). rewrite D1 in H5'. injection H5' as <-.
    pose proof (ntscale_shape _ _ _ _ _ HT) as VT. rewrite ST in VT.
    pose proof (nconvert_shape _ _ _ _ _ _ _ Hh) as Vh. pose proof (nconvert_shape _ _ _ _ _ _ _ He) as Ve.
    assert (Heat : forall a b, n_heat E a = Ok b -> nsh b = nsh a).
    { intros a b X. unfold n_heat in X. bi X c Xc. apply nconvert_shape in Xc, X. congruence. }
    pose proof (Heat _ _ Hcp) as Vcp. pose proof (Heat _ _ Hcv) as Vcv. clear Heat.
    assert (Vg : nsh (v Pgam) = u) by (rewrite <- Hg; exact D2).
    split. { intros q Hq. cbn in Hq. repeat destruct Hq as [<-|Hq]; [congruence..|destruct Hq]. }
    split. { rewrite VT. symmetry. now apply stretches_len. }
    intros i t uT kT kP kV kE kM w Hi Et U Hus Htot. rewrite VT in Hi.
    destruct (out_T E uT kT kP kV kE kM _ U T _ HT) as [_ T2]. rewrite T2 in Et.
    destruct (nel T i) as [x|] eqn:ET; [|discriminate]. cbn [lift1] in Et. injection Et as <-. rewrite to_from_kelvin in *.
    pose proof (known x Hus) as KV.
    destruct (prop_at _ (fun s => match fst (g_h (gas_of P s) (Some x)) with Some v => v | None => 0 end) T u a1 i x Hu Sm ST Hne H1 Hi ET) as [_ E1].
    { intros s Hs. now rewrite (pv_h _ _ _ _ _ (KV s Hs)). }
    destruct (prop_at _ (fun s => match fst (g_h (gas_of P s) (Some x)) with Some v => v | None => 0 end - gas_constant * x) T u a2 i x Hu Sm ST Hne H2 Hi ET) as [_ E2].
    { intros s Hs. rewrite (pv_e _ _ _ _ _ (KV s Hs)), (pv_h _ _ _ _ _ (KV s Hs)). reflexivity. }
    destruct (prop_at _ (fun s => match g_cp (gas_of P s) (Some x) with Some v => v | None => 0 end) T u a3 i x Hu Sm ST Hne H3 Hi ET) as [_ E3].
    { intros s Hs. now rewrite (pv_cp _ _ _ _ _ (KV s Hs)). }
    assert (E4 : nel a4 i = nel a3 i) by congruence. assert (E5 : nel a5 i = nel a3 i) by congruence.
    set (tot := total_amount m n (project (shape m) i)) in *.
    set (hs := rsum _ _) in E1. set (cs := rsum _ _) in E3.
    rewrite rsum_shift in E2. fold hs in E2. fold (total_amount m n (project (shape m) i)) in E2. fold tot in E2.
    destruct (energy_conv E uT kT kP kV kE kM _ U _ _ Hh) as [_ X1]. destruct (energy_conv E uT kT kP kV kE kM _ U _ _ He) as [_ X2].
    destruct (heat_conv E uT kT kP kV kE kM _ U _ _ Hcp) as [_ X3]. destruct (heat_conv E uT kT kP kV kE kM _ U _ _ Hcv) as [_ X4].
    assert (Q4 : nel c4 i = Some (cs - gas_constant * tot)).
    { rewrite (C3 i Hi), (at_same a4 u i N4 Hi), E4, E3.
      assert (W : at_index (np_map (fmul (Some const_Ru)) (sum_rows (x_q m))) i = fmul (Some const_Ru) (at_index (sum_rows (x_q m)) i)).
      { unfold at_index. cbn [np_map nsh nel]. now destruct (nsh (sum_rows (x_q m))). }
      rewrite W, (total_at u i Sm Hi). reflexivity. }
    pose proof (kE_pos _ _ _ _ _ _ _ _ U) as KE. pose proof (kT_pos _ _ _ _ _ _ _ _ U) as KT.
    exists (1000 / kE * hs), (1000 / kE * (hs - gas_constant * x * tot)), (1000 / kE * (kT / (9/5)) * cs), (1000 / kE * (kT / (9/5)) * (cs - gas_constant * tot)).
    split. { rewrite X1, E1. reflexivity. } split. { rewrite X2, E2. reflexivity. }
    split. { rewrite X3, E3. reflexivity. } split. { rewrite X4, Q4. reflexivity. }
    split. { field. lra. } split. { field. lra. }
    intro Hcv0. rewrite <- Hg. cbn [np_map nel]. rewrite (D3 i Hi), (at_same a5 u i N5 Hi), E5, E3, (total_at u i Sm Hi). fold tot.
    assert (Z : cs - gas_constant * tot <> 0). { intro Z. apply Hcv0. rewrite Z. ring. }
    cbn [fdiv]. destruct (Req_EM_T tot 0); [lra|]. cbn [fsub lift2 fdiv]. change const_Ru with gas_constant.
    destruct (Req_EM_T (cs / tot - gas_constant) 0) as [Z'|Z'].
    - exfalso. apply Z. replace (cs - gas_constant * tot) with ((cs / tot - gas_constant) * tot) by (field; lra). rewrite Z'. ring.
    - f_equal. field. repeat split; try lra; try assumption.
  Qed.

  Lemma free_energies (v : quantity_of -> nd) :
    (forall q, In q [PT; Ph; Pe; Ps; Pg; Pf] -> dynamic_method q P E m varg kw = Ok (v q)) ->
    (forall q, In q [Ph; Pe; Ps; Pg; Pf] -> nsh (v q) = nsh (v PT)) /\
    forall i t uT kT kP kV kE kM w, index_in (nsh (v PT)) i -> nel (v PT) i = Some t ->
      units_known E w uT kT kP kV kE kM -> usable_at P E m n (to_kelvin uT t) ->
      nel (v Pg) i = fsub (nel (v Ph) i) (fmul (Some (to_kelvin uT t * (9/5) / kT)) (nel (v Ps) i)) /\
      nel (v Pf) i = fsub (nel (v Pe) i) (fmul (Some (to_kelvin uT t * (9/5) / kT)) (nel (v Ps) i)).
  Proof.
    intros H.
    pose proof (H PT ltac:(cbn; tauto)) as HT. pose proof (H Ph ltac:(cbn; tauto)) as Hh. pose proof (H Pe ltac:(cbn; tauto)) as He.
    pose proof (H Ps ltac:(cbn; tauto)) as Hs. pose proof (H Pg ltac:(cbn; tauto)) as Hg. pose proof (H Pf ltac:(cbn; tauto)) as Hf. clear H.
    cbn [dynamic_method] in *. unfold n_T in HT. bi HT st A. destruct st as [[T p] d].
    unfold n_h in Hh. unfold n_e in He. unfold n_s in Hs. unfold n_g, n_gf in Hg. unfold n_f, n_gf in Hf.
    rewrite A in Hh, He, Hs, Hg, Hf. cbn [bind] in *.
    bi Hh a1 H1. bi He a2 H2. bi Hs q3 Q3. bi Hs a3 H3. bi Hs w3 W3. bi Hs c3 C3.
    rewrite Q3 in Hg, Hf. cbn [bind] in *. bi Hg a4 H4. bi Hf a5 H5. rewrite W3 in Hg, Hf. cbn [bind] in *.
    bi Hg b4 B4. bi Hg c4 C4. bi Hf b5 B5. bi Hf c5 C5.
    destruct (argparse_stands P E m varg kw T p d Hm Hlike A) as (Hne & u & kw2 & S & _).
    pose proof (st_u _ _ _ _ _ _ _ _ S) as Hu. pose proof (st_m _ _ _ _ _ _ _ _ S) as Sm. pose proof (st_T _ _ _ _ _ _ _ _ S) as ST.
    destruct (need_p_at P E m T p d u kw2 q3 S Q3) as [Nq _]. apply sp_of_shape in W3. rewrite Nq in W3.
    pose proof (prop_shape _ _ _ _ Hu Sm ST Hne H1) as N1. pose proof (prop_shape _ _ _ _ Hu Sm ST Hne H2) as N2.
    pose proof (prop_shape _ _ _ _ Hu Sm ST Hne H3) as N3. pose proof (prop_shape _ _ _ _ Hu Sm ST Hne H4) as N4.
    pose proof (prop_shape _ _ _ _ Hu Sm ST Hne H5) as N5.
    destruct (op_same fadd a3 w3 u N3 W3) as (x3 & X1 & X2 & X3). rewrite X1 in C3. injection C3 as <-.
    destruct (op_same fmul T w3 u ST W3) as (x4 & Y1 & Y2 & Y3). rewrite Y1 in B4, B5. injection B4 as <-. injection B5 as <-.
    destruct (op_same fsub a4 x4 u N4 Y2) as (y4 & Z1 & Z2 & Z3). rewrite Z1 in C4. injection C4 as <-.
    destruct (op_same fsub a5 x4 u N5 Y2) as (y5 & V1 & V2 & V3). rewrite V1 in C5. injection C5 as <-.
    pose proof (ntscale_shape _ _ _ _ _ HT) as VT. rewrite ST in VT.
    pose proof (nconvert_shape _ _ _ _ _ _ _ Hh) as Vh. pose proof (nconvert_shape _ _ _ _ _ _ _ He) as Ve.
    pose proof (nconvert_shape _ _ _ _ _ _ _ Hg) as Vg. pose proof (nconvert_shape _ _ _ _ _ _ _ Hf) as Vf.
    assert (Vs : nsh (v Ps) = u).
    { pose proof Hs as X. unfold n_heat in X. bi X c Xc. apply nconvert_shape in Xc, X. congruence. }
    split. { intros q Hq. cbn in Hq. repeat destruct Hq as [<-|Hq]; [congruence..|destruct Hq]. }
    intros i t uT kT kP kV kE kM w Hi Et U Hus. rewrite VT in Hi.
    destruct (out_T E uT kT kP kV kE kM _ U T _ HT) as [_ T2]. rewrite T2 in Et.
    destruct (nel T i) as [x|] eqn:ET; [|discriminate]. cbn [lift1] in Et. injection Et as <-. rewrite to_from_kelvin in *.
    pose proof (known x Hus) as KV.
    set (hf := fun s => match fst (g_h (gas_of P s) (Some x)) with Some v => v | None => 0 end).
    set (sf := fun s => match fst (g_s (gas_of P s) (Some x)) with Some v => v | None => 0 end).
    destruct (prop_at _ hf T u a1 i x Hu Sm ST Hne H1 Hi ET) as [_ E1].
    { intros s Hs'. unfold hf. now rewrite (pv_h _ _ _ _ _ (KV s Hs')). }
    destruct (prop_at _ (fun s => hf s - gas_constant * x) T u a2 i x Hu Sm ST Hne H2 Hi ET) as [_ E2].
    { intros s Hs'. unfold hf. rewrite (pv_e _ _ _ _ _ (KV s Hs')), (pv_h _ _ _ _ _ (KV s Hs')). reflexivity. }
    destruct (prop_at _ sf T u a3 i x Hu Sm ST Hne H3 Hi ET) as [_ E3].
    { intros s Hs'. unfold sf. now rewrite (pv_s _ _ _ _ _ (KV s Hs')). }
    destruct (prop_at _ (fun s => hf s - x * sf s) T u a4 i x Hu Sm ST Hne H4 Hi ET) as [_ E4].
    { intros s Hs'. unfold hf, sf. now rewrite (pv_g _ _ _ _ _ (KV s Hs')). }
    destruct (prop_at _ (fun s => (hf s - gas_constant * x) - x * sf s) T u a5 i x Hu Sm ST Hne H5 Hi ET) as [_ E5].
    { intros s Hs'. unfold hf, sf. now rewrite (pv_f _ _ _ _ _ (KV s Hs')). }
    rewrite rsum_lin2 in E4. rewrite (rsum_lin2 _ _ (fun s => hf s - gas_constant * x)) in E5.
    destruct (energy_conv E uT kT kP kV kE kM _ U _ _ Hh) as [_ G1]. destruct (energy_conv E uT kT kP kV kE kM _ U _ _ He) as [_ G2].
    destruct (heat_conv E uT kT kP kV kE kM _ U _ _ Hs) as [_ G3].
    destruct (energy_conv E uT kT kP kV kE kM _ U _ _ Hg) as [_ G4]. destruct (energy_conv E uT kT kP kV kE kM _ U _ _ Hf) as [_ G5].
    pose proof (kE_pos _ _ _ _ _ _ _ _ U) as KE. pose proof (kT_pos _ _ _ _ _ _ _ _ U) as KT.
    rewrite G4, G5, G1, G2, G3, (Z3 i Hi), (V3 i Hi), (X3 i Hi), (Y3 i Hi), ET, E1, E2, E3, E4, E5.
    destruct (nel w3 i) as [w0|]; cbn [fmul fadd fsub lift2]; [|split; reflexivity].
    split; f_equal; field; lra.
  Qed.
End Ident.

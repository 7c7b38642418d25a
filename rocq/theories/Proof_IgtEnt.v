(* Dynamic mixtures: a given entropy comes back. *)
From Coq Require Import Reals ZArith List String Bool Lia Lra Arith.
From Verif Require Import Proof_IgasRel Base Model_Num Model_Units Model_Igas Model_Igmix Model_Igtools Model_Igtprop
  Spec_Units Spec_Igas Spec_Igmix Spec_Igtools Spec_Igtprop Spec_IgtGas
  Proof_Solve Proof_Units Proof_Igas Proof_IgasUnits Proof_IgasState Proof_IgasCalls Proof_IgmixProp
  Proof_Igtshape Proof_Igtools Proof_IgtAdd Proof_IgtMore Proof_IgtItems Proof_IgtNew Proof_IgtProp Proof_IgtGas Proof_IgtArgs Proof_IgtLaw Proof_IgtIdent Proof_IgtGiven.
Import ListNotations.
Local Open Scope R_scope.
Local Open Scope string_scope.
Local Open Scope list_scope.

Tactic Notation "bi" ident(H) ident(x) ident(Hx) := apply bind_ok in H; destruct H as (x & Hx & H).

Section Ent.
  Context (P : pool) (E : env) (m : mix) (n : string -> list nat -> R).
  Context (Hm : mixture_ok m) (K : amounts_known m n) (Hne : x_c m <> []).
  Context (Hpr : forall s, In s (x_c m) -> 0 < g_pref (gas_of P s)).

  (* the mask of the pressure part requires the shape of the mixture *)
  Lemma sp_needs_shape p a : List.length (nsh p) = List.length (shape m) -> stretches (shape m) (nsh p) ->
    sp_of P m p = Ok a -> nsh p = shape m.
  Proof.
    clear Hpr K. intros L S H. unfold sp_of in H. bi H z Hz. clear H. destruct (x_c m) as [|s c]; [congruence|]. cbn [sp_loop] in Hz.
    bi Hz t1 H1. bi Hz t2 H2. destruct (mask_fits (tl (nsh (x_q m))) _) eqn:M; [|discriminate]. clear Hz.
    change (tl (nsh (x_q m))) with (shape m) in M. cbn [np_map nsh] in M.
    assert (Hs : nsh p <> []) by (eapply nonempty_stretch; [apply Hm|exact S]).
    assert (Lr : laid (row (x_q m) 0) (nsh p)) by (right; right; exact S).
    destruct (op_laid fmul p _ (nsh p) Hs (laid_same _ _ eq_refl) Lr (or_introl eq_refl)) as (c1 & C1 & C2 & _).
    rewrite C1 in H1. injection H1 as <-.
    destruct (op_laid fdiv c1 _ (nsh p) Hs (laid_same _ _ C2) (laid_sum_rows m _ S) (or_introl C2)) as (c2 & D1 & D2 & _).
    rewrite D1 in H2. injection H2 as <-. rewrite D2 in M. unfold mask_fits in M. apply shape_eqb_spec in M.
    rewrite <- L, firstn_all in M. exact M.
  Qed.

  Lemma sp_at pn a i p : nsh pn = shape m -> index_in (shape m) i -> nel pn i = Some p -> 0 < p ->
    (forall s, In s (x_c m) -> 0 <= n s i) -> 0 < total_amount m n i -> sp_of P m pn = Ok a ->
    nel a i = Some (- const_Ru * rsum (fun s => n s i * ln (p * n s i / total_amount m n i / g_pref (gas_of P s))) (x_c m)).
  Proof.
    intros Hs Hi Hpn Hp Hpos Htot. unfold sp_of.
    assert (L : forall names k sp, (forall j, (j < List.length names)%nat ->
         index_of (nth j names "") (x_c m) = Some (k + j)%nat /\ In (nth j names "") (x_c m)) -> nsh sp = shape m ->
       exists a, sp_loop P names (x_q m) (sum_rows (x_q m)) k pn sp = Ok a /\ nsh a = shape m /\
         nel a i = fsub (nel sp i) (Some (rsum (fun s => n s i * ln (p * n s i / total_amount m n i / g_pref (gas_of P s))) names))).
    { induction names as [|s names IH]; intros k sp Hn Hsp; cbn [sp_loop].
      - exists sp. split; [reflexivity|]. split; [exact Hsp|]. cbn. destruct (nel sp i); cbn; [f_equal; lra|reflexivity].
      - destruct (Hn 0%nat) as [K0 K1]; [cbn; lia|]. cbn [nth] in K0, K1. rewrite Nat.add_0_r in K0.
        destruct (op_same fmul pn (row (x_q m) k) (shape m) Hs eq_refl) as (t1 & -> & T1 & E1). cbn [bind].
        destruct (op_same fdiv t1 (sum_rows (x_q m)) (shape m) T1 eq_refl) as (t2 & -> & T2 & E2). cbn [bind].
        assert (M : mask_fits (tl (nsh (x_q m))) (nsh (np_map (fun x => fdiv x (Some (g_pref (gas_of P s)))) t2)) = true).
        { unfold mask_fits. cbn [np_map nsh]. rewrite T2. apply shape_eqb_spec. unfold shape. apply firstn_all. }
        rewrite M.
        set (t4 := {| nsh := _; nel := _ |}).
        destruct (op_same fmul (row (x_q m) k) (np_map flog t4) (shape m) eq_refl T2) as (u & -> & Tu & Eu). cbn [bind].
        rewrite Hsp. destruct (bto_same u (shape m) Tu) as (w & -> & Tw & Ew). cbn [bind].
        destruct (IH (S k) {| nsh := shape m; nel := fun i => fsub (nel sp i) (nel w i) |}) as (b & A1 & A2 & A3).
        { intros j Hj. specialize (Hn (S j) ltac:(cbn; lia)). cbn [nth] in Hn. replace (S k + j)%nat with (k + S j)%nat by lia. exact Hn. }
        { reflexivity. }
        exists b. split; [exact A1|]. split; [exact A2|]. rewrite A3. cbn [nel rsum].
        assert (Q : nel (x_q m) (k :: i) = Some (n s i)) by (apply amount_row; auto).
        assert (W : nel w i = Some (n s i * ln (p * n s i / total_amount m n i / g_pref (gas_of P s)))).
        { rewrite (Ew i Hi), (Eu i Hi). cbn [row nel np_map]. rewrite Q. unfold t4. cbn [nel].
          replace (firstn (List.length (tl (nsh (x_q m)))) i) with i
            by (symmetry; change (tl (nsh (x_q m))) with (shape m); rewrite <- (index_in_len _ _ Hi); apply firstn_all).
          rewrite Q. cbn [fle]. destruct (Rle_dec (n s i) 0) as [Hz|Hz].
          - pose proof (Hpos s K1). replace (n s i) with 0 by lra. cbn [flog fmul lift2].
            destruct (Rlt_dec 0 1); [|lra]. f_equal. ring.
          - cbn [np_map nel]. rewrite (E2 i Hi), (E1 i Hi), Hpn. cbn [row nel]. rewrite Q, (sum_rows_total m i Hm), (total_known m n i Hm K Hi).
            pose proof (Hpr s K1). rewrite log_ratio by (try assumption; repeat apply Rmult_lt_0_compat; lra). reflexivity. }
        rewrite W. destruct (nel sp i); cbn; [|reflexivity]. f_equal. ring. }
    destruct (L (x_c m) 0%nat {| nsh := nsh pn; nel := fun _ => Some 0 |}) as (b & A1 & A2 & A3).
    { intros j Hj. split; [apply index_of_nth; [apply Hm|exact Hj]|now apply nth_In]. }
    { exact Hs. }
    rewrite A1. cbn [bind]. intro H. injection H as <-. cbn [np_map nel]. rewrite A3. cbn [nel fsub fmul lift2]. f_equal. ring.
  Qed.

  (* the mean reference pressure *)
  Lemma rsum_ln (l : list string) (k : string -> R) (c : R) :
    rsum (fun s => k s * c) l = c * rsum k l.
  Proof. induction l as [|x l IH]; cbn [rsum]; [ring|]. rewrite IH. ring. Qed.
  Lemma rsum_eq {A} (f g : A -> R) l : (forall x, In x l -> f x = g x) -> rsum f l = rsum g l.
  Proof. induction l as [|x l IH]; intro H; cbn [rsum]; [reflexivity|]. rewrite (H x), IH; [reflexivity| |now left]. intros y Hy. apply H. now right. Qed.
  Lemma pref_at u i : stretches (shape m) u -> index_in u i -> 0 < total_amount m n (project (shape m) i) ->
    exists pr, at_index (pref_of P m) i = Some pr /\ 0 < pr /\
      total_amount m n (project (shape m) i) * ln pr = rsum (fun s => n s (project (shape m) i) * ln (g_pref (gas_of P s))) (x_c m).
  Proof.
    intros S Hi Htot. assert (Hpi : index_in (shape m) (project (shape m) i)) by (eapply project_in; eassumption).
    set (j := project (shape m) i) in *. unfold pref_of. destruct (map (fun s => g_pref (gas_of P s)) (x_c m)) as [|p0 r] eqn:Em.
    { destruct (x_c m); [congruence|discriminate]. }
    rewrite <- Em. destruct (forallb _ _) eqn:Ef.
    - exists p0. split; [reflexivity|].
      assert (All : forall s, In s (x_c m) -> g_pref (gas_of P s) = p0).
      { intros s Hs. rewrite forallb_forall in Ef. specialize (Ef (g_pref (gas_of P s)) (in_map (fun s => g_pref (gas_of P s)) _ _ Hs)).
        destruct (Req_EM_T (g_pref (gas_of P s)) p0); [assumption|discriminate]. }
      split. { destruct (x_c m) as [|s c] eqn:Ec; [congruence|]. rewrite <- (All s ltac:(now left)). apply Hpr. now left. }
      rewrite (rsum_eq _ (fun s => n s j * ln p0)) by (intros s Hs; now rewrite All). rewrite rsum_ln. unfold total_amount. ring.
    - exists (exp (rsum (fun s => n s j * ln (g_pref (gas_of P s))) (x_c m) / total_amount m n j)). split; [|split; [apply exp_pos|rewrite ln_exp; field; lra]].
      unfold at_index. cbn [nsh nel]. destruct (shape m) as [|x l] eqn:Es; [destruct Hm as (_ & X & _); congruence|]. rewrite <- Es. replace (project (shape m) i) with j by (unfold j; now rewrite Es). rewrite <- Es in Hpi.
      rewrite map_map. rewrite (sum_weigh m n (fun s => ln (g_pref (gas_of P s))) j Hm K Hpi), (sum_rows_total m j Hm), (total_known m n j Hm K Hpi).
      fold (total_amount m n j). cbn [fdiv]. destruct (Req_EM_T (total_amount m n j) 0); [lra|]. reflexivity.
  Qed.

  Lemma rsum_scale (l : list string) (f : string -> R) c : rsum (fun s => c * f s) l = c * rsum f l.
  Proof. induction l as [|x l IH]; cbn [rsum]; [ring|]. rewrite IH. ring. Qed.

  (* the pressure from entropy gives back the entropy *)
  Lemma entropy_back s T u p w i x s0 (v : string -> R) : u <> [] -> stretches (shape m) u -> laid s u -> nsh T = u ->
    p_from_s P m s T = Ok p -> sp_of P m p = Ok w -> index_in u i -> nel T i = Some x -> at_index s i = Some s0 ->
    (forall k, In k (x_c m) -> fst (g_s (gas_of P k) (Some x)) = Some (v k)) ->
    (forall k, In k (x_c m) -> 0 <= n k (project (shape m) i)) -> 0 < total_amount m n (project (shape m) i) ->
    u = shape m /\
    nel w i = Some (s0 - rsum (fun k => n k (project (shape m) i) * v k) (x_c m)).
  Proof.
    intros Hu S Ls HT H Hw Hi Ex Es Hv Hpos Htot.
    destruct (p_from_s_str P m s T u Hu (nshape m Hm) S Ls HT Hne) as (p' & P1 & P2 & P3). rewrite P1 in H. injection H as <-.
    assert (Hsh : u = shape m).
    { rewrite <- P2. apply (sp_needs_shape p' w); [|rewrite P2; exact S|exact Hw]. rewrite P2. symmetry. now apply stretches_len. }
    split; [exact Hsh|]. rewrite Hsh in *. clear Hsh u. rewrite (project_id (shape m) i Hi) in *.
    destruct (pref_at (shape m) i S Hi) as (pr & R1 & R2 & R3); [now rewrite (project_id (shape m) i Hi)|]. rewrite (project_id (shape m) i Hi) in R3.
    set (tot := total_amount m n i) in *.
    specialize (P3 i Hi). rewrite (project_id (shape m) i Hi), R1, Es in P3.
    rewrite (numbered' m n v _ i Hm Hi) in P3.
    2:{ intros k q Hk Hq. cbn [fst snd]. rewrite (amount_row m n q k i K Hk Hi), Ex, (Hv q Hq). reflexivity. }
    rewrite fold_fadd, fadd_0_l in P3.
    assert (Mx : fsum (fun k => fmul (nel (x_q m) (k :: i)) (flog (if fle (nel (x_q m) (k :: i)) (Some 0) then Some 1
          else fdiv (nel (x_q m) (k :: i)) (nel (sum_rows (x_q m)) i)))) (seq 0 (hd 0%nat (nsh (x_q m))))
        = Some (rsum (fun k => n k i * ln (n k i / tot)) (x_c m))).
    { destruct Hm as (Hq & _ & Hnd). rewrite Hq. cbn [hd].
      rewrite <- (fsum_real (fun k => Some (n k i * ln (n k i / tot))) (fun k => n k i * ln (n k i / tot)) (x_c m)) by reflexivity.
      rewrite <- (seq_nth_map (x_c m)) at 2. rewrite fsum_map. apply fsum_ext. intros k Hk. apply in_seq in Hk.
      assert (Hlt : (k < List.length (x_c m))%nat) by lia. assert (Hin : In (nth k (x_c m) "") (x_c m)) by (apply nth_In; lia).
      rewrite (amount_row m n (nth k (x_c m) "") k i K (index_of_nth _ _ Hnd Hlt) Hi).
      rewrite (sum_rows_total m i Hm), (total_known m n i Hm K Hi). fold (total_amount m n i). fold tot. cbn [fle].
      destruct (Rle_dec (n (nth k (x_c m) "") i) 0) as [Hz|Hz].
      - pose proof (Hpos _ Hin). replace (n (nth k (x_c m) "") i) with 0 by lra. cbn [flog fmul lift2]. destruct (Rlt_dec 0 1); [|lra]. f_equal. ring.
      - cbn [fdiv]. destruct (Req_EM_T tot 0); [lra|]. cbn [flog]. destruct (Rlt_dec 0 (n (nth k (x_c m) "") i / tot)) as [_|Hb]; [reflexivity|].
        exfalso. apply Hb. apply Rdiv_lt_0_compat; lra. }
    rewrite Mx in P3. rewrite (sum_rows_total m i Hm), (total_known m n i Hm K Hi) in P3. fold (total_amount m n i) in P3. fold tot in P3.
    set (ST := rsum (fun k => n k i * v k) (x_c m)) in *. set (M := rsum (fun k => n k i * ln (n k i / tot)) (x_c m)) in *.
    pose proof Ru_pos as HR. change const_Ru with gas_constant in *.
    cbn [fsub fadd fmul lift2 lift1 fdiv fexp] in P3. destruct (Req_EM_T gas_constant 0); [lra|]. cbn [fdiv] in P3. destruct (Req_EM_T tot 0); [lra|].
    cbn [fexp lift1 fmul lift2] in P3. set (ex := - (s0 - ST + gas_constant * M) / gas_constant / tot) in P3.
    assert (Hp : 0 < pr * exp ex) by (apply Rmult_lt_0_compat; [exact R2|apply exp_pos]).
    rewrite (sp_at p' w i (pr * exp ex) P2 Hi P3 Hp Hpos Htot Hw). f_equal. fold tot. change const_Ru with gas_constant.
    rewrite (rsum_eq _ (fun k => n k i * (ln pr + ex) + (n k i * ln (n k i / tot) + -1 * (n k i * ln (g_pref (gas_of P k)))))).
    2:{ intros k Hk. destruct (Req_dec (n k i) 0) as [Z|Z]; [rewrite Z; ring|].
        assert (0 < n k i) by (pose proof (Hpos k Hk); lra). assert (0 < n k i / tot) by (apply Rdiv_lt_0_compat; lra). pose proof (Hpr k Hk).
        replace (pr * exp ex * n k i / tot / g_pref (gas_of P k)) with (pr * exp ex * (n k i / tot) * / g_pref (gas_of P k)) by (field; lra).
        rewrite ln_mult; [|apply Rmult_lt_0_compat; assumption|now apply Rinv_0_lt_compat].
        rewrite ln_Rinv by assumption. rewrite ln_mult by assumption. rewrite ln_mult by (try assumption; apply exp_pos). rewrite ln_exp. ring. }
    rewrite rsum_plus, rsum_ln, rsum_plus, rsum_scale. fold M. rewrite <- R3. change (rsum (fun s => n s i) (x_c m)) with tot. unfold ex. field. lra.
  Qed.
End Ent.

Section Entropy.
  Context (P : pool) (E : env) (m : mix) (n : string -> list nat -> R) (varg : list nd) (kw : list (string * nd)).
  Context (Hm : mixture_ok m) (K : amounts_known m n) (Hlike : like_mixture m varg kw).

  Lemma given_s a k b v vT : dget "s" (named_args varg kw) = Some a -> In k ["T"; "h"; "e"] -> dget k (named_args varg kw) = Some b ->
    n_T P E m varg kw = Ok vT -> n_s P E m varg kw = Ok v -> nsh v = shape m /\ nsh vT = shape m /\
    forall i t s0 uT kT kP kV kE kM w, index_in (shape m) i -> nel vT i = Some t -> at_index a i = Some s0 ->
      units_known E w uT kT kP kV kE kM -> usable_at P E m n (to_kelvin uT t) ->
      (forall s, In s (x_c m) -> 0 <= n s i) -> 0 < total_amount m n i -> nel v i = Some s0.
  Proof.
    intros Ga Hk Gb HT H. unfold n_T in HT. bi HT st A. destruct st as [[T p] d]. unfold n_s in H. rewrite A in H. cbn [bind] in H.
    bi H q Q. bi H c H1. bi H w H2. bi H z H3.
    destruct (argparse_stands P E m varg kw T p d Hm Hlike A) as (Hne & u & kw2 & S & Fin & L2).
    assert (Np : dget "p" kw2 = None).
    { destruct (dget "p" kw2) as [y|] eqn:G; [|reflexivity]. exfalso.
      refine (three_args kw2 "s" k "p" _ _ _ L2 (Fin _ _ Ga) (Fin _ _ Gb) G _ _ _); destruct Hk as [<-|[<-|[<-|[]]]]; discriminate. }
    destruct (st_gs _ _ _ _ _ _ _ _ S a (Fin _ _ Ga) Np) as (b1 & c1 & p0 & B1 & B2 & B3 & -> & B4).
    cbn [need_p] in Q. apply ok_inj in Q. subst q.
    pose proof (st_u _ _ _ _ _ _ _ _ S) as Hu. pose proof (st_m _ _ _ _ _ _ _ _ S) as Sm. pose proof (st_T _ _ _ _ _ _ _ _ S) as ST.
    pose proof (st_p _ _ _ _ _ _ _ _ S _ eq_refl) as Sp.
    assert (Hsh : u = shape m).
    { rewrite <- Sp. apply (sp_needs_shape P m Hm Hne p0 w); [|rewrite Sp; exact Sm|exact H2]. rewrite Sp. symmetry. now apply stretches_len. }
    pose proof (prop_shape P m Hm _ _ _ _ Hu Sm ST Hne H1) as N1.
    pose proof H2 as N2. apply sp_of_shape in N2. rewrite Sp in N2.
    destruct (op_same fadd c w u N1 N2) as (z' & Z1 & Z2 & Z3). rewrite Z1 in H3. injection H3 as <-.
    assert (Vs : nsh v = u).
    { pose proof H as X. unfold n_heat in X. bi X y Xy. apply nconvert_shape in Xy, X. congruence. }
    split; [congruence|]. split; [apply ntscale_shape in HT; congruence|].
    intros i t s0 uT kT kP kV kE kM w0 Hi Et Es U Hus Hpos Htot.
    destruct (out_T E uT kT kP kV kE kM _ U T _ HT) as [_ T2]. rewrite T2 in Et.
    destruct (nel T i) as [x|] eqn:ET; [|discriminate]. cbn [lift1] in Et. injection Et as <-. rewrite to_from_kelvin in *.
    pose proof (known P E m n x Hus) as KV.
    assert (Hpr : forall s, In s (x_c m) -> 0 < g_pref (gas_of P s)).
    { intros s Hs. destruct Hus as (_ & _ & _ & Hg). destruct (Hg s Hs) as (g & G1 & G2 & G3). unfold gas_of. rewrite G1.
      destruct (species_low E g G2) as (_ & _ & X & _). exact X. }
    assert (Hiu : index_in u i) by now rewrite Hsh.
    pose proof (project_id (shape m) i Hi) as PI.
    pose proof (kE_pos _ _ _ _ _ _ _ _ U) as KE. pose proof (kT_pos _ _ _ _ _ _ _ _ U) as KT.
    destruct (conv_in E uT kT kP kV kE kM _ U QEnergy _ b1 "kJ" 1000 None I eq_refl B1) as [C1 C2].
    destruct (conv_in E uT kT kP kV kE kM _ U QTemperature b1 c1 "K" (9/5) (Some (-1)%Z) I eq_refl B2) as [D1 D2].
    assert (Es' : at_index c1 i = Some (kE / 1000 / (kT / (9/5)) * s0)).
    { rewrite (at_map _ _ _ i D1 D2), (at_map _ _ _ i C1 C2), (at_atleast a u i Hu) by first [assumption | eapply laid_eq; [|exact B3]; congruence].
      rewrite Es. cbn [effective_exponent Z.eqb ksize fmul lift2]. rewrite zpow_1, zpow_m1. f_equal. field. lra. }
    destruct (entropy_back P m n Hm K Hne Hpr c1 T u p0 w i x _ (fun s => match fst (g_s (gas_of P s) (Some x)) with Some v => v | None => 0 end)
      Hu Sm B3 ST B4 H2 Hiu ET Es') as [_ W].
    { intros s Hs. now rewrite (pv_s _ _ _ _ _ (KV s Hs)). }
    { now rewrite PI. } { now rewrite PI. }
    destruct (prop_at P m n Hm K _ (fun s => match fst (g_s (gas_of P s) (Some x)) with Some v => v | None => 0 end) T u c i x Hu Sm ST Hne H1 Hiu ET) as [_ E1].
    { intros s Hs. now rewrite (pv_s _ _ _ _ _ (KV s Hs)). }
    destruct (heat_conv E uT kT kP kV kE kM _ U _ _ H) as [_ X]. rewrite X, (Z3 i Hiu), E1, W. cbn [fadd fmul lift2]. f_equal. field. lra.
  Qed.
End Entropy.

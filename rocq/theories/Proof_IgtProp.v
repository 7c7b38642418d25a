(* Properties of dynamic mixtures are sums over the constituents. *)
From Coq Require Import Reals ZArith List String Bool Lia Lra Arith.
From Verif Require Import Proof_IgasRel Base Model_Num Model_Units Model_Igas Model_Igmix Model_Igtools Model_Igtprop
  Spec_Units Spec_Igas Spec_Igmix Spec_Igtools Spec_Igtprop
  Proof_Units Proof_Igas Proof_IgasUnits Proof_IgasState Proof_IgasCalls Proof_IgmixProp
  Proof_Igtshape Proof_Igtools Proof_IgtAdd Proof_IgtMore Proof_IgtItems Proof_IgtNew.
Import ListNotations.
Local Open Scope R_scope.
Local Open Scope string_scope.
Local Open Scope list_scope.

Lemma np_shape_same s : np_shape s s = Some s.
Proof.
  apply np_shape_spec. split; [lia|]. intros j _. cbv zeta. split; [auto|]. now destruct (Nat.eqb (from_end s j) 1).
Qed.
Lemma np_shape_nil s : np_shape [] s = Some s.
Proof. unfold np_shape. cbn [rev np_rev]. now rewrite rev_involutive. Qed.
Lemma np_shape_nil_r s : np_shape s [] = Some s.
Proof.
  unfold np_shape. cbn [rev]. destruct (rev s) as [|d r] eqn:E; cbn [np_rev].
  - rewrite <- (rev_involutive s), E. reflexivity.
  - now rewrite <- E, rev_involutive.
Qed.
Lemma bidx_same s i : index_in s i -> bidx s i = i.
Proof. intro H. rewrite bidx_project by now apply index_in_len. now apply project_id. Qed.
Lemma bidx_nil i : bidx [] i = [].
Proof. unfold bidx. reflexivity. Qed.

(* arithmetic of arrays of one shape *)
Lemma op_same f a b s : nsh a = s -> nsh b = s -> exists c, np_op f a b = Ok c /\ nsh c = s /\
  forall i, index_in s i -> nel c i = f (nel a i) (nel b i).
Proof.
  intros Ha Hb. unfold np_op. rewrite Ha, Hb, np_shape_same. eexists; split; [reflexivity|]. split; [reflexivity|].
  intros i Hi. cbn [nel]. now rewrite !bidx_same.
Qed.
Lemma op_nil f a b s : nsh a = [] -> nsh b = s -> exists c, np_op f a b = Ok c /\ nsh c = s /\
  forall i, index_in s i -> nel c i = f (nel a []) (nel b i).
Proof.
  intros Ha Hb. unfold np_op. rewrite Ha, Hb, np_shape_nil. eexists; split; [reflexivity|]. split; [reflexivity|].
  intros i Hi. cbn [nel]. rewrite (bidx_same s i Hi). now rewrite bidx_nil.
Qed.
Lemma bto_same a s : nsh a = s -> exists c, broadcast_to a s = Ok c /\ nsh c = s /\
  forall i, index_in s i -> nel c i = nel a i.
Proof.
  intros Ha. destruct (broadcast_to_same a s) as (v & V1 & V2 & V3). { rewrite Ha. apply stretches_refl. }
  exists v. split; [exact V1|]. split; [exact V2|]. intros i Hi. rewrite V3 by now apply index_in_len.
  rewrite Ha. now rewrite project_id.
Qed.

Lemma prop_loop_value P r q T s names : nsh T = s -> tl (nsh q) = s -> forall k pval, nsh pval = s ->
  exists v, prop_loop P r names q k T pval = Ok v /\ nsh v = s /\
    forall i, index_in s i -> nel v i = fadd (nel pval i)
      (fsum (fun p => fmul (nel q (fst p :: i)) (r (gas_of P (snd p)) (nel T i))) (combine (seq k (List.length names)) names)).
Proof.
  intros HT Hq. induction names as [|x names IH]; intros k pval Hp; cbn [prop_loop].
  - exists pval. split; [reflexivity|]. split; [exact Hp|]. intros i _. cbn. now rewrite fadd_0_r.
  - destruct (op_same fmul (row q k) (np_map (r (gas_of P x)) T) s Hq HT) as (t & -> & Ht & Et). cbn [bind].
    destruct (op_same fadd pval t s Hp Ht) as (w & -> & Hw & Ew). cbn [bind].
    destruct (IH (S k) w Hw) as (v & V1 & V2 & V3). exists v. split; [exact V1|]. split; [exact V2|].
    intros i Hi. rewrite (V3 i Hi), (Ew i Hi), (Et i Hi).
    cbn [List.length seq combine fsum fst snd row nel np_map]. now rewrite fadd_assoc.
Qed.
Lemma propeval_raw P m r T : nsh T = shape m -> x_c m <> [] ->
  exists v, propeval P m r T = Ok v /\ nsh v = shape m /\
    forall i, index_in (shape m) i -> nel v i =
      fsum (fun p => fmul (nel (x_q m) (fst p :: i)) (r (gas_of P (snd p)) (nel T i)))
        (combine (seq 0 (List.length (x_c m))) (x_c m)).
Proof.
  intros HT Hne. unfold propeval. destruct (x_c m) as [|x names]; [congruence|]. cbn [prop_loop].
  destruct (op_same fmul (row (x_q m) 0) (np_map (r (gas_of P x)) T) (shape m) eq_refl HT) as (t & -> & Ht & Et). cbn [bind].
  destruct (op_nil fadd (scalar 0) t (shape m) eq_refl Ht) as (w & -> & Hw & Ew). cbn [bind].
  destruct (prop_loop_value P r (x_q m) T (shape m) names HT eq_refl 1%nat w Hw) as (v & V1 & V2 & V3).
  exists v. split; [exact V1|]. split; [exact V2|]. intros i Hi. rewrite (V3 i Hi), (Ew i Hi), (Et i Hi).
  cbn [scalar nel]. rewrite fadd_0_l. cbn [List.length seq combine fsum fst snd row nel np_map]. reflexivity.
Qed.

(* sums over numbered names *)
Lemma combine_in (c : list string) : forall j k s, In (k, s) (combine (seq j (List.length c)) c) ->
  exists r, k = (j + r)%nat /\ (r < List.length c)%nat /\ nth r c "" = s.
Proof.
  induction c as [|x c IH]; intros j k s Hin; cbn in Hin; [contradiction|].
  destruct Hin as [E|Hin].
  - injection E as <- <-. exists 0%nat. cbn. repeat split; lia.
  - destruct (IH (S j) k s Hin) as (r & -> & R1 & R2). exists (S r). cbn. repeat split; [lia|lia|exact R2].
Qed.
Lemma rsum_combine (c : list string) : forall k (h : string -> R),
  rsum (fun p : nat * string => h (snd p)) (combine (seq k (List.length c)) c) = rsum h c.
Proof. induction c as [|s c IH]; intros k h; cbn; [reflexivity|]. now rewrite IH. Qed.
Lemma rsum_plus {A} (f g : A -> R) l : rsum (fun x => f x + g x) l = rsum f l + rsum g l.
Proof. induction l as [|x l IH]; cbn; [ring|]. rewrite IH. ring. Qed.

Lemma nonempty_in {A} (l : list A) : l <> [] -> exists x, In x l.
Proof. destruct l as [|x l]; [congruence|]. exists x. now left. Qed.

Lemma log_ratio a b c d : 0 < a * b -> 0 < c -> 0 < d ->
  flog (fdiv (fdiv (fmul (Some a) (Some b)) (Some c)) (Some d)) = Some (ln (a * b / c / d)).
Proof.
  intros Ha Hc Hd. cbn [fmul lift2 fdiv]. destruct (Req_EM_T c 0); [lra|]. cbn [fdiv]. destruct (Req_EM_T d 0); [lra|].
  cbn [flog]. destruct (Rlt_dec 0 (a * b / c / d)) as [_|Hb]; [reflexivity|]. exfalso. apply Hb. now repeat apply Rdiv_lt_0_compat.
Qed.

Section Props.
  Context (P : pool) (E : env) (m : mix) (n : string -> list nat -> R).
  Context (uT : string) (kT kP kV kE : R).
  Context (t p : R).
  Let K := to_kelvin uT t.
  Context (Hok : usable_at P E m n K).
  Context (U : forall s, In s (x_c m) -> exists k, units_known E (mw_of P s) uT kT kP kV kE k).
  Context (Hp : 0 < p).

  Lemma Hm : mixture_ok m. Proof. apply Hok. Qed.
  Lemma hne : x_c m <> []. Proof. apply Hok. Qed.
  Lemma one : exists s k, In s (x_c m) /\ units_known E (mw_of P s) uT kT kP kV kE k.
  Proof.
    destruct (nonempty_in _ hne) as [s Hs]. destruct (U s Hs) as [k Hk]. now exists s, k.
  Qed.

  Lemma numbered (r : string -> R) (f : nat * string -> fl) i : index_in (shape m) i ->
    (forall k s, index_of s (x_c m) = Some k -> In s (x_c m) -> f (k, s) = Some (n s i * r s)) ->
    fsum f (combine (seq 0 (List.length (x_c m))) (x_c m)) = Some (rsum (fun s => n s i * r s) (x_c m)).
  Proof.
    intros Hi Hf. rewrite (fsum_real f (fun q => n (snd q) i * r (snd q))).
    - f_equal. apply (rsum_combine (x_c m) 0 (fun s => n s i * r s)).
    - intros [k s] Hin. destruct (combine_in _ _ _ _ Hin) as (j & -> & J1 & <-). cbn [snd plus]. apply Hf.
      + apply index_of_nth; [apply Hm|exact J1].
      + now apply nth_In.
  Qed.

  Lemma propeval_value r T (v : string -> R) : nsh T = shape m ->
    (forall i, index_in (shape m) i -> nel T i = Some K) ->
    (forall s, In s (x_c m) -> r (gas_of P s) (Some K) = Some (v s)) ->
    exists a, propeval P m r T = Ok a /\ nsh a = shape m /\
      forall i, index_in (shape m) i -> nel a i = Some (rsum (fun s => n s i * v s) (x_c m)).
  Proof.
    intros HT HK Hv. destruct (propeval_raw P m r T HT hne) as (a & A1 & A2 & A3).
    exists a. split; [exact A1|]. split; [exact A2|]. intros i Hi. rewrite (A3 i Hi). apply numbered; [exact Hi|].
    intros k s Hk Hs. cbn [fst snd]. rewrite (amount_row m n s k i) by (auto; apply Hok). rewrite (HK i Hi), (Hv s Hs). reflexivity.
  Qed.

  Lemma qt_value i : index_in (shape m) i -> nel (sum_rows (x_q m)) i = Some (rsum (fun s => n s i) (x_c m)).
  Proof. intro Hi. rewrite (sum_rows_total m i Hm). apply total_known; auto; apply Hok. Qed.

  Definition part (s : string) (i : list nat) : R := n s i / rsum (fun s => n s i) (x_c m).

  Lemma sp_value pn : nsh pn = shape m -> (forall i, index_in (shape m) i -> nel pn i = Some (kP * p)) -> 0 < kP ->
    (forall s, In s (x_c m) -> 0 < g_pref (gas_of P s)) ->
    exists a, sp_of P m pn = Ok a /\ nsh a = shape m /\
      forall i, index_in (shape m) i -> (forall s, In s (x_c m) -> 0 <= n s i) -> 0 < rsum (fun s => n s i) (x_c m) ->
        nel a i = Some (- const_Ru * rsum (fun s => n s i * ln (kP * (part s i * p) / g_pref (gas_of P s))) (x_c m)).
  Proof.
    intros Hs Hpn HkP Hpr. unfold sp_of.
    assert (L : forall names k sp, (forall j, (j < List.length names)%nat ->
         index_of (nth j names "") (x_c m) = Some (k + j)%nat /\ In (nth j names "") (x_c m)) -> nsh sp = shape m ->
       exists a, sp_loop P names (x_q m) (sum_rows (x_q m)) k pn sp = Ok a /\ nsh a = shape m /\
       forall i, index_in (shape m) i -> (forall s, In s (x_c m) -> 0 <= n s i) -> 0 < rsum (fun s => n s i) (x_c m) ->
         nel a i = fsub (nel sp i) (Some (rsum (fun s => n s i * ln (kP * (part s i * p) / g_pref (gas_of P s))) names))).
    { induction names as [|s names IH]; intros k sp Hn Hsp; cbn [sp_loop].
      - exists sp. split; [reflexivity|]. split; [exact Hsp|]. intros i _ _ _. cbn. destruct (nel sp i); cbn; [f_equal; lra|reflexivity].
      - destruct (Hn 0%nat) as [K0 K1]; [cbn; lia|]. cbn [nth] in K0, K1. rewrite Nat.add_0_r in K0.
        destruct (op_same fmul pn (row (x_q m) k) (shape m) Hs eq_refl) as (t1 & -> & T1 & E1). cbn [bind].
        destruct (op_same fdiv t1 (sum_rows (x_q m)) (shape m) T1 eq_refl) as (t2 & -> & T2 & E2). cbn [bind].
        assert (M : mask_fits (tl (nsh (x_q m))) (nsh (np_map (fun x => fdiv x (Some (g_pref (gas_of P s)))) t2)) = true).
        { unfold mask_fits. cbn [np_map nsh]. rewrite T2. apply shape_eqb_spec. unfold shape. apply firstn_all. }
        rewrite M.
        set (t4 := {| nsh := _; nel := _ |}).
        destruct (op_same fmul (row (x_q m) k) (np_map flog t4) (shape m) eq_refl T2) as (u & -> & Tu & Eu). cbn [bind].
        rewrite Hsp. destruct (bto_same u (shape m) Tu) as (w & -> & Tw & Ew). cbn [bind].
        destruct (IH (S k) {| nsh := shape m; nel := fun i => fsub (nel sp i) (nel w i) |}) as (a & A1 & A2 & A3).
        { intros j Hj. specialize (Hn (S j) ltac:(cbn; lia)). cbn [nth] in Hn. replace (S k + j)%nat with (k + S j)%nat by lia. exact Hn. }
        { reflexivity. }
        exists a. split; [exact A1|]. split; [exact A2|]. intros i Hi Hpos Htot. rewrite (A3 i Hi Hpos Htot). cbn [nel rsum].
        assert (Q : nel (x_q m) (k :: i) = Some (n s i)) by (apply amount_row; auto; apply Hok).
        assert (W : nel w i = Some (n s i * ln (kP * (part s i * p) / g_pref (gas_of P s)))).
        { rewrite (Ew i Hi), (Eu i Hi). cbn [row nel np_map]. rewrite Q. unfold t4. cbn [nel].
          replace (firstn (List.length (tl (nsh (x_q m)))) i) with i
            by (symmetry; change (tl (nsh (x_q m))) with (shape m); rewrite <- (index_in_len _ _ Hi); apply firstn_all).
          rewrite Q. cbn [fle]. destruct (Rle_dec (n s i) 0) as [Hz|Hz].
          - pose proof (Hpos s K1). replace (n s i) with 0 by lra. cbn [flog fmul lift2].
            destruct (Rlt_dec 0 1); [|lra]. f_equal. ring.
          - cbn [np_map nel]. rewrite (E2 i Hi), (E1 i Hi), (Hpn i Hi). cbn [row nel]. rewrite Q, (qt_value i Hi).
            pose proof (Hpr s K1). rewrite log_ratio by (try assumption; repeat apply Rmult_lt_0_compat; lra).
            replace (kP * (part s i * p) / g_pref (gas_of P s)) with (kP * p * n s i / rsum (fun s => n s i) (x_c m) / g_pref (gas_of P s))
              by (unfold part; field; split; lra). reflexivity. }
        rewrite W. destruct (nel sp i); cbn; [|reflexivity]. f_equal. ring. }
    destruct (L (x_c m) 0%nat {| nsh := nsh pn; nel := fun _ => Some 0 |}) as (a & A1 & A2 & A3).
    { intros j Hj. split; [apply index_of_nth; [apply Hm|exact Hj]|now apply nth_In]. }
    { exact Hs. }
    rewrite A1. cbn [bind]. eexists; split; [reflexivity|]. split; [exact A2|].
    intros i Hi Hpos Htot. cbn [np_map nel]. rewrite (A3 i Hi Hpos Htot). cbn [nel fsub lift2 fmul]. f_equal. ring.
  Qed.

  (* ---- the arguments ---- *)
  Lemma all_idx_in s : forall i, index_in s i -> In i (all_idx s).
  Proof.
    induction s as [|d s IH]; intros i Hi; inversion Hi as [|k x i' y Hk Hi']; subst; cbn [all_idx]; [now left|].
    apply in_flat_map. exists k. split; [apply in_seq; lia|]. apply in_map. now apply IH.
  Qed.
  Lemma gas_facts s : In s (x_c m) -> exists g, gas_of P s = g /\ dget s P = Some g /\ species E g /\
    Tlow g <= K <= Thigh g /\ g_mw g = mw_of P s /\ 0 < g_pref g /\ 0 < g_mw g.
  Proof.
    intro Hs. destruct Hok as (_ & _ & _ & H). destruct (H s Hs) as (g & G1 & G2 & G3).
    exists g. unfold gas_of, mw_of. rewrite G1. destruct (species_low E g G2) as (_ & _ & S3 & _ & S5).
    exact (conj eq_refl (conj eq_refl (conj G2 (conj G3 (conj eq_refl (conj S3 S5)))))).
  Qed.
  Lemma limits_value : exists lo hi, limits P E m = Ok (lo, hi) /\ lo <= K <= hi.
  Proof.
    destruct one as (s0 & k0 & Hs0 & U0).
    destruct (Tlim_hull P E m (fun s => from_kelvin uT (Tlow (gas_of P s))) (fun s => from_kelvin uT (Thigh (gas_of P s))) hne)
      as (l & h & L1 & _ & (s & Hs & ->) & (s' & Hs' & ->)).
    { intros s Hs. unfold m_Tlim. rewrite !(tscale_from E (mw_of P s0) uT kT kP kV kE k0 U0). reflexivity. }
    unfold limits. rewrite L1. cbn [bind].
    rewrite !(tscale_to E (mw_of P s0) uT kT kP kV kE k0 U0). cbn [bind]. rewrite !to_from_kelvin.
    do 2 eexists. split; [reflexivity|]. destruct (gas_facts s Hs) as (g & <- & _ & _ & G & _).
    destruct (gas_facts s' Hs') as (g' & <- & _ & _ & G' & _). lra.
  Qed.

  Lemma args_value : (exists i, index_in (shape m) i) ->
    exists T pn, nargparse P E m [] [("T", scalar t); ("p", scalar p)] = Ok (T, Some pn, None) /\
      nsh T = shape m /\ nsh pn = shape m /\ (forall i, nel T i = Some K) /\ (forall i, nel pn i = Some (kP * p)).
  Proof.
    intros [i0 Hi0]. destruct one as (s0 & k0 & Hs0 & U0). destruct limits_value as (lo & hi & L1 & L2).
    unfold nargparse. rewrite L1. cbn [bind npositional ndefaults List.length dmem dget String.eqb Ascii.eqb Bool.eqb Nat.ltb Nat.leb].
    cbn [fst snd].
    change (nrules [("T", scalar t); ("p", scalar p)]) with (Ok tt). cbn [bind].
    assert (TT : exists T, ntscale E (atleast_1d (scalar t)) None (Some "K") = Ok T /\ nsh T = [1%nat] /\ forall i, nel T i = Some K).
    { unfold ntscale. rewrite (tscale_to E (mw_of P s0) uT kT kP kV kE k0 U0). cbn [bind]. eexists; split; [reflexivity|].
      split; [reflexivity|]. intro i. cbn [np_map nel atleast_1d scalar nsh]. rewrite (tscale_to E (mw_of P s0) uT kT kP kV kE k0 U0). reflexivity. }
    assert (PP : exists T, nconvert E QPressure (atleast_1d (scalar p)) None (Some "Pa") None = Ok T /\ nsh T = [1%nat] /\ forall i, nel T i = Some (kP * p)).
    { unfold nconvert. rewrite (to_si E (mw_of P s0) uT kT kP kV kE k0 U0 QPressure 1 "Pa" 1 None) by (cbn; auto).
      cbn [bind effective_exponent]. eexists; split; [reflexivity|]. split; [reflexivity|]. intro i.
      cbn [np_map nel atleast_1d scalar nsh fmul lift2]. rewrite zpow_1. cbn [ksize]. f_equal. field. }
    destruct TT as (T & HT & T1 & T2). destruct PP as (q & Hq & Q1 & Q2).
    assert (S : nsolve P E m lo hi [("T", scalar t); ("p", scalar p)] =
      do r <- pair_up m T q; Ok (fst r, true, Some (snd r), None)).
    { unfold nsolve. cbn [dget String.eqb Ascii.eqb Bool.eqb ores]. rewrite HT, Hq. cbn [bind ores]. reflexivity. }
    rewrite S. unfold pair_up. rewrite T1, Q1.
    destruct (bs_number (shape m)) as [_ B]; [apply Hm|]. rewrite B. cbn [bind]. rewrite B. cbn [bind].
    assert (F : fits [1%nat] (shape m) = true).
    { destruct Hm as (_ & Hsh & _). unfold fits. cbn [List.length]. destruct (Nat.leb_spec 1 (List.length (shape m))) as [_|Hl]; [|destruct (shape m); [congruence|cbn in Hl; lia]].
      cbn [andb]. destruct (skipn (List.length (shape m) - 1) (shape m)); reflexivity. }
    unfold broadcast_to. rewrite T1, Q1, F. cbn [bind fst snd].
    unfold nbounds. unfold to_list. cbn [nsh nel].
    assert (B1 : forallb (fun x => flt x (Some lo) || flt (Some hi) x) (map (fun i => nel T (bidx [1%nat] i)) (all_idx (shape m))) = false).
    { pose proof (all_idx_in _ _ Hi0) as Hin. destruct (all_idx (shape m)) as [|j l]; [contradiction|]. cbn [map forallb].
      rewrite T2. cbn [flt]. destruct (Rlt_dec K lo); [lra|]. destruct (Rlt_dec hi K); [lra|]. reflexivity. }
    assert (B2 : existsb (fun x => flt x (Some lo) || flt (Some hi) x) (map (fun i => nel T (bidx [1%nat] i)) (all_idx (shape m))) = false).
    { clear B1. induction (all_idx (shape m)) as [|j l IH]; [reflexivity|]. cbn [map existsb].
      rewrite T2. cbn [flt]. destruct (Rlt_dec K lo); [lra|]. destruct (Rlt_dec hi K); [lra|]. exact IH. }
    rewrite B1, B2. cbn [bind]. do 2 eexists. split; [reflexivity|]. cbn [nsh nel]. auto.
  Qed.

  Lemma energy_out a : exists b, nconvert E QEnergy a (Some "kJ") None None = Ok b /\ nsh b = nsh a /\
    forall i, nel b i = fmul (Some (kh kE 1)) (nel a i).
  Proof.
    destruct one as (s0 & k0 & Hs0 & U0). pose proof (kE_pos _ _ _ _ _ _ _ _ U0).
    unfold nconvert. rewrite (of_si E (mw_of P s0) uT kT kP kV kE k0 U0 QEnergy 1 "kJ" 1000 None I eq_refl). cbn [bind].
    eexists; split; [reflexivity|]. split; [reflexivity|]. intro i. cbn [np_map nel effective_exponent ksize]. rewrite zpow_1.
    replace (kh kE 1) with (1 * (1000 / kE)) by (unfold kh; field; lra). reflexivity.
  Qed.
  Lemma heat_out a : exists b, n_heat E a = Ok b /\ nsh b = nsh a /\
    forall i, nel b i = fmul (Some (ks kT kE 1)) (nel a i).
  Proof.
    destruct one as (s0 & k0 & Hs0 & U0). pose proof (kE_pos _ _ _ _ _ _ _ _ U0). pose proof (kT_pos _ _ _ _ _ _ _ _ U0).
    unfold n_heat. destruct (energy_out a) as (b & -> & B1 & B2). cbn [bind].
    unfold nconvert. rewrite (of_si E (mw_of P s0) uT kT kP kV kE k0 U0 QTemperature 1 "K" (9/5) (Some (-1)%Z) I eq_refl). cbn [bind].
    eexists; split; [reflexivity|]. split; [exact B1|]. intro i. cbn [np_map nel effective_exponent ksize Z.eqb]. rewrite zpow_m1, B2.
    destruct (nel a i) as [x|]; cbn [fmul lift2]; [|reflexivity]. f_equal. unfold ks, kh. field. lra.
  Qed.

  Definition cpv s := match g_cp (gas_of P s) (Some K) with Some v => v | None => 0 end.
  Definition hv s := match fst (g_h (gas_of P s) (Some K)) with Some v => v | None => 0 end.
  Definition sv s := match fst (g_s (gas_of P s) (Some K)) with Some v => v | None => 0 end.
  Lemma member_values s : In s (x_c m) -> pvalues (gas_of P s) K (cpv s) (hv s) (sv s).
  Proof.
    intro Hs. destruct (gas_facts s Hs) as (g & Eg & _ & Sp & R & _). unfold cpv, hv, sv. rewrite Eg.
    destruct (species_values E g K Sp R) as (c & h & s1 & V). rewrite (pv_cp _ _ _ _ _ V), (pv_h _ _ _ _ _ V), (pv_s _ _ _ _ _ V).
    exact V.
  Qed.

  Lemma scaled_sum k (f : string -> R) i : k * rsum (fun s => n s i * f s) (x_c m) = rsum (fun s => n s i * (f s * k)) (x_c m).
  Proof. clear. induction (x_c m) as [|s l IH]; cbn [rsum]; [ring|]. rewrite <- IH. ring. Qed.

  Definition lnv s i := ln (kP * (part s i * p) / g_pref (gas_of P s)).
  Lemma rsum_lin (a b c d : string -> R) (x y z : R) i :
    (forall s, In s (x_c m) -> d s = x * a s + y * b s + z * c s) ->
    rsum (fun s => n s i * d s) (x_c m) =
    x * rsum (fun s => n s i * a s) (x_c m) + y * rsum (fun s => n s i * b s) (x_c m) + z * rsum (fun s => n s i * c s) (x_c m).
  Proof.
    intro H. clear - H. induction (x_c m) as [|s l IH]; cbn [rsum]; [ring|]. rewrite IH by (intros; apply H; now right).
    rewrite (H s) by now left. ring.
  Qed.

  Lemma dynamic_value q : In q extensive -> (exists i, index_in (shape m) i) ->
    exists v, dynamic_method q P E m [] [("T", scalar t); ("p", scalar p)] = Ok v /\ nsh v = shape m /\
      forall i, index_in (shape m) i -> (forall s, In s (x_c m) -> 0 <= n s i) -> 0 < rsum (fun s => n s i) (x_c m) ->
        nel v i = Some (rsum (fun s => n s i * (Iq q K (cpv s) (hv s) (sv s - const_Ru * lnv s i) * scale_of q kT kE 1)) (x_c m)).
  Proof.
    intros Hq Hex. destruct (args_value Hex) as (T & pn & A & T1 & P1 & T2 & P2).
    destruct one as (s0 & k0 & Hs0 & U0). pose proof (kP_pos _ _ _ _ _ _ _ _ U0) as HkP.
    assert (Hpr : forall s, In s (x_c m) -> 0 < g_pref (gas_of P s)).
    { intros s Hs. destruct (gas_facts s Hs) as (g & -> & _ & _ & _ & _ & H & _). exact H. }
    destruct (sp_value pn P1 (fun i _ => P2 i) HkP Hpr) as (w & W1 & W2 & W3).
    assert (V : forall r (f : string -> R), (forall s, In s (x_c m) -> r (gas_of P s) (Some K) = Some (f s)) ->
      exists a, propeval P m r T = Ok a /\ nsh a = shape m /\
      forall i, index_in (shape m) i -> nel a i = Some (rsum (fun s => n s i * f s) (x_c m))).
    { intros r f Hf. apply propeval_value; auto. }
    destruct (V g_cp cpv) as (a1 & X1 & Y1 & Z1). { intros s Hs. apply (pv_cp _ _ _ _ _ (member_values s Hs)). }
    destruct (V (fun (g : gas) (x : fl) => fst (g_h g x)) hv) as (a2 & X2 & Y2 & Z2). { intros s Hs. now rewrite (pv_h _ _ _ _ _ (member_values s Hs)). }
    destruct (V (fun (g : gas) (x : fl) => fst (g_e g x)) (fun s => hv s - const_Ru * K)) as (a3 & X3 & Y3 & Z3).
    { intros s Hs. now rewrite (pv_e _ _ _ _ _ (member_values s Hs)). }
    destruct (V (fun (g : gas) (x : fl) => fst (g_s g x)) sv) as (a4 & X4 & Y4 & Z4). { intros s Hs. now rewrite (pv_s _ _ _ _ _ (member_values s Hs)). }
    destruct (V (fun (g : gas) (x : fl) => fst (g_g g x)) (fun s => hv s - K * sv s)) as (a5 & X5 & Y5 & Z5).
    { intros s Hs. now rewrite (pv_g _ _ _ _ _ (member_values s Hs)). }
    destruct (V (fun (g : gas) (x : fl) => fst (g_f g x)) (fun s => hv s - const_Ru * K - K * sv s)) as (a6 & X6 & Y6 & Z6).
    { intros s Hs. now rewrite (pv_f _ _ _ _ _ (member_values s Hs)). }
    destruct q; try (exfalso; cbn in Hq; intuition discriminate); cbn [dynamic_method]; clear Hq.
    - unfold n_cp. rewrite A. cbn [bind]. rewrite X1. cbn [bind]. destruct (heat_out a1) as (b & B1 & B2 & B3).
      exists b. split; [exact B1|]. split; [congruence|]. intros i Hi _ _. rewrite B3, (Z1 i Hi). cbn [fmul lift2 Iq scale_of]. f_equal.
      apply scaled_sum.
    - unfold n_cv. rewrite A. cbn [bind]. rewrite X1. cbn [bind].
      destruct (op_same fsub a1 (np_map (fmul (Some const_Ru)) (sum_rows (x_q m))) (shape m) Y1 eq_refl) as (c & -> & C1 & C2). cbn [bind].
      destruct (heat_out c) as (b & B1 & B2 & B3).
      exists b. split; [exact B1|]. split; [congruence|]. intros i Hi _ _. rewrite B3, (C2 i Hi), (Z1 i Hi). cbn [np_map nel].
      rewrite (qt_value i Hi). cbn [fmul fsub lift2 Iq scale_of]. f_equal. rewrite <- scaled_sum. f_equal.
      rewrite (rsum_lin cpv (fun _ => 1) (fun _ => 0) (fun s => cpv s - const_Ru) 1 (- const_Ru) 0) by (intros; ring).
      rewrite (rsum_ext (fun s => n s i * 1) (fun s => n s i)) by (intros; ring). ring.
    - unfold n_h. rewrite A. cbn [bind]. rewrite X2. cbn [bind]. destruct (energy_out a2) as (b & B1 & B2 & B3).
      exists b. split; [exact B1|]. split; [congruence|]. intros i Hi _ _. rewrite B3, (Z2 i Hi). cbn [fmul lift2 Iq scale_of]. f_equal.
      apply scaled_sum.
    - unfold n_e. rewrite A. cbn [bind]. rewrite X3. cbn [bind]. destruct (energy_out a3) as (b & B1 & B2 & B3).
      exists b. split; [exact B1|]. split; [congruence|]. intros i Hi _ _. rewrite B3, (Z3 i Hi). cbn [fmul lift2 Iq scale_of]. f_equal.
      apply (scaled_sum _ (fun s => hv s - const_Ru * K)).
    - unfold n_s. rewrite A. cbn [bind need_p]. rewrite X4. cbn [bind]. rewrite W1. cbn [bind].
      destruct (op_same fadd a4 w (shape m) Y4 W2) as (c & -> & C1 & C2). cbn [bind].
      destruct (heat_out c) as (b & B1 & B2 & B3).
      exists b. split; [exact B1|]. split; [congruence|]. intros i Hi Hpos Htot. rewrite B3, (C2 i Hi), (Z4 i Hi), (W3 i Hi Hpos Htot).
      cbn [fmul fadd lift2 Iq scale_of]. f_equal. rewrite <- (scaled_sum _ (fun s => sv s - const_Ru * lnv s i)). f_equal.
      rewrite (rsum_lin sv (fun s => lnv s i) (fun _ => 0) (fun s => sv s - const_Ru * lnv s i) 1 (- const_Ru) 0) by (intros; ring). unfold lnv. ring.
    - unfold n_g, n_gf. rewrite A. cbn [bind need_p]. rewrite X5. cbn [bind]. rewrite W1. cbn [bind].
      destruct (op_same fmul T w (shape m) T1 W2) as (c & -> & C1 & C2). cbn [bind].
      destruct (op_same fsub a5 c (shape m) Y5 C1) as (d & -> & D1 & D2). cbn [bind].
      destruct (energy_out d) as (b & B1 & B2 & B3).
      exists b. split; [exact B1|]. split; [congruence|]. intros i Hi Hpos Htot.
      rewrite B3, (D2 i Hi), (Z5 i Hi), (C2 i Hi), (T2 i), (W3 i Hi Hpos Htot).
      cbn [fmul fsub lift2 Iq scale_of]. f_equal. rewrite <- (scaled_sum _ (fun s => hv s - K * (sv s - const_Ru * lnv s i))). f_equal.
      rewrite (rsum_lin hv sv (fun s => lnv s i) (fun s => hv s - K * (sv s - const_Ru * lnv s i)) 1 (- K) (K * const_Ru)) by (intros; ring).
      rewrite (rsum_lin hv sv (fun s => lnv s i) (fun s => hv s - K * sv s) 1 (- K) 0) by (intros; ring). unfold lnv. ring.
    - unfold n_f, n_gf. rewrite A. cbn [bind need_p]. rewrite X6. cbn [bind]. rewrite W1. cbn [bind].
      destruct (op_same fmul T w (shape m) T1 W2) as (c & -> & C1 & C2). cbn [bind].
      destruct (op_same fsub a6 c (shape m) Y6 C1) as (d & -> & D1 & D2). cbn [bind].
      destruct (energy_out d) as (b & B1 & B2 & B3).
      exists b. split; [exact B1|]. split; [congruence|]. intros i Hi Hpos Htot.
      rewrite B3, (D2 i Hi), (Z6 i Hi), (C2 i Hi), (T2 i), (W3 i Hi Hpos Htot).
      cbn [fmul fsub lift2 Iq scale_of]. f_equal. rewrite <- (scaled_sum _ (fun s => hv s - const_Ru * K - K * (sv s - const_Ru * lnv s i))). f_equal.
      rewrite (rsum_lin (fun s => hv s - const_Ru * K) sv (fun s => lnv s i) (fun s => hv s - const_Ru * K - K * (sv s - const_Ru * lnv s i)) 1 (- K) (K * const_Ru)) by (intros; ring).
      rewrite (rsum_lin (fun s => hv s - const_Ru * K) sv (fun s => lnv s i) (fun s => hv s - const_Ru * K - K * sv s) 1 (- K) 0) by (intros; ring). unfold lnv. ring.
  Qed.

  Lemma list_choice {B} (l : list string) (b0 : B) (Q : string -> B -> Prop) : (forall s, In s l -> exists b, Q s b) ->
    exists f, forall s, In s l -> Q s (f s).
  Proof.
    induction l as [|x l IH]; intro H; [exists (fun _ => b0); intros s []|].
    destruct IH as [f Hf]. { intros s Hs. apply H. now right. } destruct (H x) as [b Hb]; [now left|].
    exists (fun s => if String.eqb s x then b else f s). intros s Hs. destruct (String.eqb_spec s x) as [->|Hne]; [exact Hb|].
    apply Hf. destruct Hs; [congruence|assumption].
  Qed.

  Lemma sum_of_constituents q : In q extensive -> (exists i, index_in (shape m) i) ->
    exists v, dynamic_method q P E m [] [("T", scalar t); ("p", scalar p)] = Ok v /\ nsh v = shape m /\
      forall i, index_in (shape m) i -> (forall s, In s (x_c m) -> 0 <= n s i) -> 0 < rsum (fun s => n s i) (x_c m) ->
        exists vi ki : string -> R,
          (forall s, In s (x_c m) -> 0 < ki s /\ matter_size E (mw_of P s) (ki s)) /\
          (forall s, In s (x_c m) -> 0 < n s i ->
             ideal_method q (gas_of P s) E [] [("T", [Some t]); ("p", [Some (n s i / rsum (fun s => n s i) (x_c m) * p)])] = Ok [Some (vi s)]) /\
          nel v i = Some (rsum (fun s => n s i * (vi s / ki s)) (x_c m)).
  Proof.
    intros Hq Hex. destruct (dynamic_value q Hq Hex) as (v & V1 & V2 & V3). exists v. split; [exact V1|]. split; [exact V2|].
    intros i Hi Hpos Htot.
    destruct (list_choice (x_c m) 0 (fun s k => 0 < k /\ matter_size E (mw_of P s) k /\ units_known E (mw_of P s) uT kT kP kV kE k)) as [ki Hk].
    { intros s Hs. destruct (U s Hs) as [k0 U0]. destruct (gas_facts s Hs) as (g & _ & _ & _ & _ & Em & _ & Hm0).
      destruct (units_member E (mw_of P s) uT kT kP kV kE k0 (mw_of P s) U0) as (k & K1 & K2); [now rewrite <- Em|].
      exists k. split; [exact (kM_pos _ _ _ _ _ _ _ _ K2)|]. split; assumption. }
    exists (fun s => Iq q K (cpv s) (hv s) (sv s - const_Ru * lnv s i) * scale_of q kT kE (ki s)), ki.
    split. { intros s Hs. destruct (Hk s Hs) as (H1 & H2 & _). auto. }
    split.
    - intros s Hs Hn. destruct (Hk s Hs) as (H1 & H2 & H3). destruct (gas_facts s Hs) as (g & Eg & _ & Sp & R & Em & Hpr & Hm0).
      pose proof (member_values s Hs) as MV. unfold lnv. rewrite Eg in *. apply (ideal_value E g uT kT kP kV kE (ki s)); auto.
      + now rewrite Em.
      + apply Rmult_lt_0_compat; [|exact Hp]. now apply Rdiv_lt_0_compat.
    - rewrite (V3 i Hi Hpos Htot). f_equal. apply rsum_ext. intros s Hs. destruct (Hk s Hs) as (H1 & H2 & H3).
      rewrite Iq_scale; auto. exact (kE_pos _ _ _ _ _ _ _ _ H3).
  Qed.
End Props.

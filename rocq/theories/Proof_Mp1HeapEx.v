(* Instances of C89, and arrays of the caller that are modified. *)
From Coq Require Import Reals ZArith List Bool Arith String Lra Lia.
From Verif Require Import Base Model_Num Model_Units Model_Defaults Model_Igas Proof_IgasEx Model_IgHeap Spec_IgHeap Proof_IgHeap Proof_IgHeapEx Model_Hybrid
  Model_Mp1Calls Spec_Mp1Calls Model_Mp1Heap Spec_Mp1Heap Proof_Igas Proof_Mp1Poly Proof_Mp1Calls Proof_Mp1CallsEx Proof_Mp1TsEx Proof_Mp1InvEx Proof_Mp1InvPDEx Proof_Mp1Heap.
Import ListNotations.
Local Open Scope R_scope.
Local Open Scope string_scope.
Local Open Scope list_scope.

(* a session in kelvin, pascal, cubic meter, joule and kilogram *)
Definition si : env :=
  {| e_setup := default_setup; e_cfg := [("unit_temperature", "K"); ("unit_pressure", "Pa"); ("unit_volume", "m3"); ("unit_energy", "J"); ("unit_matter", "kg")];
     e_defT := 300; e_defTu := "K"; e_defp := 101325; e_defpu := "Pa"; e_oob := None |}.
Lemma si_K v : atscale si v None (Some "K") = Ok v.
Proof. unfold atscale. cbn. f_equal. rewrite <- (map_id v) at 2. apply map_ext. intros [x|]; reflexivity. Qed.
Lemma si_Pa v : aconvert si QPressure v None (Some "Pa") None = Ok v.
Proof. transitivity (Ok (map (fmul (Some 1)) v)); [reflexivity|]. now rewrite scaled_1'. Qed.
Lemma si_m3 v : aconvert si QVolume v None (Some "m3") (Some (-1)%Z) = Ok v.
Proof. transitivity (Ok (map (fmul (Some 1)) v)); [reflexivity|]. now rewrite scaled_1'. Qed.
Lemma si_kg mw v : amatter si v mw None (Some "kg") None = Ok v.
Proof. transitivity (Ok (map (fmul (Some 1)) v)); [reflexivity|]. now rewrite scaled_1'. Qed.

(* the conversions of arguments, in that session *)
Lemma h_K r h : h_tscale si None (Some "K") r h = (h, Ok r).
Proof. unfold h_tscale, mbind, lift, read, ret. change (cfg_pair si "unit_temperature" None (Some "K")) with (@Ok (string*string) ("K","K")). cbv iota beta. rewrite si_K. reflexivity. Qed.
Lemma h_Pa r h : h_convert si QPressure None (Some "Pa") None r h = (h, Ok r).
Proof. unfold h_convert, mbind, lift, read, ret. change (unit_pair (units_of (e_setup si) QPressure) si None (Some "Pa")) with (@Ok (string*string) ("Pa","Pa")). cbv iota beta. rewrite si_Pa. reflexivity. Qed.
Lemma h_m3 r h : h_convert si QVolume None (Some "m3") (Some (-1)%Z) r h = (h, Ok r).
Proof. unfold h_convert, mbind, lift, read, ret. change (unit_pair (units_of (e_setup si) QVolume) si None (Some "m3")) with (@Ok (string*string) ("m3","m3")). cbv iota beta. rewrite si_m3. reflexivity. Qed.
Lemma h_kg mw r h : h_matter si mw None (Some "kg") None r h = (h, Ok r).
Proof. unfold h_matter, mbind, lift, read, ret. change (cfg_pair si "unit_matter" None (Some "kg")) with (@Ok (string*string) ("kg","kg")). cbv iota beta. rewrite si_kg. reflexivity. Qed.

Section Lim.
  Variable lim : R * R.
  Definition erased (v : arr) : arr := map (fun x => if outside lim x then None else x) v.
  Lemma outside_spec x : outside lim (Some x) = true <-> ~ in_range lim x.
  Proof.
    unfold outside, in_range, flt, num. destruct (Rlt_dec x (fst lim)); destruct (Rlt_dec (snd lim) x); cbn; split; intro; try lra; try reflexivity; try discriminate.
  Qed.
  Lemma limited_erases v x1 : In (Some x1) v -> in_range lim x1 -> limited si lim v = Ok (erased v).
  Proof.
    intros I1 R1. unfold limited. 
    match goal with |- context [forallb ?f v] => assert (F : forallb f v = false) end.
    { apply not_true_is_false. intro H. rewrite forallb_forall in H. specialize (H _ I1). unfold in_range in R1. unfold flt, num in H. cbn in H.
      destruct (Rlt_dec x1 (fst lim)); destruct (Rlt_dec (snd lim) x1); cbn in H; try lra; discriminate. }
    rewrite F. reflexivity.
  Qed.
  Lemma h_lim l v x1 h : nth l h [] = v -> In (Some x1) v -> in_range lim x1 -> (l < List.length h)%nat ->
    h_limited si lim (Whole l) h = (upd l (erased v) h, Ok tt).
  Proof.
    intros V I1 R1 L. unfold h_limited, mbind, read, lift. replace (hget h (Whole l)) with v by (symmetry; exact V). rewrite (limited_erases v x1 I1 R1).
    destruct (existsb (outside lim) v) eqn:X; cbn [write]; [reflexivity|].
    unfold ret. f_equal.
    assert (erased v = v) as ->.
    { unfold erased. rewrite <- (map_id v) at 2. apply map_ext_in. intros a Ha. destruct (outside lim a) eqn:O; [|reflexivity].
      exfalso. assert (existsb (outside lim) v = true) by (apply existsb_exists; eauto). congruence. }
    rewrite <- V. clear - L. revert l L. induction h as [|b h IH]; intros [|l] L; cbn in *; try lia; [reflexivity|]. f_equal. apply IH. lia.
  Qed.
  Lemma erased_gone v x : ~ in_range lim x -> ~ In (Some x) (erased v).
  Proof.
    intros N H. apply in_map_iff in H. destruct H as (t & Et & It). destruct (outside lim t) eqn:O; [discriminate|]. subst t.
    apply outside_spec in N. congruence.
  Qed.
End Lim.

Lemma upd_nth (l : nat) (v : arr) (h : heap) : (l < List.length h)%nat -> nth l (upd l v h) [] = v.
Proof. revert l. induction h as [|b h IH]; intros [|l] L; cbn in *; try lia; [reflexivity|]. apply IH. lia. Qed.
(* computations that only add new arrays *)
Definition adds {A} (m : M A) : Prop := forall h, exists k, fst (m h) = h ++ k.
Lemma adds_ret {A} (x : A) : adds (ret x).
Proof. intro h. exists []. cbn. now rewrite app_nil_r. Qed.
Lemma adds_lift {A} (x : res A) : adds (lift x).
Proof. intro h. exists []. cbn. now rewrite app_nil_r. Qed.
Lemma adds_read r : adds (read r).
Proof. intro h. exists []. cbn. now rewrite app_nil_r. Qed.
Lemma adds_fail {A} e : adds (@fail A e).
Proof. intro h. exists []. cbn. now rewrite app_nil_r. Qed.
Lemma adds_new v : adds (new v).
Proof. intro h. exists [v]. reflexivity. Qed.
Lemma adds_bind {A B} (m : M A) (f : A -> M B) : adds m -> (forall a, adds (f a)) -> adds (mbind m f).
Proof.
  intros Hm Hf h. unfold mbind. destruct (Hm h) as (k & Ek). destruct (m h) as [h1 [a|e]]; cbn in Ek; subst h1.
  - destruct (Hf a (h ++ k)) as (k2 & E2). exists (k ++ k2). now rewrite E2, app_assoc.
  - exists k. reflexivity.
Qed.
Lemma adds_nth {A} (m : M A) h l : adds m -> (l < List.length h)%nat -> nth l (fst (m h)) [] = nth l h [].
Proof. intros Hm L. destruct (Hm h) as (k & ->). apply app_nth1. exact L. Qed.
Create HintDb addsdb.
#[export] Hint Resolve adds_ret adds_lift adds_read adds_fail adds_new adds_bind : addsdb.
Ltac adds := repeat first [apply adds_bind; [|intros] | solve [auto with addsdb] | match goal with |- adds (match ?x with _ => _ end) => destruct x end].

Section Out.
  Variables (D : mpdata) (fuel : nat) (owns : list bool).
  Lemma adds_Td T d : adds (hs_Td D T d).
  Proof. unfold hs_Td, h_broadcast2. adds. Qed.
  Lemma adds_px p x : adds (hs_px D p x).
  Proof. unfold hs_px. adds. Qed.

  Lemma args_T Ts d t1 : In (Some t1) Ts -> in_range (mp_Tlim D) t1 ->
    hp_argparse D si fuel owns [] [("T", HArr 0); ("d", HVal [Some d])] [Ts] =
    hs_Td D (Whole 0) (Whole 1) [erased (mp_Tlim D) Ts; [Some d]].
  Proof.
    intros I1 R1. unfold hp_argparse, mbind at 1, lift at 1. cbn [h_positional Nat.ltb Nat.leb List.length bind].
    unfold mbind at 1, lift at 1. cbn [h_defaults List.length].
    unfold mbind at 1, lift at 1. change (hp_rules [("T", HArr 0); ("d", HVal [Some d])]) with (@Ok unit tt). cbv iota.
    unfold mbind at 1. cbn [h_arrays asarray]. unfold mbind at 1, ret at 1. unfold mbind at 1. unfold mbind at 1. unfold new at 1. cbn [List.length app].
    unfold mbind, ret. cbv iota beta. unfold h_si_args. cbn [dget String.eqb Ascii.eqb Bool.eqb mores].
    unfold mbind, ret. rewrite h_K. cbv iota beta. rewrite (h_lim _ 0 Ts t1) by (auto; cbn; lia). cbv iota beta.
    rewrite h_m3. cbv iota beta. rewrite h_kg. cbv iota beta. unfold h_from_args. cbn [ha_inv ha_T ha_p ha_d ha_x]. reflexivity.
  Qed.
  Lemma args_p ps x p1 : In (Some p1) ps -> in_range (mp_plim D) p1 -> 0 <= x <= 1 ->
    hp_argparse D si fuel owns [] [("p", HArr 0); ("x", HVal [Some x])] [ps] =
    hs_px D (Whole 0) (Whole 1) [erased (mp_plim D) ps; [Some x]].
  Proof.
    intros I1 R1 Hx. unfold hp_argparse, mbind at 1, lift at 1. cbn [h_positional Nat.ltb Nat.leb List.length bind].
    unfold mbind at 1, lift at 1. cbn [h_defaults List.length].
    unfold mbind at 1, lift at 1. change (hp_rules [("p", HArr 0); ("x", HVal [Some x])]) with (@Ok unit tt). cbv iota.
    unfold mbind at 1. cbn [h_arrays asarray]. unfold mbind at 1, ret at 1. unfold mbind at 1. unfold mbind at 1. unfold new at 1. cbn [List.length app].
    unfold mbind, ret. cbv iota beta. unfold h_si_args. cbn [dget String.eqb Ascii.eqb Bool.eqb mores].
    unfold mbind, ret. rewrite h_Pa. cbv iota beta. rewrite (h_lim _ 0 ps p1) by (auto; cbn; lia). cbv iota beta.
    cbn [upd read hget nth existsb]. unfold num. rewrite !flt_false by lra. cbn [orb].
    unfold h_from_args. cbn [ha_inv ha_T ha_p ha_d ha_x]. reflexivity.
  Qed.
  (* a method that makes a new array, after the arguments *)
  Lemma method_after f varg kw h a r :
    hp_argparse D si fuel owns varg kw h = a -> (0 < List.length (fst a))%nat -> r = hp_method D si fuel owns f varg kw h ->
    forall l, (l < List.length (fst a))%nat -> nth l (fst r) [] = nth l (fst a) [].
  Proof.
    intros Ea _ -> l L. unfold hp_method, mbind at 1. rewrite Ea. destruct a as [h1 [st|e]]; [|reflexivity].
    cbn [fst] in *.
    match goal with |- nth l (fst (?m h1)) [] = _ => apply (adds_nth m h1 l); [|exact L] end. adds.
  Qed.
  Lemma T_erased f Ts d t1 : In (Some t1) Ts -> in_range (mp_Tlim D) t1 ->
    nth 0 (fst (hp_method D si fuel owns f [] [("T", HArr 0); ("d", HVal [Some d])] [Ts])) [] = erased (mp_Tlim D) Ts.
  Proof.
    intros I1 R1. destruct (adds_Td (Whole 0) (Whole 1) [erased (mp_Tlim D) Ts; [Some d]]) as (k & Ek).
    rewrite (method_after f _ _ _ _ _ (args_T Ts d t1 I1 R1)) by (rewrite ?Ek; cbn; auto; lia). rewrite Ek. reflexivity.
  Qed.
  Lemma p_erased f ps x p1 : In (Some p1) ps -> in_range (mp_plim D) p1 -> 0 <= x <= 1 ->
    nth 0 (fst (hp_method D si fuel owns f [] [("p", HArr 0); ("x", HVal [Some x])] [ps])) [] = erased (mp_plim D) ps.
  Proof.
    intros I1 R1 Hx. destruct (adds_px (Whole 0) (Whole 1) [erased (mp_plim D) ps; [Some x]]) as (k & Ek).
    rewrite (method_after f _ _ _ _ _ (args_p ps x p1 I1 R1 Hx)) by (rewrite ?Ek; cbn; auto; lia). rewrite Ek. reflexivity.
  Qed.
  Lemma not_kept v w (x : R) h' : In (Some x) v -> nth 0 h' [] = w -> ~ In (Some x) w -> ~ unmodified [v] h'.
  Proof. intros I1 E1 N (_ & U). specialize (U 0%nat ltac:(cbn; lia)). apply N. rewrite <- E1. replace (nth 0 h' []) with v by (symmetry; exact U). exact I1. Qed.
  Definition fresh_methods : list hp_call :=
    map (fun m => m D si fuel owns) [hp_p; hp_e; hp_f; hp_g; hp_h; hp_s; hp_a; hp_cp; hp_cv; hp_gam].
  Lemma fresh_is m : In m fresh_methods -> exists f, m = hp_method D si fuel owns f.
  Proof. intro H. repeat (destruct H as [<-|H]; [eexists; reflexivity|]). destruct H. Qed.
  Lemma T_out_changed m Ts d t1 t2 : In m fresh_methods -> In (Some t1) Ts -> in_range (mp_Tlim D) t1 -> In (Some t2) Ts -> ~ in_range (mp_Tlim D) t2 ->
    let h' := fst (m [] [("T", HArr 0); ("d", HVal [Some d])] [Ts]) in ~ In (Some t2) (nth 0 h' []) /\ ~ unmodified [Ts] h'.
  Proof.
    intros Hm I1 R1 I2 R2 h'. destruct (fresh_is m Hm) as (f & Ef).
    assert (Q : nth 0 h' [] = erased (mp_Tlim D) Ts) by (unfold h'; rewrite Ef; exact (T_erased f Ts d t1 I1 R1)).
    split; [|exact (not_kept _ _ t2 h' I2 Q (erased_gone _ Ts t2 R2))]. rewrite Q. exact (erased_gone _ Ts t2 R2).
  Qed.
  Lemma p_out_changed m ps x p1 p2 : In m fresh_methods -> 0 <= x <= 1 -> In (Some p1) ps -> in_range (mp_plim D) p1 -> In (Some p2) ps -> ~ in_range (mp_plim D) p2 ->
    let h' := fst (m [] [("p", HArr 0); ("x", HVal [Some x])] [ps]) in ~ In (Some p2) (nth 0 h' []) /\ ~ unmodified [ps] h'.
  Proof.
    intros Hm Hx I1 R1 I2 R2 h'. destruct (fresh_is m Hm) as (f & Ef).
    assert (Q : nth 0 h' [] = erased (mp_plim D) ps) by (unfold h'; rewrite Ef; exact (p_erased f ps x p1 I1 R1 Hx)).
    split; [|exact (not_kept _ _ p2 h' I2 Q (erased_gone _ ps p2 R2))]. rewrite Q. exact (erased_gone _ ps p2 R2).
  Qed.
  (* T, in kelvin, given with d: T() returns the array of the caller *)
  Lemma T_alias Ts d t1 : In (Some t1) Ts -> in_range (mp_Tlim D) t1 ->
    exists h' x, hp_T D si fuel owns [] [("T", HArr 0); ("d", HVal [Some d])] [Ts] = (h', Ok (Whole 0, x)).
  Proof.
    intros I1 R1. unfold hp_T, mbind at 1. rewrite (args_T Ts d t1 I1 R1). unfold hs_Td, h_broadcast2, mbind, read, lift, ret. cbn [hget nth].
    assert (B : exists l, broadcast2 (erased (mp_Tlim D) Ts) [Some d] = Ok l /\ List.length l = List.length (erased (mp_Tlim D) Ts)).
    { destruct Ts as [|a [|b Ts]]; [destruct I1|eexists; split; reflexivity|]. eexists. split; [reflexivity|].
      rewrite combine_length, repeat_length. apply Nat.min_id. }
    destruct B as (l & -> & Bl). cbv iota beta. unfold stretch. rewrite <- Bl, Nat.eqb_refl.
    destruct (some_sat (map (from_Td D) l)); unfold new; cbv iota beta; cbn [hs_T hs_x].
    all: unfold h_tscale, mbind, lift, read, ret; change (cfg_pair si "unit_temperature" (Some "K") None) with (@Ok (string*string) ("K","K")).
    all: cbv iota beta; cbn [fst snd]; change (same_scale "K" "K") with true.
    all: match goal with |- context [atscale si ?v ?a ?b] => change (atscale si v a b) with (Ok (map (lift1 (fun x => x)) v)) end; cbv iota beta; eauto.
  Qed.
End Out.

(* T, p and x above the critical point *)
Lemma args_Tpx D fuel owns (Ts ps xs : arr) :
  (forall a, In a Ts -> exists t, a = Some t /\ in_range (mp_Tlim D) t) -> (forall a, In a ps -> exists t, a = Some t /\ in_range (mp_plim D) t) ->
  (forall a, In a xs -> exists q, a = Some q /\ -1 <= q <= 1) -> Ts <> [] -> ps <> [] ->
  hp_argparse D si fuel owns [] [("T", HArr 0); ("p", HArr 1); ("x", HArr 2)] [Ts; ps; xs] =
  hs_Tpx D si fuel owns (Whole 0) (Whole 1) (Whole 2) [Ts; ps; xs].
Proof.
  intros HT Hp Hx NT Np. unfold hp_argparse, mbind at 1, lift at 1. cbn [h_positional Nat.ltb Nat.leb List.length bind].
  unfold mbind at 1, lift at 1. cbn [h_defaults List.length].
  unfold mbind at 1, lift at 1. change (hp_rules [("T", HArr 0); ("p", HArr 1); ("x", HArr 2)]) with (@Ok unit tt). cbv iota.
  cbn [h_arrays asarray]. unfold mbind, ret. cbv iota beta. unfold h_si_args. cbn [dget String.eqb Ascii.eqb Bool.eqb mores].
  unfold mbind, ret. rewrite h_K. cbv iota beta.
  assert (KE : forall lim v, (forall a, In a v -> exists t, a = Some t /\ in_range lim t) -> erased lim v = v).
  { intros lim v H. unfold erased. rewrite <- (map_id v) at 2. apply map_ext_in. intros a Ha. destruct (H a Ha) as (t & -> & R).
    destruct (outside lim (Some t)) eqn:O; [|reflexivity]. apply outside_spec in O. contradiction. }
  destruct Ts as [|t0 Ts]; [contradiction|]. destruct (HT t0 (or_introl eq_refl)) as (t & -> & Rt).
  destruct ps as [|p0 ps]; [contradiction|]. destruct (Hp p0 (or_introl eq_refl)) as (p & -> & Rp).
  rewrite (h_lim _ 0 (Some t :: Ts) t) by (cbn; auto; lia). match goal with |- context [erased ?l ?v] => replace (erased l v) with v by (symmetry; exact (KE _ _ HT)) end. cbv iota beta. cbn [upd]. rewrite h_Pa. cbv iota beta.
  rewrite (h_lim _ 1 (Some p :: ps) p) by (cbn; auto; lia). match goal with |- context [erased ?l ?v] => replace (erased l v) with v by (symmetry; exact (KE _ _ Hp)) end. cbv iota beta. cbn [upd read hget nth].
  assert (X1 : existsb (fun x => flt (num 1) x) xs = false).
  { apply not_true_is_false. intro Q. apply existsb_exists in Q. destruct Q as (a & Ha & Q). destruct (Hx a Ha) as (q & -> & Rq). unfold num in Q. rewrite flt_false in Q by lra. discriminate. }
  assert (X2 : existsb (fun x => flt x (num (-1))) xs = false).
  { apply not_true_is_false. intro Q. apply existsb_exists in Q. destruct Q as (a & Ha & Q). destruct (Hx a Ha) as (q & -> & Rq). unfold num in Q. rewrite flt_false in Q by lra. discriminate. }
  unfold arr in *. rewrite X1, X2. cbn [orb]. unfold h_from_args. cbn [ha_inv ha_T ha_p ha_d ha_x]. reflexivity.
Qed.
Definition hot : heap := [[Some 500; Some 700]; [Some 1000000; Some 1000000]; [Some (1/2); Some (1/2)]].
Definition k_hot : hkwargs := [("T", HArr 0); ("p", HArr 1); ("x", HArr 2)].
Lemma hot_args fuel : exists k st, hp_argparse exL si fuel [] [] k_hot hot =
  ([[Some 500; None]; [Some 1000000; Some 1000000]; [Some (1/2); None]] ++ k, Ok st).
Proof.
  unfold k_hot, hot. rewrite args_Tpx.
  2:{ intros a [<-|[<-|[]]]; eexists; split; [reflexivity|unfold in_range; cbn; lra|reflexivity|unfold in_range; cbn; lra]. }
  2:{ intros a [<-|[<-|[]]]; eexists; split; [reflexivity|unfold in_range; cbn; lra|reflexivity|unfold in_range; cbn; lra]. }
  2:{ intros a [<-|[<-|[]]]; eexists; split; [reflexivity|lra|reflexivity|lra]. }
  2,3: discriminate.
  unfold hs_Tpx, h_broadcast3, mbind, read, lift, ret. cbn [hget nth].
  change (broadcast3 [Some 500; Some 700] [Some 1000000; Some 1000000] [Some (1/2); Some (1/2)]) with
    (@Ok (list (fl * fl * fl)) [(Some 500, Some 1000000, Some (1/2)); (Some 700, Some 1000000, Some (1/2))]).
  cbv iota beta.
  assert (F : exists d1 d2, from_Tpx exL si fuel [(Some 500, Some 1000000, Some (1/2)); (Some 700, Some 1000000, Some (1/2))] =
    Ok [{| s_T := Some 500; s_d1 := d1; s_d2 := d2; s_x := Some (1/2); s_sat := true |}; {| s_T := None; s_d1 := None; s_d2 := None; s_x := None; s_sat := false |}]).
  { unfold from_Tpx. cbn [map]. unfold num. rewrite (flt_false (1/2) 0) by lra.
    match goal with |- context [mp_d ?a ?b ?c ?l] => assert (Q : exists u v, mp_d a b c l = Ok [u; v]) end.
    { unfold mp_d, d_elem. cbn [traverse bind]. destruct (d_limits exL (Some 500) (Some 1000000)) as [a1 a2]. destruct (d_limits exL (Some 700) (Some 1000000)) as [b1 b2]. cbn [traverse bind]. do 2 eexists. reflexivity. }
    destruct Q as (u & v & ->). cbn [bind map2 combine map mp_Tc exL fst snd]. rewrite (flt_false (1/2) 0), (flt_false 600 500), (flt_true 600 700) by lra.
    do 2 eexists. reflexivity. }
  destruct F as (d1 & d2 & ->). cbv iota beta.
  assert (H : too_hot exL [(Some 500, Some 1000000, Some (1/2)); (Some 700, Some 1000000, Some (1/2))] = true).
  { unfold too_hot. cbn [existsb mp_Tc exL]. unfold num. rewrite !(flt_false (1/2) 0), (flt_true 600 700) by (cbn; lra). cbn. now rewrite orb_true_r. }
  rewrite H. do 2 eexists. reflexivity.
Qed.

Lemma hot_changed fuel m : In m (fresh_methods exL fuel []) ->
  let h' := fst (m [] k_hot hot) in nth 0 h' [] = [Some 500; None] /\ nth 2 h' [] = [Some (1/2); None].
Proof.
  intros Hm h'. destruct (fresh_is _ _ _ m Hm) as (f & Ef). destruct (hot_args fuel) as (k & st & Ea).
  unfold h'. rewrite Ef. split.
  - rewrite (method_after _ _ _ _ _ _ _ _ _ Ea) by (cbn; auto; lia). reflexivity.
  - rewrite (method_after _ _ _ _ _ _ _ _ _ Ea) by (cbn; auto; lia). reflexivity.
Qed.

(* p and d of a saturated mixture *)
Definition k_sat : hkwargs := [("p", HArr 0); ("d", HArr 1)].
Definition at_sat (d : R) : heap := [[Some 16500000]; [Some d]].
Definition sat_pt (d : R) : point := {| s_T := Some 500; s_d1 := Some 900; s_d2 := Some 9; s_x := quality_of (Some d) (Some 900) (Some 9); s_sat := true |}.
Lemma sat_args fuel d k : 9 <= d <= 900 ->
  hp_argparse exL si fuel [] [] k_sat (at_sat d ++ k) =
  ((at_sat 900 ++ k ++ [[Some 500]]) ++ [[quality_of (Some d) (Some 900) (Some 9)]],
   Ok {| hs_pts := [sat_pt d]; hs_T := Whole (2 + List.length k); hs_d1 := Whole 1; hs_x := Whole (3 + List.length k) |}).
Proof.
  intro Hd. unfold k_sat, at_sat, hp_argparse, mbind at 1, lift at 1. cbn [app]. cbn [h_positional Nat.ltb Nat.leb List.length bind].
  unfold mbind at 1, lift at 1. cbn [h_defaults List.length].
  unfold mbind at 1, lift at 1. change (hp_rules [("p", HArr 0); ("d", HArr 1)]) with (@Ok unit tt). cbv iota.
  cbn [h_arrays asarray]. unfold mbind, ret. cbv iota beta. unfold h_si_args. cbn [dget String.eqb Ascii.eqb Bool.eqb mores].
  unfold mbind, ret. rewrite h_Pa. cbv iota beta.
  rewrite (h_lim _ 0 [Some 16500000] 16500000) by (cbn; auto; try lia; unfold in_range; cbn; lra). cbv iota beta.
  assert (erased (mp_plim exL) [Some 16500000] = [Some 16500000]) as ->.
  { unfold erased. cbn [map]. destruct (outside (mp_plim exL) (Some 16500000)) eqn:O; [|reflexivity]. apply outside_spec in O. unfold in_range in O. cbn in O. lra. }
  cbn [upd]. rewrite h_m3. cbv iota beta. rewrite h_kg. cbv iota beta. unfold h_from_args. cbn [ha_inv ha_T ha_p ha_d ha_x].
  unfold hs_pd, h_broadcast2, mbind, read, lift, ret. cbn [hget nth].
  change (broadcast2 [Some d] [Some 16500000]) with (@Ok (list (fl * fl)) [(Some d, Some 16500000)]). cbv iota beta.
  destruct (sat_run 16500000 d 500 ltac:(lra) ltac:(destruct (Rlt_dec 16500000 4015000); lra) ltac:(lra) Hd) as [R1 _].
  match goal with |- context [from_pd exL si ?l] => replace (from_pd exL si l) with (from_pd exL exE l) by reflexivity end.
  rewrite R1. cbv iota beta. fold (sat_pt d). change (some_sat [sat_pt d]) with true. cbv iota.
  unfold new, overwrite, owned. cbn -[sat_pt Nat.add]. rewrite app_length. cbn [List.length].
  replace (S (S (List.length k + 1))) with (3 + List.length k)%nat by lia. reflexivity.
Qed.
Lemma sat_T fuel d k : 9 <= d <= 900 -> exists h' rT rx, hp_T exL si fuel [] [] k_sat (at_sat d ++ k) = (h', Ok (rT, rx)) /\
  (exists k', h' = at_sat 900 ++ k') /\ hget h' rT = [Some 500] /\ hget h' rx = [Some ((1/d - 1/900) / (1/9 - 1/900))].
Proof.
  intro Hd. unfold hp_T, mbind at 1. rewrite (sat_args fuel d k Hd). cbn [hs_T hs_x].
  unfold h_tscale, mbind, lift, read, ret. change (cfg_pair si "unit_temperature" (Some "K") None) with (@Ok (string*string) ("K","K")).
  cbv iota beta. cbn [fst snd]. change (same_scale "K" "K") with true.
  match goal with |- context [atscale si ?v ?a ?b] => change (atscale si v a b) with (Ok (map (lift1 (fun x => x)) v)) end. cbv iota beta.
  do 3 eexists. split; [reflexivity|]. split; [rewrite <- app_assoc; eauto|].
  cbn [hget]. split.
  - rewrite app_nth1 by (rewrite !app_length; cbn; lia). rewrite app_assoc. replace (2 + List.length k)%nat with (List.length (at_sat 900 ++ k)) by (rewrite app_length; reflexivity).
    now rewrite nth_middle.
  - replace (3 + List.length k)%nat with (List.length (at_sat 900 ++ k ++ [[Some 500]])) by (rewrite !app_length; cbn; lia). rewrite nth_middle.
    f_equal. unfold quality_of, num. rewrite !fdiv_ok by lra. unfold fsub. cbn [lift2]. rewrite fdiv_ok by lra. f_equal; field; lra.
Qed.
(* the caller calls T() twice with the same two arrays *)
Lemma sat_twice fuel d : 9 <= d < 900 -> exists h1 T1 x1 h2 T2 x2 q1,
  hp_T exL si fuel [] [] k_sat [[Some 16500000]; [Some d]] = (h1, Ok (T1, x1)) /\ hp_T exL si fuel [] [] k_sat h1 = (h2, Ok (T2, x2)) /\
  nth 1 h1 [] = [Some 900] /\ hget h1 x1 = [Some q1] /\ 0 < q1 <= 1 /\ 1 / d = (1 - q1) / 900 + q1 / 9 /\ hget h2 x2 = [Some 0].
Proof.
  intro Hd. destruct (sat_T fuel d [] ltac:(lra)) as (h1 & T1 & x1 & E1 & (k' & K1) & _ & X1). rewrite app_nil_r in E1.
  destruct (sat_T fuel 900 k' ltac:(lra)) as (h2 & T2 & x2 & E2 & _ & _ & X2). rewrite <- K1 in E2.
  exists h1, T1, x1, h2, T2, x2, ((1/d - 1/900) / (1/9 - 1/900)). split; [exact E1|]. split; [exact E2|].
  split; [rewrite K1; reflexivity|]. split; [exact X1|].
  assert (A : 1/900 < 1/d <= 1/9).
  { unfold Rdiv. rewrite !Rmult_1_l. split; [apply Rinv_lt_contravar; nra|apply Rinv_le_contravar; lra]. }
  split. { split; [apply Rdiv_lt_0_compat; lra|]. apply (Rmult_le_reg_r (1/9 - 1/900)); [lra|]. unfold Rdiv at 1. rewrite Rmult_assoc, Rinv_l by lra. lra. }
  split; [field; lra|]. rewrite X2. do 2 f_equal. lra.
Qed.

(* no array is at risk: temperatures in range and densities in kmol/m3 *)
Definition safe : heap := [[Some 500; Some 400]; [Some 10; Some 60]].
Definition k_safe : hkwargs := [("T", HArr 0); ("d", HArr 1)].
Lemma inst_safe_mp fuel owns : allocated safe [] k_safe /\ (forall l, ~ at_risk exP exE fuel owns safe [] k_safe l) /\
  one_name exP exE fuel owns safe [] k_safe /\ passed [] k_safe "T" 0 /\ passed [] k_safe "d" 1.
Proof.
  assert (N : forall l, ~ at_risk exP exE fuel owns safe [] k_safe l).
  { intros l [H|[H|[H|H]]].
    - destruct H as (_ & P & t & Ht & Rt). destruct P as [P|[(_ & P)|(P & _)]]; cbn in P; try discriminate. injection P as <-.
      cbn in Ht. apply Rt. unfold in_range. cbn. destruct Ht as [Q|[Q|[]]]; injection Q as <-; lra.
    - destruct H as (U & _). discriminate.
    - destruct H as (_ & _ & T & p & x & ts & i & t & q & _ & P & _). destruct P as [P|[(P & _)|(_ & P)]]; cbn in P; discriminate.
    - destruct H as (_ & _ & U & _). discriminate. }
  split. { intros l [[]|[Q|[Q|[]]]]; injection Q as <-; cbn; lia. }
  split; [exact N|]. split; [intros k1 k2 l R; destruct (N l R)|]. split; left; reflexivity.
Qed.
(* arrays at risk: the two temperatures of hot, and of sat *)
Lemma inst_risk_mp fuel : allocated hot [] k_hot /\ one_name exL si fuel [] hot [] k_hot /\
  at_risk exL si fuel [] hot [] k_hot 0 /\ at_risk exL si fuel [] hot [] k_hot 2 /\ ~ at_risk exL si fuel [] hot [] k_hot 1.
Proof.
  assert (ND : forall k1 k2 l, passed [] k_hot k1 l -> passed [] k_hot k2 l -> k1 = k2).
  { assert (W : forall k l, passed [] k_hot k l -> (k, l) = ("T", 0%nat) \/ (k, l) = ("p", 1%nat) \/ (k, l) = ("x", 2%nat)).
    { intros k l [P|[(_ & P)|(_ & P)]]; try discriminate. cbn [dget k_hot] in P.
      destruct (String.eqb_spec k "T"); [subst; injection P as <-; auto|]. destruct (String.eqb_spec k "p"); [subst; injection P as <-; auto|].
      destruct (String.eqb_spec k "x"); [subst; injection P as <-; auto|discriminate]. }
    intros k1 k2 l A B. apply W in A. apply W in B. intuition congruence. }
  assert (Q : forall l, (l = 0 \/ l = 2)%nat -> quality_above_critical exL si [] hot [] k_hot l).
  { intros l Hl. split; [destruct Hl; subst l; reflexivity|]. split. { destruct Hl; subst l; [left; split; [left; reflexivity|left; reflexivity]|right; left; reflexivity]. }
    exists (HArr 0), (HArr 1), (HArr 2), [Some 500; Some 700], 1%nat, 700, (Some (1/2)).
    split; [left; reflexivity|]. split; [left; reflexivity|]. split; [left; reflexivity|]. split.
    { cbn [given hot nth]. rewrite si_K. cbn [bind]. rewrite (limited_erases _ _ 500) by (cbn; auto; unfold in_range; cbn; lra).
      unfold erased. cbn [map]. destruct (outside _ (Some 500)) eqn:O1; [apply outside_spec in O1; unfold in_range in O1; cbn in O1; lra|].
      destruct (outside _ (Some 700)) eqn:O2; [apply outside_spec in O2; unfold in_range in O2; cbn in O2; lra|]. reflexivity. }
    split; [reflexivity|]. split; [cbn; lra|]. split; [reflexivity|]. intros (y & Y & L). injection Y as <-. lra. }
  split. { intros l [[]|[P|[P|[P|[]]]]]; injection P as <-; cbn; lia. }
  split; [intros k1 k2 l _; apply ND|]. split; [right; right; left; apply Q; auto|]. split; [right; right; left; apply Q; auto|].
  intros [H|[H|[H|H]]].
  - destruct H as (_ & P & _). pose proof (ND "T" "p" 1%nat P ltac:(left; reflexivity)). discriminate.
  - destruct H as (_ & _ & t & Ht & Rt). apply Rt. unfold in_range. cbn in *. destruct Ht as [E|[E|[]]]; injection E as <-; lra.
  - destruct H as (_ & [(_ & P)|P] & _).
    + pose proof (ND "T" "p" 1%nat P ltac:(left; reflexivity)). discriminate.
    + pose proof (ND "x" "p" 1%nat P ltac:(left; reflexivity)). discriminate.
  - destruct H as (_ & _ & _ & P & _). pose proof (ND "d" "p" 1%nat P ltac:(left; reflexivity)). discriminate.
Qed.

(* as the theorems say them *)
Definition fresh_ms := [hp_p; hp_e; hp_f; hp_g; hp_h; hp_s; hp_a; hp_cp; hp_cv; hp_gam].
Lemma in_fresh D fuel owns m : In m fresh_ms -> In (m D si fuel owns) (fresh_methods D fuel owns).
Proof. intro H. unfold fresh_methods. exact (in_map (fun m => m D si fuel owns) fresh_ms m H). Qed.
Lemma T_changed D fuel owns m Ts d t1 t2 : In m fresh_ms ->
  In (Some t1) Ts -> in_range (mp_Tlim D) t1 -> In (Some t2) Ts -> ~ in_range (mp_Tlim D) t2 ->
  let h' := fst (m D si fuel owns [] [("T", HArr 0); ("d", HVal [Some d])] [Ts]) in ~ In (Some t2) (nth 0 h' []) /\ ~ unmodified [Ts] h'.
Proof. intros Hm I1 R1 I2 R2. exact (T_out_changed D fuel owns _ Ts d t1 t2 (in_fresh D fuel owns m Hm) I1 R1 I2 R2). Qed.
Lemma p_changed D fuel owns m ps x p1 p2 : In m fresh_ms -> 0 <= x <= 1 ->
  In (Some p1) ps -> in_range (mp_plim D) p1 -> In (Some p2) ps -> ~ in_range (mp_plim D) p2 ->
  let h' := fst (m D si fuel owns [] [("p", HArr 0); ("x", HVal [Some x])] [ps]) in ~ In (Some p2) (nth 0 h' []) /\ ~ unmodified [ps] h'.
Proof. intros Hm Hx I1 R1 I2 R2. exact (p_out_changed D fuel owns _ ps x p1 p2 (in_fresh D fuel owns m Hm) Hx I1 R1 I2 R2). Qed.
Lemma quality_changed fuel m : In m fresh_ms ->
  let h' := fst (m exL si fuel [] [] k_hot hot) in nth 0 h' [] = [Some 500; None] /\ nth 2 h' [] = [Some (1/2); None].
Proof. intro Hm. exact (hot_changed fuel _ (in_fresh exL fuel [] m Hm)). Qed.
Lemma kept_several D E fuel owns h varg kw : allocated h varg kw -> one_name D E fuel owns h varg kw ->
  unmodified_except (at_risk D E fuel owns h varg kw) h (fst (hp_x D E fuel owns varg kw h)) /\
  unmodified_except (at_risk D E fuel owns h varg kw) h (fst (hp_hsd D E fuel owns varg kw h)) /\
  unmodified_except (at_risk D E fuel owns h varg kw) h (fst (hp_state D E fuel owns varg kw h)).
Proof. intros A O. split; [now apply kept_x|]. split; [now apply kept_hsd|now apply kept_state]. Qed.
Lemma values_several D E fuel owns h varg kw : allocated h varg kw -> one_name D E fuel owns h varg kw ->
  agrees1 (hp_x D E fuel owns varg kw h) (mm_x D E fuel (positionals h varg) (keywords h kw)) /\
  agrees4 (hp_hsd D E fuel owns varg kw h) (mm_hsd D E fuel (positionals h varg) (keywords h kw)) /\
  agrees_state (hp_state D E fuel owns varg kw h) (mm_state D E fuel (positionals h varg) (keywords h kw)).
Proof. intros A O. split; [now apply values_x|]. split; [now apply values_hsd|now apply values_state]. Qed.
Lemma inst_T_out : In (Some 300) [Some 300; Some 100] /\ in_range (mp_Tlim exP) 300 /\
  In (Some 100) [Some 300; Some 100] /\ ~ in_range (mp_Tlim exP) 100.
Proof. unfold in_range. cbn. repeat split; auto; lra. Qed.
Lemma inst_p_out : In (Some 50000) [Some 50000; Some 200000000] /\ in_range (mp_plim exP) 50000 /\
  In (Some 200000000) [Some 50000; Some 200000000] /\ ~ in_range (mp_plim exP) 200000000.
Proof. unfold in_range. cbn. repeat split; auto; lra. Qed.

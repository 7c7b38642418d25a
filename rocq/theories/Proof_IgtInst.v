(* Concrete mixtures, sessions and counterexamples for the dynamic mixture theorems. *)
From Coq Require Import Reals ZArith List String Ascii Bool Lia Lra.
From Verif Require Import Base Model_Num Model_Units Model_Igas Model_Igmix Model_Igtools Model_Igtprop
  Spec_Units Spec_Igas Spec_Igmix Spec_Igtools Spec_Igtprop
  Proof_Units Proof_Igas Proof_IgasUnits Proof_IgasState Proof_IgasCalls Proof_IgasEx Proof_IgmixProp Proof_IgmixInst
  Proof_Igtshape Proof_Igtools Proof_IgtAdd Proof_IgtMore Proof_IgtItems Proof_IgtNew Proof_IgtStr Proof_IgtProp.
Import ListNotations.
Local Open Scope R_scope.
Local Open Scope string_scope.
Local Open Scope list_scope.

Definition g2 := ig_gas None D2.
Definition PAB : pool := [("ig.A", g1); ("ig.B", g2); ("ig.C", g1)].
(* a session in kelvin, pascal, cubic metres, kilojoules, kilograms, a molar unit and a unit of matter *)
Definition session2 (molar matter : string) : env :=
  {| e_setup := default_setup;
     e_cfg := [("unit_temperature", "K"); ("unit_pressure", "Pa"); ("unit_volume", "m3"); ("unit_energy", "kJ");
               ("unit_mass", "kg"); ("unit_molar", molar); ("unit_matter", matter)];
     e_defT := 300; e_defTu := "K"; e_defp := 100000; e_defpu := "Pa"; e_oob := None |}.

(* constituents with constant rows of a given shape *)
Definition uniform (names : list string) (sh : list nat) (r : list R) : mix :=
  {| x_c := names; x_q := {| nsh := List.length names :: sh; nel := fun i => Some (nth (hd 0%nat i) r 0) |} |}.
Definition m2 := uniform ["ig.A"; "ig.B"] [1%nat] [1; 3].
Definition m3 := uniform ["ig.A"; "ig.B"; "ig.C"] [1%nat] [1; 2; 3].
Definition ones32 := uniform ["ig.A"] [3%nat; 2%nat] [0].

Lemma uniform_ok names sh r : sh <> [] -> NoDup names -> mixture_ok (uniform names sh r).
Proof. intros H1 H2. unfold mixture_ok, shape, uniform. cbn. auto. Qed.
Lemma nodup_1 (x : string) : NoDup [x].
Proof. constructor; [intros []|constructor]. Qed.
Lemma nodup_AB : NoDup ["ig.A"; "ig.B"]. Proof. repeat constructor; cbn; intuition discriminate. Qed.
Lemma nodup_ABC : NoDup ["ig.A"; "ig.B"; "ig.C"]. Proof. repeat constructor; cbn; intuition discriminate. Qed.
Lemma ok_m2 : mixture_ok m2. Proof. apply uniform_ok; [discriminate|apply nodup_AB]. Qed.
Lemma ok_m3 : mixture_ok m3. Proof. apply uniform_ok; [discriminate|apply nodup_ABC]. Qed.
Lemma ok_ones32 : mixture_ok ones32. Proof. apply uniform_ok; [discriminate|apply nodup_1]. Qed.

Definition n2 (s : string) (i : list nat) : R :=
  if String.eqb s "ig.A" then 1 else if String.eqb s "ig.B" then 3 else 0.
Lemma amounts_m2 : amounts_known m2 n2.
Proof.
  intros s i Hi. unfold amount, n2. cbn [m2 uniform x_c x_q amount_in].
  destruct (String.eqb s "ig.A"); [reflexivity|]. destruct (String.eqb s "ig.B"); reflexivity.
Qed.
Lemma mw_AB s : In s (x_c m2) -> 0 < mw_of PAB s.
Proof. intros [<-|[<-|[]]]; cbn; lra. Qed.

(* ---- C42 ---- *)
Lemma broadcast_longer : broadcast_shape [3%nat] [2%nat; 3%nat] = Err PMParamError /\ numpy_broadcast [3%nat] [2%nat; 3%nat] [2%nat; 3%nat].
Proof.
  split; [reflexivity|]. apply np_shape_spec. reflexivity.
Qed.
Lemma broadcast_wrong : broadcast_shape [2%nat] [2%nat; 3%nat] = Ok [2%nat; 3%nat] /\ ~ exists u, numpy_broadcast [2%nat] [2%nat; 3%nat] u.
Proof.
  split; [reflexivity|]. intros [u Hu]. apply np_shape_spec in Hu. discriminate.
Qed.
Lemma broadcast_scalars : broadcast_shape [] [] = Ok [0%nat] /\ numpy_broadcast [] [] [].
Proof. split; [reflexivity|]. apply np_shape_spec. reflexivity. Qed.

(* ---- C39 ---- *)
(* adding nothing, with more dimensions, moves amounts between substances *)
Lemma dims_misplaced : mixture_ok m3 /\ mixture_ok ones32 /\
  (forall s i, amount ones32 s i = Some 0) /\ numpy_broadcast (shape m3) (shape ones32) [3%nat; 2%nat] /\
  exists c, add m3 ones32 = Ok c /\ shape c = [3%nat; 2%nat] /\
    amount m3 "ig.B" [0%nat] = Some 2 /\ amount c "ig.B" [0%nat; 0%nat] = Some 1.
Proof.
  split; [apply ok_m3|]. split; [apply ok_ones32|].
  split. { intros s i. unfold amount. cbn. destruct (String.eqb s "ig.A"); reflexivity. }
  split. { apply np_shape_spec. reflexivity. }
  eexists. split; [reflexivity|]. split; [reflexivity|]. split; [reflexivity|]. reflexivity.
Qed.
Lemma scaled_misplaced : exists b c, nsh b = [3%nat; 2%nat] /\ mul m3 b = Ok c /\
  numpy_broadcast (nsh b) (shape m3) [3%nat; 2%nat] /\ shape c = [2%nat] /\
  (forall j, nel b [0%nat; j] = Some 1) /\ amount c "ig.B" [0%nat] = Some (2 * 2).
Proof.
  exists {| nsh := [3%nat; 2%nat]; nel := fun i => Some (match hd 0%nat i with 0%nat => 1 | _ => 2 end) |}.
  eexists. split; [reflexivity|]. split; [reflexivity|]. split; [apply np_shape_spec; reflexivity|].
  split; [reflexivity|]. split; [reflexivity|]. reflexivity.
Qed.
(* one kilomole of A weighs 20 kg; with moles configured mass() says 0.02 *)
Lemma mass_wrong : exists a, mass PAB (session2 "mol" "kmol") (uniform ["ig.A"] [1%nat] [1]) = Ok a /\
  nel a [0%nat] = Some (2/100) /\ mw_of PAB "ig.A" = 20.
Proof.
  assert (O : mixture_ok (uniform ["ig.A"] [1%nat] [1])) by (apply uniform_ok; [discriminate|apply nodup_1]).
  destruct (mass_value (session2 "mol" "kmol") "kg" "mol" 1 (1/1000)) with (P := PAB) (m := uniform ["ig.A"] [1%nat] [1])
    (n := fun (s : string) (_ : list nat) => if String.eqb s "ig.A" then 1 else 0) as (a & A1 & A2 & A3);
    try reflexivity; try assumption.
  - exact default_positive.
  - intros s i Hi. unfold amount. cbn. destruct (String.eqb s "ig.A"); reflexivity.
  - intros s [<-|[]]. cbn. lra.
  - exists a. split; [exact A1|]. destruct (A3 [0%nat]) as (v & V1 & V2). { repeat constructor. }
    split; [|cbn; lra]. rewrite V1. f_equal. cbn in V2. lra.
Qed.

(* ---- C40 ---- *)
Lemma Tlim_union : igt_Tlim PAB (session2 "kmol" "kmol") m2 = Ok (Some 200, Some 1200) /\
  m_Tlim (gas_of PAB "ig.A") (session2 "kmol" "kmol") = Ok (200, 1000) /\
  m_Tlim (gas_of PAB "ig.B") (session2 "kmol" "kmol") = Ok (300, 1200) /\
  g_cp (gas_of PAB "ig.A") (Some 1100) = None.
Proof.
  assert (A : m_Tlim (gas_of PAB "ig.A") (session2 "kmol" "kmol") = Ok (200, 1000)) by reflexivity.
  assert (B : m_Tlim (gas_of PAB "ig.B") (session2 "kmol" "kmol") = Ok (300, 1200)) by reflexivity.
  split; [|split; [exact A|split; [exact B|]]].
  - unfold igt_Tlim, m2, uniform. cbn [x_c tlim_loop]. rewrite A. cbn [bind fst snd low_step high_step].
    rewrite B. cbn [bind fst snd low_step high_step]. destruct (Rlt_dec 300 200); [lra|]. destruct (Rlt_dec 1000 1200); [|lra]. reflexivity.
  - cbn. destruct (Rle_dec 1100 1000); [lra|]. now rewrite andb_false_r.
Qed.

(* ---- C41 ---- *)
Ltac texts := cbv -[Rmult Rplus Rdiv pow INR IZR Ropp].
Lemma twice_last : exists v, parse_mixstr "H2 + 2 H2" = Ok [("H2", v)] /\ v = 2.
Proof. eexists. split; [texts; reflexivity|]. cbn. lra. Qed.
Lemma exponent_misread : exists v, parse_mixstr "1e3 H2" = Ok [("e3 H2", v)] /\ v = 1.
Proof. eexists. split; [texts; reflexivity|]. cbn. lra. Qed.
Lemma bare_number : exists v, parse_mixstr "12" = Ok [("2", v)] /\ v = 1.
Proof. eexists. split; [texts; reflexivity|]. cbn. lra. Qed.
Lemma trailing_plus : parse_mixstr "H2+" = Ok [("H2", 1); ("", 1)].
Proof. texts. reflexivity. Qed.
Lemma empty_text : parse_mixstr "" = Err EUnboundLocal.
Proof. texts. reflexivity. Qed.
(* " 2.5 H2+O2 " *)
Definition item1 : item := {| it_coef := list_ascii_of_string "2.5"; it_name := list_ascii_of_string "H2";
  it_l := [" "%char]; it_m := [" "%char]; it_r := [] |}.
Definition item2 : item := {| it_coef := []; it_name := list_ascii_of_string "O2";
  it_l := []; it_m := []; it_r := [" "%char] |}.
Lemma blank_1 : blank [" "%char]. Proof. intros c [<-|[]]; reflexivity. Qed.
Lemma blank_0 : blank []. Proof. intros c []. Qed.
Lemma items_good : Forall2 (fun t v => good_item t /\ item_value t v) [item1; item2] [2 + 5/10; 1] /\
  NoDup (map it_name [item1; item2]) /\
  string_of_list_ascii (join_plus (map item_text [item1; item2])) = " 2.5 H2+O2 ".
Proof.
  split; [|split; [|reflexivity]].
  - constructor; [|constructor; [|constructor]].
    + split. { split; [|split; [apply blank_1|split; [apply blank_1|apply blank_0]]].
        split; [reflexivity|]. split; [cbn; intuition discriminate|reflexivity]. }
      apply iv_coef. cbn [item1 it_coef].
      replace (2 + 5/10) with (digits_value ["2"%char] + digits_value ["5"%char] / 10 ^ List.length ["5"%char]).
      2:{ cbn. change (Pos.to_nat 50 - 48)%nat with 2%nat. change (Pos.to_nat 53 - 48)%nat with 5%nat. cbn. field. }
      apply (dec_frac ["2"%char] ["5"%char]).
      * discriminate.
      * intros c [<-|[]]; reflexivity.
      * intros c [<-|[]]; reflexivity.
    + split. { split; [|split; [apply blank_0|split; [apply blank_0|apply blank_1]]].
        split; [reflexivity|]. split; [cbn; intuition discriminate|reflexivity]. }
      now apply iv_one.
  - cbn. repeat constructor; cbn; intuition discriminate.
Qed.

(* ---- C65, C66 ---- *)
Lemma indexed_assignment m s i v : setitem_at m s i v <> Ok tt.
Proof.
  unfold setitem_at. destruct (sindex m s); [|discriminate].
  destruct (broadcast_shape (nsh (atleast_1d v)) (shape m)); cbn; discriminate.
Qed.
(* m[:] = m with moles configured divides every amount by a thousand *)
Lemma self_slice : exists m', setslice PAB (session2 "kmol" "mol") m2 m2 = (m', Ok tt) /\
  amount m2 "ig.B" [0%nat] = Some 3 /\ amount m' "ig.B" [0%nat] = Some (3/1000).
Proof.
  unfold setslice. change (x_c m2) with ["ig.A"; "ig.B"]. cbn [set_all].
  assert (R : forall m s, In (full_sid s) (x_c m) -> mixture_ok m -> shape m = [1%nat] -> 0 < mw_of PAB (full_sid s) ->
    forall q, nsh q = [1%nat] -> exists m', setitem PAB (session2 "kmol" "mol") m s q = (m', Ok tt) /\ mixture_ok m' /\ x_c m' = x_c m /\
    shape m' = [1%nat] /\ forall t i, index_in [1%nat] i -> amount m' t i =
      if String.eqb t (full_sid s) then fmul (Some (1/1000)) (at_index q i) else amount m t (project (shape m) i)).
  { intros m s H1 H2 H3 H4 q Hq. apply (setitem_value PAB (session2 "kmol" "mol") "kg" "kmol" 1 1) with (uM := "mol"); auto; try reflexivity.
    - exact default_positive.
    - now left.
    - right. rewrite Hq, H3. split; [reflexivity|]. apply np_shape_spec. reflexivity. }
  destruct (R m2 "ig.A") with (q := row (x_q m2) 0) as (a & A1 & A2 & A3 & A4 & A5).
  { now left. } { apply ok_m2. } { reflexivity. } { cbn. lra. } { reflexivity. }
  change (x_c m2) with ["ig.A"; "ig.B"] in A3. rewrite A1.
  destruct (R a "ig.B") with (q := row (x_q m2) 1) as (b & B1 & B2 & B3 & B4 & B5).
  { rewrite A3. right. now left. } { exact A2. } { exact A4. } { cbn. lra. } { reflexivity. }
  rewrite B1.
  exists b. split; [reflexivity|]. split; [reflexivity|]. rewrite B5 by (repeat constructor).
  cbn. f_equal. lra.
Qed.
Definition a2 := uniform ["ig.A"] [2%nat] [1].
Definition b3 := uniform ["ig.B"] [3%nat] [1].
Lemma failed_sum : exists a', iadd a2 b3 = (a', Err PMParamError) /\ mixture_ok a2 /\ mixture_ok b3 /\
  x_c a' = ["ig.A"; "ig.B"] /\ nsh (x_q a') = [1%nat; 2%nat] /\ ~ mixture_ok a'.
Proof.
  eexists. split; [reflexivity|]. split; [apply uniform_ok; [discriminate|apply nodup_1]|].
  split; [apply uniform_ok; [discriminate|apply nodup_1]|]. split; [reflexivity|]. split; [reflexivity|].
  intros (H & _). cbn in H. discriminate.
Qed.
Lemma failed_assignment : let m := uniform ["ig.A"] [1%nat; 3%nat] [1] in
  exists m', setitem PAB (session2 "kmol" "kmol") m "ig.A" {| nsh := [2%nat]; nel := fun _ => Some 5 |} = (m', Err EValueError) /\
    mixture_ok m /\ shape m = [1%nat; 3%nat] /\ shape m' = [2%nat; 3%nat].
Proof.
  cbv zeta.
  exists {| x_c := ["ig.A"]; x_q := {| nsh := [1; 2; 3]%nat;
     nel := fun i => nel (x_q (uniform ["ig.A"] [1%nat; 3%nat] [1])) (bidx [1; 1; 3]%nat i) |} |}.
  split; [|split; [apply uniform_ok; [discriminate|apply nodup_1]|split; reflexivity]].
  unfold setitem. change (sindex (uniform ["ig.A"] [1%nat; 3%nat] [1]) "ig.A") with (Some 0%nat). cbv iota beta zeta.
  change (broadcast_shape (nsh (atleast_1d {| nsh := [2%nat]; nel := fun _ => Some 5 |})) (shape (uniform ["ig.A"] [1%nat; 3%nat] [1])))
    with (Ok [2%nat; 3%nat]). cbv iota beta zeta.
  change (shape_eqb [2%nat; 3%nat] (shape (uniform ["ig.A"] [1%nat; 3%nat] [1]))) with false. cbv iota beta zeta.
  rewrite (nd_matter_value (session2 "kmol" "kmol") "kg" "kmol" 1 1) with (uf := "kmol") (ut := "kmol") (kf := 1) (kt := 1);
    try reflexivity; [exact default_positive|cbn; lra].
Qed.

(* ---- C68 ---- *)
Lemma usable_m2 : usable_at PAB (session2 "kmol" "kmol") m2 n2 500.
Proof.
  split; [apply ok_m2|]. split; [discriminate|]. split; [apply amounts_m2|].
  intros s [<-|[<-|[]]].
  - exists g1. split; [reflexivity|]. split; [|cbn; lra]. split; [reflexivity|]. left. exists D1. split; [exact good_A|now left].
  - exists g2. split; [reflexivity|]. split; [|cbn; lra]. split; [reflexivity|]. left. exists D2. split; [exact good_B|now left].
Qed.
Lemma units_m2 s : In s (x_c m2) -> exists k, units_known (session2 "kmol" "kmol") (mw_of PAB s) "K" (9/5) 1 1 1000 k.
Proof.
  intros Hs. pose proof (mw_AB s Hs). exists 1. constructor; cbn; try reflexivity; try lra; eauto using default_positive.
  all: try (eexists; split; reflexivity). all: auto.
Qed.
Definition SK := session2 "kmol" "kmol".
Lemma to_K x : temperature_scale (e_cfg SK) x None (Some "K") = Ok x.
Proof.
  destruct (units_m2 "ig.A") as [k U]; [now left|]. rewrite (tscale_to SK _ _ _ _ _ _ _ U). reflexivity.
Qed.
Lemma lims : limits PAB SK m2 = Ok (200, 1200).
Proof. unfold limits. change SK with (session2 "kmol" "kmol") at 1. rewrite (proj1 Tlim_union). cbn [bind]. rewrite !to_K. reflexivity. Qed.
Definition two (x y : R) : nd := {| nsh := [2%nat]; nel := fun i => Some (match hd 0%nat i with 0%nat => x | _ => y end) |}.
Lemma args_two x y : exists T p,
  nargparse PAB SK m2 [] [("T", two x y); ("p", scalar 100000)] = (do T' <- nbounds SK 200 1200 T true; Ok (T', Some p, None)) /\
  nsh T = [2%nat] /\ nsh p = [2%nat] /\ nel T [0%nat] = Some x /\ nel T [1%nat] = Some y.
Proof.
  unfold nargparse. rewrite lims. cbn [bind npositional ndefaults List.length dmem dget String.eqb Ascii.eqb Bool.eqb Nat.ltb Nat.leb fst snd].
  change (nrules [("T", two x y); ("p", scalar 100000)]) with (Ok tt). cbn [bind].
  unfold nsolve. cbn [dget String.eqb Ascii.eqb Bool.eqb ores].
  assert (TT : exists T, ntscale SK (atleast_1d (two x y)) None (Some "K") = Ok T /\ nsh T = [2%nat] /\ nel T [0%nat] = Some x /\ nel T [1%nat] = Some y).
  { unfold ntscale. rewrite to_K. cbn [bind]. eexists; split; [reflexivity|]. split; [reflexivity|]. cbn [np_map nel atleast_1d two nsh hd].
    rewrite !to_K. auto. }
  assert (PP : exists T, nconvert SK QPressure (atleast_1d (scalar 100000)) None (Some "Pa") None = Ok T /\ nsh T = [1%nat]).
  { destruct (units_m2 "ig.A") as [k U]; [now left|]. unfold nconvert.
    rewrite (to_si SK _ _ _ _ _ _ _ U QPressure 1 "Pa" 1 None) by (cbn; auto). cbn [bind]. eexists; split; reflexivity. }
  destruct TT as (T & -> & T1 & T2 & T3). destruct PP as (q & -> & Q1). cbn [bind].
  unfold pair_up. change (shape m2) with [1%nat]. rewrite T1, Q1. cbn [broadcast_shape pad_right List.length app repeat dims_loop Nat.eqb orb Nat.sub bind].
  unfold broadcast_to. rewrite T1, Q1. cbn [fits List.length Nat.leb Nat.sub skipn combine forallb dim_fits fst snd Nat.eqb orb andb bind].
  do 2 eexists. split; [reflexivity|]. cbn [nsh nel bidx List.length Nat.sub skipn map2 Nat.eqb combine map fst snd]. auto.
Qed.
Lemma bounds_two T x y : nsh T = [2%nat] -> nel T [0%nat] = Some x -> nel T [1%nat] = Some y -> 200 <= x <= 1200 ->
  nbounds SK 200 1200 T true = if Rle_dec 200 y then if Rle_dec y 1200 then Ok T else Err EValueError else Err EValueError.
Proof.
  intros H0 H1 H2 Hx. unfold nbounds, to_list. rewrite H0. cbn [all_idx seq flat_map map app forallb existsb]. rewrite H1, H2.
  cbn [flt]. destruct (Rlt_dec x 200); [lra|]. destruct (Rlt_dec 1200 x); [lra|]. cbn [orb andb].
  destruct (Rle_dec 200 y), (Rle_dec y 1200), (Rlt_dec y 200), (Rlt_dec 1200 y); try lra; reflexivity.
Qed.
(* two temperatures for a single mixture: the heat capacity is answered, the entropy is not *)
Lemma many_temperatures :
  (exists a, n_cp PAB SK m2 [] [("T", two 500 600); ("p", scalar 100000)] = Ok a /\ nsh a = [2%nat]) /\
  n_s PAB SK m2 [] [("T", two 500 600); ("p", scalar 100000)] = Err EIndexError.
Proof.
  destruct (args_two 500 600) as (T & p & A & T1 & P1 & Ta & Tb). rewrite (bounds_two T 500 600) in A by (auto; lra).
  destruct (Rle_dec 200 600); [|lra]. destruct (Rle_dec 600 1200); [|lra]. cbn [bind] in A.
  assert (V : forall f, exists v, propeval PAB m2 f T = Ok v /\ nsh v = [2%nat]).
  { intro f. unfold propeval, np_op. cbn [m2 uniform x_c x_q prop_loop]. unfold np_op. cbn [row np_map nsh tl].
    rewrite T1. cbn. eexists; split; reflexivity. }
  split.
  - unfold n_cp. rewrite A. cbn [bind]. destruct (V g_cp) as (v & -> & V1). cbn [bind].
    destruct (units_m2 "ig.A") as [k U]; [now left|].
    unfold n_heat, nconvert. rewrite (of_si SK _ _ _ _ _ _ _ U QEnergy 1 "kJ" 1000 None I eq_refl). cbn [bind].
    rewrite (of_si SK _ _ _ _ _ _ _ U QTemperature 1 "K" (9/5) (Some (-1)%Z) I eq_refl). cbn [bind]. eexists; split; [reflexivity|exact V1].
  - unfold n_s. rewrite A. cbn [bind need_p]. destruct (V (fun (g : gas) (x : fl) => fst (g_s g x))) as (v & -> & V1). cbn [bind].
    unfold sp_of. cbn [m2 uniform x_c x_q sp_loop]. unfold np_op. cbn [row sum_rows np_map nsh tl]. rewrite P1. reflexivity.
Qed.
Lemma some_out_of_range :
  n_cp PAB SK m2 [] [("T", two 500 5000); ("p", scalar 100000)] = Err EValueError.
Proof.
  destruct (args_two 500 5000) as (T & p & A & T1 & P1 & Ta & Tb). rewrite (bounds_two T 500 5000) in A by (auto; lra).
  destruct (Rle_dec 200 5000); [|lra]. destruct (Rle_dec 5000 1200); [lra|]. cbn [bind] in A.
  unfold n_cp. rewrite A. reflexivity.
Qed.

(* a failed assignment with as many dimensions as the mixture leaves it unchanged *)
Lemma setitem_failed_unchanged P E um un km kn m s q uM k m' e :
  positive_setup (e_setup E) -> dget "unit_mass" (e_cfg E) = Some um -> si (e_setup E) QMass um = Some km ->
  dget "unit_molar" (e_cfg E) = Some un -> si (e_setup E) QMolar un = Some kn ->
  mixture_ok m -> 0 < mw_of P (full_sid s) -> dget "unit_matter" (e_cfg E) = Some uM ->
  kmoles (e_setup E) (mw_of P (full_sid s)) uM = Some k ->
  List.length (nsh q) = List.length (shape m) ->
  setitem P E m s q = (m', Err e) -> m' = m /\ e = PMParamError.
Proof.
  intros Hs H1 H2 H3 H4 Hm Hw Hu Hk Hl H.
  destruct (index_of (full_sid s) (x_c m)) as [j|] eqn:Ej.
  2:{ unfold setitem, sindex in H. rewrite Ej in H. injection H as <- <-. auto. }
  assert (Hin : In (full_sid s) (x_c m)).
  { destruct (in_dec string_dec (full_sid s) (x_c m)) as [Hi|Hi]; [exact Hi|]. apply index_of_none in Hi. congruence. }
  assert (Hq : nsh q <> []). { destruct Hm as (_ & Hx & _). destruct (nsh q); [|discriminate]. destruct (shape m); [congruence|discriminate]. }
  destruct (broadcast_shape (nsh q) (shape m)) as [u|e'] eqn:Eb.
  - apply (broadcast_agrees _ _ u) in Eb; [|now left|now left].
    destruct (read_back P E um un km kn Hs H1 H2 H3 H4 m s q u uM k Hm Hin Hw Hu Hk) as (m1 & a & M1 & _).
    { right. auto. } congruence.
  - pose proof (broadcast_err _ _ _ Eb) as ->. unfold setitem, sindex in H. rewrite Ej in H.
    assert (Ea : atleast_1d q = q) by (unfold atleast_1d; destruct (nsh q); [congruence|reflexivity]).
    rewrite Ea, Eb in H. injection H as <- <-. auto.
Qed.

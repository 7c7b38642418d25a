(* Calls of the multi-phase class with T and d (or v), and with T and x (C48). *)
From Coq Require Import Reals ZArith List String Bool Lia Lra.
From Verif Require Import Base Model_Num Model_Units Model_Defaults Model_Igas Spec_Units Proof_Units Spec_Igas Proof_Igas
  Proof_IgasUnits Proof_IgasArgs Proof_IgasCalls Proof_IgasArr Proof_IgasAcc.
From Verif Require Import Model_Mp1Calls Spec_Mp1 Spec_Mp1Calls Proof_Mp1Units Proof_Mp1Sat Proof_Mp1Args.
Import ListNotations.
Local Open Scope R_scope.
Local Open Scope string_scope.
Local Open Scope list_scope.

(* ---- lists ---- *)
Lemma nth_combine {A B} (l : list A) (m : list B) i x y :
  nth_error l i = Some x -> nth_error m i = Some y -> nth_error (combine l m) i = Some (x, y).
Proof.
  revert m i. induction l as [|a l IH]; intros [|b m] [|i] H1 H2; cbn in *; try discriminate.
  - congruence.
  - now apply IH.
Qed.
Lemma combine_nth_inv {A B} (l : list A) (m : list B) i x y :
  nth_error (combine l m) i = Some (x, y) -> nth_error l i = Some x /\ nth_error m i = Some y.
Proof.
  revert m i. induction l as [|a l IH]; intros [|b m] [|i] H; cbn in *; try discriminate.
  - injection H as <- <-. auto.
  - now apply IH.
Qed.
Lemma nth_map_some {A B} (f : A -> B) l i x : nth_error l i = Some x -> nth_error (map f l) i = Some (f x).
Proof. revert i. induction l as [|a l IH]; intros [|i] H; cbn in *; try discriminate; [congruence|auto]. Qed.

(* ---- comparisons ---- *)
Lemma flt_true a b : a < b -> flt (Some a) (Some b) = true.
Proof. intro H. cbn. destruct (Rlt_dec a b); [reflexivity|contradiction]. Qed.
Lemma flt_false a b : b <= a -> flt (Some a) (Some b) = false.
Proof. intro H. cbn. destruct (Rlt_dec a b); [lra|reflexivity]. Qed.
Lemma flt_iff a b : flt a b = true <-> exists x y, a = Some x /\ b = Some y /\ x < y.
Proof.
  split.
  - destruct a as [x|], b as [y|]; cbn; try discriminate. destruct (Rlt_dec x y); [|discriminate]. eauto.
  - intros (x & y & -> & -> & H). now apply flt_true.
Qed.

Lemma sat_curve_value G T : sat_wf G -> sat_smooth G T -> value0 (sat_jet G (Some T) 0) = Some (sat_value G T).
Proof.
  intros W S. destruct (satcurve_exact G 0 T W S) as (v & a & b & H & -> & _).
  unfold sat_jet. rewrite H. reflexivity.
Qed.

Section Calls.
  Variables (D : mpdata) (E : env) (fuel : nat) (uT : string) (kT kP kV kE kM : R).
  Hypothesis U : units_known E (mp_mw D) uT kT kP kV kE kM.

  Local Notation kg := (kgs D kM).
  Let kVp : 0 < kV := kV_pos _ _ _ _ _ _ _ _ U.
  Let kgp : 0 < kg := kgs_pos _ _ _ _ _ _ _ _ U.

  Lemma limited_ok lim (v : arr) i x : nth_error v i = Some (Some x) -> in_range lim x ->
    limited E lim v = Ok (map (fun x => if (flt x (num (fst lim)) || flt (num (snd lim)) x)%bool then e_oob E else x) v) /\
    (if (flt (Some x) (num (fst lim)) || flt (num (snd lim)) (Some x))%bool then e_oob E else Some x) = Some x.
  Proof.
    intros Hi [H1 H2].
    assert (F : (flt (Some x) (num (fst lim)) || flt (num (snd lim)) (Some x))%bool = false).
    { unfold num. rewrite !flt_false by assumption. reflexivity. }
    rewrite F. split; [|reflexivity].
    unfold limited. destruct (forallb _ v) eqn:A; [|reflexivity].
    rewrite forallb_forall in A. apply nth_error_In in Hi. apply A in Hi. cbv beta in Hi. congruence.
  Qed.
  Lemma elem_nth_in (a : arr) i x : Spec_Igas.elem a i = Some x -> exists j, nth_error a j = Some x.
  Proof. intro H. apply elem_in in H. apply In_nth_error in H. exact H. Qed.

  (* the names of a call with two properties *)
  Lemma two_names varg kw n1 n2 : mp_acceptable varg kw -> n1 <> n2 ->
    In n1 (map fst (supplied varg kw)) -> In n2 (map fst (supplied varg kw)) ->
    ~ (In n1 ["T"; "p"; "x"] /\ In n2 ["T"; "p"; "x"]) ->
    List.length (supplied varg kw) = 2%nat.
  Proof.
    intros (_ & Hnd & _ & H2 & _) Hne I1 I2 Hno.
    assert (L : (List.length (map fst (supplied varg kw)) <= 2)%nat) by (destruct H2 as [H2|H2]; [exact H2|exfalso; auto]).
    rewrite map_length in L.
    assert (incl [n1; n2] (map fst (supplied varg kw))) as I by (intros y [<-|[<-|[]]]; assumption).
    apply NoDup_incl_length in I; [cbn in I; rewrite map_length in I; lia|].
    repeat constructor; cbn; intuition congruence.
  Qed.
  Lemma absent varg kw n1 n2 k : List.length (supplied varg kw) = 2%nat -> n1 <> n2 ->
    In n1 (map fst (supplied varg kw)) -> In n2 (map fst (supplied varg kw)) -> k <> n1 -> k <> n2 ->
    dget k (supplied varg kw) = None.
  Proof.
    intros L Hne I1 I2 K1 K2. apply dget_none_iff. intro I3.
    assert (incl [n1; n2; k] (map fst (supplied varg kw))) as I by (intros y [<-|[<-|[<-|[]]]]; assumption).
    apply NoDup_incl_length in I; [cbn in I; rewrite map_length in I; lia|].
    clear - Hne K1 K2. repeat constructor; cbn [In]; intuition congruence.
  Qed.

  (* broadcasting two arguments of a call to element i *)
  Lemma broadcast2_at (f g : fl -> fl) a b i x y :
    Spec_Igas.elem a i = Some x -> Spec_Igas.elem b i = Some y ->
    (List.length a = List.length b \/ List.length a = 1%nat \/ List.length b = 1%nat) ->
    (i < Nat.max (List.length a) (List.length b))%nat ->
    exists l, broadcast2 (map f a) (map g b) = Ok l /\ nth_error l i = Some (f x, g y).
  Proof.
    intros Ha Hb Hc Hi.
    destruct (broadcast_fits (map f a) (map g b) i (f x) (g y)) as (a' & b' & s1 & s2 & B & H1 & H2).
    - rewrite elem_map_eq, Ha. reflexivity.
    - rewrite elem_map_eq, Hb. reflexivity.
    - now rewrite !map_length.
    - now rewrite !map_length.
    - exists (combine a' b'). unfold broadcast2. rewrite B. cbn [bind]. split; [reflexivity|].
      now apply nth_combine.
  Qed.
  Lemma sizes_of varg kw n1 a n2 b i : List.length (supplied varg kw) = 2%nat -> n1 <> n2 ->
    In (n1, a) (supplied varg kw) -> In (n2, b) (supplied varg kw) -> in_result varg kw i ->
    (List.length a = List.length b \/ List.length a = 1%nat \/ List.length b = 1%nat) /\
    (i < Nat.max (List.length a) (List.length b))%nat.
  Proof.
    intros L Hne I1 I2 ((n & Hc) & k & c & I3 & Hi).
    destruct (supplied varg kw) as [|e1 [|e2 [|e3 l]]]; cbn in L; try discriminate.
    assert (Q : (In (k, c) [(n1, a); (n2, b)])).
    { cbn in I1, I2, I3 |- *. destruct I1 as [ ->|[ ->|[]]], I2 as [I2|[I2|[]]], I3 as [I3|[I3|[]]]; subst; auto; congruence. }
    pose proof (Hc _ _ I1). pose proof (Hc _ _ I2). split; [lia|].
    destruct Q as [Q|[Q|[]]]; injection Q as _ <-; lia.
  Qed.

  Lemma argument_T varg kw i t T : argument varg kw i "T" t -> kelvin_is E t T -> T = to_kelvin uT t.
  Proof.
    intros _ H. apply (tscale_K _ _ _ _ _ _ _ _ U) in H. congruence.
  Qed.

  Lemma argparse_Td z varg kw i T d : z = {| z_T := uT; z_kT := kT; z_kP := kP; z_kV := kV; z_kE := kE; z_kM := kM |} ->
    state_Td D E z varg kw i T d -> in_range (mp_Tlim D) T ->
    exists l, mp_argparse D E fuel varg kw = Ok l /\ nth_error l i = Some (from_Td D (Some T, Some d)).
  Proof.
    intros -> (Hn & Ha & Hr & (t & At & Kt) & Hd) HT.
    pose proof (argument_T _ _ _ _ _ At Kt) as ->. destruct At as (a & Ia & Ea).
    assert (B : exists n b (f : fl -> fl) y, In (n, b) (supplied varg kw) /\ (n = "d" \/ n = "v") /\
               Spec_Igas.elem b i = Some y /\ f y = Some d /\
               (n = "d" -> f = fmul (Some (kg / kV))) /\
               (n = "v" -> f = fun x => reciprocal (fmul (Some (kV / kg)) x))).
    { destruct Hd as [(r & (b & Ib & Eb) & Hr1)|(v & (b & Ib & Eb) & Hv & Hr1)]; unfold density_is in Hr1; cbn [z_kM z_kV] in Hr1;
        fold (kgs D kM) in Hr1.
      - exists "d", b, (fmul (Some (kg / kV))), (Some r). repeat split; auto; try discriminate.
        cbn. f_equal. rewrite <- Hr1. field. lra.
      - exists "v", b, (fun x => reciprocal (fmul (Some (kV / kg)) x)), (Some v). repeat split; auto; try discriminate.
        unfold reciprocal. cbn. destruct (Req_EM_T (kV / kg * v) 0) as [Z|Z].
        + exfalso. apply Rmult_integral in Z. destruct Z as [Z|Z]; [|contradiction].
          assert (0 < kV / kg) by (apply Rdiv_lt_0_compat; assumption). lra.
        + f_equal. rewrite <- Hr1. field. repeat split; lra. }
    destruct B as (n & b & f & y & Ib & Nn & Eb & Fy & F1 & F2).
    assert (Hne : "T" <> n) by (destruct Nn; subst; discriminate).
    assert (I1 : In "T" (map fst (supplied varg kw))) by (apply (in_map fst) in Ia; exact Ia).
    assert (I2 : In n (map fst (supplied varg kw))) by (apply (in_map fst) in Ib; exact Ib).
    assert (L : List.length (supplied varg kw) = 2%nat).
    { apply (two_names varg kw "T" n Ha Hne I1 I2). destruct Nn; subst; cbn; intuition congruence. }
    rewrite (argparse_supplied D E fuel varg kw Hn Ha) by lia.
    rewrite (si_args_val _ _ _ _ _ _ _ _ U).
    assert (ND : NoDup (dkeys (supplied varg kw))) by (destruct Ha as (_ & H & _); exact H).
    assert (A : forall k, k <> "T" -> k <> n -> dget k (supplied varg kw) = None)
      by (intros k K1 K2; apply (absent varg kw "T" n k L Hne I1 I2 K1 K2)).
    assert (GT : dget "T" (supplied varg kw) = Some a) by (apply dget_in_nodup; assumption).
    assert (GN : dget n (supplied varg kw) = Some b) by (apply dget_in_nodup; assumption).
    rewrite GT. rewrite (A "p"), (A "x"), (A "h"), (A "e"), (A "s") by (destruct Nn; subst; discriminate).
    cbn [ores bind].
    destruct (elem_nth_in a i _ Ea) as [j Ej].
    destruct (limited_ok (mp_Tlim D) (gT uT a) j (to_kelvin uT t)) as [LT LT2];
      [unfold gT; exact (nth_map_some (lift1 (to_kelvin uT)) _ _ _ Ej)|exact HT|].
    rewrite LT. cbn [bind].
    assert (DV : match dget "v" (supplied varg kw) with Some v => Some (gV D kV kM v)
                 | None => option_map (gD D kV kM) (dget "d" (supplied varg kw)) end = Some (map f b)).
    { destruct Nn as [-> | ->].
      - rewrite (A "v") by discriminate. rewrite GN. cbn. unfold gD. now rewrite F1.
      - rewrite GN. unfold gV. now rewrite F2. }
    match goal with |- context [{| a_T := _; a_p := _; a_d := ?m; a_x := _; a_inv := _ |}] =>
      replace m with (Some (map f b)) by (symmetry; exact DV) end.
    unfold from_args. cbn [a_inv a_T a_p a_d a_x].
    destruct (sizes_of varg kw "T" a n b i L Hne Ia Ib Hr) as [Hc Hi].
    unfold gT. rewrite map_map.
    match goal with |- context [map ?h a] =>
      destruct (broadcast2_at h f a b i (Some t) y Ea Eb Hc Hi) as (l & BL & NL) end.
    rewrite BL. cbn [bind]. eexists. split; [reflexivity|]. rewrite (nth_map_some (from_Td D) _ _ _ NL).
    cbn [lift1]. cbn [lift1] in LT2. rewrite LT2, Fy. reflexivity.
  Qed.

  (* T and x: every element must be saturated *)
  Lemma argparse_Tx varg kw i T x :
    state_Tx E varg kw i T x -> in_range (mp_Tlim D) T ->
    forall l, mp_argparse D E fuel varg kw = Ok l ->
      nth_error l i = Some {| s_T := Some T; s_d1 := mp_dsl D (Some T); s_d2 := mp_dsv D (Some T); s_x := Some x; s_sat := true |}
      /\ T <= mp_Tc D /\ 0 <= x <= 1 /\ forall s, In s l -> s_sat s = true.
  Proof.
    intros (Hn & Ha & Hr & Np & (t & At & Kt) & (b & Ib & Eb)) HT l.
    pose proof (argument_T _ _ _ _ _ At Kt) as ->. destruct At as (a & Ia & Ea).
    assert (I1 : In "T" (map fst (supplied varg kw))) by (apply (in_map fst) in Ia; exact Ia).
    assert (I2 : In "x" (map fst (supplied varg kw))) by (apply (in_map fst) in Ib; exact Ib).
    assert (Hne : "T" <> "x") by discriminate.
    assert (ND : NoDup (dkeys (supplied varg kw))) by (destruct Ha as (_ & H & _); exact H).
    assert (X : forall n, In n (map fst (supplied varg kw)) -> In n ["T"; "x"]).
    { destruct Ha as (_ & _ & _ & _ & _ & _ & _ & _ & H). intros n Hi. pose proof (H I2 n Hi) as Q.
      cbn in Q |- *. destruct Q as [<-|[<-|[<-|[]]]]; auto. }
    assert (L : List.length (supplied varg kw) = 2%nat).
    { apply Nat.le_antisymm.
      - rewrite <- (map_length fst). apply (NoDup_incl_length ND X).
      - rewrite <- (map_length fst). apply (NoDup_incl_length (l := ["T"; "x"])).
        + repeat constructor; cbn; intuition congruence.
        + intros y [<-|[<-|[]]]; assumption. }
    rewrite (argparse_supplied D E fuel varg kw Hn Ha) by lia.
    rewrite (si_args_val _ _ _ _ _ _ _ _ U).
    assert (A : forall k, k <> "T" -> k <> "x" -> dget k (supplied varg kw) = None)
      by (intros k K1 K2; apply (absent varg kw "T" "x" k L Hne I1 I2 K1 K2)).
    assert (GT : dget "T" (supplied varg kw) = Some a) by (apply dget_in_nodup; assumption).
    assert (GN : dget "x" (supplied varg kw) = Some b) by (apply dget_in_nodup; assumption).
    rewrite GT, GN. rewrite (A "p"), (A "v"), (A "d"), (A "h"), (A "e"), (A "s") by discriminate.
    cbn [ores bind].
    destruct (elem_nth_in a i _ Ea) as [j Ej].
    destruct (limited_ok (mp_Tlim D) (gT uT a) j (to_kelvin uT t)) as [LT LT2];
      [unfold gT; exact (nth_map_some (lift1 (to_kelvin uT)) _ _ _ Ej)|exact HT|].
    rewrite LT. cbn [bind]. unfold gX. destruct (existsb _ b || existsb _ b)%bool eqn:XB; [discriminate|]. cbn [bind].
    unfold from_args. cbn [a_inv a_T a_p a_d a_x option_map].
    destruct (sizes_of varg kw "T" a "x" b i L Hne Ia Ib Hr) as [Hc Hi].
    unfold gT. rewrite map_map.
    match goal with |- context [map ?h a] =>
      destruct (broadcast2_at h (fun x => x) a b i (Some t) (Some x) Ea Eb Hc Hi) as (l1 & BL & NL) end.
    rewrite map_id in BL. rewrite BL. cbn [bind]. unfold from_Tx.
    destruct (existsb (fun e => flt (num (mp_Tc D)) (fst e)) l1) eqn:E1; [discriminate|].
    destruct (existsb (fun e => flt (snd e) (num 0)) l1) eqn:E2; [discriminate|].
    intro H. injection H as <-. cbn [lift1] in NL, LT2. rewrite LT2 in NL.
    split; [rewrite (nth_map_some _ _ _ _ NL); reflexivity|].
    pose proof (nth_error_In _ _ NL) as IN.
    split.
    { destruct (Rle_dec (to_kelvin uT t) (mp_Tc D)) as [|N]; [assumption|exfalso].
      enough (existsb (fun e => flt (num (mp_Tc D)) (fst e)) l1 = true) by congruence.
      apply existsb_exists. eexists. split; [exact IN|]. apply flt_true. lra. }
    split; [split|].
    { destruct (Rle_dec 0 x) as [|N]; [assumption|exfalso].
      enough (existsb (fun e => flt (snd e) (num 0)) l1 = true) by congruence.
      apply existsb_exists. eexists. split; [exact IN|]. apply flt_true. lra. }
    { destruct (Rle_dec x 1) as [|N]; [assumption|exfalso]. apply orb_false_elim in XB. destruct XB as [XB _].
      enough (existsb (fun x => flt (num 1) x) b = true) by congruence.
      apply existsb_exists. exists (Some x). split; [apply (elem_in _ _ _ Eb)|apply flt_true; lra]. }
    { intros s Hs. apply in_map_iff in Hs. destruct Hs as (e & <- & _). reflexivity. }
  Qed.
End Calls.

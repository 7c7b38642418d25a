(* Dynamic mixtures: the given coordinates come back. *)
From Coq Require Import Reals ZArith List String Bool Lia Lra Arith.
From Verif Require Import Proof_IgasRel Base Model_Num Model_Units Model_Igas Model_Igmix Model_Igtools Model_Igtprop
  Spec_Units Spec_Igas Spec_Igmix Spec_Igtools Spec_Igtprop Spec_IgtGas
  Proof_Solve Proof_Units Proof_Igas Proof_IgasUnits Proof_IgasState Proof_IgasCalls Proof_IgmixProp
  Proof_Igtshape Proof_Igtools Proof_IgtAdd Proof_IgtMore Proof_IgtItems Proof_IgtNew Proof_IgtProp Proof_IgtGas Proof_IgtArgs Proof_IgtLaw Proof_IgtIdent.
Import ListNotations.
Local Open Scope R_scope.
Local Open Scope string_scope.
Local Open Scope list_scope.

Tactic Notation "bi" ident(H) ident(x) ident(Hx) := apply bind_ok in H; destruct H as (x & Hx & H).

Lemma at_atleast a u i : u <> [] -> laid (atleast_1d a) u -> index_in u i -> at_index (atleast_1d a) i = at_index a i.
Proof.
  intros Hu L Hi. unfold atleast_1d, at_index. destruct (nsh a) eqn:Ea; [|now rewrite Ea]. cbn [nsh nel].
  destruct u as [|x u]; [congruence|]. inversion Hi; subst. reflexivity.
Qed.
Lemma at_map (f : fl -> fl) a b i : nsh b = nsh a -> (forall j, nel b j = f (nel a j)) -> at_index b i = f (at_index a i).
Proof. intros H1 H2. unfold at_index. rewrite H1. now destruct (nsh a). Qed.

Section Given.
  Context (P : pool) (E : env) (m : mix) (n : string -> list nat -> R) (varg : list nd) (kw : list (string * nd)).
  Context (Hm : mixture_ok m) (K : amounts_known m n) (Hlike : like_mixture m varg kw).

  Lemma given_T a v : dget "T" (named_args varg kw) = Some a -> n_T P E m varg kw = Ok v ->
    forall i uT kT kP kV kE kM w, index_in (nsh v) i -> units_known E w uT kT kP kV kE kM -> nel v i = at_index a i.
  Proof.
    intros Ga H i uT kT kP kV kE kM w Hi U. unfold n_T in H. bi H st A. destruct st as [[T p] d].
    destruct (argparse_stands P E m varg kw T p d Hm Hlike A) as (Hne & u & kw2 & S & Fin & _).
    destruct (st_gT _ _ _ _ _ _ _ _ S a (Fin _ _ Ga)) as (b & B1 & B2 & B3).
    pose proof (st_u _ _ _ _ _ _ _ _ S) as Hu. pose proof (st_T _ _ _ _ _ _ _ _ S) as ST.
    destruct (out_T E uT kT kP kV kE kM _ U T v H) as [T1 T2]. rewrite T1, ST in Hi. rewrite T2, (B3 i Hi).
    destruct (in_T E uT kT kP kV kE kM _ U _ b B1) as [C1 C2]. rewrite (at_map _ _ _ i C1 C2), (at_atleast a u i Hu) by first [assumption | eapply laid_eq; [|exact B2]; congruence].
    destruct (at_index a i) as [x|]; [|reflexivity]. cbn [lift1]. now rewrite from_to_kelvin.
  Qed.
  Lemma given_p a v : dget "p" (named_args varg kw) = Some a -> n_p P E m varg kw = Ok v ->
    forall i uT kT kP kV kE kM w, index_in (nsh v) i -> units_known E w uT kT kP kV kE kM -> nel v i = at_index a i.
  Proof.
    intros Ga H i uT kT kP kV kE kM w Hi U. unfold n_p in H. bi H st A. destruct st as [[T p] d].
    destruct (argparse_stands P E m varg kw T p d Hm Hlike A) as (Hne & u & kw2 & S & Fin & _).
    destruct (st_gp _ _ _ _ _ _ _ _ S a (Fin _ _ Ga)) as (b & p0 & B1 & B2 & -> & B3).
    cbn [need_p bind] in H. pose proof (st_u _ _ _ _ _ _ _ _ S) as Hu. pose proof (st_p _ _ _ _ _ _ _ _ S _ eq_refl) as Sp.
    destruct (conv_out E uT kT kP kV kE kM _ U QPressure p0 v "Pa" 1 None I ltac:(cbn; f_equal; lra) H) as [T1 T2].
    rewrite T1, Sp in Hi. rewrite T2, (B3 i Hi).
    destruct (conv_in E uT kT kP kV kE kM _ U QPressure _ b "Pa" 1 None I ltac:(cbn; f_equal; lra) B1) as [C1 C2].
    rewrite (at_map _ _ _ i C1 C2), (at_atleast a u i Hu) by first [assumption | eapply laid_eq; [|exact B2]; congruence].
    pose proof (kP_pos _ _ _ _ _ _ _ _ U). cbn [effective_exponent ksize]. rewrite !zpow_1.
    destruct (at_index a i) as [x|]; [|reflexivity]. cbn [fmul lift2]. f_equal. field. lra.
  Qed.
  Lemma given_d a v : dget "d" (named_args varg kw) = Some a -> n_d P E m varg kw = Ok v ->
    forall i uT kT kP kV kE kM, index_in (nsh v) i -> 0 < total_amount m n (project (shape m) i) ->
      units_known E (mean_weight P m n (project (shape m) i)) uT kT kP kV kE kM -> nel v i = at_index a i.
  Proof.
    intros Ga H i uT kT kP kV kE kM Hi Htot U.
    assert (A : exists T p d, nargparse P E m varg kw = Ok (T, p, d)).
    { pose proof H as H'. unfold n_d in H'. bi H' st A. destruct st as [[T p] d]. eauto. }
    destruct A as (T & p & d & A).
    destruct (d_out P E m n varg kw Hm K Hlike T p d v A H) as (u0 & kw3 & d1 & S0 & D1 & D2 & D3 & D4).
    destruct (argparse_stands P E m varg kw T p d Hm Hlike A) as (Hne & u & kw2 & S & Fin & _).
    assert (Hu0 : u0 = u) by (pose proof (st_T _ _ _ _ _ _ _ _ S0); pose proof (st_T _ _ _ _ _ _ _ _ S); congruence). rewrite Hu0 in *. clear Hu0 S0 u0.
    destruct (st_gd _ _ _ _ _ _ _ _ S a (Fin _ _ Ga)) as (b & c & d0 & B1 & B2 & B3 & -> & B4).
    pose proof (st_u _ _ _ _ _ _ _ _ S) as Hu. pose proof (st_m _ _ _ _ _ _ _ _ S) as Sm. rewrite D2 in Hi.
    pose proof (project_in _ _ _ Sm Hi) as Hpi.
    rewrite (D4 i uT kT kP kV kE kM Hi Htot U). destruct (D3 i Hi) as [(d0' & X & ->)|(p0 & X & _)]; [|discriminate]. injection X as <-.
    rewrite (B4 i Hi).
    destruct (conv_in E uT kT kP kV kE kM _ U QVolume _ b "m3" 1 (Some (-1)%Z) I ltac:(cbn; f_equal; lra) B1) as [C1 C2].
    assert (F : flat (shape m) b).
    { apply (flat_eq _ _ _ C1). apply flat_arg; [apply Hm|]. apply (Hlike "d"). now apply dget_some_in. }
    assert (Lb : laid b u).
    { pose proof B2 as X. unfold nmatter in X. bi X mf Xf. bi X mt Xt. destruct (Bool.eqb mf mt).
      - bi X k Xk. injection X as <-. exact B3.
      - unfold np_op in X. destruct (np_shape (nsh b) (nsh (mix_mw P m))) as [z|] eqn:N; [|discriminate]. apply ok_inj in X. subst c.
        change (nsh (mix_mw P m)) with (shape m) in N. destruct (np_shape_both m b z (nshape m Hm) (or_introl F) N) as (S1 & L1).
        pose proof (nonempty_stretch _ _ (nshape m Hm) S1) as Hz.
        assert (Sv : stretches z u).
        { destruct B3 as [Lb|[Lb|Lb]]; cbn [nsh] in Lb; [congruence| |exact Lb]. subst z.
          assert (L : List.length (shape m) = 1%nat) by now rewrite (stretches_len _ _ S1).
          pose proof (stretches_len _ _ Sm) as Lu. destruct u as [|x [|y u]]; [congruence| |cbn in Lu; lia]. constructor; [now left|constructor]. }
        eapply laid_up; eassumption. }
    assert (Q : at_index c i = fmul (Some (1 * zpow (kM / 1) (effective_exponent None))) (at_index b i)).
    { eapply (matter_conv P E m uT kT kP kV kE kM _ U b c None (Some "kmol") None _ u i (nshape m Hm)); eauto.
      - intros w' U'. apply (matter_to E w' uT kT kP kV kE kM U' 1 "kmol" 1 None). reflexivity.
      - now apply mix_mw_value. }
    rewrite Q, (at_map _ _ _ i C1 C2), (at_atleast a u i Hu) by first [assumption | eapply laid_eq; [|exact Lb]; congruence].
    pose proof (kV_pos _ _ _ _ _ _ _ _ U). pose proof (kM_pos _ _ _ _ _ _ _ _ U). cbn [effective_exponent Z.eqb ksize]. rewrite zpow_1, zpow_m1.
    destruct (at_index a i) as [x|]; [|reflexivity]. cbn [fmul lift2]. f_equal. field. lra.
  Qed.
End Given.

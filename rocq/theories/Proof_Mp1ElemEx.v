(* Instances of C90 and C91, and the pressure of an array that is out of range. *)
From Coq Require Import Reals ZArith List String Bool Lia Lra.
From Verif Require Import Base Model_Num Model_Units Model_Defaults Model_Igas Proof_Igas Proof_IgasUnits Proof_IgasArr Proof_IgasCalls Proof_Iter Proof_IgasEx Model_Hybrid Model_Mp1Calls Spec_Mp1 Spec_Mp1Calls Proof_Mp1Units Proof_Mp1Args Proof_Mp1Calls
  Proof_Mp1CallsEx Proof_Mp1Ts Proof_Mp1TsEx Proof_Mp1InvEx Proof_Mp1Tpx Proof_Mp1Poly Spec_Igas Spec_Mp1Elem.
Import ListNotations.
Local Open Scope R_scope.
Local Open Scope string_scope.
Local Open Scope list_scope.

Definition kE1 := [("T", [Some 500; Some 2000; Some 700]); ("d", [Some 10])].
Definition kE1T (t : R) := [("T", [Some t]); ("d", [Some 10])].
Definition pt500 : point := {| s_T := Some 500; s_d1 := Some 900; s_d2 := Some 9; s_x := Some (4/99); s_sat := true |}.
Lemma lims : limited exE (mp_Tlim exP) [Some 500; Some 2000; Some 700] = Ok [Some 500; None; Some 700].
Proof.
  unfold limited. cbv zeta. cbn [mp_Tlim exP fst snd forallb map]. unfold num.
  rewrite (flt_false 500 273), (flt_false 1200 500), (flt_false 2000 273), (flt_true 1200 2000), (flt_false 700 273), (flt_false 1200 700) by lra. reflexivity.
Qed.
Lemma td500 : from_Td exP (Some 500, Some 180) = pt500.
Proof.
  unfold from_Td. rewrite (proj1 ex_sat_d), (proj2 ex_sat_d). unfold num. rewrite (flt_true 500) by (cbn; lra).
  rewrite (flt_true 180), (flt_true 9) by lra. cbn [andb]. unfold quality_of, pt500. do 2 f_equal.
  unfold num. rewrite !fdiv_ok by lra. cbn [fsub lift2]. rewrite fdiv_ok by lra. f_equal. lra.
Qed.
Lemma td700 : from_Td exP (Some 700, Some 180) = single (Some 700) (Some 180).
Proof. unfold from_Td, num. rewrite (flt_false 700) by (cbn; lra). reflexivity. Qed.
Lemma parse_kE1 fuel : mp_argparse exP exE fuel [] kE1 = Ok [pt500; single None (Some 180); single (Some 700) (Some 180)].
Proof.
  unfold mp_argparse. change (positional [] kE1) with (Ok kE1 : res kwargs). cbn [bind]. change (defaults exE kE1) with (Ok kE1 : res kwargs). cbn [bind].
  change (mp_rules kE1) with (Ok tt). cbn [bind]. rewrite (si_args_val _ _ _ _ _ _ _ _ exZ). unfold kE1. cbn [dget String.eqb Ascii.eqb Bool.eqb ores].
  change (gT (z_T exz) [Some 500; Some 2000; Some 700]) with ([Some 500; Some 2000; Some 700] : arr). rewrite lims. cbn [bind option_map].
  assert (G : gD exP (z_kV exz) (z_kM exz) [Some 10] = [Some 180]) by (unfold gD, kgs; cbn; do 2 f_equal; field).
  rewrite G. unfold from_args. cbn [a_inv a_T a_p a_d a_x].
  change (broadcast2 [Some 500; None; Some 700] [Some 180]) with (Ok [(Some 500, Some 180); (None, Some 180); (Some 700, Some 180)] : res (list (fl * fl))).
  cbn [bind map]. rewrite td500, td700. reflexivity.
Qed.
Lemma inst_C90 fuel : mp_sizes exP exE exz /\ ar_coef2 (mp_AR exP) = None /\ 0 < mp_Tt exP < mp_Tc exP /\ e_oob exE = None /\
  mm_T exP exE fuel [] kE1 = Ok ([Some 500; None; Some 700], [Some (4/99); Some (-1); Some (-1)]) /\
  mm_d exP exE fuel [] kE1 = Ok ([Some 10; Some 10; Some 10], [Some (4/99); Some (-1); Some (-1)]) /\
  mm_T exP exE fuel [] (kE1T 700) = Ok ([Some 700], [Some (-1)]) /\ mm_T exP exE fuel [] (kE1T 2000) = Err PMParamError.
Proof.
  split; [exact exZ|]. split; [reflexivity|]. split; [cbn; lra|]. split; [reflexivity|].
  assert (MD : forall d, map mix_density [pt500; single None (Some 180); single (Some 700) (Some 180)] = d -> d = [Some 180; Some 180; Some 180]).
  { intros d <-. cbn [map mix_density pt500 single s_sat s_x s_d1 s_d2]. unfold num. do 2 f_equal. cbn [fsub lift2]. rewrite !fdiv_ok by lra. cbn [fadd lift2].
    rewrite fdiv_ok by lra. f_equal. field. }
  split; [|split; [|split]].
  - unfold mm_T, method. rewrite parse_kE1. cbn [bind]. rewrite (atscale_from _ _ _ _ _ _ _ _ exZ). reflexivity.
  - unfold mm_d, method. rewrite parse_kE1. cbn [bind]. rewrite (MD _ eq_refl), (out_density_val _ _ _ _ _ _ _ _ exZ). cbn [bind map]. unfold kgs. cbn. do 3 f_equal; [f_equal; lra|]. f_equal; [f_equal; lra|]. f_equal. f_equal. lra.
  - unfold mm_T, method, mp_argparse. change (positional [] (kE1T 700)) with (Ok (kE1T 700) : res kwargs). cbn [bind]. change (defaults exE (kE1T 700)) with (Ok (kE1T 700) : res kwargs). cbn [bind].
    change (mp_rules (kE1T 700)) with (Ok tt). cbn [bind]. rewrite (si_args_val _ _ _ _ _ _ _ _ exZ). unfold kE1T. cbn [dget String.eqb Ascii.eqb Bool.eqb ores].
    change (gT (z_T exz) [Some 700]) with ([Some 700] : arr). unfold limited. cbv zeta. cbn [mp_Tlim exP fst snd forallb map]. unfold num.
    rewrite (flt_false 700 273), (flt_false 1200 700) by lra. cbn [orb andb bind option_map].
    assert (G : gD exP (z_kV exz) (z_kM exz) [Some 10] = [Some 180]) by (unfold gD, kgs; cbn; do 2 f_equal; field).
    rewrite G. unfold from_args. cbn [a_inv a_T a_p a_d a_x].
    change (broadcast2 [Some 700] [Some 180]) with (Ok [(Some 700, Some 180)] : res (list (fl * fl))). cbn [bind map]. rewrite td700. cbn [bind map].
    rewrite (atscale_from _ _ _ _ _ _ _ _ exZ). reflexivity.
  - unfold mm_T, method, mp_argparse. change (positional [] (kE1T 2000)) with (Ok (kE1T 2000) : res kwargs). cbn [bind]. change (defaults exE (kE1T 2000)) with (Ok (kE1T 2000) : res kwargs). cbn [bind].
    change (mp_rules (kE1T 2000)) with (Ok tt). cbn [bind]. rewrite (si_args_val _ _ _ _ _ _ _ _ exZ). unfold kE1T. cbn [dget String.eqb Ascii.eqb Bool.eqb ores].
    change (gT (z_T exz) [Some 2000]) with ([Some 2000] : arr). unfold limited. cbv zeta. cbn [mp_Tlim exP fst snd forallb map]. unfold num.
    rewrite (flt_true 1200 2000) by lra. rewrite orb_true_r. reflexivity.
Qed.

(* p and x: a pressure of 2000 bar, above the upper limit of 1000 bar *)
Definition kpx (p : arr) := [("p", p); ("x", [Some (1/2)])].
Lemma px_array fuel : exists t, mm_T exL exE fuel [] (kpx [Some 110; Some 2000]) = Ok ([Some 400; Some t], [Some (1/2); Some (1/2)]) /\
  mm_T exL exE fuel [] (kpx [Some 110]) = Ok ([Some 400], [Some (1/2)]) /\
  mm_T exL exE fuel [] (kpx [Some 2000]) = Err PMParamError.
Proof.
  destruct (exL_Ts (100000 * 110) ltac:(lra)) as (c1 & S1 & X1).
  assert (X : c_x c1 = Some 400) by (rewrite X1; f_equal; lra).
  assert (P : forall p p' pts, limited exE (mp_plim exL) (gP (z_kP exz) p) = p' -> (do q <- p'; from_px exL q [Some (1/2)]) = pts -> mp_argparse exL exE fuel [] (kpx p) = pts).
  { intros p p' pts L H. unfold mp_argparse. change (positional [] (kpx p)) with (Ok (kpx p) : res kwargs). cbn [bind]. change (defaults exE (kpx p)) with (Ok (kpx p) : res kwargs). cbn [bind].
    change (mp_rules (kpx p)) with (Ok tt). cbn [bind]. rewrite (si_args_val _ _ _ _ _ _ _ _ exLZ). unfold kpx. cbn [dget String.eqb Ascii.eqb Bool.eqb ores bind].
    rewrite L. destruct p' as [q|]; [|exact H]. cbn [bind ores]. unfold gX. cbn [existsb]. unfold num. rewrite (flt_false 1 (1/2)), (flt_false (1/2) (-1)) by lra. exact H. }
  assert (L1 : limited exE (mp_plim exL) (gP (z_kP exz) [Some 110]) = Ok [Some (100000 * 110)]).
  { replace (gP (z_kP exz) [Some 110]) with ([Some (100000 * 110)] : arr) by (cbn; do 2 f_equal; lra). unfold limited. cbv zeta. cbn [mp_plim exL fst snd forallb map]. unfold num.
    rewrite (flt_false (100000 * 110) 0), (flt_false 100000000 (100000 * 110)) by lra. reflexivity. }
  assert (L2 : limited exE (mp_plim exL) (gP (z_kP exz) [Some 110; Some 2000]) = Ok [Some (100000 * 110); None]).
  { replace (gP (z_kP exz) [Some 110; Some 2000]) with ([Some (100000 * 110); Some (100000 * 2000)] : arr) by (cbn; f_equal; [f_equal; lra|]; do 2 f_equal; lra). unfold limited. cbv zeta. cbn [mp_plim exL fst snd forallb map]. unfold num.
    rewrite (flt_false (100000 * 110) 0), (flt_false 100000000 (100000 * 110)), (flt_false (100000 * 2000) 0), (flt_true 100000000 (100000 * 2000)) by lra. reflexivity. }
  assert (L3 : limited exE (mp_plim exL) (gP (z_kP exz) [Some 2000]) = Err PMParamError).
  { replace (gP (z_kP exz) [Some 2000]) with ([Some (100000 * 2000)] : arr) by (cbn; do 2 f_equal; lra). unfold limited. cbv zeta. cbn [mp_plim exL fst snd forallb map]. unfold num.
    rewrite (flt_true 100000000 (100000 * 2000)) by lra. rewrite orb_true_r. reflexivity. }
  set (c2 := Ts_cell exL (true, None)).
  assert (CL : calm (mp_Tt exL * (99/100)) (mp_Tc exL) (Ts_cell exL (true, Some (100000 * 110)))) by (intros _; apply outside_false; cbn; lra).
  assert (CL2 : calm (mp_Tt exL * (99/100)) (mp_Tc exL) c2) by (intros _; apply outside_false; cbn; lra).
  assert (S2 : solo_iter ep_default (mp_Tt exL * (99/100)) (mp_Tc exL) 20 20 c2 (c2, false)) by (unfold solo_iter; cbn [fst snd]; apply iter_solo_off; reflexivity).
  assert (T1 : mp_Ts exL [(true, Some (100000 * 110))] = Ok [Some 400]).
  { unfold mp_Ts. cbn [map]. unfold solo_iter in S1. cbn [fst snd] in S1. rewrite S1. cbn [bind fst map]. now rewrite X. }
  assert (T2 : mp_Ts exL [(true, Some (100000 * 110)); (true, None)] = Ok [Some 400; Some ((273 + 600) / 2)]).
  { unfold mp_Ts. cbn [map]. fold c2.
    assert (Q : iter_loop ep_default (mp_Tt exL * (99/100)) (mp_Tc exL) 20 20 [Ts_cell exL (true, Some (100000 * 110)); c2] = Ok ([c1; c2], false)).
    { apply iter_pointwise; [repeat constructor; assumption|]. exists [(c1, false); (c2, false)]. split; [exact (Forall2_2 _ _ _ _ _ S1 S2)|]. split; reflexivity. }
    rewrite Q. cbn [bind fst map]. rewrite X. cbn [c2 Ts_cell c_x mp_Tt mp_Tc exL]. do 3 f_equal. unfold num. f_equal. lra. }
  exists ((273 + 600) / 2). split; [|split].
  - unfold mm_T, method. rewrite (P _ _ (Ok [{| s_T := Some 400; s_d1 := mp_dsl exL (Some 400); s_d2 := mp_dsv exL (Some 400); s_x := Some (1/2); s_sat := true |};
      {| s_T := Some ((273 + 600) / 2); s_d1 := mp_dsl exL (Some ((273 + 600) / 2)); s_d2 := mp_dsv exL (Some ((273 + 600) / 2)); s_x := Some (1/2); s_sat := true |}]) L2).
    + cbn [bind map]. rewrite (atscale_from _ _ _ _ _ _ _ _ exLZ). reflexivity.
    + cbn [bind]. unfold from_px. cbn [existsb]. unfold num. rewrite (flt_false (mp_pc exL)) by (cbn; lra). rewrite (flt_false (1/2) 0) by lra.
      change (flt (Some (mp_pc exL)) None) with false. cbn [orb].
      change (broadcast2 [Some (100000 * 110); None] [Some (1/2)]) with (Ok [(Some (100000 * 110), Some (1/2)); (None, Some (1/2))] : res (list (fl * fl))). cbn [bind map fst].
      match goal with |- bind ?m _ = _ => replace m with (Ok [Some 400; Some ((273 + 600) / 2)] : res arr) by (symmetry; exact T2) end. reflexivity.
  - unfold mm_T, method. rewrite (P _ _ (Ok [{| s_T := Some 400; s_d1 := mp_dsl exL (Some 400); s_d2 := mp_dsv exL (Some 400); s_x := Some (1/2); s_sat := true |}]) L1).
    + cbn [bind map]. rewrite (atscale_from _ _ _ _ _ _ _ _ exLZ). reflexivity.
    + cbn [bind]. unfold from_px. cbn [existsb]. unfold num. rewrite (flt_false (mp_pc exL)) by (cbn; lra). rewrite (flt_false (1/2) 0) by lra. cbn [orb].
      change (broadcast2 [Some (100000 * 110)] [Some (1/2)]) with (Ok [(Some (100000 * 110), Some (1/2))] : res (list (fl * fl))). cbn [bind map fst].
      match goal with |- bind ?m _ = _ => replace m with (Ok [Some 400] : res arr) by (symmetry; exact T1) end. reflexivity.
  - unfold mm_T, method. rewrite (P _ _ (Err PMParamError) L3); reflexivity.
Qed.
Lemma kE1_calls : scalar_call 2 [] [] kE1 (kE1T 700) /\ scalar_call 1 [] [] kE1 (kE1T 2000) /\ (forall i, pressure_in_range exP exz i [] kE1) /\ NoDup (map fst kE1).
Proof.
  split; [|split; [|split]].
  - split; [constructor|]. repeat constructor; cbn; eauto.
  - split; [constructor|]. repeat constructor; cbn; eauto.
  - intros i v r [H|[H|[]]]; discriminate H.
  - repeat constructor; cbn; intuition discriminate.
Qed.

(* ---- C91 ---- *)
Lemma inst_C91 fuel : mp_sizes exP exE exz /\
  (exists r, mm_d exP exE fuel [] [("T", [Some 700]); ("p", [Some 1])] = Ok ([Some r], [Some (-1)]) /\
    mm_d exP exE fuel [] [("T", [Some 700]); ("p", [Some 1]); ("x", [Some (-1)])] = Ok ([Some r], [Some (-1)])) /\
  mm_s exP exE 0 [] (kTx (1/4)) = Ok ([Some (18 / 1000 * (3/4 * exs 900 + 1/4 * exs 9))], [Some (1/4)]) /\
  (forall q, 0 <= q <= 1000 -> mm_s exP exE 0 [] [("T", [Some 500]); ("p", [Some q]); ("x", [Some (1/4)])] = mm_s exP exE 0 [] (kTx (1/4))).
Proof.
  split; [exact exZ|]. split; [|split].
  - destruct (inst_C79 fuel) as (_ & _ & _ & _ & _ & _ & _ & _ & _ & r & H & _). exists r. split; [exact H|].
    etransitivity; [apply (single_methods exP exE fuel exz exZ (mm_d exP exE fuel) [Some 700] [Some 1] (-1)); [unfold mp_methods; cbn; auto|lra]|].
    match goal with |- bind ?m _ = _ => replace m with (Ok ([Some r], [Some (-1)]) : res (arr * arr)) by (symmetry; exact H) end. reflexivity.
  - rewrite ex_s_Tx by lra. do 3 f_equal. f_equal. lra.
  - intros q Hq. pose proof (ex_s_Tx (1/4) ltac:(lra)) as H. rewrite H. apply (mixture_methods exP exE 0 exz exZ); [unfold mp_methods; cbn; auto 10|exact H|cbn; lra].
Qed.
Lemma above_critical fuel : mm_T exP exE fuel [] [("T", [Some 700]); ("x", [Some (1/2)])] = Err PMParamError /\
  mm_T exP exE fuel [] [("T", [Some 700]); ("p", [Some 1]); ("x", [Some (1/2)])] = Ok ([None], [None]).
Proof.
  assert (LT : limited exE (mp_Tlim exP) (gT (z_T exz) [Some 700]) = Ok [Some 700]).
  { change (gT (z_T exz) [Some 700]) with ([Some 700] : arr). unfold limited. cbv zeta. cbn [mp_Tlim exP fst snd forallb map]. unfold num.
    rewrite (flt_false 700 273), (flt_false 1200 700) by lra. reflexivity. }
  assert (LP : limited exE (mp_plim exP) (gP (z_kP exz) [Some 1]) = Ok [Some 100000]).
  { replace (gP (z_kP exz) [Some 1]) with ([Some 100000] : arr) by (cbn; do 2 f_equal; lra). unfold limited. cbv zeta. cbn [mp_plim exP fst snd forallb map]. unfold num.
    rewrite (flt_false 100000 0), (flt_false 100000000 100000) by lra. reflexivity. }
  assert (LX : gX [Some (1/2)] = Ok [Some (1/2)]).
  { unfold gX. cbn [existsb]. unfold num. rewrite (flt_false 1 (1/2)), (flt_false (1/2) (-1)) by lra. reflexivity. }
  split.
  - unfold mm_T, method. rewrite (parse_Tx exP exE fuel exz exZ), LT. cbn [bind]. rewrite LX. cbn [bind].
    change (broadcast2 [Some 700] [Some (1/2)]) with (Ok [(Some 700, Some (1/2))] : res (list (fl * fl))). cbn [bind]. unfold from_Tx. cbn [existsb fst]. unfold num.
    rewrite (flt_true _ 700) by (cbn; lra). reflexivity.
  - unfold mm_T, method. rewrite (parse_Tpx exP exE fuel exz exZ), LT. cbn [bind]. rewrite LP. cbn [bind]. rewrite LX. cbn [bind].
    change (broadcast3 [Some 700] [Some 100000] [Some (1/2)]) with (Ok [(Some 700, Some 100000, Some (1/2))] : res (list (fl * fl * fl))). cbn [bind]. unfold from_Tpx. cbn [map]. unfold num.
    rewrite (flt_false (1/2) 0) by lra.
    destruct (unselected_d exP exE fuel [(false, Some 700, Some 100000, Some 0)]) as (ds & H & L); [intros e [<-|[]]; reflexivity|].
    match goal with |- context [mp_d ?a ?b ?c ?d] => replace (mp_d a b c d) with (Ok ds) by (symmetry; exact H) end.
    destruct ds as [|d [|]]; try discriminate L. cbn [bind]. unfold map2. cbn [combine map]. unfold num. cbn [fst snd]. rewrite (flt_false (1/2) 0) by lra.
    replace (flt (Some (mp_Tc exP)) (Some 700)) with true by (symmetry; apply flt_true; cbn; lra). cbn [bind map s_T s_x]. rewrite (atscale_from _ _ _ _ _ _ _ _ exZ). reflexivity.
Qed.

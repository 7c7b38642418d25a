(* hsd() and state() against the separate methods (C50, C73). *)
From Coq Require Import Reals ZArith List String Bool Lia Lra.
From Verif Require Import Base Model_Num Model_Units Model_Defaults Model_Igas Spec_Units Proof_Units Spec_Igas Proof_Igas
  Proof_IgasUnits Proof_IgasArgs Proof_IgasCalls Proof_IgasArr Proof_IgasAcc.
From Verif Require Import Model_Mp1Calls Spec_Mp1 Spec_Mp1Calls Proof_Mp1Units Proof_Mp1Poly Proof_Mp1Sat Proof_Mp1Args Proof_Mp1Calls
  Proof_Mp1Mix.
Import ListNotations.
Local Open Scope R_scope.
Local Open Scope string_scope.
Local Open Scope list_scope.

Lemma map2_self {A B C} (f : A -> B -> C) (g : A -> B) l : map2 f l (map g l) = map (fun s => f s (g s)) l.
Proof. unfold map2. induction l as [|a l IH]; cbn; [reflexivity|]. now rewrite IH. Qed.
Lemma map2_maps {S A B C} (f : A -> B -> C) (g : S -> A) (h : S -> B) l : map2 f (map g l) (map h l) = map (fun s => f (g s) (h s)) l.
Proof. unfold map2. induction l as [|a l IH]; cbn; [reflexivity|]. now rewrite IH. Qed.
Lemma combine_maps {S A B} (g : S -> A) (h : S -> B) l : combine (map g l) (map h l) = map (fun s => (g s, h s)) l.
Proof. induction l as [|a l IH]; cbn; [reflexivity|]. now rewrite IH. Qed.

(* sums and products of numbers that may be nan *)
Lemma fmul_comm a b : fmul a b = fmul b a.
Proof. destruct a as [a|], b as [b|]; cbn; try reflexivity. f_equal. ring. Qed.
Lemma mix_scale (h v x k : fl) : ((h * (num 1 - x) + v * x) * k = h * k * (num 1 - x) + v * k * x)%fl.
Proof. destruct h as [h|], v as [v|], x as [x|], k as [k|]; cbn; try reflexivity. f_equal. ring. Qed.

Section Hsd.
  Variables (D : mpdata) (E : env) (fuel : nat) (z : sizes).
  Hypothesis Z : mp_sizes D E z.
  Local Notation kg := (kgs D (z_kM z)).
  Local Notation kt := (z_kT z / (9/5)).
  Let kEp : 0 < z_kE z := kE_pos _ _ _ _ _ _ _ _ Z.
  Let kTp : 0 < z_kT z := kT_pos _ _ _ _ _ _ _ _ Z.
  Let kgp : 0 < kg := kgs_pos _ _ _ _ _ _ _ _ Z.

  Lemma hsd_h all T d : (fst (hsd_raw D all T d) * (num (mp_R D) * T))%fl = value0 (mp_h D all T d 0%nat).
  Proof.
    unfold hsd_raw, mp_h, value0. change (0 + 1)%nat with 1%nat.
    destruct (red_ao D T d) as [t0 d0]. destruct (ao_at D T d 1) as [[[[[a at_] ad] att] atd] add].
    destruct (red_ar D T d) as [t1 d1]. destruct (ar_at D all T d 1) as [[[[[b bt] bd] btt] btd] bdd].
    reflexivity.
  Qed.
  Lemma hsd_s all T d : (snd (hsd_raw D all T d) * num (mp_R D))%fl = value0 (mp_s D all T d 0%nat).
  Proof.
    unfold hsd_raw, mp_s, value0. change (0 + 1)%nat with 1%nat.
    destruct (red_ao D T d) as [t0 d0]. destruct (ao_at D T d 1) as [[[[[a at_] ad] att] atd] add].
    destruct (red_ar D T d) as [t1 d1]. destruct (ar_at D all T d 1) as [[[[[b bt] bd] btt] btd] bdd].
    reflexivity.
  Qed.
  Lemma hsd_values_eq l : hsd_values D l = (map (mixed_at (mp_h D) l) l, map (mixed_at (mp_s D) l) l, map mix_density l).
  Proof.
    unfold hsd_values. rewrite map2_self, map_map. f_equal. f_equal; apply map_ext; intro s; unfold mixed_at.
    - rewrite <- !hsd_h. destruct (hsd_raw D (liquid_all l) _ _) as [h e]. destruct (s_sat s); [|reflexivity].
      destruct (hsd_raw D (vapor_sat l) _ _) as [hv ev]. cbn [fst snd]. apply mix_scale.
    - rewrite <- !hsd_s. destruct (hsd_raw D (liquid_all l) _ _) as [h e]. destruct (s_sat s); [|reflexivity].
      destruct (hsd_raw D (vapor_sat l) _ _) as [hv ev]. cbn [fst snd]. apply mix_scale.
  Qed.

  Lemma hsd_val varg kw : mm_hsd D E fuel varg kw =
    do l <- mp_argparse D E fuel varg kw;
    Ok (map (fmul (Some (/ z_kE z / kg))) (map (mixed_at (mp_h D) l) l),
        map (fmul (Some (/ z_kE z / kg / kt))) (map (mixed_at (mp_s D) l) l),
        map (fmul (Some (z_kV z / kg))) (map mix_density l), map s_x l).
  Proof.
    unfold mm_hsd. destruct (mp_argparse _ _ _ _ _) as [l|]; [|reflexivity]. cbn [bind]. rewrite hsd_values_eq.
    rewrite (energy_c _ _ _ _ _ _ _ _ Z). cbn [bind]. rewrite (matter_c_pos _ _ _ _ _ _ _ _ Z). cbn [bind].
    rewrite (temp_c_pos _ _ _ _ _ _ _ _ Z). cbn [bind]. rewrite (out_density_val _ _ _ _ _ _ _ _ Z). cbn [bind].
    unfold scaled. f_equal. f_equal. f_equal. f_equal; apply map_ext; intro; apply fmul_comm.
  Qed.
  Lemma mm_h_val varg kw : mm_h D E fuel varg kw =
    do l <- mp_argparse D E fuel varg kw; Ok (map (fmul (Some (kg / z_kE z))) (map (mixed_at (mp_h D) l) l), map s_x l).
  Proof.
    unfold mm_h, method. destruct (mp_argparse _ _ _ _ _); [|reflexivity]. cbn [bind].
    rewrite (out_energy_val _ _ _ _ _ _ _ _ Z). reflexivity.
  Qed.
  Lemma mm_s_val varg kw : mm_s D E fuel varg kw =
    do l <- mp_argparse D E fuel varg kw; Ok (map (fmul (Some (kg / z_kE z * kt))) (map (mixed_at (mp_s D) l) l), map s_x l).
  Proof.
    unfold mm_s, method. destruct (mp_argparse _ _ _ _ _); [|reflexivity]. cbn [bind].
    rewrite (out_heat_val _ _ _ _ _ _ _ _ Z). reflexivity.
  Qed.

  (* every call: density and quality are those of d(), h and s are off by powers of the sizes of
     the units of matter (in kg) and of temperature (in K) *)
  Theorem hsd_related varg kw :
    match mm_hsd D E fuel varg kw, mm_h D E fuel varg kw, mm_s D E fuel varg kw, mm_d D E fuel varg kw with
    | Ok (h, s, d, x), Ok (h', x1), Ok (s', x2), Ok (d', x3) =>
        d = d' /\ x = x1 /\ x = x2 /\ x = x3 /\
        h' = map (fun y => fmul (Some (kg * kg)) y) h /\
        s' = map (fun y => fmul (Some (kg * kg * kt * kt)) y) s
    | Err e, Err e1, Err e2, Err e3 => e = e1 /\ e = e2 /\ e = e3
    | _, _, _, _ => False
    end.
  Proof.
    rewrite hsd_val, mm_h_val, mm_s_val, (mm_d_val D E fuel _ _ _ _ _ _ Z).
    destruct (mp_argparse D E fuel varg kw) as [l|]; cbn [bind]; [|auto].
    repeat split; rewrite !map_map; apply map_ext; intro s.
    - destruct (mixed_at (mp_h D) l s) as [y|]; [|reflexivity]. cbn. f_equal. field. lra.
    - destruct (mixed_at (mp_s D) l s) as [y|]; [|reflexivity]. cbn. f_equal. field. lra.
  Qed.

  Lemma map_one (f : fl -> fl) (l : arr) : (forall x, f x = x) -> map f l = l.
  Proof. intro H. induction l; cbn; [reflexivity|]. now rewrite H, IHl. Qed.

  (* one kilogram and one kelvin: the same numbers *)
  Theorem hsd_agrees varg kw h s d x : kg = 1 -> mm_hsd D E fuel varg kw = Ok (h, s, d, x) ->
    mm_h D E fuel varg kw = Ok (h, x) /\ mm_d D E fuel varg kw = Ok (d, x) /\
    (kt = 1 -> mm_s D E fuel varg kw = Ok (s, x)).
  Proof.
    intros K1 H. pose proof (hsd_related varg kw) as R. rewrite H in R.
    destruct (mm_h D E fuel varg kw) as [[h' x1]|]; [|contradiction].
    destruct (mm_s D E fuel varg kw) as [[s' x2]|]; [|contradiction].
    destruct (mm_d D E fuel varg kw) as [[d' x3]|]; [|contradiction].
    destruct R as (-> & <- & <- & <- & -> & ->). split; [|split; [reflexivity|]].
    - do 2 f_equal. apply map_one. intros [y|]; [|reflexivity]. cbn. f_equal. rewrite K1. ring.
    - intro K2. do 2 f_equal. apply map_one. intros [y|]; [|reflexivity]. cbn. f_equal. rewrite K1, K2. ring.
  Qed.

  (* another unit of matter: never the same numbers *)
  Theorem hsd_differs varg kw h s d x i y : kg <> 1 -> mm_hsd D E fuel varg kw = Ok (h, s, d, x) ->
    nth_error h i = Some (Some y) -> y <> 0 ->
    exists h', mm_h D E fuel varg kw = Ok (h', x) /\ nth_error h' i <> Some (Some y).
  Proof.
    intros K1 H Hi Hy. pose proof (hsd_related varg kw) as R. rewrite H in R.
    destruct (mm_h D E fuel varg kw) as [[h' x1]|]; [|contradiction].
    destruct (mm_s D E fuel varg kw) as [[s' x2]|]; [|contradiction].
    destruct (mm_d D E fuel varg kw) as [[d' x3]|]; [|contradiction].
    destruct R as (-> & <- & <- & <- & -> & ->). eexists. split; [reflexivity|].
    rewrite (nth_map_some (fun y => fmul (Some (kg * kg)) y) _ _ _ Hi). cbn. intro Q. injection Q as Q.
    apply K1. assert (K2 : kg * kg = 1) by (apply (Rmult_eq_reg_r y); [lra|exact Hy]).
    clear - K2 kgp. nra.
  Qed.
End Hsd.

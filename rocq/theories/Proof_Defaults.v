From Coq Require Import Reals String List.
From Verif Require Import Model_Units Model_Defaults Spec_Units Proof_Units.
Local Open Scope string_scope.

Lemma tscale_explicit c1 c2 v a b :
  temperature_scale c1 v (Some a) (Some b) = temperature_scale c2 v (Some a) (Some b).
Proof. reflexivity. Qed.

Lemma convert_explicit cv c1 c2 v a b e :
  convert cv c1 v (Some a) (Some b) e = convert cv c2 v (Some a) (Some b) e.
Proof. reflexivity. Qed.

Lemma def_T_physical c1 c2 c v u u1 u2 r1 r2 :
  u <> "abs" -> u1 <> "abs" -> u2 <> "abs" ->
  dget "unit_temperature" c1 = Some u1 -> dget "unit_temperature" c2 = Some u2 ->
  def_T c1 v u = Ok r1 -> def_T c2 v u = Ok r2 ->
  temperature_scale c r1 (Some u1) (Some u2) = Ok r2.
Proof.
  unfold def_T. intros Hu H1 H2 D1 D2 R1 R2.
  rewrite (tscale_resolved c1 v (Some u) None u u1) in R1 by (cbn; auto).
  rewrite (tscale_resolved c2 v (Some u) None u u2) in R2 by (cbn; auto).
  apply tscale_round_trip in R1. 
  apply (tscale_compose c r1 u1 u u2 v r2); auto.
Qed.

Lemma convert_none cv c v a e u :
  default_unit cv c None = Ok u ->
  convert cv c v (Some a) None e = convert cv c v (Some a) (Some u) e.
Proof. intro H. unfold convert. rewrite H. reflexivity. Qed.

Lemma def_p_physical s c1 c2 c v u u1 u2 r1 r2 :
  positive_setup s ->
  dget "unit_pressure" c1 = Some u1 -> dget "unit_pressure" c2 = Some u2 ->
  def_p s c1 v u = Ok r1 -> def_p s c2 v u = Ok r2 ->
  convert (units_of s QPressure) c r1 (Some u1) (Some u2) None = Ok r2.
Proof.
  unfold def_p. intros Hs D1 D2 R1 R2.
  rewrite (convert_none _ c1 v u None u1) in R1 by (unfold default_unit, cfg_get; cbn; now rewrite D1).
  rewrite (convert_none _ c2 v u None u2) in R2 by (unfold default_unit, cfg_get; cbn; now rewrite D2).
  apply (round_trip s QPressure) in R1; [|assumption].
  apply (compose s QPressure c r1 (Some u1) (Some u) (Some u2) None v r2 Hs).
  - exact R1.
  - exact R2.
Qed.

Lemma def_p_value s c v u u1 k k1 :
  positive_setup s -> dget "unit_pressure" c = Some u1 ->
  si s QPressure u = Some k -> si s QPressure u1 = Some k1 ->
  def_p s c v u = Ok (v * (k / k1))%R.
Proof.
  unfold def_p. intros Hs D1 Hk Hk1.
  rewrite (convert_none _ c v u None u1) by (unfold default_unit, cfg_get; cbn; now rewrite D1).
  rewrite (convert_spec s QPressure c v u u1 None k k1 Hs Hk Hk1). now rewrite zpow_1.
Qed.

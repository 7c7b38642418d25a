(* Property theorem C58: the default state (src/pyromat/utility.py 390-407). *)
From Coq Require Import Reals String List Lra.
From Verif Require Import Model_Units Model_Defaults Spec_Units Proof_Units Proof_Defaults.
Import ListNotations.
Local Open Scope string_scope.

(* under two unit configurations the two readings are the same temperature *)
Theorem C58_default_temperature : forall c1 c2 c v u u1 u2 r1 r2,
  u <> "abs" -> u1 <> "abs" -> u2 <> "abs" ->
  dget "unit_temperature" c1 = Some u1 -> dget "unit_temperature" c2 = Some u2 ->
  def_T c1 v u = Ok r1 -> def_T c2 v u = Ok r2 ->
  temperature_scale c r1 (Some u1) (Some u2) = Ok r2.
Proof. exact def_T_physical. Qed.
Print Assumptions C58_default_temperature.

Theorem C58_default_pressure : forall s c1 c2 c v u u1 u2 r1 r2,
  positive_setup s ->
  dget "unit_pressure" c1 = Some u1 -> dget "unit_pressure" c2 = Some u2 ->
  def_p s c1 v u = Ok r1 -> def_p s c2 v u = Ok r2 ->
  convert (units_of s QPressure) c r1 (Some u1) (Some u2) None = Ok r2.
Proof. exact def_p_physical. Qed.
Print Assumptions C58_default_pressure.

(* and the pressure is the configured amount of the configured default unit *)
Theorem C58_default_pressure_value : forall s c v u u1 k k1,
  positive_setup s -> dget "unit_pressure" c = Some u1 ->
  si s QPressure u = Some k -> si s QPressure u1 = Some k1 ->
  def_p s c v u = Ok (v * (k / k1))%R.
Proof. exact def_p_value. Qed.
Print Assumptions C58_default_pressure_value.

Example C58_instance :
  def_T [("unit_temperature", "C")] (29815/100) "K" = Ok (29815/100 - (273 + 15/100))%R /\
  def_T [("unit_temperature", "R")] (29815/100) "K" = Ok (29815/100 * (18/10))%R /\
  def_p default_setup [("unit_pressure", "kPa")] (101325/100000) "bar"
    = Ok (101325/100000 * (10^5 / 1000))%R.
Proof.
  split; [reflexivity|]. split; [reflexivity|].
  apply C58_default_pressure_value with (u1 := "kPa"); try reflexivity. exact default_positive.
Qed.

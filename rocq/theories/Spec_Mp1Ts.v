(* Independent vocabulary for the saturation methods (C82). *)
From Coq Require Import Reals ZArith List.
From Verif Require Import Base Model_Igas Model_Mp1Calls Model_Mp1Warn Spec_Igas Spec_Mp1 Spec_Mp1Calls.
Import ListNotations.
Local Open Scope R_scope.
Local Open Scope list_scope.

(* the vapor pressure (Pa) at the temperature T (K) *)
Definition vapor_pressure (D : mpdata) (T : R) : R := sat_value (mp_PS D) T.
(* a vapor pressure fit as shipped: one of the forms in 1 - T/Tc, with positive powers *)
Definition curve_ok (D : mpdata) : Prop :=
  sat_wf (mp_PS D) /\ sg_fn (mp_PS D) <> 0%Z /\ sg_Tscale (mp_PS D) = mp_Tc D /\
  Forall (fun c => 0 < c1_pre c /\ 0 <= c1_post c) (sg_coef (mp_PS D)) /\ 0 < mp_Tt D < mp_Tc D.
(* the temperatures at which the saturation temperature is looked for *)
Definition sat_range (D : mpdata) (T : R) : Prop := 99/100 * mp_Tt D <= T <= mp_Tc D.
(* m and M bound the slope of the vapor pressure; the last condition is about the slope the fit
   reports at the critical temperature, if it reports one *)
Definition slopes (D : mpdata) (m M : R) : Prop :=
  0 < m /\
  (forall a b, sat_range D a -> sat_range D b -> a <= b ->
     m * (b - a) <= vapor_pressure D b - vapor_pressure D a <= M * (b - a)) /\
  (forall v d w, satcurve (mp_PS D) (Some (mp_Tc D)) 1 = Ok (Some v, Some d, w) -> m <= d <= M).
(* the fit reports no slope at the critical temperature (for example a power below 1 of 1 - T/Tc) *)
Definition no_critical_slope (D : mpdata) : Prop :=
  forall v d w, satcurve (mp_PS D) (Some (mp_Tc D)) 1 <> Ok (Some v, Some d, w).
(* the methods that report a property of the saturated liquid and of the saturated vapor *)
Definition sat_methods (D : mpdata) (E : env) : list (option arr -> option arr -> res (arr * arr)) :=
  [mm_es D E; mm_hs D E; mm_ss D E; mm_ds D E; mm_vs D E].
(* arrays of one length, or one quality for all pressures *)
Definition matching (q xs : arr) : Prop := List.length q = List.length xs \/ List.length xs = 1%nat.

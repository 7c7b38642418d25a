(* Which part of the release answers at an enthalpy and a pressure (K, bar, kJ/kg). *)
From Coq Require Import Reals ZArith List.
From Verif Require Import Base Model_If97 Spec_If97 Spec_If97Units.
Local Open Scope R_scope.

(* h is the enthalpy at p and t that the Gibbs energy G gives *)
Definition enthalpy_of (G : R -> R -> R) (p t h : R) : Prop := exists s v e cp, gibbs_state G p t h s v e cp.
(* the data can be evaluated on the boundaries of the regions at p *)
Definition boundaries_fit (D : ifdata) (p : R) : Prop :=
  (p < 165.292 -> exists Ts, if_Ts D (Some p) = Some Ts /\ 0 < Ts /\ fit1 D Ts p /\ fit2 D Ts p) /\
  (165.292 <= p -> exists T23, b23_p D (Some p) = Some T23 /\ 0 < T23 /\ fit1 D T23 p /\ fit2 D T23 p) /\
  fit1 D 623.15 p /\ fit2 D 623.15 p /\ fit5 D 1073.15 p /\ fit5 D 2273.15 p.

Definition chosen_h (D : ifdata) (h p T q : R) : Prop :=
  let region5 h25 := exists h5, enthalpy_of (gibbs5 D) p 2273.15 h5 /\ h25 <= h <= h5 /\ q = -1 /\ from_region5 D h p T in
  (p < 165.292 /\ exists Ts hL hV, if_Ts D (Some p) = Some Ts /\ enthalpy_of (gibbs1 D) p Ts hL /\ enthalpy_of (gibbs2 D) p Ts hV /\
     ((h < hL /\ fitted (if_th1 D) (p / 10) (h / 2500 + 1) T q) \/
      (hL <= h < hV /\ T = Ts /\ q = (h - hL) / (hV - hL)) \/
      (hL <= h /\ hV <= h /\ p < 40 /\ exists h25, enthalpy_of (gibbs5 D) p 1073.15 h25 /\
         ((h < h25 /\ fitted (if_th2a D) (p / 10) (h / 2000 - 2.1) T q) \/ region5 h25)) \/
      (hL <= h /\ hV <= h /\ 45.257578905948 < p /\ below h (b2bc_p D (Some p)) /\ fitted (if_th2c D) (p / 10 + 25) (h / 2000 - 1.8) T q) \/
      (hL <= h /\ hV <= h /\ 40 <= p /\ (p <= 45.257578905948 \/ ~ below h (b2bc_p D (Some p))) /\
         exists h25, enthalpy_of (gibbs5 D) p 1073.15 h25 /\
         ((h < h25 /\ fitted (if_th2b D) (p / 10 - 2) (h / 2000 - 2.6) T q) \/ region5 h25)))) \/
  (165.292 <= p <= 1000 /\ exists h13, enthalpy_of (gibbs1 D) p 623.15 h13 /\
     ((h < h13 /\ fitted (if_th1 D) (p / 10) (h / 2500 + 1) T q) \/
      (h13 <= h /\ exists T23 h23, b23_p D (Some p) = Some T23 /\ enthalpy_of (gibbs2 D) p T23 h23 /\
         ((h < h23 /\ q = -1 /\ from_region3 D h p T) \/
          (h23 <= h /\ below h (b2bc_p D (Some p)) /\ fitted (if_th2c D) (p / 10 + 25) (h / 2000 - 1.8) T q) \/
          (h23 <= h /\ ~ below h (b2bc_p D (Some p)) /\ exists h25, enthalpy_of (gibbs5 D) p 1073.15 h25 /\
             ((h < h25 /\ fitted (if_th2b D) (p / 10 - 2) (h / 2000 - 2.6) T q) \/ (p < 500 /\ region5 h25))))))).
(* the polynomials for T(h,p) can be evaluated at h and p *)
Definition inverses_fit (D : ifdata) (h p : R) : Prop :=
  usable_at (if_th1 D) (p / 10) (h / 2500 + 1) /\ usable_at (if_th2a D) (p / 10) (h / 2000 - 2.1) /\
  usable_at (if_th2b D) (p / 10 - 2) (h / 2000 - 2.6) /\ usable_at (if_th2c D) (p / 10 + 25) (h / 2000 - 1.8).

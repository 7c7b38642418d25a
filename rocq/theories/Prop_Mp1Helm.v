(* Property theorems C45, C47 and C69: the Helmholtz free energy of src/pyromat/registry/mp1.py
   and the properties computed from it. *)
From Coq Require Import Reals ZArith List Lia Lra.
From Verif Require Import Model_Mp1 Spec_Mp1 Proof_Jets Proof_Mp1Helm Proof_Mp1Res Proof_Mp1Crit
  Proof_Mp1Thm Proof_Mp1Neg Proof_Mp1Ex.
Import ListNotations.
Local Open Scope R_scope.
Local Open Scope list_scope.

(* ---- C45 : derivatives of the Helmholtz free energy ---- *)
(* ideal part: any coefficients *)
Theorem C45_ideal : forall G diff t d, ao_wf G -> 0 < t -> 0 < d ->
  exact2 diff (ideal_energy G) t d (ao G (Some t) (Some d) diff).
Proof. exact ao_exact. Qed.
Print Assumptions C45_ideal.

(* residual part without critical point terms, whatever else is in the array.  What is missing:
   data with polynomials for which C43 fails. *)
Theorem C45_residual_partial : forall G all diff t d, ar_coef2 G = None -> ar_wf G ->
  (diff = 0%nat \/ ar_prey_ok G) -> 0 < t -> 0 < d ->
  exact2 diff (residual_energy G) t d (ar G all (Some t) (Some d) diff).
Proof. exact ar_exact01. Qed.
Print Assumptions C45_residual_partial.

(* with critical point terms, at every state with Delta > 0.  What is missing: the mixed
   derivative, which is wrong (below), except when the array holds a state with Delta near 0;
   and states below the critical density in an array with a critical one (C69). *)
Theorem C45_critical_partial : forall G l all diff t d, ar_wf G -> ar_coef2 G = Some l -> Forall crit_wf l ->
  (diff = 0%nat \/ ar_prey_ok G) -> 0 < t -> 0 < d -> Forall (fun r => 0 < delta_fn r t d) l ->
  In (Some t, Some d) all -> (~ near_critical all \/ 1 <= d) ->
  exact2_but_mixed diff (residual_energy G) t d (ar G all (Some t) (Some d) diff) /\
  ((diff <= 1)%nat \/ (forall r, In r l -> near_zero_delta all r) ->
   exact2 diff (residual_energy G) t d (ar G all (Some t) (Some d) diff)).
Proof. exact ar_exact_spec. Qed.
Print Assumptions C45_critical_partial.

(* the value is right at every state, the critical point included *)
Theorem C45_critical_value : forall G l all t d diff, ar_wf G -> ar_coef2 G = Some l -> Forall crit_wf l ->
  (diff = 0%nat \/ ar_prey_ok G) -> 0 < t -> 0 < d ->
  exists a b c e f, ar G all (Some t) (Some d) diff = (Some (residual_energy G t d), a, b, c, e, f).
Proof. exact ar_value. Qed.
Print Assumptions C45_critical_value.

(* FINDING: with a critical point term the mixed derivative is not that of the energy *)
Theorem C45_mixed_refuted : forall G r t d, ar_wf G -> ar_prey_ok G -> ar_coef2 G = Some [r] -> crit_wf r ->
  r2_c r <> 0 -> 0 <= r2_A r -> 0 < t -> 1 + 1 / 1000000 <= d -> 1 / 1000000 <= delta_fn r t d ->
  exists p px py pxx pxy pyy,
    ar G [(Some t, Some d)] (Some t) (Some d) 2 = (Some p, Some px, Some py, Some pxx, Some pxy, Some pyy) /\
    ~ mixed (residual_energy G) t d pxy.
Proof. exact mixed_wrong. Qed.
Print Assumptions C45_mixed_refuted.

(* data with every kind of term, the critical ones as shipped for water *)
Example C45_instance :
  ao_wf (ex_ao 600) /\ ar_wf (ex_ar (Some [ex_row])) /\ ar_prey_ok (ex_ar (Some [ex_row])) /\
  Forall crit_wf [ex_row] /\ 0 < 600 / 500 /\ 1 + 1 / 1000000 <= 600 / 300 /\
  1 / 1000000 <= delta_fn ex_row (600 / 500) (600 / 300) /\ r2_c ex_row <> 0 /\ 0 <= r2_A ex_row.
Proof.
  destruct (ex_wf 600 (Some [ex_row]) ltac:(lra)) as (A & B & C & _). cbn in A, B, C.
  split; [exact A|]. split; [exact B|]. split; [exact C|].
  split; [constructor; [exact ex_row_wf|constructor]|]. split; [lra|]. split; [lra|].
  split; [exact ex_delta|]. cbn. split; lra.
Qed.

(* ---- C47 : thermodynamic identities ---- *)
(* every property is the documented combination of the free energy and its derivatives.  The
   _partial theorems below miss: states outside residual_ok (Spec_Mp1), data whose two groups
   have different temperature scales (energy only), and the derivatives with critical terms. *)
Theorem C47_from_free_energy_partial : forall D, mp_wf D -> forall all T d,
  0 < T -> 0 < d -> residual_ok D all T d ->
  exists fT fd, partials1 (helmholtz D) T d fT fd /\
  forall diff,
    gives (mp_f D all (Some T) (Some d) diff) (helmholtz D T d) /\
    gives (mp_s D all (Some T) (Some d) diff) (- fT) /\
    gives (mp_p D all (Some T) (Some d) diff) (d * d * fd) /\
    gives (mp_h D all (Some T) (Some d) diff) (helmholtz D T d - T * fT + d * fd) /\
    gives (mp_g D all (Some T) (Some d) diff) (helmholtz D T d + d * fd) /\
    (ao_Tscale (mp_AO D) = ar_Tscale (mp_AR D) ->
     gives (mp_e D all (Some T) (Some d) diff) (helmholtz D T d - T * fT)).
Proof. exact property_values. Qed.
Print Assumptions C47_from_free_energy_partial.

Theorem C47_relations_partial : forall D, mp_wf D -> forall all T d diff,
  0 < T -> 0 < d -> residual_ok D all T d ->
  exists f s p h g,
    gives (mp_f D all (Some T) (Some d) diff) f /\ gives (mp_s D all (Some T) (Some d) diff) s /\
    gives (mp_p D all (Some T) (Some d) diff) p /\ gives (mp_h D all (Some T) (Some d) diff) h /\
    gives (mp_g D all (Some T) (Some d) diff) g /\
    g = h - T * s /\ g = f + p / d /\
    (ao_Tscale (mp_AO D) = ar_Tscale (mp_AR D) ->
     exists e, gives (mp_e D all (Some T) (Some d) diff) e /\ h = e + p / d /\ f = e - T * s).
Proof. exact property_relations. Qed.
Print Assumptions C47_relations_partial.

(* the heat capacities and the speed of sound: cv = -T f_TT, which is the derivative of the
   energy the energy routine returns; cp - cv = T pT^2 / (d^2 pd), a^2 = pd cp/cv *)
Theorem C47_heat_capacities_partial : forall D, mp_wf D -> forall all T d,
  0 < T -> 0 < d -> residual_ok D all T d ->
  exists fTT fdd cv p pT pd, deriv2 (fun u => helmholtz D u d) T fTT /\
    deriv2 (fun w => helmholtz D T w) d fdd /\
    mp_cv D all (Some T) (Some d) = Some cv /\ cv = - T * fTT /\
    mp_p D all (Some T) (Some d) 1 = (Some p, Some pT, Some pd) /\
    pd = 2 * p / d + d * d * fdd /\
    (pd <> 0 -> mp_cp D all (Some T) (Some d) = Some (cv + T * (pT * pT) / (d * d * pd))) /\
    (pd = 0 -> mp_cp D all (Some T) (Some d) = None) /\
    (cv <> 0 -> mp_a D all (Some T) (Some d) = fsqrt (Some (pd + T * (pT * pT) / (d * d * cv)))) /\
    (forall cp, cv <> 0 -> pd <> 0 -> mp_cp D all (Some T) (Some d) = Some cp ->
       mp_a D all (Some T) (Some d) = fsqrt (Some (pd * (cp / cv)))) /\
    (ao_Tscale (mp_AO D) = ar_Tscale (mp_AR D) ->
     exists e ed, mp_e D all (Some T) (Some d) 1 = (Some e, Some cv, Some ed)).
Proof. exact heat_capacity. Qed.
Print Assumptions C47_heat_capacities_partial.

(* the derivatives every routine returns (used by the inversions) are those of the values it
   returns *)
Theorem C47_derivatives_partial : forall D, mp_wf D -> ar_coef2 (mp_AR D) = None -> forall all T d,
  0 < T -> 0 < d ->
  own_derivatives (mp_f D all) T d /\ own_derivatives (mp_s D all) T d /\
  own_derivatives (mp_p D all) T d /\ own_derivatives (mp_h D all) T d /\
  own_derivatives (mp_g D all) T d /\
  (ao_Tscale (mp_AO D) = ar_Tscale (mp_AR D) -> own_derivatives (mp_e D all) T d).
Proof. exact own_all. Qed.
Print Assumptions C47_derivatives_partial.

(* FINDING: with a critical point term (water, carbon dioxide) the temperature slope of
   pressure that the pressure routine returns is not the slope of the pressure it returns;
   cp, the speed of sound and every inversion use it *)
Theorem C47_pressure_slope_refuted : forall D r, mp_wf D -> ar_coef2 (mp_AR D) = Some [r] -> crit_wf r ->
  r2_c r <> 0 -> 0 <= r2_A r -> 0 < r2_B r -> forall T d, 0 < T ->
  (1 + 1 / 1000000) * ar_dscale (mp_AR D) <= d ->
  1 / 1000000 <= delta_fn r (ar_Tscale (mp_AR D) / T) (d / ar_dscale (mp_AR D)) ->
  exists p pT pd, mp_p D [(Some T, Some d)] (Some T) (Some d) 1 = (Some p, Some pT, Some pd) /\
    exists fn, (forall u, 0 < u -> gives (mp_p D [(Some u, Some d)] (Some u) (Some d) 0) (fn u)) /\
      ~ deriv fn T pT.
Proof. exact pressure_slope_wrong. Qed.
Print Assumptions C47_pressure_slope_refuted.

(* FINDING: data whose ideal and residual groups have different temperature scales, which the
   file format allows, gets a wrong internal energy *)
Theorem C47_energy_scale_refuted : forall D all T d l, mp_wf D -> ar_coef2 (mp_AR D) = None ->
  ao_Tscale (mp_AO D) <> ar_Tscale (mp_AR D) -> 0 < T -> 0 < d ->
  deriv (fun t => ideal_energy (mp_AO D) t (d / ao_dscale (mp_AO D))) (ao_Tscale (mp_AO D) / T) l -> l <> 0 ->
  exists e fT, gives (mp_e D all (Some T) (Some d) 0) e /\ deriv (fun u => helmholtz D u d) T fT /\
    e <> helmholtz D T d - T * fT.
Proof. exact energy_scale_wrong. Qed.
Print Assumptions C47_energy_scale_refuted.

(* liquid at 500 K of a substance with critical point 600 K, 300 kg/m3; with and without the
   critical terms; and with different temperature scales *)
Example C47_instance :
  mp_wf (ex_data 600 None) /\ residual_ok (ex_data 600 None) [] 500 600 /\
  mp_wf (ex_data 600 (Some [ex_row])) /\
  residual_ok (ex_data 600 (Some [ex_row])) [(Some 500, Some 600)] 500 600 /\
  (1 + 1 / 1000000) * 300 <= 600 /\ 1 / 1000000 <= delta_fn ex_row (600 / 500) (600 / 300) /\
  mp_wf (ex_data 100 None) /\ (100 : R) <> 600.
Proof.
  pose proof (ex_wf 600 None ltac:(lra)). pose proof (ex_wf 600 (Some [ex_row]) ltac:(lra)).
  pose proof (ex_wf 100 None ltac:(lra)). pose proof ex_delta as HD.
  split; [assumption|]. split; [left; reflexivity|]. split; [assumption|]. split.
  { right. exists [ex_row]. split; [reflexivity|]. split; [constructor; [exact ex_row_wf|constructor]|].
    split; [constructor; [cbn; lra|constructor]|]. split; [left; reflexivity|right; cbn; lra]. }
  split; [lra|]. split; [assumption|]. split; [assumption|lra].
Qed.

(* ---- C69 : array evaluation is element by element ---- *)
(* all is the whole array the element (T, d) is evaluated with.  What is missing: data with
   critical point terms, for which it is false (below). *)
Theorem C69_elements_independent_partial : forall D all all' T d diff, ar_coef2 (mp_AR D) = None ->
  mp_p D all T d diff = mp_p D all' T d diff /\ mp_e D all T d diff = mp_e D all' T d diff /\
  mp_h D all T d diff = mp_h D all' T d diff /\ mp_s D all T d diff = mp_s D all' T d diff /\
  mp_f D all T d diff = mp_f D all' T d diff /\ mp_g D all T d diff = mp_g D all' T d diff /\
  mp_a D all T d = mp_a D all' T d /\ mp_cp D all T d = mp_cp D all' T d /\
  mp_cv D all T d = mp_cv D all' T d.
Proof. exact elementwise. Qed.
Print Assumptions C69_elements_independent_partial.

(* FINDING: adding an element at the critical density to the array changes the pressure of the
   other elements (those above the critical temperature and below the critical density) *)
Theorem C69_elements_independent_refuted : forall D r, mp_wf D -> ar_coef2 (mp_AR D) = Some [r] ->
  crit_wf r -> r2_c r <> 0 -> 0 <= r2_A r -> 0 < r2_B r -> forall T d (T' : fl),
  ar_Tscale (mp_AR D) <= T -> 0 < d <= (1 - 1 / 1000000) * ar_dscale (mp_AR D) ->
  exists p q, gives (mp_p D [(Some T, Some d)] (Some T) (Some d) 0) p /\
    gives (mp_p D [(Some T, Some d); (T', Some (ar_dscale (mp_AR D)))] (Some T) (Some d) 0) q /\ p <> q.
Proof. exact pressure_depends_on_neighbour. Qed.
Print Assumptions C69_elements_independent_refuted.

Example C69_instance :
  mp_wf (ex_data 600 (Some [ex_row])) /\ crit_wf ex_row /\ r2_c ex_row <> 0 /\ 0 <= r2_A ex_row /\
  0 < r2_B ex_row /\ (600 : R) <= 700 /\ 0 < 100 <= (1 - 1 / 1000000) * 300 /\
  ar_coef2 (mp_AR (ex_data 600 None)) = None.
Proof.
  split; [apply ex_wf; lra|]. split; [exact ex_row_wf|]. cbn. repeat split; lra.
Qed.

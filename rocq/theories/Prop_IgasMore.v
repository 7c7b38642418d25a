(* Property theorems C74, C80: state(), limits and inversions of the ideal gas classes
   (src/pyromat/registry/ig.py, ig2.py, igmix.py). *)
From Coq Require Import Reals ZArith List String Bool Lia Lra.
From Verif Require Import Base Model_Num Model_Units Model_Defaults Model_Igas Model_IgWarn Spec_Units Spec_Igas
  Spec_IgasMore Proof_IgasCalls Proof_IgasEx Proof_IgasInst Proof_IgasMore Proof_IgasInvEx.
Import ListNotations.
Local Open Scope R_scope.
Local Open Scope string_scope.
Local Open Scope list_scope.

(* ---- C74 : state() against the methods of the same names ---- *)
Theorem C74_state_agrees : forall E g uT kT kP kV kE kM,
  species E g -> units_known E (g_mw g) uT kT kP kV kE kM ->
  forall varg kw, (List.length varg + List.length kw <> 1)%nat ->
  (exists st, m_state g E varg kw = Ok st /\
     map fst st = ["T"; "p"; "d"; "v"; "h"; "e"; "gam"; "s"; "cp"; "cv"] /\
     forall n m, In (n, m) (state_entries g E) -> exists v, m varg kw = Ok v /\ dget n st = Some v) \/
  (exists e, m_state g E varg kw = Err e /\
     forall n m, In (n, m) (state_entries g E) -> m varg kw = Err e).
Proof. exact state_agrees. Qed.
Print Assumptions C74_state_agrees.

(* with a single argument the T of state() is not that of T() *)
Theorem C74_state_one_argument_refuted :
  let E := session "Pa" 100000 "Pa" in
  exists st t t', m_state g1 E [] [("d", [Some (5/100)])] = Ok st /\ dget "T" st = Some [Some t] /\
    m_T g1 E [] [("d", [Some (5/100)])] = Ok [Some t'] /\ t <> t'.
Proof. exact state_T_differs. Qed.
Print Assumptions C74_state_one_argument_refuted.

(* Tlim() is the validity interval in the configured temperature unit *)
Theorem C74_Tlim : forall E g uT kT kP kV kE kM,
  units_known E (g_mw g) uT kT kP kV kE kM ->
  exists lo hi, m_Tlim g E = Ok (lo, hi) /\
    temperature_scale (e_cfg E) lo None (Some "K") = Ok (nth 0 (g_Tlim g) 0) /\
    temperature_scale (e_cfg E) hi None (Some "K") = Ok (last (g_Tlim g) 0).
Proof. exact Tlim_reported. Qed.
Print Assumptions C74_Tlim.

Example C74_instance :
  let E := session "bar" 1 "bar" in
  species E g1 /\ units_known E (g_mw g1) "K" (9/5) (10^5) 1 1000 1 /\
  exists st, m_state g1 E [] [("T", [Some 300]); ("d", [Some 2])] = Ok st /\
    dget "T" st = Some [Some 300] /\ dget "d" st = Some [Some 2] /\
    dget "cv" st = Some [Some (300 - gas_constant)].
Proof. exact inst_C74. Qed.

(* ---- C80 : when T is found from e, h or s without the warning, the value is reproduced ---- *)
(* also through T_h; m and M bound the slope of the property between the temperature limits *)
Theorem C80_T_from_h : forall E g uT kT kP kV kE kM,
  species E g -> units_known E (g_mw g) uT kT kP kV kE kM ->
  forall a b Ts m M, List.length a = List.length b -> 0 < m ->
  m_T g E [] [("h", a); ("p", b)] = Ok Ts \/ m_T_h g E a (Some b) None = Ok Ts ->
  call_warns g E [("h", a); ("p", b)] = Ok false ->
  steep (fun t => value (fst (g_h g (Some t)))) (fun t => value (g_cp g (Some t))) (Tlow g) (Thigh g) m M ->
  exists out, m_h g E [] [("T", Ts); ("p", b)] = Ok out /\ List.length out = List.length a /\
    forall i y, nth_error a i = Some (Some y) -> exists z, nth_error out i = Some (Some z) /\
      Rabs (z - y) <= M / m * (/ 1000000 * Rabs y).
Proof. exact h_found. Qed.
Print Assumptions C80_T_from_h.

Theorem C80_T_from_e : forall E g uT kT kP kV kE kM,
  species E g -> units_known E (g_mw g) uT kT kP kV kE kM ->
  forall a b Ts m M, List.length a = List.length b -> 0 < m ->
  m_T g E [] [("e", a); ("p", b)] = Ok Ts ->
  call_warns g E [("e", a); ("p", b)] = Ok false ->
  steep (fun t => value (fst (g_e g (Some t)))) (fun t => value (g_cp g (Some t)) - gas_constant)
    (Tlow g) (Thigh g) m M ->
  exists out, m_e g E [] [("T", Ts); ("p", b)] = Ok out /\ List.length out = List.length a /\
    forall i y, nth_error a i = Some (Some y) -> exists z, nth_error out i = Some (Some z) /\
      Rabs (z - y) <= M / m * (/ 1000000 * Rabs y).
Proof. exact e_found. Qed.
Print Assumptions C80_T_from_e.

(* r is the reported gas constant; the tolerance is relative to the entropy at the reference pressure *)
Theorem C80_T_from_s_p : forall E g uT kT kP kV kE kM,
  species E g -> units_known E (g_mw g) uT kT kP kV kE kM ->
  forall a b Ts r m M, List.length a = List.length b -> 0 < m ->
  m_T g E [] [("s", a); ("p", b)] = Ok Ts \/ m_T_s g E a (Some b) None = Ok Ts ->
  call_warns g E [("s", a); ("p", b)] = Ok false -> m_R g E = Ok r ->
  steep (fun t => value (fst (g_s g (Some t)))) (fun t => value (g_cp g (Some t)) / t) (Tlow g) (Thigh g) m M ->
  exists out, m_s g E [] [("T", Ts); ("p", b)] = Ok out /\ List.length out = List.length a /\
    forall i y q, nth_error a i = Some (Some y) -> nth_error b i = Some (Some q) -> 0 < q ->
      exists z, nth_error out i = Some (Some z) /\
      Rabs (z - y) <= M / m * (/ 1000000 * Rabs (y + r * ln (q * kP / g_pref g))).
Proof. exact s_p_found. Qed.
Print Assumptions C80_T_from_s_p.

Theorem C80_T_from_s_d : forall E g uT kT kP kV kE kM,
  species E g -> units_known E (g_mw g) uT kT kP kV kE kM ->
  forall a b Ts m M, List.length a = List.length b ->
  (forall i q, nth_error b i = Some q -> exists r, q = Some r /\ 0 < r) -> 0 < m ->
  m_T g E [] [("s", a); ("d", b)] = Ok Ts \/ m_T_s g E a None (Some b) = Ok Ts ->
  call_warns g E [("s", a); ("d", b)] = Ok false ->
  steep (fun t => value (fst (g_s g (Some t))) - gas_constant * ln t)
    (fun t => (value (g_cp g (Some t)) - gas_constant) / t) (Tlow g) (Thigh g) m M ->
  exists out, m_s g E [] [("T", Ts); ("d", b)] = Ok out /\ List.length out = List.length a /\
    forall i y, nth_error a i = Some (Some y) -> exists z, nth_error out i = Some (Some z) /\
      Rabs (z - y) <= M / m * (/ 1000000 * Rabs y).
Proof. exact s_d_found. Qed.
Print Assumptions C80_T_from_s_d.

Theorem C80_p_s : forall E g uT kT kP kV kE kM,
  species E g -> units_known E (g_mw g) uT kT kP kV kE kM ->
  forall a s Ps, List.length a = List.length s -> m_p_s g E s (Some a) = Ok Ps ->
  exists Ss, m_s g E [] [("T", a); ("p", Ps)] = Ok Ss /\ List.length Ss = List.length s /\
    forall i p x, nth_error Ps i = Some (Some p) -> nth_error s i = Some (Some x) ->
      nth_error Ss i = Some (Some x) /\ 0 < p.
Proof. exact p_s_back. Qed.
Print Assumptions C80_p_s.

Example C80_instance :
  let E := session "Pa" 100000 "Pa" in
  m_T g1 E [] [("s", [Some 500]); ("p", [Some 100000])] = Ok [Some 500] /\
  call_warns g1 E [("s", [Some 500]); ("p", [Some 100000])] = Ok false /\
  steep (fun t => value (fst (g_s g1 (Some t)))) (fun t => value (g_cp g1 (Some t)) / t) 200 1000 1 1.
Proof. exact inst_C80. Qed.

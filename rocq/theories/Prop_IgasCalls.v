(* Property theorems C30-C33, C61, C62: calls of the ideal gas property methods
   (src/pyromat/registry/ig.py, ig2.py). *)
From Coq Require Import Reals ZArith List String Bool Lia Lra.
From Verif Require Import Base Model_Num Model_Units Model_Defaults Model_Igas Spec_Units Spec_Igas
  Proof_IgasCalls Proof_IgasRel Proof_IgasArr Proof_IgasEx Proof_IgasAcc Proof_IgasInst.
Import ListNotations.
Local Open Scope R_scope.
Local Open Scope string_scope.
Local Open Scope list_scope.

(* ---- C30 : P, D, V, T reported for one call; sizes of the units as in units_known ---- *)
Theorem C30_gas_law : forall E g uT kT kP kV kE kM,
  species E g -> units_known E (g_mw g) uT kT kP kV kE kM ->
  forall varg kw Ts Ps Ds Vs i T P D V K,
  (List.length varg + List.length kw <> 1)%nat ->
  m_T g E varg kw = Ok Ts -> m_p g E varg kw = Ok Ps ->
  m_d g E varg kw = Ok Ds -> m_v g E varg kw = Ok Vs ->
  nth_error Ts i = Some (Some T) -> nth_error Ps i = Some (Some P) ->
  nth_error Ds i = Some (Some D) -> nth_error Vs i = Some (Some V) ->
  temperature_scale (e_cfg E) T None (Some "K") = Ok K ->
  P * kP = D * (kM / kV) * (1000 * gas_constant) * K /\ D * V = 1 /\
  nth 0 (g_Tlim g) 0 <= K <= last (g_Tlim g) 0.
Proof. exact gas_law. Qed.
Print Assumptions C30_gas_law.

(* the four calls succeed or fail together and give arrays of one length *)
Theorem C30_calls_together : forall E g uT kT kP kV kE kM,
  units_known E (g_mw g) uT kT kP kV kE kM ->
  forall varg kw, (List.length varg + List.length kw <> 1)%nat ->
  (exists Ts Ps Ds Vs, m_T g E varg kw = Ok Ts /\ m_p g E varg kw = Ok Ps /\
     m_d g E varg kw = Ok Ds /\ m_v g E varg kw = Ok Vs /\
     List.length Ps = List.length Ts /\ List.length Ds = List.length Ts /\
     List.length Vs = List.length Ts) \/
  (exists e, m_T g E varg kw = Err e /\ m_p g E varg kw = Err e /\
     m_d g E varg kw = Err e /\ m_v g E varg kw = Err e).
Proof. exact calls_together. Qed.
Print Assumptions C30_calls_together.

(* what is specified is reported back *)
Theorem C30_reports_T : forall E g uT kT kP kV kE kM,
  species E g -> units_known E (g_mw g) uT kT kP kV kE kM ->
  forall varg kw a Ts i T, NoDup (map fst kw) -> In ("T", a) (supplied varg kw) ->
  m_T g E varg kw = Ok Ts -> nth_error Ts i = Some (Some T) -> elem a i = Some (Some T).
Proof. exact echo_T. Qed.
Print Assumptions C30_reports_T.

Theorem C30_reports_p : forall E g uT kT kP kV kE kM,
  units_known E (g_mw g) uT kT kP kV kE kM ->
  forall varg kw a Ps i P, NoDup (map fst kw) -> In ("p", a) (supplied varg kw) ->
  m_p g E varg kw = Ok Ps -> nth_error Ps i = Some P -> elem a i = Some P.
Proof. exact echo_p. Qed.
Print Assumptions C30_reports_p.

Theorem C30_reports_d : forall E g uT kT kP kV kE kM,
  units_known E (g_mw g) uT kT kP kV kE kM ->
  forall varg kw a Ds i D, NoDup (map fst kw) -> In ("d", a) (supplied varg kw) ->
  m_d g E varg kw = Ok Ds -> nth_error Ds i = Some D -> elem a i = Some D.
Proof. exact echo_d. Qed.
Print Assumptions C30_reports_d.

Theorem C30_reports_v : forall E g uT kT kP kV kE kM,
  units_known E (g_mw g) uT kT kP kV kE kM ->
  forall varg kw a Vs i V, NoDup (map fst kw) -> In ("v", a) (supplied varg kw) ->
  m_v g E varg kw = Ok Vs -> nth_error Vs i = Some (Some V) -> elem a i = Some (Some V).
Proof. exact echo_v. Qed.
Print Assumptions C30_reports_v.

Example C30_instance :
  let E := session "bar" 1 "bar" in
  species E g1 /\ units_known E (g_mw g1) "K" (9/5) (10^5) 1 1000 1 /\
  exists p, m_T g1 E [] [("T", [Some 300]); ("d", [Some 2])] = Ok [Some 300] /\
    m_p g1 E [] [("T", [Some 300]); ("d", [Some 2])] = Ok [Some p] /\ p * 10^5 = 2 * (1000 * gas_constant) * 300 /\
    m_d g1 E [] [("T", [Some 300]); ("d", [Some 2])] = Ok [Some 2] /\
    m_v g1 E [] [("T", [Some 300]); ("d", [Some 2])] = Ok [Some (1/2)].
Proof. exact inst_C30. Qed.

(* ---- C31 : which calls are accepted ---- *)
Theorem C31_others_rejected : forall E g uT kT kP kV kE kM,
  units_known E (g_mw g) uT kT kP kV kE kM ->
  forall m varg kw, defaults_known E -> In m (methods g E) ->
  (List.length varg + List.length kw <> 1)%nat ->
  NoDup (map fst kw) -> ~ acceptable varg kw -> m varg kw = Err PMParamError.
Proof. exact all_reject. Qed.
Print Assumptions C31_others_rejected.

(* also with a single argument, except for T, see C62 *)
Theorem C31_one_rejected : forall E g uT kT kP kV kE kM,
  units_known E (g_mw g) uT kT kP kV kE kM ->
  forall m varg kw, defaults_known E -> In m (methods g E) -> m <> m_T g E ->
  NoDup (map fst kw) -> ~ acceptable varg kw -> m varg kw = Err PMParamError.
Proof. exact one_rejects. Qed.
Print Assumptions C31_one_rejected.

(* a call with acceptable arguments fails only for the reasons of `refused`, or because the
   inversion of e, h or s does *)
Theorem C31_failures_explained : forall E g uT kT kP kV kE kM,
  units_known E (g_mw g) uT kT kP kV kE kM ->
  forall m varg kw e, defaults_known E -> nth 0 (g_Tlim g) 0 <= last (g_Tlim g) 0 ->
  In m (methods g E) -> (List.length varg + List.length kw <> 1)%nat ->
  NoDup (map fst kw) -> acceptable varg kw -> compatible (supplied varg kw) ->
  m varg kw = Err e ->
  (e = PMAnalysisError /\ exists n, In n ["e"; "h"; "s"] /\ In n (map fst (supplied varg kw))) \/
  (e = PMParamError /\ refused E g varg kw).
Proof. exact all_accepted_errors. Qed.
Print Assumptions C31_failures_explained.

(* one element inside the range is enough *)
Theorem C31_T_accepted : forall E g uT kT kP kV kE kM,
  units_known E (g_mw g) uT kT kP kV kE kM ->
  forall m n a b i T K, In m (methods g E) -> In n ["p"; "d"; "v"] ->
  List.length a = List.length b \/ List.length a = 1%nat \/ List.length b = 1%nat ->
  (i < Nat.max (List.length a) (List.length b))%nat ->
  elem a i = Some (Some T) -> elem b i <> None ->
  temperature_scale (e_cfg E) T None (Some "K") = Ok K ->
  nth 0 (g_Tlim g) 0 <= K <= last (g_Tlim g) 0 ->
  exists out, m [] [("T", a); (n, b)] = Ok out.
Proof. exact T_accepted. Qed.
Print Assumptions C31_T_accepted.

Theorem C31_p_d_accepted : forall E g uT kT kP kV kE kM,
  units_known E (g_mw g) uT kT kP kV kE kM ->
  forall m a b i P D K, In m (methods g E) ->
  List.length a = List.length b \/ List.length a = 1%nat \/ List.length b = 1%nat ->
  (i < Nat.max (List.length a) (List.length b))%nat ->
  elem a i = Some (Some P) -> elem b i = Some (Some D) -> D <> 0 ->
  P * kP = D * (kM / kV) * (1000 * gas_constant) * K ->
  nth 0 (g_Tlim g) 0 <= K <= last (g_Tlim g) 0 ->
  (exists out, m [] [("p", a); ("d", b)] = Ok out) /\
  (exists out, m [] [("p", a); ("v", map (fun x => fdiv (Some 1) x) b)] = Ok out).
Proof. exact pd_accepted. Qed.
Print Assumptions C31_p_d_accepted.

Example C31_instance :
  let E := session "bar" 1 "bar" in
  defaults_known E /\ ~ acceptable [[Some 300]] [("h", [Some 2])] /\
  acceptable [[Some 300]] [("s", [Some 2; Some 3])] /\ compatible (supplied [[Some 300]] [("s", [Some 2; Some 3])]) /\
  m_h g1 E [[Some 300]] [("h", [Some 2])] = Err PMParamError /\
  exists out, m_h g1 E [] [("T", [Some 300; Some 100]); ("v", [Some 2])] = Ok out.
Proof. exact inst_C31. Qed.

(* ---- C32 : entropy and pressure at given temperatures ---- *)
Theorem C32_s_then_p : forall E g uT kT kP kV kE kM,
  species E g -> units_known E (g_mw g) uT kT kP kV kE kM ->
  forall a b Ss, List.length a = List.length b ->
  m_s g E [] [("T", a); ("p", b)] = Ok Ss ->
  exists Ps, m_p g E [] [("T", a); ("s", Ss)] = Ok Ps /\ List.length Ps = List.length b /\
    forall i s p, nth_error Ss i = Some (Some s) -> nth_error b i = Some (Some p) -> 0 < p ->
      nth_error Ps i = Some (Some p).
Proof. exact s_then_p. Qed.
Print Assumptions C32_s_then_p.

Theorem C32_p_then_s : forall E g uT kT kP kV kE kM,
  species E g -> units_known E (g_mw g) uT kT kP kV kE kM ->
  forall a s Ps, List.length a = List.length s ->
  m_p g E [] [("T", a); ("s", s)] = Ok Ps ->
  exists Ss, m_s g E [] [("T", a); ("p", Ps)] = Ok Ss /\ List.length Ss = List.length s /\
    forall i p x, nth_error Ps i = Some (Some p) -> nth_error s i = Some (Some x) ->
      nth_error Ss i = Some (Some x) /\ 0 < p.
Proof. exact p_then_s. Qed.
Print Assumptions C32_p_then_s.

Example C32_instance :
  let E := session "Pa" 100000 "Pa" in
  m_s g1 E [] [("T", [Some 300]); ("p", [Some 200000])] = Ok [Some (300 - gas_constant * ln 2)].
Proof. exact inst_C32. Qed.

(* ---- C33 : relations between the reported values, in the configured units ---- *)
Theorem C33_heat_capacities : forall E g uT kT kP kV kE kM,
  units_known E (g_mw g) uT kT kP kV kE kM ->
  forall varg kw CP CV GA r i cp cv ga,
  m_cp g E varg kw = Ok CP -> m_cv g E varg kw = Ok CV -> m_gam g E varg kw = Ok GA ->
  m_R g E = Ok r ->
  nth_error CP i = Some (Some cp) -> nth_error CV i = Some (Some cv) -> nth_error GA i = Some (Some ga) ->
  cp - cv = r /\ ga * cv = cp.
Proof. exact cp_cv_R. Qed.
Print Assumptions C33_heat_capacities.

(* Tabs is the absolute temperature in degrees of the configured size *)
Theorem C33_energies : forall E g uT kT kP kV kE kM,
  species E g -> units_known E (g_mw g) uT kT kP kV kE kM ->
  forall varg kw Ts Hs Es Ss Gs Fs r i T K h e s gg f,
  (List.length varg + List.length kw <> 1)%nat ->
  m_T g E varg kw = Ok Ts -> m_h g E varg kw = Ok Hs -> m_e g E varg kw = Ok Es ->
  m_s g E varg kw = Ok Ss -> m_g g E varg kw = Ok Gs -> m_f g E varg kw = Ok Fs -> m_R g E = Ok r ->
  nth_error Ts i = Some (Some T) -> nth_error Hs i = Some (Some h) ->
  nth_error Es i = Some (Some e) -> nth_error Ss i = Some (Some s) ->
  nth_error Gs i = Some (Some gg) -> nth_error Fs i = Some (Some f) ->
  temperature_scale (e_cfg E) T None (Some "K") = Ok K ->
  let Tabs := K * (9/5) / kT in
  h - e = r * Tabs /\ gg = h - Tabs * s /\ f = e - Tabs * s.
Proof. exact energies. Qed.
Print Assumptions C33_energies.

(* the same state in two unit configurations: the same quantities, or the same error *)
Theorem C33_every_unit_system : forall E1 E2 g z1 z2,
  has_sizes E1 (g_mw g) z1 -> has_sizes E2 (g_mw g) z2 -> e_oob E1 = e_oob E2 ->
  forall kw1 kw2, same_arguments E1 E2 z1 z2 kw1 kw2 ->
  same_outcome KTemp E1 E2 z1 z2 (m_T g E1 [] kw1) (m_T g E2 [] kw2) /\
  same_outcome KPres E1 E2 z1 z2 (m_p g E1 [] kw1) (m_p g E2 [] kw2) /\
  same_outcome KDens E1 E2 z1 z2 (m_d g E1 [] kw1) (m_d g E2 [] kw2) /\
  same_outcome KVol E1 E2 z1 z2 (m_v g E1 [] kw1) (m_v g E2 [] kw2) /\
  same_outcome KEnergy E1 E2 z1 z2 (m_h g E1 [] kw1) (m_h g E2 [] kw2) /\
  same_outcome KEnergy E1 E2 z1 z2 (m_e g E1 [] kw1) (m_e g E2 [] kw2) /\
  same_outcome KEnergy E1 E2 z1 z2 (m_g g E1 [] kw1) (m_g g E2 [] kw2) /\
  same_outcome KEnergy E1 E2 z1 z2 (m_f g E1 [] kw1) (m_f g E2 [] kw2) /\
  same_outcome KHeat E1 E2 z1 z2 (m_s g E1 [] kw1) (m_s g E2 [] kw2) /\
  same_outcome KHeat E1 E2 z1 z2 (m_cp g E1 [] kw1) (m_cp g E2 [] kw2) /\
  same_outcome KHeat E1 E2 z1 z2 (m_cv g E1 [] kw1) (m_cv g E2 [] kw2) /\
  same_outcome KNumber E1 E2 z1 z2 (m_gam g E1 [] kw1) (m_gam g E2 [] kw2).
Proof. exact units_all. Qed.
Print Assumptions C33_every_unit_system.

Theorem C33_gas_constant : forall E1 E2 g z1 z2,
  has_sizes E1 (g_mw g) z1 -> has_sizes E2 (g_mw g) z2 ->
  exists r1 r2, m_R g E1 = Ok r1 /\ m_R g E2 = Ok r2 /\
    same_quantity KHeat E1 E2 z1 z2 (Some r1) (Some r2).
Proof. exact units_R. Qed.
Print Assumptions C33_gas_constant.

Example C33_instance :
  let E1 := session "Pa" 1 "bar" in let E2 := session "bar" 1 "bar" in
  let z1 := {| z_T := "K"; z_kT := 9/5; z_kP := 1; z_kV := 1; z_kE := 1000; z_kM := 1 |} in
  let z2 := {| z_T := "K"; z_kT := 9/5; z_kP := 10^5; z_kV := 1; z_kE := 1000; z_kM := 1 |} in
  has_sizes E1 (g_mw g1) z1 /\ has_sizes E2 (g_mw g1) z2 /\
  same_arguments E1 E2 z1 z2 [("T", [Some 300]); ("p", [Some 200000])] [("T", [Some 300]); ("p", [Some 2])] /\
  exists s, m_s g1 E1 [] [("T", [Some 300]); ("p", [Some 200000])] = Ok [Some s] /\
            m_s g1 E2 [] [("T", [Some 300]); ("p", [Some 2])] = Ok [Some s].
Proof. exact inst_C33. Qed.

(* ---- C61 : an array call gives, element by element, what the scalar calls give; where the
   scalar call is refused because the state is out of range, the temperature is nan.
   The exception is one entropy with several pressures. ---- *)
Theorem C61_elementwise : forall E g uT kT kP kV kE kM,
  units_known E (g_mw g) uT kT kP kV kE kM ->
  forall m kw out i o Ts,
  In m [m_T g E []; m_p g E []; m_d g E []; m_v g E []; m_cp g E []; m_cv g E [];
    m_gam g E []; m_h g E []; m_e g E []; m_s g E []; m_g g E []; m_f g E []] ->
  List.length kw = 2%nat -> NoDup (map fst kw) ->
  (forall s q : arr, In ("s", s) kw -> In ("p", q) kw -> List.length s = 1%nat -> List.length q = 1%nat) ->
  e_oob E = None -> m_T g E [] kw = Ok Ts ->
  m kw = Ok out -> nth_error out i = Some o ->
  forall kw1, Forall2 (fun x y => fst x = fst y /\ exists z, elem (snd x) i = Some z /\ snd y = [z]) kw kw1 ->
  m kw1 = Ok [o] \/ (m kw1 = Err PMParamError /\ nth_error Ts i = Some None).
Proof. exact elementwise. Qed.
Print Assumptions C61_elementwise.

Theorem C61_one_entropy_refuted :
  let E := session "Pa" 100000 "Pa" in
  exists t, m_T g1 E [] [("s", [Some 500]); ("p", [Some 100000; Some 200000])] = Ok [Some t; Some t] /\
    m_T g1 E [] [("s", [Some 500]); ("p", [Some 100000])] = Ok [Some 500] /\ t <> 500.
Proof. exact shared_entropy. Qed.
Print Assumptions C61_one_entropy_refuted.

Example C61_instance :
  let E := session "Pa" 100000 "Pa" in
  m_p g1 E [] [("T", [Some 300; Some 100; Some 400]); ("d", [Some 2])] =
    Ok [Some (2 * (1000 * gas_constant) * 300); None; Some (2 * (1000 * gas_constant) * 400)] /\
  m_T g1 E [] [("T", [Some 300; Some 100; Some 400]); ("d", [Some 2])] = Ok [Some 300; None; Some 400].
Proof. exact inst_C61. Qed.

(* ---- C62 : T with one argument ---- *)
Theorem C62_default_pressure_same_unit : forall E g uT kT kP kV kE kM,
  units_known E (g_mw g) uT kT kP kV kE kM ->
  forall n a dp, n <> "p" -> dget "unit_pressure" (e_cfg E) = Some (e_defpu E) ->
  def_p (e_setup E) (e_cfg E) (e_defp E) (e_defpu E) = Ok dp ->
  m_T g E [] [(n, a)] = m_T g E [] [(n, a); ("p", [Some dp])].
Proof. exact T_one. Qed.
Print Assumptions C62_default_pressure_same_unit.

(* the default pressure 1 bar = 100 kPa is read as 1 kPa *)
Theorem C62_default_pressure_refuted :
  let E := session "kPa" 1 "bar" in
  def_p (e_setup E) (e_cfg E) (e_defp E) (e_defpu E) = Ok 100 /\
  m_T g1 E [] [("d", [Some (5/100)])] = Err PMParamError /\
  exists t, m_T g1 E [] [("d", [Some (5/100)]); ("p", [Some 100])] = Ok [Some t].
Proof. exact T_one_wrong. Qed.
Print Assumptions C62_default_pressure_refuted.

(* with one argument the reported T, p, d need not satisfy the gas law *)
Theorem C62_gas_law_refuted :
  let E := session "Pa" 100000 "Pa" in
  exists t p, m_T g1 E [] [("d", [Some (5/100)])] = Ok [Some t] /\
    m_p g1 E [] [("d", [Some (5/100)])] = Ok [Some p] /\
    m_d g1 E [] [("d", [Some (5/100)])] = Ok [Some (5/100)] /\
    p <> 5/100 * (1000 * gas_constant) * t.
Proof. exact one_d_inconsistent. Qed.
Print Assumptions C62_gas_law_refuted.

Example C62_instance :
  let E := session "Pa" 100000 "Pa" in
  dget "unit_pressure" (e_cfg E) = Some (e_defpu E) /\
  def_p (e_setup E) (e_cfg E) (e_defp E) (e_defpu E) = Ok 100000.
Proof. exact inst_C62. Qed.

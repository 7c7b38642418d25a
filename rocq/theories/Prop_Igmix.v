(* Property theorems C36-C38, C63, C64 and the mixture half of C40: ideal gas mixtures
   (src/pyromat/registry/igmix.py). *)
From Coq Require Import Reals ZArith List String Bool Lia Lra.
From Verif Require Import Base Model_Num Model_Units Model_Igas Model_Igmix Spec_Units Spec_Igas Spec_Igmix
  Proof_IgasEx Proof_Igmix Proof_IgmixProp Proof_IgmixMore Proof_IgmixInst.
Import ListNotations.
Local Open Scope R_scope.
Local Open Scope string_scope.
Local Open Scope list_scope.

(* ---- C36 : composition ---- *)
Theorem C36_fractions : forall coll m E, usable_mixture coll m ->
  exists o X Y,
    mix_call coll m E fresh CX = (o, Ok (VDict X)) /\ mix_call coll m E fresh CY = (o, Ok (VDict Y)) /\
    map fst X = map fst (m_contents m) /\ map fst Y = map fst (m_contents m) /\
    sum_over snd X = 1 /\ sum_over snd Y = 1 /\
    x_mw o = sum_over (fun c => snd c * mw_in coll (fst c)) X /\
    forall ss q, In (ss, q) (m_contents m) -> exists x y,
      In (ss, x) X /\ In (ss, y) Y /\ 0 < x <= 1 /\ 0 < y <= 1 /\
      x * sum_over (kmol_of coll (m_bymass m)) (m_contents m) = kmol_of coll (m_bymass m) (ss, q) /\
      y * sum_over (kg_of coll (m_bymass m)) (m_contents m) = kg_of coll (m_bymass m) (ss, q) /\
      y = x * mw_in coll ss / x_mw o.
Proof. exact fractions. Qed.
Print Assumptions C36_fractions.

(* mw() in the configured units of mass (km kg) and of molar amount (kn kmol) *)
Theorem C36_mw : forall coll m E um un km kn,
  usable_mixture coll m -> positive_setup (e_setup E) ->
  dget "unit_mass" (e_cfg E) = Some um -> si (e_setup E) QMass um = Some km ->
  dget "unit_molar" (e_cfg E) = Some un -> si (e_setup E) QMolar un = Some kn ->
  exists o X r, mix_call coll m E fresh CX = (o, Ok (VDict X)) /\
    mix_call coll m E fresh Cmw = (o, Ok (VNum r)) /\
    r * (km / kn) = sum_over (fun c => snd c * mw_in coll (fst c)) X.
Proof. exact mw_answer. Qed.
Print Assumptions C36_mw.

(* by mass or by mole, and in any total amount: the same answers to every call *)
Theorem C36_same_mixture : forall coll m1 m2 k,
  usable_mixture coll m1 -> usable_mixture coll m2 -> 0 < k ->
  Forall2 (fun c1 c2 => fst c1 = fst c2 /\
             kmol_of coll (m_bymass m1) c1 = k * kmol_of coll (m_bymass m2) c2)
    (m_contents m1) (m_contents m2) ->
  forall E c, mix_call coll m1 E fresh c = mix_call coll m2 E fresh c.
Proof. exact same_mixture. Qed.
Print Assumptions C36_same_mixture.

Example C36_instance : usable_mixture collAB mAB /\ usable_mixture collAB mABkg /\
  Forall2 (fun c1 c2 => fst c1 = fst c2 /\
             kmol_of collAB (m_bymass mAB) c1 = 10 * kmol_of collAB (m_bymass mABkg) c2)
    (m_contents mAB) (m_contents mABkg).
Proof. exact (conj usable_AB (conj usable_ABkg same_AB)). Qed.

(* ---- C37 : properties of the mixture ---- *)
(* Every property is the mole-weighted sum of the property of the constituents, each at its own
   partial pressure (which matters for s, g and f only).  kM and ki are the sizes of the
   configured unit of matter for the mixture and for the constituent. *)
Theorem C37_partial_pressures : forall coll m o,
  usable_mixture coll m -> bootstrap coll m fresh = (o, Ok tt) ->
  forall E uT kT kP kV kE kM q t p K, e_oob E = None ->
    units_known E (x_mw o) uT kT kP kV kE kM -> In q [Pcp; Pcv; Ph; Pe; Ps; Pg; Pf] ->
    temperature_scale (e_cfg E) t None (Some "K") = Ok K -> common_range coll m K -> 0 < p ->
    exists X v vi ki,
      snd (mix_call coll m E fresh CX) = Ok (VDict X) /\
      snd (mix_call coll m E fresh (CProp q [] [("T", [Some t]); ("p", [Some p])])) = Ok (VArr [Some v]) /\
      (forall ss x, In (ss, x) X -> matter_size E (mw_in coll ss) (ki ss) /\ exists g, gas_in coll ss g /\
         ideal_method q g E [] [("T", [Some t]); ("p", [Some (x * p)])] = Ok [Some (vi ss)]) /\
      v / kM = sum_over (fun c => snd c * (vi (fst c) / ki (fst c))) X.
Proof. exact partial_pressures'. Qed.
Print Assumptions C37_partial_pressures.

(* the mixture has at least the entropy of its constituents at the pressure of the mixture *)
Theorem C37_mixing_entropy : forall coll m o,
  usable_mixture coll m -> bootstrap coll m fresh = (o, Ok tt) ->
  forall E uT kT kP kV kE kM t p K, e_oob E = None ->
    units_known E (x_mw o) uT kT kP kV kE kM ->
    temperature_scale (e_cfg E) t None (Some "K") = Ok K -> common_range coll m K -> 0 < p ->
    exists X v vi ki,
      snd (mix_call coll m E fresh CX) = Ok (VDict X) /\
      snd (mix_call coll m E fresh (CProp Ps [] [("T", [Some t]); ("p", [Some p])])) = Ok (VArr [Some v]) /\
      (forall ss x, In (ss, x) X -> matter_size E (mw_in coll ss) (ki ss) /\ exists g, gas_in coll ss g /\
         ideal_method Ps g E [] [("T", [Some t]); ("p", [Some p])] = Ok [Some (vi ss)]) /\
      sum_over (fun c => snd c * (vi (fst c) / ki (fst c))) X <= v / kM.
Proof. exact mixing_increases'. Qed.
Print Assumptions C37_mixing_entropy.

(* A call on a mixture is the call on a gas to which C30-C33 and C61 apply (g = h - T s, the
   gas law, all argument pairs, arrays). *)
Theorem C37_calls_as_gas : forall coll m o,
  usable_mixture coll m -> bootstrap coll m fresh = (o, Ok tt) ->
  forall E uT kT kP kV kE kM, e_oob E = None -> units_known E (x_mw o) uT kT kP kV kE kM ->
  species E (mix_gas None coll o) /\
  forall q varg kw, snd (mix_call coll m E fresh (CProp q varg kw)) =
    do a <- ideal_method q (mix_gas None coll o) E varg kw; Ok (VArr a).
Proof. exact calls_as_gas. Qed.
Print Assumptions C37_calls_as_gas.

(* a mixture of one constituent answers every call as the constituent does *)
Theorem C37_one_constituent : forall coll m ss q g,
  usable_mixture coll m -> m_contents m = [(ss, q)] -> gas_in coll ss g ->
  forall E uT kT kP kV kE kM, e_oob E = None -> units_known E (g_mw g) uT kT kP kV kE kM ->
  forall p varg kw, snd (mix_call coll m E fresh (CProp p varg kw)) =
    do a <- ideal_method p g E varg kw; Ok (VArr a).
Proof. exact one_constituent. Qed.
Print Assumptions C37_one_constituent.

(* the derivatives returned with h, s and e (used by the inversions) are the true slopes; the
   true slope of g is minus the entropy *)
Theorem C37_slopes_partial : forall coll m o,
  usable_mixture coll m -> bootstrap coll m fresh = (o, Ok tt) ->
  forall K, smooth_point coll m K -> let g := mix_gas None coll o in
  exists cp s,
    g_cp g (Some K) = Some cp /\ fst (g_s g (Some K)) = Some s /\
    snd (g_h g (Some K)) = Some cp /\ has_slope (fun t => fst (g_h g t)) K cp /\
    snd (g_s g (Some K)) = Some (cp / K) /\ has_slope (fun t => fst (g_s g t)) K (cp / K) /\
    snd (g_e g (Some K)) = Some (cp - gas_constant) /\ has_slope (fun t => fst (g_e g t)) K (cp - gas_constant) /\
    has_slope (fun t => fst (g_g g t)) K (- s).
Proof. exact slopes'. Qed.
Print Assumptions C37_slopes_partial.

(* Finding: the derivative returned with g is not the slope of g. *)
Theorem C37_gibbs_slope_refuted : exists coll m o K d,
  usable_mixture coll m /\ bootstrap coll m fresh = (o, Ok tt) /\ smooth_point coll m K /\
  snd (g_g (mix_gas None coll o) (Some K)) = Some d /\
  ~ has_slope (fun t => fst (g_g (mix_gas None coll o) t)) K d.
Proof. exact gibbs_slope. Qed.
Print Assumptions C37_gibbs_slope_refuted.

(* Finding: a constituent listed with amount zero makes the entropy of the mixture nan. *)
Theorem C37_zero_amount_refuted : let E := session "Pa" 100000 "Pa" in
  snd (mix_call collAB mA0 E fresh (CProp Ps [] [("T", [Some 500]); ("p", [Some 100000])])) = Ok (VArr [None]) /\
  exists v, snd (mix_call collAB {| m_contents := [("ig.A", 1)]; m_bymass := false |} E fresh
     (CProp Ps [] [("T", [Some 500]); ("p", [Some 100000])])) = Ok (VArr [Some v]).
Proof. exact zero_amount. Qed.
Print Assumptions C37_zero_amount_refuted.

Example C37_instance : usable_mixture collAB mAB /\ (exists o, bootstrap collAB mAB fresh = (o, Ok tt)) /\
  (forall o, bootstrap collAB mAB fresh = (o, Ok tt) ->
     units_known (session "Pa" 100000 "Pa") (x_mw o) "K" (9/5) 1 1 1000 1) /\
  common_range collAB mAB 500 /\ smooth_point collAB mAB 500.
Proof. exact (conj usable_AB (conj boots_AB (conj units_AB (conj common_AB smooth_AB)))). Qed.

(* ---- C38 : a constituent that is not loaded, or is not an ideal gas ---- *)
Theorem C38_first_call_partial : forall coll m E c,
  NoDup (map fst (m_contents m)) ->
  (forall ss q, In (ss, q) (m_contents m) ->
     (exists D, loaded coll ss D /\ 0 < d_mw D) \/ unusable coll ss) ->
  (exists ss q, In (ss, q) (m_contents m) /\ unusable coll ss) ->
  snd (mix_call coll m E fresh c) = Err PMDataError.
Proof. exact missing_reported. Qed.
Print Assumptions C38_first_call_partial.

(* Finding: after the first call has raised, X() and Y() answer with the amounts of the
   constituents listed before the missing one, as if they were fractions. *)
Theorem C38_later_calls_refuted : forall coll m E c pre ss q post,
  NoDup (map fst (m_contents m)) ->
  m_contents m = pre ++ (ss, q) :: post -> unusable coll ss ->
  (forall s x, In (s, x) pre -> exists D, loaded coll s D /\ 0 < d_mw D) ->
  exists o, mix_call coll m E fresh c = (o, Err PMDataError) /\
    mix_call coll m E o CX = (o, Ok (VDict (map (fun c => (fst c, kmol_of coll (m_bymass m) c)) pre))) /\
    mix_call coll m E o CY = (o, Ok (VDict (map (fun c => (fst c, kg_of coll (m_bymass m) c)) pre))).
Proof. exact missing_then_silent. Qed.
Print Assumptions C38_later_calls_refuted.

Example C38_instance : (NoDup (map fst (m_contents mBad)) /\
  (forall ss q, In (ss, q) (m_contents mBad) -> (exists D, loaded collAB ss D /\ 0 < d_mw D) \/ unusable collAB ss) /\
  (exists ss q, In (ss, q) (m_contents mBad) /\ unusable collAB ss)) /\
  forall E c, exists o, mix_call collAB mBad E fresh c = (o, Err PMDataError) /\
    mix_call collAB mBad E o CX = (o, Ok (VDict [("ig.A", 2)])).
Proof. exact (conj bad_hyp bad_later). Qed.

(* ---- C40 : Tlim() of a mixture in the collection ---- *)
Theorem C40_igmix_Tlim : forall coll m o,
  usable_mixture coll m -> bootstrap coll m fresh = (o, Ok tt) ->
  forall E uT kT kP kV kE kM, units_known E (x_mw o) uT kT kP kV kE kM ->
  exists a b lo hi, snd (mix_call coll m E fresh CTlim) = Ok (VLim (Some lo) (Some hi)) /\
    temperature_scale (e_cfg E) a (Some "K") None = Ok lo /\
    temperature_scale (e_cfg E) b (Some "K") None = Ok hi /\
    a <= b /\ forall K, common_range coll m K <-> a <= K <= b.
Proof. exact Tlim_answer'. Qed.
Print Assumptions C40_igmix_Tlim.

(* ---- C63 : answers do not depend on the calls made before ---- *)
Theorem C63_history : forall coll m E cs, usable_mixture coll m ->
  snd (mix_run coll m E fresh cs) = map (fun c => snd (mix_call coll m E fresh c)) cs.
Proof. exact history. Qed.
Print Assumptions C63_history.

Example C63_instance : usable_mixture collAB mAB.
Proof. exact usable_AB. Qed.

(* ---- C64 : atoms() ---- *)
Theorem C64_atoms : forall coll m E (atoms : string -> list (string * R)), usable_mixture coll m ->
  (forall ss q, In (ss, q) (m_contents m) ->
     (exists D, dget ss coll = Some (MIg D (Some (atoms ss))) \/
                dget ss coll = Some (MIg2 D (Some (atoms ss)))) /\ NoDup (map fst (atoms ss))) ->
  exists X d, snd (mix_call coll m E fresh CX) = Ok (VDict X) /\
    snd (mix_call coll m E fresh Catoms) = Ok (VDict d) /\
    (forall a, In a (map fst d) <->
       exists ss q, In (ss, q) (m_contents m) /\ In a (map fst (atoms ss))) /\
    (forall a, match dget a d with Some v => v | None => 0 end =
       sum_over (fun c => snd c * match dget a (atoms (fst c)) with Some v => v | None => 0 end) X).
Proof. exact atoms_answer. Qed.
Print Assumptions C64_atoms.

Example C64_instance :
  let atoms := fun ss => if String.eqb ss "ig.A" then [("A", 1)] else [("A", 1); ("B", 2)] in
  usable_mixture collAB mAB /\
  forall ss q, In (ss, q) (m_contents mAB) ->
    (exists D, dget ss collAB = Some (MIg D (Some (atoms ss))) \/
               dget ss collAB = Some (MIg2 D (Some (atoms ss)))) /\ NoDup (map fst (atoms ss)).
Proof. exact (conj usable_AB atoms_hyp). Qed.

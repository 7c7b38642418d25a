(* Independent vocabulary for the ideal gas properties. *)
From Coq Require Import Reals List String.
From Verif Require Import Base Model_Num Model_Units Model_Defaults Model_Igas Model_Igmix Spec_Units.
Import ListNotations.
Local Open Scope R_scope.

(* the number in a float; only used where the float is known to be finite *)
Definition value (a : fl) : R := match a with Some x => x | None => 0 end.

(* F, as a function of a real temperature, has derivative d at T *)
Definition has_slope (F : fl -> fl) (T d : R) : Prop :=
  derivable_pt_lim (fun x => value (F (Some x))) T d.

(* strictly increasing interval limits, at least two of them *)
Fixpoint increasing (l : list R) : Prop :=
  match l with
  | a :: (b :: _) as l' => a < b /\ increasing l'
  | _ => True
  end.

Definition good_limits (Tlim : list R) : Prop := increasing Tlim /\ (2 <= List.length Tlim)%nat.

(* the i-th interval: closed below, open above, except that the last one is closed *)
Definition in_interval (Tlim : list R) (i : nat) (T : R) : Prop :=
  (S i < List.length Tlim)%nat /\ nth i Tlim 0 <= T /\
  (T < nth (S i) Tlim 0 \/ (S (S i) = List.length Tlim /\ T = nth (S i) Tlim 0)).

(* NIST Shomate equation, coefficients A..G = C[0]..C[6], t = T/1000 (kJ/kmol/K, kJ/kmol) *)
Definition shomate_cp (C : list R) (T : R) : R :=
  let t := T / 1000 in
  nth 0 C 0 + nth 1 C 0 * t + nth 2 C 0 * t^2 + nth 3 C 0 * t^3 + nth 4 C 0 / t^2.
Definition shomate_h (C : list R) (T : R) : R :=
  let t := T / 1000 in
  1000 * (nth 0 C 0 * t + nth 1 C 0 * t^2 / 2 + nth 2 C 0 * t^3 / 3 + nth 3 C 0 * t^4 / 4
          - nth 4 C 0 / t + nth 5 C 0).
Definition shomate_s (C : list R) (T : R) : R :=
  let t := T / 1000 in
  nth 0 C 0 * ln t + nth 1 C 0 * t + nth 2 C 0 * t^2 / 2 + nth 3 C 0 * t^3 / 3
  - nth 4 C 0 / (2 * t^2) + nth 6 C 0.

(* NASA seven-coefficient polynomials *)
Definition nasa_cp (C : list R) (T : R) : R :=
  gas_constant * (nth 0 C 0 + nth 1 C 0 * T + nth 2 C 0 * T^2 + nth 3 C 0 * T^3 + nth 4 C 0 * T^4).
Definition nasa_h (C : list R) (T : R) : R :=
  gas_constant * (nth 0 C 0 * T + nth 1 C 0 * T^2 / 2 + nth 2 C 0 * T^3 / 3
                  + nth 3 C 0 * T^4 / 4 + nth 4 C 0 * T^5 / 5 + nth 5 C 0).
Definition nasa_s (C : list R) (T : R) : R :=
  gas_constant * (nth 0 C 0 * ln T + nth 1 C 0 * T + nth 2 C 0 * T^2 / 2
                  + nth 3 C 0 * T^3 / 3 + nth 4 C 0 * T^4 / 4 + nth 6 C 0).

(* a species data set: increasing limits, one list of eight coefficients per interval *)
Definition good_data (D : igdata) : Prop :=
  good_limits (d_Tlim D) /\ List.length (d_Tlim D) = S (List.length (d_C D)) /\
  Forall (fun C => List.length C = 8%nat) (d_C D).

(* What the routines return at temperature T, given heat capacity cp, enthalpy h and
   entropy s there: the values and the derivatives with respect to temperature. *)
Record values_at (g : gas) (T cp h s : R) : Prop := {
  va_cp : g_cp g (Some T) = Some cp;
  va_h : g_h g (Some T) = (Some h, Some cp);
  va_s : g_s g (Some T) = (Some s, Some (cp / T));
  va_g : g_g g (Some T) = (Some (h - T * s), Some (- s));
  va_e : g_e g (Some T) = (Some (h - gas_constant * T), Some (cp - gas_constant));
  va_f : g_f g (Some T) = (Some ((h - gas_constant * T) - T * s), Some (- s - gas_constant)) }.

(* The true slopes of the returned values, as functions of temperature. *)
Record slopes_at (g : gas) (T cp s : R) : Prop := {
  sl_h : has_slope (fun t => fst (g_h g t)) T cp;
  sl_s : has_slope (fun t => fst (g_s g t)) T (cp / T);
  sl_g : has_slope (fun t => fst (g_g g t)) T (- s);
  sl_e : has_slope (fun t => fst (g_e g t)) T (cp - gas_constant);
  sl_f : has_slope (fun t => fst (g_f g t)) T (- s - gas_constant) }.

(* The configured units and their sizes: temperature scale uT with degree size kT (in
   degrees Rankine), pressure kP (Pa), volume kV (m3), energy kE (J), matter kM (kmol). *)
Record units_known (E : env) (mw : R) (uT : string) (kT kP kV kE kM : R) : Prop := {
  uk_setup : positive_setup (e_setup E);
  uk_mw : 0 < mw;
  uk_T : dget "unit_temperature"%string (e_cfg E) = Some uT;
  uk_scale : In uT scales;
  uk_kT : si (e_setup E) QTemperature uT = Some kT;
  uk_P : exists u, dget "unit_pressure"%string (e_cfg E) = Some u /\ si (e_setup E) QPressure u = Some kP;
  uk_V : exists u, dget "unit_volume"%string (e_cfg E) = Some u /\ si (e_setup E) QVolume u = Some kV;
  uk_E : exists u, dget "unit_energy"%string (e_cfg E) = Some u /\ si (e_setup E) QEnergy u = Some kE;
  uk_M : exists u, dget "unit_matter"%string (e_cfg E) = Some u /\ kmoles (e_setup E) mw u = Some kM }.

(* usable data of one species *)
Definition good_species (D : igdata) : Prop :=
  good_data D /\ 0 < nth 0 (d_Tlim D) 0 /\ 0 < d_mw D /\ 0 < d_pref D.

(* ss is in the collection, as a species with data D of one of the two classes *)
Definition loaded (coll : collection) (ss : string) (D : igdata) : Prop :=
  exists a, dget ss coll = Some (MIg D a) \/ dget ss coll = Some (MIg2 D a).

(* A mixture that can be used: at least one constituent, none listed twice, positive amounts,
   every constituent loaded, and a temperature at which all of them are valid. *)
Definition usable_mixture (coll : collection) (m : mixdata) : Prop :=
  m_contents m <> [] /\ NoDup (map fst (m_contents m)) /\
  (forall ss q, In (ss, q) (m_contents m) ->
     0 < q /\ exists D, loaded coll ss D /\ good_species D) /\
  exists t, forall ss q D, In (ss, q) (m_contents m) -> loaded coll ss D ->
     nth 0 (d_Tlim D) 0 <= t <= last (d_Tlim D) 0.

(* A loaded species of one of the two classes, or a mixture of such species, in a session
   whose def_oob is nan. *)
Definition species (E : env) (g : gas) : Prop :=
  e_oob E = None /\
  ((exists D, good_species D /\ (g = ig_gas None D \/ g = ig2_gas None D)) \/
   (exists coll m o, usable_mixture coll m /\ bootstrap coll m fresh = (o, Ok tt) /\
      g = mix_gas None coll o)).

(* element i of an array stretched to a longer one when it has a single element *)
Definition elem (a : arr) (i : nat) : option fl :=
  match a with [x] => Some x | _ => nth_error a i end.

(* ---- calls ---- *)
Local Open Scope string_scope.

(* the arguments of a call by name: keyword arguments, then positional T, p *)
Definition supplied (varg : list arr) (kw : list (string * arr)) : list (string * arr) :=
  (kw ++ combine ["T"; "p"] varg)%list.

(* the documented argument combinations: at most two of the seven properties, given once,
   not two of T/e/h, not both d and v; e or h needs a second property *)
Definition acceptable (varg : list arr) (kw : list (string * arr)) : Prop :=
  let names := map fst (supplied varg kw) in
  (List.length varg <= 2)%nat /\ NoDup names /\ (List.length names <= 2)%nat /\
  (forall n, In n names -> In n ["T"; "p"; "d"; "v"; "e"; "h"; "s"]) /\
  ~ (In "T" names /\ In "e" names) /\ ~ (In "T" names /\ In "h" names) /\
  ~ (In "e" names /\ In "h" names) /\ ~ (In "d" names /\ In "v" names) /\
  names <> ["e"] /\ names <> ["h"].

(* all arrays have the same number of elements, or one *)
Definition compatible (l : list (string * arr)) : Prop :=
  exists n, forall k a, In (k, a) l -> List.length a = n \/ List.length a = 1%nat.

(* the units of the configured default state are known *)
Definition defaults_known (E : env) : Prop :=
  In (e_defTu E) scales /\ exists k, si (e_setup E) QPressure (e_defpu E) = Some k.

(* every element of a is a number that is, in kelvin, outside the range of the species *)
Definition all_outside (E : env) (g : gas) (a : arr) : Prop :=
  forall x, In x a -> exists r K, x = Some r /\
    temperature_scale (e_cfg E) r None (Some "K") = Ok K /\
    (K < nth 0 (g_Tlim g) 0 \/ last (g_Tlim g) 0 < K).

(* The reasons for which a call with acceptable arguments may be refused: every temperature
   (given, default, or computed from p and d or v) is outside the range; an empty array. *)
Definition refused (E : env) (g : gas) (varg : list arr) (kw : list (string * arr)) : Prop :=
  let names := map fst (supplied varg kw) in
  (exists a, In ("T", a) (supplied varg kw) /\ all_outside E g a) \/
  (exists t, ~ In "T" names /\ (List.length names <= 1)%nat /\
     def_T (e_cfg E) (e_defT E) (e_defTu E) = Ok t /\ all_outside E g [Some t]) \/
  (In "p" names /\ (In "d" names \/ In "v" names)) \/
  (exists n, In (n, []) (supplied varg kw)).

(* the property methods that take a state, apart from the one-argument form of T *)
Definition methods (g : gas) (E : env) : list (list arr -> list (string * arr) -> res arr) :=
  [m_T g E; m_p g E; m_d g E; m_v g E; m_cp g E; m_cv g E; m_gam g E; m_h g E; m_e g E;
   m_s g E; m_g g E; m_f g E].

(* ---- one physical quantity in two unit configurations ---- *)
Record sizes := { z_T : string; z_kT : R; z_kP : R; z_kV : R; z_kE : R; z_kM : R }.
Definition has_sizes (E : env) (mw : R) (z : sizes) : Prop :=
  units_known E mw (z_T z) (z_kT z) (z_kP z) (z_kV z) (z_kE z) (z_kM z).

(* kinds of reported quantities: temperature, pressure, density, specific volume, energy per
   amount, energy per amount and degree, pure number *)
Inductive kind := KTemp | KPres | KDens | KVol | KEnergy | KHeat | KNumber.

(* the numbers x1 in configuration E1 and x2 in configuration E2 are the same quantity *)
Definition same_quantity (k : kind) (E1 E2 : env) (z1 z2 : sizes) (x1 x2 : fl) : Prop :=
  match x1, x2 with
  | None, None => True
  | Some r1, Some r2 =>
      match k with
      | KTemp => exists K, temperature_scale (e_cfg E1) r1 None (Some "K") = Ok K /\
                           temperature_scale (e_cfg E2) r2 None (Some "K") = Ok K
      | KPres => r1 * z_kP z1 = r2 * z_kP z2
      | KDens => r1 * z_kM z1 / z_kV z1 = r2 * z_kM z2 / z_kV z2
      | KVol => r1 * z_kV z1 / z_kM z1 = r2 * z_kV z2 / z_kM z2
      | KEnergy => r1 * z_kE z1 / z_kM z1 = r2 * z_kE z2 / z_kM z2
      | KHeat => r1 * z_kE z1 / z_kM z1 / z_kT z1 = r2 * z_kE z2 / z_kM z2 / z_kT z2
      | KNumber => r1 = r2
      end
  | _, _ => False
  end.

Definition kind_of (name : string) : kind :=
  if String.eqb name "T" then KTemp else if String.eqb name "p" then KPres
  else if String.eqb name "d" then KDens else if String.eqb name "v" then KVol
  else if String.eqb name "s" then KHeat else KEnergy.

(* the same two arguments, in two configurations *)
Definition same_arguments (E1 E2 : env) (z1 z2 : sizes) (kw1 kw2 : list (string * arr)) : Prop :=
  List.length kw1 = 2%nat /\
  Forall2 (fun x y => fst x = fst y /\
                      Forall2 (same_quantity (kind_of (fst x)) E1 E2 z1 z2) (snd x) (snd y)) kw1 kw2.

(* the same outcome: the same error, or arrays of the same quantities *)
Definition same_outcome (k : kind) (E1 E2 : env) (z1 z2 : sizes) (r1 r2 : res arr) : Prop :=
  match r1, r2 with
  | Ok a, Ok b => Forall2 (same_quantity k E1 E2 z1 z2) a b
  | Err e1, Err e2 => e1 = e2
  | _, _ => False
  end.

From Coq Require Import Reals ZArith Lra Lia List String.
From Verif Require Import Model_Units Spec_Units.
Local Open Scope R_scope.
Local Open Scope string_scope.

Ltac redtab := cbn [dset rd dget String.eqb Ascii.eqb Bool.eqb fst snd].

Lemma p10_pos_eq p : p10 (Zpos p) = 10 ^ Pos.to_nat p.
Proof. reflexivity. Qed.
Lemma p10_neg_eq p : p10 (Zneg p) = / 10 ^ Pos.to_nat p.
Proof. reflexivity. Qed.
Ltac p10s := repeat first [rewrite p10_pos_eq | rewrite p10_neg_eq];
  repeat match goal with |- context [Pos.to_nat ?p] =>
    let n := eval compute in (Pos.to_nat p) in change (Pos.to_nat p) with n end.

Lemma boltz_pos : 0 < boltzmann. Proof. unfold boltzmann. lra. Qed.
Lemma avo_pos : 0 < avogadro. Proof. unfold avogadro. lra. Qed.
Lemma charge_pos : 0 < electron_charge. Proof. unfold electron_charge. lra. Qed.
Lemma const_k_eq : const_k = boltzmann. Proof. unfold const_k, boltzmann. p10s. lra. Qed.
Lemma const_Na_eq : const_Na = avogadro. Proof. unfold const_Na, avogadro. p10s. lra. Qed.
Lemma const_q_eq : const_q = electron_charge. Proof. unfold const_q, electron_charge. p10s. lra. Qed.
Lemma const_Ru_eq : const_Ru = gas_constant.
Proof. unfold const_Ru, gas_constant. now rewrite const_k_eq, const_Na_eq. Qed.

Lemma cons_pair_eq (k : string) (v v' : R) l l' :
  v = v' -> l = l' -> ((k, v) :: l)%list = ((k, v') :: l')%list.
Proof. intros -> ->. reflexivity. Qed.
Ltac listeq := repeat first [apply cons_pair_eq | match goal with |- @nil _ = nil => reflexivity end].

Lemma build_cons t k f l : build t ((k, f) :: l) = build (dset k (f t) t) l.
Proof. reflexivity. Qed.
Lemma build_nil t : build t [] = t.
Proof. reflexivity. Qed.
Ltac builds := repeat (rewrite build_cons; redtab); rewrite ?build_nil; redtab.

Lemma length_si s : length_tab = si_table s QLength.
Proof. cbn [si_table]. unfold length_tab, inch, foot. builds. listeq; p10s; lra. Qed.

Lemma mass_si s : positive_setup s -> mass_tab s = si_table s QMass.
Proof.
  intros (HT & Hp & Hg & Hw & Hm). pose proof avo_pos as Ha.
  unfold mass_tab. rewrite (length_si s), const_Na_eq. cbn [si_table]. builds.
  unfold foot, pound. listeq; p10s; try lra; try (field; lra).
Qed.

Lemma force_si s : positive_setup s -> force_tab s = si_table s QForce.
Proof.
  intros Hs. unfold force_tab. rewrite (mass_si s Hs). cbn [si_table]. builds.
  listeq; lra.
Qed.

Lemma tab_si s q : positive_setup s -> tab_of s q = si_table s q.
Proof.
  intros Hs. pose proof Hs as (HT & Hp & Hg & Hw & Hm).
  pose proof boltz_pos as Hk. pose proof avo_pos as Ha. pose proof charge_pos as Hq.
  destruct q; cbn [tab_of].
  - apply length_si.
  - cbn [si_table]. unfold time_tab. listeq; p10s; lra.
  - now apply mass_si.
  - now apply force_si.
  - unfold molar_tab, const_dstd. rewrite (length_si s), (mass_si s Hs), const_Na_eq, const_Ru_eq.
    cbn [si_table]. builds. unfold normal_cubic_metre, gas_constant, foot, inch.
    listeq; p10s; try lra; field; lra.
  - cbn [si_table]. unfold temperature_tab. rewrite const_q_eq, const_k_eq. listeq; try lra; field; lra.
  - unfold energy_tab, temperature_tab. rewrite (mass_si s Hs), const_q_eq. cbn [si_table]. builds.
    listeq; lra.
  - unfold volume_tab. rewrite (length_si s). cbn [si_table]. builds. listeq; p10s; try lra; field.
  - unfold pressure_tab. rewrite (length_si s), (force_si s Hs). cbn [si_table]. builds.
    unfold inch, foot. listeq; p10s; try lra; field.
Qed.

Lemma si_table_pos s q : positive_setup s -> Forall (fun p => 0 < snd p) (si_table s q).
Proof.
  intros (HT & Hp & Hg & Hw & Hm).
  pose proof boltz_pos as Hk. pose proof avo_pos as Ha. pose proof charge_pos as Hq.
  assert (Hin : 0 < inch) by (unfold inch; lra).
  assert (Hft : 0 < foot) by (unfold foot; lra).
  assert (Hlb : 0 < pound) by (unfold pound; lra).
  assert (Hgc : 0 < gas_constant) by (unfold gas_constant; apply Rmult_lt_0_compat; lra).
  assert (Hn : 0 < normal_cubic_metre s).
  { unfold normal_cubic_metre. repeat apply Rdiv_lt_0_compat; try lra;
    repeat apply Rmult_lt_0_compat; lra. }
  assert (H1 : forall x y, 0 < x -> 0 < y -> 0 < x * y) by (intros; apply Rmult_lt_0_compat; lra).
  assert (H2 : forall x y, 0 < x -> 0 < y -> 0 < x / y) by (intros; apply Rdiv_lt_0_compat; lra).
  assert (H3 : forall x n, 0 < x -> 0 < x ^ n) by (intros; apply pow_lt; lra).
  destruct q; cbn [si_table]; repeat constructor; cbn [snd];
  repeat first [assumption | lra | apply H1 | apply Rinv_0_lt_compat | apply H3].
Qed.

Lemma tab_entry_pos s q u v : positive_setup s -> dget u (tab_of s q) = Some v -> 0 < v.
Proof.
  intros Hs H. rewrite (tab_si s q Hs) in H. apply dget_some_in in H.
  pose proof (si_table_pos s q Hs) as Hf. rewrite Forall_forall in Hf. exact (Hf _ H).
Qed.

Lemma tab_lookup s q u : positive_setup s -> dget u (tab_of s q) = si s q u.
Proof. intro Hs. unfold si. now rewrite (tab_si s q Hs). Qed.

Lemma si_pos s q u v : positive_setup s -> si s q u = Some v -> 0 < v.
Proof. intros Hs H. rewrite <- tab_lookup in H by assumption. eapply tab_entry_pos; eauto. Qed.

(* powers *)
Lemma powerRZ_zpow x n : powerRZ x n = zpow x n.
Proof. destruct n; reflexivity. Qed.

Lemma zpow_1 x : zpow x 1 = x.
Proof. unfold zpow. change (Pos.to_nat 1) with 1%nat. apply pow_1. Qed.

Lemma apply_exponent_ok x e : x <> 0 -> apply_exponent x e = Ok (zpow x (effective_exponent e)).
Proof.
  intro Hx. destruct e as [n|]; unfold apply_exponent, effective_exponent.
  - destruct (n =? 0)%Z eqn:E.
    + now rewrite zpow_1.
    + unfold ppow. destruct (Req_EM_T x 0); [contradiction|]. now rewrite powerRZ_zpow.
  - now rewrite zpow_1.
Qed.

Lemma zpow_neq_0 x n : x <> 0 -> zpow x n <> 0.
Proof. intro H. rewrite <- powerRZ_zpow. now apply powerRZ_NOR. Qed.

Lemma pow_div_inv x y n : y <> 0 -> (x / y) ^ n = x ^ n / y ^ n.
Proof. intros. unfold Rdiv. rewrite Rpow_mult_distr, pow_inv. reflexivity. Qed.

Lemma zpow_mult x y n : x <> 0 -> y <> 0 -> zpow (x * y) n = zpow x n * zpow y n.
Proof.
  intros Hx Hy. destruct n; cbn [zpow].
  - lra.
  - apply Rpow_mult_distr.
  - rewrite Rpow_mult_distr. rewrite Rinv_mult. reflexivity.
Qed.

Lemma zpow_one n : zpow 1 n = 1.
Proof. destruct n; cbn [zpow]; rewrite ?pow1; lra. Qed.

Lemma zpow_add x n m : x <> 0 -> zpow x (n + m) = zpow x n * zpow x m.
Proof. intros. rewrite <- !powerRZ_zpow. now apply powerRZ_add. Qed.

(* characterisation of the conversion routine *)
Lemma convert_spec s q c v a b e va vb :
  positive_setup s -> si s q a = Some va -> si s q b = Some vb ->
  convert (units_of s q) c v (Some a) (Some b) e
  = Ok (v * zpow (va / vb) (effective_exponent e)).
Proof.
  intros Hs Ha Hb. unfold convert. cbn [default_unit bind units_of table].
  pose proof (si_pos _ _ _ _ Hs Ha). pose proof (si_pos _ _ _ _ Hs Hb).
  destruct (String.eqb_spec a b) as [->|Hab].
  - rewrite Ha in Hb. injection Hb as ->.
    replace (vb / vb) with 1 by (field; lra). rewrite zpow_one, Rmult_1_r. reflexivity.
  - unfold tget. rewrite !tab_lookup, Ha, Hb by assumption. cbn [bind].
    unfold pdiv. destruct (Req_EM_T vb 0) as [E|_]; [lra|]. cbn [bind].
    rewrite apply_exponent_ok; [reflexivity|].
    unfold Rdiv. apply Rmult_integral_contrapositive_currified; [lra|]. apply Rinv_neq_0_compat; lra.
Qed.

Definition resolve (s : setup_args) (q : quantity) (c : ucfg) (u : option string) : option string :=
  match u with Some x => Some x | None => dget (key_of q) c end.

Lemma convert_ok_inv s q c v a b e r :
  positive_setup s -> convert (units_of s q) c v a b e = Ok r ->
  exists ua ub, resolve s q c a = Some ua /\ resolve s q c b = Some ub /\
  ((ua = ub /\ r = v) \/
   (ua <> ub /\ exists va vb, si s q ua = Some va /\ si s q ub = Some vb /\
                   r = v * zpow (va / vb) (effective_exponent e))).
Proof.
  intros Hs. unfold convert.
  assert (Hd : forall u x, default_unit (units_of s q) c u = Ok x -> resolve s q c u = Some x).
  { intros u x. destruct u; cbn; [congruence|]. unfold cfg_get.
    destruct (dget (key_of q) c); congruence. }
  destruct (default_unit (units_of s q) c a) as [ua|] eqn:Ea; cbn [bind]; [|discriminate].
  destruct (default_unit (units_of s q) c b) as [ub|] eqn:Eb; cbn [bind]; [|discriminate].
  apply Hd in Ea. apply Hd in Eb. intro H. exists ua, ub. repeat split; auto.
  destruct (String.eqb_spec ua ub) as [->|Hab]; [left; split; congruence|right].
  split; [assumption|].
  unfold tget in H. cbn [units_of table] in H. rewrite !tab_lookup in H by assumption.
  destruct (si s q ua) as [va|] eqn:Ha; cbn [bind] in H; [|discriminate].
  destruct (si s q ub) as [vb|] eqn:Hb; cbn [bind] in H; [|discriminate].
  pose proof (si_pos _ _ _ _ Hs Ha). pose proof (si_pos _ _ _ _ Hs Hb).
  unfold pdiv in H. destruct (Req_EM_T vb 0) as [E|_]; [lra|]. cbn [bind] in H.
  rewrite apply_exponent_ok in H.
  2:{ unfold Rdiv. apply Rmult_integral_contrapositive_currified; [lra|]. apply Rinv_neq_0_compat; lra. }
  cbn [bind] in H. exists va, vb. repeat split; auto. congruence.
Qed.

Lemma zpow_swap x y n : x <> 0 -> y <> 0 -> zpow (x / y) n * zpow (y / x) n = 1.
Proof.
  intros. rewrite <- zpow_mult.
  - replace (x / y * (y / x)) with 1 by (field; auto). apply zpow_one.
  - unfold Rdiv. apply Rmult_integral_contrapositive_currified; [lra|]. now apply Rinv_neq_0_compat.
  - unfold Rdiv. apply Rmult_integral_contrapositive_currified; [lra|]. now apply Rinv_neq_0_compat.
Qed.

Lemma resolve_default s q c u x :
  resolve s q c u = Some x -> default_unit (units_of s q) c u = Ok x.
Proof. destruct u; cbn; [congruence|]. unfold cfg_get. intros ->. reflexivity. Qed.

Lemma convert_resolved s q c v a b e ua ub :
  resolve s q c a = Some ua -> resolve s q c b = Some ub ->
  convert (units_of s q) c v a b e = convert (units_of s q) c v (Some ua) (Some ub) e.
Proof.
  intros Ha Hb. unfold convert. rewrite (resolve_default _ _ _ _ _ Ha), (resolve_default _ _ _ _ _ Hb).
  reflexivity.
Qed.

Lemma round_trip s q c v a b e r :
  positive_setup s -> convert (units_of s q) c v a b e = Ok r ->
  convert (units_of s q) c r b a e = Ok v.
Proof.
  intros Hs H. destruct (convert_ok_inv _ _ _ _ _ _ _ _ Hs H) as (ua & ub & Ra & Rb & Hc).
  rewrite (convert_resolved _ _ _ _ _ _ _ _ _ Rb Ra).
  destruct Hc as [[-> ->]|(Hab & va & vb & Ha & Hb & ->)].
  - unfold convert. cbn. now rewrite String.eqb_refl.
  - rewrite (convert_spec _ _ _ _ _ _ _ _ _ Hs Hb Ha).
    pose proof (si_pos _ _ _ _ Hs Ha). pose proof (si_pos _ _ _ _ Hs Hb).
    rewrite Rmult_assoc, zpow_swap by lra. now rewrite Rmult_1_r.
Qed.

Lemma compose s q c v a b d e r r' :
  positive_setup s -> convert (units_of s q) c v a b e = Ok r ->
  convert (units_of s q) c r b d e = Ok r' ->
  convert (units_of s q) c v a d e = Ok r'.
Proof.
  intros Hs H1 H2.
  destruct (convert_ok_inv _ _ _ _ _ _ _ _ Hs H1) as (ua & ub & Ra & Rb & Hc1).
  destruct (convert_ok_inv _ _ _ _ _ _ _ _ Hs H2) as (ub' & ud & Rb' & Rd & Hc2).
  rewrite Rb in Rb'. injection Rb' as <-.
  rewrite (convert_resolved _ _ _ _ _ _ _ _ _ Ra Rd).
  destruct Hc1 as [[-> ->]|(Hab & va & vb & Ha & Hb & ->)].
  - rewrite (convert_resolved _ _ _ _ _ _ _ _ _ Rb Rd) in H2. exact H2.
  - destruct Hc2 as [[-> ->]|(Hbd & vb' & vd & Hb' & Hd & ->)].
    + apply convert_spec; assumption.
    + rewrite Hb in Hb'. injection Hb' as <-.
      rewrite (convert_spec _ _ _ _ _ _ _ _ _ Hs Ha Hd). f_equal.
      pose proof (si_pos _ _ _ _ Hs Ha). pose proof (si_pos _ _ _ _ Hs Hb). pose proof (si_pos _ _ _ _ Hs Hd).
      assert (Hnz : forall x y, 0 < x -> 0 < y -> x / y <> 0).
      { intros x y Hx Hy. unfold Rdiv. apply Rmult_integral_contrapositive_currified; [lra|].
        apply Rinv_neq_0_compat; lra. }
      rewrite Rmult_assoc, <- zpow_mult by (apply Hnz; assumption).
      f_equal. f_equal. field. lra.
Qed.

Lemma linear s q c v w k a b e r r' :
  convert (units_of s q) c v a b e = Ok r ->
  convert (units_of s q) c w a b e = Ok r' ->
  convert (units_of s q) c (k * v + w) a b e = Ok (k * r + r').
Proof.
  unfold convert. intros H1 H2.
  destruct (default_unit (units_of s q) c a) as [ua|]; cbn [bind] in *; [|discriminate].
  destruct (default_unit (units_of s q) c b) as [ub|]; cbn [bind] in *; [|discriminate].
  destruct (String.eqb ua ub); [congruence|].
  destruct (tget (table (units_of s q)) ua) as [va|]; cbn [bind] in *; [|discriminate].
  destruct (tget (table (units_of s q)) ub) as [vb|]; cbn [bind] in *; [|discriminate].
  destruct (pdiv va vb) as [cv|]; cbn [bind] in *; [|discriminate].
  destruct (apply_exponent cv e) as [cv'|]; cbn [bind] in *; [|discriminate].
  injection H1 as <-. injection H2 as <-. f_equal. lra.
Qed.

Lemma exponent_add s q c v a b n m r r' :
  positive_setup s -> n <> 0%Z -> m <> 0%Z -> (n + m)%Z <> 0%Z ->
  convert (units_of s q) c v a b (Some n) = Ok r ->
  convert (units_of s q) c r a b (Some m) = Ok r' ->
  convert (units_of s q) c v a b (Some (n + m)%Z) = Ok r'.
Proof.
  intros Hs Hn Hm Hnm H1 H2.
  destruct (convert_ok_inv _ _ _ _ _ _ _ _ Hs H1) as (ua & ub & Ra & Rb & Hc1).
  rewrite (convert_resolved _ _ _ _ _ _ _ _ _ Ra Rb) in H2.
  rewrite (convert_resolved _ _ _ _ _ _ _ _ _ Ra Rb).
  destruct Hc1 as [[-> ->]|(Hab & va & vb & Ha & Hb & ->)].
  - unfold convert in *. cbn in *. rewrite String.eqb_refl in *. congruence.
  - rewrite (convert_spec _ _ _ _ _ _ _ _ _ Hs Ha Hb) in H2. injection H2 as <-.
    rewrite (convert_spec _ _ _ _ _ _ _ _ _ Hs Ha Hb). f_equal.
    cbn [effective_exponent].
    rewrite (proj2 (Z.eqb_neq n 0) Hn), (proj2 (Z.eqb_neq m 0) Hm), (proj2 (Z.eqb_neq (n+m) 0) Hnm).
    pose proof (si_pos _ _ _ _ Hs Ha). pose proof (si_pos _ _ _ _ Hs Hb).
    rewrite zpow_add; [lra|]. unfold Rdiv. apply Rmult_integral_contrapositive_currified; [lra|].
    apply Rinv_neq_0_compat; lra.
Qed.

(* total on known units *)
Lemma convert_total s q c v a b e :
  positive_setup s -> si s q a <> None -> si s q b <> None ->
  exists r, convert (units_of s q) c v (Some a) (Some b) e = Ok r.
Proof.
  intros Hs Ha Hb.
  destruct (si s q a) as [va|] eqn:Ea; [|congruence].
  destruct (si s q b) as [vb|] eqn:Eb; [|congruence].
  eexists. eapply convert_spec; eauto.
Qed.

Lemma exponent_meaning s q c v a b n f :
  positive_setup s -> n <> 0%Z ->
  convert (units_of s q) c 1 (Some a) (Some b) None = Ok f ->
  convert (units_of s q) c v (Some a) (Some b) (Some n) = Ok (v * zpow f n).
Proof.
  intros Hs Hn H.
  destruct (convert_ok_inv _ _ _ _ _ _ _ _ Hs H) as (ua & ub & Ra & Rb & Hc).
  cbn in Ra, Rb. injection Ra as <-. injection Rb as <-.
  destruct Hc as [[-> ->]|(Hab & va & vb & Ha & Hb & ->)].
  - unfold convert. cbn. rewrite String.eqb_refl, zpow_one. f_equal. lra.
  - rewrite (convert_spec _ _ _ _ _ _ _ _ _ Hs Ha Hb). cbn [effective_exponent].
    rewrite (proj2 (Z.eqb_neq n 0) Hn), Rmult_1_l, zpow_1. reflexivity.
Qed.

Lemma default_positive : positive_setup default_setup.
Proof. unfold positive_setup, default_setup; cbn. lra. Qed.

Lemma exponent_zero_wrong :
  exists q a b v r, convert (units_of default_setup q) [] v (Some a) (Some b) (Some 0%Z) = Ok r /\
  r <> v * zpow (12) 0 /\ r = 12 * v /\ convert (units_of default_setup q) [] 1 (Some a) (Some b) None = Ok 12.
Proof.
  exists QLength, "ft", "in", 1, 12.
  assert (Ha : si default_setup QLength "ft" = Some foot) by reflexivity.
  assert (Hb : si default_setup QLength "in" = Some inch) by reflexivity.
  rewrite !(convert_spec _ _ _ _ _ _ _ _ _ default_positive Ha Hb). cbn [effective_exponent Z.eqb].
  rewrite zpow_1. unfold foot, inch. repeat split; cbn [zpow]; try (f_equal; field); lra.
Qed.

(* unknown units *)
Lemma unknown_from s q c v u b e :
  positive_setup s -> si s q u = None -> b <> u ->
  convert (units_of s q) c v (Some u) (Some b) e = Err EKeyError.
Proof.
  intros Hs Hu Hb. unfold convert. cbn [default_unit bind units_of table].
  destruct (String.eqb_spec u b); [congruence|].
  unfold tget. rewrite tab_lookup, Hu by assumption. reflexivity.
Qed.

Lemma unknown_to s q c v u b e :
  positive_setup s -> si s q u = None -> b <> u ->
  convert (units_of s q) c v (Some b) (Some u) e = Err EKeyError.
Proof.
  intros Hs Hu Hb. unfold convert. cbn [default_unit bind units_of table].
  destruct (String.eqb_spec b u); [congruence|].
  unfold tget. rewrite !tab_lookup, Hu by assumption.
  destruct (si s q b); reflexivity.
Qed.

(* temperature scales *)
Definition is_scale (u : string) := In u scales.

Lemma kelvin_ratio_pos : 0 < const_q / const_k.
Proof. rewrite const_q_eq, const_k_eq. apply Rdiv_lt_0_compat; [apply charge_pos | apply boltz_pos]. Qed.

Lemma from_to_kelvin u v : from_kelvin u (to_kelvin u v) = v.
Proof.
  pose proof kelvin_ratio_pos. unfold from_kelvin, to_kelvin.
  destruct (String.eqb u "C"); [lra|]. destruct (String.eqb u "R"); [lra|].
  destruct (String.eqb u "F"); [lra|]. destruct (String.eqb u "eV"); [|reflexivity].
  set (k := const_q / const_k) in *. field. lra.
Qed.
Lemma to_from_kelvin u v : to_kelvin u (from_kelvin u v) = v.
Proof.
  pose proof kelvin_ratio_pos. unfold from_kelvin, to_kelvin.
  destruct (String.eqb u "C"); [lra|]. destruct (String.eqb u "R"); [lra|].
  destruct (String.eqb u "F"); [lra|]. destruct (String.eqb u "eV"); [|reflexivity].
  set (k := const_q / const_k) in *. field. lra.
Qed.

Lemma tscale_not_abs c v a b : a <> "abs" -> b <> "abs" ->
  temperature_scale c v (Some a) (Some b) = Ok (from_kelvin b (to_kelvin a v)).
Proof.
  intros Ha Hb. unfold temperature_scale. cbn [bind].
  destruct (String.eqb_spec a b) as [->|]; [now rewrite from_to_kelvin|].
  destruct (String.eqb_spec a "abs"); [congruence|].
  destruct (String.eqb_spec b "abs"); [congruence|]. reflexivity.
Qed.

Definition tresolve (c : ucfg) (u : option string) : option string :=
  match u with Some x => Some x | None => dget "unit_temperature" c end.

Lemma tscale_resolved c v a b ua ub :
  tresolve c a = Some ua -> tresolve c b = Some ub ->
  temperature_scale c v a b = temperature_scale c v (Some ua) (Some ub).
Proof.
  intros Ha Hb. unfold temperature_scale.
  assert (H : forall u x, tresolve c u = Some x ->
     (match u with None => cfg_get c "unit_temperature" | Some y => Ok y end) = Ok x).
  { intros u x. destruct u; cbn; [congruence|]. unfold cfg_get. intros ->; reflexivity. }
  rewrite (H _ _ Ha), (H _ _ Hb). reflexivity.
Qed.

Lemma tscale_resolve_ok c v a b r :
  temperature_scale c v a b = Ok r -> exists ua ub, tresolve c a = Some ua /\ tresolve c b = Some ub.
Proof.
  unfold temperature_scale, cfg_get.
  destruct a as [ua|]; cbn [tresolve]; [|destruct (dget "unit_temperature" c) as [ua|] eqn:Ea; cbn [bind]; [|discriminate]];
  (destruct b as [ub|]; cbn [tresolve]; [|destruct (dget "unit_temperature" c) as [ub|] eqn:Eb; cbn [bind]; [|discriminate]]);
  intros _; eauto.
Qed.

Lemma scale_not_abs u : In u scales -> u <> "abs".
Proof. unfold scales. cbn. intros H ->. repeat (destruct H as [H|H]; [discriminate|]). exact H. Qed.

Lemma tscale_round_trip c v a b r :
  temperature_scale c v a b = Ok r -> temperature_scale c r b a = Ok v.
Proof.
  intros H. destruct (tscale_resolve_ok _ _ _ _ _ H) as (ua & ub & Ra & Rb).
  rewrite (tscale_resolved _ _ _ _ _ _ Ra Rb) in H.
  rewrite (tscale_resolved _ _ _ _ _ _ Rb Ra).
  revert H. unfold temperature_scale. cbn [bind].
  destruct (String.eqb_spec ua ub) as [->|Hab].
  - rewrite String.eqb_refl. intro H; congruence.
  - destruct (String.eqb_spec ub ua); [congruence|].
    destruct (String.eqb_spec ua "abs") as [->|Ha].
    + destruct (String.eqb_spec ub "abs"); [congruence|].
      destruct (String.eqb_spec ub "C") as [->|]; [|destruct (String.eqb_spec ub "F") as [->|]];
      intro H; injection H as <-; try reflexivity.
      * now rewrite to_from_kelvin.
      * rewrite to_from_kelvin. now rewrite from_to_kelvin.
    + destruct (String.eqb_spec ub "abs") as [->|Hb].
      * destruct (String.eqb_spec ua "C") as [->|]; [|destruct (String.eqb_spec ua "F") as [->|]];
        intro H; injection H as <-; try reflexivity.
        -- change (to_kelvin "K" (from_kelvin "K" (to_kelvin "C" v))) with (to_kelvin "C" v).
           now rewrite from_to_kelvin.
        -- now rewrite to_from_kelvin, from_to_kelvin.
      * intro H; injection H as <-. now rewrite to_from_kelvin, from_to_kelvin.
Qed.

Lemma tscale_compose c v a b d r r' :
  a <> "abs" -> b <> "abs" -> d <> "abs" ->
  temperature_scale c v (Some a) (Some b) = Ok r ->
  temperature_scale c r (Some b) (Some d) = Ok r' ->
  temperature_scale c v (Some a) (Some d) = Ok r'.
Proof.
  intros Ha Hb Hd. rewrite !tscale_not_abs by assumption.
  intros H1 H2. injection H1 as <-. injection H2 as <-. now rewrite to_from_kelvin.
Qed.

Lemma tscale_kelvin c v a k :
  a <> "F" -> kelvin a v = Some k ->
  temperature_scale c v (Some a) (Some "K") = Ok k /\
  temperature_scale c k (Some "K") (Some a) = Ok v.
Proof.
  intros HF Hk.
  assert (Hin : a <> "abs").
  { intros ->. discriminate. }
  rewrite !tscale_not_abs by (assumption || discriminate).
  assert (Hto : to_kelvin a v = k).
  { revert Hk. unfold kelvin, to_kelvin.
    destruct (String.eqb_spec a "K") as [->|]; [intro H; injection H as <-; reflexivity|].
    destruct (String.eqb_spec a "C"); [intro H; injection H as <-; lra|].
    destruct (String.eqb_spec a "R"); [intro H; injection H as <-; lra|].
    destruct (String.eqb_spec a "F"); [contradiction|].
    destruct (String.eqb_spec a "eV"); [|discriminate].
    rewrite const_q_eq, const_k_eq. intro H; injection H as <-; reflexivity. }
  split.
  - change (from_kelvin "K" (to_kelvin a v)) with (to_kelvin a v). now rewrite Hto.
  - change (to_kelvin "K" k) with k. rewrite <- Hto. now rewrite from_to_kelvin.
Qed.

Lemma tscale_fahrenheit c v :
  exists k, kelvin "F" v = Some k /\
  exists r, temperature_scale c v (Some "F") (Some "K") = Ok r /\ Rabs (r - k) < / 10 ^ 13 /\ r <> k.
Proof.
  eexists; split; [reflexivity|]. eexists; split; [now rewrite tscale_not_abs by discriminate|].
  change (from_kelvin "K" ?x) with x. unfold to_kelvin. cbn [String.eqb Ascii.eqb Bool.eqb]. p10s.
  split; [|lra]. apply Rabs_def1; lra.
Qed.

Lemma tscale_difference s c v w a b r r' :
  positive_setup s -> In a scales -> In b scales ->
  temperature_scale c v (Some a) (Some b) = Ok r ->
  temperature_scale c w (Some a) (Some b) = Ok r' ->
  convert (units_of s QTemperature) c (v - w) (Some a) (Some b) None = Ok (r - r').
Proof.
  intros Hs Ha Hb. rewrite !tscale_not_abs by (apply scale_not_abs; assumption).
  intros H1 H2. injection H1 as <-. injection H2 as <-.
  assert (E : forall u, In u scales -> exists x, si s QTemperature u = Some x /\ 0 < x /\
     forall v w, to_kelvin u v - to_kelvin u w = (v - w) * (x / (9/5))
              /\ from_kelvin u v - from_kelvin u w = (v - w) * ((9/5) / x)).
  { pose proof boltz_pos as Hk. pose proof charge_pos as Hq.
    assert (H0 : 0 < electron_charge / boltzmann) by (apply Rdiv_lt_0_compat; assumption).
    intros u Hu. unfold scales in Hu.
    repeat destruct Hu as [Hu|Hu]; try subst u; try contradiction; eexists; (split; [reflexivity|]);
    (split; [try lra|]); try (intros; unfold to_kelvin, from_kelvin; cbn [String.eqb Ascii.eqb Bool.eqb];
    rewrite ?const_q_eq, ?const_k_eq; split; field; lra). }
  destruct (E a Ha) as (va & Hva & Pa & Ea). destruct (E b Hb) as (vb & Hvb & Pb & Eb).
  rewrite (convert_spec _ _ _ _ _ _ _ _ _ Hs Hva Hvb). cbn [effective_exponent]. rewrite zpow_1.
  f_equal. destruct (Eb (to_kelvin a v) (to_kelvin a w)) as [_ ->].
  destruct (Ea v w) as [-> _]. field. lra.
Qed.

Lemma abs_means_absolute c v :
  temperature_scale c v (Some "C") (Some "abs") = temperature_scale c v (Some "C") (Some "K") /\
  temperature_scale c v (Some "F") (Some "abs") = temperature_scale c v (Some "F") (Some "R") /\
  (forall u, u <> "C" -> u <> "F" -> temperature_scale c v (Some u) (Some "abs") = Ok v).
Proof.
  repeat split. intros u H1 H2. unfold temperature_scale. cbn [bind].
  destruct (String.eqb_spec u "abs") as [->|]; [reflexivity|].
  cbn [String.eqb Ascii.eqb Bool.eqb].
  destruct (String.eqb_spec u "C"); [congruence|]. destruct (String.eqb_spec u "F"); [congruence|].
  reflexivity.
Qed.

(* gauge / absolute *)
Lemma gauge_inverse st c v u p r :
  gauge_to_abs st c v u p = Ok r -> abs_to_gauge st c r u p = Ok v.
Proof.
  unfold gauge_to_abs, abs_to_gauge. destruct (convert _ _ _ _ _ _) as [off|]; cbn [bind]; [|discriminate].
  intro H; injection H as <-. f_equal. lra.
Qed.
Lemma gauge_inverse' st c v u p r :
  abs_to_gauge st c v u p = Ok r -> gauge_to_abs st c r u p = Ok v.
Proof.
  unfold gauge_to_abs, abs_to_gauge. destruct (convert _ _ _ _ _ _) as [off|]; cbn [bind]; [|discriminate].
  intro H; injection H as <-. f_equal. lra.
Qed.

Lemma gauge_physical st c v u p r :
  positive_setup (now st) -> gauge_to_abs st c v (Some u) (Some p) = Ok r ->
  convert (units_of (now st) QPressure) c (r - v) (Some u) (Some "bar") None = Ok p.
Proof.
  intros Hs H. unfold gauge_to_abs in H.
  destruct (convert (units_of (now st) QPressure) c p (Some "bar") (Some u) None) as [off|] eqn:E;
  cbn [bind] in H; [|discriminate]. injection H as <-.
  replace (v + off - v) with off by lra. eapply round_trip; eauto.
Qed.

Lemma gauge_unit_independent st c v u w p r v' :
  positive_setup (now st) ->
  convert (units_of (now st) QPressure) c v (Some u) (Some w) None = Ok v' ->
  gauge_to_abs st c v (Some u) (Some p) = Ok r ->
  exists r', gauge_to_abs st c v' (Some w) (Some p) = Ok r' /\
             convert (units_of (now st) QPressure) c r (Some u) (Some w) None = Ok r'.
Proof.
  intros Hs Hv H. unfold gauge_to_abs in *.
  destruct (convert (units_of (now st) QPressure) c p (Some "bar") (Some u) None) as [off|] eqn:E;
  cbn [bind] in H; [|discriminate]. injection H as <-.
  assert (Hoff : exists off', convert (units_of (now st) QPressure) c off (Some u) (Some w) None = Ok off').
  { unfold convert in *. cbn [default_unit bind] in *.
    destruct (String.eqb u w); [eauto|].
    destruct (tget (table (units_of (now st) QPressure)) u) as [tu|]; cbn [bind] in *; [|discriminate].
    destruct (tget (table (units_of (now st) QPressure)) w) as [tw|]; cbn [bind] in *; [|discriminate].
    destruct (pdiv tu tw) as [cv|]; cbn [bind apply_exponent] in *; [|discriminate]. eauto. }
  destruct Hoff as [off' Hoff].
  exists (v' + off'). split.
  - rewrite (compose _ _ _ _ _ _ _ _ _ _ Hs E Hoff). reflexivity.
  - pose proof (linear _ _ _ _ _ 1 _ _ _ _ _ Hv Hoff) as Hl.
    rewrite !Rmult_1_l in Hl. exact Hl.
Qed.

Lemma setup_gauge_refuted :
  exists s r, positive_setup s /\ pstd s = 2 /\
    gauge_to_abs (call_setup import_units s) [] 0 (Some "atm") None = Ok r /\ r <> 1.
Proof.
  exists {| Tstd := 273 + 15/100; pstd := 2; grav := 980665/100000; dh2o := 999972/1000; dhg := 135951/10 |}.
  set (s := Build_setup_args _ _ _ _ _).
  assert (Hs : positive_setup s) by (unfold positive_setup; cbn; lra).
  assert (Hb : si s QPressure "bar" = Some (10^5)) by reflexivity.
  assert (Ha : si s QPressure "atm" = Some (2 * 10^5)) by reflexivity.
  eexists; split; [exact Hs|]; split; [reflexivity|]. unfold gauge_to_abs. cbn [call_setup now patm_default].
  rewrite (convert_spec _ _ _ _ _ _ _ _ _ Hs Hb Ha). cbn [bind effective_exponent]. split; [reflexivity|].
  rewrite zpow_1. unfold import_units, default_setup; cbn [patm_default pstd]. lra.
Qed.

Lemma atm_follows_setup st s c :
  positive_setup s ->
  convert (units_of (now (call_setup st s)) QPressure) c 1 (Some "atm") (Some "bar") None = Ok (pstd s).
Proof.
  intro Hs. cbn [call_setup now].
  rewrite (convert_spec s QPressure c 1 "atm" "bar" None (pstd s * 10 ^ 5) (10 ^ 5) Hs eq_refl eq_refl).
  cbn [effective_exponent]. rewrite zpow_1. f_equal. field.
Qed.

(* matter *)
Lemma mass_molar_disjoint s u : positive_setup s ->
  si s QMass u <> None -> si s QMolar u <> None -> False.
Proof.
  intros Hs Hm Hn.
  assert (Hm' : In u (dkeys (si_table s QMass))).
  { apply dget_in_keys. unfold si in Hm. destruct (dget u (si_table s QMass)); [eauto|congruence]. }
  assert (Hn' : In u (dkeys (si_table s QMolar))).
  { apply dget_in_keys. unfold si in Hn. destruct (dget u (si_table s QMolar)); [eauto|congruence]. }
  cbn in Hm', Hn'.
  repeat (destruct Hm' as [<-|Hm']; [repeat (destruct Hn' as [Hn'|Hn']; [discriminate|]); exact Hn'|]). exact Hm'.
Qed.

Lemma nz_div x y : 0 < x -> 0 < y -> x / y <> 0.
Proof. intros Hx Hy. pose proof (Rdiv_lt_0_compat _ _ Hx Hy). lra. Qed.

Lemma kmoles_pos s mw u v : positive_setup s -> 0 < mw -> kmoles s mw u = Some v -> 0 < v.
Proof.
  intros Hs Hmw. unfold kmoles.
  destruct (si s QMolar u) as [m|] eqn:E; [intro H; injection H as <-; eapply si_pos; eauto|].
  destruct (si s QMass u) as [m|] eqn:E2; [|discriminate]. intro H; injection H as <-.
  apply Rdiv_lt_0_compat; [eapply si_pos; eauto | assumption].
Qed.

Lemma dmem_mass s u : positive_setup s -> dmem u (mass_tab s) = match si s QMass u with Some _ => true | None => false end.
Proof. intro Hs. unfold dmem. change (mass_tab s) with (tab_of s QMass). now rewrite tab_lookup. Qed.
Lemma dmem_molar s u : positive_setup s -> dmem u (molar_tab s) = match si s QMolar u with Some _ => true | None => false end.
Proof. intro Hs. unfold dmem. change (molar_tab s) with (tab_of s QMolar). now rewrite tab_lookup. Qed.

Lemma matter_spec s c v mw a b e ka kb :
  positive_setup s -> 0 < mw -> kmoles s mw a = Some ka -> kmoles s mw b = Some kb ->
  matter s c v mw (Some a) (Some b) e = Ok (v * zpow (ka / kb) (effective_exponent e)).
Proof.
  intros Hs Hmw Ha Hb.
  pose proof (kmoles_pos _ _ _ _ Hs Hmw Ha) as Pa. pose proof (kmoles_pos _ _ _ _ Hs Hmw Hb) as Pb.
  unfold matter. cbn [bind].
  destruct (String.eqb_spec a b) as [->|Hab].
  - rewrite Ha in Hb. injection Hb as ->. replace (kb / kb) with 1 by (field; lra).
    rewrite zpow_one. f_equal. lra.
  - rewrite !dmem_mass, !dmem_molar by assumption.
    unfold kmoles in Ha, Hb.
    unfold tget. change (mass_tab s) with (tab_of s QMass). change (molar_tab s) with (tab_of s QMolar).
    rewrite !tab_lookup by assumption.
    destruct (si s QMass a) as [ma|] eqn:Ma.
    + destruct (si s QMolar a) eqn:Na.
      { exfalso. eapply (mass_molar_disjoint s a); congruence. }
      injection Ha as <-. pose proof (si_pos _ _ _ _ Hs Ma) as Pma.
      destruct (si s QMass b) as [mb|] eqn:Mb.
      * destruct (si s QMolar b) eqn:Nb.
        { exfalso. eapply (mass_molar_disjoint s b); congruence. }
        injection Hb as <-. pose proof (si_pos _ _ _ _ Hs Mb) as Pmb.
        rewrite (convert_spec _ _ _ _ _ _ _ _ _ Hs Ma Mb). do 3 f_equal. field. lra.
      * destruct (si s QMolar b) as [nb|] eqn:Nb; [|discriminate]. injection Hb as <-.
        cbn [bind]. unfold pdiv. destruct (Req_EM_T mw 0); [lra|]. cbn [bind].
        destruct (Req_EM_T nb 0); [lra|]. cbn [bind].
        rewrite apply_exponent_ok by (apply nz_div; assumption). reflexivity.
    + destruct (si s QMolar a) as [na|] eqn:Na; [|discriminate]. injection Ha as <-.
      destruct (si s QMolar b) as [nb|] eqn:Nb.
      * injection Hb as <-. rewrite (convert_spec _ _ _ _ _ _ _ _ _ Hs Na Nb). reflexivity.
      * destruct (si s QMass b) as [mb|] eqn:Mb; [|discriminate]. injection Hb as <-.
        pose proof (si_pos _ _ _ _ Hs Mb) as Pmb.
        cbn [bind]. unfold pdiv. destruct (Req_EM_T mb 0); [lra|]. cbn [bind].
        replace (na * mw / mb) with (na / (mb / mw)) by (field; lra).
        rewrite apply_exponent_ok by (apply nz_div; assumption). reflexivity.
Qed.

Lemma matter_unknown s c v mw a b e :
  positive_setup s -> 0 < mw -> a <> b -> kmoles s mw a = None \/ kmoles s mw b = None ->
  matter s c v mw (Some a) (Some b) e = Err EKeyError.
Proof.
  intros Hs Hmw Hab H. unfold matter. cbn [bind].
  destruct (String.eqb_spec a b) as [->|_]; [contradiction|].
  rewrite !dmem_mass, !dmem_molar by assumption. unfold kmoles in H.
  unfold convert, tget. cbn [default_unit bind units_of table].
  change (mass_tab s) with (tab_of s QMass). change (molar_tab s) with (tab_of s QMolar).
  rewrite !tab_lookup by assumption.
  destruct (String.eqb_spec a b) as [->|_]; [contradiction|].
  destruct (si s QMass a) as [ma|] eqn:Ma.
  - destruct (si s QMolar a) eqn:Na.
    { exfalso. eapply (mass_molar_disjoint s a); congruence. }
    destruct H as [H|H]; [discriminate|].
    destruct (si s QMolar b) as [nb|] eqn:Nb; [discriminate|].
    destruct (si s QMass b) as [mb|] eqn:Mb; [discriminate|].
    cbn [bind]. unfold pdiv. destruct (Req_EM_T mw 0); [lra|]. reflexivity.
  - destruct (si s QMolar a) as [na|] eqn:Na.
    + destruct H as [H|H]; [discriminate|].
      destruct (si s QMolar b) as [nb|] eqn:Nb; [discriminate|].
      destruct (si s QMass b) as [mb|] eqn:Mb; [discriminate|]. reflexivity.
    + destruct (si s QMolar b) as [nb|] eqn:Nb; reflexivity.
Qed.

Lemma matter_ok_inv s c v mw a b e r :
  positive_setup s -> 0 < mw -> matter s c v mw (Some a) (Some b) e = Ok r ->
  (a = b /\ r = v) \/
  (a <> b /\ exists ka kb, kmoles s mw a = Some ka /\ kmoles s mw b = Some kb /\
     r = v * zpow (ka / kb) (effective_exponent e)).
Proof.
  intros Hs Hmw H. destruct (String.string_dec a b) as [->|Hab].
  - left. unfold matter in H. cbn in H. rewrite String.eqb_refl in H. split; congruence.
  - right. split; [assumption|].
    destruct (kmoles s mw a) as [ka|] eqn:Ka.
    + destruct (kmoles s mw b) as [kb|] eqn:Kb.
      * rewrite (matter_spec _ _ _ _ _ _ _ _ _ Hs Hmw Ka Kb) in H. exists ka, kb. repeat split. congruence.
      * rewrite matter_unknown in H by auto. discriminate.
    + rewrite matter_unknown in H by auto. discriminate.
Qed.

Lemma matter_round_trip s c v mw a b e r :
  positive_setup s -> 0 < mw -> matter s c v mw (Some a) (Some b) e = Ok r ->
  matter s c r mw (Some b) (Some a) e = Ok v.
Proof.
  intros Hs Hmw H.
  destruct (matter_ok_inv _ _ _ _ _ _ _ _ Hs Hmw H) as [[-> ->]|(Hab & ka & kb & Ka & Kb & ->)].
  - exact H.
  - rewrite (matter_spec _ _ _ _ _ _ _ _ _ Hs Hmw Kb Ka).
    pose proof (kmoles_pos _ _ _ _ Hs Hmw Ka). pose proof (kmoles_pos _ _ _ _ Hs Hmw Kb).
    rewrite Rmult_assoc, zpow_swap by lra. f_equal. lra.
Qed.

Lemma matter_compose s c v mw a b d e r r' :
  positive_setup s -> 0 < mw -> matter s c v mw (Some a) (Some b) e = Ok r ->
  matter s c r mw (Some b) (Some d) e = Ok r' ->
  matter s c v mw (Some a) (Some d) e = Ok r'.
Proof.
  intros Hs Hmw H1 H2.
  destruct (matter_ok_inv _ _ _ _ _ _ _ _ Hs Hmw H1) as [[-> ->]|(Hab & ka & kb & Ka & Kb & ->)]; [exact H2|].
  destruct (matter_ok_inv _ _ _ _ _ _ _ _ Hs Hmw H2) as [[-> ->]|(Hbd & kb' & kd & Kb' & Kd & ->)]; [exact H1|].
  rewrite Kb in Kb'. injection Kb' as <-.
  rewrite (matter_spec _ _ _ _ _ _ _ _ _ Hs Hmw Ka Kd). f_equal.
  pose proof (kmoles_pos _ _ _ _ Hs Hmw Ka). pose proof (kmoles_pos _ _ _ _ Hs Hmw Kb).
  pose proof (kmoles_pos _ _ _ _ Hs Hmw Kd).
  rewrite Rmult_assoc, <- zpow_mult by (apply nz_div; assumption). do 2 f_equal. field. lra.
Qed.

Lemma matter_families s c v mw a b e :
  positive_setup s -> 0 < mw ->
  ((si s QMass a <> None /\ si s QMass b <> None ->
     matter s c v mw (Some a) (Some b) e = convert (units_of s QMass) c v (Some a) (Some b) e) /\
   (si s QMolar a <> None /\ si s QMolar b <> None ->
     matter s c v mw (Some a) (Some b) e = convert (units_of s QMolar) c v (Some a) (Some b) e)).
Proof.
  intros Hs Hmw. split; intros [Ha Hb].
  - destruct (si s QMass a) as [ma|] eqn:Ma; [|congruence]. destruct (si s QMass b) as [mb|] eqn:Mb; [|congruence].
    assert (Na : si s QMolar a = None).
    { destruct (si s QMolar a) eqn:N; [|reflexivity]. exfalso; eapply (mass_molar_disjoint s a); congruence. }
    assert (Nb : si s QMolar b = None).
    { destruct (si s QMolar b) eqn:N; [|reflexivity]. exfalso; eapply (mass_molar_disjoint s b); congruence. }
    pose proof (si_pos _ _ _ _ Hs Ma). pose proof (si_pos _ _ _ _ Hs Mb).
    rewrite (convert_spec _ _ _ _ _ _ _ _ _ Hs Ma Mb).
    rewrite (matter_spec s c v mw a b e (ma / mw) (mb / mw) Hs Hmw); unfold kmoles; rewrite ?Na, ?Nb, ?Ma, ?Mb; auto.
    do 3 f_equal. field. lra.
  - destruct (si s QMolar a) as [ma|] eqn:Ma; [|congruence]. destruct (si s QMolar b) as [mb|] eqn:Mb; [|congruence].
    rewrite (convert_spec _ _ _ _ _ _ _ _ _ Hs Ma Mb).
    rewrite (matter_spec s c v mw a b e ma mb Hs Hmw); unfold kmoles; rewrite ?Ma, ?Mb; auto.
Qed.

Lemma matter_kmol_kg s c mw :
  positive_setup s -> 0 < mw -> matter s c 1 mw (Some "kmol") (Some "kg") None = Ok mw.
Proof.
  intros Hs Hmw. rewrite (matter_spec s c 1 mw "kmol" "kg" None 1 (1/mw) Hs Hmw) by reflexivity.
  cbn [effective_exponent]. rewrite zpow_1. f_equal. field. lra.
Qed.

Lemma ismass_spec s c u : positive_setup s ->
  (ismass s c (Some u) = Ok true <-> si s QMass u <> None) /\
  (ismass s c (Some u) = Ok false <-> si s QMolar u <> None) /\
  (ismass s c (Some u) = Err PMParamError <-> si s QMass u = None /\ si s QMolar u = None).
Proof.
  intro Hs. unfold ismass. cbn [bind]. rewrite dmem_mass, dmem_molar by assumption.
  pose proof (mass_molar_disjoint s u Hs) as Hd.
  destruct (si s QMass u) eqn:E1; destruct (si s QMolar u) eqn:E2;
  repeat split; try congruence; try (intros [? ?]; congruence); try (exfalso; apply Hd; congruence);
  try (intro; exfalso; apply Hd; congruence).
Qed.

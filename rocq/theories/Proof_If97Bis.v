(* The density search of region 3, and the properties there. *)
From Coq Require Import Reals ZArith List Bool Lia Lra Arith Ranalysis5.
From Verif Require Import Model_If97 Spec_Mp1 Spec_If97 Proof_Jets Proof_Mp1Poly Proof_If97Poly Proof_If97Sat Proof_If97En.
Import ListNotations.
Local Open Scope R_scope.

Section Bisect.
Variables (f : fl -> res jet2) (F : R -> J2) (pp lo hi : R).
Hypothesis Hf : forall n, lo < n < hi -> f (Some n) = Ok (gate2 2 (F n)).
Definition Pr (n : R) : R := n * n * bx (F n).

(* a bracket is left: at its ends the pressure is on either side of the target, or it is an end
   of the range searched *)
Lemma bisect_inv k : forall a b last, lo <= a -> a < b -> b <= hi ->
  exists n a' b', bisect (S k) f (Some pp) (Some a) (Some b) last = Ok (Some n, gate2 2 (F n)) /\ lo < n < hi /\
    a <= a' /\ a' < b' /\ b' <= b /\ b' - a' = (b - a) / 2 ^ S k /\ (n = a' \/ n = b') /\
    (a' = a \/ Pr a' <= pp) /\ (b' = b \/ pp < Pr b').
Proof.
  induction k as [|k IH]; intros a b last Ha Hab Hb.
  - cbn [bisect]. flc. set (c := 5 / 10 * (a + b)). assert (Hc : lo < c < hi) by (unfold c; lra). rewrite (Hf c Hc). cbn [bind].
    rewrite gate2_2. flc. fold (Pr c). unfold flt. destruct (Rlt_dec pp (Pr c)) as [L|L].
    + exists c, a, c. rewrite gate2_2. cbn [pow]. repeat split; try lra; unfold c in *; try lra; auto.
    + exists c, c, b. rewrite gate2_2. cbn [pow]. repeat split; try lra; unfold c in *; try lra; auto.
  - change (bisect (S (S k)) f (Some pp) (Some a) (Some b) last) with
      (let nc := (num (5/10) * (Some a + Some b))%fl in
       do v <- f nc; let '(_, fx, _, _, _, _) := v in let pc := (nc * nc * fx)%fl in
       if flt (Some pp) pc then bisect (S k) f (Some pp) (Some a) nc (Some (nc, v)) else bisect (S k) f (Some pp) nc (Some b) (Some (nc, v))).
    cbv zeta. flc. set (c := 5 / 10 * (a + b)). assert (Hc : lo < c < hi) by (unfold c; lra). rewrite (Hf c Hc). cbn [bind].
    rewrite gate2_2. flc. fold (Pr c). rewrite <- (gate2_2 (F c)). unfold flt. destruct (Rlt_dec pp (Pr c)) as [L|L].
    + destruct (IH a c (Some (Some c, gate2 2 (F c)))) as (n & a' & b' & E & N & A & B & C & W & En & Ea & Eb); try (unfold c; lra).
      exists n, a', b'. split; [exact E|]. split; [exact N|]. split; [exact A|]. split; [exact B|]. split; [unfold c in C; lra|].
      split. { rewrite W. unfold c. cbn [pow]. field. apply pow_nonzero. lra. }
      split; [exact En|]. split; [exact Ea|]. right. destruct Eb as [->|Eb]; [exact L|exact Eb].
    + destruct (IH c b (Some (Some c, gate2 2 (F c)))) as (n & a' & b' & E & N & A & B & C & W & En & Ea & Eb); try (unfold c; lra).
      exists n, a', b'. split; [exact E|]. split; [exact N|]. split; [unfold c in A; lra|]. split; [exact B|]. split; [exact C|].
      split. { rewrite W. unfold c. cbn [pow]. field. apply pow_nonzero. lra. }
      split; [exact En|]. split; [|exact Eb]. right. destruct Ea as [->|Ea]; [lra|exact Ea].
Qed.
(* no sign change: the end of the range *)
Lemma bisect_high k : forall a b last, lo <= a -> a < b -> b <= hi -> (forall n, lo < n < hi -> Pr n <= pp) ->
  bisect (S k) f (Some pp) (Some a) (Some b) last = Ok (Some (b - (b - a) / 2 ^ S k), gate2 2 (F (b - (b - a) / 2 ^ S k))).
Proof.
  induction k as [|k IH]; intros a b last Ha Hab Hb H.
  - cbn [bisect]. flc. set (c := 5 / 10 * (a + b)). assert (Hc : lo < c < hi) by (unfold c; lra). rewrite (Hf c Hc). cbn [bind].
    rewrite gate2_2. flc. fold (Pr c). rewrite <- (gate2_2 (F c)). rewrite flt_no by auto.
    replace (b - (b - a) / 2 ^ 1) with c by (unfold c; lra). reflexivity.
  - change (bisect (S (S k)) f (Some pp) (Some a) (Some b) last) with
      (let nc := (num (5/10) * (Some a + Some b))%fl in
       do v <- f nc; let '(_, fx, _, _, _, _) := v in let pc := (nc * nc * fx)%fl in
       if flt (Some pp) pc then bisect (S k) f (Some pp) (Some a) nc (Some (nc, v)) else bisect (S k) f (Some pp) nc (Some b) (Some (nc, v))).
    cbv zeta. flc. set (c := 5 / 10 * (a + b)). assert (Hc : lo < c < hi) by (unfold c; lra). rewrite (Hf c Hc). cbn [bind].
    rewrite gate2_2. flc. fold (Pr c). rewrite <- (gate2_2 (F c)). rewrite flt_no by auto.
    rewrite IH by (try (unfold c; lra); exact H). do 2 f_equal; [f_equal|f_equal; f_equal]; unfold c; cbn [pow]; field; apply pow_nonzero; lra.
Qed.
End Bisect.

Lemma continuous_root (P : R -> R) a b y : a < b -> (forall x, a <= x <= b -> continuity_pt P x) -> P a <= y < P b ->
  exists r, a <= r <= b /\ P r = y.
Proof.
  intros Hab Hc [H1 H2]. destruct (Req_dec (P a) y) as [E|E]; [exists a; split; [lra|exact E]|].
  destruct (IVT_interv (fun x => P x - y) a b) as (z & Z1 & Z2); try lra.
  - intros x Hx. apply continuity_pt_minus; [apply Hc; exact Hx|apply continuity_pt_const; intros ? ?; reflexivity].
  - exists z. split; [exact Z1|lra].
Qed.

(* the target and the pressure in bar *)
Definition pressure3 (D : ifdata) (T n fx : R) : R := if_dc D * if_R D * T * (n * n * fx) / 100.

Theorem f3_search D T p : usable (if_r3 D) -> 0 < T -> can_raise tn (if_r3 D) (if_Tc D / T) -> if_dc D * if_R D <> 0 ->
  exists n F, jet2_on (rect (fun n => 0 < n) (can_raise tn (if_r3 D))) F /\
    (forall n t, 0 < n -> can_raise tn (if_r3 D) t -> b0 (F n t) = phi3 D n t) /\
    f3 D (Some T) (Some p) = Ok (Some n, Some (if_Tc D / T), gate2 2 (F n (if_Tc D / T))) /\ 0.1 < n < 2.4 /\
    exists a b, 0.1 <= a /\ a < b /\ b <= 2.4 /\ b - a = 2.3 / 2 ^ 14 /\ (n = a \/ n = b) /\
      (0 < if_dc D * if_R D ->
       (a = 0.1 \/ pressure3 D T a (bx (F a (if_Tc D / T))) <= p) /\ (b = 2.4 \/ p < pressure3 D T b (bx (F b (if_Tc D / T))))).
Proof.
  intros HU HT Ht HR. destruct (f3_jet D HU) as (F & J & V & E). set (t := if_Tc D / T) in *.
  assert (Hd : if_dc D * if_R D * T <> 0) by (apply Rmult_integral_contrapositive_currified; [exact HR|lra]).
  set (pp := p * 100 / (if_dc D * if_R D * T)).
  destruct (bisect_inv (fun n => f3_at D n (Some t)) (fun n => F n t) pp 0.1 2.4) with (k := 13%nat) (a := 0.1) (b := 2.4) (last := @None (fl * jet2))
    as (n & a & b & B & N & A1 & A2 & A3 & W & En & Ea & Eb); try lra.
  { intros n Hn. apply E; [lra|exact Ht]. }
  exists n, F. split; [exact J|]. split; [exact V|]. split.
  { unfold f3. cbv zeta. flc. rewrite (fdiv_ok _ _ Hd), (fdiv_ok (if_Tc D) T) by lra. fold pp t.
    replace (Some (1/10)) with (Some 0.1) by (f_equal; lra). replace (Some (24/10)) with (Some 2.4) by (f_equal; lra).
    rewrite B. reflexivity. }
  split; [exact N|]. exists a, b. split; [exact A1|]. split; [exact A2|]. split; [exact A3|]. split; [rewrite W; lra|]. split; [exact En|].
  intro Hpos. assert (HK : 0 < if_dc D * if_R D * T) by (apply Rmult_lt_0_compat; assumption).
  assert (Ep : p = if_dc D * if_R D * T * pp / 100) by (unfold pp; field; repeat split; try lra; intro Q0; apply Hd; rewrite Q0; ring).
  unfold pressure3. split.
  - destruct Ea as [Ea|Ea]; [left; lra|right]. rewrite Ep. unfold Pr in Ea. unfold Rdiv.
    apply Rmult_le_compat_r; [lra|]. apply Rmult_le_compat_l; [lra|exact Ea].
  - destruct Eb as [Eb|Eb]; [left; lra|right]. rewrite Ep. unfold Pr in Eb. unfold Rdiv.
    apply Rmult_lt_compat_r; [lra|]. apply Rmult_lt_compat_l; [lra|exact Eb].
Qed.

Lemma jet_pressure D T n F : 0 < n -> can_raise tn (if_r3 D) (if_Tc D / T) ->
  jet2_on (rect (fun n => 0 < n) (can_raise tn (if_r3 D))) F ->
  (forall n t, 0 < n -> can_raise tn (if_r3 D) t -> b0 (F n t) = phi3 D n t) ->
  forall p, pressure_is D T n p <-> p = pressure3 D T n (bx (F n (if_Tc D / T))).
Proof.
  intros Hn Ht J V p.
  assert (HD : deriv (fun u => phi3 D u (if_Tc D / T)) n (bx (F n (if_Tc D / T)))).
  { destruct (jet2_partials (rect (fun n => 0 < n) (can_raise tn (if_r3 D))) F (phi3 D) n (if_Tc D / T)) as [[A _] _]; auto.
    - apply rect_open; [apply open1_pos|apply open1_raise].
    - split; assumption.
    - intros u w [A B]. auto. }
  split.
  - intros (fx & A & ->). unfold pressure3. rewrite (uniqueness_limite _ _ _ _ A HD). reflexivity.
  - intros ->. exists (bx (F n (if_Tc D / T))). split; [exact HD|reflexivity].
Qed.

Theorem f3_density D T p p0 p1 : usable (if_r3 D) -> 0 < T -> can_raise tn (if_r3 D) (if_Tc D / T) -> 0 < if_dc D * if_R D ->
  pressure_is D T 0.1 p0 -> pressure_is D T 2.4 p1 -> p0 <= p < p1 ->
  exists n t v, f3 D (Some T) (Some p) = Ok (Some n, t, v) /\
    exists r, Rabs (n - r) <= 2.3 / 2 ^ 14 /\ 0.1 <= r <= 2.4 /\ pressure_is D T r p.
Proof.
  intros HU HT Ht HR H0 H1 [L0 L1]. destruct (f3_search D T p HU HT Ht) as (n & F & J & V & E & N & a & b & A1 & A2 & A3 & W & En & Q); [lra|].
  destruct (Q HR) as [Ea Eb]. do 3 eexists. split; [exact E|].
  assert (PI : forall n, 0 < n -> forall p, pressure_is D T n p <-> p = pressure3 D T n (bx (F n (if_Tc D / T)))) by (intros; now apply jet_pressure).
  apply PI in H0; [|lra]. apply PI in H1; [|lra].
  assert (Pa : pressure3 D T a (bx (F a (if_Tc D / T))) <= p) by (destruct Ea as [->|Ea]; [lra|exact Ea]).
  assert (Pb : p < pressure3 D T b (bx (F b (if_Tc D / T)))) by (destruct Eb as [->|Eb]; [lra|exact Eb]).
  destruct (continuous_root (fun x => pressure3 D T x (bx (F x (if_Tc D / T)))) a b p A2) as (r & R1 & R2); [|lra|].
  - intros x Hx. unfold pressure3. apply derivable_continuous_pt.
    destruct (J x (if_Tc D / T)) as (_ & _ & D3 & _); [split; [lra|exact Ht]|].
    eexists. apply (D_ext (fun x => (if_dc D * if_R D * T / 100) * (x * x * bx (F x (if_Tc D / T))))); [intro u; field|].
    apply D_scal. apply D_mult; [apply D_mult; apply derivable_pt_lim_id|exact D3].
  - exists r. split; [|split; [lra|]].
    + rewrite <- W. apply Rabs_le. destruct En; lra.
    + apply PI; [lra|]. symmetry. exact R2.
Qed.
(* when the pressure is not reached in the range, the end of the range is returned *)
Theorem f3_unreached D T p : usable (if_r3 D) -> 0 < T -> can_raise tn (if_r3 D) (if_Tc D / T) -> 0 < if_dc D * if_R D ->
  (forall n q, 0.1 < n < 2.4 -> pressure_is D T n q -> q <= p) ->
  exists t v, f3 D (Some T) (Some p) = Ok (Some (2.4 - 2.3 / 2 ^ 14), t, v).
Proof.
  intros HU HT Ht HR H. destruct (f3_jet D HU) as (F & J & V & E). set (t := if_Tc D / T) in *.
  assert (HK : 0 < if_dc D * if_R D * T) by (apply Rmult_lt_0_compat; assumption).
  set (pp := p * 100 / (if_dc D * if_R D * T)).
  pose proof (bisect_high (fun n => f3_at D n (Some t)) (fun n => F n t) pp 0.1 2.4) as B.
  specialize (B (fun n Hn => E n t ltac:(lra) Ht) 13%nat 0.1 2.4 None ltac:(lra) ltac:(lra) ltac:(lra)).
  assert (HP : forall n, 0.1 < n < 2.4 -> Pr (fun n => F n t) n <= pp).
  { intros n Hn. specialize (H n (pressure3 D T n (bx (F n t))) Hn).
    assert (Q : pressure3 D T n (bx (F n t)) <= p) by (apply H, (jet_pressure D T n F); auto; lra).
    unfold pressure3 in Q. unfold Pr, pp. apply (Rmult_le_reg_l (if_dc D * if_R D * T / 100)); [lra|].
    replace (if_dc D * if_R D * T / 100 * (p * 100 / (if_dc D * if_R D * T))) with p by (field; repeat split; try lra; intro Q0; rewrite Q0 in HR; lra). lra. }
  specialize (B HP). unfold f3. cbv zeta. flc. rewrite (fdiv_ok _ (if_dc D * if_R D * T)), (fdiv_ok (if_Tc D) T) by lra. fold pp t.
  replace (Some (1/10)) with (Some 0.1) by (f_equal; lra). replace (Some (24/10)) with (Some 2.4) by (f_equal; lra).
  rewrite B. cbn [bind]. do 2 eexists. replace (2.4 - (2.4 - 0.1) / 2 ^ 14) with (2.4 - 2.3 / 2 ^ 14) by lra. reflexivity.
Qed.

(* ---- the properties in region 3 ---- *)
Theorem helmholtz_properties D T n F : usable (if_r3 D) -> 0 < T -> 0 < n -> can_raise tn (if_r3 D) (if_Tc D / T) -> if_dc D <> 0 ->
  jet2_on (rect (fun n => 0 < n) (can_raise tn (if_r3 D))) F ->
  (forall n t, 0 < n -> can_raise tn (if_r3 D) t -> b0 (F n t) = phi3 D n t) ->
  exists h s e cv cp, let r := (Some n, Some (if_Tc D / T), gate2 2 (F n (if_Tc D / T))) in
    helmholtz_state (helmholtz3 D) (if_dc D * n) T (pressure3 D T n (bx (F n (if_Tc D / T)))) h s e cv /\
    helmholtz_cp (helmholtz3 D) (if_dc D * n) T cv cp /\
    forall p, h_f D (Some T) p r = Some h /\ s_f D (Some T) p r = Some s /\ d_f D (Some T) p r = Some (if_dc D * n) /\
      e_f D (Some T) p r = Some e /\ cv_f D (Some T) p r = Some cv /\ cp_f D (Some T) p r = cp.
Proof.
  intros HU HT Hn Ht Hdc J V. set (t := if_Tc D / T) in *. set (d := if_dc D * n).
  assert (Ed : d / if_dc D = n) by (unfold d; field; exact Hdc).
  destruct (Epartials (fun n => 0 < n) (can_raise tn (if_r3 D)) F (phi3 D) (if_R D) (if_dc D) (if_Tc D) open1_pos (open1_raise _ _) J V Hdc d T) as [[D1 D2] (D3 & D4 & D5)].
  { unfold EU. rewrite Ed. auto. }
  fold (helmholtz3 D) in D1, D2, D3, D4, D5.
  change (fun x T : R => if_R D * T * phi3 D (x / if_dc D) (if_Tc D / T)) with (helmholtz3 D) in *.
  set (K := F n t) in *. set (R0 := if_R D) in *. set (dc := if_dc D) in *.
  assert (V1 : bx (Ejet F R0 dc (if_Tc D) d T) = R0 * T * bx K / dc).
  { cbn [Ejet j2mul j2y j2args Elin Earg Etau a0 a1 a2 b0 bx by_ bxx bxy byy]. rewrite Ed. fold t K. field. exact Hdc. }
  assert (Et : if_Tc D = t * T) by (unfold t; field; lra).
  assert (V2 : by_ (Ejet F R0 dc (if_Tc D) d T) = R0 * (b0 K - t * by_ K)).
  { cbn [Ejet j2mul j2y j2args Elin Earg Etau a0 a1 a2 b0 bx by_ bxx bxy byy]. rewrite Ed. fold t K. rewrite Et. field. lra. }
  assert (V3 : bxx (Ejet F R0 dc (if_Tc D) d T) = R0 * T * bxx K / dc^2).
  { cbn [Ejet j2mul j2y j2args Elin Earg Etau a0 a1 a2 b0 bx by_ bxx bxy byy]. rewrite Ed. fold t K. field. exact Hdc. }
  assert (V4 : bxy (Ejet F R0 dc (if_Tc D) d T) = R0 * (bx K - t * bxy K) / dc).
  { cbn [Ejet j2mul j2y j2args Elin Earg Etau a0 a1 a2 b0 bx by_ bxx bxy byy]. rewrite Ed. fold t K. rewrite Et. field. repeat split; first [exact Hdc | lra]. }
  assert (V5 : byy (Ejet F R0 dc (if_Tc D) d T) = R0 * t * t * byy K / T).
  { cbn [Ejet j2mul j2y j2args Elin Earg Etau a0 a1 a2 b0 bx by_ bxx bxy byy]. rewrite Ed. fold t K. rewrite Et. field. lra. }
  rewrite V1 in D1. rewrite V2 in D2. rewrite V3 in D3. rewrite V4 in D4. rewrite V5 in D5. clear V1 V2 V3 V4 V5.
  assert (E0 : helmholtz3 D d T = R0 * T * b0 K). { unfold helmholtz3. fold dc. rewrite Ed. fold t. unfold K. rewrite V by assumption. reflexivity. }
  assert (Hd0 : d <> 0) by (unfold d; apply Rmult_integral_contrapositive_currified; [exact Hdc|lra]).
  exists (R0 * T * (n * bx K + t * by_ K)), (R0 * (t * by_ K - b0 K)), (T * R0 * t * by_ K), (- R0 * t * t * byy K),
    (if Req_EM_T (2 * n * bx K + n * n * bxx K) 0 then None else
      Some (R0 * (- (t * t * byy K) + (n * bx K - n * t * bxy K) * (n * bx K - n * t * bxy K) / (2 * n * bx K + n * n * bxx K)))).
  cbv zeta. split; [|split].
  - unfold helmholtz_state, pressure3. fold dc R0. split; [|split; [|split; [|split]]].
    + eapply D_eq; [exact D2|]. ring.
    + eapply D_eq; [exact D1|]. unfold d. field. repeat split; first [exact Hdc | lra].
    + rewrite E0. ring.
    + unfold d. field. repeat split; first [exact Hdc | lra].
    + destruct D5 as (f' & eps & A & B & C). exists f', eps. split; [exact A|]. split; [exact B|]. eapply D_eq; [exact C|].
      field. lra.
  - do 3 eexists. split; [exact D1|]. split; [exact D3|]. split; [exact D4|]. intro HG.
    assert (EG : 2 * d * (R0 * T * bx K / dc) + d^2 * (R0 * T * bxx K / dc^2) = R0 * T * (2 * n * bx K + n * n * bxx K)) by (unfold d; field; exact Hdc).
    rewrite EG in *. destruct (Req_EM_T (2 * n * bx K + n * n * bxx K) 0) as [Z|Z]; [exfalso; apply HG; rewrite Z; ring|].
    assert (HR0 : R0 <> 0). { intro Q0. apply HG. rewrite Q0. ring. }
    f_equal. unfold d. field. repeat split; try assumption; lra.
  - intro p. rewrite gate2_2. fold K. repeat split.
    unfold cp_f. cbn [jx jxx jxy jyy]. flc. unfold fdiv. fold R0. destruct (Req_EM_T (2 * n * bx K + n * n * bxx K) 0); reflexivity.
Qed.

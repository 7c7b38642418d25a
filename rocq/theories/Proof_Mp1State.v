(* state() against the separate methods (C78). *)
From Coq Require Import Reals ZArith List String Bool Lia Lra.
From Verif Require Import Base Model_Num Model_Units Model_Defaults Model_Igas Spec_Units Proof_Units Spec_Igas Proof_Igas
  Proof_IgasUnits Proof_IgasArgs Proof_IgasCalls Proof_IgasArr Proof_IgasAcc.
From Verif Require Import Model_Mp1Calls Spec_Mp1 Spec_Mp1Calls Proof_Mp1Units Proof_Mp1Poly Proof_Mp1Sat Proof_Mp1Args Proof_Mp1Calls
  Proof_Mp1Mix Proof_Mp1Hsd Proof_Mp1Inv Proof_Mp1Cv Proof_Mp1Low.
Import ListNotations.
Local Open Scope R_scope.
Local Open Scope string_scope.
Local Open Scope list_scope.

(* ---- a point that is not saturated has one density ---- *)
Definition one_density (s : point) : Prop := s_sat s = false -> s_d1 s = s_d2 s.
Lemma single_one T d : one_density (single T d). Proof. intro. reflexivity. Qed.
Lemma sat_one s : s_sat s = true -> one_density s. Proof. intros H K. congruence. Qed.
Lemma map_all {A} (f : A -> point) l : (forall a, one_density (f a)) -> Forall one_density (map f l).
Proof. intro H. induction l; cbn; constructor; auto. Qed.
Lemma map2_all {A B} (f : A -> B -> point) : (forall a b, one_density (f a b)) -> forall l m, Forall one_density (map2 f l m).
Proof. intros H. unfold map2. intros l m. generalize (combine l m). induction l0 as [|[a b] r IH]; cbn; constructor; auto. Qed.

Ltac one := first [apply single_one | apply sat_one; reflexivity | intro; reflexivity].
Ltac inv H := match type of H with bind ?x _ = Ok _ => let E := fresh "E" in destruct x eqn:E; [cbn [bind] in H|discriminate] end.

Section Args.
  Variables (D : mpdata) (E : env) (fuel : nat).
  Lemma args_one a l : from_args D E fuel a = Ok l -> Forall one_density l.
  Proof.
    unfold from_args. destruct (a_inv a) as [[fn h]|].
    - destruct (a_p a) as [p|].
      { intro H. inv H. unfold from_hp in H. inv H. inv H. inv H. injection H as <-.
        apply map2_all. intros [T pl] d. destruct (hp_sat pl); one. }
      destruct (a_d a) as [d|].
      { intro H. inv H. unfold from_hd in H. inv H. injection H as <-.
        apply map2_all. intros [h' d'] T. destruct (_ && _)%bool; one. }
      destruct (a_x a); [discriminate|]. destruct (a_T a) as [T|]; [|discriminate].
      intro H. inv H. unfold from_sT in H. inv H. inv H. injection H as <-.
      apply map2_all. intros [[s T'] pl] d'. destruct (st_sat pl); one.
    - destruct (a_T a) as [T|].
      + destruct (a_p a) as [p|].
        { intro H. inv H. unfold from_Tpx in H. inv H. injection H as <-.
          apply map2_all. intros [[T' p'] x] d'. cbn beta iota. destruct (flt x (num 0)); [one|]. match goal with |- one_density (if ?b then _ else _) => destruct b end; one. }
        destruct (a_d a) as [d|].
        { intro H. inv H. injection H as <-. apply map_all. intros [T' d']. unfold from_Td. destruct (_ && _)%bool; one. }
        destruct (a_x a) as [x|]; [|discriminate]. intro H. inv H. unfold from_Tx in H.
        destruct (existsb _ _); [discriminate|]. destruct (existsb _ _); [discriminate|]. injection H as <-.
        apply map_all. intro. one.
      + destruct (a_p a) as [p|]; [|discriminate]. destruct (a_d a) as [d|].
        { intro H. inv H. unfold from_pd in H. inv H. injection H as <-. apply map2_all. intros [d' p'] [T' pl].
          destruct (tp_sat pl); one. }
        destruct (a_x a) as [x|]; [|discriminate]. intro H. unfold from_px in H.
        destruct (existsb _ _); [discriminate|]. destruct (existsb _ _); [discriminate|]. inv H. inv H. injection H as <-.
        apply map2_all. intros [p' x'] T'. one.
  Qed.
  Lemma argparse_one varg kw l : mp_argparse D E fuel varg kw = Ok l -> Forall one_density l.
  Proof. unfold mp_argparse. intro H. inv H. inv H. inv H. inv H. exact (args_one _ _ H). Qed.
End Args.

(* ---- one evaluation ---- *)
Lemma st_calc_eq D all T d : st_calc D all T d =
  (value0 (mp_p D all T d 0%nat), value0 (mp_e D all T d 0%nat), value0 (mp_h D all T d 0%nat),
   value0 (mp_s D all T d 0%nat), mp_cp D all T d, mp_cv D all T d).
Proof.
  unfold st_calc, mp_p, mp_e, mp_h, mp_s, mp_cp, mp_cv, value0. change (0 + 1)%nat with 1%nat.
  pose proof (ao_at_low D T d) as L0. pose proof (ar_at_low D all T d) as L1.
  destruct (red_ao D T d) as [t0 d0], (red_ar D T d) as [t1 d1].
  destruct (ao_at D T d 1) as [[[[[? ?] ?] ?] ?] ?], (ao_at D T d 2) as [[[[[? ?] ?] ?] ?] ?].
  destruct (ar_at D all T d 1) as [[[[[? ?] ?] ?] ?] ?], (ar_at D all T d 2) as [[[[[? ?] ?] ?] ?] ?].
  apply low_eq in L0 as (-> & -> & ->). apply low_eq in L1 as (-> & -> & ->).
  do 5 f_equal. apply fmul_comm.
Qed.
(* f = e - T s and g = h - T s, when these are numbers and both groups have the same Tscale *)
Ltac numbers := repeat match goal with
  | H : Some _ = Some _ |- _ => injection H as H
  | H : None = Some _ |- _ => discriminate H
  | H : context [match ?x with Some _ => _ | None => _ end] |- _ => destruct x eqn:?
  end.
Lemma free_energy D all T d e s : ao_Tscale (mp_AO D) = ar_Tscale (mp_AR D) ->
  value0 (mp_e D all T d 0%nat) = Some e -> value0 (mp_s D all T d 0%nat) = Some s ->
  exists t, T = Some t /\ value0 (mp_f D all T d 0%nat) = Some (e - t * s) /\
    forall h, value0 (mp_h D all T d 0%nat) = Some h -> value0 (mp_g D all T d 0%nat) = Some (h - t * s).
Proof.
  intro ET. unfold mp_e, mp_s, mp_f, mp_h, mp_g, value0. change (0 + 1)%nat with 1%nat.
  destruct (red_ao D T d) as [t0 d0] eqn:R0. destruct (red_ar D T d) as [t1 d1] eqn:R1.
  destruct (ao_at D T d 1) as [[[[[a at_] ad] att] atd] add], (ar_at D all T d 1) as [[[[[b bt] bd] btt] btd] bdd].
  unfold red_ao in R0. unfold red_ar in R1. rewrite ET in R0. injection R0 as R0 _. injection R1 as R1 _. subst t0.
  destruct T as [t|]; [|cbn in R1; subst t1; intros He Hs; exfalso; destruct at_, bt, a, b; cbn in *; discriminate].
  cbn in R1. destruct (Req_EM_T t 0) as [->|Ht]; [subst t1; intros He Hs; exfalso; destruct at_, bt, a, b; cbn in *; discriminate|].
  subst t1. intros He Hs. exists t. split; [reflexivity|].
  destruct at_ as [a1|]; [|discriminate]. destruct bt as [b1|]; [|discriminate].
  destruct a as [a0|]; [|discriminate]. destruct b as [b0|]; [|discriminate].
  cbn in He, Hs |- *. destruct (Req_EM_T t 0) as [|_]; [contradiction|]. cbn in Hs |- *.
  injection He as <-. injection Hs as <-. split; [f_equal; field; exact Ht|].
  intros h Hh. destruct d1 as [d1|]; [|discriminate]. destruct bd as [bd|]; [|discriminate].
  cbn in Hh |- *. injection Hh as <-. f_equal. field. exact Ht.
Qed.

(* ---- the lists of all the points ---- *)
Definition uniform (D : mpdata) (l : list point) : Prop :=
  ar_coef2 (mp_AR D) = None \/ Forall (fun s => s_sat s = true) l \/ Forall (fun s => s_sat s = false) l.
Definition second_all (l : list point) : list (fl * fl) := map (fun s => (s_T s, s_d2 s)) l.
Definition first_sat (l : list point) : list (fl * fl) := map (fun s => (s_T s, s_d1 s)) (filter s_sat l).

Lemma filter_all {A} (f : A -> bool) l : Forall (fun s => f s = true) l -> filter f l = l.
Proof. induction 1 as [|a l H F IH]; cbn; [reflexivity|]. now rewrite H, IH. Qed.
Lemma lists_same D l s : Forall one_density l -> uniform D l -> In s l ->
  forall T d n,
    (s_sat s = false -> ar_at D (second_all l) T d n = ar_at D (liquid_all l) T d n) /\
    (s_sat s = true -> ar_at D (second_all l) T d n = ar_at D (vapor_sat l) T d n /\
                       ar_at D (first_sat l) T d n = ar_at D (liquid_all l) T d n).
Proof.
  intros O [C|[U|U]] Hs T d n.
  - split; [intros _|intros _; split]; apply ar_indep, C.
  - rewrite Forall_forall in U. split; [intro K; specialize (U s Hs); congruence|].
    intros _. unfold second_all, first_sat, vapor_sat, liquid_all. rewrite filter_all by (rewrite Forall_forall; exact U). auto.
  - assert (L : second_all l = liquid_all l).
    { unfold second_all, liquid_all. apply map_ext_in. intros q Hq. rewrite Forall_forall in O, U.
      now rewrite (O q Hq (U q Hq)). }
    rewrite L. split; [reflexivity|]. rewrite Forall_forall in U. intro K. specialize (U s Hs). congruence.
Qed.
Lemma routine_ext D F all all' T d n : In F (routines D) -> (forall n, ar_at D all T d n = ar_at D all' T d n) ->
  F all T d n = F all' T d n.
Proof.
  intros HF A. specialize (A (n + 1)%nat).
  destruct HF as [<-|[<-|[<-|[<-|[<-|[]]]]]]; unfold mp_e, mp_h, mp_s, mp_f, mp_g; rewrite A; reflexivity.
Qed.
Lemma heat_ext D all all' T d : (forall n, ar_at D all T d n = ar_at D all' T d n) ->
  mp_cp D all T d = mp_cp D all' T d /\ mp_cv D all T d = mp_cv D all' T d.
Proof. intro A. specialize (A 2%nat). unfold mp_cp, mp_cv. rewrite A. auto. Qed.

Definition cp_at (D : mpdata) (l : list point) (s : point) : fl := if s_sat s then None else mp_cp D (liquid_all l) (s_T s) (s_d1 s).
Definition cv_at (D : mpdata) (l : list point) (s : point) : fl := if s_sat s then None else mp_cv D (liquid_all l) (s_T s) (s_d1 s).
Definition p_of (D : mpdata) (l : list point) (s : point) : fl := value0 (mp_p D (second_all l) (s_T s) (s_d2 s) 0%nat).

Lemma mix_swap (a b x : fl) : (a * x + b * (num 1 - x) = b * (num 1 - x) + a * x)%fl.
Proof. destruct a, b, x; cbn; try reflexivity. f_equal. ring. Qed.

Lemma st_point_eq D l s : Forall one_density l -> uniform D l -> In s l ->
  st_point D (second_all l) (first_sat l) s =
  (p_of D l s, mixed_at (mp_e D) l s, mixed_at (mp_h D) l s, mixed_at (mp_s D) l s, cp_at D l s, cv_at D l s).
Proof.
  intros O U Hs. unfold st_point, p_of, mixed_at, cp_at, cv_at. rewrite !st_calc_eq.
  destruct (s_sat s) eqn:S.
  - assert (A : forall F, In F (routines D) ->
      F (second_all l) (s_T s) (s_d2 s) 0%nat = F (vapor_sat l) (s_T s) (s_d2 s) 0%nat /\
      F (first_sat l) (s_T s) (s_d1 s) 0%nat = F (liquid_all l) (s_T s) (s_d1 s) 0%nat).
    { intros F HF. split; (apply (routine_ext D); [exact HF|]); intro n; apply (lists_same D l s O U Hs); exact S. }
    rewrite !mix_swap. 
    rewrite (proj1 (A (mp_e D) ltac:(cbn; tauto))), (proj2 (A (mp_e D) ltac:(cbn; tauto))).
    rewrite (proj1 (A (mp_h D) ltac:(cbn; tauto))), (proj2 (A (mp_h D) ltac:(cbn; tauto))).
    rewrite (proj1 (A (mp_s D) ltac:(cbn; tauto))), (proj2 (A (mp_s D) ltac:(cbn; tauto))). reflexivity.
  - rewrite Forall_forall in O. pose proof (O s Hs S) as Ed. rewrite <- Forall_forall in O. rewrite <- Ed.
    assert (A : forall n, ar_at D (second_all l) (s_T s) (s_d1 s) n = ar_at D (liquid_all l) (s_T s) (s_d1 s) n).
    { intro n. apply (lists_same D l s O U Hs); exact S. }
    rewrite (routine_ext D (mp_e D) _ _ _ _ 0%nat ltac:(cbn; tauto) A).
    rewrite (routine_ext D (mp_h D) _ _ _ _ 0%nat ltac:(cbn; tauto) A).
    rewrite (routine_ext D (mp_s D) _ _ _ _ 0%nat ltac:(cbn; tauto) A).
    rewrite (proj1 (heat_ext D _ _ _ _ A)), (proj2 (heat_ext D _ _ _ _ A)). reflexivity.
Qed.
Lemma st_point_p D l s v : fst (fst (fst (fst (fst (st_point D (second_all l) v s))))) = p_of D l s.
Proof. unfold st_point, p_of. rewrite !st_calc_eq. destruct (s_sat s); reflexivity. Qed.

(* ---- the calls ---- *)
Section State.
  Variables (D : mpdata) (E : env) (fuel : nat) (z : sizes).
  Hypothesis Z : mp_sizes D E z.
  Local Notation kg := (kgs D (z_kM z)).
  Local Notation kt := (z_kT z / (9/5)).
  Let kEp : 0 < z_kE z := kE_pos _ _ _ _ _ _ _ _ Z.
  Let kTp : 0 < z_kT z := kT_pos _ _ _ _ _ _ _ _ Z.
  Let kVp : 0 < z_kV z := kV_pos _ _ _ _ _ _ _ _ Z.
  Let kgp : 0 < kg := kgs_pos _ _ _ _ _ _ _ _ Z.
  Local Notation c1 := (kg / z_kE z).
  Local Notation c2 := (kg / z_kE z * kt).

  Lemma scaled_eq k k' v : k = k' -> scaled k v = map (fmul (Some k')) v.
  Proof. intros ->. unfold scaled. apply map_ext. intro. apply fmul_comm. Qed.

  (* the state of the points l; r gives p, e, h, s, cp, cv of one of them *)
  Definition state_of (l : list point) (r : point -> fl * fl * fl * fl * fl * fl) : mp_state :=
    let e s := let '(_, e, _, _, _, _) := r s in e in
    let h s := let '(_, _, h, _, _, _) := r s in h in
    let en s := let '(_, _, _, en, _, _) := r s in en in
    let f s := (e s - s_T s * en s)%fl in
    let g s := (f s - e s + h s)%fl in
    let cp := map (fmul (Some c2)) (map (fun s => let '(_, _, _, _, cp, _) := r s in cp) l) in
    let cv := map (fmul (Some c2)) (map (fun s => let '(_, _, _, _, _, cv) := r s in cv) l) in
    let d := map (fmul (Some (z_kV z / kg))) (map mix_density l) in
    {| o_T := map (lift1 (from_kelvin (z_T z))) (map s_T l);
       o_p := map (fmul (Some (/ z_kP z))) (map (fun s => let '(p, _, _, _, _, _) := r s in p) l);
       o_d := d; o_v := map reciprocal d; o_x := map s_x l;
       o_e := map (fmul (Some c1)) (map e l); o_h := map (fmul (Some c1)) (map h l);
       o_s := map (fmul (Some c2)) (map en l); o_f := map (fmul (Some c1)) (map f l);
       o_g := map (fmul (Some c1)) (map g l); o_cp := cp; o_cv := cv;
       o_gam := map2 (fun s q => if s_sat s then None else q) l (map2 fdiv cp cv) |}.
  Lemma state_val varg kw : mm_state D E fuel varg kw =
    do l <- mp_argparse D E fuel varg kw; Ok (state_of l (st_point D (second_all l) (first_sat l))).
  Proof.
    unfold mm_state, state_dict. destruct (mp_argparse D E fuel varg kw) as [l|]; [|reflexivity]. cbn [bind].
    rewrite (energy_c _ _ _ _ _ _ _ _ Z). cbn [bind]. rewrite (matter_c _ _ _ _ _ _ _ _ Z). cbn [bind].
    rewrite (temp_c _ _ _ _ _ _ _ _ Z). cbn [bind].
    unfold aconvert. rewrite (of_si _ _ _ _ _ _ _ _ Z QPressure 1 "Pa" 1 None I) by (cbn; f_equal; lra).
    cbn [bind effective_exponent ksize]. rewrite zpow_1.
    rewrite (atscale_from _ _ _ _ _ _ _ _ Z). cbn [bind].
    rewrite (vol_c _ _ _ _ _ _ _ _ Z). cbn [bind]. rewrite (matter_c_pos _ _ _ _ _ _ _ _ Z). cbn [bind].
    assert (K1 : / z_kE z * kg = c1) by (unfold Rdiv; ring).
    assert (K2 : / z_kE z * kg * kt = c2) by (unfold Rdiv; ring).
    assert (K3 : 1 * z_kV z / kg = z_kV z / kg) by (unfold Rdiv; ring).
    rewrite !(scaled_eq _ _ _ K1), !(scaled_eq _ _ _ K2), !(scaled_eq _ _ _ K3).
    unfold state_of. fold (second_all l) (first_sat l).
    rewrite !map_map. cbn [snd].
    f_equal. f_equal.
    - apply map_ext. intro s. f_equal. f_equal. pose proof (Proof_IgasUnits.kP_pos _ _ _ _ _ _ _ _ Z). field. lra.
    - rewrite combine_maps, map2_maps, map_map. reflexivity.
    - rewrite combine_maps, map2_maps, combine_maps, map2_maps, map_map. reflexivity.
  Qed.

  Lemma state_p l v : o_p (state_of l (st_point D (second_all l) v)) = map (fmul (Some (/ z_kP z))) (map (p_of D l) l).
  Proof.
    cbn [state_of o_p]. f_equal. apply map_ext. intro s. rewrite <- (st_point_p D l s v).
    destruct (st_point D (second_all l) v s) as [[[[[? ?] ?] ?] ?] ?]. reflexivity.
  Qed.
  (* temperature, pressure, density, volume and quality: always those of the methods *)
  Theorem state_coordinates varg kw st : mm_state D E fuel varg kw = Ok st ->
    mm_T D E fuel varg kw = Ok (o_T st, o_x st) /\ mm_p D E fuel varg kw = Ok (o_p st, o_x st) /\
    mm_d D E fuel varg kw = Ok (o_d st, o_x st) /\ mm_v D E fuel varg kw = Ok (o_v st, o_x st) /\
    mm_x D E fuel varg kw = Ok (o_x st).
  Proof.
    rewrite state_val, (mm_p_val D E fuel z Z). unfold mm_v. rewrite (mm_d_val D E fuel _ _ _ _ _ _ Z).
    unfold mm_T, mm_x, method. destruct (mp_argparse D E fuel varg kw) as [l|] eqn:A; [|discriminate].
    cbn [bind]. intro H. injection H as <-. rewrite (atscale_from _ _ _ _ _ _ _ _ Z). cbn [bind fst snd].
    rewrite state_p. cbn. auto.
  Qed.
  Theorem state_failure varg kw e : mm_state D E fuel varg kw = Err e <-> mm_T D E fuel varg kw = Err e.
  Proof.
    rewrite state_val. unfold mm_T, method. destruct (mp_argparse D E fuel varg kw) as [l|]; cbn [bind]; [|split; intro H; injection H as <-; reflexivity].
    rewrite (atscale_from _ _ _ _ _ _ _ _ Z). cbn [bind]. split; discriminate.
  Qed.

  Lemma gam_scale a b k : k <> 0 -> fdiv (fmul (Some k) a) (fmul (Some k) b) = fdiv a b.
  Proof.
    intro Hk. destruct a as [a|], b as [b|]; cbn; try reflexivity.
    destruct (Req_EM_T b 0) as [->|Hb].
    - destruct (Req_EM_T (k * 0) 0); [reflexivity|lra].
    - destruct (Req_EM_T (k * b) 0) as [Q|]; [apply Rmult_integral in Q; tauto|]. f_equal. field. auto.
  Qed.
  Lemma c2_nz : c2 <> 0.
  Proof. apply Rgt_not_eq, Rmult_lt_0_compat; apply Rdiv_lt_0_compat; lra. Qed.

  Definition values (l : list point) (s : point) := (p_of D l s, mixed_at (mp_e D) l s, mixed_at (mp_h D) l s, mixed_at (mp_s D) l s, cp_at D l s, cv_at D l s).
  Lemma state_of_ext l r r' : (forall s, In s l -> r s = r' s) -> state_of l r = state_of l r'.
  Proof.
    intro H. unfold state_of.
    assert (M : forall (g : point -> fl * fl * fl * fl * fl * fl -> fl), map (fun s => g s (r s)) l = map (fun s => g s (r' s)) l).
    { intro g. apply map_ext_in. intros s Hs. now rewrite (H s Hs). }
    rewrite (M (fun s q => let '(p, _, _, _, _, _) := q in p)), (M (fun s q => let '(_, e, _, _, _, _) := q in e)),
      (M (fun s q => let '(_, _, h, _, _, _) := q in h)), (M (fun s q => let '(_, _, _, en, _, _) := q in en)),
      (M (fun s q => let '(_, _, _, _, cp, _) := q in cp)), (M (fun s q => let '(_, _, _, _, _, cv) := q in cv)).
    rewrite (M (fun s q => ((let '(_, e, _, _, _, _) := q in e) - s_T s * (let '(_, _, _, en, _, _) := q in en))%fl)).
    rewrite (M (fun s q => ((let '(_, e, _, _, _, _) := q in e) - s_T s * (let '(_, _, _, en, _, _) := q in en) - (let '(_, e, _, _, _, _) := q in e) + (let '(_, _, h, _, _, _) := q in h))%fl)).
    reflexivity.
  Qed.
  Lemma state_uniform varg kw l : mp_argparse D E fuel varg kw = Ok l -> uniform D l ->
    mm_state D E fuel varg kw = Ok (state_of l (values l)).
  Proof.
    intros A U. rewrite state_val, A. cbn [bind]. f_equal. apply state_of_ext. intros s Hs.
    apply st_point_eq; [exact (argparse_one _ _ _ _ _ _ A)|exact U|exact Hs].
  Qed.

  (* an array of one element or data without critical point terms *)
  Lemma uniform_of varg kw st : mm_state D E fuel varg kw = Ok st ->
    ar_coef2 (mp_AR D) = None \/ List.length (o_x st) = 1%nat ->
    exists l, mp_argparse D E fuel varg kw = Ok l /\ uniform D l /\ st = state_of l (values l).
  Proof.
    intros H HC. pose proof H as H'. rewrite state_val in H'.
    destruct (mp_argparse D E fuel varg kw) as [l|] eqn:A; [|discriminate]. cbn [bind] in H'. injection H' as Hst.
    assert (U : uniform D l).
    { destruct HC as [C|L]; [left; exact C|]. right. subst st. cbn [state_of o_x] in L. rewrite map_length in L.
      destruct l as [|s [|? ?]]; try discriminate. destruct (s_sat s) eqn:S; [left|right]; constructor; auto. }
    exists l. split; [reflexivity|]. split; [exact U|]. pose proof (state_uniform varg kw l A U) as K.
    rewrite H in K. now injection K.
  Qed.

  Theorem state_properties varg kw st : mm_state D E fuel varg kw = Ok st ->
    ar_coef2 (mp_AR D) = None \/ List.length (o_x st) = 1%nat ->
    mm_e D E fuel varg kw = Ok (o_e st, o_x st) /\ mm_h D E fuel varg kw = Ok (o_h st, o_x st) /\
    mm_s D E fuel varg kw = Ok (o_s st, o_x st) /\ mm_cp D E fuel varg kw = Ok (o_cp st, o_x st) /\
    mm_gam D E fuel varg kw = Ok (o_gam st, o_x st).
  Proof.
    intros H HC. destruct (uniform_of _ _ _ H HC) as (l & A & U & ->).
    rewrite (mm_e_val D E fuel z Z), (mm_h_val D E fuel z Z), (mm_s_val D E fuel z Z). unfold mm_cp, mm_gam, method.
    rewrite A. cbn [bind]. rewrite (out_heat_val _ _ _ _ _ _ _ _ Z). cbn [bind state_of o_e o_h o_s o_cp o_gam o_x].
    repeat split; try reflexivity.
    f_equal. f_equal. rewrite !map_map, map2_maps. rewrite map2_self. apply map_ext. intro s.
    unfold values, cp_at, cv_at. destruct (s_sat s); [reflexivity|]. rewrite gam_scale; [reflexivity|exact c2_nz].
  Qed.

  (* cv: wherever the state has a number it is the one cv() returns *)
  Theorem state_cv varg kw st i y c x : mm_state D E fuel varg kw = Ok st ->
    ar_coef2 (mp_AR D) = None \/ List.length (o_x st) = 1%nat ->
    nth_error (o_cv st) i = Some (Some y) -> mm_cv D E fuel varg kw = Ok (c, x) ->
    x = o_x st /\ nth_error c i = Some (Some y).
  Proof.
    intros H HC Hi. destruct (uniform_of _ _ _ H HC) as (l & A & U & ->).
    rewrite (mm_cv_val D E fuel z Z), A. cbn [bind]. unfold cv_values. destruct (_ && _)%bool; [discriminate|]. cbn [bind].
    intro Q. injection Q as <- <-. split; [reflexivity|].
    cbn [state_of o_cv] in Hi. rewrite map_map in Hi. rewrite map_map. revert Hi.
    rewrite !nth_error_map. destruct (nth_error l i) as [s|] eqn:Es; [|discriminate]. cbn [option_map values].
    unfold cv_at. destruct (s_sat s); [cbn; discriminate|]. auto.
  Qed.
  Lemma c1_pos : 0 < c1. Proof. apply Rdiv_lt_0_compat; assumption. Qed.

  Lemma mm_f_val varg kw : mm_f D E fuel varg kw =
    do l <- mp_argparse D E fuel varg kw; Ok (map (fmul (Some c1)) (map (mixed_at (mp_f D) l) l), map s_x l).
  Proof.
    unfold mm_f, method. destruct (mp_argparse _ _ _ _ _); [|reflexivity]. cbn [bind].
    rewrite (out_energy_val _ _ _ _ _ _ _ _ Z). reflexivity.
  Qed.
  Lemma mm_g_val varg kw : mm_g D E fuel varg kw =
    do l <- mp_argparse D E fuel varg kw; Ok (map (fmul (Some c1)) (map (mixed_at (mp_g D) l) l), map s_x l).
  Proof.
    unfold mm_g, method. destruct (mp_argparse _ _ _ _ _); [|reflexivity]. cbn [bind].
    rewrite (out_energy_val _ _ _ _ _ _ _ _ Z). reflexivity.
  Qed.

  Lemma free_mixed l s v : ao_Tscale (mp_AO D) = ar_Tscale (mp_AR D) ->
    (mixed_at (mp_e D) l s - s_T s * mixed_at (mp_s D) l s)%fl = Some v ->
    mixed_at (mp_f D) l s = Some v /\
    forall w, (mixed_at (mp_e D) l s - s_T s * mixed_at (mp_s D) l s - mixed_at (mp_e D) l s + mixed_at (mp_h D) l s)%fl = Some w ->
      mixed_at (mp_g D) l s = Some w.
  Proof.
    intro ET. unfold mixed_at. pose proof (free_energy D (liquid_all l) (s_T s) (s_d1 s)) as F1.
    pose proof (free_energy D (vapor_sat l) (s_T s) (s_d2 s)) as F2.
    destruct (value0 (mp_e D (liquid_all l) _ _ _)) as [e1|]; [|destruct (s_sat s), (s_T s); cbn; discriminate].
    destruct (value0 (mp_s D (liquid_all l) _ _ _)) as [s1|]; [|destruct (s_sat s), (s_T s), (value0 (mp_e D (vapor_sat l) _ _ _)), (s_x s); cbn; discriminate].
    destruct (F1 _ _ ET eq_refl eq_refl) as (t & HT & Ff & Fg). clear F1. rewrite HT in Ff, Fg |- *. rewrite Ff.
    destruct (s_sat s).
    - rewrite HT in F2. destruct (s_x s) as [x|]; [|cbn; discriminate].
      destruct (value0 (mp_e D (vapor_sat l) _ _ _)) as [e2|]; [|cbn; discriminate].
      destruct (value0 (mp_s D (vapor_sat l) _ _ _)) as [s2|]; [|cbn; discriminate].
      destruct (F2 _ _ ET eq_refl eq_refl) as (t' & HT' & Ff' & Fg'). injection HT' as <-. rewrite Ff'.
      destruct (value0 (mp_h D (liquid_all l) _ _ _)) as [h1|].
      + destruct (value0 (mp_h D (vapor_sat l) _ _ _)) as [h2|].
        * rewrite (Fg _ eq_refl), (Fg' _ eq_refl). cbn. intro H. injection H as <-. split; [f_equal; ring|].
          intros w Hw. injection Hw as <-. f_equal. ring.
        * cbn. intro H. injection H as <-. split; [f_equal; ring|]. intros w Hw. discriminate.
      + cbn. intro H. injection H as <-. split; [f_equal; ring|]. intros w Hw. discriminate.
    - destruct (value0 (mp_h D (liquid_all l) _ _ _)) as [h1|].
      + rewrite (Fg _ eq_refl). cbn. intro H. injection H as <-. split; [reflexivity|].
        intros w Hw. injection Hw as <-. f_equal. ring.
      + cbn. intro H. injection H as <-. split; [reflexivity|]. intros w Hw. discriminate.
  Qed.

  Theorem state_free varg kw st : mm_state D E fuel varg kw = Ok st ->
    ar_coef2 (mp_AR D) = None \/ List.length (o_x st) = 1%nat ->
    ao_Tscale (mp_AO D) = ar_Tscale (mp_AR D) ->
    exists f g, mm_f D E fuel varg kw = Ok (f, o_x st) /\ mm_g D E fuel varg kw = Ok (g, o_x st) /\
      (forall i y, nth_error (o_f st) i = Some (Some y) -> nth_error f i = Some (Some y)) /\
      (forall i y, nth_error (o_g st) i = Some (Some y) -> nth_error g i = Some (Some y)).
  Proof.
    intros H HC ET. destruct (uniform_of _ _ _ H HC) as (l & A & U & ->).
    rewrite mm_f_val, mm_g_val, A. cbn [bind].
    exists (map (fmul (Some c1)) (map (mixed_at (mp_f D) l) l)), (map (fmul (Some c1)) (map (mixed_at (mp_g D) l) l)).
    split; [reflexivity|]. split; [reflexivity|]. cbn [state_of o_f o_g values].
    split; intros i y; rewrite !nth_error_map; destruct (nth_error l i) as [s|]; cbn [option_map]; try discriminate.
    - destruct (mixed_at (mp_e D) l s - s_T s * mixed_at (mp_s D) l s)%fl as [v|] eqn:Ev; [|discriminate].
      rewrite (proj1 (free_mixed l s v ET Ev)). auto.
    - destruct (mixed_at (mp_e D) l s - s_T s * mixed_at (mp_s D) l s)%fl as [v|] eqn:Ev; [|discriminate].
      destruct (free_mixed l s v ET Ev) as [_ G]. rewrite Ev in G.
      destruct (Some v - mixed_at (mp_e D) l s + mixed_at (mp_h D) l s)%fl as [w|] eqn:Ew; [|discriminate].
      rewrite (G w eq_refl). auto.
  Qed.

  (* f and g are numbers wherever T, e, s (and h) are *)
  Theorem state_free_defined varg kw st i T e s : mm_state D E fuel varg kw = Ok st ->
    nth_error (o_T st) i = Some (Some T) -> nth_error (o_e st) i = Some (Some e) -> nth_error (o_s st) i = Some (Some s) ->
    (exists f, nth_error (o_f st) i = Some (Some f)) /\
    forall h, nth_error (o_h st) i = Some (Some h) -> exists g, nth_error (o_g st) i = Some (Some g).
  Proof.
    rewrite state_val. destruct (mp_argparse D E fuel varg kw) as [l|]; [|discriminate]. cbn [bind]. intro H. injection H as <-.
    cbn [state_of o_T o_e o_s o_f o_h o_g]. rewrite !nth_error_map. destruct (nth_error l i) as [q|]; [|discriminate].
    cbn [option_map]. destruct (st_point D (second_all l) (first_sat l) q) as [[[[[p0 e0] h0] s0] cp0] cv0].
    destruct (s_T q) as [t|]; [|discriminate]. destruct e0; [|discriminate]. destruct s0; [|discriminate]. intros _ _ _.
    split; [eexists; reflexivity|]. intros h. destruct h0; [|discriminate]. intros _. eexists. reflexivity.
  Qed.
End State.

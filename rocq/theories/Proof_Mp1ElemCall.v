(* C90: array calls of the multi-phase class element by element. *)
From Coq Require Import Reals ZArith List String Bool Lia Lra.
From Verif Require Import Base Model_Num Model_Units Model_Defaults Model_Igas Proof_Igas Proof_IgasState Proof_IgasUnits Proof_IgasArgs Proof_IgasCalls Proof_IgtArgs Model_Hybrid Model_Mp1Calls Spec_Mp1Calls Proof_Mp1Units Proof_Mp1Neg Proof_Mp1Elem Spec_Igas Spec_Mp1Elem.
Import ListNotations.
Local Open Scope R_scope.
Local Open Scope string_scope.
Local Open Scope list_scope.

Section Final.
  Variable D : mpdata.
  Variable E : env.
  Variable fuel : nat.
  Variable z : sizes.
  Hypothesis N2 : ar_coef2 (mp_AR D) = None.
  Hypothesis TT : 0 < mp_Tt D < mp_Tc D.
  Hypothesis U : mp_sizes D E z.
  Hypothesis OB : e_oob E = None.
  Variables (i : nat) (varg varg1 : list arr) (kw kw1 : kwargs).
  Hypothesis ND : NoDup (map fst kw).
  Hypothesis PR : forall v r, In ("p", v) (supplied varg kw) -> elem v i = Some (Some r) -> fst (mp_plim D) <= r * z_kP z <= snd (mp_plim D).

  Lemma dget_In {A} k (d : list (string * A)) v : dget k d = Some v -> In (k, v) d.
  Proof.
    induction d as [|[k' v'] d IH]; [discriminate|]. cbn [dget]. destruct (String.eqb_spec k k') as [->|]; intro H; [injection H as ->; now left|right; auto].
  Qed.
  Lemma p_ok k k2 a : positional varg kw = Ok k -> defaults E k = Ok k2 -> si_args D E k2 = Ok a -> Proof_Mp1Elem.p_in D E i k2.
  Proof.
    intros HP HD HS v w y Gv Hw Ey. apply (positional_inv _ _ _ ND) in HP. destruct HP as (-> & _ & _).
    rewrite (Proof_IgasUnits.p_in _ _ _ _ _ _ _ _ U) in Hw. injection Hw as <-.
    assert (C : In ("p", v) (supplied varg kw) \/ exists x, v = [x]).
    { unfold defaults in HD. cbv zeta in HD. destruct (List.length (supplied varg kw)) as [|[|n]].
      - destruct (def_T _ _ _); [|discriminate]. cbn [bind] in HD. destruct (def_p _ _ _ _) as [q|]; [|discriminate]. cbn [bind] in HD. apply ok_inj in HD. subst k2.
        rewrite dget_dset_same in Gv. injection Gv as <-. right. eauto.
      - destruct (dmem "T" _).
        + destruct (def_p _ _ _ _) as [q|]; [|discriminate]. cbn [bind] in HD. apply ok_inj in HD. subst k2.
          rewrite dget_dset_same in Gv. injection Gv as <-. right. eauto.
        + destruct (def_T _ _ _) as [q|]; [|discriminate]. cbn [bind] in HD. apply ok_inj in HD. subst k2.
          rewrite dget_dset_other in Gv by discriminate. left. exact (dget_In _ _ _ Gv).
      - injection HD as <-. left. exact (dget_In _ _ _ Gv). }
    destruct C as [C|(x & ->)].
    - destruct (elem v i) as [x|] eqn:Ex.
      + pose proof (elem_map i (fmul (Some (z_kP z))) _ _ Ex) as Ey'. assert (y = (fmul (Some (z_kP z)) x)) by congruence. subst y.
        destruct x as [r|]; [|reflexivity]. specialize (PR v r C Ex).
        assert (FF : forall u w, w <= u -> flt (Some u) (Some w) = false) by (intros u w Huw; unfold flt; destruct (Rlt_dec u w); [lra|reflexivity]).
        unfold out. change (fmul (Some (z_kP z)) (Some r)) with (Some (z_kP z * r)). unfold num. rewrite !FF; [reflexivity|lra|lra].
      + exfalso. destruct v as [|x1 [|x2 v]]; [destruct i; discriminate|discriminate|]. unfold elem in Ex, Ey.
        change (nth_error (map (fmul (Some (z_kP z))) (x1 :: x2 :: v)) i = Some y) in Ey. apply nth_map_inv in Ey. destruct Ey as (b & Nb & _). congruence.
    - cbn [map elem] in Ey. injection Ey as <-. rewrite (si_args_val _ _ _ _ _ _ _ _ U) in HS. rewrite Gv in HS.
      destruct (ores (dget "T" k2) _); [|discriminate]. cbn [bind ores] in HS. change (gP (z_kP z) [x]) with [fmul (Some (z_kP z)) x] in HS.
      unfold limited in HS. cbv zeta in HS. cbn [forallb] in HS. unfold out. destruct (_ || _)%bool; [discriminate|reflexivity].
  Qed.

  Hypothesis HF : Forall2 (fun a b => exists w, elem a i = Some w /\ b = [w]) varg varg1.
  Hypothesis HK : Forall2 (fun a b => fst a = fst b /\ exists w, elem (snd a) i = Some w /\ snd b = [w]) kw kw1.
  Variables (Ts qs ds qs' : arr).
  Hypothesis HT : mm_T D E fuel varg kw = Ok (Ts, qs).
  Hypothesis Hd : mm_d D E fuel varg kw = Ok (ds, qs').

  Lemma HP : forall k k2 a, positional varg kw = Ok k -> defaults E k = Ok k2 -> mp_rules k2 = Ok tt -> si_args D E k2 = Ok a -> Proof_Mp1Elem.p_in D E i k2.
  Proof. intros k k2 a H1 H2 _ H3. exact (p_ok k k2 a H1 H2 H3). Qed.
  Lemma gone_marked : gone D E fuel i varg kw -> nth_error Ts i = Some None \/ nth_error ds i = Some None.
  Proof.
    intros (l & s & A & Ns & L). unfold mm_T, mm_d, method in HT, Hd. rewrite A in HT, Hd. cbn [bind] in HT, Hd.
    destruct (atscale E (map s_T l) (Some "K") None) as [t|] eqn:Q; [|discriminate]. cbn [bind] in HT. injection HT as <- _.
    destruct (out_density D E _) as [t'|] eqn:Q'; [|discriminate]. cbn [bind] in Hd. injection Hd as <- _.
    rewrite (out_density_val _ _ _ _ _ _ _ _ U) in Q'. injection Q' as <-. unfold atscale in Q. destruct (temperature_scale _ _ _ _); [|discriminate]. cbn [bind] in Q. injection Q as <-.
    unfold lost in L. rewrite OB in L. rewrite !map_map. destruct L as [L|[L S]]; [left|right].
    - rewrite (map_nth_error _ _ _ Ns), L. reflexivity.
    - rewrite (map_nth_error _ _ _ Ns). unfold mix_density. rewrite S, L. reflexivity.
  Qed.
  Theorem array_elementwise m ys xs y x : In m (mp_methods D E fuel) -> m varg kw = Ok (ys, xs) -> nth_error ys i = Some y -> nth_error xs i = Some x ->
    m varg1 kw1 = Ok ([y], [x]) \/ (m varg1 kw1 = Err PMParamError /\ (nth_error Ts i = Some None \/ nth_error ds i = Some None)).
  Proof.
    intros HI H Ny Nx. destruct (methods_at D E fuel TT i N2 varg varg1 kw kw1 HF HK HP m ys xs y x HI H Ny Nx) as [Q|[Q G]]; [left; exact Q|right].
    split; [exact Q|exact (gone_marked G)].
  Qed.

  (* ---- state() and hsd() ---- *)
  Lemma st_calc_indep l l' T d : st_calc D l T d = st_calc D l' T d.
  Proof. unfold st_calc. rewrite (ar_at_indep D l l' T d 2 N2). reflexivity. Qed.
  Lemma st_point_indep v l v' l' q : st_point D v l q = st_point D v' l' q.
  Proof. unfold st_point. rewrite (st_calc_indep v v'), (st_calc_indep l l'). reflexivity. Qed.
  Lemma map2_map {A B C F} (h : B -> C -> F) (f : A -> B) (g : A -> C) l : map2 h (map f l) (map g l) = map (fun x => h (f x) (g x)) l.
  Proof. induction l as [|x l IH]; [reflexivity|]. cbn [map]. unfold map2 in *. cbn [combine map fst snd]. now rewrite IH. Qed.
  Lemma map2_map_l {A C F} (h : A -> C -> F) (g : A -> C) l : map2 h l (map g l) = map (fun x => h x (g x)) l.
  Proof. induction l as [|x l IH]; [reflexivity|]. cbn [map]. unfold map2 in *. cbn [combine map fst snd]. now rewrite IH. Qed.
  Lemma combine_map {A B C} (f : A -> B) (g : A -> C) l : combine (map f l) (map g l) = map (fun x => (f x, g x)) l.
  Proof. induction l as [|x l IH]; [reflexivity|]. cbn. now rewrite IH. Qed.
  Definition fields_of (c1 c2 k1 kp : R) (kt : fl -> fl) (pt : point -> fl * fl * fl * fl * fl * fl) : list (point -> fl) :=
    let p s := let '(p, _, _, _, _, _) := pt s in p in let e s := let '(_, e, _, _, _, _) := pt s in e in
    let h s := let '(_, _, h, _, _, _) := pt s in h in let en s := let '(_, _, _, s', _, _) := pt s in s' in
    let cp s := let '(_, _, _, _, cp, _) := pt s in cp in let cv s := let '(_, _, _, _, _, cv) := pt s in cv in
    let f s := (e s - s_T s * en s)%fl in let g s := (f s - e s + h s)%fl in let sc c (q : point -> fl) s := fmul (q s) (num c) in
    [fun s => kt (s_T s); fun s => fmul (Some kp) (p s); sc k1 mix_density; fun s => reciprocal (sc k1 mix_density s); s_x; sc c1 e; sc c1 h; sc c2 en; sc c1 f; sc c1 g;
     sc c2 cp; sc c2 cv; fun s => if s_sat s then None else fdiv (sc c2 cp s) (sc c2 cv s)].
  Lemma state_dict_map l st : state_dict D E l = Ok st -> exists hs, List.length hs = List.length fields /\
    (forall n f h, nth_error fields n = Some f -> nth_error hs n = Some h -> f st = map h l) /\
    forall s, exists st1, state_dict D E [s] = Ok st1 /\ forall n f h, nth_error fields n = Some f -> nth_error hs n = Some h -> f st1 = [h s].
  Proof.
    intro H. unfold state_dict in H. cbv zeta in H.
    unfold aconvert, atscale in H.
    Ltac nxt H x Q := match type of H with bind ?m _ = _ => match m with bind ?m' _ => destruct m' as [x|] eqn:Q | _ => destruct m as [x|] eqn:Q end end; [|discriminate]; cbn [bind] in H.
    nxt H xc HC0. nxt H xc1 HC1. nxt H xc2 HC2. nxt H xkp HCP. nxt H xtt HCT. nxt H xk HCK. nxt H xk1 HCK1.
    injection H as <-. set (kt := fun x : fl => match x with Some r => match temperature_scale (e_cfg E) r (Some "K") None with Ok y => Some y | Err _ => None end | None => None end).
    exists (fields_of xc1 xc2 xk1 xkp kt (st_point D [] [])). split; [reflexivity|]. split.
    - intros n f h Nf Nh.
      do 13 (destruct n as [|n]; [injection Nf as <-; injection Nh as <-; cbn [o_T o_p o_d o_v o_x o_e o_h o_s o_f o_g o_cp o_cv o_gam]; unfold scaled;
        repeat first [rewrite map_map|rewrite combine_map|rewrite map2_map|rewrite map2_map_l]; try reflexivity; apply map_ext; intro q; cbn [fst snd];
        rewrite ?(st_point_indep (map (fun s0 : point => (s_T s0, s_d2 s0)) l) (map (fun s0 : point => (s_T s0, s_d1 s0)) (filter s_sat l)) [] []); destruct (st_point D [] [] q) as [[[[[? ?] ?] ?] ?] ?]; reflexivity|]).
      destruct n; discriminate.
    - intro s. eexists. split.
      + unfold state_dict. cbv zeta. rewrite HC0. cbn [bind]. rewrite HC1. cbn [bind]. rewrite HC2. cbn [bind]. unfold aconvert. rewrite HCP. cbn [bind]. unfold atscale. rewrite HCT. cbn [bind]. rewrite HCK. cbn [bind]. rewrite HCK1. cbn [bind]. reflexivity.
      + intros n f h Nf Nh.
        do 13 (destruct n as [|n]; [injection Nf as <-; injection Nh as <-; cbn [o_T o_p o_d o_v o_x o_e o_h o_s o_f o_g o_cp o_cv o_gam]; unfold scaled, map2; cbn [map combine fst snd filter];
        try reflexivity;
        rewrite ?(st_point_indep [(s_T s, s_d2 s)] _ [] [] s); destruct (st_point D [] [] s) as [[[[[? ?] ?] ?] ?] ?]; reflexivity|]).
        destruct n; discriminate.
  Qed.
  Theorem state_elementwise st : mm_state D E fuel varg kw = Ok st -> (i < List.length (o_x st))%nat ->
    (exists st1, mm_state D E fuel varg1 kw1 = Ok st1 /\ forall f, In f fields -> exists y, nth_error (f st) i = Some y /\ f st1 = [y]) \/
    (mm_state D E fuel varg1 kw1 = Err PMParamError /\ (nth_error Ts i = Some None \/ nth_error ds i = Some None)).
  Proof.
    unfold mm_state. intros H Hi. destruct (mp_argparse D E fuel varg kw) as [l|] eqn:A; [|discriminate]. cbn [bind] in H.
    destruct (state_dict_map _ _ H) as (hs & HL & HM & H1).
    assert (NF : forall n f, nth_error fields n = Some f -> exists h, nth_error hs n = Some h).
    { intros n f Nf. destruct (nth_error hs n) as [h|] eqn:Nh; [eauto|]. apply nth_error_None in Nh. rewrite HL in Nh. apply nth_error_None in Nh. congruence. }
    destruct (NF 4%nat o_x eq_refl) as (hx & Nhx). rewrite (HM 4%nat o_x hx eq_refl Nhx), map_length in Hi.
    destruct (nth_error l i) as [s|] eqn:Ns; [|apply nth_error_None in Ns; lia].
    destruct (argparse_at D E fuel TT i _ _ _ _ _ _ HF HK HP A Ns) as [->|(-> & L)]; [left|right; split; [reflexivity|]; apply gone_marked; exists l, s; auto].
    cbn [bind]. destruct (H1 s) as (st1 & E1 & M1). exists st1. split; [exact E1|]. intros f Hf. apply In_nth_error in Hf. destruct Hf as (n & Nf).
    destruct (NF n f Nf) as (h & Nh). exists (h s). rewrite (HM n f h Nf Nh), (M1 n f h Nf Nh). split; [exact (map_nth_error _ _ _ Ns)|reflexivity].
  Qed.
  Lemma hsd_raw_indep l l' T d : hsd_raw D l T d = hsd_raw D l' T d.
  Proof. unfold hsd_raw. rewrite (ar_at_indep D l l' T d 1 N2). reflexivity. Qed.
  Definition hs_of (s : point) : fl * fl :=
    let (h, e) := hsd_raw D [] (s_T s) (s_d1 s) in
    if s_sat s then
      let (hv, ev) := hsd_raw D [] (s_T s) (s_d2 s) in ((h * (num 1 - s_x s) + hv * s_x s)%fl, (e * (num 1 - s_x s) + ev * s_x s)%fl)
    else (h, e).
  Lemma hsd_map l : hsd_values D l = (map (fun s => (fst (hs_of s) * (num (mp_R D) * s_T s))%fl) l, map (fun s => (snd (hs_of s) * num (mp_R D))%fl) l, map mix_density l).
  Proof.
    unfold hsd_values. cbv zeta. match goal with |- (map2 _ _ ?m, _, _) = _ => replace m with (map hs_of l) end.
    - rewrite map2_map_l, map_map. reflexivity.
    - apply map_ext. intro s. unfold hs_of. rewrite (hsd_raw_indep (liquid_all l) []), (hsd_raw_indep (vapor_sat l) []). reflexivity.
  Qed.
  Theorem hsd_elementwise hs ss dd xs h s d x : mm_hsd D E fuel varg kw = Ok (hs, ss, dd, xs) ->
    nth_error hs i = Some h -> nth_error ss i = Some s -> nth_error dd i = Some d -> nth_error xs i = Some x ->
    mm_hsd D E fuel varg1 kw1 = Ok ([h], [s], [d], [x]) \/
    (mm_hsd D E fuel varg1 kw1 = Err PMParamError /\ (nth_error Ts i = Some None \/ nth_error ds i = Some None)).
  Proof.
    unfold mm_hsd. intros H Nh Ns Nd Nx. destruct (mp_argparse D E fuel varg kw) as [l|] eqn:A; [|discriminate]. cbn [bind] in H.
    rewrite hsd_map in H. cbv iota beta zeta in H.
    nxt H xc HC0. nxt H xc1 HC1. nxt H xc2 HC2. rewrite (out_density_val _ _ _ _ _ _ _ _ U) in H. cbn [bind] in H. injection H as <- <- <- <-.
    unfold scaled in Nh, Ns. rewrite map_map in Nh, Ns, Nd. apply nth_map_inv in Nx. destruct Nx as (q & Nq & ->).
    rewrite (map_nth_error _ _ _ Nq) in Nh. rewrite (map_nth_error _ _ _ Nq) in Ns. rewrite (map_nth_error _ _ _ Nq) in Nd. injection Nh as <-. injection Ns as <-. injection Nd as <-.
    destruct (argparse_at D E fuel TT i _ _ _ _ _ _ HF HK HP A Nq) as [->|(-> & L)]; [left|right; split; [reflexivity|]; apply gone_marked; exists l, q; auto].
    cbn [bind]. rewrite hsd_map. cbv iota beta zeta. rewrite HC1. cbn [bind]. rewrite HC2. cbn [bind].
    rewrite (out_density_val _ _ _ _ _ _ _ _ U). reflexivity.
  Qed.
End Final.

(* the statements with the notions of the specification *)
Lemma methods_elementwise D E fuel z : ar_coef2 (mp_AR D) = None -> 0 < mp_Tt D < mp_Tc D -> mp_sizes D E z -> e_oob E = None ->
  forall i varg varg1 kw kw1 Ts qs ds qs', NoDup (map fst kw) -> pressure_in_range D z i varg kw -> scalar_call i varg varg1 kw kw1 ->
  mm_T D E fuel varg kw = Ok (Ts, qs) -> mm_d D E fuel varg kw = Ok (ds, qs') ->
  (forall m ys xs y x, In m (mp_methods D E fuel) -> m varg kw = Ok (ys, xs) -> nth_error ys i = Some y -> nth_error xs i = Some x ->
    m varg1 kw1 = Ok ([y], [x]) \/ (m varg1 kw1 = Err PMParamError /\ (nth_error Ts i = Some None \/ nth_error ds i = Some None))) /\
  (forall st, mm_state D E fuel varg kw = Ok st -> (i < List.length (o_x st))%nat ->
    (exists st1, mm_state D E fuel varg1 kw1 = Ok st1 /\ forall f, In f fields -> exists y, nth_error (f st) i = Some y /\ f st1 = [y]) \/
    (mm_state D E fuel varg1 kw1 = Err PMParamError /\ (nth_error Ts i = Some None \/ nth_error ds i = Some None))) /\
  (forall hs ss dd xs h s d x, mm_hsd D E fuel varg kw = Ok (hs, ss, dd, xs) ->
    nth_error hs i = Some h -> nth_error ss i = Some s -> nth_error dd i = Some d -> nth_error xs i = Some x ->
    mm_hsd D E fuel varg1 kw1 = Ok ([h], [s], [d], [x]) \/
    (mm_hsd D E fuel varg1 kw1 = Err PMParamError /\ (nth_error Ts i = Some None \/ nth_error ds i = Some None))).
Proof.
  intros N2 TT U OB i varg varg1 kw kw1 Ts qs ds qs' ND PR [HF HK] HT Hd. split; [|split].
  - intros m ys xs y x HI H Ny Nx. exact (array_elementwise D E fuel z N2 TT U OB i varg varg1 kw kw1 ND PR HF HK Ts qs ds qs' HT Hd m ys xs y x HI H Ny Nx).
  - intros st H Hi. exact (state_elementwise D E fuel z N2 TT U OB i varg varg1 kw kw1 ND PR HF HK Ts qs ds qs' HT Hd st H Hi).
  - intros hs ss dd xs h s d x H1 H2 H3 H4 H5. exact (hsd_elementwise D E fuel z N2 TT U OB i varg varg1 kw kw1 ND PR HF HK Ts qs ds qs' HT Hd hs ss dd xs h s d x H1 H2 H3 H4 H5).
Qed.
Lemma call_elementwise D E fuel z : ar_coef2 (mp_AR D) = None -> 0 < mp_Tt D < mp_Tc D -> mp_sizes D E z -> e_oob E = None ->
  forall i varg varg1 kw kw1 Ts qs ds qs', NoDup (map fst kw) -> pressure_in_range D z i varg kw -> scalar_call i varg varg1 kw kw1 ->
  mm_T D E fuel varg kw = Ok (Ts, qs) -> mm_d D E fuel varg kw = Ok (ds, qs') ->
  forall m ys xs y x, In m (mp_methods D E fuel) -> m varg kw = Ok (ys, xs) -> nth_error ys i = Some y -> nth_error xs i = Some x ->
    m varg1 kw1 = Ok ([y], [x]) \/ (m varg1 kw1 = Err PMParamError /\ (nth_error Ts i = Some None \/ nth_error ds i = Some None)).
Proof. intros a b c d0 i varg varg1 kw kw1 Ts qs ds qs' e f g h j. apply (methods_elementwise D E fuel z a b c d0 i varg varg1 kw kw1 Ts qs ds qs' e f g h j). Qed.
Lemma dict_elementwise D E fuel z : ar_coef2 (mp_AR D) = None -> 0 < mp_Tt D < mp_Tc D -> mp_sizes D E z -> e_oob E = None ->
  forall i varg varg1 kw kw1 Ts qs ds qs', NoDup (map fst kw) -> pressure_in_range D z i varg kw -> scalar_call i varg varg1 kw kw1 ->
  mm_T D E fuel varg kw = Ok (Ts, qs) -> mm_d D E fuel varg kw = Ok (ds, qs') ->
  forall st, mm_state D E fuel varg kw = Ok st -> (i < List.length (o_x st))%nat ->
    (exists st1, mm_state D E fuel varg1 kw1 = Ok st1 /\ forall f, In f fields -> exists y, nth_error (f st) i = Some y /\ f st1 = [y]) \/
    (mm_state D E fuel varg1 kw1 = Err PMParamError /\ (nth_error Ts i = Some None \/ nth_error ds i = Some None)).
Proof. intros a b c d0 i varg varg1 kw kw1 Ts qs ds qs' e f g h j. apply (methods_elementwise D E fuel z a b c d0 i varg varg1 kw kw1 Ts qs ds qs' e f g h j). Qed.
Lemma triple_elementwise D E fuel z : ar_coef2 (mp_AR D) = None -> 0 < mp_Tt D < mp_Tc D -> mp_sizes D E z -> e_oob E = None ->
  forall i varg varg1 kw kw1 Ts qs ds qs', NoDup (map fst kw) -> pressure_in_range D z i varg kw -> scalar_call i varg varg1 kw kw1 ->
  mm_T D E fuel varg kw = Ok (Ts, qs) -> mm_d D E fuel varg kw = Ok (ds, qs') ->
  forall hs ss dd xs h s d x, mm_hsd D E fuel varg kw = Ok (hs, ss, dd, xs) ->
    nth_error hs i = Some h -> nth_error ss i = Some s -> nth_error dd i = Some d -> nth_error xs i = Some x ->
    mm_hsd D E fuel varg1 kw1 = Ok ([h], [s], [d], [x]) \/
    (mm_hsd D E fuel varg1 kw1 = Err PMParamError /\ (nth_error Ts i = Some None \/ nth_error ds i = Some None)).
Proof. intros a b c d0 i varg varg1 kw kw1 Ts qs ds qs' e f g h j. apply (methods_elementwise D E fuel z a b c d0 i varg varg1 kw kw1 Ts qs ds qs' e f g h j). Qed.

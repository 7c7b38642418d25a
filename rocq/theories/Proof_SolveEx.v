(* Concrete solvers for the examples and the counterexamples of C55 and C73. *)
From Coq Require Import Reals List Bool Arith String Lra Lia.
From Verif Require Import Base Model_Hybrid Model_Solve Spec_Solve Proof_Solve.
Import ListNotations.
Local Open Scope R_scope.
Local Open Scope string_scope.
Local Open Scope list_scope.

(* a property of T alone *)
Definition of_T (F : R -> R) (a : sargs) : res xf :=
  match dget "T" a with Some (Sca (Fin x)) => Ok (Fin (F x)) | Some _ => Ok NaN | None => Err ETypeError end.
Definition mk (m : mode) (g : option guess) (l : option limit) (n : nat) : solver :=
  {| s_param := "T"; s_mode := m; s_name := None; s_init := g; s_lim := l; s_eps := Fin (1 / 1000000);
     s_small := Fin (1 / 10000000000); s_max := n; s_defaults := [] |}.
Lemma of_T_at F : at_param "T" F (of_T F).
Proof. intros a x G. unfold of_T. rewrite G. reflexivity. Qed.
Lemma of_T_same F a b : same_args a b -> of_T F a = of_T F b.
Proof. intro E. unfold of_T. rewrite (E "T"). reflexivity. Qed.

(* h = 2 T + 3, solved within [0, 10] from 1 *)
Definition line_S : solver := mk (MF (Some "h") (of_T (fun x => 2 * x + 3))) (Some (GVal (Fin 1))) (Some (LVal (Fin 0) (Fin 10))) 30.
Lemma line_ok : line_like line_S 2 3.
Proof. exact (of_T_at _). Qed.
Lemma line_call : exists v, solve_call line_S (Some (Sca (Fin 13))) [] = Ok [Fin v] /\
  Rabs (2 * v + 3 - 13) < tolerance (1 / 10000000000) (1 / 1000000) 13.
Proof.
  apply (line_lemma line_S 2 3 (1 / 10000000000) (1 / 1000000) 13 1 [] "h"); try reflexivity; try lra.
  - constructor.
  - exact line_ok.
  - cbn. lra.
  - cbn. lia.
  - intros a [].
Qed.

(* a property that is never within tolerance of the target *)
Definition flat_S : solver := mk (MFDf (Some "h") (of_T (fun _ => 1)) (of_T (fun _ => 1))) (Some (GVal (Fin 1))) None 30.

Lemma tol_0 : tolerance (1 / 10000000000) (1 / 1000000) 0 = 1 / 10000000000.
Proof. unfold tolerance. rewrite Rmult_0_r, Rabs_R0. apply Rmax_left. lra. Qed.

(* a cubic whose iteration within [0, 10] from 5 ends at 55 *)
Definition cub (x : R) : R := 1 - 1 / 100 * (x - 5) + 2101 / 45000 * (x - 5) ^ 2 - 211 / 225000 * (x - 5) ^ 3.
Definition dcub (x : R) : R := - (1 / 100) + 2101 / 22500 * (x - 5) - 211 / 75000 * (x - 5) ^ 2.
Lemma cub_D x : derivable_pt_lim cub x (dcub x).
Proof.
  replace (dcub x) with (0 - 1 / 100 * (1 - 0) + 2101 / 45000 * (INR 2 * (x - 5) ^ pred 2 * (1 - 0)) - 211 / 225000 * (INR 3 * (x - 5) ^ pred 3 * (1 - 0))).
  2:{ unfold dcub. cbn [INR pred pow]. field. }
  assert (D0 : derivable_pt_lim (fun x => x - 5) x (1 - 0)).
  { exact (derivable_pt_lim_minus id (fct_cte 5) x 1 0 (derivable_pt_lim_id x) (derivable_pt_lim_const 5 x)). }
  assert (DP : forall n, derivable_pt_lim (fun x => (x - 5) ^ n) x (INR n * (x - 5) ^ pred n * (1 - 0))).
  { intro n. exact (derivable_pt_lim_comp (fun x => x - 5) (fun y => y ^ n) x (1 - 0) (INR n * (x - 5) ^ pred n) D0 (derivable_pt_lim_pow (x - 5) n)). }
  apply (derivable_pt_lim_minus (fun x => 1 - 1 / 100 * (x - 5) + 2101 / 45000 * (x - 5) ^ 2) (fun x => 211 / 225000 * (x - 5) ^ 3)).
  - apply (derivable_pt_lim_plus (fun x => 1 - 1 / 100 * (x - 5)) (fun x => 2101 / 45000 * (x - 5) ^ 2)).
    + apply (derivable_pt_lim_minus (fun _ => 1) (fun x => 1 / 100 * (x - 5))); [apply derivable_pt_lim_const|].
      exact (derivable_pt_lim_scal (fun x => x - 5) (1 / 100) x _ D0).
    + exact (derivable_pt_lim_scal (fun x => (x - 5) ^ 2) (2101 / 45000) x _ (DP 2%nat)).
  - exact (derivable_pt_lim_scal (fun x => (x - 5) ^ 3) (211 / 225000) x _ (DP 3%nat)).
Qed.
Definition cub_S : solver :=
  mk (MFDf (Some "h") (of_T cub) (of_T dcub)) (Some (GVal (Fin 5))) (Some (LVal (Fin 0) (Fin 10))) 30.
Lemma cub_call : solve_call cub_S (Some (Sca (Fin 0))) [] = Ok [Fin 55].
Proof.
  unfold solve_call. cbn [fold_left cub_S mk s_defaults]. cbv zeta. cbn [prop_name s_name s_mode bind cub_S mk dget vec_y vec_keys solve_from].
  unfold vec_at, vec_copy. cbn [fold_left filter vec_target].
  assert (E : exists c, solve_one cub_S (Fin 0) [] = Ok (Some (Fin 55), c)).
  { unfold solve_one. cbn [the_limits the_guess s_lim s_init cub_S mk bind].
    rewrite (thr_real _ (1 / 10000000000) (1 / 1000000) 0) by reflexivity. rewrite tol_0.
    assert (P : property_is cub_S cub dcub) by (split; apply of_T_at).
    cbn [s_max cub_S mk]. fold cub_S.
    assert (C5 : cub 5 = 1) by (unfold cub; field).
    assert (D5 : dcub 5 = - (1 / 100)) by (unfold dcub; field).
    assert (C10 : cub 10 = 2) by (unfold cub; field).
    assert (C55 : cub 55 = 0) by (unfold cub; field).
    change (mk (MFDf (Some "h") (of_T cub) (of_T dcub)) (Some (GVal (Fin 5))) (Some (LVal (Fin 0) (Fin 10))) 30) with cub_S.
    rewrite (search_step cub_S cub dcub 0 10 0 (1 / 10000000000) 29 5 _ _ PInf [] P); [|lra | rewrite D5; lra | left; reflexivity].
    rewrite C5, D5. destruct (Rlt_dec (Rabs (1 - 0)) (1 / 10000000000)) as [Q|_]; [rewrite Rabs_right in Q; lra|].
    replace (- (1 - 0) / - (1 / 100)) with 100 by field.
    replace (clamp 0 10 (5 + 100)) with 10 by (unfold clamp; rewrite Rmin_right by lra; rewrite Rmax_left by lra; reflexivity).
    replace (Rabs (1 - 0)) with 1 by (rewrite Rabs_right; lra).
    rewrite (search_back cub_S cub dcub _ 0 _ 28 10 5 100 1 _ P); [|rewrite C10, Rabs_right; lra | rewrite C10, Rabs_right; lra].
    replace (5 + 1 / 2 * 100) with 55 by field.
    rewrite (search_done cub_S cub dcub _ 0 _ 27 55 _ _ _ _ P) by (rewrite C55, Rminus_0_r, Rabs_R0; lra).
    cbn [bind]. eexists. reflexivity. }
  destruct E as (c & E). 
  change (mk (MFDf (Some "h") (of_T cub) (of_T dcub)) (Some (GVal (Fin 5))) (Some (LVal (Fin 0) (Fin 10))) 30) with cub_S in *.
  rewrite E. reflexivity.
Qed.

(* a guess that is a function of the other arguments, as documented *)
Definition guess_p (a : sargs) : res xf :=
  match dget "T" a with None => Ok (Fin 1) | Some _ => Err ETypeError end.
Definition guess_S : solver :=
  mk (MFDf (Some "h") (of_T (fun x => 2 * x + 3)) (of_T (fun _ => 2))) (Some (GFun guess_p)) (Some (LVal (Fin 0) (Fin 100))) 30.
Lemma guess_one t a : 13 <= t <= 23 -> dget "T" a = None ->
  exists c, solve_one guess_S (Fin t) a = Ok (Some (Fin ((t - 3) / 2)), c) /\ dget "T" c <> None.
Proof.
  intros Ht Ga.
  assert (P : property_is guess_S (fun x => 2 * x + 3) (fun _ => 2)) by (split; apply of_T_at).
  assert (K : exists c, search 30 guess_S (Some (Fin 0, Fin 100)) (Fin t) (threshold guess_S (Fin t)) (Fin 1) (Fin 1) (Fin 0) PInf a
              = Ok (Some (Fin ((t - 3) / 2)), c) /\ dget "T" c <> None).
  { rewrite (thr_real _ (1 / 10000000000) (1 / 1000000) t) by reflexivity.
    assert (T : 0 < tolerance (1 / 10000000000) (1 / 1000000) t < 1).
    { unfold tolerance. split; [pose proof (Rmax_l (1 / 10000000000) (Rabs (1 / 1000000 * t))); lra|].
      apply Rmax_lub_lt; [lra|]. rewrite Rabs_right; lra. }
    rewrite (search_step guess_S _ _ 0 100 t _ 29 1 _ _ PInf a P); [|lra | lra | left; reflexivity].
    destruct (Rlt_dec (Rabs (2 * 1 + 3 - t)) (tolerance (1 / 10000000000) (1 / 1000000) t)) as [Q|_];
      [rewrite Rabs_left in Q; lra|].
    replace (1 + - (2 * 1 + 3 - t) / 2) with ((t - 3) / 2) by field.
    rewrite clamp_id by lra.
    rewrite (search_done guess_S _ _ _ t _ 28 _ _ _ _ _ P).
    2:{ replace (2 * ((t - 3) / 2) + 3 - t) with 0 by field. rewrite Rabs_R0. lra. }
    eexists. split; [reflexivity|]. change (s_param guess_S) with "T". rewrite dget_dset_same. discriminate. }
  destruct K as (c & K & N). exists c. split; [|exact N].
  unfold solve_one. cbn [the_limits the_guess s_lim s_init guess_S mk bind]. unfold guess_p. rewrite Ga. cbn [bind].
  change (mk (MFDf (Some "h") (of_T (fun x => 2 * x + 3)) (of_T (fun _ => 2))) (Some (GFun guess_p)) (Some (LVal (Fin 0) (Fin 100))) 30) with guess_S.
  change (s_max guess_S) with 30%nat. rewrite K. reflexivity.
Qed.
Lemma guess_fails : solve_call guess_S (Some (Vec [Fin 13; Fin 23])) [] = Err ETypeError.
Proof.
  change (solve_from guess_S (Vec [Fin 13; Fin 23]) true [] [] 0 2 [] = Err ETypeError).
  cbn [solve_from vec_target nth]. unfold vec_at. cbn [fold_left]. cbv zeta.
  destruct (guess_one 13 [] ltac:(lra) eq_refl) as (c & -> & N). cbn [bind].
  assert (E : solve_one guess_S (Fin 23) c = Err ETypeError).
  { unfold solve_one. cbn [the_limits the_guess s_lim s_init guess_S mk bind]. unfold guess_p. destruct (dget "T" c); [reflexivity | contradiction]. }
  cbn [Nat.add nth]. rewrite E. reflexivity.
Qed.
Lemma guess_alone t : 13 <= t <= 23 -> solve_call guess_S (Some (Sca (Fin t))) [] = Ok [Fin ((t - 3) / 2)].
Proof.
  intro Ht. change (solve_from guess_S (Sca (Fin t)) false [] [] 0 1 [] = Ok [Fin ((t - 3) / 2)]).
  cbn [solve_from vec_target nth]. unfold vec_at. cbn [fold_left]. cbv zeta.
  destruct (guess_one t [] Ht eq_refl) as (c & -> & N). reflexivity.
Qed.

Lemma flat_fine : never_raises flat_S.
Proof.
  split; [|split; [exact I | split; [exact I | discriminate]]].
  intros a x G. cbn [flat_S mk s_mode s_param] in *. unfold of_T. rewrite G. destruct x; split; eexists; reflexivity.
Qed.
Lemma flat_far a f : property flat_S a = Ok f -> xlt (xabs (xsub f (Fin 0))) (threshold flat_S (Fin 0)) = false.
Proof.
  cbn [property flat_S mk s_mode]. unfold of_T. intro H.
  assert (f = Fin 1 \/ f = NaN) as [->| ->].
  { destruct (dget "T" a) as [[[x| | |]|]|]; try discriminate H; injection H as <-; auto. }
  - rewrite (thr_real _ (1 / 10000000000) (1 / 1000000) 0) by reflexivity. rewrite tol_0.
    replace (xabs (xsub (Fin 1) (Fin 0))) with (Fin (Rabs (1 - 0))) by reflexivity. cbn [xlt].
    destruct (Rlt_dec _ _) as [L|L]; [rewrite Rabs_right in L; lra | reflexivity].
  - reflexivity.
Qed.
Lemma flat_call : solve_call flat_S (Some (Sca (Fin 0))) [] = Ok [Fin 0].
Proof.
  exact (silent_lemma flat_S (Fin 0) [] "h" (NoDup_nil _) (NoDup_nil _) flat_fine ltac:(discriminate) eq_refl eq_refl
    (fun a H => match H with end) flat_far).
Qed.
(* an array of targets with a second argument *)
Definition sum_TP (a : sargs) : res xf :=
  match dget "T" a, dget "p" a with
  | Some (Sca (Fin x)), Some (Sca (Fin q)) => Ok (Fin (2 * x + q))
  | Some (Sca _), _ => Ok NaN
  | _, _ => Err ETypeError
  end.
Definition sum_S : solver := mk (MFDf (Some "h") sum_TP (of_T (fun _ => 2))) (Some (GVal (Fin 1))) None 30.
Lemma sum_fine : never_raises sum_S.
Proof.
  split; [|split; [exact I | split; [exact I | discriminate]]].
  intros a x G. cbn [sum_S mk s_mode s_param] in *. unfold of_T, sum_TP. rewrite G.
  destruct x; split; destruct (dget "p" a) as [[[x| | |]|]|]; eexists; reflexivity.
Qed.
Lemma sum_well : well_behaved sum_S.
Proof.
  intros a b E. split; [|apply of_T_same; exact E]. unfold sum_TP. rewrite (E "T"), (E "p"). reflexivity.
Qed.
Definition sum_kw : sargs := [("p", Vec [Fin 1; Fin 5])].
Lemma sum_call : exists out, solve_call sum_S (Some (Vec [Fin 11; Fin 21])) sum_kw = Ok out.
Proof.
  apply (call_total sum_S _ sum_kw "h" 2); try reflexivity.
  - constructor; [intros []|constructor].
  - exact sum_fine.
  - discriminate.
  - intros a [Q|[Q|[]]]; injection Q as <-; right; reflexivity.
Qed.
Lemma guess_refutes :
  well_behaved guess_S /\
  solve_call guess_S (Some (Sca (Fin 13))) [] = Ok [Fin ((13 - 3) / 2)] /\
  solve_call guess_S (Some (Sca (Fin 23))) [] = Ok [Fin ((23 - 3) / 2)] /\
  solve_call guess_S (Some (Vec [Fin 13; Fin 23])) [] = Err ETypeError.
Proof.
  split; [intros a b E; exact (conj (of_T_same _ a b E) (of_T_same _ a b E))|].
  split; [apply guess_alone; lra|]. split; [apply guess_alone; lra|]. exact guess_fails.
Qed.
Lemma new_lemma param fn name init lim eps small max defaults S :
  solve_new param fn name init lim eps small max defaults = Ok S ->
  fn <> None /\ (init <> None \/ lim <> None) /\ (forall lo hi, lim = Some (LVal (Fin lo) (Fin hi)) -> lo < hi) /\
  s_param S = param /\ Some (s_mode S) = fn /\ s_init S = init /\ s_lim S = lim /\ s_eps S = eps /\ s_small S = small /\
  s_max S = max /\ s_defaults S = defaults.
Proof.
  unfold solve_new. destruct fn as [m|]; [|discriminate].
  destruct init as [g|]; destruct lim as [[lo hi|f]|]; intro H; try discriminate H.
  all: try (destruct (xle hi lo) eqn:E; [discriminate H|]).
  all: injection H as <-; cbn; repeat split; try discriminate; try (left; discriminate); try (right; discriminate).
  all: intros a b Q; try discriminate Q; injection Q as -> ->; cbn [xle] in E; destruct (Rle_dec b a); [discriminate | lra].
Qed.

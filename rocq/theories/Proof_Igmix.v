(* Proofs about the composition and the inner routines of an ideal gas mixture. *)
From Coq Require Import Reals ZArith List String Lia Lra.
From Verif Require Import Base Model_Num Model_Units Model_Igas Model_Igmix Spec_Units Spec_Igas Spec_Igmix
  Proof_Units Proof_Igas.
Import ListNotations.
Local Open Scope R_scope.
Local Open Scope string_scope.
Local Open Scope list_scope.

(* ---- sums ---- *)
Lemma sum_ext {A} (f h : A -> R) l : (forall a, In a l -> f a = h a) -> sum_over f l = sum_over h l.
Proof.
  induction l as [|a l IH]; intro H; cbn; [reflexivity|].
  rewrite H by now left. rewrite IH; [reflexivity|]. intros; apply H; now right.
Qed.
Lemma sum_scal {A} k (f : A -> R) l : sum_over (fun a => k * f a) l = k * sum_over f l.
Proof. induction l; cbn; [ring|rewrite IHl; ring]. Qed.
Lemma sum_plus {A} (f h : A -> R) l : sum_over (fun a => f a + h a) l = sum_over f l + sum_over h l.
Proof. induction l; cbn; [ring|rewrite IHl; ring]. Qed.
Lemma sum_map {A B} (f : B -> R) (h : A -> B) l : sum_over f (map h l) = sum_over (fun a => f (h a)) l.
Proof. induction l; cbn; [reflexivity|now rewrite IHl]. Qed.
Lemma sum_pos {A} (f : A -> R) l : l <> [] -> (forall a, In a l -> 0 < f a) -> 0 < sum_over f l.
Proof.
  intros Hl H. assert (forall l', (forall a, In a l' -> 0 < f a) -> 0 <= sum_over f l') as K.
  { clear. induction l' as [|a l' IH]; cbn; intro H; [lra|].
    pose proof (H a (or_introl eq_refl)). assert (0 <= sum_over f l') by (apply IH; auto). lra. }
  destruct l as [|a l]; [contradiction|]. cbn. pose proof (H a (or_introl eq_refl)).
  assert (0 <= sum_over f l) by (apply K; intros; apply H; now right). lra.
Qed.
Lemma sum_nonneg {A} (f : A -> R) l : (forall a, In a l -> 0 <= f a) -> 0 <= sum_over f l.
Proof.
  induction l as [|a l IH]; cbn; intro H; [lra|].
  pose proof (H a (or_introl eq_refl)). assert (0 <= sum_over f l) by (apply IH; auto). lra.
Qed.
Lemma sum_member {A} (f : A -> R) l a : In a l -> (forall b, In b l -> 0 < f b) -> f a <= sum_over f l.
Proof.
  induction l as [|b l IH]; cbn; [intros []|]. intros [Hb|Hb] H.
  - subst. assert (0 <= sum_over f l) by (apply sum_nonneg; intros; apply Rlt_le; auto). lra.
  - pose proof (H b (or_introl eq_refl)). assert (f a <= sum_over f l) by auto. lra.
Qed.

Lemma dset_new {A} k (v : A) d : ~ In k (map fst d) -> dset k v d = d ++ [(k, v)].
Proof.
  induction d as [|[k' v'] d IH]; cbn; intro H; [reflexivity|].
  destruct (String.eqb_spec k k') as [->|]; [exfalso; apply H; now left|].
  rewrite IH by tauto. reflexivity.
Qed.

Lemma mixobj_eq o1 o2 : x_bs o1 = x_bs o2 -> x_x o1 = x_x o2 -> x_y o1 = x_y o2 -> x_mw o1 = x_mw o2 ->
  x_pref o1 = x_pref o2 -> x_lo o1 = x_lo o2 -> x_hi o1 = x_hi o2 -> x_smix o1 = x_smix o2 -> o1 = o2.
Proof. destruct o1, o2; cbn; intros; subst; reflexivity. Qed.

(* ---- constituents ---- *)
Definition nodata : igdata := {| d_Tlim := []; d_C := []; d_mw := 0; d_pref := 0 |}.
Definition Dof (coll : collection) (ss : string) : igdata :=
  match constituent coll ss with Ok D => D | Err _ => nodata end.

Lemma loaded_facts coll ss D : loaded coll ss D ->
  constituent coll ss = Ok D /\ Dof coll ss = D /\ mw_in coll ss = d_mw D /\
  (member_gas None coll ss = ig_gas None D \/ member_gas None coll ss = ig2_gas None D).
Proof.
  intros (a & [H|H]); unfold Dof, constituent, mw_in, member_gas; rewrite H; auto.
Qed.
Lemma loaded_unique coll ss D D' : loaded coll ss D -> loaded coll ss D' -> D = D'.
Proof. intros H H'. apply loaded_facts in H, H'. destruct H, H'. congruence. Qed.

Definition tlo coll (c : string * R) : R := nth 0 (d_Tlim (Dof coll (fst c))) 0.
Definition thi coll (c : string * R) : R := last (d_Tlim (Dof coll (fst c))) 0.
Definition low_of coll (cs : list (string * R)) (a : option R) : option R :=
  fold_left (fun a c => Some (omax (tlo coll c) a)) cs a.
Definition high_of coll (cs : list (string * R)) (a : option R) : option R :=
  fold_left (fun a c => Some (omin (thi coll c) a)) cs a.

Lemma boot_loop_ok coll bm cs : forall o tx ty,
  (forall ss q, In (ss, q) cs -> exists D, loaded coll ss D /\ 0 < d_mw D) ->
  NoDup (map fst (x_x o) ++ map fst cs) -> NoDup (map fst (x_y o) ++ map fst cs) ->
  boot_loop coll bm cs o tx ty =
  ({| x_bs := x_bs o;
      x_x := x_x o ++ map (fun c => (fst c, kmol_of coll bm c)) cs;
      x_y := x_y o ++ map (fun c => (fst c, kg_of coll bm c)) cs;
      x_mw := x_mw o + sum_over (fun c => mw_in coll (fst c) * kmol_of coll bm c) cs;
      x_pref := x_pref o + sum_over (fun c => ln (d_pref (Dof coll (fst c))) * kmol_of coll bm c) cs;
      x_lo := low_of coll cs (x_lo o); x_hi := high_of coll cs (x_hi o); x_smix := x_smix o |},
   Ok (tx + sum_over (kmol_of coll bm) cs, ty + sum_over (kg_of coll bm) cs)).
Proof.
  induction cs as [|[ss q] cs IH]; intros o tx ty Hl Hx Hy.
  - cbn. rewrite !app_nil_r, !Rplus_0_r. destruct o; reflexivity.
  - destruct (Hl ss q (or_introl eq_refl)) as (D & HD & Hm).
    destruct (loaded_facts _ _ _ HD) as (Hc & HDof & Hmw & _).
    assert (forall (l : list (string * R)), NoDup (map fst l ++ ss :: map fst cs) -> ~ In ss (map fst l)) as Hnew.
    { intros l H Hin. apply NoDup_remove_2 in H. apply H. apply in_or_app. now left. }
    assert (forall (l : list (string * R)) v, NoDup (map fst l ++ ss :: map fst cs) ->
              NoDup (map fst (l ++ [(ss, v)]) ++ map fst cs)) as Hnd.
    { intros l v H. rewrite map_app, <- app_assoc. exact H. }
    cbn [boot_loop]. rewrite Hc. unfold add_spec.
    destruct (Req_EM_T (d_mw D) 0) as [|_]; [lra|]. rewrite Bool.andb_false_r.
    cbn [map fst] in Hx, Hy.
    rewrite IH; cbn [x_x x_y x_mw x_pref x_lo x_hi x_smix x_bs].
    2:{ intros; eapply Hl; right; eassumption. }
    2:{ rewrite dset_new by auto. apply Hnd. exact Hx. }
    2:{ rewrite dset_new by auto. apply Hnd. exact Hy. }
    rewrite !dset_new by auto. cbn [map sum_over fst snd].
    assert (kmol_of coll bm (ss, q) = if bm then q / d_mw D else q) as En
      by (unfold kmol_of; cbn [fst snd]; rewrite Hmw; reflexivity).
    assert (kg_of coll bm (ss, q) = if bm then q else q * d_mw D) as Ew
      by (unfold kg_of; cbn [fst snd]; rewrite Hmw; reflexivity).
    rewrite <- En, <- Ew.
    f_equal.
    + apply mixobj_eq; cbn [x_x x_y x_mw x_pref x_lo x_hi x_smix x_bs]; auto.
      * rewrite <- app_assoc. reflexivity.
      * rewrite <- app_assoc. reflexivity.
      * rewrite Hmw. ring.
      * rewrite HDof. ring.
      * unfold low_of. cbn [fold_left].
        replace (tlo coll (ss, q)) with (nth 0 (d_Tlim D) 0) by (unfold tlo; cbn [fst]; now rewrite HDof). reflexivity.
      * unfold high_of. cbn [fold_left].
        replace (thi coll (ss, q)) with (last (d_Tlim D) 0) by (unfold thi; cbn [fst]; now rewrite HDof). reflexivity.
    + f_equal. f_equal; ring.
Qed.

Lemma low_acc coll cs : forall a, exists lo, low_of coll cs (Some a) = Some lo /\ a <= lo /\
  (forall c, In c cs -> tlo coll c <= lo) /\ (lo = a \/ exists c, In c cs /\ lo = tlo coll c).
Proof.
  induction cs as [|c cs IH]; intro a; cbn [low_of fold_left].
  - exists a. repeat split; auto; try lra. intros ? [].
  - change (fold_left _ cs ?x) with (low_of coll cs x). cbn [omax].
    destruct (IH (Rmax (tlo coll c) a)) as (lo & E & H1 & H2 & H3). exists lo.
    pose proof (Rmax_l (tlo coll c) a). pose proof (Rmax_r (tlo coll c) a).
    split; [exact E|]. split; [lra|]. split.
    + intros c' [<-|Hc]; [lra|auto].
    + destruct H3 as [->|(c' & Hc & ->)]; [|right; exists c'; split; [now right|reflexivity]].
      unfold Rmax. destruct (Rle_dec (tlo coll c) a); [now left|right; exists c; split; [now left|reflexivity]].
Qed.
Lemma high_acc coll cs : forall a, exists hi, high_of coll cs (Some a) = Some hi /\ hi <= a /\
  (forall c, In c cs -> hi <= thi coll c) /\ (hi = a \/ exists c, In c cs /\ hi = thi coll c).
Proof.
  induction cs as [|c cs IH]; intro a; cbn [high_of fold_left].
  - exists a. repeat split; auto; try lra. intros ? [].
  - change (fold_left _ cs ?x) with (high_of coll cs x). cbn [omin].
    destruct (IH (Rmin (thi coll c) a)) as (hi & E & H1 & H2 & H3). exists hi.
    pose proof (Rmin_l (thi coll c) a). pose proof (Rmin_r (thi coll c) a).
    split; [exact E|]. split; [lra|]. split.
    + intros c' [<-|Hc]; [lra|auto].
    + destruct H3 as [->|(c' & Hc & ->)]; [|right; exists c'; split; [now right|reflexivity]].
      unfold Rmin. destruct (Rle_dec (thi coll c) a); [right; exists c; split; [now left|reflexivity]|now left].
Qed.
Lemma low_nonempty coll cs : cs <> [] -> exists lo, low_of coll cs None = Some lo /\
  (forall c, In c cs -> tlo coll c <= lo) /\ exists c, In c cs /\ lo = tlo coll c.
Proof.
  destruct cs as [|c cs]; [contradiction|]. intros _. unfold low_of; cbn [fold_left omax].
  destruct (low_acc coll cs (tlo coll c)) as (lo & E & H1 & H2 & H3). exists lo. split; [exact E|].
  split; [intros c' [<-|Hc]; auto|]. destruct H3 as [->|(c' & Hc & ->)]; [exists c|exists c']; cbn; auto.
Qed.
Lemma high_nonempty coll cs : cs <> [] -> exists hi, high_of coll cs None = Some hi /\
  (forall c, In c cs -> hi <= thi coll c) /\ exists c, In c cs /\ hi = thi coll c.
Proof.
  destruct cs as [|c cs]; [contradiction|]. intros _. unfold high_of; cbn [fold_left omin].
  destruct (high_acc coll cs (thi coll c)) as (hi & E & H1 & H2 & H3). exists hi. split; [exact E|].
  split; [intros c' [<-|Hc]; auto|]. destruct H3 as [->|(c' & Hc & ->)]; [exists c|exists c']; cbn; auto.
Qed.

(* ---- the bootstrapped mixture ---- *)
Section Mix.
  Variables (coll : collection) (m : mixdata).
  Hypothesis H : usable_mixture coll m.
  Let cs := m_contents m.
  Let bm := m_bymass m.
  Definition Nk := sum_over (kmol_of coll (m_bymass m)) (m_contents m).
  Definition Wk := sum_over (kg_of coll (m_bymass m)) (m_contents m).
  Definition Xs := map (fun c => (fst c, kmol_of coll (m_bymass m) c / Nk)) (m_contents m).
  Definition Ys := map (fun c => (fst c, kg_of coll (m_bymass m) c / Wk)) (m_contents m).
  Definition MW := sum_over (fun c => mw_in coll (fst c) * kmol_of coll (m_bymass m) c) (m_contents m) / Nk.
  Definition PR := exp (sum_over (fun c => ln (d_pref (Dof coll (fst c))) * kmol_of coll (m_bymass m) c)
                          (m_contents m) / Nk).
  Definition mix_state : mixobj :=
    {| x_bs := true; x_x := Xs; x_y := Ys; x_mw := MW; x_pref := PR;
       x_lo := low_of coll (m_contents m) None; x_hi := high_of coll (m_contents m) None;
       x_smix := Some (mixing_entropy Xs) |}.

  Lemma mem c : In c cs -> exists D, loaded coll (fst c) D /\ good_species D /\ Dof coll (fst c) = D /\
    mw_in coll (fst c) = d_mw D /\ 0 < d_mw D /\ 0 < snd c.
  Proof.
    intro Hc. destruct H as (_ & _ & HH & _). destruct c as [ss q]. destruct (HH ss q Hc) as (Hq & D & HL & HG).
    destruct (loaded_facts _ _ _ HL) as (_ & HD & Hm & _). exists D. cbn [fst snd].
    repeat split; auto; try apply HG.
  Qed.
  Lemma kmol_pos c : In c cs -> 0 < kmol_of coll bm c.
  Proof.
    intro Hc. destruct (mem _ Hc) as (D & _ & _ & _ & Hm & Hp & Hq). unfold kmol_of. rewrite Hm.
    destruct bm; [apply Rdiv_lt_0_compat; assumption|assumption].
  Qed.
  Lemma kg_pos c : In c cs -> 0 < kg_of coll bm c.
  Proof.
    intro Hc. destruct (mem _ Hc) as (D & _ & _ & _ & Hm & Hp & Hq). unfold kg_of. rewrite Hm.
    destruct bm; [assumption|apply Rmult_lt_0_compat; assumption].
  Qed.
  Lemma kg_kmol c : In c cs -> kg_of coll bm c = kmol_of coll bm c * mw_in coll (fst c).
  Proof.
    intro Hc. destruct (mem _ Hc) as (D & _ & _ & _ & Hm & Hp & Hq). unfold kg_of, kmol_of. rewrite Hm.
    destruct bm; [field; lra|reflexivity].
  Qed.
  Lemma cs_ne : cs <> []. Proof. apply H. Qed.
  Lemma Nk_pos : 0 < Nk. Proof. apply sum_pos; [apply cs_ne|apply kmol_pos]. Qed.
  Lemma Wk_pos : 0 < Wk. Proof. apply sum_pos; [apply cs_ne|apply kg_pos]. Qed.

  Lemma bootstrap_ok : bootstrap coll m fresh = (mix_state, Ok tt).
  Proof.
    unfold bootstrap. cbn [fresh x_bs x_smix].
    rewrite boot_loop_ok; cbn [x_x x_y x_mw x_pref x_lo x_hi x_smix x_bs app map].
    2:{ intros ss q Hc. destruct (mem _ Hc) as (D & HL & _ & _ & _ & Hp & _). exists D. auto. }
    2:{ apply H. } 2:{ apply H. }
    rewrite !Rplus_0_l. fold Nk Wk. pose proof Nk_pos. pose proof Wk_pos.
    destruct (Req_EM_T Nk 0); [lra|]. destruct (Req_EM_T Wk 0); [lra|].
    rewrite !map_map. cbn [fst snd]. reflexivity.
  Qed.

  Lemma X_sum : sum_over snd Xs = 1.
  Proof.
    unfold Xs. rewrite sum_map. cbn [snd]. pose proof Nk_pos.
    rewrite (sum_ext _ (fun c => / Nk * kmol_of coll (m_bymass m) c)) by (intros; unfold Rdiv; ring).
    rewrite sum_scal. fold Nk. field. lra.
  Qed.
  Lemma Y_sum : sum_over snd Ys = 1.
  Proof.
    unfold Ys. rewrite sum_map. cbn [snd]. pose proof Wk_pos.
    rewrite (sum_ext _ (fun c => / Wk * kg_of coll (m_bymass m) c)) by (intros; unfold Rdiv; ring).
    rewrite sum_scal. fold Wk. field. lra.
  Qed.
  Lemma X_in p : In p Xs -> exists c, In c cs /\ p = (fst c, kmol_of coll bm c / Nk) /\ 0 < snd p <= 1.
  Proof.
    intro Hp. apply in_map_iff in Hp. destruct Hp as (c & <- & Hc). exists c. split; [exact Hc|].
    split; [reflexivity|]. cbn [snd]. pose proof Nk_pos. pose proof (kmol_pos _ Hc).
    split; [apply Rdiv_lt_0_compat; assumption|].
    apply (Rmult_le_reg_r Nk); [assumption|]. unfold Rdiv. rewrite Rmult_assoc, Rinv_l by lra.
    rewrite Rmult_1_r, Rmult_1_l. apply sum_member; [exact Hc|]. apply kmol_pos.
  Qed.
  Lemma Y_in p : In p Ys -> exists c, In c cs /\ p = (fst c, kg_of coll bm c / Wk) /\ 0 < snd p <= 1.
  Proof.
    intro Hp. apply in_map_iff in Hp. destruct Hp as (c & <- & Hc). exists c. split; [exact Hc|].
    split; [reflexivity|]. cbn [snd]. pose proof Wk_pos. pose proof (kg_pos _ Hc).
    split; [apply Rdiv_lt_0_compat; assumption|].
    apply (Rmult_le_reg_r Wk); [assumption|]. unfold Rdiv. rewrite Rmult_assoc, Rinv_l by lra.
    rewrite Rmult_1_r, Rmult_1_l. apply sum_member; [exact Hc|]. apply kg_pos.
  Qed.
  Lemma Wk_MW : Wk = MW * Nk.
  Proof.
    unfold MW. pose proof Nk_pos. unfold Wk.
    rewrite (sum_ext _ (fun c => mw_in coll (fst c) * kmol_of coll (m_bymass m) c)).
    - field. lra.
    - intros c Hc. pose proof (kg_kmol c Hc) as K. unfold bm in K. rewrite K. ring.
  Qed.
  Lemma MW_pos : 0 < MW.
  Proof. pose proof Nk_pos. pose proof Wk_pos. rewrite Wk_MW in *. apply (Rmult_lt_reg_r Nk); [assumption|]. lra. Qed.
  Lemma MW_mean : MW = sum_over (fun p => snd p * mw_in coll (fst p)) Xs.
  Proof.
    unfold Xs. rewrite sum_map. cbn [fst snd]. unfold MW, Rdiv. rewrite Rmult_comm, <- sum_scal.
    apply sum_ext. intros. ring.
  Qed.
  Lemma ln_PR : ln PR = sum_over (fun p => snd p * ln (d_pref (Dof coll (fst p)))) Xs.
  Proof.
    unfold PR. rewrite ln_exp. unfold Xs. rewrite sum_map. cbn [fst snd]. unfold Rdiv. rewrite Rmult_comm, <- sum_scal.
    apply sum_ext. intros. ring.
  Qed.

  (* entropy of mixing *)
  Definition SM := - const_Ru * sum_over (fun p => snd p * ln (snd p)) Xs.
  Lemma mixing_val : mixing_entropy Xs = Some SM.
  Proof.
    unfold mixing_entropy.
    assert (forall l a, (forall p, In p l -> 0 < snd p) ->
      fold_left (fun acc (p : string * R) => fsub acc (fmul (Some (snd p)) (flog (Some (snd p))))) l (Some a)
      = Some (a - sum_over (fun p => snd p * ln (snd p)) l)) as K.
    { induction l as [|p l IH]; intros a Hl; cbn [fold_left sum_over]; [f_equal; ring|].
      pose proof (Hl p (or_introl eq_refl)). unfold flog at 2. destruct (Rlt_dec 0 (snd p)); [|contradiction].
      cbn [fmul fsub lift2]. rewrite IH by (intros; apply Hl; now right). f_equal. ring. }
    rewrite K. { cbn [fmul lift2]. f_equal. unfold SM. ring. }
    intros p Hp. destruct (X_in p Hp) as (_ & _ & _ & Hq & _). exact Hq.
  Qed.
  Lemma SM_nonneg : 0 <= SM.
  Proof.
    unfold SM. pose proof Ru_pos.
    replace (- const_Ru * sum_over (fun p : string * R => snd p * ln (snd p)) Xs)
      with (const_Ru * sum_over (fun p : string * R => - (snd p * ln (snd p))) Xs).
    - apply Rmult_le_pos; [lra|]. apply sum_nonneg. intros p Hp.
      destruct (X_in p Hp) as (_ & _ & _ & Hq & Hq1).
      assert (ln (snd p) <= 0). { destruct Hq1 as [Hq1| ->]; [|rewrite ln_1; lra]. apply Rlt_le. rewrite <- ln_1. apply ln_increasing; assumption. }
      replace (- (snd p * ln (snd p))) with (snd p * - ln (snd p)) by ring.
      apply Rmult_le_pos; lra.
    - replace (sum_over (fun p : string * R => - (snd p * ln (snd p))) Xs)
        with ((-1) * sum_over (fun p : string * R => snd p * ln (snd p)) Xs); [ring|].
      rewrite <- sum_scal. apply sum_ext. intros. ring.
  Qed.

  (* limits *)
  Definition G := mix_gas None coll mix_state.
  Lemma limits : exists lo hi, g_Tlim G = [lo; hi] /\ x_lo mix_state = Some lo /\ x_hi mix_state = Some hi /\
    0 < lo /\ lo <= hi /\
    (forall ss q D, In (ss, q) cs -> loaded coll ss D -> nth 0 (d_Tlim D) 0 <= lo /\ hi <= last (d_Tlim D) 0) /\
    (exists ss q D, In (ss, q) cs /\ loaded coll ss D /\ lo = nth 0 (d_Tlim D) 0) /\
    (exists ss q D, In (ss, q) cs /\ loaded coll ss D /\ hi = last (d_Tlim D) 0).
  Proof.
    destruct (low_nonempty coll cs cs_ne) as (lo & El & Hl & cl & Hcl & Ecl).
    destruct (high_nonempty coll cs cs_ne) as (hi & Eh & Hh & ch & Hch & Ech).
    exists lo, hi. unfold G, mix_gas. cbn [g_Tlim mix_state x_lo x_hi]. fold cs. rewrite El, Eh.
    destruct (mem _ Hcl) as (Dl & HLl & HGl & EDl & _). destruct (mem _ Hch) as (Dh & HLh & HGh & EDh & _).
    unfold tlo in Ecl. unfold thi in Ech. rewrite EDl in Ecl. rewrite EDh in Ech.
    split; [reflexivity|]. split; [reflexivity|]. split; [reflexivity|].
    split; [subst lo; apply HGl|]. split.
    { destruct H as (_ & _ & _ & t & Ht). destruct cl as [sl ql], ch as [sh qh].
      pose proof (Ht sl ql Dl Hcl HLl). pose proof (Ht sh qh Dh Hch HLh). lra. }
    split.
    { intros ss q D Hc HL. pose proof (Hl _ Hc) as K1. pose proof (Hh _ Hc) as K2.
      destruct (loaded_facts _ _ _ HL) as (_ & ED & _). unfold tlo in K1. unfold thi in K2. cbn [fst] in K1, K2.
      rewrite ED in K1, K2. auto. }
    split; [destruct cl as [sl ql]; exists sl, ql, Dl|destruct ch as [sh qh]; exists sh, qh, Dh]; auto.
  Qed.

  (* weighted sums *)
  Lemma weighted_val (f : gas -> fl) (v : string -> R) :
    (forall ss q, In (ss, q) cs -> f (member_gas None coll ss) = Some (v ss)) ->
    weighted None coll Xs f = Some (sum_over (fun p => snd p * v (fst p)) Xs).
  Proof.
    intro Hf. unfold weighted.
    assert (forall l a, (forall p, In p l -> f (member_gas None coll (fst p)) = Some (v (fst p))) ->
      fold_left (fun out p => fadd out (fmul (Some (snd p)) (f (member_gas None coll (fst p))))) l (Some a)
      = Some (a + sum_over (fun p => snd p * v (fst p)) l)) as K.
    { induction l as [|p l IH]; intros a Hl; cbn [fold_left sum_over]; [f_equal; ring|].
      rewrite (Hl p (or_introl eq_refl)). cbn [fmul fadd lift2].
      rewrite IH by (intros; apply Hl; now right). f_equal. ring. }
    rewrite K; [f_equal; ring|]. intros p Hp. apply in_map_iff in Hp. destruct Hp as ([ss q] & <- & Hc). cbn [fst].
    eapply Hf; exact Hc.
  Qed.
  Lemma weighted_none (f : gas -> fl) :
    (exists ss q, In (ss, q) cs /\ f (member_gas None coll ss) = None) ->
    weighted None coll Xs f = None.
  Proof.
    intros (ss & q & Hc & Hf). unfold weighted.
    assert (forall l a, (a = None \/ exists p, In p l /\ f (member_gas None coll (fst p)) = None) ->
      fold_left (fun out p => fadd out (fmul (Some (snd p)) (f (member_gas None coll (fst p))))) l a = None) as K.
    { induction l as [|p l IH]; intros a Hl; cbn [fold_left].
      - destruct Hl as [->|(p & [] & _)]. reflexivity.
      - apply IH. destruct Hl as [->|(p' & [->|Hp] & E)]; [left; reflexivity| |right; eauto].
        left. rewrite E. destruct a; reflexivity. }
    apply K. right. exists (ss, kmol_of coll (m_bymass m) (ss, q) / Nk). split; [|exact Hf].
    apply in_map_iff. exists (ss, q). auto.
  Qed.

  (* values of the constituents at a temperature in the common range *)
  Lemma member_values t : Tlow G <= t <= Thigh G -> forall ss q, In (ss, q) cs ->
    exists cp h s, values_at (member_gas None coll ss) t cp h s.
  Proof.
    intros Ht ss q Hc. destruct limits as (lo & hi & EG & _ & _ & Hlo & _ & Hl & _).
    unfold Tlow, Thigh in Ht. rewrite EG in Ht. cbn in Ht.
    destruct (mem _ Hc) as (D & HL & HG & _). cbn [fst] in HL.
    pose proof (Hl _ _ _ Hc HL) as (K1 & K2).
    destruct HG as (HD & H0 & _).
    destruct (interval_exists (d_Tlim D) t (proj1 HD)) as [i Hi]; [lra|].
    assert (0 < t) by lra.
    destruct (loaded_facts _ _ _ HL) as (_ & _ & _ & [-> | ->]); do 3 eexists; [eapply ig_values|eapply ig2_values]; eassumption.
  Qed.

  Record members_at (t : R) (cp h s : string -> R) : Prop := {
    ma : forall ss q, In (ss, q) cs -> values_at (member_gas None coll ss) t (cp ss) (h ss) (s ss) }.
  Lemma members_exist t : Tlow G <= t <= Thigh G -> exists cp h s, members_at t cp h s.
  Proof.
    intro Ht.
    exists (fun ss => value (g_cp (member_gas None coll ss) (Some t))),
           (fun ss => value (fst (g_h (member_gas None coll ss) (Some t)))),
           (fun ss => value (fst (g_s (member_gas None coll ss) (Some t)))).
    constructor. intros ss q Hc. destruct (member_values t Ht ss q Hc) as (cp & h & s & V).
    destruct V as [V1 V2 V3 V4 V5 V6]. rewrite V1, V2, V3. cbn [fst value]. constructor; assumption.
  Qed.

  Definition wsum (v : string -> R) := sum_over (fun p => snd p * v (fst p)) Xs.
  Lemma wsum_ext u v : (forall ss q, In (ss, q) cs -> u ss = v ss) -> wsum u = wsum v.
  Proof.
    intro E. apply sum_ext. intros p Hp. apply in_map_iff in Hp. destruct Hp as ([ss q] & <- & Hc). cbn [fst snd].
    rewrite (E _ _ Hc). reflexivity.
  Qed.
  Lemma wsum_lin a u b v : wsum (fun ss => a * u ss + b * v ss) = a * wsum u + b * wsum v.
  Proof.
    unfold wsum. rewrite <- !sum_scal, <- sum_plus. apply sum_ext. intros. ring.
  Qed.
  Lemma wsum_const k : wsum (fun _ => k) = k.
  Proof.
    unfold wsum. rewrite (sum_ext _ (fun p => k * snd p)) by (intros; ring). rewrite sum_scal, X_sum. ring.
  Qed.

  Lemma mix_values t cp h s : members_at t cp h s -> 0 < t ->
    g_cp G (Some t) = Some (wsum cp) /\
    g_h G (Some t) = (Some (wsum h), Some (wsum cp)) /\
    g_s G (Some t) = (Some (wsum s + SM), Some (wsum cp / t)) /\
    g_g G (Some t) = (Some (wsum h - t * (wsum s + SM)), Some (- wsum s)) /\
    g_e G (Some t) = (Some (wsum h - gas_constant * t), Some (wsum cp - gas_constant)) /\
    g_f G (Some t) = (Some ((wsum h - gas_constant * t) - t * (wsum s + SM)), Some (- wsum s - gas_constant)) /\
    mix_f None coll mix_state (Some t) = g_f G (Some t).
  Proof.
    intros [M] Ht.
    assert (const_Ru = gas_constant) as HRu
      by (unfold const_Ru, gas_constant, const_k, const_Na, boltzmann, avogadro; reflexivity || (unfold p10; cbn; field)).
    assert (g_cp G (Some t) = Some (wsum cp)) as A1.
    { apply (weighted_val (fun g => g_cp g (Some t)) cp). intros ss q Hc. apply (M _ _ Hc). }
    assert (g_h G (Some t) = (Some (wsum h), Some (wsum cp))) as A2.
    { unfold G, mix_gas. cbn [g_h x_x mix_state]. f_equal.
      - apply (weighted_val (fun g => fst (g_h g (Some t))) h). intros ss q Hc. now rewrite (va_h _ _ _ _ _ (M _ _ Hc)).
      - apply (weighted_val (fun g => snd (g_h g (Some t))) cp). intros ss q Hc. now rewrite (va_h _ _ _ _ _ (M _ _ Hc)). }
    assert (g_s G (Some t) = (Some (wsum s + SM), Some (wsum cp / t))) as A3.
    { unfold G, mix_gas. cbn [g_s x_x mix_state]. unfold smix_of. cbn [x_smix mix_state]. rewrite mixing_val. f_equal.
      - rewrite (weighted_val (fun g => fst (g_s g (Some t))) s); [reflexivity|].
        intros ss q Hc. now rewrite (va_s _ _ _ _ _ (M _ _ Hc)).
      - rewrite (weighted_val (fun g => snd (g_s g (Some t))) (fun ss => cp ss / t)).
        + f_equal. change (wsum (fun ss => cp ss / t) = wsum cp / t).
          rewrite (wsum_ext _ (fun ss => / t * cp ss + 0 * cp ss)) by (intros; unfold Rdiv; ring).
          rewrite wsum_lin. unfold Rdiv. ring.
        + intros ss q Hc. now rewrite (va_s _ _ _ _ _ (M _ _ Hc)). }
    assert (g_g G (Some t) = (Some (wsum h - t * (wsum s + SM)), Some (- wsum s))) as A4.
    { unfold G, mix_gas. cbn [g_g x_x mix_state]. unfold smix_of. cbn [x_smix mix_state]. rewrite mixing_val. f_equal.
      - rewrite (weighted_val (fun g => fst (g_g g (Some t))) (fun ss => h ss - t * s ss)).
        + cbn [fsub fmul lift2]. f_equal. change (sum_over _ Xs) with (wsum (fun ss => h ss - t * s ss)).
          rewrite (wsum_ext _ (fun ss => 1 * h ss + (- t) * s ss)) by (intros; ring).
          rewrite wsum_lin. ring.
        + intros ss q Hc. now rewrite (va_g _ _ _ _ _ (M _ _ Hc)).
      - rewrite (weighted_val (fun g => snd (g_g g (Some t))) (fun ss => - s ss)).
        + f_equal. change (wsum (fun ss => - s ss) = - wsum s).
          rewrite (wsum_ext _ (fun ss => (-1) * s ss + 0 * s ss)) by (intros; ring). rewrite wsum_lin. ring.
        + intros ss q Hc. now rewrite (va_g _ _ _ _ _ (M _ _ Hc)). }
    split; [exact A1|]. split; [exact A2|]. split; [exact A3|]. split; [exact A4|].
    split. { unfold g_e. rewrite A2. rewrite HRu. reflexivity. }
    assert (g_f G (Some t) = (Some ((wsum h - gas_constant * t) - t * (wsum s + SM)), Some (- wsum s - gas_constant))) as A6.
    { unfold g_f. rewrite A4, HRu. cbn [fsub fmul lift2]. f_equal. f_equal. ring. }
    split; [exact A6|]. rewrite A6.
    unfold mix_f. cbn [x_x mix_state]. unfold smix_of. cbn [x_smix mix_state]. rewrite mixing_val. f_equal.
    - rewrite (weighted_val (fun g => fst (g_f g (Some t))) (fun ss => (h ss - gas_constant * t) - t * s ss)).
      + cbn [fsub fmul lift2]. f_equal. change (sum_over _ Xs) with (wsum (fun ss => h ss - gas_constant * t - t * s ss)).
        rewrite (wsum_ext _ (fun ss => 1 * (1 * h ss + (- (gas_constant * t)) * 1) + (- t) * s ss)) by (intros; ring).
        rewrite (wsum_lin 1 (fun ss => 1 * h ss + (- (gas_constant * t)) * 1) (- t) s).
        rewrite (wsum_lin 1 h (- (gas_constant * t)) (fun _ => 1)), wsum_const. ring.
      + intros ss q Hc. now rewrite (va_f _ _ _ _ _ (M _ _ Hc)).
    - rewrite (weighted_val (fun g => snd (g_f g (Some t))) (fun ss => - s ss - gas_constant)).
      + f_equal. change (wsum (fun ss => - s ss - gas_constant) = - wsum s - gas_constant).
        rewrite (wsum_ext _ (fun ss => (-1) * s ss + (- gas_constant) * 1)) by (intros; ring).
        rewrite (wsum_lin (-1) s (- gas_constant) (fun _ => 1)), wsum_const. ring.
      + intros ss q Hc. now rewrite (va_f _ _ _ _ _ (M _ _ Hc)).
  Qed.

  (* nan in, nan out *)
  Lemma mix_s_none : fst (g_s G None) = None.
  Proof.
    unfold G, mix_gas. cbn [g_s x_x mix_state fst]. rewrite weighted_none; [reflexivity|].
    assert (exists ss q, In (ss, q) cs) as (ss & q & Hc).
    { pose proof cs_ne as K. destruct cs as [|[ss q] l]; [contradiction|]. exists ss, q. now left. }
    exists ss, q. split; [exact Hc|]. destruct (mem (ss, q) Hc) as (D & HL & _).
    destruct (loaded_facts _ _ _ HL) as (_ & _ & _ & [K|K]); cbn [fst] in K; rewrite K; cbn [ig_gas ig2_gas g_s fst];
      rewrite piecewise_nan; reflexivity.
  Qed.
  Lemma mix_s_out t : t < Tlow G \/ Thigh G < t -> fst (g_s G (Some t)) = None.
  Proof.
    intro Ht. destruct limits as (lo & hi & EG & _ & _ & _ & _ & _ & (s1 & q1 & D1 & Hc1 & HL1 & E1) & (s2 & q2 & D2 & Hc2 & HL2 & E2)).
    unfold Tlow, Thigh in Ht. rewrite EG in Ht. cbn in Ht.
    assert (exists ss q D, In (ss, q) cs /\ loaded coll ss D /\ (t < nth 0 (d_Tlim D) 0 \/ last (d_Tlim D) 0 < t))
      as (ss & q & D & Hc & HL & Ho).
    { destruct Ht as [Ht|Ht]; [exists s1, q1, D1|exists s2, q2, D2]; (split; [assumption|]); (split; [assumption|]);
        [left|right]; lra. }
    unfold G, mix_gas. cbn [g_s x_x mix_state fst]. rewrite weighted_none; [reflexivity|].
    exists ss, q. split; [exact Hc|]. destruct (mem _ Hc) as (D' & HL' & (HD & _) & _). cbn [fst] in HL'.
    rewrite (loaded_unique _ _ _ _ HL' HL) in HD. destruct HD as (HD & _).
    destruct (loaded_facts _ _ _ HL) as (_ & _ & _ & [-> | ->]); cbn [ig_gas ig2_gas g_s fst];
      rewrite piecewise_out by assumption; reflexivity.
  Qed.
  Lemma G_low : 0 < Tlow G /\ 0 < g_pref G /\ Tlow G <= Thigh G /\ 0 < g_mw G.
  Proof.
    destruct limits as (lo & hi & EG & _ & _ & Hlo & Hlh & _).
    unfold Tlow, Thigh. rewrite EG. cbn. repeat split; try lra; [apply exp_pos|apply MW_pos].
  Qed.
End Mix.

(* Proofs about the Newton iteration _iter1 (ig.py 319-413). *)
From Coq Require Import Reals List String Lia Lra Arith.
From Verif Require Import Base Model_Num Model_Igas Proof_Units Spec_Igas.
Import ListNotations.
Local Open Scope R_scope.

Section Iter.
  Variables (ep lo hi : R).

  Definition inside (x : fl) : Prop := match x with Some r => lo <= r <= hi | None => True end.

  Lemma outside_false c : outside lo hi c = false <-> inside (c_x c).
  Proof.
    unfold outside, inside, flt. destruct (c_x c) as [x|]; [|tauto].
    destruct (Rlt_dec x lo), (Rlt_dec hi x); cbn; split; intros; try discriminate; try lra; auto.
  Qed.

  Lemma outside_dec c : outside lo hi c = true \/ outside lo hi c = false.
  Proof. destruct (outside lo hi c); auto. Qed.

  Lemma existsb_false {A} (f : A -> bool) l : existsb f l = false <-> Forall (fun x => f x = false) l.
  Proof.
    induction l as [|a l IH]; cbn; [split; auto|].
    rewrite Bool.orb_false_iff, IH. split; [intros []; now constructor|intro H; inversion H; auto].
  Qed.

  Lemma halve_inside c : outside lo hi c = false -> halve lo hi c = c.
  Proof. intro H. unfold halve. now rewrite H. Qed.

  Lemma oob_unfold n cs : oob_loop lo hi n cs =
    if existsb (outside lo hi) cs then
      match n with O => Err PMAnalysisError | S m => oob_loop lo hi m (map (halve lo hi) cs) end
    else Ok cs.
  Proof. destruct n; reflexivity. Qed.

  Lemma iter_unfold N left cs : iter_loop ep lo hi N left cs =
    if existsb c_on cs then
      do cs1 <- oob_loop lo hi N (map newton cs);
      match left with
      | O => Ok (map (check ep) cs1, true)
      | S left' => iter_loop ep lo hi N left' (map (check ep) cs1)
      end
    else Ok (cs, false).
  Proof. destruct left; reflexivity. Qed.

  Definition solo (f : list cell -> res (list cell)) (c c' : cell) : Prop := f [c] = Ok [c'].

  Lemma oob_loop_inside n cs : Forall (fun c => outside lo hi c = false) cs ->
    oob_loop lo hi n cs = Ok cs.
  Proof. intro H. apply existsb_false in H. destruct n; cbn; now rewrite H. Qed.

  Lemma oob_solo n c c' : oob_loop lo hi n [c] = Ok [c'] ->
    (outside lo hi c = false /\ c' = c) \/
    (outside lo hi c = true /\ exists m, n = S m /\ oob_loop lo hi m [halve lo hi c] = Ok [c']).
  Proof.
    intro H. destruct n as [|m]; cbn [oob_loop existsb] in H; rewrite Bool.orb_false_r in H;
      destruct (outside lo hi c) eqn:E; try discriminate.
    - left. injection H as <-. auto.
    - right. split; auto. exists m. split; [reflexivity|exact H].
    - left. injection H as <-. auto.
  Qed.

  Lemma oob_pointwise n : forall cs cs',
    oob_loop lo hi n cs = Ok cs' <-> Forall2 (solo (oob_loop lo hi n)) cs cs'.
  Proof.
    induction n as [|n IH]; intros cs cs'.
    - rewrite oob_unfold. destruct (existsb (outside lo hi) cs) eqn:E.
      + split; [discriminate|]. intro H. exfalso. apply existsb_exists in E.
        destruct E as (c & Hin & Hc).
        assert (exists c', solo (oob_loop lo hi 0) c c') as [c' Hs].
        { clear Hc. induction H as [|a b l m Ha Hl IHl]; [destruct Hin|].
          destruct Hin as [->|Hin]; [now exists b|auto]. }
        apply oob_solo in Hs. destruct Hs as [[Hs _]|[_ (m & Hm & _)]]; congruence.
      + split.
        * intro H. injection H as <-. apply existsb_false in E.
          induction E as [|c l Hc Hl IHl]; constructor; auto.
          unfold solo. apply oob_loop_inside. now constructor.
        * intro H. f_equal. apply existsb_false in E.
          induction H as [|a b l m Ha Hl IHl]; [reflexivity|].
          inversion E; subst. f_equal; [|auto].
          apply oob_solo in Ha. destruct Ha as [[_ ->]|[Hc _]]; [reflexivity|congruence].
    - rewrite oob_unfold. destruct (existsb (outside lo hi) cs) eqn:E.
      + rewrite IH. clear E. split.
        * intro H. remember (map (halve lo hi) cs) as hs eqn:Hh. revert cs Hh.
          induction H as [|a b l m Ha Hl IHl]; intros [|c cs] Hh; try discriminate; constructor.
          -- injection Hh as -> ->. unfold solo in *. rewrite oob_unfold. cbn [existsb].
             rewrite Bool.orb_false_r.
             destruct (outside lo hi c) eqn:Ec; [exact Ha|].
             rewrite (halve_inside c Ec) in Ha.
             apply oob_solo in Ha. destruct Ha as [[_ ->]|[Hc _]]; [reflexivity|congruence].
          -- injection Hh as -> ->. now apply IHl.
        * intro H. induction H as [|c b l m Ha Hl IHl]; cbn [map]; constructor; auto.
          apply oob_solo in Ha. destruct Ha as [[Hc ->]|[Hc (k & Hk & Ha)]].
          -- unfold solo. rewrite (halve_inside c Hc). apply oob_loop_inside. now constructor.
          -- injection Hk as <-. exact Ha.
      + split.
        * intro H. injection H as <-. apply existsb_false in E.
          induction E as [|c l Hc Hl IHl]; constructor; auto.
          unfold solo. apply oob_loop_inside. now constructor.
        * intro H. f_equal. apply existsb_false in E.
          induction H as [|a b l m Ha Hl IHl]; [reflexivity|].
          inversion E; subst. f_equal; [|auto].
          apply oob_solo in Ha. destruct Ha as [[_ ->]|[Hc _]]; [reflexivity|congruence].
  Qed.

  (* after the out-of-bounds loop everything is inside *)
  Lemma oob_result n : forall cs cs', oob_loop lo hi n cs = Ok cs' ->
    Forall (fun c => inside (c_x c)) cs'.
  Proof.
    induction n as [|n IH]; intros cs cs' H; cbn [oob_loop] in H;
      destruct (existsb (outside lo hi) cs) eqn:E; try discriminate.
    - injection H as <-. apply existsb_false in E. eapply Forall_impl; [|exact E].
      intros c Hc. now apply outside_false.
    - now apply IH in H.
    - injection H as <-. apply existsb_false in E. eapply Forall_impl; [|exact E].
      intros c Hc. now apply outside_false.
  Qed.

  (* the only errors are PMAnalysisError *)
  Lemma oob_err n : forall cs e, oob_loop lo hi n cs = Err e -> e = PMAnalysisError.
  Proof.
    induction n as [|n IH]; intros cs e H; cbn [oob_loop] in H;
      destruct (existsb (outside lo hi) cs) eqn:E; try discriminate; try congruence; eauto.
  Qed.

  (* the loop only changes x and dx, by halving the step *)
  Lemma halve_form c : 
    c_fn (halve lo hi c) = c_fn c /\ c_y (halve lo hi c) = c_y c /\
    c_err (halve lo hi c) = c_err c /\ c_on (halve lo hi c) = c_on c.
  Proof. unfold halve. destruct (outside lo hi c); auto. Qed.

  Lemma oob_fields n : forall c c', oob_loop lo hi n [c] = Ok [c'] ->
    c_fn c' = c_fn c /\ c_y c' = c_y c /\ c_err c' = c_err c /\ c_on c' = c_on c.
  Proof.
    induction n as [|n IH]; intros c c' H; apply oob_solo in H;
      destruct H as [[_ ->]|[_ (m & Hm & H)]]; auto; try discriminate.
    injection Hm as <-. apply IH in H.
    destruct (halve_form c) as (H1 & H2 & H3 & H4). rewrite <- H1, <- H2, <- H3, <- H4. exact H.
  Qed.

  Lemma oob_step n : forall c c' x0 d k, oob_loop lo hi n [c] = Ok [c'] ->
    c_dx c = Some (d / 2 ^ k) -> c_x c = Some (x0 + d / 2 ^ k) ->
    exists k', (k <= k' <= k + n)%nat /\ c_x c' = Some (x0 + d / 2 ^ k').
  Proof.
    induction n as [|n IH]; intros c c' x0 d k H Hdx Hx; apply oob_solo in H;
      destruct H as [[_ ->]|[Hc (m & Hm & H)]]; try discriminate.
    - exists k. split; [lia|exact Hx].
    - exists k. split; [lia|exact Hx].
    - injection Hm as <-.
      assert (2 ^ k <> 0) as Hk by (apply pow_nonzero; lra).
      destruct (IH (halve lo hi c) c' x0 d (S k) H) as (k' & Hk' & Hx').
      + unfold halve. rewrite Hc, Hdx. cbn.
        destruct (Req_EM_T 2 0); [lra|]. f_equal. cbn. field. exact Hk.
      + unfold halve. rewrite Hc, Hx, Hdx. cbn [c_x fdiv].
        destruct (Req_EM_T 2 0); [lra|]. cbn. f_equal. field. exact Hk.
      + exists k'. split; [lia|exact Hx'].
  Qed.

  Lemma oob_nan n c : c_x c = None -> oob_loop lo hi n [c] = Ok [c].
  Proof.
    intro H. apply oob_loop_inside. constructor; [|constructor].
    apply outside_false. now rewrite H.
  Qed.

  (* ---- the main loop, element by element ---- *)
  Definition calm (c : cell) : Prop := c_on c = false -> outside lo hi c = false.

  Lemma check_x c : c_x (check ep c) = c_x c.
  Proof. unfold check. destruct (c_on c); reflexivity. Qed.
  Lemma check_outside c : outside lo hi (check ep c) = outside lo hi c.
  Proof. unfold outside. now rewrite check_x. Qed.

  Definition body (N : nat) (c c2 : cell) : Prop :=
    exists c1, oob_loop lo hi N [newton c] = Ok [c1] /\ c2 = check ep c1.

  Lemma body_off N c c2 : c_on c = false -> calm c -> body N c c2 -> c2 = c.
  Proof.
    intros Hc Hcalm (c1 & H & ->). unfold newton in H. rewrite Hc in H.
    rewrite oob_loop_inside in H by (constructor; auto).
    injection H as <-. unfold check. now rewrite Hc.
  Qed.

  Lemma body_calm N c c2 : body N c c2 -> outside lo hi c2 = false.
  Proof.
    intros (c1 & H & ->). rewrite check_outside. apply outside_false.
    apply oob_result in H. now inversion H.
  Qed.

  Lemma iter_solo_off N left c : c_on c = false -> iter_loop ep lo hi N left [c] = Ok ([c], false).
  Proof. intro H. destruct left; cbn [iter_loop existsb]; rewrite H; reflexivity. Qed.

  Lemma iter_solo_on N left c c' w : c_on c = true ->
    (iter_loop ep lo hi N left [c] = Ok ([c'], w) <->
     exists c2, body N c c2 /\
       match left with O => c' = c2 /\ w = true
                  | S l => iter_loop ep lo hi N l [c2] = Ok ([c'], w) end).
  Proof.
    intro H. destruct left as [|left]; cbn [iter_loop existsb]; rewrite H; cbn [orb map];
    destruct (oob_loop lo hi N [newton c]) as [cs1|e] eqn:E; cbn [bind].
    - assert (exists c1, cs1 = [c1]) as [c1 ->].
      { apply oob_pointwise in E. inversion E as [|? ? ? ? ? E2]; subst. inversion E2; subst. eauto. }
      split.
      + intro K. injection K as <- <-. exists (check ep c1). split; [now exists c1|auto].
      + intros (c2 & (c1' & E' & ->) & -> & ->). rewrite E' in E. injection E as ->. reflexivity.
    - split; [discriminate|]. intros (c2 & (c1' & E' & ->) & _). congruence.
    - assert (exists c1, cs1 = [c1]) as [c1 ->].
      { apply oob_pointwise in E. inversion E as [|? ? ? ? ? E2]; subst. inversion E2; subst. eauto. }
      split.
      + intro K. exists (check ep c1). split; [now exists c1|exact K].
      + intros (c2 & (c1' & E' & ->) & K). rewrite E' in E. injection E as ->. exact K.
    - split; [discriminate|]. intros (c2 & (c1' & E' & ->) & _). congruence.
  Qed.

  Lemma existsb_cases {A} (f : A -> bool) l : existsb f l = true \/ Forall (fun x => f x = false) l.
  Proof. destruct (existsb f l) eqn:E; [now left|right; now apply existsb_false]. Qed.

  Definition solo_iter N left (c : cell) (r : cell * bool) : Prop :=
    iter_loop ep lo hi N left [c] = Ok ([fst r], snd r).

  Lemma bodies N cs cs1 : oob_loop lo hi N (map newton cs) = Ok cs1 ->
    Forall2 (body N) cs (map (check ep) cs1).
  Proof.
    intro H. apply oob_pointwise in H.
    remember (map newton cs) as ns eqn:Hn. revert cs Hn.
    induction H as [|a b l m Ha Hl IHl]; intros [|c cs] Hn; try discriminate; cbn [map]; constructor.
    - injection Hn as -> ->. exists b. split; [exact Ha|reflexivity].
    - injection Hn as -> ->. now apply IHl.
  Qed.

  Lemma bodies_inv N cs cs2 : Forall2 (body N) cs cs2 ->
    exists cs1, oob_loop lo hi N (map newton cs) = Ok cs1 /\ cs2 = map (check ep) cs1.
  Proof.
    intro H.
    assert (exists cs1, Forall2 (solo (oob_loop lo hi N)) (map newton cs) cs1 /\ cs2 = map (check ep) cs1)
      as (cs1 & H1 & H2).
    { induction H as [|a b l m (c1 & Ha & ->) Hl (cs1 & H1 & ->)].
      - exists []. split; [constructor|reflexivity].
      - exists (c1 :: cs1). split; [cbn; constructor; auto|reflexivity]. }
    exists cs1. split; [now apply oob_pointwise|exact H2].
  Qed.

  Lemma iter_pointwise N left : forall cs cs' w, Forall calm cs ->
    (iter_loop ep lo hi N left cs = Ok (cs', w) <->
     exists rs, Forall2 (solo_iter N left) cs rs /\ cs' = map fst rs /\ w = existsb snd rs).
  Proof.
    induction left as [|left IH]; intros cs cs' w Hcalm.
    - destruct (existsb_cases c_on cs) as [Hon|Hoff].
      + rewrite iter_unfold, Hon. split.
        * destruct (oob_loop lo hi N (map newton cs)) as [cs1|] eqn:E; [|discriminate]. cbn [bind].
          intro H. injection H as <- <-. apply bodies in E.
          exists (map2 (fun c c2 => (c2, c_on c)) cs (map (check ep) cs1)).
          assert (forall cs cs2, Forall calm cs -> Forall2 (body N) cs cs2 ->
                    Forall2 (solo_iter N 0) cs (map2 (fun c c2 => (c2, c_on c)) cs cs2) /\
                    cs2 = map fst (map2 (fun c c2 => (c2, c_on c)) cs cs2) /\
                    existsb c_on cs = existsb snd (map2 (fun c c2 => (c2, c_on c)) cs cs2)) as K.
          { clear. intros cs cs2 Hcalm H. induction H as [|c c2 l m Hb Hl IHl].
            - repeat split; constructor.
            - inversion Hcalm; subst. destruct (IHl) as (K1 & K2 & K3); [assumption|].
              unfold map2 in *. cbn [combine map fst snd existsb]. repeat split.
              + constructor; [|exact K1]. unfold solo_iter. cbn [fst snd].
                destruct (c_on c) eqn:Hc.
                * apply iter_solo_on; [exact Hc|]. eauto.
                * rewrite (body_off N c c2 Hc) by assumption. apply iter_solo_off, Hc.
              + f_equal; exact K2.
              + now rewrite K3. }
          destruct (K _ _ Hcalm E) as (K1 & K2 & K3).
          split; [exact K1|]. split; [exact K2|]. now rewrite <- K3.
        * intros (rs & Hrs & -> & ->).
          assert (Forall2 (body N) cs (map fst rs) /\ existsb snd rs = existsb c_on cs) as [K1 K2].
          { clear Hon. induction Hrs as [|c r l m Hr Hl IHl]; [split; [constructor|reflexivity]|].
            inversion Hcalm; subst. destruct IHl as [K1 K2]; [assumption|]. cbn [map existsb].
            unfold solo_iter in Hr. rewrite K2. destruct (c_on c) eqn:Hc.
            - apply iter_solo_on in Hr; [|exact Hc]. destruct Hr as (c2 & Hb & Hf & Hw).
              rewrite Hf, Hw. split; [now constructor|reflexivity].
            - rewrite iter_solo_off in Hr by exact Hc. injection Hr as Hf Hw.
              rewrite <- Hf, <- Hw. split; [|reflexivity]. constructor; [|exact K1].
              exists c. unfold newton, check. rewrite Hc. split; [|reflexivity].
              apply oob_loop_inside. constructor; auto. }
          apply bodies_inv in K1. destruct K1 as (cs1 & E & K1). rewrite E. cbn [bind].
          rewrite <- K1, K2, Hon. reflexivity.
      + assert (Hoff' := Hoff). apply existsb_false in Hoff'. rewrite iter_unfold, Hoff'. split.
        * intro H. injection H as <- <-. exists (map (fun c => (c, false)) cs). repeat split.
          -- clear -Hoff. induction Hoff; cbn; constructor; auto. now apply iter_solo_off.
          -- rewrite map_map. cbn. now rewrite map_id.
          -- clear. induction cs; cbn; auto.
        * intros (rs & Hrs & -> & ->).
          assert (rs = map (fun c => (c, false)) cs) as ->.
          { clear -Hrs Hoff. induction Hrs as [|c r l m Hr Hl IHl]; [reflexivity|].
            inversion Hoff; subst. unfold solo_iter in Hr. rewrite iter_solo_off in Hr by assumption.
            injection Hr as Hf Hw. cbn. rewrite IHl by assumption. destruct r; cbn in *; congruence. }
          rewrite map_map. cbn. rewrite map_id. do 2 f_equal. clear. induction cs; cbn; auto.
    - destruct (existsb_cases c_on cs) as [Hon|Hoff].
      + rewrite iter_unfold, Hon. split.
        * destruct (oob_loop lo hi N (map newton cs)) as [cs1|] eqn:E; [|discriminate]. cbn [bind].
          intro H. apply bodies in E.
          assert (Forall calm (map (check ep) cs1)) as Hcalm2.
          { clear -E. induction E as [|a b l m Hb Hl IHl]; constructor; auto.
            intros _. exact (body_calm N a b Hb). }
          apply (IH _ _ _ Hcalm2) in H. destruct H as (rs & Hrs & -> & ->).
          exists rs. split; [|auto].
          clear Hon Hcalm2. revert rs Hrs.
          induction E as [|c c2 l m Hb Hl IHl]; intros rs Hrs; inversion Hrs; subst; constructor.
          -- inversion Hcalm; subst. unfold solo_iter in *. destruct (c_on c) eqn:Hc.
             ++ apply iter_solo_on; [exact Hc|]. eauto.
             ++ rewrite (body_off N c c2 Hc) in * by assumption.
                rewrite iter_solo_off by exact Hc. rewrite iter_solo_off in H1 by exact Hc. exact H1.
          -- inversion Hcalm; subst. now apply IHl.
        * intros (rs & Hrs & -> & ->).
          assert (exists cs2, Forall2 (body N) cs cs2 /\ Forall2 (solo_iter N left) cs2 rs) as (cs2 & K1 & K2).
          { clear Hon. induction Hrs as [|c r l m Hr Hl IHl]; [exists []; split; constructor|].
            inversion Hcalm; subst. destruct IHl as (cs2 & K1 & K2); [assumption|].
            unfold solo_iter in Hr. destruct (c_on c) eqn:Hc.
            - apply iter_solo_on in Hr; [|exact Hc]. destruct Hr as (c2 & Hb & Hr).
              exists (c2 :: cs2). split; constructor; auto.
            - rewrite iter_solo_off in Hr by exact Hc.
              exists (c :: cs2). split; constructor; auto.
              + exists c. unfold newton, check. rewrite Hc. split; [|reflexivity].
                apply oob_loop_inside. constructor; auto.
              + unfold solo_iter. rewrite iter_solo_off by exact Hc. exact Hr. }
          assert (Forall calm cs2) as Hcalm2.
          { clear -K1. induction K1 as [|a b l m Hb Hl IHl]; constructor; auto.
            intros _. exact (body_calm N a b Hb). }
          apply bodies_inv in K1. destruct K1 as (cs1 & E & ->). rewrite E. cbn [bind].
          apply IH; [exact Hcalm2|]. eauto.
      + assert (Hoff' := Hoff). apply existsb_false in Hoff'. rewrite iter_unfold, Hoff'. split.
        * intro H. injection H as <- <-. exists (map (fun c => (c, false)) cs). repeat split.
          -- clear -Hoff. induction Hoff; cbn [map]; constructor; auto. now apply iter_solo_off.
          -- rewrite map_map. cbn. now rewrite map_id.
          -- clear. induction cs; cbn; auto.
        * intros (rs & Hrs & -> & ->).
          assert (rs = map (fun c => (c, false)) cs) as ->.
          { clear -Hrs Hoff. induction Hrs as [|c r l m Hr Hl IHl]; [reflexivity|].
            inversion Hoff; subst. unfold solo_iter in Hr. rewrite iter_solo_off in Hr by assumption.
            injection Hr as Hf Hw. cbn. rewrite IHl by assumption. destruct r; cbn in *; congruence. }
          rewrite map_map. cbn. rewrite map_id. do 2 f_equal. clear. induction cs; cbn; auto.
  Qed.

  (* ---- what a single element ends with ---- *)
  (* the function returns a finite value and a finite nonzero slope inside the bounds *)
  Definition regular (f : fl -> fl * fl) (v d : R -> R) : Prop :=
    forall x, lo <= x <= hi -> f (Some x) = (Some (v x), Some (d x)) /\ d x <> 0.

  Lemma body_fields N c c2 : body N c c2 -> c_fn c2 = c_fn c /\ c_y c2 = c_y c.
  Proof.
    intros (c1 & H & ->). apply oob_fields in H. destruct H as (H1 & H2 & _).
    assert (c_fn (newton c) = c_fn c /\ c_y (newton c) = c_y c) as [K1 K2].
    { unfold newton. destruct (c_on c); [|auto]. destruct (c_fn c (c_x c)). auto. }
    unfold check. destruct (c_on c1); cbn; split; congruence.
  Qed.

  Lemma body_regular N c c2 x y v d : body N c c2 -> c_on c = true -> regular (c_fn c) v d ->
    c_x c = Some x -> lo <= x <= hi -> c_y c = Some y ->
    exists k, (k <= N)%nat /\ lo <= x + (y - v x) / d x / 2 ^ k <= hi /\
      c_x c2 = Some (x + (y - v x) / d x / 2 ^ k) /\
      (c_on c2 = false -> Rabs (y - v x) <= Rabs (ep * y)).
  Proof.
    intros Hb Hon Hreg Hx Hin Hy. destruct Hb as (c1 & Ho & ->).
    destruct (Hreg x Hin) as [Hf Hd].
    assert (newton c = {| c_fn := c_fn c; c_y := Some y; c_x := Some (x + (y - v x) / d x);
              c_dx := Some ((y - v x) / d x); c_err := Some (y - v x); c_on := true |}) as Hn.
    { unfold newton. rewrite Hon, Hx, Hf, Hy. cbn. destruct (Req_EM_T (d x) 0); [contradiction|].
      reflexivity. }
    rewrite Hn in Ho.
    destruct (oob_step N _ c1 x ((y - v x) / d x) 0 Ho) as (k & Hk & Hx1).
    { cbn. f_equal. field. exact Hd. }
    { cbn. f_equal. field. exact Hd. }
    exists k. rewrite check_x.
    pose proof (oob_result N _ _ Ho) as Hr. inversion Hr as [|? ? Hi _]; subst.
    rewrite Hx1 in Hi. cbn in Hi.
    split; [lia|]. split; [exact Hi|]. split; [exact Hx1|].
    apply oob_fields in Ho. cbn in Ho. destruct Ho as (Ho1 & Ho2 & Ho3 & Ho4).
    unfold check. rewrite Ho4. cbn [c_on]. rewrite Ho2, Ho3. cbn.
    destruct (Rlt_dec (Rabs (ep * y)) (Rabs (y - v x))); [discriminate|]. intros _. lra.
  Qed.

  Lemma iter_last N left : forall c c' w x y v d, iter_loop ep lo hi N left [c] = Ok ([c'], w) ->
    c_on c = true -> regular (c_fn c) v d -> c_x c = Some x -> lo <= x <= hi -> c_y c = Some y ->
    exists x0 k, lo <= x0 <= hi /\ (k <= N)%nat /\
      lo <= x0 + (y - v x0) / d x0 / 2 ^ k <= hi /\
      c_x c' = Some (x0 + (y - v x0) / d x0 / 2 ^ k) /\
      (w = false -> Rabs (y - v x0) <= Rabs (ep * y)).
  Proof.
    induction left as [|left IH]; intros c c' w x y v d H Hon Hreg Hx Hin Hy;
      apply iter_solo_on in H; try exact Hon; destruct H as (c2 & Hb & H).
    - destruct H as [-> ->].
      destruct (body_regular N c c2 x y v d Hb Hon Hreg Hx Hin Hy) as (k & Hk & Hi & Hx2 & _).
      exists x, k. repeat split; try tauto; try lra; discriminate.
    - destruct (body_regular N c c2 x y v d Hb Hon Hreg Hx Hin Hy) as (k & Hk & Hi & Hx2 & Hc).
      destruct (c_on c2) eqn:Hon2.
      + destruct (body_fields N c c2 Hb) as [Hf Hyy].
        apply (IH c2 c' w (x + (y - v x) / d x / 2 ^ k) y v d H Hon2); [rewrite Hf; exact Hreg|exact Hx2|exact Hi|rewrite Hyy; exact Hy].
      + rewrite iter_solo_off in H by exact Hon2. injection H as <- <-.
        exists x, k. repeat split; try tauto; try lra.
  Qed.

  (* ---- results stay inside, whatever the function does ---- *)
  Lemma iter_inside N left : forall cs cs' w, Forall (fun c => inside (c_x c)) cs ->
    iter_loop ep lo hi N left cs = Ok (cs', w) -> Forall (fun c => inside (c_x c)) cs'.
  Proof.
    assert (forall cs, Forall (fun c => inside (c_x c)) cs ->
              Forall (fun c => inside (c_x c)) (map (check ep) cs)) as Kc.
    { induction 1; cbn; constructor; auto. now rewrite check_x. }
    induction left as [|left IH]; intros cs cs' w Hin H; rewrite iter_unfold in H;
      destruct (existsb c_on cs); try (injection H as <- <-; exact Hin);
      destruct (oob_loop lo hi N (map newton cs)) as [cs1|] eqn:E; try discriminate; cbn [bind] in H;
      apply oob_result in E.
    - injection H as <- <-. auto.
    - apply IH in H; auto.
  Qed.

  Lemma iter_err N left : forall cs e, iter_loop ep lo hi N left cs = Err e -> e = PMAnalysisError.
  Proof.
    induction left as [|left IH]; intros cs e H; rewrite iter_unfold in H;
      destruct (existsb c_on cs); try discriminate;
      destruct (oob_loop lo hi N (map newton cs)) as [cs1|e1] eqn:E; cbn [bind] in H; try discriminate.
    - apply oob_err in E. congruence.
    - eauto.
    - apply oob_err in E. congruence.
  Qed.

  (* ---- the property function is only evaluated inside the bounds ---- *)
  Record sim (c c' : cell) : Prop := {
    sim_fn : forall x, inside x -> c_fn c x = c_fn c' x;
    sim_y : c_y c = c_y c'; sim_x : c_x c = c_x c'; sim_dx : c_dx c = c_dx c';
    sim_err : c_err c = c_err c'; sim_on : c_on c = c_on c' }.

  Definition rsim {A} (rel : A -> A -> Prop) (a b : res A) : Prop :=
    match a, b with Ok x, Ok y => rel x y | Err e, Err e' => e = e' | _, _ => False end.

  Lemma sim_outside c c' : sim c c' -> outside lo hi c = outside lo hi c'.
  Proof. intro H. unfold outside. now rewrite (sim_x _ _ H). Qed.

  Lemma sim_halve c c' : sim c c' -> sim (halve lo hi c) (halve lo hi c').
  Proof.
    intro H. unfold halve. rewrite <- (sim_outside _ _ H).
    destruct (outside lo hi c); [|exact H]. destruct H as [H1 H2 H3 H4 H5 H6].
    constructor; cbn [c_fn c_y c_x c_dx c_err c_on]; auto; congruence.
  Qed.

  Lemma sim_newton c c' : sim c c' -> inside (c_x c) -> sim (newton c) (newton c').
  Proof.
    intros H Hin. unfold newton. rewrite <- (sim_on _ _ H).
    destruct (c_on c) eqn:Hon; [|exact H].
    rewrite <- (sim_x _ _ H), <- (sim_fn _ _ H _ Hin), <- (sim_y _ _ H).
    destruct (c_fn c (c_x c)) as [a b]. constructor; cbn [c_fn c_y c_x c_dx c_err c_on]; auto. exact (sim_fn _ _ H).
  Qed.

  Lemma sim_check c c' : sim c c' -> sim (check ep c) (check ep c').
  Proof.
    intros H. unfold check. rewrite <- (sim_on _ _ H).
    destruct (c_on c) eqn:Hon; [|exact H]. destruct H as [H1 H2 H3 H4 H5 H6].
    constructor; cbn [c_fn c_y c_x c_dx c_err c_on]; auto; congruence.
  Qed.

  Lemma sim_existsb f cs cs' : (forall c c', sim c c' -> f c = f c') -> Forall2 sim cs cs' ->
    existsb f cs = existsb f cs'.
  Proof. intros Hf H. induction H; cbn; auto. rewrite (Hf _ _ H), IHForall2. reflexivity. Qed.

  Lemma sim_map f cs cs' : (forall c c', sim c c' -> sim (f c) (f c')) -> Forall2 sim cs cs' ->
    Forall2 sim (map f cs) (map f cs').
  Proof. intros Hf H. induction H; cbn; constructor; auto. Qed.

  Lemma oob_sim n : forall cs cs', Forall2 sim cs cs' ->
    rsim (Forall2 sim) (oob_loop lo hi n cs) (oob_loop lo hi n cs').
  Proof.
    induction n as [|n IH]; intros cs cs' H; rewrite (oob_unfold _ cs), (oob_unfold _ cs');
      rewrite <- (sim_existsb (outside lo hi) cs cs' sim_outside H);
      destruct (existsb (outside lo hi) cs); cbn [rsim]; auto.
    apply IH. apply sim_map; [exact sim_halve|exact H].
  Qed.

  Lemma iter_sim N left : forall cs cs', Forall2 sim cs cs' -> Forall (fun c => inside (c_x c)) cs ->
    rsim (fun a b => Forall2 sim (fst a) (fst b) /\ snd a = snd b)
         (iter_loop ep lo hi N left cs) (iter_loop ep lo hi N left cs').
  Proof.
    induction left as [|left IH]; intros cs cs' H Hin; rewrite (iter_unfold _ _ cs), (iter_unfold _ _ cs');
      rewrite <- (sim_existsb c_on cs cs' sim_on H);
      destruct (existsb c_on cs); cbn [rsim fst snd]; auto;
    assert (Forall2 sim (map newton cs) (map newton cs')) as Hn;
    try (clear -H Hin; induction H; cbn; constructor; inversion Hin; subst; auto using sim_newton);
    pose proof (oob_sim N _ _ Hn) as Ho;
    pose proof (oob_result N (map newton cs)) as Hr;
    destruct (oob_loop lo hi N (map newton cs)) as [c1|], (oob_loop lo hi N (map newton cs')) as [c2|];
      cbn in Ho |- *; auto; try contradiction.
    - split; auto. apply sim_map; [exact sim_check|exact Ho].
    - apply IH; [apply sim_map; [exact sim_check|exact Ho]|].
      specialize (Hr _ eq_refl). clear -Hr. induction Hr; cbn; constructor; auto.
      now rewrite check_x.
  Qed.
End Iter.

Lemma F2_length {A B} (P : A -> B -> Prop) l m : Forall2 P l m -> List.length l = List.length m.
Proof. induction 1; cbn; congruence. Qed.

(* ---- iter1 ---- *)
Lemma map2_cons {A B C} (f : A -> B -> C) a b l m : map2 f (a :: l) (b :: m) = f a b :: map2 f l m.
Proof. reflexivity. Qed.

Lemma start_inside lo hi fns ys : lo <= hi ->
  Forall (fun c => inside lo hi (c_x c)) (map2 (start lo hi) fns ys).
Proof.
  intro H. revert ys. induction fns as [|f fns IH]; intros [|y ys]; try (constructor; fail).
  rewrite map2_cons. constructor; [|apply IH]. cbn. lra.
Qed.

Lemma start_calm lo hi fns ys : Forall (calm lo hi) (map2 (start lo hi) fns ys).
Proof.
  revert ys. induction fns as [|f fns IH]; intros [|y ys]; try (constructor; fail).
  rewrite map2_cons. constructor; [|apply IH]. discriminate.
Qed.

Lemma iter1_bounded lo hi fns ys xs w : lo <= hi -> iter1_full lo hi fns ys = Ok (xs, w) ->
  Forall (fun x => match x with Some r => lo <= r <= hi | None => True end) xs.
Proof.
  intros H Hi. unfold iter1_full in Hi.
  destruct (iter_loop _ _ _ _ _ _) as [[cs w']|] eqn:E; [|discriminate]. cbn in Hi.
  injection Hi as <- <-. apply iter_inside in E; [|now apply start_inside].
  induction E; cbn; constructor; auto.
Qed.

Lemma iter1_errors lo hi fns ys e : iter1_full lo hi fns ys = Err e -> e = PMAnalysisError.
Proof.
  unfold iter1_full. destruct (iter_loop _ _ _ _ _ _) as [[cs w']|] eqn:E; [discriminate|].
  cbn. intro H. injection H as <-. exact (iter_err _ _ _ _ _ _ _ E).
Qed.

(* changing the function outside the bounds changes nothing *)
Lemma iter1_inside_only lo hi fns fns' ys : lo <= hi ->
  Forall2 (fun f f' : fl -> fl * fl => f None = f' None /\ forall x, lo <= x <= hi -> f (Some x) = f' (Some x))
    fns fns' ->
  iter1_full lo hi fns ys = iter1_full lo hi fns' ys.
Proof.
  intros H Hf. unfold iter1_full.
  assert (Forall2 (sim lo hi) (map2 (start lo hi) fns ys) (map2 (start lo hi) fns' ys)) as Hs.
  { revert ys. induction Hf as [|f f' l m [Hn Hfs] Hl IH]; intros [|y ys]; try (constructor; fail).
    rewrite !map2_cons. constructor; [|apply IH]. constructor; cbn; auto.
    intros [x|] Hx; auto. }
  pose proof (iter_sim ep_default lo hi 20 20 _ _ Hs (start_inside lo hi fns ys H)) as K.
  destruct (iter_loop ep_default lo hi 20 20 (map2 (start lo hi) fns ys)) as [[a b]|],
    (iter_loop ep_default lo hi 20 20 (map2 (start lo hi) fns' ys)) as [[a' b']|];
    cbn [rsim fst snd] in K; try contradiction; cbn.
  - destruct K as [K ->]. do 2 f_equal. clear -K. induction K as [|c c' l m Hc Hl IH]; [reflexivity|].
    cbn. rewrite IH. f_equal. exact (sim_x _ _ _ _ Hc).
  - now rewrite K.
Qed.

(* element by element *)
Lemma iter1_pointwise lo hi fns ys xs w : List.length fns = List.length ys ->
  (iter1_full lo hi fns ys = Ok (xs, w) <->
   exists ws, List.length ws = List.length ys /\ w = existsb (fun b => b) ws /\
     List.length xs = List.length ys /\
     forall i f y x b, nth_error fns i = Some f -> nth_error ys i = Some y ->
       nth_error xs i = Some x -> nth_error ws i = Some b ->
       iter1_full lo hi [f] [y] = Ok ([x], b)).
Proof.
  intro Hlen. unfold iter1_full at 1.
  split.
  - destruct (iter_loop _ _ _ _ _ _) as [[cs w']|] eqn:E; [|discriminate]. cbn [bind fst snd].
    intro H. injection H as <- <-.
    apply iter_pointwise in E; [|apply start_calm]. destruct E as (rs & Hrs & -> & ->).
    exists (map snd rs).
    assert (List.length rs = List.length ys) as Hl.
    { apply F2_length in Hrs. rewrite <- Hrs. unfold map2. rewrite map_length, combine_length. lia. }
    rewrite !map_length. repeat split; auto.
    { clear. induction rs; cbn; auto. now rewrite IHrs. }
    revert ys Hlen Hrs Hl. clear.
    revert rs. induction fns as [|f0 fns IH]; intros rs ys Hlen Hrs Hl i f y x b Hf Hy Hx Hb.
    { destruct i; discriminate. }
    destruct ys as [|y0 ys]; [discriminate|]. rewrite map2_cons in Hrs.
    destruct rs as [|r rs]; [discriminate|].
    inversion Hrs as [|? ? ? ? Hr Hrs' ]; subst.
    destruct i as [|i].
    + cbn in Hf, Hy, Hx, Hb. injection Hf as <-. injection Hy as <-. injection Hx as <-. injection Hb as <-.
      unfold solo_iter in Hr. unfold iter1_full. rewrite map2_cons. cbn [map2 combine map].
      change (map2 (start lo hi) [] []) with (@nil cell).
      rewrite Hr. reflexivity.
    + apply (IH rs ys) with (i := i); cbn in Hlen, Hl; auto.
  - intros (ws & Hws & -> & Hxs & H).
    assert (exists rs, Forall2 (solo_iter ep_default lo hi 20 20) (map2 (start lo hi) fns ys) rs /\
              xs = map c_x (map fst rs) /\ ws = map snd rs) as (rs & Hrs & -> & ->).
    { revert ys ws xs Hlen Hws Hxs H. induction fns as [|f fns IH]; intros [|y ys] [|b ws] [|x xs] Hlen Hws Hxs H;
        try discriminate.
      - exists []. repeat split. constructor.
      - cbn in Hlen, Hws, Hxs.
        destruct (IH ys ws xs) as (rs & K1 & -> & ->); try lia.
        { intros i f' y' x' b' H1 H2 H3 H4. apply (H (S i)); cbn; auto. }
        specialize (H 0%nat f y x b eq_refl eq_refl eq_refl eq_refl).
        unfold iter1_full in H. rewrite map2_cons in H.
        change (map2 (start lo hi) [] []) with (@nil cell) in H.
        destruct (iter_loop _ _ _ _ _ _) as [[cs w']|] eqn:E; [|discriminate]. cbn [bind fst snd] in H.
        injection H as Hc <-. destruct cs as [|c [|]]; try discriminate.
        exists ((c, w') :: rs). rewrite map2_cons. repeat split.
        + constructor; [exact E|exact K1].
        + cbn. now injection Hc as ->. }
    rewrite (proj2 (iter_pointwise ep_default lo hi 20 20 _ (map fst rs) (existsb snd rs) (start_calm lo hi fns ys))).
    + cbn. do 2 f_equal. clear. induction rs; cbn; auto. now rewrite IHrs.
    + eauto.
Qed.

Lemma iter1_single lo hi f v d y x w : lo <= hi -> regular lo hi f v d ->
  iter1_full lo hi [f] [Some y] = Ok ([x], w) ->
  exists x0 k, lo <= x0 <= hi /\ (k <= 20)%nat /\
    x = Some (x0 + (y - v x0) / d x0 / 2 ^ k) /\ lo <= x0 + (y - v x0) / d x0 / 2 ^ k <= hi /\
    (w = false -> Rabs (y - v x0) <= Rabs (ep_default * y)).
Proof.
  intros Hlh Hreg H. unfold iter1_full in H. rewrite map2_cons in H.
  change (map2 (start lo hi) [] []) with (@nil cell) in H.
  destruct (iter_loop _ _ _ _ _ _) as [[cs w']|] eqn:E; [|discriminate]. cbn [bind fst snd] in H.
  injection H as Hc <-. destruct cs as [|c [|]]; try discriminate. injection Hc as <-.
  destruct (iter_last ep_default lo hi 20 20 _ c w' (5/10 * (lo + hi)) y v d E) as (x0 & k & K);
    cbn; auto; try lra.
  exists x0, k. tauto.
Qed.

(* every element of a run without warning *)
Lemma iter1_accurate lo hi fns ys xs i f v d y x w : lo <= hi ->
  List.length fns = List.length ys -> iter1_full lo hi fns ys = Ok (xs, w) ->
  nth_error fns i = Some f -> nth_error ys i = Some (Some y) -> nth_error xs i = Some x ->
  regular lo hi f v d ->
  exists r x0 k, x = Some r /\ lo <= r <= hi /\ lo <= x0 <= hi /\ (k <= 20)%nat /\
    r = x0 + (y - v x0) / d x0 / 2 ^ k /\
    (w = false -> Rabs (y - v x0) <= Rabs (ep_default * y)).
Proof.
  intros Hlh Hlen H Hf Hy Hx Hreg.
  apply iter1_pointwise in H; [|exact Hlen]. destruct H as (ws & Hws & Hw & Hxs & H).
  destruct (nth_error ws i) as [b|] eqn:Hb.
  2:{ apply nth_error_None in Hb. assert (i < List.length ys)%nat by (apply nth_error_Some; congruence). lia. }
  specialize (H i f (Some y) x b Hf Hy Hx Hb).
  destruct (iter1_single lo hi f v d y x b Hlh Hreg H) as (x0 & k & K1 & K2 & K3 & K4 & K5).
  exists (x0 + (y - v x0) / d x0 / 2 ^ k), x0, k. repeat split; try tauto; try lra.
  intros ->. apply K5. destruct b; [|reflexivity]. exfalso.
  assert (existsb (fun b => b) ws = true) as Ht.
  { apply existsb_exists. exists true. split; [|reflexivity]. eapply nth_error_In; eauto. }
  congruence.
Qed.

(* from the last evaluated point to the returned point *)
Lemma residual_bound lo hi (v d : R -> R) m M y x0 k :
  0 < m -> (forall x, lo <= x <= hi -> m <= d x <= M) ->
  (forall a b, lo <= a <= b -> b <= hi -> m * (b - a) <= v b - v a <= M * (b - a)) ->
  lo <= x0 <= hi -> lo <= x0 + (y - v x0) / d x0 / 2 ^ k <= hi ->
  Rabs (y - v (x0 + (y - v x0) / d x0 / 2 ^ k)) <= M / m * Rabs (y - v x0).
Proof.
  intros Hm Hd Hv Hx0 Hr. pose proof (Hd x0 Hx0) as Hdx.
  set (e := y - v x0) in *. set (q := d x0 * 2 ^ k).
  assert (0 < 2 ^ k) as Hk by (apply pow_lt; lra).
  assert (1 <= 2 ^ k) as Hk1 by (apply pow_R1_Rle; lra).
  assert (m <= q) as Hq. { unfold q. apply Rle_trans with (d x0 * 1); [lra|]. apply Rmult_le_compat_l; lra. }
  set (r := x0 + e / d x0 / 2 ^ k) in *.
  assert (r - x0 = e / q) as Hrx. { unfold r, q. field. split; lra. }
  assert (y - v r = e - (v r - v x0)) as -> by (unfold e; ring).
  assert (0 < M) by lra.
  assert (1 <= M / m) as HMm. { apply (Rmult_le_reg_r m); [exact Hm|]. unfold Rdiv. rewrite Rmult_assoc, Rinv_l by lra. lra. }
  assert (forall t, 0 <= t -> m * t / q <= t) as Ha.
  { intros t Ht. apply (Rmult_le_reg_r q); [lra|]. unfold Rdiv. rewrite Rmult_assoc, Rinv_l by lra. nra. }
  assert (forall t, 0 <= t -> M * t / q <= M / m * t) as Hb.
  { intros t Ht. apply (Rmult_le_reg_r q); [lra|]. unfold Rdiv. rewrite !Rmult_assoc, Rinv_l by lra.
    replace (M * (t * 1)) with (M * (/ m * (t * m))) by (field; lra).
    apply Rmult_le_compat_l; [lra|]. apply Rmult_le_compat_l; [left; now apply Rinv_0_lt_compat|].
    apply Rmult_le_compat_l; lra. }
  destruct (Rle_dec 0 e) as [He|He].
  - assert (0 <= e / q) as Heq. { apply Rmult_le_pos; [exact He|]. left. apply Rinv_0_lt_compat. lra. }
    destruct (Hv x0 r) as [H1 H2]; try lra.
    rewrite Hrx in H1, H2.
    rewrite (Rabs_right e) by lra.
    specialize (Hb e He). unfold Rdiv in *.
    replace (M * (e * / q)) with (M * e * / q) in H2 by ring.
    assert (0 <= m * (e * / q)) by (apply Rmult_le_pos; lra).
    apply Rabs_le. split; [lra|].
    apply Rle_trans with (1 * e); [lra|]. apply Rmult_le_compat_r; lra.
  - assert (0 <= - e) as He' by lra.
    assert (0 <= (- e) / q) as Heq. { apply Rmult_le_pos; [exact He'|]. left. apply Rinv_0_lt_compat. lra. }
    assert (x0 - r = (- e) / q) as Hrx'. { replace (x0 - r) with (- (r - x0)) by ring. rewrite Hrx. field. lra. }
    destruct (Hv r x0) as [H1 H2]; try lra.
    rewrite Hrx' in H1, H2.
    rewrite (Rabs_left e) by lra.
    specialize (Hb (- e) He'). unfold Rdiv in *.
    replace (M * (- e * / q)) with (M * - e * / q) in H2 by ring.
    assert (0 <= m * (- e * / q)) by (apply Rmult_le_pos; lra).
    apply Rabs_le. split; [|lra].
    assert (1 * - e <= M * / m * - e); [apply Rmult_le_compat_r; lra|]. lra.
Qed.

Lemma iter1_residual lo hi fns ys xs i f v d m M y x : lo <= hi -> 0 < m ->
  List.length fns = List.length ys -> iter1_full lo hi fns ys = Ok (xs, false) ->
  nth_error fns i = Some f -> nth_error ys i = Some (Some y) -> nth_error xs i = Some x ->
  (forall t, lo <= t <= hi -> f (Some t) = (Some (v t), Some (d t)) /\ m <= d t <= M) ->
  (forall a b, lo <= a <= b -> b <= hi -> m * (b - a) <= v b - v a <= M * (b - a)) ->
  exists r, x = Some r /\ lo <= r <= hi /\ Rabs (y - v r) <= M / m * (ep_default * Rabs y).
Proof.
  intros Hlh Hm Hlen H Hf Hy Hx Hfr Hv.
  assert (regular lo hi f v d) as Hreg.
  { intros t Ht. destruct (Hfr t Ht) as [K1 K2]. split; [exact K1|lra]. }
  destruct (iter1_accurate lo hi fns ys xs i f v d y x false Hlh Hlen H Hf Hy Hx Hreg)
    as (r & x0 & k & -> & Hr & Hx0 & Hk & Hr0 & Hacc).
  exists r. split; [reflexivity|]. split; [exact Hr|].
  specialize (Hacc eq_refl). rewrite Hr0 in Hr |- *.
  apply Rle_trans with (M / m * Rabs (y - v x0)).
  - apply (residual_bound lo hi v d m M); auto. intros t Ht. now apply Hfr.
  - apply Rmult_le_compat_l.
    + pose proof (proj2 (Hfr x0 Hx0)). apply Rmult_le_pos; [lra|]. left. now apply Rinv_0_lt_compat.
    + apply Rle_trans with (1 := Hacc). rewrite Rabs_mult. right. f_equal. apply Rabs_right.
      apply Rle_ge. left. unfold ep_default. rewrite p10_neg_eq. apply Rinv_0_lt_compat, pow_lt. lra.
Qed.

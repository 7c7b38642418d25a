(* Values with first and second derivatives: algebra used in the proofs about mp1.py. *)
From Coq Require Import Reals Lra.
From Coquelicot Require Import Coquelicot.
Local Open Scope R_scope.

Definition D (f : R -> R) (x l : R) : Prop := derivable_pt_lim f x l.

Lemma D_eq f x a b : D f x a -> a = b -> D f x b.
Proof. intros H <-. exact H. Qed.
Lemma D_const c x : D (fun _ => c) x 0.
Proof. exact (derivable_pt_lim_const c x). Qed.
Lemma D_id x : D (fun u => u) x 1.
Proof. exact (derivable_pt_lim_id x). Qed.
Lemma D_plus f g x a b : D f x a -> D g x b -> D (fun u => f u + g u) x (a + b).
Proof. intros A B. exact (derivable_pt_lim_plus f g x a b A B). Qed.
Lemma D_minus f g x a b : D f x a -> D g x b -> D (fun u => f u - g u) x (a - b).
Proof. intros A B. exact (derivable_pt_lim_minus f g x a b A B). Qed.
Lemma D_opp f x a : D f x a -> D (fun u => - f u) x (- a).
Proof. intros A. exact (derivable_pt_lim_opp f x a A). Qed.
Lemma D_mult f g x a b : D f x a -> D g x b -> D (fun u => f u * g u) x (a * g x + f x * b).
Proof. intros A B. exact (derivable_pt_lim_mult f g x a b A B). Qed.
Lemma D_scal f c x a : D f x a -> D (fun u => c * f u) x (c * a).
Proof. intros A. exact (derivable_pt_lim_scal f c x a A). Qed.
Lemma D_comp f g x a b : D f x a -> D g (f x) b -> D (fun u => g (f u)) x (b * a).
Proof. intros A B. exact (derivable_pt_lim_comp f g x a b A B). Qed.
Lemma D_exp x : D exp x (exp x).
Proof. exact (derivable_pt_lim_exp x). Qed.
Lemma D_ln x : 0 < x -> D ln x (/ x).
Proof. exact (derivable_pt_lim_ln x). Qed.
Lemma D_inv x : x <> 0 -> D (fun u => / u) x (- / (x * x)).
Proof.
  intro H. apply is_derive_Reals. auto_derive; [exact H|].
  field. exact H.
Qed.
Lemma D_power x r : 0 < x -> D (fun u => Rpower u r) x (r * Rpower x (r - 1)).
Proof. exact (derivable_pt_lim_power x r). Qed.
Lemma D_ext f g x a : (forall u, f u = g u) -> D f x a -> D g x a.
Proof.
  intros E H. apply is_derive_Reals. apply is_derive_Reals in H.
  exact (is_derive_ext f g x a E H).
Qed.
Lemma D_ext_loc f g x a eps : 0 < eps -> (forall u, Rabs (u - x) < eps -> f u = g u) ->
  D f x a -> D g x a.
Proof.
  intros He E H. apply is_derive_Reals. apply is_derive_Reals in H.
  apply (is_derive_ext_loc f g); [|exact H].
  exists (mkposreal eps He). intros y Hy. apply E. exact Hy.
Qed.
Lemma D_ext_pos f g x a : 0 < x -> (forall u, 0 < u -> f u = g u) -> D f x a -> D g x a.
Proof.
  intros Hx E. apply (D_ext_loc f g x a x Hx). intros u Hu. apply E.
  apply Rabs_def2 in Hu. lra.
Qed.

(* ---- one variable ---- *)
Record J1 := mk1 { a0 : R; a1 : R; a2 : R }.
Definition jet1_on (U : R -> Prop) (F : R -> J1) : Prop := forall x, U x ->
  D (fun u => a0 (F u)) x (a1 (F x)) /\ D (fun u => a1 (F u)) x (a2 (F x)).

Definition j1const c := mk1 c 0 0.
Definition j1var x := mk1 x 1 0.
Definition j1add F G := mk1 (a0 F + a0 G) (a1 F + a1 G) (a2 F + a2 G).
Definition j1mul F G := mk1 (a0 F * a0 G) (a1 F * a0 G + a0 F * a1 G)
                            (a2 F * a0 G + 2 * a1 F * a1 G + a0 F * a2 G).
(* outer jet at a0 F *)
Definition j1comp G F := mk1 (a0 G) (a1 G * a1 F) (a2 G * a1 F * a1 F + a1 G * a2 F).

Lemma jet1_const U c : jet1_on U (fun _ => j1const c).
Proof. intros x _. cbn. split; apply D_const. Qed.
Lemma jet1_var U : jet1_on U j1var.
Proof. intros x _. cbn. split; [apply D_id|apply D_const]. Qed.
Lemma jet1_add U F G : jet1_on U F -> jet1_on U G -> jet1_on U (fun x => j1add (F x) (G x)).
Proof.
  intros HF HG x Hx. destruct (HF x Hx) as [F1 F2]. destruct (HG x Hx) as [G1 G2]. cbn.
  split; [exact (D_plus _ _ _ _ _ F1 G1) | exact (D_plus _ _ _ _ _ F2 G2)].
Qed.
Lemma jet1_mul U F G : jet1_on U F -> jet1_on U G -> jet1_on U (fun x => j1mul (F x) (G x)).
Proof.
  intros HF HG x Hx. destruct (HF x Hx) as [F1 F2]. destruct (HG x Hx) as [G1 G2]. cbn.
  split; [exact (D_mult _ _ _ _ _ F1 G1)|].
  eapply D_eq.
  - exact (D_plus _ _ _ _ _ (D_mult _ _ _ _ _ F2 G1) (D_mult _ _ _ _ _ F1 G2)).
  - cbn beta. ring.
Qed.
Lemma jet1_comp (U V : R -> Prop) F G : jet1_on U F -> (forall x, U x -> V (a0 (F x))) -> jet1_on V G ->
  jet1_on U (fun x => j1comp (G (a0 (F x))) (F x)).
Proof.
  intros HF HUV HG x Hx. destruct (HF x Hx) as [F1 F2]. destruct (HG _ (HUV _ Hx)) as [G1 G2].
  cbn. split; [exact (D_comp _ _ _ _ _ F1 G1)|].
  eapply D_eq.
  - exact (D_mult _ _ _ _ _ (D_comp _ _ _ _ _ F1 G2) F2).
  - cbn beta. ring.
Qed.
Lemma jet1_ext (U : R -> Prop) F G : (forall x, F x = G x) -> jet1_on U F -> jet1_on U G.
Proof.
  intros E HF x Hx. destruct (HF x Hx) as [F1 F2]. rewrite <- (E x). split.
  - exact (D_ext _ _ _ _ (fun u => f_equal a0 (E u)) F1).
  - exact (D_ext _ _ _ _ (fun u => f_equal a1 (E u)) F2).
Qed.
Lemma jet1_ext_pos F G : (forall x, 0 < x -> F x = G x) -> jet1_on (fun x => 0 < x) F ->
  jet1_on (fun x => 0 < x) G.
Proof.
  intros E HF x Hx. destruct (HF x Hx) as [F1 F2]. rewrite <- (E x Hx). split.
  - exact (D_ext_pos _ _ _ _ Hx (fun u Hu => f_equal a0 (E u Hu)) F1).
  - exact (D_ext_pos _ _ _ _ Hx (fun u Hu => f_equal a1 (E u Hu)) F2).
Qed.
Lemma jet1_sub (U V : R -> Prop) F : (forall x, V x -> U x) -> jet1_on U F -> jet1_on V F.
Proof. intros H HF x Hx. exact (HF x (H x Hx)). Qed.

Definition j1pow r x := mk1 (Rpower x r) (r * Rpower x (r - 1)) (r * (r - 1) * Rpower x (r - 2)).
Lemma jet1_pow r : jet1_on (fun x => 0 < x) (j1pow r).
Proof.
  intros x Hx. cbn. split; [exact (D_power x r Hx)|].
  eapply D_eq; [exact (D_scal _ r _ _ (D_power x (r - 1) Hx))|].
  replace (r - 1 - 1) with (r - 2) by ring. ring.
Qed.
Definition j1exp x := mk1 (exp x) (exp x) (exp x).
Lemma jet1_exp U : jet1_on U j1exp.
Proof. intros x _. cbn. split; apply D_exp. Qed.
Definition j1ln x := mk1 (ln x) (/ x) (- / (x * x)).
Lemma jet1_ln : jet1_on (fun x => 0 < x) j1ln.
Proof. intros x Hx. cbn. split; [exact (D_ln x Hx)| apply D_inv; lra]. Qed.

(* ---- two variables ---- *)
Record J2 := mk2 { b0 : R; bx : R; by_ : R; bxx : R; bxy : R; byy : R }.
Definition jet2_on (U : R -> R -> Prop) (F : R -> R -> J2) : Prop := forall x y, U x y ->
  D (fun u => b0 (F u y)) x (bx (F x y)) /\ D (fun v => b0 (F x v)) y (by_ (F x y)) /\
  D (fun u => bx (F u y)) x (bxx (F x y)) /\ D (fun v => bx (F x v)) y (bxy (F x y)) /\
  D (fun u => by_ (F u y)) x (bxy (F x y)) /\ D (fun v => by_ (F x v)) y (byy (F x y)).

Definition j2const c := mk2 c 0 0 0 0 0.
Definition j2x (X : J1) := mk2 (a0 X) (a1 X) 0 (a2 X) 0 0.
Definition j2y (Y : J1) := mk2 (a0 Y) 0 (a1 Y) 0 0 (a2 Y).
Definition j2add F G := mk2 (b0 F + b0 G) (bx F + bx G) (by_ F + by_ G)
  (bxx F + bxx G) (bxy F + bxy G) (byy F + byy G).
Definition j2mul F G := mk2 (b0 F * b0 G) (bx F * b0 G + b0 F * bx G) (by_ F * b0 G + b0 F * by_ G)
  (bxx F * b0 G + 2 * bx F * bx G + b0 F * bxx G)
  (bxy F * b0 G + bx F * by_ G + by_ F * bx G + b0 F * bxy G)
  (byy F * b0 G + 2 * by_ F * by_ G + b0 F * byy G).
(* change of both arguments *)
Definition j2args F (X Y : J1) := mk2 (b0 F) (bx F * a1 X) (by_ F * a1 Y)
  (bxx F * a1 X * a1 X + bx F * a2 X) (bxy F * a1 X * a1 Y) (byy F * a1 Y * a1 Y + by_ F * a2 Y).
(* outer function of one variable at b0 F *)
Definition j2comp (G : J1) F := mk2 (a0 G) (a1 G * bx F) (a1 G * by_ F)
  (a2 G * bx F * bx F + a1 G * bxx F) (a2 G * bx F * by_ F + a1 G * bxy F)
  (a2 G * by_ F * by_ F + a1 G * byy F).

Ltac open2 H x y Hu :=
  let A := fresh "A" in let B := fresh "B" in let C := fresh "C" in
  let E := fresh "E" in let F := fresh "F" in let G := fresh "G" in
  destruct (H x y Hu) as (A & B & C & E & F & G).

Lemma jet2_const U c : jet2_on U (fun _ _ => j2const c).
Proof. intros x y _. cbn. repeat split; apply D_const. Qed.
Lemma jet2_x (U : R -> R -> Prop) (Ux : R -> Prop) F : (forall x y, U x y -> Ux x) -> jet1_on Ux F ->
  jet2_on U (fun x _ => j2x (F x)).
Proof.
  intros H HF x y Hu. destruct (HF x (H _ _ Hu)) as [F1 F2]. cbn.
  repeat split; first [assumption | apply D_const].
Qed.
Lemma jet2_y (U : R -> R -> Prop) (Uy : R -> Prop) F : (forall x y, U x y -> Uy y) -> jet1_on Uy F ->
  jet2_on U (fun _ y => j2y (F y)).
Proof.
  intros H HF x y Hu. destruct (HF y (H _ _ Hu)) as [F1 F2]. cbn.
  repeat split; first [assumption | apply D_const].
Qed.
Lemma jet2_add U F G : jet2_on U F -> jet2_on U G -> jet2_on U (fun x y => j2add (F x y) (G x y)).
Proof.
  intros HF HG x y Hu. open2 HF x y Hu. open2 HG x y Hu. cbn.
  repeat split; apply D_plus; assumption.
Qed.
Lemma jet2_mul U F G : jet2_on U F -> jet2_on U G -> jet2_on U (fun x y => j2mul (F x y) (G x y)).
Proof.
  intros HF HG x y Hu.
  destruct (HF x y Hu) as (A1 & A2 & A3 & A4 & A5 & A6).
  destruct (HG x y Hu) as (B1 & B2 & B3 & B4 & B5 & B6). cbn.
  split; [exact (D_mult _ _ _ _ _ A1 B1)|].
  split; [exact (D_mult _ _ _ _ _ A2 B2)|].
  split; [eapply D_eq; [exact (D_plus _ _ _ _ _ (D_mult _ _ _ _ _ A3 B1) (D_mult _ _ _ _ _ A1 B3))|cbn beta; ring]|].
  split; [eapply D_eq; [exact (D_plus _ _ _ _ _ (D_mult _ _ _ _ _ A4 B2) (D_mult _ _ _ _ _ A2 B4))|cbn beta; ring]|].
  split; [eapply D_eq; [exact (D_plus _ _ _ _ _ (D_mult _ _ _ _ _ A5 B1) (D_mult _ _ _ _ _ A1 B5))|cbn beta; ring]|].
  eapply D_eq; [exact (D_plus _ _ _ _ _ (D_mult _ _ _ _ _ A6 B2) (D_mult _ _ _ _ _ A2 B6))|cbn beta; ring].
Qed.
Lemma jet2_args (U V : R -> R -> Prop) (Ux Uy : R -> Prop) X Y F :
  (forall x y, U x y -> Ux x /\ Uy y /\ V (a0 (X x)) (a0 (Y y))) ->
  jet1_on Ux X -> jet1_on Uy Y -> jet2_on V F ->
  jet2_on U (fun x y => j2args (F (a0 (X x)) (a0 (Y y))) (X x) (Y y)).
Proof.
  intros H HX HY HF x y Hu. destruct (H x y Hu) as (Hx & Hy & Hv).
  destruct (HX x Hx) as [X1 X2]. destruct (HY y Hy) as [Y1 Y2].
  destruct (HF _ _ Hv) as (A1 & A2 & A3 & A4 & A5 & A6). cbn.
  pose proof (D_comp _ (fun u => b0 (F u (a0 (Y y)))) _ _ _ X1 A1) as E1.
  pose proof (D_comp _ (fun u => b0 (F (a0 (X x)) u)) _ _ _ Y1 A2) as E2.
  pose proof (D_comp _ (fun u => bx (F u (a0 (Y y)))) _ _ _ X1 A3) as E3.
  pose proof (D_comp _ (fun u => bx (F (a0 (X x)) u)) _ _ _ Y1 A4) as E4.
  pose proof (D_comp _ (fun u => by_ (F u (a0 (Y y)))) _ _ _ X1 A5) as E5.
  pose proof (D_comp _ (fun u => by_ (F (a0 (X x)) u)) _ _ _ Y1 A6) as E6.
  split; [exact E1|]. split; [exact E2|].
  split; [eapply D_eq; [exact (D_mult _ _ _ _ _ E3 X2)|cbn beta; ring]|].
  split; [eapply D_eq; [exact (D_mult _ _ _ _ _ E4 (D_const (a1 (X x)) y))|cbn beta; ring]|].
  split; [eapply D_eq; [exact (D_mult _ _ _ _ _ E5 (D_const (a1 (Y y)) x))|cbn beta; ring]|].
  eapply D_eq; [exact (D_mult _ _ _ _ _ E6 Y2)|cbn beta; ring].
Qed.
Lemma jet2_comp (U : R -> R -> Prop) (V : R -> Prop) F G :
  jet2_on U F -> (forall x y, U x y -> V (b0 (F x y))) -> jet1_on V G ->
  jet2_on U (fun x y => j2comp (G (b0 (F x y))) (F x y)).
Proof.
  intros HF H HG x y Hu. destruct (HF x y Hu) as (A1 & A2 & A3 & A4 & A5 & A6).
  destruct (HG _ (H x y Hu)) as [G1 G2]. cbn.
  pose proof (D_comp _ _ _ _ _ A1 G1) as E1. pose proof (D_comp _ _ _ _ _ A2 G1) as E2.
  pose proof (D_comp _ _ _ _ _ A1 G2) as E3. pose proof (D_comp _ _ _ _ _ A2 G2) as E4.
  split; [exact E1|]. split; [exact E2|].
  split; [eapply D_eq; [exact (D_mult _ _ _ _ _ E3 A3)|cbn beta; ring]|].
  split; [eapply D_eq; [exact (D_mult _ _ _ _ _ E4 A4)|cbn beta; ring]|].
  split; [eapply D_eq; [exact (D_mult _ _ _ _ _ E3 A5)|cbn beta; ring]|].
  eapply D_eq; [exact (D_mult _ _ _ _ _ E4 A6)|cbn beta; ring].
Qed.
Lemma jet2_ext (U : R -> R -> Prop) F G : (forall x y, F x y = G x y) -> jet2_on U F -> jet2_on U G.
Proof.
  intros E HF x y Hu. destruct (HF x y Hu) as (A1 & A2 & A3 & A4 & A5 & A6). rewrite <- (E x y).
  split; [exact (D_ext _ _ _ _ (fun u => f_equal b0 (E u y)) A1)|].
  split; [exact (D_ext _ _ _ _ (fun u => f_equal b0 (E x u)) A2)|].
  split; [exact (D_ext _ _ _ _ (fun u => f_equal bx (E u y)) A3)|].
  split; [exact (D_ext _ _ _ _ (fun u => f_equal bx (E x u)) A4)|].
  split; [exact (D_ext _ _ _ _ (fun u => f_equal by_ (E u y)) A5)|].
  exact (D_ext _ _ _ _ (fun u => f_equal by_ (E x u)) A6).
Qed.
Definition opos (x y : R) := 0 < x /\ 0 < y.
Lemma jet2_ext_pos F G : (forall x y, opos x y -> F x y = G x y) -> jet2_on opos F -> jet2_on opos G.
Proof.
  intros E HF x y Hu. destruct (HF x y Hu) as (A1 & A2 & A3 & A4 & A5 & A6). rewrite <- (E x y Hu).
  destruct Hu as [Hx Hy].
  split; [exact (D_ext_pos _ _ _ _ Hx (fun u Hu => f_equal b0 (E u y (conj Hu Hy))) A1)|].
  split; [exact (D_ext_pos _ _ _ _ Hy (fun u Hu => f_equal b0 (E x u (conj Hx Hu))) A2)|].
  split; [exact (D_ext_pos _ _ _ _ Hx (fun u Hu => f_equal bx (E u y (conj Hu Hy))) A3)|].
  split; [exact (D_ext_pos _ _ _ _ Hy (fun u Hu => f_equal bx (E x u (conj Hx Hu))) A4)|].
  split; [exact (D_ext_pos _ _ _ _ Hx (fun u Hu => f_equal by_ (E u y (conj Hu Hy))) A5)|].
  exact (D_ext_pos _ _ _ _ Hy (fun u Hu => f_equal by_ (E x u (conj Hx Hu))) A6).
Qed.
Lemma jet2_sub (U V : R -> R -> Prop) F : (forall x y, V x y -> U x y) -> jet2_on U F -> jet2_on V F.
Proof. intros H HF x y Hx. exact (HF x y (H x y Hx)). Qed.

(* sets open along both axes *)
Definition axis_open (U : R -> R -> Prop) : Prop := forall x y, U x y ->
  exists eps, 0 < eps /\ (forall u, Rabs (u - x) < eps -> U u y) /\
              (forall v, Rabs (v - y) < eps -> U x v).
Lemma jet2_ext_open U F G : axis_open U -> (forall x y, U x y -> F x y = G x y) ->
  jet2_on U F -> jet2_on U G.
Proof.
  intros O E HF x y Hu. destruct (HF x y Hu) as (A1 & A2 & A3 & A4 & A5 & A6). rewrite <- (E x y Hu).
  destruct (O x y Hu) as (eps & He & Ox & Oy).
  split; [exact (D_ext_loc _ _ _ _ _ He (fun u Hu => f_equal b0 (E u y (Ox u Hu))) A1)|].
  split; [exact (D_ext_loc _ _ _ _ _ He (fun u Hu => f_equal b0 (E x u (Oy u Hu))) A2)|].
  split; [exact (D_ext_loc _ _ _ _ _ He (fun u Hu => f_equal bx (E u y (Ox u Hu))) A3)|].
  split; [exact (D_ext_loc _ _ _ _ _ He (fun u Hu => f_equal bx (E x u (Oy u Hu))) A4)|].
  split; [exact (D_ext_loc _ _ _ _ _ He (fun u Hu => f_equal by_ (E u y (Ox u Hu))) A5)|].
  exact (D_ext_loc _ _ _ _ _ He (fun u Hu => f_equal by_ (E x u (Oy u Hu))) A6).
Qed.
Lemma axis_open_pos : axis_open opos.
Proof.
  intros x y [Hx Hy]. exists (Rmin x y). split; [apply Rmin_glb_lt; assumption|].
  pose proof (Rmin_l x y). pose proof (Rmin_r x y).
  split; intros u Hu; apply Rabs_def2 in Hu; unfold opos; split; lra.
Qed.

(* What the argument parser of a dynamic mixture returns. *)
From Coq Require Import Reals ZArith List String Bool Lia Lra Arith.
From Verif Require Import Base Model_Num Model_Units Model_Igas Model_Igmix Model_Igtools Model_Igtprop
  Spec_Units Spec_Igas Spec_Igmix Spec_Igtools Spec_Igtprop Spec_IgtGas
  Proof_Solve Proof_Units Proof_Igas Proof_IgasUnits Proof_IgasState Proof_IgasCalls Proof_IgmixProp
  Proof_Igtshape Proof_Igtools Proof_IgtAdd Proof_IgtMore Proof_IgtItems Proof_IgtNew Proof_IgtProp Proof_IgtGas Proof_Dat.
Import ListNotations.
Local Open Scope R_scope.
Local Open Scope string_scope.
Local Open Scope list_scope.

Tactic Notation "bi" ident(H) ident(x) ident(Hx) := apply bind_ok in H; destruct H as (x & Hx & H).

Lemma ores_inv {A B} (o : option A) (f : A -> res B) r : ores o f = Ok r ->
  (o = None /\ r = None) \/ exists a b, o = Some a /\ f a = Ok b /\ r = Some b.
Proof.
  destruct o as [a|]; cbn [ores]; intro H; [right|left; split; [reflexivity|congruence]].
  bi H b Hb. injection H as <-. now exists a, b.
Qed.

(* ---- the final arguments ---- *)
Lemma dget_dset {A} k k' (v : A) d : dget k (dset k' v d) = if String.eqb k k' then Some v else dget k d.
Proof.
  destruct (String.eqb_spec k k') as [->|H]; [apply dget_dset_same|now apply dget_dset_other].
Qed.
Lemma dmem_get {A} k (d : list (string * A)) : dmem k d = match dget k d with Some _ => true | None => false end.
Proof. reflexivity. Qed.
Lemma positional_args varg kw kw1 : npositional varg kw = Ok kw1 ->
  (forall k a, dget k (named_args varg kw) = Some a -> dget k kw1 = Some a) /\
  (forall k a, dget k kw1 = Some a -> dget k (named_args varg kw) = Some a).
Proof.
  unfold npositional, named_args. intro H. bi H k1 H1. bi H k2 H2. destruct (Nat.ltb 2 (List.length varg)) eqn:L; [discriminate|].
  injection H as <-. destruct varg as [|a [|b [|c r]]]; [| | |discriminate L].
  - injection H1 as <-. injection H2 as <-. cbn [combine]. rewrite app_nil_r. auto.
  - rewrite dmem_get in H1. destruct (dget "T" kw) eqn:ET; [discriminate|]. injection H1 as <-. injection H2 as <-. cbn [combine].
    split; intros k x; rewrite dget_app, dget_dset; cbn [dget]; destruct (String.eqb_spec k "T") as [->|]; rewrite ?ET; auto.
    destruct (dget k kw); auto; discriminate. destruct (dget k kw); auto.
  - rewrite dmem_get in H1. destruct (dget "T" kw) eqn:ET; [discriminate|]. injection H1 as <-.
    rewrite dmem_get, dget_dset in H2. cbn [String.eqb Ascii.eqb Bool.eqb] in H2. destruct (dget "p" kw) eqn:Ep; [discriminate|]. injection H2 as <-. cbn [combine].
    split; intros k x; rewrite dget_app, !dget_dset; cbn [dget];
      destruct (String.eqb_spec k "p") as [->|]; rewrite ?Ep; cbn [String.eqb Ascii.eqb Bool.eqb]; auto;
      destruct (String.eqb_spec k "T") as [->|]; rewrite ?ET; auto;
      destruct (dget k kw); auto; discriminate.
Qed.
Lemma ok_inj {A} (a b : A) : Ok a = Ok b -> a = b.
Proof. congruence. Qed.
Lemma default_args E kw1 kw2 : ndefaults E kw1 = Ok kw2 ->
  (forall k a, dget k kw1 = Some a -> dget k kw2 = Some a) /\
  (forall k a, dget k kw2 = Some a -> dget k kw1 = Some a \/ nsh a = []).
Proof.
  unfold ndefaults. intro H. destruct kw1 as [|x [|y r]]; cbn [List.length] in H.
  - bi H t Ht. bi H q Hq. apply ok_inj in H; subst kw2. split; [discriminate|]. intros k a G. right. rewrite dget_dset in G. rewrite dget_dset in G.
    destruct (String.eqb k "p"); [injection G as <-; reflexivity|]. destruct (String.eqb k "T"); [injection G as <-; reflexivity|discriminate].
  - destruct (dmem "T" [x]) eqn:M.
    + bi H q Hq. apply ok_inj in H; subst kw2. split.
      * intros k a G. rewrite dget_dset. destruct (String.eqb_spec k "p") as [->|]; [|exact G]. exfalso.
        unfold dmem in M. destruct x as [k0 v0]. cbn [dget] in G, M. destruct (String.eqb_spec "p" k0) as [<-|]; [|discriminate].
        discriminate M.
      * intros k a. rewrite dget_dset. destruct (String.eqb k "p"); [|auto]. intro G. injection G as <-. now right.
    + bi H t Ht. apply ok_inj in H; subst kw2. split.
      * intros k a G. rewrite dget_dset. destruct (String.eqb_spec k "T") as [->|]; [|exact G]. exfalso.
        unfold dmem in M. rewrite G in M. discriminate.
      * intros k a. rewrite dget_dset. destruct (String.eqb k "T"); [|auto]. intro G. injection G as <-. now right.
  - apply ok_inj in H; subst kw2. auto.
Qed.

(* at most two arguments *)
Lemma three_args {A} (kw : list (string * A)) k1 k2 k3 a b c : (List.length kw <= 2)%nat ->
  dget k1 kw = Some a -> dget k2 kw = Some b -> dget k3 kw = Some c -> k1 <> k2 -> k1 <> k3 -> k2 <> k3 -> False.
Proof.
  intros L A1 A2 A3 N1 N2 N3.
  assert (I : incl [k1; k2; k3] (dkeys kw)).
  { intros k [<-|[<-|[<-|[]]]]; apply dget_in_keys; eauto. }
  apply NoDup_incl_length in I.
  - unfold dkeys in I. rewrite map_length in I. cbn [List.length] in I. lia.
  - repeat constructor; cbn; intuition.
Qed.

Record stands (P : pool) (E : env) (m : mix) (kw : nkw) (T : nd) (p d : option nd) (u : list nat) : Prop := {
  st_u : u <> [];
  st_m : stretches (shape m) u;
  st_T : nsh T = u;
  st_p : forall p0, p = Some p0 -> nsh p0 = u;
  st_d : forall d0, d = Some d0 -> nsh d0 = u;
  st_one : p <> None \/ d <> None;
  st_law : e_oob E = None -> forall p0 d0, p = Some p0 -> d = Some d0 -> forall i, index_in u i ->
     nel T i = None \/ nel T i = fdiv (nel p0 i) (fmul (Some R1000) (nel d0 i));
  st_gT : forall a, dget "T" kw = Some a -> exists b, ntscale E (atleast_1d a) None (Some "K") = Ok b /\ laid b u /\
     forall i, index_in u i -> nel T i = at_index b i;
  st_gp : forall a, dget "p" kw = Some a -> exists b p0, nconvert E QPressure (atleast_1d a) None (Some "Pa") None = Ok b /\
     laid b u /\ p = Some p0 /\ forall i, index_in u i -> nel p0 i = at_index b i;
  st_gd : forall a, dget "d" kw = Some a -> exists b c d0, nconvert E QVolume (atleast_1d a) None (Some "m3") (Some (-1)%Z) = Ok b /\
     nmatter E b (mix_mw P m) None (Some "kmol") None = Ok c /\ laid c u /\ d = Some d0 /\
     forall i, index_in u i -> nel d0 i = at_index c i;
  st_gs : forall a, dget "s" kw = Some a -> dget "p" kw = None -> exists b c p0,
     nconvert E QEnergy (atleast_1d a) None (Some "kJ") None = Ok b /\
     nconvert E QTemperature b None (Some "K") (Some (-1)%Z) = Ok c /\ laid c u /\
     p = Some p0 /\ p_from_s P m c T = Ok p0 }.

Lemma ntscale_shape E a f t b : ntscale E a f t = Ok b -> nsh b = nsh a.
Proof. unfold ntscale. intro H. bi H x Hx. now injection H as <-. Qed.
Lemma nconvert_shape E q a f t e b : nconvert E q a f t e = Ok b -> nsh b = nsh a.
Proof. unfold nconvert. intro H. bi H x Hx. now injection H as <-. Qed.
Lemma np_shape_len s t u : np_shape s t = Some u -> List.length u = Nat.max (List.length s) (List.length t).
Proof. rewrite np_shape_spec. intros [H _]. exact H. Qed.
Lemma nmatter_flat E P m a f t e b : shape m <> [] -> flat (shape m) a -> nmatter E a (mix_mw P m) f t e = Ok b -> flat (shape m) b.
Proof.
  intros Hs F H. unfold nmatter in H. bi H mf Hf. bi H mt Ht. destruct (Bool.eqb mf mt).
  - bi H k Hk. injection H as <-. exact F.
  - unfold np_op in H. destruct (np_shape (nsh a) (nsh (mix_mw P m))) as [v|] eqn:N; [|discriminate]. injection H as <-.
    right. cbn [nsh]. rewrite (np_shape_len _ _ _ N). cbn [mix_mw nsh].
    destruct F as [F|F]; rewrite F; cbn [List.length]; [destruct (shape m); [congruence|cbn [List.length]; lia]|lia].
Qed.
Lemma flat_eq s a b : nsh a = nsh b -> flat s b -> flat s a.
Proof. unfold flat. now intros ->. Qed.
Lemma laid_eq a b u : nsh a = nsh b -> laid b u -> laid a u.
Proof. unfold laid. now intros ->. Qed.

Lemma niter_shape P m lo hi r y T : niter P m lo hi r y = Ok T -> nsh T = nsh y.
Proof.
  unfold niter. destruct (np_shape _ _); [|discriminate]. destruct (shape_eqb _ _); [|discriminate]. intro H. bi H x Hx. now injection H as <-.
Qed.
Lemma ninvert_flat P E m lo hi r v T : shape m <> [] -> flat (shape m) v -> ninvert P E m lo hi r v = Ok T -> flat (shape m) T.
Proof.
  intros Hs F H. unfold ninvert in H. bi H v1 H1. bi H sh H2. bi H y H3. apply niter_shape in H.
  apply nconvert_shape in H1. destruct (flat_broadcast (shape m) v1 sh Hs (flat_eq _ _ _ H1 F) H2) as (N & S & L).
  unfold broadcast_to in H3. destruct (fits _ _); [|discriminate]. injection H3 as <-. right. rewrite H. cbn [nsh].
  now rewrite (stretches_len _ _ S).
Qed.

Definition unclear (E : env) (T T' : nd) : Prop :=
  nsh T' = nsh T /\ forall i, nel T' i = nel T i \/ nel T' i = e_oob E.
Lemma bounds_clear E lo hi T ro T' : nbounds E lo hi T ro = Ok T' -> unclear E T T' /\ (ro = true -> T' = T).
Proof.
  unfold nbounds. destruct (forallb _ _); [discriminate|]. destruct (existsb _ _).
  - destruct ro; [discriminate|]. intro H. injection H as <-. split; [|discriminate]. split; [reflexivity|].
    intro i. cbn [np_map nel]. match goal with |- (if ?b then _ else _) = _ \/ _ => destruct b end; auto.
  - intro H. injection H as <-. split; [|auto]. split; auto.
Qed.

Lemma argparse_stands P E m varg kw T p d : mixture_ok m -> like_mixture m varg kw ->
  nargparse P E m varg kw = Ok (T, p, d) ->
  x_c m <> [] /\ exists u kw2, stands P E m kw2 T p d u /\
    (forall k a, dget k (named_args varg kw) = Some a -> dget k kw2 = Some a) /\ (List.length kw2 <= 2)%nat.
Proof.
  intros (Hq & Hs & Hnd) Hlike H. unfold nargparse in H. bi H lim HL. bi H kw1 H1. bi H kw2 H2. bi H tt0 HR. bi H st HS.
  destruct st as [[[T0 ro] p0] d0]. bi H T1 HB. injection H as -> -> ->.
  split. { intro E0. unfold limits, igt_Tlim in HL. rewrite E0 in HL. cbn in HL. discriminate. }
  destruct (positional_args _ _ _ H1) as [PA1 PA2]. destruct (default_args _ _ _ H2) as [DA1 DA2].
  assert (Like : forall k a, dget k kw2 = Some a -> flat (shape m) (atleast_1d a)).
  { intros k a G. apply flat_arg; [exact Hs|]. destruct (DA2 k a G) as [G1|G1]; [|now left].
    apply PA2 in G1. apply dget_some_in in G1. exact (Hlike k a G1). }
  assert (L2 : (List.length kw2 <= 2)%nat).
  { unfold nrules in HR. destruct (Nat.ltb_spec 2 (List.length kw2)); [discriminate|assumption]. }
  assert (NTH : forall a b k, In k ["e"; "h"] -> dget "T" kw2 = Some a -> dget k kw2 = Some b -> False).
  { intros a b k Hk GT Gk. unfold nrules in HR. destruct (Nat.ltb 2 _); [discriminate|]. destruct (existsb _ _); [discriminate|].
    cbn [filter] in HR. rewrite (dmem_get "T"), GT in HR. rewrite (dmem_get "e"), (dmem_get "h") in HR.
    destruct Hk as [<-|[<-|[]]]; rewrite Gk in HR; [destruct (dget "h" kw2)|destruct (dget "e" kw2)]; discriminate HR. }
  assert (NDV : forall a b, dget "d" kw2 = Some a -> dget "v" kw2 = Some b -> False).
  { intros a b Gd Gv. unfold nrules in HR. destruct (Nat.ltb 2 _); [discriminate|]. destruct (existsb _ _); [discriminate|].
    destruct (Nat.ltb 1 _); [discriminate|]. rewrite (dmem_get "v"), (dmem_get "d"), Gd, Gv in HR. discriminate. }
  clear HR H1 H2 PA2 DA2 Hlike.
  assert (Fin : (forall k a, dget k (named_args varg kw) = Some a -> dget k kw2 = Some a) /\ (List.length kw2 <= 2)%nat) by auto.
  clear PA1 DA1. unfold nsolve in HS.
  assert (Arg : forall k a, match dget k kw2 with Some a => Some (atleast_1d a) | None => None end = Some a ->
    exists a0, dget k kw2 = Some a0 /\ a = atleast_1d a0 /\ flat (shape m) a).
  { intros k a G. destruct (dget k kw2) as [a0|] eqn:G0; [|discriminate]. injection G as <-. exists a0. eauto. }
  assert (ArgN : forall k, match dget k kw2 with Some a => Some (atleast_1d a) | None => None end = None -> dget k kw2 = None).
  { intros k G. destruct (dget k kw2); [discriminate|reflexivity]. }
  bi HS rT HT. bi HS rp Hp. bi HS rd Hd. bi HS rv Hv. bi HS rh Hh. bi HS re He. bi HS rs HSs.
  apply bounds_clear in HB. destruct HB as [[HB1 HB2] HB3].
  (* each argument *)
  apply ores_inv in HT, Hp, Hd, Hv, Hh, He, HSs.
  assert (FT : forall b, rT = Some b -> exists a, dget "T" kw2 = Some a /\ ntscale E (atleast_1d a) None (Some "K") = Ok b /\ flat (shape m) b).
  { intros b ->. destruct HT as [[_ X]|(a & b' & X & Y & Z)]; [discriminate|]. injection Z as <-.
    destruct (Arg "T" a X) as (a0 & A1 & -> & A2). exists a0. split; [exact A1|]. split; [exact Y|].
    eapply flat_eq; [eapply ntscale_shape; exact Y|exact A2]. }
  assert (Fp : forall b, rp = Some b -> exists a, dget "p" kw2 = Some a /\ nconvert E QPressure (atleast_1d a) None (Some "Pa") None = Ok b /\ flat (shape m) b).
  { intros b ->. destruct Hp as [[_ X]|(a & b' & X & Y & Z)]; [discriminate|]. injection Z as <-.
    destruct (Arg "p" a X) as (a0 & A1 & -> & A2). exists a0. split; [exact A1|]. split; [exact Y|].
    eapply flat_eq; [eapply nconvert_shape; exact Y|exact A2]. }
  assert (Fd : forall b, rd = Some b -> exists a c, dget "d" kw2 = Some a /\ nconvert E QVolume (atleast_1d a) None (Some "m3") (Some (-1)%Z) = Ok c /\
     nmatter E c (mix_mw P m) None (Some "kmol") None = Ok b /\ flat (shape m) b).
  { intros b ->. destruct Hd as [[_ X]|(a & b' & X & Y & Z)]; [discriminate|]. injection Z as <-.
    destruct (Arg "d" a X) as (a0 & A1 & -> & A2). bi Y c Hc. exists a0, c. split; [exact A1|]. split; [exact Hc|]. split; [exact Y|].
    eapply nmatter_flat; [exact Hs| |exact Y]. eapply flat_eq; [eapply nconvert_shape; exact Hc|exact A2]. }
  assert (Fv : forall b, rv = Some b -> exists a, dget "v" kw2 = Some a /\ flat (shape m) b).
  { intros b ->. destruct Hv as [[_ X]|(a & b' & X & Y & Z)]; [discriminate|]. injection Z as <-.
    destruct (Arg "v" a X) as (a0 & A1 & -> & A2). bi Y c Hc. bi Y e Hce. injection Y as <-. exists a0. split; [exact A1|].
    apply flat_map. eapply nmatter_flat; [exact Hs| |exact Hce]. eapply flat_eq; [eapply nconvert_shape; exact Hc|exact A2]. }
  assert (Fh : forall b, rh = Some b -> exists a, dget "h" kw2 = Some a /\ flat (shape m) b).
  { intros b ->. destruct Hh as [[_ X]|(a & b' & X & Y & Z)]; [discriminate|]. injection Z as <-.
    destruct (Arg "h" a X) as (a0 & A1 & -> & A2). exists a0. split; [exact A1|]. eapply ninvert_flat; eassumption. }
  assert (Fe : forall b, re = Some b -> exists a, dget "e" kw2 = Some a /\ flat (shape m) b).
  { intros b ->. destruct He as [[_ X]|(a & b' & X & Y & Z)]; [discriminate|]. injection Z as <-.
    destruct (Arg "e" a X) as (a0 & A1 & -> & A2). exists a0. split; [exact A1|]. eapply ninvert_flat; eassumption. }
  assert (Fs : forall b, rs = Some b -> exists a c, dget "s" kw2 = Some a /\ nconvert E QEnergy (atleast_1d a) None (Some "kJ") None = Ok c /\
     nconvert E QTemperature c None (Some "K") (Some (-1)%Z) = Ok b /\ flat (shape m) b).
  { intros b ->. destruct HSs as [[_ X]|(a & b' & X & Y & Z)]; [discriminate|]. injection Z as <-.
    destruct (Arg "s" a X) as (a0 & A1 & -> & A2). bi Y c Hc. exists a0, c. split; [exact A1|]. split; [exact Hc|]. split; [exact Y|].
    apply nconvert_shape in Hc, Y. eapply flat_eq; [etransitivity; [exact Y|exact Hc]|exact A2]. }
  assert (NT : rT = None -> dget "T" kw2 = None). { intros ->. destruct HT as [[X _]|(a & b' & X & Y & Z)]; [now apply ArgN|discriminate]. }
  assert (Np : rp = None -> dget "p" kw2 = None). { intros ->. destruct Hp as [[X _]|(a & b' & X & Y & Z)]; [now apply ArgN|discriminate]. }
  assert (Nd : rd = None -> dget "d" kw2 = None). { intros ->. destruct Hd as [[X _]|(a & b' & X & Y & Z)]; [now apply ArgN|discriminate]. }
  assert (Ns : rs = None -> dget "s" kw2 = None). { intros ->. destruct HSs as [[X _]|(a & b' & X & Y & Z)]; [now apply ArgN|discriminate]. }
  clear HT Hp Hd Hv Hh He HSs Arg ArgN.
  set (TT := match re with Some x => Some x | None => match rh with Some x => Some x | None => rT end end) in *.
  set (DD := match rv with Some x => Some x | None => rd end) in *.
  assert (FTT : forall b, TT = Some b -> flat (shape m) b /\ (rT = TT \/ (dget "T" kw2 = None /\ exists k b, In k ["e"; "h"] /\ dget k kw2 = Some b))).
  { intros b Hb. unfold TT in *. destruct re as [x|].
    - injection Hb as ->. destruct (Fe _ eq_refl) as (a & A1 & A2). split; [exact A2|]. right.
      split; [|exists "e", a; split; [cbn; auto|exact A1]].
      destruct (dget "T" kw2) eqn:G; [|reflexivity]. exfalso. exact (NTH _ _ "e" ltac:(cbn; auto) eq_refl A1).
    - destruct rh as [x|].
      + injection Hb as ->. destruct (Fh _ eq_refl) as (a & A1 & A2). split; [exact A2|]. right.
        split; [|exists "h", a; split; [cbn; auto|exact A1]].
        destruct (dget "T" kw2) eqn:G; [|reflexivity]. exfalso. exact (NTH _ _ "h" ltac:(cbn; auto) eq_refl A1).
      + destruct (FT _ Hb) as (a & A1 & A2 & A3). split; [exact A3|now left]. }
  assert (NTT : TT = None -> dget "T" kw2 = None).
  { unfold TT. destruct re; [discriminate|]. destruct rh; [discriminate|]. exact NT. }
  assert (FDD : forall b, DD = Some b -> flat (shape m) b).
  { intros b Hb. unfold DD in Hb. destruct rv as [x|]; [injection Hb as ->; destruct (Fv _ eq_refl) as (a & _ & A); exact A|].
    destruct (Fd _ Hb) as (a & c & _ & _ & _ & A). exact A. }
  assert (DDd : forall a, dget "d" kw2 = Some a -> DD = rd).
  { intros a G. unfold DD. destruct rv as [x|]; [|reflexivity]. destruct (Fv _ eq_refl) as (b & B & _). exfalso. eauto. }
  clearbody DD TT.
  destruct rs as [sv|].
  - destruct (Fs _ eq_refl) as (sa & sc & S1 & S2 & S3 & S4).
    destruct rd as [dd|]; [discriminate|]. destruct rp as [pv|].
    + (* s, p *)
      destruct (Fp _ eq_refl) as (pa & P1 & P2 & P3).
      bi HS s1 B1. bi HS s2 B2. bi HS p' BP. bi HS w HW. bi HS y HY. bi HS T' HI. injection HS as <- <- <- <-.
      destruct (flat_broadcast _ _ _ Hs S4 B1) as (N1 & St1 & L1).
      destruct (flat_broadcast s1 pv s2 N1) as (N2 & St2 & L2'); [eapply flat_shape; [apply stretches_len, St1|exact P3]|exact B2|].
      destruct (bto_laid pv s2 N2 L2') as (v & V1 & V2 & V3). rewrite V1 in BP. injection BP as <-.
      apply sp_of_shape in HW. rewrite V2 in HW.
      destruct (op_laid fsub sv w s2 N2 (laid_up _ _ _ L1 St2) (laid_same _ _ HW) (or_intror HW)) as (c & C1 & C2 & C3).
      rewrite C1 in HY. injection HY as <-. apply niter_shape in HI. rewrite C2 in HI.
      exists s2, kw2. split; [|exact Fin]. split.
      * exact N2.
      * eapply stretches_trans; eassumption.
      * now rewrite HB1.
      * intros p1 Hp1. now injection Hp1 as <-.
      * discriminate.
      * left; discriminate.
      * discriminate.
      * intros a Ga. exfalso. refine (three_args kw2 "T" "p" "s" _ _ _ L2 Ga P1 S1 _ _ _); discriminate.
      * intros a Ga. rewrite P1 in Ga. injection Ga as <-. exists pv, v. split; [exact P2|]. split; [exact L2'|]. split; [reflexivity|].
        intros i Hi. apply V3. now apply index_in_len.
      * intros a Ga. exfalso. refine (three_args kw2 "d" "p" "s" _ _ _ L2 Ga P1 S1 _ _ _); discriminate.
      * intros a Ga Gp. congruence.
    + destruct TT as [tv|]; [|discriminate]. destruct (FTT _ eq_refl) as (T1' & T2').
      bi HS s1 B1. bi HS s2 B2. bi HS x0 BS. bi HS T' BT. bi HS p' HP. injection HS as <- <- <- <-.
      destruct (flat_broadcast _ _ _ Hs S4 B1) as (N1 & St1 & L1).
      destruct (flat_broadcast s1 tv s2 N1) as (N2 & St2 & L2'); [eapply flat_shape; [apply stretches_len, St1|exact T1']|exact B2|].
      destruct (bto_laid tv s2 N2 L2') as (v & V1 & V2 & V3). rewrite V1 in BT. injection BT as <-.
      specialize (HB3 eq_refl). subst T.
      assert (St : stretches (shape m) s2) by (eapply stretches_trans; eassumption).
      assert (Hne : x_c m <> []).
      { intro E0. unfold limits, igt_Tlim in HL. rewrite E0 in HL. cbn in HL. discriminate. }
      destruct (p_from_s_str P m sv v s2 N2 Hs St (laid_up _ _ _ L1 St2) V2 Hne) as (p1 & Q1 & Q2 & _). rewrite Q1 in HP. injection HP as <-.
      exists s2, kw2. split; [|exact Fin]. split.
      * exact N2.
      * exact St.
      * exact V2.
      * intros p2 Hp2. now injection Hp2 as <-.
      * discriminate.
      * left; discriminate.
      * discriminate.
      * intros a Ga. destruct T2' as [T2'|[T2' _]]; [|congruence]. destruct (FT _ T2') as (b & G1 & G2 & G3). rewrite G1 in Ga. injection Ga as <-.
        exists tv. split; [exact G2|]. split; [exact L2'|]. intros i Hi. apply V3. now apply index_in_len.
      * intros a Ga. rewrite (Np eq_refl) in Ga. discriminate.
      * intros a Ga. rewrite (Nd eq_refl) in Ga. discriminate.
      * intros a Ga _. rewrite S1 in Ga. injection Ga as <-. exists sc, sv, p1. split; [exact S2|]. split; [exact S3|].
        split; [eapply laid_up; eassumption|]. split; [reflexivity|exact Q1].
  - assert (GS : forall a, dget "s" kw2 = Some a -> False) by (intros a Ga; rewrite (Ns eq_refl) in Ga; discriminate).
    destruct TT as [tv|].
    + destruct (FTT _ eq_refl) as (T1' & T2'). destruct rp as [pv|].
      * destruct (Fp _ eq_refl) as (pa & P1 & P2 & P3). bi HS r HR. injection HS as <- <- <- <-.
        destruct (pair_up_shape m tv pv r Hs T1' P3 HR) as (u & U1 & U2 & U3 & U4 & U5 & U6 & U7 & U8).
        specialize (HB3 eq_refl). subst T. exists u, kw2. split; [|exact Fin]. split; auto.
        -- intros p1 Hp1. now injection Hp1 as <-.
        -- discriminate.
        -- left; discriminate.
        -- discriminate.
        -- intros a Ga. destruct T2' as [T2'|[T2' _]]; [|congruence]. destruct (FT _ T2') as (b & G1 & G2 & G3). rewrite G1 in Ga. injection Ga as <-.
           exists tv. auto.
        -- intros a Ga. rewrite P1 in Ga. injection Ga as <-. exists pv, (snd r). auto.
        -- (* T or h or e with p and d *)
           intros a Ga. exfalso. destruct T2' as [T2'|[_ (k & b & Hk & Gk)]].
           ++ destruct (FT _ T2') as (b & G1 & _). refine (three_args kw2 "T" "p" "d" _ _ _ L2 G1 P1 Ga _ _ _); discriminate.
           ++ refine (three_args kw2 k "p" "d" _ _ _ L2 Gk P1 Ga _ _ _); destruct Hk as [<-|[<-|[]]]; discriminate.
        -- intros a Ga. destruct (GS _ Ga).
      * destruct DD as [dv|]; [|discriminate]. bi HS r HR. injection HS as <- <- <- <-.
        destruct (pair_up_shape m tv dv r Hs T1' (FDD _ eq_refl) HR) as (u & U1 & U2 & U3 & U4 & U5 & U6 & U7 & U8).
        specialize (HB3 eq_refl). subst T. exists u, kw2. split; [|exact Fin]. split; auto.
        -- discriminate.
        -- intros p1 Hp1. now injection Hp1 as <-.
        -- right; discriminate.
        -- discriminate.
        -- intros a Ga. destruct T2' as [T2'|[T2' _]]; [|congruence]. destruct (FT _ T2') as (b & G1 & G2 & G3). rewrite G1 in Ga. injection Ga as <-.
           exists tv. auto.
        -- intros a Ga. rewrite (Np eq_refl) in Ga. discriminate.
        -- intros a Ga. destruct (Fd dv (eq_sym (DDd _ Ga))) as (b & c & G1 & G2 & G3 & G4). rewrite G1 in Ga. injection Ga as <-.
           exists c, dv, (snd r). auto.
        -- intros a Ga. destruct (GS _ Ga).
    + destruct rp as [pv|]; [|discriminate]. destruct DD as [dv|]; [|discriminate].
      destruct (Fp _ eq_refl) as (pa & P1 & P2 & P3). bi HS r HR. bi HS T' HO. injection HS as <- <- <- <-.
      destruct (pair_up_shape m pv dv r Hs P3 (FDD _ eq_refl) HR) as (u & U1 & U2 & U3 & U4 & U5 & U6 & U7 & U8).
      destruct (op_same (fun p d => fdiv p (fmul (Some R1000) d)) (fst r) (snd r) u U5 U6) as (c & C1 & C2 & C3).
      rewrite C1 in HO. injection HO as <-.
      exists u, kw2. split; [|exact Fin]. split; auto.
      * now rewrite HB1.
      * intros p1 Hp1. now injection Hp1 as <-.
      * intros p1 Hp1. now injection Hp1 as <-.
      * left; discriminate.
      * intros Ho p1 d1 Hp1 Hd1 i Hi. injection Hp1 as <-. injection Hd1 as <-. destruct (HB2 i) as [Q|Q].
        -- right. now rewrite Q, (C3 i Hi).
        -- left. now rewrite Q.
      * intros a Ga. rewrite (NTT eq_refl) in Ga. discriminate.
      * intros a Ga. rewrite P1 in Ga. injection Ga as <-. exists pv, (fst r). auto.
      * intros a Ga. destruct (Fd dv (eq_sym (DDd _ Ga))) as (b & c' & G1 & G2 & G3 & G4). rewrite G1 in Ga. injection Ga as <-.
        exists c', dv, (snd r). auto.
      * intros a Ga. destruct (GS _ Ga).
Qed.

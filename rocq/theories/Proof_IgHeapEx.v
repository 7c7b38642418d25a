(* Arrays of the caller that are modified. *)
From Coq Require Import Reals ZArith List Bool Arith String Lra Lia.
From Verif Require Import Base Model_Num Model_Units Model_Defaults Model_Igas Proof_IgasEx Model_IgHeap Spec_IgHeap Proof_IgHeap.
Import ListNotations.
Local Open Scope R_scope.
Local Open Scope string_scope.
Local Open Scope list_scope.

Lemma atscale_KK v u dp : atscale (session "Pa" dp u) v None (Some "K") = Ok v.
Proof.
  unfold atscale. cbn. f_equal. rewrite <- (map_id v) at 2. apply map_ext. intros [x|]; reflexivity.
Qed.
Lemma scaled_1' v : map (fmul (Some 1)) v = v.
Proof. rewrite <- (map_id v) at 2. apply map_ext. intros [x|]; cbn; [now rewrite Rmult_1_l | reflexivity]. Qed.
Lemma out_spec g x : out_of_range g (Some x) = true <-> ~ (Tlow g <= x <= Thigh g).
Proof.
  unfold out_of_range, flt. destruct (Rlt_dec x (Tlow g)); destruct (Rlt_dec (Thigh g) x); cbn; split; intro; try lra; try reflexivity; try discriminate.
Qed.
Lemma oob_bounds g E Ts t1 t2 : In (Some t1) Ts -> Tlow g <= t1 <= Thigh g -> In (Some t2) Ts -> ~ (Tlow g <= t2 <= Thigh g) ->
  forallb (out_of_range g) Ts = false /\ existsb (out_of_range g) Ts = true /\
  bounds g E Ts = Ok (map (fun t => if out_of_range g t then e_oob E else t) Ts).
Proof.
  intros I1 R1 I2 R2.
  assert (forallb (out_of_range g) Ts = false) as F.
  { apply not_true_is_false. intro H. rewrite forallb_forall in H. specialize (H _ I1). apply out_spec in H. lra. }
  split; [exact F|]. split; [apply existsb_exists; exists (Some t2); split; [exact I2 | now apply out_spec]|].
  unfold bounds. rewrite F. reflexivity.
Qed.

Lemma argparse_oob g dp u Ts p t1 t2 : In (Some t1) Ts -> Tlow g <= t1 <= Thigh g -> In (Some t2) Ts -> ~ (Tlow g <= t2 <= Thigh g) ->
  exists h', h_argparse g (session "Pa" dp u) [] [("T", HArr 0); ("p", HVal [Some p])] [Ts] =
    (map (fun t => if out_of_range g t then None else t) Ts :: h', Ok (Whole 0, Some (Rep 1 (List.length Ts)), None)).
Proof.
  intros I1 R1 I2 R2. destruct (oob_bounds g (session "Pa" dp u) Ts t1 t2 I1 R1 I2 R2) as (_ & Ex & Bd).
  assert (exists a b l, Ts = a :: b :: l) as (a & b & l & ETs).
  { destruct Ts as [|a [|b l]]; [destruct I1 | | eauto]. destruct I1 as [->|[]]. destruct I2 as [I2|[]]. injection I2 as <-. contradiction. }
  assert (Bc : broadcast Ts [Some p] = Ok (Ts, repeat (Some p) (List.length Ts), false, true)) by (rewrite ETs; reflexivity).
  unfold h_argparse, mbind, lift. cbn [h_positional Nat.ltb Nat.leb List.length bind h_defaults].
  change (h_rules [("T", HArr 0); ("p", HVal [Some p])]) with (@Ok unit tt). cbv iota.
  cbn [h_arrays asarray]. unfold mbind, ret, new. cbn [List.length app].
  unfold h_solve. cbn [dget String.eqb Ascii.eqb Bool.eqb mores]. unfold h_tscale, mbind, lift, read, ret.
  change (cfg_pair (session "Pa" dp u) "unit_temperature" None (Some "K")) with (@Ok (string*string) ("K","K")). cbn [hget nth].
  rewrite atscale_KK. change (same_scale (fst ("K", "K")) (snd ("K", "K"))) with true. cbv iota.
  unfold h_convert, mbind, lift, read, ret.
  change (unit_pair _ (session "Pa" dp u) None (Some "Pa")) with (@Ok (string*string) ("Pa","Pa")).
  change (aconvert (session "Pa" dp u) QPressure (hget [Ts; [Some p]] (Whole 1)) None (Some "Pa") None) with (@Ok arr (map (fmul (Some 1)) [Some p])).
  cbn [fst snd String.eqb Ascii.eqb Bool.eqb].
  cbv iota beta zeta. cbn [mores]. unfold h_broadcast, mbind, read, lift, ret. cbv iota beta zeta. cbn [hget nth]. rewrite Bc. cbv iota beta.
  unfold h_bounds, mbind, read, lift. cbn [hget nth ref_loc]. rewrite Bd, Ex. cbn [write upd]. eauto.
Qed.
Lemma oob_lemma g dp u Ts p t1 t2 : In (Some t1) Ts -> Tlow g <= t1 <= Thigh g -> In (Some t2) Ts -> ~ (Tlow g <= t2 <= Thigh g) ->
  nth 0 (fst (hm_h g (session "Pa" dp u) [] [("T", HArr 0); ("p", HVal [Some p])] [Ts])) [] =
  map (fun t => if out_of_range g t then None else t) Ts.
Proof.
  intros I1 R1 I2 R2. destruct (argparse_oob g dp u Ts p t1 t2 I1 R1 I2 R2) as (h' & Eh).
  unfold hm_h, hm_temp, mbind at 1. rewrite Eh. cbv iota. unfold mbind, read, lift. cbn [hget nth].
  destruct (scale_energy g (session "Pa" dp u)); reflexivity.
Qed.
Lemma oob_changed g dp u Ts p t1 t2 : In (Some t1) Ts -> Tlow g <= t1 <= Thigh g -> In (Some t2) Ts -> ~ (Tlow g <= t2 <= Thigh g) ->
  ~ unmodified [Ts] (fst (hm_h g (session "Pa" dp u) [] [("T", HArr 0); ("p", HVal [Some p])] [Ts])) /\
  ~ In (Some t2) (nth 0 (fst (hm_h g (session "Pa" dp u) [] [("T", HArr 0); ("p", HVal [Some p])] [Ts])) []).
Proof.
  intros I1 R1 I2 R2. rewrite (oob_lemma g dp u Ts p t1 t2 I1 R1 I2 R2).
  assert (~ In (Some t2) (map (fun t => if out_of_range g t then None else t) Ts)) as N.
  { intro H. apply in_map_iff in H. destruct H as (t & Et & It). destruct (out_of_range g t) eqn:O; [discriminate|]. subst t.
    apply out_spec in R2. congruence. }
  split; [|exact N]. intros (_ & U). specialize (U 0%nat ltac:(cbn; lia)). rewrite (oob_lemma g dp u Ts p t1 t2 I1 R1 I2 R2) in U. cbn in U.
  rewrite U in N. contradiction.
Qed.

(* entropies given in the units of the class *)
Lemma argparse_entropy g dp u Ss p : exists r,
  h_argparse g (session "Pa" dp u) [] [("s", HArr 0); ("p", HVal [Some p])] [Ss] = r /\
  (List.length Ss = 1%nat \/ (2 <= List.length Ss)%nat ->
   nth 0 (fst r) [] = map (fun x => fadd x (fmul (Some const_Ru) (flog (fdiv (Some p) (Some (g_pref g)))))) Ss).
Proof.
  eexists. split; [reflexivity|]. intro Len.
  assert (Bc : exists c, broadcast Ss [Some p] = Ok (Ss, repeat (Some p) (List.length Ss), false, c) /\
    (if c then Rep 1 (List.length Ss) else Whole 1) = (if Nat.eqb (List.length Ss) 1 then Whole 1 else Rep 1 (List.length Ss))).
  { destruct Ss as [|a [|b l]]; cbn in Len; try lia; eexists; split; reflexivity. }
  destruct Bc as (c & Bc & Ec).
  unfold h_argparse, mbind, lift. cbn [h_positional Nat.ltb Nat.leb List.length bind h_defaults].
  change (h_rules [("s", HArr 0); ("p", HVal [Some p])]) with (@Ok unit tt). cbv iota.
  cbn [h_arrays asarray]. unfold mbind, ret, new. cbn [List.length app].
  unfold h_solve. cbn [dget String.eqb Ascii.eqb Bool.eqb mores]. unfold h_tscale, h_convert, h_matter, mbind, lift, read, ret.
  change (unit_pair _ (session "Pa" dp u) None (Some "Pa")) with (@Ok (string*string) ("Pa","Pa")).
  change (unit_pair _ (session "Pa" dp u) None (Some "kJ")) with (@Ok (string*string) ("kJ","kJ")).
  change (unit_pair _ (session "Pa" dp u) None (Some "K")) with (@Ok (string*string) ("K","K")).
  change (cfg_pair (session "Pa" dp u) "unit_matter" None (Some "kmol")) with (@Ok (string*string) ("kmol","kmol")).
  unfold aconvert, amatter.
  change (convert _ _ 1 None (Some "Pa") None) with (@Ok R 1). change (convert _ _ 1 None (Some "kJ") None) with (@Ok R 1).
  change (convert _ _ 1 None (Some "K") (Some (-1)%Z)) with (@Ok R 1).
  change (matter _ _ 1 (g_mw g) None (Some "kmol") (Some (-1)%Z)) with (@Ok R 1). cbn [bind fst snd].
  change (String.eqb "Pa" "Pa") with true. change (String.eqb "kJ" "kJ") with true. change (String.eqb "K" "K") with true.
  change (String.eqb "kmol" "kmol") with true. cbv iota beta zeta.
  unfold h_broadcast, mbind, read, lift, ret. cbv iota beta zeta. cbn [hget nth]. rewrite Bc. cbv iota beta. cbn [ref_loc].
  rewrite Ec. clear Ec Bc.
  assert (Q : hget [Ss; [Some p]] (if Nat.eqb (List.length Ss) 1 then Whole 1 else Rep 1 (List.length Ss)) = repeat (Some p) (List.length Ss)).
  { destruct Ss as [|a [|b l]]; cbn in Len; try lia; reflexivity. }
  match goal with |- context [hget ?a ?b] => replace (hget a b) with (repeat (Some p) (List.length Ss)) by (symmetry; exact Q) end. clear Q. cbn [write upd hget nth].
  set (k := fmul (Some const_Ru) (flog (fdiv (Some p) (Some (g_pref g))))).
  assert (W : map2 fadd Ss (map (fun x => fmul (Some const_Ru) (flog (fdiv x (Some (g_pref g))))) (repeat (Some p) (List.length Ss))) =
              map (fun x => fadd x k) Ss).
  { clear Len. induction Ss as [|a l IH]; [reflexivity|]. unfold map2 in *. cbn [List.length repeat map combine fst snd]. rewrite IH. reflexivity. }
  rewrite W. destruct (iter1 _ _ _ _) as [T|e]; cbn [bind]; [|reflexivity].
  unfold new. cbn [List.length app]. unfold h_bounds, mbind, read, lift. cbn [hget nth].
  destruct (bounds g (session "Pa" dp u) T) as [w|e]; cbn [bind]; [|reflexivity].
  destruct (existsb (out_of_range g) T); reflexivity.
Qed.
Lemma entropy_lemma g dp u Ss p : Ss <> [] ->
  nth 0 (fst (hm_T g (session "Pa" dp u) [] [("s", HArr 0); ("p", HVal [Some p])] [Ss])) [] =
  map (fun x => fadd x (fmul (Some const_Ru) (flog (fdiv (Some p) (Some (g_pref g)))))) Ss.
Proof.
  intro N. destruct (argparse_entropy g dp u Ss p) as ((h', r) & Er & V).
  assert (L : List.length Ss = 1%nat \/ (2 <= List.length Ss)%nat) by (destruct Ss as [|a [|b l]]; [contradiction | left; reflexivity | right; cbn; lia]).
  specialize (V L). cbn [fst] in V. rewrite <- V.
  unfold hm_T. cbn [List.length Nat.add Nat.eqb]. unfold mbind at 1. cbv zeta.
  match goal with |- context[h_argparse ?a ?b ?c ?d ?e] => replace (h_argparse a b c d e) with (h', r) by (symmetry; exact Er) end.
  destruct r as [((T, p0), d)|e]; [|reflexivity].
  unfold mbind, lift, read, ret. change (cfg_pair (session "Pa" dp u) "unit_temperature" (Some "K") None) with (@Ok (string*string) ("K","K")).
  cbn [fst snd]. change (same_scale "K" "K") with true. cbv iota.
  destruct (atscale _ _ _ _); reflexivity.
Qed.
Lemma entropy_changed g dp u Ss p s : 0 < g_pref g -> 0 < p -> p <> g_pref g -> In (Some s) Ss ->
  let h' := fst (hm_T g (session "Pa" dp u) [] [("s", HArr 0); ("p", HVal [Some p])] [Ss]) in
  In (Some (s + const_Ru * ln (p / g_pref g))) (nth 0 h' []) /\ ~ unmodified [Ss] h'.
Proof.
  intros Hr Hp Hne Hs h'. assert (N : Ss <> []) by (intros ->; destruct Hs).
  assert (EV : fmul (Some const_Ru) (flog (fdiv (Some p) (Some (g_pref g)))) = Some (const_Ru * ln (p / g_pref g))).
  { cbn [fdiv]. destruct (Req_EM_T (g_pref g) 0); [lra|]. cbn [flog]. destruct (Rlt_dec 0 (p / g_pref g)) as [|K]; [reflexivity|].
    exfalso. apply K, Rdiv_lt_0_compat; lra. }
  assert (Eh : nth 0 h' [] = map (fun x => fadd x (fmul (Some const_Ru) (flog (fdiv (Some p) (Some (g_pref g)))))) Ss)
    by exact (entropy_lemma g dp u Ss p N).
  rewrite EV in Eh. clear EV. clearbody h'.
  set (k := const_Ru * ln (p / g_pref g)) in *.
  assert (k <> 0) as Hk.
  { unfold k. pose proof Ru_bounds. apply Rmult_integral_contrapositive_currified; [lra|]. intro K. rewrite <- ln_1 in K.
    apply ln_inv in K; [|apply Rdiv_lt_0_compat; lra|lra]. apply Hne. apply (Rmult_eq_reg_r (/ g_pref g)); [|apply Rinv_neq_0_compat; lra].
    unfold Rdiv in K. rewrite K. field. lra. }
  split.
  - rewrite Eh. apply in_map_iff. exists (Some s). split; [reflexivity | exact Hs].
  - intros (_ & U). specialize (U 0%nat ltac:(cbn; lia)). rewrite Eh in U. cbn [nth] in U. clear - U Hs Hk.
    induction Ss as [|a l IH]; [destruct Hs|]. cbn [map] in U. injection U as U1 U2. destruct Hs as [->|Hs]; [|exact (IH Hs U2)].
    cbn in U1. injection U1 as U1. lra.
Qed.
Lemma inst_oob : let E := session "Pa" 100000 "Pa" in
  In (Some 300) [Some 300; Some 100] /\ (Tlow g1 <= 300 <= Thigh g1) /\ ~ (Tlow g1 <= 100 <= Thigh g1) /\
  nth 0 (fst (hm_h g1 E [] [("T", HArr 0); ("p", HVal [Some 100000])] [[Some 300; Some 100]])) [] = [Some 300; None].
Proof.
  intro E. assert (A : Tlow g1 <= 300 <= Thigh g1) by (change (Tlow g1) with 200; change (Thigh g1) with 1000; lra).
  assert (B : ~ (Tlow g1 <= 100 <= Thigh g1)) by (change (Tlow g1) with 200; change (Thigh g1) with 1000; lra).
  split; [now left|]. split; [exact A|]. split; [exact B|].
  unfold E. rewrite (oob_lemma g1 100000 "Pa" [Some 300; Some 100] 100000 300 100); auto; try (cbn; tauto). cbn [map].
  pose proof (proj2 (out_spec g1 100) B) as ->. destruct (out_of_range g1 (Some 300)) eqn:O; [apply out_spec in O; contradiction | reflexivity].
Qed.
(* in kelvin and bar, temperatures in range: nothing is modified *)
Lemma inst_safe : let E := session "bar" 1 "bar" in let h := [[Some 300; Some 400]; [Some 1; Some 2]] in
  let kw := [("T", HArr 0); ("p", HArr 1)] in
  (kelvins E -> forall l, passed [] kw "T" l -> within_range g1 h l) /\
  (forall l, passed [] kw "s" l -> with_pressure [] kw -> ~ own_entropy E) /\
  passed [] kw "T" 0 /\ passed [] kw "p" 1 /\ kelvins E.
Proof.
  intros E h kw. repeat split; try (now left); try (left; reflexivity).
  - destruct H0 as [P|[(_ & P)|(_ & P)]]; cbn in P; try discriminate. injection P as <-. cbn in H1.
    change (Tlow g1) with 200. destruct H1 as [H1|[H1|[]]]; injection H1 as <-; lra.
  - destruct H0 as [P|[(_ & P)|(_ & P)]]; cbn in P; try discriminate. injection P as <-. cbn in H1.
    change (Thigh g1) with 1000. destruct H1 as [H1|[H1|[]]]; injection H1 as <-; lra.
  - intros l P. destruct P as [P|[(P & _)|(P & _)]]; cbn in P; discriminate.
Qed.

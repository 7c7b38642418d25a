(* C76: the state and the properties of a dynamic mixture fit together. *)
From Coq Require Import Reals List String.
From Verif Require Import Base Model_Num Model_Units Model_Igas Model_Igmix Model_Igtools Model_Igtprop
  Spec_Units Spec_Igas Spec_Igmix Spec_Igtools Spec_Igtprop Spec_IgtGas
  Proof_Igas Proof_IgtProp Proof_IgtInst Proof_IgtLaw Proof_IgtIdent Proof_IgtGiven Proof_IgtEnt Proof_IgtEx.
Import ListNotations.
Local Open Scope R_scope.
Local Open Scope string_scope.
Local Open Scope list_scope.

(* Whatever arguments are given (numbers or arrays with as many dimensions as the mixture, any
   pair of coordinates), temperature, pressure and density obey the ideal gas law element by
   element, in any configured units: p V = N R T with N the amount of one unit of matter. *)
Theorem C76_gas_law P E m n varg kw vT vp vd :
  mixture_ok m -> amounts_known m n -> like_mixture m varg kw -> e_oob E = None ->
  dynamic_method PT P E m varg kw = Ok vT -> dynamic_method Pp P E m varg kw = Ok vp ->
  dynamic_method Pd P E m varg kw = Ok vd ->
  nsh vp = nsh vT /\ nsh vd = nsh vT /\ List.length (nsh vT) = List.length (shape m) /\
  forall i t p d, index_in (nsh vT) i -> nel vT i = Some t -> nel vp i = Some p -> nel vd i = Some d ->
    forall uT kT kP kV kE kM, 0 < total_amount m n (project (shape m) i) ->
      units_known E (mean_weight P m n (project (shape m) i)) uT kT kP kV kE kM ->
      p * kP = d * kM / kV * (1000 * gas_constant) * to_kelvin uT t.
Proof. exact (fun Hm K L => gas_law P E m n varg kw Hm K L vT vp vd). Qed.
Print Assumptions C76_gas_law.
Example C76_gas_law_instance : exists vT vp vd d,
  mixture_ok m2 /\ amounts_known m2 n2 /\ like_mixture m2 [] TP /\ e_oob SK = None /\
  dynamic_method PT PAB SK m2 [] TP = Ok vT /\ dynamic_method Pp PAB SK m2 [] TP = Ok vp /\
  dynamic_method Pd PAB SK m2 [] TP = Ok vd /\
  nel vT [0%nat] = Some 500 /\ nel vp [0%nat] = Some 100000 /\ nel vd [0%nat] = Some d /\
  0 < total_amount m2 n2 (project (shape m2) [0%nat]) /\
  units_known SK (mean_weight PAB m2 n2 (project (shape m2) [0%nat])) "K" (9/5) 1 1 1000 1.
Proof.
  destruct law_inst as (vT & vp & vd & H1 & H2 & H3 & H4 & H5). destruct d_inst as (vd' & d & D1 & D2).
  assert (vd' = vd) by congruence. subst vd'. exists vT, vp, vd, d.
  repeat split; try assumption; try exact ok_m2; try exact amounts_m2; try exact like_TP; try exact units_mean.
  all: try apply ok_m2. all: try apply units_mean.
  change (project (shape m2) [0%nat]) with [0%nat]. rewrite total_m2. Lra.lra.
Qed.

(* Enthalpy and internal energy of the mixture differ by N R T and its heat capacities by N R,
   N the total amount at the index; the ratio of the heat capacities is what gam returns. *)
Theorem C76_heats P E m n varg kw (v : quantity_of -> nd) :
  mixture_ok m -> amounts_known m n -> like_mixture m varg kw ->
  (forall q, In q [PT; Ph; Pe; Pcp; Pcv; Pgam] -> dynamic_method q P E m varg kw = Ok (v q)) ->
  (forall q, In q [Ph; Pe; Pcp; Pcv; Pgam] -> nsh (v q) = nsh (v PT)) /\ List.length (nsh (v PT)) = List.length (shape m) /\
  forall i t uT kT kP kV kE kM w, index_in (nsh (v PT)) i -> nel (v PT) i = Some t ->
    units_known E w uT kT kP kV kE kM -> usable_at P E m n (to_kelvin uT t) ->
    0 < total_amount m n (project (shape m) i) ->
    exists h e cp cv, nel (v Ph) i = Some h /\ nel (v Pe) i = Some e /\ nel (v Pcp) i = Some cp /\ nel (v Pcv) i = Some cv /\
      (h - e) * kE = total_amount m n (project (shape m) i) * (1000 * gas_constant) * to_kelvin uT t /\
      (cp - cv) * kE = total_amount m n (project (shape m) i) * (1000 * gas_constant) * (kT / (9/5)) /\
      (cv <> 0 -> nel (v Pgam) i = Some (cp / cv)).
Proof. exact (fun Hm K L => heats P E m n varg kw Hm K L v). Qed.
Print Assumptions C76_heats.
Example C76_heats_instance : exists v : quantity_of -> nd,
  (forall q, In q [PT; Ph; Pe; Pcp; Pcv; Pgam] -> dynamic_method q PAB SK m2 [] TP = Ok (v q)) /\
  nel (v PT) [0%nat] = Some 500 /\ usable_at PAB SK m2 n2 (to_kelvin "K" 500) /\
  0 < total_amount m2 n2 (project (shape m2) [0%nat]).
Proof.
  exists (fun q => match dynamic_method q PAB SK m2 [] TP with Ok a => a | Err _ => scalar 0 end).
  split. { intros q _. destruct (all_m2 q) as (a & H & _). rewrite H. reflexivity. }
  split. { destruct law_inst as (vT & vp & vd & H1 & _ & _ & H4 & _). cbn [dynamic_method]. rewrite H1. exact H4. }
  split; [exact usable500|]. change (project (shape m2) [0%nat]) with [0%nat]. rewrite total_m2. Lra.lra.
Qed.

(* The Gibbs and Helmholtz energies are h - T s and e - T s of the values the methods return. *)
Theorem C76_free_energies P E m n varg kw (v : quantity_of -> nd) :
  mixture_ok m -> amounts_known m n -> like_mixture m varg kw ->
  (forall q, In q [PT; Ph; Pe; Ps; Pg; Pf] -> dynamic_method q P E m varg kw = Ok (v q)) ->
  (forall q, In q [Ph; Pe; Ps; Pg; Pf] -> nsh (v q) = nsh (v PT)) /\
  forall i t uT kT kP kV kE kM w, index_in (nsh (v PT)) i -> nel (v PT) i = Some t ->
    units_known E w uT kT kP kV kE kM -> usable_at P E m n (to_kelvin uT t) ->
    nel (v Pg) i = fsub (nel (v Ph) i) (fmul (Some (to_kelvin uT t * (9/5) / kT)) (nel (v Ps) i)) /\
    nel (v Pf) i = fsub (nel (v Pe) i) (fmul (Some (to_kelvin uT t * (9/5) / kT)) (nel (v Ps) i)).
Proof. exact (fun Hm K L => free_energies P E m n varg kw Hm K L v). Qed.
Print Assumptions C76_free_energies.
Example C76_free_energies_instance : exists v : quantity_of -> nd,
  (forall q, In q [PT; Ph; Pe; Ps; Pg; Pf] -> dynamic_method q PAB SK m2 [] TP = Ok (v q)) /\
  nel (v PT) [0%nat] = Some 500 /\ usable_at PAB SK m2 n2 (to_kelvin "K" 500).
Proof.
  exists (fun q => match dynamic_method q PAB SK m2 [] TP with Ok a => a | Err _ => scalar 0 end).
  split. { intros q _. destruct (all_m2 q) as (a & H & _). rewrite H. reflexivity. }
  split. { destruct law_inst as (vT & vp & vd & H1 & _ & _ & H4 & _). cbn [dynamic_method]. rewrite H1. exact H4. }
  exact usable500.
Qed.

(* A temperature, pressure or density that was given is what the method returns, stretched to
   the shape of the state. *)
Theorem C76_given P E m n varg kw q a v : mixture_ok m -> amounts_known m n -> like_mixture m varg kw ->
  In q [(PT, "T"); (Pp, "p"); (Pd, "d")] -> dget (snd q) (named_args varg kw) = Some a ->
  dynamic_method (fst q) P E m varg kw = Ok v ->
  forall i uT kT kP kV kE kM, index_in (nsh v) i -> 0 < total_amount m n (project (shape m) i) ->
    units_known E (mean_weight P m n (project (shape m) i)) uT kT kP kV kE kM -> nel v i = at_index a i.
Proof. exact (given_coordinate P E m n varg kw q a v). Qed.
Print Assumptions C76_given.
Example C76_given_instance : exists v, dget "p" (named_args [] TP) = Some (scalar 100000) /\
  dynamic_method Pp PAB SK m2 [] TP = Ok v /\ index_in (nsh v) [0%nat].
Proof. destruct (all_m2 Pp) as (v & H & S). exists v. split; [reflexivity|]. split; [exact H|]. rewrite S. repeat constructor. Qed.

(* An entropy given with a temperature, enthalpy or internal energy is what s() returns. *)
Theorem C76_entropy P E m n varg kw a k b v vT : mixture_ok m -> amounts_known m n -> like_mixture m varg kw ->
  dget "s" (named_args varg kw) = Some a -> In k ["T"; "h"; "e"] -> dget k (named_args varg kw) = Some b ->
  dynamic_method PT P E m varg kw = Ok vT -> dynamic_method Ps P E m varg kw = Ok v ->
  nsh v = shape m /\ nsh vT = shape m /\
  forall i t s0 uT kT kP kV kE kM w, index_in (shape m) i -> nel vT i = Some t -> at_index a i = Some s0 ->
    units_known E w uT kT kP kV kE kM -> usable_at P E m n (to_kelvin uT t) ->
    (forall s, In s (x_c m) -> 0 <= n s i) -> 0 < total_amount m n i -> nel v i = Some s0.
Proof. exact (fun Hm K L => given_s P E m n varg kw Hm K L a k b v vT). Qed.
Print Assumptions C76_entropy.

(* With numbers the call succeeds. *)
Theorem C76_entropy_numbers P E m n uT kT kP kV kE t s0 : usable_at P E m n (to_kelvin uT t) ->
  (forall s, In s (x_c m) -> exists k, units_known E (mw_of P s) uT kT kP kV kE k) ->
  (exists i, index_in (shape m) i) ->
  exists v, dynamic_method Ps P E m [] [("s", scalar s0); ("T", scalar t)] = Ok v /\ nsh v = shape m /\
    forall i, index_in (shape m) i -> (forall s, In s (x_c m) -> 0 <= n s i) -> 0 < total_amount m n i -> nel v i = Some s0.
Proof. exact (st_succeeds P E m n uT kT kP kV kE t s0). Qed.
Print Assumptions C76_entropy_numbers.
Example C76_entropy_instance : usable_at PAB SK m2 n2 (to_kelvin "K" 500) /\
  (forall s, In s (x_c m2) -> exists k, units_known SK (mw_of PAB s) "K" (9/5) 1 1 1000 k) /\ (exists i, index_in (shape m2) i) /\
  (forall s, In s (x_c m2) -> 0 <= n2 s [0%nat]) /\ 0 < total_amount m2 n2 [0%nat].
Proof.
  split; [exact usable500|]. split; [exact units_m2|]. split; [exact ex_m2|]. split.
  - intros s [<-|[<-|[]]]; unfold n2; cbn; Lra.lra.
  - rewrite total_m2. Lra.lra.
Qed.

(* v() is the reciprocal of d(). *)
Theorem C76_volume P E m varg kw d : dynamic_method Pd P E m varg kw = Ok d ->
  exists v, dynamic_method Pv P E m varg kw = Ok v /\ nsh v = nsh d /\
    forall i x, nel d i = Some x -> x <> 0 -> nel v i = Some (1 / x).
Proof. exact (volume_recip P E m varg kw d). Qed.
Print Assumptions C76_volume.
Example C76_volume_instance : exists d x, dynamic_method Pd PAB SK m2 [] TP = Ok d /\ nel d [0%nat] = Some x.
Proof. exact d_inst. Qed.

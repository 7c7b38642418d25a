(* Property theorems C39-C42 and C65-C68: dynamic mixtures (src/pyromat/igtools.py). *)
From Coq Require Import Reals ZArith List String Ascii Bool Lia Lra.
From Verif Require Import Base Model_Num Model_Units Model_Igas Model_Igmix Model_Igtools Model_Igtprop
  Spec_Units Spec_Igas Spec_Igmix Spec_Igtools Spec_Igtprop
  Proof_Igtshape Proof_Igtools Proof_IgtAdd Proof_IgtMore Proof_IgtItems Proof_IgtNew Proof_IgtStr Proof_IgtProp
  Proof_IgtInst Proof_IgtThm.
Import ListNotations.
Local Open Scope R_scope.
Local Open Scope string_scope.
Local Open Scope list_scope.

(* ---- C39 : arithmetic ---- *)
(* Mixtures whose arrays have the same number of dimensions.  What is missing: see the
   refutations below for different numbers of dimensions. *)
Theorem C39_sum_partial : forall a b, mixture_ok a -> mixture_ok b ->
  List.length (shape a) = List.length (shape b) ->
  (forall c, add a b = Ok c ->
     mixture_ok c /\ numpy_broadcast (shape a) (shape b) (shape c) /\
     (forall s, In s (x_c c) <-> In s (x_c a) \/ In s (x_c b)) /\
     forall s i, index_in (shape c) i ->
       amount c s i = fadd (amount a s (project (shape a) i)) (amount b s (project (shape b) i))) /\
  ((exists u, numpy_broadcast (shape a) (shape b) u) -> exists c, add a b = Ok c) /\
  ((~ exists u, numpy_broadcast (shape a) (shape b) u) -> add a b = Err PMParamError).
Proof. exact sum_amounts. Qed.
Print Assumptions C39_sum_partial.

Theorem C39_commutative_partial : forall a b c, mixture_ok a -> mixture_ok b ->
  List.length (shape a) = List.length (shape b) -> add a b = Ok c ->
  exists d, add b a = Ok d /\ same_mixture c d.
Proof. exact add_comm. Qed.
Print Assumptions C39_commutative_partial.

Theorem C39_associative_partial : forall a b c ab x, mixture_ok a -> mixture_ok b -> mixture_ok c ->
  List.length (shape a) = List.length (shape b) -> List.length (shape b) = List.length (shape c) ->
  add a b = Ok ab -> add ab c = Ok x ->
  exists bc y, add b c = Ok bc /\ add a bc = Ok y /\ same_mixture x y.
Proof. exact add_assoc. Qed.
Print Assumptions C39_associative_partial.

Theorem C39_totals_partial : forall a b c, mixture_ok a -> mixture_ok b ->
  List.length (shape a) = List.length (shape b) -> add a b = Ok c ->
  forall i, index_in (shape c) i ->
    total c i = fadd (total a (project (shape a) i)) (total b (project (shape b) i)).
Proof. exact totals_add. Qed.
Print Assumptions C39_totals_partial.

Theorem C39_difference_partial : forall a b, mixture_ok a -> mixture_ok b ->
  List.length (shape a) = List.length (shape b) ->
  (forall c, sub a b = Ok c -> mixture_ok c /\ numpy_broadcast (shape a) (shape b) (shape c) /\
     forall s i, index_in (shape c) i ->
       amount c s i = fsub (amount a s (project (shape a) i)) (amount b s (project (shape b) i))) /\
  ((exists u, numpy_broadcast (shape a) (shape b) u) -> exists c, sub a b = Ok c).
Proof. exact difference. Qed.
Print Assumptions C39_difference_partial.

Theorem C39_self_difference : forall a s i, mixture_ok a -> exists c, sub a a = Ok c /\
  (index_in (shape c) i -> amount a s i <> None -> amount c s i = Some 0).
Proof. exact self_difference. Qed.
Print Assumptions C39_self_difference.

Theorem C39_scaled : forall a k, mixture_ok a -> exists c, mul a (scalar k) = Ok c /\ mixture_ok c /\
  x_c c = x_c a /\ shape c = shape a /\
  forall s i, index_in (shape a) i -> amount c s i = fmul (Some k) (amount a s i).
Proof. exact scale_number. Qed.
Print Assumptions C39_scaled.

Theorem C39_divided : forall a k, mixture_ok a -> k <> 0 -> exists c, truediv a (scalar k) = Ok c /\ mixture_ok c /\
  x_c c = x_c a /\ shape c = shape a /\
  forall s i, index_in (shape a) i -> amount c s i = fdiv (amount a s i) (Some k).
Proof. exact divide_number. Qed.
Print Assumptions C39_divided.

Theorem C39_scaled_by_array_partial : forall a b u, mixture_ok a -> nsh b <> [] ->
  List.length (nsh b) = List.length (shape a) -> numpy_broadcast (nsh b) (shape a) u ->
  exists c, mul a b = Ok c /\ mixture_ok c /\ x_c c = x_c a /\ shape c = u /\
  forall s i, In s (x_c a) -> index_in u i ->
    amount c s i = fmul (nel b (project (nsh b) i)) (amount a s (project (shape a) i)).
Proof. exact scale_array. Qed.
Print Assumptions C39_scaled_by_array_partial.

(* n s i: the amount in kmol of substance s at index i *)
Theorem C39_mole_fractions : forall m n, mixture_ok m -> amounts_known m n ->
  map fst (X m) = x_c m /\ (forall s x, In (s, x) (X m) -> nsh x = shape m) /\
  forall i, index_in (shape m) i -> (forall s, In s (x_c m) -> 0 <= n s i) ->
    0 < rsum (fun s => n s i) (x_c m) ->
    (forall s x, In (s, x) (X m) -> exists v, nel x i = Some v /\ 0 <= v <= 1 /\
        v * rsum (fun s => n s i) (x_c m) = n s i) /\
    fsum (fun p => nel (snd p) i) (X m) = Some 1.
Proof. exact X_fractions. Qed.
Print Assumptions C39_mole_fractions.

Theorem C39_mass_fractions : forall P E km kn m n, mass_molar E km kn -> mixture_ok m -> amounts_known m n ->
  (forall s, In s (x_c m) -> 0 < mw_of P s) ->
  exists Ys, Y P E m = Ok Ys /\ map fst Ys = x_c m /\ (forall s x, In (s, x) Ys -> nsh x = shape m) /\
  forall i, index_in (shape m) i -> (forall s, In s (x_c m) -> 0 <= n s i) -> 0 < rsum (fun s => n s i) (x_c m) ->
    (forall s y, In (s, y) Ys -> exists v, nel y i = Some v /\ 0 <= v <= 1 /\
        v * rsum (fun s => n s i * mw_of P s) (x_c m) = n s i * mw_of P s) /\
    fsum (fun p => nel (snd p) i) Ys = Some 1.
Proof. exact Y_thm. Qed.
Print Assumptions C39_mass_fractions.

Theorem C39_molar : forall E km kn m n, mass_molar E km kn -> mixture_ok m -> amounts_known m n ->
  exists a, molar E m = Ok a /\ nsh a = shape m /\ forall i, index_in (shape m) i ->
    exists v, nel a i = Some v /\ v * kn = rsum (fun s => n s i) (x_c m).
Proof. exact molar_thm. Qed.
Print Assumptions C39_molar.

(* only for configured units of mass and of molar amount of corresponding size, such as kg and kmol *)
Theorem C39_mass_partial : forall P E k m n, mass_molar E k k -> mixture_ok m -> amounts_known m n ->
  (forall s, In s (x_c m) -> 0 < mw_of P s) ->
  exists a, mass P E m = Ok a /\ nsh a = shape m /\ forall i, index_in (shape m) i ->
    exists v, nel a i = Some v /\ v * k = rsum (fun s => n s i * mw_of P s) (x_c m).
Proof. exact mass_thm. Qed.
Print Assumptions C39_mass_partial.

(* Finding: with kg and mol configured the mass of one kilomole is a thousandth of what it is. *)
Theorem C39_mass_refuted : exists a,
  mass PAB (session2 "mol" "kmol") (uniform ["ig.A"] [1%nat] [1]) = Ok a /\
  nel a [0%nat] = Some (2/100) /\ mw_of PAB "ig.A" = 20.
Proof. exact mass_wrong. Qed.
Print Assumptions C39_mass_refuted.

(* Finding: adding a mixture that contains nothing, but has more dimensions, moves amounts from
   one substance to another. *)
Theorem C39_dimensions_refuted : mixture_ok m3 /\ mixture_ok ones32 /\
  (forall s i, amount ones32 s i = Some 0) /\ numpy_broadcast (shape m3) (shape ones32) [3%nat; 2%nat] /\
  exists c, add m3 ones32 = Ok c /\ shape c = [3%nat; 2%nat] /\
    amount m3 "ig.B" [0%nat] = Some 2 /\ amount c "ig.B" [0%nat; 0%nat] = Some 1.
Proof. exact dims_misplaced. Qed.
Print Assumptions C39_dimensions_refuted.

(* Finding: the rows of a factor with more dimensions are applied to the substances. *)
Theorem C39_scaled_by_array_refuted : exists b c, nsh b = [3%nat; 2%nat] /\ mul m3 b = Ok c /\
  numpy_broadcast (nsh b) (shape m3) [3%nat; 2%nat] /\ shape c = [2%nat] /\
  (forall j, nel b [0%nat; j] = Some 1) /\ amount c "ig.B" [0%nat] = Some (2 * 2).
Proof. exact scaled_misplaced. Qed.
Print Assumptions C39_scaled_by_array_refuted.

Example C39_instance : mixture_ok m2 /\ mixture_ok m3 /\ List.length (shape m2) = List.length (shape m3) /\
  (exists c, add m2 m3 = Ok c) /\ amounts_known m2 n2 /\ (forall s, In s (x_c m2) -> 0 < mw_of PAB s) /\
  mass_molar (session2 "kmol" "kmol") 1 1 /\ numpy_broadcast [5%nat] (shape m2) [5%nat].
Proof.
  split; [exact ok_m2|]. split; [exact ok_m3|]. split; [reflexivity|]. split; [eexists; reflexivity|].
  split; [exact amounts_m2|]. split; [exact mw_AB|]. split; [apply mm_ex; reflexivity|]. apply np_shape_spec. reflexivity.
Qed.

(* ---- C40 : temperature limits of a dynamic mixture ---- *)
(* The limits are the hull of those of the constituents; they are the common range only when the
   constituents have the same limits. *)
Theorem C40_dynamic_Tlim_partial : forall P E m (a b : string -> R), x_c m <> [] ->
  (forall s, In s (x_c m) -> m_Tlim (gas_of P s) E = Ok (a s, b s)) ->
  exists l h, igt_Tlim P E m = Ok (Some l, Some h) /\
    (forall s, In s (x_c m) -> l <= a s /\ b s <= h) /\
    (exists s, In s (x_c m) /\ l = a s) /\ (exists s, In s (x_c m) /\ h = b s).
Proof. exact Tlim_hull. Qed.
Print Assumptions C40_dynamic_Tlim_partial.

Theorem C40_dynamic_Tlim_same_partial : forall P E m a b, x_c m <> [] ->
  (forall s, In s (x_c m) -> m_Tlim (gas_of P s) E = Ok (a, b)) -> igt_Tlim P E m = Ok (Some a, Some b).
Proof. exact Tlim_equal. Qed.
Print Assumptions C40_dynamic_Tlim_same_partial.

(* Finding: the union, not the intersection; at 1100 K constituent A has no properties. *)
Theorem C40_dynamic_Tlim_refuted : igt_Tlim PAB (session2 "kmol" "kmol") m2 = Ok (Some 200, Some 1200) /\
  m_Tlim (gas_of PAB "ig.A") (session2 "kmol" "kmol") = Ok (200, 1000) /\
  m_Tlim (gas_of PAB "ig.B") (session2 "kmol" "kmol") = Ok (300, 1200) /\
  g_cp (gas_of PAB "ig.A") (Some 1100) = None.
Proof. exact Tlim_union. Qed.
Print Assumptions C40_dynamic_Tlim_refuted.

(* ---- C41 : mixture strings ---- *)
Theorem C41_items_partial : forall l vs, l <> [] -> Forall2 (fun t v => good_item t /\ item_value t v) l vs ->
  NoDup (map it_name l) ->
  parse_mixstr (string_of_list_ascii (join_plus (map item_text l))) =
    Ok (combine (map (fun t => string_of_list_ascii (it_name t)) l) vs).
Proof. exact mixstr_round_trip. Qed.
Print Assumptions C41_items_partial.

Theorem C41_bad_coefficient_partial : forall t w, good_name (it_name t) -> blank (it_l t) -> blank (it_m t) -> blank (it_r t) ->
  it_coef t = w -> w <> [] -> (forall c, In c w -> is_alpha c = false /\ is_space c = false /\ c <> "+"%char) ->
  parse_float w = None -> parse_mixstr (string_of_list_ascii (item_text t)) = Err PMParamError.
Proof. exact bad_coefficient. Qed.
Print Assumptions C41_bad_coefficient_partial.

(* Findings: a substance named twice keeps the last amount only; a scientific coefficient becomes
   part of the name; text without a name and a trailing plus sign are accepted; the empty text
   raises UnboundLocalError. *)
Theorem C41_twice_refuted : exists v, parse_mixstr "H2 + 2 H2" = Ok [("H2", v)] /\ v = 2.
Proof. exact twice_last. Qed.
Print Assumptions C41_twice_refuted.
Theorem C41_exponent_refuted : exists v, parse_mixstr "1e3 H2" = Ok [("e3 H2", v)] /\ v = 1.
Proof. exact exponent_misread. Qed.
Print Assumptions C41_exponent_refuted.
Theorem C41_no_name_refuted : exists v, parse_mixstr "12" = Ok [("2", v)] /\ v = 1.
Proof. exact bare_number. Qed.
Print Assumptions C41_no_name_refuted.
Theorem C41_trailing_plus_refuted : parse_mixstr "H2+" = Ok [("H2", 1); ("", 1)].
Proof. exact trailing_plus. Qed.
Print Assumptions C41_trailing_plus_refuted.
Theorem C41_empty_refuted : parse_mixstr "" = Err EUnboundLocal.
Proof. exact empty_text. Qed.
Print Assumptions C41_empty_refuted.

Example C41_instance : Forall2 (fun t v => good_item t /\ item_value t v) [item1; item2] [2 + 5/10; 1] /\
  NoDup (map it_name [item1; item2]) /\
  string_of_list_ascii (join_plus (map item_text [item1; item2])) = " 2.5 H2+O2 ".
Proof. exact items_good. Qed.

(* ---- C42 : shapes ---- *)
(* shapes with the same number of dimensions, or the shorter consisting of ones *)
Theorem C42_accepts_partial : forall q s u, (q <> [] \/ s <> []) ->
  (List.length q = List.length s \/ (List.length s < List.length q)%nat /\ (forall d, In d s -> d = 1%nat) \/
   (List.length q < List.length s)%nat /\ (forall d, In d q -> d = 1%nat)) ->
  (broadcast_shape q s = Ok u <-> numpy_broadcast q s u).
Proof. exact broadcast_agrees. Qed.
Print Assumptions C42_accepts_partial.
Theorem C42_rejects_partial : forall q s, (q <> [] \/ s <> []) ->
  (List.length q = List.length s \/ (List.length s < List.length q)%nat /\ (forall d, In d s -> d = 1%nat) \/
   (List.length q < List.length s)%nat /\ (forall d, In d q -> d = 1%nat)) ->
  (broadcast_shape q s = Err PMParamError <-> ~ exists u, numpy_broadcast q s u).
Proof. exact broadcast_rejects. Qed.
Print Assumptions C42_rejects_partial.
Theorem C42_too_strict_refuted : broadcast_shape [3%nat] [2%nat; 3%nat] = Err PMParamError /\
  numpy_broadcast [3%nat] [2%nat; 3%nat] [2%nat; 3%nat].
Proof. exact broadcast_longer. Qed.
Print Assumptions C42_too_strict_refuted.
Theorem C42_too_lax_refuted : broadcast_shape [2%nat] [2%nat; 3%nat] = Ok [2%nat; 3%nat] /\
  ~ exists u, numpy_broadcast [2%nat] [2%nat; 3%nat] u.
Proof. exact broadcast_wrong. Qed.
Print Assumptions C42_too_lax_refuted.
Theorem C42_scalars_refuted : broadcast_shape [] [] = Ok [0%nat] /\ numpy_broadcast [] [] [].
Proof. exact broadcast_scalars. Qed.
Print Assumptions C42_scalars_refuted.
Example C42_instance : broadcast_shape [3; 1; 2]%nat [1; 4; 2]%nat = Ok [3; 4; 2]%nat /\
  broadcast_shape [3; 2]%nat [3; 4]%nat = Err PMParamError.
Proof. split; reflexivity. Qed.

(* ---- C65 : reading, assigning, inserting and removing ---- *)
(* k: the size in kmol of the configured unit of matter.  Mass units are correct only when the
   configured units of mass and of molar amount correspond (`counts`). *)
Theorem C65_read_partial : forall P E km kn m s uM k, mass_molar E km kn -> counts E km kn uM ->
  In (full_sid s) (x_c m) -> 0 < mw_of P (full_sid s) -> unit_size E None uM (mw_of P (full_sid s)) k ->
  exists a, getitem P E m s = Ok a /\ nsh a = shape m /\
    forall i, nel a i = fdiv (amount m (full_sid s) i) (Some k).
Proof. exact get_thm. Qed.
Print Assumptions C65_read_partial.

(* one element *)
Theorem C65_read_element_partial : forall P E km kn m s uM k i, mass_molar E km kn -> counts E km kn uM ->
  In (full_sid s) (x_c m) -> 0 < mw_of P (full_sid s) -> unit_size E None uM (mw_of P (full_sid s)) k ->
  List.length i = List.length (shape m) ->
  (index_in (shape m) i -> getitem_at P E m s i = Ok (fdiv (amount m (full_sid s) i) (Some k))) /\
  (~ index_in (shape m) i -> getitem_at P E m s i = Err EIndexError).
Proof. exact get_at_thm. Qed.
Print Assumptions C65_read_element_partial.

Theorem C65_assign_partial : forall P E km kn m s q u uM k, mass_molar E km kn -> counts E km kn uM -> mixture_ok m ->
  In (full_sid s) (x_c m) -> 0 < mw_of P (full_sid s) -> unit_size E None uM (mw_of P (full_sid s)) k ->
  combines q (shape m) u ->
  exists m', setitem P E m s q = (m', Ok tt) /\ mixture_ok m' /\ x_c m' = x_c m /\ shape m' = u /\
    forall t i, index_in u i -> amount m' t i =
      if String.eqb t (full_sid s) then fmul (Some k) (at_index q i) else amount m t (project (shape m) i).
Proof. exact set_thm. Qed.
Print Assumptions C65_assign_partial.

(* what was assigned is read back, and the other substances read as before, in every unit *)
Theorem C65_read_back : forall P E km kn m s q u uM k, mass_molar E km kn -> mixture_ok m ->
  In (full_sid s) (x_c m) -> 0 < mw_of P (full_sid s) -> unit_size E None uM (mw_of P (full_sid s)) k ->
  combines q (shape m) u ->
  exists m' a, setitem P E m s q = (m', Ok tt) /\ getitem P E m' s = Ok a /\ nsh a = u /\
    (forall i, index_in u i -> nel a i = at_index q i) /\
    forall t, In (full_sid t) (x_c m) -> 0 < mw_of P (full_sid t) -> full_sid t <> full_sid s ->
      exists b b', getitem P E m t = Ok b /\ getitem P E m' t = Ok b' /\
        forall i, index_in u i -> nel b' i = nel b (project (shape m) i).
Proof. exact read_thm. Qed.
Print Assumptions C65_read_back.

(* without a unit the quantity is in kmol whatever is configured *)
Theorem C65_insert_partial : forall P E km kn m s g q u units k, mass_molar E km kn -> mixture_ok m ->
  dget (full_sid s) P = Some g -> 0 < g_mw g -> ~ In (full_sid s) (x_c m) -> combines q (shape m) u ->
  match units with
  | None => k = 1
  | Some v => counts E km kn v /\ unit_size E units v (g_mw g) k
  end ->
  exists m', insert P E m s q units = Ok m' /\ mixture_ok m' /\
    x_c m' = x_c m ++ [full_sid s] /\ shape m' = u /\
    forall t i, index_in u i -> amount m' t i =
      if String.eqb t (full_sid s) then fmul (Some k) (at_index q i) else amount m t (project (shape m) i).
Proof. exact insert_thm. Qed.
Print Assumptions C65_insert_partial.

Theorem C65_remove : forall m s, mixture_ok m -> In (full_sid s) (x_c m) ->
  exists m', remove m s = Ok m' /\ mixture_ok m' /\ shape m' = shape m /\
    ~ In (full_sid s) (x_c m') /\ (forall t, t <> full_sid s -> (In t (x_c m') <-> In t (x_c m))) /\
    forall t i, index_in (shape m) i -> amount m' t i = if String.eqb t (full_sid s) then Some 0 else amount m t i.
Proof. exact remove_value. Qed.
Print Assumptions C65_remove.

Theorem C65_insert_remove : forall P E km kn m s g q units k, mass_molar E km kn -> mixture_ok m ->
  dget (full_sid s) P = Some g -> 0 < g_mw g -> ~ In (full_sid s) (x_c m) -> nsh q = [] ->
  match units with
  | None => k = 1
  | Some v => counts E km kn v /\ unit_size E units v (g_mw g) k
  end ->
  exists m1 m2, insert P E m s q units = Ok m1 /\ remove m1 s = Ok m2 /\ same_mixture m m2.
Proof. exact insert_remove_thm. Qed.
Print Assumptions C65_insert_remove.

Theorem C65_absent_rejected : forall P E m s q, ~ In (full_sid s) (x_c m) ->
  getitem P E m s = Err PMParamError /\ setitem P E m s q = (m, Err PMParamError) /\ remove m s = Err PMParamError.
Proof. exact absent_rejected. Qed.
Print Assumptions C65_absent_rejected.
Theorem C65_present_not_inserted : forall P E m s q units, In (full_sid s) (x_c m) -> insert P E m s q units = Err PMParamError.
Proof. exact present_rejected. Qed.
Print Assumptions C65_present_not_inserted.
Theorem C65_unknown_not_inserted : forall P E m s q units, dget (full_sid s) P = None -> insert P E m s q units = Err PMParamError.
Proof. exact unknown_rejected. Qed.
Print Assumptions C65_unknown_not_inserted.

(* Finding: assigning one element, m['H2', i] = v, never succeeds. *)
Theorem C65_element_assignment_refuted : forall m s i v, setitem_at m s i v <> Ok tt.
Proof. exact indexed_assignment. Qed.
Print Assumptions C65_element_assignment_refuted.
(* Finding: m[:] = m with moles configured divides every amount by a thousand. *)
Theorem C65_slice_refuted : exists m', setslice PAB (session2 "kmol" "mol") m2 m2 = (m', Ok tt) /\
  amount m2 "ig.B" [0%nat] = Some 3 /\ amount m' "ig.B" [0%nat] = Some (3/1000).
Proof. exact self_slice. Qed.
Print Assumptions C65_slice_refuted.

Example C65_instance : mass_molar (session2 "kmol" "kg") 1 1 /\ counts (session2 "kmol" "kg") 1 1 "kg" /\ mixture_ok m2 /\
  In (full_sid "A") (x_c m2) /\ 0 < mw_of PAB (full_sid "A") /\
  unit_size (session2 "kmol" "kg") None "kg" (mw_of PAB (full_sid "A")) (1 / 20) /\
  combines (scalar 5) (shape m2) [1%nat] /\ dget (full_sid "C") PAB = Some Proof_IgasEx.g1 /\ ~ In (full_sid "C") (x_c m2).
Proof.
  split; [apply mm_ex; reflexivity|]. split; [now left|]. split; [exact ok_m2|]. split; [now left|]. split; [cbn; lra|].
  split; [split; reflexivity|]. split; [now left|]. split; [reflexivity|]. cbn. intuition discriminate.
Qed.

(* ---- C66 : failed updates ---- *)
Theorem C66_failed_sum_partial : forall a b a' e, mixture_ok a -> mixture_ok b ->
  List.length (shape a) = List.length (shape b) ->
  (forall s, In s (x_c b) -> In s (x_c a)) -> iadd a b = (a', Err e) -> a' = a.
Proof. exact failed_unchanged. Qed.
Print Assumptions C66_failed_sum_partial.
Theorem C66_failed_assignment_partial : forall P E km kn m s q uM k m' e, mass_molar E km kn -> mixture_ok m ->
  0 < mw_of P (full_sid s) -> unit_size E None uM (mw_of P (full_sid s)) k ->
  List.length (nsh q) = List.length (shape m) ->
  setitem P E m s q = (m', Err e) -> m' = m /\ e = PMParamError.
Proof. exact failed_set_thm. Qed.
Print Assumptions C66_failed_assignment_partial.
(* Finding: a += b that fails leaves the substances of b in a without amounts. *)
Theorem C66_failed_sum_refuted : exists a', iadd a2 b3 = (a', Err PMParamError) /\ mixture_ok a2 /\ mixture_ok b3 /\
  x_c a' = ["ig.A"; "ig.B"] /\ nsh (x_q a') = [1%nat; 2%nat] /\ ~ mixture_ok a'.
Proof. exact failed_sum. Qed.
Print Assumptions C66_failed_sum_refuted.
(* Finding: an assignment that fails has already given the mixture another shape. *)
Theorem C66_failed_assignment_refuted : let m := uniform ["ig.A"] [1%nat; 3%nat] [1] in
  exists m', setitem PAB (session2 "kmol" "kmol") m "ig.A" {| nsh := [2%nat]; nel := fun _ => Some 5 |} = (m', Err EValueError) /\
    mixture_ok m /\ shape m = [1%nat; 3%nat] /\ shape m' = [2%nat; 3%nat].
Proof. exact failed_assignment. Qed.
Print Assumptions C66_failed_assignment_refuted.
Example C66_instance : exists a', iadd a2 (uniform ["ig.A"] [3%nat] [1]) = (a', Err PMParamError).
Proof. eexists. reflexivity. Qed.

(* ---- C67 : construction ---- *)
Theorem C67_amounts_partial : forall P E km kn units uM (k : string -> R) contents u, mass_molar E km kn -> counts E km kn uM ->
  (forall c, In c contents -> dget (full_sid (fst c)) P <> None /\ 0 < mw_of P (full_sid (fst c)) /\
     unit_size E units uM (mw_of P (full_sid (fst c))) (k (full_sid (fst c)))) ->
  contents <> [] -> NoDup (map (fun c => full_sid (fst c)) contents) ->
  shapes_combine (map snd contents) [1%nat] u ->
  exists m, new_mix P E units contents = Ok m /\ mixture_ok m /\ shape m = u /\
    x_c m = map (fun c => full_sid (fst c)) contents /\
    forall c i, In c contents -> index_in u i ->
      amount m (full_sid (fst c)) i = fmul (Some (k (full_sid (fst c)))) (at_index (snd c) i).
Proof. exact new_thm. Qed.
Print Assumptions C67_amounts_partial.
Theorem C67_unknown_rejected : forall P E units contents s q, In (s, q) contents -> dget (full_sid s) P = None ->
  exists e, new_mix P E units contents = Err e.
Proof. exact new_unknown_thm. Qed.
Print Assumptions C67_unknown_rejected.
(* Finding: with kg and mol configured, 20 kg of a substance of 20 kg/kmol become 1000 kmol. *)
Theorem C67_mass_refuted : exists m, new_mix PAB (session2 "mol" "kmol") (Some "kg") [("A", scalar 20)] = Ok m /\
  mw_of PAB "ig.A" = 20 /\ amount m "ig.A" [0%nat] = Some 1000.
Proof. exact new_wrong. Qed.
Print Assumptions C67_mass_refuted.
Example C67_instance : mass_molar (session2 "kmol" "kg") 1 1 /\ counts (session2 "kmol" "kg") 1 1 "kg" /\
  unit_size (session2 "kmol" "kg") None "kg" (mw_of PAB (full_sid "A")) (1 / 20) /\
  unit_size (session2 "kmol" "kg") None "kg" (mw_of PAB (full_sid "ig.B")) (1 / 40) /\
  NoDup (map (fun c : string * nd => full_sid (fst c)) [("A", scalar 20); ("ig.B", two 1 2)]) /\
  shapes_combine [scalar 20; two 1 2] [1%nat] [2%nat].
Proof.
  split; [apply mm_ex; reflexivity|]. split; [now left|]. split; [split; reflexivity|]. split; [split; reflexivity|].
  split; [exact nodup_AB|]. exists [1%nat]. split; [now left|]. exists [2%nat]. split; [|reflexivity].
  right. split; [discriminate|]. split; [now left|]. apply np_shape_spec. reflexivity.
Qed.

(* ---- C68 : properties of a dynamic mixture ---- *)
(* For numbers T and p the extensive properties are the sums of those of the constituents, each at
   its own partial pressure.  vi: the constituent's property per configured unit of matter, ki: the
   size of that unit in kmol.  Missing: arrays of temperatures and pressures (see the refutations)
   and other argument pairs. *)
Theorem C68_sum_of_constituents_partial : forall P E m n uT kT kP kV kE t p,
  usable_at P E m n (to_kelvin uT t) ->
  (forall s, In s (x_c m) -> exists k, units_known E (mw_of P s) uT kT kP kV kE k) ->
  0 < p -> forall q, In q [Pcp; Pcv; Ph; Pe; Ps; Pg; Pf] -> (exists i, index_in (shape m) i) ->
  exists v, dynamic_method q P E m [] [("T", scalar t); ("p", scalar p)] = Ok v /\ nsh v = shape m /\
    forall i, index_in (shape m) i -> (forall s, In s (x_c m) -> 0 <= n s i) -> 0 < rsum (fun s => n s i) (x_c m) ->
      exists vi ki : string -> R,
        (forall s, In s (x_c m) -> 0 < ki s /\ matter_size E (mw_of P s) (ki s)) /\
        (forall s, In s (x_c m) -> 0 < n s i ->
           ideal_method q (gas_of P s) E []
             [("T", [Some t]); ("p", [Some (n s i / rsum (fun s => n s i) (x_c m) * p)])] = Ok [Some (vi s)]) /\
        nel v i = Some (rsum (fun s => n s i * (vi s / ki s)) (x_c m)).
Proof. exact sum_of_constituents. Qed.
Print Assumptions C68_sum_of_constituents_partial.

(* Finding: two temperatures for a single mixture are accepted by cp but make s fail. *)
Theorem C68_temperatures_refuted :
  (exists a, n_cp PAB SK m2 [] [("T", two 500 600); ("p", scalar 100000)] = Ok a /\ nsh a = [2%nat]) /\
  n_s PAB SK m2 [] [("T", two 500 600); ("p", scalar 100000)] = Err EIndexError.
Proof. exact many_temperatures. Qed.
Print Assumptions C68_temperatures_refuted.
(* Finding: one temperature of several out of range raises ValueError; the species themselves
   answer nan for it (C31). *)
Theorem C68_out_of_range_refuted :
  n_cp PAB SK m2 [] [("T", two 500 5000); ("p", scalar 100000)] = Err EValueError.
Proof. exact some_out_of_range. Qed.
Print Assumptions C68_out_of_range_refuted.
Example C68_instance : usable_at PAB (session2 "kmol" "kmol") m2 n2 (to_kelvin "K" 500) /\
  (forall s, In s (x_c m2) -> exists k, units_known (session2 "kmol" "kmol") (mw_of PAB s) "K" (9/5) 1 1 1000 k) /\
  index_in (shape m2) [0%nat].
Proof. split; [exact usable_m2|]. split; [exact units_m2|]. repeat constructor. Qed.

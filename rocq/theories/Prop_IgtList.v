(* Property theorems C96: a dynamic mixture as a collection of substances, src/pyromat/igtools.py
   (constructor, in, tolist, iteration, len, ndim, insert, remove, reshape). *)
From Coq Require Import Reals ZArith List String.
From Verif Require Import Base Model_Num Model_Units Model_Igas Model_Igtools Model_Igtview Model_IgtList
  Spec_Units Spec_Igtools Spec_Igtview Spec_IgtList Proof_IgasEx Proof_IgmixInst Proof_IgtInst Proof_IgtList Proof_IgtListEx.
Import ListNotations.
Local Open Scope R_scope.
Local Open Scope string_scope.
Local Open Scope list_scope.

(* Whatever changes a mixture goes through, whether they return or raise: the list of its substances
   is the one the changes describe, in the order in which they entered, and lists each once. *)
Theorem C96_names : forall P E l m m' h, NoDup (x_c m) -> distinct_operands l -> run_changes P E m l = (m', h) ->
  map fst h = l /\ x_c m' = fold_left names_after h (x_c m) /\ NoDup (x_c m').
Proof. exact session_names. Qed.
Print Assumptions C96_names.
(* `s in m` is decided by the last change that concerns s, with or without the prefix of the
   collection, and for a substance object in the same way. *)
Theorem C96_membership : forall P E l m m' h, NoDup (x_c m) -> distinct_operands l -> run_changes P E m l = (m', h) ->
  (forall s, contained m' (IName s) = Ok (present (full_sid s) (listed (full_sid s) (x_c m)) h)) /\
  (forall s, contained m' (IGas s) = Ok (present s (listed s (x_c m)) h)).
Proof. exact session_members. Qed.
Print Assumptions C96_membership.
Example C96_instance : NoDup (x_c m2) /\ distinct_operands prog /\
  exists m' h, run_changes PAB SK m2 prog = (m', h) /\ map snd h = [Ok tt; Ok tt; Err PMParamError; Err PMParamError; Ok tt; Ok tt] /\
    x_c m' = ["ig.B"; "ig.C"; "ig.A"] /\ shape m' = [1%nat; 1%nat].
Proof. exact inst_session. Qed.

(* tolist() and iteration show that list; other modes than the three raise *)
Theorem C96_lists : forall A m, tolist A m "sid" = Ok (x_c m) /\ tolist A m "instance" = Ok (x_c m) /\ iterate m = x_c m /\
  (forall l, tolist A m "hill" = Ok l -> Forall2 (fun s h => Model_Catalog.hill (A s) s = Ok h) (x_c m) l) /\
  forall mode, mode <> "sid" -> mode <> "hill" -> mode <> "instance" -> tolist A m mode = Err PMParamError.
Proof. exact lists_thm. Qed.
Print Assumptions C96_lists.
Example C96_lists_instance : tolist (fun s => if String.eqb s "ig.A" then Some [("H", 2%Z); ("C", 1%Z)] else None) m2 "hill" = Ok ["CH2"; "B"].
Proof. exact inst_hill. Qed.

(* remove() answers exactly for the substances that are listed, and insert() refuses a substance that
   is listed or unknown and anything that is not a substance; a refusal leaves the mixture alone. *)
Theorem C96_remove : forall P E m k s, NoDup (x_c m) -> meant k = [s] -> has_dot s = true ->
  (In s (x_c m) -> exists m', step P E m (Remove k) = (m', Ok tt)) /\
  (~ In s (x_c m) -> step P E m (Remove k) = (m, Err PMParamError)).
Proof. exact remove_outcome. Qed.
Print Assumptions C96_remove.
Theorem C96_insert_refused : forall P E m k q u, (forall s, meant k = [s] -> In s (x_c m) \/ dget s P = None) ->
  step P E m (Insert k q u) = (m, Err PMParamError).
Proof. exact insert_refused. Qed.
Print Assumptions C96_insert_refused.
Example C96_outcomes_instance : meant (KGas "ig.A") = ["ig.A"] /\ In "ig.A" (x_c m2) /\ ~ In "ig.C" (x_c m2) /\ dget "ig.D" PAB = None.
Proof. exact inst_outcomes. Qed.

(* However a mixture is described (keywords, a string, one substance, a list, a dictionary of names
   and objects): it lists what was named, in order, with the amounts given, one unit for a single
   substance and none for a list.  Missing: as in C67 the units must be coherent and the arrays of one
   number of dimensions; the substances must be distinct (see the refutation). *)
Theorem C96_constructed_partial : forall P E km kn units uM (k : string -> R) g kw l u, mass_molar E km kn -> counts E km kn uM ->
  entries g kw l -> l <> [] ->
  (forall c, In c l -> exists s, usable_key P (fst c) s /\ 0 < mw_of P s /\ unit_size E units uM (mw_of P s) (k s)) ->
  NoDup (flat_map (fun c => meant (fst c)) l) -> shapes_combine (map snd l) [1%nat] u ->
  exists m, make P E g units kw = Ok m /\ mixture_ok m /\ shape m = u /\ x_c m = flat_map (fun c => meant (fst c)) l /\
    forall c s i, In c l -> meant (fst c) = [s] -> index_in u i -> amount m s i = fmul (Some (k s)) (at_index (snd c) i).
Proof. exact make_thm. Qed.
Print Assumptions C96_constructed_partial.
Example C96_constructed_instance : let E := session2 "kmol" "kg" in mass_molar E 1 1 /\ counts E 1 1 "kg" /\
  entries (GDict [(KName "A", scalar 20); (KGas "ig.B", two 1 2)]) [] [(KName "A", scalar 20); (KGas "ig.B", two 1 2)] /\
  usable_key PAB (KName "A") "ig.A" /\ usable_key PAB (KGas "ig.B") "ig.B" /\
  unit_size E None "kg" (mw_of PAB "ig.A") (1 / 20) /\ unit_size E None "kg" (mw_of PAB "ig.B") (1 / 40) /\
  NoDup ["ig.A"; "ig.B"] /\ shapes_combine [scalar 20; two 1 2] [1%nat] [2%nat].
Proof. exact inst_make. Qed.

(* A dimension of -1 in reshape() becomes the one number that keeps the number of mixtures; two of
   them, or none that fits, raise.  len() is the number of mixtures and does not change. *)
Theorem C96_open_shape : forall m t, mixture_ok m -> x_c m <> [] -> t <> [] ->
  (forall m', reshape_to m t = Ok m' -> exists n u, filled t n u /\ size u = size (shape m) /\ reshape m u = Ok m' /\ len m' = len m) /\
  ((open_dims t <= 1)%nat -> forall n u, filled t n u -> size u = size (shape m) -> (0 < size u)%nat -> reshape_to m t = reshape m u) /\
  ((1 < open_dims t)%nat \/ (forall n u, filled t n u -> size u <> size (shape m)) -> reshape_to m t = Err EValueError).
Proof. exact reshape_open. Qed.
Print Assumptions C96_open_shape.
Theorem C96_sizes : forall m, mixture_ok m -> len m = Ok (size (shape m)) /\ ndim m = List.length (shape m).
Proof. exact sizes. Qed.
Print Assumptions C96_sizes.
Example C96_open_instance : mixture_ok (uniform ["ig.A"] [2%nat; 3%nat] [1]) /\ filled [Rest; Dim 2] 3 [3%nat; 2%nat] /\ size [3%nat; 2%nat] = 6%nat /\
  exists m', reshape_to (uniform ["ig.A"] [2%nat; 3%nat] [1]) [Rest; Dim 2] = Ok m' /\ shape m' = [3%nat; 2%nat].
Proof. exact inst_open. Qed.

(* Findings: a substance given under both of its names is listed twice, and only the first amount is
   read; *)
Theorem C96_twice_refuted : exists m, make PAB SK (GDict [(KName "A", scalar 1); (KName "ig.A", scalar 2)]) None [] = Ok m /\
  x_c m = ["ig.A"; "ig.A"] /\ amount m "ig.A" [0%nat] = Some 1.
Proof. exact twice_wrong. Qed.
Print Assumptions C96_twice_refuted.
(* keywords beside other contents are ignored; *)
Theorem C96_keywords_refuted : exists m, make PAB SK (GGas "ig.A") None [("B", scalar 1)] = Ok m /\ contained m (IName "B") = Ok false.
Proof. exact keywords_wrong. Qed.
Print Assumptions C96_keywords_refuted.
(* a substance of another collection is refused as an object and accepted by its name; *)
Theorem C96_collection_refuted : exists m, make [("mp.W", g1)] SK (GDict [(KName "mp.W", scalar 1)]) None [] = Ok m /\ x_c m = ["mp.W"] /\
  make [("mp.W", g1)] SK (GDict [(KGas "mp.W", scalar 1)]) None [] = Err PMParamError.
Proof. exact collection_wrong. Qed.
Print Assumptions C96_collection_refuted.
(* every integer is "in" every mixture; *)
Theorem C96_integers_refuted : contained m2 (IInt 7) = Ok true /\ nsubst m2 = 2%nat.
Proof. exact integers_wrong. Qed.
Print Assumptions C96_integers_refuted.
(* reshape(()) succeeds, after which len() raises. *)
Theorem C96_length_refuted : exists m', reshape_to m2 [] = Ok m' /\ len m' = Err ETypeError.
Proof. exact length_wrong. Qed.
Print Assumptions C96_length_refuted.

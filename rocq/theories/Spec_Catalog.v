(* Specification vocabulary for the registry, the catalogue queries and the file utilities
   (C21-C27), independent of the models' helper functions. *)
From Coq Require Import ZArith QArith Ascii Sorted Permutation DecimalString.
From Verif Require Import Base Text Model_Reg Model_Catalog.
Local Open Scope list_scope.
Local Open Scope string_scope.

(* ---- registry ---- *)
(* file names that contribute: x...x.py with a first character other than _ and . *)
Definition registry_name (n : string) : Prop :=
  exists c rest, n = String c rest ++ ".py" /\ c <> "_"%char /\ c <> "."%char.

Definition classes {C} (ns : namespace C) : list (string * C) :=
  flat_map (fun nb => match snd nb with DataClass c => [(fst nb, c)] | OtherObj => [] end) ns.

(* the class definitions found in existing directories, in the order in which they count *)
Inductive dir_defs {C} : list (string * namespace C) -> list (string * C) -> Prop :=
| dd_nil : dir_defs [] []
| dd_file n ns fs l : registry_name n -> dir_defs fs l -> dir_defs ((n, ns) :: fs) (classes ns ++ l)%list
| dd_skip n ns fs l : ~ registry_name n -> dir_defs fs l -> dir_defs ((n, ns) :: fs) l.
Inductive all_defs {C} : list (option (list (string * namespace C))) -> list (string * C) -> Prop :=
| ad_nil : all_defs [] []
| ad_dir fs l ds l' : dir_defs fs l -> all_defs ds l' -> all_defs (Some fs :: ds) (l ++ l')%list.

Definition first_of {C} (k : string) (l : list (string * C)) : option C := dget k l.
Definition last_of {C} (k : string) (l : list (string * C)) : option C := dget k (rev l).

(* ---- identifiers ---- *)
Fixpoint no_char (c : ascii) (s : string) : Prop :=
  match s with "" => True | String d s' => c <> d /\ no_char c s' end.
(* id is "c.rest" with no period in c *)
Definition in_collection (id c : string) : Prop :=
  no_char "." c /\ exists rest, id = c ++ String "." rest.

(* ---- search criteria, as documented ---- *)
Definition occurs (sub s : string) : Prop := exists a b, s = a ++ sub ++ b.
Definition meets_name (name : string) (o : obj) : Prop :=
  occurs name (ob_id o) \/
  exists ns n, ob_names o = Some ns /\ In n ns /\ occurs (lower name) (lower n).
Definition meets_contents (w : contents) (have : list (string * option Q)) : Prop :=
  match w with
  | OneAtom a => exists q, dget a have = Some (Some q)
  | Atoms l => forall a, In a l -> exists q, dget a have = Some (Some q)
  | Amounts d => forall a want, In (a, want) d ->
      exists q, dget a have = Some (Some q) /\ (forall w, want = Some w -> (q == w)%Q)
  end.
Definition supplied {A} (o : option A) (P : A -> Prop) : Prop := forall a, o = Some a -> P a.
(* everything but the contents *)
Definition meets_simple (c : criteria) (o : obj) : Prop :=
  supplied (c_name c) (fun n => meets_name n o) /\
  supplied (c_collection c) (fun s => exists rest, ob_id o = s ++ rest) /\
  supplied (c_pmclass c) (fun s => ob_class o = s) /\
  supplied (c_cas c) (fun s => ob_cas o = Some s) /\
  supplied (c_inchi c) (fun s => ob_inchi o = Some s).
Definition meets (c : criteria) (o : obj) : Prop :=
  meets_simple c o /\
  supplied (c_contains c) (fun w => exists have, ob_atoms o = Some have /\ meets_contents w have).

(* object identity: one object per reference *)
Definition distinct_refs (l : list obj) : Prop :=
  forall x y, In x l -> In y l -> ob_ref x = ob_ref y -> x = y.

Definition both {A} (a b : option A) : option A := match a with Some _ => a | None => b end.
Definition one_or_other {A} (a b : option A) : Prop := a = None \/ b = None.
(* one call with the criteria of two, when they do not overlap *)
Definition together (c1 c2 : criteria) : criteria :=
  {| c_name := both (c_name c1) (c_name c2); c_contains := both (c_contains c1) (c_contains c2);
     c_collection := both (c_collection c1) (c_collection c2); c_pmclass := both (c_pmclass c1) (c_pmclass c2);
     c_cas := both (c_cas c1) (c_cas c2); c_inchi := both (c_inchi c1) (c_inchi c2) |}.
Definition no_overlap (c1 c2 : criteria) : Prop :=
  one_or_other (c_name c1) (c_name c2) /\ one_or_other (c_contains c1) (c_contains c2) /\
  one_or_other (c_collection c1) (c_collection c2) /\ one_or_other (c_pmclass c1) (c_pmclass c2) /\
  one_or_other (c_cas c1) (c_cas c2) /\ one_or_other (c_inchi c1) (c_inchi c2).
Definition no_criteria : criteria :=
  {| c_name := None; c_contains := None; c_collection := None; c_pmclass := None; c_cas := None; c_inchi := None |}.

(* search(collection=c) *)
Definition only_collection (c : string) : criteria :=
  {| c_name := None; c_contains := None; c_collection := Some c; c_pmclass := None; c_cas := None; c_inchi := None |}.

(* ---- Hill notation ---- *)
Definition decimal (n : Z) : string := NilEmpty.string_of_int (Z.to_int n).
Definition quantity (n : Z) : string := if Z.eqb n 1 then "" else decimal n.
Fixpoint spell (l : list (string * Z)) : string :=
  match l with [] => "" | (a, n) :: l' => a ++ quantity n ++ spell l' end.
Definition entry_of (k : string) (aa : list (string * Z)) : list (string * Z) :=
  match dget k aa with Some n => [(k, n)] | None => [] end.
(* the elements other than carbon, hydrogen and the electron, in alphabetical order *)
Definition others (aa rest : list (string * Z)) : Prop :=
  (forall a n, In (a, n) rest <-> In (a, n) aa /\ a <> "C" /\ a <> "H" /\ a <> "e") /\
  StronglySorted (fun x y => String.compare (fst x) (fst y) = Lt) rest.
(* the sign of a charge of at most one electron *)
Definition sign (electrons : Z) : string :=
  if Z.eqb electrons 1 then "-" else if Z.eqb electrons (-1) then "+" else "".
Definition electrons (aa : list (string * Z)) : Z := match dget "e" aa with Some n => n | None => 0%Z end.

(* element symbols: an upper-case letter followed by lower-case letters *)
Definition upper_letter (c : ascii) : Prop := (65 <= nat_of_ascii c <= 90)%nat.
Definition lower_letter (c : ascii) : Prop := (97 <= nat_of_ascii c <= 122)%nat.
Fixpoint all_chars (P : ascii -> Prop) (s : string) : Prop :=
  match s with "" => True | String c s' => P c /\ all_chars P s' end.
Definition symbol (s : string) : Prop :=
  match s with "" => False | String c s' => upper_letter c /\ all_chars lower_letter s' end.
Definition formula (aa : list (string * Z)) : Prop :=
  NoDup (dkeys aa) /\
  (forall a n, In (a, n) aa -> a <> "e" -> symbol a /\ (0 < n)%Z) /\
  (forall n, In ("e", n) aa -> n = 1%Z \/ n = (-1)%Z) /\
  (exists a n, In (a, n) aa /\ a <> "e").

(* ---- text ---- *)
Definition blank (c : ascii) : Prop := (9 <= nat_of_ascii c <= 13 \/ 28 <= nat_of_ascii c <= 32)%nat.
(* the words of a text: maximal runs of non-blank characters *)
Inductive Words : string -> list string -> Prop :=
| W_end : Words "" []
| W_blank c s ws : blank c -> Words s ws -> Words (String c s) ws
| W_word w s ws : w <> "" -> all_chars (fun c => ~ blank c) w ->
    match s with "" => True | String c _ => blank c end ->
    Words s ws -> Words (w ++ s) (w :: ws).
(* every line has at most w characters, the first continuing a line of length cur *)
Fixpoint lines_fit (w cur : nat) (s : string) : Prop :=
  match s with
  | "" => True
  | String c s' => if Ascii.eqb c (ascii_of_nat 10) then lines_fit w 0 s' else (cur < w)%nat /\ lines_fit w (S cur) s'
  end.
(* the words written one after the other *)
Fixpoint cat (l : list string) : string := match l with [] => "" | w :: l' => w ++ cat l' end.
(* no paragraph break: no two consecutive newlines *)
Definition no_break (s : string) : Prop :=
  ~ exists a b, s = a ++ String (ascii_of_nat 10) (String (ascii_of_nat 10) b).

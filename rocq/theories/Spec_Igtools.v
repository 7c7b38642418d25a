(* Independent vocabulary for the dynamic mixture properties. *)
From Coq Require Import Reals List String Ascii Lia.
From Verif Require Import Base Model_Num Model_Units Model_Igas Model_Igtools Spec_Units.
Import ListNotations.
Local Open Scope R_scope.
Local Open Scope list_scope.

(* numpy's rule: dimensions are compared starting from the last, missing ones count as 1;
   two dimensions are compatible when they are equal or one of them is 1 *)
Definition from_end (s : list nat) (j : nat) : nat := nth j (rev s) 1%nat.
Definition numpy_broadcast (s t u : list nat) : Prop :=
  List.length u = Nat.max (List.length s) (List.length t) /\
  forall j, (j < List.length u)%nat ->
    let a := from_end s j in let b := from_end t j in
    (a = b \/ a = 1 \/ b = 1)%nat /\
    from_end u j = (if Nat.eqb a 1 then b else a).

(* i is an index of an array of shape s *)
Definition index_in (s i : list nat) : Prop := Forall2 lt i s.
(* which element of an array of shape s is used at index i of the array it is stretched to
   (same number of dimensions) *)
Fixpoint project (s i : list nat) : list nat :=
  match s, i with
  | d :: s', k :: i' => (if Nat.eqb d 1 then 0%nat else k) :: project s' i'
  | _, _ => []
  end.

(* a mixture object as the constructor makes it: one row per constituent, at least one
   dimension *)
Definition mixture_ok (m : mix) : Prop :=
  nsh (x_q m) = List.length (x_c m) :: shape m /\ shape m <> [] /\ NoDup (x_c m).

(* the amount of a substance in the mixture at one index of the mixture array, in kmol *)
Fixpoint amount_in (names : list string) (k : nat) (q : nd) (s : string) (i : list nat) : fl :=
  match names with
  | [] => Some 0
  | n :: rest => if String.eqb s n then nel q (k :: i) else amount_in rest (S k) q s i
  end.
Definition amount (m : mix) (s : string) (i : list nat) : fl := amount_in (x_c m) 0 (x_q m) s i.

(* same shape and the same amount of every substance everywhere *)
Definition same_mixture (a b : mix) : Prop :=
  shape a = shape b /\ forall s i, index_in (shape a) i -> amount a s i = amount b s i.

Fixpoint fsum {A} (f : A -> fl) (l : list A) : fl :=
  match l with [] => Some 0 | a :: l' => fadd (f a) (fsum f l') end.
(* the total amount at an index *)
Definition total (m : mix) (i : list nat) : fl := fsum (fun s => amount m s i) (x_c m).

(* two arrays with the same shape and elements *)
Definition nd_same (a b : nd) : Prop :=
  nsh a = nsh b /\ forall i, index_in (nsh a) i -> nel a i = nel b i.

(* all amounts are finite; n gives them *)
Definition amounts_known (m : mix) (n : string -> list nat -> R) : Prop :=
  forall s i, index_in (shape m) i -> amount m s i = Some (n s i).
Fixpoint rsum {A} (f : A -> R) (l : list A) : R :=
  match l with [] => 0 | a :: l' => f a + rsum f l' end.

(* the molecular weight of a substance of the pool, kg/kmol *)
Definition mw_of (P : pool) (s : string) : R :=
  match dget s P with Some g => g_mw g | None => 0 end.

(* ---- mixture strings ---- *)
(* the text of an item: blanks, an optional coefficient, blanks, a name, blanks *)
Definition blank (s : list ascii) : Prop := forall c, In c s -> c = " "%char.
Record item := { it_coef : list ascii; it_name : list ascii; it_l : list ascii;
                 it_m : list ascii; it_r : list ascii }.
Definition item_text (t : item) : list ascii :=
  it_l t ++ it_coef t ++ it_m t ++ it_name t ++ it_r t.
Fixpoint join_plus (l : list (list ascii)) : list ascii :=
  match l with
  | [] => []
  | [w] => w
  | w :: rest => w ++ "+"%char :: join_plus rest
  end.
(* a decimal number written with digits and at most one point, and its value *)
Definition all_digits (s : list ascii) : Prop := forall c, In c s -> is_digit c = true.
Fixpoint digits_value (s : list ascii) : R :=       (* most significant digit first *)
  match s with
  | [] => 0
  | c :: s' => INR (nat_of_ascii c - 48) * 10 ^ (List.length s') + digits_value s'
  end.
Inductive decimal : list ascii -> R -> Prop :=
| dec_int n : n <> [] -> all_digits n -> decimal n (digits_value n)
| dec_frac n f : n ++ f <> [] -> all_digits n -> all_digits f ->
    decimal (n ++ "."%char :: f) (digits_value n + digits_value f / 10 ^ (List.length f))
| dec_neg w v : decimal w v -> hd " "%char w <> "-"%char -> decimal ("-"%char :: w) (- v).
(* the value of an item: its coefficient, or one when there is none *)
Inductive item_value (t : item) : R -> Prop :=
| iv_one : it_coef t = [] -> item_value t 1
| iv_coef v : decimal (it_coef t) v -> item_value t v.
(* a name starts with a letter, contains no plus sign and does not end with a blank *)
Definition good_name (n : list ascii) : Prop :=
  is_alpha (hd " "%char n) = true /\ ~ In "+"%char n /\ is_space (last n " "%char) = false.
Definition good_item (t : item) : Prop :=
  good_name (it_name t) /\ blank (it_l t) /\ blank (it_m t) /\ blank (it_r t).

(* ---- quantities given to a mixture ---- *)
(* a quantity is a number or an array with as many dimensions as the mixture; the element used
   at an index of the mixture *)
Definition at_index (q : nd) (i : list nat) : fl :=
  match nsh q with [] => nel q [] | s => nel q (project s i) end.
(* the quantity q and a mixture of shape s together give shape u *)
Definition combines (q : nd) (s u : list nat) : Prop :=
  (nsh q = [] /\ u = s) \/
  (List.length (nsh q) = List.length s /\ numpy_broadcast (nsh q) s u).
(* The size in kmol of a unit u of matter for a substance of molecular weight mw, and the
   circumstances in which the molecular weight in configured units can stand for mw: a molar
   unit, or equal sizes of the configured units of mass (km kg) and of molar amount (kn kmol) *)
Definition counts (E : env) (km kn : R) (u : string) : Prop :=
  km = kn \/ si (e_setup E) QMolar u <> None.
(* the quantities of a new mixture are numbers or arrays with one number of dimensions; u is
   the shape they have together (a single element when all are numbers) *)
Definition shape_step (q : nd) (s s' : list nat) : Prop :=
  (nsh q = [] /\ s' = s) \/
  (nsh q <> [] /\ (s = [1%nat] \/ List.length s = List.length (nsh q)) /\ numpy_broadcast (nsh q) s s').
Fixpoint shapes_combine (qs : list nd) (s u : list nat) : Prop :=
  match qs with
  | [] => u = s
  | q :: r => exists s', shape_step q s s' /\ shapes_combine r s' u
  end.

(* ---- the configured units of mass (km kg) and of molar amount (kn kmol) ---- *)
Definition mass_molar (E : env) (km kn : R) : Prop :=
  positive_setup (e_setup E) /\
  (exists u, dget "unit_mass"%string (e_cfg E) = Some u /\ si (e_setup E) QMass u = Some km) /\
  (exists u, dget "unit_molar"%string (e_cfg E) = Some u /\ si (e_setup E) QMolar u = Some kn).
(* the size in kmol of the unit of matter named by an optional argument, by default the
   configured one, for a substance of molecular weight mw *)
Definition unit_size (E : env) (units : option string) (u : string) (mw k : R) : Prop :=
  match units with Some v => v = u | None => dget "unit_matter"%string (e_cfg E) = Some u end /\
  kmoles (e_setup E) mw u = Some k.

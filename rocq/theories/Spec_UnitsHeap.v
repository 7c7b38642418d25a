(* Specification for C92: what a conversion may do to memory. *)
From Coq Require Import Reals ZArith List String.
From Verif Require Import Base Model_Units Model_UnitsHeap Spec_Units.
Import ListNotations.
Local Open Scope R_scope.
Local Open Scope string_scope.

(* the conversion functions of the module on memory (the boolean is inplace), each with the
   conversion of one number *)
Inductive conversion_call : (bool -> memory -> value -> memory * res value) -> (R -> res R) -> Prop :=
| call_convert : forall s q c f t e, conversion_call
    (fun ip m v => m_convert (units_of s q) c m v f t e ip) (fun x => convert (units_of s q) c x f t e)
| call_scale : forall c f t, conversion_call
    (fun ip m v => m_scale c m v f t ip) (fun x => temperature_scale c x f t)
| call_gauge_to_abs : forall st c u patm, conversion_call
    (fun ip m v => m_gauge_to_abs st c m v u patm ip) (fun x => gauge_to_abs st c x u patm)
| call_abs_to_gauge : forall st c u patm, conversion_call
    (fun ip m v => m_abs_to_gauge st c m v u patm ip) (fun x => abs_to_gauge st c x u patm)
| call_matter : forall s c mw f t e, conversion_call
    (fun ip m v => m_matter s c m v mw f t e ip) (fun x => matter s c x mw f t e).

Definition cells_of (b : buffer) : nat := match b with Floats l => List.length l | Ints l => List.length l end.
(* an array that exists in memory, of whose cells no two are the same *)
Definition array_in (m : memory) (a : view) : Prop :=
  exists b, nth_error m (buf a) = Some b /\ NoDup (cells a) /\ forall i, In i (cells a) -> (i < cells_of b)%nat.
Definition float_array (m : memory) (a : view) : Prop :=
  array_in m a /\ exists l, nth_error m (buf a) = Some (Floats l).
Definition int_array (m : memory) (a : view) : Prop :=
  array_in m a /\ exists l, nth_error m (buf a) = Some (Ints l).
Definition value_in (m : memory) (v : value) : Prop := forall a, v = VArr a -> array_in m a.

(* no other array in memory has changed, and of the memory behind [a] only cells of [a] have *)
Definition cell (m : memory) (b i : nat) : option (R + Z) :=
  match nth_error m b with
  | Some (Floats l) => option_map inl (nth_error l i)
  | Some (Ints l) => option_map inr (nth_error l i)
  | None => None
  end.
Definition only_changes (a : view) (m m' : memory) : Prop :=
  (forall b, b <> buf a -> nth_error m' b = nth_error m b) /\
  (forall i, ~ In i (cells a) -> cell m' (buf a) i = cell m (buf a) i).

(* pairs of conversions of which the second undoes the first *)
Inductive there_and_back : (bool -> memory -> value -> memory * res value) ->
  (bool -> memory -> value -> memory * res value) -> Prop :=
| back_convert : forall s q c f t e, positive_setup s -> there_and_back
    (fun ip m v => m_convert (units_of s q) c m v f t e ip) (fun ip m v => m_convert (units_of s q) c m v t f e ip)
| back_scale : forall c f t, there_and_back
    (fun ip m v => m_scale c m v f t ip) (fun ip m v => m_scale c m v t f ip)
| back_gauge : forall st c u patm, there_and_back
    (fun ip m v => m_gauge_to_abs st c m v u patm ip) (fun ip m v => m_abs_to_gauge st c m v u patm ip)
| back_abs : forall st c u patm, there_and_back
    (fun ip m v => m_abs_to_gauge st c m v u patm ip) (fun ip m v => m_gauge_to_abs st c m v u patm ip)
| back_matter : forall s c mw f t e, positive_setup s -> 0 < mw -> there_and_back
    (fun ip m v => m_matter s c m v mw (Some f) (Some t) e ip) (fun ip m v => m_matter s c m v mw (Some t) (Some f) e ip).

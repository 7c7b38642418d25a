(* The unit conversions of src/pyromat/units.py on numpy arrays, at the level of memory: which
   array a call returns and which cells it writes, with and without inplace=True.  The numbers
   are those of Model_Units. *)
From Coq Require Import Reals ZArith List Bool String.
From Verif Require Import Base Model_Units.
Import ListNotations.
Local Open Scope R_scope.
Local Open Scope string_scope.
Local Open Scope list_scope.

(* Memory is a list of buffers of float64 or of integer cells.  An array is a view of a buffer:
   the cells of its elements in order, so that slices, strides and transposes are covered, with
   the dimensions flattened.  Other element types are not modelled. *)
Inductive buffer := Floats (l : list R) | Ints (l : list Z).
Definition memory := list buffer.
Record view := { buf : nat; cells : list nat }.
(* what can be converted: a number, or an array (lists behave as new arrays) *)
Inductive value := VNum (x : R) | VArr (a : view).

Definition cell_value (b : buffer) (i : nat) : R :=
  match b with Floats l => nth i l 0 | Ints l => IZR (nth i l 0%Z) end.
Definition vread (m : memory) (a : view) : list R := map (cell_value (nth (buf a) m (Floats []))) (cells a).
Definition contents (m : memory) (v : value) : list R := match v with VNum x => [x] | VArr a => vread m a end.

Fixpoint set_nth {A} (i : nat) (x : A) (l : list A) : list A :=
  match l, i with
  | [], _ => []
  | _ :: l, O => x :: l
  | y :: l, S i => y :: set_nth i x l
  end.
Definition put (l : list R) (cs : list nat) (vs : list R) : list R :=
  fold_left (fun l cv => set_nth (fst cv) (snd cv) l) (combine cs vs) l.

(* a numpy function with out=a, applied to a itself: integer cells cannot take a float result
   (numpy raises UFuncTypeError, a TypeError, before writing) *)
Definition store (m : memory) (a : view) (f : R -> R) : memory * res unit :=
  match nth (buf a) m (Floats []) with
  | Floats l => (set_nth (buf a) (Floats (put l (cells a) (map f (vread m a)))) m, Ok tt)
  | Ints _ => (m, Err ETypeError)
  end.
(* a new array *)
Definition fresh (m : memory) (vs : list R) : memory * value :=
  (m ++ [Floats vs], VArr {| buf := List.length m; cells := seq 0 (List.length vs) |}).
(* a numpy function without out: a new array, or a number *)
Definition result (m : memory) (v : value) (f : R -> R) : memory * res value :=
  match v with
  | VNum x => (m, Ok (VNum (f x)))
  | VArr a => let (m', w) := fresh m (map f (vread m a)) in (m', Ok w)
  end.
(* units.py 152-156, 527-535, 550-558, 599-601:
   if inplace and isinstance(value, np.ndarray): return np.f(value, ..., out=value)
   return np.f(value, ...) *)
Definition apply (m : memory) (v : value) (inplace : bool) (f : R -> R) : memory * res value :=
  match inplace, v with
  | true, VArr a => match store m a f with (m', Ok _) => (m', Ok v) | (m', Err e) => (m', Err e) end
  | _, _ => result m v f
  end.

(* units.py 123-156 *)
Definition m_convert (cv : conversion) (c : ucfg) (m : memory) (v : value)
  (from_units to_units : option string) (exponent : option Z) (inplace : bool) : memory * res value :=
  match (do f <- default_unit cv c from_units; do t <- default_unit cv c to_units; Ok (f, t)) with
  | Err e => (m, Err e)
  | Ok (f, t) =>
    if String.eqb f t then (m, Ok v)
    else match (do t_from <- tget (table cv) f; do t_to <- tget (table cv) t; do conv <- pdiv t_from t_to;
               apply_exponent conv exponent) with
         | Err e => (m, Err e)
         | Ok conv => apply m v inplace (fun x => x * conv)
         end
  end.

(* units.py 495-513: the steps, each with out=out *)
Definition scale_from (f : string) : list (R -> R) :=
  if String.eqb f "C" then [fun x => x + (273 + 15/100)]
  else if String.eqb f "R" then [fun x => x / (18/10)]
  else if String.eqb f "F" then [fun x => x / (18/10); fun x => x + 2553722222222222 * p10 (-13)]
  else if String.eqb f "eV" then [fun x => x * (const_q / const_k)]
  else [].
Definition scale_to (t : string) : list (R -> R) :=
  if String.eqb t "C" then [fun x => x - (273 + 15/100)]
  else if String.eqb t "R" then [fun x => x * (18/10)]
  else if String.eqb t "F" then [fun x => x - 2553722222222222 * p10 (-13); fun x => x * (18/10)]
  else if String.eqb t "eV" then [fun x => x / (const_q / const_k)]
  else [].
Fixpoint steps (m : memory) (a : view) (l : list (R -> R)) : memory * res value :=
  match l with
  | [] => (m, Ok (VArr a))
  | f :: l => match store m a f with
              | (m', Ok _) => steps m' a l
              | (m', Err e) => (m', Err e)
              end
  end.
(* units.py 488-493: out is the array itself, or a copy; of a number, an array with one cell *)
Definition m_scale_run (m : memory) (v : value) (inplace : bool) (f t : string) : memory * res value :=
  match inplace, v with
  | true, VArr a => steps m a (scale_from f ++ scale_to t)
  | _, _ => match fresh m (contents m v) with
            | (m', VArr a) => steps m' a (scale_from f ++ scale_to t)
            | (m', w) => (m', Ok w)
            end
  end.
(* units.py 440-514 *)
Definition m_scale (c : ucfg) (m : memory) (v : value) (from_units to_units : option string) (inplace : bool)
  : memory * res value :=
  match (do f <- match from_units with None => cfg_get c "unit_temperature" | Some u => Ok u end;
        do t <- match to_units with None => cfg_get c "unit_temperature" | Some u => Ok u end; Ok (f, t)) with
  | Err e => (m, Err e)
  | Ok (f, t) =>
    if String.eqb f t then (m, Ok v)
    else if String.eqb f "abs" then
      if String.eqb t "C" then m_scale_run m v inplace "K" t
      else if String.eqb t "F" then m_scale_run m v inplace "R" t
      else (m, Ok v)
    else if String.eqb t "abs" then
      if String.eqb f "C" then m_scale_run m v inplace f "K"
      else if String.eqb f "F" then m_scale_run m v inplace f "R"
      else (m, Ok v)
    else m_scale_run m v inplace f t
  end.

(* units.py 518-537 *)
Definition m_gauge_to_abs (st : units_state) (c : ucfg) (m : memory) (v : value) (u : option string)
  (patm : option R) (inplace : bool) : memory * res value :=
  match convert (units_of (now st) QPressure) c (match patm with None => patm_default st | Some x => x end) (Some "bar") u None with
  | Err e => (m, Err e)
  | Ok off => apply m v inplace (fun x => x + off)
  end.
(* units.py 541-559 *)
Definition m_abs_to_gauge (st : units_state) (c : ucfg) (m : memory) (v : value) (u : option string)
  (patm : option R) (inplace : bool) : memory * res value :=
  match convert (units_of (now st) QPressure) c (match patm with None => patm_default st | Some x => x end) (Some "bar") u None with
  | Err e => (m, Err e)
  | Ok off => apply m v inplace (fun x => x - off)
  end.

(* units.py 562-601 *)
Definition m_matter (s : setup_args) (c : ucfg) (m : memory) (v : value) (mw : R)
  (from_units to_units : option string) (exponent : option Z) (inplace : bool) : memory * res value :=
  match (do f <- match from_units with None => cfg_get c "unit_matter" | Some u => Ok u end;
        do t <- match to_units with None => cfg_get c "unit_matter" | Some u => Ok u end; Ok (f, t)) with
  | Err e => (m, Err e)
  | Ok (f, t) =>
    if String.eqb f t then (m, Ok v)
    else if dmem f (mass_tab s) then
      if dmem t (mass_tab s)
      then m_convert (units_of s QMass) c m v (Some f) (Some t) exponent inplace
      else match (do mf <- tget (mass_tab s) f; do a <- pdiv mf mw; do mt <- tget (molar_tab s) t;
                 do conv <- pdiv a mt; apply_exponent conv exponent) with
           | Err e => (m, Err e)
           | Ok conv => apply m v inplace (fun x => x * conv)
           end
    else
      if dmem t (molar_tab s)
      then m_convert (units_of s QMolar) c m v (Some f) (Some t) exponent inplace
      else match (do mf <- tget (molar_tab s) f; do mt <- tget (mass_tab s) t;
                 do conv <- pdiv (mf * mw) mt; apply_exponent conv exponent) with
           | Err e => (m, Err e)
           | Ok conv => apply m v inplace (fun x => x * conv)
           end
  end.

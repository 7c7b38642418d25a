(* What a session with dynamic mixtures would do if every mixture and every array were a value of
   its own, and which mixtures and arrays may share memory. *)
From Coq Require Import Reals List String Bool.
From Verif Require Import Base Model_Num Model_Units Model_Igas Model_Igtools Model_Igtprop Model_Igtview Model_IgtHeap Spec_Igtools.
Import ListNotations.
Local Open Scope R_scope.
Local Open Scope string_scope.
Local Open Scope list_scope.

(* ---- sessions of values ---- *)
Record values := { v_mixs : list mix; v_arrs : list nd }.
(* only the elements at the indices of the shape count *)
Definition table (a : nd) : nd := of_list (nsh a) (to_list a).
Definition mix_table (m : mix) : mix := {| x_c := x_c m; x_q := table (x_q m) |}.

Definition v_mix (V : values) (a : nat) : res mix :=
  match nth_error (v_mixs V) a with Some m => Ok m | None => Err ENameError end.
Definition v_arr (V : values) (x : nat) : res nd :=
  match nth_error (v_arrs V) x with Some v => Ok v | None => Err ENameError end.
Definition v_operand (V : values) (v : operand) : res nd :=
  match v with Lit v => Ok v | Arr x => v_arr V x end.
Fixpoint v_contents (V : values) (c : list (string * operand)) : res (list (string * nd)) :=
  match c with
  | [] => Ok []
  | (s, v) :: c => do v <- v_operand V v; do r <- v_contents V c; Ok ((s, v) :: r)
  end.
(* the constituents at positions i, ..., j-1 *)
Definition v_slice (m : mix) (i j : nat) : mix :=
  let i := Nat.min i (List.length (x_c m)) in
  let n := (Nat.min j (List.length (x_c m)) - i)%nat in
  {| x_c := firstn n (skipn i (x_c m));
     x_q := {| nsh := n :: shape m;
               nel := fun ix => match ix with k :: r => nel (x_q m) ((i + k)%nat :: r) | [] => None end |} |}.

(* what a statement does to the values: it makes a new mixture or array, or gives the mixture or
   array it names a new value, and nothing else *)
Inductive effect :=
| NewMix (r : res mix)                       (* a new mixture, unless it raises *)
| SetMix (a : nat) (m : mix) (r : res unit)  (* mixture a becomes m, also when it raises *)
| NewArr (r : res nd)
| SetArr (x : nat) (v : nd).
Definition result_of {A} (V : values) (x : res A) (f : A -> values) : values * res unit :=
  match x with Ok x => (f x, Ok tt) | Err e => (V, Err e) end.
Definition apply_effect (V : values) (e : effect) : values * res unit :=
  match e with
  | NewMix r => result_of V r (fun m => {| v_mixs := v_mixs V ++ [mix_table m]; v_arrs := v_arrs V |})
  | SetMix a m r => ({| v_mixs := set_nth a (mix_table m) (v_mixs V); v_arrs := v_arrs V |}, r)
  | NewArr r => result_of V r (fun v => {| v_mixs := v_mixs V; v_arrs := v_arrs V ++ [table v] |})
  | SetArr x v => ({| v_mixs := v_mixs V; v_arrs := set_nth x (table v) (v_arrs V) |}, Ok tt)
  end.
(* an operation that leaves the mixture as it was when it raises *)
Definition or_same (a : nat) (m : mix) (r : res mix) : effect :=
  match r with Ok m' => SetMix a m' (Ok tt) | Err e => SetMix a m (Err e) end.
Definition effect_of (P : pool) (E : env) (V : values) (st : stmt) : res effect :=
  match st with
  | New c units => do c <- v_contents V c; Ok (NewMix (new_mix P E units c))
  | Copy a => do m <- v_mix V a; Ok (NewMix (Ok m))
  | Neg a => do m <- v_mix V a; Ok (NewMix (Ok (neg m)))
  | Add a b => do m <- v_mix V a; do n <- v_mix V b; Ok (NewMix (add m n))
  | Sub a b => do m <- v_mix V a; do n <- v_mix V b; Ok (NewMix (sub m n))
  | Mul a k => do m <- v_mix V a; do k <- v_operand V k; Ok (NewMix (mul m k))
  | Div a k => do m <- v_mix V a; do k <- v_operand V k; Ok (NewMix (truediv m k))
  | Iadd a b => do m <- v_mix V a; do n <- v_mix V b; Ok (SetMix a (fst (iadd m n)) (snd (iadd m n)))
  | Isub a b => do m <- v_mix V a; do n <- v_mix V b; Ok (SetMix a (fst (isub m n)) (snd (isub m n)))
  | Imul a k => do m <- v_mix V a; do k <- v_operand V k; Ok (or_same a m (imul m k))
  | Idiv a k => do m <- v_mix V a; do k <- v_operand V k; Ok (or_same a m (truediv m k))
  | Set_ a s v => do m <- v_mix V a; do v <- v_operand V v; Ok (SetMix a (fst (setitem P E m s v)) (snd (setitem P E m s v)))
  | Insert a s v units => do m <- v_mix V a; do v <- v_operand V v; Ok (or_same a m (insert P E m s v units))
  | Remove a s => do m <- v_mix V a; Ok (or_same a m (remove m s))
  | Reshape a t => do m <- v_mix V a; Ok (or_same a m (reshape m t))
  | Slice a i j => do m <- v_mix V a; Ok (NewMix (Ok (v_slice m i j)))
  | Get a s => do m <- v_mix V a; Ok (NewArr (getitem P E m s))
  | Item a k => do m <- v_mix V a;
                if Nat.ltb k (nsubst m) then Ok (NewArr (Ok (row (x_q m) k))) else Err EIndexError
  | Array v => Ok (NewArr (Ok v))
  | Amul x k => do v <- v_arr V x; Ok (SetArr x (np_map (fun e => fmul e (Some k)) v))
  end.
Definition v_step (P : pool) (E : env) (V : values) (st : stmt) : values * res unit :=
  match effect_of P E V st with Ok e => apply_effect V e | Err e => (V, Err e) end.
Fixpoint v_run (P : pool) (E : env) (V : values) (l : list stmt) : values * res unit :=
  match l with
  | [] => (V, Ok tt)
  | st :: l => match v_step P E V st with
               | (V', Ok _) => v_run P E V' l
               | (V', Err e) => (V', Err e)
               end
  end.
Definition no_values : values := {| v_mixs := []; v_arrs := [] |}.
(* the values of the mixtures and arrays in memory *)
Definition values_in (h : heap) : values :=
  {| v_mixs := map (mix_of (h_mem h)) (h_objs h); v_arrs := map (read (h_mem h)) (h_arrs h) |}.

(* ---- the statements considered ---- *)
(* a factor is a number or an array with at most as many dimensions as the mixture; a mixture is
   not reshaped to no dimension at all *)
Definition factor_ok (V : values) (a : nat) (k : operand) : Prop :=
  forall m v, v_mix V a = Ok m -> v_operand V k = Ok v ->
    nsh v = [] \/ (List.length (nsh v) <= List.length (shape m))%nat.
Definition regular (V : values) (st : stmt) : Prop :=
  match st with
  | Mul a k | Div a k | Imul a k | Idiv a k => factor_ok V a k
  | Reshape _ t => t <> []
  | _ => True
  end.
(* every statement of the session is regular when it is executed *)
Fixpoint regular_session (P : pool) (E : env) (h : heap) (l : list stmt) : Prop :=
  match l with
  | [] => True
  | st :: l => regular (values_in h) st /\
               match h_step P E h st with (h', Ok _) => regular_session P E h' l | _ => True end
  end.
(* statements that give the user a mixture or an array in the memory of a mixture: slices, the
   arrays of items(), and a[s] when the configured unit of matter is kmol *)
Definition shares_memory (E : env) (st : stmt) : bool :=
  match st with
  | Slice _ _ _ | Item _ _ => true
  | Get _ _ => match cfg_get (e_cfg E) "unit_matter" with Ok u => String.eqb "kmol" u | Err _ => false end
  | _ => false
  end.

(* ---- families: which mixtures and arrays may share memory, from the statements alone ---- *)
Record families := { f_mixs : list nat; f_arrs : list nat; f_next : nat }.
Definition fam_new_mix (F : families) : families :=
  {| f_mixs := f_mixs F ++ [f_next F]; f_arrs := f_arrs F; f_next := S (f_next F) |}.
Definition fam_new_arr (F : families) : families :=
  {| f_mixs := f_mixs F; f_arrs := f_arrs F ++ [f_next F]; f_next := S (f_next F) |}.
Definition fam_step (E : env) (F : families) (st : stmt) : families :=
  match st with
  | New _ _ | Copy _ | Neg _ | Add _ _ | Sub _ _ | Mul _ _ | Div _ _ => fam_new_mix F
  | Slice a _ _ => {| f_mixs := f_mixs F ++ [nth a (f_mixs F) 0%nat]; f_arrs := f_arrs F; f_next := f_next F |}
  | Item a _ => {| f_mixs := f_mixs F; f_arrs := f_arrs F ++ [nth a (f_mixs F) 0%nat]; f_next := f_next F |}
  | Get a _ => if shares_memory E st
               then {| f_mixs := f_mixs F; f_arrs := f_arrs F ++ [nth a (f_mixs F) 0%nat]; f_next := f_next F |}
               else fam_new_arr F
  | Array _ => fam_new_arr F
  | _ => F
  end.
Definition fam_run (E : env) (F : families) (l : list stmt) : families := fold_left (fam_step E) l F.
Definition no_families : families := {| f_mixs := []; f_arrs := []; f_next := 0 |}.
(* the family that a statement changes, if it changes something *)
Definition target (F : families) (st : stmt) : option nat :=
  match st with
  | Iadd a _ | Isub a _ | Imul a _ | Idiv a _ | Set_ a _ _ | Insert a _ _ _ | Remove a _ | Reshape a _ => nth_error (f_mixs F) a
  | Amul x _ => nth_error (f_arrs F) x
  | _ => None
  end.
(* no statement of the list changes anything of family f *)
Fixpoint leaves (E : env) (F : families) (f : nat) (l : list stmt) : Prop :=
  match l with
  | [] => True
  | st :: l => target F st <> Some f /\ leaves E (fam_step E F st) f l
  end.

(* ---- statements that write into the memory of the mixture they change ---- *)
(* the shape and the constituents stay: += of a mixture with no new constituent, *= and /= by an
   array of the mixture's own shape, assignment of a quantity that does not stretch the mixture *)
Definition in_place (V : values) (st : stmt) : Prop :=
  match st with
  | Iadd a b | Isub a b =>
      forall m n, v_mix V a = Ok m -> v_mix V b = Ok n ->
        incl (x_c n) (x_c m) /\ broadcast_shape (shape n) (shape m) = Ok (shape m)
  | Imul a k | Idiv a k =>
      forall m v, v_mix V a = Ok m -> v_operand V k = Ok v -> nsh (atleast_1d v) = shape m
  | Set_ a s v =>
      forall m v', v_mix V a = Ok m -> v_operand V v = Ok v' ->
        broadcast_shape (nsh (atleast_1d v')) (shape m) = Ok (shape m)
  | Insert _ _ _ _ | Remove _ _ | Reshape _ _ => False
  | _ => True
  end.
(* every statement of the session that changes one of two mixtures writes into its memory *)
Definition changes_mix (st : stmt) (a : nat) : Prop :=
  match st with
  | Iadd b _ | Isub b _ | Imul b _ | Idiv b _ | Set_ b _ _ | Insert b _ _ _ | Remove b _ | Reshape b _ => a = b
  | _ => False
  end.
Fixpoint written_in_place (P : pool) (E : env) (a b : nat) (h : heap) (l : list stmt) : Prop :=
  match l with
  | [] => True
  | st :: l => (changes_mix st a \/ changes_mix st b -> in_place (values_in h) st) /\
               match h_step P E h st with (h', Ok _) => written_in_place P E a b h' l | _ => True end
  end.

(* ---- what the user sees ---- *)
(* the amount of a substance in the mixture made a-th, in kmol, after a session *)
Definition amount_after (P : pool) (E : env) (l : list stmt) (a : nat) (s : string) (i : list nat) : res fl :=
  match h_run P E empty_heap l with
  | (h, Ok _) => do m <- v_mix (values_in h) a; Ok (amount m s i)
  | (_, Err e) => Err e
  end.

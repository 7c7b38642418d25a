(* The dynamic mixtures of src/pyromat/igtools.py at the level of memory: which numpy array each
   mixture object holds, which operations write into it and which replace it, and which arrays
   and mixtures given to the user share its memory.  The numbers are those of Model_Igtools. *)
From Coq Require Import Reals ZArith List String Bool.
From Verif Require Export Model_Igtools Model_Igtprop Model_Igtview.
Import ListNotations.
Local Open Scope R_scope.
Local Open Scope string_scope.
Local Open Scope list_scope.

(* Memory is a list of buffers.  The arrays that occur are contiguous blocks of a buffer: new
   arrays, rows and ranges of rows of such arrays, and reshaped ones.  The other views that numpy
   can make (m[:,3:6], steps, transposes) are not modelled. *)
Definition memory := list (list fl).
Record harr := { h_buf : nat; h_off : nat; h_sh : list nat }.
Definition count (s : list nat) : nat := fold_right Nat.mul 1%nat s.
Definition block (m : memory) (a : harr) : list fl :=
  firstn (count (h_sh a)) (skipn (h_off a) (nth (h_buf a) m [])).
(* the array's present elements *)
Definition read (m : memory) (a : harr) : nd := of_list (h_sh a) (block m a).
(* a new array with the elements of v *)
Definition alloc (m : memory) (v : nd) : memory * harr :=
  (m ++ [to_list v], {| h_buf := List.length m; h_off := 0; h_sh := nsh v |}).
Fixpoint set_nth {A} (i : nat) (x : A) (l : list A) : list A :=
  match l, i with
  | [], _ => []
  | _ :: l, O => x :: l
  | y :: l, S i => y :: set_nth i x l
  end.
(* a[...] = v, for v of the array's shape *)
Definition write (m : memory) (a : harr) (v : nd) : memory :=
  let b := nth (h_buf a) m [] in
  set_nth (h_buf a)
    (firstn (h_off a) b ++ map (nel v) (all_idx (h_sh a)) ++ skipn (h_off a + count (h_sh a)) b) m.
(* a[k] and a[i:i+n] are views *)
Definition hrow (a : harr) (k : nat) : harr :=
  {| h_buf := h_buf a; h_off := (h_off a + k * count (tl (h_sh a)))%nat; h_sh := tl (h_sh a) |}.
Definition hrows (a : harr) (i n : nat) : harr :=
  {| h_buf := h_buf a; h_off := (h_off a + i * count (tl (h_sh a)))%nat; h_sh := n :: tl (h_sh a) |}.

(* The mixture objects and the arrays the user holds, in the order of their creation.  The list
   _c of an object is never shared: list(...), copy() and list slices make new lists. *)
Record hobj := { h_c : list string; h_q : harr }.
Record heap := { h_mem : memory; h_objs : list hobj; h_arrs : list harr }.
Definition hshape (a : hobj) : list nat := tl (h_sh (h_q a)).
(* the mixture an object presently is *)
Definition mix_of (m : memory) (a : hobj) : mix := {| x_c := h_c a; x_q := read m (h_q a) |}.

(* an array operand: given literally, or one of the arrays the user holds *)
Inductive operand := Lit (v : nd) | Arr (x : nat).
(* The statements of a session.  Mixtures and arrays are named by their position in the order of
   creation; two variables that hold the same object are one position. *)
Inductive stmt :=
| New (contents : list (string * operand)) (units : option string)   (* m = IgtMix({..}, units=..) *)
| Copy (a : nat)                                                     (* m = IgtMix(a) *)
| Neg (a : nat)                                                      (* m = -a *)
| Add (a b : nat)                                                    (* m = a + b *)
| Sub (a b : nat)                                                    (* m = a - b *)
| Mul (a : nat) (k : operand)                                        (* m = a * k *)
| Div (a : nat) (k : operand)                                        (* m = a / k *)
| Iadd (a b : nat)                                                   (* a += b *)
| Isub (a b : nat)                                                   (* a -= b *)
| Imul (a : nat) (k : operand)                                       (* a *= k *)
| Idiv (a : nat) (k : operand)                                       (* a /= k *)
| Set_ (a : nat) (s : string) (v : operand)                          (* a[s] = v *)
| Insert (a : nat) (s : string) (v : operand) (units : option string) (* a.insert(s, v, units=..) *)
| Remove (a : nat) (s : string)                                      (* a.remove(s) *)
| Reshape (a : nat) (t : list nat)                                   (* a.reshape(t) *)
| Slice (a : nat) (i j : nat)                                        (* m = a[i:j] *)
| Get (a : nat) (s : string)                                         (* x = a[s] *)
| Item (a : nat) (k : nat)                                           (* s, x = list(a.items())[k] *)
| Array (v : nd)                                                     (* x = numpy.array(v) *)
| Amul (x : nat) (k : R).                                            (* x *= k *)

Definition obj (h : heap) (a : nat) : res hobj :=
  match nth_error (h_objs h) a with Some o => Ok o | None => Err ENameError end.
Definition arr_at (h : heap) (x : nat) : res harr :=
  match nth_error (h_arrs h) x with Some a => Ok a | None => Err ENameError end.
Definition operand_value (h : heap) (v : operand) : res nd :=
  match v with Lit v => Ok v | Arr x => do a <- arr_at h x; Ok (read (h_mem h) a) end.
Fixpoint contents_value (h : heap) (c : list (string * operand)) : res (list (string * nd)) :=
  match c with
  | [] => Ok []
  | (s, v) :: c => do v <- operand_value h v; do r <- contents_value h c; Ok ((s, v) :: r)
  end.

(* igtools.py 433-435: self._q[ai,:] += b._q[bi,:], row by row in memory *)
Fixpoint h_add_rows (c bc : list string) (bq : harr) (bi : nat) (q : harr) (m : memory) : memory * res unit :=
  match bc with
  | [] => (m, Ok tt)
  | s :: rest =>
      let ai := match index_of s c with Some n => n | None => 0%nat end in
      match broadcast_to (read m (hrow bq bi)) (tl (h_sh q)) with
      | Err e => (m, Err e)
      | Ok v => h_add_rows c rest bq (S bi) q
                  (write m (hrow q ai)
                     {| nsh := tl (h_sh q); nel := fun i => fadd (nel (read m (hrow q ai)) i) (nel v i) |})
      end
  end.
(* igtools.py 403-437: the memory and the object a afterwards.  `same` says that b is a. *)
Definition h_iadd (m : memory) (a b : hobj) (same : bool) : memory * hobj * res unit :=
  let c := add_names (h_c b) (h_c a) in
  let n := List.length (h_c a) in
  let a1 := {| h_c := c; h_q := h_q a |} in
  match broadcast_shape (hshape b) (hshape a) with
  | Err e => (m, a1, Err e)
  | Ok sh =>
      match (if orb (negb (Nat.eqb (List.length c) n)) (negb (shape_eqb (hshape a) sh))
             then do v <- broadcast_to (read m (h_q a)) (n :: sh);
                  Ok (alloc m {| nsh := List.length c :: sh;
                                 nel := fun i => match i with
                                                 | j :: _ => if Nat.ltb j n then nel v i else Some 0
                                                 | [] => Some 0
                                                 end |})
             else Ok (m, h_q a)) with
      | Err e => (m, a1, Err e)
      | Ok (m1, q) =>
          let (m2, r) := h_add_rows c (h_c b) (if same then q else h_q b) 0 q m1 in
          (m2, {| h_c := c; h_q := q |}, r)
      end
  end.
(* igtools.py 456-463 *)
Definition h_neg (m : memory) (a : hobj) : memory * hobj :=
  let (m', q) := alloc m (np_map (lift1 Ropp) (read m (h_q a))) in (m', {| h_c := h_c a; h_q := q |}).
(* igtools.py 337-340: list(contents._c), np.array(contents._q) *)
Definition h_copy (m : memory) (a : hobj) : memory * hobj :=
  let (m', q) := alloc m (read m (h_q a)) in (m', {| h_c := h_c a; h_q := q |}).
(* igtools.py 486-501: in place when the shapes agree, a new array otherwise *)
Definition h_imul (m : memory) (a : hobj) (b : nd) : memory * hobj * res unit :=
  let b := atleast_1d b in
  let q := read m (h_q a) in
  if shape_eqb (nsh b) (hshape a)
  then match broadcast_to b (nsh q) with
       | Err e => (m, a, Err e)
       | Ok v => (write m (h_q a) {| nsh := nsh q; nel := fun i => fmul (nel q i) (nel v i) |}, a, Ok tt)
       end
  else match np_op fmul b q with
       | Err e => (m, a, Err e)
       | Ok v => let (m', q') := alloc m v in (m', {| h_c := h_c a; h_q := q' |}, Ok tt)
       end.
(* igtools.py 512-513 *)
Definition h_idiv (m : memory) (a : hobj) (b : nd) : memory * hobj * res unit :=
  match nsh b, nel b [] with
  | [], Some r => if Req_EM_T r 0 then (m, a, Err EZeroDivision) else h_imul m a (np_map reciprocal b)
  | _, _ => h_imul m a (np_map reciprocal b)
  end.
(* igtools.py 968-980: a new array when the shape grows, then the row is written *)
Definition h_setitem (P : pool) (E : env) (m : memory) (a : hobj) (s : string) (value : nd)
  : memory * hobj * res unit :=
  match index_of (full_sid s) (h_c a) with
  | None => (m, a, Err PMParamError)
  | Some k =>
      let value := atleast_1d value in
      match broadcast_shape (nsh value) (hshape a) with
      | Err e => (m, a, Err e)
      | Ok sh =>
          match (if shape_eqb sh (hshape a) then Ok (m, h_q a)
                 else do v <- broadcast_to (read m (h_q a)) (hd 0%nat (h_sh (h_q a)) :: sh); Ok (alloc m v)) with
          | Err e => (m, a, Err e)
          | Ok (m1, q) =>
              let a1 := {| h_c := h_c a; h_q := q |} in
              match (do v <- nd_matter E (gas_of P (nth k (h_c a) "")) value None (Some "kmol"); broadcast_to v sh) with
              | Err e => (m1, a1, Err e)
              | Ok v => (write m1 (hrow q k) v, a1, Ok tt)
              end
          end
      end
  end.

(* the statement replaces or changes the object at position a / makes a new object or array *)
Definition put_obj (h : heap) (a : nat) (x : memory * hobj * res unit) : heap * res unit :=
  let '(m, o, r) := x in ({| h_mem := m; h_objs := set_nth a o (h_objs h); h_arrs := h_arrs h |}, r).
Definition new_obj (h : heap) (m : memory) (o : hobj) : heap * res unit :=
  ({| h_mem := m; h_objs := h_objs h ++ [o]; h_arrs := h_arrs h |}, Ok tt).
Definition new_arr (h : heap) (m : memory) (a : harr) : heap * res unit :=
  ({| h_mem := m; h_objs := h_objs h; h_arrs := h_arrs h ++ [a] |}, Ok tt).
(* an operation on a temporary object that becomes the new object, or is dropped when it raises *)
Definition new_from (h : heap) (x : memory * hobj * res unit) : heap * res unit :=
  let '(m, o, r) := x in
  match r with
  | Ok _ => new_obj h m o
  | Err e => ({| h_mem := m; h_objs := h_objs h; h_arrs := h_arrs h |}, Err e)
  end.
Definition with_obj (h : heap) (a : nat) (f : hobj -> heap * res unit) : heap * res unit :=
  match obj h a with Err e => (h, Err e) | Ok o => f o end.
Definition with_val {A} (h : heap) (v : res A) (f : A -> heap * res unit) : heap * res unit :=
  match v with Err e => (h, Err e) | Ok v => f v end.

Definition h_step (P : pool) (E : env) (h : heap) (st : stmt) : heap * res unit :=
  let m := h_mem h in
  match st with
  | New c units =>            (* 329-397: np.empty, then every row is assigned *)
      with_val h (do c <- contents_value h c; new_mix P E units c) (fun x =>
        let (m', q) := alloc m (x_q x) in new_obj h m' {| h_c := x_c x; h_q := q |})
  | Copy a => with_obj h a (fun o => let (m', o') := h_copy m o in new_obj h m' o')
  | Neg a => with_obj h a (fun o => let (m', o') := h_neg m o in new_obj h m' o')
  | Add a b =>                (* 440-448 *)
      with_obj h a (fun o => with_obj h b (fun p =>
        let (m1, c) := h_copy m o in new_from h (h_iadd m1 c p false)))
  | Sub a b =>                (* 466-474 *)
      with_obj h a (fun o => with_obj h b (fun p =>
        let (m1, c) := h_neg m p in new_from h (h_iadd m1 c o false)))
  | Mul a k =>                (* 503-510 *)
      with_obj h a (fun o => with_val h (operand_value h k) (fun k =>
        let (m1, c) := h_copy m o in new_from h (h_imul m1 c k)))
  | Div a k =>                (* 515-516 *)
      with_obj h a (fun o => with_val h (operand_value h k) (fun k =>
        let (m1, c) := h_copy m o in new_from h (h_idiv m1 c k)))
  | Iadd a b => with_obj h a (fun o => with_obj h b (fun p => put_obj h a (h_iadd m o p (Nat.eqb a b))))
  | Isub a b =>               (* 476-478 *)
      with_obj h a (fun o => with_obj h b (fun p =>
        let (m1, c) := h_neg m p in put_obj h a (h_iadd m1 o c false)))
  | Imul a k => with_obj h a (fun o => with_val h (operand_value h k) (fun k => put_obj h a (h_imul m o k)))
  | Idiv a k => with_obj h a (fun o => with_val h (operand_value h k) (fun k => put_obj h a (h_idiv m o k)))
  | Set_ a s v => with_obj h a (fun o => with_val h (operand_value h v) (fun v => put_obj h a (h_setitem P E m o s v)))
  | Insert a s v units =>     (* 1102-1117: a new array *)
      with_obj h a (fun o => with_val h (operand_value h v) (fun v =>
        with_val h (insert P E (mix_of m o) s v units) (fun x =>
          let (m', q) := alloc m (x_q x) in put_obj h a (m', {| h_c := x_c x; h_q := q |}, Ok tt))))
  | Remove a s =>             (* 1119-1131: np.delete makes a new array *)
      with_obj h a (fun o => with_val h (remove (mix_of m o) s) (fun x =>
        let (m', q) := alloc m (x_q x) in put_obj h a (m', {| h_c := x_c x; h_q := q |}, Ok tt)))
  | Reshape a t =>            (* 1035-1044: the same memory *)
      with_obj h a (fun o =>
        let t := hd 0%nat (h_sh (h_q o)) :: t in
        if Nat.eqb (count t) (count (h_sh (h_q o)))
        then put_obj h a (m, {| h_c := h_c o; h_q := {| h_buf := h_buf (h_q o); h_off := h_off (h_q o); h_sh := t |} |}, Ok tt)
        else (h, Err EValueError))
  | Slice a i j =>            (* 919-925: self._c[ii], self._q[ii] *)
      with_obj h a (fun o =>
        let i := Nat.min i (List.length (h_c o)) in
        let n := (Nat.min j (List.length (h_c o)) - i)%nat in
        new_obj h m {| h_c := firstn n (skipn i (h_c o)); h_q := hrows (h_q o) i n |})
  | Get a s =>                (* 939-942; units.py 584-585: nothing is converted when the units agree *)
      with_obj h a (fun o =>
        match index_of (full_sid s) (h_c o) with
        | None => (h, Err PMParamError)
        | Some k =>
            with_val h (do mw <- m_mw (gas_of P (nth k (h_c o) "")) E; cfg_get (e_cfg E) "unit_matter") (fun u =>
              if String.eqb "kmol" u then new_arr h m (hrow (h_q o) k)
              else with_val h (nd_matter E (gas_of P (nth k (h_c o) "")) (read m (hrow (h_q o) k)) (Some "kmol") None) (fun v =>
                     let (m', x) := alloc m v in new_arr h m' x))
        end)
  | Item a k =>               (* 1328-1340: zip(self._c, self._q) *)
      with_obj h a (fun o =>
        if Nat.ltb k (List.length (h_c o)) then new_arr h m (hrow (h_q o) k) else (h, Err EIndexError))
  | Array v => let (m', x) := alloc m v in new_arr h m' x
  | Amul x k =>
      with_val h (arr_at h x) (fun a =>
        ({| h_mem := write m a {| nsh := h_sh a; nel := fun i => fmul (nel (read m a) i) (Some k) |};
            h_objs := h_objs h; h_arrs := h_arrs h |}, Ok tt))
  end.

(* a session: the statements in order, ending at the first exception *)
Fixpoint h_run (P : pool) (E : env) (h : heap) (l : list stmt) : heap * res unit :=
  match l with
  | [] => (h, Ok tt)
  | st :: l => match h_step P E h st with
               | (h', Ok _) => h_run P E h' l
               | (h', Err e) => (h', Err e)
               end
  end.
Definition empty_heap : heap := {| h_mem := []; h_objs := []; h_arrs := [] |}.

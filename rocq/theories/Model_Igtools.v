(* Model of the dynamic mixtures, src/pyromat/igtools.py.
   Quantity arrays have any number of dimensions.  A constituent is identified by its
   substance id; `pool` is the ideal gas collection pm.get looks in (a string naming a
   substance of another collection, which the constructor does not reject, is not
   modelled). *)
From Coq Require Import Reals ZArith List String Ascii.
From Verif Require Export Model_Num Model_Units Model_Igas Text.
Import ListNotations.
Local Open Scope R_scope.
Local Open Scope string_scope.
Local Open Scope list_scope.

(* ---- numpy arrays of any dimension: a shape and the element at each index ---- *)
Record nd := { nsh : list nat; nel : list nat -> fl }.

Definition scalar (r : R) : nd := {| nsh := []; nel := fun _ => Some r |}.
(* np.atleast_1d *)
Definition atleast_1d (a : nd) : nd :=
  match nsh a with
  | [] => {| nsh := [1%nat]; nel := fun _ => nel a [] |}
  | _ => a
  end.

(* numpy: can an array of shape s be stretched to shape t?  Dimensions are aligned at the
   last one; a dimension of s is 1 or equal to that of t. *)
Definition dim_fits (d e : nat) : bool := orb (Nat.eqb d 1) (Nat.eqb d e).
Definition fits (s t : list nat) : bool :=
  andb (Nat.leb (List.length s) (List.length t))
       (forallb (fun p => dim_fits (fst p) (snd p))
          (combine s (skipn (List.length t - List.length s) t))).
(* the index of a stretched array's element in the original array *)
Definition bidx (s i : list nat) : list nat :=
  map2 (fun d k => if Nat.eqb d 1 then 0%nat else k) s (skipn (List.length i - List.length s) i).
(* np.broadcast_to, and the stretching done by an assignment a[:] = b *)
Definition broadcast_to (a : nd) (t : list nat) : res nd :=
  if fits (nsh a) t then Ok {| nsh := t; nel := fun i => nel a (bidx (nsh a) i) |}
  else Err EValueError.

(* numpy's broadcast shape of two arrays, computed from the last dimension *)
Fixpoint np_rev (s t : list nat) : option (list nat) :=
  match s, t with
  | [], _ => Some t
  | _, [] => Some s
  | a :: s', b :: t' =>
      match np_rev s' t' with
      | None => None
      | Some r => if orb (Nat.eqb a b) (Nat.eqb a 1) then Some (b :: r)
                  else if Nat.eqb b 1 then Some (a :: r) else None
      end
  end.
Definition np_shape (s t : list nat) : option (list nat) :=
  match np_rev (rev s) (rev t) with Some r => Some (rev r) | None => None end.
(* numpy arithmetic of two arrays *)
Definition np_op (f : fl -> fl -> fl) (a b : nd) : res nd :=
  match np_shape (nsh a) (nsh b) with
  | Some t => Ok {| nsh := t; nel := fun i => f (nel a (bidx (nsh a) i)) (nel b (bidx (nsh b) i)) |}
  | None => Err EValueError
  end.
Definition np_map (f : fl -> fl) (a : nd) : nd := {| nsh := nsh a; nel := fun i => f (nel a i) |}.

(* igtools.py 563-611: _broadcast_shape(qshape, sshape), padding with ones on the right *)
Fixpoint dims_loop (s q : list nat) : res (list nat) :=
  match s, q with
  | a :: s', b :: q' =>
      if orb (Nat.eqb a b) (Nat.eqb a 1)
      then do r <- dims_loop s' q'; Ok (b :: r)
      else if Nat.eqb b 1 then do r <- dims_loop s' q'; Ok (a :: r)
      else Err PMParamError
  | _, _ => Ok []
  end.
Definition pad_right (s : list nat) (n : nat) : list nat := s ++ repeat 1%nat (n - List.length s).
Definition broadcast_shape (qshape sshape : list nat) : res (list nat) :=
  match qshape, sshape with
  | [], [] => Ok [0%nat]
  | _, _ => dims_loop (pad_right sshape (List.length qshape)) (pad_right qshape (List.length sshape))
  end.

(* ---- the mixture object: _c and _q (igtools.py 319-326) ---- *)
Record mix := { x_c : list string; x_q : nd }.
Definition shape (m : mix) : list nat := tl (nsh (x_q m)).        (* igtools.py 1025-1033 *)
Definition nsubst (m : mix) : nat := List.length (x_c m).         (* igtools.py 1054-1060 *)
(* q[k] *)
Definition row (q : nd) (k : nat) : nd := {| nsh := tl (nsh q); nel := fun i => nel q (k :: i) |}.
(* q[k,:] = v, for v already of the row's shape *)
Definition set_row (q : nd) (k : nat) (v : nd) : nd :=
  {| nsh := nsh q;
     nel := fun i => match i with
                     | j :: r => if Nat.eqb j k then nel v r else nel q i
                     | [] => nel q i
                     end |}.

Definition pool := list (string * gas).
Definition has_dot (s : string) : bool := contains "." s.
(* igtools.py 369-370, 548-549, 1081-1082 *)
Definition full_sid (s : string) : string := if has_dot s then s else ("ig." ++ s)%string.
(* pm.get *)
Definition get_gas (P : pool) (sid : string) : res gas :=
  match dget sid P with Some g => Ok g | None => Err PMParamError end.
(* The gas of a constituent already in the mixture.  It was found in the pool when it was
   added; the other value is never used. *)
Definition no_gas : gas :=
  {| g_Tlim := []; g_mw := 0; g_pref := 0; g_cp := fun _ => None; g_h := fun _ => (None, None);
     g_s := fun _ => (None, None); g_g := fun _ => (None, None) |}.
Definition gas_of (P : pool) (sid : string) : gas :=
  match dget sid P with Some g => g | None => no_gas end.

(* pm.units.matter(array, subst.mw(), from_units, to_units): subst.mw() is the molecular
   weight in configured units (ig.py 1539-1548) *)
Definition nd_matter (E : env) (g : gas) (a : nd) (f t : option string) : res nd :=
  do mw <- m_mw g E;
  do k <- matter (e_setup E) (e_cfg E) 1 mw f t None;
  Ok (np_map (fmul (Some k)) a).

(* ---- construction ---- *)
(* igtools.py 363-388: the first loop *)
Fixpoint init_names (P : pool) (contents : list (string * nd)) (sh : list nat)
  : res (list string * list nat) :=
  match contents with
  | [] => Ok ([], sh)
  | (sid, qty) :: rest =>
      do _ <- get_gas P (full_sid sid);
      do sh' <- broadcast_shape (nsh qty) sh;
      do r <- init_names P rest sh';
      Ok (full_sid sid :: fst r, snd r)
  end.
(* igtools.py 396-397 *)
Fixpoint init_rows (P : pool) (E : env) (units : option string) (sh : list nat)
  (contents : list (string * nd)) (k : nat) (q : nd) : res nd :=
  match contents with
  | [] => Ok q
  | (sid, qty) :: rest =>
      do v <- nd_matter E (gas_of P (full_sid sid)) qty units (Some "kmol");
      do v' <- broadcast_to v sh;
      init_rows P E units sh rest (S k) (set_row q k v')
  end.
(* igtools.py 329-397 for a dictionary.  np.empty's contents are modelled as nan; every row
   is then assigned. *)
Definition new_mix (P : pool) (E : env) (units : option string) (contents : list (string * nd))
  : res mix :=
  do r <- init_names P contents [1%nat];
  let (names, sh) := r in
  do q <- init_rows P E units sh contents 0
            {| nsh := List.length names :: sh; nel := fun _ => None |};
  Ok {| x_c := names; x_q := q |}.

(* ---- arithmetic ---- *)
Fixpoint index_of (s : string) (l : list string) : option nat :=
  match l with
  | [] => None
  | x :: l' => if String.eqb s x then Some 0%nat
               else match index_of s l' with Some n => Some (S n) | None => None end
  end.
Definition memb (s : string) (l : list string) : bool :=
  match index_of s l with Some _ => true | None => false end.

(* igtools.py 416-419 *)
Definition add_names (bc : list string) (c : list string) : list string :=
  fold_left (fun c s => if memb s c then c else c ++ [s]) bc c.

(* igtools.py 433-435: q[ai,:] += b._q[bi,:].  The constituent is always present: the
   default index is never used. *)
Fixpoint add_rows (c : list string) (bc : list string) (bq : nd) (bi : nat) (q : nd) : res nd :=
  match bc with
  | [] => Ok q
  | s :: rest =>
      let ai := match index_of s c with Some n => n | None => 0%nat end in
      do v <- broadcast_to (row bq bi) (tl (nsh q));
      add_rows c rest bq (S bi)
        (set_row q ai {| nsh := tl (nsh q); nel := fun i => fadd (nel q (ai :: i)) (nel v i) |})
  end.

Definition shape_eqb (s t : list nat) : bool := if list_eq_dec Nat.eq_dec s t then true else false.

(* igtools.py 403-437: a += b; the object afterwards is returned also when it raised.  The
   partial additions made before a row fails to broadcast are not modelled: the rows then
   keep the values they had before the loop. *)
Definition iadd (a b : mix) : mix * res unit :=
  let c := add_names (x_c b) (x_c a) in
  let n := nsubst a in
  let a1 := {| x_c := c; x_q := x_q a |} in
  match broadcast_shape (shape b) (shape a) with
  | Err e => (a1, Err e)
  | Ok sh =>
      let grown :=
        if orb (negb (Nat.eqb (List.length c) n)) (negb (shape_eqb (shape a) sh))
        then do v <- broadcast_to (x_q a) (n :: sh);
             Ok {| nsh := List.length c :: sh;
                   nel := fun i => match i with
                                   | j :: _ => if Nat.ltb j n then nel v i else Some 0
                                   | [] => Some 0
                                   end |}
        else Ok (x_q a) in
      match grown with
      | Err e => (a1, Err e)
      | Ok q =>
          let a2 := {| x_c := c; x_q := q |} in
          match add_rows c (x_c b) (x_q b) 0 q with
          | Err e => (a2, Err e)
          | Ok q' => ({| x_c := c; x_q := q' |}, Ok tt)
          end
      end
  end.
Definition returns (r : mix * res unit) : res mix :=
  match snd r with Ok _ => Ok (fst r) | Err e => Err e end.

Definition add (a b : mix) : res mix := returns (iadd a b).           (* igtools.py 440-448 *)
Definition neg (a : mix) : mix :=                                     (* igtools.py 456-463 *)
  {| x_c := x_c a; x_q := np_map (lift1 Ropp) (x_q a) |}.
Definition sub (a b : mix) : res mix := returns (iadd (neg b) a).     (* igtools.py 466-474 *)
Definition isub (a b : mix) : mix * res unit := iadd a (neg b).       (* igtools.py 476-478 *)

(* igtools.py 486-501: a *= b *)
Definition imul (a : mix) (b : nd) : res mix :=
  let b := atleast_1d b in
  if shape_eqb (nsh b) (shape a)
  then do v <- broadcast_to b (nsh (x_q a));
       Ok {| x_c := x_c a;
             x_q := {| nsh := nsh (x_q a); nel := fun i => fmul (nel (x_q a) i) (nel v i) |} |}
  else do q <- np_op fmul b (x_q a); Ok {| x_c := x_c a; x_q := q |}.
Definition mul (a : mix) (b : nd) : res mix := imul a b.              (* igtools.py 503-510 *)
(* igtools.py 512-516; 1./b of the number zero raises *)
Definition truediv (a : mix) (b : nd) : res mix :=
  match nsh b, nel b [] with
  | [], Some r => if Req_EM_T r 0 then Err EZeroDivision else imul a (np_map reciprocal b)
  | _, _ => imul a (np_map reciprocal b)
  end.

(* ---- indexing by a substance id string ---- *)
(* igtools.py 547-553 *)
Definition sindex (m : mix) (s : string) : option nat := index_of (full_sid s) (x_c m).
(* igtools.py 916-942 for a string *)
Definition getitem (P : pool) (E : env) (m : mix) (s : string) : res nd :=
  match sindex m s with
  | None => Err PMParamError
  | Some k => nd_matter E (gas_of P (nth k (x_c m) "")) (row (x_q m) k) (Some "kmol") None
  end.
(* igtools.py 968-980: the object afterwards, also when it raised *)
Definition setitem (P : pool) (E : env) (m : mix) (s : string) (value : nd) : mix * res unit :=
  match sindex m s with
  | None => (m, Err PMParamError)
  | Some k =>
      let value := atleast_1d value in
      match broadcast_shape (nsh value) (shape m) with
      | Err e => (m, Err e)
      | Ok sh =>
          let grown := if shape_eqb sh (shape m) then Ok (x_q m)
                       else broadcast_to (x_q m) (hd 0%nat (nsh (x_q m)) :: sh) in
          match grown with
          | Err e => (m, Err e)
          | Ok q =>
              let m1 := {| x_c := x_c m; x_q := q |} in
              match (do v <- nd_matter E (gas_of P (nth k (x_c m) "")) value None (Some "kmol");
                     broadcast_to v sh) with
              | Err e => (m1, Err e)
              | Ok v => ({| x_c := x_c m; x_q := set_row q k v |}, Ok tt)
              end
          end
      end
  end.
(* igtools.py 916-980 with a tuple (substance, indices...): reading indexes the array;
   assigning evaluates self._c[index] with a tuple, a TypeError (980) once the shapes have
   been found compatible *)
Definition getitem_at (P : pool) (E : env) (m : mix) (s : string) (i : list nat) : res fl :=
  match sindex m s with
  | None => Err PMParamError
  | Some k =>
      if Nat.ltb (List.length (shape m)) (List.length i) then Err EIndexError
      else if forallb (fun p => Nat.ltb (fst p) (snd p)) (combine i (shape m))
      then do mw <- m_mw (gas_of P (nth k (x_c m) "")) E;
           do c <- matter (e_setup E) (e_cfg E) 1 mw (Some "kmol") None None;
           Ok (fmul (Some c) (nel (x_q m) (k :: i)))
      else Err EIndexError
  end.
Definition setitem_at (m : mix) (s : string) (i : list nat) (value : nd) : res unit :=
  match sindex m s with
  | None => Err PMParamError
  | Some _ => do _ <- broadcast_shape (nsh (atleast_1d value)) (shape m); Err ETypeError
  end.

(* igtools.py 949-966: m[:] = other mixture *)
Fixpoint set_all (P : pool) (E : env) (names : list string) (vq : nd) (k : nat) (m : mix)
  : mix * res unit :=
  match names with
  | [] => (m, Ok tt)
  | s :: rest =>
      match setitem P E m s (row vq k) with
      | (m', Err e) => (m', Err e)
      | (m', Ok _) => set_all P E rest vq (S k) m'
      end
  end.
Definition setslice (P : pool) (E : env) (m v : mix) : mix * res unit :=
  set_all P E (x_c v) (x_q v) 0 m.

(* igtools.py 1062-1117 *)
Definition insert (P : pool) (E : env) (m : mix) (s : string) (qty : nd) (units : option string)
  : res mix :=
  do g <- get_gas P (full_sid s);
  if memb (full_sid s) (x_c m) then Err PMParamError
  else
    let qty := atleast_1d qty in
    do qty <- match units with
              | Some u => nd_matter E g qty (Some u) (Some "kmol")
              | None => Ok qty
              end;
    do sh <- broadcast_shape (nsh qty) (shape m);
    do v <- broadcast_to qty sh;
    do old <- broadcast_to (x_q m) (nsubst m :: sh);
    Ok {| x_c := x_c m ++ [full_sid s];
          x_q := set_row {| nsh := S (nsubst m) :: sh; nel := nel old |} (nsubst m) v |}.

(* igtools.py 1119-1131 *)
Fixpoint remove_at {A} (k : nat) (l : list A) : list A :=
  match l, k with
  | [], _ => []
  | _ :: l', O => l'
  | x :: l', S k' => x :: remove_at k' l'
  end.
Definition remove (m : mix) (s : string) : res mix :=
  match sindex m s with
  | None => Err PMParamError
  | Some k =>
      Ok {| x_c := remove_at k (x_c m);
            x_q := {| nsh := (hd 0%nat (nsh (x_q m)) - 1)%nat :: shape m;
                      nel := fun i => match i with
                                      | j :: r => nel (x_q m) ((if Nat.ltb j k then j else S j) :: r)
                                      | [] => None
                                      end |} |}
  end.

(* ---- measures of quantity ---- *)
(* np.sum(q, axis=0) *)
Definition sum_rows (q : nd) : nd :=
  {| nsh := tl (nsh q);
     nel := fun i => fold_left (fun acc k => fadd acc (nel q (k :: i)))
                       (seq 0 (hd 0%nat (nsh q))) (Some 0) |}.
(* igtools.py 1260-1274: the dictionary, in order; two entries with the same key keep the
   place of the first and the value of the last *)
Definition to_dict {A} (names : list string) (f : nat -> A) : list (string * A) :=
  fold_left (fun d k => dset (nth k names "") (f k) d) (seq 0 (List.length names)) [].
Definition over (num den : nd) : nd :=
  {| nsh := nsh num; nel := fun i => fdiv (nel num i) (nel den (tl i)) |}.
Definition mole_fractions (m : mix) : nd := over (x_q m) (sum_rows (x_q m)).
Definition X (m : mix) : list (string * nd) := to_dict (x_c m) (row (mole_fractions m)).

(* igtools.py 1276-1294; subst.mw() in configured units *)
Fixpoint user_mws (P : pool) (E : env) (names : list string) : res (list R) :=
  match names with
  | [] => Ok []
  | s :: rest => do w <- m_mw (gas_of P s) E; do ws <- user_mws P E rest; Ok (w :: ws)
  end.
Definition weigh (w : list R) (q : nd) : nd :=
  {| nsh := nsh q;
     nel := fun i => fmul (nel q i) (Some (nth (hd 0%nat i) w 0)) |}.
Definition Y (P : pool) (E : env) (m : mix) : res (list (string * nd)) :=
  do w <- user_mws P E (x_c m);
  let y := weigh w (x_q m) in
  Ok (to_dict (x_c m) (row (over y (sum_rows y)))).

(* igtools.py 1297-1310 *)
Fixpoint mass_loop (P : pool) (E : env) (unit_mass : string) (names : list string) (q : nd)
  (k : nat) (total : nd) : res nd :=
  match names with
  | [] => Ok total
  | s :: rest =>
      do v <- nd_matter E (gas_of P s) (row q k) (Some "kmol") (Some unit_mass);
      mass_loop P E unit_mass rest q (S k)
        {| nsh := nsh total; nel := fun i => fadd (nel total i) (nel v i) |}
  end.
Definition mass (P : pool) (E : env) (m : mix) : res nd :=
  do u <- cfg_get (e_cfg E) "unit_mass";
  mass_loop P E u (x_c m) (x_q m) 0 {| nsh := shape m; nel := fun _ => Some 0 |}.
(* igtools.py 1312-1323 *)
Definition molar (E : env) (m : mix) : res nd :=
  do k <- convert (units_of (e_setup E) QMolar) (e_cfg E) 1 (Some "kmol") None None;
  Ok (np_map (fmul (Some k)) (sum_rows (x_q m))).
(* igtools.py 865-873: _mw in kg/kmol *)
Definition mix_mw (P : pool) (m : mix) : nd :=
  let q := x_q m in
  let w := map (fun s => g_mw (gas_of P s)) (x_c m) in
  {| nsh := shape m;
     nel := fun i => fdiv (nel (sum_rows (weigh w q)) i) (nel (sum_rows q) i) |}.

(* igtools.py 1510-1526; None is infinite.  Every constituent's Tlim() is in the configured
   temperature unit. *)
Definition low_step (acc : option R) (v : R) : option R :=
  match acc with
  | None => Some v
  | Some a => if Rlt_dec v a then Some v else Some a
  end.
Definition high_step (acc : option R) (v : R) : option R :=
  match acc with
  | None => Some v
  | Some a => if Rlt_dec a v then Some v else Some a
  end.
Fixpoint tlim_loop (P : pool) (E : env) (names : list string) (lo hi : option R)
  : res (option R * option R) :=
  match names with
  | [] => Ok (lo, hi)
  | s :: rest =>
      do r <- m_Tlim (gas_of P s) E;
      tlim_loop P E rest (low_step lo (fst r)) (high_step hi (snd r))
  end.
Definition igt_Tlim (P : pool) (E : env) (m : mix) : res (option R * option R) :=
  tlim_loop P E (x_c m) None None.

(* ---- mixture strings, igtools.py 14-36 ---- *)
(* c.isalpha() for ASCII *)
Definition is_alpha (c : ascii) : bool :=
  let n := nat_of_ascii c in
  orb (andb (Nat.leb 65 n) (Nat.leb n 90)) (andb (Nat.leb 97 n) (Nat.leb n 122)).
Definition is_digit (c : ascii) : bool :=
  let n := nat_of_ascii c in andb (Nat.leb 48 n) (Nat.leb n 57).
Definition is_space (c : ascii) : bool :=
  let n := nat_of_ascii c in orb (Nat.eqb n 32) (andb (Nat.leb 9 n) (Nat.leb n 13)).

(* s.split('+') *)
Fixpoint split_plus (s : list ascii) : list (list ascii) :=
  match s with
  | [] => [[]]
  | c :: s' =>
      if Ascii.eqb c "+"%char then [] :: split_plus s'
      else match split_plus s' with
           | [] => [[c]]           (* never: the result is not empty *)
           | w :: ws => (c :: w) :: ws
           end
  end.
(* s.strip() *)
Fixpoint lstrip (s : list ascii) : list ascii :=
  match s with
  | c :: s' => if is_space c then lstrip s' else s
  | [] => []
  end.
Definition strip (s : list ascii) : list ascii := rev (lstrip (rev (lstrip s))).

(* igtools.py 24-26: the index of the first letter, the last index when there is none, and
   the index of the previous part when the part is empty *)
Fixpoint first_alpha (s : list ascii) (k : nat) : option nat :=
  match s with
  | [] => None
  | c :: s' => if is_alpha c then Some k else first_alpha s' (S k)
  end.
Definition scan (s : list ascii) (before : option nat) : option nat :=
  match s with
  | [] => before
  | _ => match first_alpha s 0 with Some k => Some k | None => Some (List.length s - 1)%nat end
  end.

(* float(coefstr): optional sign, digits with at most one point, at least one digit.
   The text contains no letter, so that no exponent, nan or infinity occurs; digits grouped
   with underscores, which Python accepts, are rejected here. *)
Definition digit_value (c : ascii) : R := INR (nat_of_ascii c - 48).
Fixpoint digits (s : list ascii) (acc : R) : R * list ascii * nat :=
  match s with
  | c :: s' => if is_digit c
               then match digits s' (10 * acc + digit_value c) with (v, r, n) => (v, r, S n) end
               else (acc, s, 0%nat)
  | [] => (acc, [], 0%nat)
  end.
Definition unsigned (s : list ascii) : option R :=
  match digits s 0 with
  | (v, [], n) => if Nat.eqb n 0 then None else Some v
  | (v, c :: rest, n) =>
      if Ascii.eqb c "."%char then
        match digits rest v with
        | (w, [], k) => if Nat.eqb (n + k) 0 then None else Some (w / 10 ^ k)
        | _ => None
        end
      else None
  end.
Definition parse_float (s : list ascii) : option R :=
  match s with
  | c :: s' =>
      if Ascii.eqb c "-"%char then match unsigned s' with Some v => Some (- v) | None => None end
      else if Ascii.eqb c "+"%char then unsigned s'
      else unsigned s
  | [] => None
  end.

Fixpoint mixstr_loop (parts : list (list ascii)) (before : option nat) (acc : list (string * R))
  : res (list (string * R)) :=
  match parts with
  | [] => Ok acc
  | this :: rest =>
      match scan this before with
      | None => Err EUnboundLocal
      | Some ii =>
          let coefstr := strip (firstn ii this) in
          let subst := string_of_list_ascii (strip (skipn ii this)) in
          match coefstr with
          | [] => mixstr_loop rest (Some ii) (dset subst 1 acc)
          | _ => match parse_float coefstr with
                 | Some v => mixstr_loop rest (Some ii) (dset subst v acc)
                 | None => Err PMParamError
                 end
          end
      end
  end.
Definition parse_mixstr (s : string) : res (list (string * R)) :=
  mixstr_loop (split_plus (list_ascii_of_string s)) None [].
(* igtools.py 350-351: IgtMix(string) *)
Definition mix_of_string (P : pool) (E : env) (s : string) (units : option string) : res mix :=
  do d <- parse_mixstr s;
  new_mix P E units (map (fun p => (fst p, scalar (snd p))) d).

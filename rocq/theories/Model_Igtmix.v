(* Model of the conversions between dynamic and static mixtures, src/pyromat/igtools.py 1136-1184
   and 1805-1817. *)
From Coq Require Import Reals List String Decimal DecimalString.
From Verif Require Export Model_Igmix Model_Igtprop.
Import ListNotations.
Local Open Scope R_scope.
Local Open Scope string_scope.
Local Open Scope list_scope.

(* igtools.py 1170-1182: the data dictionary of one igmix; class, doc and fromfile are constant *)
Record staticmix := { k_id : string; k_contents : list (string * fl); k_bymass : bool }.

(* repr(count) of a count *)
Definition repr_nat (k : nat) : string := NilEmpty.string_of_uint (Nat.to_uint k).

(* igtools.py 1168-1184: enumerate(np.ndindex(self.shape())) counts the indices in memory order;
   the contents are a dictionary by subst.sid().  len(self) is the product of the shape (988-991).
   registry['igmix'](data) only stores the dictionary (reg.py 87-94, igmix.py 62-81). *)
Definition toigmix (m : mix) (sid : string) : list staticmix :=
  let multiple := Nat.ltb 1 (fold_right Nat.mul 1%nat (shape m)) in
  map (fun ci => {| k_id := if multiple then (sid ++ "_" ++ repr_nat (fst ci))%string else sid;
                    k_contents := to_dict (x_c m) (fun k => nel (x_q m) (k :: snd ci));
                    k_bymass := false |})
      (combine (seq 0 (List.length (all_idx (shape m)))) (all_idx (shape m))).

(* igtools.py 1805-1817; source.Y() and source.X() (igmix.py 1147-1169) bootstrap the source and
   return its dictionary of floats, and IgtMix(dict) is new_mix without units. *)
Definition fromigmix (P : pool) (E : env) (coll : collection) (md : mixdata) (o : mixobj)
  : mixobj * res mix :=
  match ismass (e_setup E) (e_cfg E) None with
  | Err e => (o, Err e)
  | Ok b =>
      match mix_call coll md E o (if b then CY else CX) with
      | (o', Ok (VDict l)) => (o', new_mix P E None (map (fun c => (fst c, scalar (snd c))) l))
      | (o', Ok _) => (o', Err ETypeError)     (* X() and Y() return dictionaries *)
      | (o', Err e) => (o', Err e)
      end
  end.

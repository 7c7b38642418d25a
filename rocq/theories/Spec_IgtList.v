(* Vocabulary for dynamic mixtures as collections of substances. *)
From Coq Require Import Reals List String Bool Arith.
From Verif Require Import Base Model_Num Model_Units Model_Igas Model_Igtools Model_IgtList Spec_Igtools.
Import ListNotations.
Local Open Scope R_scope.
Local Open Scope string_scope.
Local Open Scope list_scope.

Definition listed (s : string) (l : list string) : bool := existsb (String.eqb s) l.
(* the substance that is meant, if any: a name without a point is one of the ideal gases *)
Definition meant (k : key) : list string :=
  match k with KName s => [full_sid s] | KGas s => [s] | _ => [] end.

(* ---- histories ---- *)
(* the list of substances after a change that has returned or raised *)
Definition names_after (l : list string) (e : change * res unit) : list string :=
  match e with
  | (Insert k _ _, Ok _) => l ++ meant k
  | (Remove k, Ok _) => filter (fun s => negb (listed s (meant k))) l
  | (Add b, _) => l ++ filter (fun s => negb (listed s l)) (x_c b)
  | (Subtract b, _) => l ++ filter (fun s => negb (listed s l)) (x_c b)
  | _ => l
  end.
(* the mixtures added or subtracted list no substance twice *)
Definition distinct_operands (l : list change) : Prop :=
  forall b, In (Add b) l \/ In (Subtract b) l -> NoDup (x_c b).
(* whether the substance s is there after a history, b before it: the last change that concerns it
   decides *)
Fixpoint present (s : string) (b : bool) (h : list (change * res unit)) : bool :=
  match h with
  | [] => b
  | e :: rest =>
      present s (match e with
                 | (Insert k _ _, Ok _) => if listed s (meant k) then true else b
                 | (Remove k, Ok _) => if listed s (meant k) then false else b
                 | (Add c, _) => if listed s (x_c c) then true else b
                 | (Subtract c, _) => if listed s (x_c c) then true else b
                 | _ => b
                 end) rest
  end.

(* ---- construction ---- *)
Definition key_dec (a b : key) : {a = b} + {a <> b}.
Proof. decide equality; first [apply string_dec | apply Nat.eq_dec]. Defined.
(* every key of a list once, where it first stands *)
Fixpoint firsts (l : list key) : list key :=
  match l with
  | [] => []
  | k :: rest => k :: filter (fun x => if key_dec x k then false else true) (firsts rest)
  end.
(* the entries that the arguments of the constructor name *)
Inductive entries : given -> list (string * nd) -> list (key * nd) -> Prop :=
| by_keywords kw : entries GNothing kw (map (fun c => (KName (fst c), snd c)) kw)
| by_text s kw d : parse_mixstr s = Ok d -> entries (GText s) kw (map (fun c => (KName (fst c), scalar (snd c))) d)
| by_gas s kw : entries (GGas s) kw [(KGas s, scalar 1)]
| by_list l kw : entries (GList l) kw (map (fun k => (k, scalar 0)) (firsts l))
| by_dict l kw : entries (GDict l) kw l.
(* a key that can be used: a name, or an object of the ideal gas collection, of a known substance *)
Definition usable_key (P : pool) (k : key) (s : string) : Prop :=
  meant k = [s] /\ dget s P <> None /\ match k with KGas i => exists j, i = append "ig." j | _ => True end.

(* ---- shapes with a dimension left open ---- *)
(* u is the shape t with n for the open dimension *)
Definition filled (t : list dim) (n : nat) (u : list nat) : Prop :=
  Forall2 (fun d x => d = Dim x \/ (d = Rest /\ x = n)) t u.
Definition open_dims (t : list dim) : nat := List.length (filter (fun d => match d with Rest => true | _ => false end) t).

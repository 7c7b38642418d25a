(* Model of the file utilities: src/pyromat/utility.py 427-492 (split_lines), 570-620
   (suppress_file, revive_file). *)
From Coq Require Import Ascii.
From Verif Require Export Base Text.
Local Open Scope string_scope.
Local Open Scope list_scope.

(* A file system: what each path names.  SIMPLIFICATION: paths are compared as strings (no
   links, no relative paths); permissions are a predicate on renames. *)
Section FS.
Context {T : Type}.
Inductive entry := EFile (c : T) | EDir.
Definition fsys := string -> option entry.

(* os.rename on POSIX: fails when the source is missing, the target is a directory and the
   source is a file, or the target is a file and the source a directory, or permission is
   denied; an existing target file is replaced.  Renaming a directory (and what is in it)
   is not modelled: it fails here. *)
Definition rename (allowed : string -> string -> bool) (a b : string) (fs : fsys) : option fsys :=
  if negb (allowed a b) then None else
  match fs a, fs b with
  | Some (EFile c), (None | Some (EFile _)) =>
      Some (fun p => if String.eqb p b then Some (EFile c) else if String.eqb p a then None else fs p)
  | _, _ => None
  end.

(* utility.py 570-592 *)
Definition suppress_file (allowed : string -> string -> bool) (path : string) (fs : fsys) : fsys * option exn :=
  if Nat.leb (String.length path) 4 || negb (ends_with ".hpd" path) then (fs, Some PMFileError)
  else match rename allowed path (path ++ "~")%string fs with
       | Some fs' => (fs', None)
       | None => (fs, Some PMFileError)
       end.

(* path[:-1] *)
Definition chop (path : string) : string := substring 0 (String.length path - 1) path.

(* utility.py 602-620 *)
Definition revive_file (allowed : string -> string -> bool) (path : string) (fs : fsys) : fsys * option exn :=
  if Nat.leb (String.length path) 5 || negb (ends_with ".hpd~" path) then (fs, Some PMFileError)
  else match rename allowed path (chop path) fs with
       | Some fs' => (fs', None)
       | None => (fs, Some PMFileError)
       end.
End FS.
Arguments fsys : clear implicits.
Arguments entry : clear implicits.

(* ---- text wrapping ---- *)
Definition nl : ascii := ascii_of_nat 10.
Definition newline : string := String nl "".

(* str.isspace for ASCII characters *)
Definition is_space (c : ascii) : bool :=
  let n := nat_of_ascii c in
  (Nat.leb 9 n && Nat.leb n 13) || (Nat.leb 28 n && Nat.leb n 32).

(* s.split(): the maximal runs of non-space characters *)
Fixpoint words_aux (s cur : string) : list string :=
  match s with
  | "" => match cur with "" => [] | _ => [cur] end
  | String c s' =>
      if is_space c then match cur with "" => words_aux s' "" | _ => cur :: words_aux s' "" end
      else words_aux s' (cur ++ String c "")
  end.
Definition words (s : string) : list string := words_aux s "".

(* text.split('\n\n'), scanning from the left *)
Fixpoint paragraphs_aux (s cur : string) : list string :=
  match s with
  | "" => [cur]
  | String c s' =>
      match s' with
      | String d s'' => if Ascii.eqb c nl && Ascii.eqb d nl then cur :: paragraphs_aux s'' ""
                        else paragraphs_aux s' (cur ++ String c "")
      | "" => [(cur ++ String c "")%string]
      end
  end.
Definition paragraphs (s : string) : list string := paragraphs_aux s "".

Definition take (n : nat) (s : string) : string := substring 0 n s.
Definition drop (n : nat) (s : string) : string := substring n (String.length s - n) s.

Section Wrap.
Variables (lead tail : string) (nmax : nat).   (* tail includes the newline (line 452) *)

(* utility.py 471-481: cut a long word.  State: the text so far and the characters on the
   current line.  fuel: the length of the word suffices. *)
Fixpoint cut_word (fuel : nat) (word out : string) (nline : nat) : string * string * nat :=
  match fuel with
  | 0 => (word, out, nline)
  | S fuel' =>
      if Nat.ltb nmax (String.length word) then
        let out := if Nat.ltb 0 nline then (out ++ tail)%string else out in
        cut_word fuel' (drop nmax word)
                 (out ++ lead ++ take nmax word ++ tail ++ lead)%string 0
      else (word, out, nline)
  end.

(* utility.py 468-491: one word *)
Definition put_word (st : string * nat) (word : string) : string * nat :=
  let '(out, nline) := st in
  let '(word, out, nline) := cut_word (String.length word) word out nline in
  let nw := String.length word in
  if Nat.ltb nmax (nline + 1 + nw) then ((out ++ tail ++ lead ++ word)%string, nw)
  else if Nat.eqb nline 0 then ((out ++ word)%string, nw)
  else ((out ++ " " ++ word)%string, nline + 1 + nw).

(* utility.py 464-492: one paragraph *)
Definition put_par (out par : string) : string :=
  (fst (fold_left put_word (words par) (out, 0)) ++ tail)%string.
End Wrap.

(* utility.py 427-492; None stands for the return value -1 *)
Definition split_lines (text lead tail : string) (width : nat) : option string :=
  let nmax := width - String.length lead - String.length tail in
  if Nat.eqb nmax 0 then None
  else Some (fold_left (put_par lead (tail ++ newline)%string nmax) (paragraphs text) lead).

(** Python [str] and [dict] operations used by the tool models (CPython semantics; trusted reading). *)
From Verif Require Import Base.
From Coq Require Import String.
Open Scope Z_scope.

(** [str.isspace] of one character: the Unicode white space of CPython's [_PyUnicode_IsWhitespace]. *)
Definition is_space (c : Z) : bool :=
  (9 <=? c) && (c <=? 13) || (28 <=? c) && (c <=? 32) || (c =? 133) || (c =? 160) || (c =? 5760) ||
  (8192 <=? c) && (c <=? 8202) || (c =? 8232) || (c =? 8233) || (c =? 8239) || (c =? 8287) || (c =? 12288).

(** [str.strip()]. *)
Fixpoint lstrip (s : pystr) : pystr :=
  match s with
  | [] => []
  | c :: s' => if is_space c then lstrip s' else s
  end.
Definition strip (s : pystr) : pystr := rev (lstrip (rev (lstrip s))).

(** [str.lower()] of one character. Exact for ASCII and for the two other characters whose lower case contains
    an ASCII character (U+0130, U+212A); every other character is kept, which is a simplification: its lower
    case is one or more characters none of which is ASCII. *)
Definition py_lower_char (c : Z) : pystr :=
  if c =? 304 then [105; 775] else if c =? 8490 then [107] else [lower_char c].
Definition py_lower (s : pystr) : pystr := flat_map py_lower_char s.

(** [s.split(c)] for a one-character separator. *)
Fixpoint split (c : Z) (s : pystr) : list pystr :=
  match s with
  | [] => [[]]
  | x :: s' =>
      if x =? c then [] :: split c s'
      else match split c s' with
           | p :: ps => (x :: p) :: ps
           | [] => [[x]]
           end
  end.
(** [s.split(c, 1)] when [c] occurs in [s]: what is before and after the first [c]; [None] if it does not
    occur ([s.find(c) == -1]). *)
Fixpoint split_once (c : Z) (s : pystr) : option (pystr * pystr) :=
  match s with
  | [] => None
  | x :: s' =>
      if x =? c then Some ([], s')
      else match split_once c s' with Some (a, b) => Some (x :: a, b) | None => None end
  end.

(** [c.join(l)]. *)
Fixpoint join (sep : pystr) (l : list pystr) : pystr :=
  match l with
  | [] => []
  | [x] => x
  | x :: l' => x ++ sep ++ join sep l'
  end.

(** [s.startswith(p)]: the rest after the prefix. *)
Fixpoint after_prefix (p s : pystr) : option pystr :=
  match p, s with
  | [], _ => Some s
  | x :: p', y :: s' => if x =? y then after_prefix p' s' else None
  | _ :: _, [] => None
  end.

(** [s.replace(old, new)] for a non-empty [old]: left to right, not overlapping. [n] bounds the number of
    characters left to skip. *)
Fixpoint replace_from (old new : pystr) (skip : nat) (s : pystr) : pystr :=
  match s with
  | [] => []
  | c :: s' =>
      match skip with
      | S k => replace_from old new k s'
      | O => match after_prefix old s with
             | Some _ => new ++ replace_from old new (Nat.pred (List.length old)) s'
             | None => c :: replace_from old new O s'
             end
      end
  end.
Definition replace (old new s : pystr) : pystr := replace_from old new O s.

(** Insertion-ordered [dict] with [str] keys. *)
Fixpoint dict_set {A} (d : list (pystr * A)) (k : pystr) (v : A) : list (pystr * A) :=
  match d with
  | [] => [(k, v)]
  | (k', v') :: d' => if pystr_eqb k' k then (k', v) :: d' else (k', v') :: dict_set d' k v
  end.
Fixpoint dict_get {A} (d : list (pystr * A)) (k : pystr) : option A :=
  match d with
  | [] => None
  | (k', v) :: d' => if pystr_eqb k' k then Some v else dict_get d' k
  end.

(** [s in (words)]. *)
Definition one_of (s : pystr) (words : list pystr) : bool := existsb (pystr_eqb s) words.

(** [int(s)] in base 10: surrounding white space, a sign, digits with single underscores between them.
    Simplification: Python also accepts non-ASCII decimal digits; they are refused here. *)
Definition is_digit (c : Z) : bool := (48 <=? c) && (c <=? 57).
(** [prev]: the previous character was a digit. *)
Fixpoint int10_digits (acc : Z) (prev : bool) (s : pystr) : result Z :=
  match s with
  | [] => if prev then Ok acc else Err ValueError
  | c :: s' =>
      if is_digit c then int10_digits (10 * acc + (c - 48)) true s'
      else if (c =? 95) && prev then int10_digits acc false s'
      else Err ValueError
  end.
Definition py_int10 (s : pystr) : result Z :=
  match strip s with
  | c :: s' =>
      if c =? 45 then bind (int10_digits 0 false s') (fun v => Ok (- v))
      else if c =? 43 then int10_digits 0 false s'
      else int10_digits 0 false (c :: s')
  | [] => Err ValueError
  end.

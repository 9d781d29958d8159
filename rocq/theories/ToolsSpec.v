(** What is claimed about the tool functions. *)
From Verif Require Import Base TextModel ToolsModel.
From Coq Require Import String.
Open Scope Z_scope.

(** [t] is [s] without surrounding white space. *)
Definition trimmed (s t : pystr) : Prop :=
  exists l r, s = l ++ t ++ r /\ forallb is_space l = true /\ forallb is_space r = true /\
    (forall c, hd_error t = Some c -> is_space c = false) /\
    (forall c, hd_error (rev t) = Some c -> is_space c = false).
Definition blank (s : pystr) : Prop := forallb is_space s = true.

(** A piece with some text. *)
Definition nonempty (s : pystr) : bool := match s with [] => false | _ => true end.

(** Equal up to the case of ASCII letters. *)
Definition same_letter (a b : Z) : Prop := a = b \/ (65 <= a <= 90 /\ b = a + 32) \/ (65 <= b <= 90 /\ a = b + 32).
Definition same_word (a b : pystr) : Prop := Forall2 same_letter a b.
Definition yes_words := ["1"; "yes"; "y"; "on"; "true"; "enable"]%string.
Definition no_words := ["0"; "no"; "n"; "off"; "false"; "disable"]%string.
Definition means_yes (s : pystr) : Prop := exists w, In w yes_words /\ same_word s (lit w).
Definition means_no (s : pystr) : Prop := exists w, In w no_words /\ same_word s (lit w).

(** What a variable is: unset or blank, or with some text. *)
Definition unset_or_blank (v : option pystr) : Prop := match v with None => True | Some s => blank s end.

(** An option which defines plusarg [n] to be [v]. *)
Inductive defines : pystr -> pystr -> plusval -> Prop :=
| def_value n v : ~ In 61 n -> defines (lit "+" ++ n ++ lit "=" ++ v) n (PStr v)
| def_flag n : ~ In 61 n -> defines (lit "+" ++ n) n PTrue.

(** Decimal numerals. *)
Definition decimal (s : pystr) : Prop := s <> [] /\ Forall (fun c => 48 <= c <= 57) s.
Definition value10 (s : pystr) : Z := fold_left (fun acc c => 10 * acc + (c - 48)) s 0.

(** * Versions *)
Definition reverse_cmp (r : result comparison) : result comparison :=
  match r with Ok c => Ok (CompOpp c) | Err e => Err e end.
(** a <= b, as [__le__] answers. *)
Definition le_ok (r : result comparison) : Prop := r = Ok Lt \/ r = Ok Eq.
(** Numbers and strings at the same positions, as far as both go. *)
Definition kind (c : comp) : bool := match c with CNum _ => true | CStr _ => false end.
Fixpoint aligned (a b : list comp) : bool :=
  match a, b with
  | x :: a', y :: b' => Bool.eqb (kind x) (kind y) && aligned a' b'
  | _, _ => true
  end.
(** What a piece of a version string stands for (distutils_version.py:270-301): a number, a word of small letters, dots,
    or other characters. *)
Definition small (c : Z) : Prop := 97 <= c <= 122.
Inductive piece : pystr -> list comp -> Prop :=
| piece_number w : decimal w -> piece w [CNum (value10 w)]
| piece_word w : w <> [] -> Forall small w -> piece w [CStr w]
| piece_dots w : w <> [] -> Forall (eq 46) w -> piece w []
| piece_other w : w <> [] -> Forall (fun c => ~ 48 <= c <= 57 /\ ~ small c /\ c <> 46) w -> piece w [CStr w].
(** Two pieces which follow each other could not be one. *)
Fixpoint split_fully (ws : list pystr) : Prop :=
  match ws with
  | v :: (w :: _) as rest => (forall cs, ~ piece (v ++ w) cs) /\ split_fully rest
  | _ => True
  end.
Definition le_strict (a b : strict) : Prop := strict_cmp a b <> Gt.

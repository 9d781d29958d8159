(** What is claimed about starting cocotb. *)
From Verif Require Import Base TextModel ToolsModel ToolsSpec RegressionModel InitModel.
From Coq Require Import String.
Open Scope Z_scope.

(** * Log settings *)

(** A boolean variable (library_reference.rst:1223-1236): the default if unset or blank, otherwise one of the words. *)
Definition reads_bool (v : option pystr) (default b : bool) : Prop :=
  (unset_or_blank v /\ b = default) \/
  (exists s t, v = Some s /\ ~ blank s /\ trimmed s t /\ (means_yes t /\ b = true \/ means_no t /\ b = false)).
(** Colours by default (logging.py:46-51 and library_reference.rst:710-731): on a terminal, unless NO_COLOR has a text
    or the simulator has its GUI. *)
Definition colour_default (tty : bool) (no_color gui : option pystr) (d : bool) : Prop :=
  (tty = true /\ unset_or_blank no_color /\ reads_bool gui false (negb d)) \/
  (d = false /\ (tty = false \/ ~ unset_or_blank no_color)).

(** The names of the levels and their numbers (Python's logging, and TRACE). *)
Definition level_table : list (string * Z) :=
  [("CRITICAL", 50); ("FATAL", 50); ("ERROR", 40); ("WARN", 30); ("WARNING", 30); ("INFO", 20); ("DEBUG", 10); ("NOTSET", 0); ("TRACE", 5)]%string.
Definition ascii (s : pystr) : Prop := Forall (fun c => 0 <= c < 128) s.
(** A level variable with an ASCII value names level [n], in any case. *)
Definition names_level (s : pystr) (n : Z) : Prop :=
  exists t w, trimmed s t /\ In (w, n) level_table /\ same_word t (lit w).

(** * The top level *)

(** [h] is the last of [l] for which [P] holds. *)
Definition last_of (P : root -> Prop) (l : list root) (h : root) : Prop :=
  exists l1 l2, l = l1 ++ h :: l2 /\ P h /\ Forall (fun x => ~ P x) l2.

(** Lower case of ASCII letters: [str.casefold] for ASCII texts. *)
Definition ascii_fold (s : pystr) : pystr := map (fun c => if (65 <=? c) && (c <=? 90) then c + 32 else c) s.

(** * Entry points *)

(** An entry of the documented form (library_reference.rst:1163-1165). *)
Definition entry_of (e : pystr) (mf : pystr * pystr) : Prop :=
  e = fst mf ++ [58] ++ snd mf /\ ~ In 58 (fst mf) /\ ~ In 58 (snd mf).

(** * Shutdown *)

(** The callbacks called, from what every one registers: first those registered before, then those registered by these,
    and so on, in order. *)
Fixpoint cb_size (c : callback) : nat := let 'Callback _ r _ := c in S (list_sum (map cb_size r)).
(** Breadth first, [n] generations. *)
Fixpoint generations (n : nat) (l : list callback) : list callback :=
  match n with O => [] | S n => l ++ generations n (flat_map cb_registers l) end.
Definition none_raises (l : list callback) : Prop := Forall (fun c => cb_raises c = false) l.

(** * The tests *)

(** [name] is the end of [full], perhaps before a line feed. *)
Definition ends_with (full name : pystr) : Prop := exists before, full = before ++ name \/ full = before ++ name ++ [10].
(** A text without meaning in a regular expression. *)
Definition plain_text (s : pystr) : Prop := forall c, In c s -> ~ In c (lit "()[]{}?*+-|^$\.&~# ") /\ ~ (9 <= c <= 13).

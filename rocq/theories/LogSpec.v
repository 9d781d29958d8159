(** What a terminal makes of a line of the log, and what the documentation of the formatter promises. *)
From Verif Require Import Base TextModel LogModel.
From Coq Require Import String.
Open Scope Z_scope.

(** An escape code (logging.py:308-315; ECMA-48): two characters, or a control sequence with parameters, intermediate
    characters and a final one. *)
Definition esc_code (s : pystr) : Prop :=
  (exists c, s = [27; c] /\ 64 <= c <= 95 /\ c <> 91) \/
  (exists ps is f, s = [27; 91] ++ ps ++ is ++ [f] /\ Forall (fun c => 48 <= c <= 63) ps /\ Forall (fun c => 32 <= c <= 47) is /\ 64 <= f <= 126).
(** [v] is [s] without its codes; an escape character which begins no code stays. *)
Inductive without_codes : pystr -> pystr -> Prop :=
| WNil : without_codes [] []
| WChar c s v : c <> 27 -> without_codes s v -> without_codes (c :: s) (c :: v)
| WCode k s v : esc_code k -> without_codes s v -> without_codes (k ++ s) v
| WEsc s v : (forall k r, 27 :: s = k ++ r -> ~ esc_code k) -> without_codes s v -> without_codes (27 :: s) (27 :: v).
(** The same for a text in which every escape character begins a code. *)
Inductive marked : pystr -> pystr -> Prop :=
| MNil : marked [] []
| MChar c s v : c <> 27 -> marked s v -> marked (c :: s) (c :: v)
| MCode k s v : esc_code k -> marked s v -> marked (k ++ s) v.
(** A text which is codes only. *)
Definition codes (s : pystr) : Prop := marked s [].

(** The colours of a terminal: the foreground and the background code in force; 39 and 49 are the defaults (_ansi.py:28-67). *)
Definition style : Type := Z * Z.
Definition plain : style := (39, 49).
Definition foreground (n : Z) : Prop := 30 <= n <= 37 \/ n = 39 \/ 90 <= n <= 97.
Definition background (n : Z) : Prop := 40 <= n <= 47 \/ n = 49 \/ 100 <= n <= 107.
(** The digits of a code. *)
Definition digits (n : Z) : pystr :=
  (if 100 <=? n then [48 + n / 100] else []) ++ [48 + n / 10 mod 10; 48 + n mod 10].
Definition colour_code (n : Z) : pystr := [27; 91] ++ digits n ++ [109].
(** What is shown of a text with colour codes: every character with its style, and the style afterwards. *)
Inductive shows : style -> pystr -> list (Z * style) -> style -> Prop :=
| SNil st : shows st [] [] st
| SChar st c s l st' : c <> 27 -> shows st s l st' -> shows st (c :: s) ((c, st) :: l) st'
| SFg st n s l st' : foreground n -> shows (n, snd st) s l st' -> shows st (colour_code n ++ s) l st'
| SBg st n s l st' : background n -> shows (fst st, n) s l st' -> shows st (colour_code n ++ s) l st'.

(** A message as its author means it: characters, colours, and the return to the default (_ansi.py:24-25). *)
Inductive item := Char (c : Z) | Fg (n : Z) | Bg (n : Z) | Dflt.
Definition proper (i : item) : Prop :=
  match i with Char c => c <> 27 | Fg n => foreground n | Bg n => background n /\ n <> 49 | Dflt => True end.
Definition written (l : list item) : pystr :=
  flat_map (fun i => match i with Char c => [c] | Fg n | Bg n => colour_code n | Dflt => colour_code 49 ++ colour_code 39 end) l.
(** What should be shown when the default is the colour of the log level (logging.py:396-399). *)
Fixpoint meant (base st : style) (l : list item) : list (Z * style) :=
  match l with
  | [] => []
  | Char c :: l => (c, st) :: meant base st l
  | Fg n :: l => meant base (n, snd st) l
  | Bg n :: l => meant base (fst st, n) l
  | Dflt :: l => meant base base l
  end.
(** The colours of the levels WARNING, ERROR and CRITICAL. *)
Definition level_style (level : Z) : option style :=
  if level =? 30 then Some (33, 49) else if level =? 40 then Some (31, 49) else if level =? 50 then Some (30, 41) else None.

(** A message which never sets the background. *)
Definition no_background (l : list item) : Prop := forall n, ~ In (Bg n) l.

(** The record with another message or traceback; the formatter with another indentation. *)
Definition with_exc (r : record) (e : pystr) : record :=
  Record (r_levelno r) (r_levelname r) (r_name r) (r_filename r) (r_lineno r) (r_func r) (r_time r) (r_msg r) e (r_stack r).
Definition with_stack (r : record) (t : pystr) : record :=
  Record (r_levelno r) (r_levelname r) (r_name r) (r_filename r) (r_lineno r) (r_func r) (r_time r) (r_msg r) (r_exc r) t.
Definition with_indent (f : formatter) (i : indent) : formatter := Formatter (f_prefix f) (f_strip f) i.
(** Several lines: a line feed in the message, or a traceback. *)
Definition several_lines (r : record) : Prop := In 10 (r_msg r) \/ r_exc r <> [] \/ r_stack r <> [].

(** The lines of a text (Python's [str.splitlines]): a line ends with one of these characters, or with CR LF. *)
Definition line_sep (e : pystr) : Prop :=
  e = [13; 10] \/ exists c, e = [c] /\ In c [10; 11; 12; 13; 28; 29; 30; 133; 8232; 8233].
Inductive broken : pystr -> list pystr -> Prop :=
| BNone : broken [] []
| BLast l : l <> [] -> (forall c, In c l -> ~ line_sep [c]) -> broken l [l]
| BLine l e s ls : (forall c, In c l -> ~ line_sep [c]) -> line_sep e -> (e = [13] -> forall s', s <> 10 :: s') ->
    broken s ls -> broken (l ++ e ++ s) (l :: ls).
(** The lines, all but the first one indented. *)
Definition indented (n : Z) (ls : list pystr) : pystr :=
  match ls with [] => [] | l :: ls => l ++ flat_map (fun l => [10] ++ repeat 32 (Z.to_nat n) ++ l) ls end.
(** Text without escape characters; records with such texts (the message apart), and records whose fields have room in
    the columns of the default format (logging.py:321-325). *)
Definition clean (s : pystr) : Prop := ~ In 27 s.
Definition opt_text (o : option pystr) : pystr := match o with Some s => s | None => [] end.
Definition clean_record (r : record) : Prop :=
  clean (opt_text (r_time r)) /\ clean (r_levelname r) /\ clean (r_name r) /\ clean (r_filename r) /\ clean (opt_text (r_func r)) /\ 0 <= r_lineno r.
Definition fits (r : record) : Prop :=
  (List.length (opt_text (r_time r)) <= 9)%nat /\ (List.length (r_levelname r) <= 8)%nat /\ r_lineno r < 10000.

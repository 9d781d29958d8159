(** Model of the text which the runner hands to other languages (/repo/src/cocotb_tools/runner.py): Tcl words,
    SystemVerilog and VHDL literals, shell command lines (only logged) and the regular expression of the
    [testcase] argument. Python semantics: [str.translate] maps every character on its own. *)
From Verif Require Import Base TextModel XmlModel.
From Coq Require Import String.
Open Scope Z_scope.

(** runner.py:67-68: the character classes of [_magic_re] (backslash and braces) and of [_space_re] (white space,
    ASCII only: tab, line feed, vertical tab, form feed, carriage return, space). *)
Definition tcl_magic (c : Z) : bool := (c =? 92) || (c =? 123) || (c =? 125).
Definition tcl_space (c : Z) : bool := (9 <=? c) && (c <=? 13) || (c =? 32).
(** [re.sub(class, r"\\\1", s)]: a backslash before every character of the class. *)
Definition backslashed (cls : Z -> bool) (s : pystr) : pystr :=
  flat_map (fun c => if cls c then [92; c] else [c]) s.
(** runner.py:71-79 [_as_tcl_value]. *)
Definition as_tcl_value (value : pystr) : pystr :=
  let value := backslashed tcl_magic value in
  let value := replace [10] [92; 110] value in
  let value := backslashed tcl_space value in
  match value with
  | 34 :: _ => 92 :: value
  | _ => value
  end.

(** [f"{i:02x}"] for 0 <= i < 256. *)
Definition hex_digit (d : Z) : Z := if d <? 10 then 48 + d else 87 + d.
Definition hex2 (i : Z) : pystr := [hex_digit (i / 16); hex_digit (i mod 16)].
(** runner.py:82-95: the table [_sv_escapes], read as a function of the character. *)
Definition sv_escape_char (c : Z) : pystr :=
  if c =? 10 then [92; 110] else if c =? 9 then [92; 116] else if c =? 92 then [92; 92]
  else if c =? 34 then [92; 34] else if c =? 11 then [92; 118] else if c =? 12 then [92; 102]
  else if c =? 255 then [92; 120; 70; 70]
  else if (0 <=? c) && (c <? 32) then [92; 120] ++ hex2 c
  else [c].
(** runner.py:98-104 [_sv_escape_string], without the warning. *)
Definition sv_escape_string (value : pystr) : pystr := [34] ++ flat_map sv_escape_char value ++ [34].
(** runner.py:99-103: whether a warning is given. *)
Definition sv_warns (value : pystr) : bool := existsb (fun c => 128 <=? c) value.

(** runner.py:107: the table [_vhdl_escape_translate_table]. *)
Definition vhdl_escape_char (c : Z) : pystr := if c =? 34 then [34; 34] else [c].
(** runner.py:110-116 [_vhdl_escape_string], without the warning. *)
Definition vhdl_escape_string (value : pystr) : pystr := [34] ++ flat_map vhdl_escape_char value ++ [34].
(** runner.py:111-115: whether a warning is given. *)
Definition vhdl_warns (value : pystr) : bool := existsb (fun c => (c <? 32) || (127 <=? c)) value.

(** The arguments of [as_sv_literal] and [as_vhdl_literal]. A float is given by its [str()], a Logic or LogicArray
    by the characters of its [str()] (in U X 0 1 Z W L H -). *)
Inductive pyval := VBool (b : bool) | VInt (n : Z) | VFloat (text : pystr) | VLogic (s : pystr) | VStr (s : pystr) | VOther.
(** runner.py:119-135 [as_sv_literal]. *)
Definition as_sv_literal (v : pyval) : result pystr :=
  match v with
  | VBool b => Ok (if b then lit "1'b1" else lit "1'b0")
  | VInt n => Ok (py_str_int n)
  | VFloat t => Ok t
  | VLogic s =>
      if existsb (fun c => negb (existsb (Z.eqb c) (lit "01XZ"))) s then Err ValueError
      else Ok (py_str_int (Z.of_nat (List.length s)) ++ lit "'b" ++ s)
  | VStr s => Ok (sv_escape_string s)
  | VOther => Err TypeError
  end.
(** runner.py:138-147 [as_vhdl_literal]. *)
Definition as_vhdl_literal (v : pyval) : result pystr :=
  match v with
  | VBool b => Ok (if b then lit "true" else lit "false")
  | VInt n => Ok (py_str_int n)
  | VFloat t => Ok t
  | VLogic s => Ok s
  | VStr s => Ok (vhdl_escape_string s)
  | VOther => Err TypeError
  end.

(** [shlex.quote] (CPython): the characters which need no quotes are ASCII letters, digits and [_@%+=:,./-]. *)
Definition sh_safe (c : Z) : bool :=
  (48 <=? c) && (c <=? 57) || (65 <=? c) && (c <=? 90) || (97 <=? c) && (c <=? 122) ||
  existsb (Z.eqb c) (lit "_@%+=:,./-").
Definition shlex_quote (s : pystr) : pystr :=
  match s with
  | [] => [39; 39]
  | _ => if forallb sh_safe s then s
         else [39] ++ replace [39] [39; 34; 39; 34; 39] s ++ [39]
  end.
(** runner.py:150-155 [_shlex_join]. *)
Definition shlex_join (l : list pystr) : pystr := join [32] (map shlex_quote l).

(** [re.escape] (CPython): a backslash before each character of [_special_chars_map]. *)
Definition re_special (c : Z) : bool :=
  existsb (Z.eqb c) (lit "()[]{}?*+-|^$\.&~# ") || (9 <=? c) && (c <=? 13).
Definition re_escape (s : pystr) : pystr := backslashed re_special s.
(** runner.py:579-580: the names in a [testcase] string. *)
Definition testcase_names (testcase : pystr) : list pystr :=
  map strip (filter (fun s => match strip s with [] => false | _ => true end) (split 44 testcase)).
(** runner.py:583: the regular expression for a list of names. *)
Definition testcase_regex (names : list pystr) : pystr :=
  lit "\.(" ++ join (lit "|") (map (fun name => lit ".*" ++ re_escape name) names) ++ lit ")$".
(** runner.py:1717-1756: the [asim] command of the Aldec simulators; [vhdl]: the language of the top level;
    [ext]: the path of the VHPI or VPI library; [extra]: the test arguments followed by the parameter options. *)
Definition asim_line (vhdl : bool) (ext : pystr) (extra : list pystr) (top : pystr) (plusargs : list pystr) : pystr :=
  lit "asim +access +w_nets -interceptcoutput " ++ lit (if vhdl then "-loadvhpi " else "-pli ") ++ as_tcl_value ext ++
  [32] ++ join [32] (map as_tcl_value extra) ++ [32] ++ as_tcl_value top ++ [32] ++
  join [32] (map as_tcl_value plusargs) ++ (if vhdl then [10] else [32; 10]).

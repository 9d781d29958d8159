(** Model of the log formatter of /repo/src/cocotb/logging.py and of the escape codes of /repo/src/cocotb/_ansi.py.
    Simplifications: the text of the simulation time is given with two decimals already (the division in
    [get_time_from_sim_steps] is not modelled here); the f-string of [prefix_format] is a function of the record and of the
    two colours; the traceback and stack texts are given (logging.Formatter's [formatException] and [formatStack]). *)
From Verif Require Import Base TextModel XmlModel.
From Coq Require Import String.
Open Scope Z_scope.

(** _ansi.py:10, 28-30, 32, 33, 35, 42: [_ESCAPE] and the codes which the formatter uses. *)
Definition ESCAPE : pystr := [27; 91].
Definition DEFAULT_FG : pystr := ESCAPE ++ lit "39m".
Definition DEFAULT_BG : pystr := ESCAPE ++ lit "49m".
Definition DEFAULT : pystr := DEFAULT_BG ++ DEFAULT_FG.
Definition BLACK_FG : pystr := ESCAPE ++ lit "30m".
Definition RED_FG : pystr := ESCAPE ++ lit "31m".
Definition YELLOW_FG : pystr := ESCAPE ++ lit "33m".
Definition RED_BG : pystr := ESCAPE ++ lit "41m".

(** logging.py:305-318 [_ansi_escape_pattern], after the escape character: the rest after a match. The three
    character classes of a control sequence are disjoint, so that the greedy match is the only one. *)
Fixpoint skip_class (f : Z -> bool) (s : pystr) : pystr :=
  match s with c :: s' => if f c then skip_class f s' else s | [] => [] end.
Definition after_code (s : pystr) : option pystr :=
  match s with
  | c :: s' =>
      if (64 <=? c) && (c <=? 90) || (92 <=? c) && (c <=? 95) then Some s'
      else if c =? 91 then
        match skip_class (fun c => (32 <=? c) && (c <=? 47)) (skip_class (fun c => (48 <=? c) && (c <=? 63)) s') with
        | f :: rest => if (64 <=? f) && (f <=? 126) then Some rest else None
        | [] => None
        end
      else None
  | [] => None
  end.
(** [_ansi_escape_pattern.sub("", s)]: left to right, not overlapping; [skip]: characters of a match still to leave out. *)
Fixpoint sub_from (skip : nat) (s : pystr) : pystr :=
  match s with
  | [] => []
  | c :: s' =>
      match skip with
      | S k => sub_from k s'
      | O => if c =? 27 then
               match after_code s' with
               | Some rest => sub_from (List.length s' - List.length rest) s'
               | None => c :: sub_from O s'
               end
             else c :: sub_from O s'
      end
  end.
Definition sub_codes (s : pystr) : pystr := sub_from O s.

(** [str.splitlines()]. *)
Definition line_end (c : Z) : bool :=
  (10 <=? c) && (c <=? 13) || (28 <=? c) && (c <=? 30) || (c =? 133) || (c =? 8232) || (c =? 8233).
(** [line]: the line being read, reversed; [cr]: the last character was a carriage return which ended a line. *)
Fixpoint lines_from (line : pystr) (cr : bool) (s : pystr) : list pystr :=
  match s with
  | [] => match line with [] => [] | _ => [rev line] end
  | c :: s' =>
      if cr && (c =? 10) then lines_from line false s'
      else if line_end c then rev line :: lines_from [] (c =? 13) s'
      else lines_from (c :: line) false s'
  end.
Definition splitlines (s : pystr) : list pystr := lines_from [] false s.

(** [s.ljust(n)], [s.rjust(n)] and the formats [<n], [>n]. *)
Definition blanks (n : Z) : pystr := repeat 32 (Z.to_nat n).
Definition pad_right (s : pystr) (n : Z) : pystr := s ++ blanks (n - Z.of_nat (List.length s)).
Definition pad_left (s : pystr) (n : Z) : pystr := blanks (n - Z.of_nat (List.length s)) ++ s.
(** [s[n:]]. *)
Definition slice_from (s : pystr) (n : Z) : pystr :=
  if n <? 0 then skipn (List.length s - Z.to_nat (- n)) s else skipn (Z.to_nat n) s.
(** logging.py:246-249 [_ljust], 252-255 [_rjust]. *)
Definition log_ljust (s : pystr) (chars : Z) : pystr :=
  if chars <? Z.of_nat (List.length s) then lit ".." ++ slice_from s ((chars - 2) * -1) else pad_right s chars.
Definition log_rjust (s : pystr) (chars : Z) : pystr :=
  if chars <? Z.of_nat (List.length s) then lit ".." ++ slice_from s ((chars - 2) * -1) else pad_left s chars.

(** The attributes of a LogRecord which the formatter reads; [r_time]: the simulation time in ns with two decimals, if
    there is one ([created_sim_time]); [r_exc]: the traceback text; [r_stack]: the text of [formatStack]. *)
Record record := Record {
  r_levelno : Z; r_levelname : pystr; r_name : pystr; r_filename : pystr; r_lineno : Z; r_func : option pystr;
  r_time : option pystr; r_msg : pystr; r_exc : pystr; r_stack : pystr }.

(** logging.py:259-264 [_simtime_fmt] with unit ["ns"]. *)
Definition simtime_fmt (r : record) : pystr := match r_time r with None => lit "-.--ns" | Some t => t ++ lit "ns" end.
(** logging.py:320-326: the default [prefix_format]. *)
Definition default_prefix (reduced : bool) (r : record) (start fin : pystr) : pystr :=
  pad_left (simtime_fmt r) 11 ++ [32] ++ start ++ pad_right (r_levelname r) 8 ++ fin ++ [32] ++ log_ljust (r_name r) 34 ++ [32]
  ++ (if reduced then []
      else log_rjust (r_filename r) 20 ++ [58] ++ pad_right (py_str_int (r_lineno r)) 4 ++ lit " in "
           ++ log_ljust (match r_func r with Some f => f | None => lit "None" end) 31 ++ [32]).

(** logging.py:91-103: [multiline_indent]. *)
Inductive indent := INone | IInt (n : Z) | IFun (f : pystr -> Z).
(** The attributes of a formatter: [_prefix_func], the value of [strip_ansi()] and [_multiline_indent]. *)
Record formatter := Formatter { f_prefix : record -> pystr -> pystr -> pystr; f_strip : bool; f_indent : indent }.
(** logging.py:340-342: the record for which the indentation is computed (no [created_sim_time]; level INFO). *)
Definition empty_record : record := Record 20 (lit "INFO") [] [] 0 (Some []) None [] [] [].
(** logging.py:295-350 [__init__]; [prefix]: [prefix_format] if it is not empty; [module_strip]: the module's [strip_ansi],
    352-353. *)
Definition mk_formatter (reduced : bool) (strip_ansi : option bool) (module_strip : bool)
    (prefix : option (record -> pystr -> pystr -> pystr)) (multiline_indent : indent) : formatter :=
  let '(prefix_func, multiline_indent) :=
    match prefix with
    | Some f => (f, multiline_indent)
    | None => (default_prefix reduced, match multiline_indent with INone => IInt (-1) | i => i end)
    end in
  let multiline_indent :=
    match multiline_indent with
    | IInt n => if n <? 0 then IInt (Z.of_nat (List.length (sub_codes (prefix_func empty_record [] [])))) else IInt n
    | i => i
    end in
  Formatter prefix_func (match strip_ansi with None => module_strip | Some b => b end)
    (match multiline_indent with INone => IFun (fun s => Z.of_nat (List.length s)) | i => i end).

(** logging.py:277-284 [loglevel2colour]. *)
Definition loglevel2colour (level : Z) : pystr :=
  if level =? 30 then YELLOW_FG else if level =? 40 then RED_FG else if level =? 50 then RED_BG ++ BLACK_FG else [].

(** logging.py:364-379 [formatExcInfo]. *)
Definition ends_lf (s : pystr) : bool := match rev s with c :: _ => c =? 10 | [] => false end.
Definition format_exc_info (r : record) : pystr :=
  let msg := r_exc r in
  match r_stack r with
  | [] => msg
  | s => (if negb (ends_lf msg) then msg ++ [10] else msg) ++ s
  end.

(** logging.py:381-425 [format]. *)
Definition format (f : formatter) (r : record) : pystr :=
  let msg := r_msg r in
  let start := if f_strip f then [] else loglevel2colour (r_levelno r) in
  let fin := if f_strip f then [] else match start with [] => [] | _ => DEFAULT end in
  let prefix := f_prefix f r start fin in
  let output :=
    if f_strip f then sub_codes (prefix ++ msg)
    else match start with
         | [] => prefix ++ msg ++ DEFAULT
         | _ => prefix ++ start ++ replace DEFAULT start msg ++ DEFAULT
         end in
  let exc_info := format_exc_info r in
  let '(multiline, output) :=
    match exc_info with
    | [] => (existsb (Z.eqb 10) msg, output)
    | _ => (true, output ++ [10] ++ exc_info)
    end in
  let unindented := match f_indent f with IInt n => n =? 0 | _ => false end in
  if negb multiline || unindented then output
  else
    let indent := match f_indent f with
                  | IInt n => n
                  | IFun g => g (sub_codes prefix)
                  | INone => 0
                  end in
    join ([10] ++ blanks indent) (splitlines output).

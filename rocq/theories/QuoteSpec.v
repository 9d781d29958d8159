(** How the languages which receive the runner's text read it. Independent of the model: these are readings of the
    language definitions (Tcl(n) "dodekalogue"; IEEE 1800-2017 5.7 and 5.9; IEEE 1076-2008 15.5 and 15.7; the POSIX
    shell's token recognition; the syntax and matching of Python's [re]). *)
From Verif Require Import Base.
From Coq Require Import String.
Open Scope Z_scope.

(** * Tcl *)

(** White space between words (rule 2), without line feed. *)
Definition tcl_blank (c : Z) : bool := (c =? 9) || (c =? 11) || (c =? 12) || (c =? 13) || (c =? 32).
(** Characters of a variable name after a dollar sign (rule 8); "(" and "{" also begin one. *)
Definition tcl_name (c : Z) : bool :=
  (48 <=? c) && (c <=? 57) || (65 <=? c) && (c <=? 90) || (97 <=? c) && (c <=? 122) ||
  (c =? 95) || (c =? 58) || (c =? 40) || (c =? 123).
(** Backslash sequences (rule 9) of one character; [None]: an octal, hexadecimal or Unicode escape, or a continued
    line, which this reader refuses. *)
Definition tcl_backslash (c : Z) : option Z :=
  if c =? 97 then Some 7 else if c =? 98 then Some 8 else if c =? 102 then Some 12
  else if c =? 110 then Some 10 else if c =? 114 then Some 13 else if c =? 116 then Some 9
  else if c =? 118 then Some 11
  else if (c =? 10) || (c =? 120) || (c =? 117) || (c =? 85) || (48 <=? c) && (c <=? 55) then None
  else Some c.
(** The commands of a script, as lists of words, when no word of it is in quotes or braces and nothing is to be
    substituted (rules 4 to 8); [None] otherwise: the meaning then depends on more than the text. A comment (rule
    10) is also refused. [word]: the word being read, reversed, if inside one; [words]: the earlier words of
    the command, reversed. *)
Fixpoint tcl_read (words : list pystr) (word : option pystr) (s : pystr) : option (list (list pystr)) :=
  let close := match word with Some w => rev w :: words | None => words end in
  match s with
  | [] => Some (match close with [] => [] | ws => [rev ws] end)
  | c :: s' =>
      if tcl_blank c then tcl_read close None s'
      else if (c =? 10) || (c =? 59) then
        match tcl_read [] None s' with
        | Some cmds => Some (match close with [] => cmds | ws => rev ws :: cmds end)
        | None => None
        end
      else if c =? 91 then None
      else if (c =? 36) && match s' with d :: _ => tcl_name d | [] => false end then None
      else
        match word with
        | None =>
            if (c =? 34) || (c =? 123) then None
            else if (c =? 35) && match words with [] => true | _ => false end then None
            else if c =? 92 then
              match s' with
              | d :: s'' => match tcl_backslash d with Some e => tcl_read words (Some [e]) s'' | None => None end
              | [] => Some [rev ([92] :: words)]
              end
            else tcl_read words (Some [c]) s'
        | Some w =>
            if c =? 92 then
              match s' with
              | d :: s'' => match tcl_backslash d with Some e => tcl_read words (Some (e :: w)) s'' | None => None end
              | [] => Some [rev (rev (92 :: w) :: words)]
              end
            else tcl_read words (Some (c :: w)) s'
        end
  end.
Definition tcl_script (s : pystr) : option (list (list pystr)) := tcl_read [] None s.
(** A value in which nothing is substituted and which does not end the command: not empty, no "[", no ";", and no
    "$" before a letter, a digit, "_", ":" or "(". *)
Definition tcl_inert (v : pystr) : Prop :=
  v <> [] /\ ~ In 91 v /\ ~ In 59 v /\
  ~ exists a d b, v = a ++ 36 :: d :: b /\ tcl_name d = true /\ d <> 123.

(** A text which is a word of itself, without any quoting: not empty, without white space, ";", "[", a backslash or
    a "$" before a name, and not beginning with a quote or a brace. *)
Definition tcl_plain (v : pystr) : Prop :=
  v <> [] /\ (forall c, In c v -> tcl_blank c = false /\ ~ In c [10; 59; 91; 92]) /\
  (~ exists a d b, v = a ++ 36 :: d :: b /\ tcl_name d = true) /\ hd 0 v <> 34 /\ hd 0 v <> 123.

(** * SystemVerilog *)

Definition sv_hex (c : Z) : option Z :=
  if (48 <=? c) && (c <=? 57) then Some (c - 48)
  else if (65 <=? c) && (c <=? 70) then Some (c - 55)
  else if (97 <=? c) && (c <=? 102) then Some (c - 87)
  else None.
Definition sv_octal (c : Z) : option Z := if (48 <=? c) && (c <=? 55) then Some (c - 48) else None.
(** The rest of a string literal after its opening quote: the characters it denotes, and what follows the closing
    quote. Escapes: table 5-1 of IEEE 1800-2017; a line feed may not occur in a literal (a backslash before one
    removes both); [\x] is followed by one or two hexadecimal digits, [\] by one to three octal digits; before
    any other character a backslash stands for nothing. *)
Fixpoint sv_chars (s : pystr) : option (pystr * pystr) :=
  let cons c r := match r with Some (a, b) => Some (c :: a, b) | None => None end in
  match s with
  | [] => None
  | c :: s1 =>
      if c =? 34 then Some ([], s1)
      else if c =? 10 then None
      else if negb (c =? 92) then cons c (sv_chars s1)
      else match s1 with
           | [] => None
           | e :: s2 =>
               if e =? 110 then cons 10 (sv_chars s2)
               else if e =? 116 then cons 9 (sv_chars s2)
               else if e =? 118 then cons 11 (sv_chars s2)
               else if e =? 102 then cons 12 (sv_chars s2)
               else if e =? 97 then cons 7 (sv_chars s2)
               else if e =? 10 then sv_chars s2
               else if e =? 120 then
                 match s2 with
                 | h :: s3 =>
                     match sv_hex h with
                     | Some x =>
                         match s3 with
                         | l :: s4 => match sv_hex l with
                                      | Some y => cons (16 * x + y) (sv_chars s4)
                                      | None => cons x (sv_chars s3)
                                      end
                         | [] => None
                         end
                     | None => None
                     end
                 | [] => None
                 end
               else match sv_octal e with
                    | Some x =>
                        match s2 with
                        | o2 :: s3 =>
                            match sv_octal o2 with
                            | Some y =>
                                match s3 with
                                | o3 :: s4 => match sv_octal o3 with
                                              | Some z => cons (64 * x + 8 * y + z) (sv_chars s4)
                                              | None => cons (8 * x + y) (sv_chars s3)
                                              end
                                | [] => None
                                end
                            | None => cons x (sv_chars s2)
                            end
                        | [] => None
                        end
                    | None => cons e (sv_chars s2)
                    end
           end
  end.
Definition sv_string (s : pystr) : option (pystr * pystr) :=
  match s with 34 :: s' => sv_chars s' | _ => None end.

(** A run of decimal digits: its value and what follows. *)
Fixpoint dec_run (acc : Z) (s : pystr) : Z * pystr :=
  match s with
  | c :: s' => if (48 <=? c) && (c <=? 57) then dec_run (10 * acc + (c - 48)) s' else (acc, s)
  | [] => (acc, [])
  end.
Definition dec_number (s : pystr) : option (Z * pystr) :=
  match s with
  | c :: _ => if (48 <=? c) && (c <=? 57) then Some (dec_run 0 s) else None
  | [] => None
  end.
(** A decimal number with an optional minus sign. *)
Definition signed_number (s : pystr) : option (Z * pystr) :=
  match s with
  | 45 :: s' => match dec_number s' with Some (n, r) => Some (- n, r) | None => None end
  | _ => dec_number s
  end.
(** Binary digits of a based literal: 0, 1, x, z in either case, as the value names 0, 1, X, Z. *)
Definition sv_bit (c : Z) : option Z :=
  if (c =? 48) || (c =? 49) then Some c
  else if (c =? 88) || (c =? 120) then Some 88
  else if (c =? 90) || (c =? 122) then Some 90 else None.
Fixpoint sv_bits (s : pystr) : option pystr :=
  match s with
  | [] => Some []
  | c :: s' => match sv_bit c, sv_bits s' with Some b, Some l => Some (b :: l) | _, _ => None end
  end.
(** A sized binary literal [<size>'b<digits>] (5.7.1): the size is not zero and there is at least one digit. Fewer
    digits than the size are extended by 0, X or Z on the left; more are cut. Only the exact case is read. *)
Definition sv_based (s : pystr) : option pystr :=
  match dec_number s with
  | Some (n, 39 :: 98 :: ds) =>
      match sv_bits ds with
      | Some bits => if (0 <? n) && (n =? Z.of_nat (List.length bits)) then Some bits else None
      | None => None
      end
  | _ => None
  end.

(** * VHDL *)

(** The graphic characters (IEEE 1076-2008 15.2: ISO 8859-1 without the control characters). *)
Definition vhdl_graphic (c : Z) : bool := (32 <=? c) && (c <=? 126) || (160 <=? c) && (c <=? 255).
(** The rest of a string literal (15.7) after its opening quote; a quote in it is doubled. *)
Fixpoint vhdl_chars (s : pystr) : option (pystr * pystr) :=
  match s with
  | [] => None
  | c :: s1 =>
      if c =? 34 then
        match s1 with
        | 34 :: s2 => match vhdl_chars s2 with Some (a, b) => Some (34 :: a, b) | None => None end
        | _ => Some ([], s1)
        end
      else if vhdl_graphic c then match vhdl_chars s1 with Some (a, b) => Some (c :: a, b) | None => None end
      else None
  end.
Definition vhdl_string (s : pystr) : option (pystr * pystr) :=
  match s with 34 :: s' => vhdl_chars s' | _ => None end.
(** The literals a value of a logic type may have: a character literal (15.6) or a string literal. *)
Definition vhdl_logic_literal (s bits : pystr) : Prop :=
  (exists c, bits = [c] /\ s = [39; c; 39]) \/ vhdl_string s = Some (bits, []).
(** A decimal literal of a real type has a point (15.5.1), one of an integer type has not. *)
Definition vhdl_real (s : pystr) : Prop :=
  exists a b, s = a ++ [46] ++ b /\ a <> [] /\ b <> [].

(** * The shell *)

(** Characters with a meaning outside quotes: operators, expansions, patterns, comments. *)
Definition sh_meta (c : Z) : bool :=
  existsb (Z.eqb c) (lit "|&;<>()$`\*?[]#~!{}^") || (c =? 10).
Inductive sh_state := SBlank | SBare (w : pystr) | SSingle (w : pystr) | SDouble (w : pystr).
(** The words of a command line, when nothing in it is to be expanded. Words are kept reversed. *)
Fixpoint sh_read (st : sh_state) (s : pystr) : option (list pystr) :=
  match s with
  | [] => match st with
          | SBlank => Some []
          | SBare w => Some [rev w]
          | _ => None
          end
  | c :: s' =>
      let bare w :=
        if c =? 39 then sh_read (SSingle w) s'
        else if c =? 34 then sh_read (SDouble w) s'
        else if sh_meta c then None
        else sh_read (SBare (c :: w)) s' in
      match st with
      | SBlank => if (c =? 32) || (c =? 9) then sh_read SBlank s' else bare []
      | SBare w =>
          if (c =? 32) || (c =? 9) then
            match sh_read SBlank s' with Some ws => Some (rev w :: ws) | None => None end
          else bare w
      | SSingle w => if c =? 39 then sh_read (SBare w) s' else sh_read (SSingle (c :: w)) s'
      | SDouble w =>
          if c =? 34 then sh_read (SBare w) s'
          else if (c =? 36) || (c =? 96) || (c =? 92) then None
          else sh_read (SDouble (c :: w)) s'
      end
  end.
Definition sh_words (s : pystr) : option (list pystr) := sh_read SBlank s.

(** * Regular expressions *)

Inductive re := RChr (c : Z) | RAny | REnd | REps | RSeq (a b : re) | RAlt (a b : re) | RStar (a : re).
(** [RMatch r s t]: [r] can match the text between the suffixes [s] and [t] of the subject. A point does not match
    a line feed; a dollar sign matches at the end and before a line feed at the end. *)
Inductive RMatch : re -> pystr -> pystr -> Prop :=
| MChr c s : RMatch (RChr c) (c :: s) s
| MAny c s : c <> 10 -> RMatch RAny (c :: s) s
| MEnd : RMatch REnd [] []
| MEndLf : RMatch REnd [10] [10]
| MEps s : RMatch REps s s
| MSeq a b s t u : RMatch a s t -> RMatch b t u -> RMatch (RSeq a b) s u
| MAltL a b s t : RMatch a s t -> RMatch (RAlt a b) s t
| MAltR a b s t : RMatch b s t -> RMatch (RAlt a b) s t
| MStar0 a s : RMatch (RStar a) s s
| MStar a s t u : RMatch a s t -> RMatch (RStar a) t u -> RMatch (RStar a) s u.
(** [pattern.search(subject)]. *)
Definition re_search (r : re) (subject : pystr) : Prop :=
  exists before s t, subject = before ++ s /\ RMatch r s t.

(** Parsing (the part of the syntax with characters, points, dollar signs, stars, bars, plain groups and escaped
    punctuation; anything else is refused). A frame is an open group: its finished alternatives and the items of the
    current one, both reversed. *)
Definition seq_of (items : list re) : re := fold_left (fun acc i => RSeq i acc) items REps.
Definition alt_of (alts : list re) (cur : re) : re := fold_left (fun acc i => RAlt i acc) alts cur.
Definition frame := (list re * list re)%type.
Definition close_frame (f : frame) : re := alt_of (fst f) (seq_of (snd f)).
Definition push_item (r : re) (f : frame) : frame := (fst f, r :: snd f).
Definition is_alnum (c : Z) : bool :=
  (48 <=? c) && (c <=? 57) || (65 <=? c) && (c <=? 90) || (97 <=? c) && (c <=? 122).
Fixpoint re_parse (f : frame) (outer : list frame) (s : pystr) : option re :=
  match s with
  | [] => match outer with [] => Some (close_frame f) | _ => None end
  | c :: s' =>
      if c =? 92 then
        match s' with
        | d :: s'' => if is_alnum d then None else re_parse (push_item (RChr d) f) outer s''
        | [] => None
        end
      else if c =? 40 then re_parse ([], []) (f :: outer) s'
      else if c =? 41 then
        match outer with
        | g :: outer' => re_parse (push_item (close_frame f) g) outer' s'
        | [] => None
        end
      else if c =? 124 then re_parse (seq_of (snd f) :: fst f, []) outer s'
      else if c =? 42 then
        match snd f with
        | RStar _ :: _ | REnd :: _ | [] => None
        | i :: items => re_parse (fst f, RStar i :: items) outer s'
        end
      else if c =? 46 then re_parse (push_item RAny f) outer s'
      else if c =? 36 then re_parse (push_item REnd f) outer s'
      else if existsb (Z.eqb c) (lit "[{+?^") then None
      else re_parse (push_item (RChr c) f) outer s'
  end.
Definition re_compile (s : pystr) : option re := re_parse ([], []) [] s.

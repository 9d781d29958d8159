(** The results file: src/cocotb/_xunit_reporter.py, src/cocotb_tools/combine_results.py and check_results.py.

    An XML document is its element tree. Not modelled: the file system (creating directories, finding files by
    name), writing trees as bytes and parsing them back (xml.etree is trusted to give the same tree), wall-clock
    times (the attribute "time" and the suites' running sum, which are floats), printing. *)
From Verif Require Import Base TextModel LogicArrayModel.
From Coq Require Import String.
Open Scope Z_scope.

(** * Text *)

(** _xunit_reporter.py:41-43 [_INVALID_CHARS], as [re] reads the class: the last part of the source, backslash u10000-
    backslash u10ffff, is the character U+1000, the range from "0" to U+10FF, and "ff". True: not matched, so kept. *)
Definition xml_kept (c : Z) : bool :=
  (c =? 9) || (c =? 10) || (c =? 13) || (32 <=? c) && (c <=? 126) || (128 <=? c) && (c <=? 55295) ||
  (57344 <=? c) && (c <=? 65533) || (c =? 4096) || (48 <=? c) && (c <=? 4351) || (c =? 102).
(** [f"{v:0wX}"] for 0 <= v. *)
Definition hex_pad (w : nat) (v : Z) : pystr :=
  let ds := map (digit_chr FHexUpper) (digits_of 16 v) in
  rev (ds ++ repeat 48 (w - List.length ds)%nat).
(** _xunit_reporter.py:311-318 [_escape_code]. *)
Definition escape_code (c : Z) : pystr :=
  if c <=? 255 then lit "#x" ++ hex_pad 2 c else lit "#x" ++ hex_pad 4 c.
(** _xunit_reporter.py:323-333 [_escape] of a string. *)
Definition escape (s : pystr) : pystr := flat_map (fun c => if xml_kept c then [c] else escape_code c) s.
(** _xunit_reporter.py:306-308 [_ensure_newline]. *)
Definition ensure_newline (text : pystr) : pystr :=
  match rev text with
  | [] => text
  | c :: _ => if negb (c =? 10) then text ++ [10] else text
  end.
(** _xunit_reporter.py:286-303 [_normalize_text]; [rel]: [_relative_to_str] if [_relative_to] is set. *)
Definition normalize_text (rel : option pystr) (text : pystr) : pystr :=
  let text := match rel with Some r => replace r [] text | None => text end in
  let text := if existsb (Z.eqb 13) text then replace [13] [10] (replace [13; 10] [10] text) else text in
  escape (ensure_newline text).

(** [str(n)] of an int. *)
Definition py_str_int (n : Z) : pystr :=
  (if n <? 0 then [45] else []) ++ rev (map (digit_chr FDec) (digits_of 10 (Z.abs n))).

(** * Trees *)
Inductive elem := Elem (tag : pystr) (attrs : list (pystr * pystr)) (text : pystr) (children : list elem).
Definition e_tag (e : elem) := let '(Elem t _ _ _) := e in t.
Definition e_attrs (e : elem) := let '(Elem _ a _ _) := e in a.
Definition e_text (e : elem) := let '(Elem _ _ x _) := e in x.
Definition e_children (e : elem) := let '(Elem _ _ _ c) := e in c.
(** [Element.get(name)]. *)
Definition e_get (e : elem) (name : string) : option pystr := dict_get (e_attrs e) (lit name).
(** [Element.find(tag)]: the first child with this tag; [findall(tag)]: the children with this tag. *)
Definition e_findall (e : elem) (tag : string) : list elem :=
  filter (fun c => pystr_eqb (e_tag c) (lit tag)) (e_children e).
Definition e_find (e : elem) (tag : string) : option elem := hd_error (e_findall e tag).
(** [Element.iter(tag)]: the element and everything below it with this tag, in document order. *)
Fixpoint e_iter (tag : pystr) (e : elem) : list elem :=
  match e with
  | Elem t a x cs => (if pystr_eqb t tag then [Elem t a x cs] else []) ++ flat_map (e_iter tag) cs
  end.

(** * The reporter *)

(** _xunit_reporter.py:28 [Status]. *)
Inductive status := Passed | Failed | Skipped | Error | XFailed.
(** The [reason] argument; an exception is given by its type's name, its [str] and its formatted traceback. *)
Inductive reason := RNone | RStr (s : pystr) | RExc (type message formatted : pystr).
(** The arguments of [add_testcase]. *)
Record testcase := Testcase {
  tc_name : pystr; tc_class : pystr; tc_status : status; tc_out : pystr; tc_err : pystr; tc_reason : reason;
  tc_props : list (pystr * pystr) }.
(** _xunit_reporter.py:46-60 [TestSuite] with its element: the dictionary key, the attributes given at creation,
    the counters and the test case elements. *)
Record suite := Suite {
  su_key : pystr; su_stamp : pystr; su_errors : Z; su_failures : Z; su_skipped : Z; su_tests : Z;
  su_cases : list elem }.
(** _xunit_reporter.py:74-110 [XUnitReporter]; the suites in the order of creation, which is the order of
    [_testsuites] and of the children of [_root]. [rp_host]: what [platform.node()] answers.
    [_normalized_paths] only caches and is left out: attachments are given already normalized. *)
Record reporter := Reporter {
  rp_name : pystr; rp_rel : option pystr; rp_attach : list pystr; rp_host : pystr; rp_suites : list suite }.
(** _xunit_reporter.py:107-110 [_text_attachments]. *)
Definition text_attachments (r : reporter) : pystr :=
  join [10] (map (fun a => lit "[[ATTACHMENT|" ++ a ++ lit "]]") (rp_attach r)).

(** _xunit_reporter.py:253-284 [_add_simple]: the new child. *)
Definition simple (rel : option pystr) (name : string) (why : reason) : elem :=
  match why with
  | RExc type message formatted =>
      Elem (lit name) [(lit "message", escape message); (lit "type", escape type)] (normalize_text rel formatted) []
  | RStr (c :: s) => Elem (lit name) [(lit "message", escape (c :: s))] [] []
  | RStr [] | RNone => Elem (lit name) [] [] []
  end.

(** _xunit_reporter.py:112-184 [add_testcase]: the element it makes. *)
Definition case_elem (r : reporter) (t : testcase) : elem :=
  let verdict := match tc_status t with
                 | Skipped => [simple (rp_rel r) "skipped" (tc_reason t)]
                 | Error => [simple (rp_rel r) "error" (tc_reason t)]
                 | Failed => [simple (rp_rel r) "failure" (tc_reason t)]
                 | Passed | XFailed => []
                 end in
  let skip := match tc_status t with Skipped => true | _ => false end in
  let default_attachments := if skip then [] else rp_attach r in
  let text := if skip then [] else text_attachments r in
  let property n v := Elem (lit "property") [(lit "name", n); (lit "value", v)] [] [] in
  let props := Elem (lit "properties") [] []
                 (map (fun kv => property (fst kv) (snd kv)) (tc_props t) ++
                  map (fun a => property (lit "attachment") a) default_attachments) in
  let out := match text with [] => tc_out t | _ => ensure_newline (tc_out t) ++ text end in
  let text_child (tag : string) (s : pystr) :=
    match s with [] => [] | _ => [Elem (lit tag) [] (normalize_text (rp_rel r) s) []] end in
  Elem (lit "testcase") [(lit "classname", escape (tc_class t)); (lit "name", escape (tc_name t))] []
    (verdict ++ [props] ++ text_child "system-out"%string out ++ text_child "system-err"%string (tc_err t)).

(** [classname or "cocotb"]. *)
Definition suite_key (classname : pystr) : pystr := match classname with [] => lit "cocotb" | _ => classname end.
(** The counters of [add_testcase]. *)
Definition count_case (t : testcase) (case : elem) (s : suite) : suite :=
  Suite (su_key s) (su_stamp s)
    (su_errors s + match tc_status t with Error => 1 | _ => 0 end)
    (su_failures s + match tc_status t with Failed => 1 | _ => 0 end)
    (su_skipped s + match tc_status t with Skipped => 1 | _ => 0 end)
    (su_tests s + 1)
    (su_cases s ++ [case]).
(** _xunit_reporter.py:203-233 [_get_testsuite] and the update of the suite it answers. [now]: the time stamp. *)
Fixpoint in_suite (name now : pystr) (f : suite -> suite) (l : list suite) : list suite :=
  match l with
  | [] => [f (Suite name now 0 0 0 0 [])]
  | s :: l' => if pystr_eqb (su_key s) name then f s :: l' else s :: in_suite name now f l'
  end.
Definition add_testcase (r : reporter) (t : testcase) (now : pystr) : reporter :=
  Reporter (rp_name r) (rp_rel r) (rp_attach r) (rp_host r)
    (in_suite (suite_key (tc_class t)) now (count_case t (case_elem r t)) (rp_suites r)).

(** _xunit_reporter.py:62-68 [TestSuite.update] applied to the element made at 217-228. *)
Definition suite_elem (r : reporter) (s : suite) : elem :=
  Elem (lit "testsuite")
    [(lit "name", escape (su_key s));
     (lit "errors", py_str_int (su_errors s)); (lit "failures", py_str_int (su_failures s));
     (lit "skipped", py_str_int (su_skipped s)); (lit "tests", py_str_int (su_tests s));
     (lit "timestamp", escape (su_stamp s)); (lit "hostname", escape (rp_host r))] [] (su_cases s).
(** _xunit_reporter.py:186-201 [write]: the tree which is written. *)
Definition write (r : reporter) : elem :=
  Elem (lit "testsuites") [(lit "name", rp_name r)] [] (map (suite_elem r) (rp_suites r)).
(** A new reporter and the report of a list of test cases, each with the time at which it was added. *)
Definition new_reporter (name : pystr) (rel : option pystr) (attach : list pystr) (host : pystr) : reporter :=
  Reporter name rel attach host [].
Definition report (r : reporter) (l : list (testcase * pystr)) : reporter :=
  fold_left (fun r tn => add_testcase r (fst tn) (snd tn)) l r.

(** * combine_results.py *)

(** 98-114: one suite of an input. Python extends the existing element in place; here the children are appended
    to the copy in the result, which is the same as long as no suite contains another one. *)
Definition opt_str_eqb (a b : option pystr) : bool :=
  match a, b with Some a, Some b => pystr_eqb a b | None, None => true | _, _ => false end.
Fixpoint merge (ts : elem) (result : list elem) : list elem :=
  match result with
  | [] => [ts]
  | Elem t a x cs :: rest =>
      if opt_str_eqb (e_get (Elem t a x cs) "name") (e_get ts "name")
      then Elem t a x (cs ++ e_children ts) :: rest
      else Elem t a x cs :: merge ts rest
  end.
(** 87-114: all suites of all inputs, in order. *)
Definition combine (name : pystr) (inputs : list elem) : elem :=
  Elem (lit "testsuites") [(lit "name", name)] []
    (fold_left (fun result ts => merge ts result) (flat_map (e_iter (lit "testsuite")) inputs) []).
(** 123-126 (a test case without failure and error is skipped): is this test case a failure? *)
Definition case_failed (c : elem) : bool :=
  match e_find c "failure", e_find c "error" with None, None => false | _, _ => true end.
(** 119-132: the return code. *)
Definition combine_rc (result : elem) : Z :=
  if existsb (fun s => existsb case_failed (e_iter (lit "testcase") s)) (e_findall result "testsuite") then 1 else 0.

(** * check_results.py *)

(** [int(testsuite.get(name, 0))]. *)
Definition attr_int (e : elem) (name : string) : result Z :=
  match e_get e name with Some s => py_int10 s | None => Ok 0 end.
(** 14-39 [get_results] of a parsed file: numbers of tests and of failures. *)
Fixpoint sum_suites (acc : Z * Z) (l : list elem) : result (Z * Z) :=
  match l with
  | [] => Ok acc
  | s :: l' =>
      bind (attr_int s "tests") (fun t =>
      bind (attr_int s "failures") (fun f =>
      bind (attr_int s "errors") (fun e =>
      sum_suites (fst acc + t, snd acc + f + e) l')))
  end.
Definition get_results (root : elem) : result (Z * Z) := sum_suites (0, 0) (e_findall root "testsuite").
(** 51-64 [main] and [sys.exit]: the status of the process, [None] for a missing file. An uncaught exception is
    status 1; an integer is truncated to its lowest eight bits by the operating system. *)
Definition check_status (file : option elem) : Z :=
  match file with
  | None => 1
  | Some root => match get_results root with
                 | Ok (_, num_failed) => num_failed mod 256
                 | Err _ => 1
                 end
  end.

(** What is claimed about the results file. *)
From Verif Require Import Base ArrayModel TextModel LogicArrayModel LogicArraySpec XmlModel.
From Coq Require Import String.
Open Scope Z_scope.

(** The characters of XML 1.0: #x9 | #xA | #xD | [#x20-#xD7FF] | [#xE000-#xFFFD] | [#x10000-#x10FFFF]. *)
Definition xml_char (c : Z) : Prop :=
  c = 9 \/ c = 10 \/ c = 13 \/ 32 <= c <= 55295 \/ 57344 <= c <= 65533 \/ 65536 <= c <= 1114111.
Definition xml_text (s : pystr) : Prop := Forall xml_char s.
Definition upper_hex (c : Z) : Prop := 48 <= c <= 57 \/ 65 <= c <= 70.
Definition code_point (c : Z) : Prop := 0 <= c <= 1114111.

(** [t] is [s] with POSIX line ends: CR LF and CR alone become LF. *)
Inductive posix : pystr -> pystr -> Prop :=
| posix_nil : posix [] []
| posix_crlf s t : posix s t -> posix (13 :: 10 :: s) (10 :: t)
| posix_cr s t : hd_error s <> Some 10 -> posix s t -> posix (13 :: s) (10 :: t)
| posix_char c s t : c <> 13 -> posix s t -> posix (c :: s) (c :: t).

(** Every attribute value and text of a document. *)
Fixpoint texts (e : elem) : list pystr :=
  match e with Elem _ a x cs => map snd a ++ [x] ++ flat_map texts cs end.
Definition valid_document (e : elem) : Prop := Forall xml_text (texts e).

(** What a test case needs for this: strings of code points, and property names and values which are XML text
    already, because these are not escaped. *)
Definition reason_ok (r : reason) : Prop :=
  match r with
  | RNone => True
  | RStr s => Forall code_point s
  | RExc t m f => Forall code_point t /\ Forall code_point m /\ Forall code_point f
  end.
Definition case_ok (t : testcase) : Prop :=
  Forall code_point (tc_name t) /\ Forall code_point (tc_class t) /\ Forall code_point (tc_out t) /\
  Forall code_point (tc_err t) /\ reason_ok (tc_reason t) /\
  Forall (fun kv => xml_text (fst kv) /\ xml_text (snd kv)) (tc_props t).

(** * Counting *)
Definition count {A} (p : A -> bool) (l : list A) : Z := py_len (filter p l).
Definition has_status (s : status) (t : testcase * pystr) : bool :=
  match tc_status (fst t), s with
  | Passed, Passed | Failed, Failed | Skipped, Skipped | Error, Error | XFailed, XFailed => true
  | _, _ => false
  end.
(** The class of a reported test case: its class name, "cocotb" if it has none. *)
Definition class_is (k : pystr) (t : testcase * pystr) : bool :=
  match tc_class (fst t) with [] => pystr_eqb (lit "cocotb") k | c => pystr_eqb c k end.
Definition classes (l : list (testcase * pystr)) : list pystr :=
  map (fun t => match tc_class (fst t) with [] => lit "cocotb" | c => c end) l.
(** A list without its repetitions, in the order of the first occurrences. *)
Fixpoint dedup {A} (eqb : A -> A -> bool) (l : list A) : list A :=
  match l with
  | [] => []
  | x :: l' => x :: filter (fun y => negb (eqb x y)) (dedup eqb l')
  end.
(** Has the test case element a child with this tag? *)
Definition has_child (tag : string) (e : elem) : bool :=
  existsb (fun c => pystr_eqb (e_tag c) (lit tag)) (e_children e).

(** * Combining *)
Definition suites (d : elem) : list elem := e_iter (lit "testsuite") d.
(** The suites of the name [n] among [l]. *)
Definition named (n : option pystr) (l : list elem) : list elem := filter (fun s => opt_str_eqb (e_get s "name") n) l.
(** No suite contains another suite. *)
Definition flat (d : elem) : Prop :=
  Forall (fun s => flat_map (e_iter (lit "testsuite")) (e_children s) = []) (suites d).
(** A test case with a failure or error child, in some suite of the document. *)
Definition has_failure (d : elem) : Prop :=
  exists s c, In s (suites d) /\ In c (e_iter (lit "testcase") s) /\
    (has_child "failure" c = true \/ has_child "error" c = true).

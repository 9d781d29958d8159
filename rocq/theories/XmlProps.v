(** Property theorems C51-C54: the results file. *)
From Verif Require Import Base ArrayModel TextModel ToolsModel ToolsSpec LogicArrayModel LogicArraySpec XmlModel XmlSpec XmlProofs.
From Coq Require Import String Permutation.
Open Scope Z_scope.

(** * C51 *)
(** Escaped text is XML text, and escaping it again does nothing. *)
Theorem C51_valid s : Forall code_point s -> xml_text (escape s).
Proof. exact (escape_valid_pf s). Qed.
Print Assumptions C51_valid.
Theorem C51_idempotent s : Forall code_point s -> escape (escape s) = escape s.
Proof. exact (escape_twice_pf s). Qed.
Print Assumptions C51_idempotent.
(** Characters are escaped one by one; valid characters up to U+FFFF are kept, every other becomes its code. *)
Theorem C51_by_character a b : escape (a ++ b) = escape a ++ escape b.
Proof. exact (escape_app a b). Qed.
Print Assumptions C51_by_character.
Theorem C51_keeps s : Forall (fun c => xml_char c /\ c <= 65535) s -> escape s = s.
Proof. exact (escape_keeps_pf s). Qed.
Print Assumptions C51_keeps.
Theorem C51_code c : code_point c -> ~ (xml_char c /\ c <= 65535) -> exists h, escape [c] = lit "#x" ++ h /\
  Forall upper_hex h /\ read_number 16 h = c /\
  (c <= 255 -> py_len h = 2) /\ (255 < c <= 65535 -> py_len h = 4) /\ (65535 < c -> 5 <= py_len h <= 6).
Proof. exact (escape_code_pf c). Qed.
Print Assumptions C51_code.
(** The comment in the source says that DEL is escaped and every other valid character kept; neither holds. *)
Theorem C51_del_refuted : exists c, c = 127 /\ escape [c] = [c].
Proof. exists 127. split; reflexivity. Qed.
Print Assumptions C51_del_refuted.
Theorem C51_astral_refuted : exists c, xml_char c /\ c <> 127 /\ escape [c] = lit "#x1F600".
Proof. exists 128512. split; [unfold xml_char; lia|]. split; [discriminate|reflexivity]. Qed.
Print Assumptions C51_astral_refuted.
(** Longer texts: POSIX line ends, a newline at the end, XML characters only. *)
Theorem C51_text rel s : Forall code_point s ->
  xml_text (normalize_text rel s) /\ ~ In 13 (normalize_text rel s) /\
  (normalize_text rel s = [] \/ exists u, normalize_text rel s = u ++ [10]).
Proof. exact (normalize_valid_pf rel s). Qed.
Print Assumptions C51_text.
Theorem C51_text_lines rel s : exists t, posix (match rel with Some r => replace r [] s | None => s end) t /\
  normalize_text rel s = escape (ensure_newline t).
Proof. exact (normalize_pf rel s). Qed.
Print Assumptions C51_text_lines.
(** The whole report is XML if the property names and values and the attachments are. *)
Theorem C51_document r l : rp_suites r = [] -> xml_text (rp_name r) -> Forall xml_text (rp_attach r) ->
  Forall code_point (rp_host r) -> Forall (fun t => case_ok (fst t) /\ Forall code_point (snd t)) l ->
  valid_document (write (report r l)).
Proof. exact (document_pf r l). Qed.
Print Assumptions C51_document.
(** Property values are not escaped: a report which is not XML although all its strings are Unicode text. *)
Theorem C51_property_refuted : exists r l, rp_suites r = [] /\ xml_text (rp_name r) /\ rp_attach r = [] /\
  Forall (fun t => Forall (fun kv => Forall code_point (fst kv) /\ Forall code_point (snd kv)) (tc_props (fst t))) l /\
  ~ valid_document (write (report r l)).
Proof.
  exists (new_reporter (lit "r") None [] []), [(Testcase (lit "t") (lit "m") Passed [] [] RNone [(lit "file", [7])], [])].
  split; [reflexivity|]. split; [repeat constructor; unfold xml_char; cbn; lia|]. split; [reflexivity|]. split.
  - constructor; [|constructor]. constructor; [|constructor]. cbn. split; repeat (constructor; [unfold code_point; lia|]); constructor.
  - intro V. unfold valid_document in V. rewrite Forall_forall in V. specialize (V [7]).
    assert (I : In [7] (texts (write (report (new_reporter (lit "r") None [] [])
      [(Testcase (lit "t") (lit "m") Passed [] [] RNone [(lit "file", [7])], [])])))) by (vm_compute; tauto).
    apply V in I. inversion I as [|? ? H _]. unfold xml_char in H. lia.
Qed.
Print Assumptions C51_property_refuted.
Example C51_ex :
  escape (lit "hello" ++ [7] ++ lit "world" ++ [8]) = lit "hello#x07world#x08" /\ escape [65534] = lit "#xFFFE" /\
  escape [55296; 228; 8364] = lit "#xD800" ++ [228; 8364] /\
  normalize_text (Some (lit "/w/")) (lit "a" ++ [13; 10] ++ lit "/w/b" ++ [13] ++ lit "c") = lit "a" ++ [10] ++ lit "b" ++ [10] ++ lit "c" ++ [10] /\
  code_point 7 /\ ~ (xml_char 7 /\ 7 <= 65535).
Proof. repeat (apply conj); try reflexivity; try lia. unfold xml_char. lia. Qed.

(** * C52 *)
(** The report has one suite for each class, in the order of first appearance; it holds exactly the test cases of
    this class in order, and its counters are their numbers. *)
Theorem C52_suites r l : rp_suites r = [] ->
  Forall2 (fun k s =>
    let mine := filter (class_is k) l in
    e_tag s = lit "testsuite" /\ e_get s "name" = Some (escape k) /\
    attr_int s "tests" = Ok (py_len mine) /\ attr_int s "failures" = Ok (count (has_status Failed) mine) /\
    attr_int s "errors" = Ok (count (has_status Error) mine) /\
    attr_int s "skipped" = Ok (count (has_status Skipped) mine) /\
    e_children s = map (fun t => case_elem r (fst t)) mine)
  (dedup pystr_eqb (classes l)) (e_children (write (report r l))).
Proof. exact (suites_pf r l). Qed.
Print Assumptions C52_suites.
(** A test case element tells the name and class, and has the child of its status. *)
Theorem C52_case r t :
  e_tag (case_elem r t) = lit "testcase" /\
  e_get (case_elem r t) "classname" = Some (escape (tc_class t)) /\
  e_get (case_elem r t) "name" = Some (escape (tc_name t)) /\
  has_child "failure" (case_elem r t) = has_status Failed (t, []) /\
  has_child "error" (case_elem r t) = has_status Error (t, []) /\
  has_child "skipped" (case_elem r t) = has_status Skipped (t, []).
Proof. exact (case_elem_pf r t). Qed.
Print Assumptions C52_case.
(** The counters of each suite are those of its own children. *)
Theorem C52_counters r l s : rp_suites r = [] -> In s (e_children (write (report r l))) ->
  attr_int s "tests" = Ok (py_len (e_children s)) /\
  attr_int s "failures" = Ok (count (has_child "failure") (e_children s)) /\
  attr_int s "errors" = Ok (count (has_child "error") (e_children s)) /\
  attr_int s "skipped" = Ok (count (has_child "skipped") (e_children s)) /\
  Forall (fun c => e_tag c = lit "testcase") (e_children s).
Proof. exact (counters_pf r l s). Qed.
Print Assumptions C52_counters.
Definition ex_case (name class : string) (s : status) : testcase * pystr :=
  (Testcase (lit name) (lit class) s (lit "out") [] (RStr (lit "why")) [(lit "line", lit "3")], lit "2026").
Definition ex_new := new_reporter (lit "results") None [lit "a.log"] (lit "host").
Definition ex_cases := [ex_case "t1" "m" Failed; ex_case "t2" "" Passed; ex_case "t3" "m" Skipped; ex_case "t4" "cocotb" Error; ex_case "t5" "m" Failed].
Example C52_ex : rp_suites ex_new = [] /\
  map (fun s => (e_get s "name", e_get s "tests", e_get s "failures", e_get s "errors", e_get s "skipped"))
      (e_children (write (report ex_new ex_cases))) =
  [(Some (lit "m"), Some (lit "3"), Some (lit "2"), Some (lit "0"), Some (lit "1"));
   (Some (lit "cocotb"), Some (lit "2"), Some (lit "0"), Some (lit "1"), Some (lit "0"))] /\
  dedup pystr_eqb (classes ex_cases) = [lit "m"; lit "cocotb"].
Proof. repeat (apply conj); vm_compute; reflexivity. Qed.

(** * C53 *)
(** The combined file has one suite for each suite name, in the order of first appearance, with the attributes of
    the first suite of that name and the children of all of them. *)
Theorem C53_combined name inputs : Forall flat inputs -> let L := flat_map suites inputs in
  Forall2 (fun n s =>
    e_get s "name" = n /\ e_children s = flat_map e_children (named n L) /\
    exists f, hd_error (named n L) = Some f /\ e_tag s = e_tag f /\ e_attrs s = e_attrs f /\ e_text s = e_text f)
  (dedup opt_str_eqb (map (fun s => e_get s "name") L)) (e_children (combine name inputs)).
Proof. exact (fun _ => combine_pf name inputs). Qed.
Print Assumptions C53_combined.
(** No child of a suite is lost or repeated. *)
Theorem C53_keeps_all name inputs : Forall flat inputs ->
  Permutation (flat_map e_children (e_children (combine name inputs))) (flat_map e_children (flat_map suites inputs)).
Proof. exact (fun _ => combine_perm (flat_map suites inputs)). Qed.
Print Assumptions C53_keeps_all.
(** The return code tells whether some input has a failure. *)
Theorem C53_return_code name inputs : Forall flat inputs ->
  (combine_rc (combine name inputs) = 1 <-> exists d, In d inputs /\ has_failure d).
Proof. exact (fun _ => combine_rc_pf name inputs). Qed.
Print Assumptions C53_return_code.
(** If no two suites have the same name, checking the combined file sums up the inputs. *)
Theorem C53_check_distinct_names name inputs (tf : list (Z * Z)) :
  Forall (fun d => suites d = e_findall d "testsuite") inputs ->
  NoDup (map (fun s => e_get s "name") (flat_map suites inputs)) ->
  Forall2 (fun d r => get_results d = Ok r) inputs tf ->
  get_results (combine name inputs) = Ok (fold_right Z.add 0 (map fst tf), fold_right Z.add 0 (map snd tf)).
Proof. exact (combine_results_pf name inputs tf). Qed.
Print Assumptions C53_check_distinct_names.
(** Otherwise it does not: two reports of the same class, the second with a failing test. The counters of the
    combined suite are those of the first report, and the check of the combined file succeeds. *)
Theorem C53_check_refuted : exists a b,
  let da := write (report ex_new a) in let db := write (report ex_new b) in let both := combine (lit "results") [da; db] in
  flat da /\ flat db /\ get_results da = Ok (1, 0) /\ get_results db = Ok (1, 1) /\ has_failure db /\
  combine_rc both = 1 /\ get_results both = Ok (1, 0) /\ check_status (Some both) = 0.
Proof.
  exists [ex_case "t1" "m" Passed], [ex_case "t2" "m" Failed]. cbv zeta.
  split; [constructor; [vm_compute; reflexivity|constructor]|]. split; [constructor; [vm_compute; reflexivity|constructor]|].
  split; [vm_compute; reflexivity|]. split; [vm_compute; reflexivity|]. split.
  - exists (suite_elem ex_new (Suite (lit "m") (lit "2026") 0 1 0 1 [case_elem ex_new (fst (ex_case "t2" "m" Failed))])),
      (case_elem ex_new (fst (ex_case "t2" "m" Failed))).
    split; [vm_compute; left; reflexivity|]. split; [vm_compute; left; reflexivity|]. left. vm_compute. reflexivity.
  - repeat (apply conj); vm_compute; reflexivity.
Qed.
Print Assumptions C53_check_refuted.
(** Suites within suites are taken twice: as children of the outer suite and on their own. *)
Theorem C53_nested_refuted : exists d, List.length (e_iter (lit "testcase") d) = 1%nat /\
  List.length (e_iter (lit "testcase") (combine (lit "results") [d])) = 2%nat.
Proof.
  exists (Elem (lit "testsuites") [] [] [Elem (lit "testsuite") [(lit "name", lit "a")] []
           [Elem (lit "testsuite") [(lit "name", lit "b")] [] [Elem (lit "testcase") [] [] []]]]).
  split; reflexivity.
Qed.
Print Assumptions C53_nested_refuted.
Example C53_ex : let da := write (report ex_new ex_cases) in let db := write (report ex_new [ex_case "u" "n" Error]) in
  suites da = e_findall da "testsuite" /\ suites db = e_findall db "testsuite" /\
  dedup opt_str_eqb (map (fun s => e_get s "name") (flat_map suites [da; db])) = map (fun s => e_get s "name") (flat_map suites [da; db]) /\
  get_results (combine (lit "results") [da; db]) = Ok (6, 4).
Proof. cbv zeta. repeat (apply conj); vm_compute; reflexivity. Qed.

(** * C54 *)
(** Checking a report counts its test cases and those which failed or had an error. *)
Theorem C54_report r l : rp_suites r = [] ->
  get_results (write (report r l)) = Ok (py_len l, count (has_status Failed) l + count (has_status Error) l).
Proof. exact (report_results_pf r l). Qed.
Print Assumptions C54_report.
(** So with fewer than 256 failures the exit status is 0 exactly if there is none. *)
Theorem C54_status r l : rp_suites r = [] -> count (has_status Failed) l + count (has_status Error) l < 256 ->
  (check_status (Some (write (report r l))) = 0 <-> Forall (fun t => has_status Failed t = false /\ has_status Error t = false) l).
Proof. exact (check_status_pf r l). Qed.
Print Assumptions C54_status.
Theorem C54_missing_file : check_status None = 1.
Proof. exact eq_refl. Qed.
Print Assumptions C54_missing_file.
(** A results file without readable counters is not a success. *)
Theorem C54_unreadable root e : get_results root = Err e -> check_status (Some root) <> 0.
Proof. intro H. unfold check_status. rewrite H. discriminate. Qed.
Print Assumptions C54_unreadable.
Example C54_unreadable_ex : get_results (Elem (lit "testsuites") [] [] [Elem (lit "testsuite") [(lit "tests", lit "x")] [] []]) = Err ValueError.
Proof. vm_compute. reflexivity. Qed.
(** With 256 failures it is 0 again. *)
Theorem C54_status_refuted : exists l, (count (has_status Failed) l = 256) /\ check_status (Some (write (report ex_new l))) = 0.
Proof. exists (repeat (ex_case "t" "m" Failed) 256). split; vm_compute; reflexivity. Qed.
Print Assumptions C54_status_refuted.
Example C54_ex : get_results (write (report ex_new ex_cases)) = Ok (5, 3) /\ check_status (Some (write (report ex_new ex_cases))) = 3.
Proof. split; vm_compute; reflexivity. Qed.

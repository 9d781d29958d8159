(** Text handed to other languages: theorems (C59 to C62). *)
From Verif Require Import Base TextModel ToolsModel XmlModel QuoteModel QuoteSpec QuoteProofs QuoteRegex.
From Coq Require Import String.
Open Scope Z_scope.

(** * C59: literals *)

(** A string becomes a SystemVerilog string literal which denotes it, whatever text follows. *)
Theorem C59_sv_string v rest : sv_string (sv_escape_string v ++ rest) = Some (v, rest).
Proof. exact (sv_string_pf v rest). Qed.
Print Assumptions C59_sv_string.
Theorem C59_sv_str s t : as_sv_literal (VStr s) = Ok t -> sv_string t = Some (s, []).
Proof. intro H. injection H as <-. rewrite <- (app_nil_r (sv_escape_string s)). apply sv_string_pf. Qed.
Print Assumptions C59_sv_str.
(** The user is warned about exactly the strings with a character beyond ASCII. *)
Theorem C59_sv_warns s : sv_warns s = true <-> exists c, In c s /\ 128 <= c.
Proof.
  unfold sv_warns. rewrite existsb_exists. split; intros (c & I & H); exists c; (split; [exact I|]); [now apply Z.leb_le|now apply Z.leb_le].
Qed.
Print Assumptions C59_sv_warns.
Example C59_sv_str_ex : exists t, as_sv_literal (VStr (lit "a""b\" ++ [10; 1; 57; 255])) = Ok t /\
  t = lit """a\""b\\\n\x019\xFF""" /\ sv_string t = Some (lit "a""b\" ++ [10; 1; 57; 255], []).
Proof. eexists. repeat split. Qed.

(** A string becomes a VHDL literal which denotes it exactly when VHDL strings can have its characters; otherwise
    the user is warned. *)
Theorem C59_vhdl_str s t : as_vhdl_literal (VStr s) = Ok t ->
  (vhdl_string t = Some (s, []) <-> Forall (fun c => vhdl_graphic c = true) s) /\
  (vhdl_warns s = false -> vhdl_string t = Some (s, [])).
Proof.
  intro H. injection H as <-. pose proof (vhdl_string_pf s [] Logic.I) as E. rewrite app_nil_r in E. split; [exact E|].
  intro W. apply E. apply Forall_forall. intros c I. unfold vhdl_warns in W.
  destruct ((c <? 32) || (127 <=? c)) eqn:X.
  - assert (T : existsb (fun c => (c <? 32) || (127 <=? c)) s = true) by (apply existsb_exists; exists c; auto). congruence.
  - apply orb_false_iff in X as [X1 X2]. unfold vhdl_graphic. apply Z.ltb_ge in X1. apply Z.leb_gt in X2.
    destruct (Z.leb_spec 32 c), (Z.leb_spec c 126); try lia; reflexivity.
Qed.
Print Assumptions C59_vhdl_str.
Example C59_vhdl_str_ex : exists t, as_vhdl_literal (VStr (lit "say ""hi""")) = Ok t /\ vhdl_warns (lit "say ""hi""") = false /\
  vhdl_string t = Some (lit "say ""hi""", []).
Proof. eexists. repeat split. Qed.

(** Integers are written in decimal in both languages, true and false as a bit and as a boolean. *)
Theorem C59_int n t : as_sv_literal (VInt n) = Ok t \/ as_vhdl_literal (VInt n) = Ok t -> signed_number t = Some (n, []).
Proof.
  intro H. assert (E : t = py_str_int n) by (destruct H as [H|H]; injection H as <-; reflexivity). subst t.
  rewrite <- (app_nil_r (py_str_int n)). now apply signed_str.
Qed.
Print Assumptions C59_int.
Example C59_int_ex : as_sv_literal (VInt (-120)) = Ok (lit "-120") /\ signed_number (lit "-120") = Some (-120, []).
Proof. repeat split. Qed.
Theorem C59_bool b t u : as_sv_literal (VBool b) = Ok t -> as_vhdl_literal (VBool b) = Ok u ->
  sv_based t = Some (if b then lit "1" else lit "0") /\ u = if b then lit "true" else lit "false".
Proof. intros H1 H2. destruct b; injection H1 as <-; injection H2 as <-; split; reflexivity. Qed.
Print Assumptions C59_bool.
Example C59_bool_ex : as_sv_literal (VBool true) = Ok (lit "1'b1") /\ as_vhdl_literal (VBool true) = Ok (lit "true").
Proof. repeat split. Qed.

(** A logic value which is not empty becomes a sized literal with the same bits; values SystemVerilog does not have are
    refused, and only those. *)
Theorem C59_sv_logic s t : s <> [] -> as_sv_literal (VLogic s) = Ok t -> sv_based t = Some s.
Proof. exact (sv_based_pf s t). Qed.
Print Assumptions C59_sv_logic.
Example C59_sv_logic_ex : as_sv_literal (VLogic (lit "01XZ")) = Ok (lit "4'b01XZ") /\ sv_based (lit "4'b01XZ") = Some (lit "01XZ").
Proof. repeat split. Qed.
Theorem C59_sv_logic_refused s : as_sv_literal (VLogic s) = Err ValueError <-> exists c, In c s /\ ~ In c (lit "01XZ").
Proof. exact (sv_logic_err s). Qed.
Print Assumptions C59_sv_logic_refused.
Example C59_sv_logic_refused_ex : as_sv_literal (VLogic (lit "0H1")) = Err ValueError.
Proof. reflexivity. Qed.
(** Other types, and only those, are a TypeError. *)
Theorem C59_type v : (as_sv_literal v = Err TypeError <-> v = VOther) /\ (as_vhdl_literal v = Err TypeError <-> v = VOther).
Proof.
  split; split; try (intros ->; reflexivity); destruct v; cbn; try discriminate; try reflexivity.
  all: match goal with |- context [if ?b then _ else _] => destruct b end; discriminate.
Qed.
Print Assumptions C59_type.
Example C59_type_ex : as_sv_literal VOther = Err TypeError /\ as_sv_literal (VInt 1) <> Err TypeError.
Proof. split; [reflexivity|discriminate]. Qed.

(** An empty LogicArray becomes [0'b], which is not a literal. *)
Theorem C59_sv_empty_refuted : exists s t, as_sv_literal (VLogic s) = Ok t /\ sv_based t <> Some s.
Proof. exists [], (lit "0'b"). split; [reflexivity|discriminate]. Qed.
Print Assumptions C59_sv_empty_refuted.
(** No logic value becomes a VHDL character or string literal: the quotes are missing. *)
Theorem C59_vhdl_logic_refuted s : Forall (fun c => In c (lit "UX01ZWLH-")) s ->
  exists t, as_vhdl_literal (VLogic s) = Ok t /\ ~ vhdl_logic_literal t s.
Proof.
  intro F. exists s. split; [reflexivity|]. intros [(c & E & X)|X].
  - subst s. discriminate X.
  - destruct s as [|c s]; [discriminate X|]. inversion F as [|? ? I _]; subst. cbn in I.
    repeat match type of I with _ \/ _ => destruct I as [I|I]; [subst c; discriminate X|] end. contradiction.
Qed.
Print Assumptions C59_vhdl_logic_refuted.
Example C59_vhdl_logic_ex : as_vhdl_literal (VLogic (lit "01")) = Ok (lit "01") /\ vhdl_logic_literal (lit """01""") (lit "01").
Proof. split; [reflexivity|]. right. reflexivity. Qed.
(** A float whose [str()] has no point, such as 1e+16, becomes an integer literal in VHDL. *)
Theorem C59_vhdl_float_refuted : exists text t, text = lit "1e+16" /\ as_vhdl_literal (VFloat text) = Ok t /\ ~ vhdl_real t.
Proof.
  exists (lit "1e+16"), (lit "1e+16"). split; [reflexivity|]. split; [reflexivity|]. intros (a & b & E & _).
  assert (I : In 46 (lit "1e+16")) by (rewrite E; apply in_or_app; right; left; reflexivity). cbn in I.
  repeat match type of I with _ \/ _ => destruct I as [I|I]; [discriminate I|] end. contradiction.
Qed.
Print Assumptions C59_vhdl_float_refuted.

(** * C60: Tcl *)

(** The [asim] line is one command with exactly the intended words, if no value needs more than backslashes. *)
Theorem C60_asim_partial vhdl ext extra top plus :
  tcl_inert ext -> Forall tcl_inert extra -> tcl_inert top -> Forall tcl_inert plus ->
  tcl_script (asim_line vhdl ext extra top plus) =
  Some [map lit ["asim"; "+access"; "+w_nets"; "-interceptcoutput"; if vhdl then "-loadvhpi" else "-pli"]%string ++
        [ext] ++ extra ++ [top] ++ plus].
Proof. exact (asim_pf vhdl ext extra top plus). Qed.
Print Assumptions C60_asim_partial.
Lemma inert_of v : inertb v = true -> v <> [] -> tcl_inert v.
Proof. intros H N. split; [exact N|]. now apply inertb_iff. Qed.
Example C60_asim_ex :
  tcl_inert (lit "/a b/{c}\d") /\ Forall tcl_inert [lit """q"""; [32; 10]; lit "${x}"; lit "$ 5"] /\
  tcl_script (asim_line true (lit "/a b/{c}\d") [lit """q"""; [32; 10]; lit "${x}"] (lit "top.dut") [lit "+v=$"]) =
  Some [map lit ["asim"; "+access"; "+w_nets"; "-interceptcoutput"; "-loadvhpi"]%string ++
        [lit "/a b/{c}\d"; lit """q"""; [32; 10]; lit "${x}"; lit "top.dut"; lit "+v=$"]].
Proof.
  assert (A : forall v, inertb v = true /\ v <> [] -> tcl_inert v) by (intros v [H1 H2]; now apply inert_of).
  split; [apply A; split; [reflexivity|discriminate]|].
  split; [repeat constructor; try discriminate; apply A; split; (reflexivity || discriminate)|vm_compute; reflexivity].
Qed.
(** A value arrives as one word with its text exactly when it is not empty, has no "[", no ";" and no "$" before a
    name: those four are not protected. *)
Theorem C60_word v : tcl_script (lit "asim " ++ as_tcl_value v) = Some [[lit "asim"; v]] <-> tcl_inert v.
Proof. exact (one_word_pf v). Qed.
Print Assumptions C60_word.
Example C60_word_ex : tcl_script (lit "asim " ++ as_tcl_value (lit "a {b} \c")) = Some [[lit "asim"; lit "a {b} \c"]].
Proof. reflexivity. Qed.
(** A ";" in an argument ends the command: what follows is run as another one. *)
Theorem C60_semicolon_refuted : exists extra w, In w extra /\
  tcl_script (asim_line false (lit "lib.so") extra (lit "top.dut") []) =
  Some [map lit ["asim"; "+access"; "+w_nets"; "-interceptcoutput"; "-pli"; "lib.so"; "-gNAME=a"]%string; map lit ["quit"; "top.dut"]%string].
Proof. exists [lit "-gNAME=a;quit"], (lit "-gNAME=a;quit"). split; [left; reflexivity|vm_compute; reflexivity]. Qed.
Print Assumptions C60_semicolon_refuted.
(** A "[" or a "$name" in an argument is substituted by the interpreter. *)
Theorem C60_substitution_refuted : exists v1 v2, v1 = lit "+p=[exit]" /\ v2 = lit "/home/$user/x" /\
  forall v, v = v1 \/ v = v2 -> tcl_script (asim_line false (lit "lib.so") [v] (lit "top.dut") []) = None.
Proof.
  exists (lit "+p=[exit]"), (lit "/home/$user/x"). split; [reflexivity|]. split; [reflexivity|].
  intros v [->| ->]; vm_compute; reflexivity.
Qed.
Print Assumptions C60_substitution_refuted.
(** An empty argument disappears. *)
Theorem C60_empty_refuted : exists extra, extra = [[]] /\
  tcl_script (asim_line false (lit "lib.so") extra (lit "top.dut") []) =
  Some [map lit ["asim"; "+access"; "+w_nets"; "-interceptcoutput"; "-pli"; "lib.so"; "top.dut"]%string].
Proof. exists [[]]. split; [reflexivity|vm_compute; reflexivity]. Qed.
Print Assumptions C60_empty_refuted.

(** * C61: logged command lines *)

(** The shell splits a logged command line into exactly the arguments of the command, and expands nothing. *)
Theorem C61_words l : sh_words (shlex_join l) = Some l.
Proof. exact (shlex_pf l). Qed.
Print Assumptions C61_words.
Theorem C61_injective l m : shlex_join l = shlex_join m -> l = m.
Proof. intro E. pose proof (shlex_pf l) as H. rewrite E, shlex_pf in H. now injection H. Qed.
Print Assumptions C61_injective.
Example C61_words_ex : shlex_join [lit "vsim"; lit "-do"; lit "run; quit"; []; lit "it's $HOME"] = lit "vsim -do 'run; quit' '' 'it'""'""'s $HOME'" /\
  sh_words (lit "vsim -do 'run; quit' '' 'it'""'""'s $HOME'") = Some [lit "vsim"; lit "-do"; lit "run; quit"; []; lit "it's $HOME"].
Proof. split; vm_compute; reflexivity. Qed.

(** * C62: the testcase argument *)

(** The pattern made from a list of names is a valid regular expression; a search for it finds a match in exactly those
    subjects in which a point is followed (after any text without line feed) by one of the names at the end. No character
    of a name has a special meaning. *)
Theorem C62_select names : names <> [] ->
  exists r, re_compile (testcase_regex names) = Some r /\
  forall subject, re_search r subject <->
    exists before x name tail, subject = before ++ [46] ++ x ++ name ++ tail /\ In name names /\ ~ In 10 x /\ (tail = [] \/ tail = [10]).
Proof. intro NE. exists (compiled names). split; [apply compile_pf|]. intro subject. now apply search_pf. Qed.
Print Assumptions C62_select.
Example C62_select_ex : exists r, re_compile (testcase_regex [lit "t(1)"; lit "a.b"]) = Some r /\ re_search r (lit "m.t(1)") /\ ~ re_search r (lit "m.t1").
Proof.
  destruct (C62_select [lit "t(1)"; lit "a.b"] ltac:(discriminate)) as (r & C & S). exists r. split; [exact C|]. split.
  - apply S. exists (lit "m"), [], (lit "t(1)"), []. split; [reflexivity|]. split; [left; reflexivity|]. split; [intros []|left; reflexivity].
  - rewrite S. intros (before & x & name & tail & E & I & N & T). apply (f_equal (@rev Z)) in E. rewrite !rev_app_distr in E.
    cbn in I. destruct T as [->| ->]; destruct I as [<-|[<-|[]]]; cbn in E; discriminate E.
Qed.
(** Every test with one of the names is selected, in any module. *)
Theorem C62_named names name module r : In name names -> re_compile (testcase_regex names) = Some r ->
  re_search r (module ++ [46] ++ name).
Proof.
  intros I C. rewrite compile_pf in C. injection C as <-. apply search_pf; [intros ->; contradiction|].
  exists module, [], name, []. rewrite app_nil_r. split; [reflexivity|]. split; [exact I|]. split; [intros []|left; reflexivity].
Qed.
Print Assumptions C62_named.
Example C62_named_ex : re_search (compiled [lit "a"; lit "test[x=1]"]) (lit "pkg.mod.test[x=1]").
Proof. apply (C62_named [lit "a"; lit "test[x=1]"] (lit "test[x=1]") (lit "pkg.mod")); [right; left; reflexivity|apply compile_pf]. Qed.
(** A test with another name is selected too if its name ends with one of the names. *)
Theorem C62_suffix_refuted : exists names r fullname, re_compile (testcase_regex names) = Some r /\ re_search r fullname /\
  ~ exists module name, fullname = module ++ [46] ++ name /\ In name names.
Proof.
  exists [lit "reset"], (compiled [lit "reset"]), (lit "m.test_no_reset"). split; [apply compile_pf|]. split.
  - apply search_pf; [discriminate|]. exists (lit "m"), (lit "test_no_"), (lit "reset"), []. split; [reflexivity|]. split; [left; reflexivity|]. split; [|left; reflexivity].
    cbn. intro I. repeat match type of I with _ \/ _ => destruct I as [I|I]; [discriminate I|] end. contradiction.
  - intros (module & name & E & [<-|[]]). apply (f_equal (@rev Z)) in E. rewrite !rev_app_distr in E. discriminate E.
Qed.
Print Assumptions C62_suffix_refuted.
(** With no names at all (an empty list, or a string of commas and blanks) no test is selected, unless its name ends with a point. *)
Theorem C62_none r module name : re_compile (testcase_regex []) = Some r -> name <> [] ->
  (forall n, name <> n ++ [46]) -> (forall n, name <> n ++ [10]) -> ~ re_search r (module ++ [46] ++ name).
Proof.
  intros C NE H1 H2. rewrite compile_pf in C. injection C as <-. rewrite search_none. intros (before & E).
  destruct (exists_last NE) as (n & c & ->). destruct E as [E|E].
  - rewrite !app_assoc in E. apply app_inj_tail in E as [_ ->]. exact (H1 n eq_refl).
  - rewrite !app_assoc in E. change [46; 10] with ([46] ++ [10]) in E. rewrite app_assoc in E. apply app_inj_tail in E as [_ ->]. exact (H2 n eq_refl).
Qed.
Print Assumptions C62_none.
Example C62_none_ex : testcase_names (lit " , ,") = [] /\ ~ re_search (compiled []) (lit "m.test").
Proof.
  split; [reflexivity|]. apply (C62_none _ (lit "m") (lit "test")); [apply compile_pf|discriminate|..];
    intros n E; apply (f_equal (@rev Z)) in E; rewrite rev_app_distr in E; discriminate E.
Qed.
(** A string of names is split at its commas, stripped, and blank parts are dropped. *)
Theorem C62_names s name : In name (testcase_names s) <-> exists part, In part (split 44 s) /\ name = strip part /\ strip part <> [].
Proof.
  unfold testcase_names. rewrite in_map_iff. split.
  - intros (part & <- & I). apply filter_In in I as [I N]. exists part. repeat split; auto. intro E. rewrite E in N. discriminate N.
  - intros (part & I & -> & N). exists part. split; [reflexivity|]. apply filter_In. split; [exact I|].
    destruct (strip part); [contradiction|reflexivity].
Qed.
Print Assumptions C62_names.
Example C62_names_ex : testcase_names (lit "a, b ,,c") = [lit "a"; lit "b"; lit "c"].
Proof. reflexivity. Qed.
(** The simulator reads back the same pattern from the environment variable. *)
Theorem C62_environment names : get_str (Some (testcase_regex names)) None = testcase_regex names.
Proof. exact (regex_ends names). Qed.
Print Assumptions C62_environment.
Example C62_environment_ex : get_str (Some (testcase_regex [lit " a "])) None = lit "\.(.*\ a\ )$".
Proof. reflexivity. Qed.

(** The log formatter: theorems (C67 to C69). *)
From Verif Require Import Base TextModel XmlModel LogModel LogSpec LogProofs.
From Coq Require Import String Lia.
Open Scope Z_scope.

(** * C67: escape codes *)

(** The substitution removes the codes and nothing else; an escape character which begins no code stays. *)
Theorem C67_sub s v : sub_codes s = v <-> without_codes s v.
Proof. exact (sub_codes_iff s v). Qed.
Print Assumptions C67_sub.
Example C67_sub_ex : sub_codes (lit "a" ++ [27; 91] ++ lit "1;31mb" ++ [27; 77] ++ lit "c" ++ [27; 91] ++ lit "3") =
  lit "abc" ++ [27; 91] ++ lit "3".
Proof. reflexivity. Qed.

(** When codes are to be stripped, a record on one line is the visible part of its prefix and of its message, and has
    no escape character, if every escape character begins a code. *)
Theorem C67_strip f r p m : f_strip f = true -> ~ several_lines r -> marked (f_prefix f r [] []) p -> marked (r_msg r) m ->
  format f r = p ++ m /\ ~ In 27 (format f r).
Proof.
  intros S N P M. rewrite (strip_text f r p m S N P M). split; [reflexivity|].
  rewrite in_app_iff. intros [I|I]; [exact (marked_clean _ _ P I)|exact (marked_clean _ _ M I)].
Qed.
Print Assumptions C67_strip.
Example red_x : marked (RED_FG ++ lit "x" ++ DEFAULT) (lit "x").
Proof.
  change (lit "x") with ([] ++ (lit "x" ++ [])) at 2. apply marked_app; [exact (colour_codes 40)|].
  apply marked_app; [apply marked_plain; intros [E|[]]; discriminate E|exact default_codes].
Qed.
Definition info : record := Record 20 (lit "INFO") (lit "test") (lit "t.py") 7 (Some (lit "f")) (Some (lit "10.00")) (RED_FG ++ lit "x" ++ DEFAULT) [] [].
Example C67_strip_ex : let f := mk_formatter true (Some true) false None INone in
  ~ several_lines info /\ marked (f_prefix f info [] []) (f_prefix f info [] []) /\ marked (r_msg info) (lit "x") /\
  format f info = lit "    10.00ns INFO     test                               x".
Proof.
  cbv zeta. split; [|split; [|split; [exact red_x|vm_compute; reflexivity]]].
  - intros [I|[N|N]]; [|now destruct N..]. cbn in I. repeat (destruct I as [E|I]; [discriminate E|]). destruct I.
  - apply marked_plain. vm_compute. intro I. repeat (destruct I as [E|I]; [discriminate E|]). destruct I.
Qed.
(** Otherwise a code can be left: the characters around a removed code may form another one. *)
Theorem C67_strip_refuted : exists r k a b, f_strip (mk_formatter true (Some true) false None INone) = true /\ esc_code k /\
  format (mk_formatter true (Some true) false None INone) r = a ++ k ++ b.
Proof.
  exists (Record 20 (lit "INFO") (lit "test") (lit "t.py") 7 None None ([27] ++ RED_FG ++ lit "[31mx") [] []), RED_FG,
    (lit "     -.--ns INFO     test                               "), (lit "x").
  split; [reflexivity|]. split; [apply (colour_code_is 31); left; unfold foreground; lia|vm_compute; reflexivity].
Qed.
Print Assumptions C67_strip_refuted.
(** The text of an exception is not stripped. *)
Theorem C67_exception_refuted : exists r k a b, f_strip (mk_formatter true (Some true) false None INone) = true /\ esc_code k /\
  clean (r_msg r) /\ format (mk_formatter true (Some true) false None INone) r = a ++ k ++ b.
Proof.
  exists (Record 40 (lit "ERROR") (lit "test") (lit "t.py") 7 None None (lit "m") (lit "E: " ++ RED_FG ++ lit "x") []), RED_FG,
    (lit "     -.--ns ERROR    test                               m" ++ [10] ++ blanks 56 ++ lit "E: "), (lit "x").
  split; [reflexivity|]. split; [apply (colour_code_is 31); left; unfold foreground; lia|].
  split; [intros [E|[]]; discriminate E|vm_compute; reflexivity].
Qed.
Print Assumptions C67_exception_refuted.
(** The argument [strip_ansi] wins over the module's setting. *)
Theorem C67_setting reduced strip ms prefix i :
  f_strip (mk_formatter reduced strip ms prefix i) = match strip with Some b => b | None => ms end.
Proof. unfold mk_formatter. destruct prefix, i; reflexivity. Qed.
Print Assumptions C67_setting.
Example C67_setting_ex : f_strip (mk_formatter true (Some false) true None INone) = false /\ f_strip (mk_formatter true None true None INone) = true.
Proof. split; reflexivity. Qed.

(** * C68: layout *)

(** A record of several lines is the record as it is without indentation, its lines separated by line feeds, and
    every line but the first preceded by the indentation: the number given, or what the function answers. *)
Theorem C68_lines f r n : f_indent f = IInt n -> n <> 0 -> several_lines r ->
  exists ls, broken (format (with_indent f (IInt 0)) r) ls /\ format f r = indented n ls.
Proof.
  intros I NZ S. destruct (broken_total _ (raw f r) (Nat.lt_succ_diag_r _)) as (ls & B). exists ls. split; [exact B|].
  rewrite format_eq, (proj1 (several_iff r) S), I. apply Z.eqb_neq in NZ. now rewrite NZ, (broken_lines _ _ B).
Qed.
Print Assumptions C68_lines.
Definition two : record := Record 20 (lit "INFO") (lit "n") (lit "t.py") 7 None None (lit "ab" ++ [10] ++ lit "cd") [] [].
Example C68_lines_ex : several_lines two /\ f_indent (mk_formatter true (Some true) false (Some (fun _ _ _ => lit "> ")) (IInt 4)) = IInt 4 /\
  format (mk_formatter true (Some true) false (Some (fun _ _ _ => lit "> ")) (IInt 4)) two = lit "> ab" ++ [10] ++ lit "    cd".
Proof. split; [left; cbn; auto|]. split; reflexivity. Qed.
(** With an indentation function it is given the visible prefix; without any setting that function is the length. *)
Theorem C68_function f r g p : f_indent f = IFun g -> several_lines r -> (forall start fin, codes start -> codes fin -> marked (f_prefix f r start fin) p) ->
  exists ls, broken (format (with_indent f (IInt 0)) r) ls /\ format f r = indented (g p) ls.
Proof.
  intros I S P. destruct (broken_total _ (raw f r) (Nat.lt_succ_diag_r _)) as (ls & B). exists ls. split; [exact B|].
  pose proof (marked_sub _ _ (P _ _ (colour_start_codes f r) (colour_end_codes f r))) as V. unfold colour_start, colour_end in V.
  rewrite format_eq, (proj1 (several_iff r) S), I, (broken_lines _ _ B), V. reflexivity.
Qed.
Print Assumptions C68_function.
Theorem C68_none reduced strip ms p : exists g, f_indent (mk_formatter reduced strip ms (Some p) INone) = IFun g /\
  forall s, g s = Z.of_nat (List.length s).
Proof. eexists. split; reflexivity. Qed.
Print Assumptions C68_none.
Example C68_function_ex : let f := mk_formatter true (Some false) false (Some (fun _ start fin => start ++ lit "> " ++ fin)) INone in
  (exists g, f_indent f = IFun g) /\ several_lines two /\ (forall start fin, codes start -> codes fin -> marked (f_prefix f two start fin) (lit "> ")) /\
  format f two = lit "> ab" ++ [10] ++ lit "  cd" ++ DEFAULT.
Proof.
  cbv zeta. split; [eexists; reflexivity|]. split; [left; cbn; auto|]. split; [|reflexivity].
  intros start fin A B. change (lit "> ") with ([] ++ (lit "> " ++ [])) at 2. apply marked_app; [exact A|].
  apply marked_app; [apply marked_plain; intros [E|[E|[]]]; discriminate E|exact B].
Qed.
(** The lines are in the text in order: a record of one line, or with no indentation, is not changed. *)
Theorem C68_one_line f r : ~ several_lines r -> format f r = format (with_indent f (IInt 0)) r.
Proof. exact (one_line f r). Qed.
Print Assumptions C68_one_line.
Example C68_one_line_ex : ~ several_lines (Record 20 (lit "INFO") (lit "n") (lit "t.py") 7 None None (lit "ab") [] []).
Proof. intros [I|[N|N]]; [|now destruct N..]. cbn in I. repeat (destruct I as [E|I]; [discriminate E|]). destruct I. Qed.
(** A traceback follows the record on lines of its own. *)
Theorem C68_traceback reduced strip ms r e : r_stack r = [] -> e <> [] ->
  format (mk_formatter reduced strip ms None (IInt 0)) (with_exc r e) =
  format (mk_formatter reduced strip ms None (IInt 0)) (with_exc r []) ++ [10] ++ e.
Proof.
  intros ST NE. set (f := mk_formatter reduced strip ms None (IInt 0)).
  change (raw f (with_exc r e) = raw f (with_exc r []) ++ [10] ++ e). rewrite !raw_eq.
  unfold format_exc_info. cbn [r_stack r_exc with_exc]. rewrite ST. destruct e as [|c e]; [now destruct NE|]. rewrite app_nil_r. reflexivity.
Qed.
Print Assumptions C68_traceback.
Example C68_traceback_ex : format (mk_formatter true (Some true) false None INone) (with_exc two (lit "Traceback")) =
  lit "     -.--ns INFO     n                                  ab" ++ [10] ++ blanks 56 ++ lit "cd" ++ [10] ++ blanks 56 ++ lit "Traceback".
Proof. vm_compute. reflexivity. Qed.
(** A stack follows the traceback on lines of its own. *)
Theorem C68_stack reduced strip ms r e t : t <> [] ->
  let f := mk_formatter reduced strip ms None (IInt 0) in
  let shown := format f (with_stack (with_exc r e) t) in
  let head := format f (with_stack (with_exc r []) []) in
  (forall e', e = e' ++ [10] -> shown = head ++ [10] ++ e ++ t) /\
  ((forall e', e <> e' ++ [10]) -> shown = head ++ [10] ++ e ++ [10] ++ t).
Proof.
  intros NT f. change (let shown := raw f (with_stack (with_exc r e) t) in let head := raw f (with_stack (with_exc r []) []) in
    (forall e', e = e' ++ [10] -> shown = head ++ [10] ++ e ++ t) /\ ((forall e', e <> e' ++ [10]) -> shown = head ++ [10] ++ e ++ [10] ++ t)).
  cbv zeta. rewrite !raw_eq. unfold format_exc_info. cbn [r_stack r_exc with_exc with_stack]. destruct t as [|c t]; [now destruct NT|].
  rewrite app_nil_r. split.
  - intros e' ->. unfold ends_lf. rewrite rev_app_distr. cbn [rev app]. change (10 =? 10) with true. cbn [negb].
    destruct ((e' ++ [10]) ++ c :: t) as [|x y] eqn:E; [now destruct e'|]. reflexivity.
  - intro N. assert (ends_lf e = false) as ->.
    { unfold ends_lf. destruct (rev e) as [|x y] eqn:R; [reflexivity|]. destruct (Z.eqb_spec x 10) as [->|]; [|reflexivity].
      exfalso. apply (N (rev y)). rewrite <- (rev_involutive e), R. reflexivity. }
    cbn [negb]. rewrite <- app_assoc. destruct (e ++ [10] ++ c :: t) as [|x y] eqn:E; [now destruct e|]. reflexivity.
Qed.
Print Assumptions C68_stack.
Example C68_stack_ex : format (mk_formatter true (Some true) false (Some (fun _ _ _ => lit "> ")) (IInt 0)) (with_stack (with_exc two (lit "Traceback")) (lit "Stack")) =
  lit "> ab" ++ [10] ++ lit "cd" ++ [10] ++ lit "Traceback" ++ [10] ++ lit "Stack".
Proof. vm_compute. reflexivity. Qed.
(** A negative indentation means the number of characters which the prefix shows: codes do not count. *)
Theorem C68_negative reduced strip ms p n v : n < 0 -> without_codes (p empty_record [] []) v ->
  f_indent (mk_formatter reduced strip ms (Some p) (IInt n)) = IInt (Z.of_nat (List.length v)).
Proof. intros N W. apply C67_sub in W. cbn. destruct (Z.ltb_spec n 0); [now rewrite W|lia]. Qed.
Print Assumptions C68_negative.
Example C68_negative_ex : without_codes (lit "a" ++ [27; 91] ++ lit "31mb") (lit "ab") /\
  f_indent (mk_formatter true None true (Some (fun _ _ _ => lit "a" ++ [27; 91] ++ lit "31mb")) (IInt (-1))) = IInt 2.
Proof. split; [apply C67_sub|]; reflexivity. Qed.
(** The default format: the message begins in the column which the other lines are indented to, when the fields have
    room: times below 1 ms, level names of at most eight characters, line numbers below 10000; names of any length. *)
Theorem C68_columns reduced strip ms r start fin : clean_record r -> fits r -> codes start -> codes fin ->
  exists v, f_indent (mk_formatter reduced strip ms None INone) = IInt (Z.of_nat (List.length v)) /\
    marked (f_prefix (mk_formatter reduced strip ms None INone) r start fin) v.
Proof.
  intros C F S E. destruct (default_prefix_parts reduced r C) as (a & b & c & A & B & CC & EQ & L). exists (a ++ b ++ c).
  rewrite indent_default, (L F). split; [reflexivity|].
  change (f_prefix (mk_formatter reduced strip ms None INone)) with (default_prefix reduced). rewrite EQ. now apply parts_marked.
Qed.
Print Assumptions C68_columns.
Example C68_columns_ex : clean_record info /\ fits info.
Proof. repeat split; cbn; unfold clean; cbn; lia. Qed.
(** From 1 ms on the default lines are not aligned, although the code says that the length is fixed. *)
Theorem C68_columns_refuted : exists r v, clean_record r /\ r_time r = Some (lit "1000000.00") /\
  marked (f_prefix (mk_formatter true (Some true) false None INone) r [] []) v /\
  f_indent (mk_formatter true (Some true) false None INone) <> IInt (Z.of_nat (List.length v)).
Proof.
  set (r := Record 20 (lit "INFO") (lit "n") (lit "t.py") 7 None (Some (lit "1000000.00")) [] [] []).
  exists r, (default_prefix true r [] []). split; [repeat split; cbn; unfold clean; cbn; lia|]. split; [reflexivity|].
  split; [apply marked_plain; vm_compute; intro I; repeat (destruct I as [E|I]; [discriminate E|]); destruct I|].
  vm_compute. discriminate.
Qed.
Print Assumptions C68_columns_refuted.
(** [ljust] and [rjust] make a text of exactly [c] characters, cutting it on the left, for [c] of at least three. *)
Theorem C68_just s c : 3 <= c ->
  Z.of_nat (List.length (log_ljust s c)) = c /\ Z.of_nat (List.length (log_rjust s c)) = c /\
  (Z.of_nat (List.length s) <= c -> exists pad, Forall (eq 32) pad /\ log_ljust s c = s ++ pad /\ log_rjust s c = pad ++ s) /\
  (c < Z.of_nat (List.length s) -> exists cut kept, s = cut ++ kept /\ log_ljust s c = lit ".." ++ kept /\ log_rjust s c = lit ".." ++ kept).
Proof.
  intro C. split; [now apply ljust_len|]. split; [now apply rjust_len|]. unfold log_ljust, log_rjust. split; intro L.
  - destruct (Z.ltb_spec c (Z.of_nat (List.length s))); [lia|]. exists (blanks (c - Z.of_nat (List.length s))).
    split; [apply Forall_forall; intros x I; now apply repeat_spec in I|]. split; reflexivity.
  - destruct (Z.ltb_spec c (Z.of_nat (List.length s))); [|lia]. unfold slice_from. destruct (Z.ltb_spec ((c - 2) * -1) 0); [|lia].
    eexists (firstn _ s), (skipn _ s). split; [symmetry; apply firstn_skipn|]. split; reflexivity.
Qed.
Print Assumptions C68_just.
Example C68_just_ex : log_ljust (lit "cocotb.dut.sub") 10 = lit "...dut.sub" /\ log_rjust (lit "sub") 5 = lit "  sub".
Proof. split; reflexivity. Qed.
(** For smaller widths the text becomes longer than it was. *)
Theorem C68_just_refuted : exists s c, 0 <= c /\ c < Z.of_nat (List.length s) /\
  Z.of_nat (List.length s) < Z.of_nat (List.length (log_ljust s c)).
Proof. exists (lit "abc"), 2. vm_compute. repeat split; discriminate. Qed.
Print Assumptions C68_just_refuted.
(** A final line feed of the message makes another line when the record is coloured, and none when it is stripped. *)
Theorem C68_trailing_refuted : exists r a b, clean (r_msg r) /\ format (mk_formatter true (Some true) false None INone) r = a /\
  marked (format (mk_formatter true (Some false) false None INone) r) b /\ a <> b.
Proof.
  set (r := Record 20 (lit "INFO") (lit "n") (lit "t.py") 7 None None (lit "x" ++ [10]) [] []).
  exists r, (lit "     -.--ns INFO     n                                  x"),
    (lit "     -.--ns INFO     n                                  x" ++ [10] ++ blanks 56).
  split; [unfold clean; cbn; lia|]. split; [vm_compute; reflexivity|]. split; [|vm_compute; discriminate].
  replace (format (mk_formatter true (Some false) false None INone) r) with
    ((lit "     -.--ns INFO     n                                  x" ++ [10] ++ blanks 56) ++ DEFAULT) by (vm_compute; reflexivity).
  rewrite <- (app_nil_r (lit "     -.--ns INFO     n                                  x" ++ [10] ++ blanks 56)) at 2.
  apply marked_app; [|exact default_codes]. apply marked_plain. vm_compute. intro I. repeat (destruct I as [E|I]; [discriminate E|]). destruct I.
Qed.
Print Assumptions C68_trailing_refuted.

(** * C69: colours *)

(** Colours change nothing of the visible text: it is the text of the stripped record. *)
Theorem C69_text f f' r p m : f_strip f = false -> f_strip f' = true -> f_prefix f = f_prefix f' -> ~ several_lines r ->
  (forall start fin, codes start -> codes fin -> marked (f_prefix f r start fin) p) -> marked (r_msg r) m ->
  marked (format f r) (format f' r).
Proof.
  intros S S' E N P M. rewrite (strip_text f' r p m S' N); [now apply colour_text| |exact M]. rewrite <- E. apply P; constructor.
Qed.
Print Assumptions C69_text.
Example C69_text_ex : let f := mk_formatter true (Some false) false None INone in
  (forall start fin, codes start -> codes fin -> marked (f_prefix f info start fin) (f_prefix f info [] [])) /\ marked (r_msg info) (lit "x") /\
  format f info = lit "    10.00ns INFO     test                               " ++ RED_FG ++ lit "x" ++ DEFAULT ++ DEFAULT.
Proof.
  cbv zeta. split; [|split; [exact red_x|vm_compute; reflexivity]]. intros start fin S F.
  destruct (default_prefix_parts true info (proj1 C68_columns_ex)) as (a & b & c & A & B & C & EQ & _).
  change (f_prefix (mk_formatter true (Some false) false None INone)) with (default_prefix true). rewrite !EQ. change (a ++ [] ++ b ++ [] ++ c) with (a ++ b ++ c). now apply parts_marked.
Qed.
(** Without a traceback a coloured record ends with the return to the default, and the terminal is left so. *)
Theorem C69_reset f r : f_strip f = false -> r_exc r = [] -> r_stack r = [] ->
  (exists x, format f r = x ++ DEFAULT) /\ forall st l st', shows st (format f r) l st' -> st' = plain.
Proof.
  intros S E1 E2. destruct (format_ends f r S E1 E2) as (x & E). split; [now exists x|].
  intros st l st' H. exact (shows_end _ _ _ _ H x E).
Qed.
Print Assumptions C69_reset.
Example C69_reset_ex : exists l, shows (31, 49) (format (mk_formatter true (Some false) false (Some (fun _ _ _ => [])) INone) info) l plain.
Proof.
  eexists. change (format _ info) with (colour_code 31 ++ lit "x" ++ DEFAULT ++ DEFAULT).
  apply SFg; [left; lia|]. eapply shows_app; [apply shows_plain; intros [E|[]]; discriminate E|].
  eapply shows_app; [apply shows_default|]. rewrite <- (app_nil_r DEFAULT). eapply shows_app; [apply shows_default|constructor].
Qed.
(** The message of a record of the default format is shown as its author meant it, where the default is the colour of
    the level: for levels without colour, for CRITICAL, and for messages which set no background. *)
Theorem C69_level f reduced r items : f_prefix f = default_prefix reduced -> f_strip f = false -> clean_record r ->
  ~ several_lines r -> r_msg r = written items -> Forall proper items ->
  level_style (r_levelno r) = None \/ r_levelno r = 50 \/ no_background items ->
  let base := match level_style (r_levelno r) with Some b => b | None => plain end in
  exists lp, map fst lp = default_prefix reduced r [] [] /\ shows plain (format f r) (lp ++ meant base base items) plain.
Proof. exact (shown_record f reduced r items). Qed.
Print Assumptions C69_level.
Definition warning (m : list item) : record := Record 30 (lit "WARNING") (lit "n") (lit "t.py") 7 None None (written m) [] [].
Example C69_level_ex : let items := [Char 97; Fg 31; Char 98; Dflt; Char 99] in
  f_prefix (mk_formatter true (Some false) false None INone) = default_prefix true /\ clean_record (warning items) /\ ~ several_lines (warning items) /\
  Forall proper items /\ no_background items /\ meant (33, 49) (33, 49) items = [(97, (33, 49)); (98, (31, 49)); (99, (33, 49))].
Proof.
  cbv zeta. split; [reflexivity|]. split; [repeat split; cbn; unfold clean; cbn; lia|]. split.
  - intros [I|[N|N]]; [|now destruct N..]. vm_compute in I. repeat (destruct I as [E|I]; [discriminate E|]). destruct I.
  - split; [repeat constructor; cbn; unfold foreground; lia|]. split; [|reflexivity].
    intros n I. cbn in I. repeat (destruct I as [E|I]; [discriminate E|]). destruct I.
Qed.
Lemma after_default st s l st' : shows plain s l st' -> shows st (DEFAULT ++ s) l st'.
Proof. intro H. exact (shows_app st DEFAULT [] plain s l st' (shows_default st) H). Qed.
(** Otherwise a background stays: at WARNING and ERROR the return to the default only sets the foreground. *)
Theorem C69_level_refuted : exists items lp l, Forall proper items /\
  shows plain (format (mk_formatter true (Some false) false None INone) (warning items)) (lp ++ l) plain /\
  map fst lp = default_prefix true (warning items) [] [] /\ map fst l = map fst (meant (33, 49) (33, 49) items) /\
  l <> meant (33, 49) (33, 49) items /\ In (121, (33, 42)) l.
Proof.
  exists [Bg 42; Char 120; Dflt; Char 121].
  exists (map (fun c => (c, plain)) (lit "     -.--ns ") ++ map (fun c => (c, (33, 49))) (lit "WARNING ") ++ map (fun c => (c, plain)) (lit " n                                  ")),
    [(120, (33, 42)); (121, (33, 42))].
  split; [repeat constructor; cbn; unfold background; lia|]. split.
  - replace (format _ _) with (lit "     -.--ns " ++ colour_code 33 ++ lit "WARNING " ++ DEFAULT ++ lit " n                                  "
      ++ colour_code 33 ++ colour_code 42 ++ lit "x" ++ colour_code 33 ++ lit "y" ++ DEFAULT) by (vm_compute; reflexivity).
    rewrite <- !app_assoc. eapply shows_app; [apply shows_plain; vm_compute; intro I; repeat (destruct I as [E|I]; [discriminate E|]); destruct I|].
    apply SFg; [unfold foreground; lia|]. eapply shows_app; [apply shows_plain; vm_compute; intro I; repeat (destruct I as [E|I]; [discriminate E|]); destruct I|].
    apply after_default.
    eapply shows_app; [apply shows_plain; vm_compute; intro I; repeat (destruct I as [E|I]; [discriminate E|]); destruct I|].
    apply SFg; [unfold foreground; lia|]. apply SBg; [unfold background; lia|]. apply SChar; [discriminate|].
    apply SFg; [unfold foreground; lia|]. apply SChar; [discriminate|]. apply shows_default.
  - split; [vm_compute; reflexivity|]. split; [reflexivity|]. split; [discriminate|right; left; reflexivity].
Qed.
Print Assumptions C69_level_refuted.

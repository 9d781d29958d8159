(** Property theorems C83 (interface libraries) and C84 (the summary table). *)
From Verif Require Import Base TextModel ToolsSpec XmlModel LogModel SummaryModel SummarySpec SummaryProofs.
From Coq Require Import String QArith.
Open Scope Z_scope.

(** * C83 *)
(** The path of a library: the interface in any case, the simulator in small letters. *)
Theorem C83_path nt msvc dir i i' s l : In i' interfaces -> same_word i (lit i') -> served_by s l ->
  lib_name_path nt msvc dir i (lit s) = Ok (dir ++ lit "/" ++ library_file nt msvc i' l).
Proof. exact (path_pf nt msvc dir i i' s l). Qed.
Print Assumptions C83_path.
Theorem C83_path_wrong nt msvc dir i s :
  (forall i', In i' interfaces -> ~ same_word i (lit i')) \/ (forall s' l, served_by s' l -> s <> lit s') ->
  lib_name_path nt msvc dir i s = Err ValueError.
Proof. exact (path_wrong_pf nt msvc dir i s). Qed.
Print Assumptions C83_path_wrong.
(** The library with its entry function: both in any case. *)
Theorem C83_entry nt msvc dir i i' s s' l : In i' interfaces -> same_word i (lit i') -> served_by s' l -> same_word s (lit s') ->
  lib_entry nt msvc dir i s =
  Ok (dir ++ lit "/" ++ library_file nt msvc i' l ++ match must_name i' s' with None => [] | Some f => lit ":" ++ lit f end).
Proof. exact (entry_pf nt msvc dir i i' s s' l). Qed.
Print Assumptions C83_entry.
Theorem C83_entry_wrong nt msvc dir i s :
  (forall i', In i' interfaces -> ~ same_word i (lit i')) \/ (forall s' l, served_by s' l -> ~ same_word s (lit s')) ->
  lib_entry nt msvc dir i s = Err ValueError.
Proof. exact (entry_wrong_pf nt msvc dir i s). Qed.
Print Assumptions C83_entry_wrong.
Example C83_ex :
  same_word (lit "VPI") (lit "vpi") /\ served_by "xcelium" "ius" /\
  lib_entry false false (lit "/libs") (lit "VPI") (lit "Xcelium") = Ok (lit "/libs/libcocotbvpi_ius.so:vlog_startup_routines_bootstrap") /\
  lib_name_path true true (lit "C:/libs") (lit "VHPI") (lit "riviera") = Ok (lit "C:/libs/cocotbvhpi_aldec.dll") /\
  lib_name_path false false (lit "/libs") (lit "pli") (lit "riviera") = Err ValueError.
Proof.
  split; [|split; [constructor|split; [|split]; vm_compute; reflexivity]].
  unfold same_word. cbn. repeat (constructor; [unfold same_letter; lia|]). constructor.
Qed.
(** It is false that the simulator is taken in any case as the interface is: [lib_name_path] compares the name as written,
    although it makes a copy in small letters, and although [lib_entry] accepts it. *)
Theorem C83_case_refuted : exists i s, same_word s (lit "questa") /\
  (forall nt msvc dir, exists p, lib_entry nt msvc dir i s = Ok p) /\
  (forall nt msvc dir, lib_name_path nt msvc dir i s = Err ValueError).
Proof.
  exists (lit "vpi"), (lit "Questa"). split; [|split].
  - unfold same_word. cbn. repeat (constructor; [unfold same_letter; lia|]). constructor.
  - intros nt msvc dir. eexists. reflexivity.
  - reflexivity.
Qed.
Print Assumptions C83_case_refuted.
(** Every look-up of the runners names a library which is built (for Linux), by its file name. *)
Theorem C83_built b i s : In (b, i, s) runner_lookups -> exists lib, In (i, lib) (built_everywhere ++ built_posix) /\ forall dir,
  exists rest, (if b then lib_entry false false dir i s else lib_name_path false false dir i s) =
    Ok (dir ++ lit "/" ++ built_name (i, lib) ++ rest) /\ (b = false -> rest = []).
Proof.
  intro H.
  assert (F : Forall (fun x => let '(b, i, s) := x in exists lib, In (i, lib) (built_everywhere ++ built_posix) /\ forall dir,
     exists rest, (if b : bool then lib_entry false false dir i s else lib_name_path false false dir i s) =
      Ok (dir ++ lit "/" ++ built_name (i, lib) ++ rest) /\ (b = false -> rest = [])) runner_lookups).
  { clear H. unfold runner_lookups.
    assert (S : forall (b : bool) (i s lib : string) rest,
      existsb (fun x => pystr_eqb (fst x) (lit i) && pystr_eqb (snd x) (lit lib)) (built_everywhere ++ built_posix) = true ->
      (forall dir, (if b then lib_entry false false dir (lit i) (lit s) else lib_name_path false false dir (lit i) (lit s)) =
                   Ok (dir ++ lit "/" ++ built_name (lit i, lit lib) ++ rest)) -> (b = false -> rest = []) ->
      exists lib, In (lit i, lib) (built_everywhere ++ built_posix) /\ forall dir, exists rest,
        (if b then lib_entry false false dir (lit i) (lit s) else lib_name_path false false dir (lit i) (lit s)) =
        Ok (dir ++ lit "/" ++ built_name (lit i, lib) ++ rest) /\ (b = false -> rest = [])).
    { intros b0 i0 s0 lib rest E R Z. exists (lit lib). split; [|intro dir; exists rest; split; [apply R|exact Z]].
      apply existsb_exists in E. destruct E as ([x y] & I & E). apply andb_true_iff in E. destruct E as [E1 E2].
      cbn [fst snd] in E1, E2. apply pystr_eqb_eq in E1. apply pystr_eqb_eq in E2. subst x y. exact I. }
    repeat apply Forall_cons; try apply Forall_nil.
    - apply (S true "vpi" "icarus" "icarus" [])%string; [vm_compute; reflexivity|reflexivity|auto].
    - apply (S true "vpi" "questa" "modelsim" [])%string; [vm_compute; reflexivity|reflexivity|auto].
    - apply (S true "vpi" "ghdl" "ghdl" [])%string; [vm_compute; reflexivity|reflexivity|auto].
    - apply (S true "vhpi" "nvc" "nvc" [])%string; [vm_compute; reflexivity|reflexivity|auto].
    - apply (S true "vpi" "riviera" "aldec" [])%string; [vm_compute; reflexivity|reflexivity|auto].
    - apply (S true "vhpi" "riviera" "aldec" (lit ":vhpi_startup_routines_bootstrap"))%string; [vm_compute; reflexivity| |discriminate].
      intro dir. change (Ok ((dir ++ lit "/libcocotbvhpi_aldec.so") ++ lit ":vhpi_startup_routines_bootstrap") =
        Ok (dir ++ lit "/libcocotbvhpi_aldec.so:vhpi_startup_routines_bootstrap")). rewrite <- app_assoc. reflexivity.
    - apply (S true "vpi" "xcelium" "ius" (lit ":vlog_startup_routines_bootstrap"))%string; [vm_compute; reflexivity| |discriminate].
      intro dir. change (Ok ((dir ++ lit "/libcocotbvpi_ius.so") ++ lit ":vlog_startup_routines_bootstrap") =
        Ok (dir ++ lit "/libcocotbvpi_ius.so:vlog_startup_routines_bootstrap")). rewrite <- app_assoc. reflexivity.
    - apply (S true "vpi" "vcs" "vcs" [])%string; [vm_compute; reflexivity|reflexivity|auto].
    - apply (S true "vpi" "dsim" "dsim" [])%string; [vm_compute; reflexivity|reflexivity|auto].
    - apply (S false "fli" "questa" "modelsim" [])%string; [vm_compute; reflexivity|reflexivity|auto].
    - apply (S false "vhpi" "questa" "modelsim" [])%string; [vm_compute; reflexivity|reflexivity|auto].
    - apply (S false "vpi" "questa" "modelsim" [])%string; [vm_compute; reflexivity|reflexivity|auto].
    - apply (S false "vhpi" "riviera" "aldec" [])%string; [vm_compute; reflexivity|reflexivity|auto].
    - apply (S false "vhpi" "xcelium" "ius" [])%string; [vm_compute; reflexivity|reflexivity|auto]. }
  exact (proj1 (Forall_forall _ _) F _ H).
Qed.
Print Assumptions C83_built.
Example C83_built_ex : In (true, lit "vpi", lit "xcelium") runner_lookups /\ List.length runner_lookups = 14%nat.
Proof. split; [cbn; auto 20|reflexivity]. Qed.
(** It is false that a path is only given for a library which is built: the pair is not checked. *)
Theorem C83_unbuilt_refuted : exists i s p, lib_name_path false false [] i s = Ok p /\
  forall b, In b (built_everywhere ++ built_posix) -> p <> lit "/" ++ built_name b.
Proof.
  exists (lit "fli"), (lit "icarus"), (lit "/libcocotbfli_icarus.so"). split; [reflexivity|]. intros b H.
  assert (F : forallb (fun b => negb (pystr_eqb (lit "/libcocotbfli_icarus.so") (lit "/" ++ built_name b))) (built_everywhere ++ built_posix) = true)
    by (vm_compute; reflexivity).
  rewrite forallb_forall in F. specialize (F b H). apply negb_true_iff in F. intro E. rewrite <- E, pystr_eqb_refl in F. discriminate F.
Qed.
Print Assumptions C83_unbuilt_refuted.

(** * C84 *)
(** The table: frames, header, one line for each result in order, the totals; the width is the least which holds every
    name; the frames and the header have this width; if colours are on, lines differ by the two codes only. *)
Theorem C84_table fmt strip total passed failures skipped xfailed sim real l (xfail : bool) : l <> [] ->
  let name := totals total passed failures skipped ++ (if xfail then lit " XFAIL=" ++ py_str_int xfailed else []) in
  exists w sep head plain rows last,
    log_test_summary fmt strip xfail total passed failures skipped xfailed sim real l =
      Some (flat_map (fun t => t ++ [10]) ([sep; head; sep] ++ rows ++ [sep; last; sep])) /\
    (4 <= w /\ zlen name <= w /\ Forall (fun r => zlen (t_name r) <= w) l /\
     (w = 4 \/ w = zlen name \/ Exists (fun r => zlen (t_name r) = w) l)) /\
    sep = repeat 42 (Z.to_nat (w + 58)) /\
    (zlen head = w + 58 /\ shown_at head (lit "TEST") 3 /\ shown_at head (lit "STATUS") (w + 5) /\
     ends_at head (lit "SIM TIME (ns)") (w + 26) /\ ends_at head (lit "REAL TIME (s)") (w + 41) /\ ends_at head (lit "RATIO (ns/s)") (w + 55)) /\
    Forall2 (row_shows fmt w) l plain /\
    (if strip then rows = plain
     else Forall2 (fun r x => coloured (fst x) (snd x) (colour_of (t_outcome r)) no_colour) l (List.combine plain rows) /\
          List.length rows = List.length l) /\
    (shown_at last name 3 /\ cells last [name; fmt (FVal sim); fmt (FVal real); fmt (safe_divide sim real)] /\
     zlen last = w + 58 + excess (fmt (FVal sim)) 12 + excess (fmt (FVal real)) 12 + excess (fmt (safe_divide sim real)) 11).
Proof.
  intros N name0.
  destruct (table_pf fmt strip xfail total passed failures skipped xfailed sim real l N)
    as (w & sep & head & rows & last & T & S & SL & HL & RL & (W4 & WN & WF & WE) & R & LA & HE).
  assert (NE : total_name total passed failures skipped xfailed xfail = name0).
  { unfold name0, total_name, totals. rewrite <- !app_assoc. reflexivity. }
  rewrite NE in *. exists w, sep, head, (map (result_line fmt true w) l), rows, last.
  split; [exact T|]. split; [auto|]. split; [exact S|]. split; [|split; [|split]].
  - subst head. split; [exact HL|]. unfold header_line, pad_right.
    assert (B : forall n, zlen (blanks n) = Z.max 0 n) by exact zlen_blanks.
    split; [eexists (lit "** "), _; split; [rewrite <- !app_assoc; reflexivity|reflexivity]|].
    split; [|split; [|split]].
    + eexists (lit "** " ++ lit "TEST" ++ blanks (w - Z.of_nat (List.length (lit "TEST"))) ++ lit "  "), _.
      split; [rewrite <- !app_assoc; reflexivity|]. rewrite !zlen_app, B. change (zlen (lit "** ")) with 3. change (zlen (lit "TEST")) with 4.
      change (Z.of_nat (List.length (lit "TEST"))) with 4. change (zlen (lit "  ")) with 2. lia.
    + eexists (lit "** " ++ lit "TEST" ++ blanks (w - Z.of_nat (List.length (lit "TEST"))) ++ lit "  STATUS  "), _.
      split; [rewrite <- !app_assoc; reflexivity|]. rewrite !zlen_app, B. change (zlen (lit "** ")) with 3. change (zlen (lit "TEST")) with 4.
      change (Z.of_nat (List.length (lit "TEST"))) with 4. change (zlen (lit "  STATUS  ")) with 10. change (zlen (lit "SIM TIME (ns)")) with 13. lia.
    + eexists (lit "** " ++ lit "TEST" ++ blanks (w - Z.of_nat (List.length (lit "TEST"))) ++ lit "  STATUS  SIM TIME (ns)  "), _.
      split; [rewrite <- !app_assoc; reflexivity|]. rewrite !zlen_app, B. change (zlen (lit "** ")) with 3. change (zlen (lit "TEST")) with 4.
      change (Z.of_nat (List.length (lit "TEST"))) with 4. change (zlen (lit "  STATUS  SIM TIME (ns)  ")) with 25. change (zlen (lit "REAL TIME (s)")) with 13. lia.
    + eexists (lit "** " ++ lit "TEST" ++ blanks (w - Z.of_nat (List.length (lit "TEST"))) ++ lit "  STATUS  SIM TIME (ns)  REAL TIME (s)  "), _.
      split; [rewrite <- !app_assoc; reflexivity|]. rewrite !zlen_app, B. change (zlen (lit "** ")) with 3. change (zlen (lit "TEST")) with 4.
      change (Z.of_nat (List.length (lit "TEST"))) with 4. change (zlen (lit "  STATUS  SIM TIME (ns)  REAL TIME (s)  ")) with 40. change (zlen (lit "RATIO (ns/s)")) with 12. lia.
  - assert (RS : forall r, ratio_shown fmt r = ratio_text fmt r).
    { intro r. unfold ratio_shown, ratio_text, ratio, safe_divide. destruct (t_outcome r); try reflexivity; destruct (Qeq_bool (t_wall r) 0); reflexivity. }
    clear -WF RS. induction WF as [|r l A F IH]; cbn [map]; constructor; [|exact IH]. unfold row_shows. rewrite RS.
    destruct (row_pf fmt w r A) as (X & Y & V & U). split; [exact X|]. split; [exact Y|]. split; [exact (word_place_pf fmt w r A)|].
    split; [exact (row_cells_pf fmt w r)|]. intro FT.
    destruct (U FT) as (_ & U1 & U2 & U3). split; [exact U1|]. split; [exact U2|].
    replace (ratio_text fmt r) with (if match t_outcome r with OSkip => true | _ => false end then lit "-.--" else fmt (safe_divide (t_sim r) (t_wall r)))
      by (unfold ratio_text, ratio; destruct (t_outcome r); reflexivity). exact U3.
  - destruct strip.
    + clear -R. induction R as [|r row l rows X R IH]; [reflexivity|]. cbn [map]. rewrite X, IH. reflexivity.
    + split; [|exact RL]. clear -R. induction R as [|r row l rows X R IH]; cbn [map List.combine]; constructor; [|exact IH].
      cbn [fst snd]. rewrite X. replace (colour_of (t_outcome r)) with (hilite (t_outcome r)) by (destruct (t_outcome r); reflexivity).
      exact (colours_pf fmt w r).
  - subst last. split.
    + unfold test_line, pad_right. eexists (lit "** "), _. split; [rewrite <- !app_assoc; reflexivity|reflexivity].
    + split; [exact (total_cells_pf w name0 _ _ _)|]. apply test_line_len; [exact WN|vm_compute; discriminate].
Qed.
Print Assumptions C84_table.
Theorem C84_empty fmt strip xfail total passed failures skipped xfailed sim real :
  log_test_summary fmt strip xfail total passed failures skipped xfailed sim real [] = None.
Proof. reflexivity. Qed.
Print Assumptions C84_empty.
Definition ex_fmt (x : fnum) : pystr :=
  match x with FVal q => if Qeq_bool q 1000000000 then lit "1000000000.00" else lit "12.50" | FNan => lit "nan" | FInf => lit "inf" end.
Example C84_ex :
  fits ex_fmt (TestRes (lit "pkg.test_a") OPass (1 # 2) 25) /\
  log_test_summary ex_fmt true false 2 1 0 1 0 25 (1 # 2) [TestRes (lit "pkg.test_a") OPass (1 # 2) 25; TestRes (lit "pkg.skipped") OSkip 0 0] =
  Some (flat_map (fun t => lit t ++ [10])
   (["**************************************************************************************";
    "** TEST                          STATUS  SIM TIME (ns)  REAL TIME (s)  RATIO (ns/s) **";
    "**************************************************************************************";
    "** pkg.test_a                     PASS          12.50          12.50         12.50  **";
    "** pkg.skipped                    SKIP          12.50          12.50          -.--  **";
    "**************************************************************************************";
    "** TESTS=2 PASS=1 FAIL=0 SKIP=1                 12.50          12.50         12.50  **";
    "**************************************************************************************"]%string)).
Proof. split; [repeat split; vm_compute; discriminate|vm_compute; reflexivity]. Qed.
(** It is false that all lines are equally long: a second of simulated time has too many digits for its column. *)
Theorem C84_width_refuted : exists r, t_sim r == 1000000000 /\
  zlen (result_line ex_fmt true 10 r) <> zlen (header_line 10).
Proof. exists (TestRes (lit "test_long") OPass 1 1000000000). split; [reflexivity|]. vm_compute. discriminate. Qed.
Print Assumptions C84_width_refuted.
(** The ratio never raises; a time of 0 in the denominator gives infinity, with 0 above not a number. *)
Theorem C84_ratio a b : (~ b == 0 -> exists q, safe_divide a b = FVal q /\ q * b == a) /\
  (b == 0 -> a == 0 -> safe_divide a b = FNan) /\ (b == 0 -> ~ a == 0 -> safe_divide a b = FInf).
Proof.
  unfold safe_divide. split; [|split].
  - intro N. destruct (Qeq_bool b 0) eqn:E; [apply Qeq_bool_iff in E; contradiction|]. exists (a / b)%Q. split; [reflexivity|].
    field. exact N.
  - intros B A. rewrite (proj2 (Qeq_bool_iff b 0) B), (proj2 (Qeq_bool_iff a 0) A). reflexivity.
  - intros B A. rewrite (proj2 (Qeq_bool_iff b 0) B). destruct (Qeq_bool a 0) eqn:E; [apply Qeq_bool_iff in E; contradiction|reflexivity].
Qed.
Print Assumptions C84_ratio.
Example C84_ratio_ex : ~ (1 # 2) == 0 /\ safe_divide 25 (1 # 2) = FVal (25 / (1 # 2)) /\ safe_divide 3 0 = FInf.
Proof. split; [discriminate|split; vm_compute; reflexivity]. Qed.

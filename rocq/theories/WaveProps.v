(** * C93: wave files are written where the runner says *)
From Verif Require Import Base TextModel ToolsModel ToolsSpec ToolsProofs QuoteModel QuoteSpec QuoteProofs RunnerModel BuildModel WaveModel WaveSpec WaveProofs.
From Coq Require Import String.
Open Scope Z_scope.

(** GHDL, NVC and DSim: asking for waves adds one argument to the command, which names the file that the runner attaches and shows;
    nothing else changes. *)
Theorem C93_named s m t on off e : In s [Ghdl; Nvc; Dsim] -> t_gui t = false ->
  test_command s m (with_waves t true) = BOk ([on], e) -> test_command s m (with_waves t false) = BOk ([off], e) ->
  exists f a b, waves_file s t = Some f /\ on = a ++ [wave_option s ++ f] ++ b /\ off = a ++ b.
Proof.
  intros I G. cbn [In] in I. destruct I as [<-|[<-|[<-|[]]]]; cbn [test_command].
  - unfold ghdl_test, no_pre, with_waves. cbn [t_pre t_timescale t_library t_args t_toplevel t_plus t_parameters t_waves t_gui t_build].
    destruct (t_pre t); [discriminate|]. match goal with |- bbind ?x _ = _ -> _ => destruct x as [res|]; [|discriminate] end. cbn [bbind].
    rewrite G. cbn [orb]. intros [= <- <-] [= <-].
    exists (t_toplevel t ++ lit ".ghw"). eexists (m_prefix m ++ [lit "ghdl"; lit "-r"] ++ [lit "--work=" ++ t_library t] ++ t_args t ++ res ++ [t_toplevel t]
      ++ [lit "--vpi=" ++ m_lib m "vpi" "ghdl"] ++ t_plus t ++ assigned (lit "-g") (t_parameters t)), (m_suffix m).
    split; [reflexivity|]. rewrite <- ?app_assoc. cbn [app]. repeat (rewrite <- app_assoc; cbn [app]). split; reflexivity.
  - unfold nvc_test, with_waves. cbn [t_pre t_elab t_library t_args t_toplevel t_plus t_parameters t_waves t_gui t_build]. rewrite G. cbn [orb].
    intros [= <- <-] [= <-].
    exists (t_toplevel t ++ lit ".fst"). eexists (m_prefix m ++ [lit "nvc"; lit "--work=" ++ t_library t ++ lit ":" ++ slash (b_dir (t_build t)) (t_library t); lit "-L"; b_dir (t_build t)]
      ++ values (b_args (t_build t)) ++ [lit "-e"; t_toplevel t; lit "--no-save"; lit "--jit"] ++ t_elab t
      ++ assigned (lit "-g") (t_parameters t) ++ [lit "-r"] ++ t_args t ++ [lit "--load=" ++ m_lib m "vhpi" "nvc"] ++ t_plus t), (m_suffix m).
    split; [reflexivity|]. rewrite <- ?app_assoc. cbn [app]. repeat (rewrite <- app_assoc; cbn [app]). split; reflexivity.
  - unfold dsim_test, no_pre, with_waves. cbn [t_pre t_timescale t_args t_plus t_waves t_gui t_build]. destruct (t_pre t); [discriminate|].
    rewrite G. cbn [orb]. intros [= <- <-] [= <-].
    exists (lit "file.vcd"). eexists ([lit "dsim"; lit "-work"; b_dir (t_build t); lit "-pli_lib"; m_lib m "vpi" "dsim"; lit "+acc+rwcbfsWF"; lit "-image"; lit "image"]
      ++ t_args t ++ t_plus t), _.
    split; [reflexivity|]. rewrite <- ?app_assoc. cbn [app]. repeat (rewrite <- app_assoc; cbn [app]). split; reflexivity.
Qed.
Print Assumptions C93_named.
Definition ex_exe := Exe true true (lit "dump.vcd").
Definition ex_mach := Machine (fun _ => None) [lit "time"] [lit "-x"] (fun i s => lit "/libs/" ++ lit i ++ lit "_" ++ lit s)
  (fun _ => true) (Some (lit "/bin/verilator")) (lit "/libs") (lit "/v.cpp") (lit "4") true false (lit "/tmp/do").
Definition ex_b (waves : bool) (args : list (pystr * option tag)) := BuildIn (lit "top") [(lit "/s/a.sv", TVerilog)] [] [] [] []
  [] args (Some (lit "dut")) false false None waves (lit "/d").
Definition ex_t (dir : string) b := TestIn (lit "dut") (lit "top") false ["vpi"]%string [] [lit "-a"] [lit "+p"] true false false None None
  [] (lit dir) (lit "test") b.
Example C93_named_ex : exists on off, test_command Ghdl ex_mach (with_waves (ex_t "/t" (ex_b true [])) true) = BOk ([on], []) /\
  test_command Ghdl ex_mach (with_waves (ex_t "/t" (ex_b true [])) false) = BOk ([off], []) /\ In (lit "--wave=dut.ghw") on.
Proof. eexists _, _. split; [vm_compute; reflexivity|]. split; [vm_compute; reflexivity|]. vm_compute. intuition auto 20. Qed.

(** The program made by Verilator. Arguments which it does not know are passed over; unless there is an argument --trace-file or
    --help, it writes the default file exactly if there is an argument --trace; --trace-file gives another name. *)
Theorem C93_main e args : e_trace e = true -> tame (e_coverage e) args ->
  opened e (verilator_main e args) = if existsb (pystr_eqb (lit "--trace")) args then Some (e_file e) else None.
Proof.
  intros T H. destruct (tame_pf e args H T (Vars false false false (e_file e))) as (w & A & B & C). unfold verilator_main, opened.
  rewrite A, T, C, B. reflexivity.
Qed.
Print Assumptions C93_main.
Theorem C93_main_file e a f b : e_trace e = true -> foreign a -> tame (e_coverage e) b ->
  opened e (verilator_main e (a ++ lit "--trace" :: lit "--trace-file" :: f :: b)) = Some f.
Proof.
  intros T F H. unfold verilator_main. rewrite foreign_pf by exact F. cbn [main_args].
  change (pystr_eqb (lit "--trace") (lit "--coverage-per-instance")) with false. change (pystr_eqb (lit "--trace") (lit "--trace")) with true.
  rewrite T. cbn [main_args traceOn traceFlush coveragePerInstance traceFile].
  change (pystr_eqb (lit "--trace-file") (lit "--coverage-per-instance")) with false. change (pystr_eqb (lit "--trace-file") (lit "--trace")) with false.
  change (pystr_eqb (lit "--trace-file") (lit "--trace-flush")) with false. change (pystr_eqb (lit "--trace-file") (lit "--trace-file")) with true. cbv iota.
  destruct (tame_pf e b H T (Vars true false false f)) as (w & A & B & C). cbn [traceOn traceFlush coveragePerInstance traceFile] in *.
  rewrite A. unfold opened. rewrite T, C, B. reflexivity.
Qed.
Print Assumptions C93_main_file.
(** Without support for traces, --trace ends the program before the simulation. *)
Theorem C93_main_untraced e a b : e_trace e = false -> foreign a -> verilator_main e (a ++ lit "--trace" :: b) = VExit (-1).
Proof. intros T F. unfold verilator_main. rewrite foreign_pf by exact F. cbn [main_args]. rewrite T. reflexivity. Qed.
Print Assumptions C93_main_untraced.
Example C93_main_ex : tame true (map lit ["--trace"; "--coverage-per-instance"; "+x"]%string) /\ foreign (map lit ["+x"; "-trace"]%string) /\
  verilator_main ex_exe (map lit ["+x"; "--trace"; "--trace-file"; "--help"; "--trace-flush"]%string) = VRun (Vars true true false (lit "--help")) /\
  verilator_main ex_exe (map lit ["--trace-file"]%string) = VExit (-1) /\ verilator_main ex_exe (map lit ["--help"; "--trace-file"]%string) = VExit 0 /\
  verilator_main (Exe true false []) (map lit ["--coverage-per-instance"]%string) = VExit (-1).
Proof.
  split; [repeat constructor; cbn [map In]; intuition discriminate|]. split; [repeat constructor; cbn [map In]; intuition discriminate|]. repeat split.
Qed.

(** Verilator: if the design was built with waves, in the default format, and the user gives no name of a file, then the file which
    is written is the one which the runner attaches and shows, exactly if waves were asked for. *)
Theorem C93_verilator m t cmds env : let args := t_args t ++ t_plus t ++ m_suffix m in let e := exe_of (t_build t) in
  test_command Verilator m t = BOk (cmds, env) -> b_waves (t_build t) = true -> tame (e_coverage e) args -> ~ In (lit "--trace") args ->
  Forall (fun a => fst a <> lit "--trace-fst" /\ fst a <> lit "--trace-saif") (b_args (t_build t)) ->
  exists argv, cmds = [m_prefix m ++ argv] /\
    opened e (verilator_main e (tl argv)) = if t_waves t || t_gui t then waves_file Verilator t else None.
Proof.
  intros args e C W T N F. cbn [test_command] in C. unfold verilator_test, no_pre in C. destruct (t_pre t); [discriminate|].
  injection C as <- <-. eexists. split; [reflexivity|]. cbn [app tl].
  assert (Ef : e_file e = lit "dump.vcd").
  { assert (G : forall k, (forall a, In a (b_args (t_build t)) -> fst a <> k) -> existsb (pystr_eqb k) (values (b_args (t_build t))) = false).
    { intros k Hk. unfold values. induction (b_args (t_build t)) as [|x l IH]; [reflexivity|]. cbn [map existsb].
      rewrite eqb_no by (intro E; apply (Hk x); [now left|now rewrite E]). cbn [orb]. apply IH; [|intros a Ha; apply Hk; now right].
      now inversion F. }
    unfold e, exe_of. cbn [e_file]. rewrite !G; [reflexivity| |]; intros a Ha; rewrite Forall_forall in F; destruct (F a Ha) as [F1 F2]; intro E; auto. }
  assert (Et : e_trace e = true) by exact W.
  assert (Nn : existsb (pystr_eqb (lit "--trace")) args = false).
  { destruct (existsb (pystr_eqb (lit "--trace")) args) eqn:E; [|reflexivity]. apply existsb_exists in E. destruct E as (x & Ix & Ex).
    apply pystr_eqb_eq in Ex. subst x. contradiction. }
  destruct (t_waves t || t_gui t).
  - cbn [app]. rewrite C93_main; [cbn [existsb]; change (pystr_eqb (lit "--trace") (lit "--trace")) with true; cbn [orb]; rewrite Ef; reflexivity|exact Et|].
    constructor; [|exact T]. cbn [map In]. split; [intuition discriminate|discriminate].
  - cbn [app]. rewrite C93_main; [fold args; rewrite Nn; reflexivity|exact Et|exact T].
Qed.
Print Assumptions C93_verilator.
Example C93_verilator_ex : let t := ex_t "/t" (ex_b true [(lit "-O3", None)]) in
  tame (e_coverage (exe_of (t_build t))) (t_args t ++ t_plus t ++ m_suffix ex_mach) /\ ~ In (lit "--trace") (t_args t ++ t_plus t ++ m_suffix ex_mach) /\
  Forall (fun a => fst a <> lit "--trace-fst" /\ fst a <> lit "--trace-saif") (b_args (t_build t)) /\
  exists cmds env, test_command Verilator ex_mach t = BOk (cmds, env).
Proof.
  split; [repeat constructor; cbn [map In]; intuition discriminate|]. split; [cbn; intuition discriminate|].
  split; [repeat constructor; cbn; discriminate|]. eexists _, _. vm_compute. reflexivity.
Qed.
(** In another format the file which the runner attaches and shows is not the one which is written. *)
Theorem C93_format_refuted : exists m t argv env, b_waves (t_build t) = true /\ test_command Verilator m t = BOk ([m_prefix m ++ argv], env) /\
  opened (exe_of (t_build t)) (verilator_main (exe_of (t_build t)) (tl argv)) = Some (lit "dump.fst") /\
  attachments Verilator t None = [lit "/t/dump.vcd"].
Proof.
  exists ex_mach, (ex_t "/t" (ex_b true [(lit "--trace-fst", None)])). eexists _, _. split; [reflexivity|]. split; [reflexivity|]. split; vm_compute; reflexivity.
Qed.
Print Assumptions C93_format_refuted.
(** Waves asked for only when testing: the program ends before the simulation. *)
Theorem C93_late m t cmds env : test_command Verilator m t = BOk (cmds, env) -> b_waves (t_build t) = false -> t_waves t || t_gui t = true ->
  exists argv, cmds = [m_prefix m ++ argv] /\ verilator_main (exe_of (t_build t)) (tl argv) = VExit (-1).
Proof.
  intros C W T. cbn [test_command] in C. unfold verilator_test, no_pre in C. destruct (t_pre t); [discriminate|].
  injection C as <- <-. eexists. split; [reflexivity|]. rewrite T. cbn [app tl]. apply (C93_main_untraced _ []); [exact W|constructor].
Qed.
Print Assumptions C93_late.
Example C93_late_ex : exists cmds env, test_command Verilator ex_mach (ex_t "/t" (ex_b false [])) = BOk (cmds, env).
Proof. eexists _, _. vm_compute. reflexivity. Qed.

(** Icarus: the dump module names the file by a literal which reads as the path in the build directory. *)
Theorem C93_icarus b top : exists before rest after, iverilog_dump_file b top = before ++ lit "$dumpfile(" ++ rest /\
  sv_string rest = Some (b_dir b ++ lit "/" ++ top ++ lit ".fst", after) /\ hd 0 after = 41.
Proof.
  unfold iverilog_dump_file.
  exists (lit "module cocotb_iverilog_dump();" ++ [10] ++ lit "initial begin" ++ [10] ++ lit "    string dumpfile_path;" ++
    lit "    if ($value$plusargs(""dumpfile_path=%s"", dumpfile_path)) begin" ++ [10] ++
    lit "        $dumpfile(dumpfile_path);" ++ [10] ++ lit "    end else begin" ++ [10] ++ lit "        ").
  eexists _, _. split; [|split].
  - rewrite <- !app_assoc. do 11 f_equal. change (lit "        $dumpfile(") with (lit "        " ++ lit "$dumpfile("). rewrite <- app_assoc. reflexivity.
  - apply sv_string_pf.
  - reflexivity.
Qed.
Print Assumptions C93_icarus.
(** So it is the one which the runner attaches if the test is run in the directory of the build, with its top level. *)
Theorem C93_icarus_same t top log : t_waves t = true -> t_dir t = b_dir (t_build t) -> t_toplevel t = top ->
  hd [] (attachments Icarus t log) = b_dir (t_build t) ++ lit "/" ++ top ++ lit ".fst".
Proof. intros W D T. unfold attachments. rewrite W. cbn [waves_file app hd]. rewrite D, T. reflexivity. Qed.
Print Assumptions C93_icarus_same.
Example C93_icarus_ex : t_dir (ex_t "/d" (ex_b true [])) = b_dir (t_build (ex_t "/d" (ex_b true []))) /\
  attachments Icarus (ex_t "/d" (ex_b true [])) (Some (lit "/l/log")) = map lit ["/d/dut.fst"; "/l/log"]%string.
Proof. split; reflexivity. Qed.
Theorem C93_icarus_refuted : exists t top, b_toplevel (t_build t) = Some top /\ t_toplevel t = top /\ t_waves t = true /\
  (exists before rest after, iverilog_dump_file (t_build t) top = before ++ lit "$dumpfile(" ++ rest /\ sv_string rest = Some (lit "/d/dut.fst", after)) /\
  attachments Icarus t None = [lit "/t/dut.fst"].
Proof.
  exists (ex_t "/t" (ex_b true [])), (lit "dut"). repeat (split; [reflexivity|]). split; [|reflexivity].
  destruct (C93_icarus (ex_b true []) (lit "dut")) as (x & y & z & A & B & _). exists x, y, z. split; [exact A|exact B].
Qed.
Print Assumptions C93_icarus_refuted.
(** Icarus, GHDL, NVC, Verilator and DSim write a file when only the GUI was asked for; it is shown but not attached. *)
Theorem C93_gui_refuted : exists m t c e, t_gui t = true /\ t_waves t = false /\ test_command Ghdl m t = BOk ([c], e) /\ In (lit "--wave=dut.ghw") c /\
  viewed Ghdl t (lit "test_x") = Some (lit "dut.ghw") /\ attachments Ghdl t None = [].
Proof.
  exists ex_mach, (TestIn (lit "dut") (lit "top") true ["vpi"]%string [] [] [] false true false None None [] (lit "/t") (lit "test") (ex_b true [])).
  eexists _, _. repeat (split; [reflexivity|]). split; [vm_compute; intuition auto 20|]. split; reflexivity.
Qed.
Print Assumptions C93_gui_refuted.

(** The attachments arrive: what cocotb reads from COCOTB_RESULTS_ATTACHMENTS is the list, if no path has a comma in it or blanks
    around it. *)
Theorem C93_attached s t log : (forall p, In p (attachments s t log) -> ~ In 44 p /\ p <> [] /\ trimmed p p) ->
  get_list (Some (join (lit ",") (attachments s t log))) None 44 = attachments s t log.
Proof.
  intro H. destruct (attachments s t log) as [|p l] eqn:E; [reflexivity|]. rewrite <- E in *. clear E p l.
  destruct (attachments s t log) as [|p l] eqn:E; [reflexivity|]. rewrite <- E in *.
  destruct (get_list_pf (attachments s t log) None) as (ts & T & G).
  - rewrite E. discriminate.
  - apply Forall_forall. intros x Hx. now apply H.
  - rewrite G. assert (X : ts = attachments s t log).
    { clear G E p l. induction T as [|x y l l' A B IH]; [reflexivity|]. f_equal.
      - destruct (H x (or_introl eq_refl)) as (_ & _ & Tx). rewrite <- (trimmed_strip _ _ A). exact (trimmed_strip _ _ Tx).
      - apply IH. intros z Hz. apply H. now right. }
    subst ts. assert (Fl : filter nonempty (attachments s t log) = attachments s t log).
    { clear G T E. induction (attachments s t log) as [|x l' IH]; [reflexivity|]. cbn [filter].
      destruct x as [|c x]; [destruct (H [] (or_introl eq_refl)) as (_ & N & _); now elim N|]. cbn [nonempty]. f_equal. apply IH. intros z Hz. apply H. now right. }
    rewrite Fl, E. reflexivity.
Qed.
Print Assumptions C93_attached.
Example C93_attached_ex : let t := ex_t "/d" (ex_b true []) in
  (forall p, In p (attachments Nvc t (Some (lit "/l/a b"))) -> ~ In 44 p /\ p <> [] /\ trimmed p p) /\
  attachments Nvc t (Some (lit "/l/a b")) = map lit ["/d/dut.fst"; "/l/a b"]%string.
Proof.
  cbv zeta. split; [|reflexivity]. intros p Hp. vm_compute in Hp.
  assert (S : strip p = p -> trimmed p p) by (intro E; pose proof (strip_trimmed p) as S; rewrite E in S; exact S).
  destruct Hp as [<-|[<-|[]]]; (split; [cbn; intuition discriminate|]; split; [discriminate|]; apply S; reflexivity).
Qed.
Theorem C93_comma_refuted : exists t, attachments Nvc t None = [lit "/a,b/dut.fst"] /\
  get_list (Some (join (lit ",") (attachments Nvc t None))) None 44 = map lit ["/a"; "b/dut.fst"]%string.
Proof. exists (ex_t "/a,b" (ex_b true [])). split; reflexivity. Qed.
Print Assumptions C93_comma_refuted.

(** A viewer is started only if the user asked for the graphical interface, under pytest, with a simulator which has none of its own; then with
    the file of the waves, if there is one. *)
Theorem C93_viewer s t pytest : (pytest <> [] -> t_gui t = true -> external_viewer s = true -> viewed s t pytest = waves_file s t) /\
  (viewed s t pytest <> None -> pytest <> [] /\ t_gui t = true /\ external_viewer s = true).
Proof.
  unfold viewed. destruct pytest as [|c p]; [now split|]. replace (pystr_eqb (c :: p) []) with false by reflexivity. cbn [negb andb].
  destruct (external_viewer s), (t_gui t); cbn [andb]; split; intros; try reflexivity; try discriminate; try (now elim H); repeat split; discriminate.
Qed.
Print Assumptions C93_viewer.
(** The file for Icarus is a whole module: it ends with [endmodule] and a new line. *)
Theorem C93_icarus_end b top : exists s, iverilog_dump_file b top = lit "module cocotb_iverilog_dump();" ++ [10] ++ s ++ lit "endmodule" ++ [10].
Proof.
  exists (lit "initial begin" ++ [10] ++ lit "    string dumpfile_path;" ++
  lit "    if ($value$plusargs(""dumpfile_path=%s"", dumpfile_path)) begin" ++ [10] ++
  lit "        $dumpfile(dumpfile_path);" ++ [10] ++ lit "    end else begin" ++ [10] ++
  lit "        $dumpfile(" ++ sv_escape_string (slash (b_dir b) (top ++ lit ".fst")) ++ lit ");" ++ [10] ++ lit "    end" ++ [10] ++
  lit "    $dumpvars(0, " ++ top ++ lit ");" ++ [10] ++ lit "end" ++ [10]).
  unfold iverilog_dump_file. cbv zeta. rewrite <- !app_assoc. reflexivity.
Qed.
Print Assumptions C93_icarus_end.
Example C93_viewer_ex t : t_gui t = true -> viewed Ghdl t (lit "test_x") = waves_file Ghdl t /\ viewed Questa t (lit "test_x") = None /\ viewed Ghdl t [] = None.
Proof. intro G. unfold viewed. now rewrite G. Qed.

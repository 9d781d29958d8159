(** Property theorems C76 (options), C77 (the design and its markers), C78 (names of tests), C79 (marks and summary) and
    C80 (collection in the parent process). *)
From Verif Require Import Base TextModel ToolsModel ToolsSpec RegressionModel PluginModel PluginSpec PluginProofs.
From Coq Require Import String.
Open Scope Z_scope.

(** * C76 *)
(** The command line comes first, then the configuration file, then the environment with the default. *)
Theorem C76_precedence resolve shlex k default env d : k <> KFlag -> env_default resolve shlex k default env = Ok d ->
  (forall v ini, v <> VNone -> option_value resolve shlex k default env (Some v) ini = Ok v) /\
  (forall v, option_value resolve shlex k default env None (Some v) = Ok v) /\
  option_value resolve shlex k default env None None = Ok d.
Proof. exact (precedence_pf resolve shlex k default env d). Qed.
Print Assumptions C76_precedence.
Example C76_precedence_ex : env_default (fun s => s) (fun s => Ok [s]) KText (VText (lit "top")) (Some (lit " lib ")) = Ok (VText (lit "lib")).
Proof. reflexivity. Qed.

(** What the environment means for an option. *)
Theorem C76_environment resolve shlex default s : ~ blank s -> exists t, trimmed s t /\
  env_default resolve shlex KText default (Some s) = Ok (VText t) /\
  env_default resolve shlex KPath default (Some s) = Ok (VPath (resolve t)) /\
  env_default resolve shlex KArgs default (Some s) = bind (shlex t) (fun l => Ok (VWords l)) /\
  (decimal t -> env_default resolve shlex KInt default (Some s) = Ok (VNum (value10 t))) /\
  (means_yes t -> env_default resolve shlex KFlag default (Some s) = Ok (VFlag true)) /\
  (means_no t -> env_default resolve shlex KFlag default (Some s) = Ok (VFlag false)) /\
  (~ means_yes t -> ~ means_no t -> env_default resolve shlex KFlag default (Some s) = Err ValueError).
Proof. exact (environment_pf resolve shlex default s). Qed.
Print Assumptions C76_environment.
Theorem C76_environment_list resolve shlex default ps : ps <> [] -> Forall (fun p => ~ In 44 p) ps ->
  exists ts, Forall2 trimmed ps ts /\
    env_default resolve shlex KList default (Some (join (lit ",") ps)) =
    Ok (VWords match filter nonempty ts with [] => match words_of default with Some d => d | None => [] end | l => l end).
Proof. exact (environment_list_pf resolve shlex default ps). Qed.
Print Assumptions C76_environment_list.
Theorem C76_default resolve shlex k d env : unset_or_blank env -> (forall cs, k <> KChoice cs) -> k <> KArgs ->
  match k, d with
  | KFlag, VFlag _ | KList, VWords _ | KInt, VNum _ | KText, VText _ => env_default resolve shlex k d env = Ok d
  | KFlag, VNone => env_default resolve shlex k d env = Ok (VFlag false)
  | KText, VNone => env_default resolve shlex k d env = Ok (VText [])
  | KPath, VText s => env_default resolve shlex k d env = Ok (VPath (resolve s))
  | KPath, VNone => env_default resolve shlex k d env = Ok (VPath (resolve []))
  | _, _ => True
  end.
Proof. exact (default_pf resolve shlex k d env). Qed.
Print Assumptions C76_default.
Example C76_environment_ex :
  ~ blank (lit " 0042") /\ env_default (fun s => s) (fun s => Ok [s]) KInt (VNum 7) (Some (lit " 0042")) = Ok (VNum 42) /\
  unset_or_blank (Some (lit "  ")) /\ env_default (fun s => s) (fun s => Ok [s]) KInt (VNum 7) (Some (lit "  ")) = Ok (VNum 7).
Proof. repeat split; try reflexivity. discriminate. Qed.

(** An option with choices takes exactly these words, in any case. *)
Theorem C76_choice resolve shlex cs default s t : ~ blank s -> trimmed s t -> Forall small_word cs ->
  ~ In (lit "yes") cs -> ~ In (lit "no") cs ->
  (forall w, env_default resolve shlex (KChoice cs) default (Some s) = Ok (VText w) <-> In w cs /\ same_word t w) /\
  ((forall w, In w cs -> ~ same_word t w) -> env_default resolve shlex (KChoice cs) default (Some s) = Err ValueError).
Proof. exact (choice_pf resolve shlex cs default s t). Qed.
Print Assumptions C76_choice.
Example C76_choice_ex :
  Forall small_word (words ["auto"; "verilog"; "vhdl"]%string) /\ ~ blank (lit " VHDL ") /\ trimmed (lit " VHDL ") (lit "VHDL") /\
  env_default (fun s => s) (fun s => Ok [s]) (KChoice (words ["auto"; "verilog"; "vhdl"]%string)) VNone (Some (lit " VHDL ")) = Ok (VText (lit "vhdl")) /\
  env_default (fun s => s) (fun s => Ok [s]) (KChoice (words ["auto"; "verilog"; "vhdl"]%string)) VNone (Some (lit "vhd")) = Err ValueError.
Proof.
  split; [|split; [|split; [|split]]]; try reflexivity.
  - unfold words, small_word. cbn [map]. repeat (constructor; [cbn; repeat (constructor; [lia|]); constructor|]). constructor.
  - discriminate.
  - exists [32], [32]. repeat (apply conj); try reflexivity; intros c H; inversion H; reflexivity.
Qed.

(** A flag which is not on the command line is off, whatever the configuration file and the environment say: they are never
    [None] there. The plugin says for each of its flags that an environment variable and a configuration entry exist. *)
Theorem C76_flag resolve shlex default env ini v : option_value resolve shlex KFlag default env None ini = Ok v -> v = VFlag false.
Proof. exact (flag_pf resolve shlex default env ini v). Qed.
Print Assumptions C76_flag.
Theorem C76_flag_refuted : exists o resolve shlex, In o (options 0) /\ o_kind o = KFlag /\ o_name o = lit "cocotb_waves" /\
  env_default resolve shlex (o_kind o) (o_default o) (Some (lit "1")) = Ok (VFlag true) /\
  option_value resolve shlex (o_kind o) (o_default o) (Some (lit "1")) None None = Ok (VFlag false) /\
  option_value resolve shlex (o_kind o) (o_default o) None None (Some (VFlag true)) = Ok (VFlag false).
Proof.
  exists (Opt (lit "cocotb_waves") KFlag VNone None), (fun s => s), (fun s => Ok [s]).
  split; [cbn; tauto|]. repeat split.
Qed.
Print Assumptions C76_flag_refuted.
(** The flags of the plugin. *)
Theorem C76_flags now : map o_name (filter (fun o => match o_kind o with KFlag => true | _ => false end) (options now)) =
  words ["cocotb_summary"; "cocotb_gui"; "cocotb_waves"; "cocotb_scheduler_debug"; "cocotb_trust_inertial_writes"; "cocotb_always";
         "cocotb_clean"; "cocotb_verbose"]%string.
Proof. reflexivity. Qed.
Print Assumptions C76_flags.
(** A wrong environment variable is an error although the command line has a proper value. *)
Theorem C76_error resolve shlex k default env e cli ini : env_default resolve shlex k default env = Err e ->
  option_value resolve shlex k default env cli ini = Err e.
Proof. exact (error_pf resolve shlex k default env e cli ini). Qed.
Print Assumptions C76_error.
Theorem C76_error_refuted : exists o resolve shlex, In o (options 0) /\ o_name o = lit "cocotb_simulator" /\
  option_value resolve shlex (o_kind o) (o_default o) (Some (lit "modelsim")) (Some (VText (lit "icarus"))) None = Err ValueError.
Proof.
  exists (Opt (lit "cocotb_simulator") (KChoice (lit "auto" :: map snd simulators)) (VText (lit "auto")) None), (fun s => s), (fun s => Ok [s]).
  split; [cbn; tauto|]. split; reflexivity.
Qed.
Print Assumptions C76_error_refuted.
(** The configuration file is not checked against the choices. *)
Theorem C76_unchecked_refuted : exists o resolve shlex w, In o (options 0) /\ o_kind o = KChoice (lit "auto" :: map snd simulators) /\
  option_value resolve shlex (o_kind o) (o_default o) None None (Some (VText w)) = Ok (VText w) /\
  ~ In w (lit "auto" :: map snd simulators).
Proof.
  exists (Opt (lit "cocotb_simulator") (KChoice (lit "auto" :: map snd simulators)) (VText (lit "auto")) None), (fun s => s), (fun s => Ok [s]), (lit "modelsim").
  split; [cbn; tauto|]. repeat split. cbn. intuition discriminate.
Qed.
Print Assumptions C76_unchecked_refuted.

(** The table: names, command line arguments and environment variables are distinct, names have the prefix by which they are
    recognised, and the defaults of choices are among them. *)
(** The environment variable of an option (_option.py:61). *)
Definition env_name (o : opt) : pystr := match o_env o with Some e => e | None => map (fun c => if (97 <=? c) && (c <=? 122) then c - 32 else c) (o_name o) end.
Theorem C76_table now : NoDup (map o_name (options now)) /\ NoDup (map (fun o => argument (o_name o)) (options now)) /\
  NoDup (map env_name (options now)) /\
  Forall (fun o => exists p rest, In p ["cocotb_"; "gpi_"; "pygpi_"]%string /\ o_name o = lit p ++ rest) (options now) /\
  Forall (fun o => match o_kind o with KChoice cs => match o_default o with VNone => True | VText s => In s cs | _ => False end | _ => True end) (options now) /\
  Forall (fun o => argument (o_name o) = lit "--" ++ map (fun c => if c =? 95 then 45 else c) (o_name o)) (options now).
Proof.
  assert (D : forall l : list pystr, (if list_eq_dec (list_eq_dec Z.eq_dec) (nodup (list_eq_dec Z.eq_dec) l) l then true else false) = true -> NoDup l).
  { intros l E. destruct (list_eq_dec (list_eq_dec Z.eq_dec) (nodup (list_eq_dec Z.eq_dec) l) l) as [Q|]; [rewrite <- Q; apply NoDup_nodup|discriminate]. }
  split; [apply D; vm_compute; reflexivity|]. split; [apply D; vm_compute; reflexivity|]. split; [apply D; vm_compute; reflexivity|].
  split; [|split].
  - unfold options. repeat (constructor; [first [exists "cocotb_"%string; eexists; split; [cbn; tauto|reflexivity]
      | exists "gpi_"%string; eexists; split; [cbn; tauto|reflexivity] | exists "pygpi_"%string; eexists; split; [cbn; tauto|reflexivity]]|]). constructor.
  - unfold options. repeat (constructor; [cbn; tauto|]). constructor.
  - unfold options. repeat (constructor; [reflexivity|]). constructor.
Qed.
Print Assumptions C76_table.

(** The environment variables, in the order of the options. *)
Theorem C76_variables now : map env_name (options now) = words
  [
    "COCOTB_SUMMARY"; "COCOTB_SIM_TIME_UNIT"; "COCOTB_GUI"; "COCOTB_WAVES"; "COCOTB_WAVEFORM_VIEWER"; "COCOTB_RANDOM_SEED";
    "COCOTB_ATTACH"; "COCOTB_PLUSARGS"; "COCOTB_RESOLVE_X"; "COCOTB_SCHEDULER_DEBUG"; "COCOTB_SIMULATOR";
    "COCOTB_TRUST_INERTIAL_WRITES"; "COCOTB_PYTEST_ARGS"; "COCOTB_PYTEST_DIR"; "COCOTB_BUILD_DIR"; "COCOTB_DEFINES";
    "COCOTB_INCLUDES"; "COCOTB_PARAMETERS"; "COCOTB_LIBRARY"; "COCOTB_ALWAYS"; "COCOTB_CLEAN"; "COCOTB_VERBOSE";
    "COCOTB_TIMESCALE"; "COCOTB_ENV"; "COCOTB_TOPLEVEL_LIBRARY"; "COCOTB_TOPLEVEL_LANG"; "COCOTB_GPI_INTERFACES";
    "COCOTB_BUILD_ARGS"; "COCOTB_ELAB_ARGS"; "COCOTB_TEST_ARGS"; "COCOTB_PRE_CMD"; "COCOTB_LOG_LEVEL"; "GPI_LOG_LEVEL";
    "PYGPI_USERS"]%string.
Proof. reflexivity. Qed.
Print Assumptions C76_variables.
(** [NAME=VALUE] lists: the last entry with a name counts; a value may contain "=". *)
Theorem C76_dict items n v : dict_get (to_dict items) n = Some v <-> last_with (fun item v => assigns item n v) items v.
Proof. exact (to_dict_pf items n v). Qed.
Print Assumptions C76_dict.
Theorem C76_dict_none items n : dict_get (to_dict items) n = None <-> Forall (fun item => forall v, ~ assigns item n v) items.
Proof. exact (to_dict_none_pf items n). Qed.
Print Assumptions C76_dict_none.
Example C76_dict_ex : to_dict (words ["A=1"; "B"; "A=x=y"]%string) = [(lit "A", lit "x=y"); (lit "B", [])].
Proof. reflexivity. Qed.
(** [UNIT/PRECISION]; without a precision it is the unit. *)
Theorem C76_timescale u p s1 s2 : ~ In 47 u -> trimmed u s1 -> trimmed p s2 ->
  to_timescale (u ++ lit "/" ++ p) = (s1, match s2 with [] => s1 | _ => s2 end) /\ to_timescale u = (s1, s1).
Proof. exact (timescale_pf u p s1 s2). Qed.
Print Assumptions C76_timescale.
Example C76_timescale_ex : to_timescale (lit "1 ns / 10ps") = (lit "1 ns", lit "10ps") /\ ~ In 47 (lit "1 ns ") /\ trimmed (lit "1 ns ") (lit "1 ns").
Proof.
  split; [reflexivity|]. split; [cbn; intuition discriminate|]. exists [], [32]. repeat (apply conj); try reflexivity; intros c H; inversion H; reflexivity.
Qed.
(** "auto": the first simulator of the table which is installed; "auto" itself stays if there is none. *)
Theorem C76_simulator which s : (s <> [] -> s <> lit "auto" -> get_simulator which s = s) /\
  (forall before e n after, simulators = before ++ (e, n) :: after -> which e = true -> Forall (fun p => which (fst p) = false) before ->
     get_simulator which (lit "auto") = n /\ get_simulator which [] = n) /\
  (Forall (fun p => which (fst p) = false) simulators -> get_simulator which (lit "auto") = lit "auto").
Proof.
  split; [|split].
  - intros N1 N2. unfold get_simulator. destruct s; [now destruct N1|]. cbn [orb]. destruct (pystr_eqb _ _) eqn:E; [|reflexivity].
    apply pystr_eqb_eq in E. now destruct N2.
  - intros b e n a E W F. assert (find (fun p => which (fst p)) simulators = Some (e, n)) as X.
    { rewrite E. clear E. induction F as [|x b Fx F IH]; cbn; [now rewrite W|]. now rewrite Fx. }
    unfold get_simulator. rewrite X. split; reflexivity.
  - intro F. assert (find (fun p => which (fst p)) simulators = None) as X.
    { induction F as [|x b Fx F IH]; cbn; [reflexivity|]. now rewrite Fx. }
    unfold get_simulator. rewrite X. reflexivity.
Qed.
Print Assumptions C76_simulator.
(** The preference among the installed simulators. *)
Theorem C76_preference which : get_simulator which (lit "auto") =
  if which (lit "verilator") then lit "verilator" else if which (lit "nvc") then lit "nvc" else if which (lit "ghdl") then lit "ghdl"
  else if which (lit "iverilog") then lit "icarus" else if which (lit "xrun") then lit "xcelium" else if which (lit "vcs") then lit "vcs"
  else if which (lit "vsim") then lit "questa" else if which (lit "vsimsa") then lit "riviera" else lit "auto".
Proof. unfold get_simulator. cbn [orb pystr_eqb]. unfold simulators. cbn [map find fst snd]. repeat (destruct (which _); [reflexivity|]). reflexivity. Qed.
Print Assumptions C76_preference.
Example C76_simulator_ex : get_simulator (fun e => one_of e (words ["iverilog"; "vcs"]%string)) (lit "auto") = lit "icarus".
Proof. reflexivity. Qed.

(** * C77 *)
(** Lists are extended from the session to the node. *)
Theorem C77_lists f chain h : h_list (apply_markers h chain) f = h_list h f ++ flat_map (adds f) (from_root chain).
Proof. exact (lists_pf f chain h). Qed.
Print Assumptions C77_lists.
(** In dictionaries the marker nearest to the node counts. *)
Theorem C77_dicts f n chain h v : Forall keywords_distinct (from_root chain) ->
  (dict_get (h_dict (apply_markers h chain) f) n = Some v <->
   last_with (sets_dict f n) (from_root chain) v \/
   Forall (fun m => forall w, ~ sets_dict f n m w) (from_root chain) /\ dict_get (h_dict h f) n = Some v).
Proof. exact (dicts_pf f n chain h v). Qed.
Print Assumptions C77_dicts.
(** So it is for single values, which otherwise keep the value of the option. *)
Theorem C77_flags f chain h b : h_flag (apply_markers h chain) f = b <->
  last_with (sets_flag f) (from_root chain) b \/ Forall (fun m => forall b', ~ sets_flag f m b') (from_root chain) /\ h_flag h f = b.
Proof. exact (flags_pf f chain h b). Qed.
Print Assumptions C77_flags.
Theorem C77_seed chain h n : h_seed (apply_markers h chain) = n <->
  last_with sets_seed (from_root chain) n \/ Forall (fun m => forall b', ~ sets_seed m b') (from_root chain) /\ h_seed h = n.
Proof. exact (seed_pf chain h n). Qed.
Print Assumptions C77_seed.
Theorem C77_library chain h n : h_library (apply_markers h chain) = n <->
  last_with sets_library (from_root chain) n \/ Forall (fun m => forall b', ~ sets_library m b') (from_root chain) /\ h_library h = n.
Proof. exact (library_pf chain h n). Qed.
Print Assumptions C77_library.
Theorem C77_timescale chain h t : h_timescale (apply_markers h chain) = Some t <->
  last_with sets_timescale (from_root chain) t \/ Forall (fun m => forall b', ~ sets_timescale m b') (from_root chain) /\ h_timescale h = Some t.
Proof. exact (marker_timescale_pf chain h t). Qed.
Print Assumptions C77_timescale.
(** A function in a module, each with markers. *)
Definition C77_chain : list (list marker) :=
  [[MExtend FSources [lit "b.sv"]; MUpdate FDefines [(lit "W", lit "8")]; MSeed 0; MFlag FWaves false; MTimescale (lit "1ns") None];
   [MOther; MExtend FSources [lit "a.sv"]; MUpdate FDefines [(lit "W", lit "4"); (lit "D", lit "2")]; MFlag FWaves true; MLibrary (lit "work")]].
Example C77_chain_ex : Forall keywords_distinct (from_root C77_chain) /\
  let h := apply_markers (new_design (fun _ => false) None 5 (lit "top")) C77_chain in
  h_list h FSources = words ["a.sv"; "b.sv"]%string /\ h_dict h FDefines = [(lit "W", lit "8"); (lit "D", lit "2")] /\ h_flag h FWaves = false /\
  h_flag h FClean = false /\ h_seed h = 0 /\ h_library h = lit "work" /\ h_timescale h = Some (lit "1ns", lit "1ns").
Proof.
  split; [|repeat split]. repeat (constructor; [try exact Logic.I; cbn; repeat (constructor; [cbn; intuition discriminate|]); constructor|]). constructor.
Qed.

(** The modules whose tests are collected are those which are run, if every node has at most one [cocotb_runner] marker and it
    names modules. *)
Theorem C77_modules chain flags ts seed lib stem : Forall single chain -> ~ In 46 stem ->
  test_modules (apply_markers (new_design flags ts seed lib) chain) false (stem ++ lit ".py") = collect_modules chain stem.
Proof. exact (modules_pf chain flags ts seed lib stem). Qed.
Print Assumptions C77_modules.
Example C77_modules_ex : Forall single [[MRunner [lit "test_a"; lit "test_b"]; MOther]; []; [MRunner [lit "test_c"]]] /\
  collect_modules [[MRunner [lit "test_a"; lit "test_b"]; MOther]; []; [MRunner [lit "test_c"]]] (lit "run") = words ["test_a"; "test_b"]%string.
Proof.
  split; [|reflexivity]. constructor; [|constructor; [|constructor; [|constructor]]]; (split; [cbn; lia|]).
  - constructor; [exists (lit "test_a"), [lit "test_b"]; now split|]. constructor; [exact Logic.I|constructor].
  - constructor.
  - constructor; [exists (lit "test_c"), []; now split|constructor].
Qed.
(** A test of the whole session runs what its markers say; without one, nothing is the default (hdl.py:190-191). *)
Theorem C77_session_modules h file : test_modules h true file = h_modules h /\ (h_modules h <> [] -> test_modules h false file = h_modules h).
Proof. unfold test_modules. destruct (h_modules h); split; auto. intro N. now elim N. Qed.
Print Assumptions C77_session_modules.
Example C77_session_modules_ex : h_modules (apply_markers (new_design (fun _ => false) None 0 []) [[MRunner [lit "test_a"]]]) = [lit "test_a"].
Proof. reflexivity. Qed.
(** A marker without modules at the function below a marker with modules: the tests of the latter are collected, the tests of
    the file are run. *)
Theorem C77_modules_bare_refuted : exists chain h stem, h_modules h = [] /\
  collect_modules chain stem = [lit "test_a"] /\ test_modules (apply_markers h chain) false (stem ++ lit ".py") = [lit "run"].
Proof. exists [[MRunner []]; [MRunner [lit "test_a"]]], (new_design (fun _ => false) None 0 []), (lit "run"). repeat split. Qed.
Print Assumptions C77_modules_bare_refuted.
(** Two markers at one node: the first is collected, the last is run. *)
Theorem C77_modules_two_refuted : exists chain h stem, h_modules h = [] /\
  collect_modules chain stem = [lit "test_a"] /\ test_modules (apply_markers h chain) false (stem ++ lit ".py") = [lit "test_b"].
Proof. exists [[MRunner [lit "test_a"]; MRunner [lit "test_b"]]], (new_design (fun _ => false) None 0 []), (lit "run"). repeat split. Qed.
Print Assumptions C77_modules_two_refuted.
(** A file with a dot in its name. *)
Theorem C77_modules_dot_refuted : exists stem, collect_modules [] stem = [lit "test_v1.2"] /\
  test_modules (new_design (fun _ => false) None 0 []) false (stem ++ lit ".py") = [lit "test_v1"].
Proof. exists (lit "test_v1.2"). split; reflexivity. Qed.
Print Assumptions C77_modules_dot_refuted.
(** The file of a module in a package is looked for with a colon: the separator of search paths is used for that of
    directories. *)
Theorem C77_dotted_refuted : exists m, m = lit "pkg.test_a" /\ module_file m = lit "pkg:test_a.py".
Proof. eexists. split; reflexivity. Qed.
Print Assumptions C77_dotted_refuted.
(** Without dots it is the file of that name. *)
Theorem C77_module_file m : ~ In 46 m -> module_file m = m ++ lit ".py".
Proof. intro N. unfold module_file. now rewrite free_char. Qed.
Print Assumptions C77_module_file.
Example C77_module_file_ex : ~ In 46 (lit "test_a").
Proof. cbn. intuition discriminate. Qed.

(** The top level: the first module without "test_" or "_test". *)
Theorem C77_toplevel m l :
  (forall x, m = lit "test_" ++ x -> toplevel (m :: l) = Some x) /\
  (forall x, m = x ++ lit "_test" -> (forall y, m <> lit "test_" ++ y) -> toplevel (m :: l) = Some x) /\
  ((forall x, m <> lit "test_" ++ x) -> (forall x, m <> x ++ lit "_test") -> toplevel (m :: l) = Some m).
Proof. exact (toplevel_pf m l). Qed.
Print Assumptions C77_toplevel.
Example C77_toplevel_ex : toplevel [lit "test_fifo"] = Some (lit "fifo") /\ toplevel [lit "fifo_test"; lit "x"] = Some (lit "fifo") /\ toplevel [lit "test_x_test"] = Some (lit "x_test").
Proof. repeat split. Qed.
(** For a module in a package it is no name of a top level. *)
Theorem C77_toplevel_package_refuted : exists m, toplevel [m] = Some (lit "tests.test_fifo").
Proof. exists (lit "tests.test_fifo"). reflexivity. Qed.
Print Assumptions C77_toplevel_package_refuted.

(** The name of the test directory has only plain characters. *)
Theorem C77_dir_chars nodeid : Forall plain_char (dir_name nodeid).
Proof. exact (dir_chars_pf nodeid). Qed.
Print Assumptions C77_dir_chars.
(** It is the same for different tests, and it may lead out of the build directory. *)
Theorem C77_dir_shared_refuted : exists a b, a <> b /\ dir_name a = dir_name b /\ a = lit "t.py::f[a+b]" /\ b = lit "t.py::f[a*b]".
Proof. exists (lit "t.py::f[a+b]"), (lit "t.py::f[a*b]"). repeat split. discriminate. Qed.
Print Assumptions C77_dir_shared_refuted.
Theorem C77_dir_file_refuted : exists a b, a <> b /\ dir_name a = dir_name b /\ a = lit "a.py::B::f" /\ b = lit "a/B.py::f".
Proof. exists (lit "a.py::B::f"), (lit "a/B.py::f"). repeat split. discriminate. Qed.
Print Assumptions C77_dir_file_refuted.
Theorem C77_dir_escape_refuted : exists a, a = lit "t.py::f[/../../../x]" /\ split 47 (dir_name a) = words ["t"; "f_"; ".."; ".."; ".."; "x_"]%string.
Proof. eexists. split; reflexivity. Qed.
Print Assumptions C77_dir_escape_refuted.

(** Arguments of [build] and [test]: lists are extended by the options; a missing or empty argument stands for the attribute. *)
Theorem C77_extended argument attribute option :
  (forall l, argument = Some (SList l) -> l <> [] -> extended argument attribute option = Ok (SList (l ++ option))) /\
  (forall l, attribute = SList l -> argument = None \/ argument = Some (SList []) \/ argument = Some (STuple []) ->
     extended argument attribute option = Ok (SList (l ++ option))).
Proof. exact (extended_pf argument attribute option). Qed.
Print Assumptions C77_extended.
Example C77_extended_ex : extended (Some (SList [lit "-O2"])) (SList [lit "-g"]) [lit "-w"] = Ok (SList (words ["-O2"; "-w"]%string)).
Proof. reflexivity. Qed.
(** A tuple is a sequence as well, but it is refused. *)
Theorem C77_tuple_refuted : exists l, l <> [] /\ extended (Some (STuple l)) (SList []) [] = Err TypeError.
Proof. exists [lit "-O2"]. split; [discriminate|reflexivity]. Qed.
Print Assumptions C77_tuple_refuted.
(** Parameters, defines and environment: the option comes first, then the argument or, if it is missing or empty, the attribute. *)
Theorem C77_overridden argument attribute option n : NoDup (map fst option) ->
  dict_get (overridden argument attribute option) n =
  match dict_get option n with
  | Some v => Some v
  | None => match argument with Some (p :: d) => dict_get (p :: d) n | _ => dict_get attribute n end
  end.
Proof. exact (overridden_pf argument attribute option n). Qed.
Print Assumptions C77_overridden.
Example C77_overridden_ex : NoDup (map fst [(lit "W", lit "9")]) /\
  overridden (Some [(lit "W", lit "8"); (lit "D", lit "2")]) [(lit "X", lit "1")] [(lit "W", lit "9")] = [(lit "W", lit "9"); (lit "D", lit "2")].
Proof. split; [repeat constructor; intros []|reflexivity]. Qed.
(** A seed given to [test] is used, but not zero. *)
Theorem C77_chosen_seed n m : n <> 0 -> chosen_seed (Some n) m = n /\ chosen_seed None m = m.
Proof. intro N. unfold chosen_seed. destruct (Z.eqb_spec n 0); [contradiction|]. split; reflexivity. Qed.
Print Assumptions C77_chosen_seed.
Example C77_chosen_seed_ex : 5 <> 0.
Proof. discriminate. Qed.
Theorem C77_seed_zero_refuted : exists m, chosen_seed (Some 0) m <> 0.
Proof. exists 1. discriminate. Qed.
Print Assumptions C77_seed_zero_refuted.

(** * C78 *)
(** The name of a test begins with that of its runner. *)
Theorem C78_prefix runner nodeid : exists rest, mangled runner nodeid = runner ++ lit "::" ++ rest.
Proof. exact (prefix_pf runner nodeid). Qed.
Print Assumptions C78_prefix.
(** Tests of the file of the runner. *)
Theorem C78_same_file path g f1 f2 : ~ In 58 path ->
  mangled (node_id path g) (node_id path f1) = node_id path g ++ lit "::" ++ f1 /\
  (mangled (node_id path g) (node_id path f1) = mangled (node_id path g) (node_id path f2) -> f1 = f2).
Proof. exact (same_file_pf path g f1 f2). Qed.
Print Assumptions C78_same_file.
(** Tests of other files in its directory. *)
Theorem C78_same_dir_name d r g m f : ~ In 58 d -> ~ In 58 r -> ~ In 47 r -> ~ In 58 m -> ~ In 47 m -> m <> [] -> m ++ lit ".py" <> r ->
  mangled (node_id (d ++ lit "/" ++ r) g) (node_id (d ++ lit "/" ++ m ++ lit ".py") f) =
  node_id (d ++ lit "/" ++ r) g ++ lit "::" ++ m ++ lit "::" ++ f.
Proof. exact (same_dir_one d r g m f). Qed.
Print Assumptions C78_same_dir_name.
Theorem C78_same_dir d r g m1 f1 m2 f2 : ~ In 58 d -> ~ In 58 r -> ~ In 47 r ->
  Forall (fun m => ~ In 58 m /\ ~ In 47 m /\ m <> [] /\ m ++ lit ".py" <> r) [m1; m2] ->
  mangled (node_id (d ++ lit "/" ++ r) g) (node_id (d ++ lit "/" ++ m1 ++ lit ".py") f1) =
  mangled (node_id (d ++ lit "/" ++ r) g) (node_id (d ++ lit "/" ++ m2 ++ lit ".py") f2) -> m1 = m2 /\ f1 = f2.
Proof. exact (same_dir_pf d r g m1 f1 m2 f2). Qed.
Print Assumptions C78_same_dir.
Example C78_ex :
  ~ In 58 (lit "tests/run.py") /\ ~ In 58 (lit "tests") /\ ~ In 47 (lit "run.py") /\ lit "test_a" ++ lit ".py" <> lit "run.py" /\
  mangled (lit "tests/run.py::go[1]") (lit "tests/run.py::C::f[x]") = lit "tests/run.py::go[1]::C::f[x]" /\
  mangled (lit "tests/run.py::go") (lit "tests/test_a.py::f") = lit "tests/run.py::go::test_a::f" /\
  mangled (lit "tests/run.py::go") (lit "tests/sub/test_a.py::f") = lit "tests/run.py::go::sub.test_a::f" /\
  mangled (lit "tests/run.py::go") (lit "other/test_a.py::f") = lit "tests/run.py::go::other/test_a.py::f".
Proof. repeat (apply conj); try reflexivity; try discriminate; cbn; intuition discriminate. Qed.
(** Names are not unique: a class in the file of the runner and another file; a directory whose name begins with that of the
    directory of the runner. *)
Theorem C78_class_refuted : exists r a b, a <> b /\ mangled r a = mangled r b /\ r = lit "run.py::go" /\ a = lit "run.py::mod::f" /\ b = lit "mod.py::f".
Proof. exists (lit "run.py::go"), (lit "run.py::mod::f"), (lit "mod.py::f"). repeat split. discriminate. Qed.
Print Assumptions C78_class_refuted.
Theorem C78_directory_refuted : exists r a b, a <> b /\ mangled r a = mangled r b /\
  r = lit "tests/a/run.py::go" /\ a = lit "tests/ab/test_t.py::f" /\ b = lit "tests/a/b/test_t.py::f".
Proof. exists (lit "tests/a/run.py::go"), (lit "tests/ab/test_t.py::f"), (lit "tests/a/b/test_t.py::f"). repeat split. discriminate. Qed.
Print Assumptions C78_directory_refuted.
(** In the JUnit file the name of a test is what is after its last dot, which may be within a parameter. *)
Theorem C78_junit_refuted : exists n, n = lit "t.py::run::f[1.5]" /\ junit n = (lit "t.run.f[1", lit "5]").
Proof. eexists. split; reflexivity. Qed.
Print Assumptions C78_junit_refuted.
Example C78_junit_ex : junit (lit "tests/t.py::run[a]::f[b]") = (lit "tests.t.run[a]", lit "f[b]").
Proof. reflexivity. Qed.

(** * C79 *)
(** Under pytest a test gets the verdict of the regression manager, if it expects exception types only or, expecting a failure,
    ends with a failure. *)
Theorem C79_marks c t r : t_skip t = false -> (forall e, r = Some e -> ordinary c e) ->
  Forall (fun x => exists k, x = EType k) (t_expect_error t) ->
  (t_expect_error t <> [] \/ t_expect_fail t = false \/ forall e, r = Some e -> is_failure c e = true) ->
  agree (score c t r) (pytest_score c t r).
Proof.
  intros S O F. apply marks_pf; [exact S|exact O|]. revert F. apply Forall_impl. intros x [k ->]. reflexivity.
Qed.
Print Assumptions C79_marks.
(** Classes without subclasses; matchers which always or never match. *)
Definition C79_cfg (m : bool) : cfg := Cfg Z.eqb (fun _ _ => m) (fun _ => 0) (fun _ => 0) 0 0 false [] false.
Definition C79_test (l : list expected) (f : bool) : test := Test 0 [] 0 false l f true.
Example C79_marks_ex : ordinary (C79_cfg false) (Exc 20 []) /\
  score (C79_cfg false) (C79_test [EType 20] false) (Some (Exc 20 [])) = VXfailed /\
  pytest_score (C79_cfg false) (C79_test [EType 20] false) (Some (Exc 20 [])) = PXfailed.
Proof. repeat split. Qed.
(** [expect_fail] accepts any exception under pytest. *)
Theorem C79_expect_fail_refuted : exists c t e, ordinary c e /\ t_expect_fail t = true /\ t_expect_error t = [] /\ is_failure c e = false /\
  score c t (Some e) = VFailed MErroredNotFailure /\ pytest_score c t (Some e) = PXfailed.
Proof. exists (C79_cfg false), (C79_test [] true), (Exc 20 []). repeat split. Qed.
Print Assumptions C79_expect_fail_refuted.
(** An expected exception given by a matcher makes pytest's hook fail. *)
Theorem C79_matcher_refuted : exists c t e, ordinary c e /\ t_expect_error t = [EMatcher 1] /\
  score c t (Some e) = VXfailed /\ pytest_score c t (Some e) = PCrash.
Proof. exists (C79_cfg true), (C79_test [EMatcher 1] false), (Exc 20 []). repeat split. Qed.
Print Assumptions C79_matcher_refuted.
(** [cocotb.pass_test] makes a test fail under pytest. *)
Theorem C79_success_refuted : exists c t e, x_cls e = cSuccess /\ score c t (Some e) = VPassed /\ pytest_score c t (Some e) = PFailed.
Proof. exists (C79_cfg false), (C79_test [] false), (Exc cSuccess []). repeat split. Qed.
Print Assumptions C79_success_refuted.

(** The summary: every cocotb test is counted once by its call, a skipped one too, but not one whose setup failed; PASS, FAIL and
    SKIP add up to TESTS. *)
Theorem C79_summary tests : counted (flat_map reports_of tests) =
  flat_map (fun p => match verdict_of p with Some v => [v] | None => [] end) tests.
Proof. exact (summary_pf tests). Qed.
Print Assumptions C79_summary.
Theorem C79_tally reports : let '(n, p, f, s) := tally reports in n = (p + f + s)%nat.
Proof. exact (tally_pf reports). Qed.
Print Assumptions C79_tally.
(** PASS, FAIL and SKIP are the numbers of tests with these verdicts. *)
Definition C79_count (v : result3) (tests : list phases) : nat :=
  List.length (filter (fun p => match verdict_of p, v with
    | Some RPassed, RPassed | Some RFailed, RFailed | Some RSkipped, RSkipped => true | _, _ => false end) tests).
Theorem C79_columns tests : exists n, tally (flat_map reports_of tests) = (n, C79_count RPassed tests, C79_count RFailed tests, C79_count RSkipped tests).
Proof.
  eexists. unfold tally. rewrite summary_pf.
  assert (G : forall v, List.length (filter (result3_eqb v) (flat_map (fun p => match verdict_of p with Some v => [v] | None => [] end) tests)) = C79_count v tests).
  { intro v. unfold C79_count. induction tests as [|p l IH]; [reflexivity|]. cbn [flat_map filter]. rewrite filter_app, app_length, IH.
    destruct (verdict_of p) as [[]|], v; reflexivity. }
  rewrite !G. reflexivity.
Qed.
Print Assumptions C79_columns.
(** Tests which are not cocotb tests do not count. *)
Theorem C79_others reports : tally (filter p_cocotb reports) = tally reports.
Proof.
  assert (G : counted (filter p_cocotb reports) = counted reports).
  { unfold counted. induction reports as [|r l IH]; [reflexivity|]. cbn [filter flat_map]. destruct (p_cocotb r) eqn:E; cbn [flat_map]; rewrite ?E, IH; reflexivity. }
  unfold tally. rewrite G. reflexivity.
Qed.
Print Assumptions C79_others.
Example C79_columns_ex : tally (flat_map reports_of [Ran RFailed false true; Ran RFailed true true; NotRun true true; NotRun false true]) = (3, 0, 2, 1)%nat /\ tally [Report WCall RFailed false false false] = (0, 0, 0, 0)%nat /\ tally [Report WCall RFailed false true false] = (1, 0, 1, 0)%nat.
Proof. repeat split. Qed.
Example C79_summary_ex :
  tally (flat_map reports_of [Ran RPassed false true; Ran RFailed false true; Ran RSkipped true true; NotRun true true]) = (4, 2, 1, 1)%nat.
Proof. reflexivity. Qed.
(** A failing setup is not counted at all, and a failing teardown leaves PASS. *)
Theorem C79_setup_refuted : exists p, p = NotRun false true /\ tally (reports_of p) = (0, 0, 0, 0)%nat.
Proof. eexists. split; reflexivity. Qed.
Print Assumptions C79_setup_refuted.
Theorem C79_teardown_refuted : exists p, p = Ran RPassed false false /\ tally (reports_of p) = (1, 1, 0, 0)%nat.
Proof. eexists. split; reflexivity. Qed.
Print Assumptions C79_teardown_refuted.
(** A failing cocotb test in a module, class or directory with the name or the marker "cocotb_runner" is not counted either. *)
Theorem C79_runner_keyword_refuted : exists r, p_cocotb r = true /\ p_when r = WCall /\ p_outcome r = RFailed /\ tally [r] = (0, 0, 0, 0)%nat.
Proof. exists (Report WCall RFailed false true true). repeat split. Qed.
Print Assumptions C79_runner_keyword_refuted.

(** * C80 *)
(** Collection in the parent: what is neither runner nor cocotb test is kept as it is; a runner is kept with a collector for its
    tests, but not below another runner; cocotb tests are shown below their runner with --collect-only, and never run. *)
Theorem C80_collect only below :
  collect only below IOther = [YItem] /\ (forall a, collect only below (IFunction a false false) = [YItem]) /\
  collect only false (IFunction false true false) = [YItem; YRunner] /\ collect only true (IFunction false true false) = [] /\
  collect true true (IFunction true false true) = [YItem] /\ collect false true (IFunction true false true) = [YKeywords] /\
  collect only false (IFunction true false true) = [].
Proof. repeat (apply conj); try reflexivity. now intros []. Qed.
Print Assumptions C80_collect.
(** Without --collect-only no function with the mark [cocotb_test] is kept. *)
Theorem C80_never_run below a r : ~ In YItem (collect false below (IFunction a r true)).
Proof. destruct a, r, below; cbn; intuition discriminate. Qed.
Print Assumptions C80_never_run.
(** Below a runner, the tests shown with --collect-only are those which run in the simulator, if no mark [cocotb_runner] is above
    them. *)
Theorem C80_same_tests a t : In YItem (collect true true (IFunction a false t)) /\ t = true <-> collect_sim t (IFunction a false t) = [YItem].
Proof. destruct a, t; cbn; intuition discriminate. Qed.
Print Assumptions C80_same_tests.
Example C80_ex : collect_sim true (IFunction true false true) = [YItem].
Proof. reflexivity. Qed.
(** With such a mark at the module they run in the simulator, but the parent neither shows them nor knows their keywords. *)
Theorem C80_hidden_refuted : exists i, i = IFunction true true true /\ collect_sim true i = [YItem] /\
  (forall only, collect only true i = [YWarn]).
Proof. eexists. repeat split. Qed.
Print Assumptions C80_hidden_refuted.
(** With the mark [cocotb_test] at the module a runner in it is dropped. *)
Theorem C80_runner_lost_refuted : exists i, i = IFunction false true true /\ (forall only below, collect only below i = [YWarn]).
Proof. eexists. repeat split. Qed.
Print Assumptions C80_runner_lost_refuted.

(** The pytest plugin in the parent process: options (_pytest/_option.py, plugin.py), the design with its markers (hdl.py),
    the modules of a runner (_runner.py) and the names of tests (_controller.py). Environment variables are given by their
    values, [None] if not set; what pytest and argparse have read is given. *)
From Verif Require Import Base TextModel ToolsModel RegressionModel.
From Coq Require Import String.
Open Scope Z_scope.

(** * Options *)

(** What [Option.extra] says about an option (_option.py:71-74), in the order in which it is looked at (78-112). *)
Inductive okind := KFlag | KList | KInt | KPath | KArgs | KChoice (choices : list pystr) | KText.
Inductive value := VNone | VFlag (b : bool) | VWords (l : list pystr) | VNum (n : Z) | VPath (s : pystr) | VText (s : pystr).

(** Which values an option has; a default of another type than that of its option counts as missing. _option.py:59. *)
Definition text_of (v : value) : option pystr := match v with VText s => Some s | _ => None end.
Definition words_of (v : value) : option (list pystr) := match v with VWords l => Some l | _ => None end.
Definition num_of_value (v : value) : option Z := match v with VNum n => Some n | _ => None end.
Definition flag_of (v : value) : option bool := match v with VFlag b => Some b | _ => None end.

(** _option.py:78-112: the default after the environment was looked at. [resolve] is [Path.resolve], [shlex] is
    [shlex.split], which may fail. *)
Definition env_default (resolve : pystr -> pystr) (shlex : pystr -> result (list pystr)) (k : okind) (default : value)
  (env : option pystr) : result value :=
  match k with
  | KFlag => bind (get_bool env (flag_of default)) (fun b => Ok (VFlag b))
  | KList => Ok (VWords (get_list env (words_of default) 44))
  | KInt => bind (get_int env (num_of_value default)) (fun n => Ok (VNum n))
  | KPath => Ok (VPath (resolve (get_str env (text_of default))))
  | KArgs => bind (shlex (get_str env (text_of default))) (fun l => Ok (VWords l))
  | KChoice choices =>
      let default := py_lower (get_str env (text_of default)) in
      if match default with [] => true | _ => false end || one_of default choices then Ok (VText default)
      else if one_of (lit "yes") choices && one_of default TRUE then Ok (VText (lit "yes"))
      else if one_of (lit "no") choices && one_of default FALSE then Ok (VText (lit "no"))
      else Err ValueError
  | KText => Ok (VText (get_str env (text_of default)))
  end.
(** argparse: the value of an option which is not on the command line. No [default] is passed (_option.py:121-131), so it is
    [None], but [False] for the action "store_true". *)
Definition argparse_default (k : okind) : value := match k with KFlag => VFlag false | _ => VNone end.
(** _option.py:148-159 [populate_ini_to_options], for one option. [ini]: the entry of the configuration file. *)
Definition populate (k : okind) (cli ini : option value) (default : value) : value :=
  match (match cli with Some v => v | None => argparse_default k end) with
  | VNone => match ini with Some v => v | None => default end
  | v => v
  end.
(** _option.py:68-131 [add_to_parser], which comes first, and then [populate_ini_to_options]. *)
Definition option_value (resolve : pystr -> pystr) (shlex : pystr -> result (list pystr)) (k : okind) (default : value)
  (env : option pystr) (cli ini : option value) : result value :=
  bind (env_default resolve shlex k default env) (fun d => Ok (populate k cli ini d)).

(** plugin.py:109-390 [_OPTIONS], with the lists of hdl.py:30-41 and plugin.py:58-65. [now] is [int(time())]; the name of
    the environment variable is given if it is not the upper-case name. *)
Record opt := Opt { o_name : pystr; o_kind : okind; o_default : value; o_env : option pystr }.
Definition simulators : list (pystr * pystr) :=
  map (fun p => (lit (fst p), lit (snd p)))
    [("verilator", "verilator"); ("nvc", "nvc"); ("ghdl", "ghdl"); ("iverilog", "icarus"); ("xrun", "xcelium");
     ("vcs", "vcs"); ("vsim", "questa"); ("vsimsa", "riviera")]%string.
Definition words (l : list string) : list pystr := map lit l.
Definition log_levels : okind := KChoice (words ["trace"; "debug"; "info"; "warning"; "error"; "critical"]%string).
Definition options (now : Z) : list opt :=
  let o n k d := Opt (lit n) k d None in
  [o "cocotb_summary" KFlag VNone;
   o "cocotb_sim_time_unit" (KChoice (words ["step"; "fs"; "ps"; "ns"; "us"; "ms"; "sec"])) (VText (lit "ns"));
   o "cocotb_gui" KFlag VNone; o "cocotb_waves" KFlag VNone;
   o "cocotb_waveform_viewer" KText (VText (lit "surfer"));
   Opt (lit "cocotb_seed") KInt (VNum now) (Some (lit "COCOTB_RANDOM_SEED"));
   o "cocotb_attach" KInt (VNum 0); o "cocotb_plusargs" KList (VWords []);
   o "cocotb_resolve_x" (KChoice (words ["error"; "weak"; "zeros"; "ones"; "random"])) VNone;
   o "cocotb_scheduler_debug" KFlag VNone;
   o "cocotb_simulator" (KChoice (lit "auto" :: map snd simulators)) (VText (lit "auto"));
   o "cocotb_trust_inertial_writes" KFlag VNone; o "cocotb_pytest_args" KArgs (VWords []); o "cocotb_pytest_dir" KPath VNone;
   o "cocotb_build_dir" KPath (VText (lit "sim_build")); o "cocotb_defines" KList (VWords []); o "cocotb_includes" KList (VWords []);
   o "cocotb_parameters" KList (VWords []); o "cocotb_library" KText (VText (lit "top")); o "cocotb_always" KFlag VNone;
   o "cocotb_clean" KFlag VNone; o "cocotb_verbose" KFlag VNone; o "cocotb_timescale" KText VNone; o "cocotb_env" KList (VWords []);
   o "cocotb_toplevel_library" KText (VText (lit "top")); o "cocotb_toplevel_lang" (KChoice (words ["auto"; "verilog"; "vhdl"])) (VText (lit "auto"));
   o "cocotb_gpi_interfaces" KList (VWords []); o "cocotb_build_args" KArgs (VWords []); o "cocotb_elab_args" KArgs (VWords []);
   o "cocotb_test_args" KArgs (VWords []); o "cocotb_pre_cmd" KArgs (VWords []); o "cocotb_log_level" log_levels VNone;
   o "gpi_log_level" log_levels VNone;
   o "pygpi_users" KList (VWords [join [44] (words ["cocotb_tools._coverage:start_cocotb_library_coverage"; "cocotb.logging:_configure";
       "cocotb._init:init_package_from_simulation"; "cocotb_tools._pytest._init:run_regression"])])]%string.
(** _option.py:63-66 [argument]. *)
Definition argument (name : pystr) : pystr := lit "--" ++ replace [95] [45] name.

(** [s.partition(c)] without the separator (plugin.py:83, 103). *)
Definition partition (c : Z) (s : pystr) : pystr * pystr := match split_once c s with Some p => p | None => (s, []) end.
(** plugin.py:74-88 [_to_timescale]. *)
Definition to_timescale (s : pystr) : pystr * pystr :=
  let '(unit, precision) := partition 47 s in
  let unit := strip unit in
  (unit, or_str (strip precision) unit).
(** plugin.py:91-106 [_to_dict]. *)
Definition to_dict (items : list pystr) : list (pystr * pystr) :=
  fold_left (fun d item => let '(name, value) := partition 61 item in dict_set d name value) items [].

(** hdl.py:44-60 [_get_simulator]; [which]: the executable is found. *)
Definition get_simulator (which : pystr -> bool) (simulator : pystr) : pystr :=
  if match simulator with [] => true | _ => false end || pystr_eqb simulator (lit "auto") then
    match find (fun p => which (fst p)) simulators with Some p => snd p | None => simulator end
  else simulator.

(** * The design *)

Inductive lfield := FSources | FIncludes | FPlusargs | FBuildArgs | FElabArgs | FTestArgs | FPreCmd.
Inductive dfield := FDefines | FParameters | FEnv.
Inductive bfield := FWaves | FVerbose | FAlways | FClean.
(** A marker of hdl.py:459-513 with its arguments. Sources and paths are given by their texts, as are values. *)
Inductive marker :=
| MRunner (args : list pystr)
| MExtend (f : lfield) (args : list pystr)
| MUpdate (f : dfield) (kwargs : list (pystr * pystr))
| MTimescale (unit : pystr) (precision : option pystr)
| MSeed (n : Z)
| MLibrary (name : pystr)
| MFlag (f : bfield) (condition : bool)
| MOther.
(** hdl.py:100-175: the attributes of a design which markers change. *)
Record hdl := Hdl {
  h_list : lfield -> list pystr; h_dict : dfield -> list (pystr * pystr); h_flag : bfield -> bool;
  h_modules : list pystr; h_timescale : option (pystr * pystr); h_seed : Z; h_library : pystr }.
Definition lfield_eqb (a b : lfield) : bool :=
  match a, b with
  | FSources, FSources | FIncludes, FIncludes | FPlusargs, FPlusargs | FBuildArgs, FBuildArgs | FElabArgs, FElabArgs
  | FTestArgs, FTestArgs | FPreCmd, FPreCmd => true
  | _, _ => false
  end.
Definition dfield_eqb (a b : dfield) : bool :=
  match a, b with FDefines, FDefines | FParameters, FParameters | FEnv, FEnv => true | _, _ => false end.
Definition bfield_eqb (a b : bfield) : bool :=
  match a, b with FWaves, FWaves | FVerbose, FVerbose | FAlways, FAlways | FClean, FClean => true | _, _ => false end.
(** [d.update(kw)]. *)
Definition dict_update {A} (d kw : list (pystr * A)) : list (pystr * A) := fold_left (fun d p => dict_set d (fst p) (snd p)) kw d.

(** hdl.py:459-513: [_mark_cocotb_*]. *)
Definition mark (h : hdl) (m : marker) : hdl :=
  match m with
  | MRunner args =>
      Hdl (h_list h) (h_dict h) (h_flag h)
        (match args with [] => [] | a :: rest => match a with [] => rest | _ => a :: rest end end) (h_timescale h) (h_seed h) (h_library h)
  | MExtend f args =>
      Hdl (fun g => if lfield_eqb f g then h_list h g ++ args else h_list h g) (h_dict h) (h_flag h) (h_modules h) (h_timescale h) (h_seed h) (h_library h)
  | MUpdate f kw =>
      Hdl (h_list h) (fun g => if dfield_eqb f g then dict_update (h_dict h g) kw else h_dict h g) (h_flag h) (h_modules h) (h_timescale h) (h_seed h) (h_library h)
  | MTimescale u p =>
      Hdl (h_list h) (h_dict h) (h_flag h) (h_modules h) (Some (u, match p with Some (c :: s) => c :: s | _ => u end)) (h_seed h) (h_library h)
  | MSeed n => Hdl (h_list h) (h_dict h) (h_flag h) (h_modules h) (h_timescale h) n (h_library h)
  | MLibrary n => Hdl (h_list h) (h_dict h) (h_flag h) (h_modules h) (h_timescale h) (h_seed h) n
  | MFlag f b => Hdl (h_list h) (h_dict h) (fun g => if bfield_eqb f g then b else h_flag h g) (h_modules h) (h_timescale h) (h_seed h) (h_library h)
  | MOther => h
  end.
(** hdl.py:438-457 [_apply_markers]; [chain]: the [own_markers] of the node and of its parents, the node first
    ([iter_parents]). *)
Definition apply_markers (h : hdl) (chain : list (list marker)) : hdl := fold_left (fun h ms => fold_left mark ms h) (rev chain) h.
(** hdl.py:100-175: the design before the markers, from the options. *)
Definition new_design (flags : bfield -> bool) (timescale : option (pystr * pystr)) (seed : Z) (library : pystr) : hdl :=
  Hdl (fun _ => []) (fun _ => []) flags [] timescale seed library.
(** hdl.py:190-191, with [request.path.name]: the test module. *)
Definition test_modules (h : hdl) (session : bool) (file : pystr) : list pystr :=
  match h_modules h with
  | [] => if session then [] else [fst (partition 46 file)]
  | l => l
  end.
(** hdl.py:199-203: a name without "test_" or "_test". *)
Definition drop_test (s : pystr) : pystr :=
  match after_prefix (lit "test_") s with
  | Some rest => rest
  | None => match after_prefix (rev (lit "_test")) (rev s) with Some rest => rev rest | None => s end
  end.
(** hdl.py:193-203: the top level. *)
Definition toplevel (modules : list pystr) : option pystr :=
  match modules with [] => None | m :: _ => Some (drop_test m) end.

(** _runner.py:47-54: the modules whose tests are collected; [stem]: the name of the file without its last suffix.
    [iter_markers] starts at the node itself. *)
Definition collect_modules (chain : list (list marker)) (stem : pystr) : list pystr :=
  match find (fun m => match m with MRunner (_ :: _) => true | _ => false end) (List.concat chain) with
  | Some (MRunner args) => args
  | _ => [stem]
  end.
(** _runner.py:56-58: the file which is looked for, in the directory of the runner; [os.path.pathsep] is ":". *)
Definition module_file (m : pystr) : pystr := replace [46] [58] m ++ lit ".py".

(** hdl.py:26: the allowed characters. *)
Definition posix_char (c : Z) : bool :=
  (65 <=? c) && (c <=? 90) || (97 <=? c) && (c <=? 122) || (48 <=? c) && (c <=? 57) || (c =? 47) || (c =? 46) || (c =? 95) || (c =? 45).
(** hdl.py:84-91, on POSIX: the test directory, below the build directory. *)
Definition dir_name (nodeid : pystr) : pystr :=
  map (fun c => if posix_char c then c else 95) (replace (lit "::") [47] (replace (lit ".py::") [47] nodeid)).

(** hdl.py:292-297, 406-414: arguments of [build] and [test]. An argument or attribute is a list or a tuple. *)
Inductive seq := SList (l : list pystr) | STuple (l : list pystr).
Definition seq_empty (s : seq) : bool := match s with SList [] | STuple [] => true | _ => false end.
(** [(argument or attribute) + option], the option being a list. *)
Definition extended (argument : option seq) (attribute : seq) (option : list pystr) : result seq :=
  match (match argument with Some s => if seq_empty s then attribute else s | None => attribute end) with
  | SList l => Ok (SList (l ++ option))
  | STuple _ => Err TypeError
  end.
(** [(argument or attribute) | option]. *)
Definition overridden (argument : option (list (pystr * pystr))) (attribute option : list (pystr * pystr)) : list (pystr * pystr) :=
  dict_update (match argument with Some (p :: d) => p :: d | _ => attribute end) option.
(** hdl.py:422: [seed or self.seed], for an integer. *)
Definition chosen_seed (argument : option Z) (attribute : Z) : Z := match argument with Some n => if n =? 0 then attribute else n | None => attribute end.

(** * Names of tests *)

(** [s.partition("::")] without the separator (_controller.py:201-202). *)
Fixpoint partition_colons (s : pystr) : pystr * pystr :=
  match after_prefix (lit "::") s with
  | Some rest => ([], rest)
  | None => match s with [] => ([], []) | c :: s' => let '(a, b) := partition_colons s' in (c :: a, b) end
  end.
(** [s.rpartition("/")[0]] (_controller.py:209-210). *)
Definition dir_of (path : pystr) : pystr := match split_once 47 (rev path) with Some (_, d) => rev d | None => [] end.
(** [removeprefix] and [removesuffix] (_controller.py:214-215). *)
Definition remove_prefix (p s : pystr) : pystr := match after_prefix p s with Some r => r | None => s end.
Definition remove_suffix (p s : pystr) : pystr := rev (remove_prefix (rev p) (rev s)).
(** [s.strip("/")] (_controller.py:216). *)
Fixpoint lstrip_slash (s : pystr) : pystr := match s with c :: s' => if c =? 47 then lstrip_slash s' else s | [] => [] end.
Definition strip_slash (s : pystr) : pystr := rev (lstrip_slash (rev (lstrip_slash s))).
(** _controller.py:185-222 [_get_mangled_nodeid]. *)
Definition mangled (runner nodeid : pystr) : pystr :=
  let runner_path := fst (partition_colons runner) in
  let '(item_path, item_function) := partition_colons nodeid in
  if pystr_eqb runner_path item_path then runner ++ lit "::" ++ item_function
  else
    match after_prefix (dir_of runner_path) (dir_of item_path) with
    | Some _ =>
        runner ++ lit "::" ++ replace [47] [46] (strip_slash (remove_suffix (lit ".py") (remove_prefix (dir_of runner_path) item_path)))
        ++ lit "::" ++ item_function
    | None => runner ++ lit "::" ++ nodeid
    end.

(** _junitxml.py:34-40: class name and name of a report in the JUnit file. *)
Definition junit (nodeid : pystr) : pystr * pystr :=
  let address := replace (lit "::") [46] (replace (lit ".py::") [46] (replace [47] [46] nodeid)) in
  match split_once 46 (rev address) with Some (n, c) => (rev c, rev n) | None => ([], address) end.

(** * Collection in the parent process *)

(** A collected item: something else than a test function, or a function, asynchronous or not, with the markers found at it
    or above ([get_closest_marker]). *)
Inductive item := IOther | IFunction (async runner_mark test_mark : bool).
(** What is done with it: it is yielded, a collector for its cocotb tests is yielded, a warning, or its keywords are given to
    the runner. *)
Inductive collected := YItem | YRunner | YWarn | YKeywords.
(** _controller.py:244-329 [_collect], for one item. [below]: the collector is below a Runner. (line 320: the parent of a
    test function exists.) *)
Definition collect (collectonly below : bool) (i : item) : list collected :=
  match i with
  | IOther => [YItem]
  | IFunction async runner_mark test_mark =>
      if async then
        if runner_mark then [YWarn]
        else if test_mark then
          if below then if collectonly then [YItem] else [YKeywords] else []
        else [YItem]
      else if test_mark then [YWarn]
      else if runner_mark then if negb below then [YItem; YRunner] else []
      else [YItem]
  end.
(** _regression.py:310-322: the same in the simulator; "cocotb_test" is among the keywords with a marker of that name, or
    when the function, its module or a directory has that name. *)
Definition collect_sim (test_keyword : bool) (i : item) : list collected :=
  match i with
  | IOther => [YItem]
  | IFunction async _ _ => if test_keyword && async then [YItem] else []
  end.

(** * Marks and verdicts *)

(** The outcome of a test function under pytest; [PCrash]: pytest's own hook fails. *)
Inductive pverdict := PSkipped | PXfailed | PPassed | PFailed | PCrash.
(** [isinstance(e, tuple)], from the left; a matcher is no class. *)
Fixpoint isinstance_any (c : cfg) (e : exc) (l : list expected) : option bool :=
  match l with
  | [] => Some false
  | EType k :: l' => if isinstance c e k then Some true else isinstance_any c e l'
  | EMatcher _ :: _ => None
  end.
(** _compat.py:104-110: the [xfail] mark; [Some None] has [raises=None]. *)
Definition xfail_mark (t : test) : option (option (list expected)) :=
  if t_expect_fail t || match t_expect_error t with [] => false | _ => true end then
    Some (match t_expect_error t with [] => None | l => Some l end)
  else None.
(** pytest's report (skipping.py, [pytest_runtest_makereport]; runner.py, reports.py) of a test which was run and ended
    with [r]; the mark is strict. _compat.py:101-102: with [skip] it is not run. *)
Definition pytest_score (c : cfg) (t : test) (r : option exc) : pverdict :=
  if t_skip t then PSkipped
  else
    match r with
    | Some e =>
        if isinstance c e cXfail then PXfailed
        else if isinstance c e cSkip then PSkipped
        else
          match xfail_mark t with
          | None => PFailed
          | Some None => PXfailed
          | Some (Some l) =>
              match isinstance_any c e l with Some true => PXfailed | Some false => PFailed | None => PCrash end
          end
    | None => match xfail_mark t with Some _ => PFailed | None => PPassed end
    end.

(** * The summary *)

(** A test report as pytest makes it: the phase, the outcome, and whether it has [wasxfail]; [p_cocotb]: plugin.py:703-712;
    [p_runner]: "cocotb_runner" is among its keywords. *)
Inductive when := WSetup | WCall | WTeardown.
Inductive result3 := RPassed | RFailed | RSkipped.
Record report := Report { p_when : when; p_outcome : result3; p_xfail : bool; p_cocotb : bool; p_runner : bool }.
Inductive category := GNone | GPassed | GFailed | GSkipped | GXfailed | GXpassed | GError | GRunner.
(** pytest's [pytest_report_teststatus] (skipping.py, runner.py, terminal.py): the key in [terminalreporter.stats]. *)
Definition pytest_category (r : report) : category :=
  if p_xfail r && match p_outcome r with RFailed => false | _ => true end then
    match p_outcome r with RSkipped => GXfailed | _ => GXpassed end
  else
    match p_when r, p_outcome r with
    | WCall, RPassed => GPassed | WCall, RFailed => GFailed | WCall, RSkipped => GSkipped
    | _, RFailed => GError | _, RSkipped => GSkipped | _, RPassed => GNone
    end.
(** plugin.py:716-735 [pytest_report_teststatus]: "... cocotb runner". *)
Definition category_of (r : report) : category :=
  if p_runner r && match p_when r with WCall => true | _ => false end then GRunner else pytest_category r.
(** plugin.py:767-773, 794: the line of the summary. *)
Definition status_of (g : category) : option result3 :=
  match g with
  | GPassed | GXfailed => Some RPassed
  | GFailed | GXpassed => Some RFailed
  | GSkipped => Some RSkipped
  | GNone | GError | GRunner => None
  end.
Definition result3_eqb (a b : result3) : bool :=
  match a, b with RPassed, RPassed | RFailed, RFailed | RSkipped, RSkipped => true | _, _ => false end.
(** plugin.py:793-800: the tests which are counted. The order of the categories is left out. *)
Definition counted (reports : list report) : list result3 :=
  flat_map (fun r => if p_cocotb r then match status_of (category_of r) with Some s => [s] | None => [] end else []) reports.
(** plugin.py:775-779, 799-800, 819-824: TESTS, PASS, FAIL, SKIP. *)
Definition tally (reports : list report) : nat * nat * nat * nat :=
  let l := counted reports in
  let n s := List.length (filter (result3_eqb s) l) in
  (List.length l, n RPassed, n RFailed, n RSkipped).

(** Model of [Runner.test] of /repo/src/cocotb_tools/runner.py: the environment of the simulator process, the place
    of the results file and the verdict. *)
From Verif Require Import Base TextModel ToolsModel XmlModel QuoteModel.
From Coq Require Import String.
Open Scope Z_scope.

(** A Python dict of environment variables. *)
Definition env := list (pystr * pystr).
Definition env_get (d : env) (k : string) : option pystr := dict_get d (lit k).
Definition env_set (d : env) (k : string) (v : pystr) : env := dict_set d (lit k) v.
(** [k in d]. *)
Definition env_has (d : env) (k : string) : bool := match env_get d k with Some _ => true | None => false end.
(** [d.update(other)]. *)
Definition env_update (d other : env) : env := fold_left (fun d kv => dict_set d (fst kv) (snd kv)) other d.

(** What the runner reads from the Python installation: [find_libpython.find_libpython()], [config.libs_dir],
    [os.pathsep.join(sys.path)], [sys.executable], [config.pygpi_entry_point()]. *)
Record host := Host {
  h_libpython : option pystr; h_libs_dir : pystr; h_sys_path : pystr; h_executable : pystr; h_entry : pystr }.

(** runner.py:276-303 [_set_env_common]; [environ] is [os.environ]. Simplification: [os.pathsep] is the colon. *)
Definition set_env_common (h : host) (environ self_env : env) : result env :=
  let self_env := env_update self_env environ in
  bind (if env_has self_env "GPI_USERS" then Ok []
        else match env_get self_env "LIBPYTHON_LOC" with
             | Some l => Ok [l]
             | None => match h_libpython h with Some p => Ok [p] | None => Err ValueError end
             end)
    (fun gpi_users =>
  match env_get self_env "PATH" with
  | None => Err KeyError
  | Some path =>
      let self_env := env_set self_env "PATH" (path ++ [58] ++ h_libs_dir h) in
      let self_env := env_set self_env "PYTHONPATH" (h_sys_path h) in
      let self_env := env_set self_env "PYGPI_PYTHON_BIN" (h_executable h) in
      Ok (if env_has self_env "GPI_USERS" then self_env
          else env_set self_env "GPI_USERS" (join [59] (gpi_users ++ [h_entry h])))
  end).
(** runner.py:305-306 [_set_env_build], called by [build] on the dict left by the calls before it (runner.py:462). *)
Definition set_env_build := set_env_common.
(** runner.py:308-318 [_set_env_test]; [trust]: the override of Ghdl (1414-1417), Nvc (1560-1563) and Verilator
    (1879-1882) which sets COCOTB_TRUST_INERTIAL_WRITES if it is not there. *)
Definition set_env_test (h : host) (environ : env) (trust : bool) (toplevel modules lang : pystr) (self_env : env) : result env :=
  bind (set_env_common h environ self_env) (fun self_env =>
  let self_env := env_set self_env "COCOTB_TOPLEVEL" (hd [] (split 45 toplevel)) in
  let self_env := env_set self_env "COCOTB_TEST_MODULES" modules in
  let self_env := env_set self_env "TOPLEVEL_LANG" lang in
  Ok (if trust && negb (env_has self_env "COCOTB_TRUST_INERTIAL_WRITES")
      then env_set self_env "COCOTB_TRUST_INERTIAL_WRITES" (lit "1") else self_env)).

(** The arguments of [test] which reach the environment: the names of [testcase] (see [testcase_names]), [str(seed)],
    [test_module] (joined by commas, runner.py:553-556), the paths of the wave file and the log file if there are any. *)
Record test_args := TestArgs {
  a_extra_env : env; a_testcase : option (list pystr); a_filter : option pystr; a_seed : option pystr;
  a_modules : pystr; a_toplevel : pystr; a_lang : pystr; a_attachments : list pystr; a_trust : bool }.
(** runner.py:576-610: the dict before [_set_env_test]. *)
Definition args_env (a : test_args) : env :=
  let self_env := a_extra_env a in
  let self_env := match a_testcase a with
                  | Some names => env_set self_env "COCOTB_TEST_FILTER" (testcase_regex names) | None => self_env end in
  let self_env := match a_filter a with Some f => env_set self_env "COCOTB_TEST_FILTER" f | None => self_env end in
  let self_env := match a_seed a with Some s => env_set self_env "COCOTB_RANDOM_SEED" s | None => self_env end in
  if env_has self_env "COCOTB_RESULTS_ATTACHMENTS" then self_env
  else env_set self_env "COCOTB_RESULTS_ATTACHMENTS" (join [44] (a_attachments a)).
(** runner.py:576-610, 651-652: the environment of the simulator, before [_test_command] (which may still set
    GPI_EXTRA or CDS_AUTO_64BIT). *)
Definition test_env (h : host) (environ : env) (a : test_args) (results_file : pystr) : result env :=
  bind (set_env_test h environ (a_trust a) (a_toplevel a) (a_modules a) (a_lang a) (args_env a)) (fun self_env =>
  Ok (env_set self_env "COCOTB_RESULTS_FILE" results_file)).

(** * The results file and the verdict *)

(** [s.rsplit(c, maxsplit=1)[-1]] and [s.split(c, maxsplit=1)[0]]. *)
Definition rsplit_last (c : Z) (s : pystr) : pystr := last (split c s) [].
Definition split_first (c : Z) (s : pystr) : pystr := hd [] (split c s).
(** runner.py:618-623: [current_test_name]. *)
Definition current_test_name (pytest : pystr) : pystr :=
  match pytest with [] => lit "test" | _ => split_first 32 (rsplit_last 58 pytest) end.
(** [path.is_absolute()] (POSIX). *)
Definition is_absolute (p : pystr) : bool := match p with 47 :: _ => true | _ => false end.
(** [dir / name] for a relative [name]; simplification: no normalisation of either. *)
Definition slash (dir name : pystr) : pystr := dir ++ [47] ++ name.

(** The exceptions of [test]. [XCalledProcess]: [subprocess.CalledProcessError]; [XParse]: ElementTree.ParseError. *)
Inductive xexn := XRuntime | XCalledProcess (returncode : Z) | XNotImplemented | XParse | XPy (e : exn) | XViewer.
Inductive xres (A : Type) := XOk (a : A) | XErr (e : xexn).
Arguments XOk {A} a.
Arguments XErr {A} e.

(** runner.py:625-645: [results_xml_file]; [pytest]: the value of PYTEST_CURRENT_TEST, stripped. *)
Definition results_file (results_xml : option pystr) (pytest test_dir : pystr) : xres pystr :=
  match results_xml with
  | Some p => if is_absolute p then XOk p
              else match pytest with
                   | [] => XOk (slash test_dir p)
                   | _ => XErr XNotImplemented
                   end
  | None => match pytest with
            | [] => XOk (slash test_dir (lit "results.xml"))
            | _ => XOk (slash test_dir (current_test_name pytest ++ lit ".result.xml"))
            end
  end.

(** A results file: [None] if it is not well-formed XML. *)
Definition file := option elem.
(** What happens when one command runs: its return code, and the results file if it writes one. *)
Record process := Process { p_returncode : Z; p_writes : option file }.
(** runner.py:728-746 [_execute_cmds] (and 719-726 [_execute]): the number of commands run, the results file
    afterwards and the exception. *)
Fixpoint execute_cmds (cmds : list process) (f : option file) : nat * option file * option xexn :=
  match cmds with
  | [] => (O, f, None)
  | c :: cmds' =>
      let f := match p_writes c with Some w => Some w | None => f end in
      if negb (p_returncode c =? 0) then (1%nat, f, Some XRuntime)
      else let '(n, f, e) := execute_cmds cmds' f in (S n, f, e)
  end.
(** check_results.py:14-39 [get_results] of a file which may be missing: [RuntimeError] if so. *)
Definition get_results_file (f : option file) : xres (Z * Z) :=
  match f with
  | None => XErr XRuntime
  | Some None => XErr XParse
  | Some (Some root) => match get_results root with Ok r => XOk r | Err e => XErr (XPy e) end
  end.

(** How [test] ends. *)
Inductive outcome := Returned (path : pystr) | Exits (code : Z) | Raises (e : xexn).
(** The world around [test]: the file which is at the place of the results file before, whether it can be deleted,
    the commands, and how the external viewer ends if it is to be shown (runner.py:682-702). *)
Record world := World {
  w_before : option file; w_unlink_ok : bool; w_cmds : list process; w_viewer : option xexn }.
(** runner.py:625-705, with 647-648: [unlink] whose OSError is suppressed. [external]: the condition
    [_use_external_viewer() and gui]. The environment cannot fail here (see [test_env]). *)
Definition test (results_xml : option pystr) (pytest test_dir : pystr) (external : bool) (w : world) : outcome :=
  match results_file results_xml pytest test_dir with
  | XErr e => Raises e
  | XOk path =>
      let f := if w_unlink_ok w then None else w_before w in
      let '(_, f, e) := execute_cmds (w_cmds w) f in
      let run (simulator_exit_code : Z) :=
        let rest :=
          if negb (simulator_exit_code =? 0) then Exits simulator_exit_code
          else match pytest with
               | [] => Returned path
               | _ => if external then match w_viewer w with Some e => Raises e | None => Returned path end
                      else Returned path
               end in
        match pytest with
        | [] => rest
        | _ => match get_results_file f with
               | XErr XRuntime => Exits simulator_exit_code
               | XErr e => Raises e
               | XOk (_, num_failed) =>
                   if negb (num_failed =? 0) then Exits (if simulator_exit_code =? 0 then 1 else simulator_exit_code)
                   else rest
               end
        end in
      match e with
      | Some (XCalledProcess returncode) => run returncode
      | Some e => Raises e
      | None => run 0
      end
  end.

(** Starting cocotb: the log settings (logging.py), the seed, the top level and the packages (_init.py), preview features
    (preview.py), entry points (pygpi/entry.py), shutdown callbacks (_shutdown.py) and the choice of the tests
    (regression.py). Environment variables are given by their values, [None] if not set. *)
From Verif Require Import Base TextModel ToolsModel XmlModel RegressionModel.
From Coq Require Import String.
Open Scope Z_scope.

(** * Log settings *)

(** logging.py:147-152: [strip_ansi]. [tty]: [sys.stdout.isatty()]. The default is computed first, so its errors come
    first; [and] is evaluated from the left and stops at the first false operand. *)
Definition init_strip_ansi (tty : bool) (ansi no_color gui : option pystr) : result bool :=
  bind (if tty then
          match get_str no_color None with
          | [] => bind (get_bool gui None) (fun g => Ok (negb g))
          | _ => Ok false
          end
        else Ok false) (fun default =>
  bind (get_bool ansi (Some default)) (fun b => Ok (negb b))).

(** [str.upper()] of one character. Exact for ASCII and for all other characters whose upper case contains an ASCII
    character; every other character is kept, which is a simplification: its upper case has no ASCII character. *)
Definition py_upper_char (c : Z) : pystr :=
  if (97 <=? c) && (c <=? 122) then [c - 32]
  else if c =? 223 then [83; 83]
  else if c =? 305 then [73]
  else if c =? 329 then [700; 78]
  else if c =? 383 then [83]
  else if c =? 496 then [74; 780]
  else if c =? 7830 then [72; 817]
  else if c =? 7831 then [84; 776]
  else if c =? 7832 then [87; 778]
  else if c =? 7833 then [89; 778]
  else if c =? 7834 then [65; 702]
  else if c =? 64256 then [70; 70]
  else if c =? 64257 then [70; 73]
  else if c =? 64258 then [70; 76]
  else if c =? 64259 then [70; 70; 73]
  else if c =? 64260 then [70; 70; 76]
  else if (c =? 64261) || (c =? 64262) then [83; 84]
  else [c].
Definition py_upper (s : pystr) : pystr := flat_map py_upper_char s.

(** The levels the standard logging module knows, and TRACE (logging.py:42-43).
    Simplification: no other names are added before cocotb starts. *)
Definition level_names : list (pystr * Z) :=
  [(lit "CRITICAL", 50); (lit "FATAL", 50); (lit "ERROR", 40); (lit "WARN", 30); (lit "WARNING", 30);
   (lit "INFO", 20); (lit "DEBUG", 10); (lit "NOTSET", 0); (lit "TRACE", 5)].
(** The levels of the loggers: of "gpi", of "cocotb", and the level kept by the simulator interface. *)
Record levels := Levels { l_gpi : Z; l_cocotb : Z; l_native : Z }.
(** [Logger.setLevel] with a name: [logging._checkLevel]. *)
Definition check_level (name : pystr) : result Z :=
  match dict_get level_names name with Some n => Ok n | None => Err ValueError end.
(** logging.py:157-174 [set_level] for "gpi", whose [setLevel] was replaced (logging.py:180-195): it also sets the level of
    the simulator interface to the effective level, that of the root logger ([root]) if it is 0. *)
Definition set_gpi_level (root : Z) (value : option pystr) (l : levels) : result levels :=
  match py_upper (get_str value None) with
  | [] => Ok l
  | name => bind (check_level name) (fun n => Ok (Levels n (l_cocotb l) (if n =? 0 then root else n)))
  end.
(** logging.py:157-174 [set_level] for "cocotb". *)
Definition set_cocotb_level (value : option pystr) (l : levels) : result levels :=
  match py_upper (get_str value None) with
  | [] => Ok l
  | name => bind (check_level name) (fun n => Ok (Levels (l_gpi l) n (l_native l)))
  end.
(** logging.py:136-177 [_init]: what [strip_ansi] and the levels become. *)
Definition logging_init (tty : bool) (ansi no_color gui gpi_level cocotb_level : option pystr) (root : Z) (l : levels)
  : result (bool * levels) :=
  bind (init_strip_ansi tty ansi no_color gui) (fun strip =>
  bind (set_gpi_level root gpi_level l) (fun l =>
  bind (set_cocotb_level cocotb_level l) (fun l => Ok (strip, l)))).
(** logging.py:198-202 [_configure]: the arguments for [default_config]; the prefix is not stripped. *)
Definition configure (reduced prefix : option pystr) : result (bool * pystr) :=
  bind (get_bool reduced (Some true)) (fun r => Ok (r, match prefix with Some p => p | None => [] end)).

(** * The seed *)

(** [int(str(v))] of a plusarg: [str(True)] is "True". *)
Definition int_plusarg (v : plusval) : result Z :=
  match v with PTrue => py_int10 (lit "True") | PStr s => py_int10 s end.
(** _init.py:169-203 [_setup_random_seed]; [now] is [int(time.time())]. *)
Definition setup_random_seed (now : Z) (cocotb_seed old_seed : option pystr) (plus : list (pystr * plusval)) : result Z :=
  match cocotb_seed with
  | Some _ => get_int cocotb_seed (Some now)
  | None =>
      match old_seed with
      | Some _ => get_int old_seed (Some now)
      | None =>
          match dict_get plus (lit "ntb_random_seed") with
          | Some v => int_plusarg v
          | None => match dict_get plus (lit "seed") with
                    | Some v => int_plusarg v
                    | None => Ok now
                    end
          end
      end
  end.

(** * The top level *)

(** A root of the simulation: its name, and which it is. *)
Definition root := (pystr * Z)%type.
(** _init.py:207-214: the name wanted. *)
Definition root_name (toplevel : option pystr) : option pystr :=
  match toplevel with
  | None => None
  | Some s =>
      match strip s with
      | [] => None
      | n => match split_once 46 n with Some (_, rest) => Some rest | None => Some n end
      end
  end.
(** _init.py:206-240 [_setup_root_handle]: [cocotb.top] and [cocotb.tops]. [fold] is [str.casefold]; [handles] what
    [simulator.root_iterate()] yields; [get_root] is [simulator.get_root_handle]. Objects made from handles
    ([_make_sim_object], C40) are represented by the handles; [cocotb.top._name] is the name of the handle. *)
Definition setup_root_handle (fold : pystr -> pystr) (toplevel : option pystr) (handles : option (list root))
  (get_root : option pystr -> option root) (tops : list (pystr * root)) : result (root * list (pystr * root)) :=
  let name := root_name toplevel in
  let tops := match handles with
              | Some l => fold_left (fun d h => dict_set d (fold (fst h)) h) l tops
              | None => tops
              end in
  match (match name with Some n => dict_get tops (fold n) | None => None end) with
  | Some h => Ok (h, tops)
  | None =>
      match get_root name with
      | None => Err RuntimeError
      | Some h => Ok (h, dict_set tops (match name with Some n => fold n | None => fold (fst h) end) h)
      end
  end.

(** _init.py:79-102 [_process_packages]: the attributes of [cocotb.packages]; [None]: the simulator cannot say.
    Simplification: without the eager discovery for Icarus Verilog. *)
Definition process_packages (pkgs : option (list root)) : list (pystr * root) :=
  match pkgs with
  | None => []
  | Some l => fold_left (fun d h => dict_set d (fst h) h) l []
  end.

(** * Preview features *)

(** preview.py:15-24 [Feature]: the values; preview.py:27 [_feature_strs]. *)
Definition features : list pystr := [lit "xfail_in_results"].
(** preview.py:68-75 [_parse_features]. *)
Fixpoint parse_features (values : list pystr) : result (list pystr) :=
  match values with
  | [] => Ok []
  | v :: rest =>
      match strip v with
      | [] => parse_features rest
      | f => if one_of f features then bind (parse_features rest) (fun fs => Ok (f :: fs)) else Err ValueError
      end
  end.
(** preview.py:78-93 [_init]: the features enabled, besides those which are already. *)
Definition preview_init (preview : option pystr) : result (list pystr) :=
  match preview with
  | None | Some [] => Ok []
  | Some s =>
      match as_bool s with
      | Ok true => Ok features
      | Ok false => Ok []
      | Err _ => parse_features (split 44 s)
      end
  end.

(** * Entry points *)

(** entry.py:13-21: the default. *)
Definition default_entries : list pystr :=
  map lit ["cocotb_tools._coverage:start_cocotb_library_coverage"; "cocotb.logging:_configure";
           "cocotb._init:init_package_from_simulation"; "cocotb.regression:_run_regression"]%string.
(** entry.py:25-33: the modules and functions; any malformed entry is an error. *)
Fixpoint parse_entries (l : list pystr) : result (list (pystr * pystr)) :=
  match l with
  | [] => Ok []
  | e :: rest =>
      match split 58 e with
      | [m; f] => bind (parse_entries rest) (fun es => Ok ((m, f) :: es))
      | _ => Err RuntimeError
      end
  end.
(** entry.py:35-42: the entries which were run completely, and the error. [run earlier entry]: what importing the module
    and calling the function does, after the entries [earlier]. *)
Fixpoint run_entries (run : list (pystr * pystr) -> pystr * pystr -> result unit) (earlier l : list (pystr * pystr))
  : list (pystr * pystr) * result unit :=
  match l with
  | [] => (earlier, Ok tt)
  | e :: rest => match run earlier e with
                 | Ok _ => run_entries run (earlier ++ [e]) rest
                 | Err x => (earlier, Err x)
                 end
  end.
(** entry.py:10-42 [load_entry]. *)
Definition load_entry (run : list (pystr * pystr) -> pystr * pystr -> result unit) (users : option pystr)
  : list (pystr * pystr) * result unit :=
  match parse_entries (get_list users (Some default_entries) 44) with
  | Err x => ([], Err x)
  | Ok l => run_entries run [] l
  end.

(** * Shutdown *)

(** A callback: who it is, the callbacks it registers when called, and whether it raises (after registering). *)
Inductive callback := Callback (id : Z) (registers : list callback) (raises : bool).
Definition cb_id (c : callback) : Z := let 'Callback i _ _ := c in i.
Definition cb_registers (c : callback) : list callback := let 'Callback _ r _ := c in r.
Definition cb_raises (c : callback) : bool := let 'Callback _ _ r := c in r.
(** _shutdown.py:12-14 [register]. *)
Definition register (cbs : list callback) (c : callback) : list callback := cbs ++ [c].
(** _shutdown.py:17-21 [_shutdown], the body of the loop: the callbacks left and whether an exception leaves it. *)
Definition shutdown_one (c : callback) (rest : list callback) : list callback * bool :=
  (fold_left register (cb_registers c) rest, cb_raises c).
(** _shutdown.py:17-21 [_shutdown]: [shutdown cbs called left raised]: with the callbacks [cbs] registered those in
    [called] are called; [left] are registered in the end. *)
Inductive shutdown : list callback -> list callback -> list callback -> bool -> Prop :=
| sd_done : shutdown [] [] [] false
| sd_raise c rest left : shutdown_one c rest = (left, true) -> shutdown (c :: rest) [c] left true
| sd_next c rest rest' called left raised : shutdown_one c rest = (rest', false) ->
    shutdown rest' called left raised -> shutdown (c :: rest) (c :: called) left raised.

(** * The tests *)

(** What a module has under a name: a test, a generator with the tests it makes, or something else. *)
Inductive member := MTest (t : test) | MGenerator (ts : list test) | MOther.
(** regression.py:258-267: the tests of one module. *)
Definition module_tests (m : list member) : list test :=
  flat_map (fun o => match o with MTest t => [t] | MGenerator ts => ts | MOther => [] end) m.
(** regression.py:246-282 [discover_tests]; [import] gives the members of a module in the order they were defined, or
    fails. Warnings are not modelled. *)
Fixpoint discover (import : pystr -> result (list member)) (modules : list pystr) (queue : list test) : result (list test) :=
  match modules with
  | [] => match queue with [] => Err RuntimeError | _ => Ok queue end
  | m :: rest => bind (import m) (fun ms => discover import rest (queue ++ module_tests ms))
  end.
(** regression.py:1144-1174 [_setup_regression_manager]: the tests, the texts of the filters, and whether the mode is
    TESTCASE. [compile] tells whether [re.compile] accepts a text (otherwise [re.error], here ValueError). *)
Definition setup_regression (import : pystr -> result (list member)) (compile : pystr -> bool)
  (modules testcase test_filter : option pystr) : result (list test * list pystr * bool) :=
  match get_list modules None 44 with
  | [] => Err RuntimeError
  | ms =>
      bind (discover import ms []) (fun tests =>
      let testcases := get_list testcase None 44 in
      let filter := get_str test_filter None in
      let add fs := if forallb compile fs then Ok (tests, fs, true) else Err ValueError in
      match testcases, filter with
      | _ :: _, _ :: _ => Err RuntimeError
      | _ :: _, [] => add (map (fun t => t ++ lit "$") testcases)
      | [], _ :: _ => add [filter]
      | [], [] => Ok (tests, [], false)
      end)
  end.

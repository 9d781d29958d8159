(** What the documentation of [Runner.build] and [Runner.test] promises about the command lines. *)
From Verif Require Import Base TextModel QuoteModel RunnerModel BuildModel.
From Coq Require Import String.
Open Scope Z_scope.

(** [xs] occurs in [l] in one piece. *)
Definition contiguous {A} (xs l : list A) : Prop := exists before after, l = before ++ xs ++ after.

(** The languages a simulator is said to build; the lists it takes its sources from (runner.py:357-360), in order. *)
Definition verilog_only (s : sim) : bool := match s with Icarus | Verilator | Dsim => true | _ => false end.
Definition vhdl_only (s : sim) : bool := match s with Ghdl | Nvc => true | _ => false end.
Definition considered (s : sim) (b : build_in) : list source :=
  b_sources b ++ (if verilog_only s then b_verilog b else if vhdl_only s then b_vhdl b else b_vhdl b ++ b_verilog b).
(** Whether the runner takes a file of this kind; QuestaQIS leaves the question to qrun. *)
Definition accepts (s : sim) (t : tag) : bool :=
  match s, t with
  | QuestaQIS, _ => true
  | Verilator, TControl => true
  | _, TControl => false
  | _, TVHDL => negb (verilog_only s)
  | _, TVerilog => negb (vhdl_only s)
  end.
(** The extensions of the documentation (runner.py:365-373) and of a Verilator control file. *)
Definition extension_kind (ext : pystr) : option tag :=
  dict_get (map (fun x => (lit (fst x), snd x))
    [("v", TVerilog); ("sv", TVerilog); ("vh", TVerilog); ("svh", TVerilog); ("vhd", TVHDL); ("vhdl", TVHDL); ("vlt", TControl)]%string) ext.
(** The build arguments meant for sources of kind [t] (runner.py:385-387). *)
Definition meant_for (t : tag) (args : list (pystr * option tag)) : list pystr :=
  map fst (filter (fun a => match snd a, t with
    | None, _ | Some TVerilog, TVerilog | Some TVHDL, TVHDL => true
    | _, _ => false end) args).
(** The runners which hand over all sources in one command, and those which look at time stamps. *)
Definition one_command (s : sim) : bool := match s with Questa | Riviera | ActiveHDL => false | _ => true end.
Definition may_skip (s : sim) : bool := match s with Icarus | Vcs | Dsim => true | _ => false end.
Definition aldec (s : sim) : bool := match s with Riviera | ActiveHDL => true | _ => false end.
(** The file whose time stamp stands for the last build. *)
Definition output_file (s : sim) (b : build_in) : pystr :=
  b_dir b ++ lit "/" ++ match s with
  | Icarus => lit "sim.vvp" | Vcs => lit "simv" | Dsim => lit "image.so"
  | _ => b_library b ++ lit "/" ++ b_library b ++ lit ".lib" end.
(** Whether parameters are given to the compiler or to the simulator. *)
Definition at_build (s : sim) : bool := match s with Icarus | QuestaQIS | Verilator | Xcelium | Vcs | Dsim => true | _ => false end.
(** The same test with another timescale. *)
Definition with_timescale (t : test_in) (p : option (pystr * pystr)) : test_in :=
  TestIn (t_toplevel t) (t_library t) (t_vhdl t) (t_gpi t) (t_elab t) (t_args t) (t_plus t) (t_waves t) (t_gui t) (t_verbose t) p
    (t_pre t) (t_parameters t) (t_dir t) (t_name t) (t_build t).
(** The same build or test with something changed. *)
Definition with_ignored (b : build_in) (vhdl verilog : list source) : build_in :=
  BuildIn (b_library b) (b_sources b) vhdl verilog (b_includes b) (b_defines b) (b_parameters b) (b_args b) (b_toplevel b)
    (b_always b) (b_verbose b) (b_timescale b) (b_waves b) (b_dir b).
Definition with_settings (b : build_in) (includes : list pystr) (defines parameters : list (pystr * pystr)) : build_in :=
  BuildIn (b_library b) (b_sources b) (b_vhdl b) (b_verilog b) includes defines parameters (b_args b) (b_toplevel b)
    (b_always b) (b_verbose b) (b_timescale b) (b_waves b) (b_dir b).
Definition with_parameters (t : test_in) (p : list (pystr * pystr)) : test_in :=
  TestIn (t_toplevel t) (t_library t) (t_vhdl t) (t_gpi t) (t_elab t) (t_args t) (t_plus t) (t_waves t) (t_gui t) (t_verbose t)
    (t_timescale t) (t_pre t) p (t_dir t) (t_name t) (t_build t).
Definition with_elab (t : test_in) (l : list pystr) : test_in :=
  TestIn (t_toplevel t) (t_library t) (t_vhdl t) (t_gpi t) l (t_args t) (t_plus t) (t_waves t) (t_gui t) (t_verbose t)
    (t_timescale t) (t_pre t) (t_parameters t) (t_dir t) (t_name t) (t_build t).
Definition with_pre (t : test_in) (p : option (list pystr)) : test_in :=
  TestIn (t_toplevel t) (t_library t) (t_vhdl t) (t_gpi t) (t_elab t) (t_args t) (t_plus t) (t_waves t) (t_gui t) (t_verbose t)
    (t_timescale t) p (t_parameters t) (t_dir t) (t_name t) (t_build t).
Definition with_verbose (t : test_in) (v : bool) : test_in :=
  TestIn (t_toplevel t) (t_library t) (t_vhdl t) (t_gpi t) (t_elab t) (t_args t) (t_plus t) (t_waves t) (t_gui t) v
    (t_timescale t) (t_pre t) (t_parameters t) (t_dir t) (t_name t) (t_build t).
(** What asking for messages is to say to each simulator. *)
Definition verbosity (s : sim) (v : bool) : list pystr :=
  match s, v with
  | (Questa | QuestaQIS), false => [lit "-quiet"]
  | Xcelium, false => [lit "-quiet"; lit "-plinowarn"]
  | Xcelium, true => map lit ["-messages"; "-status"; "-gverbose"; "-pliverbose"; "-plidebug"; "-plierr_verbose"]%string
  | Vcs, true => [lit "-diag all"]
  | Vcs, false => [lit "-suppress=ASLR_DETECTED_INFO"]
  | _, _ => []
  end.
(** The kind and the path of an element of a source list (runner.py:169-190, 197-210). *)
Definition kind_of (s : source_arg) : bres tag := match s with Tagged t _ => BOk t | Plain p => determine_file_type p end.
Definition path_of (s : source_arg) : pystr := match s with Tagged _ p => p | Plain p => p end.
(** How a define, an include directory and a parameter are given to each tool (runner.py:910-919, 1061-1068, 1234-1241, 1900-1907, 2192-2203, 2292-2299). *)
Definition define_opt (s : sim) (nv : pystr * pystr) : pystr :=
  (match s with Icarus | Verilator => lit "-D" | _ => lit "+define+" end) ++ fst nv ++ lit "=" ++ snd nv.
Definition include_opt (s : sim) (i : pystr) : pystr := (match s with Icarus | Verilator => lit "-I" | _ => lit "+incdir+" end) ++ i.
Definition parameter_opt (s : sim) (top : pystr) (nv : pystr * pystr) : pystr :=
  (match s with Icarus => lit "-P" ++ top ++ lit "." | Verilator => lit "-G" | Vcs => lit "-pvalue+" ++ top ++ lit "."
   | Dsim => lit "-defparam " | _ => lit "-g" end) ++ fst nv ++ lit "=" ++ snd nv.

(** Where the design is which a build command makes, and from where a test command takes it: what the command lines tell the simulators. *)
From Verif Require Import Base RunnerModel BuildModel BuildSpec.
From Coq Require Import String.
Open Scope Z_scope.

(** A command has a word followed by another one; is of a program, after a prefix. *)
Definition option_is (o : string) (v : pystr) (c : command) : Prop := contiguous [lit o; v] c.
(** The design [d] is made by commands executed in [cwd]: a file, a library (relative names are in [cwd]), or an executable. *)
Definition makes (s : sim) (cwd : pystr) (cmds : list command) (d : pystr) : Prop :=
  match s with
  | Icarus | Vcs => exists c, In c cmds /\ option_is "-o" d c
  | Questa => exists lib, In [lit "vlib"; lib] cmds /\ d = slash cwd lib
  | QuestaQIS => exists c, In c cmds /\ option_is "-outdir" d c
  | Ghdl => exists c lib rest, In c cmds /\ c = [lit "ghdl"; lit "-i"; lit "--work=" ++ lib] ++ rest /\ d = slash cwd lib
  | Nvc => exists c lib rest, In c cmds /\ c = [lit "nvc"; lit "--work=" ++ lib] ++ rest /\ d = slash cwd lib
  | Verilator => exists c dir exe, In c cmds /\ option_is "-Mdir" dir c /\ option_is "-o" exe c /\ d = slash dir exe
  | Xcelium => exists c, In c cmds /\ option_is "-xmlibdirname" d c
  | Dsim => exists c dir name, In c cmds /\ option_is "-work" dir c /\ option_is "-genimage" name c /\ d = slash dir name
  | Riviera | ActiveHDL => False
  end.
(** The design is taken from [d] by commands executed in [cwd], after the prefix [p]; [top] is simulated, where the command says so. *)
Definition takes (s : sim) (p : list pystr) (cwd top : pystr) (cmds : list command) (d : pystr) : Prop :=
  match s with
  | Icarus => exists c, cmds = [p ++ lit "vvp" :: c] /\ In d c
  | Vcs | Verilator => exists c, cmds = [p ++ d :: c]
  | Questa => exists c lib, cmds = [p ++ lit "vsim" :: c] /\ In (lib ++ lit "." ++ top) c /\ ~ In 46 lib /\ d = slash cwd lib
  | QuestaQIS => exists c lib, cmds = [p ++ lit "qrun" :: c] /\ option_is "-outdir" d c /\ option_is "-top" (lib ++ lit "." ++ top) c
  | Ghdl => exists c lib, cmds = [p ++ [lit "ghdl"; lit "-r"; lit "--work=" ++ lib] ++ c] /\ In top c /\ d = slash cwd lib
  | Nvc => exists c lib, cmds = [p ++ [lit "nvc"; lit "--work=" ++ lib ++ lit ":" ++ d] ++ c] /\ option_is "-e" top c
  | Xcelium => exists first c, cmds = [first; p ++ lit "xrun" :: c] /\ option_is "-xmlibdirname" d c
  | Dsim => exists c dir name, cmds = [lit "dsim" :: c] /\ option_is "-work" dir (lit "dsim" :: c) /\ option_is "-image" name c /\ d = slash dir name
  | Riviera | ActiveHDL => False
  end.
(** The simulators which find the design by the directory of the build, wherever the commands are executed. *)
Definition by_directory (s : sim) : bool := match s with Icarus | QuestaQIS | Verilator | Xcelium | Vcs | Dsim => true | _ => false end.
(** The directories are right: [cwd] is where the build commands are executed (runner.py:459, 471), [t_dir] where the test is (657). *)
Definition placed (s : sim) (cwd : pystr) (t : test_in) : Prop :=
  match s with
  | Nvc => cwd = b_dir (t_build t)
  | Questa | Ghdl => cwd = t_dir t
  | _ => True
  end.
Definition with_toplevel (t : test_in) (x : pystr) : test_in :=
  TestIn x (t_library t) (t_vhdl t) (t_gpi t) (t_elab t) (t_args t) (t_plus t) (t_waves t) (t_gui t) (t_verbose t) (t_timescale t)
    (t_pre t) (t_parameters t) (t_dir t) (t_name t) (t_build t).

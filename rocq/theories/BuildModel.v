(** Model of the command lines of the runners of /repo/src/cocotb_tools/runner.py: the sources and build arguments of
    [Runner.build], and [_build_command] and [_test_command] of every simulator. *)
From Verif Require Import Base TextModel QuoteModel RunnerModel.
From Coq Require Import String.
Open Scope Z_scope.

(** The tags [Verilog], [VHDL] and [VerilatorControlFile] (runner.py:160-190). *)
Inductive tag := TVerilog | TVHDL | TControl.
(** An element of one of the source lists: a path, or a tagged path. *)
Inductive source_arg := Plain (path : pystr) | Tagged (t : tag) (path : pystr).
(** An element of [build_args]. *)
Inductive build_arg := PlainArg (s : pystr) | TaggedArg (t : tag) (s : pystr).

(** The exceptions of building: ValueError, RuntimeError, SystemExit (executable not found), OSError (a source is
    missing), TypeError, IndexError. *)
Inductive berr := BValue | BRuntime | BExit | BOS | BIndex.
Inductive bres (A : Type) := BOk (a : A) | BErr (e : berr).
Arguments BOk {A} a.
Arguments BErr {A} e.
Definition bbind {A B} (m : bres A) (f : A -> bres B) : bres B := match m with BOk a => f a | BErr e => BErr e end.

(** [Path(p).name] (POSIX): the last component which is neither empty nor a single dot. *)
Definition path_name (p : pystr) : pystr :=
  last (filter (fun s => match s with [] => false | [46] => false | _ => true end) (split 47 p)) [].
(** [Path(p).suffix]: from the last dot of the name on, unless that is its first or last character (CPython before
    3.14; later versions differ only for a dot at the end). *)
Fixpoint last_dot (s : pystr) : option (pystr * pystr) :=
  match s with
  | [] => None
  | c :: s' => match last_dot s' with
               | Some (a, b) => Some (c :: a, b)
               | None => if c =? 46 then Some ([], s') else None
               end
  end.
Definition path_suffix (p : pystr) : pystr :=
  match last_dot (path_name p) with
  | Some (_ :: _, c :: b) => 46 :: c :: b
  | _ => []
  end.
(** runner.py:193-210 [_determine_file_type]. *)
Definition determine_file_type (filename : pystr) : bres tag :=
  let ext := path_suffix filename in
  if one_of ext (map lit [".v"; ".sv"; ".vh"; ".svh"]%string) then BOk TVerilog
  else if one_of ext (map lit [".vhd"; ".vhdl"]%string) then BOk TVHDL
  else if pystr_eqb ext (lit ".vlt") then BOk TControl
  else BErr BValue.

(** A source after [_set_*_sources]: absolute path and tag. *)
Definition source : Type := pystr * tag.
(** The loop shared by runner.py:761-776 [_set_verilog_sources], 786-799 [_set_vhdl_sources] and 809-824
    [_set_sources]; [allowed]: the tags accepted by the [isinstance] test; [abs]: [get_abs_path] (883-890). *)
Fixpoint set_list (allowed : tag -> bool) (abs : pystr -> pystr) (l : list source_arg) : bres (list source) :=
  match l with
  | [] => BOk []
  | s :: l' =>
      bbind (match s with
             | Tagged t p => if allowed t then BOk (abs p, t) else BErr BValue
             | Plain p => bbind (determine_file_type p) (fun t => BOk (abs p, t))
             end) (fun x => bbind (set_list allowed abs l') (fun xs => BOk (x :: xs)))
  end.
(** runner.py:761-776. *)
Definition set_verilog_sources := set_list (fun t => match t with TVHDL => false | _ => true end).
(** runner.py:786-799. *)
Definition set_vhdl_sources := set_list (fun t => match t with TVHDL => true | _ => false end).
(** runner.py:809-824. *)
Definition set_sources := set_list (fun _ => true).
(** runner.py:834-846 [_set_build_args]. *)
Fixpoint set_build_args (l : list build_arg) : bres (list (pystr * option tag)) :=
  match l with
  | [] => BOk []
  | a :: l' =>
      bbind (match a with
             | TaggedArg TControl _ => BErr BValue
             | TaggedArg t s => BOk (s, Some t)
             | PlainArg s => BOk (s, None)
             end) (fun x => bbind (set_build_args l') (fun xs => BOk (x :: xs)))
  end.

(** The state left by [build] for [_build_command] (runner.py:425-468); [b_always] is already true for a clean build;
    the values of defines and parameters are their [format]. *)
Record build_in := BuildIn {
  b_library : pystr; b_sources : list source; b_vhdl : list source; b_verilog : list source;
  b_includes : list pystr; b_defines : list (pystr * pystr); b_parameters : list (pystr * pystr);
  b_args : list (pystr * option tag); b_toplevel : option pystr; b_always : bool; b_verbose : bool;
  b_timescale : option (pystr * pystr); b_waves : bool; b_dir : pystr }.
(** What the runner finds on the machine: modification times of files (absent: no such file), SIM_CMD_PREFIX and
    SIM_CMD_SUFFIX split at blanks (848-860), [config.lib_entry] and [config.lib_name_path], the Verilator executable,
    [config.libs_dir], the path of verilator.cpp, the number of jobs, whether NVC knows --preserve-case, whether GHDL has
    the mcode back end, the name of the temporary script. *)
Record machine := Machine {
  m_mtime : pystr -> option Z; m_prefix : list pystr; m_suffix : list pystr; m_lib : string -> string -> pystr;
  m_lib_exists : pystr -> bool; m_verilator : option pystr; m_libs_dir : pystr; m_cpp : pystr; m_jobs : pystr;
  m_preserve : bool; m_mcode : bool; m_tmp : pystr }.

(** runner.py:863-880 [outdated]. Modification times in any unit; simplification: a path is a file or absent. *)
Fixpoint newest (mtime : pystr -> option Z) (dep_mtime : Z) (deps : list pystr) : bres Z :=
  match deps with
  | [] => BOk dep_mtime
  | d :: deps' => match mtime d with
                  | None => BErr BOS
                  | Some t => newest mtime (Z.max t dep_mtime) deps'
                  end
  end.
(** runner.py:863-880. *)
Definition outdated (mtime : pystr -> option Z) (output : pystr) (deps : list pystr) : bres bool :=
  match mtime output with
  | None => BOk true
  | Some output_mtime => bbind (newest mtime 0 deps) (fun dep_mtime => BOk (output_mtime <? dep_mtime))
  end.

(** The runners (runner.py:893, 1044, 1192, 1404, 1533, 1639, 1796, 1852, 1868, 2001, 2176, 2278). *)
Inductive sim := Icarus | Questa | QuestaQIS | Ghdl | Nvc | Riviera | ActiveHDL | Verilator | Xcelium | Vcs | Dsim.
(** [_Command] (runner.py:52): the words of a command line. *)
Definition command := list pystr.

(** [[f"{pre}{x}" for x in l]]. *)
Definition prefixed (pre : string) (l : list pystr) : list pystr := map (fun x => lit pre ++ x) l.
(** [[f"{pre}{name}={value}" for name, value in d.items()]]. *)
Definition assigned (pre : pystr) (d : list (pystr * pystr)) : list pystr :=
  map (fun nv => pre ++ fst nv ++ lit "=" ++ snd nv) d.
(** [[source.value for source in l]] and [[arg.value for arg in self._build_args]]. *)
Definition paths (l : list source) : list pystr := map fst l.
Definition values (l : list (pystr * option tag)) : list pystr := map fst l.
(** [arg.tag in (t, None)]. *)
Definition tag_eqb (a b : tag) : bool :=
  match a, b with TVerilog, TVerilog => true | TVHDL, TVHDL => true | TControl, TControl => true | _, _ => false end.
Definition tag_fits (t : tag) (a : option tag) : bool := match a with None => true | Some u => tag_eqb u t end.
Definition args_for (t : tag) (l : list (pystr * option tag)) : list pystr := values (filter (fun a => tag_fits t (snd a)) l).
(** The loops which raise ValueError for a source or an argument of an unsupported language. *)
Definition check (ok : bool) : bres unit := if ok then BOk tt else BErr BValue.
Definition only (t : tag) (l : list source) : bres unit := check (forallb (fun s => tag_eqb (snd s) t) l).
Definition only_args (t : tag) (l : list (pystr * option tag)) : bres unit := check (forallb (fun a => tag_fits t (snd a)) l).

(** runner.py:893-1017 Icarus. *)
Definition icarus_build (m : machine) (b : build_in) : bres (list command) :=
  match b_toplevel b with
  | None => BErr BValue
  | Some top =>
      let sources := b_sources b ++ b_verilog b in
      bbind (only TVerilog sources) (fun _ =>
      bbind (only_args TVerilog (b_args b)) (fun _ =>
      let build_args := values (b_args b) in
      let build_args := build_args ++ (if b_waves b then map lit ["-s"; "cocotb_iverilog_dump"]%string else []) in
      let build_args := build_args ++ (match b_timescale b with Some _ => [lit "-f"; slash (b_dir b) (lit "cmds.f")] | None => [] end) in
      let sim_file := slash (b_dir b) (lit "sim.vvp") in
      bbind (outdated (m_mtime m) sim_file (paths sources)) (fun old =>
      BOk (if old || b_always b then
        [[lit "iverilog"; lit "-o"; sim_file; lit "-s"; top; lit "-g2012"]
         ++ assigned (lit "-D") (b_defines b) ++ prefixed "-I" (b_includes b)
         ++ assigned (lit "-P" ++ top ++ lit ".") (b_parameters b)
         ++ build_args ++ paths sources
         ++ (if b_waves b then [slash (b_dir b) (lit "cocotb_iverilog_dump.v")] else [])]
      else []))))
  end.
(** runner.py:1070-1117 Questa. *)
Fixpoint questa_sources (b : build_in) (l : list source) : bres (list command) :=
  match l with
  | [] => BOk []
  | s :: l' =>
      let verbosity := if b_verbose b then [] else [lit "-quiet"] in
      bbind (match snd s with
             | TVHDL => BOk ([lit "vcom"] ++ verbosity ++ [lit "-work"; b_library b] ++ args_for TVHDL (b_args b) ++ [fst s])
             | TVerilog => BOk ([lit "vlog"] ++ verbosity ++ (if b_always b then [] else [lit "-incr"]) ++
                 [lit "-work"; b_library b; lit "-sv"] ++ assigned (lit "+define+") (b_defines b) ++
                 prefixed "+incdir+" (b_includes b) ++ args_for TVerilog (b_args b) ++ [fst s])
             | TControl => BErr BValue
             end) (fun c => bbind (questa_sources b l') (fun cs => BOk (c :: cs)))
  end.
Definition questa_build (m : machine) (b : build_in) : bres (list command) :=
  bbind (questa_sources b (b_sources b ++ b_vhdl b ++ b_verilog b)) (fun cs => BOk ([lit "vlib"; b_library b] :: cs)).
(** runner.py:1258-1307 QuestaQIS; [f"{None}"] is [None]. *)
Definition or_none (o : option pystr) : pystr := match o with Some s => s | None => lit "None" end.
Definition qis_build (m : machine) (b : build_in) : bres (list command) :=
  let sources := b_sources b ++ b_vhdl b ++ b_verilog b in
  BOk [[lit "qrun"; lit "-optimize"; lit "-outdir"; slash (b_dir b) (lit "qrun_out")]
       ++ (if b_verbose b then [] else [lit "-quiet"])
       ++ [lit "-top"; b_library b ++ lit "." ++ or_none (b_toplevel b); lit "-voptargs=-access=rw+/."; lit "-designfile";
           slash (b_dir b) (lit "design.bin"); lit "-sv"; lit "-makelib"; b_library b]
       ++ paths sources ++ assigned (lit "+define+") (b_defines b) ++ prefixed "+incdir+" (b_includes b)
       ++ (match b_timescale b with Some (u, p) => [lit "-timescale"; u ++ lit "/" ++ p] | None => [] end)
       ++ values (b_args b) ++ [lit "-end"] ++ assigned (lit "-g") (b_parameters b)].
(** runner.py:1449-1482 Ghdl. *)
Definition ghdl_build (m : machine) (b : build_in) : bres (list command) :=
  let sources := b_sources b ++ b_vhdl b in
  bbind (only TVHDL sources) (fun _ =>
  bbind (only_args TVHDL (b_args b)) (fun _ =>
  BOk ([[lit "ghdl"; lit "-i"] ++ [lit "--work=" ++ b_library b] ++ values (b_args b) ++ paths sources] ++
       match b_toplevel b with
       | Some top => [[lit "ghdl"; lit "-m"; lit "--work=" ++ b_library b] ++ values (b_args b) ++ [top]]
       | None => []
       end))).
(** runner.py:1584-1612 Nvc. *)
Definition nvc_build (m : machine) (b : build_in) : bres (list command) :=
  let sources := b_sources b ++ b_vhdl b in
  bbind (only TVHDL sources) (fun _ =>
  bbind (only_args TVHDL (b_args b)) (fun _ =>
  BOk [[lit "nvc"; lit "--work=" ++ b_library b; lit "-L"; b_dir b] ++ values (b_args b) ++ [lit "-a"] ++ paths sources
       ++ (if m_preserve m then [lit "--preserve-case"] else [])])).
(** runner.py:1656-1703 AldecBase: the lines of the script. *)
Fixpoint aldec_sources (m : machine) (b : build_in) (l : list source) : bres (list pystr) :=
  match l with
  | [] => BOk []
  | s :: l' =>
      let lib := as_tcl_value (b_library b) in
      bbind (match snd s with
             | TVerilog => BOk (lit "alog -work " ++ lib ++ lit " -pli " ++ as_tcl_value (m_lib m "vpi" "riviera") ++ lit " -sv " ++
                 join [32] (map (fun nv => lit "'+define+" ++ fst nv ++ lit "=" ++ snd nv ++ lit "'") (b_defines b)) ++ [32] ++
                 join [32] (map (fun i => lit "+incdir+" ++ as_tcl_value i) (b_includes b)) ++ [32] ++
                 join [32] (args_for TVerilog (b_args b)) ++ [32] ++ as_tcl_value (fst s))
             | TVHDL => BOk (lit "acom -work " ++ lib ++ [32] ++ join [32] (args_for TVHDL (b_args b)) ++ [32] ++ as_tcl_value (fst s))
             | TControl => BErr BValue
             end) (fun c => bbind (aldec_sources m b l') (fun cs => BOk (c :: cs)))
  end.
Definition aldec_script (m : machine) (b : build_in) : bres (list pystr) :=
  let out_file := slash (slash (b_dir b) (b_library b)) (b_library b ++ lit ".lib") in
  let sources := b_sources b ++ b_vhdl b ++ b_verilog b in
  bbind (outdated (m_mtime m) out_file (paths sources)) (fun old =>
  bbind (if old || b_always b then
           bbind (aldec_sources m b sources) (fun cs => BOk ((lit "alib " ++ as_tcl_value (b_library b)) :: cs))
         else BOk []) (fun body =>
  BOk ([lit "onerror {" ++ [10] ++ lit " quit -code 1 " ++ [10] ++ lit "}"] ++ body ++ [lit "exit"]))).
(** runner.py:1665-1710: the command; the lines of [aldec_script] are written to the temporary file. *)
Definition aldec_build (m : machine) (b : build_in) : bres (list command) :=
  bbind (aldec_script m b) (fun _ => BOk [[lit "vsimsa"; lit "-do"; m_tmp m]]).
(** runner.py:1894-1984 Verilator. *)
Definition verilator_build (m : machine) (b : build_in) : bres (list command) :=
  match m_verilator m with
  | None => BErr BExit
  | Some executable =>
      let sources := b_sources b ++ b_verilog b in
      bbind (check (forallb (fun s => negb (tag_eqb (snd s) TVHDL)) sources)) (fun _ =>
      bbind (only_args TVerilog (b_args b)) (fun _ =>
      match b_toplevel b with
      | None => BErr BValue
      | Some top =>
          BOk [[executable; lit "-cc"; lit "--exe"; lit "-Mdir"; b_dir b; lit "--top-module"; top; lit "--vpi";
                lit "--public-flat-rw"; lit "--prefix"; lit "Vtop"; lit "-o"; top; lit "-LDFLAGS";
                lit "-Wl,-rpath," ++ m_libs_dir m ++ lit " -L" ++ m_libs_dir m ++ lit " -lcocotbvpi_verilator"]
               ++ (if b_waves b then [lit "--trace"] else []) ++ values (b_args b)
               ++ (match b_timescale b with Some (u, p) => [lit "--timescale"; u ++ lit "/" ++ p] | None => [] end)
               ++ assigned (lit "-D") (b_defines b) ++ prefixed "-I" (b_includes b) ++ assigned (lit "-G") (b_parameters b)
               ++ [m_cpp m] ++ paths sources;
               [lit "make"; lit "-j"; m_jobs m; lit "-C"; b_dir b; lit "-f"; lit "Vtop.mk";
                lit "VM_TRACE=" ++ (if b_waves b then lit "1" else lit "0")]]
      end))
  end.
(** runner.py:2020-2090 Xcelium. *)
Definition xcelium_build (m : machine) (b : build_in) : bres (list command) :=
  if b_waves b then BErr BRuntime
  else match b_toplevel b with
  | None => BErr BValue
  | Some top =>
      let sources := b_sources b ++ b_vhdl b ++ b_verilog b in
      bbind (check (forallb (fun s => negb (tag_eqb (snd s) TControl)) sources)) (fun _ =>
      BOk [[lit "xrun"] ++ [lit "-logfile"] ++ [lit "xrun_build.log"] ++ [lit "-elaborate"] ++ [lit "-xmlibdirname"]
           ++ [b_dir b ++ lit "/xrun_snapshot"] ++ [lit "-licqueue"] ++ (if b_always b then [lit "-clean"] else [])
           ++ (if b_verbose b then map lit ["-messages"; "-status"; "-gverbose"]%string else [lit "-quiet"])
           ++ [lit "-access +rwc"]
           ++ (if existsb (fun s => tag_eqb (snd s) TVHDL) sources then [lit "-NEW_VHPI_PROPAGATE_DELAY"] else [])
           ++ [lit "-work " ++ b_library b]
           ++ (match b_timescale b with Some (u, p) => [lit "-timescale"; u ++ lit "/" ++ p] | None => [] end)
           ++ values (b_args b) ++ prefixed "-incdir " (b_includes b)
           ++ map (fun nv => lit "-define " ++ fst nv ++ lit "=" ++ sv_escape_string (snd nv)) (b_defines b)
           ++ map (fun nv => lit "-gpg """ ++ fst nv ++ lit " => " ++ snd nv ++ lit """") (b_parameters b)
           ++ [lit "-top " ++ top] ++ paths sources])
  end.
(** runner.py:2192-2252 Vcs. *)
Definition vcs_build (m : machine) (b : build_in) : bres (list command) :=
  let sources := b_sources b ++ b_vhdl b ++ b_verilog b in
  let sim_file := slash (b_dir b) (lit "simv") in
  bbind (check (forallb (fun s => negb (tag_eqb (snd s) TControl)) sources)) (fun _ =>
  bbind (outdated (m_mtime m) sim_file (paths sources)) (fun old =>
  if old || b_always b then
    match b_toplevel b with
    | None => BErr BValue
    | Some top =>
        BOk [[lit "vcs"] ++ map lit ["-full64"; "-debug_access+all"; "+acc+3"; "-sverilog"; "-LDFLAGS -Wl,--no-as-needed"]%string
             ++ (if b_verbose b then [lit "-diag all"] else map lit ["-q"; "-suppress=VPI-CT-NS"]%string)
             ++ [lit "-load"; m_lib m "vpi" "vcs"] ++ values (b_args b) ++ prefixed "+incdir+" (b_includes b)
             ++ assigned (lit "+define+") (b_defines b) ++ assigned (lit "-pvalue+" ++ top ++ lit ".") (b_parameters b)
             ++ [lit "-top"; top] ++ paths sources ++ [lit "-o"; sim_file]]
    end
  else BOk [])).
(** runner.py:2292-2377 Dsim. *)
Definition dsim_build (m : machine) (b : build_in) : bres (list command) :=
  let sources := b_sources b ++ b_verilog b in
  let sim_file := slash (b_dir b) (lit "image.so") in
  bbind (only TVerilog sources) (fun _ =>
  bbind (only_args TVerilog (b_args b)) (fun _ =>
  bbind (outdated (m_mtime m) sim_file (paths sources)) (fun old =>
  BOk (if old || b_always b then
    [m_prefix m ++ [lit "dsim"; lit "-work"; b_dir b; lit "-pli_lib"; m_lib m "vpi" "dsim"; lit "+acc+rwcbfsWF"; lit "-genimage"; lit "image"]
     ++ assigned (lit "+define+") (b_defines b) ++ prefixed "+incdir+" (b_includes b) ++ assigned (lit "-defparam ") (b_parameters b)
     ++ values (b_args b) ++ paths sources ++ m_suffix m]
  else [])))).
(** [_build_command] of each runner. *)
Definition build_command (s : sim) : machine -> build_in -> bres (list command) :=
  match s with
  | Icarus => icarus_build | Questa => questa_build | QuestaQIS => qis_build | Ghdl => ghdl_build | Nvc => nvc_build
  | Riviera => aldec_build | ActiveHDL => aldec_build | Verilator => verilator_build | Xcelium => xcelium_build
  | Vcs => vcs_build | Dsim => dsim_build
  end.

(** * Running a test *)

(** The state left by [test] for [_test_command] (runner.py:538-615): [t_lang] is ["vhdl"] if true; [t_pre]: [pre_cmd];
    [t_parameters]: the parameters of [test] if given, else those of [build]; [t_name]: [current_test_name];
    [t_build]: what [build] left (its arguments and sources). *)
Record test_in := TestIn {
  t_toplevel : pystr; t_library : pystr; t_vhdl : bool; t_gpi : list string; t_elab : list pystr; t_args : list pystr;
  t_plus : list pystr; t_waves : bool; t_gui : bool; t_verbose : bool; t_timescale : option (pystr * pystr);
  t_pre : option (list pystr); t_parameters : list (pystr * pystr); t_dir : pystr; t_name : pystr; t_build : build_in }.

(** Commands, and the variables which [_test_command] sets. *)
Definition tres := bres (list command * env).
(** The check on [pre_cmd] (runner.py:1020-1021, 1485-1486, 1987-1988, 2093-2094, 2255-2256, 2312-2313). *)
Definition no_pre (t : test_in) (r : tres) : tres := match t_pre t with Some _ => BErr BRuntime | None => r end.
(** runner.py:1019-1041 Icarus. *)
Definition icarus_test (m : machine) (t : test_in) : tres :=
  no_pre t (BOk ([m_prefix m ++ [lit "vvp"; lit "-m"; m_lib m "vpi" "icarus"] ++ t_args t
    ++ [slash (b_dir (t_build t)) (lit "sim.vvp")] ++ t_plus t ++ [lit (if t_waves t || t_gui t then "-fst" else "-none")]
    ++ m_suffix m], [])).
(** runner.py:1119-1189 Questa and 1309-1401 QuestaQIS: GPI_EXTRA, from all interfaces but the first. *)
Fixpoint gpi_extra (m : machine) (l : list string) : bres (list pystr) :=
  match l with
  | [] => BOk []
  | i :: l' =>
      let lib := m_lib m i "questa" in
      if m_lib_exists m lib then bbind (gpi_extra m l') (fun r => BOk ((lib ++ lit ":cocotb" ++ lit i ++ lit "_entry_point") :: r))
      else BErr BRuntime
  end.
(** runner.py:1138-1157 and 1342-1360: the library of the first interface; [access]: Questa adds -voptargs for VHPI. *)
Definition questa_lib_opts (m : machine) (access : bool) (i : string) : list pystr :=
  if (i =? "fli")%string then [lit "-foreign"; lit "cocotb_init " ++ m_lib m "fli" "questa"]
  else if (i =? "vhpi")%string then (if access then [lit "-voptargs=-access=rw+/."] else []) ++
    [lit "-foreign"; lit "vhpi_startup_routines_bootstrap " ++ m_lib m "vhpi" "questa"]
  else [lit "-pli"; m_lib m "vpi" "questa"].
(** runner.py:1126-1129, 1316-1319. *)
Definition pre_opts (t : test_in) : list pystr := match t_pre t with Some l => lit "-do" :: l | None => [] end.
(** runner.py:1119-1189. *)
Definition questa_test (m : machine) (t : test_in) : tres :=
  match t_gpi t with
  | [] => BErr BIndex
  | i :: rest =>
      bbind (gpi_extra m rest) (fun extra =>
      BOk ([m_prefix m ++ [lit "vsim"] ++ (if t_verbose t then [] else [lit "-quiet"])
        ++ [lit (if t_gui t then "-gui" else "-c"); lit "-onfinish"; lit (if t_gui t then "stop" else "exit")]
        ++ questa_lib_opts m true i ++ t_args t ++ assigned (lit "-g") (t_parameters t)
        ++ [t_library t ++ lit "." ++ t_toplevel t] ++ t_plus t ++ pre_opts t
        ++ [lit "-do"; (if t_waves t then lit "log -recursive /*;" else []) ++ (if t_gui t then [] else lit "run -all; quit")]
        ++ m_suffix m], [(lit "GPI_EXTRA", join [44] extra)]))
  end.
(** runner.py:1309-1401. *)
Definition qis_test (m : machine) (t : test_in) : tres :=
  match t_gpi t with
  | [] => BErr BIndex
  | i :: rest =>
      bbind (gpi_extra m rest) (fun extra =>
      BOk ([m_prefix m ++ [lit "qrun"; lit "-simulate"; lit "-outdir"; slash (b_dir (t_build t)) (lit "qrun_out")]
        ++ (if t_verbose t then [] else [lit "-quiet"])
        ++ (if t_waves t then [lit "-qwavedb=+signal+memory=all+class+assertion+uvm_schematic+msg+wavefile=" ++ slash (t_dir t) (lit "qwave.db")] else [])
        ++ (if t_gui t then [lit "-gui"; lit "-visualizer"; lit "-designfile"; slash (b_dir (t_build t)) (lit "design.bin")] else [lit "-c"])
        ++ [lit "-onfinish"; lit (if t_gui t then "stop" else "exit")] ++ questa_lib_opts m false i
        ++ (match t_timescale t with Some (_, p) => if t_vhdl t then [lit "-t"; p] else [] | None => [] end)
        ++ t_args t ++ [lit "-top"; t_library t ++ lit "." ++ t_toplevel t] ++ t_plus t ++ pre_opts t
        ++ [lit "-do"; if t_gui t then [] else lit "run -all; quit"] ++ m_suffix m], [(lit "GPI_EXTRA", join [44] extra)]))
  end.
(** runner.py:1490-1517: the time resolution of GHDL. *)
Definition ghdl_resolution (precision : pystr) : option pystr :=
  dict_get (map (fun x => (lit (fst x), lit (snd x)))
    [("1fs", "fs"); ("1ps", "ps"); ("1ns", "ns"); ("1us", "us"); ("1ms", "ms"); ("1s", "sec")]%string) precision.
(** runner.py:1484-1530 Ghdl. *)
Definition ghdl_test (m : machine) (t : test_in) : tres :=
  no_pre t
  (bbind (match t_timescale t with
          | Some (_, p) => if m_mcode m then match ghdl_resolution p with Some r => BOk [lit "--time-resolution=" ++ r] | None => BErr BValue end
                           else BOk []
          | None => BOk []
          end) (fun res =>
  BOk ([m_prefix m ++ [lit "ghdl"; lit "-r"] ++ [lit "--work=" ++ t_library t] ++ t_args t ++ res ++ [t_toplevel t]
    ++ [lit "--vpi=" ++ m_lib m "vpi" "ghdl"] ++ t_plus t ++ assigned (lit "-g") (t_parameters t)
    ++ (if t_waves t || t_gui t then [lit "--wave=" ++ t_toplevel t ++ lit ".ghw"] else []) ++ m_suffix m], []))).
(** runner.py:1614-1636 Nvc: [pre_cmd] is not looked at. *)
Definition nvc_test (m : machine) (t : test_in) : tres :=
  BOk ([m_prefix m ++ [lit "nvc"; lit "--work=" ++ t_library t ++ lit ":" ++ slash (b_dir (t_build t)) (t_library t); lit "-L"; b_dir (t_build t)]
    ++ values (b_args (t_build t)) ++ [lit "-e"; t_toplevel t; lit "--no-save"; lit "--jit"] ++ t_elab t
    ++ assigned (lit "-g") (t_parameters t) ++ [lit "-r"] ++ t_args t ++ [lit "--load=" ++ m_lib m "vhpi" "nvc"] ++ t_plus t
    ++ (if t_waves t || t_gui t then [lit "--wave=" ++ t_toplevel t ++ lit ".fst"] else []) ++ m_suffix m], []).
(** runner.py:1712-1776, 1804-1815, 1838-1850, 1862-1865 AldecBase, Riviera and ActiveHDL: the script. *)
Definition aldec_test_script (riviera : bool) (m : machine) (t : test_in) : bres pystr :=
  let gui := riviera && t_gui t in
  bbind (match t_pre t with
         | None => BOk []
         | Some l => if riviera then BOk (flat_map (fun s => s ++ lit "; ") l ++ [10]) else BErr BRuntime
         end) (fun pre =>
  BOk ((if gui then [] else [10] ++ lit "onerror {" ++ [10] ++ lit " quit -code 1 " ++ [10] ++ lit "} " ++ [10])
    ++ asim_line (t_vhdl t) (m_lib m (if t_vhdl t then "vhpi" else "vpi")%string "riviera") (t_args t ++ assigned (lit "-g") (t_parameters t))
         (t_library t ++ lit "." ++ t_toplevel t) (t_plus t)
    ++ pre ++ (if t_waves t then lit "log -recursive /*;" else [])
    ++ (if gui then lit "echo execute run -all to run the whole simulation." else lit "run -all " ++ [10] ++ lit "exit"))).
(** runner.py:1712-1768, 1777-1787, 1816-1836: the command and GPI_EXTRA. *)
Definition aldec_test (riviera : bool) (m : machine) (t : test_in) : tres :=
  bbind (aldec_test_script riviera m t) (fun _ =>
  BOk ([m_prefix m ++ [lit (if riviera && t_gui t then "riviera" else "vsimsa"); lit "-do"; m_tmp m] ++ m_suffix m],
    [(lit "GPI_EXTRA", if t_vhdl t then m_lib m "vpi" "riviera" ++ lit ":cocotbvpi_entry_point"
                       else m_lib m "vhpi" "riviera" ++ lit ":cocotbvhpi_entry_point")])).
(** runner.py:1986-1998 Verilator. *)
Definition verilator_test (m : machine) (t : test_in) : tres :=
  no_pre t (BOk ([m_prefix m ++ [slash (b_dir (t_build t)) (t_toplevel t)] ++ (if t_waves t || t_gui t then [lit "--trace"] else [])
    ++ t_args t ++ t_plus t ++ m_suffix m], [])).
(** runner.py:2092-2173 Xcelium. *)
Definition xcelium_test (m : machine) (t : test_in) : tres :=
  no_pre t
  match t_timescale t with
  | Some _ => BErr BRuntime
  | None =>
      let b := t_build t in
      let sources := b_sources b ++ b_vhdl b ++ b_verilog b in
      let tmpdir := lit "implicit_tmpdir_" ++ t_name t in
      let xrun_top := if t_vhdl t then lit ":" else t_toplevel t in
      BOk ([[lit "mkdir"; lit "-p"; tmpdir];
        m_prefix m ++ [lit "xrun"; lit "-logfile"; lit "xrun_" ++ t_name t ++ lit ".log"; lit "-xmlibdirname"; b_dir b ++ lit "/xrun_snapshot";
          lit "-loadvpisim"; m_lib m "vpi" "xcelium"; lit "-cds_implicit_tmpdir"; tmpdir; lit "-licqueue"]
        ++ (if existsb (fun s => tag_eqb (snd s) TVHDL) sources then [lit "-NEW_VHPI_PROPAGATE_DELAY"] else [])
        ++ (if t_verbose t then map lit ["-messages"; "-status"; "-gverbose"; "-pliverbose"; "-plidebug"; "-plierr_verbose"]%string
            else map lit ["-quiet"; "-plinowarn"]%string)
        ++ [lit "-R"] ++ t_args t ++ t_plus t ++ [if t_gui t then lit "-gui" else []]
        ++ (if t_waves t then [lit "-input ""@database -open cocotb_waves -default"" ";
              lit "-input ""@probe -database cocotb_waves -create " ++ xrun_top ++ lit " -all -depth all"" ";
              lit "-input ""@run"" "; lit "-input ""@exit"" "]
            else [lit "-input"; lit "@run; exit;"])
        ++ m_suffix m],
        [(lit "CDS_AUTO_64BIT", lit "all"); (lit "GPI_EXTRA", m_lib m "vhpi" "xcelium" ++ lit ":cocotbvhpi_entry_point")])
  end.
(** runner.py:2254-2275 Vcs. *)
Definition vcs_test (m : machine) (t : test_in) : tres :=
  no_pre t (BOk ([m_prefix m ++ [slash (b_dir (t_build t)) (lit "simv")]
    ++ [lit (if t_verbose t then "-diag all" else "-suppress=ASLR_DETECTED_INFO")] ++ t_args t ++ t_plus t ++ m_suffix m], [])).
(** runner.py:2311-2335 Dsim: no prefix, no suffix. *)
Definition dsim_test (m : machine) (t : test_in) : tres :=
  no_pre t (BOk ([[lit "dsim"; lit "-work"; b_dir (t_build t); lit "-pli_lib"; m_lib m "vpi" "dsim"; lit "+acc+rwcbfsWF"; lit "-image"; lit "image"]
    ++ t_args t ++ t_plus t ++ (if t_waves t || t_gui t then [lit "-waves file.vcd"] else [])
    ++ (match t_timescale t with Some (u, p) => [lit "-timescale " ++ u ++ lit "/" ++ p] | None => [] end)], [])).
(** [_test_command] of each runner. *)
Definition test_command (s : sim) : machine -> test_in -> tres :=
  match s with
  | Icarus => icarus_test | Questa => questa_test | QuestaQIS => qis_test | Ghdl => ghdl_test | Nvc => nvc_test
  | Riviera => aldec_test true | ActiveHDL => aldec_test false | Verilator => verilator_test | Xcelium => xcelium_test
  | Vcs => vcs_test | Dsim => dsim_test
  end.

(** [supported_gpi_interfaces] of each runner (runner.py:904, 1052, 1210, 1412, 1543, 1647, 1877, 2011, 2186, 2286): the languages of a top level. *)
Definition supports_lang (s : sim) (vhdl : bool) : bool :=
  match s with
  | Icarus | Verilator | Vcs | Dsim => negb vhdl
  | Ghdl | Nvc => vhdl
  | _ => true
  end.
(** runner.py:236-274 [_check_hdl_toplevel_lang]; simplification: a language which is neither is the last case of
    [lang]. *)
Inductive lang := Lverilog | Lvhdl | Lother.
Definition check_toplevel_lang (s : sim) (l : option lang) (sources vhdl verilog : list source) : bres lang :=
  bbind (match l with
         | Some l => BOk l
         | None =>
             match sources, vhdl, verilog with
             | [], _ :: _, [] => BOk Lvhdl
             | [], [], _ :: _ => BOk Lverilog
             | x :: xs, [], [] => match snd (last xs x) with
                                  | TVHDL => BOk Lvhdl
                                  | TVerilog => BOk Lverilog
                                  | TControl => BErr BValue
                                  end
             | _, _, _ => BErr BValue
             end
         end) (fun l =>
  match l with
  | Lvhdl => if supports_lang s true then BOk l else BErr BValue
  | Lverilog => if supports_lang s false then BOk l else BErr BValue
  | Lother => BErr BValue
  end).

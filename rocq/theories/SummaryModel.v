(** Model of the libraries of an interface (/repo/src/cocotb_tools/config.py) and of the summary table of a regression
    (/repo/src/cocotb/regression.py). Simplifications: a Path is its text with "/" between the parts; whether "gpi.dll" is
    a file is given; numbers are rationals and [format(x, ".2f")] is a function which is given. *)
From Verif Require Import Base TextModel XmlModel LogModel.
From Coq Require Import String QArith.
Open Scope Z_scope.

(** * Interface libraries *)
(** config.py:124, 131-145. *)
Definition supported_interfaces : list pystr := map lit ["vpi"; "vhpi"; "fli"]%string.
Definition supported_sims : list pystr :=
  map lit ["icarus"; "verilator"; "questa"; "modelsim"; "ius"; "xcelium"; "vcs"; "ghdl"; "riviera"; "activehdl"; "cvc"; "nvc"; "dsim"]%string.
(** config.py:151-158. *)
Definition library_name (simulator_name : pystr) : pystr :=
  if one_of simulator_name [lit "questa"; lit "cvc"] then lit "modelsim"
  else if pystr_eqb simulator_name (lit "xcelium") then lit "ius"
  else if one_of simulator_name [lit "riviera"; lit "activehdl"] then lit "aldec"
  else simulator_name.
(** config.py:118-172 [lib_name_path]; [nt]: [os.name == "nt"]; [msvc]: "gpi.dll" is a file; [dir]: [libs_dir]. *)
Definition lib_name_path (nt msvc : bool) (dir interface simulator : pystr) : result pystr :=
  let interface_name := py_lower interface in
  if negb (one_of interface_name supported_interfaces) then Err ValueError
  else
    let simulator_name := py_lower simulator in
    if negb (one_of simulator supported_sims) then Err ValueError
    else
      let library := library_name simulator_name in
      let lib_ext := if nt then lit ".dll" else lit ".so" in
      let lib_prefix := if msvc then [] else lit "lib" in
      Ok (dir ++ [47] ++ lib_prefix ++ lit "cocotb" ++ interface_name ++ [95] ++ library ++ lib_ext).
(** config.py:187-193. *)
Definition entry_functions : list ((pystr * pystr) * pystr) :=
  [((lit "vpi", lit "cvc"), lit "vlog_startup_routines_bootstrap"); ((lit "vpi", lit "ius"), lit "vlog_startup_routines_bootstrap");
   ((lit "vpi", lit "xcelium"), lit "vlog_startup_routines_bootstrap");
   ((lit "vhpi", lit "activehdl"), lit "vhpi_startup_routines_bootstrap");
   ((lit "vhpi", lit "riviera"), lit "vhpi_startup_routines_bootstrap")].
(** config.py:194: [dict.get] of a pair. *)
Fixpoint pair_get (l : list ((pystr * pystr) * pystr)) (i s : pystr) : option pystr :=
  match l with
  | [] => None
  | ((a, b), f) :: l' => if pystr_eqb a i && pystr_eqb b s then Some f else pair_get l' i s
  end.
(** config.py:175-198 [lib_entry]. *)
Definition lib_entry (nt msvc : bool) (dir interface simulator : pystr) : result pystr :=
  let interface_name := py_lower interface in
  let simulator_name := py_lower simulator in
  bind (lib_name_path nt msvc dir interface_name simulator_name) (fun library =>
    match pair_get entry_functions interface_name simulator_name with
    | None => Ok library
    | Some f => Ok (library ++ [58] ++ f)
    end).
(** /repo/cocotb_build_libs.py:530, 555, 636 and 585-760: interface and [sim_define.lower()] of the libraries which are built;
    the second list only with [os.name == "posix"]. *)
Definition built_everywhere : list (pystr * pystr) :=
  [(lit "vpi", lit "icarus"); (lit "vpi", lit "modelsim"); (lit "vhpi", lit "modelsim"); (lit "fli", lit "modelsim");
   (lit "vpi", lit "ghdl"); (lit "vpi", lit "aldec"); (lit "vhpi", lit "aldec"); (lit "vhpi", lit "nvc")].
Definition built_posix : list (pystr * pystr) :=
  [(lit "vpi", lit "ius"); (lit "vhpi", lit "ius"); (lit "vpi", lit "vcs"); (lit "vpi", lit "verilator"); (lit "vpi", lit "dsim")].
(** The name which the build gives to a library (cocotb_build_libs.py:530, 555, 636), with the extension. *)
Definition built_name (b : pystr * pystr) : pystr := lit "libcocotb" ++ fst b ++ [95] ++ snd b ++ lit ".so".
(** The look-ups of /repo/src/cocotb_tools/runner.py: true for [lib_entry], lines 1035, 1155, 1358, 1523, 1630, 1684, 1723,
    2154, 2240, 2328; false for [lib_name_path], lines 1143, 1150, 1180, 1754, 2169. *)
Definition runner_lookups : list (bool * pystr * pystr) :=
  [(true, lit "vpi", lit "icarus"); (true, lit "vpi", lit "questa"); (true, lit "vpi", lit "ghdl"); (true, lit "vhpi", lit "nvc");
   (true, lit "vpi", lit "riviera"); (true, lit "vhpi", lit "riviera"); (true, lit "vpi", lit "xcelium"); (true, lit "vpi", lit "vcs");
   (true, lit "vpi", lit "dsim"); (false, lit "fli", lit "questa"); (false, lit "vhpi", lit "questa"); (false, lit "vpi", lit "questa");
   (false, lit "vhpi", lit "riviera"); (false, lit "vhpi", lit "xcelium")].

(** * Summary *)
(** Numbers: [float]. *)
Inductive fnum := FVal (q : Q) | FNan | FInf.
(** _utils.py:227-235 [safe_divide]. *)
Definition safe_divide (a b : Q) : fnum := if Qeq_bool b 0 then if Qeq_bool a 0 then FNan else FInf else FVal (a / b).
(** regression.py:156-178. *)
Inductive outcome := OPass | OFail | OSkip | OXFail.
Record testres := TestRes { t_name : pystr; t_outcome : outcome; t_wall : Q; t_sim : Q }.
Definition ratio (r : testres) : fnum := safe_divide (t_sim r) (t_wall r).
(** _ansi.py:34 and regression.py:200-203. *)
Definition GREEN_FG : pystr := ESCAPE ++ lit "32m".
(** The format [^n] of a text: half of the blanks, rounded down, at the left. *)
Definition centre (s : pystr) (n : Z) : pystr :=
  let pad := n - Z.of_nat (List.length s) in blanks (pad / 2) ++ s ++ blanks (pad - pad / 2).
Definition zlen (s : pystr) : Z := Z.of_nat (List.length s).
(** regression.py:1044: [test_line], without the end of the line. *)
Definition test_line (w : Z) (a start b fin c d e : pystr) : pystr :=
  lit "** " ++ pad_right a w ++ lit "  " ++ start ++ centre b 6 ++ fin ++ lit "  " ++ pad_left c 12 ++ lit "   "
  ++ pad_left d 12 ++ lit "   " ++ pad_left e 11 ++ lit "  **".
(** regression.py:1039. *)
Definition header_line (w : Z) : pystr :=
  lit "** " ++ pad_right (lit "TEST") w ++ lit "  " ++ centre (lit "STATUS") 6 ++ lit "  " ++ pad_left (lit "SIM TIME (ns)") 13
  ++ lit "  " ++ pad_left (lit "REAL TIME (s)") 13 ++ lit "  " ++ pad_left (lit "RATIO (ns/s)") 12 ++ lit " **".
(** regression.py:1048-1067: the ratio and the word, and the colour, of a result. *)
Definition ratio_text (fmt : fnum -> pystr) (r : testres) : pystr :=
  match t_outcome r with OSkip => lit "-.--" | _ => fmt (ratio r) end.
Definition pass_fail_str (o : outcome) : pystr :=
  match o with OSkip => lit "SKIP" | OPass => lit "PASS" | OFail => lit "FAIL" | OXFail => lit "XFAIL" end.
Definition hilite (o : outcome) : pystr :=
  match o with OSkip => YELLOW_FG | OPass => GREEN_FG | OFail => RED_FG | OXFail => YELLOW_FG end.
(** regression.py:1047-1088: the line of a result; [strip]: [cocotb_logging.strip_ansi]. *)
Definition result_line (fmt : fnum -> pystr) (strip : bool) (w : Z) (r : testres) : pystr :=
  test_line w (t_name r) (if strip then [] else hilite (t_outcome r)) (pass_fail_str (t_outcome r)) (if strip then [] else DEFAULT)
    (fmt (FVal (t_sim r))) (fmt (FVal (t_wall r))) (ratio_text fmt r).
(** regression.py:993-996; [xfail]: the preview of XFAIL in results. *)
Definition total_name (total passed failures skipped xfailed : Z) (xfail : bool) : pystr :=
  lit "TESTS=" ++ py_str_int total ++ lit " PASS=" ++ py_str_int passed ++ lit " FAIL=" ++ py_str_int failures
  ++ lit " SKIP=" ++ py_str_int skipped ++ (if xfail then lit " XFAIL=" ++ py_str_int xfailed else []).
(** regression.py:998-1002. *)
Definition test_field_len (total : pystr) (l : list testres) : Z :=
  Z.max (zlen (lit "TEST")) (Z.max (zlen total) (fold_right (fun r m => Z.max (zlen (t_name r)) m) 0 l)).
(** regression.py:979-1109 [_log_test_summary]: the text which is logged, if any. *)
Definition log_test_summary (fmt : fnum -> pystr) (strip xfail : bool) (total passed failures skipped xfailed : Z)
    (sim_time real_time : Q) (l : list testres) : option pystr :=
  match l with
  | [] => None
  | _ =>
      let name := total_name total passed failures skipped xfailed xfail in
      let w := test_field_len name l in
      let sep := repeat 42 (Z.to_nat (3 + w + 2 + 6 + 2 + 13 + 2 + 13 + 2 + 12 + 3)) ++ [10] in
      Some (sep ++ header_line w ++ [10] ++ sep ++ flat_map (fun r => result_line fmt strip w r ++ [10]) l ++ sep
            ++ test_line w name [] [] [] (fmt (FVal sim_time)) (fmt (FVal real_time)) (fmt (safe_divide sim_time real_time)) ++ [10] ++ sep)
  end.

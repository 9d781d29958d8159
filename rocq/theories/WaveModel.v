(** Model of wave files: the name which the runner gives them (/repo/src/cocotb_tools/runner.py:331-333, 925-926, 1437-1438,
    1581-1582, 1891-1892, 2308-2309), where it says that they are (597-610, 697-702), and what makes the simulator write them: the
    command lines (BuildModel), the dump module for Icarus (runner.py:933-951) and the main program for Verilator
    (/repo/src/cocotb/share/lib/verilator/verilator.cpp:84-166). *)
From Verif Require Import Base TextModel QuoteModel RunnerModel BuildModel.
From Coq Require Import String.
Open Scope Z_scope.

(** [_waves_file] of each runner. *)
Definition waves_file (s : sim) (t : test_in) : option pystr :=
  match s with
  | Icarus | Nvc => Some (t_toplevel t ++ lit ".fst")
  | Ghdl => Some (t_toplevel t ++ lit ".ghw")
  | Verilator => Some (lit "dump.vcd")
  | Dsim => Some (lit "file.vcd")
  | _ => None
  end.
(** [_use_external_viewer] (runner.py:327-329, 922-923, 1434-1435, 1578-1579, 1888-1889, 2305-2306). *)
Definition external_viewer (s : sim) : bool := match s with Icarus | Nvc | Ghdl | Verilator | Dsim => true | _ => false end.
(** runner.py:597-608; [log_file]: its absolute path. [get_abs_path(self.test_dir)] is [test_dir] (545-548). *)
Definition attachments (s : sim) (t : test_in) (log_file : option pystr) : list pystr :=
  (if t_waves t then match waves_file s t with Some f => [slash (t_dir t) f] | None => [] end else [])
  ++ match log_file with Some l => [l] | None => [] end.
(** runner.py:682, 697-702: the file which the viewer is started with, in the directory [test_dir]; the viewer found is left out. *)
Definition viewed (s : sim) (t : test_in) (pytest : pystr) : option pystr :=
  if negb (pystr_eqb pytest []) && external_viewer s && t_gui t then waves_file s t else None.

(** runner.py:933-951 [_create_iverilog_dump_file]: the text. *)
Definition iverilog_dump_file (b : build_in) (top : pystr) : pystr :=
  let dumpfile_path := sv_escape_string (slash (b_dir b) (top ++ lit ".fst")) in
  lit "module cocotb_iverilog_dump();" ++ [10] ++ lit "initial begin" ++ [10] ++ lit "    string dumpfile_path;" ++
  lit "    if ($value$plusargs(""dumpfile_path=%s"", dumpfile_path)) begin" ++ [10] ++
  lit "        $dumpfile(dumpfile_path);" ++ [10] ++ lit "    end else begin" ++ [10] ++
  lit "        $dumpfile(" ++ dumpfile_path ++ lit ");" ++ [10] ++ lit "    end" ++ [10] ++
  lit "    $dumpvars(0, " ++ top ++ lit ");" ++ [10] ++ lit "end" ++ [10] ++ lit "endmodule" ++ [10].

(** An executable made by Verilator: VM_TRACE, VM_COVERAGE, and the default file (verilator.cpp:85-91). *)
Record exe := Exe { e_trace : bool; e_coverage : bool; e_file : pystr }.
(** What the build asks for (runner.py:1957, 1980): VM_TRACE is given to make; the format is an option of Verilator, which is not
    part of the repository. *)
Definition exe_of (b : build_in) : exe :=
  Exe (b_waves b) (existsb (pystr_eqb (lit "--coverage")) (values (b_args b)))
    (if existsb (pystr_eqb (lit "--trace-fst")) (values (b_args b)) then lit "dump.fst"
     else if existsb (pystr_eqb (lit "--trace-saif")) (values (b_args b)) then lit "dump.saif" else lit "dump.vcd").
(** The variables of [main] (verilator.cpp:85-94); [VExit]: it returns before the simulation. *)
Record vars := Vars { traceOn : bool; traceFlush : bool; coveragePerInstance : bool; traceFile : pystr }.
Inductive vend := VExit (code : Z) | VRun (v : vars).
(** verilator.cpp:96-145: the loop over [argv[1..]]. *)
Fixpoint main_args (e : exe) (args : list pystr) (v : vars) : vend :=
  match args with
  | [] => VRun v
  | arg :: l =>
      if pystr_eqb arg (lit "--coverage-per-instance") then
        if e_coverage e then main_args e l (Vars (traceOn v) (traceFlush v) true (traceFile v)) else VExit (-1)
      else if pystr_eqb arg (lit "--trace") then
        if e_trace e then main_args e l (Vars true (traceFlush v) (coveragePerInstance v) (traceFile v)) else VExit (-1)
      else if pystr_eqb arg (lit "--trace-flush") then main_args e l (Vars (traceOn v) true (coveragePerInstance v) (traceFile v))
      else if pystr_eqb arg (lit "--trace-file") then
        match l with
        | f :: l' => main_args e l' (Vars (traceOn v) (traceFlush v) (coveragePerInstance v) f)
        | [] => VExit (-1)
        end
      else if pystr_eqb arg (lit "--help") then VExit 0
      else main_args e l v
  end.
Definition verilator_main (e : exe) (args : list pystr) : vend := main_args e args (Vars false false false (e_file e)).
(** verilator.cpp:160-167: the file which is opened. *)
Definition opened (e : exe) (r : vend) : option pystr :=
  match r with VRun v => if e_trace e && traceOn v then Some (traceFile v) else None | VExit _ => None end.

(** What [Runner.test] should put into the environment, stated without its sequence of assignments. *)
From Verif Require Import Base TextModel ToolsModel XmlModel QuoteModel RunnerModel.
From Coq Require Import String.
Open Scope Z_scope.

(** The value of variable [k] which the arguments of [test] ask for (documentation of the arguments, runner.py:502-538). *)
Definition asked (a : test_args) (k : pystr) : option pystr :=
  if pystr_eqb (lit "COCOTB_TEST_FILTER") k then
    match a_filter a, a_testcase a with
    | Some f, _ => Some f
    | None, Some names => Some (testcase_regex names)
    | None, None => dict_get (a_extra_env a) k
    end
  else if pystr_eqb (lit "COCOTB_RANDOM_SEED") k then
    match a_seed a with Some s => Some s | None => dict_get (a_extra_env a) k end
  else if pystr_eqb (lit "COCOTB_RESULTS_ATTACHMENTS") k then
    match dict_get (a_extra_env a) k with Some v => Some v | None => Some (join [44] (a_attachments a)) end
  else dict_get (a_extra_env a) k.

(** The variables which [test] always sets itself. *)
Definition own_vars : list pystr := map lit ["COCOTB_RESULTS_FILE"; "COCOTB_TOPLEVEL"; "COCOTB_TEST_MODULES"; "TOPLEVEL_LANG";
  "PATH"; "PYTHONPATH"; "PYGPI_PYTHON_BIN"]%string.
(** The variables which [test] sets itself if nobody else does. *)
Definition default_vars : list pystr := map lit ["GPI_USERS"; "COCOTB_TRUST_INERTIAL_WRITES"]%string.

(** Value of a variable in [os.environ] or else in [d]. *)
Definition first (environ : env) (d : pystr -> option pystr) (k : pystr) : option pystr :=
  match dict_get environ k with Some v => Some v | None => d k end.

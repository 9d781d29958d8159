(** From the entries of a regression to its results file: the [add_testcase] calls of the [_record_test_*] methods
    (/repo/src/cocotb/regression.py:672-977) and the file written at the end. Builds on RegressionModel.v and XmlModel.v. *)
From Verif Require Import Base TextModel LogicArrayModel RegressionModel XmlModel.
From Coq Require Import String.
Open Scope Z_scope.

(** What is known of a recorded test beside its entry, as text: the file of its function (through [normalize_path]), its line
    ([_get_lineno], regression.py:649-656), the times of regression.py:833-837, and the exception it ended with: the truth value
    of the exception object (Python asks for it in [result or msg]), its type, text and formatted traceback. [d_stamp]: the
    time at which the result is added. [d_skip]: [exc.msg] of [pytest.skip] and [pytest.xfail] (regression.py:528, 537). *)
Record details := Details {
  d_file : pystr; d_line : pystr; d_start : pystr; d_stop : pystr; d_duration : pystr; d_ratio : pystr; d_stamp : pystr;
  d_skip : option pystr; d_true : bool; d_type : pystr; d_text : pystr; d_traceback : pystr }.
(** The world: names and modules of tests, and the details of the n-th recorded test. *)
Record world := World { w_name : test -> pystr; w_module : test -> pystr; w_details : nat -> details }.

(** The messages of regression.py:584-639. *)
Definition message_text (m : message) : pystr :=
  match m with
  | MNone => []
  | MFailedNotError => lit "failed but we expected an error"
  | MUnexpectedType => lit "errored with unexpected type"
  | MErroredNotFailure => lit "errored but we expected a failure"
  | MPassedNotError => lit "passed but we expected an error"
  | MPassedNotFailure => lit "passed but we expected a failure"
  end.
(** Whether [result] is an exception: regression.py:577-640 give None with the last two messages only. *)
Definition has_result (m : message) : bool := match m with MPassedNotError | MPassedNotFailure => false | _ => true end.
(** regression.py:938: [result or msg]. *)
Definition failed_reason (d : details) (m : message) : reason :=
  if has_result m && d_true d then RExc (d_type d) (d_text d) (d_traceback d)
  else match m with MNone => RNone | _ => RStr (message_text m) end.
(** regression.py:749, 939. *)
Definition seed_text (seed : Z) : pystr := lit "Test failed with COCOTB_RANDOM_SEED=" ++ py_str_int seed.

(** The [extra_properties]: regression.py:702-708 (skipped), 750-757 (error), 826-838, 877-889 and 940-952. *)
Definition place (d : details) : list (pystr * pystr) := [(lit "file", d_file d); (lit "line", d_line d)].
Definition seed_prop (seed : Z) : list (pystr * pystr) := [(lit "random_seed", py_str_int seed)].
Definition cocotb_prop : list (pystr * pystr) := [(lit "cocotb", lit "True")].
Definition times (d : details) : list (pystr * pystr) :=
  [(lit "sim_time_unit", lit "ns"); (lit "sim_time_start", d_start d); (lit "sim_time_stop", d_stop d);
   (lit "sim_time_duration", d_duration d); (lit "sim_time_ratio", d_ratio d)].

(** regression.py:697-709, 744-758, 821-839, 872-890, 933-953: the [add_testcase] call of each [_record_test_*]. *)
Definition case_of (W : world) (seed : Z) (n : nat) (e : entry) : testcase :=
  let d := w_details W n in
  let case st err why props := Testcase (w_name W (r_test e)) (w_module W (r_test e)) st [] err why props in
  match r_status e with
  | SSkipped => case Skipped [] (RStr (lit "Test was skipped")) (cocotb_prop ++ place d)
  | SError => case Error (seed_text seed) (RStr (lit "Test initialization failed")) (cocotb_prop ++ seed_prop seed ++ place d)
  | SXfailed => case XFailed [] RNone (cocotb_prop ++ seed_prop seed ++ place d ++ times d)
  | SPassed => case Passed [] RNone (cocotb_prop ++ seed_prop seed ++ place d ++ times d)
  | SFailed => case Failed (seed_text seed) (failed_reason d (r_message e)) (cocotb_prop ++ seed_prop seed ++ place d ++ times d)
  end.

Fixpoint cases_from (W : world) (seed : Z) (n : nat) (l : list entry) : list (testcase * pystr) :=
  match l with
  | [] => []
  | e :: l' => (case_of W seed n e, d_stamp (w_details W n)) :: cases_from W seed (S n) l'
  end.
Definition cases (W : world) (seed : Z) (l : list entry) : list (testcase * pystr) := cases_from W seed 0 l.

(** regression.py:240-244 (the reporter of the manager) and 471-472: the document written by [_tear_down]; [None] before. *)
Definition results_document (W : world) (c : cfg) (rel : option pystr) (attach : list pystr) (host : pystr) (s : state) : option elem :=
  match s_file s with
  | Some l => Some (write (report (new_reporter (lit "cocotb tests") rel attach host) (cases W (c_seed c) l)))
  | None => None
  end.

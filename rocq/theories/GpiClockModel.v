(** The clock of the simulator interface (/repo/src/cocotb/share/lib/pygpi/bind.cpp:851-939, 992-1022), which implementation "gpi" of
    [Clock] uses (/repo/src/cocotb/clock.py:305-316). *)
From Verif Require Import Base TextModel TimeModel ClockModel.
Open Scope Z_scope.

(** PyArg_ParseTuple with format "K" (bind.cpp:998): the int modulo 2^64, without a check. *)
Definition uint64 (n : Z) : Z := n mod 2 ^ 64.
(** bind.cpp:880-896 [start]: the checks; the other failures (EBUSY, EAGAIN) cannot happen to a new clock in a simulator which accepts
    the callback. *)
Definition refuses (period_steps high_steps : Z) : bool := (period_steps <? 2) || (high_steps <? 1) || (period_steps <=? high_steps).
(** bind.cpp:907-939 [toggle] and [toggle_cb]: the next [n] writes when the value [clk_val] is written at time [t]. The callback
    comes after the registered time. *)
Fixpoint toggles (period t_high : Z) (clk_val : bool) (n : nat) (t : Z) : list write :=
  match n with
  | O => []
  | S n' => (t, if clk_val then 1 else 0) ::
      toggles period t_high (negb clk_val) n' (t + (if clk_val then t_high else (period - t_high) mod 2 ^ 64))
  end.
(** clock.py:305-316 with bind.cpp:992-1022: the first [n] writes of a clock started at time [t0]; EINVAL is a ValueError. *)
Definition gpi_drive (c : clock) (start_high : bool) (n : nat) (t0 : Z) : result (list write) :=
  let period := uint64 (period_steps c) in
  let t_high := uint64 (period_high_steps c) in
  if refuses period t_high then Err ValueError else Ok (toggles period t_high start_high n t0).

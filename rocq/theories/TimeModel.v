(** Simulated time: src/cocotb/simtime.py and [Timer] of src/cocotb/_gpi_triggers.py.

    Python numbers are exact rationals tagged with their type. Floats are IEEE binary64 with round-half-even;
    simplification: no overflow, no subnormals, no inf and nan. [Decimal] is taken as exact, which it is for values of
    at most 28 significant digits (the default context), so it shares the constructor of [Fraction]. *)
From Verif Require Import Base TextModel.
From Coq Require Import String QArith Qround Qpower.
Open Scope Z_scope.

(** * Numbers *)
Inductive num :=
| NInt (z : Z)
| NFloat (q : Q)     (* float *)
| NFrac (q : Q).     (* Fraction or Decimal *)
Definition val (x : num) : Q := match x with NInt z => inject_Z z | NFloat q | NFrac q => q end.

(** Round half to even: Python's [round] of one argument (for int, float, Fraction and Decimal). *)
Definition round_even (q : Q) : Z :=
  let f := Qfloor q in
  match Qcompare (q - inject_Z f) (1 # 2) with
  | Lt => f
  | Gt => f + 1
  | Eq => if Z.even f then f else f + 1
  end.

(** The nearest binary64 number (IEEE 754, round half to even); CPython rounds [int / int], [float * int] and
    [float / int] correctly. *)
Definition ilog2 (q : Q) : Z :=
  let a := Z.log2 (Qnum q) - Z.log2 (Zpos (Qden q)) in
  if Qle_bool (2 ^ a)%Q q then a else a - 1.
Definition fl_pos (q : Q) : Q :=
  let u := (2 ^ (ilog2 q - 52))%Q in (inject_Z (round_even (q / u)) * u)%Q.
Definition fl (q : Q) : Q :=
  if Qnum q =? 0 then 0%Q else if Qnum q <? 0 then (- fl_pos (- q))%Q else fl_pos q.

(** simtime.py:176-183 [_ldexp10]: [frac * (10**exp)] or [frac / (10**-exp)]. *)
Definition ldexp10 (frac : num) (exp : Z) : num :=
  if 0 <? exp then
    match frac with
    | NInt z => NInt (z * 10 ^ exp)
    | NFloat q => NFloat (fl (q * fl (inject_Z (10 ^ exp))))
    | NFrac q => NFrac (q * inject_Z (10 ^ exp))
    end
  else
    match frac with
    | NInt z => NFloat (fl (inject_Z z / inject_Z (10 ^ (- exp))))
    | NFloat q => NFloat (fl (q / fl (inject_Z (10 ^ (- exp)))))
    | NFrac q => NFrac (q / inject_Z (10 ^ (- exp)))
    end.

(** simtime.py:225-248 [_get_log_time_scale]. *)
Definition scales : list (pystr * Z) :=
  [(lit "fs", -15); (lit "ps", -12); (lit "ns", -9); (lit "us", -6); (lit "ms", -3); (lit "sec", 0)].
Definition log_time_scale (unit : pystr) : result Z :=
  match dict_get scales (py_lower unit) with Some s => Ok s | None => Err ValueError end.
Definition is_step (unit : pystr) : bool := pystr_eqb unit (lit "step").

(** simtime.py:186-192 [_get_time_from_sim_steps]; [prec] is [time_precision]. *)
Definition time_from_sim_steps (prec : Z) (steps : num) (unit : pystr) : result num :=
  if is_step unit then Ok steps
  else bind (log_time_scale unit) (fun s => Ok (ldexp10 steps (prec - s))).

(** The rounding modes; any other string raises. *)
Inductive round_mode := RError | RRound | RCeil | RFloor | RInvalid.
(** simtime.py:195-222 [_get_sim_steps]. *)
Definition sim_steps (prec : Z) (time : num) (unit : pystr) (mode : round_mode) : result Z :=
  bind (if is_step unit then Ok time
        else bind (log_time_scale unit) (fun s => Ok (ldexp10 time (s - prec)))) (fun result =>
  match mode with
  | RError => let r := Qfloor (val result) in
              if Qeq_bool (inject_Z r) (val result) then Ok r else Err ValueError
  | RCeil => Ok (Qceiling (val result))
  | RRound => Ok (round_even (val result))
  | RFloor => Ok (Qfloor (val result))
  | RInvalid => Err ValueError
  end).

(** simtime.py:106-113 [convert]. The cast of a value in steps does nothing. *)
Definition convert (prec : Z) (value : num) (unit to : pystr) (mode : round_mode) : result num :=
  bind (if is_step unit then Ok value else bind (sim_steps prec value unit mode) (fun z => Ok (NInt z))) (fun steps =>
  if is_step to then Ok steps else time_from_sim_steps prec steps to).

(** simtime.py:159-161 [get_sim_time]; [timeh], [timel] are what the simulator answers. *)
Definition get_sim_time (prec : Z) (timeh timel : Z) (unit : pystr) : result num :=
  let steps := Z.lor (Z.shiftl timeh 32) timel in
  if negb (is_step unit) then time_from_sim_steps prec (NInt steps) unit else Ok (NInt steps).

(** _gpi_triggers.py:133-157 [Timer.__init__]: the number of steps it will wait. [mode]: the argument or the
    class's default. *)
Definition timer (prec : Z) (time : num) (unit : pystr) (mode : round_mode) : result Z :=
  if Qle_bool (val time) 0 then Err ValueError
  else bind (sim_steps prec time unit mode) (fun n => Ok (if n =? 0 then 1 else n)).

(** C92: the two implementations of a clock. *)
From Verif Require Import Base TextModel TimeModel TimeSpec ClockModel ClockSpec ClockProofs GpiClockModel GpiClockProofs.
From Coq Require Import ZArith Lia List String QArith.
Import ListNotations.
Open Scope Z_scope.

(** Where the times fit into 64 bits the clock of the simulator interface writes what the driver Task of implementation "py" writes, at
    the same times. *)
Theorem C92_agree prec c sh n t0 : 0 < period_high_steps c < period_steps c -> period_steps c < 2 ^ 64 ->
  gpi_drive c sh (2 * n + if sh then 1 else 0) t0 = drive prec c sh n t0.
Proof. exact (agree_pf prec c sh n t0). Qed.
Print Assumptions C92_agree.
(** Stopped after any number of writes, too. *)
Theorem C92_prefix prec c sh n m t0 ws : 0 < period_high_steps c < period_steps c -> period_steps c < 2 ^ 64 -> drive prec c sh n t0 = Ok ws ->
  (m <= List.length ws)%nat -> gpi_drive c sh m t0 = Ok (firstn m ws).
Proof. exact (prefix_pf prec c sh n m t0 ws). Qed.
Print Assumptions C92_prefix.
(** The signal has the wanted value at every time. *)
Theorem C92_waveform c sh n t0 : 0 < period_high_steps c < period_steps c -> period_steps c < 2 ^ 64 ->
  exists ws, gpi_drive c sh (2 * n + if sh then 1 else 0) t0 = Ok ws /\
    forall x, 0 <= x < Z.of_nat n * period_steps c -> value_at ws (t0 + x) = Some (wanted sh (period_steps c) (period_high_steps c) x).
Proof. intros H P. rewrite (agree_pf 0 c sh n t0 H P). exact (wave_pf 0 c sh n t0 H). Qed.
Print Assumptions C92_waveform.
Example C92_agree_ex : gpi_drive (Clock 10 3) true 5 100 = Ok [(100, 1); (103, 0); (110, 1); (113, 0); (120, 1)] /\
  gpi_drive (Clock 10 3) false 4 100 = Ok [(100, 0); (107, 1); (110, 0); (117, 1)] /\
  drive (-12) (Clock 10 3) true 2 100 = Ok [(100, 1); (103, 0); (110, 1); (113, 0); (120, 1)].
Proof. repeat split; vm_compute; reflexivity. Qed.

(** For times from 0 to 2^64 both refuse the same clocks, with ValueError: one in [start()], the other in its driver Task. *)
Theorem C92_refused prec c sh n m t0 : 0 <= period_steps c < 2 ^ 64 -> 0 <= period_high_steps c < 2 ^ 64 ->
  (gpi_drive c sh m t0 = Err ValueError <-> drive prec c sh n t0 = Err ValueError).
Proof. exact (refused_pf prec c sh n m t0). Qed.
Print Assumptions C92_refused.
Example C92_refused_ex : gpi_drive (Clock 10 0) true 5 100 = Err ValueError /\ drive 0 (Clock 10 0) true 2 100 = Err ValueError /\
  gpi_drive (Clock 0 0) true 5 100 = Err ValueError.
Proof. repeat split; vm_compute; reflexivity. Qed.
(** Not so for others: a negative period, which [Clock] accepts when it is given a [period_high], is refused by "py" and taken modulo 2^64
    by "gpi"; so is a period of 2^64 steps or more, which gives another clock (for "py" the Timer then cannot be registered,
    bind.cpp:345-352, which is not part of [drive]). *)
Theorem C92_range_refuted : exists prec, exists c d,
  clock_init prec (NInt (-10)) (lit "step") (Some (NInt (-20))) = Ok c /\ drive prec c true 2 0 = Err ValueError /\
  gpi_drive c true 3 0 = Ok [(0, 1); (2 ^ 64 - 20, 0); (2 ^ 64 - 10, 1)] /\
  clock_init prec (NInt (2 ^ 64 + 10)) (lit "step") (Some (NInt 4)) = Ok d /\
  gpi_drive d true 3 0 = Ok [(0, 1); (4, 0); (10, 1)].
Proof.
  exists (-12), (Clock (-10) (-20)), (Clock (2 ^ 64 + 10) 4). repeat split; vm_compute; reflexivity.
Qed.
Print Assumptions C92_range_refuted.

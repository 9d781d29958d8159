(** [Clock] of src/cocotb/clock.py, implementation "py". *)
From Coq Require Import String QArith.
From Verif Require Import Base TextModel TimeModel.
Open Scope Z_scope.

(** clock.py:159-222 [Clock.__init__]: [_period_steps] and [_period_high_steps]. Left out: the checks of [set_action]
    (TypeError) and [impl] (ValueError) for values outside the documented ones, and messages. [>=] compares the
    numbers exactly, as Python does (simplification: Decimal with Fraction raises TypeError in Python). *)
Record clock := Clock { period_steps : Z; period_high_steps : Z }.
Definition clock_init (prec : Z) (period : num) (unit : pystr) (period_high : option num) : result clock :=
  bind (sim_steps prec period unit RError) (fun p =>
  match period_high with
  | Some h =>
      if Qle_bool (val period) (val h) then Err ValueError
      else bind (sim_steps prec h unit RError) (fun hs => Ok (Clock p hs))
  | None =>
      if negb (p mod 2 =? 0) then Err ValueError else Ok (Clock p (p / 2))
  end).

(** A write to the signal: when and what. *)
Definition write := (Z * Z)%type.
(** clock.py:335-339 [drive], the loop; [n] iterations from time [t]. A Timer of k steps resumes the task k steps
    later. *)
Fixpoint drive_loop (timer_high timer_low : Z) (n : nat) (t : Z) : list write :=
  match n with
  | O => []
  | S n' => (t, 0) :: (t + timer_low, 1) :: drive_loop timer_high timer_low n' (t + timer_low + timer_high)
  end.
(** clock.py:329-339 [drive] from time [t0] on. The Timers are made in steps; their round mode is irrelevant. *)
Definition drive (prec : Z) (c : clock) (start_high : bool) (n : nat) (t0 : Z) : result (list write) :=
  bind (timer prec (NInt (period_high_steps c)) (lit "step") RError) (fun timer_high =>
  bind (timer prec (NInt (period_steps c - period_high_steps c)) (lit "step") RError) (fun timer_low =>
  Ok (if start_high then (t0, 1) :: drive_loop timer_high timer_low n (t0 + timer_high)
      else drive_loop timer_high timer_low n t0))).

(** The clock as started, for waiting: the first rising and falling edge; each recurs every period. *)
Record running := Running { first_rise : Z; first_fall : Z; per : Z }.
Inductive edge_type := Rising | Falling | Change.
(** A position in simulated time: a time and whether the edges of that time step have happened. *)
Definition position := (Z * bool)%type.
(** Awaiting an edge trigger: resumes at the first edge not yet passed. *)
Definition next_of (first p t : Z) : Z := if t <=? first then first else first + (t - first + p - 1) / p * p.
Definition next_edge (w : running) (e : edge_type) (pos : position) : position :=
  let t := if snd pos then fst pos + 1 else fst pos in
  (match e with
   | Rising => next_of (first_rise w) (per w) t
   | Falling => next_of (first_fall w) (per w) t
   | Change => Z.min (next_of (first_rise w) (per w) t) (next_of (first_fall w) (per w) t)
   end, true).
(** Awaiting a Timer of [n] steps. The edges of the step at which it fires are yet to come, as the comment at
    clock.py:387-389 says; [late] is a simulator for which they are not (an Immediate write made by a callback of the
    same time which ran earlier). *)
Definition after_timer (late : bool) (pos : position) (n : Z) : position := (fst pos + n, late).
Fixpoint await_edges (w : running) (e : edge_type) (n : nat) (pos : position) : position :=
  match n with O => pos | S n' => await_edges w e n' (next_edge w e pos) end.
(** clock.py:359-401 [Clock.cycles]. [Timer(x / 2)] gets a float: [int / int]. *)
Definition cycles (late : bool) (prec period : Z) (w : running) (num_cycles : Z) (e : edge_type) (pos : position) : result position :=
  if num_cycles =? 0 then Ok pos
  else if num_cycles <? 0 then Err ValueError
  else
    let pos := next_edge w e pos in
    let num := num_cycles - 1 in
    if 2 <=? num then
      match e with
      | Change =>
          let skipped := num / 2 * 2 in
          bind (timer prec (NFloat (fl (inject_Z (period * skipped) / inject_Z 2))) (lit "step") RError) (fun k =>
          Ok (await_edges w e (Z.to_nat (num - skipped + 1)) (after_timer late pos k)))
      | _ =>
          bind (timer prec (NInt (period * num)) (lit "step") RError) (fun k =>
          Ok (await_edges w e 1 (after_timer late pos k)))
      end
    else Ok (await_edges w e (Z.to_nat num) pos).

(** clock.py:301-302, 341 and 354-357: [start] and [stop] on [_task]; the task is a number. *)
Definition clock_start (task : option nat) (new : nat) : result (option nat) :=
  match task with Some _ => Err RuntimeError | None => Ok (Some new) end.
Definition clock_stop (task : option nat) : result (option nat) :=
  match task with None => Err RuntimeError | Some _ => Ok None end.

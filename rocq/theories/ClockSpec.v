(** What is claimed about clocks. *)
From Coq Require Import String QArith.
From Verif Require Import Base TextModel TimeModel TimeSpec ClockModel.
Open Scope Z_scope.

(** The value of a signal at time [t] (after the writes of that time) given the writes in order of time. *)
Fixpoint value_at (ws : list write) (t : Z) : option Z :=
  match ws with
  | [] => None
  | (u, v) :: ws' => if t <? u then None else match value_at ws' t with Some v' => Some v' | None => Some v end
  end.
(** The wanted waveform, [x] steps after the start: period [p], high for [h] of it, high part first or last. *)
Definition wanted (start_high : bool) (p h x : Z) : Z :=
  if start_high then (if x mod p <? h then 1 else 0) else (if x mod p <? p - h then 0 else 1).

(** The times at which a running clock has an edge. *)
Definition edge_at (w : running) (e : edge_type) (t : Z) : Prop :=
  match e with
  | Rising => exists k, 0 <= k /\ t = first_rise w + k * per w
  | Falling => exists k, 0 <= k /\ t = first_fall w + k * per w
  | Change => exists k, 0 <= k /\ (t = first_rise w + k * per w \/ t = first_fall w + k * per w)
  end.
(** Rising and falling edges alternate. *)
Definition alternating (w : running) : Prop :=
  0 < per w /\ (first_rise w < first_fall w < first_rise w + per w \/ first_fall w < first_rise w < first_fall w + per w).
(** An edge at [t] is still to come at a position. *)
Definition to_come (pos : position) (t : Z) : Prop := if snd pos then fst pos < t else fst pos <= t.
(** [t] is the [n]-th edge to come. *)
Inductive nth_edge (E : Z -> Prop) (pos : position) : nat -> Z -> Prop :=
| first_edge t : E t -> to_come pos t -> (forall t', E t' -> to_come pos t' -> t <= t') -> nth_edge E pos 1 t
| later_edge n t t' : nth_edge E pos n t -> E t' -> t < t' -> (forall t'', E t'' -> t < t'' -> t' <= t'') ->
    nth_edge E pos (S n) t'.

(** The edges of a clock started at [t0] after its first write, which is an edge or not depending on what the signal was. *)
Definition started (c : clock) (start_high : bool) (t0 : Z) : running :=
  let p := period_steps c in let h := period_high_steps c in
  if start_high then Running (t0 + p) (t0 + h) p else Running (t0 + (p - h)) (t0 + p) p.

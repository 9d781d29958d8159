(** Property theorems C38 (waveform) and C39 (Clock.cycles). *)
From Coq Require Import String QArith.
From Verif Require Import Base TextModel TimeModel TimeSpec TimeProofs ClockModel ClockSpec ClockProofs.
Open Scope Z_scope.

(** * C38 *)
(** The signal has the wanted value at every time. *)
Theorem C38_waveform prec c sh n t0 : 0 < period_high_steps c < period_steps c ->
  exists ws, drive prec c sh n t0 = Ok ws /\
    forall x, 0 <= x < Z.of_nat n * period_steps c -> value_at ws (t0 + x) = Some (wanted sh (period_steps c) (period_high_steps c) x).
Proof. exact (wave_pf prec c sh n t0). Qed.
Print Assumptions C38_waveform.
(** Its rising edges are exactly a period apart, and so are its falling edges, high time after the rising ones. *)
Theorem C38_edges prec c sh n t0 ws x : 0 < period_high_steps c < period_steps c -> drive prec c sh n t0 = Ok ws ->
  0 < x < Z.of_nat n * period_steps c ->
  ((value_at ws (t0 + x - 1) = Some 0 /\ value_at ws (t0 + x) = Some 1) <-> edge_at (started c sh t0) Rising (t0 + x)) /\
  ((value_at ws (t0 + x - 1) = Some 1 /\ value_at ws (t0 + x) = Some 0) <-> edge_at (started c sh t0) Falling (t0 + x)).
Proof. exact (edges_pf prec c sh n t0 ws x). Qed.
Print Assumptions C38_edges.
(** Otherwise the task which drives the clock raises at once, without a write. *)
Theorem C38_not_driven prec c sh n t0 : period_high_steps c <= 0 \/ period_steps c <= period_high_steps c ->
  drive prec c sh n t0 = Err ValueError.
Proof. exact (drive_err prec c sh n t0). Qed.
Print Assumptions C38_not_driven.
Example C38_waveform_ex : clock_init (-12) (NInt 10) (lit "ns") (Some (NInt 3)) = Ok (Clock 10000 3000) /\
  drive (-12) (Clock 10 3) true 2 100 = Ok [(100, 1); (103, 0); (110, 1); (113, 0); (120, 1)] /\
  drive (-12) (Clock 10 3) false 2 100 = Ok [(100, 0); (107, 1); (110, 0); (117, 1)].
Proof. repeat (apply conj); vm_compute; reflexivity. Qed.
(** The constructor: without [period_high] the period has to be an even number of steps, ... *)
Theorem C38_init prec period unit c : clock_init prec period unit None = Ok c <->
  exists p, sim_steps prec period unit RError = Ok p /\ p = 2 * period_high_steps c /\ period_steps c = p.
Proof. exact (init_none prec period unit c). Qed.
Print Assumptions C38_init.
(** ... with it, both are whole numbers of steps and it is less than the period. *)
Theorem C38_init_high prec period unit h c : clock_init prec period unit (Some h) = Ok c <->
  sim_steps prec period unit RError = Ok (period_steps c) /\ sim_steps prec h unit RError = Ok (period_high_steps c) /\ (val h < val period)%Q.
Proof. exact (init_some prec period unit h c). Qed.
Print Assumptions C38_init_high.
(** For positive times of exact type what is accepted can be driven. *)
Theorem C38_accepted_driven prec t u h c : clock_init prec (NFrac t) u h = Ok c -> (0 < t)%Q ->
  match h with Some (NFrac x) => (0 < x)%Q | Some _ => False | None => True end ->
  0 < period_high_steps c < period_steps c.
Proof. exact (exact_driven prec t u h c). Qed.
Print Assumptions C38_accepted_driven.
Example C38_accepted_driven_ex : clock_init (-12) (NFrac (5 # 2)) (lit "ns") (Some (NFrac (1 # 2))) = Ok (Clock 2500 500) /\
  clock_init (-12) (NFrac (5 # 2)) (lit "ns") None = Ok (Clock 2500 1250) /\ clock_init (-9) (NFrac 3) (lit "ns") None = Err ValueError.
Proof. repeat (apply conj); vm_compute; reflexivity. Qed.
(** In general it is false that only clocks which can run are accepted: a period of zero, a negative period, a high time
    of zero or below, and float times which differ but are the same number of steps. *)
Definition cannot_run (prec : Z) (c : clock) : Prop := forall sh n t0, drive prec c sh n t0 = Err ValueError.
Theorem C38_accepted_refuted : exists prec, exists c1 c2 c3 c4 c5,
  (clock_init prec (NInt 0) (lit "ns") None = Ok c1 /\ cannot_run prec c1) /\
  (clock_init prec (NInt (-2)) (lit "ns") None = Ok c2 /\ cannot_run prec c2) /\
  (clock_init prec (NInt 2) (lit "ns") (Some (NInt 0)) = Ok c3 /\ cannot_run prec c3) /\
  (clock_init prec (NInt 2) (lit "ns") (Some (NInt (-1))) = Ok c4 /\ cannot_run prec c4) /\
  (exists h, (0 < h < fl (5 # 1000000))%Q /\
   clock_init prec (NFloat (fl (5 # 1000000))) (lit "us") (Some (NFloat h)) = Ok c5 /\ cannot_run prec c5).
Proof.
  exists (-12), (Clock 0 0), (Clock (-2000) (-1000)), (Clock 2000 0), (Clock 2000 (-1000)), (Clock 5 5).
  split; [split; [vm_compute; reflexivity|intros sh n t0; apply drive_err; cbn; lia]|].
  split; [split; [vm_compute; reflexivity|intros sh n t0; apply drive_err; cbn; lia]|].
  split; [split; [vm_compute; reflexivity|intros sh n t0; apply drive_err; cbn; lia]|].
  split; [split; [vm_compute; reflexivity|intros sh n t0; apply drive_err; cbn; lia]|].
  exists (fl (5 # 1000000) - 2 ^ (-70))%Q. split; [split; vm_compute; reflexivity|].
  split; [vm_compute; reflexivity|intros sh n t0; apply drive_err; cbn; lia].
Qed.
Print Assumptions C38_accepted_refuted.
(** [start] and [stop] alternate. *)
Theorem C38_start_stop task new :
  (clock_start task new = match task with None => Ok (Some new) | Some _ => Err RuntimeError end) /\
  (clock_stop task = match task with Some _ => Ok None | None => Err RuntimeError end).
Proof. split; destruct task; reflexivity. Qed.
Print Assumptions C38_start_stop.

(** * C39 *)
(** [cycles] returns at the n-th edge to come; for value changes the time skipped has to be a float. *)
Theorem C39_cycles prec w n e pos : alternating w -> 0 < n ->
  (e = Change -> is_float (inject_Z (per w * ((n - 1) / 2)))) ->
  exists t, cycles false prec (per w) w n e pos = Ok (t, true) /\ nth_edge (edge_at w e) pos (Z.to_nat n) t.
Proof. exact (cycles_pf prec w n e pos). Qed.
Print Assumptions C39_cycles.
(** The n-th edge is one time; the clocks of C38 alternate; up to 2^53 everything is a float. *)
Theorem C39_unique E pos n t t' : nth_edge E pos n t -> nth_edge E pos n t' -> t = t'.
Proof. exact (fun H H' => nth_edge_unique E pos n t H t' H'). Qed.
Print Assumptions C39_unique.
Theorem C39_started c sh t0 : 0 < period_high_steps c < period_steps c -> alternating (started c sh t0).
Proof. exact (started_alternating c sh t0). Qed.
Print Assumptions C39_started.
Theorem C39_small z : Z.abs z <= 2 ^ 53 -> is_float (inject_Z z).
Proof. exact (int_is_float z). Qed.
Print Assumptions C39_small.
Theorem C39_zero_negative late prec p w n e pos :
  cycles late prec p w 0 e pos = Ok pos /\ (n < 0 -> cycles late prec p w n e pos = Err ValueError).
Proof. exact (conj (cycles_zero late prec p w e pos) (cycles_negative late prec p w n e pos)). Qed.
Print Assumptions C39_zero_negative.
Example C39_ex : alternating (started (Clock 10 3) true 100) /\
  cycles false (-12) 10 (started (Clock 10 3) true 100) 7 Rising (104, true) = Ok (170, true) /\
  cycles false (-12) 10 (started (Clock 10 3) true 100) 7 Change (103, true) = Ok (140, true) /\
  cycles false (-12) 10 (started (Clock 10 3) true 100) 2 Falling (103, false) = Ok (113, true).
Proof. split; [apply started_alternating; cbn; lia|]. repeat (apply conj); vm_compute; reflexivity. Qed.
(** Without the bound on value changes it is false: the skipped time is halved as a float. *)
Theorem C39_change_refuted : exists prec w n pos t t', alternating w /\
  cycles false prec (per w) w n Change pos = Ok (t', true) /\ nth_edge (edge_at w Change) pos (Z.to_nat n) t /\ t <> t'.
Proof.
  exists (-15), (Running 0 1 3), (2 * 3002399751580333 + 1), (0, false), (3002399751580333 * 3), 9007199254741000.
  split; [split; cbn; lia|]. split; [vm_compute; reflexivity|]. split; [|discriminate]. exact (third_edges 3002399751580333 eq_refl).
Qed.
Print Assumptions C39_change_refuted.
(** Nor does it hold if the edge of the step at which the Timer fires comes first. *)
Theorem C39_late_refuted : exists prec w n pos t t', alternating w /\
  cycles true prec (per w) w n Rising pos = Ok (t', true) /\ nth_edge (edge_at w Rising) pos (Z.to_nat n) t /\ t <> t'.
Proof.
  set (w := Running 0 5 10). assert (Al : alternating w) by (split; cbn; lia).
  destruct (cycles_pf (-12) w 3 Rising (0, false) Al) as (t & A & B); [lia|discriminate|].
  exists (-12), w, 3, (0, false), t, 30. split; [exact Al|]. split; [vm_compute; reflexivity|]. split; [exact B|].
  vm_compute in A. injection A as <-. discriminate.
Qed.
Print Assumptions C39_late_refuted.

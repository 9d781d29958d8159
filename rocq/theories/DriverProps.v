(** C91: starting and stopping clocks. *)
From Verif Require Import Base KernelModel DriverModel DriverSpec DriverProofs.
From Coq Require Import Arith.

(** Executions used as examples. Task 0 is the test, 1 and 2 are drivers; clock 0. *)
Definition begin := [DUser (LOp (OpStart 0)); DUser LPop].
Definition sleep (g : nat) := [DUser (LAwait (TGpi g) true)].
Definition start (t : tid) (py : bool) (sh : bool) := [DStart 0 t py sh true (2 * t) (2 * t + 1)].
Definition turn := [DUser LPop; DGo None].
(** A clock with high phase, low phase, stopped in the high phase; then started again. *)
Definition py_run := begin ++ start 1 true true ++ sleep 9 ++ turn ++ [DUser (LFire 2)] ++ turn ++ [DUser (LFire 3)] ++ turn ++
  [DUser (LFire 9); DUser LPop; DStop 0] ++ start 2 true false ++ sleep 9 ++ [DUser LPop; DGo None; DUser LDoneNext] ++ turn.
Definition gpi_run := begin ++ start 1 false true ++ sleep 9 ++ turn ++ [DToggle 1 true; DToggle 1 true; DUser (LFire 9); DUser LPop; DStop 0] ++
  start 2 false false ++ sleep 9 ++ [DUser LPop; DGo None; DUser LDoneNext] ++ turn ++ [DToggle 2 true].

(** [start()] raises RuntimeError exactly when the clock was started and not stopped since, whatever became of its driver; a clock of
    the simulator interface also when its parameters are refused; then nothing changes. Otherwise the new Task drives the clock. *)
Theorem C91_start ls x c t py sh ok a b x' r : dreach ls x -> dstep x (DStart c t py sh ok a b) = Some (x', r) ->
  match started c (d_hist x) with
  | Some _ => r = DErr /\ x' = x
  | None => if py || ok then r = DTask t /\ started c (d_hist x') = Some t else r = DBad /\ x' = x
  end.
Proof. exact (start_pf ls x c t py sh ok a b x' r). Qed.
Print Assumptions C91_start.
(** [stop()] raises RuntimeError exactly when the clock is not started, and never anything else. *)
Theorem C91_stop ls x c x' r : dreach ls x -> dstep x (DStop c) = Some (x', r) ->
  match started c (d_hist x) with
  | Some t => r = DNone /\ d_hist x' = HStop c t :: d_hist x
  | None => r = DErr /\ x' = x
  end.
Proof. exact (stop_pf ls x c x' r). Qed.
Print Assumptions C91_stop.
Example C91_start_ex : let x := dfinal (begin ++ start 1 true true) in dreach (begin ++ start 1 true true) x /\
  started 0 (d_hist x) = Some 1 /\ (exists x', dstep x (DStart 0 2 true true true 4 5) = Some (x', DErr)) /\
  (exists x', dstep x (DStop 0) = Some (x', DNone)) /\ (exists x', dstep x (DStop 1) = Some (x', DErr)) /\
  (exists x', dstep x (DStart 1 2 false true false 4 5) = Some (x', DBad)).
Proof. split; [apply final_reach; reflexivity|]. split; [reflexivity|]. repeat split; eexists; vm_compute; reflexivity. Qed.

(** Whatever user code does, the values which one driver writes alternate, from the [start_high] of its [start()]. *)
Theorem C91_alternates ls x t v c : dreach ls x -> In (HStart c t v) (d_hist x) ->
  rev (writes t (d_hist x)) = alternating v (length (writes t (d_hist x))).
Proof. exact (alternates_pf ls x t v c). Qed.
Print Assumptions C91_alternates.
Example C91_alternates_ex : dreach py_run (dfinal py_run) /\ dreach gpi_run (dfinal gpi_run) /\
  rev (writes 1 (d_hist (dfinal py_run))) = [true; false; true] /\ rev (writes 2 (d_hist (dfinal py_run))) = [false] /\
  rev (writes 1 (d_hist (dfinal gpi_run))) = [true; false; true] /\ rev (writes 2 (d_hist (dfinal gpi_run))) = [false; true] /\
  In (HStart 0 1 true) (d_hist (dfinal py_run)) /\ In (HStart 0 2 false) (d_hist (dfinal gpi_run)).
Proof. do 2 (split; [apply final_reach; vm_compute; reflexivity|]). vm_compute. repeat split; tauto. Qed.

(** When simulated time passes, a driver of implementation "py" which has not ended waits for the Timer which belongs to the value it
    wrote last. *)
Theorem C91_waits ls x t c p hi lo : dreach ls x -> at_rest x -> d_drv x t = Some (Driver c (CPy p hi lo)) -> done (d_k x) t = false ->
  exists v w h, writes t (d_hist x) = v :: w /\ In (h, t) (s_cbs (d_k x) (TGpi (if v then hi else lo))).
Proof. exact (waits_pf ls x t c p hi lo). Qed.
Print Assumptions C91_waits.
(** When simulated time passes, a driver which has not ended is that of the last [start()] of its clock, which was not stopped: no clock
    has two drivers. *)
Theorem C91_one ls x t d : dreach ls x -> at_rest x -> d_drv x t = Some d -> done (d_k x) t = false -> started (v_clock d) (d_hist x) = Some t.
Proof. exact (one_pf ls x t d). Qed.
Print Assumptions C91_one.
Example C91_one_ex : dreach py_run (dfinal py_run) /\ at_rest (dfinal py_run) /\ d_drv (dfinal py_run) 2 = Some (Driver 0 (CPy PLow 4 5)) /\
  done (d_k (dfinal py_run)) 2 = false /\ done (d_k (dfinal py_run)) 1 = true /\ started 0 (d_hist (dfinal py_run)) = Some 2 /\
  exists h, In (h, 2) (s_cbs (d_k (dfinal py_run)) (TGpi 5)).
Proof. split; [apply final_reach; vm_compute; reflexivity|]. vm_compute. repeat split. eexists. left. reflexivity. Qed.

(** After [stop()] a driver of implementation "py" writes nothing, in any execution. *)
Theorem C91_py_silent ls x a c t b v : dreach ls x -> d_hist x = a ++ HStop c t :: b -> is_py x t -> ~ In (HWrite t v) a.
Proof.
  intros R E (c' & p & hi & lo & P) I. destruct (silent_spec ls x a c t b v R E I) as [(c2 & q & e & G) _]. congruence.
Qed.
Print Assumptions C91_py_silent.
Example C91_py_silent_ex : dreach py_run (dfinal py_run) /\ is_py (dfinal py_run) 1 /\
  d_hist (dfinal py_run) = [HWrite 2 false; HStart 0 2 false] ++ HStop 0 1 :: [HWrite 1 true; HWrite 1 false; HWrite 1 true; HStart 0 1 true].
Proof. split; [apply final_reach; vm_compute; reflexivity|]. split; [vm_compute; eauto|vm_compute; reflexivity]. Qed.
(** The same is said of implementation "gpi" (clock.py:345: "Stop driving the clock signal."). It holds if the driver Task got as far as
    line 322 before it was stopped and is not ended by the deprecated [kill()]. Missing: the other cases, see below. *)
Theorem C91_gpi_silent_partial ls x a c t b v : dreach ls x -> d_hist x = a ++ HStop c t :: b -> In (HTry t) (d_hist x) -> ~ was_killed x t ->
  ~ In (HWrite t v) a.
Proof. intros R E Tr K I. destruct (silent_spec ls x a c t b v R E I) as [_ [N|N]]; [exact (N Tr)|exact (K N)]. Qed.
Print Assumptions C91_gpi_silent_partial.
(** When simulated time passes, a clock of the simulator interface which toggles is that of the last [start()], or its driver never ran, or
    was ended by [kill()]. *)
Theorem C91_gpi_one_partial ls x t v : dreach ls x -> at_rest x -> d_armed x t = Some v ->
  is_gpi x t /\ ((exists c, started c (d_hist x) = Some t) \/ ~ In (HTry t) (d_hist x) \/ was_killed x t).
Proof. exact (armed_pf ls x t v). Qed.
Print Assumptions C91_gpi_one_partial.
Example C91_gpi_silent_ex : let x := dfinal gpi_run in dreach gpi_run x /\ at_rest x /\ In (HTry 1) (d_hist x) /\ ~ was_killed x 1 /\
  d_armed x 1 = None /\ d_armed x 2 = Some true /\
  d_hist x = [HWrite 2 true; HTry 2; HWrite 2 false; HStart 0 2 false] ++ HStop 0 1 ::
    [HWrite 1 true; HWrite 1 false; HTry 1; HWrite 1 true; HStart 0 1 true].
Proof.
  cbv zeta. split; [apply final_reach; vm_compute; reflexivity|]. split; [vm_compute; auto|]. split; [vm_compute; tauto|].
  split; [vm_compute; discriminate|]. vm_compute. auto.
Qed.

(** A clock started and stopped before its driver first ran is not stopped: [cancel()] throws into a coroutine which never entered the
    [try] of lines 322-325. It goes on to toggle, for as long as the Task object is kept, and after another [start()] two clocks drive the
    signal, at odds with each other. *)
Definition lost := begin ++ start 1 false true ++ [DStop 0] ++ start 2 false false ++ sleep 9 ++ [DUser LPop; DUser LDoneNext] ++ turn ++
  [DToggle 1 true; DToggle 2 true; DToggle 1 true].
Theorem C91_gpi_stop_refuted : exists ls x a c t b v, dreach ls x /\ d_hist x = a ++ HStop c t :: b /\ In (HWrite t v) a /\ ~ was_killed x t /\
  is_gpi x t /\ done (d_k x) t = true /\ at_rest x /\ exists u w w', u <> t /\ d_armed x t = Some w /\ d_armed x u = Some w' /\
    d_drv x t = Some (Driver c (CGpi false (2 * t))) /\ d_drv x u = Some (Driver c (CGpi true (2 * u))).
Proof.
  exists lost, (dfinal lost), [HWrite 1 true; HWrite 2 true; HWrite 1 false; HTry 2; HWrite 2 false; HStart 0 2 false], 0, 1, [HWrite 1 true; HStart 0 1 true], false.
  split; [apply final_reach; vm_compute; reflexivity|]. split; [vm_compute; reflexivity|]. split; [cbn; tauto|]. split; [vm_compute; discriminate|].
  split; [vm_compute; eauto|]. split; [reflexivity|]. split; [vm_compute; auto|]. exists 2, true, true. split; [discriminate|]. vm_compute. auto.
Qed.
Print Assumptions C91_gpi_stop_refuted.
(** Nor is a clock stopped whose driver is ended by [kill()]: the coroutine is left suspended. [stop()] then does nothing. *)
Definition killed_run := begin ++ start 1 false true ++ sleep 9 ++ turn ++
  [DUser (LFire 9); DUser LPop; DUser (LOp (OpKill 1)); DUser LDoneNext; DStop 0] ++ sleep 9 ++ [DToggle 1 true].
Theorem C91_gpi_kill_refuted : exists ls x a c t b v, dreach ls x /\ d_hist x = a ++ HStop c t :: b /\ In (HWrite t v) a /\
  In (HTry t) (d_hist x) /\ done (d_k x) t = true /\ at_rest x /\ exists w, d_armed x t = Some w.
Proof.
  exists killed_run, (dfinal killed_run), [HWrite 1 false], 0, 1, [HTry 1; HWrite 1 true; HStart 0 1 true], false.
  split; [apply final_reach; vm_compute; reflexivity|]. split; [vm_compute; reflexivity|]. split; [now left|]. split; [vm_compute; tauto|].
  split; [reflexivity|]. split; [vm_compute; auto|]. exists false. reflexivity.
Qed.
Print Assumptions C91_gpi_kill_refuted.

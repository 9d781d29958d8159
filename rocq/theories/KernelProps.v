(** Property theorems C17-C24: Task, Event, Lock and the event loop. The states quantified over are all the
    states which any user code and any simulator can bring about ([reach], [execP]; KernelSpec.v). *)
From Verif Require Import Base KernelModel KernelProofs KernelHist KernelSpec KernelThms KernelLeak.
From Coq Require Import Arith Permutation.

(** Labels used in the examples. *)
Notation start t := (LOp (OpStart t)).
Notation wait_event e := (LAwait (TEvent e) true).
Notation acquire k n := (LAwait (TLock k n) true).
Notation cancel t := (LOp (OpCancel t 0)).

(** * C17 *)

(** Each Task is in exactly one place. *)
Theorem C17_one_place ls s t : reach ls s -> one_place s t.
Proof. exact (one_place_pf ls s t). Qed.
Print Assumptions C17_one_place.

(** No operation fails with an internal error (a missing callback, an assertion, a missing result). *)
Theorem C17_no_internal_error ls s l s' r : reach ls s -> sim_ok s l -> step s l = Some (s', r) ->
  r <> RErr PKey /\ r <> RErr PAssert /\ r <> RErr PInvalidState.
Proof. exact (no_error_pf ls s l s' r). Qed.
Print Assumptions C17_no_internal_error.

(** Two Tasks blocked on an event, one of them cancelled and requeued, one running. *)
Definition C17_run := [start 0; start 1; start 2; LPop; wait_event 3; LPop; wait_event 3; cancel 0; LPop].
Example C17_ex : reach C17_run (final init C17_run) /\
  state_of (final init C17_run) 0 = Scheduled /\ state_of (final init C17_run) 1 = Pending /\
  state_of (final init C17_run) 2 = Running /\ regs (final init C17_run) 1 (TEvent 3) = 1 /\
  exists s' r, step (final init C17_run) (LOp (OpKill 1)) = Some (s', r) /\ r = RUnit.
Proof.
  split; [apply runs_reach; vm_compute; reflexivity|]. repeat (split; [vm_compute; reflexivity|]).
  eexists _, _. split; [vm_compute; reflexivity|reflexivity].
Qed.

(** If the simulator refuses to register a callback, the Task is put into the run queue while its callback
    stays registered; and a Task which awaits the same trigger later blocks although the simulator has not been
    asked for a callback. *)
Theorem C17_prime_refuted : exists ls s, exec init ls s /\
  state_of s 0 = Scheduled /\ regs s 0 (TGpi 5) = 1 /\ ~ one_place s 0 /\
  exists ms s', exec s ms s' /\ state_of s' 1 = Pending /\ regs s' 1 (TGpi 5) = 1 /\
    g_armed (s_gpi s' 5) = false.
Proof.
  pose (ls := [start 0; start 1; LPop; LAwait (TGpi 5) false]). pose (ms := [LPop; LAwait (TGpi 5) true]).
  exists ls, (final init ls).
  split; [apply runs_exec; vm_compute; reflexivity|]. split; [vm_compute; reflexivity|]. split; [vm_compute; reflexivity|].
  split.
  - intro P.
    assert (Es : state_of (final init ls) 0 = Scheduled) by (vm_compute; reflexivity).
    assert (Er : regs (final init ls) 0 (TGpi 5) = 1) by (vm_compute; reflexivity).
    rewrite (one_place_scheduled _ _ (TGpi 5) P Es) in Er. discriminate Er.
  - exists ms, (final (final init ls) ms).
    split; [apply runs_exec; vm_compute; reflexivity|]. repeat (apply conj); vm_compute; reflexivity.
Qed.
Print Assumptions C17_prime_refuted.

(** * C18 *)

(** Once a Task is done its answers never change. *)
Theorem C18_completion_final ls s ms s' t : reach ls s -> done s t = true -> execP sim_ok s ms s' ->
  done s' t = true /\ state_of s' t = state_of s t /\ py_result s' t = py_result s t /\
  py_exception s' t = py_exception s t /\ py_cancelled s' t = py_cancelled s t.
Proof. exact (final_pf ls s ms s' t). Qed.
Print Assumptions C18_completion_final.

(** What [result()], [exception()] and [cancelled()] answer in each state. *)
Theorem C18_answers ls s t : reach ls s ->
  if done s t then
    match state_of s t with
    | Finished => (exists v, py_result s t = Value v) /\ py_exception s t = NoExc /\ py_cancelled s t = false
    | Errored => (exists e, py_result s t = Raises e /\ py_exception s t = Exc e /\ forall m, e <> ECancelled m) /\
                 py_cancelled s t = false
    | Cancelled => (exists m, py_result s t = Raises (ECancelled m) /\ py_exception s t = Raises (ECancelled m)) /\
                   py_cancelled s t = true
    | _ => False
    end
  else py_result s t = Invalid /\ py_exception s t = Invalid /\ py_cancelled s t = false.
Proof. exact (answers_pf ls s t). Qed.
Print Assumptions C18_answers.

Theorem C18_completes_once ls s t : reach ls s -> completions t (s_log s) = if done s t then 1 else 0.
Proof. exact (completions_pf ls s t). Qed.
Print Assumptions C18_completes_once.

(** After its completion a Task is not queued, run or blocked again. *)
Theorem C18_nothing_after_completion ls s t x o l1 l2 : reach ls s -> s_log s = l1 ++ ODone t x o :: l2 ->
  forall e, In e l1 -> ~ about t e.
Proof. exact (nothing_after_pf ls s t x o l1 l2). Qed.
Print Assumptions C18_nothing_after_completion.

(** Done callbacks: each is called exactly once, in order of registration, none before completion, provided none
    is registered from a done callback of the same Task. *)
Theorem C18_callbacks t ls s : execP (calm t) init ls s ->
  if done s t then
    if completing s t then exists i, called t (s_log s) = firstn i (added t ls)
    else called t (s_log s) = added t ls
  else called t (s_log s) = [].
Proof. exact (callbacks_pf t ls s). Qed.
Print Assumptions C18_callbacks.

Definition C18_run := [start 0; LOp (OpAddDone 0 7); LPop; LReturn 4; LDoneNext; LDoneNext; LOp (OpAddDone 0 8)].
Example C18_ex : reach C18_run (final init C18_run) /\ execP (calm 0) init C18_run (final init C18_run) /\
  done (final init C18_run) 0 = true /\ py_result (final init C18_run) 0 = Value (Some 4) /\
  called 0 (s_log (final init C18_run)) = [7; 8] /\
  (exists l1 x o l2, s_log (final init C18_run) = l1 ++ ODone 0 x o :: l2) /\
  execP sim_ok (final init C18_run) [cancel 0; LOp (OpKill 0); start 0] (final init (C18_run ++ [cancel 0; LOp (OpKill 0); start 0])).
Proof.
  split; [apply runs_reach; vm_compute; reflexivity|].
  split.
  { apply (runs_execP (calm 0) (fun s l => sim_okb s l && negb (completing s 0 && match l with LOp (OpAddDone _ _) => true | _ => false end))).
    - intros s l H. apply andb_prop in H. destruct H as [H1 H2]. split.
      + unfold sim_ok, sim_okb in *. destruct l; auto.
      + intros c ->. destruct (completing s 0); [discriminate|reflexivity].
    - vm_compute. reflexivity. }
  repeat (split; [vm_compute; reflexivity|]).
  split; [exists [OCall 0 8; OFire (TJoin 0); OFire (TComplete 0); OCall 0 7]; vm_compute; eexists _, _, _; reflexivity|].
  repeat (econstructor; [exact Logic.I|vm_compute; reflexivity|]). apply execP_nil.
Qed.

(** A callback registered by a done callback of the same Task is called twice. *)
Theorem C18_callback_twice_refuted : exists ls s t c, reach ls s /\ completing s t = false /\
  added t ls = [7; c] /\ called t (s_log s) = [7; c; c].
Proof.
  pose (ls := [start 0; LOp (OpAddDone 0 7); LPop; LReturn 4; LDoneNext; LOp (OpAddDone 0 8); LDoneNext; LDoneNext]).
  exists ls, (final init ls), 0, 8. split; [apply runs_reach; vm_compute; reflexivity|].
  repeat (apply conj); vm_compute; reflexivity.
Qed.
Print Assumptions C18_callback_twice_refuted.

(** * C19 *)

(** What [cancel()] returns, and what it does. *)
Theorem C19_cancel_result ls s t m s' r : reach ls s -> step s (LOp (OpCancel t m)) = Some (s', r) ->
  if done s t then r = RBool false /\ s' = s
  else match state_of s t with
       | Running => r = RErr PRuntime /\ s' = s
       | _ => r = RBool true /\ state_of s' t = Scheduled /\
              k_exc (s_task s' t) = Some (ECancelled m)
       end.
Proof. exact (cancel_result_pf ls s t m s' r). Qed.
Print Assumptions C19_cancel_result.

(** A cancelled Task is waiting to be resumed with the CancelledError, is running, or has ended because of the
    cancellation: with a CancelledError, or with the RuntimeError for ignoring it, or by ending the program. *)
Theorem C19_contract ls s t m s1 ms s2 : reach ls s ->
  step s (LOp (OpCancel t m)) = Some (s1, RBool true) -> execP (left_alone t) s1 ms s2 ->
  (state_of s2 t = Scheduled /\ exists m', k_exc (s_task s2 t) = Some (ECancelled m')) \/
  state_of s2 t = Running \/ ended_by_cancel s2 t.
Proof. exact (contract_pf ls s t m s1 ms s2). Qed.
Print Assumptions C19_contract.

(** Once resumed, it never blocks or waits again. *)
Theorem C19_contract_resumed ls s t m s1 ms s2 ns s3 : reach ls s ->
  step s (LOp (OpCancel t m)) = Some (s1, RBool true) -> execP (left_alone t) s1 ms s2 ->
  state_of s2 t = Running -> execP (left_alone t) s2 ns s3 ->
  state_of s3 t = Running \/ ended_by_cancel s3 t.
Proof. exact (contract_resumed_pf ls s t m s1 ms s2 ns s3). Qed.
Print Assumptions C19_contract_resumed.

(** So when the event loop has nothing left to run, it is done. *)
Theorem C19_cancelled_done ls s t m s1 ms s2 : reach ls s ->
  step s (LOp (OpCancel t m)) = Some (s1, RBool true) -> execP (left_alone t) s1 ms s2 ->
  s_ctl s2 = [] -> s_queue s2 = [] -> ended_by_cancel s2 t.
Proof. exact (cancel_idle_pf ls s t m s1 ms s2). Qed.
Print Assumptions C19_cancelled_done.

(** A Task cancelled before it started runs none of its body. *)
Theorem C19_never_started ls s t m s1 ms s2 : reach ls s -> k_begun (s_task s t) = false ->
  step s (LOp (OpCancel t m)) = Some (s1, RBool true) -> execP sim_ok s1 ms s2 ->
  state_of s2 t <> Running /\ forall f, In f (s_ctl s2) -> f <> FRun t /\ f <> FClose t.
Proof. exact (never_started_pf ls s t m s1 ms s2). Qed.
Print Assumptions C19_never_started.

(** Task 0 ignores its cancellation and awaits again; Task 1 is cancelled before it has run. *)
Definition C19_a := [start 0; LPop; wait_event 0].
Definition C19_b := [start 1; cancel 1; LPop; wait_event 1; LCloseEnd; LDoneNext; LPop; LDoneNext].
Example C19_ex : reach C19_a (final init C19_a) /\
  (exists s1, step (final init C19_a) (cancel 0) = Some (s1, RBool true) /\
     execP (left_alone 0) s1 C19_b (final s1 C19_b) /\
     s_ctl (final s1 C19_b) = [] /\ s_queue (final s1 C19_b) = [] /\
     py_result (final s1 C19_b) 0 = Raises EIgnoredCancel /\ py_result (final s1 C19_b) 1 = Raises (ECancelled 0)) /\
  (exists s1 s2, step (final init C19_a) (cancel 0) = Some (s1, RBool true) /\
     execP (left_alone 0) s1 [LPop] s2 /\ state_of s2 0 = Running /\
     execP (left_alone 0) s2 [wait_event 1; LCloseEnd] (final s2 [wait_event 1; LCloseEnd])).
Proof.
  assert (L : forall ls s, runs (fun s l => sim_okb s l && match l with LOp (OpUncancel _) | LOp (OpKill _) => false | _ => true end) s ls = true ->
     execP (left_alone 0) s ls (final s ls)).
  { intros ls s. apply runs_execP. clear. intros s l H. apply andb_prop in H. destruct H as [H1 H2].
    split; [unfold sim_ok, sim_okb in *; destruct l; auto|]. split; intros ->; discriminate. }
  split; [apply runs_reach; vm_compute; reflexivity|]. split.
  - eexists. split; [vm_compute; reflexivity|]. split; [apply L; vm_compute; reflexivity|].
    repeat (apply conj); vm_compute; reflexivity.
  - eexists _, _. split; [vm_compute; reflexivity|].
    split; [apply L; vm_compute; reflexivity|]. split; [vm_compute; reflexivity|]. apply L. vm_compute. reflexivity.
Qed.
Example C19_never_started_ex : reach [start 1] (final init [start 1]) /\
  k_begun (s_task (final init [start 1]) 1) = false /\
  exists s1, step (final init [start 1]) (cancel 1) = Some (s1, RBool true) /\ execP sim_ok s1 [LPop] (final s1 [LPop]).
Proof.
  split; [apply runs_reach; vm_compute; reflexivity|]. split; [vm_compute; reflexivity|].
  eexists. split; [vm_compute; reflexivity|].
  apply (runs_execP sim_ok sim_okb); [|vm_compute; reflexivity]. intros s l. unfold sim_ok, sim_okb. destruct l; auto.
Qed.

(** A coroutine which ignores the cancellation and then raises while it is being closed stops the event loop:
    the cancelled Task is never done. *)
Theorem C19_close_raises_refuted : exists ls s t m s1 ms s2, reach ls s /\
  step s (LOp (OpCancel t m)) = Some (s1, RBool true) /\ execP (left_alone t) s1 ms s2 /\
  done s2 t = false /\ forall l, step s2 l = None.
Proof.
  pose (ls := [start 0; LPop; wait_event 0]). pose (ms := [LPop; wait_event 1; LCloseRaise]).
  exists ls, (final init ls), 0, 0. eexists. exists ms. eexists.
  split; [apply runs_reach; vm_compute; reflexivity|]. split; [vm_compute; reflexivity|].
  split.
  - repeat (econstructor; [split; [try exact Logic.I; reflexivity|split; discriminate]|vm_compute; reflexivity|]).
    apply execP_nil.
  - split; [vm_compute; reflexivity|]. intro l. reflexivity.
Qed.
Print Assumptions C19_close_raises_refuted.

(** * C20 *)

(** If no Task was started at the front, Tasks leave the run queue in exactly the order in which they entered it. *)
Theorem C20_fifo ls s : reach ls s -> lefts (s_log s) = [] -> scheds (s_log s) = pops (s_log s) ++ queued s.
Proof. exact (fifo_pf ls s). Qed.
Print Assumptions C20_fifo.

(** With front starts: those which entered at the end still leave in order, and nothing is lost or added. *)
Theorem C20_fifo_general ls s : reach ls s ->
  sublist (scheds (s_log s)) (pops (s_log s) ++ queued s) /\
  Permutation (pops (s_log s) ++ queued s) (scheds (s_log s) ++ lefts (s_log s)).
Proof. exact (fifo_gen_pf ls s). Qed.
Print Assumptions C20_fifo_general.

(** The whole history replays on a double-ended queue. *)
Theorem C20_deque ls s : reach ls s -> replay (s_log s) = Some (queued s).
Proof. exact (deque_pf ls s). Qed.
Print Assumptions C20_deque.

(** Taking the first entry resumes its Task, which is SCHEDULED, unless the entry was cancelled. *)
Theorem C20_pop ls s s' r : reach ls s -> step s LPop = Some (s', r) ->
  exists q rest, s_queue s = q :: rest /\
    if q_cancelled q then s_log s' = OPop (q_id q) (q_task q) false :: s_log s /\ s_task s' = s_task s /\ s_queue s' = rest
    else state_of s (q_task q) = Scheduled /\
      exists l, s_log s' = l ++ OResume (q_task q) (k_exc (s_task s (q_task q))) ::
                           OPop (q_id q) (q_task q) true :: s_log s.
Proof. exact (pop_pf ls s s' r). Qed.
Print Assumptions C20_pop.

(** The callbacks of a trigger are in the order in which the Tasks blocked. *)
Theorem C20_block_order ls s tr : reach ls s -> sublist (s_cbs s tr) (blocks tr (s_log s)).
Proof. exact (block_order_pf ls s tr). Qed.
Print Assumptions C20_block_order.

(** A simulator callback arrives when no entry is left, and makes the waiting Tasks ready in the order in which
    they blocked. *)
Theorem C20_fire ls s g s' r : reach ls s -> step s (LFire g) = Some (s', r) ->
  s_queue s = [] /\ s_ctl s = [] /\ wakes_all s s' [TGpi g].
Proof. exact (fire_pf ls s g s' r). Qed.
Print Assumptions C20_fire.

Definition C20_run := [start 0; start 1; start 2; LPop; LAwait (TGpi 9) true; LPop; LAwait (TGpi 9) true; LPop; LReturn 0; LDoneNext].
Example C20_ex : reach C20_run (final init C20_run) /\ lefts (s_log (final init C20_run)) = [] /\
  waiters (final init C20_run) (TGpi 9) = [0; 1] /\ pops (s_log (final init C20_run)) = [(0, 0); (1, 1); (2, 2)] /\
  exists s' r, step (final init C20_run) (LFire 9) = Some (s', r) /\ map q_task (s_queue s') = [0; 1] /\
  exists s'' r', step s' LPop = Some (s'', r') /\ state_of s'' 0 = Running.
Proof.
  split; [apply runs_reach; vm_compute; reflexivity|]. repeat (split; [vm_compute; reflexivity|]).
  eexists _, _. split; [vm_compute; reflexivity|]. split; [vm_compute; reflexivity|].
  eexists _, _. split; vm_compute; reflexivity.
Qed.
Example C20_left_ex : let s := final init [start 0; start 1; LOp (OpStartNext 2); LPop] in
  reach [start 0; start 1; LOp (OpStartNext 2); LPop] s /\ pops (s_log s) = [(2, 2)] /\
  queued s = [(0, 0); (1, 1)] /\ lefts (s_log s) = [(2, 2)].
Proof. cbv zeta. split; [apply runs_reach; vm_compute; reflexivity|]. repeat (apply conj); vm_compute; reflexivity. Qed.

(** * C21 *)

Theorem C21_blocked_only_while_unset ls s e t : reach ls s -> In t (waiters s (TEvent e)) -> s_event s e = false.
Proof. exact (event_blocked_pf ls s e t). Qed.
Print Assumptions C21_blocked_only_while_unset.

Theorem C21_set_wakes_all ls s e s' r : reach ls s -> step s (LOp (OpSet e)) = Some (s', r) ->
  s_event s' e = true /\ wakes_all s s' [TEvent e].
Proof. exact (event_set_pf ls s e s' r). Qed.
Print Assumptions C21_set_wakes_all.

(** Awaiting a set event makes the Task ready at once; awaiting an unset one blocks it. (A Task which ignores its
    cancellation, [k_must] not 0, is closed instead: C19.) *)
Theorem C21_await ls s t rest e ok s' r : reach ls s -> s_ctl s = FRun t :: rest ->
  k_must (s_task s t) = 0 -> step s (LAwait (TEvent e) ok) = Some (s', r) ->
  if s_event s e
  then state_of s' t = Scheduled /\ k_exc (s_task s' t) = None /\
       exists h, s_queue s' = s_queue s ++ [QEnt h t false]
  else state_of s' t = Pending /\ exists h, s_cbs s' (TEvent e) = s_cbs s (TEvent e) ++ [(h, t)].
Proof. exact (event_await_pf ls s t rest e ok s' r). Qed.
Print Assumptions C21_await.

Theorem C21_no_spurious_wakeup ls s l s' r e t : reach ls s -> sim_ok s l -> step s l = Some (s', r) ->
  In t (waiters s (TEvent e)) -> ~ In t (waiters s' (TEvent e)) ->
  l = LOp (OpSet e) \/ l = LOp (OpKill t) \/ exists m, l = LOp (OpCancel t m) \/ l = LCancelNow t m.
Proof. exact (event_leave_pf ls s l s' r e t). Qed.
Print Assumptions C21_no_spurious_wakeup.

Definition C21_run := [start 0; start 1; start 2; LPop; wait_event 3; LPop; wait_event 3; LPop].
Example C21_ex : reach C21_run (final init C21_run) /\ waiters (final init C21_run) (TEvent 3) = [0; 1] /\
  (exists s' r, step (final init C21_run) (LOp (OpSet 3)) = Some (s', r) /\ waiters s' (TEvent 3) = [] /\
     map q_task (s_queue s') = [0; 1]) /\
  s_ctl (final init C21_run) = [FRun 2] /\ k_must (s_task (final init C21_run) 2) = 0 /\
  exists s' r, step (final init C21_run) (wait_event 3) = Some (s', r) /\ waiters s' (TEvent 3) = [0; 1; 2].
Proof.
  split; [apply runs_reach; vm_compute; reflexivity|]. split; [vm_compute; reflexivity|].
  split; [eexists _, _; split; [vm_compute; reflexivity|split; vm_compute; reflexivity]|].
  repeat (split; [vm_compute; reflexivity|]). eexists _, _. split; vm_compute; reflexivity.
Qed.

(** * C22 *)

(** The number of hand-overs exceeds the number of releases by one while the Lock is held, else they are equal. *)
Theorem C22_mutex ls s k : reach ls s ->
  handovers k (s_log s) = releases k (s_log s) + match l_current (s_lock s k) with Some _ => 1 | None => 0 end.
Proof. exact (mutex_pf ls s k). Qed.
Print Assumptions C22_mutex.

(** So the Lock is free at every hand-over. *)
Theorem C22_handover_when_free ls s k n l1 l2 : reach ls s -> s_log s = l1 ++ OHold k n :: l2 -> handovers k l2 = releases k l2.
Proof. exact (handover_free_pf ls s k n l1 l2). Qed.
Print Assumptions C22_handover_when_free.

Theorem C22_free_no_waiters ls s k : reach ls s -> l_current (s_lock s k) = None -> l_pending (s_lock s k) = [].
Proof. exact (lock_free_pf ls s k). Qed.
Print Assumptions C22_free_no_waiters.

(** Each acquisition in the queue of the Lock has exactly one Task waiting for it, and conversely. *)
Theorem C22_waiting ls s k n : reach ls s ->
  (In n (l_pending (s_lock s k)) <-> exists t, waiters s (TLock k n) = [t]).
Proof. exact (lock_waiting_pf ls s k n). Qed.
Print Assumptions C22_waiting.

(** Releasing a free Lock raises RuntimeError; otherwise the Lock goes to the first waiting acquisition. *)
Theorem C22_release ls s k s' r : reach ls s -> step s (LOp (OpRelease k)) = Some (s', r) ->
  match l_current (s_lock s k), l_pending (s_lock s k) with
  | None, _ => r = RErr PRuntime /\ s' = s
  | Some _, [] => r = RUnit /\ l_current (s_lock s' k) = None
  | Some _, n :: p => r = RUnit /\ s_lock s' k = Lock (Some n) p /\
      (exists t, waiters s (TLock k n) = [t]) /\ wakes_all s s' [TLock k n]
  end.
Proof. exact (release_pf ls s k s' r). Qed.
Print Assumptions C22_release.

(** The first waiting acquisition is the one whose Task blocked first. *)
Theorem C22_fair ls s k n p : reach ls s -> l_pending (s_lock s k) = n :: p ->
  forall m, In m p -> exists h t h' t',
    s_cbs s (TLock k n) = [(h, t)] /\ s_cbs s (TLock k m) = [(h', t')] /\
    exists a b c, s_log s = a ++ OBlock t' (TLock k m) h' :: b ++ OBlock t (TLock k n) h :: c.
Proof. exact (fair_pf ls s k n p). Qed.
Print Assumptions C22_fair.

(** The result of one [acquire()] cannot be awaited by two Tasks. *)
Theorem C22_await_twice ls s t rest k n ok s' r : reach ls s -> s_ctl s = FRun t :: rest ->
  (l_current (s_lock s k) = Some n \/ exists u, waiters s (TLock k n) = [u]) ->
  step s (LAwait (TLock k n) ok) = Some (s', r) -> r = RErr PRuntime /\ s' = s.
Proof. exact (await_twice_pf ls s t rest k n ok s' r). Qed.
Print Assumptions C22_await_twice.

Definition C22_run := [start 0; start 1; start 2; LPop; acquire 6 0; LPop; acquire 6 1; LPop; acquire 6 2; LPop].
Example C22_ex : let s := final init C22_run in reach C22_run s /\
  s_lock s 6 = Lock (Some 0) [1; 2] /\ handovers 6 (s_log s) = 1 /\ releases 6 (s_log s) = 0 /\
  waiters s (TLock 6 1) = [1] /\ waiters s (TLock 6 2) = [2] /\ s_ctl s = [FRun 0] /\
  (exists l1 l2, s_log s = l1 ++ OHold 6 0 :: l2) /\
  (exists s' r, step s (LOp (OpRelease 6)) = Some (s', r) /\ s_lock s' 6 = Lock (Some 1) [2] /\ map q_task (s_queue s') = [1]) /\
  exists s' r, step s (acquire 6 0) = Some (s', r).
Proof.
  cbv zeta. split; [apply runs_reach; vm_compute; reflexivity|].
  repeat (split; [vm_compute; reflexivity|]).
  split; [apply in_split; vm_compute; intuition|].
  split; [eexists _, _; split; [vm_compute; reflexivity|split; vm_compute; reflexivity]|].
  eexists _, _. vm_compute. reflexivity.
Qed.

(** * C23 *)

(** Every Task is done, every [acquire()] which returned was followed by a [release()], nothing is left to
    run; the Lock is still held: the second Task was cancelled after the Lock had been handed to it and before
    it ran. *)
Theorem C23_lock_leak_refuted : exists ls s k, reach ls s /\ s_queue s = [] /\ s_ctl s = [] /\
  (forall t, state_of s t = Unstarted \/ done s t = true) /\
  (forall t n, In (t, n) (acquired k (s_log s)) -> l_current (s_lock s k) <> Some n) /\
  length (acquired k (s_log s)) = releases k (s_log s) /\
  l_current (s_lock s k) <> None.
Proof.
  pose (ls := [start 0; start 1; LPop; acquire 6 0; LPop; acquire 6 1; LPop; LOp (OpRelease 6); cancel 1;
               LReturn 0; LDoneNext; LPop; LRaise (ECancelled 0); LDoneNext]).
  exists ls, (final init ls), 6. split; [apply runs_reach; vm_compute; reflexivity|].
  split; [vm_compute; reflexivity|]. split; [vm_compute; reflexivity|]. split.
  { intros [|[|t]]; [right; vm_compute; reflexivity..|left; vm_compute; reflexivity]. }
  split; [|split; [vm_compute; reflexivity|vm_compute; discriminate]].
  assert (A : acquired 6 (s_log (final init ls)) = [(0, 0)]) by (vm_compute; reflexivity).
  assert (B : l_current (s_lock (final init ls) 6) = Some 1) by (vm_compute; reflexivity).
  intros t n. rewrite A, B. cbn. intros [[= <- <-]|[]]. discriminate.
Qed.
Print Assumptions C23_lock_leak_refuted.

(** Partial: only if no Task is cancelled or killed between being handed the Lock and running. Then, when
    nothing is left to run and no acquisition which returned is still the holder, the Lock is free. *)
Theorem C23_lock_no_leak_partial k ls s : execP (undisturbed k) init ls s -> s_queue s = [] ->
  (forall t n, In (t, n) (acquired k (s_log s)) -> l_current (s_lock s k) <> Some n) ->
  l_current (s_lock s k) = None /\ l_pending (s_lock s k) = [].
Proof. exact (no_leak_free_pf k ls s). Qed.
Print Assumptions C23_lock_no_leak_partial.

Theorem C23_lock_holder_partial k ls s n : execP (undisturbed k) init ls s -> l_current (s_lock s k) = Some n ->
  exists t, handed s k t n \/ In (t, n) (acquired k (s_log s)).
Proof. exact (no_leak_pf k ls s n). Qed.
Print Assumptions C23_lock_holder_partial.

Definition C23_run := [start 0; start 1; start 2; LPop; acquire 6 0; LPop; acquire 6 1; LPop; acquire 6 2; cancel 1; LPop;
  LOp (OpRelease 6); LReturn 0; LDoneNext; LPop; LRaise (ECancelled 0); LDoneNext; LPop].
Definition C23_okb (s : st) (l : label) : bool :=
  sim_okb s l && match l with
                 | LOp (OpCancel t _) => negb (tstate_eqb (state_of s t) Scheduled)
                 | LOp (OpKill _) | LCancelNow _ _ => false
                 | _ => true end.
Lemma C23_okb_ok s l : C23_okb s l = true -> undisturbed 6 s l.
Proof.
  intro H. apply andb_prop in H. destruct H as [H1 H2].
  split; [unfold sim_ok, sim_okb in *; destruct l; auto|]. intros t n [W _]. split; [intros ->; discriminate|].
  intro m. split; [|intros ->; discriminate]. intros ->. rewrite W in H2. discriminate.
Qed.
Example C23_ex :
  execP (undisturbed 6) init C23_run (final init C23_run) /\
  l_current (s_lock (final init C23_run) 6) = Some 2 /\ acquired 6 (s_log (final init C23_run)) = [(2, 2); (0, 0)] /\
  let ms := C23_run ++ [LOp (OpRelease 6); LReturn 0; LDoneNext] in
  execP (undisturbed 6) init ms (final init ms) /\ s_queue (final init ms) = [] /\
  l_current (s_lock (final init ms) 6) = None.
Proof.
  split; [apply (runs_execP _ _ C23_okb_ok); vm_compute; reflexivity|].
  split; [vm_compute; reflexivity|]. split; [vm_compute; reflexivity|]. cbv zeta.
  split; [apply (runs_execP _ _ C23_okb_ok); vm_compute; reflexivity|]. split; vm_compute; reflexivity.
Qed.

(** * C24 *)

(** A Task blocked on another one is blocked only until that one has completed. *)
Theorem C24_blocked_until_done ls s u t tr : reach ls s -> tr = TComplete u \/ tr = TJoin u -> In t (waiters s tr) ->
  done s u = true -> completing s u = true.
Proof. exact (join_blocked_pf ls s u t tr). Qed.
Print Assumptions C24_blocked_until_done.

(** Completion makes all of them ready, in the order in which they blocked. *)
Theorem C24_completion_wakes ls s u i k rest s' r : reach ls s -> s_ctl s = FDone u i k :: rest ->
  length (k_dcbs (s_task s u)) <= i -> step s LDoneNext = Some (s', r) ->
  s_ctl s' = rest /\ wakes_all s s' [TComplete u; TJoin u].
Proof. exact (complete_pf ls s u i k rest s' r). Qed.
Print Assumptions C24_completion_wakes.

Theorem C24_no_spurious_wakeup ls s l s' r u t tr : reach ls s -> sim_ok s l -> step s l = Some (s', r) ->
  tr = TComplete u \/ tr = TJoin u ->
  In t (waiters s tr) -> ~ In t (waiters s' tr) ->
  (l = LDoneNext /\ exists i k rest, s_ctl s = FDone u i k :: rest /\ length (k_dcbs (s_task s u)) <= i) \/
  l = LOp (OpKill t) \/ exists m, l = LOp (OpCancel t m) \/ l = LCancelNow t m.
Proof. exact (join_leave_pf ls s l s' r u t tr). Qed.
Print Assumptions C24_no_spurious_wakeup.

(** Awaiting a done Task gives its outcome at once. *)
Theorem C24_await_done ls s t rest u s' r : reach ls s -> s_ctl s = FRun t :: rest -> done s u = true ->
  step s (LAwaitTask u) = Some (s', r) ->
  exists o, k_outcome (s_task s u) = Some o /\ r = RGot o /\ s_ctl s' = s_ctl s /\ s_task s' = s_task s.
Proof. exact (await_done_pf ls s t rest u s' r). Qed.
Print Assumptions C24_await_done.

(** Awaiting any other Task starts it if need be and blocks. *)
Theorem C24_await_live ls s t rest u s' r : reach ls s -> s_ctl s = FRun t :: rest -> done s u = false ->
  k_must (s_task s t) = 0 -> step s (LAwaitTask u) = Some (s', r) ->
  state_of s' t = Pending /\ In t (waiters s' (TComplete u)) /\ state_of s' u <> Unstarted.
Proof. exact (await_live_pf ls s t rest u s' r). Qed.
Print Assumptions C24_await_live.

(** What an awaiting Task gets is the outcome of the awaited Task, which is done. *)
Theorem C24_outcome ls s t u o : reach ls s -> In (OGot t u o) (s_log s) ->
  done s u = true /\ exists v, o = Some v /\ k_outcome (s_task s u) = Some v.
Proof. exact (got_pf ls s t u o). Qed.
Print Assumptions C24_outcome.

Definition C24_a := [start 0; start 1; LPop].
Definition C24_b := C24_a ++ [LAwaitTask 2; LPop; LAwait (TJoin 2) true; LPop; LReturn 5].
Definition C24_c := C24_b ++ [LDoneNext; LPop].
Example C24_ex : reach C24_a (final init C24_a) /\ s_ctl (final init C24_a) = [FRun 0] /\
  k_must (s_task (final init C24_a) 0) = 0 /\ done (final init C24_a) 2 = false /\
  (exists s' r, step (final init C24_a) (LAwaitTask 2) = Some (s', r) /\ state_of s' 2 = Scheduled) /\
  reach C24_b (final init C24_b) /\ waiters (final init C24_b) (TComplete 2) = [0] /\
  waiters (final init C24_b) (TJoin 2) = [1] /\ done (final init C24_b) 2 = true /\
  s_ctl (final init C24_b) = [FDone 2 0 AfterResume] /\
  (exists s' r, step (final init C24_b) LDoneNext = Some (s', r) /\ map q_task (s_queue s') = [0; 1]) /\
  reach C24_c (final init C24_c) /\ In (OGot 0 2 (Some (OVal (Some 5)))) (s_log (final init C24_c)) /\
  s_ctl (final init C24_c) = [FRun 0] /\
  (exists s' r, step (final init C24_c) (LAwaitTask 2) = Some (s', r) /\ r = RGot (OVal (Some 5))).
Proof.
  split; [apply runs_reach; vm_compute; reflexivity|]. repeat (split; [vm_compute; reflexivity|]).
  split; [eexists _, _; split; vm_compute; reflexivity|].
  split; [apply runs_reach; vm_compute; reflexivity|]. repeat (split; [vm_compute; reflexivity|]).
  split; [eexists _, _; split; vm_compute; reflexivity|].
  split; [apply runs_reach; vm_compute; reflexivity|].
  split; [vm_compute; auto|]. split; [vm_compute; reflexivity|].
  eexists _, _; split; vm_compute; reflexivity.
Qed.

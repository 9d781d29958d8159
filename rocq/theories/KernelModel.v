(** Model of the scheduler kernel: Task (/repo/src/cocotb/task.py), Trigger, Event, _InternalEvent,
    Lock, NullTrigger (/repo/src/cocotb/_base_triggers.py), GPITrigger
    (/repo/src/cocotb/_gpi_triggers.py) and the event loop (/repo/src/cocotb/_event_loop.py).

    The model is a state machine. User code (the coroutine bodies, done callbacks, bridge threads)
    and the simulator are not modelled: they are an adversary which, whenever such code has
    control, performs any one API operation ([label]). Everything between two such points is the
    code of the files above, function by function.

    Simplifications:
    - Objects pre-exist: every natural number names an Event, a Lock, a NullTrigger, a simulator
      trigger, and a Task in state UNSTARTED. Creating an object is using a new number.
    - Values and exceptions are numbers; only the distinctions the code makes are kept.
    - Debug output, names, [Task.locals], deprecation warnings, [__repr__] and [__del__] are left out.
    - A KeyboardInterrupt/SystemExit/BdbQuit leaving a coroutine, or an exception leaving
      [coroutine.close()], stops the machine ([s_halt]); the code lets it escape the event loop.
    - Done callbacks do not raise (the callbacks are internal; see the layers built on this one).
    - [s_log] is a history variable: no transition reads it. *)
From Verif Require Import Base.
From Coq Require Import Arith.

Definition tid := nat.

(** The trigger objects: Event.wait() (_base_triggers.py:116-139), _InternalEvent (261-303),
    the n-th acquire() result of a lock (306-331), NullTrigger (457-540),
    Task.complete and Task._join (task.py:732-810), simulator triggers (_gpi_triggers.py). *)
Inductive trig :=
| TEvent (e : nat) | TInternal (i : nat) | TLock (l n : nat) | TNull (n : nat)
| TComplete (t : tid) | TJoin (t : tid) | TGpi (g : nat).

(** Object identity of triggers. *)
Definition trig_eqb (a b : trig) : bool :=
  match a, b with
  | TEvent x, TEvent y | TInternal x, TInternal y | TNull x, TNull y
  | TComplete x, TComplete y | TJoin x, TJoin y | TGpi x, TGpi y => Nat.eqb x y
  | TLock l n, TLock k m => Nat.eqb l k && Nat.eqb n m
  | _, _ => false
  end.

(** Exceptions, as far as task.py distinguishes them: CancelledError; KeyboardInterrupt, SystemExit
    and BdbQuit; the RuntimeErrors of task.py:357-362, 399-404, 418-423 (ignored cancellation);
    the TypeError of 429-433; a trigger which cannot be primed (_gpi_triggers.py:159-162);
    anything else. *)
Inductive exc :=
| ECancelled (msg : nat) | EExit (n : nat) | EIgnoredCancel | EBadYield | EPrime | EUser (n : nat).

(** task.py:54-63 [_TaskState]. *)
Inductive tstate :=
  Unstarted | Scheduled | Pending | Running | Finished | Errored | Cancelled.
Definition tstate_eqb (a b : tstate) : bool :=
  match a, b with
  | Unstarted, Unstarted | Scheduled, Scheduled | Pending, Pending | Running, Running
  | Finished, Finished | Errored, Errored | Cancelled, Cancelled => true
  | _, _ => false
  end.

(** task.py:638-644 [done]. *)
Definition is_done (s : tstate) : bool :=
  match s with Finished | Errored | Cancelled => true | _ => false end.

(** [_outcome]: the returned value (None is what kill() stores) or the exception. *)
Inductive outcome := OVal (v : option nat) | OExc (e : exc).

(** Which [await] the suspended coroutine is in: [await trigger], or [await task] /
    [await task.join()], which go on with [task.result()] (task.py:695-700, 808-810). *)
Inductive await_kind := WTrig | WTask (u : tid).

(** task.py:134-151: the attributes of a Task. [k_begun]: the coroutine object has been started
    (inspect.getcoroutinestate is no longer CORO_CREATED). *)
Record task := Task {
  k_state : tstate;
  k_outcome : option outcome;
  k_scb : option nat;
  k_tcb : option (trig * nat);
  k_dcbs : list nat;
  k_must : nat;
  k_exc : option exc;
  k_begun : bool;
  k_wait : await_kind }.

Definition new_task : task := Task Unstarted None None None [] 0 None false WTrig.

(** _event_loop.py:15-32 [ScheduledCallback]; the only callbacks scheduled in the code are
    [Task._resume]. *)
Record qent := QEnt { q_id : nat; q_task : tid; q_cancelled : bool }.

(** What follows a completed [_set_outcome]: the end of [_resume] (task.py:451-452), the re-raise
    (380), or the return of [kill()] (487-490). *)
Inductive after := AfterResume | AfterRaise | AfterKill.

(** The Python call stack: the coroutine of [t] is executing (task.py:347-351); it is executing
    inside [close()] (417); [_set_outcome] has called the first [i] done callbacks (313-315). *)
Inductive frame :=
| FRun (t : tid)
| FClose (t : tid)
| FDone (t : tid) (i : nat) (k : after).

(** History. *)
Inductive obs :=
| OSched (h : nat) (t : tid)               (* put at the end of the run queue *)
| OSchedLeft (h : nat) (t : tid)           (* put at the front of the run queue *)
| OPop (h : nat) (t : tid) (live : bool)   (* taken from the front; run if live *)
| OResume (t : tid) (e : option exc)       (* coroutine resumed, [e] thrown into it *)
| OGot (t u : tid) (o : option outcome)    (* [await u] in [t] ended with u.result() *)
| OBlock (t : tid) (tr : trig) (h : nat)   (* callback registered on the trigger *)
| OFire (tr : trig)                        (* the trigger's callbacks are run *)
| ODone (t : tid) (s : tstate) (o : outcome)
| OCall (t : tid) (c : nat)                (* done callback c of t called *)
| OHold (l n : nat)                        (* lock l handed to acquisition n *)
| OFree (l : nat).                         (* lock l released *)

(** The attributes of the other objects: Event._fired (_base_triggers.py:184), _InternalEvent._fired and
    ._awaited (273-274), Lock._current_acquired and ._pending_primed (378, 369),
    GPITrigger._cbhdl is not None (_gpi_triggers.py:37); [g_armed]: the simulator will call back. *)
Record ievent := IEvent { i_fired : bool; i_awaited : bool }.
Record lock := Lock { l_current : option nat; l_pending : list nat }.
Record gpi := Gpi { g_hdl : bool; g_armed : bool }.

Record st := St {
  s_task : tid -> task;
  s_cbs : trig -> list (nat * tid);  (* Trigger._callbacks: handle, task to resume *)
  s_queue : list qent;               (* EventLoop._callbacks *)
  s_next : nat;                      (* next object identity for callback handles *)
  s_event : nat -> bool;
  s_ievent : nat -> ievent;
  s_lock : nat -> lock;
  s_gpi : nat -> gpi;
  s_ctl : list frame;
  s_current : option tid;            (* task.py:718 [_current_task] *)
  s_halt : bool;
  s_log : list obs }.                (* newest first *)

Definition init : st :=
  St (fun _ => new_task) (fun _ => []) [] 0 (fun _ => false) (fun _ => IEvent false false)
     (fun _ => Lock None []) (fun _ => Gpi false false) [] None false [].

(** * Attribute assignment *)
Definition upd {A} (f : nat -> A) (k : nat) (v : A) : nat -> A :=
  fun x => if Nat.eqb x k then v else f x.
Definition updt {A} (f : trig -> A) (k : trig) (v : A) : trig -> A :=
  fun x => if trig_eqb x k then v else f x.

Definition set_task (s : st) (t : tid) (k : task) : st :=
  St (upd (s_task s) t k) (s_cbs s) (s_queue s) (s_next s) (s_event s) (s_ievent s) (s_lock s)
     (s_gpi s) (s_ctl s) (s_current s) (s_halt s) (s_log s).
Definition set_cbs (s : st) (tr : trig) (l : list (nat * tid)) : st :=
  St (s_task s) (updt (s_cbs s) tr l) (s_queue s) (s_next s) (s_event s) (s_ievent s) (s_lock s)
     (s_gpi s) (s_ctl s) (s_current s) (s_halt s) (s_log s).
Definition set_queue (s : st) (q : list qent) : st :=
  St (s_task s) (s_cbs s) q (s_next s) (s_event s) (s_ievent s) (s_lock s)
     (s_gpi s) (s_ctl s) (s_current s) (s_halt s) (s_log s).
Definition set_next (s : st) (n : nat) : st :=
  St (s_task s) (s_cbs s) (s_queue s) n (s_event s) (s_ievent s) (s_lock s)
     (s_gpi s) (s_ctl s) (s_current s) (s_halt s) (s_log s).
Definition set_event (s : st) (e : nat) (b : bool) : st :=
  St (s_task s) (s_cbs s) (s_queue s) (s_next s) (upd (s_event s) e b) (s_ievent s) (s_lock s)
     (s_gpi s) (s_ctl s) (s_current s) (s_halt s) (s_log s).
Definition set_ievent (s : st) (i : nat) (v : ievent) : st :=
  St (s_task s) (s_cbs s) (s_queue s) (s_next s) (s_event s) (upd (s_ievent s) i v) (s_lock s)
     (s_gpi s) (s_ctl s) (s_current s) (s_halt s) (s_log s).
Definition set_lock (s : st) (l : nat) (v : lock) : st :=
  St (s_task s) (s_cbs s) (s_queue s) (s_next s) (s_event s) (s_ievent s) (upd (s_lock s) l v)
     (s_gpi s) (s_ctl s) (s_current s) (s_halt s) (s_log s).
Definition set_gpi (s : st) (g : nat) (v : gpi) : st :=
  St (s_task s) (s_cbs s) (s_queue s) (s_next s) (s_event s) (s_ievent s) (s_lock s)
     (upd (s_gpi s) g v) (s_ctl s) (s_current s) (s_halt s) (s_log s).
Definition set_ctl (s : st) (c : list frame) : st :=
  St (s_task s) (s_cbs s) (s_queue s) (s_next s) (s_event s) (s_ievent s) (s_lock s)
     (s_gpi s) c (s_current s) (s_halt s) (s_log s).
Definition set_current (s : st) (c : option tid) : st :=
  St (s_task s) (s_cbs s) (s_queue s) (s_next s) (s_event s) (s_ievent s) (s_lock s)
     (s_gpi s) (s_ctl s) c (s_halt s) (s_log s).
Definition set_halt (s : st) : st :=
  St (s_task s) (s_cbs s) (s_queue s) (s_next s) (s_event s) (s_ievent s) (s_lock s)
     (s_gpi s) (s_ctl s) (s_current s) true (s_log s).
Definition log (s : st) (o : obs) : st :=
  St (s_task s) (s_cbs s) (s_queue s) (s_next s) (s_event s) (s_ievent s) (s_lock s)
     (s_gpi s) (s_ctl s) (s_current s) (s_halt s) (o :: s_log s).

Definition with_state (k : task) (x : tstate) : task :=
  Task x (k_outcome k) (k_scb k) (k_tcb k) (k_dcbs k) (k_must k) (k_exc k) (k_begun k) (k_wait k).
Definition with_outcome (k : task) (x : tstate) (o : outcome) : task :=
  Task x (Some o) (k_scb k) (k_tcb k) (k_dcbs k) (k_must k) (k_exc k) (k_begun k) (k_wait k).
Definition with_sched (k : task) (h : nat) (e : option exc) : task :=
  Task Scheduled (k_outcome k) (Some h) (k_tcb k) (k_dcbs k) (k_must k) e (k_begun k) (k_wait k).
Definition with_tcb (k : task) (tr : trig) (h : nat) : task :=
  Task (k_state k) (k_outcome k) (k_scb k) (Some (tr, h)) (k_dcbs k) (k_must k) (k_exc k)
       (k_begun k) (k_wait k).
Definition with_dcbs (k : task) (d : list nat) : task :=
  Task (k_state k) (k_outcome k) (k_scb k) (k_tcb k) d (k_must k) (k_exc k) (k_begun k) (k_wait k).
Definition with_must (k : task) (n : nat) : task :=
  Task (k_state k) (k_outcome k) (k_scb k) (k_tcb k) (k_dcbs k) n (k_exc k) (k_begun k) (k_wait k).
Definition with_exc (k : task) (e : option exc) : task :=
  Task (k_state k) (k_outcome k) (k_scb k) (k_tcb k) (k_dcbs k) (k_must k) e (k_begun k) (k_wait k).
Definition with_wait (k : task) (w : await_kind) : task :=
  Task (k_state k) (k_outcome k) (k_scb k) (k_tcb k) (k_dcbs k) (k_must k) (k_exc k) (k_begun k) w.
Definition with_running (k : task) : task :=
  Task Running (k_outcome k) (k_scb k) (k_tcb k) (k_dcbs k) (k_must k) (k_exc k) true (k_wait k).

Definition state_of (s : st) (t : tid) : tstate := k_state (s_task s t).
Definition done (s : st) (t : tid) : bool := is_done (state_of s t).

(** * The event loop *)

(** _event_loop.py:66-71 [schedule] of [t._resume], storing the handle as the callers do
    (task.py:283, 324); sets state and [_exc] (281-282, 322-323). *)
Definition schedule_resume (s : st) (t : tid) (e : option exc) : st :=
  let h := s_next s in
  let s := set_task s t (with_sched (s_task s t) h e) in
  let s := set_queue s (s_queue s ++ [QEnt h t false]) in
  log (set_next s (S h)) (OSched h t).

(** _event_loop.py:73-78 [schedule_left], called by task.py:285-303 [_start_next]. *)
Definition schedule_left (s : st) (t : tid) : st :=
  let h := s_next s in
  let s := set_task s t (with_sched (s_task s t) h None) in
  let s := set_queue s (QEnt h t false :: s_queue s) in
  log (set_next s (S h)) (OSchedLeft h t).

(** _event_loop.py:28-29 [ScheduledCallback.cancel]. *)
Definition cancel_slot (s : st) (h : nat) : st :=
  set_queue s (map (fun q => if Nat.eqb (q_id q) h then QEnt (q_id q) (q_task q) true else q)
                   (s_queue s)).

(** * Triggers *)

(** _base_triggers.py:83-99 [_do_callbacks] and [_react]: the callbacks are taken out, then run in
    order of registration. Every registered callback is some [Task._schedule_resume] (task.py:444).
    (The code also registers a few private functions: _test_manager.py:96, 158, handle.py:817,
    regression.py:421; those are not part of this layer.) *)
Definition react (s : st) (tr : trig) : st :=
  let l := s_cbs s tr in
  let s := log (set_cbs s tr []) (OFire tr) in
  fold_left (fun s '(h, t) => schedule_resume s t None) l s.

(** _base_triggers.py:403-405 [Lock._acquire_and_fire]. *)
Definition acquire_and_fire (s : st) (l n : nat) : st :=
  let s := log (set_lock s l (Lock (Some n) (l_pending (s_lock s l)))) (OHold l n) in
  react s (TLock l n).

(** [_prime] of each trigger: _base_triggers.py:129-133, 276-280, 317-318 with 407-411, 529-530;
    task.py:759-761; _gpi_triggers.py:159-162, 182-185 and alike. [ok]: whether the simulator
    returned a callback handle. The flag returned says whether [_prime] raised. *)
Definition prime (s : st) (tr : trig) (ok : bool) : st * bool :=
  match tr with
  | TEvent e => (if s_event s e then react s tr else s, false)
  | TInternal i => (if i_fired (s_ievent s i) then react s tr else s, false)
  | TLock l n =>
      (match l_current (s_lock s l) with
       | None => acquire_and_fire s l n
       | Some _ => set_lock s l (Lock (l_current (s_lock s l)) (l_pending (s_lock s l) ++ [n]))
       end, false)
  | TNull _ => (react s tr, false)
  | TComplete u | TJoin u => (if done s u then react s tr else s, false)
  | TGpi g => if ok then (set_gpi s g (Gpi true true), false)
              else (set_gpi s g (Gpi false (g_armed (s_gpi s g))), true)
  end.

(** _base_triggers.py:61-73 [_register] of [t._schedule_resume]. The handle is stored in
    [t._trigger_callback] (task.py:444) when it is created rather than when [_register] returns;
    nothing reads it in between, nor after a failing [_prime]. *)
Definition register (s : st) (tr : trig) (t : tid) (ok : bool) : st * bool :=
  let h := s_next s in
  let do_prime := match s_cbs s tr with [] => true | _ => false end in
  let s := set_next s (S h) in
  let s := set_task s t (with_tcb (s_task s t) tr h) in
  let s := set_cbs s tr (s_cbs s tr ++ [(h, t)]) in
  let s := log s (OBlock t tr h) in
  if do_prime then prime s tr ok else (s, false).

(** Errors which an API call can raise. *)
Inductive perr := PRuntime | PKey | PAssert | PInvalidState.

(** list.remove *)
Fixpoint remove_first (n : nat) (l : list nat) : list nat :=
  match l with
  | [] => []
  | x :: l' => if Nat.eqb x n then l' else x :: remove_first n l'
  end.

(** [_unprime]: _base_triggers.py:135-136, 282-283, 320-321 with 413-415, 532-533;
    _gpi_triggers.py:51-54 (with its assertion); TaskComplete inherits the empty method. *)
Definition unprime (s : st) (tr : trig) : st * option perr :=
  match tr with
  | TLock l n =>
      (set_lock s l (Lock (l_current (s_lock s l)) (remove_first n (l_pending (s_lock s l)))), None)
  | TGpi g => if g_hdl (s_gpi s g) then (set_gpi s g (Gpi false false), None)
              else (s, Some PAssert)
  | _ => (s, None)
  end.

(** _base_triggers.py:75-81 [_deregister], called through 41-42 [TriggerCallback.cancel]. *)
Definition deregister (s : st) (tr : trig) (h : nat) : st * option perr :=
  if existsb (fun c => Nat.eqb (fst c) h) (s_cbs s tr) then
    let s := set_cbs s tr (filter (fun c => negb (Nat.eqb (fst c) h)) (s_cbs s tr)) in
    match s_cbs s tr with [] => unprime s tr | _ => (s, None) end
  else (s, Some PKey).

(** [self._trigger_callback.cancel()] and [self._schedule_callback.cancel()]; the attribute is
    missing ([None]) only before the first registration, which would be an AttributeError. *)
Definition cancel_tcb (s : st) (t : tid) : st * option perr :=
  match k_tcb (s_task s t) with
  | Some (tr, h) => deregister s tr h
  | None => (s, Some PKey)
  end.
Definition cancel_scb (s : st) (t : tid) : st * option perr :=
  match k_scb (s_task s t) with
  | Some h => (cancel_slot s h, None)
  | None => (s, Some PKey)
  end.

(** * Task *)

(** task.py:305-311: the first part of [_set_outcome]; the done callbacks are called by the
    steps of the [FDone] frame. *)
Definition set_outcome (s : st) (t : tid) (x : tstate) (o : outcome) (k : after) : st :=
  let s := log (set_task s t (with_outcome (s_task s t) x o)) (ODone t x o) in
  set_ctl s (FDone t 0 k :: s_ctl s).

(** task.py:317-319: the last part of [_set_outcome], then what follows it. *)
Definition finish_outcome (s : st) (t : tid) (k : after) : st :=
  let s := react s (TComplete t) in
  let s := react s (TJoin t) in
  match k with
  | AfterResume => set_current s None
  | AfterRaise => set_halt (set_current s None)
  | AfterKill => s
  end.

(** The coroutine left its frame: the end of [_resume]. *)
(** task.py:352-368: it returned. *)
Definition coro_returned (s : st) (t : tid) (v : nat) : st :=
  if Nat.eqb (k_must (s_task s t)) 0
  then set_outcome s t Finished (OVal (Some v)) AfterResume
  else set_outcome s t Errored (OExc EIgnoredCancel) AfterResume.

(** task.py:369-412: it raised. *)
Definition coro_raised (s : st) (t : tid) (e : exc) : st :=
  match e with
  | EExit _ => set_outcome s t Errored (OExc e) AfterRaise
  | ECancelled _ => set_outcome s t Cancelled (OExc e) AfterResume
  | _ =>
      if Nat.eqb (k_must (s_task s t)) 0
      then set_outcome s t Errored (OExc e) AfterResume
      else set_outcome s t Errored (OExc EIgnoredCancel) AfterResume
  end.

(** task.py:413-449: it yielded a trigger ([Some tr]) or something else ([None]). *)
Definition coro_yielded (s : st) (t : tid) (y : option trig) (ok : bool) : st :=
  if negb (Nat.eqb (k_must (s_task s t)) 0) then set_ctl s (FClose t :: s_ctl s)
  else match y with
  | None => set_current (schedule_resume s t (Some EBadYield)) None
  | Some tr =>
      let s := set_task s t (with_state (s_task s t) Pending) in
      let '(s, raised) := register s tr t ok in
      let s := if raised then schedule_resume s t (Some EPrime) else s in
      set_current s None
  end.

(** task.py:646-662 [result()], as a value. *)
Definition result_of (s : st) (t : tid) : option outcome :=
  if done s t then k_outcome (s_task s t) else None.

(** task.py:634-636 [cancelled], 646-662 [result()] and 664-680 [exception()]: a value returned, an
    exception returned or raised, InvalidStateError; [Broken]: the stored outcome does not have the
    kind which the state promises (the code would raise or return something else). *)
Inductive answer := Value (v : option nat) | NoExc | Exc (e : exc) | Raises (e : exc) | Invalid | Broken.
Definition py_cancelled (s : st) (t : tid) : bool := tstate_eqb (state_of s t) Cancelled.
Definition py_result (s : st) (t : tid) : answer :=
  match state_of s t, k_outcome (s_task s t) with
  | Cancelled, Some (OExc e) | Errored, Some (OExc e) => Raises e
  | Finished, Some (OVal v) => Value v
  | (Cancelled | Errored | Finished), _ => Broken
  | _, _ => Invalid
  end.
Definition py_exception (s : st) (t : tid) : answer :=
  match state_of s t, k_outcome (s_task s t) with
  | Cancelled, Some (OExc e) => Raises e
  | Finished, _ => NoExc
  | Errored, Some (OExc e) => Exc e
  | (Cancelled | Errored), _ => Broken
  | _, _ => Invalid
  end.

(** task.py:326-351: [_resume] up to the point where the coroutine has control. Throwing into a
    coroutine which was never started raises at once and runs none of its body.
    A coroutine suspended in [await u] continues with [u.result()] when nothing is thrown. *)
Definition resume (s : st) (t : tid) : st :=
  let k := s_task s t in
  let s := set_current (set_task s t (with_running k)) (Some t) in
  let s := log s (OResume t (k_exc k)) in
  match k_exc k with
  | Some e => if k_begun k then set_ctl s (FRun t :: s_ctl s) else coro_raised s t e
  | None =>
      let s := match k_wait k with
               | WTask u => log s (OGot t u (result_of s u))
               | WTrig => s
               end in
      set_ctl s (FRun t :: s_ctl s)
  end.

(** What an API call returns or raises. *)
Inductive res := RUnit | RBool (b : bool) | RErr (e : perr) | RGot (o : outcome).

Definition res_of (e : option perr) (r : res) : res :=
  match e with Some e => RErr e | None => r end.

(** task.py:270-283 [_start_soon] and 285-303 [_start_next]. *)
Definition start_soon (s : st) (t : tid) : st * res :=
  match state_of s t with
  | Unstarted => (schedule_resume s t None, RUnit)
  | _ => (s, RErr PRuntime)
  end.
Definition start_next (s : st) (t : tid) : st * res :=
  match state_of s t with
  | Unstarted => (schedule_left s t, RUnit)
  | _ => (s, RErr PRuntime)
  end.

Definition add_must (s : st) (t : tid) : st :=
  set_task s t (with_must (s_task s t) (S (k_must (s_task s t)))).

(** task.py:543-584 [cancel]. *)
Definition cancel (s : st) (t : tid) (m : nat) : st * res :=
  match state_of s t with
  | Finished | Errored | Cancelled => (s, RBool false)
  | Running => (s, RErr PRuntime)
  | Pending =>
      match cancel_tcb s t with
      | (s, Some e) => (s, RErr e)
      | (s, None) => (add_must (schedule_resume s t (Some (ECancelled m))) t, RBool true)
      end
  | Scheduled =>
      (add_must (set_task s t (with_exc (s_task s t) (Some (ECancelled m)))) t, RBool true)
  | Unstarted =>
      (add_must (schedule_resume s t (Some (ECancelled m))) t, RBool true)
  end.

(** task.py:455-490 [kill]. Closing a coroutine which was never started runs nothing. *)
Definition kill (s : st) (t : tid) : st * res :=
  let fin (s : st) := (set_outcome s t Finished (OVal None) AfterKill, RUnit) in
  match state_of s t with
  | Pending => match cancel_tcb s t with (s, Some e) => (s, RErr e) | (s, None) => fin s end
  | Scheduled => match cancel_scb s t with (s, Some e) => (s, RErr e) | (s, None) => fin s end
  | Unstarted => fin s
  | Running => (s, RErr PRuntime)
  | Finished | Errored | Cancelled => (s, RUnit)
  end.

(** task.py:586-620 [_cancel_now]. *)
Definition cancel_now (s : st) (t : tid) (m : nat) : st * res :=
  let go (s : st) :=
    let s := add_must s t in
    (resume (set_task s t (with_exc (s_task s t) (Some (ECancelled m)))) t, RBool true) in
  match state_of s t with
  | Pending => match cancel_tcb s t with (s, Some e) => (s, RErr e) | (s, None) => go s end
  | Scheduled => match cancel_scb s t with (s, Some e) => (s, RErr e) | (s, None) => go s end
  | Unstarted => go s
  | Running => (s, RErr PRuntime)
  | Finished | Errored | Cancelled => (s, RBool false)
  end.

(** task.py:622-628 [_uncancel]. *)
Definition uncancel (s : st) (t : tid) : st :=
  set_task s t (with_must (s_task s t) (Nat.pred (k_must (s_task s t)))).

(** task.py:682-693 [_add_done_callback]. *)
Definition add_done (s : st) (t : tid) (c : nat) : st :=
  let s := if done s t then log s (OCall t c) else s in
  set_task s t (with_dcbs (s_task s t) (k_dcbs (s_task s t) ++ [c])).

(** _base_triggers.py:218-228 [Event.set], 241-247 [Event.clear]. *)
Definition event_set (s : st) (e : nat) : st := react (set_event s e true) (TEvent e).
Definition event_clear (s : st) (e : nat) : st := set_event s e false.

(** _base_triggers.py:285-288 [_InternalEvent.set]. *)
Definition ievent_set (s : st) (i : nat) : st :=
  react (set_ievent s i (IEvent true (i_awaited (s_ievent s i)))) (TInternal i).

(** _base_triggers.py:424-436 [Lock.release]. *)
Definition release (s : st) (l : nat) : st * res :=
  match l_current (s_lock s l) with
  | None => (s, RErr PRuntime)
  | Some _ =>
      let s := log (set_lock s l (Lock None (l_pending (s_lock s l)))) (OFree l) in
      match l_pending (s_lock s l) with
      | [] => (s, RUnit)
      | n :: rest => (acquire_and_fire (set_lock s l (Lock None rest)) l n, RUnit)
      end
  end.

(** The checks made by [__await__] before yielding: _base_triggers.py:323-328 with 417-418
    ([_Lock]), 294-300 ([_InternalEvent], which also marks itself). Other triggers yield at once
    (111-113). The checks of ReadOnly and ReadWrite (_gpi_triggers.py:187-192, 213-218) only raise
    into the caller, which is indistinguishable from a coroutine that does not await. *)
Definition await_check (s : st) (tr : trig) : option st :=
  match tr with
  | TLock l n =>
      if match l_current (s_lock s l) with Some m => Nat.eqb m n | None => false end
         || existsb (Nat.eqb n) (l_pending (s_lock s l))
      then None else Some s
  | TInternal i =>
      if i_awaited (s_ievent s i) then None
      else Some (set_ievent s i (IEvent (i_fired (s_ievent s i)) true))
  | _ => Some s
  end.

(** * Steps *)

(** API calls available to any code which has control. *)
Inductive op :=
| OpStart (t : tid) | OpStartNext (t : tid)
| OpCancel (t : tid) (m : nat) | OpKill (t : tid) | OpUncancel (t : tid)
| OpAddDone (t : tid) (c : nat)
| OpSet (e : nat) | OpClear (e : nat) | OpISet (i : nat) | OpRelease (l : nat).

Inductive label :=
| LOp (o : op)
| LCancelNow (t : tid) (m : nat)   (* not from a coroutine: task.py:589-590 *)
| LReturn (v : nat) | LRaise (e : exc)
| LAwait (tr : trig) (ok : bool)
| LAwaitTask (u : tid)
| LYieldBad
| LCloseEnd | LCloseRaise
| LDoneNext
| LPop | LFire (g : nat).

Definition do_op (s : st) (o : op) : st * res :=
  match o with
  | OpStart t => start_soon s t
  | OpStartNext t => start_next s t
  | OpCancel t m => cancel s t m
  | OpKill t => kill s t
  | OpUncancel t => (uncancel s t, RUnit)
  | OpAddDone t c => (add_done s t c, RUnit)
  | OpSet e => (event_set s e, RUnit)
  | OpClear e => (event_clear s e, RUnit)
  | OpISet i => (ievent_set s i, RUnit)
  | OpRelease l => release s l
  end.

(** [await trigger] in the coroutine of [t] (the top frame is popped if it yields). *)
Definition await_trigger (s : st) (rest : list frame) (t : tid) (tr : trig) (ok : bool)
  : st * res :=
  match await_check s tr with
  | None => (s, RErr PRuntime)
  | Some s =>
      let w := match tr with TJoin u => WTask u | _ => WTrig end in
      let s := set_task s t (with_wait (s_task s t) w) in
      (coro_yielded (set_ctl s rest) t (Some tr) ok, RUnit)
  end.

(** task.py:695-700 [Task.__await__]. *)
Definition await_task (s : st) (rest : list frame) (t u : tid) : st * res :=
  let s := match state_of s u with Unstarted => fst (start_soon s u) | _ => s end in
  if done s u then
    match result_of s u with
    | Some o => (log s (OGot t u (Some o)), RGot o)
    | None => (s, RErr PInvalidState)
    end
  else
    let s := set_task s t (with_wait (s_task s t) (WTask u)) in
    (coro_yielded (set_ctl s rest) t (Some (TComplete u)) true, RUnit).

(** One step. [None]: the label is not possible in this state. The result is what the code which
    made the call gets back. [LPop]: one iteration of _event_loop.py:48-53. [LFire]: the simulator
    calls [GPITrigger._react] (_gpi_triggers.py:40-49), which happens when the previous run of the
    event loop has returned. *)
Definition step (s : st) (l : label) : option (st * res) :=
  if s_halt s then None
  else match l, s_ctl s with
  | LOp o, _ => Some (do_op s o)
  | LCancelNow t m, ([] | FDone _ _ _ :: _) => Some (cancel_now s t m)
  | LReturn v, FRun t :: rest => Some (coro_returned (set_ctl s rest) t v, RUnit)
  | LRaise e, FRun t :: rest => Some (coro_raised (set_ctl s rest) t e, RUnit)
  | LAwait tr ok, FRun t :: rest => Some (await_trigger s rest t tr ok)
  | LAwaitTask u, FRun t :: rest => Some (await_task s rest t u)
  | LYieldBad, FRun t :: rest =>
      let s := set_task s t (with_wait (s_task s t) WTrig) in
      Some (coro_yielded (set_ctl s rest) t None true, RUnit)
  | LCloseEnd, FClose t :: rest =>
      Some (set_outcome (set_ctl s rest) t Errored (OExc EIgnoredCancel) AfterResume, RUnit)
  | LCloseRaise, FClose t :: rest => Some (set_halt s, RUnit)
  | LDoneNext, FDone t i k :: rest =>
      match nth_error (k_dcbs (s_task s t)) i with
      | Some c => Some (log (set_ctl s (FDone t (S i) k :: rest)) (OCall t c), RUnit)
      | None => Some (finish_outcome (set_ctl s rest) t k, RUnit)
      end
  | LPop, [] =>
      match s_queue s with
      | q :: rest =>
          let s := log (set_queue s rest) (OPop (q_id q) (q_task q) (negb (q_cancelled q))) in
          Some (if q_cancelled q then s else resume s (q_task q), RUnit)
      | [] => None
      end
  | LFire g, [] =>
      match s_queue s with
      | [] => if g_armed (s_gpi s g)
              then Some (react (set_gpi s g (Gpi (g_hdl (s_gpi s g)) false)) (TGpi g), RUnit)
              else None
      | _ => None
      end
  | _, _ => None
  end.

(** Executions: a list of labels, each possible in turn. *)
Inductive exec : st -> list label -> st -> Prop :=
| exec_nil s : exec s [] s
| exec_step s l s1 r ls s2 : step s l = Some (s1, r) -> exec s1 ls s2 -> exec s (l :: ls) s2.

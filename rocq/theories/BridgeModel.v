(** Model of the bridge between Tasks and threads (/repo/src/cocotb/_bridge.py) and of the event loop (_event_loop.py:44-64).

    The main thread runs the event loop; every call of a [bridge] function has its own thread. Threads are interleaved arbitrarily,
    also with the main thread, at the granularity of the steps below. The functions run by the threads and the Tasks run by the event
    loop are adversaries.

    Simplifications:
    - A scheduled callback (ScheduledCallback) is one of four kinds ([entry]); what other Tasks do is the choice of the adversary.
    - [start_soon] (229) called by a thread is one step: it creates the Task of a [resume] call and schedules it. If it raises (no test
      is running), nothing changes.
    - A Task which awaits a bridge waits for [waiter.event] (266) from the step which creates the thread on (257-266: no other Python
      code of the main thread runs in between).
    - KeyboardInterrupt, SystemExit and BdbQuit (212-215) end the simulation and are not modelled.
    - [EventLoop.run] is also called within a simulator callback (_test_manager.py:98); its return is treated like a return to the
      simulator.
    - The debug log is left out. Values are numbers; an outcome may be an exception. *)
From Verif Require Import Base KernelModel.
From Coq Require Import Arith.

(** Calls of [bridge] functions, each with its own waiter and thread; calls of [resume] functions by threads. *)
Definition bid := nat.
Definition wid := nat.

(** _bridge.py:111-115 [external_state]. *)
Inductive wstate := WInit | WRun | WPause | WExit.
(** Where a thread is: there is none; it is not started; it runs [func] (253); it called [start_soon] (229) and will call
    [thread_suspend] (233); it waits for [event] (235); [waiter._outcome] is set (253) and it will call [thread_done] (254); it is
    over. *)
Inductive tpc := TNone | TNew | TRun | TCall (w : wid) | TBlock (w : wid) | TOut | TOver.
(** The Task of a [resume] call (207-225): it is scheduled; it has begun; it is over and called [event.set()] or is about to; it was
    cancelled before it began. *)
Inductive rstat := RSched | RBegun | RDone | RLost.
(** The Task which awaits a bridge (256-268): it waits for [waiter.event]; the event was set and it is scheduled; it was resumed; it was
    cancelled. *)
Inductive await := AWait | AReady | AGot | AGone.
(** A scheduled callback: the Task awaiting bridge [t]; the Task of [resume] call [w]; another; a cancelled one. *)
Inductive entry := QWake (t : bid) | QWrap (w : wid) | QOther | QDead.
(** Where the main thread is: in the simulator; in a callback from the simulator (_gpi_triggers.py:40-49), before [run()] (49); in the
    loop of [run] (46-49); in a callback of the event loop (53); between [thread_resume] and [event.set()] of call [w] (224-225), in
    the one or the other; in [run_bridge_threads] (283) before the list element with the index [i]; in [thread_wait] (291) for it;
    [thread_wait] raised an exception (181-184). *)
Inductive mpc := MSim | MReact | MLoop | MCall | MSet (w : wid) (react : bool) | MStart (i : nat) | MWait (i : nat) (t : bid) | MBad.

(** History: [func] of bridge [t] gave [o]; the Task awaiting [t] was resumed and found [waiter.result] ([None]: RuntimeError, 128-130);
    [waiter.event] of [t] was set. *)
Inductive bhist := HOut (t : bid) (o : nat) | HGot (t : bid) (o : option nat) | HSet (t : bid).

(** [pending_threads]; [state] of the waiters; the threads; the Tasks of [resume] calls with their thread; their [event]s;
    [waiter._outcome]; the awaiting Tasks; [_callbacks]; the main thread; history (newest first). *)
Record bst := BSt {
  b_pend : list bid; b_st : bid -> wstate; b_th : bid -> tpc; b_wr : wid -> option (bid * rstat); b_flag : wid -> bool;
  b_out : bid -> option nat; b_aw : bid -> await; b_queue : list entry; b_main : mpc; b_hist : list bhist }.
(** Before any bridge (189; _event_loop.py:36-38). *)
Definition binit : bst := BSt [] (fun _ => WInit) (fun _ => TNone) (fun _ => None) (fun _ => false) (fun _ => None) (fun _ => AWait) [] MSim [].

(** Parts of the state change: the state of a waiter (133-140 [_propagate_state]), a thread, [_callbacks], the main thread. *)
Definition set_st (x : bst) (t : bid) (v : wstate) : bst :=
  BSt (b_pend x) (upd (b_st x) t v) (b_th x) (b_wr x) (b_flag x) (b_out x) (b_aw x) (b_queue x) (b_main x) (b_hist x).
Definition set_th (x : bst) (t : bid) (v : tpc) : bst :=
  BSt (b_pend x) (b_st x) (upd (b_th x) t v) (b_wr x) (b_flag x) (b_out x) (b_aw x) (b_queue x) (b_main x) (b_hist x).
Definition set_queue (x : bst) (q : list entry) : bst :=
  BSt (b_pend x) (b_st x) (b_th x) (b_wr x) (b_flag x) (b_out x) (b_aw x) q (b_main x) (b_hist x).
Definition set_main (x : bst) (m : mpc) : bst :=
  BSt (b_pend x) (b_st x) (b_th x) (b_wr x) (b_flag x) (b_out x) (b_aw x) (b_queue x) m (b_hist x).
Definition set_wr (x : bst) (w : wid) (t : bid) (r : rstat) : bst :=
  BSt (b_pend x) (b_st x) (b_th x) (upd (b_wr x) w (Some (t, r))) (b_flag x) (b_out x) (b_aw x) (b_queue x) (b_main x) (b_hist x).
Definition set_aw (x : bst) (t : bid) (a : await) : bst :=
  BSt (b_pend x) (b_st x) (b_th x) (b_wr x) (b_flag x) (b_out x) (upd (b_aw x) t a) (b_queue x) (b_main x) (b_hist x).
Definition set_flag (x : bst) (w : wid) : bst :=
  BSt (b_pend x) (b_st x) (b_th x) (b_wr x) (upd (b_flag x) w true) (b_out x) (b_aw x) (b_queue x) (b_main x) (b_hist x).
Definition set_out (x : bst) (t : bid) (o : nat) : bst :=
  BSt (b_pend x) (b_st x) (b_th x) (b_wr x) (b_flag x) (upd (b_out x) t (Some o)) (b_aw x) (b_queue x) (b_main x) (HOut t o :: b_hist x).
Definition set_pend (x : bst) (l : list bid) : bst :=
  BSt l (b_st x) (b_th x) (b_wr x) (b_flag x) (b_out x) (b_aw x) (b_queue x) (b_main x) (b_hist x).
Definition note (x : bst) (h : bhist) : bst :=
  BSt (b_pend x) (b_st x) (b_th x) (b_wr x) (b_flag x) (b_out x) (b_aw x) (b_queue x) (b_main x) (h :: b_hist x).

(** _event_loop.py:28-29 [cancel] of the callback of one Task. *)
Definition kill_wake (q : list entry) (t : bid) : list entry := map (fun e => match e with QWake u => if Nat.eqb u t then QDead else e | _ => e end) q.
Definition kill_wrap (q : list entry) (w : wid) : list entry := map (fun e => match e with QWrap v => if Nat.eqb v w then QDead else e | _ => e end) q.

(** _bridge.py:300 [ext.event.set()]: the awaiting Task is scheduled. *)
Definition event_set (x : bst) (t : bid) : bst :=
  let x := note x (HSet t) in
  match b_aw x t with AWait => set_queue (set_aw x t AReady) (b_queue x ++ [QWake t]) | _ => x end.
(** [pending_threads.remove(ext)] (299). *)
Fixpoint remove_one (t : bid) (l : list bid) : list bid :=
  match l with [] => [] | u :: r => if Nat.eqb u t then r else u :: remove_one t r end.

(** _event_loop.py:44-64 [run] when it is called or when a pass is over (46). *)
Definition enter (x : bst) : bst := set_main x (match b_queue x with [] => MSim | _ => MLoop end).
(** A callback is taken off [_callbacks] (49-53). *)
Definition pop (x : bst) (e : entry) (q : list entry) : bst :=
  let x := set_main (set_queue x q) MCall in
  match e with
  | QWake t => note (set_aw x t AGot) (HGot t (b_out x t))
  | QWrap w => match b_wr x w with Some (t, RSched) => set_wr x w t RBegun | _ => x end
  | QOther | QDead => x
  end.

(** The main thread goes on by itself. [None]: it is blocked (168-169) or Python code other than the event loop has control. *)
Definition main_step (x : bst) : option bst :=
  match b_main x with
  | MLoop => Some (match b_queue x with e :: q => pop x e q | [] => set_main x (MStart 0) end)
  | MSet w r => Some (set_main (set_flag x w) (if r then MReact else MCall))
  | MStart i =>
      Some (match nth_error (b_pend x) i with
      | None => enter x
      | Some t =>
          (* 150-156 [thread_start] *)
          let x := match b_st x t with WInit => set_th (set_st x t WRun) t TRun | _ => x end in
          set_main x (MWait i t)
      end)
  | MWait i t =>
      (* 161-186 [thread_wait], then 298-300 *)
      match b_st x t with
      | WRun => None
      | WInit => Some (set_main x MBad)
      | WPause => Some (set_main x (MStart (S i)))
      | WExit => Some (set_main (event_set (set_pend x (remove_one t (b_pend x))) t) (MStart (S i)))
      end
  | _ => None
  end.
Definition user_control (x : bst) : bool := match b_main x with MReact | MCall => true | _ => false end.

(** Steps. Of the main thread: the simulator calls back; a Task awaits a [bridge] function (new bridge [t]); a Task is scheduled; the
    Task awaiting [t] is cancelled; the Task of call [w] is over, with a value or an exception, and calls [thread_resume] (207-224; not modelled: KeyboardInterrupt,
    SystemExit and BdbQuit, 211-214, which end the simulation); it is cancelled
    before it began; the callback is over; the main thread goes on by itself. Of threads: a [resume] call up to [start_soon] (192-229): the
    thread must be in [pending_threads], otherwise RuntimeError (195-199); [thread_suspend] (233); [event.wait()] returns (235); [func]
    gives [o] (253); [thread_done] (254). *)
Inductive blabel :=
| BReact | BNew (t : bid) | BSched | BAbandon (t : bid) | BFinish (w : wid) | BLose (w : wid) | BEnd | BMain
| BCall (t : bid) (w : wid) | BSuspend (t : bid) | BWake (t : bid) | BReturn (t : bid) (o : nat) | BDone (t : bid).

(** One step. *)
Definition bstep (x : bst) (l : blabel) : option bst :=
  match l with
  | BReact => match b_main x with MSim => Some (set_main x MReact) | _ => None end
  | BNew t =>
      match user_control x, b_th x t with
      | true, TNone => Some (set_pend (set_th x t TNew) (b_pend x ++ [t]))
      | _, _ => None
      end
  | BSched => if user_control x then Some (set_queue x (b_queue x ++ [QOther])) else None
  | BAbandon t =>
      match user_control x, b_th x t, b_aw x t with
      | true, TNone, _ => None
      | true, _, (AWait | AReady) => Some (set_queue (set_aw x t AGone) (kill_wake (b_queue x) t))
      | _, _, _ => None
      end
  | BFinish w =>
      match user_control x, b_wr x w with
      | true, Some (t, RBegun) =>
          Some (set_main (set_st (set_wr x w t RDone) t WRun) (MSet w (match b_main x with MReact => true | _ => false end)))
      | _, _ => None
      end
  | BLose w =>
      match user_control x, b_wr x w with
      | true, Some (t, RSched) => Some (set_queue (set_wr x w t RLost) (kill_wrap (b_queue x) w))
      | _, _ => None
      end
  | BEnd => match b_main x with MReact => Some (enter x) | MCall => Some (set_main x MLoop) | _ => None end
  | BMain => main_step x
  | BCall t w =>
      match b_th x t, b_wr x w with
      | TRun, None =>
          if existsb (Nat.eqb t) (b_pend x) then Some (set_queue (set_wr (set_th x t (TCall w)) w t RSched) (b_queue x ++ [QWrap w])) else Some x
      | _, _ => None
      end
  | BSuspend t => match b_th x t with TCall w => Some (set_st (set_th x t (TBlock w)) t WPause) | _ => None end
  | BWake t => match b_th x t with TBlock w => if b_flag x w then Some (set_th x t TRun) else None | _ => None end
  | BReturn t o => match b_th x t with TRun => Some (set_out (set_th x t TOut) t o) | _ => None end
  | BDone t => match b_th x t with TOut => Some (set_st (set_th x t TOver) t WExit) | _ => None end
  end.

(** Executions whose steps satisfy [P]. *)
Inductive bexec (P : bst -> blabel -> Prop) : bst -> list blabel -> bst -> Prop :=
| bexec_nil x : bexec P x [] x
| bexec_step x l x1 ls x2 : P x l -> bstep x l = Some x1 -> bexec P x1 ls x2 -> bexec P x (l :: ls) x2.

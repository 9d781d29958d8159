(** Model of TestManager (/repo/src/cocotb/_test_manager.py), on top of the scheduler kernel.

    One test. The code between two kernel operations is one step ([XLib]); nothing else can happen while library code has
    control. User code (the coroutines of the test and of its Tasks, their done callbacks) is an adversary: whenever it has
    control it performs any kernel step or creates Tasks. [_abort] calls [_cancel_now()], which runs coroutines in the middle
    of the loop of line 151: the loop goes on ([x_loop]) when the call stack is as high as before.

    Simplifications:
    - The Event [_done] is not known to user code and only [_on_complete] is ever registered on it, so it is kept apart from the
      Events of the kernel ([x_flag], [x_reg]).
    - The done callbacks have the numbers [test_cb] and [task_cb], which are odd; those of user code are even.
    - [_test_complete_cb] (regression.py:480-509) asks for [exception()] and registers the next test for later; it does not raise.
      Starting another test is not modelled.
    - The exception EndTest (433-455) is [EUser 0].
    - The simulator accepts the Timer of line 96. [pdb] (138-143) is left out.
    - [_cancel_now] is private and only called here (152), so user code does not.
    - The coroutine given to [create_task] is not modelled: it gets the Task created for it (389), which must not have been used
      before.
    - An exception leaving a done callback leaves [_set_outcome] half way (task.py:305-319): the machine stops ([x_esc]).
    - What was registered, ended, cancelled and signalled is kept as history ([x_hist]); no transition reads it. *)
From Verif Require Import Base KernelModel.
From Coq Require Import Arith.

(** What can be in [_excs]: the exception of a Task (82, 197), SimTimeoutError (102), CancelledError (123-127). *)
Inductive failure := FExc (e : exc) | FTimeout | FCancelled (m : nat).
(** What [exception()] returns (104-110): None, one exception, an exception group. *)
Inductive report := RNone | ROne (f : failure) | RGroup (fs : list failure).

(** Where a running done callback of Task [u] is: before [remove_task] (67, 181); after it (70, 183). *)
Inductive cbpc := BRemove (u : tid) | BCheck (u : tid).

(** History: [u] was registered (92, 172); the done callback of [u] was called, while some Task was awaiting [u] or not; the
    timeout; the call [cancel()]; [_abort] begins the shutdown (134-135); [u] was cancelled by it (152); [_on_complete] was called
    when [exception()] was [r]. *)
Inductive hist :=
| HAdd (u : tid) | HEnd (u : tid) (awaited : bool) | HTimeout | HCancel (m : nat) | HAbort | HNow (u : tid) | HComplete (r : report).

(** The kernel; [_main_task] once [start] was called; [_tasks]; [_excs]; [_finishing]; [_complete]; whether [_done] is set; whether
    [_on_complete] is registered on it; whether the Timer is running; [_current_test] is this test; the callback being run; the
    loop of 151: the Tasks to come and the height of the call stack; whether an exception left a callback; history (newest
    first). *)
Record qst := QSt {
  x_k : st; x_main : option tid; x_tasks : list tid; x_excs : list failure; x_fin : bool; x_done : bool; x_flag : bool; x_reg : bool;
  x_timer : bool; x_cur : bool; x_cb : option cbpc; x_loop : option (list tid * nat); x_esc : bool; x_hist : list hist }.

(** The numbers of [_test_done_callback] (66) and [_task_done_callback] (180). *)
Definition test_cb : nat := 1.
Definition task_cb : nat := 3.
(** User code does not know these callbacks and does not call [_cancel_now]. *)
Definition user_label (l : label) : bool :=
  match l with LOp (OpAddDone _ c) => Nat.even c | LCancelNow _ _ => false | _ => true end.

(** Whether the loop of 151 has control. *)
Definition looping (x : qst) : bool :=
  match x_loop x with Some (_, d) => Nat.eqb (length (s_ctl (x_k x))) d | None => false end.
(** Whether user code has control. In [_set_outcome] it has if the callback called last is one of its own. *)
Definition user_control (x : qst) : bool :=
  match x_cb x with
  | Some _ => false
  | None =>
      if looping x then false
      else match s_ctl (x_k x) with
      | FDone u i _ :: _ =>
          match i with
          | O => false
          | S j => match nth_error (k_dcbs (s_task (x_k x) u)) j with Some c => Nat.even c | None => false end
          end
      | _ => true
      end
  end.
(** Whether user code can do [l]: it has control, or the next callback is not one of the test. *)
Definition user_can (x : qst) (l : label) : bool :=
  match l, s_ctl (x_k x) with
  | LDoneNext, FDone u i _ :: _ =>
      match x_cb x with
      | Some _ => false
      | None => negb (looping x) && match nth_error (k_dcbs (s_task (x_k x) u)) i with Some c => Nat.even c | None => true end
      end
  | _, _ => user_control x
  end.

(** Updates of parts of the state: [set_k]: the kernel; [set_cb]: where the callback is; [set_loop]: the loop of 151; [escape]: an
    exception leaves a callback (66-82, 180-197) or [_abort] (129-158); [note]: history. *)
Definition set_k (x : qst) (k : st) : qst :=
  QSt k (x_main x) (x_tasks x) (x_excs x) (x_fin x) (x_done x) (x_flag x) (x_reg x) (x_timer x) (x_cur x) (x_cb x) (x_loop x) (x_esc x) (x_hist x).
Definition set_cb (x : qst) (c : option cbpc) : qst :=
  QSt (x_k x) (x_main x) (x_tasks x) (x_excs x) (x_fin x) (x_done x) (x_flag x) (x_reg x) (x_timer x) (x_cur x) c (x_loop x) (x_esc x) (x_hist x).
Definition set_loop (x : qst) (l : option (list tid * nat)) : qst :=
  QSt (x_k x) (x_main x) (x_tasks x) (x_excs x) (x_fin x) (x_done x) (x_flag x) (x_reg x) (x_timer x) (x_cur x) (x_cb x) l (x_esc x) (x_hist x).
Definition escape (x : qst) : qst :=
  QSt (x_k x) (x_main x) (x_tasks x) (x_excs x) (x_fin x) (x_done x) (x_flag x) (x_reg x) (x_timer x) (x_cur x) None None true (x_hist x).
Definition note (x : qst) (h : hist) : qst :=
  QSt (x_k x) (x_main x) (x_tasks x) (x_excs x) (x_fin x) (x_done x) (x_flag x) (x_reg x) (x_timer x) (x_cur x) (x_cb x) (x_loop x) (x_esc x) (h :: x_hist x).

(** _test_manager.py:104-110 [exception]. *)
Definition exception_of (fs : list failure) : report :=
  match fs with [] => RNone | [f] => ROne f | _ => RGroup fs end.

(** _test_manager.py:160-168 [_on_complete]. *)
Definition on_complete (x : qst) : qst :=
  QSt (x_k x) (x_main x) (x_tasks x) (x_excs x) (x_fin x) true (x_flag x) (x_reg x) (x_timer x) false (x_cb x) (x_loop x) (x_esc x)
    (HComplete (exception_of (x_excs x)) :: x_hist x).

(** [self._done.set()] (178; _base_triggers.py:218-228): the registered [_on_complete] is called. *)
Definition done_set (x : qst) : qst :=
  let y := QSt (x_k x) (x_main x) (x_tasks x) (x_excs x) (x_fin x) (x_done x) true false (x_timer x) (x_cur x) (x_cb x) (x_loop x) (x_esc x) (x_hist x) in
  if x_reg x then on_complete y else y.

(** _test_manager.py:175-178 [remove_task]; [None]: KeyError. *)
Definition remove_task (x : qst) (u : tid) : option qst :=
  if existsb (Nat.eqb u) (x_tasks x) then
    let l := filter (fun v => negb (Nat.eqb v u)) (x_tasks x) in
    let y := QSt (x_k x) (x_main x) l (x_excs x) (x_fin x) (x_done x) (x_flag x) (x_reg x) (x_timer x) (x_cur x) (x_cb x) (x_loop x) (x_esc x) (x_hist x) in
    Some (match l with [] => done_set y | _ => y end)
  else None.

(** _test_manager.py:170-173 [add_task] of a new Task. *)
Definition add_task (x : qst) (u : tid) : qst :=
  QSt (add_done (x_k x) u task_cb) (x_main x) (x_tasks x ++ [u]) (x_excs x) (x_fin x) (x_done x) false (x_reg x) (x_timer x) (x_cur x) (x_cb x)
    (x_loop x) (x_esc x) (HAdd u :: x_hist x).

(** _test_manager.py:129-151 [_abort] up to its loop. The callback which called it has nothing left to do. *)
Definition abort (x : qst) (f : option failure) : qst :=
  let es := match f with Some f => x_excs x ++ [f] | None => x_excs x end in
  if x_fin x then
    QSt (x_k x) (x_main x) (x_tasks x) es (x_fin x) (x_done x) (x_flag x) (x_reg x) (x_timer x) (x_cur x) None (x_loop x) (x_esc x) (x_hist x)
  else
    QSt (x_k x) (x_main x) (x_tasks x) es true (x_done x) (x_flag x) (x_reg x) false (x_cur x) None
      (Some (x_tasks x, length (s_ctl (x_k x)))) (x_esc x) (HAbort :: x_hist x).

(** [isinstance(e, EndTest)] (77, 192). *)
Definition is_end_test (e : exc) : bool := match e with EUser O => true | _ => false end.
(** [task is self._main_task]: which of the two callbacks it is. *)
Definition is_main (x : qst) (u : tid) : bool := match x_main x with Some m => Nat.eqb u m | None => false end.
(** [task.complete._callbacks] (186). *)
Definition awaited (k : st) (u : tid) : bool := match s_cbs k (TComplete u) with [] => false | _ => true end.

(** What a call returns or raises ([QBlocked]: library code goes on). *)
Inductive qres :=
| QUser (r : res) | QBlocked | QUnit
| QRefused                                     (* RuntimeError: no test is running (384-385) *)
| QEscape (e : perr).

(** The done callbacks: 66-82 and 180-197. *)
Definition callback_step (x : qst) (c : cbpc) : qst * qres :=
  match c with
  | BRemove u =>
      match remove_task (note x (HEnd u (awaited (x_k x) u))) u with
      | None => (escape x, QEscape PKey)
      | Some x => (set_cb x (Some (BCheck u)), QBlocked)
      end
  | BCheck u =>
      if is_main x u then
        if py_cancelled (x_k x) u then (abort x None, QBlocked)
        else match py_exception (x_k x) u with
        | NoExc => (abort x None, QBlocked)
        | Exc e => (abort x (if is_end_test e then None else Some (FExc e)), QBlocked)
        | _ => (escape x, QEscape PInvalidState)
        end
      else
        if py_cancelled (x_k x) u then (set_cb x None, QBlocked)
        else if awaited (x_k x) u then (set_cb x None, QBlocked)
        else match py_exception (x_k x) u with
        | NoExc => (set_cb x None, QBlocked)
        | Exc e => (abort x (if is_end_test e then None else Some (FExc e)), QBlocked)
        | _ => (escape x, QEscape PInvalidState)
        end
  end.

(** The loop of 151-152, then 155-158. *)
Definition loop_step (x : qst) (todo : list tid) (d : nat) : qst * qres :=
  match todo with
  | u :: us =>
      match cancel_now (x_k x) u 0 with
      | (k, RErr e) => (escape (set_k x k), QEscape e)
      | (k, _) => (note (set_loop (set_k x k) (Some (us, d))) (HNow u), QBlocked)
      end
  | [] =>
      let x := set_loop x None in
      (if x_flag x then on_complete x
       else QSt (x_k x) (x_main x) (x_tasks x) (x_excs x) (x_fin x) (x_done x) (x_flag x) true (x_timer x) (x_cur x) (x_cb x) (x_loop x) (x_esc x) (x_hist x),
       QBlocked)
  end.

(** A Task object which has just been created (55, 389; task.py:107-146). *)
Definition fresh (k : st) (t : tid) : bool :=
  match s_task k t with Task Unstarted None None None [] 0 None false WTrig => true | _ => false end.

(** _test_manager.py:84-96 [start], with or without timeout. *)
Definition begin_test (x : qst) (t : tid) (timeout : bool) : qst * qres :=
  match start_soon (add_done (x_k x) t test_cb) t with
  | (k, RErr e) => (escape x, QEscape e)
  | (k, _) =>
      (QSt k (Some t) (x_tasks x ++ [t]) (x_excs x) (x_fin x) (x_done x) (x_flag x) (x_reg x) timeout true (x_cb x) (x_loop x) (x_esc x)
         (HAdd t :: x_hist x), QUnit)
  end.

(** Steps: of user code and the kernel; [start] of a test whose main Task is [t]; [create_task]; the Timer fires; [cancel]; library
    code goes on. *)
Inductive qlabel :=
| XUser (l : label) | XBegin (t : tid) (timeout : bool) | XCreate (u : tid) | XTimeout | XCancel (m : nat) | XLib.

(** Library code goes on: a callback; the loop; the next callback is called (task.py:313-315). *)
Definition lib_step (x : qst) : option (qst * qres) :=
  match x_cb x with
  | Some c => Some (callback_step x c)
  | None =>
      match x_loop x, looping x with
      | Some (todo, d), true => Some (loop_step x todo d)
      | _, _ =>
          match s_ctl (x_k x) with
          | FDone u j _ :: _ =>
              match nth_error (k_dcbs (s_task (x_k x) u)) j with
              | Some c =>
                  if Nat.even c then None
                  else match step (x_k x) LDoneNext with
                       | Some (k, _) => Some (set_cb (set_k x k) (Some (BRemove u)), QBlocked)
                       | None => None
                       end
              | None => None
              end
          | _ => None
          end
      end
  end.

(** One step. The simulator calls back (the Timer, 100-102; the end of the simulation, 121-127 called by regression.py:1127) when
    no Python code is running. [create_task]: 382-395. *)
Definition qstep (x : qst) (l : qlabel) : option (qst * qres) :=
  if s_halt (x_k x) || x_esc x then None
  else match l with
  | XUser kl =>
      if user_can x kl && user_label kl then
        match step (x_k x) kl with
        | Some (k, r) => Some (set_k x k, QUser r)
        | None => None
        end
      else None
  | XBegin t timeout =>
      match s_ctl (x_k x), x_main x with
      | [], None => if fresh (x_k x) t then Some (begin_test x t timeout) else None
      | _, _ => None
      end
  | XCreate u =>
      if user_control x && fresh (x_k x) u then
        Some (if x_cur x then (add_task x u, QUnit) else (x, QRefused))
      else None
  | XTimeout =>
      match s_ctl (x_k x), s_queue (x_k x) with
      | [], [] =>
          if x_timer x && negb (looping x) then
            Some (abort (note (QSt (x_k x) (x_main x) (x_tasks x) (x_excs x) (x_fin x) (x_done x) (x_flag x) (x_reg x) false (x_cur x) (x_cb x) (x_loop x) (x_esc x)
                                (x_hist x)) HTimeout) (Some FTimeout), QBlocked)
          else None
      | _, _ => None
      end
  | XCancel m =>
      match s_ctl (x_k x) with
      | [] => if negb (looping x) then Some (abort (note x (HCancel m)) (Some (FCancelled m)), QBlocked) else None
      | _ => None
      end
  | XLib => lib_step x
  end.

(** A TestManager before [start] (46-64). *)
Definition qinit : qst := QSt init None [] [] false false false false false false None None false [].

(** Executions whose steps satisfy [P]. *)
Inductive qexec (P : qst -> qlabel -> Prop) : qst -> list qlabel -> qst -> Prop :=
| qexec_nil x : qexec P x [] x
| qexec_step x l x1 r ls x2 : P x l -> qstep x l = Some (x1, r) -> qexec P x1 ls x2 -> qexec P x (l :: ls) x2.

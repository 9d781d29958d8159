(** Model of /repo/src/cocotb/_concurrent_waiters.py (wait, select, gather) and of the functions built on it (Combine, First and
    with_timeout of /repo/src/cocotb/_extended_awaitables.py), on top of the scheduler kernel.

    A Task inside one of these calls has a [stage]: the place in [_wait] where it is. The code between two kernel operations is
    one step ([XLib]); nothing else can happen while library code has control. User code remains an adversary: whenever it has
    control it performs any kernel step or calls any of the functions. The waiter Tasks run user code.

    Simplifications:
    - The [_InternalEvent] and the done callback of the i-th call have the number [private i]; user code does not know them.
    - The awaitables are not modelled: a call gets the waiter Tasks created for them ([Task[Any](a)], line 129), which must not
      have been used before. Type checks of the arguments and the Timer object of [with_timeout] are left out.
    - An exception leaving a done callback leaves [_set_outcome] half way (task.py:305-319): the machine stops ([y_esc]).
    - What was called, and which waiters the calls cancelled, is kept as history ([y_hist]); no transition reads it. *)
From Verif Require Import Base KernelModel.
From Coq Require Import Arith.

(** _concurrent_waiters.py:21-23 [ReturnWhenType]. *)
Inductive return_when := FirstCompleted | FirstException | AllCompleted.

(** The functions: _concurrent_waiters.py:113-120, 238-246, 295-308; _extended_awaitables.py:184-189, 92-102, 356-362. *)
Inductive call := CWait (w : return_when) | CSelect | CGather | CFirst | CCombine | CTimeout.
(** The [return_when] they pass to [_wait]. *)
Definition when_of (c : call) : return_when :=
  match c with
  | CWait w => w
  | CSelect | CFirst | CTimeout => FirstCompleted
  | CGather | CCombine => FirstException
  end.

(** The local variables of a call of [_wait]: lines 129-137; [w_parent]: the Task which made it (history). *)
Record winst := Winst {
  w_call : call; w_parent : tid; w_tasks : list tid; w_rem : list tid; w_first : option tid; w_canc : bool }.

(** What follows [cancel_remaining()]: lines 187-198, or the [raise] of line 202 (of an exception, or of GeneratorExit). *)
Inductive next := ThenDrain (m : nat) | ThenRaise (e : option exc).

(** Where a Task is: in the loop of 178-180, before [_add_done_callback] and before [_start_next]; suspended in line 183; in the
    loop of 144-145; at the test of line 189; suspended in line 191; suspended in line 94 of _extended_awaitables.py. *)
Inductive stage :=
| SAdd (i : nat) (todo : list tid) | SGo (i : nat) (todo : list tid)
| SWait (i : nat)
| SCancel (i : nat) (todo : list tid) (n : next)
| SDrain (i m : nat) | SNull (i m : nat)
| SNoTrigger.

(** Where a running done callback is: before line 150/161/174; before 154/165 (or at the end, 176); in the loop of 144-145. *)
Inductive cbpc := CbStart (i : nat) (u : tid) | CbCheck (i : nat) (u : tid) | CbCancel (todo : list tid).

Inductive hist :=
| HCall (t : tid) (c : call) (ts : list tid)
| HCancel (u : tid).

(** The kernel; the calls so far and their number; where every Task is; the callback being run; whether an exception left a
    done callback; history (newest first). *)
Record wst := WSt {
  y_k : st; y_w : nat -> winst; y_n : nat; y_pend : tid -> option stage; y_cb : option cbpc; y_esc : bool; y_hist : list hist }.

(** The numbers of the private objects: odd. *)
Definition private (n : nat) : nat := S (n + n).
(** User code does not touch the private objects. *)
Definition user_label (l : label) : bool :=
  match l with
  | LOp (OpISet i) | LAwait (TInternal i) _ => Nat.even i
  | LOp (OpAddDone _ c) => Nat.even c
  | _ => true
  end.

(** Whether user code has control. In [_set_outcome] it has if the callback called last is one of its own; the next callback
    may be called if it is not one of [_wait]. *)
Definition user_control (x : wst) (l : label) : bool :=
  match y_cb x with
  | Some _ => false
  | None =>
      match s_ctl (y_k x) with
      | FRun t :: _ | FClose t :: _ => match y_pend x t with None => true | Some _ => false end
      | FDone u i _ :: _ =>
          match l with
          | LDoneNext => match nth_error (k_dcbs (s_task (y_k x) u)) i with Some c => Nat.even c | None => true end
          | _ => match i with
                 | O => false
                 | S j => match nth_error (k_dcbs (s_task (y_k x) u)) j with Some c => Nat.even c | None => false end
                 end
          end
      | [] => true
      end
  end.

(** What a call returns or raises ([YBlocked]: suspended, or library code goes on). *)
Inductive wres :=
| YUser (r : res) | YBlocked
| YWait (idx : option nat) (ts : list tid)      (* wait *)
| YSelect (idx : nat) (v : option nat)          (* select *)
| YValue (v : option nat)                       (* First, with_timeout *)
| YTuple (vs : list (option nat))               (* gather *)
| YSelf                                         (* Combine *)
| YFails (e : exc)                              (* re-raised from a waiter *)
| YTimeout                                      (* SimTimeoutError *)
| YRaised (e : exc)                             (* thrown into the call, and re-raised by it *)
| YClosed                                       (* GeneratorExit *)
| YValueError | YErr (e : perr) | YEscape (e : perr) | YBroken.

(** [list.index] of [waiters.index(first_completed)] (line 204); [None]: ValueError. *)
Fixpoint index (u : tid) (l : list tid) : option nat :=
  match l with
  | [] => None
  | v :: l' => if Nat.eqb v u then Some 0 else match index u l' with Some n => Some (S n) | None => None end
  end.

(** [dict.pop]: the key is taken out; the others keep their order. *)
Definition without (u : tid) (l : list tid) : list tid := filter (fun v => negb (Nat.eqb v u)) l.

(** [tuple(task.result() for task in tasks)] (line 308): the values, or the first exception raised. *)
Fixpoint results (k : st) (ts : list tid) : wres :=
  match ts with
  | [] => YTuple []
  | u :: ts' =>
      match py_result k u with
      | Value v => match results k ts' with YTuple vs => YTuple (v :: vs) | r => r end
      | Raises e => YFails e
      | _ => YBroken
      end
  end.

(** Lines 204-205, then what each function does with it: 115-120, 244-246, 300-308; _extended_awaitables.py:96-102, 185-189,
    356-362. [YBroken]: an assertion fails, or an index or state is not what the code expects. *)
Definition conclude (k : st) (w : winst) : wres :=
  let ts := w_tasks w in
  let idx := match w_first w with None => Some None | Some u => option_map Some (index u ts) end in
  match idx with
  | None => YBroken
  | Some None =>
      match w_call w with
      | CWait _ => YWait None ts
      | CGather => results k ts
      | CCombine => YSelf
      | CSelect | CFirst | CTimeout => YBroken
      end
  | Some (Some j) =>
      match nth_error ts j with
      | None => YBroken
      | Some u =>
          match w_call w, py_result k u with
          | CWait _, _ => YWait (Some j) ts
          | CSelect, Value v => YSelect j v
          | CCombine, Value v => YSelf
          | CTimeout, Value v => if Nat.eqb j 0 then YTimeout else YValue v
          | CGather, Value v | CFirst, Value v => YValue v
          | _, Raises e => YFails e
          | _, _ => YBroken
          end
      end
  end.

(** Updates of parts of the state. [set_w]: assignments to the local variables of _concurrent_waiters.py:129-137; [escape]: an
    exception leaves [done_callback] (148-176); [record]: history. *)
Definition set_k (x : wst) (k : st) : wst := WSt k (y_w x) (y_n x) (y_pend x) (y_cb x) (y_esc x) (y_hist x).
Definition set_w (x : wst) (i : nat) (w : winst) : wst :=
  WSt (y_k x) (upd (y_w x) i w) (y_n x) (y_pend x) (y_cb x) (y_esc x) (y_hist x).
Definition set_pend (x : wst) (t : tid) (p : option stage) : wst :=
  WSt (y_k x) (y_w x) (y_n x) (upd (y_pend x) t p) (y_cb x) (y_esc x) (y_hist x).
Definition set_cb (x : wst) (c : option cbpc) : wst := WSt (y_k x) (y_w x) (y_n x) (y_pend x) c (y_esc x) (y_hist x).
Definition escape (x : wst) : wst := WSt (y_k x) (y_w x) (y_n x) (y_pend x) None true (y_hist x).
Definition record (x : wst) (h : hist) : wst :=
  WSt (y_k x) (y_w x) (y_n x) (y_pend x) (y_cb x) (y_esc x) (h :: y_hist x).

(** A Task object which has just been created (_concurrent_waiters.py:129, task.py:107-146). *)
Definition fresh (k : st) (t : tid) : bool :=
  match s_task k t with Task Unstarted None None None [] 0 None false WTrig => true | _ => false end.
(** The waiters of one call are different objects (line 129). *)
Fixpoint nodup (l : list tid) : bool :=
  match l with [] => true | u :: l' => negb (existsb (Nat.eqb u) l') && nodup l' end.

(** Lines 139-145 up to the loop: the Tasks to cancel, and the local variables afterwards. *)
Definition cancel_remaining (w : winst) : list tid * winst :=
  if w_canc w then ([], w) else (w_rem w, Winst (w_call w) (w_parent w) (w_tasks w) (w_rem w) (w_first w) true).

(** One turn of the loop of 144-145. *)
Definition cancel_one (x : wst) (u : tid) : wst * option perr :=
  match cancel (y_k x) u 0 with
  | (k, RErr e) => (set_k x k, Some e)
  | (k, _) => (record (set_k x k) (HCancel u), None)
  end.

(** Whether [done_callback] takes [task] for the first one (154, 165-167). [task.exception()] does not raise: the Task is done
    and not cancelled. *)
Definition is_first (k : st) (w : winst) (u : tid) : bool :=
  match w_first w, when_of (w_call w) with
  | Some _, _ | _, AllCompleted => false
  | None, FirstCompleted => true
  | None, FirstException =>
      py_cancelled k u || match py_exception k u with Exc _ => true | _ => false end
  end.

(** The done callback goes on: lines 150-152, 154-156 and alike. *)
Definition callback_step (x : wst) (c : cbpc) : wst * wres :=
  match c with
  | CbStart i u =>
      let w := y_w x i in
      if existsb (Nat.eqb u) (w_rem w) then
        let w := Winst (w_call w) (w_parent w) (w_tasks w) (without u (w_rem w)) (w_first w) (w_canc w) in
        let x := set_cb (set_w x i w) (Some (CbCheck i u)) in
        (match w_rem w with [] => set_k x (ievent_set (y_k x) (private i)) | _ => x end, YBlocked)
      else (escape x, YEscape PKey)
  | CbCheck i u =>
      let w := y_w x i in
      if is_first (y_k x) w u then
        let '(todo, w) := cancel_remaining (Winst (w_call w) (w_parent w) (w_tasks w) (w_rem w) (Some u) (w_canc w)) in
        (set_cb (set_w x i w) (Some (CbCancel todo)), YBlocked)
      else (set_cb x None, YBlocked)
  | CbCancel [] => (set_cb x None, YBlocked)
  | CbCancel (u :: us) =>
      match cancel_one x u with
      | (x, Some e) => (escape x, YEscape e)
      | (x, None) => (set_cb x (Some (CbCancel us)), YBlocked)
      end
  end.

(** [current_task()._uncancel()] (187, 195; task.py:721-729, 622-628), then the loop. *)
Definition uncancel_current (x : wst) (t : tid) (i m : nat) : wst * wres :=
  match s_current (y_k x) with
  | None => (set_pend x t None, YErr PRuntime)
  | Some u => (set_pend (set_k x (uncancel (y_k x) u)) t (Some (SDrain i m)), YBlocked)
  end.

(** [await] of a library object in the coroutine of [t]. *)
Definition suspend (x : wst) (rest : list frame) (t : tid) (tr : trig) (p : stage) : wst * wres :=
  match await_trigger (y_k x) rest t tr true with
  | (k, RErr e) => (set_pend (set_k x k) t None, YErr e)
  | (k, _) => (set_pend (set_k x k) t (Some p), YBlocked)
  end.

(** Lines 139-143 in the Task itself. *)
Definition begin_cancel (x : wst) (t : tid) (i : nat) (n : next) : wst :=
  let '(todo, w) := cancel_remaining (y_w x i) in set_pend (set_w x i w) t (Some (SCancel i todo n)).
(** The rest of it (144-145), then what follows. *)
Definition go_cancel (x : wst) (t : tid) (i : nat) (todo : list tid) (n : next) : wst * wres :=
  match todo, n with
  | u :: us, _ =>
      match cancel_one x u with
      | (x, Some e) => (set_pend x t None, YErr e)
      | (x, None) => (set_pend x t (Some (SCancel i us n)), YBlocked)
      end
  | [], ThenDrain m => uncancel_current x t i m
  | [], ThenRaise (Some e) => (set_pend x t None, YRaised e)
  | [], ThenRaise None => (set_pend x t None, YClosed)
  end.

(** The coroutine of [t] goes on in library code. *)
Definition run_step (x : wst) (rest : list frame) (t : tid) (p : stage) : wst * wres :=
  let e := k_exc (s_task (y_k x) t) in
  match p with
  | SAdd i [] => suspend x rest t (TInternal (private i)) (SWait i)
  | SAdd i (u :: us) => (set_pend (set_k x (add_done (y_k x) u (private i))) t (Some (SGo i (u :: us))), YBlocked)
  | SGo i [] => (set_pend x t (Some (SAdd i [])), YBlocked)
  | SGo i (u :: us) =>
      match start_next (y_k x) u with
      | (k, RErr e) => (set_pend (set_k x k) t None, YErr e)
      | (k, _) => (set_pend (set_k x k) t (Some (SAdd i us)), YBlocked)
      end
  | SWait i =>
      match e with
      | None => (set_pend x t None, conclude (y_k x) (y_w x i))
      | Some (ECancelled m) => (begin_cancel x t i (ThenDrain m), YBlocked)
      | Some e => (begin_cancel x t i (ThenRaise (Some e)), YBlocked)
      end
  | SCancel i todo n => go_cancel x t i todo n
  | SDrain i m =>
      match w_rem (y_w x i) with
      | [] => (set_pend x t None, YRaised (ECancelled m))
      | _ => suspend x rest t (TNull 0) (SNull i m)
      end
  | SNull i m =>
      match e with
      | None => (set_pend x t (Some (SDrain i m)), YBlocked)
      | Some (ECancelled _) => uncancel_current x t i m
      | Some e => (set_pend x t None, YRaised e)
      end
  | SNoTrigger =>
      match e with
      | None => (set_pend x t None, YSelf)
      | Some e => (set_pend x t None, YRaised e)
      end
  end.

(** The coroutine of [t] is being closed: GeneratorExit is raised where it is suspended. *)
Definition close_step (x : wst) (t : tid) (p : stage) : wst * wres :=
  match p with
  | SWait i => (begin_cancel x t i (ThenRaise None), YBlocked)
  | SCancel i todo n => go_cancel x t i todo n
  | _ => (set_pend x t None, YClosed)
  end.

(** Steps: of user code and the kernel; user code calls a function (the waiters created are given in the order of the
    arguments); library code goes on. *)
Inductive wlabel := XUser (l : label) | XCall (c : call) (ts : list tid) | XLib.

(** The call itself, up to the loop of 178: 113-114, 238-239, 295-296, 129-137; _extended_awaitables.py:167-168, 93-94. *)
Definition begin_call (x : wst) (rest : list frame) (t : tid) (c : call) (ts : list tid) : option (wst * wres) :=
  match ts, c with
  | [], (CWait _ | CSelect | CFirst) => Some (x, YValueError)
  | [], CGather => Some (x, YTuple [])
  | [], CCombine => Some (suspend (record x (HCall t c [])) rest t (TNull 0) SNoTrigger)
  | [], CTimeout => None
  | _, _ =>
      if forallb (fresh (y_k x)) ts && nodup ts && (match c with CTimeout => Nat.eqb (length ts) 2 | _ => true end) then
        let x := WSt (y_k x) (upd (y_w x) (y_n x) (Winst c t ts ts None false)) (S (y_n x)) (y_pend x) (y_cb x) (y_esc x)
                     (HCall t c ts :: y_hist x) in
        Some (set_pend x t (Some (SAdd (pred (y_n x)) (rev ts))), YBlocked)
      else None
  end.

Definition wstep (x : wst) (l : wlabel) : option (wst * wres) :=
  if s_halt (y_k x) || y_esc x then None
  else match l with
  | XUser kl =>
      if user_control x kl && user_label kl then
        match step (y_k x) kl with
        | Some (k, r) => Some (set_k x k, YUser r)
        | None => None
        end
      else None
  | XCall c ts =>
      match y_cb x, s_ctl (y_k x) with
      | None, FRun t :: rest => match y_pend x t with None => begin_call x rest t c ts | Some _ => None end
      | _, _ => None
      end
  | XLib =>
      match y_cb x with
      | Some c => Some (callback_step x c)
      | None =>
          match s_ctl (y_k x) with
          | FRun t :: rest => match y_pend x t with Some p => Some (run_step x rest t p) | None => None end
          | FClose t :: rest => match y_pend x t with Some p => Some (close_step x t p) | None => None end
          | FDone u j _ :: _ =>
              match nth_error (k_dcbs (s_task (y_k x) u)) j with
              | Some c =>
                  if Nat.even c then None
                  else match step (y_k x) LDoneNext with
                       | Some (k, _) => Some (set_cb (set_k x k) (Some (CbStart (Nat.div2 c) u)), YBlocked)
                       | None => None
                       end
              | None => None
              end
          | [] => None
          end
      end
  end.

Definition winit : wst := WSt init (fun _ => Winst CGather 0 [] [] None false) 0 (fun _ => None) None false [].

Inductive wexec (P : wst -> wlabel -> Prop) : wst -> list wlabel -> wst -> Prop :=
| wexec_nil x : wexec P x [] x
| wexec_step x l x1 r ls x2 : P x l -> wstep x l = Some (x1, r) -> wexec P x1 ls x2 -> wexec P x (l :: ls) x2.

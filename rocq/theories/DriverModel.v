(** Model of [Clock.start] and [Clock.stop] (/repo/src/cocotb/clock.py:274-357) and of the code of the Task which drives the
    signal, on top of the scheduler kernel.

    User code is an adversary: whenever the driver has not got control, any kernel step may be made, on any Task, the drivers
    included. A clock is a number. Simplifications:
    - the implementation of a clock is an argument of each [start] (in the code an attribute, clock.py:195-203);
    - what may raise in the code of a driver (the constructor of Timer, [signal.set]) does so when the adversary says;
    - a clock of the simulator interface is identified with the Task of its driver, which is created with it (clock.py:305-316, 341);
    - whether a Task object is freed is up to the adversary ([DDrop]), but only Tasks which are done are. *)
From Verif Require Import Base KernelModel.
From Coq Require Import Arith.

(** Where a driver of implementation "py" is: not yet begun (with the argument [start_high]), in [await timer_high] (334, 339), in
    [await timer_low] (337). *)
Inductive pc := PNew (start_high : bool) | PHigh | PLow.
(** The local variables of the two functions [drive]: 329-339 with its two Timers; 318-325 with its Event, and whether the
    coroutine is inside the [try]. *)
Inductive code := CPy (p : pc) (timer_high timer_low : nat) | CGpi (tried : bool) (e : nat).
Record driver := Driver { v_clock : nat; v_code : code }.

(** History: [start] (341, with the argument [start_high]) and [stop] (356-357) done for clock [c]; driver [t] came to line 322; a
    value written to the signal by a driver or by its clock in the simulator interface. *)
Inductive dhist := HStart (c : nat) (t : tid) (v : bool) | HStop (c : nat) (t : tid) | HTry (t : tid) | HWrite (t : tid) (v : bool).

(** The kernel; [Clock._task] of each clock; the drivers; the clocks in the simulator interface which toggle, with [clk_val]
    (share/lib/pygpi/bind.cpp:868-877: [clk_toggle_cb_hdl] is not null); history. *)
Record dst := DSt {
  d_k : st;
  d_clock : nat -> option tid;
  d_drv : tid -> option driver;
  d_armed : tid -> option bool;
  d_hist : list dhist }.
Definition dinit : dst := DSt init (fun _ => None) (fun _ => None) (fun _ => None) [].

Inductive dres := DRes (r : res) | DErr | DBad | DTask (t : tid) | DNone | DTurn.
Inductive dlabel :=
| DUser (l : label)
| DStart (c : nat) (t : tid) (py : bool) (start_high ok : bool) (a b : nat)
| DStop (c : nat)
| DGo (bad : option nat)
| DToggle (t : tid) (ok : bool)
| DDrop (t : tid).

(** Assignments. *)
Definition dset_k (x : dst) (k : st) : dst := DSt k (d_clock x) (d_drv x) (d_armed x) (d_hist x).
Definition dset_clock (x : dst) (c : nat) (o : option tid) : dst := DSt (d_k x) (upd (d_clock x) c o) (d_drv x) (d_armed x) (d_hist x).
Definition dset_drv (x : dst) (t : tid) (o : option driver) : dst := DSt (d_k x) (d_clock x) (upd (d_drv x) t o) (d_armed x) (d_hist x).
Definition dset_armed (x : dst) (t : tid) (o : option bool) : dst := DSt (d_k x) (d_clock x) (d_drv x) (upd (d_armed x) t o) (d_hist x).
Definition dlog (x : dst) (h : dhist) : dst := DSt (d_k x) (d_clock x) (d_drv x) (d_armed x) (h :: d_hist x).

(** User code has control unless the coroutine on top is a driver's. *)
Definition duser (x : dst) : bool :=
  match s_ctl (d_k x) with
  | FRun t :: _ | FClose t :: _ => match d_drv x t with None => true | Some _ => false end
  | _ => true
  end.

(** clock.py:301-342. [t] is the Task made by [start_soon] (341, task.py:270-283); [a] and [b] name the objects which its driver
    makes: two Timers, or an Event. [ok]: [clkobj.start] does not raise (305-316, bind.cpp:992-1022); it writes the first value
    (bind.cpp:894-895, 911). When it raises because no callback could be registered (926) the value has been written; left out. *)
Definition clock_start (x : dst) (c : nat) (t : tid) (py sh ok : bool) (a b : nat) : dst * dres :=
  match d_clock x c with
  | Some _ => (x, DErr)
  | None =>
      let go (x : dst) (co : code) :=
        let '(k, r) := start_soon (d_k x) t in
        (dlog (dset_clock (dset_drv (dset_k x k) t (Some (Driver c co))) c (Some t)) (HStart c t sh), DTask t) in
      if py then go x (CPy (PNew sh) a b)
      else if ok then
        let '(x, r) := go (dset_armed x t (Some sh)) (CGpi false a) in (dlog x (HWrite t sh), r)
      else (x, DBad)
  end.

(** clock.py:344-357. An exception of [cancel] leaves [_task] as it is. *)
Definition clock_stop (x : dst) (c : nat) : dst * dres :=
  match d_clock x c with
  | None => (x, DErr)
  | Some t =>
      match cancel (d_k x) t 0 with
      | (k, RErr e) => (dset_k x k, DRes (RErr e))
      | (k, _) => (dlog (dset_clock (dset_k x k) c None) (HStop c t), DNone)
      end
  end.

(** The coroutine ends: [raise], or the end of the function. *)
Definition leave (x : dst) (rest : list frame) (t : tid) (e : exc) : dst := dset_k x (coro_raised (set_ctl (d_k x) rest) t e).

(** [self._signal.set(self._set_action(v)); await timer] (333-334, 336-337, 338-339). *)
Definition put (x : dst) (rest : list frame) (t : tid) (d : driver) (v : bool) (hi lo : nat) : dst :=
  let x := dlog x (HWrite t v) in
  let '(k, _) := await_trigger (d_k x) rest t (TGpi (if v then hi else lo)) true in
  dset_drv (dset_k x k) t (Some (Driver (v_clock d) (CPy (if v then PHigh else PLow) hi lo))).

(** The code of a driver, from where it is resumed to where it yields or ends. [bad]: an exception which leaves [set] or the
    constructor of a Timer. *)
Definition drive_go (x : dst) (rest : list frame) (t : tid) (d : driver) (bad : option nat) : dst :=
  match v_code d with
  | CPy p hi lo =>
      match k_exc (s_task (d_k x) t), bad with
      | Some e, _ => leave x rest t e
      | None, Some n => leave x rest t (EUser n)
      | None, None =>
          match p with
          | PNew sh => put x rest t d sh hi lo       (* 330-334, or 335-337 *)
          | PHigh => put x rest t d false hi lo      (* 336-337 *)
          | PLow => put x rest t d true hi lo        (* 338-339 *)
          end
      end
  | CGpi tried e =>
      if tried then
        (* 324-325: the [finally] runs whether [await] returned or raised; bind.cpp:898-905 *)
        let x := dset_armed x t None in
        match k_exc (s_task (d_k x) t) with
        | Some ex => leave x rest t ex
        | None => dset_k x (coro_returned (set_ctl (d_k x) rest) t 0)
        end
      else
        (* 321-323 *)
        let '(k, _) := await_trigger (d_k x) rest t (TEvent e) true in
        dlog (dset_drv (dset_k x k) t (Some (Driver (v_clock d) (CGpi true e)))) (HTry t)
  end.

(** [coroutine.close()] (task.py:417): GeneratorExit at the [await]; nothing but the [finally] handles it. *)
Definition drive_close (x : dst) (rest : list frame) (t : tid) (d : driver) : dst :=
  let x := match v_code d with CGpi true _ => dset_armed x t None | _ => x end in
  dset_k x (set_outcome (set_ctl (d_k x) rest) t Errored (OExc EIgnoredCancel) AfterResume).

Definition dstep (x : dst) (l : dlabel) : option (dst * dres) :=
  if s_halt (d_k x) then None else
  match l with
  | DUser kl =>
      if duser x then match step (d_k x) kl with Some (k, r) => Some (dset_k x k, DRes r) | None => None end else None
  | DStart c t py sh ok a b =>
      if duser x then
        match state_of (d_k x) t, d_drv x t with
        | Unstarted, None => Some (clock_start x c t py sh ok a b)
        | _, _ => None
        end
      else None
  | DStop c => if duser x then Some (clock_stop x c) else None
  | DGo bad =>
      match s_ctl (d_k x) with
      | FRun t :: rest => match d_drv x t with Some d => Some (drive_go x rest t d bad, DTurn) | None => None end
      | FClose t :: rest => match d_drv x t with Some d => Some (drive_close x rest t d, DTurn) | None => None end
      | _ => None
      end
  | DToggle t ok =>
      (* bind.cpp:907-939 [toggle]: called by the simulator, as its other callbacks are, when the event loop has returned;
         [ok]: the next callback could be registered *)
      match s_ctl (d_k x), s_queue (d_k x), d_armed x t with
      | [], [], Some v => Some (dlog (dset_armed x t (if ok then Some (negb v) else None)) (HWrite t (negb v)), DNone)
      | _, _, _ => None
      end
  | DDrop t =>
      (* bind.cpp:855, 970-990: the clock is stopped when its object is freed, which the frame of the driver refers to; a
         suspended coroutine which is freed runs its [finally] *)
      if done (d_k x) t then Some (dset_armed x t None, DNone) else None
  end.

(** Executions in which the simulator accepts the callbacks which cocotb registers. *)
Inductive dreach : list dlabel -> dst -> Prop :=
| dreach_nil : dreach [] dinit
| dreach_step ls x l x' r : dreach ls x -> match l with DUser kl => match kl with LAwait _ ok => ok = true | _ => True end | _ => True end ->
    dstep x l = Some (x', r) -> dreach (ls ++ [l]) x'.

(** To compute executions. *)
Fixpoint drun (x : dst) (ls : list dlabel) : option dst :=
  match ls with
  | [] => Some x
  | l :: ls' => match dstep x l with Some (x', _) => drun x' ls' | None => None end
  end.

(** The main loop of simulations made with Verilator, /repo/src/cocotb/share/lib/verilator/verilator.cpp:49-61, 63-82, 169-249. The arguments
    (84-145) are in WaveModel.v. The design and the library of Verilator are arbitrary: each call changes an arbitrary state. Left out: exits from
    inside of a call ([addExitCb], 170), which end the process there. *)
From Verif Require Import Base.
Open Scope Z_scope.

(** What is called, in the words of the C++ code. [KClose]: [tfp->close()]. *)
Inductive call := KStart | KValue | KEval | KClear | KInertial | KReadWrite | KEndStep | KReadOnly | KDump | KFlush | KNextTime | KTimed | KFinal | KEnd | KClose.

(** The design and the library: [do k t] is the effect of a call at [main_time] = [t] other than [KValue]; [value] is
    [VerilatedVpi::callValueCbs]; [needed] is [evalNeeded]; [finish] is [gotFinish]; [deadline] is [cbNextDeadline]; [slot] is [nextTimeSlot] if
    there are [eventsPending]; [errors] is [errorCount]. *)
Record sim (W : Type) := Sim {
  do : call -> Z -> W -> W;
  value : Z -> W -> W * bool;
  needed : W -> bool;
  finish : W -> bool;
  deadline : Z -> W -> Z;
  slot : Z -> W -> option Z;
  errors : W -> Z }.
Arguments do {W}. Arguments value {W}. Arguments needed {W}. Arguments finish {W}. Arguments deadline {W}. Arguments slot {W}. Arguments errors {W}.

(** [NO_TOP_EVENTS_PENDING] (verilator.cpp:206). *)
Definition none_pending : Z := 2 ^ 64 - 1.

(** Where [main] is: at a call of [settle_value_callbacks] with the place after it, at the heads and tests of the loops, ... *)
Inductive place := PBegin | PSettle (k : place) | PHead | PEval | PEvalTest | PRw | PRwTest | PEndStep | PTimed | PFinal | PDone (status : Z).

Section Main.
Context {W : Type} (S : sim W).
(** [tfp] is not null; [traceFlush]. *)
Context (trace flush : bool).

(** [log]: the calls so far, each with the time and the state in which it was made. *)
Record st := St { pc : place; time : Z; world : W; log : list (call * Z * W) }.
(** One call. *)
Definition calls (k : call) (s : st) : st := St (pc s) (time s) (do S k (time s) (world s)) (log s ++ [(k, time s, world s)]).
Definition go (p : place) (s : st) : st := St p (time s) (world s) (log s).
Definition when (b : bool) (f : st -> st) (s : st) : st := if b then f s else s.
(** verilator.cpp:206-210: the time of the next event. *)
Definition next_time (s : st) : Z :=
  Z.min (deadline S (time s) (world s)) (match slot S (time s) (world s) with Some t => t | None => none_pending end).
(** verilator.cpp:63-70 [wrap_up] without coverage. *)
Definition wrap_up (s : st) : st := when trace (calls KClose) (calls KEnd s).

(** One step of [main]. *)
Definition step (s : st) : st :=
  match pc s with
  | PBegin => go (PSettle PHead) (calls KStart s)                                              (* 171-172 *)
  | PSettle k =>                                                                               (* 49-61 *)
      let '(w, again) := value S (time s) (world s) in
      St (if again then PSettle k else k) (time s) w (log s ++ [(KValue, time s, world s)])
  | PHead => if finish S (world s) then go PFinal s else go PEval s                            (* 174 *)
  | PEval => go (PSettle PEvalTest) (calls KInertial (calls KClear (calls KEval s)))           (* 178-182 *)
  | PEvalTest => go (if needed S (world s) then PEval else PRw) s                              (* 183 *)
  | PRw => go (PSettle PRwTest) (calls KInertial (calls KReadWrite s))                         (* 185-188 *)
  | PRwTest => go (if needed S (world s) then PEval else PEndStep) s                           (* 189 *)
  | PEndStep =>                                                                                (* 191-224 *)
      let s := when trace (fun s => when flush (calls KFlush) (calls KDump s)) (calls KReadOnly (calls KEndStep s)) in
      if next_time s =? none_pending then go PFinal s
      else go (PSettle PTimed) (calls KNextTime (St (pc s) (next_time s) (world s) (log s)))
  | PTimed => go (PSettle PHead) (calls KTimed s)                                              (* 226-230 *)
  | PFinal => let s := wrap_up (calls KFinal s) in go (PDone (if 0 <? errors S (world s) then 1 else 0)) s   (* 233-249 *)
  | PDone _ => s
  end.
Fixpoint steps (n : nat) (s : st) : st := match n with O => s | Datatypes.S n => step (steps n s) end.
(** After [vlog_startup_routines_bootstrap] (verilator.cpp:169): [main_time] is 0 (35). *)
Definition start (w : W) : st := St PBegin 0 w [].
End Main.
Arguments St {W}. Arguments pc {W}. Arguments time {W}. Arguments world {W}. Arguments log {W}.

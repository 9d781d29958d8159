(** Callbacks of the simulator: the C++ objects between the triggers of Python and the VPI (share/lib/pygpi/bind.cpp,
    share/lib/gpi/vpi/VpiCbHdl.cpp), with their memory. *)
From Verif Require Import Base.
From Coq Require Import Arith.
Open Scope nat_scope.

(** ** State *)

(** A callback object (class VpiCbHdl, VpiImpl.hpp:76-101): the trigger whose [_react] its PythonCallback holds, [m_removed].
    The object and its PythonCallback have one number; numbers are never used again, so that a freed one is recognised. *)
Record obj := Obj { o_trig : nat; o_removed : bool }.
(** Who is in control: the simulator; Python, called by the object given ([None]: by a callback of the library itself, as at the start
    of the simulation), [q]: the object is at the front of the queue; the loop of VpiCbHdl.cpp:57-64 after a callback was handled. *)
Inductive ctl := Idle | Py (o : option nat) (q : bool) | Loop.
(** What is recorded: a Python function is called; a callback is deregistered by Python; an error of memory or of the use of the VPI. *)
Inductive fault :=
| FObject     (* a freed callback object is used *)
| FData       (* a freed PythonCallback is used or freed again *)
| FHandle     (* vpi_remove_cb for a callback which the simulator no longer has *)
| FPop.       (* pop_front of an empty queue *)
Inductive ev := Called (o : nat) | Gone (o : nat) | Fault (f : fault) (o : nat).
(** [c_objs], [c_data]: the live objects and PythonCallbacks; [c_val]: the class of an object, VpiValueCbHdl if true; [c_armed]: what the
    simulator has registered; [c_queue]: [cb_queue]; [c_cbs], [c_hdl]: the number of [_callbacks] and the [_cbhdl] of a trigger. *)
Record st := St { c_objs : nat -> option obj; c_data : nat -> bool; c_val : nat -> bool; c_armed : nat -> bool; c_next : nat;
  c_queue : list nat; c_ctl : ctl; c_cbs : nat -> nat; c_hdl : nat -> option nat; c_log : list ev }.
Definition upd {A} (f : nat -> A) (n : nat) (a : A) : nat -> A := fun m => if m =? n then a else f m.
Definition init : st := St (fun _ => None) (fun _ => false) (fun _ => false) (fun _ => false) 0 [] Idle (fun _ => 0) (fun _ => None) [].

Definition set_obj (s : st) (o : nat) (x : option obj) : st :=
  St (upd (c_objs s) o x) (c_data s) (c_val s) (c_armed s) (c_next s) (c_queue s) (c_ctl s) (c_cbs s) (c_hdl s) (c_log s).
Definition set_data (s : st) (o : nat) (b : bool) : st :=
  St (c_objs s) (upd (c_data s) o b) (c_val s) (c_armed s) (c_next s) (c_queue s) (c_ctl s) (c_cbs s) (c_hdl s) (c_log s).
Definition set_armed (s : st) (o : nat) (b : bool) : st :=
  St (c_objs s) (c_data s) (c_val s) (upd (c_armed s) o b) (c_next s) (c_queue s) (c_ctl s) (c_cbs s) (c_hdl s) (c_log s).
Definition set_queue (s : st) (l : list nat) : st :=
  St (c_objs s) (c_data s) (c_val s) (c_armed s) (c_next s) l (c_ctl s) (c_cbs s) (c_hdl s) (c_log s).
Definition set_ctl (s : st) (c : ctl) : st :=
  St (c_objs s) (c_data s) (c_val s) (c_armed s) (c_next s) (c_queue s) c (c_cbs s) (c_hdl s) (c_log s).
Definition set_cbs (s : st) (t n : nat) : st :=
  St (c_objs s) (c_data s) (c_val s) (c_armed s) (c_next s) (c_queue s) (c_ctl s) (upd (c_cbs s) t n) (c_hdl s) (c_log s).
Definition set_hdl (s : st) (t : nat) (h : option nat) : st :=
  St (c_objs s) (c_data s) (c_val s) (c_armed s) (c_next s) (c_queue s) (c_ctl s) (c_cbs s) (upd (c_hdl s) t h) (c_log s).
Definition log (s : st) (e : ev) : st :=
  St (c_objs s) (c_data s) (c_val s) (c_armed s) (c_next s) (c_queue s) (c_ctl s) (c_cbs s) (c_hdl s) (e :: c_log s).
(** [new]: a number for an object of class [v]. *)
Definition fresh (s : st) (v : bool) : st :=
  St (c_objs s) (c_data s) (upd (c_val s) (c_next s) v) (c_armed s) (S (c_next s)) (c_queue s) (c_ctl s) (c_cbs s) (c_hdl s) (c_log s).

Section Callbacks.
(** [verilator]: compiled with the macro VERILATOR. *)
Variable verilator : bool.

(** [delete cb_data] (bind.cpp:35-39, 172, 803). *)
Definition free_data (s : st) (o : nat) : st :=
  if c_data s o then set_data s o false else log s (Fault FData o).
(** vpi_remove_cb and what follows it (VpiCbHdl.cpp:119-132, 150-160, 217-229): [ok]: what the simulator answers. *)
Definition vpi_remove (s : st) (o : nat) (x : obj) (ok : bool) : st :=
  let s := if c_armed s o || verilator then s else log s (Fault FHandle o) in
  if ok then set_obj (set_armed s o false) o None else set_obj s o (Some (Obj (o_trig x) true)).
(** The end of [run] once the function has returned (VpiCbHdl.cpp:144-173 and, for value changes, 216-230). *)
Definition after (s : st) (o : nat) (ok : bool) : st :=
  match c_objs s o with
  | None => log s (Fault FObject o)
  | Some x => if c_val s o || verilator then vpi_remove s o x ok else set_obj s o None
  end.
(** A callback has been handled: the loop goes on (VpiCbHdl.cpp:59-62). *)
Definition handled (s : st) (o : nat) (q : bool) : st :=
  set_ctl (if q then match c_queue s with [] => log s (Fault FPop o) | _ :: l => set_queue s l end else s) Loop.
(** [m_cb_func(m_cb_data)]: handle_gpi_callback (bind.cpp:163-176) calls [GPITrigger._react] (_gpi_triggers.py:40-49), which takes the
    callbacks of the trigger (_base_triggers.py:83-84). *)
Definition call (s : st) (o : nat) (x : obj) (q : bool) : st :=
  if c_data s o then set_ctl (log (set_cbs s (o_trig x) 0) (Called o)) (Py (Some o) q)
  else handled (log s (Fault FData o)) o q.
(** [run] up to the call (VpiCbHdl.cpp:135-142, 188-216): [pass]: whether the signal has the value of the edge. Only the end of a
    removed callback which is no value change is executed. *)
Definition enter (s : st) (o : nat) (pass ok q : bool) : st :=
  match c_objs s o with
  | None => handled (log s (Fault FObject o)) o q
  | Some x =>
      if c_val s o then (if o_removed x then handled s o q else if pass then call s o x q else handled s o q)
      else if o_removed x then handled (after s o ok) o q
      else call s o x q
  end.
(** [cb_queue.erase] of the first occurrence (VpiCbHdl.cpp:106-108). *)
Fixpoint erase (o : nat) (l : list nat) : list nat :=
  match l with [] => [] | x :: l' => if x =? o then l' else x :: erase o l' end.
(** [remove] (VpiCbHdl.cpp:103-133). *)
Definition remove (s : st) (o : nat) (x : obj) (ok : bool) : st :=
  if existsb (Nat.eqb o) (c_queue s) then
    let s := set_queue s (erase o (c_queue s)) in
    if verilator then vpi_remove s o x ok else set_obj s o None
  else vpi_remove s o x ok.
(** [deregister] (bind.cpp:798-809). *)
Definition deregister (s : st) (o : nat) (ok : bool) : st :=
  match c_objs s o with
  | None => log s (Fault FObject o)
  | Some x => log (remove (free_data s o) o x ok) (Gone o)
  end.
(** [Trigger._register] (_base_triggers.py:61-73) with [_prime] of a GPI trigger (_gpi_triggers.py:159-162, 256-261), the registration in
    bind.cpp:201-240, 389-440 and VpiImpl.cpp:686-741, VpiSignal.cpp:235-244: [v]: the trigger is an edge; [ok]: the simulator accepts.
    If not, RuntimeError is raised in Python, and nobody frees the PythonCallback. *)
Definition py_register (s : st) (t : nat) (v ok : bool) : st :=
  let n := c_cbs s t in
  let s := set_cbs s t (S n) in
  if n =? 0 then
    let o := c_next s in
    let s := set_data (fresh s v) o true in
    if ok then set_hdl (set_armed (set_obj s o (Some (Obj t false))) o true) t (Some o) else set_hdl s t None
  else s.
(** [Trigger._deregister] (_base_triggers.py:75-81) with [_unprime] (_gpi_triggers.py:51-54), whose assertion fails without a handle. *)
Definition py_deregister (s : st) (t : nat) (ok : bool) : st :=
  match c_cbs s t with
  | 0 => s
  | S n =>
      let s := set_cbs s t n in
      if n =? 0 then match c_hdl s t with None => s | Some h => set_hdl (deregister s h ok) t None end else s
  end.

(** ** Steps *)

(** [LFire]: the simulator calls handle_vpi_callback (VpiCbHdl.cpp:40-69) for a callback it has; within a callback only for changes of
    values, which Icarus, Xcelium and Questa do when a signal is set at once (lines 50-53); [again]: Verilator keeps it registered (lines
    146-148). [LEmbed]: it calls another callback of the library (at the start or the end of the simulation). [LDrain]: the next turn of
    the loop. [LReturn]: the Python function returns. [LReg], [LDereg]: Python code starts or stops to wait for a trigger. *)
Inductive label :=
| LFire (o : nat) (pass ok again : bool) | LEmbed | LDrain (pass ok : bool) | LReturn (ok : bool)
| LReg (t : nat) (v ok : bool) | LDereg (t : nat) (ok : bool).
Definition step (s : st) (l : label) : option st :=
  match l, c_ctl s with
  | LFire o pass ok again, Idle =>
      if c_armed s o then
        Some (enter (set_armed s o (c_val s o || again && verilator)) o pass ok false)
      else None
  | LFire o _ _ _, Py _ _ => if c_armed s o && c_val s o then Some (set_queue s (c_queue s ++ [o])) else None
  | LEmbed, Idle => Some (set_ctl s (Py None false))
  | LDrain pass ok, Loop =>
      match c_queue s with
      | [] => Some (set_ctl s Idle)
      | o :: _ => Some (enter s o pass ok true)
      end
  | LReturn ok, Py None _ => Some (set_ctl s Loop)
  | LReturn ok, Py (Some o) q => Some (handled (after (free_data s o) o ok) o q)
  | LReg t v ok, Py _ _ => Some (py_register s t v ok)
  | LDereg t ok, Py _ _ => match c_cbs s t with 0 => None | _ => Some (py_deregister s t ok) end
  | _, _ => None
  end.
Inductive exec : st -> list label -> st -> Prop :=
| exec_nil s : exec s [] s
| exec_cons s l s1 ls s' : step s l = Some s1 -> exec s1 ls s' -> exec s (l :: ls) s'.
End Callbacks.

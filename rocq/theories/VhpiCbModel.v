(** Callbacks of the VHPI: objects which delete themselves (/repo/src/cocotb/share/lib/gpi/vhpi/VhpiCbHdl.cpp, VhpiImpl.hpp:83-172,
    VhpiImpl.cpp:51-66, 1005-1130, VhpiSignal.cpp:544-556), with the PythonCallbacks they own (pygpi/bind.cpp:163-196, 798-809). *)
From Coq Require Import Arith String.
From Verif Require Import Base.
Open Scope string_scope.
Open Scope nat_scope.

(** gpi.h [gpi_edge]. *)
Inductive edge := Rising | Falling | AnyChange.
(** The classes of callbacks (VhpiImpl.hpp:99-172) with what their constructors are given; a signal is a number. *)
Inductive class := CValue (signal : nat) (e : edge) | CTimed (time : Z) | CReadWrite | CReadOnly | CNextPhase | CStartup | CShutdown.
(** Reasons, as numbered in vhpi_user.h, set by the constructors (VhpiCbHdl.cpp:119-207). *)
Definition reason (c : class) : Z :=
  match c with
  | CValue _ _ => 1001 | CTimed _ => 1010 | CReadWrite => 1021 | CReadOnly => 1025 | CNextPhase => 1013 | CStartup => 1034 | CShutdown => 1035
  end.
(** VhpiImpl.cpp:51-66 [reason_to_string]. *)
Definition reason_to_string (r : Z) : string :=
  match r with
  | 1001 => "vhpiCbValueChange" | 1014 => "vhpiCbStartOfNextCycle" | 1022 => "vhpiCbStartOfPostponed" | 1024 => "vhpiCbEndOfTimeStep"
  | 1012 => "vhpiCbNextTimeStep" | 1010 => "vhpiCbAfterDelay" | 1034 => "vhpiCbStartOfSimulation" | 1035 => "vhpiCbEndOfSimulation"
  | 1018 => "vhpiCbEndOfProcesses" | 1020 => "vhpiCbLastKnownDeltaCycle"
  | _ => "unknown"
  end%Z.
(** A callback which the library registers for itself has no PythonCallback (VhpiImpl.cpp:1111, 1125: [set_cb_info(.., nullptr)]). *)
Definition own (c : class) : bool := match c with CStartup | CShutdown => true | _ => false end.
Definition is_value (c : class) : bool := match c with CValue _ _ => true | _ => false end.

(** An object: its class and [m_removed] (VhpiImpl.hpp:94). *)
Record obj := Obj { o_class : class; o_removed : bool }.
(** Errors: a freed object is used or freed again; the same for a PythonCallback. *)
Inductive fault := FObject | FData.
(** What is recorded: Python gets a callback; a function is called; Python deregisters a callback; the end is asked for (vhpi_control); the process exits; an error. *)
Inductive ev := Got (n : nat) | Called (n : nat) | Gone (n : nat) | Finish | Exit | Fault (f : fault) (n : nat).
(** Objects, and their PythonCallbacks, are numbered and numbers never used again, so that a freed one is recognised: [v_objs], [v_data]: what
    is alive; [v_armed]: what the simulator has registered; [v_run]: the objects whose function is being called, with the
    class whose [run] it is, the innermost first;
    [v_fin]: gpi_finalizing (GpiCommon.cpp:118-123); [v_finish]: m_sim_finish_cb. *)
Record st := St { v_objs : nat -> option obj; v_data : nat -> bool; v_armed : nat -> bool; v_next : nat; v_run : list (nat * class); v_fin : bool;
  v_finish : option nat; v_log : list ev }.
Definition init : st := St (fun _ => None) (fun _ => false) (fun _ => false) 0 [] false None [].
Definition upd {A} (f : nat -> A) (n : nat) (a : A) : nat -> A := fun m => if m =? n then a else f m.
Definition set_obj (s : st) (n : nat) (x : option obj) : st :=
  St (upd (v_objs s) n x) (v_data s) (v_armed s) (v_next s) (v_run s) (v_fin s) (v_finish s) (v_log s).
Definition set_data (s : st) (n : nat) (b : bool) : st :=
  St (v_objs s) (upd (v_data s) n b) (v_armed s) (v_next s) (v_run s) (v_fin s) (v_finish s) (v_log s).
Definition set_armed (s : st) (n : nat) (b : bool) : st :=
  St (v_objs s) (v_data s) (upd (v_armed s) n b) (v_next s) (v_run s) (v_fin s) (v_finish s) (v_log s).
Definition set_run (s : st) (l : list (nat * class)) : st := St (v_objs s) (v_data s) (v_armed s) (v_next s) l (v_fin s) (v_finish s) (v_log s).
Definition set_fin (s : st) : st := St (v_objs s) (v_data s) (v_armed s) (v_next s) (v_run s) true (v_finish s) (v_log s).
Definition set_finish (s : st) (n : nat) : st := St (v_objs s) (v_data s) (v_armed s) (v_next s) (v_run s) (v_fin s) (Some n) (v_log s).
Definition log (s : st) (e : ev) : st := St (v_objs s) (v_data s) (v_armed s) (v_next s) (v_run s) (v_fin s) (v_finish s) (e :: v_log s).
(** [new]: a number, and whether Python has made a PythonCallback for it (bind.cpp:201-240). *)
Definition fresh (s : st) (data : bool) : st :=
  St (v_objs s) (upd (v_data s) (v_next s) data) (v_armed s) (Datatypes.S (v_next s)) (v_run s) (v_fin s) (v_finish s) (v_log s).

(** [new], [arm] (VhpiCbHdl.cpp:69-88) and [set_cb_info] (VhpiImpl.cpp:1005-1064, VhpiSignal.cpp:544-556); [ok]: the simulator accepts.
    If not, the object is deleted, but nobody frees the PythonCallback (bind.cpp:226-234). *)
Definition register (s : st) (c : class) (ok : bool) : st :=
  let n := v_next s in
  let s := fresh s (negb (own c)) in
  if ok then let s := set_armed (set_obj s n (Some (Obj c false))) n true in if own c then s else log s (Got n) else s.
(** vhpi_remove_cb and what follows it (VhpiCbHdl.cpp:53-66, 100-115, 155-169): [ok]: what the simulator answers. *)
Definition unregister (s : st) (n : nat) (x : obj) (ok : bool) : st :=
  if ok then set_armed (set_obj s n None) n false else set_obj s n (Some (Obj (o_class x) true)).
(** [remove] (VhpiCbHdl.cpp:52-67; VhpiImpl.hpp:143-146, 167-170). *)
Definition remove (s : st) (n : nat) (ok : bool) : st :=
  match v_objs s n with
  | None => log s (Fault FObject n)
  | Some x => if own (o_class x) then set_obj s n (Some (Obj (o_class x) true)) else unregister s n x ok
  end.
(** [delete cb_data] (bind.cpp:172-173, 801-803). *)
Definition free_data (s : st) (n : nat) : st := if v_data s n then set_data s n false else log s (Fault FData n).
(** bind.cpp:798-809 [deregister]: [gpi_get_cb_info] reads the object. *)
Definition deregister (s : st) (n : nat) (ok : bool) : st :=
  match v_objs s n with
  | None => log s (Fault FObject n)
  | Some _ => log (remove (free_data s n) n ok) (Gone n)
  end.
(** VhpiCbHdl.cpp:134-148; [value]: what get_signal_value_binstr gives. *)
Definition passes (e : edge) (value : pystr) : bool :=
  match e with Rising => pystr_eqb value (lit "1") | Falling => pystr_eqb value (lit "0") | AnyChange => true end.
(** The end of [run] once the function has returned (VhpiCbHdl.cpp:100-115, 155-169; VhpiImpl.hpp:139, 163). *)
Definition after (s : st) (n : nat) (ok : bool) : st :=
  match v_objs s n with
  | None => log s (Fault FObject n)
  | Some x => if own (o_class x) then set_obj s n None else unregister s n x ok
  end.
(** The function of the object is called: handle_gpi_callback (bind.cpp:163-176) or one of VhpiImpl.cpp:1085-1097. *)
Definition call (s : st) (n : nat) (x : obj) : st :=
  if own (o_class x) || v_data s n then set_run (log s (Called n)) ((n, o_class x) :: v_run s) else log s (Fault FData n).
(** [run] up to the call (VhpiCbHdl.cpp:90-97, 127-152; VhpiImpl.hpp:132-138, 156-162), and to its end if there is none. *)
Definition fire (s : st) (n : nat) (value : pystr) (ok : bool) : st :=
  match v_objs s n with
  | None => log s (Fault FObject n)
  | Some x =>
      match o_class x with
      | CValue _ e => if o_removed x then s else if passes e value then call s n x else s
      | _ => if o_removed x then after s n ok else call s n x
      end
  end.
(** VhpiImpl.cpp:1066-1075 [sim_end]; not reached without [main], which sets m_sim_finish_cb before it registers the implementation. *)
Definition sim_end (s : st) : st := log match v_finish s with None => s | Some n => remove s n true end Finish.
(** GpiCommon.cpp:118-123 [gpi_finish]. *)
Definition gpi_finish (s : st) : st := if v_fin s then s else set_fin (sim_end s).
(** The function of object [n] has returned [res]: of the shutdown callback only after gpi_end_of_sim_time (VhpiImpl.cpp:1092-1097), of the
    startup callback after it if a user function failed (GpiCommon.cpp:95-106); both return 0. Otherwise handle_gpi_callback frees its data
    (bind.cpp:173). Then the end of [run], and of handle_vhpi_callback (VhpiCbHdl.cpp:33-35). The functions which
    gpi_end_of_sim_time calls are steps of their own; the finalisation of Python is C97. *)
Definition return_ (s : st) (n : nat) (c : class) (res : Z) (ok : bool) : st :=
  match c with
  | CShutdown => after (gpi_finish s) n ok
  | CStartup => after (if Z.eqb res 0 then s else gpi_finish s) n ok
  | _ => let s := after (free_data s n) n ok in if Z.eqb res 0 then s else gpi_finish s
  end.
(** VhpiImpl.cpp:1099-1130 [main]; [ok1], [ok2]: the simulator accepts the two callbacks. *)
Definition main (s : st) (ok1 ok2 : bool) : st :=
  let n := v_next s in
  let s := register s CStartup ok1 in
  if ok1 then
    let m := v_next s in
    let s := register s CShutdown ok2 in
    if ok2 then set_finish s m else log (remove s n true) Exit
  else log s Exit.

(** What happens: [LReg], [LDereg], [LStop]: Python registers a callback, deregisters one or stops the simulator (bind.cpp:787-796); [LFire]:
    the simulator calls back for what it has registered, also within another callback; [again]: it keeps the callback
    registered, as it does with changes of values; [LReturn]: the function called last returns. None: cannot happen. *)
Inductive label := LReg (c : class) (ok : bool) | LDereg (n : nat) (ok : bool) | LStop | LFire (n : nat) (again : bool) (value : pystr) (ok : bool)
| LReturn (res : Z) (ok : bool).
Definition step (s : st) (l : label) : option st :=
  match l with
  | LReg c ok => if own c then None else Some (register s c ok)
  | LDereg n ok => Some (deregister s n ok)
  | LStop => Some (gpi_finish s)
  | LFire n again value ok => if v_armed s n then Some (fire (set_armed s n again) n value ok) else None
  | LReturn res ok => match v_run s with (n, c) :: l => Some (return_ (set_run s l) n c res ok) | [] => None end
  end.

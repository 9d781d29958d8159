(** The life of the interface between simulator and Python, from loading to the end: /repo/src/cocotb/share/lib/gpi/GpiCommon.cpp,
    gpi/vpi/VpiCbHdl.cpp, gpi/vpi/VpiImpl.cpp (with the queue of callbacks) and pygpi/embed.cpp, pygpi/bind.cpp. *)
From Verif Require Import Base.
Open Scope nat_scope.

(** Python code that runs: [load_entry] at the start (embed.cpp:228-268), the function of [set_sim_event_callback] (embed.cpp:270-295;
    [own]: called from within the callback which the simulator makes at its end), or the function of a callback (bind.cpp:163-196). *)
Inductive who := WStart | WEvent (own : bool) | WUser.
(** Who is in control: the simulator, Python, or the loop of VpiCbHdl.cpp:57-64. *)
Inductive ctl := Idle | Py (w : who) | Loop.
(** Errors: the freed object of the callback at the end is used (or freed again); Python is entered after Py_Finalize; Py_Finalize while
    Python code is running. *)
Inductive fault := FObject | FDead | FRunning.
(** [EFinish]: vpi_control(vpiFinish); [EFinal]: Py_Finalize. *)
Inductive ev := ELoad | EEvent | ECall | EFinish | EFinal | EFault (f : fault).
(** [l_fin]: gpi_finalizing; [l_py]: Py_IsInitialized; [l_loaded]: the functions of embed.cpp are registered (174-176); [l_embed]:
    embed_init_called; [l_event]: pEventFn is set; [l_obj], [l_removed]: the object of m_sim_finish_cb exists, its m_removed; [l_armed]:
    the simulator has it registered; [l_queue]: the number of callbacks in cb_queue; [l_log]: what happened, the last first. *)
Record st := St { l_fin : bool; l_py : bool; l_loaded : bool; l_embed : bool; l_event : bool; l_obj : bool; l_removed : bool; l_armed : bool;
  l_queue : nat; l_ctl : ctl; l_log : list ev }.
Definition log (s : st) (e : ev) : st :=
  St (l_fin s) (l_py s) (l_loaded s) (l_embed s) (l_event s) (l_obj s) (l_removed s) (l_armed s) (l_queue s) (l_ctl s) (e :: l_log s).
Definition set_ctl (s : st) (c : ctl) : st :=
  St (l_fin s) (l_py s) (l_loaded s) (l_embed s) (l_event s) (l_obj s) (l_removed s) (l_armed s) (l_queue s) c (l_log s).
Definition set_queue (s : st) (n : nat) : st :=
  St (l_fin s) (l_py s) (l_loaded s) (l_embed s) (l_event s) (l_obj s) (l_removed s) (l_armed s) n (l_ctl s) (l_log s).
Definition set_event (s : st) (b : bool) : st :=
  St (l_fin s) (l_py s) (l_loaded s) (l_embed s) b (l_obj s) (l_removed s) (l_armed s) (l_queue s) (l_ctl s) (l_log s).
Definition set_embed (s : st) : st :=
  St (l_fin s) (l_py s) (l_loaded s) true (l_event s) (l_obj s) (l_removed s) (l_armed s) (l_queue s) (l_ctl s) (l_log s).
Definition set_fin (s : st) : st :=
  St true (l_py s) (l_loaded s) (l_embed s) (l_event s) (l_obj s) (l_removed s) (l_armed s) (l_queue s) (l_ctl s) (l_log s).
Definition set_dead (s : st) : st :=
  St (l_fin s) false (l_loaded s) (l_embed s) (l_event s) (l_obj s) (l_removed s) (l_armed s) (l_queue s) (l_ctl s) (l_log s).
Definition set_finish_cb (s : st) (obj removed armed : bool) : st :=
  St (l_fin s) (l_py s) (l_loaded s) (l_embed s) (l_event s) obj removed armed (l_queue s) (l_ctl s) (l_log s).

(** m_sim_finish_cb->remove(): VpiShutdownCbHdl only marks the object (VpiImpl.hpp:165-168, VhpiImpl.hpp:167-170). *)
Definition remove_finish_cb (s : st) : st :=
  if l_obj s then set_finish_cb s true true (l_armed s) else log s (EFault FObject).
(** VpiImpl.cpp:745-760 [sim_end]. *)
Definition sim_end (s : st) : st := log (remove_finish_cb s) EFinish.
(** GpiCommon.cpp:118-123 [gpi_finish]. *)
Definition gpi_finish (s : st) : st := if l_fin s then s else set_fin (sim_end s).
(** embed.cpp:212-226 [finalize], called by GpiCommon.cpp:125-132; the store of handles is not modelled here. *)
Definition finalize (s : st) : st :=
  if l_py s then
    let s := match l_ctl s with Py _ => log s (EFault FRunning) | _ => s end in
    log (set_dead (set_event s false)) EFinal
  else s.
(** After VpiImpl::main (VpiImpl.cpp:788-818), which loads the libraries (C96); [loaded]: Python was initialised and the functions of
    embed.cpp were registered; [fin]: a library could not be loaded and [gpi_finish] was called. *)
Definition init (loaded fin : bool) : st :=
  let s := St false loaded loaded false false true false true 0 Idle [] in if fin then gpi_finish s else s.
(** GpiCommon.cpp:134-138 [gpi_check_cleanup], called by GPI_TO_SIM (gpi_priv.hpp:288-292). *)
Definition check_cleanup (s : st) : st := if l_fin s then finalize s else s.
(** The end of [run] of the callback at the end, [delete this] (VpiImpl.hpp:161). *)
Definition after_own (s : st) : st :=
  if l_obj s then set_finish_cb s false (l_removed s) (l_armed s) else log s (EFault FObject).
(** [gpi_end_of_sim_time] has called its functions (GpiCommon.cpp:113-115) and returns into the handler of the callback. *)
Definition ended (s : st) (own : bool) : st :=
  let s := gpi_finish s in set_ctl (if own then after_own s else s) Loop.
(** GpiCommon.cpp:106-115 [gpi_end_of_sim_time] with embed.cpp:270-276. *)
Definition end_of_sim_time (s : st) (own : bool) : st :=
  if l_event s then
    (if l_py s then set_ctl (log s EEvent) (Py (WEvent own)) else ended (log s (EFault FDead)) own)
  else ended s own.
(** VpiImpl.cpp:774-779, GpiCommon.cpp:92-104, embed.cpp:228-240: the callback at the start. *)
Definition enter_start (s : st) : st :=
  if l_loaded s then
    (if l_embed s then end_of_sim_time s false
     else let s := set_embed s in
          if l_py s then set_ctl (log s ELoad) (Py WStart) else set_ctl (log s (EFault FDead)) Loop)
  else set_ctl s Loop.
(** VpiImpl.cpp:781-786 in VpiImpl.hpp:154-163 [VpiShutdownCbHdl::run]: the callback at the end. *)
Definition enter_shutdown (s : st) : st :=
  let s := set_finish_cb s (l_obj s) (l_removed s) false in
  if l_obj s then
    (if l_removed s then set_ctl (after_own s) Loop else end_of_sim_time s true)
  else set_ctl (log s (EFault FObject)) Loop.
(** bind.cpp:163-176 [handle_gpi_callback]. Its objects are those of GpiCbModel (C94). *)
Definition enter_user (s : st) : st :=
  if l_py s then set_ctl (log s ECall) (Py WUser) else set_ctl (log s (EFault FDead)) Loop.

(** [LStart], [LShutdown], [LUser]: the simulator makes a callback; [LReenter]: it makes one while another is being handled
    (VpiCbHdl.cpp:55-56, then GPI_TO_SIM); [LStop], [LSetEvent]: Python calls [stop_simulator] (bind.cpp:787-796), [set_sim_event_callback]
    (834-849); [LReturn good]: the Python code returns or raises; [LDrain]: the next turn of the loop (VpiCbHdl.cpp:59-67).
    Simplification: the callback at the end is not made within another one. *)
Inductive label := LStart | LShutdown | LUser | LReenter | LStop | LSetEvent | LReturn (good : bool) | LDrain.
Definition step (s : st) (l : label) : option st :=
  match l, l_ctl s with
  | LStart, Idle => Some (enter_start s)
  | LShutdown, Idle => if l_armed s then Some (enter_shutdown s) else None
  | LUser, Idle => Some (enter_user s)
  | LReenter, Py _ => Some (check_cleanup (set_queue s (S (l_queue s))))
  | LStop, Py _ => Some (gpi_finish s)
  | LSetEvent, Py _ => Some (if l_event s then s else set_event s true)
  | LReturn good, Py w =>
      Some (match w with
            | WEvent own => ended s own
            | _ => if good then set_ctl s Loop else end_of_sim_time s false
            end)
  | LDrain, Loop => match l_queue s with O => Some (set_ctl (check_cleanup s) Idle) | S n => Some (enter_user (set_queue s n)) end
  | _, _ => None
  end.
Fixpoint run (s : st) (ls : list label) : option st :=
  match ls with [] => Some s | l :: ls' => match step s l with Some s' => run s' ls' | None => None end end.

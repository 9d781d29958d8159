(** The life of the interface through the FLI: /repo/src/cocotb/share/lib/gpi/fli/FliImpl.cpp:20-27, 1108-1168,
    gpi/fli/FliCbHdl.cpp:13-39, 168-202, gpi/GpiCommon.cpp:95-138 and pygpi/embed.cpp:208-295. GpiLifeModel has the VPI, whose callback at
    the end is of another class. *)
From Verif Require Import Base.

(** What the C++ code does after [gpi_end_of_sim_time]: it was called by the startup callback, the shutdown callback, or the handler. *)
Inductive from := FStart | FShut | FHandler.
(** Who is in control: the simulator, [load_entry], the function of [set_sim_event_callback], or that of a callback.
    Simplified: no callback is made within another one, as none of the FLI functions called runs the simulator. *)
Inductive ctl := Idle | PyLoad | PyEvent (k : from) | PyUser.
(** Errors: the freed object of the startup callback, of the shutdown callback, is used or freed again; Python is entered after Py_Finalize. *)
Inductive fault := FStartObj | FShutObj | FDead.
(** [EQuit], [EBreak]: mti_Quit, mti_Break; [EFinal]: Py_Finalize. *)
Inductive ev := ELoad | EEvent | ECall | EQuit | EBreak | EFinal | EFault (f : fault).
(** [f_fin]: gpi_finalizing; [f_py]: Py_IsInitialized; [f_loaded]: the functions of embed.cpp are registered (174-176); [f_embed]:
    embed_init_called; [f_event]: pEventFn is set; [f_start], [f_shut]: the objects of the two callbacks exist; [f_starts], [f_quits]: the
    simulator has them registered; [f_time]: it is past time 0, delta 0; [f_log]: what happened, the last first. *)
Record st := St { f_fin : bool; f_py : bool; f_loaded : bool; f_embed : bool; f_event : bool; f_start : bool; f_starts : bool; f_shut : bool;
  f_quits : bool; f_time : bool; f_ctl : ctl; f_log : list ev }.
Definition log (s : st) (e : ev) : st :=
  St (f_fin s) (f_py s) (f_loaded s) (f_embed s) (f_event s) (f_start s) (f_starts s) (f_shut s) (f_quits s) (f_time s) (f_ctl s) (e :: f_log s).
Definition set_ctl (s : st) (c : ctl) : st :=
  St (f_fin s) (f_py s) (f_loaded s) (f_embed s) (f_event s) (f_start s) (f_starts s) (f_shut s) (f_quits s) (f_time s) c (f_log s).
Definition set_fin (s : st) : st :=
  St true (f_py s) (f_loaded s) (f_embed s) (f_event s) (f_start s) (f_starts s) (f_shut s) (f_quits s) (f_time s) (f_ctl s) (f_log s).
Definition set_dead (s : st) : st :=
  St (f_fin s) false (f_loaded s) (f_embed s) false (f_start s) (f_starts s) (f_shut s) (f_quits s) (f_time s) (f_ctl s) (f_log s).
Definition set_embed (s : st) : st :=
  St (f_fin s) (f_py s) (f_loaded s) true (f_event s) (f_start s) (f_starts s) (f_shut s) (f_quits s) (f_time s) (f_ctl s) (f_log s).
Definition set_event (s : st) : st :=
  St (f_fin s) (f_py s) (f_loaded s) (f_embed s) true (f_start s) (f_starts s) (f_shut s) (f_quits s) (f_time s) (f_ctl s) (f_log s).
Definition set_start (s : st) (obj armed : bool) : st :=
  St (f_fin s) (f_py s) (f_loaded s) (f_embed s) (f_event s) obj armed (f_shut s) (f_quits s) (f_time s) (f_ctl s) (f_log s).
Definition set_shut (s : st) (obj armed : bool) : st :=
  St (f_fin s) (f_py s) (f_loaded s) (f_embed s) (f_event s) (f_start s) (f_starts s) obj armed (f_time s) (f_ctl s) (f_log s).
Definition set_time (s : st) : st :=
  St (f_fin s) (f_py s) (f_loaded s) (f_embed s) (f_event s) (f_start s) (f_starts s) (f_shut s) (f_quits s) true (f_ctl s) (f_log s).

(** FliCbHdl.cpp:198-202 [FliShutdownCbHdl::remove]: mti_RemoveQuitCB and [delete this]. *)
Definition remove_shut (s : st) : st := if f_shut s then set_shut s false false else log s (EFault FShutObj).
(** FliImpl.cpp:20-27 [sim_end]. *)
Definition sim_end (s : st) : st := log (remove_shut s) (if f_time s then EBreak else EQuit).
(** GpiCommon.cpp:118-123 [gpi_finish]. *)
Definition gpi_finish (s : st) : st := if f_fin s then s else set_fin (sim_end s).
(** GpiCommon.cpp:134-138 [gpi_check_cleanup] with embed.cpp:208-222 [finalize]; the store of handles is not modelled here. *)
Definition check_cleanup (s : st) : st := if f_fin s then if f_py s then log (set_dead s) EFinal else s else s.
(** The end of [handle_fli_callback] (FliCbHdl.cpp:38). *)
Definition back (s : st) : st := set_ctl (check_cleanup s) Idle.
(** The ends of [run] of the two callbacks: [delete this] (FliCbHdl.cpp:176, 194); their functions return 0 (FliImpl.cpp:1108-1120). *)
Definition delete_start (s : st) : st := if f_start s then set_start s false (f_starts s) else log s (EFault FStartObj).
Definition delete_shut (s : st) : st := if f_shut s then set_shut s false (f_quits s) else log s (EFault FShutObj).
(** [gpi_end_of_sim_time] has called its functions (GpiCommon.cpp:113-115) and returns to its caller. *)
Definition ended (s : st) (k : from) : st :=
  let s := gpi_finish s in back match k with FStart => delete_start s | FShut => delete_shut s | FHandler => s end.
(** GpiCommon.cpp:108-116 [gpi_end_of_sim_time] with embed.cpp:270-295. *)
Definition end_of_sim_time (s : st) (k : from) : st :=
  if f_event s then
    (if f_py s then set_ctl (log s EEvent) (PyEvent k) else ended (log s (EFault FDead)) k)
  else ended s k.
(** FliCbHdl.cpp:174-178, FliImpl.cpp:1108-1113, GpiCommon.cpp:95-106, embed.cpp:225-241: the callback when loading is done. *)
Definition enter_start (s : st) : st :=
  let s := set_start s (f_start s) false in
  if f_start s then
    (if f_loaded s then
       if f_embed s then end_of_sim_time s FStart
       else let s := set_embed s in
            if f_py s then set_ctl (log s ELoad) PyLoad else back (delete_start (log s (EFault FDead)))
     else back (delete_start s))
  else back (log s (EFault FStartObj)).
(** FliCbHdl.cpp:192-196, FliImpl.cpp:1115-1120: the callback when the simulator quits. *)
Definition enter_shut (s : st) : st :=
  let s := set_shut s (f_shut s) false in
  if f_shut s then end_of_sim_time s FShut else back (log s (EFault FShutObj)).
(** bind.cpp:163-176 [handle_gpi_callback]. Its objects are those of FliCbModel (C106). *)
Definition enter_user (s : st) : st :=
  if f_py s then set_ctl (log s ECall) PyUser else back (log s (EFault FDead)).

(** After FliImpl::main (FliImpl.cpp:1122-1151); [arm] never fails. [loaded]: Python was initialised and the functions of embed.cpp were
    registered; [fin]: a library could not be loaded and [gpi_finish] was called (C96). *)
Definition init (loaded fin : bool) : st :=
  let s := St false loaded loaded false false true true true true false Idle [] in if fin then gpi_finish s else s.
(** [LStart], [LShut], [LUser]: the simulator makes a callback, each of the first two once; [LTime]: time advances; [LStop], [LSetEvent]:
    Python calls [stop_simulator] (bind.cpp:788-796), [set_sim_event_callback] (834-849); [LReturn good]: the Python code returns or raises. *)
Inductive label := LStart | LShut | LUser | LTime | LStop | LSetEvent | LReturn (good : bool).
Definition step (s : st) (l : label) : option st :=
  match l, f_ctl s with
  | LStart, Idle => if f_starts s then Some (enter_start s) else None
  | LShut, Idle => if f_quits s then Some (enter_shut s) else None
  | LUser, Idle => Some (enter_user s)
  | LTime, Idle => Some (set_time s)
  | LStop, (PyLoad | PyEvent _ | PyUser) => Some (gpi_finish s)
  | LSetEvent, (PyLoad | PyEvent _ | PyUser) => Some (set_event s)
  | LReturn good, PyLoad => Some (if good then back (delete_start s) else end_of_sim_time s FStart)
  | LReturn good, PyUser => Some (if good then back s else end_of_sim_time s FHandler)
  | LReturn _, PyEvent k => Some (ended s k)
  | _, _ => None
  end.
Fixpoint run (s : st) (ls : list label) : option st :=
  match ls with [] => Some s | l :: ls' => match step s l with Some s' => run s' ls' | None => None end end.

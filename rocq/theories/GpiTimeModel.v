(** Model for C108: simulation time, precision, name and arguments of the simulator as they pass through gpi/vpi/VpiImpl.cpp, gpi/vhpi/VhpiImpl.cpp,
    gpi/fli/FliImpl.cpp, gpi/GpiCommon.cpp and pygpi/bind.cpp. *)
From Coq Require Import String.
From Verif Require Import Base TextModel.
Open Scope Z_scope.

(** The interface which registered itself first: [registered_impls[0]] (GpiCommon.cpp:20, 312-333, 680-692, 762-765). *)
Inductive iface := Vpi | Vhpi | Fli.

(** ** Time *)

(** static_cast<uint32_t>, (uint32_t): the value modulo 2^32. *)
Definition uint32 (z : Z) : Z := z mod 2 ^ 32.
(** (mtiInt32T): the value modulo 2^32, as a signed number. *)
Definition sint32 (z : Z) : Z := (z + 2 ^ 31) mod 2 ^ 32 - 2 ^ 31.
(** VpiImpl.cpp:37-44, VhpiImpl.cpp:71-77, FliImpl.cpp:445-449 [get_sim_time]; [high], [low]: the members which vpi_get_time or vhpi_get_time set (unsigned 32 bit
    numbers), or the results of mti_NowUpper and mti_Now (signed 32 bit numbers). *)
Definition interface_time (i : iface) (high low : Z) : Z * Z :=
  match i with Vpi | Vhpi => (high, low) | Fli => (uint32 high, uint32 low) end.
(** bind.cpp:677-702 [get_sim_time]: None if no interface is registered. *)
Definition sim_time (i : option iface) (high low : Z) : result (Z * Z) :=
  match i with None => Err RuntimeError | Some i => Ok (interface_time i high low) end.
(** bind.cpp:343-356: PyLong_AsLongLong and the cast; a Python object which is no int is left out. *)
Definition time_of (z : Z) : result Z :=
  if (z <? - 2 ^ 63) || (2 ^ 63 <=? z) then Err OverflowError else if z <? 0 then Err ValueError else Ok z.
(** VpiCbHdl.cpp:249-256, VhpiCbHdl.cpp:183-190, FliCbHdl.cpp:41-54: what the simulator is given for a time, as two words ([high], [low]); the FLI on 64 bit machines
    ([lp64]) gives one. *)
Inductive delay := Words (high low : Z) | Whole (t : Z).
Definition delay_of (i : iface) (lp64 : bool) (t : Z) : delay :=
  match i with
  | Vpi | Vhpi => Words (uint32 (Z.shiftr t 32)) (uint32 t)
  | Fli => if lp64 then Whole t else Words (sint32 (Z.shiftr t 32)) (uint32 t)
  end.
(** bind.cpp:328-383 [register_timed_callback] with enough arguments and a callable, up to the call of the simulator. *)
Definition register_timed (i : option iface) (lp64 : bool) (z : Z) : result delay :=
  match i with None => Err RuntimeError | Some i => bind (time_of z) (fun t => Ok (delay_of i lp64 t)) end.

(** ** Precision *)

(** VhpiImpl.cpp:79-86 [log10int]: the loop; [fuel] bounds its rounds, a number of 64 bits needs at most 20. *)
Fixpoint log10_loop (fuel : nat) (v i : Z) : Z :=
  match fuel with
  | O => i
  | S fuel => let v := v / 10 in let i := i + 1 in if v =? 0 then i else log10_loop fuel v i
  end.
Definition log10int (v : Z) : Z := log10_loop 20 v (-1).
(** VpiImpl.cpp:46-48, VhpiImpl.cpp:88-93, FliImpl.cpp:451-453 [get_sim_precision]; [answer]: what vpi_get or mti_GetResolutionLimit give, the resolution in femtoseconds
    for the VHPI (an unsigned number of 64 bits; the words of [vhpiPhysT] are put together). *)
Definition interface_precision (i : iface) (answer : Z) : Z :=
  match i with Vpi | Fli => answer | Vhpi => log10int answer - 15 end.
(** GpiCommon.cpp:316-325 [gpi_get_sim_precision]. *)
Definition clamp (val : Z) : Z :=
  let val := if 2 <? val then 2 else val in if val <? -15 then -15 else val.
(** bind.cpp:704-717 [get_precision]; [strict]: warnings are raised as errors (here a RuntimeError stands for RuntimeWarning). *)
Definition get_precision (i : option iface) (strict : bool) (answer : Z) : result Z :=
  match i with None => if strict then Err RuntimeError else Ok (-15) | Some i => Ok (clamp (interface_precision i answer)) end.

(** ** Name and version *)

(** std::string::find: the text before the first occurrence of [pat] and after it. *)
Fixpoint starts (pat s : pystr) : option pystr :=
  match pat, s with
  | [], _ => Some s
  | p :: pat, c :: s => if p =? c then starts pat s else None
  | _ :: _, [] => None
  end.
Fixpoint split_first (pat s : pystr) : option (pystr * pystr) :=
  match starts pat s with
  | Some rest => Some ([], rest)
  | None => match s with [] => None | c :: s => option_map (fun '(a, b) => (c :: a, b)) (split_first pat s) end
  end.
(** FliImpl.cpp:455-478; [info]: mti_GetProductVersion. *)
Definition fli_product (info : pystr) : pystr * pystr :=
  match split_first (lit " Version ") info with Some pv => pv | None => (info, lit "UNKNOWN") end.

(** ** Arguments *)

(** What Python gets: the list; words which were never written are read as pointers; words beyond the array are written. *)
Inductive arguments := Arguments_ (l : list pystr) | Unset | Beyond.
(** VpiImpl.cpp:50-79; [info]: vpi_get_vlog_info, None if it fails. *)
Definition vpi_args (info : option (list pystr)) : arguments := match info with Some l => Arguments_ l | None => Arguments_ [] end.
(** VhpiImpl.cpp:121-143; [tool]: None if there is none, else vhpiArgcP and what the iterator gives (None: no iterator). [reuse]: whether the strings which vhpi_get_str
    gives are all kept in one place, so that a later one replaces the earlier. A negative number of arguments is left out. *)
Definition vhpi_args (tool : option (nat * option (list pystr))) (reuse : bool) : arguments :=
  match tool with
  | None => Arguments_ []
  | Some (argc, items) =>
      let items := match items with Some l => l | None => [] end in
      if (argc <? List.length items)%nat then Beyond
      else if (List.length items <? argc)%nat then Unset
      else Arguments_ (if reuse then map (fun _ => last items []) items else items)
  end.
(** FliImpl.cpp:480-535; [elements]: None if mti_Cmd or Tcl_ListObjGetElements fail; then neither is set, and gpi_get_simulator_args (GpiCommon.cpp:762-765) does not
    say so to bind.cpp:742-765. *)
Definition fli_args (elements : option (list pystr)) : arguments := match elements with Some l => Arguments_ l | None => Unset end.

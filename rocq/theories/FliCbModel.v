(** Callbacks of the FLI: objects which are never deleted, but kept in caches with the simulator's processes they own and used again
    (share/lib/gpi/fli/FliCbHdl.cpp, FliImpl.hpp:20-160, FliImpl.cpp:595-652). *)
From Verif Require Import Base.
From Coq Require Import Arith String.
Open Scope string_scope.
Open Scope nat_scope.

(** gpi.h [gpi_edge]. *)
Inductive edge := Rising | Falling | AnyChange.
(** What is registered, with the fields which [set_time] and [set_signal_and_edge] write (FliImpl.hpp:88-95, 150-154). A signal is a number. *)
Inductive req := RTimer (time : Z) | RChange (signal : nat) (e : edge) | RReadWrite | RReadOnly | RNextTime.
(** The five caches (FliImpl.hpp:488-494): [m_timer_cache], [m_value_change_cache], [m_read_write_cache], [m_read_only_cache], [m_next_phase_cache]. *)
Inductive kind := KTimer | KChange | KReadWrite | KReadOnly | KNextTime.
(** The cache from which an object is acquired (FliImpl.cpp:599, 614, 628, 642; FliObjHdl.cpp:27-28) and to which its class releases it
    (FliCbHdl.cpp:148-166). *)
Definition kind_of (r : req) : kind :=
  match r with RTimer _ => KTimer | RChange _ _ => KChange | RReadWrite => KReadWrite | RReadOnly => KReadOnly | RNextTime => KNextTime end.
Definition kind_eqb (a b : kind) : bool :=
  match a, b with
  | KTimer, KTimer | KChange, KChange | KReadWrite, KReadWrite | KReadOnly, KReadOnly | KNextTime, KNextTime => true
  | _, _ => false
  end.
(** A callback object: the request, [m_removed] (FliImpl.hpp:113, 161; signals have none: false), and what [set_cb_info] writes
    (gpi_priv.hpp:159-162), the function and its data being one number. *)
Record cb := Cb { b_req : req; b_removed : bool; b_fn : nat }.
(** What the simulator has for the process of an object: a wakeup (mti_ScheduleWakeup64, mti_ScheduleWakeup: FliCbHdl.cpp:45, 122) or the
    signal to which it is sensitive (mti_Sensitize: 77). *)
Inductive want := Wake (time : Z) | Sense (signal : nat).
Definition want_of (r : req) : want := match r with RTimer t => Wake t | RChange s _ => Sense s | _ => Wake 0 end.
(** What is recorded: a registration with the object it gave; a removal; a call of the function; the end of the simulation being asked for. *)
Inductive ev := Registered (n : nat) (r : req) (f : nat) | Removed (n : nat) | Called (n : nat) (f : nat) | Ended.
(** Objects are numbered; [s_next] is also the number of processes made. [s_free]: the free lists, the back of the vector first.
    [s_run]: the objects whose function is being called, the innermost first. *)
Record st := St { s_objs : nat -> option cb; s_armed : nat -> option want; s_next : nat; s_free : kind -> list nat; s_run : list nat; s_log : list ev }.
Definition init : st := St (fun _ => None) (fun _ => None) 0 (fun _ => []) [] [].
Definition upd {A} (f : nat -> A) (n : nat) (a : A) : nat -> A := fun m => if m =? n then a else f m.
Definition set_free (f : kind -> list nat) (k : kind) (l : list nat) : kind -> list nat := fun j => if kind_eqb j k then l else f j.
Definition log (s : st) (e : ev) : st := St (s_objs s) (s_armed s) (s_next s) (s_free s) (s_run s) (e :: s_log s).

(** FliImpl.hpp:61-76 [acquire]: the last object released, or a new one. *)
Definition acquire (s : st) (k : kind) : nat * st :=
  match s_free s k with
  | n :: l => (n, St (s_objs s) (s_armed s) (s_next s) (set_free (s_free s) k l) (s_run s) (s_log s))
  | [] => (s_next s, St (s_objs s) (s_armed s) (S (s_next s)) (s_free s) (s_run s) (s_log s))
  end.
(** FliImpl.hpp:77 [release]. *)
Definition release (s : st) (k : kind) (n : nat) : st :=
  St (s_objs s) (s_armed s) (s_next s) (set_free (s_free s) k (n :: s_free s k)) (s_run s) (s_log s).
(** mti_Desensitize (FliCbHdl.cpp:106, 116), and a wakeup which has come. *)
Definition disarm (s : st) (n : nat) : st := St (s_objs s) (upd (s_armed s) n None) (s_next s) (s_free s) (s_run s) (s_log s).
(** FliImpl.cpp:595-652 and FliObjHdl.cpp:20-39: acquire, set, [arm] (FliCbHdl.cpp:41-54, 76-81, 121-126; they always return 0), set_cb_info.
    Variables, for which FliObjHdl.cpp:22-24 gives NULL, are left out. *)
Definition register (s : st) (r : req) (f : nat) : st :=
  let '(n, s) := acquire s (kind_of r) in
  log (St (upd (s_objs s) n (Some (Cb r false f))) (upd (s_armed s) n (Some (want_of r))) (s_next s) (s_free s) (s_run s) (s_log s)) (Registered n r f).
(** [remove] (FliCbHdl.cpp:67-74, 113-119, 139-146): a signal is given up and its object released; others can only be marked. *)
Definition remove (s : st) (n : nat) (c : cb) : st :=
  log match b_req c with
      | RChange _ _ => release (disarm s n) KChange n
      | r => St (upd (s_objs s) n (Some (Cb r true (b_fn c)))) (s_armed s) (s_next s) (s_free s) (s_run s) (s_log s)
      end (Removed n).
(** FliCbHdl.cpp:84-98; [value]: what get_signal_value_binstr gives. *)
Definition passes (e : edge) (value : pystr) : bool :=
  match e with Rising => pystr_eqb value (lit "1") | Falling => pystr_eqb value (lit "0") | AnyChange => true end.
(** Python is called by the object [n] (FliCbHdl.cpp:60, 102, 132). *)
Definition call (s : st) (n : nat) (c : cb) : st :=
  log (St (s_objs s) (s_armed s) (s_next s) (s_free s) (n :: s_run s) (s_log s)) (Called n (b_fn c)).
(** [run] up to the call (FliCbHdl.cpp:56-61, 83-102, 128-133), and to its end if there is no call. *)
Definition fire (s : st) (n : nat) (c : cb) (value : pystr) : st :=
  match b_req c with
  | RChange _ e => if passes e value then call s n c else s
  | r => let s := disarm s n in if b_removed c then release s (kind_of r) n else call s n c
  end.
(** The end of [run] once the function has returned [res] (FliCbHdl.cpp:62-64, 104-110, 134-136), and of handle_fli_callback (34-36:
    [gpi_end_of_sim_time]). *)
Definition return_ (s : st) (n : nat) (c : cb) (res : Z) : st :=
  let s := match b_req c with RChange _ _ => release (disarm s n) KChange n | r => release s (kind_of r) n end in
  if Z.eqb res 0 then s else log s Ended.
Definition pop (s : st) (l : list nat) : st := St (s_objs s) (s_armed s) (s_next s) (s_free s) l (s_log s).

(** What happens: Python registers, or removes a callback, at any time; the simulator runs the process of an object, which it does only for a
    wakeup or a signal; the function called last returns. None: cannot happen. *)
Inductive label := LReg (r : req) (f : nat) | LRem (n : nat) | LFire (n : nat) (value : pystr) | LReturn (res : Z).
Definition step (s : st) (l : label) : option st :=
  match l with
  | LReg r f => Some (register s r f)
  | LRem n => option_map (remove s n) (s_objs s n)
  | LFire n value => match s_armed s n, s_objs s n with Some _, Some c => Some (fire s n c value) | _, _ => None end
  | LReturn res => match s_run s with n :: l => option_map (fun c => return_ (pop s l) n c res) (s_objs s n) | [] => None end
  end.

(** What C88 (the current Task) means. *)
From Verif Require Import Base KernelModel KernelSpec.

(** The code of Task [t] has control: its coroutine runs, or it is being closed. *)
Definition has_control (s : st) (t : tid) : Prop := exists rest, s_ctl s = FRun t :: rest \/ s_ctl s = FClose t :: rest.
(** A done callback of [t] has control, [t] having ended by itself or by being killed. *)
Definition in_callback (s : st) (t : tid) : Prop := exists i k rest, s_ctl s = FDone t i k :: rest /\ k <> AfterKill.
Definition in_callback_killed (s : st) (t : tid) (below : list frame) : Prop := exists i, s_ctl s = FDone t i AfterKill :: below.
(** No [_cancel_now] while a coroutine waits for a call it has made to return (it can only be made by a done callback of a
    Task which that coroutine has killed). *)
Definition not_inside (s : st) (l : label) : Prop :=
  match l with LCancelNow _ _ => forall t, ~ In (FRun t) (s_ctl s) /\ ~ In (FClose t) (s_ctl s) | _ => True end.

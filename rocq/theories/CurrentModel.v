(** [current_task()]: /repo/src/cocotb/task.py:721-729, on top of the model of Tasks and the event loop. *)
From Verif Require Import Base KernelModel.

(** task.py:721-729 [current_task]; [None]: RuntimeError. *)
Definition current_task (s : st) : option tid := s_current s.

(** What is claimed about bridges. *)
From Verif Require Import Base KernelModel BridgeModel.
From Coq Require Import Arith.

(** Any execution. *)
Definition breach (ls : list blabel) (x : bst) : Prop := bexec (fun _ _ => True) binit ls x.
(** The thread of [t] cannot run: it was not created, it is over, or it waits for an event which is not set. *)
Definition at_rest (x : bst) (t : bid) : Prop :=
  b_th x t = TNone \/ b_th x t = TOver \/ exists w, b_th x t = TBlock w /\ b_flag x w = false.
(** [w] is a [resume] call of [t] whose Task is not over. *)
Definition outstanding (x : bst) (t : bid) (w : wid) : Prop := b_wr x w = Some (t, RSched) \/ b_wr x w = Some (t, RBegun).
(** How often the Task awaiting [t] got a result. *)
Definition gots (t : bid) (h : list bhist) : nat := length (filter (fun a => match a with HGot u _ => Nat.eqb u t | _ => false end) h).

(** Conditions on steps. The Task of a [resume] call does not end before its thread has called [thread_suspend]. *)
Definition prompt (x : bst) (l : blabel) : Prop :=
  forall w t r, l = BFinish w -> b_wr x w = Some (t, r) -> b_th x t = TBlock w.
(** A thread which is found to be over is the last one in [pending_threads]. *)
Definition in_order (x : bst) (l : blabel) : Prop :=
  forall i t, l = BMain -> b_main x = MWait i t -> b_st x t = WExit -> length (b_pend x) = S i.
(** A callback from the simulator which leaves no Task scheduled leaves no thread to be started or running. *)
Definition announced (x : bst) (l : blabel) : Prop :=
  l = BEnd -> b_main x = MReact -> b_queue x = [] -> forall t, In t (b_pend x) -> b_st x t = WPause.
Definition orderly (x : bst) (l : blabel) : Prop := prompt x l /\ in_order x l /\ announced x l.

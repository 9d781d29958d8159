(** What is claimed about wait, select, gather, First, Combine and with_timeout, in terms of the history: which calls were made
    with which waiters, and in which order Tasks were completed. *)
From Verif Require Import Base KernelModel KernelProofs KernelHist WaitModel.
From Coq Require Import Arith.

(** All executions, of any user code in which the simulator accepts its callbacks. *)
Definition sim_ok (x : wst) (l : wlabel) : Prop := match l with XUser (LAwait _ ok) => ok = true | _ => True end.
Definition wreach (ls : list wlabel) (x : wst) : Prop := wexec sim_ok winit ls x.

(** The last call made by Task [t]: the function, and the waiters in the order of the arguments. *)
Fixpoint last_call (t : tid) (h : list hist) : option (call * list tid) :=
  match h with
  | [] => None
  | HCall u c ts :: h' => if Nat.eqb u t then Some (c, ts) else last_call t h'
  | _ :: h' => last_call t h'
  end.

(** Whether a completion decides the call: any; one which is not a normal end; none. *)
Definition decides (w : return_when) (s : tstate) : bool :=
  match w with
  | FirstCompleted => true
  | FirstException => match s with Finished => false | _ => true end
  | AllCompleted => false
  end.
(** No waiter in [ts] was completed, in the history [l], in a way which decides the call. *)
Definition undecided (w : return_when) (ts : list tid) (l : list obs) : Prop :=
  forall v s o, In v ts -> In (ODone v s o) l -> decides w s = false.
(** [u] is the waiter whose completion decided the call. *)
Definition decided_by (w : return_when) (ts : list tid) (l : list obs) (u : tid) : Prop :=
  In u ts /\ exists later before s o, l = later ++ ODone u s o :: before /\ decides w s = true /\ undecided w ts before.

(** The Task which has control is [t], in library code. *)
Definition in_library (x : wst) (t : tid) : Prop :=
  y_cb x = None /\ exists p rest, y_pend x t = Some p /\ (s_ctl (y_k x) = FRun t :: rest \/ s_ctl (y_k x) = FClose t :: rest).

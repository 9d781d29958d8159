(** What is claimed about TaskManager, in terms of the history: who started, left and cancelled what. *)
From Verif Require Import Base KernelModel ManagerModel.
From Coq Require Import Arith.

(** All executions, of any user code in which the simulator accepts its callbacks. *)
Definition sim_ok (x : mst) (l : mlabel) : Prop := match l with XUser (LAwait _ ok) => ok = true | _ => True end.
Definition mreach (ls : list mlabel) (x : mst) : Prop := mexec sim_ok minit ls x.

(** [u] was started by manager [i], with [continue_on_error] being [b]. *)
Definition child (x : mst) (i : nat) (u : tid) (b : bool) : Prop := In (HStart i u b) (x_hist x).
(** The last block which Task [t] left, why, and whether the manager had cancelled its children by then. *)
Fixpoint last_exit (t : tid) (h : list hist) : option (nat * leave * bool) :=
  match h with
  | [] => None
  | HExit u i lv c :: h' => if Nat.eqb u t then Some (i, lv, c) else last_exit t h'
  | _ :: h' => last_exit t h'
  end.
(** What was thrown into the wait of line 273 since then ([None]: GeneratorExit). *)
Fixpoint thrown_since (t : tid) (h : list hist) : option (option exc) :=
  match h with
  | [] => None
  | HExit u _ _ _ :: h' => if Nat.eqb u t then None else thrown_since t h'
  | HThrown u _ e :: h' => if Nat.eqb u t then Some e else thrown_since t h'
  | _ :: h' => thrown_since t h'
  end.
(** The Task which entered the block of [i] last. *)
Fixpoint last_enter (i : nat) (h : list hist) : option tid :=
  match h with
  | [] => None
  | HEnter t j :: h' => if Nat.eqb j i then Some t else last_enter i h'
  | _ :: h' => last_enter i h'
  end.
(** The Tasks cancelled by [i], newest first. *)
Fixpoint cancelled_by (i : nat) (h : list hist) : list tid :=
  match h with
  | [] => []
  | HCancel j u :: h' => if Nat.eqb j i then u :: cancelled_by i h' else cancelled_by i h'
  | _ :: h' => cancelled_by i h'
  end.
(** [u] ended with exception [e] (not: was cancelled). *)
Definition failed (x : mst) (u : tid) (e : exc) : Prop :=
  state_of (x_k x) u = Errored /\ k_outcome (s_task (x_k x) u) = Some (OExc e).

(** [t] is in [__aexit__] and has control. *)
Definition in_exit (x : mst) (t : tid) : Prop :=
  x_cb x = None /\ x_pend x t <> None /\ exists rest, s_ctl (x_k x) = FRun t :: rest \/ s_ctl (x_k x) = FClose t :: rest.
(** [__aexit__] returns, raises the group, or lets the exception which it was given (or which was thrown into it) leave. *)
Definition leaves (r : mres) : bool := match r with TOk | TGroup _ | TReraise _ => true | _ => false end.
(** How the block was left: not with SystemExit or KeyboardInterrupt, nor closed; if the manager had cancelled its children by
    then, it has cancelled its parent as well, and it is that CancelledError which left the block. *)
Definition regular (lv : leave) (c : bool) : Prop :=
  match lv with
  | LvExc (EExit _) | LvClose => False
  | LvExc (ECancelled _) => True
  | _ => c = false
  end.
(** An exception other than CancelledError, SystemExit and KeyboardInterrupt. *)
Definition ordinary (e : exc) : Prop := match e with ECancelled _ | EExit _ => False | _ => True end.
(** All children of [i] are done. *)
Definition all_done (x : mst) (i : nat) : Prop := forall u b, child x i u b -> done (x_k x) u = true.
(** Some child of [i] ended with [e]. *)
Definition child_failed (x : mst) (i : nat) (e : exc) : Prop := exists u b, child x i u b /\ failed x u e.

(** Why [__aexit__] cancels the children: the block is left with an exception (an ordinary one, unless [context_continue_on_error] is
    set), or one is thrown into the wait of line 273. *)
Definition cancelling (context_continue : bool) (lv : leave) : Prop :=
  match lv with LvNone => False | LvClose => True | LvExc e => ordinary e -> context_continue = false end.
Definition exit_cause (x : mst) (i : nat) : Prop :=
  (exists t lv c, In (HExit t i lv c) (x_hist x) /\ cancelling (m_context (x_m x i)) lv) \/ exists t e, In (HThrown t i e) (x_hist x).
(** Why the callback does: a child without [continue_on_error] failed. *)
Definition child_cause (x : mst) (i : nat) : Prop := exists u e, child x i u false /\ failed x u e.

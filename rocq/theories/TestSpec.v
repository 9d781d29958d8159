(** What is claimed about TestManager, in terms of the history: which Tasks were registered and ended, what else happened. *)
From Verif Require Import Base KernelModel TestModel.
From Coq Require Import Arith.

(** All executions, of any user code in which the simulator accepts its callbacks. *)
Definition sim_ok (x : qst) (l : qlabel) : Prop := match l with XUser (LAwait _ ok) => ok = true | _ => True end.
Definition qreach (ls : list qlabel) (x : qst) : Prop := qexec sim_ok qinit ls x.
(** The same, without [kill()] of the Task of the test itself. *)
Definition unkilled (x : qst) (l : qlabel) : Prop :=
  sim_ok x l /\ forall t, l = XUser (LOp (OpKill t)) -> x_main x <> Some t.

(** The Tasks of the test: its own, and those given to [create_task] or [start_soon]. *)
Definition registered (x : qst) (u : tid) : Prop := In (HAdd u) (x_hist x).
(** [u] is the Task of the test itself. *)
Definition mainb (x : qst) (u : tid) : bool := match x_main x with Some m => Nat.eqb m u | None => false end.
(** The exception which ended [u], if there was one and [u] was not cancelled. *)
Definition error_of (k : st) (u : tid) : option exc :=
  match state_of k u, k_outcome (s_task k u) with Errored, Some (OExc e) => Some e | _, _ => None end.
(** EndTest. *)
Definition ends_early (e : exc) : Prop := e = EUser 0.

(** The failures which an event is: the end of the Task of the test with an exception, the end of another of its Tasks with an
    exception while no Task awaited it, the timeout, the call [cancel()]. *)
Definition failure_of (x : qst) (h : hist) : list failure :=
  match h with
  | HEnd u aw =>
      if mainb x u || negb aw then
        match error_of (x_k x) u with Some (EUser O) | None => [] | Some e => [FExc e] end
      else []
  | HTimeout => [FTimeout]
  | HCancel m => [FCancelled m]
  | _ => []
  end.
(** The failures in a history, oldest first. *)
Definition failures (x : qst) (h : list hist) : list failure := flat_map (failure_of x) (rev h).
(** None, the single failure, or the group of all. *)
Definition report_is (r : report) (fs : list failure) : Prop :=
  match r with RNone => fs = [] | ROne f => fs = [f] | RGroup gs => fs = gs /\ 2 <= length gs end.

(** Events which end the test. *)
Definition ends_test (x : qst) (h : hist) : Prop :=
  match h with
  | HEnd u aw => x_main x = Some u \/ (aw = false /\ error_of (x_k x) u <> None)
  | HTimeout | HCancel _ => True
  | _ => False
  end.

(** How often completion was signalled. *)
Definition signals (h : list hist) : nat := length (filter (fun a => match a with HComplete _ => true | _ => false end) h).

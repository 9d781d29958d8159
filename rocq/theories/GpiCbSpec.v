(** Callbacks of the simulator: what is claimed about them. *)
From Verif Require Import Base GpiCbModel.
From Coq Require Import Arith.
Open Scope nat_scope.

(** Executions whose steps all satisfy a condition. *)
Inductive execP (v : bool) (P : st -> label -> Prop) : st -> list label -> st -> Prop :=
| execP_nil s : execP v P s [] s
| execP_cons s l s1 ls s' : P s l -> step v s l = Some s1 -> execP v P s1 ls s' -> execP v P s (l :: ls) s'.
(** No error has occurred. *)
Definition faultless (s : st) : Prop := forall f o, ~ In (Fault f o) (c_log s).

(** The simulator does not call, within a callback, one which waits in the queue already, or the one which is being handled. *)
Definition no_double (s : st) (l : label) : Prop :=
  match l, c_ctl s with LFire o _ _ _, Py _ _ => ~ In o (c_queue s) | _, _ => True end.
Definition no_self (s : st) (l : label) : Prop :=
  match l, c_ctl s with LFire o _ _ _, Py r _ => r <> Some o | _, _ => True end.
(** Python does not stop to wait for a trigger whose callback waits in the queue. *)
Definition no_late (s : st) (l : label) : Prop :=
  match l with
  | LDereg t _ => c_cbs s t = 1 -> forall h, c_hdl s t = Some h -> ~ In h (c_queue s)
  | _ => True
  end.
Definition calm (v : bool) (s : st) (l : label) : Prop := no_double s l /\ no_self s l /\ (v = true \/ no_late s l).
(** The simulator accepts all callbacks. *)
Definition accepted (l : label) : Prop := match l with LReg _ _ ok => ok = true | _ => True end.
(** How often the function of a callback was called or it was deregistered. *)
Definition about (o : nat) (e : ev) : bool := match e with Called p | Gone p => p =? o | Fault _ _ => false end.
Definition uses (o : nat) (l : list ev) : nat := length (filter (about o) l).
(** Its Python function is being executed. *)
Definition running (s : st) (o : nat) : Prop := exists q, c_ctl s = Py (Some o) q.

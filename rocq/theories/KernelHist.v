(** The history of the scheduler kernel: what it records. *)
From Verif Require Import Base KernelModel KernelProofs.
From Coq Require Import Arith Sorted.

(** Readings of a history (newest entry first). *)
Definition ended (t : tid) (l : list obs) : Prop := exists x o, In (ODone t x o) l.

(** The acquisition which holds lock [k]. *)
Fixpoint holder (k : nat) (l : list obs) : option nat :=
  match l with
  | [] => None
  | OHold j n :: l' => if Nat.eqb j k then Some n else holder k l'
  | OFree j :: l' => if Nat.eqb j k then None else holder k l'
  | _ :: l' => holder k l'
  end.

(** The run queue, obtained by replaying the history: every entry taken is the first one. *)
Fixpoint replay (l : list obs) : option (list (nat * tid)) :=
  match l with
  | [] => Some []
  | OSched h t :: l' => match replay l' with Some q => Some (q ++ [(h, t)]) | None => None end
  | OSchedLeft h t :: l' => match replay l' with Some q => Some ((h, t) :: q) | None => None end
  | OPop h t _ :: l' =>
      match replay l' with
      | Some ((h', t') :: q) => if Nat.eqb h h' && Nat.eqb t t' then Some q else None
      | _ => None
      end
  | _ :: l' => replay l'
  end.

(** What may be recorded after [l]: nothing about a Task which is done, locks are handed over only
    when free, only held locks are released, and blocking callbacks get increasing handles. *)
Definition entry_ok (o : obs) (l : list obs) : Prop :=
  match o with
  | OSched _ t | OSchedLeft _ t | OPop _ t true | OResume t _ | ODone t _ _ | OGot t _ _ =>
      ~ ended t l
  | OBlock t _ h => ~ ended t l /\ (forall u tr j, In (OBlock u tr j) l -> j < h)
  | OHold k _ => holder k l = None
  | OFree k => holder k l <> None
  | _ => True
  end.
Fixpoint log_ok (l : list obs) : Prop :=
  match l with [] => True | o :: l' => entry_ok o l' /\ log_ok l' end.

Record LG (X : list tid) (s : st) : Prop := {
  G_ok : log_ok (s_log s);
  G_act : forall t, done s t = false -> ~ ended t (s_log s);
  G_rec : forall t, done s t = true ->
    exists o, k_outcome (s_task s t) = Some o /\ In (ODone t (state_of s t) o) (s_log s);
  G_fifo : replay (s_log s) = Some (map (fun q => (q_id q, q_task q)) (s_queue s));
  G_blk : forall t tr h, In (OBlock t tr h) (s_log s) -> h < s_next s;
  G_cbs : forall tr h t, In (h, t) (s_cbs s tr) -> In (OBlock t tr h) (s_log s);
  G_got : forall t u o, In (OGot t u o) (s_log s) ->
    exists v, o = Some v /\ k_outcome (s_task s u) = Some v;
  G_hold : forall k, holder k (s_log s) = l_current (s_lock s k);
  G_w1 : forall t, state_of s t = Unstarted -> k_wait (s_task s t) = WTrig;
  G_w2 : forall t u, ~ In t X -> state_of s t = Pending -> k_wait (s_task s t) = WTask u ->
    exists h, k_tcb (s_task s t) = Some (TComplete u, h) \/ k_tcb (s_task s t) = Some (TJoin u, h);
  G_w3 : forall t u, state_of s t = Scheduled -> k_exc (s_task s t) = None ->
    k_wait (s_task s t) = WTask u -> done s u = true }.


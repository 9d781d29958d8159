(** What is claimed about the scheduler kernel, in terms of its observable state and history. *)
From Verif Require Import Base KernelModel KernelProofs KernelHist.
From Coq Require Import Arith Sorted.

(** Executions each step of which meets a condition on the state and the label. *)
Inductive execP (P : st -> label -> Prop) : st -> list label -> st -> Prop :=
| execP_nil s : execP P s [] s
| execP_step s l s1 r ls s2 :
    P s l -> step s l = Some (s1, r) -> execP P s1 ls s2 -> execP P s (l :: ls) s2.

(** The simulator never refuses a callback (see [C17_prime_refuted] for what happens if it does). *)
Definition sim_ok (s : st) (l : label) : Prop := match l with LAwait _ ok => ok = true | _ => True end.
(** The states which can occur. *)
Definition reach (ls : list label) (s : st) : Prop := execP sim_ok init ls s.

(** * Where a Task is *)
Definition live_for (t : tid) (q : qent) : bool := Nat.eqb (q_task q) t && negb (q_cancelled q).
Definition slots (s : st) (t : tid) : nat := length (filter (live_for t) (s_queue s)).
Definition regs (s : st) (t : tid) (tr : trig) : nat :=
  length (filter (fun c => Nat.eqb (snd c) t) (s_cbs s tr)).
Definition active (t : tid) (f : frame) : bool :=
  match f with FRun u | FClose u => Nat.eqb u t | FDone _ _ _ => false end.
Definition frames (s : st) (t : tid) : nat := length (filter (active t) (s_ctl s)).

Definition one_place (s : st) (t : tid) : Prop :=
  match state_of s t with
  | Unstarted | Finished | Errored | Cancelled =>
      slots s t = 0 /\ (forall tr, regs s t tr = 0) /\ frames s t = 0
  | Scheduled => slots s t = 1 /\ (forall tr, regs s t tr = 0) /\ frames s t = 0
  | Pending => slots s t = 0 /\ frames s t = 0 /\
      exists tr, regs s t tr = 1 /\ forall tr', tr' <> tr -> regs s t tr' = 0
  | Running => slots s t = 0 /\ (forall tr, regs s t tr = 0) /\ frames s t = 1
  end.

(** * Completion *)
(** The done callbacks of [t] registered by an execution. *)
Fixpoint added (t : tid) (ls : list label) : list nat :=
  match ls with
  | [] => []
  | LOp (OpAddDone u c) :: ls' => (if Nat.eqb u t then [c] else []) ++ added t ls'
  | _ :: ls' => added t ls'
  end.
(** [_set_outcome] of [t] is calling the callbacks. *)
Definition completing (s : st) (t : tid) : bool :=
  existsb (fun f => match f with FDone u _ _ => Nat.eqb u t | _ => false end) (s_ctl s).
(** No callback is registered on [t] while the callbacks of [t] are being called. *)
Definition calm (t : tid) (s : st) (l : label) : Prop :=
  sim_ok s l /\ forall c, l = LOp (OpAddDone t c) -> completing s t = false.
(** The callbacks of [t] called, oldest first (history: newest first). *)
Fixpoint called (t : tid) (l : list obs) : list nat :=
  match l with
  | [] => []
  | OCall u c :: l' => called t l' ++ (if Nat.eqb u t then [c] else [])
  | _ :: l' => called t l'
  end.
Definition completions (t : tid) (l : list obs) : nat :=
  length (filter (fun o => match o with ODone u _ _ => Nat.eqb u t | _ => false end) l).
(** An entry about [t] being ready, running, blocked or completed. *)
Definition about (t : tid) (o : obs) : Prop :=
  match o with
  | OSched _ u | OSchedLeft _ u | OPop _ u true | OResume u _ | OGot u _ _ | OBlock u _ _
  | ODone u _ _ => u = t
  | _ => False
  end.

(** * Cancellation *)
(** Neither un-cancelled nor killed. *)
Definition left_alone (t : tid) (s : st) (l : label) : Prop :=
  sim_ok s l /\ l <> LOp (OpUncancel t) /\ l <> LOp (OpKill t).
Definition ended_by_cancel (s : st) (t : tid) : Prop :=
  (exists m, state_of s t = Cancelled /\ py_result s t = Raises (ECancelled m)) \/
  (state_of s t = Errored /\ py_result s t = Raises EIgnoredCancel) \/
  (exists n, state_of s t = Errored /\ py_result s t = Raises (EExit n)).

(** * Order *)
Fixpoint scheds (l : list obs) : list (nat * tid) :=
  match l with
  | [] => []
  | OSched h t :: l' => scheds l' ++ [(h, t)]
  | _ :: l' => scheds l'
  end.
Fixpoint lefts (l : list obs) : list (nat * tid) :=
  match l with
  | [] => []
  | OSchedLeft h t :: l' => lefts l' ++ [(h, t)]
  | _ :: l' => lefts l'
  end.
Fixpoint pops (l : list obs) : list (nat * tid) :=
  match l with
  | [] => []
  | OPop h t _ :: l' => pops l' ++ [(h, t)]
  | _ :: l' => pops l'
  end.
(** The callbacks registered on [tr], oldest first. *)
Fixpoint blocks (tr : trig) (l : list obs) : list (nat * tid) :=
  match l with
  | [] => []
  | OBlock t x h :: l' => blocks tr l' ++ (if trig_eqb x tr then [(h, t)] else [])
  | _ :: l' => blocks tr l'
  end.
Inductive sublist {A} : list A -> list A -> Prop :=
| sub_nil l : sublist [] l
| sub_skip x l l' : sublist l l' -> sublist l (x :: l')
| sub_keep x l l' : sublist l l' -> sublist (x :: l) (x :: l').
Definition queued (s : st) : list (nat * tid) := map (fun q => (q_id q, q_task q)) (s_queue s).
Definition waiters (s : st) (tr : trig) : list tid := map snd (s_cbs s tr).

(** The triggers [trs] fire: their waiters become ready, at the end of the queue, in the order they
    blocked. *)
Definition wakes_all (s s' : st) (trs : list trig) : Prop :=
  (forall tr, In tr trs -> s_cbs s' tr = []) /\
  (exists q, s_queue s' = s_queue s ++ q /\ map q_task q = flat_map (waiters s) trs /\
     forall e, In e q -> q_cancelled e = false) /\
  forall tr t, In tr trs -> In t (waiters s tr) ->
    state_of s' t = Scheduled /\ k_exc (s_task s' t) = None.

(** * Locks *)
Definition handovers (k : nat) (l : list obs) : nat :=
  length (filter (fun o => match o with OHold j _ => Nat.eqb j k | _ => false end) l).
Definition releases (k : nat) (l : list obs) : nat :=
  length (filter (fun o => match o with OFree j => Nat.eqb j k | _ => false end) l).
(** The last trigger on which [t] blocked. *)
Fixpoint last_block (t : tid) (l : list obs) : option (trig * nat) :=
  match l with
  | [] => None
  | OBlock u tr h :: l' => if Nat.eqb u t then Some (tr, h) else last_block t l'
  | _ :: l' => last_block t l'
  end.
(** [await lock.acquire()] has returned: its Task was resumed, nothing thrown. *)
Fixpoint acquired (k : nat) (l : list obs) : list (tid * nat) :=
  match l with
  | [] => []
  | OResume t None :: l' =>
      match last_block t l' with
      | Some (TLock j n, _) => if Nat.eqb j k then (t, n) :: acquired k l' else acquired k l'
      | _ => acquired k l'
      end
  | _ :: l' => acquired k l'
  end.

(** Running a list of labels (for the examples). *)
Fixpoint run (s : st) (ls : list label) : option st :=
  match ls with
  | [] => Some s
  | l :: ls' => match step s l with Some (s1, _) => run s1 ls' | None => None end
  end.

(** Nobody cancels or kills a Task which has been handed Lock [k] and has not run since. *)
Definition handed (s : st) (k : nat) (t : tid) (n : nat) : Prop :=
  state_of s t = Scheduled /\ k_exc (s_task s t) = None /\
  exists h, last_block t (s_log s) = Some (TLock k n, h).
Definition undisturbed (k : nat) (s : st) (l : label) : Prop :=
  sim_ok s l /\
  forall t n, handed s k t n ->
    l <> LOp (OpKill t) /\ forall m, l <> LOp (OpCancel t m) /\ l <> LCancelNow t m.

(** For the examples: executions which can be computed. *)
Fixpoint runs (ok : st -> label -> bool) (s : st) (ls : list label) : bool :=
  match ls with
  | [] => true
  | l :: ls' => ok s l && match step s l with Some (s1, _) => runs ok s1 ls' | None => false end
  end.
Definition final (s : st) (ls : list label) : st := match run s ls with Some s' => s' | None => s end.
Definition sim_okb (s : st) (l : label) : bool := match l with LAwait _ ok => ok | _ => true end.

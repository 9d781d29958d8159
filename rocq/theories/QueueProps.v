(** C25, C26, C27: the queues. *)
From Verif Require Import Base KernelModel KernelProofs KernelHist KernelSpec QueueModel HeapProofs QueueSpec QueueProofs QueueWake.
From Coq Require Import Arith ZArith Permutation.

(** * C25 *)
(** Queue: what has been got, followed by the contents, is what has been put: in order, nothing lost or repeated. *)
Theorem C25_fifo : forall A (lt : A -> A -> bool) kinds ls x n,
  qreach lt kinds ls x -> fst (kinds n) = KFifo -> puts n (x_hist x) = gets n (x_hist x) ++ q_items (x_q x n).
Proof. intros A lt kinds ls x n R K. exact (g_fifo _ _ (good_exec _ _ _ _ _ _ R (good_init kinds)) n K). Qed.
Print Assumptions C25_fifo.

(** LifoQueue: a stack. *)
Theorem C25_lifo : forall A (lt : A -> A -> bool) kinds ls x n,
  qreach lt kinds ls x -> fst (kinds n) = KLifo -> stacked n (x_hist x) (rev (q_items (x_q x n))).
Proof. intros A lt kinds ls x n R K. exact (g_lifo _ _ (good_exec _ _ _ _ _ _ R (good_init kinds)) n K). Qed.
Print Assumptions C25_lifo.

(** Any kind of queue: the items put are those got and those still there. *)
Theorem C25_nothing_lost : forall A (lt : A -> A -> bool) kinds ls x n, ordered lt ->
  qreach lt kinds ls x -> Permutation (puts n (x_hist x)) (gets n (x_hist x) ++ q_items (x_q x n)).
Proof.
  intros A lt kinds ls x n O R. apply (nothing_lost lt kinds).
  - exact (good_exec _ _ _ _ _ _ R (good_init kinds)).
  - exact (sorted_exec _ _ _ _ _ _ O R (good_init kinds) (sorted_init lt kinds)).
Qed.
Print Assumptions C25_nothing_lost.

Theorem C25_capacity : forall A (lt : A -> A -> bool) kinds ls x n,
  qreach lt kinds ls x -> (0 < snd (kinds n))%Z -> (Z.of_nat (length (q_items (x_q x n))) <= snd (kinds n))%Z.
Proof. intros A lt kinds ls x n R K. exact (g_cap _ _ (good_exec _ _ _ _ _ _ R (good_init kinds)) n K). Qed.
Print Assumptions C25_capacity.

(** The history is what the calls report: an item goes in exactly when a [put] returns, out exactly when a [get] returns
    it; nothing changes when a call blocks, fails or is cancelled. *)
Theorem C25_reported : forall A (lt : A -> A -> bool) x l x' r, qstep lt x l = Some (x', r) ->
  match r with
  | QNone => exists n a, puts_now x l n a /\ x_hist x' = HPut n a :: x_hist x
  | QItem a => exists n, gets_now x l n /\ x_hist x' = HGet n a :: x_hist x
  | _ => x_hist x' = x_hist x /\ forall n, q_items (x_q x' n) = q_items (x_q x n)
  end.
Proof. intros A lt x l x' r. exact (qstep_reported lt x l x' r). Qed.
Print Assumptions C25_reported.

(** [put_nowait] raises QueueFull exactly when the queue is full, and then changes nothing. *)
Theorem C25_put_nowait : forall A (lt : A -> A -> bool) kinds ls x n a,
  qreach lt kinds ls x -> s_halt (x_k x) = false -> user_control x = true ->
  exists x' r, qstep lt x (XPutNow n a) = Some (x', r) /\
    ((0 < snd (kinds n) /\ Z.of_nat (length (q_items (x_q x n))) = snd (kinds n))%Z /\ r = QFull /\ x' = x \/
     (snd (kinds n) <= 0 \/ Z.of_nat (length (q_items (x_q x n))) < snd (kinds n))%Z /\ r = QNone).
Proof.
  intros A lt kinds ls x n a R H U. pose proof (good_exec _ _ _ _ _ _ R (good_init kinds)) as G.
  unfold qstep. rewrite H, U. unfold put_nowait, full. rewrite (g_max _ _ G).
  destruct (Z.leb_spec (snd (kinds n)) 0) as [L|L].
  - destruct (wakeup_next _ _). eexists _, _. split; [reflexivity|]. right. auto.
  - pose proof (g_cap _ _ G n L) as C. destruct (Z.leb_spec (snd (kinds n)) (Z.of_nat (length (q_items (x_q x n))))) as [F|F].
    + eexists _, _. split; [reflexivity|]. left. split; [lia|auto].
    + destruct (wakeup_next _ _). eexists _, _. split; [reflexivity|]. right. auto.
Qed.
Print Assumptions C25_put_nowait.

(** [get_nowait] raises QueueEmpty exactly when the queue is empty; otherwise it returns an item (no IndexError). *)
Theorem C25_get_nowait : forall A (lt : A -> A -> bool) (x : qst A) n,
  s_halt (x_k x) = false -> user_control x = true ->
  exists x' r, qstep lt x (XGetNow n) = Some (x', r) /\
    (q_items (x_q x n) = [] /\ r = QEmpty /\ x' = x \/ q_items (x_q x n) <> [] /\ exists a, r = QItem a).
Proof.
  intros A lt x n H U. unfold qstep. rewrite H, U. unfold get_nowait, empty.
  destruct (Nat.eqb_spec (length (q_items (x_q x n))) 0) as [E|E].
  - eexists _, _. split; [reflexivity|]. left. apply length_zero_iff_nil in E. auto.
  - assert (N : q_items (x_q x n) <> []) by (intros Z; now rewrite Z in E).
    destruct (get_item_some lt (q_kind (x_q x n)) _ N) as (a & l & ->). destruct (wakeup_next _ _).
    eexists _, _. split; [reflexivity|]. right. eauto.
Qed.
Print Assumptions C25_get_nowait.

(** * C26 *)
(** Each item got from a PriorityQueue was least among those in it. *)
Theorem C26_served_in_order : forall A (lt : A -> A -> bool) kinds ls x n, ordered lt ->
  qreach lt kinds ls x -> fst (kinds n) = KPriority ->
  exists l, served lt n (x_hist x) l /\ Permutation l (q_items (x_q x n)).
Proof.
  intros A lt kinds ls x n O R K.
  exact (g_served _ _ _ (sorted_exec _ _ _ _ _ _ O R (good_init kinds) (sorted_init lt kinds)) n K).
Qed.
Print Assumptions C26_served_in_order.

(** One [get]: a least item, and one occurrence of it is removed. *)
Theorem C26_least : forall A (lt : A -> A -> bool) kinds ls x l x' a, ordered lt ->
  qreach lt kinds ls x -> qstep lt x l = Some (x', QItem a) ->
  exists n, gets_now x l n /\
    (fst (kinds n) = KPriority ->
     Permutation (q_items (x_q x n)) (a :: q_items (x_q x' n)) /\ forall b, In b (q_items (x_q x n)) -> lt b a = false).
Proof.
  intros A lt kinds ls x l x' a O R St.
  assert (G := good_exec _ _ _ _ _ _ R (good_init kinds)).
  assert (S := sorted_exec _ _ _ _ _ _ O R (good_init kinds) (sorted_init lt kinds)).
  destruct (qstep_reported lt _ _ _ _ St) as (n & Gn & Eh). exists n. split; [exact Gn|]. intro K.
  pose proof (qstep_effect lt _ _ _ _ St) as E.
  inversion E as [y r _ _ _ N Ey Er|y m b _ _ _ _ _ _ Ey Er|y m b _ _ Eg _ Eh' Ey Er]; subst.
  - now elim (N a).
  - rewrite Eh in Eh'. injection Eh' as <-. rewrite (g_kind _ _ G n), K in Eg. cbn [get_item] in Eg.
    destruct (heappop_ok lt O (q_items (x_q x n)) (g_heap _ _ _ S n K)) as (b & l' & Eb & P & _ & M).
    + intro Z. rewrite Z in Eg. discriminate.
    + rewrite Eb in Eg. assert (b = a /\ l' = q_items (x_q x' n)) as [-> ->] by (split; congruence). auto.
Qed.
Print Assumptions C26_least.

(** * C27 *)
(** Once all ready Tasks have run, a Task inside [get] is blocked and its queue is empty; a Task inside [put] is blocked
    and its queue is full. Provided the Tasks inside are not disturbed. *)
Theorem C27_no_lost_wakeup_partial : forall A (lt : A -> A -> bool) kinds ls x,
  qexec lt undisturbed_q (qinit kinds) ls x -> all_ran x ->
  forall u p, inside x u p ->
    state_of (x_k x) u = Pending /\
    match p with InGet n => q_items (x_q x n) = [] | InPut n _ => full (x_q x n) = true end.
Proof.
  intros A lt kinds ls x E. destruct (qi_init (A := A) kinds) as [B D].
  destruct (qexec_ok lt _ _ _ E B D) as [B' D']. now apply settled.
Qed.
Print Assumptions C27_no_lost_wakeup_partial.

(** * Examples *)
Definition kinds0 (n : nat) : kind * Z := match n with 0 => (KFifo, 1%Z) | 1 => (KPriority, 0%Z) | _ => (KLifo, 0%Z) end.
Notation K o := (XUser (LOp o)).
Notation U l := (XUser l).
(** Task 1 gets twice, Task 2 puts twice: both block in turn. *)
Definition ex_fifo : list (qlabel nat) :=
  [K (OpStart 1); K (OpStart 2); U LPop; XGet 0; U LPop; XPut 0 5; XPut 0 6; U LPop; XGoOn; XGet 0; U LPop; XGoOn].
Definition ex_fifo_end := Eval vm_compute in qrun Nat.ltb (qinit kinds0) ex_fifo.
Example C25_ex_fifo : exists x, qreach Nat.ltb kinds0 ex_fifo x /\ puts 0 (x_hist x) = [5; 6] /\ gets 0 (x_hist x) = [5] /\
  inside x 1 (InGet 0) /\ state_of (x_k x) 1 = Scheduled.
Proof.
  destruct ex_fifo_end as [x|] eqn:E; [|discriminate]. exists x.
  split; [apply qrun_exec; vm_compute; exact E|]. injection E as <-. vm_compute. auto.
Qed.
Definition ex_more : list (qlabel nat) :=
  [XPutNow 1 4; XPutNow 1 2; XPutNow 1 9; XPutNow 1 2; XGetNow 1; XGetNow 1; XGetNow 1; XPutNow 2 1; XPutNow 2 3; XGetNow 2; XPutNow 2 7].
Definition ex_more_end := Eval vm_compute in qrun Nat.ltb (qinit kinds0) ex_more.
Example C26_ex : exists x, qreach Nat.ltb kinds0 ex_more x /\ gets 1 (x_hist x) = [2; 2; 4] /\ q_items (x_q x 1) = [9] /\
  gets 2 (x_hist x) = [3] /\ q_items (x_q x 2) = [1; 7].
Proof.
  destruct ex_more_end as [x|] eqn:E; [|discriminate]. exists x.
  split; [apply qrun_exec; vm_compute; exact E|]. injection E as <-. vm_compute. auto.
Qed.
Example C26_ex_order : ordered Nat.ltb.
Proof.
  split; [intros x y H; apply Nat.ltb_lt in H; apply Nat.ltb_ge; lia|].
  intros x y z H1 H2. apply Nat.ltb_ge in H1, H2. apply Nat.ltb_ge. lia.
Qed.
(** The hypotheses of C27: a getter and a putter left blocked when everything has run. *)
Definition ex_calm : list (qlabel nat) :=
  [K (OpStart 1); K (OpStart 2); U LPop; XGet 2; U LPop; XPut 0 5; XPut 0 6].
Definition ex_calm_end := Eval vm_compute in qruns Nat.ltb quiet (qinit kinds0) ex_calm.
Example C27_ex : exists x, qexec Nat.ltb undisturbed_q (qinit kinds0) ex_calm x /\ all_ran x /\
  inside x 1 (InGet 2) /\ inside x 2 (InPut 0 6).
Proof.
  destruct ex_calm_end as [x|] eqn:E; [|discriminate]. exists x.
  split; [apply (qruns_exec _ quiet); [exact quiet_ok|vm_compute; exact E]|]. injection E as <-. split; [|vm_compute; auto].
  split; [reflexivity|]. intros e [].
Qed.

(** * With cancellation *)
(** A getter which has been woken is cancelled before it runs: its wake-up is lost, and another getter stays blocked
    although the queue has an item. *)
Definition getters2 : list (qlabel nat) :=
  [K (OpStart 1); K (OpStart 2); K (OpStart 3); U LPop; XGet 0; U LPop; XGet 0; U LPop].
Definition bad_cancel : list (qlabel nat) :=
  getters2 ++ [XPutNow 0 7; K (OpCancel 1 0); U (LReturn 0); U LDoneNext; U LPop; XGoOn; U (LRaise (ECancelled 0)); U LDoneNext].
Definition bad_cancel_end := Eval vm_compute in qrun Nat.ltb (qinit kinds0) bad_cancel.
Theorem C27_cancel_refuted : exists ls (x : qst nat) u n,
  qreach Nat.ltb kinds0 ls x /\ all_ran x /\ inside x u (InGet n) /\ q_items (x_q x n) <> [].
Proof.
  destruct bad_cancel_end as [x|] eqn:E; [|discriminate]. exists bad_cancel, x, 2, 0.
  split; [apply qrun_exec; vm_compute; exact E|]. injection E as <-. split; [split; [reflexivity|intros e []]|].
  split; [vm_compute; auto|vm_compute; discriminate].
Qed.
Print Assumptions C27_cancel_refuted.
(** A getter is cancelled, and an item is put before it runs: the wake-up goes to the cancelled Task. *)
Definition bad_absorb : list (qlabel nat) :=
  getters2 ++ [K (OpCancel 1 0); XPutNow 0 7; U (LReturn 0); U LDoneNext; U LPop; XGoOn; U (LRaise (ECancelled 0)); U LDoneNext].
Definition chk_blocked (x : qst nat) (l : qlabel nat) : bool :=
  match l with
  | XUser (LOp (OpCancel u _)) => tstate_eqb (state_of (x_k x) u) Pending
  | XUser (LOp (OpKill _)) | XUser (LCancelNow _ _) => false
  | _ => true
  end.
Lemma chk_blocked_ok x l : chk_blocked x l = true -> cancels_blocked x l.
Proof.
  destruct l as [kl|n a|n|n a|n|]; try exact (fun _ => Logic.I). destruct kl; try exact (fun _ => Logic.I); cbn; [|discriminate].
  destruct o; try exact (fun _ => Logic.I); [|discriminate]. destruct (state_of (x_k x) t); auto; discriminate.
Qed.
Definition bad_absorb_end := Eval vm_compute in qruns Nat.ltb chk_blocked (qinit kinds0) bad_absorb.
Theorem C27_absorb_refuted : exists ls (x : qst nat) u n,
  qexec Nat.ltb cancels_blocked (qinit kinds0) ls x /\ all_ran x /\ inside x u (InGet n) /\ q_items (x_q x n) <> [].
Proof.
  destruct bad_absorb_end as [x|] eqn:E; [|discriminate]. exists bad_absorb, x, 2, 0.
  split; [apply (qruns_exec _ chk_blocked); [exact chk_blocked_ok|vm_compute; exact E]|]. injection E as <-.
  split; [split; [reflexivity|intros e []]|]. split; [vm_compute; auto|vm_compute; discriminate].
Qed.
Print Assumptions C27_absorb_refuted.
(** Likewise when the woken getter is killed, without any cancellation. *)
Definition bad_kill : list (qlabel nat) :=
  getters2 ++ [XPutNow 0 7; K (OpKill 1); U LDoneNext; U (LReturn 0); U LDoneNext; U LPop].
Definition chk_kill (x : qst nat) (l : qlabel nat) : bool :=
  match l with XUser (LOp (OpCancel _ _)) | XUser (LCancelNow _ _) => false | _ => true end.
Lemma chk_kill_ok x l : chk_kill x l = true -> no_cancels x l.
Proof.
  destruct l as [kl|n a|n|n a|n|]; try exact (fun _ => Logic.I). destruct kl; try exact (fun _ => Logic.I); cbn; [|discriminate].
  destruct o; try exact (fun _ => Logic.I); discriminate.
Qed.
Definition bad_kill_end := Eval vm_compute in qruns Nat.ltb chk_kill (qinit kinds0) bad_kill.
Theorem C27_kill_refuted : exists ls (x : qst nat) u n,
  qexec Nat.ltb no_cancels (qinit kinds0) ls x /\ all_ran x /\ inside x u (InGet n) /\ q_items (x_q x n) <> [].
Proof.
  destruct bad_kill_end as [x|] eqn:E; [|discriminate]. exists bad_kill, x, 2, 0.
  split; [apply (qruns_exec _ chk_kill); [exact chk_kill_ok|vm_compute; exact E]|]. injection E as <-.
  split; [split; [reflexivity|intros e []]|]. split; [vm_compute; auto|vm_compute; discriminate].
Qed.
Print Assumptions C27_kill_refuted.
(** Same for putters: one woken by a [get] and cancelled before it runs leaves the other blocked with room in the queue. *)
Definition bad_putter : list (qlabel nat) :=
  [K (OpStart 1); K (OpStart 2); K (OpStart 3); XPutNow 0 1; U LPop; XPut 0 2; U LPop; XPut 0 3; U LPop; XGetNow 0; K (OpCancel 1 0);
   U (LReturn 0); U LDoneNext; U LPop; XGoOn; U (LRaise (ECancelled 0)); U LDoneNext].
Definition bad_putter_end := Eval vm_compute in qrun Nat.ltb (qinit kinds0) bad_putter.
Theorem C27_putter_refuted : exists ls (x : qst nat) u n a,
  qreach Nat.ltb kinds0 ls x /\ all_ran x /\ inside x u (InPut n a) /\ full (x_q x n) = false.
Proof.
  destruct bad_putter_end as [x|] eqn:E; [|discriminate]. exists bad_putter, x, 2, 0, 3.
  split; [apply qrun_exec; vm_compute; exact E|]. injection E as <-. split; [split; [reflexivity|intros e []]|].
  split; vm_compute; auto.
Qed.
Print Assumptions C27_putter_refuted.

(** C28, C29, C30 and part of C56: wait, select, gather, First, Combine and with_timeout. *)
From Verif Require Import Base KernelModel KernelProofs KernelHist KernelStack WaitModel WaitSpec WaitInv WaitProofs WaitReason WaitThms.
From Coq Require Import Arith.

(** * Executions which are computed *)
Fixpoint wrun (x : wst) (ls : list wlabel) : option wst :=
  match ls with
  | [] => Some x
  | l :: ls' => match wstep x l with Some (x1, _) => wrun x1 ls' | None => None end
  end.
Definition lab_ok (l : wlabel) : bool := match l with XUser (LAwait _ ok) => ok | _ => true end.
Lemma wrun_exec ls : forall x x', forallb lab_ok ls = true -> wrun x ls = Some x' -> wexec sim_ok x ls x'.
Proof.
  induction ls as [|l ls IH]; intros x x' A E; cbn in A, E; [injection E as <-; constructor|].
  apply andb_prop in A. destruct A as [A B]. destruct (wstep x l) as [[x1 r]|] eqn:St; [|discriminate].
  econstructor; [|exact St|apply IH; assumption]. destruct l as [kl|c ts|]; try exact Logic.I. destruct kl; try exact Logic.I. exact A.
Qed.
(** Equality of results and histories can be decided. *)
Definition wres_dec (a b : wres) : {a = b} + {a <> b}.
Proof. repeat decide equality. Defined.
Definition hist_dec (a b : list hist) : {a = b} + {a <> b}.
Proof. repeat decide equality. Defined.
(** After [ls], library code goes on and gives [r]; the state in which this happens passes the test [f]. *)
Definition gives (ls : list wlabel) (r : wres) (f : wst -> bool) : bool :=
  forallb lab_ok ls &&
  match wrun winit ls with
  | Some x => f x && match wstep x XLib with Some (_, r') => if wres_dec r' r then true else false | None => false end
  | None => false
  end.
Lemma gives_ok ls r f : gives ls r f = true -> exists x x', wreach ls x /\ wstep x XLib = Some (x', r) /\ f x = true.
Proof.
  unfold gives. intro H. apply andb_prop in H. destruct H as [A H]. destruct (wrun winit ls) as [x|] eqn:E; [|discriminate].
  apply andb_prop in H. destruct H as [F H]. destruct (wstep x XLib) as [[x' r']|] eqn:St; [|discriminate].
  destruct (wres_dec r' r) as [->|]; [|discriminate]. exists x, x'. repeat split; auto. apply wrun_exec; assumption.
Qed.
Lemma gives_ex ls r : gives ls r (fun _ => true) = true -> exists ls x x', wreach ls x /\ wstep x XLib = Some (x', r).
Proof. intro H. destruct (gives_ok _ _ _ H) as (x & x' & A & B & _). eauto. Qed.
Lemma runs_ok ls f : forallb lab_ok ls && match wrun winit ls with Some x => f x | None => false end = true ->
  exists x, wreach ls x /\ f x = true.
Proof.
  intro H. apply andb_prop in H. destruct H as [A H]. destruct (wrun winit ls) as [x|] eqn:E; [|discriminate].
  exists x. split; [apply wrun_exec; assumption|exact H].
Qed.

(** Task 0 calls the function with waiters 1 and 2; library code runs up to line 183, then both waiters have run: waiter 1 awaits
    a trigger, waiter 2 has control. *)
Notation U l := (XUser l).
Notation K o := (XUser (LOp o)).
Definition calls2 (c : call) : list wlabel :=
  [K (OpStart 0); U LPop; XCall c [1; 2]; XLib; XLib; XLib; XLib; XLib; U LPop; U (LAwait (TGpi 5) true); U LPop].
(** The waiter which has control ends with [l]; its callbacks run; the other one is cancelled (in the last case). *)
Definition ends (l : label) : list wlabel := [U l; XLib; XLib; XLib; U LDoneNext].
Definition ends_cancel (l : label) : list wlabel := [U l; XLib; XLib; XLib; XLib; XLib; U LDoneNext].
(** Then the cancelled waiter 1 is resumed and ends; the caller is resumed. *)
Definition second_cancelled : list wlabel := U LPop :: ends (LRaise (ECancelled 0)) ++ [U LPop].
(** Or: trigger 5 fires, waiter 1 ends with [l], the caller is resumed. *)
Definition second_ends (l : label) : list wlabel := [U (LFire 5); U LPop] ++ ends l ++ [U LPop].

(** * C28 *)
Lemma in_lib_unique x t u : in_library x t -> in_library x u -> t = u.
Proof.
  intros (_ & p & r & _ & E) (_ & q & s & _ & F). destruct E as [E|E], F as [F|F]; rewrite E in F; inversion F; auto.
Qed.
(** When wait() returns, all waiters are done. The index is that of the waiter whose completion decided the call: there was one
    exactly when an index is returned. *)
Theorem C28_wait : forall ls x l x' idx ts, wreach ls x -> wstep x l = Some (x', YWait idx ts) ->
  exists t w, in_library x t /\ last_call t (y_hist x) = Some (CWait w, ts) /\ ts <> [] /\
    (forall v, In v ts -> done (y_k x) v = true) /\
    match idx with
    | None => undecided w ts (s_log (y_k x))
    | Some j => exists u, nth_error ts j = Some u /\ decided_by w ts (s_log (y_k x)) u
    end.
Proof.
  intros ls x l x' idx ts R St. destruct (ends_ok _ _ _ _ _ R St eq_refl) as [[E _]|(t & c & ts' & L & H & D & O & N)]; [discriminate|].
  destruct idx as [j|]; cbn in O; destruct O as ((w & ->) & -> & O); cbn in O; exists t, w; repeat (split; [assumption|]);
    (split; [intro Z; specialize (N Z); discriminate|]); split; auto.
Qed.
Print Assumptions C28_wait.
Example C28_wait_ex : exists ls x x', wreach ls x /\ wstep x XLib = Some (x', YWait (Some 1) [1; 2]).
Proof. apply (gives_ex (calls2 (CWait FirstCompleted) ++ ends_cancel (LReturn 7) ++ second_cancelled)). vm_compute. reflexivity. Qed.

(** Which indexes each [return_when] gives. *)
Theorem C28_index : forall ls x l x' idx ts t w ts', wreach ls x -> wstep x l = Some (x', YWait idx ts) ->
  in_library x t -> last_call t (y_hist x) = Some (CWait w, ts') ->
  ts' = ts /\
  match w with
  | FirstCompleted => exists j u, idx = Some j /\ nth_error ts j = Some u /\ decided_by FirstCompleted ts (s_log (y_k x)) u
  | FirstException => idx = None <-> forall v, In v ts -> state_of (y_k x) v = Finished
  | AllCompleted => idx = None
  end.
Proof.
  intros ls x l x' idx ts t w ts' R St L H. destruct (C28_wait _ _ _ _ _ _ R St) as (t1 & w1 & L1 & H1 & N & D & O).
  assert (t1 = t) as -> by (apply (in_lib_unique x); assumption). rewrite H in H1. injection H1 as <- <-. split; [reflexivity|].
  assert (Es : y_esc x = false).
  { unfold wstep in St. destruct (y_esc x); [rewrite Bool.orb_true_r in St; discriminate|reflexivity]. }
  destruct (wreach_full ls x R) as [E|[W _]]; [congruence|]. pose proof (I_k x W) as Ik.
  destruct w.
  - destruct idx as [j|]; [destruct O as (u & A & B); eauto|]. exfalso. destruct ts' as [|v vs]; [now apply N|].
    assert (Q := undecided_states _ _ _ Ik O v (or_introl eq_refl) (D v (or_introl eq_refl))). discriminate.
  - destruct idx as [j|].
    + split; [discriminate|]. intro A. exfalso. destruct O as (u & B & C). destruct (decided_state _ _ _ _ Ik C) as [_ Q].
      rewrite (A u) in Q; [discriminate|]. apply C.
    + split; [|reflexivity]. intros _ v I. assert (Q := undecided_states _ _ _ Ik O v I (D v I)). assert (Dv := D v I). unfold done in Dv.
      destruct (state_of (y_k x) v); try discriminate; reflexivity.
  - destruct idx as [j|]; [|reflexivity]. destruct O as (u & B & C). destruct (decided_state _ _ _ _ Ik C) as [_ Q]. discriminate.
Qed.
Print Assumptions C28_index.
Example C28_index_ex : exists ls x x' ls2 x2 x2',
  wreach ls x /\ wstep x XLib = Some (x', YWait None [1; 2]) /\ last_call 0 (y_hist x) = Some (CWait FirstException, [1; 2]) /\
  wreach ls2 x2 /\ wstep x2 XLib = Some (x2', YWait None [1; 2]) /\ last_call 0 (y_hist x2) = Some (CWait AllCompleted, [1; 2]).
Proof.
  set (is w := fun x => match last_call 0 (y_hist x) with Some (CWait v, [1; 2]) => match v, w with FirstException, FirstException | AllCompleted, AllCompleted => true | _, _ => false end | _ => false end).
  assert (P : forall w x, is w x = true -> last_call 0 (y_hist x) = Some (CWait w, [1; 2])).
  { intros w x E. unfold is in E. destruct (last_call 0 (y_hist x)) as [[[v| | | | |] ts]|]; try discriminate.
    destruct ts as [|[|[|]] [|[|[|[|]]] [|]]]; try discriminate. destruct v, w; try discriminate; reflexivity. }
  destruct (gives_ok (calls2 (CWait FirstException) ++ ends (LReturn 7) ++ second_ends (LReturn 8)) (YWait None [1; 2]) (is FirstException)) as (x & x' & R & St & F); [vm_compute; reflexivity|].
  destruct (gives_ok (calls2 (CWait AllCompleted) ++ ends (LRaise (EUser 7)) ++ second_ends (LReturn 8)) (YWait None [1; 2]) (is AllCompleted)) as (x2 & x2' & R2 & St2 & F2); [vm_compute; reflexivity|].
  apply P in F, F2. eexists _, x, x', _, x2, x2'. repeat (split; [eassumption|]). assumption.
Qed.

(** No assertion fails and no index is missing in the code after the waiting: it never raises ValueError, AssertionError or
    InvalidStateError of its own. *)
Theorem C28_no_internal_error : forall ls x l x', wreach ls x -> wstep x l <> Some (x', YBroken).
Proof.
  intros ls x l x' R St. destruct (ends_ok _ _ _ _ _ R St eq_refl) as [[E _]|(t & c & ts & _ & _ & _ & O & _)]; [discriminate|exact O].
Qed.
Print Assumptions C28_no_internal_error.
Example C28_no_internal_error_ex : exists ls x x' r, wreach ls x /\ wstep x XLib = Some (x', r) /\ normal r = true.
Proof.
  destruct (gives_ex (calls2 CSelect ++ ends_cancel (LReturn 7) ++ second_cancelled) (YSelect 1 (Some 7))) as (ls & x & x' & R & St); [vm_compute; reflexivity|].
  exists ls, x, x', (YSelect 1 (Some 7)). auto.
Qed.

(** The waiting Task is woken: once the event loop has control and all waiters are done, it is not blocked. *)
Theorem C28_wakes : forall ls x t i c ts, wreach ls x -> y_esc x = false -> y_cb x = None -> s_ctl (y_k x) = [] ->
  y_pend x t = Some (SWait i) -> last_call t (y_hist x) = Some (c, ts) -> (forall v, In v ts -> done (y_k x) v = true) ->
  state_of (y_k x) t <> Pending.
Proof. exact wakes. Qed.
Print Assumptions C28_wakes.
Example C28_wakes_ex : exists ls x, wreach ls x /\ y_esc x = false /\ y_cb x = None /\ s_ctl (y_k x) = [] /\
  y_pend x 0 = Some (SWait 0) /\ last_call 0 (y_hist x) = Some (CGather, [1; 2]) /\
  (forall v, In v [1; 2] -> done (y_k x) v = true) /\ state_of (y_k x) 0 = Scheduled.
Proof.
  destruct (runs_ok (calls2 CGather ++ ends (LReturn 7) ++ [U (LFire 5); U LPop] ++ ends (LReturn 8))
    (fun x => negb (y_esc x) && match y_cb x with None => true | _ => false end && match s_ctl (y_k x) with [] => true | _ => false end
       && match y_pend x 0 with Some (SWait 0) => true | _ => false end
       && match last_call 0 (y_hist x) with Some (CGather, [1; 2]) => true | _ => false end
       && done (y_k x) 1 && done (y_k x) 2 && tstate_eqb (state_of (y_k x) 0) Scheduled)) as (x & R & F); [vm_compute; reflexivity|].
  repeat (apply andb_prop in F; let G := fresh "G" in destruct F as [F G]). eexists _, x. split; [exact R|].
  split; [destruct (y_esc x); [discriminate|reflexivity]|]. split; [destruct (y_cb x); [discriminate|reflexivity]|].
  split; [destruct (s_ctl (y_k x)); [reflexivity|discriminate]|].
  split; [destruct (y_pend x 0) as [[|? |[|] | | | |]|]; try discriminate; reflexivity|].
  split; [destruct (last_call 0 (y_hist x)) as [[[] ts]|]; try discriminate; destruct ts as [|[|[|]] [|[|[|[|]]] [|]]]; try discriminate; reflexivity|].
  split; [intros v [<-|[<-|[]]]; assumption|]. destruct (state_of (y_k x) 0); try discriminate; reflexivity.
Qed.

(** Once a completion has decided the call, every waiter is done or has been cancelled. *)
Theorem C28_cancels : forall ls x t i c ts u, wreach ls x -> y_esc x = false -> y_cb x = None -> s_ctl (y_k x) = [] ->
  y_pend x t = Some (SWait i) -> last_call t (y_hist x) = Some (c, ts) -> decided_by (when_of c) ts (s_log (y_k x)) u ->
  forall v, In v ts -> done (y_k x) v = true \/ In (HCancel v) (y_hist x).
Proof. exact cancels. Qed.
Print Assumptions C28_cancels.
Definition hcancelled (v : tid) (h : list hist) : bool := existsb (fun a => match a with HCancel u => Nat.eqb u v | _ => false end) h.
Lemma hcancelled_ok v h : hcancelled v h = true -> In (HCancel v) h.
Proof. unfold hcancelled. intro E. apply existsb_exists in E. destruct E as ([|u] & I & Q); [discriminate|]. apply Nat.eqb_eq in Q. now subst. Qed.
Example C28_cancels_ex : exists ls x, wreach ls x /\ s_ctl (y_k x) = [] /\ y_pend x 0 = Some (SWait 0) /\
  done (y_k x) 2 = true /\ done (y_k x) 1 = false /\ In (HCancel 1) (y_hist x).
Proof.
  destruct (runs_ok (calls2 (CWait FirstException) ++ ends_cancel (LRaise (EUser 3)))
    (fun x => match s_ctl (y_k x) with [] => true | _ => false end && match y_pend x 0 with Some (SWait 0) => true | _ => false end
       && done (y_k x) 2 && negb (done (y_k x) 1) && hcancelled 1 (y_hist x))) as (x & R & F); [vm_compute; reflexivity|].
  repeat (apply andb_prop in F; let G := fresh "G" in destruct F as [F G]). eexists _, x. split; [exact R|].
  split; [destruct (s_ctl (y_k x)); [reflexivity|discriminate]|].
  split; [destruct (y_pend x 0) as [[|? |[|] | | | |]|]; try discriminate; reflexivity|].
  split; [assumption|]. split; [now apply Bool.negb_true_iff|]. now apply hcancelled_ok.
Qed.

(** Nothing else is cancelled: whenever these functions cancel a Task, it is a waiter of a call which has been decided (never,
    with ALL_COMPLETED; by a failure, with FIRST_EXCEPTION), or the caller is leaving its call by an exception. *)
Theorem C28_cancel_reason : forall ls x l x' r v, wreach ls x -> wstep x l = Some (x', r) -> y_hist x' = HCancel v :: y_hist x ->
  exists t c ts, In (HCall t c ts) (y_hist x) /\ In v ts /\
    ((when_of c <> AllCompleted /\ exists u, decided_by (when_of c) ts (s_log (y_k x)) u) \/
     (in_library x t /\ last_call t (y_hist x) = Some (c, ts) /\ (k_exc (s_task (y_k x) t) <> None \/ exists rest, s_ctl (y_k x) = FClose t :: rest))).
Proof.
  intros ls x l x' r v R St H. destruct (cancel_reason _ _ _ _ _ _ R St H) as (t & c & ts & A & B & C). exists t, c, ts. split; [exact A|]. split; [exact B|].
  destruct C as [(u & C)|C]; [left|right; exact C]. split; [|eauto]. intro E. destruct C as (_ & la & be & s & o & _ & D & _). rewrite E in D. discriminate.
Qed.
Print Assumptions C28_cancel_reason.
Example C28_cancel_reason_ex : exists ls x x' r, wreach ls x /\ wstep x XLib = Some (x', r) /\ y_hist x' = HCancel 1 :: y_hist x.
Proof.
  set (ls := calls2 (CWait FirstException) ++ [U (LRaise (EUser 3)); XLib; XLib; XLib]).
  destruct (runs_ok ls (fun x => match wstep x XLib with
     | Some (x', _) => if hist_dec (y_hist x') (HCancel 1 :: y_hist x) then true else false | None => false end)) as (x & R & F); [vm_compute; reflexivity|].
  destruct (wstep x XLib) as [[x' r]|] eqn:St; [|discriminate]. destruct (hist_dec _ _) as [E|]; [|discriminate]. exists ls, x, x', r. auto.
Qed.

(** * C29 *)
(** select() returns the position and the result of the first waiter to complete; all waiters are done. *)
Theorem C29_select : forall ls x l x' j v, wreach ls x -> wstep x l = Some (x', YSelect j v) ->
  exists t ts u, in_library x t /\ last_call t (y_hist x) = Some (CSelect, ts) /\ (forall w, In w ts -> done (y_k x) w = true) /\
    nth_error ts j = Some u /\ decided_by FirstCompleted ts (s_log (y_k x)) u /\ py_result (y_k x) u = Value v.
Proof.
  intros ls x l x' j v R St. destruct (ends_ok _ _ _ _ _ R St eq_refl) as [[E _]|(t & c & ts & L & H & D & O & _)]; [discriminate|].
  cbn in O. destruct O as (-> & u & A & B & C). exists t, ts, u. auto 10.
Qed.
Print Assumptions C29_select.
Example C29_select_ex : exists ls x x', wreach ls x /\ wstep x XLib = Some (x', YSelect 1 (Some 7)).
Proof. apply (gives_ex (calls2 CSelect ++ ends_cancel (LReturn 7) ++ second_cancelled)). vm_compute. reflexivity. Qed.

(** gather() returns the results of all waiters in the order of its arguments. *)
Theorem C29_gather : forall ls x l x' vs, wreach ls x -> wstep x l = Some (x', YTuple vs) ->
  (l = XCall CGather [] /\ vs = []) \/
  exists t ts, in_library x t /\ last_call t (y_hist x) = Some (CGather, ts) /\ ts <> [] /\
    Forall2 (fun u v => done (y_k x) u = true /\ py_result (y_k x) u = Value v) ts vs.
Proof.
  intros ls x l x' vs R St. destruct (ends_ok _ _ _ _ _ R St eq_refl) as [[E ->]|(t & c & ts & L & H & D & O & N)]; [left; injection E as ->; auto|].
  right. cbn in O. destruct O as (-> & F). exists t, ts. split; [exact L|]. split; [exact H|]. split; [intro Z; specialize (N Z); discriminate|].
  clear H N St. induction F as [|u v us vs' P F IH]; constructor; [split; [apply D; now left|exact P]|]. apply IH. intros w I. apply D. now right.
Qed.
Print Assumptions C29_gather.
Example C29_gather_ex : exists ls x x', wreach ls x /\ wstep x XLib = Some (x', YTuple [Some 8; Some 7]).
Proof. apply (gives_ex (calls2 CGather ++ ends (LReturn 7) ++ second_ends (LReturn 8))). vm_compute. reflexivity. Qed.

(** Whatever exception of a waiter these functions re-raise, it is that of the first waiter to complete (select, First,
    with_timeout), or to fail (gather, Combine); all waiters are done. *)
Theorem C29_fails : forall ls x l x' e, wreach ls x -> wstep x l = Some (x', YFails e) ->
  exists t c ts u, in_library x t /\ last_call t (y_hist x) = Some (c, ts) /\ (forall w, c <> CWait w) /\
    (forall w, In w ts -> done (y_k x) w = true) /\
    decided_by (when_of c) ts (s_log (y_k x)) u /\ py_result (y_k x) u = Raises e.
Proof.
  intros ls x l x' e R St. destruct (ends_ok _ _ _ _ _ R St eq_refl) as [[E _]|(t & c & ts & L & H & D & O & _)]; [discriminate|].
  cbn in O. destruct O as (N & u & A & B). exists t, c, ts, u. auto 10.
Qed.
Print Assumptions C29_fails.
Example C29_fails_ex : exists ls x x', wreach ls x /\ wstep x XLib = Some (x', YFails (EUser 3)).
Proof. apply (gives_ex (calls2 CGather ++ ends_cancel (LRaise (EUser 3)) ++ second_cancelled)). vm_compute. reflexivity. Qed.

(** Conversely: the result is the tuple exactly when every waiter ended normally. *)
Theorem C29_gather_iff : forall ls x l x' r t ts, wreach ls x -> wstep x l = Some (x', r) -> normal r = true -> in_library x t ->
  last_call t (y_hist x) = Some (CGather, ts) -> l = XLib ->
  (exists vs, r = YTuple vs) /\ (forall v, In v ts -> state_of (y_k x) v = Finished) \/
  (exists e, r = YFails e) /\ exists v, In v ts /\ done (y_k x) v = true /\ state_of (y_k x) v <> Finished.
Proof.
  intros ls x l x' r t ts R St N L H ->.
  assert (Es : y_esc x = false).
  { unfold wstep in St. destruct (y_esc x); [rewrite Bool.orb_true_r in St; discriminate|reflexivity]. }
  destruct (wreach_full ls x R) as [E|[W _]]; [congruence|]. pose proof (I_k x W) as Ik.
  destruct (ends_ok _ _ _ _ _ R St N) as [[_ E]|(t1 & c & ts1 & L1 & H1 & D & O & _)]; [discriminate|].
  assert (t1 = t) as -> by (apply (in_lib_unique x); assumption). rewrite H in H1. injection H1 as <- <-.
  destruct r; cbn in O, N; try discriminate; try contradiction.
  - destruct idx; destruct O as ((w0 & E) & _); discriminate.
  - destruct O; discriminate.
  - destruct O as ([E|E] & _); discriminate.
  - left. split; [eauto|]. destruct O as (_ & F). clear -F Ik D. induction F as [|u v us vs' P F IH]; intros w I; [destruct I|].
    destruct I as [<-|I]; [|apply IH; [intros; apply D; now right|exact I]].
    destruct (done_answer _ _ Ik (D u (or_introl eq_refl))) as [(a & _ & S)|(e & Q & _)]; [exact S|congruence].
  - destruct O; discriminate.
  - right. split; [eauto|]. destruct O as (_ & u & A & _). exists u. destruct (decided_state _ _ _ _ Ik A) as [Du Q].
    split; [apply A|]. split; [exact Du|]. intro S. rewrite S in Q. discriminate.
  - destruct O; discriminate.
Qed.
Print Assumptions C29_gather_iff.
Example C29_gather_iff_ex : exists ls x x' e, wreach ls x /\ wstep x XLib = Some (x', YFails e) /\ state_of (y_k x) 2 = Errored.
Proof.
  destruct (gives_ok (calls2 CGather ++ ends_cancel (LRaise (EUser 3)) ++ second_cancelled) (YFails (EUser 3))
    (fun x => tstate_eqb (state_of (y_k x) 2) Errored)) as (x & x' & R & St & F); [vm_compute; reflexivity|].
  eexists _, x, x', _. split; [exact R|]. split; [exact St|]. destruct (state_of (y_k x) 2); try discriminate; reflexivity.
Qed.

(** Calls without arguments: gather() returns the empty tuple, select(), wait() and First() raise ValueError; nothing else happens. *)
Theorem C29_empty : forall x t rest c, s_halt (y_k x) = false -> y_esc x = false -> y_cb x = None -> s_ctl (y_k x) = FRun t :: rest ->
  y_pend x t = None ->
  match c with
  | CGather => wstep x (XCall c []) = Some (x, YTuple [])
  | CWait _ | CSelect | CFirst => wstep x (XCall c []) = Some (x, YValueError)
  | CCombine => exists x' r, wstep x (XCall c []) = Some (x', r) /\ r <> YValueError
  | CTimeout => wstep x (XCall c []) = None
  end.
Proof.
  intros x t rest c Ha Es Cb Ec Ep. unfold wstep. rewrite Ha, Es, Cb, Ec, Ep. cbn [orb]. destruct c; cbn [begin_call]; try reflexivity.
  unfold suspend. destruct (await_trigger _ _ _ _ _) as [k q]. destruct q; eexists _, _; (split; [reflexivity|discriminate]).
Qed.
Print Assumptions C29_empty.
Example C29_empty_ex : exists ls x, wreach ls x /\ s_halt (y_k x) = false /\ y_esc x = false /\ y_cb x = None /\ s_ctl (y_k x) = [FRun 0] /\ y_pend x 0 = None.
Proof.
  destruct (runs_ok [K (OpStart 0); U LPop] (fun x => negb (s_halt (y_k x)) && negb (y_esc x) && match y_cb x with None => true | _ => false end &&
    match s_ctl (y_k x) with [FRun 0] => true | _ => false end && match y_pend x 0 with None => true | _ => false end)) as (x & R & F); [vm_compute; reflexivity|].
  repeat (apply andb_prop in F; let G := fresh "G" in destruct F as [F G]). eexists _, x. split; [exact R|].
  split; [destruct (s_halt (y_k x)); [discriminate|reflexivity]|]. split; [destruct (y_esc x); [discriminate|reflexivity]|].
  split; [destruct (y_cb x); [discriminate|reflexivity]|]. split; [destruct (s_ctl (y_k x)) as [|[[|]| | ] [|]]; try discriminate; reflexivity|].
  destruct (y_pend x 0); [discriminate|reflexivity].
Qed.

(** A waiter which is killed counts as one which ended normally: gather() returns [None] in its place although it never
    returned anything. (Every [return] of user code is [LReturn v], with outcome [OVal (Some v)].) *)
Definition killed_waiter : list wlabel :=
  calls2 CGather ++ [K (OpKill 1); XLib; XLib; XLib; U LDoneNext] ++ ends (LReturn 7) ++ [U LPop].
Theorem C29_killed_refuted : exists ls x x' vs, wreach ls x /\ wstep x XLib = Some (x', YTuple vs) /\ In None vs.
Proof.
  destruct (gives_ex killed_waiter (YTuple [None; Some 7])) as (ls & x & x' & R & St); [vm_compute; reflexivity|].
  exists ls, x, x', [None; Some 7]. split; [exact R|]. split; [exact St|now left].
Qed.
Print Assumptions C29_killed_refuted.

(** * C30 *)
(** However often the caller was cancelled: when CancelledError leaves the call, every waiter is done. *)
Theorem C30_cancelled : forall ls x l x' m, wreach ls x -> wstep x l = Some (x', YRaised (ECancelled m)) ->
  exists t c ts, in_library x t /\ last_call t (y_hist x) = Some (c, ts) /\ forall v, In v ts -> done (y_k x) v = true.
Proof. exact cancelled_ends. Qed.
Print Assumptions C30_cancelled.
(** The caller is cancelled, and once more while the waiters end. *)
Definition cancelled_twice : list wlabel :=
  calls2 CGather ++ [U (LAwait (TGpi 6) true); K (OpCancel 0 4); U LPop; XLib; XLib; XLib; XLib; XLib; K (OpCancel 0 9); U LPop] ++
  [U (LRaise (ECancelled 0)); XLib; XLib; XLib; XLib; U LDoneNext] ++
  [U LPop] ++ ends (LRaise (ECancelled 0)) ++ [U LPop; XLib].
Example C30_cancelled_ex : exists ls x x', wreach ls x /\ wstep x XLib = Some (x', YRaised (ECancelled 4)).
Proof. apply (gives_ex cancelled_twice). vm_compute. reflexivity. Qed.

(** It does not hold for every way of leaving the call. If the caller is cancelled twice before it is resumed, [_uncancel]
    (line 187) leaves [_must_cancel] at 1, so the [await NullTrigger()] of line 191 ends the caller with RuntimeError while the
    waiters are still running. *)
Definition two_cancels : list wlabel :=
  calls2 CGather ++ [U (LAwait (TGpi 6) true); K (OpCancel 0 4); K (OpCancel 0 4); U LPop; XLib; XLib; XLib; XLib; XLib].
Definition leaves_waiter (x : wst) (t : tid) : Prop :=
  exists c ts v, last_call t (y_hist x) = Some (c, ts) /\ In v ts /\ done (y_k x) v = false.
Definition call_dec (a b : option (call * list tid)) : {a = b} + {a <> b}.
Proof. repeat decide equality. Defined.
Definition left_behind (x : wst) (t : tid) (c : call) (v : tid) : bool :=
  (if call_dec (last_call t (y_hist x)) (Some (c, [1; 2])) then true else false) && existsb (Nat.eqb v) [1; 2] && negb (done (y_k x) v).
Lemma left_behind_ok x t c v : left_behind x t c v = true -> leaves_waiter x t.
Proof.
  unfold left_behind. intro E. apply andb_prop in E. destruct E as [E N]. apply andb_prop in E. destruct E as [E I].
  destruct (call_dec _ _) as [Q|]; [|discriminate]. exists c, [1; 2], v. split; [exact Q|]. split; [|now apply Bool.negb_true_iff].
  apply existsb_exists in I. destruct I as (w & I & Z). apply Nat.eqb_eq in Z. now subst.
Qed.
Definition no_kill (l : wlabel) : Prop := match l with XUser (LOp (OpKill _)) | XUser (LCancelNow _ _) => False | _ => True end.
Theorem C30_two_cancels_refuted : exists ls x x', wreach ls x /\ Forall no_kill ls /\ in_library x 0 /\
  wstep x XLib = Some (x', YClosed) /\ leaves_waiter x 0.
Proof.
  destruct (gives_ok two_cancels YClosed (fun x => left_behind x 0 CGather 1 && match y_cb x with None => true | _ => false end &&
    match y_pend x 0, s_ctl (y_k x) with Some _, FClose 0 :: _ => true | _, _ => false end)) as (x & x' & R & St & F); [vm_compute; reflexivity|].
  apply andb_prop in F. destruct F as [F G]. apply andb_prop in F. destruct F as [F E].
  exists two_cancels, x, x'. split; [exact R|]. split; [repeat constructor|].
  split; [|split; [exact St|exact (left_behind_ok _ _ _ _ F)]]. split; [destruct (y_cb x); [discriminate|reflexivity]|].
  destruct (y_pend x 0) as [p|]; [|discriminate]. destruct (s_ctl (y_k x)) as [|[|[|]|] rest]; try discriminate. eauto 6.
Qed.
Print Assumptions C30_two_cancels_refuted.
(** The caller then ends with an error, its waiters still running. *)
Theorem C30_two_cancels_ends_refuted : exists ls x, wreach ls x /\ Forall no_kill ls /\
  k_outcome (s_task (y_k x) 0) = Some (OExc EIgnoredCancel) /\ leaves_waiter x 0.
Proof.
  destruct (runs_ok (two_cancels ++ [XLib; U LCloseEnd; U LDoneNext]) (fun x => left_behind x 0 CGather 1 &&
    match k_outcome (s_task (y_k x) 0) with Some (OExc EIgnoredCancel) => true | _ => false end)) as (x & R & F); [vm_compute; reflexivity|].
  apply andb_prop in F. destruct F as [F G]. exists (two_cancels ++ [XLib; U LCloseEnd; U LDoneNext]), x. split; [exact R|]. split; [repeat constructor|].
  split; [|exact (left_behind_ok _ _ _ _ F)]. destruct (k_outcome _) as [[|[]]|]; try discriminate; reflexivity.
Qed.
Print Assumptions C30_two_cancels_ends_refuted.

(** If a running waiter kills another one, the done callback tries to cancel the running one: RuntimeError leaves the callback,
    [_set_outcome] and [kill()], and the remaining callbacks of the killed Task are not called. *)
Definition sibling_kill : list wlabel := calls2 (CWait FirstCompleted) ++ [K (OpKill 1); XLib; XLib; XLib].
Theorem C30_sibling_kill_refuted : exists ls x x', wreach ls x /\ wstep x XLib = Some (x', YEscape PRuntime).
Proof. apply (gives_ex sibling_kill). vm_compute. reflexivity. Qed.
Print Assumptions C30_sibling_kill_refuted.

(** * C56 *)
(** First() gives the result of the first waiter to complete. *)
Theorem C56_first : forall ls x l x' v t ts, wreach ls x -> wstep x l = Some (x', YValue v) -> in_library x t ->
  last_call t (y_hist x) = Some (CFirst, ts) ->
  (forall w, In w ts -> done (y_k x) w = true) /\
  exists u, decided_by FirstCompleted ts (s_log (y_k x)) u /\ py_result (y_k x) u = Value v.
Proof.
  intros ls x l x' v t ts R St L H. destruct (ends_ok _ _ _ _ _ R St eq_refl) as [[E _]|(t1 & c & ts1 & L1 & H1 & D & O & _)]; [discriminate|].
  assert (t1 = t) as -> by (apply (in_lib_unique x); assumption). rewrite H in H1. injection H1 as <- <-.
  split; [exact D|]. cbn in O. destruct O as (_ & j & u & _ & A & B & _). eauto.
Qed.
Print Assumptions C56_first.
Definition is_call_of (t : tid) (c : call) (x : wst) : bool :=
  (if call_dec (last_call t (y_hist x)) (Some (c, [1; 2])) then true else false) && match y_cb x with None => true | _ => false end &&
    match y_pend x t, s_ctl (y_k x) with Some _, FRun u :: _ => Nat.eqb u t | _, _ => false end.
Lemma is_call_ok t c x : is_call_of t c x = true -> in_library x t /\ last_call t (y_hist x) = Some (c, [1; 2]).
Proof.
  unfold is_call_of. intro F. apply andb_prop in F. destruct F as [F G]. apply andb_prop in F. destruct F as [F E].
  destruct (call_dec _ _) as [Q|]; [|discriminate]. split; [|exact Q]. split; [destruct (y_cb x); [discriminate|reflexivity]|].
  destruct (y_pend x t) as [p|]; [|discriminate]. destruct (s_ctl (y_k x)) as [|[u|u|] rest]; try discriminate. apply Nat.eqb_eq in G. subst u. eauto 6.
Qed.
Lemma gives_call ls r c : gives ls r (is_call_of 0 c) = true ->
  exists ls x x' t ts, wreach ls x /\ wstep x XLib = Some (x', r) /\ in_library x t /\ last_call t (y_hist x) = Some (c, ts).
Proof. intro G. destruct (gives_ok _ _ _ G) as (x & x' & R & St & F). apply is_call_ok in F. destruct F. exists ls, x, x', 0, [1; 2]. auto. Qed.
Example C56_first_ex : exists ls x x' t ts, wreach ls x /\ wstep x XLib = Some (x', YValue (Some 7)) /\ in_library x t /\ last_call t (y_hist x) = Some (CFirst, ts).
Proof. apply (gives_call (calls2 CFirst ++ ends_cancel (LReturn 7) ++ second_cancelled)). vm_compute. reflexivity. Qed.

(** Combine() returns when all waiters have ended normally. *)
Theorem C56_combine : forall ls x l x' t ts, wreach ls x -> wstep x l = Some (x', YSelf) -> in_library x t ->
  last_call t (y_hist x) = Some (CCombine, ts) -> forall u, In u ts -> state_of (y_k x) u = Finished.
Proof.
  intros ls x l x' t ts R St L H. destruct (ends_ok _ _ _ _ _ R St eq_refl) as [[E _]|(t1 & c & ts1 & L1 & H1 & D & O & _)]; [discriminate|].
  assert (t1 = t) as -> by (apply (in_lib_unique x); assumption). rewrite H in H1. injection H1 as <- <-. cbn in O. apply O.
Qed.
Print Assumptions C56_combine.
Example C56_combine_ex : exists ls x x' t ts, wreach ls x /\ wstep x XLib = Some (x', YSelf) /\ in_library x t /\ last_call t (y_hist x) = Some (CCombine, ts).
Proof. apply (gives_call (calls2 CCombine ++ ends (LReturn 7) ++ second_ends (LReturn 8))). vm_compute. reflexivity. Qed.
(** It re-raises the exception of the first waiter to fail. *)
Theorem C56_combine_fails : forall ls x l x' t ts e, wreach ls x -> wstep x l = Some (x', YFails e) -> in_library x t ->
  last_call t (y_hist x) = Some (CCombine, ts) ->
  (forall w, In w ts -> done (y_k x) w = true) /\
  exists u, decided_by FirstException ts (s_log (y_k x)) u /\ py_result (y_k x) u = Raises e.
Proof.
  intros ls x l x' t ts e R St L H. destruct (C29_fails _ _ _ _ _ R St) as (t1 & c & ts1 & u & L1 & H1 & _ & D & A & B).
  assert (t1 = t) as -> by (apply (in_lib_unique x); assumption). rewrite H in H1. injection H1 as <- <-. eauto.
Qed.
Print Assumptions C56_combine_fails.
Example C56_combine_fails_ex : exists ls x x' t ts, wreach ls x /\ wstep x XLib = Some (x', YFails (EUser 3)) /\ in_library x t /\ last_call t (y_hist x) = Some (CCombine, ts).
Proof. apply (gives_call (calls2 CCombine ++ ends_cancel (LRaise (EUser 3)) ++ second_cancelled)). vm_compute. reflexivity. Qed.

(** with_timeout(): SimTimeoutError exactly if the timer (the first of the two waiters) completed first; otherwise the result or
    exception of the other. Either way both are done: the loser was cancelled ([C28_cancels]) and has ended. *)
Theorem C56_timeout : forall ls x x' r t ts, wreach ls x -> wstep x XLib = Some (x', r) -> normal r = true -> in_library x t ->
  last_call t (y_hist x) = Some (CTimeout, ts) ->
  (forall w, In w ts -> done (y_k x) w = true) /\
  exists j u, nth_error ts j = Some u /\ decided_by FirstCompleted ts (s_log (y_k x)) u /\
    match r with
    | YTimeout => j = 0
    | YValue v => j <> 0 /\ py_result (y_k x) u = Value v
    | YFails e => py_result (y_k x) u = Raises e
    | _ => False
    end.
Proof.
  intros ls x x' r t ts R St N L H. destruct (ends_ok _ _ _ _ _ R St N) as [[_ E]|(t1 & c & ts1 & L1 & H1 & D & O & _)]; [discriminate|].
  assert (t1 = t) as -> by (apply (in_lib_unique x); assumption). rewrite H in H1. injection H1 as <- <-. split; [exact D|].
  destruct r; cbn in O, N; try discriminate; try contradiction.
  - destruct idx; destruct O as ((w0 & E) & _); discriminate.
  - destruct O; discriminate.
  - destruct O as (_ & j & u & A & B & C & Q). exists j, u. repeat (split; [assumption|]). auto.
  - destruct O; discriminate.
  - destruct O; discriminate.
  - destruct O as (_ & u & A & B). destruct A as (I & A). destruct (In_nth_error _ _ I) as [j E]. exists j, u. split; [exact E|]. split; [split; assumption|exact B].
  - destruct O as (_ & u & A & B). exists 0, u. auto.
Qed.
Print Assumptions C56_timeout.
Example C56_timeout_ex : (exists ls x x' t ts, wreach ls x /\ wstep x XLib = Some (x', YValue (Some 7)) /\ in_library x t /\ last_call t (y_hist x) = Some (CTimeout, ts)) /\
  (exists ls x x' t ts, wreach ls x /\ wstep x XLib = Some (x', YTimeout) /\ in_library x t /\ last_call t (y_hist x) = Some (CTimeout, ts)).
Proof.
  split; [apply (gives_call (calls2 CTimeout ++ ends_cancel (LReturn 7) ++ second_cancelled)); vm_compute; reflexivity|].
  apply (gives_call ([K (OpStart 0); U LPop; XCall CTimeout [1; 2]; XLib; XLib; XLib; XLib; XLib; U LPop] ++ ends_cancel (LReturn 1) ++
    [U LPop; XLib; XLib; XLib; U LDoneNext; U LPop])). vm_compute. reflexivity.
Qed.

(** C33: TestManager. *)
From Verif Require Import Base KernelModel KernelProofs TestModel TestSpec TestInv TestInv3 TestSafe TestThms.
From Coq Require Import Arith.

(** * Executions which are computed *)
Fixpoint qrun (x : qst) (ls : list qlabel) : option qst :=
  match ls with
  | [] => Some x
  | l :: ls' => match qstep x l with Some (x1, _) => qrun x1 ls' | None => None end
  end.
(** The simulator accepts callbacks; the Task of the test ([0]) is not killed. *)
Definition lab_ok (l : qlabel) : bool := match l with XUser (LAwait _ ok) => ok | _ => true end.
Definition lab_un (l : qlabel) : bool := match l with XUser (LOp (OpKill _)) => false | _ => lab_ok l end.
Lemma qrun_exec ls : forall x x', forallb lab_ok ls = true -> qrun x ls = Some x' -> qexec sim_ok x ls x'.
Proof.
  induction ls as [|l ls IH]; intros x x' A E; cbn in A, E; [injection E as <-; constructor|].
  apply andb_prop in A. destruct A as [A B]. destruct (qstep x l) as [[x1 r]|] eqn:St; [|discriminate].
  econstructor; [|exact St|apply IH; assumption]. destruct l as [kl| | | | | ]; try exact Logic.I. destruct kl; try exact Logic.I. exact A.
Qed.
Lemma qrun_un ls : forall x x', forallb lab_un ls = true -> qrun x ls = Some x' -> qexec unkilled x ls x'.
Proof.
  induction ls as [|l ls IH]; intros x x' A E; cbn in A, E; [injection E as <-; constructor|].
  apply andb_prop in A. destruct A as [A B]. destruct (qstep x l) as [[x1 r]|] eqn:St; [|discriminate].
  econstructor; [|exact St|apply IH; assumption]. split.
  - destruct l as [kl| | | | | ]; try exact Logic.I. destruct kl; try exact Logic.I. exact A.
  - intros t ->. discriminate.
Qed.
Lemma runs_ok ls f : forallb lab_ok ls && match qrun qinit ls with Some x => f x | None => false end = true ->
  exists x, qreach ls x /\ f x = true.
Proof.
  intro H. apply andb_prop in H. destruct H as [A H]. destruct (qrun qinit ls) as [x|] eqn:E; [|discriminate].
  exists x. split; [apply qrun_exec; assumption|exact H].
Qed.
Lemma runs_un ls f : forallb lab_un ls && match qrun qinit ls with Some x => f x | None => false end = true ->
  exists x, qexec unkilled qinit ls x /\ f x = true.
Proof.
  intro H. apply andb_prop in H. destruct H as [A H]. destruct (qrun qinit ls) as [x|] eqn:E; [|discriminate].
  exists x. split; [apply qrun_un; assumption|exact H].
Qed.
(** Tests of a state: what happened, newest first; idle; the failures. *)
Definition hist_dec (a b : hist) : {a = b} + {a <> b}.
Proof. repeat decide equality. Defined.
Definition hists_dec (a b : list hist) : {a = b} + {a <> b} := list_eq_dec hist_dec a b.
Definition fails_dec (a b : list failure) : {a = b} + {a <> b}.
Proof. repeat decide equality. Defined.
Definition is_hist (h : list hist) (x : qst) : bool := if hists_dec (x_hist x) h then true else false.
Lemma is_hist_ok h x : is_hist h x = true -> x_hist x = h.
Proof. unfold is_hist. destruct (hists_dec _ _); [auto|discriminate]. Qed.
Definition is_fails (f : list failure) (x : qst) (h : list hist) : bool := if fails_dec (failures x h) f then true else false.
Lemma is_fails_ok f x h : is_fails f x h = true -> failures x h = f.
Proof. unfold is_fails. destruct (fails_dec _ _); [auto|discriminate]. Qed.
Definition idleb (x : qst) : bool := match s_ctl (x_k x), x_loop x with [], None => negb (x_esc x) | _, _ => false end.
Lemma idleb_ok x : idleb x = true -> idle x.
Proof. unfold idleb, idle. destruct (s_ctl (x_k x)); [|discriminate]. destruct (x_loop x); [discriminate|]. destruct (x_esc x); [discriminate|auto]. Qed.
Definition startedb (x : qst) : bool := match x_main x with Some _ => true | None => false end.
Lemma startedb_ok x : startedb x = true -> x_main x <> None.
Proof. unfold startedb. destruct (x_main x); [discriminate|discriminate]. Qed.
Ltac split_tests H := repeat match type of H with _ && _ = true => let A := fresh "A" in apply andb_prop in H; destruct H as [H A] end.

(** The test (Task 0) starts Task 1; both wait. A Timer fires and the Task waiting for it runs. A Task ends: its callback runs. *)
Definition opens (timeout : bool) : list qlabel :=
  [XBegin 0 timeout; XUser LPop; XCreate 1; XUser (LOp (OpStart 1)); XUser (LAwait (TGpi 5) true); XUser LPop; XUser (LAwait (TGpi 6) true)].
Definition fire (g : nat) : list qlabel := [XUser (LFire g); XUser LPop].
Definition called : list qlabel := [XLib; XLib; XLib].
(** The test returns while Task 1 waits: Task 1 is cancelled. *)
Definition passes : list qlabel :=
  opens true ++ fire 5 ++ [XUser (LReturn 0)] ++ called ++ [XLib; XUser (LRaise (ECancelled 0))] ++ called ++ [XUser LDoneNext; XLib; XUser LDoneNext].
Definition passes_hist : list hist := [HComplete RNone; HEnd 1 false; HNow 1; HAbort; HEnd 0 false; HAdd 1; HAdd 0].
(** Task 1 fails; the test raises something else when it is cancelled (task.py:394-412). *)
Definition fails : list qlabel :=
  opens true ++ fire 6 ++ [XUser (LRaise (EUser 7))] ++ called ++ [XLib; XUser (LRaise (EUser 8))] ++ called ++ [XUser LDoneNext; XLib; XUser LDoneNext].
Definition fails_hist : list hist :=
  [HComplete (RGroup [FExc (EUser 7); FExc EIgnoredCancel]); HEnd 0 false; HNow 0; HAbort; HEnd 1 false; HAdd 1; HAdd 0].
(** The timeout. *)
Definition times_out : list qlabel :=
  opens true ++ [XTimeout; XLib; XUser (LRaise (ECancelled 0))] ++ called ++ [XUser LDoneNext; XLib; XUser (LRaise (ECancelled 0))] ++ called ++ [XUser LDoneNext; XLib].
Definition times_out_hist : list hist := [HComplete (ROne FTimeout); HEnd 1 false; HNow 1; HEnd 0 false; HNow 0; HAbort; HTimeout; HAdd 1; HAdd 0].

(** * Theorems *)

(** Completion is signalled at most once. *)
Theorem C33_once ls x : qreach ls x -> signals (x_hist x) <= 1.
Proof. apply once. Qed.
Print Assumptions C33_once.
Example C33_once_ex : exists x, qreach passes x /\ signals (x_hist x) = 1.
Proof.
  destruct (runs_ok passes (is_hist passes_hist) eq_refl) as (x & R & H). exists x. split; [exact R|]. now rewrite (is_hist_ok _ _ H).
Qed.

(** When it is, every Task of the test has ended; none is registered later. *)
Theorem C33_all_ended ls x : qreach ls x -> forall h1 r h2 u, x_hist x = h1 ++ HComplete r :: h2 -> registered x u ->
  In (HAdd u) h2 /\ (exists aw, In (HEnd u aw) h2) /\ done (x_k x) u = true.
Proof. apply all_ended. Qed.
Print Assumptions C33_all_ended.
Example C33_all_ended_ex : exists x, qreach fails x /\ x_hist x = [] ++ fails_hist /\ registered x 1.
Proof.
  destruct (runs_ok fails (is_hist fails_hist) eq_refl) as (x & R & H). apply is_hist_ok in H. exists x. unfold registered. rewrite H.
  repeat split; [exact R|]. cbn. tauto.
Qed.

(** What is reported: None, the one failure, or the group of all failures before it in order. The failure of the Task whose end
    completes the test may be missing: [C33_lost_refuted]. *)
Theorem C33_report_partial ls x : qreach ls x -> forall h1 r h2, x_hist x = h1 ++ HComplete r :: h2 ->
  report_is r (failures x h2) \/ exists u aw h3, h2 = HEnd u aw :: h3 /\ report_is r (failures x h3).
Proof. apply reported. Qed.
Print Assumptions C33_report_partial.
Example C33_report_ex : exists x, qreach fails x /\ x_hist x = [] ++ fails_hist /\ failures x (tl fails_hist) = [FExc (EUser 7); FExc EIgnoredCancel].
Proof.
  destruct (runs_ok fails (fun x => is_hist fails_hist x && is_fails [FExc (EUser 7); FExc EIgnoredCancel] x (tl fails_hist)) eq_refl) as (x & R & H).
  split_tests H. exists x. repeat split; [exact R|now apply is_hist_ok|now apply is_fails_ok].
Qed.
Example C33_report_timeout_ex : exists x, qreach times_out x /\ x_hist x = times_out_hist.
Proof. destruct (runs_ok times_out (is_hist times_out_hist) eq_refl) as (x & R & H). exists x. split; [exact R|now apply is_hist_ok]. Qed.

(** Finding: a Task started while the test is shut down fails; the test is reported as passed. [remove_task] (181) signals completion
    before the exception is looked at (189-197). *)
Definition lost : list qlabel :=
  opens false ++ fire 5 ++ [XUser (LReturn 0)] ++ called ++
  [XLib; XCreate 2; XUser (LOp (OpStart 2)); XUser (LRaise (ECancelled 0))] ++ called ++ [XUser LDoneNext; XLib; XUser LDoneNext] ++
  [XUser LPop; XUser (LRaise (EUser 7))] ++ called.
Definition lost_hist : list hist := [HComplete RNone; HEnd 2 false; HEnd 1 false; HAdd 2; HNow 1; HAbort; HEnd 0 false; HAdd 1; HAdd 0].
Theorem C33_lost_refuted : exists ls x h, qexec unkilled qinit ls x /\ x_hist x = HComplete RNone :: h /\ failures x h = [FExc (EUser 7)].
Proof.
  destruct (runs_un lost (fun x => is_hist lost_hist x && is_fails [FExc (EUser 7)] x (tl lost_hist)) eq_refl) as (x & R & H). split_tests H.
  exists lost, x, (tl lost_hist). repeat split; [exact R|now apply is_hist_ok|now apply is_fails_ok].
Qed.
Print Assumptions C33_lost_refuted.

(** The shutdown begins for a reason, and for any of the reasons: the Task of the test ended, another one failed and no Task awaited
    it, the timeout, [cancel()]. *)
Theorem C33_cause ls x : qreach ls x ->
  (In HAbort (x_hist x) -> exists h, In h (x_hist x) /\ ends_test x h) /\
  (x_cb x = None -> forall h, In h (x_hist x) -> ends_test x h -> In HAbort (x_hist x)).
Proof. apply why. Qed.
Print Assumptions C33_cause.
Definition no_cb (x : qst) : bool := match x_cb x with None => true | Some _ => false end.
Example C33_cause_ex : exists x, qreach fails x /\ x_cb x = None /\ In (HEnd 1 false) (x_hist x) /\ ends_test x (HEnd 1 false).
Proof.
  destruct (runs_ok fails (fun x => is_hist fails_hist x && no_cb x && match error_of (x_k x) 1 with Some _ => true | None => false end) eq_refl) as (x & R & H).
  split_tests H. apply is_hist_ok in H. exists x. split; [exact R|]. unfold no_cb in A0. destruct (x_cb x); [discriminate|]. split; [reflexivity|].
  rewrite H. split; [cbn; tauto|]. right. split; [reflexivity|]. destruct (error_of (x_k x) 1); [discriminate|discriminate].
Qed.

(** Nothing is forgotten: when no Python code is running, completion has been signalled if and only if the shutdown has begun and
    every Task of the test has ended. *)
Theorem C33_signalled ls x : qreach ls x -> idle x -> x_main x <> None ->
  ((exists r, In (HComplete r) (x_hist x)) <-> In HAbort (x_hist x) /\ forall u, registered x u -> done (x_k x) u = true).
Proof. apply signalled. Qed.
Print Assumptions C33_signalled.
Example C33_signalled_ex : exists x, qreach passes x /\ idle x /\ x_main x <> None /\ In (HComplete RNone) (x_hist x).
Proof.
  destruct (runs_ok passes (fun x => is_hist passes_hist x && idleb x && startedb x) eq_refl) as (x & R & H). split_tests H. apply is_hist_ok in H.
  exists x. split; [exact R|]. split; [now apply idleb_ok|]. split; [now apply startedb_ok|]. rewrite H. now left.
Qed.

(** The shutdown cancels every Task registered before it which has not ended by itself. *)
Theorem C33_cancels ls x : qreach ls x -> x_loop x = None -> x_esc x = false -> forall h1 h2 u, x_hist x = h1 ++ HAbort :: h2 -> In (HAdd u) h2 ->
  In (HNow u) h1 \/ done (x_k x) u = true.
Proof. apply cancels. Qed.
Print Assumptions C33_cancels.
Example C33_cancels_ex : exists x, qreach passes x /\ x_loop x = None /\ x_esc x = false /\
  x_hist x = [HComplete RNone; HEnd 1 false; HNow 1] ++ HAbort :: [HEnd 0 false; HAdd 1; HAdd 0].
Proof.
  destruct (runs_ok passes (fun x => is_hist passes_hist x && idleb x) eq_refl) as (x & R & H). split_tests H. apply is_hist_ok in H.
  destruct (idleb_ok _ A) as (_ & L & E). exists x. auto.
Qed.

(** Finding: a Task registered during the shutdown is never cancelled. The timeout is off by then: if the Task does not end, the test
    never completes. Here nothing runs, nothing is scheduled, and Task 2 waits. *)
Definition hangs : list qlabel :=
  opens true ++ fire 5 ++ [XUser (LReturn 0)] ++ called ++
  [XLib; XCreate 2; XUser (LOp (OpStart 2)); XUser (LRaise (ECancelled 0))] ++ called ++ [XUser LDoneNext; XLib; XUser LDoneNext] ++
  [XUser LPop; XUser (LAwait (TGpi 7) true)].
Definition hangs_hist : list hist := [HEnd 1 false; HAdd 2; HNow 1; HAbort; HEnd 0 false; HAdd 1; HAdd 0].
Theorem C33_new_task_refuted : exists ls x u, qexec unkilled qinit ls x /\ idle x /\ s_queue (x_k x) = [] /\ x_timer x = false /\
  In HAbort (x_hist x) /\ registered x u /\ done (x_k x) u = false /\ ~ In (HNow u) (x_hist x).
Proof.
  destruct (runs_un hangs (fun x => is_hist hangs_hist x && idleb x && negb (done (x_k x) 2) && match s_queue (x_k x) with [] => negb (x_timer x) | _ => false end) eq_refl)
    as (x & R & H). split_tests H. apply is_hist_ok in H. exists hangs, x, 2. unfold registered. rewrite H.
  destruct (s_queue (x_k x)); [|discriminate]. destruct (x_timer x); [discriminate|]. destruct (done (x_k x) 2); [discriminate|].
  split; [exact R|]. split; [now apply idleb_ok|]. repeat split; try (cbn; tauto).
  cbn. intros [Q|[Q|[Q|[Q|[Q|[Q|[Q|[]]]]]]]]; discriminate.
Qed.
Print Assumptions C33_new_task_refuted.

(** No exception leaves the shutdown, unless the Task of the test is killed. *)
Theorem C33_no_escape ls x : qexec unkilled qinit ls x -> x_esc x = false.
Proof. apply no_escape. Qed.
Print Assumptions C33_no_escape.
Example C33_no_escape_ex : exists x, qexec unkilled qinit fails x /\ x_hist x = fails_hist.
Proof. destruct (runs_un fails (is_hist fails_hist) eq_refl) as (x & R & H). exists x. split; [exact R|now apply is_hist_ok]. Qed.
(** Finding: a Task of the test kills the Task of the test. [_abort] then calls [_cancel_now] of the running Task, which raises
    RuntimeError; [_on_complete] is never called. *)
Definition kills : list qlabel := opens true ++ fire 6 ++ [XUser (LOp (OpKill 0))] ++ called ++ [XLib].
Theorem C33_kill_refuted : exists ls x, qreach ls x /\ x_esc x = true /\ In HAbort (x_hist x) /\ signals (x_hist x) = 0.
Proof.
  destruct (runs_ok kills (fun x => is_hist [HAbort; HEnd 0 false; HAdd 1; HAdd 0] x && x_esc x) eq_refl) as (x & R & H). split_tests H. apply is_hist_ok in H.
  exists kills, x. rewrite H. repeat split; auto. now left.
Qed.
Print Assumptions C33_kill_refuted.
(** Finding: [cancel()] of a test which has not started (the simulation ends between two tests, regression.py:1127): there is no Task
    whose end would set [_done], so completion is not signalled. *)
Theorem C33_cancel_early_refuted : exists ls x, qexec unkilled qinit ls x /\ idle x /\ In HAbort (x_hist x) /\
  (forall u, ~ registered x u) /\ signals (x_hist x) = 0 /\ s_queue (x_k x) = [].
Proof.
  destruct (runs_un [XCancel 4; XLib] (fun x => is_hist [HAbort; HCancel 4] x && idleb x && match s_queue (x_k x) with [] => true | _ => false end) eq_refl) as (x & R & H).
  split_tests H. apply is_hist_ok in H. exists [XCancel 4; XLib], x. unfold registered. rewrite H. destruct (s_queue (x_k x)); [|discriminate].
  split; [exact R|]. split; [now apply idleb_ok|]. repeat split; [now left|]. intros u [Q|[Q|[]]]; discriminate.
Qed.
Print Assumptions C33_cancel_early_refuted.

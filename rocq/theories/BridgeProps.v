(** C34: bridges. *)
From Verif Require Import Base KernelModel BridgeModel BridgeSpec BridgeInv BridgeThms.
From Coq Require Import Arith.

(** * Executions which are computed *)
(** The conditions as functions. *)
Definition tpc_dec (a b : tpc) : {a = b} + {a <> b}.
Proof. repeat decide equality. Defined.
Definition wstate_dec (a b : wstate) : {a = b} + {a <> b}.
Proof. decide equality. Defined.
Definition pausedb (x : bst) (t : bid) : bool := if wstate_dec (b_st x t) WPause then true else false.
Definition promptb (x : bst) (l : blabel) : bool :=
  match l with
  | BFinish w => match b_wr x w with Some (t, _) => if tpc_dec (b_th x t) (TBlock w) then true else false | None => true end
  | _ => true
  end.
Definition in_orderb (x : bst) (l : blabel) : bool :=
  match l, b_main x with
  | BMain, MWait i t => match b_st x t with WExit => Nat.eqb (length (b_pend x)) (S i) | _ => true end
  | _, _ => true
  end.
Definition announcedb (x : bst) (l : blabel) : bool :=
  match l, b_main x, b_queue x with BEnd, MReact, [] => forallb (pausedb x) (b_pend x) | _, _, _ => true end.
Lemma promptb_ok x l : promptb x l = true -> prompt x l.
Proof. intros H w t r -> E. cbn in H. rewrite E in H. destruct (tpc_dec _ _); [assumption|discriminate]. Qed.
Lemma in_orderb_ok x l : in_orderb x l = true -> in_order x l.
Proof. intros H i t -> E Es. unfold in_orderb in H. rewrite E, Es in H. now apply Nat.eqb_eq. Qed.
Lemma announcedb_ok x l : announcedb x l = true -> announced x l.
Proof.
  intros H -> E Q t I. unfold announcedb in H. rewrite E, Q in H. rewrite forallb_forall in H. specialize (H t I). unfold pausedb in H.
  destruct (wstate_dec _ _); [assumption|discriminate].
Qed.
Fixpoint brun (c : bst -> blabel -> bool) (x : bst) (ls : list blabel) : option bst :=
  match ls with
  | [] => Some x
  | l :: ls' => if c x l then match bstep x l with Some x1 => brun c x1 ls' | None => None end else None
  end.
Lemma brun_exec (c : bst -> blabel -> bool) (P : bst -> blabel -> Prop) : (forall x l, c x l = true -> P x l) ->
  forall ls x x', brun c x ls = Some x' -> bexec P x ls x'.
Proof.
  intros H ls. induction ls as [|l ls IH]; intros x x' E; cbn in E; [injection E as <-; constructor|].
  destruct (c x l) eqn:C; [|discriminate]. destruct (bstep x l) as [x1|] eqn:St; [|discriminate]. econstructor; eauto.
Qed.
Lemma runs_ok (c : bst -> blabel -> bool) (P : bst -> blabel -> Prop) ls f : (forall x l, c x l = true -> P x l) ->
  match brun c binit ls with Some x => f x | None => false end = true -> exists x, bexec P binit ls x /\ f x = true.
Proof.
  intros H E. destruct (brun c binit ls) as [x|] eqn:Q; [|discriminate]. exists x. split; [now apply (brun_exec c P H)|exact E].
Qed.
Definition orderlyb (x : bst) (l : blabel) : bool := promptb x l && in_orderb x l && announcedb x l.
Lemma orderlyb_ok x l : orderlyb x l = true -> orderly x l.
Proof.
  unfold orderlyb. intro H. apply andb_prop in H. destruct H as [H H3]. apply andb_prop in H. destruct H as [H1 H2].
  repeat split; [now apply promptb_ok|now apply in_orderb_ok|now apply announcedb_ok].
Qed.
Definition anyb (x : bst) (l : blabel) : bool := true.
Lemma anyb_ok x l : anyb x l = true -> True.
Proof. auto. Qed.

(** A Task awaits bridge 0, whose function makes the [resume] call 9, which waits for something. Control is in the simulator. *)
Definition waits : list blabel :=
  [BReact; BSched; BEnd; BMain; BNew 0; BEnd; BMain; BMain; BCall 0 9; BSuspend 0; BMain; BMain; BMain; BEnd; BMain; BMain; BMain; BMain].
(** The call ends, the function returns 42, the Task gets it. *)
Definition returns : list blabel :=
  waits ++ [BReact; BSched; BEnd; BMain; BFinish 9; BMain; BEnd; BMain; BMain; BWake 0; BReturn 0 42; BDone 0; BMain; BMain; BMain; BEnd; BMain; BMain].
Definition in_sim (x : bst) : bool := match b_main x with MSim => true | _ => false end.
Lemma in_sim_ok x : in_sim x = true -> b_main x = MSim.
Proof. unfold in_sim. destruct (b_main x); try discriminate. reflexivity. Qed.
Definition is_th (t : bid) (p : tpc) (x : bst) : bool := if tpc_dec (b_th x t) p then true else false.
Lemma is_th_ok t p x : is_th t p x = true -> b_th x t = p.
Proof. unfold is_th. destruct (tpc_dec _ _); [auto|discriminate]. Qed.
Definition bhist_dec (a b : bhist) : {a = b} + {a <> b}.
Proof. repeat decide equality. Defined.
Definition happened (h : bhist) (x : bst) : bool := if in_dec bhist_dec h (b_hist x) then true else false.
Lemma happened_ok h x : happened h x = true -> In h (b_hist x).
Proof. unfold happened. destruct (in_dec _ _ _); [auto|discriminate]. Qed.
Definition wr_dec (a b : option (bid * rstat)) : {a = b} + {a <> b}.
Proof. repeat decide equality. Defined.
Definition is_wr (w : wid) (t : bid) (r : rstat) (x : bst) : bool := if wr_dec (b_wr x w) (Some (t, r)) then true else false.
Lemma is_wr_ok w t r x : is_wr w t r x = true -> b_wr x w = Some (t, r).
Proof. unfold is_wr. destruct (wr_dec _ _); [auto|discriminate]. Qed.

(** * Theorems *)

(** At most one [resume] call of a thread is outstanding. *)
Theorem C34_one_resume ls x : breach ls x -> forall t w1 w2, outstanding x t w1 -> outstanding x t w2 -> w1 = w2.
Proof. apply one_resume. Qed.
Print Assumptions C34_one_resume.
Example C34_one_resume_ex : exists x, breach waits x /\ outstanding x 0 9.
Proof.
  destruct (runs_ok anyb (fun _ _ => True) waits (is_wr 9 0 RBegun) anyb_ok ltac:(vm_compute; reflexivity)) as (x & R & H). exists x. split; [exact R|]. right. now apply is_wr_ok.
Qed.

(** The result of a thread is given to the awaiting Task at most once, after the thread is over, and it is what the function gave;
    [waiter.result] (128-131) never raises RuntimeError. *)
Theorem C34_result ls x : breach ls x -> forall t o, In (HGot t o) (b_hist x) ->
  gots t (b_hist x) = 1 /\ b_th x t = TOver /\ exists v, o = Some v /\ In (HOut t v) (b_hist x).
Proof. apply result_once. Qed.
Print Assumptions C34_result.
Example C34_result_ex : exists x, breach returns x /\ In (HGot 0 (Some 42)) (b_hist x).
Proof.
  destruct (runs_ok anyb (fun _ _ => True) returns (happened (HGot 0 (Some 42))) anyb_ok ltac:(vm_compute; reflexivity)) as (x & R & H). exists x. split; [exact R|]. now apply happened_ok.
Qed.

(** [thread_wait] never raises; a running thread is always recognised by [queue_function]. *)
Theorem C34_no_exception ls x : breach ls x -> b_main x <> MBad /\ forall t, b_th x t = TRun -> In t (b_pend x).
Proof. apply no_exception. Qed.
Print Assumptions C34_no_exception.
Example C34_no_exception_ex : exists x, breach (firstn 8 waits) x /\ b_th x 0 = TRun.
Proof.
  destruct (runs_ok anyb (fun _ _ => True) (firstn 8 waits) (is_th 0 TRun) anyb_ok ltac:(vm_compute; reflexivity)) as (x & R & H). exists x. split; [exact R|]. now apply is_th_ok.
Qed.

(** In orderly executions, when the simulator has control no thread can run. Each of the three conditions is needed: the next three
    theorems. *)
Theorem C34_at_rest_partial ls x : bexec orderly binit ls x -> b_main x = MSim -> forall t, at_rest x t.
Proof. apply sim_at_rest. Qed.
Print Assumptions C34_at_rest_partial.
Example C34_at_rest_ex : exists x, bexec orderly binit waits x /\ b_main x = MSim /\ b_th x 0 = TBlock 9.
Proof.
  destruct (runs_ok orderlyb orderly waits (fun x => in_sim x && is_th 0 (TBlock 9) x) orderlyb_ok ltac:(vm_compute; reflexivity)) as (x & R & H). apply andb_prop in H.
  exists x. split; [exact R|]. split; [now apply in_sim_ok|now apply is_th_ok].
Qed.

(** Finding: a [resume] call ends before its thread has called [thread_suspend] (233). The thread was resumed by an earlier call and runs
    while the event loop goes on with other callbacks (_event_loop.py:47); it calls [start_soon] (229); the event loop runs the new Task
    to its end, [thread_resume] (224) sets RUNNING; then [thread_suspend] sets PAUSED, and [event.wait()] returns at once. The thread runs
    with the state PAUSED, and the simulator gets control. There is one bridge only. *)
Definition race : list blabel :=
  waits ++ [BReact; BSched; BSched; BEnd; BMain; BFinish 9; BMain; BEnd; BWake 0; BCall 0 10; BMain; BEnd; BMain; BFinish 10; BMain; BSuspend 0; BWake 0; BEnd;
    BMain; BMain; BMain; BMain].
Theorem C34_race_refuted : exists ls x t, bexec (fun x l => in_order x l /\ announced x l) binit ls x /\ b_main x = MSim /\ b_th x t = TRun /\
  b_st x t = WPause /\ length (b_pend x) = 1.
Proof.
  destruct (runs_ok (fun x l => in_orderb x l && announcedb x l) (fun x l => in_order x l /\ announced x l) race
    (fun x => in_sim x && is_th 0 TRun x && pausedb x 0 && Nat.eqb (length (b_pend x)) 1)) as (x & R & H).
  - intros x l H. apply andb_prop in H. destruct H. split; [now apply in_orderb_ok|now apply announcedb_ok].
  - vm_compute. reflexivity.
  - apply andb_prop in H. destruct H as [H H4]. apply andb_prop in H. destruct H as [H H3]. apply andb_prop in H. destruct H as [H1 H2].
    exists race, x, 0. split; [exact R|]. split; [now apply in_sim_ok|]. split; [now apply is_th_ok|]. split; [|now apply Nat.eqb_eq].
    unfold pausedb in H3. destruct (wstate_dec _ _); [assumption|discriminate].
Qed.
Print Assumptions C34_race_refuted.

(** Finding: [pending_threads.remove(ext)] (299) in the loop over [pending_threads] (283) makes the loop skip the next thread. Here the
    Task awaiting the thread which is over was cancelled, so nothing is scheduled and the simulator gets control while the skipped thread
    runs. *)
Definition waits2 : list blabel :=
  [BReact; BSched; BEnd; BMain; BNew 0; BNew 1; BEnd; BMain; BMain; BCall 0 9; BSuspend 0; BMain; BMain; BCall 1 10; BSuspend 1; BMain; BMain;
   BMain; BEnd; BMain; BEnd; BMain; BMain; BMain; BMain; BMain; BMain].
Definition skip : list blabel :=
  waits2 ++ [BReact; BSched; BEnd; BMain; BAbandon 0; BFinish 9; BMain; BFinish 10; BMain; BEnd; BMain; BMain; BWake 0; BReturn 0 42; BDone 0; BMain; BMain; BWake 1].
Theorem C34_skip_refuted : exists ls x t, bexec (fun x l => prompt x l /\ announced x l) binit ls x /\ b_main x = MSim /\ b_th x t = TRun.
Proof.
  destruct (runs_ok (fun x l => promptb x l && announcedb x l) (fun x l => prompt x l /\ announced x l) skip (fun x => in_sim x && is_th 1 TRun x)) as (x & R & H).
  - intros x l H. apply andb_prop in H. destruct H. split; [now apply promptb_ok|now apply announcedb_ok].
  - vm_compute. reflexivity.
  - apply andb_prop in H. destruct H as [H1 H2]. exists skip, x, 1. split; [exact R|]. split; [now apply in_sim_ok|now apply is_th_ok].
Qed.
Print Assumptions C34_skip_refuted.

(** Finding: [run()] does not call [run_bridge_threads] when nothing is scheduled (_event_loop.py:46). A callback from the simulator which
    ends the Task of a [resume] call at once (the timeout of a test, _test_manager.py:100-102 and 152) resumes the thread and returns to
    the simulator. *)
Definition unannounced : list blabel := waits ++ [BReact; BFinish 9; BMain; BEnd; BWake 0].
Theorem C34_no_pass_refuted : exists ls x t, bexec (fun x l => prompt x l /\ in_order x l) binit ls x /\ b_main x = MSim /\ b_th x t = TRun.
Proof.
  destruct (runs_ok (fun x l => promptb x l && in_orderb x l) (fun x l => prompt x l /\ in_order x l) unannounced (fun x => in_sim x && is_th 0 TRun x)) as (x & R & H).
  - intros x l H. apply andb_prop in H. destruct H. split; [now apply promptb_ok|now apply in_orderb_ok].
  - vm_compute. reflexivity.
  - apply andb_prop in H. destruct H as [H1 H2]. exists unannounced, x, 0. split; [exact R|]. split; [now apply in_sim_ok|now apply is_th_ok].
Qed.
Print Assumptions C34_no_pass_refuted.

(** In orderly executions no result is left behind: when the simulator has control, the Task awaiting a thread which is over got the
    result or was cancelled. *)
Theorem C34_delivered_partial ls x : bexec orderly binit ls x -> b_main x = MSim -> forall t, b_th x t = TOver ->
  (exists v, In (HGot t (Some v)) (b_hist x)) \/ b_aw x t = AGone.
Proof. apply sim_delivered. Qed.
Print Assumptions C34_delivered_partial.
Example C34_delivered_ex : exists x, bexec orderly binit returns x /\ b_main x = MSim /\ b_th x 0 = TOver /\ In (HGot 0 (Some 42)) (b_hist x).
Proof.
  destruct (runs_ok orderlyb orderly returns (fun x => in_sim x && is_th 0 TOver x && happened (HGot 0 (Some 42)) x) orderlyb_ok ltac:(vm_compute; reflexivity)) as (x & R & H).
  apply andb_prop in H. destruct H as [H H3]. apply andb_prop in H. destruct H as [H1 H2].
  exists x. split; [exact R|]. split; [now apply in_sim_ok|]. split; [now apply is_th_ok|now apply happened_ok].
Qed.

(** Finding: the Task of a [resume] call is cancelled before it begins (the test ends). Its coroutine never runs, so [thread_resume] (224)
    is not called: the thread waits forever, whatever happens later. *)
Definition lose : list blabel := firstn 18 waits2 ++ [BLose 10].
Theorem C34_stuck_refuted : exists ls x t w, bexec orderly binit ls x /\ b_th x t = TBlock w /\
  forall ls' x', bexec (fun _ _ => True) x ls' x' -> b_th x' t = TBlock w.
Proof.
  destruct (runs_ok orderlyb orderly lose (fun x => is_th 1 (TBlock 10) x && is_wr 10 1 RLost x) orderlyb_ok ltac:(vm_compute; reflexivity)) as (x & R & H).
  apply andb_prop in H. destruct H as [H1 H2]. apply is_th_ok in H1. apply is_wr_ok in H2. exists lose, x, 1, 10. split; [exact R|]. split; [exact H1|].
  intros ls' x' R'. apply (stuck (fun _ _ => True) x ls' x' 1 10); auto. apply (orderly_gi lose x R).
Qed.
Print Assumptions C34_stuck_refuted.

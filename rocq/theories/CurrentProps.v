(** C88: [current_task()] names the Task whose code is running. *)
From Verif Require Import Base KernelModel KernelSpec KernelProofs KernelHist KernelLog KernelInv KernelTask KernelWake KernelLayer KernelLeak
  CurrentModel CurrentSpec CurrentProofs.

(** Whatever happens, while the code of a Task has control [current_task()] never returns another Task. *)
Theorem C88_never_another ls s t : exec init ls s -> has_control s t -> current_task s = Some t \/ current_task s = None.
Proof.
  intros E (rest & H). pose proof (cur_init ls s E) as [C|C]; [now right|left]. unfold current_task. rewrite C. destruct H as [-> | ->]; reflexivity.
Qed.
Print Assumptions C88_never_another.

(** Outside every Task (between the entries of the event loop, in callbacks from the simulator) it raises RuntimeError. *)
Theorem C88_outside ls s : exec init ls s -> s_ctl s = [] -> current_task s = None.
Proof. intros E H. pose proof (cur_init ls s E) as [C|C]; [exact C|]. unfold current_task. rewrite C, H. reflexivity. Qed.
Print Assumptions C88_outside.

(** In the done callbacks of a Task which has ended by itself it is that Task or none, never the one which waits for it. *)
Theorem C88_callback ls s t : exec init ls s -> in_callback s t -> current_task s = Some t \/ current_task s = None.
Proof.
  intros E (i & k & rest & H & N). pose proof (cur_init ls s E) as [C|C]; [now right|left]. unfold current_task. rewrite C, H.
  destruct k; [reflexivity|reflexivity|now elim N].
Qed.
Print Assumptions C88_callback.

(** As long as no [_cancel_now] is made from inside a call of a Task (see [C88_kill_refuted]), the code of a Task always
    finds that Task: after every await, after every call it makes, after killing other Tasks, while being closed. *)
Theorem C88_running ls s t : execP not_inside init ls s -> has_control s t -> current_task s = Some t.
Proof. exact (running_pf ls s t). Qed.
Print Assumptions C88_running.

Definition inside_b (f : frame) : bool := match f with FDone _ _ _ => false | _ => true end.
Definition not_inside_b (s : st) (l : label) : bool :=
  match l with LCancelNow _ _ => negb (existsb inside_b (s_ctl s)) | _ => true end.
Lemma not_inside_b_ok s l : not_inside_b s l = true -> not_inside s l.
Proof.
  destruct l; cbn; try exact (fun _ => Logic.I). intros H u. apply negb_true_iff in H.
  split; intro I; assert (X : existsb inside_b (s_ctl s) = true) by (apply existsb_exists; eexists; split; [exact I|reflexivity]); now rewrite X in H.
Qed.

(** Two Tasks: the first waits; the second kills a third which has a done callback, and is then back; the callback itself
    finds the Task which killed. *)
Definition C88_run := [LOp (OpAddDone 2 7); LOp (OpStart 0); LOp (OpStart 1); LOp (OpStart 2); LPop; LAwait (TEvent 3) true; LPop;
  LOp (OpKill 2)].
Definition C88_run2 := C88_run ++ [LDoneNext; LDoneNext].
Example C88_ex : execP not_inside init C88_run2 (final init C88_run2) /\ has_control (final init C88_run2) 1 /\
  current_task (final init C88_run2) = Some 1 /\ state_of (final init C88_run2) 0 = Pending /\
  state_of (final init C88_run2) 2 = Finished.
Proof.
  split; [apply (runs_execP not_inside not_inside_b not_inside_b_ok); vm_compute; reflexivity|].
  split; [eexists; left; vm_compute; reflexivity|]. now vm_compute.
Qed.
Example C88_never_another_ex : exec init C88_run2 (final init C88_run2) /\ has_control (final init C88_run2) 1.
Proof. split; [apply runs_exec; vm_compute; reflexivity|]. eexists; left; vm_compute; reflexivity. Qed.
(** Outside: a Task waits, another has returned. *)
Definition C88_out := [LOp (OpStart 0); LOp (OpStart 1); LPop; LAwait (TEvent 3) true; LPop; LReturn 4; LDoneNext].
Example C88_outside_ex : exec init C88_out (final init C88_out) /\ s_ctl (final init C88_out) = [] /\
  state_of (final init C88_out) 0 = Pending /\ state_of (final init C88_out) 1 = Finished.
Proof. split; [apply runs_exec; vm_compute; reflexivity|]. now vm_compute. Qed.
(** In a done callback of a Task which has returned. *)
Definition C88_cb := [LOp (OpAddDone 0 7); LOp (OpStart 0); LPop; LReturn 4].
Example C88_callback_ex : exec init C88_cb (final init C88_cb) /\ in_callback (final init C88_cb) 0 /\
  current_task (final init C88_cb) = Some 0.
Proof.
  split; [apply runs_exec; vm_compute; reflexivity|]. split; [|now vm_compute].
  eexists _, _, _. split; [vm_compute; reflexivity|discriminate].
Qed.

(** A Task which kills another one can lose its identity: Task 0 kills Task 1 (as when a Task kills the main Task of its
    test), a done callback of Task 1 cancels Task 2 at once (as the end of a test does with every Task of the test,
    _test_manager.py:152), and when [kill()] has returned and Task 0 is running on, [current_task()] raises RuntimeError. *)
Definition C88_lost := [LOp (OpAddDone 1 7); LOp (OpStart 0); LOp (OpStart 2); LOp (OpStart 1); LPop; LOp (OpKill 1);
  LCancelNow 2 5; LDoneNext; LDoneNext; LDoneNext].
Theorem C88_kill_refuted : exists ls s t, exec init ls s /\ has_control s t /\ state_of s t = Running /\ current_task s = None.
Proof.
  exists C88_lost, (final init C88_lost), 0. split; [apply runs_exec; vm_compute; reflexivity|].
  split; [eexists; left; vm_compute; reflexivity|]. now vm_compute.
Qed.
Print Assumptions C88_kill_refuted.

(** And in a done callback of a killed Task, [current_task()] is not the Task which has ended but the one which killed it. *)
Theorem C88_killed_callback_refuted : exists ls s t below u, exec init ls s /\ in_callback_killed s t below /\
  current_task s = Some u /\ u <> t.
Proof.
  exists C88_run, (final init C88_run), 2, [FRun 1], 1. split; [apply runs_exec; vm_compute; reflexivity|].
  split; [eexists; vm_compute; reflexivity|]. split; [vm_compute; reflexivity|discriminate].
Qed.
Print Assumptions C88_killed_callback_refuted.

(** What the calls which start, kill and cancel a Task at once return, in every state of every execution (C18, C19). *)
From Verif Require Import Base KernelModel KernelProofs KernelInv KernelSpec KernelThms KernelProps.

(** [_cancel_now()]: a Task which is done is left alone, one which runs is refused; any other is resumed with the CancelledError within the
    call, or, if its coroutine was never entered, has ended as cancelled (its done callbacks are next). *)
Theorem C19_cancel_now_result ls s t m s' r : reach ls s -> step s (LCancelNow t m) = Some (s', r) ->
  if done s t then r = RBool false /\ s' = s
  else match state_of s t with
       | Running => r = RErr PRuntime /\ s' = s
       | _ => r = RBool true /\ s_current s' = Some t /\
              (k_begun (s_task s t) = true -> state_of s' t = Running /\ k_exc (s_task s' t) = Some (ECancelled m) /\ s_ctl s' = FRun t :: s_ctl s) /\
              (k_begun (s_task s t) = false -> state_of s' t = Cancelled /\ result_of s' t = Some (OExc (ECancelled m)) /\
                 s_ctl s' = FDone t 0 AfterResume :: s_ctl s)
       end.
Proof.
  intros H S. pose proof (reach_inv _ _ H) as I0.
  assert (E : cancel_now s t m = (s', r)).
  { unfold step in S. destruct (s_halt s); [discriminate|]. destruct (s_ctl s) as [|[ | | ]]; try discriminate; injection S as S; exact S. }
  assert (Q : forall s1, s_task s1 t = s_task s t -> s_ctl s1 = s_ctl s ->
    (resume (set_task (add_must s1 t) t (with_exc (s_task (add_must s1 t) t) (Some (ECancelled m)))) t, RBool true) = (s', r) ->
    r = RBool true /\ s_current s' = Some t /\
      (k_begun (s_task s t) = true -> state_of s' t = Running /\ k_exc (s_task s' t) = Some (ECancelled m) /\ s_ctl s' = FRun t :: s_ctl s) /\
      (k_begun (s_task s t) = false -> state_of s' t = Cancelled /\ result_of s' t = Some (OExc (ECancelled m)) /\
         s_ctl s' = FDone t 0 AfterResume :: s_ctl s)).
  { intros s1 T1 C1 X. pose proof (f_equal fst X) as X1. pose proof (f_equal snd X) as X2. cbn [fst snd] in X1, X2. subst s' r. clear X. split; [reflexivity|].
    assert (KE : k_exc (s_task (set_task (add_must s1 t) t (with_exc (s_task (add_must s1 t) t) (Some (ECancelled m)))) t) = Some (ECancelled m)).
    { cbn. rewrite !upd_same. reflexivity. }
    assert (KB : k_begun (s_task (set_task (add_must s1 t) t (with_exc (s_task (add_must s1 t) t) (Some (ECancelled m)))) t) = k_begun (s_task s t)).
    { cbn. rewrite !upd_same. cbn. now rewrite T1. }
    unfold resume. cbv zeta. rewrite KE, KB. destruct (k_begun (s_task s t)).
    - cbn. split; [reflexivity|]. split; [|discriminate]. intros _. unfold state_of. cbn. rewrite !upd_same. cbn. rewrite C1. repeat split.
    - cbn. split; [reflexivity|]. split; [discriminate|]. intros _. unfold result_of, done, state_of. cbn. rewrite !upd_same. cbn. rewrite C1. repeat split. }
  unfold cancel_now in E. unfold done. destruct (state_of s t) eqn:Es.
  all: try (injection E as <- <-; split; reflexivity).
  - apply (Q s); [reflexivity|reflexivity|exact E].
  - destruct (j_cancel_scb [] s t) as (h & E1 & H1); auto. rewrite E1 in E. eapply Q; [| |exact E]; reflexivity.
  - destruct (j_cancel_tcb [] s t) as (s1 & E1 & H1 & T1 & C1); auto. rewrite E1 in E. eapply Q; [| |exact E]; [now rewrite T1|apply C1].
Qed.
Print Assumptions C19_cancel_now_result.

(** [kill()]: a Task which is done is left alone, one which runs is refused; any other is done, with None as its result. *)
Theorem C19_kill_result ls s t s' r : reach ls s -> step s (LOp (OpKill t)) = Some (s', r) ->
  if done s t then r = RUnit /\ s' = s
  else match state_of s t with
       | Running => r = RErr PRuntime /\ s' = s
       | _ => r = RUnit /\ state_of s' t = Finished /\ result_of s' t = Some (OVal None) /\ s_ctl s' = FDone t 0 AfterKill :: s_ctl s /\
              s_current s' = s_current s
       end.
Proof.
  intros H S. pose proof (reach_inv _ _ H) as I0.
  assert (E : kill s t = (s', r)).
  { unfold step in S. destruct (s_halt s); [discriminate|]. cbn [do_op] in S. injection S as S. exact S. }
  assert (Q : forall s1, s_ctl s1 = s_ctl s -> s_current s1 = s_current s -> (set_outcome s1 t Finished (OVal None) AfterKill, RUnit) = (s', r) ->
    r = RUnit /\ state_of s' t = Finished /\ result_of s' t = Some (OVal None) /\ s_ctl s' = FDone t 0 AfterKill :: s_ctl s /\ s_current s' = s_current s).
  { intros s1 C1 C2 X. injection X as <- <-. split; [reflexivity|]. unfold result_of, done, state_of. cbn. rewrite !upd_same. cbn. rewrite C1, C2. repeat split. }
  unfold kill in E. unfold done. destruct (state_of s t) eqn:Es.
  all: try (injection E as <- <-; split; reflexivity).
  - apply (Q s); [reflexivity|reflexivity|exact E].
  - destruct (j_cancel_scb [] s t) as (h & E1 & H1); auto. rewrite E1 in E. eapply Q; [| |exact E]; reflexivity.
  - destruct (j_cancel_tcb [] s t) as (s1 & E1 & H1 & T1 & C1 & _ & _ & _ & C2); auto. rewrite E1 in E. eapply Q; [exact C1|exact C2|exact E].
Qed.
Print Assumptions C19_kill_result.

(** [start_soon] puts a Task which was not started at the end of the run queue, [_start_next] at its front; a started one is refused. *)
Theorem C18_start ls s t (next : bool) s' r : reach ls s -> step s (LOp (if next then OpStartNext t else OpStart t)) = Some (s', r) ->
  match state_of s t with
  | Unstarted => r = RUnit /\ state_of s' t = Scheduled /\ k_exc (s_task s' t) = None /\
      exists h, queued s' = if next then (h, t) :: queued s else queued s ++ [(h, t)]
  | _ => r = RErr PRuntime /\ s' = s
  end.
Proof.
  intros H S. unfold step in S. destruct (s_halt s); [discriminate|]. destruct next; cbn [do_op] in S; injection S as S.
  - unfold start_next in S. destruct (state_of s t) eqn:Es; injection S as <- <-; try (split; reflexivity).
    split; [reflexivity|]. unfold state_of. cbn. rewrite !upd_same. cbn. split; [reflexivity|]. split; [reflexivity|]. exists (s_next s). reflexivity.
  - unfold start_soon in S. destruct (state_of s t) eqn:Es; injection S as <- <-; try (split; reflexivity).
    split; [reflexivity|]. unfold state_of. cbn. rewrite !upd_same. cbn. split; [reflexivity|]. split; [reflexivity|]. exists (s_next s).
    unfold queued. cbn. rewrite map_app. reflexivity.
Qed.
Print Assumptions C18_start.

(** A Task waiting for an event: cancelled at once, killed, started a second time. *)
Example C19_now_ex : reach C19_a (final init C19_a) /\ state_of (final init C19_a) 0 = Pending /\
  (exists s1, step (final init C19_a) (LCancelNow 0 7) = Some (s1, RBool true) /\ s_ctl s1 = [FRun 0]) /\
  (exists s1, step (final init C19_a) (LOp (OpKill 0)) = Some (s1, RUnit) /\ state_of s1 0 = Finished) /\
  (exists s1, step (final init C19_a) (LOp (OpStart 0)) = Some (s1, RErr PRuntime)) /\
  (exists s1, step (final init C19_a) (LOp (OpStartNext 1)) = Some (s1, RUnit) /\ map snd (queued s1) = [1]).
Proof.
  split; [apply C19_ex|]. split; [vm_compute; reflexivity|]. split; [eexists; split; [vm_compute; reflexivity|reflexivity]|].
  split; [eexists; split; [vm_compute; reflexivity|reflexivity]|].
  split; [eexists; vm_compute; reflexivity|]. eexists; split; [vm_compute; reflexivity|reflexivity].
Qed.

(** * C86: asynchronous fixtures under pytest behave like ordinary fixtures *)
From Verif Require Import Base FixtureModel FixtureSpec FixtureProofs.
From Coq Require Import PeanoNat.

(** The cached result of an asynchronous fixture follows pytest's protocol: before the task is done it is the manager, afterwards
    the value, or nothing and the exception. *)
Theorem C86_cached tasks t : 
  (tasks t = Pending -> getitem tasks t 0 = Val (IValue (VManager t)) /\ getitem tasks t 2 = Val INone) /\
  (forall v, tasks t = Finished v -> getitem tasks t 0 = Val (IValue v) /\ getitem tasks t 2 = Val INone) /\
  (forall n, tasks t = Errored (XUser n) -> getitem tasks t 0 = Val INone /\ getitem tasks t 2 = Val (IExc (XUser n))) /\
  getitem tasks t 1 = Val IKey.
Proof.
  unfold getitem. split; [|split; [|split]].
  - intros ->. split; reflexivity.
  - intros v ->. split; reflexivity.
  - intros n ->. split; reflexivity.
  - cbn [Nat.eqb]. rewrite orb_true_r. reflexivity.
Qed.
Print Assumptions C86_cached.

(** Whole sessions: if all fixtures are asynchronous, bodies return objects or raise exceptions of the user without failing
    child tasks, and a test whose setup fails leaves none of its fixtures behind, then the bodies of fixtures and tests are
    called in the same order with the same arguments, and the same setups fail with the same exceptions, as if the fixtures
    were ordinary functions. *)
Theorem C86_like_ordinary sync async body ts : ordinary async body -> Forall good_test ts -> tidy body ts seq_start ->
  s_hist (run_session sync async ts start) = q_hist (seq_session body ts seq_start).
Proof. intros O G T. apply session_rel; auto. apply start_rel. Qed.
Print Assumptions C86_like_ordinary.
(** In particular for fixtures of function scope, whatever fails. *)
Theorem C86_function_scope sync async body ts : ordinary async body -> Forall good_test ts -> (forall t i, In t ts -> t_finish t i = true) ->
  s_hist (run_session sync async ts start) = q_hist (seq_session body ts seq_start).
Proof.
  intros O G F. apply C86_like_ordinary; auto. clear G. generalize seq_start. induction ts as [|t ts IH]; intro q; [exact I|]. split.
  - intros _ i _. apply F. now left.
  - apply IH. intros t' i K. apply F. now right.
Qed.
Print Assumptions C86_function_scope.
(** and for any scopes if no body raises. *)
Theorem C86_no_failure sync async body ts : ordinary async body -> Forall good_test ts -> (forall k e, body k <> inr e) ->
  s_hist (run_session sync async ts start) = q_hist (seq_session body ts seq_start).
Proof.
  intros O G F. apply C86_like_ordinary; auto. clear G.
  assert (X : forall ts q, valued q -> tidy body ts q).
  { clear ts. induction ts as [|t ts IH]; intros q V; [exact Logic.I|].
    assert (Y : forall p q, snd (seq_list body p q) = None).
    { induction p as [|f p IHp]; intro q0; [reflexivity|]. cbn [seq_list]. unfold seq_run. destruct (body (q_runs q0)) as [v|e] eqn:B; [apply IHp|destruct (F _ _ B)]. }
    split.
    - intros N. unfold fails in N. rewrite seq_all_plan in N by exact V. destruct (N (Y _ _)).
    - apply IH. unfold seq_test. rewrite seq_all_plan by exact V. specialize (Y (planl (t_uses t ++ t_args t) (qknown q)) q).
      destruct (seq_list body (planl (t_uses t ++ t_args t) (qknown q)) q) as [q1 x] eqn:E. cbn [snd] in Y. subst x.
      destruct (seq_list_valued _ _ _ _ V E) as [V1 _]. intros i e. cbn [q_cache]. destruct (t_finish t i); [discriminate|apply V1]. }
  apply X. intros i e. discriminate.
Qed.
Print Assumptions C86_no_failure.
(** A clock used by a reset and a bus; the reset is shared by two tests. *)
Definition ex_clock := Fix 0 true [].
Definition ex_reset := Fix 1 true [ex_clock].
Definition ex_bus := Fix 2 true [ex_clock; ex_reset].
Definition ex_tests := [Test [ex_reset] [ex_bus] (fun i => (i =? 2)%nat); Test [] [ex_bus; ex_clock] (fun _ => true); Test [] [ex_reset] (fun _ => true)].
Definition ex_body (k : nat) : value + fexn := if (k =? 5)%nat then inr (XUser 3) else inl (VObj k).
Definition ex_async (k : nat) : outcome := match ex_body k with inl v => Returns v | inr e => Raises e end.
Example C86_like_ordinary_ex : ordinary ex_async ex_body /\ Forall good_test ex_tests /\ tidy ex_body ex_tests seq_start /\
  s_hist (run_session (fun _ => inl VNone) ex_async ex_tests start) =
  [ERun 0 []; ERun 1 [VObj 0]; ERun 2 [VObj 0; VObj 1]; ECall [VObj 2];
   ERun 2 [VObj 0; VObj 1]; ECall [VObj 3; VObj 0];
   ERun 0 []; ERun 1 [VObj 4]; EFailed (XUser 3)].
Proof.
  split; [|split; [|split]].
  - intro k. unfold ex_async, ex_body. destruct (k =? 5)%nat; (split; [reflexivity|]); [now exists 3|discriminate].
  - assert (A : asynchronous ex_bus /\ acyclic ex_bus) by (cbn; intuition discriminate).
    assert (B : asynchronous ex_reset /\ acyclic ex_reset) by (cbn; intuition discriminate).
    assert (C : asynchronous ex_clock /\ acyclic ex_clock) by (cbn; intuition).
    unfold ex_tests. repeat (apply Forall_cons; [intros f H; cbn [t_uses t_args app In] in H; intuition (subst; auto)|]). apply Forall_nil.
  - cbn [tidy ex_tests]. split; [intros N; destruct N; reflexivity|]. split; [intros N; destruct N; reflexivity|]. split; [reflexivity|exact Logic.I].
  - vm_compute. reflexivity.
Qed.
(** The hypotheses of C86_function_scope and of C86_no_failure. *)
Definition ex_tests2 := [Test [ex_reset] [ex_bus] (fun _ => true); Test [] [ex_bus; ex_clock] (fun _ => true)].
Definition ex_async2 (k : nat) : outcome := Returns (VObj k).
Example C86_scope_ex : ordinary ex_async ex_body /\ (forall t i, In t ex_tests2 -> t_finish t i = true) /\
  ordinary ex_async2 (fun k => inl (VObj k)) /\ (forall k e, (fun k => inl (VObj k) : value + fexn) k <> inr e) /\
  s_hist (run_session (fun _ => inl VNone) ex_async ex_tests2 start) <> s_hist (run_session (fun _ => inl VNone) ex_async2 ex_tests2 start).
Proof.
  split; [intro k; unfold ex_async, ex_body; destruct (k =? 5)%nat; (split; [reflexivity|]); [now exists 3|discriminate]|].
  split; [intros t i [<-|[<-|[]]]; reflexivity|].
  split; [intro k; split; [reflexivity|discriminate]|]. split; [discriminate|]. vm_compute. discriminate.
Qed.

(** A fixture of a wider scope which was scheduled but not started because an earlier one failed stays cached without ever
    being run: later tests which use it do not run. With ordinary fixtures the second test runs. *)
Theorem C86_stale_refuted : exists ts body async, ordinary async body /\ Forall good_test ts /\
  q_hist (seq_session body ts seq_start) = [ERun 0 []; EFailed (XUser 7); ERun 1 []; ECall [VObj 1]] /\
  forall sync, s_hist (run_session sync async ts start) = [ERun 0 []; EFailed (XUser 7); EStopped XInvalid].
Proof.
  exists [Test [Fix 0 true []] [Fix 1 true []] (fun _ => false); Test [] [Fix 1 true []] (fun _ => false)],
    (fun k => if (k =? 0)%nat then inr (XUser 7) else inl (VObj k)), (fun k => if (k =? 0)%nat then Raises (XUser 7) else Returns (VObj k)).
  split; [|split; [|split]].
  - intro k. destruct (k =? 0)%nat; (split; [reflexivity|]); [now exists 7|discriminate].
  - repeat (apply Forall_cons; [intros f H; cbn [t_uses t_args app In] in H; intuition (subst; cbn; auto)|]). apply Forall_nil.
  - reflexivity.
  - reflexivity.
Qed.
Print Assumptions C86_stale_refuted.
(** A fixture of a wider scope which failed fails later tests without being run again, as an ordinary one does; but the fixtures
    which come before it in such a test are not set up. *)
Theorem C86_failed_refuted : exists ts body async, ordinary async body /\ Forall good_test ts /\
  q_hist (seq_session body ts seq_start) = [ERun 0 []; EFailed (XUser 7); ERun 1 []; EFailed (XUser 7)] /\
  forall sync, s_hist (run_session sync async ts start) = [ERun 0 []; EFailed (XUser 7); EFailed (XUser 7)].
Proof.
  exists [Test [] [Fix 0 true []] (fun _ => false); Test [Fix 1 true []] [Fix 0 true []] (fun i => (i =? 1)%nat)],
    (fun k => if (k =? 0)%nat then inr (XUser 7) else inl (VObj k)), (fun k => if (k =? 0)%nat then Raises (XUser 7) else Returns (VObj k)).
  split; [|split; [|split]].
  - intro k. destruct (k =? 0)%nat; (split; [reflexivity|]); [now exists 7|discriminate].
  - repeat (apply Forall_cons; [intros f H; cbn [t_uses t_args app In] in H; intuition (subst; cbn; auto)|]). apply Forall_nil.
  - reflexivity.
  - reflexivity.
Qed.
Print Assumptions C86_failed_refuted.
(** An ordinary fixture which asks for an asynchronous one gets the manager instead of the value. *)
Theorem C86_sync_refuted : exists ts async sync, s_hist (run_session sync async ts start) = [ERun 1 [VManager 0]; ERun 0 []; ECall [VObj 5]].
Proof. exists [Test [] [Fix 1 false [Fix 0 true []]] (fun _ => true)], (fun _ => Returns (VObj 4)), (fun _ => inl (VObj 5)). reflexivity. Qed.
Print Assumptions C86_sync_refuted.
(** [cocotb.end_test] in a fixture: the setup passes, a fixture which asks for this one gets None, and a test which does so is
    not run (and passes: [EndTest] is no failure). *)
Theorem C86_end_test_refuted : exists ts async, forall sync, s_hist (run_session sync async ts start) = [ERun 0 []; ERun 1 [VNone]; EStopped XEnd].
Proof.
  exists [Test [Fix 1 true [Fix 0 true []]] [Fix 0 true []] (fun _ => true)], (fun k => if (k =? 0)%nat then Raises XEnd else Returns (VObj k)). reflexivity.
Qed.
Print Assumptions C86_end_test_refuted.
(** A child task of a fixture fails: the first test shows its exception, the next ones CancelledError. *)
Theorem C86_child_refuted : exists ts async, forall sync, s_hist (run_session sync async ts start) = [ERun 0 []; EFailed (XUser 7); EFailed XCancelled].
Proof.
  exists [Test [] [Fix 0 true []] (fun _ => false); Test [] [Fix 0 true []] (fun _ => false)], (fun _ => Stopped (Some (XUser 7))). reflexivity.
Qed.
Print Assumptions C86_child_refuted.
(** A child task fails after the body has returned: the first test fails, the next ones run with the value. *)
Theorem C86_late_refuted : exists ts async, forall sync, s_hist (run_session sync async ts start) = [ERun 0 []; EFailed (XUser 7); ECall [VObj 4]].
Proof.
  exists [Test [] [Fix 0 true []] (fun _ => false); Test [] [Fix 0 true []] (fun _ => false)], (fun _ => Late (VObj 4) (XUser 7)). reflexivity.
Qed.
Print Assumptions C86_late_refuted.
(** An exception with a false truth value is not noticed: the setup passes, and the cached result says that there was none. *)
Theorem C86_falsy_refuted : exists ts async n, (forall sync, s_hist (run_session sync async ts start) = [ERun 0 []; EStopped (XFalsy n)]) /\
  forall t, getitem (fun _ => Errored (XFalsy n)) t 2 = Val INone.
Proof. exists [Test [] [Fix 0 true []] (fun _ => false)], (fun _ => Raises (XFalsy 7)), 7. split; reflexivity. Qed.
Print Assumptions C86_falsy_refuted.

(** On whose behalf a Lock is held. *)
From Verif Require Import Base KernelModel KernelProofs KernelHist KernelLog KernelInv KernelTask KernelWake
  KernelCalls KernelSpec KernelThms.
From Coq Require Import Arith.

(** The history grows, and its last blocking entry about each Task is what the Task remembers. *)
Definition LB (s : st) : Prop := forall t, k_tcb (s_task s t) = last_block t (s_log s).
Definition lb (s s' : st) : Prop := (exists l, s_log s' = l ++ s_log s) /\ (LB s -> LB s').
Lemma lb_refl s : lb s s.
Proof. split; [now exists []|auto]. Qed.
Lemma lb_trans a b c : lb a b -> lb b c -> lb a c.
Proof.
  intros [[l E] H] [[m F] G]. split; [|auto]. exists (m ++ l). now rewrite F, E, app_assoc.
Qed.
Lemma lb_same s s' : s_task s' = s_task s -> s_log s' = s_log s -> lb s s'.
Proof. intros E F. split; [now exists []|]. unfold LB. now rewrite E, F. Qed.
Lemma lb_task s t k : k_tcb k = k_tcb (s_task s t) -> lb s (set_task s t k).
Proof.
  intro E. split; [now exists []|]. intros H u. cbn. unfold upd. destruct (Nat.eqb_spec u t) as [->|]; [|apply H].
  rewrite E. apply H.
Qed.
Definition is_block (o : obs) : bool := match o with OBlock _ _ _ => true | _ => false end.
Lemma lb_log s o : is_block o = false -> lb s (log s o).
Proof.
  intro E. split; [now exists [o]|]. intros H u. cbn. rewrite H. destruct o; try reflexivity. discriminate.
Qed.
Lemma lb_schedule s t e : lb s (schedule_resume s t e).
Proof.
  split; [eexists [_]; reflexivity|]. intros H u. cbn. unfold upd. destruct (Nat.eqb_spec u t) as [->|]; apply H.
Qed.
Lemma lb_schedule_left s t : lb s (schedule_left s t).
Proof.
  split; [eexists [_]; reflexivity|]. intros H u. cbn. unfold upd. destruct (Nat.eqb_spec u t) as [->|]; apply H.
Qed.
Lemma lb_fold (l : list (nat * tid)) s : lb s (fold_left (fun s '(h, t) => schedule_resume s t None) l s).
Proof.
  revert s. induction l as [|[h t] l IH]; intro s; cbn; [apply lb_refl|].
  eapply lb_trans; [apply lb_schedule|apply IH].
Qed.
Lemma lb_react s x : lb s (react s x).
Proof.
  unfold react. eapply lb_trans; [|apply lb_fold]. apply (lb_trans _ (set_cbs s x [])).
  - now apply lb_same.
  - now apply lb_log.
Qed.
Lemma lb_deregister s x h : lb s (fst (deregister s x h)).
Proof.
  unfold deregister. destruct (existsb _ _); [|apply lb_refl].
  set (s1 := set_cbs s x _). assert (H : lb s s1) by (now apply lb_same).
  destruct (s_cbs s1 x); [|exact H]. eapply lb_trans; [exact H|].
  destruct x; cbn [unprime fst]; try apply lb_refl; try (now apply lb_same).
  destruct (g_hdl _); now apply lb_same.
Qed.
Lemma lb_cancel_tcb s u : lb s (fst (cancel_tcb s u)).
Proof. unfold cancel_tcb. destruct (k_tcb _) as [[x h]|]; [apply lb_deregister|apply lb_refl]. Qed.
Lemma lb_outcome s t x o k : lb s (set_outcome s t x o k).
Proof.
  unfold set_outcome. apply (lb_trans _ (set_task s t (with_outcome (s_task s t) x o))); [now apply lb_task|].
  apply (lb_trans _ (log (set_task s t (with_outcome (s_task s t) x o)) (ODone t x o)));
    [now apply lb_log|now apply lb_same].
Qed.
Lemma lb_raised s t e : lb s (coro_raised s t e).
Proof. unfold coro_raised. destruct e; try destruct (Nat.eqb _ _); apply lb_outcome. Qed.
Lemma lb_returned s t e : lb s (coro_returned s t e).
Proof. unfold coro_returned. destruct (Nat.eqb _ _); apply lb_outcome. Qed.
Lemma lb_resume s t : lb s (resume s t).
Proof.
  unfold resume. set (s1 := log _ _).
  assert (H : lb s s1).
  { apply (lb_trans _ (set_task s t (with_running (s_task s t)))); [now apply lb_task|].
    apply (lb_trans _ (set_current (set_task s t (with_running (s_task s t))) (Some t))); [now apply lb_same|].
    now apply lb_log. }
  eapply lb_trans; [exact H|].
  destruct (k_exc _) as [e|].
  - destruct (k_begun _); [now apply lb_same|apply lb_raised].
  - destruct (k_wait _) as [|u]; [now apply lb_same|].
    apply (lb_trans _ (log s1 (OGot t u (result_of s1 u)))); [now apply lb_log|now apply lb_same].
Qed.
Lemma lb_register s x t ok s' b : register s x t ok = (s', b) -> lb s s'.
Proof.
  intro E. unfold register in E. set (h := s_next s) in *.
  set (s1 := log (set_cbs (set_task (set_next s (S h)) t (with_tcb (s_task s t) x h)) x
                   (s_cbs s x ++ [(h, t)])) (OBlock t x h)).
  change (log
    (set_cbs (set_task (set_next s (S h)) t (with_tcb (s_task (set_next s (S h)) t) x h)) x
       (s_cbs (set_task (set_next s (S h)) t (with_tcb (s_task (set_next s (S h)) t) x h)) x ++
        [(h, t)])) (OBlock t x h)) with s1 in E.
  assert (H1 : lb s s1).
  { split; [eexists [_]; reflexivity|]. intros H u. cbn. unfold upd. rewrite (Nat.eqb_sym u t).
    destruct (Nat.eqb_spec t u) as [->|]; [reflexivity|apply H]. }
  destruct (s_cbs s x) as [|d r] eqn:Ec; [|inversion E; subst; apply H1].
  eapply lb_trans; [exact H1|].
  unfold prime in E. destruct x as [e|i|l n|n|v|v|g];
    try (apply (f_equal fst) in E; cbn [fst] in E; rewrite <- E; clear E).
  - destruct (s_event s1 e); [apply lb_react|apply lb_refl].
  - destruct (i_fired _); [apply lb_react|apply lb_refl].
  - destruct (l_current _).
    + now apply lb_same.
    + unfold acquire_and_fire. eapply lb_trans; [|apply lb_react].
      apply (lb_trans _ (set_lock s1 l (Lock (Some n) (l_pending (s_lock s1 l))))); [now apply lb_same|now apply lb_log].
  - apply lb_react.
  - destruct (done s1 v); [apply lb_react|apply lb_refl].
  - destruct (done s1 v); [apply lb_react|apply lb_refl].
  - destruct ok; now apply lb_same.
Qed.
Lemma lb_yielded s u y ok : lb s (coro_yielded s u y ok).
Proof.
  unfold coro_yielded. destruct (negb _); [now apply lb_same|].
  destruct y as [x|].
  - set (s1 := set_task s u (with_state (s_task s u) Pending)).
    assert (N1 : lb s s1) by (now apply lb_task).
    destruct (register s1 x u ok) as [s2 b] eqn:E. apply lb_register in E.
    eapply lb_trans; [exact N1|]. eapply lb_trans; [exact E|].
    destruct b; [|now apply lb_same]. eapply lb_trans; [apply (lb_schedule s2 u (Some EPrime))|]. now apply lb_same.
  - eapply lb_trans; [apply (lb_schedule s u (Some EBadYield))|]. now apply lb_same.
Qed.

Lemma lb_step s l s' r : step s l = Some (s', r) -> lb s s'.
Proof.
  intro St. unfold step in St. destruct (s_halt s); [discriminate|].
  destruct l as [o|u m|v|e|x ok|u| | | | | |g].
  - assert (E : do_op s o = (s', r)) by congruence. clear St. destruct o; cbn [do_op] in E.
    + unfold start_soon in E. destruct (state_of s t); inversion E; subst; try apply lb_refl. apply lb_schedule.
    + unfold start_next in E. destruct (state_of s t); inversion E; subst; try apply lb_refl. apply lb_schedule_left.
    + assert (G : forall s1, lb s s1 -> lb s (add_must (schedule_resume s1 t (Some (ECancelled m))) t)).
      { intros s1 N. eapply lb_trans; [exact N|]. eapply lb_trans; [apply (lb_schedule s1 t (Some (ECancelled m)))|].
        now apply lb_task. }
      unfold cancel in E. destruct (state_of s t) eqn:Es; try (inversion E; subst; apply lb_refl).
      * inversion E; subst. apply G, lb_refl.
      * inversion E; subst.
        apply (lb_trans _ (set_task s t (with_exc (s_task s t) (Some (ECancelled m))))); now apply lb_task.
      * pose proof (lb_cancel_tcb s t) as N.
        destruct (cancel_tcb s t) as [s1 [e|]]; inversion E; subst; [exact N|]. apply G, N.
    + unfold kill in E. destruct (state_of s t) eqn:Es; try (inversion E; subst; apply lb_refl).
      * inversion E; subst. apply lb_outcome.
      * unfold cancel_scb in E. destruct (k_scb (s_task s t)) as [h|]; inversion E; subst; [|apply lb_refl].
        apply (lb_trans _ (cancel_slot s h)); [now apply lb_same|apply lb_outcome].
      * pose proof (lb_cancel_tcb s t) as N.
        destruct (cancel_tcb s t) as [s1 [e|]]; inversion E; subst; [exact N|].
        eapply lb_trans; [exact N|apply lb_outcome].
    + inversion E; subst. now apply lb_task.
    + inversion E; subst. unfold add_done. apply (lb_trans _ (if done s t then log s (OCall t c) else s)).
      * destruct (done s t); [now apply lb_log|apply lb_refl].
      * now apply lb_task.
    + inversion E; subst. unfold event_set. eapply lb_trans; [|apply lb_react]. now apply lb_same.
    + inversion E; subst. now apply lb_same.
    + inversion E; subst. unfold ievent_set. eapply lb_trans; [|apply lb_react]. now apply lb_same.
    + rewrite release_eq in E. destruct (l_current (s_lock s l)); [|inversion E; subst; apply lb_refl].
      cbv zeta in E. set (s1 := log (set_lock s l _) (OFree l)) in E.
      assert (N : lb s s1).
      { apply (lb_trans _ (set_lock s l (Lock None (l_pending (s_lock s l))))); [now apply lb_same|now apply lb_log]. }
      destruct (l_pending (s_lock s l)) as [|n0 p] eqn:Ep; apply (f_equal fst) in E; cbn [fst] in E;
        rewrite <- E; clear E; [exact N|]. eapply lb_trans; [exact N|].
      unfold acquire_and_fire. eapply lb_trans; [|apply lb_react]. 
      eapply lb_trans; [|now apply lb_log]. now apply lb_same.
  - assert (G : cancel_now s u m = (s', r) -> lb s s').
    { intro E.
      assert (G : forall s1, lb s s1 ->
        lb s (resume (set_task (add_must s1 u) u (with_exc (s_task (add_must s1 u) u) (Some (ECancelled m)))) u)).
      { intros s1 N. eapply lb_trans; [exact N|]. eapply lb_trans; [|apply lb_resume].
        apply (lb_trans _ (add_must s1 u)); now apply lb_task. }
      unfold cancel_now in E. destruct (state_of s u) eqn:Es; try (inversion E; subst; apply lb_refl).
      - inversion E; subst. apply G, lb_refl.
      - unfold cancel_scb in E. destruct (k_scb (s_task s u)); inversion E; subst; [|apply lb_refl].
        apply G. now apply lb_same.
      - pose proof (lb_cancel_tcb s u) as N.
        destruct (cancel_tcb s u) as [s1 [e|]]; inversion E; subst; [apply N|]. apply G, N. }
    destruct (s_ctl s) as [|[ | | ]]; try discriminate; apply G; congruence.
  - destruct (s_ctl s) as [|[u| | ] rest] eqn:Ec; try discriminate. inversion St; subst.
    eapply lb_trans; [|apply lb_returned]. now apply lb_same.
  - destruct (s_ctl s) as [|[u| | ] rest] eqn:Ec; try discriminate. inversion St; subst.
    eapply lb_trans; [|apply lb_raised]. now apply lb_same.
  - destruct (s_ctl s) as [|[u| | ] rest] eqn:Ec; try discriminate.
    assert (E : await_trigger s rest u x ok = (s', r)) by congruence. clear St.
    unfold await_trigger in E. destruct (await_check s x) as [s1|] eqn:Ea; [|inversion E; subst; apply lb_refl].
    assert (N : lb s s1).
    { unfold await_check in Ea. destruct x; try (inversion Ea; subst; apply lb_refl).
      - destruct (i_awaited _); inversion Ea; subst. now apply lb_same.
      - destruct (_ || _); inversion Ea; subst. apply lb_refl. }
    apply (f_equal fst) in E. cbn [fst] in E. rewrite <- E. eapply lb_trans; [exact N|].
    eapply lb_trans; [|apply lb_yielded]. eapply lb_trans; [|now apply lb_same]. now apply lb_task.
  - destruct (s_ctl s) as [|[v| | ] rest] eqn:Ec; try discriminate.
    assert (E : await_task s rest v u = (s', r)) by congruence. clear St.
    unfold await_task in E.
    set (s1 := match state_of s u with Unstarted => fst (start_soon s u) | _ => s end) in *.
    assert (N1 : lb s s1).
    { unfold s1, start_soon. destruct (state_of s u) eqn:Es; try apply lb_refl. cbn. apply lb_schedule. }
    eapply lb_trans; [exact N1|].
    destruct (done s1 u).
    + destruct (result_of s1 u); inversion E; subst; [|apply lb_refl]. now apply lb_log.
    + apply (f_equal fst) in E. cbn [fst] in E. rewrite <- E.
      eapply lb_trans; [|apply lb_yielded]. eapply lb_trans; [|now apply lb_same]. now apply lb_task.
  - destruct (s_ctl s) as [|[v| | ] rest] eqn:Ec; try discriminate. inversion St; subst.
    eapply lb_trans; [|apply lb_yielded]. eapply lb_trans; [|now apply lb_same]. now apply lb_task.
  - destruct (s_ctl s) as [|[ |u| ] rest] eqn:Ec; try discriminate. inversion St; subst.
    eapply lb_trans; [|apply lb_outcome]. now apply lb_same.
  - destruct (s_ctl s) as [|[ |u| ] rest] eqn:Ec; try discriminate. inversion St; subst. now apply lb_same.
  - destruct (s_ctl s) as [|[ | |u i k] rest] eqn:Ec; try discriminate.
    destruct (nth_error _ _) as [c|] eqn:En; inversion St; subst.
    + eapply lb_trans; [|now apply lb_log]. now apply lb_same.
    + unfold finish_outcome.
      assert (Q : lb s (react (react (set_ctl s rest) (TComplete u)) (TJoin u))).
      { eapply lb_trans; [|apply lb_react]. eapply lb_trans; [|apply lb_react]. now apply lb_same. }
      destruct k; try exact Q; (eapply lb_trans; [exact Q|]); now apply lb_same.
  - destruct (s_ctl s) as [|] eqn:Ec; try discriminate.
    destruct (s_queue s) as [|q rest] eqn:Eq; [discriminate|]. inversion St; subst.
    assert (Q : lb s (log (set_queue s rest) (OPop (q_id q) (q_task q) (negb (q_cancelled q))))).
    { eapply lb_trans; [|now apply lb_log]. now apply lb_same. }
    destruct (q_cancelled q) eqn:Eqc; [exact Q|]. eapply lb_trans; [exact Q|apply lb_resume].
  - destruct (s_ctl s) as [|] eqn:Ec; try discriminate.
    destruct (s_queue s) as [|q rest] eqn:Eq; [|discriminate].
    destruct (g_armed (s_gpi s g)) eqn:Eg; [|discriminate]. inversion St; subst.
    eapply lb_trans; [|apply lb_react]. now apply lb_same.
Qed.

(** * Who gets a Lock *)
Definition woken (s : st) (k n : nat) (t : tid) : Prop :=
  state_of s t = Scheduled /\ k_exc (s_task s t) = None /\ exists h, k_tcb (s_task s t) = Some (TLock k n, h).
Definition gets (s s' : st) : Prop :=
  forall k n, l_current (s_lock s' k) = Some n -> l_current (s_lock s k) = Some n \/ exists t, woken s' k n t.
Lemma gets_same s s' : s_lock s' = s_lock s -> gets s s'.
Proof. intros E k n H. left. congruence. Qed.
Lemma gets_after s s1 s' : s_lock s1 = s_lock s -> gets s1 s' -> gets s s'.
Proof. intros E H k n C. rewrite <- E. apply H, C. Qed.
Lemma gets_deregister s x h : gets s (fst (deregister s x h)).
Proof.
  unfold deregister. destruct (existsb _ _); [|now apply gets_same].
  set (s1 := set_cbs s x _). destruct (s_cbs s1 x); [|now apply gets_same].
  destruct x as [e|i|l n|n|v|v|g]; cbn [unprime fst]; try (now apply gets_same).
  - intros k m. cbn [s_lock set_lock]. destruct (Nat.eq_dec k l) as [->|N].
    + rewrite upd_same. cbn. auto.
    + rewrite upd_other by exact N. auto.
  - destruct (g_hdl _); now apply gets_same.
Qed.
Lemma gets_cancel_tcb s u : gets s (fst (cancel_tcb s u)).
Proof. unfold cancel_tcb. destruct (k_tcb _) as [[x h]|]; [apply gets_deregister|now apply gets_same]. Qed.
Lemma gets_fire s s1 l n :
  (forall k, k <> l -> s_lock s1 k = s_lock s k) ->
  (exists t h, In t (map snd (s_cbs s1 (TLock l n))) /\ k_tcb (s_task s1 t) = Some (TLock l n, h)) ->
  gets s (acquire_and_fire s1 l n).
Proof.
  intros Hk (t & h & It & Et) k m. unfold acquire_and_fire. rewrite react_lock. cbn [s_lock set_lock log].
  destruct (Nat.eq_dec k l) as [->|N].
  - rewrite upd_same. cbn [l_current]. intros Em. injection Em as <-. right. exists t.
    set (s2 := log _ _).
    destruct (react_task s2 (TLock l n) t) as [[No _]|[_ [h' E]]]; [contradiction|].
    unfold woken, state_of. rewrite E. cbn. eauto.
  - rewrite upd_other by exact N. rewrite Hk by exact N. auto.
Qed.
Lemma gets_yielded s t y ok : gets s (coro_yielded s t y ok).
Proof.
  unfold coro_yielded. destruct (negb _); [now apply gets_same|].
  destruct y as [x|]; [|now apply gets_same].
  set (s0 := set_task s t (with_state (s_task s t) Pending)).
  destruct (register s0 x t ok) as [s' b] eqn:E.
  assert (G : gets s0 s' /\ (b = true -> s_lock s' = s_lock s0)).
  { unfold register in E. set (h := s_next s0) in *.
    set (s1 := log (set_cbs (set_task (set_next s0 (S h)) t (with_tcb (s_task s0 t) x h)) x
                     (s_cbs s0 x ++ [(h, t)])) (OBlock t x h)).
    change (log
      (set_cbs (set_task (set_next s0 (S h)) t (with_tcb (s_task (set_next s0 (S h)) t) x h)) x
         (s_cbs (set_task (set_next s0 (S h)) t (with_tcb (s_task (set_next s0 (S h)) t) x h)) x ++
          [(h, t)])) (OBlock t x h)) with s1 in E.
    destruct (s_cbs s0 x) as [|d r] eqn:Ec.
    2:{ inversion E; subst. split; [now apply gets_same|discriminate]. }
    unfold prime in E. destruct x as [e|i|l n|n|v|v|g];
      try (assert (Eb : b = false) by (apply (f_equal snd) in E; cbn [snd] in E; congruence);
           split; [|congruence]; apply (f_equal fst) in E; cbn [fst] in E; rewrite <- E; clear E).
    - destruct (s_event s1 e); apply gets_same; [rewrite react_lock|]; reflexivity.
    - destruct (i_fired _); apply gets_same; [rewrite react_lock|]; reflexivity.
    - destruct (l_current _) eqn:El.
      + intros k m. cbn [s_lock set_lock]. destruct (Nat.eq_dec k l) as [->|N].
        * rewrite upd_same. cbn. intros [= <-]. left. exact El.
        * rewrite upd_other by exact N. auto.
      + apply gets_fire; [reflexivity|]. exists t, h. split.
        * unfold s1; cbn [s_cbs set_cbs log]. rewrite updt_same. now left.
        * unfold s1; cbn [s_task set_cbs set_task log]. rewrite upd_same. reflexivity.
    - apply gets_same. rewrite react_lock. reflexivity.
    - destruct (done s1 v); apply gets_same; [rewrite react_lock|]; reflexivity.
    - destruct (done s1 v); apply gets_same; [rewrite react_lock|]; reflexivity.
    - destruct ok; inversion E; subst; (split; [now apply gets_same|reflexivity]). }
  destruct G as [G1 G2]. destruct b.
  - apply gets_same. cbn. rewrite G2; reflexivity.
  - intros k n C. destruct (G1 k n C) as [Q|(u & Q)]; [left; exact Q|right; exists u; exact Q].
Qed.

Lemma gets_step s l s' r : Inv s -> step s l = Some (s', r) -> gets s s'.
Proof.
  intros H St. unfold step in St. destruct (s_halt s); [discriminate|].
  destruct l as [o|u m|v|e|x ok|u| | | | | |g].
  - assert (E : do_op s o = (s', r)) by congruence. clear St. destruct o; cbn [do_op] in E.
    + unfold start_soon in E. destruct (state_of s t); inversion E; subst; now apply gets_same.
    + unfold start_next in E. destruct (state_of s t); inversion E; subst; now apply gets_same.
    + assert (G : forall s1, gets s s1 -> s_lock s1 = s_lock s1 ->
        gets s s1 -> (forall k, l_current (s_lock s1 k) = l_current (s_lock s k)) ->
        gets s (add_must (schedule_resume s1 t (Some (ECancelled m))) t)).
      { intros s1 _ _ _ C k n. cbn. rewrite C. auto. }
      unfold cancel in E. destruct (state_of s t) eqn:Es; try (inversion E; subst; now apply gets_same).
      assert (C : forall k, l_current (s_lock (fst (cancel_tcb s t)) k) = l_current (s_lock s k)).
      { intro k. unfold cancel_tcb. destruct (k_tcb _) as [[x h]|]; [|reflexivity]. unfold deregister.
        destruct (existsb _ _); [|reflexivity]. set (s1 := set_cbs s x _). destruct (s_cbs s1 x); [|reflexivity].
        destruct x; cbn [unprime fst]; try reflexivity.
        - cbn [s_lock set_lock]. destruct (Nat.eq_dec k l) as [->|N]; [rewrite upd_same|rewrite upd_other by exact N]; reflexivity.
        - destruct (g_hdl _); reflexivity. }
      destruct (cancel_tcb s t) as [s1 [e|]]; inversion E; subst; intros k n; cbn in *; rewrite C; auto.
    + unfold kill in E. destruct (state_of s t) eqn:Es; try (inversion E; subst; now apply gets_same).
      * unfold cancel_scb in E. destruct (k_scb (s_task s t)) as [h|]; inversion E; subst; now apply gets_same.
      * pose proof (gets_cancel_tcb s t) as N. 
        assert (C : forall k, l_current (s_lock (fst (cancel_tcb s t)) k) = l_current (s_lock s k)).
        { intro k. unfold cancel_tcb. destruct (k_tcb _) as [[x h]|]; [|reflexivity]. unfold deregister.
          destruct (existsb _ _); [|reflexivity]. set (s1 := set_cbs s x _). destruct (s_cbs s1 x); [|reflexivity].
          destruct x; cbn [unprime fst]; try reflexivity.
          - cbn [s_lock set_lock]. destruct (Nat.eq_dec k l) as [->|Nk]; [rewrite upd_same|rewrite upd_other by exact Nk]; reflexivity.
          - destruct (g_hdl _); reflexivity. }
        destruct (cancel_tcb s t) as [s1 [e|]]; inversion E; subst; intros k n; cbn in *; rewrite C; auto.
    + inversion E; subst. now apply gets_same.
    + inversion E; subst. apply gets_same. unfold add_done. destruct (done s t); reflexivity.
    + inversion E; subst. apply gets_same. unfold event_set. now rewrite react_lock.
    + inversion E; subst. now apply gets_same.
    + inversion E; subst. apply gets_same. unfold ievent_set. now rewrite react_lock.
    + rewrite release_eq in E. destruct (l_current (s_lock s l)) as [nc|] eqn:Ec; [|inversion E; subst; now apply gets_same].
      cbv zeta in E.
      destruct (l_pending (s_lock s l)) as [|n0 p] eqn:Ep; apply (f_equal fst) in E; cbn [fst] in E;
        rewrite <- E; clear E.
      * intros k n. cbn. unfold upd. destruct (Nat.eqb_spec k l); cbn; [discriminate|auto].
      * apply gets_fire.
        -- intros k Nk. cbn [s_lock set_lock log]. rewrite !upd_other by exact Nk. reflexivity.
        -- assert (I0 : In n0 (l_pending (s_lock s l))) by (rewrite Ep; now left).
           apply (O_lock3 _ (J_obj _ _ H)) in I0. destruct (s_cbs s (TLock l n0)) as [|[h t] q] eqn:Eq; [congruence|].
           exists t, h. assert (It : In (h, t) (s_cbs s (TLock l n0))) by (rewrite Eq; now left). split.
           ++ cbn [s_cbs set_lock log]. rewrite Eq. now left.
           ++ apply (L_cpend _ _ (J_loc _ _ H) _ _ _ It).
  - assert (G : cancel_now s u m = (s', r) -> gets s s').
    { intro E. unfold cancel_now in E. destruct (state_of s u) eqn:Es; try (inversion E; subst; now apply gets_same).
      - inversion E; subst. apply gets_same. now rewrite resume_lock.
      - unfold cancel_scb in E. destruct (k_scb (s_task s u)); inversion E; subst; apply gets_same; [|reflexivity].
        now rewrite resume_lock.
      - assert (C : forall k, l_current (s_lock (fst (cancel_tcb s u)) k) = l_current (s_lock s k)).
        { intro k. unfold cancel_tcb. destruct (k_tcb _) as [[x h]|]; [|reflexivity]. unfold deregister.
          destruct (existsb _ _); [|reflexivity]. set (s1 := set_cbs s x _). destruct (s_cbs s1 x); [|reflexivity].
          destruct x; cbn [unprime fst]; try reflexivity.
          - cbn [s_lock set_lock]. destruct (Nat.eq_dec k l) as [->|Nk]; [rewrite upd_same|rewrite upd_other by exact Nk]; reflexivity.
          - destruct (g_hdl _); reflexivity. }
        destruct (cancel_tcb s u) as [s1 [e|]]; inversion E; subst; intros k n; rewrite ?resume_lock; cbn in *;
          rewrite C; auto. }
    destruct (s_ctl s) as [|[ | | ]]; try discriminate; apply G; congruence.
  - destruct (s_ctl s) as [|[u| | ] rest] eqn:Ec; try discriminate. inversion St; subst.
    apply gets_same. now rewrite coro_returned_lock.
  - destruct (s_ctl s) as [|[u| | ] rest] eqn:Ec; try discriminate. inversion St; subst.
    apply gets_same. now rewrite coro_raised_lock.
  - destruct (s_ctl s) as [|[u| | ] rest] eqn:Ec; try discriminate.
    assert (E : await_trigger s rest u x ok = (s', r)) by congruence. clear St.
    unfold await_trigger in E. destruct (await_check s x) as [s1|] eqn:Ea; [|inversion E; subst; now apply gets_same].
    apply (f_equal fst) in E. cbn [fst] in E. rewrite <- E.
    eapply gets_after; [|apply gets_yielded]. apply (await_check_lock _ _ _ Ea).
  - destruct (s_ctl s) as [|[v| | ] rest] eqn:Ec; try discriminate.
    assert (E : await_task s rest v u = (s', r)) by congruence. clear St.
    unfold await_task in E.
    set (s1 := match state_of s u with Unstarted => fst (start_soon s u) | _ => s end) in *.
    assert (N1 : s_lock s1 = s_lock s).
    { unfold s1, start_soon. destruct (state_of s u); reflexivity. }
    destruct (done s1 u).
    + destruct (result_of s1 u); inversion E; subst; now apply gets_same.
    + apply (f_equal fst) in E. cbn [fst] in E. rewrite <- E.
      eapply gets_after; [|apply gets_yielded]. exact N1.
  - destruct (s_ctl s) as [|[v| | ] rest] eqn:Ec; try discriminate. inversion St; subst.
    eapply gets_after; [|apply gets_yielded]. reflexivity.
  - destruct (s_ctl s) as [|[ |u| ] rest] eqn:Ec; try discriminate. inversion St; subst. now apply gets_same.
  - destruct (s_ctl s) as [|[ |u| ] rest] eqn:Ec; try discriminate. inversion St; subst. now apply gets_same.
  - destruct (s_ctl s) as [|[ | |u i k] rest] eqn:Ec; try discriminate.
    destruct (nth_error _ _) as [c|] eqn:En; inversion St; subst; [now apply gets_same|].
    apply gets_same. unfold finish_outcome. destruct k; rewrite ?react_lock; cbn [s_lock set_current set_halt log]; rewrite ?react_lock; reflexivity.
  - destruct (s_ctl s) as [|] eqn:Ec; try discriminate.
    destruct (s_queue s) as [|q rest] eqn:Eq; [discriminate|]. inversion St; subst.
    destruct (q_cancelled q) eqn:Eqc; apply gets_same; [reflexivity|now rewrite resume_lock].
  - destruct (s_ctl s) as [|] eqn:Ec; try discriminate.
    destruct (s_queue s) as [|q rest] eqn:Eq; [|discriminate].
    destruct (g_armed (s_gpi s g)) eqn:Eg; [|discriminate]. inversion St; subst.
    apply gets_same. now rewrite react_lock.
Qed.

(** * The holder *)
Lemma acquired_mono k l m x : In x (acquired k m) -> In x (acquired k (l ++ m)).
Proof.
  intro H. induction l as [|o l IH]; cbn; [exact H|]. destruct o; try exact IH.
  destruct e; [exact IH|]. destruct (last_block t (l ++ m)) as [[[] h]|]; try exact IH.
  destruct (Nat.eqb l0 k); [right|]; exact IH.
Qed.
Definition HI (k : nat) (s : st) : Prop :=
  LB s /\ forall n, l_current (s_lock s k) = Some n ->
    exists t, woken s k n t \/ In (t, n) (acquired k (s_log s)).

Lemma woken_tstep l t kk kk' k n h : tstep l t kk kk' ->
  k_state kk = Scheduled -> k_exc kk = None -> k_tcb kk = Some (TLock k n, h) ->
  l <> LOp (OpKill t) -> (forall m, l <> LOp (OpCancel t m) /\ l <> LCancelNow t m) ->
  (k_state kk' = Scheduled /\ k_exc kk' = None /\ k_tcb kk' = Some (TLock k n, h)) \/
  (l = LPop /\ kk' = with_running kk).
Proof.
  intros T A B C N1 N2. inversion T; subst; try congruence;
    try (match goal with H : _ = _ \/ _ = _ |- _ => destruct H; congruence end); auto.
  - exfalso. apply (proj1 (N2 m)). reflexivity.
  - exfalso. apply (proj2 (N2 m)). reflexivity.
  - exfalso. apply (proj2 (N2 m)). reflexivity.
Qed.

Lemma hi_step k s l s' r : Inv s -> undisturbed k s l -> HI k s -> step s l = Some (s', r) -> HI k s'.
Proof.
  intros I [_ U] [B C] S. pose proof (lb_step _ _ _ _ S) as [[lg El] Lb]. split; [auto|].
  intros n Cn. destruct (gets_step _ _ _ _ I S k n Cn) as [Co|(t & W)]; [|eauto].
  destruct (C n Co) as (t & [W|A]).
  2:{ exists t. right. rewrite El. now apply acquired_mono. }
  exists t. destruct W as (W1 & W2 & h & W3).
  assert (Hd : handed s k t n).
  { split; [exact W1|]. split; [exact W2|]. exists h. rewrite <- (B t). exact W3. }
  destruct (U t n Hd) as [U1 U2].
  destruct (woken_tstep l t _ _ k n h (step_tstep _ _ _ _ t I S) W1 W2 W3 U1 U2) as [(Q1 & Q2 & Q3)|(-> & Q)].
  - left. split; [exact Q1|]. split; [exact Q2|]. eauto.
  - right.
    unfold step in S. destruct (s_halt s); [discriminate|].
    destruct (s_ctl s); [|discriminate]. destruct (s_queue s) as [|q rest] eqn:Eq; [discriminate|].
    set (s1 := log (set_queue s rest) (OPop (q_id q) (q_task q) (negb (q_cancelled q)))) in S.
    assert (Sq : s' = if q_cancelled q then s1 else resume s1 (q_task q)) by congruence.
    assert (Rt : state_of s' t = Running) by (unfold state_of; rewrite Q; reflexivity).
    destruct (q_cancelled q) eqn:Ecq.
    { exfalso. subst s'. unfold state_of in Rt, W1. unfold s1 in Rt. cbn in Rt. congruence. }
    destruct (Nat.eq_dec (q_task q) t) as [Et|Nt].
    2:{ exfalso. subst s'. unfold state_of in *. rewrite resume_task in Rt. unfold s1 in Rt. cbn in Rt.
      assert (X : Nat.eqb t (q_task q) = false) by (apply Nat.eqb_neq; congruence). rewrite X in Rt. congruence. }
    subst s'. rewrite Et. unfold resume. change (s_task s1 t) with (s_task s t). rewrite W2.
    assert (X : In (t, n) (acquired k (OResume t None :: s_log s1))).
    { cbn. rewrite <- (B t), W3, Nat.eqb_refl. now left. }
    destruct (k_wait (s_task s t)); [exact X|]. apply (acquired_mono k [_]), X.
Qed.
Lemma no_leak_pf k ls s n : execP (undisturbed k) init ls s -> l_current (s_lock s k) = Some n ->
  exists t, handed s k t n \/ In (t, n) (acquired k (s_log s)).
Proof.
  intros E C. destruct (execP_inv (undisturbed k) (HI k) init ls s) as [I [B H]].
  - intros ? ? []. assumption.
  - intros. eapply hi_step; eassumption.
  - apply inv_init.
  - split; [intro t; reflexivity|]. cbn. discriminate.
  - exact E.
  - destruct (H n C) as (t & [(W1 & W2 & h & W3)|A]); [|eauto]. exists t. left. split; [exact W1|].
    split; [exact W2|]. exists h. rewrite <- (B t). exact W3.
Qed.
Lemma no_leak_free_pf k ls s : execP (undisturbed k) init ls s -> s_queue s = [] ->
  (forall t n, In (t, n) (acquired k (s_log s)) -> l_current (s_lock s k) <> Some n) ->
  l_current (s_lock s k) = None /\ l_pending (s_lock s k) = [].
Proof.
  intros E Q A.
  assert (R : reach ls s) by (revert E; apply execP_weaken; intros ? ? []; assumption).
  assert (C : l_current (s_lock s k) = None).
  { destruct (l_current (s_lock s k)) as [n|] eqn:C; [|reflexivity]. exfalso.
    destruct (no_leak_pf k ls s n E C) as (t & [(W & _)|H]); [|now apply (A t n)].
    pose proof (one_place_pf ls s t R) as P. unfold one_place in P. rewrite W in P. unfold slots in P.
    rewrite Q in P. destruct P as [P _]. discriminate P. }
  split; [exact C|]. exact (lock_free_pf ls s k R C).
Qed.

(** * Cancellation, seen from an idle event loop *)
Lemma cancel_idle_pf ls s t m s1 ms s2 : reach ls s ->
  step s (LOp (OpCancel t m)) = Some (s1, RBool true) -> execP (left_alone t) s1 ms s2 ->
  s_ctl s2 = [] -> s_queue s2 = [] -> ended_by_cancel s2 t.
Proof.
  intros R S E C Q.
  assert (R2 : reach (ls ++ LOp (OpCancel t m) :: ms) s2).
  { eapply execP_app; [exact R|]. econstructor; [exact Logic.I|exact S|].
    revert E. apply execP_weaken. intros ? ? [? _]. assumption. }
  pose proof (one_place_pf _ _ t R2) as P. unfold one_place, slots, frames in P. rewrite C, Q in P. cbn in P.
  destruct (contract_pf _ _ _ _ _ _ _ R S E) as [[X _]|[X|X]]; [| |exact X]; rewrite X in P.
  - destruct P as [P _]. discriminate P.
  - destruct P as (_ & _ & P). discriminate P.
Qed.

(** * Computed executions *)
Lemma runs_execP (P : st -> label -> Prop) ok : (forall s l, ok s l = true -> P s l) ->
  forall ls s, runs ok s ls = true -> execP P s ls (final s ls).
Proof.
  intros H ls. unfold final. induction ls as [|l ls IH]; intros s R; cbn in *; [constructor|].
  apply andb_prop in R. destruct R as [Rl R]. destruct (step s l) as [[s1 r]|] eqn:Es; [|discriminate].
  econstructor; [now apply H|exact Es|]. specialize (IH s1 R).
  assert (Hr : exists s', run s1 ls = Some s').
  { clear - R. revert s1 R. induction ls as [|l ls IH]; intros s1 R; cbn in *; [eauto|].
    apply andb_prop in R. destruct R as [_ R]. destruct (step s1 l) as [[s2 r]|]; [eauto|discriminate]. }
  destruct Hr as [s' Hr]. rewrite Hr in *. exact IH.
Qed.
Lemma runs_reach ls : runs sim_okb init ls = true -> reach ls (final init ls).
Proof. apply runs_execP. intros s l. unfold sim_ok, sim_okb. destruct l; auto. Qed.
Lemma runs_exec ls s : runs (fun _ _ => true) s ls = true -> exec s ls (final s ls).
Proof.
  intro H. assert (E : execP (fun _ _ => True) s ls (final s ls)) by (eapply runs_execP; [|exact H]; auto).
  clear H. revert E. generalize (final s ls). intros s' E. induction E; [constructor|econstructor; eauto].
Qed.
Lemma one_place_scheduled s t tr : one_place s t -> state_of s t = Scheduled -> regs s t tr = 0.
Proof. unfold one_place. intros P E. rewrite E in P. apply P. Qed.

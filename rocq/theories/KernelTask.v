(** What one step of the scheduler kernel can do to one Task, and to the Tasks blocked on a trigger. *)
From Verif Require Import Base KernelModel KernelProofs KernelHist KernelLog KernelInv.
From Coq Require Import Arith Sorted.

(** The record of a Task whose coroutine raised [e] (task.py:371-412). *)
Definition raised (k : task) (e : exc) : task :=
  match e with
  | EExit _ => with_outcome k Errored (OExc e)
  | ECancelled _ => with_outcome k Cancelled (OExc e)
  | _ => with_outcome k Errored (OExc (if Nat.eqb (k_must k) 0 then e else EIgnoredCancel))
  end.
Definition returned (k : task) (v : nat) : task :=
  if Nat.eqb (k_must k) 0 then with_outcome k Finished (OVal (Some v))
  else with_outcome k Errored (OExc EIgnoredCancel).

Definition idle (x : tstate) : Prop := x = Unstarted \/ x = Scheduled \/ x = Pending.

Inductive tstep (l : label) (t : tid) (k : task) : task -> Prop :=
| ts_same : tstep l t k k
| ts_ready h : k_state k = Unstarted \/ k_state k = Pending -> tstep l t k (with_sched k h None)
| ts_uncancel : l = LOp (OpUncancel t) -> tstep l t k (with_must k (Nat.pred (k_must k)))
| ts_dcb c : l = LOp (OpAddDone t c) -> tstep l t k (with_dcbs k (k_dcbs k ++ [c]))
| ts_cancel h m : l = LOp (OpCancel t m) -> k_state k = Unstarted \/ k_state k = Pending ->
    tstep l t k (with_must (with_sched k h (Some (ECancelled m))) (S (k_must k)))
| ts_cancel_sched m : l = LOp (OpCancel t m) -> k_state k = Scheduled ->
    tstep l t k (with_must (with_exc k (Some (ECancelled m))) (S (k_must k)))
| ts_kill : l = LOp (OpKill t) -> idle (k_state k) ->
    tstep l t k (with_outcome k Finished (OVal None))
| ts_resume : l = LPop -> k_state k = Scheduled -> k_exc k = None \/ k_begun k = true ->
    tstep l t k (with_running k)
| ts_stillborn e : l = LPop -> k_state k = Scheduled -> k_exc k = Some e -> k_begun k = false ->
    tstep l t k (raised (with_running k) e)
| ts_now m : l = LCancelNow t m -> idle (k_state k) -> k_begun k = true ->
    tstep l t k (with_running (with_exc (with_must k (S (k_must k))) (Some (ECancelled m))))
| ts_now_stillborn m : l = LCancelNow t m -> idle (k_state k) -> k_begun k = false ->
    tstep l t k (with_outcome (with_running (with_exc (with_must k (S (k_must k))) (Some (ECancelled m))))
                     Cancelled (OExc (ECancelled m)))
| ts_return v : l = LReturn v -> k_state k = Running -> tstep l t k (returned k v)
| ts_raise e : l = LRaise e -> k_state k = Running -> tstep l t k (raised k e)
| ts_block w tr h : k_state k = Running -> k_must k = 0 ->
    tstep l t k (with_tcb (with_state (with_wait k w) Pending) tr h)
| ts_through w tr h h' e : k_state k = Running -> k_must k = 0 -> e = None \/ e = Some EPrime ->
    tstep l t k (with_sched (with_tcb (with_state (with_wait k w) Pending) tr h) h' e)
| ts_bad h : l = LYieldBad -> k_state k = Running -> k_must k = 0 ->
    tstep l t k (with_sched (with_wait k WTrig) h (Some EBadYield))
| ts_close w : k_state k = Running -> k_must k <> 0 -> tstep l t k (with_wait k w)
| ts_closed : l = LCloseEnd -> k_state k = Running ->
    tstep l t k (with_outcome k Errored (OExc EIgnoredCancel)).

Lemma deregister_task s tr h : s_task (fst (deregister s tr h)) = s_task s.
Proof.
  unfold deregister. destruct (existsb _ _); [|reflexivity].
  set (s1 := set_cbs s tr _). destruct (s_cbs s1 tr); [|reflexivity].
  destruct tr; cbn; try reflexivity. destruct (g_hdl _); reflexivity.
Qed.
Lemma cancel_tcb_task s t : s_task (fst (cancel_tcb s t)) = s_task s.
Proof. unfold cancel_tcb. destruct (k_tcb _) as [[]|]; [apply deregister_task|reflexivity]. Qed.

Lemma react_tstep X s tr l t : Loc X s -> tstep l t (s_task s t) (s_task (react s tr) t).
Proof.
  intro L. destruct (react_task s tr t) as [[_ ->]|[I [h ->]]]; [constructor|].
  apply ts_ready. right. apply in_map_iff in I. destruct I as ([j u] & E & I). cbn in E; subst.
  destruct (L_cpend _ _ L _ _ _ I) as (_ & E & _). exact E.
Qed.

Lemma set_outcome_task s t x o k u :
  s_task (set_outcome s t x o k) u = if Nat.eqb u t then with_outcome (s_task s t) x o else s_task s u.
Proof. reflexivity. Qed.
Lemma coro_raised_task s t e u :
  s_task (coro_raised s t e) u = if Nat.eqb u t then raised (s_task s t) e else s_task s u.
Proof. unfold coro_raised, raised. destruct e; try destruct (Nat.eqb (k_must _) 0); reflexivity. Qed.
Lemma coro_returned_task s t v u :
  s_task (coro_returned s t v) u = if Nat.eqb u t then returned (s_task s t) v else s_task s u.
Proof. unfold coro_returned, returned. destruct (Nat.eqb (k_must _) 0); reflexivity. Qed.
Lemma resume_task s t u :
  s_task (resume s t) u =
  if Nat.eqb u t then
    match k_exc (s_task s t) with
    | Some e => if k_begun (s_task s t) then with_running (s_task s t) else raised (with_running (s_task s t)) e
    | None => with_running (s_task s t)
    end
  else s_task s u.
Proof.
  unfold resume. destruct (k_exc (s_task s t)) as [e|] eqn:E.
  - destruct (k_begun (s_task s t)) eqn:B; [reflexivity|].
    rewrite coro_raised_task. cbn. unfold upd. rewrite Nat.eqb_refl. destruct (Nat.eqb u t); reflexivity.
  - destruct (k_wait (s_task s t)); reflexivity.
Qed.

(** Registering [t]: only [t] itself can be woken, and it becomes PENDING or is woken at once. *)
Lemma register_task X s tr t ok s' b :
  ~ In t X -> state_of s t = Pending -> Loc (t :: X) s -> register s tr t ok = (s', b) ->
  (forall u, u <> t -> s_task s' u = s_task s u) /\
  exists h, (s_task s' t = with_tcb (s_task s t) tr h) \/
    (b = false /\ exists h', s_task s' t = with_sched (with_tcb (s_task s t) tr h) h' None).
Proof.
  intros HX P L. unfold register. set (h := s_next s).
  set (s1 := log (set_cbs (set_task (set_next s (S h)) t (with_tcb (s_task s t) tr h)) tr
                   (s_cbs s tr ++ [(h, t)])) (OBlock t tr h)).
  change (log
    (set_cbs (set_task (set_next s (S h)) t (with_tcb (s_task (set_next s (S h)) t) tr h)) tr
       (s_cbs (set_task (set_next s (S h)) t (with_tcb (s_task (set_next s (S h)) t) tr h)) tr ++
        [(h, t)])) (OBlock t tr h)) with s1.
  assert (T1 : s_task s1 t = with_tcb (s_task s t) tr h) by (cbn; apply upd_same).
  assert (U1 : forall u, u <> t -> s_task s1 u = s_task s u) by (intros; cbn; now apply upd_other).
  destruct (s_cbs s tr) as [|c r] eqn:Ec.
  2:{ intros [= <- <-]. split; [exact U1|]. exists h. now left. }
  assert (F : forall s2, s_task s2 = s_task s1 -> s_cbs s2 = s_cbs s1 ->
     (forall u, u <> t -> s_task (react s2 tr) u = s_task s u) /\
     exists h', s_task (react s2 tr) t = with_sched (with_tcb (s_task s t) tr h) h' None).
  { intros s2 E1 E2.
    assert (K : s_cbs s2 tr = [(h, t)]) by (rewrite E2; cbn; rewrite updt_same; reflexivity).
    split.
    - intros u N. destruct (react_task s2 tr u) as [[_ E]|[I _]].
      + rewrite E, E1. now apply U1.
      + rewrite K in I. destruct I as [I|[]]. cbn in I. congruence.
    - destruct (react_task s2 tr t) as [[I _]|[_ [h' E]]].
      + rewrite K in I. exfalso. apply I. now left.
      + exists h'. rewrite E, E1, T1. reflexivity. }
  assert (Z : forall (c : bool) s2 s3, s_task s3 = s_task s1 -> s_task s2 = s_task s1 -> s_cbs s2 = s_cbs s1 ->
    (if c then react s2 tr else s3, false) = (s', b) ->
    (forall u, u <> t -> s_task s' u = s_task s u) /\
    exists h, (s_task s' t = with_tcb (s_task s t) tr h) \/
    (b = false /\ exists h', s_task s' t = with_sched (with_tcb (s_task s t) tr h) h' None)).
  { intros c s2 s3 E3 E1 E2 E. destruct c; inversion E; subst.
    - destruct (F s2 E1 E2) as [A [h' B]]. split; [exact A|]. exists h. right. eauto.
    - split; [intros u N; rewrite E3; now apply U1|]. exists h. left. now rewrite E3. }
  unfold prime. destruct tr as [e|i|l n|n|u|u|g].
  - apply (Z (s_event s1 e) s1 s1); reflexivity.
  - apply (Z (i_fired (s_ievent s1 i)) s1 s1); reflexivity.
  - destruct (l_current (s_lock s1 l)).
    + apply (Z false s1); reflexivity.
    + apply (Z true _ s1); reflexivity.
  - apply (Z true s1 s1); reflexivity.
  - apply (Z (done s1 u) s1 s1); reflexivity.
  - apply (Z (done s1 u) s1 s1); reflexivity.
  - destruct ok; intros [= <- <-]; (split; [exact U1|]); exists h; now left.
Qed.

Lemma coro_yielded_tstep X s l t y ok w k0 u :
  ~ In t X -> Loc (t :: X) s -> s_task s t = with_wait k0 w -> k_state k0 = Running ->
  (y = None -> l = LYieldBad /\ w = WTrig) ->
  (u <> t -> s_task (coro_yielded s t y ok) u = s_task s u) /\
  tstep l t k0 (s_task (coro_yielded s t y ok) t).
Proof.
  intros HX L E R Y. unfold coro_yielded.
  assert (Em : k_must (s_task s t) = k_must k0) by (rewrite E; reflexivity).
  rewrite Em. destruct (Nat.eqb_spec (k_must k0) 0) as [M|M]; cbn [negb].
  2:{ split; [reflexivity|]. cbn. rewrite E. now apply ts_close. }
  destruct y as [tr|].
  - set (s1 := set_task s t (with_state (s_task s t) Pending)).
    destruct (register s1 tr t ok) as [s2 b] eqn:Er.
    assert (L1 : Loc (t :: X) s1) by (apply loc_set_task; [now left|assumption]).
    destruct (register_task X s1 tr t ok s2 b HX) as [A [h B]]; [|exact L1|exact Er|].
    { unfold state_of, s1; cbn. now rewrite upd_same. }
    assert (E1 : s_task s1 t = with_state (with_wait k0 w) Pending).
    { unfold s1; cbn. rewrite upd_same, E. reflexivity. }
    split.
    + intro N. cbn. assert (A' : s_task s2 u = s_task s u).
      { rewrite A by assumption. unfold s1; cbn. now apply upd_other. }
      destruct b; cbn; [|exact A']. rewrite upd_other by assumption. exact A'.
    + rewrite E1 in B. destruct b.
      * destruct B as [B|[B _]]; [|discriminate]. cbn. rewrite upd_same, B.
        now apply ts_through; auto.
      * cbn. destruct B as [->|[_ [h' ->]]]; [now apply ts_block|apply ts_through; auto].
  - destruct (Y eq_refl) as [-> ->]. split; [intro N; cbn; now rewrite upd_other|].
    cbn. rewrite upd_same, E. now apply ts_bad.
Qed.

Lemma eqb_cases {A} (P : A -> Prop) u t a b :
  (u = t -> P a) -> (u <> t -> P b) -> P (if Nat.eqb u t then a else b).
Proof. intros. destruct (Nat.eqb_spec u t); auto. Qed.

Lemma upd_cases {A} (P : A -> Prop) (f : nat -> A) u t v :
  (u = t -> P v) -> (u <> t -> P (f u)) -> P (upd f t v u).
Proof. unfold upd. intros. destruct (Nat.eqb_spec u t); auto. Qed.

Theorem step_tstep s l s' r t :
  Inv s -> step s l = Some (s', r) -> tstep l t (s_task s t) (s_task s' t).
Proof.
  intros H. pose proof (J_loc _ _ H) as L. unfold step. destruct (s_halt s); [discriminate|].
  destruct l as [o|u m|v|e|tr ok|u| | | | | |g].
  - intros [= E]. destruct o; cbn [do_op] in E.
    + unfold start_soon in E. destruct (state_of s t0) eqn:Es; inversion E; subst; try constructor.
      cbn. apply upd_cases; intro; subst; [|constructor]. apply ts_ready. auto.
    + unfold start_next in E. destruct (state_of s t0) eqn:Es; inversion E; subst; try constructor.
      cbn. apply upd_cases; intro; subst; [|constructor]. apply ts_ready. auto.
    + unfold cancel in E. destruct (state_of s t0) eqn:Es; inversion E; subst; try constructor.
      * cbn. apply upd_cases; intro; subst; cbn; rewrite ?upd_same.
        -- cbn. apply ts_cancel; auto.
        -- rewrite upd_other by assumption. constructor.
      * cbn. apply upd_cases; intro; subst; cbn; rewrite ?upd_same.
        -- apply (ts_cancel_sched _ t0 (s_task s t0)); auto.
        -- rewrite upd_other by assumption. constructor.
      * pose proof (cancel_tcb_task s t0) as T. destruct (cancel_tcb s t0) as [s1 [e|]]; cbn in T.
        -- inversion E; subst. rewrite T. constructor.
        -- inversion E; subst. cbn. apply upd_cases; intro; subst; cbn; rewrite ?upd_same.
           ++ rewrite T. cbn. apply ts_cancel; auto.
           ++ rewrite upd_other by assumption. rewrite T. constructor.
    + unfold kill in E. destruct (state_of s t0) eqn:Es; inversion E; subst; try constructor.
      * cbn. apply upd_cases; intro; subst; [|constructor]. apply ts_kill; unfold idle; auto.
      * unfold cancel_scb in E. destruct (k_scb (s_task s t0)); inversion E; subst; [|constructor].
        cbn. apply upd_cases; intro; subst; [|constructor]. apply ts_kill; unfold idle; auto.
      * pose proof (cancel_tcb_task s t0) as T. destruct (cancel_tcb s t0) as [s1 [e|]]; cbn in T.
        -- inversion E; subst. rewrite T. constructor.
        -- inversion E; subst. cbn. apply upd_cases; intro; subst; rewrite T; [|constructor].
           apply ts_kill; unfold idle; auto.
    + inversion E; subst. cbn. apply upd_cases; intro; subst; [|constructor]. now apply ts_uncancel.
    + inversion E; subst. unfold add_done. cbn. destruct (done s t0); cbn;
        (apply upd_cases; intro; subst; [|constructor]; now apply ts_dcb).
    + inversion E; subst. unfold event_set. apply (react_tstep [] (set_event s e true)).
      eapply loc_same; [..|exact L]; reflexivity.
    + inversion E; subst. constructor.
    + inversion E; subst. unfold ievent_set. apply (react_tstep [] (set_ievent s i _)).
      eapply loc_same; [..|exact L]; reflexivity.
    + unfold release in E. destruct (l_current (s_lock s l)); [|inversion E; subst; constructor].
      destruct (l_pending _) as [|n0 p]; inversion E; subst; [constructor|].
      unfold acquire_and_fire.
      match goal with |- tstep _ _ _ (s_task (react ?x _) _) => set (s1 := x) end.
      apply (react_tstep [] s1). eapply loc_same; [..|exact L]; reflexivity.
  - assert (G : cancel_now s u m = (s', r) -> tstep (LCancelNow u m) t (s_task s t) (s_task s' t)).
    { unfold cancel_now. intro E.
      assert (Q : forall s1, s_task s1 = s_task s -> idle (state_of s u) ->
        tstep (LCancelNow u m) t (s_task s t)
          (s_task (resume (set_task (add_must s1 u) u
                 (with_exc (s_task (add_must s1 u) u) (Some (ECancelled m)))) u) t)).
      { intros s1 E1 Id. rewrite resume_task. cbn. rewrite !upd_same. cbn. rewrite E1.
        apply eqb_cases; intro N.
        - subst. destruct (k_begun (s_task s u)) eqn:B; [now apply ts_now|now apply ts_now_stillborn].
        - rewrite !upd_other by assumption. constructor. }
      destruct (state_of s u) eqn:Es.
      - inversion E; subst. apply Q; unfold idle; auto.
      - unfold cancel_scb in E. destruct (k_scb (s_task s u)); inversion E; subst; [|constructor].
        apply Q; unfold idle; auto.
      - pose proof (cancel_tcb_task s u) as T. destruct (cancel_tcb s u) as [s1 [e|]]; cbn in T.
        + inversion E; subst. rewrite T. constructor.
        + inversion E; subst. apply Q; unfold idle; auto.
      - inversion E; subst. constructor.
      - inversion E; subst. constructor.
      - inversion E; subst. constructor.
      - inversion E; subst. constructor. }
    destruct (s_ctl s) as [|[ | | ]]; try discriminate; intros [= E]; apply G, E.
  - destruct (s_ctl s) as [|[u| | ] rest] eqn:Ec; try discriminate. intros [= <- <-].
    rewrite coro_returned_task. apply eqb_cases; intro N; [|constructor]. subst.
    apply (ts_return _ u (s_task s u)); [reflexivity|]. exact (run_state s u rest H Ec).
  - destruct (s_ctl s) as [|[u| | ] rest] eqn:Ec; try discriminate. intros [= <- <-].
    rewrite coro_raised_task. apply eqb_cases; intro N; [|constructor]. subst.
    apply (ts_raise _ u (s_task s u)); [reflexivity|]. exact (run_state s u rest H Ec).
  - destruct (s_ctl s) as [|[u| | ] rest] eqn:Ec; try discriminate. intros [= E].
    unfold await_trigger in E. destruct (await_check s tr) as [s1|] eqn:Ea; [|inversion E; subst; constructor].
    destruct (await_check_some s tr s1 H Ea) as (K & E1 & E2). inversion E; subst.
    set (w := match tr with TJoin u => WTask u | _ => WTrig end) in *.
    set (s2 := set_ctl (set_task s1 u (with_wait (s_task s1 u) w)) rest).
    assert (L2 : Loc [u] s2).
    { apply (loc_leave [] (set_task s1 u (with_wait (s_task s1 u) w)) u rest (FRun u)); auto.
      - cbn. congruence.
      - apply loc_set_task_same; try reflexivity. apply K. }
    destruct (coro_yielded_tstep [] s2 (LAwait tr ok) u (Some tr) ok w (s_task s u) t) as [A B]; auto.
    { unfold s2; cbn. rewrite upd_same, E2. reflexivity. }
    { exact (run_state s u rest H Ec). }
    { discriminate. }
    destruct (Nat.eq_dec t u) as [->|N].
    + destruct B; try (now constructor); try discriminate.
    + rewrite A by assumption. unfold s2; cbn. rewrite upd_other, E2 by assumption. constructor.
  - destruct (s_ctl s) as [|[v| | ] rest] eqn:Ec; try discriminate. intros [= E].
    unfold await_task in E.
    set (s1 := match state_of s u with Unstarted => fst (start_soon s u) | _ => s end) in *.
    assert (K : Ok [] s s1).
    { unfold s1. destruct (state_of s u);
        solve [split; [assumption|apply stable_refl]|now apply ok_start_soon]. }
    assert (Rv : k_state (s_task s v) = Running) by exact (run_state s v rest H Ec).
    assert (T1 : forall x, tstep (LAwaitTask u) x (s_task s x) (s_task s1 x)).
    { intro x. unfold s1, start_soon. destruct (state_of s u) eqn:Es; try constructor.
      cbn. apply upd_cases; intro; subst; [|constructor]. apply ts_ready. auto. }
    assert (Tv : s_task s1 v = s_task s v).
    { unfold s1, start_soon. destruct (state_of s u) eqn:Es; try reflexivity.
      cbn. rewrite upd_other; [reflexivity|]. intros ->. unfold state_of in Es. congruence. }
    assert (E1 : s_ctl s1 = FRun v :: rest).
    { unfold s1, start_soon. destruct (state_of s u) eqn:Eu; exact Ec. }
    destruct (done s1 u).
    + destruct (result_of s1 u); inversion E; subst; apply T1.
    + inversion E; subst.
      set (s2 := set_ctl (set_task s1 v (with_wait (s_task s1 v) (WTask u))) rest).
      assert (L2 : Loc [v] s2).
      { apply (loc_leave [] (set_task s1 v (with_wait (s_task s1 v) (WTask u))) v rest (FRun v)); auto.
        apply loc_set_task_same; try reflexivity. apply K. }
      destruct (coro_yielded_tstep [] s2 (LAwaitTask u) v (Some (TComplete u)) true (WTask u) (s_task s v) t)
        as [A B]; auto.
      { unfold s2; cbn. rewrite upd_same, Tv. reflexivity. }
      { discriminate. }
      destruct (Nat.eq_dec t v) as [->|N].
      * destruct B; try (now constructor); try discriminate.
      * rewrite A by assumption. unfold s2; cbn. rewrite upd_other by assumption. apply T1.
  - destruct (s_ctl s) as [|[v| | ] rest] eqn:Ec; try discriminate. intros [= <- <-].
    set (s2 := set_ctl (set_task s v (with_wait (s_task s v) WTrig)) rest).
    assert (L2 : Loc [v] s2).
    { apply (loc_leave [] (set_task s v (with_wait (s_task s v) WTrig)) v rest (FRun v)); auto.
      apply loc_set_task_same; try reflexivity. exact L. }
    destruct (coro_yielded_tstep [] s2 LYieldBad v None true WTrig (s_task s v) t) as [A B]; auto.
    { unfold s2; cbn. rewrite upd_same. reflexivity. }
    { exact (run_state s v rest H Ec). }
    destruct (Nat.eq_dec t v) as [->|N].
    + destruct B; try (now constructor); try discriminate.
    + rewrite A by assumption. unfold s2; cbn. rewrite upd_other by assumption. constructor.
  - destruct (s_ctl s) as [|[ |u| ] rest] eqn:Ec; try discriminate. intros [= <- <-].
    rewrite set_outcome_task. apply eqb_cases; intro N; [|constructor]. subst.
    apply (ts_closed _ u (s_task s u)); [reflexivity|].
    apply (L_run _ _ L). rewrite Ec. now left.
  - destruct (s_ctl s) as [|[ |u| ] rest] eqn:Ec; try discriminate. intros [= <- <-]. constructor.
  - destruct (s_ctl s) as [|[ | |u i k] rest] eqn:Ec; try discriminate.
    destruct (nth_error _ _); intros [= <- <-]; [constructor|].
    assert (L1 : Loc [] (set_ctl s rest)).
    { destruct L. rewrite Ec in *. constructor; assumption. }
    assert (Du : done s u = true) by (apply (D_fin _ (J_dn _ _ H)); rewrite Ec; now left).
    set (s1 := set_ctl s rest) in *. set (s2 := react s1 (TComplete u)).
    assert (L2 : Loc [] s2) by (apply loc_react, L1).
    assert (Q : tstep LDoneNext t (s_task s t) (s_task (react s2 (TJoin u)) t)).
    { destruct (react_task s2 (TJoin u) t) as [[_ ->]|[I [h ->]]].
      - exact (react_tstep [] s1 (TComplete u) LDoneNext t L1).
      - assert (P2 : state_of s2 t = Pending).
        { apply in_map_iff in I. destruct I as ([j y] & Ey & I). cbn in Ey; subst.
          apply (L_cpend _ _ L2 _ _ _ I). }
        unfold s2 in *. unfold state_of in P2.
        destruct (react_task s1 (TComplete u) t) as [[_ E]|[_ [h' E]]].
        + rewrite E in *. apply ts_ready. now right.
        + rewrite E in P2. discriminate. }
    unfold finish_outcome. fold s1 s2. destruct k; exact Q.
  - destruct (s_ctl s) as [|] eqn:Ec; try discriminate.
    destruct (s_queue s) as [|q rest] eqn:Eq; [discriminate|]. intros [= <- <-].
    destruct (q_cancelled q) eqn:Cq; [constructor|].
    assert (Sc : state_of s (q_task q) = Scheduled).
    { destruct q as [h x c]; cbn in *. apply (L_qlive _ _ L h x). rewrite Eq. left. now f_equal. }
    rewrite resume_task. cbn. apply eqb_cases; intro N; [|constructor]. subst.
    destruct (k_exc (s_task s (q_task q))) as [e|] eqn:Ee.
    + destruct (k_begun (s_task s (q_task q))) eqn:B; [apply ts_resume; auto|now apply ts_stillborn].
    + apply ts_resume; auto.
  - destruct (s_ctl s) as [|] eqn:Ec; try discriminate.
    destruct (s_queue s) as [|q rest] eqn:Eq; [|discriminate].
    destruct (g_armed (s_gpi s g)) eqn:Eg; [|discriminate]. intros [= <- <-].
    apply (react_tstep [] (set_gpi s g _)). eapply loc_same; [..|exact L]; reflexivity.
Qed.

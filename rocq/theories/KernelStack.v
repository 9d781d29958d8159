(** More facts about kernel steps for the layers above: internal events not mentioned, Tasks which are running or blocked, the
    frame which a completed Task leaves on the stack, the frames below the top one, the history. *)
From Verif Require Import Base KernelModel KernelProofs KernelHist KernelLog KernelInv KernelTask KernelWake KernelLayer KernelLeak.
From Coq Require Import Arith Sorted.

(** * Internal events not mentioned *)
Definition iframe (i : nat) (s s' : st) : Prop :=
  s_ievent s' i = s_ievent s i /\ forall c, In c (s_cbs s' (TInternal i)) -> In c (s_cbs s (TInternal i)).
Lemma if_refl i s : iframe i s s.
Proof. split; auto. Qed.
Lemma if_trans i a b c : iframe i a b -> iframe i b c -> iframe i a c.
Proof. intros [A1 A2] [B1 B2]. split; [congruence|auto]. Qed.
Lemma if_same i s s' : s_ievent s' = s_ievent s -> s_cbs s' = s_cbs s -> iframe i s s'.
Proof. intros A B. split; rewrite ?A, ?B; auto. Qed.
Lemma if_react i s tr : iframe i s (react s tr).
Proof.
  split; [now rewrite react_ievent|]. intro c. rewrite react_cbs. unfold updt. destruct (trig_eqb _ _); [intros []|auto].
Qed.
Lemma unprime_ievent s tr : s_ievent (fst (unprime s tr)) = s_ievent s.
Proof. destruct tr; cbn; try reflexivity. destruct (g_hdl _); reflexivity. Qed.
Lemma if_deregister i s tr h : iframe i s (fst (deregister s tr h)).
Proof.
  split.
  - unfold deregister. destruct (existsb _ _); [|reflexivity].
    set (s1 := set_cbs s tr _). destruct (s_cbs s1 tr); [rewrite unprime_ievent|]; reflexivity.
  - intro c. rewrite deregister_cbs. destruct (trig_eqb_spec (TInternal i) tr) as [<-|]; [|auto]. intro I. now apply filter_In in I.
Qed.
Lemma if_cancel_tcb i s t : iframe i s (fst (cancel_tcb s t)).
Proof. unfold cancel_tcb. destruct (k_tcb _) as [[tr h]|]; [apply if_deregister|apply if_refl]. Qed.
Lemma if_resume i s t : iframe i s (resume s t).
Proof.
  apply if_same; [|apply resume_cbs]. unfold resume. destruct (k_exc _) as [x|].
  - destruct (k_begun _); [reflexivity|]. unfold coro_raised. destruct x; try destruct (Nat.eqb _ _); reflexivity.
  - destruct (k_wait _); reflexivity.
Qed.
Lemma if_prime i s tr ok : iframe i s (fst (prime s tr ok)).
Proof.
  destruct tr; cbn [prime fst].
  - destruct (s_event s e); [apply if_react|apply if_refl].
  - destruct (i_fired _); [apply if_react|apply if_refl].
  - destruct (l_current _); [apply if_same; reflexivity|]. unfold acquire_and_fire.
    eapply if_trans; [|apply if_react]. apply if_same; reflexivity.
  - apply if_react.
  - destruct (done s t); [apply if_react|apply if_refl].
  - destruct (done s t); [apply if_react|apply if_refl].
  - destruct ok; cbn [fst]; apply if_same; reflexivity.
Qed.
Lemma if_register i s tr t ok : tr <> TInternal i -> iframe i s (fst (register s tr t ok)).
Proof.
  intro N. unfold register. set (h := s_next s). cbv zeta.
  match goal with |- context[prime ?x tr ok] => assert (A : iframe i s x) end.
  { split; [reflexivity|]. intro c. cbn. rewrite updt_other by congruence. auto. }
  destruct (s_cbs s tr); [|exact A]. eapply if_trans; [exact A|apply if_prime].
Qed.
Lemma if_yielded i s t y ok : y <> Some (TInternal i) -> iframe i s (coro_yielded s t y ok).
Proof.
  intro N. unfold coro_yielded. destruct (negb _); [apply if_same; reflexivity|]. destruct y as [tr|]; [|apply if_same; reflexivity].
  set (s0 := set_task s t _). assert (A := if_register i s0 tr t ok ltac:(congruence)).
  destruct (register s0 tr t ok) as [s1 b]. cbn [fst] in A. eapply if_trans; [|eapply if_trans; [exact A|]].
  - apply if_same; reflexivity.
  - destruct b; apply if_same; reflexivity.
Qed.
Lemma await_check_ievent s tr s' i : tr <> TInternal i -> await_check s tr = Some s' -> s_ievent s' i = s_ievent s i.
Proof.
  intro N. unfold await_check. destruct tr; try (intros [= <-]; reflexivity).
  - destruct (i_awaited _); [discriminate|]. intros [= <-]. cbn. apply upd_other. congruence.
  - destruct (_ || _); [discriminate|]. intros [= <-]. reflexivity.
Qed.
(** The steps which concern an internal event. *)
Definition imentions (i : nat) (l : label) : Prop := l = LOp (OpISet i) \/ exists ok, l = LAwait (TInternal i) ok.
Theorem step_iframe i s l s' r : ~ imentions i l -> step s l = Some (s', r) -> iframe i s s'.
Proof.
  intros N St. unfold step in St. destruct (s_halt s); [discriminate|].
  destruct l as [o|u m|v|x|x ok|u| | | | | |g].
  - inversion St as [E]. destruct o; cbn [do_op] in E.
    + unfold start_soon in E. destruct (state_of s t); inversion E; subst; apply if_same; reflexivity.
    + unfold start_next in E. destruct (state_of s t); inversion E; subst; apply if_same; reflexivity.
    + unfold cancel in E. destruct (state_of s t); try (inversion E; subst; apply if_same; reflexivity).
      pose proof (if_cancel_tcb i s t) as Q. destruct (cancel_tcb s t) as [s1 [z|]]; inversion E; subst; exact Q.
    + unfold kill in E. destruct (state_of s t); try (inversion E; subst; apply if_same; reflexivity).
      * unfold cancel_scb in E. destruct (k_scb (s_task s t)); inversion E; subst; apply if_same; reflexivity.
      * pose proof (if_cancel_tcb i s t) as Q. destruct (cancel_tcb s t) as [s1 [z|]]; inversion E; subst; exact Q.
    + inversion E; subst. apply if_same; reflexivity.
    + inversion E; subst. unfold add_done. destruct (done s t); apply if_same; reflexivity.
    + inversion E; subst. unfold event_set. eapply if_trans; [|apply if_react]. apply if_same; reflexivity.
    + inversion E; subst. split; [|auto]. reflexivity.
    + inversion E; subst. unfold ievent_set. eapply if_trans; [|apply if_react]. split; [|auto].
      cbn. apply upd_other. intros ->. apply N. now left.
    + rewrite release_eq in E. destruct (l_current (s_lock s l)); [|inversion E; subst; apply if_refl].
      cbv zeta in E. destruct (l_pending (s_lock s l)) as [|n0 p]; apply (f_equal fst) in E; cbn [fst] in E; rewrite <- E;
        [apply if_same; reflexivity|]. unfold acquire_and_fire. eapply if_trans; [|apply if_react]. apply if_same; reflexivity.
  - assert (G : cancel_now s u m = (s', r) -> iframe i s s').
    { intro E. unfold cancel_now in E. destruct (state_of s u);
        try (inversion E; subst; first [apply if_refl|eapply if_trans; [|apply if_resume]; apply if_same; reflexivity]).
      - unfold cancel_scb in E. destruct (k_scb (s_task s u)); inversion E; subst; [|apply if_refl].
        eapply if_trans; [|apply if_resume]; apply if_same; reflexivity.
      - pose proof (if_cancel_tcb i s u) as Q. destruct (cancel_tcb s u) as [s1 [z|]]; inversion E; subst; [exact Q|].
        eapply if_trans; [|apply if_resume]. exact Q. }
    destruct (s_ctl s) as [|[ | | ]]; try discriminate; inversion St as [E]; apply G, E.
  - destruct (s_ctl s) as [|[u| | ] rest]; try discriminate. inversion St; subst.
    apply if_same; [|rewrite coro_returned_cbs; reflexivity]. unfold coro_returned. destruct (Nat.eqb _ _); reflexivity.
  - destruct (s_ctl s) as [|[u| | ] rest]; try discriminate. inversion St; subst.
    apply if_same; [|rewrite coro_raised_cbs; reflexivity]. unfold coro_raised. destruct x; try destruct (Nat.eqb _ _); reflexivity.
  - destruct (s_ctl s) as [|[u| | ] rest]; try discriminate. inversion St as [E].
    unfold await_trigger in E. destruct (await_check s x) as [s1|] eqn:Ea; [|inversion E; subst; apply if_refl].
    assert (Nx : x <> TInternal i) by (intros ->; apply N; right; eauto).
    inversion E; subst. eapply if_trans; [|apply if_yielded].
    + split; cbn; [apply (await_check_ievent _ _ _ _ Nx Ea)|]. now rewrite (await_check_cbs _ _ _ Ea).
    + congruence.
  - destruct (s_ctl s) as [|[v| | ] rest]; try discriminate. inversion St as [E]. unfold await_task in E.
    set (s1 := match state_of s u with Unstarted => fst (start_soon s u) | _ => s end) in *.
    assert (C1 : iframe i s s1) by (unfold s1, start_soon; destruct (state_of s u); apply if_same; reflexivity).
    destruct (done s1 u).
    + destruct (result_of s1 u); inversion E; subst; exact C1.
    + inversion E; subst. eapply if_trans; [exact C1|]. eapply if_trans; [|apply if_yielded; discriminate]. apply if_same; reflexivity.
  - destruct (s_ctl s) as [|[v| | ] rest]; try discriminate. inversion St; subst.
    eapply if_trans; [|apply if_yielded; discriminate]. apply if_same; reflexivity.
  - destruct (s_ctl s) as [|[ |u| ] rest]; try discriminate. inversion St; subst. apply if_same; reflexivity.
  - destruct (s_ctl s) as [|[ |u| ] rest]; try discriminate. inversion St; subst. apply if_same; reflexivity.
  - destruct (s_ctl s) as [|[ | |u j k] rest]; try discriminate.
    destruct (nth_error _ _); inversion St; subst; [apply if_same; reflexivity|].
    unfold finish_outcome. eapply if_trans; [|eapply if_trans; [apply (if_react i (set_ctl s rest) (TComplete u))|
      eapply if_trans; [apply (if_react i _ (TJoin u))|]]].
    + apply if_same; reflexivity.
    + destruct k; apply if_same; reflexivity.
  - destruct (s_ctl s) as [|]; try discriminate.
    destruct (s_queue s) as [|q rest]; [discriminate|]. inversion St; subst.
    destruct (q_cancelled q); [apply if_same; reflexivity|]. eapply if_trans; [|apply if_resume]. apply if_same; reflexivity.
  - destruct (s_ctl s) as [|]; try discriminate.
    destruct (s_queue s) as [|q rest]; [|discriminate].
    destruct (g_armed (s_gpi s g)); [|discriminate]. inversion St; subst. eapply if_trans; [|apply if_react]. apply if_same; reflexivity.
Qed.

(** * Running Tasks *)
(** Labels which are calls: the code making them keeps its frame. *)
Definition is_call (l : label) : bool := match l with LOp _ | LCancelNow _ _ => true | _ => false end.
Definition on_top (t : tid) (c : list frame) : Prop := exists rest, c = FRun t :: rest \/ c = FClose t :: rest.
Lemma react_running X s tr t : Loc X s -> state_of s t = Running -> s_task (react s tr) t = s_task s t.
Proof.
  intros L R. destruct (react_task s tr t) as [[_ E]|[I _]]; [exact E|]. exfalso.
  apply in_map_iff in I. destruct I as ([h u] & E & I). cbn in E; subst. destruct (L_cpend _ _ L _ _ _ I) as (_ & P & _). congruence.
Qed.
(** A running Task which is not the one being executed only has its cancellations counted down or gets a callback. *)
Theorem step_running s l s' r t : Inv s -> step s l = Some (s', r) -> state_of s t = Running ->
  is_call l = true \/ ~ on_top t (s_ctl s) ->
  s_task s' t = s_task s t \/ (l = LOp (OpUncancel t) /\ s_task s' t = with_must (s_task s t) (Nat.pred (k_must (s_task s t)))) \/
  (exists c, l = LOp (OpAddDone t c) /\ s_task s' t = with_dcbs (s_task s t) (k_dcbs (s_task s t) ++ [c])).
Proof.
  intros H St R Top. pose proof (J_loc _ _ H) as L. unfold step in St. destruct (s_halt s); [discriminate|].
  assert (Nt : forall u rest, s_ctl s = FRun u :: rest \/ s_ctl s = FClose u :: rest -> is_call l = false -> t <> u).
  { intros u rest E C ->. destruct Top as [C'|N]; [congruence|]. apply N. exists rest. exact E. }
  destruct l as [o|u m|v|x|x ok|u| | | | | |g].
  - injection St as E. destruct o; cbn [do_op] in E.
    + unfold start_soon in E. destruct (state_of s t0) eqn:Es; inversion E; subst; auto. left. cbn. apply upd_other. congruence.
    + unfold start_next in E. destruct (state_of s t0) eqn:Es; inversion E; subst; auto. left. cbn. apply upd_other. congruence.
    + left. unfold cancel in E. destruct (state_of s t0) eqn:Es; inversion E; subst; auto.
      * cbn. rewrite !upd_other by congruence. reflexivity.
      * cbn. rewrite !upd_other by congruence. reflexivity.
      * pose proof (cancel_tcb_task s t0) as T. destruct (cancel_tcb s t0) as [s1 [e|]]; cbn in T; inversion E; subst; [congruence|].
        cbn. rewrite !upd_other by congruence. congruence.
    + left. unfold kill in E. destruct (state_of s t0) eqn:Es; inversion E; subst; auto.
      * cbn. rewrite !upd_other by congruence. reflexivity.
      * unfold cancel_scb in E. destruct (k_scb (s_task s t0)); inversion E; subst; [|reflexivity].
        cbn. rewrite !upd_other by congruence. reflexivity.
      * pose proof (cancel_tcb_task s t0) as T. destruct (cancel_tcb s t0) as [s1 [e|]]; cbn in T; inversion E; subst; [congruence|].
        cbn. rewrite !upd_other by congruence. congruence.
    + inversion E; subst. cbn. destruct (Nat.eq_dec t t0) as [->|N]; [|left; now apply upd_other].
      right. left. rewrite upd_same. auto.
    + inversion E; subst. unfold add_done. cbn. destruct (Nat.eq_dec t t0) as [->|N].
      * right. right. exists c. rewrite upd_same. destruct (done s t0); auto.
      * left. rewrite upd_other by assumption. destruct (done s t0); reflexivity.
    + inversion E; subst. left. unfold event_set. rewrite (react_running []); auto. eapply loc_same; [..|exact L]; reflexivity.
    + inversion E; subst. auto.
    + inversion E; subst. left. unfold ievent_set. rewrite (react_running []); auto. eapply loc_same; [..|exact L]; reflexivity.
    + left. rewrite release_eq in E. destruct (l_current (s_lock s l)); [|inversion E; subst; reflexivity].
      cbv zeta in E. destruct (l_pending (s_lock s l)) as [|n0 p]; apply (f_equal fst) in E; cbn [fst] in E; rewrite <- E; [reflexivity|].
      unfold acquire_and_fire. rewrite (react_running []); auto. eapply loc_same; [..|exact L]; reflexivity.
  - left. assert (G : cancel_now s u m = (s', r) -> s_task s' t = s_task s t).
    { intro E. unfold cancel_now in E. assert (Q : forall s1, s_task s1 = s_task s -> state_of s u <> Running ->
        s_task (resume (set_task (add_must s1 u) u (with_exc (s_task (add_must s1 u) u) (Some (ECancelled m)))) u) t = s_task s t).
      { intros s1 E1 Nr. rewrite resume_task. assert (Ntu : t <> u) by congruence. destruct (Nat.eqb_spec t u) as [|_]; [congruence|].
        cbn. rewrite !upd_other by assumption. congruence. }
      destruct (state_of s u) eqn:Es; try (inversion E; subst; first [reflexivity|apply Q; [reflexivity|discriminate]]).
      - unfold cancel_scb in E. destruct (k_scb (s_task s u)); inversion E; subst; [|reflexivity]. apply Q; [reflexivity|discriminate].
      - pose proof (cancel_tcb_task s u) as T. destruct (cancel_tcb s u) as [s1 [e|]]; cbn in T; inversion E; subst; [congruence|].
        apply Q; [assumption|discriminate]. }
    destruct (s_ctl s) as [|[ | | ]]; try discriminate; inversion St as [E]; apply G, E.
  - left. destruct (s_ctl s) as [|[u| | ] rest] eqn:Ec; try discriminate. injection St as <- <-.
    rewrite coro_returned_task. specialize (Nt u rest (or_introl eq_refl) eq_refl). destruct (Nat.eqb_spec t u); [congruence|reflexivity].
  - left. destruct (s_ctl s) as [|[u| | ] rest] eqn:Ec; try discriminate. injection St as <- <-.
    rewrite coro_raised_task. specialize (Nt u rest (or_introl eq_refl) eq_refl). destruct (Nat.eqb_spec t u); [congruence|reflexivity].
  - left. destruct (s_ctl s) as [|[u| | ] rest] eqn:Ec; try discriminate. injection St as E. specialize (Nt u rest (or_introl eq_refl) eq_refl).
    unfold await_trigger in E. destruct (await_check s x) as [s1|] eqn:Ea; [|inversion E; subst; reflexivity].
    destruct (await_check_some s x s1 H Ea) as (K & E1 & E2). inversion E; subst.
    set (w := match x with TJoin u => WTask u | _ => WTrig end) in *.
    set (s2 := set_ctl (set_task s1 u (with_wait (s_task s1 u) w)) rest).
    assert (L2 : Loc [u] s2).
    { apply (loc_leave [] (set_task s1 u (with_wait (s_task s1 u) w)) u rest (FRun u)); auto.
      - cbn. congruence.
      - apply loc_set_task_same; try reflexivity. apply K. }
    destruct (coro_yielded_tstep [] s2 (LAwait x ok) u (Some x) ok w (s_task s u) t) as [A B]; auto.
    { unfold s2; cbn. rewrite upd_same, E2. reflexivity. }
    { exact (run_state s u rest H Ec). }
    { discriminate. }
    rewrite A by assumption. unfold s2; cbn. rewrite upd_other, E2 by assumption. reflexivity.
  - left. destruct (s_ctl s) as [|[v| | ] rest] eqn:Ec; try discriminate. injection St as E. specialize (Nt v rest (or_introl eq_refl) eq_refl).
    unfold await_task in E.
    set (s1 := match state_of s u with Unstarted => fst (start_soon s u) | _ => s end) in *.
    assert (K : Ok [] s s1).
    { unfold s1. destruct (state_of s u); solve [split; [assumption|apply stable_refl]|now apply ok_start_soon]. }
    assert (Rv : k_state (s_task s v) = Running) by exact (run_state s v rest H Ec).
    assert (T1 : s_task s1 t = s_task s t).
    { unfold s1, start_soon. destruct (state_of s u) eqn:Es; try reflexivity. cbn. apply upd_other. congruence. }
    assert (Tv : s_task s1 v = s_task s v).
    { unfold s1, start_soon. destruct (state_of s u) eqn:Es; try reflexivity.
      cbn. rewrite upd_other; [reflexivity|]. intros ->. unfold state_of in Es. congruence. }
    assert (E1 : s_ctl s1 = FRun v :: rest) by (unfold s1, start_soon; destruct (state_of s u) eqn:Eu; exact Ec).
    destruct (done s1 u).
    + destruct (result_of s1 u); inversion E; subst; apply T1.
    + inversion E; subst.
      set (s2 := set_ctl (set_task s1 v (with_wait (s_task s1 v) (WTask u))) rest).
      assert (L2 : Loc [v] s2).
      { apply (loc_leave [] (set_task s1 v (with_wait (s_task s1 v) (WTask u))) v rest (FRun v)); auto.
        apply loc_set_task_same; try reflexivity. apply K. }
      destruct (coro_yielded_tstep [] s2 (LAwaitTask u) v (Some (TComplete u)) true (WTask u) (s_task s v) t) as [A B]; auto.
      { unfold s2; cbn. rewrite upd_same, Tv. reflexivity. }
      { discriminate. }
      rewrite A by assumption. unfold s2; cbn. rewrite upd_other by assumption. apply T1.
  - left. destruct (s_ctl s) as [|[v| | ] rest] eqn:Ec; try discriminate. injection St as <- <-. specialize (Nt v rest (or_introl eq_refl) eq_refl).
    set (s2 := set_ctl (set_task s v (with_wait (s_task s v) WTrig)) rest).
    assert (L2 : Loc [v] s2).
    { apply (loc_leave [] (set_task s v (with_wait (s_task s v) WTrig)) v rest (FRun v)); auto.
      apply loc_set_task_same; try reflexivity. exact L. }
    destruct (coro_yielded_tstep [] s2 LYieldBad v None true WTrig (s_task s v) t) as [A B]; auto.
    { unfold s2; cbn. rewrite upd_same. reflexivity. }
    { exact (run_state s v rest H Ec). }
    rewrite A by assumption. unfold s2; cbn. rewrite upd_other by assumption. reflexivity.
  - left. destruct (s_ctl s) as [|[ |u| ] rest] eqn:Ec; try discriminate. injection St as <- <-. specialize (Nt u rest (or_intror eq_refl) eq_refl).
    rewrite set_outcome_task. destruct (Nat.eqb_spec t u); [congruence|reflexivity].
  - destruct (s_ctl s) as [|[ |u| ] rest] eqn:Ec; try discriminate. injection St as <- <-. auto.
  - left. destruct (s_ctl s) as [|[ | |u i k] rest] eqn:Ec; try discriminate.
    destruct (nth_error _ _); injection St as <- <-; [reflexivity|].
    assert (L1 : Loc [] (set_ctl s rest)) by (destruct L; rewrite Ec in *; constructor; assumption).
    assert (E1 := react_running [] (set_ctl s rest) (TComplete u) t L1 R).
    assert (L2 := loc_react [] (set_ctl s rest) (TComplete u) L1). set (s2 := react (set_ctl s rest) (TComplete u)) in *.
    assert (R2 : state_of s2 t = Running) by (unfold state_of; rewrite E1; exact R).
    assert (E2 := react_running [] s2 (TJoin u) t L2 R2).
    unfold finish_outcome. fold s2. destruct k; cbn [set_current set_halt s_task]; rewrite E2, E1; reflexivity.
  - left. destruct (s_ctl s) as [|] eqn:Ec; try discriminate.
    assert (F : In t (runners (s_ctl s))) by (apply (L_runs _ _ L); auto). rewrite Ec in F. destruct F.
  - left. destruct (s_ctl s) as [|] eqn:Ec; try discriminate.
    assert (F : In t (runners (s_ctl s))) by (apply (L_runs _ _ L); auto). rewrite Ec in F. destruct F.
Qed.

(** * Blocked Tasks *)
Theorem step_pending s l s' r tr h t : Inv s -> step s l = Some (s', r) -> In (h, t) (s_cbs s tr) -> ~ wakes s l tr ->
  In (h, t) (s_cbs s' tr) \/ done s' t = true \/
  (exists m, (l = LOp (OpCancel t m) \/ l = LCancelNow t m) /\ k_exc (s_task s' t) = Some (ECancelled m) /\
     (state_of s' t = Scheduled \/ (state_of s' t = Running /\ l = LCancelNow t m /\ s_ctl s' = FRun t :: s_ctl s)) /\
     k_must (s_task s' t) = S (k_must (s_task s t))).
Proof.
  intros H St I Nw. destruct (step_cbs s l s' r tr h t H St I) as [I'|[W|Hit]]; [now left|contradiction|]. right.
  destruct (L_cpend _ _ (J_loc _ _ H) _ _ _ I) as (_ & P & _).
  destruct (j_cancel_tcb [] s t) as (s1 & E1 & _ & T1 & C1 & _ & _ & N1 & _); auto.
  unfold step in St. destruct (s_halt s); [discriminate|]. destruct Hit as [->|[m [-> | ->]]].
  - injection St as St. cbn [do_op] in St. unfold kill in St. rewrite P, E1 in St. injection St as <- <-. left.
    unfold done, state_of. cbn. rewrite upd_same. reflexivity.
  - injection St as St. cbn [do_op] in St. unfold cancel in St. rewrite P, E1 in St. injection St as <- <-. right. exists m.
    unfold state_of. cbn. rewrite !upd_same. cbn. rewrite T1. auto 7.
  - assert (G : cancel_now s t m = (s', r)).
    { destruct (s_ctl s) as [|[ | | ]]; try discriminate; injection St as St; exact St. }
    unfold cancel_now in G. rewrite P, E1 in G. injection G as <- <-.
    unfold done, state_of. rewrite resume_task, Nat.eqb_refl. cbn [s_task set_task add_must]. rewrite !upd_same.
    cbn [with_exc with_must k_exc k_begun]. rewrite T1. destruct (k_begun (s_task s t)) eqn:B; [right; exists m; cbn; split; [auto|split; [auto|split; [right|auto]]]|left; reflexivity].
    split; [reflexivity|]. split; [reflexivity|]. unfold resume. cbn [s_task set_task add_must]. rewrite !upd_same. cbn [with_exc with_must k_exc k_begun].
    rewrite ?T1, B. cbn. now rewrite C1.
Qed.

(** * The stack *)
(** A Task which was completed by the step is on top, and none of its callbacks has been called. *)
Theorem step_ends s l s' r t : Inv s -> step s l = Some (s', r) -> done s t = false -> done s' t = true ->
  exists k rest, s_ctl s' = FDone t 0 k :: rest.
Proof.
  intros H St D D'. assert (T := step_tstep s l s' r t H St). unfold step in St. destruct (s_halt s); [discriminate|].
  assert (Same : s_task s' t = s_task s t -> False) by (intro E; unfold done, state_of in *; rewrite E in D'; congruence).
  unfold done, state_of in D, D'. inversion T as [E|h Hs E|Hl E|c Hl E|h m Hl Hs E|m Hl Hs E|Hl Hs E|Hl Hs He E|e Hl Hs He Hb E|m Hl Hs Hb E|m Hl Hs Hb E
    |v Hl Hs E|e Hl Hs E|w tr h Hs Hm E|w tr h h' e Hs Hm He E|h Hl Hs Hm E|w Hs Hm E|Hl Hs E]; rewrite <- E in D'; try (cbn in D'; congruence).
  - subst l. injection St as St. cbn [do_op] in St. unfold kill in St.
    destruct (state_of s t) eqn:Es; try (injection St as <- <-; cbn; eauto; elim Same; reflexivity).
    + unfold cancel_scb in St. destruct (k_scb (s_task s t)); injection St as <- <-; [cbn; eauto|elim Same; reflexivity].
    + pose proof (cancel_tcb_task s t) as T1. destruct (cancel_tcb s t) as [s1 [z|]]; cbn in T1; injection St as <- <-; [elim Same; congruence|cbn; eauto].
  - subst l. destruct (s_ctl s) as [|] eqn:Ec; try discriminate. destruct (s_queue s) as [|q rest]; [discriminate|]. injection St as <- <-.
    destruct (q_cancelled q); [elim Same; reflexivity|].
    assert (Nq : t = q_task q).
    { destruct (Nat.eq_dec t (q_task q)) as [|N]; [assumption|]. exfalso. apply Same. rewrite resume_task. destruct (Nat.eqb_spec t (q_task q)); [congruence|reflexivity]. }
    subst t. unfold resume. cbn [log set_queue s_task]. rewrite He, Hb. unfold coro_raised. destruct e; try destruct (Nat.eqb _ _); cbn; eauto.
  - subst l. assert (G : cancel_now s t m = (s', r)).
    { destruct (s_ctl s) as [|[ | | ]]; try discriminate; injection St as St; exact St. }
    assert (Q : forall s1, s_task s1 = s_task s -> s' = resume (set_task (add_must s1 t) t (with_exc (s_task (add_must s1 t) t) (Some (ECancelled m)))) t ->
       exists k rest, s_ctl s' = FDone t 0 k :: rest).
    { intros s1 E1 ->. unfold resume. cbn [s_task set_task add_must]. rewrite !upd_same. cbn [with_exc with_must k_exc k_begun].
      rewrite E1, Hb. unfold coro_raised. cbn. eauto. }
    unfold cancel_now in G. destruct (state_of s t) eqn:Es; try (injection G as G _; first [apply (Q s); [reflexivity|now symmetry]|elim Same; congruence]).
    + unfold cancel_scb in G. destruct (k_scb (s_task s t)) as [h0|]; injection G as G _; [|elim Same; congruence].
      apply (Q (cancel_slot s h0)); [reflexivity|now symmetry].
    + pose proof (cancel_tcb_task s t) as T1. destruct (cancel_tcb s t) as [s1 [z|]]; cbn in T1; injection G as G _; [elim Same; congruence|].
      apply (Q s1); [exact T1|now symmetry].
  - subst l. destruct (s_ctl s) as [|[u| | ] rest] eqn:Ec; try discriminate. injection St as <- <-.
    destruct (Nat.eq_dec t u) as [->|N]; [|elim Same; rewrite coro_returned_task; destruct (Nat.eqb_spec t u); [congruence|reflexivity]].
    unfold coro_returned. destruct (Nat.eqb _ _); cbn; eauto.
  - subst l. destruct (s_ctl s) as [|[u| | ] rest] eqn:Ec; try discriminate. injection St as <- <-.
    destruct (Nat.eq_dec t u) as [->|N]; [|elim Same; rewrite coro_raised_task; destruct (Nat.eqb_spec t u); [congruence|reflexivity]].
    unfold coro_raised. destruct e; try destruct (Nat.eqb _ _); cbn; eauto.
  - subst l. destruct (s_ctl s) as [|[ |u| ] rest] eqn:Ec; try discriminate. injection St as <- <-.
    destruct (Nat.eq_dec t u) as [->|N]; [|elim Same; rewrite set_outcome_task; destruct (Nat.eqb_spec t u); [congruence|reflexivity]].
    cbn. eauto.
Qed.

Lemma resume_ctl s t : exists f, s_ctl (resume s t) = f :: s_ctl s.
Proof.
  unfold resume. destruct (k_exc _) as [e|].
  - destruct (k_begun _); [cbn; eauto|]. unfold coro_raised. destruct e; try destruct (Nat.eqb _ _); cbn; eauto.
  - destruct (k_wait _); cbn; eauto.
Qed.
Lemma yielded_ctl s t y ok f : In f (s_ctl s) -> In f (s_ctl (coro_yielded s t y ok)).
Proof.
  intro I. unfold coro_yielded. destruct (negb _); [right; exact I|]. destruct y as [tr|]; [|exact I].
  pose proof (register_cc (set_task s t (with_state (s_task s t) Pending)) tr t ok) as [_ Q].
  destruct (register _ tr t ok) as [s1 b]. cbn [fst] in Q. destruct b; cbn; rewrite Q; exact I.
Qed.
(** Calls keep the whole stack; other steps keep what is below the top frame. *)
Theorem step_frames s l s' r f : step s l = Some (s', r) -> In f (if is_call l then s_ctl s else List.tl (s_ctl s)) -> In f (s_ctl s').
Proof.
  intros St I. unfold step in St. destruct (s_halt s); [discriminate|].
  destruct l as [o|u m|v|x|x ok|u| | | | | |g]; cbn [is_call] in I.
  - injection St as E. destruct o; cbn [do_op] in E.
    + unfold start_soon in E. destruct (state_of s t) eqn:Es; inversion E; subst; exact I.
    + unfold start_next in E. destruct (state_of s t) eqn:Es; inversion E; subst; exact I.
    + unfold cancel in E. destruct (state_of s t) eqn:Es; try (inversion E; subst; exact I).
      pose proof (cancel_tcb_cc s t) as [_ T]. destruct (cancel_tcb s t) as [s1 [e|]]; cbn in T; inversion E; subst; cbn; rewrite T; exact I.
    + unfold kill in E. destruct (state_of s t) eqn:Es; try (inversion E; subst; first [exact I|right; exact I]).
      * unfold cancel_scb in E. destruct (k_scb (s_task s t)); inversion E; subst; first [exact I|right; exact I].
      * pose proof (cancel_tcb_cc s t) as [_ T]. destruct (cancel_tcb s t) as [s1 [e|]]; cbn in T; inversion E; subst; cbn; rewrite T; first [exact I|right; exact I].
    + inversion E; subst. exact I.
    + inversion E; subst. unfold add_done. destruct (done s t); exact I.
    + inversion E; subst. unfold event_set. rewrite react_ctl. exact I.
    + inversion E; subst. exact I.
    + inversion E; subst. unfold ievent_set. rewrite react_ctl. exact I.
    + rewrite release_eq in E. destruct (l_current (s_lock s l)); [|inversion E; subst; exact I].
      cbv zeta in E. destruct (l_pending (s_lock s l)) as [|n0 p]; apply (f_equal fst) in E; cbn [fst] in E; rewrite <- E; [exact I|].
      unfold acquire_and_fire. rewrite react_ctl. exact I.
  - assert (G : cancel_now s u m = (s', r) -> In f (s_ctl s')).
    { intro E. unfold cancel_now in E.
      assert (Q : forall s1, s_ctl s1 = s_ctl s ->
        In f (s_ctl (resume (set_task (add_must s1 u) u (with_exc (s_task (add_must s1 u) u) (Some (ECancelled m)))) u))).
      { intros s1 E1. match goal with |- In f (s_ctl (resume ?a ?b)) => destruct (resume_ctl a b) as [g ->] end. right. cbn. rewrite E1. exact I. }
      destruct (state_of s u) eqn:Es; try (inversion E; subst; first [exact I|apply Q; reflexivity]).
      - unfold cancel_scb in E. destruct (k_scb (s_task s u)); inversion E; subst; [|exact I]. apply Q. reflexivity.
      - pose proof (cancel_tcb_cc s u) as [_ T]. destruct (cancel_tcb s u) as [s1 [e|]]; cbn in T; inversion E; subst; [rewrite T; exact I|]. apply Q, T. }
    destruct (s_ctl s) as [|[ | | ]]; try discriminate; inversion St as [E]; apply G, E.
  - destruct (s_ctl s) as [|[u| | ] rest] eqn:Ec; try discriminate. injection St as <- <-. cbn in I.
    unfold coro_returned. destruct (Nat.eqb _ _); right; exact I.
  - destruct (s_ctl s) as [|[u| | ] rest] eqn:Ec; try discriminate. injection St as <- <-. cbn in I.
    unfold coro_raised. destruct x; try destruct (Nat.eqb _ _); right; exact I.
  - destruct (s_ctl s) as [|[u| | ] rest] eqn:Ec; try discriminate. injection St as E. cbn in I.
    unfold await_trigger in E. destruct (await_check s x) as [s1|]; [|inversion E; subst; rewrite Ec; right; exact I].
    inversion E; subst. apply yielded_ctl. exact I.
  - destruct (s_ctl s) as [|[v| | ] rest] eqn:Ec; try discriminate. injection St as E. cbn in I. unfold await_task in E.
    set (s1 := match state_of s u with Unstarted => fst (start_soon s u) | _ => s end) in *.
    assert (E1 : s_ctl s1 = FRun v :: rest) by (unfold s1, start_soon; destruct (state_of s u) eqn:Eu; exact Ec).
    destruct (done s1 u).
    + destruct (result_of s1 u); inversion E; subst; cbn; rewrite E1; right; exact I.
    + inversion E; subst. apply yielded_ctl. exact I.
  - destruct (s_ctl s) as [|[v| | ] rest] eqn:Ec; try discriminate. injection St as <- <-. apply yielded_ctl. exact I.
  - destruct (s_ctl s) as [|[ |u| ] rest] eqn:Ec; try discriminate. injection St as <- <-. right. exact I.
  - destruct (s_ctl s) as [|[ |u| ] rest] eqn:Ec; try discriminate. injection St as <- <-. cbn. rewrite Ec. right. exact I.
  - destruct (s_ctl s) as [|[ | |u i k] rest] eqn:Ec; try discriminate. cbn in I.
    destruct (nth_error _ _); injection St as <- <-; [right; exact I|].
    unfold finish_outcome. destruct k; cbn [set_current set_halt s_ctl]; rewrite !react_ctl; exact I.
  - destruct (s_ctl s) as [|] eqn:Ec; try discriminate. destruct I.
  - destruct (s_ctl s) as [|] eqn:Ec; try discriminate. destruct I.
Qed.

(** * The history *)
Lemma step_log s l s' r : step s l = Some (s', r) -> exists new, s_log s' = new ++ s_log s.
Proof. intro St. apply (lb_step s l s' r St). Qed.
Lemma log_once l1 l2 t x o : log_ok (l1 ++ l2) -> In (ODone t x o) l1 -> ~ ended t l2.
Proof.
  induction l1 as [|a l1 IH]; [intros _ []|]. cbn [app log_ok]. intros [E K] [->|I].
  - cbn in E. intros (y & v & Q). apply E. exists y, v. apply in_or_app. now right.
  - now apply IH.
Qed.
(** A done Task is not completed again. *)
Lemma done_once s s' l t x o : Inv s -> Inv s' -> s_log s' = l ++ s_log s -> done s t = true -> ~ In (ODone t x o) l.
Proof.
  intros H H' E D I. pose proof (G_ok _ _ (J_log _ _ H')) as K. rewrite E in K.
  apply (log_once _ _ _ _ _ K I). destruct (G_rec _ _ (J_log _ _ H) t D) as (v & _ & Q). exists (state_of s t), v. exact Q.
Qed.

(** A frame of a Task whose callbacks have not been called yet is new only if the Task was not done before. *)
Lemma outcome_zero s t x o a u k : done s t = false ->
  In (FDone u 0 k) (s_ctl (set_outcome s t x o a)) -> In (FDone u 0 k) (s_ctl s) \/ done s u = false.
Proof. intros D. cbn. intros [E|I]; [right; congruence|now left]. Qed.
Lemma raised_zero s t e u k : done s t = false ->
  In (FDone u 0 k) (s_ctl (coro_raised s t e)) -> In (FDone u 0 k) (s_ctl s) \/ done s u = false.
Proof. intro D. unfold coro_raised. destruct e; try destruct (Nat.eqb _ _); now apply outcome_zero. Qed.
Lemma returned_zero s t e u k : done s t = false ->
  In (FDone u 0 k) (s_ctl (coro_returned s t e)) -> In (FDone u 0 k) (s_ctl s) \/ done s u = false.
Proof. intro D. unfold coro_returned. destruct (Nat.eqb _ _); now apply outcome_zero. Qed.
Lemma resume_zero s t u k : done s t = false ->
  In (FDone u 0 k) (s_ctl (resume s t)) -> In (FDone u 0 k) (s_ctl s) \/ done s u = false.
Proof.
  intro D. unfold resume. destruct (k_exc (s_task s t)) as [e|].
  - destruct (k_begun _); [cbn; intros [?|?]; [discriminate|now left]|].
    set (s1 := log _ _). intro I. apply raised_zero in I; [|unfold done, state_of, s1; cbn; now rewrite upd_same].
    destruct I as [I|I]; [now left|]. destruct (Nat.eq_dec u t) as [->|N]; [now right|]. right.
    unfold done, state_of, s1 in I. cbn in I. rewrite upd_other in I by assumption. exact I.
  - destruct (k_wait _); cbn; (intros [?|?]; [discriminate|now left]).
Qed.
Lemma yielded_zero s t y ok u k : In (FDone u 0 k) (s_ctl (coro_yielded s t y ok)) -> In (FDone u 0 k) (s_ctl s).
Proof.
  unfold coro_yielded. destruct (negb _); [intros [?|I]; [discriminate|exact I]|]. destruct y as [tr|]; [|auto].
  pose proof (register_cc (set_task s t (with_state (s_task s t) Pending)) tr t ok) as [_ Q].
  destruct (register _ tr t ok) as [s1 b]. cbn [fst] in Q. destruct b; cbn; rewrite Q; auto.
Qed.
Theorem step_zero s l s' r u k : Inv s -> step s l = Some (s', r) ->
  In (FDone u 0 k) (s_ctl s') -> In (FDone u 0 k) (s_ctl s) \/ done s u = false.
Proof.
  intros H St I. unfold step in St. destruct (s_halt s); [discriminate|].
  assert (Dr : forall t rest, s_ctl s = FRun t :: rest \/ s_ctl s = FClose t :: rest -> done s t = false).
  { intros t rest E. assert (R : state_of s t = Running).
    { apply (L_run _ _ (J_loc _ _ H)). destruct E as [-> | ->]; now left. }
    unfold done. now rewrite R. }
  destruct l as [o|t m|v|x|x ok|t| | | | | |g].
  - injection St as E. destruct o; cbn [do_op] in E.
    + unfold start_soon in E. destruct (state_of s t) eqn:Es; inversion E; subst; left; exact I.
    + unfold start_next in E. destruct (state_of s t) eqn:Es; inversion E; subst; left; exact I.
    + left. unfold cancel in E. destruct (state_of s t) eqn:Es; try (inversion E; subst; exact I).
      pose proof (cancel_tcb_cc s t) as [_ T]. destruct (cancel_tcb s t) as [s1 [e|]]; cbn in T; inversion E; subst; cbn in I; rewrite T in I; exact I.
    + unfold kill in E. destruct (state_of s t) eqn:Es; try (inversion E; subst; left; exact I).
      * inversion E; subst. apply outcome_zero in I; [exact I|]. unfold done. now rewrite Es.
      * unfold cancel_scb in E. destruct (k_scb (s_task s t)) as [h|]; inversion E; subst; [|left; exact I].
        apply (outcome_zero (cancel_slot s h)) in I; [exact I|]. unfold done, state_of in *. cbn. now rewrite Es.
      * pose proof (cancel_tcb_cc s t) as [_ T]. pose proof (cancel_tcb_task s t) as T1.
        destruct (cancel_tcb s t) as [s1 [e|]]; cbn in T, T1; inversion E; subst; [left; now rewrite T in I|].
        apply outcome_zero in I; [|unfold done, state_of in *; rewrite T1; now rewrite Es].
        unfold done, state_of in *. rewrite T, T1 in I. exact I.
    + inversion E; subst. left. exact I.
    + inversion E; subst. left. unfold add_done in I. destruct (done s t); exact I.
    + inversion E; subst. left. unfold event_set in I. rewrite react_ctl in I. exact I.
    + inversion E; subst. left. exact I.
    + inversion E; subst. left. unfold ievent_set in I. rewrite react_ctl in I. exact I.
    + left. rewrite release_eq in E. destruct (l_current (s_lock s l)); [|inversion E; subst; exact I].
      cbv zeta in E. destruct (l_pending (s_lock s l)) as [|n0 p]; apply (f_equal fst) in E; cbn [fst] in E; rewrite <- E in I; [exact I|].
      unfold acquire_and_fire in I. rewrite react_ctl in I. exact I.
  - assert (G : cancel_now s t m = (s', r) -> In (FDone u 0 k) (s_ctl s) \/ done s u = false).
    { intro E. unfold cancel_now in E.
      assert (Q : forall s1, s_ctl s1 = s_ctl s -> s_task s1 = s_task s -> done s t = false ->
        In (FDone u 0 k) (s_ctl (resume (set_task (add_must s1 t) t (with_exc (s_task (add_must s1 t) t) (Some (ECancelled m)))) t)) ->
        In (FDone u 0 k) (s_ctl s) \/ done s u = false).
      { intros s1 E1 E2 D I1. apply resume_zero in I1.
        - cbn in I1. rewrite E1 in I1. destruct I1 as [I1|I1]; [now left|right]. unfold done, state_of in *. cbn in I1.
          destruct (Nat.eq_dec u t) as [->|N]; [exact D|]. rewrite !upd_other in I1 by assumption. now rewrite E2 in I1.
        - unfold done, state_of in *. cbn. rewrite !upd_same. cbn. now rewrite E2. }
      destruct (state_of s t) eqn:Es; try (inversion E; subst; first [left; exact I|apply (Q s); auto; unfold done; now rewrite Es]).
      - unfold cancel_scb in E. destruct (k_scb (s_task s t)) as [h|]; inversion E; subst; [|left; exact I].
        apply (Q (cancel_slot s h)); auto. unfold done. now rewrite Es.
      - pose proof (cancel_tcb_cc s t) as [_ T]. pose proof (cancel_tcb_task s t) as T1.
        destruct (cancel_tcb s t) as [s1 [e|]]; cbn in T, T1; inversion E; subst; [left; now rewrite T in I|].
        apply (Q s1); auto. unfold done. now rewrite Es. }
    destruct (s_ctl s) as [|[ | | ]]; try discriminate; inversion St as [E]; apply G, E.
  - destruct (s_ctl s) as [|[t| | ] rest] eqn:Ec; try discriminate. injection St as <- <-.
    apply (returned_zero (set_ctl s rest)) in I; [|apply (Dr t rest); now left]. destruct I as [I|I]; [left; right; exact I|now right].
  - destruct (s_ctl s) as [|[t| | ] rest] eqn:Ec; try discriminate. injection St as <- <-.
    apply (raised_zero (set_ctl s rest)) in I; [|apply (Dr t rest); now left]. destruct I as [I|I]; [left; right; exact I|now right].
  - left. destruct (s_ctl s) as [|[t| | ] rest] eqn:Ec; try discriminate. injection St as E.
    unfold await_trigger in E. destruct (await_check s x) as [s1|]; [|inversion E; subst; now rewrite Ec in I].
    inversion E; subst. apply yielded_zero in I. right. exact I.
  - left. destruct (s_ctl s) as [|[v| | ] rest] eqn:Ec; try discriminate. injection St as E. unfold await_task in E.
    set (s1 := match state_of s t with Unstarted => fst (start_soon s t) | _ => s end) in *.
    assert (E1 : s_ctl s1 = FRun v :: rest) by (unfold s1, start_soon; destruct (state_of s t) eqn:Eu; exact Ec).
    destruct (done s1 t).
    + destruct (result_of s1 t); inversion E; subst; cbn in I; rewrite E1 in I; exact I.
    + inversion E; subst. apply yielded_zero in I. right. exact I.
  - left. destruct (s_ctl s) as [|[v| | ] rest] eqn:Ec; try discriminate. injection St as <- <-. apply yielded_zero in I. right. exact I.
  - destruct (s_ctl s) as [|[ |t| ] rest] eqn:Ec; try discriminate. injection St as <- <-.
    apply (outcome_zero (set_ctl s rest)) in I; [|apply (Dr t rest); now right]. destruct I as [I|I]; [left; right; exact I|now right].
  - left. destruct (s_ctl s) as [|[ |t| ] rest] eqn:Ec; try discriminate. injection St as <- <-. cbn in I. now rewrite Ec in I.
  - left. destruct (s_ctl s) as [|[ | |t i a] rest] eqn:Ec; try discriminate.
    destruct (nth_error _ _); injection St as <- <-.
    + cbn in I. destruct I as [I|I]; [discriminate|now right].
    + unfold finish_outcome in I. right. destruct a; cbn [set_current set_halt s_ctl] in I; rewrite !react_ctl in I; exact I.
  - destruct (s_ctl s) as [|] eqn:Ec; try discriminate. destruct (s_queue s) as [|q rest] eqn:Eq; [discriminate|]. injection St as <- <-.
    destruct (q_cancelled q) eqn:Cq; [left; cbn in I; now rewrite Ec in I|].
    assert (Sc : state_of s (q_task q) = Scheduled).
    { destruct q as [h y c]; cbn in *. apply (L_qlive _ _ (J_loc _ _ H) h y). rewrite Eq. left. now f_equal. }
    apply resume_zero in I; [|unfold done, state_of in *; cbn; now rewrite Sc]. cbn in I. rewrite Ec in I. exact I.
  - left. destruct (s_ctl s) as [|] eqn:Ec; try discriminate. destruct (s_queue s) as [|q rest] eqn:Eq; [|discriminate].
    destruct (g_armed _); [|discriminate]. injection St as <- <-. rewrite react_ctl in I. cbn in I. now rewrite Ec in I.
Qed.

(** * The kernel operations the layers use, as steps *)
Lemma op_step s o : s_halt s = false -> step s (LOp o) = Some (do_op s o).
Proof. intro Ha. unfold step. now rewrite Ha. Qed.
Lemma await_step s t rest tr ok : s_halt s = false -> s_ctl s = FRun t :: rest -> step s (LAwait tr ok) = Some (await_trigger s rest t tr ok).
Proof. intros Ha E. unfold step. now rewrite Ha, E. Qed.

(** [await] of a trigger which does not fire at once: the Task is blocked on it. *)
Definition registered (s : st) (tr : trig) (t : tid) : st :=
  log (set_cbs (set_task (set_next s (S (s_next s))) t (with_tcb (s_task s t) tr (s_next s))) tr [(s_next s, t)])
      (OBlock t tr (s_next s)).
Lemma registered_facts s tr t : let s' := registered s tr t in
  k_state (s_task s' t) = k_state (s_task s t) /\ k_must (s_task s' t) = k_must (s_task s t) /\
  (forall v, v <> t -> s_task s' v = s_task s v) /\
  s_cbs s' tr = [(s_next s, t)] /\ (forall x, x <> tr -> s_cbs s' x = s_cbs s x) /\
  s_event s' = s_event s /\ s_ievent s' = s_ievent s /\ s_ctl s' = s_ctl s.
Proof.
  cbv zeta. unfold registered. cbn. rewrite upd_same. repeat split; auto.
  - intros. now apply upd_other.
  - apply updt_same.
  - intros. now apply updt_other.
Qed.
Lemma await_internal_raw s t rest i : s_ievent s i = IEvent false false -> s_cbs s (TInternal i) = [] ->
  let s' := fst (await_trigger s rest t (TInternal i) true) in
  snd (await_trigger s rest t (TInternal i) true) = RUnit /\
  s_ievent s' i = IEvent false true /\ (forall j, j <> i -> s_ievent s' j = s_ievent s j) /\
  (forall v, v <> t -> s_task s' v = s_task s v) /\
  (forall x, x <> TInternal i -> s_cbs s' x = s_cbs s x) /\
  ((k_must (s_task s t) <> 0 /\ s_cbs s' (TInternal i) = [] /\ s_ctl s' = FClose t :: rest /\ state_of s' t = state_of s t) \/
   (k_must (s_task s t) = 0 /\ k_must (s_task s' t) = 0 /\ s_ctl s' = rest /\ exists h, s_cbs s' (TInternal i) = [(h, t)])).
Proof.
  intros Ei Ec. cbv zeta. unfold await_trigger. cbn [await_check]. rewrite Ei. cbn [i_awaited i_fired fst snd].
  set (s0 := set_ievent s i (IEvent false true)).
  set (s1 := set_ctl (set_task s0 t (with_wait (s_task s0 t) WTrig)) rest).
  assert (T1 : s_task s1 t = with_wait (s_task s t) WTrig) by (unfold s1, s0; cbn; apply upd_same).
  assert (U1 : forall v, v <> t -> s_task s1 v = s_task s v) by (intros; unfold s1, s0; cbn; now apply upd_other).
  assert (C1 : s_cbs s1 = s_cbs s) by reflexivity.
  assert (I1 : s_ievent s1 i = IEvent false true) by (unfold s1, s0; cbn; apply upd_same).
  assert (J1 : forall j, j <> i -> s_ievent s1 j = s_ievent s j) by (intros; unfold s1, s0; cbn; now apply upd_other).
  assert (R1 : s_ctl s1 = rest) by reflexivity. clearbody s1. clear s0.
  split; [reflexivity|]. unfold coro_yielded. rewrite T1. cbn [with_wait k_must].
  destruct (Nat.eqb_spec (k_must (s_task s t)) 0) as [M|M]; cbn [negb].
  - set (s2 := set_task s1 t (with_state (with_wait (s_task s t) WTrig) Pending)).
    assert (T2 : s_task s2 t = with_state (with_wait (s_task s t) WTrig) Pending) by (unfold s2; cbn; apply upd_same).
    assert (U2 : forall v, v <> t -> s_task s2 v = s_task s v) by (intros v N; unfold s2; cbn; rewrite upd_other by assumption; now apply U1).
    assert (C2 : s_cbs s2 = s_cbs s) by (rewrite <- C1; reflexivity).
    assert (I2 : s_ievent s2 = s_ievent s1) by reflexivity.
    assert (R2 : s_ctl s2 = rest) by (rewrite <- R1; reflexivity). clearbody s2.
    assert (E : register s2 (TInternal i) t true = (registered s2 (TInternal i) t, false)).
    { unfold register, registered. cbn [s_cbs set_task set_next]. rewrite C2, Ec. cbn [app prime].
      cbn [s_ievent log set_cbs set_task set_next]. rewrite I2, I1. reflexivity. }
    rewrite E. destruct (registered_facts s2 (TInternal i) t) as (F1 & F2 & F3 & F4 & F5 & F6 & F7 & F8).
    set (s3 := registered s2 (TInternal i) t) in *. clearbody s3. cbn [set_current s_task s_cbs s_ievent s_ctl].
    rewrite F7, I2, I1, F8, R2. split; [reflexivity|]. split; [exact J1|]. split; [intros v N; rewrite F3, U2; auto|].
    split; [intros y N; rewrite F5, C2; auto|]. right. split; [exact M|]. split; [rewrite F2, T2; exact M|]. split; [reflexivity|]. exists (s_next s2). exact F4.
  - cbn [set_ctl s_task s_cbs s_ievent s_ctl]. rewrite I1, R1, C1. split; [reflexivity|]. split; [exact J1|]. split; [exact U1|]. split; [auto|].
    left. split; [exact M|]. split; [exact Ec|]. split; [reflexivity|]. unfold state_of. cbn [s_task set_ctl]. rewrite T1. reflexivity.
Qed.

(** Facts about kernel steps which the layers above need: what a step does to an Event it does not mention, to the call
    stack, and to the current Task. *)
From Verif Require Import Base KernelModel KernelProofs KernelHist KernelLog KernelInv KernelTask KernelWake.
From Coq Require Import Arith Sorted.

(** * Events not mentioned *)
Definition eframe (e : nat) (s s' : st) : Prop :=
  s_event s' e = s_event s e /\ forall c, In c (s_cbs s' (TEvent e)) -> In c (s_cbs s (TEvent e)).
Lemma ef_refl e s : eframe e s s.
Proof. split; auto. Qed.
Lemma ef_trans e a b c : eframe e a b -> eframe e b c -> eframe e a c.
Proof. intros [A1 A2] [B1 B2]. split; [congruence|auto]. Qed.
Lemma ef_same e s s' : s_event s' = s_event s -> s_cbs s' = s_cbs s -> eframe e s s'.
Proof. intros A B. split; rewrite ?A, ?B; auto. Qed.
Lemma ef_react e s tr : eframe e s (react s tr).
Proof.
  split; [now rewrite react_event|]. intro c. rewrite react_cbs. unfold updt. destruct (trig_eqb _ _); [intros []|auto].
Qed.
Lemma unprime_event s tr : s_event (fst (unprime s tr)) = s_event s.
Proof. destruct tr; cbn; try reflexivity. destruct (g_hdl _); reflexivity. Qed.
Lemma ef_deregister e s tr h : eframe e s (fst (deregister s tr h)).
Proof.
  split.
  - unfold deregister. destruct (existsb _ _); [|reflexivity].
    set (s1 := set_cbs s tr _). destruct (s_cbs s1 tr); [rewrite unprime_event|]; reflexivity.
  - intro c. rewrite deregister_cbs. destruct (trig_eqb_spec (TEvent e) tr) as [<-|]; [|auto]. intro I. now apply filter_In in I.
Qed.
Lemma ef_cancel_tcb e s t : eframe e s (fst (cancel_tcb s t)).
Proof. unfold cancel_tcb. destruct (k_tcb _) as [[tr h]|]; [apply ef_deregister|apply ef_refl]. Qed.
Lemma ef_resume e s t : eframe e s (resume s t).
Proof.
  apply ef_same; [|apply resume_cbs]. unfold resume. destruct (k_exc _) as [x|].
  - destruct (k_begun _); [reflexivity|]. unfold coro_raised. destruct x; try destruct (Nat.eqb _ _); reflexivity.
  - destruct (k_wait _); reflexivity.
Qed.
Lemma ef_prime e s tr ok : eframe e s (fst (prime s tr ok)).
Proof.
  destruct tr; cbn [prime fst].
  - destruct (s_event s e0); [apply ef_react|apply ef_refl].
  - destruct (i_fired _); [apply ef_react|apply ef_refl].
  - destruct (l_current _); [apply ef_same; reflexivity|]. unfold acquire_and_fire.
    eapply ef_trans; [|apply ef_react]. apply ef_same; reflexivity.
  - apply ef_react.
  - destruct (done s t); [apply ef_react|apply ef_refl].
  - destruct (done s t); [apply ef_react|apply ef_refl].
  - destruct ok; cbn [fst]; apply ef_same; reflexivity.
Qed.
Lemma ef_register e s tr t ok : tr <> TEvent e -> eframe e s (fst (register s tr t ok)).
Proof.
  intro N. unfold register. set (h := s_next s). cbv zeta.
  match goal with |- context[prime ?x tr ok] => assert (A : eframe e s x) end.
  { split; [reflexivity|]. intro c. cbn. rewrite updt_other by congruence. auto. }
  destruct (s_cbs s tr); [|exact A]. eapply ef_trans; [exact A|apply ef_prime].
Qed.
Lemma ef_yielded e s t y ok : y <> Some (TEvent e) -> eframe e s (coro_yielded s t y ok).
Proof.
  intro N. unfold coro_yielded. destruct (negb _); [apply ef_same; reflexivity|]. destruct y as [tr|]; [|apply ef_same; reflexivity].
  set (s0 := set_task s t _). assert (A := ef_register e s0 tr t ok ltac:(congruence)).
  destruct (register s0 tr t ok) as [s1 b]. cbn [fst] in A. eapply ef_trans; [|eapply ef_trans; [exact A|]].
  - apply ef_same; reflexivity.
  - destruct b; apply ef_same; reflexivity.
Qed.
Lemma await_check_event s tr s' : await_check s tr = Some s' -> s_event s' = s_event s.
Proof.
  unfold await_check. destruct tr; try (intros [= <-]; reflexivity).
  - destruct (i_awaited _); [discriminate|]. intros [= <-]. reflexivity.
  - destruct (_ || _); [discriminate|]. intros [= <-]. reflexivity.
Qed.
(** The steps which concern an Event. *)
Definition mentions (e : nat) (l : label) : Prop :=
  l = LOp (OpSet e) \/ l = LOp (OpClear e) \/ exists ok, l = LAwait (TEvent e) ok.
Theorem step_eframe e s l s' r : ~ mentions e l -> step s l = Some (s', r) -> eframe e s s'.
Proof.
  intros N St. unfold step in St. destruct (s_halt s); [discriminate|].
  destruct l as [o|u m|v|x|x ok|u| | | | | |g].
  - inversion St as [E]. destruct o; cbn [do_op] in E.
    + unfold start_soon in E. destruct (state_of s t); inversion E; subst; apply ef_same; reflexivity.
    + unfold start_next in E. destruct (state_of s t); inversion E; subst; apply ef_same; reflexivity.
    + unfold cancel in E. destruct (state_of s t); try (inversion E; subst; apply ef_same; reflexivity).
      pose proof (ef_cancel_tcb e s t) as Q. destruct (cancel_tcb s t) as [s1 [z|]]; inversion E; subst; exact Q.
    + unfold kill in E. destruct (state_of s t); try (inversion E; subst; apply ef_same; reflexivity).
      * unfold cancel_scb in E. destruct (k_scb (s_task s t)); inversion E; subst; apply ef_same; reflexivity.
      * pose proof (ef_cancel_tcb e s t) as Q. destruct (cancel_tcb s t) as [s1 [z|]]; inversion E; subst; exact Q.
    + inversion E; subst. apply ef_same; reflexivity.
    + inversion E; subst. unfold add_done. destruct (done s t); apply ef_same; reflexivity.
    + inversion E; subst. unfold event_set. eapply ef_trans; [|apply ef_react]. split; [|auto].
      cbn. apply upd_other. intros ->. apply N. now left.
    + inversion E; subst. split; [|auto]. cbn. apply upd_other. intros ->. apply N. right. now left.
    + inversion E; subst. unfold ievent_set. eapply ef_trans; [|apply ef_react]. apply ef_same; reflexivity.
    + rewrite release_eq in E. destruct (l_current (s_lock s l)); [|inversion E; subst; apply ef_refl].
      cbv zeta in E. destruct (l_pending (s_lock s l)) as [|n0 p]; apply (f_equal fst) in E; cbn [fst] in E; rewrite <- E;
        [apply ef_same; reflexivity|]. unfold acquire_and_fire. eapply ef_trans; [|apply ef_react]. apply ef_same; reflexivity.
  - assert (G : cancel_now s u m = (s', r) -> eframe e s s').
    { intro E. unfold cancel_now in E. destruct (state_of s u);
        try (inversion E; subst; first [apply ef_refl|eapply ef_trans; [|apply ef_resume]; apply ef_same; reflexivity]).
      - unfold cancel_scb in E. destruct (k_scb (s_task s u)); inversion E; subst; [|apply ef_refl].
        eapply ef_trans; [|apply ef_resume]; apply ef_same; reflexivity.
      - pose proof (ef_cancel_tcb e s u) as Q. destruct (cancel_tcb s u) as [s1 [z|]]; inversion E; subst; [exact Q|].
        eapply ef_trans; [|apply ef_resume]. exact Q. }
    destruct (s_ctl s) as [|[ | | ]]; try discriminate; inversion St as [E]; apply G, E.
  - destruct (s_ctl s) as [|[u| | ] rest]; try discriminate. inversion St; subst.
    apply ef_same; [|rewrite coro_returned_cbs; reflexivity]. unfold coro_returned. destruct (Nat.eqb _ _); reflexivity.
  - destruct (s_ctl s) as [|[u| | ] rest]; try discriminate. inversion St; subst.
    apply ef_same; [|rewrite coro_raised_cbs; reflexivity]. unfold coro_raised. destruct x; try destruct (Nat.eqb _ _); reflexivity.
  - destruct (s_ctl s) as [|[u| | ] rest]; try discriminate. inversion St as [E].
    unfold await_trigger in E. destruct (await_check s x) as [s1|] eqn:Ea; [|inversion E; subst; apply ef_refl].
    inversion E; subst. eapply ef_trans; [|apply ef_yielded].
    + apply ef_same; cbn; [apply (await_check_event _ _ _ Ea)|apply (await_check_cbs _ _ _ Ea)].
    + intros [= ->]. apply N. right. right. eauto.
  - destruct (s_ctl s) as [|[v| | ] rest]; try discriminate. inversion St as [E]. unfold await_task in E.
    set (s1 := match state_of s u with Unstarted => fst (start_soon s u) | _ => s end) in *.
    assert (C1 : eframe e s s1) by (unfold s1, start_soon; destruct (state_of s u); apply ef_same; reflexivity).
    destruct (done s1 u).
    + destruct (result_of s1 u); inversion E; subst; exact C1.
    + inversion E; subst. eapply ef_trans; [exact C1|]. eapply ef_trans; [|apply ef_yielded; discriminate]. apply ef_same; reflexivity.
  - destruct (s_ctl s) as [|[v| | ] rest]; try discriminate. inversion St; subst.
    eapply ef_trans; [|apply ef_yielded; discriminate]. apply ef_same; reflexivity.
  - destruct (s_ctl s) as [|[ |u| ] rest]; try discriminate. inversion St; subst. apply ef_same; reflexivity.
  - destruct (s_ctl s) as [|[ |u| ] rest]; try discriminate. inversion St; subst. apply ef_same; reflexivity.
  - destruct (s_ctl s) as [|[ | |u i k] rest]; try discriminate.
    destruct (nth_error _ _); inversion St; subst; [apply ef_same; reflexivity|].
    unfold finish_outcome. eapply ef_trans; [|eapply ef_trans; [apply (ef_react e (set_ctl s rest) (TComplete u))|
      eapply ef_trans; [apply (ef_react e _ (TJoin u))|]]].
    + apply ef_same; reflexivity.
    + destruct k; apply ef_same; reflexivity.
  - destruct (s_ctl s) as [|]; try discriminate.
    destruct (s_queue s) as [|q rest]; [discriminate|]. inversion St; subst.
    destruct (q_cancelled q); [apply ef_same; reflexivity|]. eapply ef_trans; [|apply ef_resume]. apply ef_same; reflexivity.
  - destruct (s_ctl s) as [|]; try discriminate.
    destruct (s_queue s) as [|q rest]; [|discriminate].
    destruct (g_armed (s_gpi s g)); [|discriminate]. inversion St; subst. eapply ef_trans; [|apply ef_react]. apply ef_same; reflexivity.
Qed.

(** * The current Task *)
(** Whom [current_task()] may return, given the call stack: done callbacks run with the Task of the code which completed
    the other one. *)
Fixpoint owner (c : list frame) : option tid :=
  match c with
  | [] => None
  | FRun t :: _ | FClose t :: _ => Some t
  | FDone t _ (AfterResume | AfterRaise) :: _ => Some t
  | FDone _ _ AfterKill :: c' => owner c'
  end.
Definition cur_ok (s : st) : Prop := s_current s = None \/ s_current s = owner (s_ctl s).
Lemma cur_same s s' : s_current s' = s_current s -> s_ctl s' = s_ctl s -> cur_ok s -> cur_ok s'.
Proof. unfold cur_ok. now intros -> ->. Qed.
Lemma unprime_cc s tr : s_current (fst (unprime s tr)) = s_current s /\ s_ctl (fst (unprime s tr)) = s_ctl s.
Proof. destruct tr; cbn; auto. destruct (g_hdl _); auto. Qed.
Lemma cancel_tcb_cc s t : s_current (fst (cancel_tcb s t)) = s_current s /\ s_ctl (fst (cancel_tcb s t)) = s_ctl s.
Proof.
  unfold cancel_tcb. destruct (k_tcb _) as [[tr h]|]; [|auto]. unfold deregister. destruct (existsb _ _); [|auto].
  set (s1 := set_cbs s tr _). destruct (s_cbs s1 tr); [destruct (unprime_cc s1 tr) as [-> ->]; auto|auto].
Qed.
Lemma prime_cc s tr ok : s_current (fst (prime s tr ok)) = s_current s /\ s_ctl (fst (prime s tr ok)) = s_ctl s.
Proof.
  destruct tr; cbn [prime]; unfold acquire_and_fire;
    repeat match goal with
    | |- context[if ?b then _ else _] => destruct b
    | |- context[match ?b with Some _ => _ | None => _ end] => destruct b
    end; cbn [fst]; rewrite ?react_current, ?react_ctl; auto.
Qed.
Lemma register_cc s tr t ok : s_current (fst (register s tr t ok)) = s_current s /\ s_ctl (fst (register s tr t ok)) = s_ctl s.
Proof.
  unfold register. cbv zeta. destruct (s_cbs s tr); [|auto]. match goal with |- context[prime ?x tr ok] => destruct (prime_cc x tr ok) as [-> ->] end. auto.
Qed.
Lemma set_outcome_cur s t x o k : s_current s = None \/ s_current s = Some t -> k <> AfterKill -> cur_ok (set_outcome s t x o k).
Proof. intros [H|H] N; [left; exact H|right]. cbn. rewrite H. destruct k; [reflexivity..|now elim N]. Qed.
Lemma returned_cur s t v : s_current s = None \/ s_current s = Some t -> cur_ok (coro_returned s t v).
Proof. intro H. unfold coro_returned. destruct (Nat.eqb _ _); apply set_outcome_cur; auto; discriminate. Qed.
Lemma raised_cur s t e : s_current s = None \/ s_current s = Some t -> cur_ok (coro_raised s t e).
Proof. intro H. unfold coro_raised. destruct e; try destruct (Nat.eqb _ _); apply set_outcome_cur; auto; discriminate. Qed.
Lemma yielded_cur s t y ok : s_current s = None \/ s_current s = Some t -> cur_ok (coro_yielded s t y ok).
Proof.
  intro H. unfold coro_yielded. destruct (negb _).
  - destruct H as [H|H]; [left; exact H|right; exact H].
  - destruct y as [tr|]; [|now left]. destruct (register _ tr t ok) as [s1 b]. now left.
Qed.
Lemma resume_cur s t : cur_ok (resume s t).
Proof.
  unfold resume. destruct (k_exc _) as [e|].
  - destruct (k_begun _); [right; reflexivity|]. apply raised_cur. right; reflexivity.
  - right. destruct (k_wait _); reflexivity.
Qed.
Theorem step_cur s l s' r : cur_ok s -> step s l = Some (s', r) -> cur_ok s'.
Proof.
  intros C St. unfold step in St. destruct (s_halt s); [discriminate|].
  destruct l as [o|u m|v|x|x ok|u| | | | | |g].
  - inversion St as [E]. destruct o; cbn [do_op] in E.
    + unfold start_soon in E. destruct (state_of s t); inversion E; subst; exact C.
    + unfold start_next in E. destruct (state_of s t); inversion E; subst; exact C.
    + unfold cancel in E. destruct (state_of s t); try (inversion E; subst; exact C).
      pose proof (cancel_tcb_cc s t) as [Q1 Q2]. destruct (cancel_tcb s t) as [s1 [z|]]; inversion E; subst;
        eapply cur_same; try exact C; assumption.
    + assert (K : forall s1, cur_ok s1 -> cur_ok (set_outcome s1 t Finished (OVal None) AfterKill)) by (intros s1 H; exact H).
      unfold kill in E. destruct (state_of s t); try (inversion E; subst; exact C).
      * unfold cancel_scb in E. destruct (k_scb (s_task s t)); inversion E; subst; exact C.
      * pose proof (cancel_tcb_cc s t) as [Q1 Q2]. destruct (cancel_tcb s t) as [s1 [z|]]; inversion E; subst; [|apply K];
        eapply cur_same; try exact C; assumption.
    + inversion E; subst. exact C.
    + inversion E; subst. unfold add_done. destruct (done s t); exact C.
    + inversion E; subst. unfold event_set. eapply cur_same; [apply react_current|apply react_ctl|exact C].
    + inversion E; subst. exact C.
    + inversion E; subst. unfold ievent_set. eapply cur_same; [apply react_current|apply react_ctl|exact C].
    + rewrite release_eq in E. destruct (l_current (s_lock s l)); [|inversion E; subst; exact C].
      cbv zeta in E. destruct (l_pending (s_lock s l)) as [|n0 p]; apply (f_equal fst) in E; cbn [fst] in E; rewrite <- E;
        [exact C|]. unfold acquire_and_fire. eapply cur_same; [apply react_current|apply react_ctl|exact C].
  - assert (G : cancel_now s u m = (s', r) -> cur_ok s').
    { intro E. unfold cancel_now in E. destruct (state_of s u);
        try (inversion E; subst; first [apply resume_cur|exact C]).
      - unfold cancel_scb in E. destruct (k_scb (s_task s u)); inversion E; subst; first [apply resume_cur|exact C].
      - pose proof (cancel_tcb_cc s u) as [Q1 Q2]. destruct (cancel_tcb s u) as [s1 [z|]]; inversion E; subst; [|apply resume_cur].
        eapply cur_same; try exact C; assumption. }
    destruct (s_ctl s) as [|[ | | ]]; try discriminate; inversion St as [E]; apply G, E.
  - unfold cur_ok in C. destruct (s_ctl s) as [|[u| | ] rest]; try discriminate. inversion St; subst. apply returned_cur. exact C.
  - unfold cur_ok in C. destruct (s_ctl s) as [|[u| | ] rest]; try discriminate. inversion St; subst. apply raised_cur. exact C.
  - assert (C' := C). unfold cur_ok in C'. destruct (s_ctl s) as [|[u| | ] rest]; try discriminate. inversion St as [E].
    unfold await_trigger in E. destruct (await_check s x) as [s1|] eqn:Ea; [|inversion E; subst; exact C].
    inversion E; subst. apply yielded_cur. cbn. cbn in C'. replace (s_current s1) with (s_current s); [exact C'|].
    unfold await_check in Ea. destruct x; try (injection Ea as <-; reflexivity).
    + destruct (i_awaited _); [discriminate|]. injection Ea as <-. reflexivity.
    + destruct (_ || _); [discriminate|]. injection Ea as <-. reflexivity.
  - assert (C' := C). unfold cur_ok in C'. destruct (s_ctl s) as [|[v| | ] rest] eqn:Ec; try discriminate. inversion St as [E]. unfold await_task in E.
    set (s1 := match state_of s u with Unstarted => fst (start_soon s u) | _ => s end) in *.
    assert (C1 : s_current s1 = s_current s /\ s_ctl s1 = s_ctl s) by (unfold s1, start_soon; destruct (state_of s u); auto).
    destruct C1 as [C1 C2]. destruct (done s1 u).
    + destruct (result_of s1 u); inversion E; subst; (eapply cur_same; [..|exact C]; assumption).
    + inversion E; subst. apply yielded_cur. cbn. rewrite C1. exact C'.
  - unfold cur_ok in C. destruct (s_ctl s) as [|[v| | ] rest]; try discriminate. inversion St; subst. apply yielded_cur. exact C.
  - unfold cur_ok in C. destruct (s_ctl s) as [|[ |u| ] rest]; try discriminate. inversion St; subst. apply set_outcome_cur; [exact C|discriminate].
  - destruct (s_ctl s) as [|[ |u| ] rest]; try discriminate. inversion St; subst. exact C.
  - assert (C' := C). unfold cur_ok in C'. destruct (s_ctl s) as [|[ | |u i k] rest]; try discriminate.
    destruct (nth_error _ _); inversion St; subst.
    + unfold cur_ok. cbn. cbn in C'. exact C'.
    + unfold finish_outcome, cur_ok. destruct k; [now left..|]. rewrite !react_current, !react_ctl. exact C'.
  - destruct (s_ctl s) as [|] eqn:Ec; try discriminate.
    destruct (s_queue s) as [|q rest]; [discriminate|]. inversion St; subst.
    destruct (q_cancelled q); [|apply resume_cur]. exact C.
  - destruct (s_ctl s) as [|] eqn:Ec; try discriminate.
    destruct (s_queue s) as [|q rest]; [|discriminate].
    destruct (g_armed (s_gpi s g)); [|discriminate]. inversion St; subst. eapply cur_same; [apply react_current|apply react_ctl|exact C].
Qed.

(** * Popping the run queue *)
Lemma pop_ctl s s' r t : step s LPop = Some (s', r) -> In t (runners (s_ctl s')) -> s_ctl s' = [FRun t].
Proof.
  unfold step. destruct (s_halt s); [discriminate|]. destruct (s_ctl s) as [|] eqn:Ec; [|discriminate].
  destruct (s_queue s) as [|q rest]; [discriminate|]. intros [= <- <-]. destruct (q_cancelled q); [cbn; rewrite Ec; intros []|].
  unfold resume. set (s1 := log _ _). set (k := s_task _ _). destruct (k_exc k) as [e|].
  - destruct (k_begun k); [cbn; rewrite Ec; intros [<-|[]]; reflexivity|].
    unfold coro_raised. destruct e; try destruct (Nat.eqb _ _); cbn; rewrite Ec; intros [].
  - destruct (k_wait k); cbn; rewrite Ec; intros [<-|[]]; reflexivity.
Qed.

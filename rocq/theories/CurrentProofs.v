(** Proofs for C88. *)
From Verif Require Import Base KernelModel KernelSpec KernelProofs KernelHist KernelLog KernelInv KernelTask KernelWake KernelLayer CurrentModel CurrentSpec.

Lemma cur_exec ls s s' : cur_ok s -> exec s ls s' -> cur_ok s'.
Proof. intros C E. induction E; [exact C|]. apply IHE. eapply step_cur; eassumption. Qed.
Lemma cur_init ls s : exec init ls s -> cur_ok s.
Proof. apply cur_exec. left. reflexivity. Qed.

(** No coroutine has a call pending. *)
Definition norun (c : list frame) : Prop := forall t, ~ In (FRun t) c /\ ~ In (FClose t) c.
Fixpoint good (cur : option tid) (c : list frame) : Prop :=
  match c with
  | [] => True
  | FDone _ _ AfterKill :: c' => good cur c'
  | FRun t :: c' | FClose t :: c' => cur = Some t /\ norun c'
  | FDone _ _ _ :: c' => norun c'
  end.
Definition gst (s : st) : Prop := good (s_current s) (s_ctl s).
Lemma norun_tl f c : norun (f :: c) -> norun c.
Proof. intros H t. destruct (H t) as [A B]. split; intro I; [apply A|apply B]; now right. Qed.
Lemma norun_nil : norun []. Proof. intro t. split; intros []. Qed.
Lemma norun_good cur c : norun c -> good cur c.
Proof.
  induction c as [|f c IH]; intro H; [exact Logic.I|]. pose proof (norun_tl _ _ H) as T. destruct f as [t|t|t i k]; cbn.
  - destruct (H t) as [A _]. exfalso. apply A. now left.
  - destruct (H t) as [_ A]. exfalso. apply A. now left.
  - destruct k; auto.
Qed.
Lemma g_same s s' : s_current s' = s_current s -> s_ctl s' = s_ctl s -> gst s -> gst s'.
Proof. unfold gst. now intros -> ->. Qed.

Lemma set_outcome_g s t x o k : k <> AfterKill -> norun (s_ctl s) -> gst (set_outcome s t x o k).
Proof. intros N H. unfold gst. cbn. destruct k; [exact H|exact H|now elim N]. Qed.
Lemma returned_g s t v : norun (s_ctl s) -> gst (coro_returned s t v).
Proof. intro H. unfold coro_returned. destruct (Nat.eqb _ _); apply set_outcome_g; auto; discriminate. Qed.
Lemma raised_g s t e : norun (s_ctl s) -> gst (coro_raised s t e).
Proof. intro H. unfold coro_raised. destruct e; try destruct (Nat.eqb _ _); apply set_outcome_g; auto; discriminate. Qed.
Lemma sched_ctl s t e : s_ctl (schedule_resume s t e) = s_ctl s. Proof. reflexivity. Qed.
Lemma yielded_g s t y ok : s_current s = Some t -> norun (s_ctl s) -> gst (coro_yielded s t y ok).
Proof.
  intros C H. unfold coro_yielded. destruct (negb _).
  - unfold gst. cbn. auto.
  - destruct y as [tr|]; [|apply norun_good; exact H].
    pose proof (register_cc (set_task s t (with_state (s_task s t) Pending)) tr t ok) as [_ R].
    destruct (register _ tr t ok) as [s1 b]. cbn [fst] in R. apply norun_good. destruct b; cbn; rewrite R; exact H.
Qed.
Lemma resume_g s t : norun (s_ctl s) -> gst (resume s t).
Proof.
  intro H. unfold resume. destruct (k_exc _) as [e|].
  - destruct (k_begun _); [split; [reflexivity|exact H]|]. apply raised_g. exact H.
  - destruct (k_wait _); (split; [reflexivity|exact H]).
Qed.
Lemma kill_ctl s t s' r : kill s t = (s', r) -> s_current s' = s_current s /\
  (s_ctl s' = s_ctl s \/ s_ctl s' = FDone t 0 AfterKill :: s_ctl s).
Proof.
  unfold kill. destruct (state_of s t); try (intros [= <- <-]; auto).
  - unfold cancel_scb. destruct (k_scb (s_task s t)); intros [= <- <-]; auto.
  - pose proof (cancel_tcb_cc s t) as [Q1 Q2]. destruct (cancel_tcb s t) as [s1 [z|]]; cbn [fst] in *; intros [= <- <-]; split; auto.
    right. cbn. now rewrite Q2.
Qed.
Lemma op_cc s o s' r : do_op s o = (s', r) -> s_current s' = s_current s /\
  (s_ctl s' = s_ctl s \/ exists t, s_ctl s' = FDone t 0 AfterKill :: s_ctl s).
Proof.
  intro E. destruct o; cbn [do_op] in E.
  - unfold start_soon in E. destruct (state_of s t); inversion E; subst; auto.
  - unfold start_next in E. destruct (state_of s t); inversion E; subst; auto.
  - unfold cancel in E. destruct (state_of s t); try (inversion E; subst; auto; fail).
    pose proof (cancel_tcb_cc s t) as [Q1 Q2]. destruct (cancel_tcb s t) as [s1 [z|]]; inversion E; subst; auto.
  - destruct (kill_ctl s t s' r E) as [A [B|B]]; eauto.
  - inversion E; subst. auto.
  - inversion E; subst. unfold add_done. destruct (done s t); auto.
  - inversion E; subst. unfold event_set. rewrite react_current, react_ctl. auto.
  - inversion E; subst. auto.
  - inversion E; subst. unfold ievent_set. rewrite react_current, react_ctl. auto.
  - rewrite release_eq in E. destruct (l_current (s_lock s l)); [|inversion E; subst; auto].
    cbv zeta in E. destruct (l_pending (s_lock s l)) as [|n0 p]; apply (f_equal fst) in E; cbn [fst] in E; rewrite <- E; [auto|].
    unfold acquire_and_fire. rewrite react_current, react_ctl. auto.
Qed.

Lemma step_g s l s' r : gst s -> not_inside s l -> step s l = Some (s', r) -> gst s'.
Proof.
  intros G NI St. unfold step in St. destruct (s_halt s); [discriminate|].
  destruct l as [o|u m|v|x|x ok|u| | | | | |g].
  - inversion St as [E]. destruct (op_cc s o s' r E) as [A [B|(t & B)]]; unfold gst; rewrite A, B; exact G.
  - cbn in NI.
    assert (X : cancel_now s u m = (s', r) -> gst s').
    { intro E. unfold cancel_now in E. destruct (state_of s u);
        try (inversion E; subst; first [apply resume_g; exact NI|exact G]).
      - unfold cancel_scb in E. destruct (k_scb (s_task s u)); inversion E; subst; first [apply resume_g; exact NI|exact G].
      - pose proof (cancel_tcb_cc s u) as [Q1 Q2]. destruct (cancel_tcb s u) as [s1 [z|]]; cbn [fst] in *; inversion E; subst.
        + eapply g_same; eassumption.
        + apply resume_g. cbn. rewrite Q2. exact NI. }
    destruct (s_ctl s) as [|[ | | ]]; try discriminate; inversion St as [E]; apply X, E.
  - unfold gst in G. destruct (s_ctl s) as [|[u| | ] rest]; try discriminate. inversion St; subst. apply returned_g. apply G.
  - unfold gst in G. destruct (s_ctl s) as [|[u| | ] rest]; try discriminate. inversion St; subst. apply raised_g. apply G.
  - assert (G' := G). unfold gst in G'. destruct (s_ctl s) as [|[u| | ] rest]; try discriminate. inversion St as [E].
    unfold await_trigger in E. destruct (await_check s x) as [s1|] eqn:Ea; [|inversion E; subst; exact G].
    inversion E; subst. destruct G' as [C N]. apply yielded_g; [|exact N]. cbn. replace (s_current s1) with (s_current s); [exact C|].
    unfold await_check in Ea. destruct x; try (injection Ea as <-; reflexivity).
    + destruct (i_awaited _); [discriminate|]. injection Ea as <-. reflexivity.
    + destruct (_ || _)%bool; [discriminate|]. injection Ea as <-. reflexivity.
  - assert (G' := G). unfold gst in G'. destruct (s_ctl s) as [|[v| | ] rest] eqn:Ec; try discriminate. inversion St as [E]. unfold await_task in E.
    set (s1 := match state_of s u with Unstarted => fst (start_soon s u) | _ => s end) in *.
    assert (C1 : s_current s1 = s_current s /\ s_ctl s1 = s_ctl s) by (unfold s1, start_soon; destruct (state_of s u); auto).
    destruct C1 as [C1 C2]. destruct (done s1 u).
    + destruct (result_of s1 u); inversion E; subst; (eapply g_same; [..|exact G]; cbn; assumption).
    + inversion E; subst. destruct G' as [C N]. apply yielded_g; [|exact N]. cbn. now rewrite C1.
  - unfold gst in G. destruct (s_ctl s) as [|[v| | ] rest]; try discriminate. inversion St; subst. destruct G as [C N]. now apply yielded_g.
  - unfold gst in G. destruct (s_ctl s) as [|[ |u| ] rest]; try discriminate. inversion St; subst. apply set_outcome_g; [discriminate|apply G].
  - destruct (s_ctl s) as [|[ |u| ] rest] eqn:Ec; try discriminate. inversion St; subst. unfold gst. cbn. unfold gst in G. exact G.
  - unfold gst in G. destruct (s_ctl s) as [|[ | |u i k] rest]; try discriminate.
    destruct (nth_error _ _); inversion St; subst.
    + exact G.
    + unfold finish_outcome, gst. destruct k; cbn [s_current s_ctl set_current set_halt]; rewrite ?react_ctl; try (apply norun_good; exact G).
      rewrite !react_current. exact G.
  - destruct (s_ctl s) as [|] eqn:Ec; try discriminate.
    destruct (s_queue s) as [|q rest]; [discriminate|]. inversion St; subst.
    destruct (q_cancelled q); [unfold gst; cbn; now rewrite Ec|]. apply resume_g. cbn. rewrite Ec. exact norun_nil.
  - destruct (s_ctl s) as [|] eqn:Ec; try discriminate.
    destruct (s_queue s) as [|q rest]; [|discriminate].
    destruct (g_armed (s_gpi s g)); [|discriminate]. inversion St; subst. unfold gst. rewrite react_ctl. cbn. now rewrite Ec.
Qed.
Lemma exec_g ls s s' : gst s -> execP not_inside s ls s' -> gst s'.
Proof. intros G E. induction E; [exact G|]. apply IHE. eapply step_g; eassumption. Qed.

Lemma running_pf ls s t : execP not_inside init ls s -> has_control s t -> current_task s = Some t.
Proof.
  intros E (rest & H). pose proof (exec_g ls init s Logic.I E) as G. unfold gst in G. destruct H as [H|H]; rewrite H in G; apply G.
Qed.

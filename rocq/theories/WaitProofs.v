(** Every step keeps the invariant of [_wait]. *)
From Verif Require Import Base KernelModel KernelProofs KernelHist KernelLog KernelInv KernelTask KernelWake KernelLayer KernelStack
  WaitModel WaitSpec WaitInv WaitInv2 WaitInv3 WaitInv4.
From Coq Require Import Arith.

Lemma moves_same po p q : po = Some p -> starting q = false -> (forall i, q <> SWait i) -> inst_of q = inst_of p -> moves_to po (Some q).
Proof. intros -> A B C. right. exists q. repeat (split; [auto|]). intros i E. exists p. split; congruence. Qed.

Lemma suspend_ok x rest t p : WI x -> s_halt (y_k x) = false -> y_cb x = None -> s_ctl (y_k x) = FRun t :: rest ->
  (forall q, y_pend x t = Some q -> starting q = false /\ forall i, q <> SWait i) -> moves_to (y_pend x t) (Some p) ->
  WI (fst (suspend x rest t (TNull 0) p)).
Proof.
  intros W Ha Cb Ec Np M. unfold suspend.
  pose proof (await_step (y_k x) t rest (TNull 0) true Ha Ec) as St.
  assert (Tp : top_stage x t) by (split; [exact Cb|exists rest; now left]).
  destruct (await_trigger (y_k x) rest t (TNull 0) true) as [k r].
  assert (G : forall pn, moves_to (y_pend x t) pn -> WI (set_pend (set_k x k) t pn)) by (intros pn Mp; apply (top_ok x t _ k r pn W Tp St); auto; reflexivity).
  destruct r; cbn [fst]; apply G; auto. now left.
Qed.

(** One turn of [cancel_remaining] of the Task which has control. *)
Lemma go_cancel_ok x t i todo n : WI x -> s_halt (y_k x) = false -> top_stage x t -> y_pend x t = Some (SCancel i todo n) ->
  WI (fst (go_cancel x t i todo n)).
Proof.
  intros W Ha Tp Ep. unfold go_cancel. destruct todo as [|u us].
  - assert (G : WI (set_pend x t None)).
    { apply (pend_ok x t None W Tp); [intros p E; rewrite Ep in E; injection E as <-; now left|now left]. }
    destruct n as [m|[e|]]; cbn [fst]; auto. unfold uncancel_current. destruct (s_current (y_k x)) as [u|] eqn:Cu; cbn [fst]; [|exact G].
    apply (top_ok x t (LOp (OpUncancel u)) _ RUnit _ W Tp); auto; try exact Logic.I; [now apply op_step| |].
    + intros p E. rewrite Ep in E. injection E as <-. split; [reflexivity|discriminate].
    + apply (moves_same _ _ _ Ep); try reflexivity. discriminate.
  - unfold cancel_one. pose proof (op_step (y_k x) (OpCancel u 0) Ha) as St. cbn [do_op] in St. destruct (cancel (y_k x) u 0) as [k r].
    assert (G : forall pn, moves_to (y_pend x t) pn -> WI (set_pend (set_k x k) t pn)).
    { intros pn Mp. apply (top_ok x t _ k r pn W Tp St); auto; try exact Logic.I. intros p E. rewrite Ep in E. injection E as <-. split; [reflexivity|discriminate]. }
    assert (M : moves_to (y_pend x t) (Some (SCancel i us n))) by (apply (moves_same _ _ _ Ep); try reflexivity; discriminate).
    destruct r; cbn [fst]; try (apply (record_ok _ u) in G; fail); try (apply (record_ok (set_pend (set_k x k) t (Some (SCancel i us n))) u), G, M).
    apply G. now left.
Qed.

Lemma begin_cancel_ok x t i n : WI x -> top_stage x t -> y_pend x t = Some (SWait i) -> WI (begin_cancel x t i n).
Proof.
  intros W Tp Ep. unfold begin_cancel, cancel_remaining.
  assert (G : forall todo, WI (set_pend x t (Some (SCancel i todo n)))).
  { intro todo. apply (pend_ok x t _ W Tp); [intros p E; rewrite Ep in E; injection E as <-; now left|].
    apply (moves_same _ _ _ Ep); try reflexivity; discriminate. }
  destruct (I_inst x W t _ i Ep eq_refl) as (Hi & Hp & _).
  destruct (w_canc (y_w x i)) eqn:Cn.
  - replace (set_w x i (y_w x i)) with (set_w x i (y_w x i)) by reflexivity.
    apply (canc_ok (set_pend x t (Some (SCancel i [] n))) i (y_w x i) (G [])).
    + intros v p Ev Ej. cbn [set_pend y_pend] in Ev. destruct (Nat.eq_dec v t) as [->|N].
      * rewrite upd_same in Ev. injection Ev as <-. split; [reflexivity|discriminate].
      * exfalso. rewrite upd_other in Ev by assumption. destruct (I_inst x W v p i Ev Ej) as (_ & Q & _). congruence.
    + cbn [set_pend y_w]. rewrite <- Cn. now destruct (y_w x i).
  - apply (canc_ok (set_pend x t (Some (SCancel i (w_rem (y_w x i)) n))) i _ (G (w_rem (y_w x i)))).
    + intros v p Ev Ej. cbn [set_pend y_pend] in Ev. destruct (Nat.eq_dec v t) as [->|N].
      * rewrite upd_same in Ev. injection Ev as <-. split; [reflexivity|discriminate].
      * exfalso. rewrite upd_other in Ev by assumption. destruct (I_inst x W v p i Ev Ej) as (_ & Q & _). congruence.
    + reflexivity.
Qed.

Lemma run_ok x rest t p : WI x -> s_halt (y_k x) = false -> y_cb x = None -> s_ctl (y_k x) = FRun t :: rest -> y_pend x t = Some p ->
  WI (fst (run_step x rest t p)).
Proof.
  intros W Ha Cb Ec Ep. assert (Tp : top_stage x t) by (split; [exact Cb|exists rest; now left]).
  assert (G : forall pn, starting p = false -> moves_to (y_pend x t) pn -> WI (set_pend x t pn)).
  { intros pn S M. apply (pend_ok x t pn W Tp); [intros q E; rewrite Ep in E; injection E as <-; now left|exact M]. }
  assert (Gn : starting p = false -> WI (set_pend x t None)) by (intro S; apply G; [exact S|now left]).
  destruct p as [i todo|i todo|i|i todo n|i m|i m|]; unfold run_step.
  - destruct todo as [|u us].
    + unfold suspend. destruct (complete_ok x rest t i W Ha Ep Ec) as (k & -> & W'). exact W'.
    + cbn [fst]. apply add_ok; assumption.
  - destruct todo as [|u us].
    + cbn [fst]. destruct (I_start x W t _ Ep eq_refl) as (A & B & C & D & E & F). cbn [unstarted bare inst_of List.tl] in *.
      destruct (start_facts x t _ W Ep eq_refl) as (Un & Nd & _).
      assert (P : forall v, v <> t -> upd (y_pend x) t (Some (SAdd i [])) v = y_pend x v) by (intros; now apply upd_other).
      assert (Sw : forall v j, upd (y_pend x) t (Some (SAdd i [])) v = Some (SWait j) -> y_pend x v = Some (SWait j)).
      { intros v j Ev. destruct (Nat.eq_dec v t) as [->|N]; [rewrite upd_same in Ev; discriminate|]. now rewrite P in Ev. }
      constructor; cbn [set_pend y_k y_w y_n y_pend y_cb y_hist]; try apply W.
      * intros j v Hj Iv. destruct (I_pos x W j v Hj Iv) as [Q|(a & q & Ea & Ej & Ib)]; [now left|]. exfalso.
        destruct (Un a q Ea (bare_starting q v Ib)) as [_ ->]. destruct Ib.
      * intros v q Ev Es. destruct (Nat.eq_dec v t) as [->|N].
        -- rewrite upd_same in Ev. injection Ev as <-. repeat (split; [assumption|]). exact F.
        -- rewrite P in Ev by assumption. destruct (Un v q Ev Es). contradiction.
      * intros v q j Ev Ej. destruct (Nat.eq_dec v t) as [->|N].
        -- rewrite upd_same in Ev. injection Ev as <-. injection Ej as <-. apply (I_inst x W t _ i Ep eq_refl).
        -- rewrite P in Ev by assumption. apply (I_inst x W v q j Ev Ej).
      * intros j h v Hj Iv. pose proof (I_cbs x W j h v Hj Iv) as Q. rewrite P; [exact Q|]. intros ->. congruence.
      * intros v j Ev. apply (I_wait x W v j (Sw v j Ev)).
      * intros v j Ev. apply (I_canc x W v j (Sw v j Ev)).
    + destruct (go_ok x t i u us W Ha Ep) as (k & -> & W'). exact W'.
  - destruct (k_exc (s_task (y_k x) t)) as [e|]; [|apply Gn; reflexivity].
    destruct e; cbn [fst]; apply begin_cancel_ok; assumption.
  - apply go_cancel_ok; assumption.
  - destruct (w_rem (y_w x i)) as [|u us]; [apply Gn; reflexivity|]. apply suspend_ok; try assumption.
    + intros q E. rewrite Ep in E. injection E as <-. split; [reflexivity|discriminate].
    + apply (moves_same _ _ _ Ep); try reflexivity; discriminate.
  - assert (G2 : forall e, WI (fst (set_pend x t None, YRaised e))) by (intro; apply Gn; reflexivity).
    destruct (k_exc (s_task (y_k x) t)) as [e|].
    + destruct e; try apply G2. unfold uncancel_current. destruct (s_current (y_k x)) as [u|] eqn:Cu; cbn [fst]; [|apply Gn; reflexivity].
      apply (top_ok x t (LOp (OpUncancel u)) _ RUnit _ W Tp); auto; try exact Logic.I; [now apply op_step| |].
      * intros p E. rewrite Ep in E. injection E as <-. split; [reflexivity|discriminate].
      * apply (moves_same _ _ _ Ep); try reflexivity. discriminate.
    + cbn [fst]. apply G; [reflexivity|]. apply (moves_same _ _ _ Ep); try reflexivity; discriminate.
  - destruct (k_exc (s_task (y_k x) t)); apply Gn; reflexivity.
Qed.

Theorem wstep_ok x l x' r : WI x -> sim_ok x l -> wstep x l = Some (x', r) -> y_esc x' = true \/ WI x'.
Proof.
  intros W Sim St. unfold wstep in St. destruct (s_halt (y_k x)) eqn:Ha; [discriminate|]. destruct (y_esc x) eqn:Es; [discriminate|]. cbn [orb] in St.
  destruct l as [kl|c ts|].
  - destruct (user_control x kl) eqn:Uc; [|discriminate]. destruct (user_label kl) eqn:Ul; [|discriminate]. cbn in St.
    destruct (step (y_k x) kl) as [[k r0]|] eqn:Sk; [|discriminate]. injection St as <- _. right. apply (user_ok x kl k r0 W Sk Uc Ul).
    destruct kl; try exact Logic.I. exact Sim.
  - destruct (y_cb x) eqn:Cb; [discriminate|]. destruct (s_ctl (y_k x)) as [|[t|t|t j a] rest] eqn:Ec; try discriminate.
    destruct (y_pend x t) eqn:Ep; [discriminate|]. unfold begin_call in St. right. destruct ts as [|u us].
    + destruct c; try discriminate; try (injection St as <- _; exact W). assert (E0 : suspend (record x (HCall t CCombine [])) rest t (TNull 0) SNoTrigger = (x', r)) by (injection St; congruence). apply (f_equal fst) in E0. cbn [fst] in E0. rewrite <- E0. clear E0 St.
      apply suspend_ok; auto; [now apply record_call_ok|cbn [record y_pend]; intros q E; congruence|]. right. exists SNoTrigger. repeat split; discriminate.
    + assert (G : match c, (if forallb (fresh (y_k x)) (u :: us) && nodup (u :: us) && match c with CTimeout => Nat.eqb (length (u :: us)) 2 | _ => true end then
          Some (called x t c (u :: us), YBlocked) else None) with _, o => o end = Some (x', r)) by (destruct c; exact St).
      clear St. destruct (forallb (fresh (y_k x)) (u :: us)) eqn:Ff; [|discriminate]. destruct (nodup (u :: us)) eqn:Fn; [|discriminate].
      cbn [andb] in G. destruct (match c with CTimeout => Nat.eqb (length (u :: us)) 2 | _ => true end); [|discriminate]. injection G as <- _.
      apply (called_ok x rest); auto. discriminate.
  - destruct (y_cb x) as [c|] eqn:Cb.
    + injection St as St. apply (f_equal fst) in St. cbn [fst] in St. subst x'. destruct c as [i u|i u|todo].
      * right. destruct (I_cb x W i u) as [Q _]. destruct (Q Cb) as (Hi & Iu & _). unfold callback_step.
        assert (E : existsb (Nat.eqb u) (w_rem (y_w x i)) = true) by (apply existsb_exists; exists u; split; [exact Iu|apply Nat.eqb_refl]).
        rewrite E. cbv zeta. cbn [w_rem fst]. destruct (without u (w_rem (y_w x i))) as [|v vs] eqn:Ew.
        -- rewrite <- Ew. apply (cbstart_gen x i u _ W Ha Cb). right. split; [reflexivity|exact Ew].
        -- rewrite <- Ew. apply (cbstart_gen x i u (y_k x) W Ha Cb). left. split; [reflexivity|]. cbn [w_rem]. congruence.
      * right. apply check_ok; assumption.
      * destruct todo as [|u us]; [right; apply cb_end_ok; assumption|]. unfold callback_step, cancel_one.
        pose proof (op_step (y_k x) (OpCancel u 0) Ha) as St. cbn [do_op] in St. destruct (cancel (y_k x) u 0) as [k r0].
        assert (Wk : WI (set_k x k)).
        { apply (passive x _ k r0 (y_pend x) W St); auto; try exact Logic.I; try tauto.
          - apply (no_start x W). left. congruence.
          - apply (no_start x W). left. congruence.
          - eauto.
          - apply (no_done_cb x _ W Cb). discriminate.
          - right. split; [eauto|]. eexists. split; [reflexivity|discriminate]. }
        assert (G : WI (set_cb (record (set_k x k) (HCancel u)) (Some (CbCancel us)))).
        { apply (cb_next_ok (record (set_k x k) (HCancel u)) u us); [now apply record_ok|exact Cb|now left]. }
        destruct r0; cbn [fst]; try (right; exact G). now left.
    + destruct (s_ctl (y_k x)) as [|[t|t|u j a] rest] eqn:Ec; [discriminate|..].
      * destruct (y_pend x t) as [p|] eqn:Ep; [|discriminate]. injection St as St. apply (f_equal fst) in St. cbn [fst] in St. subst x'.
        right. apply run_ok; assumption.
      * destruct (y_pend x t) as [p|] eqn:Ep; [|discriminate]. injection St as St. apply (f_equal fst) in St. cbn [fst] in St. subst x'.
        right. assert (Tp : top_stage x t) by (split; [exact Cb|exists rest; now right]).
        assert (Ns : starting p = false).
        { destruct (starting p) eqn:S; [|reflexivity]. destruct (I_start x W t p Ep S) as (_ & (q & Eq) & _). congruence. }
        assert (G : WI (set_pend x t None)) by (apply (pend_ok x t None W Tp); [intros q E; rewrite Ep in E; injection E as <-; now left|now left]).
        destruct p; unfold close_step; cbn [fst]; auto; [apply begin_cancel_ok|apply go_cancel_ok]; assumption.
      * destruct (nth_error (k_dcbs (s_task (y_k x) u)) j) as [c|] eqn:Nth; [|discriminate]. destruct (Nat.even c) eqn:Ev; [discriminate|].
        destruct (step (y_k x) LDoneNext) as [[k r0]|] eqn:Sk; [|discriminate]. injection St as <- _. right.
        apply (callback_ok x u j a rest c k r0); assumption.
Qed.

Lemma wexec_ok (P : wst -> wlabel -> Prop) x ls x' : (forall y l, P y l -> sim_ok y l) -> WI x -> wexec P x ls x' -> y_esc x' = true \/ WI x'.
Proof.
  intros Sub W E. revert W. induction E as [x|x l x1 r ls x2 Pl St E IH]; intro W; [now right|].
  destruct (wstep_ok x l x1 r W (Sub _ _ Pl) St) as [Esc|W1]; [|auto]. destruct E as [y|y l2 y1 r2 ls2 y2 P2 St2 E2]; [now left|].
  unfold wstep in St2. rewrite Esc, Bool.orb_true_r in St2. discriminate.
Qed.
Theorem wreach_ok ls x : wreach ls x -> y_esc x = true \/ WI x.
Proof. apply (wexec_ok sim_ok); [auto|apply winit_ok]. Qed.

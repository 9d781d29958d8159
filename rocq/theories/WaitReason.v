(** Which waiters the calls cancel, and why. *)
From Verif Require Import Base KernelModel KernelProofs KernelHist KernelLog KernelInv KernelTask KernelWake KernelLayer KernelStack
  WaitModel WaitSpec WaitInv WaitInv2 WaitInv3 WaitInv4 WaitProofs.
From Coq Require Import Arith.

Record VI (x : wst) : Prop := {
  V_ne : forall i, i < y_n x -> w_tasks (y_w x i) <> [] /\ ~ In (w_parent (y_w x i)) (w_tasks (y_w x i)) /\
    In (HCall (w_parent (y_w x i)) (w_call (y_w x i)) (w_tasks (y_w x i))) (y_hist x);
  V_cbc : forall todo v, y_cb x = Some (CbCancel todo) -> In v todo ->
    exists i u, i < y_n x /\ In v (w_tasks (y_w x i)) /\ w_first (y_w x i) = Some u;
  V_sc : forall t i todo n, y_pend x t = Some (SCancel i todo n) -> y_cb x = None /\
    (exists rest, s_ctl (y_k x) = FRun t :: rest /\ k_exc (s_task (y_k x) t) <> None \/ s_ctl (y_k x) = FClose t :: rest) /\
    incl todo (w_tasks (y_w x i)) /\ (forall m, n <> ThenRaise (Some (ECancelled m)));
  V_nt : forall t, y_pend x t = Some SNoTrigger -> last_call t (y_hist x) = Some (CCombine, []) }.

Lemma vinit_ok : VI winit.
Proof. constructor; cbn; intros; try discriminate; lia. Qed.

Lemma cancel_ctl s t m : s_ctl (fst (cancel s t m)) = s_ctl s.
Proof.
  unfold cancel. destruct (state_of s t); try reflexivity. pose proof (cancel_tcb_cc s t) as [_ T].
  destruct (cancel_tcb s t) as [s1 [e|]]; cbn in T |- *; exact T.
Qed.
Lemma sc_top x t t' i todo n rest : VI x -> y_pend x t' = Some (SCancel i todo n) -> s_ctl (y_k x) = FRun t :: rest \/ s_ctl (y_k x) = FClose t :: rest -> t' = t.
Proof. intros V E H. destruct (V_sc x V _ _ _ _ E) as (_ & (q & [[A _]|A]) & _); destruct H as [H|H]; congruence. Qed.

(** Nothing changes but the kernel, the place of the Task in control, and the history. *)
Lemma v_top x t rest k p h : VI x -> y_cb x = None -> s_ctl (y_k x) = FRun t :: rest \/ s_ctl (y_k x) = FClose t :: rest ->
  (h = y_hist x \/ exists u, h = HCancel u :: y_hist x) -> (forall i todo n, p <> Some (SCancel i todo n)) -> p <> Some SNoTrigger ->
  VI (WSt k (y_w x) (y_n x) (upd (y_pend x) t p) None (y_esc x) h).
Proof.
  intros V Cb Top Hh Np1 Np2.
  assert (Lc : forall v, last_call v h = last_call v (y_hist x)) by (intro v; destruct Hh as [-> |[u ->]]; reflexivity).
  assert (Ih : forall e, In e (y_hist x) -> In e h) by (intros e I; destruct Hh as [-> |[u ->]]; [exact I|now right]).
  constructor; cbn [y_k y_w y_n y_pend y_cb y_hist].
  - intros i Hi. destruct (V_ne x V i Hi) as (A & B & C). auto.
  - discriminate.
  - intros v i todo n E. exfalso. destruct (Nat.eq_dec v t) as [->|N]; [rewrite upd_same in E; now elim (Np1 i todo n)|].
    rewrite upd_other in E by assumption. apply N. apply (sc_top x t v i todo n rest V E Top).
  - intros v E. rewrite Lc. destruct (Nat.eq_dec v t) as [->|N]; [rewrite upd_same in E; contradiction|]. rewrite upd_other in E by assumption. apply (V_nt x V v E).
Qed.
(** The Task in control goes on cancelling. *)
Lemma v_sc x t rest i todo n k h w : VI x -> y_cb x = None -> s_ctl (y_k x) = FRun t :: rest \/ s_ctl (y_k x) = FClose t :: rest ->
  s_ctl k = s_ctl (y_k x) -> (s_ctl k = FRun t :: rest -> k_exc (s_task k t) <> None) ->
  (h = y_hist x \/ exists u, h = HCancel u :: y_hist x) -> incl todo (w_tasks (y_w x i)) -> (forall m, n <> ThenRaise (Some (ECancelled m))) ->
  w_call w = w_call (y_w x i) /\ w_parent w = w_parent (y_w x i) /\ w_tasks w = w_tasks (y_w x i) /\ w_first w = w_first (y_w x i) ->
  VI (WSt k (upd (y_w x) i w) (y_n x) (upd (y_pend x) t (Some (SCancel i todo n))) None (y_esc x) h).
Proof.
  intros V Cb Top Ck Ex Hh Inc Nn (W1 & W2 & W3 & W4).
  assert (Lc : forall v, last_call v h = last_call v (y_hist x)) by (intro v; destruct Hh as [-> |[u ->]]; reflexivity).
  assert (Ih : forall e, In e (y_hist x) -> In e h) by (intros e I; destruct Hh as [-> |[u ->]]; [exact I|now right]).
  assert (S : forall j, w_call (upd (y_w x) i w j) = w_call (y_w x j) /\ w_parent (upd (y_w x) i w j) = w_parent (y_w x j) /\
      w_tasks (upd (y_w x) i w j) = w_tasks (y_w x j)).
  { intro j. destruct (Nat.eq_dec j i) as [->|N]; [rewrite upd_same; auto|rewrite upd_other by assumption; auto]. }
  constructor; cbn [y_k y_w y_n y_pend y_cb y_hist].
  - intros j Hj. destruct (V_ne x V j Hj) as (A & B & C). destruct (S j) as (-> & -> & ->). auto.
  - discriminate.
  - intros v j td m E. destruct (Nat.eq_dec v t) as [->|N].
    + rewrite upd_same in E. injection E as <- <- <-. split; [reflexivity|]. split; [|split; [destruct (S i) as (_ & _ & ->); exact Inc|exact Nn]].
      exists rest. rewrite Ck in *. destruct Top as [Top|Top]; [left; auto|now right].
    + exfalso. rewrite upd_other in E by assumption. apply N. apply (sc_top x t v j td m rest V E Top).
  - intros v E. rewrite Lc. destruct (Nat.eq_dec v t) as [->|N]; [rewrite upd_same in E; discriminate|]. rewrite upd_other in E by assumption. apply (V_nt x V v E).
Qed.
(** A done callback goes on. *)
Lemma v_cb x c k w h e : VI x -> y_cb x <> None -> (forall j, w_call (w j) = w_call (y_w x j) /\ w_parent (w j) = w_parent (y_w x j) /\
    w_tasks (w j) = w_tasks (y_w x j) /\ (w_first (y_w x j) <> None -> w_first (w j) <> None)) ->
  (h = y_hist x \/ exists u, h = HCancel u :: y_hist x) ->
  (forall todo v, c = Some (CbCancel todo) -> In v todo -> exists i, i < y_n x /\ In v (w_tasks (y_w x i)) /\ w_first (w i) <> None) ->
  VI (WSt k w (y_n x) (y_pend x) c e h).
Proof.
  intros V Cb S Hh Hc.
  assert (Lc : forall v, last_call v h = last_call v (y_hist x)) by (intro v; destruct Hh as [-> |[u ->]]; reflexivity).
  assert (Ih : forall e, In e (y_hist x) -> In e h) by (intros e0 I; destruct Hh as [-> |[u ->]]; [exact I|now right]).
  constructor; cbn [y_k y_w y_n y_pend y_cb y_hist].
  - intros j Hj. destruct (V_ne x V j Hj) as (A & B & C). destruct (S j) as (-> & -> & -> & _). auto.
  - intros todo v E I. destruct (Hc todo v E I) as (i & Hi & Iv & F). exists i. destruct (S i) as (_ & _ & -> & _). destruct (w_first (w i)) as [u|]; [|contradiction].
    exists u. auto.
  - intros v j td m E. destruct (V_sc x V _ _ _ _ E) as (Q & _). contradiction.
  - intros v E. rewrite Lc. apply (V_nt x V v E).
Qed.

Lemma v_begin x t rest i n : WI x -> VI x -> y_cb x = None -> s_ctl (y_k x) = FRun t :: rest \/ s_ctl (y_k x) = FClose t :: rest ->
  y_pend x t = Some (SWait i) -> (s_ctl (y_k x) = FRun t :: rest -> k_exc (s_task (y_k x) t) <> None) -> (forall m, n <> ThenRaise (Some (ECancelled m))) ->
  VI (begin_cancel x t i n).
Proof.
  intros W V Cb Top Ep Ex Nn. unfold begin_cancel, cancel_remaining. destruct (I_inst x W t _ i Ep eq_refl) as (Hi & _).
  destruct (w_canc (y_w x i)); unfold set_pend, set_w; cbn [y_k y_w y_n y_pend y_cb y_esc y_hist]; rewrite Cb; apply (v_sc x t rest); auto.
  - intros v [].
  - apply (I_rem x W i Hi).
Qed.
Lemma v_uncancel x t rest i m : VI x -> y_cb x = None -> s_ctl (y_k x) = FRun t :: rest \/ s_ctl (y_k x) = FClose t :: rest ->
  VI (fst (uncancel_current x t i m)).
Proof.
  intros V Cb Top. unfold uncancel_current. destruct (s_current (y_k x)); cbn [fst]; unfold set_pend, set_k; cbn [y_k y_w y_n y_pend y_cb y_esc y_hist]; rewrite Cb;
    apply (v_top x t rest); auto; discriminate.
Qed.
Lemma v_go x t rest i todo n : WI x -> VI x -> s_halt (y_k x) = false -> y_cb x = None -> s_ctl (y_k x) = FRun t :: rest \/ s_ctl (y_k x) = FClose t :: rest ->
  y_pend x t = Some (SCancel i todo n) -> VI (fst (go_cancel x t i todo n)).
Proof.
  intros W V Ha Cb Top Ep. unfold go_cancel. destruct todo as [|u us].
  - assert (G : VI (set_pend x t None)) by (unfold set_pend; rewrite Cb; apply (v_top x t rest); auto; discriminate).
    destruct n as [m|[e|]]; auto. apply (v_uncancel x t rest); auto.
  - unfold cancel_one. pose proof (op_step (y_k x) (OpCancel u 0) Ha) as St. cbn [do_op] in St. pose proof (cancel_ctl (y_k x) u 0) as Ck.
    destruct (cancel (y_k x) u 0) as [k r]. cbn [fst] in Ck. destruct (V_sc x V _ _ _ _ Ep) as (_ & Ex & Inc & Nn).
    assert (G0 : VI (set_pend (set_k x k) t None)).
    { unfold set_pend, set_k. cbn [y_k y_w y_n y_pend y_cb y_esc y_hist]. rewrite Cb. apply (v_top x t rest); auto; discriminate. }
    assert (G : VI (set_pend (record (set_k x k) (HCancel u)) t (Some (SCancel i us n)))).
    { unfold set_pend, set_k, record. cbn [y_k y_w y_n y_pend y_cb y_esc y_hist]. rewrite Cb.
      assert (E : VI (WSt k (upd (y_w x) i (y_w x i)) (y_n x) (upd (y_pend x) t (Some (SCancel i us n))) None (y_esc x) (HCancel u :: y_hist x))).
      { apply (v_sc x t rest); eauto.
        - intros E. assert (R : state_of (y_k x) t = Running) by (apply (L_run _ _ (J_loc _ _ (I_k x W))); rewrite <- Ck, E; now left).
          destruct (step_running _ _ _ _ t (I_k x W) St R (or_introl eq_refl)) as [Q|[(_ & Q)|(c & _ & Q)]]; rewrite Q; cbn;
            destruct Ex as (q & [[_ Ex]|Ex]); auto; congruence.
        - intros v Iv. apply Inc. now right. }
      destruct E as [E1 E2 E3 E4]. cbn [y_k y_w y_n y_pend y_cb y_hist] in *.
      assert (Eq : forall j, upd (y_w x) i (y_w x i) j = y_w x j).
      { intro j. destruct (Nat.eq_dec j i) as [->|N]; [apply upd_same|now apply upd_other]. }
      constructor; cbn [y_k y_w y_n y_pend y_cb y_hist]; intros.
      - specialize (E1 i0 H). now rewrite Eq in E1.
      - discriminate.
      - specialize (E3 _ _ _ _ H). now rewrite Eq in E3.
      - apply E4, H. }
    destruct r; cbn [fst]; auto.
Qed.

Theorem vstep_ok x l x' r : WI x -> VI x -> wstep x l = Some (x', r) -> VI x'.
Proof.
  intros W V St. unfold wstep in St. destruct (s_halt (y_k x)) eqn:Ha; [discriminate|]. destruct (y_esc x) eqn:Es; [discriminate|]. cbn [orb] in St.
  destruct l as [kl|c ts|].
  - destruct (user_control x kl) eqn:Uc; [|discriminate]. destruct (user_label kl) eqn:Ul; [|discriminate]. cbn in St.
    destruct (step (y_k x) kl) as [[k r0]|] eqn:Sk; [|discriminate]. injection St as <- _. unfold user_control in Uc. destruct (y_cb x) eqn:Cb; [discriminate|].
    constructor; cbn [set_k y_k y_w y_n y_pend y_cb y_hist]; try apply V.
    intros t i todo n Ep. exfalso. destruct (V_sc x V _ _ _ _ Ep) as (_ & (q & [[A _]|A]) & _); rewrite A, Ep in Uc; discriminate.
  - destruct (y_cb x) eqn:Cb; [discriminate|]. destruct (s_ctl (y_k x)) as [|[t|t|t j a] rest] eqn:Ec; try discriminate.
    destruct (y_pend x t) eqn:Ep; [discriminate|]. unfold begin_call in St. destruct ts as [|u us].
    + assert (G : forall k p, p = None \/ p = Some SNoTrigger -> VI (set_pend (set_k (record x (HCall t CCombine [])) k) t p)).
      { intros k p Hp. constructor; cbn [set_pend set_k record y_k y_w y_n y_pend y_cb y_hist].
        - intros i Hi. destruct (V_ne x V i Hi) as (A & B & C). repeat split; auto. now right.
        - congruence.
        - intros v i todo n E. exfalso. destruct (Nat.eq_dec v t) as [->|N]; [rewrite upd_same in E; destruct Hp as [-> | ->]; discriminate|].
          rewrite upd_other in E by assumption. apply N. apply (sc_top x t v i todo n rest V E (or_introl Ec)).
        - intros v E. cbn [last_call]. destruct (Nat.eqb_spec t v) as [->|N]; [reflexivity|]. rewrite upd_other in E by auto. apply (V_nt x V v E). }
      destruct c; try discriminate; try (injection St as <- _; exact V).
      assert (E0 : suspend (record x (HCall t CCombine [])) rest t (TNull 0) SNoTrigger = (x', r)) by (injection St; congruence). clear St.
      unfold suspend in E0. cbn [record y_k] in E0. destruct (await_trigger (y_k x) rest t (TNull 0) true) as [k r1].
      destruct r1; injection E0 as <- _; apply G; auto.
    + assert (G : match c, (if forallb (fresh (y_k x)) (u :: us) && nodup (u :: us) && match c with CTimeout => Nat.eqb (length (u :: us)) 2 | _ => true end then
          Some (called x t c (u :: us), YBlocked) else None) with _, o => o end = Some (x', r)) by (destruct c; exact St).
      clear St. destruct (forallb (fresh (y_k x)) (u :: us)) eqn:Ff; [|discriminate]. destruct (nodup (u :: us)) eqn:Fn; [|discriminate].
      cbn [andb] in G. destruct (match c with CTimeout => Nat.eqb (length (u :: us)) 2 | _ => true end); [|discriminate]. injection G as <- _.
      assert (Rt : state_of (y_k x) t = Running) by (apply (L_run _ _ (J_loc _ _ (I_k x W))); rewrite Ec; now left).
      constructor; cbn [called set_pend y_k y_w y_n y_pend y_cb y_hist].
      * intros i Hi. destruct (Nat.eq_dec i (y_n x)) as [->|N].
        -- rewrite upd_same. cbn [w_tasks w_parent w_call]. split; [discriminate|]. split; [|now left].
           intro I. rewrite forallb_forall in Ff. apply Ff, fresh_eq in I. unfold state_of in Rt. rewrite I in Rt. discriminate.
        -- rewrite upd_other by assumption. destruct (V_ne x V i ltac:(lia)) as (A & B & C). repeat split; auto. now right.
      * congruence.
      * intros v i todo n E. exfalso. destruct (Nat.eq_dec v t) as [->|N]; [rewrite upd_same in E; discriminate|].
        rewrite upd_other in E by assumption. apply N. apply (sc_top x t v i todo n rest V E (or_introl Ec)).
      * intros v E. destruct (Nat.eq_dec v t) as [->|N]; [rewrite upd_same in E; discriminate|]. rewrite upd_other in E by assumption.
        cbn [last_call]. destruct (Nat.eqb_spec t v); [congruence|]. apply (V_nt x V v E).
  - destruct (y_cb x) as [c|] eqn:Cb.
    + injection St as St. apply (f_equal fst) in St. cbn [fst] in St. subst x'. destruct c as [i u|i u|todo].
      * unfold callback_step. destruct (existsb _ _).
        -- cbv zeta. cbn [w_rem fst]. set (w := Winst _ _ _ _ _ _).
           assert (G : forall k, VI (WSt k (upd (y_w x) i w) (y_n x) (y_pend x) (Some (CbCheck i u)) (y_esc x) (y_hist x))).
           { intro k. apply (v_cb x); auto; [congruence| |intros todo v E; discriminate].
             intro j. destruct (Nat.eq_dec j i) as [->|N]; [rewrite upd_same; cbn; auto|rewrite upd_other by assumption; auto]. }
           destruct (without u (w_rem (y_w x i))); apply G.
        -- cbn [fst escape]. apply (v_cb x); auto; [congruence|discriminate].
      * unfold callback_step. destruct (is_first (y_k x) (y_w x i) u) eqn:Ef.
        -- destruct (I_cb x W i u) as [_ Q]. destruct (Q Cb) as (Hi & Iu & Nu).
           unfold cancel_remaining. cbn [w_canc w_rem w_call w_parent w_tasks w_first].
           destruct (w_canc (y_w x i)); cbn [fst]; apply (v_cb x); auto; try (rewrite Cb; discriminate).
           ++ intro j. cbn [set_cb set_w y_w]. destruct (Nat.eq_dec j i) as [->|N]; [rewrite upd_same; cbn; repeat split; discriminate|rewrite upd_other by assumption; auto].
           ++ intros todo v E. injection E as <-. intros [].
           ++ intro j. cbn [set_cb set_w y_w]. destruct (Nat.eq_dec j i) as [->|N]; [rewrite upd_same; cbn; repeat split; discriminate|rewrite upd_other by assumption; auto].
           ++ intros todo v E I. injection E as <-. exists i. cbn [set_cb set_w y_w]. rewrite upd_same. split; [exact Hi|]. split; [apply (I_rem x W i Hi), I|discriminate].
        -- cbn [fst]. apply (v_cb x); auto; [congruence|discriminate].
      * destruct todo as [|u us]; [cbn [callback_step fst]; apply (v_cb x); auto; [congruence|discriminate]|]. unfold callback_step, cancel_one.
        destruct (cancel (y_k x) u 0) as [k r0].
        assert (G : VI (set_cb (record (set_k x k) (HCancel u)) (Some (CbCancel us)))).
        { apply (v_cb x); auto; [congruence|right; now exists u|]. intros todo v E I. injection E as <-. destruct (V_cbc x V _ v Cb (or_intror I)) as (i & z & Hi & Iv & F).
          exists i. repeat split; auto. cbn [set_cb record set_k y_w]. congruence. }
        destruct r0; cbn [fst]; try exact G. apply (v_cb x); auto; [congruence|discriminate].
    + destruct (s_ctl (y_k x)) as [|[t|t|u j a] rest] eqn:Ec; [discriminate|..].
      * destruct (y_pend x t) as [p|] eqn:Ep; [|discriminate]. injection St as St. apply (f_equal fst) in St. cbn [fst] in St. subst x'.
        assert (G : forall k p, (forall i todo n, p <> Some (SCancel i todo n)) -> p <> Some SNoTrigger -> VI (set_pend (set_k x k) t p)).
        { intros k q N1 N2. unfold set_pend, set_k. cbn [y_k y_w y_n y_pend y_cb y_esc y_hist]. rewrite Cb. apply (v_top x t rest); auto. }
        assert (Gn : VI (set_pend x t None)) by (apply (G (y_k x) None); discriminate).
        destruct p as [i todo|i todo|i|i todo n|i m|i m|]; unfold run_step.
        -- destruct todo as [|u us]; [unfold suspend; destruct (await_trigger _ _ _ _ _) as [k []]|]; cbn [fst]; apply G; discriminate.
        -- destruct todo as [|u us]; [apply (G (y_k x)); discriminate|]. destruct (start_next _ _) as [k []]; cbn [fst]; apply G; discriminate.
        -- destruct (k_exc (s_task (y_k x) t)) as [e|] eqn:Ex; [|exact Gn]. destruct e; cbn [fst]; apply (v_begin x t rest); auto; try discriminate; congruence.
        -- apply (v_go x t rest); auto.
        -- destruct (w_rem (y_w x i)); [exact Gn|]. unfold suspend; destruct (await_trigger _ _ _ _ _) as [k []]; cbn [fst]; apply G; discriminate.
        -- destruct (k_exc (s_task (y_k x) t)) as [e|] eqn:Ex; [destruct e; try exact Gn; apply (v_uncancel x t rest); auto|apply (G (y_k x)); discriminate].
        -- destruct (k_exc (s_task (y_k x) t)); exact Gn.
      * destruct (y_pend x t) as [p|] eqn:Ep; [|discriminate]. injection St as St. apply (f_equal fst) in St. cbn [fst] in St. subst x'.
        assert (Gn : VI (set_pend x t None)) by (unfold set_pend; rewrite Cb; apply (v_top x t rest); auto; discriminate).
        destruct p; unfold close_step; cbn [fst]; auto; [apply (v_begin x t rest)|apply (v_go x t rest)]; auto; try discriminate; congruence.
      * destruct (nth_error (k_dcbs (s_task (y_k x) u)) j) as [c|] eqn:Nth; [|discriminate]. destruct (Nat.even c) eqn:Ev; [discriminate|].
        destruct (step (y_k x) LDoneNext) as [[k r0]|] eqn:Sk; [|discriminate]. injection St as <- _.
        constructor; cbn [set_cb set_k y_k y_w y_n y_pend y_cb y_hist]; try apply V; [discriminate|].
        intros t i todo n Ep. exfalso. destruct (V_sc x V _ _ _ _ Ep) as (_ & (q & [[A _]|A]) & _); congruence.
Qed.

Theorem wreach_full ls x : wreach ls x -> y_esc x = true \/ WI x /\ VI x.
Proof.
  unfold wreach. assert (G : forall y, WI y -> VI y -> wexec sim_ok y ls x -> y_esc x = true \/ WI x /\ VI x); [|apply G; [apply winit_ok|apply vinit_ok]].
  intros y W V E. revert W V. induction E as [x|x l x1 r ls x2 Pl St E IH]; intros W V; [now right|].
  assert (V1 := vstep_ok x l x1 r W V St). destruct (wstep_ok x l x1 r W Pl St) as [Esc|W1]; [|auto].
  destruct E as [y|y l2 y1 r2 ls2 y2 P2 St2 E2]; [now left|]. unfold wstep in St2. rewrite Esc, Bool.orb_true_r in St2. discriminate.
Qed.

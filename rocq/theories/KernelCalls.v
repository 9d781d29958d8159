(** The calls of the done callbacks. *)
From Verif Require Import Base KernelModel KernelProofs KernelHist KernelLog KernelInv KernelTask KernelWake.
From Coq Require Import Arith.

(** The done callbacks of [t] called so far, oldest first. *)
Fixpoint calls (t : tid) (l : list obs) : list nat :=
  match l with
  | [] => []
  | OCall u c :: l' => calls t l' ++ (if Nat.eqb u t then [c] else [])
  | _ :: l' => calls t l'
  end.
(** How far [_set_outcome] of [t] has got. *)
Fixpoint phase (t : tid) (c : list frame) : list nat :=
  match c with
  | [] => []
  | FDone u i _ :: c' => (if Nat.eqb u t then [i] else []) ++ phase t c'
  | _ :: c' => phase t c'
  end.

(** Nothing happened to the callbacks of [t]. *)
Record nc (t : tid) (s s' : st) : Prop := {
  nc_log : calls t (s_log s') = calls t (s_log s);
  nc_dcb : k_dcbs (s_task s' t) = k_dcbs (s_task s t);
  nc_ph : phase t (s_ctl s') = phase t (s_ctl s);
  nc_done : done s' t = done s t }.
Lemma nc_refl t s : nc t s s.
Proof. constructor; reflexivity. Qed.
Lemma nc_trans t a b c : nc t a b -> nc t b c -> nc t a c.
Proof. intros [] []. constructor; congruence. Qed.
(** [t] was completed. *)
Record ends (t : tid) (s s' : st) : Prop := {
  en_log : calls t (s_log s') = calls t (s_log s);
  en_dcb : k_dcbs (s_task s' t) = k_dcbs (s_task s t);
  en_ph : phase t (s_ctl s') = 0 :: phase t (s_ctl s);
  en_done : done s' t = true /\ done s t = false }.
Lemma nc_ends t a b c : nc t a b -> ends t b c -> ends t a c.
Proof. intros [] [? ? ? []]. constructor; [congruence|congruence|congruence|]. split; congruence. Qed.
Definition nce (t : tid) (s s' : st) : Prop := nc t s s' \/ ends t s s'.
Lemma nc_nce t a b c : nc t a b -> nce t b c -> nce t a c.
Proof. intros H [|]; [left; eapply nc_trans|right; eapply nc_ends]; eassumption. Qed.

Lemma nc_schedule t s u e : done s u = false -> nc t s (schedule_resume s u e).
Proof.
  intro D. unfold done, state_of in D. constructor; unfold done, state_of; cbn; unfold upd;
    try reflexivity; destruct (Nat.eqb_spec t u) as [->|]; cbn; auto.
Qed.
Lemma nc_schedule_left t s u : done s u = false -> nc t s (schedule_left s u).
Proof.
  intro D. unfold done, state_of in D. constructor; unfold done, state_of; cbn; unfold upd;
    try reflexivity; destruct (Nat.eqb_spec t u) as [->|]; cbn; auto.
Qed.
Lemma nc_fold t (l : list (nat * tid)) s :
  (forall u, In u (map snd l) -> done s u = false) ->
  nc t s (fold_left (fun s '(h, t) => schedule_resume s t None) l s).
Proof.
  revert s. induction l as [|[h u] l IH]; intros s D; cbn; [apply nc_refl|].
  eapply nc_trans; [apply nc_schedule; apply D; now left|]. apply IH. intros v Hv.
  rewrite (nc_done v s); [apply D; now right|]. apply nc_schedule. apply D. now left.
Qed.
Lemma nc_react X t s x : Loc X s -> nc t s (react s x).
Proof.
  intro L. unfold react.
  eapply nc_trans; [|apply nc_fold].
  - constructor; reflexivity.
  - intros u Hu. change (done s u = false). eapply pending_not_done; eassumption.
Qed.
Lemma nc_same t s s' :
  s_task s' = s_task s -> s_ctl s' = s_ctl s -> s_log s' = s_log s -> nc t s s'.
Proof. intros E1 E2 E3. constructor; unfold done, state_of; congruence. Qed.
Lemma nc_task t s u k :
  k_dcbs k = k_dcbs (s_task s u) -> is_done (k_state k) = is_done (k_state (s_task s u)) ->
  nc t s (set_task s u k).
Proof.
  intros E1 E2. constructor; unfold done, state_of; cbn; unfold upd; try reflexivity;
    destruct (Nat.eqb_spec t u) as [->|]; cbn; auto.
Qed.
Lemma nc_pop t s f rest :
  s_ctl s = f :: rest -> (forall u i k, f <> FDone u i k) -> nc t s (set_ctl s rest).
Proof.
  intros E N. constructor; try reflexivity. cbn. rewrite E. destruct f; try reflexivity.
  exfalso. eapply N. reflexivity.
Qed.
Lemma nc_push t s f : (forall u i k, f <> FDone u i k) -> nc t s (set_ctl s (f :: s_ctl s)).
Proof.
  intros N. constructor; try reflexivity. cbn. destruct f; try reflexivity.
  exfalso. eapply N. reflexivity.
Qed.
Lemma nc_log1 t s o : (forall u c, o <> OCall u c) -> nc t s (log s o).
Proof.
  intro N. constructor; try reflexivity. cbn. destruct o; try reflexivity.
  exfalso. eapply N. reflexivity.
Qed.
Lemma nce_outcome t s u x o k :
  done s u = false -> is_done x = true -> nce t s (set_outcome s u x o k).
Proof.
  intros D E. destruct (Nat.eq_dec t u) as [->|N].
  - right. constructor; cbn; unfold upd, done, state_of; cbn; rewrite ?Nat.eqb_refl; auto.
    unfold upd. rewrite Nat.eqb_refl. auto.
  - left. constructor; cbn; unfold upd, done, state_of; cbn; try reflexivity.
    + destruct (Nat.eqb_spec t u); [contradiction|reflexivity].
    + destruct (Nat.eqb_spec u t); [congruence|reflexivity].
    + unfold upd. destruct (Nat.eqb_spec t u); [contradiction|reflexivity].
Qed.
Lemma nce_raised t s u e : done s u = false -> nce t s (coro_raised s u e).
Proof.
  intro D. unfold coro_raised. destruct e; try destruct (Nat.eqb _ _); now apply nce_outcome.
Qed.
Lemma nce_returned t s u v : done s u = false -> nce t s (coro_returned s u v).
Proof. intro D. unfold coro_returned. destruct (Nat.eqb _ _); now apply nce_outcome. Qed.
Lemma nce_resume t s u : done s u = false -> nce t s (resume s u).
Proof.
  intro D. unfold resume.
  set (s1 := log (set_current (set_task s u (with_running (s_task s u))) (Some u)) (OResume u (k_exc (s_task s u)))).
  assert (H : nc t s s1).
  { apply (nc_trans t s (set_task s u (with_running (s_task s u)))).
    - apply nc_task; [reflexivity|]. unfold done, state_of in D. now rewrite D.
    - constructor; reflexivity. }
  eapply nc_nce; [exact H|]. assert (D1 : done s1 u = false).
  { unfold s1, done, state_of; cbn. rewrite upd_same. reflexivity. }
  destruct (k_exc _) as [e|].
  - destruct (k_begun _); [|now apply nce_raised]. left. now apply nc_push.
  - left. eapply nc_trans; [|now apply nc_push].
    destruct (k_wait _); [apply nc_refl|]. now apply nc_log1.
Qed.
Lemma nc_deregister t s x h : nc t s (fst (deregister s x h)).
Proof.
  unfold deregister. destruct (existsb _ _); [|apply nc_refl].
  set (s1 := set_cbs s x _). assert (H : nc t s s1) by (apply nc_same; reflexivity).
  destruct (s_cbs s1 x); [|exact H]. eapply nc_trans; [exact H|].
  destruct x; cbn [unprime fst]; try apply nc_refl; try (apply nc_same; reflexivity).
  destruct (g_hdl _); apply nc_same; reflexivity.
Qed.
Lemma nc_cancel_tcb t s u : nc t s (fst (cancel_tcb s u)).
Proof. unfold cancel_tcb. destruct (k_tcb _) as [[x h]|]; [apply nc_deregister|apply nc_refl]. Qed.
Lemma nc_react' t s x : (forall u, In u (map snd (s_cbs s x)) -> done s u = false) -> nc t s (react s x).
Proof.
  intro D. unfold react. eapply nc_trans; [|apply nc_fold].
  - constructor; reflexivity.
  - exact D.
Qed.
Lemma nc_register t s x u ok s' b :
  done s u = false -> register s x u ok = (s', b) -> nc t s s' /\ done s' u = false.
Proof.
  intros D E.
  assert (Q : forall t, nc t s s'); [|split; [auto|rewrite (nc_done u s s' (Q u)); exact D]].
  clear t. intro t. unfold register in E. set (h := s_next s) in *.
  set (s1 := log (set_cbs (set_task (set_next s (S h)) u (with_tcb (s_task s u) x h)) x
                   (s_cbs s x ++ [(h, u)])) (OBlock u x h)).
  change (log
    (set_cbs (set_task (set_next s (S h)) u (with_tcb (s_task (set_next s (S h)) u) x h)) x
       (s_cbs (set_task (set_next s (S h)) u (with_tcb (s_task (set_next s (S h)) u) x h)) x ++
        [(h, u)])) (OBlock u x h)) with s1 in E.
  assert (H1 : forall v, nc v s s1).
  { intro v. apply (nc_trans v s (set_task s u (with_tcb (s_task s u) x h))).
    - now apply nc_task.
    - constructor; reflexivity. }
  destruct (s_cbs s x) as [|d r] eqn:Ec; [|inversion E; subst; apply H1].
  assert (F : forall s2, s_cbs s2 = s_cbs s1 -> nc t s1 s2 -> nc u s1 s2 -> nc t s (react s2 x)).
  { intros s2 E2 N2 N2'. eapply nc_trans; [apply H1|]. eapply nc_trans; [exact N2|]. apply nc_react'.
    rewrite E2. unfold s1; cbn [s_cbs set_cbs log]. rewrite updt_same. intros v [<-|[]]. cbn.
    rewrite (nc_done u _ _ N2'), (nc_done u _ _ (H1 u)). exact D. }
  unfold prime in E. destruct x as [e|i|l n|n|v|v|g];
    try (apply (f_equal fst) in E; cbn [fst] in E; rewrite <- E; clear E).
  - destruct (s_event s1 e); [apply F; try reflexivity; apply nc_refl|apply H1].
  - destruct (i_fired _); [apply F; try reflexivity; apply nc_refl|apply H1].
  - destruct (l_current _).
    + eapply nc_trans; [apply H1|]. now apply nc_same.
    + unfold acquire_and_fire. apply F; [reflexivity| |]; constructor; reflexivity.
  - apply F; try reflexivity; apply nc_refl.
  - destruct (done s1 v); [apply F; try reflexivity; apply nc_refl|apply H1].
  - destruct (done s1 v); [apply F; try reflexivity; apply nc_refl|apply H1].
  - destruct ok; cbn [fst]; (eapply nc_trans; [apply H1|]); now apply nc_same.
Qed.
Lemma nc_yielded t s u y ok : done s u = false -> nc t s (coro_yielded s u y ok).
Proof.
  intro D. unfold coro_yielded. destruct (negb _); [now apply nc_push|].
  destruct y as [x|].
  - set (s1 := set_task s u (with_state (s_task s u) Pending)).
    assert (N1 : nc t s s1). { apply nc_task; [reflexivity|]. unfold done, state_of in D. now rewrite D. }
    destruct (register s1 x u ok) as [s2 b] eqn:E.
    destruct (nc_register t s1 x u ok s2 b) as [N2 D2]; [|exact E|].
    { unfold done, state_of, s1; cbn. now rewrite upd_same. }
    eapply nc_trans; [exact N1|]. eapply nc_trans; [exact N2|].
    destruct b; [|now apply nc_same]. eapply nc_trans; [apply nc_schedule, D2|]. now apply nc_same.
  - eapply nc_trans; [apply (nc_schedule t s u (Some EBadYield) D)|]. now apply nc_same.
Qed.

(** What a step does to the callbacks of [t]. *)
Lemma step_calls s l s' r t :
  Inv s -> step s l = Some (s', r) ->
  nce t s s' \/
  (exists c, l = LOp (OpAddDone t c) /\ s' = add_done s t c) \/
  (l = LDoneNext /\ exists i k rest, s_ctl s = FDone t i k :: rest /\
     calls t (s_log s') = calls t (s_log s) ++ firstn 1 (skipn i (k_dcbs (s_task s t))) /\
     k_dcbs (s_task s' t) = k_dcbs (s_task s t) /\ done s' t = done s t /\
     phase t (s_ctl s') = (if Nat.ltb i (length (k_dcbs (s_task s t))) then [S i] else []) ++ phase t rest).
Proof.
  intros H St. pose proof (J_loc _ _ H) as L. pose proof (J_dn _ _ H) as Dn.
  unfold step in St. destruct (s_halt s); [discriminate|].
  assert (Ru : forall u rest, s_ctl s = FRun u :: rest -> done s u = false).
  { intros u rest E. unfold done. now rewrite (run_state _ _ _ H E). }
  destruct l as [o|u m|v|e|x ok|u| | | | | |g].
  - inversion St as [E]. destruct o; cbn [do_op] in E.
    + left; left. unfold start_soon in E. destruct (state_of s t0) eqn:Es; inversion E; subst; try apply nc_refl.
      apply nc_schedule. unfold done. now rewrite Es.
    + left; left. unfold start_next in E. destruct (state_of s t0) eqn:Es; inversion E; subst; try apply nc_refl.
      apply nc_schedule_left. unfold done. now rewrite Es.
    + left; left. assert (G : forall s1, nc t s s1 -> nc t0 s s1 -> done s t0 = false ->
        nc t s (add_must (schedule_resume s1 t0 (Some (ECancelled m))) t0)).
      { intros s1 N N0 D. eapply nc_trans; [exact N|]. eapply nc_trans; [apply nc_schedule|].
        - now rewrite (nc_done _ _ _ N0).
        - now apply nc_task. }
      unfold cancel in E. destruct (state_of s t0) eqn:Es; try (inversion E; subst; apply nc_refl).
      * inversion E; subst. apply G; try apply nc_refl. unfold done. now rewrite Es.
      * inversion E; subst. eapply nc_trans; [|now apply nc_task]. now apply nc_task.
      * pose proof (nc_cancel_tcb t s t0) as N. pose proof (nc_cancel_tcb t0 s t0) as N0.
        destruct (cancel_tcb s t0) as [s1 [e|]]; inversion E; subst; [exact N|]. cbn in N, N0.
        apply G; auto. unfold done. now rewrite Es.
    + left. unfold kill in E. destruct (state_of s t0) eqn:Es; try (inversion E; subst; left; apply nc_refl).
      * inversion E; subst. apply nce_outcome; [|reflexivity]. unfold done. now rewrite Es.
      * unfold cancel_scb in E. destruct (k_scb (s_task s t0)); inversion E; subst; [|left; apply nc_refl].
        eapply nc_nce; [|apply nce_outcome]; [now apply nc_same| |reflexivity].
        change (done s t0 = false). unfold done. now rewrite Es.
      * pose proof (nc_cancel_tcb t s t0) as N. pose proof (nc_cancel_tcb t0 s t0) as N0.
        destruct (cancel_tcb s t0) as [s1 [e|]]; inversion E; subst; [left; exact N|]. cbn in N, N0.
        eapply nc_nce; [exact N|]. apply nce_outcome; [|reflexivity]. rewrite (nc_done _ _ _ N0).
        unfold done. now rewrite Es.
    + inversion E; subst. left; left. now apply nc_task.
    + inversion E; subst. destruct (Nat.eq_dec t0 t) as [->|N]; [right; left; eauto|].
      left; left. unfold add_done.
      apply (nc_trans t s (if done s t0 then log s (OCall t0 c) else s)).
      * destruct (done s t0); [|apply nc_refl]. constructor; try reflexivity. cbn.
        destruct (Nat.eqb_spec t0 t); [contradiction|]. now rewrite app_nil_r.
      * constructor; try reflexivity; unfold done, state_of; cbn; unfold upd;
          destruct (Nat.eqb_spec t t0); congruence.
    + inversion E; subst. left; left. unfold event_set.
      eapply nc_trans; [|eapply (nc_react [])]; [now apply nc_same|].
      eapply loc_same; [..|exact L]; reflexivity.
    + inversion E; subst. left; left. now apply nc_same.
    + inversion E; subst. left; left. unfold ievent_set.
      eapply nc_trans; [|eapply (nc_react [])]; [now apply nc_same|].
      eapply loc_same; [..|exact L]; reflexivity.
    + left; left. rewrite release_eq in E. destruct (l_current (s_lock s l)); [|inversion E; subst; apply nc_refl].
      cbv zeta in E.
      destruct (l_pending (s_lock s l)) as [|n0 p] eqn:Ep; apply (f_equal fst) in E; cbn [fst] in E;
        rewrite <- E; clear E; [constructor; reflexivity|].
      unfold acquire_and_fire. match goal with |- nc _ _ (react ?y _) => set (s1 := y) end.
      eapply nc_trans; [|eapply (nc_react [])]; [constructor; reflexivity|].
      eapply loc_same; [..|exact L]; reflexivity.
  - left. assert (G : cancel_now s u m = (s', r) -> nce t s s').
    { intro E.
      assert (G : forall s1, (forall v, nc v s s1) -> done s u = false ->
        nce t s (resume (set_task (add_must s1 u) u (with_exc (s_task (add_must s1 u) u) (Some (ECancelled m)))) u)).
      { intros s1 N D.
        assert (N2 : forall v, nc v s (set_task (add_must s1 u) u (with_exc (s_task (add_must s1 u) u) (Some (ECancelled m))))).
        { intro v. eapply nc_trans; [apply N|]. apply (nc_trans v s1 (add_must s1 u)); now apply nc_task. }
        eapply nc_nce; [apply N2|]. apply nce_resume. rewrite (nc_done _ _ _ (N2 u)). exact D. }
      unfold cancel_now in E. destruct (state_of s u) eqn:Es; try (inversion E; subst; left; apply nc_refl).
      - inversion E; subst. apply G; [intro; apply nc_refl|]. unfold done. now rewrite Es.
      - unfold cancel_scb in E. destruct (k_scb (s_task s u)); inversion E; subst; [|left; apply nc_refl].
        apply G; [intro; now apply nc_same|]. unfold done. now rewrite Es.
      - pose proof (fun v => nc_cancel_tcb v s u) as N.
        destruct (cancel_tcb s u) as [s1 [e|]]; inversion E; subst; [left; apply N|].
        apply G; [exact N|]. unfold done. now rewrite Es. }
    destruct (s_ctl s) as [|[ | | ]]; try discriminate; inversion St as [E]; apply G, E.
  - left. destruct (s_ctl s) as [|[u| | ] rest] eqn:Ec; try discriminate. inversion St; subst.
    eapply nc_nce; [eapply nc_pop; [exact Ec|discriminate]|]. apply nce_returned, (Ru u rest), eq_refl.
  - left. destruct (s_ctl s) as [|[u| | ] rest] eqn:Ec; try discriminate. inversion St; subst.
    eapply nc_nce; [eapply nc_pop; [exact Ec|discriminate]|]. apply nce_raised, (Ru u rest), eq_refl.
  - left; left. destruct (s_ctl s) as [|[u| | ] rest] eqn:Ec; try discriminate. inversion St as [E].
    unfold await_trigger in E. destruct (await_check s x) as [s1|] eqn:Ea; [|inversion E; subst; apply nc_refl].
    destruct (await_check_some _ _ _ H Ea) as (_ & E1 & E2).
    assert (E3 : s_log s1 = s_log s).
    { unfold await_check in Ea. destruct x; try (inversion Ea; reflexivity).
      - destruct (i_awaited _); inversion Ea; reflexivity.
      - destruct (_ || _); inversion Ea; reflexivity. }
    inversion E; subst.
    assert (N1 : forall v w, nc v s (set_ctl (set_task s1 u (with_wait (s_task s1 u) w)) rest)).
    { intros v w. eapply nc_trans; [now apply (nc_same v s s1)|].
      eapply nc_trans; [apply (nc_task v s1 u (with_wait (s_task s1 u) w)); reflexivity|]. eapply nc_pop; [cbn; rewrite E1; exact Ec|discriminate]. }
    eapply nc_trans; [apply N1|]. apply nc_yielded. rewrite (nc_done _ _ _ (N1 u _)). apply (Ru u rest), eq_refl.
  - left; left. destruct (s_ctl s) as [|[v| | ] rest] eqn:Ec; try discriminate. inversion St as [E].
    unfold await_task in E.
    set (s1 := match state_of s u with Unstarted => fst (start_soon s u) | _ => s end) in *.
    assert (N1 : forall w, nc w s s1).
    { intro w. unfold s1, start_soon. destruct (state_of s u) eqn:Es; try apply nc_refl. cbn.
      apply nc_schedule. unfold done. now rewrite Es. }
    destruct (done s1 u).
    + destruct (result_of s1 u); inversion E; subst; [|apply N1].
      eapply nc_trans; [apply N1|]. now apply nc_log1.
    + assert (N2 : forall w, nc w s (set_ctl (set_task s1 v (with_wait (s_task s1 v) (WTask u))) rest)).
      { intro w. eapply nc_trans; [apply N1|]. eapply nc_trans; [apply (nc_task w s1 v (with_wait (s_task s1 v) (WTask u))); reflexivity|].
        apply (nc_pop w _ (FRun v)); [|discriminate]. cbn. unfold s1, start_soon.
        destruct (state_of s u); cbn; rewrite Ec; reflexivity. }
      inversion E; subst. eapply nc_trans; [apply N2|]. apply nc_yielded.
      rewrite (nc_done _ _ _ (N2 v)). apply (Ru v rest), eq_refl.
  - left; left. destruct (s_ctl s) as [|[v| | ] rest] eqn:Ec; try discriminate. inversion St; subst.
    assert (N2 : forall w, nc w s (set_ctl (set_task s v (with_wait (s_task s v) WTrig)) rest)).
    { intro w. eapply nc_trans; [apply (nc_task w s v (with_wait (s_task s v) WTrig)); reflexivity|]. eapply nc_pop; [exact Ec|discriminate]. }
    eapply nc_trans; [apply N2|]. apply nc_yielded. rewrite (nc_done _ _ _ (N2 v)). apply (Ru v rest), eq_refl.
  - left. destruct (s_ctl s) as [|[ |u| ] rest] eqn:Ec; try discriminate. inversion St; subst.
    eapply nc_nce; [eapply nc_pop; [exact Ec|discriminate]|]. apply nce_outcome; [|reflexivity].
    change (done s u = false). unfold done. destruct (L_run _ _ L u) as [_ ->]; [|reflexivity].
    rewrite Ec. now left.
  - left; left. destruct (s_ctl s) as [|[ |u| ] rest] eqn:Ec; try discriminate. inversion St; subst.
    now apply nc_same.
  - destruct (s_ctl s) as [|[ | |u i k] rest] eqn:Ec; try discriminate.
    destruct (nth_error _ _) as [c|] eqn:En; inversion St; subst.
    + destruct (Nat.eq_dec u t) as [->|N].
      * right; right. split; [reflexivity|]. exists i, k, rest. split; [reflexivity|].
        assert (Hi : i < length (k_dcbs (s_task s t))) by (apply nth_error_Some; congruence).
        assert (F : firstn 1 (skipn i (k_dcbs (s_task s t))) = [c]).
        { clear - En. revert i En. generalize (k_dcbs (s_task s t)) as d. induction d as [|a d IH]; intros [|i] E; cbn in *.
          - discriminate.
          - discriminate.
          - inversion E; reflexivity.
          - apply IH, E. }
        rewrite F. cbn. rewrite Nat.eqb_refl. apply Nat.ltb_lt in Hi. cbn in Hi. rewrite Hi. auto.
      * left; left. constructor; try reflexivity; cbn.
        -- destruct (Nat.eqb_spec u t); [contradiction|]. apply app_nil_r.
        -- rewrite Ec. cbn. destruct (Nat.eqb_spec u t); [contradiction|reflexivity].
    + assert (L1 : Loc [] (set_ctl s rest)).
      { constructor; cbn; try apply L.
        - intros v Hv. apply (L_run _ _ L). rewrite Ec. exact Hv.
        - intros v Nv Sv. pose proof (L_runs _ _ L v Nv Sv) as Q. rewrite Ec in Q. exact Q.
        - pose proof (L_rund _ _ L) as Q. rewrite Ec in Q. exact Q. }
      assert (NF : nc t (set_ctl s rest) (finish_outcome (set_ctl s rest) u k)).
      { unfold finish_outcome.
        assert (Q : nc t (set_ctl s rest) (react (react (set_ctl s rest) (TComplete u)) (TJoin u))).
        { eapply nc_trans; [apply (nc_react [] t _ (TComplete u) L1)|]. apply (nc_react []). now apply loc_react. }
        destruct k; try exact Q; (eapply nc_trans; [exact Q|]); constructor; reflexivity. }
      destruct (Nat.eq_dec u t) as [->|N].
      * right; right. split; [reflexivity|]. exists i, k, rest. split; [reflexivity|].
        apply nth_error_None in En. destruct NF as [N1 N2 N3 N4].
        rewrite N1, N2, N3, N4. rewrite skipn_all2 by exact En. cbn [firstn]. rewrite app_nil_r.
        assert (Hi : Nat.ltb i (length (k_dcbs (s_task s t))) = false) by (apply Nat.ltb_ge, En).
        rewrite Hi. auto.
      * left; left. eapply nc_trans; [|exact NF]. constructor; try reflexivity. cbn. rewrite Ec. cbn.
        destruct (Nat.eqb_spec u t); [contradiction|reflexivity].
  - left. destruct (s_ctl s) as [|] eqn:Ec; try discriminate.
    destruct (s_queue s) as [|q rest] eqn:Eq; [discriminate|]. inversion St; subst.
    destruct (q_cancelled q) eqn:Eqc; [left; constructor; reflexivity|].
    eapply nc_nce; [|apply nce_resume].
    + constructor; reflexivity.
    + change (done s (q_task q) = false). unfold done.
      destruct (L_qlive _ _ L (q_id q) (q_task q)) as (_ & -> & _); [|reflexivity].
      rewrite Eq. left. destruct q; cbn in *; congruence.
  - left; left. destruct (s_ctl s) as [|] eqn:Ec; try discriminate.
    destruct (s_queue s) as [|q rest] eqn:Eq; [|discriminate].
    destruct (g_armed (s_gpi s g)) eqn:Eg; [|discriminate]. inversion St; subst.
    eapply nc_trans; [|eapply (nc_react [])]; [now apply nc_same|].
    eapply loc_same; [..|exact L]; reflexivity.
Qed.

(** The callbacks called are those registered, in order of registration, each once. *)
Definition CI (t : tid) (s : st) : Prop :=
  match phase t (s_ctl s) with
  | [] => calls t (s_log s) = if done s t then k_dcbs (s_task s t) else []
  | [i] => done s t = true /\ i <= length (k_dcbs (s_task s t)) /\
           calls t (s_log s) = firstn i (k_dcbs (s_task s t))
  | _ => False
  end.
Lemma ci_init t : CI t init.
Proof. reflexivity. Qed.
Lemma phase_fin t c : phase t c <> [] -> In t (finishers c).
Proof.
  unfold finishers. induction c as [|[u|u|u i k] c IH]; cbn; auto.
  destruct (Nat.eqb_spec u t); cbn; auto.
Qed.
Lemma firstn_snoc {A} i (l : list A) : firstn i l ++ firstn 1 (skipn i l) = firstn (S i) l.
Proof.
  revert l. induction i as [|i IH]; intros [|x l]; try reflexivity.
  cbn [firstn skipn app]. f_equal. rewrite IH. reflexivity.
Qed.
Theorem ci_step s l s' r t :
  Inv s -> step s l = Some (s', r) ->
  (forall c, l = LOp (OpAddDone t c) -> ~ In t (finishers (s_ctl s))) -> CI t s -> CI t s'.
Proof.
  intros H St Na C.
  destruct (step_calls s l s' r t H St) as [[N|E]|[(c & -> & ->)|(-> & i & k & rest & Ec & E1 & E2 & E3 & E4)]].
  - destruct N as [N1 N2 N3 N4]. unfold CI in *. rewrite N1, N2, N3, N4. exact C.
  - destruct E as [N1 N2 N3 [N4 N5]]. unfold CI in *.
    assert (P : phase t (s_ctl s) = []).
    { destruct (phase t (s_ctl s)) as [|i [|]] eqn:Ep; [reflexivity| |]; exfalso.
      - destruct C as [C _]. congruence.
      - exact C. }
    rewrite P in *. rewrite N1, N2, N3, N4. rewrite N5 in C. rewrite C.
    split; [reflexivity|]. split; [lia|reflexivity].
  - assert (P : phase t (s_ctl s) = []).
    { specialize (Na c eq_refl). destruct (phase t (s_ctl s)) eqn:Ep; [reflexivity|]. exfalso. apply Na.
      apply phase_fin. congruence. }
    unfold CI in *. rewrite P in C. unfold add_done.
    assert (Ph : phase t (s_ctl (set_task (if done s t then log s (OCall t c) else s) t
      (with_dcbs (s_task (if done s t then log s (OCall t c) else s) t)
         (k_dcbs (s_task (if done s t then log s (OCall t c) else s) t) ++ [c])))) = []).
    { destruct (done s t); exact P. }
    rewrite Ph. destruct (done s t) eqn:D; cbn; unfold done, state_of; cbn; rewrite upd_same; cbn;
      unfold done, state_of in D; rewrite D.
    + rewrite Nat.eqb_refl, C. reflexivity.
    + exact C.
  - unfold CI in *. rewrite Ec in C. cbn in C. rewrite Nat.eqb_refl in C. cbn in C.
    destruct (phase t rest) as [|j q] eqn:Ep; [|destruct C]. destruct C as (C1 & C2 & C3).
    rewrite E4, E1, E2, E3, C1, C3, app_nil_r. rewrite firstn_snoc.
    destruct (Nat.ltb_spec i (length (k_dcbs (s_task s t)))) as [Hi|Hi].
    + split; [reflexivity|]. split; [lia|reflexivity].
    + rewrite firstn_all2 by lia. reflexivity.
Qed.

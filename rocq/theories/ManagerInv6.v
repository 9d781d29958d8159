(** Every step keeps [MC] (continued): [__aexit__], the callback, all steps. *)
From Verif Require Import Base KernelModel KernelProofs KernelHist KernelLog KernelInv KernelTask KernelWake KernelLayer KernelStack
  LayerProofs ManagerModel ManagerSpec ManagerInv ManagerInv2 ManagerInv3 ManagerInv4 ManagerInv5.
From Coq Require Import Arith.

Lemma top_unique t u c : on_top t c -> on_top u c -> t = u.
Proof. intros [a [E|E]] [b [F|F]]; congruence. Qed.
Lemma sole_pend x t i l n : MI x -> x_pend x t = Some (ACancel i l n) -> forall j l', active x j l' -> j = i /\ l' = l.
Proof.
  intros M E j l' A. destruct (A_busy x M t _ E eq_refl) as [T Eb]. destruct A as [A|[A|(t' & n' & A)]]; [congruence|congruence|].
  destruct (A_busy x M t' _ A eq_refl) as [T' _]. assert (t = t') by apply (top_unique _ _ _ T T'). subst t'. rewrite A in E. injection E as <- <- <-. auto.
Qed.
Lemma sole_cb x i l : MI x -> x_cb x = Some (BParent i l) \/ x_cb x = Some (BCancel i l) -> forall j l', active x j l' -> j = i /\ l' = l.
Proof.
  intros M E j l' A. destruct A as [A|[A|(t' & n' & A)]].
  - destruct E; split; congruence.
  - destruct E; split; congruence.
  - destruct (A_busy x M t' _ A eq_refl) as [_ N]. destruct E; congruence.
Qed.
Lemma idle_none x t : x_pend x t = None -> idle_stage x t.
Proof. intros E i l n u Q. congruence. Qed.
Lemma idle_other x t p : x_pend x t = Some p -> (forall i l n, p <> ACancel i l n) -> idle_stage x t.
Proof. intros E N i l n u Q. rewrite E in Q. injection Q as Q. elim (N i l n Q). Qed.
Lemma idle_nil x t i n : x_pend x t = Some (ACancel i [] n) -> idle_stage x t.
Proof. intros E j l n' u Q I. rewrite E in Q. injection Q as <- <- <-. destruct I. Qed.

Lemma mc_broken x t i l n : MI x -> MC x -> x_pend x t = Some (ACancel i l n) -> MC (record (set_pend x t None) (HBroken i)).
Proof.
  intros M B E. assert (Sx := sole_pend x t i l n M E). destruct (A_pend x M t _ E) as [Hi _]. cbn [inst_of] in Hi.
  assert (Ch : forall j u b, child (record (set_pend x t None) (HBroken i)) j u b <-> child x j u b).
  { intros j u b. unfold child. cbn. split; [intros [Q|I]; [discriminate|exact I]|auto]. }
  destruct B as [B_old0 B_fin0 B_par0 B_kid0 B_uniq0 B_exc0 B_all0 B_nd0 B_failed0 B_canc2 B_canc3 B_todo0 B_once0 B_pend0].
  constructor; cbn [record set_pend x_k x_m x_n x_in x_pend x_cb x_hist]; auto.
  - intros h [<-|I]; auto.
  - intros t' j lv d [Q|I]; [discriminate|]. eauto.
  - intros j u b C. apply Ch in C. eauto.
  - intros j u b d C D. apply Ch in C. apply Ch in D. eauto.
  - intros j e Hj I. destruct (B_exc0 j e Hj I) as [(u & b & C & F)|(Pl & t' & d & Q)]; [left|right].
    + exists u, b. split; [now apply Ch|exact F].
    + split; [exact Pl|]. exists t', d. now right.
  - intros j u b e C F. apply Ch in C. apply (B_all0 j u b e C F).
  - intros j u e C F. apply Ch in C. apply (B_failed0 j u e C F).
  - intros j u C [Q|I]; [discriminate|]. now apply (B_canc2 j u C).
  - intros j u b Hj C I. left. destruct (B_canc3 j u b Hj C I) as [Q|(l' & A & Iu)]; [now apply gone_cons|].
    destruct (Sx j l' A) as [-> _]. right. now left.
  - intros j l' A. assert (A' : active x j l').
    { destruct A as [A|[A|(t' & n' & A)]]; [now left|right; now left|]. cbn in A. unfold upd in A. destruct (Nat.eqb_spec t' t); [discriminate|].
      right. right. eauto. }
    destruct (B_todo0 j l' A') as (D1 & D2 & D3). split; [exact D1|]. split; [|exact D3]. intros u Iu [Q|I]; [discriminate|]. now apply (D2 u Iu).
  - intros u p. unfold upd. destruct (Nat.eqb_spec u t) as [->|]; [discriminate|apply B_pend0].
Qed.

Lemma mc_in x t l : MC x -> MC (set_in x t l).
Proof. intros []. constructor; auto. Qed.
Lemma stable_uncancel x u : MI x -> s_halt (x_k x) = false -> Stable (x_k x) (uncancel (x_k x) u).
Proof. intros M Ha. apply (inv_step (x_k x) (LOp (OpUncancel u)) _ RUnit (A_k x M) Logic.I). now rewrite op_step by exact Ha. Qed.

Lemma mc_uncancel_parent x t i p lv c : MI x -> MC x -> s_halt (x_k x) = false -> idle_stage x t ->
  last_exit t (x_hist x) = Some (inst_of p, lv, c) -> stage_ok p lv c (thrown_since t (x_hist x)) -> (forall i l n, p <> ACancel i l n) ->
  MC (fst (uncancel_parent x t i p)).
Proof.
  intros M B Ha No L S Np. unfold uncancel_parent. destruct (m_parent (x_m x i)) as [u|]; cbn [fst]; [|now apply mc_leave].
  apply (mc_stage _ t p lv c); auto. apply mc_k; auto. now apply stable_uncancel.
Qed.
Lemma mc_suspend x t rest tr p lv c : MI x -> MC x -> s_halt (x_k x) = false -> s_ctl (x_k x) = FRun t :: rest -> idle_stage x t ->
  last_exit t (x_hist x) = Some (inst_of p, lv, c) -> stage_ok p lv c (thrown_since t (x_hist x)) -> (forall i l n, p <> ACancel i l n) ->
  MC (fst (suspend x rest t tr p)).
Proof.
  intros M B Ha Ec No L S Np. unfold suspend. destruct (await_trigger (x_k x) rest t tr true) as [k r] eqn:E.
  assert (Sb : Stable (x_k x) k).
  { apply (inv_step (x_k x) (LAwait tr true) k r (A_k x M) eq_refl). rewrite (await_step _ t rest tr true Ha Ec). now rewrite E. }
  assert (Bk : MC (set_k x k)) by now apply mc_k.
  destruct r; cbn [fst]; first [apply (mc_stage _ t p lv c); auto; fail | now apply mc_leave].
Qed.
Lemma cancel_one_facts x i u y o : MI x -> cancel_one x i u = (y, o) ->
  exists k, Stable (x_k x) k /\ match o with Some _ => y = set_k x k | None => y = record (set_k x k) (HCancel i u) end.
Proof.
  intros M E. unfold cancel_one in E. destruct (cancel (x_k x) u 0) as [k r] eqn:Ec. exists k.
  pose proof (proj2 (proj1 (ok_cancel (x_k x) u 0 (A_k x M)))) as Sb. rewrite Ec in Sb. split; [exact Sb|].
  destruct r; injection E as <- <-; reflexivity.
Qed.
Lemma mc_go_cancel x t i todo n : MI x -> MC x -> s_halt (x_k x) = false -> x_pend x t = Some (ACancel i todo n) ->
  MC (fst (go_cancel x t i todo n)).
Proof.
  intros M B Ha E. destruct (B_pend x B t _ E) as (lv & c & L & S). cbn [inst_of] in L. unfold go_cancel. destruct todo as [|u us].
  - pose proof (idle_nil x t i n E) as No. destruct n; cbn [fst].
    + now apply mc_leave.
    + now apply mc_leave.
    + apply (mc_uncancel_parent x t i _ lv c); auto. discriminate.
    + apply (mc_stage _ t _ lv c); auto. discriminate.
  - destruct (cancel_one x i u) as [y o] eqn:Eo. destruct (mi_cancel_one x i u y o M Ha Eo) as (My & Ck & Em & En & Ecb & Ep & _).
    destruct (cancel_one_facts x i u y o M Eo) as (k & Sb & Ey). assert (Bk : MC (set_k x k)) by now apply mc_k.
    destruct o as [e|]; cbn [fst].
    + subst y. apply (mc_broken _ t i (u :: us) n); auto.
    + destruct (A_busy x M t _ E eq_refl) as [T Nb]. destruct (A_pend x M t _ E) as [Hi _]. cbn [inst_of] in Hi.
      assert (Sx := sole_pend x t i (u :: us) n M E).
      assert (Ay : forall j l, active (set_pend y t (Some (ACancel i us n))) j l -> j = i /\ l = us).
      { intros j l A. subst y. destruct A as [A|[A|(t' & n' & A)]]; cbn in A; [congruence|congruence|]. unfold upd in A.
        destruct (Nat.eqb_spec t' t) as [->|N]; [split; congruence|]. exfalso. apply N. destruct (A_busy x M t' _ A eq_refl) as [T' _].
        apply (top_unique _ _ _ T' T). }
      assert (Cm : m_canc (x_m x i) = true) by (apply (B_todo x B i (u :: us)); right; right; eauto).
      apply (mc_cancelled (set_k x k) _ i u us); try (subst y; reflexivity); auto.
      * right. right. exists t, n. exact E.
      * right. right. exists t, n. cbn. now rewrite upd_same.
      * intros j l A. destruct (Ay j l A) as [-> _]. subst y. exact Cm.
      * intros t' p Q. cbn in Q. rewrite Ep in Q. unfold upd in Q. destruct (Nat.eqb_spec t' t) as [->|]; [|left; exact Q].
        right. exists n. split; [congruence|exact E].
Qed.

Lemma mc_begin_exit x rest t i lv : MI x -> MC x -> s_halt (x_k x) = false -> i < x_n x -> on_top t (s_ctl (x_k x)) -> x_cb x = None ->
  x_pend x t = None -> (lv <> LvClose -> s_ctl (x_k x) = FRun t :: rest) -> MC (fst (begin_exit x rest t i lv)).
Proof.
  intros M B Ha Hi Ht Eb Np Hr. unfold begin_exit. set (c0 := m_canc (x_m x i)). set (y := record (set_m x i (with_fin (x_m x i))) _).
  assert (My : MI y) by (apply mi_record; [apply mi_mgr; auto|discriminate]).
  assert (By : MC y) by now apply mc_fin.
  assert (Ky : x_k y = x_k x) by reflexivity. assert (Ny : x_n y = x_n x) by reflexivity.
  assert (Py : x_pend y t = None) by exact Np. assert (Ly : last_exit t (x_hist y) = Some (i, lv, c0)) by (cbn; now rewrite Nat.eqb_refl).
  assert (Cy : m_canc (x_m y i) = c0) by (unfold y; cbn; now rewrite upd_same). clearbody y.
  rewrite <- Ky in Ha, Ht, Hr. rewrite <- Ny in Hi. pose proof (idle_none y t Py) as No. clear Ky Ny M B Np. rewrite Cy. clearbody c0.
  assert (Bc : forall n, stage_ok (ACancel i [] n) lv c0 (thrown_since t (x_hist y)) -> MC (begin_cancel y t i n)) by (intros n S; apply (mc_begin_cancel y t i n lv c0); auto).
  assert (Su : lv <> LvClose -> stage_ok (ANull i) lv c0 (thrown_since t (x_hist y)) -> MC (fst (suspend y rest t (TNull 0) (ANull i)))).
  { intros Nl S. apply (mc_suspend y t rest _ _ lv c0); auto. discriminate. }
  assert (Sg : forall o, stage_ok (AAwait i o) lv c0 (thrown_since t (x_hist y)) -> MC (set_pend y t (Some (AAwait i o)))).
  { intros o S. apply (mc_stage y t _ lv c0); auto. discriminate. }
  assert (Pl : forall e, lv = LvExc e -> plain e -> MC (fst (if c0 then suspend y rest t (TNull 0) (ANull i)
      else if m_context (x_m y i) then (set_pend y t (Some (AAwait i (Some e))), TBlocked) else (begin_cancel y t i (NWait e), TBlocked)))).
  { intros e El Pe. destruct c0.
    - apply Su; [rewrite El; discriminate|]. cbn. eauto.
    - destruct (m_context _); cbn [fst]; [apply Sg|apply Bc]; cbn; auto. }
  destruct lv as [|e|].
  - destruct c0; [apply Su; [discriminate|cbn; auto]|]. apply Sg. cbn. auto.
  - destruct e as [m|m| | | |m]; try (apply (Pl _ eq_refl); exact Logic.I).
    + destruct c0; cbn [fst]; [|apply Bc; cbn; auto]. apply (mc_uncancel_parent y t i _ (LvExc (ECancelled m)) true); auto; [|discriminate]. cbn. eauto.
    + apply Bc. cbn. eauto.
  - apply Bc. exact Logic.I.
Qed.

Lemma mc_run_step x rest t p es y r : MI x -> MC x -> s_halt (x_k x) = false -> s_ctl (x_k x) = FRun t :: rest -> x_cb x = None ->
  x_pend x t = Some p -> run_step x rest t p es = Some (y, r) -> MC y.
Proof.
  intros M B Ha Ec Eb Ep St. destruct (A_pend x M t p Ep) as [Hi Hf]. destruct (B_pend x B t p Ep) as (lv & c & L & S).
  assert (Ht : on_top t (s_ctl (x_k x))) by (exists rest; now left).
  assert (Fs : forall z, Some z = Some (y, r) -> MC (fst z) -> MC y) by (intros z Q Mz; assert (z = (y, r)) by congruence; subst z; exact Mz).
  assert (Gt : forall i, waits_on p = Some i -> got (x_k x) t (m_rem (x_m x i) = [])).
  { intros i W. apply (waiting_top (x_k x) t rest (TEvent (private i)) _ (A_k x M) Ec). apply (A_wait x M t p i Ep W). }
  unfold run_step in St. cbv zeta in St.
  destruct p as [i todo n|i|i m|i m|i o|i o]; cbn [inst_of] in *.
  - destruct es; [discriminate|]. apply (Fs _ St). now apply mc_go_cancel.
  - assert (No : idle_stage x t) by (apply (idle_other x t _ Ep); discriminate).
    destruct (k_exc _), es; try discriminate; apply (Fs _ St); now apply mc_leave.
  - assert (No : idle_stage x t) by (apply (idle_other x t _ Ep); discriminate).
    destruct es; [discriminate|]. destruct (s_event _ _); apply (Fs _ St); [now apply mc_leave|]. apply (mc_suspend x t rest _ _ lv c); auto. discriminate.
  - assert (No : idle_stage x t) by (apply (idle_other x t _ Ep); discriminate).
    destruct (k_exc _) as [[]|], es; try discriminate; apply (Fs _ St); cbn [fst]; try (now apply mc_leave).
    + apply (mc_uncancel_parent x t i _ lv c); auto. discriminate.
    + apply (mc_stage x t _ lv c); auto. discriminate.
  - assert (No : idle_stage x t) by (apply (idle_other x t _ Ep); discriminate).
    destruct es; [discriminate|]. apply (Fs _ St). apply (mc_suspend x t rest _ _ lv c); auto. discriminate.
  - assert (No : idle_stage x t) by (apply (idle_other x t _ Ep); discriminate).
    specialize (Gt i eq_refl). unfold got in Gt. destruct (k_exc (s_task (x_k x) t)) as [e'|] eqn:Ex.
    + destruct e' as [m| | | | |]; try (destruct Gt; fail). destruct es; [discriminate|]. apply (Fs _ St). cbn [fst].
      assert (Mr : MI (record x (HThrown t i (Some (ECancelled m))))) by (apply mi_record; [exact M|discriminate]).
      apply (mc_begin_cancel _ t i _ lv c); auto.
      * apply mc_record; auto. exists o. exact Ep.
      * cbn. rewrite Nat.eqb_refl. auto.
    + unfold conclude in St. cbv zeta in St. set (l := final_exc (x_m x i) o) in *.
      assert (Bl : MC (set_m x i (with_exc (x_m x i) l))).
      { apply mc_exc; auto; unfold l, final_exc; destruct o as [e|]; try apply (B_nd x B); auto.
        - destruct e; try apply (B_nd x B); apply add_exc_nodup, (B_nd x B).
        - intro f. destruct e; auto; intro I; apply add_exc_in; auto.
        - intros f I. cbn [stage_ok] in S. destruct S as (-> & Pl & _). assert (Hx : exists t' c', In (HExit t' i (LvExc e) c') (x_hist x)).
          { clear - L. revert L. generalize (x_hist x). induction l as [|h l IH]; cbn [last_exit]; [discriminate|]. intro Q.
            assert (K : forall q, (last_exit t l = Some (i, LvExc e, c)) -> exists t' c', In (HExit t' i (LvExc e) c') (q :: l)).
            { intros q Z. destruct (IH Z) as (t' & c' & I). exists t', c'. now right. }
            destruct h; try (now apply K). destruct (Nat.eqb _ _); [|now apply K]. injection Q as -> -> ->. exists t0, c. now left. }
          destruct e; auto; apply add_exc_in in I; destruct I as [-> |I]; auto. }
      assert (Bn : MC (set_pend (set_m x i (with_exc (x_m x i) l)) t None)) by (apply mc_leave; [exact Bl|exact No]).
      destruct l, es as [l0|]; try discriminate.
      * injection St as <- <-. exact Bn.
      * destruct (lists _ _); [|discriminate]. injection St as <- <-. exact Bn.
Qed.
Lemma mc_close_step x rest t p : MI x -> MC x -> s_halt (x_k x) = false -> s_ctl (x_k x) = FClose t :: rest -> x_cb x = None ->
  x_pend x t = Some p -> MC (fst (close_step x t p)).
Proof.
  intros M B Ha Ec Eb Ep. destruct (A_pend x M t p Ep) as [Hi Hf]. destruct (B_pend x B t p Ep) as (lv & c & L & S).
  unfold close_step. destruct p as [i todo n|i|i m|i m|i o|i o]; cbn [inst_of fst] in *;
    try (apply mc_leave; [exact B|apply (idle_other x t _ Ep); discriminate]).
  - now apply mc_go_cancel.
  - assert (Mr : MI (record x (HThrown t i None))) by (apply mi_record; [exact M|discriminate]).
    apply (mc_begin_cancel _ t i _ lv c); auto.
    + apply mc_record; auto. exists o. exact Ep.
    + apply (idle_other x t _ Ep). discriminate.
    + exact Logic.I.
Qed.

(** * The done callback *)
Lemma mc_callback x c : MI x -> MC x -> s_halt (x_k x) = false -> x_cb x = Some c ->
  x_esc (fst (callback_step x c)) = true \/ MC (fst (callback_step x c)).
Proof.
  intros M B Ha Eb. assert (P := A_cb x M c Eb). destruct c as [i u|i u coe|i todo|i todo].
  - right. now apply mc_pop.
  - destruct P as [C Cl]. cbn [callback_step]. cbv zeta.
    assert (Nl : forall j l, x_cb x = Some (BParent j l) \/ x_cb x = Some (BCancel j l) -> False) by (intros j l [Q|Q]; congruence).
    assert (Stop : (forall e, ~ failed x u e) -> MC (set_cb x None)).
    { intro Nf. apply mc_cb; [exact B| | |].
      - intros j v b Q e F. assert (v = u) by congruence. subst v. elim (Nf e F).
      - intros j l Q. destruct (Nl j l Q).
      - intros j l [Q|Q]; discriminate. }
    unfold py_cancelled. destruct (tstate_eqb (state_of (x_k x) u) Cancelled) eqn:Tc.
    { right. apply Stop. intros e [F _]. rewrite F in Tc. discriminate. }
    unfold py_exception. destruct (state_of (x_k x) u) eqn:Su; cbn [fst]; try (now left).
    + right. apply Stop. intros e [F _]. congruence.
    + destruct (k_outcome (s_task (x_k x) u)) as [[v|e]|] eqn:Ko; cbn [fst]; try (now left). right.
      set (l := add_exc e (m_exc (x_m x i))). set (m := with_exc (x_m x i) l).
      assert (Fu : failed x u e) by now split.
      assert (Bm : MC (set_m x i m)).
      { apply mc_exc; auto.
        - apply add_exc_nodup, (B_nd x B).
        - intros f I. apply add_exc_in. auto.
        - intros f I. apply add_exc_in in I. destruct I as [-> |I]; [|auto]. right. left. eauto. }
      assert (Mm : MI (set_m x i m)) by (apply mi_mgr; auto).
      assert (Ie : forall f, failed x u f -> In f l). { intros f [_ F]. assert (f = e) by congruence. subst f. apply add_exc_in. auto. }
      destruct (coe || m_canc m) eqn:Ea; cbn [fst].
      * apply mc_cb; [exact Bm| | |].
        -- intros j v b Q f F. cbn [set_m x_cb x_m] in *. assert (j = i /\ v = u /\ b = coe) as (-> & -> & ->) by (repeat split; congruence).
           rewrite upd_same. split; [|now apply Ie]. intros ->. exact Ea.
        -- intros j l' Q. destruct (Nl j l' Q).
        -- intros j l' [Q|Q]; discriminate.
      * apply orb_false_elim in Ea. destruct Ea as [_ Ec].
        assert (Q := mc_cb_cancel (set_m x i m) i (if m_fin m then BCancel i (map fst (m_rem m)) else BParent i (map fst (m_rem m))) Mm Bm).
        cbn [set_m x_m x_cb] in Q. rewrite upd_same in Q.
        assert (Qm : MC (set_cb (set_m (set_m x i m) i (with_canc m)) (Some (if m_fin m then BCancel i (map fst (m_rem m)) else BParent i (map fst (m_rem m)))))).
        { apply Q; auto.
          - destruct (m_fin m); auto.
          - exists u, coe. split; [exact Eb|]. exact Ie. }
        clear Q. revert Qm. generalize (if m_fin m then BCancel i (map fst (m_rem m)) else BParent i (map fst (m_rem m))). intros b Qm.
        assert (Ext : forall j, upd (upd (x_m x) i m) i (with_canc m) j = upd (x_m x) i (with_canc m) j).
        { intro j. unfold upd. destruct (Nat.eqb j i); reflexivity. }
        destruct Qm as [Q1 Q2 Q3 Q4 Q5 Q6 Q7 Q8 Q9 Q10 Q11 Q12 Q13 Q14]. cbn [set_cb set_m x_k x_m x_n x_in x_pend x_cb x_hist] in *.
        constructor; cbn [set_cb set_m x_k x_m x_n x_in x_pend x_cb x_hist]; auto.
        -- intros t0 j lv d. rewrite <- Ext. apply Q2.
        -- intro j. rewrite <- Ext. apply Q3.
        -- intros j v d. rewrite <- Ext. apply Q4.
        -- intros j f. rewrite <- Ext. apply Q6.
        -- intros j v d f. rewrite <- Ext. apply Q7.
        -- intro j. rewrite <- Ext. apply Q8.
        -- intros j v f. rewrite <- Ext. apply Q9.
        -- intros j v. rewrite <- Ext. apply Q10.
        -- intros j v d. rewrite <- Ext. apply Q11.
        -- intros j l'. rewrite <- Ext. apply Q12.
  - destruct P as [Hi Cl]. cbn [callback_step]. destruct (m_parent _) as [pa|]; [|now left].
    destruct (cancel (x_k x) pa 0) as [k r] eqn:E.
    pose proof (proj2 (proj1 (ok_cancel (x_k x) pa 0 (A_k x M)))) as Sb. rewrite E in Sb. cbn [fst] in Sb.
    assert (Br : MC (record (set_k x k) (HParent i))) by (apply mc_record; [now apply mc_k|exact Hi|exact Logic.I]).
    assert (Bc : MC (set_cb (record (set_k x k) (HParent i)) (Some (BCancel i todo)))).
    { apply mc_cb; [exact Br| | |].
      - intros j v b Q. cbn in Q. congruence.
      - intros j l [Q|Q] _; cbn in Q; [|congruence]. right. congruence.
      - intros j l [Q|Q]; [discriminate|]. left. cbn. congruence. }
    destruct r; cbn [fst]; try (now left); right; exact Bc.
  - destruct P as [Hi Cl]. cbn [callback_step]. destruct todo as [|u us].
    + right. apply mc_cb; [exact B| | |].
      * intros j v b Q. congruence.
      * intros j l [Q|Q] N; [congruence|]. elim N. congruence.
      * intros j l [Q|Q]; discriminate.
    + destruct (cancel_one x i u) as [y o] eqn:Eo. destruct (mi_cancel_one x i u y o M Ha Eo) as (My & Ck & Em & En & Ecb & Ep & _).
      destruct (cancel_one_facts x i u y o M Eo) as (k & Sb & Ey). assert (Bk : MC (set_k x k)) by now apply mc_k.
      destruct o as [e|]; cbn [fst]; [now left|]. right.
      assert (Sx := sole_cb x i (u :: us) M (or_intror Eb)).
      assert (Ay : forall j l, active (set_cb y (Some (BCancel i us))) j l -> j = i /\ l = us).
      { intros j l A. destruct A as [A|[A|(t' & n' & A)]]; cbn in A; [discriminate|split; congruence|]. rewrite Ep in A.
        destruct (A_busy x M t' _ A eq_refl) as [_ N]. congruence. }
      assert (Cm : m_canc (x_m x i) = true) by (apply (B_todo x B i (u :: us)); right; left; exact Eb).
      apply (mc_cancelled (set_k x k) _ i u us); try (subst y; reflexivity); auto.
      * right. left. exact Eb.
      * right. left. reflexivity.
      * intros j l A. destruct (Ay j l A) as [-> _]. subst y. exact Cm.
      * intros j v d. cbn. rewrite Eb. split; discriminate.
      * intros t' p Q. left. cbn in Q. rewrite Ep in Q. exact Q.
Qed.

Lemma mstep_mc x l y r : MI x -> MC x -> sim_ok x l -> mstep x l = Some (y, r) -> x_esc y = true \/ MC y.
Proof.
  intros M B Ok St. destruct (mstep_on _ _ _ _ St) as [Ha He]. unfold mstep in St. rewrite Ha, He in St. cbn [orb] in St.
  assert (Fs : forall z, Some z = Some (y, r) -> x_esc (fst z) = true \/ MC (fst z) -> x_esc y = true \/ MC y).
  { intros z Q Mz. assert (z = (y, r)) by congruence. subst z. exact Mz. }
  assert (Lib : forall es, lib_step x es = Some (y, r) -> x_esc y = true \/ MC y).
  { intros es Q. unfold lib_step in Q. destruct (x_cb x) as [c|] eqn:Eb.
    - destruct es; [discriminate|]. apply (Fs _ Q). now apply mc_callback.
    - destruct (s_ctl (x_k x)) as [|[t|t|u j a] rest] eqn:Ec; [discriminate| | |].
      + destruct (x_pend x t) as [p|] eqn:Ep; [|discriminate]. right. apply (mc_run_step x rest t p es y r M B Ha Ec Eb Ep Q).
      + destruct (x_pend x t) as [p|] eqn:Ep; [|discriminate]. destruct es; [discriminate|]. apply (Fs _ Q). right.
        apply (mc_close_step x rest t p M B Ha Ec Eb Ep).
      + destruct (nth_error _ j) as [c|] eqn:En; [|discriminate]. destruct es; [discriminate|]. destruct (Nat.even c) eqn:Ev; [discriminate|].
        destruct (step (x_k x) LDoneNext) as [[k r0]|] eqn:Sk; [|discriminate]. apply (Fs _ Q). right. cbn [fst].
        assert (Sb : Stable (x_k x) k) by apply (inv_step (x_k x) LDoneNext k r0 (A_k x M) Logic.I Sk).
        apply mc_cb; [now apply mc_k| | |].
        * intros i v b Z. cbn in Z. congruence.
        * intros i l9 [Z|Z]; cbn in Z; congruence.
        * intros i l9 [Z|Z]; discriminate. }
  destruct l as [kl|d c|i u coe|i|lv| |es].
  - destruct (user_can x kl && user_label kl) eqn:U; [|discriminate]. destruct (step (x_k x) kl) as [[k rk]|] eqn:Sk; [|discriminate].
    apply (Fs _ St). right. apply mc_k; auto. apply (inv_step (x_k x) kl k rk (A_k x M)); [|exact Sk]. destruct kl; exact Ok || exact Logic.I.
  - destruct (user_control x); [|discriminate]. apply (Fs _ St). right. now apply mc_new.
  - destruct (user_control x) eqn:U; [|discriminate]. destruct (Nat.ltb_spec i (x_n x)) as [Hi|]; [|discriminate]. destruct (fresh (x_k x) u) eqn:Fr; [|discriminate].
    cbn [andb] in St. apply (Fs _ St). right. unfold manager_start. cbv zeta. destruct (m_canc _) eqn:Ec; [exact B|]. destruct (m_fin _) eqn:Ef; [exact B|].
    destruct (negb (m_entered _)); [exact B|]. destruct (s_current _) as [cu|]; [|exact B]. destruct (m_parent _) as [pa|] eqn:Epa; [|exact B]. destruct (negb _); [exact B|].
    destruct (start_facts (x_k x) u i Fr) as [Es _]. cbv zeta in Es. rewrite Es. cbn [fst]. apply mc_start; auto. congruence.
  - destruct (s_ctl (x_k x)) as [|[t|t|u j a] rest] eqn:Ec; try discriminate. destruct (user_control x); [|discriminate].
    destruct (Nat.ltb_spec i (x_n x)) as [Hi|]; [|discriminate]. cbn [andb] in St. apply (Fs _ St). right. unfold manager_enter. cbv zeta.
    destruct (m_fin _) eqn:Ef; [exact B|]. destruct (s_current _); cbn [fst]; [now apply mc_enter|now apply mc_entered].
  - destruct (user_control x) eqn:U; [|discriminate]. destruct (control_top x U) as [Eb Et].
    assert (Ex : forall t rest i q, x_in x t = i :: q -> on_top t (s_ctl (x_k x)) -> (lv <> LvClose -> s_ctl (x_k x) = FRun t :: rest) ->
      MC (fst (begin_exit (set_in x t q) rest t i lv))).
    { intros t rest i q E T R. assert (I : forall j, In j (i :: q) -> j < x_n x) by (rewrite <- E; apply (A_in x M)).
      assert (Mi : MI (set_in x t q)) by (apply mi_in; [exact M|]; intros j Hj; apply I; now right).
      apply mc_begin_exit; auto; [now apply mc_in|apply I; now left|]. cbn. now apply Et. }
    destruct (s_ctl (x_k x)) as [|[t|t|u j a] rest] eqn:Ec; try discriminate; destruct lv; try discriminate;
      (destruct (x_in x t) as [|i q] eqn:Ei; [discriminate|]); apply (Fs _ St); right; apply Ex; auto; try (exists rest; auto); congruence.
  - now apply (Lib None).
  - now apply (Lib (Some es)).
Qed.
Theorem mreach_inv ls x : mreach ls x -> x_esc x = true \/ MI x /\ MC x.
Proof.
  unfold mreach. intro R. assert (G : forall y, (x_esc y = true \/ MI y /\ MC y) -> mexec sim_ok y ls x -> x_esc x = true \/ MI x /\ MC x).
  { clear R. intros y My R. induction R as [y|y l y1 r ls y2 Ok St R IH]; [exact My|]. apply IH. destruct My as [E|[M B]].
    - destruct (mstep_on _ _ _ _ St). congruence.
    - destruct (mstep_ok y l y1 r M Ok St); [auto|]. destruct (mstep_mc y l y1 r M B Ok St); auto. }
  apply (G minit); [right; split; [apply minit_ok|apply minit_mc]|exact R].
Qed.

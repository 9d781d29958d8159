(** Why a manager has cancelled its children: exactly if there is a reason to. *)
From Verif Require Import Base KernelModel KernelProofs KernelHist KernelLog KernelInv KernelTask KernelWake KernelLayer KernelStack
  LayerProofs ManagerModel ManagerSpec ManagerInv ManagerInv2 ManagerInv3 ManagerInv4 ManagerInv5 ManagerInv6 ManagerThms.
From Coq Require Import Arith.

Definition WI (x : mst) : Prop := forall i, i < x_n x ->
  (m_canc (x_m x i) = true -> exit_cause x i \/ child_cause x i) /\ (exit_cause x i -> m_canc (x_m x i) = true).

(** Exits and exceptions thrown into the wait: the events which are reasons. *)
Definition loud (h : hist) : bool := match h with HExit _ _ _ _ | HThrown _ _ _ => true | _ => false end.
Record quiet (x y : mst) : Prop := {
  Q_n : x_n y = x_n x;
  Q_canc : forall i, m_canc (x_m y i) = m_canc (x_m x i);
  Q_ctx : forall i, m_context (x_m y i) = m_context (x_m x i);
  Q_k : Stable (x_k x) (x_k y);
  Q_hist : exists hs, x_hist y = hs ++ x_hist x /\ Forall (fun h => loud h = false) hs }.
Lemma quiet_refl x : quiet x x.
Proof. constructor; auto. - apply stable_refl. - exists []. auto. Qed.
Lemma quiet_trans x y z : quiet x y -> quiet y z -> quiet x z.
Proof.
  intros [A1 A2 A3 A4 (h & A5 & A6)] [B1 B2 B3 B4 (h' & B5 & B6)]. constructor.
  - congruence.
  - intro i. now rewrite B2.
  - intro i. now rewrite B3.
  - now apply (stable_trans _ (x_k y)).
  - exists (h' ++ h). rewrite B5, A5, app_assoc. split; [reflexivity|]. now apply Forall_app.
Qed.
Lemma quiet_k x k : Stable (x_k x) k -> quiet x (set_k x k).
Proof. intro S. constructor; auto. exists []. auto. Qed.
Lemma quiet_m x i m : m_canc m = m_canc (x_m x i) -> m_context m = m_context (x_m x i) -> quiet x (set_m x i m).
Proof.
  intros A B. constructor; auto.
  - intro j. cbn. unfold upd. destruct (Nat.eqb_spec j i) as [->|]; auto.
  - intro j. cbn. unfold upd. destruct (Nat.eqb_spec j i) as [->|]; auto.
  - apply stable_refl.
  - exists []. auto.
Qed.
Lemma quiet_in x t l : quiet x (set_in x t l).
Proof. constructor; auto. - apply stable_refl. - exists []. auto. Qed.
Lemma quiet_pend x t l : quiet x (set_pend x t l).
Proof. constructor; auto. - apply stable_refl. - exists []. auto. Qed.
Lemma quiet_cb x l : quiet x (set_cb x l).
Proof. constructor; auto. - apply stable_refl. - exists []. auto. Qed.
Lemma quiet_record x h : loud h = false -> quiet x (record x h).
Proof. intro L. constructor; auto. - apply stable_refl. - exists [h]. auto. Qed.
Lemma failed_stable x y u e : Stable (x_k x) (x_k y) -> failed x u e -> failed y u e.
Proof. intros S F. exact (failed_fwd x (x_k y) u e S F). Qed.
Lemma child_cause_mono x y hs i : Stable (x_k x) (x_k y) -> x_hist y = hs ++ x_hist x -> child_cause x i -> child_cause y i.
Proof.
  intros S E (u & e & C & F). exists u, e. split; [unfold child; rewrite E; apply in_or_app; now right|now apply (failed_stable x y)].
Qed.
Lemma exit_cause_mono x y hs i : x_hist y = hs ++ x_hist x -> m_context (x_m y i) = m_context (x_m x i) -> exit_cause x i -> exit_cause y i.
Proof.
  intros E Ec [(t & lv & c & I & Cc)|(t & e & I)].
  - left. exists t, lv, c. rewrite E, Ec. split; [apply in_or_app; now right|exact Cc].
  - right. exists t, e. rewrite E. apply in_or_app. now right.
Qed.
Lemma exit_cause_back x y hs i : x_hist y = hs ++ x_hist x -> Forall (fun h => loud h = false) hs ->
  m_context (x_m y i) = m_context (x_m x i) -> exit_cause y i -> exit_cause x i.
Proof.
  intros E F Ec. rewrite Forall_forall in F. intros [(t & lv & c & I & Cc)|(t & e & I)]; rewrite E in I; apply in_app_or in I; destruct I as [I|I];
    try (apply F in I; discriminate).
  - left. exists t, lv, c. rewrite <- Ec. auto.
  - right. eauto.
Qed.
Lemma wi_quiet x y : quiet x y -> WI x -> WI y.
Proof.
  intros [A1 A2 A3 A4 (h & A5 & A6)] W i Hi. rewrite A1 in Hi. rewrite A2. destruct (W i Hi) as [W1 W2]. split.
  - intro C. destruct (W1 C) as [Q|Q]; [left; now apply (exit_cause_mono x y h)|right; now apply (child_cause_mono x y h)].
  - intro C. apply W2. now apply (exit_cause_back x y h).
Qed.

(** [_cancel] in [__aexit__], right after the event which is the reason. *)
Lemma wi_cancel x t i n h : WI x -> i < x_n x -> mgr_of h = i -> loud h = true ->
  (forall t' lv c, h = HExit t' i lv c -> cancelling (m_context (x_m x i)) lv) -> WI (begin_cancel (record x h) t i n).
Proof.
  intros W Hi Hm Hl Hc. assert (Cx : exit_cause (record x h) i).
  { destruct h; try discriminate; cbn in Hm; subst.
    - left. exists t0, lv, c. split; [now left|]. now apply (Hc t0 lv c).
    - right. exists t0, e. now left. }
  assert (Cy : exit_cause (begin_cancel (record x h) t i n) i).
  { apply (exit_cause_mono (record x h) _ []); [unfold begin_cancel; destruct (m_canc _); reflexivity| |exact Cx].
    unfold begin_cancel. cbn [record x_m]. destruct (m_canc (x_m x i)) eqn:E; [reflexivity|]. cbn. now rewrite upd_same. }
  assert (Ny : x_n (begin_cancel (record x h) t i n) = x_n x) by (unfold begin_cancel; destruct (m_canc (x_m (record x h) i)); reflexivity).
  assert (Cn : m_canc (x_m (begin_cancel (record x h) t i n) i) = true).
  { unfold begin_cancel. cbn [record x_m]. destruct (m_canc (x_m x i)) eqn:E; [exact E|]. cbn. now rewrite upd_same. }
  assert (Ot : forall j, j <> i -> x_m (begin_cancel (record x h) t i n) j = x_m x j).
  { intros j N. unfold begin_cancel. cbn [record x_m]. destruct (m_canc (x_m x i)); [reflexivity|]. cbn. now rewrite upd_other. }
  assert (Hh : x_hist (begin_cancel (record x h) t i n) = [h] ++ x_hist x) by (unfold begin_cancel; destruct (m_canc (x_m (record x h) i)); reflexivity).
  assert (Sk : Stable (x_k x) (x_k (begin_cancel (record x h) t i n))) by (unfold begin_cancel; destruct (m_canc (x_m (record x h) i)); apply stable_refl).
  set (y := begin_cancel (record x h) t i n) in *. clearbody y. intros j Hj. rewrite Ny in Hj.
  destruct (Nat.eq_dec j i) as [->|N]; [split; auto|]. destruct (W j Hj) as [W1 W2]. rewrite (Ot j N). split.
  - intro C. destruct (W1 C) as [Q|Q]; [left; apply (exit_cause_mono x y [h]); auto; now rewrite (Ot j N)|right; now apply (child_cause_mono x y [h])].
  - intro C. apply W2. destruct C as [(t' & lv & c & I & Cc)|(t' & e & I)]; rewrite Hh in I; destruct I as [I|I].
    + subst h. cbn in Hm. congruence.
    + left. exists t', lv, c. rewrite (Ot j N) in Cc. auto.
    + subst h. cbn in Hm. congruence.
    + right. eauto.
Qed.
(** An exit which is no reason, or after the children have been cancelled. *)
Lemma wi_exit x t i lv c : WI x -> (cancelling (m_context (x_m x i)) lv -> m_canc (x_m x i) = true) -> WI (record x (HExit t i lv c)).
Proof.
  intros W Hc j Hj. destruct (W j Hj) as [W1 W2]. split.
  - intro C. destruct (W1 C) as [Q|Q]; [left; now apply (exit_cause_mono x _ [HExit t i lv c])|right; apply (child_cause_mono x _ [HExit t i lv c]); auto; apply stable_refl].
  - intros [(t' & lv' & c' & I & Cc)|(t' & e & I)]; destruct I as [I|I].
    + injection I as <- <- <- <-. now apply Hc.
    + apply W2. left. eauto.
    + discriminate.
    + apply W2. right. eauto.
Qed.
(** [_cancel] in the callback. *)
Lemma wi_child x i m c u e : WI x -> m_context m = m_context (x_m x i) -> child x i u false -> failed x u e ->
  WI (set_cb (set_m x i (with_canc m)) c).
Proof.
  intros W Em C F j Hj. cbn [set_cb set_m x_n x_m] in *. destruct (W j Hj) as [W1 W2].
  assert (Cx : m_context (upd (x_m x) i (with_canc m) j) = m_context (x_m x j)) by (unfold upd; destruct (Nat.eqb_spec j i) as [->|]; auto).
  split.
  - intro Cn. unfold upd in Cn. destruct (Nat.eqb_spec j i) as [->|N].
    + right. exists u, e. auto.
    + destruct (W1 Cn) as [Q|Q]; [left; now apply (exit_cause_mono x _ [])|right; apply (child_cause_mono x _ []); auto; apply stable_refl].
  - intro Q. unfold upd. destruct (Nat.eqb_spec j i) as [->|N]; [reflexivity|]. apply W2. now apply (exit_cause_back x (set_cb (set_m x i (with_canc m)) c) []).
Qed.

Lemma q_uncancel x t i p : MI x -> s_halt (x_k x) = false -> quiet x (fst (uncancel_parent x t i p)).
Proof.
  intros M Ha. unfold uncancel_parent. destruct (m_parent _); cbn [fst]; [|apply quiet_pend].
  apply (quiet_trans _ (set_k x (uncancel (x_k x) t0))); [apply quiet_k; now apply stable_uncancel|apply quiet_pend].
Qed.
Lemma q_suspend x t rest tr p : MI x -> s_halt (x_k x) = false -> s_ctl (x_k x) = FRun t :: rest -> quiet x (fst (suspend x rest t tr p)).
Proof.
  intros M Ha Ec. unfold suspend. destruct (await_trigger (x_k x) rest t tr true) as [k r] eqn:E.
  assert (Sb : Stable (x_k x) k).
  { apply (inv_step (x_k x) (LAwait tr true) k r (A_k x M) eq_refl). rewrite (await_step _ t rest tr true Ha Ec). now rewrite E. }
  destruct r; cbn [fst]; (apply (quiet_trans _ (set_k x k)); [now apply quiet_k|apply quiet_pend]).
Qed.
Lemma q_cancel_one x i u : MI x -> quiet x (fst (cancel_one x i u)).
Proof.
  intro M. destruct (cancel_one x i u) as [y o] eqn:E. destruct (cancel_one_facts x i u y o M E) as (k & Sb & Ey). cbn [fst].
  destruct o; subst y; [now apply quiet_k|]. apply (quiet_trans _ (set_k x k)); [now apply quiet_k|now apply quiet_record].
Qed.
Lemma q_go_cancel x t i l n : MI x -> s_halt (x_k x) = false -> quiet x (fst (go_cancel x t i l n)).
Proof.
  intros M Ha. unfold go_cancel. destruct l as [|u us].
  - destruct n; cbn [fst]; try apply quiet_pend. now apply q_uncancel.
  - pose proof (q_cancel_one x i u M) as Q. destruct (cancel_one x i u) as [y [e|]]; cbn [fst] in *; (apply (quiet_trans _ y); [exact Q|]).
    + apply (quiet_trans _ (set_pend y t None)); [apply quiet_pend|now apply quiet_record].
    + apply quiet_pend.
Qed.
Lemma wi_run_step x rest t p es y r : MI x -> WI x -> s_halt (x_k x) = false -> s_ctl (x_k x) = FRun t :: rest ->
  x_pend x t = Some p -> run_step x rest t p es = Some (y, r) -> WI y.
Proof.
  intros M W Ha Ec Ep St. destruct (A_pend x M t p Ep) as [Hi Hf].
  assert (Fs : forall z, Some z = Some (y, r) -> quiet x (fst z) -> WI y).
  { intros z Q Mz. assert (z = (y, r)) by congruence. subst z. now apply (wi_quiet x). }
  unfold run_step in St. cbv zeta in St. destruct p as [i todo n|i|i m|i m|i o|i o]; cbn [inst_of] in *.
  - destruct es; [discriminate|]. apply (Fs _ St). now apply q_go_cancel.
  - destruct (k_exc _), es; try discriminate; apply (Fs _ St); apply quiet_pend.
  - destruct es; [discriminate|]. destruct (s_event _ _); apply (Fs _ St); [apply quiet_pend|]. now apply q_suspend.
  - destruct (k_exc _) as [[]|], es; try discriminate; apply (Fs _ St); cbn [fst]; try apply quiet_pend. now apply q_uncancel.
  - destruct es; [discriminate|]. apply (Fs _ St). now apply q_suspend.
  - destruct (k_exc (s_task (x_k x) t)) as [e'|] eqn:Ex.
    + destruct es; [destruct e'; discriminate|].
      assert (Q : exists n, y = begin_cancel (record x (HThrown t i (Some e'))) t i n) by (destruct e'; injection St as <- _; eauto).
      destruct Q as [n ->]. apply wi_cancel; auto. discriminate.
    + unfold conclude in St. cbv zeta in St. set (l := final_exc _ _) in *.
      assert (Q : quiet x (set_pend (set_m x i (with_exc (x_m x i) l)) t None)).
      { apply (quiet_trans _ (set_m x i (with_exc (x_m x i) l))); [now apply quiet_m|apply quiet_pend]. }
      destruct l, es as [l0|]; try discriminate; [|destruct (lists _ _); [|discriminate]]; apply (Fs _ St); exact Q.
Qed.
Lemma wi_close_step x t p : MI x -> WI x -> s_halt (x_k x) = false -> x_pend x t = Some p -> WI (fst (close_step x t p)).
Proof.
  intros M W Ha Ep. destruct (A_pend x M t p Ep) as [Hi _]. unfold close_step.
  destruct p as [i todo n|i|i m|i m|i o|i o]; cbn [inst_of fst] in *; try (apply (wi_quiet x); [apply quiet_pend|exact W]).
  - apply (wi_quiet x); [now apply q_go_cancel|exact W].
  - apply wi_cancel; auto. discriminate.
Qed.
Lemma wi_begin_exit x rest t i lv : MI x -> WI x -> s_halt (x_k x) = false -> i < x_n x -> x_cb x = None ->
  (lv <> LvClose -> s_ctl (x_k x) = FRun t :: rest) -> WI (fst (begin_exit x rest t i lv)).
Proof.
  intros M W Ha Hi Eb Hr. unfold begin_exit. cbv zeta. set (z := set_m x i (with_fin (x_m x i))).
  assert (Mz : MI z) by (apply mi_mgr; auto). assert (Wz : WI z) by (apply (wi_quiet x); [now apply quiet_m|exact W]).
  assert (Kz : x_k z = x_k x) by reflexivity. assert (Nz : x_n z = x_n x) by reflexivity.
  set (c := m_canc (x_m x i)). set (h := HExit t i lv c). assert (Cz : m_canc (x_m z i) = c) by (unfold z; cbn; now rewrite upd_same).
  change (x_m (record z h) i) with (x_m z i). rewrite Cz.
  assert (Mr : MI (record z h)) by (apply mi_record; [exact Mz|discriminate]).
  assert (Kr : x_k (record z h) = x_k x) by reflexivity. rewrite <- Kr in Ha, Hr. rewrite <- Nz in Hi.
  assert (Cn : forall n, cancelling (m_context (x_m z i)) lv -> WI (begin_cancel (record z h) t i n)).
  { intros n Q. apply wi_cancel; auto. intros t' lv' c' E. injection E as _ <- _. exact Q. }
  assert (Rc : (cancelling (m_context (x_m z i)) lv -> c = true) -> WI (record z h)).
  { intro Q. apply wi_exit; auto. rewrite Cz. exact Q. }
  clearbody z. clearbody c.
  assert (Su : lv <> LvClose -> c = true -> WI (fst (suspend (record z h) rest t (TNull 0) (ANull i)))).
  { intros Nl Ec. apply (wi_quiet (record z h)); [apply q_suspend; auto|]. apply Rc. auto. }
  assert (Pl : forall e, lv = LvExc e -> ordinary e -> WI (fst (if c then suspend (record z h) rest t (TNull 0) (ANull i)
      else if m_context (x_m z i) then (set_pend (record z h) t (Some (AAwait i (Some e))), TBlocked) else (begin_cancel (record z h) t i (NWait e), TBlocked)))).
  { intros e El Pe. destruct c; [apply Su; [rewrite El; discriminate|reflexivity]|]. destruct (m_context (x_m z i)) eqn:Ex; cbn [fst].
    - apply (wi_quiet (record z h)); [apply quiet_pend|]. apply Rc. rewrite El. cbn. intro Q. symmetry. now apply Q.
    - apply Cn. rewrite El. cbn. auto. }
  destruct lv as [|e|].
  - destruct c; [apply Su; [discriminate|reflexivity]|]. cbn [fst]. apply (wi_quiet (record z h)); [apply quiet_pend|]. apply Rc. intros [].
  - destruct e as [m|m| | | |m]; try (apply (Pl _ eq_refl); exact Logic.I).
    + destruct c; cbn [fst]; [|apply Cn; intros []]. apply (wi_quiet (record z h)); [now apply q_uncancel|]. apply Rc. auto.
    + apply Cn. intros [].
  - apply Cn. exact Logic.I.
Qed.
Lemma wi_callback x c : MI x -> MC x -> WI x -> x_cb x = Some c ->
  x_esc (fst (callback_step x c)) = true \/ WI (fst (callback_step x c)).
Proof.
  intros M B W Eb. assert (P := A_cb x M c Eb). destruct c as [i u|i u coe|i todo|i todo]; cbn [callback_step]; cbv zeta.
  - right. destruct (find_rem _ _) as [b|] eqn:Ef; cbn [fst].
    2: { exfalso. destruct P as [[b C] _]. assert (I : In (u, b) (m_rem (x_m x i))) by (apply (A_rem x M); auto).
         now apply (find_rem_none _ _ Ef b). }
    set (z := set_cb (set_m x i _) _).
    assert (Q : quiet x z) by (apply (quiet_trans _ (set_m x i (with_rem (x_m x i) (drop_rem u (m_rem (x_m x i)))))); [now apply quiet_m|apply quiet_cb]).
    apply (wi_quiet x); [|exact W]. cbn [with_rem m_rem]. destruct (drop_rem _ _); [|exact Q].
    apply (quiet_trans _ z); [exact Q|]. apply quiet_k. apply (ok_event_set _ _ (A_k x M)).
  - destruct P as [C Cl]. assert (Stop : WI (set_cb x None)) by (apply (wi_quiet x); [apply quiet_cb|exact W]).
    destruct (py_cancelled _ _); [now right|]. unfold py_exception. destruct (state_of (x_k x) u) eqn:Su; cbn [fst]; try (now left); try (now right);
      try (destruct (k_outcome (s_task (x_k x) u)) as [[v|e]|]; now left).
    destruct (k_outcome (s_task (x_k x) u)) as [[v|e]|] eqn:Ko; cbn [fst]; try (now left). right.
    assert (Fu : failed x u e) by now split. set (m := with_exc _ _).
    destruct (coe || m_canc m) eqn:Ea; cbn [fst].
    + apply (wi_quiet x); [|exact W]. apply (quiet_trans _ (set_m x i m)); [now apply quiet_m|apply quiet_cb].
    + apply orb_false_elim in Ea. destruct Ea as [-> _]. now apply (wi_child x i m _ u e).
  - destruct P as [Hi Cl]. destruct (m_parent _) as [pa|]; [|now left].
    destruct (cancel (x_k x) pa 0) as [k r] eqn:E. pose proof (proj2 (proj1 (ok_cancel (x_k x) pa 0 (A_k x M)))) as Sb. rewrite E in Sb. cbn [fst] in Sb.
    assert (Q : quiet x (set_cb (record (set_k x k) (HParent i)) (Some (BCancel i todo)))).
    { apply (quiet_trans _ (set_k x k)); [now apply quiet_k|]. apply (quiet_trans _ (record (set_k x k) (HParent i))); [now apply quiet_record|apply quiet_cb]. }
    destruct r; cbn [fst]; try (now left); right; now apply (wi_quiet x).
  - destruct todo as [|u us]; [right; apply (wi_quiet x); [apply quiet_cb|exact W]|].
    pose proof (q_cancel_one x i u M) as Q. destruct (cancel_one x i u) as [y [e|]]; cbn [fst] in *; [now left|]. right.
    apply (wi_quiet x); [|exact W]. apply (quiet_trans _ y); [exact Q|apply quiet_cb].
Qed.

Lemma mstep_wi x l y r : MI x -> MC x -> WI x -> sim_ok x l -> mstep x l = Some (y, r) -> x_esc y = true \/ WI y.
Proof.
  intros M B W Ok St. destruct (mstep_on _ _ _ _ St) as [Ha He]. unfold mstep in St. rewrite Ha, He in St. cbn [orb] in St.
  assert (Fs : forall z, Some z = Some (y, r) -> x_esc (fst z) = true \/ WI (fst z) -> x_esc y = true \/ WI y).
  { intros z Q Mz. assert (z = (y, r)) by congruence. subst z. exact Mz. }
  assert (Lib : forall es, lib_step x es = Some (y, r) -> x_esc y = true \/ WI y).
  { intros es Q. unfold lib_step in Q. destruct (x_cb x) as [c|] eqn:Eb.
    - destruct es; [discriminate|]. apply (Fs _ Q). now apply wi_callback.
    - destruct (s_ctl (x_k x)) as [|[t|t|u j a] rest] eqn:Ec; [discriminate| | |].
      + destruct (x_pend x t) as [p|] eqn:Ep; [|discriminate]. right. apply (wi_run_step x rest t p es y r M W Ha Ec Ep Q).
      + destruct (x_pend x t) as [p|] eqn:Ep; [|discriminate]. destruct es; [discriminate|]. apply (Fs _ Q). right.
        apply (wi_close_step x t p M W Ha Ep).
      + destruct (nth_error _ j) as [c|] eqn:En; [|discriminate]. destruct es; [discriminate|]. destruct (Nat.even c) eqn:Ev; [discriminate|].
        destruct (step (x_k x) LDoneNext) as [[k r0]|] eqn:Sk; [|discriminate]. apply (Fs _ Q). right. cbn [fst].
        assert (Sb : Stable (x_k x) k) by apply (inv_step (x_k x) LDoneNext k r0 (A_k x M) Logic.I Sk).
        apply (wi_quiet x); [|exact W]. apply (quiet_trans _ (set_k x k)); [now apply quiet_k|apply quiet_cb]. }
  destruct l as [kl|d c|i u coe|i|lv| |es].
  - destruct (user_can x kl && user_label kl) eqn:U; [|discriminate]. destruct (step (x_k x) kl) as [[k rk]|] eqn:Sk; [|discriminate].
    apply (Fs _ St). right. apply (wi_quiet x); [|exact W]. apply quiet_k. apply (inv_step (x_k x) kl k rk (A_k x M)); [|exact Sk]. destruct kl; exact Ok || exact Logic.I.
  - destruct (user_control x); [|discriminate]. apply (Fs _ St). right. intros i Hi. cbn [fst new_manager x_n x_m] in *.
    pose proof (proj2 (ok_event_set (x_k x) (private (x_n x)) (A_k x M))) as Sb.
    unfold upd. destruct (Nat.eqb_spec i (x_n x)) as [->|N].
    + split; [discriminate|]. intros [(t & lv & c' & I & _)|(t & e & I)]; cbn in I; apply (B_old x B) in I; cbn in I; lia.
    + assert (Hi' : i < x_n x) by lia. destruct (W i Hi') as [W1 W2].
      assert (Ex : x_m (new_manager x d c) i = x_m x i) by (cbn; now rewrite upd_other).
      split; intro C.
      * destruct (W1 C) as [Q|Q]; [left; apply (exit_cause_mono x _ []); auto; now rewrite Ex|right; now apply (child_cause_mono x _ [])].
      * apply W2. apply (exit_cause_back x (new_manager x d c) []); auto. now rewrite Ex.
  - destruct (user_control x) eqn:U; [|discriminate]. destruct (Nat.ltb_spec i (x_n x)) as [Hi|]; [|discriminate]. destruct (fresh (x_k x) u) eqn:Fr; [|discriminate].
    cbn [andb] in St. apply (Fs _ St). right. unfold manager_start. cbv zeta. destruct (m_canc _) eqn:Ec; [exact W|]. destruct (m_fin _) eqn:Ef; [exact W|].
    destruct (negb (m_entered _)); [exact W|]. destruct (s_current _) as [cu|]; [|exact W]. destruct (m_parent _) as [pa|] eqn:Epa; [|exact W]. destruct (negb _); [exact W|].
    destruct (start_facts (x_k x) u i Fr) as (Es & _ & _ & _ & _ & Ot & _ & Dn). cbv zeta in Es, Ot, Dn. rewrite Es. cbn [fst].
    set (k := schedule_resume _ u None) in *. clearbody k. pose proof (fresh_new _ _ Fr) as Ft.
    assert (Sb : Stable (x_k x) k).
    { intros v D. destruct (Nat.eq_dec v u) as [->|N]; [unfold done, state_of in D; rewrite Ft in D; discriminate|]. unfold state_of. rewrite (Ot v N). auto. }
    set (m := with_rem _ _). apply (wi_quiet x); [|exact W]. apply (quiet_trans _ (set_m x i m)); [now apply quiet_m|].
    apply (quiet_trans _ (set_k (set_m x i m) k)); [now apply quiet_k|now apply quiet_record].
  - destruct (s_ctl (x_k x)) as [|[t|t|u j a] rest] eqn:Ec; try discriminate. destruct (user_control x); [|discriminate].
    destruct (Nat.ltb_spec i (x_n x)) as [Hi|]; [|discriminate]. cbn [andb] in St. apply (Fs _ St). right. unfold manager_enter. cbv zeta.
    destruct (m_fin _) eqn:Ef; [exact W|]. apply (wi_quiet x); [|exact W]. destruct (s_current _); cbn [fst]; [|now apply quiet_m].
    set (m := with_parent _ _). apply (quiet_trans _ (set_m x i m)); [now apply quiet_m|].
    apply (quiet_trans _ (set_in (set_m x i m) t (i :: x_in x t))); [apply quiet_in|now apply quiet_record].
  - destruct (user_control x) eqn:U; [|discriminate]. destruct (control_top x U) as [Eb Et].
    assert (Ex : forall t rest i q, x_in x t = i :: q -> (lv <> LvClose -> s_ctl (x_k x) = FRun t :: rest) ->
      WI (fst (begin_exit (set_in x t q) rest t i lv))).
    { intros t rest i q E R. assert (I : forall j, In j (i :: q) -> j < x_n x) by (rewrite <- E; apply (A_in x M)).
      assert (Mi : MI (set_in x t q)) by (apply mi_in; [exact M|]; intros j Hj; apply I; now right).
      apply wi_begin_exit; auto. apply I. now left. }
    destruct (s_ctl (x_k x)) as [|[t|t|u j a] rest] eqn:Ec; try discriminate; destruct lv; try discriminate;
      (destruct (x_in x t) as [|i q] eqn:Ei; [discriminate|]); apply (Fs _ St); right; apply Ex; auto; congruence.
  - now apply (Lib None).
  - now apply (Lib (Some es)).
Qed.
Theorem mreach_full ls x : mreach ls x -> x_esc x = true \/ MI x /\ MC x /\ WI x.
Proof.
  unfold mreach. intro R. assert (G : forall y, (x_esc y = true \/ MI y /\ MC y /\ WI y) -> mexec sim_ok y ls x -> x_esc x = true \/ MI x /\ MC x /\ WI x).
  { clear R. intros y My R. induction R as [y|y l y1 r ls y2 Ok St R IH]; [exact My|]. apply IH. destruct My as [E|(M & B & W)].
    - destruct (mstep_on _ _ _ _ St). congruence.
    - destruct (mstep_ok y l y1 r M Ok St); [auto|]. destruct (mstep_mc y l y1 r M B Ok St); auto. destruct (mstep_wi y l y1 r M B W Ok St); auto. }
  apply (G minit); [right; split; [apply minit_ok|split; [apply minit_mc|]]|exact R]. intros i Hi. cbn in Hi. lia.
Qed.

(** [_finishing] and [_entered] against the history. *)
Definition EI (x : mst) : Prop := forall i,
  (m_fin (x_m x i) = true -> exists t lv c, In (HExit t i lv c) (x_hist x)) /\ (m_parent (x_m x i) <> None -> m_entered (x_m x i) = true).
Definition tame (m m' : mgr) : Prop := m_fin m' = m_fin m /\ (m_parent m' <> None -> m_entered m' = true \/ m_parent m <> None /\ m_entered m' = m_entered m).
Lemma tame_refl m : tame m m.
Proof. split; auto. Qed.
Lemma ei_tame x y : EI x -> (forall i, tame (x_m x i) (x_m y i)) -> (exists hs, x_hist y = hs ++ x_hist x) -> EI y.
Proof.
  intros E T [hs H] i. destruct (T i) as [Tf Tp]. destruct (E i) as [E1 E2]. rewrite Tf, H. split.
  - intro F. destruct (E1 F) as (t & lv & c & I). exists t, lv, c. apply in_or_app. now right.
  - intro P. destruct (Tp P) as [Q|[Q ->]]; auto.
Qed.
Lemma tame_upd x i m j : tame (x_m x i) m -> tame (x_m x j) (upd (x_m x) i m j).
Proof. intro T. unfold upd. destruct (Nat.eqb_spec j i) as [->|]; [exact T|apply tame_refl]. Qed.
Definition grown (x y : mst) : Prop := (forall i, tame (x_m x i) (x_m y i)) /\ exists hs, x_hist y = hs ++ x_hist x.
Lemma grown_same x y : x_m y = x_m x -> x_hist y = x_hist x -> grown x y.
Proof. intros A B. split; [intro i; rewrite A; apply tame_refl|exists []; exact B]. Qed.
Lemma grown_cons x y h : x_m y = x_m x -> x_hist y = h :: x_hist x -> grown x y.
Proof. intros A B. split; [intro i; rewrite A; apply tame_refl|exists [h]; exact B]. Qed.
Lemma grown_upd x y i m : x_m y = upd (x_m x) i m -> x_hist y = x_hist x -> tame (x_m x i) m -> grown x y.
Proof. intros A B T. split; [intro j; rewrite A; now apply tame_upd|exists []; exact B]. Qed.
Lemma g_suspend x rest t tr p : grown x (fst (suspend x rest t tr p)).
Proof. unfold suspend. destruct (await_trigger _ _ _ _ _) as [k []]; apply grown_same; reflexivity. Qed.
Lemma g_uncancel x t i p : grown x (fst (uncancel_parent x t i p)).
Proof. unfold uncancel_parent. destruct (m_parent _); apply grown_same; reflexivity. Qed.
Lemma tame_canc m : tame m (with_canc m).
Proof. split; auto. Qed.
Lemma g_begin_cancel x t i n : grown x (begin_cancel x t i n).
Proof.
  unfold begin_cancel. cbv zeta. destruct (m_canc _); [apply grown_same; reflexivity|]. apply (grown_upd _ _ i (with_canc (x_m x i))); try reflexivity. apply tame_canc.
Qed.
Lemma grown_ei x y : grown x y -> EI x -> EI y.
Proof. intros [A B] E. now apply (ei_tame x). Qed.
Lemma g_go_cancel x t i l n : grown x (fst (go_cancel x t i l n)).
Proof.
  unfold go_cancel. destruct l as [|u us].
  - destruct n; cbn [fst]; try (apply grown_same; reflexivity). apply g_uncancel.
  - unfold cancel_one. destruct (cancel _ _ _) as [k []]; cbn [fst]; eapply grown_cons; reflexivity.
Qed.
Lemma g_callback x c : grown x (fst (callback_step x c)).
Proof.
  destruct c as [i u|i u coe|i todo|i todo]; cbn [callback_step]; cbv zeta.
  - destruct (find_rem _ _); cbn [fst]; [|apply grown_same; reflexivity].
    assert (T : tame (x_m x i) (with_rem (x_m x i) (drop_rem u (m_rem (x_m x i))))) by (split; auto).
    cbn [with_rem m_rem]. destruct (drop_rem _ _); (eapply grown_upd; [reflexivity|reflexivity|exact T]).
  - destruct (py_cancelled _ _); [apply grown_same; reflexivity|]. destruct (py_exception _ _); cbn [fst]; try (apply grown_same; reflexivity).
    destruct (coe || _); cbn [fst]; (eapply grown_upd; [reflexivity|reflexivity|split; auto]).
  - destruct (m_parent _); cbn [fst]; [|apply grown_same; reflexivity].
    destruct (cancel _ _ _) as [k []]; cbn [fst]; first [apply grown_same; reflexivity|eapply grown_cons; reflexivity].
  - destruct todo; [apply grown_same; reflexivity|]. unfold cancel_one.
    destruct (cancel _ _ _) as [k []]; cbn [fst]; first [apply grown_same; reflexivity|eapply grown_cons; reflexivity].
Qed.
Lemma g_trans x y z : grown x y -> grown y z -> grown x z.
Proof.
  intros [A [h H]] [B [h' H']]. split.
  - intro i. destruct (A i) as [A1 A2], (B i) as [B1 B2]. split; [congruence|]. intro P. destruct (B2 P) as [Q|[Q E]]; [auto|].
    destruct (A2 Q) as [Q'|[Q' E']]; [left; congruence|right; split; congruence].
  - exists (h' ++ h). rewrite H', H. apply app_assoc.
Qed.
Lemma g_run_step x rest t p es y r : run_step x rest t p es = Some (y, r) -> grown x y.
Proof.
  intro St. assert (Fs : forall z, Some z = Some (y, r) -> grown x (fst z) -> grown x y).
  { intros z Q Mz. assert (z = (y, r)) by congruence. now subst z. }
  assert (Sp : forall o, grown x (set_pend x t o)) by (intro o; apply grown_same; reflexivity).
  unfold run_step in St. cbv zeta in St. destruct p as [i todo n|i|i m|i m|i o|i o]; cbn [inst_of] in *.
  - destruct es; [discriminate|]. apply (Fs _ St). apply g_go_cancel.
  - destruct (k_exc _), es; try discriminate; apply (Fs _ St); apply Sp.
  - destruct es; [discriminate|]. destruct (s_event _ _); apply (Fs _ St); [apply Sp|]. apply g_suspend.
  - destruct (k_exc _) as [[]|], es; try discriminate; apply (Fs _ St); cbn [fst]; try apply Sp. apply g_uncancel.
  - destruct es; [discriminate|]. apply (Fs _ St). apply g_suspend.
  - destruct (k_exc (s_task (x_k x) t)) as [e'|] eqn:Ex.
    + destruct es; [destruct e'; discriminate|].
      assert (Q : exists n, y = begin_cancel (record x (HThrown t i (Some e'))) t i n) by (destruct e'; injection St as <- _; eauto).
      destruct Q as [n ->]. apply (g_trans _ (record x (HThrown t i (Some e')))); [eapply grown_cons; reflexivity|apply g_begin_cancel].
    + unfold conclude in St. cbv zeta in St. set (l := final_exc _ _) in *.
      assert (Q : grown x (set_pend (set_m x i (with_exc (x_m x i) l)) t None)).
      { apply (grown_upd _ _ i (with_exc (x_m x i) l)); try reflexivity. split; auto. }
      destruct l, es as [l0|]; try discriminate; [|destruct (lists _ _); [|discriminate]]; apply (Fs _ St); exact Q.
Qed.
Lemma ei_begin_exit x rest t i lv : EI x -> EI (fst (begin_exit x rest t i lv)).
Proof.
  intro E. unfold begin_exit. cbv zeta. set (z := record _ _).
  assert (Ez : EI z).
  { intro j. unfold z. cbn [record set_m x_m x_hist]. unfold upd. destruct (Nat.eqb_spec j i) as [->|N].
    - split; [intros _; eexists _, _, _; now left|apply E].
    - split; [|apply E]. intro F. destruct (proj1 (E j) F) as (t' & lv' & c & I). exists t', lv', c. now right. }
  assert (Q : forall y, grown z y -> EI y) by (intros y G; now apply (grown_ei z)).
  assert (Sp : forall o, EI (set_pend z t o)) by (intro o; apply Q, grown_same; reflexivity).
  clearbody z.
  destruct lv as [|[]|]; repeat match goal with |- context[if ?b then _ else _] => destruct b end; cbn [fst]; auto;
    apply Q; first [apply g_begin_cancel|apply g_suspend|apply g_uncancel].
Qed.
Lemma mstep_ei x l y r : EI x -> mstep x l = Some (y, r) -> EI y.
Proof.
  intros E St. destruct (mstep_on _ _ _ _ St) as [Ha He]. unfold mstep in St. rewrite Ha, He in St. cbn [orb] in St.
  assert (Fs : forall z, Some z = Some (y, r) -> grown x (fst z) -> EI y).
  { intros z Q Mz. assert (z = (y, r)) by congruence. subst z. now apply (grown_ei x). }
  assert (Fe : forall z, Some z = Some (y, r) -> EI (fst z) -> EI y).
  { intros z Q Mz. assert (z = (y, r)) by congruence. now subst z. }
  assert (Lib : forall es, lib_step x es = Some (y, r) -> EI y).
  { intros es Q. unfold lib_step in Q. destruct (x_cb x) as [c|] eqn:Eb.
    - destruct es; [discriminate|]. apply (Fs _ Q). apply g_callback.
    - destruct (s_ctl (x_k x)) as [|[t|t|u j a] rest] eqn:Ec; [discriminate| | |].
      + destruct (x_pend x t) as [p|] eqn:Ep; [|discriminate]. apply (grown_ei x); [apply (g_run_step x rest t p es y r Q)|exact E].
      + destruct (x_pend x t) as [p|] eqn:Ep; [|discriminate]. destruct es; [discriminate|]. apply (Fs _ Q). unfold close_step.
        destruct p; cbn [fst]; try (apply grown_same; reflexivity); [apply g_go_cancel|].
        apply (g_trans _ (record x (HThrown t i None))); [eapply grown_cons; reflexivity|apply g_begin_cancel].
      + destruct (nth_error _ j) as [c|] eqn:En; [|discriminate]. destruct es; [discriminate|]. destruct (Nat.even c) eqn:Ev; [discriminate|].
        destruct (step (x_k x) LDoneNext) as [[k r0]|] eqn:Sk; [|discriminate]. apply (Fs _ Q). apply grown_same; reflexivity. }
  destruct l as [kl|d c|i u coe|i|lv| |es].
  - destruct (user_can x kl && user_label kl) eqn:U; [|discriminate]. destruct (step (x_k x) kl) as [[k rk]|] eqn:Sk; [|discriminate].
    apply (Fs _ St). apply grown_same; reflexivity.
  - destruct (user_control x); [|discriminate]. apply (Fe _ St). intro i. cbn [fst new_manager x_m x_hist]. unfold upd.
    destruct (Nat.eqb i (x_n x)); [|apply E]. cbn. split; [discriminate|congruence].
  - destruct (_ && _); [|discriminate]. apply (Fs _ St). unfold manager_start. cbv zeta.
    destruct (m_canc (x_m x i)); [apply grown_same; reflexivity|]. destruct (m_fin (x_m x i)); [apply grown_same; reflexivity|].
    destruct (negb (m_entered (x_m x i))); [apply grown_same; reflexivity|].
    destruct (s_current (x_k x)) as [cu|], (m_parent (x_m x i)); try (apply grown_same; reflexivity).
    destruct (negb (Nat.eqb _ _)); [apply grown_same; reflexivity|]. set (b := match coe with Some b => b | None => m_default (x_m x i) end).
    assert (G : forall k, grown x (record (set_k (set_m x i (with_rem (x_m x i) (m_rem (x_m x i) ++ [(u, b)]))) k) (HStart i u b))).
    { intro k. split; [|exists [HStart i u b]; reflexivity]. intro j. apply tame_upd. split; auto. }
    destruct (start_soon _ _) as [k []]; cbn [fst]; try apply G; apply grown_same; reflexivity.
  - destruct (s_ctl (x_k x)) as [|[t|t|u j a] rest] eqn:Ec; try discriminate. destruct (_ && _); [|discriminate]. apply (Fs _ St).
    unfold manager_enter. cbv zeta. destruct (m_fin (x_m x i)) eqn:Ef; [apply grown_same; reflexivity|].
    destruct (s_current _); cbn [fst].
    + split; [|eexists [_]; reflexivity]. intro j. apply tame_upd. split; [reflexivity|]. left. reflexivity.
    + split; [|exists []; reflexivity]. intro j. apply tame_upd. split; [reflexivity|]. left. reflexivity.
  - destruct (user_control x) eqn:U; [|discriminate].
    assert (Ex : forall t rest i q, EI (fst (begin_exit (set_in x t q) rest t i lv))).
    { intros t rest i q. apply ei_begin_exit. apply (grown_ei x); [apply grown_same; reflexivity|exact E]. }
    destruct (s_ctl (x_k x)) as [|[t|t|u j a] rest] eqn:Ec; try discriminate; destruct lv; try discriminate;
      (destruct (x_in x t) as [|i q] eqn:Ei; [discriminate|]); apply (Fe _ St); apply Ex.
  - now apply (Lib None).
  - now apply (Lib (Some es)).
Qed.
Lemma mreach_ei ls x : mreach ls x -> EI x.
Proof.
  unfold mreach. intro R. assert (G : forall y, EI y -> mexec sim_ok y ls x -> EI x).
  { clear R. intros y Ey R. induction R as [y|y l y1 r ls y2 Ok St R IH]; [exact Ey|]. apply IH. apply (mstep_ei y l y1 r Ey St). }
  apply (G minit); [|exact R]. intro i. cbn. split; [discriminate|congruence].
Qed.

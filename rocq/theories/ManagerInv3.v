(** The invariant of TaskManager is kept by every step. *)
From Verif Require Import Base KernelModel KernelProofs KernelHist KernelLog KernelInv KernelTask KernelWake KernelLayer KernelStack
  LayerProofs ManagerModel ManagerSpec ManagerInv ManagerInv2.
From Coq Require Import Arith.

Lemma mi_ext x y : x_k y = x_k x -> x_m y = x_m x -> x_n y = x_n x -> x_in y = x_in x -> x_cb y = x_cb x -> x_hist y = x_hist x ->
  (forall t, x_pend y t = x_pend x t) -> MI x -> MI y.
Proof.
  intros Ek Em En Ei Ec Eh Ep M. destruct M.
  unfold child in *. constructor; unfold child; rewrite ?Ek, ?Em, ?En, ?Ei, ?Ec, ?Eh; auto; intros t p; rewrite Ep.
  - exact (A_pend t p).
  - exact (A_wait t p).
  - exact (A_busy t p).
Qed.

Lemma mi_stage x t p : MI x -> inst_of p < x_n x -> m_fin (x_m x (inst_of p)) = true -> waits_on p = None ->
  (busy p = true -> on_top t (s_ctl (x_k x)) /\ x_cb x = None) -> MI (set_pend x t (Some p)).
Proof.
  intros M Hi Hf Hw Hb. apply mi_pend; [exact M|]. intros q E. injection E as <-. split; [exact Hi|]. split; [exact Hf|].
  split; [rewrite Hw; discriminate|exact Hb].
Qed.

Lemma mi_await x t rest tr k r : MI x -> s_halt (x_k x) = false -> s_ctl (x_k x) = FRun t :: rest -> x_cb x = None ->
  (forall i, tr = TEvent (private i) -> i < x_n x) -> await_trigger (x_k x) rest t tr true = (k, r) -> MI (set_k (set_pend x t None) k).
Proof.
  intros M Ha Ec Eb Hi E. set (y := set_pend x t None). assert (My : MI y) by now apply mi_leave.
  apply mi_frame; [exact My|]. apply (kf_step y (LAwait tr true) k r My).
  - change (x_k y) with (x_k x). rewrite (await_step _ t rest tr true Ha Ec). now rewrite E.
  - reflexivity.
  - intro i. split; discriminate.
  - intros i ok Q. apply Hi. congruence.
  - discriminate.
  - discriminate.
  - left. split; [exact Eb|]. intros u p Hp [q T]. change (s_ctl (x_k y)) with (s_ctl (x_k x)) in T. rewrite Ec in T.
    assert (u = t) as -> by (destruct T as [T|T]; congruence). cbn in Hp. rewrite upd_same in Hp. discriminate.
Qed.

Lemma mi_suspend x t rest tr p : MI x -> s_halt (x_k x) = false -> s_ctl (x_k x) = FRun t :: rest -> x_cb x = None ->
  inst_of p < x_n x -> m_fin (x_m x (inst_of p)) = true -> busy p = false ->
  (tr = TEvent (private (inst_of p)) \/ tr = TNull 0 /\ waits_on p = None) -> MI (fst (suspend x rest t tr p)).
Proof.
  intros M Ha Ec Eb Hi Hf Hb Hw. unfold suspend. destruct (await_trigger (x_k x) rest t tr true) as [k r] eqn:E.
  assert (Mk : MI (set_k (set_pend x t None) k)).
  { apply (mi_await x t rest tr k r M Ha Ec Eb); [|exact E]. intros i Q. destruct Hw as [W|[W _]]; [|rewrite W in Q; discriminate].
    rewrite W in Q. apply ev_private in Q. now rewrite <- Q. }
  assert (Mn : MI (set_pend (set_k x k) t None)) by (apply (mi_ext (set_k (set_pend x t None) k)); auto).
  assert (Mp : MI (set_pend (set_pend (set_k x k) t None) t (Some p))).
  { apply mi_pend; [exact Mn|]. intros q Q. injection Q as <-. split; [exact Hi|]. split; [exact Hf|]. split; [|rewrite Hb; discriminate].
    intros i W. destruct Hw as [->|[_ W']]; [|congruence]. pose proof (waits_inst p i W) as Ei. rewrite Ei in *. cbn [set_pend set_k x_k x_m].
    pose proof (await_event (x_k x) rest t (private i) (m_rem (x_m x i) = []) Ha Ec (A_k x M)) as Q.
    rewrite E in Q. cbn [fst snd] in Q. apply Q. now apply (A_ev x M). }
  assert (Mq : MI (set_pend (set_k x k) t (Some p))).
  { apply (mi_ext (set_pend (set_pend (set_k x k) t None) t (Some p))); auto. intro u. cbn. unfold upd. destruct (Nat.eqb u t); reflexivity. }
  destruct r; assumption.
Qed.

(** * [__aexit__] *)
Lemma mi_begin_cancel x t i n : MI x -> i < x_n x -> m_fin (x_m x i) = true -> on_top t (s_ctl (x_k x)) -> x_cb x = None ->
  MI (begin_cancel x t i n).
Proof.
  intros M Hi Hf Ht Eb. unfold begin_cancel. destruct (m_canc (x_m x i)); apply mi_stage; auto.
  - apply mi_mgr; auto.
  - cbn [inst_of set_m x_m]. now rewrite upd_same.
Qed.
Lemma mi_uncancel_parent x t i p : MI x -> s_halt (x_k x) = false -> inst_of p < x_n x -> m_fin (x_m x (inst_of p)) = true ->
  on_top t (s_ctl (x_k x)) -> x_cb x = None -> waits_on p = None -> MI (fst (uncancel_parent x t i p)).
Proof.
  intros M Ha Hi Hf Ht Eb Hw. unfold uncancel_parent. destruct (m_parent (x_m x i)) as [u|]; [|now apply mi_leave].
  apply mi_stage; auto. now apply mi_uncancel.
Qed.
Lemma mi_cancel_one x i u y o : MI x -> s_halt (x_k x) = false -> cancel_one x i u = (y, o) ->
  MI y /\ s_ctl (x_k y) = s_ctl (x_k x) /\ x_m y = x_m x /\ x_n y = x_n x /\ x_cb y = x_cb x /\ x_pend y = x_pend x /\ x_in y = x_in x.
Proof.
  intros M Ha E. unfold cancel_one in E. destruct (cancel (x_k x) u 0) as [k r] eqn:Ec.
  destruct (mi_cancel x u k r M Ha Ec) as [Mk Ck].
  destruct r; injection E as <- <-; (split; [first [exact Mk|apply mi_record; [exact Mk|discriminate]]|]); cbn [record set_k x_k x_m x_n x_cb x_pend x_in]; auto 10.
Qed.
Lemma mi_go_cancel x t i todo n : MI x -> s_halt (x_k x) = false -> i < x_n x -> m_fin (x_m x i) = true -> on_top t (s_ctl (x_k x)) ->
  x_cb x = None -> MI (fst (go_cancel x t i todo n)).
Proof.
  intros M Ha Hi Hf Ht Eb. unfold go_cancel. destruct todo as [|u us].
  - destruct n; cbn [fst]; try (now apply mi_leave).
    + now apply mi_uncancel_parent.
    + now apply mi_stage.
  - destruct (cancel_one x i u) as [y o] eqn:E. destruct (mi_cancel_one x i u y o M Ha E) as (My & Ck & Em & En & Ec & _).
    destruct o; cbn [fst]; [apply mi_record; [now apply mi_leave|discriminate]|]. apply mi_stage; cbn [inst_of]; auto; try congruence.
    intros _. rewrite Ck, Ec. auto.
Qed.
Lemma mi_begin_exit x rest t i lv : MI x -> s_halt (x_k x) = false -> i < x_n x -> on_top t (s_ctl (x_k x)) -> x_cb x = None ->
  (lv <> LvClose -> s_ctl (x_k x) = FRun t :: rest) -> MI (fst (begin_exit x rest t i lv)).
Proof.
  intros M Ha Hi Ht Eb Hr. unfold begin_exit. set (y := record (set_m x i (with_fin (x_m x i))) _).
  assert (My : MI y) by (apply mi_record; [apply mi_mgr; auto|discriminate]).
  assert (Ky : x_k y = x_k x) by reflexivity. assert (Ny : x_n y = x_n x) by reflexivity. assert (Cy : x_cb y = None) by exact Eb.
  assert (Fy : m_fin (x_m y i) = true) by (unfold y; cbn; now rewrite upd_same). clearbody y.
  rewrite <- Ky in *. rewrite <- Ny in *.
  destruct lv as [|e|]; [|destruct e as [m|m| | | |m]|]; cbn [fst]; try (now apply mi_begin_cancel);
    (destruct (m_canc (x_m y i)); [first [now apply mi_uncancel_parent|apply mi_suspend; auto; apply Hr; discriminate]|]);
    try (now apply mi_begin_cancel); try (now apply mi_stage);
    (destruct (m_context (x_m y i)); cbn [fst]; [now apply mi_stage|now apply mi_begin_cancel]).
Qed.
Lemma mi_run_step x rest t p es y r : MI x -> s_halt (x_k x) = false -> s_ctl (x_k x) = FRun t :: rest -> x_cb x = None ->
  x_pend x t = Some p -> run_step x rest t p es = Some (y, r) -> MI y.
Proof.
  intros M Ha Ec Eb Ep St. destruct (A_pend x M t p Ep) as [Hi Hf].
  assert (Ht : on_top t (s_ctl (x_k x))) by (exists rest; now left).
  assert (Fs : forall z, Some z = Some (y, r) -> MI (fst z) -> MI y) by (intros z Q Mz; assert (z = (y, r)) by congruence; subst z; exact Mz).
  assert (Con : forall i o, conclude x t i o es = Some (y, r) -> MI y).
  { intros i o Q. unfold conclude in Q. cbv zeta in Q. destruct (final_exc _ _), es as [l0|]; try discriminate.
    - injection Q as <- <-. apply mi_leave, mi_mgr; auto.
    - destruct (lists _ _); [|discriminate]. injection Q as <- <-. apply mi_leave, mi_mgr; auto. }
  assert (Bc : forall i e n, inst_of p = i -> MI (begin_cancel (record x (HThrown t i e)) t i n)).
  { intros i e n <-. apply mi_begin_cancel; auto. apply mi_record; [exact M|discriminate]. }
  unfold run_step in St. cbv zeta in St.
  destruct p as [i todo n|i|i m|i m|i o|i o]; cbn [inst_of] in *.
  - destruct es; [discriminate|]. apply (Fs _ St). now apply mi_go_cancel.
  - destruct (k_exc _), es; try discriminate; apply (Fs _ St); now apply mi_leave.
  - destruct es; [discriminate|]. destruct (s_event _ _); apply (Fs _ St); [now apply mi_leave|]. apply mi_suspend; auto.
  - destruct (k_exc _) as [[]|], es; try discriminate; apply (Fs _ St); cbn [fst]; try (now apply mi_leave); [now apply mi_uncancel_parent|now apply mi_stage].
  - destruct es; [discriminate|]. apply (Fs _ St). apply mi_suspend; auto.
  - destruct (k_exc _) as [[]|] eqn:Ex; [..|now apply (Con i o)]; (destruct es; [discriminate|]); apply (Fs _ St); cbn [fst]; now apply Bc.
Qed.
Lemma mi_close_step x rest t p : MI x -> s_halt (x_k x) = false -> s_ctl (x_k x) = FClose t :: rest -> x_cb x = None ->
  x_pend x t = Some p -> MI (fst (close_step x t p)).
Proof.
  intros M Ha Ec Eb Ep. destruct (A_pend x M t p Ep) as [Hi Hf].
  assert (Ht : on_top t (s_ctl (x_k x))) by (exists rest; now right).
  unfold close_step. destruct p as [i todo n|i|i m|i m|i o|i o]; cbn [inst_of fst] in *; try (now apply mi_leave).
  - now apply mi_go_cancel.
  - apply mi_begin_cancel; auto. apply mi_record; [exact M|discriminate].
Qed.

(** * The done callback *)
Lemma child_old x i u b : MI x -> child x i u b -> i < x_n x.
Proof. intros M C. destruct (Nat.lt_ge_cases i (x_n x)) as [L|G]; [exact L|]. elim (proj2 (A_new x M i G) u b C). Qed.
Lemma mi_callback x c : MI x -> s_halt (x_k x) = false -> x_cb x = Some c ->
  x_esc (fst (callback_step x c)) = true \/ MI (fst (callback_step x c)).
Proof.
  intros M Ha Eb. assert (P := A_cb x M c Eb). destruct c as [i u|i u coe|i todo|i todo].
  - right. destruct (mi_pop x i u M Ha Eb) as (_ & _ & _ & Q). exact Q.
  - destruct P as [C Cl]. assert (Nb : forall j v, x_cb x <> Some (BStart j v)) by (intros; congruence).
    assert (Nn : x_cb x <> None) by congruence. cbn [callback_step]. cbv zeta.
    destruct (py_cancelled _ _); [right; now apply mi_cb|]. destruct (py_exception _ _); cbn [fst]; try (now left).
    + right. now apply mi_cb.
    + right. destruct (coe || _); cbn [fst]; apply mi_cb; try exact Nn; try exact Nb; try exact Logic.I; try (apply mi_mgr; auto).
      destruct (m_fin _); (split; [apply (child_old x i u coe M C)|exists u; exact Cl]).
  - destruct P as [Hi Cl]. cbn [callback_step]. destruct (m_parent _); [|now left].
    destruct (cancel _ _ _) as [k r] eqn:E. destruct (mi_cancel x _ k r M Ha E) as [Mk Ck].
    destruct r; cbn [fst]; try (now left); right; apply mi_cb; cbn [record set_k x_cb]; try congruence;
      try (apply mi_record; [exact Mk|discriminate]); (split; [exact Hi|]); destruct Cl as (v & a & q & Cl); exists v, a, q; cbn; congruence.
  - destruct P as [Hi Cl]. cbn [callback_step]. destruct todo as [|u us].
    + right. apply mi_cb; auto; congruence.
    + destruct (cancel_one x i u) as [y o] eqn:E. destruct (mi_cancel_one x i u y o M Ha E) as (My & Ck & Em & En & Ec & _).
      destruct o; cbn [fst]; [now left|]. right. apply mi_cb; try congruence. split; [lia|].
      destruct Cl as (v & a & q & Cl). exists v, a, q. congruence.
Qed.

(** * All steps *)
Lemma control_top x : user_control x = true -> x_cb x = None /\ forall t, on_top t (s_ctl (x_k x)) -> x_pend x t = None.
Proof.
  unfold user_control. destruct (x_cb x); [discriminate|]. intro U. split; [reflexivity|]. intros t [q [E|E]]; rewrite E in U;
    destruct (x_pend x t); congruence.
Qed.
Lemma can_top x l : user_can x l = true -> x_cb x = None /\ forall t, on_top t (s_ctl (x_k x)) -> x_pend x t = None.
Proof.
  intro U. assert (D : user_control x = true \/ x_cb x = None /\ exists u i a q, s_ctl (x_k x) = FDone u i a :: q).
  { unfold user_can in U. destruct l; try (left; exact U); destruct (s_ctl (x_k x)) as [|[a|a|a b c] q]; try (left; exact U);
      try (apply andb_prop in U; left; apply U). right. destruct (x_cb x); [discriminate|]. split; [reflexivity|]. eauto. }
  destruct D as [D|(Eb & u & i & a & q & E)]; [now apply control_top|]. split; [exact Eb|]. intros t [q' [Q|Q]]; rewrite E in Q; discriminate.
Qed.
Lemma mi_user x l k r : MI x -> user_can x l = true -> user_label l = true -> prime_ok l -> step (x_k x) l = Some (k, r) -> MI (set_k x k).
Proof.
  intros M Uc Ul Pr St. destruct (can_top x l Uc) as [Eb Et]. apply mi_frame; [exact M|]. apply (kf_step x l k r M St Pr).
  - intro i. split; intros ->; cbn [user_label] in Ul; rewrite private_odd in Ul; discriminate.
  - intros i ok ->. cbn [user_label] in Ul. rewrite private_odd in Ul. discriminate.
  - intros t c ->. exact Ul.
  - intros -> i u b a rest C E. unfold user_can in Uc. rewrite E, Eb in Uc. destruct (A_kid x M i u b C) as [ds D]. rewrite D in Uc.
    cbn [nth_error] in Uc. rewrite private_odd in Uc. discriminate.
  - left. split; [exact Eb|]. intros t p Hp T. rewrite (Et t T) in Hp. discriminate.
Qed.
Lemma mstep_on x l y r : mstep x l = Some (y, r) -> s_halt (x_k x) = false /\ x_esc x = false.
Proof. unfold mstep. destruct (s_halt (x_k x)), (x_esc x); cbn; try discriminate; auto. Qed.
Lemma mstep_ok x l y r : MI x -> sim_ok x l -> mstep x l = Some (y, r) -> x_esc y = true \/ MI y.
Proof.
  intros M Ok St. destruct (mstep_on _ _ _ _ St) as [Ha He]. unfold mstep in St. rewrite Ha, He in St. cbn [orb] in St.
  assert (Fs : forall z, Some z = Some (y, r) -> x_esc (fst z) = true \/ MI (fst z) -> x_esc y = true \/ MI y).
  { intros z Q Mz. assert (z = (y, r)) by congruence. subst z. exact Mz. }
  assert (Lib : forall es, lib_step x es = Some (y, r) -> x_esc y = true \/ MI y).
  { intros es Q. unfold lib_step in Q. destruct (x_cb x) as [c|] eqn:Eb.
    - destruct es; [discriminate|]. apply (Fs _ Q). now apply mi_callback.
    - destruct (s_ctl (x_k x)) as [|[t|t|u j a] rest] eqn:Ec; [discriminate| | |].
      + destruct (x_pend x t) as [p|] eqn:Ep; [|discriminate]. right. apply (mi_run_step x rest t p es y r M Ha Ec Eb Ep Q).
      + destruct (x_pend x t) as [p|] eqn:Ep; [|discriminate]. destruct es; [discriminate|]. apply (Fs _ Q). right.
        apply (mi_close_step x rest t p M Ha Ec Eb Ep).
      + destruct (nth_error _ j) as [c|] eqn:En; [|discriminate]. destruct es; [discriminate|]. destruct (Nat.even c) eqn:Ev; [discriminate|].
        destruct (step (x_k x) LDoneNext) as [[k r0]|] eqn:Sk; [|discriminate]. apply (Fs _ Q). right.
        apply (mi_called x u j a rest c k r0 M Eb Ec En Ev Sk). }
  destruct l as [kl|d c|i u coe|i|lv| |es].
  - destruct (user_can x kl && user_label kl) eqn:U; [|discriminate]. apply andb_prop in U. destruct U as [Uc Ul].
    destruct (step (x_k x) kl) as [[k rk]|] eqn:Sk; [|discriminate]. apply (Fs _ St). right. apply (mi_user x kl k rk M Uc Ul); [|exact Sk].
    destruct kl; exact Ok || exact Logic.I.
  - destruct (user_control x); [|discriminate]. apply (Fs _ St). right. now apply mi_new.
  - destruct (user_control x) eqn:U; [|discriminate]. destruct (Nat.ltb_spec i (x_n x)) as [Hi|]; [|discriminate]. destruct (fresh (x_k x) u) eqn:Fr; [|discriminate].
    cbn [andb] in St. apply (Fs _ St). right. unfold manager_start. cbv zeta. destruct (m_canc _); [exact M|]. destruct (m_fin _) eqn:Ef; [exact M|].
    destruct (negb (m_entered _)); [exact M|]. destruct (s_current _) as [cu|]; [|exact M]. destruct (m_parent _) as [pa|]; [|exact M]. destruct (negb _); [exact M|].
    destruct (start_facts (x_k x) u i Fr) as [Es _]. cbv zeta in Es. rewrite Es. cbn [fst]. now apply mi_start.
  - destruct (s_ctl (x_k x)) as [|[t|t|u j a] rest] eqn:Ec; try discriminate. destruct (user_control x); [|discriminate].
    destruct (Nat.ltb_spec i (x_n x)) as [Hi|]; [|discriminate]. cbn [andb] in St. apply (Fs _ St). right. unfold manager_enter. cbv zeta.
    destruct (m_fin _) eqn:Ef; [exact M|]. destruct (s_current _); cbn [fst]; [|apply mi_mgr; auto].
    apply mi_record; [|discriminate]. apply mi_in; [apply mi_mgr; auto|]. intros j [<-|I]; [exact Hi|apply (A_in x M t j I)].
  - destruct (user_control x) eqn:U; [|discriminate]. destruct (control_top x U) as [Eb _].
    assert (Ex : forall t rest i q, x_in x t = i :: q -> on_top t (s_ctl (x_k x)) -> (lv <> LvClose -> s_ctl (x_k x) = FRun t :: rest) ->
      MI (fst (begin_exit (set_in x t q) rest t i lv))).
    { intros t rest i q E T R. assert (I : forall j, In j (i :: q) -> j < x_n x) by (rewrite <- E; apply (A_in x M)).
      apply mi_begin_exit; auto; [|apply I; now left]. apply mi_in; [exact M|]. intros j Hj. apply I. now right. }
    destruct (s_ctl (x_k x)) as [|[t|t|u j a] rest] eqn:Ec; try discriminate; destruct lv; try discriminate;
      (destruct (x_in x t) as [|i q] eqn:Ei; [discriminate|]); apply (Fs _ St); right; apply Ex; auto; try (exists rest; auto); congruence.
  - now apply (Lib None).
  - now apply (Lib (Some es)).
Qed.
Theorem mreach_ok ls x : mreach ls x -> x_esc x = true \/ MI x.
Proof.
  unfold mreach. intro R. assert (G : forall y, (x_esc y = true \/ MI y) -> mexec sim_ok y ls x -> x_esc x = true \/ MI x).
  { clear R. intros y My R. induction R as [y|y l y1 r ls y2 Ok St R IH]; [exact My|]. apply IH. destruct My as [E|M].
    - destruct (mstep_on _ _ _ _ St). congruence.
    - now apply (mstep_ok y l y1 r). }
  apply (G minit); [right; apply minit_ok|exact R].
Qed.

(** The invariant of TaskManager is kept: the methods called by user code, and the done callback. *)
From Verif Require Import Base KernelModel KernelProofs KernelHist KernelLog KernelInv KernelTask KernelWake KernelLayer KernelStack
  LayerProofs ManagerModel ManagerSpec ManagerInv.
From Coq Require Import Arith.

Lemma cancel_ctl s t m : s_ctl (fst (cancel s t m)) = s_ctl s.
Proof.
  unfold cancel. destruct (state_of s t); try reflexivity. assert (Q : s_ctl (fst (cancel_tcb s t)) = s_ctl s).
  { unfold cancel_tcb, deregister. destruct (k_tcb _) as [[tr h]|]; [|reflexivity]. destruct (existsb _ _); [|reflexivity]. cbv zeta.
    destruct (s_cbs (set_cbs s tr _) tr); [|reflexivity]. destruct tr; try reflexivity. cbn. destruct (g_hdl _); reflexivity. }
  destruct (cancel_tcb s t) as [s1 [e|]]; exact Q.
Qed.
Lemma mi_cancel x u k r : MI x -> s_halt (x_k x) = false -> cancel (x_k x) u 0 = (k, r) -> MI (set_k x k) /\ s_ctl k = s_ctl (x_k x).
Proof.
  intros M Ha E. assert (Ec : s_ctl k = s_ctl (x_k x)) by (pose proof (cancel_ctl (x_k x) u 0) as Q; now rewrite E in Q).
  split; [|exact Ec]. apply (mi_call x (OpCancel u 0) k r M); [|exact Ec|split; discriminate|discriminate].
  rewrite op_step by exact Ha. cbn [do_op]. now rewrite E.
Qed.
Lemma mi_uncancel x u : MI x -> s_halt (x_k x) = false -> MI (set_k x (uncancel (x_k x) u)).
Proof.
  intros M Ha. apply (mi_call x (OpUncancel u) _ RUnit M); [|reflexivity|split; discriminate|discriminate].
  now rewrite op_step by exact Ha.
Qed.

Lemma set_facts k e : let k' := event_set k e in
  s_event k' e = true /\ (forall j, j <> e -> s_event k' j = s_event k j) /\ s_cbs k' (TEvent e) = [] /\
  (forall tr, tr <> TEvent e -> s_cbs k' tr = s_cbs k tr) /\ s_ctl k' = s_ctl k /\
  (forall u, k_dcbs (s_task k' u) = k_dcbs (s_task k u)).
Proof.
  cbv zeta. unfold event_set. rewrite react_event, react_ctl. cbn [s_event set_event s_ctl]. split; [apply upd_same|].
  split; [intros; now apply upd_other|]. split; [rewrite react_cbs; apply updt_same|]. split; [intros; rewrite react_cbs; now apply updt_other|].
  split; [reflexivity|]. intro u. destruct (react_task (set_event k e true) (TEvent e) u) as [[_ ->]|[_ [h ->]]]; reflexivity.
Qed.
Lemma set_due k e u : Inv k -> s_halt k = false -> (due (event_set k e) u <-> due k u).
Proof.
  intros H Ha. apply (due_step k (LOp (OpSet e)) _ RUnit u H); [now rewrite op_step by exact Ha|exact Logic.I|discriminate].
Qed.
Lemma ev_private i j : TEvent (private i) = TEvent (private j) -> i = j.
Proof. intro Q. apply private_inj. congruence. Qed.
Lemma set_private i j : LOp (OpSet (private i)) = LOp (OpSet (private j)) -> i = j.
Proof. intro Q. apply private_inj. congruence. Qed.
Lemma waits_inst p i : waits_on p = Some i -> inst_of p = i.
Proof. destruct p; cbn; congruence. Qed.

Lemma mi_new x d c : MI x -> s_halt (x_k x) = false -> MI (new_manager x d c).
Proof.
  intros M Ha. pose proof (A_k x M) as H. unfold new_manager. set (n := x_n x). set (k' := event_set (x_k x) (private n)).
  destruct (set_facts (x_k x) (private n)) as (E1 & E2 & C1 & C2 & Ct & Dc). fold k' in E1, E2, C1, C2, Ct, Dc.
  assert (Hk : Inv k') by apply (ok_event_set _ _ H).
  assert (St : step (x_k x) (LOp (OpSet (private n))) = Some (k', RUnit)) by now rewrite op_step by exact Ha.
  assert (Pv : forall i, i <> n -> private i <> private n) by (intros i Ni E; now apply Ni, private_inj).
  assert (Du : forall u, due k' u <-> due (x_k x) u) by (intro; now apply set_due).
  clearbody k'. set (m := Mgr d _ [] [] false false false None).
  constructor; cbn [x_k x_m x_n x_in x_pend x_cb x_hist].
  - exact Hk.
  - intros i Hi. unfold n in *. split; [rewrite C2; [apply (A_new x M); lia|]|apply (A_new x M i); lia]. intro Q.
    apply ev_private in Q. lia.
  - intro u. rewrite Dc. apply (A_dcb x M).
  - intros i u b Q. rewrite Dc. apply (A_kid x M i u b Q).
  - intros i u b. unfold upd. destruct (Nat.eqb_spec i n) as [->|Ni].
    + cbn. split; [intros []|]. intros [Q _]. elim (proj2 (A_new x M n (le_n n)) u b Q).
    + rewrite Du. apply (A_rem x M).
  - intro i. unfold upd. destruct (Nat.eqb_spec i n); [constructor|apply (A_nd x M)].
  - intros i Hi. unfold upd. destruct (Nat.eqb_spec i n) as [->|Ni]; [rewrite E1; cbn; tauto|]. rewrite E2 by auto. apply (A_ev x M). unfold n in *. lia.
  - intros c0 E. pose proof (A_cb x M c0 E) as P. unfold calling in *. rewrite Ct. destruct c0; try exact P; (split; [fold n; destruct P; lia|apply P]).
  - intros t p E. destruct (A_pend x M t p E) as [P1 P2]. fold n in P1. split; [lia|]. rewrite upd_other by lia. exact P2.
  - intros t p i E W. destruct (A_pend x M t p E) as [P1 _]. rewrite (waits_inst p i W) in P1. fold n in P1. rewrite upd_other by lia.
    apply (waiting_step _ _ _ _ t _ _ H St Logic.I); [|now left|apply (A_wait x M t p i E W)]. cbn. intro Q.
    apply set_private in Q. lia.
  - intros t p E B. rewrite Ct. apply (A_busy x M t p E B).
  - intros t i I. fold n. pose proof (A_in x M t i I) as Q. fold n in Q. lia.
Qed.

Lemma fresh_new k u : fresh k u = true -> s_task k u = new_task.
Proof.
  unfold fresh. destruct (s_task k u) as [a b c d e f g h w]. destruct a; try discriminate. destruct b; try discriminate.
  destruct c; try discriminate. destruct d; try discriminate. destruct e; try discriminate. destruct f; try discriminate.
  destruct g; try discriminate. destruct h; try discriminate. destruct w; try discriminate. reflexivity.
Qed.
Lemma fresh_due k u : fresh k u = true -> due k u.
Proof. intro F. left. unfold done, state_of. now rewrite (fresh_new _ _ F). Qed.
Lemma start_facts k u i : fresh k u = true ->
  let k' := schedule_resume (event_clear (add_done k u (private i)) (private i)) u None in
  start_soon (event_clear (add_done k u (private i)) (private i)) u = (k', RUnit) /\
  s_event k' (private i) = false /\ (forall e, e <> private i -> s_event k' e = s_event k e) /\ s_cbs k' = s_cbs k /\ s_ctl k' = s_ctl k /\
  (forall v, v <> u -> s_task k' v = s_task k v) /\ k_dcbs (s_task k' u) = [private i] /\ done k' u = false.
Proof.
  intros F. pose proof (fresh_new k u F) as E. cbv zeta.
  set (k1 := event_clear (add_done k u (private i)) (private i)).
  assert (D : done k u = false) by (unfold done, state_of; now rewrite E).
  assert (T : s_task k1 u = with_dcbs new_task [private i]).
  { unfold k1, event_clear, add_done. rewrite D. cbn [set_event s_task set_task]. rewrite upd_same, E. reflexivity. }
  assert (O : forall v, v <> u -> s_task k1 v = s_task k v).
  { intros v N. unfold k1, event_clear, add_done. rewrite D. cbn [set_event s_task set_task]. now rewrite upd_other. }
  assert (Fl : s_event k1 = upd (s_event k) (private i) false /\ s_cbs k1 = s_cbs k /\ s_ctl k1 = s_ctl k).
  { unfold k1, event_clear, add_done. rewrite D. auto. }
  destruct Fl as (F1 & F2 & F3). clearbody k1. split; [unfold start_soon, state_of; rewrite T; reflexivity|].
  unfold schedule_resume. cbn [log set_next set_queue set_task s_event s_cbs s_ctl s_task]. rewrite F1, F2, F3.
  split; [apply upd_same|]. split; [intros; now apply upd_other|]. split; [reflexivity|]. split; [reflexivity|].
  split; [intros v N; rewrite upd_other by exact N; now apply O|]. unfold done, state_of. cbn [s_task log set_next set_queue set_task].
  rewrite upd_same, T. auto.
Qed.

Lemma map_fst_in (l : list (tid * bool)) u : In u (map fst l) <-> exists b, In (u, b) l.
Proof.
  rewrite in_map_iff. split; [intros ([v b] & E & I); cbn in E; subst; eauto|intros [b I]; exists (u, b); auto].
Qed.

Lemma mi_start x i u b : MI x -> s_halt (x_k x) = false -> i < x_n x -> fresh (x_k x) u = true -> m_fin (x_m x i) = false ->
  MI (record (set_k (set_m x i (with_rem (x_m x i) (m_rem (x_m x i) ++ [(u, b)])))
     (schedule_resume (event_clear (add_done (x_k x) u (private i)) (private i)) u None)) (HStart i u b)).
Proof.
  intros M Ha Hi Fr Nf. pose proof (A_k x M) as H. pose proof (fresh_new _ _ Fr) as Ft.
  destruct (start_facts (x_k x) u i Fr) as (Es & E1 & E2 & Ec & Ct & Ot & Du & Dn).
  assert (Hk : Inv (schedule_resume (event_clear (add_done (x_k x) u (private i)) (private i)) u None)).
  { destruct (inv_step (x_k x) (LOp (OpAddDone u (private i))) (add_done (x_k x) u (private i)) RUnit H Logic.I
      ltac:(now rewrite op_step by exact Ha)) as (H1 & _).
    assert (H2 := proj1 (ok_event_clear _ (private i) H1)). pose proof (proj1 (proj1 (ok_start_soon _ u H2))) as H3. rewrite Es in H3. exact H3. }
  set (k' := schedule_resume _ u None) in *. clearbody k'.
  assert (Nc : forall j c, ~ child x j u c).
  { intros j c C. destruct (A_kid x M j u c C) as [ds Q]. rewrite Ft in Q. discriminate. }
  assert (Nr : forall j c, ~ In (u, c) (m_rem (x_m x j))) by (intros j c I; apply (A_rem x M) in I; now apply (Nc j c)).
  assert (Dv : forall v, v <> u -> (due k' v <-> due (x_k x) v)).
  { intros v N. unfold due, done, state_of. rewrite (Ot v N), Ct. tauto. }
  assert (Pv : forall j, j <> i -> private j <> private i) by (intros j N E; now apply N, private_inj).
  assert (Un : state_of (x_k x) u = Unstarted) by (unfold state_of; now rewrite Ft).
  assert (Nb : x_cb x <> Some (BStart i u) /\ forall j, x_cb x <> Some (BStart j u)).
  { split; [|intro j]; intro E; destruct (A_cb x M _ E) as [[c C] _]; now apply Nc in C. }
  constructor; cbn [record set_k set_m x_k x_m x_n x_in x_pend x_cb x_hist]; unfold child; cbn [record set_k set_m x_hist In].
  - exact Hk.
  - intros j Hj. rewrite Ec. destruct (A_new x M j Hj) as [A B]. split; [exact A|]. intros v c [E|I]; [injection E as -> -> ->; lia|now apply (B v c)].
  - intro v. destruct (Nat.eq_dec v u) as [->|N].
    + right. exists i, b, []. rewrite Du. split; [reflexivity|]. split; [constructor|now left].
    + rewrite (Ot v N). destruct (A_dcb x M v) as [D|(j & c & ds & D & E & C)]; [now left|]. right. exists j, c, ds. auto.
  - intros j v c [E|I]; [injection E as -> -> ->; rewrite Du; eauto|]. assert (N : v <> u) by (intros ->; now apply (Nc j c)).
    rewrite (Ot v N). apply (A_kid x M j v c I).
  - intros j v c. destruct (Nat.eq_dec v u) as [->|N].
    + split.
      * unfold upd. destruct (Nat.eqb_spec j i) as [->|Nj]; [|intro I; elim (Nr j c I)]. cbn [with_rem m_rem]. intro I. apply in_app_or in I.
        destruct I as [I|[E|[]]]; [elim (Nr i c I)|]. injection E as <-. split; [now left|]. left. now left.
      * intros [[E|I] _]; [injection E as -> ->|elim (Nc j c I)]. rewrite upd_same. cbn. apply in_or_app. right. now left.
    + rewrite (Dv v N). assert (R : In (v, c) (m_rem (upd (x_m x) i (with_rem (x_m x i) (m_rem (x_m x i) ++ [(u, b)])) j)) <-> In (v, c) (m_rem (x_m x j))).
      { unfold upd. destruct (Nat.eqb_spec j i) as [->|Nj]; [|tauto]. cbn [with_rem m_rem]. rewrite in_app_iff. split; [|auto].
        intros [I|[E|[]]]; [exact I|congruence]. }
      rewrite R, (A_rem x M). unfold child. split; intros [C D]; (split; [|exact D]); [auto|]. destruct C as [C|C]; [congruence|exact C].
  - intro j. unfold upd. destruct (Nat.eqb_spec j i) as [->|Nj]; [|apply (A_nd x M)]. cbn [with_rem m_rem]. rewrite map_app.
    apply NoDup_app_snoc; [apply (A_nd x M)|]. intro I. apply map_fst_in in I. destruct I as [c I]. elim (Nr i c I).
  - intros j Hj. unfold upd. destruct (Nat.eqb_spec j i) as [->|Nj].
    + rewrite E1. cbn [with_rem m_rem]. split; [discriminate|]. intro Q. destruct (m_rem (x_m x i)); discriminate.
    + rewrite E2 by auto. now apply (A_ev x M).
  - intros c E. pose proof (A_cb x M c E) as P. unfold calling in *. rewrite Ct. destruct c; try exact P.
    + destruct P as [[c C] P]. split; [exists c; now right|exact P].
    + destruct P as [C P]. split; [now right|exact P].
  - intros t p E. destruct (A_pend x M t p E) as [P1 P2]. split; [exact P1|]. unfold upd. destruct (Nat.eqb_spec (inst_of p) i) as [Q|]; [|exact P2].
    rewrite Q in P2. congruence.
  - intros t p j E W. destruct (A_pend x M t p E) as [_ P2]. rewrite (waits_inst p j W) in P2.
    assert (Nj : j <> i) by congruence. rewrite upd_other by exact Nj. pose proof (A_wait x M t p j E W) as Wt.
    destruct (Nat.eq_dec t u) as [->|N].
    + exfalso. destruct Wt as [D|[[h I]|[[Sc _]|[[I _]|I]]]].
      * unfold done in D. rewrite Un in D. discriminate.
      * destruct (L_cpend _ _ (J_loc _ _ H) _ _ _ I) as (_ & P & _). congruence.
      * congruence.
      * assert (R := proj2 (L_run _ _ (J_loc _ _ H) u ltac:(unfold runners; apply in_flat_map; exists (FRun u); split; [exact I|now left]))). congruence.
      * assert (R := proj2 (L_run _ _ (J_loc _ _ H) u ltac:(unfold runners; apply in_flat_map; exists (FClose u); split; [exact I|now left]))). congruence.
    + unfold waiting, got, done, state_of. rewrite (Ot t N), Ec, Ct. exact Wt.
  - intros t p E B. rewrite Ct. apply (A_busy x M t p E B).
  - apply (A_in x M).
Qed.

(** * The done callback *)
Lemma find_rem_in u l b : find_rem u l = Some b -> In (u, b) l.
Proof.
  induction l as [|[v c] l IH]; cbn; [discriminate|]. destruct (Nat.eqb_spec v u) as [->|]; [intro E; injection E as ->; now left|auto].
Qed.
Lemma find_rem_none u l : find_rem u l = None -> forall b, ~ In (u, b) l.
Proof.
  induction l as [|[v c] l IH]; cbn; [auto|]. destruct (Nat.eqb_spec v u) as [->|]; [discriminate|]. intros E b [Q|I]; [congruence|].
  now apply (IH E b).
Qed.
Lemma drop_in u l v b : In (v, b) (drop_rem u l) <-> In (v, b) l /\ v <> u.
Proof.
  unfold drop_rem. rewrite filter_In. cbn. destruct (Nat.eqb_spec v u); cbn; split; intros [A B]; split; auto; congruence.
Qed.
Lemma drop_nodup u l : NoDup (map fst l) -> NoDup (map fst (drop_rem u l)).
Proof.
  induction l as [|[v c] l IH]; cbn; [auto|]. intro N. apply NoDup_cons_iff in N. destruct N as [N1 N2].
  destruct (Nat.eqb_spec v u); cbn; [auto|]. constructor; [|auto]. intro I. apply N1. apply map_fst_in in I. destruct I as [b I].
  apply drop_in in I. apply map_fst_in. exists b. apply I.
Qed.

Lemma mi_pop x i u : MI x -> s_halt (x_k x) = false -> x_cb x = Some (BStart i u) ->
  exists coe, find_rem u (m_rem (x_m x i)) = Some coe /\ child x i u coe /\ MI (fst (callback_step x (BStart i u))).
Proof.
  intros M Ha Ecb. pose proof (A_k x M) as H. destruct (A_cb x M _ Ecb) as [[b C] Cl]. destruct Cl as (a & rest & Ctl).
  assert (Ir : In (u, b) (m_rem (x_m x i))) by (apply (A_rem x M); auto).
  destruct (find_rem u (m_rem (x_m x i))) as [coe|] eqn:Ef; [|elim (find_rem_none _ _ Ef b Ir)].
  exists coe. split; [reflexivity|]. assert (Cc : child x i u coe) by (apply find_rem_in, (A_rem x M) in Ef; apply Ef).
  split; [exact Cc|]. cbn [callback_step]. rewrite Ef. cbn [fst]. set (l := drop_rem u (m_rem (x_m x i))).
  assert (Hi : i < x_n x). { destruct (Nat.lt_ge_cases i (x_n x)) as [L|G]; [exact L|]. elim (proj2 (A_new x M i G) u b C). }
  assert (Nd : ~ due (x_k x) u) by (apply (due_started _ _ _ _ _ H Ctl)).
  assert (Ds : forall j v c, In (v, c) (m_rem (upd (x_m x) i (with_rem (x_m x i) l) j)) <-> child x j v c /\ due (x_k x) v).
  { intros j v c. unfold upd. destruct (Nat.eqb_spec j i) as [->|Nj].
    - cbn [with_rem m_rem]. unfold l. rewrite drop_in, (A_rem x M). split.
      + intros [[D1 D2] N]. split; [exact D1|]. destruct D2 as [D2|D2]; [exact D2|]. congruence.
      + intros [D1 D2]. split; [auto|]. intros ->. contradiction.
    - rewrite (A_rem x M). split; intros [D1 D2]; (split; [exact D1|]); auto. destruct D2 as [D2|D2]; [exact D2|congruence]. }
  set (x1 := set_cb (set_m x i (with_rem (x_m x i) l)) (Some (BCheck i u coe))).
  (* without the Event *)
  assert (Rs : forall k', Inv k' -> s_ctl k' = s_ctl (x_k x) -> (forall j, x_n x <= j -> s_cbs k' (TEvent (private j)) = []) ->
    (forall v, k_dcbs (s_task k' v) = k_dcbs (s_task (x_k x) v)) -> (forall v, due k' v <-> due (x_k x) v) ->
    (forall j, j < x_n x -> (s_event k' (private j) = true <-> m_rem (upd (x_m x) i (with_rem (x_m x i) l) j) = [])) ->
    (forall t p j, x_pend x t = Some p -> waits_on p = Some j -> waiting k' t (TEvent (private j)) (m_rem (upd (x_m x) i (with_rem (x_m x i) l) j) = [])) ->
    MI (set_k x1 k')).
  { intros k' Hk Ct Cn Dc Du Ev Wt. unfold x1. constructor; cbn [set_k set_cb set_m x_k x_m x_n x_in x_pend x_cb x_hist]; unfold child; cbn [set_k set_cb set_m x_hist].
    - exact Hk.
    - intros j Hj. split; [auto|apply (A_new x M j Hj)].
    - intro v. rewrite Dc. apply (A_dcb x M).
    - intros j v c I. rewrite Dc. apply (A_kid x M j v c I).
    - intros j v c. rewrite Ds, Du. unfold child. split; intros [D1 D2]; (split; [exact D1|]); auto. destruct D2 as [D2|D2]; [exact D2|discriminate].
    - intro j. unfold upd. destruct (Nat.eqb_spec j i) as [->|]; [|apply (A_nd x M)]. cbn [with_rem m_rem]. apply drop_nodup, (A_nd x M).
    - exact Ev.
    - intros c E. injection E as <-. split; [exact Cc|]. exists a, rest. rewrite Ct. exact Ctl.
    - intros t p E. destruct (A_pend x M t p E) as [P1 P2]. split; [exact P1|]. unfold upd. destruct (Nat.eqb_spec (inst_of p) i) as [Q|]; [|exact P2].
      cbn. now rewrite <- Q.
    - exact Wt.
    - intros t p E B. destruct (A_busy x M t p E B). congruence.
    - apply (A_in x M). }
  destruct l as [|q l'] eqn:El; cbn [m_rem with_rem].
  - destruct (set_facts (x_k x) (private i)) as (E1 & E2 & C1 & C2 & Ct & Dc). change (x_k x1) with (x_k x). apply Rs.
    + apply (ok_event_set _ _ H).
    + exact Ct.
    + intros j Hj. rewrite C2; [apply (A_new x M j Hj)|]. intro Q. apply ev_private in Q. lia.
    + exact Dc.
    + intro v. now apply set_due.
    + intros j Hj. unfold upd. destruct (Nat.eqb_spec j i) as [->|Nj]; [cbn [with_rem m_rem]; rewrite E1; tauto|]. rewrite E2; [now apply (A_ev x M)|].
      intro Q. now apply Nj, private_inj.
    + intros t p j E W. unfold upd. destruct (Nat.eqb_spec j i) as [->|Nj].
      * cbn [with_rem m_rem]. apply (waiting_set _ _ _ _ _ H eq_refl (A_wait x M t p i E W)).
      * apply (waiting_step (x_k x) (LOp (OpSet (private i))) _ RUnit t _ _ H); [now rewrite op_step by exact Ha|exact Logic.I| |now left|apply (A_wait x M t p j E W)].
        cbn. intro Q. apply Nj. symmetry. now apply set_private.
  - assert (Q := Rs (x_k x)). cbn in Q. apply Q; auto.
    + intros j Hj. apply (A_new x M j Hj).
    + tauto.
    + intros j Hj. rewrite (A_ev x M j Hj). unfold upd. destruct (Nat.eqb_spec j i) as [->|Nj]; [|tauto]. cbn [with_rem m_rem].
      split; [|discriminate]. intro Z. rewrite Z in Ir. destruct Ir.
    + intros t p j E W. unfold upd. destruct (Nat.eqb_spec j i) as [->|Nj]; [|apply (A_wait x M t p j E W)].
      apply (waiting_mono _ _ _ (m_rem (x_m x i) = [])); [|apply (A_wait x M t p i E W)]. intro Z. rewrite Z in Ir. destruct Ir.
Qed.

(** The kernel calls the callback. *)
Lemma mi_called x u j a rest c k r : MI x -> x_cb x = None -> s_ctl (x_k x) = FDone u j a :: rest ->
  nth_error (k_dcbs (s_task (x_k x) u)) j = Some c -> Nat.even c = false -> step (x_k x) LDoneNext = Some (k, r) ->
  j = 0 /\ (exists b, child x (Nat.div2 c) u b) /\ MI (set_cb (set_k x k) (Some (BStart (Nat.div2 c) u))).
Proof.
  intros M Ecb Ctl Nth Od St. pose proof (A_k x M) as H. destruct (inv_step (x_k x) LDoneNext k r H Logic.I St) as (H1 & Sb & _).
  destruct (A_dcb x M u) as [Ev|(i & b & ds & D & Ev & C)].
  { exfalso. apply nth_error_In in Nth. unfold evens in Ev. rewrite Forall_forall in Ev. rewrite (Ev c Nth) in Od. discriminate. }
  rewrite D in Nth. destruct j as [|j]; cbn in Nth; [|apply nth_error_In in Nth; unfold evens in Ev; rewrite Forall_forall in Ev;
    rewrite (Ev c Nth) in Od; discriminate]. injection Nth as <-. split; [reflexivity|]. rewrite private_div2. split; [eauto|].
  assert (St' := St). unfold step in St'. destruct (s_halt (x_k x)); [discriminate|]. rewrite Ctl, D in St'. cbn [nth_error] in St'.
  injection St' as <- <-. set (k := log _ _) in *.
  assert (Dv : forall v, v <> u -> (due k v <-> due (x_k x) v)).
  { intros v N. apply (due_step (x_k x) LDoneNext _ _ v H St Logic.I). intros _ a0 r0. rewrite Ctl. congruence. }
  assert (Ck : s_ctl k = FDone u 1 a :: rest) by reflexivity.
  assert (Nu : ~ due k u) by apply (due_started _ _ _ _ _ H1 Ck).
  assert (Du : due (x_k x) u) by (right; exists a; rewrite Ctl; now left).
  assert (Nt : forall t, ~ on_top t (s_ctl (x_k x))) by (intros t [q [Q|Q]]; rewrite Ctl in Q; discriminate).
  constructor; cbn [set_cb set_k x_k x_m x_n x_in x_pend x_cb x_hist]; unfold child; cbn [set_cb set_k x_hist].
  - exact H1.
  - apply (A_new x M).
  - apply (A_dcb x M).
  - apply (A_kid x M).
  - intros m v c. rewrite (A_rem x M), Ecb. unfold child. destruct (Nat.eq_dec v u) as [->|N].
    + split; intros [C1 D1]; (split; [exact C1|]).
      * right. destruct (A_kid x M m u c C1) as [ds' Q]. rewrite D in Q. assert (i = m) by (apply private_inj; congruence). congruence.
      * now left.
    + rewrite (Dv v N). split; intros [C1 D1]; (split; [exact C1|]); destruct D1 as [D1|D1]; auto; congruence.
  - apply (A_nd x M).
  - apply (A_ev x M).
  - intros c E. injection E as <-. split; [eauto|]. exists a, rest. exact Ck.
  - apply (A_pend x M).
  - intros t p m E W. apply (waiting_step (x_k x) LDoneNext _ _ t _ _ H St Logic.I); [discriminate|right; apply Nt|apply (A_wait x M t p m E W)].
  - intros t p E B. destruct (A_busy x M t p E B) as [T _]. elim (Nt t T).
  - apply (A_in x M).
Qed.

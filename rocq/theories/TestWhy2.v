(** What TestManager reports, in every reachable state. *)
From Verif Require Import Base KernelModel KernelProofs KernelHist KernelLog KernelInv KernelTask KernelWake KernelLayer KernelStack
  LayerProofs StackProofs TestModel TestSpec TestInv TestInv2 TestInv3 TestWhy.
From Coq Require Import Arith.

Lemma no_cause x h : x_cb x = None -> ~ cause x h.
Proof. intros E (u & Q & _). congruence. Qed.
Lemma no_pend x : x_cb x = None -> pend x = [].
Proof. intro E. unfold pend. now rewrite E. Qed.
Lemma wi_grown x x' : WI x -> grown x x' -> x_cb x = None -> x_cb x' = None -> WI x'.
Proof.
  intros [T _] G E E'. split; [|congruence]. rewrite (no_pend x E) in T. rewrite (no_pend x' E').
  apply (te_weaken _ _ (cause x)); [intros h _ _ C; elim (no_cause x h E C)|]. apply (te_grown x x'); [exact T|exact G|congruence].
Qed.
Lemma idle_cb x : TI x -> s_ctl (x_k x) = [] -> x_cb x = None.
Proof.
  intros M Ec. destruct (x_cb x) as [c|] eqn:E; [|reflexivity]. pose proof (Q_cb x M c E) as P. destruct c; destruct P as [_ (a & rest & Q)]; congruence.
Qed.
Lemma grown_same x x' : x_hist x' = x_hist x -> x_loop x' = x_loop x -> x_excs x' = x_excs x -> x_fin x' = x_fin x -> x_esc x' = x_esc x ->
  x_k x' = x_k x -> x_main x' = x_main x -> grown x x'.
Proof.
  intros H1 H2 H3 H4 H5 H6 H7. constructor; auto; try congruence.
  - intros u _. unfold same_end. rewrite H6, H7. tauto.
  - rewrite H6. tauto.
Qed.
(** Completion is signalled while nothing is being dealt with. *)
Lemma wi_complete x : TI x -> WI x -> x_cb x = None -> x_done x = false -> x_main x <> None -> (exists d, x_loop x = Some ([], d)) ->
  WI (on_complete (set_loop x None)).
Proof.
  intros M [T _] Ecb Nd Em [d0 Lo]. rewrite (no_pend x Ecb) in T. pose proof (E_exc _ _ _ T) as Ex. rewrite app_nil_r in Ex.
  set (x' := on_complete (set_loop x None)). assert (Hh : x_hist x' = HComplete (exception_of (x_excs x)) :: x_hist x) by reflexivity.
  split; [|unfold x'; fields; congruence]. rewrite (no_pend x' Ecb).
  assert (Fs : forall l, failures x' l = failures x l) by (intro l; apply failures_same; intros; split; [reflexivity|tauto]).
  pose proof (Q_sig x M) as Sg. rewrite Nd in Sg.
  constructor; unfold registered; rewrite ?Hh.
  - intros u aw [I|I]; [discriminate|]. destruct (E_ended _ _ _ T u aw I) as (R & D & N). repeat split; [now right|exact D|exact N].
  - intros u [I|I]; [discriminate|]. destruct (E_all _ _ _ T u I) as [D|[D|[aw D]]]; auto. right. right. exists aw. now right.
  - rewrite failures_cons, Fs. cbn [failure_of]. rewrite !app_nil_r. exact Ex.
  - intros [|a h1] r h2 E.
    + injection E as <- <-. left. rewrite Fs, <- Ex. reflexivity.
    + injection E as <- E. elim (signals_none _ Sg _ _ _ E).
  - intro F. destruct (E_fin _ _ _ T F) as (h & I & Et). exists h. split; [now right|]. destruct h; exact Et.
  - intros h [<-|I] Et; [destruct Et|]. left. destruct (E_end _ _ _ T h I) as [Q|Q]; [destruct h; exact Et|exact Q|elim (no_cause x h Ecb Q)].
  - intros [|a h1] h2 u E I D; [discriminate|]. injection E as <- E. destruct (E_abort _ _ _ T h1 h2 u E I D) as [Q|[(todo & d & Q1 & Q2)|Q]].
    + left. now right.
    + rewrite Lo in Q1. injection Q1 as <- _. destruct Q2.
    + right. now right.
  - intros F [I|I]; [discriminate|]. now apply (E_once _ _ _ T F).
Qed.
(** The kernel calls the callback of [u]. *)
Lemma wi_called x u a rest c k r : TI x -> WI x -> x_cb x = None -> s_ctl (x_k x) = FDone u 0 a :: rest -> registered x u ->
  nth_error (k_dcbs (s_task (x_k x) u)) 0 = Some c -> step (x_k x) LDoneNext = Some (k, r) -> WI (set_cb (set_k x k) (Some (BRemove u))).
Proof.
  intros M [T _] Ecb Ctl Ru Nth St. rewrite (no_pend x Ecb) in T. pose proof (Q_k x M) as H. destruct (inv_step (x_k x) LDoneNext k r H Logic.I St) as (H1 & Sb & _).
  assert (Ck : s_ctl k = FDone u 1 a :: rest).
  { unfold step in St. destruct (s_halt (x_k x)); [discriminate|]. rewrite Ctl, Nth in St. injection St as <- <-. reflexivity. }
  assert (Dv : forall v, v <> u -> (due k v <-> due (x_k x) v)).
  { intros v N. apply (due_step (x_k x) LDoneNext _ _ v H St Logic.I). intros _ a0 r0. rewrite Ctl. congruence. }
  assert (Nu : ~ due k u) by apply (due_started _ _ _ _ _ H1 Ck).
  assert (Du : due (x_k x) u) by (right; exists a; rewrite Ctl; now left).
  set (x' := set_cb (set_k x k) (Some (BRemove u))).
  assert (Sm : forall v aw, In (HEnd v aw) (x_hist x) -> same_end x x' v).
  { intros v aw I. split; [|unfold x'; fields; tauto]. apply (stable_error _ _ v Sb), not_due_done. apply (E_ended _ _ _ T v aw I). }
  assert (Fs : forall l, (forall b, In b l -> In b (x_hist x)) -> failures x' l = failures x l).
  { intros l I. apply failures_same. intros v aw J. apply (Sm v aw), I, J. }
  assert (Et' : forall h, In h (x_hist x) -> (ends_test x' h <-> ends_test x h)).
  { intros h I. apply ends_same. intros v aw ->. now apply (Sm v aw). }
  split; [|discriminate]. change (pend x') with (@nil failure). constructor.
  - intros v aw I. destruct (E_ended _ _ _ T v aw I) as (R & D & N). assert (v <> u) by (intros ->; contradiction).
    split; [exact R|]. split; [intro Q; apply D; now apply (Dv v)|]. unfold x'. fields. congruence.
  - intros v R. destruct (Nat.eq_dec v u) as [->|N]; [right; now left|]. destruct (E_all _ _ _ T v R) as [D|[D|D]]; [left; now apply (Dv v)|congruence|auto].
  - change (x_hist x') with (x_hist x). rewrite Fs by auto. apply (E_exc _ _ _ T).
  - intros h1 r' h2 E. assert (Sub : forall b, In b h2 -> In b (x_hist x)) by (intros b I; change (x_hist x') with (x_hist x) in E; rewrite E; apply in_or_app; right; now right).
    destruct (E_rep _ _ _ T h1 r' h2 E) as [Q|(v & aw & h3 & -> & Q)]; [left; now rewrite Fs|]. right. exists v, aw, h3. split; [reflexivity|].
    rewrite Fs; [exact Q|]. intros b I. apply Sub. now right.
  - intro F. destruct (E_fin _ _ _ T F) as (h & I & Et). exists h. split; [exact I|]. now apply Et'.
  - intros h I Et. apply Et' in Et; [|exact I]. destruct (E_end _ _ _ T h I Et) as [Q|Q]; [now left|elim (no_cause x h Ecb Q)].
  - intros h1 h2 v E I D. apply (E_abort _ _ _ T h1 h2 v E I). destruct (Nat.eq_dec v u) as [->|N]; [exact Du|]. now apply (Dv v).
  - apply (E_once _ _ _ T).
Qed.

(** [remove_task]. *)
Lemma remove_cases x u h y : remove_task (note x h) u = Some y ->
  exists l, (y = QSt (x_k x) (x_main x) l (x_excs x) (x_fin x) (x_done x) (x_flag x) (x_reg x) (x_timer x) (x_cur x) (x_cb x) (x_loop x) (x_esc x) (h :: x_hist x)) \/
    (x_reg x = false /\ y = QSt (x_k x) (x_main x) l (x_excs x) (x_fin x) (x_done x) true false (x_timer x) (x_cur x) (x_cb x) (x_loop x) (x_esc x) (h :: x_hist x)) \/
    (x_reg x = true /\ y = QSt (x_k x) (x_main x) l (x_excs x) (x_fin x) true true false (x_timer x) false (x_cb x) (x_loop x) (x_esc x)
       (HComplete (exception_of (x_excs x)) :: h :: x_hist x)).
Proof.
  unfold remove_task. destruct (existsb _ _); [|discriminate]. change (x_tasks (note x h)) with (x_tasks x).
  set (l := filter (fun v => negb (Nat.eqb v u)) (x_tasks x)). intro E. exists l. destruct l as [|w l0].
  - unfold done_set in E. change (x_reg _) with (x_reg x) in E. destruct (x_reg x) eqn:Er; injection E as <-; auto.
  - injection E as <-. now left.
Qed.
Lemma wi_remove x u y : TI x -> WI x -> x_esc x = false -> x_cb x = Some (BRemove u) -> remove_task (note x (HEnd u (awaited (x_k x) u))) u = Some y ->
  WI (set_cb y (Some (BCheck u))).
Proof.
  intros M [T _] Es Ecb E. set (h := HEnd u (awaited (x_k x) u)) in *. destruct (Q_cb x M _ Ecb) as [Ru Cl].
  assert (Pd : pend x = []) by (unfold pend; now rewrite Ecb). rewrite Pd in T. pose proof (E_exc _ _ _ T) as Ex. rewrite app_nil_r in Ex.
  assert (Nc : forall a, ~ cause x a) by (intros a (v & Q & _); congruence).
  assert (Nd : ~ due (x_k x) u) by (destruct Cl as (a & rest & Ctl); apply (due_started _ _ _ _ _ (Q_k x M) Ctl)).
  destruct (remove_cases x u h y E) as (l & Y). set (x' := set_cb y (Some (BCheck u))).
  assert (F : x_k x' = x_k x /\ x_main x' = x_main x /\ x_excs x' = x_excs x /\ x_fin x' = x_fin x /\ x_loop x' = x_loop x /\ x_esc x' = x_esc x /\ x_cb x' = Some (BCheck u)).
  { unfold x'. destruct Y as [->|[(_ & ->)|(_ & ->)]]; repeat split; reflexivity. }
  destruct F as (F1 & F2 & F3 & F4 & F5 & F6 & F7).
  assert (Hh : x_hist x' = h :: x_hist x \/ (x_hist x' = HComplete (exception_of (x_excs x)) :: h :: x_hist x /\ x_reg x = true)).
  { unfold x'. destruct Y as [->|[(_ & ->)|(Q & ->)]]; auto. }
  assert (Pd' : pend x' = failure_of x h).
  { unfold pend. rewrite F7, F1. apply failure_same. intros v aw _. split; [now rewrite F1|rewrite F2; tauto]. }
  assert (Fs : forall l, failures x' l = failures x l) by (intro l0; apply failures_same; intros; split; [now rewrite F1|rewrite F2; tauto]).
  assert (Es' : forall a, ends_test x' a <-> ends_test x a) by (intro a; apply ends_same; intros; split; [now rewrite F1|rewrite F2; tauto]).
  clearbody x'. clear Y E.
  assert (In1 : forall a, In a (x_hist x') -> (exists r, a = HComplete r) \/ a = h \/ In a (x_hist x)).
  { intros a I. destruct Hh as [Q|[Q _]]; rewrite Q in I; [destruct I as [<-|I]; auto|]. destruct I as [<-|[<-|I]]; eauto. }
  assert (In2 : forall a, a = h \/ In a (x_hist x) -> In a (x_hist x')).
  { intros a I. destruct Hh as [Q|[Q _]]; rewrite Q; cbn; destruct I; auto. }
  assert (Rg : forall v, registered x' v <-> registered x v).
  { intro v. unfold registered. split; [|auto]. intro I. destruct (In1 _ I) as [[r Q]|[Q|Q]]; [discriminate|discriminate|exact Q]. }
  split.
  2: { intros v Q. rewrite F7 in Q. injection Q as <-. rewrite F1. apply In2. now left. }
  rewrite Pd'. constructor.
  - intros v aw I. rewrite Rg, F1, F7. destruct (In1 _ I) as [[r Q]|[Q|Q]]; [discriminate| |].
    + injection Q as -> _. repeat split; auto. discriminate.
    + destruct (E_ended _ _ _ T v aw Q) as (R & D & _). repeat split; auto. discriminate.
  - intros v R. apply Rg in R. rewrite F1. destruct (E_all _ _ _ T v R) as [D|[D|[aw D]]]; [now left| |].
    + rewrite Ecb in D. injection D as <-. right. right. exists (awaited (x_k x) u). apply In2. now left.
    + right. right. exists aw. apply In2. now right.
  - rewrite F3, Ex, Fs. destruct Hh as [Q|[Q _]]; rewrite Q; rewrite !failures_cons; [reflexivity|]. cbn [failure_of]. now rewrite app_nil_r.
  - intros h1 r h2 E. assert (Old : forall g1, x_hist x = g1 ++ HComplete r :: h2 ->
      r = exception_of (failures x' h2) \/ exists v aw h3, h2 = HEnd v aw :: h3 /\ r = exception_of (failures x' h3)).
    { intros g1 Q. destruct (E_rep _ _ _ T g1 r h2 Q) as [Z|(v & aw & h3 & Z1 & Z2)]; [left; now rewrite Fs|right]. exists v, aw, h3. now rewrite Fs. }
    destruct Hh as [Q|[Q _]]; rewrite Q in E.
    + destruct h1 as [|a h1]; [discriminate|]. injection E as _ E. now apply (Old h1).
    + destruct h1 as [|a [|b h1]]; [|discriminate|].
      * injection E as <- <-. right. exists u, (awaited (x_k x) u), (x_hist x). split; [reflexivity|]. now rewrite Fs, Ex.
      * injection E as _ _ E. now apply (Old h1).
  - rewrite F4. intro F. destruct (E_fin _ _ _ T F) as (a & I & Et). exists a. split; [apply In2; now right|]. now apply Es'.
  - intros a I Et. rewrite F4. destruct (In1 _ I) as [[r Q]|[Q|Q]]; [subst a; destruct Et| |].
    + right. exists u. rewrite F1. auto.
    + apply Es' in Et. destruct (E_end _ _ _ T a Q Et) as [Z|Z]; [now left|elim (Nc a Z)].
  - intros h1 h2 v E I D. rewrite F5, F6, F1 in *.
    assert (Old : forall g1, x_hist x = g1 ++ HAbort :: h2 -> (forall b, In b g1 -> In b h1) ->
      In (HNow v) h1 \/ (exists todo d, x_loop x = Some (todo, d) /\ In v todo) \/ x_esc x = true).
    { intros g1 Q Sub. destruct (E_abort _ _ _ T g1 h2 v Q I D) as [Z|Z]; auto. }
    destruct Hh as [Q|[Q _]]; rewrite Q in E.
    + destruct h1 as [|a h1]; [discriminate|]. injection E as _ E. apply (Old h1 E). intros; now right.
    + destruct h1 as [|a [|b h1]]; [discriminate|discriminate|]. injection E as _ _ E. apply (Old h1 E). intros; right; now right.
  - rewrite F4. intros F I. destruct (In1 _ I) as [[r Q]|[Q|Q]]; [discriminate|discriminate|]. now apply (E_once _ _ _ T F).
Qed.

Theorem wi_step x l x' r : TI x -> WI x -> sim_ok x l -> qstep x l = Some (x', r) -> WI x'.
Proof.
  intros M W So St. destruct (qstep_move x l x' r M St) as (Ha & Es & Mv). assert (W' := W). destruct W' as [T Ck].
  destruct Mv as [kl k r0 C S|t tm Ec Em F|u C F Cu|u C Cu|Ec Tm L|m Ec L|u y Ecb E|u Ecb Nm C|u Ecb C|u us d k r0 Ecb L Lo C N|u us d k e Ecb L Lo C|d Ecb L Lo|u a rest c k r0 Ecb L Ec Nt Ev R S].
  - assert (Pr : prime_ok kl) by (destruct kl; try exact Logic.I; exact So). pose proof (user_kf x kl k r0 M C S Pr) as F.
    apply andb_true_iff in C. destruct C as [C _]. destruct (can_cb x kl C) as [Ecb _]. destruct (inv_step _ _ _ _ (Q_k x M) Pr S) as (_ & Sb & _).
    apply (wi_grown x); auto. constructor; fields; auto; [|apply (F_due x k F)]. intros u. now apply (kernel_grown x k).
  - pose proof (idle_cb x M Ec) as Ecb. destruct (begin_facts x t tm F) as (k & -> & ->). cbn [fst]. destruct (begin_kernel x t M Ha F) as (B1 & B2 & B3 & B4 & B5).
    apply te_register; auto. apply (Q_none x M Em).
  - destruct (control_cb x C) as [Ecb _]. destruct (add_facts (x_k x) u task_cb F) as (F1 & F2 & F3 & _). unfold add_task. apply te_register; auto.
    + now apply mode_cur.
    + unfold done, state_of. now rewrite F3.
  - exact W.
  - pose proof (idle_cb x M Ec) as Ecb. assert (M1 : TI (stop_timer x)) by (apply ti_timer; auto).
    assert (W1 : WI (stop_timer x)) by (apply (wi_grown x); auto; now apply grown_same). destruct W1 as [T1 _]. rewrite no_pend in T1 by exact Ecb.
    pose proof (te_note (stop_timer x) HTimeout M1 T1 Ecb Logic.I) as T2. apply (te_abort _ _ (eq HTimeout)); fields; auto.
    + apply ti_note; [exact M1|exact Logic.I].
    + intros u Q. change (x_cb x = Some (BRemove u)) in Q. congruence.
    + apply T2; discriminate.
    + exists HTimeout. split; [now left|exact Logic.I].
  - pose proof (idle_cb x M Ec) as Ecb. rewrite no_pend in T by exact Ecb.
    pose proof (te_note x (HCancel m) M T Ecb Logic.I) as T2. apply (te_abort _ _ (eq (HCancel m))); fields; auto.
    + apply ti_note; [exact M|exact Logic.I].
    + intros u Q. rewrite Ecb in Q. discriminate.
    + apply T2; discriminate.
    + exists (HCancel m). split; [now left|exact Logic.I].
  - now apply (wi_remove x u y).
  - (* the Task did not fail *)
    assert (P0 : pend x = []).
    { unfold pend. rewrite Ecb. cbn [failure_of]. assert (Mb : mainb x u = false) by (destruct (mainb x u) eqn:Q; [apply mainb_eq in Q; contradiction|reflexivity]).
      rewrite Mb. destruct C as [->|C]; [reflexivity|]. rewrite C. now destruct (negb _). }
    rewrite P0 in T. split; [|discriminate]. change (pend (set_cb x None)) with (@nil failure).
    apply (te_weaken _ _ (cause x)).
    { intros h _ Et (v & Q & ->). rewrite Ecb in Q. injection Q as <-. exfalso. destruct Et as [Et|[E1 E2]]; [contradiction|]. cbn [set_cb x_k] in E2.
      destruct C as [C|C]; [congruence|contradiction]. }
    destruct T as [T1 T2 T3 T4 T5 T6 T7 T8]. constructor; fields; unfold registered in *; fields; auto.
    + intros v aw I. destruct (T1 v aw I) as (R & D & _). repeat split; auto. discriminate.
    + intros v R. destruct (T2 v R) as [D|[D|D]]; auto. congruence.
  - apply (te_abort _ _ (cause x)); auto.
    + intros v Q. congruence.
    + replace (opt (verdict (x_k x) u)) with (pend x); [exact T|]. unfold pend, verdict. rewrite Ecb. cbn [failure_of].
      assert (B : mainb x u || negb (awaited (x_k x) u) = true) by (destruct C as [C|[C _]]; [apply mainb_eq in C; now rewrite C|rewrite C; apply orb_true_r]).
      rewrite B. destruct (error_of (x_k x) u) as [[ | | | | |n]|]; try reflexivity. destruct n; reflexivity.
    + exists (HEnd u (awaited (x_k x) u)). split; [now apply Ck|]. exact C.
  - pose proof (now_kf x _ _ u k r0 M Ha Ecb Lo L C) as F. pose proof (now_step x _ _ u 0 M Ha Lo L) as S. rewrite C in S.
    destruct (inv_step _ (LCancelNow u 0) _ _ (Q_k x M) Logic.I S) as (_ & Sb & _).
    apply (wi_grown x); auto. constructor; fields; auto.
    + right. exists u. split; [reflexivity|]. intros todo d0 Q. rewrite Lo in Q. injection Q as <- <-. eauto.
    + right. right. left. intro Q. apply (f_equal (@length _)) in Q. cbn in Q. lia.
    + intro v. now apply (kernel_grown x k).
    + apply (F_due x k F).
  - pose proof (now_kf x _ _ u k _ M Ha Ecb Lo L C) as F. pose proof (now_step x _ _ u 0 M Ha Lo L) as S. rewrite C in S.
    destruct (inv_step _ (LCancelNow u 0) _ _ (Q_k x M) Logic.I S) as (_ & Sb & _).
    apply (wi_grown x); auto. constructor; fields; auto.
    + intro v. now apply (kernel_grown x k).
    + apply (F_due x k F).
  - assert (Md := Q_mode x M Es). rewrite Lo in Md. unfold loop_step. change (x_flag (set_loop x None)) with (x_flag x).
    destruct (x_flag x) eqn:Fl; cbn [fst].
    + apply wi_complete; eauto.
      * destruct (x_done x); [|reflexivity]. destruct (x_fin x), (x_reg x); tauto.
      * intro Q. destruct (Q_none x M Q) as (_ & _ & Q3 & _). congruence.
    + apply (wi_grown x); auto. constructor; fields; auto.
      * right. right. right. eauto.
      * intros v _. split; [reflexivity|fields; tauto].
      * tauto.
  - now apply (wi_called x u a rest c k r0).
Qed.
Lemma qreach_wi ls x : qreach ls x -> TI x /\ WI x.
Proof.
  apply (qexec_ind2 sim_ok (fun x => TI x /\ WI x)); [|split; [apply qinit_ok|apply qinit_wi]].
  intros a l b r [M W] So St. split; [now apply (ti_step a l b r)|now apply (wi_step a l b r)].
Qed.

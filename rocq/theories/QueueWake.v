(** No wake-up is lost while Tasks inside [put] and [get] are not disturbed. *)
From Verif Require Import Base KernelModel KernelProofs KernelHist KernelLog KernelInv KernelTask KernelWake KernelLayer KernelSpec QueueModel
  QueueSpec QueueProofs.
From Coq Require Import Arith ZArith Permutation.

(** * The kernel steps which queues make *)
Lemma event_set_facts s ev u h : Inv s -> s_halt s = false -> In (h, u) (s_cbs s (TEvent ev)) ->
  (forall c, In c (s_cbs s (TEvent ev)) -> snd c = u) ->
  let s' := event_set s ev in
  Inv s' /\ (exists j, s_task s' u = with_sched (s_task s u) j None) /\ (forall v, v <> u -> s_task s' v = s_task s v) /\
  (forall e, e <> ev -> s_cbs s' (TEvent e) = s_cbs s (TEvent e)) /\ (forall e, e <> ev -> s_event s' e = s_event s e) /\
  s_ctl s' = s_ctl s /\ s_current s' = s_current s.
Proof.
  intros H Ha I Un. cbv zeta. split; [|split; [|split; [|split; [|split; [|split]]]]].
  - apply (inv_step s (LOp (OpSet ev)) _ RUnit); [exact H|exact Logic.I|]. unfold step. rewrite Ha. reflexivity.
  - unfold event_set. destruct (react_task (set_event s ev true) (TEvent ev) u) as [[N _]|[_ E]]; [|exact E].
    elim N. apply in_map_iff. exists (h, u). auto.
  - intros v Nv. unfold event_set. destruct (react_task (set_event s ev true) (TEvent ev) v) as [[_ E]|[I' _]]; [exact E|].
    apply in_map_iff in I'. destruct I' as (c & E & I'). elim Nv. rewrite <- E. apply Un, I'.
  - intros e N. unfold event_set. rewrite react_cbs. apply updt_other. congruence.
  - intros e N. unfold event_set. rewrite react_event. cbn. now apply upd_other.
  - unfold event_set. now rewrite react_ctl.
  - unfold event_set. now rewrite react_current.
Qed.

Definition registered (s : st) (tr : trig) (t : tid) : st :=
  log (set_cbs (set_task (set_next s (S (s_next s))) t (with_tcb (s_task s t) tr (s_next s))) tr [(s_next s, t)])
      (OBlock t tr (s_next s)).
Lemma register_event s t ev : s_event s ev = false -> s_cbs s (TEvent ev) = [] ->
  register s (TEvent ev) t true = (registered s (TEvent ev) t, false).
Proof.
  intros Ev Cb. unfold register, registered. cbn [s_cbs set_task set_next]. rewrite Cb. cbn [app prime].
  cbn [s_event log set_cbs set_task set_next]. rewrite Ev. reflexivity.
Qed.
Lemma yielded_event s t ev : k_must (s_task s t) = 0 -> s_event s ev = false -> s_cbs s (TEvent ev) = [] ->
  coro_yielded s t (Some (TEvent ev)) true =
  set_current (registered (set_task s t (with_state (s_task s t) Pending)) (TEvent ev) t) None.
Proof. intros M Ev Cb. unfold coro_yielded. rewrite M. cbn [Nat.eqb negb]. rewrite register_event by assumption. reflexivity. Qed.
Lemma registered_facts s tr t : let s' := registered s tr t in
  k_state (s_task s' t) = k_state (s_task s t) /\ k_must (s_task s' t) = k_must (s_task s t) /\
  (forall v, v <> t -> s_task s' v = s_task s v) /\
  s_cbs s' tr = [(s_next s, t)] /\ (forall x, x <> tr -> s_cbs s' x = s_cbs s x) /\
  s_event s' = s_event s /\ s_ctl s' = s_ctl s /\ s_halt s' = s_halt s.
Proof.
  cbv zeta. unfold registered. cbn. rewrite upd_same. repeat split; auto.
  - intros. now apply upd_other.
  - apply updt_same.
  - intros. now apply updt_other.
Qed.
Lemma await_event_raw s t rest ev : k_must (s_task s t) = 0 -> s_event s ev = false -> s_cbs s (TEvent ev) = [] ->
  let s' := fst (await_trigger s rest t (TEvent ev) true) in
  state_of s' t = Pending /\ k_must (s_task s' t) = 0 /\ (forall v, v <> t -> s_task s' v = s_task s v) /\
  (exists h, s_cbs s' (TEvent ev) = [(h, t)]) /\ (forall e, e <> ev -> s_cbs s' (TEvent e) = s_cbs s (TEvent e)) /\
  s_event s' = s_event s /\ s_ctl s' = rest /\ s_halt s' = s_halt s.
Proof.
  intros M Ev Cb. cbv zeta. unfold await_trigger. cbn [await_check fst].
  set (s1 := set_ctl (set_task s t (with_wait (s_task s t) WTrig)) rest).
  assert (T1 : s_task s1 t = with_wait (s_task s t) WTrig) by (unfold s1; cbn; apply upd_same).
  assert (U1 : forall v, v <> t -> s_task s1 v = s_task s v) by (intros; unfold s1; cbn; now apply upd_other).
  assert (C1 : s_cbs s1 = s_cbs s) by reflexivity. assert (E1 : s_event s1 = s_event s) by reflexivity.
  assert (R1 : s_ctl s1 = rest) by reflexivity. assert (H1 : s_halt s1 = s_halt s) by reflexivity.
  clearbody s1. rewrite yielded_event by (rewrite ?T1, ?C1, ?E1; assumption).
  set (s2 := set_task s1 t (with_state (s_task s1 t) Pending)).
  assert (T2 : s_task s2 t = with_state (s_task s1 t) Pending) by (unfold s2; cbn; apply upd_same).
  assert (U2 : forall v, v <> t -> s_task s2 v = s_task s v) by (intros v N; unfold s2; cbn; rewrite upd_other by assumption; now apply U1).
  assert (C2 : s_cbs s2 = s_cbs s) by (rewrite <- C1; reflexivity). assert (E2 : s_event s2 = s_event s) by (rewrite <- E1; reflexivity).
  assert (R2 : s_ctl s2 = rest) by (rewrite <- R1; reflexivity). assert (H2 : s_halt s2 = s_halt s) by (rewrite <- H1; reflexivity).
  clearbody s2. destruct (registered_facts s2 (TEvent ev) t) as (F1 & F2 & F3 & F4 & F5 & F6 & F7 & F8).
  set (s3 := registered s2 (TEvent ev) t) in *. clearbody s3. unfold state_of. cbn [s_task s_cbs s_event s_ctl s_halt set_current].
  rewrite F1, F2, T2, T1, F6, F7, F8, E2, R2, H2. cbn. repeat split; auto.
  - intros v N. rewrite F3, U2; auto.
  - eauto.
  - intros e N. rewrite F5, C2; congruence.
Qed.
Lemma await_event_facts s t rest ev : Inv s -> cur_ok s -> s_halt s = false -> s_ctl s = FRun t :: rest -> k_must (s_task s t) = 0 ->
  s_event s ev = false -> s_cbs s (TEvent ev) = [] ->
  let s' := fst (await_trigger s rest t (TEvent ev) true) in
  Inv s' /\ cur_ok s' /\ state_of s' t = Pending /\ k_must (s_task s' t) = 0 /\ (forall v, v <> t -> s_task s' v = s_task s v) /\
  (exists h, s_cbs s' (TEvent ev) = [(h, t)]) /\ (forall e, e <> ev -> s_cbs s' (TEvent e) = s_cbs s (TEvent e)) /\
  s_event s' = s_event s /\ s_ctl s' = rest /\ s_halt s' = false.
Proof.
  intros H C Ha Ec M Ev Cb. cbv zeta.
  assert (St : step s (LAwait (TEvent ev) true) = Some (await_trigger s rest t (TEvent ev) true))
    by (unfold step; rewrite Ha, Ec; reflexivity).
  destruct (await_trigger s rest t (TEvent ev) true) as [s' r] eqn:E. cbn [fst].
  split; [eapply inv_step; [exact H| |exact St]; reflexivity|]. split; [eapply step_cur; [exact C|exact St]|].
  pose proof (await_event_raw s t rest ev M Ev Cb) as R. cbv zeta in R. rewrite E in R. cbn [fst] in R. rewrite Ha in R. exact R.
Qed.

Lemma pop_current s s' r t : step s LPop = Some (s', r) -> s_ctl s' = [FRun t] -> s_current s' = Some t.
Proof.
  unfold step. destruct (s_halt s); [discriminate|]. destruct (s_ctl s) as [|] eqn:Ec; [|discriminate].
  destruct (s_queue s) as [|q rest]; [discriminate|]. intros [= <- <-]. destruct (q_cancelled q); [cbn; rewrite Ec; discriminate|].
  unfold resume. set (s1 := log _ _). set (k := s_task _ _). destruct (k_exc k) as [e|].
  - destruct (k_begun k); [cbn; rewrite Ec; intros [= <-]; reflexivity|].
    unfold coro_raised. destruct e; try destruct (Nat.eqb _ _); cbn; rewrite Ec; discriminate.
  - destruct (k_wait k); cbn; rewrite Ec; intros [= <-]; reflexivity.
Qed.
Lemma kill_done s u s' r : Inv s -> step s (LOp (OpKill u)) = Some (s', r) -> state_of s u = Pending -> done s' u = true.
Proof.
  intros H St P. unfold step in St. destruct (s_halt s); [discriminate|]. injection St as St. cbn [do_op] in St.
  unfold kill in St. rewrite P in St. destruct (j_cancel_tcb [] s u) as (s1 & E1 & _); auto.
  rewrite E1 in St. injection St as <- <-. unfold done, state_of. cbn. now rewrite upd_same.
Qed.

(** * The invariant *)
Lemma private_inj m n : private m = private n -> m = n.
Proof. unfold private. lia. Qed.
Lemma private_odd n : Nat.even (private n) = false.
Proof. unfold private. rewrite Nat.even_succ, <- Nat.negb_even, Nat.even_add. destruct (Nat.even n); reflexivity. Qed.

Inductive side := SGet | SPut.
Section Q.
Context {A : Type} (lt : A -> A -> bool).
Implicit Types (x : qst A) (q : queue A) (n : nat) (sd : side).

Definition where_ (p : pending A) : side * nat := match p with InPut n _ => (SPut, n) | InGet n => (SGet, n) end.
Definition wl (x : qst A) n sd : list (nat * tid) := match sd with SGet => q_getters (x_q x n) | SPut => q_putters (x_q x n) end.
Definition room (q : queue A) : nat := Z.to_nat (q_max q - Z.of_nat (length (q_items q))).
Definition av (x : qst A) n sd : nat := match sd with SGet => length (q_items (x_q x n)) | SPut => room (x_q x n) end.

Definition entry_live (x : qst A) n sd ev u : Prop :=
  state_of (x_k x) u = Pending /\ (exists h, In (h, u) (s_cbs (x_k x) (TEvent ev))) /\
  (forall c, In c (s_cbs (x_k x) (TEvent ev)) -> snd c = u) /\
  exists p, x_pend x u = Some p /\ where_ p = (sd, n).
Definition woken (x : qst A) u : Prop :=
  state_of (x_k x) u = Scheduled \/
  (state_of (x_k x) u = Running /\ s_ctl (x_k x) = [FRun u] /\ s_current (x_k x) = Some u).
Definition pend_ok (x : qst A) u p : Prop :=
  done (x_k x) u = true \/
  (k_must (s_task (x_k x) u) = 0 /\
   ((state_of (x_k x) u = Pending /\ exists ev, In (ev, u) (wl x (snd (where_ p)) (fst (where_ p)))) \/
    (k_exc (s_task (x_k x) u) = None /\ woken x u))).

Record QB (x : qst A) : Prop := {
  qb_k : Inv (x_k x);
  qb_c : cur_ok (x_k x);
  qb_a : forall u p, x_pend x u = Some p -> pend_ok x u p;
  qb_b : forall n sd ev u, In (ev, u) (wl x n sd) ->
    (exists m, m < x_ev x /\ ev = private m) /\ (done (x_k x) u = true \/ entry_live x n sd ev u);
  qb_n : forall n sd, NoDup (map fst (wl x n sd));
  qb_f : forall m, x_ev x <= m -> s_event (x_k x) (private m) = false /\ s_cbs (x_k x) (TEvent (private m)) = [];
  qb_m : forall n, (q_max (x_q x n) <= 0)%Z -> q_putters (x_q x n) = [] }.

(** Up to [k] more available than Tasks woken for it. *)
Definition D (x : qst A) n sd k : Prop :=
  (forall ev u, In (ev, u) (wl x n sd) -> done (x_k x) u = true) \/
  exists W, NoDup W /\ av x n sd <= length W + k /\
    forall u, In u W -> (exists p, x_pend x u = Some p /\ where_ p = (sd, n)) /\
      (state_of (x_k x) u = Scheduled \/ state_of (x_k x) u = Running).
Lemma D_weaken x n sd k k' : k <= k' -> D x n sd k -> D x n sd k'.
Proof. intros L [H|(W & N & H & G)]; [now left|]. right. exists W. split; [exact N|]. split; [lia|exact G]. Qed.

Lemma qi_init kinds : QB (qinit kinds) /\ forall n sd, D (qinit kinds) n sd 0.
Proof.
  split.
  - constructor; cbn; auto; try (intros; discriminate).
    + apply inv_init.
    + now left.
    + intros n [] ev u [].
    + intros n []; constructor.
  - intros n sd. left. destruct sd; intros ev u [].
Qed.

(** * Steps of user code *)
Lemma unmentioned l m : user_label l = true -> ~ mentions (private m) l.
Proof.
  intros U [ -> |[ -> |(ok & ->)]]; cbn [user_label] in U; now rewrite private_odd in U.
Qed.
Definition with_k x k : qst A := QSt k (x_q x) (x_pend x) (x_ev x) (x_hist x).

Lemma user_entry x kl k r n sd ev u :
  QB x -> undisturbed_q x (XUser kl) -> user_label kl = true -> step (x_k x) kl = Some (k, r) ->
  (exists m, ev = private m) -> entry_live x n sd ev u -> done k u = true \/ entry_live (with_k x k) n sd ev u.
Proof.
  intros B [Sim Ud] Ul St (m & ->) (P & (h & I) & Un & p & Ep & Ew). pose proof (qb_k _ B) as K.
  destruct (inv_step _ _ _ _ K Sim St) as (K' & Sb & _).
  assert (Ins : inside x u p) by (split; [exact Ep|unfold done; now rewrite P]).
  destruct (Ud u p Ins) as [Nc Nk].
  destruct (step_cbs _ _ _ _ _ _ _ K St I) as [I'|[Wk|Hi]].
  - right. repeat split; cbn [x_k x_pend with_k].
    + apply (L_cpend _ _ (J_loc _ _ K') _ _ _ I').
    + eauto.
    + intros c Ic. apply Un. destruct (step_eframe (private m) _ _ _ _ (unmentioned _ _ Ul) St) as [_ F]. now apply F.
    + eauto.
  - cbn in Wk. subst kl. cbn [user_label] in Ul. now rewrite private_odd in Ul.
  - destruct Hi as [ -> |(c & [ -> | -> ])]; [|now elim (proj1 (Nc c))|now elim (proj2 (Nc c))].
    left. eapply kill_done; [exact K|exact St|exact P].
Qed.
Lemma user_woken x kl k r u p :
  QB x -> undisturbed_q x (XUser kl) -> user_control x = true -> step (x_k x) kl = Some (k, r) ->
  inside x u p -> k_must (s_task (x_k x) u) = 0 -> k_exc (s_task (x_k x) u) = None -> woken x u ->
  k_must (s_task k u) = 0 /\ k_exc (s_task k u) = None /\ woken (with_k x k) u.
Proof.
  intros B [Sim Ud] Uc St Ins M Ex Wo. pose proof (qb_k _ B) as K. destruct (inv_step _ _ _ _ K Sim St) as (K' & _ & _).
  destruct (Ud u p Ins) as [Nc Nk].
  assert (Sc : state_of (x_k x) u = Scheduled).
  { destruct Wo as [S|(_ & Ec & _)]; [exact S|]. unfold user_control in Uc. rewrite Ec in Uc.
    destruct Ins as [Ep _]. rewrite Ep in Uc. discriminate. }
  clear Wo. unfold state_of in Sc.
  assert (T := step_tstep _ _ _ _ u K St). unfold woken, state_of; cbn [x_k with_k].
  remember (s_task (x_k x) u) as ku eqn:Eku. remember (s_task k u) as kn eqn:Ekn.
  destruct T; subst kl || idtac; cbn [k_must k_exc k_state with_must with_dcbs with_running with_sched with_exc] in *;
    try (rewrite Sc in *; discriminate);
    try (match goal with H : _ \/ _ |- _ => destruct H as [H|H]; rewrite Sc in H; discriminate end).
  - auto.
  - rewrite M. auto.
  - auto.
  - elim (proj1 (Nc m)). reflexivity.
  - elim (Nk eq_refl). unfold state_of. now rewrite <- Eku.
  - split; [exact M|]. split; [exact Ex|]. right. split; [reflexivity|].
    assert (R : In u (runners (s_ctl k))).
    { apply (L_runs _ _ (J_loc _ _ K')); [tauto|]. unfold state_of. now rewrite <- Ekn. }
    pose proof (pop_ctl _ _ _ _ St R) as Ec. split; [exact Ec|]. eapply pop_current; [exact St|exact Ec].
  - congruence.
  - elim (proj2 (Nc m)). reflexivity.
  - elim (proj2 (Nc m)). reflexivity.
Qed.
Lemma user_pend_must x kl k r u :
  Inv (x_k x) -> step (x_k x) kl = Some (k, r) -> state_of (x_k x) u = Pending -> state_of k u = Pending ->
  k_must (s_task (x_k x) u) = 0 -> k_must (s_task k u) = 0.
Proof.
  intros K St P P' M. assert (T := step_tstep _ _ _ _ u K St). unfold state_of in *.
  remember (s_task (x_k x) u) as ku. remember (s_task k u) as kn.
  destruct T; cbn in *; auto; try discriminate; try congruence. now rewrite M.
Qed.
Lemma user_step x kl k r :
  QB x -> (forall n sd, D x n sd 0) -> undisturbed_q x (XUser kl) -> user_control x = true -> user_label kl = true ->
  step (x_k x) kl = Some (k, r) -> QB (with_k x k) /\ forall n sd, D (with_k x k) n sd 0.
Proof.
  intros B Dx Ud Uc Ul St. pose proof (qb_k _ B) as K. destruct (inv_step _ _ _ _ K (proj1 Ud) St) as (K' & Sb & _).
  assert (En : forall n sd ev u, In (ev, u) (wl x n sd) -> done k u = true \/ entry_live (with_k x k) n sd ev u).
  { intros n sd ev u I. destruct (qb_b _ B _ _ _ _ I) as [(m & _ & Em) [Dn|Li]].
    - left. eapply stable_done; eauto.
    - eapply user_entry; eauto. }
  split.
  - constructor; cbn [x_k with_k x_q x_pend x_ev x_hist].
    + exact K'.
    + eapply step_cur; [apply (qb_c _ B)|exact St].
    + intros u p Ep. destruct (done (x_k x) u) eqn:Du; [left; eapply stable_done; eauto|].
      destruct (qb_a _ B u p Ep) as [Dn|(M & [(P & ev & I)|(Ex & Wo)])]; [congruence| |].
      * destruct (En _ _ _ _ I) as [Dn|Li]; [now left|]. right. destruct Li as (P' & _). split.
        -- eapply user_pend_must; eauto.
        -- left. split; [exact P'|]. exists ev. exact I.
      * right. destruct (user_woken x kl k r u p B Ud Uc St (conj Ep Du) M Ex Wo) as (M' & Ex' & Wo'). auto.
    + intros n sd ev u I. destruct (qb_b _ B n sd ev u I) as [Fr _]. split; [exact Fr|]. now apply En.
    + apply (qb_n _ B).
    + intros m L. destruct (qb_f _ B m L) as [F1 F2].
      destruct (step_eframe (private m) _ _ _ _ (unmentioned _ _ Ul) St) as [E1 E2]. split; [congruence|].
      destruct (s_cbs k (TEvent (private m))) as [|c l] eqn:Ec; [reflexivity|].
      assert (I := E2 c (or_introl eq_refl)). rewrite F2 in I. destruct I.
    + apply (qb_m _ B).
  - intros n sd. destruct (Dx n sd) as [H|(W & N & L & G)].
    + left. intros ev u I. eapply stable_done; [exact Sb|]. eapply H. exact I.
    + right. exists W. split; [exact N|]. split; [exact L|]. intros u I. destruct (G u I) as ((p & Ep & Ew) & S).
      split; [eauto|].
      assert (Du : done (x_k x) u = false) by (unfold done; destruct S as [-> | ->]; reflexivity).
      destruct (qb_a _ B u p Ep) as [Dn|(M & [(P & _)|(Ex & Wo)])]; [congruence|destruct S; congruence|].
      destruct (user_woken x kl k r u p B Ud Uc St (conj Ep Du) M Ex Wo) as (_ & _ & [Y|(Y & _)]); [now left|now right].
Qed.

(** * The operations *)
Lemma wakeup_spec k ws k' ws' : wakeup_next k ws = (k', ws') ->
  (k' = k /\ ws' = [] /\ forall e, In e ws -> done k (snd e) = true) \/
  exists pre ev u, ws = pre ++ (ev, u) :: ws' /\ (forall e, In e pre -> done k (snd e) = true) /\ done k u = false /\ k' = event_set k ev.
Proof.
  induction ws as [|[ev u] ws IH]; cbn.
  - intros [= <- <-]. left. split; [reflexivity|]. split; [reflexivity|]. intros e [].
  - destruct (done k u) eqn:E.
    + intro H. destruct (IH H) as [(-> & -> & F)|(pre & ev' & u' & -> & F & Du & ->)].
      * left. split; [reflexivity|]. split; [reflexivity|]. intros e [<-|I]; auto.
      * right. exists ((ev, u) :: pre), ev', u'. split; [reflexivity|]. split; [|auto]. intros e [<-|I]; auto.
    + intros [= <- <-]. right. exists [], ev, u. split; [reflexivity|]. split; [intros e []|auto].
Qed.

Lemma one_event x ev ev' u h h' : Inv (x_k x) -> In (h, u) (s_cbs (x_k x) (TEvent ev)) -> In (h', u) (s_cbs (x_k x) (TEvent ev')) -> ev = ev'.
Proof.
  intros K I I'. destruct (L_cpend _ _ (J_loc _ _ K) _ _ _ I) as (_ & _ & E), (L_cpend _ _ (J_loc _ _ K) _ _ _ I') as (_ & _ & E').
  congruence.
Qed.
Lemma nodup_mid {X Y} (pre post : list (X * Y)) a b c : NoDup (map fst (pre ++ (a, b) :: post)) -> ~ In (a, c) post.
Proof.
  intros N I. rewrite map_app in N. cbn in N. apply NoDup_remove_2 in N. apply N, in_or_app. right. apply in_map_iff. exists (a, c). auto.
Qed.
Lemma nodup_tail {X Y} (pre post : list (X * Y)) a : NoDup (map fst (pre ++ a :: post)) -> NoDup (map fst post).
Proof.
  rewrite map_app. cbn. intro N. apply NoDup_remove_1 in N. induction (map fst pre); cbn in N; [exact N|]. inversion N; auto.
Qed.
Lemma NoDup_app_snoc (l : list nat) a : NoDup l -> ~ In a l -> NoDup (l ++ [a]).
Proof.
  intros N I. apply (Permutation_NoDup (Permutation_cons_append l a)). now constructor.
Qed.
Lemma where_dec (a b : side * nat) : {a = b} + {a <> b}.
Proof. decide equality; [apply Nat.eq_dec|decide equality]. Qed.

Lemma wake_ok x x' n sd k ws :
  QB x -> s_halt (x_k x) = false -> wakeup_next (x_k x) (wl x n sd) = (k, ws) ->
  x_k x' = k -> x_pend x' = x_pend x -> x_ev x' = x_ev x -> (forall m, q_max (x_q x' m) = q_max (x_q x m)) ->
  wl x' n sd = ws -> (forall n' sd', (sd', n') <> (sd, n) -> wl x' n' sd' = wl x n' sd') ->
  QB x' /\
  (forall n' sd' j j', (sd', n') <> (sd, n) -> av x' n' sd' + j <= av x n' sd' + j' -> D x n' sd' j -> D x' n' sd' j') /\
  (av x' n sd <= S (av x n sd) -> D x n sd 0 -> D x' n sd 0).
Proof.
  intros B Ha Wk Ek Ep Ee Em W1 W2. pose proof (qb_k _ B) as K.
  destruct (wakeup_spec _ _ _ _ Wk) as [(-> & -> & F)|(pre & ev & u & El & F & Du & ->)].
  - assert (Sub : forall n' sd' e, In e (wl x' n' sd') -> In e (wl x n' sd')).
    { intros n' sd' e I. destruct (where_dec (sd', n') (sd, n)) as [E|N].
      - injection E as -> ->. rewrite W1 in I. destruct I.
      - now rewrite W2 in I. }
    split; [|split].
    + constructor; rewrite ?Ek, ?Ep, ?Ee.
      * exact K.
      * apply (qb_c _ B).
      * intros u p Eq. unfold pend_ok, woken. rewrite Ek. destruct (qb_a _ B u p Eq) as [Dn|(M & [(P & ev & I)|Y])]; [now left| |].
        -- right. split; [exact M|]. left. split; [exact P|]. destruct (where_dec (where_ p) (sd, n)) as [E|N].
           ++ rewrite E in I. cbn in I. specialize (F _ I). cbn in F. unfold done in F. rewrite P in F. discriminate.
           ++ exists ev. rewrite W2; [exact I|]. now destruct (where_ p).
        -- right. auto.
      * intros n' sd' ev u I. unfold entry_live. rewrite Ek, Ep. apply (qb_b _ B), Sub, I.
      * intros n' sd'. destruct (where_dec (sd', n') (sd, n)) as [E|N]; [injection E as -> ->; rewrite W1; constructor|].
        rewrite W2 by assumption. apply (qb_n _ B).
      * apply (qb_f _ B).
      * intros m L. rewrite Em in L. pose proof (qb_m _ B m L) as Q.
        destruct (q_putters (x_q x' m)) as [|e l] eqn:El; [reflexivity|].
        assert (I : In e (wl x m SPut)) by (apply Sub; cbn; rewrite El; now left). cbn in I. rewrite Q in I. destruct I.
    + intros n' sd' j j' N L [H|(W & Nd & Lw & G)].
      * left. intros ev u I. rewrite Ek. apply (H ev). now apply Sub.
      * right. exists W. split; [exact Nd|]. split; [lia|]. intros u I. rewrite Ek, Ep. auto.
    + intros L H. left. rewrite W1. intros ev u [].
  - assert (Iu : In (ev, u) (wl x n sd)) by (rewrite El; apply in_or_app; right; now left).
    assert (Sub : forall n' sd' e, In e (wl x' n' sd') -> In e (wl x n' sd')).
    { intros n' sd' e I. destruct (where_dec (sd', n') (sd, n)) as [E|N].
      - injection E as -> ->. rewrite W1 in I. rewrite El. apply in_or_app. right. now right.
      - now rewrite W2 in I. }
    destruct (qb_b _ B _ _ _ _ Iu) as [(m0 & Lm & Em0) [Dn|Li]]; [congruence|].
    destruct Li as (Pu & (h & Ih) & Un & pu & Epu & Ewu).
    destruct (event_set_facts (x_k x) ev u h K Ha Ih Un) as (K' & (j0 & Tu) & To & Co & Eo & Ct & Cu).
    rewrite <- Ek in *. clear Ek.
    assert (Su : state_of (x_k x') u = Scheduled) by (unfold state_of; rewrite Tu; reflexivity).
    assert (So : forall v, v <> u -> state_of (x_k x') v = state_of (x_k x) v) by (intros v N; unfold state_of; now rewrite To).
    assert (Dn : forall v, done (x_k x) v = true -> done (x_k x') v = true).
    { intros v Dv. destruct (Nat.eq_dec v u) as [->|N]; [congruence|]. unfold done. now rewrite So. }
    split; [|split].
    + constructor; rewrite ?Ep, ?Ee.
      * exact K'.
      * apply (cur_same (x_k x)); auto. apply (qb_c _ B).
      * intros v p Eq. destruct (Nat.eq_dec v u) as [->|N].
        -- right. rewrite Tu. cbn. destruct (qb_a _ B u p Eq) as [Y|(M & _)]; [congruence|]. split; [exact M|]. right. split; [reflexivity|]. now left.
        -- unfold pend_ok, woken, done. rewrite So, To, Ct, Cu by assumption.
           destruct (qb_a _ B v p Eq) as [Y|(M & [(P & e & I)|Y])]; [now left| |now right; auto].
           right. split; [exact M|]. left. split; [exact P|]. exists e.
           destruct (where_dec (where_ p) (sd, n)) as [E|Nw].
           ++ rewrite E in *. cbn [fst snd] in *. rewrite W1. rewrite El in I. apply in_app_or in I. destruct I as [I|[I|I]].
              ** specialize (F _ I). cbn in F. unfold done in F. rewrite P in F. discriminate.
              ** congruence.
              ** exact I.
           ++ rewrite W2; [exact I|]. now destruct (where_ p).
      * intros n' sd' e v I. pose proof (Sub _ _ _ I) as I0. destruct (qb_b _ B _ _ _ _ I0) as [Fr Lv]. split; [exact Fr|].
        destruct Lv as [Dv|(Pv & (hv & Iv) & Uv & pv & Epv & Ewv)]; [left; auto|].
        destruct (Nat.eq_dec v u) as [->|N].
        -- exfalso. assert (e = ev) by (exact (one_event x e ev u hv h K Iv Ih)). subst e.
           rewrite Epv in Epu. injection Epu as ->. rewrite Ewu in Ewv. injection Ewv as <- <-. rewrite W1 in I.
           pose proof (qb_n _ B n sd) as Nd. rewrite El in Nd. exact (nodup_mid _ _ _ _ _ Nd I).
        -- right. assert (e <> ev). { intros ->. apply N. exact (Un (hv, v) Iv). }
           unfold entry_live. rewrite So, Co, Ep by assumption. eauto 10.
      * intros n' sd'. destruct (where_dec (sd', n') (sd, n)) as [E|N].
        -- injection E as -> ->. rewrite W1. pose proof (qb_n _ B n sd) as Nd. rewrite El in Nd. eapply nodup_tail, Nd.
        -- rewrite W2 by assumption. apply (qb_n _ B).
      * intros m L. assert (private m <> ev). { rewrite Em0. intro E. apply private_inj in E. lia. }
        rewrite Eo, Co by assumption. now apply (qb_f _ B).
      * intros m L. rewrite Em in L. pose proof (qb_m _ B m L) as Q.
        destruct (q_putters (x_q x' m)) as [|e l] eqn:Eq; [reflexivity|].
        assert (I : In e (wl x m SPut)) by (apply Sub; cbn; rewrite Eq; now left). cbn in I. rewrite Q in I. destruct I.
    + intros n' sd' j j' N L [H|(W & Nd & Lw & G)].
      * left. intros e v I. apply Dn, (H e). now apply Sub.
      * right. exists W. split; [exact Nd|]. split; [lia|]. intros v I. rewrite Ep. destruct (G v I) as [G1 G2]. split; [exact G1|].
        rewrite So; [exact G2|]. intros ->. destruct G2; congruence.
    + intros L [H|(W & Nd & Lw & G)]; [specialize (H _ _ Iu); congruence|]. right. exists (u :: W). split; [|split].
      * constructor; [|exact Nd]. intro I. destruct (G u I) as [_ [Y|Y]]; congruence.
      * cbn. lia.
      * rewrite Ep. intros v [<-|I]; [split; [eauto|now left]|]. destruct (G v I) as [G1 G2]. split; [exact G1|].
        rewrite So; [exact G2|]. intros ->. destruct G2; congruence.
Qed.

Lemma remove_len (t : nat) (W : list nat) : NoDup W -> length W <= length (remove Nat.eq_dec t W) + 1.
Proof.
  induction 1 as [|y W Ny Nd IH]; cbn; [lia|]. destruct (Nat.eq_dec t y) as [<-|]; cbn; [|lia].
  rewrite notin_remove by assumption. lia.
Qed.
Lemma clear_ok x t : QB x -> state_of (x_k x) t = Running ->
  QB (set_pend x t None) /\ (forall n sd, D x n sd 0 -> D (set_pend x t None) n sd 1) /\
  (forall n sd, (forall p, x_pend x t = Some p -> where_ p <> (sd, n)) -> D x n sd 0 -> D (set_pend x t None) n sd 0).
Proof.
  intros B R. split; [|split].
  - constructor; cbn [x_k set_pend x_q x_pend x_ev x_hist].
    + apply (qb_k _ B).
    + apply (qb_c _ B).
    + intros u p. unfold upd. destruct (Nat.eqb_spec u t); [discriminate|]. apply (qb_a _ B).
    + intros n sd ev u I. destruct (qb_b _ B n sd ev u I) as [Fr [Dn|(P & C & U & p & Ep & Ew)]]; (split; [exact Fr|]); [now left|].
      right. split; [exact P|]. split; [exact C|]. split; [exact U|]. exists p. cbn. rewrite upd_other; [auto|]. intros ->. congruence.
    + apply (qb_n _ B).
    + apply (qb_f _ B).
    + apply (qb_m _ B).
  - intros n sd [H|(W & Nd & Lw & G)]; [now left|]. right. exists (remove Nat.eq_dec t W). split; [|split].
    + clear Lw G. induction Nd as [|y W Ny Nd IH]; cbn; [constructor|]. destruct (Nat.eq_dec t y); [exact IH|].
      constructor; [|exact IH]. intro I. apply in_remove in I. tauto.
    + pose proof (remove_len t W Nd) as Z. change (av x n sd <= length (remove Nat.eq_dec t W) + 1).
      eapply Nat.le_trans; [exact Lw|]. rewrite Nat.add_0_r. exact Z.
    + intros u I. apply in_remove in I. destruct I as [I N]. destruct (G u I) as [(p & Ep & Ew) S]. split; [|exact S].
      exists p. cbn. now rewrite upd_other.
  - intros n sd Np [H|(W & Nd & Lw & G)]; [now left|]. right. exists W. split; [exact Nd|]. split; [exact Lw|].
    intros u I. destruct (G u I) as [(p & Ep & Ew) S]. split; [|exact S]. exists p. cbn. rewrite upd_other; [auto|].
    intros ->. now apply (Np p).
Qed.

Lemma block_ok x t rest n sd p x' :
  let ev := private (x_ev x) in
  QB x -> (forall n sd, D x n sd 0) -> s_halt (x_k x) = false -> s_ctl (x_k x) = FRun t :: rest -> k_must (s_task (x_k x) t) = 0 ->
  where_ p = (sd, n) -> (forall p', x_pend x t = Some p' -> where_ p' = (sd, n)) ->
  av x n sd = 0 -> (sd = SPut -> (0 < q_max (x_q x n))%Z) ->
  x_k x' = fst (await_trigger (x_k x) rest t (TEvent ev) true) -> x_pend x' = upd (x_pend x) t (Some p) -> x_ev x' = S (x_ev x) ->
  (forall m, q_max (x_q x' m) = q_max (x_q x m)) -> (forall n sd, av x' n sd = av x n sd) ->
  wl x' n sd = wl x n sd ++ [(ev, t)] -> (forall n' sd', (sd', n') <> (sd, n) -> wl x' n' sd' = wl x n' sd') ->
  QB x' /\ forall n sd, D x' n sd 0.
Proof.
  cbv zeta. set (ev := private (x_ev x)). intros B Dx Ha Ec M Ew Op A0 Mx Ek Ep Ee Em Ea W1 W2. pose proof (qb_k _ B) as K.
  destruct (qb_f _ B (x_ev x) (le_n _)) as [Fe Fc]. fold ev in Fe, Fc.
  destruct (await_event_facts (x_k x) t rest ev K (qb_c _ B) Ha Ec M Fe Fc) as (K' & C' & Pt & Mt & To & (h & Ct) & Co & Es & Er & _).
  rewrite <- Ek in *. clear Ek.
  assert (Rt : state_of (x_k x) t = Running) by (eapply run_state; eauto).
  assert (So : forall v, v <> t -> state_of (x_k x') v = state_of (x_k x) v) by (intros v N; unfold state_of; now rewrite To).
  assert (Dn : forall v, done (x_k x) v = true -> done (x_k x') v = true).
  { intros v Dv. destruct (Nat.eq_dec v t) as [->|N]; [unfold done in Dv; rewrite Rt in Dv; discriminate|]. unfold done. now rewrite So. }
  assert (In' : forall n' sd' e, In e (wl x n' sd') -> In e (wl x' n' sd')).
  { intros n' sd' e I. destruct (where_dec (sd', n') (sd, n)) as [E|N].
    - injection E as -> ->. rewrite W1. apply in_or_app. now left.
    - now rewrite W2. }
  assert (Out : forall n' sd' e, In e (wl x' n' sd') -> In e (wl x n' sd') \/ (sd' = sd /\ n' = n /\ e = (ev, t))).
  { intros n' sd' e I. destruct (where_dec (sd', n') (sd, n)) as [E|N].
    - injection E as -> ->. rewrite W1 in I. apply in_app_or in I. destruct I as [I|[I|[]]]; auto.
    - rewrite W2 in I by assumption. auto. }
  assert (Fresh : forall n' sd' e u, In (e, u) (wl x n' sd') -> e <> ev).
  { intros n' sd' e u I ->. destruct (qb_b _ B _ _ _ _ I) as [(m & Lm & E) _]. apply private_inj in E. lia. }
  split.
  - constructor; rewrite ?Ep, ?Ee.
    + exact K'.
    + exact C'.
    + intros v p'. unfold upd. destruct (Nat.eqb_spec v t) as [->|N].
      * intros [= <-]. right. split; [exact Mt|]. left. split; [exact Pt|]. exists ev. rewrite Ew. cbn. rewrite W1. apply in_or_app. right. now left.
      * intro Eq. unfold pend_ok, woken, done. rewrite So, To by assumption.
        destruct (qb_a _ B v p' Eq) as [Y|(M' & [(P & e & I)|(Ex & [Y|(Y & Z & _)])])].
        -- now left.
        -- right. split; [exact M'|]. left. split; [exact P|]. exists e. now apply In'.
        -- right. auto.
        -- congruence.
    + intros n' sd' e v I. destruct (Out _ _ _ I) as [I0|(-> & -> & [= -> ->])].
      * destruct (qb_b _ B _ _ _ _ I0) as [(m & Lm & Em0) Lv]. split; [exists m; split; [lia|exact Em0]|].
        destruct Lv as [Dv|(Pv & (hv & Iv) & Uv & pv & Epv & Ewv)]; [left; auto|]. right.
        assert (v <> t) by (intros ->; congruence). assert (e <> ev) by (eapply Fresh, I0).
        unfold entry_live. rewrite So, Co, Ep, upd_other by assumption. eauto 10.
      * split; [exists (x_ev x); split; [lia|reflexivity]|]. right. unfold entry_live. rewrite Ct, Ep, upd_same.
        split; [exact Pt|]. split; [exists h; now left|]. split; [intros c [<-|[]]; reflexivity|eauto].
    + intros n' sd'. destruct (where_dec (sd', n') (sd, n)) as [E|N].
      * injection E as -> ->. rewrite W1, map_app. cbn. apply NoDup_app_snoc; [apply (qb_n _ B)|].
        intro I. apply in_map_iff in I. destruct I as ([e u] & E & I). cbn in E. now apply (Fresh n sd e u).
      * rewrite W2 by assumption. apply (qb_n _ B).
    + intros m L. assert (private m <> ev). { intro E. apply private_inj in E. lia. }
      rewrite Es, Co by assumption. apply (qb_f _ B). lia.
    + intros m L. rewrite Em in L. destruct (q_putters (x_q x' m)) as [|e l] eqn:Eq; [reflexivity|].
      destruct (Out m SPut e) as [I|(<- & -> & _)].
      * cbn. rewrite Eq. now left.
      * cbn in I. rewrite (qb_m _ B m L) in I. destruct I.
      * specialize (Mx eq_refl). lia.
  - intros n' sd'. destruct (where_dec (sd', n') (sd, n)) as [E|N].
    + injection E as -> ->. right. exists []. split; [constructor|]. split; [rewrite Ea, A0; cbn; lia|intros u []].
    + destruct (Dx n' sd') as [H|(W & Nd & Lw & G)].
      * left. intros e u I. rewrite W2 in I by assumption. apply Dn, (H e), I.
      * right. exists W. split; [exact Nd|]. split; [rewrite Ea; exact Lw|]. intros u I. destruct (G u I) as [(p' & Ep' & Ew') S].
        assert (u <> t). { intros ->. specialize (Op p' Ep'). congruence. }
        rewrite So, Ep, upd_other by assumption. split; [eauto|exact S].
Qed.

Lemma D_no_putters x n k : QB x -> (q_max (x_q x n) <= 0)%Z -> D x n SPut k.
Proof. intros B L. left. cbn. rewrite (qb_m _ B n L). intros ev u []. Qed.
Lemma put_nowait_ok x n a : QB x -> s_halt (x_k x) = false -> full (x_q x n) = false ->
  (forall n' sd', (sd', n') <> (SPut, n) -> D x n' sd' 0) -> D x n SPut 1 ->
  QB (fst (put_nowait lt x n a)) /\ forall n' sd', D (fst (put_nowait lt x n a)) n' sd' 0.
Proof.
  intros B Ha Fu Do D1. unfold put_nowait. rewrite Fu. destruct (wakeup_next (x_k x) (q_getters (x_q x n))) as [k g] eqn:Ew.
  cbn [fst]. match goal with |- QB ?y /\ _ => set (x' := y) end.
  assert (Q1 : x_q x' n = Queue (q_kind (x_q x n)) (q_max (x_q x n)) (put_item lt (q_kind (x_q x n)) (q_items (x_q x n)) a) g (q_putters (x_q x n)))
    by (unfold x'; cbn; apply upd_same).
  assert (Q2 : forall m, m <> n -> x_q x' m = x_q x m) by (intros; unfold x'; cbn; now apply upd_other).
  destruct (wake_ok x x' n SGet k g B Ha Ew) as (B' & D2 & D3); try reflexivity.
  - intro m. destruct (Nat.eq_dec m n) as [->|N]; [now rewrite Q1|now rewrite Q2].
  - unfold wl. now rewrite Q1.
  - intros n' sd' N. destruct (Nat.eq_dec n' n) as [->|N']; [|unfold wl; now rewrite Q2].
    destruct sd'; [now elim N|]. unfold wl. now rewrite Q1.
  - split; [exact B'|]. intros n' sd'. destruct (Nat.eq_dec n' n) as [->|N].
    + destruct sd'.
      * apply D3; [|apply Do; congruence]. unfold av. rewrite Q1. cbn [q_items]. rewrite put_item_length. lia.
      * destruct (Z_le_gt_dec (q_max (x_q x n)) 0) as [L|G]; [apply D_no_putters; [exact B'|now rewrite Q1]|].
        apply (D2 n SPut 1 0); [congruence| |exact D1]. unfold av, room. rewrite Q1. cbn [q_max q_items]. rewrite put_item_length.
        unfold full in Fu. destruct (Z.leb_spec (q_max (x_q x n)) 0); [lia|]. apply Z.leb_gt in Fu. lia.
    + apply (D2 n' sd' 0 0); [congruence| |apply Do; congruence]. destruct sd'; unfold av; rewrite Q2 by assumption; lia.
Qed.
Lemma get_nowait_ok x n x' r : QB x -> s_halt (x_k x) = false -> empty (x_q x n) = false ->
  (forall n' sd', (sd', n') <> (SGet, n) -> D x n' sd' 0) -> D x n SGet 1 ->
  get_nowait lt x n = Some (x', r) -> QB x' /\ forall n' sd', D x' n' sd' 0.
Proof.
  intros B Ha Em Do D1. unfold get_nowait. rewrite Em. destruct (get_item _ _ _) as [[a l]|] eqn:Eg; [|discriminate].
  destruct (wakeup_next (x_k x) (q_putters (x_q x n))) as [k g] eqn:Ew. intros [= <- <-].
  match goal with |- QB ?y /\ _ => set (x' := y) end.
  assert (Q1 : x_q x' n = Queue (q_kind (x_q x n)) (q_max (x_q x n)) l (q_getters (x_q x n)) g) by (unfold x'; cbn; apply upd_same).
  assert (Q2 : forall m, m <> n -> x_q x' m = x_q x m) by (intros; unfold x'; cbn; now apply upd_other).
  apply get_item_length in Eg.
  destruct (wake_ok x x' n SPut k g B Ha Ew) as (B' & D2 & D3); try reflexivity.
  - intro m. destruct (Nat.eq_dec m n) as [->|N]; [now rewrite Q1|now rewrite Q2].
  - unfold wl. now rewrite Q1.
  - intros n' sd' N. destruct (Nat.eq_dec n' n) as [->|N']; [|unfold wl; now rewrite Q2].
    destruct sd'; [|now elim N]. unfold wl. now rewrite Q1.
  - split; [exact B'|]. intros n' sd'. destruct (Nat.eq_dec n' n) as [->|N].
    + destruct sd'.
      * apply (D2 n SGet 1 0); [congruence| |exact D1]. unfold av. rewrite Q1. cbn [q_items]. lia.
      * apply D3; [|apply Do; congruence]. unfold av, room. rewrite Q1. cbn [q_max q_items]. lia.
    + apply (D2 n' sd' 0 0); [congruence| |apply Do; congruence]. destruct sd'; unfold av; rewrite Q2 by assumption; lia.
Qed.
Lemma full_room q : full q = true -> room q = 0 /\ (0 < q_max q)%Z.
Proof. unfold full, room. destruct (Z.leb_spec (q_max q) 0); [discriminate|]. intro L. apply Z.leb_le in L. lia. Qed.

Lemma put_turn_ok x t rest n a : QB x -> (forall n sd, D x n sd 0) -> s_halt (x_k x) = false -> s_ctl (x_k x) = FRun t :: rest ->
  k_must (s_task (x_k x) t) = 0 ->
  (x_pend x t = None \/ (s_current (x_k x) = Some t /\ exists a', x_pend x t = Some (InPut n a'))) ->
  let x' := fst (put_turn lt x rest t n a) in QB x' /\ forall n sd, D x' n sd 0.
Proof.
  intros B Dx Ha Ec M Op. cbv zeta. assert (R : state_of (x_k x) t = Running) by (eapply run_state; [apply (qb_k _ B)|exact Ec]).
  destruct (clear_ok x t B R) as (B1 & D1 & D2). unfold put_turn. destruct (full (x_q x n)) eqn:Fu.
  - destruct (full_room _ Fu) as [Rm Mx]. destruct (s_current (x_k x)) as [u|] eqn:Cu.
    + assert (Eu : u = t).
      { destruct (qb_c _ B) as [Y|Y]; rewrite Cu in Y; [discriminate|]. rewrite Ec in Y. cbn in Y. congruence. }
      subst u. cbn [fst]. match goal with |- QB ?y /\ _ => set (x' := y) end.
      assert (Q1 : x_q x' n = Queue (q_kind (x_q x n)) (q_max (x_q x n)) (q_items (x_q x n)) (q_getters (x_q x n))
                                (q_putters (x_q x n) ++ [(private (x_ev x), t)])) by (unfold x'; cbn; apply upd_same).
      assert (Q2 : forall m, m <> n -> x_q x' m = x_q x m) by (intros; unfold x'; cbn; now apply upd_other).
      apply (block_ok x t rest n SPut (InPut n a) x' B Dx Ha Ec M); try reflexivity.
      * intros p' Ep'. destruct Op as [Op|(_ & a' & Op)]; rewrite Op in Ep'; [discriminate|]. injection Ep' as <-. reflexivity.
      * exact Rm.
      * intros _. exact Mx.
      * intro m. destruct (Nat.eq_dec m n) as [->|N]; [now rewrite Q1|now rewrite Q2].
      * intros m sd. destruct (Nat.eq_dec m n) as [->|N]; [|destruct sd; unfold av; now rewrite Q2].
        destruct sd; unfold av, room; now rewrite Q1.
      * unfold wl. now rewrite Q1.
      * intros n' sd' N. destruct (Nat.eq_dec n' n) as [->|N']; [|unfold wl; now rewrite Q2].
        destruct sd'; [|now elim N]. unfold wl. now rewrite Q1.
    + cbn [fst]. split; [exact B1|]. intros m sd. apply D2; [|apply Dx].
      intros p Ep. destruct Op as [Op|(Op & _)]; congruence.
  - apply put_nowait_ok; auto.
    intros n' sd' N. apply D2; [|apply Dx]. intros p Ep. destruct Op as [Op|(_ & a' & Op)]; rewrite Op in Ep; [discriminate|].
    injection Ep as <-. cbn. congruence.
Qed.
Lemma get_turn_ok x t rest n x' r : QB x -> (forall n sd, D x n sd 0) -> s_halt (x_k x) = false -> s_ctl (x_k x) = FRun t :: rest ->
  k_must (s_task (x_k x) t) = 0 ->
  (x_pend x t = None \/ (s_current (x_k x) = Some t /\ x_pend x t = Some (InGet n))) ->
  get_turn lt x rest t n = Some (x', r) -> QB x' /\ forall n sd, D x' n sd 0.
Proof.
  intros B Dx Ha Ec M Op. assert (R : state_of (x_k x) t = Running) by (eapply run_state; [apply (qb_k _ B)|exact Ec]).
  destruct (clear_ok x t B R) as (B1 & D1 & D2). unfold get_turn. destruct (empty (x_q x n)) eqn:Em.
  - destruct (s_current (x_k x)) as [u|] eqn:Cu.
    + assert (Eu : u = t).
      { destruct (qb_c _ B) as [Y|Y]; rewrite Cu in Y; [discriminate|]. rewrite Ec in Y. cbn in Y. congruence. }
      subst u. intros [= <- <-]. match goal with |- QB ?y /\ _ => set (x' := y) end.
      assert (Q1 : x_q x' n = Queue (q_kind (x_q x n)) (q_max (x_q x n)) (q_items (x_q x n)) (q_getters (x_q x n) ++ [(private (x_ev x), t)])
                                (q_putters (x_q x n))) by (unfold x'; cbn; apply upd_same).
      assert (Q2 : forall m, m <> n -> x_q x' m = x_q x m) by (intros; unfold x'; cbn; now apply upd_other).
      apply (block_ok x t rest n SGet (InGet n) x' B Dx Ha Ec M); try reflexivity.
      * intros p' Ep'. destruct Op as [Op|(_ & Op)]; rewrite Op in Ep'; [discriminate|]. injection Ep' as <-. reflexivity.
      * cbn. unfold empty in Em. apply Nat.eqb_eq in Em. exact Em.
      * discriminate.
      * intro m. destruct (Nat.eq_dec m n) as [->|N]; [now rewrite Q1|now rewrite Q2].
      * intros m sd. destruct (Nat.eq_dec m n) as [->|N]; [|destruct sd; unfold av; now rewrite Q2].
        destruct sd; unfold av, room; now rewrite Q1.
      * unfold wl. now rewrite Q1.
      * intros n' sd' N. destruct (Nat.eq_dec n' n) as [->|N']; [|unfold wl; now rewrite Q2].
        destruct sd'; [now elim N|]. unfold wl. now rewrite Q1.
    + intros [= <- <-]. split; [exact B1|]. intros m sd. apply D2; [|apply Dx].
      intros p Ep. destruct Op as [Op|(Op & _)]; congruence.
  - apply get_nowait_ok; auto.
    intros n' sd' N. apply D2; [|apply Dx]. intros p Ep. destruct Op as [Op|(_ & Op)]; rewrite Op in Ep; [discriminate|].
    injection Ep as <-. cbn. congruence.
Qed.

Theorem qstep_ok x l x' r : QB x -> (forall n sd, D x n sd 0) -> undisturbed_q x l -> qstep lt x l = Some (x', r) ->
  QB x' /\ forall n sd, D x' n sd 0.
Proof.
  intros B Dx Ud. unfold qstep. destruct (s_halt (x_k x)) eqn:Ha; [discriminate|]. destruct l as [kl|n a|n|n a|n|].
  - destruct (user_control x) eqn:Uc; [|discriminate]. destruct (user_label kl) eqn:Ul; [|discriminate]. cbn [andb].
    destruct (step (x_k x) kl) as [[k s]|] eqn:St; [|discriminate]. intros [= <- <-].
    exact (user_step x kl k s B Dx Ud Uc Ul St).
  - destruct (s_ctl (x_k x)) as [|[t| | ] rest] eqn:Ec; try discriminate. destruct (user_control x) eqn:Uc; [|discriminate].
    intros [= E]. replace x' with (fst (put_turn lt x rest t n a)) by now rewrite E. apply put_turn_ok; auto.
    + exact (Ud t rest Ec).
    + left. unfold user_control in Uc. rewrite Ec in Uc. now destruct (x_pend x t).
  - destruct (s_ctl (x_k x)) as [|[t| | ] rest] eqn:Ec; try discriminate. destruct (user_control x) eqn:Uc; [|discriminate].
    apply get_turn_ok; auto.
    + exact (Ud t rest Ec).
    + left. unfold user_control in Uc. rewrite Ec in Uc. now destruct (x_pend x t).
  - destruct (user_control x); [|discriminate]. intros [= E]. replace x' with (fst (put_nowait lt x n a)) by now rewrite E.
    destruct (full (x_q x n)) eqn:Fu; [unfold put_nowait; rewrite Fu; split; [exact B|exact Dx]|].
    apply put_nowait_ok; auto. apply (D_weaken _ _ _ 0); auto.
  - destruct (user_control x); [|discriminate].
    destruct (empty (x_q x n)) eqn:Em; [unfold get_nowait; rewrite Em; intros [= <- <-]; split; [exact B|exact Dx]|].
    apply get_nowait_ok; auto. apply (D_weaken _ _ _ 0); auto.
  - destruct (s_ctl (x_k x)) as [|[t| | ] rest] eqn:Ec; try discriminate. destruct (x_pend x t) as [p|] eqn:Ep; [|discriminate].
    assert (R : state_of (x_k x) t = Running) by (eapply run_state; [apply (qb_k _ B)|exact Ec]).
    destruct (qb_a _ B t p Ep) as [Y|(M & [(Y & _)|(Ex & [Y|(_ & Z & Cu)])])]; try congruence;
      [unfold done in Y; rewrite R in Y; discriminate|].
    rewrite Ex. destruct p as [n a|n].
    + intros [= E]. replace x' with (fst (put_turn lt x rest t n a)) by now rewrite E. apply put_turn_ok; eauto.
    + apply get_turn_ok; auto.
Qed.
Lemma qexec_ok x ls x' : qexec lt undisturbed_q x ls x' -> QB x -> (forall n sd, D x n sd 0) -> QB x' /\ forall n sd, D x' n sd 0.
Proof.
  induction 1 as [|x l x1 r ls x2 P S _ IH]; [auto|]. intros B Dx. destruct (qstep_ok _ _ _ _ B Dx P S). auto.
Qed.

(** Once all ready Tasks have run. *)
Theorem settled x : QB x -> (forall n sd, D x n sd 0) -> all_ran x ->
  forall u p, inside x u p -> state_of (x_k x) u = Pending /\
    match p with InGet n => q_items (x_q x n) = [] | InPut n _ => full (x_q x n) = true end.
Proof.
  intros B Dx [Ec Eq] u p [Ep Nd]. pose proof (J_loc _ _ (qb_k _ B)) as L.
  assert (Ns : forall v, state_of (x_k x) v <> Scheduled).
  { intros v S. destruct (L_sched _ _ L v (fun f => f) S) as (h & I). discriminate (Eq _ I). }
  assert (Nr : forall v, state_of (x_k x) v <> Running).
  { intros v S. pose proof (L_runs _ _ L v (fun f => f) S) as I. rewrite Ec in I. destruct I. }
  destruct (qb_a _ B u p Ep) as [Y|(M & [(P & ev & I)|(_ & [Y|(Y & _)])])]; [congruence| |now elim (Ns u)|now elim (Nr u)].
  split; [exact P|].
  assert (Z : av x (snd (where_ p)) (fst (where_ p)) = 0).
  { destruct (Dx (snd (where_ p)) (fst (where_ p))) as [H|(W & _ & Lw & G)].
    - specialize (H ev u I). congruence.
    - destruct W as [|w W]; [cbn in Lw; lia|]. destruct (G w (or_introl eq_refl)) as [_ [S|S]]; [now elim (Ns w)|now elim (Nr w)]. }
  destruct p as [n a|n]; cbn in Z, I.
  - unfold full. destruct (Z.leb_spec (q_max (x_q x n)) 0) as [Q|Q].
    + rewrite (qb_m _ B n Q) in I. destruct I.
    + apply Z.leb_le. unfold room in Z. lia.
  - now apply length_zero_iff_nil.
Qed.
End Q.

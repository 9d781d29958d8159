(** Proofs about starting and stopping clocks. *)
From Verif Require Import Base KernelModel KernelProofs KernelTask KernelInv KernelLayer KernelStack DriverModel DriverSpec.
From Coq Require Import Arith.

Definition fresh (c : code) : Prop := match c with CPy (PNew _) _ _ | CGpi false _ => True | _ => False end.
Definition waits_on (c : code) : trig :=
  match c with
  | CPy PHigh hi _ => TGpi hi
  | CPy _ _ lo => TGpi lo
  | CGpi _ e => TEvent e
  end.
Definition top (t : tid) (k : st) : Prop := on_top t (s_ctl k).
(** A driver which has not ended. *)
Record DT (k : st) (t : tid) (c : code) : Prop := {
  T_old : state_of k t <> Unstarted;
  T_top : state_of k t = Running -> top t k;
  T_begun : state_of k t = Running -> k_begun (s_task k t) = true;
  T_fresh : fresh c -> k_begun (s_task k t) = false \/ (state_of k t = Running /\ k_exc (s_task k t) = None);
  T_used : ~ fresh c -> k_begun (s_task k t) = true;
  T_pend : state_of k t = Pending -> ~ fresh c /\ exists h, k_tcb (s_task k t) = Some (waits_on c, h) }.
(** A driver to which stop() was applied. *)
Definition ended (k : st) (t : tid) : Prop :=
  done k t = true \/
  (exists m, k_exc (s_task k t) = Some (ECancelled m)) /\
  (state_of k t = Scheduled \/ (state_of k t = Running /\ exists rest, s_ctl k = FRun t :: rest)).
(** A clock in the simulator interface whose driver has ended. *)
Definition orphan (k : st) (t : tid) (c : code) : Prop := done k t = true -> fresh c \/ k_outcome (s_task k t) = Some (OVal None).

(** * Kernel steps *)
Lemma now_ctl k t m k' r : Inv k -> step k (LCancelNow t m) = Some (k', r) -> state_of k t <> Running -> state_of k' t = Running ->
  exists rest, s_ctl k' = FRun t :: rest.
Proof.
  intros H St Nr Rn. unfold step in St. destruct (s_halt k); [discriminate|].
  assert (E : cancel_now k t m = (k', r)) by (destruct (s_ctl k) as [|[ | | ]]; try discriminate; congruence). clear St.
  assert (G : forall s, s_task s = s_task k -> resume (set_task (add_must s t) t (with_exc (s_task (add_must s t) t) (Some (ECancelled m)))) t = k' ->
     exists rest, s_ctl k' = FRun t :: rest).
  { intros s Es <-. unfold resume in *. cbn [add_must set_task s_task] in *. rewrite !upd_same in *. cbn [k_exc with_exc k_begun] in *.
    destruct (k_begun _) eqn:B; [cbn; eauto|]. exfalso. revert Rn. unfold coro_raised, state_of. cbn. rewrite !upd_same. cbn. discriminate. }
  unfold cancel_now in E. destruct (state_of k t) eqn:Es; try congruence.
  - injection E as E _. exact (G k eq_refl E).
  - unfold cancel_scb in E. destruct (k_scb _); injection E as E _; [|congruence]. apply (G (cancel_slot k n) eq_refl E).
  - pose proof (cancel_tcb_task k t) as T. destruct (cancel_tcb k t) as [s1 [e|]]; cbn [fst] in T; injection E as E _.
    + subst s1. unfold state_of in *. congruence.
    + apply (G s1 T E).
Qed.

Lemma becomes_running k l k' r t : Inv k -> step k l = Some (k', r) -> prime_ok l -> state_of k t <> Running -> state_of k' t = Running ->
  exists rest, s_ctl k' = FRun t :: rest.
Proof.
  intros H St Pr Nr Rn. destruct (inv_step k l k' r H Pr St) as (H1 & _). assert (T := step_tstep _ _ _ _ t H St).
  unfold state_of in Nr, Rn. remember (s_task k' t) as kt eqn:Ek.
  assert (Pop : l = LPop -> exists rest, s_ctl k' = FRun t :: rest).
  { intros ->. exists []. apply (pop_ctl _ _ _ t St). apply (L_runs _ _ (J_loc _ _ H1) t); [intros []|]. unfold state_of. congruence. }
  assert (Now : forall m, l = LCancelNow t m -> exists rest, s_ctl k' = FRun t :: rest).
  { intros m ->. apply (now_ctl k t m k' r H St Nr). unfold state_of. congruence. }
  destruct T; eauto; try (exfalso; cbn in Rn; congruence).
Qed.

Ltac tcase := match goal with
  | A : k_state ?k = ?x, B : k_state ?k = ?y |- _ => rewrite A in B; discriminate
  | A : idle (k_state ?k) |- _ => unfold idle in A
  end.
(** A step of other code. *)
Lemma DT_step k l k' r t c : Inv k -> step k l = Some (k', r) -> prime_ok l -> ~ top t k ->
  done k t = true \/ DT k t c -> done k' t = true \/ DT k' t c.
Proof.
  intros H St Pr Nt W. destruct (inv_step k l k' r H Pr St) as (H1 & Sb & _).
  destruct W as [D|D]; [left; exact (stable_done k k' t Sb D)|].
  assert (Nr : state_of k t <> Running) by (intro R; exact (Nt (T_top _ _ _ D R))).
  assert (Top : state_of k' t = Running -> top t k').
  { intro R. destruct (becomes_running k l k' r t H St Pr Nr R) as [rest E]. exists rest. now left. }
  assert (T := step_tstep _ _ _ _ t H St). destruct (done k' t) eqn:Dn; [now left|right].
  destruct D as [Old _ Bg Fr Us Pd]. unfold done in Dn. unfold state_of in *. remember (s_task k' t) as kt eqn:Ek.
  assert (F0 : fresh c -> k_begun (s_task k t) = false) by (intro F; destruct (Fr F) as [?|[? _]]; [assumption|congruence]).
  constructor; unfold state_of; rewrite <- ?Ek; try assumption; destruct T; cbn in *; try congruence; auto;
    try (intro Q; left; apply F0; assumption);
    try (intros F; specialize (F0 F); right; split; [reflexivity|]);
    try (destruct H0; congruence);
    try (destruct H2; congruence).
  all: try (intro F; left; exact (F0 F)).
  all: try discriminate.
  all: try (destruct e; cbn in Dn; try destruct (Nat.eqb _ _); discriminate).
  all: try (unfold returned in *; destruct (Nat.eqb _ _); discriminate).
  all: match goal with X : _ \/ k_begun _ = true |- _ => destruct X; congruence end.
Qed.


Lemma ended_step k l k' r t : Inv k -> step k l = Some (k', r) -> prime_ok l -> ~ top t k -> ended k t -> ended k' t.
Proof.
  intros H St Pr Nt W. destruct (inv_step k l k' r H Pr St) as (H1 & Sb & _).
  destruct W as [D|[[m Em] W]]; [left; exact (stable_done k k' t Sb D)|].
  assert (Sc : state_of k t = Scheduled). { destruct W as [W|[_ [rest W]]]; [exact W|]. elim Nt. exists rest. now left. }
  assert (Rn : state_of k' t = Running -> exists rest, s_ctl k' = FRun t :: rest) by (intro R; apply (becomes_running k l k' r t H St Pr); congruence).
  assert (T := step_tstep _ _ _ _ t H St). unfold ended, done. unfold state_of in *.
  remember (s_task k' t) as kt eqn:Ek. clear Sb W Ek.
  destruct T as [|h X| |c|h m' ? X|m'|Q I|Q I X|e Q I X B|m' Q I B|m' Q I B| | |w tr h X|w tr h h' e X|h ? X|w X|]; try congruence.
  - right. eauto.
  - destruct X; congruence.
  - right. cbn. eauto.
  - right. cbn. eauto.
  - destruct X; congruence.
  - right. cbn. eauto.
  - now left.
  - right. cbn. split; [eauto|]. right. auto.
  - left. rewrite Em in X. injection X as <-. reflexivity.
  - right. cbn. split; [eauto|]. right. auto.
  - now left.
Qed.

Lemma orphan_step k l k' r t c : Inv k -> step k l = Some (k', r) -> prime_ok l -> ~ top t k -> done k t = true \/ DT k t c ->
  orphan k t c -> orphan k' t c.
Proof.
  intros H St Pr Nt W O D'. destruct (inv_step k l k' r H Pr St) as (H1 & Sb & _).
  destruct (done k t) eqn:D.
  { destruct (O D) as [F|E]; [now left|right]. destruct (Sb t D) as [_ ->]. exact E. }
  destruct W as [W|W]; [discriminate|].
  assert (Nr : state_of k t <> Running) by (intro R; exact (Nt (T_top _ _ _ W R))).
  assert (T := step_tstep _ _ _ _ t H St). unfold done, state_of in *. remember (s_task k' t) as kt eqn:Ek. clear Sb Ek.
  assert (Fr : k_begun (s_task k t) = false -> fresh c).
  { intro B. destruct c as [[sh| | ] hi lo|[|] e]; cbn; auto; exfalso; assert (N := T_used _ _ _ W (fun f => f)); congruence. }
  destruct T; cbn in *; try congruence; auto.
Qed.

(** * The steps of a driver *)
Lemma raised_done s t e : done (coro_raised s t e) t = true.
Proof. unfold coro_raised. destruct e; try destruct (Nat.eqb _ _); unfold done, state_of; cbn; rewrite upd_same; reflexivity. Qed.
Lemma returned_done s t v : done (coro_returned s t v) t = true.
Proof. unfold coro_returned. destruct (Nat.eqb _ _); unfold done, state_of; cbn; rewrite upd_same; reflexivity. Qed.
Lemma outcome_done s t o k : done (set_outcome s t Errored o k) t = true.
Proof. unfold done, state_of; cbn; rewrite upd_same; reflexivity. Qed.
(** [await] of a simulator trigger or an Event. *)
Lemma yield_task k rest t tr : match tr with TGpi _ | TEvent _ => True | _ => False end ->
  let k' := fst (await_trigger k rest t tr true) in let k0 := with_wait (s_task k t) WTrig in
  (k_must (s_task k t) <> 0 /\ s_task k' t = k0 /\ s_ctl k' = FClose t :: rest) \/
  (exists h, s_task k' t = with_tcb (with_state k0 Pending) tr h) \/
  (exists h h', s_task k' t = with_sched (with_tcb (with_state k0 Pending) tr h) h' None).
Proof.
  intro Tr. cbv zeta. unfold await_trigger. assert (Ck : await_check k tr = Some k) by (destruct tr; try contradiction; reflexivity).
  rewrite Ck. cbn [fst]. assert (Ew : match tr with TJoin u => WTask u | _ => WTrig end = WTrig) by (destruct tr; try contradiction; reflexivity).
  rewrite Ew. unfold coro_yielded. cbn [set_ctl s_task set_task]. rewrite upd_same. cbn [k_must with_wait].
  destruct (Nat.eqb_spec (k_must (s_task k t)) 0) as [M|M]; cbn [negb].
  - right. set (s1 := set_task (set_ctl _ rest) t _).
    assert (Rg : exists h, s_task (fst (register s1 tr t true)) t = with_tcb (with_state (with_wait (s_task k t) WTrig) Pending) tr h \/
        exists h', s_task (fst (register s1 tr t true)) t = with_sched (with_tcb (with_state (with_wait (s_task k t) WTrig) Pending) tr h) h' None).
    { exists (s_next s1). unfold register. set (s2 := log _ _).
      assert (E2 : s_task s2 t = with_tcb (with_state (with_wait (s_task k t) WTrig) Pending) tr (s_next s1)).
      { subst s2 s1. cbn. rewrite !upd_same. reflexivity. }
      destruct (s_cbs s1 tr); [|left; exact E2]. destruct tr; try contradiction; cbn [prime fst].
      - destruct (s_event s2 e); [|left; exact E2]. cbn [fst]. destruct (react_task s2 (TEvent e) t) as [[_ ->]|[_ [h' ->]]]; rewrite E2; eauto.
      - left. exact E2. }
    assert (Nb : snd (register s1 tr t true) = false).
    { unfold register. destruct (s_cbs s1 tr); [|reflexivity]. destruct tr; try contradiction; reflexivity. }
    destruct (register s1 tr t true) as [s3 b]. cbn [fst snd] in *. subst b. destruct Rg as [h [E|[h' E]]]; [left|right]; eauto.
  - left. split; [exact M|]. cbn. rewrite upd_same. auto.
Qed.

Lemma DT_yield k rest t c tr c' : Inv k -> s_ctl k = FRun t :: rest -> match tr with TGpi _ | TEvent _ => True | _ => False end ->
  waits_on c' = tr -> ~ fresh c' -> DT k t c -> DT (fst (await_trigger k rest t tr true)) t c' /\ done (fst (await_trigger k rest t tr true)) t = false.
Proof.
  intros H Ec Tr Ew Nf D. assert (Rn := run_state k t rest H Ec). assert (Bg := T_begun _ _ _ D Rn).
  pose proof (yield_task k rest t tr Tr) as Y. cbv zeta in Y. set (k' := fst _) in *. clearbody k'. unfold done, state_of in *.
  destruct Y as [(M & E & C)|[[h E]|[h [h' E]]]]; (split; [constructor|]); unfold state_of; rewrite ?E; cbn; try congruence; try discriminate; auto.
  - intros _. exists rest. now right.
  - rewrite Rn. reflexivity.
  - intros _. split; [exact Nf|]. exists h. rewrite Ew. reflexivity.
Qed.

(** * The invariant *)
Definition nextv (sh : bool) (n : nat) : bool := if Nat.even n then sh else negb sh.
Lemma alt_snoc n : forall sh, alternating sh (S n) = alternating sh n ++ [nextv sh n].
Proof.
  induction n as [|n IH]; intro sh; [reflexivity|]. change (alternating sh (S (S n))) with (sh :: alternating (negb sh) (S n)).
  rewrite IH. cbn [alternating app]. do 3 f_equal. unfold nextv. rewrite Nat.even_succ, <- Nat.negb_even.
  destruct (Nat.even n); cbn; [reflexivity|]. now rewrite Bool.negb_involutive.
Qed.
Lemma next_succ sh n : nextv sh (S n) = negb (nextv sh n).
Proof. unfold nextv. rewrite Nat.even_succ, <- Nat.negb_even. destruct (Nat.even n); cbn; [reflexivity|]. now rewrite Bool.negb_involutive. Qed.
(** What the driver writes next. *)
Definition goes_on (c : code) (a : option bool) (sh : bool) (n : nat) : Prop :=
  match c with
  | CPy (PNew s) _ _ => s = sh /\ n = 0
  | CPy PHigh _ _ => n <> 0 /\ nextv sh n = false
  | CPy PLow _ _ => n <> 0 /\ nextv sh n = true
  | CGpi _ _ => match a with Some v => nextv sh n = negb v | None => True end
  end.
Record DI (x : dst) : Prop := {
  V_k : Inv (d_k x);
  V_new : forall t, state_of (d_k x) t = Unstarted -> k_begun (s_task (d_k x) t) = false;
  V_drv : forall t d, d_drv x t = Some d -> done (d_k x) t = true \/ DT (d_k x) t (v_code d);
  V_clock : forall c, d_clock x c = started c (d_hist x);
  V_cur : forall c t, d_clock x c = Some t -> exists d, d_drv x t = Some d /\ v_clock d = c;
  V_old : forall t d, d_drv x t = Some d -> d_clock x (v_clock d) = Some t \/ In (HStop (v_clock d) t) (d_hist x);
  V_stop : forall c t, In (HStop c t) (d_hist x) -> ended (d_k x) t /\ exists d, d_drv x t = Some d /\ v_clock d = c;
  V_arm : forall t v, d_armed x t = Some v -> exists c b e, d_drv x t = Some (Driver c (CGpi b e)) /\ orphan (d_k x) t (CGpi b e);
  V_write : forall t d, d_drv x t = Some d -> exists sh n, In (HStart (v_clock d) t sh) (d_hist x) /\
    rev (writes t (d_hist x)) = alternating sh n /\ goes_on (v_code d) (d_armed x t) sh n;
  V_none : forall t, d_drv x t = None -> writes t (d_hist x) = [] /\ forall c v, ~ In (HStart c t v) (d_hist x);
  V_once : forall c c' t v v', In (HStart c t v) (d_hist x) -> In (HStart c' t v') (d_hist x) -> c = c' /\ v = v';
  V_try : forall t, In (HTry t) (d_hist x) <-> exists c e, d_drv x t = Some (Driver c (CGpi true e)) }.

Lemma new_step k l k' r : Inv k -> step k l = Some (k', r) -> (forall t, state_of k t = Unstarted -> k_begun (s_task k t) = false) ->
  forall t, state_of k' t = Unstarted -> k_begun (s_task k' t) = false.
Proof.
  intros H St N t. assert (T := step_tstep _ _ _ _ t H St). specialize (N t). unfold state_of in *. remember (s_task k' t) as kt eqn:Ek. clear Ek.
  destruct T; cbn in *; auto; try discriminate; intro; try congruence; exfalso.
  - destruct e; cbn in *; try destruct (Nat.eqb _ _); discriminate.
  - unfold returned in *. destruct (Nat.eqb _ _); discriminate.
  - destruct e; cbn in *; try destruct (Nat.eqb _ _); discriminate.
Qed.

Lemma init_DI : DI dinit.
Proof.
  constructor; cbn; try discriminate; try (intros; contradiction); auto.
  - exact inv_init.
  - intro t. split; [intros []|]. intros (c & e & Q). discriminate.
Qed.

(** The kernel moves, and none of the drivers has control. *)
Lemma kstep_DI x l k' r : DI x -> step (d_k x) l = Some (k', r) -> prime_ok l -> (forall t, d_drv x t <> None -> ~ top t (d_k x)) -> DI (dset_k x k').
Proof.
  intros D St Pr Nt. pose proof (V_k x D) as H. destruct (inv_step _ l k' r H Pr St) as (H1 & Sb & _).
  assert (Nt' : forall t d, d_drv x t = Some d -> ~ top t (d_k x)) by (intros t d E; apply Nt; congruence).
  constructor; cbn [dset_k d_k d_clock d_drv d_armed d_hist]; try apply D.
  - exact H1.
  - exact (new_step _ _ _ _ H St (V_new x D)).
  - intros t d E. exact (DT_step _ l k' r t _ H St Pr (Nt' t d E) (V_drv x D t d E)).
  - intros c t I. destruct (V_stop x D c t I) as [En (d & E & Ec)]. split; [|eauto]. exact (ended_step _ l k' r t H St Pr (Nt' t d E) En).
  - intros t v A. destruct (V_arm x D t v A) as (c & b & e & E & O). exists c, b, e. split; [exact E|].
    exact (orphan_step _ l k' r t _ H St Pr (Nt' t _ E) (V_drv x D t _ E) O).
Qed.

Lemma not_top x t : duser x = true -> d_drv x t <> None -> ~ top t (d_k x).
Proof.
  intros U N [rest [E|E]]; unfold duser in U; rewrite E in U; destruct (d_drv x t); try discriminate; now elim N.
Qed.

(** [start] *)
Lemma start_DI x c t py sh ok a b : DI x -> s_halt (d_k x) = false -> duser x = true -> state_of (d_k x) t = Unstarted -> d_drv x t = None ->
  DI (fst (clock_start x c t py sh ok a b)).
Proof.
  intros D Ha U Un Dn. unfold clock_start. destruct (d_clock x c) as [u|] eqn:Ec; [exact D|].
  pose proof (V_k x D) as H. assert (St := op_step (d_k x) (OpStart t) Ha). cbn [do_op] in St. unfold start_soon in *. rewrite Un in *.
  set (k' := schedule_resume (d_k x) t None) in *.
  assert (D1 := kstep_DI x _ k' _ D St Logic.I (fun u => not_top x u U)).
  assert (Tk : s_task k' t = with_sched (s_task (d_k x) t) (s_next (d_k x)) None) by (subst k'; cbn; now rewrite upd_same).
  assert (Bg := V_new x D t Un).
  assert (A0 : d_armed x t = None).
  { destruct (d_armed x t) as [w|] eqn:A; [|reflexivity]. destruct (V_arm x D t w A) as (c0 & b0 & e0 & E0 & _). congruence. }
  assert (G : forall co a' (aa : tid -> option bool), fresh co -> (forall u, u <> t -> aa u = d_armed x u) ->
     aa t = match co with CPy _ _ _ => None | CGpi _ _ => Some sh end ->
     (match co with CPy p _ _ => a' = None /\ p = PNew sh | CGpi _ _ => a' = Some sh end) ->
     DI (DSt k' (upd (d_clock x) c (Some t)) (upd (d_drv x) t (Some (Driver c co))) aa
          (match a' with Some v => [HWrite t v] | None => [] end ++ HStart c t sh :: d_hist x))).
  { intros co a' aa Fr A1 A2 Sh. destruct (V_none x D t Dn) as [W0 N0].
    assert (Ws : forall u, writes u ((match a' with Some v => [HWrite t v] | None => [] end ++ HStart c t sh :: d_hist x)) =
       if Nat.eqb t u then match a' with Some v => [v] | None => [] end else writes u (d_hist x)).
    { intro u. destruct a' as [v|]; cbn; destruct (Nat.eqb_spec t u); subst; rewrite ?W0; reflexivity. }
    assert (In' : forall h, In h (match a' with Some v => [HWrite t v] | None => [] end ++ HStart c t sh :: d_hist x) <->
       h = HStart c t sh \/ In h (d_hist x) \/ exists v, a' = Some v /\ h = HWrite t v).
    { intro h. destruct a' as [v|]; cbn; (split; [intros I|intros I]).
      - destruct I as [<-|[<-|I]]; eauto.
      - destruct I as [->|[I|(w & Q & ->)]]; auto. injection Q as ->. auto.
      - destruct I as [<-|I]; eauto.
      - destruct I as [->|[I|(w & Q & ->)]]; auto. discriminate. }
    set (hh := match a' with Some v => [HWrite t v] | None => [] end ++ HStart c t sh :: d_hist x) in *.
    constructor; cbn [d_k d_clock d_drv d_armed d_hist].
    - exact (V_k _ D1).
    - exact (V_new _ D1).
    - intros u d. unfold upd at 1. destruct (Nat.eqb_spec u t) as [->|N]; [|apply (V_drv _ D1)]. intros [= <-]. right. cbn [v_code].
      constructor; unfold state_of; rewrite Tk; cbn; try discriminate; auto; try (intro F; now elim F).
    - intro c'. assert (Es : started c' hh = if Nat.eqb c c' then Some t else started c' (d_hist x)).
      { subst hh. destruct a'; cbn; reflexivity. }
      rewrite Es. unfold upd. rewrite Nat.eqb_sym. destruct (Nat.eqb c c'); [reflexivity|apply (V_clock x D)].
    - intros c' u. unfold upd. destruct (Nat.eqb_spec c' c) as [->|N].
      + intros [= <-]. rewrite Nat.eqb_refl. eauto.
      + intro Q. destruct (V_cur x D c' u Q) as (d & E & Cd). destruct (Nat.eqb_spec u t) as [->|N']; [congruence|]. eauto.
    - intros u d. unfold upd at 1. destruct (Nat.eqb_spec u t) as [->|N].
      + intros [= <-]. cbn [v_clock]. rewrite upd_same. now left.
      + intro E. destruct (V_old x D u d E) as [Q|Q]; [|right; apply In'; auto]. left. rewrite upd_other; [exact Q|]. intro Q2. rewrite Q2 in Q. congruence.
    - intros c' u I. apply In' in I. destruct I as [Q|[I|(v & _ & Q)]]; try discriminate. destruct (V_stop _ D1 c' u I) as [En (d & E & Cd)].
      split; [exact En|]. cbn [dset_k d_drv] in E. exists d. rewrite upd_other; [auto|]. intros ->. congruence.
    - intros u v. destruct (Nat.eq_dec u t) as [->|N].
      + rewrite upd_same. destruct co as [p q s|bb e].
        * rewrite A2. discriminate.
        * intros _. exists c, bb, e. split; [reflexivity|]. intros _. now left.
      + rewrite (A1 u N). intro A. destruct (V_arm _ D1 u v A) as (c0 & b0 & e0 & E & O). exists c0, b0, e0. rewrite upd_other; auto.
    - intros u d. unfold upd at 1. rewrite Ws. destruct (Nat.eqb_spec u t) as [->|N].
      + intros [= <-]. rewrite Nat.eqb_refl. cbn [v_clock v_code]. exists sh. destruct co as [p hi lo|bb e].
        * destruct Sh as [-> ->]. exists 0. split; [apply In'; auto|]. cbn. auto.
        * subst a'. exists 1. split; [apply In'; auto|]. split; [reflexivity|]. cbn. rewrite A2. reflexivity.
      + rewrite (A1 u N). destruct (Nat.eqb_spec t u); [congruence|]. intro E. destruct (V_write x D u d E) as (s & n0 & I & R & Go).
        exists s, n0. split; [apply In'; auto|]. auto.
    - intros u. unfold upd. rewrite Ws. destruct (Nat.eqb_spec u t) as [->|N]; [discriminate|]. intro E. destruct (V_none x D u E) as [W1 N1].
      destruct (Nat.eqb_spec t u); [congruence|]. split; [exact W1|]. intros c' v I. apply In' in I.
      destruct I as [Q|[I|(w & _ & Q)]]; [congruence|exact (N1 c' v I)|discriminate].
    - intros c1 c2 u v1 v2 I1 I2. apply In' in I1, I2.
      destruct I1 as [Q1|[I1|(w & _ & Q1)]]; [| |discriminate]; (destruct I2 as [Q2|[I2|(w' & _ & Q2)]]; [| |discriminate]).
      + split; congruence.
      + injection Q1 as -> -> ->. now elim (N0 c2 v2).
      + injection Q2 as -> -> ->. now elim (N0 c1 v1).
      + exact (V_once x D c1 c2 u v1 v2 I1 I2).
    - intro u. split.
      + intro I. apply In' in I. destruct I as [Q|[I|(v & _ & Q)]]; try discriminate. apply (V_try x D u) in I. destruct I as (c0 & e0 & E).
        exists c0, e0. rewrite upd_other; [exact E|]. intros ->. congruence.
      + intros (c0 & e0 & E). apply In'. right. left. apply (V_try x D u). revert E. unfold upd. destruct (Nat.eqb_spec u t) as [->|N].
        * intros [= -> ->]. contradiction.
        * eauto. }
  destruct py.
  - exact (G (CPy (PNew sh) a b) None (d_armed x) Logic.I (fun _ _ => eq_refl) A0 (conj eq_refl eq_refl)).
  - destruct ok; [|exact D]. unfold dset_armed. cbn [d_k]. rewrite Un. fold k'.
    exact (G (CGpi false a) (Some sh) (upd (d_armed x) t (Some sh)) Logic.I (fun u N => upd_other _ _ _ _ N) (upd_same _ _ _) eq_refl).
Qed.

(** [stop] *)
Lemma cancel_ended k t m k' r : cancel k t m = (k', r) -> (forall e, r <> RErr e) -> ended k' t.
Proof.
  unfold cancel, ended, done. intros E N. destruct (state_of k t) eqn:Es; try (injection E as <- <-).
  - right. unfold state_of. cbn. rewrite !upd_same. cbn. eauto.
  - right. unfold state_of in *. cbn. rewrite !upd_same. cbn. eauto.
  - destruct (cancel_tcb k t) as [s1 [e|]]; injection E as <- <-; [now elim (N e)|]. right. unfold state_of. cbn. rewrite !upd_same. cbn. eauto.
  - now elim (N PRuntime).
  - left. rewrite Es. reflexivity.
  - left. rewrite Es. reflexivity.
  - left. rewrite Es. reflexivity.
Qed.
Lemma stop_cancel x c t : DI x -> s_halt (d_k x) = false -> duser x = true -> d_clock x c = Some t ->
  exists k' b, cancel (d_k x) t 0 = (k', RBool b).
Proof.
  intros D Ha U Ec. pose proof (V_k x D) as H. destruct (V_cur x D c t Ec) as (d & Ed & _).
  assert (Nt : ~ top t (d_k x)) by (apply (not_top x t U); congruence).
  assert (Nr : state_of (d_k x) t <> Running).
  { intro R. destruct (V_drv x D t d Ed) as [Dn|Q]; [unfold done in Dn; rewrite R in Dn; discriminate|exact (Nt (T_top _ _ _ Q R))]. }
  destruct (ok_cancel (d_k x) t 0 H) as [_ F]. unfold cancel in *. destruct (state_of (d_k x) t); try (now elim Nr); eauto.
  assert (Er : forall e, snd (cancel_tcb (d_k x) t) = Some e -> e = PKey \/ e = PAssert).
  { intro e. unfold cancel_tcb, deregister. destruct (k_tcb _) as [[tr h]|]; [|intros [= <-]; auto].
    destruct (existsb _ _); [|intros [= <-]; auto]. cbv zeta. destruct (s_cbs (set_cbs _ _ _) tr); [|discriminate].
    destruct tr; cbn; try discriminate. destruct (g_hdl _); [discriminate|intros [= <-]; auto]. }
  destruct (cancel_tcb (d_k x) t) as [s1 [e|]]; cbn in *; [|eauto]. exfalso. destruct (Er e eq_refl) as [->| ->]; exact F.
Qed.

Lemma stop_DI x c : DI x -> s_halt (d_k x) = false -> duser x = true -> DI (fst (clock_stop x c)).
Proof.
  intros D Ha U. unfold clock_stop. destruct (d_clock x c) as [t|] eqn:Ec; [|exact D].
  destruct (stop_cancel x c t D Ha U Ec) as (k' & b & E). rewrite E. cbn [fst].
  assert (St := op_step (d_k x) (OpCancel t 0) Ha). cbn [do_op] in St. rewrite E in St.
  assert (D1 := kstep_DI x _ k' _ D St Logic.I (fun u => not_top x u U)).
  assert (En : ended k' t) by (apply (cancel_ended _ _ _ _ _ E); discriminate).
  destruct (V_cur x D c t Ec) as (d & Ed & Cd).
  constructor; cbn [dlog dset_clock dset_k d_k d_clock d_drv d_armed d_hist].
  - exact (V_k _ D1).
  - exact (V_new _ D1).
  - exact (V_drv _ D1).
  - intro c'. cbn [started]. unfold upd. rewrite Nat.eqb_sym. destruct (Nat.eqb c c'); [reflexivity|apply (V_clock x D)].
  - intros c' u. unfold upd. destruct (Nat.eqb_spec c' c); [discriminate|]. apply (V_cur x D).
  - intros u d' E'. unfold upd. destruct (Nat.eqb_spec (v_clock d') c) as [Q|N].
    + right. destruct (V_old x D u d' E') as [I|I]; [|now right]. left. rewrite Q in *. congruence.
    + destruct (V_old x D u d' E') as [I|I]; [now left|right; now right].
  - intros c' u [Q|I]; [|exact (V_stop _ D1 c' u I)]. injection Q as <- <-. eauto.
  - exact (V_arm _ D1).
  - intros u d' E'. destruct (V_write x D u d' E') as (sh & n & I & R & G). exists sh, n. split; [now right|]. auto.
  - intros u E'. destruct (V_none x D u E') as [W N]. split; [exact W|]. intros c' v [Q|I]; [discriminate|exact (N c' v I)].
  - intros c1 c2 u v1 v2 [Q1|I1] [Q2|I2]; try discriminate. exact (V_once x D _ _ _ _ _ I1 I2).
  - intro u. rewrite <- (V_try x D u). split; [intros [Q|I]; [discriminate|exact I]|now right].
Qed.

(** * A driver has control *)
Lemma turn_DI x l k' r t d d' drv' arm' new : DI x -> d_drv x t = Some d -> top t (d_k x) -> step (d_k x) l = Some (k', r) -> prime_ok l ->
  drv' t = Some d' -> (forall u, u <> t -> drv' u = d_drv x u) -> (forall u, u <> t -> arm' u = d_armed x u) -> v_clock d' = v_clock d ->
  done k' t = true \/ DT k' t (v_code d') ->
  (ended (d_k x) t -> ended k' t) ->
  (forall v, arm' t = Some v -> (exists b e, v_code d' = CGpi b e) /\ orphan k' t (v_code d')) ->
  (new = [] \/ new = [HTry t] \/ exists v, new = [HWrite t v]) ->
  (forall sh n, goes_on (v_code d) (d_armed x t) sh n -> goes_on (v_code d') (arm' t) sh (length (writes t new) + n) /\
     forall v, new = [HWrite t v] -> v = nextv sh n) ->
  (In (HTry t) (new ++ d_hist x) <-> exists e, v_code d' = CGpi true e) ->
  DI (DSt k' (d_clock x) drv' arm' (new ++ d_hist x)).
Proof.
  intros D Ed Tp St Pr Ed' Ou Oa Cd Dt En Ar Nw Go Ty. pose proof (V_k x D) as H. destruct (inv_step _ l k' r H Pr St) as (H1 & Sb & _).
  assert (Nt : forall u, u <> t -> ~ top u (d_k x)).
  { intros u N [r1 E1]. destruct Tp as [r2 E2]. destruct E1 as [E1|E1], E2 as [E2|E2]; rewrite E1 in E2; inversion E2; congruence. }
  assert (Old : forall h, In h (d_hist x) -> In h (new ++ d_hist x)) by (intros; apply in_or_app; auto).
  assert (Ns : forall h, In h (new ++ d_hist x) -> h = HTry t \/ (exists v, h = HWrite t v) \/ In h (d_hist x)).
  { intros h I. apply in_app_or in I. destruct I as [I|I]; [|auto]. destruct Nw as [->|[->|[v ->]]]; [destruct I|destruct I as [<-|[]]|destruct I as [<-|[]]]; eauto. }
  assert (Ws : forall u, u <> t -> writes u (new ++ d_hist x) = writes u (d_hist x)).
  { intros u N. destruct Nw as [->|[->|[v ->]]]; try reflexivity. cbn. destruct (Nat.eqb_spec t u); [congruence|reflexivity]. }
  constructor; cbn [d_k d_clock d_drv d_armed d_hist].
  - exact H1.
  - exact (new_step _ _ _ _ H St (V_new x D)).
  - intros u e. destruct (Nat.eq_dec u t) as [->|N]; [rewrite Ed'; intros [= <-]; exact Dt|]. rewrite (Ou u N). intro E.
    exact (DT_step _ l k' r u _ H St Pr (Nt u N) (V_drv x D u e E)).
  - intro c. rewrite (V_clock x D). destruct Nw as [->|[->|[v ->]]]; reflexivity.
  - intros c u E. destruct (V_cur x D c u E) as (e & Ee & Ce). destruct (Nat.eq_dec u t) as [->|N].
    + exists d'. split; [exact Ed'|]. congruence.
    + exists e. rewrite (Ou u N). auto.
  - intros u e. destruct (Nat.eq_dec u t) as [->|N].
    + rewrite Ed'. intros [= <-]. rewrite Cd. destruct (V_old x D t d Ed); auto.
    + rewrite (Ou u N). intro E. destruct (V_old x D u e E); auto.
  - intros c u I. destruct (Ns _ I) as [Q|[[v Q]|I']]; try discriminate. destruct (V_stop x D c u I') as [E (e & Ee & Ce)].
    destruct (Nat.eq_dec u t) as [->|N].
    + split; [auto|]. exists d'. split; [exact Ed'|]. congruence.
    + split; [exact (ended_step _ l k' r u H St Pr (Nt u N) E)|]. exists e. rewrite (Ou u N). auto.
  - intros u v. destruct (Nat.eq_dec u t) as [->|N].
    + intro A. destruct (Ar v A) as [(b & e & Q) O]. exists (v_clock d'), b, e. rewrite <- Q. split; [|exact O]. rewrite Ed'. destruct d'; reflexivity.
    + rewrite (Oa u N), (Ou u N). intro A. destruct (V_arm x D u v A) as (c & b & e & Ee & O). exists c, b, e. split; [exact Ee|].
      exact (orphan_step _ l k' r u _ H St Pr (Nt u N) (V_drv x D u _ Ee) O).
  - intros u e. destruct (Nat.eq_dec u t) as [->|N].
    + rewrite Ed'. intros [= <-]. destruct (V_write x D t d Ed) as (sh & n & I & R & G). destruct (Go sh n G) as [G' V'].
      exists sh, (length (writes t new) + n). split; [rewrite Cd; auto|]. split; [|exact G'].
      destruct Nw as [->|[->|[v ->]]]; try exact R. cbn [app writes]. rewrite Nat.eqb_refl. cbn [rev length]. rewrite R.
      rewrite (V' v eq_refl). symmetry. apply alt_snoc.
    + rewrite (Ou u N), (Oa u N), (Ws u N). intro E. destruct (V_write x D u e E) as (sh & n & I & R & G). exists sh, n. auto.
  - intros u. destruct (Nat.eq_dec u t) as [->|N]; [rewrite Ed'; discriminate|]. rewrite (Ou u N), (Ws u N). intro E.
    destruct (V_none x D u E) as [W S]. split; [exact W|]. intros c v I. destruct (Ns _ I) as [Q|[[w Q]|I']]; try discriminate. exact (S c v I').
  - intros c1 c2 u v1 v2 I1 I2. destruct (Ns _ I1) as [Q|[[w Q]|J1]]; try discriminate. destruct (Ns _ I2) as [Q|[[w Q]|J2]]; try discriminate.
    exact (V_once x D _ _ _ _ _ J1 J2).
  - intro u. destruct (Nat.eq_dec u t) as [->|N].
    + rewrite Ty. split; intros (e & Q).
      * exists (v_clock d'), e. rewrite Ed', <- Q. destruct d'; reflexivity.
      * destruct Q as [e' Q]. rewrite Ed' in Q. injection Q as ->. cbn. eauto.
    + rewrite (Ou u N), <- (V_try x D u). split; [|auto]. intro I. destruct (Ns _ I) as [Q|[[w Q]|I']]; try discriminate; [congruence|exact I'].
Qed.
Lemma not_ended k t rest : Inv k -> s_ctl k = FRun t :: rest -> k_exc (s_task k t) = None -> ~ ended k t.
Proof.
  intros H Ec Ex [D|[[m E] _]]; [|congruence]. assert (R := run_state k t rest H Ec). unfold done in D. rewrite R in D. discriminate.
Qed.
Lemma running_DT x t d : DI x -> d_drv x t = Some d -> state_of (d_k x) t = Running -> DT (d_k x) t (v_code d).
Proof. intros D E R. destruct (V_drv x D t d E) as [Q|Q]; [|exact Q]. unfold done in Q. rewrite R in Q. discriminate. Qed.

Lemma goes_same c a sh n : goes_on c a sh n -> goes_on c a sh (length (writes 0 []) + n).
Proof. exact (fun G => G). Qed.
Lemma put_DI x rest t d v hi lo : DI x -> s_halt (d_k x) = false -> s_ctl (d_k x) = FRun t :: rest -> d_drv x t = Some d ->
  k_exc (s_task (d_k x) t) = None -> (exists p, v_code d = CPy p hi lo) ->
  (forall a sh n, goes_on (v_code d) a sh n -> v = nextv sh n) -> DI (put x rest t d v hi lo).
Proof.
  intros D Ha Ec Ed Ex [p Ep] Gv. unfold put. cbn [dlog d_k]. set (tr := TGpi (if v then hi else lo)).
  pose proof (V_k x D) as H. assert (R := run_state _ _ _ H Ec). assert (T := running_DT x t d D Ed R).
  assert (St := await_step (d_k x) t rest tr true Ha Ec).
  destruct (DT_yield (d_k x) rest t (v_code d) tr (CPy (if v then PHigh else PLow) hi lo) H Ec Logic.I) as [T' Nd]; [destruct v; reflexivity|destruct v; exact (fun f => f)|exact T|].
  destruct (await_trigger (d_k x) rest t tr true) as [k' r]. cbn [fst] in *.
  apply (turn_DI x _ k' r t d (Driver (v_clock d) (CPy (if v then PHigh else PLow) hi lo)) _ (d_armed x) [HWrite t v] D Ed (ex_intro _ rest (or_introl Ec)) St eq_refl
    (upd_same _ _ _) (fun u N => upd_other _ _ _ _ N) (fun _ _ => eq_refl) eq_refl (or_intror T')).
  - intro En. now elim (not_ended _ _ _ H Ec Ex).
  - intros w A. destruct (V_arm x D t w A) as (c & b & e & E & _). rewrite E in Ed. injection Ed as <-. discriminate Ep.
  - eauto.
  - intros sh n G. assert (E := Gv _ sh n G). cbn [writes]. rewrite Nat.eqb_refl. cbn [length Nat.add v_code]. split.
    + destruct v; cbn [goes_on]; (split; [discriminate|]); rewrite next_succ, <- E; reflexivity.
    + intros w [= <-]. exact E.
  - cbn [app v_code]. split; [|intros [e Q]; discriminate]. intros [Q|I]; [discriminate|]. apply (V_try x D t) in I.
    destruct I as (c & e & E). rewrite E in Ed. injection Ed as <-. discriminate Ep.
Qed.

(** The driver ends. *)
Lemma end_DI x l k' r t d arm' : DI x -> top t (d_k x) -> d_drv x t = Some d -> step (d_k x) l = Some (k', r) -> prime_ok l ->
  done k' t = true -> (forall u, u <> t -> arm' u = d_armed x u) -> (arm' t = None) ->
  DI (DSt k' (d_clock x) (d_drv x) arm' (d_hist x)).
Proof.
  intros D Tp Ed St Pr Dn Oa A. change (d_hist x) with ([] ++ d_hist x).
  apply (turn_DI x l k' r t d d (d_drv x) arm' [] D Ed Tp St Pr Ed (fun _ _ => eq_refl) Oa eq_refl (or_introl Dn)).
  - intros _. now left.
  - rewrite A. discriminate.
  - now left.
  - intros sh n G. split; [|discriminate]. cbn [writes length Nat.add]. rewrite A. destruct (v_code d) as [[ | | ] ? ?|? ?]; cbn in *; auto.
  - cbn [app]. rewrite (V_try x D t), Ed. split.
    + intros (c & e & [= ->]). cbn. eauto.
    + intros [e Q]. exists (v_clock d), e. rewrite <- Q. destruct d; reflexivity.
Qed.

Lemma go_DI x rest t d bad : DI x -> s_halt (d_k x) = false -> s_ctl (d_k x) = FRun t :: rest -> d_drv x t = Some d ->
  DI (drive_go x rest t d bad).
Proof.
  intros D Ha Ec Ed. pose proof (V_k x D) as H. assert (R := run_state _ _ _ H Ec). assert (T := running_DT x t d D Ed R).
  assert (Tp : top t (d_k x)) by (exists rest; now left).
  assert (Sr : forall e, step (d_k x) (LRaise e) = Some (coro_raised (set_ctl (d_k x) rest) t e, RUnit)) by (intro e; unfold step; rewrite Ha, Ec; reflexivity).
  assert (Sv : step (d_k x) (LReturn 0) = Some (coro_returned (set_ctl (d_k x) rest) t 0, RUnit)) by (unfold step; rewrite Ha, Ec; reflexivity).
  unfold drive_go. destruct (v_code d) as [p hi lo|tried e] eqn:Ep.
  - assert (Na : d_armed x t = None).
    { destruct (d_armed x t) as [w|] eqn:A; [|reflexivity]. destruct (V_arm x D t w A) as (c & b & e & E & _). rewrite E in Ed. injection Ed as <-. discriminate Ep. }
    assert (Lv : forall e, DI (leave x rest t e)).
    { intro e. exact (end_DI x _ _ _ t d _ D Tp Ed (Sr e) Logic.I (raised_done _ _ _) (fun _ _ => eq_refl) Na). }
    destruct (k_exc _) as [e|] eqn:Ex; [apply Lv|]. destruct bad as [n|]; [apply Lv|].
    destruct p as [sh| | ].
    + apply put_DI; auto; [eauto|]. rewrite Ep. intros a s n [-> ->]. reflexivity.
    + apply put_DI; auto; [eauto|]. rewrite Ep. intros a s n [_ G]. exact (eq_sym G).
    + apply put_DI; auto; [eauto|]. rewrite Ep. intros a s n [_ G]. exact (eq_sym G).
  - destruct tried.
    + cbn [dset_armed d_k]. destruct (k_exc _) as [ex|] eqn:Ex.
      * exact (end_DI x _ _ _ t d _ D Tp Ed (Sr ex) Logic.I (raised_done _ _ _) (fun u N => upd_other _ _ _ _ N) (upd_same _ _ _)).
      * exact (end_DI x _ _ _ t d _ D Tp Ed Sv Logic.I (returned_done _ _ _) (fun u N => upd_other _ _ _ _ N) (upd_same _ _ _)).
    + assert (Ex : k_exc (s_task (d_k x) t) = None).
      { assert (B := T_begun _ _ _ T R). destruct (T_fresh _ _ _ T Logic.I) as [Q|[_ Q]]; [congruence|exact Q]. }
      assert (St := await_step (d_k x) t rest (TEvent e) true Ha Ec).
      destruct (DT_yield (d_k x) rest t _ (TEvent e) (CGpi true e) H Ec Logic.I eq_refl (fun f => f) T) as [T' Nd].
      destruct (await_trigger (d_k x) rest t (TEvent e) true) as [k' r]. cbn [fst] in *.
      apply (turn_DI x _ k' r t d (Driver (v_clock d) (CGpi true e)) _ (d_armed x) [HTry t] D Ed Tp St eq_refl
        (upd_same _ _ _) (fun u N => upd_other _ _ _ _ N) (fun _ _ => eq_refl) eq_refl (or_intror T')).
      * intro En. now elim (not_ended _ _ _ H Ec Ex).
      * intros v A. split; [cbn; eauto|]. intro Q. congruence.
      * auto.
      * intros sh n G. split; [|discriminate]. rewrite Ep in G. exact G.
      * cbn [v_code]. split; [eauto|]. intros _. now left.
Qed.
Lemma close_DI x rest t d : DI x -> s_halt (d_k x) = false -> s_ctl (d_k x) = FClose t :: rest -> d_drv x t = Some d ->
  DI (drive_close x rest t d).
Proof.
  intros D Ha Ec Ed. pose proof (V_k x D) as H. assert (R : state_of (d_k x) t = Running) by (apply (L_run _ _ (J_loc _ _ H)); rewrite Ec; now left).
  assert (T := running_DT x t d D Ed R). assert (Tp : top t (d_k x)) by (exists rest; now right).
  assert (Sc : step (d_k x) LCloseEnd = Some (set_outcome (set_ctl (d_k x) rest) t Errored (OExc EIgnoredCancel) AfterResume, RUnit)) by (unfold step; rewrite Ha, Ec; reflexivity).
  unfold drive_close. destruct (v_code d) as [p hi lo|[|] e] eqn:Ep.
  - assert (Na : d_armed x t = None).
    { destruct (d_armed x t) as [w|] eqn:A; [|reflexivity]. destruct (V_arm x D t w A) as (c & b & e & E & _). rewrite E in Ed. injection Ed as <-. discriminate Ep. }
    exact (end_DI x _ _ _ t d _ D Tp Ed Sc Logic.I (outcome_done _ _ _ _) (fun _ _ => eq_refl) Na).
  - exact (end_DI x _ _ _ t d _ D Tp Ed Sc Logic.I (outcome_done _ _ _ _) (fun u N => upd_other _ _ _ _ N) (upd_same _ _ _)).
  - change (DI (DSt (set_outcome (set_ctl (d_k x) rest) t Errored (OExc EIgnoredCancel) AfterResume) (d_clock x) (d_drv x) (d_armed x) ([] ++ d_hist x))).
    apply (turn_DI x _ _ _ t d d (d_drv x) (d_armed x) [] D Ed Tp Sc Logic.I Ed (fun _ _ => eq_refl) (fun _ _ => eq_refl) eq_refl (or_introl (outcome_done _ _ _ _))).
    + intros _. left. apply outcome_done.
    + intros v _. rewrite Ep. split; [eauto|]. intros _. left. exact Logic.I.
    + auto.
    + intros sh n G. split; [exact G|discriminate].
    + cbn [app]. rewrite (V_try x D t), Ed, Ep. split; [|intros [? Q]; discriminate]. intros (c & e0 & Q). injection Q as ->. discriminate Ep.
Qed.

Lemma toggle_DI x t v (ok : bool) : DI x -> d_armed x t = Some v ->
  DI (dlog (dset_armed x t (if ok then Some (negb v) else None)) (HWrite t (negb v))).
Proof.
  intros D A. destruct (V_arm x D t v A) as (c & b & e & Ed & Or).
  constructor; cbn [dlog dset_armed d_k d_clock d_drv d_armed d_hist]; try apply D.
  - intros u d E. destruct (V_old x D u d E); auto. right. now right.
  - intros c' u [Q|I]; [discriminate|exact (V_stop x D c' u I)].
  - intros u w. unfold upd. destruct (Nat.eqb_spec u t) as [->|N]; [|apply (V_arm x D)]. intros _. eauto.
  - intros u d E. destruct (V_write x D u d E) as (sh & n & I & R & G). cbn [writes]. unfold upd. destruct (Nat.eqb_spec t u) as [<-|N].
    + rewrite Nat.eqb_refl. rewrite Ed in E. injection E as <-. cbn [v_code v_clock] in *. rewrite A in G. cbn in G.
      exists sh, (S n). split; [now right|]. split; [cbn [rev]; rewrite R, alt_snoc, G; reflexivity|]. destruct ok; cbn; [|exact Logic.I].
      rewrite next_succ, G. reflexivity.
    + destruct (Nat.eqb_spec u t); [congruence|]. exists sh, n. split; [now right|]. auto.
  - intros u E. destruct (V_none x D u E) as [W N]. cbn [writes]. destruct (Nat.eqb_spec t u) as [<-|Ne]; [congruence|]. split; [exact W|].
    intros c' w [Q|I]; [discriminate|exact (N c' w I)].
  - intros c1 c2 u v1 v2 [Q1|I1] [Q2|I2]; try discriminate. exact (V_once x D _ _ _ _ _ I1 I2).
  - intro u. rewrite <- (V_try x D u). split; [intros [Q|I]; [discriminate|exact I]|now right].
Qed.
Lemma drop_DI x t : DI x -> DI (dset_armed x t None).
Proof.
  intros D. constructor; cbn [dset_armed d_k d_clock d_drv d_armed d_hist]; try apply D.
  - intros u w. unfold upd. destruct (Nat.eqb_spec u t); [discriminate|apply (V_arm x D)].
  - intros u d E. destruct (V_write x D u d E) as (sh & n & I & R & G). exists sh, n. split; [exact I|]. split; [exact R|].
    unfold upd. destruct (Nat.eqb_spec u t); [|exact G]. destruct (v_code d) as [[ | | ] ? ?|? ?]; cbn in *; auto.
Qed.

Lemma dstep_DI x l x' r : DI x -> match l with DUser (LAwait _ ok) => ok = true | _ => True end -> dstep x l = Some (x', r) -> DI x'.
Proof.
  intros D Pr St. unfold dstep in St. destruct (s_halt (d_k x)) eqn:Ha; [discriminate|]. destruct l as [kl|c t py sh ok a b|c|bad|t ok|t].
  - destruct (duser x) eqn:U; [|discriminate]. destruct (step (d_k x) kl) as [[k' q]|] eqn:Sk; [|discriminate]. injection St as <- <-.
    apply (kstep_DI x kl k' q D Sk); [destruct kl; exact Pr || exact Logic.I|]. intros t N. exact (not_top x t U N).
  - destruct (duser x) eqn:U; [|discriminate]. destruct (state_of (d_k x) t) eqn:Es; try discriminate. destruct (d_drv x t) eqn:Ed; [discriminate|].
    injection St as E. assert (G := start_DI x c t py sh ok a b D Ha U Es Ed). rewrite E in G. exact G.
  - destruct (duser x) eqn:U; [|discriminate]. injection St as E. assert (G := stop_DI x c D Ha U). rewrite E in G. exact G.
  - destruct (s_ctl (d_k x)) as [|[t|t| ] rest] eqn:Ec; try discriminate; destruct (d_drv x t) as [d|] eqn:Ed; try discriminate; injection St as <- <-.
    + exact (go_DI x rest t d bad D Ha Ec Ed).
    + exact (close_DI x rest t d D Ha Ec Ed).
  - destruct (s_ctl (d_k x)); [|discriminate]. destruct (s_queue (d_k x)); [|discriminate]. destruct (d_armed x t) as [v|] eqn:A; [|discriminate].
    injection St as <- <-. exact (toggle_DI x t v ok D A).
  - destruct (done (d_k x) t); [|discriminate]. injection St as <- <-. exact (drop_DI x t D).
Qed.
Theorem reach_DI ls x : dreach ls x -> DI x.
Proof. induction 1 as [|ls x l x' r R IH Pr St]; [exact init_DI|exact (dstep_DI x l x' r IH Pr St)]. Qed.

(** * Results *)
Lemma rest_done x t d : DI x -> at_rest x -> d_drv x t = Some d ->
  done (d_k x) t = true \/ exists h, In (h, t) (s_cbs (d_k x) (waits_on (v_code d))) /\ ~ fresh (v_code d).
Proof.
  intros D [Rc Rq] Ed. pose proof (J_loc _ _ (V_k x D)) as L. destruct (V_drv x D t d Ed) as [Dn|T]; [now left|].
  destruct (state_of (d_k x) t) eqn:Es; try (left; unfold done; rewrite Es; reflexivity).
  - now elim (T_old _ _ _ T).
  - destruct (L_sched _ _ L t (fun f => f) Es) as [h I]. rewrite Rq in I. destruct I.
  - destruct (T_pend _ _ _ T Es) as [Nf [h E]]. right. destruct (L_pend _ _ L t (fun f => f) Es) as (tr & h' & I).
    destruct (L_cpend _ _ L _ _ _ I) as (_ & _ & E'). rewrite E in E'. injection E' as <- <-. eauto.
  - destruct (T_top _ _ _ T Es) as [r [E|E]]; rewrite Rc in E; discriminate.
Qed.
Lemma rest_ended x t : DI x -> at_rest x -> ended (d_k x) t -> done (d_k x) t = true.
Proof.
  intros D [Rc Rq] [Dn|[_ [Es|[Es [r E]]]]]; [exact Dn| |].
  - destruct (L_sched _ _ (J_loc _ _ (V_k x D)) t (fun f => f) Es) as [h I]. rewrite Rq in I. destruct I.
  - rewrite Rc in E. discriminate.
Qed.

Theorem one_pf ls x t d : dreach ls x -> at_rest x -> d_drv x t = Some d -> done (d_k x) t = false -> started (v_clock d) (d_hist x) = Some t.
Proof.
  intros R Rs Ed Nd. assert (D := reach_DI ls x R). rewrite <- (V_clock x D). destruct (V_old x D t d Ed) as [E|I]; [exact E|].
  destruct (V_stop x D _ _ I) as [En _]. rewrite (rest_ended x t D Rs En) in Nd. discriminate.
Qed.
Theorem waits_pf ls x t c p hi lo : dreach ls x -> at_rest x -> d_drv x t = Some (Driver c (CPy p hi lo)) -> done (d_k x) t = false ->
  exists v w h, writes t (d_hist x) = v :: w /\ In (h, t) (s_cbs (d_k x) (TGpi (if v then hi else lo))).
Proof.
  intros R Rs Ed Nd. assert (D := reach_DI ls x R). destruct (rest_done x t _ D Rs Ed) as [Q|[h [I Nf]]]; [congruence|].
  destruct (V_write x D t _ Ed) as (sh & n & _ & Wr & G). cbn [v_code] in *.
  assert (Q : forall b, nextv sh n = negb b -> n <> 0 -> exists w, writes t (d_hist x) = b :: w).
  { intros b Eb N. destruct n as [|n]; [now elim N|]. rewrite next_succ in Eb. assert (Eb' : nextv sh n = b) by (destruct (nextv sh n), b; auto).
    rewrite alt_snoc in Wr. apply (f_equal (@rev bool)) in Wr. rewrite rev_involutive, rev_app_distr in Wr. cbn in Wr. rewrite Eb' in Wr. eauto. }
  destruct p as [s| | ]; cbn in Nf, G.
  - now elim Nf.
  - destruct G as [N G]. destruct (Q true G N) as [w E]. exists true, w, h. auto.
  - destruct G as [N G]. destruct (Q false G N) as [w E]. exists false, w, h. auto.
Qed.
Theorem alternates_pf ls x t v c : dreach ls x -> In (HStart c t v) (d_hist x) ->
  rev (writes t (d_hist x)) = alternating v (length (writes t (d_hist x))).
Proof.
  intros R I. assert (D := reach_DI ls x R). destruct (d_drv x t) as [d|] eqn:Ed.
  - destruct (V_write x D t d Ed) as (sh & n & I' & Wr & _). destruct (V_once x D _ _ _ _ _ I I') as [_ <-]. rewrite Wr at 1.
    f_equal. rewrite <- rev_length, Wr. clear. revert v. induction n as [|n IH]; intro v; [reflexivity|]. cbn. f_equal. apply IH.
  - destruct (V_none x D t Ed) as [_ N]. now elim (N c v).
Qed.
Theorem start_pf ls x c t py sh ok a b x' r : dreach ls x -> dstep x (DStart c t py sh ok a b) = Some (x', r) ->
  match started c (d_hist x) with
  | Some _ => r = DErr /\ x' = x
  | None => if py || ok then r = DTask t /\ started c (d_hist x') = Some t else r = DBad /\ x' = x
  end.
Proof.
  intros R St. assert (D := reach_DI ls x R). unfold dstep in St. destruct (s_halt _); [discriminate|]. destruct (duser x); [|discriminate].
  destruct (state_of (d_k x) t) eqn:Es; try discriminate. destruct (d_drv x t); [discriminate|]. injection St as E. rewrite <- (V_clock x D).
  unfold clock_start in E. destruct (d_clock x c); [injection E as <- <-; auto|]. unfold start_soon in E. destruct py; cbn [orb].
  - rewrite Es in E. injection E as <- <-. cbn. rewrite Nat.eqb_refl. auto.
  - destruct ok; [|injection E as <- <-; auto]. cbn [dset_armed d_k] in E. rewrite Es in E. injection E as <- <-. cbn. rewrite Nat.eqb_refl. auto.
Qed.
Theorem stop_pf ls x c x' r : dreach ls x -> dstep x (DStop c) = Some (x', r) ->
  match started c (d_hist x) with
  | Some t => r = DNone /\ d_hist x' = HStop c t :: d_hist x
  | None => r = DErr /\ x' = x
  end.
Proof.
  intros R St. assert (D := reach_DI ls x R). unfold dstep in St. destruct (s_halt _) eqn:Ha; [discriminate|]. destruct (duser x) eqn:U; [|discriminate].
  injection St as E. rewrite <- (V_clock x D). unfold clock_stop in E. destruct (d_clock x c) as [t|] eqn:Ec; [|injection E as <- <-; auto].
  destruct (stop_cancel x c t D Ha U Ec) as (k' & b & Q). rewrite Q in E. injection E as <- <-. auto.
Qed.

Definition silenced (x : dst) (t : tid) : Prop :=
  done (d_k x) t = true /\ exists c b e, d_drv x t = Some (Driver c (CGpi b e)) /\ (b = false \/ was_killed x t).
Lemma dstep_stable x l x' r : DI x -> match l with DUser (LAwait _ ok) => ok = true | _ => True end -> dstep x l = Some (x', r) -> Stable (d_k x) (d_k x').
Proof.
  intros D Pr St. pose proof (V_k x D) as H. unfold dstep in St. destruct (s_halt (d_k x)) eqn:Ha; [discriminate|].
  assert (S1 : forall kl k' q, prime_ok kl -> step (d_k x) kl = Some (k', q) -> Stable (d_k x) k') by (intros kl k' q P Q; apply (inv_step _ kl k' q H P Q)).
  destruct l as [kl|c t py sh ok a b|c|bad|t ok|t].
  - destruct (duser x); [|discriminate]. destruct (step (d_k x) kl) as [[k' q]|] eqn:Sk; [|discriminate]. injection St as <- <-.
    apply (S1 kl k' q); [destruct kl; exact Pr || exact Logic.I|exact Sk].
  - destruct (duser x); [|discriminate]. destruct (state_of (d_k x) t) eqn:Es; try discriminate. destruct (d_drv x t); [discriminate|]. injection St as E.
    assert (S2 := op_step (d_k x) (OpStart t) Ha). cbn [do_op] in S2. unfold start_soon in S2. rewrite Es in S2.
    unfold clock_start, start_soon in E. destruct (d_clock x c); [injection E as <- <-; apply stable_refl|]. destruct py.
    + rewrite Es in E. injection E as <- <-. apply (S1 (LOp (OpStart t)) _ _ Logic.I S2).
    + destruct ok; [|injection E as <- <-; apply stable_refl]. cbn [dset_armed d_k] in E. rewrite Es in E. injection E as <- <-. apply (S1 (LOp (OpStart t)) _ _ Logic.I S2).
  - destruct (duser x) eqn:U; [|discriminate]. injection St as E. unfold clock_stop in E. destruct (d_clock x c) as [t|] eqn:Ec; [|injection E as <- <-; apply stable_refl].
    destruct (stop_cancel x c t D Ha U Ec) as (k' & b & Q). rewrite Q in E. injection E as <- <-.
    assert (S2 := op_step (d_k x) (OpCancel t 0) Ha). cbn [do_op] in S2. rewrite Q in S2. apply (S1 (LOp (OpCancel t 0)) _ _ Logic.I S2).
  - destruct (s_ctl (d_k x)) as [|[t|t| ] rest] eqn:Ec; try discriminate; destruct (d_drv x t) as [d|] eqn:Ed; try discriminate; injection St as <- <-.
    + assert (Sr : forall e, step (d_k x) (LRaise e) = Some (coro_raised (set_ctl (d_k x) rest) t e, RUnit)) by (intro e; unfold step; rewrite Ha, Ec; reflexivity).
      assert (Sv : step (d_k x) (LReturn 0) = Some (coro_returned (set_ctl (d_k x) rest) t 0, RUnit)) by (unfold step; rewrite Ha, Ec; reflexivity).
      assert (Sw := fun tr => await_step (d_k x) t rest tr true Ha Ec).
      assert (Pt : forall v hi lo, Stable (d_k x) (d_k (put x rest t d v hi lo))).
      { intros v hi lo. unfold put. cbn [dlog d_k]. specialize (Sw (TGpi (if v then hi else lo))). destruct (await_trigger _ _ _ _ _) as [k' q].
        apply (S1 (LAwait _ true) k' q eq_refl Sw). }
      unfold drive_go. destruct (v_code d) as [p hi lo|[|] e].
      * destruct (k_exc _); [apply (S1 (LRaise e) _ _ Logic.I (Sr e))|]. destruct bad as [n|]; [apply (S1 (LRaise (EUser n)) _ _ Logic.I (Sr (EUser n)))|]. destruct p; apply Pt.
      * cbn [dset_armed d_k]. destruct (k_exc _) as [ex|]; [apply (S1 (LRaise ex) _ _ Logic.I (Sr ex))|apply (S1 (LReturn 0) _ _ Logic.I Sv)].
      * specialize (Sw (TEvent e)). destruct (await_trigger _ _ _ _ _) as [k' q]. apply (S1 (LAwait _ true) k' q eq_refl Sw).
    + assert (Sc : step (d_k x) LCloseEnd = Some (set_outcome (set_ctl (d_k x) rest) t Errored (OExc EIgnoredCancel) AfterResume, RUnit)) by (unfold step; rewrite Ha, Ec; reflexivity).
      unfold drive_close. destruct (v_code d) as [p hi lo|[|] e]; apply (S1 LCloseEnd _ _ Logic.I Sc).
  - destruct (s_ctl (d_k x)); [|discriminate]. destruct (s_queue (d_k x)); [|discriminate]. destruct (d_armed x t); [|discriminate]. injection St as <- <-. apply stable_refl.
  - destruct (done (d_k x) t); [|discriminate]. injection St as <- <-. apply stable_refl.
Qed.
(** A step leaves a driver which has ended as it is, and adds little to the history. *)
Lemma dstep_shape x l x' r : DI x -> dstep x l = Some (x', r) ->
  (forall t d, d_drv x t = Some d -> done (d_k x) t = true -> d_drv x' t = Some d) /\
  (d_hist x' = d_hist x \/ (exists c t, d_hist x' = HStop c t :: d_hist x) \/ (exists t, d_hist x' = HTry t :: d_hist x) \/
   (exists c t v, d_hist x' = HStart c t v :: d_hist x) \/ (exists c t v, d_hist x' = HWrite t v :: HStart c t v :: d_hist x /\ d_drv x t = None) \/
   exists t v, d_hist x' = HWrite t v :: d_hist x /\
     (d_armed x t <> None /\ s_ctl (d_k x) = [] /\ s_queue (d_k x) = [] /\ d_drv x' = d_drv x /\ d_k x' = d_k x \/
      exists rest d p hi lo, s_ctl (d_k x) = FRun t :: rest /\ d_drv x t = Some d /\ v_code d = CPy p hi lo /\ k_exc (s_task (d_k x) t) = None)).
Proof.
  intros D St. pose proof (V_k x D) as H. unfold dstep in St. destruct (s_halt (d_k x)) eqn:Ha; [discriminate|].
  assert (Nr : forall t u (f : option driver), (state_of (d_k x) t = Running) -> forall d, d_drv x u = Some d -> done (d_k x) u = true -> upd (d_drv x) t f u = Some d).
  { intros t u f Rn d E Dn. rewrite upd_other; [exact E|]. intros ->. unfold done in Dn. rewrite Rn in Dn. discriminate. }
  destruct l as [kl|c t py sh ok a b|c|bad|t ok|t].
  - destruct (duser x); [|discriminate]. destruct (step (d_k x) kl) as [[k' q]|]; [|discriminate]. injection St as <- <-. cbn. auto.
  - destruct (duser x); [|discriminate]. destruct (state_of (d_k x) t) eqn:Es; try discriminate. destruct (d_drv x t) eqn:Ed; [discriminate|]. injection St as E.
    assert (Up : forall f u d, d_drv x u = Some d -> upd (d_drv x) t f u = Some d) by (intros f u d Q; rewrite upd_other; [exact Q|intros ->; congruence]).
    unfold clock_start, start_soon in E. destruct (d_clock x c); [injection E as <- <-; auto|]. destruct py.
    + rewrite Es in E. injection E as <- <-. cbn. split; [auto|]. do 3 right. left. eauto.
    + destruct ok; [|injection E as <- <-; auto]. cbn [dset_armed d_k] in E. rewrite Es in E. injection E as <- <-. cbn. split; [auto|]. do 4 right. left. eauto.
  - destruct (duser x) eqn:U; [|discriminate]. injection St as E. unfold clock_stop in E. destruct (d_clock x c) as [t|] eqn:Ec; [|injection E as <- <-; auto].
    destruct (stop_cancel x c t D Ha U Ec) as (k' & b & Q). rewrite Q in E. injection E as <- <-. cbn. split; [auto|]. right. left. eauto.
  - destruct (s_ctl (d_k x)) as [|[t|t| ] rest] eqn:Ec; try discriminate; destruct (d_drv x t) as [d|] eqn:Ed; try discriminate; injection St as <- <-.
    + assert (Rn := run_state _ _ _ H Ec). unfold drive_go. destruct (v_code d) as [p hi lo|[|] e] eqn:Ep.
      * destruct (k_exc _) eqn:Ex; [cbn; auto|]. destruct bad as [n|]; [cbn; auto|].
        assert (Pt : forall v, (forall u d', d_drv x u = Some d' -> done (d_k x) u = true -> d_drv (put x rest t d v hi lo) u = Some d') /\
           d_hist (put x rest t d v hi lo) = HWrite t v :: d_hist x).
        { intro v. unfold put. cbn [dlog d_k]. destruct (await_trigger _ _ _ _ _) as [k' q]. cbn. split; [|reflexivity]. intros u d'. exact (Nr t u _ Rn d'). }
        assert (Wr : forall v, exists t0 v0, d_hist (put x rest t d v hi lo) = HWrite t0 v0 :: d_hist x /\
          (d_armed x t0 <> None /\ FRun t :: rest = [] /\ s_queue (d_k x) = [] /\ d_drv (put x rest t d v hi lo) = d_drv x /\ d_k (put x rest t d v hi lo) = d_k x \/
          (exists rest0 d0 p0 hi0 lo0, FRun t :: rest = FRun t0 :: rest0 /\ d_drv x t0 = Some d0 /\ v_code d0 = CPy p0 hi0 lo0 /\ k_exc (s_task (d_k x) t0) = None))).
        { intro v. exists t, v. split; [apply (Pt v)|]. right. exists rest, d, p, hi, lo. auto. }
        destruct p as [sh| | ].
        -- split; [apply (Pt sh)|]. do 5 right. apply Wr.
        -- split; [apply (Pt false)|]. do 5 right. apply Wr.
        -- split; [apply (Pt true)|]. do 5 right. apply Wr.
      * cbn [dset_armed d_k]. destruct (k_exc _); cbn; auto.
      * destruct (await_trigger _ _ _ _ _) as [k' q]. cbn. split; [intros u d'; exact (Nr t u _ Rn d')|]. right. right. left. eauto.
    + unfold drive_close. destruct (v_code d) as [p hi lo|[|] e]; cbn; auto.
  - destruct (s_ctl (d_k x)); [|discriminate]. destruct (s_queue (d_k x)); [|discriminate]. destruct (d_armed x t) as [v|] eqn:A; [|discriminate].
    injection St as <- <-. cbn. split; [auto|]. do 5 right. exists t, (negb v). split; [reflexivity|]. left. rewrite A. repeat split; try discriminate; auto.
  - destruct (done (d_k x) t); [|discriminate]. injection St as <- <-. cbn. auto.
Qed.
Lemma silent_step x l x' r t : DI x -> match l with DUser (LAwait _ ok) => ok = true | _ => True end -> dstep x l = Some (x', r) -> silenced x t -> silenced x' t.
Proof.
  intros D Pr St [Dn (c & b & e & Ed & K)]. destruct (dstep_shape x l x' r D St) as [Sd _]. assert (Sb := dstep_stable x l x' r D Pr St).
  split; [exact (stable_done _ _ t Sb Dn)|]. exists c, b, e. split; [exact (Sd t _ Ed Dn)|]. destruct K as [K|K]; [now left|right].
  unfold was_killed. destruct (Sb t Dn) as [_ ->]. exact K.
Qed.
Lemma write_step x l x' r c t v new : DI x -> dstep x l = Some (x', r) -> d_hist x' = new ++ d_hist x ->
  In (HStop c t) (d_hist x) -> In (HWrite t v) new -> silenced x' t.
Proof.
  intros D St Eh Is Iw. destruct (V_stop x D c t Is) as [En (d & Ed & _)]. destruct (dstep_shape x l x' r D St) as [Sd Sh].
  assert (N : forall n, new ++ d_hist x = n ++ d_hist x -> new = n) by (intros n; apply app_inv_tail). rewrite Eh in Sh.
  destruct Sh as [Q|[(c' & t' & Q)|[(t' & Q)|[(c' & t' & v' & Q)|[(c' & t' & v' & Q & Nd)|(t' & v' & Q & [(A & C1 & C2 & E1 & E2)|(rest & d' & p & hi & lo & C1 & Ed' & Ep & Ex)])]]]]].
  - rewrite (N [] Q) in Iw. destruct Iw.
  - rewrite (N [_] Q) in Iw. destruct Iw as [W|[]]. discriminate.
  - rewrite (N [_] Q) in Iw. destruct Iw as [W|[]]. discriminate.
  - rewrite (N [_] Q) in Iw. destruct Iw as [W|[]]. discriminate.
  - rewrite (N [_; _] Q) in Iw. destruct Iw as [W|[W|[]]]; [|discriminate]. injection W as -> ->. congruence.
  - rewrite (N [_] Q) in Iw. destruct Iw as [W|[]]. injection W as -> ->. assert (Dn := rest_ended x t D (conj C1 C2) En).
    destruct (d_armed x t) as [w|] eqn:Aw; [|now elim A]. destruct (V_arm x D t w Aw) as (c' & b & e & Ee & O).
    unfold silenced, was_killed. rewrite E1, E2. split; [exact Dn|]. exists c', b, e. split; [exact Ee|]. destruct (O Dn) as [F|F]; [left|now right].
    destruct b; [destruct F|reflexivity].
  - rewrite (N [_] Q) in Iw. destruct Iw as [W|[]]. injection W as -> ->. now elim (not_ended _ _ _ (V_k x D) C1 Ex).
Qed.
Theorem silent_pf ls x : dreach ls x -> forall a c t b v, d_hist x = a ++ HStop c t :: b -> In (HWrite t v) a -> silenced x t.
Proof.
  induction 1 as [|ls x l x' r R IH Pr St]; intros a c t b v Eh Iw; [destruct a; discriminate|]. assert (D := reach_DI ls x R).
  assert (G : forall new a0, d_hist x' = new ++ d_hist x -> a = new ++ a0 -> d_hist x = a0 ++ HStop c t :: b -> silenced x' t).
  { intros new a0 E1 -> E2. apply in_app_or in Iw. destruct Iw as [I|I].
    - apply (write_step x l x' r c t v new D St E1); [|exact I]. rewrite E2. apply in_or_app. right. now left.
    - apply (silent_step x l x' r t D Pr St). exact (IH a0 c t b v E2 I). }
  assert (One : forall h, d_hist x' = h :: d_hist x -> silenced x' t).
  { intros h E. rewrite E in Eh. destruct a as [|h' a0]; [destruct Iw|]. cbn in Eh. injection Eh as <- E2. exact (G [h] a0 E eq_refl E2). }
  destruct (dstep_shape x l x' r D St) as [_ [Q|[(c' & t' & Q)|[(t' & Q)|[(c' & t' & v' & Q)|[(c' & t' & v' & Q & _)|(t' & v' & Q & _)]]]]]]; eauto.
  - rewrite Q in Eh. exact (G [] a Q eq_refl Eh).
  - rewrite Q in Eh. destruct a as [|h1 [|h2 a0]]; [destruct Iw|cbn in Eh; discriminate|]. cbn in Eh. injection Eh as <- <- E2.
    exact (G [HWrite t' v'; HStart c' t' v'] a0 Q eq_refl E2).
Qed.
Theorem silent_spec ls x a c t b v : dreach ls x -> d_hist x = a ++ HStop c t :: b -> In (HWrite t v) a ->
  is_gpi x t /\ (~ In (HTry t) (d_hist x) \/ was_killed x t).
Proof.
  intros R Eh Iw. destruct (silent_pf ls x R a c t b v Eh Iw) as [_ (c' & tried & e & Ed & K)]. split; [exists c', tried, e; exact Ed|].
  destruct K as [->|K]; [left|now right]. intro I. apply (V_try x (reach_DI ls x R) t) in I. destruct I as (c2 & e2 & E). congruence.
Qed.
Theorem armed_pf ls x t v : dreach ls x -> at_rest x -> d_armed x t = Some v ->
  is_gpi x t /\ ((exists c, started c (d_hist x) = Some t) \/ ~ In (HTry t) (d_hist x) \/ was_killed x t).
Proof.
  intros R Rs A. assert (D := reach_DI ls x R). destruct (V_arm x D t v A) as (c & b & e & Ed & O). split; [exists c, b, e; exact Ed|].
  destruct (done (d_k x) t) eqn:Dn.
  - right. destruct (O Dn) as [F|F]; [left|now right]. destruct b; [destruct F|]. intro I. apply (V_try x D t) in I. destruct I as (c2 & e2 & E). congruence.
  - left. exists c. exact (one_pf ls x t _ R Rs Ed Dn).
Qed.
(** To compute executions. *)
Lemma drun_reach ls : forall ms x y, dreach ms x -> forallb (fun l => match l with DUser (LAwait _ ok) => ok | _ => true end) ls = true ->
  drun x ls = Some y -> dreach (ms ++ ls) y.
Proof.
  induction ls as [|l ls IH]; intros ms x y R P E; cbn in E; [injection E as <-; now rewrite app_nil_r|].
  cbn in P. apply andb_prop in P. destruct P as [P1 P2]. destruct (dstep x l) as [[x' r]|] eqn:St; [|discriminate].
  change (l :: ls) with ([l] ++ ls). rewrite app_assoc. apply (IH _ x' y); [|exact P2|exact E]. apply (dreach_step _ _ _ _ r R); [|exact St].
  destruct l as [[ | | | |tr ok| | | | | | | ]| | | | | ]; exact Logic.I || exact P1.
Qed.
Definition dfinal (ls : list dlabel) : dst := match drun dinit ls with Some x => x | None => dinit end.
Lemma final_reach ls : forallb (fun l => match l with DUser (LAwait _ ok) => ok | _ => true end) ls = true ->
  (if drun dinit ls then true else false) = true -> dreach ls (dfinal ls).
Proof.
  intros P Q. unfold dfinal. destruct (drun dinit ls) as [y|] eqn:E; [|discriminate]. exact (drun_reach ls [] dinit y dreach_nil P E).
Qed.

(** Every step keeps the invariant of [_wait]: starting the waiters, waiting for them, the done callback. *)
From Verif Require Import Base KernelModel KernelProofs KernelHist KernelLog KernelInv KernelTask KernelWake KernelLayer KernelStack
  WaitModel WaitSpec WaitInv WaitInv2.
From Coq Require Import Arith.

Lemma log_unique l t x o y v : log_ok l -> In (ODone t x o) l -> In (ODone t y v) l -> x = y /\ o = v.
Proof.
  induction l as [|a l IH]; [intros _ []|]. cbn [log_ok]. intros [E K] [->|I] [J|J].
  - injection J as -> ->. auto.
  - exfalso. apply E. now exists y, v.
  - subst a. exfalso. apply E. now exists x, o.
  - now apply IH.
Qed.
Lemma logged_done k t s o : Inv k -> In (ODone t s o) (s_log k) -> done k t = true /\ state_of k t = s /\ k_outcome (s_task k t) = Some o.
Proof.
  intros H I. assert (D : done k t = true).
  { destruct (done k t) eqn:D; [reflexivity|]. elim (G_act _ _ (J_log _ _ H) t D). now exists s, o. }
  split; [exact D|]. destruct (G_rec _ _ (J_log _ _ H) t D) as (v & E & J).
  destruct (log_unique _ _ _ _ _ _ (G_ok _ _ (J_log _ _ H)) I J) as [-> ->]. auto.
Qed.

Lemma fresh_eq k t : fresh k t = true -> s_task k t = new_task.
Proof.
  unfold fresh. destruct (s_task k t) as [[] [|] [|] [|] [|] [|] [|] [|] []]; try discriminate. reflexivity.
Qed.
Lemma nodup_ok l : nodup l = true -> NoDup l.
Proof.
  induction l as [|u l IH]; cbn; [constructor|]. intro E. apply andb_prop in E. destruct E as [E F]. constructor; [|auto].
  intro I. rewrite negb_true_iff in E. assert (existsb (Nat.eqb u) l = true); [|congruence]. apply existsb_exists. exists u. split; [exact I|apply Nat.eqb_refl].
Qed.

(** * The call *)
Definition called (x : wst) (t : tid) (c : call) (ts : list tid) : wst :=
  set_pend (WSt (y_k x) (upd (y_w x) (y_n x) (Winst c t ts ts None false)) (S (y_n x)) (y_pend x) (y_cb x) (y_esc x) (HCall t c ts :: y_hist x))
    t (Some (SAdd (y_n x) (rev ts))).
Lemma called_ok x rest t c ts : WI x -> y_cb x = None -> s_ctl (y_k x) = FRun t :: rest -> y_pend x t = None -> ts <> [] ->
  forallb (fresh (y_k x)) ts = true -> nodup ts = true -> WI (called x t c ts).
Proof.
  intros W Cb Ec Ep Ne Fr Nd. apply nodup_ok in Nd. rewrite forallb_forall in Fr.
  assert (Fn : forall u, In u ts -> s_task (y_k x) u = new_task) by (intros u Iu; apply fresh_eq, Fr, Iu). clear Fr.
  set (n := y_n x). set (w := Winst c t ts ts None false).
  assert (O : forall i, i < n -> upd (y_w x) n w i = y_w x i) by (intros; apply upd_other; lia).
  assert (P : forall u, u <> t -> upd (y_pend x) t (Some (SAdd n (rev ts))) u = y_pend x u) by (intros; now apply upd_other).
  assert (Sw : forall u i, upd (y_pend x) t (Some (SAdd n (rev ts))) u = Some (SWait i) -> y_pend x u = Some (SWait i) /\ i < n).
  { intros u i E. destruct (Nat.eq_dec u t) as [->|N]; [rewrite upd_same in E; discriminate|]. rewrite P in E by assumption. split; [exact E|].
    apply (I_inst x W u _ i E eq_refl). }
  assert (Cs : forall i, i < S n -> i < n \/ i = n) by (intros; lia).
  destruct (I_new x W n) as [In1 In2]; [apply Nat.le_refl|].
  constructor; cbn [called set_pend y_k y_w y_n y_pend y_cb y_hist]; fold n w; try apply W.
  - intros i Hi. apply (I_new x W). fold n. lia.
  - intro u. destruct (I_dcb x W u) as [E|(i & ds & E & Ev & Hi & Iu)]; [now left|]. right. exists i, ds. rewrite O by assumption. fold n in Hi. repeat (split; auto).
  - intros i u Hi Iu. destruct (Cs i Hi) as [Hi'| ->].
    + rewrite O in Iu by assumption. destruct (I_pos x W i u Hi' Iu) as [A|(v & p & Ev & Ei & Ib)]; [now left|]. right. exists v, p.
      rewrite P; [auto|]. intros ->. congruence.
    + rewrite upd_same in Iu. cbn in Iu. right. exists t, (SAdd n (rev ts)). rewrite upd_same. split; [reflexivity|]. split; [reflexivity|]. cbn. now apply -> in_rev.
  - intros u p Eu Es. destruct (Nat.eq_dec u t) as [->|N].
    + rewrite upd_same in Eu. injection Eu as <-. cbn [unstarted bare inst_of]. split; [exact Cb|]. split; [eauto|]. split; [now apply NoDup_rev|].
      split; [intros v Iv; apply in_rev in Iv; unfold state_of; now rewrite Fn|]. split; [intros v Iv; apply in_rev in Iv; now rewrite Fn|].
      intros i Ei. injection Ei as <-. rewrite upd_same. split; [exact In1|]. split; [|reflexivity]. intros v Iv. cbn. now apply in_rev.
    + exfalso. rewrite P in Eu by assumption. destruct (I_start x W u p Eu Es) as (_ & (q & Eq) & _). congruence.
  - intros u p i Eu Ei. destruct (Nat.eq_dec u t) as [->|N].
    + rewrite upd_same in Eu. injection Eu as <-. cbn in Ei. injection Ei as <-. rewrite upd_same. cbn. rewrite Nat.eqb_refl. auto.
    + rewrite P in Eu by assumption. destruct (I_inst x W u p i Eu Ei) as (Hi & B & C). fold n in Hi. rewrite O by assumption. split; [lia|]. split; [exact B|].
      cbn [last_call]. destruct (Nat.eqb_spec t u); [congruence|exact C].
  - intros i Hi. destruct (Cs i Hi) as [Hi'| ->]; [rewrite O by assumption; apply (I_rem x W i Hi')|]. rewrite upd_same. cbn. split; [exact Nd|apply incl_refl].
  - intros i u Hi. destruct (Cs i Hi) as [Hi'| ->]; [rewrite O by assumption; apply (I_out x W i u Hi')|]. rewrite upd_same. cbn. contradiction.
  - intros i u Hi. destruct (Cs i Hi) as [Hi'| ->]; [rewrite O by assumption; apply (I_in x W i u Hi')|]. rewrite upd_same. cbn. intros Iu D. exfalso.
    unfold done, state_of in D. rewrite Fn in D by assumption. discriminate.
  - intros i u k Hi. destruct (Cs i Hi) as [Hi'| ->]; [rewrite O by assumption; apply (I_zero x W i u k Hi')|]. rewrite upd_same. cbn. auto.
  - intros i Hi. destruct (Cs i Hi) as [Hi'| ->]; [rewrite O by assumption; apply (I_fired x W i Hi')|]. rewrite upd_same. cbn. rewrite In1. cbn. split; congruence.
  - intros i h u Hi Iu. destruct (Cs i Hi) as [Hi'| ->]; [|rewrite In2 in Iu; destruct Iu]. pose proof (I_cbs x W i h u Hi' Iu) as E.
    rewrite P; [exact E|]. intros ->. congruence.
  - intros u i Eu. destruct (Sw u i Eu) as [E Hi]. unfold waits_ok. cbn [called set_pend y_k y_w]; fold n w. rewrite O by assumption. apply (I_wait x W u i E).
  - intros i u. rewrite Cb. split; discriminate.
  - intros i u s o Hi. destruct (Cs i Hi) as [Hi'| ->]; [rewrite O by assumption; apply (I_none x W i u s o Hi')|]. rewrite upd_same. cbn. contradiction.
  - intros i u Hi. destruct (Cs i Hi) as [Hi'| ->]; [rewrite O by assumption; apply (I_some x W i u Hi')|]. rewrite upd_same. discriminate.
  - intros u i Eu. destruct (Sw u i Eu) as [E Hi]. rewrite O by assumption. intros Ei v Iv. destruct (I_canc x W u i E Ei v Iv) as [A|A]; [left; now right|now right].
Qed.

(** * The loop which starts the waiters *)
Lemma start_facts x t p : WI x -> y_pend x t = Some p -> starting p = true ->
  (forall u q, y_pend x u = Some q -> starting q = true -> u = t /\ q = p) /\
  (forall i u, i < y_n x -> In u (w_rem (y_w x i)) -> done (y_k x) u = false) /\ y_cb x = None.
Proof.
  intros W Ep Es. destruct (I_start x W t p Ep Es) as (Cb & (rest & Ec) & _). split; [|split; [|exact Cb]].
  - intros u q Eq Eqs. destruct (I_start x W u q Eq Eqs) as (_ & (r2 & E2) & _). assert (u = t) by congruence. subst u. split; [reflexivity|congruence].
  - apply (no_done_run x W Cb). intros. congruence.
Qed.
Lemma add_ok x t i u us : WI x -> s_halt (y_k x) = false -> y_pend x t = Some (SAdd i (u :: us)) ->
  WI (set_pend (set_k x (add_done (y_k x) u (private i))) t (Some (SGo i (u :: us)))).
Proof.
  intros W Ha Ep. destruct (start_facts x t _ W Ep eq_refl) as (Un & Nd & Cb).
  destruct (I_start x W t _ Ep eq_refl) as (_ & (rest & Ec) & Dup & Us & Ds & Ev). cbn [unstarted bare inst_of] in *.
  destruct (Ev i eq_refl) as (Ei & Inc & Cn). destruct (I_inst x W t _ i Ep eq_refl) as (Hi & Hp & Hc). clear Ev.
  assert (Su : state_of (y_k x) u = Unstarted) by (apply Us; now left).
  set (k := add_done (y_k x) u (private i)).
  assert (St : step (y_k x) (LOp (OpAddDone u (private i))) = Some (k, RUnit)) by (apply op_step, Ha).
  assert (Tu : s_task k u = with_dcbs (s_task (y_k x) u) [private i]).
  { unfold k, add_done, done. rewrite Su. cbn. rewrite upd_same. rewrite (Ds u (or_introl eq_refl)). reflexivity. }
  assert (To : forall v, v <> u -> s_task k v = s_task (y_k x) v).
  { intros v N. unfold k, add_done, done. rewrite Su. cbn. now rewrite upd_other. }
  assert (Ck : s_ctl k = s_ctl (y_k x) /\ s_ievent k = s_ievent (y_k x)) by (unfold k, add_done, done; rewrite Su; split; reflexivity).
  clearbody k. pose proof (proj1 (NoDup_cons_iff _ _) Dup) as [Nu Dus].
  apply (passive_gen x _ k RUnit (upd (y_pend x) t (Some (SGo i (u :: us)))) W St).
  - intros j [Q|[ok Q]]; discriminate.
  - exact Logic.I.
  - intros v j. destruct (Nat.eq_dec v t) as [->|N]; [rewrite upd_same, Ep; split; discriminate|]. rewrite upd_other by assumption. tauto.
  - intros v j _. now left.
  - exact Nd.
  - now left.
  - intro v. cbn [with_pend set_k y_k y_w y_n]. destruct (Nat.eq_dec v u) as [->|N]; [|rewrite To by assumption; apply (I_dcb x W v)].
    rewrite Tu. right. exists i, []. cbn. repeat (split; [first [reflexivity|constructor|assumption]|]). apply Inc. now left.
  - intros j v Hj Iv. cbn [with_pend set_k y_k y_w y_n y_pend] in *. destruct (Nat.eq_dec v u) as [->|N].
    + destruct (I_pos x W j u Hj Iv) as [[ds E]|(a & p & Ea & Ej & Ib)].
      * rewrite (Ds u (or_introl eq_refl)) in E. discriminate.
      * left. destruct (Un a p Ea (bare_starting p u Ib)) as [-> ->]. cbn in Ej. injection Ej as ->. rewrite Tu. exists []. reflexivity.
    + destruct (I_pos x W j v Hj Iv) as [[ds E]|(a & p & Ea & Ej & Ib)].
      * left. rewrite To by assumption. eauto.
      * right. destruct (Un a p Ea (bare_starting p v Ib)) as [-> ->]. exists t, (SGo i (u :: us)). rewrite upd_same. split; [reflexivity|]. split; [exact Ej|].
        cbn in Ib |- *. destruct Ib as [<-|Ib]; [now elim N|exact Ib].
  - intros v p Ev Es. cbn [with_pend set_k y_k y_w y_n y_pend y_cb] in *. destruct (Nat.eq_dec v t) as [->|N].
    + rewrite upd_same in Ev. injection Ev as <-. cbn [unstarted bare inst_of]. split; [exact Cb|]. split; [exists rest; destruct Ck; congruence|].
      split; [exact Dup|]. split; [|split].
      * intros v Iv. unfold state_of. destruct (Nat.eq_dec v u) as [->|N]; [rewrite Tu; exact Su|]. rewrite To by assumption. apply Us, Iv.
      * intros v Iv. cbn in Iv. rewrite To by (intros ->; contradiction). apply Ds. now right.
      * intros j Ej. injection Ej as <-. destruct Ck as [_ ->]. auto.
    + rewrite upd_other in Ev by assumption. destruct (Un v p Ev Es) as [-> _]. now elim N.
  - intros v p j Ev Ej. cbn [with_pend set_k y_k y_w y_n y_pend y_hist] in *. destruct (Nat.eq_dec v t) as [->|N].
    + rewrite upd_same in Ev. injection Ev as <-. injection Ej as <-. auto.
    + rewrite upd_other in Ev by assumption. apply (I_inst x W v p j Ev Ej).
Qed.
Lemma go_ok x t i u us : WI x -> s_halt (y_k x) = false -> y_pend x t = Some (SGo i (u :: us)) ->
  exists k, start_next (y_k x) u = (k, RUnit) /\ WI (set_pend (set_k x k) t (Some (SAdd i us))).
Proof.
  intros W Ha Ep. destruct (start_facts x t _ W Ep eq_refl) as (Un & Nd & Cb).
  destruct (I_start x W t _ Ep eq_refl) as (_ & (rest & Ec) & Dup & Us & Ds & Ev). cbn [unstarted bare inst_of List.tl] in *.
  destruct (Ev i eq_refl) as (Ei & Inc & Cn). destruct (I_inst x W t _ i Ep eq_refl) as (Hi & Hp & Hc). clear Ev.
  assert (Su : state_of (y_k x) u = Unstarted) by (apply Us; now left).
  set (k := schedule_left (y_k x) u).
  assert (E0 : start_next (y_k x) u = (k, RUnit)) by (unfold start_next; now rewrite Su).
  assert (St : step (y_k x) (LOp (OpStartNext u)) = Some (k, RUnit)) by (rewrite op_step by assumption; cbn; now rewrite E0).
  exists k. split; [exact E0|].
  assert (Tu : exists h, s_task k u = with_sched (s_task (y_k x) u) h None) by (eexists; unfold k, schedule_left; cbn; now rewrite upd_same).
  assert (To : forall v, v <> u -> s_task k v = s_task (y_k x) v) by (intros v N; unfold k, schedule_left; cbn; now rewrite upd_other).
  assert (Dc : forall v, k_dcbs (s_task k v) = k_dcbs (s_task (y_k x) v)).
  { intro v. destruct (Nat.eq_dec v u) as [->|N]; [destruct Tu as [h ->]; reflexivity|now rewrite To]. }
  assert (Ck : s_ctl k = s_ctl (y_k x) /\ s_ievent k = s_ievent (y_k x)) by (split; reflexivity).
  clearbody k. pose proof (proj1 (NoDup_cons_iff _ _) Dup) as [Nu Dus].
  apply (passive_gen x _ k RUnit (upd (y_pend x) t (Some (SAdd i us))) W St).
  - intros j [Q|[ok Q]]; discriminate.
  - exact Logic.I.
  - intros v j. destruct (Nat.eq_dec v t) as [->|N]; [rewrite upd_same, Ep; split; discriminate|]. rewrite upd_other by assumption. tauto.
  - intros v j _. now left.
  - exact Nd.
  - now left.
  - intro v. cbn [with_pend set_k y_k y_w y_n]. rewrite Dc. apply (I_dcb x W v).
  - intros j v Hj Iv. cbn [with_pend set_k y_k y_w y_n y_pend] in *. rewrite Dc.
    destruct (I_pos x W j v Hj Iv) as [E|(a & p & Ea & Ej & Ib)]; [now left|].
    right. destruct (Un a p Ea (bare_starting p v Ib)) as [-> ->]. exists t, (SAdd i us). rewrite upd_same. split; [reflexivity|]. split; [exact Ej|exact Ib].
  - intros v p Ev Es. cbn [with_pend set_k y_k y_w y_n y_pend y_cb] in *. destruct (Nat.eq_dec v t) as [->|N].
    + rewrite upd_same in Ev. injection Ev as <-. cbn [unstarted bare inst_of]. split; [exact Cb|]. split; [exists rest; destruct Ck; congruence|].
      split; [exact Dus|]. split; [|split].
      * intros v Iv. unfold state_of. rewrite To by (intros ->; contradiction). apply Us. now right.
      * intros v Iv. rewrite Dc. apply Ds, Iv.
      * intros j Ej. injection Ej as <-. destruct Ck as [_ ->]. split; [exact Ei|]. split; [|exact Cn]. intros v Iv. apply Inc. now right.
    + rewrite upd_other in Ev by assumption. destruct (Un v p Ev Es) as [-> _]. now elim N.
  - intros v p j Ev Ej. cbn [with_pend set_k y_k y_w y_n y_pend y_hist] in *. destruct (Nat.eq_dec v t) as [->|N].
    + rewrite upd_same in Ev. injection Ev as <-. injection Ej as <-. auto.
    + rewrite upd_other in Ev by assumption. apply (I_inst x W v p j Ev Ej).
Qed.

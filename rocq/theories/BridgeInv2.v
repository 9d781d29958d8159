(** The invariants of bridges: the steps of threads and of the event loop. *)
From Verif Require Import Base KernelModel KernelProofs KernelInv BridgeModel BridgeSpec BridgeInv.
From Coq Require Import Arith.

(** [thread_ok] of a thread which does not change. *)
Lemma thread_same x x' t : b_th x' t = b_th x t -> b_st x' t = b_st x t -> b_out x' t = b_out x t -> (b_th x t = TNone -> b_aw x' t = b_aw x t) ->
  (forall w r, b_wr x w = Some (t, r) -> exists r', b_wr x' w = Some (t, r')) -> thread_ok x t -> thread_ok x' t.
Proof.
  intros E1 E2 E3 E4 E5. unfold thread_ok. rewrite E1, E2, E3. destruct (b_th x t) as [ | | |w|w| | ] eqn:Q; auto.
  - rewrite E4 by reflexivity. auto.
  - intros (A & B & r & C). split; [exact A|]. split; [exact B|]. now apply (E5 w r).
  - intros (A & B & r & C). split; [exact A|]. split; [exact B|]. now apply (E5 w r).
Qed.
Lemma bi_call x t w : BI x -> b_th x t = TRun -> b_wr x w = None -> BI (set_queue (set_wr (set_th x t (TCall w)) w t RSched) (b_queue x ++ [QWrap w])).
Proof.
  intros M E Nw. openb M. pose proof (T t) as Tt. unfold thread_ok in Tt. rewrite E in Tt.
  assert (Nf : b_flag x w = false) by (destruct (b_flag x w) eqn:Q; [destruct (F w Q) as [u A]; congruence|reflexivity]).
  constructor; bf; auto.
  - intro u. rewrite P. upd1 u t; [|tauto]. split; intros [_ A]; (split; [congruence|exact A]).
  - intros u I. destruct (S u I) as [A B]. split; [|exact B]. upd1 u t; [congruence|exact A].
  - intro u. destruct (Nat.eq_dec u t) as [->|Nu].
    + unfold thread_ok. bf. rewrite !upd_same. destruct Tt. eauto.
    + apply (thread_same x); bf; auto; [now rewrite upd_other|]. intros v r Q. exists r. rewrite upd_other; [exact Q|congruence].
  - intros v u r Q. unfold calls in *. bf. upd1 v w; [injection Q as <- <-; rewrite upd_same; auto|]. destruct (W v u r Q) as [A|A]; [left|auto].
    upd1 u t; [destruct A; congruence|exact A].
  - intros v u Q. upd1 v w; [discriminate|now apply (R v u)].
  - intros v Q. upd1 v w; [congruence|now apply F].
  - intros v b Q. destruct (MS v b Q) as (Z & u & A & B). split; [exact Z|]. exists u. assert (v <> w) by congruence. rewrite upd_other by assumption. split; [exact A|].
    unfold calls in *. bf. upd1 u t; [destruct B; congruence|exact B].
  - intros u Q. destruct (RY u Q) as [A B]. split; [exact A|]. apply in_or_app. auto.
  - intros u I. apply in_app_or in I. destruct I as [I|[I|[]]]; [auto|discriminate].
  - apply once_add; [exact ON|discriminate].
  - intros v u Q. apply in_or_app. upd1 v w; [right; now left|left; now apply (SC v u)].
Qed.
Lemma bi_suspend x t w : BI x -> b_th x t = TCall w -> BI (set_st (set_th x t (TBlock w)) t WPause).
Proof.
  intros M E. openb M. pose proof (T t) as Tt. unfold thread_ok in Tt. rewrite E in Tt. constructor; bf; auto.
  - intro u. rewrite P. upd1 u t; [|tauto]. split; intros [_ A]; (split; [congruence|exact A]).
  - intros u I. destruct (S u I) as [A B]. split; [|exact B]. upd1 u t; [congruence|exact A].
  - intro u. destruct (Nat.eq_dec u t) as [->|Nu].
    + unfold thread_ok. bf. rewrite !upd_same. destruct Tt. auto.
    + apply (thread_same x); bf; auto; try (now rewrite upd_other); eauto.
  - intros v u r Q. unfold calls in *. bf. destruct (W v u r Q) as [A|A]; [left|auto]. upd1 u t; [|exact A]. right. destruct A; congruence.
  - intros v b Q. destruct (MS v b Q) as (Z & u & A & B). split; [exact Z|]. exists u. split; [exact A|]. unfold calls in *. bf. upd1 u t; [right; destruct B; congruence|exact B].
  - intros i u Q. destruct (MW i u Q) as [A B]. split; [exact A|]. upd1 u t; [discriminate|exact B].
Qed.
Lemma bi_wake x t w : BI x -> b_th x t = TBlock w -> b_flag x w = true -> BI (set_th x t TRun).
Proof.
  intros M E Fw. openb M. pose proof (T t) as Tt. unfold thread_ok in Tt. rewrite E in Tt. destruct Tt as (T1 & T2 & r0 & T3).
  assert (Nm : forall b, b_main x <> MSet w b) by (intros b Q; destruct (MS w b Q) as (Z & _); congruence).
  constructor; bf; auto.
  - intro u. rewrite P. upd1 u t; [|tauto]. split; intros [_ A]; (split; [congruence|exact A]).
  - intros u I. destruct (S u I) as [A B]. split; [|exact B]. upd1 u t; [congruence|exact A].
  - intro u. destruct (Nat.eq_dec u t) as [->|Nu].
    + unfold thread_ok. bf. rewrite !upd_same. auto.
    + apply (thread_same x); bf; auto; try (now rewrite upd_other); eauto.
  - intros v u r Q. unfold calls in *. bf. destruct (W v u r Q) as [A|A]; [|auto]. upd1 u t; [|auto]. right.
    assert (v = w) by (destruct A; congruence). subst v. destruct (F w Fw) as [u A1]. split; [congruence|exact Fw].
  - intros v b Q. destruct (MS v b Q) as (Z & u & A & B). split; [exact Z|]. exists u. split; [exact A|]. unfold calls in *. bf. upd1 u t; [|exact B].
    destruct B; [congruence|]. assert (v = w) by congruence. subst v. elim (Nm b Q).
Qed.
Lemma bi_return x t o : BI x -> b_th x t = TRun -> BI (set_out (set_th x t TOut) t o).
Proof.
  intros M E. openb M. pose proof (T t) as Tt. unfold thread_ok in Tt. rewrite E in Tt. constructor; bf; auto.
  - intro u. rewrite P. cbn. upd1 u t; (split; intros [A B]; (split; [congruence|])); try tauto; intros [Q|Q]; try discriminate; tauto.
  - intros u [I|I]; [discriminate|]. destruct (S u I) as [A B]. split; [|exact B]. upd1 u t; [congruence|exact A].
  - intro u. destruct (Nat.eq_dec u t) as [->|Nu].
    + unfold thread_ok. bf. rewrite !upd_same. split; [tauto|discriminate].
    + apply (thread_same x); bf; auto; try (now rewrite upd_other); eauto.
  - intros v u r Q. unfold calls in *. bf. destruct (W v u r Q) as [A|A]; [|auto]. upd1 u t; [destruct A; congruence|auto].
  - intros v b Q. destruct (MS v b Q) as (Z & u & A & B). split; [exact Z|]. exists u. split; [exact A|]. unfold calls in *. bf. upd1 u t; [|exact B].
    destruct B; congruence.
  - intros u Q. destruct (RY u Q) as [A B]. split; [now right|exact B].
  - intros u o0 [I|I]; [discriminate|]. destruct (GO u o0 I) as (A & v & B & C). split; [exact A|]. exists v. split; [exact B|]. upd1 u t; [destruct Tt; congruence|exact C].
  - intros u Q. destruct (GS u Q) as [A B]. split; [exact A|now right].
  - intros u v. cbn. upd1 u t.
    + split; [intro Q; injection Q as ->; now left|]. intros [Q|Q]; [now injection Q as ->|]. apply OU in Q. destruct Tt; congruence.
    + rewrite OU. split; [auto|]. intros [Q|Q]; [congruence|exact Q].
Qed.
Lemma bi_done x t : BI x -> b_th x t = TOut -> BI (set_st (set_th x t TOver) t WExit).
Proof.
  intros M E. openb M. pose proof (T t) as Tt. unfold thread_ok in Tt. rewrite E in Tt. constructor; bf; auto.
  - intro u. rewrite P. upd1 u t; [|tauto]. split; intros [_ A]; (split; [congruence|exact A]).
  - intros u I. destruct (S u I) as [A B]. split; [|exact B]. upd1 u t; [reflexivity|exact A].
  - intro u. destruct (Nat.eq_dec u t) as [->|Nu].
    + unfold thread_ok. bf. rewrite !upd_same. tauto.
    + apply (thread_same x); bf; auto; try (now rewrite upd_other); eauto.
  - intros v u r Q. unfold calls in *. bf. destruct (W v u r Q) as [A|A]; [|auto]. upd1 u t; [destruct A; congruence|auto].
  - intros v b Q. destruct (MS v b Q) as (Z & u & A & B). split; [exact Z|]. exists u. split; [exact A|]. unfold calls in *. bf. upd1 u t; [|exact B].
    destruct B; congruence.
  - intros i u Q. destruct (MW i u Q) as [A B]. split; [exact A|]. upd1 u t; [discriminate|exact B].
Qed.
(** The event loop. *)
Lemma bi_sched x e : BI x -> (forall t, e <> QWake t) -> BI (set_queue x (b_queue x ++ [e])).
Proof.
  intros M Ne. openb M. constructor; bf; auto.
  - intros u Q. destruct (RY u Q) as [A B]. split; [exact A|]. apply in_or_app. auto.
  - intros u I. apply in_app_or in I. destruct I as [I|[I|[]]]; [auto|elim (Ne u I)].
  - apply once_add; [exact ON|]. intros t Q. elim (Ne t Q).
  - intros v u Q. apply in_or_app. left. now apply (SC v u).
Qed.
Lemma bi_drop x q e : BI x -> b_queue x = e :: q -> (e = QOther \/ e = QDead \/ exists w, e = QWrap w /\ forall t, b_wr x w <> Some (t, RSched)) -> BI (set_queue x q).
Proof.
  intros M E Ne. openb M. rewrite E in *. assert (NW : forall t, e <> QWake t) by (intros t Q; destruct Ne as [Z|[Z|(w & Z & _)]]; congruence).
  constructor; bf; auto.
  - intros u Q. destruct (RY u Q) as [A [B|B]]; [elim (NW u B)|auto].
  - intros u I. apply WK. now right.
  - apply (once_cons e q ON).
  - intros v u Q. destruct (SC v u Q) as [B|B]; [|exact B]. exfalso. destruct Ne as [Z|[Z|(w & Z & A)]]; [congruence|congruence|].
    assert (v = w) by congruence. subst v. elim (A u Q).
Qed.
Lemma gots_none t h : (forall o, ~ In (HGot t o) h) -> gots t h = 0.
Proof.
  intro N. unfold gots. destruct (filter _ h) as [|a l] eqn:E; [reflexivity|exfalso].
  assert (I : In a (filter (fun a => match a with HGot u _ => Nat.eqb u t | _ => false end) h)) by (rewrite E; now left).
  apply filter_In in I. destruct I as [I B]. destruct a as [ |u o| ]; try discriminate. apply Nat.eqb_eq in B. subst u. elim (N o I).
Qed.
Lemma bi_deliver x t q : BI x -> b_queue x = QWake t :: q -> BI (note (set_aw (set_queue x q) t AGot) (HGot t (b_out x t))).
Proof.
  intros M E. openb M. rewrite E in *. assert (Rt : b_aw x t = AReady) by (apply WK; now left). destruct (RY t Rt) as [St _]. destruct (S t St) as [Ot _].
  pose proof (T t) as Tt. unfold thread_ok in Tt. rewrite Ot in Tt. destruct Tt as [_ Out]. destruct (once_cons _ _ ON) as [On2 Nq]. specialize (Nq t eq_refl).
  assert (Hs : forall u, In (HSet u) (HGot t (b_out x t) :: b_hist x) <-> In (HSet u) (b_hist x)) by (intro u; cbn; split; [intros [Q|Q]; [discriminate|exact Q]|auto]).
  constructor; bf; auto.
  - intro u. rewrite Hs. apply P.
  - intros u I. apply Hs in I. destruct (S u I) as [A B]. split; [exact A|]. upd1 u t; [discriminate|exact B].
  - intro u. apply (thread_same x); bf; auto; [|eauto]. intro Q. upd1 u t; [congruence|reflexivity].
  - intros u Q. rewrite Hs. upd1 u t; [discriminate|]. destruct (RY u Q) as [A [B|B]]; [congruence|auto].
  - intros u I. upd1 u t; [contradiction|]. apply WK. now right.
  - intros v u Q. destruct (SC v u Q) as [B|B]; [discriminate|exact B].
  - intros u o [I|I].
    + injection I as <- <-. rewrite upd_same. split; [reflexivity|]. destruct (b_out x t) as [v|]; [eauto|contradiction].
    + destruct (GO u o I) as [A B]. split; [|exact B]. upd1 u t; [reflexivity|exact A].
  - intros u Q. upd1 u t.
    + split; [|now apply Hs]. unfold gots. cbn [filter]. rewrite Nat.eqb_refl. cbn [length]. f_equal. apply gots_none. intros o I. destruct (GO t o I). congruence.
    + destruct (GS u Q) as [A B]. split; [|now apply Hs]. unfold gots. cbn [filter]. destruct (Nat.eqb t u) eqn:Z; [apply Nat.eqb_eq in Z; congruence|]. exact A.
  - intros u v. rewrite OU. cbn. split; [auto|intros [Q|Q]; [discriminate|exact Q]].
Qed.
Lemma bi_begin x w t q : BI x -> b_queue x = QWrap w :: q -> b_wr x w = Some (t, RSched) -> BI (set_wr (set_queue x q) w t RBegun).
Proof.
  intros M E Ew. assert (M0 := M). openb M. rewrite E in *. destruct (W w t RSched Ew) as [Cl|[Q _]]; [|discriminate].
  constructor; bf; auto.
  - intro u. exact (thread_wr x w t RBegun M0 (ex_intro _ _ Ew) u (T u)).
  - intros v u r Q. unfold calls in *. bf. upd1 v w; [injection Q as <- <-; auto|now apply (W v u r)].
  - intros v u Q. upd1 v w; [discriminate|]. now apply (R v u).
  - intros v Q. upd1 v w; [|now apply F]. destruct (F w Q) as [u A]. congruence.
  - intros v c Q. destruct (MS v c Q) as (Z & u & A & B). split; [exact Z|]. exists u. split; [|exact B]. upd1 v w; [congruence|exact A].
  - intros u Q. destruct (RY u Q) as [R1 [R2|R2]]; [discriminate|auto].
  - intros u I. apply WK. now right.
  - apply (once_cons _ _ ON).
  - intros v u Q. upd1 v w; [discriminate|]. destruct (SC v u Q) as [B|B]; [congruence|exact B].
Qed.
Lemma bi_flag x w b m : BI x -> b_main x = MSet w b -> plain m -> BI (set_main (set_flag x w) m).
Proof.
  intros M E Pm. openb M. destruct (MS w b E) as (Z & t & A & B). constructor; bf; auto.
  - intros v u r Q. destruct (W v u r Q) as [D|[D1 D2]]; [auto|right]. upd1 v w; auto.
  - intros v u Q. left. upd1 v w; [reflexivity|]. destruct (R v u Q) as [D|[c D]]; [exact D|]. congruence.
  - intros v Q. upd1 v w; [eauto|now apply F].
  - intros v c ->. destruct Pm.
  - intros i u ->. destruct Pm.
  - intros ->. destruct Pm.
Qed.
Lemma bi_start x t i : BI x -> b_main x = MStart i -> nth_error (b_pend x) i = Some t ->
  BI (set_main (match b_st x t with WInit => set_th (set_st x t WRun) t TRun | _ => x end) (MWait i t)).
Proof.
  intros M E Nt. assert (It : In t (b_pend x)) by (eapply nth_error_In; exact Nt). openb M. pose proof (T t) as Tt. unfold thread_ok in Tt.
  assert (Nm : forall w b, b_main x <> MSet w b) by (intros; congruence).
  apply P in It. destruct (b_st x t) eqn:Es.
  - assert (Et : b_th x t = TNew).
    { destruct (b_th x t) eqn:Q; try tauto; try (destruct Tt as [[Q1|Q1] _]; discriminate); destruct Tt; discriminate. }
    rewrite Et in *. constructor; bf; auto.
    + intro u. rewrite P. upd1 u t; [|tauto]. split; intros [_ A]; (split; [congruence|exact A]).
    + intros u I. destruct (S u I) as [A B]. split; [|exact B]. upd1 u t; [congruence|exact A].
    + intro u. destruct (Nat.eq_dec u t) as [->|Nu].
      * unfold thread_ok. bf. rewrite !upd_same. tauto.
      * apply (thread_same x); bf; auto; try (now rewrite upd_other); eauto.
    + intros v u r Q. unfold calls in *. bf. destruct (W v u r Q) as [A|A]; [|auto]. upd1 u t; [destruct A; congruence|auto].
    + intros v u Q. destruct (R v u Q) as [D|[c D]]; [auto|elim (Nm v c D)].
    + discriminate.
    + intros j u Q. injection Q as <- <-. split; [exact Nt|]. rewrite upd_same. discriminate.
    + discriminate.
  - constructor; bf; auto; try discriminate.
    + intros v u Q. destruct (R v u Q) as [D|[c D]]; [auto|elim (Nm v c D)].
    + intros j u Q. injection Q as <- <-. split; [exact Nt|congruence].
  - constructor; bf; auto; try discriminate.
    + intros v u Q. destruct (R v u Q) as [D|[c D]]; [auto|elim (Nm v c D)].
    + intros j u Q. injection Q as <- <-. split; [exact Nt|congruence].
  - constructor; bf; auto; try discriminate.
    + intros v u Q. destruct (R v u Q) as [D|[c D]]; [auto|elim (Nm v c D)].
    + intros j u Q. injection Q as <- <-. split; [exact Nt|congruence].
Qed.
Lemma remove_one_in t l u : NoDup l -> (In u (remove_one t l) <-> In u l /\ u <> t).
Proof.
  induction l as [|v l IH]; intro N; [cbn; tauto|]. inversion N as [|? ? Nv Nl]; subst. cbn. destruct (Nat.eqb v t) eqn:E.
  - apply Nat.eqb_eq in E. subst v. split; [intro I; split; [auto|congruence]|]. intros [[Q|Q] D]; [congruence|exact Q].
  - apply Nat.eqb_neq in E. cbn. rewrite IH by exact Nl. split; [intros [Q|[Q D]]; [split; [auto|congruence]|auto]|]. intros [[Q|Q] D]; auto.
Qed.
Lemma remove_one_nodup t l : NoDup l -> NoDup (remove_one t l).
Proof.
  induction l as [|v l IH]; intro N; [constructor|]. inversion N as [|? ? Nv Nl]; subst. cbn. destruct (Nat.eqb v t); [exact Nl|].
  constructor; [|now apply IH]. intro I. apply remove_one_in in I; tauto.
Qed.
Lemma bi_exit x t i : BI x -> b_main x = MWait i t -> b_st x t = WExit -> BI (set_main (event_set (set_pend x (remove_one t (b_pend x))) t) (MStart (S i))).
Proof.
  intros M E Ex. openb M. destruct (MW i t E) as [Nt _]. assert (It : In t (b_pend x)) by (eapply nth_error_In; exact Nt).
  assert (Nm : forall w b, b_main x <> MSet w b) by (intros; congruence). pose proof (T t) as Tt. unfold thread_ok in Tt.
  assert (Ot : b_th x t = TOver).
  { destruct (b_th x t) eqn:Q; try reflexivity; try (destruct Tt as [[Q1|Q1] _]; congruence); try (destruct Tt; congruence). }
  apply P in It. destruct It as [_ Ns].
  assert (Hs : forall u h, In (HSet u) (HSet t :: h) <-> u = t \/ In (HSet u) h) by (intros u h; cbn; split; [intros [Q|Q]; [left; congruence|auto]|intros [->|Q]; auto]).
  assert (Pd : forall u h, h = b_hist x -> (In u (remove_one t (b_pend x)) <-> b_th x u <> TNone /\ ~ In (HSet u) (HSet t :: h))).
  { intros u h ->. rewrite remove_one_in by exact N. rewrite P, Hs. tauto. }
  assert (Rdone : forall w u, b_wr x w = Some (u, RDone) -> b_flag x w = true).
  { intros v u Q. destruct (R v u Q) as [D|[c D]]; [auto|elim (Nm v c D)]. }
  assert (Go : forall u o, In (HGot u o) (HSet t :: b_hist x) -> In (HGot u o) (b_hist x)) by (intros u o [Q|Q]; [discriminate|exact Q]).
  assert (Ou : forall u v, b_out x u = Some v <-> In (HOut u v) (HSet t :: b_hist x)).
  { intros u v. rewrite OU. cbn. split; [auto|intros [Q|Q]; [discriminate|exact Q]]. }
  assert (Gs : forall u, gots u (HSet t :: b_hist x) = gots u (b_hist x)) by reflexivity.
  unfold event_set. bf. destruct (b_aw x t) eqn:Aw.
  - constructor; bf; auto; try discriminate.
    + now apply remove_one_nodup.
    + intros u I. apply Hs in I. destruct I as [->|I]; [rewrite upd_same; split; [exact Ot|discriminate]|]. destruct (S u I) as [A B]. split; [exact A|].
      upd1 u t; [discriminate|exact B].
    + intro u. apply (thread_same x); bf; auto; [|eauto]. intro Q. upd1 u t; [congruence|reflexivity].
    + intros v u Q. left. now apply (Rdone v u).
    + intros u Q. upd1 u t; [split; [now left|apply in_or_app; right; now left]|]. destruct (RY u Q) as [A B]. split; [now right|apply in_or_app; auto].
    + intros u I. apply in_app_or in I. destruct I as [I|[I|[]]].
      * pose proof (WK u I) as Q. upd1 u t; [congruence|exact Q].
      * injection I as ->. now rewrite upd_same.
    + apply once_add; [exact ON|]. intros u Q I. injection Q as ->. rewrite (WK u I) in Aw. discriminate.
    + intros v u Q. apply in_or_app. left. now apply (SC v u).
    + intros u o I. apply Go in I. destruct (GO u o I) as [A B]. split; [|exact B]. upd1 u t; [congruence|exact A].
    + intros u Q. rewrite Gs. upd1 u t; [discriminate|]. destruct (GS u Q) as [A B]. split; [exact A|now right].
  - elim Ns. apply (RY t Aw).
  - elim Ns. apply (GS t Aw).
  - constructor; bf; auto; try discriminate.
    + now apply remove_one_nodup.
    + intros u I. apply Hs in I. destruct I as [->|I]; [split; [exact Ot|congruence]|]. exact (S u I).
    + intros v u Q. left. now apply (Rdone v u).
    + intros u Q. destruct (RY u Q) as [A B]. split; [now right|exact B].
    + intros u Q. rewrite Gs. destruct (GS u Q) as [A B]. split; [exact A|now right].
Qed.

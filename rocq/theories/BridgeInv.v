(** The invariants of bridges. *)
From Verif Require Import Base KernelModel KernelProofs KernelInv BridgeModel BridgeSpec.
From Coq Require Import Arith.

Definition calls (x : bst) (t : bid) (w : wid) : Prop := b_th x t = TCall w \/ b_th x t = TBlock w.
(** What the state of a thread says about its waiter. *)
Definition thread_ok (x : bst) (t : bid) : Prop :=
  match b_th x t with
  | TNone => b_st x t = WInit /\ b_out x t = None /\ b_aw x t = AWait
  | TNew => b_st x t = WInit /\ b_out x t = None
  | TRun => (b_st x t = WRun \/ b_st x t = WPause) /\ b_out x t = None
  | TCall w | TBlock w => (b_st x t = WRun \/ b_st x t = WPause) /\ b_out x t = None /\ exists r, b_wr x w = Some (t, r)
  | TOut => (b_st x t = WRun \/ b_st x t = WPause) /\ b_out x t <> None
  | TOver => b_st x t = WExit /\ b_out x t <> None
  end.
Record BI (x : bst) : Prop := {
  B_nodup : NoDup (b_pend x);
  B_pend : forall t, In t (b_pend x) <-> b_th x t <> TNone /\ ~ In (HSet t) (b_hist x);
  B_set : forall t, In (HSet t) (b_hist x) -> b_th x t = TOver /\ b_aw x t <> AWait;
  B_th : forall t, thread_ok x t;
  B_wr : forall w t r, b_wr x w = Some (t, r) -> calls x t w \/ (r = RDone /\ b_flag x w = true);
  B_rdone : forall w t, b_wr x w = Some (t, RDone) -> b_flag x w = true \/ exists b, b_main x = MSet w b;
  B_flag : forall w, b_flag x w = true -> exists t, b_wr x w = Some (t, RDone);
  B_mset : forall w b, b_main x = MSet w b -> b_flag x w = false /\ exists t, b_wr x w = Some (t, RDone) /\ calls x t w;
  B_wait : forall i t, b_main x = MWait i t -> nth_error (b_pend x) i = Some t /\ b_st x t <> WInit;
  B_bad : b_main x <> MBad;
  B_ready : forall t, b_aw x t = AReady -> In (HSet t) (b_hist x) /\ In (QWake t) (b_queue x);
  B_wake : forall t, In (QWake t) (b_queue x) -> b_aw x t = AReady;
  B_once : forall q1 t q2, b_queue x = q1 ++ QWake t :: q2 -> ~ In (QWake t) q1 /\ ~ In (QWake t) q2;
  B_sched : forall w t, b_wr x w = Some (t, RSched) -> In (QWrap w) (b_queue x);
  B_got : forall t o, In (HGot t o) (b_hist x) -> b_aw x t = AGot /\ exists v, o = Some v /\ b_out x t = Some v;
  B_gots : forall t, b_aw x t = AGot -> gots t (b_hist x) = 1 /\ In (HSet t) (b_hist x);
  B_out : forall t v, b_out x t = Some v <-> In (HOut t v) (b_hist x) }.
Ltac bf := cbn [set_st set_th set_queue set_main set_wr set_aw set_flag set_out set_pend note
  b_pend b_st b_th b_wr b_flag b_out b_aw b_queue b_main b_hist] in *.
Ltac upd1 u v := destruct (Nat.eq_dec u v) as [->|?]; [rewrite ?upd_same in *|rewrite ?upd_other in * by assumption].
Ltac openb M := destruct M as [N P S T W R F MS MW MB RY WK ON SC GO GS OU].

Lemma binit_ok : BI binit.
Proof.
  constructor; cbn.
  - constructor.
  - intro t. split; [intros []|]. intros [Q _]. now apply Q.
  - intros t [].
  - intro t. unfold thread_ok. cbn. auto.
  - discriminate.
  - discriminate.
  - discriminate.
  - discriminate.
  - discriminate.
  - discriminate.
  - discriminate.
  - intros t [].
  - intros [|? ?] ? ?; discriminate.
  - discriminate.
  - intros t o [].
  - discriminate.
  - intros t v. split; [discriminate|intros []].
Qed.

(** Only the main thread moves: where it is does not matter much. *)
Definition plain (m : mpc) : Prop := match m with MSet _ _ | MWait _ _ | MBad => False | _ => True end.
Lemma bi_main x m : BI x -> (forall w b, b_main x <> MSet w b) -> plain m -> BI (set_main x m).
Proof.
  intros M Nm Pm. openb M. constructor; bf; auto.
  - intros w t E. destruct (R w t E) as [Q|[b Q]]; [auto|elim (Nm w b Q)].
  - intros w b ->. destruct Pm.
  - intros i t ->. destruct Pm.
  - intros ->. destruct Pm.
Qed.
Lemma kill_wake_in q t e : In e (kill_wake q t) <-> (In e q /\ e <> QWake t) \/ (e = QDead /\ In (QWake t) q).
Proof.
  unfold kill_wake. rewrite in_map_iff. split.
  - intros (a & E & I). destruct a as [u| | | ]; try (subst; left; split; [exact I|discriminate]).
    destruct (Nat.eqb u t) eqn:Q; [apply Nat.eqb_eq in Q; subst; auto|]. subst. left. split; [exact I|]. apply Nat.eqb_neq in Q. congruence.
  - intros [[I N]|[-> I]].
    + exists e. split; [|exact I]. destruct e as [u| | | ]; try reflexivity. destruct (Nat.eqb u t) eqn:Q; [|reflexivity].
      apply Nat.eqb_eq in Q. congruence.
    + exists (QWake t). split; [now rewrite Nat.eqb_refl|exact I].
Qed.
Lemma kill_wrap_in q w e : In e (kill_wrap q w) <-> (In e q /\ e <> QWrap w) \/ (e = QDead /\ In (QWrap w) q).
Proof.
  unfold kill_wrap. rewrite in_map_iff. split.
  - intros (a & E & I). destruct a as [ |u| | ]; try (subst; left; split; [exact I|discriminate]).
    destruct (Nat.eqb u w) eqn:Q; [apply Nat.eqb_eq in Q; subst; auto|]. subst. left. split; [exact I|]. apply Nat.eqb_neq in Q. congruence.
  - intros [[I N]|[-> I]].
    + exists e. split; [|exact I]. destruct e as [ |u| | ]; try reflexivity. destruct (Nat.eqb u w) eqn:Q; [|reflexivity].
      apply Nat.eqb_eq in Q. congruence.
    + exists (QWrap w). split; [now rewrite Nat.eqb_refl|exact I].
Qed.
(** Each awaiting Task is scheduled once. *)
Definition once (q : list entry) : Prop := forall q1 t q2, q = q1 ++ QWake t :: q2 -> ~ In (QWake t) q1 /\ ~ In (QWake t) q2.
Lemma once_add q e : once q -> (forall t, e = QWake t -> ~ In (QWake t) q) -> once (q ++ [e]).
Proof.
  intros O N q1 t q2 E. destruct q2 as [|e2 q2 _] using rev_ind.
  - apply app_inj_tail in E. destruct E as [<- ->]. split; [now apply N|easy].
  - rewrite app_comm_cons, app_assoc in E. apply app_inj_tail in E. destruct E as [E <-]. destruct (O q1 t q2 E) as [A B]. split; [exact A|].
    intro I. apply in_app_or in I. destruct I as [I|[I|[]]]; [contradiction|]. apply (N t I). rewrite E. apply in_elt.
Qed.
Lemma once_map q f : once q -> (forall e t, f e = QWake t -> e = QWake t) -> once (map f q).
Proof.
  intros O Hf q1 t q2 E.
  assert (In' : forall l, In (QWake t) (map f l) -> In (QWake t) l).
  { intros l I. apply in_map_iff in I. destruct I as (e & Q & I). rewrite (Hf e t Q) in I. exact I. }
  apply map_eq_app in E. destruct E as (a & b & -> & E1 & E2).
  destruct b as [|e b]; [discriminate|]. injection E2 as E2 E3. rewrite (Hf e t E2) in O. destruct (O a t b eq_refl) as [A B]. subst q1 q2. split; auto.
Qed.
Lemma once_cons e q : once (e :: q) -> once q /\ forall t, e = QWake t -> ~ In (QWake t) q.
Proof.
  intro O. split.
  - intros q1 t q2 E. destruct (O (e :: q1) t q2) as [A B]; [now rewrite E|]. split; [|exact B]. intro I. apply A. now right.
  - intros t ->. apply (O [] t q eq_refl).
Qed.

Lemma bi_new x t : BI x -> user_control x = true -> b_th x t = TNone -> BI (set_pend (set_th x t TNew) (b_pend x ++ [t])).
Proof.
  intros M C E. openb M. assert (Nt : ~ In t (b_pend x)) by (intro I; apply P in I; tauto).
  assert (Ns : ~ In (HSet t) (b_hist x)) by (intro I; apply S in I; rewrite E in I; destruct I; discriminate).
  pose proof (T t) as Tt. unfold thread_ok in Tt. rewrite E in Tt. constructor; bf; auto.
  - now apply NoDup_app_snoc.
  - intro u. rewrite in_app_iff, P. cbn. upd1 u t; [split; [|tauto]; intros _; split; [discriminate|exact Ns]|].
    split; [intros [Q|[->|[]]]; [exact Q|contradiction]|auto].
  - intros u I. upd1 u t; [contradiction|auto].
  - intro u. unfold thread_ok in *. bf. upd1 u t; [tauto|apply T].
  - intros w u r Q. unfold calls in *. bf. upd1 u t; [|now apply (W w u r)]. destruct (W w t r Q) as [[H|H]|H]; [congruence|congruence|auto].
  - intros w b Q. destruct (MS w b Q) as (Z & u & A & B). split; [exact Z|]. exists u. split; [exact A|]. unfold calls in *. bf. upd1 u t; [|exact B]. destruct B; congruence.
  - intros i u Q. unfold user_control in C. rewrite Q in C. discriminate.
Qed.
Lemma bi_abandon x t : BI x -> b_th x t <> TNone -> (b_aw x t = AWait \/ b_aw x t = AReady) -> BI (set_queue (set_aw x t AGone) (kill_wake (b_queue x) t)).
Proof.
  intros M E A. openb M. constructor; bf; auto.
  - intros u I. destruct (S u I) as [S1 S2]. split; [exact S1|]. upd1 u t; [discriminate|exact S2].
  - intro u. specialize (T u). unfold thread_ok in *. bf. destruct (b_th x u) eqn:Q; auto. upd1 u t; [congruence|exact T].
  - intros u Q. upd1 u t; [discriminate|]. destruct (RY u Q) as [R1 R2]. split; [exact R1|]. apply kill_wake_in. left. split; [exact R2|congruence].
  - intros u I. apply kill_wake_in in I. destruct I as [[I Q]|[Q _]]; [|discriminate]. upd1 u t; [congruence|auto].
  - apply once_map; [exact ON|]. intros e u. destruct e as [v| | | ]; try discriminate. destruct (Nat.eqb v t); [discriminate|auto].
  - intros w u Q. apply kill_wake_in. left. split; [now apply (SC w u)|discriminate].
  - intros u o I. destruct (GO u o I) as [G1 G2]. split; [|exact G2]. upd1 u t; [destruct A; congruence|exact G1].
  - intros u Q. upd1 u t; [discriminate|auto].
Qed.
Lemma thread_wr x w t r : BI x -> (exists r0, b_wr x w = Some (t, r0)) -> forall u, thread_ok x u -> thread_ok (set_wr x w t r) u.
Proof.
  intros M [r0 E] u T. unfold thread_ok in *. bf. destruct (b_th x u) as [ | | |v|v| | ] eqn:Q; auto; destruct T as (T1 & T2 & r1 & T3); (split; [exact T1|]); (split; [exact T2|]);
    (upd1 v w; [rewrite E in T3; injection T3 as -> ->; eauto|eauto]).
Qed.
Lemma bi_finish x w t b : BI x -> (forall v c, b_main x <> MSet v c) -> b_wr x w = Some (t, RBegun) -> BI (set_main (set_st (set_wr x w t RDone) t WRun) (MSet w b)).
Proof.
  intros M Nm E. assert (M0 := M). openb M. destruct (W w t RBegun E) as [Cl|[Q _]]; [|discriminate].
  assert (Nf : b_flag x w = false) by (destruct (b_flag x w) eqn:Q; [destruct (F w Q) as [u A]; congruence|reflexivity]).
  constructor; bf; auto.
  - intro u. pose proof (thread_wr x w t RDone M0 (ex_intro _ _ E) u (T u)) as Q. unfold thread_ok in *. bf.
    upd1 u t; [|exact Q]. destruct Cl as [Cl|Cl]; rewrite Cl in *; destruct Q as (_ & Q2 & Q3); auto.
  - intros v u r Q. unfold calls in *. bf. upd1 v w; [injection Q as <- <-; auto|now apply (W v u r)].
  - intros v u Q. upd1 v w; [right; now exists b|]. destruct (R v u Q) as [Z|[c Z]]; [auto|elim (Nm v c Z)].
  - intros v Q. upd1 v w; [congruence|now apply F].
  - intros v c Q. injection Q as <- <-. split; [exact Nf|]. exists t. rewrite upd_same. auto.
  - discriminate.
  - discriminate.
  - intros v u Q. upd1 v w; [discriminate|now apply (SC v u)].
Qed.
Lemma bi_lose x w t : BI x -> b_wr x w = Some (t, RSched) -> BI (set_queue (set_wr x w t RLost) (kill_wrap (b_queue x) w)).
Proof.
  intros M E. assert (M0 := M). openb M. destruct (W w t RSched E) as [Cl|[Q _]]; [|discriminate].
  constructor; bf; auto.
  - intro u. exact (thread_wr x w t RLost M0 (ex_intro _ _ E) u (T u)).
  - intros v u r Q. unfold calls in *. bf. upd1 v w; [injection Q as <- <-; auto|now apply (W v u r)].
  - intros v u Q. upd1 v w; [discriminate|auto].
    now apply (R v u).
  - intros v Q. upd1 v w; [|now apply F]. destruct (F w Q) as [u A]. congruence.
  - intros v c Q. destruct (MS v c Q) as (Z & u & A & B). split; [exact Z|]. exists u. split; [|exact B]. upd1 v w; [congruence|exact A].
  - intros u Q. destruct (RY u Q) as [R1 R2]. split; [exact R1|]. apply kill_wrap_in. left. split; [exact R2|discriminate].
  - intros u I. apply kill_wrap_in in I. destruct I as [[I Q]|[Q _]]; [auto|discriminate].
  - apply once_map; [exact ON|]. intros e u. destruct e as [ |v| | ]; try discriminate; [auto|]. destruct (Nat.eqb v w); discriminate.
  - intros v u Q. upd1 v w; [discriminate|]. apply kill_wrap_in. left. split; [now apply (SC v u)|congruence].
Qed.

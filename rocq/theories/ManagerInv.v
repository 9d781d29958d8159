(** The invariant of TaskManager: which children are in [_remaining_tasks], and what [_none_remaining] says. *)
From Verif Require Import Base KernelModel KernelProofs KernelHist KernelLog KernelInv KernelTask KernelWake KernelLayer KernelStack
  LayerProofs ManagerModel ManagerSpec.
From Coq Require Import Arith.

Lemma private_inj m n : private m = private n -> m = n.
Proof. unfold private. lia. Qed.
Lemma private_odd n : Nat.even (private n) = false.
Proof. unfold private. rewrite Nat.even_succ, <- Nat.negb_even, Nat.even_add. destruct (Nat.even n); reflexivity. Qed.
Lemma private_div2 n : Nat.div2 (private n) = n.
Proof. unfold private. replace (n + n) with (2 * n) by lia. apply Nat.div2_succ_double. Qed.

(** The manager in whose [__aexit__] a Task is; on whose Event it waits; stages in which it has control. *)
Definition inst_of (p : stage) : nat :=
  match p with ACancel i _ _ | ANull i | ATest i _ | ADrain i _ | AAwait i _ | AWait i _ => i end.
Definition waits_on (p : stage) : option nat := match p with ADrain i _ | AWait i _ => Some i | _ => None end.
Definition busy (p : stage) : bool := match p with ACancel _ _ _ | ATest _ _ | AAwait _ _ => true | _ => false end.

Definition calling (k : st) (u : tid) : Prop := exists a rest, s_ctl k = FDone u 1 a :: rest.
Record MI (x : mst) : Prop := {
  A_k : Inv (x_k x);
  A_new : forall i, x_n x <= i -> s_cbs (x_k x) (TEvent (private i)) = [] /\ forall u b, ~ child x i u b;
  A_dcb : forall u, evens (k_dcbs (s_task (x_k x) u)) \/
    exists i b ds, k_dcbs (s_task (x_k x) u) = private i :: ds /\ evens ds /\ child x i u b;
  A_kid : forall i u b, child x i u b -> exists ds, k_dcbs (s_task (x_k x) u) = private i :: ds;
  A_rem : forall i u b, In (u, b) (m_rem (x_m x i)) <-> child x i u b /\ (due (x_k x) u \/ x_cb x = Some (BStart i u));
  A_nd : forall i, NoDup (map fst (m_rem (x_m x i)));
  A_ev : forall i, i < x_n x -> (s_event (x_k x) (private i) = true <-> m_rem (x_m x i) = []);
  A_cb : forall c, x_cb x = Some c ->
    match c with
    | BStart i u => (exists b, child x i u b) /\ calling (x_k x) u
    | BCheck i u b => child x i u b /\ calling (x_k x) u
    | BParent i _ | BCancel i _ => i < x_n x /\ exists u, calling (x_k x) u
    end;
  A_pend : forall t p, x_pend x t = Some p -> inst_of p < x_n x /\ m_fin (x_m x (inst_of p)) = true;
  A_wait : forall t p i, x_pend x t = Some p -> waits_on p = Some i ->
    waiting (x_k x) t (TEvent (private i)) (m_rem (x_m x i) = []);
  A_busy : forall t p, x_pend x t = Some p -> busy p = true -> on_top t (s_ctl (x_k x)) /\ x_cb x = None;
  A_in : forall t i, In i (x_in x t) -> i < x_n x }.

Lemma minit_ok : MI minit.
Proof.
  constructor; cbn; try (intros; discriminate); try (intros; lia); try tauto.
  - apply inv_init.
  - left. constructor.
  - intros. constructor.
Qed.

Lemma evens_app a b : evens a -> evens b -> evens (a ++ b).
Proof. intros. apply Forall_app. auto. Qed.
Lemma evens_private i ds : ~ evens (private i :: ds).
Proof. intro E. inversion E as [|a b Q]. rewrite private_odd in Q. discriminate. Qed.

(** * The kernel moves *)
Record KF (x : mst) (k' : st) : Prop := {
  F_k : Inv k';
  F_new : forall i, x_n x <= i -> s_cbs k' (TEvent (private i)) = [];
  F_ev : forall i, i < x_n x -> s_event k' (private i) = s_event (x_k x) (private i);
  F_dcb : forall u, exists ds, evens ds /\ k_dcbs (s_task k' u) = k_dcbs (s_task (x_k x) u) ++ ds;
  F_due : forall i u b, child x i u b -> (due k' u <-> due (x_k x) u);
  F_cb : x_cb x = None \/ s_ctl k' = s_ctl (x_k x);
  F_wait : forall t p i, x_pend x t = Some p -> waits_on p = Some i -> waiting k' t (TEvent (private i)) (m_rem (x_m x i) = []);
  F_busy : forall t p, x_pend x t = Some p -> busy p = true -> on_top t (s_ctl k') }.
Lemma mi_frame x k' : MI x -> KF x k' -> MI (set_k x k').
Proof.
  intros M F. constructor; cbn [set_k x_k x_m x_n x_in x_pend x_cb x_hist].
  - apply (F_k x k' F).
  - intros i Hi. split; [apply (F_new x k' F i Hi)|apply (proj2 (A_new x M i Hi))].
  - intro u. destruct (F_dcb x k' F u) as (ds & Ev & E). rewrite E. destruct (A_dcb x M u) as [D|(i & b & ds0 & D & Ev0 & C)].
    + left. now apply evens_app.
    + right. exists i, b, (ds0 ++ ds). rewrite D. split; [reflexivity|]. split; [now apply evens_app|exact C].
  - intros i u b C. destruct (A_kid x M i u b C) as [ds D]. destruct (F_dcb x k' F u) as (ds' & _ & E). rewrite E, D. cbn. eauto.
  - intros i u b. rewrite (A_rem x M). split; intros [C D]; (split; [exact C|]); destruct D as [D|D]; auto; left; now apply (F_due x k' F i u b C).
  - apply (A_nd x M).
  - intros i Hi. rewrite (F_ev x k' F i Hi). now apply (A_ev x M).
  - intros c E. pose proof (A_cb x M c E) as P. destruct (F_cb x k' F) as [N|S]; [congruence|]. unfold calling in *. rewrite S. exact P.
  - apply (A_pend x M).
  - apply (F_wait x k' F).
  - intros t p E B. split; [apply (F_busy x k' F t p E B)|apply (A_busy x M t p E B)].
  - apply (A_in x M).
Qed.

Lemma await_event_same s t rest tr ok : s_event (fst (await_trigger s rest t tr ok)) = s_event s.
Proof.
  unfold await_trigger. destruct (await_check s tr) as [s1|] eqn:E; [|reflexivity]. rewrite <- (await_check_event _ _ _ E). cbn [fst].
  unfold coro_yielded. destruct (negb _); [reflexivity|]. set (s2 := set_task _ t (with_state _ _)).
  assert (Q : s_event (fst (register s2 tr t ok)) = s_event s2).
  { unfold register. cbv zeta. destruct (s_cbs s2 tr); [|reflexivity]. destruct tr; cbn [prime fst]; try reflexivity.
    - match goal with |- context[if ?b then _ else _] => destruct b end; [rewrite react_event|]; reflexivity.
    - match goal with |- context[if ?b then _ else _] => destruct b end; [rewrite react_event|]; reflexivity.
    - match goal with |- context[match ?b with Some _ => _ | None => _ end] => destruct b end; [reflexivity|].
      unfold acquire_and_fire. rewrite react_event. reflexivity.
    - rewrite react_event. reflexivity.
    - match goal with |- context[if ?b then _ else _] => destruct b end; [rewrite react_event|]; reflexivity.
    - match goal with |- context[if ?b then _ else _] => destruct b end; [rewrite react_event|]; reflexivity.
    - destruct ok; reflexivity. }
  destruct (register s2 tr t ok) as [s3 b]. cbn [fst] in Q. cbn [s_event set_current]. destruct b; [|exact Q]. exact Q.
Qed.

(** A kernel step, by whatever code, which does not set or clear the Events of managers. *)
Lemma kf_step x l k' r : MI x -> step (x_k x) l = Some (k', r) -> prime_ok l ->
  (forall i, l <> LOp (OpSet (private i)) /\ l <> LOp (OpClear (private i))) ->
  (forall i ok, l = LAwait (TEvent (private i)) ok -> i < x_n x) ->
  (forall t c, l = LOp (OpAddDone t c) -> Nat.even c = true) ->
  (l = LDoneNext -> forall i u b a rest, child x i u b -> s_ctl (x_k x) <> FDone u 0 a :: rest) ->
  (x_cb x = None /\ (forall t p, x_pend x t = Some p -> ~ on_top t (s_ctl (x_k x)))) \/ (is_call l = true /\ s_ctl k' = s_ctl (x_k x)) ->
  KF x k'.
Proof.
  intros M St Pr Ns Na Nd Nt Top. pose proof (A_k x M) as H. destruct (inv_step _ _ _ _ H Pr St) as (H1 & Sb & _). constructor.
  - exact H1.
  - intros i Hi. assert (Nm : ~ mentions (private i) l).
    { intros [E|[E|[ok E]]]; [now apply (proj1 (Ns i))|now apply (proj2 (Ns i))|]. specialize (Na i ok E). lia. }
    destruct (step_eframe _ _ _ _ _ Nm St) as [_ I]. rewrite (proj1 (A_new x M i Hi)) in I.
    destruct (s_cbs k' (TEvent (private i))) as [|c cs]; [reflexivity|]. destruct (I c). now left.
  - intros i Hi. assert (D : mentions (private i) l \/ ~ mentions (private i) l).
    { unfold mentions. destruct l as [o| | | |tr ok| | | | | | |]; try (right; intros [E|[E|[ok0 E]]]; discriminate).
      - right. intros [E|[E|[ok0 E]]]; [now apply (proj1 (Ns i))|now apply (proj2 (Ns i))|discriminate].
      - destruct tr as [e| | | | | | ]; try (right; intros [E|[E|[ok0 E]]]; discriminate).
        destruct (Nat.eq_dec e (private i)) as [->|N]; [left; eauto|]. right; intros [E|[E|[ok0 E]]]; [discriminate|discriminate|]. congruence. }
    destruct D as [D|D]; [|apply (step_eframe _ _ _ _ _ D St)].
    destruct D as [E|[E|[ok E]]]; [elim (proj1 (Ns i) E)|elim (proj2 (Ns i) E)|]. subst l. unfold step in St.
    destruct (s_halt (x_k x)); [discriminate|]. destruct (s_ctl (x_k x)) as [|[t| | ] rest]; try discriminate.
    pose proof (await_event_same (x_k x) t rest (TEvent (private i)) ok) as Q. assert (E : await_trigger (x_k x) rest t (TEvent (private i)) ok = (k', r)) by congruence.
    rewrite E in Q. cbn [fst] in Q. now rewrite Q.
  - intro u. destruct (step_dcbs _ _ _ _ u H St) as [E|(c & El & E)]; rewrite E.
    + exists []. rewrite app_nil_r. split; [constructor|reflexivity].
    + exists [c]. split; [|reflexivity]. repeat constructor. now apply (Nd u c).
  - intros i u b C. apply (due_step _ _ _ _ u H St Pr). intros El a rest. now apply (Nt El i u b a rest).
  - destruct Top as [[T _]|[_ T]]; auto.
  - intros t p i E W. apply (waiting_step _ _ _ _ t _ _ H St Pr); [|destruct Top as [[_ T]|[T _]]; [right; eauto|now left]|].
    + intro Q. cbn in Q. now apply (proj1 (Ns i)).
    + apply (A_wait x M t p i E W).
  - intros t p E B. destruct Top as [[_ T]|[_ T]].
    + destruct (T t p E). apply (A_busy x M t p E B).
    + rewrite T. apply (A_busy x M t p E B).
Qed.
Lemma mi_call x o k r : MI x -> step (x_k x) (LOp o) = Some (k, r) -> s_ctl k = s_ctl (x_k x) ->
  (forall i, o <> OpSet (private i) /\ o <> OpClear (private i)) -> (forall t c, o = OpAddDone t c -> Nat.even c = true) ->
  MI (set_k x k).
Proof.
  intros M St Ec Ns Nd. apply mi_frame; [exact M|]. apply (kf_step x (LOp o) k r M St).
  - exact Logic.I.
  - intro i. destruct (Ns i). split; congruence.
  - discriminate.
  - intros t c E. injection E as E. eauto.
  - discriminate.
  - right. auto.
Qed.

(** * Other updates *)
Lemma mi_record x h : MI x -> (forall i u b, h <> HStart i u b) -> MI (record x h).
Proof.
  intros M N. assert (C : forall i u b, child (record x h) i u b <-> child x i u b).
  { intros. unfold child. cbn. split; [intros [E|I]; [now elim (N i u b)|exact I]|auto]. }
  destruct M. constructor; cbn [record x_k x_m x_n x_in x_pend x_cb x_hist]; auto.
  - intros i Hi. destruct (A_new0 i Hi) as [Q R]. split; [exact Q|]. intros u b D. apply (R u b). now apply C.
  - intro u. destruct (A_dcb0 u) as [D|(i & b & ds & D & E & I)]; [now left|]. right. exists i, b, ds. rewrite C. auto.
  - intros i u b D. apply C in D. eauto.
  - intros i u b. rewrite A_rem0, C. tauto.
  - intros c E. specialize (A_cb0 c E). destruct c; try exact A_cb0; [|rewrite C; exact A_cb0].
    destruct A_cb0 as [[b Hb] Q]. split; [exists b; now apply C|exact Q].
Qed.
Lemma mi_mgr x i m : MI x -> m_rem m = m_rem (x_m x i) -> (m_fin (x_m x i) = true -> m_fin m = true) -> MI (set_m x i m).
Proof.
  intros M R F. assert (Rm : forall j, m_rem (upd (x_m x) i m j) = m_rem (x_m x j)).
  { intro j. unfold upd. destruct (Nat.eqb_spec j i) as [->|]; auto. }
  destruct M. constructor; cbn [set_m x_k x_m x_n x_in x_pend x_cb x_hist]; auto.
  - intros j u b. rewrite Rm. apply A_rem0.
  - intro j. rewrite Rm. auto.
  - intros j Hj. rewrite Rm. auto.
  - intros t p E. destruct (A_pend0 t p E) as [Q1 Q2]. split; [exact Q1|]. unfold upd. destruct (Nat.eqb_spec (inst_of p) i) as [Ei|]; [|exact Q2].
    apply F. now rewrite <- Ei.
  - intros t p j E W. rewrite Rm. eauto.
Qed.
Lemma mi_in x t l : MI x -> (forall i, In i l -> i < x_n x) -> MI (set_in x t l).
Proof.
  intros M L. destruct M. constructor; cbn [set_in x_k x_m x_n x_in x_pend x_cb x_hist]; auto.
  intros u i. unfold upd. destruct (Nat.eqb_spec u t); [apply L|apply A_in0].
Qed.
Lemma mi_pend x t o : MI x ->
  (forall p, o = Some p -> inst_of p < x_n x /\ m_fin (x_m x (inst_of p)) = true /\
     (forall i, waits_on p = Some i -> waiting (x_k x) t (TEvent (private i)) (m_rem (x_m x i) = [])) /\
     (busy p = true -> on_top t (s_ctl (x_k x)) /\ x_cb x = None)) -> MI (set_pend x t o).
Proof.
  intros M P. destruct M. constructor; cbn [set_pend x_k x_m x_n x_in x_pend x_cb x_hist]; auto.
  - intros u p. unfold upd. destruct (Nat.eqb_spec u t) as [->|]; [|apply A_pend0]. intro E. destruct (P p E) as (P1 & P2 & _). auto.
  - intros u p i. unfold upd. destruct (Nat.eqb_spec u t) as [->|]; [|apply A_wait0]. intro E. destruct (P p E) as (_ & _ & P3 & _). auto.
  - intros u p. unfold upd. destruct (Nat.eqb_spec u t) as [->|]; [|apply A_busy0]. intro E. destruct (P p E) as (_ & _ & _ & P4). auto.
Qed.
Lemma mi_leave x t : MI x -> MI (set_pend x t None).
Proof. intro M. apply mi_pend; [exact M|discriminate]. Qed.
(** The callback goes on, after line 196. *)
Lemma mi_cb x c : MI x -> x_cb x <> None -> (forall i u, x_cb x <> Some (BStart i u)) ->
  match c with
  | None => True | Some (BStart i u) => False | Some (BCheck i u b) => child x i u b /\ calling (x_k x) u
  | Some (BParent i _ | BCancel i _) => i < x_n x /\ exists u, calling (x_k x) u end -> MI (set_cb x c).
Proof.
  intros M N Ns P. destruct M. constructor; cbn [set_cb x_k x_m x_n x_in x_pend x_cb x_hist]; auto.
  - intros i u b. rewrite A_rem0. split; intros [C D]; (split; [exact C|]); destruct D as [D|D]; auto.
    + elim (Ns i u D).
    + subst c. destruct P.
  - intros c0 ->. destruct c0; try exact P. destruct P.
  - intros t p E B. destruct (A_busy0 t p E B). contradiction.
Qed.

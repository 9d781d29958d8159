(** The invariant of [_wait]. *)
From Verif Require Import Base KernelModel KernelProofs KernelHist KernelLog KernelInv KernelTask KernelWake KernelLayer KernelStack
  WaitModel WaitSpec.
From Coq Require Import Arith.

Lemma private_inj m n : private m = private n -> m = n.
Proof. unfold private. lia. Qed.
Lemma private_odd n : Nat.even (private n) = false.
Proof. unfold private. rewrite Nat.even_succ, <- Nat.negb_even, Nat.even_add. destruct (Nat.even n); reflexivity. Qed.
Lemma private_div2 n : Nat.div2 (private n) = n.
Proof. unfold private. replace (n + n) with (2 * n) by lia. apply Nat.div2_succ_double. Qed.

(** The call in which a Task is. *)
Definition inst_of (p : stage) : option nat :=
  match p with
  | SAdd i _ | SGo i _ | SWait i | SCancel i _ _ | SDrain i _ | SNull i _ => Some i
  | SNoTrigger => None
  end.
(** The Tasks still without callback; those still to be started. *)
Definition bare (p : stage) : list tid := match p with SAdd _ us => us | SGo _ us => List.tl us | _ => [] end.
Definition unstarted (p : stage) : list tid := match p with SAdd _ us | SGo _ us => us | _ => [] end.
Definition starting (p : stage) : bool := match p with SAdd _ _ | SGo _ _ => true | _ => false end.
Definition evens (l : list nat) : Prop := Forall (fun c => Nat.even c = true) l.

Definition waits_ok (x : wst) (t : tid) (i : nat) : Prop :=
  let k := y_k x in let ready := k_exc (s_task k t) = None -> w_rem (y_w x i) = [] in
  done k t = true \/
  (exists h, In (h, t) (s_cbs k (TInternal (private i)))) \/
  (state_of k t = Scheduled /\ ready) \/
  (In (FRun t) (s_ctl k) /\ ready) \/
  In (FClose t) (s_ctl k).

Record WI (x : wst) : Prop := {
  I_k : Inv (y_k x);
  I_cur : cur_ok (y_k x);
  I_new : forall i, y_n x <= i -> s_ievent (y_k x) (private i) = IEvent false false /\ s_cbs (y_k x) (TInternal (private i)) = [];
  I_dcb : forall t, evens (k_dcbs (s_task (y_k x) t)) \/
    exists i ds, k_dcbs (s_task (y_k x) t) = private i :: ds /\ evens ds /\ i < y_n x /\ In t (w_tasks (y_w x i));
  I_pos : forall i t, i < y_n x -> In t (w_tasks (y_w x i)) ->
    (exists ds, k_dcbs (s_task (y_k x) t) = private i :: ds) \/
    (exists u p, y_pend x u = Some p /\ inst_of p = Some i /\ In t (bare p));
  I_start : forall t p, y_pend x t = Some p -> starting p = true ->
    y_cb x = None /\ (exists rest, s_ctl (y_k x) = FRun t :: rest) /\ NoDup (unstarted p) /\
    (forall u, In u (unstarted p) -> state_of (y_k x) u = Unstarted) /\
    (forall u, In u (bare p) -> k_dcbs (s_task (y_k x) u) = []) /\
    (forall i, inst_of p = Some i -> s_ievent (y_k x) (private i) = IEvent false false /\ incl (unstarted p) (w_tasks (y_w x i)) /\ w_canc (y_w x i) = false);
  I_inst : forall t p i, y_pend x t = Some p -> inst_of p = Some i ->
    i < y_n x /\ w_parent (y_w x i) = t /\ last_call t (y_hist x) = Some (w_call (y_w x i), w_tasks (y_w x i));
  I_rem : forall i, i < y_n x -> NoDup (w_tasks (y_w x i)) /\ incl (w_rem (y_w x i)) (w_tasks (y_w x i));
  I_out : forall i t, i < y_n x -> In t (w_tasks (y_w x i)) -> ~ In t (w_rem (y_w x i)) -> done (y_k x) t = true;
  I_in : forall i t, i < y_n x -> In t (w_rem (y_w x i)) -> done (y_k x) t = true ->
    y_cb x = Some (CbStart i t) \/ (y_cb x = None /\ exists k rest, s_ctl (y_k x) = FDone t 0 k :: rest);
  I_zero : forall i t k, i < y_n x -> In t (w_tasks (y_w x i)) -> In (FDone t 0 k) (s_ctl (y_k x)) -> In t (w_rem (y_w x i));
  I_fired : forall i, i < y_n x -> (i_fired (s_ievent (y_k x) (private i)) = true <-> w_rem (y_w x i) = []);
  I_cbs : forall i h t, i < y_n x -> In (h, t) (s_cbs (y_k x) (TInternal (private i))) -> y_pend x t = Some (SWait i);
  I_wait : forall t i, y_pend x t = Some (SWait i) -> waits_ok x t i;
  I_cb : forall i u, (y_cb x = Some (CbStart i u) -> i < y_n x /\ In u (w_rem (y_w x i)) /\ done (y_k x) u = true /\
      exists k rest, s_ctl (y_k x) = FDone u 1 k :: rest) /\
    (y_cb x = Some (CbCheck i u) -> i < y_n x /\ In u (w_tasks (y_w x i)) /\ ~ In u (w_rem (y_w x i)));
  I_none : forall i t s o, i < y_n x -> w_first (y_w x i) = None -> In t (w_tasks (y_w x i)) -> ~ In t (w_rem (y_w x i)) ->
    In (ODone t s o) (s_log (y_k x)) -> y_cb x = Some (CbCheck i t) \/ decides (when_of (w_call (y_w x i))) s = false;
  I_some : forall i u, i < y_n x -> w_first (y_w x i) = Some u ->
    decided_by (when_of (w_call (y_w x i))) (w_tasks (y_w x i)) (s_log (y_k x)) u /\ w_canc (y_w x i) = true;
  I_canc : forall t i, y_pend x t = Some (SWait i) -> w_canc (y_w x i) = true ->
    forall v, In v (w_rem (y_w x i)) -> In (HCancel v) (y_hist x) \/ exists us, y_cb x = Some (CbCancel us) /\ In v us }.

Lemma winit_ok : WI winit.
Proof.
  constructor; cbn; try (intros; discriminate); try (intros; lia).
  - apply inv_init.
  - now left.
  - auto.
  - left. constructor.
  - intros i u; split; discriminate.
Qed.

(** * What a kernel step leaves alone *)
Lemma tstep_dcbs l t k k' : tstep l t k k' -> k_dcbs k' = k_dcbs k \/ exists c, l = LOp (OpAddDone t c) /\ k_dcbs k' = k_dcbs k ++ [c].
Proof.
  intro T. inversion T as [E|h Hs E|Hl E|c Hl E|h m Hl Hs E|m Hl Hs E|Hl Hs E|Hl Hs He E|e Hl Hs He Hb E|m Hl Hs Hb E|m Hl Hs Hb E
    |v Hl Hs E|e Hl Hs E|w tr h Hs Hm E|w tr h h' e Hs Hm He E|h Hl Hs Hm E|w Hs Hm E|Hl Hs E]; try (left; reflexivity).
  - right. exists c. auto.
  - left. unfold raised. destruct e; reflexivity.
  - left. unfold returned. destruct (Nat.eqb _ _); reflexivity.
  - left. unfold raised. destruct e; reflexivity.
Qed.
Lemma op_ends o s s' r t : Inv s -> step s (LOp o) = Some (s', r) -> (forall u, o <> OpKill u) -> done s' t = true -> done s t = true.
Proof.
  intros H St N D. assert (T := step_tstep _ _ _ _ t H St). unfold done, state_of in *.
  inversion T as [E|h Hs E|Hl E|c Hl E|h m Hl Hs E|m Hl Hs E|Hl Hs E|Hl Hs He E|e Hl Hs He Hb E|m Hl Hs Hb E|m Hl Hs Hb E
    |v Hl Hs E|e Hl Hs E|w tr h Hs Hm E|w tr h h' e Hs Hm He E|h Hl Hs Hm E|w Hs Hm E|Hl Hs E]; rewrite <- E in D; try discriminate;
    try (cbn in D; assumption); try exact D.
  - injection Hl as Hl. now elim (N t).
Qed.
Lemma user_not_imentions l i : user_label l = true -> ~ imentions (private i) l.
Proof. intros U [->|[ok ->]]; unfold user_label in U; rewrite private_odd in U; discriminate. Qed.

Lemma log_grow w ts l new u : decided_by w ts l u -> decided_by w ts (new ++ l) u.
Proof.
  intros (I & later & before & s & o & -> & D & U). split; [exact I|]. exists (new ++ later), before, s, o. rewrite app_assoc. auto.
Qed.

(** What a waiting Task may expect after a step which does not concern it. *)
Lemma waits_step x l k r t i : WI x -> step (y_k x) l = Some (k, r) -> prime_ok l -> ~ imentions (private i) l ->
  is_call l = true \/ ~ on_top t (s_ctl (y_k x)) -> y_pend x t = Some (SWait i) -> waits_ok (set_k x k) t i.
Proof.
  intros W St Pr U Top Ep. set (k0 := y_k x) in *. pose proof (I_k x W) as H0. fold k0 in H0.
  destruct (inv_step k0 l k r H0 Pr St) as (H1 & Sb & _).
  unfold waits_ok. cbn [set_k y_k y_w]. destruct (I_wait x W t i Ep) as [D|[[h I]|[[Sc Rd]|[[Fr' Rd]|Fc]]]].
    + left. apply (stable_done k0 k t Sb D).
    + destruct (step_pending k0 l k r _ h t H0 St I) as [I'|[D|(m & _ & Ex & [Es|(Es & _ & Ec)] & _)]].
      * intro W'. cbn in W'. apply U. now left.
      * right. left. eauto.
      * now left.
      * right. right. left. split; [exact Es|]. rewrite Ex. discriminate.
      * right. right. right. left. rewrite Ec. split; [now left|]. rewrite Ex. discriminate.
    + fold k0 in Sc, Rd. assert (T := step_tstep _ _ _ _ t H0 St). unfold state_of in Sc. unfold done, state_of.
      assert (Rn : state_of k t = Running -> (k_exc (s_task k t) = None -> w_rem (y_w x i) = []) ->
        (In (FRun t) (s_ctl k) /\ (k_exc (s_task k t) = None -> w_rem (y_w x i) = [])) \/ In (FClose t) (s_ctl k)).
      { intros Rn Rd'. pose proof (L_runs _ _ (J_loc _ _ H1) t (fun f => f) Rn) as I. unfold runners in I. apply in_flat_map in I.
        destruct I as ([a|a|a b c] & If & Ia); cbn in Ia; try tauto; destruct Ia as [->|[]]; auto. }
      inversion T as [E|h Hs E|Hl E|c Hl E|h m Hl Hs E|m Hl Hs E|Hl Hs E|Hl Hs He E|e Hl Hs He Hb E|m Hl Hs Hb E|m Hl Hs Hb E
        |v Hl Hs E|e Hl Hs E|w tr h Hs Hm E|w tr h h' e Hs Hm He E|h Hl Hs Hm E|w Hs Hm E|Hl Hs E]; try congruence;
        try (destruct Hs; congruence).
      * right. right. left. rewrite <- E in *. auto.
      * right. right. left. cbn. split; [exact Sc|exact Rd].
      * right. right. left. cbn. split; [exact Sc|exact Rd].
      * right. right. left. cbn. split; [exact Sc|discriminate].
      * left. reflexivity.
      * right. right. right. rewrite E. apply Rn; unfold state_of; rewrite <- E; cbn; [reflexivity|exact Rd].
      * left. unfold raised. destruct e; reflexivity.
      * right. right. right. rewrite E. apply Rn; unfold state_of; rewrite <- E; cbn; [reflexivity|discriminate].
      * left. reflexivity.
    + fold k0 in Fr', Rd. right. right. right. left.
      assert (R : state_of k0 t = Running).
      { apply (L_run _ _ (J_loc _ _ H0)). unfold runners. apply in_flat_map. exists (FRun t). split; [exact Fr'|now left]. }
      destruct (step_running k0 l k r t H0 St R Top) as [E|[(_ & E)|(c & _ & E)]]; rewrite E; cbn [with_must with_dcbs k_exc].
      all: split; [|exact Rd]; apply (step_frames k0 l k r (FRun t) St); destruct (is_call l) eqn:Ic; [exact Fr'|];
        destruct Top as [C|N]; [congruence|]; destruct (s_ctl k0) as [|f q]; [destruct Fr'|];
        destruct Fr' as [->|I]; [elim N; exists q; now left|exact I].
    + fold k0 in Fc. right. right. right. right. apply (step_frames k0 l k r (FClose t) St). destruct (is_call l) eqn:Ic; [exact Fc|].
      destruct Top as [C|N]; [congruence|]; destruct (s_ctl k0) as [|f q]; [destruct Fc|].
      destruct Fc as [->|I]; [elim N; exists q; now right|exact I].
Qed.

(** A kernel step which does not concern the private objects, made by the code which has control. *)
Definition bare_ok (x : wst) : Prop := forall i t, i < y_n x -> In t (w_tasks (y_w x i)) ->
    (exists ds, k_dcbs (s_task (y_k x) t) = private i :: ds) \/
    (exists u p, y_pend x u = Some p /\ inst_of p = Some i /\ In t (bare p)).
Definition dcbs_ok (x : wst) : Prop := forall t, evens (k_dcbs (s_task (y_k x) t)) \/
    exists i ds, k_dcbs (s_task (y_k x) t) = private i :: ds /\ evens ds /\ i < y_n x /\ In t (w_tasks (y_w x i)).
Definition start_ok (x : wst) : Prop := forall t p, y_pend x t = Some p -> starting p = true ->
    y_cb x = None /\ (exists rest, s_ctl (y_k x) = FRun t :: rest) /\ NoDup (unstarted p) /\
    (forall u, In u (unstarted p) -> state_of (y_k x) u = Unstarted) /\
    (forall u, In u (bare p) -> k_dcbs (s_task (y_k x) u) = []) /\
    (forall i, inst_of p = Some i -> s_ievent (y_k x) (private i) = IEvent false false /\ incl (unstarted p) (w_tasks (y_w x i)) /\ w_canc (y_w x i) = false).
Definition inst_ok (x : wst) : Prop := forall t p i, y_pend x t = Some p -> inst_of p = Some i ->
    i < y_n x /\ w_parent (y_w x i) = t /\ last_call t (y_hist x) = Some (w_call (y_w x i), w_tasks (y_w x i)).
Definition with_pend (x : wst) (f : tid -> option stage) : wst := WSt (y_k x) (y_w x) (y_n x) f (y_cb x) (y_esc x) (y_hist x).

Lemma passive_gen x l k r pd : WI x -> step (y_k x) l = Some (k, r) -> (forall i, ~ imentions (private i) l) -> prime_ok l ->
  (forall t i, pd t = Some (SWait i) <-> y_pend x t = Some (SWait i)) ->
  (forall t i, y_pend x t = Some (SWait i) -> is_call l = true \/ ~ on_top t (s_ctl (y_k x))) ->
  (forall i t, i < y_n x -> In t (w_rem (y_w x i)) -> done (y_k x) t = false) ->
  (y_cb x = None \/ (exists us, y_cb x = Some (CbCancel us)) /\ exists o, l = LOp o /\ forall u, o <> OpKill u) ->
  let x' := with_pend (set_k x k) pd in dcbs_ok x' -> bare_ok x' -> start_ok x' -> inst_ok x' -> WI x'.
Proof.
  cbv zeta. intros W St U Pr Sw Top Nd Cb Hd Hbare Hstart Hi0. set (k0 := y_k x) in *. pose proof (I_k x W) as H0. fold k0 in H0.
  destruct (inv_step k0 l k r H0 Pr St) as (H1 & Sb & _).
  assert (Fr : forall i, iframe (private i) k0 k) by (intro i; apply (step_iframe _ _ _ _ _ (U i) St)).
  destruct (step_log _ _ _ _ St) as [new Lg].
  constructor; cbn [with_pend set_k y_k y_w y_n y_pend y_cb y_hist].
  - exact H1.
  - apply (step_cur k0 l k r); [apply (I_cur x W)|exact St].
  - intros i Hi. destruct (I_new x W i Hi) as [A B]. destruct (Fr i) as [C D]. fold k0 in A, B. split; [congruence|].
    destruct (s_cbs k (TInternal (private i))) as [|c q]; [reflexivity|]. specialize (D c (or_introl eq_refl)). rewrite B in D. destruct D.
  - exact Hd.
  - exact Hbare.
  - exact Hstart.
  - exact Hi0.
  - apply (I_rem x W).
  - intros i t Hi It Nt. apply (stable_done k0 k t Sb). apply (I_out x W i t Hi It Nt).
  - intros i t Hi It D. specialize (Nd i t Hi It). destruct Cb as [Cb|(_ & o & -> & No)].
    + right. split; [exact Cb|]. apply (step_ends k0 l k r t H0 St Nd D).
    + fold k0 in Nd. rewrite (op_ends o k0 k r t H0 St No D) in Nd. discriminate.
  - intros i t a Hi It Ia. destruct (step_zero _ _ _ _ t a H0 St Ia) as [Iz|D]; [apply (I_zero x W i t a Hi It Iz)|].
    destruct (in_dec Nat.eq_dec t (w_rem (y_w x i))) as [J|J]; [exact J|]. pose proof (I_out x W i t Hi It J) as D1. fold k0 in D1. congruence.
  - intros i Hi. destruct (Fr i) as [-> _]. apply (I_fired x W i Hi).
  - intros i h t Hi It. destruct (Fr i) as [_ D]. apply Sw. apply (I_cbs x W i h t Hi). apply D, It.
  - intros t i Ep. apply Sw in Ep. apply (waits_step x l k r t i W St Pr (U i) (Top t i Ep) Ep).
  - intros i u. destruct (I_cb x W i u) as [A B]. split; [|exact B]. intro E. destruct Cb as [C|[[us C] _]]; congruence.
  - intros i t s o Hi Ef It Nt L. rewrite Lg in L. apply in_app_or in L. destruct L as [L|L].
    + exfalso. apply (done_once k0 k new t s o H0 H1 Lg); [|exact L]. apply (I_out x W i t Hi It Nt).
    + apply (I_none x W i t s o Hi Ef It Nt L).
  - intros i u Hi Ef. destruct (I_some x W i u Hi Ef) as [D C]. split; [|exact C]. rewrite Lg. apply log_grow, D.
  - intros t i Ep. apply Sw in Ep. apply (I_canc x W t i Ep).
Qed.

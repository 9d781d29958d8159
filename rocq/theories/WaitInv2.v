(** Every step keeps the invariant of [_wait]. *)
From Verif Require Import Base KernelModel KernelProofs KernelHist KernelLog KernelInv KernelTask KernelWake KernelLayer KernelStack
  WaitModel WaitSpec WaitInv.
From Coq Require Import Arith.

Lemma bare_starting p u : In u (bare p) -> starting p = true.
Proof. destruct p; cbn; intro I; try destruct I; reflexivity. Qed.

(** Without a Task which is starting its waiters. *)
Lemma passive x l k r pd : WI x -> step (y_k x) l = Some (k, r) -> user_label l = true -> prime_ok l ->
  (forall t i, pd t = Some (SWait i) <-> y_pend x t = Some (SWait i)) ->
  (forall t i, y_pend x t = Some (SWait i) -> is_call l = true \/ ~ on_top t (s_ctl (y_k x))) ->
  (forall t p, y_pend x t = Some p -> starting p = false) -> (forall t p, pd t = Some p -> starting p = false) ->
  (forall t p i, pd t = Some p -> inst_of p = Some i -> exists q, y_pend x t = Some q /\ inst_of q = Some i) ->
  (forall i t, i < y_n x -> In t (w_rem (y_w x i)) -> done (y_k x) t = false) ->
  (y_cb x = None \/ (exists us, y_cb x = Some (CbCancel us)) /\ exists o, l = LOp o /\ forall u, o <> OpKill u) ->
  WI (with_pend (set_k x k) pd).
Proof.
  intros W St U Pr Sw Top Ns Nd' Ni Nd Cb. pose proof (I_k x W) as H0.
  assert (Dc : forall t, k_dcbs (s_task k t) = k_dcbs (s_task (y_k x) t) \/ exists c, k_dcbs (s_task k t) = k_dcbs (s_task (y_k x) t) ++ [c] /\ Nat.even c = true).
  { intro t. destruct (tstep_dcbs _ _ _ _ (step_tstep _ _ _ _ t H0 St)) as [E|(c & -> & E)]; [now left|]. right. exists c. split; [exact E|exact U]. }
  apply (passive_gen x l k r pd W St (fun i => user_not_imentions l i U) Pr Sw Top Nd Cb).
  - intro t. cbn [with_pend set_k y_k y_w y_n].
    destruct (I_dcb x W t) as [E|(i & ds & E & Ev & Hi & It)]; destruct (Dc t) as [Q|(c & Q & Ec)]; rewrite Q.
    + left. exact E.
    + left. apply Forall_app. split; [exact E|repeat constructor; exact Ec].
    + right. exists i, ds. auto.
    + right. exists i, (ds ++ [c]). rewrite E. split; [reflexivity|]. split; [|auto]. apply Forall_app. split; [exact Ev|repeat constructor; exact Ec].
  - intros i t Hi It. cbn [with_pend set_k y_k y_w y_n] in *. destruct (I_pos x W i t Hi It) as [[ds E]|(u & p & Ep & _ & Ib)].
    + left. destruct (Dc t) as [Q|(c & Q & _)]; rewrite Q, E; [eauto|]. exists (ds ++ [c]). reflexivity.
    + exfalso. specialize (Ns u p Ep). rewrite (bare_starting p t Ib) in Ns. discriminate.
  - intros t p Ep Es. cbn [with_pend y_pend] in Ep. rewrite (Nd' t p Ep) in Es. discriminate.
  - intros t p i Ep Ei. cbn [with_pend set_k y_pend y_n y_w y_hist] in *. destruct (Ni t p i Ep Ei) as (q & Eq & Eqi). apply (I_inst x W t q i Eq Eqi).
Qed.

(** * Who has control *)
Lemma no_start x : WI x -> (y_cb x <> None \/ forall t rest p, s_ctl (y_k x) = FRun t :: rest -> y_pend x t = Some p -> starting p = false) ->
  forall t p, y_pend x t = Some p -> starting p = false.
Proof.
  intros W A t p Ep. destruct (starting p) eqn:Es; [|reflexivity]. destruct (I_start x W t p Ep Es) as (C & (rest & Ec) & _).
  destruct A as [A|A]; [congruence|]. rewrite <- Es. apply (A t rest p Ec Ep).
Qed.
Lemma no_done x : WI x -> y_cb x = None -> (forall t k rest i, s_ctl (y_k x) = FDone t 0 k :: rest -> i < y_n x -> ~ In t (w_tasks (y_w x i))) ->
  forall i t, i < y_n x -> In t (w_rem (y_w x i)) -> done (y_k x) t = false.
Proof.
  intros W C A i t Hi It. destruct (done (y_k x) t) eqn:D; [|reflexivity].
  destruct (I_in x W i t Hi It D) as [B|(_ & k & rest & B)]; [congruence|]. elim (A t k rest i B Hi). apply (proj2 (I_rem x W i Hi) t It).
Qed.
Lemma no_done_run x : WI x -> y_cb x = None -> (forall t j k rest, s_ctl (y_k x) <> FDone t j k :: rest) ->
  forall i t, i < y_n x -> In t (w_rem (y_w x i)) -> done (y_k x) t = false.
Proof. intros W C A. apply no_done; auto. intros t k rest i E. elim (A t 0 k rest E). Qed.
Lemma no_done_cb x c : WI x -> y_cb x = Some c -> (forall i u, c <> CbStart i u) ->
  forall i t, i < y_n x -> In t (w_rem (y_w x i)) -> done (y_k x) t = false.
Proof.
  intros W C A i t Hi It. destruct (done (y_k x) t) eqn:D; [|reflexivity].
  destruct (I_in x W i t Hi It D) as [B|(B & _)]; [|congruence]. rewrite C in B. injection B as B. elim (A i t B).
Qed.

(** * User code *)
Lemma user_ok x l k r : WI x -> step (y_k x) l = Some (k, r) -> user_control x l = true -> user_label l = true -> prime_ok l -> WI (set_k x k).
Proof.
  intros W St C U Pr. unfold user_control in C. destruct (y_cb x) eqn:Cb; [discriminate|].
  assert (Top : forall t rest p, s_ctl (y_k x) = FRun t :: rest \/ s_ctl (y_k x) = FClose t :: rest -> y_pend x t = Some p -> False).
  { intros t rest p [E|E] Ep; rewrite E, Ep in C; discriminate. }
  apply (passive x l k r (y_pend x) W St U Pr).
  - tauto.
  - intros t i Ep. right. intros [rest E]. apply (Top t rest _ E Ep).
  - apply (no_start x W). right. intros t rest p E Ep. elim (Top t rest p (or_introl E) Ep).
  - apply (no_start x W). right. intros t rest p E Ep. elim (Top t rest p (or_introl E) Ep).
  - intros t p i Ep Ei. eauto.
  - apply (no_done x W Cb). intros t a rest i E Hi It. rewrite E in C.
    destruct (I_pos x W i t Hi It) as [[ds Ed]|(u & p & Ep & _ & Ib)].
    + rewrite Ed in C. cbn [nth_error] in C. destruct l; try discriminate. rewrite private_odd in C. discriminate.
    + destruct (I_start x W u p Ep (bare_starting p t Ib)) as (_ & (rest' & E') & _). congruence.
  - now left.
Qed.

(** * The Task which has control moves on *)
Definition top_stage (x : wst) (t : tid) : Prop :=
  y_cb x = None /\ exists rest, s_ctl (y_k x) = FRun t :: rest \/ s_ctl (y_k x) = FClose t :: rest.
Lemma top_running x t : WI x -> top_stage x t -> state_of (y_k x) t = Running.
Proof.
  intros W (_ & rest & E). apply (L_run _ _ (J_loc _ _ (I_k x W))). destruct E as [-> | ->]; now left.
Qed.
Lemma top_other x t u rest : top_stage x t -> s_ctl (y_k x) = FRun u :: rest -> u = t.
Proof. intros (_ & q & [E|E]) E'; congruence. Qed.
Lemma top_not_done x t u j k rest : top_stage x t -> s_ctl (y_k x) <> FDone u j k :: rest.
Proof. intros (_ & q & [E|E]) E'; congruence. Qed.

Definition moves_to (po pn : option stage) : Prop :=
  pn = None \/ exists q, pn = Some q /\ starting q = false /\ (forall i, q <> SWait i) /\
    (forall i, inst_of q = Some i -> exists p, po = Some p /\ inst_of p = Some i).

(** Only the place changes. *)
Lemma pend_ok x t pn : WI x -> top_stage x t -> (forall p, y_pend x t = Some p -> starting p = false \/ bare p = [] /\ starting p = true) ->
  moves_to (y_pend x t) pn -> WI (set_pend x t pn).
Proof.
  intros W Tp Nb M. assert (R := top_running x t W Tp).
  assert (O : forall u, u <> t -> upd (y_pend x) t pn u = y_pend x u) by (intros; now apply upd_other).
  assert (Sw : forall u i, upd (y_pend x) t pn u = Some (SWait i) -> u <> t /\ y_pend x u = Some (SWait i)).
  { intros u i E. destruct (Nat.eq_dec u t) as [->|N]; [|rewrite O in E; auto]. exfalso. rewrite upd_same in E.
    destruct M as [->|(q & -> & _ & Nw & _)]; [discriminate|]. injection E as ->. now elim (Nw i). }
  constructor; cbn [set_pend y_k y_w y_n y_pend y_cb y_hist]; try apply W.
  - intros i u Hi Iu. destruct (I_pos x W i u Hi Iu) as [A|(v & p & Ep & Ei & Ib)]; [now left|]. right. exists v, p.
    assert (v <> t); [|rewrite O; auto]. intros ->. destruct (Nb p Ep) as [N|[N _]]; [|rewrite N in Ib; destruct Ib].
    rewrite (bare_starting p u Ib) in N. discriminate.
  - intros u p Ep Es. destruct (Nat.eq_dec u t) as [->|N]; [|rewrite O in Ep by assumption; apply (I_start x W u p Ep Es)]. exfalso.
    rewrite upd_same in Ep. destruct M as [->|(q & -> & Nq & _)]; [discriminate|]. injection Ep as ->. congruence.
  - intros u p i Ep Ei. destruct (Nat.eq_dec u t) as [->|N]; [|rewrite O in Ep by assumption; apply (I_inst x W u p i Ep Ei)].
    rewrite upd_same in Ep. destruct M as [->|(q & -> & _ & _ & Q)]; [discriminate|]. injection Ep as ->. destruct (Q i Ei) as (p' & E1 & E2).
    apply (I_inst x W t p' i E1 E2).
  - intros i h u Hi Iu. pose proof (I_cbs x W i h u Hi Iu) as E. destruct (Nat.eq_dec u t) as [->|N]; [|rewrite O; auto]. exfalso.
    destruct (L_cpend _ _ (J_loc _ _ (I_k x W)) _ _ _ Iu) as (_ & Pn & _). congruence.
  - intros u i E. destruct (Sw u i E) as [N E']. apply (I_wait x W u i E').
  - intros u i E. destruct (Sw u i E) as [N E']. apply (I_canc x W u i E').
Qed.

(** A kernel step of it, then its place changes. *)
Lemma top_ok x t l k r pn : WI x -> top_stage x t -> step (y_k x) l = Some (k, r) -> user_label l = true -> prime_ok l ->
  (forall p, y_pend x t = Some p -> starting p = false /\ forall i, p <> SWait i) -> moves_to (y_pend x t) pn ->
  WI (set_pend (set_k x k) t pn).
Proof.
  intros W Tp St U Pr Np M. destruct Tp as [Cb Tp].
  assert (O : forall u, u <> t -> upd (y_pend x) t pn u = y_pend x u) by (intros; now apply upd_other).
  apply (passive x l k r (upd (y_pend x) t pn) W St U Pr).
  - intros u i. destruct (Nat.eq_dec u t) as [->|N]; [|rewrite O; tauto]. rewrite upd_same. split; intro E.
    + destruct M as [->|(q & -> & _ & Nw & _)]; [discriminate|]. injection E as ->. now elim (Nw i).
    + destruct (Np _ E) as [_ N]. now elim (N i).
  - intros u i E. right. intros [rest E']. assert (u = t) as -> by (destruct Tp as [q [E2|E2]]; destruct E' as [E'|E']; congruence).
    destruct (Np _ E) as [_ N]. now elim (N i).
  - apply (no_start x W). right. intros u rest p E Ep. assert (u = t) as -> by (destruct Tp as [q [E2|E2]]; congruence). apply (Np p Ep).
  - intros u p E. destruct (Nat.eq_dec u t) as [->|N].
    + rewrite upd_same in E. destruct M as [->|(q & -> & Nq & _)]; [discriminate|]. injection E as ->. exact Nq.
    + rewrite O in E by assumption. revert u p E N. intros u p E _. revert u p E. apply (no_start x W). right. intros u rest p E Ep.
      assert (u = t) as -> by (destruct Tp as [q [E2|E2]]; congruence). apply (Np p Ep).
  - intros u p i E Ei. destruct (Nat.eq_dec u t) as [->|N]; [|rewrite O in E; eauto].
    rewrite upd_same in E. destruct M as [->|(q & -> & _ & _ & Q)]; [discriminate|]. injection E as ->. apply Q, Ei.
  - apply (no_done_run x W Cb). intros u j a rest. apply (top_not_done x t). split; auto.
  - now left.
Qed.

(** * History and local variables *)
Lemma record_ok x u : WI x -> WI (record x (HCancel u)).
Proof.
  intro W. constructor; cbn [record y_k y_w y_n y_pend y_cb y_hist last_call]; try apply W.
  intros t i Ep Ec v Iv. destruct (I_canc x W t i Ep Ec v Iv) as [A|A]; [left; now right|now right].
Qed.
Lemma record_call_ok x t c ts : WI x -> y_pend x t = None -> WI (record x (HCall t c ts)).
Proof.
  intros W Ep. constructor; cbn [record y_k y_w y_n y_pend y_cb y_hist]; try apply W.
  - intros u p i Eu Ei. cbn [last_call]. destruct (Nat.eqb_spec t u); [congruence|]. apply (I_inst x W u p i Eu Ei).
  - intros u i Eu Ec v Iv. destruct (I_canc x W u i Eu Ec v Iv) as [A|A]; [left; now right|now right].
Qed.
Lemma cb_next_ok x u us : WI x -> y_cb x = Some (CbCancel (u :: us)) -> In (HCancel u) (y_hist x) -> WI (set_cb x (Some (CbCancel us))).
Proof.
  intros W Cb Hu. constructor; cbn [set_cb y_k y_w y_n y_pend y_cb y_hist]; try apply W.
  - intros t p Ep Es. destruct (I_start x W t p Ep Es) as (C & _). congruence.
  - intros i t Hi It D. destruct (I_in x W i t Hi It D) as [B|(B & _)]; congruence.
  - intros i v. split; discriminate.
  - intros i t s o Hi Ef It Nt L. destruct (I_none x W i t s o Hi Ef It Nt L) as [B|B]; [congruence|now right].
  - intros t i Ep Ec v Iv. destruct (I_canc x W t i Ep Ec v Iv) as [A|(vs & A & B)]; [now left|]. rewrite Cb in A. injection A as <-.
    destruct B as [<-|B]; [now left|]. right. eauto.
Qed.
Lemma cb_end_ok x : WI x -> y_cb x = Some (CbCancel []) -> WI (set_cb x None).
Proof.
  intros W Cb. constructor; cbn [set_cb y_k y_w y_n y_pend y_cb y_hist]; try apply W.
  - intros t p Ep Es. destruct (I_start x W t p Ep Es) as (C & _). congruence.
  - intros i t Hi It D. destruct (I_in x W i t Hi It D) as [B|(B & _)]; congruence.
  - intros i v. split; discriminate.
  - intros i t s o Hi Ef It Nt L. destruct (I_none x W i t s o Hi Ef It Nt L) as [B|B]; [congruence|now right].
  - intros t i Ep Ec v Iv. destruct (I_canc x W t i Ep Ec v Iv) as [A|(vs & A & B)]; [now left|]. rewrite Cb in A. injection A as <-. destruct B.
Qed.
Lemma canc_ok x i w : WI x -> (forall t p, y_pend x t = Some p -> inst_of p = Some i -> starting p = false /\ p <> SWait i) ->
  w = Winst (w_call (y_w x i)) (w_parent (y_w x i)) (w_tasks (y_w x i)) (w_rem (y_w x i)) (w_first (y_w x i)) true -> WI (set_w x i w).
Proof.
  intros W Nw ->. set (w := Winst _ _ _ _ _ _).
  assert (Q : forall j, w_call (upd (y_w x) i w j) = w_call (y_w x j) /\ w_parent (upd (y_w x) i w j) = w_parent (y_w x j) /\
    w_tasks (upd (y_w x) i w j) = w_tasks (y_w x j) /\ w_rem (upd (y_w x) i w j) = w_rem (y_w x j) /\ w_first (upd (y_w x) i w j) = w_first (y_w x j) /\
    (w_canc (y_w x j) = true -> w_canc (upd (y_w x) i w j) = true) /\ (j <> i -> upd (y_w x) i w j = y_w x j)).
  { intro j. destruct (Nat.eq_dec j i) as [->|N]; [rewrite upd_same; cbn; repeat split; auto; intro; congruence|rewrite upd_other by assumption; repeat split; auto]. }
  constructor; cbn [set_w y_k y_w y_n y_pend y_cb y_hist]; try apply W.
  - intro t. destruct (I_dcb x W t) as [E|(j & ds & E & Ev & Hi & It)]; [now left|]. right. exists j, ds. destruct (Q j) as (_ & _ & -> & _). auto.
  - intros j t Hj It. destruct (Q j) as (_ & _ & E & _). rewrite E in It. apply (I_pos x W j t Hj It).
  - intros t p Ep Es. destruct (I_start x W t p Ep Es) as (A & B & C & D & E & F). repeat (split; [assumption|]). intros j Ej.
    destruct (Q j) as (_ & _ & -> & _ & _ & _ & Cj). rewrite Cj; [apply F, Ej|]. intros ->. destruct (Nw t p Ep Ej). congruence.
  - intros t p j Ep Ej. destruct (Q j) as (-> & -> & -> & _). apply (I_inst x W t p j Ep Ej).
  - intros j Hj. destruct (Q j) as (_ & _ & -> & -> & _). apply (I_rem x W j Hj).
  - intros j t Hj It Nt. destruct (Q j) as (_ & _ & E & F & _). rewrite E in It. rewrite F in Nt. apply (I_out x W j t Hj It Nt).
  - intros j t Hj It. destruct (Q j) as (_ & _ & _ & F & _). rewrite F in It. apply (I_in x W j t Hj It).
  - intros j t k Hj It. destruct (Q j) as (_ & _ & E & F & _). rewrite E in It. rewrite F. apply (I_zero x W j t k Hj It).
  - intros j Hj. destruct (Q j) as (_ & _ & _ & F & _). rewrite F. apply (I_fired x W j Hj).
  - intros t j Ep. unfold waits_ok. cbn [set_w y_k y_w]. destruct (Q j) as (_ & _ & _ & F & _). rewrite F. apply (I_wait x W t j Ep).
  - intros j u. destruct (Q j) as (_ & _ & E & F & _). rewrite E, F. apply (I_cb x W j u).
  - intros j t s o Hj. destruct (Q j) as (G & _ & E & F & S & _). rewrite E, F, G, S. apply (I_none x W j t s o Hj).
  - intros j u Hj. destruct (Q j) as (G & _ & E & F & S & C & _). rewrite E, G, S. intro Ef. destruct (I_some x W j u Hj Ef) as [A B]. auto.
  - intros t j Ep. destruct (Q j) as (_ & _ & _ & _ & _ & _ & E). rewrite E; [apply (I_canc x W t j Ep)|]. intros ->. destruct (Nw t _ Ep eq_refl) as [_ N]. now elim N.
Qed.

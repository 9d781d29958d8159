(** Every step of the scheduler kernel preserves its invariants. *)
From Verif Require Import Base KernelModel KernelProofs KernelHist KernelLog.
From Coq Require Import Arith Sorted.

(** Done Tasks keep their state and outcome. *)
Definition Stable (s s' : st) : Prop :=
  forall t, done s t = true ->
    state_of s' t = state_of s t /\ k_outcome (s_task s' t) = k_outcome (s_task s t).
Lemma stable_refl s : Stable s s.
Proof. intros t _. auto. Qed.
Lemma stable_trans a b c : Stable a b -> Stable b c -> Stable a c.
Proof.
  intros H1 H2 t D. destruct (H1 t D) as [E1 E2].
  destruct (H2 t) as [E3 E4]; [unfold done in *; now rewrite E1|]. split; congruence.
Qed.
Lemma stable_done s s' t : Stable s s' -> done s t = true -> done s' t = true.
Proof. intros H D. unfold done. destruct (H t D) as [-> _]. exact D. Qed.
Lemma stable_same s s' : s_task s' = s_task s -> Stable s s'.
Proof. intros E t _. unfold state_of. rewrite E. auto. Qed.
Lemma stable_set_task s t k : done s t = false -> Stable s (set_task s t k).
Proof. intros D u Hu. unfold state_of; cbn. updc; [congruence|auto]. Qed.
Lemma stable_set_task_same s t k :
  k_state k = k_state (s_task s t) -> k_outcome k = k_outcome (s_task s t) ->
  Stable s (set_task s t k).
Proof. intros E1 E2 u Hu. unfold state_of; cbn. updc; auto. Qed.

(** The invariant, with the Tasks of [X] in transit. *)
Record J (X : list tid) (s : st) : Prop := {
  J_loc : Loc X s;
  J_obj : Obj s;
  J_dn : Dn s;
  J_log : LG X s;
  J_x : forall t, In t X -> done s t = false }.
Definition Inv := J [].

(** * Objects *)
Lemma obj_same s s' :
  s_cbs s' = s_cbs s -> s_event s' = s_event s -> s_ievent s' = s_ievent s ->
  s_lock s' = s_lock s -> s_gpi s' = s_gpi s ->
  (forall t, In t (finishers (s_ctl s)) -> In t (finishers (s_ctl s'))) ->
  (forall t, done s' t = true -> ~ In t (finishers (s_ctl s')) -> done s t = true) ->
  Obj s -> Obj s'.
Proof.
  intros E1 E2 E3 E4 E5 E6 E7 [].
  constructor; rewrite ?E1, ?E2, ?E3, ?E4, ?E5; try assumption.
  intros t D F. apply O_comp; [apply E7; assumption|]. intro H. apply F, E6, H.
Qed.

Lemma obj_schedule s t e : Obj s -> Obj (schedule_resume s t e).
Proof.
  apply obj_same; try reflexivity; cbn; auto.
  intros u. unfold done, state_of; cbn. updc; [discriminate|auto].
Qed.
Lemma obj_schedule_left s t : Obj s -> Obj (schedule_left s t).
Proof.
  apply obj_same; try reflexivity; cbn; auto.
  intros u. unfold done, state_of; cbn. updc; [discriminate|auto].
Qed.
Lemma obj_fold (l : list (nat * tid)) s :
  Obj s -> Obj (fold_left (fun s '(h, t) => schedule_resume s t None) l s).
Proof.
  revert s. induction l as [|[h t] l IH]; intros s H; cbn; [assumption|].
  apply IH, obj_schedule, H.
Qed.

Definition plain (tr : trig) : bool :=
  match tr with TLock _ _ | TGpi _ => false | _ => true end.
Lemma obj_shrink s tr c :
  plain tr = true -> (s_cbs s tr = [] -> c = []) -> Obj s -> Obj (set_cbs s tr c).
Proof.
  intros P C [].
  assert (K : forall x, s_cbs s x = [] -> updt (s_cbs s) tr c x = []).
  { intros x E. unfold updt. destruct (trig_eqb_spec x tr) as [->|]; auto. }
  constructor; cbn.
  - intros e E. apply K; auto.
  - intros e E. apply K; auto.
  - intros e. apply K; auto.
  - intros t D F. destruct (O_comp t D F). split; apply K; auto.
  - assumption.
  - assumption.
  - assumption.
  - intros l n. rewrite updt_other; [auto|intros <-; discriminate].
  - intros l n. rewrite updt_other; [auto|intros <-; discriminate].
  - intros g. rewrite updt_other; [auto|intros <-; discriminate].
  - intros g. rewrite updt_other; [auto|intros <-; discriminate].
Qed.
Lemma obj_clear s tr : plain tr = true -> Obj s -> Obj (set_cbs s tr []).
Proof. intro P. apply obj_shrink; auto. Qed.
Lemma obj_react s tr : plain tr = true -> Obj s -> Obj (react s tr).
Proof.
  intros P O. unfold react. apply obj_fold.
  eapply obj_same; [..|apply (obj_clear s tr P O)]; try reflexivity; cbn; auto.
Qed.

(** One lock acquisition changes. *)
Lemma obj_lock_update s s' l n c v :
  (forall x, s_cbs s' x = updt (s_cbs s) (TLock l n) c x) -> s_event s' = s_event s ->
  s_ievent s' = s_ievent s -> s_lock s' = upd (s_lock s) l v -> s_gpi s' = s_gpi s ->
  s_ctl s' = s_ctl s -> (forall t, done s' t = true -> done s t = true) ->
  (l_current v = None -> l_pending v = []) ->
  NoDup (l_pending v) ->
  (forall m, l_current v = Some m -> ~ In m (l_pending v)) ->
  (In n (l_pending v) <-> c <> []) ->
  (forall m, m <> n -> (In m (l_pending v) <-> In m (l_pending (s_lock s l)))) ->
  length c <= 1 ->
  Obj s -> Obj s'.
Proof.
  intros E1 E2 E3 E4 E5 E6 E7 H1 H2 H3 H4 H5 H6 [].
  constructor; rewrite ?E2, ?E3, ?E4, ?E5, ?E6.
  - intros e He. rewrite ?E1, updt_other by discriminate. auto.
  - intros e He. rewrite ?E1, updt_other by discriminate. auto.
  - intros e. rewrite ?E1, updt_other by discriminate. auto.
  - intros t D F. rewrite !E1, !updt_other by discriminate. auto.
  - intro l'. unfold upd. destruct (Nat.eqb l' l); auto.
  - intro l'. unfold upd. destruct (Nat.eqb l' l); auto.
  - intros l' m. unfold upd. destruct (Nat.eqb l' l); auto.
  - intros l' m. unfold upd. destruct (Nat.eqb_spec l' l) as [->|N].
    + destruct (Nat.eq_dec m n) as [->|M].
      * rewrite ?E1, updt_same. assumption.
      * rewrite ?E1, updt_other by congruence. rewrite H5 by assumption. apply O_lock3.
    + rewrite ?E1, updt_other by congruence. apply O_lock3.
  - intros l' m. rewrite E1. unfold updt. destruct (trig_eqb_spec (TLock l' m) (TLock l n)); auto.
  - intros g. rewrite ?E1, updt_other by discriminate. auto.
  - intros g. rewrite ?E1, updt_other by discriminate. auto.
Qed.
Lemma obj_gpi_update s s' g c v :
  (forall x, s_cbs s' x = updt (s_cbs s) (TGpi g) c x) -> s_event s' = s_event s ->
  s_ievent s' = s_ievent s -> s_lock s' = s_lock s -> s_gpi s' g = v -> (forall x, x <> g -> s_gpi s' x = s_gpi s x) ->
  s_ctl s' = s_ctl s -> (forall t, done s' t = true -> done s t = true) ->
  (c <> [] -> g_hdl v = true /\ g_armed v = true) ->
  (g_armed v = true -> c <> []) ->
  Obj s -> Obj s'.
Proof.
  intros E1 E2 E3 E4 E5 E5' E6 E7 H1 H2 [].
  constructor; rewrite ?E2, ?E3, ?E4, ?E6.
  - intros e He. rewrite ?E1, updt_other by discriminate. auto.
  - intros e He. rewrite ?E1, updt_other by discriminate. auto.
  - intros e. rewrite ?E1, updt_other by discriminate. auto.
  - intros t D F. rewrite !E1, !updt_other by discriminate. auto.
  - assumption.
  - assumption.
  - assumption.
  - intros l n. rewrite ?E1, updt_other by discriminate. auto.
  - intros l n. rewrite ?E1, updt_other by discriminate. auto.
  - intro x. destruct (Nat.eq_dec x g) as [->|N].
    + rewrite ?E1, updt_same, E5. assumption.
    + rewrite ?E1, updt_other, E5' by congruence. auto.
  - intro x. destruct (Nat.eq_dec x g) as [->|N].
    + rewrite ?E1, updt_same, E5. assumption.
    + rewrite ?E1, updt_other, E5' by congruence. auto.
Qed.

(** * Completion *)
Lemma dn_same s s' :
  (forall t, state_of s' t = state_of s t) ->
  (forall t, k_outcome (s_task s' t) = k_outcome (s_task s t)) ->
  s_ctl s' = s_ctl s -> Dn s -> Dn s'.
Proof.
  intros E1 E2 E3 []. constructor; unfold done in *; try rewrite E3; auto;
    intros t; rewrite E1; rewrite ?E2; auto.
Qed.
Lemma dn_active s s' t :
  (forall u, u <> t -> s_task s' u = s_task s u) ->
  done s t = false -> done s' t = false ->
  k_outcome (s_task s' t) = k_outcome (s_task s t) ->
  finishers (s_ctl s') = finishers (s_ctl s) -> Dn s -> Dn s'.
Proof.
  intros E1 D D' E2 E3 []. constructor; rewrite ?E3; auto.
  - intros u Hu. destruct (Nat.eq_dec u t) as [->|N]; [congruence|].
    unfold done, state_of in *. rewrite E1 in * by assumption. auto.
  - intros u Hu. destruct (Nat.eq_dec u t) as [->|N]; [rewrite E2; auto|].
    unfold done, state_of in *. rewrite E1 in * by assumption. auto.
  - intros u Hu. pose proof (D_fin u Hu) as F. destruct (Nat.eq_dec u t) as [->|N]; [congruence|].
    unfold done, state_of in *. rewrite E1 in * by assumption. auto.
Qed.
Lemma dn_schedule s t e : done s t = false -> Dn s -> Dn (schedule_resume s t e).
Proof.
  intros D. apply (dn_active _ _ t); cbn; auto.
  - intros u N. now rewrite upd_other.
  - unfold done, state_of; cbn. rewrite upd_same. reflexivity.
  - rewrite upd_same. reflexivity.
Qed.
Lemma dn_schedule_left s t : done s t = false -> Dn s -> Dn (schedule_left s t).
Proof.
  intros D. apply (dn_active _ _ t); cbn; auto.
  - intros u N. now rewrite upd_other.
  - unfold done, state_of; cbn. rewrite upd_same. reflexivity.
  - rewrite upd_same. reflexivity.
Qed.
Lemma dn_fold (l : list (nat * tid)) s :
  (forall t, In t (map snd l) -> done s t = false) ->
  Dn s -> Dn (fold_left (fun s '(h, t) => schedule_resume s t None) l s).
Proof.
  revert s. induction l as [|[h t] l IH]; intros s H D; cbn; [assumption|].
  apply IH; [|apply dn_schedule; [apply H; now left|assumption]].
  intros u Hu. unfold done, state_of; cbn. updc; [reflexivity|]. apply H. now right.
Qed.

Lemma pending_not_done X s tr t : Loc X s -> In t (map snd (s_cbs s tr)) -> done s t = false.
Proof.
  intros L H. apply in_map_iff in H. destruct H as ([h u] & E & I). cbn in E; subst.
  unfold done. destruct (L_cpend _ _ L _ _ _ I) as (_ & -> & _). reflexivity.
Qed.

(** * Bundled steps *)
Definition ready_ok (s : st) (t : tid) : Prop :=
  forall u, k_wait (s_task s t) = WTask u -> done s u = true.
Lemma j_schedule X s t e :
  ~ In t X -> (e = None -> ready_ok s t) -> J (t :: X) s ->
  J X (schedule_resume s t e) /\ Stable s (schedule_resume s t e).
Proof.
  intros N C [L O D G A]. assert (Dt : done s t = false) by (apply A; now left). split.
  - constructor; [apply loc_schedule|apply obj_schedule|apply dn_schedule|apply lg_schedule|]; auto.
    intros u Hu. unfold done, state_of; cbn. updc; [reflexivity|]. apply A. now right.
  - intros u Hu. unfold state_of; cbn. updc; [congruence|auto].
Qed.
Lemma j_schedule_left X s t :
  ~ In t X -> ready_ok s t -> J (t :: X) s -> J X (schedule_left s t) /\ Stable s (schedule_left s t).
Proof.
  intros N C [L O D G A]. assert (Dt : done s t = false) by (apply A; now left). split.
  - constructor; [apply loc_schedule_left|apply obj_schedule_left|apply dn_schedule_left|apply lg_schedule_left|]; auto.
    intros u Hu. unfold done, state_of; cbn. updc; [reflexivity|]. apply A. now right.
  - intros u Hu. unfold state_of; cbn. updc; [congruence|auto].
Qed.

Lemma react_stable X s tr : Loc X s -> Stable s (react s tr).
Proof.
  intros L t D. unfold state_of.
  destruct (react_task s tr t) as [[_ ->]|[H _]]; [auto|].
  rewrite (pending_not_done _ _ _ _ L H) in D. discriminate.
Qed.
Lemma react_dn X s tr : Loc X s -> Dn s -> Dn (react s tr).
Proof.
  intros L D. unfold react. apply dn_fold.
  - intros t H. exact (pending_not_done _ _ _ _ L H).
  - eapply dn_same; [..|exact D]; reflexivity.
Qed.
Lemma react_notdone s tr t : done s t = false -> done (react s tr) t = false.
Proof.
  intro D. unfold done, state_of. destruct (react_task s tr t) as [[_ ->]|[_ [h ->]]]; auto.
Qed.
Lemma react_done s tr t : done (react s tr) t = true -> done s t = true.
Proof.
  intro D. destruct (done s t) eqn:E; [reflexivity|]. now rewrite react_notdone in D.
Qed.
Lemma j_react X s tr :
  plain tr = true -> completes s tr -> J X s -> J X (react s tr) /\ Stable s (react s tr).
Proof.
  intros P C [L O D G A]. split; [constructor|].
  - apply loc_react, L.
  - apply obj_react; assumption.
  - eapply react_dn; eassumption.
  - apply lg_react; assumption.
  - intros t Ht. apply react_notdone, A, Ht.
  - eapply react_stable; eassumption.
Qed.

(** Assignments which touch neither location nor outcome. *)
Lemma j_set_task X s t k :
  k_state k = k_state (s_task s t) -> k_scb k = k_scb (s_task s t) ->
  k_tcb k = k_tcb (s_task s t) -> k_outcome k = k_outcome (s_task s t) ->
  (k_state k = Scheduled -> k_exc k = None -> k_exc (s_task s t) = None) ->
  k_wait k = k_wait (s_task s t) ->
  J X s -> J X (set_task s t k).
Proof.
  intros E1 E2 E3 E4 E5 E6 [L O D G A].
  assert (Es : forall u, state_of (set_task s t k) u = state_of s u).
  { intro u. unfold state_of; cbn. updc; auto. }
  constructor.
  - apply loc_set_task_same; assumption.
  - eapply obj_same; [..|exact O]; try reflexivity; cbn; auto.
    intros u. unfold done. now rewrite Es.
  - eapply dn_same; [..|exact D]; [exact Es| |reflexivity].
    intro u. cbn. updc; auto.
  - apply lg_set_same; assumption.
  - intros u Hu. unfold done. rewrite Es. apply A, Hu.
Qed.
Lemma j_wait X s t w :
  state_of s t = Running -> J X s -> J X (set_task s t (with_wait (s_task s t) w)).
Proof.
  intros R [L O D G A].
  assert (Es : forall u, state_of (set_task s t (with_wait (s_task s t) w)) u = state_of s u).
  { intro u. unfold state_of; cbn. updc; auto. }
  constructor.
  - apply loc_set_task_same; auto.
  - eapply obj_same; [..|exact O]; try reflexivity; cbn; auto.
    intros u. unfold done. now rewrite Es.
  - eapply dn_same; [..|exact D]; [exact Es| |reflexivity].
    intro u. cbn. updc; auto.
  - apply lg_wait; assumption.
  - intros u Hu. unfold done. rewrite Es. apply A, Hu.
Qed.
(** A Task in transit may change any attribute but its outcome, as long as it is not done. *)
Lemma j_set_transit X s t k :
  In t X -> k_state k = Pending \/ k_state k = Running -> k_outcome k = k_outcome (s_task s t) ->
  J X s -> J X (set_task s t k) /\ Stable s (set_task s t k).
Proof.
  intros HX Es E2 [L O D G A].
  assert (E1 : is_done (k_state k) = false) by (destruct Es as [->| ->]; reflexivity). assert (Dt : done s t = false) by (apply A, HX).
  split; [constructor|].
  - apply loc_set_task; assumption.
  - eapply obj_same; [..|exact O]; try reflexivity; cbn; auto.
    intros u. unfold done, state_of; cbn. updc; [congruence|auto].
  - eapply (dn_active _ _ t); [..|exact D]; cbn; auto.
    + intros u N. now rewrite upd_other.
    + unfold done, state_of; cbn. now rewrite upd_same.
    + now rewrite upd_same.
  - apply lg_transit; assumption.
  - intros u Hu. unfold done, state_of; cbn. updc; [assumption|]. apply A, Hu.
  - apply stable_set_task, Dt.
Qed.

Lemma j_same X s s' :
  s_task s' = s_task s -> s_cbs s' = s_cbs s -> s_queue s' = s_queue s -> s_next s' = s_next s ->
  s_ctl s' = s_ctl s -> s_event s' = s_event s -> s_ievent s' = s_ievent s ->
  s_lock s' = s_lock s -> s_gpi s' = s_gpi s -> s_log s' = s_log s -> J X s -> J X s'.
Proof.
  intros E1 E2 E3 E4 E5 E6 E7 E8 E9 E10 [L O D G A].
  assert (Es : forall u, state_of s' u = state_of s u) by (intro; unfold state_of; now rewrite E1).
  constructor.
  - eapply loc_same; [..|exact L]; assumption.
  - eapply obj_same; [..|exact O]; auto; [rewrite E5; auto|].
    intros u Hd _. unfold done in *. now rewrite <- Es.
  - eapply dn_same; [..|exact D]; auto. intro; now rewrite E1.
  - eapply lg_same; [..|exact G]; assumption.
  - intros u Hu. unfold done. rewrite Es. apply A, Hu.
Qed.

(** Taking a Task off its trigger. *)
Lemma filter_nil_one (l : list (nat * tid)) h t :
  length l <= 1 -> In (h, t) l -> filter (fun c => negb (Nat.eqb (fst c) h)) l = [].
Proof.
  destruct l as [|[a b] [|? ?]]; cbn; intros H I; [tauto| |lia].
  destruct I as [E|[]]. inversion E; subst. cbn. now rewrite Nat.eqb_refl.
Qed.
Lemma remove_first_in n l x : NoDup l -> (In x (remove_first n l) <-> In x l /\ x <> n).
Proof.
  induction l as [|y l IH]; cbn; intro N; [tauto|]. inversion N; subst.
  destruct (Nat.eqb_spec y n) as [->|E]; cbn.
  - split; [intro H; split; [tauto|intros ->; contradiction]|]. intros [[|] ?]; [congruence|assumption].
  - rewrite IH by assumption. split; [intros [->|]; tauto|tauto].
Qed.
Lemma remove_first_nodup n l : NoDup l -> NoDup (remove_first n l).
Proof.
  induction l as [|y l IH]; cbn; intro N; [constructor|]. inversion N; subst.
  destruct (Nat.eqb_spec y n) as [->|E]; [assumption|]. constructor; [|auto].
  intro H. apply remove_first_in in H; tauto.
Qed.

Lemma j_deregister X s tr h t :
  In (h, t) (s_cbs s tr) -> J X s ->
  exists s', deregister s tr h = (s', None) /\ J (t :: X) s' /\
    s_task s' = s_task s /\ s_ctl s' = s_ctl s /\ s_halt s' = s_halt s /\
    s_queue s' = s_queue s /\ s_next s' = s_next s /\ s_current s' = s_current s.
Proof.
  intros I [L O D G A]. unfold deregister.
  assert (Ex : existsb (fun c => Nat.eqb (fst c) h) (s_cbs s tr) = true).
  { apply existsb_exists. exists (h, t). cbn. now rewrite Nat.eqb_refl. }
  rewrite Ex. clear Ex.
  set (l' := filter (fun c => negb (Nat.eqb (fst c) h)) (s_cbs s tr)).
  set (s1 := set_cbs s tr l').
  assert (Dt : forall u, In u (t :: X) -> done s u = false).
  { intros u [<-|Hu]; [|auto]. unfold done.
    destruct (L_cpend _ _ L _ _ _ I) as (_ & -> & _). reflexivity. }
  assert (L1 : Loc (t :: X) s1) by (apply loc_remove; assumption).
  assert (D1 : Dn s1) by (eapply dn_same; [..|exact D]; reflexivity).
  assert (G1 : LG (t :: X) s1).
  { apply lg_cbs_sub; [|eapply lg_grow; [|exact G]; intros u; now right].
    intros x Hx. apply filter_In in Hx. apply Hx. }
  assert (Ecbs : s_cbs s1 tr = l') by (cbn; apply updt_same).
  assert (Nl : forall l'', s_cbs s tr = l'' -> l'' <> []).
  { intros l'' E. rewrite <- E. intro Z. rewrite Z in I. exact I. }
  assert (O1 : plain tr = true -> Obj s1).
  { intro P. apply obj_shrink; auto. intro E. unfold l'. now rewrite E. }
  destruct tr as [e|i|l n|n|u|u|g].
  - exists s1. split; [destruct (s_cbs s1 (TEvent e)); reflexivity|].
    split; [constructor; auto|]. cbn. auto 10.
  - exists s1. split; [destruct (s_cbs s1 (TInternal i)); reflexivity|].
    split; [constructor; auto|]. cbn. auto 10.
  - (* lock *)
    assert (El : l' = []) by (apply filter_nil_one with (t := t); [apply O|assumption]).
    rewrite Ecbs, El. cbn [unprime].
    eexists. split; [reflexivity|]. split; [|cbn; auto 10].
    pose proof (O_lock1 _ O l) as ND.
    constructor.
    + eapply loc_same; [..|exact L1]; reflexivity.
    + eapply (obj_lock_update s _ l n []); [..|exact O]; cbn; try reflexivity; auto.
      * intro x. change (updt (s_cbs s) (TLock l n) l' x = updt (s_cbs s) (TLock l n) [] x).
        now rewrite El.
      * intro E. rewrite (O_lock0 _ O l E). reflexivity.
      * apply remove_first_nodup, ND.
      * intros m E H. apply remove_first_in in H; [|assumption]. apply (O_lock2 _ O l m E). tauto.
      * cbn. rewrite remove_first_in by assumption. tauto.
      * intros m M. cbn. rewrite remove_first_in by assumption. tauto.
    + eapply dn_same; [..|exact D]; reflexivity.
    + apply (lg_set_lock_same (t :: X) s1). exact G1.
    + intros u Hu. apply Dt, Hu.
  - rewrite (O_null _ O) in I. destruct I.
  - exists s1. split; [destruct (s_cbs s1 (TComplete u)); reflexivity|].
    split; [constructor; auto|]. cbn. auto 10.
  - exists s1. split; [destruct (s_cbs s1 (TJoin u)); reflexivity|].
    split; [constructor; auto|]. cbn. auto 10.
  - (* simulator trigger *)
    destruct (O_gpi1 _ O g) as [Ga Gb]; [apply Nl; reflexivity|].
    destruct (s_cbs s1 (TGpi g)) as [|c r] eqn:Ec.
    + cbn [unprime]. change (s_gpi s1 g) with (s_gpi s g). rewrite Ga.
      eexists. split; [reflexivity|]. split; [|cbn; auto 10].
      constructor.
      * eapply loc_same; [..|exact L1]; reflexivity.
      * eapply (obj_gpi_update s _ g [] _); [..|exact O]; cbn; try reflexivity; auto.
        -- intro x. change (updt (s_cbs s) (TGpi g) l' x = updt (s_cbs s) (TGpi g) [] x).
           now rewrite <- Ecbs.
        -- intros x N. now rewrite upd_other.
        -- rewrite upd_same. discriminate.
      * eapply dn_same; [..|exact D]; reflexivity.
      * eapply lg_same; [..|exact G1]; reflexivity.
      * intros u Hu. apply Dt, Hu.
    + exists s1. split; [reflexivity|]. split; [|cbn; auto 10].
      constructor; [assumption| |assumption|assumption|assumption].
      eapply (obj_gpi_update s _ g l' (s_gpi s g)); [..|exact O]; cbn; try reflexivity; auto.
      * rewrite <- Ecbs. discriminate.
Qed.

Lemma j_cancel_slot X s h t :
  In (QEnt h t false) (s_queue s) -> J X s -> J (t :: X) (cancel_slot s h).
Proof.
  intros I [L O D G A]. constructor.
  - now apply loc_cancel_slot.
  - eapply obj_same; [..|exact O]; try reflexivity; auto.
  - eapply dn_same; [..|exact D]; reflexivity.
  - apply lg_cancel_slot. eapply lg_grow; [|exact G]. intros u; now right.
  - intros u [<-|Hu]; [|apply A, Hu]. unfold done.
    change (state_of (cancel_slot s h) t) with (state_of s t).
    destruct (L_qlive _ _ L _ _ I) as (_ & -> & _). reflexivity.
Qed.

Lemma j_cancel_tcb X s t :
  ~ In t X -> state_of s t = Pending -> J X s ->
  exists s', cancel_tcb s t = (s', None) /\ J (t :: X) s' /\
    s_task s' = s_task s /\ s_ctl s' = s_ctl s /\ s_halt s' = s_halt s /\
    s_queue s' = s_queue s /\ s_next s' = s_next s /\ s_current s' = s_current s.
Proof.
  intros HX P H. destruct (L_pend _ _ (J_loc _ _ H) t HX P) as (tr & h & I).
  unfold cancel_tcb. destruct (L_cpend _ _ (J_loc _ _ H) _ _ _ I) as (_ & _ & ->).
  apply j_deregister; assumption.
Qed.
Lemma j_cancel_scb X s t :
  ~ In t X -> state_of s t = Scheduled -> J X s ->
  exists h, cancel_scb s t = (cancel_slot s h, None) /\ J (t :: X) (cancel_slot s h).
Proof.
  intros HX P H. destruct (L_sched _ _ (J_loc _ _ H) t HX P) as (h & I).
  unfold cancel_scb. destruct (L_qlive _ _ (J_loc _ _ H) _ _ I) as (_ & _ & ->).
  exists h. split; [reflexivity|]. apply j_cancel_slot; assumption.
Qed.

Lemma j_rest X s t :
  ~ In t X -> state_of s t = Unstarted -> J X s -> J (t :: X) s.
Proof.
  intros HX U [L O D G A]. constructor; auto.
  - apply loc_rest; auto. now rewrite U.
  - eapply lg_grow; [|exact G]. intros u; now right.
  - intros u [<-|Hu]; [unfold done; now rewrite U|auto].
Qed.
Lemma j_pop X s q rest :
  s_queue s = q :: rest -> J X s ->
  J (if q_cancelled q then X else q_task q :: X)
    (log (set_queue s rest) (OPop (q_id q) (q_task q) (negb (q_cancelled q)))).
Proof.
  intros E [L O D G A].
  assert (Q : q_cancelled q = false -> done s (q_task q) = false).
  { intro C. unfold done. destruct q as [h t c]; cbn in *; subst.
    destruct (L_qlive _ _ L h t) as (_ & -> & _); [rewrite E; now left|reflexivity]. }
  constructor.
  - eapply loc_same; [..|apply (loc_pop X s q rest E L)]; reflexivity.
  - eapply obj_same; [..|exact O]; try reflexivity; auto.
  - eapply dn_same; [..|exact D]; reflexivity.
  - apply lg_pop; [assumption|assumption|].
    eapply lg_grow; [|exact G]. intros u Hu. destruct (q_cancelled q); [assumption|now right].
  - intros u Hu. change (done (log (set_queue s rest)
      (OPop (q_id q) (q_task q) (negb (q_cancelled q)))) u) with (done s u).
    destruct (q_cancelled q) eqn:C; [auto|]. destruct Hu as [<-|Hu]; auto.
Qed.
Lemma j_leave X s t rest f :
  f = FRun t \/ f = FClose t -> s_ctl s = f :: rest -> J X s -> J (t :: X) (set_ctl s rest).
Proof.
  intros Ef E [L O D G A].
  assert (F : finishers (s_ctl s) = finishers rest) by (rewrite E; destruct Ef; subst; reflexivity).
  constructor.
  - eapply loc_leave; eassumption.
  - eapply obj_same; [..|exact O]; try reflexivity; auto. intro u. now rewrite F.
  - destruct D. rewrite F in *. constructor; assumption.
  - eapply lg_same with (s := s); try reflexivity.
    eapply lg_grow; [|exact G]. intros u; now right.
  - intros u [<-|Hu]; [|apply A, Hu]. change (done (set_ctl s rest) t) with (done s t).
    unfold done. destruct (L_run _ _ L t) as (_ & ->); [|reflexivity].
    rewrite E. destruct Ef; subst; now left.
Qed.
Lemma j_enter X s t f :
  f = FRun t \/ f = FClose t -> ~ In t X -> state_of s t = Running -> J (t :: X) s ->
  J X (set_ctl s (f :: s_ctl s)).
Proof.
  intros Ef HX R [L O D G A].
  assert (F : finishers (f :: s_ctl s) = finishers (s_ctl s)) by (destruct Ef; subst; reflexivity).
  constructor.
  - eapply loc_enter; eassumption.
  - eapply obj_same; [..|exact O]; try reflexivity; auto.
    intro u. cbn [s_ctl set_ctl]. now rewrite F.
  - destruct D. constructor; cbn [s_ctl set_ctl]; rewrite ?F; assumption.
  - eapply lg_same with (s := s); try reflexivity.
    destruct G. constructor; try assumption.
    intros u v Hu. destruct (Nat.eq_dec u t) as [->|N]; [congruence|].
    apply G_w2. intros [->|]; tauto.
  - intros u Hu. apply A. now right.
Qed.

(** Setting the outcome. *)
Lemma j_outcome X s t x o k :
  ~ In t X -> fits x o -> J (t :: X) s ->
  J X (set_outcome s t x o k) /\ Stable s (set_outcome s t x o k).
Proof.
  intros HX F [L O D G A]. assert (Dt : done s t = false) by (apply A; now left).
  assert (Dx : is_done x = true) by (eapply fits_done; exact F).
  split; [constructor|].
  - apply (loc_settle _ _ t).
    + unfold state_of; cbn. rewrite upd_same. cbn. destruct x; cbn in *; congruence.
    + eapply loc_same with (s := set_ctl (set_task s t (with_outcome (s_task s t) x o))
                                   (FDone t 0 k :: s_ctl s)); try reflexivity.
      assert (L1 : Loc (t :: X) (set_task s t (with_outcome (s_task s t) x o)))
        by (apply loc_set_task; [now left|assumption]).
      destruct L1. constructor; assumption.
  - eapply obj_same; [..|exact O]; try reflexivity; cbn; auto.
    intros u. unfold done, state_of; cbn. updc; [tauto|auto].
  - destruct D. constructor; cbn.
    + intros u. unfold done, state_of in *; cbn. destruct (Nat.eq_dec u t) as [->|N].
      * rewrite upd_same. cbn. intros _. eauto.
      * rewrite upd_other by assumption. auto.
    + intros u. unfold done, state_of in *; cbn. destruct (Nat.eq_dec u t) as [->|N].
      * rewrite upd_same. cbn. congruence.
      * rewrite upd_other by assumption. auto.
    + intros u. unfold done, state_of in *; cbn. destruct (Nat.eq_dec u t) as [->|N].
      * rewrite upd_same. cbn. auto.
      * rewrite upd_other by assumption. intros [E|Hu]; [congruence|]. apply D_fin, Hu.
    + constructor; [|assumption]. intro H. specialize (D_fin t H). congruence.
  - apply lg_outcome; auto. apply (D_none _ D), Dt.
  - intros u Hu. unfold done, state_of; cbn. rewrite upd_other; [apply A; now right|].
    intros ->. tauto.
  - intros u Hu. unfold state_of; cbn. updc; [congruence|auto].
Qed.

(** The end of [_set_outcome]. *)
Lemma j_finish X s t i k rest :
  s_ctl s = FDone t i k :: rest -> J X s ->
  J X (finish_outcome (set_ctl s rest) t k) /\ Stable s (finish_outcome (set_ctl s rest) t k).
Proof.
  intros E [L O D G A].
  assert (Dt : done s t = true) by (apply (D_fin _ D); rewrite E; now left).
  set (s1 := set_ctl s rest). set (s2 := react s1 (TComplete t)). set (s3 := react s2 (TJoin t)).
  assert (Z : J X s3 /\ Stable s s3).
  { assert (L1 : Loc X s1).
    { destruct L. rewrite E in *. constructor; assumption. }
    assert (L2 : Loc X s2) by (apply loc_react, L1).
    assert (L3 : Loc X s3) by (apply loc_react, L2).
    assert (D1 : Dn s1).
    { destruct D. rewrite E in *. cbn in D_fin, D_find. inversion D_find; subst. constructor; auto.
      intros u Hu. apply D_fin. now right. }
    assert (F : forall u, In u (finishers (s_ctl s)) -> u = t \/ In u (finishers rest)).
    { intros u. rewrite E. cbn. intros [|]; auto. }
    assert (C3 : s_ctl s3 = rest) by (unfold s3, s2; rewrite !react_ctl; reflexivity).
    assert (K3 : s_cbs s3 = updt (updt (s_cbs s) (TComplete t) []) (TJoin t) []).
    { unfold s3. rewrite react_cbs. unfold s2. rewrite react_cbs. reflexivity. }
    split; [constructor|].
    - assumption.
    - assert (E1 : s_event s3 = s_event s) by (unfold s3, s2; now rewrite !react_event).
      assert (E2 : s_ievent s3 = s_ievent s) by (unfold s3, s2; now rewrite !react_ievent).
      assert (E3 : s_lock s3 = s_lock s) by (unfold s3, s2; now rewrite !react_lock).
      assert (E4 : s_gpi s3 = s_gpi s) by (unfold s3, s2; now rewrite !react_gpi).
      destruct O. constructor; rewrite ?K3, ?E1, ?E2, ?E3, ?E4, ?C3.
      + intros e He. rewrite !updt_other by discriminate. auto.
      + intros e He. rewrite !updt_other by discriminate. auto.
      + intros e. rewrite !updt_other by discriminate. auto.
      + intros u Du Fu. assert (Du' : done s u = true).
        { apply (react_done s2 (TJoin t)) in Du. apply (react_done s1 (TComplete t)) in Du. exact Du. }
        destruct (Nat.eq_dec u t) as [->|N].
        * rewrite updt_same. split; [|reflexivity].
          rewrite updt_other by discriminate. apply updt_same.
        * rewrite !updt_other by congruence. apply O_comp; [assumption|].
          intro H. destruct (F u H); tauto.
      + assumption.
      + assumption.
      + assumption.
      + intros l n. rewrite !updt_other by discriminate. auto.
      + intros l n. rewrite !updt_other by discriminate. auto.
      + intros g. rewrite !updt_other by discriminate. auto.
      + intros g. rewrite !updt_other by discriminate. auto.
    - apply (react_dn X); [assumption|]. apply (react_dn X); assumption.
    - assert (S2 : Stable s1 s2) by (eapply react_stable; eassumption).
      apply lg_react; [exact (stable_done s1 s2 t S2 Dt)|assumption|].
      apply lg_react; [exact Dt|assumption|]. eapply lg_same; [..|exact G]; reflexivity.
    - intros u Hu. apply react_notdone, react_notdone. apply A, Hu.
    - eapply stable_trans; [|eapply react_stable; eassumption].
      eapply stable_trans; [|eapply react_stable; eassumption].
      apply stable_same. reflexivity. }
  destruct Z as [G1 G2]. unfold finish_outcome. fold s1 s2 s3.
  destruct k; (split; [eapply j_same; [..|exact G1]; reflexivity|]);
    (eapply stable_trans; [exact G2|apply stable_same; reflexivity]).
Qed.

Lemma NoDup_app_snoc (l : list nat) n : NoDup l -> ~ In n l -> NoDup (l ++ [n]).
Proof.
  induction l as [|x l IH]; cbn; intros H N.
  - repeat constructor; tauto.
  - inversion H; subst. constructor; [rewrite in_app_iff; cbn; intros [|[|[]]]; [tauto|]|].
    + subst. tauto.
    + apply IH; tauto.
Qed.

(** Registering a Task on a trigger. *)
Definition awaitable (s : st) (tr : trig) : Prop :=
  match tr with
  | TLock l n => l_current (s_lock s l) <> Some n /\ ~ In n (l_pending (s_lock s l))
  | TNull _ => True
  | _ => True
  end.
Lemma await_check_ok s tr s' : await_check s tr = Some s' -> awaitable s' tr.
Proof.
  unfold await_check, awaitable. destruct tr; auto.
  destruct (l_current (s_lock s l)) as [m|] eqn:E; cbn.
  - destruct (Nat.eqb_spec m n) as [->|N]; cbn; [discriminate|].
    destruct (existsb _ _) eqn:Ex; [discriminate|]. intros [= <-]. rewrite E. split; [congruence|].
    intro H. assert (existsb (Nat.eqb n) (l_pending (s_lock s l)) = true); [|congruence].
    apply existsb_exists. exists n. split; [assumption|apply Nat.eqb_refl].
  - destruct (existsb _ _) eqn:Ex; [discriminate|]. intros [= <-]. rewrite E. split; [discriminate|].
    intro H. assert (existsb (Nat.eqb n) (l_pending (s_lock s l)) = true); [|congruence].
    apply existsb_exists. exists n. split; [assumption|apply Nat.eqb_refl].
Qed.

Lemma j_register X s tr t :
  ~ In t X -> state_of s t = Pending -> awaitable s tr ->
  (forall u, k_wait (s_task s t) = WTask u -> tr = TComplete u \/ tr = TJoin u) -> J (t :: X) s ->
  exists s', register s tr t true = (s', false) /\ J X s' /\ Stable s s'.
Proof.
  intros HX P W Wk [L O D G A]. assert (Dt : done s t = false) by (apply A; now left).
  unfold register. set (h := s_next s).
  set (s1 := log (set_cbs (set_task (set_next s (S h)) t (with_tcb (s_task s t) tr h)) tr
                   (s_cbs s tr ++ [(h, t)])) (OBlock t tr h)).
  change (log
    (set_cbs (set_task (set_next s (S h)) t (with_tcb (s_task (set_next s (S h)) t) tr h)) tr
       (s_cbs (set_task (set_next s (S h)) t (with_tcb (s_task (set_next s (S h)) t) tr h)) tr ++
        [(h, t)])) (OBlock t tr h)) with s1.
  assert (L1 : Loc X s1).
  { eapply loc_same; [..|apply (loc_add X s tr t HX P L)]; reflexivity. }
  assert (G1 : LG X s1) by apply (lg_add X s tr t P Wk G).
  assert (S1 : forall u, state_of s1 u = state_of s u).
  { intro u. unfold state_of, s1; cbn. updc; auto. }
  assert (D1 : Dn s1).
  { eapply dn_same; [..|exact D]; [exact S1| |reflexivity]. intro u. unfold s1; cbn. updc; auto. }
  assert (A1 : forall u, In u X -> done s1 u = false).
  { intros u Hu. unfold done. rewrite S1. apply A. now right. }
  assert (T1 : Stable s s1).
  { intros u Hu. rewrite S1. split; [reflexivity|]. unfold s1; cbn. updc; auto. }
  assert (K1 : s_cbs s1 = updt (s_cbs s) tr (s_cbs s tr ++ [(h, t)])) by reflexivity.
  assert (Ne : s_cbs s tr ++ [(h, t)] <> []) by (destruct (s_cbs s tr); discriminate).
  (* firing at once *)
  assert (Fire : plain tr = true -> completes s1 tr -> J X (react s1 tr) /\ Stable s (react s1 tr)).
  { intros Pl Co. split; [constructor|].
    - apply loc_react, L1.
    - assert (Oc : Obj (set_cbs s tr [])) by (apply obj_clear; assumption).
      assert (U : forall x, s_cbs (react s1 tr) x = updt (s_cbs s) tr [] x).
      { intro x. rewrite react_cbs, K1. unfold updt. destruct (trig_eqb x tr); reflexivity. }
      destruct Oc. cbn in O_event, O_ievent, O_null, O_comp, O_lock0, O_lock1, O_lock2, O_lock3,
        O_lock4, O_gpi1, O_gpi2.
      constructor; rewrite ?react_event, ?react_ievent, ?react_lock, ?react_gpi, ?react_ctl.
      + intros e He. rewrite U. auto.
      + intros e He. rewrite U. auto.
      + intros e. rewrite U. auto.
      + intros u Du Fu. rewrite !U. apply O_comp; [|assumption].
        apply react_done in Du. unfold done in Du. rewrite S1 in Du. exact Du.
      + assumption.
      + assumption.
      + assumption.
      + intros l n. rewrite U. apply O_lock3.
      + intros l n. rewrite U. apply O_lock4.
      + intros g. rewrite U. apply O_gpi1.
      + intros g. rewrite U. apply O_gpi2.
    - apply (react_dn X); assumption.
    - apply lg_react; assumption.
    - intros u Hu. apply react_notdone. auto.
    - eapply stable_trans; [exact T1|]. eapply react_stable; exact L1. }
  (* staying registered, for triggers which are not locks or simulator triggers *)
  assert (Stay : plain tr = true ->
    match tr with
    | TEvent e => s_event s e = false
    | TInternal i => i_fired (s_ievent s i) = false
    | TComplete u | TJoin u => done s u = false \/ In u (finishers (s_ctl s))
    | _ => False
    end -> J X s1 /\ Stable s s1).
  { intros Pl F. split; [constructor; auto|assumption].
    destruct O. constructor; rewrite ?K1; cbn.
    - intros e He. rewrite updt_other; [auto|]. intro E. subst tr. congruence.
    - intros e He. rewrite updt_other; [auto|]. intro E. subst tr. congruence.
    - intros e. rewrite updt_other; [auto|]. intro E. subst tr. tauto.
    - intros u Du Fu. unfold done in Du. rewrite S1 in Du. destruct (O_comp u Du Fu).
      split; (rewrite updt_other; [auto|]); intro E; subst tr; unfold done in F; (destruct F; [congruence|contradiction]).
    - assumption.
    - assumption.
    - assumption.
    - intros l n. rewrite updt_other; [auto|]. intro E. subst tr. discriminate.
    - intros l n. rewrite updt_other; [auto|]. intro E. subst tr. discriminate.
    - intros g. rewrite updt_other; [auto|]. intro E. subst tr. discriminate.
    - intros g. rewrite updt_other; [auto|]. intro E. subst tr. discriminate. }
  destruct tr as [e|i|l n|n|u|u|g].
  - (* Event *)
    change (s_event s1 e) with (s_event s e) in *. cbn [prime].
    destruct (s_event s e) eqn:Ev.
    + rewrite (O_event _ O e Ev) in *. change (s_event s1 e) with (s_event s e). rewrite Ev.
      eexists; split; [reflexivity|]. apply Fire; [reflexivity|exact I].
    + change (s_event s1 e) with (s_event s e). rewrite Ev.
      eexists; split; [destruct (s_cbs s (TEvent e)); reflexivity|]. auto.
  - cbn [prime]. change (s_ievent s1 i) with (s_ievent s i).
    destruct (i_fired (s_ievent s i)) eqn:Ev.
    + rewrite (O_ievent _ O i Ev) in *. eexists; split; [reflexivity|]. apply Fire; [reflexivity|exact I].
    + eexists; split; [destruct (s_cbs s (TInternal i)); reflexivity|]. auto.
  - (* Lock *)
    destruct W as [W1 W2].
    assert (Ec : s_cbs s (TLock l n) = []).
    { destruct (s_cbs s (TLock l n)) eqn:E; [reflexivity|]. exfalso. apply W2.
      apply (O_lock3 _ O). rewrite E. discriminate. }
    rewrite Ec in *. cbn [prime]. change (s_lock s1 l) with (s_lock s l).
    destruct (l_current (s_lock s l)) as [m|] eqn:Ecur.
    + eexists; split; [reflexivity|]. split; [constructor|].
      * eapply loc_same; [..|exact L1]; reflexivity.
      * eapply (obj_lock_update s _ l n [(h, t)]); [..|exact O]; try reflexivity; cbn.
        -- intro x. now rewrite Ec.
        -- intros u. unfold done. intro Du. rewrite <- S1. exact Du.
        -- discriminate.
        -- apply NoDup_app_snoc; [apply O|assumption].
        -- intros m' [= <-] H. apply in_app_iff in H. destruct H as [H|[H|[]]].
           ++ exact (O_lock2 _ O l m Ecur H).
           ++ congruence.
        -- split; [discriminate|]. intros _. apply in_app_iff. right. now left.
        -- intros m' M. rewrite in_app_iff. cbn. split; [intros [|[|[]]]; [assumption|congruence]|auto].
      * eapply dn_same; [..|exact D1]; reflexivity.
      * rewrite <- Ecur. apply (lg_set_lock_same X s1). exact G1.
      * intros u Hu. apply A1, Hu.
      * eapply stable_trans; [exact T1|]. apply stable_same. reflexivity.
    + eexists; split; [reflexivity|]. unfold acquire_and_fire.
      set (s2 := log (set_lock s1 l _) _).
      assert (L2 : Loc X s2) by (eapply loc_same; [..|exact L1]; reflexivity).
      assert (D2 : Dn s2) by (eapply dn_same; [..|exact D1]; reflexivity).
      split; [constructor|].
      * apply loc_react, L2.
      * eapply (obj_lock_update s _ l n []); [..|exact O];
          rewrite ?react_event, ?react_ievent, ?react_lock, ?react_gpi, ?react_ctl; try reflexivity.
        -- intro x. rewrite react_cbs. change (s_cbs s2) with (s_cbs s1). rewrite K1.
           unfold updt. destruct (trig_eqb x (TLock l n)); reflexivity.
        -- intros u Du. apply react_done in Du. unfold done in *. rewrite <- S1. exact Du.
        -- discriminate.
        -- cbn. apply O.
        -- cbn. intros m [= <-]. assumption.
        -- cbn. tauto.
        -- cbn. lia.
      * apply (react_dn X); assumption.
      * apply lg_react; [exact I|assumption|]. apply lg_hold; [exact Ecur|exact G1].
      * intros u Hu. apply react_notdone. apply A1, Hu.
      * eapply stable_trans; [exact T1|]. eapply stable_trans; [|eapply react_stable; exact L2].
        apply stable_same. reflexivity.
  - rewrite (O_null _ O n) in *. cbn [prime]. eexists; split; [reflexivity|].
    apply Fire; [reflexivity|exact I].
  - cbn [prime]. assert (Eu : done s1 u = done s u) by (unfold done; now rewrite S1). rewrite Eu.
    destruct (s_cbs s (TComplete u)) as [|c r] eqn:Ec.
    + destruct (done s u) eqn:Du; (eexists; split; [reflexivity|]); auto.
    + eexists; split; [reflexivity|]. apply Stay; [reflexivity|].
      destruct (done s u) eqn:Du; [|auto]. right.
      destruct (in_dec Nat.eq_dec u (finishers (s_ctl s))) as [|F]; [assumption|].
      destruct (O_comp _ O u Du F). congruence.
  - cbn [prime]. assert (Eu : done s1 u = done s u) by (unfold done; now rewrite S1). rewrite Eu.
    destruct (s_cbs s (TJoin u)) as [|c r] eqn:Ec.
    + destruct (done s u) eqn:Du; (eexists; split; [reflexivity|]); auto.
    + eexists; split; [reflexivity|]. apply Stay; [reflexivity|].
      destruct (done s u) eqn:Du; [|auto]. right.
      destruct (in_dec Nat.eq_dec u (finishers (s_ctl s))) as [|F]; [assumption|].
      destruct (O_comp _ O u Du F). congruence.
  - (* simulator trigger *)
    destruct (s_cbs s (TGpi g)) as [|c r] eqn:Ec.
    + cbn [prime]. eexists; split; [reflexivity|]. split; [constructor|].
      * eapply loc_same; [..|exact L1]; reflexivity.
      * eapply (obj_gpi_update s _ g [(h, t)]); [..|exact O]; try reflexivity; cbn.
        -- intros x N. now rewrite upd_other.
        -- intros u. unfold done. intro Du. rewrite <- S1. exact Du.
        -- rewrite upd_same. auto.
        -- discriminate.
      * eapply dn_same; [..|exact D1]; reflexivity.
      * eapply lg_same; [..|exact G1]; reflexivity.
      * intros u Hu. apply A1, Hu.
      * eapply stable_trans; [exact T1|]. apply stable_same. reflexivity.
    + destruct (O_gpi1 _ O g) as [Ga Gb]; [rewrite Ec; discriminate|].
      eexists; split; [reflexivity|]. split; [constructor; auto|assumption].
      eapply (obj_gpi_update s _ g ((c :: r) ++ [(h, t)])); [..|exact O]; try reflexivity; cbn; auto.
      * intros u. unfold done. intro Du. rewrite <- S1. exact Du.
Qed.

(** * The coroutine leaves its frame *)
Definition Ok (X : list tid) (s s' : st) : Prop := J X s' /\ Stable s s'.
Lemma ok_trans X Y a b c : Ok X a b -> Ok Y b c -> Ok Y a c.
Proof. intros [_ H1] [H2 H3]. split; [assumption|]. eapply stable_trans; eassumption. Qed.
Lemma ok_same X s s' :
  s_task s' = s_task s -> s_cbs s' = s_cbs s -> s_queue s' = s_queue s -> s_next s' = s_next s ->
  s_ctl s' = s_ctl s -> s_event s' = s_event s -> s_ievent s' = s_ievent s ->
  s_lock s' = s_lock s -> s_gpi s' = s_gpi s -> s_log s' = s_log s -> J X s -> Ok X s s'.
Proof.
  intros. split; [eapply j_same; eassumption|]. now apply stable_same.
Qed.

Lemma ok_returned X s t v : ~ In t X -> J (t :: X) s -> Ok X s (coro_returned s t v).
Proof.
  intros HX H. unfold coro_returned. destruct (Nat.eqb _ _); apply j_outcome; cbn; auto.
Qed.
Lemma ok_raised X s t e : ~ In t X -> J (t :: X) s -> Ok X s (coro_raised s t e).
Proof.
  intros HX H. unfold coro_raised.
  destruct e; try destruct (Nat.eqb _ _); apply j_outcome; cbn; auto.
Qed.
Lemma ok_yielded X s t y :
  ~ In t X -> state_of s t = Running ->
  match y with
  | Some tr => awaitable s tr /\
      (forall u, k_wait (s_task s t) = WTask u -> tr = TComplete u \/ tr = TJoin u)
  | None => True
  end ->
  J (t :: X) s -> Ok X s (coro_yielded s t y true).
Proof.
  intros HX R W H. unfold coro_yielded. destruct (Nat.eqb _ _); cbn [negb].
  - destruct y as [tr|].
    + destruct (j_set_transit (t :: X) s t (with_state (s_task s t) Pending)) as [H1 S1];
        [now left|now left|reflexivity|assumption|].
      destruct W as [W1 W2].
      destruct (j_register X (set_task s t (with_state (s_task s t) Pending)) tr t)
        as (s2 & E & H2 & S2); auto.
      { unfold state_of; cbn. now rewrite upd_same. }
      { cbn. rewrite upd_same. exact W2. }
      rewrite E. split; [eapply j_same; [..|exact H2]; reflexivity|].
      eapply stable_trans; [exact S1|]. eapply stable_trans; [exact S2|]. now apply stable_same.
    + destruct (j_schedule X s t (Some EBadYield)) as [H1 S1]; auto; [discriminate|].
      split; [eapply j_same; [..|exact H1]; reflexivity|].
      eapply stable_trans; [exact S1|]. now apply stable_same.
  - split; [|now apply stable_same]. eapply j_enter; eauto.
Qed.

(** * [_resume] *)
Lemma ok_resume X s t :
  ~ In t X -> (k_exc (s_task s t) = None -> state_of s t = Scheduled) ->
  J (t :: X) s -> Ok X s (resume s t).
Proof.
  intros HX C H. unfold resume. set (k := s_task s t).
  destruct (j_set_transit (t :: X) s t (with_running k)) as [H1 S1];
    [now left|now right|reflexivity|assumption|].
  set (s1 := set_task s t (with_running k)) in *.
  set (s2 := log (set_current s1 (Some t)) (OResume t (k_exc k))).
  assert (R2 : state_of s2 t = Running) by (unfold state_of; cbn; now rewrite upd_same).
  assert (Q : forall s2', s_task s2' = s_task s1 -> s_cbs s2' = s_cbs s1 -> s_queue s2' = s_queue s1 ->
    s_next s2' = s_next s1 -> s_ctl s2' = s_ctl s1 -> s_event s2' = s_event s1 ->
    s_ievent s2' = s_ievent s1 -> s_lock s2' = s_lock s1 -> s_gpi s2' = s_gpi s1 ->
    LG (t :: X) s2' -> J (t :: X) s2').
  { intros s2' E1 E2 E3 E4 E5 E6 E7 E8 E9 Gx. destruct H1 as [L O D G A].
    assert (Es : forall u, state_of s2' u = state_of s1 u) by (intro; unfold state_of; now rewrite E1).
    constructor.
    - eapply loc_same; [..|exact L]; assumption.
    - eapply obj_same; [..|exact O]; auto; [rewrite E5; auto|].
      intros u Hd _. unfold done in *. now rewrite <- Es.
    - eapply dn_same; [..|exact D]; auto. intro; now rewrite E1.
    - exact Gx.
    - intros u Hu. unfold done. rewrite Es. apply A, Hu. }
  assert (G2 : LG (t :: X) s2).
  { apply lg_log_resume; [unfold done; cbn; unfold state_of; cbn; now rewrite upd_same|].
    eapply lg_same; [..|exact (J_log _ _ H1)]; reflexivity. }
  assert (H2 : J (t :: X) s2) by (apply Q; try reflexivity; exact G2).
  assert (S2 : Stable s s2) by (eapply stable_trans; [exact S1|now apply stable_same]).
  destruct (k_exc k) as [e|] eqn:Ee.
  - destruct (k_begun k).
    + split; [|eapply stable_trans; [exact S2|now apply stable_same]]. eapply j_enter; eauto.
    + destruct (ok_raised X s2 t e HX H2) as [A B]. split; [exact A|].
      eapply stable_trans; eassumption.
  - destruct (k_wait k) as [|u] eqn:Ew.
    + split; [|eapply stable_trans; [exact S2|now apply stable_same]]. eapply j_enter; eauto.
    + split; [|eapply stable_trans; [exact S2|now apply stable_same]].
      eapply (j_enter X (log s2 (OGot t u (result_of s2 u)))); eauto.
      apply Q; try reflexivity. apply lg_log_got; [unfold done; now rewrite R2| |exact G2].
      eapply stable_done; [exact S2|]. apply (G_w3 _ _ (J_log _ _ H) t u); [apply C, Ee|exact Ee|exact Ew].
Qed.

(** * API calls *)
Definition fair (r : res) : Prop :=
  match r with RErr PKey | RErr PAssert | RErr PInvalidState => False | _ => True end.

Lemma ok_must X s t n : J X s -> Ok X s (set_task s t (with_must (s_task s t) n)).
Proof.
  intro H. split; [apply j_set_task; auto|]. apply stable_set_task_same; reflexivity.
Qed.
Lemma ok_dcbs X s t n : J X s -> Ok X s (set_task s t (with_dcbs (s_task s t) n)).
Proof.
  intro H. split; [apply j_set_task; auto|]. apply stable_set_task_same; reflexivity.
Qed.
Lemma ok_exc X s t n : J X s -> Ok X s (set_task s t (with_exc (s_task s t) (Some n))).
Proof.
  intro H. split; [apply j_set_task; auto; discriminate|]. apply stable_set_task_same; reflexivity.
Qed.
Lemma ok_wait X s t n :
  state_of s t = Running -> J X s -> Ok X s (set_task s t (with_wait (s_task s t) n)).
Proof.
  intros R H. split; [apply j_wait; auto|]. apply stable_set_task_same; reflexivity.
Qed.

Lemma ok_start_soon s t : Inv s -> Ok [] s (fst (start_soon s t)) /\ fair (snd (start_soon s t)).
Proof.
  intro H. unfold start_soon. destruct (state_of s t) eqn:E; cbn [fst snd];
    (split; [|exact I]); try (split; [assumption|apply stable_refl]).
  apply j_schedule; [tauto| |now apply j_rest].
  intros _ u Ew. rewrite (G_w1 _ _ (J_log _ _ H) t E) in Ew. discriminate.
Qed.
Lemma ok_start_next s t : Inv s -> Ok [] s (fst (start_next s t)) /\ fair (snd (start_next s t)).
Proof.
  intro H. unfold start_next. destruct (state_of s t) eqn:E; cbn [fst snd];
    (split; [|exact I]); try (split; [assumption|apply stable_refl]).
  apply j_schedule_left; [tauto| |now apply j_rest].
  intros u Ew. rewrite (G_w1 _ _ (J_log _ _ H) t E) in Ew. discriminate.
Qed.
Lemma ok_cancel s t m : Inv s -> Ok [] s (fst (cancel s t m)) /\ fair (snd (cancel s t m)).
Proof.
  intro H. unfold cancel.
  assert (K : Ok [] s s) by (split; [assumption|apply stable_refl]).
  assert (Q : forall s1, J [t] s1 -> Stable s s1 ->
    Ok [] s (add_must (schedule_resume s1 t (Some (ECancelled m))) t)).
  { intros s1 H1 S1. destruct (j_schedule [] s1 t (Some (ECancelled m))) as [H2 S2]; [tauto|discriminate|assumption|].
    apply (ok_trans [] [] s (schedule_resume s1 t (Some (ECancelled m)))).
    - split; [assumption|]. eapply stable_trans; eassumption.
    - apply ok_must. assumption. }
  destruct (state_of s t) eqn:E; cbn [fst snd]; try (split; [exact K|exact I]).
  - split; [|exact I]. apply Q; [now apply j_rest|apply stable_refl].
  - split; [|exact I].
    apply (ok_trans [] [] s (set_task s t (with_exc (s_task s t) (Some (ECancelled m))))).
    + now apply ok_exc.
    + apply ok_must. now apply ok_exc.
  - destruct (j_cancel_tcb [] s t) as (s1 & E1 & H1 & T1 & _); auto.
    rewrite E1. cbn [fst snd]. split; [|exact I]. apply Q; [assumption|now apply stable_same].
Qed.
Lemma ok_kill s t : Inv s -> Ok [] s (fst (kill s t)) /\ fair (snd (kill s t)).
Proof.
  intro H. unfold kill.
  assert (K : Ok [] s s) by (split; [assumption|apply stable_refl]).
  assert (Q : forall s1, J [t] s1 -> Stable s s1 ->
    Ok [] s (set_outcome s1 t Finished (OVal None) AfterKill)).
  { intros s1 H1 S1. eapply (ok_trans [t] []); [split; eassumption|].
    apply j_outcome; cbn; auto. }
  destruct (state_of s t) eqn:E; cbn [fst snd]; try (split; [exact K|exact I]).
  - split; [|exact I]. apply Q; [now apply j_rest|apply stable_refl].
  - destruct (j_cancel_scb [] s t) as (h & E1 & H1); auto.
    rewrite E1. cbn [fst snd]. split; [|exact I]. apply Q; [assumption|now apply stable_same].
  - destruct (j_cancel_tcb [] s t) as (s1 & E1 & H1 & T1 & _); auto.
    rewrite E1. cbn [fst snd]. split; [|exact I]. apply Q; [assumption|now apply stable_same].
Qed.
Lemma ok_cancel_now s t m :
  Inv s -> Ok [] s (fst (cancel_now s t m)) /\ fair (snd (cancel_now s t m)).
Proof.
  intro H. unfold cancel_now.
  assert (K : Ok [] s s) by (split; [assumption|apply stable_refl]).
  assert (Q : forall s1, J [t] s1 -> Stable s s1 ->
    Ok [] s (resume (set_task (add_must s1 t) t
                       (with_exc (s_task (add_must s1 t) t) (Some (ECancelled m)))) t)).
  { intros s1 H1 S1. eapply (ok_trans [t] []); [split; eassumption|].
    destruct (ok_must [t] s1 t (S (k_must (s_task s1 t))) H1) as [H2 S2]. fold (add_must s1 t) in *.
    eapply (ok_trans [t] []); [split; eassumption|].
    pose proof (ok_exc [t] _ t (ECancelled m) H2) as H3.
    eapply (ok_trans [t] []); [exact H3|]. apply ok_resume; [tauto| |apply H3].
    cbn. rewrite upd_same. discriminate. }
  destruct (state_of s t) eqn:E; cbn [fst snd]; try (split; [exact K|exact I]).
  - split; [|exact I]. apply Q; [now apply j_rest|apply stable_refl].
  - destruct (j_cancel_scb [] s t) as (h & E1 & H1); auto.
    rewrite E1. cbn [fst snd]. split; [|exact I]. apply Q; [assumption|now apply stable_same].
  - destruct (j_cancel_tcb [] s t) as (s1 & E1 & H1 & T1 & _); auto.
    rewrite E1. cbn [fst snd]. split; [|exact I]. apply Q; [assumption|now apply stable_same].
Qed.

Lemma ok_event_set s e : Inv s -> Ok [] s (event_set s e).
Proof.
  intros [L O D G A]. unfold event_set.
  set (s1 := set_event s e true).
  assert (L1 : Loc [] s1) by (eapply loc_same; [..|exact L]; reflexivity).
  split; [constructor|].
  - apply loc_react, L1.
  - pose proof (obj_clear s (TEvent e) eq_refl O) as [].
    cbn in O_event, O_ievent, O_null, O_comp, O_lock0, O_lock1, O_lock2, O_lock3, O_lock4, O_gpi1, O_gpi2.
    constructor; rewrite ?react_cbs, ?react_event, ?react_ievent, ?react_lock, ?react_gpi, ?react_ctl;
      try assumption.
    + intros x Hx. cbn in *. destruct (Nat.eq_dec x e) as [->|N]; [apply updt_same|].
      rewrite upd_other in Hx by assumption. auto.
    + intros t Dt Ft. apply react_done in Dt. apply (O_comp t); assumption.
  - apply (react_dn []); [assumption|]. eapply dn_same; [..|exact D]; reflexivity.
  - apply lg_react; [exact I|assumption|]. eapply lg_same; [..|exact G]; reflexivity.
  - intros u [].
  - eapply stable_trans; [|eapply react_stable; exact L1]. now apply stable_same.
Qed.
Lemma ok_ievent_set s e : Inv s -> Ok [] s (ievent_set s e).
Proof.
  intros [L O D G A]. unfold ievent_set.
  set (s1 := set_ievent s e _).
  assert (L1 : Loc [] s1) by (eapply loc_same; [..|exact L]; reflexivity).
  split; [constructor|].
  - apply loc_react, L1.
  - pose proof (obj_clear s (TInternal e) eq_refl O) as [].
    cbn in O_event, O_ievent, O_null, O_comp, O_lock0, O_lock1, O_lock2, O_lock3, O_lock4, O_gpi1, O_gpi2.
    constructor; rewrite ?react_cbs, ?react_event, ?react_ievent, ?react_lock, ?react_gpi, ?react_ctl;
      try assumption.
    + intros x Hx. cbn in *. destruct (Nat.eq_dec x e) as [->|N]; [apply updt_same|].
      rewrite upd_other in Hx by assumption. auto.
    + intros t Dt Ft. apply react_done in Dt. apply (O_comp t); assumption.
  - apply (react_dn []); [assumption|]. eapply dn_same; [..|exact D]; reflexivity.
  - apply lg_react; [exact I|assumption|]. eapply lg_same; [..|exact G]; reflexivity.
  - intros u [].
  - eapply stable_trans; [|eapply react_stable; exact L1]. now apply stable_same.
Qed.
Lemma ok_event_clear s e : Inv s -> Ok [] s (event_clear s e).
Proof.
  intros [L O D G A]. split; [constructor|now apply stable_same].
  - eapply loc_same; [..|exact L]; reflexivity.
  - destruct O. constructor; cbn; try assumption.
    intros x Hx. apply O_event. destruct (Nat.eq_dec x e) as [->|N].
    + rewrite upd_same in Hx. discriminate.
    + rewrite upd_other in Hx; assumption.
  - eapply dn_same; [..|exact D]; reflexivity.
  - eapply lg_same; [..|exact G]; reflexivity.
  - intros u [].
Qed.
Lemma ok_awaited s i : Inv s -> Ok [] s (set_ievent s i (IEvent (i_fired (s_ievent s i)) true)).
Proof.
  intros [L O D G A]. split; [constructor|now apply stable_same].
  - eapply loc_same; [..|exact L]; reflexivity.
  - destruct O. constructor; cbn; try assumption.
    intros x Hx. apply O_ievent. destruct (Nat.eq_dec x i) as [->|N].
    + rewrite upd_same in Hx. exact Hx.
    + rewrite upd_other in Hx; assumption.
  - eapply dn_same; [..|exact D]; reflexivity.
  - eapply lg_same; [..|exact G]; reflexivity.
  - intros u [].
Qed.

Lemma ok_release s l : Inv s -> Ok [] s (fst (release s l)) /\ fair (snd (release s l)).
Proof.
  intros H. unfold release.
  destruct (l_current (s_lock s l)) as [c|] eqn:Ec;
    [|split; [split; [assumption|apply stable_refl]|exact I]].
  set (s1 := log (set_lock s l _) _).
  destruct H as [L O D G A].
  change (l_pending (s_lock s1 l)) with
    (l_pending (upd (s_lock s) l (Lock None (l_pending (s_lock s l))) l)).
  rewrite upd_same. cbn [l_pending].
  destruct (l_pending (s_lock s l)) as [|n rest] eqn:Ep; cbn [fst snd]; (split; [|exact I]).
  - split; [constructor|now apply stable_same].
    + eapply loc_same; [..|exact L]; reflexivity.
    + destruct O. constructor; try assumption; cbn.
      * intros x. destruct (Nat.eq_dec x l) as [->|N]; [rewrite upd_same; auto|].
        rewrite upd_other by assumption. auto.
      * intros x. destruct (Nat.eq_dec x l) as [->|N]; [rewrite upd_same; constructor|].
        rewrite upd_other by assumption. auto.
      * intros x m. destruct (Nat.eq_dec x l) as [->|N]; [rewrite upd_same; auto|].
        rewrite upd_other by assumption. auto.
      * intros x m. destruct (Nat.eq_dec x l) as [->|N]; [rewrite upd_same; cbn|].
        -- rewrite <- O_lock3, Ep. cbn. tauto.
        -- rewrite upd_other by assumption. auto.
    + eapply dn_same; [..|exact D]; reflexivity.
    + apply lg_free; [congruence|exact G].
    + intros u [].
  - unfold acquire_and_fire. set (s2 := log _ (OHold l n)).
    assert (L2 : Loc [] s2) by (eapply loc_same; [..|exact L]; reflexivity).
    pose proof (O_lock1 _ O l) as ND. rewrite Ep in ND. inversion ND; subst.
    split; [constructor|].
    + apply loc_react, L2.
    + assert (El : forall x, s_lock (react s2 (TLock l n)) x = upd (s_lock s) l (Lock (Some n) rest) x).
      { intro x. rewrite react_lock. cbn. destruct (Nat.eq_dec x l) as [->|N].
        - now rewrite !upd_same.
        - now rewrite !upd_other by assumption. }
      assert (K : forall x, s_cbs (react s2 (TLock l n)) x = updt (s_cbs s) (TLock l n) [] x).
      { intro x. rewrite react_cbs. reflexivity. }
      destruct O.
      constructor; rewrite ?react_event, ?react_ievent, ?react_gpi, ?react_ctl.
      * intros x Hx. rewrite K, updt_other by discriminate. auto.
      * intros x Hx. rewrite K, updt_other by discriminate. auto.
      * intros x. rewrite K, updt_other by discriminate. auto.
      * intros t Dt Ft. apply react_done in Dt. rewrite !K, !updt_other by discriminate.
        apply O_comp; assumption.
      * intros x. rewrite El. destruct (Nat.eq_dec x l) as [->|N]; [rewrite upd_same; discriminate|].
        rewrite upd_other by assumption. auto.
      * intros x. rewrite El. destruct (Nat.eq_dec x l) as [->|N]; [rewrite upd_same; assumption|].
        rewrite upd_other by assumption. auto.
      * intros x m. rewrite El. destruct (Nat.eq_dec x l) as [->|N].
        -- rewrite upd_same. cbn. intros [= <-]. assumption.
        -- rewrite upd_other by assumption. auto.
      * intros x m. rewrite El, K. destruct (Nat.eq_dec x l) as [->|N].
        -- rewrite upd_same. cbn [l_pending]. destruct (Nat.eq_dec m n) as [->|M].
           ++ rewrite updt_same. split; [intro; contradiction|intro Hx; now elim Hx].
           ++ rewrite updt_other by congruence. rewrite <- O_lock3, Ep. cbn.
              split; [auto|]. intros [|]; [congruence|assumption].
        -- rewrite upd_other by assumption. rewrite updt_other by congruence. auto.
      * intros x m. rewrite K. unfold updt. destruct (trig_eqb _ _); [cbn; lia|auto].
      * intros g. rewrite K, updt_other by discriminate. apply O_gpi1.
      * intros g. rewrite K, updt_other by discriminate. apply O_gpi2.
    + apply (react_dn []); [assumption|]. eapply dn_same; [..|exact D]; reflexivity.
    + apply lg_react; [exact I|assumption|]. unfold s2. apply lg_hold.
      * cbn. now rewrite upd_same.
      * eapply lg_lock_update with (s := s1); try reflexivity.
        -- intro k. cbn. destruct (Nat.eq_dec k l) as [->|N].
           ++ now rewrite !upd_same.
           ++ now rewrite !upd_other by assumption.
        -- apply lg_free; [congruence|exact G].
    + intros u [].
    + eapply stable_trans; [|eapply react_stable; exact L2]. now apply stable_same.
Qed.

Lemma ok_do_op s o : Inv s -> Ok [] s (fst (do_op s o)) /\ fair (snd (do_op s o)).
Proof.
  intro H. destruct o; cbn [do_op].
  - now apply ok_start_soon.
  - now apply ok_start_next.
  - now apply ok_cancel.
  - now apply ok_kill.
  - split; [|exact I]. now apply ok_must.
  - split; [|exact I]. unfold add_done. cbn [fst].
    destruct (done s t); [|now apply ok_dcbs].
    assert (K : Ok [] s (log s (OCall t c))).
    { split; [|now apply stable_same]. destruct H as [L O D G A]. constructor.
      - eapply loc_same; [..|exact L]; reflexivity.
      - eapply obj_same; [..|exact O]; try reflexivity; auto.
      - eapply dn_same; [..|exact D]; reflexivity.
      - apply lg_log; [exact I|exact G].
      - intros u []. }
    eapply ok_trans; [exact K|]. apply ok_dcbs, K.
  - split; [|exact I]. now apply ok_event_set.
  - split; [|exact I]. now apply ok_event_clear.
  - split; [|exact I]. now apply ok_ievent_set.
  - now apply ok_release.
Qed.

Lemma run_state s t rest :
  Inv s -> s_ctl s = FRun t :: rest -> state_of s t = Running.
Proof.
  intros H E. apply (L_run _ _ (J_loc _ _ H)). rewrite E. now left.
Qed.

Lemma await_check_some s tr s' : Inv s -> await_check s tr = Some s' ->
  Ok [] s s' /\ s_ctl s' = s_ctl s /\ s_task s' = s_task s.
Proof.
  intros H. unfold await_check.
  assert (K : Ok [] s s /\ s_ctl s = s_ctl s /\ s_task s = s_task s).
  { split; [split; [assumption|apply stable_refl]|auto]. }
  destruct tr; try (intros [= <-]; exact K).
  - destruct (i_awaited _); [discriminate|]. intros [= <-]. split; [now apply ok_awaited|auto].
  - destruct (_ || _); [discriminate|]. intros [= <-]. exact K.
Qed.

Lemma ok_await_trigger s rest t tr :
  Inv s -> s_ctl s = FRun t :: rest ->
  Ok [] s (fst (await_trigger s rest t tr true)) /\ fair (snd (await_trigger s rest t tr true)).
Proof.
  intros H E. unfold await_trigger. destruct (await_check s tr) as [s1|] eqn:Ea.
  - cbn [fst snd]. split; [|exact I].
    destruct (await_check_some s tr s1 H Ea) as (K & E1 & E2).
    set (w := match tr with TJoin u => WTask u | _ => WTrig end).
    assert (R : state_of s1 t = Running).
    { unfold state_of. rewrite E2. exact (run_state s t rest H E). }
    pose proof (ok_wait [] s1 t w R (proj1 K)) as K2.
    set (s2 := set_task s1 t (with_wait (s_task s1 t) w)) in *.
    assert (E3 : s_ctl s2 = FRun t :: rest) by (unfold s2; cbn; congruence).
    assert (H3 : J [t] (set_ctl s2 rest)).
    { eapply j_leave; [left; reflexivity|exact E3|apply K2]. }
    eapply (ok_trans [] []); [exact K|]. eapply (ok_trans [] []); [exact K2|].
    eapply (ok_trans [t] []); [split; [exact H3|now apply stable_same]|].
    apply ok_yielded; auto.
    + change (state_of (set_ctl s2 rest) t) with (state_of s2 t).
      apply (run_state s2 t rest); [apply K2|exact E3].
    + pose proof (await_check_ok s tr s1 Ea) as W. split; [destruct tr; exact W|].
      cbn. rewrite upd_same. cbn. unfold w. intros u. destruct tr; try discriminate.
      intros [= ->]. now right.
  - cbn [fst snd]. split; [|exact I]. split; [assumption|apply stable_refl].
Qed.

Lemma ok_await_task s rest t u :
  Inv s -> s_ctl s = FRun t :: rest ->
  Ok [] s (fst (await_task s rest t u)) /\ fair (snd (await_task s rest t u)).
Proof.
  intros H E. unfold await_task.
  set (s1 := match state_of s u with Unstarted => fst (start_soon s u) | _ => s end).
  assert (K : Ok [] s s1).
  { unfold s1. destruct (state_of s u);
      solve [split; [assumption|apply stable_refl]|now apply ok_start_soon]. }
  assert (E1 : s_ctl s1 = FRun t :: rest).
  { unfold s1, start_soon. destruct (state_of s u) eqn:Eu; exact E. }
  destruct (done s1 u) eqn:Du.
  - destruct (D_out _ (J_dn _ _ (proj1 K)) u Du) as (o & Eo & _).
    assert (Er : result_of s1 u = Some o) by (unfold result_of; now rewrite Du).
    rewrite Er. cbn [fst snd].
    split; [|exact I]. eapply ok_trans; [exact K|].
    assert (Dt : done s1 t = false).
    { unfold done. rewrite (run_state s1 t rest (proj1 K) E1). reflexivity. }
    split; [|now apply stable_same]. destruct K as [[L O D G A] _]. constructor.
    + eapply loc_same; [..|exact L]; reflexivity.
    + eapply obj_same; [..|exact O]; try reflexivity; auto.
    + eapply dn_same; [..|exact D]; reflexivity.
    + rewrite <- Er. apply lg_log_got; assumption.
    + intros v [].
  - cbn [fst snd]. split; [|exact I].
    pose proof (ok_wait [] s1 t (WTask u) (run_state s1 t rest (proj1 K) E1) (proj1 K)) as K2.
    set (s2 := set_task s1 t (with_wait (s_task s1 t) (WTask u))) in *.
    assert (E3 : s_ctl s2 = FRun t :: rest) by exact E1.
    assert (H3 : J [t] (set_ctl s2 rest)).
    { eapply j_leave; [left; reflexivity|exact E3|apply K2]. }
    eapply (ok_trans [] []); [exact K|]. eapply (ok_trans [] []); [exact K2|].
    eapply (ok_trans [t] []); [split; [exact H3|now apply stable_same]|].
    apply ok_yielded; auto.
    + change (state_of (set_ctl s2 rest) t) with (state_of s2 t).
      apply (run_state s2 t rest); [apply K2|exact E3].
    + split; [exact I|]. cbn. rewrite upd_same. cbn. intros v [= ->]. now left.
Qed.

(** * Steps *)
Definition prime_ok (l : label) : Prop :=
  match l with LAwait _ ok => ok = true | _ => True end.

Lemma inv_init : Inv init.
Proof.
  constructor.
  - constructor; cbn; try (intros; contradiction); try constructor; try discriminate.
  - constructor; cbn; try discriminate; auto; try (intros; constructor); try (intros; tauto).
  - constructor; cbn; try discriminate; auto; try (intros; contradiction). constructor.
  - constructor; cbn; try discriminate; auto; try (intros; contradiction).
    intros t _ (x & o & []).
  - intros t [].
Qed.

Theorem inv_step s l s' r :
  Inv s -> prime_ok l -> step s l = Some (s', r) -> Inv s' /\ Stable s s' /\ fair r.
Proof.
  intros H P. unfold step. destruct (s_halt s); [discriminate|].
  destruct l as [o|t m|v|e|tr ok|u| | | | | |g].
  - intros E. inversion E as [E1].
    destruct (ok_do_op s o H) as [[A B] C]. rewrite E1 in *. auto.
  - destruct (s_ctl s) as [|[ | | ]]; try discriminate; intros E; inversion E as [E1];
      destruct (ok_cancel_now s t m H) as [[A B] C]; rewrite E1 in *; auto.
  - destruct (s_ctl s) as [|[t| | ] rest] eqn:Ec; try discriminate. intros [= <- <-].
    assert (H1 : J [t] (set_ctl s rest)) by (eapply j_leave; [|exact Ec|exact H]; auto).
    destruct (ok_returned [] _ t v (fun x => x) H1) as [A B]. split; [exact A|split; [exact B|exact I]].
  - destruct (s_ctl s) as [|[t| | ] rest] eqn:Ec; try discriminate. intros [= <- <-].
    assert (H1 : J [t] (set_ctl s rest)) by (eapply j_leave; [|exact Ec|exact H]; auto).
    destruct (ok_raised [] _ t e (fun x => x) H1) as [A B]. split; [exact A|split; [exact B|exact I]].
  - destruct (s_ctl s) as [|[t| | ] rest] eqn:Ec; try discriminate. intro E. inversion E as [E1].
    cbn in P. subst ok.
    destruct (ok_await_trigger s rest t tr H Ec) as [[A B] C]. rewrite E1 in *. auto.
  - destruct (s_ctl s) as [|[t| | ] rest] eqn:Ec; try discriminate. intro E. inversion E as [E1].
    destruct (ok_await_task s rest t u H Ec) as [[A B] C]. rewrite E1 in *. auto.
  - destruct (s_ctl s) as [|[t| | ] rest] eqn:Ec; try discriminate. intros [= <- <-].
    pose proof (ok_wait [] s t WTrig (run_state s t rest H Ec) H) as K2.
    set (s2 := set_task s t (with_wait (s_task s t) WTrig)) in *.
    assert (H3 : J [t] (set_ctl s2 rest)).
    { eapply j_leave; [left; reflexivity|exact Ec|apply K2]. }
    assert (R : state_of (set_ctl s2 rest) t = Running).
    { change (state_of (set_ctl s2 rest) t) with (state_of s2 t).
      apply (run_state s2 t rest); [apply K2|exact Ec]. }
    destruct (ok_yielded [] (set_ctl s2 rest) t None (fun x => x) R I H3) as [A B].
    split; [exact A|split; [|exact I]]. eapply stable_trans; [apply K2|].
    eapply stable_trans; [|exact B]. now apply stable_same.
  - destruct (s_ctl s) as [|[ |t| ] rest] eqn:Ec; try discriminate. intros [= <- <-].
    assert (H1 : J [t] (set_ctl s rest)) by (eapply j_leave; [|exact Ec|exact H]; auto).
    destruct (j_outcome [] (set_ctl s rest) t Errored (OExc EIgnoredCancel) AfterResume (fun x => x) I H1)
      as [A B]. split; [exact A|split; [exact B|exact I]].
  - destruct (s_ctl s) as [|[ |t| ] rest] eqn:Ec; try discriminate. intros [= <- <-].
    split; [eapply j_same; [..|exact H]; reflexivity|]. split; [now apply stable_same|exact I].
  - destruct (s_ctl s) as [|[ | |t i k] rest] eqn:Ec; try discriminate.
    destruct (nth_error _ _); intros [= <- <-].
    + split; [|split; [now apply stable_same|exact I]].
      destruct H as [L O D G A]. constructor.
      * destruct L. rewrite Ec in *. constructor; assumption.
      * eapply obj_same; [..|exact O]; try reflexivity; auto. rewrite Ec. auto.
      * destruct D. rewrite Ec in *. constructor; assumption.
      * apply lg_log; [exact I|]. eapply lg_same; [..|exact G]; reflexivity.
      * intros u [].
    + destruct (j_finish [] s t i k rest Ec H) as [A B]. auto.
  - destruct (s_ctl s) as [|] eqn:Ec; try discriminate.
    destruct (s_queue s) as [|q rest] eqn:Eq; [discriminate|]. intros [= <- <-].
    pose proof (j_pop [] s q rest Eq H) as H1.
    destruct (q_cancelled q) eqn:Cq; cbn [negb] in *.
    + split; [eapply j_same; [..|exact H1]; reflexivity|]. split; [now apply stable_same|exact I].
    + match goal with |- Inv (resume ?s2 _) /\ _ => set (s3 := s2) end.
      assert (Sc : state_of s (q_task q) = Scheduled).
      { destruct q as [h t c]; cbn in *.
        apply (L_qlive _ _ (J_loc _ _ H) h t). rewrite Eq. left. f_equal. exact Cq. }
      destruct (ok_resume [] s3 (q_task q) (fun x => x) (fun _ => Sc) H1) as [A B].
      split; [exact A|split; [|exact I]]. eapply stable_trans; [|exact B]. now apply stable_same.
  - destruct (s_ctl s) as [|] eqn:Ec; try discriminate.
    destruct (s_queue s) as [|q rest] eqn:Eq; [|discriminate].
    destruct (g_armed (s_gpi s g)) eqn:Eg; [|discriminate]. intros [= <- <-].
    set (s1 := set_gpi s g _). destruct H as [L O D G A].
    assert (L1 : Loc [] s1) by (eapply loc_same; [..|exact L]; reflexivity).
    split; [constructor|split; [|exact I]].
    + apply loc_react, L1.
    + eapply (obj_gpi_update s _ g []); [..|exact O];
        rewrite ?react_event, ?react_ievent, ?react_lock, ?react_gpi, ?react_ctl; try reflexivity.
      * intro x. rewrite react_cbs. reflexivity.
      * intros x N. cbn. now rewrite upd_other.
      * intros t Dt. apply react_done in Dt. exact Dt.
      * intro Hx; now elim Hx.
      * cbn. rewrite upd_same. discriminate.
    + apply (react_dn []); [assumption|]. eapply dn_same; [..|exact D]; reflexivity.
    + apply lg_react; [exact I|assumption|]. eapply lg_same; [..|exact G]; reflexivity.
    + intros u [].
    + eapply stable_trans; [|eapply react_stable; exact L1]. now apply stable_same.
Qed.

Lemma inv_exec s ls s' : Inv s -> Forall prime_ok ls -> exec s ls s' -> Inv s' /\ Stable s s'.
Proof.
  intros H F E. revert H F. induction E as [s|s l s1 r ls s2 St E IH]; intros H F.
  - split; [assumption|apply stable_refl].
  - inversion F as [|? ? F1 F2]; subst. destruct (inv_step _ _ _ _ H F1 St) as (A & B & _).
    destruct (IH A F2) as [C D]. split; [exact C|]. eapply stable_trans; eassumption.
Qed.

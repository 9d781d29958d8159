(** How each primitive of the scheduler kernel extends the history. *)
From Verif Require Import Base KernelModel KernelProofs KernelHist.
From Coq Require Import Arith Sorted.

Lemma ended_cons t o l : ended t (o :: l) -> (exists x v, o = ODone t x v) \/ ended t l.
Proof. intros (x & v & [->|H]); [left; eauto|right; exists x, v; exact H]. Qed.

Lemma lg_same X s s' :
  s_task s' = s_task s -> s_cbs s' = s_cbs s -> s_queue s' = s_queue s -> s_next s' = s_next s ->
  s_lock s' = s_lock s -> s_log s' = s_log s -> LG X s -> LG X s'.
Proof.
  intros E1 E2 E3 E4 E5 E6 []. constructor; unfold done, state_of in *;
    rewrite ?E1, ?E2, ?E3, ?E4, ?E5, ?E6; try assumption;
    intros; rewrite ?E1, ?E2, ?E5 in *; eauto.
Qed.

Lemma lg_grow X Y s : (forall t, In t X -> In t Y) -> LG X s -> LG Y s.
Proof. intros H []. constructor; auto. Qed.

(** Recording something which says nothing about Tasks, locks or the queue. *)
Definition inert (o : obs) : Prop :=
  match o with OFire _ | OCall _ _ => True | _ => False end.
Lemma lg_log X s o : inert o -> LG X s -> LG X (log s o).
Proof.
  intros I []. constructor; cbn; try assumption.
  - split; [destruct o; cbn in *; tauto|assumption].
  - intros t D E. apply ended_cons in E. destruct E as [(x & v & ->)|E]; [exact I|].
    exact (G_act t D E).
  - intros t D. destruct (G_rec t D) as (v & E & H). eauto.
  - destruct o; cbn in *; try tauto; assumption.
  - intros t tr h [->|H]; [destruct I|eauto].
  - intros tr h t H. right. eauto.
  - intros t u v [->|H]; [destruct I|eauto].
  - intro k. rewrite <- G_hold. destruct o; cbn in *; tauto.
Qed.

(** Task attributes which the history does not mention. *)
Lemma lg_set_same X s t k :
  k_state k = k_state (s_task s t) -> k_outcome k = k_outcome (s_task s t) ->
  k_tcb k = k_tcb (s_task s t) ->
  (k_state k = Scheduled -> k_exc k = None -> k_exc (s_task s t) = None) ->
  k_wait k = k_wait (s_task s t) ->
  LG X s -> LG X (set_task s t k).
Proof.
  intros E1 E2 E3 E4 E5 [].
  assert (S : forall u, state_of (set_task s t k) u = state_of s u).
  { intro u. unfold state_of; cbn. updc; auto. }
  assert (O : forall u, k_outcome (upd (s_task s) t k u) = k_outcome (s_task s u)).
  { intro u. updc; auto. }
  assert (T : forall u, k_tcb (upd (s_task s) t k u) = k_tcb (s_task s u)).
  { intro u. updc; auto. }
  assert (W : forall u, k_wait (upd (s_task s) t k u) = k_wait (s_task s u)).
  { intro u. updc; auto. }
  constructor; unfold done in *; cbn [s_log s_task set_task s_queue s_next s_cbs s_lock]; try assumption.
  - intros u. rewrite S. apply G_act.
  - intros u. rewrite S, O. apply G_rec.
  - intros u v o H. rewrite O. eauto.
  - intros u. rewrite S, W. apply G_w1.
  - intros u v H. rewrite S, W, T. auto.
  - intros u v H. rewrite S in H. rewrite W, S. intro Ex. apply (G_w3 u v H).
    destruct (Nat.eq_dec u t) as [->|N].
    + rewrite upd_same in Ex. apply E4; [|exact Ex]. unfold state_of in H. congruence.
    + rewrite upd_other in Ex; assumption.
Qed.
Lemma lg_wait X s t w :
  state_of s t = Running -> LG X s -> LG X (set_task s t (with_wait (s_task s t) w)).
Proof.
  intros R [].
  assert (S : forall u, state_of (set_task s t (with_wait (s_task s t) w)) u = state_of s u).
  { intro u. unfold state_of; cbn. updc; auto. }
  constructor; unfold done in *; cbn [s_log s_task set_task s_queue s_next s_cbs s_lock]; try assumption.
  - intros u. rewrite S. apply G_act.
  - intros u D. rewrite S in D. rewrite S. destruct (G_rec u D) as (o & E & H). exists o.
    split; [|exact H]. rewrite <- E. updc; reflexivity.
  - intros u v o H. destruct (G_got u v o H) as (x & -> & E). exists x. split; [reflexivity|].
    rewrite <- E. updc; reflexivity.
  - intros u. rewrite S. intro H. destruct (Nat.eq_dec u t) as [->|N]; [congruence|].
    rewrite upd_other by assumption. auto.
  - intros u v H. rewrite S. intro H'. destruct (Nat.eq_dec u t) as [->|N]; [congruence|].
    rewrite upd_other by assumption. auto.
  - intros u v H. rewrite S in H. rewrite S. destruct (Nat.eq_dec u t) as [->|N]; [congruence|].
    rewrite upd_other by assumption. apply G_w3, H.
Qed.

(** A Task in transit becomes PENDING or RUNNING. *)
Lemma lg_transit X s t k :
  In t X -> done s t = false -> (k_state k = Pending \/ k_state k = Running) ->
  k_outcome k = k_outcome (s_task s t) -> LG X s -> LG X (set_task s t k).
Proof.
  intros HX Dt Es Eo [].
  assert (Dk : is_done (k_state k) = false) by (destruct Es as [->| ->]; reflexivity).
  assert (Dn : forall u, done (set_task s t k) u = done s u).
  { intro u. unfold done, state_of; cbn. updc; [|reflexivity]. unfold done, state_of in Dt. congruence. }
  assert (O : forall u, k_outcome (upd (s_task s) t k u) = k_outcome (s_task s u)).
  { intro u. updc; auto. }
  constructor; cbn [s_log s_task set_task s_queue s_next s_cbs s_lock]; try assumption.
  - intros u. rewrite Dn. apply G_act.
  - intros u D. rewrite O. rewrite Dn in D. destruct (G_rec u D) as (o & E & H). exists o.
    split; [exact E|]. unfold state_of; cbn. rewrite upd_other; [exact H|]. intros ->. congruence.
  - intros u v o H. rewrite O. eauto.
  - intros u. unfold state_of; cbn. destruct (Nat.eq_dec u t) as [->|N].
    + rewrite upd_same. destruct Es; congruence.
    + rewrite upd_other by assumption. apply G_w1.
  - intros u v H. unfold state_of; cbn. destruct (Nat.eq_dec u t) as [->|N]; [tauto|].
    rewrite upd_other by assumption. apply G_w2, H.
  - intros u v. rewrite Dn. unfold state_of; cbn. destruct (Nat.eq_dec u t) as [->|N].
    + rewrite upd_same. destruct Es; congruence.
    + rewrite upd_other by assumption. apply G_w3.
Qed.

Lemma replay_sched l h t q :
  replay l = Some q -> replay (OSched h t :: l) = Some (q ++ [(h, t)]).
Proof. cbn. now intros ->. Qed.

Lemma lg_schedule X s t e :
  done s t = false ->
  (e = None -> forall u, k_wait (s_task s t) = WTask u -> done s u = true) ->
  LG (t :: X) s -> LG X (schedule_resume s t e).
Proof.
  intros Dt C [].
  assert (Dn : forall u, done (schedule_resume s t e) u = done s u).
  { intro u. unfold done, state_of; cbn. updc; [|reflexivity]. symmetry. exact Dt. }
  assert (O : forall u, k_outcome (s_task (schedule_resume s t e) u) = k_outcome (s_task s u)).
  { intro u. cbn. updc; reflexivity. }
  constructor.
  - cbn. split; [auto|assumption].
  - intros u. rewrite Dn. intros D E. apply ended_cons in E. destruct E as [(x & v & E)|E]; [discriminate|].
    exact (G_act u D E).
  - intros u D. rewrite O. rewrite Dn in D. destruct (G_rec u D) as (o & E & H). exists o.
    split; [exact E|]. right. unfold state_of; cbn. rewrite upd_other; [exact H|]. intros ->. congruence.
  - cbn [s_log schedule_resume log set_next]. erewrite replay_sched by exact G_fifo.
    cbn. rewrite map_app. reflexivity.
  - cbn. intros u tr h [H|H]; [discriminate|]. specialize (G_blk u tr h H). lia.
  - cbn. intros tr h u H. right. auto.
  - intros u v o [H|H]; [discriminate|]. rewrite O. eauto.
  - cbn. assumption.
  - intros u. unfold state_of; cbn. destruct (Nat.eq_dec u t) as [->|N].
    + rewrite upd_same. discriminate.
    + rewrite upd_other by assumption. apply G_w1.
  - intros u v H. unfold state_of; cbn. destruct (Nat.eq_dec u t) as [->|N].
    + rewrite upd_same. discriminate.
    + rewrite upd_other by assumption. apply G_w2. intros [->|]; tauto.
  - intros u v. rewrite Dn. unfold state_of; cbn. destruct (Nat.eq_dec u t) as [->|N].
    + rewrite upd_same. cbn. intros _ He. apply (C He).
    + rewrite upd_other by assumption. apply G_w3.
Qed.
Lemma lg_schedule_left X s t :
  done s t = false ->
  (forall u, k_wait (s_task s t) = WTask u -> done s u = true) ->
  LG (t :: X) s -> LG X (schedule_left s t).
Proof.
  intros Dt C [].
  assert (Dn : forall u, done (schedule_left s t) u = done s u).
  { intro u. unfold done, state_of; cbn. updc; [|reflexivity]. symmetry. exact Dt. }
  assert (O : forall u, k_outcome (s_task (schedule_left s t) u) = k_outcome (s_task s u)).
  { intro u. cbn. updc; reflexivity. }
  constructor.
  - cbn. split; [auto|assumption].
  - intros u. rewrite Dn. intros D E. apply ended_cons in E. destruct E as [(x & v & E)|E]; [discriminate|].
    exact (G_act u D E).
  - intros u D. rewrite O. rewrite Dn in D. destruct (G_rec u D) as (o & E & H). exists o.
    split; [exact E|]. right. unfold state_of; cbn. rewrite upd_other; [exact H|]. intros ->. congruence.
  - cbn. rewrite G_fifo. reflexivity.
  - cbn. intros u tr h [H|H]; [discriminate|]. specialize (G_blk u tr h H). lia.
  - cbn. intros tr h u H. right. auto.
  - intros u v o [H|H]; [discriminate|]. rewrite O. eauto.
  - cbn. assumption.
  - intros u. unfold state_of; cbn. destruct (Nat.eq_dec u t) as [->|N].
    + rewrite upd_same. discriminate.
    + rewrite upd_other by assumption. apply G_w1.
  - intros u v H. unfold state_of; cbn. destruct (Nat.eq_dec u t) as [->|N].
    + rewrite upd_same. discriminate.
    + rewrite upd_other by assumption. apply G_w2. intros [->|]; tauto.
  - intros u v. rewrite Dn. unfold state_of; cbn. destruct (Nat.eq_dec u t) as [->|N].
    + rewrite upd_same. cbn. intros _ _. apply C.
    + rewrite upd_other by assumption. apply G_w3.
Qed.

Lemma lg_fold (l : list (nat * tid)) X s :
  NoDup (map snd l) ->
  (forall t, In t (map snd l) -> done s t = false) ->
  (forall t u, In t (map snd l) -> k_wait (s_task s t) = WTask u -> done s u = true) ->
  LG (map snd l ++ X) s ->
  LG X (fold_left (fun s '(h, t) => schedule_resume s t None) l s).
Proof.
  revert s. induction l as [|[h t] l IH]; intros s N D W G; cbn in *; [assumption|].
  inversion N as [|? ? Nt N']; subst. apply IH; [assumption| | |].
  - intros u Hu. unfold done, state_of; cbn. updc; [reflexivity|]. apply D. now right.
  - intros u v Hu. cbn. rewrite upd_other by (intros ->; contradiction). intro E.
    assert (Dv : done s v = true) by (eapply W; [right; exact Hu|exact E]).
    unfold done, state_of in *; cbn. rewrite upd_other; [exact Dv|]. intros ->.
    specialize (D t (or_introl eq_refl)). congruence.
  - apply lg_schedule; [apply D; now left| |exact G].
    intros _ u E. eapply W; [now left|exact E].
Qed.

Definition completes (s : st) (tr : trig) : Prop :=
  match tr with TComplete u | TJoin u => done s u = true | _ => True end.

Lemma lg_cbs_sub X s tr c :
  (forall x, In x c -> In x (s_cbs s tr)) -> LG X s -> LG X (set_cbs s tr c).
Proof.
  intros H []. constructor; try assumption.
  intros tr' h t. cbn. unfold updt. destruct (trig_eqb_spec tr' tr) as [->|N]; auto.
Qed.

Lemma lg_react X s tr : completes s tr -> Loc X s -> LG X s -> LG X (react s tr).
Proof.
  intros C L G. unfold react. apply lg_fold.
  - eapply loc_batch_nodup; exact L.
  - intros t H. apply in_map_iff in H. destruct H as ([h u] & E & I). cbn in E; subst.
    unfold done, state_of; cbn. destruct (L_cpend _ _ L _ _ _ I) as (_ & E & _).
    unfold state_of in E. now rewrite E.
  - intros t u H E. apply in_map_iff in H. destruct H as ([h t'] & Et & I). cbn in Et; subst t'.
    cbn in E. destruct (L_cpend _ _ L _ _ _ I) as (Nx & Es & Ec).
    change (done s u = true).
    destruct (G_w2 _ _ G t u Nx Es E) as (h' & [E'|E']); rewrite Ec in E'; inversion E'; subst; exact C.
  - apply lg_log; [exact I|]. apply lg_cbs_sub; [intros x []|].
    eapply lg_grow; [|exact G]. intros t. rewrite in_app_iff. auto.
Qed.

Lemma lg_cancel_slot X s h : LG X s -> LG X (cancel_slot s h).
Proof.
  intros []. constructor; try assumption. cbn. rewrite G_fifo. f_equal.
  rewrite map_map. apply map_ext. intro q. now destruct (Nat.eqb _ _).
Qed.

Lemma lg_set_lock_same X s l p :
  LG X s -> LG X (set_lock s l (Lock (l_current (s_lock s l)) p)).
Proof.
  intros []. constructor; try assumption. intro k. rewrite G_hold. cbn. updc; reflexivity.
Qed.
Lemma lg_hold X s l n p :
  l_current (s_lock s l) = None ->
  LG X s -> LG X (log (set_lock s l (Lock (Some n) p)) (OHold l n)).
Proof.
  intros F []. constructor; try assumption; cbn.
  - split; [rewrite G_hold; exact F|assumption].
  - intros t D E. apply ended_cons in E. destruct E as [(x & v & E)|E]; [discriminate|].
    exact (G_act t D E).
  - intros t D. destruct (G_rec t D) as (v & E & H). exists v. auto.
  - intros t tr h [H|H]; [discriminate|eauto].
  - intros tr h t H. right. auto.
  - intros t u o [H|H]; [discriminate|eauto].
  - intro k. rewrite (Nat.eqb_sym l k). unfold upd. destruct (Nat.eqb k l); [reflexivity|apply G_hold].
Qed.
Lemma lg_free X s l p :
  l_current (s_lock s l) <> None ->
  LG X s -> LG X (log (set_lock s l (Lock None p)) (OFree l)).
Proof.
  intros F []. constructor; try assumption; cbn.
  - split; [rewrite G_hold; exact F|assumption].
  - intros t D E. apply ended_cons in E. destruct E as [(x & v & E)|E]; [discriminate|].
    exact (G_act t D E).
  - intros t D. destruct (G_rec t D) as (v & E & H). exists v. auto.
  - intros t tr h [H|H]; [discriminate|eauto].
  - intros tr h t H. right. auto.
  - intros t u o [H|H]; [discriminate|eauto].
  - intro k. rewrite (Nat.eqb_sym l k). unfold upd. destruct (Nat.eqb k l); [reflexivity|apply G_hold].
Qed.

Lemma lg_pop X s q rest :
  s_queue s = q :: rest -> (q_cancelled q = false -> done s (q_task q) = false) -> LG X s ->
  LG X (log (set_queue s rest) (OPop (q_id q) (q_task q) (negb (q_cancelled q)))).
Proof.
  intros E D []. constructor; try assumption; cbn.
  - split; [|assumption]. destruct (q_cancelled q); cbn; auto.
  - intros t Dt H. apply ended_cons in H. destruct H as [(x & v & H)|H]; [discriminate|].
    exact (G_act t Dt H).
  - intros t Dt. destruct (G_rec t Dt) as (v & E' & H). exists v. auto.
  - rewrite G_fifo, E. cbn. now rewrite !Nat.eqb_refl.
  - intros t tr h [H|H]; [discriminate|eauto].
  - intros tr h t H. right. auto.
  - intros t u o [H|H]; [discriminate|eauto].
Qed.

(** [_resume]: the Task in transit becomes RUNNING and this is recorded. *)
Lemma lg_log_resume X s t e : done s t = false -> LG X s -> LG X (log s (OResume t e)).
Proof.
  intros D []. constructor; try assumption; cbn.
  - split; auto.
  - intros u Dt H. apply ended_cons in H. destruct H as [(x & v & H)|H]; [discriminate|].
    exact (G_act u Dt H).
  - intros u Dt. destruct (G_rec u Dt) as (v & E' & H). exists v. auto.
  - intros u tr h [H|H]; [discriminate|eauto].
  - intros tr h u H. right. auto.
  - intros u v o [H|H]; [discriminate|eauto].
Qed.
Lemma lg_log_got X s t u :
  done s t = false -> done s u = true -> LG X s -> LG X (log s (OGot t u (result_of s u))).
Proof.
  intros D Du []. unfold result_of. rewrite Du. constructor; try assumption; cbn.
  - split; auto.
  - intros v Dt H. apply ended_cons in H. destruct H as [(x & y & H)|H]; [discriminate|].
    exact (G_act v Dt H).
  - intros v Dt. destruct (G_rec v Dt) as (y & E' & H). exists y. auto.
  - intros v tr h [H|H]; [discriminate|eauto].
  - intros tr h v H. right. auto.
  - intros v w o [H|H]; [|eauto]. inversion H; subst.
    destruct (G_rec w Du) as (y & E' & _). eauto.
Qed.

(** Completion. *)
Lemma lg_outcome X s t x o k :
  done s t = false -> k_outcome (s_task s t) = None -> is_done x = true ->
  LG (t :: X) s -> LG X (set_outcome s t x o k).
Proof.
  intros Dt On Dx [].
  assert (N : forall u, done s u = true -> u <> t) by (intros u H ->; congruence).
  constructor; cbn.
  - split; auto.
  - intros u Du H. apply ended_cons in H. destruct H as [(y & v & H)|H].
    + inversion H; subst. unfold done, state_of in Du; cbn in Du. rewrite upd_same in Du. cbn in Du. congruence.
    + apply (G_act u); [|exact H]. destruct (Nat.eq_dec u t) as [->|M]; [exact Dt|].
      unfold done, state_of in *; cbn in Du. now rewrite upd_other in Du.
  - intros u Du. unfold state_of; cbn. destruct (Nat.eq_dec u t) as [->|M].
    + rewrite upd_same. cbn. eauto.
    + rewrite upd_other by assumption. unfold done, state_of in Du; cbn in Du.
      rewrite upd_other in Du by assumption. destruct (G_rec u Du) as (v & E & H). eauto.
  - assumption.
  - intros u tr h [H|H]; [discriminate|eauto].
  - intros tr h u H. right. auto.
  - intros u v y [H|H]; [discriminate|]. destruct (G_got u v y H) as (z & -> & E). exists z.
    split; [reflexivity|]. rewrite upd_other; [exact E|]. intros ->. congruence.
  - assumption.
  - intros u. unfold state_of; cbn. destruct (Nat.eq_dec u t) as [->|M].
    + rewrite upd_same. cbn. intros ->. discriminate.
    + rewrite upd_other by assumption. apply G_w1.
  - intros u v H. unfold state_of; cbn. destruct (Nat.eq_dec u t) as [->|M].
    + rewrite upd_same. cbn. intros ->. discriminate.
    + rewrite upd_other by assumption. apply G_w2. intros [->|]; tauto.
  - intros u v. unfold state_of; cbn. destruct (Nat.eq_dec u t) as [->|M].
    + rewrite upd_same. cbn. intros ->. discriminate.
    + rewrite upd_other by assumption. intros A B C. pose proof (G_w3 u v A B C) as Dv.
      unfold done, state_of; cbn. rewrite upd_other; [exact Dv|]. auto.
Qed.

(** Blocking on a trigger. *)
Lemma lg_add X s tr t :
  state_of s t = Pending ->
  (forall u, k_wait (s_task s t) = WTask u -> tr = TComplete u \/ tr = TJoin u) ->
  LG (t :: X) s ->
  let h := s_next s in
  let s1 := set_task (set_next s (S h)) t (with_tcb (s_task s t) tr h) in
  LG X (log (set_cbs s1 tr (s_cbs s tr ++ [(h, t)])) (OBlock t tr h)).
Proof.
  intros P W [] h s1.
  assert (Dt : done s t = false) by (unfold done; now rewrite P).
  assert (S : forall u, state_of (log (set_cbs s1 tr (s_cbs s tr ++ [(h, t)])) (OBlock t tr h)) u = state_of s u).
  { intro u. unfold state_of; cbn. updc; auto. }
  assert (O : forall u, k_outcome (upd (s_task s) t (with_tcb (s_task s t) tr h) u) = k_outcome (s_task s u)).
  { intro u. updc; auto. }
  assert (K : forall u, k_wait (upd (s_task s) t (with_tcb (s_task s t) tr h) u) = k_wait (s_task s u)).
  { intro u. updc; auto. }
  assert (Ex : forall u, k_exc (upd (s_task s) t (with_tcb (s_task s t) tr h) u) = k_exc (s_task s u)).
  { intro u. updc; auto. }
  constructor; unfold done in *; cbn [s_log s_task set_task s_queue s_next s_cbs s_lock set_cbs log set_next s1].
  - split; [|assumption]. split; [auto|]. intros u tr' j H. exact (G_blk u tr' j H).
  - intros u Du H. rewrite S in Du. apply ended_cons in H. destruct H as [(y & v & H)|H]; [discriminate|].
    exact (G_act u Du H).
  - intros u Du. rewrite S in Du. rewrite S, O. destruct (G_rec u Du) as (v & E & H). exists v.
    split; [exact E|right; exact H].
  - assumption.
  - intros u tr' j [H|H]; [inversion H; subst; lia|]. specialize (G_blk u tr' j H). fold h in G_blk. lia.
  - intros tr' j u. unfold updt. destruct (trig_eqb_spec tr' tr) as [->|N].
    + rewrite in_app_iff. intros [H|[H|[]]]; [right; auto|]. inversion H; subst. now left.
    + intro H. right. auto.
  - intros u v y [H|H]; [discriminate|]. rewrite O. eauto.
  - assumption.
  - intros u. rewrite S, K. apply G_w1.
  - intros u v H. rewrite S, K. intros A B. destruct (Nat.eq_dec u t) as [->|M].
    + rewrite upd_same. cbn. exists h. destruct (W v B) as [->| ->]; auto.
    + rewrite upd_other by assumption. apply (G_w2 u v); auto. intros [->|]; tauto.
  - intros u v. rewrite !S, K, Ex. apply G_w3.
Qed.

(** Registering again on the same trigger, from the handle kept (no change to the history). *)
Lemma lg_lock_update X s s' :
  s_task s' = s_task s -> s_cbs s' = s_cbs s -> s_queue s' = s_queue s -> s_next s' = s_next s ->
  s_log s' = s_log s -> (forall k, l_current (s_lock s' k) = l_current (s_lock s k)) ->
  LG X s -> LG X s'.
Proof.
  intros E1 E2 E3 E4 E5 E6 []. constructor; unfold done, state_of in *;
    rewrite ?E1, ?E2, ?E3, ?E4, ?E5; try assumption;
    intros; rewrite ?E1, ?E2, ?E6 in *; eauto.
Qed.

(** Invariants of the scheduler kernel. *)
From Verif Require Import Base KernelModel.
From Coq Require Import Arith Sorted.

Lemma trig_eqb_eq a b : trig_eqb a b = true <-> a = b.
Proof.
  destruct a, b; cbn; try (split; discriminate);
    try (rewrite Nat.eqb_eq; split; congruence).
  rewrite andb_true_iff, !Nat.eqb_eq. split; [intros [-> ->]; reflexivity|].
  intro H; inversion H; auto.
Qed.
Lemma trig_eqb_refl a : trig_eqb a a = true.
Proof. apply trig_eqb_eq. reflexivity. Qed.
Lemma trig_eqb_spec a b : reflect (a = b) (trig_eqb a b).
Proof. apply iff_reflect. symmetry. apply trig_eqb_eq. Qed.

Lemma upd_same {A} (f : nat -> A) k v : upd f k v k = v.
Proof. unfold upd. now rewrite Nat.eqb_refl. Qed.
Lemma upd_other {A} (f : nat -> A) k v x : x <> k -> upd f k v x = f x.
Proof. unfold upd. intro H. apply Nat.eqb_neq in H. now rewrite H. Qed.
Lemma updt_same {A} (f : trig -> A) k v : updt f k v k = v.
Proof. unfold updt. now rewrite trig_eqb_refl. Qed.
Lemma updt_other {A} (f : trig -> A) k v x : x <> k -> updt f k v x = f x.
Proof. unfold updt. intro H. destruct (trig_eqb_spec x k); congruence. Qed.

Ltac updc :=
  unfold upd, updt in *;
  repeat match goal with
  | |- context [Nat.eqb ?a ?b] => destruct (Nat.eqb_spec a b); subst
  | H : context [Nat.eqb ?a ?b] |- _ => destruct (Nat.eqb_spec a b); subst
  | |- context [trig_eqb ?a ?b] => destruct (trig_eqb_spec a b); subst
  | H : context [trig_eqb ?a ?b] |- _ => destruct (trig_eqb_spec a b); subst
  end.

(** The Tasks whose coroutine is on the call stack, and those in [_set_outcome]. *)
Definition runners (c : list frame) : list tid :=
  flat_map (fun f => match f with FRun t | FClose t => [t] | FDone _ _ _ => [] end) c.
Definition finishers (c : list frame) : list tid :=
  flat_map (fun f => match f with FDone t _ _ => [t] | _ => [] end) c.

(** Where every Task is; the Tasks of [X] are in transit: nowhere. *)
Record Loc (X : list tid) (s : st) : Prop := {
  L_qid : NoDup (map q_id (s_queue s));
  L_qlt : forall q, In q (s_queue s) -> q_id q < s_next s;
  L_qlive : forall h t, In (QEnt h t false) (s_queue s) ->
    ~ In t X /\ state_of s t = Scheduled /\ k_scb (s_task s t) = Some h;
  L_sched : forall t, ~ In t X -> state_of s t = Scheduled ->
    exists h, In (QEnt h t false) (s_queue s);
  L_csort : forall tr, StronglySorted lt (map fst (s_cbs s tr));
  L_clt : forall tr h t, In (h, t) (s_cbs s tr) -> h < s_next s;
  L_cpend : forall tr h t, In (h, t) (s_cbs s tr) ->
    ~ In t X /\ state_of s t = Pending /\ k_tcb (s_task s t) = Some (tr, h);
  L_pend : forall t, ~ In t X -> state_of s t = Pending ->
    exists tr h, In (h, t) (s_cbs s tr);
  L_run : forall t, In t (runners (s_ctl s)) -> ~ In t X /\ state_of s t = Running;
  L_runs : forall t, ~ In t X -> state_of s t = Running -> In t (runners (s_ctl s));
  L_rund : NoDup (runners (s_ctl s)) }.

(** The triggers agree with the objects they belong to. *)
Record Obj (s : st) : Prop := {
  O_event : forall e, s_event s e = true -> s_cbs s (TEvent e) = [];
  O_ievent : forall i, i_fired (s_ievent s i) = true -> s_cbs s (TInternal i) = [];
  O_null : forall n, s_cbs s (TNull n) = [];
  O_comp : forall t, done s t = true -> ~ In t (finishers (s_ctl s)) ->
    s_cbs s (TComplete t) = [] /\ s_cbs s (TJoin t) = [];
  O_lock0 : forall l, l_current (s_lock s l) = None -> l_pending (s_lock s l) = [];
  O_lock1 : forall l, NoDup (l_pending (s_lock s l));
  O_lock2 : forall l n, l_current (s_lock s l) = Some n -> ~ In n (l_pending (s_lock s l));
  O_lock3 : forall l n, In n (l_pending (s_lock s l)) <-> s_cbs s (TLock l n) <> [];
  O_lock4 : forall l n, length (s_cbs s (TLock l n)) <= 1;
  O_gpi1 : forall g, s_cbs s (TGpi g) <> [] ->
    g_hdl (s_gpi s g) = true /\ g_armed (s_gpi s g) = true;
  O_gpi2 : forall g, g_armed (s_gpi s g) = true -> s_cbs s (TGpi g) <> [] }.

(** Completion. *)
Definition fits (x : tstate) (o : outcome) : Prop :=
  match x, o with
  | Finished, OVal _ => True
  | Errored, OExc (ECancelled _) => False
  | Errored, OExc _ => True
  | Cancelled, OExc (ECancelled _) => True
  | _, _ => False
  end.
Record Dn (s : st) : Prop := {
  D_out : forall t, done s t = true -> exists o, k_outcome (s_task s t) = Some o /\ fits (state_of s t) o;
  D_none : forall t, done s t = false -> k_outcome (s_task s t) = None;
  D_fin : forall t, In t (finishers (s_ctl s)) -> done s t = true;
  D_find : NoDup (finishers (s_ctl s)) }.

Lemma fits_done x o : fits x o -> is_done x = true.
Proof. destruct x; cbn; tauto. Qed.

(** * Effects on the single fields *)
Lemma fold_sched_fields (l : list (nat * tid)) s :
  let s' := fold_left (fun s '(h, t) => schedule_resume s t None) l s in
  s_cbs s' = s_cbs s /\ s_event s' = s_event s /\ s_ievent s' = s_ievent s /\
  s_lock s' = s_lock s /\ s_gpi s' = s_gpi s /\ s_ctl s' = s_ctl s /\
  s_current s' = s_current s /\ s_halt s' = s_halt s.
Proof.
  revert s. induction l as [|[h t] l IH]; intro s; cbn.
  - repeat split.
  - specialize (IH (schedule_resume s t None)). cbn in IH. exact IH.
Qed.
Lemma fold_sched_task (l : list (nat * tid)) s t :
  let s' := fold_left (fun s '(h, t) => schedule_resume s t None) l s in
  (~ In t (map snd l) /\ s_task s' t = s_task s t) \/
  (In t (map snd l) /\ exists h, s_task s' t = with_sched (s_task s t) h None).
Proof.
  revert s. induction l as [|[h u] l IH]; intro s; cbn.
  - left. tauto.
  - specialize (IH (schedule_resume s u None)). cbn in IH.
    destruct IH as [[H E]|[H [h' E]]]; rewrite E; clear E;
      unfold upd; destruct (Nat.eqb_spec t u); subst.
    + right. split; [tauto|]. eexists; reflexivity.
    + left. split; [intros [|]; congruence|reflexivity].
    + right. split; [tauto|]. eexists; reflexivity.
    + right. split; [tauto|]. eexists; reflexivity.
Qed.

Lemma react_cbs s tr : s_cbs (react s tr) = updt (s_cbs s) tr [].
Proof. unfold react. match goal with |- s_cbs (fold_left _ ?l ?x) = _ => destruct (fold_sched_fields l x) as [H _] end. exact H. Qed.
Lemma react_event s tr : s_event (react s tr) = s_event s.
Proof. unfold react. match goal with |- s_event (fold_left _ ?l ?x) = _ => destruct (fold_sched_fields l x) as [_ [H _]] end. exact H. Qed.
Lemma react_ievent s tr : s_ievent (react s tr) = s_ievent s.
Proof. unfold react. match goal with |- s_ievent (fold_left _ ?l ?x) = _ => destruct (fold_sched_fields l x) as [_ [_ [H _]]] end. exact H. Qed.
Lemma react_lock s tr : s_lock (react s tr) = s_lock s.
Proof. unfold react. match goal with |- s_lock (fold_left _ ?l ?x) = _ => destruct (fold_sched_fields l x) as [_ [_ [_ [H _]]]] end. exact H. Qed.
Lemma react_gpi s tr : s_gpi (react s tr) = s_gpi s.
Proof. unfold react. match goal with |- s_gpi (fold_left _ ?l ?x) = _ => destruct (fold_sched_fields l x) as [_ [_ [_ [_ [H _]]]]] end. exact H. Qed.
Lemma react_ctl s tr : s_ctl (react s tr) = s_ctl s.
Proof. unfold react. match goal with |- s_ctl (fold_left _ ?l ?x) = _ => destruct (fold_sched_fields l x) as [_ [_ [_ [_ [_ [H _]]]]]] end. exact H. Qed.
Lemma react_current s tr : s_current (react s tr) = s_current s.
Proof. unfold react. match goal with |- s_current (fold_left _ ?l ?x) = _ => destruct (fold_sched_fields l x) as [_ [_ [_ [_ [_ [_ [H _]]]]]]] end. exact H. Qed.
Lemma react_halt s tr : s_halt (react s tr) = s_halt s.
Proof. unfold react. match goal with |- s_halt (fold_left _ ?l ?x) = _ => destruct (fold_sched_fields l x) as [_ [_ [_ [_ [_ [_ [_ H]]]]]]] end. exact H. Qed.
Lemma react_task s tr t :
  (~ In t (map snd (s_cbs s tr)) /\ s_task (react s tr) t = s_task s t) \/
  (In t (map snd (s_cbs s tr)) /\ exists h, s_task (react s tr) t = with_sched (s_task s t) h None).
Proof.
  unfold react. match goal with |- context [fold_left _ ?l ?x] => exact (fold_sched_task l x t) end.
Qed.

#[export] Hint Rewrite react_cbs react_event react_ievent react_lock react_gpi react_ctl react_current
  react_halt : kern.

(** * Location *)
Lemma loc_set_task X s t k : In t X -> Loc X s -> Loc X (set_task s t k).
Proof.
  intros HX L. destruct L. constructor; cbn; try assumption.
  - intros h u H. destruct (L_qlive0 h u H) as (A & B & C). unfold state_of; cbn. updc; tauto.
  - intros u Hu. unfold state_of; cbn. updc; [tauto|]. apply L_sched0; assumption.
  - intros tr h u H. destruct (L_cpend0 tr h u H) as (A & B & C). unfold state_of; cbn. updc; tauto.
  - intros u Hu. unfold state_of; cbn. updc; [tauto|]. apply L_pend0; assumption.
  - intros u H. destruct (L_run0 u H). unfold state_of; cbn. updc; tauto.
  - intros u Hu. unfold state_of; cbn. updc; [tauto|]. apply L_runs0; assumption.
Qed.

(** Changing the attributes which do not matter for the location. *)
Lemma loc_set_task_same X s t k :
  k_state k = k_state (s_task s t) -> k_scb k = k_scb (s_task s t) ->
  k_tcb k = k_tcb (s_task s t) -> Loc X s -> Loc X (set_task s t k).
Proof.
  intros E1 E2 E3 L. destruct L.
  assert (S : forall u, state_of (set_task s t k) u = state_of s u).
  { intro u. unfold state_of; cbn. updc; auto. }
  constructor; cbn; try assumption; try (intros u; rewrite S; auto).
  - intros h u H. destruct (L_qlive0 h u H) as (A & B & C). rewrite S. updc; auto.
    rewrite E2. auto.
  - intros tr h u H. destruct (L_cpend0 tr h u H) as (A & B & C). rewrite S. updc; auto.
    rewrite E3. auto.
Qed.

Lemma loc_ext X Y s : (forall t, In t X <-> In t Y) -> Loc X s -> Loc Y s.
Proof.
  intros E L. destruct L. constructor; try assumption.
  - intros h t H. rewrite <- E. auto.
  - intros t. rewrite <- E. auto.
  - intros tr h t H. rewrite <- E. eauto.
  - intros t. rewrite <- E. auto.
  - intros t H. rewrite <- E. auto.
  - intros t. rewrite <- E. auto.
Qed.

(** Fields which do not matter. *)
Lemma loc_same X s s' :
  s_task s' = s_task s -> s_cbs s' = s_cbs s -> s_queue s' = s_queue s -> s_next s' = s_next s ->
  s_ctl s' = s_ctl s -> Loc X s -> Loc X s'.
Proof.
  intros E1 E2 E3 E4 E5 [].
  constructor; unfold state_of in *; rewrite ?E1, ?E2, ?E3, ?E4, ?E5; try assumption;
    intros; rewrite ?E2 in *; eauto.
Qed.

Lemma loc_next X s n : s_next s <= n -> Loc X s -> Loc X (set_next s n).
Proof.
  intros H []. constructor; cbn; try assumption.
  - intros q Hq. specialize (L_qlt0 q Hq). lia.
  - intros tr h t Hc. specialize (L_clt0 tr h t Hc). lia.
Qed.

Lemma nodup_snoc (l : list nat) n : NoDup l -> (forall x, In x l -> x < n) -> NoDup (l ++ [n]).
Proof.
  intros H B.
  induction l as [|x l IH]; cbn.
  - constructor; [tauto|constructor].
  - inversion H; subst. constructor.
    + rewrite in_app_iff. cbn. intros [|[E|[]]]; [tauto|]. specialize (B x (or_introl eq_refl)). lia.
    + apply IH; [assumption|]. intros y Hy. apply B. now right.
Qed.

Lemma loc_schedule X s t e :
  ~ In t X -> Loc (t :: X) s -> Loc X (schedule_resume s t e).
Proof.
  intros HX L. destruct L. unfold schedule_resume.
  constructor; cbn; unfold state_of; cbn.
  - rewrite map_app. cbn. apply nodup_snoc; [assumption|].
    intros x Hx. apply in_map_iff in Hx. destruct Hx as (q & <- & Hq). auto.
  - intros q Hq. apply in_app_iff in Hq. cbn in Hq. destruct Hq as [Hq|[<-|[]]]; cbn; [|lia].
    specialize (L_qlt0 q Hq). lia.
  - intros h u H. apply in_app_iff in H. cbn in H. destruct H as [H|[H|[]]].
    + destruct (L_qlive0 h u H) as (A & B & C). cbn in A. updc; [tauto|]. unfold state_of in B. tauto.
    + inversion H; subst. rewrite !upd_same. cbn. tauto.
  - intros u Hu. updc.
    + intros _. exists (s_next s). apply in_app_iff. right. left. reflexivity.
    + intro H. destruct (L_sched0 u) as [h Hh]; [cbn; intros [|]; congruence|assumption|].
      exists h. apply in_app_iff. now left.
  - assumption.
  - intros tr h u H. specialize (L_clt0 tr h u H). lia.
  - intros tr h u H. destruct (L_cpend0 tr h u H) as (A & B & C). cbn in A. updc; [tauto|].
    unfold state_of in B. tauto.
  - intros u Hu. updc; [discriminate|]. intro H. apply L_pend0; [cbn; intros [|]; congruence|assumption].
  - intros u H. destruct (L_run0 u H) as [A B]. cbn in A. updc; tauto.
  - intros u Hu. updc; [discriminate|]. intro H. apply L_runs0; [cbn; intros [|]; congruence|assumption].
  - assumption.
Qed.

Lemma loc_schedule_left X s t :
  ~ In t X -> Loc (t :: X) s -> Loc X (schedule_left s t).
Proof.
  intros HX L. destruct L. unfold schedule_left.
  constructor; cbn; unfold state_of; cbn.
  - constructor; [|assumption]. intro Hx. apply in_map_iff in Hx. destruct Hx as (q & E & Hq).
    specialize (L_qlt0 q Hq). lia.
  - intros q [<-|Hq]; cbn; [lia|].
    specialize (L_qlt0 q Hq). lia.
  - intros h u [H|H].
    + inversion H; subst. rewrite !upd_same. cbn. tauto.
    + destruct (L_qlive0 h u H) as (A & B & C). cbn in A. updc; [tauto|]. unfold state_of in B. tauto.
  - intros u Hu. updc.
    + intros _. exists (s_next s). left. reflexivity.
    + intro H. destruct (L_sched0 u) as [h Hh]; [cbn; intros [|]; congruence|assumption|].
      exists h. now right.
  - assumption.
  - intros tr h u H. specialize (L_clt0 tr h u H). lia.
  - intros tr h u H. destruct (L_cpend0 tr h u H) as (A & B & C). cbn in A. updc; [tauto|].
    unfold state_of in B. tauto.
  - intros u Hu. updc; [discriminate|]. intro H. apply L_pend0; [cbn; intros [|]; congruence|assumption].
  - intros u H. destruct (L_run0 u H) as [A B]. cbn in A. updc; tauto.
  - intros u Hu. updc; [discriminate|]. intro H. apply L_runs0; [cbn; intros [|]; congruence|assumption].
  - assumption.
Qed.

Lemma loc_fold (l : list (nat * tid)) X s :
  NoDup (map snd l) -> (forall t, In t (map snd l) -> ~ In t X) ->
  Loc (map snd l ++ X) s ->
  Loc X (fold_left (fun s '(h, t) => schedule_resume s t None) l s).
Proof.
  revert s. induction l as [|[h t] l IH]; intros s N D L; cbn in *; [assumption|].
  inversion N; subst. apply IH; [assumption| |].
  - intros u Hu. apply D. now right.
  - apply loc_schedule; [|assumption]. rewrite in_app_iff. intros [|H]; [tauto|].
    apply (D t); [now left|assumption].
Qed.

(** The waiters of a trigger are distinct Tasks. *)
Lemma loc_batch_nodup X s tr : Loc X s -> NoDup (map snd (s_cbs s tr)).
Proof.
  intro L. destruct L.
  assert (H : forall l, (forall h t, In (h, t) l -> In (h, t) (s_cbs s tr)) ->
                        StronglySorted lt (map fst l) -> NoDup (map snd l)).
  { induction l as [|[h t] l IH]; cbn; intros S N; [constructor|].
    apply StronglySorted_inv in N. destruct N as [N F]. constructor.
    - intro H. apply in_map_iff in H. destruct H as ([h' t'] & E & H). cbn in E; subst t'.
      destruct (L_cpend0 tr h t (S _ _ (or_introl eq_refl))) as (_ & _ & E1).
      destruct (L_cpend0 tr h' t (S _ _ (or_intror H))) as (_ & _ & E2).
      rewrite E1 in E2. inversion E2; subst.
      rewrite Forall_forall in F. specialize (F h' (in_map fst _ _ H)). lia.
    - apply IH; [|assumption]. intros h' t' H. apply S. now right. }
  apply H; auto.
Qed.

Lemma loc_clear X s tr : Loc X s -> Loc (map snd (s_cbs s tr) ++ X) (set_cbs s tr []).
Proof.
  intro L. pose proof L as L'. destruct L.
  constructor; cbn; try assumption; unfold state_of; cbn.
  - intros h t H. destruct (L_qlive0 h t H) as (A & B & C). split; [|auto].
    rewrite in_app_iff. intros [E|E]; [|tauto].
    apply in_map_iff in E. destruct E as ([h' t'] & E & I). cbn in E; subst.
    destruct (L_cpend0 tr h' t I) as (_ & P & _). congruence.
  - intros t Ht. rewrite in_app_iff in Ht. apply L_sched0. tauto.
  - intro x. updc; [constructor|]. apply L_csort0.
  - intros x h t. updc; [intros []|]. eauto.
  - intros x h t. updc; [intros []|]. intro H. destruct (L_cpend0 x h t H) as (A & B & C).
    split; [|auto]. rewrite in_app_iff. intros [E|E]; [|tauto].
    apply in_map_iff in E. destruct E as ([h' t'] & E & I). cbn in E; subst.
    destruct (L_cpend0 tr h' t I) as (_ & _ & C'). congruence.
  - intros t Ht P. rewrite in_app_iff in Ht.
    destruct (L_pend0 t) as (x & h & H); [tauto|assumption|].
    exists x, h. updc; [|assumption]. exfalso. apply Ht. left.
    apply in_map_iff. exists (h, t). auto.
  - intros t H. destruct (L_run0 t H) as [A B]. split; [|assumption].
    rewrite in_app_iff. intros [E|E]; [|tauto].
    apply in_map_iff in E. destruct E as ([h' t'] & E & I). cbn in E; subst.
    destruct (L_cpend0 tr h' t I) as (_ & P & _). congruence.
  - intros t Ht. rewrite in_app_iff in Ht. apply L_runs0. tauto.
Qed.

Lemma loc_react X s tr : Loc X s -> Loc X (react s tr).
Proof.
  intro L. unfold react. apply loc_fold.
  - eapply loc_batch_nodup; eassumption.
  - intros t Ht. apply in_map_iff in Ht. destruct Ht as ([h t'] & E & I). cbn in E; subst.
    apply (L_cpend _ _ L tr h t I).
  - eapply loc_same; [..|apply (loc_clear X s tr L)]; reflexivity.
Qed.

(** Taking one waiter out. *)
Lemma sorted_filter f (l : list (nat * tid)) :
  StronglySorted lt (map fst l) -> StronglySorted lt (map fst (filter f l)).
Proof.
  induction l as [|x l IH]; cbn; intro H; [assumption|].
  apply StronglySorted_inv in H. destruct H as [H F].
  destruct (f x); cbn; [|auto]. constructor; [auto|].
  rewrite Forall_forall in *. intros y Hy. apply F.
  apply in_map_iff in Hy. destruct Hy as (z & <- & Hz). apply filter_In in Hz.
  apply in_map. tauto.
Qed.

Lemma loc_remove X s tr h t :
  In (h, t) (s_cbs s tr) -> Loc X s ->
  Loc (t :: X) (set_cbs s tr (filter (fun c => negb (Nat.eqb (fst c) h)) (s_cbs s tr))).
Proof.
  intros HI L. destruct L.
  destruct (L_cpend0 tr h t HI) as (Ht & Pt & Ct).
  constructor; cbn; try assumption; unfold state_of; cbn.
  - intros h' u H. destruct (L_qlive0 h' u H) as (A & B & C). split; [|auto].
    intros [->|]; [congruence|tauto].
  - intros u Hu. apply L_sched0. tauto.
  - intro x. updc; [|auto]. apply sorted_filter, L_csort0.
  - intros x h' u. updc; [|eauto]. intro H. apply filter_In in H. destruct H. eauto.
  - intros x h' u H.
    assert (I : In (h', u) (s_cbs s x) /\ (x = tr -> h' <> h)).
    { updc; [|split; [assumption|congruence]].
      apply filter_In in H. destruct H as [H E]. cbn in E.
      split; [assumption|]. intros _ ->. rewrite Nat.eqb_refl in E. discriminate. }
    destruct I as [I E]. destruct (L_cpend0 x h' u I) as (A & B & C). split; [|auto].
    intros [->|]; [|tauto]. rewrite Ct in C. inversion C; subst. now apply E.
  - intros u Hu P. destruct (L_pend0 u) as (x & h' & I); [tauto|assumption|].
    exists x, h'. updc; [|assumption]. apply filter_In. split; [assumption|]. cbn.
    destruct (Nat.eqb_spec h' h) as [->|]; [|reflexivity].
    exfalso. destruct (L_cpend0 tr h u I) as (_ & _ & C).
    (* same handle, two tasks: excluded by the order of handles *)
    clear - I HI L_csort0 Hu. specialize (L_csort0 tr). revert L_csort0 I HI.
    generalize (s_cbs s tr). induction l as [|[a b] l IH]; cbn; intros S I J; [tauto|].
    apply StronglySorted_inv in S. destruct S as [S F]. rewrite Forall_forall in F.
    destruct I as [I|I], J as [J|J].
    + inversion I; inversion J; subst. apply Hu. left. congruence.
    + inversion I; subst. specialize (F h (in_map fst _ _ J)). cbn in F. lia.
    + inversion J; subst. specialize (F h (in_map fst _ _ I)). cbn in F. lia.
    + auto.
  - intros u H. destruct (L_run0 u H) as [A B]. split; [|assumption]. intros [->|]; [congruence|tauto].
  - intros u Hu. apply L_runs0. tauto.
Qed.

(** Cancelling the slot of a scheduled Task. *)
Lemma loc_cancel_slot X s t h :
  In (QEnt h t false) (s_queue s) -> Loc X s -> Loc (t :: X) (cancel_slot s h).
Proof.
  intros HI L. destruct L. destruct (L_qlive0 h t HI) as (Ht & St & Ct).
  set (g := fun q => if Nat.eqb (q_id q) h then QEnt (q_id q) (q_task q) true else q).
  assert (Eid : map q_id (map g (s_queue s)) = map q_id (s_queue s)).
  { rewrite map_map. apply map_ext. intro q. unfold g. now destruct (Nat.eqb _ _). }
  unfold cancel_slot. fold g.
  constructor; cbn; try assumption; unfold state_of; cbn.
  - rewrite Eid. assumption.
  - intros q Hq. apply (in_map q_id) in Hq. rewrite Eid in Hq.
    apply in_map_iff in Hq. destruct Hq as (q' & <- & Hq'). auto.
  - intros h' u H. apply in_map_iff in H. destruct H as (q & E & Hq). unfold g in E.
    destruct (Nat.eqb_spec (q_id q) h); [discriminate|]. subst q. cbn in n.
    destruct (L_qlive0 h' u Hq) as (A & B & C). split; [|auto].
    intros [->|]; [|tauto]. congruence.
  - intros u Hu St'. destruct (L_sched0 u) as [h' Hh']; [tauto|assumption|].
    exists h'. apply in_map_iff. exists (QEnt h' u false). split; [|assumption].
    unfold g. cbn. destruct (Nat.eqb_spec h' h) as [->|]; [|reflexivity].
    exfalso. (* one entry per handle *)
    clear - HI Hh' L_qid0 Hu. revert L_qid0 HI Hh'. generalize (s_queue s).
    induction l as [|q l IH]; cbn; intros N I J; [tauto|]. inversion N; subst.
    destruct I as [I|I], J as [J|J].
    + subst. inversion J; subst. apply Hu. now left.
    + subst. cbn in *. apply (in_map q_id) in J. cbn in J. contradiction.
    + subst. cbn in *. apply (in_map q_id) in I. cbn in I. contradiction.
    + auto.
  - intros tr h' u H. destruct (L_cpend0 tr h' u H) as (A & B & C). split; [|auto].
    intros [->|]; [congruence|tauto].
  - intros u Hu. apply L_pend0. tauto.
  - intros u H. destruct (L_run0 u H) as [A B]. split; [|assumption]. intros [->|]; [congruence|tauto].
  - intros u Hu. apply L_runs0. tauto.
Qed.

(** Popping the queue. *)
Lemma loc_pop X s q rest :
  s_queue s = q :: rest -> Loc X s ->
  Loc (if q_cancelled q then X else q_task q :: X) (set_queue s rest).
Proof.
  intros E L. destruct L. rewrite E in *. cbn in *. inversion L_qid0; subst.
  destruct q as [h t c]. cbn in *.
  assert (G : forall Y, (c = true -> Y = X) -> (c = false -> Y = t :: X) -> Loc Y (set_queue s rest)).
  { intros Y E1 E2.
    assert (HY : forall u, In u X -> In u Y).
    { intros u Hu. destruct c; [rewrite E1 by reflexivity|rewrite E2 by reflexivity; right]; assumption. }
    assert (HYs : forall u, In u Y -> ~ In u X -> u = t /\ state_of s u = Scheduled).
    { intros u Hu Hn. destruct c; [rewrite E1 in Hu by reflexivity; tauto|].
      rewrite E2 in Hu by reflexivity. destruct Hu as [<-|]; [|tauto].
      split; [reflexivity|]. apply (L_qlive0 h t). now left. }
    constructor; cbn; try assumption; unfold state_of; cbn.
    - intros q Hq. apply L_qlt0. now right.
    - intros h' u H. destruct (L_qlive0 h' u (or_intror H)) as (A & B & C). split; [|auto].
      intro Hu. destruct (HYs u Hu A) as [-> _]. destruct c.
      + rewrite E1 in Hu by reflexivity. tauto.
      + destruct (L_qlive0 h t (or_introl eq_refl)) as (_ & _ & C').
        rewrite C in C'. inversion C'; subst. apply (in_map q_id) in H. cbn in H. contradiction.
    - intros u Hu S. destruct (L_sched0 u) as [h' Hh']; [auto|assumption|].
      destruct Hh' as [E0|Hh']; [|exists h'; assumption]. inversion E0; subst.
      exfalso. apply Hu. rewrite E2 by reflexivity. now left.
    - intros tr h' u H. destruct (L_cpend0 tr h' u H) as (A & B & C). split; [|auto].
      intro Hu. destruct (HYs u Hu A). congruence.
    - intros u Hu. apply L_pend0. auto.
    - intros u H. destruct (L_run0 u H) as [A B]. split; [|assumption].
      intro Hu. destruct (HYs u Hu A). congruence.
    - intros u Hu. apply L_runs0. auto. }
  apply G; intros ->; reflexivity.
Qed.

(** Leaving and entering a coroutine. *)
Lemma loc_leave X s t rest f :
  f = FRun t \/ f = FClose t ->
  s_ctl s = f :: rest -> Loc X s -> Loc (t :: X) (set_ctl s rest).
Proof.
  intros Ef E L. destruct L. rewrite E in *.
  assert (Er : runners (f :: rest) = t :: runners rest) by (destruct Ef; subst; reflexivity).
  rewrite Er in *. inversion L_rund0; subst.
  destruct (L_run0 t (or_introl eq_refl)) as [At Bt].
  constructor; cbn; try assumption; unfold state_of; cbn.
  - intros h u H. destruct (L_qlive0 h u H) as (A & B & C). split; [|auto].
    intros [->|]; [congruence|tauto].
  - intros u Hu. apply L_sched0. tauto.
  - intros tr h u H. destruct (L_cpend0 tr h u H) as (A & B & C). split; [|auto].
    intros [->|]; [congruence|tauto].
  - intros u Hu. apply L_pend0. tauto.
  - intros u H. destruct (L_run0 u (or_intror H)) as [A B]. split; [|assumption].
    intros [->|]; tauto.
  - intros u Hu R. destruct (L_runs0 u) as [->|]; [tauto|assumption| |assumption]. exfalso. apply Hu. now left.
Qed.
Lemma loc_enter X s t f :
  f = FRun t \/ f = FClose t ->
  ~ In t X -> state_of s t = Running -> Loc (t :: X) s -> Loc X (set_ctl s (f :: s_ctl s)).
Proof.
  intros Ef HX R L. destruct L.
  assert (Er : forall r, runners (f :: r) = t :: runners r) by (intro; destruct Ef; subst; reflexivity).
  constructor; cbn [s_ctl set_ctl]; try assumption; rewrite ?Er.
  - intros h u H. destruct (L_qlive0 h u H) as (A & B & C). cbn in A. tauto.
  - intros u Hu E. apply L_sched0; [|assumption]. intros [->|]; [|tauto].
    change (state_of s u = Scheduled) in E. congruence.
  - intros tr h u H. destruct (L_cpend0 tr h u H) as (A & B & C). cbn in A. tauto.
  - intros u Hu E. apply L_pend0; [|assumption]. intros [->|]; [|tauto].
    change (state_of s u = Pending) in E. congruence.
  - intros u [<-|H]; [tauto|]. destruct (L_run0 u H) as [A B]. cbn in A. tauto.
  - intros u Hu E. destruct (Nat.eq_dec u t) as [->|]; [now left|]. right.
    apply L_runs0; [|assumption]. cbn. intros [|]; congruence.
  - constructor; [|assumption]. intro H. destruct (L_run0 t H) as [A _]. apply A. now left.
Qed.

(** A Task at rest: unstarted or done. *)
Definition at_rest (x : tstate) : bool :=
  match x with Unstarted | Finished | Errored | Cancelled => true | _ => false end.
Lemma loc_rest X s t :
  ~ In t X -> at_rest (state_of s t) = true -> Loc X s -> Loc (t :: X) s.
Proof.
  intros HX R L. destruct L.
  constructor; try assumption.
  - intros h u H. destruct (L_qlive0 h u H) as (A & B & C). split; [|auto].
    intros [->|]; [rewrite B in R; discriminate|tauto].
  - intros u Hu. apply L_sched0. cbn in Hu. tauto.
  - intros tr h u H. destruct (L_cpend0 tr h u H) as (A & B & C). split; [|auto].
    intros [->|]; [rewrite B in R; discriminate|tauto].
  - intros u Hu. apply L_pend0. cbn in Hu. tauto.
  - intros u H. destruct (L_run0 u H) as [A B]. split; [|assumption].
    intros [->|]; [rewrite B in R; discriminate|tauto].
  - intros u Hu. apply L_runs0. cbn in Hu. tauto.
Qed.
Lemma loc_settle X s t :
  at_rest (state_of s t) = true -> Loc (t :: X) s -> Loc X s.
Proof.
  intros R L. destruct L.
  assert (G : forall u x, ~ In u X -> state_of s u = x -> at_rest x = false -> ~ In u (t :: X)).
  { intros u x Hu E F [->|]; [|tauto]. rewrite E in R. congruence. }
  constructor; try assumption.
  - intros h u H. destruct (L_qlive0 h u H) as (A & B & C). cbn in A. tauto.
  - intros u Hu E. apply L_sched0; [eapply G; eauto|assumption].
  - intros tr h u H. destruct (L_cpend0 tr h u H) as (A & B & C). cbn in A. tauto.
  - intros u Hu E. apply L_pend0; [eapply G; eauto|assumption].
  - intros u H. destruct (L_run0 u H) as [A B]. cbn in A. tauto.
  - intros u Hu E. apply L_runs0; [eapply G; eauto|assumption].
Qed.

(** Registering a Task in transit. *)
Lemma sorted_snoc l n :
  StronglySorted lt l -> (forall x, In x l -> x < n) -> StronglySorted lt (l ++ [n]).
Proof.
  induction l as [|x l IH]; cbn; intros S B.
  - constructor; constructor.
  - apply StronglySorted_inv in S. destruct S as [S F]. constructor.
    + apply IH; [assumption|]. intros y Hy. apply B. now right.
    + apply Forall_app. split; [assumption|]. constructor; [|constructor]. apply B. now left.
Qed.
Lemma loc_add X s tr t :
  ~ In t X -> state_of s t = Pending -> Loc (t :: X) s ->
  let h := s_next s in
  let s1 := set_task (set_next s (S h)) t (with_tcb (s_task s t) tr h) in
  Loc X (set_cbs s1 tr (s_cbs s tr ++ [(h, t)])).
Proof.
  intros HX P L h s1. destruct L.
  assert (St : forall u, state_of s1 u = state_of s u).
  { intro u. unfold s1, state_of; cbn. updc; reflexivity. }
  constructor; cbn [s_queue s_next s_cbs s_ctl s_task set_cbs set_task set_next s1]; try assumption;
    unfold state_of in St; cbn in St; unfold state_of; cbn.
  - intros q Hq. specialize (L_qlt0 q Hq). unfold h. lia.
  - intros h' u H. destruct (L_qlive0 h' u H) as (A & B & C). cbn in A.
    rewrite St. split; [tauto|]. split; [assumption|]. updc; [tauto|]. assumption.
  - intros u Hu E. rewrite St in E. apply L_sched0; [|assumption]. intros [->|]; [|tauto].
    unfold state_of in P. congruence.
  - intro x. updc; [|apply L_csort0]. rewrite map_app. cbn. apply sorted_snoc; [apply L_csort0|].
    intros y Hy. apply in_map_iff in Hy. destruct Hy as ([a b] & <- & I). cbn. eauto.
  - intros x h' u. updc.
    + intro H. apply in_app_iff in H. cbn in H. destruct H as [H|[H|[]]].
      * specialize (L_clt0 _ _ _ H). unfold h. lia.
      * inversion H; subst. unfold h. lia.
    + intro H. specialize (L_clt0 _ _ _ H). unfold h. lia.
  - intros x h' u H. rewrite St.
    assert (C : In (h', u) (s_cbs s x) \/ (x = tr /\ h' = h /\ u = t)).
    { updc; [|now left]. apply in_app_iff in H. cbn in H. destruct H as [H|[H|[]]]; [now left|].
      inversion H; subst. now right. }
    destruct C as [I|(-> & -> & ->)].
    + destruct (L_cpend0 x h' u I) as (A & B & C). cbn in A. split; [tauto|]. split; [assumption|].
      rewrite upd_other by (intros ->; tauto). assumption.
    + split; [assumption|]. split; [assumption|]. rewrite upd_same. reflexivity.
  - intros u Hu E. rewrite St in E. destruct (Nat.eq_dec u t) as [->|N].
    + exists tr, h. rewrite updt_same. apply in_app_iff. right. now left.
    + destruct (L_pend0 u) as (x & h' & I); [cbn; intros [|]; congruence|assumption|].
      exists x, h'. updc; [|assumption]. apply in_app_iff. now left.
  - intros u H. rewrite St. destruct (L_run0 u H) as [A B]. cbn in A. tauto.
  - intros u Hu E. rewrite St in E. apply L_runs0; [|assumption]. intros [->|]; [|tauto].
    unfold state_of in P. congruence.
Qed.

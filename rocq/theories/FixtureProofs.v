(** Proofs about asynchronous fixtures. *)
From Verif Require Import Base FixtureModel FixtureSpec.
From Coq Require Import PeanoNat Lia.

(** Induction over fixtures. *)
Lemma fixture_ind2 (P : fixture -> Prop) : (forall i a args, Forall P args -> P (Fix i a args)) -> forall f, P f.
Proof.
  intro H. fix IH 1. intros [i a args]. apply H. induction args as [|x l IHl]; constructor; [apply IH|exact IHl].
Qed.
Lemma upd_eq {A} (f : nat -> A) n a : upd f n a n = a.
Proof. unfold upd. now rewrite Nat.eqb_refl. Qed.
Lemma upd_neq {A} (f : nat -> A) n a k : k <> n -> upd f n a k = f k.
Proof. intro H. unfold upd. destruct (Nat.eqb_spec k n); [contradiction|reflexivity]. Qed.

(** The fixtures to be set up, in order, when those in [k] are there already. *)
Definition kn (k : id -> bool) (p : list fixture) : id -> bool := fun i => k i || existsb (fun f => Nat.eqb i (fid f)) p.
Fixpoint plan (f : fixture) (k : id -> bool) {struct f} : list fixture :=
  match f with
  | Fix i _ args =>
      if k i then [] else
      (fix go l k := match l with [] => [] | x :: l' => plan x k ++ go l' (kn k (plan x k)) end) args k ++ [f]
  end.
Fixpoint planl (l : list fixture) (k : id -> bool) : list fixture :=
  match l with [] => [] | x :: l' => plan x k ++ planl l' (kn k (plan x k)) end.
Lemma plan_eq i a args k : plan (Fix i a args) k = if k i then [] else planl args k ++ [Fix i a args].
Proof. cbn [plan]. destruct (k i); auto. Qed.
Lemma kn_app k a b i : kn (kn k a) b i = kn k (a ++ b) i.
Proof. unfold kn. rewrite existsb_app, orb_assoc. reflexivity. Qed.
Lemma kn_nil k i : kn k [] i = k i.
Proof. unfold kn. cbn. apply orb_false_r. Qed.
Lemma kn_one k f i : kn k [f] i = k i || Nat.eqb i (fid f).
Proof. unfold kn. cbn. now rewrite orb_false_r. Qed.
Lemma plan_ext f : forall k k', (forall i, k i = k' i) -> plan f k = plan f k'.
Proof.
  induction f as [i a args IH] using fixture_ind2. intros k k' E. rewrite !plan_eq, E. destruct (k' i); [reflexivity|]. f_equal.
  revert k k' E. induction IH as [|x l Hx _ IHl]; intros k k' E; [reflexivity|]. cbn [planl]. rewrite (Hx k k' E). f_equal. apply IHl.
  intro j. unfold kn. now rewrite E.
Qed.
Lemma planl_ext l : forall k k', (forall i, k i = k' i) -> planl l k = planl l k'.
Proof.
  induction l as [|x l IH]; intros k k' E; [reflexivity|]. cbn [planl]. rewrite (plan_ext x k k' E). f_equal. apply IH.
  intro j. unfold kn. now rewrite E.
Qed.
Lemma planl_app l1 : forall l2 k, planl (l1 ++ l2) k = planl l1 k ++ planl l2 (kn k (planl l1 k)).
Proof.
  induction l1 as [|x l IH]; intros l2 k; cbn [planl app]; [apply planl_ext; intro i; now rewrite kn_nil|].
  rewrite IH, <- app_assoc. f_equal. f_equal. apply planl_ext. intro i. apply kn_app.
Qed.

(** Everything needed is there when a fixture is set up. *)
Inductive planned : (id -> bool) -> list fixture -> Prop :=
| pl_nil k : planned k []
| pl_cons k f p : k (fid f) = false -> (forall a, In a (fargs f) -> k (fid a) = true) -> planned (kn k [f]) p -> planned k (f :: p).
Lemma planned_ext k p : planned k p -> forall k', (forall i, k i = k' i) -> planned k' p.
Proof.
  induction 1 as [k|k f p N A H IH]; intros k' E; [constructor|]. constructor; [now rewrite <- E|intros a I; rewrite <- E; auto|].
  apply IH. intro i. now rewrite !kn_one, E.
Qed.
Lemma planned_app k p1 : planned k p1 -> forall p2, planned (kn k p1) p2 -> planned k (p1 ++ p2).
Proof.
  induction 1 as [k|k f p N A H IH]; intros p2 K; cbn [app]; [eapply planned_ext; [exact K|intro; apply kn_nil]|].
  constructor; auto. apply IH. eapply planned_ext; [exact K|]. intro i. now rewrite kn_app.
Qed.
Lemma acyclic_eq i a args : acyclic (Fix i a args) <-> ~ In i (flat_map ids args) /\ Forall acyclic args.
Proof.
  cbn [acyclic]. apply and_iff_compat_l. induction args as [|x l IH]; [split; auto|]. rewrite IH. split; [intros [A B]; now constructor|].
  intro H. inversion H; auto.
Qed.
Lemma asynchronous_eq i a args : asynchronous (Fix i a args) <-> a = true /\ Forall asynchronous args.
Proof.
  cbn [asynchronous]. apply and_iff_compat_l. induction args as [|x l IH]; [split; auto|]. rewrite IH. split; [intros [A B]; now constructor|].
  intro H. inversion H; auto.
Qed.
Lemma plan_ids f : forall k g, In g (plan f k) -> In (fid g) (ids f).
Proof.
  induction f as [i a args IH] using fixture_ind2. intros k g H. rewrite plan_eq in H. destruct (k i); [destruct H|].
  apply in_app_or in H. destruct H as [H|[<-|[]]]; [|now left]. right. revert k H. induction IH as [|x l Hx _ IHl]; intros k H; [destruct H|].
  cbn [planl flat_map] in *. apply in_or_app. apply in_app_or in H. destruct H as [H|H]; [left; eauto|right; eauto].
Qed.
Lemma planl_ids l : forall k g, In g (planl l k) -> In (fid g) (flat_map ids l).
Proof.
  induction l as [|x l IH]; intros k g H; [destruct H|]. cbn [planl flat_map] in *. apply in_or_app. apply in_app_or in H.
  destruct H as [H|H]; [left; eapply plan_ids; eauto|right; eauto].
Qed.
Lemma plan_known f k : kn k (plan f k) (fid f) = true.
Proof.
  destruct f as [i a args]. rewrite plan_eq. unfold kn. destruct (k i) eqn:E; cbn [fid]; [now rewrite E|]. rewrite existsb_app. cbn [existsb fid].
  rewrite Nat.eqb_refl. cbn. now rewrite !orb_true_r.
Qed.
Lemma kn_mono k p i : k i = true -> kn k p i = true.
Proof. intro H. unfold kn. now rewrite H. Qed.
Lemma planl_known l : forall k f, In f l -> kn k (planl l k) (fid f) = true.
Proof.
  induction l as [|x l IH]; intros k f H; [destruct H|]. cbn [planl]. rewrite <- kn_app. destruct H as [-> |H]; [apply kn_mono, plan_known|auto].
Qed.
Lemma plan_planned f : acyclic f -> forall k, planned k (plan f k).
Proof.
  induction f as [i a args IH] using fixture_ind2. intros A k. apply acyclic_eq in A. destruct A as [N A]. rewrite plan_eq. destruct (k i) eqn:E; [constructor|].
  assert (P : planned k (planl args k)).
  { clear N E. revert k. induction IH as [|x l Hx _ IHl]; intro k; [constructor|]. inversion A; subst. cbn [planl]. apply planned_app; auto. }
  apply planned_app; [exact P|]. constructor; [|intros b I; now apply planl_known|constructor].
  cbn [fid]. unfold kn. rewrite E. cbn [orb]. destruct (existsb _ _) eqn:X; [|reflexivity]. apply existsb_exists in X. destruct X as (g & I & X).
  apply Nat.eqb_eq in X. subst i. destruct N. eapply planl_ids; eauto.
Qed.
Lemma planl_planned l : Forall acyclic l -> forall k, planned k (planl l k).
Proof. induction 1 as [|x l Hx _ IH]; intro k; cbn [planl]; [constructor|]. apply planned_app; [now apply plan_planned|apply IH]. Qed.
Lemma planned_fresh k p : planned k p -> NoDup (map fid p) /\ forall f, In f p -> k (fid f) = false.
Proof.
  induction 1 as [k|k f p N A H [IH1 IH2]]; [split; [constructor|intros ? []]|]. split.
  - cbn. constructor; [|exact IH1]. intro I. apply in_map_iff in I. destruct I as (g & E & I). specialize (IH2 g I). rewrite kn_one, E, Nat.eqb_refl, orb_true_r in IH2. discriminate.
  - intros g [-> |I]; [exact N|]. specialize (IH2 g I). rewrite kn_one in IH2. apply orb_false_elim in IH2. tauto.
Qed.

(** * The hook only schedules *)
Definition known (s : st) : id -> bool := fun i => match s_cache s i with Some _ => true | None => false end.
(** Nothing cached raises. *)
Definition calm (s : st) : Prop := forall i e, s_cache s i = Some e -> cached_error (s_tasks s) e = None.
Definition fresh (s : st) : Prop := forall t, s_next s <= t -> s_tasks s t = Pending.
Definition schedules (p : list fixture) (s : st) : st := fold_left (fun s f => schedule f s) p s.
Lemma schedules_app a b s : schedules (a ++ b) s = schedules b (schedules a s).
Proof. apply fold_left_app. Qed.
Lemma schedule_tasks f s : s_tasks (schedule f s) = s_tasks s.
Proof. reflexivity. Qed.
Lemma schedules_tasks p : forall s, s_tasks (schedules p s) = s_tasks s.
Proof. induction p as [|f p IH]; intro s; [reflexivity|]. cbn [schedules fold_left]. fold (schedules p (schedule f s)). rewrite IH. reflexivity. Qed.
Lemma schedule_known f s i : known (schedule f s) i = kn (known s) [f] i.
Proof. rewrite kn_one. unfold known, schedule, upd. cbn [s_cache]. destruct (Nat.eqb i (fid f)); [now rewrite orb_true_r|now rewrite orb_false_r]. Qed.
Lemma schedules_known p : forall s i, known (schedules p s) i = kn (known s) p i.
Proof.
  induction p as [|f p IH]; intros s i; [now rewrite kn_nil|]. cbn [schedules fold_left]. fold (schedules p (schedule f s)). rewrite IH.
  change (f :: p) with ([f] ++ p). rewrite <- kn_app. unfold kn at 1 3. now rewrite schedule_known.
Qed.
Lemma schedule_calm f s : fresh s -> calm s -> calm (schedule f s) /\ fresh (schedule f s).
Proof.
  intros F C. split.
  - intros i e. unfold schedule, upd. cbn [s_cache s_tasks]. destruct (Nat.eqb i (fid f)); [|apply C]. intro H. injection H as <-.
    cbn [cached_error]. unfold getitem. rewrite F by reflexivity. reflexivity.
  - intros t L. cbn [schedule s_tasks s_next] in *. apply F. lia.
Qed.
Lemma schedules_calm p : forall s, fresh s -> calm s -> calm (schedules p s) /\ fresh (schedules p s).
Proof.
  induction p as [|f p IH]; intros s F C; [split; auto|]. cbn [schedules fold_left]. destruct (schedule_calm f s F C). now apply IH.
Qed.
Lemma execute_eq sync i a args s : execute sync (Fix i a args) s =
  match s_cache s i with
  | Some e => (s, cached_error (s_tasks s) e)
  | None => let '(s1, x) := execute_all sync args s in
            match x with Some e => (s1, Some e) | None => if a then (schedule (Fix i a args) s1, None) else run_sync sync (Fix i a args) s1 end
  end.
Proof. cbn [execute]. destruct (s_cache s i); reflexivity. Qed.
Lemma execute_schedules sync f : asynchronous f -> forall s, calm s -> fresh s -> execute sync f s = (schedules (plan f (known s)) s, None).
Proof.
  induction f as [i a args IH] using fixture_ind2. intros A s C F. apply asynchronous_eq in A. destruct A as [-> A]. rewrite execute_eq, plan_eq. unfold known at 1.
  destruct (s_cache s i) as [e|] eqn:E; [rewrite (C i e E); reflexivity|].
  assert (X : execute_all sync args s = (schedules (planl args (known s)) s, None)).
  { clear E. revert s C F. induction IH as [|x l Hx _ IHl]; intros s C F; [reflexivity|]. inversion A; subst. cbn [execute_all planl].
    rewrite Hx by auto. destruct (schedules_calm (plan x (known s)) s F C) as [C1 F1]. rewrite IHl by auto. rewrite schedules_app.
    erewrite planl_ext; [reflexivity|]. intro j. apply schedules_known. }
  rewrite X, schedules_app. reflexivity.
Qed.
Lemma execute_all_schedules sync l : Forall asynchronous l -> forall s, calm s -> fresh s -> execute_all sync l s = (schedules (planl l (known s)) s, None).
Proof.
  induction 1 as [|x l Hx _ IH]; intros s C F; [reflexivity|]. cbn [execute_all planl]. rewrite (execute_schedules sync x) by auto.
  destruct (schedules_calm (plan x (known s)) s F C) as [C1 F1]. rewrite IH by auto. rewrite schedules_app.
  erewrite planl_ext; [reflexivity|]. intro j. apply schedules_known.
Qed.

(** * Synchronous fixtures run the same plan *)
Definition qknown (q : seq) : id -> bool := fun i => match q_cache q i with Some _ => true | None => false end.
Definition valued (q : seq) : Prop := forall i e, q_cache q i <> Some (inr e).
Fixpoint seq_list (body : nat -> value + fexn) (p : list fixture) (q : seq) : seq * option fexn :=
  match p with [] => (q, None) | f :: p' => let '(q1, x) := seq_run body f q in match x with None => seq_list body p' q1 | Some e => (q1, Some e) end end.
Lemma seq_list_app body a : forall b q, seq_list body (a ++ b) q =
  let '(q1, x) := seq_list body a q in match x with None => seq_list body b q1 | Some e => (q1, Some e) end.
Proof.
  induction a as [|f a IH]; intros b q; [reflexivity|]. cbn [app seq_list]. destruct (seq_run body f q) as [q1 [e|]]; [reflexivity|apply IH].
Qed.
Lemma seq_run_valued body f q q' : valued q -> seq_run body f q = (q', None) -> valued q' /\ forall i, qknown q' i = kn (qknown q) [f] i.
Proof.
  unfold seq_run. intros V H. destruct (body (q_runs q)) as [v|e] eqn:B; [injection H as <-|discriminate H]. split.
  - intros i e. cbn [q_cache]. unfold upd. destruct (Nat.eqb i (fid f)); [discriminate|apply V].
  - intro i. rewrite kn_one. unfold qknown, upd. cbn [q_cache]. destruct (Nat.eqb i (fid f)); [now rewrite orb_true_r|now rewrite orb_false_r].
Qed.
Lemma seq_list_valued body p : forall q q', valued q -> seq_list body p q = (q', None) -> valued q' /\ forall i, qknown q' i = kn (qknown q) p i.
Proof.
  induction p as [|f p IH]; intros q q' V H; cbn [seq_list] in H; [injection H as <-; split; [exact V|intro; now rewrite kn_nil]|].
  destruct (seq_run body f q) as [q1 [e|]] eqn:E; [discriminate H|]. destruct (seq_run_valued _ _ _ _ V E) as [V1 K1]. destruct (IH _ _ V1 H) as [V2 K2].
  split; [exact V2|]. intro i. rewrite K2. change (f :: p) with ([f] ++ p). rewrite <- kn_app. unfold kn at 1 3. now rewrite K1.
Qed.
Lemma seq_execute_eq body i a args q : seq_execute body (Fix i a args) q =
  match q_cache q i with
  | Some (inl _) => (q, None)
  | Some (inr e) => (q, Some e)
  | None => let '(q1, x) := seq_all body args q in match x with None => seq_run body (Fix i a args) q1 | Some e => (q1, Some e) end
  end.
Proof. cbn [seq_execute]. destruct (q_cache q i) as [[?|?]|]; reflexivity. Qed.
Lemma seq_execute_plan body f : forall q, valued q -> seq_execute body f q = seq_list body (plan f (qknown q)) q.
Proof.
  induction f as [i a args IH] using fixture_ind2. intros q V. rewrite seq_execute_eq, plan_eq. unfold qknown at 1.
  destruct (q_cache q i) as [[v|e]|] eqn:E; [reflexivity|destruct (V i e E)|].
  assert (X : seq_all body args q = seq_list body (planl args (qknown q)) q).
  { clear E. revert q V. induction IH as [|x l Hx _ IHl]; intros q V; [reflexivity|]. cbn [seq_all planl]. rewrite seq_list_app, Hx by auto.
    destruct (seq_list body (plan x (qknown q)) q) as [q1 [e|]] eqn:Y; [reflexivity|]. destruct (seq_list_valued _ _ _ _ V Y) as [V1 K1].
    rewrite IHl by auto. erewrite planl_ext; [reflexivity|exact K1]. }
  rewrite X, seq_list_app. destruct (seq_list body (planl args (qknown q)) q) as [q1 [e|]]; [reflexivity|]. cbn [seq_list].
  destruct (seq_run body (Fix i a args) q1) as [q2 [e|]]; reflexivity.
Qed.
Lemma seq_all_plan body l : forall q, valued q -> seq_all body l q = seq_list body (planl l (qknown q)) q.
Proof.
  induction l as [|x l IH]; intros q V; [reflexivity|]. cbn [seq_all planl]. rewrite seq_list_app, seq_execute_plan by auto.
  destruct (seq_list body (plan x (qknown q)) q) as [q1 [e|]] eqn:Y; [reflexivity|]. destruct (seq_list_valued _ _ _ _ V Y) as [V1 K1].
  rewrite IH by auto. erewrite planl_ext; [reflexivity|exact K1].
Qed.

(** * Running the scheduled setups *)
Definition same (s : st) (q : seq) (i : id) : Prop :=
  match s_cache s i with
  | None => q_cache q i = None
  | Some (Plain _ _) => False
  | Some (Async t) => exists v, s_tasks s t = Finished v /\ q_cache q i = Some (inl v) /\ forall m, v <> VManager m
  end.
Record rel (P : list id) (s : st) (q : seq) : Prop := {
  r_runs : s_runs s = q_runs q;
  r_hist : s_hist s = q_hist q;
  r_same : forall i, ~ In i P -> same s q i;
  r_below : forall i t, s_cache s i = Some (Async t) -> t < s_next s;
  r_inj : forall i j t, s_cache s i = Some (Async t) -> s_cache s j = Some (Async t) -> i = j;
  r_fresh : fresh s }.
Definition waits (s : st) (q : seq) (x : tid * fixture) : Prop :=
  s_cache s (fid (snd x)) = Some (Async (fst x)) /\ s_tasks s (fst x) = Pending /\ q_cache q (fid (snd x)) = None.
Definition pids (l : list (tid * fixture)) : list id := map (fun x => fid (snd x)) l.

Lemma lookup_same s q l : (forall a, In a l -> same s q (fid a) /\ q_cache q (fid a) <> None) -> lookup s l = Val (seq_values (q_cache q) l).
Proof.
  induction l as [|a l IH]; intro H; [reflexivity|]. cbn [lookup seq_values]. destruct (H a (or_introl eq_refl)) as [S N]. unfold same in S.
  destruct (s_cache s (fid a)) as [[?|t]|]; [contradiction| |contradiction]. destruct S as (v & T & Q & M). cbn [item0]. unfold getitem. rewrite T. cbn.
  rewrite IH by (intros; apply H; now right). now rewrite Q.
Qed.
Lemma resolve_values tasks l : (forall v, In v l -> forall m, v <> VManager m) -> resolve_all tasks l = Val l.
Proof.
  induction l as [|v l IH]; intro H; [reflexivity|]. cbn [resolve_all]. destruct v as [n| |m]; cbn [resolve]; try (rewrite IH; auto; intros; apply H; now right).
  destruct (H (VManager m) (or_introl eq_refl) m eq_refl).
Qed.
Lemma seq_values_in c l v : In v (seq_values c l) -> exists a, In a l /\ c (fid a) = Some (inl v).
Proof.
  induction l as [|a l IH]; [intros []|]. cbn [seq_values]. destruct (c (fid a)) as [[w|e]|] eqn:E.
  - intros [-> |H]; [exists a; split; [now left|exact E]|]. destruct (IH H) as (b & I & K). exists b. split; [now right|exact K].
  - intro H. destruct (IH H) as (b & I & K). exists b. split; [now right|exact K].
  - intro H. destruct (IH H) as (b & I & K). exists b. split; [now right|exact K].
Qed.
Lemma run_step async body t f pend s q : ordinary async body -> rel (fid f :: pids pend) s q -> waits s q (t, f) -> Forall (waits s q) pend ->
  ~ In (fid f) (pids pend) -> (forall a, In a (fargs f) -> qknown q (fid a) = true) -> (forall a, In a (fargs f) -> ~ In (fid a) (fid f :: pids pend)) -> valued q ->
  snd (run_async async t f s) = snd (seq_run body f q) /\
  rel (fid f :: pids pend) (fst (run_async async t f s)) (fst (seq_run body f q)) /\
  (snd (seq_run body f q) = None -> rel (pids pend) (fst (run_async async t f s)) (fst (seq_run body f q)) /\
     Forall (waits (fst (run_async async t f s)) (fst (seq_run body f q))) pend) /\
  s_cache (fst (run_async async t f s)) = s_cache s /\ s_setups (fst (run_async async t f s)) = s_setups s.
Proof.
  intros O R [W1 [W2 W3]] PW NI A AP V. cbn [fst snd] in W1, W2, W3. destruct R as [R1 R2 R3 R4 R5 R6].
  assert (L : lookup s (fargs f) = Val (seq_values (q_cache q) (fargs f))).
  { apply lookup_same. intros a I. split; [apply R3; auto|]. specialize (A a I). unfold qknown in A. destruct (q_cache q (fid a)); discriminate. }
  assert (M : resolve_all (s_tasks s) (seq_values (q_cache q) (fargs f)) = Val (seq_values (q_cache q) (fargs f))).
  { apply resolve_values. intros v I. apply seq_values_in in I. destruct I as (a & I & E). specialize (R3 _ (AP a I)). unfold same in R3.
    destruct (s_cache s (fid a)) as [[?|t']|]; [contradiction| |rewrite R3 in E; discriminate]. destruct R3 as (w & _ & Q & X). rewrite Q in E. injection E as <-. exact X. }
  unfold run_async. rewrite L, M, R1. specialize (O (q_runs q)). unfold seq_run. destruct (body (q_runs q)) as [v|e] eqn:B.
  - destruct O as [-> NM]. cbn [settle fst snd]. set (s' := set_task _ _ _). set (q' := Seq _ _ _).
    assert (T : forall j t', j <> fid f -> s_cache s j = Some (Async t') -> s_tasks s' t' = s_tasks s t').
    { intros j t' N K. cbn [s' set_task called s_tasks]. apply upd_neq. intros ->. apply N. eauto. }
    assert (Z : forall P, (forall i, ~ In i P -> i <> fid f -> same s q i) -> rel P s' q').
    { intros P H. split; cbn [s' q' set_task called s_runs s_hist s_cache s_next q_runs q_hist]; auto.
      - now rewrite R2.
      - intros i N. unfold same. cbn [s' q' set_task called s_cache q_cache]. destruct (Nat.eq_dec i (fid f)) as [-> |X].
        + rewrite W1. exists v. split; [cbn [s_tasks]; apply upd_eq|]. split; [apply upd_eq|exact NM].
        + rewrite (upd_neq _ _ _ _ X). specialize (H i N X). unfold same in H. destruct (s_cache s i) as [[?|t']|] eqn:Y; auto.
          destruct H as (w & K1 & K2). exists w. split; [|exact K2]. fold (s_tasks s'). change (s_tasks s' t' = Finished w). now rewrite (T i t').
      - intros t' LE. cbn [s' set_task called s_next s_tasks] in *. rewrite upd_neq; [now apply R6|]. intros ->. specialize (R4 _ _ W1). lia. }
    split; [reflexivity|]. split; [apply Z; intros i N _; now apply R3|]. split; [|split; reflexivity]. intros _. split.
    + apply Z. intros i N X. apply R3. intros [K|K]; congruence.
    + rewrite Forall_forall in *. intros [t' f'] I. destruct (PW _ I) as (K1 & K2 & K3). cbn [fst snd] in *.
      assert (X : fid f' <> fid f). { intro E. apply NI. unfold pids. apply in_map_iff. exists (t', f'). split; [exact E|exact I]. }
      split; [exact K1|]. split; [cbn [fst snd]; now rewrite (T _ _ X K1)|]. cbn [q' q_cache fst snd]. now rewrite upd_neq.
  - destruct O as [-> [n ->]]. cbn [settle raised truthy fst snd]. split; [reflexivity|]. split; [|split; [discriminate|split; reflexivity]].
    split; cbn [set_task called s_runs s_hist s_cache s_next q_runs q_hist]; auto.
    + now rewrite R2.
    + intros i N. specialize (R3 i N). unfold same in *. cbn [set_task called s_cache s_tasks q_cache].
      assert (X : i <> fid f) by (intros ->; apply N; now left). rewrite (upd_neq _ _ _ _ X). destruct (s_cache s i) as [[?|t']|] eqn:Y; auto.
      destruct R3 as (w & K1 & K2). exists w. split; [|exact K2]. rewrite upd_neq; [exact K1|]. intros ->. apply X. eauto.
    + intros t' LE. cbn [set_task called s_next s_tasks] in *. rewrite upd_neq; [now apply R6|]. intros ->. specialize (R4 _ _ W1). lia.
Qed.
Lemma run_setups_rel async body : ordinary async body -> forall pend s q, rel (pids pend) s q -> Forall (waits s q) pend -> NoDup (pids pend) ->
  planned (qknown q) (map snd pend) -> valued q ->
  snd (run_setups async pend s) = snd (seq_list body (map snd pend) q) /\
  rel (if snd (seq_list body (map snd pend) q) then pids pend else []) (fst (run_setups async pend s)) (fst (seq_list body (map snd pend) q)) /\
  s_cache (fst (run_setups async pend s)) = s_cache s.
Proof.
  intro O. induction pend as [|[t f] pend IH]; intros s q R W ND P V; [cbn; auto|].
  cbn [map snd] in P. inversion P as [|k f' p N A P']; subst. inversion W as [|? ? W1 W2]; subst. inversion ND as [|? ? ND1 ND2]; subst.
  cbn [pids map snd] in R. fold (pids pend) in R.
  assert (AP : forall a, In a (fargs f) -> ~ In (fid a) (fid f :: pids pend)).
  { intros a I K. specialize (A a I). destruct (planned_fresh _ _ P) as [_ F].
    assert (X : exists g, In g (f :: map snd pend) /\ fid g = fid a).
    { destruct K as [K|K]; [exists f; split; [now left|exact K]|]. unfold pids in K. apply in_map_iff in K. destruct K as ([t' g] & K1 & K2). exists g. split; [|exact K1].
      right. apply in_map_iff. exists (t', g). auto. }
    destruct X as (g & G1 & G2). specialize (F g G1). rewrite G2, A in F. discriminate. }
  destruct (run_step async body t f pend s q O R W1 W2 ND1 A AP V) as (E & R1 & R2 & C & _). cbn [run_setups seq_list map snd].
  destruct (run_async async t f s) as [s1 x]. destruct (seq_run body f q) as [q1 y] eqn:Y. cbn [fst snd] in *. subst y. destruct x as [e|].
  - cbn [fst snd]. split; [reflexivity|]. split; [exact R1|exact C].
  - destruct (R2 eq_refl) as [R3 W3]. destruct (seq_run_valued _ _ _ _ V Y) as [V1 K1].
    destruct (IH s1 q1 R3 W3 ND2) as (E2 & R4 & C2); auto.
    { eapply planned_ext; [exact P'|]. intro i. now rewrite K1. }
    split; [exact E2|]. split; [|now rewrite C2].
    destruct (snd (seq_list body (map snd pend) q1)); [|exact R4]. destruct R4 as [Q1 Q2 Q3 Q4 Q5 Q6]. split; auto. intros i N2. apply Q3. intro K. apply N2. now right.
Qed.

Lemma schedules_rel p : forall s q P, rel P s q -> planned (known s) p ->
  rel (P ++ map fid p) (schedules p s) q /\ exists l, s_setups (schedules p s) = s_setups s ++ l /\ map snd l = p /\
    Forall (fun x => s_cache (schedules p s) (fid (snd x)) = Some (Async (fst x)) /\ s_tasks s (fst x) = Pending) l /\
    forall i, (forall f, In f p -> fid f <> i) -> s_cache (schedules p s) i = s_cache s i.
Proof.
  induction p as [|f p IH]; intros s q P R PL.
  - cbn [map schedules fold_left]. rewrite app_nil_r. split; [exact R|]. exists []. rewrite app_nil_r. repeat split; auto.
  - inversion PL as [|k f' p' N A PL']; subst. cbn [schedules fold_left]. fold (schedules p (schedule f s)).
    assert (NC : s_cache s (fid f) = None). { unfold known in N. destruct (s_cache s (fid f)); [discriminate|reflexivity]. }
    assert (R1 : rel (P ++ [fid f]) (schedule f s) q).
    { destruct R as [R1 R2 R3 R4 R5 R6]. split; cbn [schedule s_runs s_hist s_cache s_next]; auto.
      - intros i I. assert (X : i <> fid f) by (intros ->; apply I, in_or_app; right; now left). unfold same. cbn [schedule s_cache s_tasks]. rewrite (upd_neq _ _ _ _ X).
        apply R3. intro K. apply I, in_or_app. now left.
      - intros i t. unfold upd. destruct (Nat.eqb i (fid f)); [intro H; injection H as <-; lia|]. intro H. specialize (R4 _ _ H). lia.
      - intros i j t. unfold upd. destruct (Nat.eqb_spec i (fid f)) as [-> |X]; destruct (Nat.eqb_spec j (fid f)) as [-> |Y]; auto.
        + intros H K. injection H as <-. specialize (R4 _ _ K). lia.
        + intros H K. injection K as <-. specialize (R4 _ _ H). lia.
        + apply R5.
      - intros t L. cbn [schedule s_tasks s_next] in *. apply R6. lia. }
    destruct (IH (schedule f s) q (P ++ [fid f]) R1) as [R2 (l & S & M & F & U)].
    { eapply planned_ext; [exact PL'|]. intro i. now rewrite schedule_known. }
    rewrite <- app_assoc in R2. split; [exact R2|]. exists ((s_next s, f) :: l). split; [rewrite S; cbn [schedule s_setups]; now rewrite <- app_assoc|].
    split; [cbn; now rewrite M|]. destruct (planned_fresh _ _ PL) as [ND _]. split.
    + constructor; [|exact F]. cbn [fst snd]. split; [|apply (r_fresh _ _ _ R); reflexivity]. rewrite U; [cbn [schedule s_cache]; apply upd_eq|].
      intros g I E. cbn [map] in ND. inversion ND; subst. apply H1. rewrite <- E. now apply in_map.
    + intros i H. rewrite U by (intros; apply H; now right). cbn [schedule s_cache]. apply upd_neq. intros ->. apply (H f); [now left|reflexivity].
Qed.

(** * A test *)
Lemma run_async_tasks async t f s t' : t' <> t -> s_tasks (fst (run_async async t f s)) t' = s_tasks s t'.
Proof.
  intro N. unfold run_async. destruct (match lookup s (fargs f) with Val vs => resolve_all (s_tasks s) vs | Raise x => Raise x end) as [vs|x].
  - destruct (settle (async (s_runs s))) as [y r]. cbn. now apply upd_neq.
  - destruct (settle (Raises x)) as [y r]. cbn. now apply upd_neq.
Qed.
Lemma run_setups_tasks async pend : forall s t', ~ In t' (map fst pend) -> s_tasks (fst (run_setups async pend s)) t' = s_tasks s t'.
Proof.
  induction pend as [|[t f] pend IH]; intros s t' N; [reflexivity|]. cbn [run_setups]. pose proof (run_async_tasks async t f s t') as K.
  destruct (run_async async t f s) as [s1 [e|]]; cbn [fst] in *; [apply K; intros ->; apply N; now left|].
  rewrite IH; [apply K; intros ->; apply N; now left|]. intro I. apply N. now right.
Qed.
Lemma lookup_val s l : (forall a, In a l -> exists t, s_cache s (fid a) = Some (Async t) /\ (s_tasks s t = Pending \/ exists v, s_tasks s t = Finished v)) ->
  exists fa, lookup s l = Val fa.
Proof.
  induction l as [|a l IH]; intro H; [eexists; reflexivity|]. destruct (H a (or_introl eq_refl)) as (t & C & T). destruct IH as [fa E]; [intros; apply H; now right|].
  cbn [lookup]. rewrite C, E. cbn [item0]. unfold getitem. destruct T as [T|[v T]]; rewrite T; cbn; eexists; reflexivity.
Qed.
Lemma lookup_resolve s1 s2 q l : (forall a, In a l -> exists t v, s_cache s1 (fid a) = Some (Async t) /\ s_tasks s2 t = Finished v /\
    (s_tasks s1 t = Pending \/ s_tasks s1 t = Finished v) /\ (forall m, v <> VManager m) /\ q_cache q (fid a) = Some (inl v)) ->
  forall fa, lookup s1 l = Val fa -> resolve_all (s_tasks s2) fa = Val (seq_values (q_cache q) l).
Proof.
  induction l as [|a l IH]; intros H fa L; [injection L as <-; reflexivity|]. destruct (H a (or_introl eq_refl)) as (t & v & C & T2 & T1 & M & Q).
  cbn [lookup] in L. rewrite C in L. cbn [item0] in L. unfold getitem in L. destruct (lookup s1 l) as [vs|x] eqn:E.
  2:{ destruct T1 as [T1|T1]; rewrite T1 in L; cbn in L; discriminate L. }
  assert (X : resolve_all (s_tasks s2) vs = Val (seq_values (q_cache q) l)) by (apply IH; [intros; apply H; now right|reflexivity]).
  cbn [seq_values]. rewrite Q. destruct T1 as [T1|T1]; rewrite T1 in L; cbn in L; injection L as <-; cbn [resolve_all resolve].
  - rewrite T2. cbn [task_result]. now rewrite X.
  - destruct v as [n| |m]; cbn [resolve]; [now rewrite X|now rewrite X|destruct (M m eq_refl)].
Qed.
Lemma rel_known s q : rel [] s q -> forall i, known s i = qknown q i.
Proof.
  intros R i. pose proof (r_same _ _ _ R i (fun x => x)) as S. unfold same in S. unfold known, qknown. destruct (s_cache s i) as [[?|t]|].
  - contradiction.
  - destruct S as (v & _ & -> & _). reflexivity.
  - now rewrite S.
Qed.
Lemma rel_valued s q : rel [] s q -> valued q.
Proof.
  intros R i e K. pose proof (r_same _ _ _ R i (fun x => x)) as S. unfold same in S. destruct (s_cache s i) as [[?|t]|]; [contradiction| |congruence].
  destruct S as (v & _ & E & _). congruence.
Qed.
Lemma rel_calm s q : rel [] s q -> calm s.
Proof.
  intros R i e K. pose proof (r_same _ _ _ R i (fun x => x)) as S. unfold same in S. rewrite K in S. destruct e as [?|t]; [contradiction|].
  destruct S as (v & T & _). cbn [cached_error]. unfold getitem. rewrite T. reflexivity.
Qed.
Lemma rel_log P s q x : rel P s q -> rel P (log x s) (Seq (q_cache q) (q_runs q) (q_hist q ++ [x])).
Proof. intros [R1 R2 R3 R4 R5 R6]. split; cbn; auto. now rewrite R2. Qed.
Lemma rel_drop P s q fin : rel P s q -> (forall i, In i P -> fin i = true) ->
  rel [] (drop fin s) (Seq (fun i => if fin i then None else q_cache q i) (q_runs q) (q_hist q)).
Proof.
  intros [R1 R2 R3 R4 R5 R6] H. split; cbn [drop s_runs s_hist s_cache s_tasks s_next q_runs q_hist]; auto.
  - intros i _. unfold same. cbn [drop s_cache s_tasks q_cache]. destruct (fin i) eqn:E; [reflexivity|]. apply R3. intro I. rewrite (H i I) in E. discriminate.
  - intros i t. destruct (fin i); [discriminate|apply R4].
  - intros i j t. destruct (fin i); [discriminate|]. destruct (fin j); [discriminate|apply R5].
Qed.
Lemma test_rel sync async body t s q : ordinary async body -> good_test t -> rel [] s q -> s_setups s = [] ->
  s_hist (run_test sync async t s) = q_hist (seq_test body t q) /\ s_setups (run_test sync async t s) = [] /\
  ((fails body t q -> forall i, In i (test_ids t) -> t_finish t i = true) -> rel [] (run_test sync async t s) (seq_test body t q)).
Proof.
  intros O G R E. set (l := t_uses t ++ t_args t). set (p := planl l (known s)).
  assert (GA : Forall asynchronous l) by (apply Forall_forall; intros f I; apply (G f I)).
  assert (GC : Forall acyclic l) by (apply Forall_forall; intros f I; apply (G f I)).
  pose proof (rel_known _ _ R) as K. pose proof (rel_valued _ _ R) as V. pose proof (planl_planned l GC (known s)) as PL. fold p in PL.
  destruct (schedules_rel p s q [] R PL) as [R1 (pend & S & M & F & U)]. cbn [app] in R1. rewrite E in S. cbn [app] in S.
  assert (PI : pids pend = map fid p) by (rewrite <- M; unfold pids; now rewrite map_map).
  destruct (planned_fresh _ _ PL) as [ND NK]. set (s1 := schedules p s) in *.
  assert (W : Forall (waits s1 q) pend).
  { rewrite Forall_forall in *. intros [t' f] I. destruct (F _ I) as [F1 F2]. cbn [fst snd] in *. split; [exact F1|]. split; [unfold s1; rewrite schedules_tasks; exact F2|].
    cbn [snd]. assert (IP : In f p) by (rewrite <- M; apply in_map_iff; exists (t', f); auto). specialize (NK f IP). rewrite K in NK. unfold qknown in NK.
    destruct (q_cache q (fid f)); [discriminate|reflexivity]. }
  assert (R1' : rel (pids pend) s1 q) by (rewrite PI; exact R1).
  assert (ND' : NoDup (pids pend)) by (rewrite PI; exact ND).
  assert (PL' : planned (qknown q) (map snd pend)) by (rewrite M; eapply planned_ext; [exact PL|exact K]).
  destruct (run_setups_rel async body O pend s1 q R1' W ND' PL' V) as (X & R2 & C). rewrite M in X, R2.
  assert (A1 : forall a, In a l -> exists t', s_cache s1 (fid a) = Some (Async t') /\ (s_tasks s1 t' = Pending \/ exists v, s_tasks s1 t' = Finished v)).
  { intros a I. assert (KA : known s1 (fid a) = true) by (unfold s1; rewrite schedules_known; now apply planl_known).
    destruct (in_dec Nat.eq_dec (fid a) (pids pend)) as [IP|NP].
    - unfold pids in IP. apply in_map_iff in IP. destruct IP as ([t' f] & E1 & I1). rewrite Forall_forall in W. destruct (W _ I1) as (W1 & W2 & _). cbn [fst snd] in *.
      exists t'. rewrite <- E1. auto.
    - pose proof (r_same _ _ _ R1' _ NP) as Q. unfold same in Q. unfold known in KA. destruct (s_cache s1 (fid a)) as [[?|t']|]; [contradiction| |discriminate].
      destruct Q as (v & T & _). exists t'. eauto. }
  assert (LV : exists fa, lookup s1 (t_args t) = Val fa) by (apply lookup_val; intros a I; apply A1; unfold l; apply in_or_app; now right).
  destruct LV as [fa LV]. unfold run_test, seq_test. fold l. rewrite (execute_all_schedules sync l GA s (rel_calm _ _ R) (r_fresh _ _ _ R)). fold p. fold s1. rewrite LV, S.
  unfold fails. fold l. rewrite (seq_all_plan body l q V). rewrite <- (planl_ext l _ _ K). fold p.
  pose proof (run_setups_tasks async pend s1) as TS. destruct (run_setups async pend s1) as [s2 x]. destruct (seq_list body p q) as [q2 y] eqn:SL. cbn [fst snd] in *. subst y. destruct x as [e|].
  - split; [cbn; now rewrite (r_hist _ _ _ R2)|]. split; [reflexivity|]. intro H.
    apply (rel_drop (pids pend) (log (EFailed e) s2) (Seq (q_cache q2) (q_runs q2) (q_hist q2 ++ [EFailed e]))); [now apply rel_log|].
    intros i I. apply H; [discriminate|]. rewrite PI in I. apply in_map_iff in I. destruct I as (g & <- & I). eapply planl_ids. exact I.
  - assert (RA : resolve_all (s_tasks s2) fa = Val (seq_values (q_cache q2) (t_args t))).
    { apply (lookup_resolve s1 s2 q2 (t_args t)); [|exact LV]. intros a I. assert (I2 : In a l) by (unfold l; apply in_or_app; now right).
      destruct (A1 a I2) as (t' & C1 & T1). pose proof (r_same _ _ _ R2 (fid a) (fun x => x)) as Q. unfold same in Q. rewrite C, C1 in Q.
      destruct Q as (v & T2 & Q & MV). exists t', v. repeat (apply conj); auto. destruct T1 as [T1|[w T1]]; [now left|right].
      assert (NI : ~ In t' (map fst pend)).
      { intro IT. apply in_map_iff in IT. destruct IT as ([t2 f] & <- & IT). rewrite Forall_forall in W. destruct (W _ IT) as (_ & W2 & _). cbn [fst snd] in *. congruence. }
      rewrite (TS t' NI), T1 in T2. injection T2 as ->. exact T1. }
    rewrite RA. split; [cbn; now rewrite (r_hist _ _ _ R2)|]. split; [reflexivity|]. intros _.
    apply (rel_drop [] (log (ECall (seq_values (q_cache q2) (t_args t))) s2) (Seq (q_cache q2) (q_runs q2) (q_hist q2 ++ [ECall (seq_values (q_cache q2) (t_args t))]))); [now apply rel_log|].
    intros i [].
Qed.

Lemma start_rel : rel [] start seq_start.
Proof. split; auto; try discriminate. - intros i _. reflexivity. - intros t _. reflexivity. Qed.
Lemma session_rel sync async body : ordinary async body -> forall ts s q, Forall good_test ts -> rel [] s q -> s_setups s = [] -> tidy body ts q ->
  s_hist (run_session sync async ts s) = q_hist (seq_session body ts q).
Proof.
  intros O. induction ts as [|t ts IH]; intros s q G R E T; [apply (r_hist _ _ _ R)|]. inversion G; subst. cbn [tidy] in T. destruct T as [T1 T2].
  destruct (test_rel sync async body t s q O H1 R E) as (A & B & C). cbn [run_session seq_session fold_left]. apply IH; auto.
Qed.

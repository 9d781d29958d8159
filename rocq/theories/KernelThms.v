(** Proofs of the property theorems about the scheduler kernel. *)
From Verif Require Import Base KernelModel KernelProofs KernelHist KernelLog KernelInv KernelTask KernelWake
  KernelCalls KernelSpec.
From Coq Require Import Arith Sorted Permutation.

(** * Executions *)
Lemma execP_weaken (P Q : st -> label -> Prop) s ls s' :
  (forall s l, P s l -> Q s l) -> execP P s ls s' -> execP Q s ls s'.
Proof. intros H E. induction E; econstructor; eauto. Qed.
Lemma execP_app P a l b m c : execP P a l b -> execP P b m c -> execP P a (l ++ m) c.
Proof. induction 1; cbn; [auto|]. intro. econstructor; eauto. Qed.

Lemma sim_prime s l : sim_ok s l -> prime_ok l.
Proof. destruct l; auto. Qed.

(** An invariant of the steps which meet [P], on top of [Inv]. *)
Lemma execP_inv (P : st -> label -> Prop) (K : st -> Prop) s ls s' :
  (forall s l, P s l -> sim_ok s l) ->
  (forall s l s' r, Inv s -> P s l -> K s -> step s l = Some (s', r) -> K s') ->
  Inv s -> K s -> execP P s ls s' -> Inv s' /\ K s'.
Proof.
  intros HP HK I0 K0 E. induction E as [|s l s1 r ls s2 p S E IH]; [auto|].
  destruct (inv_step s l s1 r I0) as (I1 & _ & _); [eapply sim_prime, HP, p|exact S|].
  apply IH; [exact I1|]. exact (HK s l s1 r I0 p K0 S).
Qed.
Lemma execP_Inv (P : st -> label -> Prop) s ls s' :
  (forall s l, P s l -> sim_ok s l) -> Inv s -> execP P s ls s' -> Inv s'.
Proof. intros HP I0 E. eapply (execP_inv P (fun _ => True)); eauto. Qed.
Lemma reach_inv ls s : reach ls s -> Inv s.
Proof. intro H. eapply execP_Inv; [| apply inv_init|exact H]. auto. Qed.
Lemma execP_stable (P : st -> label -> Prop) s ls s' :
  (forall s l, P s l -> sim_ok s l) -> Inv s -> execP P s ls s' -> Stable s s'.
Proof.
  intros HP I0 E. induction E as [|s l s1 r ls s2 p S E IH]; [apply stable_refl|].
  destruct (inv_step s l s1 r I0) as (I1 & S1 & _); [eapply sim_prime, HP, p|exact S|].
  eapply stable_trans; [exact S1|auto].
Qed.
Lemma reach_lk ls s : reach ls s -> LK s.
Proof.
  intro H. eapply (execP_inv sim_ok LK); [auto| |apply inv_init|apply lk_init|exact H].
  intros. eapply lk_step; eassumption.
Qed.

(** * C17 *)
Lemma filter_one {A B} (f : A -> B) (P : A -> bool) l x :
  NoDup (map f l) -> In x l -> P x = true -> (forall y, In y l -> P y = true -> f y = f x) ->
  length (filter P l) = 1.
Proof.
  induction l as [|a l IH]; cbn; intros N I Px U; [tauto|].
  apply NoDup_cons_iff in N. destruct N as [Na N].
  destruct I as [->|I].
  - rewrite Px. cbn. f_equal.
    destruct (filter P l) as [|y q] eqn:E; [reflexivity|]. exfalso.
    assert (Iy : In y (filter P l)) by (rewrite E; now left).
    apply filter_In in Iy. destruct Iy as [Iy Py]. apply Na. rewrite <- (U y); auto. now apply in_map.
  - destruct (P a) eqn:Pa; [|apply IH; auto]. exfalso. apply Na. rewrite (U a); auto. now apply in_map.
Qed.
Lemma filter_zero {A} (P : A -> bool) l : (forall y, In y l -> P y = false) -> length (filter P l) = 0.
Proof.
  induction l as [|a l IH]; cbn; intro H; [reflexivity|]. rewrite (H a) by auto. apply IH. auto.
Qed.
Lemma sorted_nodup l : StronglySorted lt l -> NoDup l.
Proof.
  induction l as [|x l IH]; intro S; [constructor|]. apply StronglySorted_inv in S. destruct S as [S F].
  constructor; [|auto]. intro I. rewrite Forall_forall in F. specialize (F x I). lia.
Qed.
Lemma active_runner t f c : In f c -> active t f = true -> In t (runners c).
Proof.
  intros I A. unfold runners. apply in_flat_map. exists f. split; [exact I|].
  destruct f; cbn in *; try discriminate; apply Nat.eqb_eq in A; left; exact A.
Qed.
Lemma frames_one t c : NoDup (runners c) -> In t (runners c) -> length (filter (active t) c) = 1.
Proof.
  unfold runners. induction c as [|f c IH]; cbn; intros N I; [tauto|].
  destruct f as [u|u|u i k]; cbn in *; [| |auto].
  1, 2: apply NoDup_cons_iff in N; destruct N as [Na N];
    destruct (Nat.eqb_spec u t) as [->|Nu];
    [cbn; f_equal; apply filter_zero; intros f Hf; destruct (active t f) eqn:A; [|reflexivity];
     exfalso; apply Na; exact (active_runner t f c Hf A)
    |destruct I as [I|I]; [contradiction|auto]].
Qed.

Lemma inv_one_place s t : Inv s -> one_place s t.
Proof.
  intro H. pose proof (J_loc _ _ H) as L.
  assert (Q0 : state_of s t <> Scheduled -> slots s t = 0).
  { intro N. apply filter_zero. intros q Hq. destruct (live_for t q) eqn:E; [|reflexivity]. exfalso. apply N.
    unfold live_for in E. apply andb_true_iff in E. destruct E as [E1 E2]. apply Nat.eqb_eq in E1.
    apply negb_true_iff in E2. destruct q as [h u c]; cbn in *; subst. apply (L_qlive _ _ L h t Hq). }
  assert (R0 : state_of s t <> Pending -> forall tr, regs s t tr = 0).
  { intros N tr. apply filter_zero. intros [h u] Hc. cbn. destruct (Nat.eqb_spec u t) as [->|]; [|reflexivity].
    exfalso. apply N. apply (L_cpend _ _ L tr h t Hc). }
  assert (F0 : state_of s t <> Running -> frames s t = 0).
  { intros N. apply filter_zero. intros f Hf. destruct (active t f) eqn:A; [|reflexivity]. exfalso. apply N.
    apply (L_run _ _ L t). eapply active_runner; eassumption. }
  unfold one_place. destruct (state_of s t) eqn:E.
  - split; [apply Q0; discriminate|]. split; [apply R0; discriminate|apply F0; discriminate].
  - split; [|split; [apply R0; discriminate|apply F0; discriminate]].
    destruct (L_sched _ _ L t (fun x => x) E) as [h Hh].
    apply (filter_one q_id _ _ (QEnt h t false)); [apply L|exact Hh| |].
    + unfold live_for; cbn. now rewrite Nat.eqb_refl.
    + intros [h' u c] Hq E'. unfold live_for in E'; cbn in *. apply andb_true_iff in E'.
      destruct E' as [E1 E2]. apply Nat.eqb_eq in E1. apply negb_true_iff in E2. subst.
      destruct (L_qlive _ _ L _ _ Hq) as (_ & _ & A). destruct (L_qlive _ _ L _ _ Hh) as (_ & _ & B).
      congruence.
  - split; [apply Q0; discriminate|]. split; [apply F0; discriminate|].
    destruct (L_pend _ _ L t (fun x => x) E) as (tr & h & Hh). exists tr.
    destruct (L_cpend _ _ L _ _ _ Hh) as (_ & _ & T). split.
    + apply (filter_one fst _ _ (h, t)); [apply sorted_nodup, L|exact Hh|apply Nat.eqb_refl|].
      intros [h' u] Hc Eu. cbn in *. apply Nat.eqb_eq in Eu. subst.
      destruct (L_cpend _ _ L _ _ _ Hc) as (_ & _ & T'). congruence.
    + intros tr' N. apply filter_zero. intros [h' u] Hc. cbn.
      destruct (Nat.eqb_spec u t) as [->|]; [|reflexivity]. exfalso.
      destruct (L_cpend _ _ L _ _ _ Hc) as (_ & _ & T'). congruence.
  - split; [apply Q0; discriminate|]. split; [apply R0; discriminate|].
    apply frames_one; [apply L|]. apply (L_runs _ _ L); auto.
  - split; [apply Q0; discriminate|]. split; [apply R0; discriminate|apply F0; discriminate].
  - split; [apply Q0; discriminate|]. split; [apply R0; discriminate|apply F0; discriminate].
  - split; [apply Q0; discriminate|]. split; [apply R0; discriminate|apply F0; discriminate].
Qed.
Lemma one_place_pf ls s t : reach ls s -> one_place s t.
Proof. intro H. eapply inv_one_place, reach_inv, H. Qed.

Lemma no_error_pf ls s l s' r : reach ls s -> sim_ok s l -> step s l = Some (s', r) ->
  r <> RErr PKey /\ r <> RErr PAssert /\ r <> RErr PInvalidState.
Proof.
  intros H P S. destruct (inv_step s l s' r (reach_inv _ _ H) (sim_prime _ _ P) S) as (_ & _ & F).
  destruct r as [|b|[ | | | ]|o]; cbn in F; try tauto; repeat split; discriminate.
Qed.

(** A step never takes a blocked Task off its trigger without making it ready, ending it or running
    it: it stays registered, or it has left the PENDING state. *)
Lemma not_lost_pf ls s l s' r t : reach ls s -> sim_ok s l -> step s l = Some (s', r) ->
  one_place s t /\ one_place s' t.
Proof.
  intros H P S. split; [eapply one_place_pf, H|]. apply inv_one_place.
  destruct (inv_step s l s' r (reach_inv _ _ H) (sim_prime _ _ P) S) as (I & _ & _). exact I.
Qed.

(** * C18 *)
Lemma final_pf ls s ms s' t : reach ls s -> done s t = true -> execP sim_ok s ms s' ->
  done s' t = true /\ state_of s' t = state_of s t /\ py_result s' t = py_result s t /\
  py_exception s' t = py_exception s t /\ py_cancelled s' t = py_cancelled s t.
Proof.
  intros H D E. pose proof (reach_inv _ _ H) as I0.
  pose proof (execP_stable sim_ok s ms s' (fun _ _ x => x) I0 E) as St.
  specialize (St t D). destruct St as [S1 S2].
  assert (ST : state_of s' t = state_of s t) by exact S1.
  unfold py_result, py_exception, py_cancelled, done in *. rewrite ST, S2. auto.
Qed.

Lemma answers_pf ls s t : reach ls s ->
  if done s t then
    match state_of s t with
    | Finished => (exists v, py_result s t = Value v) /\ py_exception s t = NoExc /\ py_cancelled s t = false
    | Errored => (exists e, py_result s t = Raises e /\ py_exception s t = Exc e /\ forall m, e <> ECancelled m) /\
                 py_cancelled s t = false
    | Cancelled => (exists m, py_result s t = Raises (ECancelled m) /\ py_exception s t = Raises (ECancelled m)) /\
                   py_cancelled s t = true
    | _ => False
    end
  else py_result s t = Invalid /\ py_exception s t = Invalid /\ py_cancelled s t = false.
Proof.
  intro H. pose proof (J_dn _ _ (reach_inv _ _ H)) as D. destruct (done s t) eqn:E.
  - destruct (D_out _ D t E) as (o & Eo & F). unfold py_result, py_exception, py_cancelled. rewrite Eo.
    destruct (state_of s t); cbn in F; try tauto; destruct o as [v|e]; try tauto.
    + split; [eauto|]. auto.
    + split; [|reflexivity]. exists e. split; [reflexivity|]. split; [reflexivity|].
      destruct e; try discriminate. tauto.
    + destruct e; try tauto. split; [eauto|reflexivity].
  - unfold done in E. unfold py_result, py_exception, py_cancelled.
    destruct (state_of s t); try discriminate; auto.
Qed.

Lemma log_ok_app l1 o l2 : log_ok (l1 ++ o :: l2) -> entry_ok o l2 /\ log_ok l2.
Proof. induction l1 as [|a l1 IH]; cbn; [tauto|]. intros [_ H]. auto. Qed.
Lemma log_ok_after l1 t x o l2 : log_ok (l1 ++ ODone t x o :: l2) -> forall e, In e l1 -> ~ about t e.
Proof.
  induction l1 as [|a l1 IH]; cbn; [tauto|]. intros [H1 H2] e [<-|I]; [|now apply IH].
  assert (En : ended t (l1 ++ ODone t x o :: l2)).
  { exists x, o. apply in_app_iff. right. now left. }
  destruct a as [h u|h u|h u [|]|u e|u v w|u y h|y|u y w|u c|k n|k]; cbn in *; try tauto; intro; subst; tauto.
Qed.
Lemma nothing_after_pf ls s t x o l1 l2 : reach ls s -> s_log s = l1 ++ ODone t x o :: l2 ->
  forall e, In e l1 -> ~ about t e.
Proof.
  intros H E. pose proof (G_ok _ _ (J_log _ _ (reach_inv _ _ H))) as G. rewrite E in G.
  eapply log_ok_after, G.
Qed.
Lemma completions_pf ls s t : reach ls s -> completions t (s_log s) = if done s t then 1 else 0.
Proof.
  intro H. pose proof (J_log _ _ (reach_inv _ _ H)) as G.
  assert (Z : forall l, ~ ended t l -> completions t l = 0).
  { intros l N. apply filter_zero. intros e I. destruct e; try reflexivity.
    destruct (Nat.eqb_spec t0 t) as [->|]; [|reflexivity]. exfalso. apply N. now exists s0, o. }
  destruct (done s t) eqn:E; [|apply Z, G, E].
  destruct (G_rec _ _ G t E) as (o & _ & I). apply in_split in I. destruct I as (l1 & l2 & El).
  pose proof (G_ok _ _ G) as Lo. rewrite El in Lo |- *.
  destruct (log_ok_app _ _ _ Lo) as [A _]. cbn in A. pose proof (log_ok_after _ _ _ _ _ Lo) as B.
  unfold completions. rewrite filter_app. cbn. rewrite Nat.eqb_refl, app_length. cbn.
  change (length (filter _ l2)) with (completions t l2). rewrite (Z l2 A).
  rewrite filter_zero; [reflexivity|]. intros e I. destruct e; try reflexivity.
  destruct (Nat.eqb_spec t0 t) as [->|]; [|reflexivity]. exfalso. apply (B _ I). reflexivity.
Qed.

(** Done callbacks. *)
Lemma called_calls t l : called t l = calls t l.
Proof. reflexivity. Qed.
Lemma completing_fin s t : completing s t = false <-> ~ In t (finishers (s_ctl s)).
Proof.
  unfold completing, finishers. generalize (s_ctl s) as c. induction c as [|f c IH]; cbn; [tauto|].
  destruct f as [u|u|u i k]; cbn; try exact IH. rewrite orb_false_iff, IH, Nat.eqb_neq.
  split; [intros [A B] [C|C]; auto|]. intro A. split; intro; apply A; auto.
Qed.
Lemma phase_nil t c : ~ In t (finishers c) -> phase t c = [].
Proof.
  intro H. destruct (phase t c) eqn:E; [reflexivity|]. exfalso. apply H, phase_fin. congruence.
Qed.
Lemma step_added s l s' r t : Inv s -> step s l = Some (s', r) ->
  k_dcbs (s_task s' t) = k_dcbs (s_task s t) ++ added t [l].
Proof.
  intros I S. destruct l as [o|u m|v|e|x ok|u| | | | | |g].
  2-12: cbn [added]; rewrite app_nil_r; pose proof (step_tstep _ _ _ _ t I S) as T;
    inversion T; try discriminate; subst; try reflexivity;
    unfold raised, returned; try destruct e; try destruct e0; try destruct (Nat.eqb _ _); reflexivity.
  destruct o as [u|u|u m|u|u|u c|e|e|i|k].
  6: { cbn. rewrite app_nil_r. unfold step in S. destruct (s_halt s); [discriminate|]. inversion S; subst.
    unfold add_done. destruct (done s u); cbn; unfold upd; rewrite (Nat.eqb_sym t u);
      destruct (Nat.eqb_spec u t); subst; cbn; rewrite ?app_nil_r; reflexivity. }
  all: cbn [added]; rewrite app_nil_r; pose proof (step_tstep _ _ _ _ t I S) as T;
    inversion T; try discriminate; subst; try reflexivity;
    unfold raised, returned; try destruct e; try destruct e0; try destruct (Nat.eqb _ _); reflexivity.
Qed.
Lemma added_app t l m : added t (l ++ m) = added t l ++ added t m.
Proof.
  induction l as [|a l IH]; cbn; [reflexivity|]. destruct a as [[]| | | | | | | | | | | ]; cbn; try exact IH.
  rewrite IH. apply app_assoc.
Qed.
Lemma exec_added (P : st -> label -> Prop) s ls s' t : (forall s l, P s l -> sim_ok s l) -> Inv s -> execP P s ls s' ->
  k_dcbs (s_task s' t) = k_dcbs (s_task s t) ++ added t ls.
Proof.
  intros HP I0 E. induction E as [|s l s1 r ls s2 p S E IH]; [now rewrite app_nil_r|].
  destruct (inv_step s l s1 r I0) as (I1 & _ & _); [eapply sim_prime, HP, p|exact S|].
  rewrite (IH I1), (step_added _ _ _ _ t I0 S), <- app_assoc. f_equal.
  change (l :: ls) with ([l] ++ ls). now rewrite added_app.
Qed.
Lemma callbacks_pf t ls s : execP (calm t) init ls s ->
  if done s t then
    if completing s t then exists i, called t (s_log s) = firstn i (added t ls)
    else called t (s_log s) = added t ls
  else called t (s_log s) = [].
Proof.
  intro E.
  destruct (execP_inv (calm t) (CI t) init ls s) as [I C]; [intros ? ? []; auto| |apply inv_init|apply ci_init|exact E|].
  { intros a l a' r Ia [_ Pc] Ca S. eapply ci_step; try eassumption.
    intros c El. apply completing_fin, (Pc c El). }
  assert (A : k_dcbs (s_task s t) = added t ls).
  { rewrite (exec_added (calm t) init ls s t); [reflexivity|intros ? ? []; auto|apply inv_init|exact E]. }
  unfold CI in C. rewrite called_calls. destruct (completing s t) eqn:Ec.
  - destruct (phase t (s_ctl s)) as [|i [|]] eqn:Ep.
    + rewrite C. destruct (done s t); [|reflexivity]. exists (length (added t ls)).
      now rewrite A, firstn_all.
    + destruct C as (-> & _ & C). exists i. now rewrite C, A.
    + destruct C.
  - apply completing_fin in Ec. apply phase_nil in Ec. rewrite Ec in C. rewrite C.
    destruct (done s t); [exact A|reflexivity].
Qed.

(** * C19 *)
Definition armed (k : task) : Prop :=
  k_state k = Scheduled /\ (exists m, k_exc k = Some (ECancelled m)) /\ k_must k <> 0.
Definition doomed (k : task) : Prop := k_state k = Running /\ k_must k <> 0.
Definition verdict (k : task) : Prop :=
  (exists m, k_state k = Cancelled /\ k_outcome k = Some (OExc (ECancelled m))) \/
  (k_state k = Errored /\ k_outcome k = Some (OExc EIgnoredCancel)) \/
  (exists n, k_state k = Errored /\ k_outcome k = Some (OExc (EExit n))).
Lemma verdict_ended s t : verdict (s_task s t) -> ended_by_cancel s t.
Proof.
  unfold ended_by_cancel, py_result, state_of.
  intros [(m & E1 & E2)|[(E1 & E2)|(n & E1 & E2)]]; rewrite E1, E2; [left|right; left|right; right]; eauto.
Qed.
Lemma verdict_stable s s' t : Stable s s' -> verdict (s_task s t) -> verdict (s_task s' t).
Proof.
  intros St V. assert (D : done s t = true).
  { unfold done, state_of. destruct V as [(m & E1 & E2)|[(E1 & E2)|(n & E1 & E2)]]; rewrite E1; reflexivity. }
  destruct (St t D) as [A B]. unfold verdict, state_of in *. rewrite A, B. exact V.
Qed.
Lemma raised_verdict k e : k_must k <> 0 -> verdict (raised k e).
Proof.
  intro M. unfold verdict, raised. apply Nat.eqb_neq in M. rewrite M.
  destruct e; cbn; [left|right; right|right; left|right; left|right; left|right; left]; eauto.
Qed.
Lemma doomed_step l t k k' : tstep l t k k' -> l <> LOp (OpUncancel t) -> doomed k -> doomed k' \/ verdict k'.
Proof.
  intros T NU [R M]. unfold doomed.
  inversion T; subst; try congruence; cbn in *; auto;
    try (match goal with H : _ = _ \/ _ = _ |- _ => destruct H; congruence end);
    try (match goal with H : idle _ |- _ => destruct H as [?|[?|?]]; congruence end).
  - right. unfold returned. destruct (Nat.eqb_spec (k_must k) 0); [contradiction|]. right; left. auto.
  - right. now apply raised_verdict.
  - right. right; left. auto.
Qed.
Lemma armed_step l t k k' : tstep l t k k' -> l <> LOp (OpUncancel t) -> l <> LOp (OpKill t) ->
  armed k -> armed k' \/ doomed k' \/ verdict k'.
Proof.
  intros T NU NK (R & (m & Em) & M). unfold armed, doomed.
  inversion T; subst; try congruence; cbn in *; eauto 10;
    try (match goal with H : _ = _ \/ _ = _ |- _ => destruct H; congruence end).
  - right; right. replace e with (ECancelled m) by congruence. now apply raised_verdict.
  - right; right. left. exists m0. auto.
Qed.

Lemma cancel_step s t m s' r : Inv s -> step s (LOp (OpCancel t m)) = Some (s', r) ->
  if done s t then r = RBool false /\ s' = s
  else match state_of s t with
       | Running => r = RErr PRuntime /\ s' = s
       | _ => r = RBool true /\ state_of s' t = Scheduled /\
              k_exc (s_task s' t) = Some (ECancelled m) /\ k_must (s_task s' t) <> 0
       end.
Proof.
  intros I S. pose proof (inv_step _ _ _ _ I (Logic.I : prime_ok (LOp (OpCancel t m))) S) as (_ & _ & F).
  unfold step in S. destruct (s_halt s); [discriminate|]. inversion S as [E]. cbn [do_op] in E. clear S.
  unfold cancel in E. unfold done. destruct (state_of s t) eqn:Es; cbn [is_done].
  - inversion E; subst. unfold state_of; cbn. rewrite !upd_same; cbn. auto.
  - inversion E; subst. unfold state_of in *; cbn. rewrite !upd_same; cbn. rewrite Es. auto.
  - destruct (cancel_tcb s t) as [s1 [e|]] eqn:Ec.
    + exfalso. unfold cancel_tcb in Ec. inversion E; subst.
      destruct (L_pend _ _ (J_loc _ _ I) t (fun x => x) Es) as (tr & h & Hh).
      destruct (L_cpend _ _ (J_loc _ _ I) _ _ _ Hh) as (_ & _ & T). rewrite T in Ec.
      unfold fair in F. destruct e; try tauto.
      unfold deregister in Ec.
      destruct (existsb (fun c => Nat.eqb (fst c) h) (s_cbs s tr)) eqn:Ex.
      * destruct (s_cbs (set_cbs s tr _) tr); [|discriminate].
        destruct tr; cbn in Ec; try discriminate. destruct (g_hdl _); discriminate.
      * discriminate.
    + inversion E; subst. unfold state_of; cbn. rewrite !upd_same; cbn. auto.
  - inversion E; subst. auto.
  - inversion E; subst. auto.
  - inversion E; subst. auto.
  - inversion E; subst. auto.
Qed.
Lemma cancel_result_pf ls s t m s' r : reach ls s -> step s (LOp (OpCancel t m)) = Some (s', r) ->
  if done s t then r = RBool false /\ s' = s
  else match state_of s t with
       | Running => r = RErr PRuntime /\ s' = s
       | _ => r = RBool true /\ state_of s' t = Scheduled /\
              k_exc (s_task s' t) = Some (ECancelled m)
       end.
Proof.
  intros H S. pose proof (cancel_step s t m s' r (reach_inv _ _ H) S) as C.
  destruct (done s t); [exact C|]. destruct (state_of s t); tauto.
Qed.

Lemma left_alone_sim t s l : left_alone t s l -> sim_ok s l.
Proof. intros []. assumption. Qed.
Lemma doomed_exec t s ls s' : Inv s -> execP (left_alone t) s ls s' ->
  doomed (s_task s t) \/ verdict (s_task s t) -> doomed (s_task s' t) \/ verdict (s_task s' t).
Proof.
  intros I0 E D.
  apply (execP_inv (left_alone t) (fun s => doomed (s_task s t) \/ verdict (s_task s t)) s ls s');
    [apply left_alone_sim| |exact I0|exact D|exact E].
  intros a l a' r Ia (P1 & P2 & P3) Ka S.
  destruct Ka as [Ka|Ka].
  - eapply doomed_step; [eapply step_tstep; eassumption|exact P2|exact Ka].
  - right. eapply verdict_stable; [|exact Ka].
    apply (inv_step _ _ _ _ Ia (sim_prime _ _ P1) S).
Qed.
Lemma armed_exec t s ls s' : Inv s -> execP (left_alone t) s ls s' -> armed (s_task s t) ->
  armed (s_task s' t) \/ doomed (s_task s' t) \/ verdict (s_task s' t).
Proof.
  intros I0 E D.
  apply (execP_inv (left_alone t)
    (fun s => armed (s_task s t) \/ doomed (s_task s t) \/ verdict (s_task s t)) s ls s');
    [apply left_alone_sim| |exact I0|left; exact D|exact E].
  intros a l a' r Ia (P1 & P2 & P3) Ka S. pose proof (step_tstep _ _ _ _ t Ia S) as T.
  destruct Ka as [Ka|[Ka|Ka]].
  - eapply armed_step; eassumption.
  - right. eapply doomed_step; eassumption.
  - right; right. eapply verdict_stable; [|exact Ka]. apply (inv_step _ _ _ _ Ia (sim_prime _ _ P1) S).
Qed.

Lemma contract_pf ls s t m s1 ms s2 : reach ls s ->
  step s (LOp (OpCancel t m)) = Some (s1, RBool true) -> execP (left_alone t) s1 ms s2 ->
  (state_of s2 t = Scheduled /\ exists m', k_exc (s_task s2 t) = Some (ECancelled m')) \/
  state_of s2 t = Running \/ ended_by_cancel s2 t.
Proof.
  intros H S E. pose proof (reach_inv _ _ H) as I0.
  destruct (inv_step _ _ _ _ I0 (Logic.I : prime_ok (LOp (OpCancel t m))) S) as (I1 & _ & _).
  assert (A : armed (s_task s1 t)).
  { pose proof (cancel_step s t m s1 _ I0 S) as C. destruct (done s t); [destruct C; discriminate|].
    unfold armed. destruct (state_of s t); try (destruct C; discriminate);
      destruct C as (_ & A & B & D); unfold state_of in A; eauto. }
  destruct (armed_exec t s1 ms s2 I1 E A) as [(B & C & _)|[(B & _)|V]]; unfold state_of; eauto.
  right; right. now apply verdict_ended.
Qed.
Lemma contract_resumed_pf ls s t m s1 ms s2 ns s3 : reach ls s ->
  step s (LOp (OpCancel t m)) = Some (s1, RBool true) -> execP (left_alone t) s1 ms s2 ->
  state_of s2 t = Running -> execP (left_alone t) s2 ns s3 ->
  state_of s3 t = Running \/ ended_by_cancel s3 t.
Proof.
  intros H S E R E'. pose proof (reach_inv _ _ H) as I0.
  destruct (inv_step _ _ _ _ I0 (Logic.I : prime_ok (LOp (OpCancel t m))) S) as (I1 & _ & _).
  assert (A : armed (s_task s1 t)).
  { pose proof (cancel_step s t m s1 _ I0 S) as C. destruct (done s t); [destruct C; discriminate|].
    unfold armed. destruct (state_of s t); try (destruct C; discriminate);
      destruct C as (_ & A & B & D); unfold state_of in A; eauto. }
  assert (I2 : Inv s2) by (eapply execP_Inv; [|exact I1|exact E]; apply left_alone_sim).
  destruct (armed_exec t s1 ms s2 I1 E A) as [(B & C & _)|V].
  - unfold state_of in R. congruence.
  - destruct (doomed_exec t s2 ns s3 I2 E' V) as [(D & _)|W]; [left; exact D|right; now apply verdict_ended].
Qed.

Definition stillborn (k : task) : Prop :=
  (k_state k = Scheduled /\ (exists m, k_exc k = Some (ECancelled m)) /\ k_begun k = false) \/
  is_done (k_state k) = true.
Lemma stillborn_tstep l t k k' : tstep l t k k' -> k_state k = Scheduled ->
  (exists m, k_exc k = Some (ECancelled m)) -> k_begun k = false -> stillborn k'.
Proof.
  intros T A (m & B) C. unfold stillborn.
  inversion T; subst; try congruence; cbn in *;
    try (match goal with H : _ = _ \/ _ = _ |- _ => destruct H; congruence end);
    try (right; reflexivity);
    try (left; split; [assumption|split; [eexists; first [eassumption|reflexivity]|assumption]]).
  right. unfold raised. destruct e; reflexivity.
Qed.
Lemma cancel_begun t m k k' : tstep (LOp (OpCancel t m)) t k k' -> k_begun k = false -> k_state k <> Running ->
  k_begun k' = false.
Proof. intros T B N. inversion T; subst; try discriminate; try contradiction; exact B. Qed.
Lemma stillborn_step s l s' r t : Inv s -> prime_ok l -> step s l = Some (s', r) ->
  stillborn (s_task s t) -> stillborn (s_task s' t).
Proof.
  intros I P S [(A & B & C)|D].
  - eapply stillborn_tstep; [eapply step_tstep; eassumption|assumption..].
  - right. destruct (inv_step _ _ _ _ I P S) as (_ & St & _). exact (stable_done _ _ t St D).
Qed.
Lemma never_started_pf ls s t m s1 ms s2 : reach ls s -> k_begun (s_task s t) = false ->
  step s (LOp (OpCancel t m)) = Some (s1, RBool true) -> execP sim_ok s1 ms s2 ->
  state_of s2 t <> Running /\ forall f, In f (s_ctl s2) -> f <> FRun t /\ f <> FClose t.
Proof.
  intros H Bg S E. pose proof (reach_inv _ _ H) as I0.
  destruct (inv_step _ _ _ _ I0 (Logic.I : prime_ok (LOp (OpCancel t m))) S) as (I1 & _ & _).
  assert (A : stillborn (s_task s1 t)).
  { pose proof (cancel_step s t m s1 _ I0 S) as C. pose proof (step_tstep _ _ _ _ t I0 S) as T.
    assert (Bg1 : k_begun (s_task s1 t) = false).
    { eapply cancel_begun; [exact T|exact Bg|]. fold (state_of s t). intro R. rewrite R in C.
      unfold done in C. rewrite R in C. destruct C; discriminate. }
    destruct (done s t); [destruct C; discriminate|].
    left. destruct (state_of s t); try (destruct C; discriminate);
      destruct C as (_ & A & B & D); unfold state_of in A; eauto. }
  destruct (execP_inv sim_ok (fun s => stillborn (s_task s t)) s1 ms s2) as [I2 B]; auto.
  { intros a l a' r Ia P Ka Sa. eapply stillborn_step; eauto using sim_prime. }
  assert (NR : state_of s2 t <> Running).
  { destruct B as [(B & _)|B]; unfold state_of; intro Q; rewrite Q in B; discriminate. }
  split; [exact NR|]. intros f If.
  assert (G : active t f = true -> False).
  { intro Af. apply NR. apply (L_run _ _ (J_loc _ _ I2)). eapply active_runner; eassumption. }
  split; intros ->; apply G; cbn; apply Nat.eqb_refl.
Qed.

(** * C20 *)
Lemma deque_pf ls s : reach ls s -> replay (s_log s) = Some (queued s).
Proof. intro H. apply (J_log _ _ (reach_inv _ _ H)). Qed.
Lemma sublist_refl {A} (l : list A) : sublist l l.
Proof. induction l; [constructor|now apply sub_keep]. Qed.
Lemma sublist_snoc {A} (l m : list A) x : sublist l m -> sublist (l ++ [x]) (m ++ [x]).
Proof.
  induction 1 as [l|y l m H IH|y l m H IH]; cbn.
  - induction l; cbn; [apply sub_keep; constructor|now apply sub_skip].
  - now apply sub_skip.
  - now apply sub_keep.
Qed.
Lemma sublist_insert {A} (l m n : list A) x : sublist l (m ++ n) -> sublist l (m ++ x :: n).
Proof.
  revert l. induction m as [|y m IH]; cbn; intros l H; [now apply sub_skip|].
  inversion H; subst; [constructor|apply sub_skip; auto|apply sub_keep; auto].
Qed.
Lemma replay_sub l : forall q, replay l = Some q -> sublist (scheds l) (pops l ++ q).
Proof.
  induction l as [|o l IH]; cbn; intros q E.
  - constructor.
  - destruct o; cbn in *; auto.
    + destruct (replay l) as [q'|]; [|discriminate]. inversion E; subst. rewrite app_assoc.
      apply sublist_snoc, IH, eq_refl.
    + destruct (replay l) as [q'|]; [|discriminate]. inversion E; subst. apply sublist_insert, IH, eq_refl.
    + destruct (replay l) as [[|[h' t'] q']|]; try discriminate.
      destruct (Nat.eqb_spec h h'), (Nat.eqb_spec t t'); try discriminate. inversion E; subst.
      rewrite <- app_assoc. apply IH, eq_refl.
Qed.
Lemma replay_fifo l : forall q, replay l = Some q -> lefts l = [] -> scheds l = pops l ++ q.
Proof.
  induction l as [|o l IH]; cbn; intros q E N.
  - inversion E; reflexivity.
  - destruct o; cbn in *; auto.
    + destruct (replay l) as [q'|]; [|discriminate]. inversion E; subst. rewrite app_assoc.
      f_equal. apply IH; auto.
    + destruct (lefts l); discriminate.
    + destruct (replay l) as [[|[h' t'] q']|]; try discriminate.
      destruct (Nat.eqb_spec h h'), (Nat.eqb_spec t t'); try discriminate. inversion E; subst.
      rewrite <- app_assoc. apply IH; auto.
Qed.
Lemma replay_perm l : forall q, replay l = Some q -> Permutation (pops l ++ q) (scheds l ++ lefts l).
Proof.
  induction l as [|o l IH]; cbn; intros q E.
  - inversion E; reflexivity.
  - destruct o; cbn in *; auto.
    + destruct (replay l) as [q'|]; [|discriminate]. inversion E; subst. specialize (IH q' eq_refl).
      transitivity ((h, t) :: scheds l ++ lefts l).
      * rewrite app_assoc. rewrite <- Permutation_cons_append. now apply perm_skip.
      * rewrite <- app_assoc. apply Permutation_middle.
    + destruct (replay l) as [q'|]; [|discriminate]. inversion E; subst. specialize (IH q' eq_refl).
      rewrite <- Permutation_middle, IH, app_assoc. apply Permutation_cons_append.
    + destruct (replay l) as [[|[h' t'] q']|]; try discriminate.
      destruct (Nat.eqb_spec h h'), (Nat.eqb_spec t t'); try discriminate. inversion E; subst.
      rewrite <- app_assoc. apply IH, eq_refl.
Qed.
Lemma fifo_pf ls s : reach ls s -> lefts (s_log s) = [] -> scheds (s_log s) = pops (s_log s) ++ queued s.
Proof. intros H N. eapply replay_fifo; [|exact N]. eapply deque_pf, H. Qed.
Lemma fifo_gen_pf ls s : reach ls s ->
  sublist (scheds (s_log s)) (pops (s_log s) ++ queued s) /\
  Permutation (pops (s_log s) ++ queued s) (scheds (s_log s) ++ lefts (s_log s)).
Proof. intro H. pose proof (deque_pf _ _ H) as E. split; [apply replay_sub|apply replay_perm]; exact E. Qed.

Lemma pop_pf ls s s' r : reach ls s -> step s LPop = Some (s', r) ->
  exists q rest, s_queue s = q :: rest /\
    if q_cancelled q then s_log s' = OPop (q_id q) (q_task q) false :: s_log s /\ s_task s' = s_task s /\ s_queue s' = rest
    else state_of s (q_task q) = Scheduled /\
      exists l, s_log s' = l ++ OResume (q_task q) (k_exc (s_task s (q_task q))) ::
                           OPop (q_id q) (q_task q) true :: s_log s.
Proof.
  intros H S. unfold step in S. destruct (s_halt s); [discriminate|].
  destruct (s_ctl s); [|discriminate]. destruct (s_queue s) as [|q rest] eqn:Eq; [discriminate|].
  exists q, rest. split; [reflexivity|]. inversion S; subst. destruct (q_cancelled q) eqn:Ec; [auto|].
  split.
  - apply (L_qlive _ _ (J_loc _ _ (reach_inv _ _ H)) (q_id q)). rewrite Eq. left. destruct q; cbn in *; congruence.
  - unfold resume. cbn [negb k_exc s_task log set_queue].
    destruct (k_exc (s_task s (q_task q))) as [e|].
    + destruct (k_begun _); [exists []; reflexivity|]. unfold coro_raised.
      destruct e; try destruct (Nat.eqb _ _); cbn; eexists [_]; reflexivity.
    + destruct (k_wait _); [exists []; reflexivity|eexists [_]; reflexivity].
Qed.

(** Waiters are in the order in which they blocked. *)
Lemma blocks_in tr l h t : In (h, t) (blocks tr l) <-> In (OBlock t tr h) l.
Proof.
  induction l as [|o l IH]; cbn; [tauto|].
  destruct o; cbn; try (rewrite IH; split; [auto|intros [E|E]; [discriminate|exact E]]).
  rewrite in_app_iff, IH. destruct (trig_eqb_spec tr0 tr) as [->|N]; cbn.
  - split; [intros [A|[A|[]]]; [auto|inversion A; subst; auto]|].
    intros [A|A]; [inversion A; subst; auto|auto].
  - split; [tauto|]. intros [A|A]; [inversion A; subst; contradiction|auto].
Qed.
Lemma blocks_sorted tr l : log_ok l -> StronglySorted lt (map fst (blocks tr l)).
Proof.
  induction l as [|o l IH]; cbn; intro H; [constructor|]. destruct H as [A B]. specialize (IH B).
  destruct o; cbn in *; auto. destruct (trig_eqb_spec tr0 tr) as [->|N]; [|now rewrite app_nil_r].
  rewrite map_app. apply sorted_snoc; [exact IH|]. intros x Hx. apply in_map_iff in Hx.
  destruct Hx as ([h' u] & <- & Hu). cbn. apply blocks_in in Hu. destruct A as [_ A]. eapply A, Hu.
Qed.
Lemma sorted_sublist (l m : list (nat * tid)) :
  StronglySorted lt (map fst l) -> StronglySorted lt (map fst m) -> (forall x, In x l -> In x m) -> sublist l m.
Proof.
  revert l. induction m as [|y m IH]; intros l Sl Sm Inc.
  - destruct l as [|x l]; [constructor|]. exfalso. apply (Inc x). now left.
  - cbn in Sm. apply StronglySorted_inv in Sm. destruct Sm as [Sm Fm]. rewrite Forall_forall in Fm.
    destruct l as [|x l]; [constructor|].
    cbn in Sl. pose proof Sl as Sl'. apply StronglySorted_inv in Sl'. destruct Sl' as [Sl' Fl].
    rewrite Forall_forall in Fl.
    destruct (Inc x (or_introl eq_refl)) as [->|Ix].
    + apply sub_keep. apply IH; auto. intros z Hz. destruct (Inc z (or_intror Hz)) as [->|]; [|assumption].
      exfalso. apply (in_map fst) in Hz. apply Fl in Hz. lia.
    + apply sub_skip. apply IH; auto. intros z Hz.
      destruct (Inc z Hz) as [->|]; [|assumption]. exfalso. destruct Hz as [->|Hz].
      * apply (in_map fst) in Ix. apply Fm in Ix. lia.
      * apply (in_map fst) in Hz. apply Fl in Hz. apply (in_map fst) in Ix. apply Fm in Ix. lia.
Qed.
Lemma block_order_pf ls s tr : reach ls s -> sublist (s_cbs s tr) (blocks tr (s_log s)).
Proof.
  intro H. pose proof (reach_inv _ _ H) as I. pose proof (J_log _ _ I) as G. apply sorted_sublist.
  - apply (J_loc _ _ I).
  - apply blocks_sorted, G.
  - intros [h t] Hx. apply blocks_in. apply (G_cbs _ _ G). exact Hx.
Qed.

Lemma react_wakes X s0 s tr : Loc X s0 -> s_cbs s0 = s_cbs s -> s_queue s0 = s_queue s ->
  wakes_all s (react s0 tr) [tr].
Proof.
  intros L E1 E2. split; [|split].
  - intros x [<-|[]]. rewrite react_cbs. apply updt_same.
  - exists (batch (s_next s0) (s_cbs s0 tr)). rewrite react_queue, E2. split; [reflexivity|]. split.
    + rewrite batch_tasks. cbn. rewrite app_nil_r, E1. reflexivity.
    + apply batch_live.
  - intros x t [<-|[]] Ht. unfold waiters in Ht. rewrite <- E1 in Ht.
    destruct (react_task s0 tr t) as [[N _]|[_ [h E]]]; [contradiction|].
    unfold state_of. rewrite E. auto.
Qed.
Lemma fire_pf ls s g s' r : reach ls s -> step s (LFire g) = Some (s', r) ->
  s_queue s = [] /\ s_ctl s = [] /\ wakes_all s s' [TGpi g].
Proof.
  intros H S. unfold step in S. destruct (s_halt s); [discriminate|].
  destruct (s_ctl s); [|discriminate]. destruct (s_queue s) eqn:Eq; [|discriminate].
  destruct (g_armed _); [|discriminate]. inversion S; subst. split; [reflexivity|]. split; [reflexivity|].
  apply (react_wakes []); try reflexivity.
  eapply loc_same; [..|apply (J_loc _ _ (reach_inv _ _ H))]; reflexivity.
Qed.

(** * C21 *)
Lemma event_blocked_pf ls s e t : reach ls s -> In t (waiters s (TEvent e)) -> s_event s e = false.
Proof.
  intros H I. destruct (s_event s e) eqn:E; [|reflexivity]. exfalso.
  unfold waiters in I. rewrite (O_event _ (J_obj _ _ (reach_inv _ _ H)) e E) in I. destruct I.
Qed.
Lemma event_set_pf ls s e s' r : reach ls s -> step s (LOp (OpSet e)) = Some (s', r) ->
  s_event s' e = true /\ wakes_all s s' [TEvent e].
Proof.
  intros H S. unfold step in S. destruct (s_halt s); [discriminate|]. inversion S; subst. unfold event_set.
  split; [rewrite react_event; apply upd_same|].
  apply (react_wakes []); try reflexivity.
  eapply loc_same; [..|apply (J_loc _ _ (reach_inv _ _ H))]; reflexivity.
Qed.
Lemma event_leave_pf ls s l s' r e t : reach ls s -> sim_ok s l -> step s l = Some (s', r) ->
  In t (waiters s (TEvent e)) -> ~ In t (waiters s' (TEvent e)) ->
  l = LOp (OpSet e) \/ l = LOp (OpKill t) \/ exists m, l = LOp (OpCancel t m) \/ l = LCancelNow t m.
Proof.
  intros H P S I N. unfold waiters in I. apply in_map_iff in I. destruct I as ([h u] & E & I). cbn in E; subst u.
  destruct (step_cbs s l s' r (TEvent e) h t (reach_inv _ _ H) S I) as [Q|[Q|Q]].
  - exfalso. apply N. apply (in_map snd) in Q. exact Q.
  - left. exact Q.
  - right. exact Q.
Qed.
Lemma event_await_pf ls s t rest e ok s' r : reach ls s -> s_ctl s = FRun t :: rest ->
  k_must (s_task s t) = 0 -> step s (LAwait (TEvent e) ok) = Some (s', r) ->
  if s_event s e
  then state_of s' t = Scheduled /\ k_exc (s_task s' t) = None /\
       exists h, s_queue s' = s_queue s ++ [QEnt h t false]
  else state_of s' t = Pending /\ exists h, s_cbs s' (TEvent e) = s_cbs s (TEvent e) ++ [(h, t)].
Proof.
  intros H Ec M S. pose proof (J_obj _ _ (reach_inv _ _ H)) as O.
  unfold step in S. destruct (s_halt s); [discriminate|]. rewrite Ec in S.
  assert (E : await_trigger s rest t (TEvent e) ok = (s', r)) by congruence. clear S.
  unfold await_trigger in E. cbn [await_check] in E. apply (f_equal fst) in E. cbn [fst] in E. rewrite <- E. clear E.
  unfold coro_yielded. cbn [s_task set_ctl set_task]. rewrite upd_same. cbn [k_must with_wait].
  rewrite M. cbn [Nat.eqb negb]. unfold register. cbn [s_cbs set_ctl set_task set_next log].
  destruct (s_event s e) eqn:Ee.
  - rewrite (O_event _ O e Ee). cbn [prime s_event set_ctl set_task set_next set_cbs log]. rewrite Ee.
    cbn. rewrite ?updt_same. cbn. unfold state_of. cbn. rewrite ?upd_same. cbn. eauto.
  - destruct (s_cbs s (TEvent e)) as [|c q] eqn:Eq;
      cbn [prime s_event set_ctl set_task set_next set_cbs log]; rewrite ?Ee; cbn; rewrite ?updt_same;
      unfold state_of; cbn; rewrite ?upd_same; cbn; eauto.
Qed.

(** * C22 *)
Lemma lock_free_pf ls s k : reach ls s -> l_current (s_lock s k) = None -> l_pending (s_lock s k) = [].
Proof. intros H. apply (J_obj _ _ (reach_inv _ _ H)). Qed.
Lemma lock_waiting_pf ls s k n : reach ls s ->
  (In n (l_pending (s_lock s k)) <-> exists t, waiters s (TLock k n) = [t]).
Proof.
  intro H. pose proof (J_obj _ _ (reach_inv _ _ H)) as O. rewrite (O_lock3 _ O k n). unfold waiters.
  pose proof (O_lock4 _ O k n) as Ln. split.
  - destruct (s_cbs s (TLock k n)) as [|[h t] [|]]; cbn in *; [tauto|eauto|lia].
  - intros [t E]. destruct (s_cbs s (TLock k n)); [discriminate|congruence].
Qed.
Lemma holder_none k l : log_ok l ->
  handovers k l = releases k l + match holder k l with Some _ => 1 | None => 0 end.
Proof.
  induction l as [|o l IH]; cbn; intro H; [reflexivity|]. destruct H as [A B]. specialize (IH B).
  unfold handovers, releases in *. destruct o; cbn in *; auto.
  - destruct (Nat.eqb_spec l0 k) as [->|]; cbn; [|exact IH]. rewrite A in IH. lia.
  - destruct (Nat.eqb_spec l0 k) as [->|]; cbn; [|exact IH]. destruct (holder k l); [lia|congruence].
Qed.
Lemma mutex_pf ls s k : reach ls s ->
  handovers k (s_log s) = releases k (s_log s) + match l_current (s_lock s k) with Some _ => 1 | None => 0 end.
Proof.
  intro H. pose proof (J_log _ _ (reach_inv _ _ H)) as G. rewrite holder_none by apply G.
  now rewrite (G_hold _ _ G).
Qed.
Lemma handover_free_pf ls s k n l1 l2 : reach ls s -> s_log s = l1 ++ OHold k n :: l2 -> handovers k l2 = releases k l2.
Proof.
  intros H E. pose proof (G_ok _ _ (J_log _ _ (reach_inv _ _ H))) as Lo. rewrite E in Lo.
  apply log_ok_app in Lo. destruct Lo as [A B]. cbn in A. rewrite holder_none by exact B. rewrite A. lia.
Qed.
Lemma release_pf ls s k s' r : reach ls s -> step s (LOp (OpRelease k)) = Some (s', r) ->
  match l_current (s_lock s k), l_pending (s_lock s k) with
  | None, _ => r = RErr PRuntime /\ s' = s
  | Some _, [] => r = RUnit /\ l_current (s_lock s' k) = None
  | Some _, n :: p => r = RUnit /\ s_lock s' k = Lock (Some n) p /\
      (exists t, waiters s (TLock k n) = [t]) /\ wakes_all s s' [TLock k n]
  end.
Proof.
  intros H S. pose proof (reach_inv _ _ H) as I. unfold step in S. destruct (s_halt s); [discriminate|].
  inversion S as [E]. clear S. cbn [do_op] in E. rewrite release_eq in E. cbv zeta in E.
  destruct (l_current (s_lock s k)) eqn:Ec; [|inversion E; subst; auto].
  destruct (l_pending (s_lock s k)) as [|n0 p] eqn:Ep.
  - inversion E; subst. split; [reflexivity|]. cbn. rewrite upd_same. reflexivity.
  - assert (Er : r = RUnit) by (apply (f_equal snd) in E; cbn in E; congruence).
    apply (f_equal fst) in E. cbn [fst] in E. rewrite <- E. clear E.
    split; [exact Er|]. split; [|split].
    + unfold acquire_and_fire. rewrite react_lock. cbn [s_lock set_lock log]. rewrite !upd_same. reflexivity.
    + apply (lock_waiting_pf ls s k n0 H). rewrite Ep. now left.
    + unfold acquire_and_fire. apply (react_wakes []); try reflexivity.
      eapply loc_same; [..|apply (J_loc _ _ I)]; reflexivity.
Qed.
(** The first of the waiting acquisitions blocked first. *)
Lemma fair_pf ls s k n p : reach ls s -> l_pending (s_lock s k) = n :: p ->
  forall m, In m p -> exists h t h' t',
    s_cbs s (TLock k n) = [(h, t)] /\ s_cbs s (TLock k m) = [(h', t')] /\
    exists a b c, s_log s = a ++ OBlock t' (TLock k m) h' :: b ++ OBlock t (TLock k n) h :: c.
Proof.
  intros H Ep m Im. pose proof (reach_inv _ _ H) as I. pose proof (J_obj _ _ I) as O.
  pose proof (J_log _ _ I) as G. pose proof (reach_lk _ _ H k) as K. rewrite Ep in K. cbn in K.
  assert (C : forall x, In x (n :: p) -> exists h t, s_cbs s (TLock k x) = [(h, t)]).
  { intros x Hx. rewrite <- Ep in Hx. apply (O_lock3 _ O) in Hx. pose proof (O_lock4 _ O k x).
    destruct (s_cbs s (TLock k x)) as [|[h t] [|]]; cbn in *; [congruence|eauto|lia]. }
  destruct (C n) as (h & t & C1); [now left|]. destruct (C m) as (h' & t' & C2); [now right|].
  exists h, t, h', t'. split; [exact C1|]. split; [exact C2|].
  apply StronglySorted_inv in K. destruct K as [_ F]. rewrite Forall_forall in F.
  specialize (F (handle s k m) (in_map _ _ _ Im)). unfold handle in F. rewrite C1, C2 in F.
  assert (B1 : In (OBlock t (TLock k n) h) (s_log s)) by (apply (G_cbs _ _ G); rewrite C1; now left).
  assert (B2 : In (OBlock t' (TLock k m) h') (s_log s)) by (apply (G_cbs _ _ G); rewrite C2; now left).
  apply in_split in B2. destruct B2 as (a & d & El). rewrite El in B1.
  pose proof (G_ok _ _ G) as Lo. rewrite El in Lo.
  apply in_app_iff in B1. destruct B1 as [B1|[B1|B1]].
  - exfalso. clear - Lo B1 F. induction a as [|y a IH]; cbn in *; [tauto|]. destruct Lo as [Lo1 Lo2].
    destruct B1 as [->|B1]; [|auto]. cbn in Lo1. destruct Lo1 as [_ Lo1].
    specialize (Lo1 t' (TLock k m) h'). rewrite in_app_iff in Lo1. specialize (Lo1 (or_intror (or_introl eq_refl))). lia.
  - inversion B1; subst. lia.
  - apply in_split in B1. destruct B1 as (b & c & ->). exists a, b, c. exact El.
Qed.
Lemma await_twice_pf ls s t rest k n ok s' r : reach ls s -> s_ctl s = FRun t :: rest ->
  (l_current (s_lock s k) = Some n \/ exists u, waiters s (TLock k n) = [u]) ->
  step s (LAwait (TLock k n) ok) = Some (s', r) -> r = RErr PRuntime /\ s' = s.
Proof.
  intros H Ec D S. unfold step in S. destruct (s_halt s); [discriminate|]. rewrite Ec in S.
  assert (E : await_trigger s rest t (TLock k n) ok = (s', r)) by congruence. clear S.
  unfold await_trigger in E.
  assert (A : await_check s (TLock k n) = None).
  { cbn. destruct D as [D|D].
    - rewrite D, Nat.eqb_refl. reflexivity.
    - apply (lock_waiting_pf ls s k n H) in D.
      assert (X : existsb (Nat.eqb n) (l_pending (s_lock s k)) = true).
      { apply existsb_exists. exists n. split; [exact D|apply Nat.eqb_refl]. }
      rewrite X, orb_true_r. reflexivity. }
  rewrite A in E. inversion E; subst. auto.
Qed.

(** * C24 *)
Lemma join_blocked_pf ls s u t tr : reach ls s -> tr = TComplete u \/ tr = TJoin u -> In t (waiters s tr) ->
  done s u = true -> completing s u = true.
Proof.
  intros H Etr I D. destruct (completing s u) eqn:C; [reflexivity|]. exfalso.
  apply completing_fin in C. destruct (O_comp _ (J_obj _ _ (reach_inv _ _ H)) u D C) as [A B].
  unfold waiters in I. destruct Etr as [->| ->]; rewrite ?A, ?B in I; destruct I.
Qed.
Lemma complete_pf ls s u i k rest s' r : reach ls s -> s_ctl s = FDone u i k :: rest ->
  length (k_dcbs (s_task s u)) <= i -> step s LDoneNext = Some (s', r) ->
  s_ctl s' = rest /\ wakes_all s s' [TComplete u; TJoin u].
Proof.
  intros H Ec Hi S. pose proof (reach_inv _ _ H) as I. unfold step in S. destruct (s_halt s); [discriminate|].
  rewrite Ec in S. apply nth_error_None in Hi. rewrite Hi in S. inversion S; subst. clear S.
  assert (L1 : Loc [] (set_ctl s rest)).
  { pose proof (J_loc _ _ I) as L. constructor; cbn; try apply L.
    - intros v Hv. apply (L_run _ _ L). rewrite Ec. exact Hv.
    - intros v Nv Sv. pose proof (L_runs _ _ L v Nv Sv) as Q. rewrite Ec in Q. exact Q.
    - pose proof (L_rund _ _ L) as Q. rewrite Ec in Q. exact Q. }
  set (s1 := set_ctl s rest). set (s2 := react s1 (TComplete u)). set (s3 := react s2 (TJoin u)).
  assert (W : s_ctl s3 = rest /\ wakes_all s s3 [TComplete u; TJoin u]).
  { split; [unfold s3, s2; rewrite !react_ctl; reflexivity|]. split; [|split].
    - intros x [<-|[<-|[]]]; unfold s3, s2; rewrite !react_cbs.
      + rewrite updt_other by discriminate. apply updt_same.
      + apply updt_same.
    - exists (batch (s_next s1) (s_cbs s1 (TComplete u)) ++ batch (s_next s2) (s_cbs s2 (TJoin u))).
      unfold s3. rewrite react_queue. unfold s2 at 1. rewrite react_queue. split; [symmetry; apply app_assoc|].
      assert (C2 : s_cbs s2 (TJoin u) = s_cbs s (TJoin u)).
      { unfold s2. rewrite react_cbs. now rewrite updt_other. }
      split.
      + rewrite map_app, !batch_tasks, C2. cbn. now rewrite app_nil_r.
      + intros e Ie. apply in_app_iff in Ie. destruct Ie as [Ie|Ie]; eapply batch_live, Ie.
    - intros x t Hx Ht.
      assert (C2 : s_cbs s2 (TJoin u) = s_cbs s (TJoin u)).
      { unfold s2. rewrite react_cbs. now rewrite updt_other. }
      destruct (react_task s2 (TJoin u) t) as [[N E]|[Y [h E]]].
      + assert (Hc : x = TComplete u).
        { destruct Hx as [<-|[<-|[]]]; [reflexivity|]. exfalso. apply N. rewrite C2. exact Ht. }
        subst x. destruct (react_task s1 (TComplete u) t) as [[N' _]|[_ [h E']]]; [contradiction|].
        unfold state_of, s3. rewrite E. unfold s2. rewrite E'. auto.
      + unfold state_of, s3. rewrite E. auto. }
  unfold finish_outcome. fold s1. fold s2. fold s3. destruct k; exact W.
Qed.
Lemma join_leave_pf ls s l s' r u t tr : reach ls s -> sim_ok s l -> step s l = Some (s', r) ->
  tr = TComplete u \/ tr = TJoin u ->
  In t (waiters s tr) -> ~ In t (waiters s' tr) ->
  (l = LDoneNext /\ exists i k rest, s_ctl s = FDone u i k :: rest /\ length (k_dcbs (s_task s u)) <= i) \/
  l = LOp (OpKill t) \/ exists m, l = LOp (OpCancel t m) \/ l = LCancelNow t m.
Proof.
  intros H P S Etr I N. unfold waiters in I. apply in_map_iff in I. destruct I as ([h v] & E & I). cbn in E; subst v.
  destruct (step_cbs s l s' r tr h t (reach_inv _ _ H) S I) as [Q|[Q|Q]].
  - exfalso. apply N. apply (in_map snd) in Q. exact Q.
  - left. destruct Etr as [->| ->]; destruct Q as [-> (i & k & rest & A & B)]; (split; [reflexivity|]);
      exists i, k, rest; (split; [exact A|]); now apply nth_error_None.
  - right. exact Q.
Qed.
Lemma await_done_pf ls s t rest u s' r : reach ls s -> s_ctl s = FRun t :: rest -> done s u = true ->
  step s (LAwaitTask u) = Some (s', r) ->
  exists o, k_outcome (s_task s u) = Some o /\ r = RGot o /\ s_ctl s' = s_ctl s /\ s_task s' = s_task s.
Proof.
  intros H Ec D S. destruct (D_out _ (J_dn _ _ (reach_inv _ _ H)) u D) as (o & Eo & _).
  exists o. split; [exact Eo|]. unfold step in S. destruct (s_halt s); [discriminate|]. rewrite Ec in S.
  assert (E : await_task s rest t u = (s', r)) by congruence. clear S. unfold await_task in E.
  assert (N : match state_of s u with Unstarted => fst (start_soon s u) | _ => s end = s).
  { unfold done in D. destruct (state_of s u); try reflexivity. discriminate. }
  rewrite N, D in E. unfold result_of in E. rewrite D, Eo in E. inversion E; subst. auto.
Qed.
Lemma await_live_pf ls s t rest u s' r : reach ls s -> s_ctl s = FRun t :: rest -> done s u = false ->
  k_must (s_task s t) = 0 -> step s (LAwaitTask u) = Some (s', r) ->
  state_of s' t = Pending /\ In t (waiters s' (TComplete u)) /\ state_of s' u <> Unstarted.
Proof.
  intros H Ec D M S. pose proof (reach_inv _ _ H) as I.
  pose proof (inv_step _ _ _ _ I (Logic.I : prime_ok (LAwaitTask u)) S) as (I' & _ & _).
  pose proof (run_state _ _ _ I Ec) as Rt.
  unfold step in S. destruct (s_halt s); [discriminate|]. rewrite Ec in S.
  assert (E : await_task s rest t u = (s', r)) by congruence. clear S. unfold await_task in E.
  set (s1 := match state_of s u with Unstarted => fst (start_soon s u) | _ => s end) in *.
  assert (D1 : done s1 u = false).
  { unfold s1, start_soon. destruct (state_of s u) eqn:Eu; try exact D. unfold done, state_of; cbn.
    now rewrite upd_same. }
  assert (U1 : state_of s1 u <> Unstarted).
  { unfold s1, start_soon. destruct (state_of s u) eqn:Eu; try congruence. unfold state_of; cbn.
    rewrite upd_same. discriminate. }
  assert (T1 : s_task s1 t = s_task s t).
  { unfold s1, start_soon. destruct (state_of s u) eqn:Eu; try reflexivity. cbn. apply upd_other.
    intros ->. congruence. }
  rewrite D1 in E. apply (f_equal fst) in E. cbn [fst] in E. rewrite <- E. clear E.
  unfold coro_yielded. cbn [s_task set_ctl set_task]. rewrite upd_same. cbn [k_must with_wait].
  rewrite T1, M. cbn [Nat.eqb negb].
  set (s2 := set_task (set_ctl (set_task s1 t (with_wait (s_task s t) (WTask u))) rest) t
     (with_state (with_wait (s_task s t) (WTask u)) Pending)).
  assert (D2 : forall k h c, done (log (set_cbs (set_task (set_next s2 h) t k) (TComplete u) c) (OBlock t (TComplete u) (s_next s2))) u = true ->
     k_state k = Pending -> False).
  { intros k h c Q Kp. unfold done, state_of in Q. cbn in Q. unfold upd in Q. destruct (Nat.eqb_spec u t) as [->|N].
    - rewrite Kp in Q. discriminate.
    - unfold done, state_of in D1. congruence. }
  assert (G : forall s3, s_task s3 = upd (s_task s2) t (with_tcb (s_task s2 t) (TComplete u) (s_next s2)) ->
     (exists h, s_cbs s3 (TComplete u) = s_cbs s2 (TComplete u) ++ [(h, t)]) ->
     state_of (set_current s3 None) t = Pending /\ In t (waiters (set_current s3 None) (TComplete u)) /\
     state_of (set_current s3 None) u <> Unstarted).
  { intros s3 Et [h Eh]. split; [|split].
    - unfold state_of; cbn. rewrite Et. unfold s2; cbn. rewrite !upd_same. reflexivity.
    - unfold waiters; cbn. rewrite Eh, map_app, in_app_iff. right. now left.
    - unfold state_of; cbn. rewrite Et. unfold s2; cbn. unfold upd.
      rewrite Nat.eqb_refl. destruct (Nat.eqb_spec u t) as [->|N]; cbn; [discriminate|]. exact U1. }
  unfold register. set (h := s_next s2).
  destruct (s_cbs s2 (TComplete u)) as [|c q] eqn:Eq.
  - cbn [prime]. match goal with |- context [if done ?x u then _ else _] => destruct (done x u) eqn:Dx end.
    + exfalso. eapply D2; [exact Dx|]. unfold s2; cbn. rewrite !upd_same. reflexivity.
    + apply G; [reflexivity|]. exists h. cbn. rewrite updt_same. unfold s2 in Eq. cbn in Eq. rewrite Eq. reflexivity.
  - apply G; [reflexivity|]. exists h. cbn. rewrite updt_same. unfold s2 in Eq. cbn in Eq. rewrite Eq. reflexivity.
Qed.
Lemma got_pf ls s t u o : reach ls s -> In (OGot t u o) (s_log s) ->
  done s u = true /\ exists v, o = Some v /\ k_outcome (s_task s u) = Some v.
Proof.
  intros H I. pose proof (reach_inv _ _ H) as Iv. destruct (G_got _ _ (J_log _ _ Iv) t u o I) as (v & A & B).
  split; [|eauto]. destruct (done s u) eqn:D; [reflexivity|]. rewrite (D_none _ (J_dn _ _ Iv) u D) in B. discriminate.
Qed.

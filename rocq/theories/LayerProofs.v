(** Facts about kernel steps for the layers whose objects have done callbacks of their own and wait on their own Events: what a
    step does to a Task blocked on a trigger, and to a Task whose first done callback has not been called. *)
From Verif Require Import Base KernelModel KernelProofs KernelHist KernelLog KernelInv KernelTask KernelWake KernelLayer KernelStack.
From Coq Require Import Arith.

(** What [t] goes on with: without exception, if [R] holds, or with a CancelledError. *)
Definition got (k : st) (t : tid) (R : Prop) : Prop :=
  match k_exc (s_task k t) with None => R | Some (ECancelled _) => True | Some _ => False end.
(** [t] has awaited [tr]; when it goes on, this is because [R] holds or because it was cancelled. *)
Definition waiting (k : st) (t : tid) (tr : trig) (R : Prop) : Prop :=
  done k t = true \/
  (exists h, In (h, t) (s_cbs k tr)) \/
  (state_of k t = Scheduled /\ got k t R) \/
  (In (FRun t) (s_ctl k) /\ got k t R) \/
  In (FClose t) (s_ctl k).
Lemma got_mono k t (R R' : Prop) : (R -> R') -> got k t R -> got k t R'.
Proof. unfold got. destruct (k_exc _) as [[]|]; auto. Qed.
Lemma waiting_mono k t tr (R R' : Prop) : (R -> R') -> waiting k t tr R -> waiting k t tr R'.
Proof.
  intros Im [D|[B|[[Sc Rd]|[[Fr Rd]|Fc]]]]; [now left|right; now left|do 2 right; left|do 3 right; left|do 4 right; exact Fc]; (split; [assumption|]); now apply (got_mono k t R).
Qed.
Lemma waiting_step k l k' r t tr R : Inv k -> step k l = Some (k', r) -> prime_ok l -> ~ wakes k l tr ->
  is_call l = true \/ ~ on_top t (s_ctl k) -> waiting k t tr R -> waiting k' t tr R.
Proof.
  intros H0 St Pr Nw Top W. destruct (inv_step k l k' r H0 Pr St) as (H1 & Sb & _).
  unfold waiting. destruct W as [D|[[h I]|[[Sc Rd]|[[Fr Rd]|Fc]]]].
  - left. apply (stable_done k k' t Sb D).
  - destruct (step_pending k l k' r _ h t H0 St I Nw) as [I'|[D|(m & _ & Ex & [Es|(Es & _ & Ec)] & _)]].
    + right. left. eauto.
    + now left.
    + right. right. left. split; [exact Es|]. unfold got. rewrite Ex. exact Logic.I.
    + right. right. right. left. rewrite Ec. split; [now left|]. unfold got. rewrite Ex. exact Logic.I.
  - assert (T := step_tstep _ _ _ _ t H0 St). unfold state_of in Sc. unfold done, state_of, got in *.
    assert (Rn : state_of k' t = Running -> got k' t R ->
      (In (FRun t) (s_ctl k') /\ got k' t R) \/ In (FClose t) (s_ctl k')).
    { intros Rn Rd'. pose proof (L_runs _ _ (J_loc _ _ H1) t (fun f => f) Rn) as I. unfold runners in I. apply in_flat_map in I.
      destruct I as ([a|a|a b c] & If & Ia); cbn in Ia; try tauto; destruct Ia as [->|[]]; auto. }
    inversion T as [E|h Hs E|Hl E|c Hl E|h m Hl Hs E|m Hl Hs E|Hl Hs E|Hl Hs He E|e Hl Hs He Hb E|m Hl Hs Hb E|m Hl Hs Hb E
      |v Hl Hs E|e Hl Hs E|w tr' h Hs Hm E|w tr' h h' e Hs Hm He E|h Hl Hs Hm E|w Hs Hm E|Hl Hs E]; try congruence;
      try (destruct Hs; congruence).
    + right. right. left. rewrite <- E in *. auto.
    + right. right. left. cbn. split; [exact Sc|exact Rd].
    + right. right. left. cbn. split; [exact Sc|exact Rd].
    + right. right. left. cbn. split; [exact Sc|exact Logic.I].
    + left. reflexivity.
    + right. right. right. rewrite E. apply Rn; unfold state_of, got; rewrite <- E; cbn; [reflexivity|exact Rd].
    + left. unfold raised. destruct e; reflexivity.
    + right. right. right. rewrite E. apply Rn; unfold state_of, got; rewrite <- E; cbn; [reflexivity|exact Logic.I].
    + left. reflexivity.
  - right. right. right. left.
    assert (Ru : state_of k t = Running).
    { apply (L_run _ _ (J_loc _ _ H0)). unfold runners. apply in_flat_map. exists (FRun t). split; [exact Fr|now left]. }
    destruct (step_running k l k' r t H0 St Ru Top) as [E|[(_ & E)|(c & _ & E)]]; unfold got; rewrite E; cbn [with_must with_dcbs k_exc].
    all: split; [|exact Rd]; apply (step_frames k l k' r (FRun t) St); destruct (is_call l) eqn:Ic; [exact Fr|];
      destruct Top as [C|N]; [congruence|]; destruct (s_ctl k) as [|f q]; [destruct Fr|];
      destruct Fr as [->|I]; [elim N; exists q; now left|exact I].
  - right. right. right. right. apply (step_frames k l k' r (FClose t) St). destruct (is_call l) eqn:Ic; [exact Fc|].
    destruct Top as [C|N]; [congruence|]; destruct (s_ctl k) as [|f q]; [destruct Fc|].
    destruct Fc as [->|I]; [elim N; exists q; now right|exact I].
Qed.
Lemma waiting_set k e t (R R' : Prop) : Inv k -> R' -> waiting k t (TEvent e) R -> waiting (event_set k e) t (TEvent e) R'.
Proof.
  intros H Hr W. unfold waiting. destruct (ok_event_set k e H) as [_ Sb].
  assert (C : s_ctl (event_set k e) = s_ctl k) by (unfold event_set; rewrite react_ctl; reflexivity).
  destruct W as [D|[[h I]|[[Sc Rd]|[[Fr Rd]|Fc]]]].
  - left. apply (stable_done k); assumption.
  - right. right. left. unfold event_set. set (k1 := set_event k e true). destruct (react_task k1 (TEvent e) t) as [[N _]|[_ [h' E]]].
    + elim N. change (s_cbs k1) with (s_cbs k). apply in_map_iff. exists (h, t). auto.
    + unfold state_of, got. rewrite E. cbn. auto.
  - right. right. left. unfold event_set. set (k1 := set_event k e true). destruct (react_task k1 (TEvent e) t) as [[_ E]|[_ [h' E]]];
      unfold state_of, got; rewrite E; cbn; [|auto]. split; [exact Sc|]. apply (got_mono k t R R' (fun _ => Hr)). exact Rd.
  - right. right. right. left. rewrite C. split; [exact Fr|]. apply (got_mono k t R R' (fun _ => Hr)) in Rd. unfold got, event_set in *.
    destruct (react_task (set_event k e true) (TEvent e) t) as [[_ E]|[_ [h' E]]]; rewrite E; cbn; [exact Rd|exact Hr].
  - right. right. right. right. rewrite C. exact Fc.
Qed.

(** What [waiting] says about a Task which has control. *)
Lemma waiting_top k t rest tr R : Inv k -> s_ctl k = FRun t :: rest -> waiting k t tr R -> got k t R.
Proof.
  intros H Ec W. assert (Rs := run_state k t rest H Ec). destruct W as [D|[[h I]|[[Sc Rd]|[[Fr Rd]|Fc]]]].
  - unfold done in D. rewrite Rs in D. discriminate.
  - destruct (L_cpend _ _ (J_loc _ _ H) _ _ _ I) as (_ & P & _). congruence.
  - congruence.
  - auto.
  - exfalso. pose proof (L_rund _ _ (J_loc _ _ H)) as D. rewrite Ec in Fc, D. cbn in D. apply NoDup_cons_iff in D. destruct D as [D _]. apply D.
    destruct Fc as [Fc|Fc]; [discriminate|]. unfold runners. apply in_flat_map. exists (FClose t). split; [exact Fc|now left].
Qed.

(** [await] of an Event by the Task which has control. *)
Lemma await_event k rest t e (R : Prop) : s_halt k = false -> s_ctl k = FRun t :: rest -> Inv k -> (s_event k e = true -> R) ->
  snd (await_trigger k rest t (TEvent e) true) = RUnit /\ waiting (fst (await_trigger k rest t (TEvent e) true)) t (TEvent e) R.
Proof.
  intros Ha Ec H Hr. assert (Rs := run_state k t rest H Ec). unfold await_trigger. cbn [await_check fst snd]. split; [reflexivity|].
  set (s1 := set_ctl _ rest). unfold coro_yielded. destruct (negb _).
  - do 4 right. now left.
  - unfold register. set (s2 := set_task s1 t _). cbn [s_next set_task].
    set (s3 := log _ _). assert (C3 : s_cbs s3 (TEvent e) = s_cbs k (TEvent e) ++ [(s_next s2, t)]) by (unfold s3; cbn; apply updt_same).
    assert (E3 : s_event s3 = s_event k) by reflexivity. clearbody s3.
    assert (B : (exists h, In (h, t) (s_cbs s3 (TEvent e)))) by (exists (s_next s2); rewrite C3; apply in_or_app; right; now left).
    change (s_cbs s2) with (s_cbs k). destruct (s_cbs k (TEvent e)) as [|c0 cs]; [|right; left; exact B].
    cbn [prime]. destruct (s_event s3 e) eqn:Ev; [|right; left; exact B].
    right. right. left. unfold state_of. cbn [s_task set_current]. destruct (react_task s3 (TEvent e) t) as [[N _]|[_ [h' E]]].
    + elim N. destruct B as [h I]. apply in_map_iff. exists (h, t). auto.
    + unfold got. cbn [s_task set_current]. rewrite E. cbn. split; [reflexivity|]. apply Hr. congruence.
Qed.

(** [u]'s done callbacks have not been called yet. *)
Definition due (k : st) (u : tid) : Prop := done k u = false \/ exists a, In (FDone u 0 a) (s_ctl k).
Lemma due_step k l k' r u : Inv k -> step k l = Some (k', r) -> prime_ok l ->
  (l = LDoneNext -> forall a rest, s_ctl k <> FDone u 0 a :: rest) -> (due k' u <-> due k u).
Proof.
  intros H St Pr Nt. destruct (inv_step k l k' r H Pr St) as (H1 & Sb & _). split.
  - intros [D|[a I]].
    + left. destruct (done k u) eqn:E; [|reflexivity]. now rewrite (stable_done k k' u Sb E) in D.
    + destruct (step_zero k l k' r u a H St I) as [I'|D]; [right; eauto|now left].
  - intros [D|[a I]].
    + destruct (done k' u) eqn:E; [|now left]. right. destruct (step_ends k l k' r u H St D E) as (a & rest & C). exists a. rewrite C. now left.
    + right. exists a. apply (step_frames k l k' r _ St). destruct (is_call l) eqn:Ic; [exact I|].
      destruct (s_ctl k) as [|f q] eqn:Ec; [destruct I|]. destruct I as [->|I]; [|exact I]. exfalso.
      unfold step in St. rewrite Ec in St. destruct (s_halt k); [discriminate|]. destruct l; try discriminate.
      apply (Nt eq_refl a q eq_refl).
Qed.
Lemma due_live k u : done k u = false -> due k u.
Proof. now left. Qed.
Lemma due_idle k u : s_ctl k = [] -> due k u -> done k u = false.
Proof. intros E [D|[a I]]; [exact D|]. rewrite E in I. destruct I. Qed.
(** The callbacks of [u] are being called: [u] is not due. *)
Lemma due_started k u j a rest : Inv k -> s_ctl k = FDone u (S j) a :: rest -> ~ due k u.
Proof.
  intros H E [D|[b I]].
  - rewrite (D_fin _ (J_dn _ _ H) u) in D; [discriminate|]. unfold finishers. rewrite E. cbn. now left.
  - pose proof (D_find _ (J_dn _ _ H)) as N. unfold finishers in N. rewrite E in N, I. cbn in N. apply NoDup_cons_iff in N. destruct N as [N _].
    destruct I as [I|I]; [discriminate|]. apply N. apply in_flat_map. exists (FDone u 0 b). split; [exact I|now left].
Qed.

(** The list of callbacks only grows, by [_add_done_callback]. *)
Lemma step_dcbs k l k' r t : Inv k -> step k l = Some (k', r) ->
  k_dcbs (s_task k' t) = k_dcbs (s_task k t) \/ exists c, l = LOp (OpAddDone t c) /\ k_dcbs (s_task k' t) = k_dcbs (s_task k t) ++ [c].
Proof.
  intros H St. assert (T := step_tstep _ _ _ _ t H St).
  inversion T as [E|h Hs E|Hl E|c Hl E|h m Hl Hs E|m Hl Hs E|Hl Hs E|Hl Hs He E|e Hl Hs He Hb E|m Hl Hs Hb E|m Hl Hs Hb E
    |v Hl Hs E|e Hl Hs E|w tr h Hs Hm E|w tr h h' e Hs Hm He E|h Hl Hs Hm E|w Hs Hm E|Hl Hs E]; try (left; reflexivity); try (left; congruence).
  - right. exists c. auto.
  - left. unfold raised. destruct e; reflexivity.
  - left. unfold returned. destruct (Nat.eqb _ _); reflexivity.
  - left. unfold raised. destruct e; reflexivity.
Qed.
Definition evens (l : list nat) : Prop := Forall (fun c => Nat.even c = true) l.

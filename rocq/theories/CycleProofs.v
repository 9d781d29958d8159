(** Proofs about ClockCycles. *)
From Verif Require Import Base KernelModel KernelProofs KernelTask KernelInv KernelWake KernelStack CycleModel.
From Coq Require Import Arith ZArith.

(** * What the kernel logs *)
Definition same_fires (g : nat) (s s' : st) : Prop := fires g (s_log s') = fires g (s_log s).
Lemma sf_refl g s : same_fires g s s.
Proof. reflexivity. Qed.
Lemma sf_trans g a b c : same_fires g a b -> same_fires g b c -> same_fires g a c.
Proof. unfold same_fires. congruence. Qed.
Lemma sf_fold g (l : list (nat * tid)) : forall s, same_fires g s (fold_left (fun s '(h, t) => schedule_resume s t None) l s).
Proof. induction l as [|[h t] l IH]; intro s; [reflexivity|]. cbn [fold_left]. eapply sf_trans; [|apply IH]. reflexivity. Qed.
Lemma sf_react g s tr : tr <> TGpi g -> same_fires g s (react s tr).
Proof.
  intro N. unfold react. eapply sf_trans; [|apply sf_fold]. unfold same_fires, fires. cbn. destruct tr as [| | | | | |h]; try reflexivity.
  destruct (Nat.eqb_spec h g); [subst; now elim N|reflexivity].
Qed.
Lemma react_fires g s : fires g (s_log (react s (TGpi g))) = S (fires g (s_log s)).
Proof. unfold react. rewrite (sf_fold g). unfold fires. cbn. rewrite Nat.eqb_refl. reflexivity. Qed.
Lemma sf_deregister g s tr h : same_fires g s (fst (deregister s tr h)).
Proof.
  unfold deregister. destruct (existsb _ _); [|reflexivity]. cbv zeta. set (s1 := set_cbs s tr _). destruct (s_cbs s1 tr); [|reflexivity].
  destruct tr; try reflexivity. cbn. destruct (g_hdl _); reflexivity.
Qed.
Lemma sf_tcb g s t : same_fires g s (fst (cancel_tcb s t)).
Proof. unfold cancel_tcb. destruct (k_tcb _) as [[]|]; [apply sf_deregister|reflexivity]. Qed.
Lemma sf_raised g s t e : same_fires g s (coro_raised s t e).
Proof. unfold coro_raised. destruct e; try destruct (Nat.eqb _ _); reflexivity. Qed.
Lemma sf_resume g s t : same_fires g s (resume s t).
Proof.
  unfold resume. destruct (k_exc _) as [e|].
  - destruct (k_begun _); [reflexivity|]. eapply sf_trans; [|apply sf_raised]. reflexivity.
  - destruct (k_wait _); reflexivity.
Qed.
Lemma sf_prime g s tr ok : same_fires g s (fst (prime s tr ok)).
Proof.
  destruct tr; cbn [prime fst].
  - destruct (s_event s e); [apply sf_react; discriminate|reflexivity].
  - destruct (i_fired _); [apply sf_react; discriminate|reflexivity].
  - destruct (l_current _); [reflexivity|]. unfold acquire_and_fire. eapply sf_trans; [|apply sf_react; discriminate]. reflexivity.
  - apply sf_react. discriminate.
  - destruct (done s _); [apply sf_react; discriminate|reflexivity].
  - destruct (done s _); [apply sf_react; discriminate|reflexivity].
  - destruct ok; reflexivity.
Qed.
Lemma sf_yielded g s t y ok : same_fires g s (coro_yielded s t y ok).
Proof.
  unfold coro_yielded. destruct (negb _); [reflexivity|]. destruct y as [tr|]; [|reflexivity].
  assert (G : same_fires g s (fst (register (set_task s t (with_state (s_task s t) Pending)) tr t ok))).
  { unfold register. destruct (s_cbs _ tr); [|reflexivity]. eapply sf_trans; [|apply sf_prime]. reflexivity. }
  destruct (register _ tr t ok) as [s1 b]. cbn [fst] in G. destruct b; exact G.
Qed.
Lemma sf_check g s tr s' : await_check s tr = Some s' -> same_fires g s s'.
Proof.
  destruct tr; cbn; intro E; try (injection E as <-; reflexivity).
  - destruct (i_awaited _); [discriminate|injection E as <-; reflexivity].
  - destruct (_ || _); [discriminate|injection E as <-; reflexivity].
Qed.
Lemma sf_outcome g s t x o k : same_fires g s (set_outcome s t x o k).
Proof. reflexivity. Qed.
(** A trigger of the simulator fires only in its own step. *)
Theorem step_fires g s l s' r : step s l = Some (s', r) -> l <> LFire g -> same_fires g s s'.
Proof.
  intros St N. unfold step in St. destruct (s_halt s); [discriminate|]. destruct l as [o|u m|v|e|x ok|u| | | | | |h].
  - assert (E : do_op s o = (s', r)) by congruence. clear St. destruct o; cbn [do_op] in E.
    + unfold start_soon in E. destruct (state_of s t); inversion E; subst; reflexivity.
    + unfold start_next in E. destruct (state_of s t); inversion E; subst; reflexivity.
    + unfold cancel in E. pose proof (sf_tcb g s t) as T. destruct (state_of s t); try (inversion E; subst; reflexivity).
      destruct (cancel_tcb s t) as [s1 [e|]]; inversion E; subst; exact T.
    + unfold kill in E. pose proof (sf_tcb g s t) as T. destruct (state_of s t); try (inversion E; subst; reflexivity).
      * unfold cancel_scb in E. destruct (k_scb _); inversion E; subst; reflexivity.
      * destruct (cancel_tcb s t) as [s1 [e|]]; inversion E; subst; exact T.
    + inversion E; subst; reflexivity.
    + inversion E; subst. unfold add_done. destruct (done s t); reflexivity.
    + inversion E; subst. unfold event_set. eapply sf_trans; [|apply sf_react; discriminate]. reflexivity.
    + inversion E; subst; reflexivity.
    + inversion E; subst. unfold ievent_set. eapply sf_trans; [|apply sf_react; discriminate]. reflexivity.
    + unfold release in E. destruct (l_current _); [|inversion E; subst; reflexivity]. cbv zeta in E.
      destruct (l_pending _); inversion E; subst; [reflexivity|]. unfold acquire_and_fire. eapply sf_trans; [|apply sf_react; discriminate]. reflexivity.
  - assert (E : cancel_now s u m = (s', r)) by (destruct (s_ctl s) as [|[ | | ]]; try discriminate; congruence).
    unfold cancel_now in E. pose proof (sf_tcb g s u) as T.
    destruct (state_of s u); try (inversion E; subst; first [reflexivity|eapply sf_trans; [|apply sf_resume]; reflexivity]).
    + unfold cancel_scb in E. destruct (k_scb _); inversion E; subst; [|reflexivity]. eapply sf_trans; [|apply sf_resume]. reflexivity.
    + destruct (cancel_tcb s u) as [s1 [e|]]; inversion E; subst; [exact T|]. eapply sf_trans; [|apply sf_resume]. exact T.
  - destruct (s_ctl s) as [|[v0| | ] rest]; try discriminate. inversion St; subst. unfold coro_returned. destruct (Nat.eqb _ _); reflexivity.
  - destruct (s_ctl s) as [|[v0| | ] rest]; try discriminate. inversion St; subst. eapply sf_trans; [|apply sf_raised]. reflexivity.
  - destruct (s_ctl s) as [|[v0| | ] rest]; try discriminate. injection St as E. unfold await_trigger in E.
    destruct (await_check s x) as [s1|] eqn:Ck; inversion E; subst; [|reflexivity]. eapply sf_trans; [exact (sf_check g _ _ _ Ck)|].
    eapply sf_trans; [|apply sf_yielded]. reflexivity.
  - destruct (s_ctl s) as [|[v0| | ] rest]; try discriminate. injection St as E. unfold await_task in E.
    set (s1 := match state_of s u with Unstarted => fst (start_soon s u) | _ => s end) in *.
    assert (T : same_fires g s s1) by (unfold s1, start_soon; destruct (state_of s u); reflexivity).
    destruct (done s1 u); [destruct (result_of s1 u); inversion E; subst; exact T|]. inversion E; subst.
    eapply sf_trans; [exact T|]. eapply sf_trans; [|apply sf_yielded]. reflexivity.
  - destruct (s_ctl s) as [|[v0| | ] rest]; try discriminate. inversion St; subst. eapply sf_trans; [|apply sf_yielded]. reflexivity.
  - destruct (s_ctl s) as [|[ |v0| ] rest]; try discriminate. inversion St; subst. reflexivity.
  - destruct (s_ctl s) as [|[ |v0| ] rest]; try discriminate. inversion St; subst. reflexivity.
  - destruct (s_ctl s) as [|[ | |v0 i k] rest]; try discriminate. destruct (nth_error _ _); inversion St; subst; [reflexivity|].
    unfold finish_outcome. assert (A : same_fires g s (react (set_ctl s rest) (TComplete v0))) by (eapply sf_trans; [|apply sf_react; discriminate]; reflexivity).
    assert (B := sf_react g (react (set_ctl s rest) (TComplete v0)) (TJoin v0) ltac:(discriminate)). assert (C := sf_trans _ _ _ _ A B). destruct k; exact C.
  - destruct (s_ctl s); try discriminate. destruct (s_queue s) as [|q rest]; [discriminate|]. inversion St; subst.
    destruct (q_cancelled q); [reflexivity|]. eapply sf_trans; [|apply sf_resume]. reflexivity.
  - destruct (s_ctl s); try discriminate. destruct (s_queue s); [|discriminate]. destruct (g_armed _); [|discriminate]. inversion St; subst.
    eapply sf_trans; [|apply sf_react; congruence]. reflexivity.
Qed.

(** * The invariant *)
(** Task [t] waits in the loop: [c] firings since the call, [m] turns to go after the present one, [n] turns in all. *)
Definition waits (k : st) (t : tid) (g m n c : nat) : Prop :=
  done k t = true \/
  ((exists h, In (h, t) (s_cbs k (TGpi g))) /\ S (c + m) = n) \/
  (state_of k t = Scheduled /\ (k_exc (s_task k t) = None -> c + m = n)) \/
  (In (FRun t) (s_ctl k) /\ (k_exc (s_task k t) = None -> c + m = n)) \/
  In (FClose t) (s_ctl k).
Record CI (x : cst) : Prop := {
  Z_k : Inv (c_k x);
  Z_in : forall t g m, c_in x t = Some (g, m) -> exists n l0 new, last_begin t (c_hist x) = Some (g, n, l0) /\
    s_log (c_k x) = new ++ l0 /\ waits (c_k x) t g m (Z.to_nat n) (fires g new) }.

Lemma fires_app g a b : fires g (a ++ b) = fires g a + fires g b.
Proof. unfold fires. rewrite filter_app, app_length. reflexivity. Qed.
Lemma same_new g k k' new a : same_fires g k k' -> s_log k' = a ++ s_log k -> fires g (a ++ new) = fires g new.
Proof. unfold same_fires. intros E L. rewrite L, !fires_app in *. lia. Qed.

Lemma waits_step k l k' r t g m n c c' : Inv k -> step k l = Some (k', r) -> prime_ok l -> is_call l = true \/ ~ on_top t (s_ctl k) ->
  (l <> LFire g -> c' = c) -> (l = LFire g -> c' = S c) -> waits k t g m n c -> waits k' t g m n c'.
Proof.
  intros H0 St Pr Top E1 E2 W. destruct (inv_step k l k' r H0 Pr St) as (H1 & Sb & _).
  assert (Dl : l = LFire g \/ l <> LFire g) by (destruct l as [ | | | | | | | | | | |h]; try (right; discriminate); destruct (Nat.eq_dec h g); [left|right]; congruence).
  unfold waits. destruct W as [D|[[[h I] E]|[[Sc Rd]|[[Fr Rd]|Fc]]]].
  - left. apply (stable_done k k' t Sb D).
  - destruct Dl as [Dl|Dl].
    + right. right. left. subst l. unfold step in St. destruct (s_halt k); [discriminate|]. destruct (s_ctl k); [|discriminate].
      destruct (s_queue k); [|discriminate]. destruct (g_armed _); [|discriminate]. injection St as <- <-. unfold state_of.
      match goal with |- context[react ?a ?b] => set (k2 := a); destruct (react_task k2 b t) as [[Nt _]|[_ [h' Eh]]] end.
      * exfalso. apply Nt. change (s_cbs k2) with (s_cbs k). apply in_map_iff. exists (h, t). auto.
      * rewrite Eh. cbn. split; [reflexivity|]. intros _. rewrite (E2 eq_refl). lia.
    + rewrite (E1 Dl). destruct (step_pending k l k' r _ h t H0 St I) as [I'|[D|(a & _ & Ex & [Es|(Es & _ & Ec)] & _)]].
      * intro W'. cbn in W'. congruence.
      * right. left. eauto.
      * now left.
      * right. right. left. split; [exact Es|]. rewrite Ex. discriminate.
      * right. right. right. left. rewrite Ec. split; [now left|]. rewrite Ex. discriminate.
  - destruct Dl as [Dl|Dl].
    { exfalso. subst l. unfold step in St. destruct (s_halt k); [discriminate|]. destruct (s_ctl k); [|discriminate].
      destruct (s_queue k) eqn:Eq; [|discriminate]. destruct (L_sched _ _ (J_loc _ _ H0) t (fun f => f) Sc) as (q & Iq). rewrite Eq in Iq. destruct Iq. }
    rewrite (E1 Dl). assert (T := step_tstep _ _ _ _ t H0 St). unfold state_of in Sc. unfold done, state_of.
    assert (Rn : state_of k' t = Running -> (k_exc (s_task k' t) = None -> c + m = n) ->
      (In (FRun t) (s_ctl k') /\ (k_exc (s_task k' t) = None -> c + m = n)) \/ In (FClose t) (s_ctl k')).
    { intros Rn Rd'. pose proof (L_runs _ _ (J_loc _ _ H1) t (fun f => f) Rn) as I. unfold runners in I. apply in_flat_map in I.
      destruct I as ([a|a|a b d] & If & Ia); cbn in Ia; try tauto; destruct Ia as [->|[]]; auto. }
    inversion T as [E|h Hs E|Hl E|d Hl E|h a Hl Hs E|a Hl Hs E|Hl Hs E|Hl Hs He E|e Hl Hs He Hb E|a Hl Hs Hb E|a Hl Hs Hb E
      |v Hl Hs E|e Hl Hs E|w tr h Hs Hm E|w tr h h' e Hs Hm He E|h Hl Hs Hm E|w Hs Hm E|Hl Hs E]; try congruence;
      try (destruct Hs; congruence).
    * right. right. left. rewrite <- E in *. auto.
    * right. right. left. cbn. split; [exact Sc|exact Rd].
    * right. right. left. cbn. split; [exact Sc|exact Rd].
    * right. right. left. cbn. split; [exact Sc|discriminate].
    * left. reflexivity.
    * right. right. right. rewrite E. apply Rn; unfold state_of; rewrite <- E; cbn; [reflexivity|exact Rd].
    * left. unfold raised. destruct e; reflexivity.
    * right. right. right. rewrite E. apply Rn; unfold state_of; rewrite <- E; cbn; [reflexivity|discriminate].
    * left. reflexivity.
  - right. right. right. left. assert (Nf : l <> LFire g).
    { intro Q. subst l. unfold step in St. destruct (s_halt k); [discriminate|]. destruct (s_ctl k); [destruct Fr|discriminate]. }
    rewrite (E1 Nf). assert (R : state_of k t = Running).
    { apply (L_run _ _ (J_loc _ _ H0)). unfold runners. apply in_flat_map. exists (FRun t). split; [exact Fr|now left]. }
    destruct (step_running k l k' r t H0 St R Top) as [E|[(_ & E)|(d & _ & E)]]; rewrite E; cbn [with_must with_dcbs k_exc].
    all: split; [|exact Rd]; apply (step_frames k l k' r (FRun t) St); destruct (is_call l) eqn:Ic; [exact Fr|];
      destruct Top as [C|N]; [congruence|]; destruct (s_ctl k) as [|f q]; [destruct Fr|];
      destruct Fr as [->|I]; [elim N; exists q; now left|exact I].
  - right. right. right. right. apply (step_frames k l k' r (FClose t) St). destruct (is_call l) eqn:Ic; [exact Fc|].
    destruct Top as [C|N]; [congruence|]; destruct (s_ctl k) as [|f q]; [destruct Fc|].
    destruct Fc as [->|I]; [elim N; exists q; now right|exact I].
Qed.

Lemma fire_count g k k' r new a : step k (LFire g) = Some (k', r) -> s_log k' = a ++ s_log k -> fires g (a ++ new) = S (fires g new).
Proof.
  intros St L. unfold step in St. destruct (s_halt k); [discriminate|]. destruct (s_ctl k); [|discriminate]. destruct (s_queue k); [|discriminate].
  destruct (g_armed _); [|discriminate]. injection St as <- <-. pose proof (react_fires g (set_gpi k g (Gpi (g_hdl (s_gpi k g)) false))) as E.
  rewrite L in E. cbn [set_gpi s_log] in E. rewrite !fires_app in *. lia.
Qed.

(** A kernel step and the Tasks it does not run. *)
Lemma others x l k r t g m : CI x -> step (c_k x) l = Some (k, r) -> prime_ok l -> is_call l = true \/ ~ on_top t (s_ctl (c_k x)) ->
  c_in x t = Some (g, m) -> exists n l0 new, last_begin t (c_hist x) = Some (g, n, l0) /\
    s_log k = new ++ l0 /\ waits k t g m (Z.to_nat n) (fires g new).
Proof.
  intros C St Pr Top Ei. destruct (Z_in x C t g m Ei) as (n & l0 & new & Hb & Hl & W). destruct (step_log _ _ _ _ St) as [a La].
  exists n, l0, (a ++ new). split; [exact Hb|]. split; [rewrite La, Hl, app_assoc; reflexivity|].
  apply (waits_step (c_k x) l k r t g m (Z.to_nat n) (fires g new)); auto.
  - exact (Z_k x C).
  - intro N. apply (same_new g (c_k x) k); [apply (step_fires g _ _ _ _ St N)|exact La].
  - intros ->. apply (fire_count g (c_k x) k r); assumption.
Qed.

Lemma await_gpi k rest t g : let k' := fst (await_trigger k rest t (TGpi g) true) in
  snd (await_trigger k rest t (TGpi g) true) = RUnit /\
  (In (FClose t) (s_ctl k') \/ exists h, In (h, t) (s_cbs k' (TGpi g))).
Proof.
  cbv zeta. unfold await_trigger. cbn [await_check fst snd]. split; [reflexivity|].
  set (s1 := set_ctl _ rest). unfold coro_yielded. destruct (negb _); [left; now left|]. right. exists (s_next s1).
  unfold register. set (s2 := set_task s1 t _). cbn [s_next set_task]. destruct (s_cbs s2 (TGpi g)) eqn:E; cbn [prime set_gpi set_current set_cbs log s_cbs].
  - rewrite updt_same. apply in_or_app. right. now left.
  - rewrite updt_same. apply in_or_app. right. now left.
Qed.
Lemma top_running k t rest : Inv k -> s_ctl k = FRun t :: rest -> state_of k t = Running.
Proof. intros H E. apply (run_state k t rest H E). Qed.

Lemma cturn_ok x rest t g m n l0 new : Inv (c_k x) -> s_halt (c_k x) = false -> s_ctl (c_k x) = FRun t :: rest ->
  (forall u g' m', u <> t -> c_in x u = Some (g', m') -> exists n l0 new, last_begin u (c_hist x) = Some (g', n, l0) /\
    s_log (c_k x) = new ++ l0 /\ waits (c_k x) u g' m' (Z.to_nat n) (fires g' new)) ->
  last_begin t (c_hist x) = Some (g, n, l0) -> s_log (c_k x) = new ++ l0 -> fires g new + m = Z.to_nat n ->
  CI (fst (cturn x rest t g m)).
Proof.
  intros H Ha Ec Ot Hb Hl Hc. unfold cturn. destruct m as [|m].
  - cbn [fst]. split; [exact H|]. cbn. intros u g' m'. unfold upd. destruct (Nat.eqb_spec u t); [discriminate|]. now apply Ot.
  - assert (St := await_step (c_k x) t rest (TGpi g) true Ha Ec). destruct (await_gpi (c_k x) rest t g) as [Er Eg].
    destruct (await_trigger (c_k x) rest t (TGpi g) true) as [k r]. cbn [fst snd] in *. subst r. cbn [fst].
    assert (Pr : prime_ok (LAwait (TGpi g) true)) by reflexivity.
    destruct (inv_step _ _ _ _ H Pr St) as (H1 & _). destruct (step_log _ _ _ _ St) as [a La].
    split; [exact H1|]. cbn. intros u g' m'. unfold upd. destruct (Nat.eqb_spec u t) as [->|N].
    + intro E. injection E as <- <-. exists n, l0, (a ++ new). split; [exact Hb|]. split; [rewrite La, Hl, app_assoc; reflexivity|].
      rewrite (same_new g (c_k x) k new a); [|apply (step_fires g _ _ _ _ St); discriminate|exact La].
      destruct Eg as [F|R]; [do 4 right; exact F|right; left]. split; [exact R|lia].
    + intro E. destruct (Ot u g' m' N E) as (n' & l1 & new1 & A & B & W). exists n', l1, (a ++ new1). split; [exact A|].
      split; [rewrite La, B, app_assoc; reflexivity|].
      apply (waits_step (c_k x) (LAwait (TGpi g) true) k RUnit u g' m' _ (fires g' new1)); auto; try discriminate.
      * right. intros [q [Q|Q]]; rewrite Ec in Q; congruence.
      * intros _. apply (same_new g' (c_k x) k); [apply (step_fires g' _ _ _ _ St); discriminate|exact La].
Qed.

(** What [waits] says about the Task which has control. *)
Lemma waits_top k t rest g m n c : Inv k -> s_ctl k = FRun t :: rest -> waits k t g m n c -> k_exc (s_task k t) = None -> c + m = n.
Proof.
  intros H Ec W Ex. assert (R := top_running k t rest H Ec). destruct W as [D|[[[h I] E]|[[Sc Rd]|[[Fr Rd]|Fc]]]].
  - unfold done in D. rewrite R in D. discriminate.
  - destruct (L_cpend _ _ (J_loc _ _ H) _ _ _ I) as (_ & P & _). congruence.
  - congruence.
  - auto.
  - exfalso. pose proof (L_rund _ _ (J_loc _ _ H)) as D. rewrite Ec in Fc, D. cbn in D. apply NoDup_cons_iff in D. destruct D as [D _]. apply D.
    destruct Fc as [Fc|Fc]; [discriminate|]. unfold runners. apply in_flat_map. exists (FClose t). split; [exact Fc|now left].
Qed.

Theorem cstep_ok x l x' r : CI x -> match l with CUser (LAwait _ ok) => ok = true | _ => True end -> cstep x l = Some (x', r) -> CI x'.
Proof.
  intros C Ok St. unfold cstep in St. destruct l as [kl|g n|].
  - destruct (cuser x) eqn:U; [|discriminate]. destruct (step (c_k x) kl) as [[k q]|] eqn:Sk; [|discriminate]. injection St as <- <-.
    assert (Pr : prime_ok kl) by (destruct kl; try exact Logic.I; destruct tr; try exact Logic.I; exact Ok).
    destruct (inv_step _ _ _ _ (Z_k x C) Pr Sk) as (H1 & _). split; [exact H1|]. cbn. intros t g m Ei.
    apply (others x kl k q t g m C Sk Pr); [|exact Ei]. right. intros [rest T]. unfold cuser in U.
    destruct T as [T|T]; rewrite T, Ei in U; discriminate.
  - destruct (s_halt (c_k x)) eqn:Ha; [discriminate|]. destruct (s_ctl (c_k x)) as [|[t| | ] rest] eqn:Ec; try discriminate.
    destruct (c_in x t) eqn:Ei; [discriminate|]. injection St as E.
    assert (G : CI (fst (cturn {| c_k := c_k x; c_in := c_in x; c_hist := HBegin t g n (s_log (c_k x)) :: c_hist x |} rest t g (Z.to_nat n)))).
    { apply (cturn_ok _ rest t g (Z.to_nat n) n (s_log (c_k x)) []); cbn [c_k c_in c_hist]; auto.
      - exact (Z_k x C).
      - intros u g' m' N Eu. cbn [last_begin]. destruct (Nat.eqb_spec t u); [congruence|]. exact (Z_in x C u g' m' Eu).
      - cbn. now rewrite Nat.eqb_refl. }
    rewrite E in G. exact G.
  - destruct (s_halt (c_k x)) eqn:Ha; [discriminate|]. destruct (s_ctl (c_k x)) as [|[t|t| ] rest] eqn:Ec; try discriminate.
    + destruct (c_in x t) as [[g m]|] eqn:Ei; [|discriminate]. destruct (k_exc _) eqn:Ex; injection St as E.
      * subst x' r. split; [exact (Z_k x C)|]. cbn. intros u g' m'. unfold upd. destruct (Nat.eqb_spec u t); [discriminate|]. apply (Z_in x C).
      * destruct (Z_in x C t g m Ei) as (n & l0 & new & Hb & Hl & W).
        assert (G : CI (fst (cturn x rest t g m))).
        { apply (cturn_ok x rest t g m n l0 new); auto; [exact (Z_k x C)|intros; now apply (Z_in x C)|].
          exact (waits_top _ _ _ _ _ _ _ (Z_k x C) Ec W Ex). }
        rewrite E in G. exact G.
    + destruct (c_in x t) as [[g m]|] eqn:Ei; [|discriminate]. injection St as <- <-. split; [exact (Z_k x C)|]. cbn.
      intros u g' m'. unfold upd. destruct (Nat.eqb_spec u t); [discriminate|]. apply (Z_in x C).
Qed.
Theorem creach_ok ls x : creach ls x -> CI x.
Proof.
  induction 1 as [|ls x l x' r R IH Ok St]; [|exact (cstep_ok x l x' r IH Ok St)]. split; [exact inv_init|]. cbn. discriminate.
Qed.

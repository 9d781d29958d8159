(** What one step of the scheduler kernel can do to the Tasks blocked on a trigger, to the waiters of
    a lock and to the done callbacks. *)
From Verif Require Import Base KernelModel KernelProofs KernelHist KernelLog KernelInv KernelTask.
From Coq Require Import Arith Sorted.

(** * Who wakes a blocked Task *)
Definition wakes (s : st) (l : label) (tr : trig) : Prop :=
  match tr with
  | TEvent e => l = LOp (OpSet e)
  | TInternal i => l = LOp (OpISet i)
  | TLock k n => l = LOp (OpRelease k) /\ exists p, l_pending (s_lock s k) = n :: p
  | TNull _ => False
  | TComplete u | TJoin u =>
      l = LDoneNext /\ exists i k rest, s_ctl s = FDone u i k :: rest /\
        nth_error (k_dcbs (s_task s u)) i = None
  | TGpi g => l = LFire g
  end.
Definition hits (l : label) (t : tid) : Prop :=
  l = LOp (OpKill t) \/ exists m, l = LOp (OpCancel t m) \/ l = LCancelNow t m.

Lemma sorted_unique (l : list (nat * tid)) h t u :
  StronglySorted lt (map fst l) -> In (h, t) l -> In (h, u) l -> t = u.
Proof.
  induction l as [|[a b] l IH]; cbn; intros S I1 I2; [tauto|].
  apply StronglySorted_inv in S. destruct S as [S F]. rewrite Forall_forall in F.
  destruct I1 as [E1|I1], I2 as [E2|I2].
  - congruence.
  - inversion E1; subst. apply (in_map fst) in I2. apply F in I2. cbn in I2. lia.
  - inversion E2; subst. apply (in_map fst) in I1. apply F in I1. cbn in I1. lia.
  - auto.
Qed.

Lemma filter_true {A} (l : list A) : filter (fun _ => true) l = l.
Proof. induction l as [|x l IH]; cbn; [reflexivity|now rewrite IH]. Qed.

Lemma unprime_cbs s tr : s_cbs (fst (unprime s tr)) = s_cbs s.
Proof. destruct tr; cbn; try reflexivity. destruct (g_hdl _); reflexivity. Qed.
Lemma deregister_cbs s tr h x :
  s_cbs (fst (deregister s tr h)) x =
  if trig_eqb x tr then filter (fun c => negb (Nat.eqb (fst c) h)) (s_cbs s tr) else s_cbs s x.
Proof.
  unfold deregister. destruct (existsb _ _) eqn:E.
  - set (s1 := set_cbs s tr _).
    assert (Q : s_cbs (fst match s_cbs s1 tr with [] => unprime s1 tr | _ => (s1, None) end) = s_cbs s1).
    { destruct (s_cbs s1 tr); [apply unprime_cbs|reflexivity]. }
    rewrite Q. reflexivity.
  - cbn. destruct (trig_eqb_spec x tr) as [->|]; [|reflexivity].
    rewrite <- (filter_true (s_cbs s tr)) at 1. apply filter_ext_in. intros c Hc.
    destruct (Nat.eqb_spec (fst c) h) as [Eh|]; [|reflexivity].
    assert (existsb (fun c => Nat.eqb (fst c) h) (s_cbs s tr) = true); [|congruence].
    apply existsb_exists. exists c. split; [assumption|]. now apply Nat.eqb_eq.
Qed.
Lemma cancel_tcb_cbs s u tr h t :
  Inv s -> state_of s u = Pending -> u <> t -> In (h, t) (s_cbs s tr) ->
  In (h, t) (s_cbs (fst (cancel_tcb s u)) tr).
Proof.
  intros H P N I. pose proof (J_loc _ _ H) as L.
  unfold cancel_tcb. destruct (k_tcb (s_task s u)) as [[tr0 h0]|] eqn:E; [|exact I].
  rewrite deregister_cbs. destruct (trig_eqb_spec tr tr0) as [->|]; [|exact I].
  apply filter_In. split; [exact I|]. cbn. destruct (Nat.eqb_spec h h0) as [->|]; [|reflexivity].
  exfalso. destruct (L_pend _ _ L u (fun x => x) P) as (tr' & h' & I').
  destruct (L_cpend _ _ L _ _ _ I') as (_ & _ & E'). rewrite E in E'. inversion E'; subst.
  apply N. eapply sorted_unique; [apply (L_csort _ _ L tr')|exact I'|exact I].
Qed.

Lemma resume_cbs s t : s_cbs (resume s t) = s_cbs s.
Proof.
  unfold resume. destruct (k_exc _) as [e|].
  - destruct (k_begun _); [reflexivity|]. unfold coro_raised.
    destruct e; try destruct (Nat.eqb _ _); reflexivity.
  - destruct (k_wait _); reflexivity.
Qed.
Lemma coro_raised_cbs s t e : s_cbs (coro_raised s t e) = s_cbs s.
Proof. unfold coro_raised. destruct e; try destruct (Nat.eqb _ _); reflexivity. Qed.
Lemma coro_returned_cbs s t e : s_cbs (coro_returned s t e) = s_cbs s.
Proof. unfold coro_returned. destruct (Nat.eqb _ _); reflexivity. Qed.

(** Registering never wakes the Tasks already blocked. *)
Lemma register_cbs s tr t ok s' b x c :
  register s tr t ok = (s', b) -> In c (s_cbs s x) -> In c (s_cbs s' x).
Proof.
  unfold register. set (h := s_next s).
  set (s1 := log (set_cbs (set_task (set_next s (S h)) t (with_tcb (s_task s t) tr h)) tr
                   (s_cbs s tr ++ [(h, t)])) (OBlock t tr h)).
  change (log
    (set_cbs (set_task (set_next s (S h)) t (with_tcb (s_task (set_next s (S h)) t) tr h)) tr
       (s_cbs (set_task (set_next s (S h)) t (with_tcb (s_task (set_next s (S h)) t) tr h)) tr ++
        [(h, t)])) (OBlock t tr h)) with s1.
  intros E I.
  assert (I1 : In c (s_cbs s1 x)).
  { cbn. unfold updt. destruct (trig_eqb_spec x tr) as [->|]; [|exact I]. apply in_app_iff. now left. }
  destruct (s_cbs s tr) as [|d r] eqn:Ec; [|inversion E; subst; exact I1].
  assert (N : x <> tr) by (intros ->; rewrite Ec in I; destruct I).
  assert (F : forall s2, s_cbs s2 = s_cbs s1 -> In c (s_cbs (react s2 tr) x)).
  { intros s2 E2. rewrite react_cbs, E2, updt_other by exact N. exact I1. }
  unfold prime in E. destruct tr as [e|i|l n|n|u|u|g].
  - apply (f_equal fst) in E; cbn [fst] in E; rewrite <- E; clear E. destruct (s_event s1 e); [apply F; reflexivity|exact I1].
  - apply (f_equal fst) in E; cbn [fst] in E; rewrite <- E; clear E. destruct (i_fired _); [apply F; reflexivity|exact I1].
  - apply (f_equal fst) in E; cbn [fst] in E; rewrite <- E; clear E. destruct (l_current _); [exact I1|]. apply F. reflexivity.
  - apply (f_equal fst) in E; cbn [fst] in E; rewrite <- E; clear E. apply F; reflexivity.
  - apply (f_equal fst) in E; cbn [fst] in E; rewrite <- E; clear E. destruct (done s1 u); [apply F; reflexivity|exact I1].
  - apply (f_equal fst) in E; cbn [fst] in E; rewrite <- E; clear E. destruct (done s1 u); [apply F; reflexivity|exact I1].
  - destruct ok; inversion E; subst; exact I1.
Qed.
Lemma coro_yielded_cbs s t y ok x c :
  In c (s_cbs s x) -> In c (s_cbs (coro_yielded s t y ok) x).
Proof.
  intro I. unfold coro_yielded. destruct (negb _); [exact I|]. destruct y as [tr|]; [|exact I].
  destruct (register _ tr t ok) as [s2 b] eqn:E.
  assert (I2 : In c (s_cbs s2 x)) by (eapply register_cbs; [exact E|exact I]).
  destruct b; exact I2.
Qed.

Lemma await_check_cbs s tr s' : await_check s tr = Some s' -> s_cbs s' = s_cbs s.
Proof.
  unfold await_check. destruct tr; try (intros [= <-]; reflexivity).
  - destruct (i_awaited _); [discriminate|]. intros [= <-]. reflexivity.
  - destruct (_ || _); [discriminate|]. intros [= <-]. reflexivity.
Qed.

Lemma release_eq s l :
  release s l =
  match l_current (s_lock s l) with
  | None => (s, RErr PRuntime)
  | Some _ =>
      let s1 := log (set_lock s l (Lock None (l_pending (s_lock s l)))) (OFree l) in
      match l_pending (s_lock s l) with
      | [] => (s1, RUnit)
      | n :: rest => (acquire_and_fire (set_lock s1 l (Lock None rest)) l n, RUnit)
      end
  end.
Proof.
  unfold release. destruct (l_current _); [|reflexivity].
  cbn [s_lock log set_lock]. rewrite upd_same. cbn [l_pending]. reflexivity.
Qed.

Theorem step_cbs s l s' r tr h t :
  Inv s -> step s l = Some (s', r) -> In (h, t) (s_cbs s tr) ->
  In (h, t) (s_cbs s' tr) \/ wakes s l tr \/ hits l t.
Proof.
  intros H St I. pose proof (J_loc _ _ H) as L. unfold step in St. destruct (s_halt s); [discriminate|].
  assert (Fire : forall s1 x, s_cbs s1 = s_cbs s ->
    In (h, t) (s_cbs (react s1 x) tr) \/ tr = x).
  { intros s1 x E. rewrite react_cbs, E. unfold updt. destruct (trig_eqb_spec tr x); auto. }
  destruct l as [o|u m|v|e|x ok|u| | | | | |g].
  - inversion St as [E]. destruct o; cbn [do_op] in E.
    + unfold start_soon in E. destruct (state_of s t0); inversion E; subst; left; exact I.
    + unfold start_next in E. destruct (state_of s t0); inversion E; subst; left; exact I.
    + destruct (Nat.eq_dec t0 t) as [->|N]; [right; right; right; exists m; now left|]. left.
      unfold cancel in E. destruct (state_of s t0) eqn:Es; try (inversion E; subst; exact I).
      pose proof (cancel_tcb_cbs s t0 tr h t H Es N I) as Q.
      destruct (cancel_tcb s t0) as [s1 [e|]]; inversion E; subst; exact Q.
    + destruct (Nat.eq_dec t0 t) as [->|N]; [right; right; now left|]. left.
      unfold kill in E. destruct (state_of s t0) eqn:Es; try (inversion E; subst; exact I).
      * unfold cancel_scb in E. destruct (k_scb (s_task s t0)); inversion E; subst; exact I.
      * pose proof (cancel_tcb_cbs s t0 tr h t H Es N I) as Q.
        destruct (cancel_tcb s t0) as [s1 [e|]]; inversion E; subst; exact Q.
    + inversion E; subst. left; exact I.
    + inversion E; subst. left. unfold add_done. destruct (done s t0); exact I.
    + inversion E; subst. destruct (Fire (set_event s e true) (TEvent e) eq_refl) as [Q| ->]; auto.
      right; left. reflexivity.
    + inversion E; subst. left; exact I.
    + inversion E; subst.
      destruct (Fire (set_ievent s i (IEvent true (i_awaited (s_ievent s i)))) (TInternal i) eq_refl)
        as [Q| ->]; auto. right; left. reflexivity.
    + rewrite release_eq in E. destruct (l_current (s_lock s l)); [|inversion E; subst; left; exact I].
      cbv zeta in E.
      destruct (l_pending (s_lock s l)) as [|n0 p] eqn:Ep; apply (f_equal fst) in E; cbn [fst] in E;
        rewrite <- E; clear E; [left; exact I|].
      unfold acquire_and_fire.
      match goal with |- context [react ?y _] => set (s1 := y) end.
      destruct (Fire s1 (TLock l n0) eq_refl) as [Q| ->]; [now left|]. right; left. cbn. eauto.
  - assert (G : cancel_now s u m = (s', r) ->
      In (h, t) (s_cbs s' tr) \/ wakes s (LCancelNow u m) tr \/ hits (LCancelNow u m) t).
    { intro E. destruct (Nat.eq_dec u t) as [->|N]; [right; right; right; exists m; now right|]. left.
      unfold cancel_now in E. destruct (state_of s u) eqn:Es;
        try (inversion E; subst; rewrite ?resume_cbs; exact I).
      - unfold cancel_scb in E. destruct (k_scb (s_task s u)); inversion E; subst;
          rewrite ?resume_cbs; exact I.
      - pose proof (cancel_tcb_cbs s u tr h t H Es N I) as Q.
        destruct (cancel_tcb s u) as [s1 [e|]]; inversion E; subst; rewrite ?resume_cbs; exact Q. }
    destruct (s_ctl s) as [|[ | | ]]; try discriminate; inversion St as [E]; apply G, E.
  - destruct (s_ctl s) as [|[u| | ] rest] eqn:Ec; try discriminate. inversion St; subst.
    left. rewrite coro_returned_cbs. exact I.
  - destruct (s_ctl s) as [|[u| | ] rest] eqn:Ec; try discriminate. inversion St; subst.
    left. rewrite coro_raised_cbs. exact I.
  - destruct (s_ctl s) as [|[u| | ] rest] eqn:Ec; try discriminate. inversion St as [E]. left.
    unfold await_trigger in E. destruct (await_check s x) as [s1|] eqn:Ea; [|inversion E; subst; exact I].
    inversion E; subst. apply coro_yielded_cbs. cbn. rewrite (await_check_cbs _ _ _ Ea). exact I.
  - destruct (s_ctl s) as [|[v| | ] rest] eqn:Ec; try discriminate. inversion St as [E]. left.
    unfold await_task in E.
    set (s1 := match state_of s u with Unstarted => fst (start_soon s u) | _ => s end) in *.
    assert (C1 : s_cbs s1 = s_cbs s).
    { unfold s1, start_soon. destruct (state_of s u); reflexivity. }
    destruct (done s1 u).
    + destruct (result_of s1 u); inversion E; subst; cbn; rewrite C1; exact I.
    + inversion E; subst. apply coro_yielded_cbs. cbn. rewrite C1. exact I.
  - destruct (s_ctl s) as [|[v| | ] rest] eqn:Ec; try discriminate. inversion St; subst.
    left. apply coro_yielded_cbs. exact I.
  - destruct (s_ctl s) as [|[ |u| ] rest] eqn:Ec; try discriminate. inversion St; subst. left; exact I.
  - destruct (s_ctl s) as [|[ |u| ] rest] eqn:Ec; try discriminate. inversion St; subst. left; exact I.
  - destruct (s_ctl s) as [|[ | |u i k] rest] eqn:Ec; try discriminate.
    destruct (nth_error _ _) eqn:En; inversion St; subst; [left; exact I|].
    assert (Q : In (h, t) (s_cbs (react (react (set_ctl s rest) (TComplete u)) (TJoin u)) tr) \/
                wakes s LDoneNext tr).
    { rewrite !react_cbs. unfold updt. destruct (trig_eqb_spec tr (TJoin u)) as [->|].
      - right. cbn. split; [reflexivity|]. eauto.
      - destruct (trig_eqb_spec tr (TComplete u)) as [->|]; [|left; exact I].
        right. cbn. split; [reflexivity|]. eauto. }
    unfold finish_outcome. destruct k, Q; auto.
  - destruct (s_ctl s) as [|] eqn:Ec; try discriminate.
    destruct (s_queue s) as [|q rest] eqn:Eq; [discriminate|]. inversion St; subst.
    left. destruct (q_cancelled q); rewrite ?resume_cbs; exact I.
  - destruct (s_ctl s) as [|] eqn:Ec; try discriminate.
    destruct (s_queue s) as [|q rest] eqn:Eq; [|discriminate].
    destruct (g_armed (s_gpi s g)) eqn:Eg; [|discriminate]. inversion St; subst.
    destruct (Fire (set_gpi s g (Gpi (g_hdl (s_gpi s g)) false)) (TGpi g) eq_refl) as [Q| ->]; auto.
    right; left. reflexivity.
Qed.

(** A Task which leaves a trigger is made ready by it, in order. *)
Fixpoint batch (n : nat) (l : list (nat * tid)) : list qent :=
  match l with [] => [] | (_, t) :: l' => QEnt n t false :: batch (S n) l' end.
Lemma fold_queue (l : list (nat * tid)) s :
  s_queue (fold_left (fun s '(h, t) => schedule_resume s t None) l s) = s_queue s ++ batch (s_next s) l.
Proof.
  revert s. induction l as [|[h t] l IH]; intro s; cbn; [now rewrite app_nil_r|].
  rewrite IH. cbn. rewrite <- app_assoc. reflexivity.
Qed.
Lemma react_queue s tr : s_queue (react s tr) = s_queue s ++ batch (s_next s) (s_cbs s tr).
Proof. unfold react. rewrite fold_queue. reflexivity. Qed.
Lemma batch_tasks n l : map q_task (batch n l) = map snd l.
Proof. revert n. induction l as [|[h t] l IH]; intro n; cbn; [reflexivity|]. now rewrite IH. Qed.
Lemma batch_live n l q : In q (batch n l) -> q_cancelled q = false.
Proof.
  revert n. induction l as [|[h t] l IH]; intro n; cbn; [tauto|]. intros [<-|H]; [reflexivity|eauto].
Qed.

(** * The order of the waiters of a lock *)
Definition handle (s : st) (k n : nat) : nat :=
  match s_cbs s (TLock k n) with (h, _) :: _ => h | [] => 0 end.
Definition LK (s : st) : Prop :=
  forall k, StronglySorted lt (map (handle s k) (l_pending (s_lock s k))).

Lemma filter_filter {A} (f g : A -> bool) l : filter f (filter g l) = filter (fun x => g x && f x) l.
Proof.
  induction l as [|x l IH]; cbn; [reflexivity|]. destruct (g x); cbn; [|exact IH].
  destruct (f x); now rewrite IH.
Qed.
Lemma remove_first_filter n l : NoDup l -> remove_first n l = filter (fun x => negb (Nat.eqb x n)) l.
Proof.
  induction l as [|x l IH]; cbn; [reflexivity|]. intro N. apply NoDup_cons_iff in N. destruct N as [Nx N].
  destruct (Nat.eqb_spec x n) as [->|]; cbn; [|now rewrite IH].
  rewrite <- (filter_true l) at 1. apply filter_ext_in. intros y Hy.
  destruct (Nat.eqb_spec y n) as [->|]; [contradiction|reflexivity].
Qed.
Lemma sorted_sub (f : nat -> nat) g l :
  StronglySorted lt (map f l) -> StronglySorted lt (map f (filter g l)).
Proof.
  induction l as [|x l IH]; cbn; intro S; [constructor|].
  apply StronglySorted_inv in S. destruct S as [S F]. destruct (g x); [|auto]. cbn. constructor; [auto|].
  rewrite Forall_forall in *. intros y Hy. apply F. apply in_map_iff in Hy. destruct Hy as (z & <- & Hz).
  apply in_map. apply filter_In in Hz. tauto.
Qed.

(** The waiters only leave: those who stay keep their order and their callbacks. *)
Definition lrel (s s' : st) : Prop :=
  forall k, exists f, l_pending (s_lock s' k) = filter f (l_pending (s_lock s k)) /\
    forall n, In n (l_pending (s_lock s' k)) -> s_cbs s' (TLock k n) = s_cbs s (TLock k n).
Lemma lrel_same s s' : s_cbs s' = s_cbs s -> s_lock s' = s_lock s -> lrel s s'.
Proof.
  intros E1 E2 k. exists (fun _ => true). rewrite E1, E2, filter_true. auto.
Qed.
Lemma lrel_trans a b c : lrel a b -> lrel b c -> lrel a c.
Proof.
  intros H1 H2 k. destruct (H1 k) as (f & E1 & C1), (H2 k) as (g & E2 & C2).
  exists (fun x => f x && g x). split.
  - now rewrite E2, E1, filter_filter.
  - intros n Hn. rewrite C2 by exact Hn. apply C1. rewrite E2 in Hn. apply filter_In in Hn. tauto.
Qed.
Lemma lrel_lk s s' : lrel s s' -> LK s -> LK s'.
Proof.
  intros R H k. destruct (R k) as (f & E & C).
  assert (M : map (handle s' k) (l_pending (s_lock s' k)) = map (handle s k) (l_pending (s_lock s' k))).
  { apply map_ext_in. intros n Hn. unfold handle. now rewrite C. }
  rewrite M, E. apply sorted_sub, H.
Qed.
Lemma lrel_react s x :
  (forall k n, x = TLock k n -> ~ In n (l_pending (s_lock s k))) -> lrel s (react s x).
Proof.
  intros H k. exists (fun _ => true). rewrite react_lock, react_cbs, filter_true. split; [reflexivity|].
  intros n Hn. apply updt_other. intros <-. exact (H _ _ eq_refl Hn).
Qed.
Lemma lrel_deregister s x h : Obj s -> lrel s (fst (deregister s x h)).
Proof.
  intro O. unfold deregister. destruct (existsb _ _) eqn:E; [|now apply lrel_same].
  set (s1 := set_cbs s x _).
  destruct x as [e|i|l n|n|u|u|g].
  3: { assert (C : s_cbs s (TLock l n) = [] \/ exists c, s_cbs s (TLock l n) = [c]).
    { pose proof (O_lock4 _ O l n). destruct (s_cbs s (TLock l n)) as [|c [|]]; eauto.
      cbn in H. lia. }
    destruct C as [C|[c C]]; [rewrite C in E; discriminate|].
    assert (C1 : s_cbs s1 (TLock l n) = []).
    { unfold s1; cbn [s_cbs set_cbs]. rewrite updt_same, C. rewrite C in E. cbn in *.
      destruct (Nat.eqb (fst c) h); [reflexivity|discriminate]. }
    rewrite C1. cbn [unprime fst]. intro k. cbn [s_lock set_lock s_cbs].
    destruct (Nat.eq_dec k l) as [->|Nk].
    - exists (fun y => negb (Nat.eqb y n)). rewrite !upd_same. cbn [l_pending].
      change (s_lock s1) with (s_lock s).
      split; [apply remove_first_filter, O|]. intros y Hy.
      apply remove_first_in in Hy; [|apply O]. unfold s1; cbn [s_cbs set_cbs].
      apply updt_other. intros [= ->]. tauto.
    - exists (fun _ => true). rewrite !upd_other by exact Nk. rewrite filter_true. split; [reflexivity|].
      intros y _. unfold s1; cbn [s_cbs set_cbs]. apply updt_other. intros [= -> _]. contradiction. }
  all: assert (R : lrel s s1) by
      (intro k; exists (fun _ => true); rewrite filter_true; split; [reflexivity|];
       intros n0 _; unfold s1; cbn [s_cbs set_cbs]; apply updt_other; discriminate).
  all: match goal with |- context [match ?l with [] => _ | _ => _ end] => destruct l end; try exact R;
      cbn [unprime fst]; try exact R.
  destruct (g_hdl _); exact R.
Qed.
Lemma lrel_cancel_tcb s t : Obj s -> lrel s (fst (cancel_tcb s t)).
Proof.
  intro O. unfold cancel_tcb. destruct (k_tcb _) as [[x h]|]; [now apply lrel_deregister|].
  now apply lrel_same.
Qed.

Lemma resume_lock s t : s_lock (resume s t) = s_lock s.
Proof.
  unfold resume. destruct (k_exc _) as [e|].
  - destruct (k_begun _); [reflexivity|]. unfold coro_raised.
    destruct e; try destruct (Nat.eqb _ _); reflexivity.
  - destruct (k_wait _); reflexivity.
Qed.
Lemma coro_raised_lock s t e : s_lock (coro_raised s t e) = s_lock s.
Proof. unfold coro_raised. destruct e; try destruct (Nat.eqb _ _); reflexivity. Qed.
Lemma coro_returned_lock s t e : s_lock (coro_returned s t e) = s_lock s.
Proof. unfold coro_returned. destruct (Nat.eqb _ _); reflexivity. Qed.
Lemma await_check_lock s tr s' : await_check s tr = Some s' -> s_lock s' = s_lock s.
Proof.
  unfold await_check. destruct tr; try (intros [= <-]; reflexivity).
  - destruct (i_awaited _); [discriminate|]. intros [= <-]. reflexivity.
  - destruct (_ || _); [discriminate|]. intros [= <-]. reflexivity.
Qed.

(** Registering puts a new waiter at the end. *)
Definition hdl_ok (s : st) : Prop :=
  (forall l n, In n (l_pending (s_lock s l)) -> s_cbs s (TLock l n) <> []) /\
  (forall x h u, In (h, u) (s_cbs s x) -> h < s_next s).
Lemma inv_hdl_ok s : Inv s -> hdl_ok s.
Proof.
  intro H. split.
  - intros l n. apply (O_lock3 _ (J_obj _ _ H)).
  - intros x h u. apply (L_clt _ _ (J_loc _ _ H)).
Qed.
Lemma register_lk s tr t ok s' b :
  hdl_ok s ->
  (forall k n, tr = TLock k n -> ~ In n (l_pending (s_lock s k))) ->
  register s tr t ok = (s', b) -> LK s -> LK s'.
Proof.
  intros [O Clt] Nn E H. unfold register in E. set (h := s_next s) in *.
  set (s1 := log (set_cbs (set_task (set_next s (S h)) t (with_tcb (s_task s t) tr h)) tr
                   (s_cbs s tr ++ [(h, t)])) (OBlock t tr h)).
  change (log
    (set_cbs (set_task (set_next s (S h)) t (with_tcb (s_task (set_next s (S h)) t) tr h)) tr
       (s_cbs (set_task (set_next s (S h)) t (with_tcb (s_task (set_next s (S h)) t) tr h)) tr ++
        [(h, t)])) (OBlock t tr h)) with s1 in E.
  assert (R1 : lrel s s1).
  { intro k. exists (fun _ => true). rewrite filter_true. split; [reflexivity|]. intros n Hn.
    unfold s1; cbn [s_cbs set_cbs log set_task set_next]. apply updt_other. intros <-.
    exact (Nn _ _ eq_refl Hn). }
  assert (H1 : LK s1) by (eapply lrel_lk; eassumption).
  destruct (s_cbs s tr) as [|d r] eqn:Ec; [|inversion E; subst; exact H1].
  unfold prime in E. destruct tr as [e|i|l n|n|u|u|g].
  - apply (f_equal fst) in E; cbn [fst] in E; rewrite <- E; clear E.
    destruct (s_event s1 e); [|exact H1]. eapply lrel_lk; [apply lrel_react|exact H1]. discriminate.
  - apply (f_equal fst) in E; cbn [fst] in E; rewrite <- E; clear E.
    destruct (i_fired _); [|exact H1]. eapply lrel_lk; [apply lrel_react|exact H1]. discriminate.
  - apply (f_equal fst) in E; cbn [fst] in E; rewrite <- E; clear E.
    change (s_lock s1) with (s_lock s). destruct (l_current (s_lock s l)) eqn:El.
    + intro k. cbn [s_lock set_lock]. destruct (Nat.eq_dec k l) as [->|Nk].
      * rewrite upd_same. cbn [l_pending]. rewrite map_app. cbn [map].
        set (s2 := set_lock _ _ _).
        assert (Eh : handle s2 l n = h).
        { unfold handle, s2, s1; cbn [s_cbs set_lock log set_cbs]. rewrite updt_same. reflexivity. }
        rewrite Eh. apply sorted_snoc; [apply H1|].
        intros x Hx. apply in_map_iff in Hx. destruct Hx as (m & <- & Hm).
        assert (Em : m <> n) by (intros ->; exact (Nn _ _ eq_refl Hm)).
        unfold handle, s2, s1; cbn [s_cbs set_lock log set_cbs set_task set_next].
        rewrite updt_other by (intros [= ->]; contradiction).
        apply O in Hm. destruct (s_cbs s (TLock l m)) as [|[a c] q] eqn:Eq; [contradiction|].
        apply (Clt (TLock l m) a c). rewrite Eq. now left.
      * rewrite upd_other by exact Nk. apply H1.
    + eapply lrel_lk; [|exact H1]. unfold acquire_and_fire.
      match goal with |- lrel _ (react ?y _) => set (s2 := y) end.
      assert (R2 : lrel s1 s2).
      { intro k. exists (fun _ => true). rewrite filter_true. unfold s2; cbn [s_lock set_lock log s_cbs].
        split; [|reflexivity]. destruct (Nat.eq_dec k l) as [->|Nk].
        - rewrite upd_same. reflexivity.
        - rewrite upd_other by exact Nk. reflexivity. }
      eapply lrel_trans; [exact R2|]. apply lrel_react. intros k m [= <- <-].
      unfold s2; cbn [s_lock set_lock log]. rewrite upd_same. cbn [l_pending].
      apply (Nn _ _ eq_refl).
  - apply (f_equal fst) in E; cbn [fst] in E; rewrite <- E; clear E.
    eapply lrel_lk; [apply lrel_react|exact H1]. discriminate.
  - apply (f_equal fst) in E; cbn [fst] in E; rewrite <- E; clear E.
    destruct (done s1 u); [|exact H1]. eapply lrel_lk; [apply lrel_react|exact H1]. discriminate.
  - apply (f_equal fst) in E; cbn [fst] in E; rewrite <- E; clear E.
    destruct (done s1 u); [|exact H1]. eapply lrel_lk; [apply lrel_react|exact H1]. discriminate.
  - destruct ok; inversion E; subst; exact H1.
Qed.
Lemma coro_yielded_lk s t y ok :
  hdl_ok s ->
  (forall k n, y = Some (TLock k n) -> ~ In n (l_pending (s_lock s k))) ->
  LK s -> LK (coro_yielded s t y ok).
Proof.
  intros O N H. unfold coro_yielded. destruct (negb _); [exact H|]. destruct y as [tr|]; [|exact H].
  destruct (register _ tr t ok) as [s2 b] eqn:E.
  assert (H2 : LK s2).
  { eapply register_lk; [|  |exact E|exact H].
    - exact O.
    - intros k n ->. apply N. reflexivity. }
  destruct b; exact H2.
Qed.

Lemma lk_init : LK init.
Proof. intro k. constructor. Qed.

Theorem lk_step s l s' r : Inv s -> LK s -> step s l = Some (s', r) -> LK s'.
Proof.
  intros H K St. pose proof (J_loc _ _ H) as L. pose proof (J_obj _ _ H) as O.
  unfold step in St. destruct (s_halt s); [discriminate|].
  assert (Same : forall s1, s_cbs s1 = s_cbs s -> s_lock s1 = s_lock s -> LK s1).
  { intros s1 E1 E2. eapply lrel_lk; [apply lrel_same; eassumption|exact K]. }
  assert (Fire : forall s1 x, s_cbs s1 = s_cbs s -> s_lock s1 = s_lock s ->
     (forall k n, x <> TLock k n) -> LK (react s1 x)).
  { intros s1 x E1 E2 N. eapply lrel_lk; [apply lrel_react|apply Same; assumption].
    intros k n E. exfalso. exact (N k n E). }
  assert (Cn : forall t, LK (fst (cancel_tcb s t))).
  { intro t. eapply lrel_lk; [apply lrel_cancel_tcb; exact O|exact K]. }
  destruct l as [o|u m|v|e|x ok|u| | | | | |g].
  - inversion St as [E]. destruct o; cbn [do_op] in E.
    + unfold start_soon in E. destruct (state_of s t); inversion E; subst; exact K.
    + unfold start_next in E. destruct (state_of s t); inversion E; subst; exact K.
    + unfold cancel in E. destruct (state_of s t) eqn:Es; try (inversion E; subst; exact K).
      specialize (Cn t). destruct (cancel_tcb s t) as [s1 [e|]]; inversion E; subst; exact Cn.
    + unfold kill in E. destruct (state_of s t) eqn:Es; try (inversion E; subst; exact K).
      * unfold cancel_scb in E. destruct (k_scb (s_task s t)); inversion E; subst; exact K.
      * specialize (Cn t). destruct (cancel_tcb s t) as [s1 [e|]]; inversion E; subst; exact Cn.
    + inversion E; subst. exact K.
    + inversion E; subst. unfold add_done. destruct (done s t); exact K.
    + inversion E; subst. apply Fire; try reflexivity; discriminate.
    + inversion E; subst. exact K.
    + inversion E; subst. apply Fire; try reflexivity; discriminate.
    + rewrite release_eq in E. destruct (l_current (s_lock s l)); [|inversion E; subst; exact K].
      cbv zeta in E.
      destruct (l_pending (s_lock s l)) as [|n0 p] eqn:Ep; apply (f_equal fst) in E; cbn [fst] in E;
        rewrite <- E; clear E.
      * eapply lrel_lk; [|exact K]. intro k. exists (fun _ => true). rewrite filter_true.
        cbn [s_lock set_lock log s_cbs]. destruct (Nat.eq_dec k l) as [->|Nk].
        -- rewrite upd_same. cbn [l_pending]. split; [congruence|reflexivity].
        -- rewrite upd_other by exact Nk. auto.
      * eapply lrel_lk; [|exact K]. unfold acquire_and_fire.
        match goal with |- lrel _ (react ?y _) => set (s1 := y) end.
        pose proof (O_lock1 _ O l) as Nd. rewrite Ep in Nd. apply NoDup_cons_iff in Nd.
        destruct Nd as [Nd0 Nd].
        assert (R : lrel s s1).
        { intro k. unfold s1; cbn [s_lock set_lock log s_cbs]. destruct (Nat.eq_dec k l) as [->|Nk].
          - exists (fun y => negb (Nat.eqb y n0)). rewrite !upd_same. cbn [l_pending].
            split; [|reflexivity]. rewrite Ep. cbn. rewrite Nat.eqb_refl. cbn.
            rewrite <- remove_first_filter by exact Nd. clear - Nd0. induction p as [|a p IH]; [reflexivity|].
            cbn. destruct (Nat.eqb_spec a n0) as [->|]; [exfalso; apply Nd0; now left|].
            f_equal. apply IH. intro. apply Nd0. now right.
          - exists (fun _ => true). rewrite filter_true, !upd_other by exact Nk. auto. }
        eapply lrel_trans; [exact R|]. apply lrel_react. intros k m [= <- <-].
        unfold s1; cbn [s_lock set_lock log]. rewrite !upd_same. exact Nd0.
  - assert (G : cancel_now s u m = (s', r) -> LK s').
    { intro E. unfold cancel_now in E. destruct (state_of s u) eqn:Es.
      - inversion E; subst. apply Same; [rewrite resume_cbs|rewrite resume_lock]; reflexivity.
      - unfold cancel_scb in E. destruct (k_scb (s_task s u)); inversion E; subst; [|exact K].
        apply Same; [rewrite resume_cbs|rewrite resume_lock]; reflexivity.
      - specialize (Cn u). destruct (cancel_tcb s u) as [s1 [e|]]; inversion E; subst; [exact Cn|].
        eapply lrel_lk; [|exact Cn].
        apply lrel_same; [rewrite resume_cbs|rewrite resume_lock]; reflexivity.
      - inversion E; subst; exact K.
      - inversion E; subst; exact K.
      - inversion E; subst; exact K.
      - inversion E; subst; exact K. }
    destruct (s_ctl s) as [|[ | | ]]; try discriminate; inversion St as [E]; apply G, E.
  - destruct (s_ctl s) as [|[u| | ] rest] eqn:Ec; try discriminate. inversion St; subst.
    apply Same; [rewrite coro_returned_cbs|rewrite coro_returned_lock]; reflexivity.
  - destruct (s_ctl s) as [|[u| | ] rest] eqn:Ec; try discriminate. inversion St; subst.
    apply Same; [rewrite coro_raised_cbs|rewrite coro_raised_lock]; reflexivity.
  - destruct (s_ctl s) as [|[u| | ] rest] eqn:Ec; try discriminate. inversion St as [E].
    unfold await_trigger in E. destruct (await_check s x) as [s1|] eqn:Ea; [|inversion E; subst; exact K].
    destruct (await_check_some _ _ _ H Ea) as [[I1 _] _].
    pose proof (await_check_ok _ _ _ Ea) as Aw.
    inversion E; subst. apply coro_yielded_lk.
    + exact (inv_hdl_ok _ I1).
    + intros k n [= ->]. apply Aw.
    + apply Same; [apply (await_check_cbs _ _ _ Ea)|apply (await_check_lock _ _ _ Ea)].
  - destruct (s_ctl s) as [|[v| | ] rest] eqn:Ec; try discriminate. inversion St as [E].
    unfold await_task in E.
    set (s1 := match state_of s u with Unstarted => fst (start_soon s u) | _ => s end) in *.
    assert (C1 : s_cbs s1 = s_cbs s).
    { unfold s1, start_soon. destruct (state_of s u); reflexivity. }
    assert (C2 : s_lock s1 = s_lock s).
    { unfold s1, start_soon. destruct (state_of s u); reflexivity. }
    assert (C3 : s_next s <= s_next s1).
    { unfold s1, start_soon. destruct (state_of s u); cbn; lia. }
    destruct (done s1 u).
    + destruct (result_of s1 u); inversion E; subst; apply Same; assumption.
    + inversion E; subst. apply coro_yielded_lk; [|discriminate|now apply Same].
      destruct (inv_hdl_ok _ H) as [A B]. split; cbn; rewrite C1, ?C2; [exact A|].
      intros x h w Hx. apply B in Hx. lia.
  - destruct (s_ctl s) as [|[v| | ] rest] eqn:Ec; try discriminate. inversion St; subst.
    apply coro_yielded_lk; [exact (inv_hdl_ok _ H)|discriminate|exact K].
  - destruct (s_ctl s) as [|[ |u| ] rest] eqn:Ec; try discriminate. inversion St; subst. exact K.
  - destruct (s_ctl s) as [|[ |u| ] rest] eqn:Ec; try discriminate. inversion St; subst. exact K.
  - destruct (s_ctl s) as [|[ | |u i k] rest] eqn:Ec; try discriminate.
    destruct (nth_error _ _) eqn:En; inversion St; subst; [exact K|].
    assert (Q : LK (react (react (set_ctl s rest) (TComplete u)) (TJoin u))).
    { eapply lrel_lk; [apply lrel_react; discriminate|]. apply Fire; try reflexivity; discriminate. }
    unfold finish_outcome. destruct k; exact Q.
  - destruct (s_ctl s) as [|] eqn:Ec; try discriminate.
    destruct (s_queue s) as [|q rest] eqn:Eq; [discriminate|]. inversion St; subst.
    destruct (q_cancelled q); [exact K|]. apply Same; [rewrite resume_cbs|rewrite resume_lock]; reflexivity.
  - destruct (s_ctl s) as [|] eqn:Ec; try discriminate.
    destruct (s_queue s) as [|q rest] eqn:Eq; [|discriminate].
    destruct (g_armed (s_gpi s g)) eqn:Eg; [|discriminate]. inversion St; subst.
    apply Fire; try reflexivity; discriminate.
Qed.

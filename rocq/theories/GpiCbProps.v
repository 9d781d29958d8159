(** C94: memory of the callbacks between the simulator and Python. *)
From Verif Require Import Base GpiCbModel GpiCbSpec GpiCbProofs.
From Coq Require Import Arith Lia.
Open Scope nat_scope.

(** In executions in which the simulator does not repeat a callback within a callback and, unless it is Verilator, Python does not stop to
    wait for one which has been queued, no freed memory is used, nothing is freed twice and the VPI is used correctly. *)
Theorem C94_safe (v : bool) (ls : list label) (s : st) : execP v (calm v) init ls s -> faultless s.
Proof. intro H. eapply exec_faultless; [exact H|auto|apply init_inv|apply init_idle|intros f o []]. Qed.
Print Assumptions C94_safe.

(** A callback is called or deregistered, once and not both. *)
Theorem C94_once (v : bool) (ls : list label) (s : st) (o : nat) : execP v (calm v) init ls s ->
  uses o (c_log s) <= 1 /\ (In (Gone o) (c_log s) -> ~ In (Called o) (c_log s)).
Proof.
  intro H. destruct (exec_inv v _ _ _ _ H (fun _ _ K => K) (init_inv v) init_idle) as [I _].
  destruct (i_uses _ _ I o) as [U _]. split; [exact U|]. revert U. unfold uses. generalize (c_log s). clear. intros l U A B. revert U.
  apply in_split in A. destruct A as (l1 & l2 & ->). apply in_app_iff in B.
  rewrite filter_app, app_length. cbn. rewrite Nat.eqb_refl. cbn. intro U.
  assert (X : In (Called o) l1 \/ In (Called o) l2) by (destruct B as [B|[B|B]]; [now left|discriminate|now right]).
  assert (Y : forall l, In (Called o) l -> 1 <= length (filter (about o) l)).
  { intros l K. assert (F : In (Called o) (filter (about o) l)) by (apply filter_In; split; [exact K|apply Nat.eqb_refl]).
    destruct (filter (about o) l); [contradiction|cbn; lia]. }
  destruct X as [X|X]; apply Y in X; lia.
Qed.
Print Assumptions C94_once.

(** While functions wait for a trigger which has a callback, the callback is alive, not marked as removed, and the simulator has it. *)
Theorem C94_waiting (v : bool) (ls : list label) (s : st) (t h : nat) : execP v (calm v) init ls s -> 0 < c_cbs s t -> c_hdl s t = Some h ->
  c_objs s h = Some (Obj t false) /\ c_armed s h = true /\ c_data s h = true /\ ~ running s h.
Proof.
  intros H P K. destruct (exec_inv v _ _ _ _ H (fun _ _ X => X) (init_inv v) init_idle) as [I _].
  destruct (i_hdl _ _ I t h P K) as (A & B & C). split; [exact A|]. split; [exact B|]. split; [|exact C].
  exact (proj1 (i_live _ _ I h _ A eq_refl)).
Qed.
Print Assumptions C94_waiting.
(** If the simulator accepts all callbacks, each trigger with waiting functions has one, and each PythonCallback is of the function being
    executed or of a trigger with waiting functions: nothing is leaked. *)
Theorem C94_owned (v : bool) (ls : list label) (s : st) : execP v (fun a l => calm v a l /\ accepted l) init ls s ->
  (forall t, 0 < c_cbs s t -> exists h, c_hdl s t = Some h /\ c_armed s h = true) /\
  (forall o, c_data s o = true -> running s o \/ exists t, 0 < c_cbs s t /\ c_hdl s t = Some o).
Proof.
  intro H. destruct (exec_inv v _ _ _ _ H (fun _ _ K => proj1 K) (init_inv v) init_idle) as [I _].
  destruct (exec_own v _ _ _ _ H (fun _ _ K => K) (init_inv v) init_idle init_own) as [A B]. split.
  - intros t P. destruct (c_hdl s t) as [h|] eqn:E; [|elim (B t P E)]. exists h. split; [reflexivity|]. exact (proj1 (proj2 (i_hdl _ _ I t h P E))).
  - intros o D. destruct (A o D) as (x & E & R). destruct (i_live _ _ I o x E R) as [_ [X|X]]; [now left|right; exists (o_trig x); exact X].
Qed.
Print Assumptions C94_owned.

(** A step which calls Python functions calls those of a trigger for which some wait and whose callback it is, and takes them all away; a
    step which deregisters a callback is the end of the last wait for its trigger. *)
Theorem C94_steps (v : bool) (ls : list label) (s s' : st) (l : label) : execP v (calm v) init ls s -> calm v s l -> step v s l = Some s' ->
  c_log s' = c_log s \/
  (exists o t, c_log s' = Called o :: c_log s /\ running s' o /\ 0 < c_cbs s t /\ c_hdl s t = Some o /\ c_cbs s' t = 0) \/
  (exists o t ok, l = LDereg t ok /\ c_log s' = Gone o :: c_log s /\ c_cbs s t = 1 /\ c_hdl s t = Some o /\ c_hdl s' t = None).
Proof.
  intros H K S. destruct (exec_inv v _ _ _ _ H (fun _ _ X => X) (init_inv v) init_idle) as [I ID].
  destruct (inv_step v s s' l I ID K S) as [_ [E|o t A B C D E|o t ok A B C D E F]]; [now left|right; left|right; right].
  - exists o, t. auto.
  - exists o, t, ok. auto.
Qed.
Print Assumptions C94_steps.

(** Two triggers, an edge and a timer: both are awaited, the edge happens within the first function and is handled after it; then the timer
    is no longer awaited, awaited again, and fires. *)
Definition C94_run : list label :=
  [LEmbed; LReg 0 true true; LReg 1 false true; LReg 1 false true; LFire 0 true true false; LReturn true; LDrain true true; LDereg 1 true; LDereg 1 true;
   LReg 1 false true; LReturn true; LDrain true true; LFire 2 true true true; LReturn true; LDrain true true].
Example C94_ex : exists s, execP false (fun a l => calm false a l /\ accepted l) init C94_run s /\ c_log s = [Called 2; Gone 1; Called 0] /\
  c_queue s = [] /\ c_ctl s = Idle /\ (forall o, o < 3 -> c_objs s o = None /\ c_data s o = false).
Proof.
  eexists. split.
  - unfold C94_run. repeat (eapply execP_cons; [|vm_compute; reflexivity|]); try apply execP_nil;
      (split; [split; [cbn; try exact Logic.I|split; [cbn; try exact Logic.I|right; cbn; try exact Logic.I]]|cbn; try reflexivity; try exact Logic.I]).
    + tauto.
    + discriminate.
    + intro X. discriminate X.
    + intros _ h E. injection E as <-. intros [X|[]]. discriminate X.
  - cbn. split; [reflexivity|]. split; [reflexivity|]. split; [reflexivity|]. intros o L. do 3 (destruct o as [|o]; [split; reflexivity|]). lia.
Qed.

(** A signal is written twice at once within a function: its callback is queued twice, called for the first and freed, and used for the
    second. *)
Theorem C94_twice_refuted : forall v, exists ls s, execP v (fun a l => no_self a l /\ no_late a l) init ls s /\
  In (Called 0) (c_log s) /\ In (Fault FObject 0) (c_log s).
Proof.
  intro v. exists [LEmbed; LReg 0 true true; LFire 0 true true false; LFire 0 true true false; LReturn true; LDrain true true; LReturn true; LDrain true true].
  destruct v; (eexists; split; [repeat (eapply execP_cons; [|vm_compute; reflexivity|]); try apply execP_nil; cbn; split; try discriminate; exact Logic.I|]);
    cbn; tauto.
Qed.
Print Assumptions C94_twice_refuted.
(** A function called for a change of a signal writes the signal at once: its own callback, which the simulator has until the function
    returns, is queued, freed and used. *)
Theorem C94_own_refuted : forall v, exists ls s, execP v (fun a l => no_double a l /\ no_late a l) init ls s /\
  In (Called 0) (c_log s) /\ In (Fault FObject 0) (c_log s).
Proof.
  intro v. exists [LEmbed; LReg 0 true true; LReturn true; LDrain true true; LFire 0 true true false; LFire 0 true true false; LReturn true; LDrain true true].
  destruct v; (eexists; split; [repeat (eapply execP_cons; [|vm_compute; reflexivity|]); try apply execP_nil; cbn; split; try tauto; exact Logic.I|]);
    cbn; tauto.
Qed.
Print Assumptions C94_own_refuted.
(** Not Verilator: the wait for a change of a signal ends while its callback is in the queue: the object is freed but the simulator keeps
    the callback, and the next change of the signal uses it. *)
Theorem C94_late_refuted : exists ls s, execP false (fun a l => no_double a l /\ no_self a l) init ls s /\
  In (Gone 0) (c_log s) /\ In (Fault FObject 0) (c_log s).
Proof.
  exists [LEmbed; LReg 0 true true; LFire 0 true true false; LDereg 0 true; LReturn true; LDrain true true; LFire 0 true true false].
  eexists; split; [repeat (eapply execP_cons; [|vm_compute; reflexivity|]); try apply execP_nil; cbn; split; try tauto; discriminate|].
  cbn; tauto.
Qed.
Print Assumptions C94_late_refuted.
(** The simulator refuses a callback: the PythonCallback has no owner, and a later wait for the same trigger registers none although the
    simulator would accept it. *)
Theorem C94_leak_refuted : forall v, exists ls s, execP v (calm v) init ls s /\ In (LReg 0 true true) ls /\ c_data s 0 = true /\ c_objs s 0 = None /\
  0 < c_cbs s 0 /\ c_hdl s 0 = None /\ (forall o x, c_objs s o = Some x -> o_trig x <> 0).
Proof.
  intro v. exists [LEmbed; LReg 0 true false; LReturn true; LDrain true true; LEmbed; LReg 0 true true]. eexists. split.
  - repeat (eapply execP_cons; [|vm_compute; reflexivity|]); try apply execP_nil; (split; [exact Logic.I|split; [exact Logic.I|right; exact Logic.I]]).
  - cbn. split; [tauto|]. split; [reflexivity|]. split; [reflexivity|]. split; [lia|]. split; [reflexivity|]. discriminate.
Qed.
Print Assumptions C94_leak_refuted.

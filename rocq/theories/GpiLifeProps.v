(** Property theorems C97 (life of the interface). *)
From Verif Require Import Base GpiLifeModel.
From Coq Require Import Lia.
Open Scope nat_scope.

Definition ev_eqb (a b : ev) : bool :=
  match a, b with ELoad, ELoad | EEvent, EEvent | ECall, ECall | EFinish, EFinish | EFinal, EFinal => true | _, _ => false end.
(** How often something happened. *)
Definition times (e : ev) (l : list ev) : nat := List.length (filter (ev_eqb e) l).
Definition faultless (l : list ev) : Prop := forall f, ~ In (EFault f) l.

(** All states and all branches of a step. *)
Lemma Some_inj {A} (a b : A) : Some a = Some b -> a = b.
Proof. intro E. now injection E. Qed.
Ltac flat_in H := cbn [l_fin l_py l_loaded l_embed l_event l_obj l_removed l_armed l_queue l_ctl l_log log set_ctl set_queue set_event set_embed set_fin set_dead set_finish_cb] in H.
Ltac cases := unfold step, enter_start, enter_shutdown, enter_user, end_of_sim_time, ended, check_cleanup, finalize, gpi_finish, sim_end, remove_finish_cb, after_own in *;
  cbn [l_fin l_py l_loaded l_embed l_event l_obj l_removed l_armed l_queue l_ctl l_log log set_ctl set_queue set_event set_embed set_fin set_dead set_finish_cb] in *.

Ltac break := repeat match goal with
  | H : None = Some _ |- _ => discriminate H
  | H : ?x = Some _ |- _ => match x with context [match ?b with _ => _ end] => is_var b; destruct b; try discriminate H; flat_in H end
  | H : Some _ = Some _ |- _ => apply Some_inj in H; subst
  end.
(** * Once *)
(** In every execution - whatever simulator and Python do, in whatever order - the end of the simulation is requested at most once and
    Python is finalised at most once, and only after the end was requested. *)
Definition counts (s : st) : Prop :=
  times EFinish (l_log s) = (if l_fin s then 1 else 0) /\ times EFinal (l_log s) <= 1 /\
  (l_py s = true -> times EFinal (l_log s) = 0) /\ (times EFinal (l_log s) <> 0 -> l_fin s = true).
Lemma counts_step s l s' : counts s -> step s l = Some s' -> counts s'.
Proof.
  destruct s as [fin py loaded embed event obj removed armed queue c lg]. intros (A & B & C & D) H.
  destruct l; cases; destruct c as [|w|]; try discriminate H; 
  try destruct w; destruct fin, py; break; unfold counts, times in *; cbn in *; repeat split; intros; try lia; try discriminate; try tauto.
Qed.
Lemma run_inv (P : st -> Prop) : (forall s l s', P s -> step s l = Some s' -> P s') -> forall ls s s', P s -> run s ls = Some s' -> P s'.
Proof.
  intros S. induction ls as [|l ls IH]; intros s s' H R; cbn [run] in R; [injection R as <-; exact H|].
  destruct (step s l) as [s1|] eqn:E; [|discriminate R]. apply (IH s1 s' (S s l s1 H E) R).
Qed.
Lemma counts_init loaded fin : counts (init loaded fin).
Proof. destruct loaded, fin; unfold counts; cbn; repeat split; intros; try lia; try discriminate. Qed.
Theorem C97_once loaded fin ls s : run (init loaded fin) ls = Some s ->
  times EFinish (l_log s) <= 1 /\ times EFinal (l_log s) <= 1 /\ times EFinal (l_log s) <= times EFinish (l_log s).
Proof.
  intro R. destruct (run_inv counts (counts_step) ls _ _ (counts_init loaded fin) R) as (A & B & _ & D).
  destruct (l_fin s); rewrite A; split; try lia; split; try lia.
Qed.
Print Assumptions C97_once.
(** Whenever the simulator is back in control and the end was requested, Python is finalised. *)
Theorem C97_back s l s' : step s l = Some s' -> l_ctl s' = Idle -> l_fin s' = true -> l_py s' = false.
Proof.
  destruct s as [fin py loaded embed event obj removed armed queue c lg]. intros H I F.
  destruct l; cases; destruct c as [|w|]; try discriminate H; try destruct w; break; cbn in *; try discriminate; reflexivity.
Qed.
Print Assumptions C97_back.
(** Python is not finalised before the end was requested. *)
Theorem C97_alive loaded ls s : run (init loaded false) ls = Some s -> l_fin s = false -> l_py s = loaded /\ times EFinal (l_log s) = 0.
Proof.
  intros R F.
  assert (G : l_fin s = false -> l_py s = loaded).
  { apply (run_inv (fun s => l_fin s = false -> l_py s = loaded)) with (ls := ls) (s := init loaded false); [|reflexivity|exact R]. clear.
    intros [fin py ld embed event obj removed armed queue c lg] l s' P H F. cbn [l_fin l_py] in P.
    destruct fin; [|rewrite <- P by reflexivity]; clear P; destruct l; cases; destruct c as [|w|]; try discriminate H; try destruct w; break; cbn in *; try discriminate; reflexivity. }
  split; [apply G, F|]. destruct (run_inv counts (counts_step) ls _ _ (counts_init loaded false) R) as (_ & _ & _ & D).
  destruct (times EFinal (l_log s)); [reflexivity|]. specialize (D (Nat.neq_succ_0 _)). rewrite F in D. discriminate D.
Qed.
Print Assumptions C97_alive.

(** * How it ends *)
(** The simulation ends by itself ([$finish], no more events): the function which Python has set is called; when it returns or raises,
    the end is requested and Python is finalised before the simulator goes on. *)
Theorem C97_premature s good s' : l_fin s = false -> l_py s = true -> l_event s = true -> l_obj s = true -> l_removed s = false -> l_queue s = 0 ->
  run s [LShutdown; LReturn good; LDrain] = Some s' ->
  l_log s' = EFinal :: EFinish :: EEvent :: l_log s /\ l_ctl s' = Idle.
Proof.
  destruct s as [fin py ld embed event obj removed armed queue k lg]. cbn [l_fin l_py l_event l_obj l_removed l_queue l_log]. intros -> -> -> -> -> -> R.
  destruct k, armed; try discriminate R. destruct good; vm_compute in R; injection R as <-; now split.
Qed.
Print Assumptions C97_premature.
(** A callback which raises: the same. *)
Theorem C97_raised s good s' : l_fin s = false -> l_py s = true -> l_event s = true -> l_obj s = true -> l_queue s = 0 ->
  run s [LUser; LReturn false; LReturn good; LDrain] = Some s' ->
  l_log s' = EFinal :: EFinish :: EEvent :: ECall :: l_log s /\ l_ctl s' = Idle.
Proof.
  destruct s as [fin py ld embed event obj removed armed queue k lg]. cbn [l_fin l_py l_event l_obj l_removed l_queue l_log]. intros -> -> -> -> -> R.
  destruct k; try discriminate R. destruct good; vm_compute in R; injection R as <-; now split.
Qed.
Print Assumptions C97_raised.
(** Python requests the end: the function of the event is not called, and the callback at the end of the simulation calls nothing, whether
    or not the simulator still makes it. *)
Theorem C97_stopped s s' : l_fin s = false -> l_py s = true -> l_obj s = true -> l_queue s = 0 ->
  run s [LUser; LStop; LReturn true; LDrain] = Some s' ->
  l_log s' = EFinal :: EFinish :: ECall :: l_log s /\ l_ctl s' = Idle /\
  forall s'', run s' [LShutdown; LDrain] = Some s'' -> l_log s'' = l_log s'.
Proof.
  destruct s as [fin py ld embed event obj removed armed queue k lg]. cbn [l_fin l_py l_event l_obj l_removed l_queue l_log]. intros -> -> -> -> R.
  destruct k; try discriminate R. vm_compute in R. injection R as <-. split; [reflexivity|]. split; [reflexivity|].
  intros s'' R. destruct armed; vm_compute in R; [|discriminate R]. now injection R as <-.
Qed.
Print Assumptions C97_stopped.
(** Loading [load_entry] fails: the end is requested, Python finalised; the rest of the simulation runs without it. *)
Theorem C97_not_started s s' : l_fin s = false -> l_py s = true -> l_loaded s = true -> l_embed s = false -> l_event s = false -> l_obj s = true -> l_queue s = 0 ->
  run s [LStart; LReturn false; LDrain] = Some s' ->
  l_log s' = EFinal :: EFinish :: ELoad :: l_log s /\ l_ctl s' = Idle /\ (run s' [LStart] = None \/ exists s'', run s' [LStart; LDrain] = Some s'' /\ l_log s'' = l_log s').
Proof.
  destruct s as [fin py ld embed event obj removed armed queue k lg]. cbn [l_fin l_py l_loaded l_embed l_event l_obj l_removed l_queue l_log]. intros -> -> -> -> -> -> -> R.
  destruct k; try discriminate R. vm_compute in R. injection R as <-. split; [reflexivity|]. split; [reflexivity|].
  right. eexists. split; reflexivity.
Qed.
Print Assumptions C97_not_started.
Example C97_ends_ex : exists s, run (init true false) [LStart; LSetEvent; LReturn true; LDrain; LUser; LReturn true; LDrain] = Some s /\
  l_fin s = false /\ l_py s = true /\ l_event s = true /\ l_obj s = true /\ l_removed s = false /\ l_queue s = 0 /\
  (exists s', run s [LShutdown; LReturn true; LDrain] = Some s' /\ l_log s' = [EFinal; EFinish; EEvent; ECall; ELoad]) /\
  (exists s', run s [LUser; LReturn false; LReturn true; LDrain] = Some s') /\
  (exists s', run s [LUser; LStop; LReturn true; LDrain] = Some s').
Proof. eexists. split; [vm_compute; reflexivity|]. cbn. repeat split; eexists; try split; reflexivity. Qed.

(** * No faults *)
(** What simulator and Python must respect: no callback within another one after the end was requested; no callback into Python after it
    was finalised. *)
Definition respects (s : st) (l : label) : Prop :=
  match l with
  | LReenter => l_fin s = false
  | LUser => l_py s = true
  | LStart => l_py s = true \/ l_loaded s = false
  | _ => True
  end.
Fixpoint respected (s : st) (ls : list label) : Prop :=
  match ls with [] => True | l :: ls' => respects s l /\ forall s', step s l = Some s' -> respected s' ls' end.
Definition sound (s : st) : Prop :=
  faultless (l_log s) /\
  (l_py s = false -> l_queue s = 0 /\ l_event s = false /\ match l_ctl s with Py _ => False | _ => True end) /\
  (l_ctl s = Idle -> l_queue s = 0) /\
  (l_obj s = false -> l_fin s = true /\ l_armed s = false) /\ (l_removed s = true -> l_fin s = true) /\
  (l_ctl s = Py (WEvent true) -> l_obj s = true /\ l_armed s = false).
Lemma faultless_cons e l : match e with EFault _ => False | _ => True end -> faultless l -> faultless (e :: l).
Proof. intros E F f [H|H]; [subst; exact E|now apply (F f)]. Qed.
Lemma sound_step s l s' : sound s -> respects s l -> step s l = Some s' -> sound s'.
Proof.
  destruct s as [fin py loaded embed event obj removed armed queue c lg]. intros (A & B & C & D & E & F) G H.
  cbn [l_fin l_py l_loaded l_embed l_event l_obj l_removed l_armed l_queue l_ctl l_log respects] in *.
  destruct l; cases; destruct c as [|w|]; try discriminate H; try destruct w as [|own|]; try destruct own; destruct fin, py, obj; break.
  all: unfold sound; cbn in *; try (now exfalso; intuition discriminate).
  all: repeat split; intros; try discriminate; try reflexivity; try assumption; try (intuition discriminate); try (intuition congruence).
  all: try (repeat (apply faultless_cons; [exact Logic.I|]); assumption).
Qed.
Lemma sound_init loaded fin : sound (init loaded fin).
Proof. destruct loaded, fin; unfold sound; cbn; repeat split; intros; try discriminate; try tauto; intros f H; cbn in H; intuition discriminate. Qed.
(** Then nothing freed is used, Python is not entered after its end and not finalised while it runs. *)
Theorem C97_no_fault loaded fin ls s : respected (init loaded fin) ls -> run (init loaded fin) ls = Some s -> faultless (l_log s).
Proof.
  intros G R. enough (S : sound s) by apply S. pose proof (sound_init loaded fin) as S. revert S G R. generalize (init loaded fin).
  induction ls as [|l ls IH]; intros s0 S G R; cbn [run] in R; [injection R as <-; exact S|].
  destruct (step s0 l) as [s1|] eqn:E; [|discriminate R]. destruct G as [G1 G2]. apply (IH s1 (sound_step s0 l s1 S G1 E) (G2 s1 E) R).
Qed.
Print Assumptions C97_no_fault.
(** A whole life, with a callback within another one and an event of the simulator. *)
Example C97_no_fault_ex : let ls := [LStart; LSetEvent; LReturn true; LDrain; LUser; LReenter; LReturn true; LDrain; LReturn true; LDrain;
    LShutdown; LStop; LReturn true; LDrain] in
  respected (init true false) ls /\ exists s, run (init true false) ls = Some s /\ l_log s = [EFinal; EFinish; EEvent; ECall; ECall; ELoad].
Proof.
  split; [|eexists; split; vm_compute; reflexivity].
  repeat (cbn [respected]; split; [cbn; tauto || discriminate || (intros; reflexivity) || exact Logic.I |
    intros s' E; apply Some_inj in E; vm_compute in E; subst s']). exact Logic.I.
Qed.

(** Nothing is assumed here: whatever simulator and Python do, the object of the callback at the end is used only while it exists, also
    when the simulation ends by itself and the end is requested from within that very callback. *)
Definition kept (s : st) : Prop :=
  ~ In (EFault FObject) (l_log s) /\ (l_obj s = false -> l_fin s = true /\ l_armed s = false) /\
  (l_ctl s = Py (WEvent true) -> l_obj s = true /\ l_armed s = false) /\ (l_removed s = true -> l_fin s = true).
Lemma kept_step s l s' : kept s -> step s l = Some s' -> kept s'.
Proof.
  destruct s as [fin py loaded embed event obj removed armed queue c lg]. intros (A & B & C & D) H.
  cbn [l_fin l_py l_loaded l_embed l_event l_obj l_removed l_armed l_queue l_ctl l_log] in *.
  destruct l; cases; destruct c as [|w|]; try discriminate H; try destruct w as [|own|]; try destruct own; destruct fin, py, obj; break.
  all: unfold kept; cbn in *; try (now exfalso; intuition discriminate).
  all: repeat split; intros; try discriminate; try reflexivity; try assumption; try (intuition discriminate); try (intuition congruence).
Qed.
Theorem C97_object loaded fin ls s : run (init loaded fin) ls = Some s -> ~ In (EFault FObject) (l_log s).
Proof.
  intro R. enough (K : kept s) by apply K. apply (run_inv kept kept_step) with (ls := ls) (s := init loaded fin); [|exact R].
  destruct loaded, fin; unfold kept; cbn; repeat split; intros; try discriminate; intuition discriminate.
Qed.
Print Assumptions C97_object.
(** The end by itself; an end after Python's request; and a start after the end: none uses the freed object. *)
Example C97_object_ex : let ls := [LStart; LSetEvent; LReturn true; LDrain; LShutdown; LStop; LReturn true; LDrain; LStart; LDrain] in
  exists s, run (init true false) ls = Some s /\ l_obj s = false /\ l_log s = [EFinal; EFinish; EEvent; ELoad].
Proof. eexists. split; [vm_compute; reflexivity|]. now split. Qed.

(** * What does not hold *)
(** A signal is set at once after the end was requested, and the simulator calls back for its change: Python is finalised while it runs. *)
Theorem C97_within_refuted : exists s, run (init true false) [LStart; LReturn true; LDrain; LUser; LStop; LReenter] = Some s /\
  In (EFault FRunning) (l_log s).
Proof. eexists. split; [vm_compute; reflexivity|]. cbn. tauto. Qed.
Print Assumptions C97_within_refuted.
(** A callback that is left over when the simulator goes on: finalised Python is entered. *)
Theorem C97_left_over_refuted : exists s, run (init true false) [LStart; LReturn true; LDrain; LUser; LStop; LReturn true; LDrain; LUser] = Some s /\
  In (EFault FDead) (l_log s).
Proof. eexists. split; [vm_compute; reflexivity|]. cbn. tauto. Qed.
Print Assumptions C97_left_over_refuted.
(** The function of the event can be called after Python itself has requested the end, and more than once. *)
Theorem C97_event_refuted : exists s, run (init true false) [LStart; LSetEvent; LReturn true; LDrain; LUser; LReenter; LStop; LReturn false;
    LReturn true; LDrain; LReturn false] = Some s /\ l_log s = [EEvent; ECall; EEvent; EFinish; ECall; ELoad].
Proof. eexists. split; [vm_compute; reflexivity|]. reflexivity. Qed.
Print Assumptions C97_event_refuted.

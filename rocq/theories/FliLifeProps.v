(** C112: life of the interface through the FLI. *)
From Coq Require Import Lia.
From Verif Require Import Base FliLifeModel.

Definition reach (s : st) : Prop := exists loaded fin ls, run (init loaded fin) ls = Some s.
Definition is_end (e : ev) : bool := match e with EQuit | EBreak => true | _ => false end.
Definition is_final (e : ev) : bool := match e with EFinal => true | _ => false end.
Definition is_event (e : ev) : bool := match e with EEvent => true | _ => false end.
Definition times (p : ev -> bool) (l : list ev) : nat := List.length (filter p l).

Lemma run_inv (P : st -> Prop) : (forall s l s', P s -> step s l = Some s' -> P s') -> forall ls s s', P s -> run s ls = Some s' -> P s'.
Proof.
  intros S. induction ls as [|l ls IH]; intros s s' H R; cbn [run] in R; [injection R as <-; exact H|].
  destruct (step s l) as [s1|] eqn:E; [|discriminate R]. apply (IH s1 s' (S s l s1 H E) R).
Qed.
Lemma reach_inv (P : st -> Prop) : (forall loaded fin, P (init loaded fin)) -> (forall s l s', P s -> step s l = Some s' -> P s') -> forall s, reach s -> P s.
Proof. intros I S s (loaded & fin & ls & R). apply (run_inv P S ls (init loaded fin) s (I loaded fin) R). Qed.

(** All branches of a step. *)
Ltac flat_in H := cbn [f_fin f_py f_loaded f_embed f_event f_start f_starts f_shut f_quits f_time f_ctl f_log log set_ctl set_fin set_dead set_embed set_event set_start set_shut set_time] in H.
Ltac cases H := unfold step, enter_start, enter_shut, enter_user, end_of_sim_time, ended, back, check_cleanup, delete_start, delete_shut, gpi_finish, sim_end, remove_shut in H; flat_in H.
Ltac break := repeat match goal with
  | H : None = Some _ |- _ => discriminate H
  | H : ?x = Some _ |- _ => match x with context [match ?b with _ => _ end] => is_var b; destruct b; try discriminate H; flat_in H end
  end.

(** The invariant behind the first theorems: the shutdown callback is alive and armed exactly while nothing has ended, except within it. *)
Definition inv (s : st) : Prop :=
  times is_end (f_log s) = (if f_fin s then 1 else 0) /\
  times is_final (f_log s) = (if f_fin s then if f_loaded s then if f_py s then 0 else 1 else 0 else 0) /\
  (f_loaded s = false -> f_py s = false /\ f_ctl s = Idle) /\
  (f_fin s = false -> f_shut s = true /\ f_py s = f_loaded s) /\
  (f_quits s = true -> f_shut s = true /\ f_fin s = false) /\
  (f_fin s = true -> f_shut s = false) /\
  (f_starts s = true -> f_start s = true) /\
  (match f_ctl s with PyLoad | PyEvent FStart => f_start s = true /\ f_starts s = false | _ => True end) /\
  (match f_ctl s with PyEvent FShut => f_quits s = false | Idle => f_fin s = false -> f_quits s = true | _ => f_fin s = false -> f_quits s = true end) /\
  (match f_ctl s with Idle => True | _ => f_py s = true end) /\
  (f_py s = false -> f_event s = false) /\
  ~ In (EFault FStartObj) (f_log s).
Lemma inv_init loaded fin : inv (init loaded fin).
Proof. destruct loaded, fin; unfold inv; cbn; intuition (discriminate || reflexivity). Qed.
Lemma inv_step s l s' : inv s -> step s l = Some s' -> inv s'.
Proof.
  destruct s as [fin py loaded embed event start starts shut quits time c lg]. unfold inv.
  cbn [f_fin f_py f_loaded f_embed f_event f_start f_starts f_shut f_quits f_time f_ctl f_log].
  intros (A & B & C & D & E & F & G & K & L & M & N & O) H. unfold times in *.
  destruct l; cases H; destruct c as [| |[]|]; try discriminate H; destruct fin, py, loaded, shut;
    try (exfalso; clear - A B C D E F K L M; cbn in *; now intuition discriminate);
    destruct start; try (exfalso; clear - K; cbn in *; now intuition discriminate); break; injection H as <-; cbn in *;
    clear - A B C D E F G K L M N O; intuition (discriminate || congruence).
Qed.
Lemma inv_reach s : reach s -> inv s.
Proof. apply (reach_inv inv inv_init inv_step). Qed.

(** * At most once *)
(** In every execution the simulator is told to end at most once and Python is finalised at most once, only afterwards. *)
Theorem C112_once s : reach s -> times is_end (f_log s) <= 1 /\ times is_final (f_log s) <= times is_end (f_log s).
Proof. intros R. destruct (inv_reach s R) as (A & B & _). rewrite A, B. destruct (f_fin s), (f_loaded s), (f_py s); lia. Qed.
Print Assumptions C112_once.
(** The object of the startup callback is freed once. *)
Theorem C112_startup s : reach s -> ~ In (EFault FStartObj) (f_log s).
Proof. intros R. destruct (inv_reach s R) as (_ & _ & _ & _ & _ & _ & _ & _ & _ & _ & _ & O). exact O. Qed.
Print Assumptions C112_startup.
(** When the end was requested the callback for quitting is not registered any more, and Python is finalised before the simulator goes on. *)
Theorem C112_back s : reach s -> f_fin s = true -> f_quits s = false /\ step s LShut = None.
Proof.
  intros R F. destruct (inv_reach s R) as (_ & _ & _ & _ & E & _).
  assert (f_quits s = false) as Q by (destruct (f_quits s); [destruct (E eq_refl); congruence|reflexivity]).
  split; [exact Q|]. unfold step. destruct (f_ctl s); try reflexivity. now rewrite Q.
Qed.
Example C112_back_example : exists s, run (init true false) [LStart; LReturn true; LTime; LUser; LStop; LReturn true] = Some s /\ f_fin s = true /\ f_log s = [EFinal; EBreak; ECall; ELoad].
Proof. eexists. split; [vm_compute; reflexivity|]. now split. Qed.
Print Assumptions C112_back.
Theorem C112_finalised s l s' : step s l = Some s' -> l <> LTime -> f_ctl s' = Idle -> f_fin s' = true -> f_py s' = false.
Proof.
  destruct s as [fin py loaded embed event start starts shut quits time c lg]. intros H T I F.
  destruct l; try (now destruct T); clear T; cases H; destruct c as [| |[]|]; try discriminate H; destruct fin, py, start, shut; break;
    injection H as <-; cbn in *; try reflexivity; try discriminate F; try discriminate I.
Qed.
Example C112_finalised_example : exists s s', run (init true false) [LStart] = Some s /\ run s [LStop] = Some s' /\ (exists t, step s' (LReturn true) = Some t /\ f_ctl t = Idle /\ f_fin t = true).
Proof. do 2 eexists. split; [vm_compute; reflexivity|]. split; [vm_compute; reflexivity|]. eexists. split; [vm_compute; reflexivity|]. now split. Qed.
Print Assumptions C112_finalised.
(** * The callback for quitting *)
(** When the simulator quits by itself - and so before the end was requested - the object of the callback is freed twice, in every execution in
    which Python returns: [sim_end] removes the callback, which deletes it, within its own [run]. *)
Theorem C112_quit s s' ls t : reach s -> step s LShut = Some s' -> run s' ls = Some t -> f_ctl t = Idle -> In (EFault FShutObj) (f_log t).
Proof.
  intros R H K I. pose proof (inv_reach s R) as V. pose proof (inv_step s LShut s' V H) as V'.
  assert (G : In (EFault FShutObj) (f_log s') \/ f_ctl s' = PyEvent FShut).
  { destruct V as (_ & _ & C & D & E & F & _). destruct s as [fin py loaded embed event start starts shut quits time c lg].
    cbn [f_fin f_py f_loaded f_embed f_event f_start f_starts f_shut f_quits f_time f_ctl f_log] in *.
    cases H. destruct c; try discriminate H. destruct quits; try discriminate H. destruct (E eq_refl) as [-> ->].
    destruct event, py; injection H as <-; cbn; tauto. }
  clear H R V s. revert s' V' G K. induction ls as [|l ls IH]; intros s V G K.
  - injection K as <-. destruct G as [G|G]; [exact G|]. rewrite I in G. discriminate G.
  - cbn [run] in K. destruct (step s l) as [s1|] eqn:H; [|discriminate K]. apply (IH s1 (inv_step s l s1 V H)); [|exact K].
    clear IH K I t ls. destruct V as (_ & _ & C & D & E & F & _ & _ & L & M & _).
    destruct s as [fin py loaded embed event start starts shut quits time c lg].
    cbn [f_fin f_py f_loaded f_embed f_event f_start f_starts f_shut f_quits f_time f_ctl f_log] in *.
    destruct G as [G|G].
    + left. clear - G H. destruct l; cases H; destruct c as [| |[]|]; try discriminate H; destruct fin, py, start, shut; break; injection H as <-; cbn; tauto.
    + subst c. destruct l; cases H; try discriminate H.
      * right. destruct fin; [|destruct shut]; injection H as <-; reflexivity.
      * right. injection H as <-. reflexivity.
      * left. subst quits. destruct fin; [rewrite (F eq_refl) in H|destruct (D eq_refl) as [-> _]]; cbn in M; subst py; injection H as <-; cbn; tauto.
Qed.
Example C112_quit_example : exists s s' t, reach s /\ step s LShut = Some s' /\ run s' [LReturn true] = Some t /\ f_ctl t = Idle /\
  f_log t = [EFinal; EFault FShutObj; EBreak; EEvent; ELoad].
Proof.
  do 3 eexists. split; [exists true, false, [LStart; LSetEvent; LReturn true; LTime]; vm_compute; reflexivity|]. split; [vm_compute; reflexivity|]. split; [vm_compute; reflexivity|]. split; reflexivity.
Qed.
Print Assumptions C112_quit.
Theorem C112_quit_refuted : exists t, run (init true false) [LStart; LReturn true; LTime; LShut] = Some t /\ In (EFault FShutObj) (f_log t).
Proof. eexists. split; [vm_compute; reflexivity|]. cbn. tauto. Qed.
Print Assumptions C112_quit_refuted.
(** That is the only way to it: executions without that callback never use the object after it was freed. *)
Theorem C112_no_quit loaded fin ls s : run (init loaded fin) ls = Some s -> ~ In LShut ls -> ~ In (EFault FShutObj) (f_log s).
Proof.
  intros R N. assert (Q : inv s /\ (f_fin s = false -> f_shut s = true) /\ f_ctl s <> PyEvent FShut /\ ~ In (EFault FShutObj) (f_log s)); [|apply Q].
  assert (Q0 : let s := init loaded fin in inv s /\ (f_fin s = false -> f_shut s = true) /\ f_ctl s <> PyEvent FShut /\ ~ In (EFault FShutObj) (f_log s)).
  { split; [apply inv_init|]. destruct fin; cbn; intuition discriminate. }
  cbv zeta in Q0. revert Q0 R N. generalize (init loaded fin). induction ls as [|l ls IH]; intros s0 Q0 R N.
  - injection R as <-. exact Q0.
  - cbn [run] in R. destruct (step s0 l) as [s1|] eqn:H; [|discriminate R]. apply (IH s1); [|exact R|intro K; apply N; now right].
    assert (l <> LShut) as NL by (intros ->; apply N; now left). clear IH R N ls.
    destruct Q0 as (V & A & B & C). split; [apply (inv_step s0 l s1 V H)|]. clear V.
    destruct s0 as [f py ld embed event start starts shut quits time c lg].
    cbn [f_fin f_py f_loaded f_embed f_event f_start f_starts f_shut f_quits f_time f_ctl f_log] in *.
    destruct l; try (now destruct NL); clear NL; cases H; destruct c as [| |[]|]; try discriminate H; try (now destruct B); clear B;
      destruct f; try (rewrite (A eq_refl) in H); destruct py, start; try destruct shut; break; injection H as <-; cbn;
      (split; [intro; try discriminate; try reflexivity; try (apply A; assumption)|split; [discriminate|]]); try (intros [K|K]; [discriminate K|]; revert K); try exact C;
      try (intros [K|K]; [discriminate K|]; revert K); try exact C; try (intros [K|K]; [discriminate K|]; revert K); try exact C.
Qed.
Example C112_no_quit_example : ~ In LShut [LStart; LReturn false; LUser] /\ exists s, run (init true false) [LStart; LReturn false; LUser] = Some s /\ f_log s = [EFault FDead; EFinal; EQuit; ELoad].
Proof. split; [cbn; intuition discriminate|]. eexists. split; [vm_compute; reflexivity|]. reflexivity. Qed.
Print Assumptions C112_no_quit.
(** * How the simulator is ended *)
(** Before time has advanced the simulator quits, later it stops; in both cases the object of the callback is gone. *)
Theorem C112_end s : f_shut s = true -> f_fin s = false -> f_log (gpi_finish s) = (if f_time s then EBreak else EQuit) :: f_log s /\ f_shut (gpi_finish s) = false /\ f_quits (gpi_finish s) = false /\ f_fin (gpi_finish s) = true.
Proof. destruct s as [f py ld embed event start starts shut quits time c lg]. cbn. intros -> ->. now repeat split. Qed.
Example C112_end_example : let s := init true false in f_shut s = true /\ f_fin s = false /\ f_log (gpi_finish s) = [EQuit] /\ f_log (gpi_finish (set_time s)) = [EBreak].
Proof. now repeat split. Qed.
Print Assumptions C112_end.
(** A test run which Python ends: the order of things. *)
Theorem C112_stopped s s' : f_fin s = false -> f_py s = true -> f_shut s = true -> run s [LUser; LStop; LReturn true] = Some s' ->
  f_log s' = EFinal :: (if f_time s then EBreak else EQuit) :: ECall :: f_log s /\ f_ctl s' = Idle.
Proof.
  destruct s as [f py ld embed event start starts shut quits time c lg]. cbn [f_fin f_py f_shut f_time f_log]. intros -> -> -> R.
  destruct c; try discriminate R. vm_compute in R. injection R as <-. now split.
Qed.
Example C112_stopped_example : exists s, run (init true false) [LStart; LReturn true; LTime] = Some s /\ f_fin s = false /\ f_py s = true /\ f_shut s = true.
Proof. eexists. split; [vm_compute; reflexivity|]. now repeat split. Qed.
Print Assumptions C112_stopped.
(** A test run which could not be started, with the function for the end set before or not. *)
Theorem C112_not_started good s : run (init true false) [LStart; LReturn false] = Some s \/ run (init true false) [LStart; LSetEvent; LReturn false; LReturn good] = Some s ->
  (f_log s = [EFinal; EQuit; ELoad] \/ f_log s = [EFinal; EQuit; EEvent; ELoad]) /\ f_ctl s = Idle /\ f_start s = false /\ f_shut s = false.
Proof. intros [R|R]; vm_compute in R; injection R as <-; cbn; tauto. Qed.
Example C112_not_started_example : exists s, run (init true false) [LStart; LSetEvent; LReturn false; LReturn false] = Some s.
Proof. eexists. vm_compute. reflexivity. Qed.
Print Assumptions C112_not_started.
(** A callback which is left over when the simulator goes on enters finalised Python. *)
Theorem C112_left_over_refuted : exists s, run (init true false) [LStart; LReturn true; LTime; LUser; LStop; LReturn true; LUser] = Some s /\ In (EFault FDead) (f_log s).
Proof. eexists. split; [vm_compute; reflexivity|]. cbn. tauto. Qed.
Print Assumptions C112_left_over_refuted.
(** * The function for the end *)
Definition once (s : st) : Prop := inv s /\
  match f_ctl s with
  | PyEvent _ => times is_event (f_log s) = 1
  | PyLoad | PyUser => times is_event (f_log s) = 0
  | Idle => times is_event (f_log s) = 0 \/ times is_event (f_log s) = 1 /\ f_fin s = true /\ f_py s = false
  end.
Lemma once_step s l s' : once s -> step s l = Some s' -> once s'.
Proof.
  intros (I & P) H. split; [apply (inv_step s l s' I H)|].
  destruct I as (_ & _ & C & D & E & F & G & K & L & M & N & _).
  destruct s as [fin py loaded embed event start starts shut quits time c lg].
  cbn [f_fin f_py f_loaded f_embed f_event f_start f_starts f_shut f_quits f_time f_ctl f_log] in *. unfold times in *.
  clear - P H M N. destruct l; cases H; destruct c as [| |[]|]; try discriminate H; destruct fin, py, start, shut; try (cbn in M; discriminate M);
    try (rewrite (N eq_refl) in H); break; injection H as <-; cbn in *; clear M N; try exact P; try (left; exact P); try (now rewrite P); try (right; split; [|split]; auto; fail);
    try (destruct P as [P|(P & A & B)]; try discriminate A; try discriminate B; cbn; auto; fail).
Qed.
(** The function which Python gave is called at most once, in every execution. *)
Theorem C112_event s : reach s -> times is_event (f_log s) <= 1.
Proof.
  intros R. assert (once s) as (_ & P).
  { revert s R. apply (reach_inv once); [|exact once_step]. intros loaded fin. split; [apply inv_init|]. destruct fin; left; reflexivity. }
  destruct (f_ctl s); lia.
Qed.
Example C112_event_example : exists s, run (init true false) [LStart; LSetEvent; LReturn true; LTime; LUser; LReturn false; LReturn true] = Some s /\ f_log s = [EFinal; EBreak; EEvent; ECall; ELoad].
Proof. eexists. split; [vm_compute; reflexivity|]. reflexivity. Qed.
Print Assumptions C112_event.

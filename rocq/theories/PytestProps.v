From Verif Require Import Base PytestModel PytestSpec PytestProofs.
From Coq Require Import Lia.

(** An environment in which nothing raises: [ph] the hooks, [dn] the asynchronous parts. *)
Definition simple (n : nat) (ph : nat -> phase -> verdict * list part) (dn : part -> verdict) : env :=
  Env n false false false (fun i p => Some (ph i p)) (fun _ _ x => x) (fun a => Some (dn a)) (fun _ => false) (fun i => (Z.of_nat i + 100)%Z) 7%Z (fun x => x).
Lemma simple_quiet n ph dn : quiet (simple n ph dn). Proof. repeat split; intros; cbn; discriminate. Qed.
Lemma simple_normal n ph dn : (0 < n)%nat -> normal (simple n ph dn). Proof. repeat split. exact H. Qed.

Fixpoint runs (E : env) (s : st) (ls : list label) : option st :=
  match ls with [] => Some s | l :: ls => match step E s l with Some s => runs E s ls | None => None end end.
Lemma runs_exec E ls : forall s s', runs E s ls = Some s' -> exec E s ls s'.
Proof.
  induction ls as [|l ls IH]; intros s s' H; cbn [runs] in H; [injection H as <-; constructor|]. destruct (step E s l) as [s1|] eqn:S; [|discriminate H].
  econstructor; [exact S|now apply IH].
Qed.

(** Two items: the first has two asynchronous fixtures, an asynchronous function and a finalizer; the second is synchronous. *)
Definition two (i : nat) (p : phase) : verdict * list part :=
  match i, p with
  | O, PSetup => (Passed, [1; 2]%nat)
  | O, PCall => (Passed, [3]%nat)
  | O, PTeardown => (Passed, [4]%nat)
  | _, _ => (Passed, [])
  end.
Definition two_env := simple 2 two (fun a => if Nat.eqb a 3 then Failed else Passed).
Definition two_labels := [LBegin; LDone 1; LTimer; LDone 2; LTimer; LDone 3; LTimer; LDone 4].

(** * C74: the session *)

(** What has happened is always an initial part of the expected history, all of it once the session is finished. *)
Theorem C74_order E r ls s : quiet E -> normal E -> exec E (init E r) ls s -> no_sim_end ls -> ls <> [] ->
  exists rest, session_log E = map plain (r_log s) ++ rest /\ (r_finished s = true <-> rest = []).
Proof.
  intros QE NE X N NN. destruct (session_good E QE NE r ls s X N NN) as ((A & B & _) & _). exists (rem E s). split; [symmetry; exact A|].
  rewrite B. unfold rem. destruct (r_wait s) as [[p a]|]; [|split; reflexivity]. split; [discriminate|]. intro H. exfalso.
  apply app_eq_nil in H as [_ H]. apply app_eq_nil in H as [_ H]. unfold tail in H. apply app_eq_nil in H as [_ H]. discriminate H.
Qed.
Print Assumptions C74_order.
Example C74_order_ex : exists s, quiet two_env /\ normal two_env /\ exec two_env (init two_env 5) two_labels s /\ no_sim_end two_labels /\ r_finished s = true /\
  map plain (r_log s) =
    [EvLogStart 0; EvHook 0 PSetup; ran PSetup 1; ran PSetup 2; EvReport 0 PSetup Passed; EvHook 0 PCall; ran PCall 3; EvReport 0 PCall Failed;
     EvHook 0 PTeardown; ran PTeardown 4; EvReport 0 PTeardown Passed; EvLogFinish 0;
     EvLogStart 1; EvHook 1 PSetup; EvReport 1 PSetup Passed; EvHook 1 PCall; EvReport 1 PCall Passed; EvHook 1 PTeardown; EvReport 1 PTeardown Passed; EvLogFinish 1;
     EvFinish true; EvShutdown; EvStop].
Proof.
  eexists. split; [apply simple_quiet|]. split; [apply simple_normal; lia|]. split; [apply runs_exec; vm_compute; reflexivity|].
  split; [intro H; repeat (destruct H as [H|H]; [discriminate H|]); destruct H|]. split; reflexivity.
Qed.

(** The session does not wait forever: a number of steps bounded by the history suffices, whatever their order, and there is always a next one. *)
Theorem C74_ends E r : quiet E -> normal E ->
  (forall ls s, exec E (init E r) ls s -> no_sim_end ls ->
     (List.length ls <= 2 * List.length (session_log E))%nat /\
     (r_finished s = true \/ exists l s', l <> LSimEnd /\ step E s l = Some s')) /\
  (exists ls s, exec E (init E r) ls s /\ no_sim_end ls /\ r_finished s = true).
Proof.
  intros QE NE. split; [|now apply finishes]. intros ls s X N. split; [now apply (bounded E QE NE r ls s)|].
  destruct ls as [|l ls].
  - right. inversion X; subst. destruct (begin_good E QE NE r) as (s & S & _). exists LBegin, s. split; [discriminate|exact S].
  - destruct (session_good E QE NE r (l :: ls) s X N) as ((_ & B & _) & _); [discriminate|]. destruct (r_wait s) as [w|] eqn:W; [right|left; exact B].
    apply can_step. rewrite W. discriminate.
Qed.
Print Assumptions C74_ends.
Example C74_ends_ex : quiet two_env /\ normal two_env /\ List.length two_labels = 8%nat /\ List.length (session_log two_env) = 23%nat.
Proof. split; [apply simple_quiet|]. split; [apply simple_normal; lia|]. split; reflexivity. Qed.

(** Whatever raises: the end is announced once, and the simulator is stopped unless announcing the end or shutting down raises. *)
Theorem C74_once E r ls s : exec E (init E r) ls s ->
  count is_finish (r_log s) = (if r_finished s then 1 else 0)%nat /\
  ((forall b, e_raises E (EvFinish b) = false) -> e_raises E EvShutdown = false -> count is_stop (r_log s) = count is_finish (r_log s)).
Proof.
  intro X. assert (O : once E s).
  { apply (exec_inv E (once E) (once_step E) _ _ _ X). repeat split. cbn. lia. }
  destruct O as (A & _ & B). split; assumption.
Qed.
Print Assumptions C74_once.
(** The teardown hook of the first item raises KeyboardInterrupt. *)
Definition broken_env : env :=
  Env 2 false false false (fun i p => match p with PTeardown => None | _ => Some (two i p) end) (fun _ _ x => x) (fun a => Some Passed) (fun _ => false) (fun _ => 0%Z) 7%Z (fun x => x).
Example C74_once_ex : exists s, exec broken_env (init broken_env 5) [LBegin; LDone 1; LTimer; LDone 2; LTimer; LDone 3] s /\ r_finished s = true /\
  count is_finish (r_log s) = 1%nat /\ count is_stop (r_log s) = 1%nat /\ In EvNotify (r_log s) /\ In (EvFinish false) (r_log s).
Proof. eexists. split; [apply runs_exec; vm_compute; reflexivity|]. cbn. repeat split; auto 20. Qed.

(** Whatever raises: as long as the simulation lasts, the session is finished or a part will be run or is running. *)
Theorem C74_live E r ls s : exec E (init E r) ls s -> no_sim_end ls -> ls <> [] -> r_finished s = true \/ r_wait s <> None.
Proof.
  intros X N NN. destruct (exists_last NN) as (ms & l & ->). clear NN.
  assert (H : exists s1, exec E (init E r) ms s1 /\ step E s1 l = Some s).
  { clear N. revert X. generalize (init E r). induction ms as [|m ms IH]; intros s0 X; cbn [app] in X; inversion X as [|? ? s1 ? ? S X']; subst.
    - inversion X'; subst. exists s0. split; [constructor|exact S].
    - destruct (IH s1 X') as (s2 & X2 & S2). exists s2. split; [econstructor; eassumption|exact S2]. }
  destruct H as (s1 & _ & S). apply (live_step E s1 l s); [|exact S]. intros ->. apply N. apply in_or_app. right. now left.
Qed.
Print Assumptions C74_live.
Example C74_live_ex : exists s, exec broken_env (init broken_env 5) [LBegin; LDone 1; LTimer] s /\ r_finished s = false /\ r_wait s = Some (PSetup, 2%nat).
Proof. eexists. split; [apply runs_exec; vm_compute; reflexivity|]. split; reflexivity. Qed.

(** Whatever raises: a report is about the phase whose hook was called last. *)
Theorem C74_reports E r ls s l1 i p v l2 : exec E (init E r) ls s -> r_log s = l1 ++ EvReport i p v :: l2 -> last_hook l1 None = Some (i, p).
Proof. intros X H. destruct (fine_exec E r ls s X) as ((A & _) & _). exact (A l1 _ l2 H). Qed.
Print Assumptions C74_reports.
Example C74_reports_ex : exists s, exec broken_env (init broken_env 5) [LBegin; LDone 1; LTimer; LDone 2] s /\ In (EvReport 0 PSetup Passed) (r_log s).
Proof. eexists. split; [apply runs_exec; vm_compute; reflexivity|]. cbn. auto 10. Qed.

(** A failing asynchronous finalizer is forgotten if another one follows and passes, as is a failing teardown hook: the report is that of the last part. *)
Theorem C74_teardown_refuted : exists E ls s a, quiet E /\ normal E /\ exec E (init E 0) ls s /\ no_sim_end ls /\ r_finished s = true /\
  In (ran PTeardown a) (map plain (r_log s)) /\ says E a = Failed /\ (forall i p v, In (EvReport i p v) (r_log s) -> v = Passed).
Proof.
  exists (simple 1 (fun _ p => match p with PTeardown => (Passed, [1; 2]%nat) | _ => (Passed, []) end) (fun a => if Nat.eqb a 1 then Failed else Passed)).
  exists [LBegin; LDone 0; LTimer; LDone 0]. eexists. exists 1%nat. split; [apply simple_quiet|]. split; [apply simple_normal; lia|].
  split; [apply runs_exec; vm_compute; reflexivity|]. split; [intro H; repeat (destruct H as [H|H]; [discriminate H|]); destruct H|]. split; [reflexivity|]. split; [cbn; auto 20|]. split; [reflexivity|].
  intros i p v H. cbn in H. repeat (destruct H as [H|H]; [try discriminate H; now injection H as _ _ <-|]). destruct H.
Qed.
Print Assumptions C74_teardown_refuted.
Theorem C74_hook_refuted : exists E ls s, quiet E /\ normal E /\ exec E (init E 0) ls s /\ no_sim_end ls /\ r_finished s = true /\
  hook_says E 0 PTeardown = Failed /\ hook_says E 0 PCall = Failed /\ (forall i p v, In (EvReport i p v) (r_log s) -> v = Passed).
Proof.
  exists (simple 1 (fun _ p => match p with PSetup => (Passed, []) | PCall => (Failed, [1]%nat) | PTeardown => (Failed, [2]%nat) end) (fun _ => Passed)).
  exists [LBegin; LDone 0; LTimer; LDone 0]. eexists. split; [apply simple_quiet|]. split; [apply simple_normal; lia|].
  split; [apply runs_exec; vm_compute; reflexivity|]. split; [intro H; repeat (destruct H as [H|H]; [discriminate H|]); destruct H|]. split; [reflexivity|]. split; [reflexivity|]. split; [reflexivity|].
  intros i p v H. cbn in H. repeat (destruct H as [H|H]; [try discriminate H; now injection H as _ _ <-|]). destruct H.
Qed.
Print Assumptions C74_hook_refuted.

(** The exit status given to pytest_sessionfinish is OK, whatever the tests say. *)
Theorem C74_status_refuted : exists E ls s, quiet E /\ normal E /\ exec E (init E 0) ls s /\ no_sim_end ls /\
  In (EvReport 0 PCall Failed) (r_log s) /\ In (EvFinish true) (r_log s).
Proof.
  exists (simple 1 (fun _ p => match p with PCall => (Failed, []) | _ => (Passed, []) end) (fun _ => Passed)), [LBegin]. eexists.
  split; [apply simple_quiet|]. split; [apply simple_normal; lia|]. split; [apply runs_exec; vm_compute; reflexivity|].
  split; [intro H; repeat (destruct H as [H|H]; [discriminate H|]); destruct H|]. split; cbn; auto 20.
Qed.
Print Assumptions C74_status_refuted.

(** The simulator is not stopped if a plugin raises at the end of the session. *)
Theorem C74_stop_refuted : exists E ls s, exec E (init E 0) ls s /\ no_sim_end ls /\ r_finished s = true /\ ~ In EvStop (r_log s) /\
  forall l s', step E s l = Some s' -> l = LSimEnd.
Proof.
  exists (Env 1 false false false (fun _ _ => Some (Passed, [])) (fun _ _ x => x) (fun _ => Some Passed) (fun e => match e with EvFinish _ => true | _ => false end) (fun _ => 0%Z) 7%Z (fun x => x)).
  exists [LBegin]. eexists. split; [apply runs_exec; vm_compute; reflexivity|]. split; [intros [H|[]]; discriminate H|]. split; [reflexivity|]. split.
  - cbn. intro H. repeat (destruct H as [H|H]; [discriminate H|]). exact H.
  - intros l s' H. destruct l; try discriminate H. reflexivity.
Qed.
Print Assumptions C74_stop_refuted.

(** If the simulation ends during a test, the session is never finished: no report, no pytest_sessionfinish. *)
Lemma dead_after E s ls s' : r_wait s = None -> r_log s <> [] -> exec E s ls s' -> r_finished s' = r_finished s /\ Forall (fun l => l = LSimEnd) ls.
Proof.
  intros W L X. revert W L. induction X as [s|s l s1 ls s2 S X IH]; intros W L; [split; [reflexivity|constructor]|].
  destruct l as [| |r|]; cbn [step] in S.
  - destruct (r_log s); [now destruct L|discriminate S].
  - rewrite W in S. discriminate S.
  - rewrite W in S. discriminate S.
  - injection S as <-. destruct IH as [A B]; [reflexivity| |split; [exact A|now constructor]]. cbn [r_log set_wait set_log]. destruct (r_log s); discriminate.
Qed.
Theorem C74_sim_end E r ls s ls' s' : exec E (init E r) ls s -> r_finished s = false -> exec E s (LSimEnd :: ls') s' ->
  r_finished s' = false /\ count is_finish (r_log s') = 0%nat /\ Forall (fun l => l = LSimEnd) ls'.
Proof.
  intros X F X'. inversion X' as [|? ? s1 ? ? S X1]; subst. cbn [step] in S. injection S as <-.
  destruct (dead_after E (set_wait None false (set_log EvShutdown s)) ls' s') as [A B]; [reflexivity| |exact X1|]; [cbn [r_log set_wait set_log]; destruct (r_log s); discriminate|].
  assert (A' : r_finished s' = false) by (rewrite A; exact F). split; [exact A'|]. split; [|exact B].
  assert (X2 : exec E (init E r) (ls ++ LSimEnd :: ls') s') by (apply (exec_app E _ _ s); assumption).
  destruct (C74_once E r _ s' X2) as (C & _). now rewrite A' in C.
Qed.
Print Assumptions C74_sim_end.
Example C74_sim_end_ex : exists s s', exec two_env (init two_env 0) [LBegin] s /\ r_finished s = false /\ exec two_env s [LSimEnd] s' /\ In (ran PSetup 1) (map plain (r_log s')).
Proof. eexists. eexists. split; [apply runs_exec; vm_compute; reflexivity|]. split; [reflexivity|]. split; [apply runs_exec; vm_compute; reflexivity|]. cbn. auto 10. Qed.
Theorem C74_sim_end_refuted : exists E ls s, quiet E /\ normal E /\ exec E (init E 0) ls s /\ In LSimEnd ls /\
  forall ls' s', exec E s ls' s' -> r_finished s' = false.
Proof.
  exists two_env, [LBegin; LSimEnd]. eexists. split; [apply simple_quiet|]. split; [apply simple_normal; lia|]. split; [apply runs_exec; vm_compute; reflexivity|].
  split; [right; now left|]. intros ls' s' X. apply dead_after in X; [exact (proj1 X)|reflexivity|discriminate].
Qed.
Print Assumptions C74_sim_end_refuted.

(** Items without asynchronous parts are run by calls inside each other: as many as there are items. *)
Definition sync_env (n : nat) : env := simple n (fun _ _ => (Passed, [])) (fun _ => Passed).
Lemma sync_item n next i s : exists s', setup (sync_env n) next i s = next s' /\ r_depth s' = r_depth s.
Proof.
  unfold setup, call_hook. cbn [e_phase sync_env simple]. unfold setup_with. cbn [r_setups set_setups set_random set_logging set_log own_hook app].
  unfold andthen, emit. cbn [e_raises sync_env simple fst snd]. unfold call_hook. cbn [e_phase sync_env simple r_call set_call set_random set_logging set_log own_hook].
  unfold andthen, emit. cbn [e_raises sync_env simple fst snd]. unfold teardown, call_hook. cbn [e_phase sync_env simple].
  unfold teardown_with. cbn [r_teardowns set_teardowns set_random set_logging set_log own_hook app]. unfold andthen, emit. cbn [e_raises sync_env simple fst snd].
  eexists. split; reflexivity.
Qed.
Lemma sync_depth n rest : forall d i s, In (d + rest)%nat (r_depth (fst (protocol (sync_env n) d i rest s))).
Proof.
  assert (KF : forall x s, In x (r_depth s) -> In x (r_depth (fst (finish (sync_env n) s)))).
  { intros x s H. unfold finish. destruct (r_finished s); exact H. }
  induction rest as [|r IH]; intros d i s; cbn [protocol]; unfold andthen at 1, emit at 1; cbn [e_raises sync_env simple fst snd];
    match goal with |- context [setup (sync_env n) ?k i ?x] => destruct (sync_item n k i x) as (s' & H & D); rewrite H end.
  - apply KF. rewrite D. left. lia.
  - replace (d + S r)%nat with (S d + r)%nat by lia. apply IH.
Qed.
Theorem C74_depth_refuted n : exists ls s, quiet (sync_env (S n)) /\ normal (sync_env (S n)) /\ exec (sync_env (S n)) (init (sync_env (S n)) 0) ls s /\ In n (r_depth s).
Proof.
  exists [LBegin]. eexists. split; [apply simple_quiet|]. split; [apply simple_normal; lia|]. split; [econstructor; [reflexivity|constructor]|].
  unfold finish_on_exception.
  pose proof (sync_depth (S n) n 0 0 (init (sync_env (S n)) 0)) as H. cbn [Nat.add] in H.
  change (runtestloop (sync_env (S n)) (init (sync_env (S n)) 0)) with (protocol (sync_env (S n)) 0 0 n (init (sync_env (S n)) 0)).
  destruct (snd (protocol (sync_env (S n)) 0 0 n (init (sync_env (S n)) 0))); [|exact H]. unfold finish. destruct (r_finished _); exact H.
Qed.
Print Assumptions C74_depth_refuted.

(** * C75: what a part runs with *)

(** Whatever raises and whatever ran before: a part runs in the phase of the last hook, with the seed of that phase; the log is captured for the first part after the hook;
    and the first fixture draws from the generator seeded for the item. *)
Theorem C75_runs E r ls s l1 p a captured seed random l2 : exec E (init E r) ls s -> r_log s = l1 ++ EvRun p a captured seed random :: l2 ->
  exists i, last_hook l1 None = Some (i, p) /\ seed = seed_in E i p /\ captured = negb (runs_since l1 false) /\
    (p = PSetup -> runs_since l1 false = false -> random = e_body E i PSetup (e_seeded E (e_seed E + e_hash E i)%Z)).
Proof.
  intros X H. destruct (fine_exec E r ls s X) as ((A & _) & _). destruct (A l1 _ l2 H) as (i & B & C & D & F). exists i. repeat split; try assumption.
  intros P R. subst p. rewrite (F eq_refl R), C. reflexivity.
Qed.
Print Assumptions C75_runs.
Example C75_runs_ex : exists s, exec two_env (init two_env 5) two_labels s /\ In (EvRun PSetup 1 true 107 107) (r_log s) /\ In (EvRun PSetup 2 false 107 1) (r_log s) /\
  In (EvRun PTeardown 4 true 7 5) (r_log s).
Proof. eexists. split; [apply runs_exec; vm_compute; reflexivity|]. cbn. auto 20. Qed.

(** The generator of the process is given back by the teardown hook, if finalizers leave it alone. *)
Theorem C75_restored E r ls s i : (forall j, (forall x, e_body E j PTeardown x = x) /\ (forall v l, e_phase E j PTeardown = Some (v, l) -> l = [])) ->
  exec E (init E r) ls s -> last_hook (r_log s) None = Some (i, PTeardown) -> r_random s = r.
Proof.
  intros So X H. destruct (fine_exec E r ls s X) as ((_ & K) & _). unfold here in K. rewrite H in K. destruct K as (_ & _ & _ & K). exact (proj1 (K So)).
Qed.
Print Assumptions C75_restored.
Definition plain_env := simple 2 (fun i p => match p with PCall => (Passed, [i]) | _ => (Passed, []) end) (fun _ => Passed).
Example C75_restored_ex : exists s, (forall j, (forall x, e_body plain_env j PTeardown x = x) /\ (forall v l, e_phase plain_env j PTeardown = Some (v, l) -> l = [])) /\
  exec plain_env (init plain_env 5) [LBegin; LDone 1; LTimer; LDone 2] s /\ last_hook (r_log s) None = Some (1%nat, PTeardown) /\ r_random s = 5%Z.
Proof.
  eexists. split; [intro j; split; [reflexivity|intros v l H; now injection H as _ <-]|]. split; [apply runs_exec; vm_compute; reflexivity|]. split; reflexivity.
Qed.

(** What a test logs in its second asynchronous fixture is not captured. *)
Theorem C75_captured_refuted : exists E ls s a seed random, quiet E /\ normal E /\ exec E (init E 0) ls s /\ no_sim_end ls /\ In (EvRun PSetup a false seed random) (r_log s).
Proof.
  exists two_env, two_labels. eexists. exists 2%nat, 107%Z, 1%Z. split; [apply simple_quiet|]. split; [apply simple_normal; lia|]. split; [apply runs_exec; vm_compute; reflexivity|].
  split; [intro H; repeat (destruct H as [H|H]; [discriminate H|]); destruct H|]. cbn. auto 20.
Qed.
Print Assumptions C75_captured_refuted.

(** An asynchronous finalizer draws from the generator of the process: what it does depends on what ran before. *)
Theorem C75_finalizer_refuted : exists E r1 r2 ls s1 s2 a seed x1 x2, quiet E /\ normal E /\ exec E (init E r1) ls s1 /\ exec E (init E r2) ls s2 /\
  In (EvRun PTeardown a true seed x1) (r_log s1) /\ In (EvRun PTeardown a true seed x2) (r_log s2) /\ x1 <> x2 /\
  seed <> (e_seed E + e_hash E 0)%Z.
Proof.
  exists two_env, 1%Z, 2%Z, two_labels. eexists. eexists. exists 4%nat, 7%Z, 1%Z, 2%Z. split; [apply simple_quiet|]. split; [apply simple_normal; lia|].
  split; [apply runs_exec; vm_compute; reflexivity|]. split; [apply runs_exec; vm_compute; reflexivity|]. split; [cbn; auto 20|]. split; [cbn; auto 20|]. split; [discriminate|cbn; discriminate].
Qed.
Print Assumptions C75_finalizer_refuted.

(** "Test failed with COCOTB_RANDOM_SEED=..." names the seed of the phase. A session started with that seed does not run the test with the same seed again. *)
Definition reseeded (E : env) (seed : Z) : env :=
  Env (e_items E) (e_collect_errors E) (e_continue E) (e_collect_only E) (e_phase E) (e_body E) (e_done E) (e_raises E) (e_hash E) seed (e_seeded E).
Theorem C75_message_refuted E r ls s l1 a captured seed random l2 r' ls' s' l1' captured' seed' random' l2' i :
  exec E (init E r) ls s -> r_log s = l1 ++ EvRun PCall a captured seed random :: l2 -> last_hook l1 None = Some (i, PCall) ->
  exec (reseeded E seed) (init (reseeded E seed) r') ls' s' -> r_log s' = l1' ++ EvRun PCall a captured' seed' random' :: l2' -> last_hook l1' None = Some (i, PCall) ->
  e_hash E i <> 0%Z -> seed' <> seed.
Proof.
  intros X H L X' H' L' NZ. destruct (C75_runs E r ls s _ _ _ _ _ _ _ X H) as (j & A & B & _). rewrite L in A. injection A as <-.
  destruct (C75_runs _ r' ls' s' _ _ _ _ _ _ _ X' H') as (j' & A' & B' & _). rewrite L' in A'. injection A' as <-. cbn in *. lia.
Qed.
Print Assumptions C75_message_refuted.
Example C75_message_refuted_ex : exists s s', exec two_env (init two_env 0) two_labels s /\ In (EvRun PCall 3 true 107 2) (r_log s) /\
  exec (reseeded two_env 107) (init (reseeded two_env 107) 0) two_labels s' /\ In (EvRun PCall 3 true 207 2) (r_log s').
Proof. eexists. eexists. split; [apply runs_exec; vm_compute; reflexivity|]. split; [cbn; auto 20|]. split; [apply runs_exec; vm_compute; reflexivity|]. cbn. auto 20. Qed.

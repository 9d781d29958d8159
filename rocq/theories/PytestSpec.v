(** What a pytest session with cocotb tests should look like, independently of the model. *)
From Verif Require Import Base PytestModel.

(** Nothing raises: no hook which announces something, no hook of a phase, no result. *)
Definition quiet (E : env) : Prop :=
  (forall e, e_raises E e = false) /\ (forall i p, e_phase E i p <> None) /\ (forall a, e_done E a <> None).
Definition normal (E : env) : Prop :=
  (0 < e_items E)%nat /\ e_collect_errors E && negb (e_continue E) = false /\ e_collect_only E = false.

(** The event without the circumstances of a run. *)
Definition ran (p : phase) (a : part) : event := EvRun p a false 0 0.
Definition plain (e : event) : event := match e with EvRun p a _ _ _ => ran p a | e => e end.

(** The report about an asynchronous part, and what a hook leaves; only for [quiet] environments. *)
Definition says (E : env) (a : part) : verdict := match e_done E a with Some v => v | None => Failed end.
Definition hook_says (E : env) (i : nat) (p : phase) : verdict := match e_phase E i p with Some (v, _) => v | None => Failed end.
Definition hook_leaves (E : env) (i : nat) (p : phase) : list part := match e_phase E i p with Some (_, l) => l | None => [] end.

Definition passed (v : verdict) : bool := match v with Passed => true | _ => false end.

(** Asynchronous fixtures: run one after the other, up to the first which does not pass. *)
Fixpoint fixtures (E : env) (l : list part) : list part :=
  match l with
  | [] => []
  | a :: l => a :: (if passed (says E a) then fixtures E l else [])
  end.
(** The outcome of the setup: that of the hook unless it passed, then that of the last fixture run. *)
Definition last_said (E : env) (v : verdict) (l : list part) : verdict := match rev l with a :: _ => says E a | [] => v end.
Definition setup_runs (E : env) (i : nat) : list part :=
  if passed (hook_says E i PSetup) then fixtures E (hook_leaves E i PSetup) else [].
Definition setup_says (E : env) (i : nat) : verdict := last_said E (hook_says E i PSetup) (setup_runs E i).

(** The call: the asynchronous function if there is one, else what the hook did. *)
Definition call_runs (E : env) (i : nat) : list part := match hook_leaves E i PCall with a :: _ => [a] | [] => [] end.
Definition call_says (E : env) (i : nat) : verdict := last_said E (hook_says E i PCall) (call_runs E i).
(** The teardown: all finalizers; the report is that of the last. *)
Definition teardown_runs (E : env) (i : nat) : list part := hook_leaves E i PTeardown.
Definition teardown_says (E : env) (i : nat) : verdict := last_said E (hook_says E i PTeardown) (teardown_runs E i).

(** One phase: the hook, the parts, the report. *)
Definition phase_log (i : nat) (p : phase) (l : list part) (v : verdict) : list event := EvHook i p :: map (ran p) l ++ [EvReport i p v].
(** One item: the call only if the setup passed, the teardown always. *)
Definition item_log (E : env) (i : nat) : list event :=
  EvLogStart i :: phase_log i PSetup (setup_runs E i) (setup_says E i) ++
  (if passed (setup_says E i) then phase_log i PCall (call_runs E i) (call_says E i) else []) ++
  phase_log i PTeardown (teardown_runs E i) (teardown_says E i) ++ [EvLogFinish i].
(** The session: all items in order, then the end. *)
Definition session_log (E : env) : list event := flat_map (item_log E) (seq 0 (e_items E)) ++ [EvFinish true; EvShutdown; EvStop].

Definition is_finish (e : event) : bool := match e with EvFinish _ => true | _ => false end.
Definition is_stop (e : event) : bool := match e with EvStop => true | _ => false end.
Definition no_sim_end (ls : list label) : Prop := ~ In LSimEnd ls.
Definition count (f : event -> bool) (l : list event) : nat := List.length (filter f l).

(** The hook called last, and whether a part was run since. *)
Fixpoint last_hook (l : list event) (found : option (nat * phase)) : option (nat * phase) :=
  match l with
  | [] => found
  | EvHook i p :: l => last_hook l (Some (i, p))
  | _ :: l => last_hook l found
  end.
Fixpoint runs_since (l : list event) (found : bool) : bool :=
  match l with
  | [] => found
  | EvHook _ _ :: l => runs_since l false
  | EvRun _ _ _ _ _ :: l => runs_since l true
  | _ :: l => runs_since l found
  end.
(** cocotb.RANDOM_SEED in a phase of item [i]. *)
Definition seed_in (E : env) (i : nat) (p : phase) : Z :=
  match p with PTeardown => e_seed E | _ => (e_seed E + e_hash E i)%Z end.

(** The regression manager under pytest (/repo/src/cocotb_tools/_pytest/_regression.py), as a state machine.

    Everything pytest and its plugins do is an input ([env]): what a hook called for an item does, whether it raises, what a
    report says. The asynchronous parts of a test (fixtures and the test function) are numbers; each is one [TestManager],
    whose end is a step of the machine ([LDone]), as are the timer between two parts ([LTimer]) and the end of the
    simulation ([LSimEnd]).

    Simplifications:
    - An item is its position in [session.items]; hooks are called once per item and phase, so what they do may depend on
      the position only.
    - [CallInfo.from_call] with [pytest_runtest_makereport] is one answer: the outcome of the report, or an exception which
      is raised again (KeyboardInterrupt, pytest.exit()).
    - The states of the random generators are numbers, [seeded] is the effect of seeding.
    - Notifying about an exception does not raise. Times, properties and attachments of reports, pdb and the connection to
      the parent process are left out. *)
From Verif Require Import Base.

Inductive phase := PSetup | PCall | PTeardown.
(** [TestReport.outcome] of pytest. *)
Inductive verdict := Passed | Failed | Skipped.
Definition part := nat.

(** What can be seen. [EvRun]: an asynchronous part runs, with the report handler of the logging plugin attached or not and
    with this [cocotb.RANDOM_SEED] and generator state. [EvFinish]: pytest_sessionfinish with an exit status which is OK or
    INTERNAL_ERROR. *)
Inductive event :=
| EvLogStart (i : nat)
| EvHook (i : nat) (p : phase)
| EvRun (p : phase) (a : part) (captured : bool) (seed : Z) (random : Z)
| EvReport (i : nat) (p : phase) (v : verdict)
| EvLogFinish (i : nat)
| EvNotify
| EvFinish (ok : bool)
| EvShutdown
| EvStop.

(** [e_items]: the number of collected items. [e_phase]: the outcome of the report about the hook, with the asynchronous
    parts which the hook has left: those appended to [_setups] or [_teardowns], or the one stored in [_call]; [None] if an
    exception is raised again. [e_body]: what the body of the hook does to the generator. [e_done]: the report about an
    asynchronous part. [e_raises]: whether the hook announcing this event raises. [e_hash]: the SHA-1 of the node
    identifier. *)
Record env := Env {
  e_items : nat;
  e_collect_errors : bool; e_continue : bool; e_collect_only : bool;
  e_phase : nat -> phase -> option (verdict * list part);
  e_body : nat -> phase -> Z -> Z;
  e_done : part -> option verdict;
  e_raises : event -> bool;
  e_hash : nat -> Z;
  e_seed : Z;
  e_seeded : Z -> Z }.

(** _regression.py:91-159: the attributes. [r_wait]: the part to be run, [r_on]: it has been started. [r_captured]: the
    report handler of the logging plugin is attached to the root logger. [r_depth]: history, how many calls of
    [pytest_runtest_protocol] were on the stack at each one. *)
Record st := St {
  r_index : nat;
  r_setups : list part;
  r_call : option part;
  r_teardowns : list part;
  r_wait : option (phase * part);
  r_on : bool;
  r_scheduled : bool;
  r_finished : bool;
  r_ok : bool;
  r_captured : bool;
  r_restored : bool;
  r_random : Z;
  r_saved : Z;
  r_seed : Z;
  r_depth : list nat;
  r_log : list event }.

Definition set_index x s := St x (r_setups s) (r_call s) (r_teardowns s) (r_wait s) (r_on s) (r_scheduled s) (r_finished s) (r_ok s) (r_captured s) (r_restored s) (r_random s) (r_saved s) (r_seed s) (r_depth s) (r_log s).
Definition set_setups x s := St (r_index s) x (r_call s) (r_teardowns s) (r_wait s) (r_on s) (r_scheduled s) (r_finished s) (r_ok s) (r_captured s) (r_restored s) (r_random s) (r_saved s) (r_seed s) (r_depth s) (r_log s).
Definition set_call x s := St (r_index s) (r_setups s) x (r_teardowns s) (r_wait s) (r_on s) (r_scheduled s) (r_finished s) (r_ok s) (r_captured s) (r_restored s) (r_random s) (r_saved s) (r_seed s) (r_depth s) (r_log s).
Definition set_teardowns x s := St (r_index s) (r_setups s) (r_call s) x (r_wait s) (r_on s) (r_scheduled s) (r_finished s) (r_ok s) (r_captured s) (r_restored s) (r_random s) (r_saved s) (r_seed s) (r_depth s) (r_log s).
Definition set_wait x y s := St (r_index s) (r_setups s) (r_call s) (r_teardowns s) x y (r_scheduled s) (r_finished s) (r_ok s) (r_captured s) (r_restored s) (r_random s) (r_saved s) (r_seed s) (r_depth s) (r_log s).
Definition set_scheduled s := St (r_index s) (r_setups s) (r_call s) (r_teardowns s) (r_wait s) (r_on s) true (r_finished s) (r_ok s) (r_captured s) (r_restored s) (r_random s) (r_saved s) (r_seed s) (r_depth s) (r_log s).
Definition set_finished s := St (r_index s) (r_setups s) (r_call s) (r_teardowns s) (r_wait s) (r_on s) (r_scheduled s) true (r_ok s) (r_captured s) (r_restored s) (r_random s) (r_saved s) (r_seed s) (r_depth s) (r_log s).
Definition set_failed s := St (r_index s) (r_setups s) (r_call s) (r_teardowns s) (r_wait s) (r_on s) (r_scheduled s) (r_finished s) false (r_captured s) (r_restored s) (r_random s) (r_saved s) (r_seed s) (r_depth s) (r_log s).
Definition set_logging x y s := St (r_index s) (r_setups s) (r_call s) (r_teardowns s) (r_wait s) (r_on s) (r_scheduled s) (r_finished s) (r_ok s) x y (r_random s) (r_saved s) (r_seed s) (r_depth s) (r_log s).
Definition set_random x y z s := St (r_index s) (r_setups s) (r_call s) (r_teardowns s) (r_wait s) (r_on s) (r_scheduled s) (r_finished s) (r_ok s) (r_captured s) (r_restored s) x y z (r_depth s) (r_log s).
Definition set_depth x s := St (r_index s) (r_setups s) (r_call s) (r_teardowns s) (r_wait s) (r_on s) (r_scheduled s) (r_finished s) (r_ok s) (r_captured s) (r_restored s) (r_random s) (r_saved s) (r_seed s) (x :: r_depth s) (r_log s).
Definition set_log e s := St (r_index s) (r_setups s) (r_call s) (r_teardowns s) (r_wait s) (r_on s) (r_scheduled s) (r_finished s) (r_ok s) (r_captured s) (r_restored s) (r_random s) (r_saved s) (r_seed s) (r_depth s) (r_log s ++ [e]).

(** Python statements: the new state, and whether an exception was raised. *)
Definition outcome := (st * bool)%type.
Definition ret (s : st) : outcome := (s, false).
Definition raise (s : st) : outcome := (s, true).
Definition andthen (o : outcome) (k : st -> outcome) : outcome := if snd o then o else k (fst o).
Definition emit (E : env) (e : event) (s : st) : outcome := (set_log e s, e_raises E e).

(** _regression.py:493-505 [_finish], with 880-884 [_shutdown]. *)
Definition finish (E : env) (s : st) : outcome :=
  if r_finished s then ret s
  else
    let s := set_finished s in
    andthen (emit E (EvFinish (r_ok s)) s) (fun s =>
    andthen (emit E EvShutdown s) (fun s =>
    emit E EvStop s)).

(** _regression.py:866-878 [_start]; what the asynchronous part does first is 814-828 [_restore_logging_state] (called at
    608, 632, 656, 784). *)
Definition run_part (E : env) (p : phase) (a : part) (s : st) : st :=
  let s := if r_restored s then s else set_logging true true s in
  set_wait (Some (p, a)) true (set_log (EvRun p a (r_captured s) (r_seed s) (r_random s)) s).
Definition start (E : env) (p : phase) (a : part) (s : st) : st :=
  if r_scheduled s then set_wait (Some (p, a)) false s else run_part E p a (set_scheduled s).

(** The hooks of the manager itself, which come first: 507-528 [pytest_runtest_setup], 530-537 [pytest_runtest_call],
    539-552 [pytest_runtest_teardown], with 809-812 [_save_logging_state]. The logging plugin of pytest attaches its
    handlers around the hook and removes them. *)
Definition own_hook (E : env) (i : nat) (p : phase) (s : st) : st :=
  let s := set_logging (r_captured s) false s in
  match p with
  | PSetup => let seed := (e_seed E + e_hash E i)%Z in set_random (e_seeded E seed) (r_random s) seed s
  | PCall => s
  | PTeardown => set_random (r_saved s) (r_saved s) (e_seed E) s
  end.
(** _regression.py:324-372 [_call_and_report] without a function: a hook of pytest is called. Fixtures append to [_setups]
    (554-598), the test function sets [_call] (643-672), finalizers append to [_teardowns] (798-807). *)
Definition call_hook (E : env) (i : nat) (p : phase) (s : st) (k : verdict -> st -> outcome) : outcome :=
  let s := own_hook E i p (set_log (EvHook i p) s) in
  let s := set_logging false (r_restored s) s in
  let s := set_random (e_body E i p (r_random s)) (r_saved s) (r_seed s) s in
  match e_phase E i p with
  | None => raise s
  | Some (v, l) =>
      k v (match p with
           | PSetup => set_setups (r_setups s ++ l) s
           | PCall => match l with a :: _ => set_call (Some a) s | [] => s end
           | PTeardown => set_teardowns (r_teardowns s ++ l) s
           end)
  end.

(** _regression.py:452-479 [_teardown] with a report; [next]: the rest of the function (475-479). *)
Definition teardown_with (E : env) (next : st -> outcome) (i : nat) (v : verdict) (s : st) : outcome :=
  match r_teardowns s with
  | a :: l => ret (start E PTeardown a (set_teardowns l s))
  | [] =>
      andthen (emit E (EvReport i PTeardown v) s) (fun s =>
      andthen (emit E (EvLogFinish i) s) next)
  end.
(** _regression.py:452-479 [_teardown] without one. *)
Definition teardown (E : env) (next : st -> outcome) (i : nat) (s : st) : outcome :=
  call_hook E i PTeardown (set_teardowns [] s) (teardown_with E next i).
(** _regression.py:399-431 [_setup] with a report. *)
Definition setup_with (E : env) (next : st -> outcome) (i : nat) (v : verdict) (s : st) : outcome :=
  match v with
  | Passed =>
      match r_setups s with
      | a :: l => ret (start E PSetup a (set_setups l s))
      | [] =>
          andthen (emit E (EvReport i PSetup v) s) (fun s =>
          call_hook E i PCall (set_call None s) (fun v s =>
            match r_call s with
            | Some a => ret (start E PCall a s)
            | None => andthen (emit E (EvReport i PCall v) s) (teardown E next i)
            end))
      end
  | _ => andthen (emit E (EvReport i PSetup v) s) (teardown E next i)
  end.
(** _regression.py:399-431 [_setup] without one. *)
Definition setup (E : env) (next : st -> outcome) (i : nat) (s : st) : outcome :=
  call_hook E i PSetup (set_setups [] s) (setup_with E next i).
(** _regression.py:285-296 [pytest_runtest_protocol] for item [i], of which [rest] follow, and 475-479, 481-487: the next item.
    [d]: the calls of this function which are still on the stack. *)
Fixpoint protocol (E : env) (d i rest : nat) (s : st) : outcome :=
  andthen (emit E (EvLogStart i) (set_depth d s))
    (setup E (fun s => match rest with
                       | O => finish E s
                       | S r => protocol E (S d) (S i) r (set_index (S i) s)
                       end) i).
(** _regression.py:475-479, from a callback: the stack is empty. *)
Definition next_item (E : env) (s : st) : outcome :=
  match (e_items E - r_index s - 1)%nat with
  | O => finish E s
  | S r => protocol E 0 (S (r_index s)) r (set_index (S (r_index s)) s)
  end.

(** _regression.py:267-283 [pytest_runtestloop]. *)
Definition runtestloop (E : env) (s : st) : outcome :=
  if e_collect_errors E && negb (e_continue E) then raise s
  else match e_items E with
       | O => finish E s
       | S r => if e_collect_only E then finish E s else protocol E 0 (r_index s) r s
       end.

(** _regression.py:71-83 [finish_on_exception], with 489-491 [_notify_exception]. The result is the state and whether an
    exception leaves the method. *)
Definition finish_on_exception (E : env) (o : outcome) : outcome :=
  if snd o then finish E (set_log EvNotify (set_failed (fst o))) else o.

(** _regression.py:374-388 [_completed], with 830-852 [_update_report_section]: the handler is removed, the report made. *)
Definition completed (E : env) (a : part) (s : st) (k : verdict -> st -> outcome) : outcome :=
  let s := set_logging false (r_restored s) s in
  match e_done E a with None => raise s | Some v => k v s end.
(** _regression.py:390-397 [_setup_completed], 433-441 [_call_completed], 443-450 [_teardown_completed]. *)
Definition part_completed (E : env) (p : phase) (a : part) (s : st) : outcome :=
  let i := r_index s in
  finish_on_exception E
    (completed E a s (fun v s =>
       match p with
       | PSetup => setup_with E (next_item E) i v s
       | PCall => andthen (emit E (EvReport i PCall v) s) (teardown E (next_item E) i)
       | PTeardown => teardown_with E (next_item E) i v s
       end)).

(** The steps: [start_regression] (213-218); the timer registered by [_start]; the end of the running part, which leaves the
    generator in some state; the end of the simulation, which calls what is registered with [cocotb._shutdown]: nothing of
    the manager, as [_on_sim_end] (854-864) is never registered. *)
Inductive label := LBegin | LTimer | LDone (random : Z) | LSimEnd.
Definition step (E : env) (s : st) (l : label) : option st :=
  match l with
  | LBegin => match r_log s, r_finished s with
              | [], false => Some (fst (finish_on_exception E (runtestloop E s)))
              | _, _ => None
              end
  | LTimer => match r_wait s, r_on s with Some (p, a), false => Some (run_part E p a s) | _, _ => None end
  | LDone r =>
      match r_wait s, r_on s with
      | Some (p, a), true => Some (fst (part_completed E p a (set_wait None false (set_random r (r_saved s) (r_seed s) s))))
      | _, _ => None
      end
  | LSimEnd => Some (set_wait None false (set_log EvShutdown s))
  end.

(** _regression.py:91-159. *)
Definition init (E : env) (random : Z) : st := St 0 [] None [] None false false false true false false random random (e_seed E) [] [].
Inductive exec (E : env) : st -> list label -> st -> Prop :=
| exec_nil s : exec E s [] s
| exec_cons s l s1 ls s2 : step E s l = Some s1 -> exec E s1 ls s2 -> exec E s (l :: ls) s2.

(** Asynchronous fixtures under pytest: _pytest/_fixture.py and _pytest/_regression.py. *)
From Verif Require Import Base.
From Coq Require Import PeanoNat.

Definition id := nat.
Definition tid := nat.
(** Exceptions: of the user, of the user with a false truth value, asyncio's CancelledError and InvalidStateError
    (task.py:654-662), [EndTest] (_test_manager.py:433-455), IndexError. *)
Inductive fexn := XUser (n : nat) | XFalsy (n : nat) | XCancelled | XInvalid | XEnd | XIndex.
Definition truthy (e : fexn) : bool := match e with XFalsy _ => false | _ => true end.
(** A value of a fixture; [VManager t]: the TestManager whose main task is [t]. *)
Inductive value := VObj (n : nat) | VNone | VManager (t : tid).
(** task.py:634-644: the state of a task. *)
Inductive tstate := Pending | Finished (v : value) | Errored (e : fexn) | Cancelled.
Inductive res (A : Type) := Val (a : A) | Raise (e : fexn).
Arguments Val {A}.
Arguments Raise {A}.
(** task.py:638-644. *)
Definition done (x : tstate) : bool := match x with Pending => false | _ => true end.
(** task.py:646-662 [result]. *)
Definition task_result (x : tstate) : res value :=
  match x with Cancelled => Raise XCancelled | Finished v => Val v | Errored e => Raise e | Pending => Raise XInvalid end.
(** task.py:664-680 [exception]. *)
Definition task_exception (x : tstate) : res (option fexn) :=
  match x with Cancelled => Raise XCancelled | Finished _ => Val None | Errored e => Val (Some e) | Pending => Raise XInvalid end.

(** An element of a cached result. *)
Inductive item := IValue (v : value) | IKey | IExc (e : fexn) | INone.
(** _fixture.py:39-54 [AsyncFixtureCachedResult.__getitem__]; the tuple itself is [(setup, cache_key, None)]
    (_regression.py:594). *)
Definition getitem (tasks : tid -> tstate) (t : tid) (index : nat) : res item :=
  if negb (done (tasks t)) || (index =? 1)%nat then
    match index with 0 => Val (IValue (VManager t)) | 1 => Val IKey | 2 => Val INone | _ => Raise XIndex end
  else
    match task_exception (tasks t) with
    | Raise e => Raise e
    | Val exception =>
        let is_exc := match exception with Some e => truthy e | None => false end in
        if (index =? 0)%nat then
          if is_exc then Val INone else match task_result (tasks t) with Val v => Val (IValue v) | Raise e => Raise e end
        else match exception with
             | Some e => if (index =? 2)%nat && truthy e then Val (IExc e) else Val INone
             | None => Val INone
             end
    end.

(** [FixtureDef.cached_result]: that of a synchronous fixture ([exc]: the exception of its third element), or the object of
    _regression.py:594. The key is left out: fixtures have no parameters. *)
Inductive entry := Plain (v : value) (exc : option fexn) | Async (t : tid).
(** Element 0 as a value. *)
Definition item0 (tasks : tid -> tstate) (e : entry) : res value :=
  match e with
  | Plain v _ => Val v
  | Async t => match getitem tasks t 0 with
               | Raise x => Raise x
               | Val (IValue v) => Val v
               | Val _ => Val VNone
               end
  end.
(** What [FixtureDef.execute] of pytest raises for a cached result: the exception of element 2, otherwise element 0 is
    the value. (pytest is not part of the repository; _fixture.py:21-35 names this protocol.) *)
Definition cached_error (tasks : tid -> tstate) (e : entry) : option fexn :=
  match e with
  | Plain _ exc => exc
  | Async t => match getitem tasks t 2 with
               | Raise x => Some x
               | Val (IExc x) => Some x
               | Val _ => match getitem tasks t 0 with Raise x => Some x | Val _ => None end
               end
  end.
(** _fixture.py:57-59 [resolve_fixture_arg]. *)
Definition resolve (tasks : tid -> tstate) (v : value) : res value := match v with VManager t => task_result (tasks t) | _ => Val v end.

(** A fixture with the fixtures it asks for. [async]: a coroutine function or an asynchronous generator function. *)
Inductive fixture := Fix (i : id) (async : bool) (args : list fixture).
Definition fid (f : fixture) : id := match f with Fix i _ _ => i end.
Definition fargs (f : fixture) : list fixture := match f with Fix _ _ args => args end.

(** What can be observed: the body of a fixture and of a test is called with some arguments; the setup of a test fails; an
    argument of the test raises in the test instead of its body being called. *)
Inductive event := ERun (i : id) (args : list value) | ECall (args : list value) | EFailed (e : fexn) | EStopped (e : fexn).
Record st := St {
  s_cache : id -> option entry;
  s_tasks : tid -> tstate;
  s_next : tid;
  s_setups : list (tid * fixture);   (* _regression.py:126 [_setups] *)
  s_runs : nat;                      (* bodies of fixtures called so far *)
  s_hist : list event }.
Definition start : st := St (fun _ => None) (fun _ => Pending) 0 [] 0 [].

Definition upd {A} (f : nat -> A) (n : nat) (a : A) : nat -> A := fun k => if Nat.eqb k n then a else f k.
Definition set_entry i e s := St (upd (s_cache s) i (Some e)) (s_tasks s) (s_next s) (s_setups s) (s_runs s) (s_hist s).
Definition set_task t x s := St (s_cache s) (upd (s_tasks s) t x) (s_next s) (s_setups s) (s_runs s) (s_hist s).
Definition log x s := St (s_cache s) (s_tasks s) (s_next s) (s_setups s) (s_runs s) (s_hist s ++ [x]).
Definition called i vs s := St (s_cache s) (s_tasks s) (s_next s) (s_setups s) (S (s_runs s)) (s_hist s ++ [ERun i vs]).

(** How the body of an asynchronous fixture and its child tasks end: the main task returns or raises; it is cancelled because
    a child raised ([Some]) or called [cocotb.end_test] ([None]); it returns but a child raises while it is cancelled. *)
Inductive outcome := Returns (v : value) | Raises (e : fexn) | Stopped (child : option fexn) | Late (v : value) (e : fexn).
(** _test_manager.py:66-82, 104-115, 170-196: the state of the main task and what [TestManager.result] raises (an exception
    with a false truth value is not raised, line 114; CancelledError raised by the main task makes it cancelled). *)
Definition raised (e : fexn) : option fexn := if truthy e then Some e else None.
Definition settle (o : outcome) : tstate * option fexn :=
  match o with
  | Returns v => (Finished v, None)
  | Raises XEnd => (Errored XEnd, None)
  | Raises XCancelled => (Cancelled, None)
  | Raises e => (Errored e, raised e)
  | Stopped None => (Cancelled, None)
  | Stopped (Some e) => (Cancelled, raised e)
  | Late v e => (Finished v, raised e)
  end.

(** [item0] of the results of the arguments: [request.getfixturevalue] for fixtures which the item has already. *)
Fixpoint lookup (s : st) (l : list fixture) : res (list value) :=
  match l with
  | [] => Val []
  | f :: l' => match s_cache s (fid f) with
               | None => Raise XInvalid
               | Some e => match item0 (s_tasks s) e with
                           | Raise x => Raise x
                           | Val v => match lookup s l' with Raise x => Raise x | Val vs => Val (v :: vs) end
                           end
               end
  end.
Fixpoint resolve_all (tasks : tid -> tstate) (l : list value) : res (list value) :=
  match l with
  | [] => Val []
  | v :: l' => match resolve tasks v with
               | Raise x => Raise x
               | Val v => match resolve_all tasks l' with Raise x => Raise x | Val vs => Val (v :: vs) end
               end
  end.

(** The bodies: [sync k] and [async k] say how the [k]-th called body ends. *)
Section Bodies.
Context (sync : nat -> value + fexn) (async : nat -> outcome).

(** pytest's own setup of a synchronous fixture: its arguments are not resolved. *)
Definition run_sync (f : fixture) (s : st) : st * option fexn :=
  match lookup s (fargs f) with
  | Raise x => (set_entry (fid f) (Plain VNone (Some x)) s, Some x)
  | Val vs =>
      let s1 := called (fid f) vs s in
      match sync (s_runs s) with
      | inl v => (set_entry (fid f) (Plain v None) s1, None)
      | inr e => (set_entry (fid f) (Plain VNone (Some e)) s1, Some e)
      end
  end.
(** _regression.py:571-598: the asynchronous case of [pytest_fixture_setup]. *)
Definition schedule (f : fixture) (s : st) : st :=
  St (upd (s_cache s) (fid f) (Some (Async (s_next s)))) (s_tasks s) (S (s_next s)) (s_setups s ++ [(s_next s, f)]) (s_runs s) (s_hist s).
(** [FixtureDef.execute] of pytest with _regression.py:554-598: first the arguments, then the fixture, unless it is cached. *)
Fixpoint execute (f : fixture) (s : st) {struct f} : st * option fexn :=
  match f with
  | Fix i a args =>
      match s_cache s i with
      | Some e => (s, cached_error (s_tasks s) e)
      | None =>
          let '(s1, x) := (fix go l s := match l with
                                         | [] => (s, None)
                                         | f' :: l' => let '(s', x) := execute f' s in
                                                       match x with None => go l' s' | Some e => (s', Some e) end
                                         end) args s in
          match x with
          | Some e => (s1, Some e)
          | None => if a then (schedule f s1, None) else run_sync f s1
          end
      end
  end.
Fixpoint execute_all (l : list fixture) (s : st) : st * option fexn :=
  match l with
  | [] => (s, None)
  | f :: l' => let '(s1, x) := execute f s in match x with None => execute_all l' s1 | Some e => (s1, Some e) end
  end.

(** _regression.py:607-624 and 631-641: the main task of a fixture; the arguments are those which the item has. Fixtures
    that a body asks for itself ([request.getfixturevalue] in it) are left out. *)
Definition run_async (t : tid) (f : fixture) (s : st) : st * option fexn :=
  match match lookup s (fargs f) with Raise x => Raise x | Val vs => resolve_all (s_tasks s) vs end with
  | Raise x => let '(state, report) := settle (Raises x) in (set_task t state s, report)
  | Val vs => let '(state, report) := settle (async (s_runs s)) in (set_task t state (called (fid f) vs s), report)
  end.
(** _regression.py:399-431 [_setup]: one after the other while the reports pass. *)
Fixpoint run_setups (q : list (tid * fixture)) (s : st) : st * option fexn :=
  match q with
  | [] => (s, None)
  | (t, f) :: q' => let '(s1, x) := run_async t f s in match x with None => run_setups q' s1 | Some e => (s1, Some e) end
  end.

(** A test: fixtures it uses without having them as arguments, its arguments, and the fixtures that are finished after it:
    those of its own scope and of the scopes that end with it. *)
Record test := Test { t_uses : list fixture; t_args : list fixture; t_finish : id -> bool }.
Definition drop (fin : id -> bool) (s : st) : st :=
  St (fun i => if fin i then None else s_cache s i) (s_tasks s) (s_next s) [] (s_runs s) (s_hist s).
(** _regression.py:399-431 with 643-672 [pytest_pyfunc_call]: [funcargs] is filled by the setup hook; [_setups] is emptied
    before the next setup (410). *)
Definition run_test (t : test) (s : st) : st :=
  let '(s1, x) := execute_all (t_uses t ++ t_args t) s in
  drop (t_finish t)
    match x with
    | Some e => log (EFailed e) s1
    | None =>
        match lookup s1 (t_args t) with
        | Raise e => log (EFailed e) s1
        | Val funcargs =>
            let '(s2, x) := run_setups (s_setups s1) s1 in
            match x with
            | Some e => log (EFailed e) s2
            | None => match resolve_all (s_tasks s2) funcargs with Raise e => log (EStopped e) s2 | Val vs => log (ECall vs) s2 end
            end
        end
    end.
Definition run_session (ts : list test) (s : st) : st := fold_left (fun s t => run_test t s) ts s.
End Bodies.

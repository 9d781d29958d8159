(** Model of /repo/src/cocotb/regression.py: the regression manager. Logging, wall clock and simulation times are not
    modelled. The running test (_test_manager.py) is seen from outside: it is started, and may later complete with the
    list of its exceptions. *)
From Verif Require Import Base TextModel.
Open Scope Z_scope.

(** Exceptions: the class, and the members of an exception group. *)
Inductive exc := Exc (cls : Z) (members : list exc).
Definition x_cls (e : exc) : Z := let '(Exc c _) := e in c.
(** The classes the code knows about. *)
Definition cAssertion := 1.
Definition cRaisesFailed := 2.   (* pytest.raises.Exception *)
Definition cSkip := 3.           (* pytest.skip.Exception *)
Definition cXfail := 4.          (* pytest.xfail.Exception *)
Definition cSuccess := 5.        (* TestSuccess *)
Definition cSimFailure := 6.     (* regression.py:110-116 *)
Definition cTerminated := 7.     (* regression.py:119-129 *)
Definition cException := 8.
Definition cExceptionGroup := 9.
Definition cBaseExceptionGroup := 10.

(** An entry of [expect_error]: an exception type, or a pytest matcher (RaisesExc, RaisesGroup). *)
Inductive expected := EType (c : Z) | EMatcher (m : Z).

(** A test (_decorators.py, class Test). [t_init] tells whether [_init_test] (regression.py:426-433) succeeds. *)
Record test := Test { t_id : Z; t_fullname : pystr; t_stage : Z; t_skip : bool; t_expect_error : list expected;
  t_expect_fail : bool; t_init : bool }.

(** The settings: the class hierarchy, the matchers, the hash of a name, the effect of seeding a generator, the
    regression seed, COCOTB_MAX_FAILURES, the mode, the compiled filters, and the preview feature of
    [_record_test_xfail]. *)
Record cfg := Cfg {
  c_sub : Z -> Z -> bool; c_matches : Z -> exc -> bool; c_hash : pystr -> Z; c_seeded : Z -> Z;
  c_seed : Z; c_max_failures : Z; c_testcase_mode : bool; c_filters : list (pystr -> bool); c_xfail_shown : bool }.

Definition isinstance (c : cfg) (e : exc) (cls : Z) : bool := c_sub c (x_cls e) cls.

(** _test_manager.py:104-110 [TestManager.exception]. *)
Definition exception_of (c : cfg) (excs : list exc) : option exc :=
  match excs with
  | [] => None
  | [e] => Some e
  | _ => Some (Exc (if forallb (fun e => isinstance c e cException) excs then cExceptionGroup else cBaseExceptionGroup) excs)
  end.

(** * Scoring *)
Inductive message := MNone | MFailedNotError | MUnexpectedType | MErroredNotFailure | MPassedNotError | MPassedNotFailure.
Inductive verdict := VSkipped | VXfailed | VPassed | VFailed (m : message).

Definition is_matcher (x : expected) : bool := match x with EMatcher _ => true | EType _ => false end.
(** regression.py:66-97 [handle_pytest_exception_matchers]: whether a matcher matches. *)
Definition matched (c : cfg) (e : exc) (l : list expected) : bool :=
  existsb (fun x => match x with EMatcher m => c_matches c m e | EType _ => false end) l.
(** [isinstance(exc, tuple(expected_excs_set))]. *)
Definition is_expected_type (c : cfg) (e : exc) (l : list expected) : bool :=
  existsb (fun x => match x with EType k => isinstance c e k | EMatcher _ => false end) l.
(** regression.py:59-62 [_TestFailures]. *)
Definition is_failure (c : cfg) (e : exc) : bool := isinstance c e cAssertion || isinstance c e cRaisesFailed.

(** regression.py:511-647 [_score_test]. *)
Definition score (c : cfg) (t : test) (r : option exc) : verdict :=
  match r with
  | Some e =>
      if isinstance c e cSkip then VSkipped
      else if isinstance c e cXfail then VXfailed
      else if isinstance c e cSuccess then VPassed
      else match t_expect_error t with
           | _ :: _ =>
               if matched c e (t_expect_error t) then VXfailed
               else if is_expected_type c e (t_expect_error t) then VXfailed
               else if is_failure c e then VFailed MFailedNotError
               else VFailed MUnexpectedType
           | [] =>
               if t_expect_fail t then
                 if is_failure c e then VXfailed else VFailed MErroredNotFailure
               else VFailed MNone
           end
  | None =>
      match t_expect_error t with
      | _ :: _ => VFailed MPassedNotError
      | [] => if t_expect_fail t then VFailed MPassedNotFailure else VPassed
      end
  end.

(** * The manager *)
(** regression.py:156-160 [_TestOutcome] and the statuses given to the reporter. *)
Inductive outcome := OPass | OFail | OSkip | OXfail.
Inductive status := SSkipped | SError | SPassed | SXfailed | SFailed.
Record entry := Entry { r_test : test; r_outcome : outcome; r_status : status; r_message : message }.

(** Where the manager is: not started, waiting for Timer(1) before a test, running a test, or torn down. *)
Inductive phase := PNew | PGap | PRun | PDown.

(** The attributes of the manager (regression.py:207-238), the two global generators with [cocotb.RANDOM_SEED], and
    the results file. [s_starts] is a ghost: the tests started so far with the seed and the generators they see. *)
Record state := State {
  s_queue : list test; s_cur : option test; s_phase : phase; s_first : bool; s_terminated : option exc;
  s_results : list entry; s_passed : Z; s_failures : Z; s_skipped : Z; s_xfailed : Z; s_count : Z; s_total : Z;
  s_file : option (list entry); s_stopped : bool; s_ended : bool;
  s_random : Z; s_resolver : Z; s_seed : Z; s_saved : Z * Z;
  s_starts : list (test * Z * Z * Z) }.

Definition initial (c : cfg) (tests : list test) (random resolver : Z) : state :=
  State tests None PNew true None [] 0 0 0 0 0 0 None false false random resolver (c_seed c) (0, 0) [].

(** The parts of the [_record_test_*] methods (regression.py:672-977) they have in common. *)
Definition record (s : state) (t : test) (o : outcome) (st : status) (m : message) : state :=
  State (s_queue s) (s_cur s) (s_phase s) (s_first s) (s_terminated s)
    (s_results s ++ [Entry t o st m])
    (s_passed s + match o with OPass => 1 | _ => 0 end) (s_failures s + match o with OFail => 1 | _ => 0 end)
    (s_skipped s + match o with OSkip => 1 | _ => 0 end) (s_xfailed s + match o with OXfail => 1 | _ => 0 end)
    (s_count s + 1) (s_total s) (s_file s) (s_stopped s) (s_ended s)
    (s_random s) (s_resolver s) (s_seed s) (s_saved s) (s_starts s).
Definition set_terminated (s : state) (e : option exc) : state :=
  State (s_queue s) (s_cur s) (s_phase s) (s_first s) e (s_results s) (s_passed s) (s_failures s) (s_skipped s)
    (s_xfailed s) (s_count s) (s_total s) (s_file s) (s_stopped s) (s_ended s)
    (s_random s) (s_resolver s) (s_seed s) (s_saved s) (s_starts s).

(** regression.py:906-977 [_record_test_failed]. *)
Definition record_failed (c : cfg) (s : state) (t : test) (m : message) : state :=
  let s := record s t OFail SFailed m in
  match s_terminated s with
  | None => if (0 <? c_max_failures c) && (c_max_failures c <=? s_failures s)
            then set_terminated s (Some (Exc cTerminated [])) else s
  | Some _ => s
  end.
(** [_score_test] with the recording it ends with; regression.py:774-852 [_record_test_xfail]. *)
Definition score_test (c : cfg) (s : state) (t : test) (r : option exc) : state :=
  match score c t r with
  | VSkipped => record s t OSkip SSkipped MNone
  | VXfailed => if c_xfail_shown c then record s t OXfail SXfailed MNone else record s t OPass SPassed MNone
  | VPassed => record s t OPass SPassed MNone
  | VFailed m => record_failed c s t m
  end.

(** regression.py:435-453 [_schedule_next_test]. *)
Definition schedule_next_test (c : cfg) (s : state) (t : test) : state :=
  let seed := c_seed c + c_hash c (t_fullname t) in
  State (s_queue s) (s_cur s) PRun (s_first s) (s_terminated s) (s_results s) (s_passed s) (s_failures s) (s_skipped s)
    (s_xfailed s) (s_count s) (s_total s) (s_file s) (s_stopped s) (s_ended s)
    (c_seeded c seed) (c_seeded c seed) seed (s_random s, s_resolver s)
    (s_starts s ++ [(t, seed, c_seeded c seed, c_seeded c seed)]).

(** regression.py:455-478 [_tear_down]. *)
Definition tear_down (s : state) : state :=
  match s_phase s with
  | PDown => s
  | _ => State (s_queue s) (s_cur s) PDown (s_first s) (s_terminated s) (s_results s) (s_passed s) (s_failures s) (s_skipped s)
           (s_xfailed s) (s_count s) (s_total s) (Some (s_results s)) true (s_ended s)
           (s_random s) (s_resolver s) (s_seed s) (s_saved s) (s_starts s)
  end.

Definition set_cur (s : state) (q : list test) (t : test) : state :=
  State q (Some t) (s_phase s) (s_first s) (s_terminated s) (s_results s) (s_passed s) (s_failures s) (s_skipped s)
    (s_xfailed s) (s_count s) (s_total s) (s_file s) (s_stopped s) (s_ended s)
    (s_random s) (s_resolver s) (s_seed s) (s_saved s) (s_starts s).
Definition set_phase (s : state) (p : phase) (first : bool) : state :=
  State (s_queue s) (s_cur s) p first (s_terminated s) (s_results s) (s_passed s) (s_failures s) (s_skipped s)
    (s_xfailed s) (s_count s) (s_total s) (s_file s) (s_stopped s) (s_ended s)
    (s_random s) (s_resolver s) (s_seed s) (s_saved s) (s_starts s).

(** regression.py:378-424 [_execute]; [q] is the queue. *)
Fixpoint execute (c : cfg) (q : list test) (s : state) : state :=
  match q with
  | [] => tear_down s
  | t :: q' =>
      let s := set_cur s q' t in
      if t_skip t && negb (c_testcase_mode c) then execute c q' (record s t OSkip SSkipped MNone)
      else match s_terminated s with
           | Some e => execute c q' (score_test c s t (Some e))
           | None =>
               if t_init t then
                 if s_first s then schedule_next_test c (set_phase s PRun false) t
                 else set_phase s PGap false
               else execute c q' (record s t OFail SError MNone)
           end
  end.

(** [list.sort(key=lambda test: test.stage)]: the stable sort. *)
Fixpoint insert_stage (t : test) (l : list test) : list test :=
  match l with
  | [] => [t]
  | u :: l' => if t_stage t <=? t_stage u then t :: l else u :: insert_stage t l'
  end.
Definition sort_stages (l : list test) : list test := fold_right insert_stage [] l.

(** regression.py:356-362: [if self._filters: ...]. *)
Definition apply_filters (c : cfg) (l : list test) : list test :=
  match c_filters c with
  | [] => l
  | fs => filter (fun t => existsb (fun f => f (t_fullname t)) fs) l
  end.

(** regression.py:344-376 [start_regression]; [shuffled] is the queue after the optional shuffle, which also advances
    the generator. *)
Definition start_regression (c : cfg) (s : state) (shuffled : list test) (random : Z) : state :=
  let q := apply_filters c (sort_stages shuffled) in
  execute c q
    (State q (s_cur s) (s_phase s) true (s_terminated s) (s_results s) (s_passed s) (s_failures s) (s_skipped s)
       (s_xfailed s) 1 (Z.of_nat (length q)) (s_file s) (s_stopped s) (s_ended s)
       random (s_resolver s) (s_seed s) (s_saved s) (s_starts s)).

(** regression.py:480-509 [_test_complete]. *)
Definition test_complete (c : cfg) (s : state) (t : test) (excs : list exc) : state :=
  let s := State (s_queue s) (s_cur s) (s_phase s) (s_first s) (s_terminated s) (s_results s) (s_passed s) (s_failures s)
    (s_skipped s) (s_xfailed s) (s_count s) (s_total s) (s_file s) (s_stopped s) (s_ended s)
    (fst (s_saved s)) (snd (s_saved s)) (c_seed c) (s_saved s) (s_starts s) in
  let r := match s_terminated s with Some e => Some e | None => exception_of c excs end in
  let s := score_test c s t r in
  execute c (s_queue s) s.

(** regression.py:1111-1128 [_on_sim_end]; the cancelled test completes later, in an [EComplete], if it was started:
    [TestManager._abort] of a test which was not started has no Task to cancel and waits for an Event nobody sets. *)
Definition on_sim_end (s : state) : state :=
  match s_phase s with
  | PDown => s
  | _ => let s := set_terminated s (Some (Exc cSimFailure [])) in
         State (s_queue s) (s_cur s) (s_phase s) (s_first s) (s_terminated s) (s_results s) (s_passed s) (s_failures s)
           (s_skipped s) (s_xfailed s) (s_count s) (s_total s) (s_file s) (s_stopped s) true
           (s_random s) (s_resolver s) (s_seed s) (s_saved s) (s_starts s)
  end.

(** What happens to the manager: the start (with the shuffled queue), the Timer(1) before a test (not after the
    simulator ended), user code using the generators, completion of the running test, the end of the simulator. *)
Inductive event :=
| EStart (shuffled : list test) (random : Z)
| ETimer
| EUser (random resolver seed : Z)
| EComplete (excs : list exc)
| ESimEnd.

(** [None]: cannot happen in this state. *)
Definition step (c : cfg) (s : state) (ev : event) : option state :=
  match ev with
  | EStart shuffled random =>
      match s_phase s with PNew => Some (start_regression c s shuffled random) | _ => None end
  | ETimer =>
      match s_phase s, s_cur s, s_ended s with
      | PGap, Some t, false => Some (schedule_next_test c s t)
      | _, _, _ => None
      end
  | EUser random resolver seed =>
      Some (State (s_queue s) (s_cur s) (s_phase s) (s_first s) (s_terminated s) (s_results s) (s_passed s) (s_failures s)
        (s_skipped s) (s_xfailed s) (s_count s) (s_total s) (s_file s) (s_stopped s) (s_ended s)
        random resolver seed (s_saved s) (s_starts s))
  | EComplete excs =>
      match s_phase s, s_cur s with
      | PRun, Some t => Some (test_complete c s t excs)
      | _, _ => None
      end
  | ESimEnd =>
      match s_phase s, s_ended s with
      | PNew, _ | _, true => None
      | _, false => Some (on_sim_end s)
      end
  end.

Fixpoint run (c : cfg) (s : state) (evs : list event) : option state :=
  match evs with
  | [] => Some s
  | ev :: evs' => match step c s ev with Some s' => run c s' evs' | None => None end
  end.

(** regression.py:1130-1137 [list_tests]: the names printed. *)
Definition list_tests (s : state) : list pystr := map t_fullname (s_queue s).

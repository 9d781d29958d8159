(** Test reports on their way from the simulators to pytest: _pytest/_regression.py (sender) and _pytest/_controller.py. *)
From Verif Require Import Base.
From Coq Require Import PeanoNat.

(** A serialized report; that [pytest_report_to_serializable] and [pytest_report_from_serializable] (of pytest) are inverse
    to each other and give a TestReport again is assumed: _regression.py:754-756, _controller.py:375-377. *)
Definition data := nat.
Definition process := nat.
Definition cid := nat.
(** What can be read from a connection: nothing yet (the other side is still connected), a complete object ([None]: the
    request to stop), or an error (closed, or damaged). *)
Inductive content := Waiting | Full (m : option (process * data)) | Broken.
(** _regression.py:749-767 [pytest_runtest_logreport] in a simulator; [retry] is the loop variable. [SGone]: the process
    has ended. *)
Inductive sender :=
| SIdle
| STry (d : data) (retry : nat)
| SConnected (d : data) (retry : nat) (c : cid)
| SSent (d : data) (retry : nat) (c : cid)
| SGone.
(** _controller.py:362-384 [_handle_test_reports]: not started, before [accept], before [recv], before the lock of
    [pytest_runtest_logreport] (355-360), inside the hooks, before [_notify_exception], returned, ended by an exception. *)
Inductive receiver :=
| TNew | TAccept | TRecv (c : cid) | TLog (m : process * data) | TIn (m : process * data) | TNotify | TDone | TDead.
(** The main thread: running tests, inside the hooks of a report of its own (355-360), inside [pytest_sessionfinish]
    (232-242) before [send], before [join], after it. *)
Inductive main := MRun | MIn | MStop (c : cid) | MJoin | MClosed.

Record st := St {
  s_own : bool;                    (* this process has the listener and the thread: _controller.py:86-89 *)
  s_listening : bool;              (* the address accepts connections *)
  s_next : cid;
  s_conns : cid -> content;
  s_backlog : list cid;            (* connections not accepted yet, oldest first *)
  s_senders : process -> sender;
  s_receiver : receiver;
  s_main : main;
  s_lock : bool;                   (* the RLock of _controller.py:81, 359; taken again by its own thread it stays taken *)
  (* history *)
  s_logged : list (process * data);      (* calls of the hook in the simulators, newest last *)
  s_sent : list (process * data);        (* completed [send]s *)
  s_given_up : list (process * data);    (* reports whose last attempt failed: _regression.py:766-767 *)
  s_delivered : list (process * data) }. (* calls of the hook in the main process: _controller.py:380-381 *)

(** _controller.py:86-89: a listener only if the variable COCOTB_PYTEST_REPORTER_ADDRESS is not set; [listening]: whether
    somebody listens at the address of the variable. *)
Definition init (address_set listening : bool) : st :=
  St (negb address_set) (negb address_set || listening) 0 (fun _ => Broken) [] (fun _ => SIdle) TNew MRun false [] [] [] [].
(** _controller.py:89, 232-242: the variable is set by the first controller and never removed; the listener is closed. *)
Definition next_session : st := init true false.

Definition put {A} (f : nat -> A) (n : nat) (a : A) : nat -> A := fun k => if Nat.eqb k n then a else f k.
Definition set_sender p x s := St (s_own s) (s_listening s) (s_next s) (s_conns s) (s_backlog s) (put (s_senders s) p x) (s_receiver s)
  (s_main s) (s_lock s) (s_logged s) (s_sent s) (s_given_up s) (s_delivered s).
Definition set_conn c x s := St (s_own s) (s_listening s) (s_next s) (put (s_conns s) c x) (s_backlog s) (s_senders s) (s_receiver s)
  (s_main s) (s_lock s) (s_logged s) (s_sent s) (s_given_up s) (s_delivered s).
Definition set_receiver x s := St (s_own s) (s_listening s) (s_next s) (s_conns s) (s_backlog s) (s_senders s) x
  (s_main s) (s_lock s) (s_logged s) (s_sent s) (s_given_up s) (s_delivered s).
Definition set_backlog x s := St (s_own s) (s_listening s) (s_next s) (s_conns s) x (s_senders s) (s_receiver s)
  (s_main s) (s_lock s) (s_logged s) (s_sent s) (s_given_up s) (s_delivered s).
Definition set_main x s := St (s_own s) (s_listening s) (s_next s) (s_conns s) (s_backlog s) (s_senders s) (s_receiver s)
  x (s_lock s) (s_logged s) (s_sent s) (s_given_up s) (s_delivered s).
Definition set_lock x s := St (s_own s) (s_listening s) (s_next s) (s_conns s) (s_backlog s) (s_senders s) (s_receiver s)
  (s_main s) x (s_logged s) (s_sent s) (s_given_up s) (s_delivered s).
Definition set_closed s := St (s_own s) false (s_next s) (s_conns s) (s_backlog s) (s_senders s) (s_receiver s)
  MClosed (s_lock s) (s_logged s) (s_sent s) (s_given_up s) (s_delivered s).
(** A new connection: last in the backlog of the listener. *)
Definition connect s := St (s_own s) (s_listening s) (S (s_next s)) (put (s_conns s) (s_next s) Waiting) (s_backlog s ++ [s_next s])
  (s_senders s) (s_receiver s) (s_main s) (s_lock s) (s_logged s) (s_sent s) (s_given_up s) (s_delivered s).
Definition log_logged m s := St (s_own s) (s_listening s) (s_next s) (s_conns s) (s_backlog s) (s_senders s) (s_receiver s)
  (s_main s) (s_lock s) (s_logged s ++ [m]) (s_sent s) (s_given_up s) (s_delivered s).
Definition log_sent m s := St (s_own s) (s_listening s) (s_next s) (s_conns s) (s_backlog s) (s_senders s) (s_receiver s)
  (s_main s) (s_lock s) (s_logged s) (s_sent s ++ [m]) (s_given_up s) (s_delivered s).
Definition log_given_up m s := St (s_own s) (s_listening s) (s_next s) (s_conns s) (s_backlog s) (s_senders s) (s_receiver s)
  (s_main s) (s_lock s) (s_logged s) (s_sent s) (s_given_up s ++ [m]) (s_delivered s).
Definition log_delivered m s := St (s_own s) (s_listening s) (s_next s) (s_conns s) (s_backlog s) (s_senders s) (s_receiver s)
  (s_main s) (s_lock s) (s_logged s) (s_sent s) (s_given_up s) (s_delivered s ++ [m]).

(** _regression.py:59 [RETRIES]. *)
Definition RETRIES : nat := 10.
(** _regression.py:763-767: an attempt has raised an [Exception]. The exit status becomes INTERNAL_ERROR
    ([_notify_exception], 489-491) exactly when something is added to [s_given_up]. *)
Definition failed (p : process) (d : data) (retry : nat) (s : st) : st :=
  match retry with
  | S r => set_sender p (STry d r) s
  | O => log_given_up (p, d) (set_sender p SIdle s)
  end.

(** What happens next. [ok]: whether a call of the system or of other plugins succeeds.
    Simplifications: another exception than [Exception] in a simulator is the end of the process ([LGone]); whether a
    failing [send] leaves a complete object behind is covered by a failing [close]; an error in [accept] either leaves the
    oldest connection where it is or loses it. *)
Inductive label :=
| LReport (p : process) (d : data) | LConnect (p : process) (ok : bool) | LSend (p : process) (ok : bool)
| LClose (p : process) (ok : bool) | LGone (p : process)
| LStart | LAccept | LAcceptError (lost : bool) | LRecv (ok : bool) | LLog | LLogged (ok : bool) | LNotified (ok : bool)
| LMainLog | LMainLogged | LFinish | LStop | LJoin.

Definition step (s : st) (l : label) : option st :=
  match l with
  (* _regression.py:751-756 *)
  | LReport p d => match s_senders s p with SIdle => Some (log_logged (p, d) (set_sender p (STry d RETRIES) s)) | _ => None end
  (* 760 [Client] *)
  | LConnect p ok =>
      match s_senders s p with
      | STry d r => if ok then if s_listening s then Some (set_sender p (SConnected d r (s_next s)) (connect s)) else None
                    else Some (failed p d r s)
      | _ => None
      end
  (* 761 [send]; the connection is closed when it fails *)
  | LSend p ok =>
      match s_senders s p with
      | SConnected d r c => Some (if ok then log_sent (p, d) (set_sender p (SSent d r c) (set_conn c (Full (Some (p, d))) s))
                                  else failed p d r (set_conn c Broken s))
      | _ => None
      end
  (* 760 [__exit__], 762 *)
  | LClose p ok =>
      match s_senders s p with
      | SSent d r c => Some (if ok then set_sender p SIdle s else failed p d r s)
      | _ => None
      end
  | LGone p =>
      Some (set_sender p SGone match s_senders s p with SConnected _ _ c => set_conn c Broken s | _ => s end)
  (* _controller.py:224-230 *)
  | LStart => match s_receiver s with TNew => if s_own s then Some (set_receiver TAccept s) else None | _ => None end
  (* 369 *)
  | LAccept =>
      match s_receiver s, s_backlog s with TAccept, c :: rest => Some (set_receiver (TRecv c) (set_backlog rest s)) | _, _ => None end
  | LAcceptError lost =>
      match s_receiver s with
      | TAccept => Some (set_receiver TNotify (if lost then set_backlog (List.tl (s_backlog s)) s else s))
      | _ => None
      end
  (* 370-379; [ok = false]: reading or decoding raises although the object is complete *)
  | LRecv ok =>
      match s_receiver s with
      | TRecv c =>
          match s_conns s c with
          | Waiting => None
          | Broken => Some (set_receiver TNotify s)
          | Full m => if ok then Some (set_receiver match m with Some m => TLog m | None => TDone end s) else Some (set_receiver TNotify s)
          end
      | _ => None
      end
  (* 381, 355-360 *)
  | LLog => match s_receiver s with
            | TLog m => if s_lock s then None else Some (log_delivered m (set_lock true (set_receiver (TIn m) s)))
            | _ => None
            end
  | LLogged ok => match s_receiver s with TIn m => Some (set_lock false (set_receiver (if ok then TAccept else TNotify) s)) | _ => None end
  (* 383-384, 386-388; [ok = false]: [notify_exception] of pytest raises *)
  | LNotified ok => match s_receiver s with TNotify => Some (set_receiver (if ok then TAccept else TDead) s) | _ => None end
  (* 355-360 in the main thread *)
  | LMainLog => match s_main s with MRun => if s_lock s then None else Some (set_lock true (set_main MIn s)) | _ => None end
  | LMainLogged => match s_main s with MIn => Some (set_lock false (set_main MRun s)) | _ => None end
  (* 232-238 [pytest_sessionfinish]: the connection; without a thread there is nothing to do *)
  | LFinish =>
      match s_main s with
      | MRun => Some (if s_own s then set_main (MStop (s_next s)) (connect s) else set_main MClosed s)
      | _ => None
      end
  (* 239 *)
  | LStop => match s_main s with MStop c => Some (set_main MJoin (set_conn c (Full None) s)) | _ => None end
  (* 241-242 *)
  | LJoin => match s_main s, s_receiver s with MJoin, TDone | MJoin, TDead => Some (set_closed s) | _, _ => None end
  end.

Inductive exec : st -> list label -> st -> Prop :=
| exec_nil s : exec s [] s
| exec_cons s l s' ls s'' : step s l = Some s' -> exec s' ls s'' -> exec s (l :: ls) s''.

(** The simulated times in the reports of the manager under pytest (/repo/src/cocotb_tools/_pytest/_regression.py), on top of
    the machine of PytestModel.

    Simplifications:
    - Simulated time is a number of steps (simtime.py:126-160 with unit "step"); other units are the same number converted,
      so equal times remain equal.
    - Simulated time does not pass while Python code runs: all that happens in one step of the machine happens at one time.
    - Durations of wall time are given, not computed; quotients are exact. *)
From Verif Require Import Base PytestModel.
From Coq Require Import QArith.
Open Scope Z_scope.

(** The steps of the session, each with the time at which it happens, and all events with their times. *)
Fixpoint timed (E : env) (s : st) (ls : list (Z * label)) : option (st * list (Z * event)) :=
  match ls with
  | [] => Some (s, [])
  | (t, l) :: ls =>
      match step E s l with
      | None => None
      | Some s1 =>
          match timed E s1 ls with
          | None => None
          | Some (s2, x) => Some (s2, map (pair t) (skipn (List.length (r_log s)) (r_log s1)) ++ x)
          end
      end
  end.

(** The properties [sim_time_start] and [sim_time_stop] of a report handed to pytest_runtest_logreport. *)
Record span := Span { sp_item : nat; sp_phase : phase; sp_verdict : verdict; sp_start : Z; sp_stop : Z }.
(** _regression.py:711-716, 704-705: [sim_time_duration]. *)
Definition sp_duration (x : span) : Z := sp_stop x - sp_start x.

(** _regression.py:342-362 [_call_and_report] without a function: [start], the attribute [_sim_time_start], is set after the
    hook, unless the exception of the hook is raised again (353-357). 363-365, with a function: it is left alone. 702-716
    [pytest_runtest_makereport]: called for each of them; the report which is logged (414, 422, 430, 440, 472) is the one made
    last, in the same step of the machine. *)
Fixpoint reports (E : env) (start : Z) (l : list (Z * event)) : list span :=
  match l with
  | [] => []
  | (t, EvHook i p) :: l => reports E (match e_phase E i p with None => start | Some _ => t end) l
  | (t, EvReport i p v) :: l => Span i p v start t :: reports E start l
  | _ :: l => reports E start l
  end.
(** _regression.py:141: the first value of [_sim_time_start]. *)
Definition session_reports (E : env) (l : list (Z * event)) : list span := reports E 0 l.

(** A float: a number, not a number, infinite. *)
Inductive float := Num (q : Q) | NaN | Inf.
(** _regression.py:706-708: [sim_time_ratio] under pytest. *)
Definition pytest_ratio (wall sim : Q) : float := if Qeq_bool sim 0 then Num 0 else Num (wall / sim).
(** _utils.py:227-235 [safe_divide]. *)
Definition safe_divide (a b : Q) : float := if Qeq_bool b 0 then (if Qeq_bool a 0 then NaN else Inf) else Num (a / b).
(** regression.py:837, 888, 951: [sim_time_ratio] of cocotb's own manager; also 177-178 in the summary. *)
Definition native_ratio (wall sim : Q) : float := safe_divide sim wall.

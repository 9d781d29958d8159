(** Tracebacks of exceptions, stacks and texts of Tasks: /repo/src/cocotb/_utils.py:49-135, task.py:209-268 and 345-446, _outcomes.py:24-30. *)
From Coq Require Import String.
From Verif Require Import Base.

(** A frame: the name of its code (co_name) and the line. A traceback: its frames, the outermost first; none at all is None. *)
Definition frame : Type := pystr * Z.
Definition traceback : Type := list frame.

(** ** Removing frames *)
(** [NoFrame]: the AttributeError of None.tb_frame. *)
Inductive stripped := Stripped (t : traceback) | AssertFails | NoFrame.
(** _utils.py:81-87 [remove_traceback_frames], the base case. *)
Fixpoint remove_frames (t : traceback) (names : list pystr) {struct names} : stripped :=
  match names with
  | [] => Stripped t
  | n :: names =>
      match t with
      | [] => NoFrame
      | f :: t => if pystr_eqb (fst f) n then remove_frames t names else AssertFails
      end
  end.
(** The exceptions and their tracebacks; [with_traceback] of Python changes the exception itself. *)
Definition heap : Type := nat -> traceback.
Definition set_tb (h : heap) (e : nat) (t : traceback) : heap := fun x => if Nat.eqb x e then t else h x.
(** _utils.py:69-75: of an exception; the result is the exception which [with_traceback] returns. None: it raises. *)
Definition remove_exc (h : heap) (e : nat) (names : list pystr) : option (heap * nat) :=
  match remove_frames (h e) names with Stripped t => Some (set_tb h e t, e) | _ => None end.

(** Who catches: [Task._resume] (task.py:370-411, 445-446) or [capture] (_outcomes.py:28-29). *)
Inductive catcher := Resume | Capture.
Definition name_of (c : catcher) : pystr := match c with Resume => lit "_resume" | Capture => lit "capture" end.
(** What happens to exceptions: [Caught e c line through]: [e] is raised, leaves the frames [through] and is caught in [c] at [line], which
    removes its own frame. [Handled e by through]: it is caught in a frame of the user. [Replaced e t]: the user sets the traceback.
    Python puts every frame which an exception leaves, and the one which catches it, in front of the traceback. *)
Inductive act := Caught (e : nat) (c : catcher) (line : Z) (through : list frame) | Handled (e : nat) (by_ : frame) (through : list frame)
  | Replaced (e : nat) (t : traceback).
(** task.py:376-377, 388-389, 410-411, 446, _outcomes.py:29. *)
Definition do_act (h : heap) (a : act) : option heap :=
  match a with
  | Caught e c line fs => option_map fst (remove_exc (set_tb h e ((name_of c, line) :: fs ++ h e)) e [name_of c])
  | Handled e f fs => Some (set_tb h e (f :: fs ++ h e))
  | Replaced e t => Some (set_tb h e t)
  end.
(** Executions of the above; None: a removal has raised. *)
Fixpoint run (h : heap) (acts : list act) : option heap :=
  match acts with [] => Some h | a :: acts => match do_act h a with Some h => run h acts | None => None end end.

(** ** Stacks of coroutines *)
(** What is awaited, the outermost first: a coroutine with its frame, None if it has ended; or something without [cr_frame], such as the
    generator of [Trigger.__await__] (_base_triggers.py). *)
Inductive awaited := Coroutine (f : option frame) | Other.
(** _utils.py:90-110 [walk_coro_stack]. *)
Fixpoint walk (c : list awaited) : list frame :=
  match c with
  | [] => []
  | Other :: _ => []
  | Coroutine f :: c => match f with Some f => f :: walk c | None => walk c end
  end.
(** task.py:209-229 [_get_coro_stack] with _utils.py:113-135. Simplified: sys.tracebacklimit is not set. *)
Definition coro_stack (native : bool) (c : list awaited) : result (list frame) :=
  if native then
    let s := walk c in
    Ok match rev s with f :: r => if pystr_eqb (fst f) (lit "__await__") then rev r else s | [] => s end
  else Err TypeError.

(** ** The text of a Task *)
Inductive state := Unstarted | Scheduled | Pending | Running | Finished | Errored | Cancelled.
(** task.py:231-246: [coro_name]; [own]: the __name__ of the coroutine, [cls]: the name of its class. *)
Definition coro_name (native : bool) (c : list awaited) (own : option pystr) (cls : pystr) : pystr :=
  match coro_stack native c with
  | Ok s => match rev s with f :: _ => fst f | [] => match own with Some n => n | None => cls end end
  | Err _ => cls
  end.
(** task.py:248-268 [__repr__]; [what]: the repr of the outcome or the trigger. *)
Definition repr (s : state) (name coro what : pystr) : pystr :=
  match s with
  | Running => lit "<" ++ name ++ lit " running coro=" ++ coro ++ lit "()>"
  | Finished => lit "<" ++ name ++ lit " finished coro=" ++ coro ++ lit "() outcome=" ++ what ++ lit ">"
  | Errored => lit "<" ++ name ++ lit " error coro=" ++ coro ++ lit "() outcome=" ++ what ++ lit ">"
  | Pending => lit "<" ++ name ++ lit " pending coro=" ++ coro ++ lit "() trigger=" ++ what ++ lit ">"
  | Scheduled => lit "<" ++ name ++ lit " scheduled coro=" ++ coro ++ lit "()>"
  | Unstarted => lit "<" ++ name ++ lit " created coro=" ++ coro ++ lit "()>"
  | Cancelled => lit "<" ++ name ++ lit " cancelled coro=" ++ coro ++ lit " with=" ++ what
  end.

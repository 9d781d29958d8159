(** Model of TaskManager (/repo/src/cocotb/_task_manager.py), on top of the scheduler kernel.

    A Task inside [__aexit__] has a [stage]: the place where it is. The code between two kernel operations is one step ([XLib]);
    nothing else can happen while library code has control. User code remains an adversary: whenever it has control it performs
    any kernel step, creates managers, starts children, enters and leaves blocks. The children run user code.

    Simplifications:
    - The Event [_none_remaining] and the done callback of the i-th manager have the number [private i]; user code does not know
      them.
    - The awaitable given to [start_soon] is not modelled: it gets the Task created for it (line 112), which must not have been
      used before. [fork] (137-192) only calls [start_soon].
    - Blocks are left in the reverse order of entering ([async with]); a coroutine ends only outside all its blocks. A block of a
      coroutine which is being closed is left with GeneratorExit (user code which replaces GeneratorExit by something else in a
      block is not modelled, except as an exception leaving [close()]).
    - A Python set of exceptions is a list without duplicates; in what order [tuple()] lists it is left open ([XGroup]).
    - An exception leaving a done callback leaves [_set_outcome] half way (task.py:305-319): the machine stops ([x_esc]).
    - Who entered, started, left and cancelled what is kept as history ([x_hist]); no transition reads it. *)
From Verif Require Import Base KernelModel.
From Coq Require Import Arith.

(** The attributes of a TaskManager: _task_manager.py:52-74 (without the Event, which is in the kernel). [m_parent]: [None] while the
    attribute does not exist (74). *)
Record mgr := Mgr {
  m_default : bool; m_context : bool; m_exc : list exc; m_rem : list (tid * bool);
  m_canc : bool; m_fin : bool; m_entered : bool; m_parent : option tid }.

(** Why [__aexit__] is called (its argument [exc], 228-230): the block ended; an exception; GeneratorExit. *)
Inductive leave := LvNone | LvExc (e : exc) | LvClose.

(** What follows [_cancel()] in [__aexit__]: [return None] or [raise] with an exception (238, 295) or with GeneratorExit (238, 295);
    lines 257-266 or 279-288 (the CancelledError to raise); the wait of 273 (269). *)
Inductive next := NReraise (e : exc) | NClose | NDrain (m : nat) | NWait (e : exc).

(** Where a Task is in [__aexit__] of manager [i]: in the loop of 218-219; suspended in line 249; at the test of 259 or 281;
    suspended in 261 or 283; before line 273; suspended there. *)
Inductive stage :=
| ACancel (i : nat) (todo : list tid) (n : next)
| ANull (i : nat)
| ATest (i m : nat) | ADrain (i m : nat)
| AAwait (i : nat) (o : option exc) | AWait (i : nat) (o : option exc).

(** Where a running done callback is: before line 196; before 201; before 215; in the loop of 218-219. *)
Inductive cbpc :=
| BStart (i : nat) (u : tid) | BCheck (i : nat) (u : tid) (coe : bool) | BParent (i : nat) (todo : list tid) | BCancel (i : nat) (todo : list tid).

(** History: [current_task()] was [t] when the block of [i] was entered; [i] started [u]; [t] left the block (the
    manager had [_cancelled] its children if [c]); an exception was thrown into the wait of line 273;
    [i] cancelled [u]; [i] cancelled its parent; an exception left the loop of 218-219 in [__aexit__]. *)
Inductive hist :=
| HEnter (t : tid) (i : nat) | HStart (i : nat) (u : tid) (coe : bool) | HExit (t : tid) (i : nat) (lv : leave) (c : bool)
| HThrown (t : tid) (i : nat) (e : option exc) | HCancel (i : nat) (u : tid) | HParent (i : nat)
| HBroken (i : nat).

(** The kernel; the managers and their number; the blocks in which a Task is (innermost first); where every Task is; the callback
    being run; whether an exception left a done callback; history (newest first). *)
Record mst := MSt {
  x_k : st; x_m : nat -> mgr; x_n : nat; x_in : tid -> list nat; x_pend : tid -> option stage; x_cb : option cbpc; x_esc : bool;
  x_hist : list hist }.

(** The numbers of the private objects: odd. *)
Definition private (n : nat) : nat := S (n + n).
(** User code does not touch the private objects. *)
Definition user_label (l : label) : bool :=
  match l with
  | LOp (OpSet e) | LOp (OpClear e) | LAwait (TEvent e) _ => Nat.even e
  | LOp (OpAddDone _ c) => Nat.even c
  | _ => true
  end.

(** Whether user code has control. In [_set_outcome] it has if the callback called last is one of its own. *)
Definition user_control (x : mst) : bool :=
  match x_cb x with
  | Some _ => false
  | None =>
      match s_ctl (x_k x) with
      | FRun t :: _ | FClose t :: _ => match x_pend x t with None => true | Some _ => false end
      | FDone u i _ :: _ =>
          match i with
          | O => false
          | S j => match nth_error (k_dcbs (s_task (x_k x) u)) j with Some c => Nat.even c | None => false end
          end
      | [] => true
      end
  end.
(** Whether user code can do [l]: it has control, or the next callback is not one of a manager; a coroutine does not end inside a
    block. *)
Definition user_can (x : mst) (l : label) : bool :=
  match l, s_ctl (x_k x) with
  | LDoneNext, FDone u i _ :: _ =>
      match x_cb x with
      | Some _ => false
      | None => match nth_error (k_dcbs (s_task (x_k x) u)) i with Some c => Nat.even c | None => true end
      end
  | (LReturn _ | LRaise _ | LCloseEnd), (FRun t | FClose t) :: _ =>
      user_control x && match x_in x t with [] => true | _ => false end
  | _, _ => user_control x
  end.

(** What a call returns or raises ([TBlocked]: suspended, or library code goes on). *)
Inductive mres :=
| TUser (r : res) | TBlocked | TUnit
| TRefused                                      (* RuntimeError of 101-109 or 223, or of current_task() *)
| TOk                                           (* return True: the block ends without exception *)
| TGroup (es : list exc)                        (* BaseExceptionGroup *)
| TReraise (e : exc)                            (* return None / raise: the exception leaves the block *)
| TClosed                                       (* GeneratorExit leaves the block *)
| TUnreachable                                  (* line 251 *)
| TErr (e : perr) | TEscape (e : perr) | TAttribute.

(** Equality of exceptions: object identity, as far as the model keeps it. *)
Definition exc_eqb (a b : exc) : bool :=
  match a, b with
  | ECancelled m, ECancelled n | EExit m, EExit n | EUser m, EUser n => Nat.eqb m n
  | EIgnoredCancel, EIgnoredCancel | EBadYield, EBadYield | EPrime, EPrime => true
  | _, _ => false
  end.
(** [set.add] (202, 299). *)
Definition add_exc (e : exc) (l : list exc) : list exc := if existsb (exc_eqb e) l then l else l ++ [e].
(** [tuple()] of a set without duplicates [l] can be [es] (303). *)
Fixpoint nodup_exc (l : list exc) : bool :=
  match l with [] => true | e :: l' => negb (existsb (exc_eqb e) l') && nodup_exc l' end.
Definition lists (es l : list exc) : bool :=
  Nat.eqb (length es) (length l) && forallb (fun e => existsb (exc_eqb e) l) es && forallb (fun e => existsb (exc_eqb e) es) l && nodup_exc es.

(** Lookup and removal by key: [dict.pop] (196). *)
Fixpoint find_rem (u : tid) (l : list (tid * bool)) : option bool :=
  match l with [] => None | (v, b) :: l' => if Nat.eqb v u then Some b else find_rem u l' end.
Definition drop_rem (u : tid) (l : list (tid * bool)) : list (tid * bool) := filter (fun p => negb (Nat.eqb (fst p) u)) l.

(** Assignments to the attributes: lines 202/299, 115-119/196, 210, 231, 224-225. *)
Definition with_exc (m : mgr) (l : list exc) : mgr :=
  Mgr (m_default m) (m_context m) l (m_rem m) (m_canc m) (m_fin m) (m_entered m) (m_parent m).
Definition with_rem (m : mgr) (l : list (tid * bool)) : mgr :=
  Mgr (m_default m) (m_context m) (m_exc m) l (m_canc m) (m_fin m) (m_entered m) (m_parent m).
Definition with_canc (m : mgr) : mgr :=
  Mgr (m_default m) (m_context m) (m_exc m) (m_rem m) true (m_fin m) (m_entered m) (m_parent m).
Definition with_fin (m : mgr) : mgr :=
  Mgr (m_default m) (m_context m) (m_exc m) (m_rem m) (m_canc m) true (m_entered m) (m_parent m).
Definition with_parent (m : mgr) (p : option tid) : mgr :=
  Mgr (m_default m) (m_context m) (m_exc m) (m_rem m) (m_canc m) (m_fin m) true p.

(** Updates of parts of the state; [escape]: an exception leaves [_done_callback] (194-204); [record]: history. *)
Definition set_k (x : mst) (k : st) : mst := MSt k (x_m x) (x_n x) (x_in x) (x_pend x) (x_cb x) (x_esc x) (x_hist x).
Definition set_m (x : mst) (i : nat) (m : mgr) : mst :=
  MSt (x_k x) (upd (x_m x) i m) (x_n x) (x_in x) (x_pend x) (x_cb x) (x_esc x) (x_hist x).
Definition set_in (x : mst) (t : tid) (l : list nat) : mst :=
  MSt (x_k x) (x_m x) (x_n x) (upd (x_in x) t l) (x_pend x) (x_cb x) (x_esc x) (x_hist x).
Definition set_pend (x : mst) (t : tid) (p : option stage) : mst :=
  MSt (x_k x) (x_m x) (x_n x) (x_in x) (upd (x_pend x) t p) (x_cb x) (x_esc x) (x_hist x).
Definition set_cb (x : mst) (c : option cbpc) : mst := MSt (x_k x) (x_m x) (x_n x) (x_in x) (x_pend x) c (x_esc x) (x_hist x).
Definition escape (x : mst) : mst := MSt (x_k x) (x_m x) (x_n x) (x_in x) (x_pend x) None true (x_hist x).
Definition record (x : mst) (h : hist) : mst :=
  MSt (x_k x) (x_m x) (x_n x) (x_in x) (x_pend x) (x_cb x) (x_esc x) (h :: x_hist x).

(** A Task object which has just been created (112; task.py:107-146). *)
Definition fresh (k : st) (t : tid) : bool :=
  match s_task k t with Task Unstarted None None None [] 0 None false WTrig => true | _ => false end.

(** One turn of the loop of 218-219. *)
Definition cancel_one (x : mst) (i : nat) (u : tid) : mst * option perr :=
  match cancel (x_k x) u 0 with
  | (k, RErr e) => (set_k x k, Some e)
  | (k, _) => (record (set_k x k) (HCancel i u), None)
  end.

(** _task_manager.py:46-77 [__init__]. *)
Definition new_manager (x : mst) (d : bool) (c : option bool) : mst :=
  let m := Mgr d (match c with Some b => b | None => d end) [] [] false false false None in
  MSt (event_set (x_k x) (private (x_n x))) (upd (x_m x) (x_n x) m) (S (x_n x)) (x_in x) (x_pend x) (x_cb x) (x_esc x) (x_hist x).

(** _task_manager.py:79-123 [start_soon]; [u]: the Task created. *)
Definition manager_start (x : mst) (i : nat) (u : tid) (coe : option bool) : mst * mres :=
  let m := x_m x i in
  if m_canc m then (x, TRefused)
  else if m_fin m then (x, TRefused)
  else if negb (m_entered m) then (x, TRefused)
  else match s_current (x_k x), m_parent m with
  | None, _ => (x, TRefused)
  | Some _, None => (x, TAttribute)
  | Some c, Some p =>
      if negb (Nat.eqb c p) then (x, TRefused)
      else
        let b := match coe with Some b => b | None => m_default m end in
        let k := event_clear (add_done (x_k x) u (private i)) (private i) in
        match start_soon k u with
        | (k, RErr e) => (set_k x k, TErr e)
        | (k, _) => (record (set_k (set_m x i (with_rem m (m_rem m ++ [(u, b)]))) k) (HStart i u b), TUnit)
        end
  end.

(** _task_manager.py:221-226 [__aenter__]. *)
Definition manager_enter (x : mst) (t : tid) (i : nat) : mst * mres :=
  let m := x_m x i in
  if m_fin m then (x, TRefused)
  else match s_current (x_k x) with
  | None => (set_m x i (with_parent m (m_parent m)), TRefused)
  | Some c => (record (set_in (set_m x i (with_parent m (Some c))) t (i :: x_in x t)) (HEnter c i), TUnit)
  end.

(** The done callback goes on: 194-204, 206-219. *)
Definition callback_step (x : mst) (c : cbpc) : mst * mres :=
  match c with
  | BStart i u =>
      let m := x_m x i in
      match find_rem u (m_rem m) with
      | None => (escape x, TEscape PKey)
      | Some coe =>
          let m := with_rem m (drop_rem u (m_rem m)) in
          let x := set_cb (set_m x i m) (Some (BCheck i u coe)) in
          (match m_rem m with [] => set_k x (event_set (x_k x) (private i)) | _ => x end, TBlocked)
      end
  | BCheck i u coe =>
      let m := x_m x i in
      if py_cancelled (x_k x) u then (set_cb x None, TBlocked)
      else match py_exception (x_k x) u with
      | NoExc => (set_cb x None, TBlocked)
      | Exc e =>
          let m := with_exc m (add_exc e (m_exc m)) in
          if coe || m_canc m then (set_cb (set_m x i m) None, TBlocked)
          else
            let todo := map fst (m_rem m) in
            (set_cb (set_m x i (with_canc m)) (Some (if m_fin m then BCancel i todo else BParent i todo)), TBlocked)
      | _ => (escape x, TEscape PInvalidState)
      end
  | BParent i todo =>
      match m_parent (x_m x i) with
      | None => (escape x, TAttribute)
      | Some p =>
          match cancel (x_k x) p 0 with
          | (k, RErr e) => (escape (set_k x k), TEscape e)
          | (k, _) => (set_cb (record (set_k x k) (HParent i)) (Some (BCancel i todo)), TBlocked)
          end
      end
  | BCancel i [] => (set_cb x None, TBlocked)
  | BCancel i (u :: us) =>
      match cancel_one x i u with
      | (x, Some e) => (escape x, TEscape e)
      | (x, None) => (set_cb x (Some (BCancel i us)), TBlocked)
      end
  end.

(** [_cancel()] called by [__aexit__], up to the loop (208-210; [_finishing] is set). *)
Definition begin_cancel (x : mst) (t : tid) (i : nat) (n : next) : mst :=
  let m := x_m x i in
  if m_canc m then set_pend x t (Some (ACancel i [] n))
  else set_pend (set_m x i (with_canc m)) t (Some (ACancel i (map fst (m_rem m)) n)).

(** [self._parent_task._uncancel()] (245, 257, 264, 279, 286; task.py:622-628), then [p]. *)
Definition uncancel_parent (x : mst) (t : tid) (i : nat) (p : stage) : mst * mres :=
  match m_parent (x_m x i) with
  | None => (set_pend x t None, TAttribute)
  | Some u => (set_pend (set_k x (uncancel (x_k x) u)) t (Some p), TBlocked)
  end.

(** [await] of a library object in the coroutine of [t]. *)
Definition suspend (x : mst) (rest : list frame) (t : tid) (tr : trig) (p : stage) : mst * mres :=
  match await_trigger (x_k x) rest t tr true with
  | (k, RErr e) => (set_pend (set_k x k) t None, TErr e)
  | (k, _) => (set_pend (set_k x k) t (Some p), TBlocked)
  end.

(** The loop of 218-219 in [__aexit__], then what follows. *)
Definition go_cancel (x : mst) (t : tid) (i : nat) (todo : list tid) (n : next) : mst * mres :=
  match todo, n with
  | u :: us, _ =>
      match cancel_one x i u with
      | (x, Some e) => (record (set_pend x t None) (HBroken i), TErr e)
      | (x, None) => (set_pend x t (Some (ACancel i us n)), TBlocked)
      end
  | [], NReraise e => (set_pend x t None, TReraise e)
  | [], NClose => (set_pend x t None, TClosed)
  | [], NDrain m => uncancel_parent x t i (ATest i m)
  | [], NWait e => (set_pend x t (Some (AAwait i (Some e))), TBlocked)
  end.

(** _task_manager.py:228-269 [__aexit__] up to its first await or loop. *)
Definition begin_exit (x : mst) (rest : list frame) (t : tid) (i : nat) (lv : leave) : mst * mres :=
  let x := record (set_m x i (with_fin (x_m x i))) (HExit t i lv (m_canc (x_m x i))) in
  match lv with
  | LvClose => (begin_cancel x t i NClose, TBlocked)
  | LvExc (EExit n) => (begin_cancel x t i (NReraise (EExit n)), TBlocked)
  | _ =>
      if m_canc (x_m x i) then
        match lv with
        | LvExc (ECancelled _) => uncancel_parent x t i (AAwait i None)
        | _ => suspend x rest t (TNull 0) (ANull i)
        end
      else match lv with
      | LvExc (ECancelled m) => (begin_cancel x t i (NDrain m), TBlocked)
      | LvExc e =>
          if m_context (x_m x i) then (set_pend x t (Some (AAwait i (Some e))), TBlocked)
          else (begin_cancel x t i (NWait e), TBlocked)
      | _ => (set_pend x t (Some (AAwait i None)), TBlocked)
      end
  end.

(** [_exceptions] at line 300. *)
Definition final_exc (m : mgr) (o : option exc) : list exc :=
  match o with
  | Some (ECancelled _) | None => m_exc m
  | Some e => add_exc e (m_exc m)
  end.
(** Lines 297-307; [es]: the order in which [tuple()] lists a set which is not empty. *)
Definition conclude (x : mst) (t : tid) (i : nat) (o : option exc) (es : option (list exc)) : option (mst * mres) :=
  let l := final_exc (x_m x i) o in
  let x := set_pend (set_m x i (with_exc (x_m x i) l)) t None in
  match l, es with
  | [], None => Some (x, TOk)
  | _ :: _, Some es => if lists es l then Some (x, TGroup es) else None
  | _, _ => None
  end.

(** The coroutine of [t] goes on in [__aexit__]. *)
Definition run_step (x : mst) (rest : list frame) (t : tid) (p : stage) (es : option (list exc)) : option (mst * mres) :=
  let e := k_exc (s_task (x_k x) t) in
  match p, e, es with
  | AWait i o, None, _ => conclude x t i o es
  | _, _, Some _ => None
  | AWait i o, Some (ECancelled m), None => Some (begin_cancel (record x (HThrown t i e)) t i (NDrain m), TBlocked)
  | AWait i o, Some e', None => Some (begin_cancel (record x (HThrown t i e)) t i (NReraise e'), TBlocked)
  | ACancel i todo n, _, None => Some (go_cancel x t i todo n)
  | ANull i, None, None => Some (set_pend x t None, TUnreachable)
  | ANull i, Some e', None => Some (set_pend x t None, TReraise e')
  | ATest i m, _, None =>
      if s_event (x_k x) (private i) then Some (set_pend x t None, TReraise (ECancelled m))
      else Some (suspend x rest t (TEvent (private i)) (ADrain i m))
  | ADrain i m, None, None => Some (set_pend x t (Some (ATest i m)), TBlocked)
  | ADrain i m, Some (ECancelled _), None => Some (uncancel_parent x t i (ATest i m))
  | ADrain i m, Some e', None => Some (set_pend x t None, TReraise e')
  | AAwait i o, _, None => Some (suspend x rest t (TEvent (private i)) (AWait i o))
  end.

(** The coroutine of [t] is being closed: GeneratorExit is raised where it is suspended (289-295 for the wait of 273). *)
Definition close_step (x : mst) (t : tid) (p : stage) : mst * mres :=
  match p with
  | AWait i o => (begin_cancel (record x (HThrown t i None)) t i NClose, TBlocked)
  | ACancel i todo n => go_cancel x t i todo n
  | _ => (set_pend x t None, TClosed)
  end.

(** Steps: of user code and the kernel; the methods called by user code; library code goes on; the same, raising a group. *)
Inductive mlabel :=
| XUser (l : label) | XNew (d : bool) (c : option bool) | XStart (i : nat) (u : tid) (coe : option bool)
| XEnter (i : nat) | XExit (lv : leave) | XLib | XGroup (es : list exc).

(** Library code goes on. *)
Definition lib_step (x : mst) (es : option (list exc)) : option (mst * mres) :=
  match x_cb x, s_ctl (x_k x) with
  | Some c, _ => match es with None => Some (callback_step x c) | Some _ => None end
  | None, FRun t :: rest => match x_pend x t with Some p => run_step x rest t p es | None => None end
  | None, FClose t :: rest =>
      match x_pend x t, es with Some p, None => Some (close_step x t p) | _, _ => None end
  | None, FDone u j _ :: _ =>
      match nth_error (k_dcbs (s_task (x_k x) u)) j, es with
      | Some c, None =>
          if Nat.even c then None
          else match step (x_k x) LDoneNext with
               | Some (k, _) => Some (set_cb (set_k x k) (Some (BStart (Nat.div2 c) u)), TBlocked)
               | None => None
               end
      | _, _ => None
      end
  | None, [] => None
  end.

Definition mstep (x : mst) (l : mlabel) : option (mst * mres) :=
  if s_halt (x_k x) || x_esc x then None
  else match l with
  | XUser kl =>
      if user_can x kl && user_label kl then
        match step (x_k x) kl with
        | Some (k, r) => Some (set_k x k, TUser r)
        | None => None
        end
      else None
  | XNew d c => if user_control x then Some (new_manager x d c, TUnit) else None
  | XStart i u coe =>
      if user_control x && Nat.ltb i (x_n x) && fresh (x_k x) u then Some (manager_start x i u coe) else None
  | XEnter i =>
      match s_ctl (x_k x) with
      | FRun t :: _ => if user_control x && Nat.ltb i (x_n x) then Some (manager_enter x t i) else None
      | _ => None
      end
  | XExit lv =>
      if user_control x then
        match s_ctl (x_k x), lv with
        | FRun t :: rest, (LvNone | LvExc _) | FClose t :: rest, LvClose =>
            match x_in x t with i :: l => Some (begin_exit (set_in x t l) rest t i lv) | [] => None end
        | _, _ => None
        end
      else None
  | XLib => lib_step x None
  | XGroup es => lib_step x (Some es)
  end.

Definition minit : mst :=
  MSt init (fun _ => Mgr false false [] [] false false false None) 0 (fun _ => []) (fun _ => None) None false [].

Inductive mexec (P : mst -> mlabel -> Prop) : mst -> list mlabel -> mst -> Prop :=
| mexec_nil x : mexec P x [] x
| mexec_step x l x1 r ls x2 : P x l -> mstep x l = Some (x1, r) -> mexec P x1 ls x2 -> mexec P x (l :: ls) x2.

(** Model of the phases of the simulator as the triggers of /repo/src/cocotb/_gpi_triggers.py see them, of the edge
    triggers and of [singleton] of /repo/src/cocotb/_utils.py. Simplifications: callbacks are numbers; what the callbacks
    do is left to the events which follow; logging and profiling are left out. *)
From Verif Require Import Base.
Open Scope Z_scope.

(** * Phases *)
(** The exceptions which are raised here (the one of line 52 of _gpi_triggers.py is an AssertionError). *)
Inductive perror := PRuntimeError | PTypeError | PKeyError | PAssertionError.
(** _gpi_triggers.py:57, 172-235, 267-385: the kinds of triggers; timers and edges are many, the number is the object. *)
Inductive gtrig := GTimer (n : nat) | GReadOnly | GReadWrite | GNextTimeStep | GEdge (n : nat).
Definition gtrig_eqb (a b : gtrig) : bool :=
  match a, b with
  | GTimer n, GTimer m | GEdge n, GEdge m => Nat.eqb n m
  | GReadOnly, GReadOnly | GReadWrite, GReadWrite | GNextTimeStep, GNextTimeStep => true
  | _, _ => false
  end.
Definition is_readonly (t : gtrig) : bool := match t with GReadOnly => true | _ => false end.
Definition is_readwrite (t : gtrig) : bool := match t with GReadWrite => true | _ => false end.

(** _gpi_triggers.py:36-38, 388 and _base_triggers.py:55, handle.py:795: the last trigger which fired; the callbacks,
    the [_cbhdl] (is it not None) of each trigger; whether the simulator has a callback of the trigger; [_apply_writes_cb]. *)
Record phases := Phases {
  p_cur : gtrig; p_cbs : gtrig -> list nat; p_hdl : gtrig -> bool; p_sim : gtrig -> bool; p_wcb : bool }.
(** _gpi_triggers.py:388: [Timer(1, "step")]; no callback has been registered. *)
Definition phases0 : phases := Phases (GTimer 0) (fun _ => []) (fun _ => false) (fun _ => false) false.
(** An attribute of one object is set. *)
Definition upd {A} (f : gtrig -> A) (t : gtrig) (x : A) : gtrig -> A := fun u => if gtrig_eqb u t then x else f u.

(** _base_triggers.py:61-73 [_register] with [_prime] of the trigger (_gpi_triggers.py:159-162, 182-185, 202-205, 228-231,
    256-261); [given]: the simulator gave a callback handle. *)
Definition register (t : gtrig) (cb : nat) (given : bool) (s : phases) : phases * option perror :=
  let s1 := Phases (p_cur s) (upd (p_cbs s) t (p_cbs s t ++ [cb])) (p_hdl s) (p_sim s) (p_wcb s) in
  match p_cbs s t with
  | [] =>
      let s2 := Phases (p_cur s1) (p_cbs s1) (upd (p_hdl s1) t given) (if given then upd (p_sim s1) t true else p_sim s1) (p_wcb s1) in
      (s2, if given then None else Some PRuntimeError)
  | _ => (s1, None)
  end.
(** _gpi_triggers.py:187-192, 213-218 [__await__] of ReadOnly and ReadWrite, the inherited one (_base_triggers.py:111-113)
    otherwise; then the task registers (task.py:444). *)
Definition await_trigger (t : gtrig) (cb : nat) (given : bool) (s : phases) : phases * option perror :=
  if (is_readonly t || is_readwrite t) && is_readonly (p_cur s) then (s, Some PRuntimeError) else register t cb given s.
(** _base_triggers.py:75-81 [_deregister] with [_unprime] (_gpi_triggers.py:51-54). *)
Definition deregister (t : gtrig) (cb : nat) (s : phases) : phases * option perror :=
  if existsb (Nat.eqb cb) (p_cbs s t) then
    let rest := filter (fun c => negb (Nat.eqb cb c)) (p_cbs s t) in
    let s1 := Phases (p_cur s) (upd (p_cbs s) t rest) (p_hdl s) (p_sim s) (p_wcb s) in
    match rest with
    | [] => if p_hdl s t then (Phases (p_cur s1) (p_cbs s1) (upd (p_hdl s1) t false) (upd (p_sim s1) t false) (p_wcb s1), None)
            else (s1, Some PAssertionError)
    | _ => (s1, None)
    end
  else (s, Some PKeyError).
(** handle.py:863-882 [value.setter], 771-778 and 798-822 [_schedule_write]. [trust]: the writes of the simulator are
    trusted; [const]: the object is constant; [deposit]: the action; [cb]: the callback which is registered, if one is. The
    third part tells whether the simulator is written now. *)
Definition write_value (trust const deposit : bool) (cb : nat) (given : bool) (s : phases) : phases * option perror * bool :=
  if is_readonly (p_cur s) then (s, Some PRuntimeError, false)
  else if const then (s, Some PTypeError, false)
  else if trust then (s, None, true)
  else if is_readwrite (p_cur s) then (s, None, true)
  else if deposit then
    if p_wcb s then (s, None, false)
    else
      let (s', e) := register GReadWrite cb given s in
      match e with
      | None => (Phases (p_cur s') (p_cbs s') (p_hdl s') (p_sim s') true, None, false)
      | Some _ => (s', e, false)
      end
  else (s, None, true).
(** _gpi_triggers.py:40-49 [_react] with [_do_callbacks] (_base_triggers.py:83-88 and _gpi_triggers.py:207-211, where
    handle.py:788-796 [_apply_scheduled_writes] runs first). The simulator calls the function which was registered once. *)
Definition react (trust : bool) (t : gtrig) (s : phases) : phases * list nat :=
  (Phases t (upd (p_cbs s) t []) (p_hdl s) (upd (p_sim s) t false)
     (if negb trust && is_readwrite t then false else p_wcb s), p_cbs s t).

(** What happens, and what is seen of it. *)
Inductive pevent :=
| PFire (t : gtrig) | PAwait (t : gtrig) (cb : nat) (given : bool) | PCancel (t : gtrig) (cb : nat)
| PWrite (const deposit : bool) (cb : nat) (given : bool).
Inductive panswer := PFired (woken : list nat) | PDone (written : bool) | PRaised (e : perror).
(** The answer to one call: done or the exception. *)
Definition said (e : option perror) (written : bool) : panswer := match e with None => PDone written | Some e => PRaised e end.
(** One event; the simulator fires only triggers for which it has a callback. *)
Definition pstep (trust : bool) (s : phases) (e : pevent) : option (phases * panswer) :=
  match e with
  | PFire t => if p_sim s t then let (s', l) := react trust t s in Some (s', PFired l) else None
  | PAwait t cb given => let (s', r) := await_trigger t cb given s in Some (s', said r false)
  | PCancel t cb => let (s', r) := deregister t cb s in Some (s', said r false)
  | PWrite const deposit cb given => let '(s', r, w) := write_value trust const deposit cb given s in Some (s', said r w)
  end.
Fixpoint prun (trust : bool) (s : phases) (l : list pevent) : option (phases * list panswer) :=
  match l with
  | [] => Some (s, [])
  | e :: l' =>
      match pstep trust s e with
      | None => None
      | Some (s', a) => match prun trust s' l' with None => None | Some (s2, r) => Some (s2, a :: r) end
      end
  end.

(** * Edge triggers *)
(** handle.py: LogicObject (1113), LogicArrayObject (1207), the other _NonIndexableValueObjectBase (1093), ArrayObject and
    other handles, anything else. *)
Inductive hclass := HLogic | HLogicArray | HOtherValue | HArray | HNotASignal.
(** _gpi_triggers.py:267, 300, 333, 361. *)
Inductive eclass := CRising | CFalling | CChange | CEdge.
Definition eclass_eqb (a b : eclass) : bool :=
  match a, b with CRising, CRising | CFalling, CFalling | CChange, CChange | CEdge, CEdge => true | _, _ => false end.
(** _gpi_triggers.py:288, 321, 348; 361: Edge inherits the type of ValueChange. *)
Inductive etype := RISING | FALLING | VALUE_CHANGE.
Definition edge_type (c : eclass) : etype :=
  match c with CRising => RISING | CFalling => FALLING | CChange | CEdge => VALUE_CHANGE end.

(** The cached properties of all handles and the triggers made so far: number, signal and class. *)
Record edges := Edges { e_cache : list ((nat * eclass) * nat); e_made : list (nat * eclass) }.
Definition edges0 : edges := Edges [] [].
Fixpoint cached (k : nat * eclass) (l : list ((nat * eclass) * nat)) : option nat :=
  match l with
  | [] => None
  | ((s, c), o) :: l' => if Nat.eqb s (fst k) && eclass_eqb c (snd k) then Some o else cached k l'
  end.
(** handle.py:1099-1110, 1189-1201, 1412-1428: the cached properties [rising_edge], [falling_edge], [value_change], [_edge]
    of an object which has them, and 246-251 [_make]. [len], [const]: what the simulator says now. *)
Definition edge_property (c : eclass) (sig : nat) (k : hclass) (len : Z) (const : bool) (s : edges) : edges * result nat :=
  match cached (sig, c) (e_cache s) with
  | Some o => (s, Ok o)
  | None =>
      if match c, k with (CRising | CFalling), HLogicArray => negb (len =? 1) | _, _ => false end then (s, Err TypeError)
      else if const then (s, Err TypeError)
      else let o := List.length (e_made s) in
           (Edges (((sig, c), o) :: e_cache s) (e_made s ++ [(sig, c)]), Ok o)
  end.
(** The classes which have the property. *)
Definition has_property (c : eclass) (k : hclass) : bool :=
  match c, k with
  | (CRising | CFalling), (HLogic | HLogicArray) | (CChange | CEdge), (HLogic | HLogicArray | HOtherValue) => true
  | _, _ => false
  end.
(** _gpi_triggers.py:290-297, 323-330, 350-358, 375-384 [__new__]; 253-254: [__init__] does nothing. *)
Definition new_edge (c : eclass) (sig : nat) (k : hclass) (len : Z) (const : bool) (s : edges) : edges * result nat :=
  if has_property c k then edge_property c sig k len const s else (s, Err TypeError).
(** A use: [RisingEdge(sig)] etc. or [sig.rising_edge] etc.; an object without the property raises (a HierarchyObject looks
    for a child of that name first, which is not modelled). *)
Record erequest := ERequest { q_property : bool; q_class : eclass; q_sig : nat; q_len : Z; q_const : bool }.
Definition estep (kind : nat -> hclass) (s : edges) (q : erequest) : edges * result nat :=
  if q_property q then
    if has_property (q_class q) (kind (q_sig q)) then
      edge_property (q_class q) (q_sig q) (kind (q_sig q)) (q_len q) (q_const q) s
    else (s, Err AttributeError)
  else new_edge (q_class q) (q_sig q) (kind (q_sig q)) (q_len q) (q_const q) s.
Fixpoint erun (kind : nat -> hclass) (s : edges) (l : list erequest) : edges * list (result nat) :=
  match l with
  | [] => (s, [])
  | q :: l' => let (s1, a) := estep kind s q in let (s2, r) := erun kind s1 l' in (s2, a :: r)
  end.
(** _gpi_triggers.py:256-259 [_prime]: the signal and the edge which the simulator is asked for. *)
Definition prime_edge (s : edges) (o : nat) : option (nat * etype) :=
  match nth_error (e_made s) o with Some (sig, c) => Some (sig, edge_type c) | None => None end.

(** * Singletons *)
(** _utils.py:192-214: the state is [instance] and the calls of [orig_init] made; a construction is given by what
    [orig_new] (the object or an exception) and [orig_init] (done or an exception) do if they are called. *)
Record single := Single { g_instance : option nat; g_inits : list nat }.
Definition construct (new_ : result nat) (init : option exn) (s : single) : single * result nat :=
  match g_instance s with
  | Some o => (s, Ok o)
  | None =>
      match new_ with
      | Err e => (s, Err e)
      | Ok o => (Single (Some o) (g_inits s ++ [o]), match init with None => Ok o | Some e => Err e end)
      end
  end.
Fixpoint constructs (s : single) (l : list (result nat * option exn)) : single * list (result nat) :=
  match l with
  | [] => (s, [])
  | (n, i) :: l' => let (s1, a) := construct n i s in let (s2, r) := constructs s1 l' in (s2, a :: r)
  end.

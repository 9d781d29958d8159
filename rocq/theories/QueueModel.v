(** Model of /repo/src/cocotb/queue.py (AbstractQueue, Queue, PriorityQueue, LifoQueue) on top of the scheduler kernel.

    [put] and [get] are coroutines: a Task inside one of them is suspended at line 135 or 156. User code remains an
    adversary: whenever it has control it performs any kernel step or any queue operation. Names and [__repr__] are left
    out. In a coroutine being closed only the [*_nowait] operations are offered (a [put] or [get] which does not block
    does the same; one which blocks makes [close()] raise, which stops the machine). *)
From Verif Require Import Base KernelModel.
From Coq Require Import Arith ZArith.

(** * heapq (CPython Lib/heapq.py); comparisons do not raise *)
Section Heap.
Context {A : Type} (lt : A -> A -> bool).   (* [x < y] of the items *)

(** [heap[i] = x]; nothing is written outside of the list. *)
Fixpoint set_nth (l : list A) (i : nat) (x : A) : list A :=
  match l, i with
  | [], _ => []
  | _ :: l', O => x :: l'
  | y :: l', S i' => y :: set_nth l' i' x
  end.

(** heapq.py:207-219 [_siftdown(heap, 0, pos)], from line 211 on. The indices used are all within the list; the default
    of [nth] is not reached. [pos] halves in every turn, [fuel] is the number of turns allowed. *)
Fixpoint siftdown (fuel : nat) (heap : list A) (pos : nat) (newitem : A) : list A :=
  match fuel with
  | O => set_nth heap pos newitem
  | S fuel' =>
      if pos =? 0 then set_nth heap pos newitem
      else let parentpos := (pos - 1) / 2 in
           let parent := nth parentpos heap newitem in
           if lt newitem parent then siftdown fuel' (set_nth heap pos parent) parentpos newitem
           else set_nth heap pos newitem
  end.

(** heapq.py:260-278 [_siftup(heap, 0)], from line 265 on. [fuel]: the number of turns allowed; one less than the length is enough. *)
Fixpoint siftup (fuel : nat) (heap : list A) (pos : nat) (newitem : A) : list A :=
  let childpos := 2 * pos + 1 in
  match fuel with
  | O => heap
  | S fuel' =>
      if childpos <? length heap then
        let rightpos := childpos + 1 in
        let c := if (rightpos <? length heap) && negb (lt (nth childpos heap newitem) (nth rightpos heap newitem))
                 then rightpos else childpos in
        siftup fuel' (set_nth heap pos (nth c heap newitem)) c newitem
      else siftdown (S pos) (set_nth heap pos newitem) pos newitem
  end.

(** heapq.py:132-135 [heappush]. *)
Definition heappush (heap : list A) (item : A) : list A :=
  siftdown (S (length heap)) (heap ++ [item]) (length heap) item.

(** heapq.py:137-145 [heappop]; [None]: IndexError. *)
Definition heappop (heap : list A) : option (A * list A) :=
  match rev heap with
  | [] => None
  | lastelt :: r =>
      match rev r with
      | [] => Some (lastelt, [])
      | returnitem :: rest => Some (returnitem, siftup (S (length r)) (lastelt :: rest) 0 lastelt)
      end
  end.
End Heap.

(** * The queues *)
(** queue.py:172-192, 205-225, 228-245. *)
Inductive kind := KFifo | KPriority | KLifo.

Section Queues.
Context {A : Type} (lt : A -> A -> bool).

(** The attributes of a queue (queue.py:51-59, 177): [_getters] and [_putters] hold an Event and a Task. *)
Record queue := Queue {
  q_kind : kind; q_max : Z; q_items : list A; q_getters : list (nat * tid); q_putters : list (nat * tid) }.

(** [_put]: queue.py:179-180, 215-216, 235-236. *)
Definition put_item (k : kind) (l : list A) (a : A) : list A :=
  match k with KFifo | KLifo => l ++ [a] | KPriority => heappush lt l a end.
(** [_get]: queue.py:182-183, 218-219, 238-239; [None]: IndexError. *)
Definition get_item (k : kind) (l : list A) : option (A * list A) :=
  match k with
  | KFifo => match l with [] => None | a :: l' => Some (a, l') end
  | KLifo => match rev l with [] => None | a :: r => Some (a, rev r) end
  | KPriority => heappop lt l
  end.

(** queue.py:110-112 [empty], 114-124 [full]. *)
Definition empty (q : queue) : bool := (length (q_items q) =? 0)%nat.
Definition full (q : queue) : bool :=
  if (q_max q <=? 0)%Z then false else (q_max q <=? Z.of_nat (length (q_items q)))%Z.

(** queue.py:76-83 [_wakeup_next]: the remaining waiters, and the kernel after [event.set()]. *)
Fixpoint wakeup_next (k : st) (waiters : list (nat * tid)) : st * list (nat * tid) :=
  match waiters with
  | [] => (k, [])
  | (event, task) :: ws => if done k task then wakeup_next k ws else (event_set k event, ws)
  end.

(** What a Task suspended in [put] (line 135) or [get] (line 156) is doing. *)
Inductive pending := InPut (q : nat) (a : A) | InGet (q : nat).

(** History of the queues. *)
Inductive hist := HPut (q : nat) (a : A) | HGet (q : nat) (a : A).

(** The kernel, the queues, the suspended calls, the number of Events created by [put] and [get], the history (newest
    first; never read). *)
Record qst := QSt { x_k : st; x_q : nat -> queue; x_pend : tid -> option pending; x_ev : nat; x_hist : list hist }.

(** The n-th Event created by [put] and [get]: they have the odd numbers. *)
Definition private (n : nat) : nat := S (n + n).
(** Events created in queue.py are not known to user code. *)
Definition user_label (l : label) : bool :=
  match l with
  | LOp (OpSet e) | LOp (OpClear e) | LAwait (TEvent e) _ => Nat.even e
  | _ => true
  end.

(** What a queue operation returns, or raises (RuntimeError from [current_task()], task.py:721-729). *)
Inductive qres := QUser (r : res) | QNone | QItem (a : A) | QEmpty | QFull | QBlocked | QNoTask | QRaised (e : exc).

Definition set_pend (x : qst) (t : tid) (p : option pending) : qst :=
  QSt (x_k x) (x_q x) (upd (x_pend x) t p) (x_ev x) (x_hist x).

(** queue.py:138-146 [put_nowait]. *)
Definition put_nowait (x : qst) (n : nat) (a : A) : qst * qres :=
  let q := x_q x n in
  if full q then (x, QFull)
  else
    let items := put_item (q_kind q) (q_items q) a in
    let '(k, getters) := wakeup_next (x_k x) (q_getters q) in
    (QSt k (upd (x_q x) n (Queue (q_kind q) (q_max q) items getters (q_putters q))) (x_pend x) (x_ev x)
         (HPut n a :: x_hist x), QNone).

(** queue.py:159-169 [get_nowait]. *)
Definition get_nowait (x : qst) (n : nat) : option (qst * qres) :=
  let q := x_q x n in
  if empty q then Some (x, QEmpty)
  else match get_item (q_kind q) (q_items q) with
       | None => None
       | Some (a, items) =>
           let '(k, putters) := wakeup_next (x_k x) (q_putters q) in
           Some (QSt k (upd (x_q x) n (Queue (q_kind q) (q_max q) items (q_getters q) putters)) (x_pend x) (x_ev x)
                     (HGet n a :: x_hist x), QItem a)
       end.

(** queue.py:126-136 [put]: one turn of the loop, and the last line when it ends. [t] is the Task running it. *)
Definition put_turn (x : qst) (rest : list frame) (t : tid) (n : nat) (a : A) : qst * qres :=
  let q := x_q x n in
  if full q then
    match s_current (x_k x) with
    | None => (set_pend x t None, QNoTask)
    | Some u =>
        let event := private (x_ev x) in
        let q' := Queue (q_kind q) (q_max q) (q_items q) (q_getters q) (q_putters q ++ [(event, u)]) in
        (QSt (fst (await_trigger (x_k x) rest t (TEvent event) true)) (upd (x_q x) n q')
             (upd (x_pend x) t (Some (InPut n a))) (S (x_ev x)) (x_hist x), QBlocked)
    end
  else put_nowait (set_pend x t None) n a.

(** queue.py:148-157 [get]. *)
Definition get_turn (x : qst) (rest : list frame) (t : tid) (n : nat) : option (qst * qres) :=
  let q := x_q x n in
  if empty q then
    match s_current (x_k x) with
    | None => Some (set_pend x t None, QNoTask)
    | Some u =>
        let event := private (x_ev x) in
        let q' := Queue (q_kind q) (q_max q) (q_items q) (q_getters q ++ [(event, u)]) (q_putters q) in
        Some (QSt (fst (await_trigger (x_k x) rest t (TEvent event) true)) (upd (x_q x) n q')
             (upd (x_pend x) t (Some (InGet n))) (S (x_ev x)) (x_hist x), QBlocked)
    end
  else get_nowait (set_pend x t None) n.

(** Steps: of user code and the kernel; the four operations; the running Task goes on in the [put] or [get] in which it
    was suspended. *)
Inductive qlabel :=
| XUser (l : label)
| XPut (q : nat) (a : A) | XGet (q : nat)
| XPutNow (q : nat) (a : A) | XGetNow (q : nat)
| XGoOn.

(** Whether user code has control: the Task running (if any) is not inside [put] or [get]. *)
Definition user_control (x : qst) : bool :=
  match s_ctl (x_k x) with
  | FRun t :: _ => match x_pend x t with None => true | Some _ => false end
  | _ => true
  end.

(** [None]: not possible in this state. An exception thrown into the suspended call (a cancellation) leaves it. *)
Definition qstep (x : qst) (l : qlabel) : option (qst * qres) :=
  if s_halt (x_k x) then None
  else match l with
  | XUser kl =>
      if user_control x && user_label kl then
        match step (x_k x) kl with
        | Some (k, r) => Some (QSt k (x_q x) (x_pend x) (x_ev x) (x_hist x), QUser r)
        | None => None
        end
      else None
  | XPutNow n a => if user_control x then Some (put_nowait x n a) else None
  | XGetNow n => if user_control x then get_nowait x n else None
  | XPut n a =>
      match s_ctl (x_k x) with
      | FRun t :: rest => if user_control x then Some (put_turn x rest t n a) else None
      | _ => None
      end
  | XGet n =>
      match s_ctl (x_k x) with
      | FRun t :: rest => if user_control x then get_turn x rest t n else None
      | _ => None
      end
  | XGoOn =>
      match s_ctl (x_k x) with
      | FRun t :: rest =>
          match x_pend x t, k_exc (s_task (x_k x) t) with
          | None, _ => None
          | Some _, Some e => Some (set_pend x t None, QRaised e)
          | Some (InPut n a), None => Some (put_turn x rest t n a)
          | Some (InGet n), None => get_turn x rest t n
          end
      | _ => None
      end
  end.

(** The queues exist from the start, empty, of any kind and capacity. *)
Definition qinit (kinds : nat -> kind * Z) : qst :=
  QSt init (fun n => Queue (fst (kinds n)) (snd (kinds n)) [] [] []) (fun _ => None) 0 [].

Inductive qexec (P : qst -> qlabel -> Prop) : qst -> list qlabel -> qst -> Prop :=
| qexec_nil x : qexec P x [] x
| qexec_step x l x1 r ls x2 : P x l -> qstep x l = Some (x1, r) -> qexec P x1 ls x2 -> qexec P x (l :: ls) x2.
End Queues.
Arguments queue : clear implicits.
Arguments pending : clear implicits.
Arguments hist : clear implicits.
Arguments qst : clear implicits.
Arguments qres : clear implicits.
Arguments qlabel : clear implicits.

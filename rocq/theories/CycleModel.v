(** Model of ClockCycles (/repo/src/cocotb/_extended_awaitables.py:200-290), on top of the scheduler kernel.

    A Task inside [await ClockCycles(...)] is in the loop of [_wait] (282-286). User code is an adversary: any other Task, and this
    Task when it is not in the loop, performs any kernel step. The edge trigger of the signal is number [g] of the kernel; the
    trigger object of line 283 is the same for the same signal and edge type (_gpi_triggers.py:289-296, handle.py:1189-1194). *)
From Verif Require Import Base KernelModel.
From Coq Require Import Arith ZArith.

(** The kinds of edge: _gpi_triggers.py RisingEdge, FallingEdge, ValueChange. *)
Inductive edge := Rising | Falling | AnyEdge.
(** The third argument of the constructor, lines 240-247: an edge type, a bool, or None. *)
Inductive edge_arg := EType (e : edge) | EBool (b : bool) | ENone.
(** Lines 240-263: the selected edge; [None]: TypeError. *)
Definition edge_of (a : edge_arg) (rising : option bool) : option edge :=
  match a, rising with
  | (EType _ | EBool _), Some _ => None
  | EBool true, None => Some Rising
  | EBool false, None => Some Falling
  | EType e, None => Some e
  | ENone, Some b => Some (if b then Rising else Falling)
  | ENone, None => Some Rising
  end.

(** History: Task [t] began to wait for [n] edges of trigger [g] when the log of the kernel was [l]. *)
Inductive chist := HBegin (t : tid) (g : nat) (n : Z) (l : list obs).
(** The kernel; for Tasks in the loop, the trigger and how many turns of the loop remain after the present [await]; history. *)
Record cst := CSt { c_k : st; c_in : tid -> option (nat * nat); c_hist : list chist }.
(** What [await ClockCycles] does: goes on, returns, raises; or the coroutine is closed. *)
Inductive cres := ZUser (r : res) | ZBlocked | ZDone | ZRaised (e : exc) | ZErr (e : perr) | ZClosed.
Inductive clabel := CUser (l : label) | CCall (g : nat) (n : Z) | CGo.

(** User code has control unless the coroutine on top is in the loop (282-286). *)
Definition cuser (x : cst) : bool :=
  match s_ctl (c_k x) with
  | FRun t :: _ | FClose t :: _ => match c_in x t with None => true | Some _ => false end
  | _ => true
  end.

(** Lines 284-286 with [m] turns of the loop to go; [range] of a negative number is empty. *)
Definition cturn (x : cst) (rest : list frame) (t : tid) (g m : nat) : cst * cres :=
  match m with
  | O => (CSt (c_k x) (upd (c_in x) t None) (c_hist x), ZDone)
  | S m' =>
      match await_trigger (c_k x) rest t (TGpi g) true with
      | (k, RErr e) => (CSt k (upd (c_in x) t None) (c_hist x), ZErr e)
      | (k, _) => (CSt k (upd (c_in x) t (Some (g, m'))) (c_hist x), ZBlocked)
      end
  end.

(** Steps: of user code and the kernel; [await ClockCycles] is evaluated (282-283); the loop goes on (284-285). *)
Definition cstep (x : cst) (l : clabel) : option (cst * cres) :=
  match l with
  | CUser kl =>
      if cuser x then
        match step (c_k x) kl with
        | Some (k, r) => Some (CSt k (c_in x) (c_hist x), ZUser r)
        | None => None
        end
      else None
  | CCall g n =>
      if s_halt (c_k x) then None
      else match s_ctl (c_k x) with
      | FRun t :: rest =>
          match c_in x t with
          | None => Some (cturn (CSt (c_k x) (c_in x) (HBegin t g n (s_log (c_k x)) :: c_hist x)) rest t g (Z.to_nat n))
          | Some _ => None
          end
      | _ => None
      end
  | CGo =>
      if s_halt (c_k x) then None
      else match s_ctl (c_k x) with
      | FRun t :: rest =>
          match c_in x t with
          | Some (g, m) =>
              match k_exc (s_task (c_k x) t) with
              | None => Some (cturn x rest t g m)
              | Some e => Some (CSt (c_k x) (upd (c_in x) t None) (c_hist x), ZRaised e)
              end
          | None => None
          end
      | FClose t :: rest =>
          match c_in x t with
          | Some _ => Some (CSt (c_k x) (upd (c_in x) t None) (c_hist x), ZClosed)
          | None => None
          end
      | _ => None
      end
  end.

Definition cinit : cst := CSt init (fun _ => None) [].
(** Executions in which the simulator accepts its callbacks. *)
Inductive creach : list clabel -> cst -> Prop :=
| creach_nil : creach [] cinit
| creach_step ls x l x' r : creach ls x -> match l with CUser (LAwait _ ok) => ok = true | _ => True end ->
    cstep x l = Some (x', r) -> creach (ls ++ [l]) x'.

(** * Specification *)
(** How many times trigger [g] fired, in a log. *)
Definition fires (g : nat) (l : list obs) : nat :=
  length (filter (fun o => match o with OFire (TGpi h) => Nat.eqb h g | _ => false end) l).
(** The last time Task [t] began to wait. *)
Fixpoint last_begin (t : tid) (h : list chist) : option (nat * Z * list obs) :=
  match h with
  | [] => None
  | HBegin u g n l :: h' => if Nat.eqb u t then Some (g, n, l) else last_begin t h'
  end.

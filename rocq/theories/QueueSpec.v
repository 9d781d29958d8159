(** What is claimed about the queues, in terms of their contents and of the history of what went in and out. *)
From Verif Require Import Base KernelModel KernelProofs KernelHist KernelSpec QueueModel.
From Coq Require Import Arith ZArith Permutation.

(** The items put into (got from) queue [q], oldest first. *)
Fixpoint puts {A} (q : nat) (h : list (hist A)) : list A :=
  match h with
  | [] => []
  | HPut n a :: h' => puts q h' ++ (if Nat.eqb n q then [a] else [])
  | HGet _ _ :: h' => puts q h'
  end.
Fixpoint gets {A} (q : nat) (h : list (hist A)) : list A :=
  match h with
  | [] => []
  | HGet n a :: h' => gets q h' ++ (if Nat.eqb n q then [a] else [])
  | HPut _ _ :: h' => gets q h'
  end.

(** [stacked q h l]: the history of [q] is that of a stack which now holds [l], top first. *)
Inductive stacked {A} (q : nat) : list (hist A) -> list A -> Prop :=
| st_nil : stacked q [] []
| st_put a h l : stacked q h l -> stacked q (HPut q a :: h) (a :: l)
| st_get a h l : stacked q h (a :: l) -> stacked q (HGet q a :: h) l
| st_put_other n a h l : n <> q -> stacked q h l -> stacked q (HPut n a :: h) l
| st_get_other n a h l : n <> q -> stacked q h l -> stacked q (HGet n a :: h) l.

(** [served lt q h l]: every item got from [q] was, when it was got, in the queue and least in it; [l]: what is left. *)
Inductive served {A} (lt : A -> A -> bool) (q : nat) : list (hist A) -> list A -> Prop :=
| sv_nil : served lt q [] []
| sv_put a h l : served lt q h l -> served lt q (HPut q a :: h) (a :: l)
| sv_get a h l l' : served lt q h l -> Permutation l (a :: l') -> (forall b, In b l -> lt b a = false) ->
    served lt q (HGet q a :: h) l'
| sv_put_other n a h l : n <> q -> served lt q h l -> served lt q (HPut n a :: h) l
| sv_get_other n a h l : n <> q -> served lt q h l -> served lt q (HGet n a :: h) l.

(** All executions, of any user code. *)
Definition any {A} (x : qst A) (l : qlabel A) : Prop := True.
Definition qreach {A} (lt : A -> A -> bool) (kinds : nat -> kind * Z) (ls : list (qlabel A)) (x : qst A) : Prop :=
  qexec lt any (qinit kinds) ls x.

(** The operation which a step performs or goes on with. *)
Definition puts_now {A} (x : qst A) (l : qlabel A) (n : nat) (a : A) : Prop :=
  match l with
  | XPut m b | XPutNow m b => m = n /\ b = a
  | XGoOn => exists t rest, s_ctl (x_k x) = FRun t :: rest /\ x_pend x t = Some (InPut n a)
  | _ => False
  end.
Definition gets_now {A} (x : qst A) (l : qlabel A) (n : nat) : Prop :=
  match l with
  | XGet m | XGetNow m => m = n
  | XGoOn => exists t rest, s_ctl (x_k x) = FRun t :: rest /\ x_pend x t = Some (InGet n)
  | _ => False
  end.

(** For the examples. *)
Fixpoint qrun {A} (lt : A -> A -> bool) (x : qst A) (ls : list (qlabel A)) : option (qst A) :=
  match ls with
  | [] => Some x
  | l :: ls' => match qstep lt x l with Some (x1, _) => qrun lt x1 ls' | None => None end
  end.

(** * Wake-ups *)
(** Task [u] is inside [put] or [get]. *)
Definition inside {A} (x : qst A) (u : tid) (p : pending A) : Prop := x_pend x u = Some p /\ done (x_k x) u = false.
(** No Task is cancelled while inside [put] or [get], nor killed after it has been woken there; a Task which ignores a
    cancellation calls neither. *)
Definition undisturbed_q {A} (x : qst A) (l : qlabel A) : Prop :=
  match l with
  | XUser kl => sim_ok (x_k x) kl /\
      forall u p, inside x u p ->
        (forall m, kl <> LOp (OpCancel u m) /\ kl <> LCancelNow u m) /\
        (kl = LOp (OpKill u) -> state_of (x_k x) u <> Scheduled)
  | XPut _ _ | XGet _ => forall t rest, s_ctl (x_k x) = FRun t :: rest -> k_must (s_task (x_k x) t) = 0
  | _ => True
  end.
(** All ready Tasks have run. *)
Definition all_ran {A} (x : qst A) : Prop :=
  s_ctl (x_k x) = [] /\ forall e, In e (s_queue (x_k x)) -> q_cancelled e = true.

(** Weaker conditions, under which wake-ups do get lost: only Tasks which are blocked are cancelled; no Task is cancelled. *)
Definition cancels_blocked {A} (x : qst A) (l : qlabel A) : Prop :=
  match l with
  | XUser (LOp (OpCancel u _)) => state_of (x_k x) u = Pending
  | XUser (LOp (OpKill _)) | XUser (LCancelNow _ _) => False
  | _ => True
  end.
Definition no_cancels {A} (x : qst A) (l : qlabel A) : Prop :=
  match l with XUser (LOp (OpCancel _ _)) | XUser (LCancelNow _ _) => False | _ => True end.

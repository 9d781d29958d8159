(** What C81 and C82 are about, said without the helpers of the model: which trigger fired last, which calls need a
    phase in which values may still change, which signals have edges. *)
From Verif Require Import Base PhaseModel.
Open Scope Z_scope.

Definition fires (t : gtrig) (e : pevent) : Prop := e = PFire t.
Definition quiet (e : pevent) : Prop := forall t, e <> PFire t.
(** [t] is the last trigger which fired in [l]. *)
Definition last_fired (l : list pevent) (t : gtrig) : Prop := exists a b, l = a ++ PFire t :: b /\ Forall quiet b.
(** What is not allowed once values are final: waiting for more of the same time step and changing a value. *)
Definition restricted (e : pevent) : Prop :=
  (exists cb g, e = PAwait GReadOnly cb g) \/ (exists cb g, e = PAwait GReadWrite cb g) \/ (exists c d cb g, e = PWrite c d cb g).
(** The simulator gives no callback when asked. *)
Definition unwilling (e : pevent) : Prop :=
  (exists t cb, e = PAwait t cb false) \/ (exists c d cb, e = PWrite c d cb false).
(** The ReadWrite phase is asked for. *)
Definition asks_readwrite (e : pevent) : Prop :=
  (exists cb, e = PAwait GReadWrite cb true) \/ (exists cb, e = PWrite false true cb true).

(** A signal whose edge of the class can be waited for. *)
Definition suitable (c : eclass) (k : hclass) (len : Z) (const : bool) : Prop :=
  const = false /\
  match c with
  | CRising | CFalling => k = HLogic \/ (k = HLogicArray /\ len = 1)
  | CChange | CEdge => k = HLogic \/ k = HLogicArray \/ k = HOtherValue
  end.
(** The class of the signal is right, whatever the simulator says of its length and whether it is constant. *)
Definition right_class (c : eclass) (k : hclass) : Prop :=
  k = HLogic \/ k = HLogicArray \/ (k = HOtherValue /\ (c = CChange \/ c = CEdge)).
(** The same edge of the same signal. *)
Definition same_edge (q q' : erequest) : Prop := q_sig q = q_sig q' /\ q_class q = q_class q'.
Definition type_of (c : eclass) (t : etype) : Prop :=
  (c = CRising /\ t = RISING) \/ (c = CFalling /\ t = FALLING) \/ ((c = CChange \/ c = CEdge) /\ t = VALUE_CHANGE).

(** What the reports of a simulator are, and how two lists of them are related. *)
From Verif Require Import Base ReportModel.
From Coq Require Import PeanoNat.

(** The reports of one process. *)
Definition of (p : process) (l : list (process * data)) : list data :=
  map snd (filter (fun m => Nat.eqb (fst m) p) l).
(** The elements of [a], in the same order, are among those of [b]. *)
Inductive sub {A} : list A -> list A -> Prop :=
| sub_nil : sub [] []
| sub_skip x a b : sub a b -> sub a (x :: b)
| sub_take x a b : sub a b -> sub (x :: a) (x :: b).
(** [c] consists of [a] and [b], each in its order. *)
Inductive shuffle {A} : list A -> list A -> list A -> Prop :=
| shuffle_nil : shuffle [] [] []
| shuffle_left x a b c : shuffle a b c -> shuffle (x :: a) b (x :: c)
| shuffle_right x a b c : shuffle a b c -> shuffle a (x :: b) (x :: c).
(** No error of the main process takes a complete report away: accepting, reading and decoding succeed, and reporting an
    exception does not raise another one. Everything else may fail. *)
Definition lossless (l : list label) : Prop :=
  ~ In (LAcceptError true) l /\ ~ In (LRecv false) l /\ ~ In (LNotified false) l.
(** Closing a connection after a complete [send] succeeds. *)
Definition clean (l : list label) : Prop := forall p, ~ In (LClose p false) l.

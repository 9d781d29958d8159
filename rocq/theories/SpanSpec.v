(** What the times in reports should be, independently of the model. *)
From Verif Require Import Base PytestModel SpanModel.
From Coq Require Import Sorted QArith.
Open Scope Z_scope.

Definition is_hook (e : event) : Prop := match e with EvHook _ _ => True | _ => False end.
Definition is_report (e : event) : Prop := match e with EvReport _ _ _ => True | _ => False end.

(** Simulated time does not run backwards. *)
Definition forward (l : list (Z * label)) : Prop := StronglySorted Z.le (map fst l).

(** Each begins where the one before ended. *)
Fixpoint tiles (from : Z) (l : list span) : Prop :=
  match l with
  | [] => True
  | x :: l => sp_start x = from /\ tiles (sp_stop x) l
  end.
Definition total (l : list span) : Z := fold_right Z.add 0 (map sp_duration l).

(** docs/source/junit_reference.rst:145: "ratio of wall time to simulation time". *)
Definition documented_ratio (wall sim : Q) (f : float) : Prop := exists q, f = Num q /\ (q * sim == wall)%Q.

(** What is expected of starting and stopping clocks. *)
From Verif Require Import Base KernelModel DriverModel.
From Coq Require Import Arith.

(** The Task of the clock, from the history: the last [start] if no [stop] came after it. *)
Fixpoint started (c : nat) (h : list dhist) : option tid :=
  match h with
  | [] => None
  | HStart c' t _ :: h' => if Nat.eqb c' c then Some t else started c h'
  | HStop c' _ :: h' => if Nat.eqb c' c then None else started c h'
  | _ :: h' => started c h'
  end.
(** The values which driver [t] wrote, the oldest last. *)
Fixpoint writes (t : tid) (h : list dhist) : list bool :=
  match h with
  | [] => []
  | HWrite u v :: h' => if Nat.eqb u t then v :: writes t h' else writes t h'
  | _ :: h' => writes t h'
  end.
(** [n] values, alternating. *)
Fixpoint alternating (v : bool) (n : nat) : list bool :=
  match n with O => [] | S n' => v :: alternating (negb v) n' end.
(** Nothing is left to run: the simulator has control. *)
Definition at_rest (x : dst) : Prop := s_ctl (d_k x) = [] /\ s_queue (d_k x) = [].
(** [kill()] ended the Task (task.py:487-490). *)
Definition was_killed (x : dst) (t : tid) : Prop := k_outcome (s_task (d_k x) t) = Some (OVal None).
(** Which implementation drives Task [t]. *)
Definition is_py (x : dst) (t : tid) : Prop := exists c p hi lo, d_drv x t = Some (Driver c (CPy p hi lo)).
Definition is_gpi (x : dst) (t : tid) : Prop := exists c b e, d_drv x t = Some (Driver c (CGpi b e)).

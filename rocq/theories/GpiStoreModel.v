(** Handles of the interface: the store which makes them unique and the search over the implementations,
    /repo/src/cocotb/share/lib/gpi/GpiCommon.cpp:26-66, 125-127, 335-562. *)
From Verif Require Import Base TextModel.
Open Scope nat_scope.

(** A handle (class GpiObjHdl, gpi_priv.hpp): its implementation, [m_fullname], and the object of the simulator it stands for. *)
Record hdl := Hdl { h_impl : nat; h_name : pystr; h_raw : Z }.
(** [s_map]: handle_map; [s_mem]: the handles which exist (numbers are not used again, so that a freed one is recognised); [s_iters]:
    the iterators which exist, with their implementation; [s_bad]: uses of something freed. *)
Record st := St { s_map : list (pystr * nat); s_mem : nat -> option hdl; s_next : nat; s_iters : nat -> option nat; s_bad : list nat }.
Definition upd {A} (f : nat -> A) (n : nat) (a : A) : nat -> A := fun m => if Nat.eqb m n then a else f m.
Definition init : st := St [] (fun _ => None) 0 (fun _ => None) [].

(** [new]. *)
Definition alloc (s : st) (h : hdl) : st * nat :=
  (St (s_map s) (upd (s_mem s) (s_next s) (Some h)) (S (s_next s)) (s_iters s) (s_bad s), s_next s).
(** [delete]. *)
Definition free (s : st) (n : nat) : st :=
  match s_mem s n with
  | Some _ => St (s_map s) (upd (s_mem s) n None) (s_next s) (s_iters s) (s_bad s)
  | None => St (s_map s) (s_mem s) (s_next s) (s_iters s) (n :: s_bad s)
  end.
(** GpiCommon.cpp:28-46 [check_and_store] of a new handle [h]. The order of the map does not matter. *)
Definition check_and_store (s : st) (h : hdl) : st * nat :=
  let '(s, n) := alloc s h in
  match dict_get (s_map s) (h_name h) with
  | None => (St ((h_name h, n) :: s_map s) (s_mem s) (s_next s) (s_iters s) (s_bad s), n)
  | Some old => (free s n, old)
  end.
(** GpiCommon.cpp:50-58 [clear], called by [gpi_finalize] (126). *)
Definition clear (s : st) : st :=
  let s' := fold_left (fun s e => free s (snd e)) (s_map s) s in
  St [] (s_mem s') (s_next s') (s_iters s') (s_bad s').

Section Impls.
(** [registered_impls] (C96: each once). *)
Variable impls : list nat.

(** What an implementation answers to one question: nothing, or a new handle with this full name and object. *)
Definition answers := nat -> option (pystr * Z).
Definition ask (a : answers) (i : nat) : option hdl := match a i with Some (n, r) => Some (Hdl i n r) | None => None end.
Definition skipped (skip : option nat) (i : nat) : bool := match skip with Some k => Nat.eqb k i | None => false end.
(** GpiCommon.cpp:345-352, 376-405, 419-430: the loop over [registered_impls] up to the first which has an answer; [pass]: the ones left out. *)
Fixpoint first_of (pass : nat -> bool) (a : answers) (l : list nat) : option hdl :=
  match l with
  | [] => None
  | i :: l' => if pass i then first_of pass a l' else match ask a i with Some h => Some h | None => first_of pass a l' end
  end.
Definition stored (s : st) (h : option hdl) : st * option nat :=
  match h with None => (s, None) | Some h => let '(s, n) := check_and_store s h in (s, Some n) end.
(** GpiCommon.cpp:335-360 [gpi_get_root_handle]. *)
Definition get_root (s : st) (a : answers) : st * option nat := stored s (first_of (fun _ => false) a impls).
(** GpiCommon.cpp:362-408 [gpi_get_child_by_name]; [p]: the implementation of the parent. *)
Definition child_by_name (s : st) (p : nat) (skip : option nat) (a : answers) : st * option nat :=
  match (if skipped skip p then None else ask a p) with
  | Some h => stored s (Some h)
  | None => stored s (first_of (fun i => skipped skip i || Nat.eqb i p) a impls)
  end.
(** GpiCommon.cpp:410-438 [gpi_get_child_from_handle]. *)
Definition child_from_handle (s : st) (skip : option nat) (a : answers) : st * option nat := stored s (first_of (skipped skip) a impls).
(** A call with a parent: the parent must exist. *)
Definition with_parent (s : st) (parent : nat) (f : nat -> st * option nat) : st * option nat :=
  match s_mem s parent with
  | Some h => f (h_impl h)
  | None => (St (s_map s) (s_mem s) (s_next s) (s_iters s) (parent :: s_bad s), None)
  end.
(** GpiCommon.cpp:440-466 [gpi_get_handle_by_name] with GPI_AUTO. *)
Definition by_name (s : st) (parent : nat) (a : answers) : st * option nat := with_parent s parent (fun p => child_by_name s p None a).
(** GpiCommon.cpp:452-464, the same with GPI_NATIVE: the new handle is not put in the store. *)
Definition by_name_native (s : st) (parent : nat) (a : answers) : st * option nat :=
  with_parent s parent (fun p => match ask a p with Some h => let '(s, n) := alloc s h in (s, Some n) | None => (s, None) end).
(** GpiCommon.cpp:467-490 [gpi_get_handle_by_index]. *)
Definition by_index (s : st) (parent : nat) (a : answers) : st * option nat := with_parent s parent (fun p => stored s (ask a p)).

(** What [next_handle] of an iterator gives (gpi_priv.hpp, GpiIterator::Status); no more: END. *)
Inductive found := Native (n : pystr) (r : Z) | NativeNoName | NotNative (a : answers) | NotNativeNoName (a : answers).
(** GpiCommon.cpp:519-562 [gpi_next]; [i]: the implementation of the iterator, [p]: that of its parent. Also what is left. *)
Fixpoint next_from (s : st) (i p : nat) (l : list found) : st * option nat * list found :=
  match l with
  | [] => (s, None, [])
  | Native n r :: l' => (stored s (Some (Hdl i n r)), l')
  | NativeNoName :: l' => next_from s i p l'
  | NotNative a :: l' => match child_by_name s p (Some i) a with (s, Some n) => (s, Some n, l') | (s, None) => next_from s i p l' end
  | NotNativeNoName a :: l' => match child_from_handle s (Some i) a with (s, Some n) => (s, Some n, l') | (s, None) => next_from s i p l' end
  end.
(** The iterator [t] must exist, and its parent; at the end it is deleted (GpiCommon.cpp:556-559). *)
Definition next (s : st) (t parent : nat) (l : list found) : st * option nat * list found :=
  match s_iters s t, s_mem s parent with
  | Some i, Some h =>
      match next_from s i (h_impl h) l with
      | (s, None, l') => (St (s_map s) (s_mem s) (s_next s) (upd (s_iters s) t None) (s_bad s), None, l')
      | r => r
      end
  | _, _ => (St (s_map s) (s_mem s) (s_next s) (s_iters s) (t :: s_bad s), None, l)
  end.

(** One call. [OIter]: GpiCommon.cpp:492-517 [gpi_iterate], the iterator [t] is new and made by implementation [i]. *)
Inductive op := ORoot (a : answers) | OName (parent : nat) (a : answers) | ONative (parent : nat) (a : answers) | OIndex (parent : nat) (a : answers)
| OIter (t i : nat) | ONext (t parent : nat) (l : list found) | OClear.
Definition step (s : st) (o : op) : st * option nat :=
  match o with
  | ORoot a => get_root s a
  | OName p a => by_name s p a
  | ONative p a => by_name_native s p a
  | OIndex p a => by_index s p a
  | OIter t i => (St (s_map s) (s_mem s) (s_next s) (upd (s_iters s) t (Some i)) (s_bad s), None)
  | ONext t p l => fst (next s t p l)
  | OClear => (clear s, None)
  end.
Fixpoint run (s : st) (l : list op) : st := match l with [] => s | o :: l' => run (fst (step s o)) l' end.
End Impls.

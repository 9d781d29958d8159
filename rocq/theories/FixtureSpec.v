(** What ordinary (synchronous) fixtures do: a fixture is set up when it is asked for. *)
From Verif Require Import Base FixtureModel.
From Coq Require Import PeanoNat.

Record seq := Seq { q_cache : id -> option (value + fexn); q_runs : nat; q_hist : list event }.
Definition seq_start : seq := Seq (fun _ => None) 0 [].
Fixpoint seq_values (c : id -> option (value + fexn)) (l : list fixture) : list value :=
  match l with
  | [] => []
  | f :: l' => match c (fid f) with Some (inl v) => v :: seq_values c l' | _ => seq_values c l' end
  end.
Section Bodies.
Context (body : nat -> value + fexn).
Definition seq_run (f : fixture) (s : seq) : seq * option fexn :=
  let o := body (q_runs s) in
  (Seq (upd (q_cache s) (fid f) (Some o)) (S (q_runs s)) (q_hist s ++ [ERun (fid f) (seq_values (q_cache s) (fargs f))]),
   match o with inl _ => None | inr e => Some e end).
Fixpoint seq_execute (f : fixture) (s : seq) {struct f} : seq * option fexn :=
  match f with
  | Fix i _ args =>
      match q_cache s i with
      | Some (inl _) => (s, None)
      | Some (inr e) => (s, Some e)
      | None =>
          let '(s1, x) := (fix go l s := match l with
                                         | [] => (s, None)
                                         | f' :: l' => let '(s', x) := seq_execute f' s in
                                                       match x with None => go l' s' | Some e => (s', Some e) end
                                         end) args s in
          match x with None => seq_run f s1 | Some e => (s1, Some e) end
      end
  end.
Fixpoint seq_all (l : list fixture) (s : seq) : seq * option fexn :=
  match l with
  | [] => (s, None)
  | f :: l' => let '(s1, x) := seq_execute f s in match x with None => seq_all l' s1 | Some e => (s1, Some e) end
  end.
Definition seq_test (t : test) (s : seq) : seq :=
  let '(s1, x) := seq_all (t_uses t ++ t_args t) s in
  Seq (fun i => if t_finish t i then None else q_cache s1 i) (q_runs s1)
    (q_hist s1 ++ [match x with Some e => EFailed e | None => ECall (seq_values (q_cache s1) (t_args t)) end]).
Definition seq_session (ts : list test) (s : seq) : seq := fold_left (fun s t => seq_test t s) ts s.
(** A test whose setup fails leaves none of its fixtures behind. *)
Definition fails (t : test) (s : seq) : Prop := snd (seq_all (t_uses t ++ t_args t) s) <> None.
End Bodies.

(** All fixtures of a tree. *)
Fixpoint ids (f : fixture) : list id := match f with Fix i _ args => i :: flat_map ids args end.
Fixpoint asynchronous (f : fixture) : Prop :=
  match f with Fix _ a args => a = true /\ (fix go l := match l with [] => True | x :: l' => asynchronous x /\ go l' end) args end.
(** No fixture asks for itself. *)
Fixpoint acyclic (f : fixture) : Prop :=
  match f with
  | Fix i _ args => ~ In i (flat_map ids args) /\ (fix go l := match l with [] => True | x :: l' => acyclic x /\ go l' end) args
  end.
Definition test_ids (t : test) : list id := flat_map ids (t_uses t ++ t_args t).
Definition good_test (t : test) : Prop := forall f, In f (t_uses t ++ t_args t) -> asynchronous f /\ acyclic f.

(** After a test whose setup failed, its fixtures are finished. *)
Fixpoint tidy (body : nat -> value + fexn) (ts : list test) (s : seq) : Prop :=
  match ts with
  | [] => True
  | t :: ts' => (fails body t s -> forall i, In i (test_ids t) -> t_finish t i = true) /\ tidy body ts' (seq_test body t s)
  end.
(** Bodies which return objects or raise exceptions of the user, without failing child tasks. *)
Definition ordinary (async : nat -> outcome) (body : nat -> value + fexn) : Prop :=
  forall k, match body k with
            | inl v => async k = Returns v /\ (forall t, v <> VManager t)
            | inr e => async k = Raises e /\ exists n, e = XUser n
            end.

(** Property theorems C81 (phases of a time step) and C82 (edge triggers and singletons). *)
From Verif Require Import Base PhaseModel PhaseSpec PhaseProofs.
Open Scope Z_scope.

(** * C81 *)
(** Waiting for ReadOnly or ReadWrite and changing a value raise if the last trigger which fired is ReadOnly, and a
    RuntimeError has no other reason, but a simulator which does not give the callback. *)
Theorem C81_refused trust l s r i e a :
  prun trust phases0 l = Some (s, r) -> nth_error l i = Some e -> nth_error r i = Some a ->
  (last_fired (firstn i l) GReadOnly -> restricted e -> a = PRaised PRuntimeError) /\
  (a = PRaised PRuntimeError -> (last_fired (firstn i l) GReadOnly /\ restricted e) \/ unwilling e).
Proof. exact (refused_pf trust l s r i e a). Qed.
Print Assumptions C81_refused.
(** Between two ReadOnly phases another trigger fires; nothing is written from a ReadOnly phase to the next trigger; if
    that is ReadWrite it was asked for before the ReadOnly phase. *)
Theorem C81_apart trust a mid t s r :
  prun trust phases0 (a ++ PFire GReadOnly :: mid ++ [PFire t]) = Some (s, r) -> Forall quiet mid ->
  t <> GReadOnly /\
  (forall i, nth_error r i = Some (PDone true) -> (i < List.length a)%nat) /\
  (t = GReadWrite -> exists x e y, a = x ++ e :: y /\ asks_readwrite e /\ Forall (fun e => ~ fires GReadWrite e) y).
Proof. exact (apart_pf trust a mid t s r). Qed.
Print Assumptions C81_apart.
Definition ex_phases : list pevent :=
  [PAwait GReadOnly 1 true; PWrite false true 2 true; PWrite false true 3 true] ++ PFire GReadOnly ::
  [PAwait GReadOnly 4 true; PWrite false false 5 true; PAwait GNextTimeStep 6 true; PAwait GReadWrite 7 true] ++ [PFire GReadWrite].
Example C81_ex :
  option_map snd (prun false phases0 ex_phases) =
    Some [PDone false; PDone false; PDone false; PFired [1%nat];
          PRaised PRuntimeError; PRaised PRuntimeError; PDone false; PRaised PRuntimeError; PFired [2%nat]] /\
  last_fired (firstn 5 ex_phases) GReadOnly /\ restricted (PWrite false false 5 true) /\
  option_map snd (prun false phases0 [PAwait (GTimer 1) 1 true; PAwait (GTimer 1) 2 true; PCancel (GTimer 1) 1; PFire (GTimer 1);
                                      PWrite false false 3 true; PAwait GReadOnly 4 true]) =
    Some [PDone false; PDone false; PDone false; PFired [2%nat]; PDone true; PDone false].
Proof.
  split; [vm_compute; reflexivity|]. split; [|split; [right; right; eauto 10|vm_compute; reflexivity]].
  exists [PAwait GReadOnly 1 true; PWrite false true 2 true; PWrite false true 3 true], [PAwait GReadOnly 4 true].
  split; [reflexivity|]. constructor; [intros t H; discriminate H|constructor].
Qed.
(** Before any trigger has fired nothing is refused (the simulator is not in the ReadOnly phase at the start). *)
Theorem C81_start trust l s r i e a : prun trust phases0 l = Some (s, r) -> Forall quiet l ->
  nth_error l i = Some e -> nth_error r i = Some a -> ~ unwilling e -> a <> PRaised PRuntimeError.
Proof.
  intros R Q L A U H. destruct (proj2 (refused_pf _ _ _ _ _ _ _ R L A) H) as [[(x & y & E & _) _]|X]; [|exact (U X)].
  assert (I : In (PFire GReadOnly) l).
  { rewrite <- (firstn_skipn i l). apply in_or_app. left. rewrite E. apply in_or_app. right. left. reflexivity. }
  exact (proj1 (Forall_forall _ _) Q _ I GReadOnly eq_refl).
Qed.
Print Assumptions C81_start.

(** * C82 *)
(** Two uses give the same trigger if and only if they are about the same edge of the same signal. *)
Theorem C82_same kind l s r i j q q' o o' :
  erun kind edges0 l = (s, r) -> nth_error l i = Some q -> nth_error l j = Some q' ->
  nth_error r i = Some (Ok o) -> nth_error r j = Some (Ok o') -> (o = o' <-> same_edge q q').
Proof. exact (same_pf kind l s r i j q q' o o'). Qed.
Print Assumptions C82_same.
(** A trigger is given if the signal is suitable now, or if the same trigger was given before; otherwise the constructors
    raise TypeError. *)
Theorem C82_accepts kind l s r i q a :
  erun kind edges0 l = (s, r) -> nth_error l i = Some q -> nth_error r i = Some a ->
  ((exists o, a = Ok o) <->
   suitable (q_class q) (kind (q_sig q)) (q_len q) (q_const q) \/
   (exists j q' o, (j < i)%nat /\ nth_error l j = Some q' /\ nth_error r j = Some (Ok o) /\ same_edge q' q)) /\
  (forall e, a = Err e -> q_property q = false -> e = TypeError).
Proof. exact (accepts_pf kind l s r i q a). Qed.
Print Assumptions C82_accepts.
(** If the simulator always says the same about a signal, exactly the suitable signals have triggers. *)
Theorem C82_stable kind len const l s r i q a : erun kind edges0 l = (s, r) ->
  Forall (fun q => q_len q = len (q_sig q) /\ q_const q = const (q_sig q)) l ->
  nth_error l i = Some q -> nth_error r i = Some a ->
  ((exists o, a = Ok o) <-> suitable (q_class q) (kind (q_sig q)) (len (q_sig q)) (const (q_sig q))).
Proof. exact (stable_pf kind len const l s r i q a). Qed.
Print Assumptions C82_stable.
(** The trigger asks the simulator for the edge which was named, of the signal which was named. *)
Theorem C82_armed kind l s r i q o : erun kind edges0 l = (s, r) -> nth_error l i = Some q -> nth_error r i = Some (Ok o) ->
  exists t, type_of (q_class q) t /\ prime_edge s o = Some (q_sig q, t).
Proof. exact (armed_pf kind l s r i q o). Qed.
Print Assumptions C82_armed.
Definition ex_kind (n : nat) : hclass := match n with 1%nat => HLogic | 2%nat => HLogicArray | 3%nat => HOtherValue | _ => HArray end.
Example C82_ex :
  snd (erun ex_kind edges0
    [ERequest false CRising 1 1 false; ERequest true CRising 1 1 false; ERequest false CFalling 1 1 false;
     ERequest false CRising 2 8 false; ERequest false CChange 2 8 false; ERequest false CEdge 2 8 false;
     ERequest false CRising 3 1 false; ERequest false CChange 3 1 true; ERequest false CChange 4 1 false;
     ERequest false CRising 1 1 true; ERequest false CRising 2 1 false]) =
  [Ok 0%nat; Ok 0%nat; Ok 1%nat; Err TypeError; Ok 2%nat; Ok 3%nat; Err TypeError; Err TypeError; Err TypeError; Ok 0%nat; Ok 4%nat] /\
  prime_edge (fst (erun ex_kind edges0 [ERequest false CRising 1 1 false; ERequest false CEdge 2 8 false])) 1 = Some (2%nat, VALUE_CHANGE).
Proof. split; vm_compute; reflexivity. Qed.
(** [singleton]: there is one object, [orig_init] is called at most once, and once a construction has succeeded all later
    ones give the same object, whatever their arguments. *)
Theorem C82_singleton l s r : constructs (Single None []) l = (s, r) ->
  (forall i j o o', nth_error r i = Some (Ok o) -> nth_error r j = Some (Ok o') -> o = o') /\
  (List.length (g_inits s) <= 1)%nat /\
  (forall i o, nth_error r i = Some (Ok o) ->
     g_inits s = [o] /\ forall j, (i <= j < List.length l)%nat -> nth_error r j = Some (Ok o)).
Proof. exact (singleton_pf l s r). Qed.
Print Assumptions C82_singleton.
(** It is false that a construction which succeeds gives an initialised object: if [orig_init] raised the first time, the
    object stays and is given out later, although its initialisation never ended. *)
Theorem C82_singleton_init_refuted : exists l s r o, constructs (Single None []) l = (s, r) /\
  nth_error r 1 = Some (Ok o) /\ nth_error r 0 = Some (Err ValueError) /\ g_inits s = [o] /\
  nth_error l 0 = Some (Ok o, Some ValueError).
Proof.
  exists [(Ok 5%nat, Some ValueError); (Ok 6%nat, None)], (Single (Some 5%nat) [5%nat]), [Err ValueError; Ok 5%nat], 5%nat.
  repeat split.
Qed.
Print Assumptions C82_singleton_init_refuted.
(** The arguments are looked at only until the first success: [ReadOnly(1)] raises, and returns once there is a ReadOnly. *)
Example C82_singleton_ex :
  snd (constructs (Single None []) [(Err TypeError, None); (Ok 1%nat, None); (Err TypeError, None)]) = [Err TypeError; Ok 1%nat; Ok 1%nat].
Proof. reflexivity. Qed.

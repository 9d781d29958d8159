(** Property theorems C07: Logic and Bit. *)
From Verif Require Import Base LogicModel LogicSpec LogicProofs.
Open Scope Z_scope.

(** The operators are the three-valued-with-U connectives, for Logic and Bit operands in any mix;
    the result is a Bit exactly if both operands are. *)
Theorem C07_logic_tables a b : is_logic a -> is_logic b ->
  logic_and a b = Ok (join_cls (fst a) (fst b), spec_and (snd a) (snd b)) /\
  logic_or a b = Ok (join_cls (fst a) (fst b), spec_or (snd a) (snd b)) /\
  logic_xor a b = Ok (join_cls (fst a) (fst b), spec_xor (snd a) (snd b)) /\
  logic_invert a = Ok (fst a, spec_not (snd a)).
Proof. exact (tables_pf a b). Qed.
Print Assumptions C07_logic_tables.

Theorem C07_logic_comm a b : is_logic a -> is_logic b ->
  logic_and a b = logic_and b a /\ logic_or a b = logic_or b a /\ logic_xor a b = logic_xor b a.
Proof. exact (comm_pf a b). Qed.
Print Assumptions C07_logic_comm.

Theorem C07_logic_assoc a b c : is_logic a -> is_logic b -> is_logic c ->
  forall op, In op [logic_and; logic_or; logic_xor] ->
  bind (op a b) (fun x => op x c) = bind (op b c) (fun y => op a y) /\
  is_ok (bind (op a b) (fun x => op x c)) = true.
Proof. exact (assoc_pf a b c). Qed.
Print Assumptions C07_logic_assoc.

Theorem C07_logic_de_morgan a b : is_logic a -> is_logic b ->
  bind (logic_and a b) logic_invert =
    bind (logic_invert a) (fun x => bind (logic_invert b) (fun y => logic_or x y)) /\
  bind (logic_or a b) logic_invert =
    bind (logic_invert a) (fun x => bind (logic_invert b) (fun y => logic_and x y)).
Proof. exact (demorgan_pf a b). Qed.
Print Assumptions C07_logic_de_morgan.

Theorem C07_logic_annihilators a : is_logic a ->
  logic_and a (CLogic, L0) = Ok (CLogic, L0) /\ logic_or a (CLogic, L1) = Ok (CLogic, L1).
Proof. exact (annihilator_pf a). Qed.
Print Assumptions C07_logic_annihilators.

Theorem C07_logic_boolean a b x y : is_logic a -> is_logic b ->
  bool_of (snd a) = Some x -> bool_of (snd b) = Some y ->
  exists c, logic_and a b = Ok (c, of_bool (x && y)) /\ logic_or a b = Ok (c, of_bool (x || y)) /\
            logic_xor a b = Ok (c, of_bool (xorb x y)) /\
            logic_invert a = Ok (fst a, of_bool (negb x)).
Proof. exact (boolean_pf a b x y). Qed.
Print Assumptions C07_logic_boolean.

(** If the inputs later turn out to be [a'], [b'], a definite result is confirmed. *)
Theorem C07_logic_sound a b a' b' : is_logic a -> is_logic b -> is_logic a' -> is_logic b' ->
  refines (snd a') (snd a) -> refines (snd b') (snd b) ->
  forall op, In op [logic_and; logic_or; logic_xor] ->
  exists r r', op a b = Ok r /\ op a' b' = Ok r' /\ refines (snd r') (snd r).
Proof. exact (sound_pf a b a' b'). Qed.
Print Assumptions C07_logic_sound.

(** Each value is recovered from its character (either case), from itself and, for 0 and 1,
    from the int; a Bit can be built from no other value. *)
Theorem C07_logic_literals l c : in_values c l = true ->
  logic_new c (LvStr [logic_chr l]) = Ok l /\ logic_new c (LvLogic l) = Ok l /\
  logic_new c (LvStr (lower [logic_chr l])) = Ok l /\
  (forall b, bool_of l = Some b -> strong [l] = true -> logic_new c (LvInt (Z.b2z b)) = Ok l).
Proof. exact (literal_pf l c). Qed.
Print Assumptions C07_logic_literals.

Theorem C07_logic_eq a b s z :
  (logic_eq a (LvLogic b) = true <-> a = b) /\
  (logic_eq a (LvStr s) = true <-> logic_new CLogic (LvStr s) = Ok a) /\
  (logic_eq a (LvInt z) = true <->
     bool_of a = Some (Z.eqb z 1) /\ strong [a] = true /\ (z = 0 \/ z = 1)).
Proof. exact (eq_pf a b s z). Qed.
Print Assumptions C07_logic_eq.

Example C07_ex : is_logic (CLogic, LX) /\ is_logic (CBit, L1) /\ ~ is_logic (CBit, LX) /\
  refines L0 LX /\ bool_of LH = Some true /\
  logic_and (CBit, L1) (CLogic, LX) = Ok (CLogic, LX).
Proof. repeat split; try reflexivity. discriminate. Qed.

(** Property theorems C01-C03: cocotb.types.Range. *)
From Coq Require Import String.
From Verif Require Import Base RangeModel RangeSpec RangeProofs.
Open Scope Z_scope.

(** * C01 *)

(** Iterating a Range yields exactly the labels from left to right. *)
Theorem C01_range_labels l s d r : lower s = dir_name d ->
  exists R, mk_range l (DStr s) (Some r) = Ok R /\
    range_iter R = span l d r /\
    range_reversed R = rev (span l d r) /\
    range_len R = Z.of_nat (length (span l d r)) /\
    left_of R = l /\ right_of R = r /\ direction_of R = Ok (dir_name d).
Proof. exact (range_labels_pf l s d r). Qed.
Print Assumptions C01_range_labels.

(** What the label list of the specification is: distinct labels, the interval, unit steps. *)
Theorem C01_span_facts l d r :
  NoDup (span l d r) /\
  (forall v, In v (span l d r) <-> match d with To => l <= v <= r | Downto => r <= v <= l end) /\
  (span l d r <> [] -> hd_error (span l d r) = Some l /\ last (span l d r) l = r) /\
  (forall p v w, nth_error (span l d r) p = Some v -> nth_error (span l d r) (S p) = Some w ->
     w = match d with To => v + 1 | Downto => v - 1 end).
Proof. exact (span_facts_pf l d r). Qed.
Print Assumptions C01_span_facts.

Theorem C01_range_getitem R i : is_range R ->
  range_getitem R i =
  match py_pos (range_len R) i with
  | Some p => match nth_error (range_iter R) p with Some v => Ok v | None => Err IndexError end
  | None => Err IndexError
  end.
Proof. exact (range_getitem_pf R i). Qed.
Print Assumptions C01_range_getitem.

Theorem C01_range_getitem_total R i : is_range R -> - range_len R <= i < range_len R ->
  exists v, range_getitem R i = Ok v.
Proof. exact (range_getitem_total_pf R i). Qed.
Print Assumptions C01_range_getitem_total.

Theorem C01_range_contains R v : is_range R ->
  (range_contains R v = true <-> In v (range_iter R)).
Proof. exact (range_contains_pf R v). Qed.
Print Assumptions C01_range_contains.

Theorem C01_range_index R v : is_range R ->
  match range_index R v None None with
  | Ok i => 0 <= i < range_len R /\ range_getitem R i = Ok v
  | Err e => e = ValueError /\ range_contains R v = false
  end.
Proof. exact (range_index_pf R v). Qed.
Print Assumptions C01_range_index.

Theorem C01_range_index_getitem R i v : is_range R -> 0 <= i ->
  range_getitem R i = Ok v -> range_index R v None None = Ok i.
Proof. exact (range_index_getitem_pf R i v). Qed.
Print Assumptions C01_range_index_getitem.

Example C01_ex : exists R, is_range R /\ mk_range 7 (DStr (lit "DownTo")) (Some (-2)) = Ok R /\
  range_len R = 10 /\ range_getitem R (-1) = Ok (-2) /\ range_index R 5 None None = Ok 2 /\
  range_contains R 8 = false.
Proof.
  exists (PyRange 7 (-3) (-1)). split; [|repeat split; reflexivity].
  exists 7, (DStr (lit "DownTo")), (Some (-2)). reflexivity.
Qed.

(** * C02 *)

(** A direction left out is inferred, and such a range is never null. *)
Theorem C02_range_inferred l r :
  exists R, mk_range l (DInt r) None = Ok R /\ mk_range l DNone (Some r) = Ok R /\
    left_of R = l /\ right_of R = r /\ 0 < range_len R /\
    direction_of R = Ok (dir_name (if l <=? r then To else Downto)).
Proof. exact (range_inferred_pf l r). Qed.
Print Assumptions C02_range_inferred.

Theorem C02_range_bad_direction l s r :
  (forall d, lower s <> dir_name d) -> mk_range l (DStr s) (Some r) = Err ValueError.
Proof. exact (range_bad_direction_pf l s r). Qed.
Print Assumptions C02_range_bad_direction.

Example C02_bad_direction_ex : forall d, lower (lit "up") <> dir_name d.
Proof. destruct d; discriminate. Qed.

Theorem C02_from_range r :
  match from_range r with
  | Ok R => is_range R /\ to_range R = r
  | Err e => e = ValueError /\ r_step r <> 1 /\ r_step r <> -1
  end.
Proof. exact (range_conversion_pf r). Qed.
Print Assumptions C02_from_range.

Theorem C02_range_roundtrip R : is_range R ->
  from_range (to_range R) = Ok R /\ range_copy R = Ok R.
Proof. exact (range_roundtrip_pf R). Qed.
Print Assumptions C02_range_roundtrip.

(** Unit-step slices select the labels a Python list slice would select, and keep the direction. *)
Theorem C02_range_slice R a b : is_range R ->
  exists R', range_slice R (PySlice a b None) = Ok R' /\
             range_slice R (PySlice a b (Some 1)) = Ok R' /\ is_range R' /\
             direction_of R' = direction_of R /\
             range_iter R' = slice_list (range_iter R) a b.
Proof. exact (range_slice_pf R a b). Qed.
Print Assumptions C02_range_slice.

(** Equality is equality of label sequences (hence an equivalence). *)
Theorem C02_range_eq A B : is_range A -> is_range B ->
  (range_eqb A B = true <-> range_iter A = range_iter B).
Proof. exact (range_eq_pf A B). Qed.
Print Assumptions C02_range_eq.

(** Equal ranges need not agree in direction or bounds. *)
Theorem C02_range_eq_bounds_refuted :
  exists A B, is_range A /\ is_range B /\ range_eqb A B = true /\
    direction_of A <> direction_of B /\
    exists C D, is_range C /\ is_range D /\ range_eqb C D = true /\
      left_of C <> left_of D /\ right_of C <> right_of D.
Proof.
  exists (PyRange 3 4 1), (PyRange 3 2 (-1)).
  split; [exists 3, (DStr (lit "to")), (Some 3); reflexivity|].
  split; [exists 3, (DStr (lit "downto")), (Some 3); reflexivity|].
  split; [reflexivity|]. split; [discriminate|].
  exists (PyRange 1 1 1), (PyRange 9 6 1).
  split; [exists 1, (DStr (lit "to")), (Some 0); reflexivity|].
  split; [exists 9, (DStr (lit "to")), (Some 5); reflexivity|].
  repeat split; discriminate.
Qed.
Print Assumptions C02_range_eq_bounds_refuted.

Example C02_ex : exists R R', is_range R /\ range_slice R (PySlice (Some 1) (Some (-1)) None) = Ok R' /\
  range_iter R = [5; 4; 3; 2] /\ range_iter R' = [4; 3].
Proof.
  exists (PyRange 5 1 (-1)), (PyRange 4 2 (-1)).
  split; [exists 5, (DInt 2), None; reflexivity|]. repeat split; reflexivity.
Qed.

(** * C03 *)

(** Full statement (false, see the refutation): a missing start is the first position and a
    missing stop is the end. Proved when both bounds are given and not negative. *)
Theorem C03_range_index_window_partial R v a b : is_range R -> 0 <= a -> 0 <= b ->
  (forall k, range_index R v (Some a) (Some b) = Ok k <->
     a <= k < b /\ range_index R v None None = Ok k) /\
  ((forall k, range_index R v None None = Ok k -> ~ a <= k < b) ->
   range_index R v (Some a) (Some b) = Err ValueError).
Proof. exact (range_index_window_pf R v a b). Qed.
Print Assumptions C03_range_index_window_partial.

Example C03_ex : let R := PyRange 10 21 1 in is_range R /\
  range_index R 15 (Some 3) (Some 9) = Ok 5 /\ range_index R 15 (Some 6) (Some 9) = Err ValueError.
Proof. split; [exists 10, (DInt 20), None; reflexivity|]. split; reflexivity. Qed.

(** Range(7, 'downto', 0): 0 is at position 7, yet index(0, 0) fails;
    Range(10, 'to', 20): 12 is at position 2 < 5, yet index(12, None, 5) fails. *)
Theorem C03_range_index_default_refuted :
  (exists R v, is_range R /\ range_index R v None None = Ok 7 /\
               range_index R v (Some 0) None = Err ValueError) /\
  (exists R v, is_range R /\ range_index R v None None = Ok 2 /\
               range_index R v None (Some 5) = Err ValueError).
Proof.
  split.
  - exists (PyRange 7 (-1) (-1)), 0. split; [exists 7, (DInt 0), None; reflexivity|]. split; reflexivity.
  - exists (PyRange 10 21 1), 12. split; [exists 10, (DInt 20), None; reflexivity|]. split; reflexivity.
Qed.
Print Assumptions C03_range_index_default_refuted.

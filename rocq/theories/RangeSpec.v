(** Specification vocabulary for Range and Array properties: directions, and the
    explicit list of labels counted one by one. Nothing here mentions the model of
    Python's [range]. *)
From Coq Require Import String.
From Verif Require Import Base.
Open Scope Z_scope.

Inductive dir := To | Downto.
Definition dir_name (d : dir) : pystr :=
  match d with To => lit "to" | Downto => lit "downto" end.

Fixpoint count_up (l : Z) (n : nat) : list Z :=
  match n with O => [] | S n' => l :: count_up (l + 1) n' end.
Fixpoint count_down (l : Z) (n : nat) : list Z :=
  match n with O => [] | S n' => l :: count_down (l - 1) n' end.

(** All labels from [l] to [r] inclusive in direction [d]; empty for null ranges. *)
Definition span (l : Z) (d : dir) (r : Z) : list Z :=
  match d with
  | To => count_up l (Z.to_nat (r - l + 1))
  | Downto => count_down l (Z.to_nat (l - r + 1))
  end.

(** Python's reading of an index into a sequence of length [n]. *)
Definition py_pos (n i : Z) : option nat :=
  if (0 <=? i) && (i <? n) then Some (Z.to_nat i)
  else if (- n <=? i) && (i <? 0) then Some (Z.to_nat (n + i))
  else None.

(** Python's unit-step slice of a list: bounds clamped into [0..n], negatives from the end. *)
Definition clamp (n : Z) (x : option Z) (dflt : Z) : Z :=
  match x with
  | None => dflt
  | Some v => Z.min n (Z.max 0 (if v <? 0 then v + n else v))
  end.
Definition slice_list {A} (l : list A) (a b : option Z) : list A :=
  let n := Z.of_nat (length l) in
  let s := Z.to_nat (clamp n a 0) in
  let e := Z.to_nat (clamp n b n) in
  firstn (e - s) (skipn s l).

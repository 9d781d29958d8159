(** Specification vocabulary for Array: an array is the association of the labels of its range,
    in range order, with its elements. *)
From Verif Require Import Base.
Open Scope Z_scope.

(** First binding of label [i] in a list of (label, element) pairs. *)
Fixpoint lookup {A} (i : Z) (l : list (Z * A)) : option A :=
  match l with
  | [] => None
  | (k, x) :: rest => if Z.eqb k i then Some x else lookup i rest
  end.

(** Position of the first occurrence of a label. *)
Fixpoint pos_of (i : Z) (l : list Z) : option nat :=
  match l with
  | [] => None
  | k :: rest => if Z.eqb k i then Some O else option_map S (pos_of i rest)
  end.

Definition to_option {A} (r : result A) : option A :=
  match r with Ok x => Some x | Err _ => None end.

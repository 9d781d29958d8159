(** Specification vocabulary for Logic and LogicArray. Independent of the code's tables. *)
From Verif Require Import Base LogicModel.
Open Scope Z_scope.

(** The Boolean a value stands for, if it is definite. *)
Definition bool_of (l : logic) : option bool :=
  match l with L0 | LL => Some false | L1 | LH => Some true | _ => None end.

(** Strong value of a Boolean. *)
Definition of_bool (b : bool) : logic := if b then L1 else L0.

(** Conjunction: a definite 0 wins, then U, then X; otherwise both are 1. *)
Definition spec_and (a b : logic) : logic :=
  match bool_of a, bool_of b with
  | Some x, Some y => of_bool (x && y)
  | Some false, None | None, Some false => L0
  | _, _ => match a, b with LU, _ | _, LU => LU | _, _ => LX end
  end.
Definition spec_or (a b : logic) : logic :=
  match bool_of a, bool_of b with
  | Some x, Some y => of_bool (x || y)
  | Some true, None | None, Some true => L1
  | _, _ => match a, b with LU, _ | _, LU => LU | _, _ => LX end
  end.
Definition spec_xor (a b : logic) : logic :=
  match bool_of a, bool_of b with
  | Some x, Some y => of_bool (xorb x y)
  | _, _ => match a, b with LU, _ | _, LU => LU | _, _ => LX end
  end.
Definition spec_not (a : logic) : logic :=
  match bool_of a with
  | Some x => of_bool (negb x)
  | None => match a with LU => LU | _ => LX end
  end.

(** [a'] is what [a] may turn out to be: a definite value stays, an indefinite one may become
    anything. *)
Definition refines (a' a : logic) : Prop :=
  match bool_of a with Some b => bool_of a' = Some b | None => True end.

(** Unsigned value of a list of definite values, leftmost most significant. *)
Definition bitval (l : logic) : Z := match bool_of l with Some true => 1 | _ => 0 end.
Definition unsigned (v : list logic) : Z := fold_left (fun acc l => 2 * acc + bitval l) v 0.
Definition definite (v : list logic) : bool :=
  forallb (fun l => match bool_of l with Some _ => true | None => false end) v.
Definition strong (v : list logic) : bool :=
  forallb (fun l => match l with L0 | L1 => true | _ => false end) v.
(** The [n] low bits of an integer, most significant first. *)
Fixpoint bits (n : nat) (z : Z) : list logic :=
  match n with O => [] | S n' => of_bool (Z.testbit z (Z.of_nat n')) :: bits n' z end.
(** Two's complement reading. *)
Definition signed (v : list logic) : Z :=
  match v with
  | l :: _ => match bool_of l with
              | Some true => unsigned v - 2 ^ Z.of_nat (length v)
              | _ => unsigned v
              end
  | [] => 0
  end.

(** Model of cocotb.types.Array: /repo/src/cocotb/types/_array.py and the mixin methods of
    /repo/src/cocotb/types/_abstract_array.py.
    Not modelled: the [_warn_indexing] warnings (_array.py:215-220, 223-231), and the
    TypeErrors for arguments of foreign types (the Coq types exclude those arguments). *)
From Coq Require Import String.
From Verif Require Import Base RangeModel.
Open Scope Z_scope.

Section ArrayModel.
Context {A : Type}.

(** An Array object: the list [_value] and the [_range] (_array.py:140). *)
Record array := Array { a_value : list A; a_range : Range }.

(** The [range] argument of [Array.__init__]: None, an int, or a Range. *)
Inductive rangearg := RNone | RInt (n : Z) | RRange (r : Range).

Definition py_len {B} (l : list B) : Z := Z.of_nat (length l).

(** _array.py:142-160 [Array.__init__]. *)
Definition mk_array (value : list A) (rg : rangearg) : result array :=
  match rg with
  | RNone =>
      bind (mk_range 0 (DStr (lit "to")) (Some (py_len value - 1))) (fun r => Ok (Array value r))
  | RInt n =>
      bind (mk_range 0 (DStr (lit "to")) (Some (n - 1))) (fun r =>
      if py_len value =? range_len r then Ok (Array value r) else Err ValueError)
  | RRange r =>
      if py_len value =? range_len r then Ok (Array value r) else Err ValueError
  end.

(** Python list subscript with an int. *)
Definition list_get (l : list A) (i : Z) : result A :=
  let i' := if i <? 0 then i + py_len l else i in
  if (i' <? 0) then Err IndexError
  else match nth_error l (Z.to_nat i') with Some x => Ok x | None => Err IndexError end.

(** Python list item assignment, in bounds; out of bounds raises and changes nothing. *)
Fixpoint list_update (l : list A) (i : nat) (x : A) : list A :=
  match l, i with
  | [], _ => []
  | _ :: t, O => x :: t
  | y :: t, S i' => y :: list_update t i' x
  end.
Definition list_set (l : list A) (i : Z) (x : A) : result (list A) :=
  let i' := if i <? 0 then i + py_len l else i in
  if (i' <? 0) || (py_len l <=? i') then Err IndexError
  else Ok (list_update l (Z.to_nat i') x).

(** _array.py:282-286 [_translate_index]. *)
Definition translate_index (a : array) (i : Z) : result Z :=
  match range_index (a_range a) i None None with
  | Ok p => Ok p
  | Err ValueError => Err IndexError
  | Err e => Err e
  end.

(** _array.py:213-222 [__getitem__] with an int. *)
Definition array_get (a : array) (i : Z) : result A :=
  bind (translate_index a i) (fun p => list_get (a_value a) p).

(** The slice preamble shared by get and set: _array.py:232-241 and 258-267.
    Returns (start, stop, start_i, stop_i). [has_step] says whether a step was given. *)
Definition slice_bounds (a : array) (start stop : option Z) (has_step : bool)
  : result (Z * Z * Z * Z) :=
  let s := match start with Some x => x | None => left_of (a_range a) end in
  let e := match stop with Some x => x | None => right_of (a_range a) end in
  if has_step then Err IndexError
  else
    bind (translate_index a s) (fun si =>
    bind (translate_index a e) (fun ei =>
    if ei <? si then Err IndexError else Ok (s, e, si, ei))).

(** Python [l[i:j]] for 0 <= i, j (the only use here). *)
Definition list_slice (l : list A) (i j : Z) : list A :=
  firstn (Z.to_nat (j - i)) (skipn (Z.to_nat i) l).

(** _array.py:223-244 [__getitem__] with a slice. *)
Definition array_getslice (a : array) (start stop : option Z) (has_step : bool) : result array :=
  bind (slice_bounds a start stop has_step) (fun '(s, e, si, ei) =>
  let value := list_slice (a_value a) si (ei + 1) in
  bind (direction_of (a_range a)) (fun d =>
  bind (mk_range s (DStr d) (Some e)) (fun r =>
  mk_array value (RRange r)))).

(** _array.py:254-256 [__setitem__] with an int: the array afterwards, and the exception if any. *)
Definition array_set (a : array) (i : Z) (x : A) : array * option exn :=
  match translate_index a i with
  | Err e => (a, Some e)
  | Ok p =>
      match list_set (a_value a) p x with
      | Err e => (a, Some e)
      | Ok l => (Array l (a_range a), None)
      end
  end.

(** _array.py:257-273 [__setitem__] with a slice. Python's [l[i:j] = value] for 0 <= i <= j
    replaces the segment. *)
Definition array_setslice (a : array) (start stop : option Z) (has_step : bool) (value : list A)
  : array * option exn :=
  match slice_bounds a start stop has_step with
  | Err e => (a, Some e)
  | Ok (s, e, si, ei) =>
      if negb (py_len value =? ei - si + 1) then (a, Some ValueError)
      else (Array (firstn (Z.to_nat si) (a_value a) ++ value ++
                   skipn (Z.to_nat (ei + 1)) (a_value a)) (a_range a), None)
  end.

(** _array.py:177-186 the [range] setter; _abstract_array.py:66-67 [__len__] is the range's. *)
Definition array_set_range (a : array) (r : Range) : array * option exn :=
  if negb (range_len r =? range_len (a_range a)) then (a, Some ValueError)
  else (Array (a_value a) r, None).

(** _array.py:188-192 [__iter__], [__reversed__]. *)
Definition array_iter (a : array) : list A := a_value a.
Definition array_reversed (a : array) : list A := rev (a_value a).

(** Methods which compare elements; [eqb] is the element type's [==]. *)
Variable eqb : A -> A -> bool.

(** Python list equality. *)
Fixpoint list_eqb (l m : list A) : bool :=
  match l, m with
  | [], [] => true
  | x :: l', y :: m' => eqb x y && list_eqb l' m'
  | _, _ => false
  end.

(** _array.py:194-195 [__contains__]. *)
Definition array_contains (a : array) (x : A) : bool := existsb (fun y => eqb y x) (a_value a).

(** _array.py:197-205 [__eq__] with an Array (lists and tuples compare the same way). *)
Definition array_eqb (a b : array) : bool := list_eqb (a_value a) (a_value b).

(** _abstract_array.py:89-115 [index]: scan the labels start..stop inclusive. *)
Fixpoint index_loop (a : array) (x : A) (labels : list Z) : result Z :=
  match labels with
  | [] => Err ValueError
  | i :: rest =>
      match array_get a i with
      | Err e => Err e
      | Ok y => if eqb y x then Ok i else index_loop a x rest
      end
  end.
Definition array_index (a : array) (x : A) (start stop : option Z) : result Z :=
  let s := match start with Some v => v | None => left_of (a_range a) end in
  let e := match stop with Some v => v | None => right_of (a_range a) end in
  bind (direction_of (a_range a)) (fun d =>
  bind (mk_range s (DStr d) (Some e)) (fun r => index_loop a x (range_iter r))).

(** _abstract_array.py:117-130 [count]. *)
Definition array_count (a : array) (x : A) : Z :=
  fold_left (fun n y => if eqb y x then n + 1 else n) (array_iter a) 0.

End ArrayModel.
Arguments array A : clear implicits.

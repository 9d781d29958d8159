(** Model of cocotb.types.Range: /repo/src/cocotb/types/_range.py.
    The Python builtin [range] it delegates to is written out after CPython's
    Objects/rangeobject.c and Objects/sliceobject.c (trusted reading). *)
From Coq Require Import String.
From Verif Require Import Base.
Open Scope Z_scope.

(** The builtin [range(start, stop, step)] (step is never 0). *)
Record pyrange := PyRange { r_start : Z; r_stop : Z; r_step : Z }.

(** CPython compute_range_length. Used by _range.py:130-131 ([__len__]). *)
Definition pr_len (r : pyrange) : Z :=
  if 0 <? r_step r then
    if r_start r <? r_stop r
    then (r_stop r - 1 - r_start r) / r_step r + 1 else 0
  else
    if r_stop r <? r_start r
    then (r_start r - 1 - r_stop r) / (- r_step r) + 1 else 0.

(** CPython compute_item. *)
Definition pr_item (r : pyrange) (i : Z) : Z := r_start r + i * r_step r.

(** CPython compute_range_item: [range[i]] with a negative [i] counted from the end. *)
Definition pr_getitem (r : pyrange) (i : Z) : result Z :=
  let n := pr_len r in
  let i' := if i <? 0 then i + n else i in
  if (i' <? 0) || (n <=? i') then Err IndexError else Ok (pr_item r i').

(** CPython range_contains_long: bounds check, then divisibility by the step. *)
Definition pr_contains (r : pyrange) (v : Z) : bool :=
  if 0 <? r_step r then
    (r_start r <=? v) && (v <? r_stop r) && ((v - r_start r) mod r_step r =? 0)
  else
    (v <=? r_start r) && (r_stop r <? v) && ((v - r_start r) mod r_step r =? 0).

(** CPython range_index. *)
Definition pr_index (r : pyrange) (v : Z) : result Z :=
  if pr_contains r v then Ok ((v - r_start r) / r_step r) else Err ValueError.

(** CPython range_equals. *)
Definition pr_eqb (a b : pyrange) : bool :=
  if negb (pr_len a =? pr_len b) then false
  else if pr_len a =? 0 then true
  else if negb (r_start a =? r_start b) then false
  else if pr_len a =? 1 then true
  else r_step a =? r_step b.

(** CPython longrangeiter: the successive values [start, start+step, ...]. *)
Fixpoint pr_iter_from (cur step : Z) (n : nat) : list Z :=
  match n with O => [] | S n' => cur :: pr_iter_from (cur + step) step n' end.
Definition pr_iter (r : pyrange) : list Z :=
  pr_iter_from (r_start r) (r_step r) (Z.to_nat (pr_len r)).

(** CPython range_reverse: start at the last element, negate the step. *)
Definition pr_reversed (r : pyrange) : list Z :=
  pr_iter_from (r_start r + (pr_len r - 1) * r_step r) (- r_step r) (Z.to_nat (pr_len r)).

(** A Python [slice] object with integer or None fields. *)
Record pyslice := PySlice { s_start : option Z; s_stop : option Z; s_step : option Z }.

(** CPython _PySlice_GetLongIndices: clip a slice against a length. *)
Definition slice_clip (step n lower upper : Z) (x : option Z) (dflt : Z) : Z :=
  match x with
  | None => dflt
  | Some v =>
      if v <? 0 then Z.max (v + n) lower else Z.min v upper
  end.
Definition slice_indices (s : pyslice) (n : Z) : result (Z * Z * Z) :=
  let step := match s_step s with None => 1 | Some k => k end in
  if step =? 0 then Err ValueError
  else
    let neg := step <? 0 in
    let lower := if neg then -1 else 0 in
    let upper := if neg then n - 1 else n in
    let start := slice_clip step n lower upper (s_start s) (if neg then upper else lower) in
    let stop := slice_clip step n lower upper (s_stop s) (if neg then lower else upper) in
    Ok (start, stop, step).

(** CPython compute_slice: [range[slice]]. *)
Definition pr_slice (r : pyrange) (s : pyslice) : result pyrange :=
  bind (slice_indices s (pr_len r)) (fun '(start, stop, step) =>
  Ok (PyRange (pr_item r start) (pr_item r stop) (r_step r * step))).

(** _range.py:186-189 [_guess_step]. *)
Definition guess_step (left right : Z) : Z := if left <=? right then 1 else -1.

(** _range.py:192-199 [_direction_to_step]. [lower] is ASCII only; no other code point
    lower-cases to one of the letters of "to"/"downto". *)
Definition direction_to_step (d : pystr) : result Z :=
  let d := lower d in
  if pystr_eqb d (lit "to") then Ok 1
  else if pystr_eqb d (lit "downto") then Ok (-1)
  else Err ValueError.

(** _range.py:202-207 [_step_to_direction]. *)
Definition step_to_direction (step : Z) : result pystr :=
  if step =? 1 then Ok (lit "to")
  else if step =? -1 then Ok (lit "downto")
  else Err ValueError.

(** The [direction] argument of [Range.__init__]: an int, a str or None. *)
Inductive dirarg := DInt (z : Z) | DStr (s : pystr) | DNone.

(** A [Range] object holds one builtin range (_range.py:100). *)
Definition Range := pyrange.

(** _range.py:80-100 [Range.__init__]. *)
Definition mk_range (left : Z) (direction : dirarg) (right : option Z) : result Range :=
  match direction, right with
  | DInt d, None =>
      let step := guess_step left d in Ok (PyRange left (d + step) step)
  | DStr s, Some r =>
      bind (direction_to_step s) (fun step => Ok (PyRange left (r + step) step))
  | DNone, Some r =>
      let step := guess_step left r in Ok (PyRange left (r + step) step)
  | _, _ => Err TypeError
  end.

(** _range.py:102-109 [Range.from_range]. *)
Definition from_range (r : pyrange) : result Range :=
  bind (step_to_direction (r_step r)) (fun d =>
  mk_range (r_start r) (DStr d) (Some (r_stop r - r_step r))).

(** _range.py:111-113 [Range.to_range]. *)
Definition to_range (r : Range) : pyrange := r.

(** _range.py:115-128 [left], [direction], [right]. *)
Definition left_of (r : Range) : Z := r_start r.
Definition direction_of (r : Range) : result pystr := step_to_direction (r_step r).
Definition right_of (r : Range) : Z := r_stop r - r_step r.

(** _range.py:130-131. *)
Definition range_len (r : Range) : Z := pr_len r.

(** _range.py:139-146 [__getitem__], integer and slice cases. *)
Definition range_getitem (r : Range) (i : Z) : result Z := pr_getitem r i.
Definition range_slice (r : Range) (s : pyslice) : result Range :=
  bind (pr_slice r s) from_range.

(** _range.py:148-149, 151-152, 154-155. *)
Definition range_contains (r : Range) (v : Z) : bool := pr_contains r v.
Definition range_iter (r : Range) : list Z := pr_iter r.
Definition range_reversed (r : Range) : list Z := pr_reversed r.

(** _range.py:157-160 [__eq__] (both operands are Ranges). *)
Definition range_eqb (a b : Range) : bool := pr_eqb a b.

(** collections.abc.Sequence.index: scan positions from [start] while they are below [stop]
    and in bounds. [fuel] is the number of in-bounds positions left, so running out of it
    is exactly the IndexError which ends the Python loop. *)
Fixpoint seq_index_loop (get : Z -> result Z) (v : Z) (i stop : Z) (fuel : nat) : result Z :=
  match fuel with
  | O => Err ValueError
  | S fuel' =>
      if i <? stop then
        match get i with
        | Err _ => Err ValueError
        | Ok x => if x =? v then Ok i else seq_index_loop get v (i + 1) stop fuel'
        end
      else Err ValueError
  end.
Definition seq_index (r : Range) (v start stop : Z) : result Z :=
  let n := range_len r in
  let start := if start <? 0 then Z.max (n + start) 0 else start in
  let stop := if stop <? 0 then stop + n else stop in
  seq_index_loop (range_getitem r) v start stop (Z.to_nat (n - start)).

(** _range.py:168-177 [Range.index]. *)
Definition range_index (r : Range) (v : Z) (start stop : option Z) : result Z :=
  match start, stop with
  | None, None => pr_index r v
  | _, _ =>
      let start := match start with None => r_start r | Some s => s end in
      let stop := match stop with None => r_stop r | Some s => s end in
      seq_index r v start stop
  end.

(** _range.py:179-180, 182-183 [__copy__], [__deepcopy__]. *)
Definition range_copy (r : Range) : result Range := from_range r.

(** Model of cocotb.types.Logic and Bit (/repo/src/cocotb/types/_logic.py) and of the resolvers
    (/repo/src/cocotb/types/_resolve.py).
    Not modelled: the singleton cache (objects are values here; [is] is not observed),
    [__repr__], [__hash__]. *)
From Coq Require Import String.
From Verif Require Import Base.
Open Scope Z_scope.

(** _logic.py:22-30: the nine values, in the order of their internal codes 0..8. *)
Inductive logic := LU | LX | L0 | L1 | LZ | LW | LL | LH | LD.

Definition logic_repr (l : logic) : nat :=
  match l with
  | LU => 0 | LX => 1 | L0 => 2 | L1 => 3 | LZ => 4 | LW => 5 | LL => 6 | LH => 7 | LD => 8
  end%nat.

Definition logic_eqb (a b : logic) : bool := Nat.eqb (logic_repr a) (logic_repr b).

(** What can be passed to [Logic(...)]: a str, an int (or bool), a Logic/Bit, something else. *)
Inductive litval := LvStr (s : pystr) | LvInt (z : Z) | LvLogic (l : logic) | LvOther.

(** _logic.py:32-59 [_literal_repr]: the string keys. *)
Definition literal_table : list (pystr * logic) :=
  [ (lit "U", LU); (lit "u", LU); (lit "X", LX); (lit "x", LX); (lit "0", L0); (lit "1", L1);
    (lit "Z", LZ); (lit "z", LZ); (lit "W", LW); (lit "w", LW); (lit "L", LL); (lit "l", LL);
    (lit "H", LH); (lit "h", LH); (lit "-", LD) ]%string.

Fixpoint assoc_str {A} (k : pystr) (t : list (pystr * A)) : option A :=
  match t with
  | [] => None
  | (k', v) :: t' => if pystr_eqb k' k then Some v else assoc_str k t'
  end.

(** _logic.py:132-138: the literal lookup; int keys are 0 and 1. *)
Definition literal_repr (v : litval) : result logic :=
  match v with
  | LvLogic l => Ok l
  | LvStr s => match assoc_str s literal_table with Some l => Ok l | None => Err ValueError end
  | LvInt z => if z =? 0 then Ok L0 else if z =? 1 then Ok L1 else Err ValueError
  | LvOther => Err TypeError
  end.

(** The two classes; _logic.py:112 and 338 [_values]. *)
Inductive lcls := CLogic | CBit.
Definition in_values (c : lcls) (l : logic) : bool :=
  match c, l with
  | CLogic, _ => true
  | CBit, (L0 | L1) => true
  | CBit, _ => false
  end.

(** _logic.py:126-147 [__new__]. *)
Definition logic_new (c : lcls) (v : litval) : result logic :=
  bind (literal_repr v) (fun l => if in_values c l then Ok l else Err ValueError).

(** _logic.py:152-167, 175-190, 198-213: the operator tables, row = self, column = other. *)
Definition and_table : list pystr := map lit
  [ "UU0UUU0UU"; "UX0XXX0XX"; "000000000"; "UX01XX01X"; "UX0XXX0XX";
    "UX0XXX0XX"; "000000000"; "UX01XX01X"; "UX0XXX0XX" ]%string.
Definition or_table : list pystr := map lit
  [ "UUU1UUU1U"; "UXX1XXX1X"; "UX01XX01X"; "111111111"; "UXX1XXX1X";
    "UXX1XXX1X"; "UX01XX01X"; "111111111"; "UXX1XXX1X" ]%string.
Definition xor_table : list pystr := map lit
  [ "UUUUUUUUU"; "UXXXXXXXX"; "UX01XX01X"; "UX10XX10X"; "UXXXXXXXX";
    "UXXXXXXXX"; "UX01XX01X"; "UX10XX10X"; "UXXXXXXXX" ]%string.
(** _logic.py:219 [__invert__]. *)
Definition not_table : pystr := lit "UX10XX10X".

(** table[self._repr][other._repr], a one-character str. *)
Definition table_at (row : pystr) (l : logic) : litval :=
  match nth_error row (logic_repr l) with Some c => LvStr [c] | None => LvOther end.
Definition table2_at (t : list pystr) (a b : logic) : litval :=
  match nth_error t (logic_repr a) with Some row => table_at row b | None => LvOther end.

(** A Logic or Bit object: class and value. *)
Definition lobj := (lcls * logic)%type.

(** isinstance(x, cls): Bit is a subclass of Logic. *)
Definition isinstance (c d : lcls) : bool :=
  match c, d with CBit, _ => true | CLogic, CLogic => true | CLogic, CBit => false end.

(** One [__and__]-like method call: None stands for NotImplemented. _logic.py:149-167. *)
Definition op_method (t : list pystr) (self other : lobj) : option (result lobj) :=
  if isinstance (fst other) (fst self) then
    Some (bind (logic_new (fst self) (table2_at t (snd self) (snd other)))
               (fun l => Ok (fst self, l)))
  else None.

(** Python's [a op b] with _logic.py:169-170 [__rand__] (returns [self & other]) as fallback. *)
Definition logic_binop (t : list pystr) (a b : lobj) : result lobj :=
  match op_method t a b with
  | Some r => r
  | None => match op_method t b a with Some r => r | None => Err TypeError end
  end.
Definition logic_and := logic_binop and_table.
Definition logic_or := logic_binop or_table.
Definition logic_xor := logic_binop xor_table.
(** _logic.py:218-219. *)
Definition logic_invert (a : lobj) : result lobj :=
  bind (logic_new (fst a) (table_at not_table (snd a))) (fun l => Ok (fst a, l)).

(** _logic.py:221-231 [__eq__] with a Logic, str or int; other types compare False by Python's
    fallback to identity. *)
Definition logic_eq (a : logic) (v : litval) : bool :=
  match v with
  | LvLogic b => logic_eqb a b
  | LvStr _ | LvInt _ =>
      match logic_new CLogic v with Ok b => logic_eqb a b | Err _ => false end
  | LvOther => false
  end.

(** _logic.py:238-239 [__str__]: the character of each value. *)
Definition logic_chars : pystr := lit "UX01ZWLH-".
Definition logic_chr (l : logic) : Z := nth (logic_repr l) logic_chars 0.

(** _logic.py:305-311 [is_resolvable]. *)
Definition is_resolvable (l : logic) : bool :=
  match l with L0 | L1 | LL | LH => true | _ => false end.

(** _resolve.py:45-48: resolver names. *)
Inductive resolver := RError | RWeak | RZeros | ROnes | RRandom.

(** _resolve.py:38-43: the translation tables, by character; str.translate keeps characters
    without entry. *)
Fixpoint translate_char (from to_ : pystr) (c : Z) : Z :=
  match from, to_ with
  | f :: from', t :: to' => if c =? f then t else translate_char from' to' c
  | _, _ => c
  end.
Definition resolve_table (r : resolver) : Z -> Z :=
  match r with
  | RWeak => translate_char (lit "LHW") (lit "01X")
  | RZeros => translate_char (lit "LHUXZW-") (lit "0100000")
  | ROnes => translate_char (lit "LHUXZW-") (lit "0111111")
  | RError | RRandom => fun c => c
  end%string.
(** _resolve.py:24-35: random resolution; [bit] is what getrandbits(1) returned. *)
Definition random_char (bit : bool) (c : Z) : Z :=
  if pystr_eqb [c] (lit "0") then 48
  else if pystr_eqb [c] (lit "1") then 49
  else if pystr_eqb [c] (lit "L") then 48
  else if pystr_eqb [c] (lit "H") then 49
  else if bit then 49 else 48.
Fixpoint random_str (rnd : nat -> bool) (s : pystr) : pystr :=
  match s with
  | [] => []
  | c :: s' => random_char (rnd O) c :: random_str (fun n => rnd (S n)) s'
  end.
(** _resolve.py:52-68 [get_str_resolver]; [rnd n] is the generator's n-th answer.
    (The code draws a bit only for characters without a table entry; the stream is arbitrary,
    so drawing one per character loses nothing.) *)
Definition resolve_str (r : resolver) (rnd : nat -> bool) (s : pystr) : pystr :=
  match r with
  | RRandom => random_str rnd s
  | _ => map (resolve_table r) s
  end.

(** _resolve.py:53-54, 71-91: names accepted as resolver, and the COCOTB_RESOLVE_X setting. *)
Definition resolver_of_name (s : pystr) : result resolver :=
  match assoc_str s [(lit "error", RError); (lit "weak", RWeak); (lit "zeros", RZeros);
                     (lit "ones", ROnes); (lit "random", RRandom)]%string with
  | Some r => Ok r
  | None => Err ValueError
  end.
Definition resolve_x_setting (env : pystr) : result (option resolver) :=
  let r := lower env in
  match r with
  | [] => Ok None
  | _ => let r := if pystr_eqb r (lit "value_error") then lit "error" else r in
         bind (resolver_of_name r) (fun x => Ok (Some x))
  end.

(** Python [int(s, 2)]: optional sign, then at least one binary digit. (Whitespace, underscores
    and the 0b prefix are also allowed by Python, but cannot occur: every string passed here
    consists of the characters of [logic_chars].) *)
Fixpoint int2_digits (acc : Z) (s : pystr) : result Z :=
  match s with
  | [] => Ok acc
  | c :: s' =>
      if c =? 48 then int2_digits (2 * acc) s'
      else if c =? 49 then int2_digits (2 * acc + 1) s'
      else Err ValueError
  end.
Definition int2_nat (s : pystr) : result Z :=
  match s with [] => Err ValueError | _ => int2_digits 0 s end.
Definition py_int2 (s : pystr) : result Z :=
  match s with
  | c :: s' =>
      if c =? 45 then bind (int2_nat s') (fun v => Ok (- v))
      else if c =? 43 then int2_nat s'
      else int2_nat s
  | [] => Err ValueError
  end.

(** _logic.py:241-255 (RESOLVE_X is None) and 257-265 (set): [__bool__] and [__int__]. *)
Definition logic_bool (rx : option resolver) (l : logic) : result bool :=
  match rx with
  | None =>
      match l with
      | L0 | LL => Ok false
      | L1 | LH => Ok true
      | _ => Err ValueError
      end
  | Some _ => Ok (match l with L1 | LH => true | _ => false end)
  end.
Definition logic_int (rx : option resolver) (rnd : nat -> bool) (l : logic) : result Z :=
  match rx with
  | None =>
      match l with
      | L0 | LL => Ok 0
      | L1 | LH => Ok 1
      | _ => Err ValueError
      end
  | Some r => py_int2 (resolve_str r rnd [logic_chr l])
  end.

(** _logic.py:270-300 [resolve]: the resolver's string, back through the constructor of the
    object's class. *)
Definition logic_resolve (r : resolver) (rnd : nat -> bool) (a : lobj) : result lobj :=
  bind (logic_new (fst a) (LvStr (resolve_str r rnd [logic_chr (snd a)])))
       (fun l => Ok (fst a, l)).

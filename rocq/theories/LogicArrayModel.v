(** Model of cocotb.types.LogicArray: /repo/src/cocotb/types/_logic_array.py.
    Every method works on the three cached representations as the code does and returns the
    object afterwards together with the result, so that cache effects are visible.
    Not modelled: the deprecated properties 648-778 (thin wrappers of modelled methods), [__repr__],
    [__copy__] (always raises), TypeErrors for foreign argument types. *)
From Coq Require Import String.
From Verif Require Import Base RangeModel ArrayModel LogicModel.
Open Scope Z_scope.

(** _logic_array.py:227-239. *)
Record larr := LArr {
  la_array : option (list logic);
  la_int : option Z;
  la_str : option pystr;
  la_range : Range;
  la_warn : bool }.

(** What can be passed as [value]. [VArr] is another LogicArray, [VIter] any other iterable. *)
Inductive laval := VStr (s : pystr) | VInt (z : Z) | VArr (a : larr) | VIter (l : list litval).

(** _abstract_array.py:66-67. *)
Definition la_len (a : larr) : Z := range_len (la_range a).

(** [Range(n - 1, "downto", 0)]. *)
Definition downto_range (n : Z) : result Range := mk_range (n - 1) (DStr (lit "downto")) (Some 0).

Fixpoint map_result {A B} (f : A -> result B) (l : list A) : result (list B) :=
  match l with
  | [] => Ok []
  | x :: l' => bind (f x) (fun y => bind (map_result f l') (fun ys => Ok (y :: ys)))
  end.

(** [Logic(v) for v in str]: iterating a str gives one-character strs. *)
Definition logics_of_str (s : pystr) : result (list logic) :=
  map_result (fun c => logic_new CLogic (LvStr [c])) s.

Definition is_literal_char (c : Z) : bool := existsb (Z.eqb c) logic_chars.

(** _logic_array.py:251-256: normalise the range argument. *)
Definition norm_range (rg : rangearg) : result (option Range) :=
  match rg with
  | RNone => Ok None
  | RInt n => bind (downto_range n) (fun r => Ok (Some r))
  | RRange r => Ok (Some r)
  end.

(** _logic_array.py:241-317 [__init__]. [upper] is ASCII only: no other character upper-cases to a
    string of literal characters. *)
Definition mk_larr (value : laval) (rg : rangearg) : result larr :=
  bind (norm_range rg) (fun range =>
  match value with
  | VStr s =>
      let s := upper (filter (fun c => negb (c =? 95)) s) in
      if negb (forallb is_literal_char s) then Err ValueError
      else match range with
      | Some r =>
          if negb (py_len s =? range_len r) then Err ValueError
          else Ok (LArr None None (Some s) r false)
      | None => bind (downto_range (py_len s)) (fun r => Ok (LArr None None (Some s) r false))
      end
  | VInt value =>
      match range with
      | None => Err TypeError
      | Some r =>
          if range_len r =? 0 then Err ValueError
          else if value <? 0 then
            if value <? - 2 ^ (range_len r - 1) then Err ValueError
            else Ok (LArr None (Some (value + 2 ^ range_len r)) None r false)
          else if 2 ^ range_len r <=? value then Err ValueError
          else Ok (LArr None (Some value) None r false)
      end
  | VArr a =>
      match range with
      | None => Ok (LArr (la_array a) (la_int a) (la_str a) (la_range a) false)
      | Some r =>
          if negb (range_len r =? la_len a) then Err ValueError
          else Ok (LArr (la_array a) (la_int a) (la_str a) r false)
      end
  | VIter l =>
      bind (map_result (logic_new CLogic) l) (fun vs =>
      match range with
      | Some r =>
          if negb (py_len vs =? range_len r) then Err ValueError
          else Ok (LArr (Some vs) None None r false)
      | None => bind (downto_range (py_len vs)) (fun r => Ok (LArr (Some vs) None None r false))
      end)
  end).

(** * Python's integer formatting: format(v, [#]0<width>[sep]<type>)
    after CPython Objects/stringlib and Python/formatter_unicode.c
    (_PyUnicode_InsertThousandsGrouping); trusted reading. *)
Inductive fmt_type := FBin | FOct | FDec | FHex | FHexUpper.
Definition fmt_base (t : fmt_type) : Z :=
  match t with FBin => 2 | FOct => 8 | FDec => 10 | FHex | FHexUpper => 16 end.
Definition fmt_prefix (t : fmt_type) : pystr :=
  match t with
  | FBin => lit "0b" | FOct => lit "0o" | FDec => [] | FHex => lit "0x" | FHexUpper => lit "0X"
  end%string.
Definition fmt_group (t : fmt_type) : Z := match t with FDec => 3 | _ => 4 end.
Definition digit_chr (t : fmt_type) (d : Z) : Z :=
  if d <? 10 then 48 + d else match t with FHexUpper => 55 + d | _ => 87 + d end.
(** Digits of [v >= 0], least significant first; [fuel] is the number of binary digits. *)
Fixpoint rev_digits (fuel : nat) (base v : Z) : list Z :=
  match fuel with
  | O => []
  | S f => if v <? base then [v] else v mod base :: rev_digits f base (v / base)
  end.
Definition digits_of (base v : Z) : list Z := rev_digits (S (Z.to_nat (Z.log2 v))) base v.
(** The grouping loop, least significant character first: take up to [size] digits (padding with
    zeros while the minimum width asks for it), then continue after a separator. *)
Fixpoint group_loop (fuel : nat) (size sep : Z) (use_sep : bool) (ds : pystr) (minw : Z) : pystr :=
  match fuel with
  | O => []
  | S f =>
      let remaining := py_len ds in
      let l := Z.min size (Z.max (Z.max remaining minw) 1) in
      let n_zeros := Z.max 0 (l - remaining) in
      let n_chars := Z.max 0 (Z.min remaining l) in
      let chunk := (if use_sep then [sep] else []) ++ firstn (Z.to_nat n_chars) ds
                   ++ repeat 48 (Z.to_nat n_zeros) in
      let remaining' := remaining - n_chars in
      let minw' := minw - l in
      if (remaining' <=? 0) && (minw' <=? 0) then chunk
      else chunk ++ group_loop f size sep true (skipn (Z.to_nat n_chars) ds) (minw' - 1)
  end.
Definition grouped (size : Z) (sep : option Z) (ds : pystr) (minw : Z) : pystr :=
  match sep with
  | None => ds ++ repeat 48 (Z.to_nat (minw - py_len ds))
  | Some c => group_loop (S (length ds + Z.to_nat minw)) size c false ds minw
  end.
(** format(v, spec): sign, prefix, zero-filled and grouped digits. ',' is only allowed with 'd'. *)
Definition py_format_int (v : Z) (alt : bool) (width : Z) (sep : option Z) (t : fmt_type)
  : result pystr :=
  match sep, t with
  | Some 44, (FBin | FOct | FHex | FHexUpper) => Err ValueError
  | _, _ =>
      let sign := if v <? 0 then [45] else [] in
      let prefix := if alt then fmt_prefix t else [] in
      let ds := map (digit_chr t) (digits_of (fmt_base t) (Z.abs v)) in
      Ok (sign ++ prefix ++
          rev (grouped (fmt_group t) sep ds (width - py_len sign - py_len prefix)))
  end.

Section Methods.
(** RESOLVE_X (_resolve.py:91), fixed at import. *)
Variable rx : option resolver.

(** _logic_array.py:325-333 [_get_str]. *)
Definition la_get_str (a : larr) : larr * result pystr :=
  match la_str a with
  | Some s => (a, Ok s)
  | None =>
      match (match la_int a with
             | Some k => py_format_int k false (la_len a) None FBin
             | None => match la_array a with
                       | Some l => Ok (map logic_chr l)
                       | None => Err TypeError
                       end
             end) with
      | Ok s => (LArr (la_array a) (la_int a) (Some s) (la_range a) (la_warn a), Ok s)
      | Err e => (a, Err e)
      end
  end.

(** _logic_array.py:319-323 [_get_array]. *)
Definition la_get_array (a : larr) : larr * result (list logic) :=
  match la_array a with
  | Some l => (a, Ok l)
  | None =>
      match la_get_str a with
      | (a1, Ok s) =>
          match logics_of_str s with
          | Ok l => (LArr (Some l) (la_int a1) (la_str a1) (la_range a1) (la_warn a1), Ok l)
          | Err e => (a1, Err e)
          end
      | (a1, Err e) => (a1, Err e)
      end
  end.

(** _logic_array.py:335-354 [_get_int]; line 28 [_resolve_lh_table]. *)
Definition resolve_lh (s : pystr) : pystr := map (translate_char (lit "LH") (lit "01")) s.
Definition la_get_int (rnd : nat -> bool) (a : larr) : larr * result Z :=
  match la_int a with
  | Some k => (a, Ok k)
  | None =>
      match la_get_str a with
      | (a1, Err e) => (a1, Err e)
      | (a1, Ok s) =>
          let s := resolve_lh s in
          match py_int2 s with
          | Ok k => (LArr (la_array a1) (Some k) (la_str a1) (la_range a1) (la_warn a1), Ok k)
          | Err _ =>
              match rx with
              | None => (a1, Err ValueError)
              | Some r => (a1, py_int2 (resolve_str r rnd s))
              end
          end
      end
  end.

(** The [on_overflow] argument. *)
Inductive overflow := OvError | OvWrap | OvOther.

(** _logic_array.py:393-394, 474-475. *)
Definition req_range (rg : rangearg) : result Range :=
  bind (norm_range rg) (fun r => match r with Some r => Ok r | None => Err TypeError end).

(** _logic_array.py:356-432 [from_unsigned]. *)
Definition from_unsigned (value : Z) (rg : rangearg) (ov : overflow) : result larr :=
  bind (req_range rg) (fun r =>
  if value <? 0 then Err ValueError
  else if range_len r =? 0 then Err ValueError
  else match ov with
  | OvWrap => Ok (LArr None (Some (value mod 2 ^ range_len r)) None r false)
  | OvError => if 2 ^ range_len r <=? value then Err ValueError
               else Ok (LArr None (Some value) None r false)
  | OvOther => Err ValueError
  end).

(** _logic_array.py:434-513 [from_signed]. *)
Definition from_signed (value : Z) (rg : rangearg) (ov : overflow) : result larr :=
  bind (req_range rg) (fun r =>
  if range_len r =? 0 then Err ValueError
  else match ov with
  | OvWrap => Ok (LArr None (Some (value mod 2 ^ range_len r)) None r false)
  | OvError =>
      let limit := 2 ^ (range_len r - 1) in
      if (value <? - limit) || (limit <=? value) then Err ValueError
      else Ok (LArr None (Some (value mod (2 * limit))) None r false)
  | OvOther => Err ValueError
  end).

Inductive byteorder := Big | Little.
(** Python int.from_bytes(signed=False) and int.to_bytes. Bytes are integers 0..255. *)
Definition le_int (b : list Z) : Z := fold_right (fun x acc => x + 256 * acc) 0 b.
Definition int_from_bytes (o : byteorder) (b : list Z) : Z :=
  match o with Little => le_int b | Big => le_int (rev b) end.
Fixpoint le_bytes (n : nat) (v : Z) : list Z :=
  match n with O => [] | S n' => v mod 256 :: le_bytes n' (v / 256) end.
Definition int_to_bytes (o : byteorder) (n v : Z) : result (list Z) :=
  if (v <? 0) || (256 ^ n <=? v) then Err OverflowError
  else Ok (match o with
           | Little => le_bytes (Z.to_nat n) v
           | Big => rev (le_bytes (Z.to_nat n) v)
           end).

(** _logic_array.py:515-549 [from_bytes]. *)
Definition from_bytes (value : list Z) (rg : rangearg) (o : byteorder) : result larr :=
  bind (norm_range rg) (fun range =>
  match range with
  | None =>
      bind (downto_range (py_len value * 8)) (fun r =>
      mk_larr (VInt (int_from_bytes o value)) (RRange r))
  | Some r =>
      if negb (py_len value * 8 =? range_len r) then Err ValueError
      else mk_larr (VInt (int_from_bytes o value)) (RRange r)
  end).

(** _logic_array.py:551-562 [_from_handle]. *)
Definition from_handle (s : pystr) (warn : bool) : result larr :=
  bind (downto_range (py_len s)) (fun r => Ok (LArr None None (Some s) r warn)).

(** _logic_array.py:569-578 [range] setter. *)
Definition la_set_range (a : larr) (r : Range) : larr * option exn :=
  if negb (range_len r =? la_len a) then (a, Some ValueError)
  else (LArr (la_array a) (la_int a) (la_str a) r (la_warn a), None).

(** _logic_array.py:580-587 [__iter__], [__reversed__], [__contains__]. *)
Definition la_iter (a : larr) : larr * result (list logic) := la_get_array a.
Definition la_reversed (a : larr) : larr * result (list logic) :=
  let '(a1, r) := la_get_array a in (a1, bind r (fun l => Ok (rev l))).
Definition la_contains (a : larr) (v : litval) : larr * result bool :=
  let '(a1, r) := la_get_array a in (a1, bind r (fun l => Ok (existsb (fun x => logic_eq x v) l))).

(** _logic_array.py:780-810 [to_unsigned], [to_signed]. *)
Definition to_unsigned (rnd : nat -> bool) (a : larr) : larr * result Z :=
  if la_len a =? 0 then (a, Err ValueError) else la_get_int rnd a.
Definition to_signed (rnd : nat -> bool) (a : larr) : larr * result Z :=
  if la_len a =? 0 then (a, Err ValueError)
  else let '(a1, r) := la_get_int rnd a in
       (a1, bind r (fun value =>
            let limit := 2 ^ (la_len a1 - 1) in
            Ok (if limit <=? value then value - 2 * limit else value))).

(** _logic_array.py:812-829 [to_bytes]; ceil(len/8) through a float is exact below 2^53. *)
Definition to_bytes (rnd : nat -> bool) (o : byteorder) (a : larr) : larr * result (list Z) :=
  let '(a1, r) := to_unsigned rnd a in
  (a1, bind r (fun v => int_to_bytes o (- (- la_len a1 / 8)) v)).

(** _logic_array.py:589-603 [__eq__] with an int. *)
Definition la_eq_int (rnd : nat -> bool) (a : larr) (other : Z) : larr * result bool :=
  if la_len a =? 0 then (a, Ok false)
  else let '(a1, r) := if other <? 0 then to_signed rnd a else to_unsigned rnd a in
       (a1, match r with
            | Ok v => Ok (v =? other)
            | Err ValueError => Ok false
            | Err e => Err e
            end).
(** 604-605 with a str ([upper] is ASCII only, see [mk_larr]). *)
Definition la_eq_str (a : larr) (other : pystr) : larr * result bool :=
  let '(a1, r) := la_get_str a in (a1, bind r (fun s => Ok (pystr_eqb s (upper other)))).

Definition logics_eqb : list logic -> list logic -> bool := list_eqb logic_eqb.
Definition on_result {A B} (x : larr * result A) (f : A -> B) : larr * result B :=
  let '(a, r) := x in (a, bind r (fun v => Ok (f v))).

(** 606-636 with a LogicArray: both objects may get new cached values. The two arguments may be
    the same Python object; the branches then update it the same way twice. *)
Definition la_eq (a b : larr) : larr * larr * result bool :=
  if negb (la_len a =? la_len b) then (a, b, Ok false)
  else match la_str a, la_str b, la_array a, la_array b, la_int a, la_int b with
  | Some s, Some t, _, _, _, _ => (a, b, Ok (pystr_eqb s t))
  | _, _, Some l, Some m, _, _ => (a, b, Ok (logics_eqb l m))
  | _, _, _, _, Some j, Some k => (a, b, Ok (j =? k))
  | Some s, _, _, _, _, _ =>
      let '(b', r) := on_result (la_get_str b) (pystr_eqb s) in (a, b', r)
  | _, Some t, _, _, _, _ =>
      let '(a', r) := on_result (la_get_str a) (fun s => pystr_eqb s t) in (a', b, r)
  | _, _, Some l, _, _, _ =>
      let '(b', r) := on_result (la_get_array b) (logics_eqb l) in (a, b', r)
  | _, _, _, Some m, _, _ =>
      let '(a', r) := on_result (la_get_array a) (fun l => logics_eqb l m) in (a', b, r)
  | _, _, _, None, _, _ => (fst (la_get_array a), b, Ok false)
  end.

(** 637-644 with a list or tuple; a TypeError makes it NotImplemented, hence False. *)
Definition la_eq_list (a : larr) (l : list litval) : larr * result bool :=
  match mk_larr (VIter l) RNone with
  | Ok b => let '(a', _, r) := la_eq a b in (a', r)
  | Err ValueError | Err TypeError => (a, Ok false)
  | Err e => (a, Err e)
  end.

(** 676-679 [is_resolvable]. *)
Definition la_is_resolvable (a : larr) : larr * result bool :=
  on_result (la_iter a) (forallb is_resolvable).

(** 911-915 [_translate_index]. *)
Definition la_translate (a : larr) (i : Z) : result Z :=
  match range_index (la_range a) i None None with
  | Ok p => Ok p
  | Err ValueError => Err IndexError
  | Err e => Err e
  end.

(** 837-847 [__getitem__] with an int. Building the warning text evaluates self.range[item]. *)
Definition la_getitem (a : larr) (i : Z) : larr * result logic :=
  let '(a1, r) := la_get_array a in
  (a1, bind r (fun l =>
       bind (if la_warn a1 then range_getitem (la_range a1) i else Ok 0) (fun _ =>
       bind (la_translate a1 i) (fun p => list_get l p)))).

(** 857-866 and 893-902: the slice preamble. *)
Definition la_slice_bounds (a : larr) (start stop : option Z) (has_step : bool)
  : result (Z * Z * Z * Z) :=
  let s := match start with Some x => x | None => left_of (la_range a) end in
  let e := match stop with Some x => x | None => right_of (la_range a) end in
  if has_step then Err IndexError
  else
    bind (la_translate a s) (fun si =>
    bind (la_translate a e) (fun ei =>
    if ei <? si then Err IndexError else Ok (s, e, si, ei))).

(** 848-869 [__getitem__] with a slice. *)
Definition la_getslice (a : larr) (start stop : option Z) (has_step : bool) : larr * result larr :=
  let '(a1, r) := la_get_array a in
  (a1, bind r (fun l =>
       bind (if la_warn a1 then
               let s := match start with Some x => x | None => 0 end in
               let e := match stop with Some x => x | None => la_len a1 - 1 end in
               bind (range_getitem (la_range a1) s) (fun _ => range_getitem (la_range a1) e)
             else Ok 0) (fun _ =>
       bind (la_slice_bounds a1 start stop has_step) (fun '(s, e, si, ei) =>
       bind (direction_of (la_range a1)) (fun d =>
       bind (mk_range s (DStr d) (Some e)) (fun rg =>
       mk_larr (VIter (map LvLogic (list_slice l si (ei + 1)))) (RRange rg))))))).

(** 880-891 [__setitem__] with an int: the other representations are dropped first. *)
Definition la_setitem (a : larr) (i : Z) (v : litval) : larr * option exn :=
  match la_get_array a with
  | (a1, Err e) => (a1, Some e)
  | (a1, Ok l) =>
      let a2 := LArr (Some l) None None (la_range a1) (la_warn a1) in
      match bind (la_translate a2 i) (fun p =>
            bind (logic_new CLogic v) (fun x => list_set l p x)) with
      | Ok l' => (LArr (Some l') None None (la_range a1) (la_warn a1), None)
      | Err e => (a2, Some e)
      end
  end.

(** 892-905 [__setitem__] with a slice. A LogicArray value which is the assigned object itself is
    read after the representations were dropped ([value] = None). *)
Definition la_setslice (a : larr) (start stop : option Z) (has_step : bool)
  (value : option laval) : larr * option exn :=
  match la_get_array a with
  | (a1, Err e) => (a1, Some e)
  | (a1, Ok l) =>
      let a2 := LArr (Some l) None None (la_range a1) (la_warn a1) in
      let value := match value with Some v => v | None => VArr a2 end in
      match bind (la_slice_bounds a2 start stop has_step) (fun '(s, e, si, ei) =>
            bind (mk_larr value (RInt (ei - si + 1))) (fun b =>
            bind (snd (la_iter b)) (fun vs =>
            Ok (firstn (Z.to_nat si) l ++ vs ++ skipn (Z.to_nat (ei + 1)) l)))) with
      | Ok l' => (LArr (Some l') None None (la_range a1) (la_warn a1), None)
      | Err e => (a2, Some e)
      end
  end.

(** 929-960 the binary operators: both operands are iterated, the result gets the default range. *)
Definition la_zip_op (t : list pystr) (a b : larr) : larr * larr * result larr :=
  if negb (la_len a =? la_len b) then (a, b, Err ValueError)
  else
    let '(a1, ra) := la_iter a in
    let '(b1, rb) := la_iter b in
    (a1, b1,
     bind ra (fun la => bind rb (fun lb =>
     bind (map_result (fun '(x, y) => logic_binop t (CLogic, x) (CLogic, y)) (combine la lb))
       (fun vs => mk_larr (VIter (map (fun v => LvLogic (snd v)) vs)) RNone)))).
Definition la_and := la_zip_op and_table.
Definition la_or := la_zip_op or_table.
Definition la_xor := la_zip_op xor_table.
(** 962-963. *)
Definition la_invert (a : larr) : larr * result larr :=
  let '(a1, r) := la_iter a in
  (a1, bind r (fun l =>
       bind (map_result (fun x => logic_invert (CLogic, x)) l) (fun vs =>
       mk_larr (VIter (map (fun v => LvLogic (snd v)) vs)) RNone))).

(** 965-977 [__bool__]. *)
Definition la_bool (rnd : nat -> bool) (a : larr) : larr * result bool :=
  if la_len a =? 0 then (a, Ok false)
  else match rx with
  | None => on_result (to_unsigned rnd a) (fun v => negb (v =? 0))
  | Some _ =>
      let '(a1, r) := la_iter a in
      (a1, bind r (fun l => bind (map_result (logic_bool rx) l) (fun bs => Ok (existsb id bs))))
  end.

(** 1009 [resolve]. *)
Definition la_resolve (r : resolver) (rnd : nat -> bool) (a : larr) : larr * result larr :=
  let '(a1, s) := la_get_str a in
  (a1, bind s (fun s => mk_larr (VStr (resolve_str r rnd s)) (RRange (la_range a1)))).

(** 1014-1021 [__deepcopy__]: objects are values here, so the copy has the same fields. *)
Definition la_deepcopy (a : larr) : larr := a.

(** _abstract_array.py:117-130 [count]. *)
Definition la_count (a : larr) (v : litval) : larr * result Z :=
  on_result (la_iter a) (fun l => fold_left (fun n x => if logic_eq x v then n + 1 else n) l 0).

(** _abstract_array.py:89-115 [index]. *)
Fixpoint la_index_loop (a : larr) (v : litval) (labels : list Z) : larr * result Z :=
  match labels with
  | [] => (a, Err ValueError)
  | i :: rest =>
      match la_getitem a i with
      | (a1, Err e) => (a1, Err e)
      | (a1, Ok y) => if logic_eq y v then (a1, Ok i) else la_index_loop a1 v rest
      end
  end.
Definition la_index (a : larr) (v : litval) (start stop : option Z) : larr * result Z :=
  let s := match start with Some x => x | None => left_of (la_range a) end in
  let e := match stop with Some x => x | None => right_of (la_range a) end in
  match bind (direction_of (la_range a)) (fun d => mk_range s (DStr d) (Some e)) with
  | Err e => (a, Err e)
  | Ok r => la_index_loop a v (range_iter r)
  end.

(** 1023-1075 [__format__]. The plan: alternate form, literal prefix, width, separator, type. *)
Definition strip1 (c : Z) (s : pystr) : option pystr :=
  match s with x :: s' => if x =? c then Some s' else None | [] => None end.
Definition fmt_plan (n : Z) (spec : pystr)
  : result (bool * pystr * Z * option Z * fmt_type) :=
  let '(alt, base_len, spec) :=
    match strip1 35 spec with Some s => (true, 2, s) | None => (false, 0, spec) end in
  let '(sep, spec) :=
    match strip1 95 spec with
    | Some s => (Some 95, s)
    | None => match strip1 44 spec with Some s => (Some 44, s) | None => (None, spec) end
    end in
  let grp k len := match sep with Some _ => len + (len - 1) / k | None => len end in
  if pystr_eqb spec (lit "b") then Ok (alt, [], grp 4 n + base_len, sep, FBin)
  else if pystr_eqb spec (lit "x") then Ok (alt, [], grp 4 ((n + 3) / 4) + base_len, sep, FHex)
  else if pystr_eqb spec (lit "X") then Ok (alt, [], grp 4 ((n + 3) / 4) + base_len, sep, FHexUpper)
  else if pystr_eqb spec (lit "d") then
    Ok (false, (if alt then lit "0d" else []), grp 3 ((n + 9) / 10) + base_len, sep, FDec)
  else if pystr_eqb spec (lit "o") then Ok (alt, [], grp 4 ((n + 2) / 3 + base_len), sep, FOct)
  else Err ValueError.
Definition la_format (rnd : nat -> bool) (a : larr) (spec : pystr) : larr * result pystr :=
  match spec with
  | [] => la_get_str a
  | _ =>
      match fmt_plan (la_len a) spec with
      | Err e => (a, Err e)
      | Ok (alt, prefix, width, sep, t) =>
          let '(a1, r) := to_unsigned rnd a in
          (a1, bind r (fun v =>
               bind (py_format_int v alt width sep t) (fun s => Ok (prefix ++ s))))
      end
  end.
End Methods.

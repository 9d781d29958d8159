(** Model of the value-carrying simulation handles: /repo/src/cocotb/handle.py (600-1800) and of the
    part of /repo/src/cocotb/_gpi_triggers.py that applies queued writes. The simulator is an
    adversary: it decides which GPI trigger fires next and what every read returns. The argument
    checks of the C++ write functions (/repo/src/cocotb/share/lib/pygpi/bind.cpp 514-562) are modelled
    because they decide whether a write raises. *)
From Coq Require Import String.
From Verif Require Import Base RangeModel ArrayModel LogicModel LogicArrayModel.
Open Scope Z_scope.

(** handle.py:608-614 [_GPISetAction]: the declared names with their values, in order. *)
Inductive act_name := N_DEPOSIT | N_FORCE | N_RELEASE | N_NO_DELAY | N_OLD_IMMEDIATE.
Definition act_value (n : act_name) : Z :=
  match n with N_DEPOSIT => 0 | N_FORCE => 1 | N_RELEASE => 2 | N_NO_DELAY => 3 | N_OLD_IMMEDIATE => 0 end.
Definition act_decl : list act_name := [N_DEPOSIT; N_FORCE; N_RELEASE; N_NO_DELAY; N_OLD_IMMEDIATE].

(** [enum.Enum]: a name whose value was already declared is an alias of the first member with that
    value, so [_GPISetAction.n] evaluates to that member (handle.py:608-614). *)
Definition act (n : act_name) : act_name :=
  match find (fun m => act_value m =? act_value n) act_decl with Some m => m | None => n end.

(** [action is _GPISetAction.DEPOSIT] (handle.py:808). *)
Definition is_deposit (a : act_name) : bool :=
  match a, act N_DEPOSIT with
  | N_DEPOSIT, N_DEPOSIT | N_FORCE, N_FORCE | N_RELEASE, N_RELEASE
  | N_NO_DELAY, N_NO_DELAY | N_OLD_IMMEDIATE, N_OLD_IMMEDIATE => true
  | _, _ => false
  end.

(** Python values that can be assigned. A float is an opaque token, [PBytes m b] is a bytes
    ([m = false]) or bytearray ([m = true]) object, [PList] any list or tuple, [PArr] a cocotb Array. *)
Inductive pyval :=
| PInt (z : Z) | PFloat (tok : Z) | PStr (s : pystr) | PLogic (l : logic) | PLarr (a : larr)
| PBytes (mut : bool) (b : list Z) | PList (l : list pyval) | PArr (l : list pyval) (r : Range) | PNone.

(** The argument given to set_signal_val_int, _binstr, _real (float or int) and _str. *)
Inductive simval :=
| SInt (z : Z) | SStr (s : pystr) | SReal (tok : Z) | SRealInt (z : Z) | SBytes (mut : bool) (b : list Z).

(** bind.cpp:514-562, the PyArg_ParseTuple formats "iL", "is", "id", "iy": an int must fit a long long,
    str and bytes must not contain NUL, "y" refuses mutable buffers, "d" refuses ints that overflow a
    double (2^1024 - 2^970 is the first one). The strings written consist of ASCII characters. *)
Definition bind_check (v : simval) : option exn :=
  match v with
  | SInt z => if (- 2 ^ 63 <=? z) && (z <? 2 ^ 63) then None else Some OverflowError
  | SStr s => if existsb (Z.eqb 0) s then Some ValueError else None
  | SReal _ => None
  | SRealInt z => if Z.abs z <? 2 ^ 1024 - 2 ^ 970 then None else Some OverflowError
  | SBytes m b => if m then Some TypeError else if existsb (Z.eqb 0) b then Some ValueError else None
  end.

(** Identity of the simulator object behind a handle: [__eq__]/[__hash__] compare [_handle]
    (handle.py:132-138). *)
Definition hid := nat.

(** [isinstance(current_gpi_trigger(), ...)]: the kind of the last GPI trigger that fired
    (_gpi_triggers.py:40-50). *)
Inductive phase := PhReadWrite | PhReadOnly | PhOther.
Definition is_rw (p : phase) : bool := match p with PhReadWrite => true | _ => false end.
Definition is_ro (p : phase) : bool := match p with PhReadOnly => true | _ => false end.

(** One entry of [_write_calls]: the handle, the action and the value (the write function is
    determined by the kind of value). *)
Record wreq := WReq { q_hid : hid; q_act : act_name; q_val : simval }.

(** The write machinery: current phase, [_write_calls] (a dict in insertion order), whether
    [_apply_writes_cb] is not None, and the log of the writes accepted by the simulator, each as
    (object, action code, value). *)
Record wst := WSt {
  w_phase : phase;
  w_calls : list wreq;
  w_cb : bool;
  w_log : list (hid * Z * simval) }.

(** The initial state: nothing fired yet, handle.py:762 and 784-786. *)
Definition wst0 : wst := WSt PhOther [] false [].

(** [write_func(action.value, value)]: refused by the argument check, or logged. *)
Definition write_func (q : wreq) (st : wst) : wst * option exn :=
  match bind_check (q_val q) with
  | Some e => (st, Some e)
  | None => (WSt (w_phase st) (w_calls st) (w_cb st)
               (w_log st ++ [(q_hid q, act_value (q_act q), q_val q)]), None)
  end.

(** The loop of handle.py:789-790; stops at the first exception. *)
Fixpoint apply_loop (l : list wreq) (st : wst) : wst * option exn :=
  match l with
  | [] => (st, None)
  | q :: l' => match write_func q st with
               | (st1, None) => apply_loop l' st1
               | (st1, Some e) => (st1, Some e)
               end
  end.

(** handle.py:768-769 and 788-796 [_apply_scheduled_writes]. *)
Definition apply_scheduled_writes (trust : bool) (st : wst) : wst * option exn :=
  if trust then (st, None)
  else match apply_loop (w_calls st) st with
       | (st1, None) => (WSt (w_phase st1) [] false (w_log st1), None)
       | (st1, Some e) => (st1, Some e)
       end.

(** [_write_calls.pop(handle, None)] (handle.py:810). *)
Definition calls_pop (h : hid) (l : list wreq) : list wreq :=
  filter (fun q => negb (Nat.eqb (q_hid q) h)) l.

(** handle.py:771-778 and 798-822 [_schedule_write]. Registering ReadWrite (816-817) only sets the
    flag; that the simulator later fires it is up to the environment. *)
Definition schedule_write (trust : bool) (q : wreq) (st : wst) : wst * option exn :=
  if trust then write_func q st
  else if is_rw (w_phase st) then write_func q st
  else if is_deposit (q_act q) then
    (WSt (w_phase st) (calls_pop (q_hid q) (w_calls st) ++ [q]) true (w_log st), None)
  else write_func q st.

(** _gpi_triggers.py:40-50 [GPITrigger._react] and 206-211 [ReadWrite._do_callbacks]: the phase
    changes, then a ReadWrite trigger applies the queued writes first. The callbacks that follow are
    separate steps of the environment. *)
Definition fire (trust : bool) (p : phase) (st : wst) : wst * option exn :=
  let st1 := WSt p (w_calls st) (w_cb st) (w_log st) in
  if is_rw p then apply_scheduled_writes trust st1 else (st1, None).

(** The kinds of leaf handles with the static facts the simulator reports: number of elements
    (get_num_elems, a size, never negative) and signedness (get_signed: 0, 1 or something else). *)
Inductive hkind :=
| KLogic | KLogicArray (n : nat) | KReal | KInteger (n : nat) (signed : Z) | KEnum (n : nat) (signed : Z)
| KString | KFixedString (n : nat).

(** [-(2 ** (n - 1))] compared with ints; for n = 0 Python computes -0.5, which no int lies between
    and 0. *)
Definition min_signed (n : nat) : Z := match n with O => 0 | S m => - 2 ^ Z.of_nat m end.
(** [(2 ** (n - 1)) - 1]; for n = 0 that is -0.5, so exactly the negative ints are below it. *)
Definition max_signed (n : nat) : Z := match n with O => -1 | S m => 2 ^ Z.of_nat m - 1 end.

(** handle.py:1230-1236 [_min_val], 1238-1244 [_max_val] of _SignednessObjectMixin. *)
Definition min_val (n : nat) (signed : Z) : Z := if signed =? 0 then 0 else min_signed n.
Definition max_val (n : nat) (signed : Z) : Z := if signed =? 1 then max_signed n else 2 ^ Z.of_nat n - 1.

(** [f"{value:0{n}b}"] (handle.py:1301, 1532, 1645): for n = 0 the format is "00b". *)
Definition bin_fmt (n : nat) (z : Z) : result pystr := py_format_int z false (Z.of_nat n) None FBin.

(** handle.py:1135-1159 [LogicObject._set_value], the conversion part. The string and int cases go
    through Logic(value); bool is an int. *)
Definition conv_logic (v : pyval) : result simval :=
  match v with
  | PInt z => bind (logic_new CLogic (LvInt z)) (fun l => Ok (SStr [logic_chr l]))
  | PStr s => bind (logic_new CLogic (LvStr s)) (fun l => Ok (SStr [logic_chr l]))
  | PLarr a => if negb (la_len a =? 1) then Err ValueError
               else bind (snd (la_get_str a)) (fun s => Ok (SStr s))
  | PLogic l => Ok (SStr [logic_chr l])
  | _ => Err TypeError
  end.

(** handle.py:1282-1325 [LogicArrayObject._set_value] with its own bounds 1402-1410. [str.upper] is
    ASCII only: no other character upper-cases to a string of literal characters. *)
Definition conv_logicarray (n : nat) (v : pyval) : result simval :=
  match v with
  | PInt z =>
      if negb ((min_signed n <=? z) && (z <=? 2 ^ Z.of_nat n - 1)) then Err ValueError
      else if (n <=? 32)%nat then Ok (SInt z)
      else let z' := if z <? 0 then z + 2 ^ Z.of_nat n else z in
           bind (bin_fmt n z') (fun s =>
           if negb (Nat.eqb (length s) n) then Err ValueError else Ok (SStr s))
  | PStr s =>
      let s' := upper (filter (fun c => negb (c =? 95)) s) in
      if negb (forallb is_literal_char s') then Err ValueError
      else if negb (Nat.eqb (length s') n) then Err ValueError else Ok (SStr s')
  | PLarr a =>
      bind (snd (la_get_str a)) (fun s =>
      if negb (Nat.eqb (length s) n) then Err ValueError else Ok (SStr s))
  | PLogic l => if negb (Nat.eqb 1 n) then Err ValueError else Ok (SStr [logic_chr l])
  | _ => Err TypeError
  end.

(** handle.py:1443-1453 [RealObject._set_value]. *)
Definition conv_real (v : pyval) : result simval :=
  match v with PFloat t => Ok (SReal t) | PInt z => Ok (SRealInt z) | _ => Err TypeError end.

(** handle.py:1509-1533 [EnumObject._set_value]. *)
Definition conv_enum (n : nat) (signed : Z) (v : pyval) : result simval :=
  match v with
  | PInt z =>
      if negb ((min_val n signed <=? z) && (z <=? max_val n signed)) then Err ValueError
      else if (n <=? 32)%nat then Ok (SInt z)
      else bind (bin_fmt n z) (fun s => Ok (SStr s))
  | _ => Err TypeError
  end.

(** handle.py:1625-1653 [IntegerObject._set_value]. *)
Definition conv_integer (n : nat) (signed : Z) (v : pyval) : result simval :=
  match v with
  | PInt z =>
      if negb ((min_val n signed <=? z) && (z <=? max_val n signed)) then Err ValueError
      else if (n <=? 32)%nat then Ok (SInt z)
      else let z' := if z <? 0 then z + 2 ^ Z.of_nat n else z in
           bind (bin_fmt n z') (fun s => Ok (SStr s))
  | _ => Err TypeError
  end.

(** handle.py:1709-1718 [StringObject._set_value]. *)
Definition conv_string (v : pyval) : result simval :=
  match v with PBytes m b => Ok (SBytes m b) | _ => Err TypeError end.

(** Python [len(value)] of an assigned value; TypeError where the type has no length. Logic has a
    length of 1 (types/_logic.py:302-304). *)
Definition py_length (v : pyval) : result Z :=
  match v with
  | PInt _ | PFloat _ | PNone => Err TypeError
  | PStr s => Ok (py_len s)
  | PLogic _ => Ok 1
  | PLarr a => Ok (la_len a)
  | PBytes _ b => Ok (py_len b)
  | PList l => Ok (py_len l)
  | PArr l r => Ok (range_len r)
  end.

(** Python iteration over an assigned value. Logic is not iterable. *)
Definition py_iterate (v : pyval) : result (list pyval) :=
  match v with
  | PInt _ | PFloat _ | PNone | PLogic _ => Err TypeError
  | PStr s => Ok (map (fun c => PStr [c]) s)
  | PLarr a => bind (snd (la_iter a)) (fun l => Ok (map PLogic l))
  | PBytes _ b => Ok (map PInt b)
  | PList l => Ok l
  | PArr l _ => Ok l
  end.

(** handle.py:1781-1795 [FixedStringObject._set_value]. *)
Definition conv_fixed (n : nat) (v : pyval) : result simval :=
  bind (py_length v) (fun len =>
  if Z.of_nat n <? len then Err ValueError else conv_string v).

(** The conversion part of [_set_value] for each leaf class; the write then goes to
    [_schedule_write]. *)
Definition conv (k : hkind) (v : pyval) : result simval :=
  match k with
  | KLogic => conv_logic v
  | KLogicArray n => conv_logicarray n v
  | KReal => conv_real v
  | KInteger n s => conv_integer n s v
  | KEnum n s => conv_enum n s v
  | KString => conv_string v
  | KFixedString n => conv_fixed n v
  end.

(** The direction reported by get_range (handle.py:162-170). *)
Inductive rdir := RUp | RDown | RNoDir.

(** A value handle: a leaf, or an ArrayObject with the triple of get_range and the children that
    get_handle_by_index finds. The cache [_sub_handles] (handle.py:1007, 1075-1085) only avoids asking
    again and is left out. *)
Inductive handle :=
| HLeaf (id : hid) (const : bool) (k : hkind)
| HArr (const : bool) (lft rgt : Z) (dir : rdir) (sub : list (Z * handle)).

(** handle.py:162-170 [_RangeableObjectMixin.range]. *)
Definition handle_range (lft rgt : Z) (dir : rdir) : result Range :=
  match dir with
  | RNoDir => Err RuntimeError
  | RUp => mk_range lft (DStr (lit "to")) (Some rgt)
  | RDown => mk_range lft (DStr (lit "downto")) (Some rgt)
  end.

(** [is_const] (handle.py:941-944). *)
Definition h_const (h : handle) : bool :=
  match h with HLeaf _ c _ => c | HArr c _ _ _ _ => c end.

(** [self[index]] (handle.py:1074-1085) over anything computed from the children: IndexError if the
    simulator has no object at this index. *)
Fixpoint sub_at {A} (i : Z) (l : list (Z * A)) : result A :=
  match l with
  | [] => Err IndexError
  | (j, x) :: l' => if i =? j then Ok x else sub_at i l'
  end.

(** The loop of handle.py:1071-1072 over the zipped elements and indexes: each child's setter is run
    in turn; the first exception ends the loop, earlier children stay written. *)
Fixpoint set_loop (subs : list (Z * (pyval -> wst -> wst * option exn)))
  (items : list (pyval * Z)) (st : wst) : wst * option exn :=
  match items with
  | [] => (st, None)
  | (v, i) :: items' =>
      match sub_at i subs with
      | Err e => (st, Some e)
      | Ok f => match f v st with
                | (st1, None) => set_loop subs items' st1
                | (st1, Some e) => (st1, Some e)
                end
      end
  end.

(** [_set_value]: leaves convert and schedule; arrays (handle.py:1062-1072) check the length and set
    their children left to right. Children are not asked whether they are const. *)
Fixpoint set_value (trust : bool) (h : handle) (a : act_name) (v : pyval) (st : wst)
  : wst * option exn :=
  match h with
  | HLeaf id _ k =>
      match conv k v with
      | Ok s => schedule_write trust (WReq id a s) st
      | Err e => (st, Some e)
      end
  | HArr _ lft rgt dir sub =>
      match py_length v with
      | Err e => (st, Some e)
      | Ok n =>
          match handle_range lft rgt dir with
          | Err e => (st, Some e)
          | Ok r =>
              if negb (n =? range_len r) then (st, Some ValueError)
              else match py_iterate v with
                   | Err e => (st, Some e)
                   | Ok vs =>
                       set_loop (map (fun p => (fst p, set_value trust (snd p) a)) sub)
                         (combine vs (range_iter r)) st
                   end
          end
      end
  end.

(** What the simulator currently returns for each object: get_signal_val_binstr, _long, _real and
    _str. *)
Record reads := Reads {
  rd_binstr : hid -> pystr;
  rd_long : hid -> Z;
  rd_real : hid -> Z;
  rd_str : hid -> list Z }.

(** handle.py:1535-1548 and 1655-1665 [get] of EnumObject and IntegerObject. *)
Definition get_int (n : nat) (signed : Z) (rd : reads) (id : hid) : result Z :=
  bind (if (n <=? 32)%nat then Ok (rd_long rd id) else py_int2 (rd_binstr rd id)) (fun res =>
  Ok (if max_val n signed <? res then res - 2 ^ Z.of_nat n
      else if (signed =? 0) && (res <? 0) then res + 2 ^ Z.of_nat n
      else res)).

(** [get] of each leaf class: handle.py:1161-1164 (Logic), 1327-1335 (LogicArray, indexing warnings
    off), 1455-1457 (real), 1535-1548, 1655-1665, 1720-1722 (bytes). *)
Definition leaf_get (k : hkind) (rd : reads) (id : hid) : result pyval :=
  match k with
  | KLogic => bind (logic_new CLogic (LvStr (rd_binstr rd id))) (fun l => Ok (PLogic l))
  | KLogicArray _ => bind (from_handle (rd_binstr rd id) false) (fun a => Ok (PLarr a))
  | KReal => Ok (PFloat (rd_real rd id))
  | KInteger n s | KEnum n s => bind (get_int n s rd id) (fun z => Ok (PInt z))
  | KString | KFixedString _ => Ok (PBytes false (rd_str rd id))
  end.

(** [get]; arrays handle.py:1009-1027: [[self[i].value for i in r]], wrapped by Array._from_handle
    (types/_array.py:163-171) with the handle's range. *)
Fixpoint get_value (rd : reads) (h : handle) : result pyval :=
  match h with
  | HLeaf id _ k => leaf_get k rd id
  | HArr _ lft rgt dir sub =>
      bind (handle_range lft rgt dir) (fun r =>
      let gets := map (fun p => (fst p, get_value rd (snd p))) sub in
      bind (map_result (fun i => bind (sub_at i gets) (fun g => g)) (range_iter r)) (fun vs =>
      Ok (PArr vs r)))
  end.

(** What is written on the right of [handle.value = ...]: a plain value or one of the action objects
    (handle.py:620-759). *)
Inductive aval :=
| APlain (v : pyval) | ADeposit (v : pyval) | AForce (v : pyval) | AFreeze | ARelease
| AImmediate (v : pyval) | AOldImmediate (v : pyval).

(** [_dispatch] of the action classes (handle.py:642, 670, 695, 725, 750, 758) and the plain case 882. *)
Definition dispatch (trust : bool) (rd : reads) (h : handle) (x : aval) (st : wst) : wst * option exn :=
  match x with
  | APlain v => set_value trust h (act N_DEPOSIT) v st
  | ADeposit v => set_value trust h (act N_DEPOSIT) v st
  | AForce v => set_value trust h (act N_FORCE) v st
  | AFreeze => match get_value rd h with
               | Ok v => set_value trust h (act N_FORCE) v st
               | Err e => (st, Some e)
               end
  | ARelease => match get_value rd h with
                | Ok v => set_value trust h (act N_RELEASE) v st
                | Err e => (st, Some e)
                end
  | AImmediate v => set_value trust h (act N_NO_DELAY) v st
  | AOldImmediate v => set_value trust h (act N_OLD_IMMEDIATE) v st
  end.

(** handle.py:863-882, the [value] setter; [set] (889 ff.) assigns to [value]. *)
Definition assign (trust : bool) (rd : reads) (h : handle) (x : aval) (st : wst) : wst * option exn :=
  if is_ro (w_phase st) then (st, Some RuntimeError)
  else if h_const h then (st, Some TypeError)
  else dispatch trust rd h x st.

(** handle.py:915-939 [setimmediatevalue]. (An object of the private class
    _OldImmediate would be wrapped again and then refused as a value.) *)
Definition setimmediatevalue (trust : bool) (rd : reads) (h : handle) (x : aval) (st : wst)
  : wst * option exn :=
  let x' := match x with
            | ADeposit v => AOldImmediate v
            | AForce _ | AFreeze | ARelease | AImmediate _ => x
            | APlain v => AOldImmediate v
            | AOldImmediate _ => AOldImmediate PNone
            end in
  assign trust rd h x' st.

(** Environment steps: an assignment, a setimmediatevalue call, or a GPI trigger firing. *)
Inductive wop :=
| OSet (rd : reads) (h : handle) (x : aval)
| OSetNow (rd : reads) (h : handle) (x : aval)
| OFire (p : phase).

Definition wstep (trust : bool) (o : wop) (st : wst) : wst * option exn :=
  match o with
  | OSet rd h x => assign trust rd h x st
  | OSetNow rd h x => setimmediatevalue trust rd h x st
  | OFire p => fire trust p st
  end.

(** A run: the state after a list of steps (an exception raised by a step goes to the code that
    made the call and does not undo anything). *)
Definition wrun (trust : bool) (l : list wop) (st : wst) : wst :=
  fold_left (fun s o => fst (wstep trust o s)) l st.

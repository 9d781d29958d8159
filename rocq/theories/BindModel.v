(** The module cocotb.simulator seen from Python: objects for handles, and the checks of arguments
    (/repo/src/cocotb/share/lib/pygpi/bind.cpp:28-117, 163-471, 578-635, 834-849). *)
From Coq Require Import ZArith List.
From Verif Require Import Base.
Import ListNotations.
Open Scope Z_scope.

(** The four types of handles (bind.cpp:130-139). *)
Inductive kind := KSim | KIter | KCallback | KClock.
Definition kind_eqb (a b : kind) : bool :=
  match a, b with KSim, KSim | KIter, KIter | KCallback, KCallback | KClock, KClock => true | _, _ => false end.
(** What a Python object is to this module: a handle around a pointer (bind.cpp:51-57), an int, None, a str, something callable, or another thing.
    Simplified: an object with [__index__] which is not an int is not distinguished from other objects, bool is an int. *)
Inductive value := VHandle (k : kind) (pointer : Z) | VInt (z : Z) | VNone | VStr (s : pystr) | VCallable (f : nat) | VOther.
(** An object has an identity. *)
Record obj := Obj { o_id : nat; o_val : value }.

(** bind.cpp:79-91 [gpi_hdl_New]; 0: NULL. *)
Definition hdl_new (k : kind) (pointer : Z) : value := if pointer =? 0 then VNone else VHandle k pointer.
(** bind.cpp:67-75 [gpi_hdl_hash]: the pointer as a signed number of 64 bits. *)
Definition hdl_hash (pointer : Z) : Z :=
  let ret := if pointer <? 2 ^ 63 then pointer else pointer - 2 ^ 64 in if ret =? -1 then -2 else ret.
(** The operators. *)
Inductive cmp := Lt | Le | Eq | Ne | Gt | Ge.
(** bind.cpp:94-115 [gpi_hdl_richcompare] of the type [k]; None: NotImplemented. *)
Definition richcompare (k : kind) (self other : value) (op : cmp) : option bool :=
  match self, other with
  | VHandle a p, VHandle b q =>
      if kind_eqb a k && kind_eqb b k then
        match op with Eq => Some (p =? q) | Ne => Some (negb (p =? q)) | _ => None end
      else None
  | _, _ => None
  end.
(** The comparison of Python (CPython do_richcompare): the left side, then the right side with the operator swapped, then identity. None of the four types is
    derived from another, so the right side never goes first. [foreign]: the comparison of the types which are not handles. *)
Definition swapped (op : cmp) : cmp := match op with Lt => Gt | Le => Ge | Eq => Eq | Ne => Ne | Gt => Lt | Ge => Le end.
Definition slot (foreign : obj -> obj -> cmp -> option bool) (x y : obj) (op : cmp) : option bool :=
  match o_val x with VHandle k _ => richcompare k (o_val x) (o_val y) op | _ => foreign x y op end.
Definition compare (foreign : obj -> obj -> cmp -> option bool) (x y : obj) (op : cmp) : result bool :=
  match slot foreign x y op with
  | Some b => Ok b
  | None =>
      match slot foreign y x (swapped op) with
      | Some b => Ok b
      | None =>
          match op with
          | Eq => Ok (Nat.eqb (o_id x) (o_id y))
          | Ne => Ok (negb (Nat.eqb (o_id x) (o_id y)))
          | _ => Err TypeError
          end
      end
  end.

(** * Registration of callbacks *)
(** What is asked of the interface (GpiCommon.cpp:663-735); the edge is the number in the enum variable. *)
Inductive request := RReadOnly | RReadWrite | RNextTime | RTimed (time : Z) | RValue (signal : Z) (edge : Z).
(** A PythonCallback (bind.cpp:28-44); there are no keyword arguments. *)
Record callback := Callback { cb_function : nat; cb_args : list value }.
(** How a call ends: a value, an exception, or a value while an exception is pending, which the interpreter turns into SystemError
    (CPython _Py_CheckFunctionResult). *)
Inductive ending := Returns (v : value) | Raises (e : exn) | SystemError.
(** What a call does: the PythonCallback made, the request made of the interface with the pointer which it gave (0: refused), the ending. *)
Record outcome := Outcome { u_made : option callback; u_asked : option (request * Z); u_end : ending }.
Definition raises (e : exn) : outcome := Outcome None None (Raises e).
(** PyLong_AsLong and PyLong_AsLongLong, both of 64 bits here (they differ on Windows). *)
Definition as_long (v : value) : result Z :=
  match v with VInt z => if (- 2 ^ 63 <=? z) && (z <? 2 ^ 63) then Ok z else Err OverflowError | _ => Err TypeError end.
(** The end of all five functions (for instance bind.cpp:225-240); [answer]: the pointer given by the interface. *)
Definition ask (f : nat) (args : list value) (r : request) (answer : Z) (pending : bool) : outcome :=
  Outcome (Some (Callback f args)) (Some (r, answer)) (if pending then SystemError else Returns (hdl_new KCallback answer)).
(** bind.cpp:201-240, 242-281, 283-322: the three functions without further arguments; [impl]: gpi_has_registered_impl(). *)
Definition register_phase (r : request) (impl : bool) (args : list value) (answer : Z) : outcome :=
  if negb impl then raises RuntimeError
  else match args with
  | [] => raises TypeError
  | VCallable f :: rest => ask f rest r answer false
  | _ :: _ => raises TypeError
  end.
(** bind.cpp:328-382. *)
Definition register_timed (impl : bool) (args : list value) (answer : Z) : outcome :=
  if negb impl then raises RuntimeError
  else match args with
  | t :: g :: rest =>
      match as_long t with
      | Err e => raises e
      | Ok time =>
          if time <? 0 then raises ValueError
          else match g with VCallable f => ask f rest (RTimed time) answer false | _ => raises TypeError end
      end
  | _ => raises TypeError
  end.
(** The conversion of a long to gpi_edge (bind.cpp:423): the type behind the enum has 32 bits. C++ leaves this open for a number outside the enum; this is
    what the usual compilers do. *)
Definition to_edge (z : Z) : Z := z mod 2 ^ 32.
(** bind.cpp:389-441: the result of PyLong_AsLong is used unchecked, and it is -1 with an exception pending for a wrong argument
    (what is logged meanwhile is left out). *)
Definition register_value_change (impl : bool) (args : list value) (answer : Z) : outcome :=
  if negb impl then raises RuntimeError
  else match args with
  | s :: g :: e :: rest =>
      match s with
      | VHandle KSim p =>
          match g with
          | VCallable f =>
              match as_long e with
              | Ok z => ask f rest (RValue p (to_edge z)) answer false
              | Err _ => ask f rest (RValue p (to_edge (-1))) answer true
              end
          | _ => raises TypeError
          end
      | _ => raises TypeError
      end
  | _ => raises TypeError
  end.
(** VpiCbHdl.cpp:196-210 (VhpiCbHdl.cpp:135-149 and FliCbHdl.cpp:84-98 are alike): whether a change to the text [binstr] is reported for an edge, as numbered in gpi.h:399-403. *)
Definition passes (edge : Z) (binstr : pystr) : bool :=
  if edge =? 1 then pystr_eqb binstr [49] else if edge =? 2 then pystr_eqb binstr [48] else edge =? 0.

(** bind.cpp:163-196 [handle_gpi_callback]; the call gives a value or raises, SystemExit or another exception. Result: the code returned, whether the
    exception is printed, whether one is left pending; the PythonCallback is deleted whatever happens (line 173). *)
Inductive called := CValue | CSystemExit | CException.
Record handled := Handled { h_code : Z; h_printed : bool; h_pending : bool; h_deleted : bool }.
Definition handle_gpi_callback (c : called) : handled :=
  match c with
  | CValue => Handled 0 false false true
  | CSystemExit => Handled (-1) false false true
  | CException => Handled (-1) true false true
  end.

(** * Looking for objects *)
(** PyArg_ParseTuple with "s": no NUL inside; with "i": 32 bits. *)
Definition parse_s (v : value) : result pystr :=
  match v with VStr s => if existsb (Z.eqb 0) s then Err ValueError else Ok s | _ => Err TypeError end.
Definition parse_i (v : value) : result Z :=
  match v with VInt z => if (- 2 ^ 31 <=? z) && (z <? 2 ^ 31) then Ok z else Err OverflowError | _ => Err TypeError end.
(** bind.cpp:578-602; result: the name and whether only the implementation of the parent is asked (GPI_NATIVE). *)
Definition get_handle_by_name (args : list value) : result (pystr * bool) :=
  match args with
  | [n] => bind (parse_s n) (fun s => Ok (s, false))
  | [n; m] => bind (parse_s n) (fun s => bind (parse_i m) (fun d => if (d <? 0) || (1 <? d) then Err ValueError else Ok (s, d =? 1)))
  | _ => Err TypeError
  end.
(** bind.cpp:604-615. *)
Definition get_handle_by_index (args : list value) : result Z := match args with [i] => parse_i i | _ => Err TypeError end.
(** bind.cpp:617-635; "z": None stands for the NULL pointer. *)
Definition get_root_handle (impl : bool) (args : list value) : result (option pystr) :=
  if negb impl then Err RuntimeError
  else match args with
  | [VNone] => Ok None
  | [v] => bind (parse_s v) (fun s => Ok (Some s))
  | _ => Err TypeError
  end.

(** bind.cpp:834-849 [set_sim_event_callback]: [f]: pEventFn; when the arguments are wrong the exception is printed and None is returned. *)
Definition set_sim_event_callback (f : option value) (args : list value) : option value * ending :=
  match f with
  | Some _ => (f, Raises RuntimeError)
  | None => match args with [v] => (Some v, Returns VNone) | _ => (None, Returns VNone) end
  end.

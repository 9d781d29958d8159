(** A program using LogicArrays: a heap of objects and any sequence of API calls on them.
    Each operation is one call of a method modelled in LogicArrayModel.v. *)
From Verif Require Import Base RangeModel ArrayModel LogicModel LogicArrayModel.
Open Scope Z_scope.

(** A [value] argument which may name an object of the heap. *)
Inductive opval := WStr (s : pystr) | WInt (z : Z) | WObj (i : nat) | WIter (l : list litval).

(** API calls; [i], [j] name objects, [rnd] is what the random resolver would draw. *)
Inductive op :=
| ONew (v : opval) (rg : rangearg)
| OFromUnsigned (z : Z) (rg : rangearg) (ov : overflow)
| OFromSigned (z : Z) (rg : rangearg) (ov : overflow)
| OFromBytes (b : list Z) (rg : rangearg) (o : byteorder)
| OFromHandle (s : pystr) (warn : bool)
| OStr (i : nat)
| OToUnsigned (i : nat) (rnd : nat -> bool)
| OToSigned (i : nat) (rnd : nat -> bool)
| OToBytes (i : nat) (o : byteorder) (rnd : nat -> bool)
| OIter (i : nat) | OReversed (i : nat)
| OContains (i : nat) (v : litval) | OCount (i : nat) (v : litval)
| OIndex (i : nat) (v : litval) (start stop : option Z)
| OGet (i : nat) (k : Z)
| OGetSlice (i : nat) (start stop : option Z) (has_step : bool)
| OEq (i j : nat) | OEqStr (i : nat) (s : pystr)
| OEqInt (i : nat) (z : Z) (rnd : nat -> bool) | OEqList (i : nat) (l : list litval)
| OResolvable (i : nat) | OBool (i : nat) (rnd : nat -> bool)
| OFormat (i : nat) (spec : pystr) (rnd : nat -> bool)
| OSet (i : nat) (k : Z) (v : litval)
| OSetSlice (i : nat) (start stop : option Z) (has_step : bool) (v : opval)
| OSetRange (i : nat) (r : Range)
| OAnd (i j : nat) | OOr (i j : nat) | OXor (i j : nat) | ONot (i : nat)
| OResolve (i : nat) (r : resolver) (rnd : nat -> bool)
| OCopy (i : nat).

(** What a call returns to the user; [XNew]/[XDone] carry the exception, if any. *)
Inductive out :=
| XStr (r : result pystr) | XInt (r : result Z) | XBytes (r : result (list Z))
| XLogic (r : result logic) | XList (r : result (list logic)) | XBool (r : result bool)
| XNew (e : option exn) | XDone (e : option exn) | XNoObj.

Definition put {A} (h : list A) (i : nat) (a : A) : list A := list_update h i a.

(** A newly created object goes to the end of the heap. *)
Definition add_new {A} (h : list A) (r : result A) : list A * out :=
  match r with Ok a => (h ++ [a], XNew None) | Err e => (h, XNew (Some e)) end.

Section Step.
Variable rx : option resolver.

Definition laval_of (h : list larr) (v : opval) : option laval :=
  match v with
  | WStr s => Some (VStr s)
  | WInt z => Some (VInt z)
  | WIter l => Some (VIter l)
  | WObj i => match nth_error h i with Some a => Some (VArr a) | None => None end
  end.

Definition with1 (h : list larr) (i : nat) (f : larr -> larr * out) : list larr * out :=
  match nth_error h i with
  | Some a => let '(a', o) := f a in (put h i a', o)
  | None => (h, XNoObj)
  end.
Definition read1 {B} (h : list larr) (i : nat) (f : larr -> larr * result B)
  (k : result B -> out) : list larr * out :=
  with1 h i (fun a => let '(a', r) := f a in (a', k r)).
Definition write1 (h : list larr) (i : nat) (f : larr -> larr * option exn) : list larr * out :=
  with1 h i (fun a => let '(a', e) := f a in (a', XDone e)).
Definition make1 (h : list larr) (i : nat) (f : larr -> larr * result larr) : list larr * out :=
  match nth_error h i with
  | Some a => let '(a', r) := f a in add_new (put h i a') r
  | None => (h, XNoObj)
  end.
Definition make2 (h : list larr) (i j : nat) (f : larr -> larr -> larr * larr * result larr)
  : list larr * out :=
  match nth_error h i, nth_error h j with
  | Some a, Some b => let '(a', b', r) := f a b in add_new (put (put h i a') j b') r
  | _, _ => (h, XNoObj)
  end.

Definition step (h : list larr) (o : op) : list larr * out :=
  match o with
  | ONew v rg =>
      match laval_of h v with
      | Some v => add_new h (mk_larr v rg)
      | None => (h, XNoObj)
      end
  | OFromUnsigned z rg ov => add_new h (from_unsigned z rg ov)
  | OFromSigned z rg ov => add_new h (from_signed z rg ov)
  | OFromBytes b rg o => add_new h (from_bytes b rg o)
  | OFromHandle s w => add_new h (from_handle s w)
  | OStr i => read1 h i la_get_str XStr
  | OToUnsigned i rnd => read1 h i (to_unsigned rx rnd) XInt
  | OToSigned i rnd => read1 h i (to_signed rx rnd) XInt
  | OToBytes i o rnd => read1 h i (to_bytes rx rnd o) XBytes
  | OIter i => read1 h i la_iter XList
  | OReversed i => read1 h i la_reversed XList
  | OContains i v => read1 h i (fun a => la_contains a v) XBool
  | OCount i v => read1 h i (fun a => la_count a v) XInt
  | OIndex i v s e => read1 h i (fun a => la_index a v s e) XInt
  | OGet i k => read1 h i (fun a => la_getitem a k) XLogic
  | OGetSlice i s e st => make1 h i (fun a => la_getslice a s e st)
  | OEq i j =>
      match nth_error h i, nth_error h j with
      | Some a, Some b => let '(a', b', r) := la_eq a b in (put (put h i a') j b', XBool r)
      | _, _ => (h, XNoObj)
      end
  | OEqStr i s => read1 h i (fun a => la_eq_str a s) XBool
  | OEqInt i z rnd => read1 h i (fun a => la_eq_int rx rnd a z) XBool
  | OEqList i l => read1 h i (fun a => la_eq_list a l) XBool
  | OResolvable i => read1 h i la_is_resolvable XBool
  | OBool i rnd => read1 h i (la_bool rx rnd) XBool
  | OFormat i spec rnd => read1 h i (fun a => la_format rx rnd a spec) XStr
  | OSet i k v => write1 h i (fun a => la_setitem a k v)
  | OSetSlice i s e st v =>
      match v with
      | WObj j =>
          if Nat.eqb j i then write1 h i (fun a => la_setslice a s e st None)
          else match laval_of h v with
               | Some v => write1 h i (fun a => la_setslice a s e st (Some v))
               | None => (h, XNoObj)
               end
      | _ =>
          match laval_of h v with
          | Some v => write1 h i (fun a => la_setslice a s e st (Some v))
          | None => (h, XNoObj)
          end
      end
  | OSetRange i r => write1 h i (fun a => la_set_range a r)
  | OAnd i j => make2 h i j la_and
  | OOr i j => make2 h i j la_or
  | OXor i j => make2 h i j la_xor
  | ONot i => make1 h i la_invert
  | OResolve i r rnd => make1 h i (la_resolve r rnd)
  | OCopy i => make1 h i (fun a => (a, Ok (la_deepcopy a)))
  end.

Fixpoint run (h : list larr) (ops : list op) : list larr * list out :=
  match ops with
  | [] => (h, [])
  | o :: ops' =>
      let '(h1, x) := step h o in
      let '(h2, xs) := run h1 ops' in (h2, x :: xs)
  end.
End Step.

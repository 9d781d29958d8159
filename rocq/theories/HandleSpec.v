(** Specification vocabulary for the value handles (C40-C42). *)
From Coq Require Import String.
From Verif Require Import Base RangeSpec RangeModel ArrayModel LogicModel LogicSpec LogicArrayModel LogicArraySpec HandleModel.
Open Scope Z_scope.

(** * Which element writes an assignment asks for (C40, C42) *)

(** The documented GPI action code of each kind of right-hand side. [AOldImmediate] is what
    [setimmediatevalue] makes of a plain value; its code is that of a deposit. *)
Definition code (x : aval) : Z :=
  match x with
  | APlain _ | ADeposit _ | AOldImmediate _ => 0
  | AForce _ | AFreeze => 1
  | ARelease => 2
  | AImmediate _ => 3
  end.

(** The value an assignment asks for: given, or read back from the simulator. *)
Definition wanted (rd : reads) (h : handle) (x : aval) : result pyval :=
  match x with
  | APlain v | ADeposit v | AForce v | AImmediate v | AOldImmediate v => Ok v
  | AFreeze | ARelease => get_value rd h
  end.

(** The element writes of a value that fits the handle: a leaf takes the whole value, an array takes
    one element per label, in the order of its labels. *)
Inductive requests : handle -> pyval -> list (hid * simval) -> Prop :=
| req_leaf id c k v s : conv k v = Ok s -> requests (HLeaf id c k) v [(id, s)]
| req_arr c l r d sub rg v vs qs :
    handle_range l r d = Ok rg -> py_length v = Ok (range_len rg) -> py_iterate v = Ok vs ->
    requests_seq sub vs (range_iter rg) qs -> requests (HArr c l r d sub) v qs
with requests_seq : list (Z * handle) -> list pyval -> list Z -> list (hid * simval) -> Prop :=
| req_nil sub : requests_seq sub [] [] []
| req_cons sub v vs i is h q qs :
    sub_at i sub = Ok h -> requests h v q -> requests_seq sub vs is qs ->
    requests_seq sub (v :: vs) (i :: is) (q ++ qs).

(** Values whose length and iteration agree, as for every object Python code can build. *)
Fixpoint wf_val (v : pyval) : Prop :=
  match v with
  | PLarr a => exists rx, is_larr rx a
  | PList l => fold_right (fun x P => wf_val x /\ P) True l
  | PArr l r => py_len l = range_len r /\ fold_right (fun x P => wf_val x /\ P) True l
  | _ => True
  end.

(** The same as a function that also covers values that do not fit: the element writes attempted
    before the first unusable element, and the exception for that element. *)
Fixpoint plan_seq (subs : list (Z * (pyval -> list (hid * simval) * option exn)))
  (vs : list pyval) (is : list Z) : list (hid * simval) * option exn :=
  match vs, is with
  | v :: vs', i :: is' =>
      match sub_at i subs with
      | Err e => ([], Some e)
      | Ok f => match f v with
                | (q, Some e) => (q, Some e)
                | (q, None) => let '(qs, e) := plan_seq subs vs' is' in (q ++ qs, e)
                end
      end
  | _, _ => ([], None)
  end.
Fixpoint plan (h : handle) (v : pyval) : list (hid * simval) * option exn :=
  match h with
  | HLeaf id _ k => match conv k v with Ok s => ([(id, s)], None) | Err e => ([], Some e) end
  | HArr _ l r d sub =>
      match py_length v with
      | Err e => ([], Some e)
      | Ok n =>
      match handle_range l r d with
      | Err e => ([], Some e)
      | Ok rg => if n =? range_len rg
                 then match py_iterate v with
                      | Err e => ([], Some e)
                      | Ok vs => plan_seq (map (fun p => (fst p, plan (snd p))) sub) vs (range_iter rg)
                      end
                 else ([], Some ValueError)
      end end
  end.

(** The element writes asked for by the assignments of a run that starts in phase [p]: nothing in a
    ReadOnly phase, nothing for a constant. Each is (object, action code, value). *)
Definition asked_by (p : phase) (rd : reads) (h : handle) (x : aval) : list (hid * Z * simval) :=
  if is_ro p then [] else if h_const h then []
  else match wanted rd h x with
       | Ok v => map (fun q => (fst q, code x, snd q)) (fst (plan h v))
       | Err _ => []
       end.
(** What [setimmediatevalue] passes on. *)
Definition immediate_of (x : aval) : aval :=
  match x with
  | APlain v | ADeposit v => AOldImmediate v
  | AOldImmediate _ => AOldImmediate PNone
  | _ => x
  end.
Fixpoint asked (p : phase) (l : list wop) : list (hid * Z * simval) :=
  match l with
  | [] => []
  | OFire p' :: l' => asked p' l'
  | OSet rd h x :: l' => asked_by p rd h x ++ asked p l'
  | OSetNow rd h x :: l' => asked_by p rd h (immediate_of x) ++ asked p l'
  end.
Definition hid_of (w : hid * Z * simval) : hid := fst (fst w).
Definition code_of (w : hid * Z * simval) : Z := snd (fst w).
Definition deposits (l : list (hid * Z * simval)) := filter (fun w => code_of w =? 0) l.
Definition others (l : list (hid * Z * simval)) := filter (fun w => negb (code_of w =? 0)) l.

(** Only the last write to each object, in the order of those last writes. *)
Fixpoint keep_last (l : list (hid * Z * simval)) : list (hid * Z * simval) :=
  match l with
  | [] => []
  | w :: l' => if existsb (fun w' => Nat.eqb (hid_of w') (hid_of w)) l' then keep_last l'
               else w :: keep_last l'
  end.

(** A step that does not enter the ReadWrite phase. *)
Definition not_rw (o : wop) : bool := match o with OFire PhReadWrite => false | _ => true end.
Definition is_fire (o : wop) : bool := match o with OFire _ => true | _ => false end.
(** The argument checks of the C++ layer accept the value. *)
Definition accepted (w : hid * Z * simval) : Prop := bind_check (snd w) = None.
(** Everything asked for in a run is acceptable. *)
Definition all_accepted (l : list (hid * Z * simval)) : Prop := Forall accepted l.

(** Element writes handed to the scheduler one after the other; an exception ends the sequence. *)
Fixpoint schedule_all (trust : bool) (l : list wreq) (st : wst) : wst * option exn :=
  match l with
  | [] => (st, None)
  | q :: l' => match schedule_write trust q st with
               | (st1, None) => schedule_all trust l' st1
               | (st1, Some e) => (st1, Some e)
               end
  end.

Definition mk_reqs (a : act_name) (l : list (hid * simval)) : list wreq :=
  map (fun q => WReq (fst q) a (snd q)) l.

(** * What the simulator receives (C41) *)

(** bind.cpp:562 casts the value of set_signal_val_int to int32. *)
Definition int32 (z : Z) : Z := (z + 2 ^ 31) mod 2 ^ 32 - 2 ^ 31.
(** The [n] values a write puts on an [n]-element object, leftmost first; None if the string is not
    made of literals. *)
Definition delivered (n : nat) (s : simval) : option (list logic) :=
  match s with
  | SInt z => Some (bits n (int32 z))
  | SStr s => match logics_of_str s with Ok l => Some l | Err _ => None end
  | _ => None
  end.
(** Bounds of an integer object by the signedness reported by the simulator. *)
Definition in_bounds (n : nat) (signed z : Z) : Prop :=
  match signed with
  | 0 => 0 <= z < 2 ^ Z.of_nat n
  | 1 => - 2 ^ (Z.of_nat n - 1) <= z < 2 ^ (Z.of_nat n - 1)
  | _ => - 2 ^ (Z.of_nat n - 1) <= z < 2 ^ Z.of_nat n
  end.
(** A read of an [n]-bit object holding [z]: any integer with the right low bits that fits the object
    as a signed or unsigned number (up to 32 bits), or its binary string. *)
Definition reads_back (n : nat) (rd : reads) (id : hid) (z : Z) : Prop :=
  if (n <=? 32)%nat
  then rd_long rd id mod 2 ^ Z.of_nat n = z mod 2 ^ Z.of_nat n /\
       - 2 ^ (Z.of_nat n - 1) <= rd_long rd id < 2 ^ Z.of_nat n
  else rd_binstr rd id = map logic_chr (bits n z).

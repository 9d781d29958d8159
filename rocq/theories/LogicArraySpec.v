(** Specification of LogicArray programs: each object is a plain list of Logic values with a
    Range (an [array logic], whose element and slice access is settled by C04-C06), and no caches.
    The second component of an object says whether indexing warnings are enabled. *)
From Coq Require Import String.
From Verif Require Import Base RangeModel ArrayModel LogicModel LogicSpec LogicArrayModel LogicArrayMachine.
Open Scope Z_scope.

Definition sobj := (array logic * bool)%type.
Definition s_len (x : array logic) : Z := Z.of_nat (length (a_value x)).
Definition s_chars (v : list logic) : pystr := map logic_chr v.

(** Attach a list of values to a range (default: n-1 downto 0). *)
Definition s_attach (vs : list logic) (range : option Range) : result (array logic) :=
  match range with
  | Some r => if py_len vs =? range_len r then Ok (Array vs r) else Err ValueError
  | None => bind (downto_range (py_len vs)) (fun r => Ok (Array vs r))
  end.

(** The values of a str: '_' dropped, each other character read by Logic(). *)
Definition s_of_str (s : pystr) : result (list logic) :=
  map_result (fun c => logic_new CLogic (LvStr [c])) (filter (fun c => negb (c =? 95)) s).
(** The values of an int in [n] bits. *)
Definition s_of_int (z n : Z) : result (list logic) :=
  if (n =? 0) || (z <? - 2 ^ (n - 1)) || (2 ^ n <=? z) then Err ValueError
  else Ok (bits (Z.to_nat n) z).

Inductive sval := SStr (s : pystr) | SInt (z : Z) | SArr (x : array logic) | SIter (l : list litval).
Definition s_new (v : sval) (rg : rangearg) : result (array logic) :=
  bind (norm_range rg) (fun range =>
  match v with
  | SStr s => bind (s_of_str s) (fun vs => s_attach vs range)
  | SInt z => match range with
              | None => Err TypeError
              | Some r => bind (s_of_int z (range_len r)) (fun vs => s_attach vs range)
              end
  | SArr x => match range with
              | None => Ok x
              | Some _ => s_attach (a_value x) range
              end
  | SIter l => bind (map_result (logic_new CLogic) l) (fun vs => s_attach vs range)
  end).

(** What a resolver does to one value. *)
Definition s_resolve1 (r : resolver) (bit : bool) (l : logic) : logic :=
  match r with
  | RError => l
  | RWeak => match l with LL => L0 | LH => L1 | LW => LX | _ => l end
  | RZeros | ROnes | RRandom =>
      match bool_of l with
      | Some b => of_bool b
      | None => match r with RZeros => L0 | ROnes => L1 | _ => of_bool bit end
      end
  end.
Fixpoint s_resolve (r : resolver) (rnd : nat -> bool) (v : list logic) : list logic :=
  match v with
  | [] => []
  | l :: v' => s_resolve1 r (rnd O) l :: s_resolve r (fun n => rnd (S n)) v'
  end.

(** The integer read from the characters without resolving unknowns. A leading '-' (don't care)
    before definite values is read as a minus sign; see C09. *)
Definition s_int0 (v : list logic) : option Z :=
  match v with
  | [] => None
  | LD :: ((_ :: _) as w) => if definite w then Some (- unsigned w) else None
  | _ => if definite v then Some (unsigned v) else None
  end.
Definition s_int (rx : option resolver) (rnd : nat -> bool) (v : list logic) : result Z :=
  match v with
  | [] => Err ValueError
  | _ =>
      match s_int0 v with
      | Some k => Ok k
      | None =>
          match rx with
          | Some ((RZeros | ROnes | RRandom) as r) => Ok (unsigned (s_resolve r rnd v))
          | _ => Err ValueError
          end
      end
  end.
Definition s_signed (rx : option resolver) (rnd : nat -> bool) (v : list logic) : result Z :=
  bind (s_int rx rnd v) (fun k =>
  Ok (if 2 ^ (Z.of_nat (length v) - 1) <=? k then k - 2 ^ Z.of_nat (length v) else k)).
Definition s_bytes rx rnd o (v : list logic) : result (list Z) :=
  bind (s_int rx rnd v) (int_to_bytes o ((Z.of_nat (length v) + 7) / 8)).
Definition s_bool (rx : option resolver) (rnd : nat -> bool) (v : list logic) : result bool :=
  match v with
  | [] => Ok false
  | _ => match rx with
         | None => bind (s_int rx rnd v) (fun k => Ok (negb (k =? 0)))
         | Some _ => Ok (existsb (fun l => match bool_of l with Some true => true | _ => false end) v)
         end
  end.
Definition s_eq_int rx rnd (v : list logic) (z : Z) : bool :=
  match (if z <? 0 then s_signed rx rnd v else s_int rx rnd v) with
  | Ok k => k =? z
  | Err _ => false
  end.
Definition s_format rx rnd (v : list logic) (spec : pystr) : result pystr :=
  match spec with
  | [] => Ok (s_chars v)
  | _ => bind (fmt_plan (Z.of_nat (length v)) spec) (fun '(alt, prefix, width, sep, t) =>
         bind (s_int rx rnd v) (fun k =>
         bind (py_format_int k alt width sep t) (fun s => Ok (prefix ++ s))))
  end.

(** Element and slice access; with warnings enabled the index is also used as a position. *)
Definition s_get (x : sobj) (k : Z) : result logic :=
  bind (if snd x then range_getitem (a_range (fst x)) k else Ok 0) (fun _ => array_get (fst x) k).
Definition s_getslice (x : sobj) (s e : option Z) (st : bool) : result (array logic) :=
  bind (if snd x then
          bind (range_getitem (a_range (fst x)) (match s with Some p => p | None => 0 end)) (fun _ =>
          range_getitem (a_range (fst x)) (match e with Some p => p | None => s_len (fst x) - 1 end))
        else Ok 0) (fun _ =>
  array_getslice (fst x) s e st).
Fixpoint s_index_loop (x : sobj) (v : litval) (labels : list Z) : result Z :=
  match labels with
  | [] => Err ValueError
  | i :: rest => bind (s_get x i) (fun y => if logic_eq y v then Ok i else s_index_loop x v rest)
  end.
Definition s_index (x : sobj) (v : litval) (start stop : option Z) : result Z :=
  let s := match start with Some p => p | None => left_of (a_range (fst x)) end in
  let e := match stop with Some p => p | None => right_of (a_range (fst x)) end in
  bind (direction_of (a_range (fst x))) (fun d =>
  bind (mk_range s (DStr d) (Some e)) (fun r => s_index_loop x v (range_iter r))).

Definition s_set (x : array logic) (k : Z) (v : litval) : array logic * option exn :=
  match array_get x k with
  | Err e => (x, Some e)
  | Ok _ => match logic_new CLogic v with
            | Err e => (x, Some e)
            | Ok l => array_set x k l
            end
  end.
Definition s_setslice (x : array logic) s e st (v : sval) : array logic * option exn :=
  match slice_bounds x s e st with
  | Err ex => (x, Some ex)
  | Ok (_, _, si, ei) =>
      match s_new v (RInt (ei - si + 1)) with
      | Err ex => (x, Some ex)
      | Ok y => array_setslice x s e st (a_value y)
      end
  end.
Definition s_zip (f : logic -> logic -> logic) (x y : array logic) : result (array logic) :=
  if s_len x =? s_len y
  then s_attach (map (fun '(p, q) => f p q) (combine (a_value x) (a_value y))) None
  else Err ValueError.

(** No weak 0/1 and no don't-care: equality of LogicArrays is only specified for these. *)
Definition clean (v : list logic) : bool :=
  forallb (fun l => match l with LL | LH | LD => false | _ => true end) v.

Section Step.
Variable rx : option resolver.

Definition sval_of (h : list sobj) (v : opval) : option sval :=
  match v with
  | WStr s => Some (SStr s)
  | WInt z => Some (SInt z)
  | WIter l => Some (SIter l)
  | WObj i => match nth_error h i with Some x => Some (SArr (fst x)) | None => None end
  end.
Definition s_obs (h : list sobj) (i : nat) (f : sobj -> out) : list sobj * option out :=
  match nth_error h i with Some x => (h, Some (f x)) | None => (h, Some XNoObj) end.
Definition s_wr (h : list sobj) (i : nat) (f : array logic -> array logic * option exn)
  : list sobj * option out :=
  match nth_error h i with
  | Some (x, w) => let '(x', e) := f x in (put h i (x', w), Some (XDone e))
  | None => (h, Some XNoObj)
  end.
Definition s_add (h : list sobj) (w : bool) (r : result (array logic)) : list sobj * option out :=
  match r with
  | Ok x => (h ++ [(x, w)], Some (XNew None))
  | Err e => (h, Some (XNew (Some e)))
  end.
Definition s_mk1 (h : list sobj) (i : nat) (f : sobj -> result (array logic)) :=
  match nth_error h i with Some x => s_add h false (f x) | None => (h, Some XNoObj) end.
Definition s_mk2 (h : list sobj) (i j : nat) (f : logic -> logic -> logic) :=
  match nth_error h i, nth_error h j with
  | Some x, Some y => s_add h false (s_zip f (fst x) (fst y))
  | _, _ => (h, Some XNoObj)
  end.

(** One call; output [None] means "not specified". *)
Definition s_step (h : list sobj) (o : op) : list sobj * option out :=
  match o with
  | ONew v rg => match sval_of h v with
                 | Some v => s_add h false (s_new v rg)
                 | None => (h, Some XNoObj)
                 end
  | OFromUnsigned z rg ov =>
      s_add h false (bind (req_range rg) (fun r =>
        if (z <? 0) || (range_len r =? 0) then Err ValueError
        else match ov with
             | OvWrap => Ok (Array (bits (Z.to_nat (range_len r)) z) r)
             | OvError => if z <? 2 ^ range_len r then Ok (Array (bits (Z.to_nat (range_len r)) z) r)
                          else Err ValueError
             | OvOther => Err ValueError
             end))
  | OFromSigned z rg ov =>
      s_add h false (bind (req_range rg) (fun r =>
        if range_len r =? 0 then Err ValueError
        else match ov with
             | OvWrap => Ok (Array (bits (Z.to_nat (range_len r)) z) r)
             | OvError => if (- 2 ^ (range_len r - 1) <=? z) && (z <? 2 ^ (range_len r - 1))
                          then Ok (Array (bits (Z.to_nat (range_len r)) z) r) else Err ValueError
             | OvOther => Err ValueError
             end))
  | OFromBytes b rg o =>
      s_add h false (bind (norm_range rg) (fun range =>
        bind (match range with None => downto_range (py_len b * 8) | Some r => Ok r end) (fun r =>
        if py_len b * 8 =? range_len r then s_new (SInt (int_from_bytes o b)) (RRange r)
        else Err ValueError)))
  | OFromHandle s w => s_add h w (bind (map_result (fun c => logic_new CLogic (LvStr [c])) s)
                                       (fun vs => s_attach vs None))
  | OStr i => s_obs h i (fun x => XStr (Ok (s_chars (a_value (fst x)))))
  | OToUnsigned i rnd => s_obs h i (fun x => XInt (s_int rx rnd (a_value (fst x))))
  | OToSigned i rnd => s_obs h i (fun x => XInt (s_signed rx rnd (a_value (fst x))))
  | OToBytes i o rnd => s_obs h i (fun x => XBytes (s_bytes rx rnd o (a_value (fst x))))
  | OIter i => s_obs h i (fun x => XList (Ok (a_value (fst x))))
  | OReversed i => s_obs h i (fun x => XList (Ok (rev (a_value (fst x)))))
  | OContains i v => s_obs h i (fun x => XBool (Ok (existsb (fun l => logic_eq l v) (a_value (fst x)))))
  | OCount i v => s_obs h i (fun x => XInt (Ok (Z.of_nat (length (filter (fun l => logic_eq l v) (a_value (fst x)))))))
  | OIndex i v s e => s_obs h i (fun x => XInt (s_index x v s e))
  | OGet i k => s_obs h i (fun x => XLogic (s_get x k))
  | OGetSlice i s e st => s_mk1 h i (fun x => s_getslice x s e st)
  | OEq i j =>
      match nth_error h i, nth_error h j with
      | Some x, Some y =>
          (h, if clean (a_value (fst x)) && clean (a_value (fst y))
              then Some (XBool (Ok (logics_eqb (a_value (fst x)) (a_value (fst y))))) else None)
      | _, _ => (h, Some XNoObj)
      end
  | OEqStr i s => s_obs h i (fun x => XBool (Ok (pystr_eqb (s_chars (a_value (fst x))) (upper s))))
  | OEqInt i z rnd => s_obs h i (fun x => XBool (Ok (s_eq_int rx rnd (a_value (fst x)) z)))
  | OEqList i l =>
      s_obs h i (fun x => XBool (Ok (match map_result (logic_new CLogic) l with
                                     | Ok vs => logics_eqb (a_value (fst x)) vs
                                     | Err _ => false
                                     end)))
  | OResolvable i => s_obs h i (fun x => XBool (Ok (definite (a_value (fst x)))))
  | OBool i rnd => s_obs h i (fun x => XBool (s_bool rx rnd (a_value (fst x))))
  | OFormat i spec rnd => s_obs h i (fun x => XStr (s_format rx rnd (a_value (fst x)) spec))
  | OSet i k v => s_wr h i (fun x => s_set x k v)
  | OSetSlice i s e st v => match sval_of h v with
                            | Some v => s_wr h i (fun x => s_setslice x s e st v)
                            | None => (h, Some XNoObj)
                            end
  | OSetRange i r => s_wr h i (fun x => array_set_range x r)
  | OAnd i j => s_mk2 h i j spec_and
  | OOr i j => s_mk2 h i j spec_or
  | OXor i j => s_mk2 h i j spec_xor
  | ONot i => s_mk1 h i (fun x => s_attach (map spec_not (a_value (fst x))) None)
  | OResolve i r rnd =>
      s_mk1 h i (fun x => s_attach (s_resolve r rnd (a_value (fst x))) (Some (a_range (fst x))))
  | OCopy i => match nth_error h i with
               | Some x => (h ++ [x], Some (XNew None))
               | None => (h, Some XNoObj)
               end
  end.
Fixpoint s_run (h : list sobj) (ops : list op) : list sobj * list (option out) :=
  match ops with
  | [] => (h, [])
  | o :: ops' =>
      let '(h1, x) := s_step h o in
      let '(h2, xs) := s_run h1 ops' in (h2, x :: xs)
  end.
End Step.

(** Arguments which Python code can pass: Range objects, bytes, and simulator strings of
    logic characters. *)
Definition rangearg_ok (rg : rangearg) : Prop :=
  match rg with RRange r => exists l d e, mk_range l d e = Ok r | _ => True end.
Definition op_ok (o : op) : Prop :=
  match o with
  | ONew _ rg | OFromUnsigned _ rg _ | OFromSigned _ rg _ => rangearg_ok rg
  | OFromBytes b rg _ => rangearg_ok rg /\ Forall (fun x => 0 <= x < 256) b
  | OFromHandle s _ => Forall (fun c => In c (lit "UX01ZWLH-")) s
  | OSetRange _ r => exists l d e, mk_range l d e = Ok r
  | _ => True
  end.
(** Observed output against specified output. *)
Definition out_agrees (x : out) (y : option out) : Prop :=
  match y with Some y => x = y | None => True end.

(** A LogicArray that some program can get hold of. *)
Definition is_larr (rx : option resolver) (a : larr) : Prop :=
  exists ops i, Forall op_ok ops /\ nth_error (fst (run rx [] ops)) i = Some a.
(** Its elements, as iteration yields them. *)
Definition elems (a : larr) : list logic := match snd (la_iter a) with Ok l => l | Err _ => [] end.
(** [a'] is [a] up to cached representations: same elements, labels and warning mode. *)
Definition same (a' a : larr) : Prop :=
  elems a' = elems a /\ la_range a' = la_range a /\ la_warn a' = la_warn a.

(** * Reading formatted numbers *)
Definition digit_val (c : Z) : Z :=
  if (48 <=? c) && (c <=? 57) then c - 48
  else if (97 <=? c) && (c <=? 102) then c - 87
  else c - 55.
Definition read_number (base : Z) (s : pystr) : Z := fold_left (fun acc c => base * acc + digit_val c) s 0.
Definition spec_of (alt : bool) (sep : option Z) (t : Z) : pystr :=
  (if alt then [35] else []) ++ (match sep with Some c => [c] | None => [] end) ++ [t].
(** Type letter, base, prefix written by '#'. *)
Definition fmt_letters : list (Z * (Z * pystr)) :=
  [(98, (2, lit "0b")); (111, (8, lit "0o")); (100, (10, lit "0d")); (120, (16, lit "0x")); (88, (16, lit "0X"))]%string.
Definition no_sep (s : pystr) : pystr := filter (fun c => negb ((c =? 95) || (c =? 44))) s.

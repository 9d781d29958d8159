(** Model of how simulation objects are looked up, created and cached:
    /repo/src/cocotb/handle.py 198-606 (hierarchy objects), 1074-1086 (ArrayObject indexing),
    1390-1400 (LogicArrayObject indexing) and 1810-1863 (object factory).
    The simulator is an arbitrary but fixed set of answers ([sim]); the code relies on this ("Hierarchy
    can't change after elaboration", 252-257). Names and indexes outside the C argument types of the
    simulator calls are not considered. *)
From Coq Require Import String.
From Verif Require Import Base LogicArrayModel TextModel ToolsModel XmlModel.
Open Scope Z_scope.

(** GPI object types (keys of [_type2cls], handle.py:1816-1830); anything else is unknown. *)
Inductive gpi_type :=
| T_MODULE | T_STRUCTURE | T_PACKED_STRUCTURE | T_LOGIC | T_LOGIC_ARRAY | T_NETARRAY | T_REAL
| T_INTEGER | T_ENUM | T_STRING | T_FIXED_STRING | T_GENARRAY | T_PACKAGE | T_OTHER (code : Z).

(** The Python classes. *)
Inductive cls :=
| C_Hierarchy | C_HierarchyArray | C_Logic | C_LogicArray | C_Array | C_Real | C_Integer | C_Enum
| C_String | C_FixedString.

(** handle.py:1816-1830 [_type2cls]. *)
Definition type2cls (t : gpi_type) : option cls :=
  match t with
  | T_MODULE | T_STRUCTURE | T_PACKAGE => Some C_Hierarchy
  | T_PACKED_STRUCTURE | T_LOGIC_ARRAY => Some C_LogicArray
  | T_LOGIC => Some C_Logic
  | T_NETARRAY => Some C_Array
  | T_REAL => Some C_Real
  | T_INTEGER => Some C_Integer
  | T_ENUM => Some C_Enum
  | T_STRING => Some C_String
  | T_FIXED_STRING => Some C_FixedString
  | T_GENARRAY => Some C_HierarchyArray
  | T_OTHER _ => None
  end.

(** GPIDiscovery, handle.py:198-202. *)
Inductive discovery := AUTO | NATIVE.

(** The simulator's answers: name, type and iteration of an object, search by name and by index. Equal
    numbers are equal [sim_obj]s. *)
Record sim := Sim {
  s_name : nat -> pystr;
  s_type : nat -> gpi_type;
  s_iterate : nat -> list nat;
  s_by_name : nat -> pystr -> discovery -> option nat;
  s_by_index : nat -> Z -> option nat }.

(** Keys of [_sub_handles]: names for HierarchyObject, indexes for the array-like classes. *)
Inductive key := KName (s : pystr) | KIdx (i : Z).
Definition key_eqb (a b : key) : bool :=
  match a, b with
  | KName s, KName t => pystr_eqb s t
  | KIdx i, KIdx j => i =? j
  | _, _ => false
  end.

(** [dict] operations on [_sub_handles] (insertion ordered). *)
Fixpoint sub_get (k : key) (d : list (key * nat)) : option nat :=
  match d with
  | [] => None
  | (k', v) :: d' => if key_eqb k' k then Some v else sub_get k d'
  end.
Fixpoint sub_set (k : key) (v : nat) (d : list (key * nat)) : list (key * nat) :=
  match d with
  | [] => [(k, v)]
  | (k', v') :: d' => if key_eqb k' k then (k', v) :: d' else (k', v') :: sub_set k v d'
  end.

(** A Python handle object: handle.py:79-83 and 223-226. *)
Record obj := Obj {
  o_hid : nat; o_cls : cls; o_path : pystr; o_subs : list (key * nat); o_disc : bool }.

(** All objects created so far (the position is the object's identity) and [_handle2obj]
    (handle.py:1811-1814). *)
Record lst := LSt { l_objs : list obj; l_h2o : list (nat * nat) }.

Definition lst0 : lst := LSt [] [].

(** [_handle2obj[handle]]. *)
Fixpoint h2o_get (h : nat) (d : list (nat * nat)) : option nat :=
  match d with
  | [] => None
  | (h', r) :: d' => if Nat.eqb h' h then Some r else h2o_get h d'
  end.

(** Results: a value, one of the shared exceptions, or NotImplementedError. *)
Inductive lres (A : Type) := LOk (a : A) | LErr (e : exn) | LNotImpl.
Arguments LOk {A} a.
Arguments LErr {A} e.
Arguments LNotImpl {A}.

(** handle.py:1833-1863 [_make_sim_object]; [path = None] uses the object's name (line 82). *)
Definition make_sim_object (S : sim) (st : lst) (h : nat) (path : option pystr) : lst * lres nat :=
  match h2o_get h (l_h2o st) with
  | Some r => (st, LOk r)
  | None =>
      match type2cls (s_type S h) with
      | None => (st, LNotImpl)
      | Some c =>
          let r := List.length (l_objs st) in
          let p := match path with Some p => p | None => s_name S h end in
          (LSt (l_objs st ++ [Obj h c p [] false]) (l_h2o st ++ [(h, r)]), LOk r)
      end
  end.

(** Replace the object at position [r]. *)
Definition obj_put (st : lst) (r : nat) (o : obj) : lst :=
  LSt (firstn r (l_objs st) ++ o :: skipn (S r) (l_objs st)) (l_h2o st).

(** [self._sub_handles[key] = sub]. *)
Definition cache (st : lst) (r : nat) (k : key) (c : nat) : lst :=
  match nth_error (l_objs st) r with
  | Some o => obj_put st r (Obj (o_hid o) (o_cls o) (o_path o) (sub_set k c (o_subs o)) (o_disc o))
  | None => st
  end.

(** [str.startswith("_")]. *)
Definition underscore (s : pystr) : bool := match s with c :: _ => c =? 95 | [] => false end.

(** The end of the regular expressions of handle.py:566-572: one or more digits, then [tail], then
    [$], which also matches before a final newline. ASCII digits only. *)
Definition digits_then (tail s : pystr) : option pystr :=
  let n := (List.length s - List.length tail)%nat in
  let ds := firstn n s in
  if pystr_eqb (skipn n s) tail && negb (pystr_eqb ds []) && forallb is_digit ds then Some ds else None.
Definition match_end (tail s : pystr) : option pystr :=
  match digits_then tail s with
  | Some ds => Some ds
  | None => match rev s with
            | c :: r => if c =? 10 then digits_then tail (rev r) else None
            | [] => None
            end
  end.

(** handle.py:559-577 [HierarchyArrayObject._sub_handle_key]: name__X, then name(X) ignoring case,
    then name[X]. Case folding is ASCII only. *)
Definition array_key (self_name name : pystr) : result Z :=
  let p1 := match after_prefix (self_name ++ lit "__") name with Some s => match_end [] s | None => None end in
  let p2 := match after_prefix (lower self_name ++ lit "(") (lower name) with
            | Some s => match_end (lit ")") s | None => None end in
  let p3 := match after_prefix (self_name ++ lit "[") name with Some s => match_end (lit "]") s | None => None end in
  match p1 with
  | Some ds => Ok (num_of ds)
  | None => match p2 with
            | Some ds => Ok (num_of ds)
            | None => match p3 with Some ds => Ok (num_of ds) | None => Err ValueError end
            end
  end.

(** [_sub_handle_key]: handle.py:507-508 and 559-577. *)
Definition sub_handle_key (S : sim) (o : obj) (name : pystr) : result key :=
  match o_cls o with
  | C_HierarchyArray => bind (array_key (s_name S (o_hid o)) name) (fun i => Ok (KIdx i))
  | _ => Ok (KName name)
  end.

(** [_child_path]: handle.py:503-505, 579-580. *)
Definition child_path (S : sim) (o : obj) (k : key) : pystr :=
  match k with
  | KName s =>
      o_path o ++ (match s_type S (o_hid o) with T_PACKAGE => lit "::" | _ => lit "." end) ++ s
  | KIdx i => o_path o ++ lit "[" ++ py_str_int i ++ lit "]"
  end.

(** The loop of [_discover_all] (handle.py:261-287); unusable children are logged and skipped. *)
Fixpoint discover_loop (S : sim) (r : nat) (things : list nat) (st : lst) : lst :=
  match things with
  | [] => st
  | h :: things' =>
      let st' :=
        match nth_error (l_objs st) r with
        | None => st
        | Some o =>
            match sub_handle_key S o (s_name S h) with
            | Err _ => st
            | Ok k =>
                match make_sim_object S st h (Some (child_path S o k)) with
                | (st1, LOk c) => cache st1 r k c
                | (st1, _) => st1
                end
            end
        end in
      discover_loop S r things' st'
  end.

(** handle.py:252-289 [_discover_all]. *)
Definition discover_all (S : sim) (r : nat) (st : lst) : lst :=
  match nth_error (l_objs st) r with
  | None => st
  | Some o =>
      if o_disc o then st
      else
        let st1 := discover_loop S r (s_iterate S (o_hid o)) st in
        match nth_error (l_objs st1) r with
        | Some o1 => obj_put st1 r (Obj (o_hid o1) (o_cls o1) (o_path o1) (o_subs o1) true)
        | None => st1
        end
  end.

(** [_get_handle_by_key]: handle.py:510-513, 582-589. *)
Definition handle_by_key (S : sim) (o : obj) (k : key) (d : discovery) : lres (option nat) :=
  match k with
  | KName s => LOk (s_by_name S (o_hid o) s d)
  | KIdx i => match d with AUTO => LOk (s_by_index S (o_hid o) i) | NATIVE => LNotImpl end
  end.

(** handle.py:291-326 [_get]. *)
Definition get_child (S : sim) (r : nat) (k : key) (d : discovery) (st : lst) : lst * lres (option nat) :=
  match nth_error (l_objs st) r with
  | None => (st, LErr TypeError)
  | Some o =>
      match sub_get k (o_subs o) with
      | Some c => (st, LOk (Some c))
      | None =>
          match handle_by_key S o k d with
          | LErr e => (st, LErr e)
          | LNotImpl => (st, LNotImpl)
          | LOk None => (st, LOk None)
          | LOk (Some h) =>
              match make_sim_object S st h (Some (child_path S o k)) with
              | (st1, LOk c) => (cache st1 r k c, LOk (Some c))
              | (st1, LErr e) => (st1, LErr e)
              | (st1, LNotImpl) => (st1, LNotImpl)
              end
          end
      end
  end.

(** [if handle is None: raise ...] after [_get]. *)
Definition or_raise (e : exn) (x : lst * lres (option nat)) : lst * lres nat :=
  match x with
  | (st, LOk (Some c)) => (st, LOk c)
  | (st, LOk None) => (st, LErr e)
  | (st, LErr e') => (st, LErr e')
  | (st, LNotImpl) => (st, LNotImpl)
  end.

(** handle.py:454-461 [__getattr__], reached only for names that are no regular attributes; names
    starting with "_" go to object.__getattribute__, which has already failed. *)
Definition getattr (S : sim) (r : nat) (name : pystr) (st : lst) : lst * lres nat :=
  if underscore name then (st, LErr AttributeError)
  else or_raise AttributeError (get_child S r (KName name) AUTO st).

(** handle.py:463-467 and 591-598 [__getitem__]. *)
Definition getitem (S : sim) (r : nat) (k : key) (st : lst) : lst * lres nat :=
  or_raise (match k with KName _ => KeyError | KIdx _ => IndexError end) (get_child S r k AUTO st).

(** handle.py:438-452 [__setattr__]: looks the child up, then always refuses; names starting with "_"
    become plain Python attributes ([LOk]), which are not modelled further. *)
Definition setattr (S : sim) (r : nat) (name : pystr) (st : lst) : lst * lres unit :=
  if underscore name then (st, LOk tt)
  else match getattr S r name st with
       | (st1, LErr AttributeError) => (st1, LErr AttributeError)
       | (st1, LErr e) => (st1, LErr e)
       | (st1, LNotImpl) => (st1, LNotImpl)
       | (st1, LOk _) => (st1, LErr AttributeError)
       end.

(** handle.py:472-501 [_id]. *)
Definition id_ (S : sim) (r : nat) (name : pystr) (extended : bool) (st : lst) : lst * lres nat :=
  let name := if extended then [92] ++ name ++ [92] else name in
  or_raise AttributeError (get_child S r (KName name) AUTO st).

(** handle.py:228-234 [_keys] and 370-372 [__len__] (the number of keys). *)
Definition keys (S : sim) (r : nat) (st : lst) : lst * list key :=
  let st1 := discover_all S r st in
  (st1, match nth_error (l_objs st1) r with Some o => map fst (o_subs o) | None => [] end).

(** handle.py:236-242 [_values], iterated by HierarchyObject (367-368). *)
Definition values (S : sim) (r : nat) (st : lst) : lst * list nat :=
  let st1 := discover_all S r st in
  (st1, match nth_error (l_objs st1) r with Some o => map snd (o_subs o) | None => [] end).

(** [sorted(self._keys())] on ints: insertion sort stands for Python's stable sort. *)
Fixpoint insert_sorted (i : Z) (l : list Z) : list Z :=
  match l with
  | [] => [i]
  | j :: l' => if i <=? j then i :: l else j :: insert_sorted i l'
  end.
Definition sort_keys (l : list key) : list Z :=
  fold_right insert_sorted [] (flat_map (fun k => match k with KIdx i => [i] | KName _ => [] end) l).

(** handle.py:602-605 [HierarchyArrayObject.__iter__] run to the end. *)
Fixpoint getitems (S : sim) (r : nat) (is : list Z) (st : lst) : lst * lres (list nat) :=
  match is with
  | [] => (st, LOk [])
  | i :: is' =>
      match getitem S r (KIdx i) st with
      | (st1, LOk c) =>
          match getitems S r is' st1 with
          | (st2, LOk cs) => (st2, LOk (c :: cs))
          | x => x
          end
      | (st1, LErr e) => (st1, LErr e)
      | (st1, LNotImpl) => (st1, LNotImpl)
      end
  end.
Definition iter_array (S : sim) (r : nat) (st : lst) : lst * lres (list nat) :=
  let '(st1, ks) := keys S r st in getitems S r (sort_keys ks) st1.

(** handle.py:1074-1086 [ArrayObject.__getitem__]. *)
Definition elem (S : sim) (r : nat) (i : Z) (st : lst) : lst * lres nat :=
  or_raise IndexError (get_child S r (KIdx i) AUTO st).

(** handle.py:1390-1400 [LogicArrayObject.__getitem__]: creates the LogicObject directly. *)
Definition bit (S : sim) (r : nat) (i : Z) (st : lst) : lst * lres nat :=
  match nth_error (l_objs st) r with
  | None => (st, LErr TypeError)
  | Some o =>
      match sub_get (KIdx i) (o_subs o) with
      | Some c => (st, LOk c)
      | None =>
          match s_by_index S (o_hid o) i with
          | None => (st, LErr IndexError)
          | Some h =>
              let c := List.length (l_objs st) in
              let st1 := LSt (l_objs st ++ [Obj h C_Logic (child_path S o (KIdx i)) [] false]) (l_h2o st) in
              (cache st1 r (KIdx i) c, LOk c)
          end
      end
  end.

(** One user action on an object. The class of the object decides which actions exist. *)
Inductive lop :=
| LRoot (h : nat)                             (* _init.py:91, 222, 235 *)
| LGet (r : nat) (k : key) (d : discovery)
| LAttr (r : nat) (name : pystr)
| LSetAttr (r : nat) (name : pystr)
| LItem (r : nat) (k : key)
| LId (r : nat) (name : pystr) (extended : bool)
| LKeys (r : nat) | LValues (r : nat) | LIter (r : nat)
| LElem (r : nat) (i : Z)
| LBit (r : nat) (i : Z).

(** The kind of key each class uses, and whether the action is defined for it. *)
Definition key_fits (c : cls) (k : key) : bool :=
  match c, k with
  | C_Hierarchy, KName _ => true
  | C_HierarchyArray, KIdx _ => true
  | _, _ => false
  end.
Definition op_fits (st : lst) (o : lop) : bool :=
  let at_ r f := match nth_error (l_objs st) r with Some x => f (o_cls x) | None => false end in
  match o with
  | LRoot _ => true
  | LGet r k _ | LItem r k => at_ r (fun c => key_fits c k)
  | LAttr r _ | LSetAttr r _ | LId r _ _ => at_ r (fun c => key_fits c (KName []))
  | LKeys r | LValues r => at_ r (fun c => key_fits c (KName []) || key_fits c (KIdx 0))
  | LIter r => at_ r (fun c => key_fits c (KIdx 0))
  | LElem r _ => at_ r (fun c => match c with C_Array => true | _ => false end)
  | LBit r _ => at_ r (fun c => match c with C_LogicArray => true | _ => false end)
  end.

(** The state after an action. *)
Definition lstep (S : sim) (o : lop) (st : lst) : lst :=
  if negb (op_fits st o) then st
  else match o with
  | LRoot h => fst (make_sim_object S st h None)
  | LGet r k d => fst (get_child S r k d st)
  | LAttr r n => fst (getattr S r n st)
  | LSetAttr r n => fst (setattr S r n st)
  | LItem r k => fst (getitem S r k st)
  | LId r n e => fst (id_ S r n e st)
  | LKeys r => fst (keys S r st)
  | LValues r => fst (values S r st)
  | LIter r => fst (iter_array S r st)
  | LElem r i => fst (elem S r i st)
  | LBit r i => fst (bit S r i st)
  end.
Definition lrun (S : sim) (l : list lop) (st : lst) : lst := fold_left (fun s o => lstep S o s) l st.

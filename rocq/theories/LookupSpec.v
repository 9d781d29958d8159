(** What C43 talks about: what the simulator says about the children of an object, which object a
    lookup finds, and reachable states. Independent of the caches of the model. *)
From Coq Require Import String.
From Verif Require Import Base LogicArrayModel TextModel XmlModel LookupModel.
Open Scope Z_scope.

(** The children which iterating over [p] (of class [c]) reports, with the key their name stands for. *)
Inductive listed (S : sim) (p : nat) : cls -> key -> nat -> Prop :=
| ls_name h : In h (s_iterate S p) -> listed S p C_Hierarchy (KName (s_name S h)) h
| ls_index h i : In h (s_iterate S p) -> array_key (s_name S p) (s_name S h) = Ok i ->
    listed S p C_HierarchyArray (KIdx i) h.

(** Everything the simulator may answer for the child of [p] (of class [c]) under key [k]: by name, by
    index, or by iterating. *)
Inductive answers (S : sim) (p : nat) : cls -> key -> nat -> Prop :=
| ans_name n d h : s_by_name S p n d = Some h -> answers S p C_Hierarchy (KName n) h
| ans_index c i h : c <> C_Hierarchy -> s_by_index S p i = Some h -> answers S p c (KIdx i) h
| ans_listed c k h : listed S p c k h -> answers S p c k h.

(** The simulator never gives two different objects for one key. *)
Definition consistent (S : sim) : Prop :=
  forall p c k h1 h2, type2cls (s_type S p) = Some c -> answers S p c k h1 -> answers S p c k h2 -> h1 = h2.

(** The plain search (AUTO) finds whatever the simulator knows of. *)
Definition searchable (S : sim) : Prop :=
  forall p c k h, type2cls (s_type S p) = Some c -> answers S p c k h ->
  match k with KName n => s_by_name S p n AUTO = Some h | KIdx i => s_by_index S p i = Some h end.

(** What the plain search says. *)
Definition search (S : sim) (p : nat) (k : key) : option nat :=
  match k with KName n => s_by_name S p n AUTO | KIdx i => s_by_index S p i end.

(** The states of a session. *)
Definition reachable (S : sim) (st : lst) : Prop := exists ops, st = lrun S ops lst0.

(** The parent and key a lookup asks for. *)
Definition asked (q : lop) : option (nat * key) :=
  match q with
  | LGet r k _ | LItem r k => Some (r, k)
  | LAttr r n => if underscore n then None else Some (r, KName n)
  | LId r n e => Some (r, KName (if e then [92] ++ n ++ [92] else n))
  | LElem r i | LBit r i => Some (r, KIdx i)
  | _ => None
  end.

(** The lookup [q] returns the Python object [c] and leaves the state [st']. *)
Definition finds (S : sim) (st : lst) (q : lop) (c : nat) (st' : lst) : Prop :=
  match q with
  | LGet r k d => get_child S r k d st = (st', LOk (Some c))
  | LAttr r n => getattr S r n st = (st', LOk c)
  | LItem r k => getitem S r k st = (st', LOk c)
  | LId r n e => id_ S r n e st = (st', LOk c)
  | LElem r i => elem S r i st = (st', LOk c)
  | LBit r i => bit S r i st = (st', LOk c)
  | LRoot h => make_sim_object S st h None = (st', LOk c)
  | _ => False
  end.

(** The exception documented for a missing child (handle.py:405-406, 530, 1081, 1397); [_get] returns
    None instead. *)
Definition misses (S : sim) (st : lst) (q : lop) : Prop :=
  match q with
  | LGet r k d => get_child S r k d st = (st, LOk None)
  | LAttr r n => getattr S r n st = (st, LErr AttributeError)
  | LItem r k => getitem S r k st = (st, LErr (match k with KName _ => KeyError | KIdx _ => IndexError end))
  | LId r n e => id_ S r n e st = (st, LErr AttributeError)
  | LElem r i => elem S r i st = (st, LErr IndexError)
  | LBit r i => bit S r i st = (st, LErr IndexError)
  | _ => False
  end.

(** Is the lookup one with the default discovery strategy? *)
Definition default_search (q : lop) : bool := match q with LGet _ _ NATIVE => false | _ => true end.

(** The simulator object behind a Python object, and its class and path. *)
Definition hid (st : lst) (r : nat) : option nat := option_map o_hid (nth_error (l_objs st) r).
Definition path (st : lst) (r : nat) : option pystr := option_map o_path (nth_error (l_objs st) r).
Definition class (st : lst) (r : nat) : option cls := option_map o_cls (nth_error (l_objs st) r).

(** The path of the child [k] of an object with path [p] (handle.py:503-505, 579-580, 1082, 1398). *)
Definition joined (p : pystr) (package : bool) (k : key) : pystr :=
  match k with
  | KName n => p ++ (if package then lit "::" else lit ".") ++ n
  | KIdx i => p ++ lit "[" ++ py_str_int i ++ lit "]"
  end.

(** The action does not index a packed vector. *)
Definition not_bit (q : lop) : bool := match q with LBit _ _ => false | _ => true end.

(** The names of the elements of the array [name], as the simulator interfaces write them
    (handle.py:563-565). *)
Definition elem_names (name : pystr) (i : Z) : list pystr :=
  [name ++ lit "[" ++ py_str_int i ++ lit "]"; name ++ lit "(" ++ py_str_int i ++ lit ")";
   name ++ lit "__" ++ py_str_int i].

(** The types of simulator objects behind each class of handle (handle.py:1816-1830 and the classes at 380, 516,
    1113, 1247, 972, 1431, 1580, 1485, 1695, 1774). *)
Definition types_of (c : cls) : list gpi_type :=
  match c with
  | C_Hierarchy => [T_MODULE; T_STRUCTURE; T_PACKAGE]
  | C_HierarchyArray => [T_GENARRAY]
  | C_Logic => [T_LOGIC]
  | C_LogicArray => [T_PACKED_STRUCTURE; T_LOGIC_ARRAY]
  | C_Array => [T_NETARRAY]
  | C_Real => [T_REAL]
  | C_Integer => [T_INTEGER]
  | C_Enum => [T_ENUM]
  | C_String => [T_STRING]
  | C_FixedString => [T_FIXED_STRING]
  end.

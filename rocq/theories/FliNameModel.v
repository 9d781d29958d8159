(** Objects of VHDL designs found by name, by index and by discovery through the FLI, /repo/src/cocotb/share/lib/gpi/fli/FliImpl.cpp:29-245,
    247-443, 549-593, 676-682, 684-1103 and FliObjHdl.cpp:42-95, 158-192, 260-297, 543-552, 697-711. Logging and the freeing of memory are left out.
    Numbers of the simulator are integers without a bound. *)
From Verif Require Import Base TextModel VpiNameModel.
From Verif Require XmlModel.
From Coq Require Import String.
Open Scope Z_scope.

(** What a function gives: an object, NULL, or behaviour which is undefined. *)
Inductive ans (A : Type) := Given (a : A) | Null | Undef.
Arguments Given {A}. Arguments Null {A}. Arguments Undef {A}.

(** /repo/src/cocotb/_vendor/fli/acc_vhdl.h:157-226. *)
Definition accForGenerate : Z := 1034.
Definition accSignal : Z := 1100.
Definition accVariable : Z := 1110.
Definition accGeneric : Z := 1120.
Definition accAlias : Z := 1130.
Definition accAliasSignal : Z := 1131.
Definition accVHDLConstant : Z := 1140.
Definition is_vhdl (full : Z) : bool := (full <=? 1170) && (1010 <=? full).

(** Types of VHDL, as mti_GetTypeKind, mti_TickLeft, mti_TickRight, mti_TickDir, mti_TickLength, mti_GetEnumValues and mti_GetArrayElementType tell of
    them. [TOther]: access, file, time and the other kinds. *)
Inductive ty := TEnum (lits : list pystr) | TScalar | TPhysical | TReal | TArray (left right dir len : Z) (elem : ty) | TRecord (fields : Z) | TOther.
(** The types of gpi.h which the FLI gives. *)
Inductive fgt := FModule | FGenArray | FLogic | FLogicArray | FInteger | FEnum | FReal | FString | FArray | FStructure.
Definition fgt_eqb (a b : fgt) : bool :=
  match a, b with
  | FModule, FModule | FGenArray, FGenArray | FLogic, FLogic | FLogicArray, FLogicArray | FInteger, FInteger | FEnum, FEnum | FReal, FReal
  | FString, FString | FArray, FArray | FStructure, FStructure => true
  | _, _ => false
  end.

(** The functions of the FLI, [false]: of signals, [true]: of variables. [region_name]: none: the handle is not that of a region, and to ask for its name
    is undefined; [obj_name]: mti_GetSignalName and mti_GetVarName, [indirect_name]: mti_GetSignalNameIndirect, none: NULL; [lower]: the regions of
    mti_FirstLowerRegion and mti_NextRegion; [objs]: mti_FirstSignal, mti_FirstVarByRegion and what follows; [subs]: the array of
    mti_GetSignalSubelements or mti_GetVarSubelements; [tops]: mti_GetTopRegion and what follows. *)
Record fli (H : Type) := Fli {
  find_region : pystr -> option H;
  find_obj : bool -> pystr -> option H;
  acc_type : H -> Z;
  acc_full : H -> Z;
  var_kind : H -> Z;
  region_name : H -> option pystr;
  region_full : H -> pystr;
  obj_name : bool -> H -> option pystr;
  indirect_name : H -> option pystr;
  obj_type : bool -> H -> ty;
  lower : H -> list H;
  objs : bool -> H -> list H;
  subs : bool -> H -> list H;
  tops : list H }.
Arguments find_region {H}. Arguments find_obj {H}. Arguments acc_type {H}. Arguments acc_full {H}. Arguments var_kind {H}. Arguments region_name {H}.
Arguments region_full {H}. Arguments obj_name {H}. Arguments indirect_name {H}. Arguments obj_type {H}. Arguments lower {H}. Arguments objs {H}. Arguments subs {H}.
Arguments tops {H}.

(** FliObj and GpiObjHdl (FliImpl.hpp:173-213, gpi_priv.hpp:56-110): the handle, m_type, m_const, m_is_var, m_acc_type, m_acc_full_type, m_name, m_fullname,
    m_num_elems, m_indexable, m_range_left, m_range_right, m_range_dir. *)
Record fobj (H : Type) := FObj {
  f_hdl : H; f_type : fgt; f_const : bool; f_var : bool; f_acc : Z; f_accfull : Z; f_name : pystr; f_full : pystr;
  f_num : Z; f_indexable : bool; f_left : Z; f_right : Z; f_dir : Z }.
Arguments FObj {H}. Arguments f_hdl {H}. Arguments f_type {H}. Arguments f_const {H}. Arguments f_var {H}. Arguments f_acc {H}. Arguments f_accfull {H}.
Arguments f_name {H}. Arguments f_full {H}. Arguments f_num {H}. Arguments f_indexable {H}. Arguments f_left {H}. Arguments f_right {H}. Arguments f_dir {H}.

(** FliImpl.cpp:33-59 [isValueLogic], 61-64 [isValueChar], 66-78 [isValueBoolean]. *)
Fixpoint same_lits (a b : list pystr) : bool :=
  match a, b with [], [] => true | x :: a', y :: b' => pystr_eqb x y && same_lits a' b' | _, _ => false end.
Definition std_logic_lits : list pystr := map (fun c => [39; c; 39]) (lit "UX01ZWLH-").
Definition is_logic (lits : list pystr) : bool :=
  if Nat.eqb (List.length lits) 2 then same_lits lits [lit "'0'"; lit "'1'"]
  else if Nat.eqb (List.length lits) 9 then same_lits lits std_logic_lits
  else false.
Definition is_char (lits : list pystr) : bool := Nat.eqb (List.length lits) 256.
Definition is_boolean (lits : list pystr) : bool := Nat.eqb (List.length lits) 2 && same_lits lits [lit "FALSE"; lit "TRUE"].
(** FliImpl.cpp:80-87 [isTypeValue], [isTypeSignal]; 29-31 [isValueConst]. *)
Definition is_value (acc : Z) : bool := (acc =? accAlias) || (acc =? accVHDLConstant) || (acc =? accGeneric) || (acc =? accVariable) || (acc =? accSignal).
Definition is_signal (acc full : Z) : bool := (acc =? accSignal) || (full =? accAliasSignal).
Definition is_const (full : Z) : bool := (full =? accGeneric) || (full =? accVHDLConstant).

(** FliImpl.cpp:138-202 with the functions [initialise] of FliObjHdl.cpp: type, whether the object can be constant, number of elements, and the range if it can
    be indexed; none: the type is not handled. *)
Definition classify (t : ty) : option (fgt * bool * Z * option (Z * Z * Z)) :=
  match t with
  | TEnum lits => Some (if is_logic lits then (FLogic, true, 1, None)
                        else if is_boolean lits || is_char lits then (FInteger, true, 32, None)
                        else (FEnum, true, 1, None))
  | TScalar | TPhysical => Some (FInteger, true, 32, None)
  | TReal => Some (FReal, true, 1, None)
  | TArray l r dir n e =>
      let range := Some (l, r, dir) in
      Some (match e with
            | TEnum lits => if is_logic lits then (FLogicArray, true, n, range)
                            else if is_char lits then (FString, true, n, range)
                            else (FArray, false, n, range)
            | _ => (FArray, false, n, range)
            end)
  | TRecord _ => Some (FStructure, false, 0, None)
  | TOther => None
  end.

(** FliImpl.cpp:676-682 [compare_generate_labels]. *)
Definition flabel (s : pystr) : pystr := match before_last 40 s with Some (a, _) => a | None => s end.
Definition same_flabel (a b : pystr) : bool := pystr_eqb (flabel a) (flabel b).
(** FliImpl.cpp:375, 407: [snprintf(buff, 14, "(%d)", index)]. *)
Definition findex (i : Z) : pystr := firstn 13 (lit "(" ++ XmlModel.py_str_int i ++ lit ")").

Section Sim.
Context {H : Type} (v : fli H).

(** FliImpl.cpp:89-219 [create_gpi_obj_from_handle]. *)
Definition fcreate (h : H) (name fq : pystr) (acc full : Z) : ans (fobj H) :=
  if negb (is_vhdl full) then Null
  else if negb (is_value acc) then
    match region_name v h with
    | None => Undef
    | Some r =>
        if negb (pystr_eqb name r) then Given (FObj h FGenArray false false acc full name fq 1 true (-1) (-1) 0)
        else Given (FObj h FModule false false acc full name fq 1 false (-1) (-1) 0)
    end
  else
    let is_var := negb (is_signal acc full) in
    match classify (obj_type v is_var h) with
    | None => Null
    | Some (g, can_const, n, range) =>
        let const := can_const && is_var && is_const full in
        match range with
        | Some (l, r, dir) => Given (FObj h g const is_var acc full name fq n true l r dir)
        | None => Given (FObj h g const is_var acc full name fq n false (-1) (-1) 0)
        end
    end.
(** A handle with the numbers which say what it is. *)
Definition by_acc (h : H) (name fq : pystr) : ans (fobj H) := fcreate h name fq (acc_type v h) (acc_full v h).
Definition by_kind (h : H) (name fq : pystr) : ans (fobj H) := fcreate h name fq (var_kind v h) (var_kind v h).
(** FliImpl.cpp:327-329, 352-354: a pseudo-region with the handle of the parent. *)
Definition pseudo_region (parent : fobj H) (name fq : pystr) : ans (fobj H) := fcreate (f_hdl parent) name fq (f_acc parent) (f_accfull parent).

(** FliImpl.cpp:253-281: the full name, and whether regions, signals and variables are searched; none: 275-281. *)
Definition scope (name : pystr) (parent : fobj H) : option (pystr * bool * bool * bool) :=
  if pystr_eqb (f_full parent) (lit "/") then Some (f_full parent ++ name, true, true, true)
  else match f_type parent with
       | FModule => Some (f_full parent ++ lit "/" ++ name, true, true, true)
       | FStructure => Some (f_full parent ++ lit "." ++ name, false, negb (f_var parent), f_var parent)
       | _ => None
       end.
(** FliImpl.cpp:247-356 [get_child_by_name]; [native]: the parent is an object of the FLI. For others [reinterpret_cast] (268) and [dynamic_cast] (348) are
    undefined or NULL, which is then used. *)
Definition fchild (native : bool) (name : pystr) (parent : fobj H) : ans (fobj H) :=
  match scope name parent with
  | None => Null
  | Some (fq, rgn, sig, var) =>
      if negb native && fgt_eqb (f_type parent) FStructure && negb (pystr_eqb (f_full parent) (lit "/")) then Undef
      else
      match (if rgn then find_region v fq else None) with
      | Some h => if acc_full v h =? accForGenerate then (if native then pseudo_region parent name fq else Undef) else by_acc h name fq
      | None =>
      match (if sig then find_obj v false fq else None) with
      | Some h => if acc_full v h =? accForGenerate then (if native then pseudo_region parent name fq else Undef) else by_acc h name fq
      | None =>
      match (if var then find_obj v true fq else None) with
      | Some h => if var_kind v h =? accForGenerate then (if native then pseudo_region parent name fq else Undef) else by_kind h name fq
      | None =>
          if rgn && native &&
             existsb (fun r => (acc_full v r =? accForGenerate) && match region_name v r with Some n => same_flabel n name | None => false end) (lower v (f_hdl parent))
          then pseudo_region parent name fq
          else Null
      end end end
  end.

(** FliObjHdl.cpp:158-183 [get_sub_hdl]; the array of the simulator is read at [idx]. *)
Definition sub_hdl (parent : fobj H) (i : Z) : ans H :=
  if negb (f_indexable parent) then Null
  else
    let idx := if f_right parent <? f_left parent then f_left parent - i else i - f_left parent in
    if (idx <? 0) || (f_num parent <=? idx) then Null
    else match nth_error (subs v (f_var parent) (f_hdl parent)) (Z.to_nat idx) with Some h => Given h | None => Undef end.
(** FliImpl.cpp:363-437 [get_child_by_index]. *)
Definition felem (i : Z) (parent : fobj H) : ans (fobj H) :=
  let name := f_name parent ++ findex i in
  let fq := f_full parent ++ findex i in
  match f_type parent with
  | FGenArray => match find_region v fq with Some h => by_acc h name fq | None => Null end
  | FLogic | FLogicArray | FArray | FString =>
      match sub_hdl parent i with
      | Given h => if f_var parent then by_kind h name fq else by_acc h name fq
      | Null => Null
      | Undef => Undef
      end
  | _ => Null
  end.
(** FliImpl.cpp:549-593 [get_root_handle]; no name: NULL. *)
Definition froot (name : option pystr) : ans (fobj H) :=
  match find (fun r => match name with None => true | Some x => match region_name v r with Some n => pystr_eqb x n | None => false end end) (tops v) with
  | None => Null
  | Some r => match region_name v r with Some n => by_acc r n (region_full v r) | None => Undef end
  end.

(** * Discovery *)
(** FliIterator::OneToMany. *)
Inductive otm := OConstants | OSignals | ORegions | OSigSubs | OVarSubs.
(** FliImpl.cpp:684-737: the relations of each full type. *)
Definition over (full : Z) : option (list otm) :=
  if existsb (Z.eqb full) [1010; 1011; 1012; 1013; 1020; 1021; 1022; 1023; 1024; 1030; 1031; 1032; 1033; 1035; 1036; 1034; 1050]
  then Some [OConstants; OSignals; ORegions]
  else if existsb (Z.eqb full) [1100; 1101; 1102; 1131] then Some [OSigSubs]
  else if existsb (Z.eqb full) [1110; 1120; 1121; 1132; 1133; 1134; 1140] then Some [OVarSubs]
  else None.
(** Handles, and whether one was read outside of the array of the simulator. NULL may be among them. *)
Definition as_list (l : list (ans H)) : option (list (option H)) :=
  fold_right (fun a r => match a, r with Given h, Some l => Some (Some h :: l) | Null, Some l => Some (None :: l) | _, _ => None end) (Some []) l.
(** FliImpl.cpp:1058-1066: the indexes from the left to the right. *)
Definition indexes (l r : Z) : list Z :=
  if r <? l then map (fun k => l - Z.of_nat k) (seq 0 (Z.to_nat (l - r + 1))) else map (fun k => l + Z.of_nat k) (seq 0 (Z.to_nat (r - l + 1))).
(** FliImpl.cpp:1005-1103 [populate_handle_list]; none: undefined. Every relation is used once, so that the lists are empty before. *)
Definition populate (parent : fobj H) (r : otm) : option (list (option H)) :=
  let h := f_hdl parent in
  let sub is_var :=
    match f_type parent with
    | FStructure =>
        match obj_type v is_var h with
        | TRecord n => if (Z.of_nat (List.length (subs v is_var h)) <? n) then None else Some (map Some (firstn (Z.to_nat n) (subs v is_var h)))
        | _ => None
        end
    | _ => if f_indexable parent then as_list (map (sub_hdl parent) (indexes (f_left parent) (f_right parent))) else Some []
    end in
  match r with
  | OConstants => Some (map Some (objs v true h))
  | OSignals => Some (map Some (objs v false h))
  | ORegions => Some (map Some (lower v h))
  | OSigSubs => sub false
  | OVarSubs => sub true
  end.
Definition is_regions (r : otm) : bool := match r with ORegions => true | _ => false end.
Definition fgen (parent : fobj H) : bool := fgt_eqb (f_type parent) FGenArray.
(** The iterator: [one2many] with the relations behind it, and what [m_iterator] still gives. *)
Record fiter := FIt { fi_rels : list otm; fi_rest : list (option H) }.
(** FliImpl.cpp:739-807, the constructor. [Null]: [selected] is NULL. With no relation at all [m_currentHandles] would be NULL (796); the lists of
    [over] have one for every parent. *)
Fixpoint fi_first (parent : fobj H) (rels : list otm) : ans fiter :=
  match rels with
  | [] => Null
  | r :: rels' =>
      if fgen parent && negb (is_regions r) then fi_first parent rels'
      else match populate parent r with
           | None => Undef
           | Some [] => fi_first parent rels'
           | Some l => Given (FIt rels l)
           end
  end.
Definition fi_new (parent : fobj H) : ans fiter :=
  match over (f_accfull parent) with Some rels => fi_first parent rels | None => Null end.
(** FliImpl.cpp:829-848: a pseudo-region gives only the blocks with its label. *)
Definition fkeep (parent : fobj H) (h : H) : bool :=
  if fgen parent then (acc_full v h =? accForGenerate) && match region_name v h with Some n => same_flabel n (f_name parent) | None => false end else true.
(** The first handle which is let through, and what is behind it; a NULL ends the loop (850). *)
Fixpoint fi_kept (parent : fobj H) (l : list (option H)) : option (option H * list (option H)) :=
  match l with
  | [] => None
  | Some h :: l' => if fkeep parent h then Some (Some h, l') else fi_kept parent l'
  | None :: l' => Some (None, l')
  end.
(** FliImpl.cpp:857-888: the next relations. *)
Fixpoint fi_onwards (parent : fobj H) (rels : list otm) : ans (otm * H * fiter) :=
  match rels with
  | [] => Null
  | r :: rels' =>
      if fgen parent && negb (is_regions r) then fi_onwards parent rels'
      else match populate parent r with
           | None => Undef
           | Some l => match fi_kept parent l with
                       | Some (Some h, l') => Given (r, h, FIt rels l')
                       | Some (None, _) => Null
                       | None => fi_onwards parent rels'
                       end
           end
  end.
(** FliImpl.cpp:809-893: the loop of [next_handle]; [Null]: END. It is not called again after END (GpiStoreModel). *)
Definition fi_next (parent : fobj H) (i : fiter) : ans (otm * H * fiter) :=
  match fi_rels i with
  | [] => Null
  | r :: rels =>
      match fi_kept parent (fi_rest i) with
      | Some (Some h, l') => Given (r, h, FIt (r :: rels) l')
      | Some (None, _) => Null
      | None => fi_onwards parent rels
      end
  end.
(** The answers of [next_handle] (GpiIterator::Status) but END. *)
Inductive fstatus := FNative (o : fobj H) | FNotNative (name : pystr) | FNativeNoName | FNotNativeNoName (raw : H).
(** FliImpl.cpp:895-1003: what is made of the handle [h], which the relation [r] has given. *)
Definition fitem (parent : fobj H) (r : otm) (h : H) : ans fstatus :=
  let '(c_name, acc, full) :=
    match r with
    | OConstants | OVarSubs => (Given (obj_name v true h), var_kind v h, var_kind v h)
    | OSignals => (Given (obj_name v false h), acc_type v h, acc_full v h)
    | OSigSubs => (Given (indirect_name v h), acc_type v h, acc_full v h)
    | ORegions => (match region_name v h with Some n => Given (Some n) | None => Undef end, acc_type v h, acc_full v h)
    end in
  match c_name with
  | Given None => Given (if negb (is_vhdl full) then FNotNativeNoName h else FNativeNoName)
  | Given (Some c) =>
      let '(e, name, acc, full) :=                                                                         (* 933-962 *)
        if is_regions r && negb (fgen parent) && (full =? accForGenerate)
        then match before_last 40 c with
             | Some (x :: a, _) => (f_hdl parent, x :: a, f_acc parent, f_accfull parent)
             | _ => (h, c, acc, full)
             end
        else (h, c, acc, full) in
      let '(name, fq) :=                                                                                   (* 968-992 *)
        if pystr_eqb (f_full parent) (lit "/") then (name, f_full parent ++ name)
        else if (match r with OSigSubs | OVarSubs => true | _ => false end) || fgen parent
        then match before_last (if fgt_eqb (f_type parent) FStructure then 46 else 40) name with
             | Some (_, b) => (if fgen parent then name else tl b, f_full parent ++ b)
             | None => (name, f_full parent ++ lit "/" ++ name)
             end
        else (name, f_full parent ++ lit "/" ++ name) in
      match fcreate e name fq acc full with
      | Given o => Given (FNative o)
      | Null => Given (FNotNative name)
      | Undef => Undef
      end
  | _ => Undef
  end.
End Sim.

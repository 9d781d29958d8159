(** Discovery through the VPI: types of objects, iterators over children, roots, packages, drivers and loads,
    /repo/src/cocotb/share/lib/gpi/vpi/VpiIterator.cpp:14-413, VpiImpl.cpp:81-335, 602-684, VpiImpl.hpp:237-300. The names which the objects get
    are those of VpiNameModel. Logging, and the freeing of iterators and handles, are left out. *)
From Verif Require Import Base TextModel VpiNameModel.
From Coq Require Import String.
Open Scope Z_scope.

(** A simulator, with the numbers of its types: [rtype]: vpiType; [rname], [rfull]: vpiName, vpiFullName, none: NULL; [rconst]: vpiConstType;
    [rpacked]: vpiPacked; [iterate r h]: what [vpi_scan] gives until NULL on the iterator [vpi_iterate(r, h)], none: NULL is returned for the
    iterator. The others are those of VpiNameModel. *)
Record sim (H : Type) := Sim {
  look : pystr -> option H;
  at_index : H -> Z -> option H;
  rtype : H -> Z;
  rname : H -> option pystr;
  rfull : H -> option pystr;
  rconst : H -> Z;
  rpacked : H -> bool;
  rranges : H -> option (list (Z * Z));
  rown : H -> option (Z * Z);
  rsize : H -> Z;
  rvector : H -> bool;
  iterate : Z -> option H -> option (list H) }.
Arguments look {H}. Arguments at_index {H}. Arguments rtype {H}. Arguments rname {H}. Arguments rfull {H}. Arguments rconst {H}. Arguments rpacked {H}.
Arguments rranges {H}. Arguments rown {H}. Arguments rsize {H}. Arguments rvector {H}. Arguments iterate {H}.

(** The types and relations of vpi_user.h and sv_vpi_user.h (/repo/src/cocotb/_vendor/vpi). *)
Definition vpiConstant := 7.        Definition vpiGate := 21.           Definition vpiIntegerVar := 25.     Definition vpiMemory := 29.
Definition vpiMemoryWord := 30.     Definition vpiModule := 32.         Definition vpiNamedEvent := 34.     Definition vpiNet := 36.
Definition vpiNetBit := 37.         Definition vpiParameter := 41.      Definition vpiPort := 44.           Definition vpiPrimTerm := 46.
Definition vpiRealVar := 47.        Definition vpiReg := 48.            Definition vpiRegBit := 49.         Definition vpiSwitch := 55.
Definition vpiDriver := 91.         Definition vpiInternalScope := 92.  Definition vpiLoad := 93.           Definition vpiVariables := 100.
Definition vpiPrimitive := 103.     Definition vpiPrimitiveArray := 113. Definition vpiNetArray := 114.     Definition vpiRegArray := 116.
Definition vpiNamedEventArray := 129. Definition vpiGenScopeArray := 133. Definition vpiGenScope := 134.    Definition vpiUnionNet := 525.
Definition vpiRealNet := 527.       Definition vpiByteNet := 528.       Definition vpiShortIntNet := 529.   Definition vpiIntNet := 530.
Definition vpiLongIntNet := 531.    Definition vpiInterconnectNet := 533. Definition vpiInterconnectArray := 534. Definition vpiPackage := 600.
Definition vpiInterface := 601.     Definition vpiInterfaceArray := 603. Definition vpiLongIntVar := 610.   Definition vpiShortIntVar := 611.
Definition vpiIntVar := 612.        Definition vpiByteVar := 614.       Definition vpiStringVar := 616.     Definition vpiEnumVar := 617.
Definition vpiStructVar := 618.     Definition vpiUnionVar := 619.      Definition vpiBitVar := 620.        Definition vpiPackedArrayVar := 623.
Definition vpiEnumNet := 680.       Definition vpiIntegerNet := 681.    Definition vpiStructNet := 683.     Definition vpiPackedArrayNet := 693.
Definition vpiMember := 742.        Definition vpiInstance := 745.
(** [case a: case b: ...]. *)
Definition among (t : Z) (l : list Z) : bool := existsb (Z.eqb t) l.

(** VpiImpl.cpp:81-150 [to_gpi_objtype]. [GOther]: GPI_REAL, GPI_ENUM, GPI_INTEGER and GPI_UNKNOWN. *)
Definition to_gpi (t num : Z) (vec : bool) : gtype :=
  if among t [vpiNet; vpiNetBit; vpiBitVar; vpiReg; vpiRegBit; vpiMemoryWord; vpiPackedArrayVar; vpiPackedArrayNet]
  then if vec || (1 <? num) then GLogicArray else GLogic
  else if among t [vpiRealNet; vpiRealVar] then GOther
  else if among t [vpiInterfaceArray; vpiRegArray; vpiNetArray; vpiGenScopeArray; vpiMemory] then GArray
  else if among t [vpiStructVar; vpiStructNet; vpiUnionVar; vpiUnionNet] then GStructure
  else if among t [vpiInterface; vpiModule; vpiPort; vpiGate; vpiSwitch; vpiPrimTerm; vpiGenScope] then GModule
  else if t =? vpiPackage then GPackage
  else if t =? vpiStringVar then GString
  else GOther.
(** VpiImpl.cpp:152-180 [const_type_to_gpi_objtype]: vpiRealConst is 2, vpiStringConst is 6. *)
Definition const_gpi (c : Z) : gtype := if c =? 2 then GOther else if c =? 6 then GString else GLogicArray.
(** VpiImpl.cpp:187-327: the cases of [create_gpi_obj_from_handle]; the numbers of elements which MODELSIM corrects (222-247) are those of types on
    which [to_gpi_objtype] does not look at it. VpiSignal.cpp:19-23: the types which leave the range. *)
Definition vtype_of (t : Z) (num : Z) (vec packed : bool) (const : Z) : vtype :=
  if among t [vpiNet; vpiNetBit; vpiBitVar; vpiReg; vpiRegBit; vpiEnumNet; vpiEnumVar; vpiIntVar; vpiIntNet; vpiIntegerVar; vpiIntegerNet; vpiByteVar;
              vpiByteNet; vpiShortIntVar; vpiShortIntNet; vpiLongIntVar; vpiLongIntNet; vpiPackedArrayVar; vpiPackedArrayNet; vpiRealVar; vpiRealNet;
              vpiStringVar; vpiMemoryWord; vpiInterconnectNet]
  then VSignal (to_gpi t num vec) (among t [vpiIntVar; vpiIntegerVar; vpiIntegerNet; vpiRealNet])
  else if among t [vpiParameter; vpiConstant] then VConst (const_gpi const)
  else if among t [vpiRegArray; vpiNetArray; vpiInterfaceArray; vpiMemory; vpiInterconnectArray] then VArray (to_gpi t num vec)
  else if among t [vpiStructVar; vpiStructNet; vpiUnionVar; vpiUnionNet] then VStruct packed
  else if t =? vpiModule then VModule
  else if t =? vpiGenScope then VGenScope
  else if t =? vpiGenScopeArray then VGenScopeArray
  else if among t [vpiInterface; vpiPort; vpiGate; vpiSwitch; vpiPrimTerm] then VScope
  else VNone.

(** VpiIterator.cpp:14-87 [iterate_over]. [ius]: IUS is defined (51). *)
Definition instance_options := [vpiNet; vpiNetArray; vpiReg; vpiRegArray].
Definition module_options := instance_options ++
  [vpiMemory; vpiIntegerVar; vpiRealVar; vpiRealNet; vpiStructVar; vpiStructNet; vpiVariables; vpiNamedEvent; vpiNamedEventArray; vpiParameter;
   vpiPrimitive; vpiPrimitiveArray; vpiInternalScope].
Definition struct_options (ius : bool) := [vpiNet] ++ (if ius then [] else [vpiNetArray]) ++
  [vpiReg; vpiRegArray; vpiMemory; vpiParameter; vpiPrimitive; vpiPrimitiveArray; vpiMember].
Definition iterate_over (ius : bool) (t : Z) : option (list Z) :=
  if among t [vpiModule; vpiGenScope] then Some module_options
  else if t =? vpiInterface then Some instance_options
  else if among t [vpiStructVar; vpiStructNet] then Some (struct_options ius)
  else if t =? vpiNet then Some [vpiNetBit]
  else if t =? vpiNetArray then Some [vpiNet]
  else if t =? vpiRegArray then Some [vpiReg]
  else if t =? vpiMemory then Some [vpiMemoryWord]
  else if t =? vpiPackage then Some [vpiParameter]
  else None.

(** What a call of the code gives: a value, or it reads a NULL string or a variable which was not set, or an exception leaves it. *)
Inductive outcome (A : Type) := Fine (a : A) | NullRead | Unset | Throws.
Arguments Fine {A}. Arguments NullRead {A}. Arguments Unset {A}. Arguments Throws {A}.

Section Sim.
Context {H : Type} (s : sim H) (skips ius : bool).

(** The simulator as VpiNameModel sees it. An object without a name has the empty one there; where the names of scopes are read they exist. A
    vpiRealNet has one element (VpiSignal.cpp:22-23). *)
Definition see : vpi H := Vpi H (look s) (at_index s) (fun h => match rname s h with Some n => n | None => [] end)
  (fun h => vtype_of (rtype s h) (rsize s h) (rvector s h) (rpacked s h) (rconst s h)) (rranges s) (rown s)
  (fun h => if rtype s h =? vpiRealNet then 1 else rsize s h) (rvector s) (fun h => match iterate s vpiInternalScope (Some h) with Some l => l | None => [] end).

(** VpiImpl.hpp:218-234 VpiIterator: [one2many] with the relations behind it, and [m_iterator] as what it still gives. *)
Record iter := It { i_rels : list Z; i_scan : list H }.
Definition is_gen (parent : obj H) : bool := gtype_eqb (o_type parent) GGenArray.
(** VpiIterator.cpp:105-132; [asked]: [iterator] has been set. None: [selected] is NULL. *)
Fixpoint first_rel (gen asked : bool) (h : H) (rels : list Z) : outcome (option iter) :=
  match rels with
  | [] => if asked then Fine None else Unset
  | r :: rels' =>
      if gen && negb (r =? vpiInternalScope) then first_rel gen asked h rels'
      else match iterate s r (Some h) with Some l => Fine (Some (It rels l)) | None => first_rel gen true h rels' end
  end.
(** VpiIterator.cpp:89-139, the constructor. *)
Definition it_new (parent : obj H) : outcome (option iter) :=
  match iterate_over ius (rtype s (o_hdl parent)) with
  | Some rels => first_rel (is_gen parent) false (o_hdl parent) rels
  | None => Fine None
  end.
(** VpiIterator.cpp:278-303: the first object which is let through. *)
Fixpoint first_kept (parent : obj H) (l : list H) : option (H * list H) :=
  match l with [] => None | h :: l' => if let_through see h parent then Some (h, l') else first_kept parent l' end.
(** VpiIterator.cpp:310-326: the next relations. *)
Fixpoint onwards (parent : obj H) (rels : list Z) : option (Z * H * iter) :=
  match rels with
  | [] => None
  | r :: rels' =>
      if is_gen parent && negb (r =? vpiInternalScope) then onwards parent rels'
      else match iterate s r (Some (o_hdl parent)) with
           | Some l => match first_kept parent l with
                       | Some (h, l') => Some (r, h, It rels l')
                       | None => onwards parent rels'
                       end
           | None => onwards parent rels'
           end
  end.
(** VpiIterator.cpp:269-331: the loop of [next_handle]; none: END. It is not called again after END (GpiStoreModel). *)
Definition it_next (parent : obj H) (i : iter) : option (Z * H * iter) :=
  match i_rels i with
  | [] => None
  | r :: rels => match first_kept parent (i_scan i) with
                 | Some (h, l') => Some (r, h, It (r :: rels) l')
                 | None => onwards parent rels
                 end
  end.

(** The answers of [next_handle] (gpi_priv.hpp, GpiIterator::Status) but END. *)
Inductive status := Native (o : obj H) | NotNative (name : pystr) | NativeNoName | NotNativeNoName (raw : H).
(** VpiIterator.cpp:145, 158-170, 339-352: an object without a name; VPI_TYPE_MAX is 1000. *)
Definition nameless (h : H) : status := if 1000 <=? rtype s h then NotNativeNoName h else NativeNoName.
(** VpiIterator.cpp:339-413: what is made of the object [h], which the relation [r] has given. *)
Definition item (parent : obj H) (r : Z) (h : H) : status :=
  match rname s h with
  | None => nameless h
  | Some nm =>
      let '(e, name) :=
        if (r =? vpiInternalScope) && negb (is_gen parent) && (rtype s h =? vpiGenScope)
        then match before_last 91 nm with
             | Some (c :: a, _) => (o_hdl parent, c :: a)
             | _ => (h, nm)
             end
        else (h, nm) in
      let '(name, fq) :=
        match o_type parent with
        | GGenArray => (name, o_full parent ++ match before_last 91 name with Some (_, b) => b | None => lit "." ++ name end)
        | GStructure => match before_last 46 name with
                        | Some (_, b) => (tl b, o_full parent ++ b)
                        | None => (name, o_full parent ++ lit "." ++ name)
                        end
        | _ => (name, o_full parent ++ delimiter parent ++ name)
        end in
      match create see skips e name fq with Some o => Native o | None => NotNative name end
  end.

(** VpiIterator.cpp:147-183 VpiSingleIterator (GPI_DRIVERS, GPI_LOADS, VpiImpl.cpp:667-672): the name is that of [gpi_next] (GpiCommon.cpp:520),
    which is empty. *)
Definition single_item (h : H) : status :=
  match rname s h with
  | None => nameless h
  | Some nm => match create see skips h [] nm with Some o => Native o | None => NotNative [] end
  end.
(** VpiImpl.hpp:239-251: all of them. *)
Definition singles (r : Z) (parent : obj H) : list status := match iterate s r (Some (o_hdl parent)) with Some l => map single_item l | None => [] end.

(** VpiIterator.cpp:185-216, VpiImpl.hpp:289-296 VpiRootIterator: all roots. *)
Definition root_obj (h : H) (n : pystr) : obj H := set_names (fresh h GModule) n n.
Fixpoint roots_of (l : list H) : list (obj H) :=
  match l with
  | [] => []
  | h :: l' =>
      if negb (gtype_eqb (to_gpi (rtype s h) 0 false) GModule) then roots_of l'
      else match rfull s h with Some n => root_obj h n :: roots_of l' | None => roots_of l' end
  end.
Definition all_roots : list (obj H) := match iterate s vpiModule None with Some l => roots_of l | None => [] end.

(** VpiImpl.cpp:616-624: the loop of [get_root_handle]. *)
Fixpoint find_root (name : option pystr) (l : list H) : outcome (option (H * pystr)) :=
  match l with
  | [] => Fine None
  | h :: l' =>
      if negb (gtype_eqb (to_gpi (rtype s h) 0 false) GModule) then find_root name l'
      else match rfull s h with
           | None => NullRead
           | Some n => if match name with None => negb (nth 0 n 0 =? 92) | Some x => pystr_eqb x n end then Fine (Some (h, n)) else find_root name l'
           end
  end.
(** VpiImpl.cpp:649-655: the loop of the error. *)
Fixpoint report_roots (x : pystr) (l : list H) : outcome unit :=
  match l with
  | [] => Fine tt
  | h :: l' => match rfull s h with None => NullRead | Some n => if pystr_eqb x n then Fine tt else report_roots x l' end
  end.
(** VpiImpl.cpp:602-658 [get_root_handle]. At 647 the simulator gives what it gave at 609. *)
Definition get_root (name : option pystr) : outcome (option (obj H)) :=
  match iterate s vpiModule None with
  | None => Fine None
  | Some l =>
      match find_root name l with
      | Fine (Some (h, n)) => Fine (Some (root_obj h n))
      | Fine None => match name with
                     | None => Fine None
                     | Some x => match report_roots x l with Fine _ => Fine None | _ => NullRead end
                     end
      | _ => NullRead
      end
  end.

(** VpiIterator.cpp:249-256: the full name of a package. [compare] with a position behind the end of the string throws std::out_of_range. *)
Definition package_full (full : option pystr) : outcome pystr :=
  match full with
  | None => NullRead
  | Some f => if (List.length f <? 2)%nat then Throws
              else Fine (if pystr_eqb (skipn (List.length f - 2) f) (lit "::") then f else f ++ lit "::")
  end.
(** VpiIterator.cpp:218-261, VpiImpl.hpp:262-275 VpiPackageIterator: all packages, up to the first which is not fine. *)
Fixpoint packages_of (l : list H) : outcome (list (obj H)) :=
  match l with
  | [] => Fine []
  | h :: l' =>
      match (if rtype s h =? vpiPackage then rname s h else None) with
      | None => packages_of l'
      | Some n => match package_full (rfull s h) with
                  | Fine fq => match packages_of l' with
                               | Fine os => Fine (set_names (fresh h GPackage) n fq :: os)
                               | NullRead => NullRead | Unset => Unset | Throws => Throws
                               end
                  | NullRead => NullRead | Unset => Unset | Throws => Throws
                  end
      end
  end.
Definition all_packages : outcome (list (obj H)) := match iterate s vpiInstance None with Some l => packages_of l | None => Fine [] end.
End Sim.
Arguments It {H}. Arguments i_rels {H}. Arguments i_scan {H}.
Arguments Native {H}. Arguments NotNative {H}. Arguments NativeNoName {H}. Arguments NotNativeNoName {H}.

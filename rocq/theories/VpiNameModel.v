(** Objects found through the VPI: names, indexes, pseudo-handles of arrays and pseudo-regions of generate loops,
    /repo/src/cocotb/share/lib/gpi/vpi/VpiImpl.cpp:182-332, 361-600, 762-772, VpiObj.cpp:12-91, VpiSignal.cpp:16-100, VpiIterator.cpp:263-413.
    Logging and the freeing of handles are left out. *)
From Verif Require Import Base TextModel.
From Verif Require XmlModel.
From Coq Require Import String.
Open Scope Z_scope.

(** The types of gpi.h which matter here. *)
Inductive gtype := GModule | GGenArray | GArray | GStructure | GPackedStructure | GLogic | GLogicArray | GString | GPackage | GOther.
Definition gtype_eqb (a b : gtype) : bool :=
  match a, b with
  | GModule, GModule | GGenArray, GGenArray | GArray, GArray | GStructure, GStructure | GPackedStructure, GPackedStructure | GLogic, GLogic
  | GLogicArray, GLogicArray | GString, GString | GPackage, GPackage | GOther, GOther => true
  | _, _ => false
  end.
(** [vpi_get(vpiType, ...)], as far as [create_gpi_obj_from_handle] tells the types apart: [VSignal g int]: 198-256, with the type [g] which
    [to_gpi_objtype] gives and whether [VpiSignalObjHdl::initialise] leaves the range (VpiSignal.cpp:19-23); [VConst g]: 257-264; [VNone]:
    [vpiUnknown] and the default. *)
Inductive vtype := VSignal (g : gtype) (int : bool) | VConst (g : gtype) | VArray (g : gtype) | VStruct (packed : bool) | VGenScope | VModule | VScope | VGenScopeArray | VNone.

(** A simulator: the functions of the VPI. [None] stands for NULL. [ranges]: the ranges which [vpi_iterate(vpiRange)] gives, with the values of
    vpiLeftRange and vpiRightRange; [own]: these two of the handle itself, if it has them; [size]: vpiSize; [vector]: vpiVector; [scopes]:
    [vpi_iterate(vpiInternalScope)]. *)
Record vpi (H : Type) := Vpi {
  by_name : pystr -> option H;
  by_index : H -> Z -> option H;
  hname : H -> pystr;
  htype : H -> vtype;
  ranges : H -> option (list (Z * Z));
  own : H -> option (Z * Z);
  size : H -> Z;
  vector : H -> bool;
  scopes : H -> list H }.
Arguments by_name {H}. Arguments by_index {H}. Arguments hname {H}. Arguments htype {H}. Arguments ranges {H}. Arguments own {H}.
Arguments size {H}. Arguments vector {H}. Arguments scopes {H}.

(** gpi_priv.hpp:56-103 GpiObjHdl with the defaults of 95-99. [o_up]: m_range_dir, none: GPI_RANGE_NO_DIR. *)
Record obj (H : Type) := Obj {
  o_hdl : H; o_type : gtype; o_name : pystr; o_full : pystr;
  o_num : Z; o_indexable : bool; o_left : Z; o_right : Z; o_up : option bool }.
Arguments Obj {H}. Arguments o_hdl {H}. Arguments o_type {H}. Arguments o_name {H}. Arguments o_full {H}. Arguments o_num {H}.
Arguments o_indexable {H}. Arguments o_left {H}. Arguments o_right {H}. Arguments o_up {H}.

(** [std::string]: [s.rfind(x)] as what begins there; none: npos. *)
Fixpoint last_at (x s : pystr) : option pystr :=
  match s with
  | [] => match x with [] => Some [] | _ => None end
  | _ :: s' => match last_at x s' with
               | Some r => Some r
               | None => match after_prefix x s with Some _ => Some s | None => None end
               end
  end.
(** [std::count]. *)
Definition count (c : Z) (s : pystr) : Z := Z.of_nat (List.length (filter (Z.eqb c) s)).
(** [s.substr(0, s.rfind("["))], the whole string if there is none, and the rest. *)
Fixpoint before_last (c : Z) (s : pystr) : option (pystr * pystr) :=
  match s with
  | [] => None
  | x :: s' => match before_last c s' with
               | Some (a, b) => Some (x :: a, b)
               | None => if x =? c then Some ([], s) else None
               end
  end.
(** VpiImpl.cpp:762-768 [compare_generate_labels]. *)
Definition label (s : pystr) : pystr := match before_last 91 s with Some (a, _) => a | None => s end.
Definition same_label (a b : pystr) : bool := pystr_eqb (label a) (label b).
(** VpiImpl.cpp:770-772 [get_type_delimiter]. *)
Definition delimiter {H} (o : obj H) : pystr := if gtype_eqb (o_type o) GPackage then [] else lit ".".
(** VpiImpl.cpp:474-475, 481, 557, 587: [snprintf(buff, 14, "[%d]", index)]. *)
Definition index_text (i : Z) : pystr := firstn 13 (lit "[" ++ XmlModel.py_str_int i ++ lit "]").

Section Sim.
Context {H : Type} (v : vpi H).
(** [skips]: MODELSIM or VCS is defined (VpiObj.cpp:46); [ius]: IUS is defined (VpiImpl.cpp:370, 395). *)
Context (skips ius : bool).

Definition set_range (o : obj H) (num left right : Z) (up : bool) : obj H :=
  Obj (o_hdl o) (o_type o) (o_name o) (o_full o) num true left right (Some up).
Definition set_names (o : obj H) (name fq : pystr) : obj H :=
  Obj (o_hdl o) (o_type o) name fq (o_num o) (o_indexable o) (o_left o) (o_right o) (o_up o).
(** gpi_priv.hpp:95-99: a new object. *)
Definition fresh (h : H) (g : gtype) : obj H := Obj h g [] [] 0 false (-1) (-1) None.

(** VpiObj.cpp:38-64: the range which is used; none: -1 is returned. Without an iterator the handle itself is asked; the two handles
    exist there (they are not checked). *)
Definition array_range (h : H) (range_idx : Z) : option (Z * Z) :=
  match ranges v h with
  | Some l => nth_error l (if skips then Z.to_nat range_idx else 0%nat)
  | None => if range_idx =? 0 then own v h else None
  end.
(** VpiObj.cpp:12-91 [VpiArrayObjHdl::initialise]; none: -1 is returned and the object is left as it was, but indexable (16). *)
Definition array_init (o : obj H) (name fq : pystr) : option (obj H) :=
  let nm := hname v (o_hdl o) in
  match (if (List.length nm <? List.length name)%nat then option_map (count 91) (last_at nm name) else Some 0) with   (* 24-36 *)
  | None => None
  | Some range_idx =>
      match array_range (o_hdl o) range_idx with
      | None => None
      | Some (l, r) => Some (set_names (if r <? l then set_range o (l - r + 1) l r false else set_range o (r - l + 1) l r true) name fq)
      end
  end.
(** VpiSignal.cpp:16-100 [VpiSignalObjHdl::initialise]. *)
Definition signal_init (int const : bool) (o : obj H) (name fq : pystr) : option (obj H) :=
  let h := o_hdl o in
  let num := size v h in
  let done left right indexable := Some (Obj h (o_type o) name fq num indexable left right (Some (negb (right <? left)))) in
  if int then done (-1) (-1) false
  else if const then done 0 (num - 1) false
  else match o_type o with
       | GLogic | GLogicArray =>
           if vector v h then
             match ranges v h with
             | Some ((l, r) :: _) => done l r true
             | Some [] => None
             | None => match own v h with Some (l, r) => done l r true | None => done 0 (num - 1) true end
             end
           else done 0 (num - 1) false
       | GString => done 0 (num - 1) false
       | _ => done (-1) (-1) false
       end.

(** VpiImpl.cpp:182-332 [create_gpi_obj_from_handle]. What [initialise] returns is not looked at (329). *)
Definition create (h : H) (name fq : pystr) : option (obj H) :=
  match htype v h with
  | VConst g => signal_init false true (fresh h g) name fq
  | VSignal g int => match signal_init int false (fresh h g) name fq with
                     | Some o => Some o
                     | None => Some (Obj h g [] [] (size v h) (vector v h) (-1) (-1) None)
                     end
  | VArray g => match array_init (fresh h g) name fq with
                | Some o => Some o
                | None => Some (Obj h g [] [] 0 true (-1) (-1) None)
                end
  | VStruct packed => Some (set_names (fresh h (if packed then GPackedStructure else GStructure)) name fq)
  | VGenScope | VModule | VScope => Some (set_names (fresh h (if pystr_eqb (hname v h) name then GModule else GGenArray)) name fq)
  | VGenScopeArray => Some (set_names (fresh h (if pystr_eqb (hname v h) name then GArray else GGenArray)) name fq)
  | VNone => None
  end.

(** VpiImpl.cpp:361-469 [get_child_by_name]. *)
Definition child_by_name (name : pystr) (parent : obj H) : option (obj H) :=
  let fq := o_full parent ++ delimiter parent ++ name in
  let found := by_name v fq in
  let found := if ius then
                 match found with                                                                       (* 370-392 *)
                 | Some h => match htype v h with
                             | VGenScope => if existsb (fun s => same_label (hname v s) name) (scopes v (o_hdl parent)) then Some h else None
                             | _ => Some h
                             end
                 | None => None
                 end
               else match found with                                                                    (* 395-440 *)
                    | Some h => Some h
                    | None => if existsb (fun s => match htype v s with VGenScope | VModule => same_label (hname v s) name | _ => false end) (scopes v (o_hdl parent))
                              then Some (o_hdl parent) else None
                    end in
  match found with
  | None => None
  | Some h => create (match htype v h with VGenScopeArray => o_hdl parent | _ => h end) name fq         (* 456-467 *)
  end.

(** VpiImpl.cpp:524-555: the dimensions which are left. *)
Definition constraints (parent : obj H) : Z :=
  let all := match ranges v (o_hdl parent) with Some l => Z.of_nat (List.length l) | None => 1 end in
  let nm := hname v (o_hdl parent) in
  if (List.length nm <? List.length (o_name parent))%nat then all - count 93 (skipn (List.length nm) (o_name parent)) else all.
(** VpiImpl.cpp:471-600 [get_child_by_index]. *)
Definition child_by_index (i : Z) (parent : obj H) : option (obj H) :=
  let h := o_hdl parent in
  let text := index_text i in
  let found :=
    match o_type parent with
    | GGenArray => by_name v (o_full parent ++ text)
    | GLogic | GLogicArray | GArray | GString =>
        match by_index v h i with
        | Some e => Some e
        | None =>
            let up := match o_up parent with Some b => b | None => false end in
            if (up && ((i <? o_left parent) || (o_right parent <? i))) || (negb up && ((o_left parent <? i) || (i <? o_right parent))) then None
            else match by_name v (o_full parent ++ text) with
                 | Some e => Some e
                 | None => if 1 <? constraints parent then Some h else None
                 end
        end
    | _ => None
    end in
  match found with
  | None => None
  | Some e => create e (o_name parent ++ text) (o_full parent ++ text)
  end.
(** handle.py:1079-1094: an index after the other. *)
Fixpoint walk (l : list Z) (o : obj H) : option (obj H) :=
  match l with [] => Some o | i :: l' => match child_by_index i o with Some o' => walk l' o' | None => None end end.

(** VpiIterator.cpp:309-413: what [next_handle] makes of an object which the simulator gave; [internal]: it is among the vpiInternalScope. Objects
    without a name are left out. *)
Definition iterated (internal : bool) (h : H) (parent : obj H) : option (obj H) :=
  let nm := hname v h in
  let '(h, name) :=
    if internal && negb (gtype_eqb (o_type parent) GGenArray) && match htype v h with VGenScope => true | _ => false end
    then match before_last 91 nm with
         | Some (c :: a, _) => (o_hdl parent, c :: a)
         | _ => (h, nm)
         end
    else (h, nm) in
  let '(name, fq) :=
    match o_type parent with
    | GGenArray => (name, o_full parent ++ match before_last 91 name with Some (_, b) => b | None => lit "." ++ name end)
    | GStructure => match before_last 46 name with
                    | Some (_, b) => (tl b, o_full parent ++ b)
                    | None => (name, o_full parent ++ lit "." ++ name)
                    end
    | _ => (name, o_full parent ++ delimiter parent ++ name)
    end in
  create h name fq.
(** VpiIterator.cpp:281-297: a pseudo-region gives only the scopes with its label. *)
Definition let_through (h : H) (parent : obj H) : bool :=
  if gtype_eqb (o_type parent) GGenArray
  then match htype v h with VGenScope | VModule => same_label (hname v h) (o_name parent) | _ => false end
  else true.
End Sim.

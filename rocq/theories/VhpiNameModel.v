(** Objects of VHDL designs found by name and discovered through the VHPI, /repo/src/cocotb/share/lib/gpi/vhpi/VhpiImpl.cpp:274-285, 414-448, 508-624,
    884-982, 1077-1083, VhpiIterator.cpp:13-300. Logging is left out. Objects are those of [VpiNameModel], the arrays and signals those of
    [VhpiArrayModel]. *)
From Verif Require Import Base TextModel VpiNameModel VhpiArrayModel.
From Verif Require XmlModel.
From Coq Require Import String.
Open Scope Z_scope.

(** vhpiKindP, as far as VhpiIterator.cpp:42-65 and VhpiImpl.cpp:414-426 tell the kinds apart; [CAssign]: the three kinds of signal assignments;
    [COther]: all others. *)
Inductive cls := CRoot | CCompInst | CForGenerate | CIfGenerate | CBlock | CGenericDecl | CSigDecl | CSelectedName | CIndexedName | CPortDecl | CConstDecl
  | CAssign | CProcess | COther.
(** The relations over which [vhpi_iterator] goes. *)
Inductive rel := RInternalRegions | RSigDecls | RVarDecls | RPortDecls | RGenericDecls | RConstDecls | RCompInstStmts | RBlockStmts | RIndexedNames | RSelectedNames
  | RDecls | RSensitivitys | RStmts | RAttrSpecs.
Definition internal (r : rel) : bool := match r with RInternalRegions => true | _ => false end.
(** VhpiIterator.cpp:13-66: the relations of each kind. *)
Definition root_options := [RInternalRegions; RSigDecls; RVarDecls; RPortDecls; RGenericDecls; RConstDecls; RCompInstStmts; RBlockStmts].
Definition gen_options := [RDecls; RInternalRegions; RSigDecls; RVarDecls; RConstDecls; RCompInstStmts; RBlockStmts].
Definition iterate_over (c : cls) : option (list rel) :=
  match c with
  | CRoot | CCompInst => Some root_options
  | CGenericDecl | CSigDecl | CSelectedName | CIndexedName | CPortDecl => Some [RIndexedNames; RSelectedNames]
  | CAssign => Some [RDecls; RInternalRegions; RSensitivitys; RStmts]
  | CForGenerate | CIfGenerate | CBlock => Some gen_options
  | CConstDecl => Some [RAttrSpecs; RIndexedNames; RSelectedNames]
  | CProcess | COther => None
  end.
Definition is_for_generate (c : cls) : bool := match c with CForGenerate => true | _ => false end.
(** VhpiIterator.cpp:171-182: statements are left out. *)
Definition is_statement (c : cls) : bool := match c with CProcess | CAssign => true | _ => false end.
(** VhpiImpl.cpp:422-426. *)
Definition is_region (c : cls) : bool := match c with CRoot | CIfGenerate | CForGenerate | CBlock | CCompInst => true | _ => false end.

(** The functions of the VHPI: those of [VhpiArrayModel]; [kind_of]: vhpiKindP; [entity]: the name of vhpiPrimaryUnit of vhpiDesignUnit, none if there is no
    such unit; [scan]: what [vhpi_iterator] gives, none: NULL; [root]: vhpiRootInst; [named]: vhpiCaseNameP is not NULL, [foreign]: the kind is below
    1000 (both for VhpiIterator.cpp:222-235 only). *)
Record design (H : Type) := Design {
  vh : vhpi H;
  kind_of : H -> cls;
  entity : H -> option pystr;
  scan : rel -> H -> option (list H);
  root : option H;
  named : H -> bool;
  foreign : H -> bool }.
Arguments vh {H}. Arguments kind_of {H}. Arguments entity {H}. Arguments scan {H}. Arguments root {H}. Arguments named {H}. Arguments foreign {H}.

(** [s.rfind(x)]: what stands before, and the rest. *)
Definition split_last (x s : pystr) : option (pystr * pystr) :=
  match last_at x s with Some r => Some (firstn (List.length s - List.length r) s, r) | None => None end.

Section Sim.
Context {H : Type} (d : design H).
(** [nvc]: NVC is defined; the others as in [VhpiArrayModel]. *)
Context (nvc ius questa : bool) (sep : pystr * pystr).

(** VhpiImpl.cpp:274-285 [compare_names]. *)
Definition compare_names (a b : pystr) : bool := if nvc then pystr_eqb (upper a) (upper b) else pystr_eqb a b.
(** VhpiImpl.cpp:1077-1083 [compare_generate_labels]. *)
Definition gen_label (s : pystr) : pystr := match split_last (fst sep) s with Some (a, _) => a | None => s end.
Definition compare_labels (a b : pystr) : bool := compare_names (gen_label a) (gen_label b).
(** VhpiImpl.cpp:508-521 [fully_qualified_name]. *)
Definition full_name (name : pystr) (parent : obj H) : pystr :=
  let fq := if pystr_eqb (o_full parent) (lit ":") then o_full parent ++ name else o_full parent ++ lit "." ++ name in
  if nvc then upper fq else fq.
Definition name_of (h : H) : pystr := case_name (vh d) h.

(** VhpiImpl.cpp:287-506 [create_gpi_obj_from_handle] with 414-448: regions by their names; the rest as in [VhpiArrayModel]. *)
Definition nm_create (h : H) (name fq : pystr) : option (obj H) * list H :=
  let c := kind_of d h in
  if is_region c then
    let n := name_of h in
    let n := match c with
             | CRoot => if compare_names n name then n else match entity d h with Some e => e | None => n end
             | _ => n
             end in
    (Some (set_names (fresh h (if compare_names name n then GModule else GGenArray)) name fq), [])
  else if is_statement c then (Some (set_names (fresh h GModule) name fq), [])
  else vh_create (vh d) ius questa h name fq.

(** What [get_child_by_name] has in [new_hdl] at 602: a handle, NULL, or it has returned. *)
Inductive found := Got (h : H) | Null | Gone.
(** VhpiImpl.cpp:547-601. *)
Definition search (name : pystr) (parent : obj H) : found :=
  let h := o_hdl parent in
  match vhpi_name (vh d) (full_name name parent) with
  | Some e => Got e
  | None =>
      if gtype_eqb (o_type parent) GStructure then
        match scan d RSelectedNames h with
        | Some l => match find (fun e => compare_names (match split_last (lit ".") (name_of e) with Some (_, b) => tl b | None => name_of e end) name) l with
                    | Some e => Got e
                    | None => Null
                    end
        | None => Null
        end
      else match scan d RInternalRegions h with
           | Some l => if existsb (fun r => is_for_generate (kind_of d r) && compare_labels (name_of r) name) l then Got h else Gone
           | None => Gone
           end
  end.
(** What is made of it: the object, the handles which are released; [None]: NULL was given to the functions of the VHPI (610, 616), which is undefined. *)
Definition nm_child (name : pystr) (parent : obj H) : option (option (obj H) * list H) :=
  match search name parent with
  | Gone => Some (None, [])
  | Null => None
  | Got e =>
      let '(e', rel) := if is_for_generate (kind_of d e) then (o_hdl parent, [e]) else (e, []) in           (* 610-614 *)
      match nm_create e' name (full_name name parent) with
      | (Some o, r) => Some (Some o, rel ++ r)
      | (None, r) => Some (None, rel ++ r ++ [e'])
      end
  end.
(** VhpiImpl.cpp:523-545 [get_child_from_handle]; the name of the handle is not NULL. *)
Definition nm_from_handle (h : H) (parent : obj H) : option (obj H) * list H :=
  match nm_create h (name_of h) (full_name (name_of h) parent) with
  | (Some o, r) => (Some o, r)
  | (None, r) => (None, r ++ [h])
  end.
(** VhpiImpl.cpp:636-655 with 866-882: [get_child_by_index] of a pseudo-region; elements of arrays are in [VhpiArrayModel]. *)
Definition nm_block (i : Z) (parent : obj H) : option (obj H) * list H :=
  let text := fst sep ++ firstn 13 (XmlModel.py_str_int i) ++ snd sep in
  match vhpi_name (vh d) (o_full parent ++ text) with
  | Some e => match nm_create e (o_name parent ++ text) (o_full parent ++ text) with
              | (Some o, r) => (Some o, r)
              | (None, r) => (None, r ++ [e])
              end
  | None => (None, [])
  end.
(** VhpiImpl.cpp:884-982 [get_root_handle]; [name]: none: NULL. *)
Definition nm_root (name : option pystr) : option (obj H) :=
  match root d with
  | None => None
  | Some r =>
      let wanted n := match name with Some x => compare_names x n | None => true end in
      let by_path :=                                                                                       (* 945-981 *)
        match name with
        | None => None
        | Some x =>
            match vhpi_name (vh d) (if pystr_eqb (firstn 1 x) (lit ":") then x else lit ":" ++ x) with
            | Some h => if compare_names x (name_of h) then fst (nm_create h (name_of h) (name_of h)) else None
            | None => None
            end
        end in
      if wanted (name_of r) then fst (nm_create r (name_of r) (name_of r))
      else match entity d r with
           | Some e => if wanted e then fst (nm_create r e e) else by_path
           | None => by_path
           end
  end.

(** * Discovery *)
(** VhpiIterator: [one2many] with the relations behind it, and [m_iterator] as what it still gives; none: NULL. *)
Record iter := It { i_rels : list rel; i_scan : option (list H) }.
(** VhpiIterator.cpp:68-126, the constructor; none: [selected] is NULL. A pseudo-region has the handle of a region, the relations of which contain
    vhpiInternalRegions (otherwise [iterator] would not be initialised at 106). *)
Fixpoint first_rel (gen : bool) (h : H) (rels : list rel) : option iter :=
  match rels with
  | [] => None
  | r :: rels' =>
      if gen && negb (internal r) then first_rel gen h rels'
      else match scan d r h with Some l => Some (It rels (Some l)) | None => first_rel gen h rels' end
  end.
Definition is_gen (parent : obj H) : bool := gtype_eqb (o_type parent) GGenArray.
Definition it_new (parent : obj H) : option iter :=
  match iterate_over (kind_of d (o_hdl parent)) with
  | Some rels => first_rel (is_gen parent) (o_hdl parent) rels
  | None => None
  end.
(** VhpiIterator.cpp:154-182: what is let through. *)
Definition keep (parent : obj H) (h : H) : bool :=
  (if is_gen parent then is_for_generate (kind_of d h) && compare_labels (name_of h) (o_name parent) else true) && negb (is_statement (kind_of d h)).
Fixpoint first_kept (parent : obj H) (l : list H) : option (H * list H) :=
  match l with [] => None | h :: l' => if keep parent h then Some (h, l') else first_kept parent l' end.
(** VhpiIterator.cpp:198-213: the next relations. *)
Fixpoint onwards (parent : obj H) (rels : list rel) : option (rel * H * iter) :=
  match rels with
  | [] => None
  | r :: rels' =>
      if is_gen parent && negb (internal r) then onwards parent rels'
      else match scan d r (o_hdl parent) with
           | Some l => match first_kept parent l with
                       | Some (h, l') => Some (r, h, It rels (Some l'))
                       | None => onwards parent rels'
                       end
           | None => onwards parent rels'
           end
  end.
(** VhpiIterator.cpp:135-220: the loop of [next_handle]; none: END. It is not called again after END (GpiStoreModel). *)
Definition it_next (parent : obj H) (i : iter) : option (rel * H * iter) :=
  match i_rels i with
  | [] => None
  | r :: rels =>
      match i_scan i with
      | Some l => match first_kept parent l with
                  | Some (h, l') => Some (r, h, It (r :: rels) (Some l'))
                  | None => onwards parent rels
                  end
      | None => onwards parent rels
      end
  end.
(** The answers of [next_handle] (gpi_priv.hpp, GpiIterator::Status) but END. *)
Inductive status := Native (o : obj H) | NotNative (name : pystr) | NativeNoName | NotNativeNoName (raw : H).
(** VhpiIterator.cpp:220-300: what is made of the object [h], which the relation [r] has given, and the handles which are released. *)
Definition item (parent : obj H) (r : rel) (h : H) : status * list H :=
  if negb (named d h) then ((if foreign d h then NotNativeNoName h else NativeNoName), [])
  else
    let '(e, name) :=
      if internal r && negb (is_gen parent) && is_for_generate (kind_of d h)
      then match split_last (fst sep) (name_of h) with
           | Some (c :: a, _) => (o_hdl parent, c :: a)
           | _ => (h, name_of h)
           end
      else (h, name_of h) in
    let full := o_full parent in
    let '(name, fq) :=
      if pystr_eqb full (lit ":") then (name, full ++ name)
      else match o_type parent with
           | GGenArray => (name, full ++ match split_last (fst sep) name with Some (_, b) => b | None => lit "." ++ name end)
           | GStructure => match split_last (lit ".") name with Some (_, b) => (tl b, full ++ b) | None => (name, full ++ lit "." ++ name) end
           | _ => (name, full ++ lit "." ++ name)
           end in
    match nm_create e name fq with
    | (Some o, rs) => (Native o, rs)
    | (None, rs) => (NotNative name, rs)
    end.
End Sim.

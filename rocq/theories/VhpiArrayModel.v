(** Arrays of VHDL designs through the VHPI: ranges, indexes and elements, /repo/src/cocotb/share/lib/gpi/vhpi/VhpiImpl.cpp:287-506, 626-882,
    VhpiObj.cpp:10-199, VhpiSignal.cpp:54-185. Logging is left out. Objects are those of [VpiNameModel]. *)
From Verif Require Import Base TextModel VpiNameModel.
From Verif Require XmlModel.
From Coq Require Import String.
Open Scope Z_scope.

(** A constraint of a dimension: vhpiLeftBoundP and vhpiRightBoundP as [int], vhpiIsUpP = 1, vhpiIsUnconstrainedP. *)
Record con := Con { c_left : Z; c_right : Z; c_up : bool; c_free : bool }.
(** What [create_gpi_obj_from_handle] finds out about the type, VhpiImpl.cpp:313-468: an object of type GPI_ARRAY; a logic value or vector; another
    signal with the type, and whether its format is vhpiStrVal; a scope; none: not supported. *)
Inductive kind := KArray | KLogic (vec : bool) | KSignal (g : gtype) (str : bool) | KScope (g : gtype) | KNone.
(** The functions of the VHPI. [dims]: vhpiNumDimensionsP of the base type; none: no base type is found, neither directly nor through the
    subtype. [base], [sub]: the constraints of the base type and of the subtype, empty if there is no iterator; [case_name]: vhpiCaseNameP;
    [vhpi_index]: [vhpi_handle_by_index(vhpiIndexedNames, ...)]; [indexed]: what [vhpi_iterator(vhpiIndexedNames, ...)] gives; [vsize]: vhpiSizeP;
    [vvalue]: what [VhpiSignalObjHdl::initialise] makes of the format, the number of elements, none: an error. *)
Record vhpi (H : Type) := Vhpi {
  vkind : H -> kind;
  dims : H -> option nat;
  base : H -> list con;
  sub : H -> list con;
  case_name : H -> pystr;
  vhpi_index : H -> Z -> option H;
  indexed : H -> list H;
  vhpi_name : pystr -> option H;
  vsize : H -> Z;
  vvalue : H -> option Z }.
Arguments vkind {H}. Arguments dims {H}. Arguments base {H}. Arguments sub {H}. Arguments case_name {H}. Arguments vhpi_index {H}.
Arguments indexed {H}. Arguments vhpi_name {H}. Arguments vsize {H}. Arguments vvalue {H}.

(** C [atoi]: blanks, a sign, digits. *)
Fixpoint atoi_digits (acc : Z) (s : pystr) : Z :=
  match s with c :: s' => if (48 <=? c) && (c <=? 57) then atoi_digits (10 * acc + (c - 48)) s' else acc | [] => acc end.
Fixpoint atoi (s : pystr) : Z :=
  match s with
  | c :: s' => if (c =? 32) || ((9 <=? c) && (c <=? 13)) then atoi s'
               else if c =? 45 then - atoi_digits 0 s' else if c =? 43 then atoi_digits 0 s' else atoi_digits 0 s
  | [] => 0
  end.
(** VhpiImpl.cpp:692-713: the indexes in the rest of a name; [cur]: what stands before, last character first. *)
Fixpoint indices (cur s : pystr) : list Z :=
  match s with
  | [] => []
  | c :: s' => if c =? 41 then match rev cur with [] => atoi s' | _ :: p => atoi p end :: indices [] s' else indices (c :: cur) s'
  end.
(** VhpiImpl.cpp:658-662: [snprintf(buff, 14, "(%d)", index)]. *)
Definition paren_text (i : Z) : pystr := firstn 13 (lit "(" ++ XmlModel.py_str_int i ++ lit ")").
(** VhpiImpl.cpp:790-812: the loop from the last dimension to the first, the flat index and the scale. The values are [int]; they
    stay in its range, see C101_no_overflow. *)
Fixpoint flat (l : list (Z * con)) : Z * Z :=
  match l with
  | [] => (0, 1)
  | (i, c) :: l' =>
      let '(idx, scale) := flat l' in
      if c_right c <? c_left c then (idx + scale * (c_left c - i), scale * (c_left c - c_right c + 1))
      else (idx + scale * (i - c_left c), scale * (c_right c - c_left c + 1))
  end.
(** VhpiImpl.cpp:744-753, 771-782: constraints until the first one which is unconstrained. *)
Fixpoint until_free (free : con -> bool) (l : list con) : list con :=
  match l with [] => [] | c :: l' => if free c then [] else c :: until_free free l' end.

Section Sim.
Context {H : Type} (v : vhpi H).
(** [ius]: IUS is defined; [questa]: MODELSIM is defined; [sep]: GEN_IDX_SEP_LHS and GEN_IDX_SEP_RHS (VhpiImpl.hpp:26-34). *)
Context (ius questa : bool) (sep : pystr * pystr).

(** VhpiObj.cpp:60-64 and VhpiImpl.cpp:745-751: unconstrained, asked of a constraint of the base type; of the subtype (105, 776): the property. *)
Definition base_free (c : con) : bool := if ius then (c_left c =? 2147483647) || (c_right c =? 2147483647) else c_free c.
(** VhpiObj.cpp:70-82. *)
Definition up (c : con) : bool := if questa then c_left c <? c_right c else c_up c.
(** VhpiObj.cpp:26-132 [get_range]; none: an error. *)
Definition get_range (h : H) (dim : nat) : option con :=
  let pick free l := match nth_error l dim with Some c => if free c : bool then None else Some c | None => None end in
  match match dims v h with Some _ => pick base_free (base v h) | None => None end with
  | Some c => Some c
  | None => pick c_free (sub v h)
  end.
(** The number of closing parentheses behind the name of the handle. *)
Definition given (h : H) (name : pystr) : pystr :=
  if (List.length (case_name v h) <? List.length name)%nat then skipn (List.length (case_name v h)) name else [].
(** VhpiObj.cpp:134-199 [VhpiArrayObjHdl::initialise]. *)
Definition vh_array_init (o : obj H) (name fq : pystr) : option (obj H) :=
  match dims v (o_hdl o) with
  | None => None
  | Some n =>
      let dim := if (1 <? n)%nat then Z.to_nat (count 41 (given (o_hdl o) name)) else 0%nat in
      match get_range (o_hdl o) dim with
      | None => None
      | Some c => Some (Obj (o_hdl o) (o_type o) name fq
                          (Z.max 0 (if up c then c_right c - c_left c + 1 else c_left c - c_right c + 1)) true (c_left c) (c_right c) (Some (up c)))
      end
  end.
(** VhpiSignal.cpp:54-133 and 135-185: [indexable] before the range is asked for; without a range the object cannot be indexed and has the range
    of gpi_priv.hpp:95-99. *)
Definition vh_signal_init (o : obj H) (num : Z) (indexable : bool) (name fq : pystr) : obj H :=
  match (if indexable then get_range (o_hdl o) 0 else None) with
  | Some c => Obj (o_hdl o) (o_type o) name fq num true (c_left c) (c_right c) (Some (up c))
  | None => Obj (o_hdl o) (o_type o) name fq num false (-1) (-1) None
  end.
(** The handles which the destructor releases: VhpiObj.cpp:10-24, VhpiSignal.cpp:18-33. *)
Definition destroyed (o : obj H) : list H := match o_type o with GGenArray => [] | _ => [o_hdl o] end.
(** VhpiImpl.cpp:287-506 [create_gpi_obj_from_handle], with the handles which are released. *)
Definition vh_create (h : H) (name fq : pystr) : option (obj H) * list H :=
  let checked o r := match r with Some o' => (Some o', []) | None => (None, destroyed o) end in
  match vkind v h with
  | KArray => checked (fresh h GArray) (vh_array_init (fresh h GArray) name fq)
  | KLogic vec => (Some (vh_signal_init (fresh h (if vec then GLogicArray else GLogic)) (vsize v h) vec name fq), [])
  | KSignal g str => checked (fresh h g) (match vvalue v h with Some n => Some (vh_signal_init (fresh h g) n str name fq) | None => None end)
  | KScope g => (Some (set_names (fresh h g) name fq), [])
  | KNone => (None, [])
  end.
(** VhpiImpl.cpp:735-786: the constraints of all dimensions. *)
Definition all_constraints (h : H) (n : nat) : option (list con) :=
  let b := until_free base_free (base v h) in
  if (List.length b =? n)%nat then Some b
  else let s := until_free c_free (sub v h) in if (List.length s =? n)%nat then Some s else None.
(** VhpiImpl.cpp:834-851: the element with a flat index. *)
Definition element_at (h : H) (idx : Z) : option H :=
  match vhpi_index v h idx with
  | Some e => Some e
  | None => if idx <? 0 then None else nth_error (indexed v h) (Z.to_nat idx)
  end.
(** VhpiImpl.cpp:626-882 [get_child_by_index], with the handles which are released (876). *)
Definition vh_child (i : Z) (parent : obj H) : option (obj H) * list H :=
  let h := o_hdl parent in
  let make e text :=
    match vh_create e (o_name parent ++ text) (o_full parent ++ text) with
    | (Some o, r) => (Some o, r)
    | (None, r) => (None, r ++ [e])
    end in
  match o_type parent with
  | GGenArray =>
      let text := fst sep ++ firstn 13 (XmlModel.py_str_int i) ++ snd sep in
      match vhpi_name v (o_full parent ++ text) with Some e => make e text | None => (None, []) end
  | GLogic | GLogicArray | GArray | GString =>
      match dims v h with
      | None => (None, [])
      | Some n =>
          let found :=
            if (1 <? n)%nat then
              let l := indices [] (given h (o_name parent)) ++ [i] in
              if (List.length l =? n)%nat then
                match all_constraints h n with
                | Some cs => element_at h (fst (flat (combine l cs)))
                | None => None
                end
              else Some h
            else element_at h (if o_right parent <? o_left parent then o_left parent - i else i - o_left parent) in
          match found with Some e => make e (paren_text i) | None => (None, []) end
      end
  | _ => (None, [])
  end.
(** handle.py:1079-1094: an index after the other. *)
Fixpoint vh_walk (l : list Z) (o : obj H) : option (obj H) :=
  match l with [] => Some o | i :: l' => match fst (vh_child i o) with Some o' => vh_walk l' o' | None => None end end.
End Sim.

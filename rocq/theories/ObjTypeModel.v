(** Types of objects, directions, edges and selections as numbers between C++ and Python: /repo/src/cocotb/share/include/gpi.h:196-222,
    364-370, 399-403, share/lib/pygpi/bind.cpp:1030-1066, share/lib/gpi/GpiCbHdl.cpp:16-45 and handle.py:1816-1862. *)
From Coq Require Import String.
From Verif Require Import Base.
From Verif Require LookupModel.
Open Scope string_scope.
Open Scope Z_scope.

(** gpi.h:196-215 [gpi_objtype]. *)
Inductive objtype := TUnknown | TMemory | TModule | TArray | TEnum | TStructure | TReal | TInteger | TString | TFixedString | TGenArray | TPackage
| TPackedStructure | TLogic | TLogicArray.
(** The numbers; bind.cpp:649-652 [get_type] gives them to Python. *)
Definition number (t : objtype) : Z :=
  match t with
  | TUnknown => 0 | TMemory => 1 | TModule => 2 | TArray => 6 | TEnum => 7 | TStructure => 8 | TReal => 9 | TInteger => 10 | TString => 11
  | TFixedString => 12 | TGenArray => 13 | TPackage => 14 | TPackedStructure => 15 | TLogic => 16 | TLogicArray => 17
  end.
(** GpiCbHdl.cpp:16-45 [get_type_str]: a switch over the number. *)
Definition type_str (n : Z) : string :=
  match n with
  | 0 => "GPI_UNKNOWN" | 1 => "GPI_MEMORY" | 2 => "GPI_MODULE" | 6 => "GPI_ARRAY" | 7 => "GPI_ENUM" | 8 => "GPI_STRUCTURE" | 9 => "GPI_REAL"
  | 10 => "GPI_INTEGER" | 11 => "GPI_STRING" | 12 => "GPI_FIXED_STRING" | 13 => "GPI_GENARRAY" | 14 => "GPI_PACKAGE" | 16 => "GPI_LOGIC"
  | 17 => "GPI_LOGIC_ARRAY"
  | _ => "unknown"
  end.
(** bind.cpp:1030-1066 [add_module_constants]. *)
Definition constants : list (string * Z) :=
  [("UNKNOWN", number TUnknown); ("MEMORY", number TMemory); ("MODULE", number TModule); ("NETARRAY", number TArray); ("ENUM", number TEnum);
   ("STRUCTURE", number TStructure); ("PACKED_STRUCTURE", number TPackedStructure); ("REAL", number TReal); ("INTEGER", number TInteger);
   ("STRING", number TString); ("FIXED_STRING", number TFixedString); ("GENARRAY", number TGenArray); ("PACKAGE", number TPackage);
   ("OBJECTS", 1); ("DRIVERS", 2); ("LOADS", 3); ("RISING", 1); ("FALLING", 2); ("VALUE_CHANGE", 0); ("RANGE_UP", 1); ("RANGE_DOWN", -1);
   ("RANGE_NO_DIR", 0); ("LOGIC", number TLogic); ("LOGIC_ARRAY", number TLogicArray)].
(** An attribute of the module cocotb.simulator: the last constant of that name. *)
Definition attribute (name : string) : option Z :=
  fold_left (fun r kv => if String.eqb (fst kv) name then Some (snd kv) else r) constants None.
(** handle.py:1816-1830 [_type2cls] as it is written, with the names of the constants. *)
Definition dict_text : list (string * LookupModel.cls) :=
  [("MODULE", LookupModel.C_Hierarchy); ("STRUCTURE", LookupModel.C_Hierarchy); ("PACKED_STRUCTURE", LookupModel.C_LogicArray);
   ("LOGIC", LookupModel.C_Logic); ("LOGIC_ARRAY", LookupModel.C_LogicArray); ("NETARRAY", LookupModel.C_Array); ("REAL", LookupModel.C_Real);
   ("INTEGER", LookupModel.C_Integer); ("ENUM", LookupModel.C_Enum); ("STRING", LookupModel.C_String); ("FIXED_STRING", LookupModel.C_FixedString);
   ("GENARRAY", LookupModel.C_HierarchyArray); ("PACKAGE", LookupModel.C_Hierarchy)].
(** The class which the dictionary has for a number: the last entry whose key is that number; a missing constant would be an AttributeError. *)
Definition class_of (n : Z) : result (option LookupModel.cls) :=
  fold_left (fun r kc => bind r (fun c => match attribute (fst kc) with
                                         | None => Err AttributeError
                                         | Some k => Ok (if k =? n then Some (snd kc) else c)
                                         end)) dict_text (Ok None).
(** handle.py:1856-1861: the class of a new handle, or the type named in the message of NotImplementedError. *)
Definition make (n : Z) : result (LookupModel.cls + string) :=
  bind (class_of n) (fun c => Ok (match c with Some c => inl c | None => inr (type_str n) end)).

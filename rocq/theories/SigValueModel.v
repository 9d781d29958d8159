(** Values written and read through the three interfaces to simulators, /repo/src/cocotb/share/lib/gpi/vpi/VpiSignal.cpp:102-233,
    gpi/vhpi/VhpiSignal.cpp:35-541, gpi/vhpi/VhpiImpl.cpp:161-272, gpi/fli/FliObjHdl.cpp:96-769, gpi/GpiCommon.cpp:574-647 and
    pygpi/bind.cpp:476-564. The values which Python hands over are those of [HandleModel]. Logging is left out. *)
From Verif Require Import Base LogicModel LogicArrayModel HandleModel.
From Verif Require XmlModel.
From Coq Require Import String.
Open Scope Z_scope.

(** /repo/src/cocotb/share/include/gpi.h:274-279 [gpi_set_action]. *)
Inductive gact := GDeposit | GForce | GRelease | GNoDelay.
(** The number which comes from Python (handle.py:608-614) as [gpi_set_action]. *)
Definition gact_of (code : Z) : option gact :=
  match code with 0 => Some GDeposit | 1 => Some GForce | 2 => Some GRelease | 3 => Some GNoDelay | _ => None end.

(** What a function of the interface does: the calls which change the simulation, in order; or behaviour which C++ leaves undefined. The number
    which the function returns (0 or -1) is left out: GpiCommon.cpp:622-647 does not look at it. *)
Inductive outcome (C : Type) := Calls (l : list C) | Undefined.
Arguments Calls {C}. Arguments Undefined {C}.

(** bind.cpp:562 [static_cast<int32_t>(value)]. *)
Definition to_int32 (z : Z) : Z := let r := z mod 2 ^ 32 in if r <? 2 ^ 31 then r else r - 2 ^ 32.
(** [strncpy(buf, s, n)] with [n] bytes in the buffer: bytes after the end of the string are 0. *)
Fixpoint strncpy (n : nat) (s : list Z) : list Z :=
  match n with O => [] | S n' => match s with [] => 0 :: strncpy n' [] | c :: s' => c :: strncpy n' s' end end.
(** A C string ends before its first 0. *)
Fixpoint c_str (s : list Z) : list Z := match s with [] => [] | c :: s' => if c =? 0 then [] else c :: c_str s' end.
(** [value & (1 << i)] for a value of 32 bits. *)
Definition bit_of (v : Z) (i : nat) : bool := Z.testbit v (Z.of_nat i).

(** * VHPI *)
(** The formats of vhpiValueT which the code names. *)
Inductive vfmt := VLogicVal | VLogicVecVal | VEnumVal | VEnumVecVal | VSmallEnumVal | VIntVal | VLongIntVal | VRealVal | VCharVal | VStrVal | VOtherVal.
(** An object which carries a value: whether it is a VhpiLogicSignalObjHdl, [m_value.format], [m_num_elems]; [m_value.numElems] is [m_num_elems]
    for strings (VhpiSignal.cpp:102-111). *)
Record vobj := VObj { vo_logic : bool; vo_fmt : vfmt; vo_num : nat }.
(** What is put: fields of the union [m_value.value]. A double is given as the Python value which it was made from. *)
Inductive vval := VvEnum (z : Z) | VvEnums (l : list Z) | VvSmall (z : Z) | VvInt (z : Z) | VvChar (z : Z) | VvReal (v : simval) | VvStr (b : list Z).
Inductive vmode := VmDepositPropagate | VmForcePropagate | VmRelease.

(** VhpiSignal.cpp:86-119: format and number of elements of an object which is not a logic one; [size]: vhpiSizeP. *)
Definition vh_signal (f : vfmt) (size : nat) : option vobj :=
  match f with
  | VIntVal | VEnumVal => Some (VObj false f 32)
  | VLongIntVal | VRealVal => Some (VObj false f 64)
  | VSmallEnumVal | VCharVal => Some (VObj false f 8)
  | VStrVal => Some (VObj false f size)
  | _ => None
  end.
(** VhpiSignal.cpp:135-185: a logic object; [arr]: the kind of its type is vhpiArrayTypeDeclK. *)
Definition vh_logic (arr : bool) (size : nat) : vobj := VObj true (if arr then VLogicVecVal else VLogicVal) size.

(** VhpiSignal.cpp:35-52 [map_put_value_mode]. *)
Definition put_mode (a : gact) : vmode :=
  match a with GDeposit | GNoDelay => VmDepositPropagate | GForce => VmForcePropagate | GRelease => VmRelease end.
(** VhpiSignal.cpp:188-218 [chr2vhpi] with the numbers of /repo/src/cocotb/_vendor/vhpi/vhpi_user.h:837-845. *)
Definition chr2vhpi (c : Z) : Z :=
  match c with
  | 48 => 2 | 49 => 3 | 85 => 0 | 117 => 0 | 90 => 4 | 122 => 4 | 88 => 1 | 120 => 1 | 87 => 5 | 119 => 5
  | 76 => 6 | 108 => 6 | 72 => 7 | 104 => 7 | 45 => 8 | _ => 8
  end.
(** VhpiSignal.cpp:230-238 and 308-320: the bits of a number, the highest first; a shift by more than 31 places is undefined. *)
Definition vh_bits (v : Z) (n : nat) : outcome vval :=
  if (32 <? n)%nat then Undefined
  else Calls [VvEnums (map (fun k => if bit_of v (n - k - 1) then 3 else 2) (seq 0 n))].
(** VhpiSignal.cpp:221-255 [VhpiLogicSignalObjHdl::set_signal_value] and 306-361 [VhpiSignalObjHdl::set_signal_value], up to the call of
    [vhpi_put_value]; no value: an error before it. vhpiCharT is a [char] of 8 bits with a sign. *)
Definition vh_int (o : vobj) (v : Z) : outcome vval :=
  if vo_logic o then
    match vo_fmt o with
    | VEnumVal | VLogicVal => Calls [VvEnum (if v =? 0 then 2 else 3)]
    | VEnumVecVal | VLogicVecVal => vh_bits v (vo_num o)
    | _ => Calls []
    end
  else
    match vo_fmt o with
    | VEnumVecVal | VLogicVecVal => vh_bits v (vo_num o)
    | VLogicVal | VEnumVal => Calls [VvEnum (v mod 2 ^ 32)]
    | VSmallEnumVal => Calls [VvSmall (v mod 2 ^ 8)]
    | VIntVal => Calls [VvInt (v mod 2 ^ 32)]
    | VCharVal => if (127 <? v) || (v <? -128) then Calls [] else Calls [VvChar v]
    | _ => Calls []
    end.
(** VhpiSignal.cpp:363-385 [set_signal_value] of a double. *)
Definition vh_real (o : vobj) (v : simval) : outcome vval := match vo_fmt o with VRealVal => Calls [VvReal v] | _ => Calls [] end.
(** VhpiSignal.cpp:257-303 and 387-433 [set_signal_value_binstr]; both classes do the same. [value.c_str()[0]] of an empty string is 0. *)
Definition vh_binstr (o : vobj) (s : pystr) : outcome vval :=
  match vo_fmt o with
  | VEnumVal | VLogicVal => Calls [VvEnum (chr2vhpi (nth 0 s 0))]
  | VEnumVecVal | VLogicVecVal => if negb (Nat.eqb (List.length s) (vo_num o)) then Calls [] else Calls [VvEnums (map chr2vhpi s)]
  | _ => Calls []
  end.
(** VhpiSignal.cpp:435-461 [set_signal_value_str]: the buffer with the 0 behind it. *)
Definition vh_str (o : vobj) (b : list Z) : outcome vval :=
  match vo_fmt o with VStrVal => Calls [VvStr (strncpy (vo_num o) b ++ [0])] | _ => Calls [] end.
(** The functions of bind.cpp:514-564 and GpiCommon.cpp:622-647, with the put of the value. *)
Definition vh_write (o : vobj) (a : gact) (s : simval) : outcome (vval * vmode) :=
  match match s with
        | SInt z => vh_int o (to_int32 z)
        | SStr t => vh_binstr o t
        | SReal _ | SRealInt _ => vh_real o s
        | SBytes _ b => vh_str o b
        end with
  | Calls l => Calls (map (fun v => (v, put_mode a)) l)
  | Undefined => Undefined
  end.
(** VhpiSignal.cpp:463-489 [get_signal_value_binstr]; [sim]: what the simulator puts in the buffer. *)
Definition vh_get_binstr (o : vobj) (sim : pystr) : pystr :=
  match vo_fmt o with VRealVal => [] | _ => if Nat.eqb (vo_num o) 0 then [] else sim end.
(** VhpiSignal.cpp:491-517 [get_signal_value_str]; [sim]: the buffer. *)
Definition vh_get_str (o : vobj) (sim : list Z) : list Z :=
  match vo_fmt o with VStrVal => if Nat.eqb (vo_num o) 0 then [] else c_str sim | _ => [] end.
(** VhpiSignal.cpp:531-542 [get_signal_value_long]; [sim]: the [intg] which the simulator gives. *)
Definition vh_get_long (sim : Z) : Z := to_int32 sim.
(** VhpiSignal.cpp:558-564 [get_signed]; [int]: the type is GPI_INTEGER. *)
Definition vh_signed (int : bool) : Z := if int then 1 else -1.

(** [strncmp(type, p, sizeof(p) - 1) == 0]: only the first characters are compared. *)
Fixpoint prefixed (p s : pystr) : bool :=
  match p, s with [], _ => true | c :: p', d :: s' => (c =? d) && prefixed p' s' | _ :: _, [] => false end.
(** A literal as Aldec gives it, or in quotes (VhpiImpl.cpp:174-176, 196-201). *)
Definition quoted (c e : pystr) : bool := prefixed c e || prefixed ([39] ++ c ++ [39]) e.
Fixpoint all_quoted (cs es : list pystr) : bool :=
  match es with
  | [] => true
  | e :: es' => match cs with c :: cs' => quoted c e && all_quoted cs' es' | [] => false end
  end.
(** VhpiImpl.cpp:161-222 [is_enum_logic]: the name of the type and its literals. *)
Definition is_enum_logic (name : pystr) (lits : list pystr) : bool :=
  if prefixed (lit "BIT") name || prefixed (lit "STD_ULOGIC") name || prefixed (lit "STD_LOGIC") name then true
  else match List.length lits with
       | 2%nat => all_quoted [lit "0"; lit "1"] lits
       | 9%nat => all_quoted (map (fun c => [c]) logic_chars) lits
       | _ => false
       end.
(** VhpiImpl.cpp:224-234 [is_enum_char]. *)
Definition is_enum_char (name : pystr) (lits : list pystr) : bool :=
  prefixed (lit "CHARACTER") name || Nat.eqb (List.length lits) 256.
(** VhpiImpl.cpp:236-272 [is_enum_boolean]. The iterator over the literals is there and gives as many as vhpiNumLiteralsP. *)
Definition is_enum_boolean (name : pystr) (lits : list pystr) : bool :=
  if prefixed (lit "BOOLEAN") name then true
  else match lits with
       | [a; b] => (prefixed (lit "FALSE") a || prefixed (lit "false") a) && (prefixed (lit "TRUE") b || prefixed (lit "true") b)
       | _ => false
       end.
(** VhpiImpl.cpp:378-396 and handle.py:1816-1830: the class of the Python handle of an enumerated type with [n] = [m_num_elems]. *)
Definition vh_enum_kind (name : pystr) (lits : list pystr) (n : nat) : hkind :=
  if is_enum_logic name lits then KLogic
  else if is_enum_char name lits then KInteger n (vh_signed true)
  else if is_enum_boolean name lits then KInteger n (vh_signed true)
  else KEnum n (vh_signed false).

(** * VPI *)
(** The values of s_vpi_value, with their formats vpiIntVal, vpiRealVal, vpiBinStrVal and vpiStringVal. *)
Inductive pval := PvInt (z : Z) | PvReal (v : simval) | PvBin (s : pystr) | PvStr (b : list Z).
Inductive pflag := PfNoDelay | PfInertialDelay | PfForce | PfRelease.
(** [vpi_put_value]: the value, whether a time (of 0) is given, and the flag. *)
Inductive pcall := PPut (v : pval) (time : bool) (f : pflag).
(** VpiSignal.cpp:139-181: the value which is made of the argument. *)
Definition vpi_value (s : simval) : pval :=
  match s with
  | SInt z => PvInt (to_int32 z)
  | SReal _ | SRealInt _ => PvReal s
  | SStr t => PvBin t
  | SBytes _ b => PvStr b
  end.
(** VpiSignal.cpp:183-233 [set_signal_value]; [strvar]: in Questa and Xcelium, an object of type vpiStringVar; [cur]: what [vpi_get_value] makes
    of the value when it is released. *)
Definition vpi_write (strvar : bool) (cur : pval -> pval) (a : gact) (s : simval) : outcome pcall :=
  let v := vpi_value s in
  match a with
  | GDeposit => if strvar then Calls [PPut v false PfNoDelay] else Calls [PPut v true PfInertialDelay]
  | GForce => Calls [PPut v true PfForce]
  | GRelease => Calls [PPut (cur v) true PfRelease]
  | GNoDelay => Calls [PPut v false PfNoDelay]
  end.

(** * FLI *)
(** The classes of FliImpl.hpp:219-390 with their fields: [m_num_elems] and the literals of the element type (an array) or of the type itself;
    [m_num_enum]. *)
Inductive fclass := FcLogic (lits : list pystr) | FcLogicArray (n : nat) (lits : list pystr) | FcEnum (num_enum : Z) | FcInt | FcReal | FcStr (n : nat) | FcOther.
(** What is given to [mti_SetSignalValue] or [mti_SetVarValue]: a number, the bytes of [m_mti_buff], a double. *)
Inductive fval := FvNum (z : Z) | FvBuf (l : list Z) | FvReal (v : simval).
Inductive fcall := FSet (v : fval) | FForce (text : pystr) | FRelease.
(** FliObjHdl.cpp:288-291: [m_enum_map], the character after the quote of every literal, later ones replace earlier ones; [operator[]] of a
    character which is not there gives 0. *)
Fixpoint enum_map (i : Z) (lits : list pystr) (c : Z) (found : Z) : Z :=
  match lits with [] => found | l :: lits' => enum_map (i + 1) lits' c (if nth 1 l 0 =? c then i else found) end.
Definition enum_of (lits : list pystr) (c : Z) : Z := enum_map 0 lits c 0.
(** The switch over the action which stands at the end of every [set_signal_value] (FliObjHdl.cpp:219-257, 340-376, 385-427, 443-481, 499-539,
    587-629, 658-694, 732-768): the value set, the text forced. *)
Definition fli_act (is_var : bool) (a : gact) (set : fval) (force : outcome fcall) : outcome fcall :=
  match a with
  | GDeposit | GNoDelay => Calls [FSet set]
  | GForce => if is_var then Calls [] else force
  | GRelease => if is_var then Calls [] else Calls [FRelease]
  end.
(** FliObjHdl.cpp:378-383 and 411-415: the loop over the bits of a number. *)
Definition fli_bits {A} (one zero : A) (v : Z) (n : nat) : list A := map (fun k => if bit_of v (n - k - 1) then one else zero) (seq 0 n).
(** [set_signal_value(int32_t)]: FliObjHdl.cpp:210-258 (enum), 335-429 (logic), 585-630 (int), otherwise 126-132. [abs] of the lowest number is
    undefined. *)
Definition fli_int (is_var : bool) (c : fclass) (a : gact) (v : Z) : outcome fcall :=
  match c with
  | FcEnum m => if (m <? v) || (v <? 0) then Calls [] else fli_act is_var a (FvNum v) (Calls [FForce (lit "10#" ++ XmlModel.py_str_int (Z.abs v))])
  | FcLogic lits =>
      fli_act is_var a (FvNum (if v =? 0 then enum_of lits 48 else enum_of lits 49)) (Calls [FForce (if v =? 0 then lit "2#0" else lit "2#1")])
  | FcLogicArray n lits =>
      if (32 <? n)%nat then Undefined
      else fli_act is_var a (FvBuf (fli_bits (enum_of lits 49) (enum_of lits 48) v n)) (Calls [FForce (lit "2#" ++ fli_bits 49 48 v n)])
  | FcInt =>
      fli_act is_var a (FvNum v)
        (if v =? - 2 ^ 31 then Undefined
         else Calls [FForce ((if v <? 0 then lit "-" else []) ++ lit "10#" ++ XmlModel.py_str_int (Z.abs v))])
  | _ => Calls []
  end.
(** [set_signal_value_binstr]: FliObjHdl.cpp:431-541 (logic), otherwise 134-140. *)
Definition fli_binstr (is_var : bool) (c : fclass) (a : gact) (s : pystr) : outcome fcall :=
  match c with
  | FcLogic lits =>
      if negb (Nat.eqb (List.length s) 1) then Calls []
      else fli_act is_var a (FvNum (enum_of lits (nth 0 s 0))) (Calls [FForce (lit "2#" ++ s)])
  | FcLogicArray n lits =>
      if negb (Nat.eqb (List.length s) n) then Calls []
      else fli_act is_var a (FvBuf (map (enum_of lits) s)) (Calls [FForce (lit "2#" ++ s)])
  | _ => Calls []
  end.
(** [set_signal_value(double)]: FliObjHdl.cpp:654-695 (real), otherwise 150-156. *)
Definition fli_real (is_var : bool) (c : fclass) (a : gact) (v : simval) : outcome fcall :=
  match c with FcReal => fli_act is_var a (FvReal v) (Calls []) | _ => Calls [] end.
(** [set_signal_value_str]: FliObjHdl.cpp:728-769 (string), otherwise 142-148. *)
Definition fli_str (is_var : bool) (c : fclass) (a : gact) (b : list Z) : outcome fcall :=
  match c with FcStr n => fli_act is_var a (FvBuf (strncpy n b)) (Calls [FForce b]) | _ => Calls [] end.
(** The functions of bind.cpp:514-564 and GpiCommon.cpp:622-647. *)
Definition fli_write (is_var : bool) (c : fclass) (a : gact) (s : simval) : outcome fcall :=
  match s with
  | SInt z => fli_int is_var c a (to_int32 z)
  | SStr t => fli_binstr is_var c a t
  | SReal _ | SRealInt _ => fli_real is_var c a s
  | SBytes _ b => fli_str is_var c a b
  end.
(** FliObjHdl.cpp:299-333 [get_signal_value_binstr] of a logic object; [sim]: the positions of its elements. *)
Definition fli_get_logic (lits : list pystr) (sim : list Z) : option pystr :=
  fold_right (fun p r => match (if p <? 0 then None else nth_error lits (Z.to_nat p)), r with Some l, Some s => Some (nth 1 l 0 :: s) | _, _ => None end)
    (Some []) sim.
(** FliObjHdl.cpp:713-726 [get_signal_value_str]: [m_val_buff] has a 0 behind the elements. *)
Definition fli_get_str (n : nat) (sim : list Z) : list Z := c_str (strncpy n (c_str sim) ++ [0]).
(** FliImpl.cpp:138-201, FliObjHdl.cpp:185-192, 260-286, 543-552 and 697-711: the class of the Python handle. Only FliIntObjHdl knows its sign
    (FliImpl.hpp:322-327, gpi_priv.hpp:78). *)
Definition fli_kind (c : fclass) : option hkind :=
  match c with
  | FcLogic _ => Some KLogic
  | FcLogicArray n _ => Some (KLogicArray n)
  | FcEnum _ => Some (KEnum 1 (-1))
  | FcInt => Some (KInteger 32 1)
  | FcReal => Some KReal
  | FcStr n => Some (KFixedString n)
  | FcOther => None
  end.

(** * Reading *)
(** GpiCommon.cpp:572-580 [gpi_get_signal_value_binstr] and bind.cpp:476-487; no string: the interface gives NULL. A [std::string] cannot be
    assigned from NULL: the check for NULL comes too late. *)
Definition get_binstr (r : option pystr) : outcome pystr := match r with Some s => Calls [upper s] | None => Undefined end.
(** GpiCommon.cpp:582-585 and bind.cpp:489-500. *)
Definition get_str (r : option (list Z)) : result (list Z) := match r with Some s => Ok s | None => Err RuntimeError end.

(** C113: types of objects between C++ and Python. *)
From Coq Require Import String Lia.
From Verif Require Import Base ObjTypeModel.
From Verif Require LookupModel BindModel BindProps.
Open Scope string_scope.
Open Scope Z_scope.

(** The type of LookupModel (C40 to C43) for each type of the interface. *)
Definition seen (t : objtype) : LookupModel.gpi_type :=
  match t with
  | TModule => LookupModel.T_MODULE | TStructure => LookupModel.T_STRUCTURE | TPackedStructure => LookupModel.T_PACKED_STRUCTURE
  | TLogic => LookupModel.T_LOGIC | TLogicArray => LookupModel.T_LOGIC_ARRAY | TArray => LookupModel.T_NETARRAY | TReal => LookupModel.T_REAL
  | TInteger => LookupModel.T_INTEGER | TEnum => LookupModel.T_ENUM | TString => LookupModel.T_STRING | TFixedString => LookupModel.T_FIXED_STRING
  | TGenArray => LookupModel.T_GENARRAY | TPackage => LookupModel.T_PACKAGE | TUnknown | TMemory => LookupModel.T_OTHER (number t)
  end.
(** No two types share a number. *)
Theorem C113_numbers t u : number t = number u -> t = u.
Proof. destruct t, u; intro H; try reflexivity; discriminate H. Qed.
Print Assumptions C113_numbers.
(** So each type has the class of its own entry of the dictionary, through the numbers: none of the keys replaces another. *)
Theorem C113_class t : class_of (number t) = Ok (LookupModel.type2cls (seen t)).
Proof. destruct t; vm_compute; reflexivity. Qed.
Print Assumptions C113_class.
(** All types have a class but memories and unknown ones. *)
Theorem C113_missing t : class_of (number t) = Ok None <-> t = TUnknown \/ t = TMemory.
Proof. rewrite C113_class. destruct t; cbn; split; intro H; try discriminate H; try tauto; destruct H as [H|H]; discriminate H. Qed.
Print Assumptions C113_missing.
(** A number which is no type has no class, and the message says so. *)
Theorem C113_no_type n : (forall t, number t <> n) -> make n = Ok (inr "unknown").
Proof.
  intros H. assert (C : class_of n = Ok None).
  { unfold class_of. cbn [dict_text fold_left bind fst snd].
    repeat match goal with |- context [attribute ?a] => let v := eval vm_compute in (attribute a) in change (attribute a) with v end. cbn [bind].
    repeat match goal with |- context [?k =? n] => destruct (Z.eqb_spec k n) as [E|_]; [exfalso; first [exact (H TModule E) | exact (H TStructure E) | exact (H TPackedStructure E) | exact (H TLogic E) | exact (H TLogicArray E) | exact (H TArray E) | exact (H TReal E) | exact (H TInteger E) | exact (H TEnum E) | exact (H TString E) | exact (H TFixedString E) | exact (H TGenArray E) | exact (H TPackage E)]|] end. reflexivity. }
  unfold make. rewrite C. cbn [bind]. do 2 f_equal.
  pose proof (H TUnknown); pose proof (H TMemory); pose proof (H TModule); pose proof (H TArray); pose proof (H TEnum); pose proof (H TStructure);
  pose proof (H TReal); pose proof (H TInteger); pose proof (H TString); pose proof (H TFixedString); pose proof (H TGenArray); pose proof (H TPackage);
  pose proof (H TLogic); pose proof (H TLogicArray). clear H C. cbn [number] in *.
  assert (n < 0 \/ n > 17 \/ n = 3 \/ n = 4 \/ n = 5 \/ n = 15) as K by lia.
  destruct K as [K|[K|[-> |[-> |[-> | ->]]]]]; try reflexivity.
  - destruct n; [lia|lia|reflexivity].
  - destruct n as [|p|p]; [lia| |lia]. unfold type_str.
    repeat (destruct p as [p|p|]; try reflexivity; try lia).
Qed.
Example C113_no_type_example : (forall t, number t <> 3) /\ make 3 = Ok (inr "unknown") /\ make 16 = Ok (inl LookupModel.C_Logic) /\ make 1 = Ok (inr "GPI_MEMORY").
Proof. split; [intros []; discriminate|]. vm_compute. now repeat split. Qed.
Print Assumptions C113_no_type.
(** The text of a type is the name in the enum, for all but one. *)
Theorem C113_text_partial t u : t <> TPackedStructure -> type_str (number t) = type_str (number u) -> t = u.
Proof. destruct t, u; intros N H; try reflexivity; try discriminate H; now destruct N. Qed.
Example C113_text_partial_example : TLogic <> TPackedStructure /\ type_str (number TLogic) = "GPI_LOGIC".
Proof. split; [discriminate|reflexivity]. Qed.
Print Assumptions C113_text_partial.
Theorem C113_text_refuted : exists t, type_str (number t) = "unknown" /\ class_of (number t) = Ok (Some LookupModel.C_LogicArray).
Proof. exists TPackedStructure. split; vm_compute; reflexivity. Qed.
Print Assumptions C113_text_refuted.
(** What the triggers pass as edges means what they say (C111_passes). *)
Theorem C113_edges name e text : In name ["RISING"; "FALLING"; "VALUE_CHANGE"] -> attribute name = Some e ->
  (BindModel.passes (BindModel.to_edge e) text = true <-> name = "VALUE_CHANGE" \/ name = "RISING" /\ text = lit "1" \/ name = "FALLING" /\ text = lit "0").
Proof.
  intros [<-|[<-|[<-|[]]]] H; vm_compute in H; injection H as <-; rewrite BindProps.C111_passes; change (1 mod 2 ^ 32) with 1; change (2 mod 2 ^ 32) with 2; change (0 mod 2 ^ 32) with 0;
    intuition (discriminate || lia).
Qed.
Example C113_edges_example : attribute "RISING" = Some 1 /\ attribute "FALLING" = Some 2 /\ attribute "VALUE_CHANGE" = Some 0.
Proof. vm_compute. now repeat split. Qed.
Print Assumptions C113_edges.
(** Every name is defined once. *)
Theorem C113_names : NoDup (map fst constants).
Proof. repeat constructor; cbn; intuition discriminate. Qed.
Print Assumptions C113_names.
(** The values, as in gpi.h. *)
Theorem C113_values : map attribute ["RANGE_UP"; "RANGE_DOWN"; "RANGE_NO_DIR"; "OBJECTS"; "DRIVERS"; "LOADS"; "UNKNOWN"; "MEMORY"] =
  [Some 1; Some (-1); Some 0; Some 1; Some 2; Some 3; Some 0; Some 1].
Proof. vm_compute. reflexivity. Qed.
Print Assumptions C113_values.
(** The numbers, as in gpi.h. *)
Theorem C113_numbers_table : map number [TUnknown; TMemory; TModule; TArray; TEnum; TStructure; TReal; TInteger; TString; TFixedString; TGenArray; TPackage; TPackedStructure; TLogic; TLogicArray] =
  [0; 1; 2; 6; 7; 8; 9; 10; 11; 12; 13; 14; 15; 16; 17].
Proof. reflexivity. Qed.
Print Assumptions C113_numbers_table.

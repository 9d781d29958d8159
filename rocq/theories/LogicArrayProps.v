(** Property theorems C08-C16: LogicArray. [rx] is the COCOTB_RESOLVE_X setting, [rnd] any random
    source, and [is_larr rx a] says that some program can get hold of the object [a] (with whatever
    cached representations its history left behind). *)
From Coq Require Import String.
From Verif Require Import Base RangeModel RangeSpec ArrayModel LogicModel LogicSpec LogicArrayModel LogicArrayMachine
  LogicArraySpec LogicArrayProofs LogicArrayRefine LogicArrayThms LogicArrayFormat.
Open Scope Z_scope.

(** ** C08: bitwise operators *)
Theorem C08_la_and rx a b : is_larr rx a -> is_larr rx b ->
  match la_and a b with
  | (a', b', Ok c) => length (elems a) = length (elems b) /\
      elems c = map (fun '(x, y) => spec_and x y) (combine (elems a) (elems b)) /\ default_labels c /\
      same a' a /\ same b' b
  | (a', b', Err e) => e = ValueError /\ length (elems a) <> length (elems b) /\ a' = a /\ b' = b
  end.
Proof. exact (C08_zip_pf rx and_table spec_and a b (proj1 tables_fun)). Qed.
Print Assumptions C08_la_and.

Theorem C08_la_or rx a b : is_larr rx a -> is_larr rx b ->
  match la_or a b with
  | (a', b', Ok c) => length (elems a) = length (elems b) /\
      elems c = map (fun '(x, y) => spec_or x y) (combine (elems a) (elems b)) /\ default_labels c /\
      same a' a /\ same b' b
  | (a', b', Err e) => e = ValueError /\ length (elems a) <> length (elems b) /\ a' = a /\ b' = b
  end.
Proof. exact (C08_zip_pf rx or_table spec_or a b (proj1 (proj2 tables_fun))). Qed.
Print Assumptions C08_la_or.

Theorem C08_la_xor rx a b : is_larr rx a -> is_larr rx b ->
  match la_xor a b with
  | (a', b', Ok c) => length (elems a) = length (elems b) /\
      elems c = map (fun '(x, y) => spec_xor x y) (combine (elems a) (elems b)) /\ default_labels c /\
      same a' a /\ same b' b
  | (a', b', Err e) => e = ValueError /\ length (elems a) <> length (elems b) /\ a' = a /\ b' = b
  end.
Proof. exact (C08_zip_pf rx xor_table spec_xor a b (proj2 (proj2 tables_fun))). Qed.
Print Assumptions C08_la_xor.

Theorem C08_la_invert rx a : is_larr rx a ->
  exists a' c, la_invert a = (a', Ok c) /\ elems c = map spec_not (elems a) /\ default_labels c /\ same a' a.
Proof. exact (C08_invert_pf rx a). Qed.
Print Assumptions C08_la_invert.

(** Two reachable arrays; one holds an int, one a str; the second has ascending labels. *)
Definition ex_a : larr := LArr None (Some 5) None (PyRange 3 (-1) (-1)) false.
Definition ex_b : larr := LArr None None (Some (lit "X1L-")) (PyRange 0 4 1) false.
Lemma ex_a_ok rx : is_larr rx ex_a.
Proof. exists [ONew (WInt 5) (RInt 4)], O. split; [repeat constructor|reflexivity]. Qed.
Lemma ex_b_ok rx : is_larr rx ex_b.
Proof.
  exists [ONew (WStr (lit "x_1l-")) (RRange (PyRange 0 4 1))], O. split; [|reflexivity].
  repeat constructor. exists 0, (DStr (lit "to")), (Some 3). reflexivity.
Qed.
Example C08_ex : exists a' b' c, la_and ex_a ex_b = (a', b', Ok c) /\ elems c = [L0; L1; L0; LX].
Proof. repeat eexists. Qed.

(** ** C09: unsigned integers *)
Theorem C09_la_to_unsigned rx rnd a : is_larr rx a -> elems a <> [] -> definite (elems a) = true ->
  snd (to_unsigned rx rnd a) = Ok (unsigned (elems a)) /\ 0 <= unsigned (elems a) < 2 ^ la_len a.
Proof. exact (C09_to_unsigned_pf rx rnd a). Qed.
Print Assumptions C09_la_to_unsigned.

(** With unknown values the conversion fails, or resolves them if RESOLVE_X says so; the one
    exception is [minus_like], see below. *)
Theorem C09_la_undefined rx rnd a : is_larr rx a ->
  (definite (elems a) = false /\ ~ minus_like (elems a)) \/ elems a = [] ->
  snd (to_unsigned rx rnd a) =
  match rx with
  | Some ((RZeros | ROnes | RRandom) as r) =>
      match elems a with [] => Err ValueError | v => Ok (unsigned (s_resolve r rnd v)) end
  | _ => Err ValueError
  end.
Proof. exact (C09_undefined_pf rx rnd a). Qed.
Print Assumptions C09_la_undefined.

Theorem C09_la_from_unsigned z rg r ov : rangearg_ok rg -> norm_range rg = Ok (Some r) ->
  match from_unsigned z rg ov with
  | Ok a => 0 <= z /\ 0 < range_len r /\ (ov = OvWrap \/ ov = OvError /\ z < 2 ^ range_len r) /\
            elems a = bits (Z.to_nat (range_len r)) z /\ la_range a = r
  | Err e => e = ValueError /\
            (z < 0 \/ range_len r = 0 \/ ov = OvOther \/ ov = OvError /\ 2 ^ range_len r <= z)
  end.
Proof. exact (C09_from_unsigned_pf z rg r ov). Qed.
Print Assumptions C09_la_from_unsigned.

Theorem C09_la_roundtrip rx rnd z rg r ov a : rangearg_ok rg -> norm_range rg = Ok (Some r) ->
  from_unsigned z rg ov = Ok a ->
  snd (to_unsigned rx rnd a) = Ok (z mod 2 ^ range_len r) /\
  (ov = OvError -> snd (to_unsigned rx rnd a) = Ok z).
Proof. exact (C09_roundtrip_pf rx rnd z rg r ov a). Qed.
Print Assumptions C09_la_roundtrip.

Theorem C09_la_back rx rnd a k : is_larr rx a -> strong (elems a) = true ->
  snd (to_unsigned rx rnd a) = Ok k ->
  exists b, from_unsigned k (RRange (la_range a)) OvError = Ok b /\ elems b = elems a.
Proof. exact (C09_back_pf rx rnd a k). Qed.
Print Assumptions C09_la_back.

(** False of the code: "to_unsigned of an array with unknown values never returns a number when no
    resolver is set". A leading don't-care is taken for a minus sign. *)
Definition ex_minus : larr := LArr None None (Some (lit "-101")) (PyRange 3 (-1) (-1)) false.
Theorem C09_la_dont_care_refuted : exists a k, is_larr None a /\ definite (elems a) = false /\ k < 0 /\
  forall rnd, snd (to_unsigned None rnd a) = Ok k.
Proof.
  exists ex_minus, (-5). split.
  { exists [ONew (WStr (lit "-101")) RNone], O. split; [repeat constructor|reflexivity]. }
  repeat split.
Qed.
Print Assumptions C09_la_dont_care_refuted.

Example C09_ex : is_larr None ex_a /\ elems ex_a = [L0; L1; L0; L1] /\ definite (elems ex_a) = true /\
  is_larr None ex_b /\ definite (elems ex_b) = false /\ ~ minus_like (elems ex_b) /\
  rangearg_ok (RInt 4) /\ norm_range (RInt 4) = Ok (Some (PyRange 3 (-1) (-1))) /\
  from_unsigned 21 (RInt 4) OvWrap = Ok ex_a.
Proof.
  split; [apply ex_a_ok|]. split; [reflexivity|]. split; [reflexivity|]. split; [apply ex_b_ok|].
  split; [reflexivity|]. split; [|repeat split]. intros (w & E & _). discriminate E.
Qed.

(** ** C10: signed integers *)
Theorem C10_la_to_signed rx rnd a : is_larr rx a -> elems a <> [] -> definite (elems a) = true ->
  snd (to_signed rx rnd a) = Ok (signed (elems a)) /\
  - 2 ^ (la_len a - 1) <= signed (elems a) < 2 ^ (la_len a - 1).
Proof. exact (C10_to_signed_pf rx rnd a). Qed.
Print Assumptions C10_la_to_signed.

Theorem C10_la_from_signed z rg r ov : rangearg_ok rg -> norm_range rg = Ok (Some r) ->
  match from_signed z rg ov with
  | Ok a => 0 < range_len r /\
            (ov = OvWrap \/ ov = OvError /\ - 2 ^ (range_len r - 1) <= z < 2 ^ (range_len r - 1)) /\
            elems a = bits (Z.to_nat (range_len r)) z /\ la_range a = r
  | Err e => e = ValueError /\
            (range_len r = 0 \/ ov = OvOther \/
             ov = OvError /\ ~ (- 2 ^ (range_len r - 1) <= z < 2 ^ (range_len r - 1)))
  end.
Proof. exact (C10_from_signed_pf z rg r ov). Qed.
Print Assumptions C10_la_from_signed.

Theorem C10_la_roundtrip rx rnd z rg r a : rangearg_ok rg -> norm_range rg = Ok (Some r) ->
  from_signed z rg OvError = Ok a -> snd (to_signed rx rnd a) = Ok z.
Proof. exact (C10_roundtrip_pf rx rnd z rg r a). Qed.
Print Assumptions C10_la_roundtrip.

Example C10_ex : exists a, from_signed (-8) (RInt 4) OvError = Ok a /\ elems a = [L1; L0; L0; L0] /\
  signed (elems a) = -8.
Proof. repeat eexists. Qed.

(** ** C11: bytes *)
Theorem C11_la_to_bytes rx rnd o a : is_larr rx a -> elems a <> [] -> definite (elems a) = true ->
  exists bs, snd (to_bytes rx rnd o a) = Ok bs /\ Forall (fun x => 0 <= x < 256) bs /\
    Z.of_nat (length bs) = (la_len a + 7) / 8 /\ int_from_bytes o bs = unsigned (elems a).
Proof. exact (C11_to_bytes_pf rx rnd o a). Qed.
Print Assumptions C11_la_to_bytes.

Theorem C11_la_from_bytes b rg o : rangearg_ok rg -> Forall (fun x => 0 <= x < 256) b ->
  match from_bytes b rg o with
  | Ok a => b <> [] /\ elems a = bits (8 * length b) (int_from_bytes o b) /\
            match rg with RRange r => la_range a = r | _ => default_labels a end
  | Err e => e = ValueError /\
             (b = [] \/ match rg with
                        | RNone => False
                        | RInt n => Z.max 0 n <> 8 * Z.of_nat (length b)
                        | RRange r => range_len r <> 8 * Z.of_nat (length b)
                        end)
  end.
Proof. exact (C11_from_bytes_pf b rg o). Qed.
Print Assumptions C11_la_from_bytes.

Theorem C11_la_roundtrip rx rnd b rg o a : rangearg_ok rg -> Forall (fun x => 0 <= x < 256) b ->
  from_bytes b rg o = Ok a -> snd (to_bytes rx rnd o a) = Ok b.
Proof. exact (C11_roundtrip_pf rx rnd b rg o a). Qed.
Print Assumptions C11_la_roundtrip.

Example C11_ex : exists a, from_bytes [18; 255] RNone Little = Ok a /\
  snd (to_unsigned None (fun _ => true) a) = Ok 65298 /\
  from_bytes [18; 255] RNone Big <> Ok a.
Proof. eexists. split; [reflexivity|]. split; [reflexivity|]. discriminate. Qed.

(** ** C12: the cached representations are never visible *)
Theorem C12_la_program rx ops : Forall op_ok ops ->
  Forall2 out_agrees (snd (run rx [] ops)) (snd (s_run rx [] ops)).
Proof. exact (C12_program_pf rx ops). Qed.
Print Assumptions C12_la_program.

Theorem C12_la_reads rx rnd a : is_larr rx a ->
  la_len a = Z.of_nat (length (elems a)) /\
  (exists a', la_get_str a = (a', Ok (s_chars (elems a))) /\ same a' a) /\
  (exists a', la_iter a = (a', Ok (elems a)) /\ same a' a) /\
  (exists a', la_reversed a = (a', Ok (rev (elems a))) /\ same a' a) /\
  (exists a', to_unsigned rx rnd a = (a', s_int rx rnd (elems a)) /\ same a' a) /\
  (exists a', to_signed rx rnd a = (a', s_signed rx rnd (elems a)) /\ same a' a) /\
  (forall o, exists a', to_bytes rx rnd o a = (a', s_bytes rx rnd o (elems a)) /\ same a' a) /\
  (exists a', la_bool rx rnd a = (a', s_bool rx rnd (elems a)) /\ same a' a) /\
  (forall s, exists a', la_format rx rnd a s = (a', s_format rx rnd (elems a) s) /\ same a' a).
Proof. exact (C12_reads_pf rx rnd a). Qed.
Print Assumptions C12_la_reads.

(** False of the code for [==] between LogicArrays: reading a value as an integer beforehand
    changes the answer. *)
Definition ex_eq_prog (reads : list op) : list op :=
  ([ONew (WStr (lit "L1")) RNone; ONew (WInt 1) (RInt 2)] ++ reads ++ [OEq 0 1])%nat.
Theorem C12_la_eq_reads_refuted : exists read,
  Forall op_ok (ex_eq_prog []) /\ Forall op_ok (ex_eq_prog [read]) /\
  snd (run None [] (ex_eq_prog [])) = [XNew None; XNew None; XBool (Ok false)] /\
  snd (run None [] (ex_eq_prog [read])) = [XNew None; XNew None; XInt (Ok 1); XBool (Ok true)].
Proof. exists (OToUnsigned 0 (fun _ => false)). repeat split; repeat constructor. Qed.
Print Assumptions C12_la_eq_reads_refuted.

(** A program whose objects carry all three representations in turn. *)
Definition ex_prog : list op :=
  [ONew (WInt 5) (RInt 4); OStr 0; OGet 0 2; OToUnsigned 0 (fun _ => true); OSet 0 3 (LvStr (lit "X"));
   OStr 0; OToUnsigned 0 (fun _ => true); OSetSlice 0 (Some 1) (Some 0) false (WObj 0);
   OSetSlice 0 (Some 3) (Some 2) false (WStr (lit "10")); OToSigned 0 (fun _ => true)].
Example C12_ex : Forall op_ok ex_prog /\
  snd (run None [] ex_prog) =
   [XNew None; XStr (Ok (lit "0101")); XLogic (Ok L1); XInt (Ok 5); XDone None; XStr (Ok (lit "X101"));
    XInt (Err ValueError); XDone (Some ValueError); XDone None; XInt (Ok (-7))].
Proof. split; [unfold ex_prog; repeat constructor|vm_compute; reflexivity]. Qed.

(** ** C13: equality *)
Theorem C13_la_eq rx a b : is_larr rx a -> is_larr rx b ->
  exists a' b' r, la_eq a b = (a', b', Ok r) /\ same a' a /\ same b' b /\
    (clean (elems a) = true -> clean (elems b) = true -> (r = true <-> elems a = elems b)) /\
    (elems a = elems b -> r = true) /\
    (r = true -> length (elems a) = length (elems b)).
Proof. exact (C13_eq_pf rx a b). Qed.
Print Assumptions C13_la_eq.

Theorem C13_la_eq_str rx a s : is_larr rx a ->
  exists a' r, la_eq_str a s = (a', Ok r) /\ same a' a /\ (r = true <-> logics_of_str s = Ok (elems a)).
Proof. exact (C13_eq_str_pf rx a s). Qed.
Print Assumptions C13_la_eq_str.

Theorem C13_la_eq_list rx a l : is_larr rx a ->
  exists a' r, la_eq_list a l = (a', Ok r) /\ same a' a /\
    (r = true <-> map_result (logic_new CLogic) l = Ok (elems a)).
Proof. exact (C13_eq_list_pf rx a l). Qed.
Print Assumptions C13_la_eq_list.

Theorem C13_la_eq_int rx rnd a z : is_larr rx a ->
  exists a' r, la_eq_int rx rnd a z = (a', Ok r) /\ same a' a /\
    (elems a <> [] -> definite (elems a) = true ->
       (r = true <-> z = if z <? 0 then signed (elems a) else unsigned (elems a))) /\
    (elems a = [] -> r = false) /\
    (rx = None -> definite (elems a) = false -> ~ minus_like (elems a) -> r = false).
Proof. exact (C13_eq_int_pf rx rnd a z). Qed.
Print Assumptions C13_la_eq_int.

(** False of the code: arrays comparing equal have equal elements. The first array holds a weak
    0 whose integer was cached by an earlier read. *)
Definition ex_weak : larr := LArr None (Some 1) (Some (lit "L1")) (PyRange 1 (-1) (-1)) false.
Definition ex_one : larr := LArr None (Some 1) None (PyRange 1 (-1) (-1)) false.
Theorem C13_la_eq_exact_refuted : exists a b, is_larr None a /\ is_larr None b /\
  snd (la_eq a b) = Ok true /\ elems a <> elems b /\
  (* nor is == transitive with str *)
  snd (la_eq_str a (lit "L1")) = Ok true /\ snd (la_eq_str b (lit "L1")) = Ok false.
Proof.
  exists ex_weak, ex_one. split.
  { exists [ONew (WStr (lit "L1")) RNone; OToUnsigned 0 (fun _ => false)], O. split; [repeat constructor|reflexivity]. }
  split.
  { exists [ONew (WInt 1) (RInt 2)], O. split; [repeat constructor|reflexivity]. }
  split; [reflexivity|]. split; [discriminate|]. split; reflexivity.
Qed.
Print Assumptions C13_la_eq_exact_refuted.

(** False of the code: a LogicArray equals the string it was built from (digit separators). *)
Theorem C13_la_eq_str_underscore_refuted : exists s a, mk_larr (VStr s) RNone = Ok a /\
  snd (la_eq_str a s) = Ok false.
Proof. exists (lit "1_0"). eexists. split; reflexivity. Qed.
Print Assumptions C13_la_eq_str_underscore_refuted.

Example C13_ex : clean (elems ex_a) = true /\ snd (la_eq ex_a ex_b) = Ok false /\
  snd (la_eq_list ex_a [LvInt 0; LvStr (lit "1"); LvLogic L0; LvInt 1]) = Ok true /\
  snd (la_eq_str ex_b (lit "x1l-")) = Ok true /\
  snd (la_eq_int None (fun _ => true) ex_a 5) = Ok true.
Proof. repeat split. Qed.

(** ** C14: assignment *)
Theorem C14_la_setitem rx a i v : is_larr rx a -> la_warn a = false ->
  match la_setitem a i v with
  | (a', None) => In i (range_iter (la_range a)) /\ la_range a' = la_range a /\
      exists l, logic_new CLogic v = Ok l /\
        forall j, snd (la_getitem a' j) = if j =? i then Ok l else snd (la_getitem a j)
  | (a', Some e) => same a' a /\ (~ In i (range_iter (la_range a)) /\ e = IndexError \/
                                  In i (range_iter (la_range a)) /\ logic_new CLogic v = Err e)
  end.
Proof. exact (C14_setitem_pf rx a i v). Qed.
Print Assumptions C14_la_setitem.

(** Slice assignment does to the elements what Array slice assignment (C05) does to a list with the
    same labels; a failed one changes nothing. [v = None] is self-assignment. *)
Theorem C14_la_setslice rx a s e st v sv : is_larr rx a ->
  match v with
  | Some (VArr b) => is_larr rx b /\ sv = SArr (Array (elems b) (la_range b))
  | Some (VStr x) => sv = SStr x
  | Some (VInt x) => sv = SInt x
  | Some (VIter x) => sv = SIter x
  | None => sv = SArr (Array (elems a) (la_range a))
  end ->
  exists a', la_setslice a s e st v = (a', snd (s_setslice (Array (elems a) (la_range a)) s e st sv)) /\
    elems a' = a_value (fst (s_setslice (Array (elems a) (la_range a)) s e st sv)) /\
    (snd (s_setslice (Array (elems a) (la_range a)) s e st sv) <> None -> same a' a).
Proof. exact (C14_setslice_pf rx a s e st v sv). Qed.
Print Assumptions C14_la_setslice.

(** False of the code when the indexing warning is enabled: reading a label of the range gives its
    element. Composing the warning text uses the label as a position. *)
Definition ex_warn_prog : list op :=
  [OFromHandle (lit "01") true; OSetRange 0 (PyRange 9 7 (-1)); OGet 0 8]%nat.
Theorem C14_la_warn_refuted : Forall op_ok ex_warn_prog /\ In 8 (range_iter (PyRange 9 7 (-1))) /\
  snd (run None [] ex_warn_prog) = [XNew None; XDone None; XLogic (Err IndexError)].
Proof.
  split; [|split; [right; left; reflexivity|reflexivity]].
  unfold ex_warn_prog. apply Forall_cons; [|apply Forall_cons; [|repeat constructor]].
  - cbn [op_ok]. change (lit "01") with [48; 49]. repeat (apply Forall_cons; [vm_compute; tauto|]). apply Forall_nil.
  - exists 9, (DStr (lit "downto")), (Some 8). reflexivity.
Qed.
Print Assumptions C14_la_warn_refuted.

Example C14_ex : is_larr None ex_a /\ la_warn ex_a = false /\
  elems (fst (la_setitem ex_a 3 (LvStr (lit "Z")))) = [LZ; L1; L0; L1] /\
  elems (fst (la_setslice ex_a (Some 3) (Some 2) false (Some (VInt 2)))) = [L1; L0; L0; L1].
Proof. split; [apply ex_a_ok|]. repeat split. Qed.

(** ** C15: resolving *)
Theorem C15_la_resolve rx r rnd a : is_larr rx a ->
  exists a' c, la_resolve r rnd a = (a', Ok c) /\ same a' a /\
    elems c = s_resolve r rnd (elems a) /\ la_range c = la_range a.
Proof. exact (C15_resolve_pf rx r rnd a). Qed.
Print Assumptions C15_la_resolve.

(** Definite values resolve to the corresponding strong value under every resolver but "error",
    "weak" touches only weak values, the others leave nothing unresolved. *)
Theorem C15_la_resolve_values r rnd v :
  length (s_resolve r rnd v) = length v /\
  (match r with RZeros | ROnes | RRandom => True | _ => False end -> strong (s_resolve r rnd v) = true) /\
  (forall i l, nth_error v i = Some l ->
     exists l', nth_error (s_resolve r rnd v) i = Some l' /\
       (forall b, bool_of l = Some b -> bool_of l' = Some b /\ (r <> RError -> l' = of_bool b)) /\
       (r = RError -> l' = l) /\
       (r = RWeak -> bool_of l = None -> l' = (match l with LW => LX | _ => l end)) /\
       (bool_of l = None -> r = RZeros -> l' = L0) /\ (bool_of l = None -> r = ROnes -> l' = L1)).
Proof.
  split; [exact (s_resolve_length r v rnd)|]. split; [intro H; exact (s_resolve_strong r v H rnd)|].
  revert rnd. induction v as [|x v IH]; intros rnd [|i] l E; try discriminate E.
  - injection E as ->. eexists. split; [reflexivity|].
    destruct r, l; cbn; repeat split; intros; try congruence; try discriminate;
      match goal with H : Some _ = Some _ |- _ => injection H as <-; reflexivity | _ => idtac end.
  - exact (IH (fun n => rnd (S n)) i l E).
Qed.
Print Assumptions C15_la_resolve_values.

Theorem C15_la_bool rx rnd a : is_larr rx a -> definite (elems a) = true ->
  snd (la_bool rx rnd a) =
    Ok (existsb (fun l => match bool_of l with Some true => true | _ => false end) (elems a)) /\
  (elems a <> [] -> exists k, snd (to_unsigned rx rnd a) = Ok k /\ snd (la_bool rx rnd a) = Ok (negb (k =? 0))).
Proof. exact (C15_bool_pf rx rnd a). Qed.
Print Assumptions C15_la_bool.

(** False of the code with unknown values: bool() and int() agree. *)
Theorem C15_bool_int_refuted :
  (forall rnd, logic_bool (Some ROnes) LX = Ok false /\ logic_int (Some ROnes) rnd LX = Ok 1) /\
  (forall rnd, logic_bool (Some RError) LX = Ok false /\ logic_int (Some RError) rnd LX = Err ValueError) /\
  exists a, is_larr (Some ROnes) a /\
    forall rnd, snd (la_bool (Some ROnes) rnd a) = Ok false /\ snd (to_unsigned (Some ROnes) rnd a) = Ok 1.
Proof.
  split; [intro; split; reflexivity|]. split; [intro; split; reflexivity|].
  exists (LArr None None (Some (lit "0X")) (PyRange 1 (-1) (-1)) false). split.
  { exists [ONew (WStr (lit "0X")) RNone], O. split; [repeat constructor|reflexivity]. }
  intro; split; reflexivity.
Qed.
Print Assumptions C15_bool_int_refuted.

Example C15_ex : is_larr None ex_b /\ s_resolve RZeros (fun _ => true) (elems ex_b) = [L0; L1; L0; L0] /\
  s_resolve RRandom (fun n => Nat.eqb n 3) (elems ex_b) = [L0; L1; L0; L1] /\
  s_resolve RWeak (fun _ => true) [LX; LH; LW] = [LX; L1; LX].
Proof. split; [apply ex_b_ok|]. repeat split. Qed.

(** ** C16: formatting *)
Theorem C16_la_format rx rnd a alt sep t base pre :
  is_larr rx a -> elems a <> [] -> definite (elems a) = true ->
  In (t, (base, pre)) fmt_letters -> sep_ok sep -> (sep = Some 44 -> t = 100) ->
  exists body, snd (la_format rx rnd a (spec_of alt sep t)) = Ok ((if alt then pre else []) ++ body) /\
    read_number base (no_sep body) = unsigned (elems a) /\
    (t = 98 -> py_len (no_sep body) = la_len a) /\
    (t = 120 \/ t = 88 -> py_len (no_sep body) = (la_len a + 3) / 4) /\
    (t = 111 -> alt = false -> sep = None -> py_len (no_sep body) = (la_len a + 2) / 3).
Proof. exact (C16_value_pf rx rnd a alt sep t base pre). Qed.
Print Assumptions C16_la_format.

(** False of the code: octal output has ceil(n/3) digits with every flag. *)
Definition ex_oct : larr := LArr None (Some 0) None (PyRange 11 (-1) (-1)) false.
Theorem C16_octal_width_refuted : exists a, is_larr None a /\ la_len a = 12 /\
  forall rnd, snd (la_format None rnd a (lit "#_o")) = Ok (lit "0o0_0000").
Proof.
  exists ex_oct. split.
  { exists [ONew (WInt 0) (RInt 12)], O. split; [repeat constructor|reflexivity]. }
  split; [reflexivity|]. reflexivity.
Qed.
Print Assumptions C16_octal_width_refuted.

Example C16_ex : is_larr None ex_a /\
  snd (la_format None (fun _ => true) ex_a (spec_of true (Some 95) 98)) = Ok (lit "0b0101") /\
  snd (la_format None (fun _ => true) ex_a (spec_of false None 120)) = Ok (lit "5") /\
  snd (la_format None (fun _ => true) ex_a (spec_of false (Some 44) 98)) = Err ValueError /\
  snd (la_format None (fun _ => true) ex_b []) = Ok (lit "X1L-").
Proof. split; [apply ex_a_ok|]. repeat split. Qed.

(** Every other specification is refused, and the array keeps its three representations. *)
Ltac C16_leaf al sp :=
  repeat match goal with |- context [if pystr_eqb ?v (lit ?q) then _ else _] =>
    let P := fresh in destruct (pystr_eqb v (lit q)) eqn:P; [right; apply pystr_eqb_eq in P; exists al, sp; eexists; split; [unfold sep_ok; tauto|];
      split; [|rewrite P; reflexivity]; cbn; tauto|] end; left; reflexivity.
Lemma C16_plan n spec : fmt_plan n spec = Err ValueError \/
  exists alt sep t, sep_ok sep /\ In t [98; 111; 100; 120; 88] /\ spec = spec_of alt sep t.
Proof.
  unfold fmt_plan. destruct spec as [|x s]; [left; reflexivity|]. unfold strip1 at 1.
  destruct (Z.eqb_spec x 35) as [->|].
  - destruct s as [|y v]; [left; reflexivity|]. unfold strip1.
    destruct (Z.eqb_spec y 95) as [->|]; [C16_leaf true (Some 95)|].
    destruct (Z.eqb_spec y 44) as [->|]; [C16_leaf true (Some 44)|]. C16_leaf true (@None Z).
  - unfold strip1. destruct (Z.eqb_spec x 95) as [->|]; [C16_leaf false (Some 95)|].
    destruct (Z.eqb_spec x 44) as [->|]; [C16_leaf false (Some 44)|]. C16_leaf false (@None Z).
Qed.
Theorem C16_la_format_refused rx rnd a spec : spec <> [] ->
  (forall alt sep t, sep_ok sep -> In t [98; 111; 100; 120; 88] -> spec <> spec_of alt sep t) ->
  la_format rx rnd a spec = (a, Err ValueError).
Proof.
  intros N B. unfold la_format. destruct spec as [|c s]; [congruence|].
  destruct (C16_plan (la_len a) (c :: s)) as [-> |(alt & sep & t & Hs & Ht & E)]; [reflexivity|].
  destruct (B alt sep t Hs Ht E).
Qed.
Print Assumptions C16_la_format_refused.

Example C16_refused_ex : la_format None (fun _ => true) ex_a (lit "#_z") = (ex_a, Err ValueError) /\
  la_format None (fun _ => true) ex_a (lit "08b") = (ex_a, Err ValueError) /\
  la_format None (fun _ => true) ex_a (lit "_#b") = (ex_a, Err ValueError).
Proof. repeat split. Qed.

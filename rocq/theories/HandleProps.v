(** Properties C40-C42 of the value handles. A run [wrun trust ops st] executes assignments and GPI
    trigger firings chosen by an arbitrary environment; [w_log] lists the writes the simulator
    accepted, in order. [asked p ops] lists the element writes the assignments of a run ask for. *)
From Coq Require Import String.
From Verif Require Import Base RangeSpec RangeModel RangeProofs ArrayModel LogicModel LogicSpec
  LogicArrayModel LogicArrayMachine LogicArraySpec HandleModel HandleSpec HandleProofs.
Open Scope Z_scope.

Definition ex_rd : reads := Reads (fun _ => lit "0") (fun _ => 0) (fun _ => 0) (fun _ => []).
Definition ex_bus (id : Z) : handle := HLeaf (Z.to_nat id) false (KLogicArray 8%nat).

(** * C40: write scheduling *)

(** Everything asked for between two ReadWrite phases: non-deposit writes reach the simulator in the
    order asked; when the ReadWrite phase begins each object with queued deposits gets exactly its last
    one, in the order of these last deposits; afterwards nothing is queued. *)
Theorem C40_batch st ops : w_phase st <> PhReadWrite -> w_calls st = [] ->
  forallb not_rw ops = true -> all_accepted (asked (w_phase st) ops) ->
  let st' := wrun false (ops ++ [OFire PhReadWrite]) st in
  let ws := asked (w_phase st) ops in
  w_log st' = w_log st ++ others ws ++ keep_last (deposits ws) /\
  w_calls st' = [] /\ w_cb st' = false /\
  snd (fire false PhReadWrite (wrun false ops st)) = None.
Proof. exact (C40_batch_pf st ops). Qed.
Print Assumptions C40_batch.

(** [keep_last]: a write is kept iff no later write goes to the same object, and no object appears
    twice. *)
Theorem C40_keep_last l : NoDup (map hid_of (keep_last l)) /\
  forall w, In w (keep_last l) <-> exists l1 l2, l = l1 ++ w :: l2 /\ ~ In (hid_of w) (map hid_of l2).
Proof. exact (conj (keep_last_nodup l) (keep_last_in l)). Qed.
Print Assumptions C40_keep_last.

Definition ex_ops : list wop :=
  [OSet ex_rd (ex_bus 1) (APlain (PInt 1)); OSet ex_rd (ex_bus 2) (APlain (PInt 2));
   OSet ex_rd (ex_bus 3) (AForce (PInt 7)); OFire PhReadOnly;
   OSet ex_rd (ex_bus 2) (APlain (PInt 9)); OFire PhOther;
   OSet ex_rd (ex_bus 1) (ADeposit (PInt 3))].
Example C40_batch_ex :
  w_phase wst0 <> PhReadWrite /\ w_calls wst0 = [] /\ forallb not_rw ex_ops = true /\
  all_accepted (asked (w_phase wst0) ex_ops) /\
  w_log (wrun false (ex_ops ++ [OFire PhReadWrite]) wst0) =
    [(3%nat, 1, SInt 7); (2%nat, 0, SInt 2); (1%nat, 0, SInt 3)].
Proof.
  split; [discriminate|]. split; [reflexivity|]. split; [reflexivity|]. split; [|vm_compute; reflexivity].
  change (asked (w_phase wst0) ex_ops) with
    [(1%nat, 0, SInt 1); (2%nat, 0, SInt 2); (3%nat, 1, SInt 7); (1%nat, 0, SInt 3)].
  repeat constructor.
Qed.

(** In the ReadWrite phase every write is made at once, in order. *)
Theorem C40_in_readwrite st ops : w_phase st = PhReadWrite ->
  forallb (fun o => negb (is_fire o)) ops = true -> all_accepted (asked PhReadWrite ops) ->
  w_log (wrun false ops st) = w_log st ++ asked PhReadWrite ops /\
  w_calls (wrun false ops st) = w_calls st.
Proof.
  intros P F A. rewrite <- P in A |- *. apply wrun_now; [|exact A]. right. now rewrite P.
Qed.
Print Assumptions C40_in_readwrite.

(** With COCOTB_TRUST_INERTIAL_WRITES every write is made at once, in order, whatever the phase. *)
Theorem C40_trust st ops : all_accepted (asked (w_phase st) ops) ->
  w_log (wrun true ops st) = w_log st ++ asked (w_phase st) ops.
Proof. exact (fun A => proj1 (wrun_now true ops st (or_introl eq_refl) A)). Qed.
Print Assumptions C40_trust.

(** A Force, Freeze, Release or Immediate is written before the assignment returns and queues nothing. *)
Theorem C40_immediate rd h x st : code x <> 0 -> all_accepted (asked_by (w_phase st) rd h x) ->
  w_log (fst (assign false rd h x st)) = w_log st ++ asked_by (w_phase st) rd h x /\
  w_calls (fst (assign false rd h x st)) = w_calls st.
Proof.
  intros C A. rewrite assign_now by auto. split; reflexivity.
Qed.
Print Assumptions C40_immediate.

Example C40_now_ex :
  let st := fst (fire false PhReadWrite wst0) in
  w_phase st = PhReadWrite /\
  w_log (wrun false [OSet ex_rd (ex_bus 1) (APlain (PInt 1)); OSet ex_rd (ex_bus 1) (APlain (PInt 2))] st) =
    [(1%nat, 0, SInt 1); (1%nat, 0, SInt 2)] /\
  w_log (wrun true ex_ops wst0) = [(1%nat, 0, SInt 1); (2%nat, 0, SInt 2); (3%nat, 1, SInt 7); (1%nat, 0, SInt 3)] /\
  code (AImmediate (PInt 4)) <> 0 /\ asked_by PhOther ex_rd (ex_bus 1) (AImmediate (PInt 4)) = [(1%nat, 3, SInt 4)].
Proof. repeat (apply conj); try (vm_compute; reflexivity). discriminate. Qed.

(** Nothing can be assigned in the ReadOnly phase, nor to a constant. *)
Theorem C40_refused trust rd h x st :
  (w_phase st = PhReadOnly -> assign trust rd h x st = (st, Some RuntimeError)) /\
  (w_phase st <> PhReadOnly -> h_const h = true -> assign trust rd h x st = (st, Some TypeError)).
Proof.
  unfold assign. split.
  - intros ->. reflexivity.
  - intros P ->. destruct (w_phase st); try reflexivity. contradiction.
Qed.
Print Assumptions C40_refused.
Example C40_refused_ex :
  assign false ex_rd (ex_bus 1) (APlain (PInt 1)) (fst (fire false PhReadOnly wst0)) =
    (fst (fire false PhReadOnly wst0), Some RuntimeError) /\
  assign false ex_rd (HLeaf 1%nat true KLogic) (APlain (PInt 1)) wst0 = (wst0, Some TypeError).
Proof. split; reflexivity. Qed.

(** Whenever writes are queued the ReadWrite callback that applies them has been requested, and no
    object is queued twice; in a ReadWrite phase nothing is queued. *)
Theorem C40_queue_served trust ops : let st := wrun trust ops wst0 in
  (w_calls st <> [] -> w_cb st = true) /\ NoDup (map q_hid (w_calls st)).
Proof. exact (C40_flag_pf trust ops). Qed.
Print Assumptions C40_queue_served.
Theorem C40_readwrite_empty ops : all_accepted (asked PhOther ops) ->
  w_phase (wrun false ops wst0) = PhReadWrite -> w_calls (wrun false ops wst0) = [].
Proof. exact (C40_rw_empty_pf ops). Qed.
Print Assumptions C40_readwrite_empty.
Example C40_queue_ex :
  length (w_calls (wrun false ex_ops wst0)) = 2%nat /\ w_cb (wrun false ex_ops wst0) = true /\
  w_phase (wrun false (ex_ops ++ [OFire PhReadWrite]) wst0) = PhReadWrite.
Proof. repeat (apply conj); vm_compute; reflexivity. Qed.

(** Not true: the newest assignment to an object always wins. A deposit queued earlier is applied
    after a later Immediate (or Force). *)
Theorem C40_newest_wins_refuted : exists ops,
  asked PhOther ops = [(1%nat, 0, SInt 1); (1%nat, 3, SInt 2)] /\
  w_log (wrun false (ops ++ [OFire PhReadWrite]) wst0) = [(1%nat, 3, SInt 2); (1%nat, 0, SInt 1)].
Proof.
  exists [OSet ex_rd (ex_bus 1) (APlain (PInt 1)); OSet ex_rd (ex_bus 1) (AImmediate (PInt 2))].
  split; vm_compute; reflexivity.
Qed.
Print Assumptions C40_newest_wins_refuted.

(** Not true: setimmediatevalue(v) does what assigning Immediate(v) does, as its documentation says. It
    queues the value like a deposit. *)
Theorem C40_setimmediatevalue_refuted : exists h v,
  w_log (fst (setimmediatevalue false ex_rd h (APlain v) wst0)) = [] /\
  w_log (fst (assign false ex_rd h (AImmediate v) wst0)) = [(1%nat, 3, SInt 2)].
Proof. exists (ex_bus 1), (PInt 2). split; vm_compute; reflexivity. Qed.
Print Assumptions C40_setimmediatevalue_refuted.

(** Not true: an assignment that returned normally is carried out. A value that the C++ layer refuses (here a
    string with a NUL byte) raises only when the queue is applied, and keeps the later queued writes
    from being made. *)
Theorem C40_refused_late_refuted : exists ops,
  Forall (fun o => match o with OSet rd h x => snd (assign false rd h x wst0) = None | _ => False end) ops /\
  fire false PhReadWrite (wrun false ops wst0) =
    (WSt PhReadWrite (w_calls (wrun false ops wst0)) true [], Some ValueError) /\
  length (w_calls (wrun false ops wst0)) = 2%nat.
Proof.
  exists [OSet ex_rd (HLeaf 1%nat false KString) (APlain (PBytes false [65; 0; 66])); OSet ex_rd (ex_bus 2) (APlain (PInt 2))].
  split; [|split; vm_compute; reflexivity]. repeat constructor.
Qed.
Print Assumptions C40_refused_late_refuted.

(** * C41: what is written for a value *)

(** An int assigned to an [n]-bit logic array is accepted iff it fits as a signed or unsigned number,
    and puts its [n] low bits on the object. *)
Theorem C41_logicarray_int n z : (0 < n)%nat ->
  (- 2 ^ (Z.of_nat n - 1) <= z < 2 ^ Z.of_nat n ->
   exists s, conv (KLogicArray n) (PInt z) = Ok s /\ delivered n s = Some (bits n z) /\ bind_check s = None) /\
  (~ (- 2 ^ (Z.of_nat n - 1) <= z < 2 ^ Z.of_nat n) -> conv (KLogicArray n) (PInt z) = Err ValueError).
Proof.
  intro N. rewrite (C41_logicarray_int_pf n z N). split; intro H.
  - destruct (Z.leb_spec (- 2 ^ (Z.of_nat n - 1)) z); [|lia].
    destruct (Z.ltb_spec z (2 ^ Z.of_nat n)); [|lia]. cbn [andb].
    eexists. split; [reflexivity|]. split; [apply delivered_ok|now apply bind_ok_int].
  - destruct (Z.leb_spec (- 2 ^ (Z.of_nat n - 1)) z); [|reflexivity].
    destruct (Z.ltb_spec z (2 ^ Z.of_nat n)); [lia|reflexivity].
Qed.
Print Assumptions C41_logicarray_int.

(** The same for integer objects with the bounds of their signedness. *)
Theorem C41_integer n signed z : (0 < n)%nat ->
  (in_bounds n signed z ->
   exists s, conv (KInteger n signed) (PInt z) = Ok s /\ delivered n s = Some (bits n z) /\ bind_check s = None) /\
  (~ in_bounds n signed z -> conv (KInteger n signed) (PInt z) = Err ValueError).
Proof.
  intro N. destruct (C41_integer_pf n signed z N) as [A B]. split; [|exact B].
  intro H. rewrite (A H). eexists. split; [reflexivity|].
  split; [apply delivered_ok|apply bind_ok_int; [now apply (bounds_wide n signed)|exact N]].
Qed.
Print Assumptions C41_integer.

(** Enum objects: the same, except for negative values on objects wider than 32 bits. *)
Theorem C41_enum n signed z : (0 < n)%nat ->
  (in_bounds n signed z -> (n <= 32)%nat \/ 0 <= z ->
   exists s, conv (KEnum n signed) (PInt z) = Ok s /\ delivered n s = Some (bits n z)) /\
  (~ in_bounds n signed z -> conv (KEnum n signed) (PInt z) = Err ValueError).
Proof.
  intro N. destruct (C41_enum_pf n signed z N) as [A B]. split; [|exact B].
  intros H C. rewrite (A H C). eexists. split; [reflexivity|apply delivered_ok].
Qed.
Print Assumptions C41_enum.

(** Not true: an accepted enum value puts its low bits on the object. A negative value on a 33-bit enum
    is formatted with a minus sign, which the simulator reads as a don't-care. *)
Theorem C41_enum_refuted : exists n signed z s, in_bounds n signed z /\
  conv (KEnum n signed) (PInt z) = Ok s /\ delivered n s <> Some (bits n z) /\
  delivered n s = Some (LD :: bits 32%nat 1).
Proof.
  exists 33%nat, 1, (-1), (SStr (lit "-00000000000000000000000000000001")).
  split; [unfold in_bounds; cbn; lia|]. split; [vm_compute; reflexivity|].
  split; [|vm_compute; reflexivity]. intro H. vm_compute in H. discriminate H.
Qed.
Print Assumptions C41_enum_refuted.

Example C41_int_ex :
  conv (KLogicArray 8%nat) (PInt (-128)) = Ok (SInt (-128)) /\ conv (KLogicArray 8%nat) (PInt 255) = Ok (SInt 255) /\
  conv (KLogicArray 8%nat) (PInt 256) = Err ValueError /\
  conv (KLogicArray 34%nat) (PInt (-2)) = Ok (SStr (lit "1111111111111111111111111111111110")) /\
  in_bounds 40%nat 1 (-5) /\ ~ in_bounds 8%nat 0 (-1) /\ in_bounds 8%nat (-1) 255.
Proof.
  split; [reflexivity|]. split; [reflexivity|]. split; [reflexivity|]. split; [vm_compute; reflexivity|].
  unfold in_bounds; cbn; lia.
Qed.

(** Reading back a value written to an integer (or enum) object of known signedness gives the value,
    whichever representation of the bits the simulator returns. *)
Theorem C41_roundtrip n signed rd id z : (0 < n)%nat -> signed = 0 \/ signed = 1 ->
  in_bounds n signed z -> reads_back n rd id z ->
  leaf_get (KInteger n signed) rd id = Ok (PInt z) /\ leaf_get (KEnum n signed) rd id = Ok (PInt z).
Proof.
  intros N S B R. cbn [leaf_get]. rewrite (C41_roundtrip_pf n signed rd id z N S B R). split; reflexivity.
Qed.
Print Assumptions C41_roundtrip.

(** Not true: reading back gives the value also if the simulator cannot tell the signedness. *)
Theorem C41_roundtrip_unknown_sign_refuted : exists n rd id z,
  in_bounds n (-1) z /\ reads_back n rd id z /\ leaf_get (KInteger n (-1)) rd id <> Ok (PInt z).
Proof.
  exists 8%nat, (Reads (fun _ => []) (fun _ => 255) (fun _ => 0) (fun _ => [])), 1%nat, (-1).
  split; [unfold in_bounds; cbn; lia|]. split.
  - unfold reads_back. cbn. split; [reflexivity|]. lia.
  - intro H. vm_compute in H. discriminate H.
Qed.
Print Assumptions C41_roundtrip_unknown_sign_refuted.

Example C41_roundtrip_ex :
  let rd := Reads (fun _ => []) (fun _ => 255) (fun _ => 0) (fun _ => []) in
  in_bounds 8%nat 1 (-1) /\ reads_back 8%nat rd 1%nat (-1) /\ leaf_get (KInteger 8%nat 1) rd 1%nat = Ok (PInt (-1)).
Proof.
  cbv zeta. split; [unfold in_bounds; cbn; lia|]. split; [|reflexivity].
  unfold reads_back. cbn. split; [reflexivity|]. lia.
Qed.

(** A string is accepted by a logic array iff, without underscores and in upper case, it consists of
    value characters and has one for each element; these are written. *)
Theorem C41_logicarray_str n s :
  let t := upper (filter (fun c => negb (c =? 95)) s) in
  conv (KLogicArray n) (PStr s) =
  if forallb (fun c => existsb (Z.eqb c) (lit "UX01ZWLH-")) t && Nat.eqb (length t) n
  then Ok (SStr t) else Err ValueError.
Proof. exact (C41_logicarray_str_pf n s). Qed.
Print Assumptions C41_logicarray_str.

(** A LogicArray is accepted iff it has as many elements as the object; its elements are written.
    Scalars take a one-element LogicArray. *)
Theorem C41_logicarray_larr rx n a : is_larr rx a ->
  conv (KLogicArray n) (PLarr a) =
  (if Nat.eqb (length (elems a)) n then Ok (SStr (map logic_chr (elems a))) else Err ValueError) /\
  conv KLogic (PLarr a) =
  (if Nat.eqb (length (elems a)) 1 then Ok (SStr (map logic_chr (elems a))) else Err ValueError).
Proof. exact (C41_logicarray_larr_pf rx n a). Qed.
Print Assumptions C41_logicarray_larr.

(** A Logic goes to scalars and one-element arrays; other scalars values are converted by Logic(). *)
Theorem C41_logic n l z s :
  conv KLogic (PLogic l) = Ok (SStr [logic_chr l]) /\
  conv (KLogicArray n) (PLogic l) = (if Nat.eqb n 1 then Ok (SStr [logic_chr l]) else Err ValueError) /\
  conv KLogic (PInt z) = match logic_new CLogic (LvInt z) with Ok l => Ok (SStr [logic_chr l]) | Err e => Err e end /\
  conv KLogic (PStr s) = match logic_new CLogic (LvStr s) with Ok l => Ok (SStr [logic_chr l]) | Err e => Err e end.
Proof.
  repeat (apply conj); try reflexivity. cbn [conv conv_logicarray]. rewrite Nat.eqb_sym.
  destruct (Nat.eqb n 1); reflexivity.
Qed.
Print Assumptions C41_logic.
Example C41_str_ex :
  conv (KLogicArray 4%nat) (PStr (lit "1_0xZ")) = Ok (SStr (lit "10XZ")) /\
  conv (KLogicArray 4%nat) (PStr (lit "10x")) = Err ValueError /\
  conv (KLogicArray 4%nat) (PStr (lit "10x2")) = Err ValueError /\
  conv KLogic (PInt 1) = Ok (SStr (lit "1")) /\ conv KLogic (PInt 2) = Err ValueError.
Proof. repeat (apply conj); vm_compute; reflexivity. Qed.

(** Values of other types are refused with TypeError. *)
Definition foreign (k : hkind) (v : pyval) : bool :=
  match k, v with
  | (KLogic | KLogicArray _), (PInt _ | PStr _ | PLogic _ | PLarr _) => false
  | KReal, (PInt _ | PFloat _) => false
  | (KInteger _ _ | KEnum _ _), PInt _ => false
  | (KString | KFixedString _), PBytes _ _ => false
  | KFixedString _, (PStr _ | PLogic _ | PLarr _ | PList _ | PArr _ _) => false
  | _, _ => true
  end.
Theorem C41_foreign k v : foreign k v = true -> conv k v = Err TypeError.
Proof. destruct k, v; intro H; try discriminate H; reflexivity. Qed.
Print Assumptions C41_foreign.

(** A fixed-length string takes exactly the bytes objects that are not longer. *)
Theorem C41_fixed n v : (exists s, conv (KFixedString n) v = Ok s) <->
  exists m b, v = PBytes m b /\ (length b <= n)%nat.
Proof. exact (C41_fixed_pf n v). Qed.
Print Assumptions C41_fixed.

(** Freeze and Release write back exactly what was read. *)
Theorem C41_freeze rd id :
  (forall n, length (rd_binstr rd id) = n ->
     bind (leaf_get (KLogicArray n) rd id) (conv (KLogicArray n)) = Ok (SStr (rd_binstr rd id))) /\
  bind (leaf_get KReal rd id) (conv KReal) = Ok (SReal (rd_real rd id)) /\
  bind (leaf_get KString rd id) (conv KString) = Ok (SBytes false (rd_str rd id)) /\
  (forall l, rd_binstr rd id = [logic_chr l] ->
     bind (leaf_get KLogic rd id) (conv KLogic) = Ok (SStr [logic_chr l])).
Proof. exact (C41_freeze_pf rd id). Qed.
Print Assumptions C41_freeze.

(** Reading a logic array whose bits are [v] gives an array with these elements, most significant first, labelled from
    length - 1 down to 0, whose indices are these labels; reading a scalar gives the value. *)
Theorem C41_read rd id n v : rd_binstr rd id = map logic_chr v ->
  (exists a, leaf_get (KLogicArray n) rd id = Ok (PLarr a) /\ is_larr None a /\ elems a = v /\
     la_range a = PyRange (Z.of_nat (length v) - 1) (-1) (-1) /\ la_warn a = false) /\
  (forall l, v = [l] -> leaf_get KLogic rd id = Ok (PLogic l)).
Proof.
  intro E. split.
  - exists (LArr None None (Some (map logic_chr v)) (PyRange (Z.of_nat (length v) - 1) (-1) (-1)) false).
    assert (F : from_handle (map logic_chr v) false = Ok (LArr None None (Some (map logic_chr v)) (PyRange (Z.of_nat (length v) - 1) (-1) (-1)) false)).
    { unfold from_handle, downto_range. rewrite (mk_range_str _ (lit "downto") _ Downto eq_refl).
      cbn [bind]. unfold py_len. rewrite map_length. reflexivity. }
    split; [cbn [leaf_get]; rewrite E, F; reflexivity|]. split; [|split; [|split; reflexivity]].
    + exists [OFromHandle (map logic_chr v) false], O. split.
      * constructor; [|constructor]. cbn [op_ok]. apply Forall_forall. intros c H. apply in_map_iff in H as (l & <- & _).
        destruct l; cbn; tauto.
      * cbn [run step]. unfold add_new. rewrite F. reflexivity.
    + unfold elems, la_iter, la_get_array, la_get_str. cbn [la_array la_str]. rewrite logics_of_chars. reflexivity.
  - intros l ->. cbn [leaf_get]. rewrite E. destruct l; reflexivity.
Qed.
Print Assumptions C41_read.
Example C41_read_ex : rd_binstr ex_rd 1%nat = map logic_chr [L0].
Proof. reflexivity. Qed.
Example C41_misc_ex :
  foreign KReal (PStr []) = true /\
  conv (KFixedString 2%nat) (PBytes false [65; 66]) = Ok (SBytes false [65; 66]) /\
  conv (KFixedString 2%nat) (PBytes false [65; 66; 67]) = Err ValueError /\
  length (rd_binstr ex_rd 1%nat) = 1%nat /\ rd_binstr ex_rd 1%nat = [logic_chr L0].
Proof. repeat (apply conj); reflexivity. Qed.

(** Not true: every value accepted by the class checks can be written. A bytearray passes the check of
    StringObject, and an int of more than 1024 bits that of RealObject; the C++ layer refuses both. *)
Theorem C41_accepted_writable_refuted :
  (exists v s, conv KString v = Ok s /\ bind_check s = Some TypeError) /\
  (exists v s, conv KReal v = Ok s /\ bind_check s = Some OverflowError).
Proof.
  split.
  - exists (PBytes true [65]), (SBytes true [65]). split; reflexivity.
  - exists (PInt (2 ^ 1024)), (SRealInt (2 ^ 1024)). split; [reflexivity|]. vm_compute. reflexivity.
Qed.
Print Assumptions C41_accepted_writable_refuted.

(** * C42: array handles *)

(** A value that fits is written element by element in the order of the labels, nested arrays likewise,
    and nothing else is written. *)
Theorem C42_writes trust h a v qs st : requests h v qs ->
  set_value trust h a v st = schedule_all trust (mk_reqs a qs) st.
Proof. exact (C42_writes_pf trust h a v qs st). Qed.
Print Assumptions C42_writes.

(** If the assignment succeeds the value fits and all its elements have been written. *)
Theorem C42_complete trust h a v st : wf_val v -> snd (set_value trust h a v st) = None ->
  exists qs, requests h v qs /\
    fst (set_value trust h a v st) = fst (schedule_all trust (mk_reqs a qs) st).
Proof. exact (C42_complete_pf trust h a v st). Qed.
Print Assumptions C42_complete.

(** The labels of an array handle are the HDL range. *)
Theorem C42_labels l r d : d <> RNoDir -> exists rg, handle_range l r d = Ok rg /\
  range_iter rg = span l (match d with RUp => To | _ => Downto end) r.
Proof.
  intro H. destruct (handle_range_span l r d H) as (rg & E & _ & I). eauto.
Qed.
Print Assumptions C42_labels.

(** A value of another length is refused and nothing is written. *)
Theorem C42_length trust a c l r d sub v n rg st : py_length v = Ok n -> handle_range l r d = Ok rg ->
  n <> range_len rg -> set_value trust (HArr c l r d sub) a v st = (st, Some ValueError).
Proof. exact (C42_length_pf trust a c l r d sub v n rg st). Qed.
Print Assumptions C42_length.

(** Reading an array handle gives an Array over the HDL range whose element with label [i] is the value of
    the child with index [i]. *)
Theorem C42_get rd c l r d sub v : get_value rd (HArr c l r d sub) = Ok v ->
  exists rg vs, handle_range l r d = Ok rg /\ v = PArr vs rg /\
    Z.of_nat (length vs) = range_len rg /\
    forall i, In i (range_iter rg) ->
      exists ch x, sub_at i sub = Ok ch /\ get_value rd ch = Ok x /\ array_get (Array vs rg) i = Ok x.
Proof. exact (C42_get_pf rd c l r d sub v). Qed.
Print Assumptions C42_get.

Definition ex_arr : handle :=
  HArr false 3 2 RDown [(2, ex_bus 12); (3, HArr false 0 1 RUp [(0, ex_bus 10); (1, ex_bus 11)])].
Definition ex_arr_val : pyval := PList [PList [PInt 1; PInt 2]; PInt 3].
Example C42_ex :
  requests ex_arr ex_arr_val [(10%nat, SInt 1); (11%nat, SInt 2); (12%nat, SInt 3)] /\
  wf_val ex_arr_val /\ snd (set_value false ex_arr N_DEPOSIT ex_arr_val wst0) = None /\
  py_length (PList [PInt 1]) = Ok 1 /\
  (exists v, get_value ex_rd ex_arr = Ok v).
Proof.
  split; [|split; [cbn; repeat split|split; [vm_compute; reflexivity|split; [reflexivity|]]]].
  - eapply req_arr; try reflexivity.
    apply (req_cons _ _ _ _ _ (HArr false 0 1 RUp [(0, ex_bus 10); (1, ex_bus 11)])
             [(10%nat, SInt 1); (11%nat, SInt 2)] [(12%nat, SInt 3)]); [reflexivity| |].
    + eapply req_arr; try reflexivity.
      apply (req_cons _ _ _ _ _ (ex_bus 10) [(10%nat, SInt 1)] [(11%nat, SInt 2)]); [reflexivity|now constructor|].
      apply (req_cons _ _ _ _ _ (ex_bus 11) [(11%nat, SInt 2)] []); [reflexivity|now constructor|constructor].
    + apply (req_cons _ _ _ _ _ (ex_bus 12) [(12%nat, SInt 3)] []); [reflexivity|now constructor|constructor].
  - eexists. vm_compute. reflexivity.
Qed.

(** Not true: an assignment that raises writes nothing. Elements before the unusable one stay written. *)
Theorem C42_atomic_refuted : exists h v,
  set_value true h N_DEPOSIT v wst0 = (WSt PhOther [] false [(10%nat, 0, SInt 1)], Some ValueError).
Proof.
  exists (HArr false 0 1 RUp [(0, ex_bus 10); (1, ex_bus 11)]), (PList [PInt 1; PInt 256]).
  vm_compute. reflexivity.
Qed.
Print Assumptions C42_atomic_refuted.

(** Not true: constants are never written. Only the handle assigned to is asked, not its elements. *)
Theorem C42_const_refuted : exists h v id k,
  h = HArr false 0 0 RUp [(0, HLeaf id true k)] /\
  assign true ex_rd h (APlain v) wst0 = (WSt PhOther [] false [(id, 0, SInt 1)], None) /\
  assign true ex_rd (HLeaf id true k) (APlain (PInt 1)) wst0 = (wst0, Some TypeError).
Proof.
  exists (HArr false 0 0 RUp [(0, HLeaf 10%nat true (KLogicArray 8%nat))]), (PList [PInt 1]), 10%nat, (KLogicArray 8%nat).
  repeat (apply conj); vm_compute; reflexivity.
Qed.
Print Assumptions C42_const_refuted.

(** C43: looking up simulation objects. Model: LookupModel.v; spec: LookupSpec.v. *)
From Coq Require Import String Sorted.
From Verif Require Import Base LogicArrayModel TextModel ToolsModel ToolsSpec XmlModel LookupModel LookupSpec LookupProofs.
Open Scope Z_scope.

(** A design for the examples: module top (0) with clk (1), a generate loop g (2) with g[0] (3) and
    g[1] (4), a vector v (5) with bit 6, an array arr (7) with element 8, an object of unknown type odd
    (9); a package pkg (10) with K (11). *)
Definition ex_names : list pystr :=
  map lit ["top"; "clk"; "g"; "g[0]"; "g[1]"; "v"; "v[0]"; "arr"; "arr[0]"; "odd"; "pkg"; "K"]%string.
Definition ex_types : list gpi_type :=
  [T_MODULE; T_LOGIC; T_GENARRAY; T_MODULE; T_MODULE; T_LOGIC_ARRAY; T_LOGIC; T_NETARRAY; T_LOGIC; T_OTHER 42; T_PACKAGE; T_INTEGER].
Definition ex_children (p : nat) : list nat :=
  match p with 0 => [1; 2; 5; 7; 9] | 2 => [4; 3] | 10 => [11] | _ => [] end%nat.
Definition ex_name (h : nat) : pystr := nth h ex_names [].
Definition ex_sim : sim := Sim ex_name (fun h => nth h ex_types (T_OTHER 0)) ex_children
  (fun p n _ => match p with 2%nat => None | _ => find (fun h => pystr_eqb (ex_name h) n) (ex_children p) end)
  (fun p i => match p with
              | 2%nat => if i =? 0 then Some 3%nat else if i =? 1 then Some 4%nat else None
              | 5%nat => if i =? 0 then Some 6%nat else None
              | 7%nat => if i =? 0 then Some 8%nat else None
              | _ => None
              end).

(** The session of the examples: cocotb.top, then dut.g, then dut.v and dut.arr. *)
Definition ex_ops : list lop :=
  [LRoot 0%nat; LAttr 0%nat (lit "g"); LItem 0%nat (KName (lit "v")); LAttr 0%nat (lit "arr")].
Definition ex_st : lst := lrun ex_sim ex_ops lst0.

Example ex_reachable : reachable ex_sim ex_st.
Proof. exists ex_ops. reflexivity. Qed.

Example ex_searchable : searchable ex_sim.
Proof.
  intros p c k h T A. destruct A as [n d h H|c i h Nc H|c k h L]; [exact H|exact H|].
  destruct L as [h I|h i I K].
  - do 11 (destruct p as [|p]; [cbn in T; try discriminate T; cbn in I;
      repeat (destruct I as [<-|I]; [reflexivity|]); contradiction|]). contradiction.
  - do 11 (destruct p as [|p]; [cbn in T; try discriminate T; cbn in I;
      repeat (destruct I as [<-|I]; [vm_compute in K; injection K as <-; reflexivity|]); contradiction|]). contradiction.
Qed.
Lemma searchable_consistent S : searchable S -> consistent S.
Proof.
  intros H p c k h1 h2 T A B. pose proof (H _ _ _ _ T A) as Q1. pose proof (H _ _ _ _ T B) as Q2.
  destruct k; congruence.
Qed.

(** ** The same object every time
    Once a lookup has found an object, every later lookup of the same child - by attribute, index, [_id]
    or [_get] - finds that object and changes nothing, whatever was looked up or iterated in between. *)
Theorem C43_stable : forall S st q1 c st1 ops q2,
  consistent S -> reachable S st -> op_fits st q1 = true -> finds S st q1 c st1 -> asked q1 <> None ->
  asked q2 = asked q1 -> op_fits (lrun S ops st1) q2 = true ->
  finds S (lrun S ops st1) q2 c (lrun S ops st1).
Proof. exact stable_pf. Qed.
Print Assumptions C43_stable.

Example C43_stable_ex : exists st1,
  consistent ex_sim /\ reachable ex_sim ex_st /\ op_fits ex_st (LAttr 0%nat (lit "clk")) = true /\
  finds ex_sim ex_st (LAttr 0%nat (lit "clk")) 4%nat st1 /\
  asked (LId 0%nat (lit "clk") false) = asked (LAttr 0%nat (lit "clk")) /\
  finds ex_sim (lrun ex_sim [LKeys 0%nat; LIter 1%nat] st1) (LId 0%nat (lit "clk") false) 4%nat
    (lrun ex_sim [LKeys 0%nat; LIter 1%nat] st1) /\
  l_objs (lrun ex_sim [LKeys 0%nat; LIter 1%nat] st1) <> l_objs st1.
Proof.
  eexists. split; [apply searchable_consistent, ex_searchable|]. split; [exact ex_reachable|].
  split; [reflexivity|]. split; [vm_compute; reflexivity|]. split; [reflexivity|]. split; [vm_compute; reflexivity|].
  vm_compute. discriminate.
Qed.

(** ** One Python object per simulator object
    Two lookups, however far apart and through whatever parents, that reach the same simulator object
    return the same Python object. Indexing packed vectors is excluded. *)
Theorem C43_singleton : forall S st q1 c1 st1 ops q2 c2 st2,
  reachable S st ->
  op_fits st q1 = true -> not_bit q1 = true -> finds S st q1 c1 st1 ->
  op_fits (lrun S ops st1) q2 = true -> not_bit q2 = true -> finds S (lrun S ops st1) q2 c2 st2 ->
  hid st2 c1 = hid st2 c2 -> c1 = c2.
Proof. exact singleton_pf. Qed.
Print Assumptions C43_singleton.

(** A simulator where a bit of v can be searched by name and has an alias. *)
Definition ex_alias : sim := Sim (s_name ex_sim) (s_type ex_sim) (s_iterate ex_sim)
  (fun p n d => if pystr_eqb n (lit "v[0]") then Some 6%nat
                else if pystr_eqb n (lit "clock") then Some 1%nat else s_by_name ex_sim p n d)
  (s_by_index ex_sim).

Example C43_singleton_ex : exists st1 st2,
  reachable ex_alias (lrun ex_alias ex_ops lst0) /\
  finds ex_alias (lrun ex_alias ex_ops lst0) (LAttr 0%nat (lit "clk")) 4%nat st1 /\
  finds ex_alias (lrun ex_alias [LElem 3%nat 0] st1) (LAttr 0%nat (lit "clock")) 4%nat st2.
Proof.
  eexists. eexists. split; [exists ex_ops; reflexivity|]. split; vm_compute; reflexivity.
Qed.

(** Not true of bits: [v[0]] and the same signal found by name are two Python objects, since LogicArrayObject
    creates its bits without the factory. *)
Theorem C43_bit_singleton_refuted : exists S st c1 st1 c2 st2,
  reachable S st /\ op_fits st (LBit 2%nat 0) = true /\ finds S st (LBit 2%nat 0) c1 st1 /\
  op_fits st1 (LItem 0%nat (KName (lit "v[0]"))) = true /\ finds S st1 (LItem 0%nat (KName (lit "v[0]"))) c2 st2 /\
  hid st2 c1 = hid st2 c2 /\ hid st2 c1 = Some 6%nat /\ c1 <> c2.
Proof.
  exists ex_alias, (lrun ex_alias ex_ops lst0), 4%nat. eexists. exists 5%nat. eexists.
  split; [exists ex_ops; reflexivity|]. split; [reflexivity|]. split; [vm_compute; reflexivity|].
  split; [reflexivity|]. split; [vm_compute; reflexivity|]. split; [reflexivity|]. split; [reflexivity|]. discriminate.
Qed.
Print Assumptions C43_bit_singleton_refuted.

(** The simulator object, class and path of a Python object never change. *)
Theorem C43_fixed : forall S st ops r, reachable S st -> hid st r <> None ->
  hid (lrun S ops st) r = hid st r /\ class (lrun S ops st) r = class st r /\ path (lrun S ops st) r = path st r.
Proof. exact fixed_pf. Qed.
Print Assumptions C43_fixed.

Example C43_fixed_ex : hid ex_st 2%nat = Some 5%nat /\ class ex_st 2%nat = Some C_LogicArray /\
  path ex_st 2%nat = Some (lit "top.v") /\ lrun ex_sim [LBit 2%nat 0] ex_st <> ex_st.
Proof. split; [reflexivity|]. split; [reflexivity|]. split; [reflexivity|]. vm_compute. discriminate. Qed.

(** The class of an object found (other than a bit of a packed object, which is always a LogicObject) is the one for
    the type of the simulator object. *)
Theorem C43_class : forall S st q c st', reachable S st -> op_fits st q = true -> not_bit q = true -> finds S st q c st' ->
  exists h cl, hid st' c = Some h /\ class st' c = Some cl /\ In (s_type S h) (types_of cl).
Proof.
  intros S st q c st' R F N Q. apply reach_inv in R. destruct (finds_h2o S st q c st' R F N Q) as (V & _ & oc & H & G).
  destruct (iv_h2o _ _ V _ _ G) as (o & H' & E & T). rewrite H in H'. injection H' as <-.
  exists (o_hid oc), (o_cls oc). unfold hid, class. rewrite H. split; [reflexivity|]. split; [reflexivity|].
  destruct (s_type S (o_hid oc)); cbn [type2cls] in T; try discriminate T; injection T as <-; cbn [types_of In]; tauto.
Qed.
Print Assumptions C43_class.
Example C43_class_ex : class ex_st 2%nat = Some C_LogicArray /\ hid ex_st 2%nat = Some 5%nat /\ In (s_type ex_sim 5%nat) (types_of C_LogicArray).
Proof. split; [reflexivity|]. split; [reflexivity|]. vm_compute. auto. Qed.

(** ** Failing lookups
    A lookup which does not find anything changes nothing. *)
Theorem C43_failed : forall S st q, reachable S st -> asked q <> None ->
  (exists c, finds S st q c (lstep S q st)) \/ lstep S q st = st.
Proof. exact failed_pf. Qed.
Print Assumptions C43_failed.

(** With a simulator whose search finds all it lists, the answer of a lookup does not depend on the history:
    it raises the documented exception (or [_get] returns None) exactly if the search finds nothing, and
    returns an object for [h] exactly if the search finds [h] and its type is known. *)
Theorem C43_search : forall S st q r k p,
  searchable S -> reachable S st -> op_fits st q = true -> asked q = Some (r, k) ->
  default_search q = true -> hid st r = Some p ->
  (search S p k = None <-> misses S st q) /\
  forall h, (search S p k = Some h /\ (type2cls (s_type S h) <> None \/ not_bit q = false)) <->
            exists c st', finds S st q c st' /\ hid st' c = Some h.
Proof. exact search_pf. Qed.
Print Assumptions C43_search.

Example C43_search_ex :
  searchable ex_sim /\ reachable ex_sim ex_st /\ op_fits ex_st (LItem 1%nat (KIdx 1)) = true /\
  search ex_sim 2%nat (KIdx 1) = Some 4%nat /\ search ex_sim 2%nat (KIdx 2) = None /\
  misses ex_sim ex_st (LItem 1%nat (KIdx 2)) /\ misses ex_sim ex_st (LAttr 0%nat (lit "nope")) /\
  misses ex_sim ex_st (LItem 0%nat (KName (lit "nope"))) /\ misses ex_sim ex_st (LElem 3%nat 9) /\
  getattr ex_sim 0%nat (lit "odd") ex_st = (ex_st, LNotImpl).
Proof.
  split; [exact ex_searchable|]. split; [exact ex_reachable|]. repeat (apply conj); vm_compute; reflexivity.
Qed.

(** Not true for other simulators: if iteration lists a child which the search does not find, the lookup fails
    before iterating and succeeds after. *)
Definition ex_unsearchable : sim := Sim (s_name ex_sim) (s_type ex_sim) (s_iterate ex_sim) (fun _ _ _ => None) (s_by_index ex_sim).
Theorem C43_history_refuted : exists S q c, consistent S /\
  misses S (lrun S [LRoot 0%nat] lst0) q /\
  finds S (lrun S [LRoot 0%nat; LKeys 0%nat] lst0) q c (lrun S [LRoot 0%nat; LKeys 0%nat] lst0).
Proof.
  exists ex_unsearchable, (LAttr 0%nat (lit "clk")), 1%nat. split.
  - intros p c k h1 h2 T A B. apply (searchable_consistent _ ex_searchable p c k h1 h2 T).
    + destruct A as [n d h H|c i h Nc H|c k h L]; [discriminate H|apply ans_index; assumption|].
      apply ans_listed. destruct L as [h I|h i I K]; [exact (ls_name ex_sim p h I)|exact (ls_index ex_sim p h i I K)].
    + destruct B as [n d h H|c i h Nc H|c k h L]; [discriminate H|apply ans_index; assumption|].
      apply ans_listed. destruct L as [h I|h i I K]; [exact (ls_name ex_sim p h I)|exact (ls_index ex_sim p h i I K)].
  - split; vm_compute; reflexivity.
Qed.
Print Assumptions C43_history_refuted.

(** ** Iterating
    The keys of an object are distinct and every listed child of known type is among them; each key finds
    the object that iterating yields, in the same order, without asking the simulator again; and with a consistent
    simulator it is the listed child. *)
Theorem C43_discover : forall S st r st1 ks c p,
  reachable S st -> op_fits st (LKeys r) = true -> class st r = Some c -> hid st r = Some p ->
  keys S r st = (st1, ks) ->
  NoDup ks /\
  (exists xs, values S r st = (st1, xs) /\ Forall2 (fun k x => finds S st1 (LItem r k) x st1) ks xs) /\
  (forall k h, listed S p c k h -> type2cls (s_type S h) <> None -> In k ks) /\
  (consistent S -> forall k h x, listed S p c k h -> finds S st1 (LItem r k) x st1 -> hid st1 x = Some h).
Proof. exact discover_pf. Qed.
Print Assumptions C43_discover.

Example C43_discover_ex :
  reachable ex_sim ex_st /\ op_fits ex_st (LKeys 0%nat) = true /\ class ex_st 0%nat = Some C_Hierarchy /\
  hid ex_st 0%nat = Some 0%nat /\ listed ex_sim 0%nat C_Hierarchy (KName (lit "clk")) 1%nat /\
  snd (keys ex_sim 0%nat ex_st) = map KName (map lit ["g"; "v"; "arr"; "clk"]%string).
Proof.
  split; [exact ex_reachable|]. split; [reflexivity|]. split; [reflexivity|]. split; [reflexivity|].
  split; [|vm_compute; reflexivity]. apply (ls_name ex_sim 0%nat 1%nat). now left.
Qed.

(** Iterating an array of scopes yields each of its children once, in ascending order of index. *)
Theorem C43_iter_sorted : forall S st r st1 ks,
  reachable S st -> op_fits st (LIter r) = true -> keys S r st = (st1, ks) ->
  exists is cs, iter_array S r st = (st1, LOk cs) /\ StronglySorted Z.lt is /\
    (forall i, In i is <-> In (KIdx i) ks) /\ List.length is = List.length ks /\
    Forall2 (fun i c => finds S st1 (LItem r (KIdx i)) c st1) is cs.
Proof. exact iter_pf. Qed.
Print Assumptions C43_iter_sorted.

Example C43_iter_sorted_ex :
  reachable ex_sim ex_st /\ op_fits ex_st (LIter 1%nat) = true /\
  snd (keys ex_sim 1%nat ex_st) = [KIdx 1; KIdx 0] /\ snd (iter_array ex_sim 1%nat ex_st) = LOk [5; 4]%nat /\
  hid (fst (iter_array ex_sim 1%nat ex_st)) 5%nat = Some 3%nat.
Proof. split; [exact ex_reachable|]. repeat (apply conj); vm_compute; reflexivity. Qed.

(** Not true: every element that can be indexed is iterated. An element with a negative index has no key. *)
Definition ex_neg : sim := Sim (fun h => match h with 0%nat => lit "g" | 1%nat => lit "g[-1]" | _ => lit "g[0]" end)
  (fun h => match h with 0%nat => T_GENARRAY | _ => T_MODULE end) (fun p => match p with 0%nat => [1; 2]%nat | _ => [] end)
  (fun _ _ _ => None) (fun p i => match p with 0%nat => if i =? -1 then Some 1%nat else if i =? 0 then Some 2%nat else None | _ => None end).
Theorem C43_all_iterated_refuted : exists S st,
  reachable S st /\ searchable S /\ In 1%nat (s_iterate S 0%nat) /\ hid st 0%nat = Some 0%nat /\
  search S 0%nat (KIdx (-1)) = Some 1%nat /\ (exists c st', finds S st (LItem 0%nat (KIdx (-1))) c st' /\ hid st' c = Some 1%nat) /\
  snd (keys S 0%nat st) = [KIdx 0].
Proof.
  exists ex_neg, (lrun ex_neg [LRoot 0%nat] lst0). split; [exists [LRoot 0%nat]; reflexivity|]. split.
  { intros p c k h T A. destruct A as [n d h H|c i h Nc H|c k h L]; [exact H|exact H|].
    destruct L as [h I|h i I K]; destruct p as [|p]; try contradiction; [discriminate T|].
    cbn in I. destruct I as [<-|[<-|[]]]; vm_compute in K; [discriminate K|]. injection K as <-. reflexivity. }
  split; [now left|]. split; [reflexivity|]. split; [reflexivity|]. split; [|vm_compute; reflexivity].
  eexists. eexists. split; [vm_compute; reflexivity|reflexivity].
Qed.
Print Assumptions C43_all_iterated_refuted.

(** ** Keys of array elements
    The names the three simulator interfaces give to element [i] all stand for [i]. *)
Theorem C43_elem_names : forall name i, 0 <= i -> Forall (fun s => array_key name s = Ok i) (elem_names name i).
Proof. exact array_names_pf. Qed.
Print Assumptions C43_elem_names.

(** Only names of these forms have a key, and it is the number in them; a final newline is ignored. *)
Theorem C43_elem_key : forall name s i, array_key name s = Ok i ->
  exists ds nl, decimal ds /\ value10 ds = i /\ (nl = [] \/ nl = [10]) /\
  (s = name ++ lit "__" ++ ds ++ nl \/ s = name ++ lit "[" ++ ds ++ lit "]" ++ nl \/
   lower s = lower name ++ lit "(" ++ ds ++ lit ")" ++ nl).
Proof. exact array_key_sound. Qed.
Print Assumptions C43_elem_key.

Example C43_elem_ex :
  elem_names (lit "g") 10 = map lit ["g[10]"; "g(10)"; "g__10"]%string /\
  array_key (lit "g") (lit "G(10)") = Ok 10 /\ array_key (lit "g") (lit "G[10]") = Err ValueError /\
  array_key (lit "g") (lit "g[-1]") = Err ValueError /\ array_key (lit "g__1") (lit "g__1__2") = Ok 2.
Proof. repeat (apply conj); vm_compute; reflexivity. Qed.

(** Not true: different children have different keys. The later child hides the earlier, and the length is
    too small. *)
Theorem C43_keys_unique_refuted : exists name s1 s2 i, s1 <> s2 /\
  array_key name s1 = Ok i /\ array_key name s2 = Ok i.
Proof.
  exists (lit "g"), (lit "g__1"), (lit "g__01"), 1. split; [vm_compute; discriminate|]. split; vm_compute; reflexivity.
Qed.
Print Assumptions C43_keys_unique_refuted.

(** ** Paths
    A new object gets the path of its parent and its own key. *)
Theorem C43_path : forall S st q r k c st1 p pp,
  reachable S st -> op_fits st q = true -> asked q = Some (r, k) -> finds S st q c st1 ->
  hid st c = None -> hid st r = Some p -> path st r = Some pp ->
  path st1 c = Some (joined pp (is_package S p) k).
Proof. exact path_pf. Qed.
Print Assumptions C43_path.

Example C43_path_ex :
  let st := lrun ex_sim [LRoot 10%nat] ex_st in
  path (lstep ex_sim (LItem 1%nat (KIdx 1)) st) 5%nat = Some (lit "top.g[1]") /\
  path (lstep ex_sim (LAttr 4%nat (lit "K")) st) 5%nat = Some (lit "pkg::K") /\
  path (lstep ex_sim (LBit 2%nat 0) st) 5%nat = Some (lit "top.v[0]").
Proof. cbv zeta. repeat (apply conj); vm_compute; reflexivity. Qed.

(** Not true: the path is that of the lookup which returned the object. It is the one used first. *)
Theorem C43_path_used_refuted : exists S st c st1, reachable S st /\
  finds S st (LAttr 0%nat (lit "clock")) c st1 /\ path st1 c = Some (lit "top.clk").
Proof.
  exists ex_alias, (lrun ex_alias [LRoot 0%nat; LAttr 0%nat (lit "clk")] lst0), 1%nat. eexists.
  split; [eexists; reflexivity|]. split; [vm_compute; reflexivity|reflexivity].
Qed.
Print Assumptions C43_path_used_refuted.

(** ** Attributes
    A name starting with an underscore is never looked up as an attribute, even if there is such a child;
    indexing does find it. Assigning a child object is always refused. *)
Theorem C43_underscore : forall S r n st, underscore n = true -> getattr S r n st = (st, LErr AttributeError).
Proof. intros S r n st H. unfold getattr. now rewrite H. Qed.
Print Assumptions C43_underscore.

Theorem C43_setattr : forall S r n st, underscore n = false -> hid st r <> None ->
  snd (setattr S r n st) = LErr AttributeError \/ snd (setattr S r n st) = LNotImpl.
Proof.
  intros S r n st U H. destruct (setattr_pf S r n st U) as [Q|[Q|Q]]; [now left|now right|].
  exfalso. apply H. unfold hid. now rewrite Q.
Qed.
Print Assumptions C43_setattr.

Example C43_attr_ex :
  underscore (lit "_sig") = true /\ underscore (lit "clk") = false /\ hid ex_st 0%nat <> None /\
  snd (setattr ex_sim 0%nat (lit "clk") ex_st) = LErr AttributeError /\
  snd (setattr ex_sim 0%nat (lit "nope") ex_st) = LErr AttributeError /\
  snd (setattr ex_sim 0%nat (lit "odd") ex_st) = LNotImpl.
Proof.
  split; [reflexivity|]. split; [reflexivity|]. split; [vm_compute; discriminate|]. repeat (apply conj); vm_compute; reflexivity.
Qed.

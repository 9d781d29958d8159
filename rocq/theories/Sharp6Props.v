(** Sharper theorems on VHDL objects found through the FLI and the VHPI, found necessary by mutation. *)
From Coq Require Import String Lia.
From Verif Require Import Base TextModel.
From Verif Require VpiNameModel FliNameModel FliNameProps VhpiNameModel VhpiNameProps.
Open Scope Z_scope.

(** * C104: which numbers are of VHDL, and which are values *)
(** An object whose full type is outside the numbers of VHDL (acc_vhdl.h: 1010 to 1170) is not made; a region inside of them is. *)
Theorem C104_vhdl {H} (v : FliNameModel.fli H) h name fq acc full :
  (full < 1010 \/ 1170 < full -> FliNameModel.fcreate v h name fq acc full = FliNameModel.Null) /\
  (1010 <= full <= 1170 -> ~ In acc [1100; 1110; 1120; 1130; 1140] -> forall n, FliNameModel.region_name v h = Some n ->
     exists o, FliNameModel.fcreate v h name fq acc full = FliNameModel.Given o /\ FliNameModel.f_type o = if pystr_eqb name n then FliNameModel.FModule else FliNameModel.FGenArray).
Proof.
  split.
  - intro O. unfold FliNameModel.fcreate. assert (E : FliNameModel.is_vhdl full = false) by (unfold FliNameModel.is_vhdl; apply andb_false_iff; destruct O; [right|left]; apply Z.leb_gt; assumption). now rewrite E.
  - intros R A n N. unfold FliNameModel.fcreate. assert (E : FliNameModel.is_vhdl full = true) by (unfold FliNameModel.is_vhdl; apply andb_true_iff; split; apply Z.leb_le; lia). rewrite E.
    assert (V : FliNameModel.is_value acc = false).
    { unfold FliNameModel.is_value, FliNameModel.accAlias, FliNameModel.accVHDLConstant, FliNameModel.accGeneric, FliNameModel.accVariable, FliNameModel.accSignal. cbn in A.
      repeat (apply orb_false_iff; split); apply Z.eqb_neq; intro; apply A; subst; tauto. }
    rewrite V, N. cbn [negb]. destruct (pystr_eqb name n); cbn [negb]; eexists; split; reflexivity.
Qed.
Print Assumptions C104_vhdl.
(** What is not among these numbers is asked for its name as a region; these are asked for their types. *)
Theorem C104_values {H} (v : FliNameModel.fli H) h name fq acc full : 1010 <= full <= 1170 -> FliNameModel.region_name v h = None ->
  (~ In acc [1100; 1110; 1120; 1130; 1140] -> FliNameModel.fcreate v h name fq acc full = FliNameModel.Undef) /\
  (In acc [1100; 1110; 1120; 1130; 1140] -> (forall var, FliNameModel.obj_type v var h = FliNameModel.TScalar) -> exists o, FliNameModel.fcreate v h name fq acc full = FliNameModel.Given o /\ FliNameModel.f_type o = FliNameModel.FInteger).
Proof.
  intros R N. unfold FliNameModel.fcreate. assert (E : FliNameModel.is_vhdl full = true) by (unfold FliNameModel.is_vhdl; apply andb_true_iff; split; apply Z.leb_le; lia). rewrite E. cbn [negb].
  assert (V : FliNameModel.is_value acc = true <-> In acc [1100; 1110; 1120; 1130; 1140]).
  { unfold FliNameModel.is_value, FliNameModel.accAlias, FliNameModel.accVHDLConstant, FliNameModel.accGeneric, FliNameModel.accVariable, FliNameModel.accSignal. rewrite !orb_true_iff, !Z.eqb_eq. cbn. intuition. }
  split.
  - intro A. destruct (FliNameModel.is_value acc) eqn:Q; [elim A; now apply V|]. cbn [negb]. now rewrite N.
  - intros A T. rewrite (proj2 V A). cbn [negb]. cbv zeta. rewrite !T. cbn [FliNameModel.classify]. eexists. split; reflexivity.
Qed.
Print Assumptions C104_values.

(** * C104: roots which do not exist *)
Theorem C104_root_absent {H} (v : FliNameModel.fli H) x : (forall r, In r (FliNameModel.tops v) -> FliNameModel.region_name v r <> Some x) -> FliNameModel.froot v (Some x) = FliNameModel.Null.
Proof.
  intro A. unfold FliNameModel.froot. destruct (find _ (FliNameModel.tops v)) as [r|] eqn:Q; [|reflexivity]. apply find_some in Q. destruct Q as [I E]. exfalso. apply (A r I).
  destruct (FliNameModel.region_name v r) as [n|]; [|discriminate E]. apply pystr_eqb_eq in E. now subst.
Qed.
Print Assumptions C104_root_absent.

(** * C104: the relations of each type *)
Theorem C104_relations full : match FliNameModel.over full with
  | Some l => l = [FliNameModel.OConstants; FliNameModel.OSignals; FliNameModel.ORegions] /\ In full [1010; 1011; 1012; 1013; 1020; 1021; 1022; 1023; 1024; 1030; 1031; 1032; 1033; 1034; 1035; 1036; 1050] \/
      l = [FliNameModel.OSigSubs] /\ In full [1100; 1101; 1102; 1131] \/ l = [FliNameModel.OVarSubs] /\ In full [1110; 1120; 1121; 1132; 1133; 1134; 1140]
  | None => ~ In full [1010; 1011; 1012; 1013; 1020; 1021; 1022; 1023; 1024; 1030; 1031; 1032; 1033; 1034; 1035; 1036; 1050; 1100; 1101; 1102; 1131; 1110; 1120; 1121; 1132; 1133; 1134; 1140]
  end.
Proof.
  unfold FliNameModel.over.
  assert (M : forall l, existsb (Z.eqb full) l = true <-> In full l).
  { intro l. rewrite existsb_exists. split; [intros (x & I & E); apply Z.eqb_eq in E; now subst|intro I; exists full; split; [exact I|apply Z.eqb_refl]]. }
  destruct (existsb _ [1010; _; _; _; _; _; _; _; _; _; _; _; _; _; _; _; _]) eqn:A1; [left; split; [reflexivity|apply M in A1; cbn in A1 |- *; tauto]|].
  destruct (existsb _ [1100; _; _; _]) eqn:A2; [right; left; split; [reflexivity|now apply M]|].
  destruct (existsb _ [1110; _; _; _; _; _; _]) eqn:A3; [right; right; split; [reflexivity|now apply M]|].
  intro I. assert (X : forall l, existsb (Z.eqb full) l = false -> ~ In full l) by (intros l E J; apply M in J; now rewrite J in E). apply X in A1, A2, A3. cbn in I, A1, A2, A3. tauto.
Qed.
Print Assumptions C104_relations.
Example C104_relations_ex : FliNameModel.over 1034 = Some [FliNameModel.OConstants; FliNameModel.OSignals; FliNameModel.ORegions] /\ FliNameModel.over 1131 = Some [FliNameModel.OSigSubs] /\ FliNameModel.over 1134 = Some [FliNameModel.OVarSubs] /\ FliNameModel.over 1135 = None.
Proof. repeat split. Qed.

(** * C104: a NULL among the elements *)
(** The elements are read one after the other, those which the simulator does not give as NULL. *)
Theorem C104_elements_read {H} (l : list (FliNameModel.ans H)) l' : FliNameModel.as_list l = Some l' <-> Forall2 (fun a o => a = match o with Some h => FliNameModel.Given h | None => FliNameModel.Null end) l l'.
Proof.
  revert l'. induction l as [|a l IH]; intro l'; cbn [FliNameModel.as_list fold_right].
  - split; [intro E; injection E as <-; constructor|intro E; now inversion E].
  - change (fold_right _ (Some []) l) with (FliNameModel.as_list l). split.
    + intro E. destruct a as [h| |]; destruct (FliNameModel.as_list l) as [r|]; try discriminate E; injection E as <-; constructor; try reflexivity; now apply IH.
    + intro E. inversion E as [|? o ? r E1 E2]. subst. apply IH in E2. rewrite E2. now destruct o.
Qed.
Print Assumptions C104_elements_read.
(** The first NULL ends the iteration, whatever is behind it. *)
Theorem C104_null_ends {H} (v : FliNameModel.fli H) parent r rels l1 l2 : FliNameModel.f_type parent <> FliNameModel.FGenArray ->
  FliNameProps.goes v parent (FliNameModel.Given (FliNameModel.FIt (r :: rels) (map Some l1 ++ None :: l2))) (map (pair r) l1).
Proof.
  intro T. assert (G : FliNameModel.fgen parent = false) by (unfold FliNameModel.fgen; destruct (FliNameModel.f_type parent); try reflexivity; now elim T).
  induction l1 as [|h l1 IH]; cbn [map app].
  - constructor. reflexivity.
  - econstructor; [|exact IH]. unfold FliNameModel.fi_next. cbn [FliNameModel.fi_rels FliNameModel.fi_rest FliNameModel.fi_kept]. unfold FliNameModel.fkeep. rewrite G. reflexivity.
Qed.
Print Assumptions C104_null_ends.

(** * C104: an object without a name *)
Theorem C104_no_name {H} (v : FliNameModel.fli H) parent h : FliNameModel.obj_name v false h = None ->
  FliNameModel.fitem v parent FliNameModel.OSignals h = FliNameModel.Given (if (1010 <=? FliNameModel.acc_full v h) && (FliNameModel.acc_full v h <=? 1170) then FliNameModel.FNativeNoName else FliNameModel.FNotNativeNoName h).
Proof. intro N. unfold FliNameModel.fitem. rewrite N. unfold FliNameModel.is_vhdl. rewrite andb_comm. destruct ((1010 <=? FliNameModel.acc_full v h) && (FliNameModel.acc_full v h <=? 1170)); reflexivity. Qed.
Print Assumptions C104_no_name.

(** * C103: relations *)
(** A region, an instance and the blocks of generate statements are asked for inner regions, signals, variables, constants, instances and blocks; a generate block also for
    its declarations, a region and an instance for ports and generics; the other relations are of elements and fields. *)
Theorem C103_relations c : match VhpiNameModel.iterate_over c with
  | Some l => NoDup l /\ (In VhpiNameModel.RInternalRegions l <-> In c [VhpiNameModel.CRoot; VhpiNameModel.CCompInst; VhpiNameModel.CForGenerate; VhpiNameModel.CIfGenerate; VhpiNameModel.CBlock; VhpiNameModel.CAssign]) /\
      (In c [VhpiNameModel.CRoot; VhpiNameModel.CCompInst; VhpiNameModel.CForGenerate; VhpiNameModel.CIfGenerate; VhpiNameModel.CBlock] -> forall r, In r [VhpiNameModel.RSigDecls; VhpiNameModel.RVarDecls; VhpiNameModel.RConstDecls; VhpiNameModel.RCompInstStmts; VhpiNameModel.RBlockStmts] -> In r l) /\
      (In c [VhpiNameModel.CRoot; VhpiNameModel.CCompInst] <-> In VhpiNameModel.RPortDecls l) /\ (In c [VhpiNameModel.CRoot; VhpiNameModel.CCompInst] <-> In VhpiNameModel.RGenericDecls l) /\
      (In c [VhpiNameModel.CForGenerate; VhpiNameModel.CIfGenerate; VhpiNameModel.CBlock; VhpiNameModel.CAssign] <-> In VhpiNameModel.RDecls l) /\
      (In c [VhpiNameModel.CGenericDecl; VhpiNameModel.CSigDecl; VhpiNameModel.CSelectedName; VhpiNameModel.CIndexedName; VhpiNameModel.CPortDecl; VhpiNameModel.CConstDecl] <-> In VhpiNameModel.RIndexedNames l) /\ (In VhpiNameModel.RIndexedNames l <-> In VhpiNameModel.RSelectedNames l)
  | None => c = VhpiNameModel.CProcess \/ c = VhpiNameModel.COther
  end.
Proof.
  assert (D : forall l : list VhpiNameModel.rel, NoDup l -> NoDup l) by auto.
  destruct c; cbn [VhpiNameModel.iterate_over]; auto.
  all: split; [repeat (constructor; [cbn; intuition discriminate|]); constructor|].
  all: repeat split; cbn; intuition (try discriminate; subst; auto 12).
Qed.
Print Assumptions C103_relations.
Example C103_relations_ex : VhpiNameModel.iterate_over VhpiNameModel.CBlock <> None /\ VhpiNameModel.iterate_over VhpiNameModel.CProcess = None.
Proof. split; [discriminate|reflexivity]. Qed.
(** In a pseudo-region nothing but inner regions is looked at. *)
Theorem C103_only_regions {H} (d : VhpiNameModel.design H) nvc sep parent r h : VpiNameModel.o_type parent = VpiNameModel.GGenArray -> In (r, h) (VhpiNameProps.everything d nvc sep parent) -> r = VhpiNameModel.RInternalRegions.
Proof.
  intros T I. unfold VhpiNameProps.everything in I. rewrite T in I. apply in_flat_map in I. destruct I as (r' & I1 & I2). apply in_map_iff in I2. destruct I2 as (h' & E & _). injection E as <- <-.
  destruct (VhpiNameModel.iterate_over _) as [rels|]; [|destruct I1]. apply filter_In in I1. destruct I1 as [_ E]. destruct r'; try discriminate E. reflexivity.
Qed.
Print Assumptions C103_only_regions.
(** A handle of another interface: the object is the one which is made of it under its own name; if none can be made the handle is released. *)
Theorem C103_from_handle {H} (d : VhpiNameModel.design H) nvc ius questa h parent : let made := VhpiNameModel.nm_create d nvc ius questa h (VhpiNameModel.name_of d h) (VhpiNameModel.full_name nvc (VhpiNameModel.name_of d h) parent) in
  fst (VhpiNameModel.nm_from_handle d nvc ius questa h parent) = fst made /\
  (fst made = None -> snd (VhpiNameModel.nm_from_handle d nvc ius questa h parent) = snd made ++ [h]) /\ (fst made <> None -> snd (VhpiNameModel.nm_from_handle d nvc ius questa h parent) = snd made).
Proof.
  intro made. unfold VhpiNameModel.nm_from_handle. fold made. destruct made as [[o|] rs]; cbn [fst snd]; repeat split; try discriminate; try reflexivity. intro E. now elim E.
Qed.
Print Assumptions C103_from_handle.

(** * Examples *)
Import FliNameModel FliNameProps.
Example C104_vhdl_ex : region_name exf 9%nat = Some (lit "sub") /\ (exists o, fcreate exf 9%nat (lit "sub") (lit "/top/sub") 1021 1021 = Given o /\ f_type o = FModule) /\
  fcreate exf 9%nat (lit "sub") (lit "/top/sub") 1021 1171 = Null.
Proof. split; [reflexivity|]. split; [eexists; split; reflexivity|reflexivity]. Qed.
Example C104_values_ex : region_name exf 8%nat = None /\ (forall var, obj_type exf var 8%nat = TScalar) /\ fcreate exf 8%nat (lit "C") (lit "/top/C") 1121 1121 = Undef /\
  exists o, fcreate exf 8%nat (lit "C") (lit "/top/C") 1120 1120 = Given o.
Proof. split; [reflexivity|]. split; [reflexivity|]. split; [reflexivity|]. eexists. reflexivity. Qed.
Example C104_root_absent_ex : (forall r, In r (tops exf) -> region_name exf r <> Some (lit "nowhere")) /\ froot exf (Some (lit "nowhere")) = Null.
Proof. split; [|reflexivity]. intros r [<-|[]]. discriminate. Qed.
Example C104_elements_read_ex : as_list [Given 4; Null; Given 5]%nat = Some [Some 4; None; Some 5]%nat.
Proof. reflexivity. Qed.
Example C104_null_ends_ex : f_type fs <> FGenArray /\ goes exf fs (Given (FIt [OSigSubs] [Some 4; None; Some 5]%nat)) [(OSigSubs, 4%nat)].
Proof. split; [discriminate|]. exact (C104_null_ends exf fs OSigSubs [] [4%nat] [Some 5%nat] ltac:(discriminate)). Qed.
Example C104_no_name_ex : exists v : fli nat, obj_name v false 3%nat = None /\ fitem v ftop OSignals 3%nat = Given FNativeNoName.
Proof.
  exists (Fli nat (find_region exf) (find_obj exf) (acc_type exf) (acc_full exf) (var_kind exf) (region_name exf) (region_full exf) (fun _ _ => None) (indirect_name exf) (obj_type exf) (lower exf) (objs exf)
    (subs exf) (tops exf)). split; reflexivity.
Qed.
Example C103_only_regions_ex : In (VhpiNameModel.RInternalRegions, 1%nat)
  (VhpiNameProps.everything VhpiNameProps.ex_top false VhpiNameProps.paren (VhpiNameProps.vregion false VhpiNameProps.ex_obj (lit "g"))).
Proof. cbn. tauto. Qed.
Example C103_from_handle_ex : exists o, VhpiNameModel.nm_from_handle VhpiNameProps.ex_top false false false 3%nat VhpiNameProps.ex_obj = (Some o, []) /\ VpiNameModel.o_full o = lit "top.s".
Proof. eexists. split; reflexivity. Qed.

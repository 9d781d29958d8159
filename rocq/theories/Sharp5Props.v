(** Further statements which single wrong programs of the second round of mutation had shown to be missing. *)
From Verif Require Import Base LogicModel HandleModel VpiNameModel VpiNameProps SigValueModel SigValueProps.
From Verif Require BuildModel BuildProps WaveModel HandleProps VhpiArrayModel TestModel KernelModel.
From Coq Require Import String Lia.
Open Scope Z_scope.

(** * C93: simulators without a viewer of their own *)
Theorem C93_viewers s : WaveModel.external_viewer s = true <->
  In s [BuildModel.Icarus; BuildModel.Nvc; BuildModel.Ghdl; BuildModel.Verilator; BuildModel.Dsim].
Proof. destruct s; cbn; intuition discriminate. Qed.
Print Assumptions C93_viewers.
Example C93_viewers_ex : In BuildModel.Ghdl [BuildModel.Icarus; BuildModel.Nvc; BuildModel.Ghdl; BuildModel.Verilator; BuildModel.Dsim] /\
  WaveModel.external_viewer BuildModel.Ghdl = true /\ WaveModel.external_viewer BuildModel.Questa = false.
Proof. repeat split; cbn; tauto. Qed.

(** * C100: objects of the VPI *)
(** An array without a usable range is given without a name, length and bounds, and can be indexed. *)
Theorem C100_no_range {H} (v : vpi H) skips h g name fq : htype v h = VArray g -> array_init v skips (fresh h g) name fq = None ->
  exists o, create v skips h name fq = Some o /\ o_hdl o = h /\ o_type o = g /\ o_name o = [] /\ o_full o = [] /\ o_num o = 0 /\ o_indexable o = true /\
  o_left o = -1 /\ o_right o = -1 /\ o_up o = None.
Proof. intros T A. unfold create. rewrite T, A. eexists. repeat split; reflexivity. Qed.
Print Assumptions C100_no_range.
Example C100_no_range_ex : let s := table [Entry (lit "top.a") (lit "a") (VArray GArray) (Some []) []] in htype s 0%nat = VArray GArray /\
  array_init s true (fresh 0%nat GArray) (lit "a") (lit "top.a") = None.
Proof. split; reflexivity. Qed.
(** Constants, strings and single bits of the VPI run from 0 to one below their size, and cannot be indexed. *)
Theorem C100_plain {H} (v : vpi H) skips h g name fq :
  (htype v h = VSignal g false /\ (g = GString \/ (g = GLogic \/ g = GLogicArray) /\ vector v h = false) \/ htype v h = VConst g) ->
  exists o, create v skips h name fq = Some o /\ o_name o = name /\ o_full o = fq /\ o_type o = g /\ o_num o = size v h /\ o_left o = 0 /\ o_right o = size v h - 1 /\
  o_indexable o = false /\ o_up o = Some (0 <=? size v h - 1).
Proof.
  assert (U : forall r, negb (r <? 0) = (0 <=? r)) by (intro r; now rewrite Z.ltb_antisym, negb_involutive).
  intros [[T G]|T]; unfold create; rewrite T.
  - unfold signal_init. cbn [o_type o_hdl fresh]. destruct G as [->|[G V]].
    + eexists. rewrite U. repeat split; reflexivity.
    + rewrite V. destruct G as [->| ->]; eexists; rewrite U; repeat split; reflexivity.
  - unfold signal_init. cbn [o_type o_hdl fresh]. eexists. rewrite U. repeat split; reflexivity.
Qed.
Print Assumptions C100_plain.
Example C100_plain_ex : let s := table [Entry (lit "top.s") (lit "s") (VSignal GString false) None []] in htype s 0%nat = VSignal GString false /\ size s 0%nat = 8 /\
  exists o, create s true 0%nat (lit "s") (lit "top.s") = Some o /\ o_right o = 7.
Proof. split; [reflexivity|]. split; [reflexivity|]. eexists. split; reflexivity. Qed.
(** With Xcelium a generate block which is found by its name is taken if the parent has a scope with its label, and only then. *)
Theorem C100_xcelium {H} (v : vpi H) skips name parent h : by_name v (o_full parent ++ delimiter parent ++ name) = Some h -> htype v h = VGenScope ->
  ((exists s, In s (scopes v (o_hdl parent)) /\ label (hname v s) = label name) ->
     child_by_name v skips true name parent = create v skips h name (o_full parent ++ delimiter parent ++ name)) /\
  ((forall s, In s (scopes v (o_hdl parent)) -> label (hname v s) <> label name) -> child_by_name v skips true name parent = None).
Proof.
  intros B T. unfold child_by_name. rewrite B, T. split.
  - intros (s & I & L). assert (X : existsb (fun s => same_label (hname v s) name) (scopes v (o_hdl parent)) = true).
    { apply existsb_exists. exists s. split; [exact I|]. unfold same_label. rewrite L. apply pystr_eqb_refl. }
    rewrite X, T. reflexivity.
  - intro A. destruct (existsb _ _) eqn:X; [|reflexivity]. exfalso. apply existsb_exists in X. destruct X as (s & I & L). apply (A s I). now apply pystr_eqb_eq.
Qed.
Print Assumptions C100_xcelium.
Definition simx : vpi nat := table [Entry (lit "top") (lit "top") VModule None [1%nat]; Entry (lit "top.g[0]") (lit "g[0]") VGenScope None []; Entry (lit "top.b") (lit "b") VGenScope None []].
Example C100_xcelium_ex : by_name simx (o_full top_obj ++ delimiter top_obj ++ lit "g[0]") = Some 1%nat /\ htype simx 1%nat = VGenScope /\
  In 1%nat (scopes simx (o_hdl top_obj)) /\ label (hname simx 1%nat) = label (lit "g[0]") /\ (exists o, child_by_name simx true true (lit "g[0]") top_obj = Some o) /\
  by_name simx (o_full top_obj ++ delimiter top_obj ++ lit "b") = Some 2%nat /\ child_by_name simx true true (lit "b") top_obj = None.
Proof. repeat split; try reflexivity; [now left|eexists; reflexivity]. Qed.

(** * C102: values *)
(** Which objects the VHPI makes: those of the theorems on integers, enumerations, characters, strings and real numbers. *)
Theorem C102_vhpi_object f size o : vh_signal f size = Some o ->
  vo_logic o = false /\ vo_fmt o = f /\
  (vo_num o = size /\ f = VStrVal \/ vo_num o = 32%nat /\ (f = VIntVal \/ f = VEnumVal) \/ vo_num o = 64%nat /\ (f = VLongIntVal \/ f = VRealVal) \/
   vo_num o = 8%nat /\ (f = VSmallEnumVal \/ f = VCharVal)).
Proof. destruct f; cbn; intro E; try discriminate E; injection E as <-; cbn; tauto. Qed.
Print Assumptions C102_vhpi_object.
Example C102_vhpi_object_ex : vh_signal VIntVal 1 = Some (VObj false VIntVal 32) /\ vh_signal VStrVal 5 = Some (VObj false VStrVal 5).
Proof. split; reflexivity. Qed.
(** A number written to a single logic value is a 0 or a 1, never a position. *)
Theorem C102_number n z a is_var lits p0 p1 : NoDup (map (fun l => nth 1 l 0) lits) -> stands_at lits L0 p0 -> stands_at lits L1 p1 ->
  vh_write (vh_logic false n) a (SInt z) = Calls [(VvEnum (std_position (if z mod 2 ^ 32 =? 0 then L0 else L1)), put_mode a)] /\
  fli_write is_var (FcLogic lits) a (SInt z) =
    match a with
    | GDeposit | GNoDelay => Calls [FSet (FvNum (if z mod 2 ^ 32 =? 0 then p0 else p1))]
    | GForce => Calls (if is_var then [] else [FForce (lit "2#" ++ [logic_chr (if z mod 2 ^ 32 =? 0 then L0 else L1)])])
    | GRelease => Calls (if is_var then [] else [FRelease])
    end.
Proof.
  intros ND S0 S1. assert (Q : (to_int32 z =? 0) = (z mod 2 ^ 32 =? 0)).
  { unfold to_int32. cbv zeta. pose proof (Z.mod_pos_bound z (2 ^ 32) ltac:(lia)). destruct (Z.ltb_spec (z mod 2 ^ 32) (2 ^ 31)); [reflexivity|].
    destruct (Z.eqb_spec (z mod 2 ^ 32 - 2 ^ 32) 0), (Z.eqb_spec (z mod 2 ^ 32) 0); try reflexivity; lia. }
  split.
  - cbn [vh_write vh_logic vh_int vo_logic vo_fmt]. rewrite Q. destruct (z mod 2 ^ 32 =? 0); reflexivity.
  - cbn [fli_write fli_int]. rewrite Q. pose proof (enum_of_at lits L0 p0 ND S0) as E0. pose proof (enum_of_at lits L1 p1 ND S1) as E1. cbn [logic_chr] in E0, E1. 
    change 48 with (logic_chr L0). change 49 with (logic_chr L1). rewrite (enum_of_at lits L0 p0 ND S0), (enum_of_at lits L1 p1 ND S1).
    destruct a, is_var, (z mod 2 ^ 32 =? 0); reflexivity.
Qed.
Print Assumptions C102_number.
Example C102_number_ex : NoDup (map (fun l => nth 1 l 0) std_lits) /\ stands_at std_lits L0 2 /\ stands_at std_lits L1 3 /\
  fli_write false (FcLogic std_lits) GDeposit (SInt 0) = Calls [FSet (FvNum 2)] /\ fli_write false (FcLogic std_lits) GDeposit (SInt 7) = Calls [FSet (FvNum 3)].
Proof. split; [repeat constructor; cbn; intuition discriminate|]. repeat split; cbn; lia. Qed.
(** An integer of the FLI takes the numbers of 32 bits with a sign, and no others. *)
Theorem C102_fli_bounds z k : fli_kind FcInt = Some k -> ((exists s, conv k (PInt z) = Ok s) <-> - 2 ^ 31 <= z < 2 ^ 31).
Proof.
  intro K. injection K as <-. cbn [conv conv_integer]. split.
  - intros [s C]. destruct (Z_le_dec (- 2 ^ 31) z); [destruct (Z_lt_dec z (2 ^ 31)); [lia|]|];
    (destruct (negb _) eqn:E in C; [discriminate C|]; apply negb_false_iff, andb_true_iff in E; cbn in E; lia).
  - intro B. assert (E : (min_val 32 1 <=? z) && (z <=? max_val 32 1) = true) by (apply andb_true_iff; cbn; lia). rewrite E. cbn. eexists. reflexivity.
Qed.
Print Assumptions C102_fli_bounds.
Example C102_fli_bounds_ex : fli_kind FcInt = Some (KInteger 32 1) /\ - 2 ^ 31 <= -2147483648 < 2 ^ 31 /\ exists s, conv (KInteger 32 1) (PInt (-2147483648)) = Ok s.
Proof. split; [reflexivity|]. split; [lia|]. eexists. reflexivity. Qed.
(** Letters in both cases name the same value. *)
Theorem C102_letters c l : upper [c] = [logic_chr l] -> chr2vhpi c = std_position l.
Proof.
  intro U. assert (E : upper_char c = logic_chr l) by (injection U as U; exact U). unfold upper_char in E.
  destruct ((97 <=? c) && (c <=? 122)) eqn:B.
  - apply andb_true_iff in B. destruct B as [B1 B2]. apply Z.leb_le in B1, B2. assert (C : c = logic_chr l + 32) by lia. subst c. destruct l; cbn in B1 |- *; try reflexivity; lia.
  - subst c. apply chr2vhpi_chr.
Qed.
Print Assumptions C102_letters.
Example C102_letters_ex : upper [108] = [logic_chr LL] /\ chr2vhpi 108 = 6 /\ chr2vhpi 76 = 6.
Proof. repeat split. Qed.

(** * C101: unconstrained ranges *)
(** With Xcelium a range is taken for unconstrained if one of its bounds is the greatest integer, with the others if the simulator says so. *)
Theorem C101_free ius c : VhpiArrayModel.base_free ius c = true <->
  if ius then VhpiArrayModel.c_left c = 2 ^ 31 - 1 \/ VhpiArrayModel.c_right c = 2 ^ 31 - 1 else VhpiArrayModel.c_free c = true.
Proof. unfold VhpiArrayModel.base_free. destruct ius; [|reflexivity]. rewrite orb_true_iff, !Z.eqb_eq. reflexivity. Qed.
Print Assumptions C101_free.
Example C101_free_ex : exists c, VhpiArrayModel.c_right c = 2 ^ 31 - 1 /\ VhpiArrayModel.base_free true c = true /\ VhpiArrayModel.base_free false c = false.
Proof. exists (VhpiArrayModel.Con 0 (2 ^ 31 - 1) true false). repeat split. Qed.

(** * C65: the frame of the script *)
(** The script begins with the reaction to errors: every failing command ends it with code 1; it ends with [exit]. *)
Theorem C65_aldec_frame m b lines : BuildModel.aldec_script m b = BuildModel.BOk lines ->
  exists body, lines = (lit "onerror {" ++ [10] ++ lit " quit -code 1 " ++ [10] ++ lit "}") :: body ++ [lit "exit"].
Proof.
  unfold BuildModel.aldec_script. intro E. destruct (BuildModel.outdated _ _ _) as [old|]; cbn [BuildModel.bbind] in E; [|discriminate E].
  match type of E with BuildModel.bbind ?x _ = _ => destruct x as [body|]; cbn [BuildModel.bbind] in E; [|discriminate E] end.
  injection E as <-. exists body. reflexivity.
Qed.
Print Assumptions C65_aldec_frame.
Example C65_aldec_frame_ex : exists lines, BuildModel.aldec_script (BuildProps.ex_machine (fun _ => None)) BuildProps.ex_build = BuildModel.BOk lines.
Proof. eexists. reflexivity. Qed.

(** * C33: awaited Tasks *)
(** A Task counts as awaited when it ends exactly if somebody waits for its completion. *)
Theorem C33_awaited k u : TestModel.awaited k u = true <-> exists c, In c (KernelModel.s_cbs k (KernelModel.TComplete u)).
Proof.
  unfold TestModel.awaited. destruct (KernelModel.s_cbs k (KernelModel.TComplete u)) as [|c l]; split; try discriminate; try reflexivity.
  - intros [c []].
  - intros _. exists c. now left.
Qed.
Print Assumptions C33_awaited.
Example C33_awaited_ex : TestModel.awaited KernelModel.init 0%nat = false /\ exists k, TestModel.awaited k 1%nat = true /\ TestModel.awaited k 0%nat = false.
Proof.
  split; [reflexivity|]. exists (KernelModel.set_cbs KernelModel.init (KernelModel.TComplete 1%nat) [(0%nat, 0%nat)]). split; reflexivity.
Qed.

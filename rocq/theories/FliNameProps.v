(** C104: objects of VHDL designs found by name, by index and by discovery through the FLI. *)
From Coq Require Import String Lia.
From Verif Require Import Base TextModel LogicModel SigValueModel SigValueProps VpiNameModel XmlModel VpiNameProps FliNameModel.
Open Scope Z_scope.

Lemma findex_full i : int32 i -> findex i = lit "(" ++ py_str_int i ++ lit ")".
Proof. intro I. unfold findex. apply firstn_all2. rewrite !app_length. pose proof (str_length i I). cbn [List.length lit]. cbn. lia. Qed.
Lemma no_paren i : ~ In 40 (py_str_int i ++ lit ")").
Proof.
  intro Q. apply in_app_iff in Q. destruct Q as [Q|[Q|[]]]; [|discriminate Q]. pose proof (str_chars i) as F. rewrite Forall_forall in F. apply F in Q. lia.
Qed.
Lemma before_findex lbl i : int32 i -> before_last 40 (lbl ++ findex i) = Some (lbl, findex i).
Proof. intro I. rewrite (findex_full i I). change (lit "(" ++ py_str_int i ++ lit ")") with (40 :: py_str_int i ++ lit ")"). apply before_last_app. apply no_paren. Qed.
Lemma eqb_refl s : pystr_eqb s s = true.
Proof. apply pystr_eqb_refl. Qed.

(** * Names *)
Section Sim.
Context {H : Type} (v : fli H).
Lemma fcreate_names h name fq acc full o : fcreate v h name fq acc full = Given o -> f_name o = name /\ f_full o = fq /\ f_hdl o = h /\ f_acc o = acc /\ f_accfull o = full.
Proof.
  unfold fcreate. destruct (negb (is_vhdl full)); [discriminate|]. destruct (negb (is_value acc)).
  - destruct (region_name v h) as [r|]; [|discriminate]. destruct (negb (pystr_eqb name r)); intro E; injection E as <-; now repeat split.
  - cbv zeta. destruct (classify _) as [[[[g c] n] [[[l r] d]|]]|]; intro E; try discriminate E; injection E as <-; now repeat split.
Qed.
(** What stands between the full name of an object and the name of its child. *)
Definition between (parent : fobj H) : pystr :=
  if pystr_eqb (f_full parent) (lit "/") then [] else match f_type parent with FStructure => lit "." | _ => lit "/" end.
Theorem C104_names native name parent o : fchild v native name parent = Given o ->
  f_name o = name /\ f_full o = f_full parent ++ between parent ++ name /\ (f_full parent = lit "/" \/ f_type parent = FModule \/ f_type parent = FStructure).
Proof.
  unfold fchild. destruct (scope name parent) as [[[[fq rgn] sig] var]|] eqn:S; [|discriminate].
  assert (K : fq = f_full parent ++ between parent ++ name /\ (f_full parent = lit "/" \/ f_type parent = FModule \/ f_type parent = FStructure)).
  { unfold scope in S. unfold between. destruct (pystr_eqb (f_full parent) (lit "/")) eqn:Q; [apply pystr_eqb_eq in Q; injection S as <- <- <- <-; tauto|].
    destruct (f_type parent); try discriminate S; injection S as <- <- <- <-; tauto. }
  destruct K as [K1 K2]. intro E. assert (X : forall h a b, fcreate v h name fq a b = Given o -> f_name o = name /\ f_full o = f_full parent ++ between parent ++ name /\
    (f_full parent = lit "/" \/ f_type parent = FModule \/ f_type parent = FStructure)).
  { intros h a b C. destruct (fcreate_names _ _ _ _ _ _ C) as (-> & -> & _). now rewrite K1. }
  destruct (negb native && fgt_eqb (f_type parent) FStructure && negb (pystr_eqb (f_full parent) (lit "/"))); [discriminate E|].
  destruct (if rgn then find_region v fq else None) as [h|]; [destruct (acc_full v h =? accForGenerate); [destruct native; [|discriminate E]|]; exact (X _ _ _ E)|].
  destruct (if sig then find_obj v false fq else None) as [h|]; [destruct (acc_full v h =? accForGenerate); [destruct native; [|discriminate E]|]; exact (X _ _ _ E)|].
  destruct (if var then find_obj v true fq else None) as [h|]; [destruct (var_kind v h =? accForGenerate); [destruct native; [|discriminate E]|]; exact (X _ _ _ E)|].
  destruct (rgn && native && existsb _ _); [exact (X _ _ _ E)|discriminate E].
Qed.
Theorem C104_index_names i parent o : int32 i -> felem v i parent = Given o ->
  f_name o = f_name parent ++ lit "(" ++ py_str_int i ++ lit ")" /\ f_full o = f_full parent ++ lit "(" ++ py_str_int i ++ lit ")".
Proof.
  intros I E. unfold felem in E. rewrite (findex_full i I) in E. cbv zeta in E.
  assert (X : forall h a b, fcreate v h (f_name parent ++ lit "(" ++ py_str_int i ++ lit ")") (f_full parent ++ lit "(" ++ py_str_int i ++ lit ")") a b = Given o ->
    f_name o = f_name parent ++ lit "(" ++ py_str_int i ++ lit ")" /\ f_full o = f_full parent ++ lit "(" ++ py_str_int i ++ lit ")").
  { intros h a b C. destruct (fcreate_names _ _ _ _ _ _ C) as (-> & -> & _). now split. }
  destruct (f_type parent); try discriminate E;
    try (destruct (find_region v _) as [h|]; [exact (X _ _ _ E)|discriminate E]);
    (destruct (sub_hdl v parent i) as [h| |]; try discriminate E; destruct (f_var parent); exact (X _ _ _ E)).
Qed.

(** * Types *)
(** The types of objects, as VHDL declares them. *)
Definition logic_type (t : ty) : Prop := t = TEnum std_lits \/ t = TEnum bit_lits.
Definition char_type (t : ty) : Prop := exists lits, t = TEnum lits /\ List.length lits = 256%nat.
Definition boolean_type : ty := TEnum [lit "FALSE"; lit "TRUE"].
Inductive declared : ty -> fgt -> Prop :=
| d_logic t : logic_type t -> declared t FLogic
| d_boolean : declared boolean_type FInteger
| d_char t : char_type t -> declared t FInteger
| d_enum lits : ~ logic_type (TEnum lits) -> ~ char_type (TEnum lits) -> TEnum lits <> boolean_type -> declared (TEnum lits) FEnum
| d_integer t : t = TScalar \/ t = TPhysical -> declared t FInteger
| d_real : declared TReal FReal
| d_record n : declared (TRecord n) FStructure
| d_vector l r d n e : logic_type e -> declared (TArray l r d n e) FLogicArray
| d_string l r d n e : char_type e -> declared (TArray l r d n e) FString
| d_array l r d n e : ~ logic_type e -> ~ char_type e -> declared (TArray l r d n e) FArray.
Lemma same_lits_eq a b : same_lits a b = true <-> a = b.
Proof.
  revert b. induction a as [|x a IH]; intros [|y b]; cbn; split; intro E; try discriminate E; try reflexivity.
  - apply andb_true_iff in E. destruct E as [E1 E2]. apply pystr_eqb_eq in E1. apply IH in E2. now subst.
  - injection E as -> ->. rewrite pystr_eqb_refl. now apply IH.
Qed.
Lemma is_logic_iff lits : is_logic lits = true <-> logic_type (TEnum lits).
Proof.
  unfold is_logic, logic_type. split.
  - destruct (Nat.eqb_spec (List.length lits) 2); [intro E; apply same_lits_eq in E; right; now rewrite E|]. destruct (Nat.eqb_spec (List.length lits) 9); [|discriminate].
    intro E. apply same_lits_eq in E. left. now rewrite E.
  - intros [E|E]; injection E as ->; reflexivity.
Qed.
Lemma is_char_iff lits : is_char lits = true <-> char_type (TEnum lits).
Proof. unfold is_char, char_type. rewrite Nat.eqb_eq. split; [intro L; now exists lits|intros (x & Q & L); injection Q as ->; exact L]. Qed.
Lemma is_boolean_iff lits : is_boolean lits = true <-> TEnum lits = boolean_type.
Proof. unfold is_boolean, boolean_type. rewrite andb_true_iff, same_lits_eq. split; [intros [_ ->]; reflexivity|intro Q; injection Q as ->; now split]. Qed.
Lemma classify_declared t g c n rg : classify t = Some (g, c, n, rg) -> declared t g /\
  match t with TArray l r d m _ => rg = Some (l, r, d) /\ n = m | _ => rg = None end.
Proof.
  assert (X : forall b P, (b = true <-> P) -> b = false -> ~ P) by (intros b P Q -> p; apply Q in p; discriminate p).
  destruct t as [lits| | | |l r d m e|m|]; cbn [classify]; intro C; try discriminate C; try (injection C as <- <- <- <-; split; [now constructor; auto|reflexivity]).
  - destruct (is_logic lits) eqn:Q1; [injection C as <- <- <- <-; split; [constructor; now apply is_logic_iff|reflexivity]|].
    destruct (is_boolean lits) eqn:Q2; [injection C as <- <- <- <-; split; [apply is_boolean_iff in Q2; rewrite Q2; constructor|reflexivity]|].
    destruct (is_char lits) eqn:Q3; injection C as <- <- <- <-; (split; [|reflexivity]).
    + apply d_char. now apply is_char_iff.
    + apply d_enum; [exact (X _ _ (is_logic_iff lits) Q1)|exact (X _ _ (is_char_iff lits) Q3)|exact (X _ _ (is_boolean_iff lits) Q2)].
  - assert (K : (g, c, n, rg) = match e with TEnum lits => if is_logic lits then (FLogicArray, true, m, Some (l, r, d)) else if is_char lits then (FString, true, m, Some (l, r, d)) else (FArray, false, m, Some (l, r, d)) | _ => (FArray, false, m, Some (l, r, d)) end) by (injection C as C; rewrite C; reflexivity).
    clear C. destruct e as [lits| | | |l' r' d' m' e'|m'|]; try (injection K as -> -> -> ->; split; [|now split]; apply d_array; [intros [Q|Q]; discriminate Q|intros (x & Q & _); discriminate Q]).
    destruct (is_logic lits) eqn:Q1; [injection K as -> -> -> ->; split; [|now split]; constructor; now apply is_logic_iff|].
    destruct (is_char lits) eqn:Q2; injection K as -> -> -> ->; (split; [|now split]).
    + apply d_string. now apply is_char_iff.
    + apply d_array; [exact (X _ _ (is_logic_iff lits) Q1)|exact (X _ _ (is_char_iff lits) Q2)].
Qed.
(** Every type is declared as one type of the interface at most. *)
Lemma declared_one t g g' : declared t g -> declared t g' -> g = g'.
Proof.
  assert (LC : forall t, logic_type t -> char_type t -> False) by (intros x [-> | ->] (y & Q & L); injection Q as <-; discriminate L).
  assert (LB : logic_type boolean_type -> False) by (intros [Q|Q]; discriminate Q).
  assert (CB : char_type boolean_type -> False) by (intros (x & Q & L); injection Q as <-; discriminate L).
  intros D D'. destruct D as [t L| |t C|lits N1 N2 N3|t I| |n|l r d n e L|l r d n e C|l r d n e N1 N2]; inversion D'; subst; try reflexivity;
    try (exfalso; match goal with
    | Q : logic_type (TArray _ _ _ _ _) |- _ => destruct Q as [Q|Q]; discriminate Q
    | Q : logic_type (TRecord _) |- _ => destruct Q as [Q|Q]; discriminate Q
    | Q : logic_type TReal |- _ => destruct Q as [Q|Q]; discriminate Q
    | Q : char_type (TArray _ _ _ _ _) |- _ => destruct Q as (x & Q & _); discriminate Q
    | Q : char_type (TRecord _) |- _ => destruct Q as (x & Q & _); discriminate Q
    | Q : char_type TReal |- _ => destruct Q as (x & Q & _); discriminate Q
    | Q : _ = TScalar \/ _ = TPhysical |- _ => destruct Q as [Q|Q]; try discriminate Q; subst; match goal with
        | P : logic_type _ |- _ => destruct P as [P|P]; discriminate P | P : char_type _ |- _ => destruct P as (x & P & _); discriminate P end
    end); try (exfalso; eauto; fail); try contradiction.
Qed.
(** The type of an object of the interface follows its type in VHDL; arrays have the range of their type. *)
Theorem C104_types h name fq acc full o : is_value acc = true -> fcreate v h name fq acc full = Given o ->
  f_var o = negb ((acc =? accSignal) || (full =? accAliasSignal)) /\
  (forall g, f_type o = g <-> declared (obj_type v (f_var o) h) g) /\
  (forall l r d n e, obj_type v (f_var o) h = TArray l r d n e -> f_left o = l /\ f_right o = r /\ f_dir o = d /\ f_num o = n /\ f_indexable o = true) /\
  (f_indexable o = true -> exists l r d n e, obj_type v (f_var o) h = TArray l r d n e).
Proof.
  intros V E. unfold fcreate in E. destruct (negb (is_vhdl full)); [discriminate E|]. rewrite V in E. cbn [negb] in E. cbv zeta in E. fold (is_signal acc full).
  set (iv := negb (is_signal acc full)) in *. destruct (classify (obj_type v iv h)) as [[[[g c] n] rg]|] eqn:C; [|discriminate E].
  destruct (classify_declared _ _ _ _ _ C) as [D R].
  assert (F : f_var o = iv /\ f_type o = g /\ match rg with Some (l, r, d) => f_left o = l /\ f_right o = r /\ f_dir o = d /\ f_num o = n /\ f_indexable o = true | None => f_indexable o = false end).
  { destruct rg as [[[l r] d]|]; injection E as <-; repeat split. }
  destruct F as (F1 & F2 & F3). split; [exact F1|]. rewrite F1, F2. split; [|split].
  - intro g'. split; [intros <-; exact D|intro D'; exact (declared_one _ _ _ D D')].
  - intros l r d m e T. rewrite T in R. destruct R as [-> ->]. exact F3.
  - intro I. destruct (obj_type v iv h) as [lits| | | |l r d m e|m|]; try (subst rg; rewrite I in F3; discriminate F3). now exists l, r, d, m, e.
Qed.
(** Lengths of what is not an array, and what is constant: generics and constants of types which are no records or arrays of other things. *)
Theorem C104_sizes h name fq acc full o : is_value acc = true -> fcreate v h name fq acc full = Given o ->
  (f_indexable o = false -> f_num o = match f_type o with FInteger => 32 | FStructure => 0 | _ => 1 end /\ f_left o = -1 /\ f_right o = -1 /\ f_dir o = 0) /\
  (f_const o = true <-> f_var o = true /\ (full = 1120 \/ full = 1140) /\ f_type o <> FArray /\ f_type o <> FStructure).
Proof.
  intros V E. unfold fcreate in E. destruct (negb (is_vhdl full)); [discriminate E|]. rewrite V in E. cbn [negb] in E. cbv zeta in E.
  set (iv := negb (is_signal acc full)) in *.
  assert (K : is_const full = true <-> full = 1120 \/ full = 1140) by (unfold is_const; rewrite orb_true_iff, !Z.eqb_eq; reflexivity).
  assert (X : forall c : bool, c && iv && is_const full = true <-> c = true /\ iv = true /\ (full = 1120 \/ full = 1140)) by (intro c; rewrite !andb_true_iff, K; tauto).
  assert (CL : forall t g c n rg, classify t = Some (g, c, n, rg) -> (c = true <-> g <> FArray /\ g <> FStructure) /\ (rg = None -> n = match g with FInteger => 32 | FStructure => 0 | _ => 1 end)).
  { intros t g c n rg. destruct t as [lits| | | |l r d m e|m|]; cbn [classify]; intro C; try discriminate C; try (injection C as <- <- <- <-; split; [split; [now split|tauto || reflexivity]|reflexivity]).
    - destruct (is_logic lits); [|destruct (is_boolean lits || is_char lits)]; injection C as <- <- <- <-; (split; [split; [now split|reflexivity]|reflexivity]).
    - destruct e as [lits| | | |l' r' d' m' e'|m'|]; try (destruct (is_logic lits); [|destruct (is_char lits)]); injection C as <- <- <- <-; (split; [split; [try (now split); discriminate|intros [Q1 Q2]; try reflexivity; now elim Q1]|discriminate]). }
  destruct (classify (obj_type v iv h)) as [[[[g c] n] rg]|] eqn:C; [|discriminate E]. destruct (CL _ _ _ _ _ C) as [C1 C2].
  destruct rg as [[[l r] d]|]; injection E as <-; cbn [f_indexable f_num f_type f_left f_right f_dir f_const f_var]; (split; [intro I; try discriminate I; rewrite (C2 eq_refl); now repeat split|rewrite X; tauto]).
Qed.
(** What passes for a logic type has a literal for every value which its objects can have, at the place where C102 expects it. *)
Theorem C104_literals lits : is_logic lits = true -> NoDup (map (fun l => nth 1 l 0) lits) /\
  (lits = std_lits /\ (forall l, stands_at lits l (std_position l)) \/ lits = bit_lits /\ stands_at lits L0 0 /\ stands_at lits L1 1).
Proof.
  intro E. apply is_logic_iff in E. destruct E as [E|E]; injection E as ->.
  - split; [repeat constructor; cbn; intuition discriminate|]. left. split; [reflexivity|]. intros []; split; cbn; reflexivity || lia.
  - split; [repeat constructor; cbn; intuition discriminate|]. right. split; [reflexivity|]. split; split; cbn; reflexivity || lia.
Qed.

(** * Elements of arrays *)
(** An array as the simulator describes it: as many elements as its range has. *)
Definition whole (parent : fobj H) : Prop :=
  f_indexable parent = true /\ f_num parent = Z.abs (f_left parent - f_right parent) + 1 /\ Z.of_nat (List.length (subs v (f_var parent) (f_hdl parent))) = f_num parent.
Lemma sub_within parent i : whole parent -> within i (f_left parent, f_right parent) ->
  exists h, nth_error (subs v (f_var parent) (f_hdl parent)) (Z.to_nat (Z.abs (i - f_left parent))) = Some h /\ sub_hdl v parent i = Given h.
Proof.
  intros (I & N & L) W. unfold within in W. cbn [fst snd] in W. unfold sub_hdl. rewrite I. cbn [negb]. cbv zeta.
  assert (X : (if f_right parent <? f_left parent then f_left parent - i else i - f_left parent) = Z.abs (i - f_left parent)) by (destruct (Z.ltb_spec (f_right parent) (f_left parent)); lia).
  rewrite X. destruct (Z.ltb_spec (Z.abs (i - f_left parent)) 0); [lia|]. destruct (Z.leb_spec (f_num parent) (Z.abs (i - f_left parent))); [lia|]. cbn [orb].
  destruct (nth_error _ _) as [h|] eqn:E; [now exists h|]. apply nth_error_None in E. lia.
Qed.
Lemma sub_outside parent i : whole parent -> ~ within i (f_left parent, f_right parent) -> sub_hdl v parent i = Null.
Proof.
  intros (I & N & L) W. unfold within in W. cbn [fst snd] in W. unfold sub_hdl. rewrite I. cbn [negb]. cbv zeta.
  destruct (Z.ltb_spec (f_right parent) (f_left parent)) as [Q|Q].
  - destruct (Z.ltb_spec (f_left parent - i) 0); [reflexivity|]. destruct (Z.leb_spec (f_num parent) (f_left parent - i)); [reflexivity|]. lia.
  - destruct (Z.ltb_spec (i - f_left parent) 0); [reflexivity|]. destruct (Z.leb_spec (f_num parent) (i - f_left parent)); [reflexivity|]. lia.
Qed.
(** The index [i] gives the element which is as far from the left as [i] is from the left bound; other indexes give nothing. *)
Theorem C104_elements parent i : whole parent -> In (f_type parent) [FLogicArray; FArray; FString] ->
  (within i (f_left parent, f_right parent) -> exists h, nth_error (subs v (f_var parent) (f_hdl parent)) (Z.to_nat (Z.abs (i - f_left parent))) = Some h /\
     felem v i parent = (if f_var parent then by_kind v h else by_acc v h) (f_name parent ++ findex i) (f_full parent ++ findex i)) /\
  (~ within i (f_left parent, f_right parent) -> felem v i parent = Null).
Proof.
  intros W T. split; intro I.
  - destruct (sub_within parent i W I) as (h & E & S). exists h. split; [exact E|]. unfold felem. cbv zeta. rewrite S.
    destruct T as [<-|[<-|[<-|[]]]]; now destruct (f_var parent).
  - unfold felem. cbv zeta. rewrite (sub_outside parent i W I). destruct T as [<-|[<-|[<-|[]]]]; reflexivity.
Qed.
(** Every element has exactly one index. *)
Theorem C104_every_element parent k h : whole parent -> nth_error (subs v (f_var parent) (f_hdl parent)) k = Some h ->
  exists i, within i (f_left parent, f_right parent) /\ sub_hdl v parent i = Given h /\
  forall j, within j (f_left parent, f_right parent) -> Z.to_nat (Z.abs (j - f_left parent)) = k -> j = i.
Proof.
  intros W E. assert (K : (k < List.length (subs v (f_var parent) (f_hdl parent)))%nat) by (apply nth_error_Some; congruence).
  pose proof W as (I & N & L). exists (if f_right parent <? f_left parent then f_left parent - Z.of_nat k else f_left parent + Z.of_nat k).
  assert (Q : within (if f_right parent <? f_left parent then f_left parent - Z.of_nat k else f_left parent + Z.of_nat k) (f_left parent, f_right parent)).
  { unfold within. cbn [fst snd]. destruct (Z.ltb_spec (f_right parent) (f_left parent)); lia. }
  split; [exact Q|]. split.
  - destruct (sub_within parent _ W Q) as (h' & E' & S). replace (Z.to_nat (Z.abs _)) with k in E' by (destruct (f_right parent <? f_left parent); lia). rewrite E in E'. injection E' as <-. exact S.
  - intros j J P. unfold within in J. cbn [fst snd] in J. destruct (Z.ltb_spec (f_right parent) (f_left parent)); lia.
Qed.

(** * Generate loops *)
(** The simulator's handle of the block [i] of the loop [lbl] in the region [p]. *)
Definition block (p : H) (lbl : pystr) (i : Z) (h : H) : Prop := In h (lower v p) /\ acc_full v h = accForGenerate /\ region_name v h = Some (lbl ++ findex i).
(** The object of a region which is not a pseudo-region. *)
Definition region_object (parent : fobj H) (own : pystr) : Prop :=
  f_type parent = FModule /\ f_full parent <> lit "/" /\ is_vhdl (f_accfull parent) = true /\ is_value (f_acc parent) = false /\ region_name v (f_hdl parent) = Some own.
Definition loop_object (parent : fobj H) (lbl : pystr) : fobj H :=
  FObj (f_hdl parent) FGenArray false false (f_acc parent) (f_accfull parent) lbl (f_full parent ++ lit "/" ++ lbl) 1 true (-1) (-1) 0.
Lemma scope_module name (parent : fobj H) : f_type parent = FModule -> f_full parent <> lit "/" -> scope name parent = Some (f_full parent ++ lit "/" ++ name, true, true, true).
Proof. intros T N. unfold scope. destruct (pystr_eqb (f_full parent) (lit "/")) eqn:Q; [apply pystr_eqb_eq in Q; contradiction|]. now rewrite T. Qed.
Lemma pseudo_made parent own lbl fq : region_object parent own -> lbl <> own ->
  pseudo_region v parent lbl fq = Given (FObj (f_hdl parent) FGenArray false false (f_acc parent) (f_accfull parent) lbl fq 1 true (-1) (-1) 0).
Proof.
  intros (T & F & V & A & R) N. unfold pseudo_region, fcreate. rewrite V, A, R. cbn [negb]. destruct (pystr_eqb lbl own) eqn:Q; [apply pystr_eqb_eq in Q; contradiction|reflexivity].
Qed.
(** A loop is found by its label, whether the simulator takes the label for its block 0 or for nothing. *)
Theorem C104_generate parent own lbl i h : region_object parent own -> lbl <> own -> ~ In 40 lbl -> int32 i -> block (f_hdl parent) lbl i h ->
  (exists b, find_region v (f_full parent ++ lit "/" ++ lbl) = Some b /\ acc_full v b = accForGenerate) \/
  (find_region v (f_full parent ++ lit "/" ++ lbl) = None /\ forall x, find_obj v x (f_full parent ++ lit "/" ++ lbl) = None) ->
  fchild v true lbl parent = Given (loop_object parent lbl).
Proof.
  intros P N B I (L & G & R) F. pose proof P as (T & FQ & V & A & O). unfold fchild. rewrite (scope_module lbl parent T FQ). cbn [negb andb].
  destruct F as [(b & -> & ->)|(-> & F)].
  - rewrite Z.eqb_refl. exact (pseudo_made parent own lbl _ P N).
  - rewrite !F. assert (X : existsb (fun r => (acc_full v r =? accForGenerate) && match region_name v r with Some n => same_flabel n lbl | None => false end) (lower v (f_hdl parent)) = true).
    { apply existsb_exists. exists h. split; [exact L|]. rewrite G, R, Z.eqb_refl. cbn [andb]. unfold same_flabel, flabel. rewrite (before_findex lbl i I), (before_none 40 lbl B). apply pystr_eqb_refl. }
    rewrite X. exact (pseudo_made parent own lbl _ P N).
Qed.
(** Its blocks are found by their indexes. *)
Theorem C104_block parent lbl i h : int32 i ->
  find_region v (f_full parent ++ lit "/" ++ lbl ++ findex i) = Some h -> region_name v h = Some (lbl ++ findex i) -> is_vhdl (acc_full v h) = true -> is_value (acc_type v h) = false ->
  felem v i (loop_object parent lbl) =
    Given (FObj h FModule false false (acc_type v h) (acc_full v h) (lbl ++ findex i) (f_full parent ++ lit "/" ++ lbl ++ findex i) 1 false (-1) (-1) 0).
Proof.
  intros I F R V A. unfold felem, loop_object. cbn [f_type f_name f_full]. cbv zeta. rewrite <- !app_assoc, F. unfold by_acc, fcreate. rewrite V, A, R, pystr_eqb_refl. reflexivity.
Qed.
(** What the simulator does not have is not found. *)
Theorem C104_absent native name parent : f_type parent = FModule -> f_full parent <> lit "/" -> find_region v (f_full parent ++ lit "/" ++ name) = None ->
  (forall x, find_obj v x (f_full parent ++ lit "/" ++ name) = None) ->
  (forall r n, In r (lower v (f_hdl parent)) -> acc_full v r = accForGenerate -> region_name v r = Some n -> flabel n <> flabel name) ->
  fchild v native name parent = Null.
Proof.
  intros T FQ R F L. unfold fchild. rewrite (scope_module name parent T FQ), T. cbn [fgt_eqb]. rewrite andb_false_r, andb_false_l, R, !F.
  destruct (existsb _ _) eqn:X; [|now rewrite andb_false_r]. exfalso. apply existsb_exists in X. destruct X as (r & I & X). apply andb_true_iff in X. destruct X as [X1 X2]. apply Z.eqb_eq in X1.
  destruct (region_name v r) as [n|] eqn:N; [|discriminate X2]. apply (L r n I X1 N). unfold same_flabel in X2. now apply pystr_eqb_eq.
Qed.

(** * Discovery *)
(** What there is in an object: constants, signals and regions of a region, the blocks of the loop in a pseudo-region, the fields of a record and the elements of
    an array from the left to the right. *)
Definition is_block (lbl : pystr) (h : H) : bool :=
  match region_name v h with Some n => (acc_full v h =? 1034) && pystr_eqb (flabel n) (flabel lbl) | None => false end.
Definition inside (parent : fobj H) : list (otm * H) :=
  let h := f_hdl parent in
  let part := if f_var parent then OVarSubs else OSigSubs in
  match f_type parent with
  | FModule => map (pair OConstants) (objs v true h) ++ map (pair OSignals) (objs v false h) ++ map (pair ORegions) (lower v h)
  | FGenArray => map (pair ORegions) (filter (is_block (f_name parent)) (lower v h))
  | FStructure => match obj_type v (f_var parent) h with TRecord n => map (pair part) (firstn (Z.to_nat n) (subs v (f_var parent) h)) | _ => [] end
  | FLogicArray | FArray | FString => map (pair part) (subs v (f_var parent) h)
  | _ => []
  end.
(** Objects of which the simulator tells what it says of their types; [over] knows the full type. *)
Definition sound (parent : fobj H) : Prop :=
  match f_type parent with
  | FModule | FGenArray => over (f_accfull parent) = Some [OConstants; OSignals; ORegions]
  | FStructure => over (f_accfull parent) = Some [if f_var parent then OVarSubs else OSigSubs] /\
      exists n, obj_type v (f_var parent) (f_hdl parent) = TRecord n /\ n <= Z.of_nat (List.length (subs v (f_var parent) (f_hdl parent)))
  | FLogicArray | FArray | FString => over (f_accfull parent) = Some [if f_var parent then OVarSubs else OSigSubs] /\ whole parent
  | _ => over (f_accfull parent) = Some [if f_var parent then OVarSubs else OSigSubs] /\ f_indexable parent = false
  end.
(** The handles which [next_handle] goes through until END; nothing is said of what is undefined. *)
Inductive goes (parent : fobj H) : ans fiter -> list (otm * H) -> Prop :=
| goes_none : goes parent Null []
| goes_end i : fi_next v parent i = Null -> goes parent (Given i) []
| goes_next i r h i' l : fi_next v parent i = Given (r, h, i') -> goes parent (Given i') l -> goes parent (Given i) ((r, h) :: l).
Section Discovery.
Context (parent : fobj H) (C : otm -> list H).
Let shown (rels : list otm) := if fgen parent then filter is_regions rels else rels.
Let some (r : otm) (l : list H) := map (pair r) (filter (fkeep v parent) l).
Let rest (rels : list otm) := flat_map (fun r => some r (C r)) (shown rels).
Lemma kept_list r l : match fi_kept v parent (map Some l) with
  | Some (Some h, l') => exists l2, l' = map Some l2 /\ some r l = (r, h) :: some r l2
  | Some (None, _) => False
  | None => some r l = []
  end.
Proof.
  induction l as [|h l IH]; [reflexivity|]. cbn [map fi_kept]. unfold some in *. cbn [filter]. destruct (fkeep v parent h); [exists l; now split|exact IH].
Qed.
Lemma rest_cons r rels : rest (r :: rels) = if fgen parent && negb (is_regions r) then rest rels else some r (C r) ++ rest rels.
Proof. unfold rest, shown. destruct (fgen parent); cbn [andb]; [|reflexivity]. cbn [filter]. now destruct (is_regions r). Qed.
Definition fills (rels : list otm) : Prop := forall r, In r rels -> (fgen parent = true -> r = ORegions) -> populate v parent r = Some (map Some (C r)).
Lemma onwards_list rels : fills rels -> match fi_onwards v parent rels with
  | Given (r, h, i) => exists rels' l, i = FIt (r :: rels') (map Some l) /\ fills rels' /\ rest rels = (r, h) :: some r l ++ rest rels'
  | Null => rest rels = []
  | Undef => False
  end.
Proof.
  induction rels as [|r rels IH]; intro F; [unfold rest, shown; now destruct (fgen parent)|]. cbn [fi_onwards]. rewrite rest_cons.
  assert (F' : fills rels) by (intros x X; apply F; now right). destruct (fgen parent && negb (is_regions r)) eqn:S; [exact (IH F')|].
  rewrite (F r (or_introl eq_refl)).
  2: { intro G. rewrite G in S. cbn [andb] in S. destruct r; try discriminate S. reflexivity. }
  pose proof (kept_list r (C r)) as K. destruct (fi_kept v parent (map Some (C r))) as [[[h|] l']|]; [|contradiction|rewrite K; exact (IH F')].
  destruct K as (l2 & -> & K). rewrite K. exists rels, l2. now repeat split.
Qed.
Lemma next_list r rels l : fills rels -> match fi_next v parent (FIt (r :: rels) (map Some l)) with
  | Given (r', h, i) => exists rels' l', i = FIt (r' :: rels') (map Some l') /\ fills rels' /\ some r l ++ rest rels = (r', h) :: some r' l' ++ rest rels'
  | Null => some r l ++ rest rels = []
  | Undef => False
  end.
Proof.
  intro F. unfold fi_next. cbn [fi_rels fi_rest]. pose proof (kept_list r l) as K. destruct (fi_kept v parent (map Some l)) as [[[h|] l']|]; [|contradiction|].
  - destruct K as (l2 & -> & K). rewrite K. exists rels, l2. now repeat split.
  - rewrite K. exact (onwards_list rels F).
Qed.
Lemma goes_list n : forall r rels l, fills rels -> List.length (some r l ++ rest rels) = n -> goes parent (Given (FIt (r :: rels) (map Some l))) (some r l ++ rest rels).
Proof.
  induction n as [|n IH]; intros r rels l F E; pose proof (next_list r rels l F) as N; destruct (fi_next v parent (FIt (r :: rels) (map Some l))) as [[[r' h] i]| |] eqn:Q; try contradiction.
  - destruct N as (rels' & l' & -> & F' & N). rewrite N in E. discriminate E.
  - rewrite N. now constructor.
  - destruct N as (rels' & l' & -> & F' & N). rewrite N. econstructor; [exact Q|]. apply IH; [exact F'|]. rewrite N in E. cbn [List.length] in E. now injection E.
  - rewrite N in E. discriminate E.
Qed.
Lemma first_list rels : fills rels -> goes parent (fi_first v parent rels) (rest rels).
Proof.
  induction rels as [|r rels IH]; intro F; [unfold rest, shown; destruct (fgen parent); constructor|]. cbn [fi_first]. rewrite rest_cons.
  assert (F' : fills rels) by (intros x X; apply F; now right). destruct (fgen parent && negb (is_regions r)) eqn:S; [exact (IH F')|].
  rewrite (F r (or_introl eq_refl)).
  2: { intro G. rewrite G in S. cbn [andb] in S. destruct r; try discriminate S. reflexivity. }
  destruct (C r) as [|h l] eqn:E; cbn [map]; [exact (IH F')|]. exact (goes_list _ r rels (h :: l) F' eq_refl).
Qed.
End Discovery.
Lemma goes_one parent i l1 l2 : goes parent i l1 -> goes parent i l2 -> l1 = l2.
Proof.
  intro G. revert l2. induction G as [|i E|i r h i' l E G IH]; intros l2 G2; inversion G2; subst; try reflexivity; try congruence.
  match goal with Q : fi_next _ _ i = Given _ |- _ => rewrite E in Q; injection Q as <- <- <- end. f_equal. now apply IH.
Qed.
Lemma as_list_given l : as_list (map (@Given H) l) = Some (map Some l).
Proof. induction l as [|h l IH]; [reflexivity|]. cbn [map as_list fold_right]. fold (as_list (map (@Given H) l)). now rewrite IH. Qed.
Lemma nth_error_map_seq (l : list H) (f : nat -> ans H) : (forall k h, nth_error l k = Some h -> f k = Given h) -> map f (seq 0 (List.length l)) = map (@Given H) l.
Proof.
  revert f. induction l as [|h l IH]; intros f F; [reflexivity|]. cbn [List.length seq map]. rewrite (F 0%nat h eq_refl). f_equal. rewrite <- seq_shift, map_map. apply IH. intros k x E. now apply F.
Qed.
Lemma array_list parent : whole parent -> as_list (map (sub_hdl v parent) (indexes (f_left parent) (f_right parent))) = Some (map Some (subs v (f_var parent) (f_hdl parent))).
Proof.
  intro W. rewrite <- as_list_given. f_equal. pose proof W as (I & N & L). set (s := subs v (f_var parent) (f_hdl parent)) in *. unfold indexes.
  destruct (Z.ltb_spec (f_right parent) (f_left parent)) as [Q|Q]; rewrite map_map.
  - replace (Z.to_nat (f_left parent - f_right parent + 1)) with (List.length s) by lia. apply nth_error_map_seq. intros k h E.
    assert (K : (k < List.length s)%nat) by (apply nth_error_Some; congruence).
    destruct (sub_within parent (f_left parent - Z.of_nat k) W) as (h' & E' & S); [unfold within; cbn [fst snd]; lia|]. fold s in E'. replace (Z.to_nat (Z.abs _)) with k in E' by lia. congruence.
  - replace (Z.to_nat (f_right parent - f_left parent + 1)) with (List.length s) by lia. apply nth_error_map_seq. intros k h E.
    assert (K : (k < List.length s)%nat) by (apply nth_error_Some; congruence).
    destruct (sub_within parent (f_left parent + Z.of_nat k) W) as (h' & E' & S); [unfold within; cbn [fst snd]; lia|]. fold s in E'. replace (Z.to_nat (Z.abs _)) with k in E' by lia. congruence.
Qed.
Lemma filter_all {A} (f : A -> bool) l : (forall x, f x = true) -> filter f l = l.
Proof. intro F. induction l as [|x l IH]; [reflexivity|]. cbn. now rewrite F, IH. Qed.
(** Discovery goes through everything which is in the object, each once and in order, and then ends. *)
Theorem C104_discovery parent l : sound parent -> (goes parent (fi_new v parent) l <-> l = inside parent).
Proof.
  intro S. assert (G : goes parent (fi_new v parent) (inside parent)).
  { unfold fi_new, inside, sound in *. cbv zeta.
    set (C := fun r => match r with OConstants => objs v true (f_hdl parent) | OSignals => objs v false (f_hdl parent) | ORegions => lower v (f_hdl parent)
      | _ => match f_type parent with FStructure => match obj_type v (f_var parent) (f_hdl parent) with TRecord n => firstn (Z.to_nat n) (subs v (f_var parent) (f_hdl parent)) | _ => [] end
             | FLogicArray | FArray | FString => subs v (f_var parent) (f_hdl parent) | _ => [] end end).
    assert (FK : fgen parent = false -> forall h, fkeep v parent h = true) by (intros Q h; unfold fkeep; now rewrite Q).
    destruct (f_type parent) eqn:T;
      try (apply proj1 in S as S0; apply proj2 in S; rewrite S0; assert (GN : fgen parent = false) by (unfold fgen; now rewrite T);
           match goal with |- goes _ _ ?x => assert (X : x = flat_map (fun r => map (pair r) (filter (fkeep v parent) (C r))) (if fgen parent then filter is_regions [if f_var parent then OVarSubs else OSigSubs] else [if f_var parent then OVarSubs else OSigSubs])) end;
           [rewrite GN; cbn [flat_map]; rewrite app_nil_r, (filter_all _ _ (FK GN)); unfold C; destruct (f_var parent); reflexivity|];
           rewrite X; apply first_list; intros r [<-|[]] _; unfold populate, C; cbv zeta; rewrite T;
           first [pose proof S as (SI & _); destruct (f_var parent) eqn:FV; rewrite SI; rewrite <- FV; exact (array_list parent S)
                 |destruct (f_var parent); rewrite S; reflexivity]).
    - rewrite S. assert (GN : fgen parent = false) by (unfold fgen; now rewrite T).
      match goal with |- goes _ _ ?x => assert (X : x = flat_map (fun r => map (pair r) (filter (fkeep v parent) (C r))) (if fgen parent then filter is_regions [OConstants; OSignals; ORegions] else [OConstants; OSignals; ORegions])) end.
      { rewrite GN. cbn [flat_map]. rewrite !(filter_all _ _ (FK GN)). unfold C. now rewrite app_nil_r. }
      rewrite X. apply first_list. intros r [<-|[<-|[<-|[]]]] _; reflexivity.
    - rewrite S. assert (GN : fgen parent = true) by (unfold fgen; now rewrite T).
      match goal with |- goes _ _ ?x => assert (X : x = flat_map (fun r => map (pair r) (filter (fkeep v parent) (C r))) (if fgen parent then filter is_regions [OConstants; OSignals; ORegions] else [OConstants; OSignals; ORegions])) end.
      { rewrite GN. cbn [filter is_regions flat_map]. rewrite app_nil_r. unfold C. f_equal. apply filter_ext. intro h. unfold fkeep, is_block, same_flabel. rewrite GN.
        destruct (region_name v h); [reflexivity|now rewrite andb_false_r]. }
      rewrite X. apply first_list. intros r R Q. rewrite (Q GN). reflexivity.
    - destruct S as [-> (n & S & SL)]. assert (GN : fgen parent = false) by (unfold fgen; now rewrite T). rewrite S in *.
      set (part := if f_var parent then OVarSubs else OSigSubs).
      match goal with |- goes _ _ ?x => assert (X : x = flat_map (fun r => map (pair r) (filter (fkeep v parent) (C r))) (if fgen parent then filter is_regions [part] else [part])) end.
      { rewrite GN. cbn [flat_map]. rewrite app_nil_r, (filter_all _ _ (FK GN)). unfold C, part. rewrite ?S. destruct (f_var parent) eqn:FV; rewrite ?S; reflexivity. }
      rewrite X. apply first_list. intros r [<-|[]] _. unfold populate, C, part. cbv zeta. rewrite T. clear X.
      destruct (f_var parent) eqn:FV; rewrite ?S; (apply Z.ltb_ge in SL; rewrite SL; reflexivity). }
  split; [intro G'; exact (goes_one _ _ _ _ G' G)|intros ->; exact G].
Qed.

(** * Discovered and found are the same *)
Definition as_found (name : pystr) (a : ans (fobj H)) : ans (fstatus (H := H)) :=
  match a with Given o => Given (FNative o) | Null => Given (FNotNative name) | Undef => Undef end.
(** The simulator finds the discovered handle [h] by the name which it gives for it: signals, constants, regions, loops in a region; fields of a record; blocks
    of a loop. *)
Inductive agrees (parent : fobj H) : otm -> H -> pystr -> Prop :=
| ag_signal h n : f_type parent = FModule -> obj_name v false h = Some n -> find_region v (f_full parent ++ lit "/" ++ n) = None ->
    find_obj v false (f_full parent ++ lit "/" ++ n) = Some h -> acc_full v h <> 1034 -> agrees parent OSignals h n
| ag_constant h n : f_type parent = FModule -> obj_name v true h = Some n -> find_region v (f_full parent ++ lit "/" ++ n) = None ->
    find_obj v false (f_full parent ++ lit "/" ++ n) = None -> find_obj v true (f_full parent ++ lit "/" ++ n) = Some h -> var_kind v h <> 1034 -> agrees parent OConstants h n
| ag_region h n : f_type parent = FModule -> region_name v h = Some n -> find_region v (f_full parent ++ lit "/" ++ n) = Some h -> acc_full v h <> 1034 -> agrees parent ORegions h n
| ag_loop h lbl i : f_type parent = FModule -> int32 i -> lbl <> [] -> ~ In 40 lbl -> block (f_hdl parent) lbl i h ->
    (exists b, find_region v (f_full parent ++ lit "/" ++ lbl) = Some b /\ acc_full v b = 1034) \/
    (find_region v (f_full parent ++ lit "/" ++ lbl) = None /\ forall x, find_obj v x (f_full parent ++ lit "/" ++ lbl) = None) -> agrees parent ORegions h lbl
| ag_field h path n : f_type parent = FStructure -> ~ In 46 n ->
    (if f_var parent then obj_name v true h else indirect_name v h) = Some (path ++ lit "." ++ n) -> find_obj v (f_var parent) (f_full parent ++ lit "." ++ n) = Some h ->
    (if f_var parent then var_kind v h else acc_full v h) <> 1034 -> agrees parent (if f_var parent then OVarSubs else OSigSubs) h n.
Theorem C104_same parent r h n : f_full parent <> lit "/" -> agrees parent r h n -> fitem v parent r h = as_found n (fchild v true n parent).
Proof.
  intros FQ A. assert (NS : pystr_eqb (f_full parent) (lit "/") = false) by (destruct (pystr_eqb _ _) eqn:Q; [apply pystr_eqb_eq in Q; contradiction|reflexivity]).
  assert (NG : forall z, z <> 1034 -> (z =? accForGenerate) = false) by (intros z Q; now apply Z.eqb_neq).
  destruct A as [h n T N R F G|h n T N R F F2 G|h n T N R G|h lbl i T I NE P (L & G & N) R|h path n T NP N F G].
  - unfold fitem, fchild. rewrite (scope_module n parent T FQ), N, R, F, (NG _ G), NS. unfold fgen. rewrite T. reflexivity.
  - unfold fitem, fchild. rewrite (scope_module n parent T FQ), N, R, F, F2, (NG _ G), NS. unfold fgen. rewrite T. reflexivity.
  - unfold fitem, fchild. rewrite (scope_module n parent T FQ), N, R, (NG _ G), NS. unfold fgen. rewrite T. cbn [is_regions fgt_eqb negb andb]. rewrite ?(NG _ G). reflexivity.
  - assert (FC : fchild v true lbl parent = pseudo_region v parent lbl (f_full parent ++ lit "/" ++ lbl)).
    { unfold fchild. rewrite (scope_module lbl parent T FQ). cbn [negb andb]. destruct R as [(b & -> & GB)|(-> & F)].
      - change accForGenerate with 1034. rewrite GB. reflexivity.
      - rewrite !F. assert (X : existsb (fun r => (acc_full v r =? accForGenerate) && match region_name v r with Some n => same_flabel n lbl | None => false end) (lower v (f_hdl parent)) = true).
        { apply existsb_exists. exists h. split; [exact L|]. rewrite G, N, Z.eqb_refl. cbn [andb]. unfold same_flabel, flabel. rewrite (before_findex lbl i I), (before_none 40 lbl P). apply pystr_eqb_refl. }
        now rewrite X. }
    rewrite FC. unfold fitem. rewrite N. unfold fgen. rewrite T. cbn [is_regions fgt_eqb negb andb]. rewrite G, Z.eqb_refl, (before_findex lbl i I), NS.
    destruct lbl as [|c lbl]; [contradiction|]. reflexivity.
  - unfold fitem, fchild, scope. rewrite NS, T. unfold fgen. rewrite T.
    assert (B : before_last 46 (path ++ lit "." ++ n) = Some (path, lit "." ++ n)) by (change (lit "." ++ n) with (46 :: n); now apply before_last_app).
    destruct (f_var parent); rewrite N; cbn [is_regions fgt_eqb negb andb orb]; rewrite ?NS, B, F, (NG _ G); reflexivity.
Qed.
(** Blocks of a loop: by their index, and with the same name. *)
Theorem C104_same_block parent i h : f_type parent = FGenArray -> f_full parent <> lit "/" -> int32 i -> region_name v h = Some (f_name parent ++ findex i) ->
  find_region v (f_full parent ++ findex i) = Some h -> fitem v parent ORegions h = as_found (f_name parent ++ findex i) (felem v i parent).
Proof.
  intros T FQ I N F. assert (NS : pystr_eqb (f_full parent) (lit "/") = false) by (destruct (pystr_eqb _ _) eqn:Q; [apply pystr_eqb_eq in Q; contradiction|reflexivity]).
  unfold fitem, felem. rewrite T, F. cbv zeta. rewrite N. unfold fgen. rewrite T. cbn [is_regions fgt_eqb negb andb orb]. rewrite NS, (before_findex _ i I). reflexivity.
Qed.
(** * The top *)
Theorem C104_root name o : froot v name = Given o -> exists pre r post n, tops v = pre ++ r :: post /\ region_name v r = Some n /\ f_hdl o = r /\ f_name o = n /\ f_full o = region_full v r /\
  (name = None /\ pre = [] \/ name = Some n /\ forall x, In x pre -> region_name v x <> Some n).
Proof.
  unfold froot. intro E. destruct (find _ (tops v)) as [r|] eqn:F; [|discriminate E]. destruct (region_name v r) as [n|] eqn:N; [|discriminate E].
  destruct (fcreate_names _ _ _ _ _ _ E) as (E1 & E2 & E3 & _).
  assert (X : forall (f : H -> bool) l x, find f l = Some x -> exists pre post, l = pre ++ x :: post /\ f x = true /\ forall y, In y pre -> f y = false).
  { clear. intros f l. induction l as [|y l IH]; intros x; cbn; [discriminate|]. destruct (f y) eqn:Q.
    - intro E. injection E as <-. exists [], l. split; [reflexivity|]. split; [exact Q|]. intros z [].
    - intro E. destruct (IH x E) as (pre & post & -> & G & P). exists (y :: pre), post. split; [reflexivity|]. split; [exact G|]. intros z [<-|I]; [exact Q|now apply P]. }
  destruct (X _ _ _ F) as (pre & post & L & G & P). exists pre, r, post, n. split; [exact L|]. split; [exact N|]. split; [exact E3|]. split; [exact E1|]. split; [exact E2|].
  destruct name as [x|].
  - right. rewrite N in G. apply pystr_eqb_eq in G. subst x. split; [reflexivity|]. intros y I Q. specialize (P y I). cbv beta in P. rewrite Q, pystr_eqb_refl in P. discriminate P.
  - left. split; [reflexivity|]. destruct pre as [|y pre]; [reflexivity|]. specialize (P y (or_introl eq_refl)). discriminate P.
Qed.
End Sim.
Print Assumptions C104_names.
Print Assumptions C104_index_names.
Print Assumptions C104_types.
Print Assumptions C104_sizes.
Print Assumptions C104_literals.
Print Assumptions C104_elements.
Print Assumptions C104_every_element.
Print Assumptions C104_generate.
Print Assumptions C104_block.
Print Assumptions C104_absent.
Print Assumptions C104_discovery.
Print Assumptions C104_same.
Print Assumptions C104_same_block.
Print Assumptions C104_root.

(** * Examples *)
(** A design as a table: path, name, the two numbers of its type, whether it is a region, a signal or a variable, type, and what is in it. *)
Inductive sort := Region (low sigs vars : list nat) | Signal (t : ty) (parts : list nat) | Var (t : ty) (parts : list nat).
Record row := Row { r_path : pystr; r_name : pystr; r_acc : Z; r_full : Z; r_sort : sort }.
Definition is_reg (s : sort) := match s with Region _ _ _ => true | _ => false end.
Definition is_obj (var : bool) (s : sort) := match s with Signal _ _ => negb var | Var _ _ => var | _ => false end.
Fixpoint position {A} (f : A -> bool) (l : list A) : option nat :=
  match l with [] => None | x :: l' => if f x then Some 0%nat else option_map S (position f l') end.
(** [fold]: how the simulator reads names: as they are, or without regard to the case of letters. *)
Definition fsim (fold : pystr -> pystr) (rows : list row) : fli nat :=
  let at_ h := nth h rows (Row [] [] 0 0 (Region [] [] [])) in
  Fli nat (fun p => position (fun r => is_reg (r_sort r) && pystr_eqb (fold (r_path r)) (fold p)) rows)
    (fun b p => position (fun r => is_obj b (r_sort r) && pystr_eqb (fold (r_path r)) (fold p)) rows)
    (fun h => r_acc (at_ h)) (fun h => r_full (at_ h)) (fun h => r_full (at_ h))
    (fun h => if is_reg (r_sort (at_ h)) then Some (r_name (at_ h)) else None) (fun h => r_path (at_ h))
    (fun _ h => Some (r_name (at_ h))) (fun h => Some (r_name (at_ h)))
    (fun _ h => match r_sort (at_ h) with Signal t _ | Var t _ => t | _ => TOther end)
    (fun h => match r_sort (at_ h) with Region l _ _ => l | _ => [] end)
    (fun b h => match r_sort (at_ h) with Region _ s w => if b then w else s | _ => [] end)
    (fun _ h => match r_sort (at_ h) with Signal _ p | Var _ p => p | _ => [] end) [0%nat].
Definition ex_rows : list row :=
  [Row (lit "/top") (lit "top") 1010 1010 (Region [1; 2; 9]%nat [3; 6]%nat [8]%nat);
   Row (lit "/top/g(0)") (lit "g(0)") 1030 1034 (Region [] [] []);
   Row (lit "/top/g(1)") (lit "g(1)") 1030 1034 (Region [] [] []);
   Row (lit "/top/s") (lit "s") 1100 1100 (Signal (TArray 1 0 (-1) 2 (TEnum std_lits)) [4; 5]%nat);
   Row (lit "/top/s(1)") (lit "s(1)") 1100 1101 (Signal (TEnum std_lits) []);
   Row (lit "/top/s(0)") (lit "s(0)") 1100 1101 (Signal (TEnum std_lits) []);
   Row (lit "/top/r") (lit "r") 1100 1100 (Signal (TRecord 1) [7]%nat);
   Row (lit "/top/r.x") (lit "r.x") 1100 1102 (Signal TScalar []);
   Row (lit "/top/C") (lit "C") 1120 1120 (Var TScalar []);
   Row (lit "/top/sub") (lit "sub") 1021 1021 (Region [] [] [])].
Definition exf : fli nat := fsim (fun s => s) ex_rows.
Definition ftop : fobj nat := FObj 0%nat FModule false false 1010 1010 (lit "top") (lit "/top") 1 false (-1) (-1) 0.
Definition fs : fobj nat := FObj 3%nat FLogicArray false false 1100 1100 (lit "s") (lit "/top/s") 2 true 1 0 (-1).
Definition fr : fobj nat := FObj 6%nat FStructure false false 1100 1100 (lit "r") (lit "/top/r") 0 false (-1) (-1) 0.
Example C104_names_ex : fchild exf true (lit "s") ftop = Given fs /\ fchild exf true (lit "r") ftop = Given fr /\
  exists o, fchild exf true (lit "x") fr = Given o /\ f_full o = lit "/top/r.x" /\ f_type o = FInteger.
Proof. split; [reflexivity|]. split; [reflexivity|]. eexists. repeat split; reflexivity. Qed.
Example C104_index_names_ex : int32 1 /\ exists o, felem exf 1 fs = Given o /\ f_name o = lit "s(1)" /\ f_full o = lit "/top/s(1)".
Proof. split; [unfold int32; lia|]. eexists. repeat split; reflexivity. Qed.
Example C104_types_ex : is_value 1120 = true /\ (exists o, by_kind exf 8%nat (lit "C") (lit "/top/C") = Given o /\ f_type o = FInteger /\ f_const o = true /\ f_var o = true) /\
  declared (TArray 7 0 (-1) 8 (TEnum bit_lits)) FLogicArray /\ declared (TEnum [lit "idle"; lit "busy"]) FEnum.
Proof.
  split; [reflexivity|]. split; [eexists; repeat split; reflexivity|]. split; [constructor; now right|]. constructor; [intros [Q|Q]; discriminate Q|intros (x & Q & L); injection Q as <-; discriminate L|discriminate].
Qed.
Example C104_sizes_ex : is_value 1120 = true /\ (exists o, fcreate exf 8%nat (lit "C") (lit "/top/C") 1120 1120 = Given o /\ f_indexable o = false /\ f_num o = 32 /\ f_const o = true) /\
  (exists o, fcreate exf 6%nat (lit "r") (lit "/top/r") 1100 1100 = Given o /\ f_num o = 0 /\ f_const o = false).
Proof. split; [reflexivity|]. split; eexists; repeat split; reflexivity. Qed.
Example C104_literals_ex : is_logic std_lits = true /\ is_logic bit_lits = true /\ is_logic [lit "'1'"; lit "'0'"] = false.
Proof. repeat split. Qed.
Example C104_elements_ex : whole exf fs /\ In (f_type fs) [FLogicArray; FArray; FString] /\ within 0 (f_left fs, f_right fs) /\ sub_hdl exf fs 0 = Given 5%nat /\
  ~ within 2 (f_left fs, f_right fs) /\ felem exf 2 fs = Null.
Proof. unfold whole, within. cbn. repeat split; try reflexivity; try lia. now left. Qed.
Example C104_every_element_ex : whole exf fs /\ nth_error (subs exf (f_var fs) (f_hdl fs)) 1 = Some 5%nat.
Proof. unfold whole. repeat split. Qed.
Example C104_generate_ex : region_object exf ftop (lit "top") /\ lit "g" <> lit "top" /\ ~ In 40 (lit "g") /\ int32 1 /\ block exf 0%nat (lit "g") 1 2%nat /\
  find_region exf (lit "/top/g") = None /\ (forall x, find_obj exf x (lit "/top/g") = None) /\ fchild exf true (lit "g") ftop = Given (loop_object ftop (lit "g")).
Proof.
  split; [repeat split; cbn; try reflexivity; discriminate|]. split; [discriminate|]. split; [cbn; intuition discriminate|]. split; [unfold int32; lia|]. split; [repeat split; cbn; tauto|].
  split; [reflexivity|]. split; [intros []; reflexivity|reflexivity].
Qed.
Example C104_block_ex : find_region exf (f_full ftop ++ lit "/" ++ lit "g" ++ findex 1) = Some 2%nat /\ region_name exf 2%nat = Some (lit "g" ++ findex 1) /\ is_vhdl (acc_full exf 2%nat) = true /\
  is_value (acc_type exf 2%nat) = false /\ exists o, felem exf 1 (loop_object ftop (lit "g")) = Given o /\ f_type o = FModule /\ f_full o = lit "/top/g(1)".
Proof. repeat split. eexists. repeat split; reflexivity. Qed.
Example C104_absent_ex : fchild exf true (lit "q") ftop = Null /\ find_region exf (lit "/top/q") = None /\ (forall x, find_obj exf x (lit "/top/q") = None) /\
  (forall r n, In r (lower exf 0%nat) -> acc_full exf r = accForGenerate -> region_name exf r = Some n -> flabel n <> flabel (lit "q")).
Proof.
  split; [reflexivity|]. split; [reflexivity|]. split; [intros []; reflexivity|]. intros r n [<-|[<-|[<-|[]]]] _ E; cbn in E; injection E as <-; discriminate.
Qed.
Example C104_discovery_ex : sound exf ftop /\ inside exf ftop = [(OConstants, 8); (OSignals, 3); (OSignals, 6); (ORegions, 1); (ORegions, 2); (ORegions, 9)]%nat /\
  sound exf fs /\ inside exf fs = [(OSigSubs, 4); (OSigSubs, 5)]%nat /\ sound exf fr /\ inside exf fr = [(OSigSubs, 7)]%nat /\
  sound exf (loop_object ftop (lit "g")) /\ inside exf (loop_object ftop (lit "g")) = [(ORegions, 1); (ORegions, 2)]%nat.
Proof. unfold sound, whole. cbn. repeat split; try reflexivity. exists 1. split; [reflexivity|lia]. Qed.
Example C104_same_ex : agrees exf ftop OSignals 3%nat (lit "s") /\ agrees exf ftop OConstants 8%nat (lit "C") /\ agrees exf ftop ORegions 9%nat (lit "sub") /\
  agrees exf ftop ORegions 2%nat (lit "g") /\ agrees exf fr OSigSubs 7%nat (lit "x") /\ fitem exf ftop OSignals 3%nat = Given (FNative fs).
Proof.
  split; [apply ag_signal; cbn; try reflexivity; discriminate|]. split; [apply ag_constant; cbn; try reflexivity; discriminate|]. split; [apply ag_region; cbn; try reflexivity; discriminate|].
  split; [apply (ag_loop exf ftop 2%nat (lit "g") 1); [reflexivity|unfold int32; lia|discriminate|cbn; intuition discriminate|repeat split; cbn; tauto|right; split; [reflexivity|intros []; reflexivity]]|].
  split; [|reflexivity]. apply (ag_field exf fr 7%nat (lit "r") (lit "x")); cbn; try reflexivity; intuition discriminate.
Qed.
Example C104_same_block_ex : let p := loop_object ftop (lit "g") in f_type p = FGenArray /\ region_name exf 1%nat = Some (f_name p ++ findex 0) /\ find_region exf (f_full p ++ findex 0) = Some 1%nat /\
  exists o, fitem exf p ORegions 1%nat = Given (FNative o) /\ f_name o = lit "g(0)".
Proof. repeat split. eexists. split; reflexivity. Qed.
Example C104_root_ex : froot exf (Some (lit "top")) = Given ftop /\ froot exf None = Given ftop /\ froot exf (Some (lit "TOP")) = Null.
Proof. repeat split. Qed.

(** * What does not hold *)
(** The name of a block gives a pseudo-region with the handle of the parent, not the block. *)
Theorem C104_block_refuted : exists o, find_region exf (lit "/top/g(1)") = Some 2%nat /\ fchild exf true (lit "g(1)") ftop = Given o /\ f_type o = FGenArray /\ f_hdl o = f_hdl ftop /\ f_full o = lit "/top/g(1)".
Proof. eexists. repeat split; reflexivity. Qed.
Print Assumptions C104_block_refuted.
(** Names of VHDL are the same in every case. A simulator which finds them so gives an instance by another spelling of its name, but it becomes a loop. *)
Theorem C104_case_refuted : exists v o, find_region v (lit "/top/SUB") = Some 9%nat /\ region_name v 9%nat = Some (lit "sub") /\ r_full (nth 9 ex_rows (Row [] [] 0 0 (Region [] [] []))) = 1021 /\
  fchild v true (lit "SUB") ftop = Given o /\ f_hdl o = 9%nat /\ f_type o = FGenArray /\ fchild v true (lit "anything") o = Null.
Proof. exists (fsim upper ex_rows). eexists. repeat split; reflexivity. Qed.
Print Assumptions C104_case_refuted.
(** A loop with the label of the region which contains it: what is found is the region, inside of itself. *)
Definition same_rows : list row :=
  [Row (lit "/g") (lit "g") 1010 1010 (Region [1]%nat [] []); Row (lit "/g/g(0)") (lit "g(0)") 1030 1034 (Region [] [] [])].
Theorem C104_same_label_refuted : exists v parent o, froot v (Some (lit "g")) = Given parent /\ block v (f_hdl parent) (lit "g") 0 1%nat /\
  fchild v true (lit "g") parent = Given o /\ f_type o = FModule /\ f_hdl o = f_hdl parent /\ felem v 0 o = Null.
Proof. exists (fsim (fun s => s) same_rows). do 2 eexists. split; [reflexivity|]. split; [repeat split; now left|]. repeat split; reflexivity. Qed.
Print Assumptions C104_same_label_refuted.
(** A discovered element of an array has another name than the element which the index gives. *)
Theorem C104_element_refuted : exists o o', fitem exf fs OSigSubs 4%nat = Given (FNative o) /\ felem exf 1 fs = Given o' /\ f_hdl o = f_hdl o' /\ f_full o = f_full o' /\
  f_name o = lit "1)" /\ f_name o' = lit "s(1)".
Proof. do 2 eexists. repeat split; reflexivity. Qed.
Print Assumptions C104_element_refuted.
(** The member of a record of another interface is looked up as if the record were an object of the FLI. *)
Theorem C104_foreign_refuted : exists name, fchild exf false name fr = Undef.
Proof. exists (lit "y"). reflexivity. Qed.
Print Assumptions C104_foreign_refuted.
(** A variable of which the simulator says that it is an alias of a constant, for which the iterator has an entry, is taken for a region. *)
Theorem C104_alias_refuted : exists v, find_obj v true (lit "/top/a") = Some 1%nat /\ var_kind v 1%nat = 1132 /\ over 1132 <> None /\ fchild v true (lit "a") ftop = Undef.
Proof.
  exists (fsim (fun s => s) [Row (lit "/top") (lit "top") 1010 1010 (Region [] [] [1]%nat); Row (lit "/top/a") (lit "a") 1132 1132 (Var TScalar [])]).
  repeat split; try reflexivity. discriminate.
Qed.
Print Assumptions C104_alias_refuted.

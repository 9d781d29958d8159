(** C103: objects of VHDL designs found by name and discovered through the VHPI. *)
From Verif Require Import Base TextModel VpiNameModel VhpiArrayModel VhpiNameModel.
From Verif Require XmlModel VpiNameProps VhpiArrayProps.
From Coq Require Import String Lia.
Import VpiNameProps.
Notation py_str_int := XmlModel.py_str_int.
Open Scope Z_scope.

(** * Names with indexes *)
(** The two ways to write the index of a generate block: [label(3)], and [label__3] with Aldec. *)
Definition separators (sep : pystr * pystr) : Prop := sep = (lit "(", lit ")") \/ sep = (lit "__", []).
(** The name of a block of a generate loop. *)
Definition block_name (sep : pystr * pystr) (lbl : pystr) (i : Z) : pystr := lbl ++ fst sep ++ py_str_int i ++ snd sep.
(** A label without an index. *)
Definition bare (sep : pystr * pystr) (lbl : pystr) : Prop := forall a b, lbl <> a ++ fst sep ++ b.
Lemma no_char c x s : ~ In c s -> last_at (c :: x) s = None.
Proof.
  intro N. apply last_none. intros p r E. destruct (after_prefix (c :: x) r) as [z|] eqn:A; [|reflexivity]. exfalso. apply prefix_spec in A. subst r.
  apply N. rewrite E. apply in_app_iff. right. now left.
Qed.
Lemma last_index sep i : separators sep -> last_at (fst sep) (fst sep ++ py_str_int i ++ snd sep) = Some (fst sep ++ py_str_int i ++ snd sep).
Proof.
  pose proof (str_chars i) as F. rewrite Forall_forall in F.
  intros [-> | ->]; cbn [fst snd].
  - change (lit "(" ++ py_str_int i ++ lit ")") with (40 :: py_str_int i ++ lit ")"). cbn [last_at]. change (lit "(") with [40]. rewrite no_char; [reflexivity|].
    intro I. apply in_app_iff in I. destruct I as [I|I]; [apply F in I; lia|cbn in I; lia].
  - rewrite app_nil_r. change (lit "__" ++ py_str_int i) with (95 :: 95 :: py_str_int i). change (lit "__") with [95; 95].
    assert (N : ~ In 95 (py_str_int i)) by (intro I; apply F in I; lia).
    cbn [last_at]. rewrite (no_char 95 [95] _ N). assert (A : after_prefix [95; 95] (95 :: py_str_int i) = None).
    { cbn [after_prefix]. rewrite Z.eqb_refl. destruct (py_str_int i) as [|c l]; [reflexivity|]. destruct (Z.eqb_spec 95 c); [exfalso; apply N; subst; now left|reflexivity]. }
    rewrite A. reflexivity.
Qed.
Lemma split_block sep lbl i : separators sep -> split_last (fst sep) (block_name sep lbl i) = Some (lbl, fst sep ++ py_str_int i ++ snd sep).
Proof.
  intro S. unfold split_last, block_name. rewrite (last_after (fst sep) lbl _ _ (last_index sep i S)). rewrite app_length, Nat.add_sub, firstn_app, Nat.sub_diag, firstn_all.
  cbn [firstn]. now rewrite app_nil_r.
Qed.
Lemma split_bare sep lbl : bare sep lbl -> split_last (fst sep) lbl = None.
Proof.
  intro B. unfold split_last. rewrite last_none; [reflexivity|]. intros p r E. destruct (after_prefix (fst sep) r) as [z|] eqn:A; [|reflexivity].
  exfalso. apply prefix_spec in A. subst r. exact (B p z E).
Qed.
Lemma block_text sep lbl i : int32 i -> lbl ++ fst sep ++ firstn 13 (py_str_int i) ++ snd sep = block_name sep lbl i.
Proof. intro I. unfold block_name. rewrite (firstn_all2 (n := 13)); [reflexivity|]. pose proof (str_length i I). lia. Qed.
Lemma compare_refl nvc a : compare_names nvc a a = true.
Proof. unfold compare_names. destruct nvc; now apply pystr_eqb_eq. Qed.

(** * Names *)
Lemma vh_create_names {H} (v : vhpi H) ius questa h name fq o r : vh_create v ius questa h name fq = (Some o, r) -> o_name o = name /\ o_full o = fq.
Proof.
  unfold vh_create, vh_array_init, vh_signal_init. destruct (vkind v h).
  - cbn [o_hdl fresh]. destruct (dims v h) as [n|]; [|discriminate]. destruct (get_range _ _ _ _) as [c|]; [|discriminate]. intro E. injection E as <- <-. now split.
  - destruct (if vec then _ else _); intro E; injection E as <- <-; now split.
  - destruct (vvalue v h); [|discriminate]. destruct (if str then _ else _); intro E; injection E as <- <-; now split.
  - intro E. injection E as <- <-. now split.
  - discriminate.
Qed.
Lemma nm_create_names {H} (d : design H) nvc ius questa h name fq o r : nm_create d nvc ius questa h name fq = (Some o, r) -> o_name o = name /\ o_full o = fq.
Proof.
  unfold nm_create. cbv zeta. destruct (is_region _); [intro E; injection E as <- <-; now split|]. destruct (is_statement _); [intro E; injection E as <- <-; now split|].
  apply vh_create_names.
Qed.
(** A child has the name by which it was asked for, behind the full name of its parent. *)
Theorem C103_names {H} (d : design H) nvc ius questa sep name parent o r : nm_child d nvc ius questa sep name parent = Some (Some o, r) ->
  o_name o = name /\ o_full o = (if nvc then upper else fun s => s) (o_full parent ++ (if pystr_eqb (o_full parent) (lit ":") then [] else lit ".") ++ name).
Proof.
  unfold nm_child. intro E. destruct (search d nvc sep name parent) as [e| |]; try discriminate E.
  assert (G : forall e' rl, match nm_create d nvc ius questa e' name (full_name nvc name parent) with (Some o, r) => Some (Some o, rl ++ r) | (None, r) => Some (None, rl ++ r ++ [e']) end = Some (Some o, r) ->
    o_name o = name /\ o_full o = full_name nvc name parent).
  { intros e' rl Q. destruct (nm_create _ _ _ _ _ _ _) as [[x|] y] eqn:C; [|discriminate Q]. injection Q as -> _. exact (nm_create_names _ _ _ _ _ _ _ _ _ C). }
  assert (K : o_name o = name /\ o_full o = full_name nvc name parent) by (destruct (is_for_generate _); exact (G _ _ E)).
  destruct K as [K1 K2]. split; [exact K1|]. rewrite K2. unfold full_name. destruct nvc, (pystr_eqb (o_full parent) (lit ":")); reflexivity.
Qed.
Print Assumptions C103_names.

(** * Generate loops *)
(** The pseudo-region of the generate loop [lbl] in [parent]. *)
Definition vregion {H} (nvc : bool) (parent : obj H) (lbl : pystr) : obj H :=
  Obj (o_hdl parent) GGenArray lbl (full_name nvc lbl parent) 0 false (-1) (-1) None.
(** The parent is a region of another name. *)
Definition other_region {H} (d : design H) (nvc : bool) (lbl : pystr) (h : H) : Prop :=
  is_region (kind_of d h) = true /\ compare_names nvc lbl (name_of d h) = false /\ forall e, entity d h = Some e -> compare_names nvc lbl e = false.
Definition block_of {H} (d : design H) (sep : pystr * pystr) (lbl : pystr) (i : Z) (h : H) : Prop := kind_of d h = CForGenerate /\ name_of d h = block_name sep lbl i.
Lemma create_region {H} (d : design H) nvc ius questa h lbl fq : other_region d nvc lbl h ->
  nm_create d nvc ius questa h lbl fq = (Some (Obj h GGenArray lbl fq 0 false (-1) (-1) None), []).
Proof.
  intros (R & N & E). unfold nm_create. cbv zeta. rewrite R.
  assert (Q : compare_names nvc lbl (match kind_of d h with CRoot => if compare_names nvc (name_of d h) lbl then name_of d h else match entity d h with Some e => e | None => name_of d h end | _ => name_of d h end) = false).
  { destruct (kind_of d h); try exact N. destruct (compare_names nvc (name_of d h) lbl); [exact N|]. destruct (entity d h) as [e|] eqn:EN; [exact (E e eq_refl)|exact N]. }
  rewrite Q. reflexivity.
Qed.
(** The label of a generate loop gives its pseudo-region, whether the simulator finds one of its blocks by the label or only lists them. *)
Theorem C103_generate {H} (d : design H) nvc ius questa sep parent lbl : separators sep -> bare sep lbl -> o_type parent <> GStructure -> other_region d nvc lbl (o_hdl parent) ->
  (forall e, vhpi_name (vh d) (full_name nvc lbl parent) = Some e -> kind_of d e = CForGenerate ->
     nm_child d nvc ius questa sep lbl parent = Some (Some (vregion nvc parent lbl), [e])) /\
  (forall l i h, vhpi_name (vh d) (full_name nvc lbl parent) = None -> scan d RInternalRegions (o_hdl parent) = Some l -> In h l -> block_of d sep lbl i h -> kind_of d (o_hdl parent) <> CForGenerate ->
     nm_child d nvc ius questa sep lbl parent = Some (Some (vregion nvc parent lbl), [])).
Proof.
  intros S B T O. split.
  - intros e N K. unfold nm_child, search. rewrite N, K. cbn [is_for_generate]. rewrite (create_region d nvc ius questa _ lbl _ O). reflexivity.
  - intros l i h N SC I [K NM] P. unfold nm_child, search. rewrite N. replace (gtype_eqb (o_type parent) GStructure) with false by (destruct (o_type parent); try reflexivity; now elim T).
    rewrite SC. replace (existsb _ l) with true.
    + replace (is_for_generate (kind_of d (o_hdl parent))) with false by (destruct (kind_of d (o_hdl parent)); try reflexivity; now elim P).
      rewrite (create_region d nvc ius questa _ lbl _ O). reflexivity.
    + symmetry. apply existsb_exists. exists h. split; [exact I|]. rewrite K, NM. cbn [is_for_generate andb]. unfold compare_labels, gen_label.
      rewrite (split_block sep lbl i S), (split_bare sep lbl B). apply compare_refl.
Qed.
Print Assumptions C103_generate.
(** A name which nothing has gives nothing, and nothing is released. *)
Theorem C103_absent {H} (d : design H) nvc ius questa sep parent name : o_type parent <> GStructure -> vhpi_name (vh d) (full_name nvc name parent) = None ->
  (forall l h, scan d RInternalRegions (o_hdl parent) = Some l -> In h l -> kind_of d h = CForGenerate -> compare_labels nvc sep (name_of d h) name = false) ->
  nm_child d nvc ius questa sep name parent = Some (None, []).
Proof.
  intros T N A. unfold nm_child, search. rewrite N. replace (gtype_eqb (o_type parent) GStructure) with false by (destruct (o_type parent); try reflexivity; now elim T).
  destruct (scan d RInternalRegions (o_hdl parent)) as [l|] eqn:S; [|reflexivity]. replace (existsb _ l) with false; [reflexivity|].
  symmetry. apply not_true_iff_false. intro E. apply existsb_exists in E. destruct E as (h & I & E). apply andb_true_iff in E. destruct E as [E1 E2].
  rewrite (A l h eq_refl I) in E2; [discriminate E2|]. destruct (kind_of d h); try discriminate E1. reflexivity.
Qed.
Print Assumptions C103_absent.
(** The handle of the parent, which is in use, is not released, unless the simulator has given it again or the parent is itself a block of a generate loop
    (see [C103_nested_refuted]). *)
Theorem C103_released {H} (d : design H) nvc ius questa sep parent name o r : is_region (kind_of d (o_hdl parent)) = true -> kind_of d (o_hdl parent) <> CForGenerate ->
  vhpi_name (vh d) (full_name nvc name parent) <> Some (o_hdl parent) ->
  (forall l, scan d RSelectedNames (o_hdl parent) = Some l -> ~ In (o_hdl parent) l) ->
  nm_child d nvc ius questa sep name parent = Some (o, r) -> ~ In (o_hdl parent) r.
Proof.
  intros R K N S E. unfold nm_child in E.
  assert (KF : is_for_generate (kind_of d (o_hdl parent)) = false) by (destruct (kind_of d (o_hdl parent)); try reflexivity; now elim K).
  assert (CR : forall nm fq, exists x, nm_create d nvc ius questa (o_hdl parent) nm fq = (Some x, [])) by (intros nm fq; unfold nm_create; rewrite R; now eexists).
  assert (VC : forall h nm fq x, In x (snd (nm_create d nvc ius questa h nm fq)) -> x = h).
  { intros h nm fq x. unfold nm_create, vh_create, destroyed. cbv zeta. destruct (is_region (kind_of d h)); [simpl; tauto|]. destruct (is_statement (kind_of d h)); [simpl; tauto|]. cbn [o_type o_hdl fresh].
    destruct (vkind (vh d) h) as [|b|g b|g|].
    - destruct (vh_array_init _ _ _ _ _ _); simpl; [tauto|]. intros [<-|[]]. reflexivity.
    - simpl. tauto.
    - destruct (vvalue (vh d) h); simpl; [tauto|]. destruct g; simpl; intros Q; try (destruct Q as [<-|[]]; reflexivity); destruct Q.
    - simpl. tauto.
    - simpl. tauto. }
  assert (Q : forall e, e <> o_hdl parent -> search d nvc sep name parent = Got e -> ~ In (o_hdl parent) r).
  { intros e EN SE. rewrite SE in E. destruct (is_for_generate (kind_of d e)).
    - destruct (CR name (full_name nvc name parent)) as [x X]. rewrite X in E. injection E as <- <-. cbn. intuition congruence.
    - pose proof (VC e name (full_name nvc name parent)) as V. destruct (nm_create d nvc ius questa e name (full_name nvc name parent)) as [[x|] y]; cbn [snd] in V; injection E as <- <-; cbn [app]; intro I.
      + apply V in I. now symmetry in I.
      + apply in_app_iff in I. destruct I as [I|[I|[]]]; [apply V in I; now symmetry in I|contradiction]. }
  assert (P : search d nvc sep name parent = Got (o_hdl parent) -> ~ In (o_hdl parent) r).
  { intro SE. rewrite SE, KF in E. destruct (CR name (full_name nvc name parent)) as [x X]. rewrite X in E. injection E as <- <-. intros []. }
  destruct (search d nvc sep name parent) as [e| |] eqn:SE; [|discriminate E|injection E as <- <-; intros []].
  assert (D : e = o_hdl parent \/ e <> o_hdl parent).
  { unfold search in SE. destruct (vhpi_name _ _) as [e'|]; [injection SE as ->; right; congruence|]. destruct (gtype_eqb _ _).
    - destruct (scan d RSelectedNames (o_hdl parent)) as [l|]; [|discriminate SE]. destruct (find _ l) as [e'|] eqn:F; [|discriminate SE]. injection SE as ->. apply find_some in F. right.
      intros ->. exact (S l eq_refl (proj1 F)).
    - destruct (scan d RInternalRegions (o_hdl parent)) as [l|]; [|discriminate SE]. destruct (existsb _ l); [|discriminate SE]. injection SE as ->. now left. }
  destruct D as [->|D]; [now apply P|now apply (Q e)].
Qed.
Print Assumptions C103_released.

(** * Discovery *)
(** What is discovered in [parent]: no statements; in a pseudo-region the blocks of its loop only. *)
Definition passes {H} (d : design H) (nvc : bool) (sep : pystr * pystr) (parent : obj H) (h : H) : bool :=
  match kind_of d h, o_type parent with
  | (CProcess | CAssign), _ => false
  | CForGenerate, GGenArray => compare_names nvc (gen_label sep (name_of d h)) (gen_label sep (o_name parent))
  | _, GGenArray => false
  | _, _ => true
  end.
Definition related {H} (d : design H) (h : H) (r : rel) : list H := match scan d r h with Some l => l | None => [] end.
Definition everything {H} (d : design H) (nvc : bool) (sep : pystr * pystr) (parent : obj H) : list (rel * H) :=
  let h := o_hdl parent in
  flat_map (fun r => map (pair r) (filter (passes d nvc sep parent) (related d h r)))
    (match iterate_over (kind_of d h) with
     | Some rels => match o_type parent with GGenArray => filter internal rels | _ => rels end
     | None => []
     end).
(** The handles which [next_handle] goes through until END. *)
Inductive gives {H} (d : design H) (nvc : bool) (sep : pystr * pystr) (parent : obj H) : option iter -> list (rel * H) -> Prop :=
| gives_none : gives d nvc sep parent None []
| gives_end i : it_next d nvc sep parent i = None -> gives d nvc sep parent (Some i) []
| gives_next i r h i' l : it_next d nvc sep parent i = Some (r, h, i') -> gives d nvc sep parent (Some i') l -> gives d nvc sep parent (Some i) ((r, h) :: l).
Section Discovery.
Context {H : Type} (d : design H) (nvc : bool) (sep : pystr * pystr) (parent : obj H).
Lemma keep_passes h : keep d nvc sep parent h = passes d nvc sep parent h.
Proof. unfold keep, passes, is_gen, compare_labels. destruct (kind_of d h), (o_type parent); cbn; try reflexivity; now rewrite ?andb_true_r. Qed.
Let some (r : rel) (l : list H) := map (pair r) (filter (passes d nvc sep parent) l).
Let shown (rels : list rel) := if is_gen parent then filter internal rels else rels.
Let rest (rels : list rel) := flat_map (fun r => some r (related d (o_hdl parent) r)) (shown rels).
Let remaining (i : iter) := match i_rels i with [] => [] | r :: rels => match i_scan i with Some l => some r l | None => [] end ++ rest rels end.
Lemma kept_some r l : match first_kept d nvc sep parent l with Some (h, l') => some r l = (r, h) :: some r l' | None => some r l = [] end.
Proof.
  induction l as [|h l IH]; [reflexivity|]. cbn [first_kept]. unfold some in *. cbn [filter]. rewrite keep_passes. destruct (passes d nvc sep parent h); [reflexivity|exact IH].
Qed.
Lemma onwards_rest rels : match onwards d nvc sep parent rels with Some (r, h, i) => rest rels = (r, h) :: remaining i | None => rest rels = [] end.
Proof.
  induction rels as [|r rels IH]; [unfold rest, shown; now destruct (is_gen parent)|]. cbn [onwards].
  assert (S : rest (r :: rels) = if is_gen parent && negb (internal r) then rest rels else some r (related d (o_hdl parent) r) ++ rest rels).
  { unfold rest, shown. destruct (is_gen parent); cbn [andb]; [|reflexivity]. cbn [filter]. now destruct (internal r). }
  rewrite S. destruct (is_gen parent && negb (internal r)); [exact IH|]. unfold related. destruct (scan d r (o_hdl parent)) as [l|]; [|exact IH].
  pose proof (kept_some r l) as K. destruct (first_kept d nvc sep parent l) as [[h l']|]; rewrite K; [reflexivity|exact IH].
Qed.
Lemma next_remaining i : match it_next d nvc sep parent i with Some (r, h, i') => remaining i = (r, h) :: remaining i' | None => remaining i = [] end.
Proof.
  unfold it_next, remaining. destruct i as [rels sc]. cbn [i_rels i_scan]. destruct rels as [|r rels]; [reflexivity|]. destruct sc as [l|]; [|exact (onwards_rest rels)].
  pose proof (kept_some r l) as K. destruct (first_kept d nvc sep parent l) as [[h l']|]; rewrite K; [reflexivity|exact (onwards_rest rels)].
Qed.
Lemma gives_remaining l : forall i, remaining i = l -> gives d nvc sep parent (Some i) l.
Proof.
  induction l as [|[r h] l IH]; intros i E; pose proof (next_remaining i) as N; destruct (it_next d nvc sep parent i) as [[[r' h'] i']|] eqn:Q; rewrite E in N; try discriminate N.
  - now constructor.
  - injection N as -> -> N. econstructor; [exact Q|]. apply IH. now symmetry.
Qed.
Lemma gives_one i l1 l2 : gives d nvc sep parent i l1 -> gives d nvc sep parent i l2 -> l1 = l2.
Proof.
  intro G. revert l2. induction G as [|i E|i r h i' l E G IH]; intros l2 G2; inversion G2; subst; try reflexivity; try congruence.
  match goal with Q : it_next _ _ _ _ i = Some _ |- _ => rewrite E in Q; injection Q as <- <- <- end. f_equal. now apply IH.
Qed.
Lemma new_gives : gives d nvc sep parent (it_new d parent) (everything d nvc sep parent).
Proof.
  unfold it_new, everything. destruct (iterate_over (kind_of d (o_hdl parent))) as [rels|]; [|constructor].
  replace (match o_type parent with GGenArray => filter internal rels | _ => rels end) with (shown rels) by (unfold shown, is_gen; now destruct (o_type parent)).
  change (gives d nvc sep parent (first_rel d (is_gen parent) (o_hdl parent) rels) (rest rels)).
  induction rels as [|r rels IH]; [unfold rest, shown; destruct (is_gen parent); constructor|]. cbn [first_rel].
  assert (S : rest (r :: rels) = if is_gen parent && negb (internal r) then rest rels else some r (related d (o_hdl parent) r) ++ rest rels).
  { unfold rest, shown. destruct (is_gen parent); cbn [andb]; [|reflexivity]. cbn [filter]. now destruct (internal r). }
  rewrite S. destruct (is_gen parent && negb (internal r)); [exact IH|]. unfold related. destruct (scan d r (o_hdl parent)) as [l|]; [|exact IH].
  apply gives_remaining. reflexivity.
Qed.
End Discovery.
(** Discovery goes through every object of every relation of the parent, each once and in the order of the relations, and then ends. *)
Theorem C103_discovery {H} (d : design H) nvc sep parent l : gives d nvc sep parent (it_new d parent) l <-> l = everything d nvc sep parent.
Proof. split; [intro G; exact (gives_one _ _ _ _ _ _ _ G (new_gives d nvc sep parent))|intros ->; apply new_gives]. Qed.
Print Assumptions C103_discovery.

(** * Discovered and found are the same *)
Lemma tl_dot a b : tl (lit "." ++ a) ++ b = a ++ b.
Proof. reflexivity. Qed.
Lemma split_member path field : ~ In 46 field -> split_last (lit ".") (path ++ lit "." ++ field) = Some (path, lit "." ++ field).
Proof.
  intro N. unfold split_last. assert (L : last_at (lit ".") (lit "." ++ field) = Some (lit "." ++ field)).
  { change (lit "." ++ field) with (46 :: field). change (lit ".") with [46]. cbn [last_at]. rewrite (no_char 46 [] field N). reflexivity. }
  rewrite (last_after _ path _ _ L), app_length, Nat.add_sub, firstn_app, Nat.sub_diag, firstn_all. cbn [firstn]. now rewrite app_nil_r.
Qed.
(** Names which the canonical form of NVC does not change: all names with the other simulators. *)
Definition canonical (nvc : bool) (s : pystr) : Prop := nvc = true -> upper s = s.
Theorem C103_same {H} (d : design H) nvc ius questa sep parent h : separators sep -> named d h = true -> o_full parent <> lit ":" -> canonical nvc (o_full parent) ->
  (* a child which is no block of a generate loop *)
  (forall r, o_type parent <> GGenArray -> o_type parent <> GStructure -> kind_of d h <> CForGenerate -> canonical nvc (name_of d h) ->
     vhpi_name (vh d) (o_full parent ++ lit "." ++ name_of d h) = Some h ->
     forall o, fst (item d nvc ius questa sep parent r h) = Native o <-> exists rs, nm_child d nvc ius questa sep (name_of d h) parent = Some (Some o, rs)) /\
  (* a member of a record, found by its full name or in the list of the members *)
  (forall r path field l, o_type parent = GStructure -> kind_of d h <> CForGenerate -> canonical nvc field -> ~ In 46 field -> name_of d h = path ++ lit "." ++ field ->
     vhpi_name (vh d) (o_full parent ++ lit "." ++ field) = Some h \/
     (vhpi_name (vh d) (o_full parent ++ lit "." ++ field) = None /\ scan d RSelectedNames (o_hdl parent) = Some l /\ In h l /\
      forall h', In h' l -> h' = h \/ exists p f, name_of d h' = p ++ lit "." ++ f /\ ~ In 46 f /\ compare_names nvc f field = false) ->
     forall o, fst (item d nvc ius questa sep parent r h) = Native o <-> exists rs, nm_child d nvc ius questa sep field parent = Some (Some o, rs)) /\
  (* a block of a generate loop gives the pseudo-region, and never releases a handle *)
  (forall lbl i, o_type parent <> GGenArray -> o_type parent <> GStructure -> lbl <> [] -> canonical nvc lbl -> block_of d sep lbl i h -> other_region d nvc lbl (o_hdl parent) ->
     item d nvc ius questa sep parent RInternalRegions h = (Native (vregion nvc parent lbl), []) /\ destroyed (vregion nvc parent lbl) = []) /\
  (* the children of a pseudo-region *)
  (forall r lbl i, o_type parent = GGenArray -> o_name parent = lbl -> int32 i -> block_of d sep lbl i h -> vhpi_name (vh d) (o_full parent ++ fst sep ++ py_str_int i ++ snd sep) = Some h ->
     forall o, fst (item d nvc ius questa sep parent r h) = Native o <-> exists rs, nm_block d nvc ius questa sep i parent = (Some o, rs)).
Proof.
  intros S NM NC CF.
  assert (FN : forall name, canonical nvc name -> full_name nvc name parent = o_full parent ++ lit "." ++ name).
  { intros name CN. unfold full_name. assert (X : pystr_eqb (o_full parent) (lit ":") = false) by (destruct (pystr_eqb _ _) eqn:E; [apply pystr_eqb_eq in E; contradiction|reflexivity]). rewrite X.
    destruct nvc; [|reflexivity]. unfold upper. rewrite !map_app. fold (upper (o_full parent)) (upper name). rewrite (CF eq_refl), (CN eq_refl). reflexivity. }
  assert (X : pystr_eqb (o_full parent) (lit ":") = false) by (destruct (pystr_eqb _ _) eqn:E; [apply pystr_eqb_eq in E; contradiction|reflexivity]).
  assert (EQ : forall e name fq rl (o : obj H), fst (match nm_create d nvc ius questa e name fq with (Some o, rs) => (Native o, rs) | (None, rs) => (NotNative name, rs) end) = Native o <->
     exists rs, match nm_create d nvc ius questa e name fq with (Some o, r) => Some (Some o, rl ++ r) | (None, r) => Some (None, rl ++ r ++ [e]) end = Some (Some o, rs)).
  { intros e name fq rl o. destruct (nm_create d nvc ius questa e name fq) as [[x|] y]; cbn [fst]; split.
    - intro Q. injection Q as ->. now eexists.
    - intros [rs Q]. injection Q as -> _. reflexivity.
    - discriminate.
    - intros [rs Q]. discriminate Q. }
  split; [|split; [|split]].
  - intros r G T K CN V o. unfold item, nm_child, search. rewrite NM, (FN _ CN), V, X. cbn [negb].
    replace (is_for_generate (kind_of d h)) with false by (destruct (kind_of d h); try reflexivity; now elim K). rewrite andb_false_r.
    destruct (o_type parent); try apply (EQ h (name_of d h) (o_full parent ++ lit "." ++ name_of d h) []); [now elim G|now elim T].
  - intros r path field l T K CN DF E V o. unfold item, nm_child. rewrite NM, (FN _ CN), X, T. cbn [negb].
    assert (KF : is_for_generate (kind_of d h) = false) by (destruct (kind_of d h); try reflexivity; now elim K). rewrite KF, andb_false_r.
    assert (SE : search d nvc sep field parent = Got h).
    { unfold search. rewrite (FN _ CN), T. cbn [gtype_eqb]. destruct V as [->|(-> & -> & I & U)]; [reflexivity|].
      match goal with |- match find ?g l with _ => _ end = _ => assert (F : forall h', In h' l -> g h' = true <-> h' = h) end.
      { intros h' I'. destruct (U h' I') as [-> |(p & f & E' & DF' & CM)].
        - rewrite E, (split_member path field DF). cbn [tl lit]. split; [reflexivity|intros _]. apply compare_refl.
        - split; intro Q.
          + rewrite E', (split_member p f DF') in Q. change (tl (lit "." ++ f)) with f in Q. rewrite CM in Q. discriminate Q.
          + subst h'. exfalso. pose proof (split_member p f DF') as S1. rewrite <- E', E, (split_member path field DF) in S1. injection S1 as _ S1. subst f.
            rewrite compare_refl in CM. discriminate CM. }
      match goal with |- match find ?g l with _ => _ end = _ => destruct (find g l) as [x|] eqn:FD end.
      - apply find_some in FD. destruct FD as [I' G]. apply (F x I') in G. now subst.
      - exfalso. pose proof (find_none _ _ FD h I) as Q. cbv beta in Q. pose proof (proj2 (F h I) eq_refl) as Q2. cbv beta in Q2. pose proof (eq_trans (eq_sym Q) Q2) as Q3. discriminate Q3. }
    rewrite SE, KF, E, (split_member path field DF). change (tl (lit "." ++ field)) with field. apply (EQ h field _ []).
  - intros lbl i G T NE CN [K N] O. split; [|reflexivity]. unfold item. rewrite NM, K, N, (split_block sep lbl i S), X. cbn [negb internal andb is_for_generate].
    replace (is_gen parent) with false by (unfold is_gen; destruct (o_type parent); try reflexivity; now elim G). cbn [negb andb].
    destruct lbl as [|c lbl]; [now elim NE|]. unfold vregion. rewrite (FN _ CN).
    destruct (o_type parent); try (now rewrite (create_region d nvc ius questa _ (c :: lbl) _ O)). now elim G.
  - intros r lbl i G LN I [K N] V o. unfold item, nm_block. rewrite NM, X, G, K. cbn [negb]. unfold is_gen. rewrite G. cbn [gtype_eqb negb]. rewrite andb_false_r. cbn [andb].
    rewrite N, (split_block sep lbl i S). replace (fst sep ++ firstn 13 (py_str_int i) ++ snd sep) with (fst sep ++ py_str_int i ++ snd sep) by (rewrite (firstn_all2 (n := 13)); [reflexivity|pose proof (str_length i I); lia]).
    rewrite V, LN. fold (block_name sep lbl i). destruct (nm_create _ _ _ _ _ _ _) as [[x|] y]; cbn [fst]; split.
    + intro Q. injection Q as ->. now eexists.
    + intros [rs Q]. injection Q as -> _. reflexivity.
    + discriminate.
    + intros [rs Q]. discriminate Q.
Qed.
Print Assumptions C103_same.

(** * The top of the design *)
(** What is found has the name which was asked for, and is the root of the design or what the simulator has under this name. *)
Theorem C103_root {H} (d : design H) nvc ius questa name o : nm_root d nvc ius questa name = Some o ->
  (forall x, name = Some x -> compare_names nvc x (o_name o) = true) /\ o_full o = o_name o /\
  ((exists r, root d = Some r /\ o_name o = name_of d r /\ fst (nm_create d nvc ius questa r (name_of d r) (name_of d r)) = Some o) \/
   (exists r, root d = Some r /\ entity d r = Some (o_name o) /\ fst (nm_create d nvc ius questa r (o_name o) (o_name o)) = Some o) \/
   (exists x h, name = Some x /\ vhpi_name (vh d) (if pystr_eqb (firstn 1 x) (lit ":") then x else lit ":" ++ x) = Some h /\ o_name o = name_of d h)).
Proof.
  assert (NC : forall h nm, fst (nm_create d nvc ius questa h nm nm) = Some o -> o_name o = nm /\ o_full o = nm).
  { intros h nm E. destruct (nm_create d nvc ius questa h nm nm) as [[x|] y] eqn:C; [|discriminate E]. injection E as ->. exact (nm_create_names _ _ _ _ _ _ _ _ _ C). }
  unfold nm_root. destruct (root d) as [r|]; [|discriminate]. intro E.
  destruct (match name with Some x => compare_names nvc x (name_of d r) | None => true end) eqn:W1.
  - destruct (NC _ _ E) as [N F]. rewrite N, F. split; [intros x ->; exact W1|]. split; [reflexivity|]. left. exists r. rewrite <- E. auto.
  - assert (BP : match name with None => None | Some x => match vhpi_name (vh d) (if pystr_eqb (firstn 1 x) (lit ":") then x else lit ":" ++ x) with
        | Some h => if compare_names nvc x (name_of d h) then fst (nm_create d nvc ius questa h (name_of d h) (name_of d h)) else None | None => None end end = Some o ->
        (forall x, name = Some x -> compare_names nvc x (o_name o) = true) /\ o_full o = o_name o /\
        exists x h, name = Some x /\ vhpi_name (vh d) (if pystr_eqb (firstn 1 x) (lit ":") then x else lit ":" ++ x) = Some h /\ o_name o = name_of d h).
    { intro B. destruct name as [x|]; [|discriminate B]. destruct (vhpi_name _ _) as [h|] eqn:V; [|discriminate B]. destruct (compare_names nvc x (name_of d h)) eqn:C; [|discriminate B].
      destruct (NC _ _ B) as [N F]. rewrite N, F. split; [intros y Y; injection Y as <-; exact C|]. split; [reflexivity|]. exists x, h. auto. }
    destruct (entity d r) as [e|] eqn:EN.
    + destruct (match name with Some x => compare_names nvc x e | None => true end) eqn:W2.
      * destruct (NC _ _ E) as [N F]. rewrite N, F. split; [intros x ->; exact W2|]. split; [reflexivity|]. right. left. exists r. auto.
      * destruct (BP E) as (A & B & C). auto.
    + destruct (BP E) as (A & B & C). auto.
Qed.
Print Assumptions C103_root.
(** Without a name, with the name of the root or with that of its entity the root is found, as a module. *)
Theorem C103_root_found {H} (d : design H) nvc ius questa name r : root d = Some r -> kind_of d r = CRoot ->
  match name with None => True | Some x => compare_names nvc x (name_of d r) = true \/ exists e, entity d r = Some e /\ compare_names nvc x e = true end ->
  exists o, nm_root d nvc ius questa name = Some o /\ o_hdl o = r /\ o_type o = GModule.
Proof.
  intros R K N. unfold nm_root. rewrite R.
  assert (C1 : fst (nm_create d nvc ius questa r (name_of d r) (name_of d r)) = Some (set_names (fresh r GModule) (name_of d r) (name_of d r))).
  { unfold nm_create. rewrite K. cbn [is_region]. rewrite !compare_refl. reflexivity. }
  assert (C2 : forall e, entity d r = Some e -> fst (nm_create d nvc ius questa r e e) = Some (set_names (fresh r GModule) e e)).
  { intros e E. unfold nm_create. rewrite K, E. cbn [is_region]. destruct (compare_names nvc (name_of d r) e) eqn:Q; [|now rewrite compare_refl].
    replace (compare_names nvc e (name_of d r)) with true; [reflexivity|]. symmetry. unfold compare_names in *. destruct nvc; apply pystr_eqb_eq in Q; rewrite Q; now apply pystr_eqb_eq. }
  destruct name as [x|]; [|rewrite C1; eexists; split; [reflexivity|split; reflexivity]].
  destruct (compare_names nvc x (name_of d r)) eqn:W; [rewrite C1; eexists; split; [reflexivity|split; reflexivity]|].
  destruct N as [N|(e & E & N)]; [discriminate N|]. rewrite E, N, (C2 e E). eexists. split; [reflexivity|split; reflexivity].
Qed.
Print Assumptions C103_root_found.

(** * A design for the examples *)
(** Objects are numbered; their full name, name, kind, what it is otherwise, the relations. *)
Record ent := Ent { t_full : pystr; t_name : pystr; t_cls : cls; t_kind : kind; t_rels : list (rel * list nat) }.
Definition rel_code (r : rel) : nat := match r with RInternalRegions => 0 | RSigDecls => 1 | RSelectedNames => 2 | RDecls => 3 | _ => 9 end.
Definition nothing : ent := Ent [] [] COther KNone [].
Fixpoint find_ent (full : pystr) (n : nat) (l : list ent) : option nat :=
  match l with [] => None | e :: l' => if pystr_eqb full (t_full e) then Some n else find_ent full (Datatypes.S n) l' end.
Definition made (l : list ent) : design nat :=
  Design nat
    (Vhpi nat (fun h => t_kind (nth h l nothing)) (fun _ => None) (fun _ => []) (fun _ => []) (fun h => t_name (nth h l nothing)) (fun _ _ => None) (fun _ => [])
       (fun s => find_ent s 0 l) (fun _ => 1) (fun _ => Some 1))
    (fun h => t_cls (nth h l nothing)) (fun _ => None)
    (fun r h => match find (fun p => Nat.eqb (rel_code (fst p)) (rel_code r)) (t_rels (nth h l nothing)) with Some (_, x) => Some x | None => None end)
    (Some 0%nat) (fun _ => true) (fun _ => false).
Definition paren : pystr * pystr := (lit "(", lit ")").
Definition ex_top : design nat := made
  [Ent (lit "top") (lit "top") CRoot KNone [(RInternalRegions, [1; 2; 6]); (RSigDecls, [3; 4])]%nat;
   Ent (lit "top.g(0)") (lit "g(0)") CForGenerate KNone [(RInternalRegions, [7])]%nat; Ent (lit "top.g(1)") (lit "g(1)") CForGenerate KNone [];
   Ent (lit "top.s") (lit "s") CSigDecl (KLogic false) []; Ent (lit "top.p") (lit "p") CSigDecl (KScope GStructure) [(RSelectedNames, [5])]%nat;
   Ent (lit "(top.p.x)") (lit "top.p.x") CSelectedName (KLogic false) []; Ent (lit "top.proc") (lit "proc") CProcess KNone [];
   Ent (lit "top.g(0).h(0)") (lit "h(0)") CForGenerate KNone []].
Definition ex_obj : obj nat := Obj 0%nat GModule (lit "top") (lit "top") 0 false (-1) (-1) None.
Definition ex_rec : obj nat := Obj 4%nat GStructure (lit "p") (lit "top.p") 0 false (-1) (-1) None.
Definition get_by {H} (d : design H) (name : string) (o : obj H) := nm_child d false false false paren (lit name) o.
Example C103_names_ex : exists o, get_by ex_top "s" ex_obj = Some (Some o, []) /\ o_name o = lit "s" /\ o_full o = lit "top.s" /\ o_type o = GLogic.
Proof. eexists. repeat split; reflexivity. Qed.
Example C103_generate_ex : separators paren /\ bare paren (lit "g") /\ other_region ex_top false (lit "g") 0%nat /\ block_of ex_top paren (lit "g") 1 2%nat /\
  get_by ex_top "g" ex_obj = Some (Some (vregion false ex_obj (lit "g")), []).
Proof.
  split; [now left|]. split; [intros [|c [|? a]] b E; [|injection E as <- E; discriminate E|]; discriminate E|]. split; [split; [reflexivity|split; [reflexivity|discriminate]]|].
  split; [now split|reflexivity].
Qed.
Example C103_absent_ex : vhpi_name (vh ex_top) (lit "top.q") = None /\ get_by ex_top "q" ex_obj = Some (None, []).
Proof. split; reflexivity. Qed.
Example C103_released_ex : is_region (kind_of ex_top 0%nat) = true /\ kind_of ex_top 0%nat <> CForGenerate /\ (forall l, scan ex_top RSelectedNames 0%nat = Some l -> ~ In 0%nat l) /\
  vhpi_name (vh ex_top) (lit "top.g") <> Some 0%nat.
Proof. split; [reflexivity|]. split; [discriminate|]. split; [discriminate|discriminate]. Qed.
Example C103_discovery_ex : everything ex_top false paren ex_obj = [(RInternalRegions, 1); (RInternalRegions, 2); (RSigDecls, 3); (RSigDecls, 4)]%nat /\
  everything ex_top false paren (vregion false ex_obj (lit "g")) = [(RInternalRegions, 1); (RInternalRegions, 2)]%nat /\
  everything ex_top false paren (vregion false ex_obj (lit "k")) = [].
Proof. repeat split; reflexivity. Qed.
Example C103_same_ex :
  item ex_top false false false paren ex_obj RSigDecls 3%nat = (Native (Obj 3%nat GLogic (lit "s") (lit "top.s") 1 false (-1) (-1) None), []) /\
  item ex_top false false false paren ex_rec RSelectedNames 5%nat = (Native (Obj 5%nat GLogic (lit "x") (lit "top.p.x") 1 false (-1) (-1) None), []) /\
  get_by ex_top "x" ex_rec = Some (Some (Obj 5%nat GLogic (lit "x") (lit "top.p.x") 1 false (-1) (-1) None), []) /\
  item ex_top false false false paren ex_obj RInternalRegions 2%nat = (Native (vregion false ex_obj (lit "g")), []) /\
  item ex_top false false false paren (vregion false ex_obj (lit "g")) RInternalRegions 2%nat = (Native (Obj 2%nat GModule (lit "g(1)") (lit "top.g(1)") 0 false (-1) (-1) None), []) /\
  fst (nm_block ex_top false false false paren 1 (vregion false ex_obj (lit "g"))) = Some (Obj 2%nat GModule (lit "g(1)") (lit "top.g(1)") 0 false (-1) (-1) None) /\
  name_of ex_top 5%nat = lit "top.p" ++ lit "." ++ lit "x" /\ scan ex_top RSelectedNames 4%nat = Some [5%nat] /\ vhpi_name (vh ex_top) (lit "top.p.x") = None.
Proof. repeat split; reflexivity. Qed.
Example C103_root_ex : nm_root ex_top false false false (Some (lit "top")) = Some ex_obj /\ nm_root ex_top false false false None = Some ex_obj /\
  nm_root ex_top true false false (Some (lit "Top")) = Some ex_obj /\ nm_root ex_top false false false (Some (lit "Top")) = None.
Proof. repeat split; reflexivity. Qed.

(** * What does not hold *)
(** A generate loop inside a block of another one: looking for it releases the handle of the block, which is still in use. *)
Theorem C103_nested_refuted : exists blk o r, fst (nm_block ex_top false false false paren 0 (vregion false ex_obj (lit "g"))) = Some blk /\ o_type blk = GModule /\
  get_by ex_top "h" blk = Some (Some o, r) /\ o_hdl o = o_hdl blk /\ In (o_hdl blk) r.
Proof. do 3 eexists. split; [reflexivity|]. split; [reflexivity|]. split; [reflexivity|]. split; [reflexivity|now left]. Qed.
Print Assumptions C103_nested_refuted.
(** A block looked for by its own name is not found: the name gives a pseudo-region, which is called like the block and contains all blocks of the loop. *)
Theorem C103_block_refuted : exists o r, vhpi_name (vh ex_top) (lit "top.g(1)") = Some 2%nat /\ get_by ex_top "g(1)" ex_obj = Some (Some o, r) /\ o_hdl o <> 2%nat /\ o_type o = GGenArray /\
  everything ex_top false paren o = [(RInternalRegions, 1); (RInternalRegions, 2)]%nat.
Proof. do 2 eexists. split; [reflexivity|]. split; [reflexivity|]. split; [discriminate|]. split; reflexivity. Qed.
Print Assumptions C103_block_refuted.
(** A member which a record does not have: NULL is given to the functions of the VHPI. *)
Theorem C103_member_refuted : exists name, get_by ex_top name ex_rec = None.
Proof. exists "y"%string. reflexivity. Qed.
Print Assumptions C103_member_refuted.
(** The name of the top with a leading colon, for which there is a case, finds nothing: it is compared with the name without it. *)
Theorem C103_colon_refuted : exists d, vhpi_name (vh d) (lit ":top") = Some 0%nat /\ name_of d 0%nat = lit "top" /\ nm_root d false false false (Some (lit ":top")) = None.
Proof. exists (made [Ent (lit ":top") (lit "top") CRoot KNone []]). repeat split; reflexivity. Qed.
Print Assumptions C103_colon_refuted.
(** With NVC, extended identifiers: what is discovered as [\foo\] cannot be found by this name; the name finds another object. *)
Theorem C103_extended_refuted : exists d o o', In (RSigDecls, 1%nat) (everything d true paren (Obj 0%nat GModule (lit "TOP") (lit "TOP") 0 false (-1) (-1) None)) /\
  item d true false false paren (Obj 0%nat GModule (lit "TOP") (lit "TOP") 0 false (-1) (-1) None) RSigDecls 1%nat = (Native o, []) /\ o_name o = lit "\foo\" /\
  nm_child d true false false paren (lit "\foo\") (Obj 0%nat GModule (lit "TOP") (lit "TOP") 0 false (-1) (-1) None) = Some (Some o', []) /\ o_hdl o' <> o_hdl o.
Proof.
  exists (made [Ent (lit "TOP") (lit "TOP") CRoot KNone [(RSigDecls, [1; 2])]%nat; Ent (lit "TOP.\foo\") (lit "\foo\") CSigDecl (KLogic false) [];
                Ent (lit "TOP.\FOO\") (lit "\FOO\") CSigDecl (KLogic false) []]).
  do 2 eexists. split; [now left|]. split; [reflexivity|]. split; [reflexivity|]. split; [reflexivity|discriminate].
Qed.
Print Assumptions C103_extended_refuted.

(** C105: discovery through the VPI. *)
From Coq Require Import String Lia.
From Verif Require Import Base TextModel VpiNameModel VpiNameProps VpiIterModel.
From Verif Require GpiStoreModel GpiStoreProps.
Open Scope Z_scope.

Lemma among_in t l : among t l = true <-> In t l.
Proof.
  unfold among. rewrite existsb_exists. split.
  - intros (x & I & E). apply Z.eqb_eq in E. now subst.
  - intro I. exists t. split; [exact I|apply Z.eqb_refl].
Qed.

(** * Types *)
(** Nets, variables and registers of bits, words of memories and packed arrays are logic: an array of it if the simulator says so or if they have more
    than one bit, otherwise a scalar. *)
Theorem C105_logic t num vec packed c : In t [36; 37; 48; 49; 30; 620; 623; 693] ->
  vtype_of t num vec packed c = VSignal (if vec then GLogicArray else if 1 <? num then GLogicArray else GLogic) false.
Proof. intro I. repeat (destruct I as [<-|I]; [now destruct vec|]). destruct I. Qed.
Print Assumptions C105_logic.
Example C105_logic_ex : vtype_of vpiReg 1 false false 0 = VSignal GLogic false /\ vtype_of vpiReg 8 false false 0 = VSignal GLogicArray false /\
  vtype_of vpiReg 1 true false 0 = VSignal GLogicArray false.
Proof. repeat split. Qed.
(** The other types: what is neither a signal, a constant, an array, a structure nor a scope gives no object, and the same type number gives the same kind
    of object, whatever the simulator says about size, direction or packing. *)
Theorem C105_kinds t num vec packed c : match vtype_of t num vec packed c with
  | VSignal g int => In t [36; 37; 620; 48; 49; 680; 617; 612; 530; 25; 681; 614; 528; 611; 529; 610; 531; 623; 693; 47; 527; 616; 30; 533] /\
      (g = GString <-> t = 616) /\ (int = true <-> In t [612; 25; 681; 527])
  | VConst g => In t [41; 7] /\ (g = GString <-> c = 6) /\ (g = GOther <-> c = 2) /\ (g = GLogicArray <-> c <> 2 /\ c <> 6)
  | VArray g => In t [116; 114; 603; 29; 534] /\ (g = GArray <-> t <> 534)
  | VStruct p => In t [618; 683; 619; 525] /\ p = packed
  | VModule => t = 32
  | VGenScope => t = 134
  | VGenScopeArray => t = 133
  | VScope => In t [601; 44; 21; 55; 46]
  | VNone => ~ In t [36; 37; 620; 48; 49; 680; 617; 612; 530; 25; 681; 614; 528; 611; 529; 610; 531; 623; 693; 47; 527; 616; 30; 533; 41; 7; 116; 114; 603; 29; 534;
                     618; 683; 619; 525; 32; 134; 133; 601; 44; 21; 55; 46]
  end.
Proof.
  unfold vtype_of.
  destruct (among t [vpiNet; _; _; _; _; _; _; _; _; _; _; _; _; _; _; _; _; _; _; _; _; _; _; _]) eqn:A1.
  { apply among_in in A1. split; [exact A1|].
    repeat (destruct A1 as [<-|A1]; [split; split; intro E;
      first [reflexivity | discriminate E | (cbv -[Z.ltb] in E; discriminate E) | (cbv -[Z.ltb] in E; destruct vec, (1 <? num); discriminate E) | (cbn; tauto)
            | (exfalso; cbn in E; repeat (destruct E as [E|E]; [discriminate E|]); exact E)]|]). destruct A1. }
  destruct (among t [vpiParameter; vpiConstant]) eqn:A2.
  { apply among_in in A2. split; [exact A2|]. unfold const_gpi. destruct (Z.eqb_spec c 2) as [->|]; [repeat split; try easy; intros [E _]; now elim E|].
    destruct (Z.eqb_spec c 6) as [->|]; repeat split; try easy. }
  destruct (among t [vpiRegArray; _; _; _; _]) eqn:A3.
  { apply among_in in A3. split; [exact A3|]. repeat (destruct A3 as [<-|A3]; [split; easy|]). destruct A3. }
  destruct (among t [vpiStructVar; _; _; _]) eqn:A4.
  { apply among_in in A4. now split. }
  destruct (Z.eqb_spec t vpiModule) as [->|N5]; [reflexivity|].
  destruct (Z.eqb_spec t vpiGenScope) as [->|N6]; [reflexivity|].
  destruct (Z.eqb_spec t vpiGenScopeArray) as [->|N7]; [reflexivity|].
  destruct (among t [vpiInterface; _; _; _; _]) eqn:A8; [now apply among_in in A8|].
  intro I.
  assert (F : forall l, among t l = false -> ~ In t l) by (intros l E J; apply among_in in J; now rewrite J in E).
  apply F in A1, A2, A3, A4, A8. cbn in I, A1, A2, A3, A4, A8. unfold vpiModule, vpiGenScope, vpiGenScopeArray in *.
  repeat (destruct I as [I|I]; [subst t; tauto|]). exact I.
Qed.
Print Assumptions C105_kinds.
Example C105_kinds_ex : vtype_of 616 0 false false 0 = VSignal GString false /\ vtype_of 41 0 false false 6 = VConst GString /\ vtype_of 26 0 false false 0 = VNone.
Proof. repeat split. Qed.

(** * Relations *)
(** No relation is asked twice; interfaces are asked for nothing which modules are not asked for; modules and generate blocks, and only they, are asked for
    their inner scopes; instances of modules and interfaces are never asked for directly. *)
Theorem C105_relations ius t rels : iterate_over ius t = Some rels ->
  NoDup rels /\ (In 92 rels <-> t = 32 \/ t = 134) /\ ~ In 32 rels /\ ~ In 112 rels /\ ~ In 601 rels /\ ~ In 603 rels /\
  (forall r, In r [36; 114; 48; 116] -> t = 32 \/ t = 134 \/ t = 601 -> In r rels) /\
  (t = 601 -> forall r, In r rels -> In r [36; 114; 48; 116]) /\ (t = 600 -> rels = [41]).
Proof.
  assert (D : forall l : list Z, (fix nd l := match l with [] => true | x :: r => negb (existsb (Z.eqb x) r) && nd r end) l = true -> NoDup l).
  { induction l as [|x l IH]; [constructor|]. intro E. apply andb_prop in E. destruct E as [E1 E2]. constructor; [|now apply IH].
    intro I. apply negb_true_iff in E1. assert (X : existsb (Z.eqb x) l = true) by (apply existsb_exists; exists x; split; [exact I|apply Z.eqb_refl]). now rewrite X in E1. }
  assert (M : forall x l, existsb (Z.eqb x) l = false -> ~ In x l).
  { intros x l E I. assert (X : existsb (Z.eqb x) l = true) by (apply existsb_exists; exists x; split; [exact I|apply Z.eqb_refl]). now rewrite X in E. }
  unfold iterate_over. intro E.
  destruct (among t [vpiModule; vpiGenScope]) eqn:A1.
  { injection E as <-. apply among_in in A1. destruct A1 as [<-|[<-|[]]].
    all: split; [now apply D|split; [split; [cbn; auto|intros _; cbn; tauto]|]]; repeat (split; [now apply M|]); split; [intros r I _; cbn in I |- *; tauto|split; [discriminate|discriminate]]. }
  assert (NM : t <> 32 /\ t <> 134) by (split; intros ->; discriminate A1).
  destruct (Z.eqb_spec t vpiInterface) as [->|NI].
  { injection E as <-. split; [now apply D|]. split; [split; [intro I; exfalso; revert I; now apply M|intros [C|C]; discriminate C]|].
    repeat (split; [now apply M|]). split; [intros r I _; exact I|]. split; [intros _ r I; exact I|discriminate]. }
  assert (Z : forall l, l = rels -> (fix nd l := match l with [] => true | x :: r => negb (existsb (Z.eqb x) r) && nd r end) l = true ->
    existsb (Z.eqb 92) l = false -> existsb (Z.eqb 32) l = false -> existsb (Z.eqb 112) l = false -> existsb (Z.eqb 601) l = false -> existsb (Z.eqb 603) l = false ->
    (t = 600 -> l = [41]) ->
    NoDup rels /\ (In 92 rels <-> t = 32 \/ t = 134) /\ ~ In 32 rels /\ ~ In 112 rels /\ ~ In 601 rels /\ ~ In 603 rels /\
    (forall r, In r [36; 114; 48; 116] -> t = 32 \/ t = 134 \/ t = 601 -> In r rels) /\
    (t = 601 -> forall r, In r rels -> In r [36; 114; 48; 116]) /\ (t = 600 -> rels = [41])).
  { intros l <- E1 E2 E3 E4 E5 E6 E7. split; [now apply D|]. split; [split; [intro I; exfalso; revert I; now apply M|tauto]|]. repeat (split; [now apply M|]).
    split; [intros r _ [C|[C|C]]; [now elim (proj1 NM)|now elim (proj2 NM)|now elim NI]|]. split; [intro C; now elim NI|exact E7]. }
  destruct (among t [vpiStructVar; vpiStructNet]) eqn:A2; [injection E as E; apply (Z _ E); try reflexivity; destruct ius; try reflexivity; intros ->; discriminate A2|].
  destruct (Z.eqb_spec t vpiNet) as [->|]; [injection E as E; apply (Z _ E); try reflexivity; discriminate|].
  destruct (Z.eqb_spec t vpiNetArray) as [->|]; [injection E as E; apply (Z _ E); try reflexivity; discriminate|].
  destruct (Z.eqb_spec t vpiRegArray) as [->|]; [injection E as E; apply (Z _ E); try reflexivity; discriminate|].
  destruct (Z.eqb_spec t vpiMemory) as [->|]; [injection E as E; apply (Z _ E); try reflexivity; discriminate|].
  destruct (Z.eqb_spec t vpiPackage) as [->|]; [injection E as E; apply (Z _ E); reflexivity|discriminate E].
Qed.
Print Assumptions C105_relations.
Example C105_relations_ex : exists rels, iterate_over false 134 = Some rels /\ In 92 rels /\ In 116 rels /\ iterate_over false 112 = None.
Proof. eexists. split; [reflexivity|]. split; [cbn; tauto|]. split; [cbn; tauto|reflexivity]. Qed.

(** * Discovery *)
(** What is discovered in [parent]: in a pseudo-region the blocks of its loop only. *)
Definition passes {H} (s : sim H) (parent : obj H) (h : H) : bool :=
  match o_type parent with
  | GGenArray => (if rtype s h =? 134 then true else rtype s h =? 32) &&
                 pystr_eqb (label (match rname s h with Some n => n | None => [] end)) (label (o_name parent))
  | _ => true
  end.
Definition related {H} (s : sim H) (h : H) (r : Z) : list H := match iterate s r (Some h) with Some l => l | None => [] end.
Definition everything {H} (s : sim H) (ius : bool) (parent : obj H) : list (Z * H) :=
  let h := o_hdl parent in
  flat_map (fun r => map (pair r) (filter (passes s parent) (related s h r)))
    (match iterate_over ius (rtype s h) with
     | Some rels => match o_type parent with GGenArray => filter (Z.eqb 92) rels | _ => rels end
     | None => []
     end).
(** The handles which [next_handle] goes through until END. *)
Inductive gives {H} (s : sim H) (parent : obj H) : option (iter (H := H)) -> list (Z * H) -> Prop :=
| gives_none : gives s parent None []
| gives_end i : it_next s parent i = None -> gives s parent (Some i) []
| gives_next i r h i' l : it_next s parent i = Some (r, h, i') -> gives s parent (Some i') l -> gives s parent (Some i) ((r, h) :: l).

Lemma see_gen {H} (s : sim H) h : htype (see s) h = VGenScope <-> rtype s h = 134.
Proof.
  cbn [see htype]. pose proof (C105_kinds (rtype s h) (rsize s h) (rvector s h) (rpacked s h) (rconst s h)) as K. split.
  - intro E. now rewrite E in K.
  - intro E. rewrite E. reflexivity.
Qed.
Lemma see_mod {H} (s : sim H) h : htype (see s) h = VModule <-> rtype s h = 32.
Proof.
  cbn [see htype]. pose proof (C105_kinds (rtype s h) (rsize s h) (rvector s h) (rpacked s h) (rconst s h)) as K. split.
  - intro E. now rewrite E in K.
  - intro E. rewrite E. reflexivity.
Qed.
Section Discovery.
Context {H : Type} (s : sim H) (ius : bool) (parent : obj H).
Lemma through_passes h : let_through (see s) h parent = passes s parent h.
Proof.
  unfold let_through, passes. destruct (o_type parent) eqn:P; cbn [gtype_eqb]; try reflexivity.
  destruct (Z.eqb_spec (rtype s h) 134) as [E|E]; [apply see_gen in E; rewrite E; reflexivity|].
  destruct (Z.eqb_spec (rtype s h) 32) as [E2|E2]; [apply see_mod in E2; rewrite E2; reflexivity|].
  destruct (htype (see s) h) eqn:T; try reflexivity; [apply see_gen in T|apply see_mod in T]; contradiction.
Qed.
Let some (r : Z) (l : list H) := map (pair r) (filter (passes s parent) l).
Let shown (rels : list Z) := if is_gen parent then filter (Z.eqb 92) rels else rels.
Let rest (rels : list Z) := flat_map (fun r => some r (related s (o_hdl parent) r)) (shown rels).
Let remaining (i : iter (H := H)) := match i_rels i with [] => [] | r :: rels => some r (i_scan i) ++ rest rels end.
Lemma kept_some r l : match first_kept s parent l with Some (h, l') => some r l = (r, h) :: some r l' | None => some r l = [] end.
Proof.
  induction l as [|h l IH]; [reflexivity|]. cbn [first_kept]. unfold some in *. cbn [filter]. rewrite through_passes. destruct (passes s parent h); [reflexivity|exact IH].
Qed.
Lemma rest_cons r rels : rest (r :: rels) = if is_gen parent && negb (r =? vpiInternalScope) then rest rels else some r (related s (o_hdl parent) r) ++ rest rels.
Proof.
  unfold rest, shown. destruct (is_gen parent); cbn [andb]; [|reflexivity]. cbn [filter]. unfold vpiInternalScope. rewrite (Z.eqb_sym 92 r). now destruct (r =? 92).
Qed.
Lemma onwards_rest rels : match onwards s parent rels with Some (r, h, i) => rest rels = (r, h) :: remaining i | None => rest rels = [] end.
Proof.
  induction rels as [|r rels IH]; [unfold rest, shown; now destruct (is_gen parent)|]. cbn [onwards]. rewrite rest_cons.
  destruct (is_gen parent && negb (r =? vpiInternalScope)); [exact IH|]. unfold related. destruct (iterate s r (Some (o_hdl parent))) as [l|]; [|exact IH].
  pose proof (kept_some r l) as K. destruct (first_kept s parent l) as [[h l']|]; rewrite K; [reflexivity|exact IH].
Qed.
Lemma next_remaining i : match it_next s parent i with Some (r, h, i') => remaining i = (r, h) :: remaining i' | None => remaining i = [] end.
Proof.
  unfold it_next, remaining. destruct i as [rels sc]. cbn [i_rels i_scan]. destruct rels as [|r rels]; [reflexivity|].
  pose proof (kept_some r sc) as K. destruct (first_kept s parent sc) as [[h l']|]; rewrite K; [reflexivity|exact (onwards_rest rels)].
Qed.
Lemma gives_remaining l : forall i, remaining i = l -> gives s parent (Some i) l.
Proof.
  induction l as [|[r h] l IH]; intros i E; pose proof (next_remaining i) as N; destruct (it_next s parent i) as [[[r' h'] i']|] eqn:Q; rewrite E in N; try discriminate N.
  - now constructor.
  - injection N as -> -> N. econstructor; [exact Q|]. apply IH. now symmetry.
Qed.
Lemma gives_one i l1 l2 : gives s parent i l1 -> gives s parent i l2 -> l1 = l2.
Proof.
  intro G. revert l2. induction G as [|i E|i r h i' l E G IH]; intros l2 G2; inversion G2; subst; try reflexivity.
  - match goal with Q : it_next _ _ i = Some _ |- _ => rewrite E in Q; discriminate Q end.
  - match goal with Q : it_next _ _ i = None |- _ => rewrite E in Q; discriminate Q end.
  - match goal with Q : it_next _ _ i = Some _ |- _ => rewrite E in Q; injection Q as <- <- <- end. f_equal. now apply IH.
Qed.
Lemma first_gives rels asked i : first_rel s (is_gen parent) asked (o_hdl parent) rels = Fine i -> gives s parent i (rest rels).
Proof.
  revert asked. induction rels as [|r rels IH]; intros asked.
  - cbn [first_rel]. destruct asked; [|discriminate]. intro E. injection E as <-. unfold rest, shown. destruct (is_gen parent); constructor.
  - cbn [first_rel]. rewrite rest_cons. destruct (is_gen parent && negb (r =? vpiInternalScope)); [apply IH|]. unfold related.
    destruct (iterate s r (Some (o_hdl parent))) as [l|]; [|apply IH]. intro E. injection E as <-. apply gives_remaining. reflexivity.
Qed.
Lemma first_unset rels asked : first_rel s (is_gen parent) asked (o_hdl parent) rels = Unset <-> asked = false /\ shown rels = [].
Proof.
  revert asked. induction rels as [|r rels IH]; intro asked.
  - cbn [first_rel]. unfold shown. destruct asked, (is_gen parent); split; try discriminate; try (intros [E _]; discriminate E); now split.
  - cbn [first_rel]. unfold shown in *. destruct (is_gen parent) eqn:G; cbn [andb]; cbn [filter]; unfold vpiInternalScope in *.
    + rewrite (Z.eqb_sym 92 r). destruct (Z.eqb_spec r 92) as [->|]; cbn [negb]; [|apply IH].
      destruct (iterate s 92 (Some (o_hdl parent))); [split; [discriminate|intros [_ E]; discriminate E]|]. rewrite IH. split; intros [E1 E2]; discriminate.
    + destruct (iterate s r (Some (o_hdl parent))); [split; [discriminate|intros [_ E]; discriminate E]|]. rewrite IH. split; intros [E1 E2]; discriminate.
Qed.
Lemma new_gives i : it_new s ius parent = Fine i -> gives s parent i (everything s ius parent).
Proof.
  unfold it_new, everything. destruct (iterate_over ius (rtype s (o_hdl parent))) as [rels|]; [|intro E; injection E as <-; constructor].
  replace (match o_type parent with GGenArray => filter (Z.eqb 92) rels | _ => rels end) with (shown rels) by (unfold shown, is_gen; now destruct (o_type parent)).
  apply first_gives.
Qed.
End Discovery.
(** Discovery goes through every object of every relation of the parent, each once and in the order of the relations, and then ends. *)
Theorem C105_discovery {H} (s : sim H) ius parent i l : it_new s ius parent = Fine i -> (gives s parent i l <-> l = everything s ius parent).
Proof. intro N. pose proof (new_gives s ius parent i N) as G. split; [intro G2; exact (gives_one s parent i _ _ G2 G)|intros ->; exact G]. Qed.
Print Assumptions C105_discovery.
(** The iterator is made with a variable which was never set exactly for pseudo-regions of something which is asked for its children but not for inner
    scopes; not for what is no pseudo-region, and not in modules and generate blocks. *)
Theorem C105_set {H} (s : sim H) ius parent :
  (it_new s ius parent = Unset <-> o_type parent = GGenArray /\ exists rels, iterate_over ius (rtype s (o_hdl parent)) = Some rels /\ ~ In 92 rels) /\
  (rtype s (o_hdl parent) = 32 \/ rtype s (o_hdl parent) = 134 -> exists i, it_new s ius parent = Fine i).
Proof.
  assert (A : it_new s ius parent = Unset <-> o_type parent = GGenArray /\ exists rels, iterate_over ius (rtype s (o_hdl parent)) = Some rels /\ ~ In 92 rels).
  { unfold it_new. destruct (iterate_over ius (rtype s (o_hdl parent))) as [rels|] eqn:R.
    - rewrite first_unset. split.
      + intros [_ E]. unfold is_gen in E. destruct (o_type parent) eqn:T; cbn [gtype_eqb] in E;
          try (subst rels; exfalso; unfold iterate_over in R; repeat (match type of R with (if ?b then _ else _) = _ => destruct b end; [discriminate R|]); discriminate R).
        split; [reflexivity|]. exists rels. split; [reflexivity|]. intro I. assert (F : In 92 (filter (Z.eqb 92) rels)) by (apply filter_In; split; [exact I|reflexivity]). rewrite E in F. destruct F.
      + intros [T (rels' & E & N)]. injection E as <-. split; [reflexivity|]. unfold is_gen. rewrite T. cbn [gtype_eqb]. destruct (filter (Z.eqb 92) rels) as [|x l] eqn:F; [reflexivity|].
        assert (I : In x (filter (Z.eqb 92) rels)) by (rewrite F; now left). apply filter_In in I. destruct I as [I E]. apply Z.eqb_eq in E. subst x. now elim N.
    - split; [discriminate|]. intros [_ (rels & E & _)]. discriminate E. }
  split; [exact A|]. intro T.
  assert (F : forall rels asked, (exists i, first_rel s (is_gen parent) asked (o_hdl parent) rels = Fine i) \/ first_rel s (is_gen parent) asked (o_hdl parent) rels = Unset).
  { induction rels as [|r rels IH]; intro asked; cbn [first_rel]; [destruct asked; [left; now eexists|now right]|]. destruct (_ && _); [apply IH|].
    destruct (iterate s r (Some (o_hdl parent))); [left; now eexists|apply IH]. }
  destruct (it_new s ius parent) as [i| | |] eqn:N; [now exists i| | |]; exfalso.
  - unfold it_new in N. destruct (iterate_over ius _) as [rels|]; [|discriminate N]. destruct (F rels false) as [[i E]|E]; rewrite N in E; discriminate E.
  - destruct (proj1 A eq_refl) as [_ (rels & E & NI)]. apply NI. now apply (proj1 (proj2 (C105_relations _ _ _ E))).
  - unfold it_new in N. destruct (iterate_over ius _) as [rels|]; [|discriminate N]. destruct (F rels false) as [[i E]|E]; rewrite N in E; discriminate E.
Qed.
Print Assumptions C105_set.

(** * The objects *)
(** What the iterator makes of an object is what VpiNameModel makes of it (C100). *)
Lemma item_iterated {H} (s : sim H) skips parent r h nm : rname s h = Some nm ->
  match iterated (see s) skips (r =? 92) h parent with Some o => item s skips parent r h = Native o | None => exists n, item s skips parent r h = NotNative n end.
Proof.
  intro N. unfold iterated, item. rewrite N. cbn [see hname]. rewrite N. unfold is_gen.
  replace (match htype (see s) h with VGenScope => true | _ => false end) with (rtype s h =? vpiGenScope).
  2: { destruct (Z.eqb_spec (rtype s h) vpiGenScope) as [E|E]; [apply see_gen in E; now rewrite E|]. destruct (htype (see s) h) eqn:T; try reflexivity. apply see_gen in T. now elim E. }
  change vpiInternalScope with 92.
  match goal with |- context [let '(_, _) := ?x in _] => destruct x as [e name] end.
  match goal with |- context [let '(_, _) := ?x in _] => destruct x as [name' fq] end.
  destruct (create (see s) skips e name' fq); [reflexivity|now eexists].
Qed.
(** What is discovered is what is found by its name or index, with the same names, type and range; so the store (C98) keeps one handle for both. *)
Theorem C105_same {H} (s : sim H) skips parent r h nm : rname s h = Some nm ->
  (* a child which is no block of a generate loop *)
  (o_type parent <> GGenArray -> o_type parent <> GStructure -> rtype s h <> 134 -> rtype s h <> 133 -> look s (o_full parent ++ delimiter parent ++ nm) = Some h ->
     forall o, item s skips parent r h = Native o <-> child_by_name (see s) skips false nm parent = Some o) /\
  (* the children of a pseudo-region *)
  (forall lbl i, int32 i -> rtype s h = 134 -> nm = lbl ++ index_text i -> ~ In 91 lbl -> look s (o_full parent ++ lit "." ++ nm) = Some h ->
     passes s (region parent lbl) h = true /\
     forall o, item s skips (region parent lbl) r h = Native o <-> child_by_index (see s) skips i (region parent lbl) = Some o) /\
  (* a member of a structure *)
  (forall path field, o_type parent = GStructure -> rtype s h <> 134 -> rtype s h <> 133 -> ~ In 46 field -> nm = path ++ lit "." ++ field ->
     look s (o_full parent ++ lit "." ++ field) = Some h ->
     forall o, item s skips parent r h = Native o <-> child_by_name (see s) skips false field parent = Some o).
Proof.
  intro N. assert (HN : hname (see s) h = nm) by (cbn [see hname]; now rewrite N).
  assert (GA : htype (see s) h = VGenScopeArray -> rtype s h = 133).
  { intro E. pose proof (C105_kinds (rtype s h) (rsize s h) (rvector s h) (rpacked s h) (rconst s h)) as K. cbn [see htype] in E. now rewrite E in K. }
  assert (X : forall p c, iterated (see s) skips (r =? 92) h p = c -> forall o, item s skips p r h = Native o <-> c = Some o).
  { intros p c E o. pose proof (item_iterated s skips p r h nm N) as I. rewrite E in I. destruct c as [o'|].
    - rewrite I. split; intro Q; injection Q as ->; reflexivity.
    - destruct I as [n I]. rewrite I. split; discriminate. }
  split; [|split].
  - intros T1 T2 R1 R2 L. apply X. rewrite <- HN in L |- *. apply (proj1 (C100_same (see s) skips parent h)); try assumption.
    + intro E. apply see_gen in E. contradiction.
    + intro E. now apply GA in E.
  - intros lbl i I R E NB L. rewrite E in HN, L.
    assert (B : block_of (see s) lbl i h) by (split; [now apply see_gen|exact HN]).
    destruct (proj2 (proj2 (C100_same (see s) skips parent h)) lbl i (r =? 92) I B NB L) as [P Q]. split; [now rewrite <- through_passes|]. now apply X.
  - intros path field T R1 R2 NF E L. apply X. rewrite E in HN. apply (C100_member (see s) skips (r =? 92) parent h path field); try assumption.
    + intro G. apply see_gen in G. contradiction.
    + intro G. now apply GA in G.
Qed.
Print Assumptions C105_same.
(** All blocks of a generate loop which are met in a scope give the same object, the pseudo-region with the label of the loop, however many there are; the
    look-up by the label gives it too. *)
Theorem C105_loop {H} (s : sim H) skips parent lbl h i nm : o_type parent = GModule -> rtype s (o_hdl parent) = 32 \/ rtype s (o_hdl parent) = 134 \/ rtype s (o_hdl parent) = 601 ->
  rname s (o_hdl parent) = Some nm -> nm <> lbl -> lbl <> [] -> ~ In 91 lbl -> int32 i -> rtype s h = 134 -> rname s h = Some (lbl ++ index_text i) ->
  item s skips parent 92 h = Native (region parent lbl) /\
  (In h (related s (o_hdl parent) 92) -> look s (o_full parent ++ lit "." ++ lbl) = None -> child_by_name (see s) skips false lbl parent = Some (region parent lbl)).
Proof.
  intros T TP NP NE N0 NB I R N.
  assert (IS : is_scope (see s) (o_hdl parent)).
  { destruct TP as [E|[E|E]]; unfold is_scope; cbn [see htype]; rewrite E; vm_compute; auto. }
  assert (HP : hname (see s) (o_hdl parent) <> lbl) by (cbn [see hname]; now rewrite NP).
  assert (HN : hname (see s) h = lbl ++ index_text i) by (cbn [see hname]; now rewrite N).
  assert (B : block_of (see s) lbl i h) by (split; [now apply see_gen|exact HN]).
  assert (C : iterated (see s) skips true h parent = Some (region parent lbl)).
  { unfold iterated. rewrite (proj1 B), HN, (before_index lbl i I), T. cbn [gtype_eqb negb andb]. destruct lbl as [|c lbl]; [now elim N0|].
    unfold delimiter. rewrite T. cbn [gtype_eqb]. now apply create_region. }
  split.
  - pose proof (item_iterated s skips parent 92 h _ N) as Q. change (92 =? 92) with true in Q. now rewrite C in Q.
  - intros HIn L. apply (proj2 (proj1 (proj2 (C100_same (see s) skips parent h)) lbl i ltac:(rewrite T; discriminate) ltac:(rewrite T; discriminate) ltac:(rewrite T; discriminate)
      IS HP NB N0 I B HIn L)).
Qed.
Print Assumptions C105_loop.
(** An object without a name is left to the other interfaces if its type is not of Verilog, and skipped otherwise; with a name it is left to them, under that
    name, exactly if its type is not known. *)
Theorem C105_others {H} (s : sim H) skips parent r h :
  (rname s h = None -> item s skips parent r h = if 1000 <=? rtype s h then NotNativeNoName h else NativeNoName) /\
  (forall nm, rname s h = Some nm -> o_type parent <> GStructure -> rtype s h <> 134 ->
     (item s skips parent r h = NotNative nm <-> htype (see s) h = VNone) /\ (htype (see s) h <> VNone -> exists o, item s skips parent r h = Native o)).
Proof.
  split; [intro E; unfold item; now rewrite E|]. intros nm N T R. unfold item. rewrite N.
  replace (rtype s h =? vpiGenScope) with false by (symmetry; apply Z.eqb_neq; exact R). rewrite andb_false_r.
  set (fq := o_full parent ++ match o_type parent with GGenArray => match before_last 91 nm with Some (_, b) => b | None => lit "." ++ nm end | _ => delimiter parent ++ nm end).
  assert (Q : (let '(name, fq') := match o_type parent with
        | GGenArray => (nm, o_full parent ++ match before_last 91 nm with Some (_, b) => b | None => lit "." ++ nm end)
        | GStructure => match before_last 46 nm with Some (_, b) => (tl b, o_full parent ++ b) | None => (nm, o_full parent ++ lit "." ++ nm) end
        | _ => (nm, o_full parent ++ delimiter parent ++ nm)
        end in match create (see s) skips h name fq' with Some o => Native o | None => NotNative name end)
      = match create (see s) skips h nm fq with Some o => Native o | None => NotNative nm end).
  { unfold fq. destruct (o_type parent); try reflexivity. now elim T. }
  rewrite Q. clear Q. unfold create.
  destruct (htype (see s) h) as [g int|g|g|p| | | | |] eqn:HT; try (split; [split; [discriminate|intro E; discriminate E]|intros _; now eexists]).
  - destruct (signal_init _ _ _ _ _ _); (split; [split; [discriminate|intro E; discriminate E]|intros _; now eexists]).
  - destruct (array_init _ _ _ _ _); (split; [split; [discriminate|intro E; discriminate E]|intros _; now eexists]).
  - split; [split; reflexivity|]. intro E. now elim E.
Qed.
Print Assumptions C105_others.

(** * Roots *)
Definition root_type (t : Z) : Prop := In t [601; 32; 44; 21; 55; 46; 134].
Lemma to_gpi_module t num vec : to_gpi t num vec = GModule <-> root_type t.
Proof.
  unfold root_type. split.
  - unfold to_gpi. intro E.
    destruct (among t [vpiNet; _; _; _; _; _; _; _]); [destruct vec, (1 <? num); discriminate E|].
    destruct (among t [vpiRealNet; _]); [discriminate E|]. destruct (among t [vpiInterfaceArray; _; _; _; _]); [discriminate E|].
    destruct (among t [vpiStructVar; _; _; _]); [discriminate E|]. destruct (among t [vpiInterface; _; _; _; _; _; _]) eqn:A; [now apply among_in in A|].
    destruct (t =? vpiPackage); [discriminate E|]. destruct (t =? vpiStringVar); discriminate E.
  - intro I. repeat (destruct I as [<-|I]; [reflexivity|]). destruct I.
Qed.
Lemma module_eqb t : gtype_eqb (to_gpi t 0 false) GModule = true <-> root_type t.
Proof. rewrite <- (to_gpi_module t 0 false). destruct (to_gpi t 0 false); split; try discriminate; reflexivity. Qed.
(** The roots are the objects which the simulator lists as top modules, as far as they are modules and have a full name, in its order, each once; a root has its
    full name as name. *)
Theorem C105_roots {H} (s : sim H) l : iterate s 32 None = Some l ->
  map (fun o => (o_hdl o, o_type o, Some (o_name o), Some (o_full o))) (all_roots s) =
  map (fun h => (h, GModule, rfull s h, rfull s h))
    (filter (fun h => existsb (Z.eqb (rtype s h)) [601; 32; 44; 21; 55; 46; 134] && match rfull s h with Some _ => true | None => false end) l).
Proof.
  intro E. unfold all_roots. change vpiModule with 32. rewrite E. clear E. induction l as [|h l IH]; [reflexivity|]. cbn [roots_of filter].
  assert (M : gtype_eqb (to_gpi (rtype s h) 0 false) GModule = existsb (Z.eqb (rtype s h)) [601; 32; 44; 21; 55; 46; 134]).
  { apply eq_true_iff_eq. rewrite module_eqb. symmetry. exact (among_in (rtype s h) [601; 32; 44; 21; 55; 46; 134]). }
  rewrite M. destruct (existsb (Z.eqb (rtype s h)) [601; 32; 44; 21; 55; 46; 134]); cbn [negb andb]; [|exact IH].
  destruct (rfull s h) as [n|] eqn:F; [|exact IH]. cbn [map root_obj set_names fresh o_hdl o_type o_name o_full]. now rewrite F, IH.
Qed.
Print Assumptions C105_roots.
(** The root looked for by its name is the first root with that name, and without a name the first root the name of which is not escaped; nothing if there is none. *)
Theorem C105_root {H} (s : sim H) l name : iterate s 32 None = Some l -> (forall h, In h l -> rfull s h <> None) ->
  get_root s name = Fine (find (fun o => match name with Some x => pystr_eqb x (o_full o) | None => match o_full o with c :: _ => negb (c =? 92) | [] => true end end) (all_roots s)).
Proof.
  intros E N. unfold get_root, all_roots. change vpiModule with 32. rewrite E.
  assert (R : forall x, report_roots s x l = Fine tt).
  { intro x. clear E. induction l as [|h l IH]; [reflexivity|]. cbn [report_roots]. destruct (rfull s h) as [n|] eqn:F; [|exfalso; apply (N h); [now left|exact F]].
    destruct (pystr_eqb x n); [reflexivity|]. apply IH. intros h' I. apply N. now right. }
  assert (F : find_root s name l = Fine (option_map (fun o => (o_hdl o, o_full o))
     (find (fun o => match name with Some x => pystr_eqb x (o_full o) | None => match o_full o with c :: _ => negb (c =? 92) | [] => true end end) (roots_of s l))) /\
     Forall (fun o => o = root_obj (o_hdl o) (o_full o)) (roots_of s l)).
  { clear E R. induction l as [|h l IH]; [split; [reflexivity|constructor]|]. cbn [find_root roots_of]. destruct IH as [IH1 IH2]; [intros h' I; apply N; now right|].
    destruct (negb _); [now split|]. destruct (rfull s h) as [n|] eqn:F; [|exfalso; apply (N h); [now left|exact F]]. split; [|now constructor].
    cbn [find root_obj set_names fresh o_full].
    replace (match name with None => negb (nth 0 n 0 =? 92) | Some x => pystr_eqb x n end)
      with (match name with Some x => pystr_eqb x n | None => match n with c :: _ => negb (c =? 92) | [] => true end end) by (destruct name; [reflexivity|now destruct n]).
    destruct (match name with Some x => _ | None => _ end); [reflexivity|exact IH1]. }
  destruct F as [F A]. rewrite F. destruct (find _ (roots_of s l)) as [o|] eqn:Q; cbn [option_map].
  - apply find_some in Q. destruct Q as [I _]. rewrite Forall_forall in A. now rewrite <- (A o I).
  - destruct name as [x|]; [now rewrite R|reflexivity].
Qed.
Print Assumptions C105_root.

(** * Packages *)
(** The full name of a package ends with two colons, once, whether the simulator gives them or not, so that the names of its children follow directly. *)
Theorem C105_package_name f : (2 <= List.length f)%nat ->
  (forall p, f = p ++ lit "::" -> package_full (Some f) = Fine f) /\ ((forall p, f <> p ++ lit "::") -> package_full (Some f) = Fine (f ++ lit "::")).
Proof.
  intro L. unfold package_full. replace (List.length f <? 2)%nat with false by (symmetry; apply Nat.ltb_ge; exact L). split.
  - intros p ->. rewrite app_length. change (List.length (lit "::")) with 2%nat. rewrite Nat.add_sub, skipn_app, Nat.sub_diag, skipn_all. cbn [skipn app].
    now rewrite (proj2 (pystr_eqb_eq _ _) eq_refl).
  - intro N. destruct (pystr_eqb (skipn (List.length f - 2) f) (lit "::")) eqn:E; [|reflexivity]. apply pystr_eqb_eq in E. exfalso.
    apply (N (firstn (List.length f - 2) f)). rewrite <- E. symmetry. apply firstn_skipn.
Qed.
Print Assumptions C105_package_name.
Example C105_package_name_ex : package_full (Some (lit "pkg")) = Fine (lit "pkg::") /\ package_full (Some (lit "pkg::")) = Fine (lit "pkg::").
Proof. split; reflexivity. Qed.
(** The packages are the objects of that type with a name among all instances, in the order of the simulator. *)
Theorem C105_packages {H} (s : sim H) l : iterate s 745 None = Some l ->
  (forall h n, In h l -> rtype s h = 600 -> rname s h = Some n -> exists f, rfull s h = Some f /\ (2 <= List.length f)%nat) ->
  exists os, all_packages s = Fine os /\
    map (fun o => (o_hdl o, Some (o_name o))) os = map (fun h => (h, rname s h)) (filter (fun h => (rtype s h =? 600) && match rname s h with Some _ => true | None => false end) l) /\
    Forall (fun o => o_type o = GPackage /\ package_full (rfull s (o_hdl o)) = Fine (o_full o)) os.
Proof.
  intros E N. unfold all_packages. change vpiInstance with 745. rewrite E. clear E. induction l as [|h l IH].
  - exists []. repeat split. constructor.
  - destruct IH as (os & E1 & E2 & E3); [intros h' n I; apply N; now right|]. cbn [packages_of filter]. change vpiPackage with 600.
    destruct (Z.eqb_spec (rtype s h) 600) as [T|T]; cbn [andb]; [|now exists os]. destruct (rname s h) as [n|] eqn:R; [|now exists os].
    destruct (N h n (or_introl eq_refl) T R) as (f & F & L). rewrite F.
    assert (P : exists fq, package_full (Some f) = Fine fq) by (unfold package_full; replace (List.length f <? 2)%nat with false by (symmetry; apply Nat.ltb_ge; exact L); now eexists).
    destruct P as [fq P]. rewrite P, E1. eexists. split; [reflexivity|]. cbn [map set_names fresh o_hdl o_name]. rewrite E2, R. split; [reflexivity|].
    constructor; [|exact E3]. cbn [set_names fresh o_type o_hdl o_full]. now rewrite F.
Qed.
Print Assumptions C105_packages.

(** * Examples and refutations *)
Record entry := Entry { e_full : option pystr; e_name : option pystr; e_type : Z; e_size : Z; e_iter : list (Z * list nat) }.
Definition lookup_z {A} (k : Z) (l : list (Z * A)) : option A := option_map snd (find (fun e => fst e =? k) l).
Definition tab (global : list (Z * list nat)) (l : list entry) : sim nat :=
  let get {A} (f : entry -> A) (d : A) (h : nat) := match nth_error l h with Some e => f e | None => d end in
  Sim nat (fun x => option_map fst (find (fun p => match e_full (snd p) with Some f => pystr_eqb x f | None => false end) (combine (seq 0 (List.length l)) l)))
    (fun _ _ => None) (get e_type 0) (get e_name None) (get e_full None) (fun _ => 0) (fun _ => false) (fun _ => None) (fun _ => None) (get e_size 0) (fun _ => false)
    (fun r h => match h with None => lookup_z r global | Some h => lookup_z r (get e_iter [] h) end).
Definition nm (x : pystr) : option pystr := Some x.
(** A module with two nets, a loop of two blocks and an interface which contains a loop. *)
Definition ex : sim nat := tab [(32, [0]%nat); (745, [0; 8]%nat)]
  [Entry (nm (lit "top")) (nm (lit "top")) 32 0 [(36, [1; 2]%nat); (92, [3; 4; 5]%nat)];
   Entry (nm (lit "top.a")) (nm (lit "a")) 36 8 []; Entry (nm (lit "top.b")) None 36 1 [];
   Entry (nm (lit "top.g[0]")) (nm (lit "g[0]")) 134 0 []; Entry (nm (lit "top.g[1]")) (nm (lit "g[1]")) 134 0 [];
   Entry (nm (lit "top.bus")) (nm (lit "bus")) 601 0 [(92, [6; 7]%nat)];
   Entry (nm (lit "top.bus.k[0]")) (nm (lit "k[0]")) 134 0 []; Entry (nm (lit "top.bus.k[1]")) (nm (lit "k[1]")) 134 0 [];
   Entry (nm (lit "pkg")) (nm (lit "pkg")) 600 0 []].
Definition ex_root : obj nat := root_obj 0%nat (lit "top").
Example C105_discovery_ex : get_root ex None = Fine (Some ex_root) /\ everything ex false ex_root = [(36, 1%nat); (36, 2%nat); (92, 3%nat); (92, 4%nat); (92, 5%nat)] /\
  everything ex false (region ex_root (lit "g")) = [(92, 3%nat); (92, 4%nat)] /\ (exists i, it_new ex false ex_root = Fine (Some i)) /\
  (exists i, it_new ex false (region ex_root (lit "g")) = Fine (Some i)).
Proof. repeat split; try (eexists; reflexivity); reflexivity. Qed.
Example C105_same_ex : rname ex 1%nat = Some (lit "a") /\ look ex (o_full ex_root ++ delimiter ex_root ++ lit "a") = Some 1%nat /\
  (exists o, item ex true ex_root 36 1%nat = Native o /\ o_type o = GLogicArray /\ o_full o = lit "top.a") /\
  look ex (o_full ex_root ++ lit "." ++ lit "g" ++ index_text 1) = Some 4%nat /\
  (exists o, item ex true (region ex_root (lit "g")) 92 4%nat = Native o /\ o_type o = GModule /\ o_full o = lit "top.g[1]").
Proof. repeat split; try (eexists; repeat split); reflexivity. Qed.
Example C105_loop_ex : rtype ex (o_hdl ex_root) = 32 /\ rname ex 3%nat = Some (lit "g" ++ index_text 0) /\ rname ex 4%nat = Some (lit "g" ++ index_text 1) /\
  item ex true ex_root 92 3%nat = item ex true ex_root 92 4%nat /\ In 4%nat (related ex 0%nat 92) /\ look ex (lit "top" ++ lit "." ++ lit "g") = None.
Proof. repeat split; try reflexivity. cbn. tauto. Qed.
Example C105_others_ex : item ex true ex_root 36 2%nat = NativeNoName /\ (exists o, item ex true ex_root 92 5%nat = Native o) /\
  item (tab [] [Entry None None 1234 0 []; Entry None (nm (lit "x")) 26 0 []]) true ex_root 36 0%nat = NotNativeNoName 0%nat /\
  item (tab [] [Entry None None 1234 0 []; Entry None (nm (lit "x")) 26 0 []]) true ex_root 36 1%nat = NotNative (lit "x").
Proof. repeat split; try (eexists; reflexivity); reflexivity. Qed.
Definition ex_roots : sim nat := tab [(32, [0; 1; 2; 3]%nat)]
  [Entry (nm (lit "\virtual ")) (nm (lit "\virtual ")) 32 0 []; Entry (nm (lit "cls")) (nm (lit "cls")) 652 0 []; Entry (nm (lit "tb")) (nm (lit "tb")) 32 0 [];
   Entry (nm (lit "top")) (nm (lit "top")) 32 0 []].
Example C105_root_ex : (forall h, In h [0; 1; 2; 3]%nat -> rfull ex_roots h <> None) /\ get_root ex_roots None = Fine (Some (root_obj 2%nat (lit "tb"))) /\
  get_root ex_roots (Some (lit "top")) = Fine (Some (root_obj 3%nat (lit "top"))) /\ get_root ex_roots (Some (lit "cls")) = Fine None.
Proof. split; [|repeat split; reflexivity]. intros h I. repeat (destruct I as [<-|I]; [discriminate|]). destruct I. Qed.
Example C105_roots_ex : map o_full (all_roots ex_roots) = [lit "\virtual "; lit "tb"; lit "top"].
Proof. reflexivity. Qed.
Example C105_packages_ex : iterate ex 745 None = Some [0; 8]%nat /\ exists o, all_packages ex = Fine [o] /\ o_full o = lit "pkg::" /\ o_name o = lit "pkg".
Proof. split; [reflexivity|]. eexists. repeat split; reflexivity. Qed.

(** The pseudo-region of a loop inside an interface is found by its label, but its discovery reads a variable which was never set. *)
Theorem C105_interface_refuted : exists bus g, child_by_name (see ex) true false (lit "bus") ex_root = Some bus /\ rtype ex (o_hdl bus) = 601 /\
  child_by_name (see ex) true false (lit "k") bus = Some g /\ o_type g = GGenArray /\ it_new ex false g = Unset /\
  (* while the discovery of the interface itself does not show the loop *)
  related ex (o_hdl bus) 92 = [6; 7]%nat /\ everything ex false bus = [].
Proof. do 2 eexists. repeat split; reflexivity. Qed.
Print Assumptions C105_interface_refuted.
(** A package with a name of one letter, of a simulator which gives no colons: std::out_of_range is thrown. *)
Theorem C105_package_refuted : exists s : sim nat, rtype s 0%nat = 600 /\ rname s 0%nat = Some (lit "p") /\ rfull s 0%nat = Some (lit "p") /\ all_packages s = Throws.
Proof. exists (tab [(745, [0]%nat)] [Entry (nm (lit "p")) (nm (lit "p")) 600 0 []]). repeat split; reflexivity. Qed.
Print Assumptions C105_package_refuted.
(** An object without a full name among the top modules: the list of roots passes over it, the look-up of a root behind it reads NULL. *)
Theorem C105_null_refuted : exists s : sim nat, map o_full (all_roots s) = [lit "top"] /\ get_root s (Some (lit "top")) = NullRead /\ get_root s None = NullRead.
Proof. exists (tab [(32, [0; 1]%nat)] [Entry None None 32 0 []; Entry (nm (lit "top")) (nm (lit "top")) 32 0 []]). repeat split; reflexivity. Qed.
Print Assumptions C105_null_refuted.
Lemma store_twice st st1 n1 i j x a b : GpiStoreModel.check_and_store st (GpiStoreModel.Hdl i x a) = (st1, n1) ->
  snd (GpiStoreModel.check_and_store st1 (GpiStoreModel.Hdl j x b)) = n1.
Proof.
  unfold GpiStoreModel.check_and_store, GpiStoreModel.alloc. cbn [GpiStoreModel.s_map GpiStoreModel.h_name].
  destruct (dict_get (GpiStoreModel.s_map st) x) as [old|] eqn:D; intro E; injection E as <- <-.
  - unfold GpiStoreModel.free at 1. cbn [GpiStoreModel.s_mem GpiStoreModel.s_map]. unfold GpiStoreModel.upd at 1. rewrite Nat.eqb_refl.
    cbn [GpiStoreModel.s_map]. now rewrite D.
  - cbn [GpiStoreModel.s_map dict_get]. replace (pystr_eqb x x) with true by (symmetry; now apply pystr_eqb_eq). reflexivity.
Qed.
(** Drivers and loads get an empty name and their own name as full name: the drivers [r] of two signals in different modules are one handle in the store (C98), and a
    driver which is a gate or a port becomes the pseudo-region of a generate loop. *)
Definition ex_drivers : sim nat := tab []
  [Entry (nm (lit "top.a.x")) (nm (lit "x")) 36 1 [(91, [2]%nat)]; Entry (nm (lit "top.b.x")) (nm (lit "x")) 36 1 [(91, [3; 4]%nat)];
   Entry (nm (lit "top.a.r")) (nm (lit "r")) 48 1 []; Entry (nm (lit "top.b.r")) (nm (lit "r")) 48 8 []; Entry (nm (lit "top.b.g1")) (nm (lit "g1")) 21 0 []].
Theorem C105_drivers_refuted : exists o1 o2 o3, singles ex_drivers true 91 (fresh 0%nat GLogic) = [Native o1] /\ singles ex_drivers true 91 (fresh 1%nat GLogic) = [Native o2; Native o3] /\
  o_hdl o1 <> o_hdl o2 /\ o_type o1 <> o_type o2 /\ o_name o1 = [] /\ o_full o1 = lit "r" /\ o_full o2 = o_full o1 /\ o_type o3 = GGenArray /\
  forall st st1 n1, GpiStoreModel.check_and_store st (GpiStoreModel.Hdl 0 (o_full o1) 2) = (st1, n1) ->
    snd (GpiStoreModel.check_and_store st1 (GpiStoreModel.Hdl 0 (o_full o2) 3)) = n1.
Proof.
  do 3 eexists. do 2 (split; [reflexivity|]). do 2 (split; [discriminate|]). do 4 (split; [reflexivity|]).
  intros st st1 n1. apply store_twice.
Qed.
Print Assumptions C105_drivers_refuted.
Example C105_set_ex : o_type (region ex_root (lit "g")) = GGenArray /\ rtype ex (o_hdl (region ex_root (lit "g"))) = 32 /\ it_new ex false (fresh 8%nat GPackage) = Fine None /\
  it_new ex false (set_names (fresh 5%nat GGenArray) (lit "k") (lit "top.bus.k")) = Unset.
Proof. repeat split; reflexivity. Qed.

(** C49: generated tests. C58: decorators. *)
From Coq Require Import String Permutation.
From Verif Require Import Base TextModel ToolsSpec ParamModel ParamSpec ParamProofs.
Open Scope Z_scope.

(** Identifiers of the examples: non-empty texts of letters. *)
Definition letters (s : pystr) : bool :=
  match s with [] => false | _ => forallb (fun c => ((65 <=? c) && (c <=? 90)) || ((97 <=? c) && (c <=? 122))) s end.

(** Whatever the decorators, as long as parameter names are not repeated, generation succeeds. There are as many tests as
    combinations of values; the j-th test has the arguments of the j-th combination, and its name is the name of the
    generator followed by the texts of the arguments. *)
Theorem C49_generate ident q ds g :
  decorate ident ds (gen0 q) = Ok g -> NoDup (concat (map names_of (n_options g))) ->
  exists ts, generate_tests ident (n_name g) (n_options g) = Ok ts /\
    List.length ts = total (lens (n_options g)) /\
    forall j, (j < total (lens (n_options g)))%nat -> exists t txt, nth_error ts j = Some t /\
      combo ident (n_options g) (choose (lens (n_options g)) j) (g_kwargs t) txt /\ g_name t = n_name g ++ txt.
Proof. intros E ND. apply generate_pf. exact (decorated_pf ident q ds g E ND). Qed.
Print Assumptions C49_generate.
Example C49_ex : exists g,
  decorate letters [DParam [TPair (GROUP [lit "b"; lit "c"], [VSeq [VPrim (lit "1"); VOther 7]; VSeq [VPrim (lit "2"); VOther 8]])] [];
                    DParam [] [(lit "a", [VStr (lit "p"); VParam (VOther 9) (Some (lit "q"))])]; DBare] (gen0 (lit "t")) = Ok g /\
  NoDup (concat (map names_of (n_options g))) /\
  generate_tests letters (n_name g) (n_options g) = Ok
    [GTest [(lit "a", VStr (lit "p")); (lit "b", VPrim (lit "1")); (lit "c", VOther 7)] (lit "t/a=p/b=1/c=0");
     GTest [(lit "a", VStr (lit "p")); (lit "b", VPrim (lit "2")); (lit "c", VOther 8)] (lit "t/a=p/b=2/c=1");
     GTest [(lit "a", VOther 9); (lit "b", VPrim (lit "1")); (lit "c", VOther 7)] (lit "t/a=q/b=1/c=0");
     GTest [(lit "a", VOther 9); (lit "b", VPrim (lit "2")); (lit "c", VOther 8)] (lit "t/a=q/b=2/c=1")].
Proof.
  eexists. split; [reflexivity|]. split.
  - cbn [n_options map concat names_of fst app]. repeat constructor; intro H; cbn in H; intuition discriminate.
  - vm_compute. reflexivity.
Qed.

(** The same for any well-formed options. *)
Theorem C49_product ident name opts : well_formed opts ->
  exists ts, generate_tests ident name opts = Ok ts /\ List.length ts = total (lens opts) /\
  forall j, (j < total (lens opts))%nat -> exists t txt, nth_error ts j = Some t /\
    combo ident opts (choose (lens opts) j) (g_kwargs t) txt /\ g_name t = name ++ txt.
Proof. exact (generate_pf ident name opts). Qed.
Print Assumptions C49_product.

(** The combinations are all the choices of one position per option, each once, in lexicographic order. *)
Theorem C49_every_combination ls idx : Forall2 lt idx ls -> exists! j, (j < total ls)%nat /\ choose ls j = idx.
Proof.
  intro H. destruct (choose_onto ls idx H) as (j & B & E). exists j. split; [auto|]. intros j' [B' E'].
  apply (choose_inj ls); congruence.
Qed.
Print Assumptions C49_every_combination.
Theorem C49_only_combinations ls j : (j < total ls)%nat -> Forall2 lt (choose ls j) ls.
Proof. exact (choose_bounds ls j). Qed.
Print Assumptions C49_only_combinations.
Theorem C49_lexicographic ls j j' : (j < j')%nat -> (j' < total ls)%nat -> lex (choose ls j) (choose ls j').
Proof. exact (choose_lex ls j j'). Qed.
Print Assumptions C49_lexicographic.
Example C49_choose_ex : map (choose [2; 3]%nat) (seq 0 6) = [[0;0]; [0;1]; [0;2]; [1;0]; [1;1]; [1;2]]%nat /\ Forall2 lt [1;2]%nat [2;3]%nat.
Proof. split; [reflexivity|]. repeat constructor. Qed.

(** Names are pairwise distinct if no text contains a slash and the positions of every option are shown differently. *)
Theorem C49_names_distinct_partial ident name opts ts : well_formed opts -> Forall (clean ident) opts ->
  Forall (told_apart ident) opts -> generate_tests ident name opts = Ok ts -> NoDup (map g_name ts).
Proof. exact (names_distinct_pf ident name opts ts). Qed.
Print Assumptions C49_names_distinct_partial.
(** They are shown differently if some value has no text of its own, or if all values have different texts. *)
Theorem C49_told_apart ident n vs :
  (exists w, In w vs /\ forall u, ~ own_text ident w u) \/
  (forall i j v w t, nth_error vs i = Some v -> nth_error vs j = Some w -> own_text ident v t -> own_text ident w t -> i = j) ->
  told_apart ident (ONE n, vs).
Proof. exact (told_apart_one ident n vs). Qed.
Print Assumptions C49_told_apart.
Example C49_told_apart_ex : told_apart letters (ONE (lit "x"), [VOther 1; VPrim (lit "5"); VPrim (lit "5")]) /\
  clean letters (ONE (lit "x"), [VOther 1; VPrim (lit "5"); VPrim (lit "5")]).
Proof.
  split.
  - apply C49_told_apart. left. exists (VOther 1). split; [now left|]. intros u H. inversion H.
  - repeat constructor; intros t H; inversion H; subst; cbn; intuition discriminate.
Qed.

(** Without that condition two tests may have the same name, e.g. for the values [None] and ["None"]. *)
Theorem C49_names_refuted ident : ident (lit "None") = true -> exists ts,
  generate_tests ident (lit "t") [(ONE (lit "x"), [VPrim (lit "None"); VStr (lit "None")])] = Ok ts /\
  ~ NoDup (map g_name ts) /\ NoDup (map g_kwargs ts).
Proof.
  intro H.
  assert (R : reprs ident [VPrim (lit "None"); VStr (lit "None")] = [lit "None"; lit "None"]).
  { unfold reprs. cbn [reprs_loop repr_]. rewrite H. reflexivity. }
  eexists. split; [unfold generate_tests; cbn [option_reprs]; rewrite R; reflexivity|]. split.
  - cbn. intro ND. inversion ND as [|? ? X]. apply X. now left.
  - cbn. repeat constructor; cbn; intuition discriminate.
Qed.
Print Assumptions C49_names_refuted.
(** A parameter given by two decorators is accepted, and then generation fails. *)
Theorem C49_repeated_name_refuted : exists g,
  decorate letters [DParam [] [(lit "x", [VPrim (lit "0")])]; DParam [] [(lit "x", [VPrim (lit "0"); VPrim (lit "1")])]] (gen0 (lit "t")) = Ok g /\
  generate_tests letters (n_name g) (n_options g) = Err IndexError.
Proof. eexists. split; [reflexivity|]. vm_compute. reflexivity. Qed.
Print Assumptions C49_repeated_name_refuted.
(** Writing a value as [(value, name)] (the documentation of [parametrize], argument [options_by_name]) does not name it: the test is
    called with the pair. *)
Theorem C49_value_name_refuted : exists v name ts,
  generate_tests letters (lit "t") [(ONE (lit "x"), [VSeq [v; VStr name]])] = Ok ts /\
  ts <> [GTest [(lit "x", v)] (lit "t/x=" ++ name)] /\ map g_kwargs ts = [[(lit "x", VSeq [v; VStr name])]].
Proof.
  exists (VPrim (lit "1")), (lit "one"). eexists. split; [vm_compute; reflexivity|]. split; [discriminate|vm_compute; reflexivity].
Qed.
Print Assumptions C49_value_name_refuted.

(** [parametrize] accepts exactly the options with identifiers as names and rows of the right length. *)
Theorem C49_parametrize_checks ident ts named g :
  (exists g', apply_deco ident (DParam ts named) g = Ok g') <-> Forall (fine_option ident) ts.
Proof. exact (apply_ok ident (DParam ts named) g). Qed.
Print Assumptions C49_parametrize_checks.
Example C49_checks_ex :
  fine_option letters (TPair (GROUP [lit "a"; lit "b"], [VSeq [VOther 1; VOther 2]])) /\
  ~ fine_option letters (TPair (GROUP [lit "a"; lit "b"], [VSeq [VOther 1]])) /\
  ~ fine_option letters (TPair (ONE (lit "a b"), [])).
Proof.
  split; [|split].
  - split; [repeat constructor|]. repeat constructor. eexists. split; reflexivity.
  - intros [_ H]. inversion H as [|? ? (l & E & L)]. injection E as <-. discriminate L.
  - intros [H _]. inversion H as [|? ? E]. discriminate E.
Qed.

(** TestFactory: the j-th combination becomes the global with number j+1, with the arguments of the combination and
    otherwise the constant arguments; other globals are untouched. *)
Theorem C49_factory base d consts glbs : well_formed d ->
  exists glbs', factory_generate base d consts glbs = Ok glbs' /\
    (forall j, (j < total (lens d))%nat -> exists args kw num,
       let name := base ++ lit "_" ++ num in
       three_digits num (Z.of_nat j + 1) /\ dict_get glbs' name = Some (GTest kw name) /\
       picked d (choose (lens d) j) args /\
       forall n, dict_get kw n = match dict_get args n with Some v => Some v | None => dict_get consts n end) /\
    (forall k, (forall j num, (j < total (lens d))%nat -> three_digits num (Z.of_nat j + 1) -> k <> base ++ lit "_" ++ num) ->
       dict_get glbs' k = dict_get glbs k).
Proof. exact (factory_pf base d consts glbs). Qed.
Print Assumptions C49_factory.
(** The options of a factory: rejected iff a row has the wrong length; new names go last, old names keep their place. *)
Theorem C49_add_option k vs d :
  ((exists d', add_option k vs d = Ok d') <-> shaped (k, vs)) /\
  (forall d', add_option k vs d = Ok d' ->
     (~ In k (map fst d) -> d' = d ++ [(k, vs)]) /\
     (forall d1 old d2, d = d1 ++ (k, old) :: d2 -> ~ In k (map fst d1) -> d' = d1 ++ (k, vs) :: d2)).
Proof.
  split; [apply add_option_ok|]. intros d' E. apply add_option_val in E. subst d'. split.
  - apply fdict_set_new.
  - intros d1 old d2 -> N. now apply fdict_set_old.
Qed.
Print Assumptions C49_add_option.
Definition fopts : list option_ := [(ONE (lit "a"), [VOther 1; VOther 2]); (GROUP [lit "b"; lit "c"], [VSeq [VOther 3; VOther 4]])].
Example C49_factory_ex : well_formed fopts /\
  (bind (add_option (ONE (lit "a")) [VOther 1; VOther 2] []) (add_option (GROUP [lit "b"; lit "c"]) [VSeq [VOther 3; VOther 4]])) = Ok fopts /\
  factory_generate (lit "t") fopts [(lit "k", VOther 5); (lit "a", VOther 6)] [] =
    Ok [(lit "t_001", GTest [(lit "k", VOther 5); (lit "a", VOther 1); (lit "b", VOther 3); (lit "c", VOther 4)] (lit "t_001"));
        (lit "t_002", GTest [(lit "k", VOther 5); (lit "a", VOther 2); (lit "b", VOther 3); (lit "c", VOther 4)] (lit "t_002"))].
Proof.
  split; [|split; vm_compute; reflexivity]. split.
  - repeat constructor. eexists. split; reflexivity.
  - cbn [fopts map concat names_of fst app]. repeat constructor; intro H; cbn in H; intuition discriminate.
Qed.
(** Two factories for the same function in one module: the tests of the second replace those of the first. *)
Theorem C49_factory_overwrites_refuted : exists glbs1 glbs2,
  factory_generate (lit "t") [(ONE (lit "a"), [VOther 1; VOther 2])] [] [] = Ok glbs1 /\
  factory_generate (lit "t") [(ONE (lit "a"), [VOther 3; VOther 4])] [] glbs1 = Ok glbs2 /\
  List.length glbs2 = 2%nat /\ (forall k t, In (k, t) glbs1 -> ~ In (k, t) glbs2).
Proof.
  do 2 eexists. split; [vm_compute; reflexivity|]. split; [vm_compute; reflexivity|]. split; [reflexivity|].
  intros k t [E|[E|[]]] [F|[F|[]]]; rewrite <- E in F; discriminate F.
Qed.
Print Assumptions C49_factory_overwrites_refuted.

(** * C58 *)
(** A test is skipped, expected to fail or expected to raise [e] iff one of its decorators asks for it. *)
Theorem C58_skip ident q ds g : decorate ident ds (gen0 q) = Ok g ->
  (n_skip g = true <-> exists d, In d ds /\ asks_skip d).
Proof. intro E. apply decorate_effect in E as (H & _). rewrite H. cbn. intuition discriminate. Qed.
Print Assumptions C58_skip.
Theorem C58_expect_fail ident q ds g : decorate ident ds (gen0 q) = Ok g ->
  (n_expect_fail g = true <-> exists d, In d ds /\ asks_fail d).
Proof. intro E. apply decorate_effect in E as (_ & H & _). rewrite H. cbn. intuition discriminate. Qed.
Print Assumptions C58_expect_fail.
Theorem C58_expect_error ident q ds g : decorate ident ds (gen0 q) = Ok g ->
  forall e, In e (n_expect_error g) <-> exists d, In d ds /\ asks_error d e.
Proof. intro E. apply decorate_effect in E as (_ & _ & H & _). intro e. rewrite H. cbn. intuition. Qed.
Print Assumptions C58_expect_error.

(** So the order of the decorators does not matter for these. *)
Theorem C58_order_free ident q ds ds' g : Permutation ds ds' -> decorate ident ds (gen0 q) = Ok g ->
  exists g', decorate ident ds' (gen0 q) = Ok g' /\ n_skip g' = n_skip g /\ n_expect_fail g' = n_expect_fail g /\
    forall e, In e (n_expect_error g') <-> In e (n_expect_error g).
Proof.
  intros P E. assert (F : Forall (fine ident) ds) by (apply (decorate_ok ident ds (gen0 q)); eauto).
  assert (F' : Forall (fine ident) ds') by (eapply Permutation_Forall; eassumption).
  apply (decorate_ok ident ds' (gen0 q)) in F' as [g' E']. exists g'. split; [exact E'|].
  assert (X : forall Q : deco -> Prop, (exists d, In d ds' /\ Q d) <-> (exists d, In d ds /\ Q d)).
  { intro Q. split; intros (d & I & H); exists d; (split; [|exact H]); eapply Permutation_in; try eassumption.
    now apply Permutation_sym. }
  pose proof (C58_skip _ _ _ _ E) as S1. pose proof (C58_skip _ _ _ _ E') as S2. rewrite X in S2.
  pose proof (C58_expect_fail _ _ _ _ E) as F1. pose proof (C58_expect_fail _ _ _ _ E') as F2. rewrite X in F2.
  split; [|split].
  - destruct (n_skip g), (n_skip g'); intuition.
  - destruct (n_expect_fail g), (n_expect_fail g'); intuition.
  - intro e. rewrite (C58_expect_error _ _ _ _ E), (C58_expect_error _ _ _ _ E'). apply X.
Qed.
Print Assumptions C58_order_free.

(** Stage, name and timeout: the outermost decorator which gives one. *)
Theorem C58_outermost ident q ds d ds' g : decorate ident (ds ++ d :: ds') (gen0 q) = Ok g ->
  (forall s, stage_of d = Some s -> (forall x, In x ds' -> stage_of x = None) -> n_stage g = s) /\
  (forall s, name_of d = Some s -> (forall x, In x ds' -> name_of x = None) -> n_name g = s) /\
  (forall s, timeout_of d = Some s -> (forall x, In x ds' -> timeout_of x = None) -> n_timeout g = Some s).
Proof.
  intro E. apply decorate_effect in E as (_ & _ & _ & E1 & E2 & E3 & _). split; [|split]; intros s H N.
  - rewrite E1. now apply outermost_app.
  - rewrite E2. now apply outermost_app.
  - rewrite E3. apply outermost_app; [now rewrite H|]. intros x I. now rewrite (N x I).
Qed.
Print Assumptions C58_outermost.
Theorem C58_defaults ident q ds g : decorate ident ds (gen0 q) = Ok g ->
  ((forall x, In x ds -> stage_of x = None) -> n_stage g = 0) /\
  ((forall x, In x ds -> name_of x = None) -> n_name g = q) /\
  ((forall x, In x ds -> timeout_of x = None) -> n_timeout g = None).
Proof.
  intro E. apply decorate_effect in E as (_ & _ & _ & E1 & E2 & E3 & _). cbn in *.
  assert (D : forall A B (f : A -> option B) l b, (forall x, In x l -> f x = None) -> outermost f l b = b).
  { intros A B f l. induction l as [|x l IH]; intros b H; cbn; [reflexivity|]. rewrite (H x (or_introl eq_refl)).
    apply IH. intros; apply H; now right. }
  split; [|split]; intro N.
  - rewrite E1. now apply D.
  - rewrite E2. now apply D.
  - rewrite E3. apply D. intros x I. now rewrite (N x I).
Qed.
Print Assumptions C58_defaults.
(** The options of outer decorators come first. *)
Theorem C58_options ident q ds g : decorate ident ds (gen0 q) = Ok g -> n_options g = concat (map options_of (rev ds)).
Proof. intro E. apply decorate_effect in E as (_ & _ & _ & _ & _ & _ & ->). cbn. apply app_nil_r. Qed.
Print Assumptions C58_options.
(** Decorating fails iff some decorator has bad arguments. *)
Theorem C58_accepted ident q ds : (exists g, decorate ident ds (gen0 q) = Ok g) <-> Forall (fine ident) ds.
Proof. exact (decorate_ok ident ds (gen0 q)). Qed.
Print Assumptions C58_accepted.
Example C58_ex :
  let ds := [DTest (Some 5) None [7] None (Some 2) None; DSkipif true; DXfail true (RMany [Some 8; Some 7]);
             DTest None (Some false) [] (Some false) (Some 3) (Some (lit "n")); DXfail true RNone] in
  decorate letters ds (gen0 (lit "f")) = Ok (Gen (Some 5) true [7; 8] true 3 (lit "n") []) /\
  decorate letters (rev ds) (gen0 (lit "f")) = Ok (Gen (Some 5) true [8; 7] true 2 (lit "n") []).
Proof. split; vm_compute; reflexivity. Qed.

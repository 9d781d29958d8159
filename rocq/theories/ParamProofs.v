(** Proofs for C49 and C58 (ParamModel.v, ParamSpec.v). *)
From Coq Require Import String.
From Verif Require Import Base TextModel ToolsModel ToolsSpec ToolsProofs XmlModel XmlProofs LookupProofs ParamModel ParamSpec.
Open Scope Z_scope.

(** * Combinations *)
Lemma total_pos_in ls j : (j < total ls)%nat -> (0 < total ls)%nat.
Proof. lia. Qed.

Lemma choose_length ls : forall j, List.length (choose ls j) = List.length ls.
Proof. induction ls as [|n ls IH]; intro j; cbn; [reflexivity|now rewrite IH]. Qed.

Lemma choose_bounds ls : forall j, (j < total ls)%nat -> Forall2 lt (choose ls j) ls.
Proof.
  induction ls as [|n ls IH]; intros j H; cbn in *; [constructor|].
  assert (P : total ls <> 0%nat) by (intro E; unfold total in E; rewrite E in H; lia).
  constructor.
  - apply Nat.div_lt_upper_bound; [exact P|]. unfold total in *. lia.
  - apply IH. apply Nat.mod_upper_bound. exact P.
Qed.

Lemma choose_onto ls : forall idx, Forall2 lt idx ls -> exists j, (j < total ls)%nat /\ choose ls j = idx.
Proof.
  induction ls as [|n ls IH]; intros idx H; inversion H; subst.
  - exists 0%nat. cbn. split; [lia|reflexivity].
  - match goal with X : Forall2 _ _ ls |- _ => destruct (IH _ X) as (j & B & E) end.
    exists (x * total ls + j)%nat. cbn [choose].
    rewrite Nat.add_comm, Nat.div_add, (Nat.div_small j) by lia. rewrite Nat.mod_add, (Nat.mod_small j) by lia.
    rewrite E. split; [|reflexivity]. change (total (n :: ls)) with (n * total ls)%nat. nia.
Qed.

Lemma choose_lex ls : forall j j', (j < j')%nat -> (j' < total ls)%nat -> lex (choose ls j) (choose ls j').
Proof.
  induction ls as [|n ls IH]; intros j j' H B; [cbn in B; lia|].
  change (total (n :: ls)) with (n * total ls)%nat in B. cbn [choose].
  assert (P : total ls <> 0%nat) by (intro E; rewrite E in B; lia).
  pose proof (Nat.div_mod j (total ls) P) as D. pose proof (Nat.div_mod j' (total ls) P) as D'.
  pose proof (Nat.mod_upper_bound j (total ls) P). pose proof (Nat.mod_upper_bound j' (total ls) P).
  destruct (Nat.lt_trichotomy (j / total ls) (j' / total ls)) as [L|[L|L]].
  - now apply lex_here.
  - rewrite L. apply lex_later. apply IH; [|assumption]. rewrite L in D. lia.
  - exfalso. nia.
Qed.

Lemma lex_irrefl l : ~ lex l l.
Proof. induction l; intro H; inversion H; subst; [lia|auto]. Qed.

Lemma choose_inj ls j j' : (j < total ls)%nat -> (j' < total ls)%nat -> choose ls j = choose ls j' -> j = j'.
Proof.
  intros B B' E. destruct (Nat.lt_trichotomy j j') as [L|[L|L]]; [|exact L|]; exfalso.
  - pose proof (choose_lex ls j j' L B') as X. rewrite E in X. now apply lex_irrefl in X.
  - pose proof (choose_lex ls j' j L B) as X. rewrite E in X. now apply lex_irrefl in X.
Qed.

Lemma nth_error_blocks {A B} (f : A -> list B) m l :
  (forall x, List.length (f x) = m) -> m <> 0%nat -> forall j,
  nth_error (flat_map f l) j = match nth_error l (j / m) with Some x => nth_error (f x) (j mod m) | None => None end.
Proof.
  intros L M. induction l as [|x l IH]; intro j; cbn [flat_map].
  - destruct j; cbn; destruct (_ / _)%nat; reflexivity.
  - destruct (Nat.lt_ge_cases j m) as [H|H].
    + rewrite nth_error_app1 by (now rewrite L). rewrite Nat.div_small, Nat.mod_small by lia. reflexivity.
    + rewrite nth_error_app2 by (now rewrite L). rewrite L, IH.
      assert (E : j = ((j - m) + 1 * m)%nat) by lia.
      assert (D : (j / m = S ((j - m) / m))%nat) by (rewrite E at 1; rewrite Nat.div_add by lia; lia).
      assert (D' : (j mod m = (j - m) mod m)%nat) by (rewrite E at 1; rewrite Nat.mod_add by lia; reflexivity).
      rewrite D, D'. reflexivity.
Qed.
Lemma blocks_length {A B} (f : A -> list B) m l :
  (forall x, List.length (f x) = m) -> List.length (flat_map f l) = (List.length l * m)%nat.
Proof. intro L. induction l; cbn; [reflexivity|]. now rewrite app_length, L, IHl. Qed.

Lemma cart_length {A} (ls : list (list A)) : List.length (cart ls) = total (map (@List.length A) ls).
Proof.
  induction ls as [|l ls IH]; cbn; [reflexivity|].
  rewrite (blocks_length _ (List.length (cart ls))); [now rewrite IH|intro x; apply map_length].
Qed.

(** The j-th element of the product takes from each list the chosen position. *)
Lemma cart_nth {A} (ls : list (list A)) : forall j, (j < total (map (@List.length A) ls))%nat ->
  exists row, nth_error (cart ls) j = Some row /\
  Forall2 (fun lx i => nth_error (fst lx) i = Some (snd lx)) (List.combine ls row)
          (choose (map (@List.length A) ls) j) /\ List.length row = List.length ls.
Proof.
  induction ls as [|l ls IH]; intros j H; cbn [map total fold_right] in H.
  - cbn in H. replace j with 0%nat by lia. exists []. cbn. repeat split. constructor.
  - set (m := total (map (@List.length A) ls)) in *. change (fold_right _ _ _) with m in H.
    assert (P : m <> 0%nat) by (intro E; rewrite E in H; lia).
    cbn [cart map choose].
    rewrite (nth_error_blocks _ m); [|intro x; rewrite map_length; apply cart_length|exact P].
    assert (B : (j / m < List.length l)%nat) by (apply Nat.div_lt_upper_bound; [exact P|lia]).
    destruct (nth_error l (j / m)) as [x|] eqn:E; [|apply nth_error_None in E; lia].
    destruct (IH (j mod m)%nat (Nat.mod_upper_bound _ _ P)) as (row & E1 & E2 & E3).
    exists (x :: row). rewrite nth_error_map, E1. cbn [option_map]. split; [reflexivity|].
    split; [|cbn; now rewrite E3]. cbn [List.combine]. constructor; [exact E|exact E2].
Qed.

Lemma nth_seq n i x : nth_error (seq 0 n) i = Some x -> x = i.
Proof.
  intro H. assert (i < n)%nat by (rewrite <- (seq_length n 0); apply nth_error_Some; congruence).
  rewrite (nth_error_nth' _ 0%nat) in H by (now rewrite seq_length). rewrite seq_nth in H by assumption.
  now injection H as <-.
Qed.

Lemma indexes_nth (ns : list nat) j : (j < total ns)%nat ->
  nth_error (cart (map (seq 0) ns)) j = Some (choose ns j).
Proof.
  intro H. assert (E : map (@List.length nat) (map (seq 0) ns) = ns).
  { rewrite map_map. rewrite <- (map_id ns) at 2. apply map_ext. intro. apply seq_length. }
  destruct (cart_nth (map (seq 0) ns) j) as (row & E1 & E2 & E3); [now rewrite E|]. rewrite E in E2.
  rewrite E1. f_equal. revert E2 E3. generalize (choose ns j). clear.
  revert row. induction ns as [|n ns IH]; intros row idx F L; cbn in *; destruct row as [|x row]; try discriminate.
  - inversion F. reflexivity.
  - inversion F; subst. f_equal; [cbn in *; eapply nth_seq; eassumption|]. apply IH; [assumption|cbn in L; lia].
Qed.

(** * Texts *)
Lemma repr_own ident v : forall t, repr_ ident v = Some t <-> own_text ident v t.
Proof.
  induction v; intro t; cbn; split; intro H; try discriminate H;
    try (injection H as <-; constructor); try (inversion H; subst; reflexivity); try (inversion H; fail).
  - destruct ((List.length s <=? 10)%nat && ident s) eqn:E; [|discriminate]. injection H as <-.
    apply andb_true_iff in E as [E1 E2]. apply Nat.leb_le in E1. now constructor.
  - inversion H; subst. apply Nat.leb_le in H1. now rewrite H1, H2.
  - destruct name; [injection H as <-; constructor|]. constructor. now apply IHv.
  - inversion H; subst; [reflexivity|]. now apply IHv.
Qed.

Lemma reprs_loop_some ident vs l : reprs_loop ident vs = Some l -> Forall2 (own_text ident) vs l.
Proof.
  revert l. induction vs as [|v vs IH]; cbn; intros l H; [injection H as <-; constructor|].
  destruct (repr_ ident v) as [r|] eqn:E; [|discriminate]. destruct (reprs_loop ident vs) as [rs|]; [|discriminate].
  injection H as <-. constructor; [now apply repr_own|auto].
Qed.
Lemma reprs_loop_none ident vs : reprs_loop ident vs = None -> exists w, In w vs /\ forall u, ~ own_text ident w u.
Proof.
  induction vs as [|v vs IH]; cbn; intros H; [discriminate|].
  destruct (repr_ ident v) as [r|] eqn:E.
  - destruct (reprs_loop ident vs) as [rs|]; [discriminate|]. destruct (IH eq_refl) as (w & I & N). exists w. auto.
  - exists v. split; [auto|]. intros u O. apply repr_own in O. congruence.
Qed.

Lemma Forall2_nth {A B} (R : A -> B -> Prop) l l' : Forall2 R l l' -> forall i x, nth_error l i = Some x ->
  exists y, nth_error l' i = Some y /\ R x y.
Proof.
  induction 1; intros [|i] z E; cbn in *; try discriminate; [|auto].
  injection E as <-. eauto.
Qed.

Lemma reprs_shown ident vs i : (i < List.length vs)%nat ->
  exists t, nth_error (reprs ident vs) i = Some t /\ shown ident vs i t.
Proof.
  intro B. unfold reprs. destruct (reprs_loop ident vs) as [l|] eqn:E.
  - apply reprs_loop_some in E. destruct (nth_error vs i) as [v|] eqn:Ev; [|apply nth_error_None in Ev; lia].
    destruct (Forall2_nth _ _ _ E _ _ Ev) as (t & Et & O). exists t. split; [exact Et|].
    apply shown_own with (v := v); auto. clear - E. induction E; constructor; eauto.
  - apply reprs_loop_none in E as (w & I & N).
    rewrite nth_error_map, (nth_error_nth' _ 0%nat) by (now rewrite seq_length).
    rewrite seq_nth by assumption. cbn. eexists. split; [reflexivity|].
    destruct (str_int_decimal (Z.of_nat i)) as [D V]; [lia|].
    apply shown_index with (w := w); auto.
Qed.

(** * Generation *)
Lemma Forall2_len {A B} (R : A -> B -> Prop) l l' : Forall2 R l l' -> List.length l = List.length l'.
Proof. induction 1; cbn; congruence. Qed.
Lemma mapR_ok {A B} (f : A -> result B) l l' : mapR f l = Ok l' <-> Forall2 (fun x y => f x = Ok y) l l'.
Proof.
  revert l'. induction l as [|x l IH]; intro l'; cbn.
  - split; [intros [= <-]; constructor|intro H; now inversion H].
  - destruct (f x) as [y|e] eqn:E; cbn.
    + destruct (mapR f l) as [ys|e] eqn:E'; cbn.
      * split; [intros [= <-]; constructor; [exact E|now apply IH]|].
        intro H. inversion H; subst. rewrite E in H2. injection H2 as ->.
        apply IH in H4. now injection H4 as ->.
      * split; [discriminate|]. intro H. inversion H; subst. apply IH in H4. discriminate.
    + split; [discriminate|]. intro H. inversion H; subst. congruence.
Qed.
Lemma mapR_total {A B} (f : A -> result B) l : (forall x, In x l -> exists y, f x = Ok y) -> exists l', mapR f l = Ok l'.
Proof.
  induction l as [|x l IH]; intro H; cbn; [eauto|].
  destruct (H x (or_introl eq_refl)) as [y ->]. cbn. destruct IH as [ys ->]; [intros; apply H; now right|]. cbn. eauto.
Qed.

Lemma column_ok k rows col : mapR (column_item k) rows = Ok col <-> column rows k col.
Proof.
  rewrite mapR_ok. unfold column, column_item. split; intro H; induction H; constructor; auto.
  - destruct (seq_of x) as [l0|]; [|discriminate]. destruct (nth_error l0 k) eqn:E; [|discriminate].
    injection H as <-. eauto.
  - destruct H as (l0 & -> & ->). reflexivity.
Qed.
Lemma column_exists rows k n : Forall (fun r => exists l, seq_of r = Some l /\ List.length l = n) rows ->
  (k < n)%nat -> exists col, column rows k col.
Proof.
  intros F L. induction F as [|r rows (l & E & Ln) _ (col & C)]; [exists []; constructor|].
  destruct (nth_error l k) as [v|] eqn:Ev; [|apply nth_error_None in Ev; lia].
  exists (v :: col). constructor; [eauto|exact C].
Qed.
Lemma column_fun rows k col col' : column rows k col -> column rows k col' -> col = col'.
Proof.
  intro H. revert col'. induction H as [|r v rows col (l & E & N) _ IH]; intros col' H';
    inversion H' as [|? v' ? col2 (l2 & E2 & N2) H2]; subst; [reflexivity|].
  f_equal; [congruence|auto].
Qed.
Lemma column_length rows k col : column rows k col -> List.length col = List.length rows.
Proof. intro H. symmetry. eapply Forall2_len; exact H. Qed.

(** The table of texts holds the texts of the columns. *)
Definition holds (ident : pystr -> bool) (rs : list (pystr * list pystr)) (o : option_) : Prop :=
  match fst o with
  | ONE n => dict_get rs n = Some (reprs ident (snd o))
  | GROUP ns => forall k n, nth_error ns k = Some n -> exists col, column (snd o) k col /\
                  dict_get rs n = Some (reprs ident col)
  end.

Lemma group_reprs_ok ident ns rows : forall k d N,
  Forall (fun r => exists l, seq_of r = Some l /\ List.length l = N) rows -> (k + List.length ns <= N)%nat -> NoDup ns ->
  exists rs, group_reprs ident k ns rows d = Ok rs /\
    (forall n, ~ In n ns -> dict_get rs n = dict_get d n) /\
    (forall j n, nth_error ns j = Some n -> exists col, column rows (k + j) col /\ dict_get rs n = Some (reprs ident col)).
Proof.
  induction ns as [|n ns IH]; intros k d N F L ND; cbn [group_reprs].
  - exists d. split; [reflexivity|]. split; [auto|]. intros [|j] m E; discriminate E.
  - inversion ND; subst. cbn in L. destruct (column_exists rows k N F) as [col C]; [lia|].
    pose proof (proj2 (column_ok k rows col) C) as Ec. rewrite Ec. cbn [bind].
    destruct (IH (S k) (dict_set d n (reprs ident col)) N F) as (rs & E & U & G); [lia|assumption|].
    exists rs. split; [exact E|]. split.
    + intros m Hm. rewrite U by (intro X; apply Hm; now right). rewrite dict_set_get.
      destruct (pystr_eqb n m) eqn:Q; [|reflexivity]. apply Base.pystr_eqb_eq in Q. subst. exfalso. apply Hm. now left.
    + intros [|j] m Em; cbn in Em.
      * injection Em as <-. rewrite Nat.add_0_r. exists col. split; [exact C|].
        rewrite U by assumption. rewrite dict_set_get. now rewrite pystr_eqb_refl.
      * rewrite <- Nat.add_succ_comm. apply G. exact Em.
Qed.

Lemma option_reprs_ok ident opts : forall d, well_formed opts ->
  exists rs, option_reprs ident opts d = Ok rs /\
    (forall n, ~ In n (concat (map names_of opts)) -> dict_get rs n = dict_get d n) /\ Forall (holds ident rs) opts.
Proof.
  induction opts as [|[nm vs] opts IH]; intros d [S ND]; cbn [option_reprs].
  - exists d. split; [reflexivity|]. split; [auto|constructor].
  - inversion S; subst. cbn [map concat] in ND.
    assert (W : well_formed opts).
    { split; [assumption|]. clear - ND. induction (names_of (nm, vs)); cbn in ND; [exact ND|]. inversion ND; auto. }
    assert (DJ : forall n, In n (names_of (nm, vs)) -> ~ In n (concat (map names_of opts))).
    { intros n I I'. clear - ND I I'. induction (names_of (nm, vs)); [contradiction|]. inversion ND; subst.
      destruct I as [->|I]; [|auto]. apply H1. apply in_or_app. now right. }
    destruct nm as [n|ns].
    + destruct (IH (dict_set d n (reprs ident vs)) W) as (rs & E & U & G). exists rs. split; [exact E|]. split.
      * intros m Hm. cbn in Hm. rewrite U by tauto. rewrite dict_set_get.
        destruct (pystr_eqb n m) eqn:Q; [|reflexivity]. apply Base.pystr_eqb_eq in Q. tauto.
      * constructor; [|exact G]. unfold holds. cbn. rewrite U by (apply DJ; now left).
        rewrite dict_set_get, pystr_eqb_refl. reflexivity.
    + unfold shaped in H1. cbn [fst snd] in H1.
      destruct (group_reprs_ok ident ns vs 0 d (List.length ns)) as (rs1 & E1 & U1 & G1); [exact H1|lia| |].
      { clear - ND. cbn in ND. induction ns; [constructor|]. inversion ND; subst. constructor; [|auto].
        intro. apply H1. apply in_or_app. now left. }
      rewrite E1. cbn [bind]. destruct (IH rs1 W) as (rs & E & U & G). exists rs. split; [exact E|]. split.
      * intros m Hm. cbn in Hm. rewrite in_app_iff in Hm. rewrite U by tauto. apply U1. tauto.
      * constructor; [|exact G]. unfold holds. cbn. intros k n En. destruct (G1 k n En) as (col & C & D).
        exists col. split; [exact C|]. rewrite U; [exact D|]. apply DJ. cbn. eapply nth_error_In; exact En.
Qed.

Lemma dict_set_new {A} (d : list (pystr * A)) k v : ~ In k (map fst d) -> dict_set d k v = d ++ [(k, v)].
Proof.
  induction d as [|[a x] d IH]; cbn; intro H; [reflexivity|].
  destruct (pystr_eqb a k) eqn:E; [apply Base.pystr_eqb_eq in E; tauto|]. rewrite IH; tauto.
Qed.

Lemma unparam_plain v : unparam v = plain v. Proof. now destruct v. Qed.

Lemma group_kwargs_ok ident rs rows i ns : forall k row t N,
  (forall j n, nth_error ns j = Some n -> exists col, column rows (k + j) col /\ dict_get rs n = Some (reprs ident col)) ->
  Forall (fun r => exists l, seq_of r = Some l /\ List.length l = N) rows -> (k + List.length ns = N)%nat ->
  forall r0 full, nth_error rows i = Some r0 -> seq_of r0 = Some full -> row = skipn k full ->
  NoDup (map fst (g_kwargs t) ++ ns) ->
  exists args txt, group_chosen ident rows i k ns args txt /\ map fst args = ns /\
    group_kwargs rs i ns row t = Ok (GTest (g_kwargs t ++ args) (g_name t ++ txt)).
Proof.
  induction ns as [|n ns IH]; intros k row t N H F L r0 full Er0 Efull Erow ND.
  - exists [], []. split; [constructor|]. split; [reflexivity|]. destruct t as [kw nm]. cbn.
    rewrite !app_nil_r. reflexivity.
  - assert (Lf : List.length full = N).
    { rewrite Forall_forall in F. destruct (F r0 (nth_error_In _ _ Er0)) as (l & E & El). congruence. }
    cbn in L. destruct row as [|v row].
    { assert (List.length (skipn k full) = 0%nat) by (now rewrite <- Erow). rewrite skipn_length in H0. lia. }
    assert (Ev : nth_error full k = Some v).
    { rewrite <- (firstn_skipn k full). rewrite nth_error_app2; rewrite firstn_length_le by lia; [|lia].
      rewrite Nat.sub_diag, <- Erow. reflexivity. }
    assert (Er : row = skipn (S k) full).
    { clear - Erow. revert full Erow. induction k as [|k IHk]; intros [|a full] E; cbn in *; try discriminate; [congruence|].
      apply IHk. exact E. }
    destruct (H 0%nat n eq_refl) as (col & C & D). rewrite Nat.add_0_r in C.
    assert (Ec : nth_error col i = Some v).
    { destruct (Forall2_nth _ _ _ C _ _ Er0) as (v' & E' & (l & El & En)). congruence. }
    assert (Bi : (i < List.length col)%nat) by (apply nth_error_Some; congruence).
    destruct (reprs_shown ident col i Bi) as (tx & Etx & Sh).
    apply NoDup_remove in ND as ND'. destruct ND' as [ND1 ND2]. rewrite in_app_iff in ND2.
    destruct (IH (S k) row (GTest (dict_set (g_kwargs t) n (unparam v)) (g_name t ++ piece n tx)) N) with (r0 := r0) (full := full)
      as (args & txt & GC & Ka & E); auto.
    + intros j m Em. rewrite Nat.add_succ_comm. apply H. exact Em.
    + lia.
    + cbn [g_kwargs]. rewrite dict_set_new by tauto. rewrite map_app. cbn [map fst].
      rewrite <- app_assoc. exact ND.
    + exists ((n, plain v) :: args), (shown_as n tx ++ txt). split; [econstructor; eassumption|].
      split; [cbn; now rewrite Ka|]. cbn [group_kwargs]. unfold piece_text. rewrite D, Etx. cbn [bind].
      rewrite E. cbn [g_kwargs g_name]. rewrite dict_set_new by tauto. rewrite unparam_plain.
      rewrite <- !app_assoc. reflexivity.
Qed.

Lemma select_ok ident rs opts : forall idx t,
  Forall shaped opts -> Forall (holds ident rs) opts -> Forall2 lt idx (lens opts) ->
  NoDup (map fst (g_kwargs t) ++ concat (map names_of opts)) ->
  exists args txt, combo ident opts idx args txt /\ map fst args = concat (map names_of opts) /\
    select rs opts idx t = Ok (GTest (g_kwargs t ++ args) (g_name t ++ txt)).
Proof.
  induction opts as [|[nm vs] opts IH]; intros idx t S H B ND; inversion B; subst.
  - exists [], []. split; [constructor|]. split; [reflexivity|]. destruct t; cbn. now rewrite !app_nil_r.
  - inversion S; subst. inversion H; subst. cbn [snd] in *. rename x into i. rename l into idx.
    destruct (nth_error vs i) as [v|] eqn:Ev; [|apply nth_error_None in Ev; lia].
    cbn [select]. rewrite Ev. destruct nm as [n|ns].
    + unfold holds in H6. cbn [fst snd] in H6. destruct (reprs_shown ident vs i H3) as (tx & Etx & Sh).
      cbn [map names_of fst concat app] in ND. apply NoDup_remove in ND as ND'. destruct ND' as [ND1 ND2].
      rewrite in_app_iff in ND2.
      destruct (IH idx (GTest (dict_set (g_kwargs t) n (unparam v)) (g_name t ++ piece n tx))) as (args & txt & C & Ka & E); auto.
      { cbn [g_kwargs]. rewrite dict_set_new by tauto. rewrite map_app. cbn [map fst]. rewrite <- app_assoc. exact ND. }
      exists ([(n, plain v)] ++ args), (shown_as n tx ++ txt). split; [|split].
      * constructor; [|exact C]. now constructor.
      * cbn. now rewrite Ka.
      * unfold piece_text. rewrite H6, Etx. cbn [bind]. rewrite E. cbn [g_kwargs g_name].
        rewrite dict_set_new by tauto. rewrite unparam_plain, <- !app_assoc. reflexivity.
    + unfold shaped in H2. unfold holds in H6. cbn [fst snd] in *.
      assert (R : exists l, seq_of v = Some l /\ List.length l = List.length ns).
      { rewrite Forall_forall in H2. apply H2. eapply nth_error_In; exact Ev. }
      destruct R as (l & El & Ll). rewrite El. cbn [map names_of fst concat] in ND.
      destruct (group_kwargs_ok ident rs vs i ns 0 l t (List.length ns)) with (r0 := v) (full := l)
        as (args1 & txt1 & GC & K1 & E1); auto.
      { rewrite app_assoc in ND. clear - ND. induction (map fst (g_kwargs t) ++ ns); [constructor|].
        inversion ND; subst. constructor; [|auto]. intro. apply H1. apply in_or_app. now left. }
      rewrite E1. cbn [bind].
      destruct (IH idx (GTest (g_kwargs t ++ args1) (g_name t ++ txt1))) as (args & txt & C & Ka & E); auto.
      { cbn [g_kwargs]. rewrite map_app, K1, <- app_assoc. exact ND. }
      exists (args1 ++ args), (txt1 ++ txt). split; [|split].
      * constructor; [constructor; assumption|exact C].
      * rewrite map_app, K1, Ka. reflexivity.
      * rewrite E. cbn [g_kwargs g_name]. rewrite <- !app_assoc. reflexivity.
Qed.


Lemma generate_pf ident name opts : well_formed opts ->
  exists ts, generate_tests ident name opts = Ok ts /\ List.length ts = total (lens opts) /\
  forall j, (j < total (lens opts))%nat -> exists t txt, nth_error ts j = Some t /\
    combo ident opts (choose (lens opts) j) (g_kwargs t) txt /\ g_name t = name ++ txt.
Proof.
  intro W. unfold generate_tests. destruct (option_reprs_ok ident opts [] W) as (rs & E & _ & H). rewrite E. cbn [bind].
  assert (EL : forall l : list option_, map (fun o => seq 0 (List.length (snd o))) l = map (seq 0) (lens l)).
  { intro l. unfold lens. now rewrite map_map. }
  rewrite EL. set (cs := cart (map (seq 0) (lens opts))).
  assert (Lc : List.length cs = total (lens opts)).
  { unfold cs. rewrite cart_length, map_map. f_equal. rewrite <- (map_id (lens opts)) at 2. apply map_ext. intro. apply seq_length. }
  assert (Sel : forall j, (j < total (lens opts))%nat -> exists args txt,
      combo ident opts (choose (lens opts) j) args txt /\
      select rs opts (choose (lens opts) j) (GTest [] name) = Ok (GTest args (name ++ txt))).
  { intros j B. destruct W as [S ND].
    destruct (select_ok ident rs opts (choose (lens opts) j) (GTest [] name)) as (args & txt & C & _ & Es); auto.
    - now apply choose_bounds.
    - exists args, txt. auto. }
  destruct (mapR_total (fun idx => select rs opts idx (GTest [] name)) cs) as [ts Ets].
  { intros idx I. apply In_nth_error in I as [j Ej]. assert (B : (j < total (lens opts))%nat).
    { rewrite <- Lc. apply nth_error_Some. congruence. }
    unfold cs in Ej. rewrite indexes_nth in Ej by exact B. injection Ej as <-.
    destruct (Sel j B) as (args & txt & _ & Es). eauto. }
  exists ts. split; [exact Ets|]. apply mapR_ok in Ets. split.
  - rewrite <- Lc. symmetry. eapply Forall2_len; exact Ets.
  - intros j B. destruct (Forall2_nth _ _ _ Ets j (choose (lens opts) j)) as (t & Et & Es).
    { unfold cs. now apply indexes_nth. }
    destruct (Sel j B) as (args & txt & C & Es'). rewrite Es' in Es. injection Es as <-. exists (GTest args (name ++ txt)), txt.
    auto.
Qed.

(** * Distinct names *)
Lemma shown_clean ident col i t : Forall (clean_text ident) col -> shown ident col i t -> ~ In 47 t.
Proof.
  intros F [v u _ E O|w u _ _ _ [_ D] _].
  - rewrite Forall_forall in F. apply (F v); [eapply nth_error_In; exact E|exact O].
  - intro I. rewrite Forall_forall in D. apply D in I. lia.
Qed.
(** Two texts without a slash, each followed by nothing or a slash. *)
Definition after_ok (r : pystr) : Prop := r = [] \/ exists r', r = 47 :: r'.
Lemma cut_slash a : forall b r s, ~ In 47 a -> ~ In 47 b -> after_ok r -> after_ok s -> a ++ r = b ++ s -> a = b /\ r = s.
Proof.
  induction a as [|x a IH]; intros [|y b] r s Na Nb Hr Hs E; cbn in E.
  - auto.
  - exfalso. destruct Hr as [->|[r' ->]]; [discriminate|]. injection E as <- _. apply Nb. now left.
  - exfalso. destruct Hs as [->|[s' ->]]; [discriminate|]. injection E as -> _. apply Na. now left.
  - injection E as -> E. destruct (IH b r s) as [-> ->]; auto; intro; [apply Na|apply Nb]; now right.
Qed.
Lemma shown_as_after n t r : after_ok (shown_as n t ++ r).
Proof. right. unfold shown_as. cbn. eauto. Qed.
Lemma group_after ident rows i k ns args txt r : group_chosen ident rows i k ns args txt -> after_ok r -> after_ok (txt ++ r).
Proof. intros G R. destruct G; [exact R|]. rewrite <- app_assoc. apply shown_as_after. Qed.
Lemma combo_after ident opts idx args txt : combo ident opts idx args txt -> after_ok txt.
Proof.
  induction 1; [now left|]. destruct H.
  - apply shown_as_after.
  - eapply group_after; eassumption.
Qed.
Lemma column_clean ident rows k col :
  Forall (fun r => forall l, seq_of r = Some l -> Forall (clean_text ident) l) rows -> column rows k col ->
  Forall (clean_text ident) col.
Proof.
  intros F C. induction C as [|r v rows col (l & E & N) _ IH]; [constructor|]. inversion F; subst. constructor; [|auto].
  specialize (H1 l E). rewrite Forall_forall in H1. apply H1. eapply nth_error_In; exact N.
Qed.
Lemma shown_as_cut n t t' r s : ~ In 47 t -> ~ In 47 t' -> after_ok r -> after_ok s ->
  shown_as n t ++ r = shown_as n t' ++ s -> t = t' /\ r = s.
Proof.
  intros N N' R S E. unfold shown_as in E. rewrite <- !app_assoc in E. apply app_inv_head in E. apply app_inv_head in E.
  apply app_inv_head in E. now apply cut_slash in E.
Qed.
Lemma group_cut ident rows i i' k ns a a' p p' r s :
  Forall (fun q => forall l, seq_of q = Some l -> Forall (clean_text ident) l) rows ->
  group_chosen ident rows i k ns a p -> group_chosen ident rows i' k ns a' p' -> after_ok r -> after_ok s ->
  p ++ r = p' ++ s -> p = p' /\ r = s.
Proof.
  intros F G. revert i' a' p'. induction G; intros i' a' p' G' R S E; inversion G'; subst; [auto|].
  rewrite <- !app_assoc in E. apply shown_as_cut in E.
  - destruct E as [-> E]. eapply IHG in E as [-> ->]; eauto.
  - eapply shown_clean; [|eassumption]. eapply column_clean; [exact F|eassumption].
  - eapply shown_clean; [|eassumption]. eapply column_clean; [exact F|eassumption].
  - eapply group_after; eassumption.
  - eapply group_after; eassumption.
Qed.

Lemma combo_inv ident o opts idx a p : combo ident (o :: opts) idx a p ->
  exists i idx' a1 a2 p1 p2, idx = i :: idx' /\ a = a1 ++ a2 /\ p = p1 ++ p2 /\
    chosen ident o i a1 p1 /\ combo ident opts idx' a2 p2.
Proof. intro H. inversion H; subst. do 6 eexists. eauto. Qed.
Lemma chosen_cut ident o i i' a a' p p' r s : clean ident o -> chosen ident o i a p -> chosen ident o i' a' p' ->
  after_ok r -> after_ok s -> p ++ r = p' ++ s -> p = p' /\ r = s.
Proof.
  intros C H H' R S E. destruct H; inversion H'; subst; unfold clean in C; cbn [fst snd] in C.
  - apply shown_as_cut in E; auto; [destruct E; subst; auto| |]; eapply shown_clean; eassumption.
  - eapply group_cut in E; eauto.
Qed.
Lemma combo_cut ident opts : Forall (clean ident) opts -> Forall (told_apart ident) opts ->
  forall idx idx' a a' p, combo ident opts idx a p -> combo ident opts idx' a' p -> idx = idx'.
Proof.
  intros C T. induction opts as [|o opts IH]; intros idx idx' a a' p H H'.
  - inversion H; inversion H'; subst; reflexivity.
  - inversion C; subst. inversion T; subst.
    apply combo_inv in H as (i & ix & a1 & a2 & p1 & p2 & -> & -> & -> & H & G).
    apply combo_inv in H' as (i' & ix' & b1 & b2 & q1 & q2 & -> & -> & E & H' & G').
    destruct (chosen_cut _ _ _ _ _ _ _ _ _ _ H2 H H' (combo_after _ _ _ _ _ G) (combo_after _ _ _ _ _ G') E) as [-> ->].
    f_equal; [|eapply IH; eassumption]. eapply H4; eassumption.
Qed.

Lemma names_distinct_pf ident name opts ts : well_formed opts -> Forall (clean ident) opts -> Forall (told_apart ident) opts ->
  generate_tests ident name opts = Ok ts -> NoDup (map g_name ts).
Proof.
  intros W C T E. destruct (generate_pf ident name opts W) as (ts' & E' & L & G). rewrite E in E'. injection E' as <-.
  apply NoDup_nth_error. intros i j Bi Eij. rewrite map_length, L in Bi. rewrite !nth_error_map in Eij.
  destruct (G i Bi) as (t & tx & Et & Ct & Nt). rewrite Et in Eij. cbn in Eij.
  destruct (nth_error ts j) as [u|] eqn:Eu; [|discriminate]. cbn in Eij. injection Eij as Eij.
  assert (Bj : (j < total (lens opts))%nat) by (rewrite <- L; apply nth_error_Some; congruence).
  destruct (G j Bj) as (u' & ux & Eu' & Cu & Nu). rewrite Eu in Eu'. injection Eu' as <-.
  rewrite Nt, Nu in Eij. apply app_inv_head in Eij. subst ux.
  apply (choose_inj (lens opts)); auto. eapply combo_cut; eassumption.
Qed.

Lemma own_fun ident v t : own_text ident v t -> forall u, own_text ident v u -> t = u.
Proof. intros H u H'. apply repr_own in H, H'. congruence. Qed.
Lemma chosen_one_inv ident n vs i a p : chosen ident (ONE n, vs) i a p ->
  exists t, p = shown_as n t /\ shown ident vs i t.
Proof. intro H. inversion H; subst. eauto. Qed.
(** Positions are told apart when some value has no text, or all texts differ. *)
Lemma told_apart_one ident n vs :
  (exists w, In w vs /\ forall u, ~ own_text ident w u) \/
  (forall i j v w t, nth_error vs i = Some v -> nth_error vs j = Some w -> own_text ident v t -> own_text ident w t -> i = j) ->
  told_apart ident (ONE n, vs).
Proof.
  intros H i j a a' p C C'. apply chosen_one_inv in C as (t & -> & H5). apply chosen_one_inv in C' as (t0 & Et & H9).
  unfold shown_as in Et. apply app_inv_head in Et. apply app_inv_head in Et. apply app_inv_head in Et. subst t0.
  destruct H as [(w & I & N)|H].
  - destruct H5 as [? ? F _ _|? ? _ _ _ _ V].
    + rewrite Forall_forall in F. destruct (F w I) as [u O]. now apply N in O.
    + destruct H9 as [? ? F _ _|? ? _ _ _ _ V'].
      * rewrite Forall_forall in F. destruct (F w I) as [u O]. now apply N in O.
      * lia.
  - destruct H5 as [v1 t F E O|w t I N _ _ V].
    + destruct H9 as [v2 t F' E' O'|w t I N _ _ _]; [eapply H; eassumption|].
      rewrite Forall_forall in F. destruct (F w I) as [u O']. now apply N in O'.
    + destruct H9 as [v2 t F' E' O'|? t _ _ _ _ V']; [|lia].
      rewrite Forall_forall in F'. destruct (F' w I) as [u O]. now apply N in O.
Qed.

(** * Decorators *)
Lemma set_add_in s x y : In y (set_add s x) <-> In y s \/ y = x.
Proof.
  unfold set_add. destruct (existsb (Z.eqb x) s) eqn:E.
  - apply existsb_exists in E as (z & I & Q). apply Z.eqb_eq in Q. subst z. split; [tauto|intros [H| ->]; assumption].
  - rewrite in_app_iff. cbn. intuition.
Qed.
Lemma fold_add_in l : forall s y, In y (fold_left set_add l s) <-> In y s \/ In y l.
Proof.
  induction l as [|x l IH]; intros s y; cbn; [tauto|]. rewrite IH, set_add_in. intuition.
Qed.
Lemma add_raises_ok l : forall s, (exists s', add_raises s l = Ok s') <-> ~ In None l.
Proof.
  induction l as [|[e|] l IH]; intro s; cbn.
  - split; [tauto|eauto].
  - rewrite IH. intuition discriminate.
  - split; [intros [? [=]]|tauto].
Qed.
Lemma add_raises_in l : forall s s', add_raises s l = Ok s' -> forall y, In y s' <-> In y s \/ In (Some y) l.
Proof.
  induction l as [|[e|] l IH]; intros s s' H y; cbn in *.
  - injection H as <-. tauto.
  - rewrite (IH _ _ H), set_add_in. intuition congruence.
  - discriminate.
Qed.

Lemma check_option_ok ident t o : check_option ident t = Ok o <-> t = TPair o /\ fine_option ident t.
Proof.
  assert (D : forall A : Prop, ValueError = TypeError -> A) by discriminate.
  destruct t as [[[n|ns] vs]|]; cbn.
  - destruct (ident n) eqn:E; split.
    + intros [= <-]. split; [reflexivity|]. split; [repeat constructor; exact E|exact Logic.I].
    + intros [[= <-] _]. reflexivity.
    + discriminate.
    + intros [_ [F _]]. inversion F; congruence.
  - destruct (forallb ident ns) eqn:E; cbn.
    + assert (F : Forall (fun n => ident n = true) ns).
      { rewrite forallb_forall in E. now apply Forall_forall. }
      match goal with |- context[mapR ?f vs] => set (g := f) end.
      assert (G : (exists u, mapR g vs = Ok u) <-> shaped (GROUP ns, vs)).
      { unfold shaped. cbn [fst snd]. rewrite Forall_forall. split.
        - intros [u Hu] r I. apply mapR_ok in Hu. apply In_nth_error in I as [k Ek].
          destruct (Forall2_nth _ _ _ Hu _ _ Ek) as (y & _ & Ey). unfold g in Ey.
          destruct (seq_of r) as [l|]; [|discriminate]. exists l. split; [reflexivity|].
          destruct (Nat.eqb_spec (List.length ns) (List.length l)); [auto|discriminate].
        - intro H. apply mapR_total. intros r I. destruct (H r I) as (l & El & L). unfold g. rewrite El.
          rewrite <- L, Nat.eqb_refl. eauto. }
      destruct (mapR g vs) as [u|e]; cbn [bind]; split.
      * intros [= <-]. split; [reflexivity|]. split; [exact F|]. apply G. eauto.
      * intros [[= <-] _]. reflexivity.
      * discriminate.
      * intros [_ [_ S]]. apply G in S as [? [=]].
    + split; [discriminate|]. intros [_ [F _]]. exfalso. rewrite <- not_true_iff_false in E. apply E.
      apply forallb_forall. now apply Forall_forall.
  - split; [discriminate|tauto].
Qed.

Lemma apply_ok ident d g : (exists g', apply_deco ident d g = Ok g') <-> fine ident d.
Proof.
  destruct d as [|? ? ? ? ? ?|ts named|c|[] [| |l|]]; cbn; try (split; [tauto|eauto; fail]); try (split; [intros; exact Logic.I|eauto]).
  - split.
    + destruct (mapR (check_option ident) ts) as [os|] eqn:E; cbn; [|intros [? [=]]]. intros _.
      apply mapR_ok in E. clear - E. induction E; constructor; auto. now apply check_option_ok in H.
    + intro F. destruct (mapR_total (check_option ident) ts) as [os E].
      { intros t I. rewrite Forall_forall in F. specialize (F t I). destruct t as [o|]; [|contradiction].
        exists o. now apply check_option_ok. }
      rewrite E. cbn. eauto.
  - rewrite <- (add_raises_ok l (n_expect_error g)). destruct (add_raises (n_expect_error g) l); cbn; split; intros [? X]; eauto; discriminate.
  - split; [intros [? [=]]|tauto].
Qed.

Lemma apply_effect ident d g g' : apply_deco ident d g = Ok g' ->
  (n_skip g' = true <-> n_skip g = true \/ asks_skip d) /\
  (n_expect_fail g' = true <-> n_expect_fail g = true \/ asks_fail d) /\
  (forall e, In e (n_expect_error g') <-> In e (n_expect_error g) \/ asks_error d e) /\
  n_stage g' = match stage_of d with Some s => s | None => n_stage g end /\
  n_name g' = match name_of d with Some s => s | None => n_name g end /\
  n_timeout g' = match timeout_of d with Some s => Some s | None => n_timeout g end /\
  n_options g' = options_of d ++ n_options g.
Proof.
  destruct g as [to ef ee sk st nm op].
  destruct d as [|dt df de ds dst dn|ts named|c|c r]; cbn.
  - intros [= <-]. cbn. tauto.
  - intros [= <-]. cbn. repeat split; try (destruct ds as [[]|]; rewrite ?orb_true_r, ?orb_false_r; tauto);
      try (destruct df as [[]|]; rewrite ?orb_true_r, ?orb_false_r; tauto);
      try (apply fold_add_in).
  - destruct (mapR (check_option ident) ts) as [os|] eqn:E; cbn; [|discriminate]. intros [= <-]. cbn.
    assert (O : os = concat (map topts_of ts)).
    { apply mapR_ok in E. clear - E. induction E as [|t o ts os H _ IH]; cbn; [reflexivity|].
      apply check_option_ok in H as [-> _]. cbn. now rewrite IH. }
    rewrite <- O, <- app_assoc. repeat split; try tauto. f_equal. f_equal. apply map_ext. now intros [? ?].
  - intros [= <-]. cbn. destruct c; rewrite ?orb_true_r, ?orb_false_r; repeat split; tauto.
  - destruct c; [|intros [= <-]; cbn; repeat split; tauto]. destruct r as [|e|l|]; cbn.
    + intros [= <-]. cbn. repeat split; tauto.
    + intros [= <-]. cbn. repeat split; try tauto; rewrite set_add_in; intuition.
    + destruct (add_raises ee l) as [s|] eqn:E; [|discriminate]. cbn. intros [= <-]. cbn.
      repeat split; try tauto; apply (add_raises_in _ _ _ E).
    + discriminate.
Qed.

Lemma decorate_ok ident ds : forall g, (exists g', decorate ident ds g = Ok g') <-> Forall (fine ident) ds.
Proof.
  induction ds as [|d ds IH]; intro g; cbn; [split; eauto|]. split.
  - destruct (apply_deco ident d g) as [g1|] eqn:E; cbn; [|intros [? [=]]]. intro H. constructor; [|now apply (IH g1)].
    apply (apply_ok ident d g). eauto.
  - intro F. inversion F; subst. apply (apply_ok ident d g) in H1 as [g1 ->]. cbn. now apply IH.
Qed.

Lemma decorate_effect ident ds : forall g g', decorate ident ds g = Ok g' ->
  (n_skip g' = true <-> n_skip g = true \/ exists d, In d ds /\ asks_skip d) /\
  (n_expect_fail g' = true <-> n_expect_fail g = true \/ exists d, In d ds /\ asks_fail d) /\
  (forall e, In e (n_expect_error g') <-> In e (n_expect_error g) \/ exists d, In d ds /\ asks_error d e) /\
  n_stage g' = outermost stage_of ds (n_stage g) /\
  n_name g' = outermost name_of ds (n_name g) /\
  n_timeout g' = outermost (fun d => option_map Some (timeout_of d)) ds (n_timeout g) /\
  n_options g' = concat (map options_of (rev ds)) ++ n_options g.
Proof.
  induction ds as [|d ds IH]; intros g g' H; cbn in H.
  - injection H as <-. cbn. repeat split; intuition; match goal with X : exists _, False /\ _ |- _ => destruct X as (? & [] & _) end.
  - destruct (apply_deco ident d g) as [g1|] eqn:E; cbn in H; [|discriminate].
    apply apply_effect in E as (A1 & A2 & A3 & A4 & A5 & A6 & A7).
    apply IH in H as (B1 & B2 & B3 & B4 & B5 & B6 & B7).
    split; [|split; [|split; [|split; [|split; [|split]]]]].
    + rewrite B1, A1. cbn. split; [intros [[H|H]|(x & I & H)]|intros [H|(x & [->|I] & H)]]; eauto 6.
    + rewrite B2, A2. cbn. split; [intros [[H|H]|(x & I & H)]|intros [H|(x & [->|I] & H)]]; eauto 6.
    + intro e. rewrite B3, A3. cbn. split; [intros [[H|H]|(x & I & H)]|intros [H|(x & [->|I] & H)]]; eauto 6.
    + rewrite B4, A4. reflexivity.
    + rewrite B5, A5. reflexivity.
    + rewrite B6, A6. cbn. destruct (timeout_of d); reflexivity.
    + rewrite B7, A7. cbn. rewrite map_app, concat_app. cbn. now rewrite app_nil_r, app_assoc.
Qed.

(** * TestFactory *)
Lemma value10_zeros k s : value10 (repeat 48 k ++ s) = value10 s.
Proof. unfold value10. induction k as [|k IH]; cbn [repeat app fold_left]; [reflexivity|exact IH]. Qed.
Lemma pad3_spec n : 0 <= n -> three_digits (pad3 n) n.
Proof.
  intro H. destruct (str_int_decimal n H) as [[Ne D] V]. unfold pad3, three_digits. split; [|split].
  - split.
    + intro E. apply app_eq_nil in E as [_ E]. contradiction.
    + apply Forall_app. split; [|exact D]. apply Forall_forall. intros x I. apply repeat_spec in I. lia.
  - rewrite value10_zeros. exact V.
  - rewrite app_length, repeat_length. lia.
Qed.
Lemma pad3_inj n m : 0 <= n -> 0 <= m -> pad3 n = pad3 m -> n = m.
Proof. intros H K E. pose proof (pad3_spec n H) as (_ & V & _). pose proof (pad3_spec m K) as (_ & V' & _). rewrite E in V. lia. Qed.

Lemma picked_names opts idx a : picked opts idx a -> map fst a = concat (map names_of opts).
Proof.
  induction 1 as [|k vs i v a opts idx a' _ P _ IH]; [reflexivity|]. rewrite map_app, IH. cbn [map concat]. f_equal.
  destruct P as [|ns r l _ L0]; cbn; [reflexivity|].
  clear - L0. revert l L0. induction ns; intros [|x l] L; cbn in *; try discriminate; [reflexivity|]. f_equal. auto.
Qed.

Lemma update_zip_new ns : forall d l, List.length l = List.length ns -> NoDup (map fst d ++ ns) ->
  update_zip d ns l = d ++ List.combine ns l.
Proof.
  induction ns as [|n ns IH]; intros d [|v l] L ND; cbn in *; try discriminate; [now rewrite app_nil_r|].
  apply NoDup_remove in ND as ND'. destruct ND' as [N1 N2]. rewrite in_app_iff in N2.
  rewrite dict_set_new by tauto. rewrite IH; [rewrite <- app_assoc; reflexivity|lia|].
  rewrite map_app. cbn. now rewrite <- app_assoc.
Qed.

Lemma split_options_ok opts : forall row idx d, Forall shaped opts ->
  Forall2 (fun lx i => nth_error (fst lx) i = Some (snd lx)) (List.combine (map snd opts) row) idx ->
  List.length row = List.length opts -> NoDup (map fst d ++ concat (map names_of opts)) ->
  exists a, picked opts idx a /\ split_options (map fst opts) row d = Ok (d ++ a).
Proof.
  induction opts as [|[k vs] opts IH]; intros [|v row] idx d S F L ND; cbn in L; try discriminate.
  - inversion F; subst. exists []. split; [constructor|]. cbn. now rewrite app_nil_r.
  - cbn [map List.combine fst snd] in F. inversion F as [|? ? ? l' Hv F']; subst.
    inversion S as [|? ? Hs S']; subst. cbn [fst snd] in *.
    destruct k as [n|ns]; cbn [map concat names_of fst] in ND.
    + cbn [app] in ND. apply NoDup_remove in ND as ND'. destruct ND' as [N1 N2]. rewrite in_app_iff in N2.
      destruct (IH row l' (d ++ [(n, v)])) as (a & P & E); auto.
      { rewrite map_app. cbn. now rewrite <- app_assoc. }
      exists ([(n, v)] ++ a). split; [econstructor; [eassumption|constructor|exact P]|].
      cbn [map fst split_options]. rewrite dict_set_new by tauto. rewrite E, <- app_assoc. reflexivity.
    + unfold shaped in Hs. cbn [fst snd] in Hs. rewrite Forall_forall in Hs.
      destruct (Hs v) as (l & El & Ll); [eapply nth_error_In; eassumption|].
      destruct (IH row l' (d ++ List.combine ns l)) as (a & P & E); auto.
      { rewrite map_app. rewrite <- app_assoc. enough (map fst (List.combine ns l) = ns) as -> by exact ND.
        clear - Ll. revert l Ll. induction ns; intros [|x l] L; cbn in *; try discriminate; [reflexivity|]. f_equal. auto. }
      exists (List.combine ns l ++ a). split; [econstructor; [eassumption|now constructor|exact P]|].
      cbn [map fst split_options]. rewrite El. rewrite update_zip_new; [|assumption|].
      * rewrite E, <- app_assoc. reflexivity.
      * rewrite app_assoc in ND. clear - ND. induction (map fst d ++ ns); [constructor|]. inversion ND; subst.
        constructor; [|auto]. intro. apply H1. apply in_or_app. now left.
Qed.

Lemma update_dict_get e : forall d n, NoDup (map fst e) ->
  dict_get (update_dict d e) n = match dict_get e n with Some v => Some v | None => dict_get d n end.
Proof.
  unfold update_dict. induction e as [|[k v] e IH]; intros d n ND; cbn in *; [reflexivity|]. inversion ND; subst.
  rewrite IH by assumption. rewrite dict_set_get. destruct (pystr_eqb k n) eqn:E; [|reflexivity].
  apply Base.pystr_eqb_eq in E. subst n.
  assert (dict_get e k = None) as ->; [|reflexivity]. clear - H1. induction e as [|[a b] e IH]; cbn in *; [reflexivity|].
  destruct (pystr_eqb a k) eqn:E; [apply Base.pystr_eqb_eq in E; tauto|tauto].
Qed.

Lemma app_inv_pre (base : pystr) n m : base ++ lit "_" ++ pad3 n = base ++ lit "_" ++ pad3 m -> pad3 n = pad3 m.
Proof. intro E. apply app_inv_head in E. now apply app_inv_head in E. Qed.

Lemma factory_loop_ok base ks consts : forall combos index glbs, 0 <= index ->
  (forall row, In row combos -> exists a, split_options ks row [] = Ok a) ->
  exists glbs', factory_loop base ks consts index combos glbs = Ok glbs' /\
    (forall k, (forall j, (j < List.length combos)%nat -> k <> base ++ lit "_" ++ pad3 (index + Z.of_nat j + 1)) ->
       dict_get glbs' k = dict_get glbs k) /\
    (forall j row a, nth_error combos j = Some row -> split_options ks row [] = Ok a ->
       dict_get glbs' (base ++ lit "_" ++ pad3 (index + Z.of_nat j + 1)) =
       Some (GTest (update_dict consts a) (base ++ lit "_" ++ pad3 (index + Z.of_nat j + 1)))).
Proof.
  induction combos as [|row combos IH]; intros index glbs P H; cbn [factory_loop].
  - exists glbs. split; [reflexivity|]. split; [auto|]. intros [|j] r a E; discriminate E.
  - destruct (H row (or_introl eq_refl)) as [a Ea]. rewrite Ea. cbn [bind].
    set (nm := base ++ lit "_" ++ pad3 (index + 1)). set (g1 := dict_set glbs nm (GTest (update_dict consts a) nm)).
    destruct (IH (index + 1) g1) as (glbs' & E & U & G); [lia|intros r I; apply H; now right|].
    exists glbs'. split; [exact E|]. split.
    + intros k Hk. rewrite U.
      * unfold g1. rewrite dict_set_get. destruct (pystr_eqb nm k) eqn:Q; [|reflexivity].
        apply Base.pystr_eqb_eq in Q. exfalso. apply (Hk 0%nat); [cbn; lia|]. rewrite <- Q. unfold nm.
        replace (index + Z.of_nat 0 + 1) with (index + 1) by lia. reflexivity.
      * intros j Bj. specialize (Hk (S j)). rewrite Nat2Z.inj_succ in Hk.
        replace (index + 1 + Z.of_nat j + 1) with (index + Z.succ (Z.of_nat j) + 1) by lia. apply Hk. cbn. lia.
    + intros [|j] r b Er Eb; cbn [nth_error] in Er.
      * injection Er as <-. rewrite Ea in Eb. injection Eb as <-. replace (index + Z.of_nat 0 + 1) with (index + 1) by lia.
        fold nm. rewrite U.
        -- unfold g1. rewrite dict_set_get, pystr_eqb_refl. reflexivity.
        -- intros j Bj Q. unfold nm in Q. apply app_inv_pre in Q. apply pad3_inj in Q; lia.
      * rewrite Nat2Z.inj_succ. replace (index + Z.succ (Z.of_nat j) + 1) with (index + 1 + Z.of_nat j + 1) by lia.
        apply (G j r b Er Eb).
Qed.

Lemma factory_pf base d consts glbs : well_formed d ->
  exists glbs', factory_generate base d consts glbs = Ok glbs' /\
    (forall j, (j < total (lens d))%nat -> exists args kw num,
       let name := base ++ lit "_" ++ num in
       three_digits num (Z.of_nat j + 1) /\ dict_get glbs' name = Some (GTest kw name) /\
       picked d (choose (lens d) j) args /\
       forall n, dict_get kw n = match dict_get args n with Some v => Some v | None => dict_get consts n end) /\
    (forall k, (forall j num, (j < total (lens d))%nat -> three_digits num (Z.of_nat j + 1) -> k <> base ++ lit "_" ++ num) ->
       dict_get glbs' k = dict_get glbs k).
Proof.
  intros [S ND]. unfold factory_generate.
  assert (EL : map (@List.length pv) (map snd d) = lens d) by (unfold lens; now rewrite map_map).
  assert (Lc : List.length (cart (map snd d)) = total (lens d)) by (now rewrite cart_length, EL).
  assert (Row : forall j, (j < total (lens d))%nat -> exists row args, nth_error (cart (map snd d)) j = Some row /\
            split_options (map fst d) row [] = Ok args /\ picked d (choose (lens d) j) args).
  { intros j B. destruct (cart_nth (map snd d) j) as (row & E1 & E2 & E3); [now rewrite EL|]. rewrite EL in E2.
    rewrite map_length in E3. destruct (split_options_ok d row (choose (lens d) j) []) as (a & P & E); auto.
    exists row, a. auto. }
  destruct (factory_loop_ok base (map fst d) consts (cart (map snd d)) 0 glbs) as (glbs' & E & U & G); [lia| |].
  { intros row I. apply In_nth_error in I as [j Ej]. destruct (Row j) as (r & a & Er & Es & _).
    - rewrite <- Lc. apply nth_error_Some. congruence.
    - rewrite Ej in Er. injection Er as <-. eauto. }
  exists glbs'. split; [exact E|]. split.
  - intros j B. destruct (Row j B) as (row & a & Er & Es & P). specialize (G j row a Er Es).
    exists a, (update_dict consts a), (pad3 (Z.of_nat j + 1)). cbv zeta. split; [apply pad3_spec; lia|]. split; [exact G|].
    split; [exact P|]. intro n. apply update_dict_get. rewrite (picked_names _ _ _ P). exact ND.
  - intros k Hk. apply U. intros j B. apply (Hk j); [now rewrite <- Lc|]. apply pad3_spec. lia.
Qed.

(** * Decorated functions *)
Lemma fine_shaped ident d : fine ident d -> Forall shaped (options_of d).
Proof.
  destruct d; cbn; try (intro; constructor). intro F. apply Forall_app. split.
  - induction F as [|t ts H _ IH]; cbn; [constructor|]. apply Forall_app. split; [|exact IH].
    destruct t; cbn; [|constructor]. constructor; [apply H|constructor].
  - apply Forall_forall. intros o I. apply in_map_iff in I as (nv & <- & _). exact Logic.I.
Qed.
Lemma decorated_pf ident q ds g : decorate ident ds (gen0 q) = Ok g ->
  NoDup (concat (map names_of (n_options g))) -> well_formed (n_options g).
Proof.
  intros E ND. split; [|exact ND]. pose proof (proj1 (decorate_ok ident ds (gen0 q)) (ex_intro _ g E)) as F.
  apply decorate_effect in E as (_ & _ & _ & _ & _ & _ & ->). cbn. rewrite app_nil_r.
  apply Forall_forall. intros o I. apply in_concat in I as (l & I & Io). apply in_map_iff in I as (d & <- & Id).
  apply in_rev in Id. rewrite Forall_forall in F. specialize (F d Id). apply fine_shaped in F.
  rewrite Forall_forall in F. auto.
Qed.

Lemma oname_eqb_eq a b : oname_eqb a b = true <-> a = b.
Proof.
  destruct a as [x|x], b as [y|y]; cbn; try (split; intro H; discriminate H).
  - rewrite Base.pystr_eqb_eq. split; congruence.
  - rewrite andb_true_iff, Nat.eqb_eq. split.
    + intros [L F]. f_equal. revert y L F. induction x as [|a x IH]; intros [|b y] L F; cbn in *; try discriminate; [reflexivity|].
      apply andb_true_iff in F as [E F]. apply Base.pystr_eqb_eq in E. f_equal; auto.
    + intros [= <-]. split; [reflexivity|]. induction x as [|a x IH]; cbn; [reflexivity|]. now rewrite pystr_eqb_refl.
Qed.
Lemma fdict_set_new d k v : ~ In k (map fst d) -> fdict_set d k v = d ++ [(k, v)].
Proof.
  induction d as [|[k' v'] d IH]; cbn; intro H; [reflexivity|].
  destruct (oname_eqb k' k) eqn:E; [apply oname_eqb_eq in E; tauto|]. rewrite IH; tauto.
Qed.
Lemma fdict_set_old d1 k v v' d2 : ~ In k (map fst d1) -> fdict_set (d1 ++ (k, v) :: d2) k v' = d1 ++ (k, v') :: d2.
Proof.
  induction d1 as [|[k' w] d1 IH]; cbn; intro H.
  - now rewrite (proj2 (oname_eqb_eq k k) eq_refl).
  - destruct (oname_eqb k' k) eqn:E; [apply oname_eqb_eq in E; tauto|]. rewrite IH; tauto.
Qed.
Lemma add_option_ok k vs d : (exists d', add_option k vs d = Ok d') <-> shaped (k, vs).
Proof.
  destruct k as [n|ns]; cbn; [split; [intros; exact Logic.I|eauto]|].
  match goal with |- context[mapR ?f vs] => set (g := f) end. unfold shaped. cbn [fst snd]. rewrite Forall_forall. split.
  - destruct (mapR g vs) as [u|] eqn:Hu; [intros _|intros [? [=]]]. intros r I. apply mapR_ok in Hu. apply In_nth_error in I as [k Ek].
    destruct (Forall2_nth _ _ _ Hu _ _ Ek) as (y & _ & Ey). unfold g in Ey.
    destruct (seq_of r) as [l|]; [|discriminate]. exists l. split; [reflexivity|].
    destruct (Nat.eqb_spec (List.length ns) (List.length l)); [auto|discriminate].
  - intro H. destruct (mapR_total g vs) as [u ->]; [|cbn; eauto]. intros r I. destruct (H r I) as (l & El & L). unfold g.
    rewrite El, <- L, Nat.eqb_refl. eauto.
Qed.
Lemma add_option_val k vs d d' : add_option k vs d = Ok d' -> d' = fdict_set d k vs.
Proof. destruct k as [n|ns]; cbn; [congruence|]. destruct (mapR _ _); cbn; congruence. Qed.

Lemma outermost_app {A B} (f : A -> option B) ds d ds' dflt b : f d = Some b -> (forall x, In x ds' -> f x = None) ->
  outermost f (ds ++ d :: ds') dflt = b.
Proof.
  intros E N. revert dflt. induction ds as [|x ds IH]; intro dflt; cbn; [|apply IH]. rewrite E. clear - N.
  revert b. induction ds' as [|x ds' IH]; intro b; cbn; [reflexivity|]. rewrite (N x (or_introl eq_refl)).
  apply IH. intros; apply N; now right.
Qed.

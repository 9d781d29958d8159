(** Proofs for C87. *)
From Coq Require Import String Permutation Sorted.
From Verif Require Import Base TextModel ToolsProofs ParamModel ParamSpec ParamProofs CompatModel CompatSpec.
Open Scope Z_scope.

(** * Names *)
Lemma split_plain c s : ~ In c s -> split c s = [s].
Proof.
  induction s as [|x s IH]; intro H; [reflexivity|]. cbn [split].
  destruct (Z.eqb_spec x c) as [E|E]; [exfalso; apply H; now left|]. rewrite IH; [reflexivity|]. intro I. apply H. now right.
Qed.
Lemma split_app c s t : ~ In c s -> split c (s ++ c :: t) = s :: split c t.
Proof.
  induction s as [|x s IH]; intro H; cbn [split app].
  - now rewrite Z.eqb_refl.
  - destruct (Z.eqb_spec x c) as [E|E]; [exfalso; apply H; now left|]. rewrite IH; [reflexivity|]. intro I. apply H. now right.
Qed.
Lemma lstrip_id s : Forall (fun c => is_space c = false) s -> lstrip s = s.
Proof. destruct 1; [reflexivity|]. cbn. now rewrite H. Qed.
Lemma strip_id s : Forall (fun c => is_space c = false) s -> strip s = s.
Proof. intro F. unfold strip. rewrite (lstrip_id s F). rewrite lstrip_id; [apply rev_involutive|]. now apply Forall_rev. Qed.

Lemma argnames_one ident n : identifiers ident -> ident n = true -> argnames_of n = [n].
Proof.
  intros I E. destruct (I n E) as (A & B & C). unfold argnames_of. rewrite split_plain by exact B. cbn [map]. rewrite strip_id by exact C.
  destruct n; [congruence|reflexivity].
Qed.
Lemma argnames_group ident ns : identifiers ident -> Forall (fun n => ident n = true) ns -> argnames_of (join (lit ",") ns) = ns.
Proof.
  intros I. induction ns as [|n ns IH]; intro F; [reflexivity|]. inversion F as [|? ? E F']; subst.
  destruct ns as [|m ns].
  - exact (argnames_one ident n I E).
  - change (join (lit ",") (n :: m :: ns)) with (n ++ 44 :: join (lit ",") (m :: ns)).
    destruct (I n E) as (A & B & C). unfold argnames_of. rewrite split_app by exact B. cbn [map filter]. rewrite strip_id by exact C.
    specialize (IH F'). unfold argnames_of in IH. rewrite IH. destruct n; [congruence|reflexivity].
Qed.
Lemma mem_in n l : mem n l = true <-> In n l.
Proof.
  unfold mem. rewrite existsb_exists. split.
  - intros (x & H & E). apply Base.pystr_eqb_eq in E. now subst.
  - intro H. exists n. split; [exact H|now apply Base.pystr_eqb_eq].
Qed.
Lemma no_repeats_ok l : NoDup l -> no_repeats l = true.
Proof.
  induction 1 as [|n l H _ IH]; [reflexivity|]. cbn. rewrite IH, andb_true_r. apply negb_true_iff.
  destruct (mem n l) eqn:E; [|reflexivity]. apply mem_in in E. contradiction.
Qed.

Lemma nodup_app_l {A} (a b : list A) : NoDup (a ++ b) -> NoDup a.
Proof.
  induction a as [|x a IH]; intro H; [constructor|]. cbn in H. inversion H; subst. constructor; [|auto].
  intro I. match goal with X : ~ In _ _ |- _ => apply X end. apply in_or_app. now left.
Qed.
Lemma nodup_app_r {A} (a b : list A) : NoDup (a ++ b) -> NoDup b.
Proof. induction a as [|x a IH]; intro H; [exact H|]. cbn in H. inversion H; subst. auto. Qed.

(** * pytest's calls *)
Definition valued (kw : list (pystr * pv)) : list (pystr * carg) := map (fun k => (fst k, CVal (snd k))) kw.
(** The arguments of each value of an option. *)
Definition row_args (o : oname) (v : pv) : list (pystr * pv) :=
  match o with
  | ONE n => [(n, v)]
  | GROUP ns => List.combine ns (match seq_of v with Some l => l | None => [] end)
  end.
Fixpoint cart_args (opts : list option_) : list (list (pystr * pv)) :=
  match opts with
  | [] => [[]]
  | (o, vs) :: opts' => flat_map (fun v => map (app (row_args o v)) (cart_args opts')) vs
  end.
Definition extend (c : callspec) (a : list (pystr * pv)) : callspec := Callspec (cs_params c ++ valued a) (cs_skip c).

Lemma combine_valued ns : forall l, List.combine ns (map CVal l) = valued (List.combine ns l).
Proof. induction ns as [|n ns IH]; intros [|v l]; cbn; [reflexivity..|]. now rewrite IH. Qed.

Lemma value_set_group ns v l : List.length ns <> 1%nat -> seq_of v = Some l -> List.length l = List.length ns ->
  value_set ns v = Ok (map CVal l).
Proof.
  intros N E L. assert (X : match seq_of v with
         | None => Err TypeError
         | Some l => if (List.length l =? List.length ns)%nat then Ok (map CVal l) else Err ValueError
         end = Ok (map CVal l)) by (rewrite E, (proj2 (Nat.eqb_eq _ _) L); reflexivity).
  unfold value_set. destruct ns as [|n [|m ns]]; [exact X|cbn in N; lia|exact X].
Qed.

Lemma value_sets_usual ident o vs : identifiers ident -> usual_option ident (o, vs) ->
  exists sets, value_sets (names_of (o, vs)) vs = Ok (map (fun s => (s, false)) sets) /\
    Forall2 (fun v s => List.combine (names_of (o, vs)) s = valued (row_args o v)) vs sets.
Proof.
  intros I (N & S & E & R). cbn [fst snd] in *.
  assert (X : exists sets, mapR (value_set (names_of (o, vs))) vs = Ok sets /\
     Forall2 (fun v s => List.combine (names_of (o, vs)) s = valued (row_args o v)) vs sets).
  { destruct o as [n|ns].
    - exists (map (fun v => [CVal v]) vs). split; [apply mapR_ok|]; clear; induction vs; cbn; constructor; auto.
    - destruct R as [L _]. unfold shaped in S. cbn [fst snd] in S. clear E N.
      induction S as [|v vs (l & Q & M) _ IH]; [exists []; split; [reflexivity|constructor]|].
      destruct IH as (sets & M' & F). exists (map CVal l :: sets). cbn [names_of fst] in *. split.
      + cbn [mapR]. rewrite (value_set_group ns v l L Q M). cbn [bind]. rewrite M'. reflexivity.
      + constructor; [|exact F]. cbn [row_args]. rewrite Q. apply combine_valued. }
  destruct X as (sets & M & F). exists sets. split; [|exact F]. unfold value_sets.
  destruct vs as [|v vs]; [congruence|]. rewrite M. reflexivity.
Qed.

Lemma names_param_mark ident o vs : identifiers ident -> Forall (fun n => ident n = true) (names_of (o, vs)) ->
  exists a, param_mark (o, vs) = MParametrize a vs /\ argnames_of a = names_of (o, vs).
Proof.
  intros I F. destruct o as [n|ns]; cbn in *.
  - exists n. split; [reflexivity|]. inversion F; subst. eapply argnames_one; eassumption.
  - exists (join (lit ",") ns). split; [reflexivity|]. eapply argnames_group; eassumption.
Qed.

Lemma row_names ident o vs v : usual_option ident (o, vs) -> In v vs -> map fst (row_args o v) = names_of (o, vs).
Proof.
  intros (_ & S & _) H. destruct o as [n|ns]; [reflexivity|]. unfold shaped in S. cbn [fst snd] in S.
  rewrite Forall_forall in S. destruct (S v H) as (l & E & L). cbn [row_args names_of fst]. rewrite E.
  clear -L. revert l L. induction ns as [|n ns IH]; intros [|x l] L; cbn in *; try lia; [reflexivity|]. f_equal. apply IH. lia.
Qed.
Lemma valued_names kw : map fst (valued kw) = map fst kw.
Proof. unfold valued. rewrite map_map. apply map_ext. reflexivity. Qed.
Lemma valued_app a b : valued (a ++ b) = valued a ++ valued b.
Proof. apply map_app. Qed.

Lemma flat_map_flat_map {A B C} (f : A -> list B) (g : B -> list C) l :
  flat_map g (flat_map f l) = flat_map (fun x => flat_map g (f x)) l.
Proof. induction l as [|x l IH]; [reflexivity|]. cbn. now rewrite flat_map_app, IH. Qed.
Lemma flat_map_map {A B C} (f : A -> B) (g : B -> list C) l : flat_map g (map f l) = flat_map (fun x => g (f x)) l.
Proof. induction l as [|x l IH]; [reflexivity|]. cbn. now rewrite IH. Qed.
Lemma map_flat_map {A B C} (f : A -> list B) (g : B -> C) l : map g (flat_map f l) = flat_map (fun x => map g (f x)) l.
Proof. induction l as [|x l IH]; [reflexivity|]. cbn. now rewrite map_app, IH. Qed.

Lemma parametrize_usual ident params o vs calls : identifiers ident -> usual_option ident (o, vs) ->
  (forall n, In n (names_of (o, vs)) -> In n (required params)) -> NoDup (names_of (o, vs)) ->
  (forall c n, In c calls -> In n (names_of (o, vs)) -> ~ In n (map fst (cs_params c))) ->
  exists a, param_mark (o, vs) = MParametrize a vs /\
  parametrize_one params calls a vs = Ok (flat_map (fun c => map (fun v => extend c (row_args o v)) vs) calls).
Proof.
  intros I U Q ND D. pose proof U as (N & _).
  destruct (names_param_mark ident o vs I N) as (a & E & A). exists a. split; [exact E|].
  unfold parametrize_one. rewrite A. destruct (value_sets_usual ident o vs I U) as (sets & -> & F). cbn [bind].
  replace (forallb (fun n => mem n (required params)) (names_of (o, vs))) with true
    by (symmetry; apply forallb_forall; intros n H; now apply mem_in, Q).
  rewrite no_repeats_ok by exact ND. cbn [negb].
  replace (existsb (fun c => existsb (fun n => mem n (map fst (cs_params c))) (names_of (o, vs))) calls) with false.
  - f_equal. apply flat_map_ext. intro c. rewrite map_map. clear -F. unfold extend.
    set (ns := names_of (o, vs)) in *. clearbody ns. induction F as [|v s vs sets H _ IH]; [reflexivity|]. cbn [map fst snd] in IH |- *.
    rewrite IH, H, orb_false_r. reflexivity.
  - symmetry. destruct (existsb _ calls) eqn:X; [|reflexivity]. apply existsb_exists in X. destruct X as (c & H & X).
    apply existsb_exists in X. destruct X as (n & H' & X). apply mem_in in X. exfalso. exact (D c n H H' X).
Qed.

Lemma parametrize_options ident params opts : identifiers ident -> Forall (usual_option ident) opts ->
  (forall n, In n (concat (map names_of opts)) -> In n (required params)) -> NoDup (concat (map names_of opts)) ->
  forall calls ms, (forall c n, In c calls -> In n (concat (map names_of opts)) -> ~ In n (map fst (cs_params c))) ->
  parametrize_all params (map param_mark opts ++ ms) calls =
  parametrize_all params ms (flat_map (fun c => map (extend c) (cart_args opts)) calls).
Proof.
  intros I. induction opts as [|[o vs] opts IH]; intros U Q ND calls ms D.
  - cbn [map app cart_args]. f_equal. clear. induction calls as [|[ps sk] calls IH]; [reflexivity|]. cbn. rewrite <- IH. unfold extend. cbn. now rewrite app_nil_r.
  - inversion U as [|? ? U1 U2]; subst. cbn [map concat] in Q, ND, D.
    assert (ND1 : NoDup (names_of (o, vs))) by (apply nodup_app_l in ND; exact ND).
    assert (ND2 : NoDup (concat (map names_of opts))) by (apply nodup_app_r in ND; exact ND).
    destruct (parametrize_usual ident params o vs calls I U1) as (a & E & P);
      [intros n H; apply Q, in_or_app; auto|exact ND1|intros c n H H'; apply D; [exact H|apply in_or_app; auto]|].
    cbn [map app]. rewrite E. cbn [parametrize_all]. rewrite P. cbn [bind]. rewrite IH; [|exact U2|intros n H; apply Q, in_or_app; auto|exact ND2|].
    + f_equal. rewrite flat_map_flat_map. apply flat_map_ext. intro c. rewrite flat_map_map. cbn [cart_args].
      rewrite map_flat_map. apply flat_map_ext. intro v. rewrite map_map. apply map_ext. intro b.
      unfold extend. cbn [cs_params cs_skip]. now rewrite valued_app, app_assoc.
    + intros c n H H' X. apply in_flat_map in H. destruct H as (c0 & H0 & H). apply in_map_iff in H. destruct H as (v & <- & Hv).
      unfold extend in X. cbn [cs_params] in X. rewrite map_app, valued_names, (row_names ident o vs v U1 Hv) in X.
      apply in_app_or in X. destruct X as [X|X].
      * exact (D c0 n H0 (in_or_app _ _ _ (or_intror H')) X).
      * clear -ND X H'. induction (names_of (o, vs)) as [|m l IHl]; [exact X|]. cbn in ND. inversion ND as [|? ? A B]; subst.
        destruct X as [<-|X]; [|auto]. apply A, in_or_app. auto.
Qed.

Lemma parametrize_rest params ms calls : (forall a vs, ~ In (MParametrize a vs) ms) -> parametrize_all params ms calls = Ok calls.
Proof.
  revert calls. induction ms as [|m ms IH]; intros calls H; [reflexivity|].
  destruct m; cbn [parametrize_all]; try (apply IH; intros a vs X; apply (H a vs); now right).
  exfalso. eapply H. left. reflexivity.
Qed.

(** * cocotb's arguments are the same *)
Lemma skipn_tail {A} (l : list A) x rest : forall k, skipn k l = x :: rest -> skipn (Datatypes.S k) l = rest.
Proof.
  induction l as [|y l IH]; intros [|k] H; cbn in *; try discriminate; [now injection H|]. apply (IH k) in H. exact H.
Qed.
Lemma group_chosen_args ident rows i r l : nth_error rows i = Some r -> seq_of r = Some l -> Forall raw l ->
  forall ns k args txt, (k + List.length ns = List.length l)%nat -> group_chosen ident rows i k ns args txt ->
  args = List.combine ns (skipn k l).
Proof.
  intros R E W. induction ns as [|n ns IH]; intros k args txt L G; inversion G; subst; [reflexivity|].
  cbn [List.length] in L.
  match goal with C : column _ _ _, N : nth_error _ i = Some ?v |- _ =>
    assert (X : nth_error l k = Some v) end.
  { match goal with C : column rows k ?col, N : nth_error ?col i = Some ?v |- _ =>
      unfold column in C; destruct (Forall2_nth _ _ _ C i r R) as (y & Y & l' & E' & K) end. congruence. }
  destruct (skipn k l) as [|x rest] eqn:S.
  - exfalso. apply (f_equal (@List.length pv)) in S. rewrite skipn_length in S. cbn in S. lia.
  - assert (x = v).
    { rewrite <- (firstn_skipn k l), nth_error_app2, firstn_length in X by (rewrite firstn_length; lia).
      rewrite Nat.min_l, Nat.sub_diag, S in X by lia. cbn in X. congruence. }
    subst v. cbn [List.combine]. f_equal.
    + f_equal. assert (raw x) by (rewrite Forall_forall in W; apply W; eapply nth_error_In; exact X). destruct x; try reflexivity. contradiction.
    + assert (skipn (Datatypes.S k) l = rest).
      { now apply skipn_tail with x. }
      subst rest. eapply IH; [|eassumption]. lia.
Qed.
Lemma chosen_args ident o vs i v args txt : usual_option ident (o, vs) -> nth_error vs i = Some v ->
  chosen ident (o, vs) i args txt -> args = row_args o v.
Proof.
  intros (_ & S & _ & R) N C. cbn [fst snd] in *. inversion C; subst.
  - match goal with X : nth_error vs i = Some ?u |- _ => assert (u = v) by congruence; subst u end. cbn [row_args].
    rewrite Forall_forall in R. pose proof (R v (nth_error_In _ _ N)) as W. destruct v; try reflexivity. contradiction.
  - destruct R as [_ W]. unfold shaped in S. cbn [fst snd] in S. rewrite Forall_forall in S, W.
    destruct (S v (nth_error_In _ _ N)) as (l & E & L). cbn [row_args]. rewrite E.
    eapply (group_chosen_args ident vs i v l N E (W v (nth_error_In _ _ N) l E) ns 0); [|eassumption]. lia.
Qed.

Lemma Forall2_flat {A B C D} (R : C -> D -> Prop) (f : A -> list C) (g : B -> list D) l l' :
  Forall2 (fun x y => Forall2 R (f x) (g y)) l l' -> Forall2 R (flat_map f l) (flat_map g l').
Proof. induction 1; cbn; [constructor|]. now apply Forall2_app. Qed.
Lemma Forall2_seq {B} (R : nat -> B -> Prop) vs : forall k, (forall i v, nth_error vs i = Some v -> R (k + i)%nat v) ->
  Forall2 R (seq k (List.length vs)) vs.
Proof.
  induction vs as [|v vs IH]; intros k H; cbn; [constructor|]. constructor.
  - replace k with (k + 0)%nat by lia. now apply H.
  - apply IH. intros i u E. replace (Datatypes.S k + i)%nat with (k + Datatypes.S i)%nat by lia. now apply H.
Qed.
Lemma Forall2_maps {A B C D} (R : C -> D -> Prop) (f : A -> C) (g : B -> D) l l' :
  Forall2 (fun x y => R (f x) (g y)) l l' -> Forall2 R (map f l) (map g l').
Proof. induction 1; cbn; constructor; auto. Qed.
Lemma Forall2_mono {A B} (R S : A -> B -> Prop) l l' : (forall x y, R x y -> S x y) -> Forall2 R l l' -> Forall2 S l l'.
Proof. intros H. induction 1; constructor; auto. Qed.

Lemma combos ident opts : Forall (usual_option ident) opts ->
  Forall2 (fun idx a => forall args txt, combo ident opts idx args txt -> args = a)
    (cart (map (fun o => seq 0 (List.length (snd o))) opts)) (cart_args opts).
Proof.
  induction 1 as [|[o vs] opts U _ IH]; cbn [map cart cart_args fst snd].
  - constructor; [|constructor]. intros args txt C. now inversion C.
  - apply Forall2_flat. apply Forall2_seq. intros i v N. rewrite Nat.add_0_l. apply Forall2_maps.
    eapply Forall2_mono; [|exact IH]. intros idx a H args txt C. apply combo_inv in C.
    destruct C as (i' & idx' & a1 & a2 & p1 & p2 & [= <- <-] & -> & _ & C1 & C2).
    rewrite (chosen_args ident o vs i v a1 p1 U N C1), (H _ _ C2). reflexivity.
Qed.

Lemma usual_well_formed ident opts : Forall (usual_option ident) opts -> NoDup (concat (map names_of opts)) -> well_formed opts.
Proof. intros F N. split; [|exact N]. eapply Forall_impl; [|exact F]. now intros o (_ & S & _). Qed.

Lemma generated ident name opts : Forall (usual_option ident) opts -> NoDup (concat (map names_of opts)) ->
  exists ts, generate_tests ident name opts = Ok ts /\ map g_kwargs ts = cart_args opts.
Proof.
  intros U N. destruct (generate_pf ident name opts (usual_well_formed ident opts U N)) as (ts & G & L & T).
  exists ts. split; [exact G|].
  pose proof (combos ident opts U) as C.
  assert (LN : List.length (cart_args opts) = List.length ts).
  { rewrite <- (Forall2_len _ _ _ C), cart_length, map_map, L. unfold lens. f_equal. apply map_ext. intro. apply seq_length. }
  apply nth_ext with (d := []) (d' := []); [now rewrite map_length|].
  intros j B. rewrite map_length in B. rewrite L in B. destruct (T j B) as (t & txt & E & CB & _).
  assert (IX : nth_error (cart (map (fun o => seq 0 (List.length (snd o))) opts)) j = Some (choose (lens opts) j)).
  { rewrite <- (indexes_nth (lens opts) j B). unfold lens. now rewrite map_map. }
  destruct (Forall2_nth _ _ _ C j _ IX) as (a & A & H). specialize (H _ _ CB).
  rewrite (nth_error_nth _ _ _ (map_nth_error g_kwargs j ts E)), (nth_error_nth _ _ _ A). exact H.
Qed.

(** * Arguments *)
Lemma dict_get_in {A} (d : list (pystr * A)) n : In n (map fst d) -> exists v, dict_get d n = Some v.
Proof.
  induction d as [|[k v] d IH]; cbn; [contradiction|]. intros [E|H].
  - subst. rewrite (proj2 (Base.pystr_eqb_eq n n) eq_refl). eauto.
  - destruct (pystr_eqb k n); eauto.
Qed.
Lemma dict_get_out {A} (d : list (pystr * A)) n : ~ In n (map fst d) -> dict_get d n = None.
Proof.
  induction d as [|[k v] d IH]; cbn; [reflexivity|]. intro H. destruct (pystr_eqb k n) eqn:E; [apply Base.pystr_eqb_eq in E; tauto|tauto].
Qed.
Lemma dict_get_map {A B} (f : A -> B) d n : dict_get (map (fun k => (fst k, f (snd k))) d) n = option_map f (dict_get d n).
Proof. induction d as [|[k v] d IH]; cbn; [reflexivity|]. now destruct (pystr_eqb k n). Qed.

Lemma required_plain ns : required (map (fun n => (n, false)) ns) = ns.
Proof. unfold required. induction ns; cbn; [reflexivity|]. now rewrite IHns. Qed.

Lemma args_rest (fixtures : pystr -> bool) (kw : list (pystr * pv)) (ns : list pystr) (sk : bool) : (forall n, In n ns -> In n (map fst kw)) ->
  mapO (fun n => match dict_get (cs_params (Callspec (valued kw) sk)) n with
                 | Some (CVal v) => Some (n, AVal v)
                 | Some CNotset => None
                 | None => if pystr_eqb n (lit "dut") then Some (n, ADut)
                           else if fixtures n then Some (n, AFixture n) else None
                 end) ns = bind_args (map (fun n => (n, false)) ns) [] (map (fun k => (fst k, AVal (snd k))) kw).
Proof.
  induction ns as [|n ns IH]; intro H; [reflexivity|]. cbn [mapO map bind_args]. rewrite <- IH by (intros; apply H; now right).
  unfold valued. cbn [cs_params]. rewrite !dict_get_map. destruct (dict_get_in kw n (H n (or_introl eq_refl))) as [v ->].
  cbn [option_map]. now destruct (mapO _ ns).
Qed.

Lemma args_same fixtures ns kw sk : Permutation ns (map fst kw) -> NoDup (lit "dut" :: ns) ->
  pytest_args fixtures ((lit "dut", false) :: map (fun n => (n, false)) ns) (Callspec (valued kw) sk) =
  cocotb_args ((lit "dut", false) :: map (fun n => (n, false)) ns) [] kw.
Proof.
  intros P ND. inversion ND as [|? ? ND1 ND2]; subst.
  assert (X : ~ In (lit "dut") (map fst kw)) by (intro I; apply ND1; eapply Permutation_in; [symmetry; exact P|exact I]).
  unfold cocotb_args.
  replace (forallb _ kw) with true.
  - unfold pytest_args. change (required ((lit "dut", false) :: map (fun n => (n, false)) ns)) with (lit "dut" :: required (map (fun n => (n, false)) ns)).
    rewrite required_plain. cbn [mapO bind_args map]. rewrite dict_get_map, (dict_get_out kw _ X). cbn [option_map].
    rewrite args_rest by (intros n I; eapply Permutation_in; eassumption).
    cbn [cs_params]. unfold valued. rewrite dict_get_map, (dict_get_out kw _ X). cbn [option_map].
    rewrite (proj2 (Base.pystr_eqb_eq (lit "dut") (lit "dut")) eq_refl).
    destruct (bind_args _ [] _); reflexivity.
  - symmetry. apply forallb_forall. intros k I. apply mem_in. cbn [map fst]. right. rewrite map_map. cbn [fst]. rewrite map_id.
    eapply Permutation_in; [symmetry; exact P|]. now apply in_map.
Qed.

(** * Flags *)
Lemma first_app {A} (f : mark -> option A) a b : first_of f (a ++ b) = match first_of f a with Some x => Some x | None => first_of f b end.
Proof. induction a as [|m a IH]; [reflexivity|]. cbn. now destruct (f m). Qed.
Lemma first_none {A} (f : mark -> option A) l : (forall m, In m l -> f m = None) -> first_of f l = None.
Proof. induction l as [|m l IH]; intro H; [reflexivity|]. cbn. rewrite H by (now left). apply IH. intros; apply H; now right. Qed.
Lemma param_marks opts m : In m (map param_mark opts) -> exists a vs, m = MParametrize a vs.
Proof. intro H. apply in_map_iff in H. destruct H as ([[n|ns] vs] & <- & _); cbn; eauto. Qed.

Definition old_ok (old : option (list mark)) : Prop :=
  old = None \/ exists l, old = Some l /\ Forall (fun m => exists i, m = MUser i) l.
Lemma old_user old m : old_ok old -> In m (match old with Some l => l | None => [] end) -> exists i, m = MUser i.
Proof. intros [-> | (l & -> & F)] I; [contradiction|]. rewrite Forall_forall in F. auto. Qed.

Ltac no_params := apply first_none; let m := fresh in let H := fresh in intros m H; apply param_marks in H; destruct H as (? & ? & ->); reflexivity.
Ltac no_old O := apply first_none; let m := fresh in let H := fresh in intros m H; apply (old_user _ _ O) in H; destruct H as (? & ->); reflexivity.

Lemma flags g opts old : old_ok old ->
  let l := new_marks g opts old in
  match first_of (fun m => match m with MSkip => Some tt | _ => None end) l with Some _ => true | None => false end = n_skip g /\
  first_of (fun m => match m with MXfail r => Some r | _ => None end) l = fails_of g /\
  first_of (fun m => match m with MTimeout t => Some t | _ => None end) l = n_timeout g /\
  match first_of (fun m => match m with MOrder s => Some s | _ => None end) l with Some s => s | None => 0 end = n_stage g.
Proof.
  intros O l. subst l. unfold new_marks. rewrite !first_app.
  assert (A1 : first_of (fun m => match m with MSkip => Some tt | _ => None end) (map param_mark opts) = None) by no_params.
  assert (A2 : first_of (fun m => match m with MXfail r => Some r | _ => None end) (map param_mark opts) = None) by no_params.
  assert (A3 : first_of (fun m => match m with MTimeout t => Some t | _ => None end) (map param_mark opts) = None) by no_params.
  assert (A4 : first_of (fun m => match m with MOrder s => Some s | _ => None end) (map param_mark opts) = None) by no_params.
  rewrite A1, A2, A3, A4.
  assert (B1 : first_of (fun m => match m with MSkip => Some tt | _ => None end) (match old with Some l => l | None => [] end) = None) by no_old O.
  assert (B2 : first_of (fun m => match m with MXfail r => Some r | _ => None end) (match old with Some l => l | None => [] end) = None) by no_old O.
  assert (B3 : first_of (fun m => match m with MTimeout t => Some t | _ => None end) (match old with Some l => l | None => [] end) = None) by no_old O.
  assert (B4 : first_of (fun m => match m with MOrder s => Some s | _ => None end) (match old with Some l => l | None => [] end) = None) by no_old O.
  rewrite B1, B2, B3, B4. clear. unfold fails_of.
  destruct (n_stage g =? 0) eqn:S; destruct (n_skip g); destruct (n_expect_fail g); destruct (n_expect_error g); destruct (n_timeout g); cbn;
    try (apply Z.eqb_eq in S); auto.
Qed.

(** * A module *)
Lemma dict_get_set {A} (d : list (pystr * A)) n v : dict_get (dict_set d n v) n = Some v.
Proof.
  induction d as [|[k x] d IH]; cbn.
  - now rewrite (proj2 (Base.pystr_eqb_eq n n) eq_refl).
  - destruct (pystr_eqb k n) eqn:E; cbn; rewrite E; [reflexivity|exact IH].
Qed.

Definition same_params (w w' : world) : Prop := forall f, f_params (w_fn w' f) = f_params (w_fn w f).
Lemma set_fn_params w f x : f_params x = f_params (w_fn w f) -> same_params w (set_fn w f x).
Proof. intros E k. unfold set_fn. cbn. destruct (Nat.eqb_spec k f); [now subst|reflexivity]. Qed.
Lemma mark_function_params w f : same_params w (mark_function w f).
Proof.
  unfold mark_function. destruct (existsb is_cocotb _); [now apply set_fn_params|].
  destruct (_ && _); [now apply set_fn_params|]. intro; reflexivity.
Qed.
Lemma unwrap_params w name o : same_params w (fst (unwrap w name o)).
Proof.
  destruct o; cbn [unwrap fst]; try (intro; reflexivity); unfold as_pytest_marks; destruct (f_test (w_fn w f)); try (intro; reflexivity);
    intro k; cbn; destruct (Nat.eqb_spec k f); subst; reflexivity.
Qed.
Lemma makeitem_params w name o : same_params w (fst (makeitem w name o)).
Proof.
  unfold makeitem. destruct (unwrap w name o) as [w' [f|]] eqn:E; pose proof (unwrap_params w name o) as U; rewrite E in U; [|exact U].
  cbn [fst]. intro k. rewrite (mark_function_params w' f k). apply U.
Qed.
Lemma collect_params prefix names : forall w w' items, collect prefix w names = Ok (w', items) -> same_params w w'.
Proof.
  induction names as [|[n o] names IH]; intros w w' items H; cbn [collect] in H; [injection H as <- _; intro; reflexivity|].
  destruct (makeitem w n o) as [w1 f] eqn:M.
  destruct (match f with Some f => gen_items prefix w1 n f | None => Ok [] end) as [its|]; [|discriminate]. cbn [bind] in H.
  destruct (collect prefix w1 names) as [[w2 rest]|] eqn:C; [|discriminate]. injection H as <- _.
  intro k. rewrite (IH _ _ _ C k). pose proof (makeitem_params w n o k) as P. rewrite M in P. exact P.
Qed.

Lemma mark_fresh_test w f l : f_marks (w_fn w f) = Some l -> In MCocotbTest l ->
  mark_function w f = set_fn w f (Fn (f_params (w_fn w f)) (f_async (w_fn w f)) (Some l) true).
Proof.
  intros E I. unfold mark_function. rewrite E.
  replace (existsb is_cocotb l) with true by (symmetry; apply existsb_exists; exists MCocotbTest; split; [exact I|reflexivity]).
  reflexivity.
Qed.

Lemma usual_same ident w w' o : (forall f, In f (match o with OGenerator _ f | OTest _ _ _ f | OFunction f => [f] | OOther => [] end) -> w_fn w' f = w_fn w f) ->
  usual ident w o -> usual ident w' o.
Proof. intros H U. destruct o; cbn in *; try exact U; rewrite H; auto. Qed.

Lemma helper_collect prefix w name f : helper (w_fn w f) ->
  makeitem w name (OFunction f) = (w, Some f) /\
  exists items, gen_items prefix w name f = Ok items /\ (dict_get (w_attrs w) name = Some (OFunction f) -> filter (kept w) items = []).
Proof.
  intros (M & A). assert (MF : mark_function w f = w).
  { unfold mark_function. rewrite M. cbn [existsb]. replace (f_async (w_fn w f) && _) with false; [reflexivity|]. symmetry.
    apply andb_false_iff. destruct A as [A|A]; [now left|right]. destruct (existsb _ _) eqn:E; [|reflexivity].
    apply existsb_exists in E. destruct E as (p & I & E). apply Base.pystr_eqb_eq in E. exfalso. apply A. rewrite <- E. now apply in_map. }
  split; [unfold makeitem; cbn [unwrap]; now rewrite MF|].
  unfold gen_items. rewrite M. destruct (prefix name || f_test (w_fn w f)); [|exists []; split; [reflexivity|auto]].
  cbn [parametrize_all bind map]. eexists. split; [reflexivity|]. intro D. rewrite D. cbn [filter]. unfold kept. cbn [i_obj i_marks].
  unfold marks_of. rewrite M. reflexivity.
Qed.

Lemma attr_kept w name o : forall names, NoDup (map fst names) -> In (name, o) names -> w_attrs w = names -> dict_get (w_attrs w) name = Some o.
Proof.
  intros names ND I ->. induction names as [|[k x] names IH]; [contradiction|]. cbn. inversion ND; subst. destruct I as [[= -> ->]|I].
  - now rewrite (proj2 (Base.pystr_eqb_eq name name) eq_refl).
  - destruct (pystr_eqb k name) eqn:E; [|auto]. apply Base.pystr_eqb_eq in E. subst. exfalso. match goal with X : ~ In _ _ |- _ => apply X end.
    apply in_map_iff. now exists (name, o).
Qed.
Lemma dict_get_set_other {A} (d : list (pystr * A)) n m v : n <> m -> dict_get (dict_set d n v) m = dict_get d m.
Proof.
  intro N. induction d as [|[k x] d IH]; cbn.
  - destruct (pystr_eqb n m) eqn:E; [apply Base.pystr_eqb_eq in E; contradiction|reflexivity].
  - destruct (pystr_eqb k n) eqn:E; cbn.
    + apply Base.pystr_eqb_eq in E. subst. destruct (pystr_eqb n m) eqn:E; [apply Base.pystr_eqb_eq in E; contradiction|reflexivity].
    + destruct (pystr_eqb k m); [reflexivity|exact IH].
Qed.

Lemma generator_collect ident prefix fixtures w name g f : identifiers ident -> usual_test ident g (w_fn w f) ->
  exists w1 items, makeitem w name (OGenerator g f) = (w1, Some f) /\ gen_items prefix w1 name f = Ok items /\
    filter (kept w1) items = items /\ (forall k, k <> f -> w_fn w1 k = w_fn w k) /\
    w_attrs w1 = dict_set (w_attrs w) name (OFunction f) /\
    exists ts, generate_tests ident (n_name g) (n_options g) = Ok ts /\
    forall w0 w2, f_params (w_fn w0 f) = f_params (w_fn w f) -> f_params (w_fn w2 f) = f_params (w_fn w f) ->
      map (planned_item fixtures w2) items = map (fun t => planned_test w0 g f [] (g_kwargs t)) ts.
Proof.
  intros I (U & (ns & P & PM & ND) & A & T & O).
  set (l := new_marks g (n_options g) (f_marks (w_fn w f))).
  assert (ML : In MCocotbTest l) by (unfold l, new_marks; rewrite !in_app_iff; cbn; tauto).
  set (x1 := Fn (f_params (w_fn w f)) true (Some l) true).
  set (w1 := set_fn (set_attr (set_fn w f x1) name (OFunction f)) f x1).
  assert (M : makeitem w name (OGenerator g f) = (w1, Some f)).
  { unfold makeitem. cbn [unwrap]. unfold as_pytest_marks. rewrite T, A. fold l. fold x1.
    set (wa := set_attr (set_fn w f x1) name (OFunction f)).
    assert (EX : w_fn wa f = x1) by (unfold wa; cbn; now rewrite Nat.eqb_refl).
    rewrite (mark_fresh_test wa f l); [|now rewrite EX|exact ML]. rewrite EX. reflexivity. }
  assert (E1 : w_fn w1 f = x1) by (unfold w1; cbn; now rewrite Nat.eqb_refl).
  assert (D1 : dict_get (w_attrs w1) name = Some (OFunction f)) by (unfold w1; cbn; apply dict_get_set).
  set (calls := flat_map (fun c => map (extend c) (cart_args (n_options g))) [Callspec [] false]).
  assert (NDo : NoDup (concat (map names_of (n_options g)))).
  { inversion ND as [|? ? _ ND']; subst. eapply Permutation_NoDup; [exact PM|exact ND']. }
  assert (G : gen_items prefix w1 name f = Ok (map (fun c => Item (OFunction f) l c) calls)).
  { unfold gen_items. rewrite E1. unfold x1. cbn [f_test f_params f_marks]. rewrite orb_true_r, D1. unfold l at 1. unfold new_marks.
    rewrite (parametrize_options ident).
    - fold calls. rewrite parametrize_rest.
      + cbn [bind]. f_equal. apply map_ext. intro c. f_equal. cbn [marks_of]. now rewrite E1.
      + intros a vs X. rewrite !in_app_iff in X.
        destruct X as [X|[X|[X|[X|[X|X]]]]];
          [destruct (n_stage g =? 0)|destruct (n_skip g)|destruct (n_expect_fail g || _)|destruct (n_timeout g)| |];
          try (cbn in X; intuition discriminate).
        destruct (old_user _ _ O X) as (i & ?). discriminate.
    - exact I.
    - exact U.
    - intros n H. rewrite P. change (required ((lit "dut", false) :: map (fun n => (n, false)) ns)) with (lit "dut" :: required (map (fun n => (n, false)) ns)).
      rewrite required_plain. right. eapply Permutation_in; [symmetry; exact PM|exact H].
    - exact NDo.
    - intros c n [<-|[]] _ X. exact X. }
  exists w1, (map (fun c => Item (OFunction f) l c) calls).
  split; [exact M|]. split; [exact G|]. split; [|split; [|split; [reflexivity|]]].
  - clear -E1 ML. induction calls as [|c calls IH]; [reflexivity|]. cbn [map filter]. unfold kept at 1. cbn [i_obj i_marks].
    rewrite E1. unfold x1. cbn [f_async]. rewrite andb_true_r.
    replace (existsb _ l) with true by (symmetry; apply existsb_exists; exists MCocotbTest; auto). now rewrite IH.
  - intros k N. unfold w1. cbn. rewrite (proj2 (Nat.eqb_neq k f) N). reflexivity.
  - destruct (generated ident (n_name g) (n_options g) U NDo) as (ts & GT & KW). exists ts. split; [exact GT|].
    intros w0 w2 P0 P2. rewrite map_map. unfold calls. cbn [flat_map]. rewrite app_nil_r, map_map.
    rewrite <- KW, map_map.
    assert (NM : Forall (fun t => map fst (g_kwargs t) = concat (map names_of (n_options g))) ts).
    { assert (CA : Forall (fun a => map fst a = concat (map names_of (n_options g))) (cart_args (n_options g))).
      { clear -U. induction U as [|[o vs] opts U1 _ IH]; cbn [cart_args map concat]; [constructor; [reflexivity|constructor]|].
        apply Forall_forall. intros a H. apply in_flat_map in H. destruct H as (v & Hv & H). apply in_map_iff in H.
        destruct H as (b & <- & Hb). rewrite map_app, (row_names ident o vs v U1 Hv). f_equal. rewrite Forall_forall in IH. auto. }
      rewrite <- KW in CA. clear -CA. induction ts as [|t ts IH]; [constructor|]. cbn in CA. inversion CA; subst. constructor; auto. }
    apply map_ext_in. intros t Ht. rewrite Forall_forall in NM. specialize (NM t Ht).
    unfold planned_item, planned_test. cbn [i_obj i_call i_marks]. rewrite P2, P0, P.
    destruct (flags g (n_options g) (f_marks (w_fn w f)) O) as (F1 & F2 & F3 & F4). fold l in F1, F2, F3, F4.
    rewrite F1, F2, F3, F4. unfold extend. cbn [cs_skip cs_params app orb]. f_equal.
    rewrite args_same; [reflexivity| |exact ND]. rewrite NM. exact PM.
Qed.

Lemma module_pf ident prefix fixtures : identifiers ident -> forall names w w0,
  NoDup (map fst names) -> (forall name o, In (name, o) names -> dict_get (w_attrs w) name = Some o) ->
  Forall (fun a => usual ident w (snd a)) names -> NoDup (flat_map (fun a => decorated (snd a)) names) -> same_params w0 w ->
  exists w' items ps, collect prefix w names = Ok (w', items) /\ cocotb_plan ident w0 names = Ok ps /\
    map (planned_item fixtures w') items = ps.
Proof.
  intro I. induction names as [|[name o] names IH]; intros w w0 NN AT U ND SP.
  - exists w, [], []. repeat split; reflexivity.
  - inversion U as [|? ? U1 U2]; subst. cbn [snd] in U1. inversion NN as [|? ? NN1 NN2]; subst. cbn [fst] in NN1.
    cbn [flat_map snd] in ND. assert (AT2 : forall n o', In (n, o') names -> dict_get (w_attrs w) n = Some o') by (intros; apply AT; now right).
    destruct o as [f|g f|args kw g f|]; [| |contradiction|].
    + destruct (helper_collect prefix w name f U1) as (M & its & G & K).
      destruct (IH w w0 NN2 AT2 U2 ND SP) as (w' & items & ps & C & P & E).
      exists w', items, ps. split; [|split; [|exact E]].
      * cbn [collect]. rewrite M, G. cbn [bind]. rewrite C. cbn [bind fst snd]. rewrite K by (apply AT; now left). reflexivity.
      * cbn [cocotb_plan bind]. rewrite P. reflexivity.
    + destruct (generator_collect ident prefix fixtures w name g f I U1) as (w1 & its & M & G & K & F & WA & ts & GT & PL).
      cbn [decorated app] in ND. inversion ND as [|? ? ND1 ND2]; subst.
      assert (U3 : Forall (fun a => usual ident w1 (snd a)) names).
      { apply Forall_forall. intros [n o'] H. rewrite Forall_forall in U2. pose proof (U2 _ H) as Uo. cbn [snd] in *.
        apply (usual_same ident w w1 o'); [|exact Uo]. intros k Hk. apply F. intros ->.
        destruct o' as [h|g' h|? ? g' h|]; cbn in Hk; try contradiction; destruct Hk as [->|[]]; cbn [usual] in Uo.
        - destruct U1 as (_ & (ns & P & _) & A & _). destruct Uo as (_ & [X|X]); [congruence|]. apply X. rewrite P. now left.
        - apply ND1. apply in_flat_map. exists (n, OGenerator g' f). split; [exact H|now left]. }
      assert (AT3 : forall n o', In (n, o') names -> dict_get (w_attrs w1) n = Some o').
      { intros n o' H. rewrite WA, dict_get_set_other; [auto|]. intros ->. apply NN1. apply in_map_iff. now exists (n, o'). }
      assert (SP1 : same_params w0 w1).
      { intro k. pose proof (makeitem_params w name (OGenerator g f) k) as X. rewrite M in X. cbn [fst] in X. rewrite X. apply SP. }
      destruct (IH w1 w0 NN2 AT3 U3 ND2 SP1) as (w' & items & ps & C & P & E).
      exists w', (its ++ items), (map (fun t => planned_test w0 g f [] (g_kwargs t)) ts ++ ps). split; [|split].
      * cbn [collect]. rewrite M, G. cbn [bind]. rewrite C. cbn [bind fst snd]. now rewrite K.
      * cbn [cocotb_plan]. rewrite GT. cbn [bind]. rewrite P. reflexivity.
      * rewrite map_app, E. f_equal. apply PL; [symmetry; apply SP|]. rewrite (collect_params _ _ _ _ _ C f), (SP1 f). symmetry. apply SP.
    + destruct (IH w w0 NN2 AT2 U2 ND SP) as (w' & items & ps & C & P & E).
      exists w', items, ps. split; [|split; [|exact E]].
      * cbn [collect makeitem unwrap bind]. rewrite C. reflexivity.
      * cbn [cocotb_plan bind]. rewrite P. reflexivity.
Qed.

Lemma same_pf ident prefix fixtures w : identifiers ident -> usual_module ident w -> NoDup (map fst (w_attrs w)) ->
  exists ps, cocotb_plan ident w (w_attrs w) = Ok ps /\ pytest_plan prefix fixtures w = Ok ps.
Proof.
  intros I (U & ND) NN.
  destruct (module_pf ident prefix fixtures I (w_attrs w) w w NN) as (w' & items & ps & C & P & E); try assumption; try (intro; reflexivity).
  - intros name o H. eapply attr_kept; eauto.
  - exists ps. split; [exact P|]. unfold pytest_plan. rewrite C. cbn [bind fst snd]. now rewrite E.
Qed.

(** * Order *)
Lemma insert_map t l : Permutation (insert_by t l) (t :: l).
Proof.
  induction l as [|u l IH]; [reflexivity|]. cbn [insert_by]. destruct (_ <=? _); [reflexivity|]. rewrite IH. apply perm_swap.
Qed.
Lemma sort_perm l : Permutation (sort_by l) l.
Proof. induction l as [|t l IH]; [reflexivity|]. cbn [sort_by fold_right]. fold (sort_by l). rewrite insert_map. now constructor. Qed.
Lemma filter_all {A} (f : A -> bool) l : (forall x, In x l -> f x = true) -> filter f l = l.
Proof. induction l as [|x l IH]; intro H; [reflexivity|]. cbn. rewrite H by (now left). f_equal. apply IH. intros; apply H; now right. Qed.
Lemma filter_nil {A} (f : A -> bool) l : (forall x, In x l -> f x = false) -> filter f l = [].
Proof. induction l as [|x l IH]; intro H; [reflexivity|]. cbn. rewrite H by (now left). apply IH. intros; apply H; now right. Qed.
Lemma sort_zero l : Forall (fun t => p_stage t = 0) l -> sort_by l = l.
Proof.
  induction 1 as [|t l E F IH]; [reflexivity|]. cbn [sort_by fold_right]. fold (sort_by l). rewrite IH.
  destruct l as [|u l]; [reflexivity|]. cbn [insert_by]. inversion F; subst. rewrite E, H1. reflexivity.
Qed.
Lemma order_pf l : same_sign l -> pytest_order l = cocotb_order l.
Proof.
  intro S. unfold pytest_order, cocotb_order. destruct S as [F|[F|F]]; pose proof F as F'; rewrite Forall_forall in F'.
  - rewrite (filter_all (fun t => 0 <? p_stage t)) by (intros t H; apply Z.ltb_lt; auto).
    rewrite (filter_nil (fun t => p_stage t =? 0)) by (intros t H; apply F' in H; apply Z.eqb_neq; lia).
    rewrite (filter_nil (fun t => p_stage t <? 0)) by (intros t H; apply F' in H; apply Z.ltb_ge; lia). cbn. apply app_nil_r.
  - rewrite (filter_nil (fun t => 0 <? p_stage t)) by (intros t H; apply F' in H; apply Z.ltb_ge; lia).
    rewrite (filter_all (fun t => p_stage t =? 0)) by (intros t H; apply Z.eqb_eq; auto).
    rewrite (filter_nil (fun t => p_stage t <? 0)) by (intros t H; apply F' in H; apply Z.ltb_ge; lia).
    cbn. rewrite app_nil_r. symmetry. now apply sort_zero.
  - rewrite (filter_nil (fun t => 0 <? p_stage t)) by (intros t H; apply F' in H; apply Z.ltb_ge; lia).
    rewrite (filter_nil (fun t => p_stage t =? 0)) by (intros t H; apply F' in H; apply Z.eqb_neq; lia).
    rewrite (filter_all (fun t => p_stage t <? 0)) by (intros t H; apply Z.ltb_lt; auto). reflexivity.
Qed.
Lemma insert_sorted t l : StronglySorted (fun a b => p_stage a <= p_stage b) l -> StronglySorted (fun a b => p_stage a <= p_stage b) (insert_by t l).
Proof.
  induction 1 as [|u l S IH F]; [repeat constructor|]. cbn [insert_by]. destruct (Z.leb_spec (p_stage t) (p_stage u)) as [L|L].
  - constructor; [constructor; assumption|]. constructor; [exact L|]. eapply Forall_impl; [|exact F]. cbn. intros; lia.
  - constructor; [exact IH|]. rewrite insert_map. constructor; [lia|exact F].
Qed.
Lemma sort_sorted l : StronglySorted (fun a b => p_stage a <= p_stage b) (sort_by l).
Proof. induction l; [constructor|]. now apply insert_sorted. Qed.
Lemma sorted_app {A} (R : A -> A -> Prop) a b : StronglySorted R (a ++ b) -> forall x y, In x a -> In y b -> R x y.
Proof.
  induction a as [|z a IH]; intros S x y Hx Hy; [contradiction|]. cbn in S. inversion S as [|? ? S' F]; subst. destruct Hx as [<-|Hx]; [|eauto].
  rewrite Forall_forall in F. apply F, in_or_app. auto.
Qed.
Lemma order_only l : pytest_order l = cocotb_order l -> same_sign l.
Proof.
  intro E. pose proof (sort_sorted l) as S. fold (cocotb_order l) in S. rewrite <- E in S. unfold pytest_order in S.
  assert (PZ : forall x y, In x l -> In y l -> 0 < p_stage x -> p_stage y <= 0 -> False).
  { intros x y Hx Hy Lx Ly. assert (X : p_stage x <= p_stage y); [|lia]. apply (sorted_app _ _ _ S).
    - eapply Permutation_in; [symmetry; apply sort_perm|]. apply filter_In. split; [exact Hx|now apply Z.ltb_lt].
    - apply in_or_app. destruct (Z.eq_dec (p_stage y) 0) as [Z|Z].
      + left. apply filter_In. split; [exact Hy|now apply Z.eqb_eq].
      + right. eapply Permutation_in; [symmetry; apply sort_perm|]. apply filter_In. split; [exact Hy|apply Z.ltb_lt; lia]. }
  assert (ZN : forall x y, In x l -> In y l -> p_stage x = 0 -> p_stage y < 0 -> False).
  { intros x y Hx Hy Lx Ly. rewrite app_assoc in S. assert (X : p_stage x <= p_stage y); [|lia]. apply (sorted_app _ _ _ S).
    - apply in_or_app. right. apply filter_In. split; [exact Hx|now apply Z.eqb_eq].
    - eapply Permutation_in; [symmetry; apply sort_perm|]. apply filter_In. split; [exact Hy|now apply Z.ltb_lt]. }
  destruct l as [|t l']; [left; constructor|]. set (l := t :: l') in *. assert (Ht : In t l) by (left; reflexivity).
  unfold same_sign. rewrite !Forall_forall.
  destruct (Z.lt_trichotomy (p_stage t) 0) as [L|[L|L]].
  - right. right. intros x Hx. destruct (Z.lt_trichotomy (p_stage x) 0) as [M|[M|M]]; [exact M|exfalso; exact (ZN x t Hx Ht M L)|].
    exfalso. apply (PZ x t Hx Ht M). lia.
  - right. left. intros x Hx. destruct (Z.lt_trichotomy (p_stage x) 0) as [M|[M|M]]; [exfalso; exact (ZN t x Ht Hx L M)|exact M|].
    exfalso. apply (PZ x t Hx Ht M). lia.
  - left. intros x Hx. destruct (Z.lt_ge_cases 0 (p_stage x)) as [M|M]; [exact M|exfalso; exact (PZ t x Ht Hx L M)].
Qed.
Lemma order_perm l : Permutation (pytest_order l) l.
Proof.
  unfold pytest_order. rewrite !sort_perm. induction l as [|t l IH]; [reflexivity|]. cbn [filter].
  destruct (Z.lt_trichotomy (p_stage t) 0) as [L|[L|L]].
  - rewrite (proj2 (Z.ltb_ge 0 _)), (proj2 (Z.eqb_neq _ 0)), (proj2 (Z.ltb_lt _ 0)) by lia.
    rewrite app_assoc. rewrite <- Permutation_middle. rewrite <- app_assoc. now constructor.
  - rewrite (proj2 (Z.ltb_ge 0 _)), (proj2 (Z.eqb_eq _ 0)), (proj2 (Z.ltb_ge _ 0)) by lia. cbn [app]. rewrite <- Permutation_middle. now constructor.
  - rewrite (proj2 (Z.ltb_lt 0 _)), (proj2 (Z.eqb_neq _ 0)), (proj2 (Z.ltb_ge _ 0)) by lia. cbn [app]. now constructor.
Qed.

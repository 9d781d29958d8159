(** Proofs of the LogicArray properties from the simulation. *)
From Coq Require Import String.
From Verif Require Import Base RangeModel RangeSpec RangeProofs ArrayModel ArraySpec ArrayProofs
  LogicModel LogicSpec LogicProofs LogicArrayModel LogicArrayMachine LogicArraySpec LogicArrayProofs
  LogicArrayRefine.
Open Scope Z_scope.

Lemma larr_rep rx a : is_larr rx a -> exists o, rep a o.
Proof.
  intros (ops & i & F & E). destruct (sim_run rx ops [] [] (Forall2_nil _) F) as [H _].
  pose proof (heap_nth _ _ i H) as N. rewrite E in N.
  destruct (nth_error (fst (s_run rx [] ops)) i) as [o|]; [eauto|contradiction].
Qed.

Lemma rep_elems a o : rep a o -> elems a = val o /\ la_range a = a_range (fst o) /\ la_warn a = snd o.
Proof.
  intro R. unfold elems, la_iter. destruct (get_array_rep a o R) as (a' & -> & _). cbn [snd].
  split; [reflexivity|]. split; [exact (rp_range _ _ R)|exact (rp_warn _ _ R)].
Qed.

Lemma rep_same a a' o : rep a o -> rep a' o -> same a' a.
Proof.
  intros R R'. destruct (rep_elems _ _ R) as (E1 & E2 & E3), (rep_elems _ _ R') as (F1 & F2 & F3).
  unfold same. repeat split; congruence.
Qed.

Lemma rep_self a o : rep a o -> fst o = Array (elems a) (la_range a) /\ snd o = la_warn a /\ val o = elems a.
Proof.
  intro R. destruct (rep_elems _ _ R) as (E1 & E2 & E3). rewrite E1, E2, E3.
  destruct o as [[v r] w]. repeat split; reflexivity.
Qed.

Lemma rep_canon rx a : is_larr rx a -> rep a (Array (elems a) (la_range a), la_warn a).
Proof.
  intro H. destruct (larr_rep rx a H) as [o R]. destruct (rep_self a o R) as (E1 & E2 & E3).
  rewrite <- E1, <- E2. now destruct o.
Qed.

(** A value just created from a reachable program state is reachable. *)
Lemma run_app rx ops1 ops2 : forall h,
  run rx h (ops1 ++ ops2) =
  let '(h1, x1) := run rx h ops1 in let '(h2, x2) := run rx h1 ops2 in (h2, x1 ++ x2).
Proof.
  induction ops1 as [|o ops1 IH]; intro h; cbn [app run].
  - destruct (run rx h ops2). reflexivity.
  - destruct (step rx h o) as [h1 x]. rewrite IH. destruct (run rx h1 ops1) as [h2 x1].
    destruct (run rx h2 ops2). reflexivity.
Qed.

Lemma new_is_larr rx v rg a :
  match v with VArr _ => False | _ => True end -> rangearg_ok rg -> mk_larr v rg = Ok a -> is_larr rx a.
Proof.
  intros V R E.
  destruct v as [s|z|x|l]; [exists [ONew (WStr s) rg]|exists [ONew (WInt z) rg]|contradiction|
    exists [ONew (WIter l) rg]]; exists O; (split; [repeat constructor; exact R|]);
  cbn [run step laval_of]; rewrite E; reflexivity.
Qed.
Lemma from_unsigned_is_larr rx z rg ov a : rangearg_ok rg -> from_unsigned z rg ov = Ok a -> is_larr rx a.
Proof.
  intros R E. exists [OFromUnsigned z rg ov], O. split; [repeat constructor; exact R|].
  cbn [run step]. rewrite E. reflexivity.
Qed.
Lemma from_signed_is_larr rx z rg ov a : rangearg_ok rg -> from_signed z rg ov = Ok a -> is_larr rx a.
Proof.
  intros R E. exists [OFromSigned z rg ov], O. split; [repeat constructor; exact R|].
  cbn [run step]. rewrite E. reflexivity.
Qed.

Lemma rres_ok w a x : rres w (Ok a) (Ok x) -> elems a = a_value x /\ la_range a = a_range x /\ la_warn a = w.
Proof. intro R. cbn [rres] in R. exact (rep_elems _ _ R). Qed.

(** * C12 *)
Lemma C12_program_pf rx ops : Forall op_ok ops ->
  Forall2 out_agrees (snd (run rx [] ops)) (snd (s_run rx [] ops)).
Proof. intro F. exact (proj2 (sim_run rx ops [] [] (Forall2_nil _) F)). Qed.

Lemma C12_reads_pf rx rnd a : is_larr rx a ->
  la_len a = Z.of_nat (length (elems a)) /\
  (exists a', la_get_str a = (a', Ok (s_chars (elems a))) /\ same a' a) /\
  (exists a', la_iter a = (a', Ok (elems a)) /\ same a' a) /\
  (exists a', la_reversed a = (a', Ok (rev (elems a))) /\ same a' a) /\
  (exists a', to_unsigned rx rnd a = (a', s_int rx rnd (elems a)) /\ same a' a) /\
  (exists a', to_signed rx rnd a = (a', s_signed rx rnd (elems a)) /\ same a' a) /\
  (forall o, exists a', to_bytes rx rnd o a = (a', s_bytes rx rnd o (elems a)) /\ same a' a) /\
  (exists a', la_bool rx rnd a = (a', s_bool rx rnd (elems a)) /\ same a' a) /\
  (forall s, exists a', la_format rx rnd a s = (a', s_format rx rnd (elems a) s) /\ same a' a).
Proof.
  intro H. pose proof (rep_canon rx a H) as R. set (o := (Array (elems a) (la_range a), la_warn a)) in R.
  split; [exact (rep_len _ _ R)|].
  split. { destruct (get_str_rep a o R) as (a' & E & R' & _). exists a'. split; [exact E|eapply rep_same; eauto]. }
  split. { destruct (get_array_rep a o R) as (a' & E & R' & _). exists a'. split; [exact E|eapply rep_same; eauto]. }
  split. { unfold la_reversed. destruct (get_array_rep a o R) as (a' & E & R' & _). rewrite E. exists a'.
           split; [reflexivity|eapply rep_same; eauto]. }
  split. { destruct (to_unsigned_rep rx rnd a o R) as (a' & E & R'). exists a'. split; [exact E|eapply rep_same; eauto]. }
  split. { destruct (to_signed_rep rx rnd a o R) as (a' & E & R'). exists a'. split; [exact E|eapply rep_same; eauto]. }
  split. { intro b. destruct (to_bytes_rep rx rnd b a o R) as (a' & E & R'). exists a'. split; [exact E|eapply rep_same; eauto]. }
  split. { destruct (bool_rep rx rnd a o R) as (a' & E & R'). exists a'. split; [exact E|eapply rep_same; eauto]. }
  intro s. destruct (format_rep rx rnd a o s R) as (a' & E & R'). exists a'. split; [exact E|eapply rep_same; eauto].
Qed.

(** * C08 *)
Definition default_labels (c : larr) : Prop :=
  range_iter (la_range c) = span (Z.of_nat (length (elems c)) - 1) Downto 0.

Lemma attach_none vs x : s_attach vs None = Ok x ->
  a_value x = vs /\ range_iter (a_range x) = span (Z.of_nat (length vs) - 1) Downto 0.
Proof.
  cbn [s_attach]. unfold downto_range. rewrite (mk_range_str _ _ _ Downto) by reflexivity. cbn [bind].
  intro E. injection E as <-. cbn [a_value a_range]. split; [reflexivity|].
  rewrite iter_wf by (right; reflexivity). reflexivity.
Qed.

Lemma C08_zip_pf rx t f a b : table_fun t f -> is_larr rx a -> is_larr rx b ->
  match la_zip_op t a b with
  | (a', b', Ok c) => length (elems a) = length (elems b) /\
      elems c = map (fun '(x, y) => f x y) (combine (elems a) (elems b)) /\ default_labels c /\
      same a' a /\ same b' b
  | (a', b', Err e) => e = ValueError /\ length (elems a) <> length (elems b) /\ a' = a /\ b' = b
  end.
Proof.
  intros T Ha Hb. pose proof (rep_canon rx a Ha) as R. pose proof (rep_canon rx b Hb) as S.
  destruct (zip_rep t f _ _ _ _ T R S) as (a' & b' & r & E & R' & S' & _ & Q).
  rewrite E. unfold s_zip, s_len in Q. cbn [fst a_value] in Q.
  destruct (Z.eqb_spec (Z.of_nat (length (elems a))) (Z.of_nat (length (elems b)))) as [L|L].
  - destruct r as [c|e].
    + destruct (s_attach _ None) as [x|] eqn:EA; [|contradiction].
      destruct (rres_ok _ _ _ Q) as (Q1 & Q2 & _). destruct (attach_none _ _ EA) as [A1 A2].
      split; [lia|]. split; [congruence|]. split.
      { unfold default_labels. rewrite Q2, A2, Q1, A1. reflexivity. }
      split; eapply rep_same; eauto.
    + exfalso. destruct (s_attach _ None) as [x|e'] eqn:EA; [contradiction|].
      cbn [s_attach] in EA. destruct (downto_ok (py_len (map (fun '(x, y) => f x y) (combine (elems a) (elems b))))) as (r & Er & _).
      rewrite Er in EA. discriminate EA.
  - unfold la_zip_op in E. rewrite (rep_len _ _ R), (rep_len _ _ S) in E. unfold val in E. cbn [fst a_value] in E.
    rewrite (proj2 (Z.eqb_neq _ _) L) in E. cbn [negb] in E. injection E as <- <- <-. repeat split; auto.
Qed.

Lemma C08_invert_pf rx a : is_larr rx a ->
  exists a' c, la_invert a = (a', Ok c) /\ elems c = map spec_not (elems a) /\ default_labels c /\ same a' a.
Proof.
  intro H. pose proof (rep_canon rx a H) as R. destruct (invert_rep _ _ R) as (a' & r & -> & R' & Q).
  destruct (s_attach _ None) as [x|e] eqn:EA.
  - destruct r as [c|]; [|contradiction]. exists a', c. split; [reflexivity|].
    destruct (rres_ok _ _ _ Q) as (Q1 & Q2 & _). destruct (attach_none _ _ EA) as [A1 A2].
    split; [rewrite Q1, A1; reflexivity|].
    split. { unfold default_labels. rewrite Q2, A2, Q1, A1. reflexivity. } eapply rep_same; eauto.
  - exfalso. cbn [s_attach] in EA. destruct (downto_ok (py_len (map spec_not (val (Array (elems a) (la_range a), la_warn a))))) as (q & Er & _).
    rewrite Er in EA. discriminate EA.
Qed.

(** * C09 - C11 *)
Lemma C09_to_unsigned_pf rx rnd a : is_larr rx a -> elems a <> [] -> definite (elems a) = true ->
  snd (to_unsigned rx rnd a) = Ok (unsigned (elems a)) /\
  0 <= unsigned (elems a) < 2 ^ la_len a.
Proof.
  intros H Hn D. pose proof (rep_canon rx a H) as R.
  destruct (to_unsigned_rep rx rnd a _ R) as (a' & -> & _). cbn [snd].
  rewrite (rep_len _ _ R). unfold val; cbn [fst a_value]. split; [|apply unsigned_range].
  unfold s_int. rewrite (s_int0_definite _ Hn D). destruct (elems a); congruence.
Qed.

(** A don't-care in front of definite values. *)
Definition minus_like (v : list logic) : Prop := exists w, v = LD :: w /\ w <> [] /\ definite w = true.

Lemma int0_none v : definite v = false -> ~ minus_like v -> s_int0 v = None.
Proof.
  intros D M. destruct v as [|l v]; [reflexivity|]. destruct l; cbn [s_int0]; rewrite ?D; try reflexivity.
  destruct v as [|l v]; [reflexivity|]. destruct (definite (l :: v)) eqn:E; [|reflexivity].
  exfalso. apply M. exists (l :: v). repeat split; [discriminate|exact E].
Qed.

Lemma C09_undefined_pf rx rnd a : is_larr rx a ->
  (definite (elems a) = false /\ ~ minus_like (elems a)) \/ elems a = [] ->
  snd (to_unsigned rx rnd a) =
  match rx with
  | Some ((RZeros | ROnes | RRandom) as r) =>
      match elems a with [] => Err ValueError | v => Ok (unsigned (s_resolve r rnd v)) end
  | _ => Err ValueError
  end.
Proof.
  intros H C. pose proof (rep_canon rx a H) as R.
  destruct (to_unsigned_rep rx rnd a _ R) as (a' & -> & _). cbn [snd]. unfold val; cbn [fst a_value].
  unfold s_int. destruct (elems a) as [|l v] eqn:Ev.
  - destruct rx as [[]|]; reflexivity.
  - destruct C as [[D M]|C]; [|discriminate C]. rewrite (int0_none _ D M). destruct rx as [[]|]; reflexivity.
Qed.

Lemma rangelen_nonneg rg r : rangearg_ok rg -> norm_range rg = Ok (Some r) -> 0 <= range_len r.
Proof.
  intros H E. destruct (norm_range_ok rg H) as (range & E' & W). rewrite E in E'. injection E' as <-.
  now apply pr_len_nonneg.
Qed.

Lemma C09_from_unsigned_pf z rg r ov : rangearg_ok rg -> norm_range rg = Ok (Some r) ->
  match from_unsigned z rg ov with
  | Ok a => 0 <= z /\ 0 < range_len r /\ (ov = OvWrap \/ ov = OvError /\ z < 2 ^ range_len r) /\
            elems a = bits (Z.to_nat (range_len r)) z /\ la_range a = r
  | Err e => e = ValueError /\
            (z < 0 \/ range_len r = 0 \/ ov = OvOther \/ ov = OvError /\ 2 ^ range_len r <= z)
  end.
Proof.
  intros HR EN. pose proof (from_unsigned_rep z rg ov HR) as Q. pose proof (rangelen_nonneg rg r HR EN) as L.
  unfold req_range in Q. rewrite EN in Q. cbn [bind] in Q.
  destruct (Z.ltb_spec z 0) as [Z0|Z0]; cbn [orb] in Q.
  { destruct (from_unsigned z rg ov); [contradiction|]. cbn [rres] in Q. auto. }
  destruct (Z.eqb_spec (range_len r) 0) as [L0|L0]; cbn [orb] in Q.
  { destruct (from_unsigned z rg ov); [contradiction|]. cbn [rres] in Q. auto. }
  destruct ov.
  - destruct (Z.ltb_spec z (2 ^ range_len r)); destruct (from_unsigned z rg OvError); try contradiction.
    + destruct (rres_ok _ _ _ Q) as (Q1 & Q2 & _). cbn [a_value a_range] in *. repeat split; auto; lia.
    + cbn [rres] in Q. split; [auto|]. right; right; right. split; [reflexivity|lia].
  - destruct (from_unsigned z rg OvWrap); try contradiction.
    destruct (rres_ok _ _ _ Q) as (Q1 & Q2 & _). cbn [a_value a_range] in *. repeat split; auto; lia.
  - destruct (from_unsigned z rg OvOther); try contradiction. cbn [rres] in Q. auto.
Qed.

Lemma bits_nonempty n z : 0 < n -> bits (Z.to_nat n) z <> [].
Proof.
  intros H E. apply (f_equal (@length logic)) in E. rewrite bits_length in E. cbn [length] in E. lia.
Qed.

Lemma len_of_bits rx a n z : is_larr rx a -> elems a = bits (Z.to_nat n) z -> 0 <= n -> la_len a = n.
Proof.
  intros H E L. pose proof (rep_canon rx a H) as R. rewrite (rep_len _ _ R). unfold val. cbn [fst a_value].
  rewrite E, bits_length. lia.
Qed.

Lemma C09_roundtrip_pf rx rnd z rg r ov a : rangearg_ok rg -> norm_range rg = Ok (Some r) ->
  from_unsigned z rg ov = Ok a -> snd (to_unsigned rx rnd a) = Ok (z mod 2 ^ range_len r) /\
  (ov = OvError -> snd (to_unsigned rx rnd a) = Ok z).
Proof.
  intros HR EN E. pose proof (C09_from_unsigned_pf z rg r ov HR EN) as Q. rewrite E in Q.
  destruct Q as (Z0 & L & O & Q & _). pose proof (from_unsigned_is_larr rx z rg ov a HR E) as H.
  destruct (C09_to_unsigned_pf rx rnd a H) as [T _].
  { rewrite Q. apply bits_nonempty. lia. }
  { rewrite Q. apply strong_definite, bits_strong. }
  rewrite T, Q, unsigned_bits, Z2Nat.id by lia. split; [reflexivity|]. intros ->.
  destruct O as [O|[_ O]]; [discriminate|]. rewrite Z.mod_small; auto.
Qed.

Lemma C09_back_pf rx rnd a k : is_larr rx a -> strong (elems a) = true ->
  snd (to_unsigned rx rnd a) = Ok k ->
  exists b, from_unsigned k (RRange (la_range a)) OvError = Ok b /\ elems b = elems a.
Proof.
  intros H S E. pose proof (rep_canon rx a H) as R.
  assert (Hn : elems a <> []).
  { intro Hn. rewrite (C09_undefined_pf rx rnd a H (or_intror Hn)), Hn in E. destruct rx as [[]|]; discriminate E. }
  destruct (C09_to_unsigned_pf rx rnd a H Hn (strong_definite _ S)) as [T B]. rewrite T in E. injection E as <-.
  assert (W : wf (la_range a)) by exact (proj1 (rp_awf _ _ R)).
  assert (OK : rangearg_ok (RRange (la_range a))).
  { destruct (la_range a) as [st sp s]. destruct W as [W|W]; cbn [r_step] in W; subst s.
    - exists st, (DStr (lit "to")), (Some (sp - 1)). rewrite (mk_range_str _ _ _ To) by reflexivity. do 2 f_equal; lia.
    - exists st, (DStr (lit "downto")), (Some (sp - -1)). rewrite (mk_range_str _ _ _ Downto) by reflexivity. do 2 f_equal; lia. }
  pose proof (C09_from_unsigned_pf (unsigned (elems a)) (RRange (la_range a)) (la_range a) OvError OK eq_refl) as Q.
  pose proof (rep_len _ _ R) as L. unfold la_len, val in L. cbn [fst a_value] in L.
  assert (0 < Z.of_nat (length (elems a))) by (destruct (elems a); [congruence|cbn [length]; lia]).
  unfold la_len in B.
  destruct (from_unsigned (unsigned (elems a)) (RRange (la_range a)) OvError) as [b|].
  - exists b. split; [reflexivity|]. destruct Q as (_ & _ & _ & -> & _). rewrite L, Nat2Z.id. now apply bits_unsigned.
  - exfalso. destruct Q as (_ & [Q|[Q|[Q|[_ Q]]]]); try discriminate Q; lia.
Qed.

Lemma signed_unsigned v : v <> [] ->
  (if 2 ^ (Z.of_nat (length v) - 1) <=? unsigned v then unsigned v - 2 ^ Z.of_nat (length v) else unsigned v) = signed v.
Proof.
  destruct v as [|l v]; [congruence|]. intros _. cbn [signed].
  replace (Z.of_nat (length (l :: v)) - 1) with (Z.of_nat (length v)) by (cbn [length]; lia).
  pose proof (unsigned_range v) as B. rewrite unsigned_cons.
  assert (0 < 2 ^ Z.of_nat (length v)) by (apply Z.pow_pos_nonneg; lia).
  unfold bitval. destruct (bool_of l) as [[]|]; destruct (Z.leb_spec (2 ^ Z.of_nat (length v))
    (1 * 2 ^ Z.of_nat (length v) + unsigned v)), (Z.leb_spec (2 ^ Z.of_nat (length v))
    (0 * 2 ^ Z.of_nat (length v) + unsigned v)); try lia; reflexivity.
Qed.

Lemma C10_to_signed_pf rx rnd a : is_larr rx a -> elems a <> [] -> definite (elems a) = true ->
  snd (to_signed rx rnd a) = Ok (signed (elems a)) /\
  - 2 ^ (la_len a - 1) <= signed (elems a) < 2 ^ (la_len a - 1).
Proof.
  intros H Hn D. pose proof (rep_canon rx a H) as R.
  destruct (to_signed_rep rx rnd a _ R) as (a' & -> & _). cbn [snd].
  rewrite (rep_len _ _ R). unfold val; cbn [fst a_value]. split.
  - unfold s_signed, s_int. rewrite (s_int0_definite _ Hn D). destruct (elems a) as [|l v] eqn:E; [congruence|].
    cbn [bind]. now rewrite signed_unsigned.
  - rewrite <- signed_unsigned by assumption. pose proof (unsigned_range (elems a)) as B.
    assert (1 <= Z.of_nat (length (elems a))) by (destruct (elems a); [congruence|cbn [length]; lia]).
    rewrite <- (pow2_double (Z.of_nat (length (elems a)))) in * by assumption.
    destruct (Z.leb_spec (2 ^ (Z.of_nat (length (elems a)) - 1)) (unsigned (elems a))); lia.
Qed.

Lemma C10_from_signed_pf z rg r ov : rangearg_ok rg -> norm_range rg = Ok (Some r) ->
  match from_signed z rg ov with
  | Ok a => 0 < range_len r /\
            (ov = OvWrap \/ ov = OvError /\ - 2 ^ (range_len r - 1) <= z < 2 ^ (range_len r - 1)) /\
            elems a = bits (Z.to_nat (range_len r)) z /\ la_range a = r
  | Err e => e = ValueError /\
            (range_len r = 0 \/ ov = OvOther \/
             ov = OvError /\ ~ (- 2 ^ (range_len r - 1) <= z < 2 ^ (range_len r - 1)))
  end.
Proof.
  intros HR EN. pose proof (from_signed_rep z rg ov HR) as Q. pose proof (rangelen_nonneg rg r HR EN) as L.
  unfold req_range in Q. rewrite EN in Q. cbn [bind] in Q.
  destruct (Z.eqb_spec (range_len r) 0) as [L0|L0]; cbn [orb] in Q.
  { destruct (from_signed z rg ov); [contradiction|]. cbn [rres] in Q. auto. }
  destruct ov.
  - destruct (Z.leb_spec (- 2 ^ (range_len r - 1)) z), (Z.ltb_spec z (2 ^ (range_len r - 1))); cbn [andb] in Q;
      destruct (from_signed z rg OvError); try contradiction.
    + destruct (rres_ok _ _ _ Q) as (Q1 & Q2 & _). cbn [a_value a_range] in *. repeat split; auto; lia.
    + cbn [rres] in Q. split; [auto|]. right; right. split; [reflexivity|lia].
    + cbn [rres] in Q. split; [auto|]. right; right. split; [reflexivity|lia].
    + cbn [rres] in Q. split; [auto|]. right; right. split; [reflexivity|lia].
  - destruct (from_signed z rg OvWrap); try contradiction.
    destruct (rres_ok _ _ _ Q) as (Q1 & Q2 & _). cbn [a_value a_range] in *. repeat split; auto; lia.
  - destruct (from_signed z rg OvOther); try contradiction. cbn [rres] in Q. auto.
Qed.

Lemma signed_bits n z : 0 < n -> - 2 ^ (n - 1) <= z < 2 ^ (n - 1) -> signed (bits (Z.to_nat n) z) = z.
Proof.
  intros Hn B. rewrite <- signed_unsigned by now apply bits_nonempty.
  rewrite bits_length, unsigned_bits, Z2Nat.id by lia.
  pose proof (pow2_double n ltac:(lia)) as P. assert (0 < 2 ^ (n - 1)) by (apply Z.pow_pos_nonneg; lia).
  destruct (Z.ltb_spec z 0).
  - assert (z mod 2 ^ n = z + 2 ^ n) as ->.
    { symmetry. apply Z.mod_unique with (-1); lia. }
    destruct (Z.leb_spec (2 ^ (n - 1)) (z + 2 ^ n)); lia.
  - rewrite Z.mod_small by lia. destruct (Z.leb_spec (2 ^ (n - 1)) z); lia.
Qed.

Lemma C10_roundtrip_pf rx rnd z rg r a : rangearg_ok rg -> norm_range rg = Ok (Some r) ->
  from_signed z rg OvError = Ok a -> snd (to_signed rx rnd a) = Ok z.
Proof.
  intros HR EN E. pose proof (C10_from_signed_pf z rg r OvError HR EN) as Q. rewrite E in Q.
  destruct Q as (L & [O|[_ O]] & Q & _); [discriminate|].
  pose proof (from_signed_is_larr rx z rg OvError a HR E) as H.
  destruct (C10_to_signed_pf rx rnd a H) as [T _].
  { rewrite Q. apply bits_nonempty. lia. }
  { rewrite Q. apply strong_definite, bits_strong. }
  rewrite T, Q, signed_bits; auto.
Qed.

(** Bytes. *)
Lemma le_bytes_length n : forall v, length (le_bytes n v) = n.
Proof. induction n as [|n IH]; intro v; cbn; auto. Qed.
Lemma le_bytes_range n : forall v, Forall (fun b => 0 <= b < 256) (le_bytes n v).
Proof. induction n as [|n IH]; intro v; cbn [le_bytes]; constructor; auto. lia. Qed.
Lemma le_int_bytes n : forall v, 0 <= v < 256 ^ Z.of_nat n -> le_int (le_bytes n v) = v.
Proof.
  induction n as [|n IH]; intros v B.
  - change (256 ^ Z.of_nat 0) with 1 in B. cbn. lia.
  - rewrite Nat2Z.inj_succ, Z.pow_succ_r in B by lia. cbn [le_bytes]. unfold le_int in *. cbn [fold_right].
    rewrite IH by lia. lia.
Qed.
Lemma le_int_range b : Forall (fun x => 0 <= x < 256) b -> 0 <= le_int b < 256 ^ Z.of_nat (length b).
Proof.
  induction 1 as [|x b Hx _ IH]; [cbn; lia|]. unfold le_int in *. cbn [fold_right length].
  rewrite Nat2Z.inj_succ, Z.pow_succ_r by lia. nia.
Qed.
Lemma le_bytes_int b : Forall (fun x => 0 <= x < 256) b -> le_bytes (length b) (le_int b) = b.
Proof.
  induction 1 as [|x b Hx _ IH]; [reflexivity|]. unfold le_int in *. cbn [fold_right length le_bytes].
  f_equal; [lia|]. etransitivity; [|exact IH]. f_equal. lia.
Qed.
Lemma pow256 n : 0 <= n -> 256 ^ n = 2 ^ (8 * n).
Proof. intro. rewrite Z.pow_mul_r by lia. reflexivity. Qed.

Lemma from_bytes_range o b : Forall (fun x => 0 <= x < 256) b ->
  0 <= int_from_bytes o b < 2 ^ (8 * Z.of_nat (length b)).
Proof.
  intro F. rewrite <- pow256 by lia. destruct o; cbn [int_from_bytes]; [|now apply le_int_range].
  rewrite <- (rev_length b). apply le_int_range. now apply Forall_rev.
Qed.

Lemma C11_to_bytes_pf rx rnd o a : is_larr rx a -> elems a <> [] -> definite (elems a) = true ->
  exists bs, snd (to_bytes rx rnd o a) = Ok bs /\ Forall (fun x => 0 <= x < 256) bs /\
    Z.of_nat (length bs) = (la_len a + 7) / 8 /\ int_from_bytes o bs = unsigned (elems a).
Proof.
  intros H Hn D. pose proof (rep_canon rx a H) as R.
  destruct (to_bytes_rep rx rnd o a _ R) as (a' & -> & _). cbn [snd].
  rewrite (rep_len _ _ R). unfold val; cbn [fst a_value]. unfold s_bytes, s_int.
  rewrite (s_int0_definite _ Hn D). destruct (elems a) as [|l0 v0] eqn:Ev; [congruence|]. rewrite <- Ev in *.
  cbn [bind]. set (n := (Z.of_nat (length (elems a)) + 7) / 8).
  pose proof (unsigned_range (elems a)) as B.
  assert (N : 0 <= n) by (unfold n; lia).
  assert (B' : 0 <= unsigned (elems a) < 256 ^ n).
  { rewrite pow256 by assumption. assert (2 ^ Z.of_nat (length (elems a)) <= 2 ^ (8 * n)); [|lia].
    apply Z.pow_le_mono_r; unfold n; lia. }
  unfold int_to_bytes. destruct (Z.ltb_spec (unsigned (elems a)) 0); [lia|].
  destruct (Z.leb_spec (256 ^ n) (unsigned (elems a))); [lia|]. cbn [orb].
  assert (E : le_int (le_bytes (Z.to_nat n) (unsigned (elems a))) = unsigned (elems a)).
  { apply le_int_bytes. rewrite Z2Nat.id; lia. }
  eexists. split; [reflexivity|]. destruct o.
  - split; [apply Forall_rev, le_bytes_range|]. split; [rewrite rev_length, le_bytes_length; lia|].
    cbn [int_from_bytes]. now rewrite rev_involutive.
  - split; [apply le_bytes_range|]. split; [rewrite le_bytes_length; lia|exact E].
Qed.

Lemma C11_from_bytes_pf b rg o : rangearg_ok rg -> Forall (fun x => 0 <= x < 256) b ->
  match from_bytes b rg o with
  | Ok a => b <> [] /\ elems a = bits (8 * length b) (int_from_bytes o b) /\
            match rg with RRange r => la_range a = r | _ => default_labels a end
  | Err e => e = ValueError /\
             (b = [] \/ match rg with
                        | RNone => False
                        | RInt n => Z.max 0 n <> 8 * Z.of_nat (length b)
                        | RRange r => range_len r <> 8 * Z.of_nat (length b)
                        end)
  end.
Proof.
  intros HR F. pose proof (from_bytes_rep b rg o HR) as Q. pose proof (from_bytes_range o b F) as B.
  assert (K : forall r, wf r -> py_len b * 8 = range_len r ->
     s_new (SInt (int_from_bytes o b)) (RRange r) =
     if range_len r =? 0 then Err ValueError
     else Ok (Array (bits (8 * length b) (int_from_bytes o b)) r)).
  { intros r W L. unfold s_new. cbn [norm_range bind]. unfold s_of_int.
    destruct (Z.eqb_spec (range_len r) 0) as [|L0]; cbn [orb bind]; [reflexivity|].
    pose proof (pr_len_nonneg r W) as L1. fold (range_len r) in L1.
    assert (0 < 2 ^ (range_len r - 1)) by (apply Z.pow_pos_nonneg; lia).
    destruct (Z.ltb_spec (int_from_bytes o b) (- 2 ^ (range_len r - 1))); [lia|].
    unfold py_len in L. replace (8 * Z.of_nat (length b)) with (range_len r) in B by lia.
    destruct (Z.leb_spec (2 ^ range_len r) (int_from_bytes o b)); [lia|]. cbn [orb bind].
    rewrite attach_bits by assumption. do 3 f_equal. lia. }
  assert (DL : forall a n, la_range a = PyRange (n - 1) (0 + -1) (-1) -> Z.of_nat (length (elems a)) = n ->
     default_labels a).
  { intros a n E0 E. unfold default_labels. rewrite E0, E, iter_wf by (right; reflexivity). reflexivity. }
  destruct rg as [|n|r]; cbn [norm_range bind] in Q.
  - unfold downto_range in Q. rewrite (mk_range_str _ _ _ Downto) in Q by reflexivity. cbn [bind] in Q.
    set (r := PyRange (py_len b * 8 - 1) (0 + -1) (-1)) in *.
    assert (W : wf r) by (right; reflexivity).
    assert (L : py_len b * 8 = range_len r).
    { unfold range_len. rewrite pr_len_wf by exact W. unfold r. cbn [r_step r_start r_stop]. unfold py_len. lia. }
    rewrite <- L, Z.eqb_refl in Q. rewrite (K r W L), <- L in Q. destruct (Z.eqb_spec (py_len b * 8) 0) as [L0|L0].
    + destruct (from_bytes b RNone o); [contradiction|]. cbn [rres] in Q. split; [auto|]. left.
      destruct b; [reflexivity|]. unfold py_len in L0. cbn [length] in L0. lia.
    + destruct (from_bytes b RNone o); [|contradiction]. destruct (rres_ok _ _ _ Q) as (Q1 & Q2 & _).
      split; [intros ->; apply L0; reflexivity|]. cbn [a_value] in Q1. split; [exact Q1|].
      apply (DL _ (py_len b * 8)); [exact Q2|]. rewrite Q1, bits_length. unfold py_len. lia.
  - unfold downto_range in Q. rewrite (mk_range_str _ _ _ Downto) in Q by reflexivity. cbn [bind] in Q.
    set (r := PyRange (n - 1) (0 + -1) (-1)) in *.
    assert (W : wf r) by (right; reflexivity).
    assert (L : range_len r = Z.max 0 n).
    { unfold range_len. rewrite pr_len_wf by exact W. unfold r. cbn [r_step r_start r_stop]. lia. }
    destruct (Z.eqb_spec (py_len b * 8) (range_len r)) as [E|E].
    + rewrite (K r W E) in Q. destruct (Z.eqb_spec (range_len r) 0) as [L0|L0].
      * destruct (from_bytes b (RInt n) o); [contradiction|]. cbn [rres] in Q. split; [auto|]. left.
        destruct b; [reflexivity|]. unfold py_len in E. cbn [length] in E. lia.
      * destruct (from_bytes b (RInt n) o); [|contradiction]. destruct (rres_ok _ _ _ Q) as (Q1 & Q2 & _).
        split; [intros ->; unfold py_len in E; cbn [length] in E; lia|]. cbn [a_value] in Q1. split; [exact Q1|].
        apply (DL _ n); [exact Q2|]. rewrite Q1, bits_length. unfold py_len in E. lia.
    + destruct (from_bytes b (RInt n) o); [contradiction|]. cbn [rres] in Q. split; [auto|]. right.
      unfold py_len in E. lia.
  - assert (W : wf r) by now apply mk_range_ok_wf.
    destruct (Z.eqb_spec (py_len b * 8) (range_len r)) as [E|E].
    + rewrite (K r W E) in Q. destruct (Z.eqb_spec (range_len r) 0) as [L0|L0].
      * destruct (from_bytes b (RRange r) o); [contradiction|]. cbn [rres] in Q. split; [auto|]. left.
        destruct b; [reflexivity|]. unfold py_len in E. cbn [length] in E. lia.
      * destruct (from_bytes b (RRange r) o); [|contradiction]. destruct (rres_ok _ _ _ Q) as (Q1 & Q2 & _).
        split; [intros ->; unfold py_len in E; cbn [length] in E; lia|]. split; [exact Q1|exact Q2].
    + destruct (from_bytes b (RRange r) o); [contradiction|]. cbn [rres] in Q. split; [auto|]. right.
      unfold py_len in E. lia.
Qed.

Lemma from_bytes_is_larr rx b rg o a : rangearg_ok rg -> Forall (fun x => 0 <= x < 256) b ->
  from_bytes b rg o = Ok a -> is_larr rx a.
Proof.
  intros R F E. exists [OFromBytes b rg o], O. split; [repeat constructor; assumption|].
  cbn [run step]. rewrite E. reflexivity.
Qed.

Lemma C11_roundtrip_pf rx rnd b rg o a : rangearg_ok rg -> Forall (fun x => 0 <= x < 256) b ->
  from_bytes b rg o = Ok a -> snd (to_bytes rx rnd o a) = Ok b.
Proof.
  intros HR F E. pose proof (C11_from_bytes_pf b rg o HR F) as Q. rewrite E in Q. destruct Q as (Hb & Q & _).
  pose proof (from_bytes_is_larr rx b rg o a HR F E) as H. pose proof (rep_canon rx a H) as R.
  assert (L0 : (0 < length b)%nat) by (destruct b; [congruence|cbn [length]; lia]).
  assert (Hn : elems a <> []).
  { rewrite Q. intro K. apply (f_equal (@length logic)) in K. rewrite bits_length in K. cbn [length] in K. lia. }
  destruct (C11_to_bytes_pf rx rnd o a H Hn) as (bs & -> & F' & L & I).
  { rewrite Q. apply strong_definite, bits_strong. }
  f_equal. rewrite (rep_len _ _ R) in L. unfold val in L. cbn [fst a_value] in L. rewrite Q, bits_length in L.
  rewrite Q, unsigned_bits in I. pose proof (from_bytes_range o b F) as B.
  rewrite Z.mod_small in I by (replace (Z.of_nat (8 * length b)) with (8 * Z.of_nat (length b)) by lia; exact B).
  assert (LE : length bs = length b) by lia.
  destruct o; cbn [int_from_bytes] in I.
  - rewrite <- (rev_involutive bs), <- (rev_involutive b). f_equal.
    rewrite <- (le_bytes_int (rev bs)), <- (le_bytes_int (rev b)) by (apply Forall_rev; assumption).
    rewrite !rev_length, LE, I. reflexivity.
  - rewrite <- (le_bytes_int bs), <- (le_bytes_int b) by assumption. now rewrite LE, I.
Qed.

(** * C13 *)
Lemma C13_eq_pf rx a b : is_larr rx a -> is_larr rx b ->
  exists a' b' r, la_eq a b = (a', b', Ok r) /\ same a' a /\ same b' b /\
    (clean (elems a) = true -> clean (elems b) = true -> (r = true <-> elems a = elems b)) /\
    (elems a = elems b -> r = true) /\
    (r = true -> length (elems a) = length (elems b)).
Proof.
  intros Ha Hb. pose proof (rep_canon rx a Ha) as R. pose proof (rep_canon rx b Hb) as S.
  destruct (eq_rep _ _ _ _ R S) as (a' & b' & r & E & R' & S' & C & I & _).
  exists a', b', r. split; [exact E|]. split; [eapply rep_same; eauto|]. split; [eapply rep_same; eauto|].
  rewrite (rep_len _ _ R), (rep_len _ _ S) in I. unfold val in C, I. cbn [fst a_value] in C, I.
  assert (LE : forall v w, logics_eqb v w = true <-> v = w).
  { intros v w. unfold logics_eqb. apply (list_eqb_eq logic_eqb logic_eqb_eq). }
  split. { intros C1 C2. rewrite C by auto. apply LE. }
  destruct (by_int a b) eqn:B.
  - destruct (I eq_refl) as (j & k & Hj & Hk & ->). split.
    + intro EE. rewrite EE, Hk in Hj. injection Hj as ->. rewrite EE, !Z.eqb_refl. reflexivity.
    + intro T. apply andb_true_iff in T. destruct T as [T _]. apply Z.eqb_eq in T. lia.
  - rewrite C by auto. split; [apply LE|]. intro T. apply LE in T. congruence.
Qed.

Lemma C13_eq_str_pf rx a s : is_larr rx a ->
  exists a' r, la_eq_str a s = (a', Ok r) /\ same a' a /\ (r = true <-> logics_of_str s = Ok (elems a)).
Proof.
  intro Ha. pose proof (rep_canon rx a Ha) as R. destruct (eq_str_rep _ _ s R) as (a' & E & R').
  exists a', (pystr_eqb (s_chars (elems a)) (upper s)). split; [exact E|]. split; [eapply rep_same; eauto|].
  rewrite pystr_eqb_eq. unfold logics_of_str. destruct (str_case s) as [(v & -> & -> & _)|(-> & L)].
  - unfold s_chars. split; intro K.
    + f_equal. symmetry. now apply map_chr_inj.
    + injection K as ->. reflexivity.
  - split; [|discriminate]. intro K. exfalso. rewrite <- K in L. unfold s_chars in L.
    clear - L. induction (elems a) as [|l v IH]; [discriminate L|]. cbn [map forallb] in L.
    destruct l; cbn in L; auto.
Qed.

Lemma C13_eq_list_pf rx a l : is_larr rx a ->
  exists a' r, la_eq_list a l = (a', Ok r) /\ same a' a /\
    (r = true <-> map_result (logic_new CLogic) l = Ok (elems a)).
Proof.
  intro Ha. pose proof (rep_canon rx a Ha) as R. destruct (eq_list_rep _ _ l R) as (a' & E & R').
  eexists a', _. split; [exact E|]. split; [eapply rep_same; eauto|]. unfold val. cbn [fst a_value].
  destruct (map_result (logic_new CLogic) l) as [vs|e]; [|split; discriminate].
  unfold logics_eqb. rewrite (list_eqb_eq logic_eqb logic_eqb_eq). split; intro K; congruence.
Qed.

Lemma C13_eq_int_pf rx rnd a z : is_larr rx a ->
  exists a' r, la_eq_int rx rnd a z = (a', Ok r) /\ same a' a /\
    (elems a <> [] -> definite (elems a) = true ->
       (r = true <-> z = if z <? 0 then signed (elems a) else unsigned (elems a))) /\
    (elems a = [] -> r = false) /\
    (rx = None -> definite (elems a) = false -> ~ minus_like (elems a) -> r = false).
Proof.
  intro Ha. pose proof (rep_canon rx a Ha) as R. destruct (eq_int_rep rx rnd _ _ z R) as (a' & E & R').
  eexists a', _. split; [exact E|]. split; [eapply rep_same; eauto|]. unfold val. cbn [fst a_value].
  unfold s_eq_int. split; [|split].
  - intros Hn D. unfold s_signed, s_int. rewrite (s_int0_definite _ Hn D).
    destruct (elems a) as [|l v] eqn:Ev; [congruence|]. cbn [bind].
    rewrite signed_unsigned by assumption. destruct (z <? 0); rewrite Z.eqb_eq; split; congruence.
  - intros ->. destruct (z <? 0); reflexivity.
  - intros -> D M. unfold s_signed, s_int. rewrite (int0_none _ D M).
    destruct (elems a); cbn [bind]; destruct (z <? 0); reflexivity.
Qed.

(** * C14 *)
Lemma C14_set_pf rx a i v : is_larr rx a ->
  exists a', la_setitem a i v = (a', snd (s_set (Array (elems a) (la_range a)) i v)) /\
    elems a' = a_value (fst (s_set (Array (elems a) (la_range a)) i v)) /\
    la_range a' = la_range a.
Proof.
  intro Ha. pose proof (rep_canon rx a Ha) as R. destruct (setitem_rep _ _ i v R) as (a' & E & R').
  exists a'. cbn [fst] in E. split; [exact E|]. destruct (rep_elems _ _ R') as (E1 & E2 & _).
  split; [exact E1|]. rewrite E2. cbn [fst]. unfold s_set, array_set.
  destruct (array_get _ i); cbn [fst a_range]; [|reflexivity].
  destruct (logic_new CLogic v); cbn [fst a_range]; [|reflexivity].
  destruct (translate_index _ i); cbn [fst a_range]; [|reflexivity].
  destruct (list_set _ _ _); reflexivity.
Qed.

Lemma C14_setitem_pf rx a i v : is_larr rx a -> la_warn a = false ->
  match la_setitem a i v with
  | (a', None) => In i (range_iter (la_range a)) /\ la_range a' = la_range a /\
      exists l, logic_new CLogic v = Ok l /\
        forall j, snd (la_getitem a' j) = if j =? i then Ok l else snd (la_getitem a j)
  | (a', Some e) => same a' a /\ (~ In i (range_iter (la_range a)) /\ e = IndexError \/
                                  In i (range_iter (la_range a)) /\ logic_new CLogic v = Err e)
  end.
Proof.
  intros Ha Hw. pose proof (rep_canon rx a Ha) as R. destruct (setitem_rep _ _ i v R) as (a' & E & R').
  rewrite E. cbn [fst snd] in *. set (x := Array (elems a) (la_range a)) in *.
  pose proof (rp_awf _ _ R) as W. cbn [fst] in W. fold x in W.
  assert (G : forall j, snd (la_getitem a j) = array_get x j).
  { intro j. destruct (getitem_rep _ _ j R) as (a2 & -> & _). cbn [snd]. unfold s_get. cbn [fst snd].
    rewrite Hw. reflexivity. }
  unfold s_set in *.
  destruct (array_set_cases x i L0 W) as [(p & Hp & Hl & _)|(Hn & _)].
  2: { assert (array_get x i = Err IndexError) as Eg.
       { unfold array_get. destruct (translate_cases x i W) as [(p & _ & Hp & _)|(-> & _)]; [|reflexivity].
         exfalso. apply Hn. eapply nth_error_In; eauto. }
       rewrite Eg in *. cbn [fst snd] in *. split; [eapply rep_same; eauto|]. left. auto. }
  assert (Hin : In i (range_iter (la_range a))) by (eapply nth_error_In; eauto).
  assert (exists y, array_get x i = Ok y) as [y Ey].
  { unfold array_get. destruct (translate_cases x i W) as [(p' & -> & _ & Hp')|(_ & K)]; [|contradiction].
    cbn [bind]. destruct (list_get_nth _ _ Hp') as (y & -> & _). eauto. }
  rewrite Ey in *. destruct (logic_new CLogic v) as [l|e] eqn:El; cbn [fst snd] in *.
  2: { split; [eapply rep_same; eauto|]. right. auto. }
  destruct (array_set_cases x i l W) as [(p' & Hp' & _ & Es)|(Hn & _)]; [|contradiction].
  rewrite Es in *. cbn [fst snd] in *. split; [exact Hin|]. split; [exact (rp_range _ _ R')|].
  exists l. split; [reflexivity|]. intro j.
  destruct (getitem_rep _ _ j R') as (a2 & -> & _). cbn [snd]. unfold s_get. cbn [fst snd]. rewrite Hw.
  cbn [bind]. rewrite G. now apply array_set_get.
Qed.

Lemma C14_setslice_pf rx a s e st v sv : is_larr rx a ->
  match v with
  | Some (VArr b) => is_larr rx b /\ sv = SArr (Array (elems b) (la_range b))
  | Some (VStr x) => sv = SStr x
  | Some (VInt x) => sv = SInt x
  | Some (VIter x) => sv = SIter x
  | None => sv = SArr (Array (elems a) (la_range a))
  end ->
  exists a', la_setslice a s e st v = (a', snd (s_setslice (Array (elems a) (la_range a)) s e st sv)) /\
    elems a' = a_value (fst (s_setslice (Array (elems a) (la_range a)) s e st sv)) /\
    (snd (s_setslice (Array (elems a) (la_range a)) s e st sv) <> None -> same a' a).
Proof.
  intros Ha V. pose proof (rep_canon rx a Ha) as R.
  destruct (setslice_rep _ _ s e st v sv R) as (a' & E & R').
  { destruct v as [[x|x|b|x]|]; cbn [vrel' vrel]; try (subst sv; reflexivity).
    destruct V as [Hb ->]. exists (la_warn b). now apply (rep_canon rx). }
  exists a'. cbn [fst] in E. split; [exact E|]. destruct (rep_elems _ _ R') as (E1 & E2 & E3).
  split; [exact E1|]. intro N. cbn [fst] in R'.
  assert (F : fst (s_setslice (Array (elems a) (la_range a)) s e st sv) = Array (elems a) (la_range a)).
  { unfold s_setslice in *. pose proof (array_setslice_fail (Array (elems a) (la_range a)) s e st) as AF.
    destruct (slice_bounds _ s e st) as [[[[? ?] ?] ?]|]; [|reflexivity].
    destruct (s_new _ _) as [y|]; [|reflexivity].
    destruct (snd (array_setslice (Array (elems a) (la_range a)) s e st (a_value y))) eqn:Es; [|congruence].
    eapply AF; eauto. exact (rp_awf _ _ R). }
  rewrite F in R'. eapply rep_same; eauto.
Qed.

(** * C15 *)
Lemma C15_resolve_pf rx r rnd a : is_larr rx a ->
  exists a' c, la_resolve r rnd a = (a', Ok c) /\ same a' a /\
    elems c = s_resolve r rnd (elems a) /\ la_range c = la_range a.
Proof.
  intro Ha. pose proof (rep_canon rx a Ha) as R. destruct (resolve_rep r rnd _ _ R) as (a' & b & E & R' & Q).
  unfold val in Q. cbn [fst a_value a_range s_attach] in Q.
  assert (L : py_len (s_resolve r rnd (elems a)) = range_len (la_range a)).
  { unfold py_len. rewrite s_resolve_length. pose proof (rep_len _ _ R) as L. unfold la_len, val in L. cbn [fst a_value] in L. lia. }
  rewrite L, Z.eqb_refl in Q. destruct b as [c|]; [|contradiction].
  exists a', c. split; [exact E|]. split; [eapply rep_same; eauto|].
  destruct (rres_ok _ _ _ Q) as (Q1 & Q2 & _). auto.
Qed.

Lemma C15_bool_pf rx rnd a : is_larr rx a -> definite (elems a) = true ->
  snd (la_bool rx rnd a) = Ok (existsb (fun l => match bool_of l with Some true => true | _ => false end) (elems a)) /\
  (elems a <> [] -> exists k, snd (to_unsigned rx rnd a) = Ok k /\ snd (la_bool rx rnd a) = Ok (negb (k =? 0))).
Proof.
  intros Ha D. pose proof (rep_canon rx a Ha) as R.
  destruct (bool_rep rx rnd _ _ R) as (a1 & -> & _), (to_unsigned_rep rx rnd _ _ R) as (a2 & -> & _).
  cbn [snd]. unfold val. cbn [fst a_value].
  assert (U : forall v, (unsigned v =? 0) =
    negb (existsb (fun l => match bool_of l with Some true => true | _ => false end) v)).
  { induction v as [|l v IH]; [reflexivity|]. rewrite unsigned_cons. cbn [existsb].
    pose proof (unsigned_range v) as B. assert (0 < 2 ^ Z.of_nat (length v)) by (apply Z.pow_pos_nonneg; lia).
    unfold bitval. destruct (bool_of l) as [[]|]; cbn [orb negb]; [|rewrite <- IH; f_equal; lia..].
    apply Z.eqb_neq. lia. }
  unfold s_bool, s_int. destruct (elems a) as [|l0 v0] eqn:Ev; [split; [reflexivity|congruence]|].
  rewrite <- Ev in *. assert (Hn : elems a <> []) by (rewrite Ev; discriminate).
  rewrite (s_int0_definite _ Hn D). destruct rx; cbn [bind]; rewrite ?U, ?negb_involutive; split; auto;
    intros _; eexists; (split; [reflexivity|]); rewrite U, negb_involutive; reflexivity.
Qed.

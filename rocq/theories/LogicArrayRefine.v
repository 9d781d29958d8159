(** The simulation between LogicArray objects with caches and plain lists of values. *)
From Coq Require Import String.
From Verif Require Import Base RangeModel RangeSpec RangeProofs ArrayModel ArraySpec ArrayProofs
  LogicModel LogicSpec LogicProofs LogicArrayModel LogicArrayMachine LogicArraySpec LogicArrayProofs.
Open Scope Z_scope.

Definition val (o : sobj) : list logic := a_value (fst o).

(** What the caches may hold when the object's value is [val o]. *)
Record rep (a : larr) (o : sobj) : Prop := {
  rp_range : la_range a = a_range (fst o);
  rp_warn : la_warn a = snd o;
  rp_awf : awf (fst o);
  rp_array : forall l, la_array a = Some l -> l = val o;
  rp_str : forall s, la_str a = Some s -> s = map logic_chr (val o);
  rp_int : forall k, la_int a = Some k -> s_int0 (val o) = Some k;
  rp_intonly : la_str a = None -> la_int a <> None -> la_array a = None /\ strong (val o) = true;
  rp_some : la_str a = None -> la_int a = None -> la_array a <> None }.

Ltac repsolve R :=
  constructor; cbn [la_range la_warn la_array la_str la_int]; intros;
  first [ solve [apply R] | eapply (rp_array _ _ R); eassumption | eapply (rp_str _ _ R); eassumption
        | eapply (rp_int _ _ R); eassumption | discriminate
        | match goal with E : Some _ = Some _ |- _ => injection E as <-; first [assumption|reflexivity] end
        | congruence | idtac ].

Lemma rep_len a o : rep a o -> la_len a = Z.of_nat (length (val o)).
Proof.
  intro H. unfold la_len. rewrite (rp_range _ _ H). destruct (rp_awf _ _ H) as [W L].
  rewrite <- (iter_len _ W). unfold val. rewrite L. reflexivity.
Qed.

Lemma s_int0_nonempty v k : s_int0 v = Some k -> v <> [].
Proof. intros H ->. discriminate H. Qed.

Lemma get_str_rep a o : rep a o ->
  exists a', la_get_str a = (a', Ok (map logic_chr (val o))) /\ rep a' o /\
             la_str a' = Some (map logic_chr (val o)) /\ la_int a' = la_int a.
Proof.
  intro H. unfold la_get_str. destruct (la_str a) as [s|] eqn:Es.
  - pose proof (rp_str _ _ H s Es) as ->. exists a. auto.
  - destruct (la_int a) as [k|] eqn:Ek.
    + destruct (rp_intonly _ _ H Es) as [Ea Hs]; [congruence|].
      pose proof (rp_int _ _ H k Ek) as Hk. pose proof (s_int0_nonempty _ _ Hk) as Hne.
      pose proof Hk as Hk'. rewrite (s_int0_strong _ Hne Hs) in Hk'. injection Hk' as <-.
      pose proof (unsigned_range (val o)). rewrite (rep_len a o H).
      assert (1 <= Z.of_nat (length (val o))) by (destruct (val o); [congruence|cbn [length]; lia]).
      rewrite format_bits by assumption.
      rewrite Nat2Z.id, bits_unsigned by assumption.
      eexists. split; [reflexivity|]. split; [|auto].
      repsolve H.
    + destruct (la_array a) as [l|] eqn:El.
      2: { exfalso. exact (rp_some _ _ H Es Ek El). }
      pose proof (rp_array _ _ H l El) as ->.
      eexists. split; [reflexivity|]. split; [|auto].
      repsolve H.
Qed.

Lemma get_array_rep a o : rep a o ->
  exists a', la_get_array a = (a', Ok (val o)) /\ rep a' o /\ la_array a' = Some (val o).
Proof.
  intro H. unfold la_get_array. destruct (la_array a) as [l|] eqn:El.
  - pose proof (rp_array _ _ H l El) as ->. exists a. auto.
  - destruct (get_str_rep a o H) as (a' & -> & R & Hs & Hi). rewrite logics_of_chars.
    eexists. split; [reflexivity|]. split; [|reflexivity].
    repsolve R.
Qed.

Lemma get_int_rep rx rnd a o : rep a o -> val o <> [] ->
  exists a', la_get_int rx rnd a = (a', s_int rx rnd (val o)) /\ rep a' o.
Proof.
  intros H Hne. unfold la_get_int.
  assert (SI : forall k, s_int0 (val o) = Some k -> s_int rx rnd (val o) = Ok k).
  { intros k Hk. unfold s_int. destruct (val o); [congruence|]. now rewrite Hk. }
  destruct (la_int a) as [k|] eqn:Ek.
  - exists a. rewrite (SI k (rp_int _ _ H k Ek)). auto.
  - destruct (get_str_rep a o H) as (a' & -> & R & Hs & Hi).
    rewrite resolve_lh_chars, py_int2_chars.
    destruct (s_int0 (val o)) as [k|] eqn:E.
    + rewrite (SI k eq_refl). eexists. split; [reflexivity|].
      repsolve R.
    + destruct rx as [r|].
      * exists a'. rewrite int_fallback by assumption. auto.
      * exists a'. split; [|assumption]. unfold s_int. destruct (val o); [congruence|]. now rewrite E.
Qed.

Lemma to_unsigned_rep rx rnd a o : rep a o ->
  exists a', to_unsigned rx rnd a = (a', s_int rx rnd (val o)) /\ rep a' o.
Proof.
  intro H. unfold to_unsigned. rewrite (rep_len a o H).
  destruct (Z.eqb_spec (Z.of_nat (length (val o))) 0) as [E|E].
  - exists a. destruct (val o); [auto|cbn [length] in E; lia].
  - apply get_int_rep; [assumption|]. intro K. rewrite K in E. now apply E.
Qed.

Lemma pow2_double n : 1 <= n -> 2 * 2 ^ (n - 1) = 2 ^ n.
Proof. intro H. rewrite <- Z.pow_succ_r by lia. f_equal. lia. Qed.

Lemma to_signed_rep rx rnd a o : rep a o ->
  exists a', to_signed rx rnd a = (a', s_signed rx rnd (val o)) /\ rep a' o.
Proof.
  intro H. unfold to_signed. rewrite (rep_len a o H).
  destruct (Z.eqb_spec (Z.of_nat (length (val o))) 0) as [E|E].
  - exists a. destruct (val o); [auto|cbn [length] in E; lia].
  - assert (Hne : val o <> []) by (intro K; rewrite K in E; now apply E).
    destruct (get_int_rep rx rnd a o H Hne) as (a' & -> & R). exists a'. split; [|assumption].
    unfold s_signed. rewrite (rep_len a' o R). rewrite pow2_double by lia. reflexivity.
Qed.

Lemma to_bytes_rep rx rnd bo a o : rep a o ->
  exists a', to_bytes rx rnd bo a = (a', s_bytes rx rnd bo (val o)) /\ rep a' o.
Proof.
  intro H. unfold to_bytes. destruct (to_unsigned_rep rx rnd a o H) as (a' & -> & R).
  exists a'. split; [|assumption]. unfold s_bytes. rewrite (rep_len a' o R).
  replace (- (- Z.of_nat (length (val o)) / 8)) with ((Z.of_nat (length (val o)) + 7) / 8) by lia.
  reflexivity.
Qed.

Lemma s_int_err rx rnd v e : s_int rx rnd v = Err e -> e = ValueError.
Proof.
  unfold s_int. destruct v; [congruence|]. destruct (s_int0 _); [discriminate|].
  destruct rx as [[]|]; congruence.
Qed.

Lemma eq_int_rep rx rnd a o z : rep a o ->
  exists a', la_eq_int rx rnd a z = (a', Ok (s_eq_int rx rnd (val o) z)) /\ rep a' o.
Proof.
  intro H. unfold la_eq_int. rewrite (rep_len a o H). unfold s_eq_int.
  destruct (Z.eqb_spec (Z.of_nat (length (val o))) 0) as [E|E].
  - exists a. split; [|assumption]. destruct (val o); [|cbn [length] in E; lia].
    destruct (z <? 0); reflexivity.
  - destruct (z <? 0).
    + destruct (to_signed_rep rx rnd a o H) as (a' & -> & R). exists a'. split; [|assumption].
      unfold s_signed. destruct (s_int rx rnd (val o)) eqn:Ei; cbn [bind]; [reflexivity|].
      apply s_int_err in Ei. now subst.
    + destruct (to_unsigned_rep rx rnd a o H) as (a' & -> & R). exists a'. split; [|assumption].
      destruct (s_int rx rnd (val o)) eqn:Ei; [reflexivity|]. apply s_int_err in Ei. now subst.
Qed.

Lemma eq_str_rep a o s : rep a o ->
  exists a', la_eq_str a s = (a', Ok (pystr_eqb (s_chars (val o)) (upper s))) /\ rep a' o.
Proof.
  intro H. unfold la_eq_str. destruct (get_str_rep a o H) as (a' & -> & R & _). exists a'. auto.
Qed.

Lemma eqb_chars v w : pystr_eqb (map logic_chr v) (map logic_chr w) = logics_eqb v w.
Proof.
  apply Bool.eq_iff_eq_true. rewrite pystr_eqb_eq. unfold logics_eqb.
  rewrite (list_eqb_eq logic_eqb logic_eqb_eq). split; [apply map_chr_inj|congruence].
Qed.

Lemma logics_eqb_sym v w : logics_eqb v w = logics_eqb w v.
Proof.
  apply Bool.eq_iff_eq_true. unfold logics_eqb. rewrite !(list_eqb_eq logic_eqb logic_eqb_eq).
  split; congruence.
Qed.

Lemma logics_eqb_len v w : length v <> length w -> logics_eqb v w = false.
Proof.
  intro H. apply not_true_iff_false. unfold logics_eqb. rewrite (list_eqb_eq logic_eqb logic_eqb_eq).
  congruence.
Qed.

Lemma clean_int0 v k : clean v = true -> s_int0 v = Some k -> strong v = true /\ k = unsigned v.
Proof.
  intros C H. assert (D : definite v = true /\ k = unsigned v).
  { destruct v as [|l v]; [discriminate H|]. cbn [clean forallb] in C.
    destruct l; try discriminate C; cbn [s_int0] in H; destruct (definite _) eqn:E; try discriminate H;
      injection H as <-; auto. }
  destruct D as [D ->]. split; [|reflexivity].
  unfold strong, definite, clean in *. rewrite forallb_forall in *.
  intros x Hx. specialize (C x Hx). specialize (D x Hx). destruct x; first [discriminate C | discriminate D | reflexivity].
Qed.

(** Both integers cached, and not both strings or both lists: the only case in which equality
    looks at integers. *)
Definition by_int (a b : larr) : bool :=
  match la_str a, la_str b, la_array a, la_array b, la_int a, la_int b with
  | Some _, Some _, _, _, _, _ => false
  | _, _, Some _, Some _, _, _ => false
  | _, _, _, _, Some _, Some _ => true
  | _, _, _, _, _, _ => false
  end.

Ltac pack := split; [reflexivity|split; [assumption|split; [assumption|split; [|split]]]].

Lemma eq_rep a o b p : rep a o -> rep b p ->
  exists a' b' r, la_eq a b = (a', b', Ok r) /\ rep a' o /\ rep b' p /\
    (by_int a b = false \/ (clean (val o) = true /\ clean (val p) = true) ->
     r = logics_eqb (val o) (val p)) /\
    (by_int a b = true -> exists j k, s_int0 (val o) = Some j /\ s_int0 (val p) = Some k /\
       r = ((la_len a =? la_len b) && (j =? k))%bool) /\
    (a = b -> a' = b').
Proof.
  intros H K. unfold la_eq. rewrite (rep_len a o H), (rep_len b p K).
  destruct (Z.eqb_spec (Z.of_nat (length (val o))) (Z.of_nat (length (val p)))) as [El|El]; cbn [negb].
  2: { exists a, b, false. pack; [| |auto].
       - intros _. symmetry. apply logics_eqb_len. lia.
       - intro B. unfold by_int in B.
         destruct (la_str a), (la_str b), (la_array a), (la_array b), (la_int a) as [j|] eqn:Ej,
           (la_int b) as [k|] eqn:Ek; try discriminate B;
           exists j, k; rewrite (rp_int _ _ H j Ej), (rp_int _ _ K k Ek); auto. }
  assert (GS : forall x q, rep x q -> exists x', la_get_str x = (x', Ok (map logic_chr (val q))) /\ rep x' q).
  { intros x q R. destruct (get_str_rep x q R) as (x' & E & R' & _). eauto. }
  assert (GA : forall x q, rep x q -> exists x', la_get_array x = (x', Ok (val q)) /\ rep x' q).
  { intros x q R. destruct (get_array_rep x q R) as (x' & E & R' & _). eauto. }
  assert (CI : forall j k, la_int a = Some j -> la_int b = Some k ->
     (exists j' k', s_int0 (val o) = Some j' /\ s_int0 (val p) = Some k' /\ (j =? k) = (true && (j' =? k'))%bool) /\
     (clean (val o) = true /\ clean (val p) = true -> (j =? k) = logics_eqb (val o) (val p))).
  { intros j k Ej Ek. pose proof (rp_int _ _ H j Ej) as Hj. pose proof (rp_int _ _ K k Ek) as Hk.
    split; [exists j, k; auto|]. intros [C1 C2].
    destruct (clean_int0 _ _ C1 Hj) as [S1 ->]. destruct (clean_int0 _ _ C2 Hk) as [S2 ->].
    apply Bool.eq_iff_eq_true. unfold logics_eqb.
    rewrite (list_eqb_eq logic_eqb logic_eqb_eq), Z.eqb_eq. split; [|congruence].
    apply strong_inj; auto. lia. }
  unfold by_int.
  destruct (la_str a) as [s|] eqn:Es; destruct (la_str b) as [t|] eqn:Et.
  { pose proof (rp_str _ _ H s Es) as ->. pose proof (rp_str _ _ K t Et) as ->.
    exists a, b, (logics_eqb (val o) (val p)). rewrite eqb_chars.
    pack; [auto|discriminate|auto]. }
  all: destruct (la_array a) as [l|] eqn:Ea; destruct (la_array b) as [m|] eqn:Eb.
  all: try (pose proof (rp_array _ _ H l Ea) as ->; pose proof (rp_array _ _ K m Eb) as ->;
    exists a, b, (logics_eqb (val o) (val p)); pack; [auto|discriminate|auto]).
  all: destruct (la_int a) as [j|] eqn:Ej; destruct (la_int b) as [k|] eqn:Ek.
  all: try (destruct (CI j k eq_refl eq_refl) as [CI1 CI2]; exists a, b, (j =? k);
    pack; [intros [?|?]; [discriminate|auto]|intros _; exact CI1|auto]).
  all: try (pose proof (rp_str _ _ H s Es) as ->; destruct (GS b p K) as (b' & Eg & R');
    unfold on_result; rewrite Eg; cbn [bind]; exists a, b', (logics_eqb (val o) (val p)); rewrite eqb_chars;
    pack; [auto|discriminate|intros ->; congruence]).
  all: try (pose proof (rp_str _ _ K t Et) as ->; destruct (GS a o H) as (a' & Eg & R');
    unfold on_result; rewrite Eg; cbn [bind]; exists a', b, (logics_eqb (val o) (val p)); rewrite eqb_chars;
    pack; [auto|discriminate|intros ->; congruence]).
  all: try (exfalso; exact (rp_some _ _ H Es Ej Ea)).
  all: try (exfalso; exact (rp_some _ _ K Et Ek Eb)).
  all: try (pose proof (rp_array _ _ H l Ea) as ->; destruct (GA b p K) as (b' & Eg & R');
    unfold on_result; rewrite Eg; cbn [bind]; exists a, b', (logics_eqb (val o) (val p));
    pack; [auto|discriminate|intros ->; congruence]).
  all: try (pose proof (rp_array _ _ K m Eb) as ->; destruct (GA a o H) as (a' & Eg & R');
    unfold on_result; rewrite Eg; cbn [bind]; exists a', b, (logics_eqb (val o) (val p));
    pack; [auto|discriminate|intros ->; congruence]).
Qed.

(** * Constructors *)

Lemma downto_ok n : exists r, downto_range n = Ok r /\ wf r /\ range_len r = Z.max 0 n.
Proof.
  unfold downto_range. rewrite (mk_range_str (n - 1) (lit "downto") 0 Downto) by reflexivity.
  eexists. split; [reflexivity|]. split; [right; reflexivity|].
  unfold range_len. rewrite pr_len_wf by (right; reflexivity). cbn [r_step r_start r_stop]. lia.
Qed.

Lemma norm_range_ok rg : rangearg_ok rg ->
  exists range, norm_range rg = Ok range /\ match range with Some r => wf r | None => True end.
Proof.
  intro H. destruct rg as [|n|r]; cbn [norm_range].
  - eexists; split; [reflexivity|exact I].
  - destruct (downto_ok n) as (r & -> & W & _). eexists; split; [reflexivity|exact W].
  - eexists; split; [reflexivity|]. destruct H as (l & d & e & E). exact (mk_range_wf _ _ _ _ E).
Qed.

Lemma awf_len (vs : list logic) r : wf r -> py_len vs = range_len r -> awf (Array vs r).
Proof.
  intros W H. split; [exact W|]. cbn [a_value a_range]. rewrite <- (iter_len r W) in H.
  unfold py_len in H. lia.
Qed.

Lemma awf_len' x : awf (A := logic) x -> py_len (a_value x) = range_len (a_range x).
Proof. intros [W L]. rewrite <- (iter_len _ W). unfold py_len. now rewrite L. Qed.

Lemma attach_awf vs range x : match range with Some r => wf r | None => True end ->
  s_attach vs range = Ok x -> awf x /\ a_value x = vs /\
  match range with Some r => a_range x = r | None => True end.
Proof.
  intros W. destruct range as [r|]; cbn [s_attach].
  - destruct (Z.eqb_spec (py_len vs) (range_len r)) as [E|]; [|discriminate]. intro H. injection H as <-.
    split; [now apply awf_len|]. auto.
  - destruct (downto_ok (py_len vs)) as (r & -> & W' & L). cbn [bind]. intro H. injection H as <-.
    split; [|auto]. apply awf_len; [exact W'|]. rewrite L. unfold py_len. lia.
Qed.

(** A constructor result against its specification. *)
Definition rres (w : bool) (r : result larr) (s : result (array logic)) : Prop :=
  match r, s with Ok a, Ok x => rep a (x, w) | Err e, Err e' => e = e' | _, _ => False end.

Lemma rep_str vs r w : awf (Array vs r) -> rep (LArr None None (Some (map logic_chr vs)) r w) (Array vs r, w).
Proof. intro W. constructor; cbn; try reflexivity; try assumption; try discriminate; intros; congruence. Qed.
Lemma rep_list vs r w : awf (Array vs r) -> rep (LArr (Some vs) None None r w) (Array vs r, w).
Proof. intro W. constructor; cbn; try reflexivity; try assumption; try discriminate; intros; congruence. Qed.
Lemma rep_bits k r w : wf r -> 0 < range_len r -> 0 <= k < 2 ^ range_len r ->
  rep (LArr None (Some k) None r w) (Array (bits (Z.to_nat (range_len r)) k) r, w).
Proof.
  intros W Hl Hk.
  assert (awf (Array (bits (Z.to_nat (range_len r)) k) r)).
  { apply awf_len; [exact W|]. unfold py_len. rewrite bits_length. lia. }
  constructor; unfold val; cbn [la_range la_warn la_array la_str la_int fst snd a_range a_value];
    try reflexivity; try assumption; try discriminate.
  - intros j Hj. injection Hj as <-. rewrite s_int0_strong.
    + rewrite unsigned_bits, Z2Nat.id by lia. rewrite Z.mod_small by lia. reflexivity.
    + intro E. apply (f_equal (@length logic)) in E. rewrite bits_length in E. cbn [length] in E. lia.
    + apply bits_strong.
  - intros _ _. split; [reflexivity|apply bits_strong].
Qed.

Definition vrel (v : laval) (s : sval) : Prop :=
  match v, s with
  | VStr x, SStr y => x = y
  | VInt x, SInt y => x = y
  | VIter x, SIter y => x = y
  | VArr a, SArr x => exists w, rep a (x, w)
  | _, _ => False
  end.

Lemma py_len_chars v : py_len (map logic_chr v) = py_len v.
Proof. unfold py_len. now rewrite map_length. Qed.

Lemma rres_list vs range w :
  match range with Some r => wf r | None => True end ->
  rres w match range with
      | Some r => if negb (py_len vs =? range_len r) then Err ValueError
                  else Ok (LArr (Some vs) None None r w)
      | None => bind (downto_range (py_len vs)) (fun r => Ok (LArr (Some vs) None None r w))
      end (s_attach vs range).
Proof.
  intro W. destruct range as [r|]; cbn [s_attach].
  - destruct (Z.eqb_spec (py_len vs) (range_len r)); cbn [negb rres]; [|reflexivity].
    apply rep_list. now apply awf_len.
  - destruct (downto_ok (py_len vs)) as (r & -> & W' & L). cbn [bind rres]. apply rep_list.
    apply awf_len; [exact W'|]. rewrite L. unfold py_len. lia.
Qed.

Lemma rres_str vs range w :
  match range with Some r => wf r | None => True end ->
  rres w match range with
      | Some r => if negb (py_len (map logic_chr vs) =? range_len r) then Err ValueError
                  else Ok (LArr None None (Some (map logic_chr vs)) r w)
      | None => bind (downto_range (py_len (map logic_chr vs)))
                  (fun r => Ok (LArr None None (Some (map logic_chr vs)) r w))
      end (s_attach vs range).
Proof.
  intro W. rewrite py_len_chars. destruct range as [r|]; cbn [s_attach].
  - destruct (Z.eqb_spec (py_len vs) (range_len r)); cbn [negb rres]; [|reflexivity].
    apply rep_str. now apply awf_len.
  - destruct (downto_ok (py_len vs)) as (r & -> & W' & L). cbn [bind rres]. apply rep_str.
    apply awf_len; [exact W'|]. rewrite L. unfold py_len. lia.
Qed.

Lemma attach_bits r k : wf r -> s_attach (bits (Z.to_nat (range_len r)) k) (Some r) =
  Ok (Array (bits (Z.to_nat (range_len r)) k) r).
Proof.
  intro W. cbn [s_attach]. unfold py_len at 1. rewrite bits_length, Z2Nat.id, Z.eqb_refl; [reflexivity|].
  now apply pr_len_nonneg.
Qed.

Lemma rep_move a x w r : rep a (x, w) -> wf r -> range_len r = la_len a ->
  forall w', rep (LArr (la_array a) (la_int a) (la_str a) r w') (Array (a_value x) r, w').
Proof.
  intros R W L w'. constructor; cbn [la_range la_warn la_array la_str la_int fst snd a_range];
    try reflexivity; unfold val in *; cbn [fst a_value]; try apply R.
  apply awf_len; [exact W|]. rewrite L, (rep_len _ _ R). reflexivity.
Qed.

Lemma rep_rewarn a x w w' : rep a (x, w) ->
  rep (LArr (la_array a) (la_int a) (la_str a) (la_range a) w') (x, w').
Proof.
  intro R. constructor; cbn [la_range la_warn la_array la_str la_int fst snd]; try reflexivity; apply R.
Qed.

Lemma mk_larr_rep v s rg : vrel v s -> rangearg_ok rg -> rres false (mk_larr v rg) (s_new s rg).
Proof.
  intros V HR. unfold mk_larr, s_new. destruct (norm_range_ok rg HR) as (range & -> & W). cbn [bind].
  destruct v as [x|z|a|l], s as [y|y|y|y]; try contradiction V; cbn [vrel] in V.
  - subst y. unfold s_of_str.
    destruct (str_case (filter (fun c => negb (c =? 95)) x)) as [(v & -> & -> & ->)|(-> & ->)];
      cbn [negb bind]; [|reflexivity]. now apply rres_str.
  - subst y. destruct range as [r|]; [|reflexivity]. unfold s_of_int.
    destruct (Z.eqb_spec (range_len r) 0) as [E|E]; cbn [orb bind]; [reflexivity|].
    assert (Hn : 0 < range_len r) by (pose proof (pr_len_nonneg r W); unfold range_len in *; lia).
    assert (P : 0 < 2 ^ (range_len r - 1)) by (apply Z.pow_pos_nonneg; lia).
    assert (Q : 2 * 2 ^ (range_len r - 1) = 2 ^ range_len r) by (apply pow2_double; lia).
    destruct (Z.ltb_spec z 0).
    + destruct (Z.ltb_spec z (- 2 ^ (range_len r - 1))); cbn [orb bind]; [reflexivity|].
      destruct (Z.leb_spec (2 ^ range_len r) z); [lia|]. cbn [bind]. rewrite attach_bits by assumption.
      cbn [rres]. rewrite <- (bits_add_pow _ z (range_len r)) by lia. apply rep_bits; try assumption; lia.
    + destruct (Z.ltb_spec z (- 2 ^ (range_len r - 1))); [lia|]. cbn [orb].
      destruct (Z.leb_spec (2 ^ range_len r) z); cbn [bind]; [reflexivity|].
      rewrite attach_bits by assumption. cbn [rres]. apply rep_bits; try assumption; lia.
  - destruct V as [w R]. destruct range as [r|]; cbn [rres].
    + cbn [s_attach]. rewrite (rep_len _ _ R). unfold val, py_len. cbn [fst].
      rewrite (Z.eqb_sym (range_len r)).
      destruct (Z.eqb_spec (Z.of_nat (length (a_value y))) (range_len r)) as [E|]; cbn [negb rres]; [|reflexivity].
      eapply rep_move; eauto. rewrite (rep_len _ _ R). unfold val. cbn [fst]. auto.
    + eapply rep_rewarn; eauto.
  - subst y. destruct (map_result (logic_new CLogic) l) as [vs|e]; cbn [bind]; [|reflexivity].
    now apply rres_list.
Qed.

Lemma from_unsigned_rep z rg ov : rangearg_ok rg ->
  rres false (from_unsigned z rg ov)
    (bind (req_range rg) (fun r =>
        if (z <? 0) || (range_len r =? 0) then Err ValueError
        else match ov with
             | OvWrap => Ok (Array (bits (Z.to_nat (range_len r)) z) r)
             | OvError => if z <? 2 ^ range_len r then Ok (Array (bits (Z.to_nat (range_len r)) z) r)
                          else Err ValueError
             | OvOther => Err ValueError
             end)).
Proof.
  intro HR. unfold from_unsigned, req_range. destruct (norm_range_ok rg HR) as (range & -> & W).
  cbn [bind]. destruct range as [r|]; [|reflexivity]. cbn [bind].
  destruct (Z.ltb_spec z 0); [reflexivity|]. cbn [orb].
  destruct (Z.eqb_spec (range_len r) 0) as [E|E]; [reflexivity|].
  assert (Hn : 0 < range_len r) by (pose proof (pr_len_nonneg r W); unfold range_len in *; lia).
  assert (P : 0 < 2 ^ range_len r) by (apply Z.pow_pos_nonneg; lia).
  destruct ov; [| |reflexivity].
  - rewrite Z.ltb_antisym. destruct (Z.leb_spec (2 ^ range_len r) z); cbn [negb rres]; [reflexivity|].
    apply rep_bits; auto.
  - cbn [rres]. rewrite <- (bits_mod (Z.to_nat (range_len r)) z), Z2Nat.id by lia.
    apply rep_bits; auto. apply Z.mod_pos_bound. lia.
Qed.

Lemma from_signed_rep z rg ov : rangearg_ok rg ->
  rres false (from_signed z rg ov)
   (bind (req_range rg) (fun r =>
        if range_len r =? 0 then Err ValueError
        else match ov with
             | OvWrap => Ok (Array (bits (Z.to_nat (range_len r)) z) r)
             | OvError => if (- 2 ^ (range_len r - 1) <=? z) && (z <? 2 ^ (range_len r - 1))
                          then Ok (Array (bits (Z.to_nat (range_len r)) z) r) else Err ValueError
             | OvOther => Err ValueError
             end)).
Proof.
  intro HR. unfold from_signed, req_range. destruct (norm_range_ok rg HR) as (range & -> & W).
  cbn [bind]. destruct range as [r|]; [|reflexivity]. cbn [bind].
  destruct (Z.eqb_spec (range_len r) 0) as [E|E]; [reflexivity|].
  assert (Hn : 0 < range_len r) by (pose proof (pr_len_nonneg r W); unfold range_len in *; lia).
  assert (P : 0 < 2 ^ range_len r) by (apply Z.pow_pos_nonneg; lia).
  assert (Q : 2 * 2 ^ (range_len r - 1) = 2 ^ range_len r) by (apply pow2_double; lia).
  assert (rep (LArr None (Some (z mod 2 ^ range_len r)) None r false)
              (Array (bits (Z.to_nat (range_len r)) z) r, false)).
  { rewrite <- (bits_mod (Z.to_nat (range_len r)) z), Z2Nat.id by lia.
    apply rep_bits; auto. apply Z.mod_pos_bound. lia. }
  destruct ov; [| |reflexivity].
  - rewrite Q. destruct (Z.ltb_spec z (- 2 ^ (range_len r - 1))), (Z.leb_spec (2 ^ (range_len r - 1)) z),
      (Z.leb_spec (- 2 ^ (range_len r - 1)) z), (Z.ltb_spec z (2 ^ (range_len r - 1))); try lia;
      cbn [andb orb rres]; try reflexivity; assumption.
  - cbn [rres]. assumption.
Qed.

Lemma from_bytes_rep b rg o : rangearg_ok rg ->
  rres false (from_bytes b rg o)
   (bind (norm_range rg) (fun range =>
        bind (match range with None => downto_range (py_len b * 8) | Some r => Ok r end) (fun r =>
        if py_len b * 8 =? range_len r then s_new (SInt (int_from_bytes o b)) (RRange r)
        else Err ValueError))).
Proof.
  intro HR. unfold from_bytes. destruct (norm_range_ok rg HR) as (range & -> & W). cbn [bind].
  destruct range as [r|]; cbn [bind].
  - destruct (Z.eqb_spec (py_len b * 8) (range_len r)); cbn [negb]; [|reflexivity].
    apply mk_larr_rep; [reflexivity|]. destruct r as [st sp k].
    destruct W as [W|W]; cbn [r_step] in W; subst k.
    + exists st, (DStr (lit "to")), (Some (sp - 1)).
      rewrite (mk_range_str _ _ _ To) by reflexivity. do 2 f_equal; lia.
    + exists st, (DStr (lit "downto")), (Some (sp - -1)).
      rewrite (mk_range_str _ _ _ Downto) by reflexivity. do 2 f_equal; lia.
  - unfold downto_range. rewrite (mk_range_str _ _ _ Downto) by reflexivity. cbn [bind].
    rewrite (proj2 (Z.eqb_eq _ _)).
    + apply mk_larr_rep; [reflexivity|]. eexists _, (DStr (lit "downto")), (Some 0).
      now rewrite (mk_range_str _ _ _ Downto).
    + unfold range_len. rewrite pr_len_wf by (right; reflexivity). cbn [r_step r_start r_stop].
      unfold py_len. lia.
Qed.

Lemma from_handle_rep s w : Forall (fun c => In c (lit "UX01ZWLH-")) s ->
  rres w (from_handle s w)
    (bind (map_result (fun c => logic_new CLogic (LvStr [c])) s) (fun vs => s_attach vs None)).
Proof.
  intro H. destruct (literal_chars s H) as [v ->]. fold (logics_of_str (map logic_chr v)).
  rewrite logics_of_chars. cbn [bind]. exact (rres_str v None w I).
Qed.

(** * Reading elements *)

Lemma translate_rep a o i : rep a o -> la_translate a i = translate_index (fst o) i.
Proof. intro R. unfold la_translate, translate_index. now rewrite (rp_range _ _ R). Qed.

Lemma slice_bounds_rep a o s e st : rep a o -> la_slice_bounds a s e st = slice_bounds (fst o) s e st.
Proof.
  intro R. unfold la_slice_bounds, slice_bounds. rewrite (rp_range _ _ R).
  destruct st; [reflexivity|]. rewrite !(translate_rep a o _ R). reflexivity.
Qed.

Lemma getitem_rep a o i : rep a o ->
  exists a', la_getitem a i = (a', s_get o i) /\ rep a' o.
Proof.
  intro R. unfold la_getitem. destruct (get_array_rep a o R) as (a' & -> & R' & _).
  exists a'. split; [|exact R']. cbn [bind]. unfold s_get, array_get.
  rewrite (rp_warn _ _ R'), (rp_range _ _ R'), (translate_rep a' o i R'). reflexivity.
Qed.

Lemma index_loop_rep o v labels : forall a, rep a o ->
  exists a', la_index_loop a v labels = (a', s_index_loop o v labels) /\ rep a' o.
Proof.
  induction labels as [|i labels IH]; intros a R; cbn [la_index_loop s_index_loop]; [eauto|].
  destruct (getitem_rep a o i R) as (a' & -> & R'). destruct (s_get o i) as [y|e]; cbn [bind]; [|eauto].
  destruct (logic_eq y v); [eauto|]. now apply IH.
Qed.

Lemma index_rep a o v s e : rep a o ->
  exists a', la_index a v s e = (a', s_index o v s e) /\ rep a' o.
Proof.
  intro R. unfold la_index, s_index. rewrite (rp_range _ _ R).
  destruct (direction_of (a_range (fst o))) as [d|]; cbn [bind]; [|eauto].
  destruct (mk_range _ _ _) as [r|]; cbn [bind]; [|eauto]. now apply index_loop_rep.
Qed.

Lemma mk_range_ok_wf r : (exists l d e, mk_range l d e = Ok r) -> wf r.
Proof. intros (l & d & e & H). exact (mk_range_wf _ _ _ _ H). Qed.

Lemma mk_larr_attach vs r : wf r ->
  rres false (mk_larr (VIter (map LvLogic vs)) (RRange r)) (mk_array vs (RRange r)).
Proof.
  intro W. unfold mk_larr. cbn [norm_range bind]. rewrite map_result_logic. cbn [bind].
  pose proof (rres_list vs (Some r) false W) as H. cbn [s_attach] in H. exact H.
Qed.

Lemma getslice_rep a o s e st : rep a o ->
  exists a' r, la_getslice a s e st = (a', r) /\ rep a' o /\ rres false r (s_getslice o s e st).
Proof.
  intro R. unfold la_getslice. destruct (get_array_rep a o R) as (a' & -> & R' & _).
  eexists a', _. split; [reflexivity|]. split; [exact R'|]. cbn [bind]. unfold s_getslice.
  rewrite (rp_warn _ _ R'), (rp_range _ _ R'), (rep_len _ _ R'). unfold s_len, val.
  destruct (if snd o then _ else _) as [u|ex]; cbn [bind]; [|reflexivity].
  rewrite (slice_bounds_rep _ _ _ _ _ R'). unfold array_getslice.
  destruct (slice_bounds (fst o) s e st) as [[[[s' e'] si] ei]|ex]; cbn [bind]; [|reflexivity].
  destruct (direction_of (a_range (fst o))) as [d|ex]; cbn [bind]; [|reflexivity].
  destruct (mk_range s' (DStr d) (Some e')) as [r|ex] eqn:Er; cbn [bind]; [|reflexivity].
  apply mk_larr_attach. exact (mk_range_wf _ _ _ _ Er).
Qed.

Lemma eq_list_rep a o l : rep a o ->
  exists a', la_eq_list a l =
   (a', Ok match map_result (logic_new CLogic) l with
           | Ok vs => logics_eqb (val o) vs
           | Err _ => false
           end) /\ rep a' o.
Proof.
  intro R. unfold la_eq_list.
  pose proof (mk_larr_rep (VIter l) (SIter l) RNone eq_refl I) as H.
  assert (NI : forall b, mk_larr (VIter l) RNone = Ok b -> la_int b = None).
  { intros b. unfold mk_larr. cbn [norm_range bind]. destruct (map_result _ _); cbn [bind]; [|discriminate].
    destruct (downto_range _); cbn [bind]; [|discriminate]. intro E. injection E as <-. reflexivity. }
  assert (ME : forall e, map_result (logic_new CLogic) l = Err e -> e = ValueError \/ e = TypeError).
  { clear. induction l as [|x l IH]; intro e; cbn [map_result]; [discriminate|].
    destruct (logic_new CLogic x) as [y|e'] eqn:E; cbn [bind].
    - destruct (map_result (logic_new CLogic) l); cbn [bind]; [discriminate|]. intro K. injection K as <-. now apply IH.
    - intro K. injection K as <-. unfold logic_new in E. unfold literal_repr in E.
      destruct x; repeat (match type of E with context [match ?t with _ => _ end] => destruct t end; cbn [bind] in E);
        try discriminate E; injection E as <-; auto. }
  unfold s_new in H. cbn [norm_range bind] in H.
  destruct (map_result (logic_new CLogic) l) as [vs|e] eqn:EM; cbn [bind] in H.
  - destruct (mk_larr (VIter l) RNone) as [b|e] eqn:Eb; cbn [rres] in H; [|].
    + destruct (s_attach vs None) as [x|] eqn:Ea; [|contradiction].
      destruct (attach_awf vs None x I Ea) as (W & Hv & _).
      destruct (eq_rep a o b _ R H) as (a' & b' & r & -> & R' & _ & Hr & _ & _).
      exists a'. split; [|exact R']. rewrite Hr; [unfold val at 2; cbn [fst]; now rewrite Hv|].
      left. unfold by_int. rewrite (NI b eq_refl).
      destruct (la_str a), (la_str b), (la_array a), (la_array b), (la_int a); reflexivity.
    + exfalso. destruct (s_attach vs None) as [x|] eqn:Ea; [contradiction|]. cbn [s_attach] in Ea.
      destruct (downto_ok (py_len vs)) as (r & Er & _). rewrite Er in Ea. discriminate Ea.
  - destruct (mk_larr (VIter l) RNone) as [b|e'] eqn:Eb; cbn [rres] in H; [contradiction|]. subst e'.
    destruct (ME e eq_refl) as [->| ->]; eauto.
Qed.

(** * Writing *)

Lemma rep_written l x w r wn : a_value x = l -> a_range x = r -> awf x -> w = wn ->
  rep (LArr (Some l) None None r wn) (x, w).
Proof. intros <- <- W ->. destruct x as [v r]. now apply rep_list. Qed.

Lemma setitem_rep a o i v : rep a o ->
  exists a', la_setitem a i v = (a', snd (s_set (fst o) i v)) /\ rep a' (fst (s_set (fst o) i v), snd o).
Proof.
  intro R. unfold la_setitem. destruct (get_array_rep a o R) as (a1 & -> & R1 & _).
  rewrite (rp_range _ _ R1), (rp_warn _ _ R1).
  set (a2 := LArr (Some (val o)) None None (a_range (fst o)) (snd o)).
  assert (R2 : rep a2 o) by (destruct o; now apply rep_written; [| |apply R|]).
  rewrite (translate_rep a2 o i R2). unfold s_set, array_get, array_set.
  destruct (translate_cases (fst o) i (rp_awf _ _ R)) as [(p & -> & _ & Hp)|(-> & _)]; cbn [bind].
  2: { exists a2. split; [reflexivity|]. cbn [fst]. now destruct o. }
  destruct (list_get_nth _ _ Hp) as (y & -> & _).
  destruct (logic_new CLogic v) as [l|e]; cbn [bind fst snd].
  2: { exists a2. split; [reflexivity|]. now destruct o. }
  fold (val o). unfold list_set.
  destruct (Z.ltb_spec (Z.of_nat p) 0); [lia|]. destruct (Z.ltb_spec (Z.of_nat p) 0); [lia|].
  cbn [orb]. unfold py_len, val. destruct (Z.leb_spec (Z.of_nat (length (a_value (fst o)))) (Z.of_nat p)); [lia|].
  eexists. split; [reflexivity|]. apply rep_written; try reflexivity.
  destruct (rp_awf _ _ R) as [W L]. split; cbn [fst a_value a_range]; [exact W|].
  now rewrite list_update_length.
Qed.

Definition vrel' (o : sobj) (v : option laval) (s : sval) : Prop :=
  match v with Some v => vrel v s | None => s = SArr (fst o) end.

Lemma int_range_attach vs n : 0 <= n ->
  match s_attach vs (Some match downto_range n with Ok r => r | Err _ => PyRange 0 0 1 end) with
  | Ok y => a_value y = vs /\ py_len vs = n
  | Err e => e = ValueError /\ py_len vs <> n
  end.
Proof.
  intro Hn. destruct (downto_ok n) as (r & -> & W & L). cbn [s_attach].
  destruct (Z.eqb_spec (py_len vs) (range_len r)); cbn [a_value]; split; auto; lia.
Qed.

Lemma s_new_int v n y : 0 <= n -> s_new v (RInt n) = Ok y -> py_len (a_value y) = n.
Proof.
  intros Hn. unfold s_new. cbn [norm_range]. destruct (downto_ok n) as (r & -> & W & L). cbn [bind].
  assert (A : forall vs, s_attach vs (Some r) = Ok y -> py_len (a_value y) = n).
  { intros vs. cbn [s_attach]. destruct (Z.eqb_spec (py_len vs) (range_len r)); [|discriminate].
    intro E. injection E as <-. cbn [a_value]. lia. }
  destruct v as [s|z|x|l].
  - destruct (s_of_str s); cbn [bind]; [apply A|discriminate].
  - destruct (s_of_int z (range_len r)); cbn [bind]; [apply A|discriminate].
  - apply A.
  - destruct (map_result (logic_new CLogic) l); cbn [bind]; [apply A|discriminate].
Qed.

Lemma setslice_rep a o s e st v sv : rep a o -> vrel' o v sv ->
  exists a', la_setslice a s e st v = (a', snd (s_setslice (fst o) s e st sv)) /\
             rep a' (fst (s_setslice (fst o) s e st sv), snd o).
Proof.
  intros R V. unfold la_setslice. destruct (get_array_rep a o R) as (a1 & -> & R1 & _).
  rewrite (rp_range _ _ R1), (rp_warn _ _ R1).
  set (a2 := LArr (Some (val o)) None None (a_range (fst o)) (snd o)).
  assert (R2 : rep a2 o) by (destruct o; now apply rep_written; [| |apply R|]).
  set (v' := match v with Some v => v | None => VArr a2 end).
  assert (V' : vrel v' sv).
  { destruct v as [v|]; [exact V|]. cbn [vrel'] in V. subst sv. exists (snd o). now destruct o. }
  rewrite (slice_bounds_rep a2 o s e st R2). unfold s_setslice.
  pose proof (slice_bounds_cases (fst o) s e st (rp_awf _ _ R)) as SB. cbv zeta in SB.
  destruct SB as [(p & q & -> & Hp & Hq & Hpq & SB)|(SB & _)].
  2: { rewrite SB. cbn [bind]. exists a2. split; [reflexivity|]. now destruct o. }
  rewrite SB. cbn [bind].
  pose proof (mk_larr_rep v' sv (RInt (Z.of_nat q - Z.of_nat p + 1)) V' I) as M.
  destruct (mk_larr v' (RInt (Z.of_nat q - Z.of_nat p + 1))) as [b|ex],
    (s_new sv (RInt (Z.of_nat q - Z.of_nat p + 1))) as [y|ex'] eqn:Ey; cbn [rres] in M; try contradiction.
  2: { subst ex'. cbn [bind]. exists a2. split; [reflexivity|]. now destruct o. }
  cbn [bind]. unfold la_iter. destruct (get_array_rep b _ M) as (b' & -> & _). cbn [bind snd].
  assert (Hpq' : (p <= q)%nat) by lia.
  apply s_new_int in Ey; [|lia]. unfold array_setslice. rewrite SB. rewrite Ey, Z.eqb_refl. cbn [negb].
  eexists. split; [reflexivity|]. apply rep_written; try reflexivity.
  destruct (rp_awf _ _ R) as [W L]. split; [exact W|]. cbn [fst a_value a_range].
  rewrite <- L. unfold py_len in Ey. rewrite !app_length, firstn_length, skipn_length.
  rewrite !Nat2Z.id. lia.
Qed.

Lemma set_range_rep a o r : rep a o -> wf r ->
  exists a', la_set_range a r = (a', snd (array_set_range (fst o) r)) /\
             rep a' (fst (array_set_range (fst o) r), snd o).
Proof.
  intros R W. unfold la_set_range, array_set_range. unfold la_len. rewrite (rp_range _ _ R).
  destruct (Z.eqb_spec (range_len r) (range_len (a_range (fst o)))) as [E|E]; cbn [negb fst snd].
  - eexists. split; [reflexivity|]. rewrite (rp_warn _ _ R).
    destruct o as [x w]. eapply rep_move; eauto. unfold la_len. now rewrite (rp_range _ _ R).
  - exists a. split; [reflexivity|]. now destruct o.
Qed.

(** * Operators *)

Definition table_fun (t : list pystr) (f : logic -> logic -> logic) : Prop :=
  forall x y, logic_binop t (CLogic, x) (CLogic, y) = Ok (CLogic, f x y).

Lemma tables_fun : table_fun and_table spec_and /\ table_fun or_table spec_or /\ table_fun xor_table spec_xor.
Proof.
  repeat split; intros x y; destruct (tables_pf (CLogic, x) (CLogic, y) eq_refl eq_refl) as (A & B & C & _); assumption.
Qed.

Lemma zip_rep t f a o b p : table_fun t f -> rep a o -> rep b p ->
  exists a' b' r, la_zip_op t a b = (a', b', r) /\ rep a' o /\ rep b' p /\
    (a = b -> a' = b') /\ rres false r (s_zip f (fst o) (fst p)).
Proof.
  intros T R S. unfold la_zip_op, s_zip, s_len. rewrite (rep_len _ _ R), (rep_len _ _ S). unfold val.
  destruct (Z.eqb_spec (Z.of_nat (length (a_value (fst o)))) (Z.of_nat (length (a_value (fst p))))) as [E|E];
    cbn [negb].
  2: { exists a, b, (Err ValueError). repeat (split; [auto|]). reflexivity. }
  unfold la_iter. destruct (get_array_rep a o R) as (a' & Ea & R' & _), (get_array_rep b p S) as (b' & Eb & S' & _).
  rewrite Ea, Eb. eexists a', b', _. split; [reflexivity|]. split; [exact R'|]. split; [exact S'|].
  split; [intros ->; congruence|]. cbn [bind].
  assert (M : forall l, map_result (fun '(x, y) => logic_binop t (CLogic, x) (CLogic, y)) l =
                        Ok (map (fun '(x, y) => (CLogic, f x y)) l)).
  { induction l as [|[x y] l IH]; [reflexivity|]. cbn [map_result map]. rewrite T. cbn [bind]. now rewrite IH. }
  rewrite M. cbn [bind]. rewrite map_map.
  replace (map (fun x => LvLogic (snd (let '(x0, y) := x in (CLogic, f x0 y)))) (combine (val o) (val p)))
    with (map LvLogic (map (fun '(x, y) => f x y) (combine (val o) (val p)))).
  - unfold mk_larr. cbn [norm_range bind]. rewrite map_result_logic. cbn [bind].
    apply (rres_list _ None false I).
  - rewrite map_map. apply map_ext. now intros [x y].
Qed.

Lemma invert_rep a o : rep a o ->
  exists a' r, la_invert a = (a', r) /\ rep a' o /\ rres false r (s_attach (map spec_not (val o)) None).
Proof.
  intro R. unfold la_invert, la_iter. destruct (get_array_rep a o R) as (a' & -> & R' & _).
  eexists a', _. split; [reflexivity|]. split; [exact R'|]. cbn [bind].
  assert (M : forall l, map_result (fun x => logic_invert (CLogic, x)) l =
                        Ok (map (fun x => (CLogic, spec_not x)) l)).
  { induction l as [|x l IH]; [reflexivity|]. cbn [map_result map].
    destruct (tables_pf (CLogic, x) (CLogic, x) eq_refl eq_refl) as (_ & _ & _ & E). rewrite E.
    cbn [bind fst snd]. now rewrite IH. }
  rewrite M. cbn [bind]. rewrite map_map. cbn [snd]. rewrite <- map_map.
  unfold mk_larr. cbn [norm_range bind]. rewrite map_result_logic. cbn [bind].
  apply (rres_list _ None false I).
Qed.

Lemma bool_rep rx rnd a o : rep a o ->
  exists a', la_bool rx rnd a = (a', s_bool rx rnd (val o)) /\ rep a' o.
Proof.
  intro R. unfold la_bool, s_bool. rewrite (rep_len _ _ R).
  destruct (val o) as [|l0 v0] eqn:Ev; [exists a; auto|]. rewrite <- Ev.
  destruct (Z.eqb_spec (Z.of_nat (length (val o))) 0) as [E|E].
  { rewrite Ev in E. cbn [length] in E. lia. }
  destruct rx as [r|].
  - unfold la_iter. destruct (get_array_rep a o R) as (a' & -> & R' & _). exists a'. split; [|exact R'].
    cbn [bind].
    assert (M : forall l, map_result (logic_bool (Some r)) l =
              Ok (map (fun l => match bool_of l with Some true => true | _ => false end) l)).
    { induction l as [|x l IH]; [reflexivity|]. cbn [map_result map]. rewrite IH.
      destruct x; reflexivity. }
    rewrite M. cbn [bind]. do 2 f_equal. clear. induction (val o) as [|x l IH]; [reflexivity|].
    cbn [map existsb]. rewrite IH. destruct x; reflexivity.
  - destruct (to_unsigned_rep None rnd a o R) as (a' & E1 & R'). unfold on_result. rewrite E1. eauto.
Qed.

Lemma resolve_rep r rnd a o : rep a o ->
  exists a' b, la_resolve r rnd a = (a', b) /\ rep a' o /\
    rres false b (s_attach (s_resolve r rnd (val o)) (Some (a_range (fst o)))).
Proof.
  intro R. unfold la_resolve. destruct (get_str_rep a o R) as (a' & -> & R' & _).
  eexists a', _. split; [reflexivity|]. split; [exact R'|]. cbn [bind].
  rewrite resolve_chars, (rp_range _ _ R'). unfold mk_larr. cbn [norm_range bind].
  set (vs := s_resolve r rnd (val o)).
  assert (F : filter (fun c => negb (c =? 95)) (map logic_chr vs) = map logic_chr vs).
  { induction vs as [|x l IH]; [reflexivity|]. cbn [map filter]. rewrite IH. destruct x; reflexivity. }
  rewrite F.
  destruct (str_case (map logic_chr vs)) as [(v & Ev & Eu & ->)|(Ev & _)];
    fold (logics_of_str (map logic_chr vs)) in Ev; rewrite logics_of_chars in Ev; [|discriminate].
  injection Ev as <-. rewrite Eu. cbn [negb].
  apply (rres_str _ (Some (a_range (fst o))) false). exact (proj1 (rp_awf _ _ R)).
Qed.

Lemma format_rep rx rnd a o spec : rep a o ->
  exists a', la_format rx rnd a spec = (a', s_format rx rnd (val o) spec) /\ rep a' o.
Proof.
  intro R. unfold la_format, s_format. destruct spec as [|c spec].
  - destruct (get_str_rep a o R) as (a' & -> & R' & _). eauto.
  - rewrite (rep_len _ _ R). destruct (fmt_plan _ _) as [[[[[alt prefix] width] sep] t]|e]; cbn [bind]; [|eauto].
    destruct (to_unsigned_rep rx rnd a o R) as (a' & -> & R'). eauto.
Qed.

Lemma count_fold v (l : list logic) : forall n,
  fold_left (fun n x => if logic_eq x v then n + 1 else n) l n =
  n + Z.of_nat (length (filter (fun l => logic_eq l v) l)).
Proof.
  induction l as [|x l IH]; intro n; cbn [fold_left filter]; [cbn; lia|].
  rewrite IH. destruct (logic_eq x v); cbn [length]; lia.
Qed.

(** * The simulation *)

Definition heap_rel (h : list larr) (sh : list sobj) : Prop := Forall2 rep h sh.

Lemma heap_nth h sh i : heap_rel h sh ->
  match nth_error h i, nth_error sh i with
  | Some a, Some o => rep a o
  | None, None => True
  | _, _ => False
  end.
Proof.
  intro H. revert i. induction H as [|a o h sh R H IH]; intros [|i]; cbn [nth_error]; auto. apply IH.
Qed.

Lemma heap_put h sh i a o : heap_rel h sh -> rep a o -> heap_rel (put h i a) (put sh i o).
Proof.
  unfold put. intros H R. revert i. induction H as [|b p h sh S H IH]; intros [|i]; cbn [list_update];
    constructor; auto. apply IH.
Qed.

Lemma heap_put_same h sh i a o : heap_rel h sh -> nth_error sh i = Some o -> rep a o -> heap_rel (put h i a) sh.
Proof.
  intros H E R. rewrite <- (list_update_same sh i o E). now apply heap_put.
Qed.

Lemma heap_snoc h sh a o : heap_rel h sh -> rep a o -> heap_rel (h ++ [a]) (sh ++ [o]).
Proof. intros H R. apply Forall2_app; auto. Qed.

Lemma sim_new h sh w r s : heap_rel h sh -> rres w r s ->
  heap_rel (fst (add_new h r)) (fst (s_add sh w s)) /\ out_agrees (snd (add_new h r)) (snd (s_add sh w s)).
Proof.
  intros H R. destruct r as [a|e], s as [x|e']; cbn [rres] in R; try contradiction; cbn [add_new s_add fst snd out_agrees].
  - split; [now apply heap_snoc|reflexivity].
  - subst. auto.
Qed.

Lemma sim_read {B} h sh i (f : larr -> larr * result B) k g : heap_rel h sh ->
  (forall a o, rep a o -> exists a', f a = (a', g o) /\ rep a' o) ->
  heap_rel (fst (read1 h i f k)) (fst (s_obs sh i (fun o => k (g o)))) /\
  out_agrees (snd (read1 h i f k)) (snd (s_obs sh i (fun o => k (g o)))).
Proof.
  intros H F. unfold read1, with1, s_obs. pose proof (heap_nth h sh i H) as N.
  destruct (nth_error h i) as [a|], (nth_error sh i) as [o|] eqn:E; try contradiction; [|now split].
  destruct (F a o N) as (a' & -> & R). cbn [fst snd out_agrees]. split; [|reflexivity].
  eapply heap_put_same; eauto.
Qed.

Lemma sim_write h sh i (f : larr -> larr * option exn) g : heap_rel h sh ->
  (forall a o, nth_error h i = Some a -> nth_error sh i = Some o -> rep a o ->
     exists a', f a = (a', snd (g (fst o))) /\ rep a' (fst (g (fst o)), snd o)) ->
  heap_rel (fst (write1 h i f)) (fst (s_wr sh i g)) /\
  out_agrees (snd (write1 h i f)) (snd (s_wr sh i g)).
Proof.
  intros H F. unfold write1, with1, s_wr. pose proof (heap_nth h sh i H) as N.
  destruct (nth_error h i) as [a|] eqn:E1, (nth_error sh i) as [[x w]|] eqn:E; try contradiction; [|now split].
  destruct (F a _ eq_refl eq_refl N) as (a' & -> & R). cbn [fst snd] in *. destruct (g x) as [x' e].
  cbn [fst snd out_agrees] in *. split; [|reflexivity]. now apply heap_put.
Qed.

Lemma sim_make1 h sh i (f : larr -> larr * result larr) g : heap_rel h sh ->
  (forall a o, rep a o -> exists a' r, f a = (a', r) /\ rep a' o /\ rres false r (g o)) ->
  heap_rel (fst (make1 h i f)) (fst (s_mk1 sh i g)) /\ out_agrees (snd (make1 h i f)) (snd (s_mk1 sh i g)).
Proof.
  intros H F. unfold make1, s_mk1. pose proof (heap_nth h sh i H) as N.
  destruct (nth_error h i) as [a|], (nth_error sh i) as [o|] eqn:E; try contradiction; [|now split].
  destruct (F a o N) as (a' & r & -> & R & Q). apply sim_new; [|exact Q]. eapply heap_put_same; eauto.
Qed.

Lemma heap_put2 h sh i j a b o p : heap_rel h sh -> nth_error sh i = Some o -> nth_error sh j = Some p ->
  rep a o -> rep b p -> heap_rel (put (put h i a) j b) sh.
Proof. intros. eapply heap_put_same; eauto. eapply heap_put_same; eauto. Qed.

Lemma sim_make2 h sh i j t f : heap_rel h sh -> table_fun t f ->
  heap_rel (fst (make2 h i j (la_zip_op t))) (fst (s_mk2 sh i j f)) /\
  out_agrees (snd (make2 h i j (la_zip_op t))) (snd (s_mk2 sh i j f)).
Proof.
  intros H T. unfold make2, s_mk2. pose proof (heap_nth h sh i H) as N. pose proof (heap_nth h sh j H) as M.
  destruct (nth_error h i) as [a|], (nth_error sh i) as [o|] eqn:E; try contradiction; [|now split].
  destruct (nth_error h j) as [b|], (nth_error sh j) as [p|] eqn:E'; try contradiction; [|now split].
  destruct (zip_rep t f a o b p T N M) as (a' & b' & r & -> & R & S & _ & Q).
  apply sim_new; [|exact Q]. eapply heap_put2; eauto.
Qed.

Lemma laval_rel h sh v : heap_rel h sh ->
  match laval_of h v, sval_of sh v with
  | Some v, Some s => vrel v s
  | None, None => True
  | _, _ => False
  end.
Proof.
  intro H. destruct v as [s|z|i|l]; cbn [laval_of sval_of vrel]; auto.
  pose proof (heap_nth h sh i H) as N.
  destruct (nth_error h i) as [a|], (nth_error sh i) as [[x w]|]; try contradiction; auto.
  exists w. exact N.
Qed.

Lemma sim_step rx h sh o : heap_rel h sh -> op_ok o ->
  heap_rel (fst (step rx h o)) (fst (s_step rx sh o)) /\
  out_agrees (snd (step rx h o)) (snd (s_step rx sh o)).
Proof.
  intros H K. pose proof tables_fun as (TA & TO & TX).
  destruct o; cbn [step s_step op_ok] in *.
  - pose proof (laval_rel h sh v H) as V.
    destruct (laval_of h v), (sval_of sh v); try contradiction; [|now split].
    apply sim_new; auto. now apply mk_larr_rep.
  - apply sim_new; auto. now apply from_unsigned_rep.
  - apply sim_new; auto. now apply from_signed_rep.
  - apply sim_new; auto. apply from_bytes_rep. tauto.
  - apply sim_new; auto. now apply from_handle_rep.
  - apply (sim_read h sh i la_get_str XStr (fun x => Ok (s_chars (a_value (fst x))))); auto.
    intros a o R. destruct (get_str_rep a o R) as (a' & -> & R' & _). eauto.
  - apply (sim_read h sh i _ XInt (fun x => s_int rx rnd (a_value (fst x)))); auto.
    intros a o R. now apply to_unsigned_rep.
  - apply (sim_read h sh i _ XInt (fun x => s_signed rx rnd (a_value (fst x)))); auto.
    intros a o R. now apply to_signed_rep.
  - apply (sim_read h sh i _ XBytes (fun x => s_bytes rx rnd o (a_value (fst x)))); auto.
    intros a p R. now apply to_bytes_rep.
  - apply (sim_read h sh i _ XList (fun x => Ok (a_value (fst x)))); auto.
    intros a o R. destruct (get_array_rep a o R) as (a' & E & R' & _). unfold la_iter. rewrite E. eauto.
  - apply (sim_read h sh i _ XList (fun x => Ok (rev (a_value (fst x))))); auto.
    intros a o R. destruct (get_array_rep a o R) as (a' & E & R' & _). unfold la_reversed. rewrite E. eauto.
  - apply (sim_read h sh i _ XBool (fun x => Ok (existsb (fun l => logic_eq l v) (a_value (fst x))))); auto.
    intros a o R. destruct (get_array_rep a o R) as (a' & E & R' & _). unfold la_contains. rewrite E. eauto.
  - apply (sim_read h sh i _ XInt (fun x => Ok (Z.of_nat (length (filter (fun l => logic_eq l v) (a_value (fst x))))))); auto.
    intros a o R. destruct (get_array_rep a o R) as (a' & E & R' & _). unfold la_count, la_iter, on_result.
    rewrite E. cbn [bind]. rewrite count_fold. eauto.
  - apply (sim_read h sh i _ XInt (fun x => s_index x v start stop)); auto.
    intros a o R. now apply index_rep.
  - apply (sim_read h sh i _ XLogic (fun x => s_get x k)); auto. intros a o R. now apply getitem_rep.
  - apply sim_make1; auto. intros a o R. now apply getslice_rep.
  - pose proof (heap_nth h sh i H) as N. pose proof (heap_nth h sh j H) as M.
    destruct (nth_error h i) as [a|], (nth_error sh i) as [o|] eqn:E; try contradiction; [|now split].
    destruct (nth_error h j) as [b|], (nth_error sh j) as [p|] eqn:E'; try contradiction; [|now split].
    destruct (eq_rep a o b p N M) as (a' & b' & r & -> & R & S & C & _).
    cbn [fst snd]. split; [eapply heap_put2; eauto|].
    fold (val o). fold (val p).
    destruct (clean (val o)) eqn:C1; [|exact I]. destruct (clean (val p)) eqn:C2; [|exact I].
    cbn [andb out_agrees]. rewrite C by auto. reflexivity.
  - apply (sim_read h sh i _ XBool (fun x => Ok (pystr_eqb (s_chars (a_value (fst x))) (upper s)))); auto.
    intros a o R. now apply eq_str_rep.
  - apply (sim_read h sh i _ XBool (fun x => Ok (s_eq_int rx rnd (a_value (fst x)) z))); auto.
    intros a o R. now apply eq_int_rep.
  - apply (sim_read h sh i _ XBool (fun x => Ok match map_result (logic_new CLogic) l with
                                     | Ok vs => logics_eqb (a_value (fst x)) vs
                                     | Err _ => false
                                     end)); auto.
    intros a o R. now apply eq_list_rep.
  - apply (sim_read h sh i _ XBool (fun x => Ok (definite (a_value (fst x))))); auto.
    intros a o R. destruct (get_array_rep a o R) as (a' & E & R' & _).
    unfold la_is_resolvable, la_iter, on_result. rewrite E. cbn [bind]. exists a'. split; [|exact R'].
    do 2 f_equal. unfold definite, val. clear. induction (a_value (fst o)) as [|x l IH]; [reflexivity|].
    cbn [forallb]. rewrite IH. destruct x; reflexivity.
  - apply (sim_read h sh i _ XBool (fun x => s_bool rx rnd (a_value (fst x)))); auto.
    intros a o R. now apply bool_rep.
  - apply (sim_read h sh i _ XStr (fun x => s_format rx rnd (a_value (fst x)) spec)); auto.
    intros a o R. now apply format_rep.
  - apply sim_write; auto. intros a o _ _ R. now apply setitem_rep.
  - assert (G : forall v0 sv, vrel v0 sv ->
      heap_rel (fst (write1 h i (fun a => la_setslice a start stop has_step (Some v0))))
        (fst (s_wr sh i (fun x => s_setslice x start stop has_step sv))) /\
      out_agrees (snd (write1 h i (fun a => la_setslice a start stop has_step (Some v0))))
        (snd (s_wr sh i (fun x => s_setslice x start stop has_step sv)))).
    { intros v0 sv V. apply sim_write; auto. intros a o _ _ R. now apply setslice_rep. }
    pose proof (laval_rel h sh v H) as V. destruct v as [s|z|j|l].
    1,2,4: cbn [laval_of sval_of] in V |- *; apply G; exact V.
    destruct (Nat.eqb_spec j i) as [->|].
    + cbn [sval_of] in V |- *. destruct (nth_error sh i) as [x|] eqn:E.
      * apply sim_write; auto. intros a o _ E' R. apply setslice_rep; auto. cbn [vrel']. congruence.
      * pose proof (heap_nth h sh i H) as N. rewrite E in N. unfold write1, with1.
        destruct (nth_error h i); [contradiction|]. now split.
    + destruct (laval_of h (WObj j)), (sval_of sh (WObj j)); try contradiction; [|now split]. now apply G.
  - apply sim_write; auto. intros a o _ _ R. apply set_range_rep; auto. now apply mk_range_ok_wf.
  - now apply sim_make2.
  - now apply sim_make2.
  - now apply sim_make2.
  - apply sim_make1; auto. intros a o R. now apply invert_rep.
  - apply sim_make1; auto. intros a o R. now apply resolve_rep.
  - unfold make1. pose proof (heap_nth h sh i H) as N.
    destruct (nth_error h i) as [a|], (nth_error sh i) as [o|] eqn:E; try contradiction; [|now split].
    cbn [add_new fst snd out_agrees]. split; [|reflexivity]. apply heap_snoc; auto.
    eapply heap_put_same; eauto.
Qed.

Lemma sim_run rx ops : forall h sh, heap_rel h sh -> Forall op_ok ops ->
  heap_rel (fst (run rx h ops)) (fst (s_run rx sh ops)) /\
  Forall2 out_agrees (snd (run rx h ops)) (snd (s_run rx sh ops)).
Proof.
  induction ops as [|o ops IH]; intros h sh H F; cbn [run s_run]; [split; [exact H|constructor]|].
  inversion F as [|? ? K F']; subst. destruct (sim_step rx h sh o H K) as [S1 S2].
  destruct (step rx h o) as [h1 x], (s_step rx sh o) as [sh1 y]. cbn [fst snd] in *.
  specialize (IH h1 sh1 S1 F'). destruct (run rx h1 ops), (s_run rx sh1 ops). cbn [fst snd] in *.
  destruct IH. split; auto.
Qed.

(** Lemmas about the Array model. *)
From Coq Require Import String ZifyBool.
From Verif Require Import Base RangeModel RangeSpec RangeProofs ArrayModel ArraySpec.
Open Scope Z_scope.

Section Proofs.
Context {A : Type}.
Implicit Types (a : array A) (l : list A) (x y : A).

Definition awf a : Prop :=
  wf (a_range a) /\ length (a_value a) = length (range_iter (a_range a)).

(** The label/element association of an array. *)
Definition pairs a : list (Z * A) := combine (range_iter (a_range a)) (a_value a).

Lemma mk_array_ok_iff (value : list A) rg (Hrg : match rg with RRange r => wf r | _ => True end) :
  is_ok (mk_array value rg) = true <->
  match rg with
  | RNone => True
  | RInt n => py_len value = Z.max 0 n
  | RRange r => py_len value = range_len r
  end.
Proof.
  destruct rg as [|n|r]; cbn [mk_array].
  - rewrite (mk_range_str 0 (lit "to") _ To) by reflexivity. cbn. tauto.
  - rewrite (mk_range_str 0 (lit "to") _ To) by reflexivity. cbn [bind].
    unfold range_len. rewrite pr_len_wf by (left; reflexivity). cbn [r_start r_stop r_step].
    destruct (Z.eqb_spec (py_len value) (Z.max 0 (1 * (n - 1 + 1 - 0)))); cbn; split; intro; try lia; discriminate.
  - destruct (Z.eqb_spec (py_len value) (range_len r)); cbn; split; intro; try lia; try discriminate; auto.
Qed.

Lemma mk_array_awf (value : list A) rg a (Hrg : match rg with RRange r => wf r | _ => True end) :
  mk_array value rg = Ok a -> awf a /\ a_value a = value /\
  match rg with
  | RNone => a_range a = PyRange 0 (py_len value) 1
  | RInt n => a_range a = PyRange 0 n 1
  | RRange r => a_range a = r
  end.
Proof.
  unfold awf. destruct rg as [|n|r]; cbn [mk_array].
  - rewrite (mk_range_str 0 (lit "to") _ To) by reflexivity. cbn [bind]. intro H; injection H as <-.
    cbn [a_value a_range]. split; [split|split]; try reflexivity.
    + left; reflexivity.
    + set (R := PyRange 0 (py_len value - 1 + 1) 1).
      assert (HR : wf R) by (left; reflexivity).
      pose proof (iter_len R HR) as HL. unfold range_len in HL.
      rewrite (pr_len_wf R HR) in HL. unfold R in HL at 2 3 4; cbn [r_start r_stop r_step] in HL.
      unfold py_len in *. lia.
    + f_equal. lia.
  - rewrite (mk_range_str 0 (lit "to") _ To) by reflexivity. cbn [bind].
    set (R := PyRange 0 (n - 1 + 1) 1).
    assert (HR : wf R) by (left; reflexivity).
    destruct (Z.eqb_spec (py_len value) (range_len R)) as [E|]; [|discriminate].
    intro H; injection H as <-. cbn [a_value a_range]. split; [split|split]; try reflexivity.
    + exact HR.
    + pose proof (iter_len R HR). unfold py_len in *. lia.
    + unfold R. f_equal. lia.
  - destruct (Z.eqb_spec (py_len value) (range_len r)) as [E|]; [|discriminate].
    intro H; injection H as <-. cbn [a_value a_range]. split; [split|split]; try reflexivity.
    + exact Hrg.
    + pose proof (iter_len r Hrg). unfold py_len in *. lia.
Qed.

(** Generic facts on association lists. *)
Lemma lookup_combine_nth (labels : list Z) l p i :
  NoDup labels -> length labels = length l -> nth_error labels p = Some i ->
  lookup i (combine labels l) = nth_error l p.
Proof.
  revert l p; induction labels as [|k labels IH]; intros l p ND HL Hn.
  - destruct p; discriminate.
  - destruct l as [|x l]; [discriminate|]. cbn [combine lookup].
    inversion ND as [|? ? Hnin ND']; subst.
    destruct p as [|p]; cbn [nth_error] in *.
    + injection Hn as ->. now rewrite Z.eqb_refl.
    + destruct (Z.eqb_spec k i) as [->|Hne].
      * exfalso. apply Hnin. eapply nth_error_In; eauto.
      * apply IH; auto.
Qed.

Lemma lookup_notin (labels : list Z) l i :
  ~ In i labels -> lookup i (combine labels l) = None.
Proof.
  revert l; induction labels as [|k labels IH]; intros l Hn; [reflexivity|].
  destruct l as [|x l]; [reflexivity|]. cbn [combine lookup].
  destruct (Z.eqb_spec k i) as [->|]; [exfalso; apply Hn; now left|].
  apply IH. intro; apply Hn; now right.
Qed.

Lemma labels_nodup a : awf a -> NoDup (range_iter (a_range a)).
Proof. intros [H _]. rewrite (iter_wf _ H). apply span_nodup. Qed.

Lemma translate_ok a i p : awf a ->
  translate_index a i = Ok p <->
  0 <= p /\ nth_error (range_iter (a_range a)) (Z.to_nat p) = Some i.
Proof.
  intros [H _]. unfold translate_index. rewrite <- (index_spec _ i p H).
  destruct (range_index (a_range a) i None None) as [q|[]]; split; intro K; congruence.
Qed.

Lemma translate_err a i e : awf a ->
  translate_index a i = Err e <-> e = IndexError /\ ~ In i (range_iter (a_range a)).
Proof.
  intros [H _]. unfold translate_index. rewrite <- (index_err _ i H).
  cbn [range_index]. unfold pr_index.
  destruct (pr_contains (a_range a) i); split; intro K; intuition congruence.
Qed.

Lemma translate_cases a i : awf a ->
  (exists p : nat, translate_index a i = Ok (Z.of_nat p) /\
     nth_error (range_iter (a_range a)) p = Some i /\ (p < length (a_value a))%nat) \/
  (translate_index a i = Err IndexError /\ ~ In i (range_iter (a_range a))).
Proof.
  intros H. destruct (translate_index a i) as [p|e] eqn:E.
  - left. apply (translate_ok a i p H) in E. destruct E as [Hp Hn].
    exists (Z.to_nat p). repeat split.
    + f_equal. lia.
    + exact Hn.
    + destruct H as [_ HL]. rewrite HL. apply nth_error_Some. congruence.
  - right. apply (translate_err a i e H) in E. destruct E as [-> E]. auto.
Qed.

Lemma list_get_nth l p : (p < length l)%nat ->
  exists x, list_get l (Z.of_nat p) = Ok x /\ nth_error l p = Some x.
Proof.
  intro Hp. unfold list_get. destruct (Z.ltb_spec (Z.of_nat p) 0); [lia|].
  destruct (Z.ltb_spec (Z.of_nat p) 0); [lia|]. rewrite Nat2Z.id.
  destruct (nth_error l p) as [x|] eqn:E; [eauto|].
  apply nth_error_None in E. lia.
Qed.

Lemma array_get_lookup a i : awf a ->
  array_get a i = match lookup i (pairs a) with Some x => Ok x | None => Err IndexError end.
Proof.
  intro H. unfold array_get, pairs.
  destruct (translate_cases a i H) as [(p & Ep & Hn & Hp)|(Ee & Hn)].
  - rewrite Ep. cbn [bind]. destruct (list_get_nth (a_value a) p Hp) as (x & Hx & Hx').
    rewrite Hx. rewrite (lookup_combine_nth _ _ p i); auto.
    + now rewrite Hx'.
    + now apply labels_nodup.
    + symmetry. apply H.
  - rewrite Ee. cbn [bind]. now rewrite lookup_notin.
Qed.

Lemma lookup_some_in a i : awf a ->
  (exists x, lookup i (pairs a) = Some x) <-> In i (range_iter (a_range a)).
Proof.
  intro H. unfold pairs. split.
  - intros [x Hx]. destruct (in_dec Z.eq_dec i (range_iter (a_range a))) as [|n]; auto.
    rewrite lookup_notin in Hx by auto. discriminate.
  - intro Hin. apply In_nth_error in Hin. destruct Hin as [p Hp].
    rewrite (lookup_combine_nth _ _ p i); auto.
    + assert (p < length (a_value a))%nat.
      { destruct H as [_ HL]. rewrite HL. apply nth_error_Some. congruence. }
      destruct (nth_error (a_value a) p) eqn:E; [eauto|]. apply nth_error_None in E. lia.
    + now apply labels_nodup.
    + symmetry; apply H.
Qed.

Lemma list_update_length l p x : length (list_update l p x) = length l.
Proof. revert p; induction l as [|y l IH]; intros [|p]; cbn; auto. Qed.
Lemma list_update_nth l p x q :
  (p < length l)%nat ->
  nth_error (list_update l p x) q = if Nat.eqb p q then Some x else nth_error l q.
Proof.
  revert p q; induction l as [|y l IH]; intros p q Hp; cbn [length] in Hp; [lia|].
  destruct p as [|p], q as [|q]; cbn [list_update nth_error Nat.eqb]; try reflexivity.
  apply IH. lia.
Qed.
Lemma list_update_same l p x : nth_error l p = Some x -> list_update l p x = l.
Proof.
  revert p; induction l as [|y l IH]; intros [|p] H; cbn in *; try discriminate.
  - congruence.
  - f_equal. auto.
Qed.

Lemma array_set_cases a i x : awf a ->
  (exists p, nth_error (range_iter (a_range a)) p = Some i /\ (p < length (a_value a))%nat /\
     array_set a i x = (Array (list_update (a_value a) p x) (a_range a), None)) \/
  (~ In i (range_iter (a_range a)) /\ array_set a i x = (a, Some IndexError)).
Proof.
  intro H. unfold array_set.
  destruct (translate_cases a i H) as [(p & Ep & Hn & Hp)|(Ee & Hn)].
  - left. exists p. split; [exact Hn|]. split; [exact Hp|]. rewrite Ep. unfold list_set, py_len.
    destruct (Z.ltb_spec (Z.of_nat p) 0); [lia|].
    destruct ((Z.of_nat p <? 0) || (Z.of_nat (length (a_value a)) <=? Z.of_nat p)) eqn:E; [lia|].
    now rewrite Nat2Z.id.
  - right. rewrite Ee. auto.
Qed.

Lemma array_set_awf a i x : awf a -> awf (fst (array_set a i x)).
Proof.
  intro H. destruct (array_set_cases a i x H) as [(p & Hn & Hp & E)|(Hn & E)]; rewrite E; cbn [fst]; auto.
  destruct H as [H1 H2]. split; cbn; auto. now rewrite list_update_length.
Qed.

Lemma nth_labels_inj a p q i : awf a ->
  nth_error (range_iter (a_range a)) p = Some i ->
  nth_error (range_iter (a_range a)) q = Some i -> p = q.
Proof. intros [H _]. apply iter_inj. exact H. Qed.

Lemma array_set_get a i x a' j : awf a -> array_set a i x = (a', None) ->
  array_get a' j = if j =? i then Ok x else array_get a j.
Proof.
  intros H E. pose proof (array_set_awf a i x H) as H'. rewrite E in H'. cbn [fst] in H'.
  destruct (array_set_cases a i x H) as [(p & Hn & Hp & E2)|(Hn & E2)]; rewrite E2 in E;
    [|discriminate].
  injection E as <-. rewrite !array_get_lookup by auto.
  unfold pairs; cbn [a_range a_value].
  destruct (in_dec Z.eq_dec j (range_iter (a_range a))) as [Hin|Hnin].
  - apply In_nth_error in Hin. destruct Hin as [q Hq].
    assert (ND := labels_nodup a H). destruct H as [H1 H2].
    rewrite (lookup_combine_nth _ _ q j); auto.
    2: { rewrite list_update_length. auto. }
    rewrite (lookup_combine_nth _ (a_value a) q j); auto.
    rewrite list_update_nth by auto.
    destruct (Z.eqb_spec j i) as [->|Hne].
    + assert (p = q) by (eapply (iter_inj (a_range a)); eauto). subst. now rewrite Nat.eqb_refl.
    + destruct (Nat.eqb_spec p q) as [->|]; [congruence|reflexivity].
  - rewrite !lookup_notin by auto. destruct (Z.eqb_spec j i) as [->|]; auto.
    exfalso. apply Hnin. eapply nth_error_In; eauto.
Qed.

(** Slices. *)
Lemma nth_error_span (l : Z) d r p i : nth_error (span l d r) p = Some i ->
  i = match d with To => l + Z.of_nat p | Downto => l - Z.of_nat p end /\
  (p < length (span l d r))%nat.
Proof.
  intro H. assert (Hp : (p < length (span l d r))%nat) by (apply nth_error_Some; congruence).
  split; [|exact Hp].
  destruct d; cbn [span] in *; [rewrite <- iter_from_up in * | rewrite <- iter_from_down in *];
    rewrite iter_from_length in Hp; rewrite iter_from_nth in H by exact Hp; injection H as <-; lia.
Qed.

Lemma span_sub (l : Z) d r p q s e :
  nth_error (span l d r) p = Some s -> nth_error (span l d r) q = Some e -> (p <= q)%nat ->
  span s d e = firstn (q + 1 - p) (skipn p (span l d r)).
Proof.
  intros Hp Hq Hpq.
  apply nth_error_span in Hp. apply nth_error_span in Hq.
  destruct Hp as [-> Hp], Hq as [-> Hq].
  destruct d; cbn [span] in *; rewrite <- ?iter_from_up, <- ?iter_from_down in *;
    rewrite iter_from_length in *; rewrite skipn_iter, firstn_iter by lia; f_equal; lia.
Qed.

Lemma slice_bounds_cases a st en hs : awf a ->
  let s := match st with Some v => v | None => left_of (a_range a) end in
  let e := match en with Some v => v | None => right_of (a_range a) end in
  (exists p q, hs = false /\
     nth_error (range_iter (a_range a)) p = Some s /\
     nth_error (range_iter (a_range a)) q = Some e /\ (p <= q < length (a_value a))%nat /\
     slice_bounds a st en hs = Ok (s, e, Z.of_nat p, Z.of_nat q)) \/
  (slice_bounds a st en hs = Err IndexError /\
   (hs = true \/ ~ In s (range_iter (a_range a)) \/ ~ In e (range_iter (a_range a)) \/
    exists p q, nth_error (range_iter (a_range a)) p = Some s /\
                nth_error (range_iter (a_range a)) q = Some e /\ (q < p)%nat)).
Proof.
  intros H s e. unfold slice_bounds. fold s. fold e.
  destruct hs; [right; auto|].
  destruct (translate_cases a s H) as [(p & Ep & Hp & Hpl)|(Ee & Hn)].
  2: { right. rewrite Ee. cbn [bind]. auto. }
  rewrite Ep. cbn [bind].
  destruct (translate_cases a e H) as [(q & Eq & Hq & Hql)|(Ee & Hn)].
  2: { right. rewrite Ee. cbn [bind]. auto. }
  rewrite Eq. cbn [bind].
  destruct (Z.ltb_spec (Z.of_nat q) (Z.of_nat p)) as [Hlt|Hge].
  - right. split; [reflexivity|]. right; right; right. exists p, q. repeat split; auto. lia.
  - left. exists p, q. repeat split; auto; lia.
Qed.

Lemma array_getslice_ok a s e p q : awf a ->
  nth_error (range_iter (a_range a)) p = Some s ->
  nth_error (range_iter (a_range a)) q = Some e -> (p <= q < length (a_value a))%nat ->
  forall st en,
  slice_bounds a st en false = Ok (s, e, Z.of_nat p, Z.of_nat q) ->
  exists b, array_getslice a st en false = Ok b /\ awf b /\
    left_of (a_range b) = s /\ right_of (a_range b) = e /\ dir_of (a_range b) = dir_of (a_range a) /\
    range_iter (a_range b) = firstn (q + 1 - p) (skipn p (range_iter (a_range a))) /\
    a_value b = firstn (q + 1 - p) (skipn p (a_value a)).
Proof.
  intros H Hp Hq Hpq st en Hb. unfold array_getslice. rewrite Hb. cbn [bind].
  pose proof H as [H1 H2]. rewrite (direction_wf _ H1). cbn [bind].
  set (d := dir_of (a_range a)).
  assert (Hd : lower (dir_name d) = dir_name d) by (destruct d; reflexivity).
  rewrite (mk_range_str s (dir_name d) e d Hd). cbn [bind].
  set (R := PyRange s _ _).
  assert (HR : wf R) by (unfold R, wf; destruct d; cbn; auto).
  assert (HdR : dir_of R = d) by (unfold R, dir_of; destruct d; reflexivity).
  assert (HlR : left_of R = s) by reflexivity.
  assert (HrR : right_of R = e) by (unfold R, right_of; destruct d; cbn [r_stop r_step]; lia).
  assert (Hit : range_iter R = firstn (q + 1 - p) (skipn p (range_iter (a_range a)))).
  { rewrite (iter_wf R HR), HlR, HrR, HdR.
    rewrite (iter_wf _ H1) in Hp, Hq |- *. apply span_sub; auto; lia. }
  assert (Hv : list_slice (a_value a) (Z.of_nat p) (Z.of_nat q + 1) =
               firstn (q + 1 - p) (skipn p (a_value a))).
  { unfold list_slice. rewrite Nat2Z.id. f_equal. lia. }
  rewrite Hv.
  assert (Hlen : py_len (firstn (q + 1 - p) (skipn p (a_value a))) = range_len R).
  { rewrite <- (iter_len R HR), Hit. unfold py_len.
    rewrite !firstn_length, !skipn_length. rewrite H2. reflexivity. }
  cbn [mk_array]. rewrite Hlen, Z.eqb_refl.
  eexists. split; [reflexivity|]. cbn [a_range a_value].
  repeat split; auto. cbn [a_value a_range].
  rewrite Hit, !firstn_length, !skipn_length, H2. reflexivity.
Qed.

Lemma nth_error_firstn {B} (l : list B) n i :
  nth_error (firstn n l) i = if Nat.ltb i n then nth_error l i else None.
Proof.
  revert n i; induction l as [|x l IH]; intros n i.
  - rewrite firstn_nil. destruct (Nat.ltb i n); [reflexivity|]. now destruct i.
  - destruct n as [|n]; [now destruct i|]. destruct i as [|i]; [reflexivity|].
    cbn [firstn nth_error]. rewrite IH. reflexivity.
Qed.
Lemma nth_error_skipn {B} (l : list B) n i : nth_error (skipn n l) i = nth_error l (n + i).
Proof.
  revert n; induction l as [|x l IH]; intros [|n]; cbn; try reflexivity.
  - now destruct i.
  - apply IH.
Qed.

Lemma getslice_reads a b p q i : awf a -> awf b ->
  (p <= q < length (a_value a))%nat ->
  range_iter (a_range b) = firstn (q + 1 - p) (skipn p (range_iter (a_range a))) ->
  a_value b = firstn (q + 1 - p) (skipn p (a_value a)) ->
  In i (range_iter (a_range b)) -> array_get b i = array_get a i.
Proof.
  intros Ha Hb Hpq Hr Hv Hin. rewrite !array_get_lookup by auto. unfold pairs.
  apply In_nth_error in Hin. destruct Hin as [k Hk].
  rewrite (lookup_combine_nth _ _ k i); auto.
  2: { now apply labels_nodup. } 2: { symmetry; apply Hb. }
  rewrite Hr in Hk. rewrite nth_error_firstn, nth_error_skipn in Hk.
  destruct (Nat.ltb_spec k (q + 1 - p)) as [Hlt|]; [|discriminate].
  rewrite (lookup_combine_nth _ _ (p + k) i); auto.
  2: { now apply labels_nodup. } 2: { symmetry; apply Ha. }
  rewrite Hv, nth_error_firstn, nth_error_skipn.
  destruct (Nat.ltb_spec k (q + 1 - p)); [reflexivity|lia].
Qed.

(** Slice assignment. *)
Lemma setslice_value l vs p q k : (p <= q < length l)%nat -> length vs = (q + 1 - p)%nat ->
  nth_error (firstn p l ++ vs ++ skipn (q + 1) l) k =
  if (Nat.leb p k && Nat.leb k q)%bool then nth_error vs (k - p) else nth_error l k.
Proof.
  intros Hpq Hvs.
  assert (Hf : length (firstn p l) = p) by (rewrite firstn_length; lia).
  destruct (Nat.leb_spec p k) as [Hpk|Hpk]; cbn [andb].
  - rewrite nth_error_app2 by lia. rewrite Hf.
    destruct (Nat.leb_spec k q) as [Hkq|Hkq].
    + rewrite nth_error_app1 by lia. reflexivity.
    + rewrite nth_error_app2 by lia. rewrite nth_error_skipn. f_equal. lia.
  - rewrite nth_error_app1 by lia. rewrite nth_error_firstn.
    destruct (Nat.ltb_spec k p); [reflexivity|lia].
Qed.

Lemma array_setslice_ok a st en vs s e p q : awf a ->
  nth_error (range_iter (a_range a)) p = Some s ->
  nth_error (range_iter (a_range a)) q = Some e -> (p <= q < length (a_value a))%nat ->
  slice_bounds a st en false = Ok (s, e, Z.of_nat p, Z.of_nat q) ->
  length vs = (q + 1 - p)%nat ->
  exists b, array_setslice a st en false vs = (b, None) /\ awf b /\ a_range b = a_range a /\
    forall i, array_get b i =
      match pos_of i (span s (dir_of (a_range a)) e) with
      | Some k => match nth_error vs k with Some x => Ok x | None => Err IndexError end
      | None => array_get a i
      end.
Proof.
  intros H Hp Hq Hpq Hb Hl. unfold array_setslice. rewrite Hb.
  destruct (Z.eqb_spec (py_len vs) (Z.of_nat q - Z.of_nat p + 1)) as [E|E];
    [|unfold py_len in E; lia]. cbn [negb].
  rewrite Nat2Z.id. replace (Z.to_nat (Z.of_nat q + 1)) with (q + 1)%nat by lia.
  eexists. split; [reflexivity|].
  pose proof H as [H1 H2].
  assert (Hb' : awf (Array (firstn p (a_value a) ++ vs ++ skipn (q + 1) (a_value a)) (a_range a))).
  { split; [exact H1|]. cbn [a_value a_range]. rewrite <- H2, !app_length, firstn_length, skipn_length. lia. }
  split; [exact Hb'|]. split; [reflexivity|]. intro i.
  rewrite !array_get_lookup by auto. unfold pairs. cbn [a_value a_range].
  assert (Hspan : span s (dir_of (a_range a)) e =
                  firstn (q + 1 - p) (skipn p (range_iter (a_range a)))).
  { rewrite (iter_wf _ H1) in Hp, Hq |- *. apply span_sub; auto; lia. }
  assert (ND := labels_nodup a H).
  assert (Hpos : forall (L : list Z) k, NoDup L -> nth_error L k = Some i -> pos_of i L = Some k).
  { clear. induction L as [|z L IH]; intros k ND Hk; [destruct k; discriminate|].
    inversion ND; subst. cbn [pos_of]. destruct k as [|k]; cbn [nth_error] in Hk.
    - injection Hk as ->. now rewrite Z.eqb_refl.
    - destruct (Z.eqb_spec z i) as [->|]; [exfalso; apply nth_error_In in Hk; auto|].
      rewrite (IH k); auto. }
  assert (Hnpos : forall (L : list Z), ~ In i L -> pos_of i L = None).
  { clear. induction L as [|z L IH]; intro Hn; [reflexivity|]. cbn [pos_of].
    destruct (Z.eqb_spec z i) as [->|]; [exfalso; apply Hn; now left|].
    rewrite IH; [reflexivity|]. intro; apply Hn; now right. }
  destruct (in_dec Z.eq_dec i (range_iter (a_range a))) as [Hin|Hnin].
  - apply In_nth_error in Hin. destruct Hin as [k Hk].
    rewrite (lookup_combine_nth _ _ k i); auto. 2: { symmetry; apply Hb'. }
    rewrite (lookup_combine_nth _ (a_value a) k i); auto.
    rewrite setslice_value by auto.
    destruct (Nat.leb_spec p k) as [Hpk|Hpk]; cbn [andb];
      [destruct (Nat.leb_spec k q) as [Hkq|Hkq]|].
    + rewrite (Hpos _ (k - p)%nat).
      * reflexivity.
      * apply span_nodup.
      * rewrite Hspan, nth_error_firstn, nth_error_skipn.
        destruct (Nat.ltb_spec (k - p) (q + 1 - p)); [|lia].
        now replace (p + (k - p))%nat with k by lia.
    + rewrite Hnpos; [reflexivity|]. rewrite Hspan. intro Hin.
      apply In_nth_error in Hin. destruct Hin as [m Hm].
      rewrite nth_error_firstn, nth_error_skipn in Hm.
      destruct (Nat.ltb_spec m (q + 1 - p)); [|discriminate].
      assert (p + m = k)%nat by (eapply nth_labels_inj; eauto). lia.
    + rewrite Hnpos; [reflexivity|]. rewrite Hspan. intro Hin.
      apply In_nth_error in Hin. destruct Hin as [m Hm].
      rewrite nth_error_firstn, nth_error_skipn in Hm.
      destruct (Nat.ltb_spec m (q + 1 - p)); [|discriminate].
      assert (p + m = k)%nat by (eapply nth_labels_inj; eauto). lia.
  - rewrite !lookup_notin by auto. rewrite Hnpos; [reflexivity|].
    rewrite Hspan. intro Hin. apply Hnin.
    rewrite <- (firstn_skipn p (range_iter (a_range a))). apply in_or_app. right.
    rewrite <- (firstn_skipn (q + 1 - p) (skipn p _)). apply in_or_app. now left.
Qed.

Lemma array_setslice_fail a st en hs vs e : awf a ->
  snd (array_setslice a st en hs vs) = Some e -> fst (array_setslice a st en hs vs) = a.
Proof.
  intros H. unfold array_setslice.
  destruct (slice_bounds a st en hs) as [[[[s e'] si] ei]|e']; cbn [snd fst]; [|auto].
  destruct (negb (py_len vs =? ei - si + 1)); cbn [snd fst]; [auto|discriminate].
Qed.

(** Relabelling, equality, index, count. *)
Variable eqb : A -> A -> bool.
Hypothesis eqb_eq : forall x y, eqb x y = true <-> x = y.

Lemma list_eqb_eq l m : list_eqb eqb l m = true <-> l = m.
Proof.
  revert m; induction l as [|x l IH]; intros [|y m]; cbn; split; intro H; try congruence; try discriminate; auto.
  - apply andb_true_iff in H. destruct H as [H1 H2]. apply eqb_eq in H1. apply IH in H2. congruence.
  - injection H as -> ->. apply andb_true_iff. split; [now apply eqb_eq|now apply IH].
Qed.

Lemma array_count_spec a x :
  array_count eqb a x = Z.of_nat (length (filter (fun y => eqb y x) (a_value a))).
Proof.
  unfold array_count, array_iter.
  assert (G : forall l n, fold_left (fun n y => if eqb y x then n + 1 else n) l n =
              n + Z.of_nat (length (filter (fun y => eqb y x) l))).
  { induction l as [|y l IH]; intro n; cbn [fold_left filter length]; [lia|].
    rewrite IH. destruct (eqb y x); cbn [length]; lia. }
  rewrite G. lia.
Qed.

Lemma array_contains_spec a x : array_contains eqb a x = true <-> In x (a_value a).
Proof.
  unfold array_contains. rewrite existsb_exists. split.
  - intros (y & Hy & E). apply eqb_eq in E. now subst.
  - intro H. exists x. split; [exact H|]. now apply eqb_eq.
Qed.

Lemma index_loop_ok a x labels k : awf a ->
  index_loop eqb a x labels = Ok k <->
  exists pre post, labels = pre ++ k :: post /\ array_get a k = Ok x /\
    forall j, In j pre -> exists y, array_get a j = Ok y /\ y <> x.
Proof.
  intro H. induction labels as [|i labels IH]; cbn [index_loop].
  - split; [discriminate|]. intros (pre & post & E & _). destruct pre; discriminate.
  - destruct (array_get a i) as [y|e] eqn:Ei.
    + destruct (eqb y x) eqn:Ey.
      * apply eqb_eq in Ey. subst y. split.
        -- intro K; injection K as <-. exists [], labels. repeat split; auto. intros j [].
        -- intros (pre & post & E & Hk & Hpre). destruct pre as [|z pre]; injection E as E1 E2; [congruence|].
           subst z. destruct (Hpre i (or_introl eq_refl)) as (y & Hy & Hne). congruence.
      * rewrite IH. split.
        -- intros (pre & post & -> & Hk & Hpre). exists (i :: pre), post. repeat split; auto.
           intros j [<-|Hj]; [|auto]. exists y. split; [exact Ei|]. intros ->.
           assert (eqb x x = true) by (now apply eqb_eq). congruence.
        -- intros (pre & post & E & Hk & Hpre). destruct pre as [|z pre]; injection E as E1 E2.
           ++ subst i. rewrite Ei in Hk. injection Hk as ->.
              assert (eqb x x = true) by (now apply eqb_eq). congruence.
           ++ subst z. exists pre, post. repeat split; auto. intros j Hj. apply Hpre. now right.
    + split; [discriminate|]. intros (pre & post & E & Hk & Hpre).
      destruct pre as [|z pre]; injection E as E1 E2; subst; [congruence|].
      destruct (Hpre z (or_introl eq_refl)) as (y & Hy & _). congruence.
Qed.

Lemma index_loop_missing a x labels : awf a ->
  (forall j, In j labels -> exists y, array_get a j = Ok y /\ y <> x) ->
  index_loop eqb a x labels = Err ValueError.
Proof.
  intro H. induction labels as [|i labels IH]; intro Hall; cbn [index_loop]; [reflexivity|].
  destruct (Hall i (or_introl eq_refl)) as (y & Hy & Hne). rewrite Hy.
  destruct (eqb y x) eqn:E; [apply eqb_eq in E; congruence|].
  apply IH. intros j Hj. apply Hall. now right.
Qed.

Lemma array_index_unfold a x st en : awf a ->
  array_index eqb a x st en =
  index_loop eqb a x
    (span (match st with Some v => v | None => left_of (a_range a) end) (dir_of (a_range a))
          (match en with Some v => v | None => right_of (a_range a) end)).
Proof.
  intros [H _]. unfold array_index. rewrite (direction_wf _ H). cbn [bind].
  set (d := dir_of (a_range a)).
  assert (Hd : lower (dir_name d) = dir_name d) by (destruct d; reflexivity).
  rewrite (mk_range_str _ (dir_name d) _ d Hd). cbn [bind]. f_equal.
  rewrite iter_wf by (unfold wf; destruct d; cbn; auto).
  unfold dir_of, left_of, right_of; destruct d; cbn [r_start r_stop r_step]; cbn -[Z.add Z.sub span]; f_equal; lia.
Qed.

End Proofs.

(** * The statements used by ArrayProps.v *)
Section Final.
Context {A : Type}.
Implicit Types (a b : array A) (x y : A).

(** An Array object is whatever the constructor returns on a Range, an int or no range. *)
Definition is_array a : Prop :=
  exists v rg, match rg with RRange r => is_range r | _ => True end /\ mk_array v rg = Ok a.

Lemma is_array_awf a : is_array a <-> awf a.
Proof.
  split.
  - intros (v & rg & Hr & E). eapply mk_array_awf; [|exact E].
    destruct rg; auto. now apply is_range_wf.
  - intros [H1 H2]. exists (a_value a), (RRange (a_range a)).
    split; [now apply is_range_wf|]. cbn [mk_array].
    pose proof (iter_len _ H1). unfold py_len. rewrite H2.
    destruct (Z.eqb_spec (Z.of_nat (length (range_iter (a_range a)))) (range_len (a_range a))); [|lia].
    destruct a; reflexivity.
Qed.

(** The array as a partial function from labels to elements. *)
Definition assoc a : list (Z * A) := combine (range_iter (a_range a)) (a_value a).

Lemma C04_get_pf a i : is_array a ->
  array_get a i = match lookup i (assoc a) with Some x => Ok x | None => Err IndexError end /\
  ((exists x, array_get a i = Ok x) <-> In i (range_iter (a_range a))).
Proof.
  intro H. apply is_array_awf in H. rewrite (array_get_lookup a i H). split; [reflexivity|].
  rewrite <- (lookup_some_in a i H). unfold pairs.
  destruct (lookup i _); split; intros [z Hz]; try discriminate; eauto.
Qed.

Lemma C04_set_pf a i x : is_array a ->
  match array_set a i x with
  | (a', None) =>
      In i (range_iter (a_range a)) /\ is_array a' /\ a_range a' = a_range a /\
      length (a_value a') = length (a_value a) /\
      array_get a' i = Ok x /\ (forall j, j <> i -> array_get a' j = array_get a j)
  | (a', Some e) => e = IndexError /\ ~ In i (range_iter (a_range a)) /\ a' = a
  end.
Proof.
  intro H. apply is_array_awf in H.
  destruct (array_set a i x) as [a' [e|]] eqn:E.
  - destruct (array_set_cases a i x H) as [(p & Hn & Hp & E2)|(Hn & E2)]; rewrite E2 in E;
      inversion E; subst; auto.
  - pose proof (array_set_awf a i x H) as H'. rewrite E in H'. cbn [fst] in H'.
    assert (G := fun j => array_set_get a i x a' j H E).
    destruct (array_set_cases a i x H) as [(p & Hn & Hp & E2)|(Hn & E2)]; rewrite E2 in E;
      [|discriminate].
    split; [eapply nth_error_In; eauto|]. split; [now apply is_array_awf|].
    injection E as <-. cbn [a_range a_value] in *.
    split; [reflexivity|]. split; [apply list_update_length|].
    split; [rewrite G, Z.eqb_refl; reflexivity|].
    intros j Hj. rewrite G. destruct (Z.eqb_spec j i); [congruence|reflexivity].
Qed.

Lemma C04_get_set_pf a i x : is_array a -> array_get a i = Ok x -> array_set a i x = (a, None).
Proof.
  intros H E. apply is_array_awf in H.
  destruct (array_set_cases a i x H) as [(p & Hn & Hp & E2)|(Hn & E2)].
  - rewrite E2. f_equal. destruct a as [v r]. cbn [a_value a_range] in *. f_equal.
    apply list_update_same. rewrite (array_get_lookup _ i H) in E. unfold pairs in E. cbn [a_value a_range] in E.
    rewrite (lookup_combine_nth _ _ p i) in E; auto.
    + destruct (nth_error v p); congruence.
    + apply (labels_nodup _ H).
    + symmetry; apply H.
  - exfalso. apply Hn. apply (proj2 (C04_get_pf a i (proj2 (is_array_awf a) H))). eauto.
Qed.

(** Slices: [st]/[en] None means the end label of the array. *)
Definition lo a (st : option Z) := match st with Some v => v | None => left_of (a_range a) end.
Definition hi a (en : option Z) := match en with Some v => v | None => right_of (a_range a) end.

(** [s] and [e] are labels of the array and [s] does not come after [e]. *)
Definition ordered_labels a (s e : Z) : Prop :=
  exists p q, nth_error (range_iter (a_range a)) p = Some s /\
              nth_error (range_iter (a_range a)) q = Some e /\ (p <= q)%nat.

Lemma slice_dichotomy a st en hs : awf a ->
  (exists p q, hs = false /\
     nth_error (range_iter (a_range a)) p = Some (lo a st) /\
     nth_error (range_iter (a_range a)) q = Some (hi a en) /\ (p <= q < length (a_value a))%nat /\
     slice_bounds a st en hs = Ok (lo a st, hi a en, Z.of_nat p, Z.of_nat q)) \/
  (slice_bounds a st en hs = Err IndexError /\
   ~ (hs = false /\ ordered_labels a (lo a st) (hi a en))).
Proof.
  intro H. pose proof (slice_bounds_cases a st en hs H) as C. cbv zeta in C.
  fold (lo a st) in C. fold (hi a en) in C.
  destruct C as [(p & q & C)|(C & D)]; [left; exists p, q; exact C|right].
  split; [exact C|]. intros [Hs (p & q & Hp & Hq & Hle)].
  destruct D as [D|[D|[D|(p' & q' & Hp' & Hq' & Hlt)]]].
  - congruence.
  - apply D. eapply nth_error_In; eauto.
  - apply D. eapply nth_error_In; eauto.
  - assert (p = p') by (eapply nth_labels_inj; eauto).
    assert (q = q') by (eapply nth_labels_inj; eauto). lia.
Qed.

Lemma C05_getslice_pf a st en hs : is_array a ->
  match array_getslice a st en hs with
  | Ok b =>
      hs = false /\ ordered_labels a (lo a st) (hi a en) /\ is_array b /\
      left_of (a_range b) = lo a st /\ right_of (a_range b) = hi a en /\
      direction_of (a_range b) = direction_of (a_range a) /\
      (forall i, In i (range_iter (a_range b)) -> array_get b i = array_get a i)
  | Err e => e = IndexError /\ ~ (hs = false /\ ordered_labels a (lo a st) (hi a en))
  end.
Proof.
  intro H. apply is_array_awf in H.
  destruct (slice_dichotomy a st en hs H) as [(p & q & Hs & Hp & Hq & Hpq & E)|(E & N)].
  - subst hs. destruct (array_getslice_ok a _ _ p q H Hp Hq Hpq st en E)
      as (b & Eb & Hb & Hl & Hr & Hd & Hi & Hv).
    rewrite Eb. split; [reflexivity|]. split; [exists p, q; repeat split; auto; lia|].
    split; [now apply is_array_awf|]. repeat split; auto.
    + destruct H as [H1 _], Hb as [Hb1 _]. rewrite !direction_wf by auto. now rewrite Hd.
    + intros i Hin. eapply (getslice_reads a b p q); eauto.
  - unfold array_getslice. rewrite E. cbn [bind]. auto.
Qed.

Lemma C05_setslice_pf a st en hs vs : is_array a ->
  match array_setslice a st en hs vs with
  | (b, None) =>
      hs = false /\ ordered_labels a (lo a st) (hi a en) /\ is_array b /\ a_range b = a_range a /\
      exists d, direction_of (a_range a) = Ok (dir_name d) /\
        length vs = length (span (lo a st) d (hi a en)) /\
        forall i, array_get b i =
          match pos_of i (span (lo a st) d (hi a en)) with
          | Some k => match nth_error vs k with Some x => Ok x | None => Err IndexError end
          | None => array_get a i
          end
  | (b, Some e) =>
      b = a /\ ((e = IndexError /\ ~ (hs = false /\ ordered_labels a (lo a st) (hi a en))) \/
                (e = ValueError /\ forall d, direction_of (a_range a) = Ok (dir_name d) ->
                   length vs <> length (span (lo a st) d (hi a en))))
  end.
Proof.
  intro H. apply is_array_awf in H. pose proof H as [H1 H2].
  destruct (slice_dichotomy a st en hs H) as [(p & q & Hs & Hp & Hq & Hpq & E)|(E & N)].
  2: { unfold array_setslice. rewrite E. auto. }
  subst hs.
  assert (Hspan : length (span (lo a st) (dir_of (a_range a)) (hi a en)) = (q + 1 - p)%nat).
  { rewrite (iter_wf _ H1) in Hp, Hq. rewrite (span_sub _ _ _ p q _ _ Hp Hq) by lia.
    rewrite firstn_length, skipn_length. rewrite H2, (iter_wf _ H1) in Hpq. lia. }
  destruct (Nat.eq_dec (length vs) (q + 1 - p)) as [El|Nl].
  - destruct (array_setslice_ok a st en vs _ _ p q H Hp Hq Hpq E El) as (b & Eb & Hb & Hr & Hg).
    rewrite Eb. split; [reflexivity|]. split; [exists p, q; repeat split; auto; lia|].
    split; [now apply is_array_awf|]. split; [exact Hr|].
    exists (dir_of (a_range a)). split; [now apply direction_wf|]. split; [congruence|exact Hg].
  - unfold array_setslice. rewrite E.
    destruct (Z.eqb_spec (py_len vs) (Z.of_nat q - Z.of_nat p + 1)) as [E2|E2];
      [unfold py_len in E2; lia|]. cbn [negb]. split; [reflexivity|]. right. split; [reflexivity|].
    intros d Hd. rewrite (direction_wf _ H1) in Hd. injection Hd as Hd.
    assert (d = dir_of (a_range a)) by (destruct d, (dir_of (a_range a)); try reflexivity; discriminate).
    subst d. congruence.
Qed.

Lemma C05_full_slice_pf a : is_array a -> a_value a <> [] ->
  exists b, array_getslice a None None false = Ok b /\ a_value b = a_value a /\
            range_iter (a_range b) = range_iter (a_range a).
Proof.
  intros H Hne. apply is_array_awf in H. pose proof H as [H1 H2].
  assert (Hsp : range_iter (a_range a) <> []).
  { intro K. rewrite K in H2. destruct (a_value a); [congruence|discriminate]. }
  assert (Hlen : (0 < length (a_value a))%nat) by (destruct (a_value a); [congruence|cbn; lia]).
  assert (Hp : nth_error (range_iter (a_range a)) 0 = Some (left_of (a_range a))).
  { rewrite (iter_wf _ H1) in Hsp |- *. destruct (span_endpoints _ _ _ Hsp) as [K _].
    destruct (span _ _ _); [discriminate|exact K]. }
  assert (Hq : nth_error (range_iter (a_range a)) (length (a_value a) - 1) = Some (right_of (a_range a))).
  { rewrite H2. rewrite (iter_wf _ H1) in Hsp |- *. destruct (span_endpoints _ _ _ Hsp) as [_ K].
    rewrite <- K at 3.
    set (L := span _ _ _) in *. clearbody L. clear -Hsp.
    destruct (exists_last Hsp) as (L' & z & ->). rewrite last_last, app_length. cbn [length].
    replace (length L' + 1 - 1)%nat with (length L') by lia. rewrite nth_error_app2 by lia.
    now rewrite Nat.sub_diag. }
  assert (Hb : slice_bounds a None None false =
    Ok (left_of (a_range a), right_of (a_range a), Z.of_nat 0, Z.of_nat (length (a_value a) - 1))).
  { destruct (slice_dichotomy a None None false H) as [(p & q & _ & Hp' & Hq' & _ & E)|(_ & N)].
    - cbn [lo hi] in *. rewrite E. repeat f_equal; eapply nth_labels_inj; eauto.
    - exfalso. apply N. split; [reflexivity|]. cbn [lo hi]. exists 0%nat, (length (a_value a) - 1)%nat.
      repeat split; auto. lia. }
  destruct (array_getslice_ok a _ _ 0%nat (length (a_value a) - 1)%nat H Hp Hq ltac:(lia) None None Hb)
    as (b & Eb & _ & _ & _ & _ & Hi & Hv).
  exists b. split; [exact Eb|].
  rewrite Hi, Hv. cbn [skipn].
  split; [apply firstn_all2; lia|]. apply firstn_all2. rewrite <- H2. lia.
Qed.

Lemma C05_empty_slice_pf a : is_array a -> a_value a = [] ->
  array_getslice a None None false = Err IndexError.
Proof.
  intros H He. apply is_array_awf in H.
  destruct (slice_dichotomy a None None false H) as [(p & q & _ & _ & _ & Hpq & _)|(E & _)].
  - rewrite He in Hpq. cbn in Hpq. lia.
  - unfold array_getslice. rewrite E. reflexivity.
Qed.

(** * C06 *)
Lemma C06_mk_pf v rg : match rg with RRange r => is_range r | _ => True end ->
  match mk_array (A := A) v rg with
  | Ok a => a_value a = v /\ py_len v = range_len (a_range a) /\
            match rg with
            | RNone => range_iter (a_range a) = span 0 To (py_len v - 1)
            | RInt n => range_iter (a_range a) = span 0 To (n - 1)
            | RRange r => a_range a = r
            end
  | Err e => e = ValueError /\
             match rg with
             | RNone => False
             | RInt n => py_len v <> Z.max 0 n
             | RRange r => py_len v <> range_len r
             end
  end.
Proof.
  intro Hr.
  assert (Hr' : match rg with RRange r => wf r | _ => True end)
    by (destruct rg; auto; now apply is_range_wf).
  pose proof (mk_array_ok_iff v rg Hr') as I.
  destruct (mk_array v rg) as [a|e] eqn:E.
  - pose proof (mk_array_awf v rg a Hr' E) as ([W L] & V & R).
    split; [exact V|]. split.
    + pose proof (iter_len _ W). unfold py_len. rewrite <- V, L. exact H.
    + destruct rg as [|n|r]; auto; rewrite (iter_wf _ W), R; unfold left_of, right_of, dir_of; cbn [r_start r_stop r_step Z.eqb Pos.eqb]; f_equal; lia.
  - cbn [is_ok] in I. split.
    + destruct rg as [|n|r]; cbn [mk_array] in E; try discriminate.
      * rewrite (mk_range_str 0 (lit "to") _ To) in E by reflexivity. cbn [bind] in E.
        destruct (_ =? _); [discriminate|]. congruence.
      * destruct (_ =? _); [discriminate|]. congruence.
    + destruct rg as [|n|r]; [destruct (proj2 I); [exact Logic.I|discriminate]| |];
        intro K; apply I in K; discriminate.
Qed.

Lemma C06_set_range_pf a r : is_array a -> is_range r ->
  match array_set_range a r with
  | (b, None) => range_len r = py_len (a_value a) /\ a_range b = r /\ a_value b = a_value a /\ is_array b
  | (b, Some e) => e = ValueError /\ range_len r <> py_len (a_value a) /\ b = a
  end.
Proof.
  intros H Hr. apply is_array_awf in H. apply is_range_wf in Hr. destruct H as [H1 H2].
  pose proof (iter_len _ H1) as L. pose proof (iter_len _ Hr) as L2. unfold array_set_range.
  destruct (Z.eqb_spec (range_len r) (range_len (a_range a))) as [E|E]; cbn [negb].
  - repeat split.
    + unfold py_len. lia.
    + apply is_array_awf. split; cbn; auto. lia.
  - repeat split. unfold py_len. lia.
Qed.

Section Eq.
Variable eqb : A -> A -> bool.
Hypothesis eqb_eq : forall x y, eqb x y = true <-> x = y.

Lemma C06_eq_pf a b : array_eqb eqb a b = true <-> a_value a = a_value b.
Proof. apply list_eqb_eq. exact eqb_eq. Qed.

Lemma C06_members_pf a x :
  array_reversed a = rev (array_iter a) /\
  (array_contains eqb a x = true <-> In x (array_iter a)) /\
  array_count eqb a x = Z.of_nat (length (filter (fun y => eqb y x) (array_iter a))).
Proof.
  split; [reflexivity|]. split; [now apply array_contains_spec|apply array_count_spec].
Qed.

Lemma C06_index_pf a x st en : is_array a ->
  (forall i, direction_of (a_range a) = Ok (dir_name To) -> lo a st <= i <= hi a en -> In i (range_iter (a_range a))) ->
  (forall i, direction_of (a_range a) = Ok (dir_name Downto) -> hi a en <= i <= lo a st -> In i (range_iter (a_range a))) ->
  exists d, direction_of (a_range a) = Ok (dir_name d) /\
  match array_index eqb a x st en with
  | Ok k => exists pre post, span (lo a st) d (hi a en) = pre ++ k :: post /\
              array_get a k = Ok x /\ (forall j, In j pre -> array_get a j <> Ok x)
  | Err e => e = ValueError /\ forall j, In j (span (lo a st) d (hi a en)) -> array_get a j <> Ok x
  end.
Proof.
  intros H Hu Hd. apply is_array_awf in H. pose proof H as [H1 H2].
  exists (dir_of (a_range a)). split; [now apply direction_wf|].
  rewrite (array_index_unfold eqb a x st en H). fold (lo a st). fold (hi a en).
  set (L := span (lo a st) (dir_of (a_range a)) (hi a en)).
  assert (HL : forall j, In j L -> exists y, array_get a j = Ok y).
  { intros j Hj. apply (proj2 (C04_get_pf a j (proj2 (is_array_awf a) H))).
    unfold L in Hj. rewrite span_in in Hj. rewrite (direction_wf _ H1) in Hu, Hd.
    destruct (dir_of (a_range a)); auto. }
  destruct (index_loop eqb a x L) as [k|e] eqn:E.
  - apply (index_loop_ok eqb eqb_eq a x L k H) in E. destruct E as (pre & post & EL & Hk & Hpre).
    exists pre, post. split; [exact EL|]. split; [exact Hk|].
    intros j Hj K. destruct (Hpre j Hj) as (y & Hy & Hne). congruence.
  - revert HL E. clearbody L. clear -eqb_eq. induction L as [|i L IH]; cbn [index_loop]; intros HL E.
    + injection E as <-. split; [reflexivity|]. intros j [].
    + destruct (HL i (or_introl eq_refl)) as (y & Hy). rewrite Hy in E.
      destruct (eqb y x) eqn:Ey; [discriminate|].
      destruct IH as [-> I]; auto. { intros j Hj; apply HL; now right. }
      split; [reflexivity|]. intros j [<-|Hj]; [|auto].
      rewrite Hy. intro K; injection K as ->.
      assert (eqb x x = true) by (now apply eqb_eq). congruence.
Qed.
End Eq.
End Final.

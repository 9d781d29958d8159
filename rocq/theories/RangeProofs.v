(** Lemmas about the Range model. *)
From Coq Require Import String ZifyBool.
From Verif Require Import Base RangeModel RangeSpec.
Open Scope Z_scope.

Definition wf (R : Range) : Prop := r_step R = 1 \/ r_step R = -1.

(** The direction of a well-formed range, as used in proofs. *)
Definition dir_of (R : Range) : dir := if r_step R =? 1 then To else Downto.

Lemma pr_len_wf R : wf R ->
  pr_len R = Z.max 0 (r_step R * (r_stop R - r_start R)).
Proof.
  intros [H|H]; unfold pr_len; rewrite H.
  - change (0 <? 1) with true. cbv iota. rewrite Z.div_1_r.
    destruct (Z.ltb_spec (r_start R) (r_stop R)); lia.
  - change (0 <? -1) with false. cbv iota. change (- -1) with 1. rewrite Z.div_1_r.
    destruct (Z.ltb_spec (r_stop R) (r_start R)); lia.
Qed.

Lemma pr_len_nonneg R : wf R -> 0 <= pr_len R.
Proof. intro H. rewrite (pr_len_wf R H). lia. Qed.

Lemma iter_from_up c n : pr_iter_from c 1 n = count_up c n.
Proof. revert c; induction n as [|n IH]; intro c; cbn; [reflexivity|]. now rewrite IH. Qed.
Lemma iter_from_down c n : pr_iter_from c (-1) n = count_down c n.
Proof.
  revert c; induction n as [|n IH]; intro c; cbn [pr_iter_from count_down]; [reflexivity|].
  rewrite IH. now replace (c + -1) with (c - 1) by lia.
Qed.

Lemma iter_from_length c s n : length (pr_iter_from c s n) = n.
Proof. revert c; induction n as [|n IH]; intro c; cbn; [reflexivity|]. now rewrite IH. Qed.

Lemma iter_from_nth c s n i :
  (i < n)%nat -> nth_error (pr_iter_from c s n) i = Some (c + Z.of_nat i * s).
Proof.
  revert c i; induction n as [|n IH]; intros c i Hi; [lia|].
  destruct i as [|i]; cbn [pr_iter_from nth_error].
  - f_equal. lia.
  - rewrite IH by lia. f_equal. lia.
Qed.

Lemma iter_from_app c s n m :
  pr_iter_from c s (n + m) = pr_iter_from c s n ++ pr_iter_from (c + Z.of_nat n * s) s m.
Proof.
  revert c; induction n as [|n IH]; intro c; cbn [pr_iter_from app Nat.add].
  - f_equal. lia.
  - rewrite IH. do 2 f_equal. f_equal. lia.
Qed.

Lemma iter_from_rev c s n :
  rev (pr_iter_from c s n) = pr_iter_from (c + (Z.of_nat n - 1) * s) (- s) n.
Proof.
  revert c; induction n as [|n IH]; intro c; [reflexivity|].
  change (rev (pr_iter_from c s (S n))) with (rev (pr_iter_from (c + s) s n) ++ [c]).
  rewrite IH. replace (S n) with (n + 1)%nat by lia.
  rewrite iter_from_app. f_equal.
  - f_equal. lia.
  - cbn [pr_iter_from]. f_equal. lia.
Qed.

Lemma iter_from_in c s n v : s <> 0 ->
  In v (pr_iter_from c s n) <-> exists i, (i < n)%nat /\ v = c + Z.of_nat i * s.
Proof.
  intro Hs. split.
  - intro H. apply In_nth_error in H. destruct H as [i Hi].
    assert (Hlt : (i < n)%nat).
    { rewrite <- (iter_from_length c s n). apply nth_error_Some. congruence. }
    exists i. split; [exact Hlt|]. rewrite iter_from_nth in Hi by exact Hlt. congruence.
  - intros [i [Hi ->]]. eapply nth_error_In. apply iter_from_nth. exact Hi.
Qed.

Lemma count_up_in l n v : In v (count_up l n) <-> l <= v < l + Z.of_nat n.
Proof.
  rewrite <- iter_from_up, iter_from_in by lia. split.
  - intros [i [Hi ->]]. lia.
  - intro H. exists (Z.to_nat (v - l)). lia.
Qed.
Lemma count_down_in l n v : In v (count_down l n) <-> l - Z.of_nat n < v <= l.
Proof.
  rewrite <- iter_from_down, iter_from_in by lia. split.
  - intros [i [Hi ->]]. lia.
  - intro H. exists (Z.to_nat (l - v)). lia.
Qed.
Lemma count_up_nodup l n : NoDup (count_up l n).
Proof.
  revert l; induction n as [|n IH]; intro l; cbn; constructor; [|apply IH].
  rewrite count_up_in. lia.
Qed.
Lemma count_down_nodup l n : NoDup (count_down l n).
Proof.
  revert l; induction n as [|n IH]; intro l; cbn; constructor; [|apply IH].
  rewrite count_down_in. lia.
Qed.

Lemma span_in l d r v :
  In v (span l d r) <-> match d with To => l <= v <= r | Downto => r <= v <= l end.
Proof.
  destruct d; cbn [span]; [rewrite count_up_in | rewrite count_down_in]; lia.
Qed.
Lemma span_nodup l d r : NoDup (span l d r).
Proof. destruct d; cbn [span]; [apply count_up_nodup | apply count_down_nodup]. Qed.

Lemma span_length l d r :
  Z.of_nat (length (span l d r)) =
  match d with To => Z.max 0 (r - l + 1) | Downto => Z.max 0 (l - r + 1) end.
Proof.
  destruct d; cbn [span];
    [rewrite <- iter_from_up | rewrite <- iter_from_down]; rewrite iter_from_length; lia.
Qed.

Lemma direction_to_step_ok s k :
  direction_to_step s = Ok k ->
  (lower s = dir_name To /\ k = 1) \/ (lower s = dir_name Downto /\ k = -1).
Proof.
  unfold direction_to_step.
  destruct (pystr_eqb (lower s) (lit "to")) eqn:E1.
  - intro H; inversion H; subst. left. apply pystr_eqb_eq in E1. auto.
  - destruct (pystr_eqb (lower s) (lit "downto")) eqn:E2; intro H; inversion H; subst.
    right. apply pystr_eqb_eq in E2. auto.
Qed.

Lemma direction_to_step_name s d :
  lower s = dir_name d -> direction_to_step s = Ok (match d with To => 1 | Downto => -1 end).
Proof. unfold direction_to_step. intros ->. destruct d; reflexivity. Qed.

Lemma mk_range_wf l d r R : mk_range l d r = Ok R -> wf R.
Proof.
  unfold mk_range, wf.
  destruct d as [z|s|], r as [r|]; try discriminate; cbn.
  - intro H; inversion H; subst; cbn. unfold guess_step. destruct (l <=? z); auto.
  - destruct (direction_to_step s) as [k|e] eqn:E; cbn; [|discriminate].
    intro H; inversion H; subst; cbn. apply direction_to_step_ok in E. intuition.
  - intro H; inversion H; subst; cbn. unfold guess_step. destruct (l <=? r); auto.
Qed.

Lemma mk_range_str l s r d : lower s = dir_name d ->
  mk_range l (DStr s) (Some r) =
  Ok (PyRange l (r + match d with To => 1 | Downto => -1 end)
                match d with To => 1 | Downto => -1 end).
Proof. intro H. cbn. rewrite (direction_to_step_name s d H). destruct d; reflexivity. Qed.

Lemma iter_wf R : wf R -> range_iter R = span (left_of R) (dir_of R) (right_of R).
Proof.
  intros H. unfold range_iter, pr_iter. rewrite (pr_len_wf R H).
  unfold dir_of, left_of, right_of, span.
  destruct H as [H|H]; rewrite H; cbn [Z.eqb Pos.eqb].
  - rewrite iter_from_up. f_equal. lia.
  - rewrite iter_from_down. f_equal. lia.
Qed.

Lemma iter_len R : wf R -> Z.of_nat (length (range_iter R)) = range_len R.
Proof.
  intro H. unfold range_iter, pr_iter, range_len. rewrite iter_from_length.
  pose proof (pr_len_nonneg R H). lia.
Qed.

Lemma iter_rev R : wf R -> range_reversed R = rev (range_iter R).
Proof.
  intro H. unfold range_reversed, pr_reversed, range_iter, pr_iter.
  rewrite iter_from_rev, Z2Nat.id by (apply pr_len_nonneg; exact H). reflexivity.
Qed.

Lemma iter_nth R i : wf R -> 0 <= i < range_len R ->
  nth_error (range_iter R) (Z.to_nat i) = Some (pr_item R i).
Proof.
  unfold range_len. intros H Hi. unfold range_iter, pr_iter.
  rewrite iter_from_nth by lia. unfold pr_item. rewrite Z2Nat.id by lia. reflexivity.
Qed.

Lemma getitem_spec R i : wf R ->
  range_getitem R i =
  match py_pos (Z.of_nat (length (range_iter R))) i with
  | Some p => match nth_error (range_iter R) p with Some v => Ok v | None => Err IndexError end
  | None => Err IndexError
  end.
Proof.
  intro H. rewrite (iter_len R H). unfold range_getitem, pr_getitem, py_pos, range_len.
  pose proof (pr_len_nonneg R H) as Hn.
  destruct (Z.ltb_spec i 0) as [Hneg|Hpos].
  - destruct (Z.leb_spec 0 i); [lia|]. cbn [andb].
    rewrite andb_true_r.
    destruct (Z.leb_spec (- pr_len R) i) as [Hge|Hlt].
    + replace (pr_len R + i) with (i + pr_len R) by lia.
      rewrite iter_nth by (unfold range_len; auto; lia).
      destruct ((i + pr_len R <? 0) || (pr_len R <=? i + pr_len R)) eqn:E; [lia|reflexivity].
    + destruct ((i + pr_len R <? 0) || (pr_len R <=? i + pr_len R)) eqn:E; [reflexivity|lia].
  - destruct (Z.leb_spec 0 i); [|lia]. cbn [andb].
    destruct (Z.ltb_spec i (pr_len R)) as [Hlt|Hge].
    + rewrite iter_nth by (unfold range_len; auto; lia).
      destruct (Z.leb_spec (pr_len R) i); [lia|].
      destruct (Z.ltb_spec i 0); [lia|]. reflexivity.
    + rewrite andb_false_r. destruct (Z.leb_spec (pr_len R) i); [|lia].
      rewrite orb_true_r. reflexivity.
Qed.

Lemma iter_inj R i j v : wf R ->
  nth_error (range_iter R) i = Some v -> nth_error (range_iter R) j = Some v -> i = j.
Proof.
  intros H Hi Hj.
  assert (ND : NoDup (range_iter R)) by (rewrite (iter_wf R H); apply span_nodup).
  apply (proj1 (NoDup_nth_error (range_iter R)) ND); [|congruence].
  apply nth_error_Some. congruence.
Qed.

Lemma mod_pm1 v s : s = 1 \/ s = -1 -> v mod s = 0.
Proof.
  intros [->| ->]; [apply Z.mod_1_r|].
  symmetry; apply (Z.mod_unique_neg v (-1) (- v) 0); lia.
Qed.

Lemma div_pm1 v s : s = 1 \/ s = -1 -> v / s = s * v.
Proof.
  intros [->| ->]; [rewrite Z.div_1_r; lia|].
  symmetry; apply (Z.div_unique_neg v (-1) (-1 * v) 0); lia.
Qed.

Lemma contains_in R v : wf R -> range_contains R v = true <-> In v (range_iter R).
Proof.
  intro H. rewrite (iter_wf R H), span_in. unfold range_contains, pr_contains.
  rewrite (mod_pm1 _ _ H). unfold dir_of, left_of, right_of.
  destruct H as [H|H]; rewrite H; cbn [Z.ltb Z.eqb Pos.eqb Z.compare]; lia.
Qed.

Lemma index_spec R v i : wf R ->
  range_index R v None None = Ok i <->
  0 <= i /\ nth_error (range_iter R) (Z.to_nat i) = Some v.
Proof.
  intro H. cbn [range_index]. unfold pr_index.
  fold (range_contains R v).
  destruct (range_contains R v) eqn:E.
  - rewrite div_pm1 by exact H.
    assert (Hin := proj1 (contains_in R v H) E).
    rewrite (iter_wf R H), span_in in Hin.
    assert (Hb : 0 <= r_step R * (v - r_start R) < range_len R).
    { unfold range_len. rewrite (pr_len_wf R H).
      unfold dir_of, left_of, right_of in Hin.
      destruct H as [H|H]; rewrite H in *; cbn [Z.eqb Pos.eqb] in Hin; lia. }
    assert (Hv : nth_error (range_iter R) (Z.to_nat (r_step R * (v - r_start R))) = Some v).
    { rewrite iter_nth by assumption. f_equal. unfold pr_item.
      destruct H as [H|H]; rewrite H; lia. }
    split.
    + intro K; injection K as <-. split; [lia|exact Hv].
    + intros [Hi Hn]. f_equal.
      assert (Z.to_nat i = Z.to_nat (r_step R * (v - r_start R))); [|lia].
      eapply (iter_inj R); eauto.
  - split; [discriminate|]. intros [Hi Hn]. exfalso.
    apply nth_error_In in Hn. apply (contains_in R v H) in Hn. congruence.
Qed.

Lemma index_err R v : wf R ->
  range_index R v None None = Err ValueError <-> ~ In v (range_iter R).
Proof.
  intro H. cbn [range_index]. unfold pr_index. fold (range_contains R v).
  rewrite <- (contains_in R v H).
  destruct (range_contains R v); split; intro K; congruence.
Qed.

Lemma from_range_wf r : wf r -> from_range r = Ok r.
Proof.
  destruct r as [a b s]. unfold wf, from_range. cbn [r_step r_start r_stop].
  intros [->| ->]; unfold step_to_direction; cbn -[Z.add Z.sub]; do 2 f_equal; lia.
Qed.

Lemma from_range_not_wf r : ~ wf r -> from_range r = Err ValueError.
Proof.
  destruct r as [a b s]. unfold wf, from_range. cbn [r_step r_start r_stop].
  unfold step_to_direction. intro H.
  destruct (Z.eqb_spec s 1); [exfalso; auto|].
  destruct (Z.eqb_spec s (-1)); [exfalso; auto|]. reflexivity.
Qed.

Lemma direction_wf R : wf R -> direction_of R = Ok (dir_name (dir_of R)).
Proof.
  intros [H|H]; unfold direction_of, step_to_direction, dir_of; rewrite H; reflexivity.
Qed.

(** Null and non-null forms of equality. *)
Lemma eqb_iter A B : wf A -> wf B ->
  range_eqb A B = true <-> range_iter A = range_iter B.
Proof.
  intros HA HB. unfold range_eqb, pr_eqb.
  assert (LA := iter_len A HA). assert (LB := iter_len B HB). unfold range_len in *.
  destruct (Z.eqb_spec (pr_len A) (pr_len B)) as [E|E]; cbn [negb].
  2: { split; [discriminate|]. intro K. exfalso. rewrite K in LA. lia. }
  destruct (Z.eqb_spec (pr_len A) 0) as [E0|E0].
  { split; [|reflexivity]. intros _.
    destruct (range_iter A), (range_iter B); cbn [length] in *; try reflexivity; lia. }
  assert (Hpos : 0 < pr_len A) by (pose proof (pr_len_nonneg A HA); lia).
  unfold range_iter, pr_iter. rewrite <- E.
  destruct (Z.to_nat (pr_len A)) as [|n] eqn:En; [lia|].
  cbn [pr_iter_from].
  destruct (Z.eqb_spec (r_start A) (r_start B)) as [Es|Es]; cbn [negb].
  2: { split; [discriminate|]. intro K. congruence. }
  rewrite <- Es.
  destruct (Z.eqb_spec (pr_len A) 1) as [E1|E1].
  { split; [|reflexivity]. intros _. assert (n = 0)%nat by lia. subst n. reflexivity. }
  destruct n as [|n]; [lia|]. cbn [pr_iter_from].
  destruct (Z.eqb_spec (r_step A) (r_step B)) as [Et|Et].
  - rewrite Et. split; auto.
  - split; [discriminate|]. intro K. exfalso. apply Et. inversion K. lia.
Qed.

Lemma skipn_iter c s n k : (k <= n)%nat ->
  skipn k (pr_iter_from c s n) = pr_iter_from (c + Z.of_nat k * s) s (n - k).
Proof.
  intro H. replace n with (k + (n - k))%nat at 1 by lia. rewrite iter_from_app.
  rewrite skipn_app, iter_from_length, Nat.sub_diag.
  rewrite skipn_all2 by (rewrite iter_from_length; lia). reflexivity.
Qed.
Lemma firstn_iter c s n k : (k <= n)%nat ->
  firstn k (pr_iter_from c s n) = pr_iter_from c s k.
Proof.
  intro H. replace n with (k + (n - k))%nat by lia. rewrite iter_from_app.
  rewrite firstn_app, iter_from_length, Nat.sub_diag, firstn_O, app_nil_r.
  apply firstn_all2. rewrite iter_from_length. lia.
Qed.

(** Unit-step slices. *)
Lemma slice_spec R a b k : wf R -> k = None \/ k = Some 1 ->
  exists R', range_slice R (PySlice a b k) = Ok R' /\ wf R' /\
             r_step R' = r_step R /\ range_iter R' = slice_list (range_iter R) a b.
Proof.
  intros H Hk. unfold range_slice, pr_slice, slice_indices.
  cbn [s_start s_stop s_step].
  assert (Hst : match k with None => 1 | Some x => x end = 1) by (destruct Hk; subst; reflexivity).
  rewrite Hst. change (1 =? 0) with false. change (1 <? 0) with false. cbv iota. cbn [bind].
  set (n := pr_len R).
  assert (Hn : 0 <= n) by (apply pr_len_nonneg; exact H).
  set (x := slice_clip 1 n 0 n a 0). set (y := slice_clip 1 n 0 n b n).
  assert (Hx : x = clamp n a 0 /\ 0 <= x <= n).
  { unfold x, clamp, slice_clip. destruct a as [v|]; [|lia].
    destruct (Z.ltb_spec v 0); lia. }
  assert (Hy : y = clamp n b n /\ 0 <= y <= n).
  { unfold y, clamp, slice_clip. destruct b as [v|]; [|lia].
    destruct (Z.ltb_spec v 0); lia. }
  rewrite Z.mul_1_r.
  set (R' := PyRange (pr_item R x) (pr_item R y) (r_step R)).
  assert (HR' : wf R') by exact H.
  rewrite (from_range_wf R' HR').
  exists R'. split; [reflexivity|]. split; [exact HR'|]. split; [reflexivity|].
  unfold slice_list. rewrite (iter_len R H). unfold range_len. fold n.
  destruct Hx as [Ex Hx]. destruct Hy as [Ey Hy]. rewrite <- Ex, <- Ey.
  unfold range_iter, pr_iter. fold n.
  rewrite skipn_iter by lia. rewrite firstn_iter by lia.
  f_equal.
  - unfold R', pr_item; cbn. f_equal. f_equal. lia.
  - rewrite (pr_len_wf R' HR'). unfold R', pr_item; cbn [r_step r_start r_stop].
    destruct H as [H|H]; rewrite H; lia.
Qed.

(** Sequence.index with explicit bounds. *)
Lemma seq_index_loop_spec R v (HR : wf R) : forall fuel i stop,
  0 <= i -> Z.of_nat fuel = Z.max 0 (range_len R - i) ->
  (forall k, seq_index_loop (range_getitem R) v i stop fuel = Ok k <->
     i <= k < stop /\ nth_error (range_iter R) (Z.to_nat k) = Some v) /\
  (seq_index_loop (range_getitem R) v i stop fuel = Err ValueError <->
     forall k, i <= k < stop -> nth_error (range_iter R) (Z.to_nat k) <> Some v).
Proof.
  induction fuel as [|fuel IH]; intros i stop Hi Hf; cbn [seq_index_loop].
  - assert (Hnone : forall k, i <= k -> nth_error (range_iter R) (Z.to_nat k) = None).
    { intros k Hk. apply nth_error_None. pose proof (iter_len R HR). lia. }
    split.
    + intro k. split; [discriminate|]. intros [Hk Hn]. rewrite Hnone in Hn by lia. discriminate.
    + split; [|reflexivity]. intros _ k Hk. rewrite Hnone by lia. discriminate.
  - destruct (Z.ltb_spec i stop) as [Hlt|Hge].
    2: { split; [intro k; split; [discriminate|intros [? _]; lia]|].
         split; [intros _ k Hk; lia|reflexivity]. }
    assert (Hg : range_getitem R i = Ok (pr_item R i)).
    { rewrite (getitem_spec R i HR). rewrite (iter_len R HR). unfold py_pos.
      destruct (Z.leb_spec 0 i); [|lia]. destruct (Z.ltb_spec i (range_len R)); [|lia].
      cbn [andb]. rewrite iter_nth by (auto; lia). reflexivity. }
    rewrite Hg.
    assert (Hin : nth_error (range_iter R) (Z.to_nat i) = Some (pr_item R i))
      by (apply iter_nth; auto; lia).
    destruct (Z.eqb_spec (pr_item R i) v) as [E|E].
    + split.
      * intro k. split.
        -- intro K; injection K as <-. split; [lia|]. congruence.
        -- intros [Hk Hn]. f_equal.
           assert (Z.to_nat k = Z.to_nat i); [|lia].
           apply (iter_inj R _ _ v HR); congruence.
      * split; [discriminate|]. intro K. exfalso. apply (K i); [lia|]. congruence.
    + destruct (IH (i + 1) stop) as [I1 I2]; [lia|lia|]. split.
      * intro k. rewrite I1. split; intros [Hk Hn]; (split; [|exact Hn]); [lia|].
        assert (k <> i) by (intros ->; congruence). lia.
      * rewrite I2. split; intros K k Hk.
        -- destruct (Z.eq_dec k i) as [->|]; [congruence|]. apply K. lia.
        -- apply K. lia.
Qed.

Lemma index_window R v a b : wf R -> 0 <= a -> 0 <= b ->
  (forall k, range_index R v (Some a) (Some b) = Ok k <->
     a <= k < b /\ nth_error (range_iter R) (Z.to_nat k) = Some v) /\
  (range_index R v (Some a) (Some b) = Err ValueError <->
     forall k, a <= k < b -> nth_error (range_iter R) (Z.to_nat k) <> Some v).
Proof.
  intros H Ha Hb. cbn [range_index]. unfold seq_index.
  destruct (Z.ltb_spec a 0); [lia|]. destruct (Z.ltb_spec b 0); [lia|].
  apply seq_index_loop_spec; [exact H|exact Ha|].
  pose proof (pr_len_nonneg R H). unfold range_len. lia.
Qed.

(** * The statements used by RangeProps.v *)

(** A Range object is whatever the constructor returns. *)
Definition is_range (R : Range) : Prop := exists l d r, mk_range l d r = Ok R.

Lemma is_range_wf R : is_range R <-> wf R.
Proof.
  split.
  - intros (l & d & r & H). eapply mk_range_wf; eauto.
  - intro H. pose proof (from_range_wf R H) as E. unfold from_range in E.
    destruct (step_to_direction (r_step R)) as [d|e]; cbn [bind] in E; [|discriminate].
    eexists _, _, _. exact E.
Qed.

Lemma range_labels_pf l s d r : lower s = dir_name d ->
  exists R, mk_range l (DStr s) (Some r) = Ok R /\
    range_iter R = span l d r /\
    range_reversed R = rev (span l d r) /\
    range_len R = Z.of_nat (length (span l d r)) /\
    left_of R = l /\ right_of R = r /\ direction_of R = Ok (dir_name d).
Proof.
  intro H. rewrite (mk_range_str l s r d H). eexists. split; [reflexivity|].
  set (R := PyRange _ _ _).
  assert (HR : wf R) by (unfold R, wf; destruct d; cbn; auto).
  assert (Hl : left_of R = l) by reflexivity.
  assert (Hr : right_of R = r) by (unfold R, right_of; destruct d; cbn [r_stop r_step]; lia).
  assert (Hd : dir_of R = d) by (unfold R, dir_of; destruct d; reflexivity).
  assert (Hi : range_iter R = span l d r) by (rewrite (iter_wf R HR); congruence).
  repeat split; auto.
  - rewrite (iter_rev R HR). congruence.
  - rewrite <- (iter_len R HR). congruence.
  - rewrite (direction_wf R HR). congruence.
Qed.

Lemma span_endpoints l d r : span l d r <> [] ->
  hd_error (span l d r) = Some l /\ last (span l d r) l = r.
Proof.
  intro H. assert (Hn : (0 < length (span l d r))%nat)
    by (destruct (span l d r); [congruence|cbn; lia]).
  split.
  - destruct d; cbn [span] in *;
      [rewrite <- iter_from_up in * | rewrite <- iter_from_down in *];
      rewrite iter_from_length in Hn; destruct (Z.to_nat _); cbn in *; try lia; reflexivity.
  - destruct d; cbn [span] in *;
      [rewrite <- iter_from_up in * | rewrite <- iter_from_down in *];
      rewrite iter_from_length in Hn.
    + set (n := Z.to_nat (r - l + 1)) in *.
      replace n with ((n - 1) + 1)%nat by lia. rewrite iter_from_app. cbn [pr_iter_from]. rewrite last_last. lia.
    + set (n := Z.to_nat (l - r + 1)) in *.
      replace n with ((n - 1) + 1)%nat by lia. rewrite iter_from_app. cbn [pr_iter_from]. rewrite last_last. lia.
Qed.

Lemma span_facts_pf l d r :
  NoDup (span l d r) /\
  (forall v, In v (span l d r) <-> match d with To => l <= v <= r | Downto => r <= v <= l end) /\
  (span l d r <> [] -> hd_error (span l d r) = Some l /\ last (span l d r) l = r) /\
  (forall p v w, nth_error (span l d r) p = Some v -> nth_error (span l d r) (S p) = Some w ->
     w = match d with To => v + 1 | Downto => v - 1 end).
Proof.
  split; [apply span_nodup|]. split; [intro v; apply span_in|].
  split; [apply span_endpoints|].
  intros p v w Hv Hw.
  assert (Hpl : (S p < length (span l d r))%nat) by (apply nth_error_Some; congruence).
  destruct d; cbn [span] in *;
    [rewrite <- iter_from_up in * | rewrite <- iter_from_down in *];
    rewrite iter_from_length in Hpl; rewrite iter_from_nth in Hv by lia;
    rewrite iter_from_nth in Hw by lia; injection Hv as <-; injection Hw as <-; lia.
Qed.

Lemma range_getitem_pf R i : is_range R ->
  range_getitem R i =
  match py_pos (range_len R) i with
  | Some p => match nth_error (range_iter R) p with Some v => Ok v | None => Err IndexError end
  | None => Err IndexError
  end.
Proof. intro H. apply is_range_wf in H. rewrite <- (iter_len R H). now apply getitem_spec. Qed.

Lemma range_getitem_total_pf R i : is_range R -> - range_len R <= i < range_len R ->
  exists v, range_getitem R i = Ok v.
Proof.
  intros H Hi. apply is_range_wf in H. rewrite (getitem_spec R i H), (iter_len R H).
  assert (E : exists p, py_pos (range_len R) i = Some p /\ (p < length (range_iter R))%nat).
  { pose proof (iter_len R H). unfold py_pos.
    destruct (Z.leb_spec 0 i); cbn [andb].
    - destruct (Z.ltb_spec i (range_len R)); [|lia]. eexists; split; [reflexivity|lia].
    - destruct (Z.leb_spec (- range_len R) i); [|lia]. destruct (Z.ltb_spec i 0); [|lia].
      eexists; split; [reflexivity|lia]. }
  destruct E as (p & -> & Hp). destruct (nth_error (range_iter R) p) eqn:E; [eauto|].
  apply nth_error_None in E. lia.
Qed.

Lemma range_contains_pf R v : is_range R ->
  (range_contains R v = true <-> In v (range_iter R)).
Proof. intro H. apply is_range_wf in H. now apply contains_in. Qed.

Lemma range_index_pf R v : is_range R ->
  match range_index R v None None with
  | Ok i => 0 <= i < range_len R /\ range_getitem R i = Ok v
  | Err e => e = ValueError /\ range_contains R v = false
  end.
Proof.
  intro H. apply is_range_wf in H.
  destruct (range_index R v None None) as [i|e] eqn:E.
  - apply (index_spec R v i H) in E. destruct E as [Hi Hn].
    assert (Hl : (Z.to_nat i < length (range_iter R))%nat) by (apply nth_error_Some; congruence).
    pose proof (iter_len R H). split; [lia|].
    rewrite (getitem_spec R i H), (iter_len R H). unfold py_pos.
    destruct (Z.leb_spec 0 i); [|lia]. destruct (Z.ltb_spec i (range_len R)); [|lia]. cbn [andb].
    now rewrite Hn.
  - cbn [range_index] in E. unfold pr_index in E. unfold range_contains.
    destruct (pr_contains R v); [discriminate|]. injection E as <-. auto.
Qed.

Lemma range_index_getitem_pf R i v : is_range R -> 0 <= i ->
  range_getitem R i = Ok v -> range_index R v None None = Ok i.
Proof.
  intros H Hi E. apply is_range_wf in H. apply (index_spec R v i H). split; [exact Hi|].
  rewrite (getitem_spec R i H) in E. unfold py_pos in E.
  destruct (Z.leb_spec 0 i); [|lia]. cbn [andb] in E.
  destruct (Z.ltb_spec i (Z.of_nat (length (range_iter R)))).
  - destruct (nth_error _ _); congruence.
  - destruct (Z.ltb_spec i 0); [lia|]. rewrite andb_false_r in E. discriminate.
Qed.

Lemma range_inferred_pf l r :
  exists R, mk_range l (DInt r) None = Ok R /\ mk_range l DNone (Some r) = Ok R /\
    left_of R = l /\ right_of R = r /\ 0 < range_len R /\
    direction_of R = Ok (dir_name (if l <=? r then To else Downto)).
Proof.
  cbn [mk_range]. eexists. split; [reflexivity|]. split; [reflexivity|].
  unfold guess_step.
  assert (W : wf (PyRange l (r + (if l <=? r then 1 else -1)) (if l <=? r then 1 else -1)))
    by (unfold wf; destruct (l <=? r); cbn; auto).
  unfold left_of, right_of, range_len. rewrite (pr_len_wf _ W). rewrite (direction_wf _ W).
  cbn [r_start r_stop r_step]. unfold dir_of; cbn [r_step].
  destruct (Z.leb_spec l r); repeat split; try lia.
Qed.

Lemma range_bad_direction_pf l s r :
  (forall d, lower s <> dir_name d) -> mk_range l (DStr s) (Some r) = Err ValueError.
Proof.
  intro H. cbn [mk_range]. destruct (direction_to_step s) as [k|e] eqn:E.
  - apply direction_to_step_ok in E. destruct E as [[E _]|[E _]]; destruct (H _ E).
  - unfold direction_to_step in E.
    destruct (pystr_eqb _ _); [discriminate|]. destruct (pystr_eqb _ _); [discriminate|].
    injection E as <-. reflexivity.
Qed.

Lemma range_conversion_pf r :
  match from_range r with
  | Ok R => is_range R /\ to_range R = r
  | Err e => e = ValueError /\ r_step r <> 1 /\ r_step r <> -1
  end.
Proof.
  destruct (Z.eq_dec (r_step r) 1) as [E|N]; [|destruct (Z.eq_dec (r_step r) (-1)) as [E|N2]].
  - rewrite from_range_wf by (left; exact E). split; [|reflexivity]. apply is_range_wf. now left.
  - rewrite from_range_wf by (right; exact E). split; [|reflexivity]. apply is_range_wf. now right.
  - rewrite from_range_not_wf by (intros [?|?]; auto). auto.
Qed.

Lemma range_roundtrip_pf R : is_range R -> from_range (to_range R) = Ok R /\ range_copy R = Ok R.
Proof. intro H. apply is_range_wf in H. unfold range_copy, to_range. split; now apply from_range_wf. Qed.

Lemma range_slice_pf R a b : is_range R ->
  exists R', range_slice R (PySlice a b None) = Ok R' /\
             range_slice R (PySlice a b (Some 1)) = Ok R' /\ is_range R' /\
             direction_of R' = direction_of R /\
             range_iter R' = slice_list (range_iter R) a b.
Proof.
  intro H. apply is_range_wf in H.
  destruct (slice_spec R a b None H) as (R' & E & W & S & I); [auto|].
  exists R'. split; [exact E|]. split; [exact E|]. split; [now apply is_range_wf|].
  split; [|exact I]. unfold direction_of. now rewrite S.
Qed.

Lemma range_eq_pf A B : is_range A -> is_range B ->
  (range_eqb A B = true <-> range_iter A = range_iter B).
Proof. intros HA HB. apply is_range_wf in HA. apply is_range_wf in HB. now apply eqb_iter. Qed.

Lemma range_index_window_pf R v a b : is_range R -> 0 <= a -> 0 <= b ->
  (forall k, range_index R v (Some a) (Some b) = Ok k <->
     a <= k < b /\ range_index R v None None = Ok k) /\
  ((forall k, range_index R v None None = Ok k -> ~ a <= k < b) ->
   range_index R v (Some a) (Some b) = Err ValueError).
Proof.
  intros H Ha Hb. apply is_range_wf in H. destruct (index_window R v a b H Ha Hb) as [I1 I2].
  split.
  - intro k. rewrite I1, (index_spec R v k H). split; intros [K1 K2]; repeat split; auto; try tauto; lia.
  - intro K. apply I2. intros k Hk Hn. apply (K k); [|exact Hk].
    apply (index_spec R v k H). split; [lia|exact Hn].
Qed.

(** Proofs for C44-C48. *)
From Coq Require Import Sorted Permutation.
From Verif Require Import Base TextModel RegressionModel RegressionSpec.
Open Scope Z_scope.

(** * Selection *)
Lemma insert_in t l x : In x (insert_stage t l) <-> x = t \/ In x l.
Proof. induction l as [|u l IH]; cbn; [intuition|]. destruct (t_stage t <=? t_stage u); cbn; [intuition|]. rewrite IH. intuition. Qed.
Lemma insert_sorted t l : StronglySorted (fun t u => t_stage t <= t_stage u) l ->
  StronglySorted (fun t u => t_stage t <= t_stage u) (insert_stage t l).
Proof.
  induction 1 as [|u l S IH F]; cbn; [repeat constructor|]. destruct (Z.leb_spec (t_stage t) (t_stage u)).
  - constructor; [constructor; assumption|]. constructor; [assumption|]. eapply Forall_impl; [|exact F]. cbv beta. lia.
  - constructor; [exact IH|]. apply Forall_forall. intros x I. apply insert_in in I as [->|I]; [lia|].
    rewrite Forall_forall in F. auto.
Qed.
Lemma sort_sorted l : StronglySorted (fun t u => t_stage t <= t_stage u) (sort_stages l).
Proof. induction l; cbn; [constructor|]. now apply insert_sorted. Qed.
Lemma insert_stage_of k t l : of_stage k (insert_stage t l) = of_stage k (t :: l).
Proof.
  induction l as [|u l IH]; [reflexivity|]. cbn [insert_stage]. destruct (Z.leb_spec (t_stage t) (t_stage u)); [reflexivity|].
  unfold of_stage in *. cbn [filter] in *. rewrite IH.
  destruct (Z.eqb_spec (t_stage u) k), (Z.eqb_spec (t_stage t) k); try reflexivity. lia.
Qed.
Lemma sort_stage_of k l : of_stage k (sort_stages l) = of_stage k l.
Proof.
  induction l as [|t l IH]; [reflexivity|]. cbn [sort_stages fold_right]. fold (sort_stages l). rewrite insert_stage_of.
  unfold of_stage in *. cbn [filter]. rewrite IH. reflexivity.
Qed.
Lemma filter_filter {A} (f g : A -> bool) l : filter f (filter g l) = filter g (filter f l).
Proof.
  induction l as [|x l IH]; cbn; [reflexivity|].
  destruct (g x) eqn:G; cbn; destruct (f x) eqn:F; cbn; rewrite ?G, IH; reflexivity.
Qed.
Lemma filter_sorted {A} (R : A -> A -> Prop) f l : StronglySorted R l -> StronglySorted R (filter f l).
Proof.
  induction 1 as [|x l S IH F]; cbn; [constructor|]. destruct (f x); [|exact IH]. constructor; [exact IH|].
  apply Forall_forall. intros y I. apply filter_In in I as [I _]. rewrite Forall_forall in F. auto.
Qed.
Lemma apply_filters_eq c l : apply_filters c l = filter (included c) l.
Proof.
  unfold apply_filters, included. destruct (c_filters c) as [|f fs]; cbn [length Nat.eqb orb]; [|reflexivity].
  induction l; cbn; [reflexivity|now rewrite <- IHl].
Qed.
Lemma selection_pf c l : selection c l (apply_filters c (sort_stages l)).
Proof.
  rewrite apply_filters_eq. split; [apply filter_sorted, sort_sorted|]. intro k. unfold of_stage.
  rewrite filter_filter. fold (of_stage k (sort_stages l)). rewrite sort_stage_of. unfold of_stage. apply filter_filter.
Qed.
Lemma selection_unique c l sel sel' : selection c l sel -> selection c l sel' -> sel = sel'.
Proof.
  intros [S E] [S' E']. assert (H : forall k, of_stage k sel = of_stage k sel') by (intro; now rewrite E, E').
  clear E E'. revert sel' S' H. induction S as [|t l0 S IH F]; intros sel' S' H.
  - destruct sel' as [|u sel']; [reflexivity|]. specialize (H (t_stage u)). unfold of_stage in H. cbn in H.
    rewrite Z.eqb_refl in H. discriminate.
  - destruct sel' as [|u sel'].
    { specialize (H (t_stage t)). unfold of_stage in H. cbn in H. rewrite Z.eqb_refl in H. discriminate. }
    inversion S' as [|? ? S2 F2]; subst.
    assert (Et : t_stage t = t_stage u).
    { assert (In t (of_stage (t_stage t) (u :: sel'))).
      { rewrite <- H. unfold of_stage. cbn. rewrite Z.eqb_refl. now left. }
      assert (In u (of_stage (t_stage u) (t :: l0))).
      { rewrite H. unfold of_stage. cbn. rewrite Z.eqb_refl. now left. }
      unfold of_stage in *. apply filter_In in H0 as [I1 _], H1 as [I2 _]. rewrite Forall_forall in F, F2.
      destruct I1 as [->|I1]; [reflexivity|]. destruct I2 as [->|I2]; [reflexivity|].
      specialize (F _ I2). specialize (F2 _ I1). cbv beta in F, F2. lia. }
    assert (t = u).
    { specialize (H (t_stage t)). unfold of_stage in H. cbn in H. rewrite Z.eqb_refl, <- Et, Z.eqb_refl in H.
      now injection H. }
    subst u. f_equal. apply IH; [assumption|]. intro k. specialize (H k). unfold of_stage in *. cbn in H.
    destruct (t_stage t =? k); [now injection H|exact H].
Qed.
Lemma insert_perm t m : Permutation (insert_stage t m) (t :: m).
Proof.
  induction m as [|u m IH]; cbn [insert_stage]; [auto|]. destruct (t_stage t <=? t_stage u); [auto|].
  rewrite IH. apply perm_swap.
Qed.
Lemma selection_perm c l sel : selection c l sel -> Permutation sel (filter (included c) l).
Proof.
  intro H. rewrite (selection_unique c l _ _ H (selection_pf c l)), apply_filters_eq.
  assert (P : Permutation (sort_stages l) l).
  { clear. induction l as [|t l IH]; cbn [sort_stages fold_right]; [constructor|]. fold (sort_stages l).
    transitivity (t :: sort_stages l); [apply insert_perm|now constructor]. }
  clear H. induction P; cbn; auto.
  - destruct (included c x); auto.
  - destruct (included c x), (included c y); auto using perm_swap.
  - etransitivity; eassumption.
Qed.

(** * Scoring *)
Lemma matched_iff c e l : matched c e l = true <-> exists m, In (EMatcher m) l /\ c_matches c m e = true.
Proof.
  unfold matched. rewrite existsb_exists. split.
  - intros ([k|m] & I & H); [discriminate|eauto].
  - intros (m & I & H). exists (EMatcher m). auto.
Qed.
Lemma expected_type_iff c e l : is_expected_type c e l = true <-> exists k, In (EType k) l /\ c_sub c (x_cls e) k = true.
Proof.
  unfold is_expected_type. rewrite existsb_exists. split.
  - intros ([k|m] & I & H); [eauto|discriminate].
  - intros (m & I & H). exists (EType m). auto.
Qed.
Lemma failure_iff c e : is_failure c e = true <-> failed_check c e.
Proof. unfold is_failure, failed_check, isinstance. now rewrite orb_true_iff. Qed.

Lemma score_pf c t r :
  (score c t r = VSkipped <-> exists e, r = Some e /\ forces c e cSkip) /\
  (score c t r = VPassed <->
     (r = None /\ t_expect_error t = [] /\ t_expect_fail t = false) \/
     exists e, r = Some e /\ forces c e cSuccess /\ ~ forces c e cSkip /\ ~ forces c e cXfail) /\
  (score c t r = VXfailed <-> exists e, r = Some e /\ ~ forces c e cSkip /\
     (forces c e cXfail \/
      (~ forces c e cSuccess /\
       (expects_error c t e \/ (t_expect_error t = [] /\ t_expect_fail t = true /\ failed_check c e))))) /\
  ((exists m, score c t r = VFailed m) <->
     (r = None /\ (t_expect_error t <> [] \/ t_expect_fail t = true)) \/
     exists e, r = Some e /\ ~ forces c e cSkip /\ ~ forces c e cXfail /\ ~ forces c e cSuccess /\
       ~ expects_error c t e /\ (t_expect_error t = [] -> t_expect_fail t = true -> ~ failed_check c e)).
Proof.
  assert (X : forall e, expects_error c t e <-> matched c e (t_expect_error t) || is_expected_type c e (t_expect_error t) = true).
  { intro e. unfold expects_error. rewrite orb_true_iff, matched_iff, expected_type_iff. tauto. }
  assert (XN : forall e, t_expect_error t = [] -> ~ expects_error c t e).
  { intros e E [(m & I & _)|(m & I & _)]; rewrite E in I; contradiction. }
  destruct r as [e|]; cbn.
  - assert (R : forall P : exc -> Prop, (exists e0, Some e = Some e0 /\ P e0) <-> P e).
    { intro P. split; [intros (e0 & [= <-] & H); exact H|eauto]. }
    rewrite !R. specialize (X e). specialize (XN e). rewrite <- (failure_iff c e) in *. unfold forces.
    unfold isinstance in *.
    destruct (c_sub c (x_cls e) cSkip); [intuition (try discriminate); match goal with X : exists _, _ |- _ => destruct X; discriminate end|].
    destruct (c_sub c (x_cls e) cXfail); [intuition (try discriminate); match goal with X : exists _, _ |- _ => destruct X; discriminate end|].
    destruct (c_sub c (x_cls e) cSuccess); [intuition (try discriminate); match goal with X : exists _, _ |- _ => destruct X; discriminate end|].
    destruct (t_expect_error t) as [|x l] eqn:EE.
    + destruct (t_expect_fail t); [destruct (is_failure c e)|]; intuition (try discriminate; eauto);
        match goal with X : exists _, _ |- _ => destruct X; discriminate end.
    + destruct (matched c e (x :: l)); [cbn [orb] in X; intuition (try discriminate); match goal with X : exists _, _ |- _ => destruct X; discriminate end|].
      cbn [orb] in X. destruct (is_expected_type c e (x :: l)); [intuition (try discriminate); match goal with X : exists _, _ |- _ => destruct X; discriminate end|].
      destruct (is_failure c e); intuition (try discriminate; eauto); discriminate.
  - assert (R : forall P : exc -> Prop, (exists e0, @None exc = Some e0 /\ P e0) <-> False).
    { intros P. split; [intros (e0 & [=] & _)|contradiction]. }
    rewrite !R. clear R X XN.
    destruct (t_expect_error t) as [|x l]; [destruct (t_expect_fail t)|]; intuition (try discriminate; eauto);
      try (match goal with X : exists _, _ |- _ => destruct X; discriminate end).
Qed.

(** * The invariant *)
Lemma how_many_app o l e : how_many o (l ++ [e]) = how_many o l + (if outcome_eqb (r_outcome e) o then 1 else 0).
Proof.
  unfold how_many. rewrite filter_app, app_length, Nat2Z.inj_add. cbn. destruct (outcome_eqb (r_outcome e) o); reflexivity.
Qed.
Lemma with_status_app o l e : with_status o (l ++ [e]) = with_status o l + (if status_eqb (r_status e) o then 1 else 0).
Proof.
  unfold with_status. rewrite filter_app, app_length, Nat2Z.inj_add. cbn. destruct (status_eqb (r_status e) o); reflexivity.
Qed.

(** Where an entry comes from. *)
Definition explained (c : cfg) (e : entry) : Prop :=
  (marked_skip c (r_test e) = true /\ e = Entry (r_test e) OSkip SSkipped MNone) \/
  (marked_skip c (r_test e) = false /\ t_init (r_test e) = false /\ e = Entry (r_test e) OFail SError MNone) \/
  (marked_skip c (r_test e) = false /\ exists r, e = entry_of c (r_test e) (score c (r_test e) r)).

Record core (c : cfg) (s : state) : Prop := {
  k_count : s_count s = 1 + Z.of_nat (length (s_results s));
  k_passed : s_passed s = how_many OPass (s_results s);
  k_failed : s_failures s = how_many OFail (s_results s);
  k_skipped : s_skipped s = how_many OSkip (s_results s);
  k_xfailed : s_xfailed s = how_many OXfail (s_results s);
  k_seeds : Forall (fun x => let '(t, seed, r, v) := x in
              seed = c_seed c + c_hash c (t_fullname t) /\ r = c_seeded c seed /\ v = c_seeded c seed) (s_starts s);
  k_explained : Forall (explained c) (s_results s);
  k_max : s_terminated s = None -> 0 < c_max_failures c ->
            with_status SFailed (s_results s) < c_max_failures c /\
            (with_status SError (s_results s) = 0 -> s_failures s < c_max_failures c);
  k_term : s_ended s = false -> forall e, s_terminated s = Some e ->
            e = Exc cTerminated [] /\ 0 < c_max_failures c <= s_failures s;
  k_end : s_ended s = true -> s_terminated s = Some (Exc cSimFailure []) }.

Definition late (c : cfg) (s : state) (e : entry) : Prop :=
  exists x, s_terminated s = Some x /\ e = ended_entry c x (r_test e).

Record pre (c : cfg) (sel q : list test) (s : state) : Prop := {
  p_core : core c s;
  p_acc : recorded s ++ q = sel;
  p_queue : s_queue s = q;
  p_total : s_total s = Z.of_nat (length sel);
  p_phase : s_phase s <> PDown;
  p_file : s_file s = None /\ s_stopped s = false;
  p_starts : exists R1 R2, s_results s = R1 ++ R2 /\ started s = filter (runnable c) (map r_test R1) /\
               (s_terminated s = None -> R2 = []) /\ Forall (late c s) R2 }.

Record good (c : cfg) (sel : list test) (s : state) : Prop := {
  g_core : core c s;
  g_acc : recorded s ++ running s ++ waiting s ++ s_queue s = sel;
  g_total : s_total s = Z.of_nat (length sel);
  g_phase : match s_phase s with
            | PNew => False
            | PGap | PRun => exists t, s_cur s = Some t /\ runnable c t = true /\ (s_ended s = false -> s_terminated s = None) /\ s_first s = false
            | PDown => s_queue s = []
            end;
  g_file : match s_phase s with
           | PDown => s_file s = Some (s_results s) /\ s_stopped s = true
           | _ => s_file s = None /\ s_stopped s = false
           end;
  g_starts : exists R1 R2, s_results s = R1 ++ R2 /\ started s = filter (runnable c) (map r_test R1) ++ running s /\
               (s_terminated s = None -> R2 = []) /\ (s_phase s <> PDown -> R2 = []) /\ Forall (late c s) R2 }.

(** Recording an entry. *)
Lemma core_record c s t o st m : core c s -> explained c (Entry t o st m) ->
  (o = OFail <-> st = SFailed \/ st = SError) ->
  (s_terminated s = None -> 0 < c_max_failures c -> st = SFailed -> s_failures s + 1 < c_max_failures c) ->
  core c (record s t o st m).
Proof.
  intros K X FO H. destruct K. constructor; cbn -[with_status how_many Z.add Z.of_nat].
  - rewrite app_length. cbn [length]. lia.
  - rewrite how_many_app. cbn -[with_status how_many Z.add Z.of_nat]. rewrite k_passed0. destruct o; reflexivity.
  - rewrite how_many_app. cbn -[with_status how_many Z.add Z.of_nat]. rewrite k_failed0. destruct o; reflexivity.
  - rewrite how_many_app. cbn -[with_status how_many Z.add Z.of_nat]. rewrite k_skipped0. destruct o; reflexivity.
  - rewrite how_many_app. cbn -[with_status how_many Z.add Z.of_nat]. rewrite k_xfailed0. destruct o; reflexivity.
  - exact k_seeds0.
  - apply Forall_app. split; [assumption|]. now constructor.
  - intros T M. destruct (k_max0 T M) as [A B]. rewrite !with_status_app. cbn -[with_status how_many Z.add Z.of_nat].
    assert (CB : with_status SFailed (s_results s) <= how_many OFail (s_results s)).
    { unfold with_status, how_many. apply inj_le. clear - k_explained0.
      induction k_explained0 as [|e l E F IH]; cbn; [lia|].
      assert (status_eqb (r_status e) SFailed = true -> outcome_eqb (r_outcome e) OFail = true).
      { destruct E as [[_ ->]|[(_ & _ & ->)|(_ & r & ->)]]; cbn; try discriminate.
        destruct (score c (r_test e) r); cbn; try discriminate; try reflexivity. destruct (c_xfail_shown c); discriminate. }
      destruct (status_eqb (r_status e) SFailed); [rewrite (H eq_refl)|destruct (outcome_eqb _ _)]; cbn; lia. }
    assert (P : 0 <= with_status SError (s_results s)) by (unfold with_status; lia).
    split.
    + destruct st; cbn -[with_status how_many Z.add Z.of_nat]; try lia. specialize (H T M eq_refl). lia.
    + intro Z0. destruct st; cbn -[with_status how_many Z.add Z.of_nat] in Z0.
      * specialize (B ltac:(lia)). destruct o; try lia. destruct FO as [FO _]. destruct (FO eq_refl); discriminate.
      * lia.
      * specialize (B ltac:(lia)). destruct o; try lia. destruct FO as [FO _]. destruct (FO eq_refl); discriminate.
      * specialize (B ltac:(lia)). destruct o; try lia. destruct FO as [FO _]. destruct (FO eq_refl); discriminate.
      * specialize (H T M eq_refl). destruct o; lia.
  - intros E e T. destruct (k_term0 E e T) as [-> ?]. split; [reflexivity|]. destruct o; lia.
  - exact k_end0.
Qed.

Lemma entry_explained c t r : marked_skip c t = false -> explained c (entry_of c t (score c t r)).
Proof.
  intro M. right. right. assert (E : r_test (entry_of c t (score c t r)) = t).
  { unfold entry_of. destruct (score c t r); try reflexivity. destruct (c_xfail_shown c); reflexivity. }
  rewrite E. split; [exact M|]. exists r. reflexivity.
Qed.
Lemma core_failed c s t m : core c s -> explained c (Entry t OFail SFailed m) -> core c (record_failed c s t m).
Proof.
  intros K X. unfold record_failed. cbn [s_terminated record].
  destruct (s_terminated s) as [e|] eqn:T.
  - apply core_record; auto; [tauto|]. intro. congruence.
  - destruct ((0 <? c_max_failures c) && (c_max_failures c <=? s_failures (record s t OFail SFailed m))) eqn:B.
    + apply andb_true_iff in B as [B1 B2]. apply Z.ltb_lt in B1. apply Z.leb_le in B2. cbn in B2.
      destruct K. constructor; cbn -[with_status how_many Z.add Z.of_nat].
      * rewrite app_length. cbn [length]. lia.
      * rewrite how_many_app. cbn -[with_status how_many Z.add Z.of_nat]. lia.
      * rewrite how_many_app. cbn -[with_status how_many Z.add Z.of_nat]. lia.
      * rewrite how_many_app. cbn -[with_status how_many Z.add Z.of_nat]. lia.
      * rewrite how_many_app. cbn -[with_status how_many Z.add Z.of_nat]. lia.
      * exact k_seeds0.
      * apply Forall_app. split; [assumption|]. now constructor.
      * discriminate.
      * intros E e [= <-]. split; [reflexivity|lia].
      * intro E. rewrite (k_end0 E) in T. discriminate.
    + apply core_record; auto; [tauto|]. intros _ M _. apply andb_false_iff in B.
      cbn -[Z.add] in B. rewrite Z.ltb_ge, Z.leb_gt in B. lia.
Qed.
Lemma core_score c s t r : core c s -> marked_skip c t = false -> core c (score_test c s t r).
Proof.
  intros K M. pose proof (entry_explained c t r M) as X. unfold score_test, entry_of in *.
  destruct (score c t r) as [| | |m]; try (apply core_failed; assumption);
    try (destruct (c_xfail_shown c)); apply core_record; auto; try (intuition discriminate); try discriminate.
Qed.
Lemma score_fields c s t r : let s' := score_test c s t r in
  s_results s' = s_results s ++ [entry_of c t (score c t r)] /\ s_queue s' = s_queue s /\ s_cur s' = s_cur s /\
  s_phase s' = s_phase s /\ s_first s' = s_first s /\ s_file s' = s_file s /\ s_stopped s' = s_stopped s /\
  s_ended s' = s_ended s /\ s_starts s' = s_starts s /\ s_total s' = s_total s /\ s_random s' = s_random s /\
  s_resolver s' = s_resolver s /\ s_seed s' = s_seed s /\ s_saved s' = s_saved s /\
  (s_terminated s' = s_terminated s \/ (s_terminated s = None /\ s_terminated s' = Some (Exc cTerminated []))).
Proof.
  cbv zeta. unfold score_test, entry_of, record_failed.
  destruct (score c t r) as [| | |m]; [| destruct (c_xfail_shown c)| |]; try (cbn; repeat split; auto; fail).
  cbn [s_terminated record]. destruct (s_terminated s) eqn:T; [cbn; repeat split; auto|].
  destruct (_ && _); cbn; repeat split; auto.
Qed.
Lemma entry_test c t r : r_test (entry_of c t (score c t r)) = t.
Proof. unfold entry_of. destruct (score c t r); try reflexivity. destruct (c_xfail_shown c); reflexivity. Qed.

Lemma late_same c s s' l : s_terminated s' = s_terminated s -> Forall (late c s) l -> Forall (late c s') l.
Proof. intros E F. eapply Forall_impl; [|exact F]. cbv beta. unfold late. rewrite E. auto. Qed.

Lemma set_cur_core c s q t : core c s -> core c (set_cur s q t).
Proof. intros []. constructor; assumption. Qed.

Lemma app_cons {A} (l : list A) x r : (l ++ [x]) ++ r = l ++ x :: r.
Proof. now rewrite <- app_assoc. Qed.

Lemma execute_good c sel : forall q s, pre c sel q s -> good c sel (execute c q s).
Proof.
  induction q as [|t q IH]; intros s P.
  - cbn [execute]. unfold tear_down. destruct P as [K A Q T F [F1 F2] (R1 & R2 & E & S & N & L)].
    destruct (s_phase s) eqn:Ph; try (now elim F);
    (constructor; cbn -[Z.of_nat];
     [destruct K; constructor; assumption|unfold recorded, running, waiting in *; cbn; rewrite Q; exact A|exact T|exact Q|auto|];
     exists R1, R2; unfold running; cbn; rewrite app_nil_r; repeat split; auto; try congruence;
     (eapply late_same; [|exact L]; reflexivity)).
  - cbn [execute]. destruct P as [K A Q T F [F1 F2] (R1 & R2 & E & S & N & L)].
    fold (marked_skip c t). destruct (marked_skip c t) eqn:MS.
    { apply IH. constructor; cbn [record set_cur s_queue s_total s_phase s_file s_stopped]; auto.
      - apply core_record; auto; [now apply set_cur_core| |intuition discriminate|intros; discriminate].
        left. cbn. auto.
      - unfold recorded in *. cbn. rewrite map_app. cbn. now rewrite app_cons.
      - cbn [record set_cur s_results s_terminated]. destruct (s_terminated s) as [x|] eqn:Tm.
        + exists R1, (R2 ++ [Entry t OSkip SSkipped MNone]). rewrite E, <- app_assoc. repeat split; auto; try congruence.
          apply Forall_app. split; [eapply late_same; [|exact L]; cbn; congruence|]. constructor; [|constructor].
          exists x. cbn. split; [exact Tm|]. unfold ended_entry. now rewrite MS.
        + rewrite (N eq_refl) in E. rewrite app_nil_r in E. exists (R1 ++ [Entry t OSkip SSkipped MNone]), [].
          rewrite E, app_nil_r. repeat split; auto. unfold started in *. cbn. rewrite S, map_app, filter_app. cbn [map r_test filter].
          assert (RF : runnable c t = false) by (unfold runnable; now rewrite MS). rewrite RF. now rewrite app_nil_r. }
    cbn [set_cur s_terminated]. destruct (s_terminated s) as [x|] eqn:Tm.
    { destruct (score_fields c (set_cur s q t) t (Some x)) as (B1&B2&B3&B4&B5&B6&B7&B8&B9&B10&_&_&_&_&B15).
      cbn [set_cur s_terminated] in B15. rewrite Tm in B15. destruct B15 as [B15|[? _]]; [|discriminate].
      apply IH. constructor; rewrite ?B4, ?B6, ?B7, ?B10; cbn [set_cur s_phase s_file s_stopped s_total]; auto.
      - apply core_score; [now apply set_cur_core|exact MS].
      - unfold recorded in *. rewrite B1, map_app. cbn [map set_cur s_results]. rewrite entry_test. now rewrite app_cons.
      - rewrite B1. exists R1, (R2 ++ [entry_of c t (score c t (Some x))]). cbn [set_cur s_results]. rewrite E, <- app_assoc.
        unfold started in *. rewrite B9. repeat split; auto; try congruence.
        apply Forall_app. split; [eapply late_same; [|exact L]; congruence|]. constructor; [|constructor].
        exists x. split; [exact B15|]. rewrite entry_test. unfold ended_entry. now rewrite MS. }
    rewrite (N eq_refl) in E. rewrite app_nil_r in E.
    destruct (t_init t) eqn:TI.
    2:{ apply IH. constructor; cbn [record set_cur s_queue s_total s_phase s_file s_stopped]; auto.
        - apply core_record; auto; [now apply set_cur_core| |intuition discriminate|intros; discriminate].
          right. left. cbn. auto.
        - unfold recorded in *. cbn. rewrite map_app. cbn. now rewrite app_cons.
        - cbn [record set_cur s_results s_terminated]. exists (R1 ++ [Entry t OFail SError MNone]), [].
          rewrite E, app_nil_r. repeat split; auto. unfold started in *. cbn. rewrite S, map_app, filter_app. cbn [map r_test filter].
          assert (RF : runnable c t = false) by (unfold runnable; now rewrite MS, TI). rewrite RF. now rewrite app_nil_r. }
    assert (RU : runnable c t = true) by (unfold runnable; now rewrite MS, TI).
    cbn [set_cur s_first]. destruct (s_first s); cbn [schedule_next_test set_phase set_cur].
    + constructor; cbn -[Z.of_nat].
      * destruct K. constructor; try assumption. cbn. apply Forall_app. split; [assumption|]. constructor; [auto|constructor].
      * unfold recorded, running, waiting in *. cbn. exact A.
      * exact T.
      * exists t. auto.
      * auto.
      * exists R1, []. rewrite app_nil_r. unfold started, running in *. cbn. rewrite map_app, S. cbn. repeat split; auto.
    + constructor; cbn -[Z.of_nat].
      * destruct K. constructor; assumption.
      * unfold recorded, running, waiting in *. cbn. exact A.
      * exact T.
      * exists t. auto.
      * auto.
      * exists R1, []. rewrite app_nil_r. unfold started, running in *. cbn. rewrite app_nil_r. repeat split; auto.
Qed.

(** Steps. *)
Lemma start_good c tests shuffled random r0 v0 :
  let s := start_regression c (initial c tests r0 v0) shuffled random in
  good c (apply_filters c (sort_stages shuffled)) s.
Proof.
  cbv zeta. apply execute_good. constructor; cbn -[Z.of_nat]; auto; try discriminate.
  - constructor; cbn; auto; try discriminate.
  - exists [], []. repeat split; auto.
Qed.

Lemma complete_pre c sel s t excs : good c sel s -> s_phase s = PRun -> s_cur s = Some t ->
  exists s1, test_complete c s t excs = execute c (s_queue s) s1 /\ pre c sel (s_queue s) s1 /\
    s_results s1 = s_results s ++ [entry_of c t (score c t (match s_terminated s with Some e => Some e | None => exception_of c excs end))] /\
    s_random s1 = fst (s_saved s) /\ s_resolver s1 = snd (s_saved s) /\ s_seed s1 = c_seed c /\
    (forall e, s_terminated s = Some e -> s_terminated s1 = Some e).
Proof.
  intros [K A T P F (R1 & R2 & E & S & N & ND & L)] Ph Cu. unfold test_complete. cbv zeta.
  match goal with |- context[score_test c ?x t _] => set (s0 := x) end.
  change (s_terminated s0) with (s_terminated s).
  set (r := match s_terminated s with Some e => Some e | None => exception_of c excs end).
  assert (K0 : core c s0) by (destruct K; constructor; assumption).
  destruct (score_fields c s0 t r) as (B1&B2&B3&B4&B5&B6&B7&B8&B9&B10&B11&B12&B13&B14&B15).
  rewrite Ph in P. destruct P as (t' & Cu' & RU & TN & FI). rewrite Cu in Cu'. injection Cu' as <-.
  assert (MS : marked_skip c t = false) by (unfold runnable in RU; destruct (marked_skip c t); [discriminate|reflexivity]).
  rewrite Ph in F. assert (R2 = []) by (apply ND; rewrite Ph; discriminate). subst R2. rewrite app_nil_r in E.
  exists (score_test c s0 t r). rewrite B2. split; [reflexivity|]. split; [|split; [|split; [|split; [|split]]]].
  - constructor; rewrite ?B4, ?B6, ?B7, ?B10; auto.
    + now apply core_score.
    + unfold recorded in *. rewrite B1, map_app, <- app_assoc. cbn [map app]. rewrite entry_test.
      change (s_results s0) with (s_results s). unfold running, waiting in A. rewrite Ph, Cu in A. exact A.
    + change (s_phase s0) with (s_phase s). rewrite Ph. discriminate.
    + exists (R1 ++ [entry_of c t (score c t r)]), []. rewrite B1, app_nil_r. unfold started. rewrite B9.
      split; [change (s_results s0) with (s_results s); now rewrite E|]. split; [|auto].
      unfold started in S. change (s_starts s0) with (s_starts s). rewrite S. unfold running. rewrite Ph, Cu.
      rewrite map_app, filter_app. cbn [map filter]. rewrite entry_test, RU. reflexivity.
  - rewrite B1. reflexivity.
  - rewrite B11. reflexivity.
  - rewrite B12. reflexivity.
  - rewrite B13. reflexivity.
  - intros e Te. destruct B15 as [B15|[B15 _]]; [rewrite B15; exact Te|].
    change (s_terminated s0) with (s_terminated s) in B15. congruence.
Qed.

Lemma step_good c sel s ev s' : good c sel s -> step c s ev = Some s' -> good c sel s'.
Proof.
  intros G H. destruct ev as [shuffled random| |random resolver seed|excs|]; cbn [step] in H.
  - destruct G as [_ _ _ P _ _]. destruct (s_phase s); [contradiction|discriminate..].
  - destruct (s_phase s) eqn:Ph; try discriminate. destruct (s_cur s) as [t|] eqn:Cu; [|discriminate].
    destruct (s_ended s) eqn:En; [discriminate|]. injection H as <-.
    destruct G as [K A T P F (R1 & R2 & E & S & N & ND & L)]. rewrite Ph in *.
    destruct P as (t' & Cu' & RU & TN & FI). rewrite Cu in Cu'. injection Cu' as <-.
    assert (R2 = []) by (apply ND; discriminate). subst R2.
    unfold schedule_next_test. constructor; cbn -[Z.of_nat].
    + destruct K. constructor; try assumption. cbn. apply Forall_app. split; [assumption|]. constructor; [auto|constructor].
    + unfold recorded, running, waiting in *. cbn. rewrite Ph, Cu in A. cbn in A. rewrite Cu. exact A.
    + exact T.
    + exists t. auto.
    + auto.
    + exists R1, []. unfold started, running in *. cbn. rewrite map_app, S, Ph, Cu. cbn. rewrite !app_nil_r in *. repeat split; auto.
  - injection H as <-. destruct G as [K A T P F (R1 & R2 & E & S & N & ND & L)].
    constructor; cbn -[Z.of_nat]; auto; [destruct K; constructor; assumption|].
    exists R1, R2. repeat split; auto.
  - destruct (s_phase s) eqn:Ph; try discriminate. destruct (s_cur s) as [t|] eqn:Cu; [|discriminate]. injection H as <-.
    destruct (complete_pre c sel s t excs G Ph Cu) as (s1 & -> & P & _). now apply execute_good.
  - assert (s' = on_sim_end s /\ s_ended s = false) as [-> En].
    { destruct (s_phase s); [discriminate|..]; destruct (s_ended s); try discriminate; injection H as <-; auto. }
    clear H. unfold on_sim_end. destruct (s_phase s) eqn:Ph; [destruct G as [_ _ _ P _ _]; rewrite Ph in P; contradiction| | |exact G].
    + destruct G as [K A T P F (R1 & R2 & E & S & N & ND & L)]. rewrite Ph in *.
      destruct P as (t & Cu & RU & TN & FI). assert (R2 = []) by (apply ND; discriminate). subst R2.
      constructor; cbn -[Z.of_nat]; rewrite ?Ph; auto.
      * destruct K. constructor; auto; cbn; try discriminate.
      * unfold recorded, running, waiting in *. cbn. rewrite Ph in A; try rewrite Ph. exact A.
      * exists t. split; [exact Cu|]. split; [exact RU|]. split; [discriminate|exact FI].
      * exists R1, []. unfold started, running in *. cbn. rewrite Ph in S; try rewrite Ph. repeat split; auto.
    + destruct G as [K A T P F (R1 & R2 & E & S & N & ND & L)]. rewrite Ph in *.
      destruct P as (t & Cu & RU & TN & FI). assert (R2 = []) by (apply ND; discriminate). subst R2.
      constructor; cbn -[Z.of_nat]; rewrite ?Ph; auto.
      * destruct K. constructor; auto; cbn; try discriminate.
      * unfold recorded, running, waiting in *. cbn. rewrite Ph in A; try rewrite Ph. exact A.
      * exists t. split; [exact Cu|]. split; [exact RU|]. split; [discriminate|exact FI].
      * exists R1, []. unfold started, running in *. cbn. rewrite Ph in S; try rewrite Ph. repeat split; auto.
Qed.

Lemma run_good c sel evs : forall s s', good c sel s -> run c s evs = Some s' -> good c sel s'.
Proof.
  induction evs as [|ev evs IH]; intros s s' G H; cbn in H; [now injection H as <-|].
  destruct (step c s ev) as [s1|] eqn:E; [|discriminate]. eapply IH; [eapply step_good; eassumption|exact H].
Qed.
Lemma reach_good c tests l s : reach c tests l s -> good c (apply_filters c (sort_stages l)) s.
Proof.
  intros (_ & r0 & v0 & random & evs & H). cbn [run step s_phase initial] in H. eapply run_good; [|exact H].
  apply start_good.
Qed.
Lemma reach_sel c tests l s sel : reach c tests l s -> selection c l sel -> good c sel s.
Proof. intros R S. rewrite (selection_unique c l _ _ S (selection_pf c l)). eapply reach_good; exact R. Qed.

Lemma runs_pf c sel s : good c sel s -> exists done rest, sel = done ++ rest /\ started s = filter (runnable c) done /\
  (s_phase s = PRun -> done = recorded s ++ running s) /\ (s_phase s = PGap -> done = recorded s) /\
  (s_phase s = PDown -> s_terminated s = None -> done = sel).
Proof.
  intros [K A T P F (R1 & R2 & E & S & N & ND & L)].
  destruct (s_phase s) eqn:Ph; [contradiction|..].
  - rewrite (ND ltac:(discriminate)) in E. rewrite app_nil_r in E.
    exists (recorded s), (waiting s ++ s_queue s). unfold running in *. rewrite Ph in *. cbn in A. rewrite app_nil_r in S.
    repeat split; try discriminate; auto. rewrite S. unfold recorded. now rewrite E.
  - rewrite (ND ltac:(discriminate)) in E. rewrite app_nil_r in E.
    destruct P as (t & Cu & RU & TN & FI). exists (recorded s ++ running s), (waiting s ++ s_queue s).
    repeat split; try discriminate; auto.
    + now rewrite <- app_assoc.
    + rewrite S. unfold recorded. rewrite E, filter_app. f_equal. unfold running. rewrite Ph, Cu. cbn. now rewrite RU.
  - exists (map r_test R1), (map r_test R2). unfold running, waiting, recorded in *. rewrite Ph in *. cbn in A. rewrite P in A.
    rewrite app_nil_r in *. rewrite E, map_app in A. repeat split; try discriminate; auto.
    intros _ T0. rewrite (N T0) in *. cbn in A. now rewrite app_nil_r in A.
Qed.

Lemma execute_ended c e : forall q s, s_terminated s = Some e -> s_phase s <> PDown ->
  let s' := execute c q s in s_results s' = s_results s ++ map (ended_entry c e) q /\ s_phase s' = PDown /\
    s_starts s' = s_starts s /\ s_random s' = s_random s /\ s_resolver s' = s_resolver s /\ s_seed s' = s_seed s.
Proof.
  induction q as [|t q IH]; intros s T P; cbv zeta; cbn [execute map].
  - unfold tear_down. destruct (s_phase s); try (now elim P); cbn; rewrite app_nil_r; repeat split.
  - fold (marked_skip c t). unfold ended_entry at 1. destruct (marked_skip c t).
    + destruct (IH (record (set_cur s q t) t OSkip SSkipped MNone)) as (R & D & R3); auto. rewrite R.
      cbn [record set_cur s_results]. rewrite <- app_assoc. split; [reflexivity|]. split; [exact D|exact R3].
    + cbn [set_cur s_terminated]. rewrite T. destruct (score_fields c (set_cur s q t) t (Some e)) as (B1&B2&B3&B4&B5&B6&B7&B8&B9&B10&B11&B12&B13&_&B15).
      cbn [set_cur s_terminated] in B15. rewrite T in B15. destruct B15 as [B15|[? _]]; [|discriminate].
      destruct (IH (score_test c (set_cur s q t) t (Some e))) as (R & D & R3 & R4 & R5 & R6); [exact B15|now rewrite B4|].
      rewrite R, B1, D, R3, R4, R5, R6, B9, B11, B12, B13. cbn [set_cur s_results]. rewrite <- app_assoc. repeat split; reflexivity.
Qed.

Lemma sim_end_pf c sel s t excs : good c sel s -> s_phase s = PRun -> s_cur s = Some t -> s_terminated s = Some (Exc cSimFailure []) ->
  exists s', step c s (EComplete excs) = Some s' /\ s_phase s' = PDown /\
    s_file s' = Some (s_results s ++ entry_of c t (score c t (Some (Exc cSimFailure []))) :: map (ended_entry c (Exc cSimFailure [])) (s_queue s)) /\
    s_stopped s' = true.
Proof.
  intros G Ph Cu T. cbn [step]. rewrite Ph, Cu. eexists. split; [reflexivity|].
  destruct (complete_pre c sel s t excs G Ph Cu) as (s1 & -> & P & R & _ & _ & _ & T1). rewrite T in R. specialize (T1 _ T).
  pose proof (execute_good c sel _ _ P) as G'. destruct P as [_ _ Q1 _ F1 _ _].
  destruct (execute_ended c _ (s_queue s) s1 T1 F1) as (R' & D & _). destruct G' as [_ _ _ _ F' _]. rewrite D in F'.
  destruct F' as [F' St]. split; [exact D|]. split; [|exact St]. rewrite F', R', R, <- app_assoc. reflexivity.
Qed.

Lemma execute_rng c : forall q s, s_first s = false ->
  let s' := execute c q s in s_random s' = s_random s /\ s_resolver s' = s_resolver s /\ s_seed s' = s_seed s.
Proof.
  induction q as [|t q IH]; intros s F; cbv zeta; cbn [execute].
  - unfold tear_down. destruct (s_phase s); auto.
  - destruct (_ && _); [apply (IH (record (set_cur s q t) t OSkip SSkipped MNone)); exact F|].
    cbn [set_cur s_terminated s_first]. destruct (s_terminated s) as [e|].
    + destruct (score_fields c (set_cur s q t) t (Some e)) as (_&_&_&_&B5&_&_&_&_&_&B11&B12&B13&_).
      destruct (IH (score_test c (set_cur s q t) t (Some e))) as (R1 & R2 & R3); [rewrite B5; exact F|].
      rewrite R1, R2, R3, B11, B12, B13. auto.
    + destruct (t_init t); [rewrite F; auto|]. apply (IH (record (set_cur s q t) t OFail SError MNone)). exact F.
Qed.
Lemma complete_rng c sel s excs s' : good c sel s -> step c s (EComplete excs) = Some s' ->
  s_random s' = fst (s_saved s) /\ s_resolver s' = snd (s_saved s) /\ s_seed s' = c_seed c.
Proof.
  intros G H. cbn [step] in H. destruct (s_phase s) eqn:Ph; try discriminate. destruct (s_cur s) as [t|] eqn:Cu; [|discriminate].
  injection H as <-. unfold test_complete. cbv zeta.
  destruct G as [_ _ _ P _ _]. rewrite Ph in P. destruct P as (? & _ & _ & _ & FI).
  match goal with |- context[execute c ?q (score_test c ?x t ?y)] =>
    destruct (score_fields c x t y) as (_&_&_&_&B5&_&_&_&_&_&B11&B12&B13&_);
    destruct (execute_rng c q (score_test c x t y)) as (R1 & R2 & R3); [rewrite B5; exact FI|] end.
  rewrite R1, R2, R3, B11, B12, B13. auto.
Qed.

(** User code does not touch the manager. *)
Lemma only_user_run c evs : forall s s', only_user evs -> run c s evs = Some s' ->
  s_phase s' = s_phase s /\ s_cur s' = s_cur s /\ s_queue s' = s_queue s /\ s_results s' = s_results s /\
  s_terminated s' = s_terminated s /\ s_ended s' = s_ended s /\ s_saved s' = s_saved s /\ s_file s' = s_file s.
Proof.
  induction evs as [|ev evs IH]; intros s s' O H; [cbn in H; injection H as <-; repeat split|].
  destruct ev; cbn in O; try contradiction. cbn in H. apply IH in H; auto.
Qed.

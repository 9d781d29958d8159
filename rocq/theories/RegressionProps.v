(** C44-C48: the regression manager. *)
From Coq Require Import Sorted Permutation String.
From Verif Require Import Base TextModel RegressionModel RegressionSpec RegressionProofs.
Open Scope Z_scope.

(** The setting of the examples: every class is a subclass of itself and, but for the exceptions of the simulator's end
    and groups, of Exception (8); hashes are lengths. *)
Definition ex_cfg (maxf : Z) (filters : list (pystr -> bool)) : cfg :=
  Cfg (fun a b => (a =? b) || ((b =? cException) && (a <? 9))) (fun _ _ => false) (fun n => Z.of_nat (List.length n)) (fun x => x * 10)
    100 maxf false filters false.
Definition ex_t (i stage : Z) (n : pystr) : test := Test i n stage false [] false true.
Definition ex_a := ex_t 1 2 (lit "a"%string).
Definition ex_b := ex_t 2 1 (lit "bb"%string).
Definition ex_c := ex_t 3 1 (lit "ccc"%string).
Definition ex_skip := Test 4 (lit "dddd"%string) 1 true [] false true.
Definition ex_bad := Test 5 (lit "eeeee"%string) 0 false [] false false.
Definition ex_tests := [ex_a; ex_b; ex_skip; ex_c; ex_bad].

(** * C44: every selected test is accounted for exactly once, in stage order *)
Theorem C44_selection c l :
  (exists sel, selection c l sel) /\
  (forall sel sel', selection c l sel -> selection c l sel' -> sel = sel') /\
  (forall sel, selection c l sel -> Permutation sel (filter (included c) l)).
Proof. split; [exists (apply_filters c (sort_stages l)); apply selection_pf|]. split; [apply selection_unique|apply selection_perm]. Qed.
Print Assumptions C44_selection.

(** At every moment the selected tests are those recorded, the one running or waiting to start and those queued, in this
    order; at the end all are recorded. *)
Theorem C44_accounted c tests l s sel : reach c tests l s -> selection c l sel ->
  recorded s ++ running s ++ waiting s ++ s_queue s = sel /\ (s_phase s = PDown -> recorded s = sel).
Proof.
  intros R S. destruct (reach_sel c tests l s sel R S) as [_ A _ P _ _]. split; [exact A|].
  intro D. unfold running, waiting in A. rewrite D in *. cbn in A. rewrite P, app_nil_r in A. exact A.
Qed.
Print Assumptions C44_accounted.
Theorem C44_once c tests l s : reach c tests l s -> NoDup tests -> NoDup (recorded s) /\ NoDup (started s).
Proof.
  intros R N. pose proof R as [PM _]. assert (S := selection_pf c l). set (sel := apply_filters c (sort_stages l)) in *.
  assert (NS : NoDup sel).
  { eapply Permutation_NoDup; [symmetry; apply (selection_perm c l sel S)|]. apply NoDup_filter.
    eapply Permutation_NoDup; [symmetry; exact PM|exact N]. }
  pose proof (reach_sel c tests l s sel R S) as G. split.
  - destruct G as [_ A _ _ _ _]. rewrite <- A in NS. clear - NS.
    induction (recorded s) as [|x r IH]; [constructor|]. cbn in NS. inversion NS as [|? ? NI ND]; subst.
    constructor; [|now apply IH]. intro I. apply NI. apply in_or_app. now left.
  - destruct (runs_pf c sel s G) as (d & r & E & -> & _). apply NoDup_filter. rewrite E in NS. clear - NS.
    induction d as [|x d IH]; [constructor|]. cbn in NS. inversion NS as [|? ? NI ND]; subst.
    constructor; [|now apply IH]. intro I. apply NI. apply in_or_app. now left.
Qed.
Print Assumptions C44_once.
(** The counters. *)
Theorem C44_counters c tests l s sel : reach c tests l s -> selection c l sel ->
  s_passed s = how_many OPass (s_results s) /\ s_failures s = how_many OFail (s_results s) /\
  s_skipped s = how_many OSkip (s_results s) /\ s_xfailed s = how_many OXfail (s_results s) /\
  s_total s = Z.of_nat (List.length sel) /\ s_count s = 1 + Z.of_nat (List.length (s_results s)) /\
  s_passed s + s_failures s + s_skipped s + s_xfailed s = Z.of_nat (List.length (s_results s)) /\
  (s_phase s = PDown -> s_passed s + s_failures s + s_skipped s + s_xfailed s = s_total s).
Proof.
  intros R S. assert (Q := proj2 (C44_accounted c tests l s sel R S)).
  destruct (reach_sel c tests l s sel R S) as [[K1 K2 K3 K4 K5 _ _ _ _ _] _ T _ _ _].
  assert (SUM : s_passed s + s_failures s + s_skipped s + s_xfailed s = Z.of_nat (List.length (s_results s))).
  { rewrite K2, K3, K4, K5. clear. induction (s_results s) as [|e r IH]; [reflexivity|].
    cbn [List.length]. rewrite Nat2Z.inj_succ. revert IH. unfold how_many. cbn [filter].
    destruct (r_outcome e); cbn [outcome_eqb List.length]; lia. }
  do 6 (split; [assumption|]). split; [exact SUM|]. intro D. rewrite SUM, T, <- (Q D). unfold recorded. now rewrite map_length.
Qed.
Print Assumptions C44_counters.
(** The tests started are, in order, the runnable ones among those reached; unless the regression was ended early all
    the runnable ones are started. *)
Theorem C44_runs c tests l s sel : reach c tests l s -> selection c l sel ->
  exists reached rest, sel = reached ++ rest /\ started s = filter (runnable c) reached /\
    (s_phase s = PRun -> reached = recorded s ++ running s) /\ (s_phase s = PGap -> reached = recorded s) /\
    (s_phase s = PDown -> s_terminated s = None -> reached = sel).
Proof. intros R S. exact (runs_pf c sel s (reach_sel c tests l s sel R S)). Qed.
Print Assumptions C44_runs.
(** Progress: a test completes, and its Timer fires, into a next state; the only end is the teardown. *)
Theorem C44_progress c tests l s : reach c tests l s ->
  (s_phase s = PRun -> forall excs, exists s', step c s (EComplete excs) = Some s' /\ (List.length (s_results s) < List.length (s_results s'))%nat) /\
  (s_phase s = PGap -> s_ended s = false -> exists s', step c s ETimer = Some s' /\ s_phase s' = PRun).
Proof.
  intro R. pose proof (reach_good c tests l s R) as G. assert (G' := G). destruct G as [_ _ _ P _ _]. split; intro Ph; rewrite Ph in P.
  - intro excs. destruct P as (t & Cu & _). cbn [step]. rewrite Ph, Cu. eexists. split; [reflexivity|].
    destruct (complete_pre c _ s t excs G' Ph Cu) as (s1 & -> & _ & E & _).
    assert (M : forall q s, (List.length (s_results s) <= List.length (s_results (execute c q s)))%nat).
    { clear. induction q as [|t q IH]; intro s; cbn [execute].
      - unfold tear_down. destruct (s_phase s); apply Nat.le_refl.
      - destruct (_ && _); [etransitivity; [|apply IH]; cbn; rewrite app_length; lia|].
        cbn [set_cur s_terminated s_first]. destruct (s_terminated s) as [e|].
        + etransitivity; [|apply IH]. destruct (score_fields c (set_cur s q t) t (Some e)) as (B1 & _). rewrite B1, app_length.
          cbn. lia.
        + destruct (t_init t); [destruct (s_first s); apply Nat.le_refl|].
          etransitivity; [|apply IH]. cbn. rewrite app_length. lia. }
    eapply Nat.lt_le_trans; [|apply M]. rewrite E, app_length. cbn. lia.
  - intro En. destruct P as (t & Cu & _). cbn [step]. rewrite Ph, Cu, En. eexists. split; reflexivity.
Qed.
Print Assumptions C44_progress.
Definition ex_run := run (ex_cfg 0 [fun n => (List.length n <? 6)%nat]) (initial (ex_cfg 0 [fun n => (List.length n <? 6)%nat]) ex_tests 1 2)
  [EStart [ex_c; ex_a; ex_bad; ex_skip; ex_b] 7; EComplete []; ETimer; EUser 5 5 5; EComplete [Exc cAssertion []]; ETimer; EComplete []].
Example C44_ex :
  match ex_run with
  | Some s => s_phase s = PDown /\ recorded s = [ex_bad; ex_c; ex_skip; ex_b; ex_a] /\ started s = [ex_c; ex_b; ex_a] /\
      map r_outcome (s_results s) = [OFail; OPass; OSkip; OFail; OPass] /\ s_failures s = 2 /\ s_total s = 5
  | None => False
  end.
Proof. vm_compute. repeat split. Qed.
(** [list_tests] says it lists the tests "in the order they would be run", and lists those that are not selected too. *)
Theorem C44_list_refuted : exists c tests sel, selection c tests sel /\
  list_tests (initial c tests 0 0) <> map t_fullname sel /\ List.length (list_tests (initial c tests 0 0)) <> List.length sel.
Proof.
  exists (ex_cfg 0 [fun n => (List.length n <? 3)%nat]), [ex_a; ex_b; ex_c], [ex_b; ex_a]. split; [|split; vm_compute; discriminate].
  exact (selection_pf (ex_cfg 0 [fun n => (List.length n <? 3)%nat]) [ex_a; ex_b; ex_c]).
Qed.
Print Assumptions C44_list_refuted.

(** * C45: scoring *)
Theorem C45_skipped c t r : score c t r = VSkipped <-> exists e, r = Some e /\ forces c e cSkip.
Proof. exact (proj1 (score_pf c t r)). Qed.
Print Assumptions C45_skipped.
Theorem C45_passed c t r : score c t r = VPassed <->
  (r = None /\ t_expect_error t = [] /\ t_expect_fail t = false) \/
  exists e, r = Some e /\ forces c e cSuccess /\ ~ forces c e cSkip /\ ~ forces c e cXfail.
Proof. exact (proj1 (proj2 (score_pf c t r))). Qed.
Print Assumptions C45_passed.
Theorem C45_xfailed c t r : score c t r = VXfailed <-> exists e, r = Some e /\ ~ forces c e cSkip /\
  (forces c e cXfail \/
   (~ forces c e cSuccess /\
    (expects_error c t e \/ (t_expect_error t = [] /\ t_expect_fail t = true /\ failed_check c e)))).
Proof. exact (proj1 (proj2 (proj2 (score_pf c t r)))). Qed.
Print Assumptions C45_xfailed.
Theorem C45_failed c t r : (exists m, score c t r = VFailed m) <->
  (r = None /\ (t_expect_error t <> [] \/ t_expect_fail t = true)) \/
  exists e, r = Some e /\ ~ forces c e cSkip /\ ~ forces c e cXfail /\ ~ forces c e cSuccess /\
    ~ expects_error c t e /\ (t_expect_error t = [] -> t_expect_fail t = true -> ~ failed_check c e).
Proof. exact (proj2 (proj2 (proj2 (score_pf c t r)))). Qed.
Print Assumptions C45_failed.
(** The message tells what was expected and what happened. *)
Theorem C45_message c t r m : score c t r = VFailed m ->
  match m with
  | MPassedNotError => r = None /\ t_expect_error t <> []
  | MPassedNotFailure => r = None /\ t_expect_error t = [] /\ t_expect_fail t = true
  | MFailedNotError => t_expect_error t <> [] /\ exists e, r = Some e /\ failed_check c e
  | MUnexpectedType => t_expect_error t <> [] /\ exists e, r = Some e /\ ~ failed_check c e
  | MErroredNotFailure => t_expect_error t = [] /\ t_expect_fail t = true /\ exists e, r = Some e /\ ~ failed_check c e
  | MNone => t_expect_error t = [] /\ t_expect_fail t = false /\ r <> None
  end.
Proof.
  unfold score. destruct r as [e|].
  - destruct (isinstance c e cSkip), (isinstance c e cXfail), (isinstance c e cSuccess); try discriminate.
    destruct (t_expect_error t) as [|x l] eqn:E.
    + destruct (t_expect_fail t) eqn:F; [|intros [= <-]; repeat split; discriminate].
      destruct (is_failure c e) eqn:I; [discriminate|]. intros [= <-]. repeat split; auto. exists e. split; [reflexivity|].
      rewrite <- failure_iff, I. discriminate.
    + destruct (matched c e (x :: l)); [discriminate|]. destruct (is_expected_type c e (x :: l)); [discriminate|].
      destruct (is_failure c e) eqn:I; intros [= <-]; (split; [discriminate|]); exists e; (split; [reflexivity|]).
      * now apply failure_iff.
      * rewrite <- failure_iff, I. discriminate.
  - destruct (t_expect_error t) as [|x l] eqn:E; [|intros [= <-]; split; [reflexivity|discriminate]].
    destruct (t_expect_fail t) eqn:F; [|discriminate]. intros [= <-]. auto.
Qed.
Print Assumptions C45_message.
(** A completed test is recorded with the score of its exception: none, the only one, or the group of all. *)
Theorem C45_recorded c tests l s t excs s' : reach c tests l s -> running s = [t] -> step c s (EComplete excs) = Some s' ->
  exists rest, s_results s' = s_results s ++ entry_of c t (score c t
    (match s_terminated s with Some e => Some e | None => exception_of c excs end)) :: rest.
Proof.
  intros R RU H. pose proof (reach_good c tests l s R) as G. unfold running in RU.
  destruct (s_phase s) eqn:Ph; try discriminate. destruct (s_cur s) as [t'|] eqn:Cu; [|discriminate]. injection RU as ->.
  cbn [step] in H. rewrite Ph, Cu in H. injection H as <-.
  destruct (complete_pre c _ s t excs G Ph Cu) as (s1 & -> & _ & E & _).
  assert (M : forall q s, exists rest, s_results (execute c q s) = s_results s ++ rest).
  { clear. induction q as [|t q IH]; intro s; cbn [execute].
    - exists []. rewrite app_nil_r. unfold tear_down. now destruct (s_phase s).
    - destruct (_ && _).
      + destruct (IH (record (set_cur s q t) t OSkip SSkipped MNone)) as (x & ->). cbn. rewrite <- app_assoc. eexists; reflexivity.
      + cbn [set_cur s_terminated s_first]. destruct (s_terminated s) as [e|].
        * destruct (IH (score_test c (set_cur s q t) t (Some e))) as (x & ->).
          destruct (score_fields c (set_cur s q t) t (Some e)) as (B1 & _). rewrite B1. cbn [set_cur s_results].
          rewrite <- app_assoc. eexists; reflexivity.
        * destruct (t_init t).
          -- exists []. rewrite app_nil_r. destruct (s_first s); reflexivity.
          -- destruct (IH (record (set_cur s q t) t OFail SError MNone)) as (x & ->). cbn. rewrite <- app_assoc. eexists; reflexivity. }
  destruct (M (s_queue s) s1) as (rest & ->). exists rest. rewrite E, <- app_assoc. reflexivity.
Qed.
Print Assumptions C45_recorded.
(** Every entry comes from a [skip] mark, from a test that could not be set up, or from scoring. *)
Theorem C45_explained c tests l s e : reach c tests l s -> In e (s_results s) ->
  (marked_skip c (r_test e) = true /\ e = Entry (r_test e) OSkip SSkipped MNone) \/
  (marked_skip c (r_test e) = false /\ t_init (r_test e) = false /\ e = Entry (r_test e) OFail SError MNone) \/
  (marked_skip c (r_test e) = false /\ exists r, e = entry_of c (r_test e) (score c (r_test e) r)).
Proof.
  intros R I. destruct (reach_good c tests l s R) as [[_ _ _ _ _ _ K _ _ _] _ _ _ _ _].
  rewrite Forall_forall in K. exact (K e I).
Qed.
Print Assumptions C45_explained.
Definition ex_xfail := Test 6 (lit "f"%string) 0 false [] true true.
Definition ex_xerr := Test 7 (lit "g"%string) 0 false [EType cSimFailure; EType 20] false true.
Definition ex_both := Test 8 (lit "h"%string) 0 false [EType 20] true true.
Example C45_ex : let c := ex_cfg 0 [] in
  score c ex_a None = VPassed /\ score c ex_a (Some (Exc 20 [])) = VFailed MNone /\
  score c ex_xfail (Some (Exc cAssertion [])) = VXfailed /\ score c ex_xfail (Some (Exc 20 [])) = VFailed MErroredNotFailure /\
  score c ex_xfail None = VFailed MPassedNotFailure /\ score c ex_xerr (Some (Exc 20 [])) = VXfailed /\
  score c ex_xerr (Some (Exc 21 [])) = VFailed MUnexpectedType /\ score c ex_xerr (Some (Exc cAssertion [])) = VFailed MFailedNotError /\
  score c ex_xerr (Some (Exc cSuccess [])) = VPassed /\ score c ex_a (Some (Exc cSkip [])) = VSkipped /\
  score c ex_a (exception_of c [Exc cAssertion []; Exc 20 []]) = VFailed MNone.
Proof. vm_compute. repeat split. Qed.
Example C45_recorded_ex : let c := ex_cfg 0 [] in
  match run c (initial c [ex_xfail; ex_a] 0 0) [EStart [ex_xfail; ex_a] 0] with
  | Some s => running s = [ex_xfail] /\
      match step c s (EComplete [Exc cAssertion []]) with Some s' => s_results s' = [Entry ex_xfail OPass SPassed MNone] | None => False end
  | None => False
  end.
Proof. vm_compute. repeat split. Qed.
(** [expect_fail] has no effect beside [expect_error]: a failing assertion is then reported as a failure. *)
Theorem C45_expect_both_refuted : exists c t e, t_expect_fail t = true /\ failed_check c e /\
  ~ forces c e cSkip /\ ~ forces c e cXfail /\ ~ forces c e cSuccess /\ score c t (Some e) = VFailed MFailedNotError.
Proof.
  exists (ex_cfg 0 []), ex_both, (Exc cAssertion []). repeat split; try (vm_compute; discriminate). now left.
Qed.
Print Assumptions C45_expect_both_refuted.
(** A test marked [expect_fail] in which two Tasks fail an assertion is reported as "errored". *)
Theorem C45_group_of_failures_refuted : exists c t excs, t_expect_error t = [] /\ t_expect_fail t = true /\ excs <> [] /\
  Forall (failed_check c) excs /\ score c t (exception_of c excs) = VFailed MErroredNotFailure.
Proof.
  exists (ex_cfg 0 []), ex_xfail, [Exc cAssertion []; Exc cAssertion []]. repeat split; try discriminate.
  repeat constructor.
Qed.
Print Assumptions C45_group_of_failures_refuted.
(** Likewise a test in which one Task asked for a pass, and another for a skip or an expected failure: the requests end
    in a group and the test fails. *)
Theorem C45_forced_in_group_refuted : exists c t,
  forall k k', In k [cSuccess; cSkip; cXfail] -> In k' [cSuccess; cSkip; cXfail] ->
  score c t (exception_of c [Exc k []]) <> VFailed MNone /\
  score c t (exception_of c [Exc k []; Exc k' []]) = VFailed MNone.
Proof.
  exists (ex_cfg 0 []), ex_a. intros k k' I I'. destruct I as [<-|[<-|[<-|[]]]], I' as [<-|[<-|[<-|[]]]]; split; vm_compute; try discriminate; reflexivity.
Qed.
Print Assumptions C45_forced_in_group_refuted.

(** * C46: maximum failures *)
(** Missing: tests which could not be set up count as failures but are not looked at when counting (see below). *)
Theorem C46_stops_partial c tests l s : reach c tests l s -> s_phase s = PRun \/ s_phase s = PGap -> s_ended s = false ->
  0 < c_max_failures c ->
  with_status SFailed (s_results s) < c_max_failures c /\
  (with_status SError (s_results s) = 0 -> s_failures s < c_max_failures c).
Proof.
  intros R Ph E M. destruct (reach_good c tests l s R) as [[_ _ _ _ _ _ _ K _ _] _ _ P _ _]. apply K; [|exact M].
  destruct Ph as [Ph|Ph]; rewrite Ph in P; destruct P as (t & _ & _ & TN & _); exact (TN E).
Qed.
Print Assumptions C46_stops_partial.
(** The regression is not cut short before: the setting is positive and as many failures were recorded. *)
Theorem C46_not_early c tests l s sel : reach c tests l s -> selection c l sel -> s_phase s = PDown -> s_ended s = false ->
  started s = filter (runnable c) sel \/
  (s_terminated s = Some (Exc cTerminated []) /\ 0 < c_max_failures c <= s_failures s).
Proof.
  intros R S D E. pose proof (reach_sel c tests l s sel R S) as G. destruct (runs_pf c sel s G) as (d & r & _ & ST & _ & _ & N).
  destruct G as [[_ _ _ _ _ _ _ _ K _] _ _ _ _ _]. destruct (s_terminated s) as [e|] eqn:T.
  - right. destruct (K E e eq_refl) as [-> H]. auto.
  - left. rewrite ST, (N D eq_refl). reflexivity.
Qed.
Print Assumptions C46_not_early.
(** When the limit is reached the remaining tests are recorded as ended by it, without being run. *)
Theorem C46_remaining c tests l s sel : reach c tests l s -> selection c l sel ->
  s_terminated s = Some (Exc cTerminated []) -> s_ended s = false ->
  s_phase s = PDown /\ exists ran rest, s_results s = ran ++ map (ended_entry c (Exc cTerminated [])) rest /\
    sel = map r_test ran ++ rest /\ started s = filter (runnable c) (map r_test ran).
Proof.
  intros R S T E. pose proof (reach_sel c tests l s sel R S) as G. assert (A := proj2 (C44_accounted c tests l s sel R S)).
  destruct G as [_ _ _ P _ (R1 & R2 & Er & St & _ & ND & L)].
  assert (D : s_phase s = PDown).
  { destruct (s_phase s); [contradiction|..|reflexivity]; destruct P as (t & _ & _ & TN & _); rewrite (TN E) in T; discriminate. }
  split; [exact D|]. exists R1, (map r_test R2). specialize (A D).
  assert (M : map (ended_entry c (Exc cTerminated [])) (map r_test R2) = R2).
  { clear - L T. induction L as [|e r (x & Tx & Ee) L IH]; [reflexivity|]. cbn. rewrite IH. rewrite T in Tx. injection Tx as <-. now rewrite <- Ee. }
  rewrite M. split; [exact Er|]. unfold recorded in A. rewrite Er, map_app in A. split; [now rewrite A|].
  rewrite St. unfold running. rewrite D. apply app_nil_r.
Qed.
Print Assumptions C46_remaining.
(** Once the limit has been reached by failing tests nothing starts any more. *)
Theorem C46_no_start c tests l s ev s' : reach c tests l s -> s_terminated s <> None ->
  step c s ev = Some s' -> s_starts s' = s_starts s.
Proof.
  intros R T H. pose proof (reach_good c tests l s R) as G. pose proof G as [_ _ _ P _ _]. destruct ev; cbn [step] in H.
  - destruct (s_phase s); try discriminate. contradiction.
  - destruct (s_phase s); try discriminate. destruct (s_cur s); [|discriminate]. destruct (s_ended s) eqn:E; [discriminate|].
    destruct P as (t' & _ & _ & TN & _). elim T. exact (TN eq_refl).
  - injection H as <-. reflexivity.
  - destruct (s_phase s) eqn:Ph; try discriminate. destruct (s_cur s) as [t|] eqn:Cu; [|discriminate]. injection H as <-.
    destruct (s_terminated s) as [e|] eqn:Te; [|now elim T].
    unfold test_complete. cbv zeta. cbn [s_terminated]. rewrite Te.
    match goal with |- context[score_test c ?x t ?y] =>
      destruct (score_fields c x t y) as (_&_&_&B4&_&_&_&_&B9&_&_&_&_&_&B15) end.
    cbn [s_terminated] in B15. destruct B15 as [B15|[? _]]; [|discriminate].
    rewrite (proj1 (proj2 (proj2 (execute_ended c e _ _ B15 ltac:(rewrite B4; cbn; rewrite Ph; discriminate))))). exact B9.
  - assert (X : s_starts (on_sim_end s) = s_starts s) by (unfold on_sim_end; destruct (s_phase s); reflexivity).
    destruct (s_phase s); try discriminate; destruct (s_ended s); try discriminate; injection H as <-; exact X.
Qed.
Print Assumptions C46_no_start.
Definition ex_four := [ex_b; ex_c; ex_skip; ex_a].
Example C46_ex : let c := ex_cfg 1 [] in
  match run c (initial c ex_four 0 0) [EStart ex_four 0; EComplete []; ETimer; EComplete [Exc 20 []]] with
  | Some s => s_phase s = PDown /\ s_terminated s = Some (Exc cTerminated []) /\ started s = [ex_b; ex_c] /\
      s_results s = [Entry ex_b OPass SPassed MNone; Entry ex_c OFail SFailed MNone; Entry ex_skip OSkip SSkipped MNone;
                     Entry ex_a OFail SFailed MNone]
  | None => False
  end.
Proof. vm_compute. repeat split. Qed.
Example C46_partial_ex : let c := ex_cfg 2 [] in
  match run c (initial c ex_four 0 0) [EStart ex_four 0; EComplete [Exc 20 []]] with
  | Some s => s_phase s = PGap /\ s_ended s = false /\ with_status SFailed (s_results s) = 1 /\ with_status SError (s_results s) = 0
  | None => False
  end.
Proof. vm_compute. repeat split. Qed.
Definition ex_init_failed : state := Eval vm_compute in
  match run (ex_cfg 1 []) (initial (ex_cfg 1 []) [ex_bad; ex_a] 0 0) [EStart [ex_bad; ex_a] 0] with Some s => s | None => initial (ex_cfg 1 []) [] 0 0 end.
(** A test that cannot be set up is a failure, but does not stop the regression: with a limit of one failure the next
    test starts nevertheless. *)
Theorem C46_init_refuted : exists c tests s t, reach c tests tests s /\ c_max_failures c = 1 /\ s_failures s = 1 /\
  s_ended s = false /\ s_phase s = PRun /\ running s = [t].
Proof.
  exists (ex_cfg 1 []), [ex_bad; ex_a], ex_init_failed, ex_a.
  split; [split; [apply Permutation_refl|]; exists 0, 0, 0, []; vm_compute; reflexivity|]. repeat split; vm_compute; reflexivity.
Qed.
Print Assumptions C46_init_refuted.

(** * C47: the results file *)
(** The file is written exactly at the teardown, with all selected tests. *)
Theorem C47_file c tests l s sel : reach c tests l s -> selection c l sel ->
  (s_phase s = PDown <-> s_file s <> None) /\
  (forall r, s_file s = Some r -> r = s_results s /\ map r_test r = sel) /\
  (s_stopped s = true <-> s_file s <> None).
Proof.
  intros R S. assert (A := proj2 (C44_accounted c tests l s sel R S)). destruct (reach_sel c tests l s sel R S) as [_ _ _ _ F _].
  destruct (s_phase s) eqn:Ph; destruct F as [F1 F2]; rewrite F1, F2.
  4: { split; [split; [discriminate|reflexivity]|]. split; [|split; [discriminate|reflexivity]].
       intros r [= <-]. split; [reflexivity|exact (A eq_refl)]. }
  all: split; [split; [discriminate|intro X; now elim X]|split; [discriminate|split; [discriminate|intro X; now elim X]]].
Qed.
Print Assumptions C47_file.
(** The simulator ends while a test runs: when that test has completed, however it does, the file is written; the test
    and the remaining ones are scored as ended by SimFailure. *)
Theorem C47_running c tests l s t s1 user s2 excs : reach c tests l s -> running s = [t] -> s_ended s = false ->
  step c s ESimEnd = Some s1 -> only_user user -> run c s1 user = Some s2 ->
  exists s3, step c s2 (EComplete excs) = Some s3 /\ s_phase s3 = PDown /\ s_stopped s3 = true /\
    s_file s3 = Some (s_results s ++ entry_of c t (score c t (Some (Exc cSimFailure [])))
                        :: map (ended_entry c (Exc cSimFailure [])) (s_queue s)).
Proof.
  intros R RU E H U H2. pose proof (reach_good c tests l s R) as G. unfold running in RU.
  destruct (s_phase s) eqn:Ph; try discriminate. destruct (s_cur s) as [t'|] eqn:Cu; [|discriminate]. injection RU as ->.
  pose proof (step_good c _ _ _ _ G H) as G1. pose proof (run_good c _ _ _ _ G1 H2) as G2.
  destruct (only_user_run c user s1 s2 U H2) as (U1 & U2 & U3 & U4 & U5 & _).
  cbn [step] in H. rewrite Ph, E in H. injection H as <-. unfold on_sim_end in *. rewrite Ph in *. cbn in U1, U2, U3, U4, U5.
  destruct (sim_end_pf c _ s2 t excs G2) as (s3 & H3 & D & F & St); [congruence|congruence|exact U5|].
  exists s3. rewrite U3, U4 in F. auto.
Qed.
Print Assumptions C47_running.
(** What these scores are: a failure, unless the test is marked [skip] or expects such an error. *)
Theorem C47_reported_failed c t : sane_classes c -> ~ expects_error c t (Exc cSimFailure []) ->
  r_outcome (entry_of c t (score c t (Some (Exc cSimFailure [])))) = OFail /\
  r_outcome (ended_entry c (Exc cSimFailure []) t) = (if marked_skip c t then OSkip else OFail).
Proof.
  intros SC N. assert (X : exists m, score c t (Some (Exc cSimFailure [])) = VFailed m).
  { apply C45_failed. right. exists (Exc cSimFailure []). unfold forces, failed_check. cbn [x_cls].
    rewrite (proj1 (SC cAssertion ltac:(cbn; auto 6))), (proj1 (SC cRaisesFailed ltac:(cbn; auto 6))),
      (proj1 (SC cSkip ltac:(cbn; auto 6))), (proj1 (SC cXfail ltac:(cbn; auto 6))), (proj1 (SC cSuccess ltac:(cbn; auto 6))).
    repeat split; auto; try discriminate. intros _ _ [?|?]; discriminate. }
  destruct X as (m & X). unfold ended_entry. rewrite X. destruct (marked_skip c t); auto.
Qed.
Print Assumptions C47_reported_failed.
Example C47_sane : sane_classes (ex_cfg 0 []).
Proof. intros k I. repeat (destruct I as [<-|I]; [split; reflexivity|]). contradiction. Qed.
Example C47_ex : let c := ex_cfg 0 [] in
  match run c (initial c ex_four 0 0) [EStart ex_four 0; EComplete []; ETimer; ESimEnd; EUser 1 2 3; EComplete []] with
  | Some s => s_phase s = PDown /\
      s_file s = Some [Entry ex_b OPass SPassed MNone; Entry ex_c OFail SFailed MNone; Entry ex_skip OSkip SSkipped MNone;
                       Entry ex_a OFail SFailed MNone]
  | None => False
  end.
Proof. vm_compute. repeat split. Qed.
Definition ex_gap : state := Eval vm_compute in
  match run (ex_cfg 0 []) (initial (ex_cfg 0 []) ex_four 0 0) [EStart ex_four 0; EComplete []; ESimEnd] with Some s => s | None => initial (ex_cfg 0 []) [] 0 0 end.
(** The simulator ends between two tests (while waiting for Timer(1)): no results file is ever written. *)
Theorem C47_gap_refuted : exists c tests s, reach c tests tests s /\ s_phase s = PGap /\ s_ended s = true /\
  forall evs s', run c s evs = Some s' -> s_file s' = None.
Proof.
  exists (ex_cfg 0 []), ex_four, ex_gap.
  split; [split; [apply Permutation_refl|]; exists 0, 0, 0, [EComplete []; ESimEnd]; vm_compute; reflexivity|]. split; [vm_compute; reflexivity|]. split; [vm_compute; reflexivity|].
  assert (X : forall evs s s', s_phase s = PGap -> s_ended s = true -> s_file s = None -> run (ex_cfg 0 []) s evs = Some s' -> s_file s' = None).
  { induction evs as [|ev evs IH]; intros s s' P E F H; [cbn in H; now injection H as <-|].
    cbn [run] in H. destruct ev; cbn [step] in H; rewrite ?P, ?E in H; try discriminate.
    - destruct (s_cur s); discriminate.
    - eapply IH; [..|exact H]; first [reflexivity|assumption]. }
  intros evs s' H. eapply X; [..|exact H]; vm_compute; reflexivity.
Qed.
Print Assumptions C47_gap_refuted.
Definition ex_ended : state := Eval vm_compute in
  match run (ex_cfg 0 []) (initial (ex_cfg 0 []) [ex_xfail; ex_xerr] 0 0) [EStart [ex_xfail; ex_xerr] 0; ESimEnd; EComplete []] with Some s => s | None => initial (ex_cfg 0 []) [] 0 0 end.
(** A test which never ran is recorded as passed if it expects the exception that ended the regression. *)
Theorem C47_never_run_passes_refuted : exists c tests s t, reach c tests tests s /\ s_phase s = PDown /\ ~ In t (started s) /\
  exists e, In e (s_results s) /\ r_test e = t /\ r_outcome e = OPass.
Proof.
  exists (ex_cfg 0 []), [ex_xfail; ex_xerr], ex_ended, ex_xerr.
  split; [split; [apply Permutation_refl|]; exists 0, 0, 0, [ESimEnd; EComplete []]; vm_compute; reflexivity|]. split; [reflexivity|]. split.
  - vm_compute. intros [X|[]]. discriminate X.
  - exists (Entry ex_xerr OPass SPassed MNone). split; [vm_compute; auto|]. split; reflexivity.
Qed.
Print Assumptions C47_never_run_passes_refuted.

(** * C48: seeds *)
(** Every test starts with the seed given by the regression seed and its full name, and with both generators freshly
    seeded with it. *)
Theorem C48_seed c tests l s t seed random resolver : reach c tests l s -> In (t, seed, random, resolver) (s_starts s) ->
  seed = c_seed c + c_hash c (t_fullname t) /\ random = c_seeded c seed /\ resolver = c_seeded c seed.
Proof.
  intros R I. destruct (reach_good c tests l s R) as [[_ _ _ _ _ K _ _ _ _] _ _ _ _ _]. rewrite Forall_forall in K. exact (K _ I).
Qed.
Print Assumptions C48_seed.
(** When a test starts, both generators and RANDOM_SEED have just been set from that seed. *)
Theorem C48_generators c s ev s' : step c s ev = Some s' -> s_starts s' = s_starts s \/
  exists t, let seed := c_seed c + c_hash c (t_fullname t) in
    s_starts s' = s_starts s ++ [(t, seed, c_seeded c seed, c_seeded c seed)] /\
    s_cur s' = Some t /\ s_random s' = c_seeded c seed /\ s_resolver s' = c_seeded c seed /\ s_seed s' = seed.
Proof.
  assert (Y : forall q s, s_starts (execute c q s) = s_starts s \/
    exists t, let seed := c_seed c + c_hash c (t_fullname t) in
    s_starts (execute c q s) = s_starts s ++ [(t, seed, c_seeded c seed, c_seeded c seed)] /\
    s_cur (execute c q s) = Some t /\ s_random (execute c q s) = c_seeded c seed /\ s_resolver (execute c q s) = c_seeded c seed /\ s_seed (execute c q s) = seed).
  { induction q as [|t q IH]; intro s0; cbn [execute].
    - left. unfold tear_down. destruct (s_phase s0); reflexivity.
    - destruct (_ && _); [exact (IH (record (set_cur s0 q t) t OSkip SSkipped MNone))|]. cbn [set_cur s_terminated s_first]. destruct (s_terminated s0) as [e|].
      + assert (B : s_starts (score_test c (set_cur s0 q t) t (Some e)) = s_starts s0) by (unfold score_test, record_failed, record; repeat (match goal with |- context [match ?x with _ => _ end] => destruct x end); reflexivity).
        specialize (IH (score_test c (set_cur s0 q t) t (Some e))). rewrite B in IH. exact IH.
      + destruct (t_init t); [|exact (IH (record (set_cur s0 q t) t OFail SError MNone))]. destruct (s_first s0); [|left; reflexivity].
        right. exists t. cbv zeta. repeat split. }
  intro H. destruct ev; cbn [step] in H.
  - destruct (s_phase s); try discriminate. injection H as <-. exact (Y _ (State _ _ _ _ _ _ _ _ _ _ _ _ _ _ _ _ _ _ _ _)).
  - destruct (s_phase s), (s_cur s) as [t|] eqn:E, (s_ended s); try discriminate. injection H as <-. right. exists t. cbv zeta. repeat split. exact E.
  - injection H as <-. left. reflexivity.
  - destruct (s_phase s), (s_cur s) as [t|]; try discriminate. injection H as <-. unfold test_complete. cbv zeta.
    set (s1 := State _ _ _ _ _ _ _ _ _ _ _ _ _ _ _ _ _ _ _ _).
    set (r := match s_terminated s1 with Some e => Some e | None => exception_of c excs end). clearbody r.
    assert (B : s_starts (score_test c s1 t r) = s_starts s) by (unfold score_test, record_failed, record; repeat (match goal with |- context [match ?x with _ => _ end] => destruct x end); reflexivity).
    specialize (Y (s_queue (score_test c s1 t r)) (score_test c s1 t r)). rewrite B in Y. exact Y.
  - destruct (s_phase s) eqn:Ph; try discriminate; destruct (s_ended s); try discriminate; injection H as <-; left; unfold on_sim_end; rewrite Ph; reflexivity.
Qed.
Print Assumptions C48_generators.
(** Whatever else is run, in whatever order. *)
Theorem C48_independent c c' tests tests' l l' s s' t t' x x' v v' w w' :
  reach c tests l s -> reach c' tests' l' s' ->
  c_seed c = c_seed c' -> c_hash c = c_hash c' -> c_seeded c = c_seeded c' -> t_fullname t = t_fullname t' ->
  In (t, x, v, w) (s_starts s) -> In (t', x', v', w') (s_starts s') -> x = x' /\ v = v' /\ w = w'.
Proof.
  intros R R' E1 E2 E3 E4 I I'. apply (C48_seed _ _ _ _ _ _ _ _ R) in I as (-> & -> & ->).
  apply (C48_seed _ _ _ _ _ _ _ _ R') in I' as (-> & -> & ->). rewrite E1, E2, E3, E4. auto.
Qed.
Print Assumptions C48_independent.
(** A test leaves no trace in the generators: after it they are as they were before it started, and RANDOM_SEED is that of
    the regression. *)
Theorem C48_restored c tests l s s1 evs s2 excs s3 : reach c tests l s ->
  step c s ETimer = Some s1 -> Forall (fun ev => match ev with EUser _ _ _ | ESimEnd => True | _ => False end) evs ->
  run c s1 evs = Some s2 -> step c s2 (EComplete excs) = Some s3 ->
  s_random s3 = s_random s /\ s_resolver s3 = s_resolver s /\ s_seed s3 = c_seed c.
Proof.
  intros R H1 U H2 H3. pose proof (reach_good c tests l s R) as G. pose proof (step_good c _ _ _ _ G H1) as G1.
  pose proof (run_good c _ _ _ _ G1 H2) as G2. destruct (complete_rng c _ _ _ _ G2 H3) as (-> & -> & ->).
  assert (X : s_saved s2 = s_saved s1).
  { clear - U H2. revert s1 H2. induction U as [|ev evs UE U IH]; intros s1 H2; cbn [run] in H2; [now injection H2 as <-|].
    destruct (step c s1 ev) as [s'|] eqn:E; [|discriminate]. rewrite (IH s' H2). destruct ev; try contradiction; cbn [step] in E.
    - now injection E as <-.
    - unfold on_sim_end in E. destruct (s_phase s1); try discriminate; destruct (s_ended s1); try discriminate; injection E as <-; reflexivity. }
  rewrite X. cbn [step] in H1. destruct (s_phase s), (s_cur s), (s_ended s); try discriminate. injection H1 as <-. auto.
Qed.
Print Assumptions C48_restored.
(** The same for the test started with the regression. *)
Theorem C48_restored_first c tests l r0 v0 random s1 evs s2 excs s3 :
  run c (initial c tests r0 v0) [EStart l random] = Some s1 ->
  Forall (fun ev => match ev with EUser _ _ _ | ESimEnd => True | _ => False end) evs ->
  run c s1 evs = Some s2 -> step c s2 (EComplete excs) = Some s3 ->
  s_random s3 = random /\ s_resolver s3 = v0 /\ s_seed s3 = c_seed c.
Proof.
  intros H1 U H2 H3. cbn [run step s_phase initial] in H1. injection H1 as <-.
  pose proof (start_good c tests l random r0 v0) as G1. cbv zeta in G1. set (s1 := start_regression _ _ _ _) in *.
  pose proof (run_good c _ _ _ _ G1 H2) as G2. destruct (complete_rng c _ _ _ _ G2 H3) as (-> & -> & ->).
  assert (X : s_saved s2 = s_saved s1 /\ s_phase s2 = s_phase s1).
  { clearbody s1. clear - U H2. revert s1 H2. induction U as [|ev evs UE U IH]; intros s1 H2; cbn [run] in H2; [injection H2 as <-; auto|].
    destruct (step c s1 ev) as [s'|] eqn:E; [|discriminate]. destruct (IH s' H2) as [-> ->]. destruct ev; try contradiction; cbn [step] in E.
    - injection E as <-. split; reflexivity.
    - unfold on_sim_end in E. destruct (s_phase s1) eqn:Ph; try discriminate; destruct (s_ended s1); try discriminate; injection E as <-; (split; [reflexivity|first [exact Ph|reflexivity]]). }
  destruct X as [-> X]. assert (P : s_phase s1 = PRun).
  { rewrite <- X. cbn [step] in H3. destruct (s_phase s2); try discriminate. reflexivity. }
  assert (Y : forall q s, s_phase s <> PRun -> s_phase (execute c q s) = PRun -> s_saved (execute c q s) = (s_random s, s_resolver s)).
  { clear. induction q as [|t q IH]; intros s N; cbn [execute].
    - unfold tear_down. destruct (s_phase s) eqn:E; cbn; intro X; congruence.
    - destruct (_ && _); [intro H; exact (IH (record (set_cur s q t) t OSkip SSkipped MNone) N H)|]. cbn [set_cur s_terminated s_first]. destruct (s_terminated s) as [e|].
      + destruct (score_fields c (set_cur s q t) t (Some e)) as (_&_&_&B4&_&_&_&_&_&_&B11&B12&_).
        intro H. rewrite IH; [|rewrite B4; exact N|exact H]. rewrite B11, B12. reflexivity.
      + destruct (t_init t); [|intro H; exact (IH (record (set_cur s q t) t OFail SError MNone) N H)]. destruct (s_first s); [reflexivity|discriminate]. }
  unfold s1, start_regression. unfold s1, start_regression in P. rewrite Y; [|cbn; discriminate|exact P]. cbn. auto.
Qed.
Print Assumptions C48_restored_first.
Example C48_ex : let c := ex_cfg 0 [] in
  match run c (initial c ex_four 1 2) [EStart ex_four 7; EUser 3 4 5; EComplete []; ETimer; EUser 8 9 10; ESimEnd; EComplete []] with
  | Some s => s_starts s = [(ex_b, 102, 1020, 1020); (ex_c, 103, 1030, 1030)] /\ s_random s = 7 /\ s_resolver s = 2 /\ s_seed s = 100
  | None => False
  end.
Proof. vm_compute. repeat split. Qed.

(** C89: the results file tells the outcome of the regression. *)
From Verif Require Import Base ArrayModel TextModel LogicArrayModel RegressionModel XmlModel RegressionSpec XmlSpec RegressionProofs XmlProofs
  OutcomeModel OutcomeSpec OutcomeProofs.
From Verif Require RegressionProps XmlProps RunnerModel RunnerProps.
From Coq Require Import String.
Open Scope Z_scope.

Lemma results_coherent c tests l s : reach c tests l s -> Forall coherent (s_results s).
Proof.
  intro R. apply Forall_forall. intros e I.
  destruct (RegressionProps.C45_explained c tests l s e R I) as [(_ & ->)|[(_ & _ & ->)|(_ & r & E)]].
  - unfold coherent. cbn. split; [discriminate|]. intros [H|H]; discriminate.
  - unfold coherent. cbn. split; auto.
  - rewrite E. apply coherent_entry.
Qed.
Lemma document_inv W c rel attach host tests l s sel doc : reach c tests l s -> selection c l sel ->
  results_document W c rel attach host s = Some doc ->
  doc = write (report (new_reporter (lit "cocotb tests") rel attach host) (cases W (c_seed c) (s_results s))) /\ s_phase s = PDown /\ map r_test (s_results s) = sel.
Proof.
  intros R S D. destruct (RegressionProps.C47_file c tests l s sel R S) as (P & F & _). unfold results_document in D.
  destruct (s_file s) as [x|] eqn:E; [|discriminate]. destruct (F x eq_refl) as [-> M]. injection D as <-.
  split; [reflexivity|]. split; [apply P; discriminate|exact M].
Qed.

(** There is a document when the regression has come to its end, however it ended. *)
Theorem C89_exists W c rel attach host tests l s : reach c tests l s ->
  (s_phase s = PDown <-> exists doc, results_document W c rel attach host s = Some doc).
Proof.
  intro R. destruct (RegressionProps.C47_file c tests l s _ R (selection_pf c l)) as (P & _). unfold results_document.
  rewrite P. destruct (s_file s) as [x|]; split; try discriminate; eauto. now intros N; elim N. intros (d & H). discriminate.
Qed.
Print Assumptions C89_exists.

(** What [get_results] reads from it are the manager's own numbers: all selected tests, and the failures. *)
Theorem C89_counts W c rel attach host tests l s sel doc : reach c tests l s -> selection c l sel ->
  results_document W c rel attach host s = Some doc ->
  get_results doc = Ok (Z.of_nat (List.length sel), s_failures s) /\ s_total s = Z.of_nat (List.length sel).
Proof.
  intros R S D. destruct (document_inv _ _ _ _ _ _ _ _ _ _ R S D) as (-> & P & M).
  destruct (RegressionProps.C44_counters c tests l s sel R S) as (_ & F & _ & _ & T & _). split; [|exact T].
  rewrite report_results_pf by reflexivity. unfold cases. rewrite bad_count by (eapply results_coherent; exact R).
  f_equal. f_equal; [|now rewrite F]. unfold py_len. rewrite len_cases, <- M, map_length. reflexivity.
Qed.
Print Assumptions C89_counts.

(** The exit status of the check is 0 exactly if no test is recorded as failed; and then every selected test was marked as
    skipped or has a verdict which is not a failure. *)
Theorem C89_status W c rel attach host tests l s sel doc : reach c tests l s -> selection c l sel ->
  results_document W c rel attach host s = Some doc -> s_failures s < 256 ->
  (check_status (Some doc) = 0 <-> Forall good_entry (s_results s)) /\
  (check_status (Some doc) = 0 -> forall t, In t sel -> marked_skip c t = true \/
     exists r, score c t r = VSkipped \/ score c t r = VXfailed \/ score c t r = VPassed).
Proof.
  intros R S D L. destruct (C89_counts _ _ _ _ _ _ _ _ _ _ R S D) as [G _].
  destruct (document_inv _ _ _ _ _ _ _ _ _ _ R S D) as (_ & _ & M).
  destruct (RegressionProps.C44_counters c tests l s sel R S) as (_ & F & _).
  assert (E : check_status (Some doc) = 0 <-> Forall good_entry (s_results s)).
  { unfold check_status. rewrite G. assert (N : 0 <= s_failures s) by (rewrite F; unfold how_many; lia).
    rewrite Z.mod_small by lia. rewrite F. unfold how_many. generalize (s_results s). intro rs. split.
    - intro H. apply Forall_forall. intros e I B. assert (X : In e (filter (fun e => outcome_eqb (r_outcome e) OFail) rs)) by (apply filter_In; rewrite B; auto).
      destruct (filter _ rs); [destruct X|]. cbn [List.length] in H. lia.
    - intro H. assert (X : filter (fun e => outcome_eqb (r_outcome e) OFail) rs = []).
      { induction H as [|e rs B H IH]; [reflexivity|]. cbn [filter]. unfold good_entry in B. destruct (r_outcome e); cbn [outcome_eqb]; auto. now elim B. }
      now rewrite X. }
  split; [exact E|]. intros H t I. apply E in H. rewrite <- M in I. apply in_map_iff in I as (e & <- & I).
  rewrite Forall_forall in H. specialize (H e I). unfold good_entry in H.
  destruct (RegressionProps.C45_explained c tests l s e R I) as [(K & _)|[(_ & _ & E2)|(_ & r & E2)]].
  - now left.
  - rewrite E2 in H. now elim H.
  - right. exists r. rewrite E2 in H. destruct (score c (r_test e) r); cbn in H; auto. now elim H.
Qed.
Print Assumptions C89_status.

(** Under pytest, a runner whose commands succeed and write this file passes exactly if no test failed - without the limit of
    256 - and otherwise ends pytest's test with [SystemExit(1)]. *)
Theorem C89_runner W c rel attach host tests l s sel doc results pytest dir path before u cmds : reach c tests l s -> selection c l sel ->
  results_document W c rel attach host s = Some doc ->
  RunnerModel.results_file results pytest dir = RunnerModel.XOk path -> pytest <> [] ->
  Forall (fun p => RunnerModel.p_returncode p = 0) cmds ->
  let w := RunnerModel.World before u (cmds ++ [RunnerModel.Process 0 (Some (Some doc))]) None in
  RunnerModel.test results pytest dir false w = if s_failures s =? 0 then RunnerModel.Returned path else RunnerModel.Exits 1.
Proof.
  intros R S D P N C w. destruct (C89_counts _ _ _ _ _ _ _ _ _ _ R S D) as [G _].
  rewrite (RunnerProps.C64_verdict results pytest dir false w path P).
  - destruct (pystr_eqb pytest []) eqn:E; [apply pystr_eqb_eq in E; contradiction|].
    assert (F : RunnerProps.final_file w = Some (Some doc)) by (unfold RunnerProps.final_file, w; cbn [RunnerModel.w_cmds]; rewrite rev_app_distr; reflexivity).
    rewrite F, G. reflexivity.
  - unfold w. cbn [RunnerModel.w_cmds]. apply Forall_app. split; [exact C|]. repeat constructor.
Qed.
Print Assumptions C89_runner.

(** The file has a suite for each module, with one test case for each recorded test of the module, in the order of the
    records; it tells name, module, the kind of failure and, for failed tests, the seed of the regression. *)
Theorem C89_cases W c rel attach host tests l s sel doc : reach c tests l s -> selection c l sel -> absolute_dir rel ->
  results_document W c rel attach host s = Some doc ->
  suites_are W (c_seed c) doc (s_results s) /\ map r_test (s_results s) = sel.
Proof.
  intros R S A D. destruct (document_inv _ _ _ _ _ _ _ _ _ _ R S D) as (-> & P & M). split; [|exact M]. now apply suites_are_pf.
Qed.
Print Assumptions C89_cases.

(** So a failed test can be repeated: a regression started with the number in the file, whatever its tests, starts the test of
    the same full name with the seed it had. *)
Theorem C89_reproduce W seed x e number c tests l s t v r1 r2 c' tests' l' s' t' v' r1' r2' :
  tells W seed x e -> r_status e = SFailed -> child_text "system-err" x = Some (lit "Test failed with COCOTB_RANDOM_SEED=" ++ number ++ [10]) ->
  seed = c_seed c -> py_int10 number = Ok (c_seed c') -> c_hash c = c_hash c' -> c_seeded c = c_seeded c' ->
  reach c tests l s -> reach c' tests' l' s' -> t_fullname t = t_fullname t' ->
  In (t, v, r1, r2) (s_starts s) -> In (t', v', r1', r2') (s_starts s') -> v = v' /\ r1 = r1' /\ r2 = r2'.
Proof.
  intros (_ & _ & _ & _ & _ & _ & T) F C -> N H1 H2 R R' E I I'. destruct (T (or_introl F)) as (n2 & C2 & N2). rewrite C in C2. injection C2 as C2.
  assert (X : number = n2) by (eapply app_inv_tail; exact C2). subst n2. rewrite N in N2. injection N2 as N2.
  exact (RegressionProps.C48_independent c c' tests tests' l l' s s' t t' v v' r1 r1' r2 r2' R R' (eq_sym N2) H1 H2 E I I').
Qed.
Print Assumptions C89_reproduce.

(** The document is well-formed XML text if the file names are. *)
Theorem C89_valid W c rel attach host tests l s doc : reach c tests l s -> world_ok W -> Forall xml_text attach -> Forall code_point host ->
  results_document W c rel attach host s = Some doc -> valid_document doc.
Proof.
  intros R WO A H D. destruct (document_inv _ _ _ _ _ _ _ _ _ _ R (selection_pf c l) D) as (-> & _).
  apply document_pf; auto; [apply xml_lit; reflexivity|]. now apply cases_ok_pf.
Qed.
Print Assumptions C89_valid.

(** ** A regression of five tests in two modules: one cannot be set up, one is skipped, one fails, two pass. *)
Definition ex_d (n : nat) : details :=
  Details (lit "t.py") (py_str_int (Z.of_nat n)) (lit "0") (lit "5") (lit "5") (lit "2.5") (lit "2026") (Some (lit "no licence")) true
    (lit "AssertionError") (lit "boom") (lit "Traceback").
Definition ex_W : world := World (fun t => t_fullname t) (fun t => if t_stage t =? 1 then lit "m" else []) ex_d.
Definition ex_c := RegressionProps.ex_cfg 0 [fun n => (List.length n <? 6)%nat].
Definition ex_l := [RegressionProps.ex_c; RegressionProps.ex_a; RegressionProps.ex_bad; RegressionProps.ex_skip; RegressionProps.ex_b].
Definition ex_evs := [EComplete []; ETimer; EUser 5 5 5; EComplete [Exc cAssertion []]; ETimer; EComplete []].
Definition ex_s : state := match run ex_c (initial ex_c RegressionProps.ex_tests 1 2) (EStart ex_l 7 :: ex_evs) with Some s => s | None => initial ex_c [] 0 0 end.
Lemma ex_reach : reach ex_c RegressionProps.ex_tests ex_l ex_s.
Proof.
  split; [|exists 1, 2, 7, ex_evs; vm_compute; reflexivity].
  apply Permutation.NoDup_Permutation.
  - repeat constructor; cbn; intros H; repeat (destruct H as [H|H]; [discriminate|]); destruct H.
  - repeat constructor; cbn; intros H; repeat (destruct H as [H|H]; [discriminate|]); destruct H.
  - intro x. cbn. tauto.
Qed.
Definition ex_doc : elem := match results_document ex_W ex_c (Some (lit "/w/")) [lit "a.log"] (lit "host") ex_s with Some d => d | None => Elem [] [] [] [] end.
Example C89_ex : reach ex_c RegressionProps.ex_tests ex_l ex_s /\
  results_document ex_W ex_c (Some (lit "/w/")) [lit "a.log"] (lit "host") ex_s = Some ex_doc /\ s_phase ex_s = PDown /\
  get_results ex_doc = Ok (5, 2) /\ check_status (Some ex_doc) = 2 /\ s_failures ex_s = 2 /\ absolute_dir (Some (lit "/w/")) /\
  map (fun x => (e_get x "name", List.length (e_children x))) (e_children ex_doc) = [(Some (lit "cocotb"), 2%nat); (Some (lit "m"), 3%nat)] /\
  Forall xml_text [lit "a.log"] /\ Forall code_point (lit "host").
Proof.
  split; [exact ex_reach|]. do 7 (split; [vm_compute; reflexivity|]).
  split; [apply Forall_cons; [apply xml_lit; reflexivity|apply Forall_nil]|apply xml_point, xml_lit; reflexivity].
Qed.
Example C89_status_ex : let s := match run ex_c (initial ex_c [RegressionProps.ex_a] 1 2) [EStart [RegressionProps.ex_a] 7; EComplete []] with Some s => s | None => initial ex_c [] 0 0 end in
  reach ex_c [RegressionProps.ex_a] [RegressionProps.ex_a] s /\ s_failures s = 0 /\
  option_map (fun d => check_status (Some d)) (results_document ex_W ex_c None [] [] s) = Some 0.
Proof.
  cbv zeta. split; [|split; vm_compute; reflexivity]. split; [apply Permutation.Permutation_refl|]. exists 1, 2, 7, [EComplete []]. vm_compute. reflexivity.
Qed.
Example C89_runner_ex : RunnerModel.results_file None (lit "t.py::test_a (call)") (lit "/d") = RunnerModel.XOk (lit "/d/test_a.result.xml") /\
  RunnerModel.test None (lit "t.py::test_a (call)") (lit "/d") false
    (RunnerModel.World None true ([RunnerModel.Process 0 None] ++ [RunnerModel.Process 0 (Some (Some ex_doc))]) None) = RunnerModel.Exits 1.
Proof. split; vm_compute; reflexivity. Qed.
(** The failed test of this regression, its element, and a second regression with the seed read from it and this test only. *)
Example C89_reproduce_ex : let c' := RegressionProps.ex_cfg 3 [] in
  let s' := match run c' (initial c' [RegressionProps.ex_b] 8 9) [EStart [RegressionProps.ex_b] 3] with Some s => s | None => initial c' [] 0 0 end in
  let e := Entry RegressionProps.ex_b OFail SFailed MNone in
  let x := case_elem (new_reporter (lit "cocotb tests") (Some (lit "/w/")) [lit "a.log"] (lit "host")) (case_of ex_W 100 3 e) in
  nth_error (s_results ex_s) 3 = Some e /\ tells ex_W 100 x e /\ c_seed ex_c = 100 /\
  child_text "system-err" x = Some (lit "Test failed with COCOTB_RANDOM_SEED=" ++ lit "100" ++ [10]) /\ py_int10 (lit "100") = Ok (c_seed c') /\
  reach c' [RegressionProps.ex_b] [RegressionProps.ex_b] s' /\
  In (RegressionProps.ex_b, 102, 1020, 1020) (s_starts ex_s) /\ In (RegressionProps.ex_b, 102, 1020, 1020) (s_starts s').
Proof.
  cbv zeta. split; [vm_compute; reflexivity|]. split; [apply tells_case; reflexivity|]. split; [reflexivity|]. split; [vm_compute; reflexivity|].
  split; [reflexivity|]. split.
  - split; [apply Permutation.Permutation_refl|]. exists 8, 9, 3, []. vm_compute. reflexivity.
  - split; vm_compute; tauto.
Qed.
Definition ex_W2 : world := World (fun _ => lit "test_a" ++ [7]) (fun _ => lit "m") ex_d.
Example C89_valid_ex : world_ok ex_W2 /\ exists doc, results_document ex_W2 ex_c None [lit "a.log"] (lit "host") ex_s = Some doc.
Proof.
  split; [|eexists; vm_compute; reflexivity]. split.
  - intro t. cbn [ex_W2 w_name w_module]. split; apply Forall_forall; intros c I; vm_compute in I; unfold code_point;
      repeat (destruct I as [<-|I]; [lia|]); destruct I.
  - intro n. cbv zeta. cbn [ex_W2 w_details ex_d d_file d_line d_start d_stop d_duration d_ratio d_stamp d_type d_text d_traceback].
    split.
    + do 6 (apply Forall_cons; [first [apply xml_int|apply xml_lit; reflexivity]|]). apply Forall_nil.
    + do 4 (apply Forall_cons; [apply xml_point, xml_lit; reflexivity|]). apply Forall_nil.
Qed.

(** The reason given to [pytest.skip] is in the log only: in the file every skipped test says "Test was skipped". *)
Theorem C89_skip_reason_refuted : exists W1 W2 seed e, d_skip (w_details W1 0) = Some (lit "no licence") /\ d_skip (w_details W2 0) = Some (lit "too slow") /\
  r_status e = SSkipped /\ cases W1 seed [e] = cases W2 seed [e].
Proof.
  exists ex_W, (World (w_name ex_W) (w_module ex_W) (fun n => let d := ex_d n in
    Details (d_file d) (d_line d) (d_start d) (d_stop d) (d_duration d) (d_ratio d) (d_stamp d) (Some (lit "too slow")) (d_true d) (d_type d) (d_text d) (d_traceback d))), 1,
    (Entry RegressionProps.ex_skip OSkip SSkipped MNone). repeat split.
Qed.
Print Assumptions C89_skip_reason_refuted.
(** Why a test which ended with an exception was not expected to do so ("errored with unexpected type", ...) is in the log
    only, too: the file does not distinguish it from any other failure with this exception. *)
Theorem C89_message_refuted : exists W seed t m m', m <> m' /\
  cases W seed [Entry t OFail SFailed m] = cases W seed [Entry t OFail SFailed m'].
Proof. exists ex_W, 1, RegressionProps.ex_a, MUnexpectedType, MNone. split; [discriminate|reflexivity]. Qed.
Print Assumptions C89_message_refuted.
(** And an exception object which is false (its class defines [__bool__], or [__len__] giving 0) is not in the file at all. *)
Theorem C89_false_exception_refuted : exists W seed t doc, d_text (w_details W 0) = lit "boom" /\
  write (report (new_reporter [] None [] []) (cases W seed [Entry t OFail SFailed MNone])) = doc /\
  ~ In (lit "boom") (texts doc) /\ get_results doc = Ok (1, 1).
Proof.
  exists (World (w_name ex_W) (w_module ex_W) (fun n => let d := ex_d n in
    Details (d_file d) (d_line d) (d_start d) (d_stop d) (d_duration d) (d_ratio d) (d_stamp d) (d_skip d) false (d_type d) (d_text d) (d_traceback d))), 1,
    RegressionProps.ex_a. eexists. split; [reflexivity|]. split; [reflexivity|]. split; [|vm_compute; reflexivity].
  vm_compute. intro H. repeat (destruct H as [H|H]; [discriminate|]). destruct H.
Qed.
Print Assumptions C89_false_exception_refuted.
(** While a true one is: type, text and traceback. *)
Theorem C89_exception W seed n t m r : has_result m = true -> d_true (w_details W n) = true ->
  e_find (case_elem r (case_of W seed n (Entry t OFail SFailed m))) "failure" = Some (Elem (lit "failure")
    [(lit "message", escape (d_text (w_details W n))); (lit "type", escape (d_type (w_details W n)))]
    (normalize_text (rp_rel r) (d_traceback (w_details W n))) []).
Proof.
  intros H T. unfold e_find, e_findall, case_elem, case_of. cbn [r_status e_children tc_status tc_reason r_message].
  unfold failed_reason. rewrite H, T. reflexivity.
Qed.
Print Assumptions C89_exception.
Example C89_exception_ex : has_result MUnexpectedType = true /\ d_true (w_details ex_W 4) = true.
Proof. split; reflexivity. Qed.

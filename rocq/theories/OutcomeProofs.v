(** Proofs for C89. *)
From Verif Require Import Base ArrayModel TextModel LogicArrayModel RegressionModel XmlModel RegressionSpec XmlSpec RegressionProofs XmlProofs InitProofs OutcomeModel OutcomeSpec.
From Coq Require Import String.
Open Scope Z_scope.

Lemma len_cases W seed n l : List.length (cases_from W seed n l) = List.length l.
Proof. revert n. induction l as [|e l IH]; intro n; cbn [cases_from List.length]; [reflexivity|now rewrite IH]. Qed.

(** The statuses of the entries of a regression go with their outcomes. *)
Definition coherent (e : entry) : Prop := r_outcome e = OFail <-> (r_status e = SFailed \/ r_status e = SError).
Lemma coherent_entry c t v : coherent (entry_of c t v).
Proof.
  destruct v; cbn; try destruct (c_xfail_shown c); cbn; unfold coherent; cbn; split; intro H; try discriminate; auto;
    destruct H; discriminate.
Qed.

Lemma st_failed W seed n e x : has_status Failed (case_of W seed n e, x) = status_eqb (r_status e) SFailed.
Proof. unfold has_status, case_of. cbn [fst]. now destruct (r_status e). Qed.
Lemma st_error W seed n e x : has_status Error (case_of W seed n e, x) = status_eqb (r_status e) SError.
Proof. unfold has_status, case_of. cbn [fst]. now destruct (r_status e). Qed.
Lemma st_skipped W seed n e x : has_status Skipped (case_of W seed n e, x) = status_eqb (r_status e) SSkipped.
Proof. unfold has_status, case_of. cbn [fst]. now destruct (r_status e). Qed.
Lemma bad_count W seed n l : Forall coherent l ->
  count (has_status Failed) (cases_from W seed n l) + count (has_status Error) (cases_from W seed n l) = how_many OFail l.
Proof.
  intro H. revert n. induction H as [|e l C H IH]; intro n; [reflexivity|]. specialize (IH (S n)). revert IH.
  unfold count, how_many, py_len. cbn [cases_from filter]. rewrite st_failed, st_error. unfold coherent in C.
  destruct e as [t o st m]. cbn [r_outcome r_status] in *.
  destruct st, o; cbn [status_eqb outcome_eqb List.length]; rewrite ?Nat2Z.inj_succ; try lia; intros _; exfalso;
    destruct C as [C1 C2]; first [specialize (C1 eq_refl); destruct C1; discriminate|specialize (C2 (or_introl eq_refl)); discriminate|specialize (C2 (or_intror eq_refl)); discriminate].
Qed.
Lemma skip_count W seed n l : count (has_status Skipped) (cases_from W seed n l) = with_status SSkipped l.
Proof.
  revert n. induction l as [|e l IH]; intro n; [reflexivity|]. specialize (IH (S n)). revert IH.
  unfold count, with_status, py_len. cbn [cases_from filter]. rewrite st_skipped.
  destruct (status_eqb (r_status e) SSkipped); cbn [List.length]; rewrite ?Nat2Z.inj_succ; lia.
Qed.

(** * The text with the seed *)
Lemma replace_absent r s : ~ In 47 s -> replace (47 :: r) [] s = s.
Proof.
  unfold replace. induction s as [|c s IH]; intro N; [reflexivity|]. cbn [replace_from after_prefix].
  destruct (Z.eqb_spec 47 c) as [E|E]; [exfalso; apply N; left; auto|]. f_equal. apply IH. intro I. apply N. now right.
Qed.
Lemma ensure_nl s c : c <> 10 -> ensure_newline (s ++ [c]) = s ++ [c; 10].
Proof.
  intro N. unfold ensure_newline. rewrite rev_app_distr. cbn [rev app]. destruct (Z.eqb_spec c 10); [contradiction|]. cbn [negb].
  now rewrite <- app_assoc.
Qed.
Definition plain (c : Z) : Prop := 32 <= c <= 126 /\ c <> 47.
Lemma normal_plain rel s : absolute_dir rel -> Forall plain s -> s <> [] -> normalize_text rel s = s ++ [10].
Proof.
  intros A F N. assert (NS : ~ In 47 s). { intro I. rewrite Forall_forall in F. apply F in I. now destruct I. }
  assert (NC : existsb (Z.eqb 13) s = false).
  { destruct (existsb _ s) eqn:E; [|reflexivity]. apply existsb_exists in E as (c & I & E). apply Z.eqb_eq in E. subst c.
    rewrite Forall_forall in F. apply F in I. destruct I as [I _]. lia. }
  assert (KE : forall l, Forall plain l -> escape (l ++ [10]) = l ++ [10]).
  { intros l H. apply escape_kept. apply Forall_app. split; [|constructor; [reflexivity|constructor]].
    eapply Forall_impl; [|exact H]. intros c [[B C] _]. unfold xml_kept. apply Z.leb_le in B, C. rewrite B, C.
    destruct (c =? 9), (c =? 10), (c =? 13); reflexivity. }
  unfold normalize_text. assert (R : match rel with Some r => replace r [] s | None => s end = s).
  { destruct rel as [[|k r]|]; [contradiction| |reflexivity]. cbn in A. subst k. now apply replace_absent. }
  rewrite R, NC. destruct (exists_last N) as (l & c & ->). rewrite ensure_nl.
  - specialize (KE _ F). rewrite <- app_assoc in KE. cbn [app] in KE. rewrite KE. now rewrite <- app_assoc.
  - apply Forall_app in F as [_ F]. inversion F as [|? ? [B _] _]; subst. lia.
Qed.
Lemma int_plain n : Forall plain (py_str_int n).
Proof.
  unfold py_str_int. destruct (dec_digits (Z.abs n) ltac:(lia)) as [[_ D] _]. apply Forall_app. split.
  - destruct (n <? 0); [constructor; [|constructor]|constructor]. unfold plain. lia.
  - eapply Forall_impl; [|exact D]. intros c H. cbv beta in H. unfold plain. lia.
Qed.
Lemma seed_plain n : Forall plain (seed_text n).
Proof.
  unfold seed_text. apply Forall_app. split; [|apply int_plain]. apply Forall_forall. intros c I. vm_compute in I.
  unfold plain. repeat (destruct I as [<-|I]; [lia|]). destruct I.
Qed.
Lemma err_child r t : tc_err t <> [] -> child_text "system-err" (case_elem r t) = Some (normalize_text (rp_rel r) (tc_err t)).
Proof.
  intro N. unfold child_text, e_find, e_findall, case_elem. cbn [e_children]. destruct (tc_err t) as [|c s] eqn:E; [now elim N|].
  rewrite !filter_app. unfold simple.
  assert (S : forall why, filter (fun c => pystr_eqb (e_tag c) (lit "system-err")) [simple (rp_rel r) "skipped" why] = []) by (intros [|[|]|]; reflexivity).
  assert (S2 : forall why, filter (fun c => pystr_eqb (e_tag c) (lit "system-err")) [simple (rp_rel r) "error" why] = []) by (intros [|[|]|]; reflexivity).
  assert (S3 : forall why, filter (fun c => pystr_eqb (e_tag c) (lit "system-err")) [simple (rp_rel r) "failure" why] = []) by (intros [|[|]|]; reflexivity).
  unfold simple in S, S2, S3.
  destruct (tc_status t); rewrite ?S, ?S2, ?S3; cbn [filter e_tag app];
    match goal with |- context [match ?x with [] => [] | _ :: _ => _ end] => destruct x; cbn [filter e_tag app]; reflexivity end.
Qed.

Lemma tells_case W seed n e r : absolute_dir (rp_rel r) -> tells W seed (case_elem r (case_of W seed n e)) e.
Proof.
  intro AB. destruct (case_elem_pf r (case_of W seed n e)) as (A & B & C & D & F & G). unfold tells. rewrite A, B, C, D, F, G.
  assert (X : r_status e = SFailed \/ r_status e = SError -> tc_err (case_of W seed n e) = seed_text seed).
  { unfold case_of. intros [-> | ->]; reflexivity. }
  assert (Y : r_status e = SFailed \/ r_status e = SError -> exists number,
    child_text "system-err" (case_elem r (case_of W seed n e)) = Some (lit "Test failed with COCOTB_RANDOM_SEED=" ++ number ++ [10]) /\ py_int10 number = Ok seed).
  { intro H. exists (py_str_int seed). split; [|apply py_int_str_any]. rewrite err_child, (X H).
    - rewrite (normal_plain _ _ AB (seed_plain seed)); [unfold seed_text; now rewrite app_assoc|discriminate].
    - rewrite (X H). discriminate. }
  unfold case_of, has_status in *. destruct (r_status e); cbn; repeat split; intros; auto; discriminate.
Qed.
Lemma class_case W seed n e x : class_is x (case_of W seed n e, d_stamp (w_details W n)) = pystr_eqb (suite_of W e) x.
Proof. unfold class_is, suite_of, case_of. destruct (r_status e); cbn; destruct (w_module W (r_test e)); reflexivity. Qed.
Lemma classes_case W seed n l : classes (cases_from W seed n l) = map (suite_of W) l.
Proof.
  unfold classes. revert n. induction l as [|e l IH]; intro n; [reflexivity|]. cbn [cases_from map]. rewrite IH. f_equal.
  unfold suite_of, case_of. cbn [fst]. destruct (r_status e); cbn [tc_class]; reflexivity.
Qed.
Lemma filter_case W seed k r l : absolute_dir (rp_rel r) -> forall n,
  Forall2 (tells W seed) (map (fun t => case_elem r (fst t)) (filter (class_is k) (cases_from W seed n l))) (filter (fun e => pystr_eqb (suite_of W e) k) l).
Proof.
  intro AB. induction l as [|e l IH]; intro n; [constructor|]. cbn [cases_from filter]. rewrite class_case.
  destruct (pystr_eqb (suite_of W e) k); [|apply IH]. cbn [map fst]. constructor; [now apply tells_case|apply IH].
Qed.
Lemma suites_are_pf W seed r l : rp_suites r = [] -> absolute_dir (rp_rel r) -> suites_are W seed (write (report r (cases W seed l))) l.
Proof.
  intros H AB. pose proof (suites_pf r (cases W seed l) H) as S. unfold cases in S. rewrite classes_case in S. unfold suites_are, cases.
  revert S. generalize (dedup pystr_eqb (map (suite_of W) l)), (e_children (write (report r (cases_from W seed 0 l)))). intros ks es F.
  induction F as [|k s ks es A F IH]; constructor; [|exact IH]. cbv zeta in A. destruct A as (_ & A & _ & _ & _ & _ & B). split; [exact A|].
  rewrite B. now apply filter_case.
Qed.

(** * The document is valid *)
Lemma xml_lit (l : pystr) : forallb (fun c => (32 <=? c) && (c <=? 126)) l = true -> xml_text l.
Proof.
  intro H. apply Forall_forall. intros c I. rewrite forallb_forall in H. apply H in I. apply andb_true_iff in I as [A B].
  apply Z.leb_le in A, B. unfold xml_char. lia.
Qed.
Lemma xml_point s : xml_text s -> Forall code_point s.
Proof. intro H. eapply Forall_impl; [|exact H]. intros c X. unfold xml_char, code_point in *. lia. Qed.
Lemma xml_int n : xml_text (py_str_int n).
Proof. eapply Forall_impl; [|apply int_plain]. intros c [P _]. unfold xml_char. lia. Qed.
Lemma point_seed n : Forall code_point (seed_text n).
Proof. eapply Forall_impl; [|apply seed_plain]. intros c [P _]. unfold code_point. lia. Qed.
Lemma case_ok_pf W seed n e : world_ok W -> case_ok (case_of W seed n e).
Proof.
  intros [WN WD]. destruct (WN (r_test e)) as [N M]. specialize (WD n). cbv zeta in WD. destruct WD as [X P].
  rewrite Forall_forall in X, P.
  assert (XX : forall v, In v [d_file (w_details W n); d_line (w_details W n); d_start (w_details W n); d_stop (w_details W n); d_duration (w_details W n); d_ratio (w_details W n)] -> xml_text v) by exact X.
  assert (PL : Forall (fun kv : pystr * pystr => xml_text (fst kv) /\ xml_text (snd kv)) (place (w_details W n))).
  { repeat apply Forall_cons; try apply Forall_nil; (split; [apply xml_lit; reflexivity|cbn [snd]; apply XX; cbn; tauto]). }
  assert (TI : Forall (fun kv : pystr * pystr => xml_text (fst kv) /\ xml_text (snd kv)) (times (w_details W n))).
  { repeat apply Forall_cons; try apply Forall_nil; (split; [apply xml_lit; reflexivity|cbn [snd]]); try (apply xml_lit; reflexivity); apply XX; cbn; tauto. }
  assert (SE : Forall (fun kv : pystr * pystr => xml_text (fst kv) /\ xml_text (snd kv)) (seed_prop seed)).
  { apply Forall_cons; [split; [apply xml_lit; reflexivity|apply xml_int]|apply Forall_nil]. }
  assert (CO : Forall (fun kv : pystr * pystr => xml_text (fst kv) /\ xml_text (snd kv)) cocotb_prop).
  { apply Forall_cons; [split; apply xml_lit; reflexivity|apply Forall_nil]. }
  assert (MS : forall m, Forall code_point (message_text m)) by (intro m; apply xml_point, xml_lit; destruct m; reflexivity).
  unfold case_ok, case_of. destruct (r_status e); cbn [tc_name tc_class tc_out tc_err tc_reason tc_props reason_ok];
    (split; [exact N|]); (split; [exact M|]); (split; [apply Forall_nil|]);
    (split; [first [apply Forall_nil|apply point_seed]|]);
    (split; [|repeat (apply Forall_app; split); assumption]); try exact Logic.I; try (apply xml_point, xml_lit; reflexivity).
  unfold failed_reason. destruct (_ && _).
  - cbn [reason_ok]. split; [apply P; cbn; tauto|]. split; apply P; cbn; tauto.
  - destruct (r_message e) eqn:E; try exact Logic.I; cbn [reason_ok]; rewrite <- ?E; apply MS.
Qed.
Lemma cases_ok_pf W seed l : world_ok W -> forall n, Forall (fun t => case_ok (fst t) /\ Forall code_point (snd t)) (cases_from W seed n l).
Proof.
  intro H. induction l as [|e l IH]; intro n; [constructor|]. cbn [cases_from]. constructor; [|apply IH]. cbn [fst snd].
  split; [now apply case_ok_pf|]. destruct H as [_ WD]. specialize (WD n). cbv zeta in WD. destruct WD as [_ P]. rewrite Forall_forall in P.
  apply P. now left.
Qed.

(** Proofs of C83 and C84. *)
From Verif Require Import Base TextModel ToolsModel ToolsSpec ToolsProofs XmlModel LogModel SummaryModel SummarySpec.
From Coq Require Import String QArith.
Open Scope Z_scope.

(** * Libraries *)
Definition sims := ["icarus"; "verilator"; "questa"; "modelsim"; "ius"; "xcelium"; "vcs"; "ghdl"; "riviera"; "activehdl"; "cvc"; "nvc"; "dsim"]%string.
Lemma names_low w : In w (interfaces ++ sims) -> low_word (lit w).
Proof. intro H. cbn in H. repeat destruct H as [<- |H]; try contradiction; cbn; repeat (constructor; [lia|]); constructor. Qed.
Lemma served_in s l : served_by s l -> In s sims.
Proof. intros []; cbn; auto 20. cbn in H. tauto. Qed.
Lemma in_served s : In s sims -> exists l, served_by s l.
Proof.
  intro H. cbn in H. repeat destruct H as [<- |H]; try contradiction; eexists; (constructor; fail) || (apply SOwn; cbn; auto 20).
Qed.
Lemma served_name s l : served_by s l -> library_name (lit s) = lit l.
Proof. intros [| | | | |s' H]; try reflexivity. cbn in H. repeat destruct H as [<- |H]; try contradiction; reflexivity. Qed.
Lemma low_lower w : low_word (lit w) -> py_lower (lit w) = lit w.
Proof.
  intro L. apply py_lower_word; [exact L|]. clear L. unfold same_word. induction (lit w); constructor; [left; reflexivity|assumption].
Qed.
Lemma same_lower s w : low_word (lit w) -> same_word s (lit w) -> py_lower s = lit w.
Proof. intros L S. apply py_lower_word; assumption. Qed.
Theorem path_pf nt msvc dir i i' s l : In i' interfaces -> same_word i (lit i') -> served_by s l ->
  lib_name_path nt msvc dir i (lit s) = Ok (dir ++ lit "/" ++ library_file nt msvc i' l).
Proof.
  intros I S B. unfold lib_name_path. assert (IL : low_word (lit i')) by (apply names_low, in_or_app; auto).
  rewrite (same_lower _ _ IL S). assert (SI : In s sims) by exact (served_in _ _ B).
  assert (SL : low_word (lit s)) by (apply names_low, in_or_app; auto).
  assert (A : one_of (lit i') supported_interfaces = true) by (apply one_of_in; exact (in_map lit _ _ I)).
  assert (C : one_of (lit s) supported_sims = true) by (apply one_of_in; exact (in_map lit _ _ SI)).
  rewrite A, C. cbn [negb]. cbv zeta. rewrite (low_lower _ SL), (served_name _ _ B). reflexivity.
Qed.
Theorem path_wrong_pf nt msvc dir i s :
  (forall i', In i' interfaces -> ~ same_word i (lit i')) \/ (forall s' l, served_by s' l -> s <> lit s') ->
  lib_name_path nt msvc dir i s = Err ValueError.
Proof.
  intro H. unfold lib_name_path. destruct (one_of (py_lower i) supported_interfaces) eqn:A; [|reflexivity]. cbn [negb].
  destruct (one_of s supported_sims) eqn:C; [|reflexivity]. exfalso. destruct H as [H|H].
  - apply one_of_in in A. apply in_map_iff in A. destruct A as (w & E & W). apply (H w W). apply py_lower_word; [|symmetry; exact E].
    apply names_low, in_or_app. auto.
  - apply one_of_in in C. apply in_map_iff in C. destruct C as (w & E & W). destruct (in_served w W) as [l L].
    exact (H w l L (eq_sym E)).
Qed.
Lemma lower_in s : forall l, Forall (fun w => low_word (lit w)) l -> (In (py_lower s) (map lit l) <-> exists w, In w l /\ same_word s (lit w)).
Proof.
  intros l L. rewrite in_map_iff. pose proof (proj1 (Forall_forall _ _) L) as F. split.
  - intros (w & E & W). exists w. split; [exact W|]. apply py_lower_word; [exact (F w W)|symmetry; exact E].
  - intros (w & W & S). exists w. split; [|exact W]. symmetry. apply py_lower_word; [exact (F w W)|exact S].
Qed.
Lemma entry_get i s : In i interfaces -> In s sims -> pair_get entry_functions (lit i) (lit s) = option_map lit (must_name i s).
Proof.
  intros I S.
  assert (F : Forall (fun i => Forall (fun s => pair_get entry_functions (lit i) (lit s) = option_map lit (must_name i s)) sims) interfaces).
  { unfold interfaces, sims. repeat (apply Forall_cons || apply Forall_nil); vm_compute; reflexivity. }
  exact (proj1 (Forall_forall _ _) (proj1 (Forall_forall _ _) F i I) s S).
Qed.
Theorem entry_pf nt msvc dir i i' s s' l : In i' interfaces -> same_word i (lit i') -> served_by s' l -> same_word s (lit s') ->
  lib_entry nt msvc dir i s =
  Ok (dir ++ lit "/" ++ library_file nt msvc i' l ++ match must_name i' s' with None => [] | Some f => lit ":" ++ lit f end).
Proof.
  intros I S B T. unfold lib_entry. assert (IL : low_word (lit i')) by (apply names_low, in_or_app; auto).
  assert (SI : In s' sims) by exact (served_in _ _ B). assert (SL : low_word (lit s')) by (apply names_low, in_or_app; auto).
  rewrite (same_lower _ _ IL S), (same_lower _ _ SL T).
  assert (R : same_word (lit i') (lit i')) by (apply (proj1 (py_lower_word _ _ IL)), low_lower, IL).
  rewrite (path_pf _ _ _ _ _ _ _ I R B). cbn [bind]. rewrite (entry_get _ _ I SI).
  destruct (must_name i' s') as [f|]; cbn [option_map].
  - f_equal. rewrite <- !app_assoc. reflexivity.
  - rewrite app_nil_r. reflexivity.
Qed.
Theorem entry_wrong_pf nt msvc dir i s :
  (forall i', In i' interfaces -> ~ same_word i (lit i')) \/ (forall s' l, served_by s' l -> ~ same_word s (lit s')) ->
  lib_entry nt msvc dir i s = Err ValueError.
Proof.
  intro H. unfold lib_entry. unfold lib_name_path.
  assert (F1 : Forall (fun w => low_word (lit w)) interfaces) by (apply Forall_forall; intros w W; apply names_low, in_or_app; auto).
  assert (F2 : Forall (fun w => low_word (lit w)) sims) by (apply Forall_forall; intros w W; apply names_low, in_or_app; auto).
  destruct (one_of (py_lower (py_lower i)) supported_interfaces) eqn:A; [|reflexivity]. cbn [negb].
  destruct (one_of (py_lower s) supported_sims) eqn:C; [|reflexivity]. exfalso. destruct H as [H|H].
  - apply one_of_in in A. apply (proj1 (lower_in _ _ F1)) in A. destruct A as (w & W & S).
    assert (E : py_lower (py_lower i) = lit w) by (apply same_lower; [exact (proj1 (Forall_forall _ _) F1 w W)|exact S]).
    apply (H w W). apply py_lower_word; [exact (proj1 (Forall_forall _ _) F1 w W)|]. clear H.
    assert (IL : low_word (lit w)) by exact (proj1 (Forall_forall _ _) F1 w W).
    pose proof (proj1 (py_lower_word _ _ IL) E) as Q. clear S E C F1 F2. revert Q. unfold same_word. revert IL.
    generalize (lit w). intros v IL Q.
    assert (U : forall c, In c (py_lower i) -> ~ (65 <= c <= 90)).
    { intros c Hc. unfold py_lower in Hc. apply in_flat_map in Hc. destruct Hc as (d & _ & Hc). unfold py_lower_char in Hc.
      destruct (d =? 304); [cbn in Hc; lia|]. destruct (d =? 8490); [cbn in Hc; lia|]. destruct Hc as [<- |[]].
      unfold lower_char. destruct (Z.leb_spec 65 d), (Z.leb_spec d 90); cbn; lia. }
    clear W. revert Q U. generalize (py_lower i). intros p Q. induction Q as [|x y p v X Q IH]; intro U; [reflexivity|].
    inversion IL as [|? ? Y IL']. subst. f_equal; [|apply IH; [exact IL'|intros c Hc; apply U; right; exact Hc]].
    pose proof (U x (or_introl eq_refl)) as N. unfold same_letter in X. lia.
  - apply one_of_in in C. apply (proj1 (lower_in _ _ F2)) in C. destruct C as (w & W & S). destruct (in_served w W) as [l L].
    exact (H w l L S).
Qed.

(** * Summary *)
Lemma zlen_app a b : zlen (a ++ b) = zlen a + zlen b.
Proof. unfold zlen. rewrite app_length. lia. Qed.
Lemma zlen_nonneg a : 0 <= zlen a.
Proof. unfold zlen. lia. Qed.
Lemma zlen_blanks n : zlen (blanks n) = Z.max 0 n.
Proof. unfold zlen, blanks. rewrite repeat_length. lia. Qed.
Lemma zlen_pad_right s n : zlen (pad_right s n) = Z.max (zlen s) n.
Proof. unfold pad_right. rewrite zlen_app, zlen_blanks. fold (zlen s). lia. Qed.
Lemma zlen_pad_left s n : zlen (pad_left s n) = Z.max (zlen s) n.
Proof. unfold pad_left. rewrite zlen_app, zlen_blanks. fold (zlen s). lia. Qed.
Lemma zlen_centre s n : zlen (centre s n) = Z.max (zlen s) n.
Proof.
  unfold centre. cbv zeta. rewrite !zlen_app, !zlen_blanks. fold (zlen s).
  destruct (Z.le_gt_cases (zlen s) n) as [H|H].
  - assert (0 <= (n - zlen s) / 2) by (apply Z.div_pos; lia). assert ((n - zlen s) / 2 <= n - zlen s) by (apply Z.div_le_upper_bound; lia). lia.
  - assert ((n - zlen s) / 2 < 0) by (apply Z.div_lt_upper_bound; lia).
    assert (n - zlen s - 1 < 2 * ((n - zlen s) / 2) + 1).
    { pose proof (Z.mod_pos_bound (n - zlen s) 2 ltac:(lia)). pose proof (Z.div_mod (n - zlen s) 2 ltac:(lia)). lia. }
    lia.
Qed.
Lemma word_zlen o : zlen (pass_fail_str o) <= 6.
Proof. destruct o; vm_compute; discriminate. Qed.
Lemma test_line_len w a b c d e : zlen a <= w -> zlen b <= 6 ->
  zlen (test_line w a [] b [] c d e) = w + 58 + excess c 12 + excess d 12 + excess e 11.
Proof.
  intros A B. unfold test_line, excess. rewrite !zlen_app, zlen_pad_right, !zlen_pad_left, zlen_centre.
  change (zlen (lit "** ")) with 3. change (zlen (lit "  ")) with 2. change (zlen (lit "   ")) with 3. change (zlen (lit "  **")) with 4.
  change (zlen []) with 0. lia.
Qed.
Lemma header_len w : 4 <= w -> zlen (header_line w) = w + 58.
Proof.
  intro W. unfold header_line. rewrite !zlen_app, zlen_pad_right, !zlen_pad_left, zlen_centre.
  change (zlen (lit "** ")) with 3. change (zlen (lit "  ")) with 2. change (zlen (lit " **")) with 3. change (zlen (lit "TEST")) with 4.
  change (zlen (lit "STATUS")) with 6. change (zlen (lit "SIM TIME (ns)")) with 13. change (zlen (lit "REAL TIME (s)")) with 13.
  change (zlen (lit "RATIO (ns/s)")) with 12. lia.
Qed.
Lemma field_name total l r : In r l -> zlen (t_name r) <= test_field_len total l.
Proof.
  intro H. unfold test_field_len. enough (zlen (t_name r) <= fold_right (fun r m => Z.max (zlen (t_name r)) m) 0 l) by lia.
  induction l as [|x l IH]; [contradiction|]. cbn. destruct H as [-> |H]; [lia|]. specialize (IH H). lia.
Qed.
Lemma field_least total l w : 4 <= w -> zlen total <= w -> Forall (fun r => zlen (t_name r) <= w) l -> test_field_len total l <= w.
Proof.
  intros A B F. unfold test_field_len. change (zlen (lit "TEST")) with 4.
  enough (fold_right (fun r m => Z.max (zlen (t_name r)) m) 0 l <= w) by lia.
  induction F as [|x l X F IH]; cbn; [|]; lia.
Qed.
Theorem table_pf fmt strip xfail total passed failures skipped xfailed sim real l : l <> [] ->
  let name := total_name total passed failures skipped xfailed xfail in
  exists w sep head rows last,
    log_test_summary fmt strip xfail total passed failures skipped xfailed sim real l =
      Some (flat_map (fun t => t ++ [10]) ([sep; head; sep] ++ rows ++ [sep; last; sep])) /\
    sep = repeat 42 (Z.to_nat (w + 58)) /\ zlen sep = w + 58 /\ zlen head = w + 58 /\ List.length rows = List.length l /\
    (4 <= w /\ zlen name <= w /\ Forall (fun r => zlen (t_name r) <= w) l /\
     (w = 4 \/ w = zlen name \/ Exists (fun r => zlen (t_name r) = w) l)) /\
    Forall2 (fun r row => row = result_line fmt strip w r) l rows /\
    last = test_line w name [] [] [] (fmt (FVal sim)) (fmt (FVal real)) (fmt (safe_divide sim real)) /\
    head = header_line w.
Proof.
  intros N name. destruct l as [|x l0] eqn:L; [contradiction|]. rewrite <- L in *. clear N.
  set (w := test_field_len name l).
  assert (W4 : 4 <= w) by (unfold w, test_field_len; change (zlen (lit "TEST")) with 4; lia).
  assert (WN : zlen name <= w) by (unfold w, test_field_len; lia).
  exists w, (repeat 42 (Z.to_nat (w + 58))), (header_line w), (map (result_line fmt strip w) l),
    (test_line w name [] [] [] (fmt (FVal sim)) (fmt (FVal real)) (fmt (safe_divide sim real))).
  assert (SL : zlen (repeat 42 (Z.to_nat (w + 58))) = w + 58) by (unfold zlen; rewrite repeat_length; lia).
  repeat (apply conj).
  - unfold log_test_summary. rewrite L at 1. cbv zeta. fold name. fold w. f_equal.
    replace (3 + w + 2 + 6 + 2 + 13 + 2 + 13 + 2 + 12 + 3) with (w + 58) by lia.
    assert (M : flat_map (fun t => t ++ [10]) (map (result_line fmt strip w) l) = flat_map (fun r => result_line fmt strip w r ++ [10]) l).
    { generalize l. intro k. induction k as [|y k IH]; [reflexivity|]. cbn [map flat_map]. rewrite IH. reflexivity. }
    rewrite !flat_map_app. rewrite M. cbn [flat_map]. rewrite !app_nil_r, <- !app_assoc. reflexivity.
  - reflexivity.
  - exact SL.
  - apply header_len, W4.
  - apply map_length.
  - exact W4.
  - exact WN.
  - apply Forall_forall. intros r R. apply field_name, R.
  - unfold w, test_field_len. change (zlen (lit "TEST")) with 4.
    assert (E : fold_right (fun r m => Z.max (zlen (t_name r)) m) 0 l = 0 \/
                Exists (fun r => zlen (t_name r) = fold_right (fun r m => Z.max (zlen (t_name r)) m) 0 l) l).
    { generalize l. intro k. induction k as [|y k IH]; [left; reflexivity|]. cbn [fold_right].
      destruct (Z.max_spec (zlen (t_name y)) (fold_right (fun r m => Z.max (zlen (t_name r)) m) 0 k)) as [[A ->]|[A ->]].
      - destruct IH as [IH|IH]; [left; exact IH|right; apply Exists_cons_tl; exact IH].
      - right. apply Exists_cons_hd. reflexivity. }
    destruct (Z.max_spec 4 (Z.max (zlen name) (fold_right (fun r m => Z.max (zlen (t_name r)) m) 0 l))) as [[A ->]|[A ->]]; [|auto].
    destruct (Z.max_spec (zlen name) (fold_right (fun r m => Z.max (zlen (t_name r)) m) 0 l)) as [[B ->]|[B ->]]; [|auto].
    destruct E as [E|E]; [lia|auto].
  - generalize l. intro k. induction k as [|y k IH]; cbn; constructor; [reflexivity|exact IH].
  - reflexivity.
  - reflexivity.
Qed.
Theorem row_pf fmt w r : zlen (t_name r) <= w ->
  let row := result_line fmt true w r in
  zlen row = w + 58 + excess (fmt (FVal (t_sim r))) 12 + excess (fmt (FVal (t_wall r))) 12 + excess (ratio_text fmt r) 11 /\
  shown_at row (t_name r) 3 /\
  (exists n, w + 5 <= n /\ n + zlen (lit (word_of (t_outcome r))) <= w + 11 /\ shown_at row (lit (word_of (t_outcome r))) n) /\
  (fits fmt r -> zlen row = w + 58 /\ ends_at row (fmt (FVal (t_sim r))) (w + 25) /\ ends_at row (fmt (FVal (t_wall r))) (w + 40) /\
     ends_at row (if match t_outcome r with OSkip => true | _ => false end then lit "-.--" else fmt (safe_divide (t_sim r) (t_wall r))) (w + 54)).
Proof.
  intros A row. assert (P : pass_fail_str (t_outcome r) = lit (word_of (t_outcome r))) by (destruct (t_outcome r); reflexivity).
  assert (LEN : zlen row = w + 58 + excess (fmt (FVal (t_sim r))) 12 + excess (fmt (FVal (t_wall r))) 12 + excess (ratio_text fmt r) 11).
  { apply test_line_len; [exact A|apply word_zlen]. }
  split; [exact LEN|]. split; [|split].
  - unfold row, result_line, test_line, pad_right. eexists (lit "** "), _. split; [rewrite <- !app_assoc; reflexivity|reflexivity].
  - pose proof (word_zlen (t_outcome r)) as WZ. rewrite P in WZ.
    exists (w + 5 + (6 - zlen (lit (word_of (t_outcome r)))) / 2).
    assert (D : 0 <= (6 - zlen (lit (word_of (t_outcome r)))) / 2 <= 6 - zlen (lit (word_of (t_outcome r)))).
    { split; [apply Z.div_pos; lia|apply Z.div_le_upper_bound; lia]. }
    split; [lia|]. split; [lia|]. unfold row, result_line, test_line, centre. cbv zeta. rewrite P. fold (zlen (lit (word_of (t_outcome r)))).
    eexists (lit "** " ++ pad_right (t_name r) w ++ lit "  " ++ blanks ((6 - zlen (lit (word_of (t_outcome r)))) / 2)), _. split.
    + rewrite <- !app_assoc. cbn [app]. reflexivity.
    + rewrite !zlen_app, zlen_pad_right, zlen_blanks. change (zlen (lit "** ")) with 3. change (zlen (lit "  ")) with 2. lia.
  - intros (S & T & U).
    assert (R : zlen (ratio_text fmt r) <= 11).
    { unfold ratio_text. destruct (t_outcome r); try (apply U; discriminate). vm_compute. discriminate. }
    unfold excess in LEN. split; [lia|].
    assert (C6 : zlen (centre (pass_fail_str (t_outcome r)) 6) = 6) by (rewrite zlen_centre; pose proof (word_zlen (t_outcome r)); lia).
    repeat (apply conj).
    + unfold row, result_line, test_line, pad_left. fold (zlen (fmt (FVal (t_sim r)))).
      eexists (lit "** " ++ pad_right (t_name r) w ++ lit "  " ++ centre (pass_fail_str (t_outcome r)) 6 ++ lit "  " ++ blanks (12 - zlen (fmt (FVal (t_sim r))))), _.
      split; [rewrite <- !app_assoc; cbn [app]; reflexivity|].
      rewrite !zlen_app, zlen_pad_right, C6, zlen_blanks. change (zlen (lit "** ")) with 3. change (zlen (lit "  ")) with 2. lia.
    + unfold row, result_line, test_line. unfold pad_left at 2. fold (zlen (fmt (FVal (t_wall r)))).
      eexists (lit "** " ++ pad_right (t_name r) w ++ lit "  " ++ centre (pass_fail_str (t_outcome r)) 6 ++ lit "  "
        ++ pad_left (fmt (FVal (t_sim r))) 12 ++ lit "   " ++ blanks (12 - zlen (fmt (FVal (t_wall r))))), _.
      split; [rewrite <- !app_assoc; cbn [app]; reflexivity|].
      rewrite !zlen_app, zlen_pad_right, zlen_pad_left, C6, zlen_blanks. change (zlen (lit "** ")) with 3. change (zlen (lit "  ")) with 2.
      change (zlen (lit "   ")) with 3. lia.
    + replace (if match t_outcome r with OSkip => true | _ => false end then lit "-.--" else fmt (safe_divide (t_sim r) (t_wall r)))
        with (ratio_text fmt r) by (unfold ratio_text, ratio; destruct (t_outcome r); reflexivity).
      unfold row, result_line, test_line. unfold pad_left at 3. fold (zlen (ratio_text fmt r)).
      eexists (lit "** " ++ pad_right (t_name r) w ++ lit "  " ++ centre (pass_fail_str (t_outcome r)) 6 ++ lit "  "
        ++ pad_left (fmt (FVal (t_sim r))) 12 ++ lit "   " ++ pad_left (fmt (FVal (t_wall r))) 12 ++ lit "   " ++ blanks (11 - zlen (ratio_text fmt r))), _.
      split; [rewrite <- !app_assoc; cbn [app]; reflexivity|].
      rewrite !zlen_app, zlen_pad_right, !zlen_pad_left, C6, zlen_blanks. change (zlen (lit "** ")) with 3. change (zlen (lit "  ")) with 2.
      change (zlen (lit "   ")) with 3. lia.
Qed.
Theorem colours_pf fmt w r : coloured (result_line fmt true w r) (result_line fmt false w r) (hilite (t_outcome r)) DEFAULT.
Proof.
  unfold coloured, result_line, test_line.
  eexists (lit "** " ++ pad_right (t_name r) w ++ lit "  "), (centre (pass_fail_str (t_outcome r)) 6), _.
  split; rewrite <- !app_assoc; cbn [app]; reflexivity.
Qed.

(** The cells of the lines. *)
Lemma blank_plus n : blanks n = repeat 32 (Z.to_nat n).
Proof. reflexivity. Qed.
Lemma more_blanks ts n rest : blank_apart ts rest -> ts <> [] -> blank_apart ts (repeat 32 n ++ rest).
Proof.
  intros B N. destruct B as [|m t ts rest B]; [contradiction|]. rewrite app_assoc, <- repeat_app.
  replace (n + S m)%nat with (S (n + m)) by lia. constructor. exact B.
Qed.
Lemma cell_end n ts t : blank_apart ts t -> blank_apart ts (t ++ repeat 32 n).
Proof.
  intro B. induction B as [m|m t ts rest B IH]; [rewrite <- repeat_app; constructor|]. rewrite <- !app_assoc. constructor. exact IH.
Qed.
Lemma test_line_cells w a b c d e : cells (test_line w a [] b [] c d e) [a; b; c; d; e].
Proof.
  unfold cells, test_line.
  exists (repeat 32 1 ++ a ++ repeat 32 (Z.to_nat (w - Z.of_nat (List.length a))) ++ repeat 32 2 ++ centre b 6 ++ repeat 32 2 ++ pad_left c 12 ++ repeat 32 3
          ++ pad_left d 12 ++ repeat 32 3 ++ pad_left e 11 ++ repeat 32 2). split.
  - unfold pad_right. rewrite blank_plus. change (lit "** ") with (lit "**" ++ repeat 32 1). change (lit "  **") with (repeat 32 2 ++ lit "**").
    change (lit "  ") with (repeat 32 2). change (lit "   ") with (repeat 32 3). cbn [app]. rewrite <- !app_assoc. cbn [app]. reflexivity.
  - constructor. apply more_blanks; [|discriminate]. unfold centre. cbv zeta. rewrite !blank_plus, <- !app_assoc.
    rewrite (app_assoc (repeat 32 2) (repeat 32 _)), <- repeat_app. cbn [plus]. constructor. apply more_blanks; [|discriminate].
    unfold pad_left at 1. rewrite blank_plus, <- !app_assoc.
    rewrite (app_assoc (repeat 32 2) (repeat 32 _)), <- repeat_app. cbn [plus]. constructor.
    unfold pad_left at 1. rewrite blank_plus, <- !app_assoc.
    rewrite (app_assoc (repeat 32 3) (repeat 32 _)), <- repeat_app. cbn [plus]. constructor.
    unfold pad_left at 1. rewrite blank_plus, <- !app_assoc.
    rewrite (app_assoc (repeat 32 3) (repeat 32 _)), <- repeat_app. cbn [plus]. constructor. constructor.
Qed.
Lemma total_cells_pf w a c d e : cells (test_line w a [] [] [] c d e) [a; c; d; e].
Proof.
  destruct (test_line_cells w a [] c d e) as (mid & E & B). exists mid. split; [exact E|]. clear E.
  inversion B as [|n t ts rest B1]. subst. constructor. inversion B1 as [|n1 t1 ts1 rest1 B2]. subst. cbn [app].
  exact (more_blanks _ (S n1) _ B2 ltac:(discriminate)).
Qed.
Lemma row_cells_pf fmt w r : cells (result_line fmt true w r)
  [t_name r; lit (word_of (t_outcome r)); fmt (FVal (t_sim r)); fmt (FVal (t_wall r)); ratio_text fmt r].
Proof.
  unfold result_line. replace (lit (word_of (t_outcome r))) with (pass_fail_str (t_outcome r)) by (destruct (t_outcome r); reflexivity).
  apply test_line_cells.
Qed.
Lemma word_place_pf fmt w r : zlen (t_name r) <= w ->
  shown_at (result_line fmt true w r) (lit (word_of (t_outcome r))) (match t_outcome r with OXFail => w + 5 | _ => w + 6 end).
Proof.
  intro A. unfold result_line, test_line, centre. cbv zeta.
  eexists (lit "** " ++ pad_right (t_name r) w ++ lit "  " ++ blanks (match t_outcome r with OXFail => 0 | _ => 1 end)), _. split.
  - destruct (t_outcome r); rewrite <- !app_assoc; cbn [app]; reflexivity.
  - rewrite !zlen_app, zlen_pad_right, zlen_blanks. change (zlen (lit "** ")) with 3. change (zlen (lit "  ")) with 2. destruct (t_outcome r); lia.
Qed.

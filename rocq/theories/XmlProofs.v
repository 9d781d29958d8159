(** Proofs about the results file. *)
From Verif Require Import Base RangeModel ArrayModel TextModel ToolsModel ToolsSpec ToolsProofs LogicArrayModel
  LogicArraySpec LogicArrayProofs LogicArrayFormat XmlModel XmlSpec.
From Coq Require Import String Permutation.
Open Scope Z_scope.

Ltac dec_le := repeat match goal with
  | |- context [Z.leb ?a ?b] => destruct (Z.leb_spec a b); try lia
  | |- context [Z.eqb ?a ?b] => destruct (Z.eqb_spec a b); try lia
  end; cbn [andb orb].

(** * Escaping *)
Lemma kept_spec c : xml_kept c = true <-> xml_char c /\ c <= 65535.
Proof.
  unfold xml_kept, xml_char. rewrite !orb_true_iff, !andb_true_iff, !Z.eqb_eq, !Z.leb_le. lia.
Qed.
Lemma hex_digits v : 0 <= v -> Forall upper_hex (map (digit_chr FHexUpper) (digits_of 16 v)).
Proof.
  intro H. destruct (digits_of_val 16 v ltac:(lia) H) as (_ & F & _). apply Forall_map. eapply Forall_impl; [|exact F].
  cbv beta. intros d Hd. unfold digit_chr, upper_hex. destruct (Z.ltb_spec d 10); cbv match; lia.
Qed.
Lemma digits_nonneg v : 0 <= v \/ v < 0. Proof. lia. Qed.
Lemma hex_pad_upper w v : 0 <= v -> Forall upper_hex (hex_pad w v).
Proof.
  intro H. unfold hex_pad. apply Forall_rev. apply Forall_app. split; [now apply hex_digits|].
  apply Forall_forall. intros c Hc. apply repeat_spec in Hc. subst. unfold upper_hex. lia.
Qed.
Lemma hex_pad_value w v : 0 <= v -> read_number 16 (hex_pad w v) = v.
Proof.
  intro H. unfold hex_pad. rewrite read_rev, map_app.
  assert (E : map digit_val (repeat 48 (w - List.length (map (digit_chr FHexUpper) (digits_of 16 v)))) =
              repeat 0 (w - List.length (map (digit_chr FHexUpper) (digits_of 16 v)))).
  { generalize (w - List.length (map (digit_chr FHexUpper) (digits_of 16 v)))%nat. intro n. induction n; cbn; [reflexivity|]. now rewrite IHn. }
  rewrite E, rval_zeros, map_map. destruct (digits_of_val 16 v ltac:(lia) H) as (V & F & _).
  rewrite <- V at 2. f_equal. rewrite <- (map_id (digits_of 16 v)) at 2. apply map_ext_in. intros d Hd.
  rewrite Forall_forall in F. apply F in Hd. apply (digit_chr_val FHexUpper d Hd).
Qed.
Lemma hex_pad_length w v m : 0 <= v < 16 ^ Z.of_nat m -> (1 <= m)%nat -> (List.length (hex_pad w v) <= Nat.max w m)%nat.
Proof.
  intros H Hm. unfold hex_pad. rewrite rev_length, app_length, repeat_length, map_length.
  destruct (digits_of_val 16 v ltac:(lia) ltac:(lia)) as (_ & _ & L & _). specialize (L m Hm ltac:(lia)). lia.
Qed.
Lemma hex_pad_length_ge w v : (w <= List.length (hex_pad w v))%nat.
Proof. unfold hex_pad. rewrite rev_length, app_length, repeat_length, map_length. lia. Qed.
Lemma escape_app a b : escape (a ++ b) = escape a ++ escape b.
Proof. unfold escape. apply flat_map_app. Qed.
Lemma escape_one c : escape [c] = if xml_kept c then [c] else escape_code c.
Proof. cbn. apply app_nil_r. Qed.
Lemma escape_kept s : Forall (fun c => xml_kept c = true) s -> escape s = s.
Proof.
  induction 1 as [|c s H F IH]; [reflexivity|]. unfold escape in *. cbn [flat_map]. rewrite H, IH. reflexivity.
Qed.
Lemma upper_hex_kept c : upper_hex c -> xml_kept c = true.
Proof. unfold upper_hex. intro H. apply kept_spec. unfold xml_char. lia. Qed.
Lemma escape_code_shape c : 0 <= c -> exists h, escape_code c = lit "#x" ++ h /\ Forall upper_hex h /\
  read_number 16 h = c /\ (if c <=? 255 then 2 else 4) <= py_len h.
Proof.
  intro H. unfold escape_code. destruct (Z.leb_spec c 255).
  - exists (hex_pad 2 c). repeat split; [now apply hex_pad_upper|now apply hex_pad_value|].
    pose proof (hex_pad_length_ge 2 c). unfold py_len. lia.
  - exists (hex_pad 4 c). repeat split; [now apply hex_pad_upper|now apply hex_pad_value|].
    pose proof (hex_pad_length_ge 4 c). unfold py_len. lia.
Qed.
Lemma escape_all_kept s : Forall code_point s -> Forall (fun c => xml_kept c = true) (escape s).
Proof.
  induction 1 as [|c s H F IH]; [constructor|]. change (c :: s) with ([c] ++ s). rewrite escape_app.
  apply Forall_app. split; [|exact IH]. rewrite escape_one. destruct (xml_kept c) eqn:E; [now repeat constructor|].
  destruct (escape_code_shape c) as (h & -> & U & _); [unfold code_point in H; lia|].
  apply Forall_app. split; [repeat constructor|]. eapply Forall_impl; [|exact U]. apply upper_hex_kept.
Qed.
Lemma escape_valid_pf s : Forall code_point s -> xml_text (escape s).
Proof.
  intro H. eapply Forall_impl; [|now apply escape_all_kept]. intros c Hc. now apply kept_spec.
Qed.
Lemma escape_twice_pf s : Forall code_point s -> escape (escape s) = escape s.
Proof. intro H. apply escape_kept. now apply escape_all_kept. Qed.
Lemma escape_keeps_pf s : Forall (fun c => xml_char c /\ c <= 65535) s -> escape s = s.
Proof. intro H. apply escape_kept. eapply Forall_impl; [|exact H]. intros c Hc. now apply kept_spec. Qed.
Lemma escape_code_pf c : code_point c -> ~ (xml_char c /\ c <= 65535) -> exists h, escape [c] = lit "#x" ++ h /\
  Forall upper_hex h /\ read_number 16 h = c /\
  (c <= 255 -> py_len h = 2) /\ (255 < c <= 65535 -> py_len h = 4) /\ (65535 < c -> 5 <= py_len h <= 6).
Proof.
  intros H N. rewrite escape_one. destruct (xml_kept c) eqn:E; [exfalso; apply N; now apply kept_spec|].
  unfold code_point in H. unfold escape_code. destruct (Z.leb_spec c 255).
  - exists (hex_pad 2 c). repeat (apply conj); try lia; [reflexivity|now apply hex_pad_upper|now apply hex_pad_value|].
    pose proof (hex_pad_length_ge 2 c). pose proof (hex_pad_length 2 c 2 ltac:(cbn; lia) ltac:(lia)). unfold py_len. lia.
  - exists (hex_pad 4 c). repeat (apply conj); try lia; [reflexivity|now apply hex_pad_upper|now apply hex_pad_value| |].
    + pose proof (hex_pad_length_ge 4 c). intros. pose proof (hex_pad_length 4 c 4 ltac:(cbn; lia) ltac:(lia)). unfold py_len. lia.
    + intro L. pose proof (hex_pad_length 4 c 6 ltac:(cbn; lia) ltac:(lia)) as U.
      assert (B : forall h, Forall upper_hex h -> read_number 16 h < 16 ^ py_len h).
      { clear. intros h F. unfold read_number, py_len.
        assert (G : forall l acc, Forall upper_hex l ->
          fold_left (fun a c => 16 * a + digit_val c) l acc < (acc + 1) * 16 ^ Z.of_nat (List.length l)).
        { clear. induction l as [|c l IH]; intros acc F; cbn [fold_left List.length]; [cbn; lia|].
          inversion F as [|? ? Hc Fl]; subst. specialize (IH (16 * acc + digit_val c) Fl).
          rewrite Nat2Z.inj_succ, Z.pow_succ_r by lia.
          assert (digit_val c <= 15).
          { unfold digit_val, upper_hex in *. dec_le; lia. }
          pose proof (Z.pow_pos_nonneg 16 (Z.of_nat (List.length l)) ltac:(lia) ltac:(lia)). nia. }
        specialize (G h 0 F). lia. }
      specialize (B (hex_pad 4 c) ltac:(now apply hex_pad_upper; lia)). rewrite hex_pad_value in B by lia.
      unfold py_len in *. assert (5 <= Z.of_nat (List.length (hex_pad 4 c))); [|lia].
      destruct (Z.le_gt_cases 5 (Z.of_nat (List.length (hex_pad 4 c)))); [assumption|exfalso].
      pose proof (Z.pow_le_mono_r 16 (Z.of_nat (List.length (hex_pad 4 c))) 4 ltac:(lia) ltac:(lia)).
      change (16 ^ 4) with 65536 in *. lia.
Qed.

(** * Line ends *)
Lemma replace_no old new c s : after_prefix old (c :: s) = None -> replace old new (c :: s) = c :: replace old new s.
Proof. intro H. unfold replace. cbn [replace_from]. now rewrite H. Qed.
Lemma replace_cr s : replace [13] [10] s = map (fun c => if c =? 13 then 10 else c) s.
Proof.
  unfold replace. induction s as [|c s IH]; [reflexivity|]. cbn [replace_from after_prefix List.length Nat.pred map].
  rewrite (Z.eqb_sym c 13). destruct (13 =? c); cbn [app]; now rewrite IH.
Qed.
Lemma replace_posix s : forall n, (List.length s <= n)%nat -> exists t, posix s t /\ replace [13] [10] (replace [13; 10] [10] s) = t.
Proof.
  intro n. revert s. induction n as [|n IH]; intros s L.
  - destruct s; [|cbn in L; lia]. exists []. split; [constructor|reflexivity].
  - destruct s as [|c s]; [exists []; split; [constructor|reflexivity]|]. cbn in L.
    destruct (Z.eq_dec c 13) as [->|N].
    + destruct s as [|d s].
      * exists [10]. split; [apply posix_cr; [discriminate|constructor]|reflexivity].
      * destruct (Z.eq_dec d 10) as [->|N].
        -- destruct (IH s ltac:(cbn in L; lia)) as (t & P & E). exists (10 :: t). split; [now constructor|].
           rewrite !replace_cr in *. unfold replace in *. cbn [replace_from after_prefix Z.eqb Pos.eqb List.length Nat.pred app map].
           now rewrite E.
        -- destruct (IH (d :: s) ltac:(lia)) as (t & P & E). exists (10 :: t). split.
           ++ apply posix_cr; [cbn; congruence|exact P].
           ++ rewrite replace_no by (cbn [after_prefix]; rewrite Z.eqb_refl; destruct (Z.eqb_spec 10 d); [congruence|reflexivity]).
              rewrite !replace_cr in *. cbn [map Z.eqb Pos.eqb]. now rewrite E.
    + destruct (IH s ltac:(lia)) as (t & P & E). exists (c :: t). split; [now constructor|].
      rewrite replace_no by (cbn [after_prefix]; destruct (Z.eqb_spec 13 c); [congruence|reflexivity]).
      rewrite !replace_cr in *. cbn [map]. destruct (Z.eqb_spec c 13); [congruence|]. now rewrite E.
Qed.
Lemma posix_same s : ~ In 13 s -> posix s s.
Proof.
  induction s as [|c s IH]; intro H; [constructor|]. apply posix_char; [intros ->; apply H; now left|].
  apply IH. intro; apply H; now right.
Qed.
Lemma posix_no_cr s t : posix s t -> ~ In 13 t.
Proof. induction 1; cbn; intuition congruence. Qed.
Lemma normalize_pf rel s : exists t, posix (match rel with Some r => replace r [] s | None => s end) t /\
  normalize_text rel s = escape (ensure_newline t).
Proof.
  unfold normalize_text. set (u := match rel with Some r => replace r [] s | None => s end).
  destruct (existsb (Z.eqb 13) u) eqn:E.
  - destruct (replace_posix u (List.length u) (le_n _)) as (t & P & <-). eauto.
  - exists u. split; [|reflexivity]. apply posix_same. intro I.
    assert (existsb (Z.eqb 13) u = true); [|congruence]. apply existsb_exists. exists 13. now rewrite Z.eqb_refl.
Qed.
Lemma ensure_newline_spec t : ensure_newline t = t \/ ensure_newline t = t ++ [10].
Proof. unfold ensure_newline. destruct (rev t); [auto|]. destruct (negb (z =? 10)); auto. Qed.
Lemma ensure_newline_last t : t <> [] -> exists u, ensure_newline t = u ++ [10].
Proof.
  intro N. unfold ensure_newline. destruct (rev t) as [|c r] eqn:E.
  - apply (f_equal (@rev Z)) in E. rewrite rev_involutive in E. contradiction.
  - destruct (Z.eqb_spec c 10) as [->|]; cbn; [|eauto]. exists (rev r).
    rewrite <- (rev_involutive t), E. reflexivity.
Qed.
Lemma escape_no_cr s : Forall code_point s -> ~ In 13 s -> ~ In 13 (escape s).
Proof.
  intros F H I. unfold escape in I. apply in_flat_map in I. destruct I as (c & Hc & I).
  rewrite Forall_forall in F. specialize (F c Hc). destruct (xml_kept c).
  - destruct I as [E|[]]. subst c. contradiction.
  - destruct (escape_code_shape c) as (h & E & U & _); [unfold code_point in F; lia|]. rewrite E in I.
    apply in_app_or in I. destruct I as [I|I]; [cbn in I; intuition discriminate|].
    rewrite Forall_forall in U. specialize (U _ I). unfold upper_hex in U. lia.
Qed.
Lemma posix_forall (P : Z -> Prop) s t : P 10 -> posix s t -> Forall P s -> Forall P t.
Proof.
  intro P10. induction 1; intro F; constructor; try assumption; try (inversion F; subst; auto).
  inversion H3; auto.
Qed.
Lemma replace_forall (P : Z -> Prop) old new s : Forall P new -> Forall P s -> forall k, Forall P (replace_from old new k s).
Proof.
  intros N F. induction F as [|c s H F IH]; intro k; [constructor|]. cbn [replace_from]. destruct k as [|k]; [|apply IH].
  destruct (after_prefix old (c :: s)); [apply Forall_app; auto|constructor; auto].
Qed.
Lemma normalize_valid_pf rel s : Forall code_point s ->
  xml_text (normalize_text rel s) /\ ~ In 13 (normalize_text rel s) /\
  (normalize_text rel s = [] \/ exists u, normalize_text rel s = u ++ [10]).
Proof.
  intro F. destruct (normalize_pf rel s) as (t & P & ->).
  assert (Ft : Forall code_point t).
  { eapply posix_forall; [|exact P|]; [unfold code_point; lia|]. destruct rel; [|exact F]. now apply replace_forall. }
  assert (Fe : Forall code_point (ensure_newline t)).
  { destruct (ensure_newline_spec t) as [->| ->]; [exact Ft|]. apply Forall_app. split; [exact Ft|].
    repeat constructor; lia. }
  repeat split.
  - now apply escape_valid_pf.
  - apply escape_no_cr; [exact Fe|]. pose proof (posix_no_cr _ _ P).
    destruct (ensure_newline_spec t) as [->| ->]; [assumption|]. rewrite in_app_iff. cbn. intuition discriminate.
  - destruct t as [|c t]; [now left|]. right. destruct (ensure_newline_last (c :: t)) as (u & ->); [discriminate|].
    exists (escape u). now rewrite escape_app.
Qed.

(** * Integers as text *)
Lemma dec_digits v : 0 <= v -> decimal (rev (map (digit_chr FDec) (digits_of 10 v))) /\
  value10 (rev (map (digit_chr FDec) (digits_of 10 v))) = v.
Proof.
  intro H. destruct (digits_of_val 10 v ltac:(lia) H) as (V & F & _ & L).
  assert (G : Forall (fun c => 48 <= c <= 57) (map (digit_chr FDec) (digits_of 10 v))).
  { apply Forall_map. eapply Forall_impl; [|exact F]. cbv beta. intros d Hd. unfold digit_chr. destruct (Z.ltb_spec d 10); cbv match; lia. }
  split; [split|].
  - intro E. apply (f_equal (@List.length Z)) in E. rewrite rev_length, map_length in E. change (List.length (@nil Z)) with 0%nat in E. lia.
  - now apply Forall_rev.
  - assert (E : value10 (rev (map (digit_chr FDec) (digits_of 10 v))) = read_number 10 (rev (map (digit_chr FDec) (digits_of 10 v)))).
    { unfold value10, read_number. apply Forall_rev in G. generalize 0. revert G.
      generalize (rev (map (digit_chr FDec) (digits_of 10 v))). intro l. induction l as [|c l IH]; intros G a; [reflexivity|].
      inversion G as [|? ? Hc Gl]; subst. cbn [fold_left]. rewrite IH by exact Gl. f_equal. f_equal. unfold digit_val.
      destruct (Z.leb_spec 48 c), (Z.leb_spec c 57); try lia. reflexivity. }
    rewrite E, read_rev, map_map. rewrite <- V at 2. f_equal. rewrite <- (map_id (digits_of 10 v)) at 2. apply map_ext_in.
    intros d Hd. rewrite Forall_forall in F. apply F in Hd. apply (digit_chr_val FDec d Hd).
Qed.
Lemma py_int_str v : 0 <= v -> py_int10 (py_str_int v) = Ok v.
Proof.
  intro H. unfold py_str_int. destruct (Z.ltb_spec v 0); [lia|]. rewrite Z.abs_eq by lia. cbn [app].
  destruct (dec_digits v H) as [D V]. rewrite py_int10_decimal by exact D. now rewrite V.
Qed.
Lemma py_str_valid v : 0 <= v -> xml_text (py_str_int v).
Proof.
  intro H. unfold py_str_int. destruct (Z.ltb_spec v 0); [lia|]. rewrite Z.abs_eq by lia. cbn [app].
  destruct (dec_digits v H) as [[_ D] _]. eapply Forall_impl; [|exact D]. cbv beta. intros c Hc. unfold xml_char. lia.
Qed.

(** * Trees *)
Lemma iter_tag tag : forall e x, In x (e_iter tag e) -> e_tag x = tag.
Proof.
  fix IH 1. intros [t a tx cs] x. cbn [e_iter]. intro H. apply in_app_or in H. destruct H as [H|H].
  - destruct (pystr_eqb t tag) eqn:E; [|contradiction]. destruct H as [<-|[]]. now apply pystr_eqb_eq.
  - induction cs as [|c cs IHcs]; [contradiction|]. cbn [flat_map] in H. apply in_app_or in H.
    destruct H as [H|H]; [exact (IH c x H)|exact (IHcs H)].
Qed.
Lemma findall_all e tag : Forall (fun c => e_tag c = lit tag) (e_children e) -> e_findall e tag = e_children e.
Proof.
  intro F. unfold e_findall. induction F as [|c l H F IH]; [reflexivity|]. cbn [filter]. rewrite H, pystr_eqb_refl. now rewrite IH.
Qed.
Lemma has_child_find tag e : has_child tag e = match e_find e tag with Some _ => true | None => false end.
Proof.
  unfold has_child, e_find, e_findall. induction (e_children e) as [|c l IH]; [reflexivity|]. cbn [existsb filter].
  destruct (pystr_eqb (e_tag c) (lit tag)); [reflexivity|exact IH].
Qed.
Lemma case_failed_spec c : case_failed c = has_child "failure" c || has_child "error" c.
Proof. unfold case_failed. rewrite !has_child_find. destruct (e_find c "failure"), (e_find c "error"); reflexivity. Qed.

(** * The reporter *)
Lemma count_app {A} (p : A -> bool) a b : count p (a ++ b) = count p a + count p b.
Proof. unfold count, py_len. rewrite filter_app, app_length. lia. Qed.
Lemma count_nonneg {A} (p : A -> bool) l : 0 <= count p l.
Proof. unfold count, py_len. lia. Qed.
Lemma suite_key_class k t : pystr_eqb (suite_key (tc_class (fst t))) k = class_is k t.
Proof. unfold class_is, suite_key. destruct (tc_class (fst t)); reflexivity. Qed.

(** What the suites are after the test cases [l], whatever the time stamps. *)
Definition suite_for (r0 : reporter) (l : list (testcase * pystr)) (k : pystr) (s : suite) : Prop :=
  let mine := filter (class_is k) l in
  su_key s = k /\ su_tests s = py_len mine /\ su_failures s = count (has_status Failed) mine /\
  su_errors s = count (has_status Error) mine /\ su_skipped s = count (has_status Skipped) mine /\
  su_cases s = map (fun t => case_elem r0 (fst t)) mine /\ In (su_stamp s) (map snd l).
Definition keys (l : list (testcase * pystr)) := map (fun t => suite_key (tc_class (fst t))) l.
Lemma classes_keys l : classes l = keys l.
Proof. unfold classes, keys. apply map_ext. intro t. unfold suite_key. now destruct (tc_class (fst t)). Qed.

Lemma dedup_in {A} (eqb : A -> A -> bool) (E : forall a b, eqb a b = true <-> a = b) l x : In x (dedup eqb l) <-> In x l.
Proof.
  induction l as [|y l IH]; cbn [dedup]; [tauto|]. cbn [In]. rewrite filter_In, IH. split; [tauto|].
  intros [->|H]; [now left|]. destruct (eqb y x) eqn:Q; [left; now apply E|]. right. split; [exact H|reflexivity].
Qed.
Lemma dedup_nodup {A} (eqb : A -> A -> bool) (E : forall a b, eqb a b = true <-> a = b) l : NoDup (dedup eqb l).
Proof.
  induction l as [|y l IH]; cbn [dedup]; [constructor|]. constructor; [|now apply NoDup_filter].
  rewrite filter_In. intros [_ H]. assert (Q : eqb y y = true) by (now apply E). rewrite Q in H. discriminate.
Qed.
Lemma dedup_snoc {A} (eqb : A -> A -> bool) (E : forall a b, eqb a b = true <-> a = b) l x :
  dedup eqb (l ++ [x]) = if existsb (eqb x) l then dedup eqb l else dedup eqb l ++ [x].
Proof.
  induction l as [|y l IH]; [reflexivity|]. cbn [app dedup existsb]. rewrite IH. destruct (eqb x y) eqn:Q.
  - apply E in Q. subst y. cbn [orb]. destruct (existsb (eqb x) l); [reflexivity|]. rewrite filter_app. cbn [filter].
    assert (Q : eqb x x = true) by (now apply E). rewrite Q. cbn. now rewrite app_nil_r.
  - cbn [orb]. destruct (existsb (eqb x) l); [reflexivity|]. rewrite filter_app. cbn [filter].
    destruct (eqb y x) eqn:Q'; [|reflexivity]. apply E in Q'. subst. assert (eqb x x = true) by (now apply E). congruence.
Qed.

Definition shell (r : reporter) := (rp_name r, rp_rel r, rp_attach r, rp_host r).
Lemma case_elem_shell r r' t : shell r = shell r' -> case_elem r t = case_elem r' t.
Proof. unfold shell. intros [= _ H1 H2 _]. unfold case_elem, text_attachments. now rewrite H1, H2. Qed.
Lemma in_suite_absent name now f l : ~ In name (map su_key l) -> in_suite name now f l = l ++ [f (Suite name now 0 0 0 0 [])].
Proof.
  induction l as [|s l IH]; cbn; intro H; [reflexivity|]. destruct (pystr_eqb (su_key s) name) eqn:E.
  - apply pystr_eqb_eq in E. tauto.
  - rewrite IH; tauto.
Qed.
Lemma in_suite_present name now f l : In name (map su_key l) -> NoDup (map su_key l) ->
  in_suite name now f l = map (fun s => if pystr_eqb (su_key s) name then f s else s) l.
Proof.
  induction l as [|s l IH]; cbn; [intros []|]. intros H N. inversion N as [|? ? Nin Nl]; subst.
  destruct (pystr_eqb (su_key s) name) eqn:E.
  - f_equal. apply pystr_eqb_eq in E. subst name. clear -Nin. induction l as [|x l IH]; [reflexivity|]. cbn in *.
    destruct (pystr_eqb (su_key x) (su_key s)) eqn:E; [apply pystr_eqb_eq in E; tauto|]. f_equal. apply IH. tauto.
  - f_equal. apply IH; [|exact Nl]. destruct H as [H|H]; [|exact H]. subst. rewrite pystr_eqb_refl in E. discriminate.
Qed.
Lemma count_snoc {A} (p : A -> bool) l x : count p (l ++ [x]) = count p l + if p x then 1 else 0.
Proof. rewrite count_app. f_equal. unfold count. cbn. destruct (p x); reflexivity. Qed.
Lemma suite_for_other r0 l t k s : class_is k t = false -> suite_for r0 l k s -> suite_for r0 (l ++ [t]) k s.
Proof.
  intros C (H1 & H2 & H3 & H4 & H5 & H6 & H7). unfold suite_for. rewrite filter_app. cbn [filter]. rewrite C, app_nil_r.
  repeat (apply conj); try assumption. rewrite map_app. apply in_or_app. now left.
Qed.
Lemma suite_for_same r0 l t k s : class_is k t = true -> suite_for r0 l k s ->
  suite_for r0 (l ++ [t]) k (count_case (fst t) (case_elem r0 (fst t)) s).
Proof.
  intros C (H1 & H2 & H3 & H4 & H5 & H6 & H7). unfold suite_for. rewrite filter_app. cbn [filter]. rewrite C.
  cbn [count_case su_key su_tests su_failures su_errors su_skipped su_cases su_stamp].
  rewrite !count_snoc, map_app, H2, H3, H4, H5, H6. unfold has_status, py_len. rewrite app_length.
  repeat (apply conj); try assumption; try (destruct (tc_status (fst t)); lia).
  - cbn [List.length]. lia.
  - reflexivity.
  - rewrite map_app. apply in_or_app. now left.
Qed.
Lemma suite_for_new r0 l t k : class_is k t = true -> filter (class_is k) l = [] ->
  suite_for r0 (l ++ [t]) k (count_case (fst t) (case_elem r0 (fst t)) (Suite k (snd t) 0 0 0 0 [])).
Proof.
  intros C N. unfold suite_for. rewrite filter_app, N. cbn [filter]. rewrite C.
  cbn [count_case su_key su_tests su_failures su_errors su_skipped su_cases su_stamp app map].
  unfold count, has_status, py_len. cbn [filter]. repeat (apply conj); try (destruct (tc_status (fst t)); reflexivity).
  rewrite map_app. apply in_or_app. right. now left.
Qed.
Lemma report_snoc r l t : report r (l ++ [t]) = add_testcase (report r l) (fst t) (snd t).
Proof. unfold report. now rewrite fold_left_app. Qed.
Lemma report_shell r l : shell (report r l) = shell r.
Proof. induction l as [|t l IH] using rev_ind; [reflexivity|]. rewrite report_snoc. exact IH. Qed.
Lemma report_inv r0 l : rp_suites r0 = [] ->
  Forall2 (suite_for r0 l) (dedup pystr_eqb (keys l)) (rp_suites (report r0 l)).
Proof.
  intro E0. induction l as [|t l IH] using rev_ind.
  - cbn. rewrite E0. constructor.
  - rewrite report_snoc. unfold keys. rewrite map_app. cbn [map]. fold (keys l).
    rewrite dedup_snoc by apply pystr_eqb_eq. unfold add_testcase. cbn [rp_suites].
    set (k := suite_key (tc_class (fst t))) in *.
    rewrite (case_elem_shell (report r0 l) r0) by apply report_shell.
    assert (K : map su_key (rp_suites (report r0 l)) = dedup pystr_eqb (keys l)).
    { clear -IH. induction IH as [|k s ks ss H F I]; [reflexivity|]. cbn. rewrite I. f_equal. apply H. }
    assert (Ct : forall k', class_is k' t = pystr_eqb k k').
    { intro k'. unfold k. now rewrite suite_key_class. }
    destruct (existsb (pystr_eqb k) (keys l)) eqn:X.
    + assert (In k (keys l)).
      { apply existsb_exists in X. destruct X as (k' & I & Q). apply pystr_eqb_eq in Q. now subst. }
      rewrite in_suite_present; [| |]; rewrite ?K.
      * clear K. induction IH as [|k' s ks ss Hs F I]; [constructor|]. cbn [map]. constructor; [|exact I].
        assert (Q : su_key s = k') by apply Hs. rewrite Q. destruct (pystr_eqb k' k) eqn:Z1.
        -- apply suite_for_same; [|exact Hs]. rewrite Ct. apply pystr_eqb_eq in Z1. subst k'. rewrite Z1. apply pystr_eqb_refl.
        -- apply suite_for_other; [|exact Hs]. rewrite Ct. destruct (pystr_eqb k k') eqn:Z2; [|reflexivity].
           apply pystr_eqb_eq in Z2. rewrite Z2, pystr_eqb_refl in Z1. discriminate.
      * apply (dedup_in pystr_eqb pystr_eqb_eq). exact H.
      * apply (dedup_nodup pystr_eqb pystr_eqb_eq).
    + assert (N : ~ In k (keys l)).
      { intro I. assert (existsb (pystr_eqb k) (keys l) = true); [|congruence]. apply existsb_exists. exists k.
        split; [exact I|apply pystr_eqb_refl]. }
      rewrite in_suite_absent by (rewrite K, (dedup_in pystr_eqb pystr_eqb_eq); exact N).
      apply Forall2_app.
      * assert (D : Forall (fun k' => In k' (keys l)) (dedup pystr_eqb (keys l))).
        { apply Forall_forall. intro x. apply (dedup_in pystr_eqb pystr_eqb_eq). }
        clear K. induction IH as [|k' s ks ss Hs F I]; [constructor|]. inversion D; subst. constructor; [|now apply I].
        apply suite_for_other; [|exact Hs]. rewrite Ct. destruct (pystr_eqb k k') eqn:Z2; [|reflexivity].
        apply pystr_eqb_eq in Z2. congruence.
      * constructor; [|constructor]. apply suite_for_new; [rewrite Ct; apply pystr_eqb_refl|].
        destruct (filter (class_is k) l) as [|x f] eqn:Q; [reflexivity|]. exfalso. apply N.
        assert (I : In x (filter (class_is k) l)) by (rewrite Q; now left). apply filter_In in I. destruct I as [I C].
        unfold keys. apply in_map_iff. exists x. split; [|exact I]. rewrite <- suite_key_class in C. now apply pystr_eqb_eq.
Qed.

(** ** The written suites *)
Section Written.
Variables (r0 : reporter) (l : list (testcase * pystr)).
Hypothesis fresh : rp_suites r0 = [].
Definition written (k : pystr) (s : elem) : Prop :=
  let mine := filter (class_is k) l in
  e_tag s = lit "testsuite" /\ e_get s "name" = Some (escape k) /\
  attr_int s "tests" = Ok (py_len mine) /\ attr_int s "failures" = Ok (count (has_status Failed) mine) /\
  attr_int s "errors" = Ok (count (has_status Error) mine) /\
  attr_int s "skipped" = Ok (count (has_status Skipped) mine) /\
  e_children s = map (fun t => case_elem r0 (fst t)) mine.
Lemma suites_pf : Forall2 written (dedup pystr_eqb (classes l)) (e_children (write (report r0 l))).
Proof.
  pose proof (report_inv r0 l fresh) as H. rewrite classes_keys. cbn [write e_children]. generalize (report r0 l) at 1. intro rr.
  induction H as [|k s ks ss Hs F IH]; [constructor|]. cbn [map]. constructor; [|exact IH].
  destruct Hs as (H1 & H2 & H3 & H4 & H5 & H6 & _).
  unfold written, suite_elem, attr_int, e_get. cbn [e_tag e_attrs e_children dict_get pystr_eqb].
  pose proof (count_nonneg (has_status Failed) (filter (class_is k) l)).
  pose proof (count_nonneg (has_status Error) (filter (class_is k) l)).
  pose proof (count_nonneg (has_status Skipped) (filter (class_is k) l)).
  assert (0 <= py_len (filter (class_is k) l)) by (unfold py_len; lia).
  repeat (apply conj); cbn; rewrite ?H1, ?H2, ?H3, ?H4, ?H5, ?H6; try reflexivity; apply py_int_str; assumption.
Qed.
End Written.

Lemma simple_tag rel name why : e_tag (simple rel name why) = lit name.
Proof. destruct why as [|[|]|]; reflexivity. Qed.
Lemma case_elem_pf r t :
  e_tag (case_elem r t) = lit "testcase" /\
  e_get (case_elem r t) "classname" = Some (escape (tc_class t)) /\
  e_get (case_elem r t) "name" = Some (escape (tc_name t)) /\
  has_child "failure" (case_elem r t) = has_status Failed (t, []) /\
  has_child "error" (case_elem r t) = has_status Error (t, []) /\
  has_child "skipped" (case_elem r t) = has_status Skipped (t, []).
Proof.
  split; [reflexivity|]. split; [reflexivity|]. split; [reflexivity|].
  assert (G : forall tag, tag <> "properties"%string ->
    pystr_eqb (lit "properties") (lit tag) = false -> pystr_eqb (lit "system-out") (lit tag) = false ->
    pystr_eqb (lit "system-err") (lit tag) = false ->
    has_child tag (case_elem r t) =
      existsb (fun c => pystr_eqb (e_tag c) (lit tag))
        (match tc_status t with
         | Skipped => [simple (rp_rel r) "skipped" (tc_reason t)]
         | Error => [simple (rp_rel r) "error" (tc_reason t)]
         | Failed => [simple (rp_rel r) "failure" (tc_reason t)]
         | Passed | XFailed => []
         end)).
  { intros tag _ E1 E2 E3. unfold has_child, case_elem. cbn [e_children]. rewrite !existsb_app.
    match goal with |- _ || (?a || (?b || ?c)) = _ => assert (a = false /\ b = false /\ c = false) as (-> & -> & ->) end.
    { repeat split; cbn [existsb e_tag]; [now rewrite E1| |].
      - match goal with |- existsb _ (match ?o with _ => _ end) = _ => destruct o end; [reflexivity|]. cbn [existsb e_tag]. now rewrite E2.
      - match goal with |- existsb _ (match ?o with _ => _ end) = _ => destruct o end; [reflexivity|]. cbn [existsb e_tag]. now rewrite E3. }
    now rewrite !orb_false_r. }
  unfold has_status. cbn [fst].
  repeat split; rewrite G by (discriminate || reflexivity); destruct (tc_status t); cbn [existsb]; rewrite ?simple_tag; reflexivity.
Qed.
Lemma has_status_now s t : has_status s t = has_status s (fst t, []).
Proof. reflexivity. Qed.
Lemma count_map {A B} (p : B -> bool) (f : A -> B) l : count p (map f l) = count (fun x => p (f x)) l.
Proof.
  unfold count, py_len. f_equal. induction l as [|x l IH]; [reflexivity|]. cbn. destruct (p (f x)); cbn; now rewrite IH.
Qed.
Lemma count_ext {A} (p q : A -> bool) l : (forall x, p x = q x) -> count p l = count q l.
Proof. intro H. unfold count. f_equal. now apply filter_ext. Qed.
Lemma counters_pf r0 l s : rp_suites r0 = [] -> In s (e_children (write (report r0 l))) ->
  attr_int s "tests" = Ok (py_len (e_children s)) /\
  attr_int s "failures" = Ok (count (has_child "failure") (e_children s)) /\
  attr_int s "errors" = Ok (count (has_child "error") (e_children s)) /\
  attr_int s "skipped" = Ok (count (has_child "skipped") (e_children s)) /\
  Forall (fun c => e_tag c = lit "testcase") (e_children s).
Proof.
  intros F0 I. pose proof (suites_pf r0 l F0) as H.
  assert (K : exists k, written r0 l k s).
  { clear F0. induction H as [|k x ks xs Hx Hs IH]; [contradiction|]. destruct I as [->|I]; eauto. }
  destruct K as (k & W1 & W2 & W3 & W4 & W5 & W6 & W7). rewrite W7, W3, W4, W5, W6, !count_map.
  repeat (apply conj).
  - unfold py_len. now rewrite map_length.
  - f_equal. apply count_ext. intro t. symmetry. rewrite has_status_now. apply case_elem_pf.
  - f_equal. apply count_ext. intro t. symmetry. rewrite has_status_now. apply case_elem_pf.
  - f_equal. apply count_ext. intro t. symmetry. rewrite has_status_now. apply case_elem_pf.
  - apply Forall_map. apply Forall_forall. intros t _. apply case_elem_pf.
Qed.

(** ** Totals *)
Definition zsum (l : list Z) : Z := fold_right Z.add 0 l.
Lemma zsum_zero {A} (f : A -> Z) l : (forall x, In x l -> f x = 0) -> zsum (map f l) = 0.
Proof.
  induction l as [|x l IH]; intro H; [reflexivity|]. unfold zsum in *. cbn [map fold_right].
  rewrite H by (now left). rewrite IH by (intros; apply H; now right). reflexivity.
Qed.
Lemma zsum_add {A} (f g : A -> Z) l : zsum (map (fun x => f x + g x) l) = zsum (map f l) + zsum (map g l).
Proof. induction l as [|x l IH]; cbn; [reflexivity|]. unfold zsum in *. rewrite IH. lia. Qed.
Lemma zsum_one k ks : NoDup ks -> In k ks -> zsum (map (fun x => if pystr_eqb k x then 1 else 0) ks) = 1.
Proof.
  induction ks as [|x ks IH]; [intros _ []|]. intros N I. inversion N as [|? ? Nx Nk]; subst. cbn [map zsum fold_right].
  destruct (pystr_eqb k x) eqn:E.
  - apply pystr_eqb_eq in E. subst x. fold (zsum (map (fun x => if pystr_eqb k x then 1 else 0) ks)).
    rewrite zsum_zero; [reflexivity|]. intros y Hy. destruct (pystr_eqb k y) eqn:Q; [|reflexivity].
    apply pystr_eqb_eq in Q. congruence.
  - destruct I as [->|I]; [rewrite pystr_eqb_refl in E; discriminate|]. unfold zsum in IH. rewrite IH by assumption. reflexivity.
Qed.
Lemma total_by_class (p : testcase * pystr -> bool) l ks : NoDup ks -> (forall t, In t l -> In (suite_key (tc_class (fst t))) ks) ->
  zsum (map (fun k => count p (filter (class_is k) l)) ks) = count p l.
Proof.
  intros N. induction l as [|t l IH]; intro C.
  - apply zsum_zero. reflexivity.
  - assert (E : forall k, count p (filter (class_is k) (t :: l)) =
      (if pystr_eqb (suite_key (tc_class (fst t))) k then 1 else 0) * (if p t then 1 else 0) + count p (filter (class_is k) l)).
    { intro k. cbn [filter]. rewrite <- suite_key_class. destruct (pystr_eqb (suite_key (tc_class (fst t))) k); [|lia].
      unfold count, py_len. cbn [filter]. destruct (p t); cbn [List.length]; lia. }
    rewrite (map_ext _ _ E), zsum_add, IH by (intros; apply C; now right).
    assert (S1 : zsum (map (fun k => (if pystr_eqb (suite_key (tc_class (fst t))) k then 1 else 0) * (if p t then 1 else 0)) ks)
                 = if p t then 1 else 0).
    { destruct (p t).
      - erewrite map_ext; [apply (zsum_one (suite_key (tc_class (fst t))) ks N); apply C; now left|]. intro k. apply Z.mul_1_r.
      - apply zsum_zero. intros k _. lia. }
    rewrite S1. unfold count, py_len. cbn [filter]. destruct (p t); cbn [List.length]; lia.
Qed.
Lemma sum_suites_ok (ks : list pystr) (L : list elem) (t f e : pystr -> Z) :
  Forall2 (fun k s => attr_int s "tests" = Ok (t k) /\ attr_int s "failures" = Ok (f k) /\ attr_int s "errors" = Ok (e k)) ks L ->
  forall acc, sum_suites acc L = Ok (fst acc + zsum (map t ks), snd acc + zsum (map f ks) + zsum (map e ks)).
Proof.
  induction 1 as [|k s ks L (H1 & H2 & H3) F IH]; intro acc.
  - cbn. f_equal. destruct acc; cbn. f_equal; lia.
  - cbn [sum_suites]. rewrite H1, H2, H3. cbn [bind]. rewrite IH. cbn [fst snd map zsum fold_right]. f_equal. f_equal; unfold zsum; lia.
Qed.
Lemma report_results_pf r0 l : rp_suites r0 = [] ->
  get_results (write (report r0 l)) = Ok (py_len l, count (has_status Failed) l + count (has_status Error) l).
Proof.
  intro F0. pose proof (suites_pf r0 l F0) as H. unfold get_results. rewrite findall_all.
  - rewrite (sum_suites_ok (dedup pystr_eqb (classes l)) _ (fun k => count (fun _ => true) (filter (class_is k) l))
      (fun k => count (has_status Failed) (filter (class_is k) l)) (fun k => count (has_status Error) (filter (class_is k) l))).
    + cbn [fst snd]. assert (D := dedup_nodup pystr_eqb pystr_eqb_eq (classes l)).
      assert (C : forall t, In t l -> In (suite_key (tc_class (fst t))) (dedup pystr_eqb (classes l))).
      { intros t I. apply (dedup_in pystr_eqb pystr_eqb_eq). rewrite classes_keys. unfold keys. apply in_map_iff. eauto. }
      rewrite !total_by_class by assumption. rewrite !Z.add_0_l. f_equal. f_equal. unfold count. f_equal.
      clear. induction l; cbn; congruence.
    + clear F0. induction H as [|k s ks L (W1 & W2 & W3 & W4 & W5 & _) F IH]; constructor; [|exact IH].
      split; [|auto]. rewrite W3. f_equal. unfold count, py_len. f_equal. f_equal. clear. induction (filter (class_is k) l); cbn; congruence.
  - clear F0. induction H as [|k s ks L (W1 & _) F IH]; constructor; assumption.
Qed.

(** ** Every text of the document is XML *)
Lemma xml_text_code s : xml_text s -> Forall code_point s.
Proof. intro H. eapply Forall_impl; [|exact H]. intros c. unfold xml_char, code_point. lia. Qed.
Lemma normalize_ok rel s : Forall code_point s -> xml_text (normalize_text rel s).
Proof. intro H. apply (normalize_valid_pf rel s H). Qed.
Lemma lit_code s : xml_text (lit s) -> Forall code_point (lit s).
Proof. apply xml_text_code. Qed.
Lemma join_code c l : code_point c -> Forall (Forall code_point) l -> Forall code_point (join [c] l).
Proof.
  intros C F. induction F as [|x l H F IH]; [constructor|]. destruct l as [|y l]; [exact H|].
  rewrite join_cons by discriminate. apply Forall_app. split; [exact H|]. apply Forall_app. split; [constructor; [exact C|constructor]|exact IH].
Qed.
Lemma ensure_code s : Forall code_point s -> Forall code_point (ensure_newline s).
Proof.
  intro H. destruct (ensure_newline_spec s) as [->| ->]; [exact H|]. apply Forall_app. split; [exact H|].
  constructor; [unfold code_point; lia|constructor].
Qed.
Ltac lits := match goal with |- Forall code_point (lit _) => cbn; repeat (constructor; [unfold code_point; lia|]); constructor end.
Lemma attach_code r : Forall xml_text (rp_attach r) -> Forall code_point (text_attachments r).
Proof.
  intro H. unfold text_attachments. apply join_code; [unfold code_point; lia|]. apply Forall_map.
  eapply Forall_impl; [|exact H]. cbv beta. intros a Ha. apply Forall_app. split; [lits|]. apply Forall_app.
  split; [now apply xml_text_code|lits].
Qed.
Lemma simple_valid rel name why : reason_ok why -> valid_document (simple rel name why).
Proof.
  intro H. unfold valid_document. destruct why as [|s|ty m f]; cbn in *.
  - repeat constructor.
  - destruct s as [|c s]; cbn; [repeat constructor|].
    constructor; [|repeat constructor]. change (xml_text (escape (c :: s))). now apply escape_valid_pf.
  - destruct H as (H1 & H2 & H3). constructor; [now apply escape_valid_pf|]. constructor; [now apply escape_valid_pf|].
    constructor; [now apply normalize_ok|constructor].
Qed.
Lemma valid_elem t a x cs : Forall (fun kv => xml_text (snd kv)) a -> xml_text x -> Forall valid_document cs ->
  valid_document (Elem t a x cs).
Proof.
  intros H1 H2 H3. unfold valid_document. cbn [texts]. apply Forall_app. split; [now apply Forall_map|].
  constructor; [exact H2|]. apply Forall_flat_map. exact H3.
Qed.
Lemma case_valid r t : Forall xml_text (rp_attach r) -> case_ok t -> valid_document (case_elem r t).
Proof.
  intros HA (H1 & H2 & H3 & H4 & H5 & H6). unfold case_elem. apply valid_elem; [|constructor|].
  - repeat constructor; now apply escape_valid_pf.
  - apply Forall_app. split; [|apply Forall_app; split; [|apply Forall_app; split]].
    + destruct (tc_status t); repeat constructor; now apply simple_valid.
    + constructor; [|constructor]. apply valid_elem; [constructor|constructor|]. apply Forall_app. split; apply Forall_map.
      * eapply Forall_impl; [|exact H6]. intros kv [K1 K2]. apply valid_elem; [|constructor|constructor]. repeat constructor; assumption.
      * destruct (tc_status t); try (now constructor);
          (eapply Forall_impl; [|exact HA]); intros a Ha; (apply valid_elem; [|constructor|constructor]); constructor;
          [cbn; repeat (constructor; [unfold xml_char; lia|]); constructor|repeat constructor; assumption
          |cbn; repeat (constructor; [unfold xml_char; lia|]); constructor|repeat constructor; assumption
          |cbn; repeat (constructor; [unfold xml_char; lia|]); constructor|repeat constructor; assumption
          |cbn; repeat (constructor; [unfold xml_char; lia|]); constructor|repeat constructor; assumption].
    + match goal with |- Forall _ (match ?o with _ => _ end) => assert (Forall code_point o); [|destruct o; [constructor|]] end.
      * pose proof (attach_code r HA) as T. destruct (tc_status t); try exact H3;
          (destruct (text_attachments r); [exact H3|apply Forall_app; split; [now apply ensure_code|exact T]]).
      * constructor; [|constructor]. apply valid_elem; [constructor|now apply normalize_ok|constructor].
    + destruct (tc_err t); [constructor|]. constructor; [|constructor]. apply valid_elem; [constructor|now apply normalize_ok|constructor].
Qed.
Lemma report_cases r0 l : Forall xml_text (rp_attach r0) -> Forall (fun t => case_ok (fst t)) l ->
  Forall (fun s => Forall valid_document (su_cases s) /\ 0 <= su_errors s /\ 0 <= su_failures s /\ 0 <= su_skipped s /\ 0 <= su_tests s /\
    (In (su_stamp s) (map snd l) \/ In s (rp_suites r0)) /\ (In (su_key s) (map (fun t => suite_key (tc_class (fst t))) l) \/ In s (rp_suites r0)))
    (rp_suites (report r0 l)) \/ rp_suites r0 <> [].
Proof.
  intros HA HL. destruct (rp_suites r0) eqn:E0; [left|right; discriminate].
  pose proof (report_inv r0 l E0) as H. apply Forall_forall. intros s I.
  assert (K : exists k, In k (dedup pystr_eqb (keys l)) /\ suite_for r0 l k s).
  { clear -H I. induction H as [|k x ks xs Hx Hs IH]; [contradiction|]. destruct I as [->|I].
    - exists k. split; [now left|exact Hx].
    - destruct (IH I) as (k' & ? & ?). exists k'. split; [now right|assumption]. }
  destruct K as (k & Ik & K1 & K2 & K3 & K4 & K5 & K6 & K7). rewrite K6, K1, K2, K3, K4, K5.
  repeat (apply conj); try apply count_nonneg.
  - apply Forall_map. apply Forall_forall. intros t It. apply filter_In in It. destruct It as [It _].
    apply case_valid; [exact HA|]. rewrite Forall_forall in HL. apply (HL t It).
  - now left.
  - left. rewrite (dedup_in pystr_eqb pystr_eqb_eq) in Ik. exact Ik.
Qed.
Lemma document_pf r0 l : rp_suites r0 = [] -> xml_text (rp_name r0) -> Forall xml_text (rp_attach r0) ->
  Forall code_point (rp_host r0) -> Forall (fun t => case_ok (fst t) /\ Forall code_point (snd t)) l ->
  valid_document (write (report r0 l)).
Proof.
  intros F0 HN HA HH HL. pose proof (report_shell r0 l) as S. unfold shell in S. injection S as S1 _ _ S4.
  unfold write. rewrite S1. apply valid_elem; [now repeat constructor|constructor|]. apply Forall_map.
  destruct (report_cases r0 l HA) as [G|G].
  { eapply Forall_impl; [|exact HL]. now intros t [H _]. }
  2: now rewrite F0 in G.
  rewrite F0 in G. eapply Forall_impl; [|exact G]. intros s (C & C1 & C2 & C3 & C4 & C5 & C6).
  unfold suite_elem. apply valid_elem; [|constructor|exact C]. rewrite S4.
  rewrite Forall_forall in HL.
  assert (Forall code_point (su_stamp s)).
  { destruct C5 as [C5|[]]. apply in_map_iff in C5. destruct C5 as (t & <- & It). apply (HL t It). }
  assert (Forall code_point (su_key s)).
  { destruct C6 as [C6|[]]. apply in_map_iff in C6. destruct C6 as (t & <- & It). unfold suite_key.
    destruct (tc_class (fst t)) eqn:Ec; [lits|]. rewrite <- Ec. apply (HL t It). }
  repeat (constructor; [cbn [snd]; try (now apply escape_valid_pf); try (now apply py_str_valid)|]). constructor.
Qed.

(** * Combining *)
Lemma opt_eqb_eq a b : opt_str_eqb a b = true <-> a = b.
Proof. destruct a, b; cbn; try (split; congruence). rewrite pystr_eqb_eq. split; congruence. Qed.
Lemma opt_eqb_refl a : opt_str_eqb a a = true.
Proof. now apply opt_eqb_eq. Qed.
Definition name_of (e : elem) := e_get e "name".
(** The combined suite [s] of the name [n]. *)
Definition merged (L : list elem) (n : option pystr) (s : elem) : Prop :=
  e_get s "name" = n /\ e_children s = flat_map e_children (named n L) /\
  exists f, hd_error (named n L) = Some f /\ e_tag s = e_tag f /\ e_attrs s = e_attrs f /\ e_text s = e_text f.
Definition combine_suites (L : list elem) : list elem := fold_left (fun result ts => merge ts result) L [].
Lemma named_snoc n L x : named n (L ++ [x]) = named n L ++ if opt_str_eqb (name_of x) n then [x] else [].
Proof. unfold named. rewrite filter_app. reflexivity. Qed.
Lemma merged_other L x n s : opt_str_eqb (name_of x) n = false -> merged L n s -> merged (L ++ [x]) n s.
Proof. intros E H. unfold merged. rewrite named_snoc, E, app_nil_r. exact H. Qed.
Lemma merged_same L x n t a tx cs : opt_str_eqb (name_of x) n = true -> merged L n (Elem t a tx cs) ->
  merged (L ++ [x]) n (Elem t a tx (cs ++ e_children x)).
Proof.
  intros E (H1 & H2 & f & H3 & H4). unfold merged. rewrite named_snoc, E. cbn [e_children e_tag e_attrs e_text e_get] in *.
  split; [exact H1|]. split; [now rewrite flat_map_app, H2; cbn; rewrite app_nil_r|]. exists f. split; [|exact H4].
  destruct (named n L); [discriminate|exact H3].
Qed.
Lemma combine_inv L : Forall2 (merged L) (dedup opt_str_eqb (map name_of L)) (combine_suites L).
Proof.
  induction L as [|x L IH] using rev_ind; [constructor|].
  unfold combine_suites. rewrite fold_left_app. cbn [fold_left]. fold (combine_suites L).
  rewrite map_app. cbn [map]. rewrite dedup_snoc by apply opt_eqb_eq.
  destruct (existsb (opt_str_eqb (name_of x)) (map name_of L)) eqn:X.
  - assert (I : In (name_of x) (dedup opt_str_eqb (map name_of L))).
    { apply (dedup_in opt_str_eqb opt_eqb_eq). apply existsb_exists in X. destruct X as (n & I & Q). apply opt_eqb_eq in Q. now rewrite Q. }
    pose proof (dedup_nodup opt_str_eqb opt_eqb_eq (map name_of L)) as N. clear X.
    induction IH as [|n s ns ss Hs F IHF]; [contradiction|]. inversion N as [|? ? Nn Nns]; subst.
    destruct s as [t a tx cs]. cbn [merge].
    assert (E : e_get (Elem t a tx cs) "name" = n) by apply Hs. rewrite E. change (e_get x "name") with (name_of x).
    destruct (opt_str_eqb n (name_of x)) eqn:Q.
    + constructor.
      * apply merged_same; [|exact Hs]. apply opt_eqb_eq in Q. rewrite Q. apply opt_eqb_refl.
      * apply opt_eqb_eq in Q. subst n. rewrite Q in Nn. clear -F Nn.
        induction F as [|n s ns ss Hs F IHF]; constructor.
        -- apply merged_other; [|exact Hs]. destruct (opt_str_eqb (name_of x) n) eqn:Z1; [|reflexivity].
           apply opt_eqb_eq in Z1. exfalso. apply Nn. left. congruence.
        -- apply IHF. intro J. apply Nn. now right.
    + constructor; [|apply IHF; [|exact Nns]].
      * apply merged_other; [|exact Hs]. destruct (opt_str_eqb (name_of x) n) eqn:Z1; [|reflexivity].
        apply opt_eqb_eq in Z1. rewrite <- Z1, opt_eqb_refl in Q. discriminate.
      * destruct I as [I|I]; [|exact I]. rewrite I, opt_eqb_refl in Q. discriminate.
  - assert (N : Forall (fun n => opt_str_eqb (name_of x) n = false) (dedup opt_str_eqb (map name_of L))).
    { apply Forall_forall. intros n I. rewrite (dedup_in opt_str_eqb opt_eqb_eq) in I.
      destruct (opt_str_eqb (name_of x) n) eqn:Q; [|reflexivity].
      assert (existsb (opt_str_eqb (name_of x)) (map name_of L) = true); [|congruence]. apply existsb_exists. exists n. split; assumption. }
    assert (NN : named (name_of x) L = []).
    { unfold named. destruct (filter (fun s => opt_str_eqb (e_get s "name") (name_of x)) L) as [|y f] eqn:Q; [reflexivity|exfalso].
      assert (I : In y (filter (fun s => opt_str_eqb (e_get s "name") (name_of x)) L)) by (rewrite Q; now left).
      apply filter_In in I. destruct I as [I E]. apply opt_eqb_eq in E.
      assert (existsb (opt_str_eqb (name_of x)) (map name_of L) = true); [|congruence]. apply existsb_exists.
      exists (name_of y). split; [now apply in_map|]. unfold name_of in *. rewrite E. apply opt_eqb_refl. }
    clear X. induction IH as [|n s ns ss Hs F IHF].
    + cbn. constructor; [|constructor]. unfold merged. rewrite named_snoc, NN, opt_eqb_refl. cbn.
      split; [reflexivity|]. split; [now rewrite app_nil_r|]. exists x. auto.
    + inversion N as [|? ? N1 N2]; subst. destruct s as [t a tx cs]. cbn [merge].
      assert (E : e_get (Elem t a tx cs) "name" = n) by apply Hs. rewrite E. change (e_get x "name") with (name_of x).
      destruct (opt_str_eqb n (name_of x)) eqn:Q; [apply opt_eqb_eq in Q; rewrite Q, opt_eqb_refl in N1; discriminate|].
      cbn [app]. constructor; [now apply merged_other|now apply IHF].
Qed.
Lemma combine_children name inputs : e_children (combine name inputs) = combine_suites (flat_map suites inputs).
Proof. reflexivity. Qed.
Lemma combine_pf name inputs : let L := flat_map suites inputs in
  Forall2 (merged L) (dedup opt_str_eqb (map (fun s => e_get s "name") L)) (e_children (combine name inputs)).
Proof. apply combine_inv. Qed.
Lemma merge_perm x R : Permutation (flat_map e_children (merge x R)) (flat_map e_children R ++ e_children x).
Proof.
  induction R as [|[t a tx cs] R IH]; [cbn; now rewrite app_nil_r|]. cbn [merge].
  destruct (opt_str_eqb (e_get (Elem t a tx cs) "name") (e_get x "name")); cbn [flat_map e_children].
  - rewrite <- !app_assoc. apply Permutation_app_head. apply Permutation_app_comm.
  - rewrite <- app_assoc. now apply Permutation_app_head.
Qed.
Lemma combine_perm L : Permutation (flat_map e_children (combine_suites L)) (flat_map e_children L).
Proof.
  induction L as [|x L IH] using rev_ind; [constructor|]. unfold combine_suites. rewrite fold_left_app. cbn [fold_left].
  fold (combine_suites L). rewrite merge_perm, flat_map_app. cbn. rewrite app_nil_r. now apply Permutation_app_tail.
Qed.
Lemma suites_tag d s : In s (suites d) -> e_tag s = lit "testsuite".
Proof. apply iter_tag. Qed.
Lemma combine_tags inputs : Forall (fun s => e_tag s = lit "testsuite") (combine_suites (flat_map suites inputs)).
Proof.
  pose proof (combine_inv (flat_map suites inputs)) as H. apply Forall_forall. intros s I.
  assert (K : exists n, merged (flat_map suites inputs) n s).
  { revert H I. generalize (dedup opt_str_eqb (map name_of (flat_map suites inputs))). generalize (combine_suites (flat_map suites inputs)).
    intros R ns H I. induction H as [|n x ns R Hx F IH]; [contradiction|]. destruct I as [->|I]; eauto. }
  destruct K as (n & _ & _ & f & Hf & Ht & _). rewrite Ht.
  assert (If : In f (named n (flat_map suites inputs))) by (destruct (named n (flat_map suites inputs)); [discriminate|injection Hf as ->; now left]).
  unfold named in If. apply filter_In in If. destruct If as [If _]. apply in_flat_map in If. destruct If as (d & _ & Id).
  now apply suites_tag in Id.
Qed.
Lemma iter_children s : e_tag s = lit "testsuite" -> e_iter (lit "testcase") s = flat_map (e_iter (lit "testcase")) (e_children s).
Proof. destruct s as [t a x cs]. cbn [e_tag]. intros ->. reflexivity. Qed.
Lemma existsb_flat {A B} (p : B -> bool) (f : A -> list B) l : existsb (fun x => existsb p (f x)) l = existsb p (flat_map f l).
Proof. induction l as [|x l IH]; [reflexivity|]. cbn. now rewrite existsb_app, IH. Qed.
Lemma existsb_perm {A} (p : A -> bool) a b : Permutation a b -> existsb p a = existsb p b.
Proof.
  induction 1; cbn; try congruence. destruct (p x), (p y); reflexivity.
Qed.
Lemma iter_all_children L : Forall (fun s => e_tag s = lit "testsuite") L ->
  flat_map (e_iter (lit "testcase")) L = flat_map (e_iter (lit "testcase")) (flat_map e_children L).
Proof.
  induction 1 as [|s L H F IH]; [reflexivity|]. cbn [flat_map]. now rewrite iter_children, flat_map_app, IH by exact H.
Qed.
Lemma combine_rc_pf name inputs : combine_rc (combine name inputs) = 1 <-> exists d, In d inputs /\ has_failure d.
Proof.
  unfold combine_rc. rewrite findall_all by (rewrite combine_children; apply combine_tags). rewrite combine_children.
  assert (T : Forall (fun s => e_tag s = lit "testsuite") (flat_map suites inputs)).
  { apply Forall_forall. intros s I. apply in_flat_map in I. destruct I as (d & _ & I). now apply suites_tag in I. }
  assert (E : existsb (fun s => existsb case_failed (e_iter (lit "testcase") s)) (combine_suites (flat_map suites inputs)) =
              existsb (fun s => existsb case_failed (e_iter (lit "testcase") s)) (flat_map suites inputs)).
  { rewrite !existsb_flat, (iter_all_children _ (combine_tags inputs)), (iter_all_children _ T).
    apply existsb_perm. apply Permutation_flat_map. apply combine_perm. }
  rewrite E. split.
  - intro H. destruct (existsb _ (flat_map suites inputs)) eqn:X; [|discriminate]. apply existsb_exists in X.
    destruct X as (s & Is & X). apply existsb_exists in X. destruct X as (c & Ic & X). apply in_flat_map in Is.
    destruct Is as (d & Id & Is). exists d. split; [exact Id|]. exists s, c. rewrite case_failed_spec in X. apply orb_prop in X. auto.
  - intros (d & Id & s & c & Is & Ic & X).
    assert (Q : existsb (fun s => existsb case_failed (e_iter (lit "testcase") s)) (flat_map suites inputs) = true); [|now rewrite Q].
    apply existsb_exists. exists s. split; [apply in_flat_map; eauto|]. apply existsb_exists. exists c. split; [exact Ic|].
    rewrite case_failed_spec. destruct X as [-> | ->]; [reflexivity|apply orb_true_r].
Qed.
(** Distinct names: nothing is merged. *)
Lemma merge_fresh x R : ~ In (name_of x) (map name_of R) -> merge x R = R ++ [x].
Proof.
  induction R as [|[t a tx cs] R IH]; cbn [merge map In app]; intro H; [reflexivity|].
  destruct (opt_str_eqb (e_get (Elem t a tx cs) "name") (e_get x "name")) eqn:E.
  - apply opt_eqb_eq in E. exfalso. apply H. left. exact E.
  - rewrite IH; [reflexivity|tauto].
Qed.
Lemma combine_distinct L : NoDup (map name_of L) -> combine_suites L = L.
Proof.
  induction L as [|x L IH] using rev_ind; intro N; [reflexivity|]. unfold combine_suites. rewrite fold_left_app. cbn [fold_left].
  fold (combine_suites L). rewrite map_app in N. cbn [map] in N. apply NoDup_remove in N. rewrite app_nil_r in N. destruct N as [N1 N2].
  rewrite IH by exact N1. now apply merge_fresh.
Qed.
Lemma sum_app a b : forall acc, sum_suites acc (a ++ b) = bind (sum_suites acc a) (fun acc => sum_suites acc b).
Proof.
  induction a as [|s a IH]; intro acc; [reflexivity|]. cbn [app sum_suites].
  destruct (attr_int s "tests"); [|reflexivity]. cbn [bind]. destruct (attr_int s "failures"); [|reflexivity]. cbn [bind].
  destruct (attr_int s "errors"); [|reflexivity]. cbn [bind]. apply IH.
Qed.
Lemma sum_shift L : forall a b t f, sum_suites (0, 0) L = Ok (t, f) -> sum_suites (a, b) L = Ok (a + t, b + f).
Proof.
  assert (G : forall L a b c d, sum_suites (a + c, b + d) L =
    match sum_suites (a, b) L with Ok (t, f) => Ok (t + c, f + d) | Err e => Err e end).
  { clear. induction L as [|s L IH]; intros a b c d; [reflexivity|]. cbn [sum_suites].
    destruct (attr_int s "tests") as [x|]; [|reflexivity]. cbn [bind]. destruct (attr_int s "failures") as [y|]; [|reflexivity]. cbn [bind].
    destruct (attr_int s "errors") as [z|]; [|reflexivity]. cbn [bind fst snd]. rewrite <- IH. f_equal. f_equal; lia. }
  intros a b t f H. specialize (G L 0 0 a b). cbn [Z.add] in G. change (0 + a) with a in G. rewrite H in G.
  change (sum_suites (0 + a, 0 + b) L) with (sum_suites (a, b) L) in G. rewrite G. f_equal. f_equal; lia.
Qed.
Lemma combine_results_pf name inputs (tf : list (Z * Z)) :
  Forall (fun d => suites d = e_findall d "testsuite") inputs ->
  NoDup (map (fun s => e_get s "name") (flat_map suites inputs)) ->
  Forall2 (fun d r => get_results d = Ok r) inputs tf ->
  get_results (combine name inputs) = Ok (zsum (map fst tf), zsum (map snd tf)).
Proof.
  intros F N R. unfold get_results. rewrite findall_all by (rewrite combine_children; apply combine_tags).
  rewrite combine_children, combine_distinct by exact N. clear N. induction R as [|d [t f] inputs tf Hd R IH]; [reflexivity|].
  inversion F as [|? ? F1 F2]; subst. cbn [flat_map map]. rewrite sum_app. rewrite F1. unfold get_results in Hd. rewrite Hd. cbn [bind].
  rewrite (sum_shift _ t f _ _ (IH F2)). reflexivity.
Qed.

(** * Exit status *)
Lemma count_zero {A} (p : A -> bool) l : count p l = 0 <-> Forall (fun x => p x = false) l.
Proof.
  induction l as [|x l IH]; [split; [constructor|reflexivity]|]. unfold count, py_len in *. cbn [filter]. split.
  - destruct (p x) eqn:E; cbn [List.length]; intro H; [lia|]. constructor; [exact E|now apply IH].
  - intro F. inversion F as [|? ? Hx Fl]; subst. rewrite Hx. now apply IH.
Qed.
Lemma check_status_pf r l : rp_suites r = [] -> count (has_status Failed) l + count (has_status Error) l < 256 ->
  (check_status (Some (write (report r l))) = 0 <-> Forall (fun t => has_status Failed t = false /\ has_status Error t = false) l).
Proof.
  intros F0 B. unfold check_status. rewrite report_results_pf by exact F0.
  pose proof (count_nonneg (has_status Failed) l). pose proof (count_nonneg (has_status Error) l).
  rewrite Z.mod_small by lia. split.
  - intro E. assert (E1 : count (has_status Failed) l = 0) by lia. assert (E2 : count (has_status Error) l = 0) by lia.
    apply count_zero in E1, E2. rewrite Forall_forall in *. auto.
  - intro F. assert (E1 : count (has_status Failed) l = 0) by (apply count_zero; eapply Forall_impl; [|exact F]; now intros t []).
    assert (E2 : count (has_status Error) l = 0) by (apply count_zero; eapply Forall_impl; [|exact F]; now intros t []). lia.
Qed.

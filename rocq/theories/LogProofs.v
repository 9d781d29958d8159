(** Proofs about the log formatter. *)
From Verif Require Import Base TextModel XmlModel XmlProofs LookupProofs LogicArrayModel LogicArrayFormat LogModel LogSpec.
From Coq Require Import String Lia.
Open Scope Z_scope.

(** * Codes *)
Lemma skip_class_app f a b : Forall (fun c => f c = true) a -> skip_class f (a ++ b) = skip_class f b.
Proof. induction 1 as [|c a Hc _ IH]; cbn; [reflexivity|]. now rewrite Hc. Qed.
Lemma skip_class_stop f c b : f c = false -> skip_class f (c :: b) = c :: b.
Proof. intro H. cbn. now rewrite H. Qed.
Lemma skip_class_split f s : exists a, s = a ++ skip_class f s /\ Forall (fun c => f c = true) a.
Proof.
  induction s as [|c s (a & E & F)]; cbn [skip_class]; [exists []; split; [reflexivity|constructor]|].
  destruct (f c) eqn:Fc; [|exists []; split; [reflexivity|constructor]].
  exists (c :: a). cbn. split; [now rewrite <- E|now constructor].
Qed.

Lemma between_true a b c : (a <=? c) && (c <=? b) = true <-> a <= c <= b.
Proof. rewrite andb_true_iff, !Z.leb_le. tauto. Qed.
Lemma between_false a b c : (a <=? c) && (c <=? b) = false <-> ~ a <= c <= b.
Proof. rewrite <- between_true. now destruct ((a <=? c) && (c <=? b)). Qed.

Lemma code_after t rest : esc_code (27 :: t) -> after_code (t ++ rest) = Some rest.
Proof.
  intros [(c & E & R & N)|(ps & is & f & E & P & I & F)].
  - injection E as ->. cbn [app after_code].
    replace ((64 <=? c) && (c <=? 90) || (92 <=? c) && (c <=? 95)) with true; [reflexivity|].
    symmetry. apply orb_true_iff. rewrite !between_true. lia.
  - injection E as ->. cbn [app after_code].
    replace ((64 <=? 91) && (91 <=? 90) || (92 <=? 91) && (91 <=? 95)) with false by reflexivity. cbn [Z.eqb Pos.eqb].
    rewrite <- !app_assoc.
    assert (P' : Forall (fun c => (48 <=? c) && (c <=? 63) = true) ps) by (eapply Forall_impl; [|exact P]; intros; now apply between_true).
    assert (I' : Forall (fun c => (32 <=? c) && (c <=? 47) = true) is) by (eapply Forall_impl; [|exact I]; intros; now apply between_true).
    rewrite (skip_class_app _ _ _ P').
    assert (E : skip_class (fun c => (48 <=? c) && (c <=? 63)) (is ++ [f] ++ rest) = is ++ [f] ++ rest).
    { destruct is as [|i is]; cbn [app].
      - apply skip_class_stop, between_false. lia.
      - apply skip_class_stop, between_false. apply Forall_inv in I. lia. }
    rewrite E, (skip_class_app _ _ _ I'). cbn [app]. rewrite skip_class_stop by (apply between_false; lia).
    replace ((64 <=? f) && (f <=? 126)) with true by (symmetry; apply between_true; lia). reflexivity.
Qed.

Lemma after_code_inv s rest : after_code s = Some rest -> exists t, s = t ++ rest /\ esc_code (27 :: t).
Proof.
  destruct s as [|c s]; cbn [after_code]; [discriminate|].
  destruct ((64 <=? c) && (c <=? 90) || (92 <=? c) && (c <=? 95)) eqn:E1.
  - intro H. injection H as ->. exists [c]. split; [reflexivity|]. left. exists c. split; [reflexivity|].
    apply orb_true_iff in E1. rewrite !between_true in E1. lia.
  - destruct (c =? 91) eqn:E2; [|discriminate]. apply Z.eqb_eq in E2 as ->.
    destruct (skip_class_split (fun c => (48 <=? c) && (c <=? 63)) s) as (ps & Es & P).
    set (s1 := skip_class _ s) in *.
    destruct (skip_class_split (fun c => (32 <=? c) && (c <=? 47)) s1) as (is & Es1 & I).
    set (s2 := skip_class _ s1) in *.
    destruct s2 as [|f r] eqn:E2; [discriminate|].
    destruct ((64 <=? f) && (f <=? 126)) eqn:Ef; [|discriminate]. intro H. injection H as ->.
    exists ([91] ++ ps ++ is ++ [f]). split.
    + rewrite Es, Es1. cbn [app]. now rewrite <- !app_assoc.
    + right. exists ps, is, f. split; [reflexivity|]. apply between_true in Ef.
      split; [|split; [|exact Ef]].
      * eapply Forall_impl; [|exact P]. intros; now apply between_true.
      * eapply Forall_impl; [|exact I]. intros; now apply between_true.
Qed.

Lemma sub_skip t r : sub_from (List.length t) (t ++ r) = sub_from O r.
Proof. induction t as [|c t IH]; cbn; [reflexivity|exact IH]. Qed.
Lemma sub_char c s : c <> 27 -> sub_codes (c :: s) = c :: sub_codes s.
Proof. intro N. unfold sub_codes. cbn [sub_from]. apply Z.eqb_neq in N. now rewrite N. Qed.
Lemma esc_code_head k : esc_code k -> exists t, k = 27 :: t.
Proof. intros [(c & -> & _)|(ps & is & f & -> & _)]; eexists; reflexivity. Qed.
Lemma sub_code k s : esc_code k -> sub_codes (k ++ s) = sub_codes s.
Proof.
  intro K. destruct (esc_code_head k K) as (t & ->). unfold sub_codes. cbn [app sub_from].
  rewrite Z.eqb_refl, (code_after t s K). rewrite app_length, Nat.add_sub. apply sub_skip.
Qed.
Lemma sub_esc s : after_code s = None -> sub_codes (27 :: s) = 27 :: sub_codes s.
Proof. intro N. unfold sub_codes. cbn [sub_from]. now rewrite Z.eqb_refl, N. Qed.

Lemma no_code_iff s : after_code s = None <-> forall k r, 27 :: s = k ++ r -> ~ esc_code k.
Proof.
  split.
  - intros N k r E K. destruct (esc_code_head k K) as (t & ->). injection E as ->. rewrite (code_after t r K) in N. discriminate N.
  - intro H. destruct (after_code s) as [rest|] eqn:E; [|reflexivity]. exfalso.
    destruct (after_code_inv _ _ E) as (t & -> & K). exact (H (27 :: t) rest eq_refl K).
Qed.

Lemma without_codes_sub s v : without_codes s v -> sub_codes s = v.
Proof.
  induction 1 as [|c s v N _ IH|k s v K _ IH|s v N _ IH]; [reflexivity|..].
  - now rewrite sub_char, IH.
  - now rewrite sub_code.
  - rewrite sub_esc, IH; [reflexivity|]. now apply no_code_iff.
Qed.
Lemma sub_without_codes n s : (List.length s < n)%nat -> without_codes s (sub_codes s).
Proof.
  revert s. induction n as [|n IH]; [lia|]. intros [|c s] L; [constructor|]. cbn [List.length] in L.
  destruct (Z.eq_dec c 27) as [->|N].
  - destruct (after_code s) as [rest|] eqn:E.
    + destruct (after_code_inv _ _ E) as (t & -> & K). change (27 :: t ++ rest) with ((27 :: t) ++ rest).
      rewrite sub_code by exact K. apply WCode; [exact K|]. apply IH. rewrite app_length in L. lia.
    + rewrite sub_esc by exact E. apply WEsc; [now apply no_code_iff|]. apply IH. lia.
  - rewrite sub_char by exact N. apply WChar; [exact N|]. apply IH. lia.
Qed.
Lemma sub_codes_iff s v : sub_codes s = v <-> without_codes s v.
Proof. split; [intros <-; eapply sub_without_codes; apply Nat.lt_succ_diag_r|apply without_codes_sub]. Qed.

Lemma marked_without s v : marked s v -> without_codes s v.
Proof. induction 1; constructor; auto. Qed.
Lemma marked_sub s v : marked s v -> sub_codes s = v.
Proof. intro M. now apply without_codes_sub, marked_without. Qed.
Lemma marked_clean s v : marked s v -> ~ In 27 v.
Proof. induction 1 as [|c s v N _ IH|]; [intros []|intros [E|I]; [now apply N|now apply IH]|assumption]. Qed.
Lemma marked_app a v b w : marked a v -> marked b w -> marked (a ++ b) (v ++ w).
Proof.
  induction 1 as [|c s v N _ IH|k s v K _ IH]; intro B; [exact B|cbn; constructor; auto|].
  rewrite <- app_assoc. constructor; auto.
Qed.
Lemma marked_plain s : ~ In 27 s -> marked s s.
Proof.
  induction s as [|c s IH]; intro N; constructor.
  - intros ->. apply N. now left.
  - apply IH. intro I. apply N. now right.
Qed.
Lemma marked_code k : esc_code k -> codes k.
Proof. intro K. unfold codes. rewrite <- (app_nil_r k). constructor; [exact K|constructor]. Qed.
Lemma codes_app a b : codes a -> codes b -> codes (a ++ b).
Proof. intros A B. exact (marked_app _ _ _ _ A B). Qed.

(** * Colours *)
Lemma colour_code_is n : foreground n \/ background n -> esc_code (colour_code n).
Proof.
  intro H. right. exists (digits n), [], 109. split; [reflexivity|]. split; [|split; [constructor|lia]].
  unfold digits, foreground, background in *.
  assert (R : 30 <= n <= 107) by lia.
  apply Forall_app. split.
  - destruct (100 <=? n) eqn:E; [|constructor]. constructor; [|constructor]. apply Z.leb_le in E.
    assert (n / 100 = 1) by (symmetry; apply (Z.div_unique n 100 1 (n - 100)); lia). lia.
  - pose proof (Z.mod_pos_bound (n / 10) 10 ltac:(lia)). pose proof (Z.mod_pos_bound n 10 ltac:(lia)).
    repeat constructor; lia.
Qed.
Lemma default_is : DEFAULT = colour_code 49 ++ colour_code 39.
Proof. reflexivity. Qed.
Lemma default_codes : codes DEFAULT.
Proof. rewrite default_is. apply codes_app; apply marked_code, colour_code_is; unfold foreground, background; lia. Qed.
Lemma colour_codes level : codes (loglevel2colour level).
Proof.
  unfold loglevel2colour. destruct (level =? 30); [|destruct (level =? 40); [|destruct (level =? 50)]].
  - change YELLOW_FG with (colour_code 33). apply marked_code, colour_code_is. unfold foreground. lia.
  - change RED_FG with (colour_code 31). apply marked_code, colour_code_is. unfold foreground. lia.
  - change (RED_BG ++ BLACK_FG) with (colour_code 41 ++ colour_code 30). apply codes_app; apply marked_code, colour_code_is; unfold foreground, background; lia.
  - constructor.
Qed.

(** * Lines *)
Lemma line_end_iff c : line_end c = true <-> line_sep [c].
Proof.
  unfold line_end, line_sep. split.
  - intro H. right. exists c. split; [reflexivity|]. cbn [In].
    repeat (apply orb_true_iff in H as [H|H]); rewrite ?between_true, ?Z.eqb_eq in H; lia.
  - intros [E|(c' & E & I)]; [discriminate E|]. injection E as <-. cbn [In] in I.
    rewrite !orb_true_iff, !between_true, !Z.eqb_eq. lia.
Qed.
Lemma lines_plain l : (forall c, In c l -> ~ line_sep [c]) -> forall acc s, lines_from acc false (l ++ s) = lines_from (rev l ++ acc) false s.
Proof.
  induction l as [|c l IH]; intros N acc s; [reflexivity|]. cbn [app lines_from andb].
  destruct (line_end c) eqn:E; [exfalso; apply (N c); [now left|now apply line_end_iff]|].
  rewrite IH by (intros; apply N; now right). cbn [rev]. now rewrite <- app_assoc.
Qed.
Lemma lines_cr s : (forall s', s <> 10 :: s') -> lines_from [] true s = lines_from [] false s.
Proof.
  intro N. destruct s as [|c s]; [reflexivity|]. cbn [lines_from andb].
  destruct (c =? 10) eqn:E; [|reflexivity]. apply Z.eqb_eq in E as ->. now destruct (N s).
Qed.
Lemma broken_lines s ls : broken s ls -> splitlines s = ls.
Proof.
  unfold splitlines. induction 1 as [|l NE N|l e s ls N E CR _ IH]; [reflexivity|..].
  - rewrite <- (app_nil_r l) at 1. rewrite lines_plain, app_nil_r by exact N. cbn [lines_from].
    destruct (rev l) eqn:R; [|now rewrite <- R, rev_involutive].
    apply (f_equal (@rev Z)) in R. rewrite rev_involutive in R. now destruct NE.
  - rewrite lines_plain, app_nil_r by exact N. destruct E as [->|(c & -> & I)].
    + cbn. rewrite rev_involutive. now f_equal.
    + cbn [app lines_from andb].
      assert (L : line_end c = true) by (apply line_end_iff; right; now exists c). rewrite L, rev_involutive. f_equal.
      destruct (c =? 13) eqn:E; [|exact IH]. apply Z.eqb_eq in E as ->. rewrite lines_cr; [exact IH|exact (CR eq_refl)].
Qed.
Lemma first_line s : (forall c, In c s -> ~ line_sep [c]) \/
  exists l c s', s = l ++ c :: s' /\ (forall c, In c l -> ~ line_sep [c]) /\ line_sep [c].
Proof.
  induction s as [|c s IH]; [left; intros c []|].
  destruct (line_end c) eqn:E.
  - right. exists [], c, s. split; [reflexivity|]. split; [intros ? []|now apply line_end_iff].
  - assert (NC : ~ line_sep [c]) by (rewrite <- line_end_iff, E; discriminate).
    destruct IH as [N|(l & d & s' & -> & N & D)].
    + left. intros d [<-|I]; auto.
    + right. exists (c :: l), d, s'. split; [reflexivity|]. split; [intros x [<-|I]; auto|exact D].
Qed.
Lemma broken_total n s : (List.length s < n)%nat -> exists ls, broken s ls.
Proof.
  revert s. induction n as [|n IH]; [lia|]. intros s L.
  destruct s as [|x s0]; [exists []; constructor|]. set (s := x :: s0) in *.
  destruct (first_line s) as [N|(l & c & s' & E & N & C)]; [exists [s]; constructor; [discriminate|exact N]|].
  rewrite E, app_length in L. cbn [List.length] in L.
  destruct (Z.eq_dec c 13) as [->|NC].
  - destruct s' as [|d s'].
    + exists [l]. rewrite E. apply (BLine l [13] [] []); [exact N|exact C|discriminate|constructor].
    + destruct (Z.eq_dec d 10) as [->|ND].
      * destruct (IH s') as (ls & B); [cbn [List.length] in L; lia|]. exists (l :: ls). rewrite E.
        apply (BLine l [13; 10] s' ls); [exact N|now left|discriminate|exact B].
      * destruct (IH (d :: s')) as (ls & B); [lia|]. exists (l :: ls). rewrite E.
        apply (BLine l [13] (d :: s') ls); [exact N|exact C|intros _ t X; injection X as -> _; now apply ND|exact B].
  - destruct (IH s') as (ls & B); [lia|]. exists (l :: ls). rewrite E.
    apply (BLine l [c] s' ls); [exact N|exact C|intro X; injection X as X; now destruct NC|exact B].
Qed.
Lemma join_indented n ls : join ([10] ++ blanks n) ls = indented n ls.
Proof.
  induction ls as [|l ls IH]; [reflexivity|]. cbn [join]. destruct ls as [|m ls]; [now cbn; rewrite app_nil_r|].
  rewrite IH. unfold indented. cbn [flat_map]. unfold blanks. now rewrite <- !app_assoc.
Qed.

(** * [format] *)
(** The text before the indentation. *)
Definition raw (f : formatter) (r : record) : pystr := format (with_indent f (IInt 0)) r.
Lemma format_eq f r : format f r =
  if match format_exc_info r with [] => existsb (Z.eqb 10) (r_msg r) | _ => true end
  then match f_indent f with
       | IInt n => if n =? 0 then raw f r else indented n (splitlines (raw f r))
       | IFun g => indented (g (sub_codes (f_prefix f r (if f_strip f then [] else loglevel2colour (r_levelno r))
            (if f_strip f then [] else match loglevel2colour (r_levelno r) with [] => [] | _ => DEFAULT end)))) (splitlines (raw f r))
       | INone => indented 0 (splitlines (raw f r))
       end
  else raw f r.
Proof.
  unfold raw, format, with_indent. cbn [f_strip f_prefix f_indent].
  destruct (f_indent f) as [|n|g] eqn:I.
  all: destruct (format_exc_info r) as [|x e]; [destruct (existsb (Z.eqb 10) (r_msg r))|]; cbn [negb orb Z.eqb andb]; rewrite ?orb_true_r; try reflexivity.
  all: try (destruct (n =? 0); [reflexivity|]).
  all: rewrite join_indented; try reflexivity.
  all: destruct (f_strip f); reflexivity.
Qed.
Lemma several_iff r : several_lines r <-> match format_exc_info r with [] => existsb (Z.eqb 10) (r_msg r) | _ => true end = true.
Proof.
  unfold several_lines, format_exc_info. destruct (r_stack r) as [|c s].
  - destruct (r_exc r) as [|d e].
    + rewrite existsb_exists. split.
      * intros [I|[X|X]]; [|now destruct X..]. exists 10. now split.
      * intros (x & I & E). apply Z.eqb_eq in E as <-. now left.
    + split; [reflexivity|]. intros _. right. left. discriminate.
  - split; [intros _|intros _; right; right; discriminate].
    destruct (negb (ends_lf (r_exc r))); destruct (r_exc r); reflexivity.
Qed.
Definition colour_start (f : formatter) (r : record) : pystr := if f_strip f then [] else loglevel2colour (r_levelno r).
Definition colour_end (f : formatter) (r : record) : pystr :=
  if f_strip f then [] else match loglevel2colour (r_levelno r) with [] => [] | _ => DEFAULT end.
Lemma raw_eq f r : raw f r =
  (if f_strip f then sub_codes (f_prefix f r [] [] ++ r_msg r)
   else f_prefix f r (colour_start f r) (colour_end f r) ++ colour_start f r
        ++ (match loglevel2colour (r_levelno r) with [] => r_msg r | c => replace DEFAULT c (r_msg r) end) ++ DEFAULT)
  ++ match format_exc_info r with [] => [] | e => [10] ++ e end.
Proof.
  unfold raw, format, with_indent, colour_start, colour_end. cbn [f_strip f_prefix f_indent].
  destruct (f_strip f); destruct (format_exc_info r) as [|x e]; cbn [negb orb Z.eqb]; rewrite ?orb_true_r, ?app_nil_r; try reflexivity.
  all: destruct (loglevel2colour (r_levelno r)) as [|c s]; cbn [negb orb Z.eqb]; rewrite ?orb_true_r, ?app_nil_r, <- ?app_assoc; reflexivity.
Qed.

(** * Replacing the default *)
Lemma replace_hit_skip old new t r : replace_from old new (List.length t) (t ++ r) = replace old new r.
Proof. induction t as [|c t IH]; [reflexivity|exact IH]. Qed.
Lemma replace_hit old new s : old <> [] -> replace old new (old ++ s) = new ++ replace old new s.
Proof.
  intro NE. destruct old as [|c t]; [now destruct NE|]. unfold replace. cbn [app replace_from].
  change (c :: t ++ s) with ((c :: t) ++ s). rewrite (proj2 (after_prefix_iff (c :: t) _ s) eq_refl). f_equal.
  cbn [List.length Nat.pred]. apply replace_hit_skip.
Qed.
Lemma code_tail k : esc_code k -> exists t, k = 27 :: t /\ ~ In 27 t.
Proof.
  intros [(c & -> & R & N)|(ps & is & f & -> & P & I & F)].
  - exists [c]. split; [reflexivity|]. intros [E|[]]. lia.
  - exists ([91] ++ ps ++ is ++ [f]). split; [reflexivity|]. rewrite !in_app_iff. rewrite Forall_forall in P, I.
    intros [[E|[]]|[X|[X|[X|[]]]]]; [discriminate E|apply P in X; lia|apply I in X; lia|lia].
Qed.
Lemma replace_inert new t s : ~ In 27 t -> replace DEFAULT new (t ++ s) = t ++ replace DEFAULT new s.
Proof.
  induction t as [|c t IH]; intro N; [reflexivity|]. cbn [app]. rewrite replace_no.
  - f_equal. apply IH. intro I. apply N. now right.
  - destruct (after_prefix DEFAULT (c :: t ++ s)) as [x|] eqn:E; [|reflexivity]. apply after_prefix_iff in E.
    injection E as -> _. exfalso. apply N. now left.
Qed.
(** Codes are prefix-free. *)
Lemma code_unique k k' s s' : esc_code k -> esc_code k' -> k ++ s = k' ++ s' -> k = k' /\ s = s'.
Proof.
  intros K K' E. destruct (esc_code_head k K) as (t & ->), (esc_code_head k' K') as (t' & ->).
  injection E as E. pose proof (code_after t s K) as A. rewrite E, (code_after t' s' K') in A. injection A as ->.
  split; [|reflexivity]. f_equal. exact (app_inv_tail _ _ _ E).
Qed.
Lemma code49 : esc_code (colour_code 49).
Proof. apply colour_code_is. right. unfold background. lia. Qed.
Lemma code39 : esc_code (colour_code 39).
Proof. apply colour_code_is. left. unfold foreground. lia. Qed.
Lemma replace_code new k s : esc_code k ->
  (exists s', k ++ s = DEFAULT ++ s') \/ replace DEFAULT new (k ++ s) = k ++ replace DEFAULT new s.
Proof.
  intro K. destruct (after_prefix DEFAULT (k ++ s)) as [s'|] eqn:E; [left; exists s'; now apply after_prefix_iff|right].
  destruct (code_tail k K) as (t & -> & N). cbn [app] in *. rewrite replace_no by exact E. f_equal. now apply replace_inert.
Qed.
Lemma marked_code_inv k s v : esc_code k -> marked (k ++ s) v -> marked s v.
Proof.
  intros K M. remember (k ++ s) as w eqn:E. destruct M as [|c w v N M|k' w v K' M].
  - destruct (esc_code_head k K) as (t & ->). discriminate E.
  - destruct (esc_code_head k K) as (t & ->). injection E as -> _. now destruct N.
  - apply code_unique in E as [_ ->]; assumption.
Qed.
Lemma marked_replace new n s v : codes new -> (List.length s < n)%nat -> marked s v -> marked (replace DEFAULT new s) v.
Proof.
  intro C. revert s v. induction n as [|n IH]; [lia|]. intros s v L M.
  destruct M as [|c s v N M|k s v K M]; [constructor|..].
  - change (c :: s) with ([c] ++ s). rewrite replace_inert by (intros [X|[]]; now apply N). constructor; [exact N|].
    apply IH; [cbn in L; lia|exact M].
  - destruct (replace_code new k s K) as [(s' & E)|E].
    + rewrite default_is, <- app_assoc in E. apply code_unique in E as [-> ->]; [|exact K|exact code49].
      rewrite app_assoc, <- default_is, replace_hit by discriminate. change v with ([] ++ v). apply marked_app; [exact C|].
      apply IH; [rewrite !app_length in L; change (List.length (colour_code 49)) with 5%nat in L; lia|]. exact (marked_code_inv _ _ _ code39 M).
    + rewrite E. constructor; [exact K|]. apply IH; [|exact M]. rewrite app_length in L.
      destruct (esc_code_head k K) as (t & ->). cbn [List.length] in L. lia.
Qed.

(** Digits of colours. *)
Lemma digits_inj a b : 30 <= a <= 107 -> 30 <= b <= 107 -> digits a = digits b -> a = b.
Proof.
  unfold digits. intros A B. destruct (100 <=? a) eqn:EA, (100 <=? b) eqn:EB; cbn [app]; intro E; try discriminate E.
  - apply Z.leb_le in EA, EB. assert (E1 : 48 + a / 10 mod 10 = 48 + b / 10 mod 10) by (exact (f_equal (fun l => nth 1 l 0) E)).
    assert (E2 : 48 + a mod 10 = 48 + b mod 10) by (exact (f_equal (fun l => nth 2 l 0) E)).
    Z.to_euclidean_division_equations. lia.
  - apply Z.leb_gt in EA, EB. assert (E1 : 48 + a / 10 mod 10 = 48 + b / 10 mod 10) by (exact (f_equal (fun l => nth 0 l 0) E)).
    assert (E2 : 48 + a mod 10 = 48 + b mod 10) by (exact (f_equal (fun l => nth 1 l 0) E)).
    Z.to_euclidean_division_equations. lia.
Qed.
Lemma fg_range n : foreground n -> 30 <= n <= 107. Proof. unfold foreground. lia. Qed.
Lemma bg_range n : background n -> 30 <= n <= 107. Proof. unfold background. lia. Qed.
Lemma replace_colour new n s : foreground n \/ background n -> n <> 49 ->
  replace DEFAULT new (colour_code n ++ s) = colour_code n ++ replace DEFAULT new s.
Proof.
  intros C N. destruct (replace_code new _ s (colour_code_is n C)) as [(s' & E)|E]; [|exact E]. exfalso.
  rewrite default_is, <- app_assoc in E. apply code_unique in E as [E _]; [|exact (colour_code_is n C)|exact code49].
  apply N. apply digits_inj; [destruct C; [now apply fg_range|now apply bg_range]|lia|].
  unfold colour_code in E. apply app_inv_head in E. apply app_inv_tail in E. exact E.
Qed.
Definition rewritten (start : pystr) (l : list item) : pystr :=
  flat_map (fun i => match i with Char c => [c] | Fg n | Bg n => colour_code n | Dflt => start end) l.
Lemma replace_written start l : Forall proper l -> replace DEFAULT start (written l) = rewritten start l.
Proof.
  induction 1 as [|i l P _ IH]; [reflexivity|]. 
  assert (E1 : written (i :: l) = written [i] ++ written l) by (unfold written; cbn [flat_map]; now rewrite app_nil_r).
  assert (E2 : rewritten start (i :: l) = rewritten start [i] ++ rewritten start l) by (unfold rewritten; cbn [flat_map]; now rewrite app_nil_r).
  rewrite E1, E2, <- IH.
  destruct i as [c|n|n|]; cbn [proper] in P; unfold written at 1, rewritten at 1; cbn [flat_map]; rewrite !app_nil_r.
  - now rewrite replace_inert by (intros [X|[]]; now apply P).
  - rewrite replace_colour; [reflexivity|now left|unfold foreground in P; lia].
  - rewrite replace_colour; [reflexivity|now right|easy].
  - now rewrite <- default_is, replace_hit by discriminate.
Qed.

(** * The terminal *)
Lemma shows_app st a l st1 b m st2 : shows st a l st1 -> shows st1 b m st2 -> shows st (a ++ b) (l ++ m) st2.
Proof.
  induction 1 as [|st c s l st' N _ IH|st n s l st' F _ IH|st n s l st' B _ IH]; intro S; [exact S|cbn; constructor; auto|..];
    rewrite <- app_assoc; [apply SFg|apply SBg]; auto.
Qed.
Lemma shows_plain st s : ~ In 27 s -> shows st s (map (fun c => (c, st)) s) st.
Proof.
  induction s as [|c s IH]; intro N; cbn; constructor.
  - intros ->. apply N. now left.
  - apply IH. intro I. apply N. now right.
Qed.
Lemma shows_default st : shows st DEFAULT [] plain.
Proof.
  rewrite default_is. apply SBg; [unfold background; lia|]. rewrite <- (app_nil_r (colour_code 39)). apply SFg; [unfold foreground; lia|].
  constructor.
Qed.
Lemma shows_start level base st : level_style level = Some base -> level = 50 \/ snd st = 49 -> shows st (loglevel2colour level) [] base.
Proof.
  unfold level_style, loglevel2colour. destruct (level =? 30) eqn:E1; [|destruct (level =? 40) eqn:E2; [|destruct (level =? 50) eqn:E3; [|discriminate]]].
  - intros H D. injection H as <-. apply Z.eqb_eq in E1 as ->. destruct D as [D|D]; [discriminate D|].
    change YELLOW_FG with (colour_code 33). rewrite <- (app_nil_r (colour_code 33)). apply SFg; [unfold foreground; lia|]. rewrite D. constructor.
  - intros H D. injection H as <-. apply Z.eqb_eq in E2 as ->. destruct D as [D|D]; [discriminate D|].
    change RED_FG with (colour_code 31). rewrite <- (app_nil_r (colour_code 31)). apply SFg; [unfold foreground; lia|]. rewrite D. constructor.
  - intros H _. injection H as <-. change (RED_BG ++ BLACK_FG) with (colour_code 41 ++ colour_code 30 ++ []).
    apply SBg; [unfold background; lia|]. apply SFg; [unfold foreground; lia|]. constructor.
Qed.
Lemma shows_rewritten (G : style -> Prop) start base items : Forall proper items ->
  G base -> (forall st n, G st -> G (n, snd st)) -> (forall st n, In (Bg n) items -> G st -> G (fst st, n)) ->
  (forall st, G st -> shows st start [] base) ->
  forall st, G st -> exists st', shows st (rewritten start items) (meant base st items) st'.
Proof.
  intros P B F. induction P as [|i l Pi Pl IH]; intros K S st ST; [exists st; constructor|].
  assert (K' : forall st n, In (Bg n) l -> G st -> G (fst st, n)) by (intros; apply K; [now right|assumption]).
  specialize (IH K' S). destruct i as [c|n|n|]; unfold rewritten in *; cbn [flat_map meant].
  - destruct (IH st ST) as (st' & X). exists st'. constructor; [exact Pi|exact X].
  - destruct (IH (n, snd st) (F st n ST)) as (st' & X). exists st'. apply SFg; [exact Pi|exact X].
  - destruct (IH (fst st, n) (K st n (or_introl eq_refl) ST)) as (st' & X). exists st'. apply SBg; [apply Pi|exact X].
  - destruct (IH base B) as (st' & X). exists st'. change (meant base base l) with ([] ++ meant base base l).
    eapply shows_app; [exact (S st ST)|exact X].
Qed.

Lemma shows_last (st : style) l st' : shows (fst st, 49) (colour_code 39) l st' -> st' = plain.
Proof.
  intro H. remember (colour_code 39) as w eqn:W. remember (fst st, 49) as x eqn:X. destruct H as [y|y c w l z N _|y n w l z F H|y n w l z B H].
  - discriminate W.
  - injection W as -> _. now destruct N.
  - rewrite <- (app_nil_r (colour_code 39)) in W. apply code_unique in W as [W1 W2]; [|apply colour_code_is; now left|exact code39].
    assert (E : n = 39). { apply digits_inj; [now apply fg_range|lia|]. unfold colour_code in W1. apply app_inv_head in W1. now apply app_inv_tail in W1. }
    subst. cbn [snd] in H. inversion H; subst; [reflexivity|..]; discriminate.
  - rewrite <- (app_nil_r (colour_code 39)) in W. apply code_unique in W as [W1 W2]; [|apply colour_code_is; now right|exact code39].
    assert (E : n = 39). { apply digits_inj; [now apply bg_range|lia|]. unfold colour_code in W1. apply app_inv_head in W1. now apply app_inv_tail in W1. }
    subst. unfold background in B. lia.
Qed.
Lemma shows_end st s l st' : shows st s l st' -> forall a, s = a ++ DEFAULT -> st' = plain.
Proof.
  assert (CODE : forall n s a, foreground n \/ background n -> colour_code n ++ s = a ++ DEFAULT ->
    (a = [] /\ n = 49 /\ s = colour_code 39) \/ exists a', s = a' ++ DEFAULT).
  { intros n s' a C E. destruct (app_eq_app _ _ _ _ E) as (x & [[E1 E2]|[E1 E2]]); [|right; now exists x].
    destruct a as [|z a].
    - left. cbn [app] in E1. subst x. rewrite default_is in E2. apply code_unique in E2 as [E2 E3]; [|exact code49|exact (colour_code_is n C)].
      split; [reflexivity|]. split; [|now symmetry].
      apply digits_inj; [destruct C; [now apply fg_range|now apply bg_range]|lia|].
      unfold colour_code in E2. apply app_inv_head in E2. apply app_inv_tail in E2. now symmetry.
    - destruct x as [|y x]; [right; exists []; cbn [app] in E2 |- *; now symmetry|]. exfalso.
      destruct (code_tail _ (colour_code_is n C)) as (t & T & N). rewrite T in E1. injection E1 as _ E1. injection E2 as <- _.
      apply N. rewrite E1. apply in_or_app. right. now left. }
  induction 1 as [|st c s l st' N _ IH|st n s l st' F H IH|st n s l st' B H IH]; intros a E.
  - destruct a; discriminate E.
  - destruct a as [|z a]; [injection E as -> _; now destruct N|]. injection E as _ E. exact (IH a E).
  - destruct (CODE n s a (or_introl F) E) as [(_ & -> & _)|(a' & E')]; [unfold foreground in F; lia|exact (IH a' E')].
  - destruct (CODE n s a (or_intror B) E) as [(_ & -> & ->)|(a' & E')]; [|exact (IH a' E')].
    exact (shows_last _ _ _ H).
Qed.

(** * The end of a coloured record *)
Lemma lines_ends d : d <> [] -> (forall c, In c d -> ~ line_sep [c]) -> forall a acc cr, exists ls l, lines_from acc cr (a ++ d) = ls ++ [l ++ d].
Proof.
  intros NE N. induction a as [|c a IH]; intros acc cr; cbn [app].
  - exists [], (rev acc). cbn [app].
    assert (CR : lines_from acc cr d = lines_from acc false d).
    { destruct cr; [|reflexivity]. destruct d as [|c d]; [now destruct NE|]. cbn [lines_from andb].
      destruct (c =? 10) eqn:E; [|reflexivity]. apply Z.eqb_eq in E as ->. exfalso. apply (N 10); [now left|]. right. exists 10. split; [reflexivity|now left]. }
    rewrite CR. rewrite <- (app_nil_r d) at 1. rewrite lines_plain by exact N. cbn [lines_from].
    destruct (rev d ++ acc) as [|x y] eqn:E.
    + apply app_eq_nil in E as [E _]. apply (f_equal (@rev Z)) in E. rewrite rev_involutive in E. now destruct NE.
    + rewrite <- E, rev_app_distr, rev_involutive. reflexivity.
  - cbn [lines_from]. destruct (cr && (c =? 10)); [apply IH|]. destruct (line_end c); [|apply IH].
    destruct (IH [] (c =? 13)) as (ls & l & E). exists (rev acc :: ls), l. now rewrite E.
Qed.
Lemma indented_ends n ls l d : exists x, indented n (ls ++ [l ++ d]) = x ++ d.
Proof.
  destruct ls as [|m ls]; cbn [app indented].
  - exists l. cbn. now rewrite app_nil_r.
  - rewrite flat_map_app. cbn [flat_map]. rewrite app_nil_r.
    exists (m ++ flat_map (fun l => [10] ++ repeat 32 (Z.to_nat n) ++ l) ls ++ [10] ++ repeat 32 (Z.to_nat n) ++ l).
    now rewrite <- !app_assoc.
Qed.
Lemma default_no_ends c : In c DEFAULT -> ~ line_sep [c].
Proof. intro I. rewrite <- line_end_iff. cbn in I. repeat (destruct I as [<-|I]; [discriminate|]). destruct I. Qed.
Lemma format_ends f r : f_strip f = false -> r_exc r = [] -> r_stack r = [] -> exists x, format f r = x ++ DEFAULT.
Proof.
  intros S E1 E2.
  assert (R : exists y, raw f r = y ++ DEFAULT).
  { rewrite raw_eq, S. unfold format_exc_info. rewrite E1, E2, app_nil_r. eexists. rewrite !app_assoc. reflexivity. }
  destruct R as (y & R).
  assert (I : forall n, exists x, indented n (splitlines (raw f r)) = x ++ DEFAULT).
  { intro n. rewrite R. destruct (lines_ends DEFAULT ltac:(discriminate) default_no_ends y [] false) as (ls & l & E).
    unfold splitlines. rewrite E. apply indented_ends. }
  rewrite format_eq. destruct (match format_exc_info r with [] => _ | _ => _ end); [|now exists y].
  destruct (f_indent f) as [|n|g]; [apply I|destruct (n =? 0); [now exists y|apply I]|apply I].
Qed.

(** * Justification *)
Lemma blanks_len n : 0 <= n -> Z.of_nat (List.length (blanks n)) = n.
Proof. intro H. unfold blanks. rewrite repeat_length. lia. Qed.
Lemma ljust_len s c : 3 <= c -> Z.of_nat (List.length (log_ljust s c)) = c.
Proof.
  intro C. unfold log_ljust, pad_right. destruct (Z.ltb_spec c (Z.of_nat (List.length s))) as [H|H]; rewrite app_length.
  - unfold slice_from. destruct (Z.ltb_spec ((c - 2) * -1) 0); [|lia]. rewrite skipn_length. cbn [List.length lit]. cbn. lia.
  - rewrite Nat2Z.inj_add, blanks_len by lia. lia.
Qed.
Lemma rjust_len s c : 3 <= c -> Z.of_nat (List.length (log_rjust s c)) = c.
Proof.
  intro C. unfold log_rjust, pad_left. destruct (Z.ltb_spec c (Z.of_nat (List.length s))) as [H|H]; rewrite app_length.
  - unfold slice_from. destruct (Z.ltb_spec ((c - 2) * -1) 0); [|lia]. rewrite skipn_length. cbn [List.length lit]. cbn. lia.
  - rewrite Nat2Z.inj_add, blanks_len by lia. lia.
Qed.
Lemma pad_right_len s n : Z.of_nat (List.length s) <= n -> Z.of_nat (List.length (pad_right s n)) = n.
Proof. intro H. unfold pad_right. rewrite app_length, Nat2Z.inj_add, blanks_len; lia. Qed.
Lemma pad_left_len s n : Z.of_nat (List.length s) <= n -> Z.of_nat (List.length (pad_left s n)) = n.
Proof. intro H. unfold pad_left. rewrite app_length, Nat2Z.inj_add, blanks_len; lia. Qed.

(** * The default prefix *)
Lemma clean_app a b : clean a -> clean b -> clean (a ++ b).
Proof. unfold clean. rewrite in_app_iff. tauto. Qed.
Lemma clean_blanks n : clean (blanks n).
Proof. intro I. apply repeat_spec in I. discriminate I. Qed.
Lemma clean_skipn n s : clean s -> clean (skipn n s).
Proof. intros C I. apply C. rewrite <- (firstn_skipn n s). apply in_or_app. now right. Qed.
Lemma clean_slice s n : clean s -> clean (slice_from s n).
Proof. intro C. unfold slice_from. destruct (n <? 0); now apply clean_skipn. Qed.
Lemma clean_lit2 : clean (lit "..").
Proof. cbn. unfold clean. cbn. lia. Qed.
Lemma clean_ljust s n : clean s -> clean (log_ljust s n).
Proof. intro C. unfold log_ljust, pad_right. destruct (_ <? _); apply clean_app; auto using clean_lit2, clean_slice, clean_blanks. Qed.
Lemma clean_rjust s n : clean s -> clean (log_rjust s n).
Proof. intro C. unfold log_rjust, pad_left. destruct (_ <? _); apply clean_app; auto using clean_lit2, clean_slice, clean_blanks. Qed.
Lemma clean_pad_right s n : clean s -> clean (pad_right s n).
Proof. intro C. apply clean_app; auto using clean_blanks. Qed.
Lemma clean_pad_left s n : clean s -> clean (pad_left s n).
Proof. intro C. apply clean_app; auto using clean_blanks. Qed.
Lemma clean_int n : 0 <= n -> clean (py_str_int n).
Proof. intros H I. destruct (str_int_decimal n H) as [[_ F] _]. rewrite Forall_forall in F. apply F in I. lia. Qed.

Lemma dec4 n : 0 <= n < 10000 -> Z.of_nat (List.length (py_str_int n)) <= 4.
Proof.
  intro H. unfold py_str_int. destruct (Z.ltb_spec n 0); [lia|]. cbn [app]. rewrite rev_length, map_length, Z.abs_eq by lia.
  destruct (digits_of_val 10 n ltac:(lia) ltac:(lia)) as (_ & _ & L & _). specialize (L 4%nat ltac:(lia) ltac:(lia)). lia.
Qed.
(** The visible columns of the default prefix. *)
Lemma default_prefix_parts reduced r : clean_record r -> exists a b c,
  clean a /\ clean b /\ clean c /\ (forall start fin, default_prefix reduced r start fin = a ++ start ++ b ++ fin ++ c) /\
  (fits r -> Z.of_nat (List.length (a ++ b ++ c)) = if reduced then 56 else 117).
Proof.
  intros (C1 & C2 & C3 & C4 & C5 & C6).
  assert (CT : clean (simtime_fmt r)).
  { unfold simtime_fmt. destruct (r_time r) as [t|]; [apply clean_app; [exact C1|]|]; unfold clean; cbn; lia. }
  assert (CF : clean (match r_func r with Some f => f | None => lit "None" end)).
  { destruct (r_func r); [exact C5|]. unfold clean. cbn. lia. }
  assert (CS : clean [32]) by (unfold clean; cbn; lia).
  assert (CC : clean [58]) by (unfold clean; cbn; lia).
  assert (CI : clean (lit " in ")) by (unfold clean; cbn; lia).
  exists (pad_left (simtime_fmt r) 11 ++ [32]), (pad_right (r_levelname r) 8), ([32] ++ log_ljust (r_name r) 34 ++ [32]
  ++ (if reduced then []
      else log_rjust (r_filename r) 20 ++ [58] ++ pad_right (py_str_int (r_lineno r)) 4 ++ lit " in "
           ++ log_ljust (match r_func r with Some f => f | None => lit "None" end) 31 ++ [32])).
  split; [|split; [|split; [|split]]].
  - apply clean_app; [now apply clean_pad_left|exact CS].
  - now apply clean_pad_right.
  - apply clean_app; [exact CS|]. apply clean_app; [now apply clean_ljust|]. apply clean_app; [exact CS|]. destruct reduced; [intros []|].
    apply clean_app; [now apply clean_rjust|]. apply clean_app; [exact CC|]. apply clean_app; [now apply clean_pad_right, clean_int|].
    apply clean_app; [exact CI|]. apply clean_app; [now apply clean_ljust|exact CS].
  - intros start fin. unfold default_prefix. now rewrite <- !app_assoc.
  - intros (F1 & F2 & F3). rewrite !app_length, !Nat2Z.inj_add.
    assert (FT : Z.of_nat (List.length (simtime_fmt r)) <= 11).
    { unfold simtime_fmt. destruct (r_time r); [rewrite app_length; cbn [opt_text] in F1; cbn [List.length lit]; cbn; lia|cbn; lia]. }
    rewrite pad_left_len, pad_right_len, ljust_len by lia. destruct reduced; [cbn; lia|].
    rewrite !app_length, !Nat2Z.inj_add, rjust_len, ljust_len, pad_right_len by (try apply dec4; lia). cbn. lia.
Qed.
Lemma parts_marked a b c start fin : clean a -> clean b -> clean c -> codes start -> codes fin -> marked (a ++ start ++ b ++ fin ++ c) (a ++ b ++ c).
Proof.
  intros A B C S F. apply marked_app; [now apply marked_plain|]. change (b ++ c) with ([] ++ b ++ c). apply marked_app; [exact S|].
  apply marked_app; [now apply marked_plain|]. change c with ([] ++ c) at 2. apply marked_app; [exact F|now apply marked_plain].
Qed.
Lemma indent_default reduced strip ms : f_indent (mk_formatter reduced strip ms None INone) = IInt (if reduced then 56 else 117).
Proof. destruct reduced; vm_compute; reflexivity. Qed.

(** * Records on one line *)
Lemma one_line f r : ~ several_lines r -> format f r = raw f r.
Proof. intro N. rewrite format_eq. rewrite several_iff in N. destruct (match format_exc_info r with [] => _ | _ => _ end); [now destruct N|reflexivity]. Qed.
Lemma no_exc r : ~ several_lines r -> format_exc_info r = [].
Proof.
  unfold several_lines, format_exc_info. intro N. destruct (r_exc r); [|exfalso; apply N; right; left; discriminate].
  destruct (r_stack r); [reflexivity|exfalso; apply N; right; right; discriminate].
Qed.
Lemma strip_text f r p m : f_strip f = true -> ~ several_lines r -> marked (f_prefix f r [] []) p -> marked (r_msg r) m -> format f r = p ++ m.
Proof.
  intros S N P M. rewrite one_line, raw_eq, S, (no_exc r N), app_nil_r by exact N. apply marked_sub, marked_app; assumption.
Qed.
Lemma colour_end_codes f r : codes (colour_end f r).
Proof. unfold colour_end. destruct (f_strip f); [constructor|]. destruct (loglevel2colour (r_levelno r)); [constructor|exact default_codes]. Qed.
Lemma colour_start_codes f r : codes (colour_start f r).
Proof. unfold colour_start. destruct (f_strip f); [constructor|apply colour_codes]. Qed.
Lemma colour_text f r p m : f_strip f = false -> ~ several_lines r ->
  (forall start fin, codes start -> codes fin -> marked (f_prefix f r start fin) p) -> marked (r_msg r) m -> marked (format f r) (p ++ m).
Proof.
  intros S N P M. rewrite one_line, raw_eq, S, (no_exc r N), app_nil_r by exact N.
  apply marked_app; [apply P; [apply colour_start_codes|apply colour_end_codes]|].
  change m with ([] ++ m). apply marked_app; [apply colour_start_codes|]. rewrite <- (app_nil_r m).
  apply marked_app; [|exact default_codes].
  pose proof (colour_codes (r_levelno r)) as C. destruct (loglevel2colour (r_levelno r)) as [|c s]; [exact M|].
  eapply marked_replace; [exact C|apply Nat.lt_succ_diag_r|exact M].
Qed.

(** * Colours of a record on one line *)
Lemma shown_record f reduced r items : f_prefix f = default_prefix reduced -> f_strip f = false -> clean_record r ->
  ~ several_lines r -> r_msg r = written items -> Forall proper items ->
  level_style (r_levelno r) = None \/ r_levelno r = 50 \/ no_background items ->
  let base := match level_style (r_levelno r) with Some b => b | None => plain end in
  exists lp, map fst lp = default_prefix reduced r [] [] /\ shows plain (format f r) (lp ++ meant base base items) plain.
Proof.
  intros FP S C N M P D base. rewrite one_line, raw_eq, S, (no_exc r N), app_nil_r by exact N. rewrite FP.
  destruct (default_prefix_parts reduced r C) as (a & b & c & A & B & CC & E & _). rewrite !E. cbn [app].
  assert (L : level_style (r_levelno r) = None /\ loglevel2colour (r_levelno r) = [] \/ exists s, level_style (r_levelno r) = Some s /\ loglevel2colour (r_levelno r) <> []).
  { unfold level_style, loglevel2colour. destruct (r_levelno r =? 30); [right; eexists; split; [reflexivity|discriminate]|].
    destruct (r_levelno r =? 40); [right; eexists; split; [reflexivity|discriminate]|].
    destruct (r_levelno r =? 50); [right; eexists; split; [reflexivity|discriminate]|now left]. }
  unfold colour_start, colour_end. rewrite S.
  destruct L as [[L1 L2]|(s & L1 & L2)].
  - subst base. rewrite L1, L2. cbn [app]. exists (map (fun x => (x, plain)) (a ++ b ++ c)). split.
    + rewrite map_map. apply map_id.
    + eapply shows_app; [apply shows_plain; repeat apply clean_app; assumption|]. rewrite M.
      destruct (shows_rewritten (fun _ => True) DEFAULT plain items P Logic.I ltac:(auto) ltac:(auto) ltac:(intros; apply shows_default) plain Logic.I) as (st' & X).
      change (rewritten DEFAULT items) with (written items) in X. rewrite <- (app_nil_r (meant plain plain items)). eapply shows_app; [exact X|apply shows_default].
  - assert (EB : base = s) by (subst base; now rewrite L1). clearbody base. subst base.
    assert (G : forall st, r_levelno r = 50 \/ snd st = 49 -> shows st (loglevel2colour (r_levelno r)) [] s) by (intros; now apply shows_start).
    destruct (loglevel2colour (r_levelno r)) as [|x y]; [now destruct L2|]. cbv iota. set (start := x :: y) in *.
    exists (map (fun x => (x, plain)) a ++ map (fun x => (x, s)) b ++ map (fun x => (x, plain)) c). split.
    + rewrite !map_app, !map_map. cbn [fst]. now rewrite !map_id.
    + clearbody start.
      rewrite <- !app_assoc.
      eapply shows_app; [now apply shows_plain|].
      change (map (fun x => (x, s)) b) with ([] ++ map (fun x => (x, s)) b). rewrite <- app_assoc.
      eapply shows_app; [apply G; now right|]. eapply shows_app; [now apply shows_plain|].
      change (map (fun x => (x, plain)) c) with ([] ++ map (fun x => (x, plain)) c). rewrite <- app_assoc.
      eapply shows_app; [apply shows_default|]. eapply shows_app; [now apply shows_plain|].
      change (meant s s items) with ([] ++ meant s s items). eapply shows_app; [apply G; now right|].
      rewrite M, (replace_written start items P). rewrite <- (app_nil_r (meant s s items)).
      assert (X : exists st', shows s (rewritten start items) (meant s s items) st').
      { destruct D as [D|D]; [rewrite L1 in D; discriminate D|].
        apply (shows_rewritten (fun st => r_levelno r = 50 \/ snd st = 49)); auto.
        - destruct D as [D|D]; [now left|]. unfold level_style in L1. destruct (r_levelno r =? 30); [injection L1 as <-; now right|].
          destruct (r_levelno r =? 40); [injection L1 as <-; now right|]. destruct (r_levelno r =? 50) eqn:E5; [left; now apply Z.eqb_eq|discriminate L1].
        - intros st n I _. destruct D as [D|D]; [now left|]. destruct (D n I).
        - destruct D as [D|D]; [now left|]. unfold level_style in L1. destruct (r_levelno r =? 30); [injection L1 as <-; now right|].
          destruct (r_levelno r =? 40); [injection L1 as <-; now right|]. destruct (r_levelno r =? 50) eqn:E5; [left; now apply Z.eqb_eq|discriminate L1]. }
      destruct X as (st' & X). eapply shows_app; [exact X|apply shows_default].
Qed.

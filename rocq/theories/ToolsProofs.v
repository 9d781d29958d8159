(** Proofs about the tool functions. *)
From Verif Require Import Base TextModel ToolsModel ToolsSpec.
From Coq Require Import String.
Open Scope Z_scope.

(** * strip *)
Lemma lstrip_spec s : exists l, s = l ++ lstrip s /\ forallb is_space l = true /\
  forall c, hd_error (lstrip s) = Some c -> is_space c = false.
Proof.
  induction s as [|c s IH]; cbn.
  - exists []. cbn. repeat split. discriminate.
  - destruct (is_space c) eqn:E.
    + destruct IH as (l & H1 & H2 & H3). exists (c :: l). cbn. rewrite E, <- H1. auto.
    + exists []. cbn. repeat split. intros d [= ->]. exact E.
Qed.
Lemma forallb_rev {A} (f : A -> bool) l : forallb f (rev l) = forallb f l.
Proof.
  induction l as [|x l IH]; cbn; [reflexivity|]. rewrite forallb_app, IH. cbn. rewrite andb_true_r. apply andb_comm.
Qed.
Lemma hd_error_app {A} (a b : list A) : hd_error (a ++ b) = match a with [] => hd_error b | x :: _ => Some x end.
Proof. destruct a; reflexivity. Qed.
Lemma strip_trimmed s : trimmed s (strip s).
Proof.
  unfold strip. destruct (lstrip_spec s) as (l & H1 & H2 & H3).
  destruct (lstrip_spec (rev (lstrip s))) as (r & R1 & R2 & R3).
  set (m := lstrip (rev (lstrip s))) in *. set (t := lstrip s) in *.
  assert (E : t = rev m ++ rev r) by (rewrite <- rev_app_distr, <- R1, rev_involutive; reflexivity).
  exists l, (rev r). repeat split.
  - rewrite <- E. exact H1.
  - exact H2.
  - now rewrite forallb_rev.
  - intros c Hc. apply H3. rewrite E. rewrite hd_error_app. destruct (rev m); [discriminate|exact Hc].
  - rewrite rev_involutive. exact R3.
Qed.
Lemma lstrip_skip l s : forallb is_space l = true -> lstrip (l ++ s) = lstrip s.
Proof. induction l as [|c l IH]; cbn; [reflexivity|]. intro H. apply andb_prop in H. destruct H as [-> H]. auto. Qed.
Lemma lstrip_keep s : (forall c, hd_error s = Some c -> is_space c = false) -> lstrip s = s.
Proof. destruct s as [|c s]; cbn; [reflexivity|]. intro H. now rewrite (H c eq_refl). Qed.
Lemma lstrip_blank s : forallb is_space s = true -> lstrip s = [].
Proof. intro H. rewrite <- (app_nil_r s), lstrip_skip by exact H. reflexivity. Qed.
Lemma trimmed_strip s t : trimmed s t -> strip s = t.
Proof.
  intros (l & r & -> & H1 & H2 & H3 & H4). unfold strip. rewrite lstrip_skip by exact H1.
  destruct t as [|c t].
  - cbn [app]. rewrite (lstrip_blank r) by exact H2. reflexivity.
  - rewrite (lstrip_keep ((c :: t) ++ r)) by (cbn; intros d [= <-]; now apply H3).
    rewrite rev_app_distr, lstrip_skip by (now rewrite forallb_rev).
    rewrite lstrip_keep by exact H4. apply rev_involutive.
Qed.
Lemma strip_blank s : blank s -> strip s = [].
Proof. intro H. unfold strip. rewrite (lstrip_blank s H). reflexivity. Qed.
Lemma strip_not_blank s : ~ blank s -> strip s <> [].
Proof.
  intros H E. apply H. destruct (strip_trimmed s) as (l & r & Es & H1 & H2 & _). rewrite E in Es. unfold blank.
  rewrite Es. cbn. now rewrite forallb_app, H1, H2.
Qed.
Lemma get_str_some s d : get_str (Some s) d = or_str (strip s) (match d with Some d => d | None => [] end).
Proof. unfold get_str. destruct (strip s); [cbn|reflexivity]. destruct d as [[]|]; reflexivity. Qed.
Lemma get_str_none v : get_str v None = match v with Some s => strip s | None => [] end.
Proof. destruct v as [s|]; [|reflexivity]. rewrite get_str_some. now destruct (strip s). Qed.
Lemma get_str_pf s d : ~ blank s -> trimmed s (get_str (Some s) d) /\ get_str (Some s) d <> [].
Proof.
  intro H. apply strip_not_blank in H. rewrite get_str_some. pose proof (strip_trimmed s).
  destruct (strip s); [congruence|]. split; [assumption|discriminate].
Qed.
Lemma get_str_blank_pf v d : unset_or_blank v -> get_str v d = match d with Some d => d | None => [] end.
Proof.
  destruct v as [s|]; cbn; intro H.
  - rewrite get_str_some, strip_blank by exact H. reflexivity.
  - destruct d as [[]|]; reflexivity.
Qed.

(** * Booleans *)
Definition low_word (w : pystr) : Prop := Forall (fun c => 0 <= c < 128 /\ ~ (65 <= c <= 90) /\ c <> 107) w.
Lemma py_lower_word s : forall w, low_word w -> (py_lower s = w <-> same_word s w).
Proof.
  induction s as [|c s IH]; intros w Hw.
  - split; intro H.
    + cbn in H. subst. constructor.
    + inversion H. reflexivity.
  - unfold py_lower. cbn [flat_map]. fold (py_lower s). unfold py_lower_char.
    destruct (Z.eqb_spec c 304) as [->|N1]; [|destruct (Z.eqb_spec c 8490) as [->|N2]].
    + split; intro H.
      * cbn in H. subst w. inversion Hw; subst. inversion H2; subst. lia.
      * inversion H; subst. inversion Hw; subst. unfold same_letter in *. lia.
    + split; intro H.
      * cbn in H. subst w. inversion Hw; subst. lia.
      * inversion H; subst. inversion Hw; subst. unfold same_letter in *. lia.
    + cbn [app]. split; intro H.
      * subst w. inversion Hw as [|? ? Hc Hw']; subst. constructor; [|now apply IH].
        unfold same_letter, lower_char in *. destruct (Z.leb_spec 65 c), (Z.leb_spec c 90); cbn in *; lia.
      * inversion H as [|? y ? w' Hc Hs]; subst. inversion Hw as [|? ? Hy Hw']; subst.
        apply IH in Hs; [|exact Hw']. rewrite Hs. f_equal. unfold same_letter, lower_char in *.
        destruct (Z.leb_spec 65 c), (Z.leb_spec c 90); cbn; lia.
Qed.
Lemma one_of_in s l : one_of s l = true <-> In s l.
Proof.
  unfold one_of. rewrite existsb_exists. split.
  - intros (x & Hx & E). apply pystr_eqb_eq in E. congruence.
  - intro H. exists s. split; [exact H|apply pystr_eqb_refl].
Qed.
Lemma words_low w : In w (yes_words ++ no_words) -> low_word (lit w).
Proof.
  intro H. cbn in H. repeat destruct H as [<-|H]; try contradiction; cbn;
    repeat (constructor; [lia|]); constructor.
Qed.
Lemma one_of_words s ws : incl ws (yes_words ++ no_words) ->
  (one_of (py_lower s) (map lit ws) = true <-> exists w, In w ws /\ same_word s (lit w)).
Proof.
  intro I. rewrite one_of_in, in_map_iff. split.
  - intros (w & E & H). exists w. split; [exact H|]. apply py_lower_word; [apply words_low, I, H|congruence].
  - intros (w & H & E). exists w. split; [|exact H]. symmetry. apply py_lower_word; [apply words_low, I, H|exact E].
Qed.
Lemma as_bool_pf s :
  (as_bool s = Ok true <-> means_yes s) /\ (as_bool s = Ok false <-> means_no s) /\
  (~ means_yes s -> ~ means_no s -> as_bool s = Err ValueError).
Proof.
  assert (Y : one_of (py_lower s) TRUE = true <-> means_yes s).
  { apply one_of_words. intros x H. apply in_or_app. auto. }
  assert (N : one_of (py_lower s) FALSE = true <-> means_no s).
  { apply one_of_words. intros x H. apply in_or_app. auto. }
  assert (D : one_of (py_lower s) TRUE = true -> one_of (py_lower s) FALSE = true -> False).
  { rewrite !one_of_in. generalize (py_lower s). intros x A B. cbn in A, B.
    repeat destruct A as [<-|A]; try contradiction; repeat destruct B as [B|B]; try discriminate; contradiction. }
  unfold as_bool. destruct (one_of (py_lower s) TRUE), (one_of (py_lower s) FALSE);
    try (exfalso; apply D; reflexivity); intuition congruence.
Qed.
Lemma get_bool_pf v d : unset_or_blank v -> get_bool v d = Ok (match d with Some b => b | None => false end).
Proof. intro H. unfold get_bool. rewrite (get_str_blank_pf v None H). reflexivity. Qed.
Lemma get_bool_some_pf s d : ~ blank s -> exists t, trimmed s t /\ get_bool (Some s) d = as_bool t.
Proof.
  intro H. exists (strip s). split; [apply strip_trimmed|]. unfold get_bool. rewrite get_str_none.
  apply strip_not_blank in H. destruct (strip s); [congruence|reflexivity].
Qed.

(** * Lists *)
Lemma split_ne c s : split c s <> [].
Proof. destruct s as [|x s]; cbn; [discriminate|]. destruct (x =? c); [discriminate|]. now destruct (split c s). Qed.
Lemma join_cons sep x l : l <> [] -> join sep (x :: l) = x ++ sep ++ join sep l.
Proof. destruct l; [congruence|reflexivity]. Qed.
Lemma split_join c s : join [c] (split c s) = s.
Proof.
  induction s as [|x s IH]; [reflexivity|]. cbn [split]. destruct (Z.eqb_spec x c) as [->|N].
  - rewrite join_cons by apply split_ne. cbn. now rewrite IH.
  - pose proof (split_ne c s). destruct (split c s) as [|p ps]; [congruence|].
    destruct ps; cbn in *; [|rewrite <- IH]; congruence.
Qed.
Lemma split_free c s : Forall (fun p => ~ In c p) (split c s).
Proof.
  induction s as [|x s IH]; cbn; [constructor; [intros []|constructor]|].
  destruct (Z.eqb_spec x c) as [->|N]; [constructor; [intros []|exact IH]|].
  destruct (split c s) as [|p ps]; inversion IH; subst; constructor; auto.
  - cbn. intuition.
  - cbn. intuition.
Qed.
Lemma split_app c p s : ~ In c p -> split c (p ++ s) =
  match split c s with q :: qs => (p ++ q) :: qs | [] => [] end.
Proof.
  induction p as [|x p IH]; intro H; cbn [app].
  - pose proof (split_ne c s). destruct (split c s); [congruence|reflexivity].
  - cbn [split]. destruct (Z.eqb_spec x c) as [->|N]; [exfalso; apply H; now left|].
    rewrite IH by (intro; apply H; now right). pose proof (split_ne c s). destruct (split c s); [congruence|reflexivity].
Qed.
Lemma split_unique c ps : ps <> [] -> Forall (fun p => ~ In c p) ps -> split c (join [c] ps) = ps.
Proof.
  induction ps as [|p ps IH]; [congruence|]. intros _ F. inversion F; subst. destruct ps as [|q qs].
  - cbn [join]. rewrite <- (app_nil_r p) at 1. rewrite split_app by assumption. cbn. now rewrite app_nil_r.
  - rewrite join_cons by discriminate. rewrite split_app by assumption.
    change ([c] ++ join [c] (q :: qs)) with (c :: join [c] (q :: qs)). cbn [split]. rewrite Z.eqb_refl.
    rewrite IH by (discriminate || assumption). now rewrite app_nil_r.
Qed.
Lemma strip_app_l l s : forallb is_space l = true -> strip (l ++ s) = strip s.
Proof. intro H. unfold strip. now rewrite lstrip_skip by exact H. Qed.
Lemma strip_app_r s r : forallb is_space r = true -> strip (s ++ r) = strip s.
Proof.
  intro H. apply trimmed_strip. destruct (strip_trimmed s) as (l' & r' & E & H1 & H2 & H3 & H4).
  exists l', (r' ++ r). repeat split; auto.
  - rewrite E at 1. now rewrite <- !app_assoc.
  - now rewrite forallb_app, H2, H.
Qed.
Definition items (c : Z) (s : pystr) := filter nonempty (map strip (split c s)).
Lemma items_l c l s : is_space c = false -> forallb is_space l = true -> items c (l ++ s) = items c s.
Proof.
  intros Hc H. unfold items. rewrite split_app.
  - destruct (split c s) as [|q qs]; [reflexivity|]. cbn [map filter]. now rewrite strip_app_l by exact H.
  - intro I. rewrite forallb_forall in H. apply H in I. congruence.
Qed.
Lemma split_last c r s : ~ In c r -> forall ps p, split c s = ps ++ [p] -> split c (s ++ r) = ps ++ [p ++ r].
Proof.
  intro H. induction s as [|x s IH]; intros ps p E.
  - cbn in E. destruct ps as [|? [|]]; inversion E; subst. cbn [app].
    rewrite <- (app_nil_r r) at 1. rewrite split_app by exact H. cbn. now rewrite app_nil_r.
  - cbn [split app] in *. destruct (x =? c).
    + destruct ps as [|q ps]; [|inversion E; subst; cbn [app]; f_equal; now apply IH].
      exfalso. injection E as _ E'. exact (split_ne _ _ E').
    + destruct (split c s) as [|q qs] eqn:Es; [exfalso; exact (split_ne _ _ Es)|].
      destruct ps as [|q0 ps].
      * inversion E; subst. rewrite (IH [] q eq_refl). reflexivity.
      * inversion E; subst. rewrite (IH (q :: ps) p eq_refl). reflexivity.
Qed.
Lemma items_r c r s : is_space c = false -> forallb is_space r = true -> items c (s ++ r) = items c s.
Proof.
  intros Hc H. unfold items. assert (Hr : ~ In c r).
  { intro I. rewrite forallb_forall in H. apply H in I. congruence. }
  destruct (exists_last (split_ne c s)) as (ps & p & E). rewrite (split_last c r s Hr ps p E), E.
  rewrite !map_app, !filter_app. f_equal. cbn [map]. now rewrite strip_app_r by exact H.
Qed.
Lemma items_strip c s : is_space c = false -> items c (strip s) = items c s.
Proof.
  intro Hc. destruct (strip_trimmed s) as (l & r & E & H1 & H2 & _). rewrite E at 2.
  rewrite items_l, items_r by assumption. reflexivity.
Qed.
Lemma get_list_pf ps d : ps <> [] -> Forall (fun p => ~ In 44 p) ps ->
  exists ts, Forall2 trimmed ps ts /\
    get_list (Some (join (lit ",") ps)) d 44 =
    match filter nonempty ts with
    | [] => match d with Some d => d | None => [] end
    | l => l
    end.
Proof.
  intros N F. exists (map strip ps). split.
  - clear. induction ps; constructor; auto using strip_trimmed.
  - change (get_list (Some (join (lit ",") ps)) d 44) with
      (match items 44 (get_str (Some (join (lit ",") ps)) None) with
       | [] => match d with Some d => d | None => [] end
       | _ => items 44 (get_str (Some (join (lit ",") ps)) None) end).
    rewrite get_str_none.
    rewrite items_strip by reflexivity. unfold items. change (lit ",") with [44]. rewrite split_unique by assumption.
    now destruct (filter nonempty (map strip ps)).
Qed.
Lemma get_list_unset_pf v d : unset_or_blank v -> get_list v d 44 = match d with Some d => d | None => [] end.
Proof. intro H. unfold get_list. rewrite (get_str_blank_pf v None H). reflexivity. Qed.
Lemma pieces_pf s : exists ps, ps <> [] /\ Forall (fun p => ~ In 44 p) ps /\ s = join (lit ",") ps.
Proof. exists (split 44 s). repeat split; [apply split_ne|apply split_free|symmetry; apply split_join]. Qed.

(** * Integers *)
Lemma int10_decimal s : forall acc, Forall (fun c => 48 <= c <= 57) s -> s <> [] ->
  int10_digits acc false s = Ok (fold_left (fun acc c => 10 * acc + (c - 48)) s acc).
Proof.
  assert (G : forall s acc, Forall (fun c => 48 <= c <= 57) s ->
    int10_digits acc true s = Ok (fold_left (fun acc c => 10 * acc + (c - 48)) s acc)).
  { intro t. induction t as [|c t IH]; intros acc F; [reflexivity|]. inversion F as [|? ? Hc Ft]; subst.
    cbn [int10_digits fold_left]. unfold is_digit. destruct (Z.leb_spec 48 c), (Z.leb_spec c 57); try lia. cbn [andb]. now apply IH. }
  intros acc F N. destruct s as [|c s]; [congruence|]. inversion F as [|? ? Hc Ft]; subst. cbn [int10_digits fold_left].
  unfold is_digit. destruct (Z.leb_spec 48 c), (Z.leb_spec c 57); try lia. cbn [andb]. now apply G.
Qed.
Lemma decimal_space s : decimal s -> forallb (fun c => negb (is_space c)) s = true.
Proof.
  intros [_ F]. apply forallb_forall. rewrite Forall_forall in F. intros c H. apply F in H. unfold is_space.
  repeat match goal with |- context [Z.leb ?a ?b] => destruct (Z.leb_spec a b); try lia end; cbn [andb orb];
  repeat match goal with |- context [Z.eqb ?a ?b] => destruct (Z.eqb_spec a b); try lia end; reflexivity.
Qed.
Lemma nonspace_strip s : forallb (fun c => negb (is_space c)) s = true -> strip s = s.
Proof.
  intro H. apply trimmed_strip. exists [], []. rewrite app_nil_r. rewrite forallb_forall in H.
  assert (K : forall c l, (forall x, In x l -> In x s) -> hd_error l = Some c -> is_space c = false).
  { intros c l I E. destruct l; [discriminate|]. inversion E; subst. specialize (H c (I c (or_introl eq_refl))).
    now destruct (is_space c). }
  repeat split.
  - intros c E. eapply K; [|exact E]. auto.
  - intros c E. eapply K; [|exact E]. intros x Hx. now apply in_rev.
Qed.
Lemma py_int10_decimal s : decimal s -> py_int10 s = Ok (value10 s).
Proof.
  intro D. unfold py_int10. rewrite (nonspace_strip s) by (now apply decimal_space).
  destruct D as [N F]. destruct s as [|c s]; [congruence|]. inversion F as [|? ? Hc Ft]; subst.
  destruct (Z.eqb_spec c 45); [lia|]. destruct (Z.eqb_spec c 43); [lia|]. now apply int10_decimal.
Qed.
Lemma py_int10_negative s : decimal s -> py_int10 (45 :: s) = Ok (- value10 s).
Proof.
  intro D. unfold py_int10. rewrite (nonspace_strip (45 :: s)) by (cbn; now apply decimal_space).
  cbn [Z.eqb Pos.eqb]. destruct D as [N F]. now rewrite int10_decimal.
Qed.
Lemma get_int_unset_pf v d : unset_or_blank v -> get_int v d = Ok (match d with Some d => d | None => 0 end).
Proof. intro H. unfold get_int. rewrite (get_str_blank_pf v None H). reflexivity. Qed.
Lemma get_int_some_pf s d : ~ blank s -> exists t, trimmed s t /\ get_int (Some s) d = py_int10 t /\
  (decimal t -> get_int (Some s) d = Ok (value10 t)) /\
  (forall u, t = 45 :: u -> decimal u -> get_int (Some s) d = Ok (- value10 u)).
Proof.
  intro H. exists (strip s). split; [apply strip_trimmed|].
  assert (E : get_int (Some s) d = py_int10 (strip s)).
  { unfold get_int. rewrite get_str_none. apply strip_not_blank in H. destruct (strip s); [congruence|reflexivity]. }
  split; [exact E|]. split.
  - intro D. rewrite E. now apply py_int10_decimal.
  - intros u Eu D. rewrite E, Eu. now apply py_int10_negative.
Qed.

(** * Plusargs *)
Lemma dict_set_get {A} (d : list (pystr * A)) k v k' :
  dict_get (dict_set d k v) k' = if pystr_eqb k k' then Some v else dict_get d k'.
Proof.
  induction d as [|[a x] d IH]; cbn; [reflexivity|]. destruct (pystr_eqb a k) eqn:E; cbn.
  - apply pystr_eqb_eq in E. subst a. destruct (pystr_eqb k k'); reflexivity.
  - rewrite IH. destruct (pystr_eqb a k') eqn:E1; [|reflexivity]. destruct (pystr_eqb k k') eqn:E2; [|reflexivity].
    apply pystr_eqb_eq in E1, E2. subst. rewrite pystr_eqb_refl in E. discriminate.
Qed.
Lemma dict_set_in {A} (d : list (pystr * A)) k v k' : In k' (map fst (dict_set d k v)) -> k' = k \/ In k' (map fst d).
Proof.
  induction d as [|[a x] d IH]; cbn; [intuition|]. destruct (pystr_eqb a k); cbn; [intuition|].
  intros [->|H]; [auto|]. destruct (IH H); auto.
Qed.
Lemma dict_set_keys {A} (d : list (pystr * A)) k v : NoDup (map fst d) -> NoDup (map fst (dict_set d k v)).
Proof.
  induction d as [|[a x] d IH]; cbn; intro H; [constructor; [intros []|constructor]|].
  inversion H; subst. destruct (pystr_eqb a k) eqn:E; cbn; [constructor; assumption|].
  constructor; [|auto]. intro I. apply dict_set_in in I. destruct I as [->|I]; [|contradiction].
  now rewrite pystr_eqb_refl in E.
Qed.
Lemma split_once_spec c s : match split_once c s with
  | Some (a, b) => s = a ++ [c] ++ b /\ ~ In c a
  | None => ~ In c s
  end.
Proof.
  induction s as [|x s IH]; cbn; [intros []|]. destruct (Z.eqb_spec x c) as [->|N]; [split; [reflexivity|intros []]|].
  destruct (split_once c s) as [[a b]|].
  - destruct IH as [-> IH]. split; [reflexivity|]. cbn. intuition.
  - intuition.
Qed.
Lemma split_once_app c a b : ~ In c a -> split_once c (a ++ [c] ++ b) = Some (a, b).
Proof.
  induction a as [|x a IH]; cbn; intro H; [now rewrite Z.eqb_refl|].
  destruct (Z.eqb_spec x c) as [->|N]; [tauto|]. cbn in IH. rewrite IH; tauto.
Qed.
Lemma split_once_none c s : ~ In c s -> split_once c s = None.
Proof.
  intro H. pose proof (split_once_spec c s) as K. destruct (split_once c s) as [[a b]|]; [|reflexivity].
  destruct K as [-> _]. exfalso. apply H. apply in_or_app. right. now left.
Qed.
(** One option, as a definition. *)
Definition option_def (o : pystr) : option (pystr * plusval) :=
  match o with
  | c :: r => if c =? 43 then Some (match split_once 61 r with Some (n, v) => (n, PStr v) | None => (r, PTrue) end) else None
  | [] => None
  end.
Lemma option_def_spec o n v : defines o n v <-> option_def o = Some (n, v).
Proof.
  split.
  - intros [m w H|m H]; cbn.
    + change (61 :: w) with ([61] ++ w). now rewrite split_once_app.
    + now rewrite split_once_none.
  - destruct o as [|c r]; [discriminate|]. cbn. destruct (Z.eqb_spec c 43) as [->|]; [|discriminate].
    pose proof (split_once_spec 61 r) as K. destruct (split_once 61 r) as [[a b]|]; intro E; injection E as <- <-.
    + destruct K as [-> K]. now apply (def_value a b).
    + now apply (def_flag r).
Qed.
Lemma plusarg_def d o : plusarg d o = match option_def o with Some (n, v) => dict_set d n v | None => d end.
Proof. destruct o as [|c r]; [reflexivity|]. cbn. destruct (c =? 43); [|reflexivity]. destruct (split_once 61 r) as [[]|]; reflexivity. Qed.
Lemma plusargs_get argv n : dict_get (plusargs argv) n =
  fold_left (fun acc o => match option_def o with
                          | Some (m, v) => if pystr_eqb m n then Some v else acc
                          | None => acc end) argv None.
Proof.
  unfold plusargs. change (@None plusval) with (dict_get (@nil (pystr * plusval)) n). generalize (@nil (pystr * plusval)).
  induction argv as [|o argv IH]; intro d; [reflexivity|]. cbn [fold_left]. rewrite IH, plusarg_def. f_equal.
  destruct (option_def o) as [[m v]|]; [|reflexivity]. apply dict_set_get.
Qed.
Lemma plusargs_pf argv n v : dict_get (plusargs argv) n = Some v <->
  exists pre o post, argv = pre ++ o :: post /\ defines o n v /\ forall o' v', In o' post -> ~ defines o' n v'.
Proof.
  rewrite plusargs_get. induction argv as [|a argv IH] using rev_ind.
  - cbn. split; [discriminate|]. intros (pre & o & post & E & _). destruct pre; discriminate.
  - rewrite fold_left_app. cbn [fold_left]. destruct (option_def a) as [[m w]|] eqn:Ea.
    + destruct (pystr_eqb m n) eqn:Em.
      * apply pystr_eqb_eq in Em. subst m. split.
        -- intros [= <-]. exists argv, a, []. repeat split; [now apply option_def_spec|intros ? ? []].
        -- intros (pre & o & post & E & D & F). destruct post as [|p post _] using rev_ind.
           ++ apply app_inj_tail in E. destruct E as [_ ->]. apply option_def_spec in D. congruence.
           ++ exfalso. rewrite app_comm_cons, app_assoc in E. apply app_inj_tail in E. destruct E as [_ ->].
              apply (F p w); [apply in_or_app; right; now left|now apply option_def_spec].
      * rewrite IH. split.
        -- intros (pre & o & post & -> & D & F). exists pre, o, (post ++ [a]). repeat split.
           ++ now rewrite <- app_assoc.
           ++ exact D.
           ++ intros o' v' I D'. apply in_app_or in I. destruct I as [I|[<-|[]]]; [now apply (F o' v')|].
              apply option_def_spec in D'. rewrite Ea in D'. injection D' as -> _. now rewrite pystr_eqb_refl in Em.
        -- intros (pre & o & post & E & D & F). destruct post as [|p post _] using rev_ind.
           ++ exfalso. apply app_inj_tail in E. destruct E as [_ ->]. apply option_def_spec in D.
              rewrite Ea in D. injection D as -> _. now rewrite pystr_eqb_refl in Em.
           ++ rewrite app_comm_cons, app_assoc in E. apply app_inj_tail in E. destruct E as [-> ->].
              exists pre, o, post. repeat split; auto. intros o' v' I. apply F. apply in_or_app. now left.
    + rewrite IH. split.
      * intros (pre & o & post & -> & D & F). exists pre, o, (post ++ [a]). repeat split.
        -- now rewrite <- app_assoc.
        -- exact D.
        -- intros o' v' I D'. apply in_app_or in I. destruct I as [I|[<-|[]]]; [now apply (F o' v')|].
           apply option_def_spec in D'. congruence.
      * intros (pre & o & post & E & D & F). destruct post as [|p post _] using rev_ind.
        -- exfalso. apply app_inj_tail in E. destruct E as [_ ->]. apply option_def_spec in D. congruence.
        -- rewrite app_comm_cons, app_assoc in E. apply app_inj_tail in E. destruct E as [-> ->].
           exists pre, o, post. repeat split; auto. intros o' v' I. apply F. apply in_or_app. now left.
Qed.
Lemma plusargs_keys_pf argv : NoDup (map fst (plusargs argv)).
Proof.
  unfold plusargs. assert (H : NoDup (map fst (@nil (pystr * plusval)))) by constructor. revert H.
  generalize (@nil (pystr * plusval)). induction argv as [|o argv IH]; intros d H; [exact H|]. cbn [fold_left].
  apply IH. rewrite plusarg_def. destruct (option_def o) as [[m v]|]; [now apply dict_set_keys|exact H].
Qed.

(** * Versions *)
Lemma str_cmp_opp a : forall b, str_cmp b a = CompOpp (str_cmp a b).
Proof.
  induction a as [|x a IH]; intros [|y b]; cbn; try reflexivity. rewrite (Z.compare_antisym x y).
  destruct (x ?= y); cbn; auto.
Qed.
Lemma str_cmp_eq a : forall b, str_cmp a b = Eq <-> a = b.
Proof.
  induction a as [|x a IH]; intros [|y b]; cbn; try (split; congruence).
  destruct (Z.compare_spec x y) as [->|L|L].
  - rewrite IH. split; congruence.
  - split; [discriminate|]. intros [= -> _]. lia.
  - split; [discriminate|]. intros [= -> _]. lia.
Qed.
Lemma str_cmp_lt_trans a : forall b c, str_cmp a b = Lt -> str_cmp b c = Lt -> str_cmp a c = Lt.
Proof.
  induction a as [|x a IH]; intros [|y b] [|z c]; cbn; try congruence.
  intros H1 H2.
  destruct (Z.compare_spec x z) as [E|L|L]; [subst z| reflexivity |].
  - rewrite (Z.compare_antisym x y) in H2. destruct (x ?= y); cbn in H2; try discriminate. eauto.
  - exfalso. destruct (Z.compare_spec x y); try discriminate; destruct (Z.compare_spec y z); try discriminate; lia.
Qed.
Lemma comp_eqb_eq a b : comp_eqb a b = true <-> a = b.
Proof.
  destruct a, b; cbn; try (split; congruence).
  - rewrite Z.eqb_eq. split; congruence.
  - rewrite pystr_eqb_eq. split; congruence.
Qed.
Lemma list_cmp_opp a : forall b, list_cmp b a = reverse_cmp (list_cmp a b).
Proof.
  induction a as [|x a IH]; intros [|y b]; cbn; try reflexivity.
  destruct (comp_eqb y x) eqn:E; destruct (comp_eqb x y) eqn:E'; auto.
  - apply comp_eqb_eq in E. subst. assert (comp_eqb x x = true) by (now apply comp_eqb_eq). congruence.
  - apply comp_eqb_eq in E'. subst. assert (comp_eqb y y = true) by (now apply comp_eqb_eq). congruence.
  - destruct x, y; cbn; try reflexivity; [now rewrite Z.compare_antisym|now rewrite str_cmp_opp].
Qed.
Lemma list_cmp_eq a : forall b, list_cmp a b = Ok Eq <-> a = b.
Proof.
  induction a as [|x a IH]; intros [|y b]; cbn; try (split; congruence).
  destruct (comp_eqb x y) eqn:E.
  - apply comp_eqb_eq in E. subst. rewrite IH. split; congruence.
  - split; [|intros [= -> _]; assert (comp_eqb y y = true) by (now apply comp_eqb_eq); congruence].
    destruct x, y; cbn in *; try discriminate.
    + intros [= H]. apply Z.compare_eq_iff in H. subst. rewrite Z.eqb_refl in E. discriminate.
    + intros [= H]. apply str_cmp_eq in H. subst. rewrite pystr_eqb_refl in E. discriminate.
Qed.
Lemma comp_lt_trans x y z : comp_cmp x y = Ok Lt -> comp_cmp y z = Ok Lt -> comp_cmp x z = Ok Lt.
Proof.
  destruct x, y, z; cbn; try discriminate; intros [= A] [= B]; f_equal.
  - rewrite Z.compare_lt_iff in *. eapply Z.lt_trans; eassumption.
  - eapply str_cmp_lt_trans; eassumption.
Qed.
Lemma comp_lt_neq x y : comp_cmp x y = Ok Lt -> comp_eqb x y = false.
Proof.
  intro H. destruct (comp_eqb x y) eqn:E; [|reflexivity]. apply comp_eqb_eq in E. subst. exfalso.
  destruct y; cbn in H; injection H as H; [rewrite Z.compare_refl in H; discriminate|].
  assert (K : str_cmp s s = Eq) by (now apply str_cmp_eq). congruence.
Qed.
Lemma list_cmp_lt_trans a : forall b c, list_cmp a b = Ok Lt -> list_cmp b c = Ok Lt -> list_cmp a c = Ok Lt.
Proof.
  induction a as [|x a IH]; intros [|y b] [|z c]; cbn; try congruence.
  destruct (comp_eqb x y) eqn:E1, (comp_eqb y z) eqn:E2; intros H1 H2.
  - apply comp_eqb_eq in E1, E2. subst. assert (E : comp_eqb z z = true) by (now apply comp_eqb_eq). rewrite E. eauto.
  - apply comp_eqb_eq in E1. subst. now rewrite E2.
  - apply comp_eqb_eq in E2. subst. now rewrite E1.
  - assert (L := comp_lt_trans _ _ _ H1 H2). now rewrite (comp_lt_neq _ _ L).
Qed.
Lemma list_cmp_le_trans a b c : le_ok (list_cmp a b) -> le_ok (list_cmp b c) -> le_ok (list_cmp a c).
Proof.
  unfold le_ok. intros [H|H] [K|K].
  - left. eapply list_cmp_lt_trans; eassumption.
  - apply list_cmp_eq in K. subst. auto.
  - apply list_cmp_eq in H. subst. auto.
  - apply list_cmp_eq in H. apply list_cmp_eq in K. subst. right. now apply list_cmp_eq.
Qed.
Lemma list_cmp_total a : forall b, aligned a b = true -> exists c, list_cmp a b = Ok c.
Proof.
  induction a as [|x a IH]; intros [|y b]; cbn; eauto. intro H. apply andb_prop in H. destruct H as [K H].
  destruct (comp_eqb x y); [auto|]. destruct x, y; cbn in *; try discriminate; eauto.
Qed.
Lemma list_cmp_raises a b e : list_cmp a b = Err e -> e = TypeError /\ aligned a b = false.
Proof.
  intro H. split.
  - revert b H. induction a as [|x a IH]; intros [|y b]; cbn; try congruence.
    destruct (comp_eqb x y); [apply IH|]. destruct x, y; cbn; congruence.
  - destruct (aligned a b) eqn:E; [|reflexivity]. destruct (list_cmp_total a b E). congruence.
Qed.

Lemma strict_opp a b : strict_cmp b a = CompOpp (strict_cmp a b).
Proof.
  assert (N : nums_cmp b a = CompOpp (nums_cmp a b)).
  { unfold nums_cmp. rewrite (Z.compare_antisym (sv_major a)), (Z.compare_antisym (sv_minor a)), (Z.compare_antisym (sv_patch a)).
    destruct (sv_major a ?= sv_major b), (sv_minor a ?= sv_minor b); reflexivity. }
  unfold strict_cmp. rewrite N. destruct (nums_cmp a b); cbn; try reflexivity.
  destruct (sv_pre a) as [[x n]|], (sv_pre b) as [[y m]|]; try reflexivity.
  rewrite (Z.compare_antisym x), (Z.compare_antisym n). destruct (x ?= y); reflexivity.
Qed.
Lemma strict_eq a b : strict_cmp a b = Eq <-> a = b.
Proof.
  split; [|intros ->].
  - unfold strict_cmp, nums_cmp. destruct a as [a1 a2 a3 p], b as [b1 b2 b3 q]; cbn.
    destruct (Z.compare_spec a1 b1) as [->| |]; try discriminate.
    destruct (Z.compare_spec a2 b2) as [->| |]; try discriminate.
    destruct (Z.compare_spec a3 b3) as [->| |]; try discriminate.
    destruct p as [[x n]|], q as [[y m]|]; try discriminate; [|reflexivity].
    destruct (Z.compare_spec x y) as [->| |]; try discriminate. destruct (Z.compare_spec n m) as [->| |]; try discriminate.
    reflexivity.
  - unfold strict_cmp, nums_cmp. rewrite !Z.compare_refl. destruct (sv_pre b) as [[x n]|]; [|reflexivity].
    now rewrite !Z.compare_refl.
Qed.
Lemma strict_trans a b c : le_strict a b -> le_strict b c -> le_strict a c.
Proof.
  unfold le_strict, strict_cmp, nums_cmp. destruct a as [a1 a2 a3 p], b as [b1 b2 b3 q], c as [c1 c2 c3 r]; cbn.
  destruct (Z.compare_spec a1 b1), (Z.compare_spec b1 c1), (Z.compare_spec a1 c1); try lia; try congruence;
  destruct (Z.compare_spec a2 b2), (Z.compare_spec b2 c2), (Z.compare_spec a2 c2); try lia; try congruence;
  destruct (Z.compare_spec a3 b3), (Z.compare_spec b3 c3), (Z.compare_spec a3 c3); try lia; try congruence;
  destruct p as [[x n]|], q as [[y m]|], r as [[z k]|]; try congruence;
  destruct (Z.compare_spec x y), (Z.compare_spec y z), (Z.compare_spec x z); try lia; try congruence;
  destruct (Z.compare_spec n m), (Z.compare_spec m k), (Z.compare_spec n k); try lia; try congruence.
Qed.

(** * Parsing dotted numbers *)
Lemma runs_hd c s : exists r rest, runs_of (c :: s) = (class_of c, r) :: rest.
Proof.
  cbn [runs_of]. destruct (runs_of s) as [|[k r] rest]; [eauto|].
  destruct (class_eqb (class_of c) k) eqn:E; [|eauto]. exists (c :: r), rest. f_equal. f_equal.
  destruct (class_of c), k; cbn in E; congruence.
Qed.
Lemma class_digit c : 48 <= c <= 57 -> class_of c = KDigit.
Proof. intro H. unfold class_of, is_digit. destruct (Z.leb_spec 48 c), (Z.leb_spec c 57); try lia. reflexivity. Qed.
Lemma runs_digits p rest : decimal p -> (rest = [] \/ exists r, rest = 46 :: r) ->
  runs_of (p ++ rest) = (KDigit, p) :: runs_of rest.
Proof.
  intros [N F] R. induction p as [|c p IH]; [congruence|]. inversion F as [|? ? Hc Fp]; subst.
  destruct p as [|c' p].
  - cbn [app runs_of]. rewrite (class_digit c Hc). destruct R as [->|(r & ->)]; [reflexivity|].
    destruct (runs_hd 46 r) as (r1 & r2 & ->). reflexivity.
  - rewrite <- app_comm_cons. remember (c' :: p) as q eqn:Eq. cbn [runs_of]. rewrite IH; [|subst; discriminate|exact Fp].
    rewrite (class_digit c Hc). reflexivity.
Qed.
Lemma dotted_pf ps : Forall decimal ps -> loose_parse (join (lit ".") ps) = map (fun p => CNum (value10 p)) ps.
Proof.
  intro F. unfold loose_parse. change (lit ".") with [46]. induction F as [|p ps D F IH]; [reflexivity|].
  destruct ps as [|q ps].
  - cbn [join]. rewrite <- (app_nil_r p), runs_digits by (assumption || now left). cbn. now rewrite app_nil_r.
  - rewrite join_cons by discriminate. rewrite runs_digits by (assumption || (right; eexists; reflexivity)).
    change (map (fun p => CNum (value10 p)) (p :: q :: ps)) with (CNum (value10 p) :: map (fun p => CNum (value10 p)) (q :: ps)).
    rewrite <- IH. cbn [flat_map app]. f_equal.
    assert (Q : exists c r, join [46] (q :: ps) = c :: r /\ 48 <= c <= 57).
    { inversion F as [|? ? [Nq Fq] _]; subst. destruct q as [|c q]; [congruence|]. inversion Fq; subst.
      destruct ps; cbn; eauto. }
    destruct Q as (c & r & -> & Hc). destruct (runs_hd c r) as (r1 & r2 & E).
    change ([46] ++ c :: r) with (46 :: c :: r). remember (c :: r) as s. cbn [runs_of]. rewrite E.
    rewrite (class_digit c Hc). reflexivity.
Qed.
Lemma runs_concat s : List.concat (map snd (runs_of s)) = s.
Proof.
  induction s as [|c s IH]; [reflexivity|]. cbn [runs_of]. destruct (runs_of s) as [|[k r] rest]; cbn in *; [now subst|].
  destruct (class_eqb (class_of c) k); cbn; congruence.
Qed.

(** The pieces of a version string. *)
Lemma class_eqb_eq a b : class_eqb a b = true <-> a = b.
Proof. destruct a, b; cbn; split; congruence. Qed.
Definition comps_of (x : cclass * pystr) : list comp :=
  match fst x with KDigit => [CNum (num_of (snd x))] | KLetter | KOther => [CStr (snd x)] | KDot => [] end.
Lemma class_spec c : match class_of c with
  | KDigit => 48 <= c <= 57 | KLetter => small c | KDot => 46 = c | KOther => ~ 48 <= c <= 57 /\ ~ small c /\ c <> 46 end.
Proof.
  unfold class_of, small. destruct (is_digit c) eqn:D; unfold is_digit in D.
  - apply andb_true_iff in D as [A B]. apply Z.leb_le in A, B. lia.
  - destruct ((97 <=? c) && (c <=? 122)) eqn:L.
    + apply andb_true_iff in L as [A B]. apply Z.leb_le in A, B. lia.
    + assert (~ 48 <= c <= 57) by (intros [A B]; apply Z.leb_le in A, B; rewrite A, B in D; discriminate).
      assert (~ 97 <= c <= 122) by (intros [A B]; apply Z.leb_le in A, B; rewrite A, B in L; discriminate).
      destruct (Z.eqb_spec c 46); [lia|auto].
Qed.
Lemma class_of_unique c : (48 <= c <= 57 -> class_of c = KDigit) /\ (small c -> class_of c = KLetter) /\ (46 = c -> class_of c = KDot) /\
  (~ 48 <= c <= 57 /\ ~ small c /\ c <> 46 -> class_of c = KOther).
Proof. pose proof (class_spec c) as S. unfold small in *. destruct (class_of c); repeat split; intros; try reflexivity; exfalso; lia. Qed.
Definition one_class (x : cclass * pystr) : Prop := snd x <> [] /\ Forall (fun c => class_of c = fst x) (snd x).
Lemma piece_class w cs : piece w cs -> exists k, one_class (k, w).
Proof.
  unfold one_class. cbn [fst snd]. intros [v [N F]|v N F|v N F|v N F]; [exists KDigit|exists KLetter|exists KDot|exists KOther]; (split; [assumption|]);
    revert F; apply Forall_impl; intros c C; apply (class_of_unique c); assumption.
Qed.
Lemma class_piece x : one_class x -> piece (snd x) (comps_of x).
Proof.
  destruct x as [k w]. unfold one_class, comps_of. cbn [fst snd]. intros [N F].
  assert (G : Forall (fun c => match k with
    | KDigit => 48 <= c <= 57 | KLetter => small c | KDot => 46 = c | KOther => ~ 48 <= c <= 57 /\ ~ small c /\ c <> 46 end) w).
  { revert F. apply Forall_impl. intros c <-. apply class_spec. }
  destruct k; [apply piece_number|apply piece_word|apply piece_dots|apply piece_other]; try split; assumption.
Qed.
Fixpoint alternating (l : list (cclass * pystr)) : Prop :=
  match l with v :: (w :: _) as rest => fst v <> fst w /\ alternating rest | _ => True end.
Lemma runs_one s : Forall one_class (runs_of s) /\ alternating (runs_of s).
Proof.
  induction s as [|c s [F A]]; [split; constructor|]. cbn [runs_of]. destruct (runs_of s) as [|[k r] rest].
  - split; [constructor; [split; [discriminate|repeat constructor]|constructor]|exact Logic.I].
  - inversion F as [|? ? [N G] F']; subst. cbn [fst snd] in *. destruct (class_eqb (class_of c) k) eqn:E.
    + apply class_eqb_eq in E. split.
      * constructor; [|assumption]. split; [discriminate|]. cbn [fst snd]. constructor; assumption.
      * destruct rest; exact A.
    + split; [constructor; [split; [discriminate|repeat constructor]|assumption]|].
      split; [cbn [fst]; intro X; apply class_eqb_eq in X; congruence|assumption].
Qed.
Lemma loose_parse_flat s : loose_parse s = flat_map comps_of (runs_of s).
Proof. unfold loose_parse. apply flat_map_ext. intros [k r]. reflexivity. Qed.
Lemma alternating_split l : Forall one_class l -> alternating l -> split_fully (map snd l).
Proof.
  induction l as [|v l IH]; intros F A; [exact Logic.I|]. inversion F as [|? ? Fv F']; subst. destruct l as [|w l]; [exact Logic.I|].
  destruct A as [D A]. split; [|apply IH; assumption]. intros cs P. apply piece_class in P as (k & _ & G). cbn [fst snd] in G.
  inversion F' as [|? ? [Nw Gw] _]; subst. destruct Fv as [Nv Gv]. apply Forall_app in G as [G1 G2].
  destruct (snd v) as [|c v']; [congruence|]. destruct (snd w) as [|d w']; [congruence|].
  inversion G1; inversion G2; inversion Gv; inversion Gw; subst. congruence.
Qed.
Lemma version_pieces_pf s : exists ws, List.concat ws = s /\ split_fully ws /\ exists css, Forall2 piece ws css /\ loose_parse s = List.concat css.
Proof.
  destruct (runs_one s) as [F A]. exists (map snd (runs_of s)). split; [apply runs_concat|]. split; [apply alternating_split; assumption|].
  exists (map comps_of (runs_of s)). split; [|rewrite loose_parse_flat; apply flat_map_concat_map].
  clear A. induction F as [|x l X F IH]; [constructor|]. constructor; [apply class_piece; assumption|assumption].
Qed.
Lemma questa_pf a b : ~ In 32 a -> mk_questa (a ++ 32 :: b) = Some (loose_parse a).
Proof.
  intro N. unfold mk_questa. destruct (a ++ 32 :: b) as [|x y] eqn:E; [destruct a; discriminate|]. rewrite <- E. clear E x y.
  replace (split_once 32 (a ++ 32 :: b)) with (Some (a, b)); [reflexivity|]. symmetry.
  induction a as [|c a IH]; [reflexivity|]. cbn [app split_once]. destruct (c =? 32) eqn:E; [apply Z.eqb_eq in E; exfalso; apply N; left; assumption|].
  rewrite IH; [reflexivity|]. intro I. apply N. right. assumption.
Qed.
Lemma questa_plain_pf a : a <> [] -> ~ In 32 a -> mk_questa a = mk_loose a.
Proof.
  intros A N. unfold mk_questa, mk_loose. destruct a as [|x y] eqn:E; [congruence|]. rewrite <- E in *. clear E A x y.
  replace (split_once 32 a) with (@None (pystr * pystr)); [reflexivity|]. symmetry.
  induction a as [|c a IH]; [reflexivity|]. cbn [app split_once]. destruct (c =? 32) eqn:E; [apply Z.eqb_eq in E; exfalso; apply N; left; assumption|].
  rewrite IH; [reflexivity|]. intro I. apply N. right. assumption.
Qed.

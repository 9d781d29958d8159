(** Proofs for InitProps.v. *)
From Verif Require Import Base TextModel ToolsModel ToolsSpec ToolsProofs XmlModel XmlProofs RegressionModel QuoteModel QuoteSpec QuoteRegex InitModel InitSpec.
From Coq Require Import String Lia Permutation.
Open Scope Z_scope.

(** * Booleans *)
Lemma trimmed_unique s t u : trimmed s t -> trimmed s u -> t = u.
Proof. intros A B. rewrite <- (trimmed_strip s t A). exact (trimmed_strip s u B). Qed.
Lemma blank_dec v : unset_or_blank v \/ exists s, v = Some s /\ ~ blank s.
Proof.
  destruct v as [s|]; [|left; exact Logic.I]. cbn. unfold blank. destruct (forallb is_space s) eqn:E; [now left|].
  right. exists s. split; [reflexivity|]. now rewrite E.
Qed.
Lemma get_bool_reads v d b : get_bool v (Some d) = Ok b <-> reads_bool v d b.
Proof.
  unfold reads_bool. destruct (blank_dec v) as [B|(s & -> & B)].
  - rewrite (get_bool_pf v (Some d) B). split.
    + intro E. injection E as <-. now left.
    + intros [[_ ->]|(s & t & -> & N & _)]; [reflexivity|now destruct N].
  - destruct (get_bool_some_pf s (Some d) B) as (t & T & ->). destruct (as_bool_pf t) as (Y & N & _). split.
    + intro E. right. exists s, t. split; [reflexivity|]. split; [exact B|]. split; [exact T|].
      destruct b; [left; split; [now apply Y|reflexivity]|right; split; [now apply N|reflexivity]].
    + intros [[U _]|(s' & t' & E & _ & T' & M)]; [now destruct B|]. injection E as <-. rewrite (trimmed_unique _ _ _ T T').
      rewrite (trimmed_unique _ _ _ T T') in Y, N. destruct M as [[M ->]|[M ->]]; [now apply Y|now apply N].
Qed.
Lemma get_bool_total v d : (exists b, get_bool v d = Ok b) \/ get_bool v d = Err ValueError.
Proof.
  destruct (blank_dec v) as [B|(s & -> & B)]; [left; eexists; now apply get_bool_pf|].
  destruct (get_bool_some_pf s d B) as (t & _ & ->). unfold as_bool. destruct (one_of (py_lower t) TRUE); [left; now exists true|].
  destruct (one_of (py_lower t) FALSE); [left; now exists false|now right].
Qed.
Lemma get_bool_none v : get_bool v None = get_bool v (Some false).
Proof. unfold get_bool. now destruct (get_str v None). Qed.
Lemma get_str_unset v : get_str v None = [] <-> unset_or_blank v.
Proof.
  split; [|intro B; exact (get_str_blank_pf v None B)]. intro E. destruct (blank_dec v) as [B|(s & -> & B)]; [exact B|].
  exfalso. exact (proj2 (get_str_pf s None B) E).
Qed.
Lemma strip_iff tty ansi no_color gui b :
  init_strip_ansi tty ansi no_color gui = Ok b <-> exists d, colour_default tty no_color gui d /\ reads_bool ansi d (negb b).
Proof.
  unfold init_strip_ansi, colour_default.
  assert (A : forall d, bind (get_bool ansi (Some d)) (fun b => Ok (negb b)) = Ok b <-> reads_bool ansi d (negb b)).
  { intro d. rewrite <- get_bool_reads. destruct (get_bool ansi (Some d)) as [x|e]; cbn [bind]; [|split; discriminate].
    split; intro E; injection E as E; f_equal; [subst b; now rewrite negb_involutive|subst x; apply negb_involutive]. }
  destruct tty.
  - destruct (get_str no_color None) as [|c n] eqn:N.
    + pose proof (proj1 (get_str_unset no_color) N) as U. rewrite get_bool_none.
      assert (G : forall d, get_bool gui (Some false) = Ok (negb d) <-> reads_bool gui false (negb d)) by (intro; apply get_bool_reads).
      destruct (get_bool gui (Some false)) as [g|e] eqn:GE; cbn [bind].
      * rewrite A. split.
        -- intro R. exists (negb g). split; [|exact R]. left. split; [reflexivity|]. split; [exact U|]. apply G. f_equal. symmetry. apply negb_involutive.
        -- intros (d & [(_ & _ & R)|(_ & [E|E])] & RA); [|discriminate E|now destruct (E U)]. apply G in R. injection R as ->.
           now rewrite negb_involutive.
      * split; [discriminate|]. intros (d & [(_ & _ & R)|(_ & [E|E])] & RA); [|discriminate E|now destruct (E U)]. apply G in R. discriminate R.
    + assert (U : ~ unset_or_blank no_color) by (intro U; apply get_str_unset in U; rewrite U in N; discriminate N).
      cbn [bind]. rewrite A. split.
      * intro R. exists false. split; [|exact R]. right. auto.
      * intros (d & [(_ & E & _)|(-> & _)] & R); [now destruct (U E)|exact R].
  - cbn [bind]. rewrite A. split.
    + intro R. exists false. split; [|exact R]. right. auto.
    + intros (d & [(E & _)|(-> & _)] & R); [discriminate E|exact R].
Qed.
Lemma strip_error tty ansi no_color gui e : init_strip_ansi tty ansi no_color gui = Err e -> e = ValueError.
Proof.
  unfold init_strip_ansi.
  assert (A : forall d, bind (get_bool ansi (Some d)) (fun b => Ok (negb b)) = Err e -> e = ValueError).
  { intro d. destruct (get_bool_total ansi (Some d)) as [(b & ->)| ->]; cbn [bind]; intro E; [discriminate E|now injection E]. }
  destruct tty; [|exact (A false)]. destruct (get_str no_color None); [|exact (A false)].
  destruct (get_bool_total gui None) as [(b & ->)| ->]; cbn [bind]; [apply A|]. intro E. now injection E.
Qed.

(** * Levels *)
Definition up (c : Z) : Z := if (97 <=? c) && (c <=? 122) then c - 32 else c.
Lemma upper_ascii s : ascii s -> py_upper s = map up s.
Proof.
  induction 1 as [|c s H _ IH]; [reflexivity|]. unfold py_upper in *. cbn [flat_map map]. rewrite IH.
  unfold py_upper_char, up. destruct ((97 <=? c) && (c <=? 122)); [reflexivity|].
  repeat match goal with |- context [c =? ?n] => rewrite (proj2 (Z.eqb_neq c n)) by lia end. reflexivity.
Qed.
Lemma up_letter c x : 0 <= c < 128 -> 65 <= x <= 90 -> (up c = x <-> same_letter c x).
Proof. unfold up, same_letter. intros. destruct (Z.leb_spec 97 c), (Z.leb_spec c 122); cbn [andb]; lia. Qed.
Lemma up_word s : ascii s -> forall w, Forall (fun x => 65 <= x <= 90) w -> (map up s = w <-> same_word s w).
Proof.
  unfold same_word. induction 1 as [|c s H _ IH]; intros w W.
  - split; [intros <-; constructor|]. intro F. now inversion F.
  - split.
    + intros <-. inversion W; subst. constructor; [now apply up_letter|]. now apply IH.
    + intro F. inversion F; subst. inversion W; subst. cbn [map]. f_equal; [now apply up_letter|now apply IH].
Qed.
Lemma table_caps w n : In (w, n) level_table -> Forall (fun x => 65 <= x <= 90) (lit w).
Proof.
  intro I. cbn in I. repeat (destruct I as [E|I]; [injection E as <- <-; repeat constructor; cbn; lia|]). destruct I.
Qed.
Lemma table_iff x n : dict_get level_names x = Some n <-> exists w, In (w, n) level_table /\ x = lit w.
Proof.
  split.
  - unfold level_names. cbn [dict_get].
    repeat match goal with
    | |- (if pystr_eqb ?k x then _ else _) = _ -> _ =>
        destruct (pystr_eqb k x) eqn:?E;
        [apply pystr_eqb_eq in E; subst x; intro H; injection H as <-; eexists; split; [|reflexivity]; cbn; tauto|clear E]
    end. discriminate.
  - intros (w & I & ->). cbn in I. repeat (destruct I as [E|I]; [injection E as <- <-; reflexivity|]). destruct I.
Qed.
Lemma ascii_strip s t : trimmed s t -> ascii s -> ascii t.
Proof. intros (l & r & -> & _) A. apply Forall_app in A as [_ A]. now apply Forall_app in A as [A _]. Qed.
Lemma upper_nil s : py_upper s = [] -> s = [].
Proof.
  destruct s as [|c s]; [reflexivity|]. unfold py_upper. cbn [flat_map]. intro E. apply app_eq_nil in E as [E _]. exfalso.
  revert E. unfold py_upper_char. repeat match goal with |- context [if ?b then _ else _] => destruct b end; discriminate.
Qed.
Lemma level_iff s n : ascii s -> ~ blank s -> (check_level (py_upper (get_str (Some s) None)) = Ok n <-> names_level s n).
Proof.
  intros A B. destruct (get_str_pf s None B) as [T _]. set (t := get_str (Some s) None) in *. pose proof (ascii_strip _ _ T A) as AT.
  unfold check_level, names_level. rewrite (upper_ascii _ AT).
  transitivity (dict_get level_names (map up t) = Some n).
  - destruct (dict_get level_names (map up t)); split; intro E; try discriminate E; injection E as ->; reflexivity.
  - rewrite table_iff. split.
    + intros (w & I & E). exists t, w. split; [exact T|]. split; [exact I|]. apply up_word; [exact AT|now apply (table_caps w n)|exact E].
    + intros (t' & w & T' & I & W). rewrite <- (trimmed_unique _ _ _ T T') in W. exists w. split; [exact I|].
      apply up_word; [exact AT|now apply (table_caps w n)|exact W].
Qed.
Lemma check_total x : (exists n, check_level x = Ok n) \/ check_level x = Err ValueError.
Proof. unfold check_level. destruct (dict_get level_names x); [left; eexists; reflexivity|now right]. Qed.
Lemma gpi_level root s l l' : ascii s -> ~ blank s ->
  (set_gpi_level root (Some s) l = Ok l' <->
   exists n, names_level s n /\ l' = Levels n (l_cocotb l) (if n =? 0 then root else n)).
Proof.
  intros A B. unfold set_gpi_level. destruct (py_upper (get_str (Some s) None)) as [|c x] eqn:E.
  - apply upper_nil in E. exfalso. exact (proj2 (get_str_pf s None B) E).
  - rewrite <- E. split.
    + destruct (check_level (py_upper (get_str (Some s) None))) as [n|] eqn:C; [|discriminate]. cbn [bind]. intro H. injection H as <-.
      exists n. split; [|reflexivity]. now apply level_iff.
    + intros (n & N & ->). apply level_iff in N; [|exact A|exact B]. now rewrite N.
Qed.
Lemma cocotb_level s l l' : ascii s -> ~ blank s ->
  (set_cocotb_level (Some s) l = Ok l' <-> exists n, names_level s n /\ l' = Levels (l_gpi l) n (l_native l)).
Proof.
  intros A B. unfold set_cocotb_level. destruct (py_upper (get_str (Some s) None)) as [|c x] eqn:E.
  - apply upper_nil in E. exfalso. exact (proj2 (get_str_pf s None B) E).
  - rewrite <- E. split.
    + destruct (check_level (py_upper (get_str (Some s) None))) as [n|] eqn:C; [|discriminate]. cbn [bind]. intro H. injection H as <-.
      exists n. split; [|reflexivity]. now apply level_iff.
    + intros (n & N & ->). apply level_iff in N; [|exact A|exact B]. now rewrite N.
Qed.
Lemma level_unset v root l : unset_or_blank v -> set_gpi_level root v l = Ok l /\ set_cocotb_level v l = Ok l.
Proof. intro B. unfold set_gpi_level, set_cocotb_level. rewrite (get_str_blank_pf v None B). split; reflexivity. Qed.
Lemma level_error v root l e : set_gpi_level root v l = Err e \/ set_cocotb_level v l = Err e -> e = ValueError.
Proof.
  unfold set_gpi_level, set_cocotb_level. destruct (py_upper (get_str v None)) as [|c x]; [intros [E|E]; discriminate E|].
  destruct (check_total (c :: x)) as [(n & ->)| ->]; cbn [bind]; intros [E|E]; try discriminate E; now injection E.
Qed.

(** * Roots *)
Lemma last_of_snoc P l x h : last_of P (l ++ [x]) h <-> (P x /\ h = x) \/ (~ P x /\ last_of P l h).
Proof.
  unfold last_of. split.
  - intros (l1 & l2 & E & PH & F). destruct l2 as [|y l2 _] using rev_ind.
    + apply app_inj_tail in E as [-> ->]. now left.
    + apply Forall_app in F as [F1 F2]. rewrite app_comm_cons, app_assoc in E. apply app_inj_tail in E as [-> ->]. inversion F2; subst.
      right. split; [assumption|]. now exists l1, l2.
  - intros [[PX ->]|[NX (l1 & l2 & -> & PH & F)]].
    + exists l, []. repeat split; [exact PX|constructor].
    + exists l1, (l2 ++ [x]). split; [now rewrite <- app_assoc|]. split; [exact PH|]. apply Forall_app. split; [exact F|]. now constructor.
Qed.
Lemma tops_get (f : root -> pystr) l : forall d k h,
  dict_get (fold_left (fun d h => dict_set d (f h) h) l d) k = Some h <->
  last_of (fun x => f x = k) l h \/ (Forall (fun x => f x <> k) l /\ dict_get d k = Some h).
Proof.
  induction l as [|x l IH] using rev_ind; intros d k h.
  - cbn [fold_left]. split; [intro E; right; split; [constructor|exact E]|].
    intros [(l1 & l2 & E & _)|[_ E]]; [destruct l1; discriminate E|exact E].
  - rewrite fold_left_app. cbn [fold_left]. rewrite dict_set_get, last_of_snoc, Forall_app.
    destruct (pystr_eqb (f x) k) eqn:E.
    + apply pystr_eqb_eq in E. split.
      * intro H. injection H as <-. left. left. split; [exact E|reflexivity].
      * intros [[[_ ->]|[N _]]|[[_ F] _]]; [reflexivity|now destruct N|]. inversion F; subst. now destruct H1.
    + assert (N : f x <> k) by (intro H; apply pystr_eqb_eq in H; rewrite H in E; discriminate E).
      rewrite IH. split.
      * intros [H|[F H]]; [left; right; auto|right]. repeat split; [exact F|now constructor|exact H].
      * intros [[[H _]|[_ H]]|[[F _] H]]; [now destruct N|now left|right; auto].
Qed.
Lemma root_name_spec s : ~ blank s -> exists t, trimmed s t /\ (~ In 46 t -> root_name (Some s) = Some t) /\
  (forall a b, t = a ++ [46] ++ b -> ~ In 46 a -> root_name (Some s) = Some b).
Proof.
  intro B. exists (strip s). split; [apply strip_trimmed|]. pose proof (strip_not_blank s B) as N. unfold root_name. split.
  - intro I. destruct (strip s) as [|c t]; [now destruct N|]. now rewrite split_once_none.
  - intros a b E I. pose proof (split_once_app 46 a b I) as S. rewrite <- E in S. destruct (strip s) as [|c t]; [now destruct N|]. now rewrite S.
Qed.
Lemma root_name_unset v : unset_or_blank v -> root_name v = None.
Proof. destruct v as [s|]; [|reflexivity]. cbn. intro B. now rewrite (strip_blank s B). Qed.

(** * Seeds *)
Lemma py_int_str_any n : py_int10 (py_str_int n) = Ok n.
Proof.
  destruct (Z.le_gt_cases 0 n) as [H|H]; [now apply py_int_str|].
  unfold py_str_int. destruct (Z.ltb_spec n 0); [|lia]. destruct (dec_digits (Z.abs n) ltac:(lia)) as [D V].
  cbn [app]. rewrite (py_int10_negative _ D), V. f_equal. lia.
Qed.
Lemma str_int_nonspace n : forallb (fun c => negb (is_space c)) (py_str_int n) = true.
Proof.
  unfold py_str_int. destruct (dec_digits (Z.abs n) ltac:(lia)) as [D _]. apply decimal_space in D.
  destruct (n <? 0); cbn [app forallb]; [|exact D]. now rewrite D.
Qed.
Lemma str_int_nonempty n : py_str_int n <> [].
Proof.
  unfold py_str_int. destruct (dec_digits (Z.abs n) ltac:(lia)) as [[D _] _]. intro E. apply app_eq_nil in E as [_ E]. exact (D E).
Qed.
Lemma get_int_str n d : get_int (Some (py_str_int n)) d = Ok n.
Proof.
  unfold get_int. rewrite get_str_some, (nonspace_strip _ (str_int_nonspace n)). pose proof (str_int_nonempty n) as N.
  pose proof (py_int_str_any n) as E. destruct (py_str_int n); [now destruct N|exact E].
Qed.

(** * Entry points *)
Lemma split_two e m f : split 58 e = [m; f] <-> entry_of e (m, f).
Proof.
  unfold entry_of. cbn [fst snd]. split.
  - intro E. pose proof (split_join 58 e) as J. pose proof (split_free 58 e) as F. rewrite E in J, F. cbn [join] in J.
    inversion F as [|? ? F1 F2]; subst. inversion F2; subst. split; [reflexivity|]. now split.
  - intros (-> & A & B). change (m ++ [58] ++ f) with (join [58] [m; f]). apply split_unique; [discriminate|]. repeat constructor; assumption.
Qed.
Lemma parse_entries_iff l : forall es, parse_entries l = Ok es <-> Forall2 entry_of l es.
Proof.
  induction l as [|e l IH]; intro es.
  - cbn. split; [intro E; injection E as <-; constructor|intro F; now inversion F].
  - cbn [parse_entries]. split.
    + destruct (split 58 e) as [|m [|f [|]]] eqn:S; try discriminate. destruct (parse_entries l) as [es'|] eqn:P; [|discriminate].
      cbn [bind]. intro E. injection E as <-. constructor; [now apply split_two|now apply IH].
    + intro F. inversion F as [|? [m f] ? es' E F']; subst. apply split_two in E. rewrite E. apply IH in F'. now rewrite F'.
Qed.
Lemma parse_entries_err l : (exists es, parse_entries l = Ok es) \/ parse_entries l = Err RuntimeError.
Proof.
  induction l as [|e l IH]; [left; now exists []|]. cbn [parse_entries].
  destruct (split 58 e) as [|m [|f [|]]]; try now right. destruct IH as [(es & ->)| ->]; cbn [bind]; [left; eexists; reflexivity|now right].
Qed.
Lemma run_entries_spec run l : forall earlier, exists done rest, l = done ++ rest /\ fst (run_entries run earlier l) = earlier ++ done /\
  (forall a e b, done = a ++ e :: b -> run (earlier ++ a) e = Ok tt) /\
  match rest with
  | [] => snd (run_entries run earlier l) = Ok tt
  | e :: _ => exists x, run (earlier ++ done) e = Err x /\ snd (run_entries run earlier l) = Err x
  end.
Proof.
  induction l as [|e l IH]; intro earlier.
  - exists [], []. split; [reflexivity|]. split; [now rewrite app_nil_r|]. split; [intros [|? ?] ? ? E; discriminate E|reflexivity].
  - cbn [run_entries]. destruct (run earlier e) as [[]|x] eqn:R.
    + destruct (IH (earlier ++ [e])) as (done & rest & E & F & G & H). exists (e :: done), rest. split; [now rewrite E|].
      split; [rewrite F, <- app_assoc; reflexivity|]. split.
      * intros [|y a] z b Eq; injection Eq as <- Eq; [now rewrite app_nil_r|]. specialize (G a z b Eq). now rewrite <- app_assoc in G.
      * destruct rest as [|z rest]; [exact H|]. destruct H as (x & H1 & H2). exists x. now rewrite <- app_assoc in H1.
    + exists [], (e :: l). split; [reflexivity|]. split; [now rewrite app_nil_r|]. split; [intros [|? ?] ? ? E; discriminate E|].
      exists x. now rewrite app_nil_r.
Qed.

(** * Preview *)
Lemma parse_features_ok vs : Forall (fun v => strip v = [] \/ In (strip v) features) vs ->
  parse_features vs = Ok (filter nonempty (map strip vs)).
Proof.
  induction 1 as [|v vs H _ IH]; [reflexivity|]. cbn [parse_features map filter]. destruct (strip v) as [|c f] eqn:S; [exact IH|].
  destruct H as [H|H]; [discriminate H|]. apply one_of_in in H. rewrite H, IH. reflexivity.
Qed.
Lemma parse_features_bad vs v : In v vs -> strip v <> [] -> ~ In (strip v) features -> parse_features vs = Err ValueError.
Proof.
  induction vs as [|u vs IH]; [intros []|]. intros [->|I] N F; cbn [parse_features].
  - destruct (strip v) as [|c w] eqn:S; [now destruct N|]. destruct (one_of (c :: w) features) eqn:O; [|reflexivity]. apply one_of_in in O. now destruct F.
  - specialize (IH I N F). destruct (strip u); [exact IH|]. destruct (one_of _ features); [|reflexivity]. now rewrite IH.
Qed.

(** * Shutdown *)
Fixpoint queue_order (n : nat) (q : list callback) : list callback :=
  match n, q with
  | S n, c :: rest => c :: queue_order n (rest ++ cb_registers c)
  | _, _ => []
  end.
Definition size (l : list callback) : nat := list_sum (map cb_size l).
Lemma size_app a b : size (a ++ b) = (size a + size b)%nat.
Proof. unfold size. now rewrite map_app, list_sum_app. Qed.
Lemma size_cons c l : size (c :: l) = (S (size (cb_registers c)) + size l)%nat.
Proof. destruct c as [i r b]. reflexivity. Qed.
Lemma size_len l : (List.length l <= size l)%nat.
Proof. induction l as [|c l IH]; [cbn; lia|]. rewrite size_cons. cbn [List.length]. lia. Qed.
Lemma size_regs l : size l = (List.length l + size (flat_map cb_registers l))%nat.
Proof. induction l as [|c l IH]; [reflexivity|]. rewrite size_cons. cbn [flat_map List.length]. rewrite size_app. lia. Qed.
Lemma queue_app l : forall n m, (List.length l <= n)%nat ->
  queue_order n (l ++ m) = l ++ queue_order (n - List.length l) (m ++ flat_map cb_registers l).
Proof.
  induction l as [|c l IH]; intros n m H.
  - cbn [app List.length flat_map]. now rewrite Nat.sub_0_r, app_nil_r.
  - destruct n as [|n]; [cbn in H; lia|]. cbn [app queue_order List.length flat_map Nat.sub]. rewrite <- app_assoc, IH by (cbn in H; lia).
    now rewrite <- app_assoc.
Qed.
Lemma queue_generations k : forall n l, (size l <= k)%nat -> (size l <= n)%nat -> queue_order n l = generations (S k) l.
Proof.
  induction k as [|k IH]; intros n l K N.
  - destruct l as [|c l]; [|rewrite size_cons in K; lia]. destruct n; reflexivity.
  - rewrite <- (app_nil_r l) at 1. pose proof (size_len l) as L. pose proof (size_regs l) as R. rewrite queue_app by lia. cbn [app].
    change (generations (S (S k)) l) with (l ++ generations (S k) (flat_map cb_registers l)). f_equal.
    destruct l as [|c l]; [cbn [flat_map]; rewrite <- (IH O []) by (cbn; lia); destruct (n - List.length (@nil callback))%nat; reflexivity|].
    apply IH; cbn [List.length] in *; lia.
Qed.
Lemma fold_register r : forall l, fold_left register r l = l ++ r.
Proof.
  induction r as [|c r IH]; intro l; cbn [fold_left]; [now rewrite app_nil_r|]. rewrite IH. unfold register. now rewrite <- app_assoc.
Qed.
Lemma shutdown_queue q called left raised : shutdown q called left raised -> forall n, (size q <= n)%nat ->
  exists later, queue_order n q = called ++ later /\
    (raised = false -> later = [] /\ left = [] /\ none_raises called) /\
    (raised = true -> exists pre c, called = pre ++ [c] /\ none_raises pre /\ cb_raises c = true).
Proof.
  induction 1 as [|c rest left E|c rest rest' called left raised E H IH]; intros n N.
  - exists []. split; [now destruct n|]. split; [intros _; split; [reflexivity|split; [reflexivity|constructor]]|discriminate].
  - unfold shutdown_one in E. injection E as E1 E2. rewrite size_cons in N. destruct n as [|n]; [lia|]. cbn [queue_order].
    exists (queue_order n (rest ++ cb_registers c)). split; [reflexivity|]. split; [discriminate|]. intros _. exists [], c.
    split; [reflexivity|]. split; [constructor|exact E2].
  - unfold shutdown_one in E. injection E as E1 E2. rewrite fold_register in E1. subst rest'. rewrite size_cons in N. destruct n as [|n]; [lia|]. cbn [queue_order].
    destruct (IH n) as (later & Q & A & B); [rewrite size_app; lia|]. exists later. split; [now rewrite Q|]. split.
    + intro R. destruct (A R) as (? & ? & ?). split; [assumption|]. split; [assumption|]. now constructor.
    + intro R. destruct (B R) as (pre & x & -> & ? & ?). exists (c :: pre), x. split; [reflexivity|]. split; [now constructor|assumption].
Qed.
Lemma shutdown_exists n : forall q, (size q <= n)%nat -> exists called left raised, shutdown q called left raised.
Proof.
  induction n as [|n IH]; intros q N; destruct q as [|c q]; try (exists [], [], false; constructor); rewrite size_cons in N; [lia|].
  destruct (cb_raises c) eqn:R.
  - exists [c], (q ++ cb_registers c), true. constructor. unfold shutdown_one. now rewrite fold_register, R.
  - destruct (IH (q ++ cb_registers c)) as (called & left & raised & H); [rewrite size_app; lia|].
    exists (c :: called), left, raised. eapply sd_next; [|exact H]. unfold shutdown_one. now rewrite fold_register, R.
Qed.
Lemma shutdown_left q called left raised : shutdown q called left raised -> Permutation (q ++ flat_map cb_registers called) (called ++ left).
Proof.
  induction 1 as [|c rest left E|c rest rest' called left raised E H IH]; [constructor|..];
    unfold shutdown_one in E; injection E as E1 E2; rewrite fold_register in E1; cbn [flat_map app]; constructor.
  - subst left. rewrite app_nil_r. reflexivity.
  - subst rest'. now rewrite app_assoc.
Qed.

(** * Tests *)
Lemma discover_iff import ms : forall q ts, discover import ms q = Ok ts <->
  exists mss, Forall2 (fun m x => import m = Ok x) ms mss /\ ts = q ++ List.concat (map module_tests mss) /\ ts <> [].
Proof.
  induction ms as [|m ms IH]; intros q ts.
  - cbn [discover]. split.
    + intro E. exists []. split; [constructor|]. cbn. rewrite app_nil_r. destruct q; [discriminate E|]. injection E as <-. split; [reflexivity|discriminate].
    + intros (mss & F & E & N). inversion F; subst. cbn in N |- *. rewrite app_nil_r in *. destruct q; [now destruct N|reflexivity].
  - cbn [discover]. split.
    + destruct (import m) as [x|] eqn:I; [|discriminate]. cbn [bind]. rewrite IH. intros (mss & F & E & N). exists (x :: mss).
      split; [now constructor|]. split; [|exact N]. cbn [map List.concat]. now rewrite app_assoc.
    + intros (mss & F & E & N). inversion F as [|? x ? mss' I F']; subst. rewrite I. cbn [bind]. apply IH. exists mss'. split; [exact F'|].
      split; [|exact N]. cbn [map List.concat]. now rewrite app_assoc.
Qed.
Lemma plain_special s : plain_text s -> forall c, In c s -> re_special c = false.
Proof.
  intros P c I. destruct (P c I) as [A B]. unfold re_special. apply orb_false_iff. split.
  - destruct (existsb _ _) eqn:E; [|reflexivity]. apply existsb_exists in E as (d & ID & ED). apply Z.eqb_eq in ED. subst d. now destruct A.
  - destruct (Z.leb_spec 9 c), (Z.leb_spec c 13); try reflexivity. exfalso. apply B. lia.
Qed.
Lemma plain_escape s : plain_text s -> re_escape s = s.
Proof.
  intro P. pose proof (plain_special s P) as Q. clear P. unfold re_escape, backslashed. induction s as [|c s IH]; [reflexivity|].
  cbn [flat_map]. rewrite (Q c) by (left; reflexivity). cbn [app]. f_equal. apply IH. intros d I. apply Q. now right.
Qed.
Definition dollar_re (s : pystr) : re := seq_of (REnd :: rev (map RChr s)).
Lemma dollar_compile s : plain_text s -> re_compile (s ++ lit "$") = Some (dollar_re s).
Proof.
  intro P. unfold re_compile. rewrite <- (plain_escape s P) at 1. rewrite parse_escaped. cbn [fst snd]. rewrite app_nil_r. reflexivity.
Qed.
Lemma dollar_search s full : re_search (dollar_re s) full <-> ends_with full s.
Proof.
  unfold re_search, dollar_re, seq_of, ends_with. cbn [fold_left]. split.
  - intros (before & x & y & -> & M). apply match_chars in M as (u & -> & M). inversion M as [| | | | |? ? ? t1 ? H1 H2| | | |]; subst.
    apply match_end in H1 as [<- [->| ->]]; exists before; [left|right]; now rewrite ?app_nil_r.
  - intros (before & [->| ->]).
    + exists before, s, []. split; [reflexivity|]. apply match_chars. exists []. split; [now rewrite app_nil_r|]. econstructor; [apply MEnd|constructor].
    + exists before, (s ++ [10]), [10]. split; [reflexivity|]. apply match_chars. exists [10]. split; [reflexivity|]. econstructor; [apply MEndLf|constructor].
Qed.

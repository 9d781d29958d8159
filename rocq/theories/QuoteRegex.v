(** Proofs for QuoteProps.v: the regular expression of the [testcase] argument. *)
From Verif Require Import Base TextModel ToolsModel QuoteModel QuoteSpec.
From Coq Require Import String.
Open Scope Z_scope.

Lemma special_char c f outer s : re_parse f outer ((if re_special c then [92; c] else [c]) ++ s) = re_parse (push_item (RChr c) f) outer s.
Proof.
  destruct (re_special c) eqn:S.
  - assert (A : is_alnum c = false).
    { unfold re_special in S. apply orb_true_iff in S as [S|S].
      - apply existsb_exists in S as (d & I & E). apply Z.eqb_eq in E. subst d. cbn in I.
        repeat match type of I with _ \/ _ => destruct I as [I|I]; [subst c; reflexivity|] end. contradiction.
      - apply andb_prop in S as [S1 S2]. apply Z.leb_le in S1, S2. unfold is_alnum.
        destruct (Z.leb_spec 48 c), (Z.leb_spec 65 c), (Z.leb_spec 97 c); try lia; reflexivity. }
    cbn [app re_parse Z.eqb Pos.eqb]. now rewrite A.
  - assert (T : forall d, re_special d = true -> c <> d) by (intros d D ->; congruence).
    cbn [app re_parse].
    rewrite (proj2 (Z.eqb_neq c 92)), (proj2 (Z.eqb_neq c 40)), (proj2 (Z.eqb_neq c 41)), (proj2 (Z.eqb_neq c 124)),
      (proj2 (Z.eqb_neq c 42)), (proj2 (Z.eqb_neq c 46)), (proj2 (Z.eqb_neq c 36)) by (apply T; reflexivity).
    destruct (existsb (Z.eqb c) (lit "[{+?^")) eqn:X; [|reflexivity]. exfalso. apply existsb_exists in X as (d & I & E).
    apply Z.eqb_eq in E. subst d. cbn in I. repeat match type of I with _ \/ _ => destruct I as [I|I]; [subst c; discriminate S|] end. contradiction.
Qed.
Lemma parse_escaped name : forall f outer s, re_parse f outer (re_escape name ++ s) = re_parse (fst f, rev (map RChr name) ++ snd f) outer s.
Proof.
  unfold re_escape, backslashed. induction name as [|c name IH]; intros [a i] outer s; [reflexivity|]. cbn [flat_map]. rewrite <- app_assoc, special_char, IH.
  unfold push_item. cbn [fst snd map rev]. now rewrite <- app_assoc.
Qed.
Definition name_items (name : pystr) : list re := rev (map RChr name) ++ [RStar RAny].
Lemma parse_name name a outer s : re_parse (a, []) outer (lit ".*" ++ re_escape name ++ s) = re_parse (a, name_items name) outer s.
Proof.
  change (re_parse (a, []) outer (lit ".*" ++ re_escape name ++ s)) with (re_parse (a, [RStar RAny]) outer (re_escape name ++ s)).
  rewrite parse_escaped. reflexivity.
Qed.
Fixpoint names_frame (a : list re) (names : list pystr) : frame :=
  match names with
  | [] => (a, [])
  | [n] => (a, name_items n)
  | n :: ns => names_frame (seq_of (name_items n) :: a) ns
  end.
Lemma parse_names names : forall a outer s,
  re_parse (a, []) outer (join (lit "|") (map (fun name => lit ".*" ++ re_escape name) names) ++ s) =
  re_parse (names_frame a names) outer s.
Proof.
  induction names as [|n names IH]; intros a outer s; [reflexivity|]. destruct names as [|n2 names].
  - cbn [map join names_frame]. rewrite <- app_assoc. apply parse_name.
  - change (join (lit "|") (map (fun name => lit ".*" ++ re_escape name) (n :: n2 :: names))) with
      ((lit ".*" ++ re_escape n) ++ lit "|" ++ join (lit "|") (map (fun name => lit ".*" ++ re_escape name) (n2 :: names))).
    rewrite <- !app_assoc, parse_name.
    change (re_parse (a, name_items n) outer (lit "|" ++ ?x)) with (re_parse (seq_of (name_items n) :: a, []) outer x).
    rewrite IH. reflexivity.
Qed.
Definition compiled (names : list pystr) : re := seq_of [REnd; close_frame (names_frame [] names); RChr 46].
Lemma compile_pf names : re_compile (testcase_regex names) = Some (compiled names).
Proof.
  unfold re_compile, testcase_regex.
  change (re_parse ([], []) [] (lit "\.(" ++ ?x)) with (re_parse ([], []) [([], [RChr 46])] x).
  rewrite parse_names. reflexivity.
Qed.

(** * Meaning *)
Lemma match_chars name : forall acc s t,
  RMatch (fold_left (fun acc i => RSeq i acc) (rev (map RChr name)) acc) s t <-> exists u, s = name ++ u /\ RMatch acc u t.
Proof.
  induction name as [|c name IH]; intros acc s t; cbn [map rev fold_left].
  - split; [intro H; exists s; auto|intros (u & -> & H); exact H].
  - rewrite fold_left_app. cbn [fold_left]. split.
    + intro H. inversion H as [| | | | |? ? ? t1 ? H1 H2| | | |]; subst. inversion H1; subst. apply IH in H2 as (u & -> & H2). exists u. auto.
    + intros (u & -> & H). cbn [app]. econstructor; [constructor|]. apply IH. exists u. auto.
Qed.
Lemma match_any_star s t : RMatch (RStar RAny) s t <-> exists x, s = x ++ t /\ ~ In 10 x.
Proof.
  split.
  - intro H. remember (RStar RAny) as r eqn:E. induction H; try discriminate E.
    + exists []. auto.
    + injection E as ->. inversion H; subst. destruct (IHRMatch2 eq_refl) as (x & -> & N). exists (c :: x). split; [reflexivity|].
      intros [I|I]; [congruence|exact (N I)].
  - intros (x & -> & N). induction x as [|c x IH]; [apply MStar0|]. cbn [app]. eapply MStar.
    + apply MAny. intro E. apply N. left. exact E.
    + apply IH. intro I. apply N. right. exact I.
Qed.
Lemma match_name name s t : RMatch (seq_of (name_items name)) s t <-> exists x, s = x ++ name ++ t /\ ~ In 10 x.
Proof.
  unfold seq_of, name_items. rewrite fold_left_app. cbn [fold_left]. split.
  - intro H. inversion H as [| | | | |? ? ? t1 ? H1 H2| | | |]; subst. apply match_any_star in H1 as (x & -> & N).
    apply match_chars in H2 as (u & -> & H2). inversion H2; subst. exists x. auto.
  - intros (x & -> & N). econstructor.
    + apply match_any_star. exists x. auto.
    + apply match_chars. exists t. split; [reflexivity|constructor].
Qed.
Lemma match_alts alts : forall cur s t, RMatch (alt_of alts cur) s t <-> (exists a, In a alts /\ RMatch a s t) \/ RMatch cur s t.
Proof.
  unfold alt_of. induction alts as [|a alts IH]; intros cur s t; cbn [fold_left].
  - split; [auto|]. intros [(a & [] & _)|H]; exact H.
  - rewrite IH. split.
    + intros [(b & I & H)|H]; [left; exists b; split; [right; exact I|exact H]|].
      inversion H; subst; [left; exists a; split; [left; reflexivity|assumption]|right; assumption].
    + intros [(b & [<-|I] & H)|H]; [right; now apply MAltL|left; exists b; auto|right; now apply MAltR].
Qed.
Lemma match_names names : forall a s t, names <> [] ->
  (RMatch (close_frame (names_frame a names)) s t <-> (exists b, In b a /\ RMatch b s t) \/ exists n, In n names /\ RMatch (seq_of (name_items n)) s t).
Proof.
  induction names as [|n names IH]; intros a s t NE; [contradiction|]. destruct names as [|n2 names].
  - cbn [names_frame]. unfold close_frame. cbn [fst snd]. rewrite match_alts. split.
    + intros [H|H]; [left; exact H|right; exists n; split; [left; reflexivity|exact H]].
    + intros [H|(m & [<-|[]] & H)]; [left; exact H|right; exact H].
  - change (names_frame a (n :: n2 :: names)) with (names_frame (seq_of (name_items n) :: a) (n2 :: names)).
    rewrite IH by discriminate. split.
    + intros [(b & [<-|I] & H)|(m & I & H)].
      * right. exists n. split; [left; reflexivity|exact H].
      * left. exists b. auto.
      * right. exists m. split; [right; exact I|exact H].
    + intros [(b & I & H)|(m & [<-|I] & H)].
      * left. exists b. split; [right; exact I|exact H].
      * left. eexists. split; [left; reflexivity|exact H].
      * right. exists m. auto.
Qed.
Lemma match_end s t : RMatch REnd s t <-> s = t /\ (s = [] \/ s = [10]).
Proof.
  split.
  - intro H. inversion H; subst; auto.
  - intros [<- [->| ->]]; constructor.
Qed.
Lemma match_compiled names s t : RMatch (compiled names) s t <->
  exists u v, s = 46 :: u /\ RMatch (close_frame (names_frame [] names)) u v /\ v = t /\ (v = [] \/ v = [10]).
Proof.
  unfold compiled, seq_of. cbn [fold_left]. split.
  - intro H. inversion H as [| | | | |? ? ? t1 ? H1 H2| | | |]; subst. inversion H1; subst.
    inversion H2 as [| | | | |? ? ? t2 ? H3 H4| | | |]; subst. inversion H4 as [| | | | |? ? ? t3 ? H5 H6| | | |]; subst.
    inversion H6; subst. apply match_end in H5 as [<- E]. exists t1, t2. auto.
  - intros (u & v & -> & H & <- & E). econstructor; [constructor|]. econstructor; [exact H|].
    econstructor; [apply match_end; auto|constructor].
Qed.
Lemma search_pf names subject : names <> [] ->
  (re_search (compiled names) subject <->
   exists before x name tail, subject = before ++ [46] ++ x ++ name ++ tail /\ In name names /\ ~ In 10 x /\ (tail = [] \/ tail = [10])).
Proof.
  intro NE. split.
  - intros (before & s & t & -> & H). apply match_compiled in H as (u & v & -> & H & <- & E).
    apply match_names in H; [|exact NE]. destruct H as [(b & [] & _)|(n & I & H)]. apply match_name in H as (x & -> & N).
    exists before, x, n, v. repeat split; auto.
  - intros (before & x & name & tail & -> & I & N & E). exists before, (46 :: x ++ name ++ tail), tail. split; [reflexivity|].
    apply match_compiled. exists (x ++ name ++ tail), tail. repeat split; auto. apply match_names; [exact NE|].
    right. exists name. split; [exact I|]. apply match_name. exists x. auto.
Qed.
Lemma search_none subject : re_search (compiled []) subject <-> exists before, subject = before ++ [46] \/ subject = before ++ [46; 10].
Proof.
  split.
  - intros (before & s & t & -> & H). apply match_compiled in H as (u & v & -> & H & <- & E). inversion H; subst.
    exists before. destruct E as [->| ->]; auto.
  - intros (before & [->| ->]).
    + exists before, [46], []. split; [reflexivity|]. apply match_compiled. exists [], []. repeat split; auto. constructor.
    + exists before, [46; 10], [10]. split; [reflexivity|]. apply match_compiled. exists [10], [10]. repeat split; auto. constructor.
Qed.
(** The environment variable is read with [_env.get_str], which strips white space. *)
Lemma regex_ends names : get_str (Some (testcase_regex names)) None = testcase_regex names.
Proof.
  unfold get_str. assert (E : strip (testcase_regex names) = testcase_regex names).
  { unfold strip, testcase_regex. set (m := join _ _). clearbody m.
    assert (L : lstrip (lit "\.(" ++ m ++ lit ")$") = lit "\.(" ++ m ++ lit ")$") by reflexivity. rewrite L.
    assert (R : rev (lit "\.(" ++ m ++ lit ")$") = lit "$)" ++ rev (lit "\.(" ++ m)).
    { rewrite app_assoc, rev_app_distr. reflexivity. }
    rewrite R. change (lstrip (lit "$)" ++ rev (lit "\.(" ++ m))) with (lit "$)" ++ rev (lit "\.(" ++ m)).
    rewrite rev_app_distr, rev_involutive, <- app_assoc. reflexivity. }
  rewrite E. reflexivity.
Qed.

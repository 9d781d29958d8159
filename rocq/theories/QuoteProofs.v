(** Proofs for QuoteProps.v. *)
From Verif Require Import Base TextModel ToolsSpec LogicArrayModel XmlModel XmlProofs QuoteModel QuoteSpec.
From Coq Require Import String.
Open Scope Z_scope.

(** * Tcl *)
Definition tcl_esc (c : Z) : pystr :=
  if tcl_magic c then [92; c] else if c =? 10 then [92; 110] else if tcl_space c then [92; c] else [c].

Lemma replace_char x new s : replace [x] new s = flat_map (fun c => if x =? c then new else [c]) s.
Proof.
  unfold replace. induction s as [|c s IH]; [reflexivity|]. cbn [replace_from after_prefix List.length Nat.pred flat_map].
  destruct (x =? c); rewrite IH; reflexivity.
Qed.
Lemma flat_map_flat_map {A B C} (f : A -> list B) (g : B -> list C) l :
  flat_map g (flat_map f l) = flat_map (fun a => flat_map g (f a)) l.
Proof. induction l as [|a l IH]; [reflexivity|]. cbn [flat_map]. now rewrite flat_map_app, IH. Qed.
Lemma tcl_steps v : backslashed tcl_space (replace [10] [92; 110] (backslashed tcl_magic v)) = flat_map tcl_esc v.
Proof.
  unfold backslashed. rewrite replace_char, !flat_map_flat_map. apply flat_map_ext. intro c.
  unfold tcl_esc, tcl_magic, tcl_space.
  destruct (Z.eqb_spec c 92) as [->|]; [reflexivity|]. destruct (Z.eqb_spec c 123) as [->|]; [reflexivity|].
  destruct (Z.eqb_spec c 125) as [->|]; [reflexivity|]. destruct (Z.eqb_spec c 10) as [->|]; [reflexivity|].
  destruct (Z.eqb_spec c 32) as [->|]; [reflexivity|]. cbn [orb flat_map app].
  destruct (Z.eqb_spec 10 c); [congruence|]. cbn [orb flat_map app].
  destruct (Z.leb_spec 9 c), (Z.leb_spec c 13); cbn [andb orb]; try reflexivity;
    destruct (Z.eqb_spec c 32); try congruence; reflexivity.
Qed.
Lemma tcl_esc_head c : match tcl_esc c with 34 :: _ => c = 34 | [] => False | _ :: _ => c <> 34 end.
Proof.
  unfold tcl_esc. destruct (Z.eqb_spec c 34) as [->|N]; [reflexivity|].
  destruct (tcl_magic c); [exact N|]. destruct (c =? 10); [exact N|]. destruct (tcl_space c); [exact N|].
  destruct c as [|p|p]; try (intro; discriminate).
  do 6 (destruct p as [p|p|]; try (exact N)). all: try (exfalso; apply N; reflexivity).
Qed.
Lemma as_tcl_cases v : as_tcl_value v = match v with 34 :: v' => [92; 34] ++ flat_map tcl_esc v' | _ => flat_map tcl_esc v end.
Proof.
  unfold as_tcl_value. cbv zeta. rewrite tcl_steps. destruct v as [|c v]; [reflexivity|].
  cbn [flat_map]. pose proof (tcl_esc_head c) as H.
  destruct (Z.eqb_spec c 34) as [->|N]; [reflexivity|].
  assert (E : match c :: v with 34 :: v' => [92; 34] ++ flat_map tcl_esc v' | _ => tcl_esc c ++ flat_map tcl_esc v end = tcl_esc c ++ flat_map tcl_esc v).
  { destruct c as [|p|p]; try reflexivity. do 6 (destruct p as [p|p|]; try reflexivity). exfalso; apply N; reflexivity. }
  transitivity (tcl_esc c ++ flat_map tcl_esc v); [|symmetry; exact E].
  destruct (tcl_esc c) as [|d l]; [contradiction|]. cbn [app].
  destruct d as [|p|p]; try reflexivity. do 6 (destruct p as [p|p|]; try reflexivity). contradiction.
Qed.

Fixpoint inertb (v : pystr) : bool :=
  match v with
  | [] => true
  | c :: v' =>
      negb (c =? 91) && negb (c =? 59) &&
      negb ((c =? 36) && match v' with d :: _ => tcl_name d && negb (d =? 123) | [] => false end) && inertb v'
  end.
Lemma inertb_iff v : inertb v = true <-> (~ In 91 v /\ ~ In 59 v /\ ~ exists a d b, v = a ++ 36 :: d :: b /\ tcl_name d = true /\ d <> 123).
Proof.
  induction v as [|c v IH].
  - split; [intros _|reflexivity]. repeat split; try (intros []; fail). intros (a & d & b & E & _). destruct a; discriminate E.
  - cbn [inertb]. rewrite !andb_true_iff, !negb_true_iff, IH. split.
    + intros [[[H1 H2] H3] (I1 & I2 & I3)]. apply Z.eqb_neq in H1, H2. repeat split.
      * intros [E|E]; [congruence|exact (I1 E)].
      * intros [E|E]; [congruence|exact (I2 E)].
      * intros (a & d & b & E & N & B). destruct a as [|x a].
        -- cbn in E. injection E as -> ->. rewrite Z.eqb_refl, N in H3. apply Z.eqb_neq in B. rewrite B in H3. discriminate H3.
        -- cbn in E. injection E as -> ->. apply I3. exists a, d, b. auto.
    + intros (I1 & I2 & I3). repeat split.
      * apply Z.eqb_neq. intro E. apply I1. left. exact E.
      * apply Z.eqb_neq. intro E. apply I2. left. exact E.
      * destruct (Z.eqb_spec c 36) as [->|]; [|reflexivity]. destruct v as [|d v]; [reflexivity|]. cbn [andb].
        destruct (tcl_name d) eqn:N; [|reflexivity]. destruct (Z.eqb_spec d 123) as [|B]; [reflexivity|].
        exfalso. apply I3. exists [], d, v. auto.
      * intro E. apply I1. right. exact E.
      * intro E. apply I2. right. exact E.
      * intros (a & d & b & E & N & B). apply I3. exists (c :: a), d, b. subst v. auto.
Qed.

Definition stops (rest : pystr) : Prop := match rest with [] => True | c :: _ => tcl_name c = false end.
Lemma esc_stops d v rest : stops rest -> tcl_name d && negb (d =? 123) = false -> stops (flat_map tcl_esc (d :: v) ++ rest).
Proof.
  intros R H. cbn [flat_map]. unfold tcl_esc. destruct (tcl_magic d) eqn:M; [reflexivity|].
  destruct (Z.eqb_spec d 10); [reflexivity|]. destruct (tcl_space d); [reflexivity|]. cbn.
  apply andb_false_iff in H as [H|H]; [exact H|]. apply negb_false_iff, Z.eqb_eq in H. subst. discriminate M.
Qed.
Lemma stops_test rest : stops rest -> match rest with d :: _ => tcl_name d | [] => false end = false.
Proof. destruct rest; cbn; auto. Qed.
(** One escaped character inside a word. *)
Lemma read_esc words w c rest : c <> 91 -> c <> 59 -> (c = 36 -> stops rest) ->
  tcl_read words (Some w) (tcl_esc c ++ rest) = tcl_read words (Some (c :: w)) rest.
Proof.
  intros N1 N2 D. unfold tcl_esc, tcl_magic, tcl_space.
  destruct (Z.eqb_spec c 92) as [->|A1]; [reflexivity|]. destruct (Z.eqb_spec c 123) as [->|A2]; [reflexivity|].
  destruct (Z.eqb_spec c 125) as [->|A3]; [reflexivity|]. destruct (Z.eqb_spec c 10) as [->|A4]; [reflexivity|].
  destruct (Z.eqb_spec c 32) as [->|A5]; [reflexivity|]. rewrite orb_false_r. cbn [orb].
  destruct ((9 <=? c) && (c <=? 13)) eqn:S.
  - apply andb_prop in S as [S1 S2]. apply Z.leb_le in S1, S2.
    assert (c = 9 \/ c = 11 \/ c = 12 \/ c = 13) as [->|[->|[->| ->]]] by lia; reflexivity.
  - cbn [orb app tcl_read]. unfold tcl_blank.
    assert (c <> 9 /\ c <> 11 /\ c <> 12 /\ c <> 13) as (B1 & B2 & B3 & B4).
    { repeat split; intros ->; discriminate S. }
    rewrite (proj2 (Z.eqb_neq c 9)), (proj2 (Z.eqb_neq c 11)), (proj2 (Z.eqb_neq c 12)), (proj2 (Z.eqb_neq c 13)), (proj2 (Z.eqb_neq c 32)),
      (proj2 (Z.eqb_neq c 10)), (proj2 (Z.eqb_neq c 59)), (proj2 (Z.eqb_neq c 91)), (proj2 (Z.eqb_neq c 92)) by assumption.
    cbn [orb]. destruct (Z.eqb_spec c 36) as [->|]; [|reflexivity]. rewrite (stops_test rest) by auto. reflexivity.
Qed.
Lemma read_value words w v rest : inertb v = true -> stops rest ->
  tcl_read words (Some w) (flat_map tcl_esc v ++ rest) = tcl_read words (Some (rev v ++ w)) rest.
Proof.
  revert w. induction v as [|c v IH]; intros w H R; [reflexivity|]. cbn [inertb] in H.
  apply andb_prop in H as [H Hv]. apply andb_prop in H as [H D]. apply andb_prop in H as [H1 H2].
  apply negb_true_iff in H1, H2, D. apply Z.eqb_neq in H1, H2. cbn [flat_map]. rewrite <- app_assoc, read_esc by
    first [assumption|intros ->; destruct v as [|d v]; [exact R|]; apply esc_stops; [exact R|exact D]].
  rewrite IH by assumption. cbn [rev]. now rewrite <- app_assoc.
Qed.
(** The first character of a word. *)
Lemma read_first words c rest : words <> [] -> c <> 91 -> c <> 59 -> c <> 34 -> (c = 36 -> stops rest) ->
  tcl_read words None (tcl_esc c ++ rest) = tcl_read words (Some [c]) rest.
Proof.
  intros W N1 N2 N3 D. unfold tcl_esc, tcl_magic, tcl_space.
  destruct (Z.eqb_spec c 92) as [->|A1]; [reflexivity|]. destruct (Z.eqb_spec c 123) as [->|A2]; [reflexivity|].
  destruct (Z.eqb_spec c 125) as [->|A3]; [reflexivity|]. destruct (Z.eqb_spec c 10) as [->|A4]; [reflexivity|].
  destruct (Z.eqb_spec c 32) as [->|A5]; [reflexivity|]. rewrite orb_false_r. cbn [orb].
  destruct ((9 <=? c) && (c <=? 13)) eqn:S.
  - apply andb_prop in S as [S1 S2]. apply Z.leb_le in S1, S2.
    assert (c = 9 \/ c = 11 \/ c = 12 \/ c = 13) as [->|[->|[->| ->]]] by lia; reflexivity.
  - cbn [orb app tcl_read]. unfold tcl_blank.
    assert (c <> 9 /\ c <> 11 /\ c <> 12 /\ c <> 13) as (B1 & B2 & B3 & B4).
    { repeat split; intros ->; discriminate S. }
    rewrite (proj2 (Z.eqb_neq c 9)), (proj2 (Z.eqb_neq c 11)), (proj2 (Z.eqb_neq c 12)), (proj2 (Z.eqb_neq c 13)), (proj2 (Z.eqb_neq c 32)),
      (proj2 (Z.eqb_neq c 10)), (proj2 (Z.eqb_neq c 59)), (proj2 (Z.eqb_neq c 91)), (proj2 (Z.eqb_neq c 92)), (proj2 (Z.eqb_neq c 34)), (proj2 (Z.eqb_neq c 123)) by assumption.
    cbn [orb]. destruct words as [|w0 words]; [contradiction|]. rewrite andb_false_r.
    destruct (Z.eqb_spec c 36) as [->|]; [|reflexivity]. rewrite (stops_test rest) by auto. reflexivity.
Qed.
Lemma first_split c v : as_tcl_value (c :: v) = (if c =? 34 then [92; 34] else tcl_esc c) ++ flat_map tcl_esc v.
Proof.
  rewrite as_tcl_cases. destruct (Z.eqb_spec c 34) as [->|N]; [reflexivity|].
  destruct c as [|p|p]; try reflexivity. do 6 (destruct p as [p|p|]; try reflexivity). exfalso; apply N; reflexivity.
Qed.
Lemma read_word words v rest : words <> [] -> tcl_inert v -> stops rest ->
  tcl_read words None (as_tcl_value v ++ rest) = tcl_read words (Some (rev v)) rest.
Proof.
  intros W (NE & I) R. apply inertb_iff in I. destruct v as [|c v]; [contradiction|]. rewrite first_split.
  cbn [inertb] in I. apply andb_prop in I as [H Hv]. apply andb_prop in H as [H D]. apply andb_prop in H as [H1 H2].
  apply negb_true_iff in H1, H2, D. apply Z.eqb_neq in H1, H2.
  assert (S : c = 36 -> stops (flat_map tcl_esc v ++ rest)).
  { intros ->. destruct v as [|d v]; [exact R|]. apply esc_stops; [exact R|exact D]. }
  rewrite <- app_assoc. destruct (Z.eqb_spec c 34) as [->|N].
  - change (tcl_read words None ([92; 34] ++ flat_map tcl_esc v ++ rest)) with (tcl_read words (Some [34]) (flat_map tcl_esc v ++ rest)).
    now rewrite read_value.
  - rewrite read_first by assumption. now rewrite read_value.
Qed.
Lemma read_blank words word rest : tcl_read words word (32 :: rest) = tcl_read (match word with Some w => rev w :: words | None => words end) None rest.
Proof. reflexivity. Qed.
Lemma read_words words vs rest : words <> [] -> Forall tcl_inert vs ->
  tcl_read words None (join [32] (map as_tcl_value vs) ++ 32 :: rest) = tcl_read (rev vs ++ words) None rest.
Proof.
  revert words. induction vs as [|v vs IH]; intros words W F; [reflexivity|]. inversion F as [|? ? Hv Fv]; subst.
  destruct vs as [|v2 vs].
  - cbn [map join]. rewrite read_word by (try assumption; reflexivity). rewrite read_blank. now rewrite rev_involutive.
  - change (join [32] (map as_tcl_value (v :: v2 :: vs))) with (as_tcl_value v ++ [32] ++ join [32] (map as_tcl_value (v2 :: vs))).
    rewrite <- !app_assoc. cbn [app]. rewrite read_word by (try assumption; reflexivity). rewrite read_blank, rev_involutive.
    rewrite IH by (try assumption; discriminate). cbn [rev]. now rewrite <- !app_assoc.
Qed.
Lemma read_words_lf words vs : words <> [] -> Forall tcl_inert vs ->
  tcl_read words None (join [32] (map as_tcl_value vs) ++ [10]) = Some [rev words ++ vs].
Proof.
  revert words. induction vs as [|v vs IH]; intros words W F.
  - cbn [map join app tcl_read]. cbn. destruct words; [contradiction|]. now rewrite app_nil_r.
  - inversion F as [|? ? Hv Fv]; subst. destruct vs as [|v2 vs].
    + cbn [map join]. rewrite read_word by (try assumption; reflexivity). cbn. now rewrite rev_involutive.
    + change (join [32] (map as_tcl_value (v :: v2 :: vs))) with (as_tcl_value v ++ [32] ++ join [32] (map as_tcl_value (v2 :: vs))).
      rewrite <- !app_assoc. cbn [app]. rewrite read_word by (try assumption; reflexivity). rewrite read_blank, rev_involutive.
      rewrite IH by (try assumption; discriminate). cbn [rev]. now rewrite <- !app_assoc.
Qed.
Lemma read_end words : words <> [] -> tcl_read words None [10] = Some [rev words].
Proof. destruct words; [contradiction|reflexivity]. Qed.
Lemma asim_pf vhdl ext extra top plus : tcl_inert ext -> Forall tcl_inert extra -> tcl_inert top -> Forall tcl_inert plus ->
  tcl_script (asim_line vhdl ext extra top plus) =
  Some [map lit ["asim"; "+access"; "+w_nets"; "-interceptcoutput"; if vhdl then "-loadvhpi" else "-pli"]%string ++
        [ext] ++ extra ++ [top] ++ plus].
Proof.
  intros He Hx Ht Hp. unfold tcl_script, asim_line.
  set (w0 := rev (map lit ["asim"; "+access"; "+w_nets"; "-interceptcoutput"; if vhdl then "-loadvhpi" else "-pli"]%string)).
  assert (W : w0 <> []) by (destruct vhdl; discriminate).
  assert (E : forall rest, tcl_read [] None (lit "asim +access +w_nets -interceptcoutput " ++ lit (if vhdl then "-loadvhpi " else "-pli ") ++ rest) = tcl_read w0 None rest).
  { intro rest. destruct vhdl; reflexivity. }
  rewrite E. rewrite read_word by (try assumption; reflexivity). cbn [app]. rewrite read_blank, rev_involutive.
  rewrite read_words by (try assumption; discriminate).
  assert (W2 : rev extra ++ ext :: w0 <> []) by (intro X; destruct (rev extra); discriminate X).
  rewrite read_word by (try assumption; reflexivity). rewrite read_blank, rev_involutive.
  assert (R : rev (top :: rev extra ++ ext :: w0) = rev w0 ++ [ext] ++ extra ++ [top]).
  { cbn [rev]. rewrite rev_app_distr. cbn [rev]. rewrite rev_involutive, <- !app_assoc. reflexivity. }
  destruct vhdl.
  - rewrite read_words_lf by (try assumption; discriminate). do 2 f_equal.
    transitivity ((rev w0 ++ [ext] ++ extra ++ [top]) ++ plus); [f_equal; exact R|].
    unfold w0. rewrite rev_involutive, <- !app_assoc. reflexivity.
  - rewrite read_words by (try assumption; discriminate).
    assert (Y : rev (rev plus ++ top :: rev extra ++ ext :: w0) = rev w0 ++ [ext] ++ extra ++ [top] ++ plus).
    { rewrite (rev_app_distr (rev plus)), rev_involutive. transitivity ((rev w0 ++ [ext] ++ extra ++ [top]) ++ plus); [f_equal; exact R|].
      now rewrite <- !app_assoc. }
    rewrite read_end by (intro Z0; destruct (rev plus); discriminate Z0).
    do 2 f_equal. etransitivity; [exact Y|]. unfold w0. rewrite rev_involutive. reflexivity.
Qed.
Lemma name_esc d : tcl_name d = true -> d <> 123 -> tcl_esc d = [d].
Proof.
  intros N B. unfold tcl_esc, tcl_magic, tcl_space, tcl_name in *.
  destruct (Z.eqb_spec d 92) as [->|]; [discriminate N|]. destruct (Z.eqb_spec d 123) as [E|]; [congruence|].
  destruct (Z.eqb_spec d 125) as [->|]; [discriminate N|]. destruct (Z.eqb_spec d 10) as [->|]; [discriminate N|].
  destruct (Z.eqb_spec d 32) as [->|]; [discriminate N|]. cbn [orb]. rewrite orb_false_r.
  destruct (Z.leb_spec 9 d), (Z.leb_spec d 13); cbn [andb]; try reflexivity.
  assert (d = 9 \/ d = 11 \/ d = 12 \/ d = 13 \/ d = 10) as [->|[->|[->|[->| ->]]]] by lia; discriminate N.
Qed.
Lemma read_bad v : forall words w, inertb v = false ->
  tcl_read words (Some w) (flat_map tcl_esc v) <> Some [rev words ++ [rev w ++ v]].
Proof.
  induction v as [|c v IH]; intros words w H; [discriminate H|]. cbn [inertb] in H. cbn [flat_map].
  destruct (Z.eqb_spec c 91) as [->|N1]; [discriminate|].
  destruct (Z.eqb_spec c 59) as [->|N2].
  - cbn [tcl_esc tcl_magic tcl_space Z.eqb Pos.eqb Z.leb Z.compare Pos.compare Pos.compare_cont orb andb app].
    change (tcl_read words (Some w) (59 :: flat_map tcl_esc v)) with
      (match tcl_read [] None (flat_map tcl_esc v) with Some cmds => Some (rev (rev w :: words) :: cmds) | None => None end).
    destruct (tcl_read [] None (flat_map tcl_esc v)) as [cmds|]; [|discriminate].
    intro E. injection E as E _. cbn [rev] in E. apply app_inv_head in E. injection E as E.
    apply (f_equal (@List.length Z)) in E. rewrite app_length in E. cbn in E. lia.
  - cbn [negb andb] in H. destruct (c =? 36) eqn:D36.
    + apply Z.eqb_eq in D36. subst c. cbn [andb] in H. destruct v as [|d v]; [discriminate H|].
      destruct (tcl_name d && negb (d =? 123)) eqn:V.
      * apply andb_prop in V as [V1 V2]. apply negb_true_iff, Z.eqb_neq in V2. cbn [flat_map]. rewrite (name_esc d) by assumption.
        cbn. rewrite V1. discriminate.
      * rewrite <- (app_nil_r (flat_map tcl_esc (d :: v))). rewrite read_esc; try discriminate.
        -- rewrite app_nil_r. replace (rev w ++ 36 :: d :: v) with (rev (36 :: w) ++ d :: v) by (cbn [rev]; now rewrite <- app_assoc).
           apply IH. exact H.
        -- intros _. apply esc_stops; [exact Logic.I|exact V].
    + cbn [andb negb] in H. rewrite read_esc; try assumption.
      * replace (rev w ++ c :: v) with (rev (c :: w) ++ v) by (cbn [rev]; now rewrite <- app_assoc). apply IH. exact H.
      * intros ->. discriminate D36.
Qed.
Lemma one_word_pf v : tcl_script (lit "asim " ++ as_tcl_value v) = Some [[lit "asim"; v]] <-> tcl_inert v.
Proof.
  unfold tcl_script. change (tcl_read [] None (lit "asim " ++ as_tcl_value v)) with (tcl_read [lit "asim"] None (as_tcl_value v)).
  split.
  - intro E. destruct v as [|c v]; [discriminate E|].
    split; [discriminate|]. apply inertb_iff. destruct (inertb (c :: v)) eqn:I; [reflexivity|exfalso].
    rewrite first_split in E. destruct (Z.eqb_spec c 34) as [->|N].
    + change (tcl_read [lit "asim"] None ([92; 34] ++ flat_map tcl_esc v)) with (tcl_read [lit "asim"] (Some [34]) (flat_map tcl_esc v)) in E.
      apply (read_bad v [lit "asim"] [34]) in E; [exact E|]. exact I.
    + cbn [inertb] in I.
      destruct (Z.eqb_spec c 91) as [->|N1]; [discriminate E|].
      destruct (Z.eqb_spec c 59) as [->|N2].
      * change (tcl_read [lit "asim"] None (tcl_esc 59 ++ flat_map tcl_esc v)) with
          (match tcl_read [] None (flat_map tcl_esc v) with Some cmds => Some ([lit "asim"] :: cmds) | None => None end) in E.
        destruct (tcl_read [] None (flat_map tcl_esc v)); discriminate E.
      * cbn [negb andb] in I. destruct (c =? 36) eqn:D36.
        -- apply Z.eqb_eq in D36. subst c. cbn [andb] in I. destruct v as [|d v]; [discriminate I|].
           destruct (tcl_name d && negb (d =? 123)) eqn:V.
           ++ apply andb_prop in V as [V1 V2]. apply negb_true_iff, Z.eqb_neq in V2. cbn [flat_map] in E. rewrite (name_esc d) in E by assumption.
              cbn in E. rewrite V1 in E. discriminate E.
           ++ rewrite read_first in E; try discriminate.
              ** apply (read_bad _ [lit "asim"] [36]) in E; [exact E|]. exact I.
              ** intros _. rewrite <- (app_nil_r (flat_map tcl_esc (d :: v))). apply esc_stops; [exact Logic.I|exact V].
        -- cbn [andb negb] in I. rewrite read_first in E; try assumption; try discriminate.
           ++ apply (read_bad _ [lit "asim"] [c]) in E; [exact E|]. exact I.
           ++ intros ->. discriminate D36.
  - intro H. rewrite <- (app_nil_r (as_tcl_value v)). rewrite read_word by (try assumption; try discriminate; exact Logic.I).
    cbn [tcl_read]. rewrite rev_involutive. reflexivity.
Qed.

(** * SystemVerilog *)
Definition consed (c : Z) (r : option (pystr * pystr)) : option (pystr * pystr) :=
  match r with Some (a, b) => Some (c :: a, b) | None => None end.
Lemma sv_char c s : sv_chars (sv_escape_char c ++ s) = consed c (sv_chars s).
Proof.
  unfold sv_escape_char.
  destruct (Z.eqb_spec c 10) as [->|A1]; [reflexivity|]. destruct (Z.eqb_spec c 9) as [->|A2]; [reflexivity|].
  destruct (Z.eqb_spec c 92) as [->|A3]; [reflexivity|]. destruct (Z.eqb_spec c 34) as [->|A4]; [reflexivity|].
  destruct (Z.eqb_spec c 11) as [->|A5]; [reflexivity|]. destruct (Z.eqb_spec c 12) as [->|A6]; [reflexivity|].
  destruct (Z.eqb_spec c 255) as [->|A7]; [reflexivity|].
  destruct (Z.leb_spec 0 c), (Z.ltb_spec c 32); cbn [andb].
  - assert (E : forallb (fun n => let c := Z.of_nat n in
        match sv_hex (hex_digit (c / 16)), sv_hex (hex_digit (c mod 16)) with Some x, Some y => 16 * x + y =? c | _, _ => false end) (seq 0 32) = true)
      by (vm_compute; reflexivity).
    rewrite forallb_forall in E. specialize (E (Z.to_nat c)). rewrite Z2Nat.id in E by assumption.
    specialize (E ltac:(apply in_seq; lia)). cbv zeta in E. unfold hex2. cbn [app sv_chars Z.eqb Pos.eqb negb].
    destruct (sv_hex (hex_digit (c / 16))) as [x|]; [|discriminate E]. destruct (sv_hex (hex_digit (c mod 16))) as [y|]; [|discriminate E].
    apply Z.eqb_eq in E. rewrite E. reflexivity.
  - cbn [app sv_chars]. rewrite (proj2 (Z.eqb_neq c 34)), (proj2 (Z.eqb_neq c 10)), (proj2 (Z.eqb_neq c 92)) by assumption. reflexivity.
  - cbn [app sv_chars]. rewrite (proj2 (Z.eqb_neq c 34)), (proj2 (Z.eqb_neq c 10)), (proj2 (Z.eqb_neq c 92)) by assumption. reflexivity.
  - lia.
Qed.
Lemma sv_string_pf v rest : sv_string (sv_escape_string v ++ rest) = Some (v, rest).
Proof.
  unfold sv_escape_string, sv_string. cbn [app]. rewrite <- app_assoc. cbn [app].
  induction v as [|c v IH]; [reflexivity|]. cbn [flat_map]. rewrite <- app_assoc, sv_char, IH. reflexivity.
Qed.

(** * Numbers and logic literals *)
Lemma dec_run_digits ds rest : Forall (fun c => 48 <= c <= 57) ds ->
  match rest with c :: _ => (48 <=? c) && (c <=? 57) = false | [] => True end ->
  forall acc, dec_run acc (ds ++ rest) = (fold_left (fun a c => 10 * a + (c - 48)) ds acc, rest).
Proof.
  intros F R. induction F as [|c ds Hc F IH]; intro acc.
  - cbn [app fold_left]. destruct rest as [|c rest]; [reflexivity|]. cbn [dec_run]. now rewrite R.
  - cbn [app dec_run fold_left]. destruct (Z.leb_spec 48 c), (Z.leb_spec c 57); try lia. cbn [andb]. apply IH.
Qed.

Lemma dec_number_str n rest : 0 <= n ->
  match rest with c :: _ => (48 <=? c) && (c <=? 57) = false | [] => True end ->
  dec_number (py_str_int n ++ rest) = Some (n, rest).
Proof.
  intros H R. unfold py_str_int. destruct (Z.ltb_spec n 0); [lia|]. rewrite Z.abs_eq by lia. cbn [app].
  destruct (dec_digits n H) as [[NE F] V]. set (ds := rev (map (digit_chr FDec) (digits_of 10 n))) in *. clearbody ds.
  assert (E : dec_run 0 (ds ++ rest) = (n, rest)) by (rewrite dec_run_digits by assumption; unfold value10 in V; now rewrite V).
  destruct ds as [|c ds]; [contradiction|]. unfold dec_number. cbn [app]. inversion F as [|? ? Hc Fd]; subst.
  destruct (Z.leb_spec 48 c), (Z.leb_spec c 57); try lia. cbn [andb]. f_equal. exact E.
Qed.
Lemma signed_str n rest : match rest with c :: _ => (48 <=? c) && (c <=? 57) = false | [] => True end ->
  signed_number (py_str_int n ++ rest) = Some (n, rest).
Proof.
  intro R. destruct (Z.ltb_spec n 0) as [L|L].
  - assert (E : py_str_int n = 45 :: py_str_int (- n)).
    { unfold py_str_int. destruct (Z.ltb_spec n 0); [|lia]. destruct (Z.ltb_spec (- n) 0); [lia|]. rewrite Z.abs_opp. reflexivity. }
    rewrite E. cbn [app signed_number]. rewrite dec_number_str by (try assumption; lia). do 2 f_equal. lia.
  - pose proof (dec_number_str n rest L R) as D. unfold signed_number.
    destruct (py_str_int n ++ rest) as [|c s] eqn:E; [discriminate D|].
    destruct (Z.eqb_spec c 45) as [->|N]; [discriminate D|].
    destruct c as [|p|p]; try exact D. do 6 (destruct p as [p|p|]; try exact D). exfalso; apply N; reflexivity.
Qed.
Lemma sv_bits_ok s : existsb (fun c => negb (existsb (Z.eqb c) (lit "01XZ"))) s = false -> sv_bits s = Some s.
Proof.
  induction s as [|c s IH]; intro H; [reflexivity|]. cbn [existsb] in H. apply orb_false_iff in H as [H1 H2].
  cbn [sv_bits]. rewrite (IH H2). apply negb_false_iff in H1. cbn in H1. rewrite orb_false_r in H1.
  unfold sv_bit. destruct (Z.eqb_spec c 48) as [->|]; [reflexivity|]. destruct (Z.eqb_spec c 49) as [->|]; [reflexivity|].
  destruct (Z.eqb_spec c 88) as [->|]; [reflexivity|]. destruct (Z.eqb_spec c 90) as [->|]; [reflexivity|]. discriminate H1.
Qed.
Lemma sv_based_pf s t : s <> [] -> as_sv_literal (VLogic s) = Ok t -> sv_based t = Some s.
Proof.
  intros NE H. cbn [as_sv_literal] in H. destruct (existsb _ s) eqn:X; [discriminate H|]. apply sv_bits_ok in X.
  assert (E : t = py_str_int (Z.of_nat (List.length s)) ++ [39; 98] ++ s) by (injection H as <-; reflexivity).
  subst t. unfold sv_based. rewrite dec_number_str by (try reflexivity; lia). cbn [app]. rewrite X.
  rewrite Z.eqb_refl. destruct s as [|c s]; [contradiction|]. destruct (Z.ltb_spec 0 (Z.of_nat (List.length (c :: s)))) as [L|L]; [reflexivity|].
  cbn [List.length] in L. lia.
Qed.
Lemma sv_logic_err s : as_sv_literal (VLogic s) = Err ValueError <-> exists c, In c s /\ ~ In c (lit "01XZ").
Proof.
  cbn [as_sv_literal]. destruct (existsb (fun c => negb (existsb (Z.eqb c) (lit "01XZ"))) s) eqn:X.
  - split; [|reflexivity]. intros _. apply existsb_exists in X as (c & I & N). exists c. split; [exact I|].
    apply negb_true_iff in N. intro J. assert (T : existsb (Z.eqb c) (lit "01XZ") = true) by (apply existsb_exists; exists c; split; [exact J|apply Z.eqb_refl]).
    congruence.
  - split; [discriminate|]. intros (c & I & N). exfalso. assert (T : existsb (fun c => negb (existsb (Z.eqb c) (lit "01XZ"))) s = true).
    { apply existsb_exists. exists c. split; [exact I|]. apply negb_true_iff. destruct (existsb (Z.eqb c) (lit "01XZ")) eqn:Y; [|reflexivity].
      apply existsb_exists in Y as (d & J & K). apply Z.eqb_eq in K. subst d. contradiction. }
    congruence.
Qed.

(** * VHDL *)
Lemma vhdl_chars_ok v rest : Forall (fun c => vhdl_graphic c = true) v -> match rest with c :: _ => c <> 34 | [] => True end ->
  vhdl_chars (flat_map vhdl_escape_char v ++ 34 :: rest) = Some (v, rest).
Proof.
  intros F R. induction F as [|c v G F IH].
  - cbn [flat_map app vhdl_chars Z.eqb Pos.eqb]. destruct rest as [|c rest]; [reflexivity|].
    destruct c as [|p|p]; try reflexivity. do 6 (destruct p as [p|p|]; try reflexivity). contradiction.
  - cbn [flat_map]. unfold vhdl_escape_char at 1. destruct (Z.eqb_spec c 34) as [->|N].
    + cbn [app vhdl_chars Z.eqb Pos.eqb]. rewrite IH. reflexivity.
    + cbn [app vhdl_chars]. rewrite (proj2 (Z.eqb_neq c 34)) by assumption. rewrite G, IH. reflexivity.
Qed.
Lemma vhdl_chars_only v : forall rest r, match rest with c :: _ => c <> 34 | [] => True end ->
  vhdl_chars (flat_map vhdl_escape_char v ++ 34 :: rest) = Some r -> Forall (fun c => vhdl_graphic c = true) v.
Proof.
  intros rest r R. revert r. induction v as [|c v IH]; intros r H; [constructor|]. cbn [flat_map] in H. unfold vhdl_escape_char at 1 in H.
  destruct (Z.eqb_spec c 34) as [->|N].
  - cbn [app vhdl_chars Z.eqb Pos.eqb] in H. destruct (vhdl_chars (flat_map vhdl_escape_char v ++ 34 :: rest)) as [[a b]|] eqn:E; [|discriminate H].
    constructor; [reflexivity|]. exact (IH _ eq_refl).
  - cbn [app vhdl_chars] in H. rewrite (proj2 (Z.eqb_neq c 34)) in H by assumption. destruct (vhdl_graphic c) eqn:G; [|discriminate H].
    destruct (vhdl_chars (flat_map vhdl_escape_char v ++ 34 :: rest)) as [[a b]|] eqn:E; [|discriminate H].
    constructor; [exact G|]. exact (IH _ eq_refl).
Qed.
Lemma vhdl_string_pf v rest : match rest with c :: _ => c <> 34 | [] => True end ->
  (vhdl_string (vhdl_escape_string v ++ rest) = Some (v, rest) <-> Forall (fun c => vhdl_graphic c = true) v).
Proof.
  intro R. unfold vhdl_escape_string, vhdl_string. cbn [app]. rewrite <- app_assoc. cbn [app]. split.
  - intro H. eapply vhdl_chars_only; eauto.
  - intro H. now apply vhdl_chars_ok.
Qed.

(** * The shell *)
Lemma safe_step c w s : sh_safe c = true -> sh_read (SBare w) (c :: s) = sh_read (SBare (c :: w)) s /\
  sh_read SBlank (c :: s) = sh_read (SBare [c]) s.
Proof.
  intro S. assert (T : forall d, sh_safe d = false -> c <> d) by (intros d D ->; congruence).
  cbn [sh_read]. rewrite !(proj2 (Z.eqb_neq c 32)), !(proj2 (Z.eqb_neq c 9)), !(proj2 (Z.eqb_neq c 39)), !(proj2 (Z.eqb_neq c 34)) by (apply T; reflexivity).
  cbn [orb]. assert (M : sh_meta c = false); [|rewrite M; auto].
  unfold sh_meta. apply orb_false_iff. split; [|apply Z.eqb_neq, T; reflexivity].
  destruct (existsb (Z.eqb c) (lit "|&;<>()$`\*?[]#~!{}^")) eqn:X; [|reflexivity]. apply existsb_exists in X as (d & I & E).
  apply Z.eqb_eq in E. subst d. exfalso. cbn in I.
  repeat match type of I with _ \/ _ => destruct I as [I|I]; [subst c; discriminate S|] end. contradiction.
Qed.
Lemma bare_word s : forall w rest, forallb sh_safe s = true -> sh_read (SBare w) (s ++ rest) = sh_read (SBare (rev s ++ w)) rest.
Proof.
  induction s as [|c s IH]; intros w rest H; [reflexivity|]. cbn [forallb] in H. apply andb_prop in H as [H1 H2].
  cbn [app]. rewrite (proj1 (safe_step c w _ H1)), IH by assumption. cbn [rev]. now rewrite <- app_assoc.
Qed.
Lemma single_word s : forall w rest, sh_read (SSingle w) (replace [39] [39; 34; 39; 34; 39] s ++ 39 :: rest) = sh_read (SBare (rev s ++ w)) rest.
Proof.
  intros w rest. rewrite replace_char. revert w. induction s as [|c s IH]; intro w; [reflexivity|]. cbn [flat_map].
  destruct (Z.eqb_spec 39 c) as [<-|N].
  - cbn [app].
    change (sh_read (SSingle w) (39 :: 34 :: 39 :: 34 :: 39 :: (flat_map (fun c => if 39 =? c then [39; 34; 39; 34; 39] else [c]) s ++ 39 :: rest)))
      with (sh_read (SSingle (39 :: w)) (flat_map (fun c => if 39 =? c then [39; 34; 39; 34; 39] else [c]) s ++ 39 :: rest)).
    rewrite IH. cbn [rev]. now rewrite <- app_assoc.
  - cbn [app sh_read]. destruct (Z.eqb_spec c 39); [congruence|]. rewrite IH. cbn [rev]. now rewrite <- app_assoc.
Qed.
Lemma quoted_word s rest : sh_read SBlank (shlex_quote s ++ rest) = sh_read (SBare (rev s)) rest.
Proof.
  unfold shlex_quote. destruct s as [|c s]; [reflexivity|]. destruct (forallb sh_safe (c :: s)) eqn:F.
  - cbn [forallb] in F. apply andb_prop in F as [H1 H2]. cbn [app]. rewrite (proj2 (safe_step c [] _ H1)), bare_word by assumption. reflexivity.
  - cbn [app]. rewrite <- app_assoc.
    change (sh_read SBlank (39 :: replace [39] [39; 34; 39; 34; 39] (c :: s) ++ [39] ++ rest)) with (sh_read (SSingle []) (replace [39] [39; 34; 39; 34; 39] (c :: s) ++ [39] ++ rest)).
    cbn [app]. rewrite single_word, app_nil_r. reflexivity.
Qed.
Lemma shlex_pf l : sh_words (shlex_join l) = Some l.
Proof.
  unfold sh_words, shlex_join. induction l as [|s l IH]; [reflexivity|]. destruct l as [|s2 l].
  - cbn [map join]. rewrite <- (app_nil_r (shlex_quote s)), quoted_word. cbn. now rewrite rev_involutive.
  - change (join [32] (map shlex_quote (s :: s2 :: l))) with (shlex_quote s ++ 32 :: join [32] (map shlex_quote (s2 :: l))).
    rewrite quoted_word. cbn [sh_read Z.eqb Pos.eqb orb]. rewrite IH, rev_involutive. reflexivity.
Qed.

(** Proofs about the Tcl scripts of the Aldec simulators (C60). *)
From Verif Require Import Base TextModel QuoteModel QuoteSpec QuoteProofs BuildModel BuildSpec BuildProofs ScriptSpec.
From Coq Require Import String.
Open Scope Z_scope.

(** The text [t] is read as the word [w]. *)
Definition reads (t w : pystr) : Prop := forall words rest, words <> [] -> stops rest ->
  tcl_read words None (t ++ rest) = tcl_read words (Some (rev w)) rest.
Lemma reads_value v : tcl_inert v -> reads (as_tcl_value v) v.
Proof. intros I words rest W R. now apply read_word. Qed.

Lemma plain_char c v rest words w : tcl_blank c = false -> ~ In c [10; 59; 91; 92] ->
  (c = 36 -> match v ++ rest with d :: _ => tcl_name d | [] => false end = false) ->
  tcl_read words (Some w) (c :: v ++ rest) = tcl_read words (Some (c :: w)) (v ++ rest).
Proof.
  intros B N D. cbn [tcl_read]. rewrite B.
  rewrite (proj2 (Z.eqb_neq c 10)), (proj2 (Z.eqb_neq c 59)), (proj2 (Z.eqb_neq c 91)), (proj2 (Z.eqb_neq c 92)) by (intros ->; apply N; cbn; tauto).
  cbn [orb]. destruct (Z.eqb_spec c 36) as [E|]; [|reflexivity]. rewrite (D E). reflexivity.
Qed.
Lemma plain_first c v rest words : words <> [] -> tcl_blank c = false -> ~ In c [10; 59; 91; 92] -> c <> 34 -> c <> 123 ->
  (c = 36 -> match v ++ rest with d :: _ => tcl_name d | [] => false end = false) ->
  tcl_read words None (c :: v ++ rest) = tcl_read words (Some [c]) (v ++ rest).
Proof.
  intros W B N Q C D. cbn [tcl_read]. rewrite B.
  rewrite (proj2 (Z.eqb_neq c 10)), (proj2 (Z.eqb_neq c 59)), (proj2 (Z.eqb_neq c 91)), (proj2 (Z.eqb_neq c 92)) by (intros ->; apply N; cbn; tauto).
  rewrite (proj2 (Z.eqb_neq c 34)), (proj2 (Z.eqb_neq c 123)) by assumption.
  destruct words as [|w words]; [contradiction|]. cbn [orb]. rewrite (andb_false_r (c =? 35)).
  destruct (Z.eqb_spec c 36) as [E|]; [|reflexivity]. rewrite (D E). reflexivity.
Qed.
Lemma dollar_next v rest : stops rest -> (~ exists a d b, 36 :: v = a ++ 36 :: d :: b /\ tcl_name d = true) ->
  match v ++ rest with d :: _ => tcl_name d | [] => false end = false.
Proof.
  intros R N. destruct v as [|d v]; [now apply stops_test|]. cbn. destruct (tcl_name d) eqn:E; [|reflexivity].
  exfalso. apply N. exists [], d, v. now split.
Qed.
Lemma dollar_tail c v : (~ exists a d b, c :: v = a ++ 36 :: d :: b /\ tcl_name d = true) -> ~ exists a d b, v = a ++ 36 :: d :: b /\ tcl_name d = true.
Proof. intros N (a & d & b & E & T). apply N. exists (c :: a), d, b. rewrite E. now split. Qed.
Lemma plain_rest v : forall words w rest, (forall c, In c v -> tcl_blank c = false /\ ~ In c [10; 59; 91; 92]) ->
  (~ exists a d b, v = a ++ 36 :: d :: b /\ tcl_name d = true) -> stops rest ->
  tcl_read words (Some w) (v ++ rest) = tcl_read words (Some (rev v ++ w)) rest.
Proof.
  induction v as [|c v IH]; intros words w rest A N R; [reflexivity|].
  destruct (A c (or_introl eq_refl)) as [B M]. cbn [app].
  rewrite plain_char by (try assumption; intros ->; now apply dollar_next).
  rewrite IH; [cbn [rev]; now rewrite <- app_assoc|intros; apply A; now right|now apply dollar_tail in N|exact R].
Qed.
Lemma reads_plain v : tcl_plain v -> reads v v.
Proof.
  intros (NE & A & N & Q & C) words rest W R. destruct v as [|c v]; [contradiction|]. cbn [hd] in Q, C.
  destruct (A c (or_introl eq_refl)) as [B M]. cbn [app].
  rewrite plain_first by (try assumption; intros ->; now apply dollar_next).
  rewrite plain_rest; [reflexivity|intros; apply A; now right|now apply dollar_tail in N|exact R].
Qed.
(** A text put before a value. *)
Lemma reads_prefixed p v : tcl_plain p -> last p 0 <> 36 -> tcl_inert v \/ v = [] -> reads (p ++ as_tcl_value v) (p ++ v).
Proof.
  intros P L V words rest W R.
  assert (S : stops (as_tcl_value v ++ rest) \/ ~ stops (as_tcl_value v ++ rest)).
  { unfold stops. destruct (as_tcl_value v ++ rest) as [|x l]; [now left|]. destruct (tcl_name x); [now right|now left]. }
  assert (E : tcl_read words None (p ++ as_tcl_value v ++ rest) = tcl_read words (Some (rev p)) (as_tcl_value v ++ rest)).
  { destruct P as (NE & A & N & Q & C). destruct p as [|c p]; [contradiction|]. cbn [hd] in Q, C.
    assert (G : forall p words w, (forall c, In c p -> tcl_blank c = false /\ ~ In c [10; 59; 91; 92]) ->
      (~ exists a d b, p = a ++ 36 :: d :: b /\ tcl_name d = true) -> last p 0 <> 36 ->
      forall rest, tcl_read words (Some w) (p ++ rest) = tcl_read words (Some (rev p ++ w)) rest).
    { clear. induction p as [|c p IH]; intros words w A N L rest; [reflexivity|]. destruct (A c (or_introl eq_refl)) as [B M].
      assert (D : c = 36 -> match p ++ rest with d :: _ => tcl_name d | [] => false end = false).
      { intros ->. destruct p as [|d p]; [exfalso; apply L; reflexivity|]. cbn. destruct (tcl_name d) eqn:T; [|reflexivity].
        exfalso. apply N. exists [], d, p. now split. }
      cbn [app]. rewrite plain_char by assumption. destruct p as [|d p]; [reflexivity|].
      rewrite IH; [cbn [rev]; now rewrite <- !app_assoc|intros; apply A; now right|now apply dollar_tail in N|exact L]. }
    destruct (A c (or_introl eq_refl)) as [B M].
    assert (D : c = 36 -> match p ++ as_tcl_value v ++ rest with d :: _ => tcl_name d | [] => false end = false).
    { intros ->. destruct p as [|d p]; [exfalso; apply L; reflexivity|]. cbn. destruct (tcl_name d) eqn:T; [|reflexivity].
      exfalso. apply N. exists [], d, p. now split. }
    cbn [app]. rewrite plain_first by assumption. destruct p as [|d p]; [reflexivity|].
    rewrite G; [reflexivity|intros; apply A; now right|now apply dollar_tail in N|exact L]. }
  rewrite <- app_assoc, E. clear S E. rewrite rev_app_distr. destruct V as [(NE & I)| ->]; [|reflexivity].
  apply inertb_iff in I. destruct v as [|c v]; [contradiction|]. rewrite first_split.
  destruct (Z.eqb_spec c 34) as [->|N].
  - cbn [inertb] in I. apply andb_prop in I as [_ Hv]. rewrite <- app_assoc.
    change (tcl_read words (Some (rev p)) ([92; 34] ++ flat_map tcl_esc v ++ rest)) with (tcl_read words (Some (34 :: rev p)) (flat_map tcl_esc v ++ rest)).
    rewrite read_value by assumption. cbn [rev]. now rewrite <- app_assoc.
  - change (tcl_esc c ++ flat_map tcl_esc v) with (flat_map tcl_esc (c :: v)). now rewrite read_value.
Qed.
(** Several words. *)
Lemma reads_list l ws : Forall2 reads l ws -> forall words rest, words <> [] ->
  tcl_read words None (join [32] l ++ 32 :: rest) = tcl_read (rev ws ++ words) None rest.
Proof.
  induction 1 as [|t w l ws H F IH]; intros words rest W; [reflexivity|].
  assert (S : forall r, stops (32 :: r)) by (intro; reflexivity).
  destruct F as [|t2 w2 l ws H2 F].
  - cbn [join]. rewrite H by (try assumption; apply S). rewrite read_blank. now rewrite rev_involutive.
  - change (join [32] (t :: t2 :: l)) with (t ++ [32] ++ join [32] (t2 :: l)). rewrite <- !app_assoc. cbn [app].
    rewrite H by (try assumption; apply S). rewrite read_blank, rev_involutive, IH by discriminate.
    cbn [rev]. now rewrite <- !app_assoc.
Qed.
(** The last word of a command. *)
Lemma reads_last t w words rest : reads t w -> words <> [] ->
  tcl_read words None (t ++ 10 :: rest) = match tcl_read [] None rest with Some cmds => Some ((rev words ++ [w]) :: cmds) | None => None end.
Proof.
  intros H W. rewrite H by (try assumption; reflexivity). cbn [tcl_read]. change (tcl_blank 10) with false. cbn [orb Z.eqb Pos.eqb].
  rewrite rev_involutive. reflexivity.
Qed.

Lemma alib_line lib rest : tcl_inert lib ->
  tcl_script (lit "alib " ++ as_tcl_value lib ++ 10 :: rest) = match tcl_script rest with Some cmds => Some ([lit "alib"; lib] :: cmds) | None => None end.
Proof.
  intro I. unfold tcl_script. change (tcl_read [] None (lit "alib " ++ as_tcl_value lib ++ 10 :: rest)) with (tcl_read [lit "alib"] None (as_tcl_value lib ++ 10 :: rest)).
  rewrite (reads_last _ lib) by (try (now apply reads_value); discriminate). reflexivity.
Qed.
Lemma alog_line lib ext D I A src d i a rest : tcl_inert lib -> tcl_inert ext -> tcl_inert src -> Forall2 reads D d -> Forall2 reads I i -> Forall2 reads A a ->
  tcl_script ((lit "alog -work " ++ as_tcl_value lib ++ lit " -pli " ++ as_tcl_value ext ++ lit " -sv " ++ join [32] D ++ [32] ++
    join [32] I ++ [32] ++ join [32] A ++ [32] ++ as_tcl_value src) ++ 10 :: rest) =
  match tcl_script rest with Some cmds => Some (([lit "alog"; lit "-work"; lib; lit "-pli"; ext; lit "-sv"] ++ d ++ i ++ a ++ [src]) :: cmds) | None => None end.
Proof.
  intros L E S FD FI FA. unfold tcl_script. rewrite <- !app_assoc. cbn [app].
  set (r1 := as_tcl_value ext ++ _).
  change (tcl_read [] None (lit "alog -work " ++ as_tcl_value lib ++ lit " -pli " ++ r1)) with (tcl_read [lit "-work"; lit "alog"] None (as_tcl_value lib ++ lit " -pli " ++ r1)).
  rewrite (reads_value lib L) by (try discriminate; reflexivity).
  change (tcl_read [lit "-work"; lit "alog"] (Some (rev lib)) (lit " -pli " ++ r1)) with (tcl_read [lit "-pli"; rev (rev lib); lit "-work"; lit "alog"] None r1).
  subst r1. rewrite (reads_value ext E) by (try discriminate; reflexivity). rewrite rev_involutive.
  set (r2 := join [32] D ++ _).
  change (tcl_read [lit "-pli"; lib; lit "-work"; lit "alog"] (Some (rev ext)) (lit " -sv " ++ r2)) with (tcl_read [lit "-sv"; rev (rev ext); lit "-pli"; lib; lit "-work"; lit "alog"] None r2).
  subst r2. rewrite rev_involutive.
  assert (NN : forall (x : list pystr) y z, x ++ y :: z <> []) by (intros x y z X; destruct x; discriminate X).
  rewrite (reads_list D d FD) by discriminate. rewrite (reads_list I i FI) by apply NN. rewrite (reads_list A a FA) by (rewrite app_assoc; apply NN).
  rewrite (reads_last _ src) by (try (now apply reads_value); rewrite !app_assoc; apply NN).
  destruct (tcl_read [] None rest); [|reflexivity]. do 2 f_equal.
  rewrite !rev_app_distr, !rev_involutive. cbn [rev app]. rewrite <- ?app_assoc. reflexivity.
Qed.
Lemma acom_line lib A src a rest : tcl_inert lib -> tcl_inert src -> Forall2 reads A a ->
  tcl_script ((lit "acom -work " ++ as_tcl_value lib ++ [32] ++ join [32] A ++ [32] ++ as_tcl_value src) ++ 10 :: rest) =
  match tcl_script rest with Some cmds => Some (([lit "acom"; lit "-work"; lib] ++ a ++ [src]) :: cmds) | None => None end.
Proof.
  intros L S FA. unfold tcl_script. rewrite <- !app_assoc. cbn [app].
  set (r1 := 32 :: join [32] A ++ _).
  change (tcl_read [] None (lit "acom -work " ++ as_tcl_value lib ++ r1)) with (tcl_read [lit "-work"; lit "acom"] None (as_tcl_value lib ++ r1)).
  rewrite (reads_value lib L) by (try discriminate; reflexivity). subst r1. rewrite read_blank, rev_involutive.
  assert (NN : forall (x : list pystr) y z, x ++ y :: z <> []) by (intros x y z X; destruct x; discriminate X).
  rewrite (reads_list A a FA) by discriminate. rewrite (reads_last _ src) by (try (now apply reads_value); apply NN).
  destruct (tcl_read [] None rest); [|reflexivity]. do 2 f_equal.
  rewrite !rev_app_distr, !rev_involutive. cbn [rev app]. rewrite <- ?app_assoc. reflexivity.
Qed.
Lemma forall2_map {A B C} (R : B -> C -> Prop) (f : A -> B) (g : A -> C) l : (forall x, In x l -> R (f x) (g x)) -> Forall2 R (map f l) (map g l).
Proof. induction l as [|x l IH]; intro H; constructor; [apply H; now left|apply IH; intros; apply H; now right]. Qed.
Lemma sources_read m b : tcl_inert (b_library b) -> tcl_inert (m_lib m "vpi" "riviera") ->
  Forall (fun i => tcl_inert i \/ i = []) (b_includes b) -> Forall tcl_plain (map define_word (b_defines b)) -> Forall tcl_plain (values (b_args b)) ->
  forall l cs, Forall (fun s => tcl_inert (fst s)) l -> aldec_sources m b l = BOk cs -> forall rest,
  tcl_script (flat_map (fun c => c ++ [10]) cs ++ rest) =
  match tcl_script rest with Some cmds => Some (map (compile_call (m_lib m "vpi" "riviera") b) l ++ cmds) | None => None end.
Proof.
  intros L E I D A.
  assert (FA : forall t, t <> TControl -> Forall2 reads (args_for t (b_args b)) (meant_for t (b_args b))).
  { intros t T.
    rewrite <- fits_meant by exact T. unfold args_for, values in *. apply forall2_map. intros x H. apply filter_In in H as [H _].
    apply reads_plain. eapply Forall_forall in A; [exact A|]. now apply in_map. }
  induction l as [|[p t] l IH]; intros cs F H rest.
  - cbn [aldec_sources] in H. apply BOk_inj in H. subst cs. cbn [flat_map map app]. now destruct (tcl_script rest).
  - inversion F as [|? ? F1 F2]; subst. cbn [fst] in F1. cbn [aldec_sources snd fst] in H. apply bbind_ok in H as (c & C & H).
    apply bbind_ok in H as (cs' & R & H). apply BOk_inj in H. subst cs. cbn [flat_map map]. rewrite <- !app_assoc.
    specialize (IH cs' F2 R rest). destruct t; [| |discriminate C].
    + apply BOk_inj in C. subst c. change ([10] ++ flat_map (fun c => c ++ [10]) cs' ++ rest) with (10 :: flat_map (fun c => c ++ [10]) cs' ++ rest).
      rewrite (alog_line _ _ _ _ _ p (map define_word (b_defines b)) (map (fun i => lit "+incdir+" ++ i) (b_includes b)) (meant_for TVerilog (b_args b))); try assumption; try (apply FA; discriminate).
      * rewrite IH. unfold compile_call at 2. cbn [snd fst]. now destruct (tcl_script rest).
      * apply forall2_map. intros nv N. apply reads_plain. eapply Forall_forall in D; [exact D|]. now apply (in_map define_word).
      * apply forall2_map. intros i N. eapply Forall_forall in I; [|exact N]. apply reads_prefixed; [|discriminate|exact I].
        split; [discriminate|]. split; [|split; [|split; discriminate]].
        -- intros c Hc. cbn in Hc. repeat (destruct Hc as [<-|Hc]; [split; [reflexivity|cbn; intuition discriminate]|]). contradiction.
        -- intros (a & d & e & X & _). assert (Y : In 36 (lit "+incdir+")) by (rewrite X; apply in_or_app; right; now left).
           cbn in Y. repeat (destruct Y as [Y|Y]; [discriminate Y|]). contradiction.
    + apply BOk_inj in C. subst c. change ([10] ++ flat_map (fun c => c ++ [10]) cs' ++ rest) with (10 :: flat_map (fun c => c ++ [10]) cs' ++ rest).
      rewrite (acom_line _ _ p (meant_for TVHDL (b_args b))); try assumption; try (apply FA; discriminate).
      rewrite IH. unfold compile_call at 2. cbn [snd fst]. now destruct (tcl_script rest).
Qed.

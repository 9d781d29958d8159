(** C100: objects found through the VPI. *)
From Verif Require Import Base TextModel VpiNameModel.
From Verif Require LogicArrayFormat XmlModel XmlProofs XmlSpec InitProofs LogicArrayModel ToolsModel.
From Coq Require Import String Lia.
Import XmlModel.
Open Scope Z_scope.

(** * Texts of indexes *)
Definition int32 (i : Z) : Prop := - 2 ^ 31 <= i < 2 ^ 31.
Lemma str_length i : int32 i -> (List.length (py_str_int i) <= 11)%nat.
Proof.
  unfold int32. intro H. unfold py_str_int. rewrite app_length, rev_length, map_length.
  destruct (LogicArrayFormat.digits_of_val 10 (Z.abs i) ltac:(lia) ltac:(lia)) as (_ & _ & L & _).
  specialize (L 10%nat ltac:(lia) ltac:(lia)). destruct (i <? 0); cbn [List.length]; lia.
Qed.
Lemma str_chars i : Forall (fun c => c = 45 \/ 48 <= c <= 57) (py_str_int i).
Proof.
  unfold py_str_int. apply Forall_app. split; [destruct (i <? 0); repeat constructor|].
  destruct (XmlProofs.dec_digits (Z.abs i) ltac:(lia)) as [[_ F] _]. rewrite Forall_forall in *. intros c I. apply F in I. lia.
Qed.
(** The buffer of 14 characters is large enough for every index. *)
Theorem C100_buffer i : int32 i -> index_text i = lit "[" ++ py_str_int i ++ lit "]".
Proof.
  intro H. unfold index_text. apply firstn_all2. rewrite !app_length. pose proof (str_length i H). cbn [List.length lit]. cbn. lia.
Qed.
Print Assumptions C100_buffer.
Example C100_buffer_ex : int32 (-2147483648) /\ index_text (-2147483648) = lit "[-2147483648]" /\ index_text (-12345678901) = lit "[-12345678901".
Proof. unfold int32. split; [lia|]. now split. Qed.

Definition text (l : list Z) : pystr := flat_map index_text l.
Lemma text_snoc l i : text (l ++ [i]) = text l ++ index_text i.
Proof. unfold text. rewrite flat_map_app. cbn [flat_map]. now rewrite app_nil_r. Qed.
Lemma text_chars l : Forall int32 l -> Forall (fun c => c = 45 \/ 48 <= c <= 57 \/ c = 91 \/ c = 93) (text l).
Proof.
  induction 1 as [|i l I _ IH]; [constructor|]. cbn [text flat_map]. apply Forall_app. split; [|exact IH]. rewrite (C100_buffer i I).
  apply Forall_app. split; [repeat constructor; lia|]. apply Forall_app. split; [|repeat constructor; lia].
  pose proof (str_chars i) as F. rewrite Forall_forall in *. intros c C. apply F in C. lia.
Qed.
Lemma count_app c a b : count c (a ++ b) = count c a + count c b.
Proof. unfold count. rewrite filter_app, app_length. lia. Qed.
Lemma count_none c s : ~ In c s -> count c s = 0.
Proof.
  intro N. unfold count. replace (filter (Z.eqb c) s) with (@nil Z); [reflexivity|]. symmetry. induction s as [|x s IH]; [reflexivity|]. cbn [filter].
  destruct (Z.eqb_spec c x); [elim N; now left|]. apply IH. intro I. apply N. now right.
Qed.
Lemma count_text c l : c = 91 \/ c = 93 -> Forall int32 l -> count c (text l) = Z.of_nat (List.length l).
Proof.
  intro C. induction 1 as [|i l I _ IH]; [reflexivity|]. cbn [text flat_map]. fold (text l). rewrite count_app, IH, (C100_buffer i I), !count_app.
  assert (N : ~ In c (py_str_int i)) by (intro Q; pose proof (str_chars i) as F; rewrite Forall_forall in F; apply F in Q; lia).
  rewrite (count_none c _ N).
  assert (K : count c (lit "[") + count c (lit "]") = 1) by (destruct C as [-> | ->]; reflexivity). cbn [List.length]. lia.
Qed.
Lemma app_sep (c : Z) a b x y : ~ In c a -> ~ In c b -> a ++ c :: x = b ++ c :: y -> a = b /\ x = y.
Proof.
  revert b. induction a as [|u a IH]; intros b A B E.
  - destruct b as [|w b]; cbn in E; [now injection E|]. injection E as <- E. elim B. now left.
  - destruct b as [|w b]; cbn in E; [injection E as -> E; elim A; now left|]. injection E as <- E.
    destruct (IH b) as [-> ->]; [intro Q; apply A; now right|intro Q; apply B; now right|exact E|]. now split.
Qed.
Lemma str_inj i j : py_str_int i = py_str_int j -> i = j.
Proof. intro E. pose proof (InitProofs.py_int_str_any i) as A. rewrite E, InitProofs.py_int_str_any in A. now injection A. Qed.
(** Different indexes give different names: elements of an array are never taken for each other in the store of handles (C98). *)
Theorem C100_distinct full l1 l2 : Forall int32 l1 -> Forall int32 l2 -> full ++ text l1 = full ++ text l2 -> l1 = l2.
Proof.
  intros F1 F2 E. apply app_inv_head in E. revert l2 F2 E. induction F1 as [|i l1 I _ IH]; intros l2 F2 E.
  - destruct F2 as [|j l2 J _]; [reflexivity|]. cbn [text flat_map] in E. rewrite (C100_buffer j J) in E. discriminate E.
  - destruct F2 as [|j l2 J F2]; cbn [text flat_map] in E; rewrite (C100_buffer i I) in E; [discriminate E|]. rewrite (C100_buffer j J) in E.
    rewrite <- !app_assoc in E. cbn [lit app] in E. cbn in E. injection E as E.
    assert (N : forall k, ~ In 93 (py_str_int k)) by (intros k Q; pose proof (str_chars k) as F; rewrite Forall_forall in F; apply F in Q; lia).
    apply (app_sep 93 _ _ _ _ (N i) (N j)) in E. destruct E as [E1 E2]. apply str_inj in E1. subst j. f_equal. now apply IH.
Qed.
Print Assumptions C100_distinct.
Example C100_distinct_ex : Forall int32 [1; 23] /\ lit "dut.a" ++ text [1; 23] = lit "dut.a[1][23]" /\ text [12; 3] <> text [1; 23].
Proof. split; [unfold int32; repeat constructor; lia|]. split; [reflexivity|]. vm_compute. discriminate. Qed.

(** * Finding the name of an array again *)
(** A name of an array: it does not begin like an index and has no bracket. *)
Definition plain (nm : pystr) : Prop := ~ In 91 nm /\ match nm with [] => False | c :: _ => c <> 45 /\ ~ (48 <= c <= 57) /\ c <> 93 end.
Lemma prefix_spec p s r : after_prefix p s = Some r <-> s = p ++ r.
Proof.
  revert s. induction p as [|c p IH]; intro s; cbn [after_prefix app].
  - split; intro E; [now injection E|now subst].
  - destruct s as [|d s]; [split; discriminate|]. destruct (Z.eqb_spec c d) as [->|N]; [rewrite IH; split; intro E; [now subst|now injection E]|].
    split; [discriminate|]. intro E. injection E as -> _. now elim N.
Qed.
Lemma last_none x s : (forall p r, s = p ++ r -> after_prefix x r = None) -> last_at x s = None.
Proof.
  induction s as [|c s IH]; intro A; cbn [last_at].
  - specialize (A [] [] eq_refl). destruct x; [discriminate A|reflexivity].
  - rewrite IH; [|intros p r ->; apply (A (c :: p) r); reflexivity]. now rewrite (A [] (c :: s) eq_refl).
Qed.
Lemma last_here x s r : after_prefix x s = Some r -> s <> [] -> (forall p q, p <> [] -> s = p ++ q -> after_prefix x q = None) -> last_at x s = Some s.
Proof.
  intros A N B. destruct s as [|c s]; [now elim N|]. cbn [last_at]. rewrite last_none; [|intros p q ->; now apply (B (c :: p) q)]. now rewrite A.
Qed.
Lemma last_name nm l : plain nm -> Forall int32 l -> last_at nm (nm ++ text l) = Some (nm ++ text l).
Proof.
  intros [NB NH] F. apply (last_here nm _ (text l)); [now apply prefix_spec|destruct nm; [destruct NH|discriminate]|].
  intros p q P E. destruct (after_prefix nm q) as [z|] eqn:A; [|reflexivity]. exfalso. apply prefix_spec in A. subst q.
  assert (TC := text_chars l F). rewrite Forall_forall in TC.
  apply app_eq_app in E. destruct E as (m & [[E1 E2]|[E1 E2]]).
  - (* nm = p ++ m, nm ++ z = m ++ text l *)
    assert (L : (List.length m < List.length nm)%nat) by (rewrite E1, app_length; destruct p; [now elim P|cbn; lia]).
    apply app_eq_app in E2. destruct E2 as (k & [[Q1 Q2]|[Q1 Q2]]).
    + (* nm = m ++ k, text l = k ++ z *)
      destruct k as [|c k]; [rewrite app_nil_r in Q1; subst m; lia|].
      assert (C : c = 91). { destruct F as [|i l I F]; [discriminate Q2|]. cbn [text flat_map] in Q2. rewrite (C100_buffer i I) in Q2. cbn in Q2. now injection Q2 as <- _. }
      apply NB. rewrite Q1, C. apply in_app_iff. right. now left.
    + rewrite Q1, app_length in L. lia.
  - (* p = nm ++ m, text l = m ++ nm ++ z *)
    destruct nm as [|c nm]; [destruct NH|]. assert (I : In c (text l)) by (rewrite E2; apply in_app_iff; right; now left). apply TC in I.
    destruct NH as (N1 & N2 & N3). assert (c <> 91) by (intros ->; apply NB; now left). lia.
Qed.

Lemma skipn_tl {A} n (l : list A) : skipn (Datatypes.S n) l = tl (skipn n l).
Proof. revert l. induction n as [|n IH]; intros [|x l]; try reflexivity. cbn [skipn]. now rewrite <- IH. Qed.
Lemma forall2_length {A B} (R : A -> B -> Prop) a b : Forall2 R a b -> List.length a = List.length b.
Proof. induction 1 as [|x y a b _ _ IH]; [reflexivity|]. cbn [List.length]. now rewrite IH. Qed.
Lemma walk_app {H} (v : vpi H) s a b o : walk v s (a ++ b) o = match walk v s a o with Some o' => walk v s b o' | None => None end.
Proof. revert o. induction a as [|i a IH]; intro o; [reflexivity|]. cbn [app walk]. destruct (child_by_index v s i o) as [o'|]; [apply IH|reflexivity]. Qed.

Section Array.
(** An array of several dimensions in a simulator which wants all indexes at once (Questa, see VpiImpl.cpp:493-508; VpiObj.cpp:45). *)
Context {H : Type} (v : vpi H) (h : H) (nm full : pystr) (dims : list (Z * Z)) (element : list Z -> option H).
Definition within (i : Z) (d : Z * Z) : Prop := fst d <= i <= snd d \/ snd d <= i <= fst d.
Record many_dimensions : Prop := {
  md_name : hname v h = nm;
  md_plain : plain nm;
  md_type : htype v h = VArray GArray;
  md_ranges : ranges v h = Some dims;
  md_index : forall i, by_index v h i = None;
  md_part : forall l, Forall int32 l -> l <> [] -> (List.length l < List.length dims)%nat -> by_name v (full ++ text l) = None;
  md_all : forall l, List.length l = List.length dims -> by_name v (full ++ text l) = element l }.
Hypothesis M : many_dimensions.
(** The handle for the indexes [l]: the handle of the array with the range [d] of the next dimension. *)
Definition pseudo (l : list Z) (d : Z * Z) : obj H :=
  Obj h GArray (nm ++ text l) (full ++ text l) (Z.abs (fst d - snd d) + 1) true (fst d) (snd d) (Some (fst d <=? snd d)).

Lemma text_nonempty l : Forall int32 l -> l <> [] -> text l <> [].
Proof. intros [|i l' I F] N; [now elim N|]. cbn [text flat_map]. rewrite (C100_buffer i I). discriminate. Qed.
Lemma create_pseudo l d : Forall int32 l -> nth_error dims (List.length l) = Some d -> create v true h (nm ++ text l) (full ++ text l) = Some (pseudo l d).
Proof.
  intros F E. unfold create. rewrite (md_type M). unfold array_init. cbn [o_hdl fresh]. rewrite (md_name M).
  assert (R : (if (List.length nm <? List.length (nm ++ text l))%nat then option_map (count 91) (last_at nm (nm ++ text l)) else Some 0) = Some (Z.of_nat (List.length l))).
  { destruct (Nat.ltb_spec (List.length nm) (List.length (nm ++ text l))) as [L|L].
    - rewrite (last_name nm l (md_plain M) F). cbn [option_map]. f_equal. rewrite count_app, (count_none 91 nm) by apply (md_plain M). apply count_text; [now left|exact F].
    - rewrite app_length in L. destruct l as [|i l]; [reflexivity|]. exfalso. assert (N : text (i :: l) <> []) by (now apply text_nonempty).
      destruct (text (i :: l)); [now elim N|]. cbn in L. lia. }
  rewrite R. unfold array_range. rewrite (md_ranges M), Nat2Z.id, E. destruct d as [a b]. unfold pseudo, set_names, set_range. cbn [fst snd].
  destruct (Z.ltb_spec b a); cbn [o_hdl o_type o_num o_indexable o_left o_right o_up fresh];
    [replace (a <=? b) with false by lia; replace (Z.abs (a - b)) with (a - b) by lia|replace (a <=? b) with true by lia; replace (Z.abs (a - b)) with (b - a) by lia]; reflexivity.
Qed.
Lemma constraints_pseudo l d : Forall int32 l -> constraints v (pseudo l d) = Z.of_nat (List.length dims) - Z.of_nat (List.length l).
Proof.
  intro F. unfold constraints. cbn [o_hdl pseudo o_name]. rewrite (md_ranges M), (md_name M).
  destruct (Nat.ltb_spec (List.length nm) (List.length (nm ++ text l))) as [L|L].
  - rewrite skipn_app, Nat.sub_diag. cbn [skipn]. rewrite skipn_all. cbn [app]. rewrite count_text; [reflexivity|now right|exact F].
  - rewrite app_length in L. destruct l as [|i l]; [cbn; lia|]. exfalso. assert (N : text (i :: l) <> []) by (now apply text_nonempty).
    destruct (text (i :: l)); [now elim N|]. cbn in L. lia.
Qed.
Lemma index_pseudo l d i : Forall int32 l -> int32 i -> nth_error dims (List.length l) = Some d ->
  child_by_index v true i (pseudo l d) =
  if (fst d <=? i) && (i <=? snd d) || (snd d <=? i) && (i <=? fst d) then
    match nth_error dims (Datatypes.S (List.length l)) with
    | Some d' => Some (pseudo (l ++ [i]) d')
    | None => match element (l ++ [i]) with Some e => create v true e (nm ++ text (l ++ [i])) (full ++ text (l ++ [i])) | None => None end
    end
  else None.
Proof.
  intros F I E. unfold child_by_index. cbn [o_type pseudo o_hdl o_name o_full o_left o_right o_up]. rewrite (md_index M).
  rewrite (constraints_pseudo l d F).
  rewrite <- !app_assoc, <- text_snoc.
  assert (B : ((fst d <=? snd d) && ((i <? fst d) || (snd d <? i)) || negb (fst d <=? snd d) && ((fst d <? i) || (i <? snd d))) =
              negb ((fst d <=? i) && (i <=? snd d) || (snd d <=? i) && (i <=? fst d))).
  { destruct (Z.leb_spec (fst d) (snd d)), (Z.ltb_spec i (fst d)), (Z.ltb_spec (snd d) i), (Z.leb_spec (fst d) i), (Z.leb_spec i (snd d)), (Z.leb_spec (snd d) i),
      (Z.leb_spec i (fst d)), (Z.ltb_spec (fst d) i), (Z.ltb_spec i (snd d)); cbn; try reflexivity; lia. }
  rewrite B. destruct ((fst d <=? i) && (i <=? snd d) || (snd d <=? i) && (i <=? fst d)); cbn [negb]; [|reflexivity].
  assert (F' : Forall int32 (l ++ [i])) by (apply Forall_app; split; [exact F|now constructor]).
  assert (LL : List.length (l ++ [i]) = Datatypes.S (List.length l)) by (rewrite app_length; cbn; lia).
  assert (K : (List.length l < List.length dims)%nat) by (apply nth_error_Some; congruence).
  destruct (nth_error dims (Datatypes.S (List.length l))) as [d'|] eqn:E'.
  - assert (K' : (Datatypes.S (List.length l) < List.length dims)%nat) by (apply nth_error_Some; congruence).
    rewrite (md_part M (l ++ [i]) F'); [|now destruct l|lia]. replace (1 <? _) with true by (symmetry; apply Z.ltb_lt; lia).
    apply create_pseudo; [exact F'|now rewrite LL].
  - apply nth_error_None in E'. rewrite (md_all M (l ++ [i])) by lia. destruct (element (l ++ [i])) as [e|]; [reflexivity|].
    replace (1 <? _) with false by (symmetry; apply Z.ltb_ge; lia). reflexivity.
Qed.
Lemma withinb i d : within i d <-> (fst d <=? i) && (i <=? snd d) || (snd d <=? i) && (i <=? fst d) = true.
Proof. unfold within. rewrite orb_true_iff, !andb_true_iff, !Z.leb_le. tauto. Qed.
Lemma walk_pseudo l2 : forall l1 d, Forall int32 (l1 ++ l2) -> nth_error dims (List.length l1) = Some d ->
  (List.length l1 + List.length l2 < List.length dims)%nat -> Forall2 within l2 (firstn (List.length l2) (skipn (List.length l1) dims)) ->
  exists d', nth_error dims (List.length l1 + List.length l2) = Some d' /\ walk v true l2 (pseudo l1 d) = Some (pseudo (l1 ++ l2) d').
Proof.
  induction l2 as [|i l2 IH]; intros l1 d F E L W.
  - exists d. rewrite Nat.add_0_r, app_nil_r. now split.
  - cbn [walk]. apply Forall_app in F. destruct F as [F1 F2]. pose proof (Forall_inv F2) as I. pose proof (Forall_inv_tail F2) as F3.
    cbn [List.length firstn] in W. destruct (skipn (List.length l1) dims) as [|d0 rest] eqn:SK; [inversion W|]. inversion W as [|? ? ? ? W1 W2]; subst.
    assert (D0 : d0 = d).
    { rewrite <- (firstn_skipn (List.length l1) dims), SK, nth_error_app2, firstn_length_le, Nat.sub_diag in E by (rewrite ?firstn_length; lia). cbn in E. now injection E. }
    subst d0. rewrite (index_pseudo l1 d i F1 I E). apply withinb in W1. rewrite W1.
    cbn [List.length] in L. destruct (nth_error dims (Datatypes.S (List.length l1))) as [d'|] eqn:E'; [|apply nth_error_None in E'; lia].
    assert (LL : List.length (l1 ++ [i]) = Datatypes.S (List.length l1)) by (rewrite app_length; cbn; lia).
    destruct (IH (l1 ++ [i]) d') as (d2 & A & B).
    + rewrite <- app_assoc. apply Forall_app. split; assumption.
    + now rewrite LL.
    + lia.
    + rewrite LL. assert (SK' : skipn (Datatypes.S (List.length l1)) dims = rest).
      { rewrite skipn_tl, SK. reflexivity. }
      now rewrite SK'.
    + exists d2. split; [rewrite <- A; f_equal; cbn; lia|]. rewrite <- app_assoc in B. exact B.
Qed.
(** The array itself, found by its name. *)
Theorem C100_array parent d0 rest : o_full parent ++ delimiter parent ++ nm = full -> by_name v full = Some h -> dims = d0 :: rest ->
  child_by_name v true false nm parent = Some (pseudo [] d0).
Proof.
  intros E B D. unfold child_by_name. rewrite E, B, (md_type M). pose proof (create_pseudo [] d0 (Forall_nil _)) as C. cbn [text flat_map] in C. rewrite !app_nil_r in C. apply C. now rewrite D.
Qed.
(** With fewer indexes than dimensions: a handle to the array which has the range of the next dimension, and all the indexes in its names. *)
Theorem C100_part d0 rest l : dims = d0 :: rest -> Forall int32 l -> (List.length l < List.length dims)%nat -> Forall2 within l (firstn (List.length l) dims) ->
  exists o d, walk v true l (pseudo [] d0) = Some o /\ nth_error dims (List.length l) = Some d /\ o_hdl o = h /\ o_type o = GArray /\
    o_name o = nm ++ text l /\ o_full o = full ++ text l /\ o_left o = fst d /\ o_right o = snd d /\ o_num o = Z.abs (fst d - snd d) + 1 /\
    o_indexable o = true /\ o_up o = Some (fst d <=? snd d).
Proof.
  intros D F L W. destruct (walk_pseudo l [] d0) as (d & A & B); [exact F|now rewrite D|exact L|exact W|]. cbn [List.length Nat.add app] in A, B.
  exists (pseudo l d), d. split; [exact B|]. split; [exact A|]. repeat (split; [reflexivity|]). reflexivity.
Qed.
(** With one index for each dimension: the element, as the simulator gives it for the complete name. *)
Theorem C100_element d0 rest l : dims = d0 :: rest -> Forall int32 l -> Forall2 within l dims ->
  walk v true l (pseudo [] d0) = match element l with Some e => create v true e (nm ++ text l) (full ++ text l) | None => None end.
Proof.
  intros D F W. assert (L : List.length l = List.length dims) by (exact (forall2_length _ _ _ W)).
  destruct (exists_last (l := l)) as (a & i & ->); [intros ->; rewrite D in L; discriminate L|].
  apply Forall_app in F. destruct F as [Fa Fi]. apply Forall2_app_inv_l in W. destruct W as (da & di & Wa & Wi & Ed).
  inversion Wi as [|? d ? ? W1 W2 X1 X2]; subst. inversion W2; subst. clear Wi W2.
  pose proof (forall2_length _ _ _ Wa) as La.
  assert (NE : nth_error (da ++ [d]) (List.length a) = Some d) by (rewrite nth_error_app2, La, Nat.sub_diag by lia; reflexivity).
  rewrite walk_app. destruct (walk_pseudo a [] d0) as (d' & A & B); [exact Fa|now rewrite D| | |].
  - cbn [List.length Nat.add]. rewrite Ed, app_length. cbn. lia.
  - cbn [List.length skipn]. rewrite Ed, La, firstn_app, Nat.sub_diag, firstn_all. cbn [firstn]. rewrite app_nil_r. exact Wa.
  - cbn [List.length Nat.add app] in A, B. rewrite B. cbn [walk]. rewrite Ed, NE in A. injection A as <-.
    rewrite (index_pseudo a d i Fa (Forall_inv Fi)) by (now rewrite Ed). apply withinb in W1. rewrite W1.
    rewrite Ed. rewrite (proj2 (nth_error_None (da ++ [d]) (Datatypes.S (List.length a)))) by (rewrite app_length; cbn; lia).
    destruct (element (a ++ [i])) as [e|]; [|reflexivity]. destruct (create v true e _ _); reflexivity.
Qed.
(** An index outside of the range of its dimension gives nothing, whatever follows. *)
Theorem C100_outside d0 rest a i b d : dims = d0 :: rest -> Forall int32 (a ++ [i]) -> nth_error dims (List.length a) = Some d -> Forall2 within a (firstn (List.length a) dims) ->
  ~ within i d -> walk v true (a ++ i :: b) (pseudo [] d0) = None.
Proof.
  intros D F N W NW. apply Forall_app in F. destruct F as [Fa Fi]. rewrite walk_app.
  destruct (walk_pseudo a [] d0) as (d' & A & B); [exact Fa|now rewrite D|cbn [List.length Nat.add]; apply nth_error_Some; rewrite N; discriminate|exact W|].
  cbn [List.length Nat.add app] in A, B. rewrite B. cbn [walk]. rewrite N in A. injection A as <-. rewrite (index_pseudo a d i Fa (Forall_inv Fi) N).
  rewrite withinb in NW. destruct (_ || _); [now elim NW|reflexivity].
Qed.
End Array.
Print Assumptions C100_array. Print Assumptions C100_part. Print Assumptions C100_element. Print Assumptions C100_outside.

(** * A simulator for the examples: objects are numbered, found by name in a table. *)
Record entry := Entry { e_full : pystr; e_name : pystr; e_type : vtype; e_ranges : option (list (Z * Z)); e_scopes : list nat }.
Definition nowhere : entry := Entry [] [] VNone None [].
Fixpoint find_entry (full : pystr) (n : nat) (l : list entry) : option nat :=
  match l with [] => None | e :: l' => if pystr_eqb full (e_full e) then Some n else find_entry full (Datatypes.S n) l' end.
Definition table (l : list entry) : vpi nat :=
  Vpi nat (fun s => find_entry s 0 l) (fun _ _ => None) (fun h => e_name (nth h l nowhere)) (fun h => e_type (nth h l nowhere))
    (fun h => e_ranges (nth h l nowhere)) (fun _ => None) (fun _ => 8) (fun _ => true) (fun h => e_scopes (nth h l nowhere)).
Definition top_obj : obj nat := Obj 0%nat GModule (lit "top") (lit "top") 0 false (-1) (-1) None.
(** [wire [7:0] a [0:1][2:1]], see VpiImpl.cpp:493-500. *)
Definition sim2 : vpi nat := table
  [Entry (lit "top") (lit "top") VModule None []; Entry (lit "top.a") (lit "a") (VArray GArray) (Some [(0, 1); (2, 1)]) [];
   Entry (lit "top.a[0][1]") (lit "a[0][1]") (VSignal GLogicArray false) (Some [(7, 0)]) []; Entry (lit "top.a[0][2]") (lit "a[0][2]") (VSignal GLogicArray false) (Some [(7, 0)]) [];
   Entry (lit "top.a[1][1]") (lit "a[1][1]") (VSignal GLogicArray false) (Some [(7, 0)]) []; Entry (lit "top.a[1][2]") (lit "a[1][2]") (VSignal GLogicArray false) (Some [(7, 0)]) []].
Definition pick (l : list Z) : option nat := by_name sim2 (lit "top.a" ++ text l).
Lemma sim2_one i : int32 i -> by_name sim2 (lit "top.a" ++ index_text i) = None.
Proof.
  intro I. rewrite (C100_buffer i I). pose proof (str_chars i) as F. cbn [by_name sim2 table].
  assert (K : forall j k, 48 <= j <= 57 -> pystr_eqb (lit "top.a" ++ lit "[" ++ py_str_int i ++ lit "]") (lit "top.a[" ++ [j] ++ lit "][" ++ [k] ++ lit "]") = false).
  { intros j k J. destruct (pystr_eqb _ _) eqn:E; [|reflexivity]. exfalso. apply pystr_eqb_eq in E. cbn in E. injection E as E.
    assert (N : ~ In 93 (py_str_int i)) by (intro Q; rewrite Forall_forall in F; apply F in Q; lia).
    destruct (py_str_int i) as [|c [|d r]] eqn:P; cbn in E.
    { injection E as E _. lia. } { discriminate E. }
    injection E as E1 E2 E3. apply N. rewrite E2. right. now left. }
  cbn [find_entry e_full]. 
  pose proof (K 48 49 ltac:(lia)) as K1. pose proof (K 48 50 ltac:(lia)) as K2. pose proof (K 49 49 ltac:(lia)) as K3. pose proof (K 49 50 ltac:(lia)) as K4.
  change (lit "top.a[0][1]") with (lit "top.a[" ++ [48] ++ lit "][" ++ [49] ++ lit "]"). change (lit "top.a[0][2]") with (lit "top.a[" ++ [48] ++ lit "][" ++ [50] ++ lit "]").
  change (lit "top.a[1][1]") with (lit "top.a[" ++ [49] ++ lit "][" ++ [49] ++ lit "]"). change (lit "top.a[1][2]") with (lit "top.a[" ++ [49] ++ lit "][" ++ [50] ++ lit "]").
  rewrite K1, K2, K3, K4. reflexivity.
Qed.
Lemma sim2_many : many_dimensions sim2 1%nat (lit "a") (lit "top.a") [(0, 1); (2, 1)] pick.
Proof.
  constructor; try reflexivity.
  - split; [cbn; lia|]. cbn. lia.
  - intros l F N L. destruct l as [|i [|j l]]; [now elim N| |cbn in L; lia]. cbn [text flat_map]. rewrite app_nil_r. apply sim2_one, (Forall_inv F).
Qed.
Example C100_array_ex : many_dimensions sim2 1%nat (lit "a") (lit "top.a") [(0, 1); (2, 1)] pick /\
  child_by_name sim2 true false (lit "a") top_obj = Some (pseudo 1%nat (lit "a") (lit "top.a") [] (0, 1)).
Proof. split; [exact sim2_many|]. apply (C100_array sim2 _ _ _ _ _ sim2_many) with (rest := [(2, 1)]); reflexivity. Qed.
Example C100_part_ex : Forall2 within [1] (firstn 1 [(0, 1); (2, 1)]) /\
  walk sim2 true [1] (pseudo 1%nat (lit "a") (lit "top.a") [] (0, 1)) = Some (Obj 1%nat GArray (lit "a[1]") (lit "top.a[1]") 2 true 2 1 (Some false)).
Proof. split; [unfold within; repeat constructor; cbn; lia|reflexivity]. Qed.
Example C100_element_ex : Forall2 within [1; 2] [(0, 1); (2, 1)] /\ pick [1; 2] = Some 5%nat /\
  walk sim2 true [1; 2] (pseudo 1%nat (lit "a") (lit "top.a") [] (0, 1)) = Some (Obj 5%nat GLogicArray (lit "a[1][2]") (lit "top.a[1][2]") 8 true 7 0 (Some false)).
Proof. split; [unfold within; repeat constructor; cbn; lia|]. now split. Qed.
Example C100_outside_ex : ~ within 3 (2, 1) /\ walk sim2 true [1; 3] (pseudo 1%nat (lit "a") (lit "top.a") [] (0, 1)) = None.
Proof. split; [unfold within; cbn; lia|reflexivity]. Qed.

(** * Names *)
Lemma create_names {H} (v : vpi H) s h name fq o : create v s h name fq = Some o ->
  (o_name o = name /\ o_full o = fq) \/ (o_name o = [] /\ o_full o = []).
Proof.
  assert (SI : forall int const o0 o', signal_init v int const o0 name fq = Some o' -> o_name o' = name /\ o_full o' = fq).
  { intros int const o0 o'. unfold signal_init. destruct int; [intro E; injection E as <-; now split|]. destruct const; [intro E; injection E as <-; now split|].
    destruct (o_type o0); try (intro E; injection E as <-; now split).
    all: destruct (vector v (o_hdl o0)); [|intro E; injection E as <-; now split].
    all: destruct (ranges v (o_hdl o0)) as [[|[l r] t]|]; [discriminate|intro E; injection E as <-; now split|].
    all: destruct (own v (o_hdl o0)) as [[l r]|]; intro E; injection E as <-; now split. }
  assert (AI : forall o0 o', array_init v s o0 name fq = Some o' -> o_name o' = name /\ o_full o' = fq).
  { intros o0 o'. unfold array_init. match goal with |- match ?x with _ => _ end = _ -> _ => destruct x as [z|]; [|discriminate] end. destruct (array_range v s (o_hdl o0) z) as [[l r]|]; [|discriminate].
    intro E. injection E as <-. now split. }
  unfold create. destruct (htype v h) as [g int|g|g|pk| | | | |].
  - destruct (signal_init v int false (fresh h g) name fq) eqn:E; intro Q; injection Q as <-; [left; exact (SI _ _ _ _ E)|right; now split].
  - intro E. left. exact (SI _ _ _ _ E).
  - destruct (array_init v s (fresh h g) name fq) eqn:E; intro Q; injection Q as <-; [left; exact (AI _ _ E)|right; now split].
  - intro Q. injection Q as <-. left. now split.
  - intro Q. injection Q as <-. left. now split.
  - intro Q. injection Q as <-. left. now split.
  - intro Q. injection Q as <-. left. now split.
  - intro Q. injection Q as <-. left. now split.
  - discriminate.
Qed.
(** A child has the name by which it was asked for, behind the full name of its parent; the exception: an object which could not be
    initialised has no name at all (see [C100_escaped_refuted]). *)
Theorem C100_names {H} (v : vpi H) skips ius parent o :
  (forall name, child_by_name v skips ius name parent = Some o ->
     o_name o = name /\ o_full o = o_full parent ++ delimiter parent ++ name \/ o_name o = [] /\ o_full o = []) /\
  (forall i, child_by_index v skips i parent = Some o ->
     o_name o = o_name parent ++ index_text i /\ o_full o = o_full parent ++ index_text i \/ o_name o = [] /\ o_full o = []).
Proof.
  split.
  - intros name E. unfold child_by_name in E. cbv zeta in E. match type of E with match ?x with _ => _ end = _ => destruct x as [h|]; [|discriminate E] end.
    eapply create_names. exact E.
  - intros i E. unfold child_by_index in E. cbv zeta in E. match type of E with match ?x with _ => _ end = _ => destruct x as [h|]; [|discriminate E] end.
    eapply create_names. exact E.
Qed.
Print Assumptions C100_names.
Example C100_names_ex : exists o, child_by_index sim2 true 1 (pseudo 1%nat (lit "a") (lit "top.a") [] (0, 1)) = Some o /\ o_full o = lit "top.a[1]".
Proof. eexists. split; reflexivity. Qed.

(** * Generate loops *)
(** The pseudo-region of the generate loop [lbl] in [parent]. *)
Definition region {H} (parent : obj H) (lbl : pystr) : obj H :=
  Obj (o_hdl parent) GGenArray lbl (o_full parent ++ lit "." ++ lbl) 0 false (-1) (-1) None.
(** A block of a generate loop: its name is the label and an index. *)
Definition block_of {H} (v : vpi H) (lbl : pystr) (i : Z) (s : H) : Prop := htype v s = VGenScope /\ hname v s = lbl ++ index_text i.
Definition is_scope {H} (v : vpi H) (h : H) : Prop := htype v h = VModule \/ htype v h = VScope \/ htype v h = VGenScope.
Lemma before_last_app c a b : ~ In c b -> before_last c (a ++ c :: b) = Some (a, c :: b).
Proof.
  intro N. assert (B : before_last c b = None).
  { induction b as [|x b IH]; [reflexivity|]. cbn [before_last]. rewrite IH by (intro I; apply N; now right). destruct (Z.eqb_spec x c); [subst; elim N; now left|reflexivity]. }
  induction a as [|x a IH]; cbn [app before_last]; [rewrite B, Z.eqb_refl; reflexivity|now rewrite IH].
Qed.
Lemma before_index lbl i : int32 i -> before_last 91 (lbl ++ index_text i) = Some (lbl, index_text i).
Proof.
  intro I. rewrite (C100_buffer i I). change (lit "[" ++ py_str_int i ++ lit "]") with (91 :: py_str_int i ++ lit "]"). apply before_last_app.
  intro Q. apply in_app_iff in Q. destruct Q as [Q|Q]; [|cbn in Q; lia]. pose proof (str_chars i) as F. rewrite Forall_forall in F. apply F in Q. lia.
Qed.
Lemma before_none c s : ~ In c s -> before_last c s = None.
Proof.
  induction s as [|x s IH]; intro N; [reflexivity|]. cbn [before_last]. rewrite IH by (intro I; apply N; now right).
  destruct (Z.eqb_spec x c); [subst; elim N; now left|reflexivity].
Qed.
Lemma create_region {H} (v : vpi H) s parent lbl : is_scope v (o_hdl parent) -> hname v (o_hdl parent) <> lbl ->
  create v s (o_hdl parent) lbl (o_full parent ++ lit "." ++ lbl) = Some (region parent lbl).
Proof.
  intros S N. unfold create. replace (pystr_eqb (hname v (o_hdl parent)) lbl) with false; [destruct S as [-> |[-> | ->]]; reflexivity|].
  symmetry. destruct (pystr_eqb _ _) eqn:E; [apply pystr_eqb_eq in E; contradiction|reflexivity].
Qed.
(** The label of a generate loop gives its pseudo-region, whether the simulator has an object for the loop or only for its blocks. *)
Theorem C100_generate {H} (v : vpi H) skips parent lbl : o_type parent <> GPackage -> is_scope v (o_hdl parent) -> hname v (o_hdl parent) <> lbl -> ~ In 91 lbl ->
  (exists a, by_name v (o_full parent ++ lit "." ++ lbl) = Some a /\ htype v a = VGenScopeArray) \/
  (by_name v (o_full parent ++ lit "." ++ lbl) = None /\ exists i s, int32 i /\ In s (scopes v (o_hdl parent)) /\ block_of v lbl i s) ->
  child_by_name v skips false lbl parent = Some (region parent lbl).
Proof.
  intros P S N NB C. unfold child_by_name. assert (D : delimiter parent = lit ".") by (unfold delimiter; destruct (o_type parent); try reflexivity; now elim P).
  rewrite D. destruct C as [(a & B & T)|(B & i & s & I & In & T & NM)]; rewrite B.
  - rewrite T. now apply create_region.
  - replace (existsb _ _) with true.
    + destruct S as [S|[S|S]]; rewrite S; apply create_region; try exact N; unfold is_scope; tauto.
    + symmetry. apply existsb_exists. exists s. split; [exact In|]. rewrite T. unfold same_label, label. rewrite NM, (before_index lbl i I), (before_none 91 lbl NB). now apply pystr_eqb_eq.
Qed.
Print Assumptions C100_generate.
(** The index of a pseudo-region gives the block with this index, and nothing if there is none. *)
Theorem C100_block {H} (v : vpi H) skips parent lbl i :
  child_by_index v skips i (region parent lbl) =
  match by_name v (o_full parent ++ lit "." ++ lbl ++ index_text i) with
  | Some s => create v skips s (lbl ++ index_text i) (o_full parent ++ lit "." ++ lbl ++ index_text i)
  | None => None
  end.
Proof. unfold child_by_index, region. cbn [o_type o_full o_name]. rewrite <- !app_assoc. reflexivity. Qed.
Print Assumptions C100_block.
(** A label which no object and no block has gives nothing. *)
Theorem C100_absent {H} (v : vpi H) skips parent name : by_name v (o_full parent ++ delimiter parent ++ name) = None ->
  (forall s, In s (scopes v (o_hdl parent)) -> label (hname v s) <> label name) -> child_by_name v skips false name parent = None.
Proof.
  intros B A. unfold child_by_name. rewrite B. destruct (existsb _ _) eqn:E; [|reflexivity]. apply existsb_exists in E. destruct E as (s & I & E).
  exfalso. apply (A s I). unfold same_label in E. destruct (htype v s); try discriminate E; now apply pystr_eqb_eq in E.
Qed.
Print Assumptions C100_absent.
(** A module with a generate loop of two blocks. *)
Definition simg : vpi nat := table
  [Entry (lit "top") (lit "top") VModule None [1; 2]%nat; Entry (lit "top.g[0]") (lit "g[0]") VGenScope None []; Entry (lit "top.g[1]") (lit "g[1]") VGenScope None [];
   Entry (lit "top.s") (lit "s") (VSignal GLogicArray false) (Some [(7, 0)]) []].
Example C100_generate_ex : is_scope simg 0%nat /\ by_name simg (lit "top.g") = None /\ block_of simg (lit "g") 1 2%nat /\ In 2%nat (scopes simg 0%nat) /\
  child_by_name simg true false (lit "g") top_obj = Some (region top_obj (lit "g")).
Proof. split; [now left|]. split; [reflexivity|]. split; [now split|]. split; [cbn; auto|reflexivity]. Qed.
Example C100_block_ex : child_by_index simg true 1 (region top_obj (lit "g")) = Some (Obj 2%nat GModule (lit "g[1]") (lit "top.g[1]") 0 false (-1) (-1) None) /\
  child_by_index simg true 2 (region top_obj (lit "g")) = None.
Proof. split; reflexivity. Qed.
Example C100_absent_ex : (forall s, In s (scopes simg 0%nat) -> label (hname simg s) <> label (lit "f")) /\ child_by_name simg true false (lit "f") top_obj = None.
Proof. split; [|reflexivity]. intros s [<-|[<-|[]]]; discriminate. Qed.

(** * Discovery *)
(** What is discovered is what is found by its name or index: the same type, names and range, so that the store of handles (C98) keeps one
    handle for both. *)
Theorem C100_same {H} (v : vpi H) skips parent h :
  (* a child which is no block of a generate loop *)
  (forall internal, o_type parent <> GGenArray -> o_type parent <> GStructure -> htype v h <> VGenScope -> htype v h <> VGenScopeArray ->
     by_name v (o_full parent ++ delimiter parent ++ hname v h) = Some h ->
     iterated v skips internal h parent = child_by_name v skips false (hname v h) parent) /\
  (* a block of a generate loop gives the pseudo-region *)
  (forall lbl i, o_type parent <> GGenArray -> o_type parent <> GStructure -> o_type parent <> GPackage -> is_scope v (o_hdl parent) ->
     hname v (o_hdl parent) <> lbl -> ~ In 91 lbl -> lbl <> [] -> int32 i -> block_of v lbl i h -> In h (scopes v (o_hdl parent)) ->
     by_name v (o_full parent ++ lit "." ++ lbl) = None ->
     iterated v skips true h parent = Some (region parent lbl) /\ child_by_name v skips false lbl parent = Some (region parent lbl)) /\
  (* the children of a pseudo-region *)
  (forall lbl i internal, int32 i -> block_of v lbl i h -> ~ In 91 lbl -> by_name v (o_full parent ++ lit "." ++ lbl ++ index_text i) = Some h ->
     let_through v h (region parent lbl) = true /\
     iterated v skips internal h (region parent lbl) = child_by_index v skips i (region parent lbl)).
Proof.
  split; [|split].
  - intros internal G S T1 T2 B. unfold iterated, child_by_name. rewrite B.
    assert (X : internal && negb (gtype_eqb (o_type parent) GGenArray) && match htype v h with VGenScope => true | _ => false end = false)
      by (destruct (htype v h); try (now rewrite andb_false_r); now elim T1).
    rewrite X.
    assert (Y : match htype v h with VGenScopeArray => o_hdl parent | _ => h end = h) by (destruct (htype v h); try reflexivity; now elim T2).
    rewrite Y. destruct (o_type parent); try reflexivity; [now elim G|now elim S].
  - intros lbl i G S P IS N NB NE I [BT BN] HIn B. split.
    + unfold iterated. rewrite BT, BN, (before_index lbl i I).
      replace (gtype_eqb (o_type parent) GGenArray) with false by (destruct (o_type parent); try reflexivity; now elim G).
      destruct lbl as [|c lbl]; [now elim NE|]. cbn [andb negb].
      replace (delimiter parent) with (lit ".") by (unfold delimiter; destruct (o_type parent); try reflexivity; now elim P).
      destruct (o_type parent); try (now apply create_region); [now elim G|now elim S].
    + apply C100_generate; try assumption. right. split; [exact B|]. exists i, h. split; [exact I|]. split; [exact HIn|now split].
  - intros lbl i internal I [BT BN] NB B. split.
    + unfold let_through, region. cbn [o_type gtype_eqb o_name]. rewrite BT. unfold same_label, label. rewrite BN, (before_index lbl i I), (before_none 91 lbl NB). now apply pystr_eqb_eq.
    + rewrite C100_block, B. unfold iterated, region. cbn [o_type gtype_eqb negb o_full]. rewrite andb_false_r. cbn [andb]. rewrite BN, (before_index lbl i I). now rewrite <- !app_assoc.
Qed.
Print Assumptions C100_same.
Example C100_same_ex : iterated simg true true 2%nat top_obj = child_by_name simg true false (lit "g") top_obj /\
  iterated simg true true 2%nat (region top_obj (lit "g")) = child_by_index simg true 1 (region top_obj (lit "g")) /\
  iterated simg true false 3%nat top_obj = child_by_name simg true false (lit "s") top_obj /\ child_by_name simg true false (lit "s") top_obj <> None.
Proof. repeat split; try reflexivity. discriminate. Qed.

(** The members of a structure: simulators give their names with those of the structures around them; the member is the one which is found by
    its own name. *)
Theorem C100_member {H} (v : vpi H) skips internal parent h path field : o_type parent = GStructure -> htype v h <> VGenScope -> htype v h <> VGenScopeArray -> ~ In 46 field ->
  hname v h = path ++ lit "." ++ field -> by_name v (o_full parent ++ lit "." ++ field) = Some h ->
  iterated v skips internal h parent = child_by_name v skips false field parent.
Proof.
  intros T T1 T2 N E B. unfold iterated, child_by_name. unfold delimiter. rewrite T. cbn [gtype_eqb negb]. rewrite B.
  replace (internal && true && match htype v h with VGenScope => true | _ => false end) with false
    by (destruct (htype v h); try (now rewrite andb_false_r); now elim T1).
  replace (match htype v h with VGenScopeArray => o_hdl parent | _ => h end) with h by (destruct (htype v h); try reflexivity; now elim T2).
  rewrite E. change (lit "." ++ field) with (46 :: field). rewrite (before_last_app 46 path field N). reflexivity.
Qed.
Print Assumptions C100_member.
Definition simst : vpi nat := table
  [Entry (lit "top") (lit "top") VModule None []; Entry (lit "top.p") (lit "p") (VStruct false) None []; Entry (lit "top.p.x") (lit "top.p.x") (VSignal GLogicArray false) (Some [(7, 0)]) []].
Example C100_member_ex : exists p o, child_by_name simst true false (lit "p") top_obj = Some p /\ o_type p = GStructure /\ hname simst 2%nat = lit "top.p" ++ lit "." ++ lit "x" /\
  iterated simst true true 2%nat p = Some o /\ o_name o = lit "x" /\ o_full o = lit "top.p.x".
Proof. do 2 eexists. repeat split; reflexivity. Qed.
(** Only a pseudo-region leaves something out: all but the blocks of its loop. *)
Theorem C100_through {H} (v : vpi H) h parent : (o_type parent <> GGenArray -> let_through v h parent = true) /\
  (o_type parent = GGenArray -> let_through v h parent = true <-> (htype v h = VGenScope \/ htype v h = VModule) /\ label (hname v h) = label (o_name parent)).
Proof.
  unfold let_through. split; intro T.
  - destruct (o_type parent); try reflexivity. now elim T.
  - rewrite T. cbn [gtype_eqb]. unfold same_label. destruct (htype v h); split; intro E; try discriminate E; try (destruct E as [[E|E] _]; discriminate E);
      try (split; [tauto|]; now apply pystr_eqb_eq in E); destruct E as [_ E]; now apply pystr_eqb_eq.
Qed.
Print Assumptions C100_through.
Example C100_through_ex : let_through simg 1%nat (region top_obj (lit "g")) = true /\ let_through simg 3%nat (region top_obj (lit "g")) = false /\ let_through simg 3%nat top_obj = true.
Proof. repeat split; reflexivity. Qed.
(** The range of the handle for some indexes is that of the next dimension, also if the name is written behind that of something else which
    contains it (the last place counts). Without an iterator over the ranges there is only that of the handle itself. *)
Lemma last_after nm a s r : last_at nm s = Some r -> last_at nm (a ++ s) = Some r.
Proof. intro E. induction a as [|c a IH]; [exact E|]. cbn [app last_at]. now rewrite IH. Qed.
Theorem C100_dimension {H} (v : vpi H) h g pre nm l fq : hname v h = nm -> plain nm -> Forall int32 l -> htype v h = VArray g ->
  (forall dims d, ranges v h = Some dims -> nth_error dims (List.length l) = Some d -> exists o, create v true h (pre ++ nm ++ text l) fq = Some o /\
     o_left o = fst d /\ o_right o = snd d /\ o_num o = Z.abs (fst d - snd d) + 1 /\ o_full o = fq /\ o_indexable o = true) /\
  (forall d, ranges v h = None -> own v h = Some d -> exists o, create v true h (pre ++ nm ++ text l) fq = Some o /\
     match l with [] => o_left o = fst d /\ o_right o = snd d /\ o_full o = fq | _ => o_up o = None /\ o_full o = [] end).
Proof.
  intros N P F T.
  assert (R : (if (List.length nm <? List.length (pre ++ nm ++ text l))%nat then option_map (count 91) (last_at nm (pre ++ nm ++ text l)) else Some 0) = Some (Z.of_nat (List.length l))).
  { destruct (Nat.ltb_spec (List.length nm) (List.length (pre ++ nm ++ text l))) as [L|L].
    - rewrite (last_after nm pre _ _ (last_name nm l P F)). cbn [option_map]. f_equal. rewrite count_app, (count_none 91 nm) by apply P. apply count_text; [now left|exact F].
    - rewrite !app_length in L. destruct l as [|i l]; [reflexivity|]. exfalso. assert (Q : text (i :: l) <> []) by (now apply text_nonempty).
      destruct (text (i :: l)); [now elim Q|]. cbn in L. lia. }
  unfold create. rewrite T. unfold array_init. cbn [o_hdl fresh]. rewrite N, R. unfold array_range. split.
  - intros dims [a b] D E. rewrite D, Nat2Z.id, E. eexists. split; [reflexivity|]. cbn [fst snd]. unfold set_names, set_range.
    destruct (Z.ltb_spec b a); cbn [o_left o_right o_num o_full o_indexable]; repeat split; lia.
  - intros [a b] D E. rewrite D, E. destruct l as [|i l]; cbn [List.length Z.of_nat Z.eqb].
    + eexists. split; [reflexivity|]. unfold set_names, set_range. now destruct (b <? a).
    + eexists. split; [reflexivity|]. now split.
Qed.
Print Assumptions C100_dimension.
Example C100_dimension_ex : plain (lit "a") /\ hname sim2 1%nat = lit "a" /\ ranges sim2 1%nat = Some [(0, 1); (2, 1)] /\
  exists o, create sim2 true 1%nat (lit "a_a" ++ text [1]) (lit "x") = Some o /\ o_left o = 2 /\ o_right o = 1.
Proof. split; [split; [cbn; intuition discriminate|cbn; lia]|]. split; [reflexivity|]. split; [reflexivity|]. eexists. repeat split; reflexivity. Qed.
(** Objects which are numbers have no range: neither bounds nor indexes. *)
Theorem C100_number {H} (v : vpi H) skips h g name fq : htype v h = VSignal g true ->
  create v skips h name fq = Some (Obj h g name fq (size v h) false (-1) (-1) (Some true)).
Proof. intro T. unfold create. rewrite T. reflexivity. Qed.
Print Assumptions C100_number.
Example C100_number_ex : let s := table [Entry (lit "top.i") (lit "i") (VSignal GOther true) None []] in htype s 0%nat = VSignal GOther true /\
  create s true 0%nat (lit "i") (lit "top.i") = Some (Obj 0%nat GOther (lit "i") (lit "top.i") 8 false (-1) (-1) (Some true)).
Proof. split; reflexivity. Qed.

(** * What does not hold *)
(** An array with an escaped name which contains a bracket: its first index is counted as two, no range is found for it, the
    failure is not looked at (VpiImpl.cpp:329), and both elements are left without a name, which makes them one for the store of handles. *)
Definition sime : vpi nat := table
  [Entry (lit "top") (lit "top") VModule None []; Entry (lit "top.\a[9] ") (lit "\a[9] ") (VArray GArray) (Some [(0, 1); (2, 1)]) []].
Theorem C100_escaped_refuted : exists arr x y, child_by_name sime true false (lit "\a[9] ") top_obj = Some arr /\ ranges sime (o_hdl arr) = Some [(0, 1); (2, 1)] /\
  o_left arr = 0 /\ o_right arr = 1 /\ child_by_index sime true 0 arr = Some x /\ child_by_index sime true 1 arr = Some y /\ o_full x = o_full y /\ o_full x = [] /\ o_up x = None.
Proof. do 3 eexists. repeat split; reflexivity. Qed.
Print Assumptions C100_escaped_refuted.
(** A generate loop which has the name of the scope around it: the pseudo-region is taken for a module and has no indexes. *)
Definition sims : vpi nat := table
  [Entry (lit "top") (lit "top") VModule None [1]%nat; Entry (lit "top.top[0]") (lit "top[0]") VGenScope None []].
Theorem C100_same_name_refuted : exists o, child_by_name sims true false (lit "top") top_obj = Some o /\ o_type o = GModule /\ o_full o = lit "top.top" /\
  by_name sims (lit "top.top[0]") = Some 1%nat /\ child_by_index sims true 0 o = None.
Proof. eexists. repeat split; reflexivity. Qed.
Print Assumptions C100_same_name_refuted.
(** A block which does not exist, asked for by its name: an empty pseudo-region with this name instead of nothing, as the comparison of labels drops
    the index of both. *)
Theorem C100_absent_index_refuted : exists o, by_name simg (lit "top.g[7]") = None /\ child_by_name simg true false (lit "g[7]") top_obj = Some o /\
  o_type o = GGenArray /\ o_full o = lit "top.g[7]" /\ forall i, int32 i -> child_by_index simg true i o = None.
Proof.
  exists (region top_obj (lit "g[7]")). split; [reflexivity|]. split; [reflexivity|]. split; [reflexivity|]. split; [reflexivity|].
  intros i I. rewrite C100_block. rewrite (C100_buffer i I). reflexivity.
Qed.
Print Assumptions C100_absent_index_refuted.

(** C101: elements of VHDL arrays through the VHPI. *)
From Verif Require Import Base TextModel VpiNameModel VhpiArrayModel.
From Verif Require LogicArrayFormat XmlModel XmlProofs XmlSpec ToolsSpec VpiNameProps.
From Coq Require Import String Lia.
Import VpiNameProps.
Notation py_str_int := XmlModel.py_str_int.
Open Scope Z_scope.

(** * The order of elements *)
(** The indexes of a range, from left to right. *)
Definition range_list (r : Z * Z) : list Z :=
  if snd r <? fst r then map (fun k => fst r - Z.of_nat k) (seq 0 (Z.to_nat (fst r - snd r + 1)))
  else map (fun k => fst r + Z.of_nat k) (seq 0 (Z.to_nat (snd r - fst r + 1))).
(** The elements of an array in the order of the language: the last index runs first. *)
Fixpoint rows (rs : list (Z * Z)) : list (list Z) :=
  match rs with [] => [[]] | r :: rs' => flat_map (fun i => map (cons i) (rows rs')) (range_list r) end.
Definition bounds (c : con) : Z * Z := (c_left c, c_right c).
Definition span (r : Z * Z) : Z := Z.abs (fst r - snd r) + 1.
Lemma range_length r : Z.of_nat (List.length (range_list r)) = span r.
Proof. unfold range_list, span. destruct (Z.ltb_spec (snd r) (fst r)); rewrite map_length, seq_length; lia. Qed.
Lemma range_nth r i : within i r -> nth_error (range_list r) (Z.to_nat (Z.abs (i - fst r))) = Some i.
Proof.
  unfold within, range_list. intro W. assert (S : forall n k, (k < n)%nat -> nth_error (seq 0 n) k = Some k).
  { intros n k K. rewrite (nth_error_nth' _ 0%nat) by (rewrite seq_length; lia). rewrite seq_nth by lia. reflexivity. }
  destruct (Z.ltb_spec (snd r) (fst r)).
  - rewrite (map_nth_error _ _ _ (S (Z.to_nat (fst r - snd r + 1)) (Z.to_nat (Z.abs (i - fst r))) ltac:(lia))). f_equal. lia.
  - rewrite (map_nth_error _ _ _ (S (Z.to_nat (snd r - fst r + 1)) (Z.to_nat (Z.abs (i - fst r))) ltac:(lia))). f_equal. lia.
Qed.
Lemma flat_map_nth {A B} (f : A -> list B) m : (forall x, List.length (f x) = m) -> forall xs j x k, nth_error xs j = Some x -> (k < m)%nat ->
  nth_error (flat_map f xs) (j * m + k) = nth_error (f x) k.
Proof.
  intros L xs. induction xs as [|y xs IH]; intros j x k E K; [destruct j; discriminate E|]. cbn [flat_map]. destruct j as [|j]; cbn in E.
  - injection E as ->. cbn [Nat.mul Nat.add]. apply nth_error_app1. now rewrite L.
  - rewrite nth_error_app2 by (rewrite L; lia). rewrite L. replace (Datatypes.S j * m + k - m)%nat with (j * m + k)%nat by lia. now apply IH.
Qed.
Lemma flat_map_length {A B} (f : A -> list B) m xs : (forall x, List.length (f x) = m) -> List.length (flat_map f xs) = (List.length xs * m)%nat.
Proof. intro L. induction xs as [|x xs IH]; [reflexivity|]. cbn [flat_map List.length Nat.mul]. now rewrite app_length, L, IH. Qed.
Lemma rows_length r rs : List.length (rows (r :: rs)) = (List.length (range_list r) * List.length (rows rs))%nat.
Proof. cbn [rows]. apply flat_map_length. intro x. apply map_length. Qed.
Lemma flat_scale l : forall cs, List.length l = List.length cs -> snd (flat (combine l cs)) = Z.of_nat (List.length (rows (map bounds cs))).
Proof.
  induction l as [|i l IH]; intros [|c cs] L; try discriminate L; [reflexivity|]. cbn [combine flat map]. injection L as L. specialize (IH cs L).
  rewrite rows_length, Nat2Z.inj_mul, range_length, <- IH. unfold span, bounds. cbn [fst snd].
  destruct (flat (combine l cs)) as [idx scale]. cbn [snd]. destruct (Z.ltb_spec (c_right c) (c_left c)); cbn [snd]; [rewrite Z.abs_eq by lia|rewrite Z.abs_neq by lia]; ring.
Qed.
(** The flat index of an element is its place in the order of the language. *)
Theorem C101_flat l cs : Forall2 (fun i c => within i (bounds c)) l cs ->
  nth_error (rows (map bounds cs)) (Z.to_nat (fst (flat (combine l cs)))) = Some l /\ 0 <= fst (flat (combine l cs)) < Z.of_nat (List.length (rows (map bounds cs))).
Proof.
  induction 1 as [|i c l cs W F IH]; [split; [reflexivity|cbn; lia]|]. destruct IH as [IH1 IH2].
  assert (L : List.length l = List.length cs) by (exact (forall2_length _ _ _ F)). pose proof (flat_scale l cs L) as SC.
  pose proof (range_nth _ _ W) as R. pose proof (range_length (bounds c)) as RL.
  assert (B : (Z.to_nat (Z.abs (i - fst (bounds c))) < List.length (range_list (bounds c)))%nat) by (apply nth_error_Some; rewrite R; discriminate).
  cbn [combine flat map]. destruct (flat (combine l cs)) as [idx scale] eqn:E. cbn [fst snd] in *.
  set (m := List.length (rows (map bounds cs))) in *. set (j := Z.to_nat (Z.abs (i - fst (bounds c)))) in *.
  assert (X : fst (if c_right c <? c_left c then (idx + scale * (c_left c - i), scale * (c_left c - c_right c + 1))
               else (idx + scale * (i - c_left c), scale * (c_right c - c_left c + 1))) = Z.of_nat (j * m + Z.to_nat idx)).
  { assert (J : Z.of_nat j = Z.abs (i - fst (bounds c))) by lia. unfold within, bounds in W, J. cbn [fst snd] in W, J.
    rewrite Nat2Z.inj_add, Nat2Z.inj_mul, J, <- SC. destruct (Z.ltb_spec (c_right c) (c_left c)); cbn [fst]; nia. }
  rewrite X, Nat2Z.id. fold m in IH2. split.
  - cbn [rows]. rewrite (flat_map_nth _ m) with (x := i); [|intro x; apply map_length|exact R|lia]. apply map_nth_error. exact IH1.
  - rewrite rows_length. fold m. nia.
Qed.
Print Assumptions C101_flat.
Example C101_flat_ex : let cs := [Con 0 1 true false; Con 2 0 false false] in
  Forall2 (fun i c => within i (bounds c)) [1; 0] cs /\ fst (flat (combine [1; 0] cs)) = 5 /\ rows (map bounds cs) = [[0; 2]; [0; 1]; [0; 0]; [1; 2]; [1; 1]; [1; 0]].
Proof. cbv zeta. split; [unfold within; repeat constructor; cbn; lia|]. split; reflexivity. Qed.
(** Different indexes give different elements. *)
Theorem C101_distinct l1 l2 cs : Forall2 (fun i c => within i (bounds c)) l1 cs -> Forall2 (fun i c => within i (bounds c)) l2 cs ->
  fst (flat (combine l1 cs)) = fst (flat (combine l2 cs)) -> l1 = l2.
Proof.
  intros F1 F2 E. destruct (C101_flat l1 cs F1) as [A _]. destruct (C101_flat l2 cs F2) as [B _]. rewrite E, B in A. now injection A.
Qed.
Print Assumptions C101_distinct.
Example C101_distinct_ex : let cs := [Con 0 1 true false; Con 2 0 false false] in
  fst (flat (combine [0; 0] cs)) = 2 /\ fst (flat (combine [1; 2] cs)) = 3.
Proof. split; reflexivity. Qed.
(** The [int] values of the loop stay below the number of elements. *)
Theorem C101_no_overflow a b ca cb : Forall2 (fun i c => within i (bounds c)) a ca -> Forall2 (fun i c => within i (bounds c)) b cb ->
  0 <= fst (flat (combine b cb)) < snd (flat (combine b cb)) /\ snd (flat (combine b cb)) <= snd (flat (combine (a ++ b) (ca ++ cb))) /\
  snd (flat (combine (a ++ b) (ca ++ cb))) = Z.of_nat (List.length (rows (map bounds (ca ++ cb)))).
Proof.
  intros Fa Fb. pose proof (forall2_length _ _ _ Fb) as Lb. pose proof (forall2_length _ _ _ Fa) as La.
  destruct (C101_flat b cb Fb) as [_ B]. rewrite <- (flat_scale b cb Lb) in B. split; [exact B|]. split; [|apply flat_scale; rewrite !app_length; lia].
  clear La. induction Fa as [|i c a ca W Fa IH]; [cbn; lia|]. cbn [app combine flat]. destruct (flat (combine (a ++ b) (ca ++ cb))) as [idx scale]. cbn [snd] in *.
  unfold within, bounds in W. cbn [fst snd] in W. destruct (Z.ltb_spec (c_right c) (c_left c)); cbn [snd]; nia.
Qed.
Print Assumptions C101_no_overflow.
Example C101_no_overflow_ex : let cs := [Con 0 1 true false; Con 2 0 false false] in snd (flat (combine [1; 0] cs)) = 6.
Proof. reflexivity. Qed.

(** * Names of indexes *)
Lemma paren_full i : int32 i -> paren_text i = lit "(" ++ py_str_int i ++ lit ")".
Proof. intro I. unfold paren_text. apply firstn_all2. rewrite !app_length. pose proof (str_length i I). cbn [List.length lit]. cbn. lia. Qed.
Definition ptext (l : list Z) : pystr := flat_map paren_text l.
Lemma ptext_snoc l i : ptext (l ++ [i]) = ptext l ++ paren_text i.
Proof. unfold ptext. rewrite flat_map_app. cbn [flat_map]. now rewrite app_nil_r. Qed.
Lemma atoi_dec s : Forall (fun c => 48 <= c <= 57) s -> forall acc, atoi_digits acc s = fold_left (fun a c => 10 * a + (c - 48)) s acc.
Proof.
  induction 1 as [|c s C _ IH]; intro acc; [reflexivity|]. cbn [atoi_digits fold_left]. replace ((48 <=? c) && (c <=? 57)) with true by lia. apply IH.
Qed.
Lemma atoi_str i : atoi (py_str_int i) = i.
Proof.
  unfold py_str_int. destruct (XmlProofs.dec_digits (Z.abs i) ltac:(lia)) as [[NE D] V].
  set (d := rev (map (LogicArrayModel.digit_chr LogicArrayModel.FDec) (LogicArrayModel.digits_of 10 (Z.abs i)))) in *.
  assert (K : atoi_digits 0 d = Z.abs i).
  { rewrite (atoi_dec d D). rewrite <- V. unfold ToolsSpec.value10. reflexivity. }
  destruct (Z.ltb_spec i 0); cbn [app].
  - change (atoi (45 :: d)) with (- atoi_digits 0 d). rewrite K. lia.
  - destruct d as [|c d'] eqn:Ed; [now elim NE|]. pose proof (Forall_inv D) as C. cbn beta in C. cbn [atoi].
    replace ((c =? 32) || (9 <=? c) && (c <=? 13)) with false by lia. replace (c =? 45) with false by lia. replace (c =? 43) with false by lia. rewrite K. lia.
Qed.

Lemma paren_free i : ~ In 41 (py_str_int i).
Proof. intro Q. pose proof (str_chars i) as F. rewrite Forall_forall in F. apply F in Q. lia. Qed.
Lemma indices_step d : ~ In 41 d -> forall cur rest, indices cur (d ++ 41 :: rest) = match rev cur ++ d with [] => atoi rest | _ :: p => atoi p end :: indices [] rest.
Proof.
  induction d as [|c d IH]; intros N cur rest; cbn [app indices].
  - rewrite Z.eqb_refl, app_nil_r. reflexivity.
  - destruct (Z.eqb_spec c 41) as [->|]; [elim N; now left|]. rewrite IH by (intro I; apply N; now right). cbn [rev]. now rewrite <- app_assoc.
Qed.
(** The indexes are found again in the name. *)
Lemma indices_text l : Forall int32 l -> indices [] (ptext l) = l.
Proof.
  induction 1 as [|i l I _ IH]; [reflexivity|]. cbn [ptext flat_map]. rewrite (paren_full i I).
  replace ((lit "(" ++ py_str_int i ++ lit ")") ++ flat_map paren_text l) with ((40 :: py_str_int i) ++ 41 :: ptext l) by (rewrite <- !app_assoc; reflexivity).
  rewrite indices_step by (intros [E|E]; [discriminate E|exact (paren_free i E)]). cbn [rev app]. now rewrite atoi_str, IH.
Qed.
Lemma count_ptext l : Forall int32 l -> count 41 (ptext l) = Z.of_nat (List.length l).
Proof.
  induction 1 as [|i l I _ IH]; [reflexivity|]. cbn [ptext flat_map]. fold (ptext l). rewrite count_app, IH, (paren_full i I), !count_app, (count_none 41 _ (paren_free i)).
  change (count 41 (lit "(")) with 0. change (count 41 (lit ")")) with 1. cbn [List.length]. lia.
Qed.

Section Array.
(** An array of several dimensions. *)
Context {H : Type} (v : vhpi H) (ius questa : bool) (sep : pystr * pystr) (h : H) (nm full : pystr) (cs : list con) (elem : list Z -> option H).
(** The constraints are those of the base type, or, if that one has none, those of the subtype. *)
Definition constrained : Prop :=
  (base v h = cs /\ Forall (fun c => base_free ius c = false) cs) \/
  (Forall (fun c => base_free ius c = true) (base v h) /\ sub v h = cs /\ Forall (fun c => c_free c = false) cs).
Record vhdl_array : Prop := {
  va_kind : vkind v h = KArray;
  va_dims : dims v h = Some (List.length cs);
  va_many : (1 < List.length cs)%nat;
  va_name : case_name v h = nm;
  va_constraints : constrained;
  va_up : Forall (fun c => up questa c = (c_left c <=? c_right c) \/ c_left c = c_right c) cs;
  (* the simulator has the elements in the order of the language, and what it gives for an index is one of them *)
  va_elements : map Some (indexed v h) = map elem (rows (map bounds cs));
  va_index : forall k e, vhpi_index v h k = Some e -> 0 <= k /\ nth_error (indexed v h) (Z.to_nat k) = Some e }.
Hypothesis M : vhdl_array.
Lemma all_cs : all_constraints v ius h (List.length cs) = Some cs.
Proof.
  assert (U : forall f l, Forall (fun c => f c = false) l -> until_free f l = l) by (intros f l F; induction F as [|c l E _ IH]; [reflexivity|cbn [until_free]; now rewrite E, IH]).
  unfold all_constraints. destruct (va_constraints M) as [[B F]|(F & S & G)].
  - rewrite B, (U _ _ F), Nat.eqb_refl. reflexivity.
  - assert (E : until_free (base_free ius) (base v h) = []) by (destruct F as [|c l E _]; [reflexivity|cbn [until_free]; now rewrite E]).
    rewrite E. pose proof (va_many M). cbn [List.length]. destruct (Nat.eqb_spec 0 (List.length cs)); [lia|]. rewrite S, (U _ _ G), Nat.eqb_refl. reflexivity.
Qed.
Lemma range_cs k c : nth_error cs k = Some c -> get_range v ius h k = Some c.
Proof.
  intro E. unfold get_range. rewrite (va_dims M). destruct (va_constraints M) as [[B F]|(F & S & G)].
  - rewrite B, E. apply nth_error_In in E. rewrite Forall_forall in F. now rewrite (F c E).
  - destruct (nth_error (base v h) k) as [b|] eqn:E2.
    + apply nth_error_In in E2. rewrite Forall_forall in F. rewrite (F b E2), S, E. apply nth_error_In in E. rewrite Forall_forall in G. now rewrite (G c E).
    + rewrite S, E. apply nth_error_In in E. rewrite Forall_forall in G. now rewrite (G c E).
Qed.
(** The handle for the indexes [l], if the range of the next dimension is [c]. *)
Definition vpseudo (l : list Z) (c : con) : obj H :=
  Obj h GArray (nm ++ ptext l) (full ++ ptext l) (span (bounds c)) true (c_left c) (c_right c) (Some (up questa c)).
Lemma given_text l : Forall int32 l -> given v h (nm ++ ptext l) = ptext l.
Proof.
  intro F. unfold given. rewrite (va_name M). destruct (Nat.ltb_spec (List.length nm) (List.length (nm ++ ptext l))) as [L|L].
  - rewrite skipn_app, skipn_all, Nat.sub_diag. reflexivity.
  - rewrite app_length in L. destruct (ptext l); [reflexivity|cbn in L; lia].
Qed.
Lemma create_vpseudo l c : Forall int32 l -> nth_error cs (List.length l) = Some c -> vh_create v ius questa h (nm ++ ptext l) (full ++ ptext l) = (Some (vpseudo l c), []).
Proof.
  intros F E. unfold vh_create. rewrite (va_kind M). unfold vh_array_init. cbn [o_hdl fresh]. rewrite (va_dims M). pose proof (va_many M) as K.
  destruct (Nat.ltb_spec 1 (List.length cs)) as [_|]; [|lia]. rewrite (given_text l F), (count_ptext l F), Nat2Z.id, (range_cs _ _ E).
  unfold vpseudo. cbn [o_type]. do 3 f_equal. pose proof (va_up M) as U. rewrite Forall_forall in U. apply nth_error_In in E. specialize (U c E).
  unfold span, bounds. cbn [fst snd]. destruct (up questa c); destruct U as [U|U]; lia.
Qed.
Lemma element_nth k : 0 <= k -> element_at v h k = nth_error (indexed v h) (Z.to_nat k).
Proof.
  intro K. unfold element_at. destruct (vhpi_index v h k) as [e|] eqn:E; [apply (va_index M) in E; now rewrite (proj2 E)|]. destruct (Z.ltb_spec k 0); [lia|reflexivity].
Qed.
(** The array itself. *)
Theorem C101_array c0 rest : cs = c0 :: rest -> vh_create v ius questa h nm full = (Some (vpseudo [] c0), []).
Proof. intro D. pose proof (create_vpseudo [] c0 (Forall_nil _)) as C. cbn [ptext flat_map] in C. rewrite !app_nil_r in C. apply C. now rewrite D. Qed.
Lemma child_part l i c c' : Forall int32 (l ++ [i]) -> nth_error cs (List.length l) = Some c -> nth_error cs (Datatypes.S (List.length l)) = Some c' ->
  vh_child v ius questa sep i (vpseudo l c) = (Some (vpseudo (l ++ [i]) c'), []).
Proof.
  intros F E E'. assert (FL : Forall int32 l) by (apply Forall_app in F; tauto).
  unfold vh_child. cbn [o_type vpseudo o_hdl o_name o_full]. rewrite (va_dims M). pose proof (va_many M) as K.
  destruct (Nat.ltb_spec 1 (List.length cs)) as [_|]; [|lia]. rewrite (given_text l FL), (indices_text l FL).
  assert (LL : List.length (l ++ [i]) = Datatypes.S (List.length l)) by (rewrite app_length; cbn; lia).
  assert (K' : (Datatypes.S (List.length l) < List.length cs)%nat) by (apply nth_error_Some; rewrite E'; discriminate).
  rewrite LL. destruct (Nat.eqb_spec (Datatypes.S (List.length l)) (List.length cs)); [lia|].
  rewrite <- !app_assoc, <- ptext_snoc. rewrite (create_vpseudo (l ++ [i]) c' F); [reflexivity|now rewrite LL].
Qed.
(** After fewer indexes than dimensions: a handle with the range of the next dimension and the indexes in its names. *)
Theorem C101_part l2 : forall l1 c, Forall int32 (l1 ++ l2) -> nth_error cs (List.length l1) = Some c -> (List.length (l1 ++ l2) < List.length cs)%nat ->
  exists c', nth_error cs (List.length (l1 ++ l2)) = Some c' /\ vh_walk v ius questa sep l2 (vpseudo l1 c) = Some (vpseudo (l1 ++ l2) c').
Proof.
  induction l2 as [|i l2 IH]; intros l1 c F E L; [exists c; rewrite app_nil_r; now split|]. rewrite app_length in L. cbn [List.length] in L.
  destruct (nth_error cs (Datatypes.S (List.length l1))) as [c'|] eqn:E'; [|apply nth_error_None in E'; lia].
  assert (F' : Forall int32 ((l1 ++ [i]) ++ l2)) by (rewrite <- app_assoc; exact F).
  assert (LL : List.length (l1 ++ [i]) = Datatypes.S (List.length l1)) by (rewrite app_length; cbn; lia).
  cbn [vh_walk]. rewrite (child_part l1 i c c'); [|apply Forall_app in F'; tauto|exact E|exact E']. cbn [fst].
  destruct (IH (l1 ++ [i]) c' F') as (c2 & A & B); [now rewrite LL|rewrite <- app_assoc, app_length; cbn [List.length app]; lia|].
  exists c2. rewrite <- app_assoc in A, B. now split.
Qed.
(** After one index for each dimension: the element which the language means. *)
Theorem C101_element l c0 rest : cs = c0 :: rest -> Forall int32 l -> Forall2 (fun i c => within i (bounds c)) l cs ->
  vh_walk v ius questa sep l (vpseudo [] c0) =
  match elem l with Some e => fst (vh_create v ius questa e (nm ++ ptext l) (full ++ ptext l)) | None => None end.
Proof.
  intros D F W. assert (L : List.length l = List.length cs) by (exact (forall2_length _ _ _ W)).
  destruct (C101_flat l cs W) as [P B]. pose proof (va_many M) as K.
  destruct (exists_last (l := l)) as (a & i & E); [intros ->; cbn in L; lia|]. subst l.
  assert (LL : List.length (a ++ [i]) = Datatypes.S (List.length a)) by (rewrite app_length; cbn; lia).
  assert (FA : Forall int32 a) by (apply Forall_app in F; tauto).
  assert (WA : forall x y o, vh_walk v ius questa sep (x ++ y) o = match vh_walk v ius questa sep x o with Some o' => vh_walk v ius questa sep y o' | None => None end).
  { intros x y. induction x as [|j x IH]; intro o; [reflexivity|]. cbn [app vh_walk]. destruct (fst (vh_child v ius questa sep j o)); [apply IH|reflexivity]. }
  rewrite WA. destruct (C101_part a [] c0) as (c & E & Q); [exact FA|now rewrite D|cbn [app]; lia|]. cbn [app] in E, Q. rewrite Q. cbn [vh_walk].
  assert (N : nth_error (indexed v h) (Z.to_nat (fst (flat (combine (a ++ [i]) cs)))) = elem (a ++ [i])).
  { pose proof (va_elements M) as V. apply (f_equal (fun z => nth_error z (Z.to_nat (fst (flat (combine (a ++ [i]) cs)))))) in V.
    rewrite (map_nth_error _ _ _ P) in V. rewrite nth_error_map in V. destruct (nth_error (indexed v h) _) as [e|]; cbn in V; [now injection V|discriminate V]. }
  unfold vh_child. cbn [o_type vpseudo o_hdl o_name o_full]. rewrite (va_dims M). destruct (Nat.ltb_spec 1 (List.length cs)) as [_|]; [|lia].
  rewrite (given_text a FA), (indices_text a FA), LL. destruct (Nat.eqb_spec (Datatypes.S (List.length a)) (List.length cs)) as [_|]; [|lia].
  rewrite all_cs, element_nth, N by lia. destruct (elem (a ++ [i])) as [e|]; [|reflexivity]. rewrite <- !app_assoc, <- ptext_snoc.
  destruct (vh_create v ius questa e (nm ++ ptext (a ++ [i])) (full ++ ptext (a ++ [i]))) as [[o|] r]; reflexivity.
Qed.
End Array.
Print Assumptions C101_array. Print Assumptions C101_part. Print Assumptions C101_element.

(** An array [(0 to 1, 2 downto 0)] of logic vectors: handle 0, the elements 1 to 6. *)
Definition ex_cs : list con := [Con 0 1 true false; Con 2 0 false false].
Definition ex_vhpi : vhpi nat :=
  Vhpi nat (fun h => match h with 0 => KArray | _ => KLogic false end%nat) (fun h => match h with 0%nat => Some 2%nat | _ => Some 0%nat end)
    (fun h => match h with 0%nat => ex_cs | _ => [] end) (fun _ => []) (fun h => lit "a") (fun _ _ => None)
    (fun h => match h with 0%nat => [1; 2; 3; 4; 5; 6]%nat | _ => [] end) (fun _ => None) (fun _ => 1) (fun _ => Some 1).
Definition ex_elem (l : list Z) : option nat :=
  match l with [i; j] => Some (Z.to_nat (1 + 3 * i + (2 - j))) | _ => None end.
Definition ex_sep : pystr * pystr := (lit "(", lit ")").
Lemma ex_array : vhdl_array ex_vhpi false false 0%nat (lit "a") ex_cs ex_elem.
Proof.
  constructor; try reflexivity.
  - cbn. lia.
  - left. split; [reflexivity|]. repeat constructor.
  - repeat constructor; left; reflexivity.
  - discriminate.
Qed.
Example C101_array_ex : vhdl_array ex_vhpi false false 0%nat (lit "a") ex_cs ex_elem /\
  vh_create ex_vhpi false false 0%nat (lit "a") (lit ":top:a") = (Some (Obj 0%nat GArray (lit "a") (lit ":top:a") 2 true 0 1 (Some true)), []).
Proof. split; [exact ex_array|reflexivity]. Qed.
Example C101_part_ex : vh_walk ex_vhpi false false ex_sep [1] (vpseudo false 0%nat (lit "a") (lit ":top:a") [] (Con 0 1 true false)) =
  Some (Obj 0%nat GArray (lit "a(1)") (lit ":top:a(1)") 3 true 2 0 (Some false)).
Proof. reflexivity. Qed.
Example C101_element_ex : Forall2 (fun i c => within i (bounds c)) [1; 0] ex_cs /\ ex_elem [1; 0] = Some 6%nat /\
  vh_walk ex_vhpi false false ex_sep [1; 0] (vpseudo false 0%nat (lit "a") (lit ":top:a") [] (Con 0 1 true false)) =
  Some (Obj 6%nat GLogic (lit "a(1)(0)") (lit ":top:a(1)(0)") 1 false (-1) (-1) None).
Proof. split; [unfold within; repeat constructor; cbn; lia|]. split; reflexivity. Qed.

(** * One dimension *)
(** The element at an index is the one which stands at its place in the range, and an index outside of the range gives nothing. *)
Theorem C101_single {H} (v : vhpi H) ius questa sep parent n i : In (o_type parent) [GLogic; GLogicArray; GArray; GString] ->
  dims v (o_hdl parent) = Some n -> (n <= 1)%nat -> Z.of_nat (List.length (indexed v (o_hdl parent))) = span (o_left parent, o_right parent) ->
  (forall k e, vhpi_index v (o_hdl parent) k = Some e -> 0 <= k /\ nth_error (indexed v (o_hdl parent)) (Z.to_nat k) = Some e) ->
  (forall e, In (i, e) (combine (range_list (o_left parent, o_right parent)) (indexed v (o_hdl parent))) ->
     fst (vh_child v ius questa sep i parent) = fst (vh_create v ius questa e (o_name parent ++ paren_text i) (o_full parent ++ paren_text i))) /\
  (~ within i (o_left parent, o_right parent) -> vh_child v ius questa sep i parent = (None, [])).
Proof.
  intros T D N L V. set (r := (o_left parent, o_right parent)) in *. set (idx := if o_right parent <? o_left parent then o_left parent - i else i - o_left parent).
  assert (G : vh_child v ius questa sep i parent =
    match element_at v (o_hdl parent) idx with
    | Some e => match vh_create v ius questa e (o_name parent ++ paren_text i) (o_full parent ++ paren_text i) with (Some o, r) => (Some o, r) | (None, r) => (None, r ++ [e]) end
    | None => (None, [])
    end).
  { unfold vh_child. destruct T as [<-|[<-|[<-|[<-|[]]]]]; rewrite D; (destruct (Nat.ltb_spec 1 n) as [|_]; [lia|]); reflexivity. }
  assert (EL : forall k, 0 <= k -> element_at v (o_hdl parent) k = nth_error (indexed v (o_hdl parent)) (Z.to_nat k)).
  { intros k K. unfold element_at. destruct (vhpi_index v (o_hdl parent) k) as [e|] eqn:E; [apply V in E; now rewrite (proj2 E)|]. destruct (Z.ltb_spec k 0); [lia|reflexivity]. }
  rewrite G. split.
  - intros e I. apply In_nth_error in I. destruct I as [k E].
    assert (C : forall (A B : Type) (a : list A) (b : list B) k x y, nth_error (combine a b) k = Some (x, y) -> nth_error a k = Some x /\ nth_error b k = Some y).
    { clear. intros A B a. induction a as [|z a IH]; intros [|w b] [|k] x y E; try discriminate E; cbn in E.
      - injection E as <- <-. now split.
      - cbn [nth_error]. now apply IH. }
    apply C in E. destruct E as [E1 E2].
    assert (K : idx = Z.of_nat k).
    { assert (SQ : forall m q, nth_error (seq 0 m) k = Some q -> q = k).
      { intros m q S. assert (Lk : (k < List.length (seq 0 m))%nat) by (apply nth_error_Some; rewrite S; discriminate). rewrite seq_length in Lk.
        apply (nth_error_nth _ _ 0%nat) in S. rewrite seq_nth in S by exact Lk. lia. }
      unfold range_list, r in E1. cbn [fst snd] in E1. unfold idx. destruct (Z.ltb_spec (o_right parent) (o_left parent)); rewrite nth_error_map in E1;
        (destruct (nth_error (seq 0 _) k) as [q|] eqn:S; [|discriminate E1]); apply SQ in S; subst q; cbn in E1; injection E1 as <-; lia. }
    rewrite EL, K, Nat2Z.id, E2 by lia. destruct (vh_create v ius questa e _ _) as [[o|] rl]; reflexivity.
  - intro W. assert (X : element_at v (o_hdl parent) idx = None); [|now rewrite X].
    unfold within, r in W. cbn [fst snd] in W. unfold span, r in L. cbn [fst snd] in L.
    destruct (Z_lt_le_dec idx 0) as [Neg|Pos].
    + unfold element_at. destruct (vhpi_index v (o_hdl parent) idx) as [e|] eqn:E; [apply V in E; lia|]. destruct (Z.ltb_spec idx 0); [reflexivity|lia].
    + rewrite (EL idx Pos). apply nth_error_None. unfold idx in *. destruct (Z.ltb_spec (o_right parent) (o_left parent)); lia.
Qed.
Print Assumptions C101_single.
Definition ex_one : vhpi nat :=
  Vhpi nat (fun h => KLogic (Nat.eqb h 0)) (fun h => Some (if Nat.eqb h 0 then 1%nat else 0%nat)) (fun h => [Con 3 1 false false]) (fun _ => []) (fun h => lit "s") (fun _ _ => None)
    (fun h => [1; 2; 3]%nat) (fun _ => None) (fun h => if Nat.eqb h 0 then 3 else 1) (fun _ => Some 1).
Definition ex_vector : obj nat := Obj 0%nat GLogicArray (lit "s") (lit ":top:s") 3 true 3 1 (Some false).
Example C101_single_ex : vh_create ex_one false false 0%nat (lit "s") (lit ":top:s") = (Some ex_vector, []) /\
  In (2, 2%nat) (combine (range_list (3, 1)) [1; 2; 3]%nat) /\ option_map (@o_hdl nat) (fst (vh_child ex_one false false ex_sep 2 ex_vector)) = Some 2%nat /\
  ~ within 0 (3, 1) /\ vh_child ex_one false false ex_sep 0 ex_vector = (None, []).
Proof. split; [reflexivity|]. split; [vm_compute; right; left; reflexivity|]. split; [reflexivity|]. split; [unfold within; cbn; lia|reflexivity]. Qed.

(** * What does not hold *)
(** An index outside of its range may give another element: only the flat index has to exist. *)
Theorem C101_outside_refuted : exists c0 o, hd_error ex_cs = Some c0 /\ ~ within (-1) (bounds (Con 2 0 false false)) /\ nth_error ex_cs 1 = Some (Con 2 0 false false) /\
  vh_walk ex_vhpi false false ex_sep [0; -1] (vpseudo false 0%nat (lit "a") (lit ":top:a") [] c0) = Some o /\ Some (o_hdl o) = ex_elem [1; 2] /\ o_full o = lit ":top:a(0)(-1)".
Proof. do 2 eexists. split; [reflexivity|]. split; [unfold within; cbn; lia|]. split; [reflexivity|]. split; [reflexivity|]. split; reflexivity. Qed.
Print Assumptions C101_outside_refuted.
(** The handle for a part of the indexes borrows the handle of the array, and releases it when it is destroyed (which the store of handles does
    with every further one of the same name, C98). *)
Theorem C101_release_refuted : exists arr o, fst (vh_create ex_vhpi false false 0%nat (lit "a") (lit ":top:a")) = Some arr /\
  vh_walk ex_vhpi false false ex_sep [0] arr = Some o /\ o_full o <> o_full arr /\ destroyed o = [o_hdl arr].
Proof. do 2 eexists. split; [reflexivity|]. split; [reflexivity|]. split; [discriminate|reflexivity]. Qed.
Print Assumptions C101_release_refuted.
(** The handle of an element which cannot be initialised is released twice. *)
Definition ex_broken : vhpi nat :=
  Vhpi nat (fun h => match h with 0%nat => KArray | _ => KSignal GOther false end) (fun h => match h with 0%nat => Some 1%nat | _ => None end)
    (fun h => [Con 0 2 true false]) (fun _ => []) (fun h => lit "a") (fun _ _ => None) (fun h => [1; 2; 3]%nat) (fun _ => None) (fun _ => 1) (fun _ => None).
Theorem C101_double_release_refuted : exists arr e, fst (vh_create ex_broken false false 0%nat (lit "a") (lit ":top:a")) = Some arr /\
  vh_child ex_broken false false ex_sep 1 arr = (None, [e; e]).
Proof. do 2 eexists. split; reflexivity. Qed.
Print Assumptions C101_double_release_refuted.
(** A null range, [0 to -1]: no elements, but two with Questa, where the direction is guessed from the bounds. *)
Definition ex_null : vhpi nat :=
  Vhpi nat (fun _ => KArray) (fun _ => Some 1%nat) (fun _ => [Con 0 (-1) true false]) (fun _ => []) (fun _ => lit "a") (fun _ _ => None) (fun _ => []) (fun _ => None) (fun _ => 0) (fun _ => None).
Theorem C101_null_refuted : exists a b, fst (vh_create ex_null false false 0%nat (lit "a") (lit ":top:a")) = Some a /\ o_num a = 0 /\ o_up a = Some true /\
  fst (vh_create ex_null false true 0%nat (lit "a") (lit ":top:a")) = Some b /\ o_num b = 2 /\ o_up b = Some false.
Proof. do 2 eexists. repeat split; reflexivity. Qed.
Print Assumptions C101_null_refuted.

(** Proofs for C43 (LookupModel.v, LookupSpec.v). *)
From Coq Require Import String Sorted.
From Verif Require Import Base LogicArrayModel TextModel ToolsModel ToolsSpec XmlModel XmlProofs LookupModel LookupSpec.
Open Scope Z_scope.

(** * Dictionaries *)
Lemma pystr_eqb_eq a b : pystr_eqb a b = true <-> a = b.
Proof.
  revert b. induction a as [|x a IH]; intros [|y b]; cbn; try (split; intro H; discriminate || reflexivity).
  rewrite andb_true_iff, IH, Z.eqb_eq. split; [intros [-> ->]; reflexivity|intros [= -> ->]; auto].
Qed.

Lemma key_eqb_eq a b : key_eqb a b = true <-> a = b.
Proof.
  destruct a as [s|i], b as [t|j]; cbn; try (split; intro H; discriminate H).
  - rewrite pystr_eqb_eq. split; [intros ->; reflexivity|intros [= ->]; reflexivity].
  - rewrite Z.eqb_eq. split; [intros ->; reflexivity|intros [= ->]; reflexivity].
Qed.
Lemma key_eqb_refl a : key_eqb a a = true.
Proof. now apply key_eqb_eq. Qed.
Lemma key_eqb_sym a b : key_eqb a b = key_eqb b a.
Proof.
  destruct (key_eqb a b) eqn:E, (key_eqb b a) eqn:F; auto.
  - apply key_eqb_eq in E. subst. now rewrite key_eqb_refl in F.
  - apply key_eqb_eq in F. subst. now rewrite key_eqb_refl in E.
Qed.

Lemma sub_get_set k v d k' : sub_get k' (sub_set k v d) = if key_eqb k k' then Some v else sub_get k' d.
Proof.
  induction d as [|[k0 v0] d IH]; cbn; [destruct (key_eqb k k'); reflexivity|].
  destruct (key_eqb k0 k) eqn:E; cbn.
  - apply key_eqb_eq in E. subst k0. destruct (key_eqb k k'); reflexivity.
  - rewrite IH. destruct (key_eqb k0 k') eqn:F; [|reflexivity].
    apply key_eqb_eq in F. subst k0. rewrite key_eqb_sym in E. now rewrite E.
Qed.

Lemma sub_set_same k v d : sub_get k d = Some v -> sub_set k v d = d.
Proof.
  induction d as [|[k0 v0] d IH]; cbn; [discriminate|]. destruct (key_eqb k0 k) eqn:E.
  - intros [= ->]. reflexivity.
  - intro H. now rewrite IH.
Qed.

Lemma sub_get_in k d v : sub_get k d = Some v -> In (k, v) d.
Proof.
  induction d as [|[k0 v0] d IH]; cbn; [discriminate|]. destruct (key_eqb k0 k) eqn:E.
  - apply key_eqb_eq in E. intros [= ->]. left. congruence.
  - right. auto.
Qed.
Lemma sub_in_get k d v : NoDup (map fst d) -> In (k, v) d -> sub_get k d = Some v.
Proof.
  induction d as [|[k0 v0] d IH]; cbn; intros ND Hin; [contradiction|]. destruct Hin as [E|H]; inversion ND; subst.
  - injection E as -> ->. now rewrite key_eqb_refl.
  - destruct (key_eqb k0 k) eqn:F; [|auto]. apply key_eqb_eq in F. subst k0.
    exfalso. apply H2. now apply (in_map fst) in H.
Qed.
Lemma sub_get_none k d : sub_get k d = None <-> ~ In k (map fst d).
Proof.
  induction d as [|[k0 v0] d IH]; cbn; [tauto|]. destruct (key_eqb k0 k) eqn:E.
  - apply key_eqb_eq in E. split; [discriminate|tauto].
  - rewrite IH. split; [|tauto]. intros N [->|H]; [now rewrite key_eqb_refl in E|auto].
Qed.
Lemma sub_set_keys k v d k' : In k' (map fst (sub_set k v d)) <-> k' = k \/ In k' (map fst d).
Proof.
  induction d as [|[k0 v0] d IH]; cbn; [intuition congruence|]. destruct (key_eqb k0 k) eqn:E; cbn.
  - apply key_eqb_eq in E. subst. intuition congruence.
  - rewrite IH. intuition congruence.
Qed.
Lemma sub_set_nodup k v d : NoDup (map fst d) -> NoDup (map fst (sub_set k v d)).
Proof.
  induction d as [|[k0 v0] d IH]; cbn; intro ND; [repeat constructor; auto|].
  inversion ND; subst. destruct (key_eqb k0 k) eqn:E; cbn; [constructor; auto|].
  constructor; [|auto]. rewrite sub_set_keys. intros [->|H]; [now rewrite key_eqb_refl in E|auto].
Qed.

Lemma h2o_get_app h d x : h2o_get h (d ++ [x]) =
  match h2o_get h d with Some r => Some r | None => if Nat.eqb (fst x) h then Some (snd x) else None end.
Proof.
  induction d as [|[h0 r0] d IH]; cbn; [destruct x; reflexivity|]. destruct (Nat.eqb h0 h); auto.
Qed.

(** * Objects *)
Lemma put_nth l r (o : obj) r' : (r < List.length l)%nat ->
  nth_error (firstn r l ++ o :: skipn (S r) l) r' = if Nat.eqb r r' then Some o else nth_error l r'.
Proof.
  revert l r'. induction r as [|r IH]; intros [|x l] r' H; cbn in H; try lia.
  - cbn [firstn app skipn]. destruct r' as [|r']; reflexivity.
  - cbn [firstn app]. change (skipn (S (S r)) (x :: l)) with (skipn (S r) l).
    destruct r' as [|r']; [reflexivity|]. cbn [nth_error Nat.eqb]. apply IH. lia.
Qed.
Lemma nth_lt {A} (l : list A) r x : nth_error l r = Some x -> (r < List.length l)%nat.
Proof. intro H. apply nth_error_Some. now rewrite H. Qed.

Lemma obj_put_nth st r o o' r' : nth_error (l_objs st) r = Some o ->
  nth_error (l_objs (obj_put st r o')) r' = if Nat.eqb r r' then Some o' else nth_error (l_objs st) r'.
Proof. intro H. cbn. apply put_nth. exact (nth_lt _ _ _ H). Qed.

Definition with_sub (o : obj) (k : key) (c : nat) : obj :=
  Obj (o_hid o) (o_cls o) (o_path o) (sub_set k c (o_subs o)) (o_disc o).

Lemma cache_nth st r k c o r' : nth_error (l_objs st) r = Some o ->
  nth_error (l_objs (cache st r k c)) r' = if Nat.eqb r r' then Some (with_sub o k c) else nth_error (l_objs st) r'.
Proof. intro H. unfold cache. rewrite H. now apply obj_put_nth with (o := o). Qed.
Lemma cache_h2o st r k c : l_h2o (cache st r k c) = l_h2o st.
Proof. unfold cache. destruct (nth_error (l_objs st) r); reflexivity. Qed.

(** * Invariant *)
Definition key_kind (c : cls) (k : key) : Prop :=
  match c, k with
  | C_Hierarchy, KName _ => True
  | (C_HierarchyArray | C_Array | C_LogicArray), KIdx _ => True
  | _, _ => False
  end.

(** All usable children of [o] are cached. *)
Definition complete (S : sim) (o : obj) : Prop :=
  forall h k, In h (s_iterate S (o_hid o)) -> sub_handle_key S o (s_name S h) = Ok k ->
  type2cls (s_type S h) <> None -> sub_get k (o_subs o) <> None.

Record inv (S : sim) (st : lst) : Prop := {
  iv_h2o : forall h r, h2o_get h (l_h2o st) = Some r ->
    exists o, nth_error (l_objs st) r = Some o /\ o_hid o = h /\ type2cls (s_type S h) = Some (o_cls o);
  iv_obj : forall r o, nth_error (l_objs st) r = Some o ->
    h2o_get (o_hid o) (l_h2o st) = Some r \/ o_cls o = C_Logic;
  iv_nodup : forall r o, nth_error (l_objs st) r = Some o -> NoDup (map fst (o_subs o));
  iv_sub : forall r o k c, nth_error (l_objs st) r = Some o -> sub_get k (o_subs o) = Some c ->
    key_kind (o_cls o) k /\
    exists oc, nth_error (l_objs st) c = Some oc /\ answers S (o_hid o) (o_cls o) k (o_hid oc) /\
      (o_cls o <> C_LogicArray -> h2o_get (o_hid oc) (l_h2o st) = Some c);
  iv_disc : forall r o, nth_error (l_objs st) r = Some o -> o_disc o = true -> complete S o }.

(** The state only grows; cached children stay what they were. *)
Record ext (st st' : lst) : Prop := {
  ex_obj : forall r o, nth_error (l_objs st) r = Some o ->
    exists o', nth_error (l_objs st') r = Some o' /\ o_hid o' = o_hid o /\ o_cls o' = o_cls o /\
      o_path o' = o_path o /\
      (forall k, sub_get k (o_subs o) <> None -> sub_get k (o_subs o') <> None) /\
      (o_cls o = C_LogicArray -> forall k c, sub_get k (o_subs o) = Some c -> sub_get k (o_subs o') = Some c) /\
      (o_disc o = true -> o_disc o' = true);
  ex_h2o : forall h r, h2o_get h (l_h2o st) = Some r -> h2o_get h (l_h2o st') = Some r }.

Lemma ext_refl st : ext st st.
Proof. constructor; [|auto]. intros r o H. exists o. auto 10. Qed.
Lemma ext_trans a b c : ext a b -> ext b c -> ext a c.
Proof.
  intros [A1 A2] [B1 B2]. constructor; [|auto]. intros r o H.
  destruct (A1 r o H) as (o' & H' & E1 & E2 & E3 & E4 & E5 & E6).
  destruct (B1 r o' H') as (o2 & H2 & F1 & F2 & F3 & F4 & F5 & F6).
  exists o2. split; [exact H2|]. split; [congruence|]. split; [congruence|]. split; [congruence|].
  split; [auto|]. split; [|auto]. intros L k v G. apply F5; [congruence|]. now apply E5.
Qed.

Lemma inv0 S : inv S lst0.
Proof. constructor; cbn; intros; try discriminate; destruct r; discriminate. Qed.

(** * The factory *)
Lemma make_spec S st h p : inv S st ->
  match make_sim_object S st h p with
  | (st1, LOk c) => inv S st1 /\ ext st st1 /\ h2o_get h (l_h2o st1) = Some c /\
      (forall r o, nth_error (l_objs st) r = Some o -> nth_error (l_objs st1) r = Some o) /\
      (h2o_get h (l_h2o st) = Some c /\ st1 = st \/
       h2o_get h (l_h2o st) = None /\ exists cl, type2cls (s_type S h) = Some cl /\
       nth_error (l_objs st1) c = Some (Obj h cl (match p with Some p => p | None => s_name S h end) [] false))
  | (st1, LNotImpl) => st1 = st /\ type2cls (s_type S h) = None /\ h2o_get h (l_h2o st) = None
  | (_, LErr _) => False
  end.
Proof.
  intro V. unfold make_sim_object. destruct (h2o_get h (l_h2o st)) as [r|] eqn:E.
  { split; [exact V|]. split; [apply ext_refl|]. auto. }
  destruct (type2cls (s_type S h)) as [cl|] eqn:T; [|auto].
  set (p' := match p with Some p0 => p0 | None => s_name S h end).
  assert (Old : forall r o, nth_error (l_objs st) r = Some o ->
            nth_error (l_objs st ++ [Obj h cl p' [] false]) r = Some o).
  { intros r o H. rewrite nth_error_app1; [exact H|exact (nth_lt _ _ _ H)]. }
  assert (New : nth_error (l_objs st ++ [Obj h cl p' [] false]) (List.length (l_objs st)) = Some (Obj h cl p' [] false)).
  { rewrite nth_error_app2 by lia. now rewrite Nat.sub_diag. }
  assert (Inv' : forall r o, nth_error (l_objs st ++ [Obj h cl p' [] false]) r = Some o ->
            nth_error (l_objs st) r = Some o \/ r = List.length (l_objs st) /\ o = Obj h cl p' [] false).
  { intros r o H. destruct (Nat.lt_ge_cases r (List.length (l_objs st))) as [L|L].
    - left. now rewrite nth_error_app1 in H.
    - right. rewrite nth_error_app2 in H by exact L.
      destruct (r - List.length (l_objs st))%nat as [|m] eqn:D.
      + cbn in H. injection H as <-. split; [lia|reflexivity].
      + cbn in H. destruct m; discriminate H. }
  assert (H2 : forall g r, h2o_get g (l_h2o st) = Some r ->
            h2o_get g (l_h2o st ++ [(h, List.length (l_objs st))]) = Some r).
  { intros g r H. now rewrite h2o_get_app, H. }
  assert (H2n : h2o_get h (l_h2o st ++ [(h, List.length (l_objs st))]) = Some (List.length (l_objs st))).
  { rewrite h2o_get_app, E. cbn. now rewrite Nat.eqb_refl. }
  split; [|split; [|split; [|split]]].
  - constructor; cbn [l_objs l_h2o].
    + intros g r H. rewrite h2o_get_app in H. destruct (h2o_get g (l_h2o st)) as [r0|] eqn:G.
      * injection H as <-. destruct (iv_h2o _ _ V _ _ G) as (o & A & B & C). exists o. auto.
      * cbn in H. destruct (Nat.eqb_spec h g) as [<-|]; [|discriminate]. injection H as <-.
        eexists. split; [exact New|]. cbn. auto.
    + intros r o H. destruct (Inv' r o H) as [A|[-> ->]].
      * destruct (iv_obj _ _ V _ _ A) as [B|B]; [left; auto|now right].
      * left. cbn. exact H2n.
    + intros r o H. destruct (Inv' r o H) as [A|[-> ->]]; [exact (iv_nodup _ _ V _ _ A)|constructor].
    + intros r o k c H G. destruct (Inv' r o H) as [A|[-> ->]]; [|discriminate G].
      destruct (iv_sub _ _ V _ _ _ _ A G) as (K & oc & B & C & D). split; [exact K|]. exists oc. auto.
    + intros r o H G. destruct (Inv' r o H) as [A|[-> ->]]; [exact (iv_disc _ _ V _ _ A G)|discriminate G].
  - constructor; cbn [l_objs l_h2o]; [|exact H2]. intros r o H. exists o. auto 10.
  - exact H2n.
  - exact Old.
  - right. split; [reflexivity|]. exists cl. split; [reflexivity|exact New].
Qed.

(** * Caching a child *)
Lemma cache_spec S st r k c o oc : inv S st ->
  nth_error (l_objs st) r = Some o -> nth_error (l_objs st) c = Some oc ->
  key_kind (o_cls o) k -> answers S (o_hid o) (o_cls o) k (o_hid oc) ->
  (o_cls o <> C_LogicArray -> h2o_get (o_hid oc) (l_h2o st) = Some c) ->
  (o_cls o = C_LogicArray -> sub_get k (o_subs o) = None) ->
  inv S (cache st r k c) /\ ext st (cache st r k c).
Proof.
  intros V Hr Hc K A L LA.
  assert (N : forall r' o', nth_error (l_objs (cache st r k c)) r' = Some o' ->
     exists o0, nth_error (l_objs st) r' = Some o0 /\ o_hid o' = o_hid o0 /\ o_cls o' = o_cls o0 /\
       o_path o' = o_path o0 /\ o_disc o' = o_disc o0 /\
       (o' = o0 \/ r' = r /\ o0 = o /\ o' = with_sub o k c)).
  { intros r' o' H. rewrite (cache_nth _ _ _ _ _ _ Hr) in H. destruct (Nat.eqb_spec r r') as [<-|].
    - injection H as <-. exists o. cbn. auto 10.
    - exists o'. auto 10. }
  assert (M : forall r' o0, nth_error (l_objs st) r' = Some o0 ->
     exists o', nth_error (l_objs (cache st r k c)) r' = Some o' /\ o_hid o' = o_hid o0 /\ o_cls o' = o_cls o0 /\
       o_path o' = o_path o0 /\ o_disc o' = o_disc o0 /\
       (o' = o0 \/ r' = r /\ o0 = o /\ o' = with_sub o k c)).
  { intros r' o0 H. rewrite (cache_nth _ _ _ _ _ _ Hr). destruct (Nat.eqb_spec r r') as [<-|].
    - assert (o0 = o) by congruence. subst o0. exists (with_sub o k c). cbn. auto 10.
    - exists o0. auto 10. }
  split.
  - constructor; rewrite ?cache_h2o.
    + intros h r' H. destruct (iv_h2o _ _ V _ _ H) as (o0 & B & C & D).
      destruct (M _ _ B) as (o' & E & F1 & F2 & _). exists o'. split; [exact E|]. split; congruence.
    + intros r' o' H. destruct (N _ _ H) as (o0 & B & F1 & F2 & _). rewrite F1, F2. exact (iv_obj _ _ V _ _ B).
    + intros r' o' H. destruct (N _ _ H) as (o0 & B & F1 & F2 & _ & _ & [->|(_ & -> & ->)]).
      * exact (iv_nodup _ _ V _ _ B).
      * cbn. apply sub_set_nodup. exact (iv_nodup _ _ V _ _ Hr).
    + intros r' o' k' c' H G. destruct (N _ _ H) as (o0 & B & F1 & F2 & _ & _ & [->|(-> & -> & ->)]).
      * destruct (iv_sub _ _ V _ _ _ _ B G) as (K' & oc' & B' & C' & D').
        split; [exact K'|]. destruct (M _ _ B') as (oc2 & E & G1 & _). exists oc2. rewrite G1. auto.
      * cbn [with_sub o_subs] in G. rewrite sub_get_set in G. destruct (key_eqb k k') eqn:Q.
        -- apply key_eqb_eq in Q. subst k'. injection G as <-. split; [exact K|].
           destruct (M _ _ Hc) as (oc2 & E & G1 & _). exists oc2. rewrite G1. auto.
        -- destruct (iv_sub _ _ V _ _ _ _ B G) as (K' & oc' & B' & C' & D').
           split; [exact K'|]. destruct (M _ _ B') as (oc2 & E & G1 & _). exists oc2. rewrite G1. auto.
    + intros r' o' H D. destruct (N _ _ H) as (o0 & B & F1 & F2 & _ & F4 & [->|(-> & -> & ->)]).
      * exact (iv_disc _ _ V _ _ B D).
      * intros h k' In' K' T'. cbn [with_sub o_subs]. rewrite sub_get_set. destruct (key_eqb k k'); [discriminate|].
        exact (iv_disc _ _ V _ _ Hr D h k' In' K' T').
  - constructor; rewrite ?cache_h2o; [|auto]. intros r' o0 H.
    destruct (M _ _ H) as (o' & E & F1 & F2 & F3 & F4 & F5). exists o'. split; [exact E|]. split; [exact F1|].
    split; [exact F2|]. split; [exact F3|]. split; [|split; [|congruence]].
    + intros k' Q. destruct F5 as [->|(_ & -> & ->)]; [exact Q|]. cbn [with_sub o_subs]. rewrite sub_get_set.
      destruct (key_eqb k k'); [discriminate|exact Q].
    + intros C k' c' Q. destruct F5 as [->|(_ & -> & ->)]; [exact Q|]. cbn [with_sub o_subs]. rewrite sub_get_set.
      destruct (key_eqb k k') eqn:QK; [|exact Q]. apply key_eqb_eq in QK. subst k'. rewrite LA in Q by exact C. discriminate Q.
Qed.

(** Creating and caching a child. *)
Lemma add_spec S st r k o h p : inv S st -> nth_error (l_objs st) r = Some o ->
  o_cls o <> C_LogicArray -> key_kind (o_cls o) k -> answers S (o_hid o) (o_cls o) k h ->
  match make_sim_object S st h p with
  | (st1, LOk c) => let st2 := cache st1 r k c in inv S st2 /\ ext st st2 /\ h2o_get h (l_h2o st2) = Some c /\
      exists o2, nth_error (l_objs st2) r = Some o2 /\ sub_get k (o_subs o2) = Some c /\ o_disc o2 = o_disc o
  | (st1, _) => st1 = st
  end.
Proof.
  intros V Hr L K A. pose proof (make_spec S st h p V) as M.
  destruct (make_sim_object S st h p) as [st1 [c|e|]]; [|contradiction|tauto].
  destruct M as (V1 & X1 & G & Old & _). cbv zeta.
  destruct (iv_h2o _ _ V1 _ _ G) as (oc & Hc & E & T).
  assert (Hr1 := Old _ _ Hr).
  destruct (cache_spec S st1 r k c o oc V1 Hr1 Hc K) as [V2 X2]; [now rewrite E|now rewrite E|intro; contradiction|].
  split; [exact V2|]. split; [eapply ext_trans; eassumption|]. split; [now rewrite cache_h2o|].
  exists (with_sub o k c). split; [rewrite (cache_nth _ _ _ _ _ _ Hr1); now rewrite Nat.eqb_refl|].
  cbn. split; [|reflexivity]. rewrite sub_get_set. now rewrite key_eqb_refl.
Qed.

(** * Looking up one child *)
Definition fits_child (c : cls) (k : key) : Prop := c <> C_LogicArray /\ key_kind c k.

Lemma key_fits_child c k : key_fits c k = true -> fits_child c k.
Proof. destruct c, k; cbn; intro H; try discriminate H; split; cbn; auto; discriminate. Qed.

Lemma by_key_answers S o k d h : key_kind (o_cls o) k -> handle_by_key S o k d = LOk (Some h) ->
  answers S (o_hid o) (o_cls o) k h.
Proof.
  intros K H. destruct k as [n|i]; cbn in *.
  - injection H as H. destruct (o_cls o); try contradiction. exact (ans_name _ _ _ _ _ H).
  - destruct d; [|discriminate]. injection H as H. apply ans_index; [|exact H].
    intro Q. rewrite Q in K. exact K.
Qed.

Lemma get_child_spec S st r k d o : inv S st -> nth_error (l_objs st) r = Some o -> fits_child (o_cls o) k ->
  match get_child S r k d st with
  | (st1, LOk (Some c)) => inv S st1 /\ ext st st1 /\
      (exists o1, nth_error (l_objs st1) r = Some o1 /\ sub_get k (o_subs o1) = Some c /\ o_disc o1 = o_disc o) /\
      (sub_get k (o_subs o) = Some c /\ st1 = st \/
       sub_get k (o_subs o) = None /\ exists h, handle_by_key S o k d = LOk (Some h) /\ h2o_get h (l_h2o st1) = Some c)
  | (st1, LOk None) => st1 = st /\ sub_get k (o_subs o) = None /\ handle_by_key S o k d = LOk None
  | (st1, LNotImpl) => st1 = st /\ sub_get k (o_subs o) = None /\
      (handle_by_key S o k d = LNotImpl \/ exists h, handle_by_key S o k d = LOk (Some h) /\ type2cls (s_type S h) = None)
  | (_, LErr _) => False
  end.
Proof.
  intros V Hr [L K]. unfold get_child. rewrite Hr. destruct (sub_get k (o_subs o)) as [c|] eqn:G.
  { split; [exact V|]. split; [apply ext_refl|]. split; [|auto]. exists o. auto. }
  destruct (handle_by_key S o k d) as [[h|]|e|] eqn:B; [|auto| |].
  - pose proof (add_spec S st r k o h (Some (child_path S o k)) V Hr L K (by_key_answers _ _ _ _ _ K B)) as A.
    pose proof (make_spec S st h (Some (child_path S o k)) V) as M.
    destruct (make_sim_object S st h (Some (child_path S o k))) as [st1 [c|e|]]; [|contradiction|].
    + destruct A as (A1 & A2 & A3 & A4). split; [exact A1|]. split; [exact A2|]. split; [exact A4|].
      right. split; [reflexivity|]. exists h. auto.
    + destruct M as (-> & T & _). split; [reflexivity|]. split; [reflexivity|]. right. exists h. auto.
  - destruct k; cbn in B; [discriminate|]. destruct d; discriminate.
  - auto.
Qed.

(** * Discovery *)
Lemma sub_key_answers S o h k : o_cls o = C_Hierarchy \/ o_cls o = C_HierarchyArray -> In h (s_iterate S (o_hid o)) ->
  sub_handle_key S o (s_name S h) = Ok k -> answers S (o_hid o) (o_cls o) k h /\ key_kind (o_cls o) k.
Proof.
  intros C I H. unfold sub_handle_key in H. destruct C as [C|C]; rewrite C in *.
  - injection H as <-. split; [apply ans_listed; now apply ls_name|exact Logic.I].
  - destruct (array_key _ _) as [i|] eqn:A; [|discriminate]. cbn in H. injection H as <-.
    split; [apply ans_listed; now apply ls_index|exact Logic.I].
Qed.

Lemma sub_key_ext S o o' n : o_cls o' = o_cls o -> o_hid o' = o_hid o -> sub_handle_key S o' n = sub_handle_key S o n.
Proof. intros C H. unfold sub_handle_key. now rewrite C, H. Qed.

(** After the loop over [things], each of them that has a key and a class is a child. *)
Lemma discover_loop_spec S r things : forall st o, inv S st -> nth_error (l_objs st) r = Some o ->
  (o_cls o = C_Hierarchy \/ o_cls o = C_HierarchyArray) -> incl things (s_iterate S (o_hid o)) ->
  let st1 := discover_loop S r things st in
  inv S st1 /\ ext st st1 /\
  exists o1, nth_error (l_objs st1) r = Some o1 /\ o_disc o1 = o_disc o /\
  forall h k, In h things -> sub_handle_key S o (s_name S h) = Ok k -> type2cls (s_type S h) <> None ->
    sub_get k (o_subs o1) <> None.
Proof.
  induction things as [|h things IH]; intros st o V Hr C I; cbn [discover_loop].
  { split; [exact V|]. split; [apply ext_refl|]. exists o. split; [exact Hr|]. split; [reflexivity|]. intros ? ? []. }
  rewrite Hr. cbv zeta.
  assert (Ih : In h (s_iterate S (o_hid o))) by (apply I; now left).
  assert (I' : incl things (s_iterate S (o_hid o))) by (intros x X; apply I; now right).
  destruct (sub_handle_key S o (s_name S h)) as [k|e] eqn:K.
  - destruct (sub_key_answers S o h k C Ih K) as [A KK].
    assert (L : o_cls o <> C_LogicArray) by (destruct C as [-> | ->]; discriminate).
    pose proof (add_spec S st r k o h (Some (child_path S o k)) V Hr L KK A) as Q.
    pose proof (make_spec S st h (Some (child_path S o k)) V) as M.
    destruct (make_sim_object S st h (Some (child_path S o k))) as [st1 [c|e|]]; [|contradiction|].
    + cbv zeta in Q. destruct Q as (V2 & X2 & G2 & o2 & H2 & S2 & D2).
      destruct (ex_obj _ _ X2 _ _ Hr) as (o2' & H2' & E1 & E2 & _). rewrite H2 in H2'. injection H2' as <-.
      destruct (IH (cache st1 r k c) o2 V2 H2) as (V3 & X3 & o3 & H3 & D3 & F3).
      { now rewrite E2. } { now rewrite E1. }
      split; [exact V3|]. split; [eapply ext_trans; eassumption|]. exists o3. split; [exact H3|].
      split; [congruence|]. intros h' k' [<-|In'] K' T'.
      * rewrite K in K'. injection K' as <-.
        destruct (ex_obj _ _ X3 _ _ H2) as (o3' & H3' & _ & _ & _ & S3 & _ & _). rewrite H3 in H3'. injection H3' as <-.
        apply S3. rewrite S2. discriminate.
      * apply (F3 h' k' In'); [|exact T']. now rewrite (sub_key_ext S o o2).
    + destruct M as (-> & T & _).
      destruct (IH st o V Hr C I') as (V3 & X3 & o3 & H3 & D3 & F3).
      split; [exact V3|]. split; [exact X3|]. exists o3. split; [exact H3|]. split; [exact D3|].
      intros h' k' [<-|In'] K' T'; [contradiction|]. exact (F3 h' k' In' K' T').
  - destruct (IH st o V Hr C I') as (V3 & X3 & o3 & H3 & D3 & F3).
    split; [exact V3|]. split; [exact X3|]. exists o3. split; [exact H3|]. split; [exact D3|].
    intros h' k' [<-|In'] K' T'; [congruence|]. exact (F3 h' k' In' K' T').
Qed.

Lemma put_disc_spec S st r o : inv S st -> nth_error (l_objs st) r = Some o -> complete S o ->
  let st' := obj_put st r (Obj (o_hid o) (o_cls o) (o_path o) (o_subs o) true) in
  inv S st' /\ ext st st'.
Proof.
  intros V Hr Cp st'. set (o1 := Obj (o_hid o) (o_cls o) (o_path o) (o_subs o) true) in *.
  assert (N : forall r', nth_error (l_objs st') r' = if Nat.eqb r r' then Some o1 else nth_error (l_objs st) r').
  { intro r'. exact (obj_put_nth st r o o1 r' Hr). }
  assert (M : forall r' o0, nth_error (l_objs st) r' = Some o0 ->
     exists o', nth_error (l_objs st') r' = Some o' /\ o_hid o' = o_hid o0 /\ o_cls o' = o_cls o0 /\
       o_path o' = o_path o0 /\ o_subs o' = o_subs o0 /\ (o_disc o0 = true -> o_disc o' = true)).
  { intros r' o0 H. rewrite N. destruct (Nat.eqb_spec r r') as [<-|].
    - assert (o0 = o) by congruence. subst o0. exists o1. cbn. auto 10.
    - exists o0. auto 10. }
  assert (P : forall r' o', nth_error (l_objs st') r' = Some o' ->
     exists o0, nth_error (l_objs st) r' = Some o0 /\ o_hid o' = o_hid o0 /\ o_cls o' = o_cls o0 /\ o_subs o' = o_subs o0).
  { intros r' o' H. rewrite N in H. destruct (Nat.eqb_spec r r') as [<-|].
    - injection H as <-. exists o. cbn. auto.
    - exists o'. auto. }
  split.
  - constructor; change (l_h2o st') with (l_h2o st).
    + intros h r' H. destruct (iv_h2o _ _ V _ _ H) as (o0 & B & C & D). destruct (M _ _ B) as (o' & E & F1 & F2 & _).
      exists o'. split; [exact E|]. split; congruence.
    + intros r' o' H. destruct (P _ _ H) as (o0 & B & F1 & F2 & F3). rewrite F1, F2. exact (iv_obj _ _ V _ _ B).
    + intros r' o' H. destruct (P _ _ H) as (o0 & B & F1 & F2 & F3). rewrite F3. exact (iv_nodup _ _ V _ _ B).
    + intros r' o' k c H G. destruct (P _ _ H) as (o0 & B & F1 & F2 & F3). rewrite F3 in G.
      destruct (iv_sub _ _ V _ _ _ _ B G) as (K & oc & B' & C' & D'). rewrite F1, F2. split; [exact K|].
      destruct (M _ _ B') as (oc2 & E & G1 & _). exists oc2. rewrite G1. auto.
    + intros r' o' H D. rewrite N in H. destruct (Nat.eqb_spec r r') as [<-|].
      * injection H as <-. exact Cp.
      * exact (iv_disc _ _ V _ _ H D).
  - constructor; [|auto]. intros r' o0 H. destruct (M _ _ H) as (o' & E & F1 & F2 & F3 & F4 & F5).
    exists o'. rewrite F4. auto 10.
Qed.

Lemma discover_all_spec S st r o : inv S st -> nth_error (l_objs st) r = Some o ->
  (o_cls o = C_Hierarchy \/ o_cls o = C_HierarchyArray) ->
  let st1 := discover_all S r st in
  inv S st1 /\ ext st st1 /\
  exists o1, nth_error (l_objs st1) r = Some o1 /\ o_disc o1 = true.
Proof.
  intros V Hr C. unfold discover_all. rewrite Hr. destruct (o_disc o) eqn:D.
  { cbv zeta. split; [exact V|]. split; [apply ext_refl|]. exists o. auto. }
  cbv zeta. destruct (discover_loop_spec S r (s_iterate S (o_hid o)) st o V Hr C (incl_refl _)) as (V1 & X1 & o1 & H1 & D1 & F1).
  rewrite H1. destruct (ex_obj _ _ X1 _ _ Hr) as (o1' & H1' & E1 & E2 & _). rewrite H1 in H1'. injection H1' as <-.
  destruct (put_disc_spec S _ r o1 V1 H1) as [V2 X2].
  { intros h k In' K T. rewrite E1 in In'. apply (F1 h k In'); [|exact T]. now rewrite <- (sub_key_ext S o o1). }
  split; [exact V2|]. split; [eapply ext_trans; eassumption|].
  eexists. split; [rewrite (obj_put_nth _ r o1 _ r H1), Nat.eqb_refl; reflexivity|reflexivity].
Qed.

(** * Indexing a packed vector *)
Lemma bit_spec S st r i o : inv S st -> nth_error (l_objs st) r = Some o -> o_cls o = C_LogicArray ->
  match bit S r i st with
  | (st1, LOk c) => inv S st1 /\ ext st st1 /\
      (exists o1, nth_error (l_objs st1) r = Some o1 /\ sub_get (KIdx i) (o_subs o1) = Some c) /\
      (sub_get (KIdx i) (o_subs o) = Some c /\ st1 = st \/
       sub_get (KIdx i) (o_subs o) = None /\ exists h oc, s_by_index S (o_hid o) i = Some h /\
         nth_error (l_objs st1) c = Some oc /\ o_hid oc = h)
  | (st1, LErr e) => st1 = st /\ e = IndexError /\ sub_get (KIdx i) (o_subs o) = None /\ s_by_index S (o_hid o) i = None
  | (_, LNotImpl) => False
  end.
Proof.
  intros V Hr C. unfold bit. rewrite Hr. destruct (sub_get (KIdx i) (o_subs o)) as [c|] eqn:G.
  { split; [exact V|]. split; [apply ext_refl|]. split; [|auto]. exists o. auto. }
  destruct (s_by_index S (o_hid o) i) as [h|] eqn:B; [|auto].
  set (c := List.length (l_objs st)). set (ob := Obj h C_Logic (child_path S o (KIdx i)) [] false).
  set (st1 := LSt (l_objs st ++ [ob]) (l_h2o st)).
  assert (Old : forall r o, nth_error (l_objs st) r = Some o -> nth_error (l_objs st1) r = Some o).
  { intros r' o' H. cbn. rewrite nth_error_app1; [exact H|exact (nth_lt _ _ _ H)]. }
  assert (New : nth_error (l_objs st1) c = Some ob).
  { cbn. unfold c. rewrite nth_error_app2 by lia. now rewrite Nat.sub_diag. }
  assert (Inv' : forall r o, nth_error (l_objs st1) r = Some o -> nth_error (l_objs st) r = Some o \/ r = c /\ o = ob).
  { intros r' o' H. cbn in H. destruct (Nat.lt_ge_cases r' (List.length (l_objs st))) as [L|L].
    - left. now rewrite nth_error_app1 in H.
    - right. rewrite nth_error_app2 in H by exact L.
      destruct (r' - List.length (l_objs st))%nat as [|m] eqn:D.
      + cbn in H. injection H as <-. split; [unfold c; lia|reflexivity].
      + cbn in H. destruct m; discriminate H. }
  assert (V1 : inv S st1).
  { constructor; change (l_h2o st1) with (l_h2o st).
    - intros g r' H. destruct (iv_h2o _ _ V _ _ H) as (o' & A1 & A2 & A3). exists o'. auto.
    - intros r' o' H. destruct (Inv' _ _ H) as [A|[-> ->]]; [exact (iv_obj _ _ V _ _ A)|right; reflexivity].
    - intros r' o' H. destruct (Inv' _ _ H) as [A|[-> ->]]; [exact (iv_nodup _ _ V _ _ A)|constructor].
    - intros r' o' k' c' H Q. destruct (Inv' _ _ H) as [A|[-> ->]]; [|discriminate Q].
      destruct (iv_sub _ _ V _ _ _ _ A Q) as (K & oc & A1 & A2 & A3). split; [exact K|]. exists oc. auto.
    - intros r' o' H D. destruct (Inv' _ _ H) as [A|[-> ->]]; [exact (iv_disc _ _ V _ _ A D)|discriminate D]. }
  assert (X1 : ext st st1).
  { constructor; [|auto]. intros r' o' H. exists o'. auto 10. }
  destruct (cache_spec S st1 r (KIdx i) c o ob V1 (Old _ _ Hr) New) as [V2 X2].
  { rewrite C. exact Logic.I. }
  { rewrite C. apply ans_index; [discriminate|exact B]. }
  { intro N. contradiction. }
  { intros _. exact G. }
  split; [exact V2|]. split; [eapply ext_trans; eassumption|]. split.
  - exists (with_sub o (KIdx i) c). rewrite (cache_nth _ _ _ _ _ _ (Old _ _ Hr)), Nat.eqb_refl. split; [reflexivity|].
    cbn. now rewrite sub_get_set, key_eqb_refl.
  - right. split; [reflexivity|].
    destruct (ex_obj _ _ X2 _ _ New) as (oc & H & E & _). exists h, oc. split; [reflexivity|]. split; [exact H|]. exact E.
Qed.

(** * Steps *)
Lemma or_raise_fst e x : fst (or_raise e x) = fst x.
Proof. destruct x as [st [[c|]|e'|]]; reflexivity. Qed.

Lemma get_child_ok S st r k d o : inv S st -> nth_error (l_objs st) r = Some o -> fits_child (o_cls o) k ->
  inv S (fst (get_child S r k d st)) /\ ext st (fst (get_child S r k d st)).
Proof.
  intros V H F. pose proof (get_child_spec S st r k d o V H F) as G.
  destruct (get_child S r k d st) as [st1 [[c|]|e|]]; cbn.
  - tauto.
  - destruct G as [-> _]. split; [exact V|apply ext_refl].
  - contradiction.
  - destruct G as [-> _]. split; [exact V|apply ext_refl].
Qed.

Lemma getitems_ok S r is : forall st o, inv S st -> nth_error (l_objs st) r = Some o -> o_cls o = C_HierarchyArray ->
  inv S (fst (getitems S r is st)) /\ ext st (fst (getitems S r is st)).
Proof.
  induction is as [|i is IH]; intros st o V H C; cbn [getitems]; [split; [exact V|apply ext_refl]|].
  assert (F : fits_child (o_cls o) (KIdx i)) by (rewrite C; split; [discriminate|exact Logic.I]).
  pose proof (get_child_ok S st r (KIdx i) AUTO o V H F) as [V1 X1].
  unfold getitem. pose proof (or_raise_fst IndexError (get_child S r (KIdx i) AUTO st)) as E.
  destruct (or_raise IndexError (get_child S r (KIdx i) AUTO st)) as [st1 [c|e|]]; cbn [fst] in *; rewrite <- E in V1, X1; auto.
  destruct (ex_obj _ _ X1 _ _ H) as (o1 & H1 & _ & C1 & _).
  destruct (IH st1 o1 V1 H1 ltac:(congruence)) as [V2 X2].
  destruct (getitems S r is st1) as [st2 [cs|e|]]; cbn [fst] in *; (split; [exact V2|eapply ext_trans; eassumption]).
Qed.

Lemma step_ok S q st : inv S st -> inv S (lstep S q st) /\ ext st (lstep S q st).
Proof.
  intro V. unfold lstep. destruct (op_fits st q) eqn:F; cbn [negb]; [|split; [exact V|apply ext_refl]].
  assert (At : forall r f, match nth_error (l_objs st) r with Some x => f (o_cls x) | None => false end = true ->
             exists o, nth_error (l_objs st) r = Some o /\ f (o_cls o) = true).
  { intros r f H. destruct (nth_error (l_objs st) r) as [o|]; [|discriminate]. exists o. auto. }
  assert (Name : forall c n, key_fits c (KName []) = true -> fits_child c (KName n)).
  { intros c n H. apply key_fits_child. destruct c; cbn in *; congruence. }
  assert (Disc : forall r o, nth_error (l_objs st) r = Some o -> key_fits (o_cls o) (KName []) || key_fits (o_cls o) (KIdx 0) = true ->
            inv S (discover_all S r st) /\ ext st (discover_all S r st)).
  { intros r o H K. destruct (discover_all_spec S st r o V H) as (A & B & _); [|auto].
    destruct (o_cls o); cbn in K; try discriminate K; auto. }
  destruct q as [h|r k d|r n|r n|r k|r n e|r|r|r|r i|r i]; cbn [op_fits] in F.
  - pose proof (make_spec S st h None V) as M. destruct (make_sim_object S st h None) as [st1 [c|e|]]; cbn [fst].
    + tauto.
    + contradiction.
    + destruct M as [-> _]. split; [exact V|apply ext_refl].
  - apply (At _ (fun c => key_fits c k)) in F. destruct F as (o & H & K). apply (get_child_ok S st r k d o V H). now apply key_fits_child.
  - apply (At _ (fun c => key_fits c (KName []))) in F. destruct F as (o & H & K). unfold getattr.
    destruct (underscore n); [split; [exact V|apply ext_refl]|]. rewrite or_raise_fst.
    apply (get_child_ok S st r (KName n) AUTO o V H). now apply Name.
  - apply (At _ (fun c => key_fits c (KName []))) in F. destruct F as (o & H & K). unfold setattr, getattr.
    destruct (underscore n); [split; [exact V|apply ext_refl]|].
    pose proof (or_raise_fst AttributeError (get_child S r (KName n) AUTO st)) as E.
    pose proof (get_child_ok S st r (KName n) AUTO o V H (Name _ n K)) as [V1 X1]. rewrite <- E in V1, X1.
    destruct (or_raise AttributeError (get_child S r (KName n) AUTO st)) as [st1 [c|e|]]; cbn [fst] in *; auto.
    destruct e; auto.
  - apply (At _ (fun c => key_fits c k)) in F. destruct F as (o & H & K). unfold getitem. rewrite or_raise_fst.
    apply (get_child_ok S st r k AUTO o V H). now apply key_fits_child.
  - apply (At _ (fun c => key_fits c (KName []))) in F. destruct F as (o & H & K). unfold id_. rewrite or_raise_fst.
    apply (get_child_ok S st r _ AUTO o V H). now apply Name.
  - apply (At _ (fun c => key_fits c (KName []) || key_fits c (KIdx 0))) in F. destruct F as (o & H & K). cbn [keys fst]. eauto.
  - apply (At _ (fun c => key_fits c (KName []) || key_fits c (KIdx 0))) in F. destruct F as (o & H & K). cbn [values fst]. eauto.
  - apply (At _ (fun c => key_fits c (KIdx 0))) in F. destruct F as (o & H & K). unfold iter_array. cbn [keys].
    assert (C : o_cls o = C_HierarchyArray) by (destruct (o_cls o); cbn in K; congruence).
    destruct (discover_all_spec S st r o V H (or_intror C)) as (V1 & X1 & o1 & H1 & _).
    destruct (ex_obj _ _ X1 _ _ H) as (o1' & H1' & _ & C1 & _). rewrite H1 in H1'. injection H1' as <-.
    destruct (getitems_ok S r (sort_keys (match nth_error (l_objs (discover_all S r st)) r with
                        | Some o0 => map fst (o_subs o0) | None => [] end)) _ o1 V1 H1 ltac:(congruence)) as [V2 X2].
    split; [exact V2|eapply ext_trans; eassumption].
  - apply (At _ (fun c => match c with C_Array => true | _ => false end)) in F. destruct F as (o & H & K).
    unfold elem. rewrite or_raise_fst. apply (get_child_ok S st r (KIdx i) AUTO o V H).
    destruct (o_cls o); try discriminate K. split; [discriminate|exact Logic.I].
  - apply (At _ (fun c => match c with C_LogicArray => true | _ => false end)) in F. destruct F as (o & H & K).
    assert (C : o_cls o = C_LogicArray) by (destruct (o_cls o); congruence).
    pose proof (bit_spec S st r i o V H C) as B. destruct (bit S r i st) as [st1 [c|e|]]; cbn [fst].
    + tauto.
    + destruct B as [-> _]. split; [exact V|apply ext_refl].
    + contradiction.
Qed.

Lemma run_ok S ops : forall st, inv S st -> inv S (lrun S ops st) /\ ext st (lrun S ops st).
Proof.
  induction ops as [|q ops IH]; intros st V; cbn; [split; [exact V|apply ext_refl]|].
  destruct (step_ok S q st V) as [V1 X1]. destruct (IH _ V1) as [V2 X2]. split; [exact V2|eapply ext_trans; eassumption].
Qed.
Lemma reach_inv S st : reachable S st -> inv S st.
Proof. intros [ops ->]. apply run_ok. apply inv0. Qed.

(** * Lookups *)
Lemma at_elim st r f : match nth_error (l_objs st) r with Some x => f (o_cls x) | None => false end = true ->
  exists o, nth_error (l_objs st) r = Some o /\ f (o_cls o) = true.
Proof. destruct (nth_error (l_objs st) r) as [o|]; [|discriminate]. intro H. exists o. auto. Qed.
Lemma name_fits c n : key_fits c (KName []) = true -> fits_child c (KName n).
Proof. intro H. apply key_fits_child. destruct c; cbn in *; congruence. Qed.

(** Every lookup that is defined is either one through [_get] or one of a bit. *)
Lemma fits_cases st q r k : op_fits st q = true -> asked q = Some (r, k) ->
  exists o, nth_error (l_objs st) r = Some o /\ key_kind (o_cls o) k /\
   (o_cls o <> C_LogicArray /\ not_bit q = true \/ o_cls o = C_LogicArray /\ q = LBit r (match k with KIdx i => i | KName _ => 0 end)).
Proof.
  intros F A. destruct q as [h|r0 k0 d|r0 n|r0 n|r0 k0|r0 n e|r0|r0|r0|r0 i|r0 i]; cbn [asked] in A; try discriminate A;
    cbn [op_fits] in F.
  - injection A as -> ->. apply (at_elim _ _ (fun c => key_fits c k)) in F. destruct F as (o & H & K).
    apply key_fits_child in K as [K1 K2]. exists o. auto.
  - destruct (underscore n); [discriminate|]. injection A as -> <-.
    apply (at_elim _ _ (fun c => key_fits c (KName []))) in F. destruct F as (o & H & K).
    apply (name_fits _ n) in K as [K1 K2]. exists o. auto.
  - injection A as -> ->. apply (at_elim _ _ (fun c => key_fits c k)) in F. destruct F as (o & H & K).
    apply key_fits_child in K as [K1 K2]. exists o. auto.
  - injection A as -> <-. apply (at_elim _ _ (fun c => key_fits c (KName []))) in F. destruct F as (o & H & K).
    apply (name_fits _ (if e then [92] ++ n ++ [92] else n)) in K as [K1 K2]. exists o. auto.
  - injection A as -> <-. apply (at_elim _ _ (fun c => match c with C_Array => true | _ => false end)) in F.
    destruct F as (o & H & K). exists o. destruct (o_cls o); try discriminate K. split; [exact H|]. split; [exact Logic.I|].
    left. split; [discriminate|reflexivity].
  - injection A as -> <-. apply (at_elim _ _ (fun c => match c with C_LogicArray => true | _ => false end)) in F.
    destruct F as (o & H & K). exists o. destruct (o_cls o); try discriminate K. split; [exact H|]. split; [exact Logic.I|].
    right. auto.
Qed.

Definition disc_of (q : lop) : discovery := match q with LGet _ _ d => d | _ => AUTO end.

Lemma or_raise_some e x st c : or_raise e x = (st, LOk c) <-> x = (st, LOk (Some c)).
Proof. destruct x as [s [[c'|]|e'|]]; cbn; split; intro H; inversion H; subst; reflexivity. Qed.
Lemma or_raise_none e x st : or_raise e x = (st, LErr e) <-> x = (st, LOk None) \/ x = (st, LErr e).
Proof.
  destruct x as [s [[c'|]|e'|]]; cbn; split; intro H; try (destruct H as [H|H]); try discriminate H;
    injection H; intros; subst; auto.
Qed.

Lemma finds_get S st q r k c st' : asked q = Some (r, k) -> not_bit q = true ->
  (finds S st q c st' <-> get_child S r k (disc_of q) st = (st', LOk (Some c))).
Proof.
  intros A N. destruct q as [h|r0 k0 d|r0 n|r0 n|r0 k0|r0 n e|r0|r0|r0|r0 i|r0 i]; cbn [asked] in A; try discriminate A;
    try discriminate N; cbn [finds disc_of]; unfold getattr, getitem, id_, elem.
  - injection A as -> ->. reflexivity.
  - destruct (underscore n); [discriminate|]. injection A as -> <-. apply or_raise_some.
  - injection A as -> ->. apply or_raise_some.
  - injection A as -> <-. apply or_raise_some.
  - injection A as -> <-. apply or_raise_some.
Qed.
Lemma misses_get S st q r k : inv S st -> op_fits st q = true -> asked q = Some (r, k) -> not_bit q = true ->
  (misses S st q <-> get_child S r k (disc_of q) st = (st, LOk None)).
Proof.
  intros V F A N. destruct (fits_cases _ _ _ _ F A) as (o & H & K & [[L _]|[_ ->]]); [|discriminate N].
  assert (NE : forall d e, get_child S r k d st <> (st, LErr e)).
  { intros d e Q. pose proof (get_child_spec S st r k d o V H (conj L K)) as G. rewrite Q in G. exact G. }
  assert (R : forall e d, or_raise e (get_child S r k d st) = (st, LErr e) <-> get_child S r k d st = (st, LOk None)).
  { intros e d. rewrite or_raise_none. split; [|auto]. intros [Q|Q]; [exact Q|]. exfalso. exact (NE _ _ Q). }
  destruct q as [h|r0 k0 d|r0 n|r0 n|r0 k0|r0 n e|r0|r0|r0|r0 i|r0 i]; cbn [asked] in A; try discriminate A;
    try discriminate N; cbn [misses disc_of]; unfold getattr, getitem, id_, elem.
  - injection A as -> ->. reflexivity.
  - destruct (underscore n); [discriminate|]. injection A as -> <-. apply R.
  - injection A as -> ->. apply R.
  - injection A as -> <-. apply R.
  - injection A as -> <-. apply R.
Qed.

Lemma finds_asked S st q c st' : finds S st q c st' -> (exists r k, asked q = Some (r, k)) \/ exists h, q = LRoot h.
Proof.
  destruct q as [h|r0 k0 d|r0 n|r0 n|r0 k0|r0 n e|r0|r0|r0|r0 i|r0 i]; cbn; intro H; try contradiction; eauto.
  unfold getattr in H. destruct (underscore n); [discriminate|]. eauto.
Qed.

(** What a successful lookup leaves behind. *)
Lemma finds_sub S st q r k c st1 : inv S st -> op_fits st q = true -> asked q = Some (r, k) -> finds S st q c st1 ->
  inv S st1 /\ ext st st1 /\ exists o1, nth_error (l_objs st1) r = Some o1 /\ sub_get k (o_subs o1) = Some c.
Proof.
  intros V F A Q. destruct (fits_cases _ _ _ _ F A) as (o & H & K & [[L N]|[C ->]]).
  - rewrite (finds_get S st q r k c st1 A N) in Q.
    pose proof (get_child_spec S st r k (disc_of q) o V H (conj L K)) as G. rewrite Q in G.
    destruct G as (G1 & G2 & (o1 & G3 & G4 & _) & _). eauto 6.
  - destruct k as [n|i]; [rewrite C in K; contradiction|]. cbn [finds] in Q.
    pose proof (bit_spec S st r i o V H C) as G. rewrite Q in G.
    destruct G as (G1 & G2 & (o1 & G3 & G4) & _). eauto 6.
Qed.
Lemma sub_finds S st q r k c o : inv S st -> op_fits st q = true -> asked q = Some (r, k) ->
  nth_error (l_objs st) r = Some o -> sub_get k (o_subs o) = Some c -> finds S st q c st.
Proof.
  intros V F A H G. destruct (fits_cases _ _ _ _ F A) as (o' & H' & K & [[L N]|[C ->]]);
    (assert (o' = o) by congruence; subst o').
  - rewrite (finds_get S st q r k c st A N). unfold get_child. rewrite H, G. reflexivity.
  - destruct k as [n|i]; [rewrite C in K; contradiction|]. cbn. unfold bit. rewrite H, G. reflexivity.
Qed.

Lemma typed S st r o : inv S st -> nth_error (l_objs st) r = Some o -> o_cls o <> C_Logic ->
  type2cls (s_type S (o_hid o)) = Some (o_cls o).
Proof.
  intros V H N. destruct (iv_obj _ _ V _ _ H) as [G|G]; [|contradiction].
  destruct (iv_h2o _ _ V _ _ G) as (o' & H' & _ & T). rewrite H in H'. injection H' as <-. exact T.
Qed.
Lemma kind_typed S st r o k : inv S st -> nth_error (l_objs st) r = Some o -> key_kind (o_cls o) k ->
  type2cls (s_type S (o_hid o)) = Some (o_cls o).
Proof. intros V H K. apply (typed S st r o V H). intro Q. rewrite Q in K. exact K. Qed.

Lemma sub_stable S st st' r o k c : consistent S -> inv S st -> inv S st' -> ext st st' ->
  nth_error (l_objs st) r = Some o -> sub_get k (o_subs o) = Some c ->
  exists o', nth_error (l_objs st') r = Some o' /\ sub_get k (o_subs o') = Some c.
Proof.
  intros Cs V V' X H G. destruct (ex_obj _ _ X _ _ H) as (o' & H' & E1 & E2 & E3 & E4 & E5 & _).
  exists o'. split; [exact H'|]. destruct (iv_sub _ _ V _ _ _ _ H G) as (K & oc & A1 & A2 & A3).
  destruct (sub_get k (o_subs o')) as [c'|] eqn:G'; [|exfalso; apply (E4 k); [congruence|exact G']].
  destruct (iv_sub _ _ V' _ _ _ _ H' G') as (K' & oc' & B1 & B2 & B3). rewrite E1, E2 in B2.
  pose proof (Cs _ _ _ _ _ (kind_typed _ _ _ _ _ V H K) A2 B2) as Eh.
  assert (D : o_cls o = C_LogicArray \/ o_cls o <> C_LogicArray) by (destruct (o_cls o); (now left) || (right; discriminate)).
  destruct D as [D|D].
  - pose proof (E5 D _ _ G) as Q. congruence.
  - specialize (A3 D). rewrite E2 in B3. specialize (B3 D). rewrite <- Eh in B3.
    pose proof (ex_h2o _ _ X _ _ A3) as Q. congruence.
Qed.

Lemma stable_pf S st q1 c st1 ops q2 : consistent S -> reachable S st -> op_fits st q1 = true -> finds S st q1 c st1 ->
  asked q1 <> None -> asked q2 = asked q1 -> op_fits (lrun S ops st1) q2 = true ->
  finds S (lrun S ops st1) q2 c (lrun S ops st1).
Proof.
  intros Cs R F Q NA A F2. apply reach_inv in R. destruct (asked q1) as [[r k]|] eqn:A1; [|contradiction].
  destruct (finds_sub S st q1 r k c st1 R F A1 Q) as (V1 & X1 & o1 & H1 & G1).
  destruct (run_ok S ops st1 V1) as [V2 X2].
  destruct (sub_stable S st1 _ r o1 k c Cs V1 V2 X2 H1 G1) as (o2 & H2 & G2).
  exact (sub_finds S _ q2 r k c o2 V2 F2 A H2 G2).
Qed.

(** One Python object per simulator object. *)
Lemma finds_h2o S st q c st1 : inv S st -> op_fits st q = true -> not_bit q = true -> finds S st q c st1 ->
  inv S st1 /\ ext st st1 /\ exists oc, nth_error (l_objs st1) c = Some oc /\ h2o_get (o_hid oc) (l_h2o st1) = Some c.
Proof.
  intros V F N Q. destruct (finds_asked S st q c st1 Q) as [(r & k & A)|(h & ->)].
  - destruct (finds_sub S st q r k c st1 V F A Q) as (V1 & X1 & o1 & H1 & G1). split; [exact V1|]. split; [exact X1|].
    destruct (iv_sub _ _ V1 _ _ _ _ H1 G1) as (K & oc & A1 & A2 & A3). exists oc. split; [exact A1|]. apply A3.
    destruct (fits_cases _ _ _ _ F A) as (o & H & _ & [[L _]|[_ ->]]); [|discriminate N].
    destruct (ex_obj _ _ X1 _ _ H) as (o1' & H1' & _ & E2 & _). rewrite H1 in H1'. injection H1' as <-. congruence.
  - cbn in Q. pose proof (make_spec S st h None V) as M. rewrite Q in M. destruct M as (V1 & X1 & G & _).
    split; [exact V1|]. split; [exact X1|]. destruct (iv_h2o _ _ V1 _ _ G) as (oc & H & E & _). exists oc. split; [exact H|]. now rewrite E.
Qed.

Lemma singleton_pf S st q1 c1 st1 ops q2 c2 st2 : reachable S st ->
  op_fits st q1 = true -> not_bit q1 = true -> finds S st q1 c1 st1 ->
  op_fits (lrun S ops st1) q2 = true -> not_bit q2 = true -> finds S (lrun S ops st1) q2 c2 st2 ->
  hid st2 c1 = hid st2 c2 -> c1 = c2.
Proof.
  intros R F1 N1 Q1 F2 N2 Q2 E. apply reach_inv in R.
  destruct (finds_h2o S st q1 c1 st1 R F1 N1 Q1) as (V1 & X1 & o1 & H1 & G1).
  destruct (run_ok S ops st1 V1) as [V X].
  destruct (finds_h2o S _ q2 c2 st2 V F2 N2 Q2) as (V2 & X2 & o2 & H2 & G2).
  pose proof (ext_trans _ _ _ X X2) as X'. destruct (ex_obj _ _ X' _ _ H1) as (o1' & H1' & E1 & _).
  unfold hid in E. rewrite H1', H2 in E. cbn in E. injection E as E. rewrite E1 in E.
  pose proof (ex_h2o _ _ X' _ _ G1) as Q. rewrite E in Q. congruence.
Qed.

(** Facts about an object never change. *)
Lemma fixed_pf S st ops r : reachable S st -> hid st r <> None ->
  hid (lrun S ops st) r = hid st r /\ class (lrun S ops st) r = class st r /\ path (lrun S ops st) r = path st r.
Proof.
  intros R N. apply reach_inv in R. destruct (run_ok S ops st R) as [V X]. unfold hid, class, path in *.
  destruct (nth_error (l_objs st) r) as [o|] eqn:H; [|contradiction].
  destruct (ex_obj _ _ X _ _ H) as (o' & H' & E1 & E2 & E3 & _). rewrite H'. cbn. rewrite E1, E2, E3. auto.
Qed.

(** A lookup that finds nothing changes nothing. *)
Lemma failed_pf S st q : reachable S st -> asked q <> None ->
  (exists c, finds S st q c (lstep S q st)) \/ lstep S q st = st.
Proof.
  intros R NA. apply reach_inv in R. unfold lstep. destruct (op_fits st q) eqn:F; cbn [negb]; [|auto].
  destruct (asked q) as [[r k]|] eqn:A; [|contradiction].
  destruct (fits_cases _ _ _ _ F A) as (o & H & K & [[L N]|[C ->]]).
  - pose proof (get_child_spec S st r k (disc_of q) o R H (conj L K)) as G.
    assert (E : match q with
      | LRoot h => fst (make_sim_object S st h None) | LGet r k d => fst (get_child S r k d st)
      | LAttr r n => fst (getattr S r n st) | LSetAttr r n => fst (setattr S r n st)
      | LItem r k => fst (getitem S r k st) | LId r n e => fst (id_ S r n e st)
      | LKeys r => fst (keys S r st) | LValues r => fst (values S r st) | LIter r => fst (iter_array S r st)
      | LElem r i => fst (elem S r i st) | LBit r i => fst (bit S r i st) end = fst (get_child S r k (disc_of q) st)).
    { destruct q as [h|r0 k0 d|r0 n|r0 n|r0 k0|r0 n e|r0|r0|r0|r0 i|r0 i]; cbn [asked] in A; try discriminate A;
        try discriminate N; cbn [disc_of]; unfold getattr, getitem, id_, elem; rewrite ?or_raise_fst.
      - now injection A as -> ->.
      - destruct (underscore n); [discriminate|]. injection A as -> <-. apply or_raise_fst.
      - now injection A as -> ->.
      - now injection A as -> <-.
      - now injection A as -> <-. }
    rewrite E. destruct (get_child S r k (disc_of q) st) as [st1 [[c|]|e|]] eqn:Q; cbn [fst].
    + left. exists c. now apply (finds_get S st q r k c st1 A N).
    + right. tauto.
    + contradiction.
    + right. tauto.
  - destruct k as [n|i]; [rewrite C in K; contradiction|]. pose proof (bit_spec S st r i o R H C) as G. cbn [finds].
    destruct (bit S r i st) as [st1 [c|e|]]; cbn [fst]; [left; exists c; reflexivity|right; tauto|contradiction].
Qed.

(** * Lookups answer what the simulator answers *)
Lemma search_pf S st q r k p : searchable S -> reachable S st -> op_fits st q = true ->
  asked q = Some (r, k) -> default_search q = true -> hid st r = Some p ->
  (search S p k = None <-> misses S st q) /\
  forall h, (search S p k = Some h /\ (type2cls (s_type S h) <> None \/ not_bit q = false)) <->
            exists c st', finds S st q c st' /\ hid st' c = Some h.
Proof.
  intros Se R F A D E. apply reach_inv in R. destruct (fits_cases _ _ _ _ F A) as (o & H & K & Case).
  unfold hid in E. rewrite H in E. cbn in E. injection E as E.
  assert (Cached : forall st' o' c, inv S st' -> ext st st' -> nth_error (l_objs st') r = Some o' -> sub_get k (o_subs o') = Some c ->
            exists h, hid st' c = Some h /\ search S p k = Some h).
  { intros st' o' c V' X' H' G'. destruct (iv_sub _ _ V' _ _ _ _ H' G') as (_ & oc & B1 & B2 & B3).
    exists (o_hid oc). unfold hid. rewrite B1. split; [reflexivity|].
    destruct (ex_obj _ _ X' _ _ H) as (o'' & H'' & E1 & E2 & _). rewrite H' in H''. injection H'' as <-.
    rewrite E1, E2, E in B2.
    pose proof (kind_typed _ _ _ _ _ R H K) as T. rewrite E in T. pose proof (Se _ _ _ _ T B2) as Q. unfold search. destruct k; exact Q. }
  destruct Case as [[L N]|[C ->]].
  - assert (DA : disc_of q = AUTO).
    { destruct q as [h|r0 k0 d|r0 n|r0 n|r0 k0|r0 n e|r0|r0|r0|r0 i|r0 i]; try reflexivity. destruct d; [reflexivity|discriminate D]. }
    assert (HB : handle_by_key S o k (disc_of q) = LOk (search S p k)).
    { rewrite DA. unfold handle_by_key, search. rewrite E. destruct k; reflexivity. }
    pose proof (get_child_spec S st r k (disc_of q) o R H (conj L K)) as G.
    split.
    + rewrite (misses_get S st q r k R F A N). split.
      * intro Sn. destruct (get_child S r k (disc_of q) st) as [st1 [[c|]|e|]].
        -- destruct G as (G1 & G2 & (o1 & G3 & G4 & _) & _). destruct (Cached _ _ _ G1 G2 G3 G4) as (h & _ & Q). congruence.
        -- destruct G as [-> _]. reflexivity.
        -- contradiction.
        -- destruct G as (_ & _ & [Q|(h & Q & _)]); rewrite HB in Q; congruence.
      * intro Q. rewrite Q in G. destruct G as (_ & _ & G). rewrite HB in G. congruence.
    + intro h. split.
      * intros [Sn [T|T]]; [|congruence]. destruct (get_child S r k (disc_of q) st) as [st1 [[c|]|e|]] eqn:GC.
        -- exists c, st1. split; [now apply (finds_get S st q r k c st1 A N)|].
           destruct G as (G1 & G2 & (o1 & G3 & G4 & _) & _). destruct (Cached _ _ _ G1 G2 G3 G4) as (h' & Q1 & Q2). congruence.
        -- destruct G as (_ & _ & G). rewrite HB in G. congruence.
        -- contradiction.
        -- destruct G as (_ & _ & [Q|(h' & Q & T')]); rewrite HB in Q; [discriminate|]. injection Q as Q. congruence.
      * intros (c & st' & Q & Hc). pose proof (finds_h2o S st q c st' R F N Q) as (V1 & X1 & oc & B1 & B2).
        destruct (finds_sub S st q r k c st' R F A Q) as (_ & _ & o1 & G3 & G4).
        destruct (Cached _ _ _ V1 X1 G3 G4) as (h' & Q1 & Q2). assert (h' = h) by congruence. subst h'.
        split; [exact Q2|]. left. unfold hid in Hc. rewrite B1 in Hc. cbn in Hc. injection Hc as Hc. rewrite Hc in B2.
        destruct (iv_h2o _ _ V1 _ _ B2) as (o2 & _ & _ & T). congruence.
  - destruct k as [n|i]; [rewrite C in K; contradiction|]. pose proof (bit_spec S st r i o R H C) as G.
    cbn [finds misses not_bit search]. rewrite E in G. split.
    + split; intro Q.
      * destruct (bit S r i st) as [st1 [c|e|]].
        -- destruct G as (G1 & G2 & (o1 & G3 & G4) & _). destruct (Cached _ _ _ G1 G2 G3 G4) as (h & _ & Q2). cbn in Q2. congruence.
        -- destruct G as (-> & -> & _). reflexivity.
        -- contradiction.
      * rewrite Q in G. tauto.
    + intro h. split.
      * intros [Sn _]. destruct (bit S r i st) as [st1 [c|e|]].
        -- exists c, st1. split; [reflexivity|]. destruct G as (G1 & G2 & (o1 & G3 & G4) & _).
           destruct (Cached _ _ _ G1 G2 G3 G4) as (h' & Q1 & Q2). cbn in Q2. congruence.
        -- destruct G as (_ & _ & _ & G). congruence.
        -- contradiction.
      * intros (c & st' & Q & Hc). rewrite Q in G. destruct G as (G1 & G2 & (o1 & G3 & G4) & _).
        destruct (Cached _ _ _ G1 G2 G3 G4) as (h' & Q1 & Q2). cbn in Q2. split; [congruence|now right].
Qed.

(** * Discovery *)
Lemma keys_st S r st : fst (keys S r st) = discover_all S r st.
Proof. reflexivity. Qed.

Lemma listed_key S o h k : listed S (o_hid o) (o_cls o) k h <->
  (o_cls o = C_Hierarchy \/ o_cls o = C_HierarchyArray) /\ In h (s_iterate S (o_hid o)) /\ sub_handle_key S o (s_name S h) = Ok k.
Proof.
  unfold sub_handle_key. split.
  - intro L. inversion L as [h' I E1 E2|h' i I A E1 E2]; subst; [split; [now left|auto]|split; [now right|]].
    split; [exact I|]. rewrite A. reflexivity.
  - intros ([C|C] & I & E); rewrite C in *.
    + injection E as <-. now constructor.
    + destruct (array_key _ _) as [i|] eqn:A; [|discriminate]. cbn in E. injection E as <-. now constructor.
Qed.

Lemma discover_pf S st r st1 ks c p : reachable S st -> op_fits st (LKeys r) = true ->
  class st r = Some c -> hid st r = Some p -> keys S r st = (st1, ks) ->
  NoDup ks /\
  (exists xs, values S r st = (st1, xs) /\ Forall2 (fun k x => finds S st1 (LItem r k) x st1) ks xs) /\
  (forall k h, listed S p c k h -> type2cls (s_type S h) <> None -> In k ks) /\
  (consistent S -> forall k h x, listed S p c k h -> finds S st1 (LItem r k) x st1 -> hid st1 x = Some h).
Proof.
  intros R F Cl Hp Q. apply reach_inv in R.
  apply (at_elim _ _ (fun c => key_fits c (KName []) || key_fits c (KIdx 0))) in F. destruct F as (o & H & K).
  unfold class in Cl. rewrite H in Cl. cbn in Cl. injection Cl as <-. unfold hid in Hp. rewrite H in Hp. cbn in Hp. injection Hp as <-.
  assert (C : o_cls o = C_Hierarchy \/ o_cls o = C_HierarchyArray) by (destruct (o_cls o); cbn in K; try discriminate K; auto).
  destruct (discover_all_spec S st r o R H C) as (V1 & X1 & o1 & H1 & D1).
  unfold keys in Q. injection Q as <- <-. rewrite H1.
  destruct (ex_obj _ _ X1 _ _ H) as (o1' & H1' & E1 & E2 & _). rewrite H1 in H1'. injection H1' as <-.
  pose proof (iv_nodup _ _ V1 _ _ H1) as ND.
  assert (FI : forall k, key_kind (o_cls o1) k -> op_fits (discover_all S r st) (LItem r k) = true).
  { intros k KK. cbn. rewrite H1, E2. rewrite E2 in KK. destruct C as [C|C]; rewrite C in *; destruct k; cbn in *; tauto. }
  split; [exact ND|]. split; [|split].
  - unfold values. rewrite H1. exists (map snd (o_subs o1)). split; [reflexivity|].
    assert (All : forall k x, In (k, x) (o_subs o1) -> finds S (discover_all S r st) (LItem r k) x (discover_all S r st)).
    { intros k x I. pose proof (sub_in_get k _ x ND I) as G. destruct (iv_sub _ _ V1 _ _ _ _ H1 G) as (KK & _).
      exact (sub_finds S _ (LItem r k) r k x o1 V1 (FI k KK) eq_refl H1 G). }
    clear - All. induction (o_subs o1) as [|[k x] l IH]; cbn [map fst snd]; [constructor|].
    constructor; [apply All; now left|]. apply IH. intros k' x' I. apply All. now right.
  - intros k h L T. rewrite listed_key in L. destruct L as (_ & I & SK).
    destruct (sub_get k (o_subs o1)) as [x|] eqn:G; [apply sub_get_in in G; now apply (in_map fst) in G|].
    exfalso. rewrite <- E1 in I. rewrite <- (sub_key_ext S o o1 _ E2 E1) in SK. exact (iv_disc _ _ V1 _ _ H1 D1 h k I SK T G).
  - intros Cs k h x L Q. pose proof L as L'. rewrite listed_key in L'. destruct L' as (_ & I & SK).
    destruct (sub_key_answers S o h k C I SK) as [_ KK].
    assert (KK1 : key_kind (o_cls o1) k) by now rewrite E2.
    destruct (finds_sub S _ (LItem r k) r k x _ V1 (FI k KK1) eq_refl Q) as (_ & _ & o2 & H2 & G).
    destruct (iv_sub _ _ V1 _ _ _ _ H2 G) as (_ & oc & B1 & B2 & _).
    assert (o2 = o1) by congruence. subst o2. unfold hid. rewrite B1. cbn. f_equal. rewrite E1, E2 in B2.
    exact (Cs _ _ _ _ _ (kind_typed _ _ _ _ _ R H KK) B2 (ans_listed _ _ _ _ _ L)).
Qed.

(** * Iterating an array *)
Lemma insert_sorted_in i l j : In j (insert_sorted i l) <-> j = i \/ In j l.
Proof.
  induction l as [|x l IH]; cbn; [intuition congruence|]. destruct (i <=? x); cbn; [intuition congruence|]. rewrite IH. intuition congruence.
Qed.
Lemma insert_sorted_lt i l : StronglySorted Z.lt l -> ~ In i l -> StronglySorted Z.lt (insert_sorted i l).
Proof.
  induction l as [|x l IH]; intros SS N; cbn; [repeat constructor|]. inversion SS as [|? ? SS' F]; subst.
  destruct (Z.leb_spec i x).
  - constructor; [exact SS|]. assert (i <> x) by (intro; subst; apply N; now left).
    constructor; [lia|]. rewrite Forall_forall in *. intros y Y. specialize (F y Y). lia.
  - constructor; [apply IH; [exact SS'|]; intro Q; apply N; now right|].
    rewrite Forall_forall in *. intros y Y. apply insert_sorted_in in Y as [->|Y]; [lia|auto].
Qed.
Lemma sort_keys_spec ks : NoDup ks -> StronglySorted Z.lt (sort_keys ks) /\ forall i, In i (sort_keys ks) <-> In (KIdx i) ks.
Proof.
  unfold sort_keys. induction ks as [|[n|i] ks IH]; intro ND; cbn.
  - split; [constructor|tauto].
  - inversion ND; subst. destruct (IH H2) as [A B]. split; [exact A|]. intro i. rewrite B. split; [auto|]. intros [Q|Q]; [discriminate|auto].
  - inversion ND; subst. destruct (IH H2) as [A B]. split.
    + apply insert_sorted_lt; [exact A|]. now rewrite B.
    + intro j. rewrite insert_sorted_in, B. split; intros [Q|Q]; auto; [left; congruence|injection Q as ->; auto].
Qed.

Lemma getitems_cached S r o st is : inv S st -> nth_error (l_objs st) r = Some o ->
  (forall i, In i is -> sub_get (KIdx i) (o_subs o) <> None) ->
  exists cs, getitems S r is st = (st, LOk cs) /\ Forall2 (fun i c => finds S st (LItem r (KIdx i)) c st) is cs.
Proof.
  intros V H. induction is as [|i is IH]; intro F; cbn [getitems].
  - exists []. auto.
  - destruct (sub_get (KIdx i) (o_subs o)) as [c|] eqn:G; [|exfalso; apply (F i); [now left|exact G]].
    assert (Q : getitem S r (KIdx i) st = (st, LOk c)) by (unfold getitem, get_child; rewrite H, G; reflexivity).
    rewrite Q. destruct IH as (cs & E & F2); [intros j J; apply F; now right|]. rewrite E. exists (c :: cs).
    split; [reflexivity|]. constructor; [exact Q|exact F2].
Qed.

Lemma iter_pf S st r st1 ks : reachable S st -> op_fits st (LIter r) = true -> keys S r st = (st1, ks) ->
  exists is cs, iter_array S r st = (st1, LOk cs) /\ StronglySorted Z.lt is /\
    (forall i, In i is <-> In (KIdx i) ks) /\ List.length is = List.length ks /\
    Forall2 (fun i c => finds S st1 (LItem r (KIdx i)) c st1) is cs.
Proof.
  intros R F Q. apply reach_inv in R. apply (at_elim _ _ (fun c => key_fits c (KIdx 0))) in F. destruct F as (o & H & K).
  assert (C : o_cls o = C_HierarchyArray) by (destruct (o_cls o); cbn in K; congruence).
  destruct (discover_all_spec S st r o R H (or_intror C)) as (V1 & X1 & o1 & H1 & D1).
  unfold iter_array. rewrite Q. unfold keys in Q. injection Q as <- <-. rewrite H1.
  pose proof (iv_nodup _ _ V1 _ _ H1) as ND. destruct (sort_keys_spec _ ND) as [SS IN].
  destruct (getitems_cached S r o1 (discover_all S r st) (sort_keys (map fst (o_subs o1))) V1 H1) as (cs & E & F2).
  { intros i I G. apply IN in I. apply sub_get_none in G. contradiction. }
  exists (sort_keys (map fst (o_subs o1))), cs. split; [exact E|]. split; [exact SS|]. split; [exact IN|]. split; [|exact F2].
  assert (AllIdx : forall k, In k (map fst (o_subs o1)) -> exists i, k = KIdx i).
  { intros k I. apply in_map_iff in I. destruct I as ([k' x] & Ek & I). cbn in Ek. subst k'.
    destruct (iv_sub _ _ V1 _ _ _ _ H1 (sub_in_get k _ x ND I)) as (KK & _).
    destruct (ex_obj _ _ X1 _ _ H) as (o1' & H1' & _ & E2 & _). rewrite H1 in H1'. injection H1' as <-.
    rewrite E2, C in KK. destruct k as [n|i]; [contradiction|]. eauto. }
  clear - AllIdx. unfold sort_keys. induction (map fst (o_subs o1)) as [|k l IH]; [reflexivity|].
  destruct (AllIdx k (or_introl eq_refl)) as [i ->]. cbn.
  assert (LI : forall i l, List.length (insert_sorted i l) = Datatypes.S (List.length l)).
  { intros j m. induction m as [|x m IHm]; cbn; [reflexivity|]. destruct (j <=? x); cbn; [reflexivity|now rewrite IHm]. }
  rewrite LI, IH; [reflexivity|]. intros k I. apply AllIdx. now right.
Qed.

(** * Paths *)
Definition is_package (S : sim) (h : nat) : bool := match s_type S h with T_PACKAGE => true | _ => false end.

Lemma path_pf S st q r k c st1 p pp : reachable S st -> op_fits st q = true -> asked q = Some (r, k) -> finds S st q c st1 ->
  hid st c = None -> hid st r = Some p -> path st r = Some pp ->
  path st1 c = Some (joined pp (is_package S p) k).
Proof.
  intros R F A Q N Hp Hpp. apply reach_inv in R. destruct (fits_cases _ _ _ _ F A) as (o & H & K & Case).
  unfold hid in Hp. rewrite H in Hp. cbn in Hp. injection Hp as Hp. unfold path in Hpp. rewrite H in Hpp. cbn in Hpp. injection Hpp as Hpp.
  assert (CP : child_path S o k = joined pp (is_package S p) k).
  { unfold child_path, joined, is_package. rewrite Hp, Hpp. destruct k; [|reflexivity]. destruct (s_type S p); reflexivity. }
  assert (NC : forall x, nth_error (l_objs st) c = Some x -> False).
  { intros x E. unfold hid in N. rewrite E in N. discriminate N. }
  destruct Case as [[L Nb]|[C ->]].
  - rewrite (finds_get S st q r k c st1 A Nb) in Q. unfold get_child in Q. rewrite H in Q.
    destruct (sub_get k (o_subs o)) as [c0|] eqn:G.
    { injection Q as <- <-. destruct (iv_sub _ _ R _ _ _ _ H G) as (_ & oc & B & _). exfalso. exact (NC _ B). }
    destruct (handle_by_key S o k (disc_of q)) as [[h|]|e|]; try discriminate Q.
    pose proof (make_spec S st h (Some (child_path S o k)) R) as M.
    destruct (make_sim_object S st h (Some (child_path S o k))) as [st2 [c2|e|]]; try discriminate Q.
    injection Q as <- <-. destruct M as (_ & _ & _ & Old & [[G2 ->]|(G2 & cl & T & New)]).
    { destruct (iv_h2o _ _ R _ _ G2) as (oc & B & _). exfalso. exact (NC _ B). }
    unfold path. rewrite (cache_nth _ _ _ _ _ c2 (Old _ _ H)). destruct (Nat.eqb_spec r c2) as [->|].
    { exfalso. exact (NC _ H). }
    rewrite New. cbn. now rewrite CP.
  - destruct k as [n|i]; [rewrite C in K; contradiction|]. cbn [finds] in Q. unfold bit in Q. rewrite H in Q.
    destruct (sub_get (KIdx i) (o_subs o)) as [c0|] eqn:G.
    { injection Q as <- <-. destruct (iv_sub _ _ R _ _ _ _ H G) as (_ & oc & B & _). exfalso. exact (NC _ B). }
    destruct (s_by_index S (o_hid o) i) as [h|]; [|discriminate Q]. injection Q as <- <-.
    unfold path. set (ob := Obj h C_Logic (child_path S o (KIdx i)) [] false).
    assert (Old : nth_error (l_objs (LSt (l_objs st ++ [ob]) (l_h2o st))) r = Some o).
    { cbn. rewrite nth_error_app1; [exact H|exact (nth_lt _ _ _ H)]. }
    rewrite (cache_nth _ _ _ _ _ _ Old). destruct (Nat.eqb_spec r (List.length (l_objs st))) as [E|].
    { exfalso. exact (NC _ (eq_trans (f_equal (nth_error (l_objs st)) (eq_sym E)) H)). }
    cbn [l_objs]. rewrite nth_error_app2 by lia. rewrite Nat.sub_diag. cbn [option_map nth_error]. unfold ob. cbn [o_path]. now rewrite CP.
Qed.

(** * Attributes *)
Lemma setattr_pf S r n st : underscore n = false ->
  snd (setattr S r n st) = LErr AttributeError \/ snd (setattr S r n st) = LNotImpl \/
  nth_error (l_objs st) r = None.
Proof.
  intro U. unfold setattr, getattr. rewrite U. unfold get_child.
  destruct (nth_error (l_objs st) r) as [o|]; [|auto]. cbn [or_raise].
  destruct (sub_get (KName n) (o_subs o)); [cbn; auto|]. cbn [handle_by_key].
  destruct (s_by_name S (o_hid o) n AUTO) as [h|]; [|cbn; auto].
  unfold make_sim_object. destruct (h2o_get h (l_h2o st)); [cbn; auto|].
  destruct (type2cls (s_type S h)); cbn; auto.
Qed.

(** * Keys of array elements *)
Lemma after_prefix_iff p : forall s t, after_prefix p s = Some t <-> s = p ++ t.
Proof.
  induction p as [|x p IH]; intros s t; cbn; [split; [intros [= ->]; reflexivity|intros ->; reflexivity]|].
  destruct s as [|y s]; [split; intro H; discriminate H|]. destruct (Z.eqb_spec x y) as [->|N].
  - rewrite IH. split; [intros ->; reflexivity|intros [= ->]; reflexivity].
  - split; [discriminate|intros [= E _]; congruence].
Qed.

Lemma digits_then_iff tail s ds : digits_then tail s = Some ds <-> s = ds ++ tail /\ decimal ds.
Proof.
  unfold digits_then, decimal. set (n := (List.length s - List.length tail)%nat).
  assert (Dg : forall l, forallb is_digit l = true <-> Forall (fun c => 48 <= c <= 57) l).
  { intro l. rewrite forallb_forall, Forall_forall. unfold is_digit.
    split; intros H x X; specialize (H x X); rewrite ?andb_true_iff, ?Z.leb_le in *; lia. }
  split.
  - destruct (pystr_eqb (skipn n s) tail && negb (pystr_eqb (firstn n s) []) && forallb is_digit (firstn n s)) eqn:E; [|discriminate].
    intros [= <-]. apply andb_prop in E as [E E3]. apply andb_prop in E as [E1 E2].
    apply pystr_eqb_eq in E1. rewrite <- E1 at 1. rewrite firstn_skipn. split; [reflexivity|]. split; [|now apply Dg].
    intro Q. rewrite Q in E2. discriminate E2.
  - intros (-> & NE & Fd). assert (En : n = List.length ds) by (unfold n; rewrite app_length; lia).
    rewrite En, firstn_app, skipn_app, firstn_all, skipn_all, Nat.sub_diag. cbn [firstn skipn app]. rewrite app_nil_r.
    assert (E1 : pystr_eqb tail tail = true) by now apply pystr_eqb_eq.
    assert (E2 : pystr_eqb ds [] = false) by (destruct ds; [congruence|reflexivity]).
    rewrite E1, E2. cbn. apply Dg in Fd. now rewrite Fd.
Qed.

Lemma match_end_some tail s ds : match_end tail s = Some ds ->
  decimal ds /\ (s = ds ++ tail \/ s = ds ++ tail ++ [10]).
Proof.
  unfold match_end. destruct (digits_then tail s) as [d|] eqn:E.
  - intros [= <-]. apply digits_then_iff in E. tauto.
  - destruct (rev s) as [|c r] eqn:Rv; [discriminate|]. destruct (Z.eqb_spec c 10) as [->|]; [|discriminate].
    intro H. apply digits_then_iff in H as [H D]. split; [exact D|]. right.
    apply (f_equal (@rev Z)) in Rv. rewrite rev_involutive in Rv. cbn in Rv. rewrite Rv, H, app_assoc. reflexivity.
Qed.
Lemma match_end_ok tail ds : decimal ds -> match_end tail (ds ++ tail) = Some ds.
Proof. intro D. unfold match_end. assert (E : digits_then tail (ds ++ tail) = Some ds) by now apply digits_then_iff. now rewrite E. Qed.

Lemma array_key_sound name s i : array_key name s = Ok i ->
  exists ds nl, decimal ds /\ value10 ds = i /\ (nl = [] \/ nl = [10]) /\
  (s = name ++ lit "__" ++ ds ++ nl \/ s = name ++ lit "[" ++ ds ++ lit "]" ++ nl \/
   lower s = lower name ++ lit "(" ++ ds ++ lit ")" ++ nl).
Proof.
  unfold array_key. intro H.
  destruct (after_prefix (name ++ lit "__") s) as [t1|] eqn:A1; [destruct (match_end [] t1) as [d1|] eqn:M1|].
  - injection H as <-. apply after_prefix_iff in A1. apply match_end_some in M1 as [D M1]. rewrite <- app_assoc in A1.
    destruct M1 as [M1|M1]; [exists d1, []|exists d1, [10]]; (split; [exact D|]; split; [reflexivity|]; split; [auto|]; left; rewrite A1, M1; reflexivity).
  - destruct (after_prefix (lower name ++ lit "(") (lower s)) as [t2|] eqn:A2; [destruct (match_end (lit ")") t2) as [d2|] eqn:M2|].
    + injection H as <-. apply after_prefix_iff in A2. apply match_end_some in M2 as [D M2]. rewrite <- app_assoc in A2.
      destruct M2 as [M2|M2]; [exists d2, []|exists d2, [10]]; (split; [exact D|]; split; [reflexivity|]; split; [auto|]; right; right; rewrite A2, M2; rewrite ?app_nil_r; reflexivity).
    + destruct (after_prefix (name ++ lit "[") s) as [t3|] eqn:A3; [destruct (match_end (lit "]") t3) as [d3|] eqn:M3|]; try discriminate H.
      injection H as <-. apply after_prefix_iff in A3. apply match_end_some in M3 as [D M3]. rewrite <- app_assoc in A3.
      destruct M3 as [M3|M3]; [exists d3, []|exists d3, [10]]; (split; [exact D|]; split; [reflexivity|]; split; [auto|]; right; left; rewrite A3, M3; rewrite ?app_nil_r; reflexivity).
    + destruct (after_prefix (name ++ lit "[") s) as [t3|] eqn:A3; [destruct (match_end (lit "]") t3) as [d3|] eqn:M3|]; try discriminate H.
      injection H as <-. apply after_prefix_iff in A3. apply match_end_some in M3 as [D M3]. rewrite <- app_assoc in A3.
      destruct M3 as [M3|M3]; [exists d3, []|exists d3, [10]]; (split; [exact D|]; split; [reflexivity|]; split; [auto|]; right; left; rewrite A3, M3; rewrite ?app_nil_r; reflexivity).
  - destruct (after_prefix (lower name ++ lit "(") (lower s)) as [t2|] eqn:A2; [destruct (match_end (lit ")") t2) as [d2|] eqn:M2|].
    + injection H as <-. apply after_prefix_iff in A2. apply match_end_some in M2 as [D M2]. rewrite <- app_assoc in A2.
      destruct M2 as [M2|M2]; [exists d2, []|exists d2, [10]]; (split; [exact D|]; split; [reflexivity|]; split; [auto|]; right; right; rewrite A2, M2; rewrite ?app_nil_r; reflexivity).
    + destruct (after_prefix (name ++ lit "[") s) as [t3|] eqn:A3; [destruct (match_end (lit "]") t3) as [d3|] eqn:M3|]; try discriminate H.
      injection H as <-. apply after_prefix_iff in A3. apply match_end_some in M3 as [D M3]. rewrite <- app_assoc in A3.
      destruct M3 as [M3|M3]; [exists d3, []|exists d3, [10]]; (split; [exact D|]; split; [reflexivity|]; split; [auto|]; right; left; rewrite A3, M3; rewrite ?app_nil_r; reflexivity).
    + destruct (after_prefix (name ++ lit "[") s) as [t3|] eqn:A3; [destruct (match_end (lit "]") t3) as [d3|] eqn:M3|]; try discriminate H.
      injection H as <-. apply after_prefix_iff in A3. apply match_end_some in M3 as [D M3]. rewrite <- app_assoc in A3.
      destruct M3 as [M3|M3]; [exists d3, []|exists d3, [10]]; (split; [exact D|]; split; [reflexivity|]; split; [auto|]; right; left; rewrite A3, M3; rewrite ?app_nil_r; reflexivity).
Qed.

Lemma str_int_decimal i : 0 <= i -> decimal (py_str_int i) /\ num_of (py_str_int i) = i.
Proof.
  intro H. unfold py_str_int. destruct (Z.ltb_spec i 0); [lia|]. rewrite Z.abs_eq by lia. cbn [app].
  destruct (dec_digits i H) as [D V]. split; [exact D|exact V].
Qed.
Lemma prefix_other name a b t : a <> b -> forall s, after_prefix (name ++ [a] ++ s) (name ++ b :: t) = None.
Proof.
  intros N s. destruct (after_prefix (name ++ [a] ++ s) (name ++ b :: t)) as [x|] eqn:E; [|reflexivity].
  apply after_prefix_iff in E. rewrite <- app_assoc in E. apply app_inv_head in E. injection E as E _. congruence.
Qed.
Lemma lower_digits ds : decimal ds -> lower ds = ds.
Proof.
  intros [_ F]. unfold lower. induction F as [|c l Hc F IH]; [reflexivity|]. cbn. rewrite IH. f_equal.
  unfold lower_char. destruct ((65 <=? c) && (c <=? 90)) eqn:E; [|reflexivity].
  apply andb_prop in E as [E _]. apply Z.leb_le in E. lia.
Qed.

Lemma array_names_pf name i : 0 <= i -> Forall (fun s => array_key name s = Ok i) (elem_names name i).
Proof.
  intro H. destruct (str_int_decimal i H) as [D V]. unfold elem_names, array_key.
  constructor; [|constructor; [|constructor; [|constructor]]].
  - change (lit "[") with [91]. change (lit "__") with ([95] ++ [95]). change (lit "(") with [40].
    assert (E1 : after_prefix (name ++ [95] ++ [95]) (name ++ [91] ++ py_str_int i ++ lit "]") = None)
      by exact (prefix_other name 95 91 _ ltac:(lia) [95]).
    rewrite E1.
    assert (E2 : after_prefix (lower name ++ [40]) (lower (name ++ [91] ++ py_str_int i ++ lit "]")) = None).
    { unfold lower. rewrite map_app. change [40] with ([40] ++ @nil Z). cbn [app map]. apply (prefix_other (map lower_char name) 40 _ _); vm_compute; discriminate. }
    rewrite E2. assert (E3 : after_prefix (name ++ [91]) (name ++ [91] ++ py_str_int i ++ lit "]") = Some (py_str_int i ++ lit "]")).
    { apply after_prefix_iff. now rewrite <- app_assoc. }
    rewrite E3, match_end_ok by exact D. now rewrite V.
  - change (lit "[") with [91]. change (lit "__") with ([95] ++ [95]). change (lit "(") with [40].
    assert (E1 : after_prefix (name ++ [95] ++ [95]) (name ++ [40] ++ py_str_int i ++ lit ")") = None)
      by exact (prefix_other name 95 40 _ ltac:(lia) [95]).
    rewrite E1.
    assert (E2 : after_prefix (lower name ++ [40]) (lower (name ++ [40] ++ py_str_int i ++ lit ")")) = Some (py_str_int i ++ lit ")")).
    { apply after_prefix_iff. unfold lower. rewrite !map_app, <- app_assoc. f_equal. f_equal.
      change (map lower_char (py_str_int i)) with (lower (py_str_int i)). now rewrite lower_digits. }
    rewrite E2, match_end_ok by exact D. now rewrite V.
  - assert (E1 : after_prefix (name ++ lit "__") (name ++ lit "__" ++ py_str_int i) = Some (py_str_int i ++ [])).
    { apply after_prefix_iff. rewrite <- app_assoc. now rewrite app_nil_r. }
    rewrite E1, match_end_ok by exact D. now rewrite V.
Qed.

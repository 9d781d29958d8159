(** Callbacks of the simulator: the invariant. *)
From Verif Require Import Base GpiCbModel GpiCbSpec.
From Coq Require Import Arith Lia.
Open Scope nat_scope.

Lemma upd_same {A} (f : nat -> A) n a : upd f n a n = a.
Proof. unfold upd. now rewrite Nat.eqb_refl. Qed.
Lemma upd_other {A} (f : nat -> A) n a m : m <> n -> upd f n a m = f m.
Proof. intro H. unfold upd. apply Nat.eqb_neq in H. now rewrite H. Qed.

Record Inv (v : bool) (s : st) : Prop := {
  i_new : forall o, c_next s <= o -> c_objs s o = None /\ c_data s o = false /\ c_armed s o = false;
  i_armed : forall o, c_armed s o = true -> c_objs s o <> None;
  i_queue : forall o, In o (c_queue s) -> c_objs s o <> None /\ c_val s o = true;
  i_nodup : NoDup (c_queue s);
  i_run : forall o q, c_ctl s = Py (Some o) q -> exists x, c_objs s o = Some x /\ o_removed x = false /\
    (c_val s o = true -> c_armed s o = true) /\ (c_val s o = false -> v = false -> c_armed s o = false) /\
    (if q then exists l, c_queue s = o :: l else ~ In o (c_queue s));
  i_live : forall o x, c_objs s o = Some x -> o_removed x = false -> c_data s o = true /\
    (running s o \/ (0 < c_cbs s (o_trig x) /\ c_hdl s (o_trig x) = Some o));
  i_rem : forall o x, c_objs s o = Some x -> o_removed x = true -> c_data s o = false;
  i_hdl : forall t h, 0 < c_cbs s t -> c_hdl s t = Some h -> c_objs s h = Some (Obj t false) /\ c_armed s h = true /\ ~ running s h;
  i_uses : forall o, uses o (c_log s) <= 1 /\ (c_next s <= o -> uses o (c_log s) = 0) /\
    (c_data s o = true -> ~ running s o -> uses o (c_log s) = 0) }.

Lemma init_inv v : Inv v init.
Proof.
  constructor; cbn; try discriminate; try (intros; contradiction); try (intros; lia); auto.
  constructor.
Qed.

Lemma erase_in o l x : In x (erase o l) -> In x l.
Proof. induction l as [|y l IH]; [tauto|]. cbn [erase]. destruct (y =? o); cbn; tauto. Qed.
Lemma erase_nodup o l : NoDup l -> NoDup (erase o l).
Proof.
  induction 1 as [|y l N D IH]; cbn [erase]; [constructor|]. destruct (y =? o); [assumption|].
  constructor; [|assumption]. intro H. apply N. eapply erase_in, H.
Qed.
Lemma erase_gone o l : NoDup l -> ~ In o (erase o l).
Proof.
  induction 1 as [|y l N D IH]; cbn [erase]; [tauto|]. destruct (Nat.eqb_spec y o) as [->|E]; [assumption|].
  cbn. intros [H|H]; [congruence|tauto].
Qed.
Lemma existsb_in o l : existsb (Nat.eqb o) l = true <-> In o l.
Proof.
  rewrite existsb_exists. split.
  - intros (x & H & E). apply Nat.eqb_eq in E. now subst.
  - intro H. exists o. split; [assumption|apply Nat.eqb_refl].
Qed.
Lemma uses_called o p l : uses o (Called p :: l) = (if p =? o then 1 else 0) + uses o l.
Proof. unfold uses. cbn. destruct (p =? o); reflexivity. Qed.
Lemma uses_gone o p l : uses o (Gone p :: l) = (if p =? o then 1 else 0) + uses o l.
Proof. unfold uses. cbn. destruct (p =? o); reflexivity. Qed.

Definition with_armed (s : st) (a : nat -> bool) : st :=
  St (c_objs s) (c_data s) (c_val s) a (c_next s) (c_queue s) (c_ctl s) (c_cbs s) (c_hdl s) (c_log s).
Lemma with_armed_same s : with_armed s (c_armed s) = s.
Proof. destruct s; reflexivity. Qed.
Definition free (s : st) : Prop := forall r q, c_ctl s <> Py r q.
Lemma free_run s o : free s -> ~ running s o.
Proof. intros F [q E]. exact (F _ _ E). Qed.
Lemma not_py c : (forall r q, c <> Py r q) <-> c = Idle \/ c = Loop.
Proof.
  split; [destruct c; auto; intro H; exfalso; eapply H; reflexivity|]. intros [->| ->] r q; discriminate.
Qed.

(** Control moves without Python being called for a callback; a part of the queue may have been handled. *)
Lemma quiet_inv (v : bool) (s : st) (a : nat -> bool) (l : list nat) (c : ctl) : Inv v s -> (forall o, ~ running s o) -> (forall o q, c <> Py (Some o) q) ->
  (forall o, a o = c_armed s o) -> NoDup l -> incl l (c_queue s) -> Inv v (set_ctl (set_queue (with_armed s a) l) c).
Proof.
  intros I F C A N L.
  assert (R : forall o, ~ running (set_ctl (set_queue (with_armed s a) l) c) o).
  { intros o [q E]. cbn in E. exact (C _ _ E). }
  constructor; cbn.
  - intros o H. rewrite A. now apply (i_new _ _ I).
  - intros o H. rewrite A in H. now apply (i_armed _ _ I).
  - intros o H. apply (i_queue _ _ I), L, H.
  - exact N.
  - intros o q E. elim (C _ _ E).
  - intros o x E Q. destruct (i_live _ _ I o x E Q) as [D [X|X]]; [elim (F o X)|]. split; [exact D|right; exact X].
  - intros o x E Q. exact (i_rem _ _ I o x E Q).
  - intros t h P E. destruct (i_hdl _ _ I t h P E) as (X & Y & Z). rewrite A. split; [exact X|]. split; [exact Y|apply R].
  - intro o. destruct (i_uses _ _ I o) as (X & Y & Z). split; [exact X|]. split; [exact Y|]. intros D _. apply Z; [exact D|apply F].
Qed.

(** A callback is called. *)
Lemma call_inv (v : bool) (s : st) (a : nat -> bool) (o : nat) (x : obj) (q : bool) : Inv v s -> free s -> c_objs s o = Some x -> o_removed x = false ->
  (forall p, p <> o -> a p = c_armed s p) -> (c_val s o = true -> a o = true) -> (c_val s o = false -> v = false -> a o = false) ->
  (if q then exists l, c_queue s = o :: l else ~ In o (c_queue s)) ->
  Inv v (call (with_armed s a) o x q) /\ c_log (call (with_armed s a) o x q) = Called o :: c_log s /\
  0 < c_cbs s (o_trig x) /\ c_hdl s (o_trig x) = Some o /\ c_cbs (call (with_armed s a) o x q) (o_trig x) = 0.
Proof.
  intros I F E Q A A1 A2 QQ. destruct (i_live _ _ I o x E Q) as [D [X|[P H]]]; [elim (free_run s o F X)|].
  unfold call. cbn [c_data with_armed]. rewrite D.
  split; [|cbn; rewrite upd_same; tauto].
  assert (R : forall p, running (set_ctl (log (set_cbs (with_armed s a) (o_trig x) 0) (Called o)) (Py (Some o) q)) p <-> p = o).
  { intro p. split; [intros [q' X]; cbn in X; congruence|intros ->; exists q; reflexivity]. }
  constructor.
  - intros p H0. cbn in *. destruct (i_new _ _ I p H0) as (X & Y & Z). destruct (Nat.eq_dec p o) as [->|N]; [congruence|]. rewrite A by assumption. auto.
  - intros p H0. cbn in *. destruct (Nat.eq_dec p o) as [->|N]; [congruence|]. rewrite A in H0 by assumption. now apply (i_armed _ _ I).
  - exact (i_queue _ _ I).
  - exact (i_nodup _ _ I).
  - intros p q' H0. cbn in H0. injection H0 as <- <-. exists x. cbn. tauto.
  - intros p y Ey Ry. rewrite R. cbn in *. destruct (i_live _ _ I p y Ey Ry) as [Dp [X|[Pp Hp]]]; [elim (free_run s p F X)|].
    split; [exact Dp|]. destruct (Nat.eq_dec p o) as [->|N]; [now left|right]. rewrite upd_other; [auto|]. intro T. rewrite T in Hp. congruence.
  - intros p y Ey Ry. cbn in *. exact (i_rem _ _ I p y Ey Ry).
  - intros t h P0 H0. rewrite R. cbn in P0, H0 |- *. destruct (Nat.eq_dec t (o_trig x)) as [->|N]; [rewrite upd_same in P0; lia|].
    rewrite upd_other in P0 by assumption. destruct (i_hdl _ _ I t h P0 H0) as (X & Y & Z).
    assert (h <> o). { intros ->. rewrite E in X. injection X as ->. cbn in N. congruence. }
    rewrite A by assumption. tauto.
  - intro p. rewrite R. cbn [c_log c_next c_data set_ctl log set_cbs with_armed]. rewrite uses_called.
    destruct (i_uses _ _ I p) as (X & Y & Z). destruct (Nat.eqb_spec o p) as [<-|N].
    + rewrite Z; [|exact D|now apply free_run]. split; [lia|]. split; [|tauto]. intro L. destruct (i_new _ _ I o L). congruence.
    + cbn. split; [exact X|]. split; [exact Y|]. intros Dp _. apply Z; [exact Dp|now apply free_run].
Qed.

Definition ended (y : option obj) : Prop := y = None \/ exists t, y = Some (Obj t true).
(** A Python function returns. *)
Lemma return_inv (v : bool) (s : st) (a : nat -> bool) (o : nat) (y : option obj) (q : bool) : Inv v s -> c_ctl s = Py (Some o) q -> ended y ->
  (forall p, p <> o -> a p = c_armed s p) -> (y = None -> a o = false) ->
  Inv v (handled (with_armed (set_obj (set_data s o false) o y) a) o q) /\
  c_log (handled (with_armed (set_obj (set_data s o false) o y) a) o q) = c_log s.
Proof.
  intros I C Y A Ao. destruct (i_run _ _ I o q C) as (x & E & Q & _ & _ & QQ).
  set (l := if q then match c_queue s with [] => [] | _ :: l => l end else c_queue s).
  assert (S' : handled (with_armed (set_obj (set_data s o false) o y) a) o q =
    set_ctl (set_queue (with_armed (set_obj (set_data s o false) o y) a) l) Loop).
  { subst l. unfold handled. destruct q; [destruct QQ as [l QQ]; cbn [c_queue with_armed set_obj set_data]; rewrite QQ; reflexivity|]. reflexivity. }
  rewrite S'. clear S'. split; [|reflexivity].
  assert (L : ~ In o l /\ NoDup l /\ incl l (c_queue s)).
  { subst l. pose proof (i_nodup _ _ I) as N. destruct q; [|split; [exact QQ|split; [exact N|apply incl_refl]]].
    destruct QQ as [l QQ]. rewrite QQ in *. inversion N; subst. split; [assumption|split; [assumption|apply incl_tl, incl_refl]]. }
  destruct L as (L1 & L2 & L3). clearbody l.
  assert (R : forall p, ~ running (set_ctl (set_queue (with_armed (set_obj (set_data s o false) o y) a) l) Loop) p) by (intros p [q' X]; discriminate X).
  assert (U : forall p, running s p <-> p = o).
  { intro p. split; [intros [q' X]; congruence|intros ->; exists q; exact C]. }
  constructor.
  - intros p H0. cbn in *. destruct (i_new _ _ I p H0) as (X & Y0 & Z). destruct (Nat.eq_dec p o) as [->|N]; [congruence|].
    rewrite !upd_other, A by assumption. auto.
  - intros p H0. cbn in *. destruct (Nat.eq_dec p o) as [->|N].
    + rewrite upd_same. intro K. rewrite (Ao K) in H0. discriminate.
    + rewrite upd_other by assumption. rewrite A in H0 by assumption. now apply (i_armed _ _ I).
  - intros p H0. cbn in *. rewrite upd_other by (intros ->; tauto). apply (i_queue _ _ I), L3, H0.
  - exact L2.
  - intros p q' H0. discriminate H0.
  - intros p z Ez Rz. cbn in Ez |- *. destruct (Nat.eq_dec p o) as [->|N].
    + rewrite upd_same in Ez. destruct Y as [->|[t ->]]; [discriminate|]. injection Ez as <-. discriminate Rz.
    + rewrite upd_other in Ez by assumption. rewrite upd_other by assumption.
      destruct (i_live _ _ I p z Ez Rz) as [D [X|X]]; [apply U in X; congruence|]. split; [exact D|right; exact X].
  - intros p z Ez Rz. cbn in Ez |- *. destruct (Nat.eq_dec p o) as [->|N]; [apply upd_same|].
    rewrite upd_other in Ez by assumption. rewrite upd_other by assumption. exact (i_rem _ _ I p z Ez Rz).
  - intros t h P0 H0. cbn in P0, H0. destruct (i_hdl _ _ I t h P0 H0) as (X & Y0 & Z). rewrite U in Z. cbn.
    rewrite upd_other, A by assumption. split; [exact X|]. split; [exact Y0|apply R].
  - intro p. cbn [c_log c_next c_data set_ctl set_queue with_armed set_obj set_data].
    destruct (i_uses _ _ I p) as (X & Y0 & Z). split; [exact X|]. split; [exact Y0|]. intros Dp _.
    destruct (Nat.eq_dec p o) as [->|N]; [rewrite upd_same in Dp; discriminate|]. rewrite upd_other in Dp by assumption.
    apply Z; [exact Dp|]. rewrite U. exact N.
Qed.

(** A removed callback which is no value change fires. *)
Lemma expire_inv (v : bool) (s : st) (a : nat -> bool) (o : nat) (x : obj) (y : option obj) : Inv v s -> free s -> c_objs s o = Some x ->
  o_removed x = true -> c_val s o = false -> ended y ->
  (forall p, p <> o -> a p = c_armed s p) -> (y = None -> a o = false) ->
  Inv v (handled (with_armed (set_obj s o y) a) o false).
Proof.
  intros I F E Q V Y A Ao. unfold handled.
  assert (R : forall p, ~ running (set_ctl (with_armed (set_obj s o y) a) Loop) p) by (intros p [q' X]; discriminate X).
  assert (L : ~ In o (c_queue s)) by (intro K; apply (i_queue _ _ I) in K; destruct K; congruence).
  pose proof (i_rem _ _ I o x E Q) as D.
  constructor.
  - intros p H0. cbn in *. destruct (i_new _ _ I p H0) as (X & Y0 & Z). destruct (Nat.eq_dec p o) as [->|N]; [congruence|].
    rewrite !upd_other, A by assumption. auto.
  - intros p H0. cbn in *. destruct (Nat.eq_dec p o) as [->|N].
    + rewrite upd_same. intro K. rewrite (Ao K) in H0. discriminate.
    + rewrite upd_other by assumption. rewrite A in H0 by assumption. now apply (i_armed _ _ I).
  - intros p H0. cbn in *. rewrite upd_other by (intros ->; tauto). apply (i_queue _ _ I), H0.
  - exact (i_nodup _ _ I).
  - intros p q' H0. discriminate H0.
  - intros p z Ez Rz. cbn in Ez |- *. destruct (Nat.eq_dec p o) as [->|N].
    + rewrite upd_same in Ez. destruct Y as [->|[t ->]]; [discriminate|]. injection Ez as <-. discriminate Rz.
    + rewrite upd_other in Ez by assumption.
      destruct (i_live _ _ I p z Ez Rz) as [Dp [X|X]]; [elim (free_run s p F X)|]. split; [exact Dp|right; exact X].
  - intros p z Ez Rz. cbn in Ez |- *. destruct (Nat.eq_dec p o) as [->|N]; [exact D|].
    rewrite upd_other in Ez by assumption. exact (i_rem _ _ I p z Ez Rz).
  - intros t h P0 H0. cbn in P0, H0. destruct (i_hdl _ _ I t h P0 H0) as (X & Y0 & Z). cbn.
    assert (h <> o) by (intros ->; rewrite E in X; injection X as ->; discriminate Q).
    rewrite upd_other, A by assumption. split; [exact X|]. split; [exact Y0|apply R].
  - intro p. cbn [c_log c_next c_data set_ctl with_armed set_obj].
    destruct (i_uses _ _ I p) as (X & Y0 & Z). split; [exact X|]. split; [exact Y0|]. intros Dp _.
    apply Z; [exact Dp|now apply free_run].
Qed.

(** A callback is deregistered. *)
Lemma drop_inv (v : bool) (s : st) (a : nat -> bool) (t h : nat) (y : option obj) (l : list nat) : Inv v s -> c_cbs s t = 1 -> c_hdl s t = Some h ->
  ended y -> (forall p, p <> h -> a p = c_armed s p) -> (y = None -> a h = false) ->
  (forall p, p <> h -> In p l <-> In p (c_queue s)) -> ~ In h l -> NoDup l ->
  (forall o q, c_ctl s = Py (Some o) q -> q = true -> exists l', l = o :: l') ->
  Inv v (set_hdl (log (with_armed (set_obj (set_queue (set_data (set_cbs s t 0) h false) l) h y) a) (Gone h)) t None).
Proof.
  intros I P H Y A Ao L1 L2 L3 L4.
  destruct (i_hdl _ _ I t h) as (E & Ah & NR); [lia|exact H|].
  destruct (i_live _ _ I h _ E eq_refl) as [D _].
  set (s' := set_hdl _ _ _).
  assert (U : forall p, running s' p <-> running s p) by (intro p; reflexivity).
  constructor.
  - intros p H0. cbn in *. destruct (i_new _ _ I p H0) as (X & Y0 & Z). destruct (Nat.eq_dec p h) as [->|N]; [congruence|].
    rewrite !upd_other, A by assumption. auto.
  - intros p H0. cbn in *. destruct (Nat.eq_dec p h) as [->|N].
    + rewrite upd_same. intro K. rewrite (Ao K) in H0. discriminate.
    + rewrite upd_other by assumption. rewrite A in H0 by assumption. now apply (i_armed _ _ I).
  - intros p H0. cbn in *. destruct (Nat.eq_dec p h) as [->|N]; [tauto|]. rewrite upd_other by assumption. now apply (i_queue _ _ I), L1.
  - exact L3.
  - intros o q C. cbn in C. destruct (i_run _ _ I o q C) as (x & Ex & Qx & V1 & V2 & QQ).
    assert (N : o <> h) by (intros ->; apply NR; exists q; exact C).
    exists x. cbn. rewrite upd_other, A by assumption. split; [exact Ex|]. split; [exact Qx|]. split; [exact V1|]. split; [exact V2|].
    destruct q; [exact (L4 o true C eq_refl)|]. now rewrite L1.
  - intros p z Ez Rz. rewrite U. cbn in Ez |- *. destruct (Nat.eq_dec p h) as [->|N].
    + rewrite upd_same in Ez. destruct Y as [->|[t' ->]]; [discriminate|]. injection Ez as <-. discriminate Rz.
    + rewrite upd_other in Ez by assumption. rewrite upd_other by assumption.
      destruct (i_live _ _ I p z Ez Rz) as [Dp [X|[X1 X2]]]; [split; [exact Dp|left; exact X]|]. split; [exact Dp|right].
      assert (o_trig z <> t) by (intros T; rewrite T in X2; congruence). rewrite !upd_other by assumption. tauto.
  - intros p z Ez Rz. cbn in Ez |- *. destruct (Nat.eq_dec p h) as [->|N]; [apply upd_same|].
    rewrite upd_other in Ez by assumption. rewrite upd_other by assumption. exact (i_rem _ _ I p z Ez Rz).
  - intros u k P0 H0. rewrite U. cbn in P0, H0. destruct (Nat.eq_dec u t) as [->|N]; [rewrite upd_same in P0; lia|].
    rewrite upd_other in P0 by assumption. rewrite upd_other in H0 by assumption. destruct (i_hdl _ _ I u k P0 H0) as (X & Y0 & Z).
    assert (k <> h) by (intros ->; rewrite E in X; congruence). cbn. rewrite upd_other, A by assumption. tauto.
  - intro p. rewrite U. change (c_log s') with (Gone h :: c_log s). change (c_next s') with (c_next s). change (c_data s') with (upd (c_data s) h false).
    rewrite uses_gone. destruct (i_uses _ _ I p) as (X & Y0 & Z). destruct (Nat.eqb_spec h p) as [<-|N].
    + rewrite Z by assumption. rewrite upd_same. split; [lia|]. split; [|discriminate]. intro K. destruct (i_new _ _ I h K). congruence.
    + cbn. rewrite upd_other by auto. tauto.
Qed.

(** A callback is registered. *)
Lemma register_inv (v : bool) (s : st) (t : nat) (w ok : bool) : Inv v s -> Inv v (py_register s t w ok).
Proof.
  intro I. unfold py_register. cbv zeta. destruct (Nat.eqb_spec (c_cbs s t) 0) as [Z|NZ].
  2:{ constructor.
      - exact (i_new _ _ I).
      - exact (i_armed _ _ I).
      - exact (i_queue _ _ I).
      - exact (i_nodup _ _ I).
      - exact (i_run _ _ I).
      - intros p z Ez Rz. cbn in *. destruct (i_live _ _ I p z Ez Rz) as [Dp [X|[X1 X2]]]; [split; [exact Dp|left; exact X]|].
        split; [exact Dp|right]. split; [|exact X2]. destruct (Nat.eq_dec (o_trig z) t) as [->|N]; [rewrite upd_same; lia|now rewrite upd_other].
      - exact (i_rem _ _ I).
      - intros u k P0 H0. cbn in P0, H0. apply (i_hdl _ _ I); [|exact H0]. destruct (Nat.eq_dec u t) as [->|N]; [lia|now rewrite upd_other in P0].
      - exact (i_uses _ _ I). }
  rewrite Z. cbn [c_next set_cbs]. set (o := c_next s).
  assert (LT : forall p, c_objs s p <> None -> p <> o).
  { intros p H ->. apply H. exact (proj1 (i_new _ _ I o (le_n _))). }
  assert (LQ : forall p, In p (c_queue s) -> p <> o) by (intros p H; apply LT; exact (proj1 (i_queue _ _ I p H))).
  assert (LR : forall p q, c_ctl s = Py (Some p) q -> p <> o).
  { intros p q H. apply LT. destruct (i_run _ _ I p q H) as (x & E & _). rewrite E. discriminate. }
  destruct (i_new _ _ I o (le_n _)) as (No & Nd & Na).
  destruct (i_uses _ _ I o) as (_ & U0 & _). specialize (U0 (le_n _)).
  destruct ok.
  - set (s' := set_hdl _ _ _).
    assert (U : forall p, running s' p <-> running s p) by (intro p; reflexivity).
    constructor.
    + intros p H. cbn in *. assert (p <> o) by (fold o in H; lia). rewrite !upd_other by assumption. apply (i_new _ _ I). fold o. lia.
    + intros p H. cbn in *. fold o in H. destruct (Nat.eq_dec p o) as [->|N]; [rewrite upd_same; discriminate|].
      rewrite upd_other in H by assumption. rewrite upd_other by assumption. now apply (i_armed _ _ I).
    + intros p H. cbn in *. fold o. pose proof (LQ p H). rewrite !upd_other by assumption. now apply (i_queue _ _ I).
    + exact (i_nodup _ _ I).
    + intros p q H. cbn in *. fold o. pose proof (LR p q H). rewrite !upd_other by assumption. exact (i_run _ _ I p q H).
    + intros p z Ez Rz. rewrite U. cbn in Ez |- *. fold o. destruct (Nat.eq_dec p o) as [->|N].
      * rewrite upd_same in Ez. injection Ez as <-. cbn. rewrite !upd_same. split; [reflexivity|right; split; [lia|reflexivity]].
      * rewrite upd_other in Ez by assumption. rewrite upd_other by assumption.
        destruct (i_live _ _ I p z Ez Rz) as [Dp [X|[X1 X2]]]; [split; [exact Dp|left; exact X]|]. split; [exact Dp|right].
        assert (o_trig z <> t) by (intro T; rewrite T in X1; lia). rewrite !upd_other by assumption. tauto.
    + intros p z Ez Rz. cbn in Ez |- *. fold o. destruct (Nat.eq_dec p o) as [->|N].
      * rewrite upd_same in Ez. injection Ez as <-. discriminate Rz.
      * rewrite upd_other in Ez by assumption. rewrite upd_other by assumption. exact (i_rem _ _ I p z Ez Rz).
    + intros u k P0 H0. rewrite U. cbn in P0, H0 |- *. fold o. destruct (Nat.eq_dec u t) as [->|N].
      * rewrite upd_same in H0. injection H0 as <-. rewrite !upd_same. split; [reflexivity|]. split; [reflexivity|].
        intros [q H]. exact (LR _ _ H eq_refl).
      * rewrite upd_other in P0 by assumption. rewrite upd_other in H0 by assumption. destruct (i_hdl _ _ I u k P0 H0) as (X & Y & W).
        assert (k <> o) by (apply LT; rewrite X; discriminate). rewrite !upd_other by assumption. tauto.
    + intro p. rewrite U. cbn. fold o. destruct (i_uses _ _ I p) as (X & Y & W). split; [exact X|]. split; [intro H; apply Y; fold o; lia|].
      destruct (Nat.eq_dec p o) as [->|N]; [intros; exact U0|rewrite upd_other by assumption; exact W].
  - set (s' := set_hdl _ _ _).
    assert (U : forall p, running s' p <-> running s p) by (intro p; reflexivity).
    constructor.
    + intros p H. cbn in *. assert (p <> o) by (fold o in H; lia). rewrite !upd_other by assumption. apply (i_new _ _ I). fold o. lia.
    + exact (i_armed _ _ I).
    + intros p H. cbn in *. fold o. pose proof (LQ p H). rewrite !upd_other by assumption. now apply (i_queue _ _ I).
    + exact (i_nodup _ _ I).
    + intros p q H. cbn in *. fold o. pose proof (LR p q H). rewrite !upd_other by assumption. exact (i_run _ _ I p q H).
    + intros p z Ez Rz. rewrite U. cbn in Ez |- *. fold o. assert (p <> o) by (apply LT; rewrite Ez; discriminate). rewrite upd_other by assumption.
      destruct (i_live _ _ I p z Ez Rz) as [Dp [X|[X1 X2]]]; [split; [exact Dp|left; exact X]|]. split; [exact Dp|right].
      assert (o_trig z <> t) by (intro T; rewrite T in X1; lia). rewrite !upd_other by assumption. tauto.
    + intros p z Ez Rz. cbn in Ez |- *. fold o. assert (p <> o) by (apply LT; rewrite Ez; discriminate). rewrite upd_other by assumption.
      exact (i_rem _ _ I p z Ez Rz).
    + intros u k P0 H0. rewrite U. cbn in P0, H0 |- *. destruct (Nat.eq_dec u t) as [->|N]; [rewrite upd_same in H0; discriminate|].
      rewrite upd_other in P0 by assumption. rewrite upd_other in H0 by assumption. exact (i_hdl _ _ I u k P0 H0).
    + intro p. rewrite U. cbn. fold o. destruct (i_uses _ _ I p) as (X & Y & W). split; [exact X|]. split; [intro H; apply Y; fold o; lia|].
      destruct (Nat.eq_dec p o) as [->|N]; [intros; exact U0|rewrite upd_other by assumption; exact W].
Qed.

Lemma nodup_snoc (l : list nat) (o : nat) : NoDup l -> ~ In o l -> NoDup (l ++ [o]).
Proof.
  induction 1 as [|y l N D IH]; intro H; cbn; [repeat constructor; exact H|].
  constructor; [|apply IH; cbn in H; tauto]. rewrite in_app_iff. cbn in *. intros [K|[K|[]]]; [tauto|subst; tauto].
Qed.
(** A value change is put into the queue. *)
Lemma push_inv (v : bool) (s : st) (o : nat) : Inv v s -> c_armed s o = true -> c_val s o = true -> ~ In o (c_queue s) -> ~ running s o ->
  Inv v (set_queue s (c_queue s ++ [o])).
Proof.
  intros I A V N R. constructor.
  - exact (i_new _ _ I).
  - exact (i_armed _ _ I).
  - intros p H. cbn in *. apply in_app_iff in H. destruct H as [H|[<-|[]]]; [exact (i_queue _ _ I p H)|]. split; [exact (i_armed _ _ I o A)|exact V].
  - apply nodup_snoc; [exact (i_nodup _ _ I)|exact N].
  - intros p q H. cbn in H. destruct (i_run _ _ I p q H) as (x & E & Q & V1 & V2 & QQ). exists x. cbn.
    repeat (split; [assumption|]). destruct q.
    + destruct QQ as [l QQ]. exists (l ++ [o]). rewrite QQ. reflexivity.
    + rewrite in_app_iff. cbn. intros [K|[K|[]]]; [tauto|]. subst p. apply R. exists false. exact H.
  - exact (i_live _ _ I).
  - exact (i_rem _ _ I).
  - exact (i_hdl _ _ I).
  - exact (i_uses _ _ I).
Qed.
(** One of several waiting functions is taken away, or the last one of a trigger without a callback. *)
Lemma fewer_inv (v : bool) (s : st) (t n : nat) : Inv v s -> 0 < c_cbs s t -> (0 < n \/ c_hdl s t = None) -> Inv v (set_cbs s t n).
Proof.
  intros I P H. constructor.
  - exact (i_new _ _ I).
  - exact (i_armed _ _ I).
  - exact (i_queue _ _ I).
  - exact (i_nodup _ _ I).
  - exact (i_run _ _ I).
  - intros p z Ez Rz. cbn in *. destruct (i_live _ _ I p z Ez Rz) as [Dp [X|[X1 X2]]]; [split; [exact Dp|left; exact X]|].
    split; [exact Dp|right]. split; [|exact X2]. destruct (Nat.eq_dec (o_trig z) t) as [T|N]; [rewrite T, upd_same; rewrite T in X2|now rewrite upd_other].
    destruct H as [H|H]; [exact H|congruence].
  - exact (i_rem _ _ I).
  - intros u k P0 H0. cbn in P0, H0. apply (i_hdl _ _ I); [|exact H0]. destruct (Nat.eq_dec u t) as [->|N]; [exact P|now rewrite upd_other in P0].
  - exact (i_uses _ _ I).
Qed.

(** What a step records. *)
Inductive says (s : st) (l : label) (s' : st) : Prop :=
| says_nothing : c_log s' = c_log s -> says s l s'
| says_called o t : c_log s' = Called o :: c_log s -> running s' o -> 0 < c_cbs s t -> c_hdl s t = Some o -> c_cbs s' t = 0 -> says s l s'
| says_gone o t ok : l = LDereg t ok -> c_log s' = Gone o :: c_log s -> c_cbs s t = 1 -> c_hdl s t = Some o -> c_cbs s' t = 0 ->
    c_hdl s' t = None -> says s l s'.

Lemma enter_inv (v : bool) (s : st) (a : nat -> bool) (o : nat) (pass ok q : bool) (l : label) : Inv v s -> free s -> c_objs s o <> None ->
  (forall p, p <> o -> a p = c_armed s p) -> (c_val s o = true -> a o = c_armed s o) -> (c_val s o = false -> v = false -> a o = false) ->
  (forall x, c_objs s o = Some x -> o_removed x = false -> c_val s o = true -> a o = true) ->
  (if q then c_val s o = true /\ exists l, c_queue s = o :: l else c_queue s = []) ->
  Inv v (enter v (with_armed s a) o pass ok q) /\ says s l (enter v (with_armed s a) o pass ok q).
Proof.
  intros I F E A B1 B2 B3 QQ.
  assert (F' : forall p, ~ running s p) by (intros p [q' X]; exact (F _ _ X)).
  unfold enter. cbn [c_objs c_val with_armed]. destruct (c_objs s o) as [x|] eqn:X; [clear E|now elim E].
  assert (HA : c_val s o = true -> forall p, a p = c_armed s p).
  { intros V p. destruct (Nat.eq_dec p o) as [->|N]; [apply B1, V|apply A, N]. }
  assert (QI : c_val s o = true -> Inv v (handled (with_armed s a) o q) /\ says s l (handled (with_armed s a) o q)).
  { intro V. unfold handled. destruct q.
    - destruct QQ as [_ [k QQ]]. cbn [c_queue with_armed]. rewrite QQ. split; [|apply says_nothing; reflexivity].
      apply quiet_inv; [exact I|exact F'|discriminate|exact (HA V)|pose proof (i_nodup _ _ I) as K; rewrite QQ in K; inversion K; assumption|
        rewrite QQ; apply incl_tl, incl_refl].
    - split; [|apply says_nothing; reflexivity].
      change (Inv v (set_ctl (set_queue (with_armed s a) (c_queue s)) Loop)).
      apply quiet_inv; [exact I|exact F'|discriminate|exact (HA V)|exact (i_nodup _ _ I)|apply incl_refl]. }
  assert (CI : o_removed x = false -> Inv v (call (with_armed s a) o x q) /\ says s l (call (with_armed s a) o x q)).
  { intro R. destruct (call_inv v s a o x q I F X R) as (C1 & C2 & C3 & C4 & C5).
    - exact A.
    - intro V. exact (B3 x eq_refl R V).
    - intros V W. exact (B2 V W).
    - destruct q; [exact (proj2 QQ)|rewrite QQ; intros []].
    - split; [exact C1|]. apply says_called with (o := o) (t := o_trig x); try assumption.
      exists q. unfold call. cbn [c_data with_armed]. destruct (i_live _ _ I o x X R) as [D _]. rewrite D. reflexivity. }
  destruct (c_val s o) eqn:V.
  - destruct (o_removed x) eqn:R; [exact (QI eq_refl)|]. destruct pass; [exact (CI eq_refl)|exact (QI eq_refl)].
  - destruct (o_removed x) eqn:R; [|exact (CI eq_refl)].
    destruct q; [discriminate (proj1 QQ)|].
    unfold after. cbn [c_objs c_val with_armed]. rewrite X, V. cbn [orb]. destruct v.
    + unfold vpi_remove. cbn [c_armed with_armed]. rewrite Bool.orb_true_r. destruct ok.
      * split; [|apply says_nothing; reflexivity].
        apply (expire_inv true s (upd a o false) o x None I F X R V); [now left| |intros _; apply upd_same].
        intros p N. rewrite upd_other by assumption. apply A, N.
      * split; [|apply says_nothing; reflexivity].
        apply (expire_inv true s a o x (Some (Obj (o_trig x) true)) I F X R V); [right; eexists; reflexivity|exact A|discriminate].
    + split; [|apply says_nothing; reflexivity].
      apply (expire_inv false s a o x None I F X R V); [now left|exact A|intros _; apply B2; reflexivity].
Qed.

Definition idle (s : st) : Prop := c_ctl s = Idle -> c_queue s = [].

Lemma dereg_inv (v : bool) (s : st) (t h : nat) (ok : bool) : Inv v s -> c_cbs s t = 1 -> c_hdl s t = Some h -> (v = true \/ ~ In h (c_queue s)) ->
  Inv v (set_hdl (deregister v (set_cbs s t 0) h ok) t None) /\ c_log (deregister v (set_cbs s t 0) h ok) = Gone h :: c_log s /\
  c_cbs (deregister v (set_cbs s t 0) h ok) t = 0.
Proof.
  intros I P H Q. destruct (i_hdl _ _ I t h) as (E & Ah & NR); [lia|exact H|].
  destruct (i_live _ _ I h _ E eq_refl) as [D _].
  unfold deregister, free_data, remove, vpi_remove. cbn [c_objs c_data c_queue set_cbs]. rewrite E, D.
  cbn [c_objs c_data c_queue c_armed set_cbs set_data set_queue o_trig]. rewrite Ah. cbn [orb].
  assert (L4 : forall o q, c_ctl s = Py (Some o) q -> q = true -> exists l', erase h (c_queue s) = o :: l').
  { intros o q C ->. destruct (i_run _ _ I o true C) as (x & _ & _ & _ & _ & l & L). rewrite L. cbn [erase].
    destruct (Nat.eqb_spec o h) as [->|N]; [elim NR; exists true; exact C|]. eexists; reflexivity. }
  assert (L4' : forall o q, c_ctl s = Py (Some o) q -> q = true -> exists l', c_queue s = o :: l').
  { intros o q C ->. destruct (i_run _ _ I o true C) as (x & _ & _ & _ & _ & l & L). exists l. exact L. }
  assert (ER : forall p, p <> h -> In p (erase h (c_queue s)) <-> In p (c_queue s)).
  { intros p N. split; [apply erase_in|]. clear -N. induction (c_queue s) as [|y l IH]; [tauto|]. cbn [erase].
    destruct (Nat.eqb_spec y h) as [->|M]; cbn; [intros [K|K]; [congruence|exact K]|tauto]. }
  destruct (existsb (Nat.eqb h) (c_queue s)) eqn:X.
  - apply existsb_in in X. destruct Q as [->|Q]; [|contradiction]. destruct ok.
    + split; [|split; [reflexivity|apply upd_same]].
      apply (drop_inv true s (upd (c_armed s) h false) t h None (erase h (c_queue s)) I P H); try assumption.
      * now left.
      * intros p N. now apply upd_other.
      * intros _. apply upd_same.
      * apply erase_gone, (i_nodup _ _ I).
      * apply erase_nodup, (i_nodup _ _ I).
    + split; [|split; [reflexivity|apply upd_same]].
      apply (drop_inv true s (c_armed s) t h (Some (Obj t true)) (erase h (c_queue s)) I P H); try assumption.
      * right. eexists; reflexivity.
      * reflexivity.
      * discriminate.
      * apply erase_gone, (i_nodup _ _ I).
      * apply erase_nodup, (i_nodup _ _ I).
  - assert (X' : ~ In h (c_queue s)) by (intro K; apply existsb_in in K; congruence). destruct ok.
    + split; [|split; [reflexivity|apply upd_same]].
      apply (drop_inv v s (upd (c_armed s) h false) t h None (c_queue s) I P H); try assumption.
      * now left.
      * intros p N. now apply upd_other.
      * intros _. apply upd_same.
      * reflexivity.
      * exact (i_nodup _ _ I).
    + split; [|split; [reflexivity|apply upd_same]].
      apply (drop_inv v s (c_armed s) t h (Some (Obj t true)) (c_queue s) I P H); try assumption.
      * right. eexists; reflexivity.
      * reflexivity.
      * discriminate.
      * reflexivity.
      * exact (i_nodup _ _ I).
Qed.
Lemma handled_ctl s o q : c_ctl (handled s o q) = Loop.
Proof. reflexivity. Qed.
Lemma enter_ctl v s o pass ok q : c_ctl (enter v s o pass ok q) <> Idle.
Proof.
  unfold enter, call. destruct (c_objs s o) as [x|]; [|discriminate].
  destruct (c_val s o), (o_removed x), pass, (c_data s o); discriminate.
Qed.
Lemma reg_ctl s t v ok : c_ctl (py_register s t v ok) = c_ctl s.
Proof. unfold py_register. destruct (c_cbs s t =? 0), ok; reflexivity. Qed.
Lemma dereg_ctl v s t ok : c_ctl (py_deregister v s t ok) = c_ctl s.
Proof.
  unfold py_deregister. destruct (c_cbs s t) as [|[|n]]; try reflexivity. cbn [Nat.eqb c_hdl set_cbs]. destruct (c_hdl s t) as [h|]; [|reflexivity].
  unfold deregister, free_data, remove, vpi_remove. cbn [c_objs c_data c_queue set_cbs].
  destruct (c_objs s h), (c_data s h); try reflexivity;
    cbn; destruct (existsb (Nat.eqb h) (c_queue s)), v, ok, (c_armed s h); reflexivity.
Qed.
Lemma idle_step v s l s' : step v s l = Some s' -> idle s'.
Proof.
  unfold step, idle. destruct l as [o pass ok again| |pass ok|ok|t w ok|t ok], (c_ctl s) as [|r q|] eqn:C; try discriminate; intros H K.
  - destruct (c_armed s o); [|discriminate]. injection H as <-. now apply enter_ctl in K.
  - destruct (c_armed s o && c_val s o); [|discriminate]. injection H as <-. cbn in K. congruence.
  - injection H as <-. discriminate K.
  - destruct (c_queue s) as [|o k] eqn:Q.
    + injection H as <-. exact Q.
    + injection H as <-. now apply enter_ctl in K.
  - destruct r as [o|]; injection H as <-; discriminate K.
  - injection H as <-. rewrite reg_ctl in K. congruence.
  - destruct (c_cbs s t); [discriminate|]. injection H as <-. rewrite dereg_ctl in K. congruence.
Qed.

Lemma inv_step (v : bool) (s s' : st) (l : label) : Inv v s -> idle s -> calm v s l -> step v s l = Some s' -> Inv v s' /\ says s l s'.
Proof.
  intros I ID (N1 & N2 & NL) H. unfold step in H. destruct l as [o pass ok again| |pass ok|ok|t w ok|t ok], (c_ctl s) as [|r q|] eqn:C; try discriminate H.
  - destruct (c_armed s o) eqn:A; [|discriminate]. injection H as <-.
    change (set_armed s o (c_val s o || again && v)) with (with_armed s (upd (c_armed s) o (c_val s o || again && v))).
    apply enter_inv; try assumption.
    + intros r q K. congruence.
    + exact (i_armed _ _ I o A).
    + intros p N. now apply upd_other.
    + intros V. rewrite upd_same, V. cbn. now rewrite A.
    + intros V ->. rewrite upd_same, V. cbn. apply Bool.andb_false_r.
    + intros x _ _ V. rewrite upd_same. now rewrite V.
    + apply ID, C.
  - destruct (c_armed s o && c_val s o) eqn:A; [|discriminate]. apply Bool.andb_true_iff in A. destruct A as [A V]. injection H as <-.
    unfold no_double in N1. unfold no_self in N2. rewrite C in N1, N2. split; [|apply says_nothing; reflexivity].
    apply push_inv; try assumption. intros [q' K]. rewrite C in K. injection K as -> ->. now apply N2.
  - injection H as <-. split; [|apply says_nothing; reflexivity].
    change (Inv v (set_ctl (set_queue (with_armed s (c_armed s)) (c_queue s)) (Py None false))).
    apply quiet_inv; [exact I|intros o [q K]; congruence|discriminate|reflexivity|exact (i_nodup _ _ I)|apply incl_refl].
  - destruct (c_queue s) as [|o k] eqn:Q.
    + injection H as <-. split; [|apply says_nothing; reflexivity].
      change (Inv v (set_ctl (set_queue (with_armed s (c_armed s)) (c_queue s)) Idle)).
      apply quiet_inv; [exact I|intros o [q K]; congruence|discriminate|reflexivity|exact (i_nodup _ _ I)|apply incl_refl].
    + injection H as <-. destruct (i_queue _ _ I o) as [E V]; [rewrite Q; now left|].
      assert (W : enter v s o pass ok true = enter v (with_armed s (c_armed s)) o pass ok true) by (now rewrite with_armed_same). rewrite W. clear W. apply enter_inv; try assumption.
      * intros r q K. congruence.
      * reflexivity.
      * reflexivity.
      * congruence.
      * intros x X R _. destruct (i_live _ _ I o x X R) as [_ [[q K]|[K1 K2]]]; [congruence|]. exact (proj1 (proj2 (i_hdl _ _ I _ _ K1 K2))).
      * split; [exact V|exists k; exact Q].
  - destruct r as [o|]; injection H as <-.
    + destruct (i_run _ _ I o q C) as (x & E & R & V1 & V2 & QQ). destruct (i_live _ _ I o x E R) as [D _].
      unfold free_data. rewrite D. unfold after. cbn [c_objs c_val set_data]. rewrite E.
      destruct (c_val s o || v) eqn:VV.
      * unfold vpi_remove. cbn [c_armed set_data].
        assert (W : c_armed s o || v = true).
        { destruct v; [apply Bool.orb_true_r|]. rewrite Bool.orb_false_r in *. now apply V1. }
        rewrite W. destruct ok.
        -- destruct (return_inv v s (upd (c_armed s) o false) o None q I C) as [Y Z].
           ++ now left.
           ++ intros p N. now apply upd_other.
           ++ intros _. apply upd_same.
           ++ split; [exact Y|apply says_nothing; exact Z].
        -- destruct (return_inv v s (c_armed s) o (Some (Obj (o_trig x) true)) q I C) as [Y Z].
           ++ right. eexists; reflexivity.
           ++ reflexivity.
           ++ discriminate.
           ++ split; [exact Y|apply says_nothing; exact Z].
      * apply Bool.orb_false_iff in VV. destruct VV as [V0 ->].
        destruct (return_inv false s (c_armed s) o None q I C) as [Y Z].
        -- now left.
        -- reflexivity.
        -- intros _. now apply V2.
        -- split; [exact Y|apply says_nothing; exact Z].
    + split; [|apply says_nothing; reflexivity].
      change (Inv v (set_ctl (set_queue (with_armed s (c_armed s)) (c_queue s)) Loop)).
      apply quiet_inv; [exact I|intros o [q' K]; congruence|discriminate|reflexivity|exact (i_nodup _ _ I)|apply incl_refl].
  - injection H as <-. split; [now apply register_inv|]. apply says_nothing. unfold py_register. destruct (c_cbs s t =? 0), ok; reflexivity.
  - destruct (c_cbs s t) as [|n] eqn:N; [discriminate|]. injection H as <-. unfold py_deregister. rewrite N. destruct (Nat.eqb_spec n 0) as [->|M].
    + cbn [c_hdl set_cbs]. destruct (c_hdl s t) as [h|] eqn:HH.
      * destruct (dereg_inv v s t h ok I N HH) as (X & Y & Z); [destruct NL as [->|NL]; [now left|right; apply NL; assumption]|].
        split; [exact X|]. apply says_gone with (o := h) (t := t) (ok := ok); try assumption; try reflexivity.
        apply upd_same.
      * split; [|apply says_nothing; reflexivity]. apply fewer_inv; [exact I|lia|now right].
    + split; [|apply says_nothing; reflexivity]. apply fewer_inv; [exact I|lia|left; lia].
Qed.

(** ** Owners, if all callbacks are accepted *)
Definition own (s : st) : Prop :=
  (forall o, c_data s o = true -> exists x, c_objs s o = Some x /\ o_removed x = false) /\ (forall t, 0 < c_cbs s t -> c_hdl s t <> None).
Lemma own_same s s' : own s -> c_data s' = c_data s -> c_objs s' = c_objs s -> c_hdl s' = c_hdl s -> (forall t, 0 < c_cbs s' t -> 0 < c_cbs s t) -> own s'.
Proof. intros [A B] D O H C. split; [rewrite D, O; exact A|]. intros t P. rewrite H. apply B, C, P. Qed.
(** An object ends; the state is otherwise the same. *)
Lemma own_end s s' o : own s -> (forall p, c_data s' p = true -> p <> o /\ c_data s p = true) ->
  (forall p, p <> o -> c_objs s' p = c_objs s p) -> (forall t, 0 < c_cbs s' t -> 0 < c_cbs s t /\ c_hdl s' t = c_hdl s t) -> own s'.
Proof.
  intros [A B] D O C. split.
  - intros p K. destruct (D p K) as [N K']. rewrite O by exact N. now apply A.
  - intros t P. destruct (C t P) as [P' ->]. now apply B.
Qed.
Lemma own_handled s o q : own s -> own (handled s o q).
Proof. intro H. apply (own_same s); auto; unfold handled; destruct q; try reflexivity; destruct (c_queue s); auto. Qed.
Lemma upd_pos (f : nat -> nat) u t : 0 < upd f u 0 t -> 0 < f t.
Proof. unfold upd. destruct (t =? u); [lia|auto]. Qed.
Lemma own_call s o x q : own s -> own (call s o x q).
Proof.
  intro H. unfold call. destruct (c_data s o).
  - apply (own_same s); auto. cbn. intro t. apply upd_pos.
  - apply own_handled. apply (own_same s); auto.
Qed.
Lemma own_after v s o ok : own s -> c_data s o = false -> own (after v s o ok).
Proof.
  intros H D. unfold after. destruct (c_objs s o) as [x|]; [|apply (own_same s); auto].
  assert (K : forall p, c_data s p = true -> p <> o /\ c_data s p = true) by (intros p E; split; [intros ->; congruence|exact E]).
  unfold vpi_remove. destruct (c_val s o || v), (c_armed s o || v), ok;
    (apply (own_end s _ o); [exact H|exact K| |intros t P; split; [exact P|reflexivity]]; intros p N; cbn; now rewrite upd_other).
Qed.
Lemma own_enter (v : bool) (s : st) (o : nat) (pass ok q : bool) : own s ->
  (forall x, c_objs s o = Some x -> o_removed x = true -> c_data s o = false) -> own (enter v s o pass ok q).
Proof.
  intros H R. unfold enter. destruct (c_objs s o) as [x|] eqn:X; [|apply own_handled; apply (own_same s); auto].
  destruct (c_val s o), (o_removed x) eqn:E, pass; try (apply own_call; exact H); apply own_handled; try exact H; apply own_after; eauto.
Qed.
Lemma own_drop (v : bool) (s : st) (t h : nat) (ok : bool) : own s -> c_objs s h = Some (Obj t false) -> c_data s h = true ->
  own (set_hdl (deregister v (set_cbs s t 0) h ok) t None).
Proof.
  intros H X D. apply (own_end s _ h H).
  - unfold deregister, free_data, remove, vpi_remove. cbn [c_objs c_data c_queue set_cbs]. rewrite X, D. cbn [c_queue c_armed set_data set_queue set_cbs].
    destruct (existsb (Nat.eqb h) (c_queue s)), v, ok, (c_armed s h); cbn; intros p; unfold upd;
      (destruct (Nat.eqb_spec p h); [discriminate|auto]).
  - unfold deregister, free_data, remove, vpi_remove. cbn [c_objs c_data c_queue set_cbs]. rewrite X, D. cbn [c_queue c_armed set_data set_queue set_cbs].
    destruct (existsb (Nat.eqb h) (c_queue s)), v, ok, (c_armed s h); cbn; intros p N; now rewrite upd_other.
  - unfold deregister, free_data, remove, vpi_remove. cbn [c_objs c_data c_queue set_cbs]. rewrite X, D. cbn [c_queue c_armed set_data set_queue set_cbs].
    destruct (existsb (Nat.eqb h) (c_queue s)), v, ok, (c_armed s h); cbn; intros u; unfold upd;
      (destruct (Nat.eqb_spec u t); [lia|auto]).
Qed.
Lemma own_step (v : bool) (s s' : st) (l : label) : Inv v s -> own s -> accepted l -> step v s l = Some s' -> own s'.
Proof.
  intros I W AC H. unfold step in H. destruct l as [o pass ok again| |pass ok|ok|t w ok|t ok], (c_ctl s) as [|r q|] eqn:C; try discriminate H.
  - destruct (c_armed s o); [|discriminate]. injection H as <-. apply own_enter; [apply (own_same s); auto|exact (i_rem _ _ I o)].
  - destruct (c_armed s o && c_val s o); [|discriminate]. injection H as <-. apply (own_same s); auto.
  - injection H as <-. apply (own_same s); auto.
  - destruct (c_queue s) as [|o k]; injection H as <-; [apply (own_same s); auto|]. apply own_enter; [exact W|exact (i_rem _ _ I o)].
  - destruct r as [o|]; injection H as <-; [|apply (own_same s); auto].
    apply own_handled. destruct (i_run _ _ I o q C) as (x & E & R & _). destruct (i_live _ _ I o x E R) as [D _].
    unfold free_data. rewrite D.
    unfold after. cbn [c_objs c_val set_data]. rewrite E.
    assert (K : forall p, upd (c_data s) o false p = true -> p <> o /\ c_data s p = true).
    { intro p. unfold upd. destruct (Nat.eqb_spec p o); [discriminate|auto]. }
    unfold vpi_remove. cbn [c_armed set_data]. destruct (c_val s o || v), (c_armed s o || v), ok;
      (apply (own_end s _ o); [exact W|exact K| |intros u P; split; [exact P|reflexivity]]; intros p N; cbn; now rewrite upd_other).
  - injection H as <-. cbn in AC. subst ok. destruct W as [A B]. unfold py_register. destruct (Nat.eqb_spec (c_cbs s t) 0) as [Z|NZ].
    + split.
      * intros p K. cbn in K |- *. destruct (Nat.eq_dec p (c_next s)) as [->|N]; [rewrite upd_same; eexists; split; reflexivity|].
        rewrite upd_other in K by assumption. rewrite upd_other by assumption. now apply A.
      * intros u P. cbn in P |- *. destruct (Nat.eq_dec u t) as [->|N]; [rewrite upd_same; discriminate|].
        rewrite upd_other in P by assumption. rewrite upd_other by assumption. now apply B.
    + split; [exact A|]. intros u P. cbn in P |- *. apply B. destruct (Nat.eq_dec u t) as [->|N]; [lia|now rewrite upd_other in P].
  - destruct (c_cbs s t) as [|n] eqn:N; [discriminate|]. injection H as <-. unfold py_deregister. rewrite N. destruct (Nat.eqb_spec n 0) as [->|M].
    + cbn [c_hdl set_cbs]. destruct (c_hdl s t) as [h|] eqn:HH.
      * destruct (i_hdl _ _ I t h) as (E & _); [lia|exact HH|]. destruct (i_live _ _ I h _ E eq_refl) as [D _]. now apply own_drop.
      * apply (own_same s); auto. cbn. intro u. apply upd_pos.
    + apply (own_same s); auto. cbn. intro u. unfold upd. destruct (Nat.eqb_spec u t) as [->|]; [lia|auto].
Qed.

Lemma exec_inv v P s ls s' : execP v P s ls s' -> (forall a l, P a l -> calm v a l) -> Inv v s -> idle s -> Inv v s' /\ idle s'.
Proof.
  intros H K. induction H as [|s l s1 ls s' Q S _ IH]; [auto|]. intros I ID. apply IH.
  - exact (proj1 (inv_step v s s1 l I ID (K _ _ Q) S)).
  - exact (idle_step v s l s1 S).
Qed.
Lemma exec_faultless v P s ls s' : execP v P s ls s' -> (forall a l, P a l -> calm v a l) -> Inv v s -> idle s -> faultless s -> faultless s'.
Proof.
  intros H K. induction H as [|s l s1 ls s' Q S _ IH]; [auto|]. intros I ID F.
  destruct (inv_step v s s1 l I ID (K _ _ Q) S) as [I1 SY]. apply IH; [exact I1|exact (idle_step v s l s1 S)|].
  intros f o. destruct SY as [E|p t E _ _ _ _|p t ok _ E _ _ _ _]; rewrite E; [apply F| |]; intros [Z|Z]; try discriminate Z; exact (F f o Z).
Qed.
Lemma exec_own v P s ls s' : execP v P s ls s' -> (forall a l, P a l -> calm v a l /\ accepted l) -> Inv v s -> idle s -> own s -> own s'.
Proof.
  intros H K. induction H as [|s l s1 ls s' Q S _ IH]; [auto|]. intros I ID O. destruct (K _ _ Q) as [K1 K2].
  apply IH; [exact (proj1 (inv_step v s s1 l I ID K1 S))|exact (idle_step v s l s1 S)|exact (own_step v s s1 l I O K2 S)].
Qed.
Lemma init_idle : idle init.
Proof. intro; reflexivity. Qed.
Lemma init_own : own init.
Proof. split; [discriminate|]. cbn. intros t H. inversion H. Qed.

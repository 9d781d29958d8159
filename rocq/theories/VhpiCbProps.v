(** Property theorems C110 (callbacks of the VHPI). *)
From Coq Require Import Arith String Lia.
From Verif Require Import Base VhpiCbModel.
Open Scope nat_scope.

(** An event which uses up callback [n]. *)
Definition about (n : nat) (e : ev) : bool := match e with Called m | Gone m => m =? n | _ => false end.
Definition uses (n : nat) (l : list ev) : nat := List.length (filter (about n) l).
(** The callback is Python's: given to it and neither called nor deregistered. *)
Definition held (s : st) (n : nat) : Prop := In (Got n) (v_log s) /\ ~ In (Called n) (v_log s) /\ ~ In (Gone n) (v_log s).
Definition running (s : st) (n : nat) : Prop := In n (map fst (v_run s)).
Definition faultless (s : st) : Prop := forall f n, ~ In (Fault f n) (v_log s).
(** What simulator and Python must respect: only callbacks which are Python's are deregistered; a callback is not made within itself; the
    callbacks for the start and the end are made once; changes of values recur, as the VHPI says. *)
Definition calm (s : st) (l : label) : Prop :=
  match l with
  | LDereg n _ => held s n
  | LFire n again _ _ => ~ running s n /\
      forall c r, v_objs s n = Some (Obj c r) -> (own c = true -> again = false) /\ (is_value c = true -> again = true)
  | _ => True
  end.
Inductive exec (P : st -> label -> Prop) : st -> list label -> st -> Prop :=
| exec_nil s : exec P s [] s
| exec_cons s l s1 ls s' : P s l -> step s l = Some s1 -> exec P s1 ls s' -> exec P s (l :: ls) s'.
(** After [main]. *)
Definition start : st := main init true true.

Lemma uses_cons n e l : uses n (e :: l) = (if about n e then 1 else 0) + uses n l.
Proof. unfold uses. cbn. now destruct (about n e). Qed.
Lemma uses_0 n l : uses n l = 0 <-> ~ In (Called n) l /\ ~ In (Gone n) l.
Proof.
  induction l as [|e l IH]; [now cbn|]. rewrite uses_cons. destruct (about n e) eqn:E.
  - split; [discriminate|]. intros [A B]. exfalso. destruct e; try discriminate E; cbn in E; apply Nat.eqb_eq in E; subst; [apply A|apply B]; now left.
  - cbn [plus]. rewrite IH. cbn [In]. split; intros [A B]; split.
    + intros [->|H]; [cbn in E; rewrite Nat.eqb_refl in E; discriminate|tauto].
    + intros [->|H]; [cbn in E; rewrite Nat.eqb_refl in E; discriminate|tauto].
    + tauto.
    + tauto.
Qed.
Lemma held_uses s n : held s n <-> In (Got n) (v_log s) /\ uses n (v_log s) = 0.
Proof. unfold held. now rewrite uses_0. Qed.

Record inv (s : st) : Prop := {
  i_fresh : forall n, v_next s <= n -> v_objs s n = None /\ v_data s n = false /\ v_armed s n = false /\ ~ running s n /\ uses n (v_log s) = 0 /\
    ~ In (Got n) (v_log s) /\ v_finish s <> Some n;
  i_armed : forall n, v_armed s n = true -> v_objs s n <> None;
  i_nodup : NoDup (map fst (v_run s));
  i_run : forall n c, In (n, c) (v_run s) -> exists r, v_objs s n = Some (Obj c r) /\ (own c = false -> r = false) /\ uses n (v_log s) = 1 /\
    (own c = true -> v_armed s n = false);
  i_live : forall n c, v_objs s n = Some (Obj c false) -> own c = false -> v_data s n = true /\ In (Got n) (v_log s);
  i_idle : forall n c, v_objs s n = Some (Obj c false) -> ~ running s n -> uses n (v_log s) = 0 /\ v_armed s n = true;
  i_held : forall n, In (Got n) (v_log s) -> uses n (v_log s) = 0 -> exists c, v_objs s n = Some (Obj c false) /\ own c = false;
  i_uses : forall n, uses n (v_log s) <= 1;
  i_shut : forall n r, v_objs s n = Some (Obj CShutdown r) -> v_finish s = Some n /\ (r = true -> v_fin s = true);
  i_fin : forall m, v_finish s = Some m -> v_fin s = false -> exists r, v_objs s m = Some (Obj CShutdown r);
  i_start : forall n r, v_objs s n = Some (Obj CStartup r) -> r = false;
  i_clean : faultless s }.
Lemma inv_start : inv start.
Proof.
  constructor.
  - intros n L. unfold start, main, register, running in *. cbn in *. destruct n as [|[|n]]; try lia. cbn. repeat split; try tauto; congruence.
  - intros n H. unfold start, main, register in *. cbn in *. destruct n as [|[|n]]; cbn in *; congruence.
  - constructor.
  - intros n c [].
  - intros n c H O. unfold start, main, register in *. cbn in *. destruct n as [|[|n]]; cbn in *; try discriminate; injection H as <-; discriminate O.
  - intros n c H _. unfold start, main, register in *. cbn in *. destruct n as [|[|n]]; cbn in *; try discriminate; now split.
  - intros n [].
  - intros n. cbn. lia.
  - intros n r H. unfold start, main, register in *. cbn in *. destruct n as [|[|n]]; cbn in *; try discriminate. injection H as <-. now split.
  - intros m H _. cbn in H. injection H as <-. exists false. reflexivity.
  - intros n r H. unfold start, main, register in *. cbn in *. destruct n as [|[|n]]; cbn in *; try discriminate. now injection H as <-.
  - intros f n [].
Qed.
Lemma upd_same {A} (f : nat -> A) n a : upd f n a n = a.
Proof. unfold upd. now rewrite Nat.eqb_refl. Qed.
Lemma upd_other {A} (f : nat -> A) n a m : m <> n -> upd f n a m = f m.
Proof. unfold upd. intro H. destruct (Nat.eqb_spec m n); [contradiction|reflexivity]. Qed.
Ltac flat := cbn [v_objs v_data v_armed v_next v_run v_fin v_finish v_log set_obj set_data set_armed set_run set_fin set_finish log fresh] in *.
Ltac at_ m n := destruct (Nat.eq_dec m n) as [->|?]; [rewrite ?upd_same in *|rewrite ?upd_other in * by assumption].

Lemma inv_register s c ok : inv s -> own c = false -> inv (register s c ok).
Proof.
  intros I O. pose proof (i_fresh s I (v_next s) (le_n _)) as (F1 & F2 & F3 & F4 & F5 & F6 & F7).
  unfold register. rewrite O. cbn [negb]. destruct ok; constructor; unfold running, faultless; flat.
  - intros n L. assert (N : n <> v_next s) by lia. rewrite !upd_other by exact N. destruct (i_fresh s I n ltac:(lia)) as (A & B & C & D & E & F & G).
    rewrite uses_cons. cbn. repeat split; try assumption. intros [K|K]; [injection K as K; lia|contradiction].
  - intros n H. at_ n (v_next s); [discriminate|now apply (i_armed s I)].
  - apply (i_nodup s I).
  - intros n d H. assert (N : n <> v_next s) by (intros ->; apply F4; unfold running; apply in_map_iff; now exists (v_next s, d)).
    rewrite !upd_other by exact N. destruct (i_run s I n d H) as (r & A & B & C & D). exists r. rewrite uses_cons. cbn. auto.
  - intros n d H K. at_ n (v_next s); [split; [reflexivity|now left]|]. destruct (i_live s I n d H K). split; [assumption|now right].
  - intros n d H K. rewrite uses_cons. cbn. at_ n (v_next s); [now split|]. now apply (i_idle s I n d).
  - intros n H U. rewrite uses_cons in U. cbn in U. at_ n (v_next s); [now exists c|]. destruct H as [H|H]; [congruence|]. now apply (i_held s I).
  - intros n. rewrite uses_cons. cbn. apply (i_uses s I).
  - intros n r H. at_ n (v_next s); [injection H as -> _; discriminate O|now apply (i_shut s I)].
  - intros m H K. assert (N : m <> v_next s) by congruence. rewrite !upd_other by exact N. now apply (i_fin s I).
  - intros n r H. at_ n (v_next s); [injection H as -> _; discriminate O|now apply (i_start s I n)].
  - intros f n [H|H]; [discriminate|now apply (i_clean s I f n)].
  - intros n L. assert (N : n <> v_next s) by lia. rewrite !upd_other by exact N. exact (i_fresh s I n ltac:(lia)).
  - apply (i_armed s I).
  - apply (i_nodup s I).
  - apply (i_run s I).
  - intros n d H K. assert (N : n <> v_next s) by congruence. rewrite !upd_other by exact N. now apply (i_live s I n d).
  - apply (i_idle s I).
  - apply (i_held s I).
  - apply (i_uses s I).
  - apply (i_shut s I).
  - apply (i_fin s I).
  - apply (i_start s I).
  - apply (i_clean s I).
Qed.

(** What [gpi_finish] does to a good state. *)
Lemma inv_finish s : inv s -> inv (gpi_finish s) /\ v_run (gpi_finish s) = v_run s /\ v_fin (gpi_finish s) = true /\ v_armed (gpi_finish s) = v_armed s.
Proof.
  intros I. unfold gpi_finish. destruct (v_fin s) eqn:F; [auto|]. unfold sim_end. destruct (v_finish s) as [m|] eqn:E.
  - destruct (i_fin s I m E F) as (r & H). unfold remove. rewrite H. cbn [o_class own]. split; [|auto]. constructor; unfold running, faultless; flat.
    + intros n L. destruct (i_fresh s I n L) as (A & B & C & D & G & K & J). assert (N : n <> m) by congruence. rewrite upd_other by exact N.
      rewrite uses_cons. cbn. repeat split; try assumption. intros [X|X]; [discriminate|contradiction].
    + intros n A. at_ n m; [discriminate|now apply (i_armed s I)].
    + apply (i_nodup s I).
    + intros n c A. destruct (i_run s I n c A) as (q & B & C & D & G). rewrite uses_cons. cbn. at_ n m; [|now exists q].
      rewrite H in B. injection B as <- <-. exists true. repeat split; auto.
    + intros n c A B. at_ n m; [discriminate|]. destruct (i_live s I n c A B). split; [assumption|now right].
    + intros n c A B. rewrite uses_cons. cbn. at_ n m; [discriminate|]. now apply (i_idle s I n c).
    + intros n [A|A] B; [discriminate|]. rewrite uses_cons in B. cbn in B. destruct (i_held s I n A B) as (c & C & D). at_ n m; [|now exists c].
      rewrite H in C. injection C as <- _. discriminate D.
    + intros n. rewrite uses_cons. cbn. apply (i_uses s I).
    + intros n q A. at_ n m; [now split|]. destruct (i_shut s I n q A). now split.
    + intros; discriminate.
    + intros n q A. at_ n m; [discriminate|now apply (i_start s I n)].
    + intros f n [A|A]; [discriminate|now apply (i_clean s I f n)].
  - split; [|auto]. constructor; unfold running, faultless; flat.
    + intros n L. destruct (i_fresh s I n L) as (A & B & C & D & G & K & J). rewrite uses_cons. cbn. repeat split; try assumption.
      intros [X|X]; [discriminate|contradiction].
    + apply (i_armed s I).
    + apply (i_nodup s I).
    + intros n c A. rewrite uses_cons. cbn. now apply (i_run s I).
    + intros n c A B. destruct (i_live s I n c A B). split; [assumption|now right].
    + intros n c A B. rewrite uses_cons. cbn. now apply (i_idle s I n c).
    + intros n [A|A] B; [discriminate|]. rewrite uses_cons in B. cbn in B. now apply (i_held s I).
    + intros n. rewrite uses_cons. cbn. apply (i_uses s I).
    + intros n q A. destruct (i_shut s I n q A). now split.
    + intros; discriminate.
    + apply (i_start s I).
    + intros f n [A|A]; [discriminate|now apply (i_clean s I f n)].
Qed.

(** A callback of Python is used up: called or deregistered. *)
Definition retired (s : st) (n : nat) (c : class) (l : list (nat * class)) (e : list ev) (ok : bool) : st :=
  St (upd (v_objs s) n (if ok then None else Some (Obj c true))) (upd (v_data s) n false) (if ok then upd (v_armed s) n false else v_armed s)
    (v_next s) l (v_fin s) (v_finish s) (e ++ v_log s).
Lemma inv_retired s n c l e ok : inv s -> v_objs s n = Some (Obj c false) -> own c = false -> ~ In n (map fst l) -> NoDup (map fst l) ->
  (forall m d, In (m, d) l -> In (m, d) (v_run s)) -> (forall m, m <> n -> running s m -> In m (map fst l)) ->
  (forall x, In x e -> x = Gone n) -> uses n (e ++ v_log s) = 1 -> inv (retired s n c l e ok).
Proof.
  intros I H O N D L1 L2 E U.
  assert (V : forall m, m <> n -> uses m (e ++ v_log s) = uses m (v_log s)).
  { intros m K. clear - K E. induction e as [|x e IH]; [reflexivity|]. cbn [app]. rewrite uses_cons, IH by (intros y Y; apply E; now right).
    rewrite (E x (or_introl eq_refl)). cbn. destruct (Nat.eqb_spec n m); [congruence|reflexivity]. }
  assert (W : forall m, In (Got m) (e ++ v_log s) -> In (Got m) (v_log s)).
  { intros m K. apply in_app_iff in K. destruct K as [K|K]; [apply E in K; discriminate|exact K]. }
  assert (B : n < v_next s).
  { destruct (Nat.lt_ge_cases n (v_next s)) as [K|K]; [exact K|]. destruct (i_fresh s I n K) as (K1 & _). congruence. }
  assert (R : forall m, ~ In m (map fst l) -> m <> n -> ~ running s m) by (intros m K1 K2 K3; now apply K1, L2).
  constructor; unfold retired, running, faultless; flat.
  - intros m K. assert (M : m <> n) by lia. rewrite !upd_other by exact M. destruct (i_fresh s I m K) as (A1 & A2 & A3 & A4 & A5 & A6 & A7).
    rewrite V by exact M. repeat split; try assumption.
    + destruct ok; [now rewrite upd_other|exact A3].
    + intro X. apply in_map_iff in X. destruct X as ((m' & d) & Q & X). cbn in Q. subst m'. apply A4. apply in_map_iff. exists (m, d). split; [reflexivity|now apply L1].
    + intro X. apply W in X. contradiction.
  - intros m K. at_ m n.
    + destruct ok; [rewrite upd_same in K; discriminate|discriminate].
    + destruct ok; [rewrite upd_other in K by assumption|]; now apply (i_armed s I).
  - exact D.
  - intros m d K. assert (M : m <> n) by (intros ->; apply N; apply in_map_iff; now exists (n, d)).
    rewrite !upd_other by exact M. rewrite V by exact M. destruct (i_run s I m d (L1 m d K)) as (r & A1 & A2 & A3 & A4). exists r. repeat split; auto.
    destruct ok; [|exact A4]. rewrite upd_other by exact M. exact A4.
  - intros m d K1 K2. at_ m n; [destruct ok; discriminate|]. destruct (i_live s I m d K1 K2). split; [assumption|apply in_or_app; now right].
  - intros m d K1 K2. at_ m n; [destruct ok; discriminate|]. rewrite V by assumption. destruct (i_idle s I m d K1 (R m K2 ltac:(assumption))) as [A1 A2].
    split; [exact A1|]. destruct ok; [now rewrite upd_other|exact A2].
  - intros m K1 K2. at_ m n; [congruence|]. rewrite V in K2 by assumption. apply W in K1. now apply (i_held s I).
  - intro m. destruct (Nat.eq_dec m n) as [->|M]; [lia|]. rewrite V by exact M. apply (i_uses s I).
  - intros m r K. at_ m n; [destruct ok; [discriminate|injection K as -> _; discriminate O]|now apply (i_shut s I)].
  - intros m K1 K2. destruct (i_fin s I m K1 K2) as (r & K3). at_ m n; [|now exists r]. rewrite H in K3. injection K3 as -> _. discriminate O.
  - intros m r K. at_ m n; [destruct ok; [discriminate|injection K as -> _; discriminate O]|now apply (i_start s I m)].
  - intros f m K. apply in_app_iff in K. destruct K as [K|K]; [apply E in K; discriminate|now apply (i_clean s I f m)].
Qed.
Lemma pop_head s n c l : inv s -> v_run s = (n, c) :: l ->
  ~ In n (map fst l) /\ NoDup (map fst l) /\ (forall m d, In (m, d) l -> In (m, d) (v_run s)) /\ (forall m, m <> n -> running s m -> In m (map fst l)).
Proof.
  intros I E. pose proof (i_nodup s I) as D. rewrite E in D. cbn in D. inversion D; subst. repeat split; try assumption.
  - intros m d K. rewrite E. now right.
  - intros m K1 K2. unfold running in K2. rewrite E in K2. cbn in K2. destruct K2; [congruence|assumption].
Qed.
Lemma inv_return_py s n c l ok : inv s -> v_run s = (n, c) :: l -> own c = false -> inv (after (free_data (set_run s l) n) n ok).
Proof.
  intros I E O. destruct (pop_head s n c l I E) as (A1 & A2 & A3 & A4). assert (K : In (n, c) (v_run s)) by (rewrite E; now left).
  destruct (i_run s I n c K) as (r & B1 & B2 & B3 & _). rewrite (B2 O) in B1. destruct (i_live s I n c B1 O) as [C1 C2].
  replace (after (free_data (set_run s l) n) n ok) with (retired s n c l [] ok).
  - now apply inv_retired; try assumption; intros x [].
  - unfold free_data. flat. rewrite C1. unfold after. flat. rewrite B1. cbn [o_class]. rewrite O. unfold unregister, retired. cbn [o_class app]. destruct ok; reflexivity.
Qed.
Lemma inv_dereg s n ok : inv s -> held s n -> inv (deregister s n ok).
Proof.
  intros I G. apply held_uses in G. destruct G as [G U]. destruct (i_held s I n G U) as (c & H & O). destruct (i_live s I n c H O) as [C1 C2].
  assert (N : ~ running s n).
  { intro K. apply in_map_iff in K. destruct K as ((m & d) & Q & K). cbn in Q. subst m. destruct (i_run s I n d K) as (r & _ & _ & X & _). congruence. }
  replace (deregister s n ok) with (retired s n c (v_run s) [Gone n] ok).
  - apply inv_retired; try assumption; auto.
    + apply (i_nodup s I).
    + intros x [<-|[]]. reflexivity.
    + cbn [app]. rewrite uses_cons, U. cbn. now rewrite Nat.eqb_refl.
  - unfold deregister. rewrite H. unfold free_data. rewrite C1. unfold remove. flat. rewrite H. cbn [o_class]. rewrite O. unfold unregister, retired. cbn [o_class app].
    destruct ok; reflexivity.
Qed.
Lemma inv_return_own s n c l ok : inv s -> v_run s = (n, c) :: l -> own c = true -> (c = CShutdown -> v_fin s = true) -> inv (after (set_run s l) n ok).
Proof.
  intros I E O F. destruct (pop_head s n c l I E) as (A1 & A2 & A3 & A4). assert (K : In (n, c) (v_run s)) by (rewrite E; now left).
  destruct (i_run s I n c K) as (r & B1 & _ & B3 & B4). specialize (B4 O).
  assert (B : n < v_next s).
  { destruct (Nat.lt_ge_cases n (v_next s)) as [X|X]; [exact X|]. destruct (i_fresh s I n X) as (X1 & _). congruence. }
  unfold after. flat. rewrite B1. cbn [o_class]. rewrite O. constructor; unfold running, faultless; flat.
  - intros m M. assert (N : m <> n) by lia. rewrite !upd_other by exact N. destruct (i_fresh s I m M) as (X1 & X2 & X3 & X4 & X5 & X6 & X7). repeat split; try assumption.
    intro X. apply in_map_iff in X. destruct X as ((m' & d) & Q & X). cbn in Q. subst m'. apply X4. apply in_map_iff. exists (m, d). split; [reflexivity|now apply A3].
  - intros m X. at_ m n; [congruence|now apply (i_armed s I)].
  - exact A2.
  - intros m d X. assert (N : m <> n) by (intros ->; apply A1; apply in_map_iff; now exists (n, d)). rewrite !upd_other by exact N. now apply (i_run s I), A3.
  - intros m d X Y. at_ m n; [discriminate|now apply (i_live s I m d)].
  - intros m d X Y. at_ m n; [discriminate|]. apply (i_idle s I m d X). intro Z. now apply Y, A4.
  - intros m X Y. destruct (i_held s I m X Y) as (d & X1 & X2). at_ m n; [|now exists d]. rewrite B1 in X1. injection X1 as <- _. congruence.
  - apply (i_uses s I).
  - intros m q X. at_ m n; [discriminate|now apply (i_shut s I)].
  - intros m X Y. destruct (i_fin s I m X Y) as (q & Z). at_ m n; [|now exists q]. rewrite B1 in Z. injection Z as -> _. rewrite (F eq_refl) in Y. discriminate.
  - intros m q X. at_ m n; [discriminate|now apply (i_start s I m)].
  - apply (i_clean s I).
Qed.
Lemma finish_set_run s l : gpi_finish (set_run s l) = set_run (gpi_finish s) l.
Proof. unfold gpi_finish, sim_end, remove. flat. destruct (v_fin s); [reflexivity|]. destruct (v_finish s) as [m|]; [|reflexivity]. destruct (v_objs s m) as [x|]; [destruct (own (o_class x)); reflexivity|reflexivity]. Qed.
Lemma inv_return s n c l res ok : inv s -> v_run s = (n, c) :: l -> inv (return_ (set_run s l) n c res ok).
Proof.
  intros I E. destruct (inv_finish s I) as (J1 & J2 & J3 & J4). destruct (own c) eqn:O.
  - destruct c; try discriminate O; cbn [return_].
    + destruct (Z.eqb res 0); [|rewrite finish_set_run]; (apply inv_return_own with (c := CStartup); [assumption|congruence|reflexivity|discriminate]).
    + rewrite finish_set_run. apply inv_return_own with (c := CShutdown); [assumption|congruence|reflexivity|auto].
  - pose proof (inv_return_py s n c l ok I E O) as J. destruct c; try discriminate O; cbn [return_]; (destruct (Z.eqb res 0); [exact J|now apply inv_finish]).
Qed.
Lemma inv_rearm s n : inv s -> v_armed s n = true -> inv (set_armed s n true).
Proof.
  intros I A. assert (V : forall m, upd (v_armed s) n true m = v_armed s m) by (intro m; at_ m n; auto).
  destruct I as [I1 I2 I3 I4 I5 I6 I7 I8 I9 I10 I11 I12]. constructor; unfold running, faultless in *; flat; auto.
  - intros m. rewrite V. apply I1.
  - intros m. rewrite V. apply I2.
  - intros m c. rewrite V. apply I4.
  - intros m c. rewrite V. apply I6.
Qed.
Lemma inv_called s n c again : inv s -> v_objs s n = Some (Obj c false) -> ~ running s n -> (own c = true -> again = false) ->
  inv (set_run (log (set_armed s n again) (Called n)) ((n, c) :: v_run s)).
Proof.
  intros I H N G. destruct (i_idle s I n c H N) as [U A].
  assert (B : n < v_next s).
  { destruct (Nat.lt_ge_cases n (v_next s)) as [X|X]; [exact X|]. destruct (i_fresh s I n X) as (X1 & _). congruence. }
  assert (V : forall m, m <> n -> uses m (Called n :: v_log s) = uses m (v_log s)).
  { intros m M. rewrite uses_cons. cbn. destruct (Nat.eqb_spec n m); [congruence|reflexivity]. }
  constructor; unfold running, faultless; flat; cbn [map fst].
  - intros m M. assert (X : m <> n) by lia. rewrite upd_other, V by exact X. destruct (i_fresh s I m M) as (X1 & X2 & X3 & X4 & X5 & X6 & X7). repeat split; try assumption.
    + intros [Y|Y]; [congruence|contradiction].
    + intros [Y|Y]; [discriminate|contradiction].
  - intros m X. at_ m n; [congruence|now apply (i_armed s I)].
  - constructor; [exact N|apply (i_nodup s I)].
  - intros m d [X|X].
    + injection X as <- <-. exists false. rewrite upd_same, uses_cons, U. cbn. rewrite Nat.eqb_refl. repeat split; auto.
    + assert (M : m <> n) by (intros ->; apply N; apply in_map_iff; now exists (n, d)). rewrite upd_other, V by exact M. now apply (i_run s I).
  - intros m d X Y. destruct (i_live s I m d X Y). split; [assumption|now right].
  - intros m d X Y. assert (M : m <> n) by (intros ->; apply Y; now left). rewrite upd_other, V by exact M. apply (i_idle s I m d X). intro Z. apply Y. now right.
  - intros m [X|X] Y; [discriminate|]. destruct (Nat.eq_dec m n) as [->|M].
    + exfalso. rewrite uses_cons in Y. cbn in Y. rewrite Nat.eqb_refl in Y. discriminate.
    + rewrite V in Y by exact M. now apply (i_held s I).
  - intro m. destruct (Nat.eq_dec m n) as [->|M]; [rewrite uses_cons, U; cbn; rewrite Nat.eqb_refl; lia|rewrite V by exact M; apply (i_uses s I)].
  - apply (i_shut s I).
  - apply (i_fin s I).
  - apply (i_start s I).
  - intros f m [X|X]; [discriminate|now apply (i_clean s I f m)].
Qed.
(** A callback which was marked is made again: nobody is called, and it is taken back or stays marked. *)
Definition squashed (s : st) (n : nat) (c : class) (keep armed : bool) : st :=
  set_armed (set_obj s n (if keep then Some (Obj c true) else None)) n armed.
Lemma inv_squashed s n c keep armed : inv s -> v_objs s n = Some (Obj c true) -> ~ running s n -> (keep = false -> armed = false) -> inv (squashed s n c keep armed).
Proof.
  intros I H N G.
  assert (B : n < v_next s).
  { destruct (Nat.lt_ge_cases n (v_next s)) as [X|X]; [exact X|]. destruct (i_fresh s I n X) as (X1 & _). congruence. }
  assert (T : c <> CStartup) by (intros ->; pose proof (i_start s I n true H); discriminate).
  constructor; unfold squashed, running, faultless; flat.
  - intros m M. assert (X : m <> n) by lia. rewrite !upd_other by exact X. exact (i_fresh s I m M).
  - intros m X. at_ m n; [destruct keep; [discriminate|rewrite (G eq_refl) in X; discriminate]|now apply (i_armed s I)].
  - apply (i_nodup s I).
  - intros m d X. assert (M : m <> n) by (intros ->; apply N; apply in_map_iff; now exists (n, d)). rewrite !upd_other by exact M. now apply (i_run s I).
  - intros m d X Y. at_ m n; [destruct keep; discriminate|now apply (i_live s I m d)].
  - intros m d X Y. at_ m n; [destruct keep; discriminate|now apply (i_idle s I m d)].
  - intros m X Y. destruct (i_held s I m X Y) as (d & X1 & X2). at_ m n; [congruence|now exists d].
  - apply (i_uses s I).
  - intros m r X. at_ m n; [|now apply (i_shut s I)]. destruct keep; [|discriminate]. injection X as -> <-. exact (i_shut s I n true H).
  - intros m X Y. destruct (i_fin s I m X Y) as (r & Z). at_ m n; [|now exists r]. rewrite H in Z. injection Z as -> <-.
    destruct (i_shut s I n true H) as [_ W]. rewrite (W eq_refl) in Y. discriminate.
  - intros m r X. at_ m n; [|now apply (i_start s I m)]. destruct keep; [|discriminate]. injection X as -> _. contradiction.
  - apply (i_clean s I).
Qed.
Lemma call_eq s n c again : inv s -> v_objs s n = Some (Obj c false) ->
  call (set_armed s n again) n (Obj c false) = set_run (log (set_armed s n again) (Called n)) ((n, c) :: v_run s).
Proof.
  intros I H. unfold call. flat. cbn [o_class]. destruct (own c) eqn:O; [reflexivity|]. destruct (i_live s I n c H O) as [-> _]. reflexivity.
Qed.
(** All that a callback of the simulator can do. *)
Variant fired (s : st) (n : nat) (again : bool) (value : pystr) (ok : bool) : st -> Prop :=
| fired_call c : v_objs s n = Some (Obj c false) -> (forall g e, c = CValue g e -> passes e value = true) ->
    fired s n again value ok (set_run (log (set_armed s n again) (Called n)) ((n, c) :: v_run s))
| fired_not g e r : v_objs s n = Some (Obj (CValue g e) r) -> (r = false -> passes e value = false) -> fired s n again value ok (set_armed s n again)
| fired_own c : v_objs s n = Some (Obj c true) -> own c = true -> fired s n again value ok (set_obj (set_armed s n again) n None)
| fired_marked c : v_objs s n = Some (Obj c true) -> own c = false -> is_value c = false ->
    fired s n again value ok (unregister (set_armed s n again) n (Obj c true) ok).
Lemma fire_fired s n again value ok : inv s -> v_armed s n = true -> fired s n again value ok (fire (set_armed s n again) n value ok).
Proof.
  intros I A. unfold fire. flat. destruct (v_objs s n) as [[c r]|] eqn:H; [|now apply (i_armed s I) in A].
  cbn [o_class o_removed]. destruct r.
  - destruct c; try (unfold after; flat; rewrite H; cbn [o_class own]).
    + now apply fired_not with (g := signal) (e := e) (r := true).
    + now apply fired_marked with (c := CTimed time).
    + now apply fired_marked with (c := CReadWrite).
    + now apply fired_marked with (c := CReadOnly).
    + now apply fired_marked with (c := CNextPhase).
    + now apply fired_own with (c := CStartup).
    + now apply fired_own with (c := CShutdown).
  - destruct c; rewrite ?call_eq by assumption; try (apply fired_call; [assumption|discriminate]).
    destruct (passes e value) eqn:P; [apply fired_call; [assumption|]|now apply fired_not with (g := signal) (e := e) (r := false)].
    intros g e' Q. injection Q as _ <-. exact P.
Qed.
Lemma inv_fire s n again value ok : inv s -> v_armed s n = true -> calm s (LFire n again value ok) -> inv (fire (set_armed s n again) n value ok).
Proof.
  intros I A [N C]. destruct (fire_fired s n again value ok I A) as [c H P|g e r H P|c H O|c H O V]; destruct (C _ _ H) as [C1 C2].
  - now apply inv_called.
  - rewrite (C2 eq_refl). now apply inv_rearm.
  - rewrite (C1 O). change (inv (squashed s n c false false)). now apply inv_squashed.
  - unfold unregister. cbn [o_class]. destruct ok.
    + assert (J : inv (squashed s n c false false)) by now apply inv_squashed.
      destruct J as [I1 I2 I3 I4 I5 I6 I7 I8 I9 I10 I11 I12]. unfold squashed in *.
      assert (W : forall m, upd (upd (v_armed s) n again) n false m = upd (v_armed s) n false m) by (intro m; at_ m n; reflexivity).
      constructor; unfold running, faultless in *; flat; auto.
      * intros m. rewrite W. apply I1.
      * intros m. rewrite W. apply I2.
      * intros m d. rewrite W. apply I4.
      * intros m d. rewrite W. apply I6.
    + change (inv (squashed s n c true again)). now apply inv_squashed.
Qed.
Lemma inv_step s l s' : inv s -> calm s l -> step s l = Some s' -> inv s'.
Proof.
  intros I C S. destruct l as [c ok|n ok| |n again value ok|res ok]; cbn [step] in S.
  - destruct (own c) eqn:O; [discriminate S|]. injection S as <-. now apply inv_register.
  - injection S as <-. now apply inv_dereg.
  - injection S as <-. now apply inv_finish.
  - destruct (v_armed s n) eqn:A; [|discriminate S]. injection S as <-. now apply inv_fire.
  - destruct (v_run s) as [|[n c] l] eqn:E; [discriminate S|]. injection S as <-. now apply inv_return.
Qed.
Lemma inv_exec (P : st -> label -> Prop) s ls s' : (forall a l, P a l -> calm a l) -> exec P s ls s' -> inv s -> inv s'.
Proof. intros K H. induction H as [|s l s1 ls s' C S _ IH]; intro I; [exact I|]. apply IH. now apply (inv_step s l s1 I (K _ _ C)). Qed.

(** * Memory *)
(** Whatever is registered, deregistered, called back, nested, refused, and whether the simulation is stopped or ends by itself: no freed
    object and no freed PythonCallback is used or freed again. *)
Theorem C110_safe (ls : list label) (s : st) : exec calm start ls s -> faultless s.
Proof. intro H. apply i_clean. now apply (inv_exec calm start ls s (fun _ _ K => K) H), inv_start. Qed.
Print Assumptions C110_safe.
(** A callback is called or deregistered, once and not both; the callbacks for start and end are called at most once. *)
Theorem C110_once (ls : list label) (s : st) (n : nat) : exec calm start ls s ->
  uses n (v_log s) <= 1 /\ (In (Gone n) (v_log s) -> ~ In (Called n) (v_log s)).
Proof.
  intro H. pose proof (i_uses s (inv_exec calm start ls s (fun _ _ K => K) H inv_start) n) as U. split; [exact U|].
  intros A B. revert U. apply in_split in A. destruct A as (l1 & l2 & E). rewrite E in *. apply in_app_iff in B.
  assert (Y : forall l, In (Called n) l -> 1 <= uses n l).
  { intros l K. destruct (uses n l) eqn:Z; [|lia]. apply uses_0 in Z. tauto. }
  unfold uses. rewrite filter_app, app_length. cbn. rewrite Nat.eqb_refl. cbn. fold (uses n l1). fold (uses n l2).
  destruct B as [B|[B|B]]; [apply Y in B; lia|discriminate|apply Y in B; lia].
Qed.
Print Assumptions C110_once.
(** A callback which is Python's is alive with its function and registered with the simulator. *)
Theorem C110_held (ls : list label) (s : st) (n : nat) : exec calm start ls s -> held s n ->
  exists c, v_objs s n = Some (Obj c false) /\ v_data s n = true /\ v_armed s n = true /\ ~ running s n.
Proof.
  intros H G. pose proof (inv_exec calm start ls s (fun _ _ K => K) H inv_start) as I. apply held_uses in G. destruct G as [G U].
  destruct (i_held s I n G U) as (c & A & O). exists c.
  assert (N : ~ running s n).
  { intro K. apply in_map_iff in K. destruct K as ((m & d) & Q & K). cbn in Q. subst m. destruct (i_run s I n d K) as (r & _ & _ & X & _). congruence. }
  split; [exact A|]. split; [now apply (i_live s I n c)|]. split; [now apply (i_idle s I n c)|exact N].
Qed.
Print Assumptions C110_held.
(** The simulator accepts all registrations and removals. *)
Definition accepted (l : label) : Prop := match l with LReg _ ok | LDereg _ ok | LFire _ _ _ ok | LReturn _ ok => ok = true | LStop => True end.
Definition tidy (s : st) : Prop :=
  (forall n c, v_objs s n = Some (Obj c true) -> own c = true) /\
  (forall n, v_data s n = true -> exists c, v_objs s n = Some (Obj c false) /\ own c = false).
Lemma tidy_finish s : inv s -> tidy s -> tidy (gpi_finish s).
Proof.
  intros I [A B]. unfold gpi_finish. destruct (v_fin s) eqn:F; [now split|]. unfold sim_end. destruct (v_finish s) as [m|] eqn:E; [|now split].
  destruct (i_fin s I m E F) as (r & H). unfold remove. rewrite H. cbn [o_class own]. split; flat.
  - intros n c K. at_ n m; [now injection K as <-|now apply (A n)].
  - intros n K. destruct (B n K) as (c & C & D). at_ n m; [|now exists c]. rewrite H in C. injection C as <- _. discriminate D.
Qed.
Lemma tidy_retired s n c l e : tidy s -> tidy (retired s n c l e true).
Proof.
  intros [A B]. unfold retired. split; flat.
  - intros m d K. at_ m n; [discriminate|now apply (A m)].
  - intros m K. at_ m n; [discriminate|now apply B].
Qed.
Lemma tidy_own s n c r : v_objs s n = Some (Obj c r) -> own c = true -> tidy s -> tidy (set_obj s n None).
Proof.
  intros H O [A B]. split; flat.
  - intros m d K. at_ m n; [discriminate|now apply (A m)].
  - intros m K. destruct (B m K) as (d & D1 & D2). at_ m n; [|now exists d]. rewrite H in D1. injection D1 as <- _. congruence.
Qed.
Lemma tidy_step s l s' : inv s -> tidy s -> calm s l -> accepted l -> step s l = Some s' -> tidy s'.
Proof.
  intros I T C A S. destruct l as [c ok|n ok| |n again value ok|res ok]; cbn [step accepted] in *; try subst ok.
  - destruct (own c) eqn:O; [discriminate S|]. injection S as <-. unfold register. rewrite O. destruct T as [T1 T2]. split; flat.
    + intros m d K. at_ m (v_next s); [discriminate|now apply (T1 m)].
    + intros m K. at_ m (v_next s); [now exists c|now apply T2].
  - injection S as <-. apply held_uses in C. destruct C as [G U]. destruct (i_held s I n G U) as (c & H & O). destruct (i_live s I n c H O) as [C1 C2].
    replace (deregister s n true) with (retired s n c (v_run s) [Gone n] true); [now apply tidy_retired|].
    unfold deregister. rewrite H. unfold free_data. rewrite C1. unfold remove. flat. rewrite H. cbn [o_class]. rewrite O. reflexivity.
  - injection S as <-. now apply tidy_finish.
  - destruct (v_armed s n) eqn:E; [|discriminate S]. injection S as <-. destruct (fire_fired s n again value true I E) as [c H P|g e r H P|c H O|c H O V].
    + exact T.
    + exact T.
    + now apply (tidy_own (set_armed s n again) n c true).
    + destruct T as [T1 _]. rewrite (T1 n c H) in O. discriminate O.
  - destruct (v_run s) as [|[n c] l] eqn:E; [discriminate S|]. injection S as <-.
    assert (K : In (n, c) (v_run s)) by (rewrite E; now left). destruct (i_run s I n c K) as (r & B1 & B2 & B3 & _).
    assert (W : forall q, inv q -> tidy q -> v_run q = (n, c) :: l -> own c = true -> tidy (after (set_run q l) n true)).
    { intros q Iq Tq Eq O. assert (Kq : In (n, c) (v_run q)) by (rewrite Eq; now left). destruct (i_run q Iq n c Kq) as (r' & X & _).
      unfold after. flat. rewrite X. cbn [o_class]. rewrite O. now apply (tidy_own (set_run q l) n c r'). }
    destruct (inv_finish s I) as (J1 & J2 & _). pose proof (tidy_finish s I T) as J3.
    destruct (own c) eqn:O.
    + destruct c; try discriminate O; cbn [return_]; [destruct (Z.eqb res 0)|]; rewrite ?finish_set_run; apply W; auto; congruence.
    + rewrite (B2 eq_refl) in B1. destruct (i_live s I n c B1 O) as [C1 C2].
      assert (Q : after (free_data (set_run s l) n) n true = retired s n c l [] true).
      { unfold free_data. flat. rewrite C1. unfold after. flat. rewrite B1. cbn [o_class]. rewrite O. reflexivity. }
      pose proof (inv_return_py s n c l true I E O) as J. rewrite Q in J. pose proof (tidy_retired s n c l [] T) as R.
      destruct c; try discriminate O; cbn [return_]; rewrite Q; (destruct (Z.eqb res 0); [exact R|now apply tidy_finish]).
Qed.
(** If the simulator accepts everything nothing is leaked: an object is one of the library's own two, being called, or Python's, and the same
    holds for PythonCallbacks. *)
Theorem C110_owned (ls : list label) (s : st) : exec (fun a l => calm a l /\ accepted l) start ls s ->
  (forall n x, v_objs s n = Some x -> own (o_class x) = true \/ running s n \/ held s n) /\
  (forall n, v_data s n = true -> running s n \/ held s n).
Proof.
  intro H. assert (X : inv s /\ tidy s).
  { pose proof inv_start as I. assert (T : tidy start).
    { split; intros n; unfold start, main, register; cbn; destruct n as [|[|n]]; cbn; discriminate. }
    revert I T. induction H as [|s l s1 ls s' [C A] S _ IH]; [auto|]. intros I T. apply IH; [now apply (inv_step s l)|now apply (tidy_step s l)]. }
  destruct X as [I [T1 T2]].
  assert (K : forall n c, v_objs s n = Some (Obj c false) -> own c = false -> running s n \/ held s n).
  { intros n c E O. destruct (in_dec Nat.eq_dec n (map fst (v_run s))) as [R|R]; [now left|right]. apply held_uses.
    destruct (i_live s I n c E O) as [_ G]. destruct (i_idle s I n c E R) as [U _]. now split. }
  split.
  - intros n [c r] E. cbn [o_class]. destruct (own c) eqn:O; [now left|right]. destruct r; [rewrite (T1 n c E) in O; discriminate|]. now apply (K n c).
  - intros n D. destruct (T2 n D) as (c & E & O). now apply (K n c).
Qed.
Print Assumptions C110_owned.

(** * What a callback of the simulator does *)
(** An edge: the function is called if the signal is now 1 (rising), 0 (falling), or in any case; otherwise nothing changes, and the callback
    stays Python's. *)
Theorem C110_edge (ls : list label) (s s' : st) (n g : nat) (e : edge) (value : pystr) (ok : bool) : exec calm start ls s -> held s n ->
  v_objs s n = Some (Obj (CValue g e) false) -> step s (LFire n true value ok) = Some s' ->
  if match e with Rising => pystr_eqb value [49%Z] | Falling => pystr_eqb value [48%Z] | AnyChange => true end
  then v_log s' = Called n :: v_log s /\ v_run s' = (n, CValue g e) :: v_run s
  else v_log s' = v_log s /\ v_run s' = v_run s /\ held s' n.
Proof.
  intros H G E S. pose proof (inv_exec calm start ls s (fun _ _ K => K) H inv_start) as I. cbn [step] in S.
  destruct (v_armed s n) eqn:A; [|discriminate S]. injection S as <-. unfold fire. flat. rewrite E. cbn [o_class o_removed].
  change (match e with Rising => pystr_eqb value [49%Z] | Falling => pystr_eqb value [48%Z] | AnyChange => true end) with (passes e value).
  destruct (passes e value); [rewrite call_eq by assumption; flat; now split|]. flat. repeat split; apply G.
Qed.
Print Assumptions C110_edge.
(** Any other callback which is Python's calls its function. *)
Theorem C110_fires (ls : list label) (s s' : st) (n : nat) (c : class) (again : bool) (value : pystr) (ok : bool) : exec calm start ls s -> held s n ->
  v_objs s n = Some (Obj c false) -> is_value c = false -> step s (LFire n again value ok) = Some s' ->
  v_log s' = Called n :: v_log s /\ v_run s' = (n, c) :: v_run s.
Proof.
  intros H G E V S. pose proof (inv_exec calm start ls s (fun _ _ K => K) H inv_start) as I. cbn [step] in S.
  destruct (v_armed s n) eqn:A; [|discriminate S]. injection S as <-. unfold fire. flat. rewrite E. cbn [o_class o_removed].
  destruct c; try discriminate V; rewrite call_eq by assumption; flat; now split.
Qed.
Print Assumptions C110_fires.
(** A callback which the simulator did not remove calls nobody; unless it is for a change of a value, it is removed when it is made again. *)
Theorem C110_marked (s s' : st) (n : nat) (c : class) (again : bool) (value : pystr) : v_objs s n = Some (Obj c true) -> own c = false ->
  step s (LFire n again value true) = Some s' -> v_log s' = v_log s /\ v_run s' = v_run s /\
  (is_value c = false -> v_objs s' n = None /\ v_armed s' n = false).
Proof.
  intros E O S. cbn [step] in S. destruct (v_armed s n); [|discriminate S]. injection S as <-. unfold fire. flat. rewrite E. cbn [o_class o_removed].
  destruct c; try discriminate O; unfold after; flat; rewrite ?E; cbn [own o_class unregister]; flat; rewrite ?upd_same; (split; [reflexivity|]); (split; [reflexivity|]); intro K; (discriminate K || auto).
Qed.
Print Assumptions C110_marked.
(** For a change of a value this does not hold: nobody ever frees the object nor asks again for its removal, whatever happens. *)
Theorem C110_stuck (ls ls' : list label) (s s' : st) (n g : nat) (e : edge) : exec calm start ls s -> v_objs s n = Some (Obj (CValue g e) true) ->
  exec calm s ls' s' -> v_objs s' n = Some (Obj (CValue g e) true) /\ v_armed s' n = v_armed s n /\ uses n (v_log s') = uses n (v_log s).
Proof.
  intros H0 E H. pose proof (inv_exec calm start ls s (fun _ _ K => K) H0 inv_start) as I. clear H0 ls.
  induction H as [|s l s1 ls s' C S _ IH]; [auto|].
  assert (N : ~ running s n).
  { intro K. apply in_map_iff in K. destruct K as ((m & d) & Q & K). cbn in Q. subst m. destruct (i_run s I n d K) as (r & X & Y & _). rewrite E in X. injection X as <- <-.
    specialize (Y eq_refl). discriminate Y. }
  enough (X : v_objs s1 n = Some (Obj (CValue g e) true) /\ v_armed s1 n = v_armed s n /\ uses n (v_log s1) = uses n (v_log s)).
  { destruct X as (X1 & X2 & X3). destruct (IH X1 (inv_step s l s1 I C S)) as (Y1 & Y2 & Y3). repeat split; [exact Y1|now rewrite Y2|now rewrite Y3]. }
  assert (FIN : forall q, inv q -> v_objs q n = Some (Obj (CValue g e) true) -> v_objs (gpi_finish q) n = Some (Obj (CValue g e) true) /\
     v_armed (gpi_finish q) n = v_armed q n /\ uses n (v_log (gpi_finish q)) = uses n (v_log q)).
  { intros q Iq Eq. unfold gpi_finish. destruct (v_fin q) eqn:F; [auto|]. unfold sim_end. destruct (v_finish q) as [m|] eqn:M; [|flat; rewrite uses_cons; auto].
    destruct (i_fin q Iq m M F) as (r & X). unfold remove. rewrite X. cbn [o_class own]. flat. rewrite uses_cons. assert (m <> n) by congruence. rewrite upd_other by auto. auto. }
  clear IH ls s'. destruct l as [c ok|m ok| |m again value ok|res ok]; cbn [step] in S.
  - destruct (own c) eqn:O; [discriminate S|]. injection S as <-.
    assert (M : n <> v_next s) by (intros ->; destruct (i_fresh s I (v_next s) (le_n _)) as (X & _); congruence).
    unfold register. rewrite O. destruct ok; flat; rewrite ?uses_cons, ?upd_other by exact M; auto.
  - injection S as <-. apply held_uses in C. destruct C as [G U]. destruct (i_held s I m G U) as (c & X & O). destruct (i_live s I m c X O) as [C1 C2].
    assert (M : n <> m) by congruence. unfold deregister. rewrite X. unfold free_data. rewrite C1. unfold remove. flat. rewrite X. cbn [o_class]. rewrite O.
    unfold unregister. destruct ok; flat; rewrite uses_cons, ?upd_other by exact M; cbn; (destruct (Nat.eqb_spec m n); [congruence|auto]).
  - injection S as <-. now apply FIN.
  - destruct (v_armed s m) eqn:A; [|discriminate S]. injection S as <-. destruct C as [C1 C2].
    destruct (fire_fired s m again value ok I A) as [c X P|g' e' r X P|c X O|c X O V].
    + assert (M : n <> m) by congruence. flat. rewrite uses_cons, upd_other by exact M. cbn. destruct (Nat.eqb_spec m n); [congruence|auto].
    + destruct (C2 _ _ X) as [_ C3]. rewrite (C3 eq_refl). flat. repeat split; auto. at_ n m; auto.
    + assert (M : n <> m) by (intros ->; rewrite E in X; injection X as <-; discriminate O). flat. rewrite !upd_other by exact M. auto.
    + assert (M : n <> m) by (intros ->; rewrite E in X; injection X as <-; discriminate V). unfold unregister. destruct ok; flat; rewrite !upd_other by exact M; auto.
  - destruct (v_run s) as [|[m c] l] eqn:R; [discriminate S|]. injection S as <-.
    assert (M : n <> m) by (intros ->; apply N; unfold running; rewrite R; now left).
    assert (K : In (m, c) (v_run s)) by (rewrite R; now left).
    assert (OWN : forall q, inv q -> v_run q = (m, c) :: l -> v_objs (after (set_run q l) m ok) n = v_objs q n \/ own c = false).
    { intros q Iq Rq. destruct (own c) eqn:O; [left|now right]. assert (Kq : In (m, c) (v_run q)) by (rewrite Rq; now left).
      destruct (i_run q Iq m c Kq) as (r & X & _). unfold after. flat. rewrite X. cbn [o_class]. rewrite O. flat. now rewrite upd_other. }
    assert (OWN2 : forall q, inv q -> v_run q = (m, c) :: l -> own c = true -> v_armed (after (set_run q l) m ok) n = v_armed q n /\ uses n (v_log (after (set_run q l) m ok)) = uses n (v_log q)).
    { intros q Iq Rq O. assert (Kq : In (m, c) (v_run q)) by (rewrite Rq; now left).
      destruct (i_run q Iq m c Kq) as (r & X & _). unfold after. flat. rewrite X. cbn [o_class]. rewrite O. auto. }
    destruct (inv_finish s I) as (J1 & J2 & _). destruct (FIN s I E) as (F1 & F2 & F3).
    destruct (own c) eqn:O.
    + assert (Y : forall q, inv q -> v_run q = (m, c) :: l -> v_objs q n = Some (Obj (CValue g e) true) -> v_objs (after (set_run q l) m ok) n = Some (Obj (CValue g e) true)).
      { intros q Iq Rq Eq. destruct (OWN q Iq Rq) as [Z|Z]; [now rewrite Z|discriminate Z]. }
      destruct c; try discriminate O; cbn [return_]; [destruct (Z.eqb res 0)|]; rewrite ?finish_set_run.
      * split; [now apply Y|now apply OWN2].
      * split; [apply Y; [exact J1|congruence|exact F1]|]. destruct (OWN2 (gpi_finish s) J1 ltac:(congruence) eq_refl) as [-> ->]. auto.
      * split; [apply Y; [exact J1|congruence|exact F1]|]. destruct (OWN2 (gpi_finish s) J1 ltac:(congruence) eq_refl) as [-> ->]. auto.
    + destruct (i_run s I m c K) as (r & B1 & B2 & B3 & _). rewrite (B2 O) in B1. destruct (i_live s I m c B1 O) as [C1 C2].
      assert (Q : after (free_data (set_run s l) m) m ok = retired s m c l [] ok).
      { unfold free_data. flat. rewrite C1. unfold after. flat. rewrite B1. cbn [o_class]. rewrite O. unfold unregister, retired. cbn [o_class app]. destruct ok; reflexivity. }
      pose proof (inv_return_py s m c l ok I R O) as J. rewrite Q in J.
      assert (Z : v_objs (retired s m c l [] ok) n = Some (Obj (CValue g e) true) /\ v_armed (retired s m c l [] ok) n = v_armed s n /\ uses n (v_log (retired s m c l [] ok)) = uses n (v_log s)).
      { unfold retired. flat. rewrite upd_other by exact M. repeat split; auto. destruct ok; [now rewrite upd_other|reflexivity]. }
      destruct Z as (Z1 & Z2 & Z3). destruct (FIN _ J Z1) as (Z4 & Z5 & Z6).
      destruct c; try discriminate O; cbn [return_]; rewrite Q; (destruct (Z.eqb res 0); [auto|]); (split; [exact Z4|]); (split; [now rewrite Z5|now rewrite Z6]).
Qed.
Print Assumptions C110_stuck.

(** * Counterexamples and cases *)
(** The runs used below, checked by computation. *)
Fixpoint runs (s : st) (ls : list label) : option st := match ls with [] => Some s | l :: ls' => match step s l with Some s' => runs s' ls' | None => None end end.
Definition memb (e : ev -> bool) (s : st) : bool := existsb e (v_log s).
Definition is_got (n : nat) (e : ev) : bool := match e with Got m => m =? n | _ => false end.
Definition calmb (s : st) (l : label) : bool :=
  match l with
  | LDereg n _ => memb (is_got n) s && negb (memb (about n) s)
  | LFire n again _ _ => negb (existsb (Nat.eqb n) (map fst (v_run s))) &&
      match v_objs s n with Some x => (negb (own (o_class x)) || negb again) && (negb (is_value (o_class x)) || again) | None => true end
  | _ => true
  end.
Lemma calmb_calm s l : calmb s l = true -> calm s l.
Proof.
  destruct l as [c ok|n ok| |n again value ok|res ok]; cbn; try exact (fun _ => Logic.I).
  - intro H. apply andb_prop in H. destruct H as [A B]. apply held_uses. unfold memb in *. split.
    + apply existsb_exists in A. destruct A as (e & A & E). destruct e; try discriminate E. cbn in E. apply Nat.eqb_eq in E. now subst.
    + unfold uses. apply Bool.negb_true_iff in B. revert B. generalize (v_log s). induction l as [|e l IH]; [reflexivity|]. cbn. destruct (about n e); [discriminate|exact IH].
  - intro H. apply andb_prop in H. destruct H as [A B]. split.
    + intro K. apply Bool.negb_true_iff in A. assert (X : existsb (Nat.eqb n) (map fst (v_run s)) = true) by (apply existsb_exists; exists n; split; [exact K|apply Nat.eqb_refl]). congruence.
    + intros c r E. rewrite E in B. cbn [o_class] in B. apply andb_prop in B. destruct B as [B1 B2]. split; intro K; rewrite K in *; [now destruct again|exact B2].
Qed.
Fixpoint runs_calm (s : st) (ls : list label) : option st :=
  match ls with [] => Some s | l :: ls' => if calmb s l then match step s l with Some s' => runs_calm s' ls' | None => None end else None end.
Lemma runs_calm_exec ls : forall s s', runs_calm s ls = Some s' -> exec calm s ls s'.
Proof.
  induction ls as [|l ls IH]; cbn; intros s s' H; [injection H as <-; constructor|]. destruct (calmb s l) eqn:C; [|discriminate]. destruct (step s l) as [s1|] eqn:S; [|discriminate].
  apply exec_cons with s1; [now apply calmb_calm|exact S|now apply IH].
Qed.

(** A whole life: the start, where Python waits for a delay and an edge; the delay gives up the edge, which the simulator refuses; the
    refused callback is made and calls nobody; a nested callback; the simulation ends by itself, which asks for the end. *)
Definition life2 : list label :=
  [LFire 0 false [] true; LReg (CTimed 10) true; LReg (CValue 5 Rising) true; LReg (CValue 6 AnyChange) true; LReturn 0 true;
   LFire 2 false [] true; LFire 4 true (lit "0101") true; LReturn 0 true; LDereg 3 false; LReturn 0 true;
   LFire 3 true (lit "1") true; LFire 1 false [] true; LReturn 0 true].
Example C110_life_ex : exists s, exec calm start life2 s /\
  v_log s = [Finish; Called 1; Gone 3; Called 4; Called 2; Got 4; Got 3; Got 2; Called 0] /\
  v_objs s 3 = Some (Obj (CValue 5 Rising) true) /\ v_armed s 3 = true /\ v_objs s 1 = None /\ v_objs s 2 = None /\ v_objs s 4 = None.
Proof. eexists. split; [apply runs_calm_exec; vm_compute; reflexivity|]. repeat split. Qed.
Example C110_owned_ex : exists s, exec (fun a l => calm a l /\ accepted l) start [LFire 0 false [] true; LReg (CTimed 10) true; LReg CReadOnly true; LReturn 0 true; LFire 2 false [] true] s /\
  running s 2 /\ held s 3 /\ v_objs s 1 <> None.
Proof.
  eexists. split.
  - repeat (eapply exec_cons; [split; [apply calmb_calm; vm_compute; reflexivity|reflexivity]|vm_compute; reflexivity|]). apply exec_nil.
  - split; [now left|]. split; [|discriminate]. apply held_uses. split; [cbn; tauto|reflexivity].
Qed.
Example C110_edge_ex : exists s, exec calm start [LFire 0 false [] true; LReg (CValue 5 Rising) true] s /\ held s 2 /\
  v_objs s 2 = Some (Obj (CValue 5 Rising) false) /\ step s (LFire 2 true (lit "1") true) <> None.
Proof. eexists. split; [apply runs_calm_exec; vm_compute; reflexivity|]. split; [apply held_uses; split; [cbn; tauto|reflexivity]|]. now split. Qed.
Example C110_fires_ex : exists s, exec calm start [LFire 0 false [] true; LReg CReadWrite true] s /\ held s 2 /\
  v_objs s 2 = Some (Obj CReadWrite false) /\ step s (LFire 2 true [] true) <> None.
Proof. eexists. split; [apply runs_calm_exec; vm_compute; reflexivity|]. split; [apply held_uses; split; [cbn; tauto|reflexivity]|]. now split. Qed.
Example C110_marked_ex : exists s, exec calm start [LFire 0 false [] true; LReg CReadWrite true; LDereg 2 false] s /\
  v_objs s 2 = Some (Obj CReadWrite true) /\ v_armed s 2 = true.
Proof. eexists. split; [apply runs_calm_exec; vm_compute; reflexivity|]. now split. Qed.
(** The promise of the comment in VhpiCbHdl.cpp:58-59, that a callback which could not be removed is removed once it fires, fails for changes
    of values: it may fire again and again, with a simulator which would accept the removal. *)
Theorem C110_cleanly_refuted : exists ls s, exec calm start ls s /\ In (Gone 2) (v_log s) /\ v_objs s 2 <> None /\
  forall k value, exists s', exec calm s (repeat (LFire 2 true value true) k) s' /\ v_objs s' 2 <> None /\ v_armed s' 2 = true.
Proof.
  set (ls := [LFire 0 false [] true; LReg (CValue 5 Rising) true; LDereg 2 false; LReturn 0 true]).
  destruct (runs_calm start ls) as [s|] eqn:R; [|vm_compute in R; discriminate R]. pose proof (runs_calm_exec ls start s R) as H.
  assert (F : v_log s = [Gone 2; Got 2; Called 0] /\ v_objs s 2 = Some (Obj (CValue 5 Rising) true) /\ v_armed s 2 = true /\ v_run s = []).
  { vm_compute in R. injection R as <-. repeat split. }
  destruct F as (F1 & F2 & F3 & F4). exists ls, s. split; [exact H|]. split; [rewrite F1; now left|]. split; [congruence|]. intros k value. clear R H F1. revert s F2 F3 F4.
  induction k as [|k IH]; intros s F2 F3 F4; cbn [repeat]; [exists s; split; [constructor|split; [congruence|assumption]]|].
  assert (Q : step s (LFire 2 true value true) = Some (set_armed s 2 true)) by (cbn [step]; rewrite F3; unfold fire; flat; rewrite F2; reflexivity).
  destruct (IH (set_armed s 2 true)) as (s' & A & B); [assumption|now flat; rewrite upd_same|assumption|]. exists s'. split; [|exact B]. apply exec_cons with (set_armed s 2 true); [|exact Q|exact A].
  cbn. split; [unfold running; rewrite F4; intros []|]. intros c r E. rewrite F2 in E. injection E as <- <-. split; [discriminate|reflexivity].
Qed.
Print Assumptions C110_cleanly_refuted.
(** A signal is written at once by the function which waits for it, and the simulator reports the change at once: the function is called
    a second time, and the freed object is used. There is no queue as for the VPI. *)
Theorem C110_own_refuted : exists ls s, runs start ls = Some s /\
  ls = [LFire 0 false [] true; LReg (CValue 5 AnyChange) true; LReturn 0 true; LFire 2 true (lit "1") true; LFire 2 true (lit "0") true; LReturn 0 true; LReturn 0 true] /\
  uses 2 (v_log s) = 2 /\ In (Fault FObject 2) (v_log s) /\ In (Fault FData 2) (v_log s).
Proof. eexists _, _. split; [|split; [reflexivity|]]; [vm_compute; reflexivity|]. repeat split; cbn; tauto. Qed.
Print Assumptions C110_own_refuted.
(** A function deregisters its own callback. *)
Theorem C110_within_refuted : exists ls s, runs start ls = Some s /\
  ls = [LFire 0 false [] true; LReg CReadOnly true; LReturn 0 true; LFire 2 false [] true; LDereg 2 true; LReturn 0 true] /\
  In (Fault FObject 2) (v_log s) /\ In (Fault FData 2) (v_log s).
Proof. eexists _, _. split; [|split; [reflexivity|]]; [vm_compute; reflexivity|]. split; cbn; tauto. Qed.
Print Assumptions C110_within_refuted.
(** A registration which the simulator refuses leaves the PythonCallback behind for ever. *)
Theorem C110_leak_refuted : exists s, exec calm start [LFire 0 false [] true; LReg (CTimed 5) false; LReturn 0 true] s /\ v_data s 2 = true /\ v_objs s 2 = None /\ v_run s = [].
Proof. eexists. split; [apply runs_calm_exec; vm_compute; reflexivity|]. repeat split. Qed.
Print Assumptions C110_leak_refuted.

(** * Start *)
(** Without one of the two callbacks the process exits, and the object of the other is not left unmarked. *)
Theorem C110_main (ok1 ok2 : bool) : let s := main init ok1 ok2 in
  (In Exit (v_log s) <-> ok1 && ok2 = false) /\ faultless s /\
  (ok1 && ok2 = true -> exists m, v_finish s = Some m /\ v_objs s m = Some (Obj CShutdown false) /\ v_armed s m = true) /\
  (ok1 && ok2 = false -> forall n x, v_objs s n = Some x -> o_removed x = true).
Proof.
  intro s. subst s. destruct ok1, ok2; cbn -[In].
  - split; [split; [intros []|discriminate]|]. split; [intros f n []|]. split; [|discriminate]. intros _. exists 1. auto.
  - split; [split; [reflexivity|intros _; now left]|]. split; [intros f n [K|[]]; discriminate|]. split; [discriminate|].
    intros _ [|[|n]] x K; cbn in K; try discriminate. now injection K as <-.
  - split; [split; [reflexivity|intros _; now left]|]. split; [intros f n [K|[]]; discriminate|]. split; [discriminate|]. intros _ n x K. discriminate K.
  - split; [split; [reflexivity|intros _; now left]|]. split; [intros f n [K|[]]; discriminate|]. split; [discriminate|]. intros _ n x K. discriminate K.
Qed.
Print Assumptions C110_main.

(** * Reasons *)
(** Each class has its own reason. *)
Theorem C110_reason (c d : class) : reason c = reason d -> is_value c = is_value d /\ own c = own d /\
  match c, d with CValue _ _, CValue _ _ | CTimed _, CTimed _ | CReadWrite, CReadWrite | CReadOnly, CReadOnly | CNextPhase, CNextPhase | CStartup, CStartup | CShutdown, CShutdown => True | _, _ => False end.
Proof. destruct c, d; cbn; intro H; try discriminate H; now repeat split. Qed.
Print Assumptions C110_reason.
(** Three of them are registered for a repetitive reason, for which the messages only say "unknown". *)
Theorem C110_unknown (c : class) : reason_to_string (reason c) = "unknown"%string <-> c = CReadWrite \/ c = CReadOnly \/ c = CNextPhase.
Proof. destruct c; cbn; split; intro H; try discriminate H; try tauto; destruct H as [H|[H|H]]; discriminate H. Qed.
Print Assumptions C110_unknown.
(** The numbers of /repo/src/cocotb/_vendor/vhpi/vhpi_user.h:906-952 for the reasons which the library uses or names. *)
Definition header : list (string * Z) :=
  [("vhpiCbValueChange", 1001); ("vhpiCbAfterDelay", 1010); ("vhpiCbNextTimeStep", 1012); ("vhpiCbRepNextTimeStep", 1013);
   ("vhpiCbStartOfNextCycle", 1014); ("vhpiCbEndOfProcesses", 1018); ("vhpiCbLastKnownDeltaCycle", 1020); ("vhpiCbRepLastKnownDeltaCycle", 1021);
   ("vhpiCbStartOfPostponed", 1022); ("vhpiCbEndOfTimeStep", 1024); ("vhpiCbRepEndOfTimeStep", 1025);
   ("vhpiCbStartOfSimulation", 1034); ("vhpiCbEndOfSimulation", 1035)]%Z.
(** Each class asks for the reason which its constructor names. *)
Theorem C110_reasons (c : class) : In (match c with
  | CValue _ _ => "vhpiCbValueChange" | CTimed _ => "vhpiCbAfterDelay" | CReadWrite => "vhpiCbRepLastKnownDeltaCycle"
  | CReadOnly => "vhpiCbRepEndOfTimeStep" | CNextPhase => "vhpiCbRepNextTimeStep" | CStartup => "vhpiCbStartOfSimulation"
  | CShutdown => "vhpiCbEndOfSimulation" end%string, reason c) header.
Proof. destruct c; cbn; tauto. Qed.
Print Assumptions C110_reasons.
(** A message names the reason as the header does, for every reason of the header which is not repetitive. *)
Theorem C110_named (name : string) (r : Z) : In (name, r) header ->
  reason_to_string r = (if String.prefix "vhpiCbRep" name then "unknown" else name)%string.
Proof. cbn. intro H. repeat (destruct H as [H|H]; [injection H as <- <-; reflexivity|]). destruct H. Qed.
Example C110_named_example : In ("vhpiCbEndOfTimeStep", 1024%Z) header /\ reason_to_string 1024 = "vhpiCbEndOfTimeStep"%string.
Proof. split; [cbn; tauto|reflexivity]. Qed.
Print Assumptions C110_named.

(** C106: callbacks of the FLI share objects only one after the other. *)
From Coq Require Import Arith String Lia.
From Verif Require Import Base FliCbModel.
Open Scope nat_scope.

(** ** What the one who registers knows *)
(** Who holds the object [n]: the last thing recorded of it is the registration. The latest event is first. *)
Fixpoint holder (l : list ev) (n : nat) : option (req * nat) :=
  match l with
  | [] => None
  | Registered m r f :: l => if m =? n then Some (r, f) else holder l n
  | Removed m :: l | Called m _ :: l => if m =? n then None else holder l n
  | Ended :: l => holder l n
  end.
(** Only what is held is removed; the simulator does not run a process which is running. *)
Definition removes_held (s : st) (l : label) : Prop := match l with LRem n => holder (s_log s) n <> None | _ => True end.
Definition no_reentry (s : st) (l : label) : Prop := match l with LFire n _ => ~ In n (s_run s) | _ => True end.
Definition proper (s : st) (l : label) : Prop := removes_held s l /\ no_reentry s l.
Inductive execP (P : st -> label -> Prop) : st -> list label -> st -> Prop :=
| e_nil s : execP P s [] s
| e_cons s l s1 ls s2 : P s l -> step s l = Some s1 -> execP P s1 ls s2 -> execP P s (l :: ls) s2.

(** ** Invariant *)
Definition kinded (s : st) (n : nat) (k : kind) : Prop := exists c, s_objs s n = Some c /\ kind_of (b_req c) = k.
Record inv (s : st) : Prop := Inv {
  i_objs : forall n, s_objs s n <> None <-> n < s_next s;
  i_free : forall k, NoDup (s_free s k) /\ forall n, In n (s_free s k) -> kinded s n k /\ s_armed s n = None /\ ~ In n (s_run s) /\ holder (s_log s) n = None;
  i_run : NoDup (s_run s) /\ forall n, In n (s_run s) -> holder (s_log s) n = None /\ exists c, s_objs s n = Some c /\
    (s_armed s n = None <-> kind_of (b_req c) <> KChange);
  i_all : forall n c, s_objs s n = Some c -> In n (s_free s (kind_of (b_req c))) \/ In n (s_run s) \/ s_armed s n <> None;
  i_held : forall n r f, holder (s_log s) n = Some (r, f) -> s_objs s n = Some (Cb r false f) /\ s_armed s n = Some (want_of r) /\ ~ In n (s_run s);
  i_armed : forall n w, s_armed s n = Some w -> exists c, s_objs s n = Some c /\ w = want_of (b_req c) /\
    (~ In n (s_run s) -> holder (s_log s) n = Some (b_req c, b_fn c) /\ b_removed c = false \/
       holder (s_log s) n = None /\ b_removed c = true /\ kind_of (b_req c) <> KChange);
  i_calls : forall l2 n f l1, s_log s = (l2 ++ Called n f :: l1)%list -> exists r, holder l1 n = Some (r, f) }.

Lemma upd_eq {A} (f : nat -> A) n a : upd f n a n = a.
Proof. unfold upd. now rewrite Nat.eqb_refl. Qed.
Lemma upd_ne {A} (f : nat -> A) n a m : m <> n -> upd f n a m = f m.
Proof. intros N. unfold upd. now rewrite (proj2 (Nat.eqb_neq m n) N). Qed.
Lemma kind_eqb_true a b : kind_eqb a b = true <-> a = b.
Proof. destruct a, b; cbn; split; congruence. Qed.
Lemma kind_eqb_refl a : kind_eqb a a = true.
Proof. now destruct a. Qed.
Lemma set_free_eq f k l : set_free f k l k = l.
Proof. unfold set_free. now rewrite kind_eqb_refl. Qed.
Lemma set_free_ne f k l j : j <> k -> set_free f k l j = f j.
Proof. intros N. unfold set_free. destruct (kind_eqb j k) eqn:E; [|reflexivity]. now apply kind_eqb_true in E. Qed.
Lemma kind_dec (a b : kind) : {a = b} + {a <> b}.
Proof. decide equality. Qed.
Lemma calls_app e l : (forall n f, e <> Called n f) -> (forall l2 n f l1, l = (l2 ++ Called n f :: l1)%list -> exists r, holder l1 n = Some (r, f)) ->
  forall l2 n f l1, e :: l = (l2 ++ Called n f :: l1)%list -> exists r, holder l1 n = Some (r, f).
Proof. intros N C [|x l2] n f l1 E; injection E as E1 E2; [now apply N in E1|]. exact (C l2 n f l1 E2). Qed.

Lemma inv_init : inv init.
Proof.
  constructor; cbn; try discriminate; try (intros; lia).
  - intros n. split; [congruence|lia].
  - intros k. split; [constructor|]. intros n [].
  - split; [constructor|]. intros n [].
  - intros [|x l2] n f l1 E; discriminate.
Qed.

(** An object which is acquired is out of use. *)
Lemma acquired s k n s1 : inv s -> acquire s k = (n, s1) -> s_armed s n = None /\ ~ In n (s_run s) /\ holder (s_log s) n = None /\
  (forall j, ~ In n (s_free s1 j)) /\ (forall c, s_objs s n = Some c -> kind_of (b_req c) = k).
Proof.
  intros I E. unfold acquire in E. destruct (s_free s k) as [|m l] eqn:F.
  - injection E as <- <-. cbn.
    assert (N : s_objs s (s_next s) = None). { destruct (s_objs s (s_next s)) eqn:O; [|reflexivity]. assert (L : s_next s < s_next s) by (apply (i_objs s I); congruence). lia. }
    split. { destruct (s_armed s (s_next s)) eqn:A; [|reflexivity]. destruct (i_armed s I _ _ A) as (c & O & _). congruence. }
    split. { intros R. destruct (proj2 (i_run s I) _ R) as (_ & c & O & _). congruence. }
    split. { destruct (holder (s_log s) (s_next s)) as [[r f]|] eqn:H; [|reflexivity]. destruct (i_held s I _ _ _ H) as (O & _). congruence. }
    split. { intros j J. destruct (proj2 (i_free s I j) _ J) as ((c & O & _) & _). congruence. }
    intros c O. congruence.
  - injection E as <- <-. cbn. pose proof (i_free s I k) as [D G]. rewrite F in D, G. destruct (G m (or_introl eq_refl)) as ((c & O & K) & A & R & H).
    split; [exact A|]. split; [exact R|]. split; [exact H|]. split.
    + intros j J. destruct (kind_dec j k) as [->|N].
      * rewrite set_free_eq in J. now inversion D.
      * rewrite set_free_ne in J by exact N. destruct (proj2 (i_free s I j) _ J) as ((c' & O' & K') & _). congruence.
    + intros c' O'. congruence.
Qed.
Lemma acquire_rest s k n s1 : acquire s k = (n, s1) -> s_objs s1 = s_objs s /\ s_armed s1 = s_armed s /\ s_run s1 = s_run s /\ s_log s1 = s_log s /\
  (forall j m, In m (s_free s1 j) -> In m (s_free s j)) /\ (forall j m, m <> n -> In m (s_free s j) -> In m (s_free s1 j)) /\
  (forall j, NoDup (s_free s j) -> NoDup (s_free s1 j)) /\
  (s_free s k = [] /\ n = s_next s /\ s_next s1 = S (s_next s) \/ In n (s_free s k) /\ s_next s1 = s_next s).
Proof.
  unfold acquire. destruct (s_free s k) as [|m l] eqn:F; intros [= <- <-]; cbn.
  - do 4 (split; [reflexivity|]). split; [auto|]. split; [auto|]. split; [auto|]. now left.
  - do 4 (split; [reflexivity|]). split; [|split; [|split]].
    + intros j x. destruct (kind_dec j k) as [->|N]; [rewrite set_free_eq, F; now right|now rewrite set_free_ne].
    + intros j x NE. destruct (kind_dec j k) as [->|N]; [rewrite set_free_eq, F; intros [E|E]; [now destruct NE|exact E]|now rewrite set_free_ne].
    + intros j. destruct (kind_dec j k) as [->|N]; [rewrite set_free_eq, F; now inversion 1|now rewrite set_free_ne].
    + right. split; [now left|reflexivity].
Qed.

Lemma inv_register s r f : inv s -> inv (register s r f).
Proof.
  intros I. unfold register. destruct (acquire s (kind_of r)) as [n s1] eqn:E.
  destruct (acquired s _ n s1 I E) as (A & R & H & NF & K). destruct (acquire_rest s _ n s1 E) as (E1 & E2 & E3 & E4 & F1 & F2 & F3 & NX).
  unfold log. constructor; cbn [s_objs s_armed s_next s_free s_run s_log]; rewrite ?E1, ?E2, ?E3, ?E4.
  - intros m. destruct (Nat.eq_dec m n) as [->|N].
    + rewrite upd_eq. split; [|discriminate]. intros _. destruct NX as [(_ & -> & ->)|(J & ->)]; [lia|].
      destruct (proj2 (i_free s I _) _ J) as ((c & O & _) & _). apply (i_objs s I). congruence.
    + rewrite upd_ne by exact N. rewrite (i_objs s I m). destruct NX as [(_ & -> & ->)|(_ & ->)]; lia.
  - intros k. split; [exact (F3 k (proj1 (i_free s I k)))|]. intros m J. assert (N : m <> n) by (intros ->; exact (NF k J)).
    destruct (proj2 (i_free s I k) m (F1 k m J)) as ((c & O & Kc) & Am & Rm & Hm). split; [|split; [|split]].
    + exists c. cbn. now rewrite upd_ne.
    + now rewrite upd_ne.
    + exact Rm.
    + cbn. now rewrite (proj2 (Nat.eqb_neq n m) (not_eq_sym N)).
  - split; [exact (proj1 (i_run s I))|]. intros m J. assert (N : m <> n) by (intros ->; exact (R J)).
    destruct (proj2 (i_run s I) m J) as (Hm & c & O & Ac). split; [cbn; now rewrite (proj2 (Nat.eqb_neq n m) (not_eq_sym N))|].
    exists c. rewrite !upd_ne by exact N. now split.
  - intros m c. destruct (Nat.eq_dec m n) as [->|N].
    + rewrite !upd_eq. intros [= <-]. right. right. discriminate.
    + rewrite !upd_ne by exact N. intros O. destruct (i_all s I m c O) as [J|[J|J]]; [left; now apply F2|auto|auto].
  - intros m r' f'. cbn. destruct (Nat.eqb_spec n m) as [->|N].
    + intros [= <- <-]. rewrite !upd_eq. auto.
    + rewrite !upd_ne by (intros ->; now apply N). apply (i_held s I).
  - intros m w. destruct (Nat.eq_dec m n) as [->|N].
    + rewrite !upd_eq. intros [= <-]. exists (Cb r false f). split; [reflexivity|]. split; [reflexivity|]. intros _. left. cbn. now rewrite Nat.eqb_refl.
    + rewrite !upd_ne by exact N. intros W. destruct (i_armed s I m w W) as (c & O & Ew & Q). exists c. split; [exact O|]. split; [exact Ew|].
      cbn. now rewrite (proj2 (Nat.eqb_neq n m) (not_eq_sym N)).
  - apply calls_app; [discriminate|exact (i_calls s I)].
Qed.

Lemma inv_remove s n c : inv s -> s_objs s n = Some c -> holder (s_log s) n <> None -> inv (remove s n c).
Proof.
  intros I O H. destruct (holder (s_log s) n) as [[r f]|] eqn:E; [|congruence]. clear H.
  destruct (i_held s I n r f E) as (O' & A & R). rewrite O in O'. injection O' as ->.
  assert (NF : forall k, ~ In n (s_free s k)). { intros k J. destruct (proj2 (i_free s I k) n J) as (_ & A' & _). congruence. }
  assert (C : forall l2 m g l1, Removed n :: s_log s = (l2 ++ Called m g :: l1)%list -> exists r, holder l1 m = Some (r, g)) by (apply calls_app; [discriminate|exact (i_calls s I)]).
  assert (HM : forall m, m <> n -> holder (Removed n :: s_log s) m = holder (s_log s) m). { intros m N. cbn. now rewrite (proj2 (Nat.eqb_neq n m) (not_eq_sym N)). }
  assert (HN : holder (Removed n :: s_log s) n = None) by (cbn; now rewrite Nat.eqb_refl).
  unfold remove. cbn [b_req b_fn].
  destruct (kind_dec (kind_of r) KChange) as [K|K].
  - destruct r as [|sg e| | |]; try discriminate. unfold log, release, disarm. constructor; cbn [s_objs s_armed s_next s_free s_run s_log].
    + exact (i_objs s I).
    + intros k. destruct (kind_dec k KChange) as [->|Nk].
      * rewrite set_free_eq. split; [constructor; [exact (NF KChange)|exact (proj1 (i_free s I KChange))]|]. intros m [<-|J].
        -- rewrite upd_eq. split; [eexists; split; [exact O|reflexivity]|]. auto.
        -- assert (N : m <> n) by (intros ->; exact (NF _ J)). rewrite upd_ne, HM by exact N. exact (proj2 (i_free s I KChange) m J).
      * rewrite set_free_ne by exact Nk. split; [exact (proj1 (i_free s I k))|]. intros m J. assert (N : m <> n) by (intros ->; exact (NF _ J)).
        rewrite upd_ne, HM by exact N. exact (proj2 (i_free s I k) m J).
    + split; [exact (proj1 (i_run s I))|]. intros m J. assert (N : m <> n) by (intros ->; exact (R J)). rewrite upd_ne, HM by exact N. exact (proj2 (i_run s I) m J).
    + intros m c Om. destruct (Nat.eq_dec m n) as [->|N].
      * left. rewrite O in Om. injection Om as <-. cbn [b_req kind_of]. rewrite set_free_eq. now left.
      * rewrite upd_ne by exact N. destruct (i_all s I m c Om) as [J|[J|J]]; [|auto|auto]. left. destruct (kind_dec (kind_of (b_req c)) KChange) as [Ek|Nk].
        -- rewrite Ek in *. rewrite set_free_eq. now right.
        -- now rewrite set_free_ne.
    + intros m r' f'. destruct (Nat.eq_dec m n) as [->|N]; [rewrite HN; discriminate|]. rewrite HM, upd_ne by exact N. apply (i_held s I).
    + intros m w. destruct (Nat.eq_dec m n) as [->|N]; [rewrite upd_eq; discriminate|]. rewrite HM, upd_ne by exact N. apply (i_armed s I).
    + exact C.
  - assert (X : remove s n (Cb r false f) = log (St (upd (s_objs s) n (Some (Cb r true f))) (s_armed s) (s_next s) (s_free s) (s_run s) (s_log s)) (Removed n)).
    { destruct r; try reflexivity. now destruct K. }
    unfold remove in X. cbn [b_req b_fn] in X. rewrite X. clear X. unfold log. constructor; cbn [s_objs s_armed s_next s_free s_run s_log].
    + intros m. destruct (Nat.eq_dec m n) as [->|N]; [rewrite upd_eq|now rewrite upd_ne; [apply (i_objs s I)|]].
      split; [|discriminate]. intros _. apply (i_objs s I). congruence.
    + intros k. split; [exact (proj1 (i_free s I k))|]. intros m J. assert (N : m <> n) by (intros ->; exact (NF _ J)). rewrite HM by exact N.
      destruct (proj2 (i_free s I k) m J) as ((c & Oc & Kc) & Q). split; [exists c; cbn; now rewrite upd_ne|exact Q].
    + split; [exact (proj1 (i_run s I))|]. intros m J. assert (N : m <> n) by (intros ->; exact (R J)). rewrite upd_ne, HM by exact N. exact (proj2 (i_run s I) m J).
    + intros m c Om. destruct (Nat.eq_dec m n) as [->|N]; [right; right; congruence|]. rewrite upd_ne in Om by exact N. exact (i_all s I m c Om).
    + intros m r' f'. destruct (Nat.eq_dec m n) as [->|N]; [rewrite HN; discriminate|]. rewrite HM, upd_ne by exact N. apply (i_held s I).
    + intros m w W. destruct (Nat.eq_dec m n) as [->|N].
      * rewrite upd_eq, HN. eexists. split; [reflexivity|]. cbn [b_req b_removed]. split; [congruence|]. auto.
      * rewrite upd_ne, HM by exact N. now apply (i_armed s I).
    + exact C.
Qed.

Lemma inv_fire s n c value w : inv s -> s_objs s n = Some c -> s_armed s n = Some w -> ~ In n (s_run s) -> inv (fire s n c value).
Proof.
  intros I O A R. destruct (i_armed s I n w A) as (c' & O' & Ew & Q). assert (c' = c) as -> by congruence. clear O'. specialize (Q R).
  assert (NF : forall k, ~ In n (s_free s k)). { intros k J. destruct (proj2 (i_free s I k) n J) as (_ & A' & _). congruence. }
  assert (HM : forall m, m <> n -> holder (Called n (b_fn c) :: s_log s) m = holder (s_log s) m). { intros m N. cbn. now rewrite (proj2 (Nat.eqb_neq n m) (not_eq_sym N)). }
  assert (HN : holder (Called n (b_fn c) :: s_log s) n = None) by (cbn; now rewrite Nat.eqb_refl).
  destruct (kind_dec (kind_of (b_req c)) KChange) as [K|K].
  - destruct Q as [[Hn Rm]|(_ & _ & K')]; [|now destruct K']. destruct c as [r rm f]. cbn [kind_of b_req b_removed b_fn] in *. destruct r as [|sg e| | |]; try discriminate.
    unfold fire. cbn [b_req]. destruct (passes e value); [|exact I]. unfold call, log. cbn [b_fn]. constructor; cbn [s_objs s_armed s_next s_free s_run s_log].
    + exact (i_objs s I).
    + intros k. split; [exact (proj1 (i_free s I k))|]. intros m J. assert (N : m <> n) by (intros ->; exact (NF _ J)). rewrite HM by exact N.
      destruct (proj2 (i_free s I k) m J) as (X1 & X2 & X3 & X4). split; [exact X1|]. split; [exact X2|]. split; [|exact X4]. intros [<-|Y]; [now apply N|now apply X3].
    + split; [constructor; [exact R|exact (proj1 (i_run s I))]|]. intros m [<-|J].
      * split; [exact HN|]. exists (Cb (RChange sg e) rm f). split; [exact O|]. rewrite A. cbn. split; [discriminate|]. intros X. now destruct X.
      * assert (N : m <> n) by (intros ->; exact (R J)). rewrite HM by exact N. exact (proj2 (i_run s I) m J).
    + intros m c Om. destruct (i_all s I m c Om) as [J|[J|J]]; [auto| |auto]. right. left. now right.
    + intros m r' f'. destruct (Nat.eq_dec m n) as [->|N]; [rewrite HN; discriminate|]. rewrite HM by exact N. intros X. destruct (i_held s I m r' f' X) as (X1 & X2 & X3).
      split; [exact X1|]. split; [exact X2|]. intros [<-|Y]; [now apply N|now apply X3].
    + intros m w' W. destruct (i_armed s I m w' W) as (c & Oc & Ec & Qc). exists c. split; [exact Oc|]. split; [exact Ec|]. intros X.
      assert (N : m <> n) by (intros ->; apply X; now left). rewrite HM by exact N. apply Qc. intros Y. apply X. now right.
    + intros [|x l2] m g l1 E; injection E as E1 E2.
      * exists (RChange sg e). subst. exact Hn.
      * exact (i_calls s I l2 m g l1 E2).
  - assert (X : fire s n c value = if b_removed c then release (disarm s n) (kind_of (b_req c)) n else call (disarm s n) n c).
    { unfold fire. destruct (b_req c); try reflexivity. now destruct K. }
    rewrite X. clear X. destruct Q as [[Hn Rm]|(Hn & Rm & _)]; rewrite Rm.
    + unfold call, log, disarm. constructor; cbn [s_objs s_armed s_next s_free s_run s_log].
      * exact (i_objs s I).
      * intros k. split; [exact (proj1 (i_free s I k))|]. intros m J. assert (N : m <> n) by (intros ->; exact (NF _ J)). rewrite HM, upd_ne by exact N.
        destruct (proj2 (i_free s I k) m J) as (X1 & X2 & X3 & X4). split; [exact X1|]. split; [exact X2|]. split; [|exact X4]. intros [<-|Y]; [now apply N|now apply X3].
      * split; [constructor; [exact R|exact (proj1 (i_run s I))]|]. intros m [<-|J].
        -- split; [exact HN|]. exists c. split; [exact O|]. rewrite upd_eq. now split.
        -- assert (N : m <> n) by (intros ->; exact (R J)). rewrite HM, upd_ne by exact N. exact (proj2 (i_run s I) m J).
      * intros m c' Om. destruct (Nat.eq_dec m n) as [->|N]; [right; left; now left|]. rewrite upd_ne by exact N.
        destruct (i_all s I m c' Om) as [J|[J|J]]; [auto| |auto]. right. left. now right.
      * intros m r' f'. destruct (Nat.eq_dec m n) as [->|N]; [rewrite HN; discriminate|]. rewrite HM, upd_ne by exact N. intros X. destruct (i_held s I m r' f' X) as (X1 & X2 & X3).
        split; [exact X1|]. split; [exact X2|]. intros [<-|Y]; [now apply N|now apply X3].
      * intros m w' W. destruct (Nat.eq_dec m n) as [->|N]; [rewrite upd_eq in W; discriminate|]. rewrite upd_ne in W by exact N.
        destruct (i_armed s I m w' W) as (c' & Oc & Ec & Qc). exists c'. split; [exact Oc|]. split; [exact Ec|]. intros X.
        rewrite HM by exact N. apply Qc. intros Y. apply X. now right.
      * intros [|x l2] m g l1 E; injection E as E1 E2.
        -- exists (b_req c). subst. exact Hn.
        -- exact (i_calls s I l2 m g l1 E2).
    + unfold release, disarm. constructor; cbn [s_objs s_armed s_next s_free s_run s_log].
      * exact (i_objs s I).
      * intros k. destruct (kind_dec k (kind_of (b_req c))) as [->|Nk].
        -- rewrite set_free_eq. split; [constructor; [exact (NF _)|exact (proj1 (i_free s I _))]|]. intros m [<-|J].
           ++ rewrite upd_eq. split; [now exists c|]. auto.
           ++ assert (N : m <> n) by (intros ->; exact (NF _ J)). rewrite upd_ne by exact N. exact (proj2 (i_free s I _) m J).
        -- rewrite set_free_ne by exact Nk. split; [exact (proj1 (i_free s I k))|]. intros m J. assert (N : m <> n) by (intros ->; exact (NF _ J)).
           rewrite upd_ne by exact N. exact (proj2 (i_free s I k) m J).
      * split; [exact (proj1 (i_run s I))|]. intros m J. assert (N : m <> n) by (intros ->; exact (R J)). rewrite upd_ne by exact N. exact (proj2 (i_run s I) m J).
      * intros m c' Om. destruct (Nat.eq_dec m n) as [->|N].
        -- left. assert (c' = c) as -> by congruence. rewrite set_free_eq. now left.
        -- rewrite upd_ne by exact N. destruct (i_all s I m c' Om) as [J|[J|J]]; [|auto|auto]. left. destruct (kind_dec (kind_of (b_req c')) (kind_of (b_req c))) as [Ek|Nk].
           ++ rewrite Ek in *. rewrite set_free_eq. now right.
           ++ now rewrite set_free_ne.
      * intros m r' f'. destruct (Nat.eq_dec m n) as [->|N]; [rewrite Hn; discriminate|]. rewrite upd_ne by exact N. apply (i_held s I).
      * intros m w'. destruct (Nat.eq_dec m n) as [->|N]; [rewrite upd_eq; discriminate|]. rewrite upd_ne by exact N. apply (i_armed s I).
      * exact (i_calls s I).
Qed.

Lemma inv_ended s : inv s -> inv (log s Ended).
Proof.
  intros I. unfold log. constructor; cbn [s_objs s_armed s_next s_free s_run s_log].
  - exact (i_objs s I). - exact (i_free s I). - exact (i_run s I). - exact (i_all s I). - exact (i_held s I). - exact (i_armed s I).
  - apply calls_app; [discriminate|exact (i_calls s I)].
Qed.
Lemma return_form s n c res : return_ s n c res = (if Z.eqb res 0 then fun s => s else fun s => log s Ended)
  (release (St (s_objs s) (if kind_eqb (kind_of (b_req c)) KChange then upd (s_armed s) n None else s_armed s) (s_next s) (s_free s) (s_run s) (s_log s)) (kind_of (b_req c)) n).
Proof. unfold return_, release, disarm. destruct (b_req c); destruct (Z.eqb res 0); reflexivity. Qed.
Lemma inv_return s n c res l : inv s -> s_run s = n :: l -> s_objs s n = Some c -> inv (return_ (pop s l) n c res).
Proof.
  intros I E O. rewrite return_form. enough (X : inv (release (St (s_objs (pop s l)) (if kind_eqb (kind_of (b_req c)) KChange then upd (s_armed (pop s l)) n None else s_armed (pop s l))
    (s_next (pop s l)) (s_free (pop s l)) (s_run (pop s l)) (s_log (pop s l))) (kind_of (b_req c)) n)) by (destruct (Z.eqb res 0); [exact X|exact (inv_ended _ X)]).
  pose proof (i_run s I) as [D G]. rewrite E in D, G. destruct (G n (or_introl eq_refl)) as (Hn & c' & O' & Ac). assert (c' = c) as -> by congruence. clear O'.
  assert (Rn : ~ In n l) by now inversion D. assert (Dl : NoDup l) by now inversion D.
  assert (NF : forall k, ~ In n (s_free s k)). { intros k J. destruct (proj2 (i_free s I k) n J) as (_ & _ & R' & _). apply R'. rewrite E. now left. }
  unfold release, pop. cbn [s_objs s_armed s_next s_free s_run s_log].
  set (A := if kind_eqb (kind_of (b_req c)) KChange then upd (s_armed s) n None else s_armed s).
  assert (AM : forall m, m <> n -> A m = s_armed s m). { intros m N. unfold A. destruct (kind_eqb _ _); [now rewrite upd_ne|reflexivity]. }
  assert (AN : A n = None). { unfold A. destruct (kind_eqb (kind_of (b_req c)) KChange) eqn:Q; [now rewrite upd_eq|]. apply Ac. intros X. rewrite X in Q. discriminate. }
  constructor; cbn [s_objs s_armed s_next s_free s_run s_log].
  - exact (i_objs s I).
  - intros k. destruct (kind_dec k (kind_of (b_req c))) as [->|Nk].
    + rewrite set_free_eq. split; [constructor; [exact (NF _)|exact (proj1 (i_free s I _))]|]. intros m [<-|J].
      * split; [now exists c|]. auto.
      * assert (N : m <> n) by (intros ->; exact (NF _ J)). rewrite AM by exact N. destruct (proj2 (i_free s I _) m J) as (X1 & X2 & X3 & X4).
        split; [exact X1|]. split; [exact X2|]. split; [|exact X4]. intros Y. apply X3. rewrite E. now right.
    + rewrite set_free_ne by exact Nk. split; [exact (proj1 (i_free s I k))|]. intros m J. assert (N : m <> n) by (intros ->; exact (NF _ J)).
      rewrite AM by exact N. destruct (proj2 (i_free s I _) m J) as (X1 & X2 & X3 & X4).
      split; [exact X1|]. split; [exact X2|]. split; [|exact X4]. intros Y. apply X3. rewrite E. now right.
  - split; [exact Dl|]. intros m J. assert (N : m <> n) by (intros ->; exact (Rn J)). rewrite AM by exact N. exact (G m (or_intror J)).
  - intros m c' Om. destruct (Nat.eq_dec m n) as [->|N].
    + left. assert (c' = c) as -> by congruence. rewrite set_free_eq. now left.
    + rewrite AM by exact N. destruct (i_all s I m c' Om) as [J|[J|J]]; [| |auto].
      * left. destruct (kind_dec (kind_of (b_req c')) (kind_of (b_req c))) as [Ek|Nk]; [rewrite Ek in *; rewrite set_free_eq; now right|now rewrite set_free_ne].
      * right. left. rewrite E in J. destruct J as [->|J]; [now destruct N|exact J].
  - intros m r' f' H. destruct (Nat.eq_dec m n) as [->|N]; [congruence|]. rewrite AM by exact N. destruct (i_held s I m r' f' H) as (X1 & X2 & X3).
    split; [exact X1|]. split; [exact X2|]. intros Y. apply X3. rewrite E. now right.
  - intros m w W. destruct (Nat.eq_dec m n) as [->|N]; [congruence|]. rewrite AM in W by exact N. destruct (i_armed s I m w W) as (c' & Oc & Ec & Qc).
    exists c'. split; [exact Oc|]. split; [exact Ec|]. intros X. apply Qc. rewrite E. intros [->|Y]; [now destruct N|exact (X Y)].
  - exact (i_calls s I).
Qed.
Lemma inv_step s l s' : inv s -> proper s l -> step s l = Some s' -> inv s'.
Proof.
  intros I [P1 P2] E. destruct l as [r f|n|n value|res]; cbn in E, P1, P2.
  - injection E as <-. now apply inv_register.
  - destruct (s_objs s n) as [c|] eqn:O; [|discriminate]. injection E as <-. now apply inv_remove.
  - destruct (s_armed s n) as [w|] eqn:A; [|discriminate]. destruct (s_objs s n) as [c|] eqn:O; [|discriminate]. injection E as <-. now apply inv_fire with w.
  - destruct (s_run s) as [|n l] eqn:R; [discriminate|]. destruct (s_objs s n) as [c|] eqn:O; [|discriminate]. injection E as <-. now apply inv_return.
Qed.
Lemma inv_exec s ls s' : inv s -> execP proper s ls s' -> inv s'.
Proof. intros I X. induction X as [|s l s1 ls s2 P E X IH]; [exact I|]. apply IH. exact (inv_step s l s1 I P E). Qed.
Lemma inv_reached ls s : execP proper init ls s -> inv s.
Proof. exact (inv_exec init ls s inv_init). Qed.

(** * C106 *)
(** Whenever a function is called, its registration has been neither called nor removed before: it is the last thing recorded of the object. *)
Theorem C106_calls ls s l2 n f l1 : execP proper init ls s -> s_log s = (l2 ++ Called n f :: l1)%list -> exists r, holder l1 n = Some (r, f).
Proof. intros X. exact (i_calls s (inv_reached ls s X) l2 n f l1). Qed.
Print Assumptions C106_calls.

(** What is registered and was neither called nor removed is scheduled in the simulator with the time or the signal it asked for, its object has its
    function, and no other registration shares the object: a new registration gets an object which nobody holds, for which nothing is scheduled and
    whose function is not being called. *)
Theorem C106_waiting ls s n r f : execP proper init ls s -> holder (s_log s) n = Some (r, f) ->
  s_objs s n = Some (Cb r false f) /\ s_armed s n = Some (want_of r) /\ ~ In n (s_run s) /\ forall k, ~ In n (s_free s k).
Proof.
  intros X H. pose proof (inv_reached ls s X) as I. destruct (i_held s I n r f H) as (O & A & R). split; [exact O|]. split; [exact A|]. split; [exact R|].
  intros k J. destruct (proj2 (i_free s I k) n J) as (_ & A' & _). congruence.
Qed.
Print Assumptions C106_waiting.
Theorem C106_alone ls s r f s' n l : execP proper init ls s -> step s (LReg r f) = Some s' -> s_log s' = Registered n r f :: l ->
  l = s_log s /\ holder l n = None /\ s_armed s n = None /\ ~ In n (s_run s) /\ holder (s_log s') n = Some (r, f) /\
  forall m, m <> n -> holder (s_log s') m = holder (s_log s) m /\ s_armed s' m = s_armed s m /\ s_objs s' m = s_objs s m.
Proof.
  intros X E L. pose proof (inv_reached ls s X) as I. injection E as <-. unfold register in *. destruct (acquire s (kind_of r)) as [n' s1] eqn:E.
  destruct (acquired s _ n' s1 I E) as (A & R & H & _). destruct (acquire_rest s _ n' s1 E) as (E1 & E2 & E3 & E4 & _). cbn [log s_log s_armed s_objs] in *. injection L as <- <-. rewrite E4.
  split; [reflexivity|]. split; [exact H|]. split; [exact A|]. split; [exact R|]. split; [cbn; now rewrite Nat.eqb_refl|].
  intros m N. rewrite !upd_ne by exact N. rewrite E1, E2. cbn. now rewrite (proj2 (Nat.eqb_neq n' m) (not_eq_sym N)).
Qed.
Print Assumptions C106_alone.

(** The simulator runs a process: a timer or a phase which is held is called, and one which was removed is not, but its object can be used again; a
    signal's is called if the value is the one of the edge, and stays registered otherwise. *)
Theorem C106_fire ls s n value s' : execP proper init ls s -> no_reentry s (LFire n value) -> step s (LFire n value) = Some s' ->
  match holder (s_log s) n with
  | Some (RChange sg e, f) => if passes e value then s_log s' = Called n f :: s_log s /\ s_run s' = n :: s_run s else s' = s
  | Some (_, f) => s_log s' = Called n f :: s_log s /\ s_run s' = n :: s_run s
  | None => s_log s' = s_log s /\ s_run s' = s_run s /\ s_armed s' n = None /\ exists k, In n (s_free s' k)
  end.
Proof.
  intros X P E. pose proof (inv_reached ls s X) as I. cbn in E, P. destruct (s_armed s n) as [w|] eqn:A; [|discriminate]. destruct (s_objs s n) as [c|] eqn:O; [|discriminate].
  injection E as <-. destruct (i_armed s I n w A) as (c' & O' & _ & Q). assert (c' = c) as -> by congruence. destruct (Q P) as [[H R]|(H & R & K)]; rewrite H.
  - unfold fire. destruct (b_req c); rewrite ?R; try (split; reflexivity). destruct (passes e value); [split; reflexivity|reflexivity].
  - unfold fire. destruct (b_req c) eqn:Q2; try (now destruct K); rewrite R; cbn; rewrite upd_eq; (split; [reflexivity|split; [reflexivity|split; [reflexivity|]]]);
      eexists; rewrite set_free_eq; now left.
Qed.
Print Assumptions C106_fire.
(** The edges, as texts of the value: for signals of one bit. *)
Theorem C106_edges e value : passes e value = true <-> match e with Rising => value = [49%Z] | Falling => value = [48%Z] | AnyChange => True end.
Proof. destruct e; cbn [passes]; [apply pystr_eqb_eq|apply pystr_eqb_eq|tauto]. Qed.
Print Assumptions C106_edges.
(** The function returns: the object can be used again, nothing is scheduled for it; the end of the simulation is asked for iff the function said so. *)
Theorem C106_return ls s res s' n l : execP proper init ls s -> s_run s = n :: l -> step s (LReturn res) = Some s' ->
  s_run s' = l /\ s_armed s' n = None /\ (exists k, In n (s_free s' k)) /\ s_log s' = (if Z.eqb res 0 then s_log s else Ended :: s_log s) /\
  forall m, m <> n -> s_armed s' m = s_armed s m.
Proof.
  intros X R E. pose proof (inv_reached ls s X) as I. cbn in E. rewrite R in E. destruct (s_objs s n) as [c|] eqn:O; [|discriminate]. injection E as <-.
  pose proof (inv_return s n c res l I R O) as I'. rewrite return_form in *.
  pose proof (proj2 (i_run s I) n) as G. rewrite R in G. destruct (G (or_introl eq_refl)) as (_ & c' & O' & Ac). assert (c' = c) as -> by congruence. clear G.
  set (z := Z.eqb res 0) in *.
  assert (Y : forall x, s_run ((if z then fun s => s else fun s => log s Ended) x) = s_run x /\ s_armed ((if z then fun s => s else fun s => log s Ended) x) = s_armed x /\
    s_free ((if z then fun s => s else fun s => log s Ended) x) = s_free x /\ s_log ((if z then fun s => s else fun s => log s Ended) x) = if z then s_log x else Ended :: s_log x)
    by (intros x; destruct z; repeat split). 
  match goal with |- context [s_log (_ ?x)] => destruct (Y x) as (-> & -> & -> & ->) end. cbn [release pop s_run s_armed s_free s_log].
  split; [reflexivity|]. split; [|split; [|split; [reflexivity|]]].
  - destruct (kind_eqb (kind_of (b_req c)) KChange) eqn:Q; [apply upd_eq|]. apply Ac. intros Z. rewrite Z in Q. discriminate.
  - exists (kind_of (b_req c)). rewrite set_free_eq. now left.
  - intros m N. destruct (kind_eqb _ _); [now rewrite upd_ne|reflexivity].
Qed.
Print Assumptions C106_return.

(** A process is made only if every process of its kind is in use: scheduled in the simulator or being run. *)
Theorem C106_processes ls s r f s' : execP proper init ls s -> step s (LReg r f) = Some s' ->
  s_next s' = s_next s \/ s_next s' = S (s_next s) /\ forall n c, s_objs s n = Some c -> kind_of (b_req c) = kind_of r -> s_armed s n <> None \/ In n (s_run s).
Proof.
  intros X E. pose proof (inv_reached ls s X) as I. injection E as <-. unfold register. destruct (acquire s (kind_of r)) as [n s1] eqn:E.
  destruct (acquire_rest s _ n s1 E) as (E1 & E2 & E3 & E4 & _ & _ & _ & [(F & -> & N)|(_ & N)]); cbn; rewrite N; [|now left].
  right. split; [reflexivity|]. intros m c O K. destruct (i_all s I m c O) as [J|[J|J]]; [|now right|now left]. rewrite K, F in J. destruct J.
Qed.
Print Assumptions C106_processes.
(** Nothing is lost: what is neither scheduled nor being run is in a free list, once. *)
Theorem C106_kept ls s n : execP proper init ls s -> n < s_next s -> s_armed s n = None -> ~ In n (s_run s) ->
  exists c l1 l2, s_objs s n = Some c /\ s_free s (kind_of (b_req c)) = (l1 ++ n :: l2)%list /\ ~ In n (l1 ++ l2) /\ forall k, k <> kind_of (b_req c) -> ~ In n (s_free s k).
Proof.
  intros X L A R. pose proof (inv_reached ls s X) as I. destruct (s_objs s n) as [c|] eqn:O; [|now apply (i_objs s I) in L].
  destruct (i_all s I n c O) as [J|[J|J]]; [|contradiction|contradiction]. destruct (in_split _ _ J) as (l1 & l2 & E). exists c, l1, l2.
  split; [reflexivity|]. split; [exact E|]. split.
  - pose proof (proj1 (i_free s I (kind_of (b_req c)))) as D. rewrite E in D. now apply NoDup_remove_2.
  - intros k N J'. destruct (proj2 (i_free s I k) n J') as ((c' & O' & K') & _). rewrite O in O'. injection O' as <-. now apply N.
Qed.
Print Assumptions C106_kept.

(** ** Where it is false *)
Lemma execP_trans P s ls s1 ls' s2 : execP P s ls s1 -> execP P s1 ls' s2 -> execP P s (ls ++ ls') s2.
Proof. intros X Y. induction X as [|s l s1' ls s2' Q E X IH]; [exact Y|]. exact (e_cons P s l s1' _ s2 Q E (IH Y)). Qed.
(** The handle of a callback whose function has been called is not good for anything: the next registration gets the same object, and removing it by
    the old handle stops the new one, whose function is never called. *)
Theorem C106_stale_refuted : exists s s', execP proper init [LReg (RTimer 5) 10; LFire 0 []; LReturn 0; LReg (RTimer 7) 11] s /\
  s_log s = [Registered 0 (RTimer 7) 11; Called 0 10; Registered 0 (RTimer 5) 10] /\
  execP proper s [LRem 0; LFire 0 []] s' /\ s_log s' = Removed 0 :: s_log s /\ s_armed s' 0 = None.
Proof.
  eexists. eexists. split.
  { do 4 (eapply e_cons; [split; cbn; auto; congruence|reflexivity|]). apply e_nil. }
  split; [reflexivity|]. split.
  { do 2 (eapply e_cons; [split; cbn; auto; congruence|reflexivity|]). apply e_nil. }
  split; reflexivity.
Qed.
Print Assumptions C106_stale_refuted.
(** A signal's callback which is removed while its function is called, or twice, is released twice: the next two registrations share one object, the
    simulator is told of the second signal only, and the first function is never called. *)
Definition shared (s : st) : Prop := exists l, s_log s = Registered 0 (RChange 2 AnyChange) 12 :: Registered 0 (RChange 1 AnyChange) 11 :: l /\
  s_objs s 0 = Some (Cb (RChange 2 AnyChange) false 12) /\ s_armed s 0 = Some (Sense 2) /\ s_next s = 1.
Theorem C106_own_refuted : exists s, execP no_reentry init [LReg (RChange 0 AnyChange) 10; LFire 0 []; LRem 0; LReturn 0; LReg (RChange 1 AnyChange) 11; LReg (RChange 2 AnyChange) 12] s /\ shared s.
Proof.
  eexists. split.
  { do 6 (eapply e_cons; [cbn; auto|reflexivity|]). apply e_nil. }
  eexists. repeat split.
Qed.
Print Assumptions C106_own_refuted.
Theorem C106_twice_refuted : exists s, execP no_reentry init [LReg (RChange 0 AnyChange) 10; LRem 0; LRem 0; LReg (RChange 1 AnyChange) 11; LReg (RChange 2 AnyChange) 12] s /\ shared s.
Proof.
  eexists. split.
  { do 5 (eapply e_cons; [cbn; auto|reflexivity|]). apply e_nil. }
  eexists. repeat split.
Qed.
Print Assumptions C106_twice_refuted.
(** A process run while it runs calls a function twice. *)
Theorem C106_reentry_refuted : exists s, execP removes_held init [LReg (RChange 0 AnyChange) 10; LFire 0 []; LFire 0 []] s /\
  s_log s = [Called 0 10; Called 0 10; Registered 0 (RChange 0 AnyChange) 10].
Proof. eexists. split; [do 3 (eapply e_cons; [cbn; auto|reflexivity|]); apply e_nil|]. reflexivity. Qed.
Print Assumptions C106_reentry_refuted.
(** Timers which are given up keep their process until their time has come, so that the number of processes is not bounded by the number of callbacks
    registered at one time: here at most one, and any number of processes. *)
Definition rounds (time : Z) (k : nat) : list label := flat_map (fun i => [LReg (RTimer time) 0; LRem i]) (seq 0 k).
Lemma rounds_state time k : exists s, execP proper init (rounds time k) s /\ s_next s = k /\ (forall j, s_free s j = []) /\ (forall n, holder (s_log s) n = None) /\ s_run s = [] /\
  (forall n, n < k -> s_armed s n = Some (Wake time)).
Proof.
  induction k as [|k (s & X & N & F & H & R & A)].
  - exists init. split; [apply e_nil|]. repeat split. intros n L. lia.
  - unfold rounds. rewrite seq_S, flat_map_app. cbn [flat_map app].
    assert (E : step s (LReg (RTimer time) 0) = Some (log (St (upd (s_objs s) k (Some (Cb (RTimer time) false 0))) (upd (s_armed s) k (Some (Wake time))) (S k) (s_free s) (s_run s) (s_log s)) (Registered k (RTimer time) 0))).
    { cbn. unfold register, acquire. rewrite F. cbn. rewrite N. reflexivity. }
    set (s1 := log _ _) in E.
    assert (E2 : step s1 (LRem k) = Some (log (St (upd (s_objs s1) k (Some (Cb (RTimer time) true 0))) (s_armed s1) (s_next s1) (s_free s1) (s_run s1) (s_log s1)) (Removed k))).
    { cbn. rewrite upd_eq. reflexivity. }
    eexists. split; [|split; [|split; [|split; [|split]]]].
    + eapply execP_trans; [exact X|]. eapply e_cons; [split; exact Logic.I|exact E|]. eapply e_cons; [split; [|exact Logic.I]|exact E2|apply e_nil].
      cbn. rewrite Nat.eqb_refl. discriminate.
    + reflexivity.
    + exact F.
    + intros n. cbn. destruct (k =? n); [reflexivity|]. apply H.
    + exact R.
    + intros n L. cbn. unfold upd. destruct (Nat.eqb_spec n k) as [->|NE]; [reflexivity|]. apply A. lia.
Qed.
Theorem C106_growth_refuted : forall time k, exists s, execP proper init (rounds time k) s /\ s_next s = k /\ (forall n, holder (s_log s) n = None) /\
  forall n, n < k -> s_armed s n = Some (Wake time).
Proof. intros time k. destruct (rounds_state time k) as (s & X & N & _ & H & _ & A). now exists s. Qed.
Print Assumptions C106_growth_refuted.

(** ** Examples *)
Definition ex_ls : list label := [LReg (RTimer 5) 10; LReg (RChange 3 Rising) 11; LReg RReadOnly 12; LFire 1 (lit "0"); LFire 1 (lit "1"); LReg (RChange 3 Rising) 13; LReturn 0; LRem 0; LReg (RTimer 9) 14].
Definition properb (s : st) (l : label) : bool :=
  match l with LRem n => match holder (s_log s) n with Some _ => true | None => false end | LFire n _ => negb (existsb (Nat.eqb n) (s_run s)) | _ => true end.
Fixpoint checked (s : st) (ls : list label) : option st :=
  match ls with [] => Some s | l :: ls => if properb s l then match step s l with Some s => checked s ls | None => None end else None end.
Lemma checked_ok ls : forall s s', checked s ls = Some s' -> execP proper s ls s'.
Proof.
  induction ls as [|l ls IH]; intros s s' E; cbn in E; [injection E as <-; apply e_nil|].
  destruct (properb s l) eqn:P; [|discriminate]. destruct (step s l) as [s1|] eqn:T; [|discriminate]. apply e_cons with s1; [|exact T|exact (IH s1 s' E)].
  destruct l as [r f|n|n v|res]; cbn in P; split; cbn; try exact Logic.I.
  - destruct (holder (s_log s) n); [discriminate|discriminate P].
  - intros J. assert (X : existsb (Nat.eqb n) (s_run s) = true) by (apply existsb_exists; exists n; split; [exact J|apply Nat.eqb_refl]). rewrite X in P. discriminate.
Qed.
Definition after (ls : list label) : st := match checked init ls with Some s => s | None => init end.
Lemma after_ok ls : (match checked init ls with Some _ => true | None => false end) = true -> execP proper init ls (after ls).
Proof. intros H. unfold after. destruct (checked init ls) eqn:E; [|discriminate]. now apply checked_ok. Qed.
Definition ex_s : st := after ex_ls.
Example ex_run : execP proper init ex_ls ex_s /\ s_next ex_s = 5 /\ s_free ex_s KChange = [1] /\
  s_log ex_s = [Registered 4 (RTimer 9) 14; Removed 0; Registered 3 (RChange 3 Rising) 13; Called 1 11; Registered 2 RReadOnly 12; Registered 1 (RChange 3 Rising) 11; Registered 0 (RTimer 5) 10].
Proof. split; [apply after_ok; vm_compute; reflexivity|]. repeat split; vm_compute; reflexivity. Qed.
Example C106_calls_ex : exists l2 l1, execP proper init ex_ls ex_s /\ s_log ex_s = (l2 ++ Called 1 11 :: l1)%list /\ holder l1 1 = Some (RChange 3 Rising, 11).
Proof.
  destruct ex_run as (X & _ & _ & L). exists [Registered 4 (RTimer 9) 14; Removed 0; Registered 3 (RChange 3 Rising) 13].
  eexists. split; [exact X|]. split; [exact L|reflexivity].
Qed.
Example C106_waiting_ex : execP proper init ex_ls ex_s /\ holder (s_log ex_s) 3 = Some (RChange 3 Rising, 13).
Proof. split; [apply ex_run|vm_compute; reflexivity]. Qed.
Example C106_alone_ex : execP proper init ex_ls ex_s /\ exists s', step ex_s (LReg (RChange 8 Falling) 20) = Some s' /\ s_log s' = Registered 1 (RChange 8 Falling) 20 :: s_log ex_s.
Proof. split; [apply ex_run|]. exists (register ex_s (RChange 8 Falling) 20). split; [reflexivity|vm_compute; reflexivity]. Qed.
Definition then_ (s : st) (l : label) : st := match step s l with Some s => s | None => init end.
Definition possible (s : st) (l : label) : bool := match step s l with Some _ => true | None => false end.
Lemma then_ok s l : possible s l = true -> step s l = Some (then_ s l).
Proof. unfold possible, then_. destruct (step s l); [reflexivity|discriminate]. Qed.
Example C106_fire_ex : execP proper init ex_ls ex_s /\ exists s1 s2, step ex_s (LFire 0 []) = Some s1 /\ s_log s1 = s_log ex_s /\ step ex_s (LFire 4 []) = Some s2 /\ s_log s2 = Called 4 14 :: s_log ex_s.
Proof.
  split; [apply ex_run|]. exists (then_ ex_s (LFire 0 [])), (then_ ex_s (LFire 4 [])). split; [apply then_ok; vm_compute; reflexivity|]. split; [vm_compute; reflexivity|].
  split; [apply then_ok; vm_compute; reflexivity|vm_compute; reflexivity].
Qed.
Example C106_return_ex : exists s s', execP proper init (firstn 6 ex_ls) s /\ s_run s = [1] /\ step s (LReturn (-1)) = Some s' /\ hd_error (s_log s') = Some Ended.
Proof.
  exists (after (firstn 6 ex_ls)), (then_ (after (firstn 6 ex_ls)) (LReturn (-1))). split; [apply after_ok; vm_compute; reflexivity|]. split; [vm_compute; reflexivity|].
  split; [apply then_ok; vm_compute; reflexivity|vm_compute; reflexivity].
Qed.
Example C106_processes_ex : execP proper init ex_ls ex_s /\ exists s', step ex_s (LReg (RTimer 1) 15) = Some s' /\ s_next s' = S (s_next ex_s).
Proof. split; [apply ex_run|]. exists (register ex_s (RTimer 1) 15). split; [reflexivity|vm_compute; reflexivity]. Qed.
Example C106_kept_ex : execP proper init ex_ls ex_s /\ 1 < s_next ex_s /\ s_armed ex_s 1 = None /\ ~ In 1 (s_run ex_s).
Proof. split; [apply ex_run|]. split; [vm_compute; lia|]. split; [vm_compute; reflexivity|]. vm_compute. intros []. Qed.

(** heapq keeps its lists heaps and returns a least element. *)
From Verif Require Import Base QueueModel.
From Coq Require Import Arith Permutation.

(** [x < y] is the strict part of a total preorder. *)
Definition ordered {A} (lt : A -> A -> bool) : Prop :=
  (forall x y, lt x y = true -> lt y x = false) /\
  (forall x y z, lt y x = false -> lt z y = false -> lt z x = false).

Section H.
Context {A : Type} (lt : A -> A -> bool) (O : ordered lt).
Notation le x y := (lt y x = false).
Let le_refl x : le x x.
Proof. destruct (lt x x) eqn:E; [|reflexivity]. exact (eq_trans (eq_sym E) (proj1 O _ _ E)). Qed.
Let le_trans x y z : le x y -> le y z -> le x z.
Proof. apply (proj2 O). Qed.
Let lt_le x y : lt x y = true -> le x y.
Proof. apply (proj1 O). Qed.

Lemma set_length (l : list A) i x : length (set_nth l i x) = length l.
Proof. revert i. induction l as [|y l IH]; intros [|i]; cbn; congruence. Qed.
Lemma set_same (l : list A) i x d : i < length l -> nth i (set_nth l i x) d = x.
Proof. revert i. induction l as [|y l IH]; intros [|i] H; cbn in *; try lia; [reflexivity|]. apply IH. lia. Qed.
Lemma set_other (l : list A) i j x d : j <> i -> nth j (set_nth l i x) d = nth j l d.
Proof.
  revert i j. induction l as [|y l IH]; intros [|i] [|j] H; cbn; try reflexivity; try lia. apply IH. lia.
Qed.
Lemma set_set (l : list A) i x y : set_nth (set_nth l i x) i y = set_nth l i y.
Proof. revert i. induction l as [|z l IH]; intros [|i]; cbn; congruence. Qed.
Lemma set_perm (l : list A) i x d : i < length l -> Permutation (nth i l d :: set_nth l i x) (x :: l).
Proof.
  revert i. induction l as [|y l IH]; intros [|i] H; cbn in *; try lia; [apply perm_swap|].
  etransitivity; [apply perm_swap|]. rewrite (IH i ltac:(lia)). apply perm_swap.
Qed.
(** Moving the hole. *)
Lemma move_perm (l : list A) p q x d : p <> q -> p < length l -> q < length l ->
  Permutation (set_nth (set_nth l p (nth q l d)) q x) (set_nth l p x).
Proof.
  intros N P Q. apply (Permutation_cons_inv (a := nth q l d)), (Permutation_cons_inv (a := nth p l d)).
  assert (E := set_perm (set_nth l p (nth q l d)) q x d ltac:(now rewrite set_length)).
  rewrite set_other in E by auto.
  etransitivity; [apply perm_skip; exact E|]. etransitivity; [apply perm_swap|].
  rewrite (set_perm l p (nth q l d) d P). etransitivity; [apply perm_swap|]. rewrite <- (set_perm l p x d P). apply perm_swap.
Qed.

Definition par (i : nat) : nat := (i - 1) / 2.
Lemma par_lt i : 0 < i -> par i < i.
Proof. intro H. unfold par. apply Nat.div_lt_upper_bound; lia. Qed.
Lemma par_iff i p : 0 < i -> (par i = p <-> i = 2 * p + 1 \/ i = 2 * p + 2).
Proof.
  intro H. unfold par. split.
  - intro E. pose proof (Nat.div_mod (i - 1) 2 ltac:(lia)) as D. pose proof (Nat.mod_upper_bound (i - 1) 2 ltac:(lia)). lia.
  - intros [->| ->]; symmetry.
    + apply (Nat.div_unique _ 2 p 0); lia.
    + apply (Nat.div_unique _ 2 p 1); lia.
Qed.
Definition heap (l : list A) : Prop := forall i d, 0 < i < length l -> le (nth (par i) l d) (nth i l d).

Lemma siftdown_ok d : forall fuel h p x, p < length h -> p < fuel ->
  (forall i, 0 < i < length h -> i <> p -> par i <> p -> le (nth (par i) h d) (nth i h d)) ->
  (forall i, 0 < i < length h -> par i = p -> le x (nth i h d)) ->
  (forall i, 0 < i < length h -> par i = p -> 0 < p -> le (nth (par p) h d) (nth i h d)) ->
  let r := siftdown lt fuel h p x in
  length r = length h /\ Permutation r (set_nth h p x) /\
  (forall i, 0 < i < length h -> le (nth (par i) r d) (nth i r d)).
Proof.
  induction fuel as [|fuel IH]; intros h p x P F Ha Hb Hc; [lia|]. cbv zeta. cbn [siftdown].
  assert (Stop : (0 < p -> le (nth (par p) h d) x) ->
     forall i, 0 < i < length h -> le (nth (par i) (set_nth h p x) d) (nth i (set_nth h p x) d)).
  { intros S i I. pose proof (par_lt i ltac:(lia)). destruct (Nat.eq_dec i p) as [->|N].
    - rewrite set_same by assumption. rewrite set_other by lia. apply S; lia.
    - rewrite (set_other _ _ i) by assumption. destruct (Nat.eq_dec (par i) p) as [E|N'].
      + rewrite E, set_same by assumption. auto.
      + rewrite set_other by assumption. auto. }
  destruct (Nat.eqb_spec p 0) as [->|N].
  - rewrite set_length. split; [reflexivity|]. split; [reflexivity|]. apply Stop. lia.
  - fold (par p). pose proof (par_lt p ltac:(lia)) as L. rewrite (nth_indep h x d) by lia.
    destruct (lt x (nth (par p) h d)) eqn:E.
    + set (y := nth (par p) h d) in *. assert (X : le x y) by (now apply lt_le).
      destruct (IH (set_nth h p y) (par p) x) as (R1 & R2 & R3); try rewrite set_length; try lia.
      * intros i I N1 N2. destruct (Nat.eq_dec i p) as [->|N3]; [now elim N2|].
        rewrite (set_other _ _ i) by assumption. destruct (Nat.eq_dec (par i) p) as [E'|N4].
        -- rewrite E', set_same by assumption. apply Hc; auto; lia.
        -- rewrite set_other by assumption. auto.
      * intros i I E'. destruct (Nat.eq_dec i p) as [->|N3]; [now rewrite set_same|].
        rewrite set_other by assumption. eapply le_trans; [exact X|]. unfold y. rewrite <- E'. apply Ha; auto. lia.
      * intros i I E' Z. pose proof (par_lt (par p) Z). rewrite (set_other _ _ (par (par p))) by lia.
        assert (U : le (nth (par (par p)) h d) (nth (par p) h d)) by (apply Ha; lia).
        destruct (Nat.eq_dec i p) as [->|N3]; [rewrite set_same by assumption; exact U|].
        rewrite set_other by assumption. eapply le_trans; [exact U|]. rewrite <- E'. apply Ha; auto. lia.
      * rewrite set_length in R1, R3. split; [exact R1|]. split; [|exact R3].
        rewrite R2. unfold y. apply move_perm; lia.
    + rewrite set_length. split; [reflexivity|]. split; [reflexivity|]. apply Stop. auto.
Qed.

Lemma siftup_ok d : forall fuel h p x, p < length h -> length h <= p + fuel ->
  (forall i, 0 < i < length h -> i <> p -> par i <> p -> le (nth (par i) h d) (nth i h d)) ->
  (forall i, 0 < i < length h -> par i = p -> 0 < p -> le (nth (par p) h d) (nth i h d)) ->
  let r := siftup lt fuel h p x in
  length r = length h /\ Permutation r (set_nth h p x) /\
  (forall i, 0 < i < length h -> le (nth (par i) r d) (nth i r d)).
Proof.
  induction fuel as [|fuel IH]; intros h p x P F Ha Hc; [lia|]. cbv zeta. cbn [siftup].
  destruct (Nat.ltb_spec (2 * p + 1) (length h)) as [C|C].
  - set (b := (_ && _)). set (c := if b then _ else _).
    assert (Hb : (c = 2 * p + 1 \/ c = 2 * p + 2) /\ c < length h /\
                 forall i, 0 < i < length h -> par i = p -> i <> c -> le (nth c h d) (nth i h d)).
    { unfold c, b. replace (2 * p + 1 + 1) with (2 * p + 2) by lia. destruct (Nat.ltb_spec (2 * p + 2) (length h)) as [R|R]; cbn [andb].
      - rewrite (nth_indep h x d), (nth_indep h x d) by lia.
        destruct (lt (nth (2 * p + 1) h d) (nth (2 * p + 2) h d)) eqn:E; cbn [negb].
        + split; [auto|]. split; [exact C|]. intros i I E' N. apply par_iff in E'; [|lia]. destruct E' as [->| ->]; [now elim N|].
          now apply lt_le.
        + split; [auto|]. split; [exact R|]. intros i I E' N. apply par_iff in E'; [|lia]. destruct E' as [->| ->]; [exact E|now elim N].
      - split; [auto|]. split; [exact C|]. intros i I E' N. apply par_iff in E'; [|lia]. destruct E' as [->| ->]; [now elim N|lia]. }
    clearbody c. clear b. destruct Hb as (Cp & Cl & Cm).
    assert (PC : par c = p) by (apply par_iff; lia).
    rewrite (nth_indep h x d) by assumption.
    destruct (IH (set_nth h p (nth c h d)) c x) as (R1 & R2 & R3); rewrite ?set_length; try lia.
    + intros i I N1 N2. destruct (Nat.eq_dec i p) as [->|N3].
      * pose proof (par_lt p ltac:(lia)). rewrite set_same by assumption. rewrite set_other by lia. apply Hc; auto; lia.
      * rewrite (set_other _ _ i) by assumption. destruct (Nat.eq_dec (par i) p) as [E|N4].
        -- rewrite E, set_same by assumption. apply Cm; auto.
        -- rewrite set_other by assumption. auto.
    + intros i I E Z. rewrite PC, set_same by assumption. pose proof (par_lt i ltac:(lia)).
      rewrite set_other by lia. rewrite <- E. apply Ha; lia.
    + rewrite set_length in R1, R3. split; [exact R1|]. split; [|exact R3]. rewrite R2. apply move_perm; lia.
  - destruct (siftdown_ok d (S p) (set_nth h p x) p x) as (R1 & R2 & R3); rewrite ?set_length; try lia.
    + intros i I N1 N2. rewrite !set_other by assumption. auto.
    + intros i I E. apply par_iff in E; lia.
    + intros i I E. apply par_iff in E; lia.
    + rewrite set_length in R1, R3. split; [exact R1|]. split; [|exact R3]. rewrite R2, set_set. reflexivity.
Qed.

Lemma set_snoc (l : list A) x y : set_nth (l ++ [x]) (length l) y = l ++ [y].
Proof. induction l as [|z l IH]; cbn; [reflexivity|]. now rewrite IH. Qed.
Lemma heappush_ok l x : heap l -> heap (heappush lt l x) /\ Permutation (heappush lt l x) (x :: l).
Proof.
  intro H. assert (L : length (l ++ [x]) = S (length l)) by (rewrite app_length; cbn; lia).
  destruct (siftdown_ok x (S (length l)) (l ++ [x]) (length l) x) as (R1 & R2 & R3); rewrite ?L; try lia.
  - intros i I N1 N2. pose proof (par_lt i ltac:(lia)). rewrite !app_nth1 by lia. apply H. lia.
  - intros i I E. apply par_iff in E; lia.
  - intros i I E. apply par_iff in E; lia.
  - unfold heappush. split.
    + intros i d I. rewrite R1, L in I. pose proof (par_lt i ltac:(lia)).
      rewrite (nth_indep _ d x), (nth_indep _ d x) by lia. apply R3. lia.
    + rewrite R2, set_snoc. symmetry. apply Permutation_cons_append.
Qed.
Lemma heap_root l d : heap l -> forall i, i < length l -> le (nth 0 l d) (nth i l d).
Proof.
  intros H i. induction i as [i IH] using (well_founded_induction lt_wf). intro I.
  destruct (Nat.eq_dec i 0) as [->|N]; [apply le_refl|]. pose proof (par_lt i ltac:(lia)).
  eapply le_trans; [apply (IH (par i)); lia|]. apply H. lia.
Qed.
Lemma heappop_ok l : heap l -> l <> [] ->
  exists a l', heappop lt l = Some (a, l') /\ Permutation l (a :: l') /\ heap l' /\ forall b, In b l -> le a b.
Proof.
  intros H N. unfold heappop. destruct (rev l) as [|z r] eqn:E.
  { elim N. rewrite <- (rev_involutive l), E. reflexivity. }
  assert (El : l = rev r ++ [z]) by (rewrite <- (rev_involutive l), E; reflexivity). clear E.
  destruct (rev r) as [|a rest] eqn:Er.
  - exists z, []. split; [reflexivity|]. rewrite El. split; [reflexivity|]. split; [intros i d I; cbn in I; lia|].
    intros b [->|[]]. apply le_refl.
  - assert (Lr : length r = S (length rest)) by (rewrite <- (rev_length r), Er; reflexivity).
    assert (Ll : length l = S (S (length rest))) by (rewrite El; cbn; rewrite app_length; cbn; lia).
    destruct (siftup_ok a (S (length r)) (z :: rest) 0 z) as (R1 & R2 & R3); cbn [length]; try lia.
    + intros i I N1 N2. pose proof (par_lt i ltac:(lia)). specialize (H i a ltac:(lia)). rewrite El in H.
      rewrite !app_nth1 in H by (cbn [length]; cbn [length] in I; lia).
      destruct i as [|i]; [lia|]. destruct (par (S i)); [lia|]. exact H.
    + exists a, (siftup lt (S (length r)) (z :: rest) 0 z). split; [reflexivity|]. split; [|split].
      * rewrite R2, El. cbn [set_nth app]. constructor. symmetry. apply Permutation_cons_append.
      * intros i d I. rewrite R1 in I. pose proof (par_lt i ltac:(lia)).
        rewrite (nth_indep _ d a), (nth_indep _ d a) by lia. apply R3. exact I.
      * intros b I. destruct (In_nth l b a I) as (i & Li & <-). pose proof (heap_root l a H i Li) as Q.
        rewrite El in Q at 2. cbn in Q. exact Q.
Qed.
End H.

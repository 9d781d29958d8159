(** C81: which writes reach the simulator at once, and that the others are not forgotten. *)
From Verif Require Import Base PhaseModel PhaseSpec PhaseProofs.
Open Scope Z_scope.

Lemma cur_readwrite trust l s r : prun trust phases0 l = Some (s, r) -> (is_readwrite (p_cur s) = true <-> last_fired l GReadWrite).
Proof.
  intro R. destruct (prun_cur _ _ _ _ _ R) as [[Q C]|F].
  - rewrite C. split; [discriminate|]. intro F. destruct (quiet_not_fired _ _ Q F).
  - split.
    + destruct (p_cur s); try discriminate. intros _. exact F.
    + intro F'. rewrite (last_fired_fun _ _ _ F F'). reflexivity.
Qed.
(** A write of an object which is not constant reaches the simulator during the call exactly if the last trigger is not ReadOnly, and
    inertial writes are trusted, the last trigger is ReadWrite, or it is no inertial write. *)
Theorem C81_direct trust l s r i d cb g a : prun trust phases0 l = Some (s, r) -> nth_error l i = Some (PWrite false d cb g) -> nth_error r i = Some a ->
  (a = PDone true <-> ~ last_fired (firstn i l) GReadOnly /\ (trust = true \/ last_fired (firstn i l) GReadWrite \/ d = false)).
Proof.
  intros R L A. destruct (at_split _ _ _ _ _ _ _ R L A) as (s1 & r1 & s2 & R1 & P).
  pose proof (cur_readonly _ _ _ _ R1) as C. pose proof (cur_readwrite _ _ _ _ R1) as D.
  cbn [pstep] in P. unfold write_value in P.
  destruct (is_readonly (p_cur s1)).
  { injection P as _ <-. split; [discriminate|]. intros [N _]. elim N. now apply C. }
  assert (N : ~ last_fired (firstn i l) GReadOnly) by (intro F; apply C in F; discriminate F).
  destruct trust; [injection P as _ <-; split; [intros _; auto|reflexivity]|].
  destruct (is_readwrite (p_cur s1)); [injection P as _ <-; split; [intros _; split; [exact N|right; left; now apply D]|reflexivity]|].
  assert (M : ~ last_fired (firstn i l) GReadWrite) by (intro F; apply D in F; discriminate F).
  destruct d; [|injection P as _ <-; split; [intros _; auto|reflexivity]].
  assert (X : a <> PDone true).
  { destruct (p_wcb s1); [injection P as _ <-; discriminate|]. destruct (register GReadWrite cb g s1) as [s' [e|]]; injection P as _ <-; discriminate. }
  split; [contradiction|]. intros [_ [Y|[Y|Y]]]; [discriminate|contradiction|discriminate].
Qed.
Print Assumptions C81_direct.

(** A write registers its callback for ReadWrite; nobody else cancels it. *)
Definition left_alone (l : list pevent) : Prop := forall w c d g, In (PWrite c d w g) l -> ~ In (PCancel GReadWrite w) l.
Definition armed (W : nat -> Prop) (s : phases) : Prop :=
  (p_wcb s = true -> exists w, W w /\ In w (p_cbs s GReadWrite)) /\ (p_cbs s GReadWrite <> [] -> p_sim s GReadWrite = true).
Definition gentle (W : nat -> Prop) (e : pevent) : Prop :=
  ~ unwilling e /\ (forall w c d g, e = PWrite c d w g -> W w) /\ (forall w, e = PCancel GReadWrite w -> ~ W w).

Lemma register_armed W t cb s s' e : armed W s -> register t cb true s = (s', e) -> armed W s' /\ e = None /\ p_wcb s' = p_wcb s /\
  (t = GReadWrite -> In cb (p_cbs s' GReadWrite)).
Proof.
  intros [A B] H. unfold register in H.
  assert (K : (p_wcb s = true -> exists w, W w /\ In w (upd (p_cbs s) t (p_cbs s t ++ [cb]) GReadWrite))).
  { intro X. destruct (A X) as (w & Ww & I). exists w. split; [exact Ww|]. unfold upd. destruct (gtrig_eqb GReadWrite t) eqn:E; [|exact I].
    apply gtrig_eqb_iff in E. subst t. apply in_or_app. now left. }
  assert (L : t = GReadWrite -> In cb (upd (p_cbs s) t (p_cbs s t ++ [cb]) GReadWrite)).
  { intros ->. rewrite upd_same. apply in_or_app. right. now left. }
  destruct (p_cbs s t) as [|c0 cs] eqn:Q; injection H as <- <-; (split; [split|split; [reflexivity|split; [reflexivity|exact L]]]); cbn [p_wcb p_cbs p_sim]; try exact K.
  - unfold upd. destruct (gtrig_eqb GReadWrite t); [reflexivity|exact B].
  - unfold upd. destruct (gtrig_eqb GReadWrite t) eqn:E; [|exact B]. apply gtrig_eqb_iff in E. subst t. intros _. apply B. rewrite Q. discriminate.
Qed.
Lemma in_existsb w l : In w l -> existsb (Nat.eqb w) l = true.
Proof. intro H. apply existsb_exists. exists w. split; [exact H|apply Nat.eqb_refl]. Qed.
Lemma deregister_armed W t cb s s' e : armed W s -> (t = GReadWrite -> ~ W cb) -> deregister t cb s = (s', e) -> armed W s' /\ p_wcb s' = p_wcb s.
Proof.
  intros [A B] N H. unfold deregister in H. destruct (existsb (Nat.eqb cb) (p_cbs s t)) eqn:E; [|injection H as <- _; split; [split; assumption|reflexivity]].
  set (rest := filter (fun c => negb (Nat.eqb cb c)) (p_cbs s t)) in H.
  assert (K : p_wcb s = true -> exists w, W w /\ In w (upd (p_cbs s) t rest GReadWrite)).
  { intro X. destruct (A X) as (w & Ww & I). exists w. split; [exact Ww|]. unfold upd. destruct (gtrig_eqb GReadWrite t) eqn:Q; [|exact I].
    apply gtrig_eqb_iff in Q. subst t. apply filter_In. split; [exact I|]. apply Bool.negb_true_iff, Nat.eqb_neq. intros ->. exact (N eq_refl Ww). }
  assert (L : upd (p_cbs s) t rest GReadWrite <> [] -> p_sim s GReadWrite = true).
  { intro X. apply B. unfold upd in X. destruct (gtrig_eqb GReadWrite t) eqn:Q; [|exact X]. apply gtrig_eqb_iff in Q. subst t.
    intro Z. subst rest. rewrite Z in X. now apply X. }
  destruct rest as [|c0 cs] eqn:Q.
  - destruct (p_hdl s t); injection H as <- _; (split; [split|reflexivity]); cbn [p_wcb p_cbs p_sim]; try exact K; try exact L.
    intro X. destruct (gtrig_eqb GReadWrite t) eqn:Y; [apply gtrig_eqb_iff in Y; subst t; rewrite upd_same in X; now elim X|].
    unfold upd at 1. rewrite Y. apply L. exact X.
  - injection H as <- _. split; [split; [exact K|exact L]|reflexivity].
Qed.
Lemma pstep_armed W s e s' a : gentle W e -> armed W s -> pstep false s e = Some (s', a) -> armed W s' /\
  (~ fires GReadWrite e -> p_wcb s = true -> p_wcb s' = true) /\
  (forall cb g, e = PWrite false true cb g -> a = PDone false -> p_wcb s' = true).
Proof.
  intros (U & G1 & G2) A H. destruct e as [t|t cb g|t cb|c d cb g]; cbn [pstep] in H.
  - destruct (p_sim s t); [|discriminate]. unfold react in H. injection H as <- <-. split; [|split].
    + destruct A as [A B]. split; cbn [p_wcb p_cbs p_sim].
      * destruct t; cbn [negb andb is_readwrite]; try discriminate; intro X; destruct (A X) as (w & Ww & I); exists w; (split; [exact Ww|exact I]).
      * unfold upd. destruct (gtrig_eqb GReadWrite t); [intro X; now elim X|exact B].
    + cbn [p_wcb]. intros N X. destruct t; cbn [negb andb is_readwrite]; try exact X. now elim N.
    + discriminate.
  - assert (g = true) by (destruct g; [reflexivity|]; elim U; left; eauto). subst g.
    unfold await_trigger in H. destruct ((is_readonly t || is_readwrite t) && is_readonly (p_cur s)).
    + injection H as <- _. split; [exact A|split; [auto|discriminate]].
    + destruct (register t cb true s) as [s1 e] eqn:R. injection H as <- _. destruct (register_armed W t cb s s1 e A R) as (A' & _ & E & _).
      split; [exact A'|split; [intros _ X; congruence|discriminate]].
  - destruct (deregister t cb s) as [s1 e] eqn:R. injection H as <- _.
    destruct (deregister_armed W t cb s s1 e A) as [A' E]; [intros ->; exact (G2 cb eq_refl)|exact R|].
    split; [exact A'|split; [intros _ X; congruence|discriminate]].
  - assert (g = true) by (destruct g; [reflexivity|]; elim U; right; eauto). subst g.
    unfold write_value in H. destruct (is_readonly (p_cur s)); [injection H as <- <-; split; [exact A|split; [auto|discriminate]]|].
    destruct c; [injection H as <- <-; split; [exact A|split; [auto|discriminate]]|].
    destruct (is_readwrite (p_cur s)); [injection H as <- <-; split; [exact A|split; [auto|discriminate]]|].
    destruct d; [|injection H as <- <-; split; [exact A|split; [auto|discriminate]]].
    destruct (p_wcb s) eqn:Q; [injection H as <- <-; split; [exact A|split; [auto|intros; exact Q]]|].
    destruct (register GReadWrite cb true s) as [s1 e] eqn:R. destruct (register_armed W _ cb s s1 e A R) as ([A1 A2] & -> & E & I).
    injection H as <- <-. split; [|split; [reflexivity|reflexivity]]. split; cbn [p_wcb p_cbs p_sim]; [|exact A2].
    intros _. exists cb. split; [exact (G1 _ _ _ _ eq_refl)|exact (I eq_refl)].
Qed.
Lemma prun_armed W l : forall s s' r, Forall (gentle W) l -> armed W s -> prun false s l = Some (s', r) -> armed W s' /\
  (Forall (fun e => ~ fires GReadWrite e) l -> p_wcb s = true -> p_wcb s' = true).
Proof.
  induction l as [|e l IH]; intros s s' r G A; cbn [prun].
  - intro H. injection H as <- _. auto.
  - destruct (pstep false s e) as [[s1 a]|] eqn:E; [|discriminate]. destruct (prun false s1 l) as [[s2 r2]|] eqn:R; [|discriminate].
    intro H. injection H as <- _. inversion G as [|? ? G1 G2]; subst. destruct (pstep_armed W s e s1 a G1 A E) as (A1 & K & _).
    destruct (IH s1 s2 r2 G2 A1 R) as [A2 K2]. split; [exact A2|]. intros F X. inversion F as [|? ? F1 F2]; subst. exact (K2 F2 (K F1 X)).
Qed.
(** If the simulator gives the callbacks it is asked for and nobody cancels the callbacks of the writes, then a write which was put off is
    followed by ReadWrite: as long as that has not fired, the simulator has a callback for it. *)
Theorem C81_scheduled l1 cb g l2 s r : let l := l1 ++ PWrite false true cb g :: l2 in
  prun false phases0 l = Some (s, r) -> Forall (fun e => ~ unwilling e) l -> left_alone l ->
  nth_error r (List.length l1) = Some (PDone false) -> Forall (fun e => ~ fires GReadWrite e) l2 ->
  exists s' woken, pstep false s (PFire GReadWrite) = Some (s', PFired woken) /\ woken <> [].
Proof.
  intros l R U LA N F. set (W := fun w => exists c d g, In (PWrite c d w g) l).
  assert (G : Forall (gentle W) l).
  { apply Forall_forall. intros e I. split; [exact (proj1 (Forall_forall _ _) U e I)|]. split.
    - intros w c d g' ->. exists c, d, g'. exact I.
    - intros w -> (c & d & g' & J). exact (LA w c d g' J I). }
  assert (A0 : armed W phases0) by (split; [discriminate|intro X; now elim X]).
  unfold l in R, G. apply prun_app in R. destruct R as (s1 & r1 & r2 & R1 & R2 & ->). apply Forall_app in G. destruct G as [G1 G2].
  inversion G2 as [|? ? G3 G4]; subst. pose proof (prun_len _ _ _ _ _ R1) as LEN.
  rewrite nth_error_app2 in N by (rewrite LEN; reflexivity). rewrite LEN, Nat.sub_diag in N.
  destruct (prun_armed W l1 _ _ _ G1 A0 R1) as [A1 _].
  cbn [prun] in R2. destruct (pstep false s1 (PWrite false true cb g)) as [[s2 a]|] eqn:P; [|discriminate].
  destruct (prun false s2 l2) as [[s3 r3]|] eqn:R3; [|discriminate]. injection R2 as <- <-. injection N as ->.
  destruct (pstep_armed W s1 _ s2 _ G3 A1 P) as (A2 & _ & K).
  destruct (prun_armed W l2 _ _ _ G4 A2 R3) as [[A3 B3] K3]. specialize (K3 F (K cb g eq_refl eq_refl)).
  destruct (A3 K3) as (w & _ & I). assert (NE : p_cbs s3 GReadWrite <> []) by (intro Z; rewrite Z in I; exact I).
  cbn [pstep]. rewrite (B3 NE). eexists _, _. split; [reflexivity|exact NE].
Qed.
Print Assumptions C81_scheduled.
Example C81_scheduled_ex :
  let l1 := [PAwait (GTimer 1) 1 true; PWrite false true 2 true; PFire GReadWrite; PWrite false true 3 true; PAwait GReadWrite 4 true; PFire (GTimer 1)] in
  let l2 := [PWrite false true 6 true; PCancel GReadWrite 4; PWrite false false 7 true] in
  let l := l1 ++ PWrite false true 5 true :: l2 in
  exists s r, prun false phases0 l = Some (s, r) /\ Forall (fun e => ~ unwilling e) l /\ left_alone l /\
  nth_error r (List.length l1) = Some (PDone false) /\ nth_error r 3 = Some (PDone true) /\ nth_error r 9 = Some (PDone true) /\
  Forall (fun e => ~ fires GReadWrite e) l2.
Proof.
  eexists _, _. split; [vm_compute; reflexivity|]. split.
  { repeat (constructor; [intros [(x & y & E)|(x & y & z & E)]; discriminate E|]). constructor. }
  split.
  { intros w c d g I J. cbn in I, J. repeat (destruct J as [J|J]; [try discriminate J|]); [|contradiction]. injection J as <-.
    repeat (destruct I as [I|I]; [discriminate I|]). exact I. }
  split; [reflexivity|]. split; [reflexivity|]. split; [reflexivity|].
  repeat (constructor; [intro X; discriminate X|]). constructor.
Qed.
(** Once the simulator has refused the callback for ReadWrite, a later write is put off without an error, although no callback exists and
    the simulator would give it: the write is lost. *)
Theorem C81_forgotten_refuted : exists l s r i cb, prun false phases0 l = Some (s, r) /\ nth_error l i = Some (PWrite false true cb true) /\
  nth_error r i = Some (PDone false) /\ p_sim s GReadWrite = false /\ Forall (fun e => ~ fires GReadWrite e) l.
Proof.
  exists [PWrite false true 1 false; PWrite false true 2 true]. eexists _, _. exists 1%nat, 2%nat. split; [vm_compute; reflexivity|].
  split; [reflexivity|]. split; [reflexivity|]. split; [reflexivity|]. repeat (constructor; [intro X; discriminate X|]). constructor.
Qed.
Print Assumptions C81_forgotten_refuted.

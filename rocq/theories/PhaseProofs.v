(** Proofs of C81 and C82. *)
From Verif Require Import Base PhaseModel PhaseSpec.
Open Scope Z_scope.

Lemma gtrig_eqb_iff a b : gtrig_eqb a b = true <-> a = b.
Proof.
  destruct a, b; cbn; try rewrite Nat.eqb_eq; split; intro H; try discriminate H; try reflexivity; try (f_equal; exact H);
    injection H as ->; reflexivity.
Qed.
Lemma gtrig_refl a : gtrig_eqb a a = true.
Proof. apply gtrig_eqb_iff. reflexivity. Qed.
Lemma upd_same {A} (f : gtrig -> A) t x : upd f t x t = x.
Proof. unfold upd. rewrite gtrig_refl. reflexivity. Qed.
Lemma upd_other {A} (f : gtrig -> A) t u x : u <> t -> upd f t x u = f u.
Proof. intro N. unfold upd. destruct (gtrig_eqb u t) eqn:E; [apply gtrig_eqb_iff in E; contradiction|reflexivity]. Qed.

Lemma prun_app trust l1 : forall s l2 s2 r, prun trust s (l1 ++ l2) = Some (s2, r) <->
  exists s1 r1 r2, prun trust s l1 = Some (s1, r1) /\ prun trust s1 l2 = Some (s2, r2) /\ r = r1 ++ r2.
Proof.
  induction l1 as [|e l1 IH]; intros s l2 s2 r; cbn [prun app].
  - split.
    + intro H. exists s, [], r. repeat split; assumption.
    + intros (s1 & r1 & r2 & A & B & C). injection A as <- <-. cbn in C. subst r. exact B.
  - destruct (pstep trust s e) as [[s' a]|] eqn:E.
    2:{ split; [discriminate|]. intros (s1 & r1 & r2 & A & _). discriminate A. }
    split.
    + destruct (prun trust s' (l1 ++ l2)) as [[s3 r3]|] eqn:R; [|discriminate]. intro H. injection H as -> <-.
      apply IH in R. destruct R as (s1 & r1 & r2 & A & B & ->). rewrite A. exists s1, (a :: r1), r2. repeat split. exact B.
    + intros (s1 & r1 & r2 & A & B & C). destruct (prun trust s' l1) as [[s3 r3]|] eqn:R; [|discriminate A].
      injection A as -> <-. assert (Q : prun trust s' (l1 ++ l2) = Some (s2, r3 ++ r2)).
      { apply IH. exists s1, r3, r2. repeat split; assumption. }
      rewrite Q. cbn in C. subst r. reflexivity.
Qed.
Lemma prun_len trust l : forall s s2 r, prun trust s l = Some (s2, r) -> List.length r = List.length l.
Proof.
  induction l as [|e l IH]; intros s s2 r; cbn [prun].
  - intro H. injection H as _ <-. reflexivity.
  - destruct (pstep trust s e) as [[s' a]|]; [|discriminate]. destruct (prun trust s' l) as [[s3 r3]|] eqn:R; [|discriminate].
    intro H. injection H as _ <-. cbn. f_equal. exact (IH _ _ _ R).
Qed.

Lemma register_cur t cb g s s' e : register t cb g s = (s', e) -> p_cur s' = p_cur s.
Proof. unfold register. destruct (p_cbs s t); intro H; injection H as <- _; reflexivity. Qed.
Lemma pstep_cur trust s e s' a : pstep trust s e = Some (s', a) ->
  p_cur s' = match e with PFire t => t | _ => p_cur s end.
Proof.
  destruct e as [t|t cb g|t cb|c d cb g]; cbn [pstep].
  - destruct (p_sim s t); [|discriminate]. cbn. intro H. injection H as <- _. reflexivity.
  - unfold await_trigger. destruct (_ && _); [intro H; injection H as <- _; reflexivity|].
    destruct (register t cb g s) as [s1 e] eqn:E. intro H. injection H as <- _. exact (register_cur _ _ _ _ _ _ E).
  - unfold deregister. destruct (existsb _ _); [|intro H; injection H as <- _; reflexivity].
    destruct (filter _ _); [destruct (p_hdl s t)|]; intro H; injection H as <- _; reflexivity.
  - unfold write_value. destruct (is_readonly _); [intro H; injection H as <- _; reflexivity|].
    destruct c; [intro H; injection H as <- _; reflexivity|]. destruct trust; [intro H; injection H as <- _; reflexivity|].
    destruct (is_readwrite _); [intro H; injection H as <- _; reflexivity|]. destruct d; [|intro H; injection H as <- _; reflexivity].
    destruct (p_wcb s); [intro H; injection H as <- _; reflexivity|].
    destruct (register GReadWrite cb g s) as [s1 [x|]] eqn:E; intro H; injection H as <- _; exact (register_cur _ _ _ _ _ _ E).
Qed.
(** The last fired trigger, or the one before the run. *)
Lemma prun_cur trust l : forall s s2 r, prun trust s l = Some (s2, r) ->
  (Forall quiet l /\ p_cur s2 = p_cur s) \/ last_fired l (p_cur s2).
Proof.
  induction l as [|e l IH]; intros s s2 r; cbn [prun].
  - intro H. injection H as <- _. left. split; [constructor|reflexivity].
  - destruct (pstep trust s e) as [[s' a]|] eqn:E; [|discriminate]. destruct (prun trust s' l) as [[s3 r3]|] eqn:R; [|discriminate].
    intro H. injection H as <- _. destruct (IH _ _ _ R) as [[Q C]|(x & y & L & Q)].
    + pose proof (pstep_cur _ _ _ _ _ E) as C'. destruct e as [t| | |].
      * right. exists [], l. split; [|exact Q]. cbn [app]. rewrite C, C'. reflexivity.
      * left. split; [constructor; [intros t' X; discriminate X|exact Q]|congruence].
      * left. split; [constructor; [intros t' X; discriminate X|exact Q]|congruence].
      * left. split; [constructor; [intros t' X; discriminate X|exact Q]|congruence].
    + right. exists (e :: x), y. split; [cbn; f_equal; exact L|exact Q].
Qed.
Lemma last_fired_fun l t u : last_fired l t -> last_fired l u -> t = u.
Proof.
  intros (a & b & E & Q) (c & d & E' & Q'). subst l. revert c E'. induction a as [|x a IH]; intros [|y c] E'; cbn in E'.
  - injection E' as -> _. reflexivity.
  - exfalso. injection E' as _ ->. apply Forall_app in Q. destruct Q as [_ Q]. inversion Q as [|? ? X]. exact (X u eq_refl).
  - exfalso. injection E' as _ <-. apply Forall_app in Q'. destruct Q' as [_ Q']. inversion Q' as [|? ? X]. exact (X t eq_refl).
  - injection E' as _ E'. exact (IH _ E').
Qed.
Lemma quiet_not_fired l t : Forall quiet l -> ~ last_fired l t.
Proof. intros Q (a & b & -> & _). apply Forall_app in Q. destruct Q as [_ Q]. inversion Q as [|? ? X]. exact (X t eq_refl). Qed.
Lemma cur_readonly trust l s r : prun trust phases0 l = Some (s, r) -> (is_readonly (p_cur s) = true <-> last_fired l GReadOnly).
Proof.
  intro R. destruct (prun_cur _ _ _ _ _ R) as [[Q C]|F].
  - rewrite C. split; [discriminate|]. intro F. destruct (quiet_not_fired _ _ Q F).
  - split.
    + destruct (p_cur s); try discriminate. intros _. exact F.
    + intro F'. rewrite (last_fired_fun _ _ _ F F'). reflexivity.
Qed.

Lemma at_split trust l s r i e a : prun trust phases0 l = Some (s, r) -> nth_error l i = Some e -> nth_error r i = Some a ->
  exists s1 r1 s2, prun trust phases0 (firstn i l) = Some (s1, r1) /\ pstep trust s1 e = Some (s2, a).
Proof.
  intros R L A. destruct (nth_error_split l i L) as (l1 & l2 & E & I). rewrite E in R. apply prun_app in R.
  destruct R as (s1 & r1 & r2 & R1 & R2 & ->). pose proof (prun_len _ _ _ _ _ R1) as LEN.
  assert (F : firstn i l = l1). { rewrite E, <- I, firstn_app, Nat.sub_diag, firstn_all, firstn_O, app_nil_r. reflexivity. }
  rewrite F. cbn [prun] in R2. destruct (pstep trust s1 e) as [[s2 a']|] eqn:P; [|discriminate R2].
  destruct (prun trust s2 l2) as [[s3 r3]|]; [|discriminate R2]. injection R2 as _ <-.
  rewrite nth_error_app2 in A by (rewrite LEN, I; reflexivity). rewrite LEN, I, Nat.sub_diag in A. injection A as <-.
  exists s1, r1, s2. split; assumption.
Qed.
Theorem refused_pf trust l s r i e a : prun trust phases0 l = Some (s, r) -> nth_error l i = Some e -> nth_error r i = Some a ->
  (last_fired (firstn i l) GReadOnly -> restricted e -> a = PRaised PRuntimeError) /\
  (a = PRaised PRuntimeError -> (last_fired (firstn i l) GReadOnly /\ restricted e) \/ unwilling e).
Proof.
  intros R L A. destruct (at_split _ _ _ _ _ _ _ R L A) as (s1 & r1 & s2 & R1 & P).
  pose proof (cur_readonly _ _ _ _ R1) as C. split.
  - intros F Q. apply C in F. destruct Q as [(cb & g & ->)|[(cb & g & ->)|(c & d & cb & g & ->)]]; cbn [pstep] in P;
      unfold await_trigger, write_value in P; rewrite F in P; cbn in P; injection P as _ <-; reflexivity.
  - intros ->. destruct e as [t|t cb g|t cb|c d cb g]; cbn [pstep] in P.
    + destruct (p_sim s1 t); [|discriminate P]. cbn in P. discriminate P.
    + unfold await_trigger in P. destruct (is_readonly t || is_readwrite t) eqn:K, (is_readonly (p_cur s1)) eqn:F; cbn [andb] in P.
      1:{ left. split; [apply C; reflexivity|]. destruct t; try discriminate K; [left|right; left]; eauto. }
      all: right; unfold register in P; destruct (p_cbs s1 t); [|discriminate P]; destruct g; [discriminate P|]; left; eauto.
    + unfold deregister in P. destruct (existsb _ _); [|discriminate P]. destruct (filter _ _); [destruct (p_hdl s1 t)|]; discriminate P.
    + unfold write_value in P. destruct (is_readonly (p_cur s1)) eqn:F.
      * left. split; [apply C; reflexivity|]. right. right. eauto.
      * right. destruct c; [discriminate P|]. destruct trust; [discriminate P|]. destruct (is_readwrite _); [discriminate P|].
        destruct d; [|discriminate P]. destruct (p_wcb s1); [discriminate P|]. unfold register in P.
        destruct (p_cbs s1 GReadWrite); [|discriminate P]. destruct g; [discriminate P|]. right. eauto.
Qed.

(** While the last trigger is ReadOnly nothing of the time step is registered and nothing is written. *)
Lemma register_sim t cb g s s' e : register t cb g s = (s', e) ->
  forall u, p_sim s' u = true -> p_sim s u = true \/ (u = t /\ g = true).
Proof.
  unfold register. destruct (p_cbs s t); intro H; injection H as <- _; cbn; intros u U; [|left; exact U].
  destruct g; [|left; exact U]. unfold upd in U. destruct (gtrig_eqb u t) eqn:E; [right; apply gtrig_eqb_iff in E; auto|left; exact U].
Qed.
Lemma deregister_sim t cb s s' e : deregister t cb s = (s', e) -> forall u, p_sim s' u = true -> p_sim s u = true.
Proof.
  unfold deregister. destruct (existsb _ _); [|intro H; injection H as <- _; auto].
  destruct (filter _ _); [destruct (p_hdl s t)|]; intro H; injection H as <- _; cbn; intros u U; try exact U.
  unfold upd in U. destruct (gtrig_eqb u t); [discriminate U|exact U].
Qed.
Lemma quiet_step trust s e s' a : quiet e -> p_cur s = GReadOnly -> pstep trust s e = Some (s', a) ->
  p_cur s' = GReadOnly /\ (forall t, t = GReadOnly \/ t = GReadWrite -> p_sim s' t = true -> p_sim s t = true) /\
  a <> PDone true.
Proof.
  intros Q C P. split; [rewrite (pstep_cur _ _ _ _ _ P); destruct e as [t| | |]; try exact C; destruct (Q t eq_refl)|].
  destruct e as [t|t cb g|t cb|c d cb g]; cbn [pstep] in P.
  - destruct (Q t eq_refl).
  - unfold await_trigger in P. rewrite C in P. cbn [is_readonly] in P. rewrite andb_true_r in P.
    destruct (is_readonly t || is_readwrite t) eqn:K; [injection P as <- <-; split; [auto|discriminate]|].
    destruct (register t cb g s) as [s1 e] eqn:E. injection P as <- <-. split; [|destruct e; discriminate].
    intros u U S. destruct (register_sim _ _ _ _ _ _ E u S) as [S'|[-> _]]; [exact S'|].
    destruct U as [-> | ->]; discriminate K.
  - destruct (deregister t cb s) as [s1 e] eqn:E. injection P as <- <-. split; [|destruct e; discriminate].
    intros u _. exact (deregister_sim _ _ _ _ _ E u).
  - unfold write_value in P. rewrite C in P. cbn in P. injection P as <- <-. split; [auto|discriminate].
Qed.
Lemma quiet_run trust l : forall s s' r, Forall quiet l -> p_cur s = GReadOnly -> prun trust s l = Some (s', r) ->
  p_cur s' = GReadOnly /\ (forall t, t = GReadOnly \/ t = GReadWrite -> p_sim s' t = true -> p_sim s t = true) /\
  ~ In (PDone true) r.
Proof.
  induction l as [|e l IH]; intros s s' r Q C; cbn [prun].
  - intro H. injection H as <- <-. repeat split; auto.
  - inversion Q as [|? ? Qe Ql]. subst. destruct (pstep trust s e) as [[s1 a]|] eqn:E; [|discriminate].
    destruct (prun trust s1 l) as [[s2 r2]|] eqn:R; [|discriminate]. intro H. injection H as <- <-.
    destruct (quiet_step _ _ _ _ _ Qe C E) as (C1 & S1 & A1). destruct (IH _ _ _ Ql C1 R) as (C2 & S2 & A2).
    split; [exact C2|]. split; [intros t T X; exact (S1 t T (S2 t T X))|]. intros [X|X]; [exact (A1 X)|exact (A2 X)].
Qed.
Lemma sim_why trust l : forall s s' r, prun trust s l = Some (s', r) -> p_sim s' GReadWrite = true ->
  (p_sim s GReadWrite = true /\ Forall (fun e => ~ fires GReadWrite e) l) \/
  (exists a e b, l = a ++ e :: b /\ asks_readwrite e /\ Forall (fun e => ~ fires GReadWrite e) b).
Proof.
  induction l as [|e l IH]; intros s s' r; cbn [prun].
  - intro H. injection H as <- _. intro S. left. split; [exact S|constructor].
  - destruct (pstep trust s e) as [[s1 a]|] eqn:E; [|discriminate]. destruct (prun trust s1 l) as [[s2 r2]|] eqn:R; [|discriminate].
    intro H. injection H as <- _. intro S. destruct (IH _ _ _ R S) as [[S1 F]|(x & y & z & -> & A & F)].
    2:{ right. exists (e :: x), y, z. repeat split; assumption. }
    assert (D : (p_sim s GReadWrite = true /\ ~ fires GReadWrite e) \/ asks_readwrite e).
    { destruct e as [t|t cb g|t cb|c d cb g]; cbn [pstep] in E.
      - destruct (p_sim s t) eqn:PS; [|discriminate E]. cbn in E. injection E as <- _. cbn in S1. unfold upd in S1.
        destruct (gtrig_eqb GReadWrite t) eqn:T; [discriminate S1|]. left. split; [exact S1|]. intro X. injection X as ->.
        discriminate T.
      - unfold await_trigger in E. destruct (_ && _); [injection E as <- _; left; split; [exact S1|discriminate]|].
        destruct (register t cb g s) as [s3 e] eqn:G. injection E as <- _.
        destruct (register_sim _ _ _ _ _ _ G _ S1) as [X|[<- ->]]; [left; split; [exact X|discriminate]|right; left; eauto].
      - destruct (deregister t cb s) as [s3 e] eqn:G. injection E as <- _. left. split; [exact (deregister_sim _ _ _ _ _ G _ S1)|discriminate].
      - unfold write_value in E. destruct (is_readonly _); [injection E as <- _; left; split; [exact S1|discriminate]|].
        destruct c; [injection E as <- _; left; split; [exact S1|discriminate]|].
        destruct trust; [injection E as <- _; left; split; [exact S1|discriminate]|].
        destruct (is_readwrite _); [injection E as <- _; left; split; [exact S1|discriminate]|].
        destruct d; [|injection E as <- _; left; split; [exact S1|discriminate]].
        destruct (p_wcb s); [injection E as <- _; left; split; [exact S1|discriminate]|].
        destruct (register GReadWrite cb g s) as [s3 [x|]] eqn:G; injection E as <- _; cbn in S1;
          (destruct (register_sim _ _ _ _ _ _ G _ S1) as [X|[_ ->]]; [left; split; [exact X|discriminate]|right; right; eauto]). }
    destruct D as [[S0 N]|A]; [left; split; [exact S0|constructor; assumption]|right; exists [], e, l; repeat split; assumption].
Qed.
Theorem apart_pf trust a mid t s r : prun trust phases0 (a ++ PFire GReadOnly :: mid ++ [PFire t]) = Some (s, r) -> Forall quiet mid ->
  t <> GReadOnly /\
  (forall i, nth_error r i = Some (PDone true) -> (i < List.length a)%nat) /\
  (t = GReadWrite -> exists x e y, a = x ++ e :: y /\ asks_readwrite e /\ Forall (fun e => ~ fires GReadWrite e) y).
Proof.
  intros R Q. apply prun_app in R. destruct R as (s1 & r1 & r2 & R1 & R2 & ->). cbn [prun] in R2.
  destruct (pstep trust s1 (PFire GReadOnly)) as [[s2 x]|] eqn:P; [|discriminate R2].
  destruct (prun trust s2 (mid ++ [PFire t])) as [[s3 r3]|] eqn:R3; [|discriminate R2]. injection R2 as -> <-.
  apply prun_app in R3. destruct R3 as (s4 & r4 & r5 & R4 & R5 & ->). cbn [pstep] in P.
  destruct (p_sim s1 GReadOnly); [|discriminate P]. cbn in P. injection P as <- <-.
  match type of R4 with prun _ ?x _ = _ => assert (CX : p_cur x = GReadOnly) by reflexivity end.
  destruct (quiet_run _ _ _ _ _ Q CX R4) as (C & S & N). cbn [prun pstep] in R5.
  destruct (p_sim s4 t) eqn:T; [|discriminate R5]. cbn in R5. injection R5 as _ <-. split; [|split].
  - intros ->. pose proof (S GReadOnly (or_introl eq_refl) T) as X. cbn in X. discriminate X.
  - intros i I. rewrite <- (prun_len _ _ _ _ _ R1). destruct (Nat.ltb_spec i (List.length r1)) as [L|L]; [exact L|exfalso].
    rewrite nth_error_app2 in I by exact L. destruct (i - List.length r1)%nat as [|k]; cbn in I; [discriminate I|].
    destruct (Nat.ltb_spec k (List.length r4)) as [K|K].
    + rewrite nth_error_app1 in I by exact K. exact (N (nth_error_In _ _ I)).
    + rewrite nth_error_app2 in I by exact K. destruct (k - List.length r4)%nat as [|[|j]]; discriminate I.
  - intros ->. pose proof (S GReadWrite (or_intror eq_refl) T) as X. cbn in X.
    destruct (sim_why _ _ _ _ _ R1 X) as [[Y _]|Y]; [discriminate Y|exact Y].
Qed.

(** * Edges *)
Lemma eclass_eqb_iff a b : eclass_eqb a b = true <-> a = b.
Proof. destruct a, b; cbn; split; intro H; try discriminate H; reflexivity. Qed.
Definition well_cached (s : edges) : Prop := forall sig c o, cached (sig, c) (e_cache s) = Some o <-> nth_error (e_made s) o = Some (sig, c).
Definition once_made (s : edges) : Prop := NoDup (e_made s).
Lemma estep_cases kind s q s' a : estep kind s q = (s', a) ->
  (exists o, cached (q_sig q, q_class q) (e_cache s) = Some o /\ has_property (q_class q) (kind (q_sig q)) = true /\ s' = s /\ a = Ok o) \/
  (exists e, s' = s /\ a = Err e /\ (q_property q = false -> e = TypeError) /\
     (has_property (q_class q) (kind (q_sig q)) = false \/
      (cached (q_sig q, q_class q) (e_cache s) = None /\ has_property (q_class q) (kind (q_sig q)) = true /\
       (q_const q = true \/ ((q_class q = CRising \/ q_class q = CFalling) /\ kind (q_sig q) = HLogicArray /\ q_len q <> 1))))) \/
  (cached (q_sig q, q_class q) (e_cache s) = None /\ has_property (q_class q) (kind (q_sig q)) = true /\
   suitable (q_class q) (kind (q_sig q)) (q_len q) (q_const q) /\ a = Ok (List.length (e_made s)) /\
   s' = Edges (((q_sig q, q_class q), List.length (e_made s)) :: e_cache s) (e_made s ++ [(q_sig q, q_class q)])).
Proof.
  unfold estep, new_edge. destruct q as [p c sig len const]. cbn. destruct (has_property c (kind sig)) eqn:H.
  2:{ destruct p; intro E; injection E as <- <-; right; left; eexists; repeat split; auto; discriminate. }
  intro E. assert (E' : edge_property c sig (kind sig) len const s = (s', a)) by (destruct p; exact E). clear E.
  unfold edge_property in E'. destruct (cached (sig, c) (e_cache s)) as [o|] eqn:K.
  - injection E' as <- <-. left. exists o. auto.
  - destruct (match c with CRising | CFalling => match kind sig with HLogicArray => negb (len =? 1) | _ => false end | _ => false end) eqn:W.
    + right. left. exists TypeError.
      assert (X : (c = CRising \/ c = CFalling) /\ kind sig = HLogicArray /\ len <> 1).
      { destruct c, (kind sig); try discriminate W; cbn in W; apply negb_true_iff, Z.eqb_neq in W; auto. }
      injection E' as <- <-. repeat split; auto.
    + destruct const.
      * injection E' as <- <-. right. left. exists TypeError. repeat split; auto.
      * injection E' as <- <-. right. right. repeat split; auto.
        destruct c, (kind sig); try discriminate H; auto; cbn in W; apply negb_false_iff, Z.eqb_eq in W; auto.
Qed.
Lemma made_inv kind s q s' a : well_cached s -> once_made s -> estep kind s q = (s', a) -> well_cached s' /\ once_made s'.
Proof.
  intros W N E. destruct (estep_cases _ _ _ _ _ E) as [(o & _ & _ & -> & _)|[(e & -> & _)|(K & _ & _ & _ & ->)]]; auto.
  assert (F : ~ In (q_sig q, q_class q) (e_made s)).
  { intro I. destruct (In_nth_error _ _ I) as [n I']. apply W in I'. rewrite K in I'. discriminate I'. }
  split.
  - intros sig c o. cbn [e_cache e_made cached fst snd].
    destruct (Nat.eqb (q_sig q) sig && eclass_eqb (q_class q) c) eqn:X.
    + apply andb_true_iff in X. destruct X as [X1 X2]. apply Nat.eqb_eq in X1. apply eclass_eqb_iff in X2. subst sig c. split.
      * intro H. injection H as <-. rewrite nth_error_app2, Nat.sub_diag; reflexivity.
      * intro H. destruct (Nat.ltb_spec o (List.length (e_made s))) as [L|L].
        -- rewrite nth_error_app1 in H by exact L. destruct (F (nth_error_In _ _ H)).
        -- rewrite nth_error_app2 in H by exact L. destruct (o - List.length (e_made s))%nat eqn:D; [f_equal; lia|].
           destruct n; discriminate H.
    + rewrite (W sig c o). split.
      * intro H. rewrite nth_error_app1; [exact H|]. apply nth_error_Some. rewrite H. discriminate.
      * intro H. destruct (Nat.ltb_spec o (List.length (e_made s))) as [L|L].
        -- rewrite nth_error_app1 in H by exact L. exact H.
        -- rewrite nth_error_app2 in H by exact L. destruct (o - List.length (e_made s))%nat as [|[|n]]; try discriminate H.
           cbn in H. injection H as <- <-. rewrite Nat.eqb_refl in X. destruct (q_class q); discriminate X.
  - unfold once_made. cbn.
    assert (G : forall l : list (nat * eclass), NoDup l -> ~ In (q_sig q, q_class q) l -> NoDup (l ++ [(q_sig q, q_class q)])).
    { induction l as [|x l IH]; cbn; intros Nl Fl; [constructor; [intros []|constructor]|].
      inversion Nl as [|? ? A B]. subst. constructor; [|apply IH; [exact B|intro I; apply Fl; right; exact I]].
      intro I. apply in_app_or in I. destruct I as [I|[I|[]]]; [exact (A I)|apply Fl; left; symmetry; exact I]. }
    apply G; assumption.
Qed.
Lemma made_grows kind s q s' a o x : estep kind s q = (s', a) -> nth_error (e_made s) o = Some x -> nth_error (e_made s') o = Some x.
Proof.
  intros E H. destruct (estep_cases _ _ _ _ _ E) as [(p & _ & _ & -> & _)|[(e & -> & _)|(_ & _ & _ & _ & ->)]]; auto.
  cbn. rewrite nth_error_app1; [exact H|]. apply nth_error_Some. rewrite H. discriminate.
Qed.
Lemma ok_made kind s q s' o : well_cached s -> once_made s -> estep kind s q = (s', Ok o) ->
  nth_error (e_made s') o = Some (q_sig q, q_class q).
Proof.
  intros W N E. destruct (estep_cases _ _ _ _ _ E) as [(p & K & _ & -> & X)|[(e & _ & X & _)|(_ & _ & _ & X & ->)]].
  - injection X as ->. apply W. exact K.
  - discriminate X.
  - injection X as ->. cbn. rewrite nth_error_app2, Nat.sub_diag; reflexivity.
Qed.
Lemma erun_inv kind l : forall s s' r, well_cached s -> once_made s -> erun kind s l = (s', r) ->
  well_cached s' /\ once_made s' /\
  (forall o x, nth_error (e_made s) o = Some x -> nth_error (e_made s') o = Some x) /\
  (forall i q o, nth_error l i = Some q -> nth_error r i = Some (Ok o) -> nth_error (e_made s') o = Some (q_sig q, q_class q)).
Proof.
  induction l as [|q l IH]; intros s s' r W N; cbn [erun].
  - intro H. injection H as <- <-. repeat split; auto; try apply W. intros [|i] q o H; discriminate H.
  - destruct (estep kind s q) as [s1 a] eqn:E. destruct (erun kind s1 l) as [s2 r2] eqn:R. intro H. injection H as <- <-.
    destruct (made_inv _ _ _ _ _ W N E) as [W1 N1]. destruct (IH _ _ _ W1 N1 R) as (W2 & N2 & G & A). split; [exact W2|].
    split; [exact N2|]. split; [intros o x X; apply G; exact (made_grows _ _ _ _ _ _ _ E X)|].
    intros [|i] q' o; cbn; intros Q X; [|exact (A i q' o Q X)]. injection Q as <-. injection X as ->.
    apply G. exact (ok_made _ _ _ _ _ W N E).
Qed.
Lemma edges0_inv : well_cached edges0 /\ once_made edges0.
Proof. split; [|constructor]. intros sig c o. cbn. split; [discriminate|]. destruct o; discriminate. Qed.
Theorem same_pf kind l s r i j q q' o o' : erun kind edges0 l = (s, r) -> nth_error l i = Some q -> nth_error l j = Some q' ->
  nth_error r i = Some (Ok o) -> nth_error r j = Some (Ok o') -> (o = o' <-> same_edge q q').
Proof.
  intros R Q Q' O O'. destruct edges0_inv as [W N]. destruct (erun_inv _ _ _ _ _ W N R) as (_ & ND & _ & A).
  pose proof (A _ _ _ Q O) as M. pose proof (A _ _ _ Q' O') as M'. split.
  - intros <-. rewrite M in M'. injection M' as X Y. split; assumption.
  - intros [X Y]. rewrite X, Y, <- M' in M. apply (proj1 (NoDup_nth_error (e_made s)) ND); [|exact M].
    apply nth_error_Some. rewrite M, M'. discriminate.
Qed.
Theorem armed_pf kind l s r i q o : erun kind edges0 l = (s, r) -> nth_error l i = Some q -> nth_error r i = Some (Ok o) ->
  exists t, type_of (q_class q) t /\ prime_edge s o = Some (q_sig q, t).
Proof.
  intros R Q O. destruct edges0_inv as [W N]. destruct (erun_inv _ _ _ _ _ W N R) as (_ & _ & _ & A).
  unfold prime_edge. rewrite (A _ _ _ Q O). exists (edge_type (q_class q)). split; [|reflexivity].
  unfold type_of. destruct (q_class q); cbn; auto.
Qed.

Lemma erun_app kind l1 : forall s l2, erun kind s (l1 ++ l2) =
  let (s1, r1) := erun kind s l1 in let (s2, r2) := erun kind s1 l2 in (s2, r1 ++ r2).
Proof.
  induction l1 as [|q l1 IH]; intros s l2; cbn [erun app].
  - destruct (erun kind s l2). reflexivity.
  - destruct (estep kind s q) as [s1 a]. rewrite IH. destruct (erun kind s1 l1) as [s2 r2]. destruct (erun kind s2 l2). reflexivity.
Qed.
Lemma erun_len kind l : forall s, List.length (snd (erun kind s l)) = List.length l.
Proof.
  induction l as [|q l IH]; intro s; cbn [erun]; [reflexivity|]. destruct (estep kind s q) as [s1 a]. specialize (IH s1).
  destruct (erun kind s1 l). cbn in *. f_equal. exact IH.
Qed.
(** What is in the cache was asked for and given. *)
Lemma cached_why kind l : forall s s' r sig c o, erun kind s l = (s', r) -> cached (sig, c) (e_cache s') = Some o ->
  cached (sig, c) (e_cache s) = Some o \/
  (exists j q, nth_error l j = Some q /\ nth_error r j = Some (Ok o) /\ q_sig q = sig /\ q_class q = c).
Proof.
  induction l as [|q l IH]; intros s s' r sig c o; cbn [erun].
  - intro H. injection H as <- _. auto.
  - destruct (estep kind s q) as [s1 a] eqn:E. destruct (erun kind s1 l) as [s2 r2] eqn:R. intro H. injection H as <- <-. intro K.
    destruct (IH _ _ _ _ _ _ R K) as [K1|(j & q' & A & B & C)]; [|right; exists (S j), q'; auto].
    destruct (estep_cases _ _ _ _ _ E) as [(p & _ & _ & -> & _)|[(e & -> & _)|(_ & _ & _ & -> & ->)]]; auto.
    cbn in K1. destruct (Nat.eqb (q_sig q) sig && eclass_eqb (q_class q) c) eqn:X; [|auto].
    apply andb_true_iff in X. destruct X as [X1 X2]. apply Nat.eqb_eq in X1. apply eclass_eqb_iff in X2.
    injection K1 as <-. right. exists O, q. repeat split; assumption.
Qed.
Lemma given_cached kind l : forall s s' r j q o, well_cached s -> once_made s -> erun kind s l = (s', r) ->
  nth_error l j = Some q -> nth_error r j = Some (Ok o) -> cached (q_sig q, q_class q) (e_cache s') = Some o.
Proof. intros s s' r j q o W N R Q O. destruct (erun_inv _ _ _ _ _ W N R) as (W' & _ & _ & A). apply W'. exact (A _ _ _ Q O). Qed.
Lemma right_class_iff c k : right_class c k <-> has_property c k = true.
Proof.
  unfold right_class. split.
  - intros [-> |[-> |[-> [-> | ->]]]]; try reflexivity; destruct c; reflexivity.
  - destruct c, k; try discriminate; auto.
Qed.
Lemma suitable_right c k len const : suitable c k len const -> right_class c k.
Proof.
  unfold right_class. intros [_ H]. destruct c.
  - destruct H as [-> |[-> _]]; auto.
  - destruct H as [-> |[-> _]]; auto.
  - destruct H as [-> |[-> | ->]]; auto.
  - destruct H as [-> |[-> | ->]]; auto.
Qed.
Theorem accepts_pf kind l s r i q a : erun kind edges0 l = (s, r) -> nth_error l i = Some q -> nth_error r i = Some a ->
  ((exists o, a = Ok o) <->
   suitable (q_class q) (kind (q_sig q)) (q_len q) (q_const q) \/
   (exists j q' o, (j < i)%nat /\ nth_error l j = Some q' /\ nth_error r j = Some (Ok o) /\ same_edge q' q)) /\
  (forall e, a = Err e -> q_property q = false -> e = TypeError).
Proof.
  intros R Q A. destruct (nth_error_split l i Q) as (l1 & l2 & E & I). rewrite E, erun_app in R.
  destruct (erun kind edges0 l1) as [s1 r1] eqn:R1. cbn [erun] in R. destruct (estep kind s1 q) as [s2 a'] eqn:P.
  destruct (erun kind s2 l2) as [s3 r3]. injection R as _ <-. pose proof (erun_len kind l1 edges0) as LEN. rewrite R1 in LEN. cbn in LEN.
  rewrite nth_error_app2 in A by lia. rewrite LEN, I, Nat.sub_diag in A. injection A as ->. destruct edges0_inv as [W N].
  destruct (erun_inv _ _ _ _ _ W N R1) as (W1 & N1 & _ & _).
  assert (G : (exists j q' o, (j < i)%nat /\ nth_error l j = Some q' /\ nth_error (r1 ++ a :: r3) j = Some (Ok o) /\ same_edge q' q) ->
    exists o, cached (q_sig q, q_class q) (e_cache s1) = Some o).
  { intros (j & q' & o & J & L & O & [X Y]). rewrite E, nth_error_app1 in L by lia. rewrite nth_error_app1 in O by lia.
    exists o. rewrite <- X, <- Y. exact (given_cached _ _ _ _ _ _ _ _ W N R1 L O). }
  split.
  - split.
    + intros [o ->]. destruct (estep_cases _ _ _ _ _ P) as [(p & K & _ & _ & X)|[(e & _ & X & _)|(_ & _ & S & _)]].
      * right. destruct (cached_why _ _ _ _ _ _ _ _ R1 K) as [X'|(j & q' & B & C & D)]; [discriminate X'|].
        assert (J : (j < List.length l1)%nat) by (apply nth_error_Some; rewrite B; discriminate).
        exists j, q', p. rewrite E, nth_error_app1 by exact J. rewrite nth_error_app1 by (rewrite LEN; exact J).
        repeat split; try assumption; try apply D. lia.
      * discriminate X.
      * left. exact S.
    + intro H. destruct (estep_cases _ _ _ _ _ P) as [(p & _ & _ & _ & X)|[(e & _ & X & _ & B)|(_ & _ & _ & X & _)]]; [eauto| |eauto].
      exfalso. destruct H as [S|J].
      * destruct B as [B|(_ & _ & B)].
        -- apply suitable_right, right_class_iff in S. rewrite B in S. discriminate S.
        -- destruct S as [C S]. destruct B as [B|(D & B & L)]; [rewrite C in B; discriminate B|]. rewrite B in S.
           destruct D as [D|D]; rewrite D in S; destruct S as [S|[_ S]]; try discriminate S; contradiction.
      * destruct (G J) as [o K]. destruct B as [B|(K' & _)]; [|rewrite K in K'; discriminate K'].
        destruct (cached_why _ _ _ _ _ _ _ _ R1 K) as [X'|(j & q' & U & V & Y & Z)]; [discriminate X'|].
        destruct (nth_error_split l1 j U) as (m1 & m2 & EM & IM). rewrite EM, erun_app in R1.
        destruct (erun kind edges0 m1) as [t1 u1] eqn:T1. cbn [erun] in R1. destruct (estep kind t1 q') as [t2 b] eqn:T.
        destruct (erun kind t2 m2) as [t3 u3]. injection R1 as _ <-. pose proof (erun_len kind m1 edges0) as LM. rewrite T1 in LM. cbn in LM.
        rewrite nth_error_app2 in V by lia. rewrite LM, IM, Nat.sub_diag in V. injection V as ->.
        destruct (estep_cases _ _ _ _ _ T) as [(p & _ & HP & _)|[(e' & _ & X' & _)|(_ & HP & _)]];
          [|discriminate X'|]; rewrite Y, Z, B in HP; discriminate HP.
  - intros e -> F. destruct (estep_cases _ _ _ _ _ P) as [(p & _ & _ & _ & X)|[(e' & _ & X & T & _)|(_ & _ & _ & X & _)]];
      [discriminate X| |discriminate X]. injection X as ->. exact (T F).
Qed.
Theorem stable_pf kind len const l s r i q a : erun kind edges0 l = (s, r) ->
  Forall (fun q => q_len q = len (q_sig q) /\ q_const q = const (q_sig q)) l ->
  nth_error l i = Some q -> nth_error r i = Some a ->
  ((exists o, a = Ok o) <-> suitable (q_class q) (kind (q_sig q)) (len (q_sig q)) (const (q_sig q))).
Proof.
  intros R F. revert q a. induction i as [i IH] using (well_founded_induction Wf_nat.lt_wf). intros q a Q A.
  destruct (accepts_pf _ _ _ _ _ _ _ R Q A) as [H _]. rewrite H.
  pose proof (proj1 (Forall_forall _ _) F q (nth_error_In _ _ Q)) as [L C]. rewrite L, C. split; [|auto].
  intros [S|(j & q' & o & J & Q' & O & [X Y])]; [exact S|]. pose proof (proj1 (IH j J q' (Ok o) Q' O) (ex_intro _ o eq_refl)) as S.
  rewrite X, Y in S. exact S.
Qed.

(** * Singletons *)
Lemma constructs_done l : forall o is_, constructs (Single (Some o) is_) l = (Single (Some o) is_, map (fun _ => Ok o) l).
Proof. induction l as [|[n i] l IH]; intros o is_; cbn; [reflexivity|]. rewrite IH. reflexivity. Qed.
Theorem singleton_pf l s r : constructs (Single None []) l = (s, r) ->
  (forall i j o o', nth_error r i = Some (Ok o) -> nth_error r j = Some (Ok o') -> o = o') /\
  (List.length (g_inits s) <= 1)%nat /\
  (forall i o, nth_error r i = Some (Ok o) -> g_inits s = [o] /\ forall j, (i <= j < List.length l)%nat -> nth_error r j = Some (Ok o)).
Proof.
  revert s r. induction l as [|[n i] l IH]; intros s r; cbn [constructs].
  - intro H. injection H as <- <-. split; [intros [|?]; discriminate|]. split; [cbn; lia|]. intros [|?]; discriminate.
  - cbn [construct g_instance]. destruct n as [o|e].
    + cbn [g_inits app]. rewrite constructs_done. intro H. injection H as <- <-.
      assert (A : forall k x, nth_error ((match i with None => Ok o | Some e => Err e end) :: map (fun _ => Ok o) l) k = Some (Ok x) -> x = o).
      { intros [|k] x; cbn; [destruct i; intro X; [discriminate X|injection X as ->; reflexivity]|].
        intro X. apply nth_error_In, in_map_iff in X. destruct X as (? & X & _). injection X as <-. reflexivity. }
      split; [intros a b x y X Y; rewrite (A _ _ X), (A _ _ Y); reflexivity|]. split; [cbn; lia|].
      intros k x X. rewrite (A _ _ X). split; [reflexivity|]. intros j [J1 J2]. destruct j as [|j].
      * assert (k = O) by lia. subst k. rewrite X. f_equal. f_equal. exact (A _ _ X).
      * cbn in *. rewrite nth_error_map. destruct (nth_error l j) eqn:Y; [reflexivity|]. apply nth_error_None in Y. lia.
    + destruct (constructs (Single None []) l) as [s2 r2] eqn:R. intro H. injection H as <- <-.
      destruct (IH _ _ eq_refl) as (A & B & C). split; [|split; [exact B|]].
      * intros [|a] [|b] x y; cbn; try discriminate. apply A.
      * intros [|a] x; cbn; [discriminate|]. intro X. destruct (C _ _ X) as [D F]. split; [exact D|].
        intros [|j] J; [lia|]. cbn in *. apply F. lia.
Qed.

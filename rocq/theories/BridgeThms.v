(** The invariants of bridges in every reachable state, and in orderly executions. *)
From Verif Require Import Base KernelModel KernelProofs KernelInv BridgeModel BridgeSpec BridgeInv BridgeInv2.
From Coq Require Import Arith.

Lemma enter_ok x : BI x -> (forall w b, b_main x <> MSet w b) -> BI (enter x).
Proof. intros M N. unfold enter. apply bi_main; auto. destruct (b_queue x); exact Logic.I. Qed.
Lemma control_plain x : user_control x = true -> forall w b, b_main x <> MSet w b.
Proof. intros C w b E. unfold user_control in C. rewrite E in C. discriminate. Qed.
Lemma pop_ok x e q : BI x -> b_main x = MLoop -> b_queue x = e :: q -> BI (pop x e q).
Proof.
  intros M E Q. assert (Nm : forall w b, b_main x <> MSet w b) by (intros; congruence). unfold pop. destruct e as [t|w| | ].
  - apply (bi_deliver (set_main x MCall) t q); [|exact Q]. now apply bi_main.
  - bf. destruct (b_wr x w) as [[t r]|] eqn:Ew.
    + destruct r.
      * apply (bi_begin (set_main x MCall) w t q); [|exact Q|exact Ew]. now apply bi_main.
      * apply (bi_drop (set_main x MCall) q (QWrap w)); [now apply bi_main|exact Q|]. right. right. exists w. split; [reflexivity|]. bf. intros u Z. congruence.
      * apply (bi_drop (set_main x MCall) q (QWrap w)); [now apply bi_main|exact Q|]. right. right. exists w. split; [reflexivity|]. bf. intros u Z. congruence.
      * apply (bi_drop (set_main x MCall) q (QWrap w)); [now apply bi_main|exact Q|]. right. right. exists w. split; [reflexivity|]. bf. intros u Z. congruence.
    + apply (bi_drop (set_main x MCall) q (QWrap w)); [now apply bi_main|exact Q|]. right. right. exists w. split; [reflexivity|]. bf. intros u Z. congruence.
  - apply (bi_drop (set_main x MCall) q QOther); [now apply bi_main|exact Q|auto].
  - apply (bi_drop (set_main x MCall) q QDead); [now apply bi_main|exact Q|auto].
Qed.
Theorem bi_step x l x' : BI x -> bstep x l = Some x' -> BI x'.
Proof.
  intros M St. destruct l as [ |t| |t|w|w| | |t w|t|t|t o|t]; cbn [bstep] in St.
  - destruct (b_main x) eqn:E; try discriminate. injection St as <-. apply bi_main; [exact M|congruence|exact Logic.I].
  - destruct (user_control x) eqn:C; [|discriminate]. destruct (b_th x t) eqn:E; try discriminate. injection St as <-. now apply bi_new.
  - destruct (user_control x) eqn:C; [|discriminate]. injection St as <-. apply bi_sched; [exact M|discriminate].
  - destruct (user_control x) eqn:C; [|discriminate].
    destruct (b_th x t) eqn:E; try discriminate; destruct (b_aw x t) eqn:A; try discriminate; injection St as <-; apply bi_abandon; auto; congruence.
  - destruct (user_control x) eqn:C; [|discriminate]. destruct (b_wr x w) as [[t r]|] eqn:E; [|discriminate]. destruct r; try discriminate.
    injection St as <-. apply bi_finish; auto. now apply control_plain.
  - destruct (user_control x) eqn:C; [|discriminate]. destruct (b_wr x w) as [[t r]|] eqn:E; [|discriminate]. destruct r; try discriminate.
    injection St as <-. now apply bi_lose.
  - destruct (b_main x) eqn:E; try discriminate; injection St as <-; [apply enter_ok; [exact M|congruence]|apply bi_main; [exact M|congruence|exact Logic.I]].
  - unfold main_step in St. destruct (b_main x) as [ | | | |w b|i|i t| ] eqn:E; try discriminate.
    + injection St as <-. destruct (b_queue x) as [|e q] eqn:Q; [apply bi_main; [exact M|congruence|exact Logic.I]|now apply pop_ok].
    + injection St as <-. apply (bi_flag x w b); auto. destruct b; exact Logic.I.
    + injection St as <-. destruct (nth_error (b_pend x) i) as [t|] eqn:Nt; [now apply bi_start|apply enter_ok; [exact M|congruence]].
    + destruct (b_st x t) eqn:Es; try discriminate; injection St as <-.
      * destruct (B_wait x M i t E) as [_ Q]. contradiction.
      * apply bi_main; [exact M|congruence|exact Logic.I].
      * now apply bi_exit.
  - destruct (b_th x t) eqn:E; try discriminate. destruct (b_wr x w) eqn:Ew; [discriminate|].
    destruct (existsb _ _); injection St as <-; [now apply bi_call|exact M].
  - destruct (b_th x t) as [ | | |w| | | ] eqn:E; try discriminate. injection St as <-. now apply bi_suspend.
  - destruct (b_th x t) as [ | | | |w| | ] eqn:E; try discriminate. destruct (b_flag x w) eqn:Fw; [|discriminate]. injection St as <-. now apply (bi_wake x t w).
  - destruct (b_th x t) eqn:E; try discriminate. injection St as <-. now apply bi_return.
  - destruct (b_th x t) eqn:E; try discriminate. injection St as <-. now apply bi_done.
Qed.
Lemma bexec_ind2 (P : bst -> blabel -> Prop) (I : bst -> Prop) x ls x' :
  (forall a l b, I a -> P a l -> bstep a l = Some b -> I b) -> I x -> bexec P x ls x' -> I x'.
Proof. intros S H E. induction E; eauto. Qed.
Lemma breach_bi ls x : breach ls x -> BI x.
Proof. apply bexec_ind2; [|apply binit_ok]. intros a l b M _ St. now apply (bi_step a l b). Qed.

(** * Orderly executions *)
Definition quiet (x : bst) (i : nat) : Prop := forall j u, j < i -> nth_error (b_pend x) j = Some u -> b_st x u = WPause.
Record GI (x : bst) : Prop := {
  G_call : forall t w, b_th x t = TCall w -> b_wr x w <> Some (t, RDone);
  G_pause : forall t, b_st x t = WPause -> exists w, b_th x t = TBlock w /\ b_wr x w <> Some (t, RDone);
  G_sim : b_main x = MSim -> forall u, In u (b_pend x) -> b_st x u = WPause;
  G_start : forall i, b_main x = MStart i -> quiet x i;
  G_wait : forall i t, b_main x = MWait i t -> quiet x i }.
Lemma binit_gi : GI binit.
Proof. constructor; cbn; try discriminate. intros _ u []. Qed.
Ltac openg G := destruct G as [GC GP GM GS GW].
Lemma quiet_all x i : quiet x i -> nth_error (b_pend x) i = None -> forall u, In u (b_pend x) -> b_st x u = WPause.
Proof.
  intros Q E u I. apply nth_error_None in E. apply In_nth_error in I. destruct I as [j I]. apply (Q j u); [|exact I].
  assert (j < length (b_pend x)) by (apply nth_error_Some; congruence). lia.
Qed.
(** The main thread is not in [run_bridge_threads] nor in the simulator afterwards. *)
Definition busy (m : mpc) : Prop := match m with MSim | MStart _ | MWait _ _ => False | _ => True end.
Lemma gi_busy x x' : GI x -> b_th x' = b_th x -> b_wr x' = b_wr x -> b_st x' = b_st x -> busy (b_main x') -> GI x'.
Proof.
  intros G E1 E2 E3 B. openg G. constructor; rewrite ?E1, ?E2, ?E3; auto.
  - intro Q. rewrite Q in B. destruct B.
  - intros i Q. rewrite Q in B. destruct B.
  - intros i t Q. rewrite Q in B. destruct B.
Qed.
Lemma gi_all x x' : GI x -> b_th x' = b_th x -> b_wr x' = b_wr x -> b_st x' = b_st x -> b_pend x' = b_pend x ->
  (forall u, In u (b_pend x) -> b_st x u = WPause) -> GI x'.
Proof.
  intros G E1 E2 E3 E4 B. openg G. constructor; unfold quiet; rewrite ?E1, ?E2, ?E3, ?E4; auto; intros; apply B; eapply nth_error_In; eauto.
Qed.
(** The Task of a call changes; it is not over. *)
Lemma gi_wr x w t r : GI x -> r <> RDone -> GI (set_wr x w t r).
Proof.
  intros G N. openg G. constructor; bf; auto.
  - intros u v E. upd1 v w; [congruence|now apply GC].
  - intros u E. destruct (GP u E) as (v & A & B). exists v. split; [exact A|]. upd1 v w; [congruence|exact B].
Qed.
Lemma nth_remove l i t : NoDup l -> nth_error l i = Some t -> length l = S i -> l = remove_one t l ++ [t] /\ length (remove_one t l) = i.
Proof.
  revert i. induction l as [|v l IH]; intros i N E L; [destruct i; discriminate|]. inversion N as [|? ? Nv Nl]; subst. destruct i as [|i]; cbn in *.
  - destruct l; [|discriminate]. injection E as ->. rewrite Nat.eqb_refl. auto.
  - assert (It : In t l) by (eapply nth_error_In; exact E). destruct (Nat.eqb v t) eqn:Q; [apply Nat.eqb_eq in Q; congruence|].
    destruct (IH i Nl E) as [A B]; [lia|]. cbn. split; [now rewrite <- A|now rewrite B].
Qed.
Lemma start_main x t m : (match b_st x t with WInit => set_th (set_st x t WRun) t TRun | _ => x end) = x \/
  (b_st x t = WInit /\ set_main (match b_st x t with WInit => set_th (set_st x t WRun) t TRun | _ => x end) m = set_main (set_th (set_st x t WRun) t TRun) m).
Proof. destruct (b_st x t); auto. Qed.
Theorem gi_step x l x' : BI x -> GI x -> orderly x l -> bstep x l = Some x' -> GI x'.
Proof.
  intros M G (Pr & Io & An) St. destruct l as [ |t| |t|w|w| | |t w|t|t|t o|t]; cbn [bstep] in St.
  - destruct (b_main x) eqn:E; try discriminate. injection St as <-. now apply (gi_busy x).
  - destruct (user_control x) eqn:C; [|discriminate]. destruct (b_th x t) eqn:E; try discriminate. injection St as <-. openg G.
    assert (B : busy (b_main x)) by (unfold user_control in C; destruct (b_main x); try discriminate; exact Logic.I).
    pose proof (B_th x M t) as Tt. unfold thread_ok in Tt. rewrite E in Tt. constructor; bf.
    + intros u w Q. upd1 u t; [discriminate|auto].
    + intros u Q. destruct (GP u Q) as (w & A & D). exists w. split; [|exact D]. upd1 u t; [congruence|exact A].
    + intro Q. rewrite Q in B. destruct B.
    + intros i Q. rewrite Q in B. destruct B.
    + intros i u Q. rewrite Q in B. destruct B.
  - destruct (user_control x) eqn:C; [|discriminate]. injection St as <-. apply (gi_busy x); auto. unfold user_control in C. bf.
    destruct (b_main x); try discriminate; exact Logic.I.
  - destruct (user_control x) eqn:C; [|discriminate].
    assert (B : busy (b_main x)) by (unfold user_control in C; destruct (b_main x); try discriminate; exact Logic.I).
    destruct (b_th x t) eqn:E; try discriminate; destruct (b_aw x t) eqn:A; try discriminate; injection St as <-; now apply (gi_busy x).
  - destruct (user_control x) eqn:C; [|discriminate]. destruct (b_wr x w) as [[t r]|] eqn:E; [|discriminate]. destruct r; try discriminate.
    injection St as <-. pose proof (Pr w t RBegun eq_refl E) as Bl. openg G. constructor; bf; try discriminate.
    + intros u v Q. upd1 v w; [|now apply GC]. intro Z. injection Z as ->. congruence.
    + intros u Q. upd1 u t; [discriminate|]. destruct (GP u Q) as (v & A & D). exists v. split; [exact A|]. upd1 v w; [congruence|exact D].
  - destruct (user_control x) eqn:C; [|discriminate]. destruct (b_wr x w) as [[t r]|] eqn:E; [|discriminate]. destruct r; try discriminate.
    injection St as <-. apply (gi_busy (set_wr x w t RLost)); try reflexivity; [now apply gi_wr|]. unfold user_control in C. bf.
    destruct (b_main x); try discriminate; exact Logic.I.
  - destruct (b_main x) eqn:E; try discriminate; injection St as <-; [|now apply (gi_busy x)]. unfold enter.
    destruct (b_queue x) eqn:Q; [|now apply (gi_busy x)]. apply (gi_all x); auto.
  - unfold main_step in St. destruct (b_main x) as [ | | | |w b|i|i t| ] eqn:E; try discriminate.
    + injection St as <-. destruct (b_queue x) as [|e q] eqn:Q.
      * openg G. constructor; bf; auto; try discriminate. intros i Z. injection Z as <-. intros j u L. lia.
      * unfold pop. destruct e as [t|w| | ]; try (now apply (gi_busy x)). bf. destruct (b_wr x w) as [[t r]|]; [|now apply (gi_busy x)].
        destruct r; try (now apply (gi_busy x)). apply (gi_busy (set_wr x w t RBegun)); try reflexivity. now apply gi_wr.
    + injection St as <-. apply (gi_busy x); auto. destruct b; exact Logic.I.
    + injection St as <-. pose proof (G_start x G i E) as Qi. destruct (nth_error (b_pend x) i) as [t|] eqn:Nt.
      * destruct (b_st x t) eqn:Es.
        -- pose proof (B_th x M t) as Tt. unfold thread_ok in Tt. openg G. constructor; bf; try discriminate.
           ++ intros u v Q. upd1 u t; [discriminate|auto].
           ++ intros u Q. upd1 u t; [discriminate|auto].
           ++ intros j u Z. injection Z as <- <-. intros j v L Nv. bf. upd1 v t; [|now apply (Qi j)]. exfalso.
              pose proof (Qi j t L Nv). congruence.
        -- openg G. constructor; bf; auto; try discriminate. intros j u Z. injection Z as <- <-. exact Qi.
        -- openg G. constructor; bf; auto; try discriminate. intros j u Z. injection Z as <- <-. exact Qi.
        -- openg G. constructor; bf; auto; try discriminate. intros j u Z. injection Z as <- <-. exact Qi.
      * unfold enter. apply (gi_all x); auto. now apply (quiet_all x i).
    + pose proof (G_wait x G i t E) as Qi. destruct (B_wait x M i t E) as [Nt _]. destruct (b_st x t) eqn:Es; try discriminate; injection St as <-.
      * apply (gi_busy x); auto. exact Logic.I.
      * openg G. constructor; bf; auto; try discriminate. intros j Z. injection Z as <-. intros k v L Nv. bf.
        destruct (Nat.eq_dec k i) as [->|Nk]; [congruence|]. apply (Qi k); [lia|exact Nv].
      * pose proof (Io i t eq_refl E Es) as Ln. destruct (nth_remove _ _ _ (B_nodup x M) Nt Ln) as [A B].
        assert (Z : quiet (set_main (event_set (set_pend x (remove_one t (b_pend x))) t) (MStart (S i))) (S i)).
        { intros k v L Nv. assert (Ev : b_st (set_main (event_set (set_pend x (remove_one t (b_pend x))) t) (MStart (S i))) v = b_st x v)
            by (unfold event_set; bf; destruct (b_aw x t); reflexivity).
          rewrite Ev. assert (Nv' : nth_error (remove_one t (b_pend x)) k = Some v) by (unfold event_set in Nv; bf; destruct (b_aw x t); exact Nv).
          assert (Lk : k < length (remove_one t (b_pend x))) by (apply nth_error_Some; congruence).
          apply (Qi k); [lia|]. rewrite A. rewrite nth_error_app1; [exact Nv'|exact Lk]. }
        openg G. unfold event_set in *. bf. destruct (b_aw x t); constructor; bf; auto; try discriminate; intros j Q; injection Q as <-; exact Z.
  - destruct (b_th x t) eqn:E; try discriminate. destruct (b_wr x w) eqn:Ew; [discriminate|].
    destruct (existsb _ _); injection St as <-; [|exact G]. openg G. constructor; bf; auto.
    + intros u v Q. upd1 u t; [injection Q as <-; rewrite upd_same; discriminate|]. upd1 v w; [|now apply GC]. congruence.
    + intros u Q. destruct (GP u Q) as (v & A & D). exists v. upd1 u t; [congruence|]. split; [exact A|]. upd1 v w; [congruence|exact D].
  - destruct (b_th x t) as [ | | |w| | | ] eqn:E; try discriminate. injection St as <-. pose proof (G_call x G t w E) as Nd. openg G.
    assert (Keep : forall u, b_st x u = WPause -> upd (b_st x) t WPause u = WPause) by (intros u Q; upd1 u t; auto).
    constructor; bf; auto.
    + intros u v Q. upd1 u t; [discriminate|auto].
    + intros u Q. upd1 u t; [exists w; rewrite ?upd_same; auto|]. destruct (GP u Q) as (v & A & D). exists v. auto.
    + intros i Q j u L Nu. bf. apply Keep. now apply (GS i Q j).
    + intros i v Q j u L Nu. bf. apply Keep. now apply (GW i v Q j).
  - destruct (b_th x t) as [ | | | |w| | ] eqn:E; try discriminate. destruct (b_flag x w) eqn:Fw; [|discriminate]. injection St as <-.
    destruct (B_flag x M w Fw) as [t0 Ew]. pose proof (B_th x M t) as Tt. unfold thread_ok in Tt. rewrite E in Tt. destruct Tt as (_ & _ & r & Ew2).
    assert (Nt : b_st x t <> WPause) by (intro Q; destruct (G_pause x G t Q) as (v & A & D); congruence).
    openg G. constructor; bf; auto.
    + intros u v Q. upd1 u t; [discriminate|auto].
    + intros u Q. assert (u <> t) by congruence. rewrite upd_other by assumption. auto.
  - destruct (b_th x t) eqn:E; try discriminate. injection St as <-.
    assert (Nt : b_st x t <> WPause) by (intro Q; destruct (G_pause x G t Q) as (v & A & D); congruence).
    openg G. constructor; bf; auto.
    + intros u v Q. upd1 u t; [discriminate|auto].
    + intros u Q. assert (u <> t) by congruence. rewrite upd_other by assumption. auto.
  - destruct (b_th x t) eqn:E; try discriminate. injection St as <-.
    assert (Nt : b_st x t <> WPause) by (intro Q; destruct (G_pause x G t Q) as (v & A & D); congruence). openg G.
    assert (Keep : forall u, b_st x u = WPause -> upd (b_st x) t WExit u = WPause) by (intros u Q; assert (u <> t) by congruence; now rewrite upd_other).
    constructor; bf; auto.
    + intros u v Q. upd1 u t; [discriminate|auto].
    + intros u Q. upd1 u t; [discriminate|auto].
    + intros i Q j u L Nu. bf. apply Keep. now apply (GS i Q j).
    + intros i v Q j u L Nu. bf. apply Keep. now apply (GW i v Q j).
Qed.
Lemma orderly_gi ls x : bexec orderly binit ls x -> BI x /\ GI x.
Proof.
  apply (bexec_ind2 orderly (fun x => BI x /\ GI x)); [|split; [apply binit_ok|apply binit_gi]].
  intros a l b [M G] O St. split; [now apply (bi_step a l b)|now apply (gi_step a l b)].
Qed.

(** * Consequences *)
Theorem one_resume ls x : breach ls x -> forall t w1 w2, outstanding x t w1 -> outstanding x t w2 -> w1 = w2.
Proof.
  intros R t w1 w2 O1 O2. pose proof (breach_bi ls x R) as M.
  assert (C : forall w, outstanding x t w -> calls x t w).
  { intros w [O|O]; destruct (B_wr x M w t _ O) as [Q|[Q _]]; auto; discriminate. }
  destruct (C w1 O1) as [A|A], (C w2 O2) as [B|B]; congruence.
Qed.
Theorem result_once ls x : breach ls x -> forall t o, In (HGot t o) (b_hist x) ->
  gots t (b_hist x) = 1 /\ b_th x t = TOver /\ exists v, o = Some v /\ In (HOut t v) (b_hist x).
Proof.
  intros R t o I. pose proof (breach_bi ls x R) as M. destruct (B_got x M t o I) as (A & v & B & C). destruct (B_gots x M t A) as [D E].
  split; [exact D|]. split; [apply (B_set x M t E)|]. exists v. split; [exact B|]. now apply (B_out x M).
Qed.
Theorem no_exception ls x : breach ls x -> b_main x <> MBad /\ forall t, b_th x t = TRun -> In t (b_pend x).
Proof.
  intro R. pose proof (breach_bi ls x R) as M. split; [apply (B_bad x M)|]. intros t E. apply (B_pend x M). split; [congruence|].
  intro I. destruct (B_set x M t I). congruence.
Qed.
Theorem sim_at_rest ls x : bexec orderly binit ls x -> b_main x = MSim -> forall t, at_rest x t.
Proof.
  intros R E t. destruct (orderly_gi ls x R) as [M G]. unfold at_rest. destruct (in_dec Nat.eq_dec t (b_pend x)) as [I|I].
  - right. right. destruct (G_pause x G t (G_sim x G E t I)) as (w & A & B). exists w. split; [exact A|].
    destruct (b_flag x w) eqn:F; [|reflexivity]. destruct (B_flag x M w F) as [u Q]. pose proof (B_th x M t) as T. unfold thread_ok in T. rewrite A in T.
    destruct T as (_ & _ & r & T). congruence.
  - destruct (b_th x t) eqn:Q; auto; right; left; exfalso; apply I; apply (B_pend x M); (split; [congruence|]); intro Z; destruct (B_set x M t Z); congruence.
Qed.
(** Nothing is scheduled while the simulator has control. *)
Lemma queue_step x l x' : BI x -> GI x -> (b_main x = MSim -> b_queue x = []) -> bstep x l = Some x' -> b_main x' = MSim -> b_queue x' = [].
Proof.
  intros M G Q St E'. destruct l as [ |t| |t|w|w| | |t w|t|t|t o|t]; cbn [bstep] in St.
  - destruct (b_main x); try discriminate. injection St as <-. discriminate.
  - destruct (user_control x) eqn:C; [|discriminate]. destruct (b_th x t); try discriminate. injection St as <-. bf. auto.
  - destruct (user_control x) eqn:C; [|discriminate]. injection St as <-. bf. unfold user_control in C. rewrite E' in C. discriminate.
  - destruct (user_control x) eqn:C; [|discriminate]. unfold user_control in C.
    destruct (b_th x t); try discriminate; destruct (b_aw x t); try discriminate; injection St as <-; bf; rewrite E' in C; discriminate.
  - destruct (user_control x); [|discriminate]. destruct (b_wr x w) as [[t r]|]; [|discriminate]. destruct r; try discriminate. injection St as <-. discriminate.
  - destruct (user_control x) eqn:C; [|discriminate]. unfold user_control in C. destruct (b_wr x w) as [[t r]|]; [|discriminate].
    destruct r; try discriminate. injection St as <-. bf. rewrite E' in C. discriminate.
  - destruct (b_main x); try discriminate; injection St as <-; [|discriminate]. unfold enter in *. bf. destruct (b_queue x); [reflexivity|discriminate].
  - unfold main_step in St. destruct (b_main x) as [ | | | |w b|i|i t| ] eqn:E; try discriminate.
    + injection St as <-. destruct (b_queue x) as [|e q]; [discriminate|]. unfold pop in E'. destruct e; try discriminate. bf.
      destruct (b_wr x w) as [[t r]|]; [destruct r|]; discriminate.
    + injection St as <-. destruct b; discriminate.
    + injection St as <-. destruct (nth_error (b_pend x) i); [destruct (b_st x b); discriminate|]. unfold enter in *. bf. destruct (b_queue x); [reflexivity|discriminate].
    + destruct (b_st x t); try discriminate; injection St as <-; discriminate.
  - destruct (b_th x t) eqn:E; try discriminate. destruct (b_wr x w); [discriminate|]. destruct (existsb _ _) eqn:Ex; injection St as <-; [|auto]. bf.
    exfalso. apply existsb_exists in Ex. destruct Ex as (u & I & Z). apply Nat.eqb_eq in Z. subst u.
    destruct (G_pause x G t (G_sim x G E' t I)) as (v & A & _). congruence.
  - destruct (b_th x t); try discriminate. injection St as <-. bf. auto.
  - destruct (b_th x t); try discriminate. destruct (b_flag x w); [|discriminate]. injection St as <-. bf. auto.
  - destruct (b_th x t); try discriminate. injection St as <-. bf. auto.
  - destruct (b_th x t); try discriminate. injection St as <-. bf. auto.
Qed.
Theorem sim_queue ls x : bexec orderly binit ls x -> b_main x = MSim -> b_queue x = [].
Proof.
  intro R. assert (H : (BI x /\ GI x) /\ (b_main x = MSim -> b_queue x = [])); [|apply H]. revert R.
  apply (bexec_ind2 orderly (fun x => (BI x /\ GI x) /\ (b_main x = MSim -> b_queue x = []))).
  - intros a l b [[M G] Q] O St. split; [split; [now apply (bi_step a l b)|now apply (gi_step a l b)]|now apply (queue_step a l b)].
  - split; [split; [apply binit_ok|apply binit_gi]|auto].
Qed.
Theorem sim_delivered ls x : bexec orderly binit ls x -> b_main x = MSim -> forall t, b_th x t = TOver ->
  (exists v, In (HGot t (Some v)) (b_hist x)) \/ b_aw x t = AGone.
Proof.
  intros R E t O. pose proof (sim_queue ls x R E) as Eq. destruct (orderly_gi ls x R) as [M G]. assert (I : In (HSet t) (b_hist x)).
  { destruct (in_dec Nat.eq_dec t (b_pend x)) as [I|I].
    - pose proof (G_sim x G E t I) as Q. pose proof (B_th x M t) as T. unfold thread_ok in T. rewrite O in T. destruct T. congruence.
    - rewrite (B_pend x M) in I. assert (D : {In (HSet t) (b_hist x)} + {~ In (HSet t) (b_hist x)}) by (apply in_dec; repeat decide equality).
      destruct D as [D|D]; [exact D|]. elim I. split; [congruence|exact D]. }
  destruct (B_set x M t I) as [_ Na]. destruct (b_aw x t) eqn:A; auto; [congruence| |].
  - destruct (B_ready x M t A) as [_ Q]. rewrite Eq in Q. destruct Q.
  - left. destruct (B_gots x M t A) as [Q _]. unfold gots in Q.
    destruct (filter (fun a => match a with HGot u _ => Nat.eqb u t | _ => false end) (b_hist x)) as [|a l] eqn:Fi; [discriminate|].
    assert (Ia : In a (filter (fun a => match a with HGot u _ => Nat.eqb u t | _ => false end) (b_hist x))) by (rewrite Fi; now left).
    apply filter_In in Ia. destruct Ia as [Ia Z]. destruct a as [ |u o| ]; try discriminate. apply Nat.eqb_eq in Z. subst u.
    destruct (B_got x M t o Ia) as (_ & v & -> & _). eauto.
Qed.

(** The Task of the call was cancelled before it began: the thread waits forever. *)
Lemma stuck_step x l x' t w : BI x -> bstep x l = Some x' -> b_th x t = TBlock w /\ b_wr x w = Some (t, RLost) -> b_th x' t = TBlock w /\ b_wr x' w = Some (t, RLost).
Proof.
  intros M St [E Ew]. assert (Nf : b_flag x w = false) by (destruct (b_flag x w) eqn:Q; [destruct (B_flag x M w Q); congruence|reflexivity]).
  destruct l as [ |t0| |t0|w0|w0| | |t0 w0|t0|t0|t0 o|t0]; cbn [bstep] in St.
  - destruct (b_main x); try discriminate. injection St as <-. auto.
  - destruct (user_control x) eqn:C; [|discriminate]. destruct (b_th x t0) eqn:E0; try discriminate. injection St as <-. bf. assert (t <> t0) by congruence.
    rewrite upd_other by assumption. auto.
  - destruct (user_control x); [|discriminate]. injection St as <-. auto.
  - destruct (user_control x); [|discriminate]. destruct (b_th x t0); try discriminate; destruct (b_aw x t0); try discriminate; injection St as <-; auto.
  - destruct (user_control x); [|discriminate]. destruct (b_wr x w0) as [[t1 r]|] eqn:E0; [|discriminate]. destruct r; try discriminate.
    injection St as <-. bf. assert (w <> w0) by congruence. rewrite upd_other by assumption. auto.
  - destruct (user_control x); [|discriminate]. destruct (b_wr x w0) as [[t1 r]|] eqn:E0; [|discriminate]. destruct r; try discriminate.
    injection St as <-. bf. assert (w <> w0) by congruence. rewrite upd_other by assumption. auto.
  - destruct (b_main x); try discriminate; injection St as <-; auto.
  - unfold main_step in St. destruct (b_main x) as [ | | | |w1 b|i|i t1| ]; try discriminate.
    + injection St as <-. destruct (b_queue x) as [|e q]; [auto|]. unfold pop. destruct e as [t1|w1| | ]; bf; auto.
      destruct (b_wr x w1) as [[t1 r]|] eqn:E1; [|auto]. destruct r; auto. bf. assert (w <> w1) by congruence. rewrite upd_other by assumption. auto.
    + injection St as <-. auto.
    + injection St as <-. destruct (nth_error (b_pend x) i) as [t1|] eqn:Nt; [|auto]. destruct (b_st x t1) eqn:Es; bf; auto.
      assert (t <> t1). { intros <-. pose proof (B_th x M t) as T. unfold thread_ok in T. rewrite E in T. destruct T as [[T|T] _]; congruence. }
      rewrite upd_other by assumption. auto.
    + destruct (b_st x t1); try discriminate; injection St as <-; bf; auto. unfold event_set. bf. destruct (b_aw x t1); auto.
  - destruct (b_th x t0) eqn:E0; try discriminate. destruct (b_wr x w0) eqn:E1; [discriminate|]. destruct (existsb _ _); injection St as <-; [|auto]. bf.
    assert (t <> t0) by congruence. assert (w <> w0) by congruence. rewrite !upd_other by assumption. auto.
  - destruct (b_th x t0) eqn:E0; try discriminate. injection St as <-. bf. assert (t <> t0) by congruence. rewrite upd_other by assumption. auto.
  - destruct (b_th x t0) as [ | | | |w1| | ] eqn:E0; try discriminate. destruct (b_flag x w1) eqn:F1; [|discriminate]. injection St as <-. bf.
    assert (t <> t0) by (intros <-; congruence). rewrite upd_other by assumption. auto.
  - destruct (b_th x t0) eqn:E0; try discriminate. injection St as <-. bf. assert (t <> t0) by congruence. rewrite upd_other by assumption. auto.
  - destruct (b_th x t0) eqn:E0; try discriminate. injection St as <-. bf. assert (t <> t0) by congruence. rewrite upd_other by assumption. auto.
Qed.
Theorem stuck P x ls x' t w : BI x -> bexec P x ls x' -> b_th x t = TBlock w -> b_wr x w = Some (t, RLost) -> b_th x' t = TBlock w.
Proof.
  intros M R E Ew. assert (H : BI x' /\ b_th x' t = TBlock w /\ b_wr x' w = Some (t, RLost)); [|tauto]. revert R.
  apply (bexec_ind2 P (fun x => BI x /\ b_th x t = TBlock w /\ b_wr x w = Some (t, RLost))); [|auto].
  intros a l b [Ma A] _ St. split; [now apply (bi_step a l b)|now apply (stuck_step a l b)].
Qed.

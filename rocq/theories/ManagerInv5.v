(** Every step keeps [MC]. *)
From Verif Require Import Base KernelModel KernelProofs KernelHist KernelLog KernelInv KernelTask KernelWake KernelLayer KernelStack
  LayerProofs ManagerModel ManagerSpec ManagerInv ManagerInv2 ManagerInv3 ManagerInv4.
From Coq Require Import Arith.

Lemma minit_mc : MC minit.
Proof.
  assert (Na : forall i l, ~ active minit i l) by (intros i l [E|[E|(t & n & E)]]; discriminate).
  constructor; try (intros; discriminate).
  - intros h [].
  - intros t i lv c [].
  - reflexivity.
  - intros i u b [].
  - intros i u b c [].
  - intros i e _ [].
  - intros i u b e [].
  - intro i. constructor.
  - intros i u e [].
  - intros i u _ [].
  - intros i l A. elim (Na i l A).
  - intro i. constructor.
Qed.

(** * Methods called by user code *)
Lemma mc_new x d c : MI x -> MC x -> MC (new_manager x d c).
Proof.
  intros M B. pose proof (A_k x M) as H. set (k := event_set (x_k x) (private (x_n x))).
  assert (Bk : MC (set_k x k)) by (apply mc_k; [exact M|exact B|apply (ok_event_set _ _ H)]).
  unfold new_manager. fold k. set (m := Mgr d _ [] [] false false false None). set (n := x_n x) in *.
  assert (Ac : forall i l, active x i l -> i <> n).
  { intros i l A. destruct A as [A|[A|(t & q & A)]].
    - destruct (A_cb x M _ A) as [L _]. fold n in L. lia.
    - destruct (A_cb x M _ A) as [L _]. fold n in L. lia.
    - destruct (A_pend x M _ _ A) as [L _]. cbn in L. fold n in L. lia. }
  assert (Old : forall h, In h (x_hist x) -> mgr_of h < n) by apply (B_old x B).
  assert (Le : forall h, (forall e, In e h -> mgr_of e < n) -> last_enter n h = None).
  { induction h as [|e h IH]; intro O; [reflexivity|]. assert (O' : forall e0, In e0 h -> mgr_of e0 < n) by (intros; apply O; now right).
    pose proof (O e (or_introl eq_refl)) as Oe. destruct e; cbn [last_enter]; try (now apply IH). cbn in Oe. destruct (Nat.eqb_spec i n); [lia|now apply IH]. }
  assert (En : n = x_n x) by reflexivity.   destruct Bk as [B_old0 B_fin0 B_par0 B_kid0 B_uniq0 B_exc0 B_all0 B_nd0 B_failed0 B_canc2 B_canc3 B_todo0 B_once0 B_pend0]. constructor; cbn [set_k x_k x_m x_n x_in x_pend x_cb x_hist] in *.
  - intros h I. specialize (Old h I). lia.
  - intros t i lv b I. specialize (Old _ I). cbn in Old. rewrite upd_other by lia. eauto.
  - intros i Hi. unfold upd. destruct (Nat.eqb_spec i n) as [->|]; [symmetry; now apply Le|]. apply B_par0. lia.
  - intros i u b C. specialize (Old _ C). cbn in Old. rewrite upd_other by lia. apply (B_kid0 i u b C).
  - exact B_uniq0.
  - intros i e Hi. unfold upd. destruct (Nat.eqb_spec i n) as [->|]; [intros []|]. apply B_exc0. lia.
  - intros i u b e C F. specialize (Old _ C). cbn in Old. rewrite upd_other by lia. apply (B_all0 i u b e C F).
  - intro i. unfold upd. destruct (Nat.eqb_spec i n); [constructor|apply B_nd0].
  - intros i u e C F. specialize (Old _ C). cbn in Old. rewrite upd_other by lia. apply (B_failed0 i u e C F).
  - intros i u. unfold upd. destruct (Nat.eqb_spec i n) as [->|]; [|apply B_canc2]. intros _ I. specialize (Old _ I). cbn in Old. lia.
  - intros i u b Hi. unfold upd. destruct (Nat.eqb_spec i n) as [->|]; [discriminate|]. intros Ci I. assert (Hj : i < n) by lia.
    apply (B_canc3 i u b Hj Ci I).
  - intros i l A. specialize (Ac i l A). rewrite upd_other by exact Ac. apply (B_todo0 i l A).
  - exact B_once0.
  - exact B_pend0.
Qed.

Lemma mc_entered x i : MC x -> MC (set_m x i (with_parent (x_m x i) (m_parent (x_m x i)))).
Proof.
  intro B. set (m := with_parent _ _).
  assert (Up : forall (A : Type) (g : mgr -> A) j, g m = g (x_m x i) -> g (upd (x_m x) i m j) = g (x_m x j)).
  { intros A g j E. unfold upd. destruct (Nat.eqb_spec j i) as [->|]; auto. }
  destruct B as [B_old0 B_fin0 B_par0 B_kid0 B_uniq0 B_exc0 B_all0 B_nd0 B_failed0 B_canc2 B_canc3 B_todo0 B_once0 B_pend0]. constructor; cbn [set_m x_k x_m x_n x_in x_pend x_cb x_hist]; auto.
  - intros t j lv c I. rewrite (Up _ m_fin) by reflexivity. eauto.
  - intros j Hj. rewrite (Up _ m_parent) by reflexivity. auto.
  - intros j u b I. rewrite (Up _ m_parent) by reflexivity. eauto.
  - intros j e Hj. rewrite (Up _ m_exc) by reflexivity. apply (B_exc0 j e Hj).
  - intros j u b e C F. rewrite (Up _ m_rem), (Up _ m_exc) by reflexivity. apply (B_all0 j u b e C F).
  - intro j. rewrite (Up _ m_exc) by reflexivity. auto.
  - intros j u e C F. rewrite (Up _ m_rem), (Up _ m_canc) by reflexivity. apply (B_failed0 j u e C F).
  - intros j u. rewrite (Up _ m_canc) by reflexivity. auto.
  - intros j u b Hj. rewrite (Up _ m_canc), (Up _ m_rem) by reflexivity. intros C I. apply (B_canc3 j u b Hj C I).
  - intros j l' A. rewrite (Up _ m_canc) by reflexivity. apply (B_todo0 j l' A).
Qed.
Lemma mc_enter x t i c l : MC x -> i < x_n x -> MC (record (set_in (set_m x i (with_parent (x_m x i) (Some c))) t l) (HEnter c i)).
Proof.
  intros B Hi. set (m := with_parent _ _).
  assert (Up : forall (A : Type) (g : mgr -> A) j, g m = g (x_m x i) -> g (upd (x_m x) i m j) = g (x_m x j)).
  { intros A g j E. unfold upd. destruct (Nat.eqb_spec j i) as [->|]; auto. }
  assert (Ch : forall j u b, child (record (set_in (set_m x i m) t l) (HEnter c i)) j u b <-> child x j u b).
  { intros j u b. unfold child. cbn. split; [intros [E|I]; [discriminate|exact I]|auto]. }
  destruct B as [B_old0 B_fin0 B_par0 B_kid0 B_uniq0 B_exc0 B_all0 B_nd0 B_failed0 B_canc2 B_canc3 B_todo0 B_once0 B_pend0]. constructor; cbn [record set_in set_m x_k x_m x_n x_in x_pend x_cb x_hist]; auto.
  - intros h [<-|I]; auto.
  - intros t' j lv d [E|I]; [discriminate|]. rewrite (Up _ m_fin) by reflexivity. eauto.
  - intros j Hj. cbn [last_enter]. unfold upd. rewrite (Nat.eqb_sym i j). destruct (Nat.eqb_spec j i) as [->|]; [reflexivity|auto].
  - intros j u b C. apply Ch in C. unfold upd. destruct (Nat.eqb_spec j i) as [->|]; [discriminate|eauto].
  - intros j u b d C D. apply Ch in C. apply Ch in D. eauto.
  - intros j e Hj. rewrite (Up _ m_exc) by reflexivity. intro I. destruct (B_exc0 j e Hj I) as [(u & b & C & F)|(Pl & t' & d & Q)]; [left|right].
    + exists u, b. split; [now apply Ch|exact F].
    + split; [exact Pl|]. exists t', d. now right.
  - intros j u b e C F. apply Ch in C. rewrite (Up _ m_rem), (Up _ m_exc) by reflexivity. apply (B_all0 j u b e C F).
  - intro j. rewrite (Up _ m_exc) by reflexivity. auto.
  - intros j u e C F. apply Ch in C. rewrite (Up _ m_rem), (Up _ m_canc) by reflexivity. apply (B_failed0 j u e C F).
  - intros j u. rewrite (Up _ m_canc) by reflexivity. intros C [E|I]; [discriminate|]. now apply (B_canc2 j u C).
  - intros j u b Hj. rewrite (Up _ m_canc), (Up _ m_rem) by reflexivity. intros C I. destruct (B_canc3 j u b Hj C I) as [Q|Q]; [left; now apply gone_cons|right; exact Q].
  - intros j l' A. destruct (B_todo0 j l' A) as (D1 & D2 & D3). rewrite (Up _ m_canc) by reflexivity. split; [exact D1|]. split; [|exact D3].
    intros u Iu [E|I]; [discriminate|]. now apply (D2 u Iu).
Qed.

Lemma mc_start x i u b : MI x -> MC x -> i < x_n x -> fresh (x_k x) u = true -> m_canc (x_m x i) = false -> m_parent (x_m x i) <> None ->
  MC (record (set_k (set_m x i (with_rem (x_m x i) (m_rem (x_m x i) ++ [(u, b)])))
     (schedule_resume (event_clear (add_done (x_k x) u (private i)) (private i)) u None)) (HStart i u b)).
Proof.
  intros M B Hi Fr Nc Np. destruct (start_facts (x_k x) u i Fr) as (_ & _ & _ & _ & _ & Ot & _ & Dn). cbv zeta in Ot, Dn.
  set (k := schedule_resume _ u None) in *. clearbody k. pose proof (fresh_new _ _ Fr) as Ft.
  assert (Sb : Stable (x_k x) k).
  { intros v D. destruct (Nat.eq_dec v u) as [->|N]; [unfold done, state_of in D; rewrite Ft in D; discriminate|].
    unfold state_of. rewrite (Ot v N). auto. }
  assert (Fu : forall j c, ~ child x j u c).
  { intros j c C. destruct (A_kid x M j u c C) as [ds Q]. rewrite Ft in Q. discriminate. }
  pose proof (mc_k x k M B Sb) as Bk. set (m := with_rem _ _).
  assert (Nf : forall e, ~ failed (set_k x k) u e) by (intros e [F _]; cbn in F; unfold done in Dn; rewrite F in Dn; discriminate).
  assert (Up : forall (A : Type) (g : mgr -> A) j, g m = g (x_m x i) -> g (upd (x_m x) i m j) = g (x_m x j)).
  { intros A g j E. unfold upd. destruct (Nat.eqb_spec j i) as [->|]; auto. }
  assert (Rm : forall j p, In p (m_rem (x_m x j)) -> In p (m_rem (upd (x_m x) i m j))).
  { intros j p I. unfold upd. destruct (Nat.eqb_spec j i) as [->|]; [|exact I]. unfold m. cbn. apply in_or_app. now left. }
  destruct Bk as [B_old0 B_fin0 B_par0 B_kid0 B_uniq0 B_exc0 B_all0 B_nd0 B_failed0 B_canc2 B_canc3 B_todo0 B_once0 B_pend0]. constructor; cbn [record set_k set_m x_k x_m x_n x_in x_pend x_cb x_hist] in *; auto.
  - intros h [<-|I]; auto.
  - intros t j lv d [E|I]; [discriminate|]. rewrite (Up _ m_fin) by reflexivity. eauto.
  - intros j Hj. rewrite (Up _ m_parent) by reflexivity. now apply B_par0.
  - intros j v c [E|I]; rewrite (Up _ m_parent) by reflexivity; [|apply (B_kid0 j v c I)]. injection E as -> -> ->. exact Np.
  - intros j v c d [E|I] [E'|I']; try congruence.
    + injection E as -> -> ->. elim (Fu j d I').
    + injection E' as -> -> ->. elim (Fu j c I).
    + apply (B_uniq0 j v c d I I').
  - intros j e Hj. rewrite (Up _ m_exc) by reflexivity. intro I. destruct (B_exc0 j e Hj I) as [(v & c & C & F)|(Pl & t & c & Q)]; [left|right].
    + exists v, c. split; [now right|exact F].
    + split; [exact Pl|]. exists t, c. now right.
  - intros j v c e [E|C] F; [injection E as -> -> ->; elim (Nf e F)|]. rewrite (Up _ m_exc) by reflexivity.
    destruct (B_all0 j v c e C F) as [Q|[Q|Q]]; auto.
  - intro j. rewrite (Up _ m_exc) by reflexivity. auto.
  - intros j v e [E|C] F; [injection E as -> -> ->; elim (Nf e F)|]. rewrite (Up _ m_canc) by reflexivity.
    destruct (B_failed0 j v e C F) as [Q|[Q|Q]]; auto.
  - intros j v. rewrite (Up _ m_canc) by reflexivity. intros C [E|I]; [discriminate|]. now apply (B_canc2 j v C).
  - intros j v c Hj. rewrite (Up _ m_canc) by reflexivity. intros C I. unfold upd in I. destruct (Nat.eqb_spec j i) as [->|]; [congruence|].
    destruct (B_canc3 j v c Hj C I) as [Q|Q]; [left; now apply gone_cons|right; exact Q].
  - intros j l' A. destruct (B_todo0 j l' A) as (D1 & D2 & D3). rewrite (Up _ m_canc) by reflexivity. split; [exact D1|]. split; [|exact D3].
    intros v Iv [E|I]; [discriminate|]. now apply (D2 v Iv).
Qed.

(** * The callback *)
Lemma mc_pop x i u : MI x -> MC x -> x_cb x = Some (BStart i u) -> MC (fst (callback_step x (BStart i u))).
Proof.
  intros M B Eb. cbn [callback_step]. cbv zeta. destruct (find_rem u (m_rem (x_m x i))) as [coe|] eqn:Ef.
  2:{ exfalso. destruct (A_cb x M _ Eb) as [[b C] _]. apply (find_rem_none _ _ Ef b). apply (A_rem x M). auto. }
  assert (Cc : child x i u coe) by (apply find_rem_in, (A_rem x M) in Ef; apply Ef).
  cbn [fst]. set (m := with_rem (x_m x i) _).
  assert (Base : forall k, Stable (x_k x) k -> MC (set_cb (set_m (set_k x k) i m) (Some (BCheck i u coe)))).
  { intros k Sb. pose proof (mc_k x k M B Sb) as Bk.
    assert (Up : forall (A : Type) (g : mgr -> A) j, g m = g (x_m x i) -> g (upd (x_m x) i m j) = g (x_m x j)).
    { intros A g j E. unfold upd. destruct (Nat.eqb_spec j i) as [->|]; auto. }
    assert (Rm : forall j v b, In (v, b) (m_rem (upd (x_m x) i m j)) -> In (v, b) (m_rem (x_m x j))).
    { intros j v b. unfold upd. destruct (Nat.eqb_spec j i) as [->|]; [|auto]. unfold m. cbn [with_rem m_rem]. rewrite drop_in. tauto. }
    assert (Rd : forall j v b, In (v, b) (m_rem (x_m x j)) -> In (v, b) (m_rem (upd (x_m x) i m j)) \/ j = i /\ v = u).
    { intros j v b I. unfold upd. destruct (Nat.eqb_spec j i) as [->|]; [|auto]. destruct (Nat.eq_dec v u); [auto|]. left. unfold m. cbn [with_rem m_rem].
      rewrite drop_in. auto. }
    destruct Bk as [B_old0 B_fin0 B_par0 B_kid0 B_uniq0 B_exc0 B_all0 B_nd0 B_failed0 B_canc2 B_canc3 B_todo0 B_once0 B_pend0]. constructor; cbn [set_cb set_k set_m x_k x_m x_n x_in x_pend x_cb x_hist] in *; auto.
    - intros t j lv d I. rewrite (Up _ m_fin) by reflexivity. eauto.
    - intros j Hj. rewrite (Up _ m_parent) by reflexivity. auto.
    - intros j v c C. rewrite (Up _ m_parent) by reflexivity. apply (B_kid0 j v c C).
    - intros j e Hj. rewrite (Up _ m_exc) by reflexivity. apply (B_exc0 j e Hj).
    - intros j v c e C F. rewrite (Up _ m_exc) by reflexivity. destruct (B_all0 j v c e C F) as [Q|[[d Q]|Q]]; [|congruence|auto].
      destruct (Rd j v c Q) as [R|[-> ->]]; [auto|]. right. left. eauto.
    - intro j. rewrite (Up _ m_exc) by reflexivity. auto.
    - intros j v e C F. rewrite (Up _ m_canc) by reflexivity. destruct (B_failed0 j v e C F) as [Q|[Q|Q]]; [|congruence|auto].
      destruct (Rd j v false Q) as [R|[-> ->]]; [auto|]. right. left. now rewrite (B_uniq0 i u coe false Cc C).
    - intros j v. rewrite (Up _ m_canc) by reflexivity. auto.
    - intros j v c Hj. rewrite (Up _ m_canc) by reflexivity. intros C I. destruct (B_canc3 j v c Hj C (Rm j v c I)) as [Q|(l & A & Il)]; [auto|].
      right. exists l. split; [|exact Il]. destruct A as [A|[A|A]]; cbn in A; [congruence|congruence|]. right. right. exact A.
    - intros j l' A. rewrite (Up _ m_canc) by reflexivity. apply (B_todo0 j l'). destruct A as [A|[A|A]]; cbn in A; [congruence|congruence|].
      right. right. exact A. }
  set (k' := match m_rem m with [] => event_set (x_k x) (private i) | _ => x_k x end).
  assert (Sk : Stable (x_k x) k') by (unfold k'; destruct (m_rem m); [apply (ok_event_set _ _ (A_k x M))|apply stable_refl]).
  assert (Q := Base k' Sk). unfold k' in Q. clear Base Sk k'. destruct (m_rem m); [exact Q|].
  replace (set_k x (x_k x)) with x in Q by (destruct x; reflexivity). exact Q.
Qed.

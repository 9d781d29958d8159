(** More about TaskManager: what is in [_exceptions], who has been cancelled, and why a Task is where it is in [__aexit__]. *)
From Verif Require Import Base KernelModel KernelProofs KernelHist KernelLog KernelInv KernelTask KernelWake KernelLayer KernelStack
  LayerProofs ManagerModel ManagerSpec ManagerInv ManagerInv2 ManagerInv3.
From Coq Require Import Arith.

Definition mgr_of (h : hist) : nat :=
  match h with HEnter _ i | HStart i _ _ | HExit _ i _ _ | HThrown _ i _ | HCancel i _ | HParent i | HBroken i => i end.
Definition plain := ordinary.
(** A loop of lines 218-219 which still has to cancel the Tasks of [l]. *)
Definition active (x : mst) (i : nat) (l : list tid) : Prop :=
  x_cb x = Some (BParent i l) \/ x_cb x = Some (BCancel i l) \/ exists t n, x_pend x t = Some (ACancel i l n).
(** Why a Task is at a stage, in terms of how it left the block and what was thrown into the wait of line 273. *)
Definition stage_ok (p : stage) (lv : leave) (c : bool) (th : option (option exc)) : Prop :=
  match p with
  | AAwait _ None | AWait _ None => lv = LvNone /\ c = false \/ (exists m, lv = LvExc (ECancelled m)) /\ c = true
  | AAwait _ (Some e) | AWait _ (Some e) | ACancel _ _ (NWait e) => lv = LvExc e /\ plain e /\ c = false
  | ANull _ => c = true /\ (lv = LvNone \/ exists e, lv = LvExc e /\ plain e)
  | ATest _ m | ADrain _ m | ACancel _ _ (NDrain m) => lv = LvExc (ECancelled m) /\ c = false \/ th = Some (Some (ECancelled m))
  | ACancel _ _ (NReraise e) => exists n, e = EExit n /\ lv = LvExc e
  | ACancel _ _ NClose => True
  end.

Definition gone (h : list hist) (i : nat) (u : tid) : Prop := In (HCancel i u) h \/ In (HBroken i) h.
Lemma gone_cons e h i u : gone h i u -> gone (e :: h) i u.
Proof. intros [I|I]; [left|right]; now right. Qed.
Record MC (x : mst) : Prop := {
  B_old : forall h, In h (x_hist x) -> mgr_of h < x_n x;
  B_fin : forall t i lv c, In (HExit t i lv c) (x_hist x) -> m_fin (x_m x i) = true;
  B_par : forall i, i < x_n x -> m_parent (x_m x i) = last_enter i (x_hist x);
  B_kid : forall i u b, child x i u b -> m_parent (x_m x i) <> None;
  B_uniq : forall i u b c, child x i u b -> child x i u c -> b = c;
  B_exc : forall i e, i < x_n x -> In e (m_exc (x_m x i)) ->
    (exists u b, child x i u b /\ failed x u e) \/ (plain e /\ exists t c, In (HExit t i (LvExc e) c) (x_hist x));
  B_all : forall i u b e, child x i u b -> failed x u e ->
    In (u, b) (m_rem (x_m x i)) \/ (exists c, x_cb x = Some (BCheck i u c)) \/ In e (m_exc (x_m x i));
  B_nd : forall i, NoDup (m_exc (x_m x i));
  B_failed : forall i u e, child x i u false -> failed x u e ->
    In (u, false) (m_rem (x_m x i)) \/ x_cb x = Some (BCheck i u false) \/ m_canc (x_m x i) = true;
  B_canc0 : forall i u, m_canc (x_m x i) = false -> ~ In (HCancel i u) (x_hist x);
  B_canc1 : forall i u b, i < x_n x -> m_canc (x_m x i) = true -> In (u, b) (m_rem (x_m x i)) ->
    gone (x_hist x) i u \/ exists l, active x i l /\ In u l;
  B_todo : forall i l, active x i l -> NoDup l /\ (forall u, In u l -> ~ In (HCancel i u) (x_hist x)) /\ m_canc (x_m x i) = true;
  B_once : forall i, NoDup (cancelled_by i (x_hist x));
  B_pend : forall t p, x_pend x t = Some p -> exists lv c, last_exit t (x_hist x) = Some (inst_of p, lv, c) /\
    stage_ok p lv c (thrown_since t (x_hist x)) }.

Lemma exc_eqb_eq a b : exc_eqb a b = true <-> a = b.
Proof.
  split; [|intros ->; destruct b; cbn; try reflexivity; apply Nat.eqb_refl].
  destruct a, b; cbn; try discriminate; try reflexivity; intro E; apply Nat.eqb_eq in E; congruence.
Qed.
Lemma exc_in e l : existsb (exc_eqb e) l = true <-> In e l.
Proof.
  rewrite existsb_exists. split; [intros (f & I & E); apply exc_eqb_eq in E; now subst|]. intro I. exists e. split; [exact I|]. now apply exc_eqb_eq.
Qed.
Lemma add_exc_in e l f : In f (add_exc e l) <-> f = e \/ In f l.
Proof.
  unfold add_exc. destruct (existsb (exc_eqb e) l) eqn:E.
  - apply exc_in in E. split; [auto|]. intros [->|I]; assumption.
  - rewrite in_app_iff. cbn. split; [intros [I|[I|[]]]; auto|intros [I|I]; auto].
Qed.
Lemma snoc_nodup {A} (l : list A) a : NoDup l -> ~ In a l -> NoDup (l ++ [a]).
Proof.
  induction l as [|b l IH]; cbn; intros N I; [constructor; [tauto|constructor]|]. apply NoDup_cons_iff in N. destruct N as [N1 N2].
  constructor; [|apply IH; auto]. rewrite in_app_iff. cbn. intros [J|[J|[]]]; [contradiction|]. subst. tauto.
Qed.
Lemma add_exc_nodup e l : NoDup l -> NoDup (add_exc e l).
Proof.
  intro N. unfold add_exc. destruct (existsb (exc_eqb e) l) eqn:E; [exact N|]. apply snoc_nodup; [exact N|]. intro I.
  apply exc_in in I. congruence.
Qed.
Lemma cancelled_in i u h : In u (cancelled_by i h) <-> In (HCancel i u) h.
Proof.
  induction h as [|e h IH]; [reflexivity|]. cbn [In]. rewrite <- IH. destruct e as [| | | |j v| |]; cbn [cancelled_by];
    try (split; [auto|intros [E|I]; [discriminate|exact I]]).
  destruct (Nat.eqb_spec j i) as [->|N]; cbn [In]; split.
  - intros [E|I]; [left; congruence|auto].
  - intros [E|I]; [left; congruence|auto].
  - auto.
  - intros [E|I]; [congruence|auto].
Qed.

Lemma failed_back x k u e : Stable (x_k x) k -> failed (set_k x k) u e -> failed x u e \/ done (x_k x) u = false.
Proof.
  intros Sb [F1 F2]. cbn [set_k x_k] in *. destruct (done (x_k x) u) eqn:D; [|auto]. left. destruct (Sb u D) as [E1 E2]. split; congruence.
Qed.
Lemma failed_fwd x k u e : Stable (x_k x) k -> failed x u e -> failed (set_k x k) u e.
Proof.
  intros Sb [F1 F2]. assert (D : done (x_k x) u = true) by (unfold done; now rewrite F1). destruct (Sb u D) as [E1 E2]. split; cbn; congruence.
Qed.
Lemma mc_k x k : MI x -> MC x -> Stable (x_k x) k -> MC (set_k x k).
Proof.
  intros M B Sb. assert (Old : forall i u b e, child x i u b -> failed (set_k x k) u e -> failed x u e \/ In (u, b) (m_rem (x_m x i))).
  { intros i u b e C F. destruct (failed_back x k u e Sb F) as [F0|D]; [auto|]. right. apply (A_rem x M). split; [exact C|]. left. now left. }
  destruct B. constructor; cbn [set_k x_k x_m x_n x_in x_pend x_cb x_hist]; auto.
  - intros i e Hi I. destruct (B_exc0 i e Hi I) as [(u & b & C & F)|Q]; [|auto]. left. exists u, b. split; [exact C|now apply failed_fwd].
  - intros i u b e C F. destruct (Old i u b e C F) as [F0|R]; [eauto|auto].
  - intros i u e C F. destruct (Old i u false e C F) as [F0|R]; [eauto|auto].
Qed.

(** * [__aexit__] *)
Lemma mc_pend x t o : MC x ->
  (forall i l n u, x_pend x t = Some (ACancel i l n) -> In u l -> False) ->
  (forall p, o = Some p -> exists lv c, last_exit t (x_hist x) = Some (inst_of p, lv, c) /\ stage_ok p lv c (thrown_since t (x_hist x))) ->
  (forall i l n, o = Some (ACancel i l n) -> l = [] /\ m_canc (x_m x i) = true) ->
  MC (set_pend x t o).
Proof.
  intros B No Ok Nl. destruct B. constructor; cbn [set_pend x_k x_m x_n x_in x_pend x_cb x_hist]; auto.
  - intros i u b Hi C I. destruct (B_canc3 i u b Hi C I) as [Q|(l & A & Il)]; [auto|]. right. exists l. split; [|exact Il].
    destruct A as [A|[A|(t' & n & A)]]; [now left|right; now left|]. right. right. exists t', n. cbn. unfold upd.
    destruct (Nat.eqb_spec t' t) as [->|]; [|exact A]. elim (No i l n u A Il).
  - intros i l A. assert (D : active x i l \/ exists n, o = Some (ACancel i l n)).
    { destruct A as [A|[A|(t' & n & A)]]; [left; now left|left; right; now left|]. cbn in A. unfold upd in A.
      destruct (Nat.eqb_spec t' t) as [->|]; [eauto|]. left. right. right. eauto. }
    destruct D as [D|[n D]]; [now apply B_todo0|]. destruct (Nl i l n D) as [-> Hc]. split; [constructor|]. split; [intros u []|exact Hc].
  - intros u p. unfold upd. destruct (Nat.eqb_spec u t) as [->|]; [apply Ok|apply B_pend0].
Qed.
Definition idle_stage (x : mst) (t : tid) : Prop := forall i l n u, x_pend x t = Some (ACancel i l n) -> In u l -> False.
Lemma mc_leave x t : MC x -> idle_stage x t -> MC (set_pend x t None).
Proof. intros B No. apply mc_pend; [exact B|exact No|discriminate|discriminate]. Qed.
Lemma mc_stage x t p lv c : MC x -> idle_stage x t -> last_exit t (x_hist x) = Some (inst_of p, lv, c) ->
  stage_ok p lv c (thrown_since t (x_hist x)) -> (forall i l n, p <> ACancel i l n) -> MC (set_pend x t (Some p)).
Proof.
  intros B No L S Np. apply mc_pend; [exact B|exact No| |].
  - intros q E. injection E as <-. eauto.
  - intros i l n E. injection E as E. elim (Np i l n E).
Qed.
Lemma mc_begin_cancel x t i n lv c : MI x -> MC x -> idle_stage x t -> last_exit t (x_hist x) = Some (i, lv, c) ->
  stage_ok (ACancel i [] n) lv c (thrown_since t (x_hist x)) -> i < x_n x -> MC (begin_cancel x t i n).
Proof.
  intros M B No L S Hi. unfold begin_cancel. destruct (m_canc (x_m x i)) eqn:Ec.
  - apply mc_pend; [exact B|exact No| |].
    + intros q E. injection E as <-. exists lv, c. auto.
    + intros j l n' E. injection E as <- <- <-. auto.
  - set (l := map fst (m_rem (x_m x i))). assert (Nd : NoDup l) by apply (A_nd x M).
    assert (Up : forall (A : Type) (g : mgr -> A) j, g (with_canc (x_m x i)) = g (x_m x i) -> g (upd (x_m x) i (with_canc (x_m x i)) j) = g (x_m x j)).
    { intros A g j E. unfold upd. destruct (Nat.eqb_spec j i) as [->|]; auto. }
    assert (Old : forall j l', active x j l' -> forall u, In u l' -> active (set_pend (set_m x i (with_canc (x_m x i))) t (Some (ACancel i l n))) j l').
    { intros j l' [A|[A|(t' & n' & A)]] u Iu; [now left|right; now left|]. right. right. exists t', n'. cbn. unfold upd.
      destruct (Nat.eqb_spec t' t) as [->|]; [|exact A]. elim (No j l' n' u A Iu). }
    destruct B. constructor; cbn [set_pend set_m x_k x_m x_n x_in x_pend x_cb x_hist]; auto; unfold child, failed; cbn [set_pend set_m x_k x_hist].
    + intros t' j lv' c' I. rewrite (Up _ m_fin) by reflexivity. eauto.
    + intros j Hj. rewrite (Up _ m_parent) by reflexivity. auto.
    + intros j u b I. rewrite (Up _ m_parent) by reflexivity. eauto.
    + intros j e Hj. rewrite (Up _ m_exc) by reflexivity. apply B_exc0. exact Hj.
    + intros j u b e I F. rewrite (Up _ m_rem), (Up _ m_exc) by reflexivity. eauto.
    + intro j. rewrite (Up _ m_exc) by reflexivity. auto.
    + intros j u e I F. rewrite (Up _ m_rem) by reflexivity. destruct (B_failed0 j u e I F) as [Q|[Q|Q]]; auto. right. right.
      unfold upd. destruct (Nat.eqb_spec j i); [reflexivity|exact Q].
    + intros j u. unfold upd. destruct (Nat.eqb_spec j i) as [->|]; [discriminate|apply B_canc2].
    + intros j u b Hj Cj I. rewrite (Up _ m_rem) in I by reflexivity. unfold upd in Cj. destruct (Nat.eqb_spec j i) as [->|Nj].
      * right. exists l. split; [right; right; exists t, n; cbn; now rewrite upd_same|]. unfold l. apply map_fst_in. eauto.
      * destruct (B_canc3 j u b Hj Cj I) as [Q|(l' & A & Iu)]; [auto|]. right. exists l'. split; [now apply (Old j l' A u)|exact Iu].
    + intros j l' A. assert (D : active x j l' \/ j = i /\ l' = l).
      { destruct A as [A|[A|(t' & n' & A)]]; [left; now left|left; right; now left|]. cbn in A. unfold upd in A.
        destruct (Nat.eqb_spec t' t) as [->|]; [right; split; congruence|]. left. right. right. eauto. }
      destruct D as [D|[-> ->]].
      * destruct (B_todo0 j l' D) as (D1 & D2 & D3). split; [exact D1|]. split; [exact D2|]. unfold upd. destruct (Nat.eqb_spec j i); [reflexivity|exact D3].
      * split; [exact Nd|]. split; [intros u _; now apply B_canc2|]. now rewrite upd_same.
    + intros u p. unfold upd. destruct (Nat.eqb_spec u t) as [->|]; [|apply B_pend0]. intro E. injection E as <-. exists lv, c. auto.
Qed.

Lemma mc_record x h : MC x -> mgr_of h < x_n x ->
  match h with HParent _ | HBroken _ => True | HThrown t i _ => exists o, x_pend x t = Some (AWait i o) | _ => False end -> MC (record x h).
Proof.
  intros B Ho Hh. assert (Hs : forall i u b, h <> HStart i u b) by (intros i u b ->; exact Hh).
  assert (He : forall t i lv c, h <> HExit t i lv c) by (intros t i lv c ->; exact Hh).
  assert (Hc : forall i u, h <> HCancel i u) by (intros i u ->; exact Hh).
  assert (Ch : forall i u b, child (record x h) i u b <-> child x i u b).
  { intros i u b. unfold child. cbn. split; [intros [E|I]; [elim (Hs i u b E)|exact I]|auto]. }
  assert (Le : forall t, last_exit t (h :: x_hist x) = last_exit t (x_hist x)) by (intro t; destruct h; cbn; try reflexivity; destruct Hh).
  assert (Cb : forall i, cancelled_by i (h :: x_hist x) = cancelled_by i (x_hist x)) by (intro i; destruct h; cbn; try reflexivity; destruct Hh).
  assert (En : forall i, last_enter i (h :: x_hist x) = last_enter i (x_hist x)) by (intro i; destruct h; cbn; try reflexivity; destruct Hh).
  destruct B. constructor; cbn [record x_k x_m x_n x_in x_pend x_cb x_hist]; auto.
  - intros e [<-|I]; auto.
  - intros t i lv c [E|I]; [elim (He t i lv c E)|eauto].
  - intros i Hi. rewrite En. auto.
  - intros i u b C. apply Ch in C. eauto.
  - intros i u b c C D. apply Ch in C. apply Ch in D. eauto.
  - intros i e Hi I. destruct (B_exc0 i e Hi I) as [(u & b & C & F)|(Pl & t & c & Q)]; [left|right].
    + exists u, b. split; [now apply Ch|exact F].
    + split; [exact Pl|]. exists t, c. now right.
  - intros i u b e C F. apply Ch in C. apply (B_all0 i u b e C F).
  - intros i u e C F. apply Ch in C. apply (B_failed0 i u e C F).
  - intros i u C [E|I]; [elim (Hc i u E)|]. now apply (B_canc2 i u C).
  - intros i u b Hi C I. destruct (B_canc3 i u b Hi C I) as [Q|Q]; [left; now apply gone_cons|right; exact Q].
  - intros i l A. destruct (B_todo0 i l A) as (D1 & D2 & D3). split; [exact D1|]. split; [|exact D3]. intros u Iu [E|I]; [elim (Hc i u E)|].
    now apply (D2 u Iu).
  - intro i. rewrite Cb. auto.
  - intros t p E. destruct (B_pend0 t p E) as (lv & c & L & S). exists lv, c. rewrite Le. split; [exact L|].
    destruct h as [| | |u i e|i u|i|i]; try (destruct Hh; fail); cbn [thrown_since]; [|exact S|exact S].
    destruct Hh as [o Hh]. destruct (Nat.eqb_spec u t) as [->|]; [|exact S]. rewrite Hh in E. injection E as <-. exact S.
Qed.

(** The block is left. *)
Lemma mc_fin x t i lv : MC x -> x_pend x t = None -> i < x_n x ->
  MC (record (set_m x i (with_fin (x_m x i))) (HExit t i lv (m_canc (x_m x i)))).
Proof.
  intros B Np Hi.
  assert (Up : forall (A : Type) (g : mgr -> A) j, g (with_fin (x_m x i)) = g (x_m x i) -> g (upd (x_m x) i (with_fin (x_m x i)) j) = g (x_m x j)).
  { intros A g j E. unfold upd. destruct (Nat.eqb_spec j i) as [->|]; auto. }
  set (c0 := m_canc (x_m x i)).
  assert (Ch : forall j u b, child (record (set_m x i (with_fin (x_m x i))) (HExit t i lv c0)) j u b <-> child x j u b).
  { intros j u b. unfold child. cbn. split; [intros [E|I]; [discriminate|exact I]|auto]. }
  destruct B. constructor; cbn [record set_m x_k x_m x_n x_in x_pend x_cb x_hist]; auto.
  - intros e [<-|I]; auto.
  - intros t' j lv' c [E|I].
    + injection E as <- <- <- <-. now rewrite upd_same.
    + unfold upd. destruct (Nat.eqb_spec j i); [reflexivity|eauto].
  - intros j Hj. rewrite (Up _ m_parent) by reflexivity. apply (B_par0 j Hj).
  - intros j u b C. apply Ch in C. rewrite (Up _ m_parent) by reflexivity. eauto.
  - intros j u b c C D. apply Ch in C. apply Ch in D. eauto.
  - intros j e Hj. rewrite (Up _ m_exc) by reflexivity. intro I. destruct (B_exc0 j e Hj I) as [(u & b & C & F)|(Pl & t' & c & Q)]; [left|right].
    + exists u, b. split; [now apply Ch|exact F].
    + split; [exact Pl|]. exists t', c. now right.
  - intros j u b e C F. apply Ch in C. rewrite (Up _ m_rem), (Up _ m_exc) by reflexivity. apply (B_all0 j u b e C F).
  - intro j. rewrite (Up _ m_exc) by reflexivity. auto.
  - intros j u e C F. apply Ch in C. rewrite (Up _ m_rem), (Up _ m_canc) by reflexivity. apply (B_failed0 j u e C F).
  - intros j u. rewrite (Up _ m_canc) by reflexivity. intros C [E|I]; [discriminate|]. now apply (B_canc2 j u C).
  - intros j u b Hj. rewrite (Up _ m_canc), (Up _ m_rem) by reflexivity. intros C I. destruct (B_canc3 j u b Hj C I) as [Q|Q]; [left; now apply gone_cons|right; exact Q].
  - intros j l A. destruct (B_todo0 j l A) as (D1 & D2 & D3). rewrite (Up _ m_canc) by reflexivity. split; [exact D1|]. split; [|exact D3].
    intros u Iu [E|I]; [discriminate|]. now apply (D2 u Iu).
  - intros u p E. destruct (B_pend0 u p E) as (lv' & c & L & S). exists lv', c. cbn [last_exit thrown_since].
    destruct (Nat.eqb_spec t u) as [->|]; [congruence|]. auto.
Qed.

(** One turn of the loop, in [__aexit__] or in the callback. *)
Lemma mc_cancelled x y i u us : MC x -> i < x_n x -> active x i (u :: us) -> (forall j l, active x j l -> l <> [] -> j = i /\ l = u :: us) ->
  x_k y = x_k x -> x_m y = x_m x -> x_n y = x_n x -> x_hist y = HCancel i u :: x_hist x ->
  active y i us -> (forall j l, active y j l -> l <> [] -> j = i /\ l = us) ->
  (forall j l, active y j l -> m_canc (x_m y j) = true) ->
  (forall j v c, x_cb x = Some (BCheck j v c) <-> x_cb y = Some (BCheck j v c)) ->
  (forall t p, x_pend y t = Some p -> x_pend x t = Some p \/ exists n, p = ACancel i us n /\ x_pend x t = Some (ACancel i (u :: us) n)) ->
  MC y.
Proof.
  intros B Hi Ax Sx Ek Em En Eh Ay Sy Ac Ck Ep. destruct (B_todo x B i _ Ax) as (Dn & Dc & Dm).
  assert (Ch : forall j v b, child y j v b <-> child x j v b).
  { intros j v b. unfold child. rewrite Eh. cbn. split; [intros [E|I]; [discriminate|exact I]|auto]. }
  assert (Fa : forall v e, failed y v e <-> failed x v e) by (intros; unfold failed; now rewrite Ek).
  apply NoDup_cons_iff in Dn. destruct Dn as [Nu Nd].
  rewrite Em in Ac. destruct B. constructor; rewrite ?En, ?Eh; rewrite ?Em.
  - intros e [<-|I]; [exact Hi|auto].
  - intros t j lv c [E|I]; [discriminate|]. rewrite ?Em. eauto.
  - intros j Hj. rewrite ?Em. cbn. apply B_par0. exact Hj.
  - intros j v b C. apply Ch in C. rewrite ?Em. eauto.
  - intros j v b c C D. apply Ch in C. apply Ch in D. eauto.
  - intros j e Hj. rewrite ?Em. intro I. destruct (B_exc0 j e Hj I) as [(v & b & C & F)|(Pl & t & c & Q)]; [left|right].
    + exists v, b. split; [now apply Ch|now apply Fa].
    + split; [exact Pl|]. exists t, c. now right.
  - intros j v b e C F. apply Ch in C. apply Fa in F. rewrite ?Em. destruct (B_all0 j v b e C F) as [Q|[[c Q]|Q]]; auto. right. left. exists c. now apply Ck.
  - intro j. rewrite ?Em. auto.
  - intros j v e C F. apply Ch in C. apply Fa in F. rewrite ?Em. destruct (B_failed0 j v e C F) as [Q|[Q|Q]]; auto. right. left. now apply Ck.
  - intros j v. rewrite ?Em. intros C [E|I]; [congruence|]. now apply (B_canc2 j v C).
  - intros j v b Hj. rewrite ?Em. intros C I. destruct (B_canc3 j v b Hj C I) as [Q|(l & A & Iv)]; [left; now apply gone_cons|].
    destruct (Sx j l A) as [-> ->]; [intros ->; destruct Iv|]. destruct Iv as [<-|Iv]; [left; left; now left|right; eauto].
  - intros j l A. destruct l as [|v l].
    + split; [constructor|]. split; [intros v []|apply (Ac j [] A)].
    + destruct (Sy j _ A) as [-> E]; [discriminate|]. rewrite E. split; [exact Nd|]. split; [|rewrite ?Em; exact Dm]. intros w Iw [Q|Q].
      * assert (w = u) by congruence. subst w. contradiction.
      * now apply (Dc w (or_intror Iw)).
  - intro j. cbn [cancelled_by]. destruct (Nat.eqb_spec i j) as [<-|]; [|auto]. constructor; [|auto]. rewrite cancelled_in. apply (Dc u). now left.
  - intros t p E. cbn [last_exit thrown_since]. destruct (Ep t p E) as [Q|(n & -> & Q)]; [eauto|].
    destruct (B_pend0 t _ Q) as (lv & c & L & S). exists lv, c. split; [exact L|]. exact S.
Qed.

(** The callback goes on, after line 202. *)
Lemma mc_cb x c : MC x -> (forall j v b, x_cb x = Some (BCheck j v b) -> forall e, failed x v e ->
    (b = false -> m_canc (x_m x j) = true) /\ In e (m_exc (x_m x j))) ->
  (forall j l, x_cb x = Some (BParent j l) \/ x_cb x = Some (BCancel j l) -> l <> [] -> c = Some (BParent j l) \/ c = Some (BCancel j l)) ->
  (forall j l, c = Some (BParent j l) \/ c = Some (BCancel j l) -> active x j l) -> MC (set_cb x c).
Proof.
  intros B Nc Lp Ln. destruct B. constructor; cbn [set_cb x_k x_m x_n x_in x_pend x_cb x_hist]; auto.
  - intros j v b e C F. destruct (B_all0 j v b e C F) as [Q|[[d Q]|Q]]; auto. right. right. now apply (Nc j v d Q e F).
  - intros j v e C F. destruct (B_failed0 j v e C F) as [Q|[Q|Q]]; auto. right. right. now apply (Nc j v false Q e F).
  - intros j v b Hj C I. destruct (B_canc3 j v b Hj C I) as [Q|(l & A & Il)]; [auto|]. right. exists l. split; [|exact Il].
    assert (Nl : l <> []) by (intros ->; destruct Il). unfold active. cbn [set_cb x_cb x_pend].
    destruct A as [A|[A|A]]; [destruct (Lp j l (or_introl A) Nl); auto|destruct (Lp j l (or_intror A) Nl); auto|auto].
  - intros j l A. apply B_todo0. destruct A as [A|[A|A]]; [apply Ln; auto|apply Ln; auto|]. right. right. exact A.
Qed.

(** Lines 297-299, 202 and 209-219: the record of manager [i] changes in [_exceptions] and possibly [_cancelled]. *)
Lemma mc_exc x i l : MC x -> NoDup l -> (forall e, In e (m_exc (x_m x i)) -> In e l) ->
  (forall e, In e l -> In e (m_exc (x_m x i)) \/ (exists u b, child x i u b /\ failed x u e) \/ (plain e /\ exists t c, In (HExit t i (LvExc e) c) (x_hist x))) ->
  MC (set_m x i (with_exc (x_m x i) l)).
Proof.
  intros B Nd Inc Src.
  assert (Up : forall (A : Type) (g : mgr -> A) j, g (with_exc (x_m x i) l) = g (x_m x i) -> g (upd (x_m x) i (with_exc (x_m x i) l) j) = g (x_m x j)).
  { intros A g j E. unfold upd. destruct (Nat.eqb_spec j i) as [->|]; auto. }
  destruct B. constructor; cbn [set_m x_k x_m x_n x_in x_pend x_cb x_hist]; auto.
  - intros t j lv c I. rewrite (Up _ m_fin) by reflexivity. eauto.
  - intros j Hj. rewrite (Up _ m_parent) by reflexivity. auto.
  - intros j u b I. rewrite (Up _ m_parent) by reflexivity. eauto.
  - intros j e Hj. unfold upd. destruct (Nat.eqb_spec j i) as [->|]; [|apply (B_exc0 j e Hj)]. cbn [with_exc m_exc]. intro I.
    destruct (Src e I) as [Q|Q]; [now apply (B_exc0 i e Hj)|exact Q].
  - intros j u b e C F. rewrite (Up _ m_rem) by reflexivity. destruct (B_all0 j u b e C F) as [Q|[Q|Q]]; auto. right. right.
    unfold upd. destruct (Nat.eqb_spec j i) as [->|]; [cbn; auto|exact Q].
  - intro j. unfold upd. destruct (Nat.eqb_spec j i) as [->|]; [exact Nd|auto].
  - intros j u e C F. rewrite (Up _ m_rem), (Up _ m_canc) by reflexivity. apply (B_failed0 j u e C F).
  - intros j u. rewrite (Up _ m_canc) by reflexivity. auto.
  - intros j u b Hj. rewrite (Up _ m_canc), (Up _ m_rem) by reflexivity. intros C I. apply (B_canc3 j u b Hj C I).
  - intros j l' A. rewrite (Up _ m_canc) by reflexivity. apply (B_todo0 j l' A).
Qed.
(** [_cancel()] called by the callback. *)
Lemma mc_cb_cancel x i c : MI x -> MC x -> m_canc (x_m x i) = false ->
  c = BParent i (map fst (m_rem (x_m x i))) \/ c = BCancel i (map fst (m_rem (x_m x i))) ->
  (exists u b, x_cb x = Some (BCheck i u b) /\ forall e, failed x u e -> In e (m_exc (x_m x i))) ->
  MC (set_cb (set_m x i (with_canc (x_m x i))) (Some c)).
Proof.
  intros M B Ec Hc (u0 & b0 & Cb & Fe). set (l := map fst (m_rem (x_m x i))) in *.
  assert (Up : forall (A : Type) (g : mgr -> A) j, g (with_canc (x_m x i)) = g (x_m x i) -> g (upd (x_m x) i (with_canc (x_m x i)) j) = g (x_m x j)).
  { intros A g j E. unfold upd. destruct (Nat.eqb_spec j i) as [->|]; auto. }
  destruct B. constructor; cbn [set_cb set_m x_k x_m x_n x_in x_pend x_cb x_hist]; auto.
  - intros t j lv d I. rewrite (Up _ m_fin) by reflexivity. eauto.
  - intros j Hj. rewrite (Up _ m_parent) by reflexivity. auto.
  - intros j u b I. rewrite (Up _ m_parent) by reflexivity. eauto.
  - intros j e Hj. rewrite (Up _ m_exc) by reflexivity. apply (B_exc0 j e Hj).
  - intros j u b e C F. rewrite (Up _ m_rem), (Up _ m_exc) by reflexivity. destruct (B_all0 j u b e C F) as [Q|[[d Q]|Q]]; auto. right. right.
    assert (j = i /\ u = u0) as [-> ->] by (split; congruence). now apply Fe.
  - intro j. rewrite (Up _ m_exc) by reflexivity. auto.
  - intros j u e C F. rewrite (Up _ m_rem) by reflexivity. destruct (B_failed0 j u e C F) as [Q|[Q|Q]]; auto; right; right; unfold upd.
    + assert (j = i) as -> by congruence. now rewrite Nat.eqb_refl.
    + destruct (Nat.eqb_spec j i); [reflexivity|exact Q].
  - intros j u. unfold upd. destruct (Nat.eqb_spec j i) as [->|]; [discriminate|apply B_canc2].
  - intros j u b Hj Cj I. rewrite (Up _ m_rem) in I by reflexivity. unfold upd in Cj. destruct (Nat.eqb_spec j i) as [->|Nj].
    + right. exists l. split; [unfold active; cbn; destruct Hc as [-> | ->]; auto|]. unfold l. apply map_fst_in. eauto.
    + destruct (B_canc3 j u b Hj Cj I) as [Q|(l' & A & Iu)]; [auto|]. right. exists l'. split; [|exact Iu].
      destruct A as [A|[A|A]]; [congruence|congruence|]. right. right. exact A.
  - intros j l' A. assert (D : active x j l' \/ j = i /\ l' = l).
    { destruct A as [A|[A|A]]; [right|right|left; right; right; exact A]; cbn in A; destruct Hc as [-> | ->]; try discriminate; split; congruence. }
    destruct D as [D|[-> ->]].
    + destruct (B_todo0 j l' D) as (D1 & D2 & D3). split; [exact D1|]. split; [exact D2|]. unfold upd. destruct (Nat.eqb_spec j i); [reflexivity|exact D3].
    + split; [apply (A_nd x M)|]. split; [intros u _; now apply B_canc2|]. now rewrite upd_same.
Qed.

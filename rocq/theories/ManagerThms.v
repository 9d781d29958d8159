(** From the invariants of TaskManager to what is claimed about it. *)
From Verif Require Import Base KernelModel KernelProofs KernelHist KernelLog KernelInv KernelTask KernelWake KernelLayer KernelStack
  LayerProofs ManagerModel ManagerSpec ManagerInv ManagerInv2 ManagerInv3 ManagerInv4 ManagerInv5 ManagerInv6.
From Coq Require Import Arith.

Lemma mreach_on ls x l y r : mreach ls x -> mstep x l = Some (y, r) -> MI x /\ MC x.
Proof. intros R St. destruct (mstep_on _ _ _ _ St) as [_ He]. destruct (mreach_inv ls x R) as [E|Q]; [congruence|exact Q]. Qed.
Lemma in_exit_top x t : in_exit x t -> on_top t (s_ctl (x_k x)).
Proof. intros (_ & _ & Q). exact Q. Qed.
Lemma in_exit_one x t u : in_exit x t -> in_exit x u -> t = u.
Proof. intros A B. apply (top_unique t u (s_ctl (x_k x))); now apply in_exit_top. Qed.

(** A manager without remaining Tasks. *)
Lemma rem_done x i : MI x -> m_rem (x_m x i) = [] -> all_done x i.
Proof.
  intros M E u b C. destruct (done (x_k x) u) eqn:D; [reflexivity|]. assert (I : In (u, b) (m_rem (x_m x i))).
  { apply (A_rem x M). split; [exact C|]. left. now left. }
  rewrite E in I. destruct I.
Qed.
Lemma lists_in es l e : lists es l = true -> (In e es <-> In e l).
Proof.
  unfold lists. rewrite !andb_true_iff. intros [[[_ A] B] _]. rewrite forallb_forall in A, B.
  split; intro I; [apply A in I|apply B in I]; now apply exc_in.
Qed.
Lemma nodup_exc_ok es : nodup_exc es = true -> NoDup es.
Proof.
  induction es as [|e es IH]; cbn; [constructor|]. rewrite andb_true_iff, negb_true_iff. intros [A B]. constructor; [|auto].
  intro I. apply exc_in in I. congruence.
Qed.
Lemma lists_nodup es l : lists es l = true -> NoDup es.
Proof. unfold lists. rewrite !andb_true_iff. intros [_ A]. now apply nodup_exc_ok. Qed.
Lemma final_in m o e : In e (final_exc m o) <-> In e (m_exc m) \/ o = Some e /\ (forall n, e <> ECancelled n).
Proof.
  unfold final_exc. destruct o as [[n| | | | |]|]; try rewrite add_exc_in;
    (split; [intro Q; try destruct Q as [->|Q]; auto; right; split; congruence|intros [I|[E N]]; auto]); try discriminate;
    try (injection E as <-; auto).
  now destruct (N n).
Qed.

(** Where [__aexit__] is when it is left. *)
Definition left_at (x : mst) (t : tid) (p : stage) (r : mres) : Prop :=
  match r with
  | TOk => exists i o, p = AWait i o /\ m_rem (x_m x i) = [] /\ final_exc (x_m x i) o = []
  | TGroup es => exists i o, p = AWait i o /\ m_rem (x_m x i) = [] /\ lists es (final_exc (x_m x i) o) = true /\ final_exc (x_m x i) o <> []
  | TReraise e => (exists i, p = ACancel i [] (NReraise e)) \/ (exists i, p = ANull i) \/
      exists i m, p = ATest i m /\ e = ECancelled m /\ m_rem (x_m x i) = []
  | _ => True
  end.
Lemma suspend_res x rest t tr p : leaves (snd (suspend x rest t tr p)) = false.
Proof. unfold suspend. destruct (await_trigger _ _ _ _ _) as [k []]; reflexivity. Qed.
Lemma uncancel_res x t i p : leaves (snd (uncancel_parent x t i p)) = false.
Proof. unfold uncancel_parent. destruct (m_parent _); reflexivity. Qed.
Lemma callback_res x c : leaves (snd (callback_step x c)) = false.
Proof.
  destruct c as [i u|i u b|i l|i [|u l]]; cbn [callback_step]; try reflexivity.
  - destruct (find_rem _ _); reflexivity.
  - destruct (py_cancelled _ _); [reflexivity|]. destruct (py_exception _ _); try reflexivity. destruct (_ || _); reflexivity.
  - destruct (m_parent _); [|reflexivity]. destruct (cancel _ _ _) as [k []]; reflexivity.
  - destruct (cancel_one _ _ _) as [y []]; reflexivity.
Qed.
Lemma enter_res x t i : leaves (snd (manager_enter x t i)) = false.
Proof. unfold manager_enter. cbv zeta. destruct (m_fin _); [reflexivity|]. destruct (s_current _); reflexivity. Qed.
Lemma start_res x i u b : leaves (snd (manager_start x i u b)) = false.
Proof.
  unfold manager_start. cbv zeta. destruct (m_canc (x_m x i)); [reflexivity|]. destruct (m_fin (x_m x i)); [reflexivity|].
  destruct (negb (m_entered (x_m x i))); [reflexivity|].
  destruct (s_current (x_k x)), (m_parent (x_m x i)); try reflexivity. destruct (negb (Nat.eqb _ _)); [reflexivity|].
  destruct (start_soon _ _) as [k []]; reflexivity.
Qed.
Lemma exit_res x rest t i lv : leaves (snd (begin_exit x rest t i lv)) = false.
Proof.
  unfold begin_exit. cbv zeta. destruct lv as [|[]|]; repeat match goal with |- context[if ?b then _ else _] => destruct b end;
    rewrite ?suspend_res, ?uncancel_res; reflexivity.
Qed.
Lemma go_cancel_res x t i l n y r : go_cancel x t i l n = (y, r) -> leaves r = true -> exists e, l = [] /\ n = NReraise e /\ r = TReraise e.
Proof.
  unfold go_cancel. destruct l as [|u l].
  - destruct n as [e| |m|e]; intros E L.
    + injection E as <- <-. eauto.
    + injection E as <- <-. discriminate.
    + pose proof (uncancel_res x t i (ATest i m)) as Q. rewrite E in Q. cbn in Q. congruence.
    + injection E as <- <-. discriminate.
  - destruct (cancel_one _ _ _) as [z []]; intros E L; injection E as <- <-; discriminate.
Qed.
Lemma conclude_res x t i o es y r : conclude x t i o es = Some (y, r) ->
  match r with
  | TOk => final_exc (x_m x i) o = []
  | TGroup l => lists l (final_exc (x_m x i) o) = true /\ final_exc (x_m x i) o <> []
  | _ => False
  end.
Proof.
  unfold conclude. cbv zeta. destruct (final_exc (x_m x i) o) as [|e l] eqn:F, es as [es|]; try discriminate.
  - intro E. injection E as _ <-. reflexivity.
  - destruct (lists es (e :: l)) eqn:Li; [|discriminate]. intro E. injection E as _ <-. split; [exact Li|discriminate].
Qed.
Lemma leave_step x l y r : MI x -> mstep x l = Some (y, r) -> leaves r = true ->
  exists t p, x_cb x = None /\ on_top t (s_ctl (x_k x)) /\ x_pend x t = Some p /\ left_at x t p r.
Proof.
  intros M St L. destruct (mstep_on _ _ _ _ St) as [Ha He]. unfold mstep in St. rewrite Ha, He in St. cbn [orb] in St.
  assert (No : forall q, Some q = Some (y, r) -> leaves (snd q) = false -> False) by (intros q E F; injection E as ->; cbn in F; congruence).
  assert (Lib : forall es, lib_step x es = Some (y, r) ->
    exists t p, x_cb x = None /\ on_top t (s_ctl (x_k x)) /\ x_pend x t = Some p /\ left_at x t p r).
  { intros es E. unfold lib_step in E. destruct (x_cb x) as [c|].
    { destruct es; [discriminate|]. elim (No _ E). apply callback_res. }
    destruct (s_ctl (x_k x)) as [|[t|t|u j a] rest] eqn:Ec; [discriminate| | |].
    - destruct (x_pend x t) as [p|] eqn:Ep; [|discriminate]. exists t, p. split; [reflexivity|]. split; [exists rest; now left|].
      split; [exact Ep|]. unfold run_step in E. cbv zeta in E.
      assert (W : forall i, waits_on p = Some i -> got (x_k x) t (m_rem (x_m x i) = [])).
      { intros i Wi. apply (waiting_top _ _ _ _ _ (A_k x M) Ec (A_wait x M t p i Ep Wi)). }
      destruct (A_pend x M t p Ep) as [Hn _]. unfold got in W.
      destruct p as [i todo n|i|i m|i m|i o|i o]; cbn [waits_on inst_of] in *.
      + destruct es; [discriminate|]. injection E as E. destruct (go_cancel_res _ _ _ _ _ _ _ E L) as (e & -> & -> & ->). left. eauto.
      + destruct (k_exc _) as [e|], es; try discriminate; injection E as _ <-; [|discriminate]. right. left. eauto.
      + destruct es; [discriminate|]. destruct (s_event (x_k x) (private i)) eqn:Ev.
        * injection E as _ <-. right. right. exists i, m. repeat split. now apply (A_ev x M i Hn).
        * elim (No _ E). apply suspend_res.
      + specialize (W i eq_refl). destruct (k_exc _) as [[]|], es; try discriminate; try contradiction.
        * elim (No _ E). apply uncancel_res.
        * injection E as _ <-. discriminate.
      + destruct es; [discriminate|]. elim (No _ E). apply suspend_res.
      + specialize (W i eq_refl). destruct (k_exc _) as [[]|]; try contradiction.
        * destruct es; [discriminate|]. injection E as _ <-. discriminate.
        * apply conclude_res in E. destruct r; try contradiction; cbn [left_at]; exists i, o; tauto.
    - destruct (x_pend x t) as [p|] eqn:Ep; [|discriminate]. destruct es; [discriminate|]. exists t, p. split; [reflexivity|].
      split; [exists rest; now right|]. split; [exact Ep|]. injection E as E. unfold close_step in E.
      destruct p as [i todo n|i|i m|i m|i o|i o]; try (injection E as _ <-; discriminate).
      destruct (go_cancel_res _ _ _ _ _ _ _ E L) as (e & -> & -> & ->). left. eauto.
    - destruct (nth_error _ j); [|discriminate]. destruct es; [discriminate|]. destruct (Nat.even _); [discriminate|].
      destruct (step _ _) as [[k q]|]; [|discriminate]. injection E as _ <-. discriminate. }
  destruct l as [kl|d c|i u b|i|lv| |es].
  - destruct (user_can x kl && user_label kl); [|discriminate]. destruct (step _ _) as [[k q]|]; [|discriminate]. injection St as _ <-. discriminate.
  - destruct (user_control x); [|discriminate]. injection St as _ <-. discriminate.
  - destruct (_ && _); [|discriminate]. elim (No _ St). apply start_res.
  - destruct (s_ctl (x_k x)) as [|[t|t|u j a] rest]; try discriminate. destruct (_ && _); [|discriminate]. elim (No _ St). apply enter_res.
  - destruct (user_control x); [|discriminate].
    destruct (s_ctl (x_k x)) as [|[t|t|u j a] rest]; destruct lv; try discriminate; destruct (x_in x t); try discriminate;
      elim (No _ St); apply exit_res.
  - apply (Lib _ St).
  - apply (Lib _ St).
Qed.

(** The same in terms of the history. *)
Lemma leave_ok ls x l y r t i lv c : mreach ls x -> mstep x l = Some (y, r) -> leaves r = true -> in_exit x t ->
  last_exit t (x_hist x) = Some (i, lv, c) ->
  exists p, inst_of p = i /\ x_pend x t = Some p /\ stage_ok p lv c (thrown_since t (x_hist x)) /\ left_at x t p r.
Proof.
  intros R St L In Le. destruct (mreach_on _ _ _ _ _ R St) as [M B]. destruct (leave_step _ _ _ _ M St L) as (u & p & Ecb & T & Ep & At).
  assert (u = t) as -> by (apply (top_unique u t _ T); now apply in_exit_top). exists p.
  destruct (B_pend x B t p Ep) as (lv' & c' & Le' & Ok). rewrite Le in Le'. injection Le' as E <- <-. auto.
Qed.
Lemma in_exit_last ls x t : mreach ls x -> x_esc x = false -> in_exit x t -> exists i lv c, last_exit t (x_hist x) = Some (i, lv, c).
Proof.
  intros R He (_ & P & _). destruct (mreach_inv ls x R) as [E|[M B]]; [congruence|]. destruct (x_pend x t) as [p|] eqn:Ep; [|congruence].
  destruct (B_pend x B t p Ep) as (lv & c & E & _). eauto.
Qed.
Lemma left_rem ls x l y r t i lv c : mreach ls x -> mstep x l = Some (y, r) -> leaves r = true -> in_exit x t ->
  last_exit t (x_hist x) = Some (i, lv, c) -> regular lv c -> m_rem (x_m x i) = [].
Proof.
  intros R St L In Le Rg. destruct (leave_ok _ _ _ _ _ _ _ _ _ R St L In Le) as (p & Ei & _ & Ok & At).
  destruct r; try discriminate; cbn [left_at] in At.
  - destruct At as (j & o & -> & E & _). cbn in Ei. now subst.
  - destruct At as (j & o & -> & E & _). cbn in Ei. now subst.
  - destruct At as [[j ->]|[[j ->]|(j & m & -> & _ & E)]]; cbn in Ei, Ok.
    + destruct Ok as (n & -> & ->). destruct Rg.
    + exfalso. destruct Ok as [-> [->|(e' & -> & Pl)]]; cbn in Rg; [discriminate|]. unfold plain in Pl. destruct e'; cbn in *; try discriminate; contradiction.
    + now subst.
Qed.

(** All exceptions of a finished manager's children are recorded. *)
Lemma failed_in x i e : MI x -> MC x -> m_rem (x_m x i) = [] -> x_cb x = None -> child_failed x i e -> In e (m_exc (x_m x i)).
Proof.
  intros M B Er Ec (u & b & C & F). destruct (B_all x B i u b e C F) as [I|[(c & E)|I]]; [rewrite Er in I; destruct I|congruence|exact I].
Qed.
Lemma exit_lt x t i lv c : MC x -> last_exit t (x_hist x) = Some (i, lv, c) -> In (HExit t i lv c) (x_hist x).
Proof.
  intros _. induction (x_hist x) as [|h hs IH]; cbn; [discriminate|]. destruct h; try (intro E; right; now apply IH).
  destruct (Nat.eqb_spec t0 t) as [->|]; [intro E; injection E as -> -> ->; now left|intro E; right; now apply IH].
Qed.

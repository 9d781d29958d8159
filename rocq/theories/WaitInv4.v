(** Every step keeps the invariant of [_wait]: waiting, and the done callback. *)
From Verif Require Import Base KernelModel KernelProofs KernelHist KernelLog KernelInv KernelTask KernelWake KernelLayer KernelStack
  WaitModel WaitSpec WaitInv WaitInv2 WaitInv3.
From Coq Require Import Arith.

(** * [await complete] *)
Lemma complete_ok x rest t i : WI x -> s_halt (y_k x) = false -> y_pend x t = Some (SAdd i []) -> s_ctl (y_k x) = FRun t :: rest ->
  exists k, await_trigger (y_k x) rest t (TInternal (private i)) true = (k, RUnit) /\ WI (set_pend (set_k x k) t (Some (SWait i))).
Proof.
  intros W Ha Ep Ec. destruct (start_facts x t _ W Ep eq_refl) as (Un & Nd & Cb).
  destruct (I_start x W t _ Ep eq_refl) as (_ & _ & _ & _ & _ & Ev). destruct (Ev i eq_refl) as (Ei & _ & Cn). clear Ev.
  destruct (I_inst x W t _ i Ep eq_refl) as (Hi & Hp & Hc).
  assert (Cbs : s_cbs (y_k x) (TInternal (private i)) = []).
  { destruct (s_cbs (y_k x) (TInternal (private i))) as [|[h u] q] eqn:E; [reflexivity|]. exfalso.
    assert (Pu : y_pend x u = Some (SWait i)) by (apply (I_cbs x W i h u Hi); rewrite E; now left).
    destruct (I_inst x W u _ i Pu eq_refl) as (_ & Q & _). congruence. }
  destruct (await_internal_raw (y_k x) t rest (private i) Ei Cbs) as (Er & Fi & Fo & To & Co & Cs).
  pose proof (await_step (y_k x) t rest (TInternal (private i)) true Ha Ec) as St.
  destruct (await_trigger (y_k x) rest t (TInternal (private i)) true) as [k r]. cbn [fst snd] in *. subst r. exists k. split; [reflexivity|].
  set (k0 := y_k x) in *. pose proof (I_k x W) as H0. fold k0 in H0.
  destruct (inv_step k0 (LAwait (TInternal (private i)) true) k _ H0 eq_refl St) as (H1 & Sb & _).
  assert (Dc : forall v, k_dcbs (s_task k v) = k_dcbs (s_task k0 v)).
  { intro v. destruct (tstep_dcbs _ _ _ _ (step_tstep _ _ _ _ v H0 St)) as [E|(c & E & _)]; [exact E|discriminate]. }
  assert (Nm : forall j, j <> i -> ~ imentions (private j) (LAwait (TInternal (private i)) true)).
  { intros j N [Q|[ok Q]]; [discriminate|]. apply N. symmetry. apply private_inj. congruence. }
  assert (Pj : forall u j, y_pend x u = Some (SWait j) -> j <> i).
  { intros u j E ->. destruct (I_inst x W u _ i E eq_refl) as (_ & Q & _). congruence. }
  destruct (step_log _ _ _ _ St) as [new Lg].
  assert (P : forall u, u <> t -> upd (y_pend x) t (Some (SWait i)) u = y_pend x u) by (intros; now apply upd_other).
  assert (TI : forall j, j <> i -> TInternal (private j) <> TInternal (private i)).
  { intros j N Q. apply N. apply private_inj. congruence. }
  constructor; cbn [set_pend set_k y_k y_w y_n y_pend y_cb y_hist].
  - exact H1.
  - apply (step_cur k0 _ k _ (I_cur x W) St).
  - intros j Hj. assert (j <> i) by lia. destruct (I_new x W j Hj) as [A B]. fold k0 in A, B. rewrite Fo, Co; auto.
    intro Q. apply private_inj in Q. contradiction.
  - intro v. rewrite Dc. apply (I_dcb x W v).
  - intros j v Hj Iv. rewrite Dc. destruct (I_pos x W j v Hj Iv) as [A|(a & p & Ea & _ & Ib)]; [now left|]. exfalso.
    destruct (Un a p Ea (bare_starting p v Ib)) as [_ ->]. destruct Ib.
  - intros v p Ev Es. exfalso. destruct (Nat.eq_dec v t) as [->|N].
    + rewrite upd_same in Ev. injection Ev as <-. discriminate.
    + rewrite P in Ev by assumption. destruct (Un v p Ev Es). contradiction.
  - intros v p j Ev Ej. destruct (Nat.eq_dec v t) as [->|N].
    + rewrite upd_same in Ev. injection Ev as <-. injection Ej as <-. auto.
    + rewrite P in Ev by assumption. apply (I_inst x W v p j Ev Ej).
  - apply (I_rem x W).
  - intros j v Hj Iv Nv. apply (stable_done k0 k v Sb). apply (I_out x W j v Hj Iv Nv).
  - intros j v Hj Iv D. right. split; [exact Cb|]. apply (step_ends k0 _ k _ v H0 St (Nd j v Hj Iv) D).
  - intros j v a Hj Iv Ia. destruct (step_zero _ _ _ _ v a H0 St Ia) as [Iz|D]; [apply (I_zero x W j v a Hj Iv Iz)|].
    destruct (in_dec Nat.eq_dec v (w_rem (y_w x j))) as [J|J]; [exact J|]. pose proof (I_out x W j v Hj Iv J) as D1. fold k0 in D1. congruence.
  - intros j Hj. pose proof (I_fired x W j Hj) as F. fold k0 in F. destruct (Nat.eq_dec j i) as [->|N].
    + rewrite Fi. rewrite Ei in F. exact F.
    + rewrite Fo; [exact F|]. intro Q. apply private_inj in Q. contradiction.
  - intros j h v Hj Iv. destruct (Nat.eq_dec j i) as [->|N].
    + destruct Cs as [(_ & E & _)|(_ & _ & _ & h' & E)]; rewrite E in Iv; [destruct Iv|]. destruct Iv as [Q|[]]. injection Q as _ <-. apply upd_same.
    + rewrite Co in Iv by (apply TI, N). pose proof (I_cbs x W j h v Hj Iv) as Q. rewrite P; [exact Q|]. intros ->. congruence.
  - intros v j Ev. destruct (Nat.eq_dec v t) as [->|N].
    + rewrite upd_same in Ev. injection Ev as <-. unfold waits_ok. cbn [set_pend set_k y_k].
      destruct Cs as [(_ & _ & E & _)|(_ & _ & _ & h & E)].
      * right. right. right. right. rewrite E. now left.
      * right. left. exists h. rewrite E. now left.
    + rewrite P in Ev by assumption. refine (waits_step x (LAwait (TInternal (private i)) true) k _ v j W St eq_refl (Nm j (Pj v j Ev)) _ Ev). right.
      fold k0. rewrite Ec. intros [q [Q|Q]]; congruence.
  - intros j v. rewrite Cb. split; discriminate.
  - intros j v s o Hj Ef Iv Nv L. rewrite Lg in L. apply in_app_or in L. destruct L as [L|L].
    + exfalso. apply (done_once k0 k new v s o H0 H1 Lg); [|exact L]. apply (I_out x W j v Hj Iv Nv).
    + apply (I_none x W j v s o Hj Ef Iv Nv L).
  - intros j v Hj Ef. destruct (I_some x W j v Hj Ef) as [D C]. split; [|exact C]. rewrite Lg. apply log_grow, D.
  - intros v j Ev. destruct (Nat.eq_dec v t) as [->|N].
    + rewrite upd_same in Ev. injection Ev as <-. rewrite Cn. discriminate.
    + rewrite P in Ev by assumption. apply (I_canc x W v j Ev).
Qed.

(** * The done callback *)
Lemma without_in u v l : In v (without u l) <-> In v l /\ v <> u.
Proof.
  unfold without. rewrite filter_In, negb_true_iff, Nat.eqb_neq. reflexivity.
Qed.
Lemma ievent_facts k i : Inv k -> s_halt k = false ->
  let k' := ievent_set k i in
  Inv k' /\ step k (LOp (OpISet i)) = Some (k', RUnit) /\ s_ctl k' = s_ctl k /\ s_current k' = s_current k /\
  i_fired (s_ievent k' i) = true /\ (forall j, j <> i -> s_ievent k' j = s_ievent k j) /\
  s_cbs k' (TInternal i) = [] /\ (forall tr, tr <> TInternal i -> s_cbs k' tr = s_cbs k tr) /\
  (forall v, (~ In v (map snd (s_cbs k (TInternal i))) /\ s_task k' v = s_task k v) \/
    (In v (map snd (s_cbs k (TInternal i))) /\ exists h, s_task k' v = with_sched (s_task k v) h None)).
Proof.
  intros H Ha. cbv zeta. assert (St : step k (LOp (OpISet i)) = Some (ievent_set k i, RUnit)) by (apply op_step, Ha).
  split; [apply (inv_step k (LOp (OpISet i)) _ _ H Logic.I St)|]. split; [exact St|]. unfold ievent_set. rewrite react_ctl, react_current, react_ievent, react_cbs.
  cbn [set_ievent s_ctl s_current s_ievent s_cbs]. split; [reflexivity|]. split; [reflexivity|]. rewrite upd_same. split; [reflexivity|].
  split; [intros; now apply upd_other|]. split; [apply updt_same|]. split; [intros; now apply updt_other|].
  intro v. apply (react_task (set_ievent k i (IEvent true (i_awaited (s_ievent k i)))) (TInternal i) v).
Qed.

Lemma cbstart_gen x i u k' : WI x -> s_halt (y_k x) = false -> y_cb x = Some (CbStart i u) ->
  let w := y_w x i in let w' := Winst (w_call w) (w_parent w) (w_tasks w) (without u (w_rem w)) (w_first w) (w_canc w) in
  (k' = y_k x /\ w_rem w' <> []) \/ (k' = ievent_set (y_k x) (private i) /\ w_rem w' = []) ->
  WI (set_k (set_cb (set_w x i w') (Some (CbCheck i u))) k').
Proof.
  cbv zeta. intros W Ha Cb. set (w := y_w x i). set (w' := Winst _ _ _ _ _ _). intros A.
  destruct (I_cb x W i u) as [Q _]. destruct (Q Cb) as (Hi & Iu & Du & a & rest & Ec). clear Q. fold w in Iu.
  set (k0 := y_k x) in *. pose proof (I_k x W) as H0. fold k0 in H0.
  assert (Ir : forall v, In v (w_rem w') <-> In v (w_rem w) /\ v <> u) by (intro v; apply without_in).
  assert (F : Inv k' /\ cur_ok k' /\ s_ctl k' = s_ctl k0 /\ (exists new, s_log k' = new ++ s_log k0) /\
    (i_fired (s_ievent k' (private i)) = true <-> w_rem w' = []) /\ (forall j, j <> i -> s_ievent k' (private j) = s_ievent k0 (private j)) /\
    (forall h v, In (h, v) (s_cbs k' (TInternal (private i))) -> In (h, v) (s_cbs k0 (TInternal (private i)))) /\
    (forall j, j <> i -> s_cbs k' (TInternal (private j)) = s_cbs k0 (TInternal (private j))) /\
    (forall v, s_task k' v = s_task k0 v \/ w_rem w' = [] /\ (exists h, s_task k' v = with_sched (s_task k0 v) h None) /\
      (exists h, In (h, v) (s_cbs k0 (TInternal (private i))))) /\
    (forall v, (exists h, In (h, v) (s_cbs k0 (TInternal (private i)))) -> (exists h, In (h, v) (s_cbs k' (TInternal (private i)))) \/
      (exists h, s_task k' v = with_sched (s_task k0 v) h None) /\ w_rem w' = [])).
  { destruct A as [[-> Ne]|[-> Em]].
    - split; [exact H0|]. split; [apply (I_cur x W)|]. split; [reflexivity|]. split; [now exists []|].
      split; [|split; [reflexivity|split; [auto|split; [reflexivity|split; [now left|now left]]]]].
      split; [|contradiction]. intro E. exfalso. apply (I_fired x W i Hi) in E. fold w in E. rewrite E in Iu. destruct Iu.
    - destruct (ievent_facts k0 (private i) H0 Ha) as (H1 & St & E1 & E2 & E3 & E4 & E5 & E6 & E7).
      split; [exact H1|]. split; [apply (step_cur k0 _ _ _ (I_cur x W) St)|]. split; [exact E1|]. split; [apply (step_log _ _ _ _ St)|].
      split; [tauto|]. split; [|split; [|split; [|split]]].
      + intros j N. apply E4. intro Q. now apply private_inj in Q.
      + rewrite E5. intros h v [].
      + intros j N. apply E6. intro Q. apply N, private_inj. congruence.
      + intro v. destruct (E7 v) as [[_ E]|[I E]]; [now left|]. right. split; [exact Em|]. split; [exact E|].
        apply in_map_iff in I. destruct I as ([h y] & <- & I). now exists h.
      + intros v [h I]. right. split; [|exact Em]. destruct (E7 v) as [[N _]|[_ E]]; [|exact E]. elim N. apply in_map_iff. exists (h, v). auto. }
  destruct F as (H1 & C1 & Ct & [new Lg] & Fi & Fo & Ci & Co & Tk & Wk). clear A.
  assert (Pd : forall h v, In (h, v) (s_cbs k0 (TInternal (private i))) -> state_of k0 v = Pending).
  { intros h v I. destruct (L_cpend _ _ (J_loc _ _ H0) _ _ _ I) as (_ & E & _). exact E. }
  assert (Dn : forall v, done k' v = done k0 v).
  { intro v. unfold done, state_of. destruct (Tk v) as [-> |(_ & [h ->] & [h' I])]; [reflexivity|]. apply Pd in I. unfold state_of in I. rewrite I. reflexivity. }
  assert (Dc : forall v, k_dcbs (s_task k' v) = k_dcbs (s_task k0 v)).
  { intro v. destruct (Tk v) as [-> |(_ & [h ->] & _)]; reflexivity. }
  assert (Ns : forall v p, y_pend x v = Some p -> starting p = false) by (apply (no_start x W); left; congruence).
  assert (O : forall j, j <> i -> upd (y_w x) i w' j = y_w x j) by (intros; now apply upd_other).
  assert (S : forall j, w_call (upd (y_w x) i w' j) = w_call (y_w x j) /\ w_parent (upd (y_w x) i w' j) = w_parent (y_w x j) /\
    w_tasks (upd (y_w x) i w' j) = w_tasks (y_w x j) /\ w_first (upd (y_w x) i w' j) = w_first (y_w x j) /\
    w_canc (upd (y_w x) i w' j) = w_canc (y_w x j) /\ (forall v, In v (w_rem (upd (y_w x) i w' j)) <-> In v (w_rem (y_w x j)) /\ (j = i -> v <> u))).
  { intro j. destruct (Nat.eq_dec j i) as [->|N].
    - rewrite upd_same. repeat (split; [reflexivity|]). intro v. rewrite Ir. fold w. split; [intros [? ?]; auto|intros [B C]; auto].
    - rewrite O by assumption. repeat (split; [reflexivity|]). intro v. split; [intro; split; [auto|contradiction]|tauto]. }
  constructor; cbn [set_k set_cb set_w y_k y_w y_n y_pend y_cb y_hist].
  - exact H1.
  - exact C1.
  - intros j Hj. assert (j <> i) by lia. rewrite Fo, Co by assumption. apply (I_new x W j Hj).
  - intro v. rewrite Dc. destruct (I_dcb x W v) as [E|(j & ds & E & Ev & Hj & Iv)]; [now left|]. right. exists j, ds. destruct (S j) as (_ & _ & -> & _). auto.
  - intros j v Hj Iv. rewrite Dc. destruct (S j) as (_ & _ & E & _). rewrite E in Iv. apply (I_pos x W j v Hj Iv).
  - intros v p Ev Es. rewrite (Ns v p Ev) in Es. discriminate.
  - intros v p j Ev Ej. destruct (S j) as (-> & -> & -> & _). apply (I_inst x W v p j Ev Ej).
  - intros j Hj. destruct (I_rem x W j Hj) as [B C]. destruct (S j) as (_ & _ & -> & _ & _ & E). split; [exact B|]. intros v Iv. apply C. apply E in Iv. tauto.
  - intros j v Hj Iv Nv. rewrite Dn. destruct (S j) as (_ & _ & E & _ & _ & E'). rewrite E in Iv. rewrite E' in Nv.
    destruct (Nat.eq_dec v u) as [->|N]; [exact Du|]. apply (I_out x W j v Hj Iv). intro B. apply Nv. auto.
  - intros j v Hj Iv D. exfalso. rewrite Dn in D. destruct (S j) as (_ & _ & _ & _ & _ & E'). apply E' in Iv. destruct Iv as [Iv Nv].
    destruct (I_in x W j v Hj Iv D) as [B|(B & _)]; [|congruence]. rewrite Cb in B. injection B as -> ->. now elim Nv.
  - intros j v b Hj Iv Ib. rewrite Ct in Ib. destruct (S j) as (_ & _ & E & _ & _ & E'). rewrite E in Iv. apply E'. split; [apply (I_zero x W j v b Hj Iv Ib)|].
    intros _ ->. rewrite Ec in Ib. destruct Ib as [Ib|Ib]; [discriminate|]. pose proof (D_find _ (J_dn _ _ H0)) as Df. rewrite Ec in Df. cbn in Df.
    apply NoDup_cons_iff in Df. destruct Df as [Df _]. apply Df. unfold finishers. apply in_flat_map. exists (FDone u 0 b). split; [exact Ib|now left].
  - intros j Hj. destruct (Nat.eq_dec j i) as [->|N].
    + rewrite upd_same. exact Fi.
    + rewrite Fo, O by assumption. apply (I_fired x W j Hj).
  - intros j h v Hj Iv. apply (I_cbs x W j h v Hj). fold k0. destruct (Nat.eq_dec j i) as [->|N]; [apply Ci, Iv|]. now rewrite Co in Iv by assumption.
  - intros v j Ev. unfold waits_ok. cbn [set_k set_cb set_w y_k y_w]. rewrite Ct, Dn.
    assert (Sm : forall e : option exc, (e = None -> w_rem (y_w x j) = []) -> e = None -> w_rem (upd (y_w x) i w' j) = []).
    { intros e B C. specialize (B C). destruct (S j) as (_ & _ & _ & _ & _ & E'). destruct (w_rem (upd (y_w x) i w' j)) as [|y q] eqn:G; [reflexivity|]. exfalso.
      assert (Iy : In y (w_rem (y_w x j))) by (apply E'; now left). rewrite B in Iy. destruct Iy. }
    assert (Tv : s_task k' v = s_task k0 v \/ (w_rem w' = [] /\ (exists h, s_task k' v = with_sched (s_task k0 v) h None) /\ j = i)).
    { destruct (Tk v) as [E|(B & C & h & I)]; [now left|]. right. split; [exact B|]. split; [exact C|]. pose proof (I_cbs x W i h v Hi I) as E. congruence. }
    destruct Tv as [Tv|(Em & [h Tv] & ->)].
    + unfold state_of. rewrite Tv. destruct (I_wait x W v j Ev) as [D|[[h I]|[[Sc Rd]|[[Fr' Rd]|Fc]]]]; cbv zeta in *.
      * now left.
      * right. destruct (Nat.eq_dec j i) as [->|N].
        -- destruct (Wk v (ex_intro _ h I)) as [B|([h' B] & Em)]; [now left|]. right. left. split; [|rewrite upd_same; auto].
           rewrite Tv in B. rewrite B. reflexivity.
        -- left. exists h. now rewrite Co.
      * right. right. left. split; [exact Sc|]. apply Sm, Rd.
      * right. right. right. left. split; [exact Fr'|]. apply Sm, Rd.
      * right. right. right. right. exact Fc.
    + right. right. left. unfold state_of. rewrite Tv. split; [reflexivity|]. intros _. rewrite upd_same. exact Em.
  - intros j v. split; [discriminate|]. intro E. injection E as <- <-. destruct (S i) as (_ & _ & -> & _ & _ & E'). split; [exact Hi|].
    split; [apply (proj2 (I_rem x W i Hi) u Iu)|]. intro B. apply E' in B. now apply B.
  - intros j v s o Hj Ef Iv Nv L. destruct (S j) as (E1 & _ & E2 & E3 & _ & E'). rewrite E1. rewrite E3 in Ef. rewrite E2 in Iv. rewrite E' in Nv.
    rewrite Lg in L. apply in_app_or in L. destruct (in_dec Nat.eq_dec v (w_rem (y_w x j))) as [J|J].
    + left. destruct (Nat.eq_dec j i) as [->|Nj]; [|exfalso; apply Nv; split; [exact J|contradiction]].
      destruct (Nat.eq_dec v u) as [->|Nu]; [reflexivity|]. exfalso. apply Nv. auto.
    + right. destruct L as [L|L].
      * exfalso. apply (done_once k0 k' new v s o H0 H1 Lg); [|exact L]. apply (I_out x W j v Hj Iv J).
      * destruct (I_none x W j v s o Hj Ef Iv J L) as [B|B]; [congruence|exact B].
  - intros j v Hj Ef. destruct (S j) as (-> & _ & -> & E3 & -> & _). rewrite E3 in Ef. destruct (I_some x W j v Hj Ef) as [D C]. split; [|exact C].
    rewrite Lg. apply log_grow, D.
  - intros v j Ev Cj y Iy. destruct (S j) as (_ & _ & _ & _ & E & E'). rewrite E in Cj. apply E' in Iy. left.
    destruct (I_canc x W v j Ev Cj y (proj1 Iy)) as [B|(us & B & _)]; [exact B|congruence].
Qed.

Lemma first_decides k w u : Inv k -> done k u = true -> w_first w = None ->
  is_first k w u = decides (when_of (w_call w)) (state_of k u).
Proof.
  intros H D N. unfold is_first, decides. rewrite N. destruct (when_of (w_call w)); auto.
  destruct (D_out _ (J_dn _ _ H) u D) as (o & E & F). unfold py_cancelled, py_exception, done in *. rewrite E.
  destruct (state_of k u); try discriminate; cbn in F |- *; auto. destruct o; [destruct F|reflexivity].
Qed.

Lemma check_ok x i u : WI x -> y_cb x = Some (CbCheck i u) -> WI (fst (callback_step x (CbCheck i u))).
Proof.
  intros W Cb. destruct (I_cb x W i u) as [_ Q]. destruct (Q Cb) as (Hi & Iu & Nu). clear Q. pose proof (I_k x W) as H0.
  assert (Du := I_out x W i u Hi Iu Nu).
  assert (Nd := no_done_cb x _ W Cb (fun i u => ltac:(discriminate))).
  assert (Ns : forall v p, y_pend x v = Some p -> starting p = false) by (apply (no_start x W); left; congruence).
  assert (Hc : forall t j, y_pend x t = Some (SWait j) -> w_canc (y_w x j) = true -> forall v, In v (w_rem (y_w x j)) -> In (HCancel v) (y_hist x)).
  { intros t j Et Ct v Iv. destruct (I_canc x W t j Et Ct v Iv) as [B|(us & B & _)]; [exact B|congruence]. }
  unfold callback_step. destruct (is_first (y_k x) (y_w x i) u) eqn:Ef.
  - assert (Fn : w_first (y_w x i) = None) by (unfold is_first in Ef; destruct (w_first (y_w x i)); [discriminate|reflexivity]).
    rewrite (first_decides _ _ _ H0 Du Fn) in Ef. unfold cancel_remaining. cbn [w_canc w_rem w_call w_parent w_tasks w_first].
    set (w := y_w x i) in *.
    set (todo := if w_canc w then [] else w_rem w).
    set (w' := Winst (w_call w) (w_parent w) (w_tasks w) (w_rem w) (Some u) true).
    assert (E : (let '(a, b) := if w_canc w then ([], Winst (w_call w) (w_parent w) (w_tasks w) (w_rem w) (Some u) (w_canc w)) else (w_rem w, w') in
      (set_cb (set_w x i b) (Some (CbCancel a)), YBlocked)) = (set_cb (set_w x i w') (Some (CbCancel todo)), YBlocked)).
    { unfold todo, w'. destruct (w_canc w); reflexivity. }
    rewrite E. cbn [fst]. clear E.
    assert (O : forall j, j <> i -> upd (y_w x) i w' j = y_w x j) by (intros; now apply upd_other).
    assert (S : forall j, w_call (upd (y_w x) i w' j) = w_call (y_w x j) /\ w_parent (upd (y_w x) i w' j) = w_parent (y_w x j) /\
      w_tasks (upd (y_w x) i w' j) = w_tasks (y_w x j) /\ w_rem (upd (y_w x) i w' j) = w_rem (y_w x j)).
    { intro j. destruct (Nat.eq_dec j i) as [->|N]; [rewrite upd_same; repeat split|rewrite O by assumption; repeat split]. }
    constructor; cbn [set_cb set_w y_k y_w y_n y_pend y_cb y_hist]; try apply W.
    + intro v. destruct (I_dcb x W v) as [B|(j & ds & B & Ev & Hj & Iv)]; [now left|]. right. exists j, ds. destruct (S j) as (_ & _ & -> & _). auto.
    + intros j v Hj Iv. destruct (S j) as (_ & _ & B & _). rewrite B in Iv. apply (I_pos x W j v Hj Iv).
    + intros v p Ev Es. rewrite (Ns v p Ev) in Es. discriminate.
    + intros v p j Ev Ej. destruct (S j) as (-> & -> & -> & _). apply (I_inst x W v p j Ev Ej).
    + intros j Hj. destruct (S j) as (_ & _ & -> & ->). apply (I_rem x W j Hj).
    + intros j v Hj. destruct (S j) as (_ & _ & -> & ->). apply (I_out x W j v Hj).
    + intros j v Hj. destruct (S j) as (_ & _ & _ & ->). intros Iv D. rewrite (Nd j v Hj Iv) in D. discriminate.
    + intros j v b Hj. destruct (S j) as (_ & _ & -> & ->). apply (I_zero x W j v b Hj).
    + intros j Hj. destruct (S j) as (_ & _ & _ & ->). apply (I_fired x W j Hj).
    + intros v j Ev. unfold waits_ok. cbn [set_cb set_w y_k y_w]. destruct (S j) as (_ & _ & _ & ->). apply (I_wait x W v j Ev).
    + intros j v. split; discriminate.
    + intros j v s o Hj Efj Iv Nv L. destruct (Nat.eq_dec j i) as [->|N]; [rewrite upd_same in Efj; discriminate|]. rewrite O in * by assumption.
      destruct (I_none x W j v s o Hj Efj Iv Nv L) as [B|B]; [|now right]. rewrite Cb in B. injection B as B _. congruence.
    + intros j v Hj Efj. destruct (Nat.eq_dec j i) as [->|N]; [|rewrite O in * by assumption; apply (I_some x W j v Hj Efj)].
      rewrite upd_same in *. cbn [w' w_first w_call w_tasks w_canc] in *. injection Efj as <-. split; [|reflexivity]. split; [exact Iu|].
      destruct (G_rec _ _ (J_log _ _ H0) u Du) as (o & _ & L). destruct (in_split _ _ L) as (l1 & l2 & El).
      exists l1, l2, (state_of (y_k x) u), o. split; [exact El|]. split; [exact Ef|]. intros v s ov Iv Lv.
      assert (Lw : In (ODone v s ov) (s_log (y_k x))) by (rewrite El; apply in_or_app; right; now right).
      assert (Nv : v <> u).
      { intros ->. pose proof (G_ok _ _ (J_log _ _ H0)) as K. rewrite El in K. change (ODone u (state_of (y_k x) u) o :: l2) with ([ODone u (state_of (y_k x) u) o] ++ l2) in K.
        rewrite app_assoc in K. refine (log_once _ _ _ _ _ K _ _); [apply in_or_app; right; now left|]. now exists s, ov. }
      assert (Rv : ~ In v (w_rem w)).
      { intro Rv. destruct (logged_done _ _ _ _ H0 Lw) as [D _]. rewrite (Nd i v Hi Rv) in D. discriminate. }
      destruct (I_none x W i v s ov Hi Fn Iv Rv Lw) as [B|B]; [|exact B]. rewrite Cb in B. injection B as B. congruence.
    + intros v j Ev Cj y Iy. destruct (Nat.eq_dec j i) as [->|N].
      * rewrite upd_same in Iy. cbn [w' w_rem] in Iy. destruct (w_canc w) eqn:Cw; [left; apply (Hc v i Ev Cw y Iy)|]. right. exists todo. unfold todo. auto.
      * rewrite O in * by assumption. left. apply (Hc v j Ev Cj y Iy).
  - cbn [fst]. constructor; cbn [set_cb y_k y_w y_n y_pend y_cb y_hist]; try apply W.
    + intros v p Ev Es. rewrite (Ns v p Ev) in Es. discriminate.
    + intros j v Hj Iv D. rewrite (Nd j v Hj Iv) in D. discriminate.
    + intros j v. split; discriminate.
    + intros j v s o Hj Efj Iv Nv L. right. destruct (I_none x W j v s o Hj Efj Iv Nv L) as [B|B]; [|exact B]. rewrite Cb in B. injection B as <- <-.
      rewrite (first_decides _ _ _ H0 Du Efj) in Ef. destruct (logged_done _ _ _ _ H0 L) as (_ & <- & _). exact Ef.
    + intros v j Ev Cj y Iy. left. apply (Hc v j Ev Cj y Iy).
Qed.

(** The next done callback is that of [_wait]. *)
Lemma callback_ok x u j a rest c k r : WI x -> y_cb x = None -> s_ctl (y_k x) = FDone u j a :: rest ->
  nth_error (k_dcbs (s_task (y_k x) u)) j = Some c -> Nat.even c = false -> step (y_k x) LDoneNext = Some (k, r) ->
  WI (set_cb (set_k x k) (Some (CbStart (Nat.div2 c) u))).
Proof.
  intros W Cb Ec Nth Ev St. set (k0 := y_k x) in *. pose proof (I_k x W) as H0. fold k0 in H0.
  destruct (inv_step k0 LDoneNext k _ H0 Logic.I St) as (H1 & Sb & _).
  assert (Q : exists i, c = private i /\ j = 0 /\ i < y_n x /\ In u (w_tasks (y_w x i)) /\ exists ds, k_dcbs (s_task k0 u) = private i :: ds).
  { destruct (I_dcb x W u) as [E|(i & ds & E & Evs & Hi & Iu)]; fold k0 in E.
    - apply nth_error_In in Nth. unfold evens in E. rewrite Forall_forall in E. rewrite (E c Nth) in Ev. discriminate.
    - exists i. rewrite E in Nth. destruct j as [|j]; cbn in Nth; [injection Nth as <-; repeat (split; auto); now exists ds|].
      apply nth_error_In in Nth. unfold evens in Evs. rewrite Forall_forall in Evs. rewrite (Evs c Nth) in Ev. discriminate. }
  destruct Q as (i & -> & -> & Hi & Iu & ds & Ed). rewrite private_div2.
  assert (Ek : s_ctl k = FDone u 1 a :: rest /\ s_task k = s_task k0 /\ s_ievent k = s_ievent k0 /\ s_cbs k = s_cbs k0).
  { unfold step in St. destruct (s_halt k0); [discriminate|]. rewrite Ec, Nth in St. injection St as <- _. repeat split. }
  destruct Ek as (Ck & Tk & Ik & Bk).
  assert (Du : done k0 u = true) by (apply (D_fin _ (J_dn _ _ H0)); rewrite Ec; now left).
  assert (Ru : In u (w_rem (y_w x i))) by (apply (I_zero x W i u a Hi Iu); fold k0; rewrite Ec; now left).
  assert (Ns : forall v p, y_pend x v = Some p -> starting p = false).
  { apply (no_start x W). right. fold k0. intros. congruence. }
  assert (Dn : forall v, done k v = done k0 v) by (intro v; unfold done, state_of; now rewrite Tk).
  assert (Uq : forall j v, j < y_n x -> In v (w_rem (y_w x j)) -> done k0 v = true -> v = u /\ j = i).
  { intros j v Hj Iv D. destruct (I_in x W j v Hj Iv D) as [B|(_ & b & q & B)]; [congruence|]. fold k0 in B. assert (v = u) by congruence. subst v. split; [reflexivity|].
    destruct (I_pos x W j u Hj (proj2 (I_rem x W j Hj) u Iv)) as [[es E]|(z & p & Ez & _ & Ib)].
    - fold k0 in E. rewrite Ed in E. symmetry. apply private_inj. congruence.
    - pose proof (bare_starting p u Ib) as B1. rewrite (Ns z p Ez) in B1. discriminate. }
  destruct (step_log _ _ _ _ St) as [new Lg].
  constructor; cbn [set_cb set_k y_k y_w y_n y_pend y_cb y_hist]; rewrite ?Tk, ?Ik, ?Bk.
  - exact H1.
  - apply (step_cur k0 _ k _ (I_cur x W) St).
  - apply (I_new x W).
  - apply (I_dcb x W).
  - apply (I_pos x W).
  - intros v p Ev' Es. rewrite (Ns v p Ev') in Es. discriminate.
  - apply (I_inst x W).
  - apply (I_rem x W).
  - intros j v Hj Iv Nv. rewrite Dn. apply (I_out x W j v Hj Iv Nv).
  - intros j v Hj Iv D. rewrite Dn in D. left. destruct (Uq j v Hj Iv D) as [-> ->]. reflexivity.
  - intros j v b Hj Iv Ib. apply (I_zero x W j v b Hj Iv). fold k0. rewrite Ec. rewrite Ck in Ib. destruct Ib as [Ib|Ib]; [discriminate|now right].
  - apply (I_fired x W).
  - apply (I_cbs x W).
  - intros v j Ev'. unfold waits_ok. cbn [set_cb set_k y_k y_w]. unfold state_of. rewrite Dn, Tk, Bk, Ck.
    destruct (I_wait x W v j Ev') as [D|[I|[R|[[F Rd]|F]]]]; cbv zeta in *; auto.
    + right. right. right. left. split; [|exact Rd]. fold k0 in F. rewrite Ec in F. destruct F as [F|F]; [discriminate|now right].
    + right. right. right. right. fold k0 in F. rewrite Ec in F. destruct F as [F|F]; [discriminate|now right].
  - intros j v. split; [|discriminate]. intro E. injection E as <- <-. split; [exact Hi|]. split; [exact Ru|]. split; [rewrite Dn; exact Du|]. eauto.
  - intros j v s o Hj Ef Iv Nv L. right. rewrite Lg in L. apply in_app_or in L. destruct L as [L|L].
    + exfalso. apply (done_once k0 k new v s o H0 H1 Lg); [|exact L]. apply (I_out x W j v Hj Iv Nv).
    + destruct (I_none x W j v s o Hj Ef Iv Nv L) as [B|B]; [congruence|exact B].
  - intros j v Hj Ef. destruct (I_some x W j v Hj Ef) as [D C]. split; [|exact C]. rewrite Lg. apply log_grow, D.
  - intros v j Ev' Cj y Iy. left. destruct (I_canc x W v j Ev' Cj y Iy) as [B|(us & B & _)]; [exact B|congruence].
Qed.

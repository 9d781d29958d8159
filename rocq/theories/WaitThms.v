(** Proofs of the theorems about wait, select, gather, First, Combine and with_timeout. *)
From Verif Require Import Base KernelModel KernelProofs KernelHist KernelLog KernelInv KernelTask KernelWake KernelLayer KernelStack
  WaitModel WaitSpec WaitInv WaitInv2 WaitInv3 WaitInv4 WaitProofs WaitReason.
From Coq Require Import Arith.

(** * When a call ends normally *)
Definition normal (r : wres) : bool :=
  match r with YWait _ _ | YSelect _ _ | YValue _ | YTuple _ | YSelf | YFails _ | YTimeout | YBroken => true | _ => false end.
Lemma ends_inv x l x' r : wstep x l = Some (x', r) -> normal r = true ->
  (exists t i rest, l = XLib /\ y_cb x = None /\ s_ctl (y_k x) = FRun t :: rest /\ y_pend x t = Some (SWait i) /\
     k_exc (s_task (y_k x) t) = None /\ r = conclude (y_k x) (y_w x i)) \/
  (r = YTuple [] /\ l = XCall CGather []) \/
  (r = YSelf /\ exists t rest, l = XLib /\ y_cb x = None /\ s_ctl (y_k x) = FRun t :: rest /\ y_pend x t = Some SNoTrigger).
Proof.
  intros St N. unfold wstep in St. destruct (s_halt (y_k x)) eqn:Ha; [discriminate|]. destruct (y_esc x) eqn:Es; [discriminate|]. cbn [orb] in St.
  assert (Su : forall z rest t tr p, normal (snd (suspend z rest t tr p)) = false).
  { intros z rest t tr p. unfold suspend. destruct (await_trigger _ _ _ _ _) as [k []]; reflexivity. }
  assert (Uc : forall z t i m, normal (snd (uncancel_current z t i m)) = false).
  { intros z t i m. unfold uncancel_current. destruct (s_current (y_k z)); reflexivity. }
  assert (Go : forall z t i todo n, normal (snd (go_cancel z t i todo n)) = false).
  { intros z t i todo n. unfold go_cancel, cancel_one. destruct todo as [|u us]; [destruct n as [m|[e|]]; try reflexivity; apply Uc|].
    destruct (cancel (y_k z) u 0) as [k []]; reflexivity. }
  destruct l as [kl|c ts|].
  - destruct (user_control x kl && user_label kl); [|discriminate]. destruct (step (y_k x) kl) as [[k r0]|]; [|discriminate]. injection St as _ <-. discriminate.
  - destruct (y_cb x); [discriminate|]. destruct (s_ctl (y_k x)) as [|[t|t|t j a] rest]; try discriminate. destruct (y_pend x t); [discriminate|].
    unfold begin_call in St. destruct ts as [|u us].
    + destruct c; try discriminate; try (injection St as _ <-; discriminate).
      injection St as _ <-. right. left. auto.
    + exfalso. assert (G : match c, (if forallb (fresh (y_k x)) (u :: us) && nodup (u :: us) && match c with CTimeout => Nat.eqb (length (u :: us)) 2 | _ => true end then
          Some (called x t c (u :: us), YBlocked) else None) with _, o => o end = Some (x', r)) by (destruct c; exact St).
      destruct (_ && _) in G; [|discriminate]. injection G as _ <-. discriminate.
  - destruct (y_cb x) as [c|].
    + exfalso. injection St as St. apply (f_equal snd) in St. cbn [snd] in St. subst r. destruct c as [i u|i u|[|u us]]; cbn in N.
      * destruct (existsb _ _); discriminate.
      * destruct (is_first _ _ _); [destruct (cancel_remaining _)|]; discriminate.
      * discriminate.
      * unfold cancel_one in N. destruct (cancel (y_k x) u 0) as [k []]; discriminate.
    + destruct (s_ctl (y_k x)) as [|[t|t|u j a] rest] eqn:Ec; [discriminate|..].
      * destruct (y_pend x t) as [p|] eqn:Ep; [|discriminate]. injection St as St. apply (f_equal snd) in St. cbn [snd] in St.
        unfold run_step in St. destruct p as [i todo|i todo|i|i todo n|i m|i m|].
        -- exfalso. destruct todo; subst r; [rewrite Su in N|]; discriminate.
        -- exfalso. destruct todo; subst r; [discriminate|]. destruct (start_next _ _) as [k []]; discriminate.
        -- destruct (k_exc (s_task (y_k x) t)) as [e|] eqn:Ex; [exfalso; subst r; destruct e; discriminate|]. left. exists t, i, rest. cbn [snd] in St. auto 10.
        -- exfalso. subst r. rewrite Go in N. discriminate.
        -- exfalso. destruct (w_rem (y_w x i)); subst r; [|rewrite Su in N]; discriminate.
        -- exfalso. destruct (k_exc (s_task (y_k x) t)) as [e|]; [destruct e|]; subst r; try rewrite Uc in N; discriminate.
        -- destruct (k_exc (s_task (y_k x) t)) as [e|]; [exfalso; subst r; discriminate|]. right. right. split; [symmetry; exact St|]. exists t, rest. auto.
      * exfalso. destruct (y_pend x t) as [p|] eqn:Ep; [|discriminate]. injection St as St. apply (f_equal snd) in St. cbn [snd] in St. subst r.
        destruct p; unfold close_step in N; try discriminate. rewrite Go in N. discriminate.
      * exfalso. destruct (nth_error _ _); [|discriminate]. destruct (Nat.even _); [discriminate|]. destruct (step _ _) as [[k r0]|]; [|discriminate].
        injection St as _ <-. discriminate.
Qed.

(** Then all waiters are done. *)
Lemma ready x t i rest : WI x -> s_ctl (y_k x) = FRun t :: rest -> y_pend x t = Some (SWait i) -> k_exc (s_task (y_k x) t) = None -> w_rem (y_w x i) = [].
Proof.
  intros W Ec Ep Ex. pose proof (I_k x W) as H. assert (R : state_of (y_k x) t = Running) by (apply (L_run _ _ (J_loc _ _ H)); rewrite Ec; now left).
  destruct (I_wait x W t i Ep) as [D|[[h I]|[[Sc _]|[[_ Rd]|Fc]]]].
  - unfold done in D. rewrite R in D. discriminate.
  - destruct (L_cpend _ _ (J_loc _ _ H) _ _ _ I) as (_ & E & _). congruence.
  - congruence.
  - auto.
  - exfalso. pose proof (L_rund _ _ (J_loc _ _ H)) as D. rewrite Ec in Fc, D. cbn in D. apply NoDup_cons_iff in D. destruct D as [D _]. apply D.
    destruct Fc as [Fc|Fc]; [discriminate|]. unfold runners. apply in_flat_map. exists (FClose t). split; [exact Fc|now left].
Qed.
Lemma index_nth u l j : index u l = Some j -> nth_error l j = Some u.
Proof.
  revert j. induction l as [|v l IH]; intros j E; cbn in E; [discriminate|]. destruct (Nat.eqb_spec v u) as [->|N]; [injection E as <-; reflexivity|].
  destruct (index u l); [|discriminate]. injection E as <-. cbn. auto.
Qed.
Lemma index_in u l : In u l -> exists j, index u l = Some j.
Proof.
  induction l as [|v l IH]; intros I; [destruct I|]. cbn. destruct (Nat.eqb_spec v u) as [->|N]; [eauto|]. destruct I as [->|I]; [now elim N|].
  destruct (IH I) as [j ->]. eauto.
Qed.
Lemma done_answer k u : Inv k -> done k u = true ->
  (exists v, py_result k u = Value v /\ state_of k u = Finished) \/ (exists e, py_result k u = Raises e /\ state_of k u <> Finished).
Proof.
  intros H D. destruct (D_out _ (J_dn _ _ H) u D) as (o & E & F). unfold done in D. unfold py_result. rewrite E.
  destruct (state_of k u); try discriminate; destruct o as [v|e]; cbn in F; try contradiction.
  - left. exists v. auto.
  - right. exists e. split; [reflexivity|discriminate].
  - right. exists e. split; [reflexivity|discriminate].
Qed.
Lemma decided_state k w ts u : Inv k -> decided_by w ts (s_log k) u -> done k u = true /\ decides w (state_of k u) = true.
Proof.
  intros H (Iu & later & before & s & o & E & D & _). assert (I : In (ODone u s o) (s_log k)) by (rewrite E; apply in_or_app; right; now left).
  destruct (logged_done _ _ _ _ H I) as (Dn & -> & _). auto.
Qed.
Lemma undecided_states k w ts : Inv k -> undecided w ts (s_log k) -> forall v, In v ts -> done k v = true -> decides w (state_of k v) = false.
Proof. intros H U v Iv D. destruct (G_rec _ _ (J_log _ _ H) v D) as (o & _ & L). apply (U v _ o Iv L). Qed.

Theorem conclude_ok x t i rest : WI x -> VI x -> y_cb x = None -> s_ctl (y_k x) = FRun t :: rest -> y_pend x t = Some (SWait i) ->
  k_exc (s_task (y_k x) t) = None ->
  let ts := w_tasks (y_w x i) in let c := w_call (y_w x i) in
  in_library x t /\ last_call t (y_hist x) = Some (c, ts) /\ ts <> [] /\ (forall v, In v ts -> done (y_k x) v = true) /\
  match w_first (y_w x i) with
  | None => undecided (when_of c) ts (s_log (y_k x))
  | Some u => decided_by (when_of c) ts (s_log (y_k x)) u /\ exists j, index u ts = Some j /\ nth_error ts j = Some u
  end.
Proof.
  intros W V Cb Ec Ep Ex. cbv zeta. destruct (I_inst x W t _ i Ep eq_refl) as (Hi & Hp & Hc). assert (R := ready x t i rest W Ec Ep Ex).
  assert (Dn : forall v, In v (w_tasks (y_w x i)) -> done (y_k x) v = true) by (intros v Iv; apply (I_out x W i v Hi Iv); rewrite R; intros []).
  split; [split; [exact Cb|]; exists (SWait i), rest; auto|]. split; [exact Hc|]. split; [apply (V_ne x V i Hi)|]. split; [exact Dn|].
  destruct (w_first (y_w x i)) as [u|] eqn:Ef.
  - destruct (I_some x W i u Hi Ef) as [D _]. split; [exact D|]. destruct D as [Iu _]. destruct (index_in u _ Iu) as [j E]. exists j. split; [exact E|]. now apply index_nth.
  - intros v s o Iv L. destruct (I_none x W i v s o Hi Ef Iv) as [B|B]; [rewrite R; intros []|exact L|congruence|exact B].
Qed.

Lemma results_all k ts : Inv k -> (forall v, In v ts -> done k v = true /\ state_of k v = Finished) ->
  exists vs, results k ts = YTuple vs /\ Forall2 (fun u v => py_result k u = Value v) ts vs.
Proof.
  intros H. induction ts as [|u ts IH]; intro A; [exists []; split; [reflexivity|constructor]|]. destruct IH as (vs & E & F); [intros; apply A; now right|].
  destruct (A u (or_introl eq_refl)) as [D S]. destruct (done_answer k u H D) as [(v & P & _)|(e & _ & N)]; [|congruence].
  exists (v :: vs). cbn. rewrite P, E. split; [reflexivity|]. constructor; assumption.
Qed.

(** What a call that ends normally gives. *)
Definition outcome_ok (k : st) (c : call) (ts : list tid) (r : wres) : Prop :=
  let w := when_of c in
  match r with
  | YWait None ts' => (exists w0, c = CWait w0) /\ ts' = ts /\ undecided w ts (s_log k)
  | YWait (Some j) ts' => (exists w0, c = CWait w0) /\ ts' = ts /\ exists u, nth_error ts j = Some u /\ decided_by w ts (s_log k) u
  | YSelect j v => c = CSelect /\ exists u, nth_error ts j = Some u /\ decided_by w ts (s_log k) u /\ py_result k u = Value v
  | YTuple vs => c = CGather /\ Forall2 (fun u v => py_result k u = Value v) ts vs
  | YValue v => (c = CFirst \/ c = CTimeout) /\ exists j u, nth_error ts j = Some u /\ decided_by w ts (s_log k) u /\ py_result k u = Value v /\ (c = CTimeout -> j <> 0)
  | YTimeout => c = CTimeout /\ exists u, nth_error ts 0 = Some u /\ decided_by w ts (s_log k) u
  | YSelf => c = CCombine /\ forall u, In u ts -> state_of k u = Finished
  | YFails e => (forall w0, c <> CWait w0) /\ exists u, decided_by w ts (s_log k) u /\ py_result k u = Raises e
  | _ => False
  end.
Theorem conclude_outcome x t i rest : WI x -> VI x -> y_cb x = None -> s_ctl (y_k x) = FRun t :: rest -> y_pend x t = Some (SWait i) ->
  k_exc (s_task (y_k x) t) = None -> outcome_ok (y_k x) (w_call (y_w x i)) (w_tasks (y_w x i)) (conclude (y_k x) (y_w x i)).
Proof.
  intros W V Cb Ec Ep Ex. destruct (conclude_ok x t i rest W V Cb Ec Ep Ex) as (_ & _ & Ne & Dn & F). cbv zeta in *. pose proof (I_k x W) as H.
  unfold conclude. destruct (w_first (y_w x i)) as [u|].
  - destruct F as (D & j & E & Nt). rewrite E. cbn [option_map]. rewrite Nt. destruct (decided_state _ _ _ _ H D) as [Du Ds].
    destruct (w_call (y_w x i)) eqn:Ecall; cbn [when_of] in *.
    + cbn. split; [eauto|]. split; [reflexivity|]. eauto.
    + destruct (done_answer _ _ H Du) as [(v & P & _)|(e & P & _)]; rewrite P; cbn; (split; [first [reflexivity|discriminate]|]); eauto 10.
    + destruct (done_answer _ _ H Du) as [(v & P & S)|(e & P & _)]; rewrite P; [rewrite S in Ds; discriminate|]. cbn. split; [discriminate|]. eauto.
    + destruct (done_answer _ _ H Du) as [(v & P & _)|(e & P & _)]; rewrite P; cbn; (split; [first [now left|discriminate]|]); [|eauto]. exists j, u. repeat split; auto; try apply D. discriminate.
    + destruct (done_answer _ _ H Du) as [(v & P & S)|(e & P & _)]; rewrite P; [rewrite S in Ds; discriminate|]. cbn. split; [discriminate|]. eauto.
    + destruct (done_answer _ _ H Du) as [(v & P & _)|(e & P & _)]; rewrite P; [|cbn; split; [discriminate|]; eauto].
      destruct (Nat.eqb_spec j 0) as [->|N]; cbn; (split; [auto|]); [eauto|]. exists j, u. repeat split; auto; apply D.
  - assert (Fc : when_of (w_call (y_w x i)) <> FirstCompleted).
    { intro E. destruct (w_tasks (y_w x i)) as [|v ts] eqn:Et; [now elim Ne|]. pose proof (undecided_states _ _ _ H F v (or_introl eq_refl) (Dn v (or_introl eq_refl))) as Q.
      rewrite E in Q. discriminate. }
    assert (Fx : when_of (w_call (y_w x i)) = FirstException -> forall v, In v (w_tasks (y_w x i)) -> done (y_k x) v = true /\ state_of (y_k x) v = Finished).
    { intros E v Iv. split; [apply Dn, Iv|]. pose proof (undecided_states _ _ _ H F v Iv (Dn v Iv)) as Q. rewrite E in Q. cbn in Q.
      pose proof (Dn v Iv) as D. unfold done in D. destruct (state_of (y_k x) v); try discriminate; reflexivity. }
    destruct (w_call (y_w x i)) eqn:Ecall; cbn [when_of] in *; try (now elim Fc).
    + cbn. split; [eauto|]. auto.
    + destruct (results_all _ _ H (Fx eq_refl)) as (vs & -> & F2). cbn. auto.
    + cbn. split; [reflexivity|]. intros v Iv. apply Fx; auto.
Qed.

(** The same for executions. *)
Theorem ends_ok ls x l x' r : wreach ls x -> wstep x l = Some (x', r) -> normal r = true ->
  (r = YTuple [] /\ l = XCall CGather []) \/
  exists t c ts, in_library x t /\ last_call t (y_hist x) = Some (c, ts) /\ (forall v, In v ts -> done (y_k x) v = true) /\
    outcome_ok (y_k x) c ts r /\ (ts = [] -> c = CCombine).
Proof.
  intros R St N. assert (Es : y_esc x = false).
  { unfold wstep in St. destruct (y_esc x); [rewrite Bool.orb_true_r in St; discriminate|reflexivity]. }
  destruct (wreach_full ls x R) as [E|[W V]]; [congruence|].
  destruct (ends_inv x l x' r St N) as [(t & i & rest & -> & Cb & Ec & Ep & Ex & ->)|[E|(-> & t & rest & -> & Cb & Ec & Ep)]]; [| now left |].
  - right. destruct (conclude_ok x t i rest W V Cb Ec Ep Ex) as (A & B & C & D & _). exists t, (w_call (y_w x i)), (w_tasks (y_w x i)).
    repeat (split; [assumption|]). split; [apply (conclude_outcome x t i rest); assumption|]. intro; contradiction.
  - right. exists t, CCombine, []. split; [split; [exact Cb|]; exists SNoTrigger, rest; auto|]. split; [apply (V_nt x V t Ep)|]. split; [intros v []|].
    split; [split; [reflexivity|intros u []]|auto].
Qed.

(** * Cancellation of the caller *)
Theorem cancelled_ends ls x l x' m : wreach ls x -> wstep x l = Some (x', YRaised (ECancelled m)) ->
  exists t c ts, in_library x t /\ last_call t (y_hist x) = Some (c, ts) /\ forall v, In v ts -> done (y_k x) v = true.
Proof.
  intros R St. assert (Es : y_esc x = false).
  { unfold wstep in St. destruct (y_esc x); [rewrite Bool.orb_true_r in St; discriminate|reflexivity]. }
  destruct (wreach_full ls x R) as [E|[W V]]; [congruence|]. unfold wstep in St. destruct (s_halt (y_k x)); [discriminate|]. rewrite Es in St. cbn [orb] in St.
  assert (Su : forall z rest t tr p, snd (suspend z rest t tr p) <> YRaised (ECancelled m)).
  { intros z rest t tr p. unfold suspend. destruct (await_trigger _ _ _ _ _) as [k []]; discriminate. }
  assert (Uc : forall z t i n, snd (uncancel_current z t i n) <> YRaised (ECancelled m)).
  { intros z t i n. unfold uncancel_current. destruct (s_current (y_k z)); discriminate. }
  assert (Go : forall t i todo n, y_pend x t = Some (SCancel i todo n) -> snd (go_cancel x t i todo n) <> YRaised (ECancelled m)).
  { intros t i todo n Ep. destruct (V_sc x V _ _ _ _ Ep) as (_ & _ & _ & Nn). unfold go_cancel, cancel_one.
    destruct todo as [|u us]; [destruct n as [a|[e|]]; try discriminate; [apply Uc|]|].
    - cbn. intro Q. injection Q as ->. now elim (Nn m).
    - destruct (cancel (y_k x) u 0) as [k []]; discriminate. }
  assert (Cl : forall k r, results k r <> YRaised (ECancelled m)).
  { intros k r. induction r as [|u us IH]; cbn; [discriminate|]. destruct (py_result k u); try discriminate. destruct (results k us); try discriminate. exact IH. }
  destruct l as [kl|c ts|].
  - destruct (user_control x kl && user_label kl); [|discriminate]. destruct (step (y_k x) kl) as [[k r0]|]; discriminate.
  - exfalso. destruct (y_cb x); [discriminate|]. destruct (s_ctl (y_k x)) as [|[t|t|t j a] rest]; try discriminate. destruct (y_pend x t); [discriminate|].
    unfold begin_call in St. destruct ts as [|u us]; [|destruct c; destruct (_ && _) in St; discriminate].
    destruct c; try discriminate. 
  - destruct (y_cb x) as [c|] eqn:Cb.
    + exfalso. injection St as St. apply (f_equal snd) in St. cbn [snd] in St. destruct c as [i u|i u|[|u us]]; cbn in St.
      * destruct (existsb _ _); discriminate.
      * destruct (is_first _ _ _); [destruct (cancel_remaining _)|]; discriminate.
      * discriminate.
      * unfold cancel_one in St. destruct (cancel (y_k x) u 0) as [k []]; discriminate.
    + destruct (s_ctl (y_k x)) as [|[t|t|u j a] rest] eqn:Ec; [discriminate|..].
      * destruct (y_pend x t) as [p|] eqn:Ep; [|discriminate]. injection St as St. apply (f_equal snd) in St. cbn [snd] in St.
        assert (Lb : in_library x t) by (split; [exact Cb|]; exists p, rest; auto).
        unfold run_step in St. destruct p as [i todo|i todo|i|i todo n|i q|i q|].
        -- exfalso. destruct todo; [now apply Su in St|discriminate].
        -- exfalso. destruct todo; [discriminate|]. destruct (start_next _ _) as [k []]; discriminate.
        -- exfalso. destruct (k_exc (s_task (y_k x) t)) as [e|] eqn:Ex; [destruct e; discriminate|]. cbn in St.
           pose proof (conclude_outcome x t i rest W V Cb Ec Ep Ex) as O. rewrite St in O. exact O.
        -- exfalso. apply (Go t i todo n Ep St).
        -- destruct (w_rem (y_w x i)) as [|u us] eqn:Er; [|now apply Su in St]. destruct (I_inst x W t _ i Ep eq_refl) as (Hi & _ & Hc).
           exists t, (w_call (y_w x i)), (w_tasks (y_w x i)). split; [exact Lb|]. split; [exact Hc|]. intros v Iv. apply (I_out x W i v Hi Iv). rewrite Er. intros [].
        -- exfalso. destruct (k_exc (s_task (y_k x) t)) as [e|]; [destruct e; try discriminate; now apply Uc in St|discriminate].
        -- exists t, CCombine, []. split; [exact Lb|]. split; [apply (V_nt x V t Ep)|]. intros v [].
      * exfalso. destruct (y_pend x t) as [p|] eqn:Ep; [|discriminate]. injection St as St. apply (f_equal snd) in St. cbn [snd] in St.
        destruct p; unfold close_step in St; try discriminate. apply (Go t _ _ _ Ep St).
      * exfalso. destruct (nth_error _ _); [|discriminate]. destruct (Nat.even _); [discriminate|]. destruct (step _ _) as [[k r0]|]; discriminate.
Qed.

(** * Waking up, and cancelling the rest *)
Theorem wakes ls x t i c ts : wreach ls x -> y_esc x = false -> y_cb x = None -> s_ctl (y_k x) = [] -> y_pend x t = Some (SWait i) ->
  last_call t (y_hist x) = Some (c, ts) -> (forall v, In v ts -> done (y_k x) v = true) -> state_of (y_k x) t <> Pending.
Proof.
  intros R Es Cb Ec Ep Hl Dn Pd. destruct (wreach_full ls x R) as [E|[W V]]; [congruence|]. pose proof (I_k x W) as H.
  destruct (I_inst x W t _ i Ep eq_refl) as (Hi & _ & Hc). assert (ts = w_tasks (y_w x i)) by congruence. subst ts.
  assert (Rm : w_rem (y_w x i) = []).
  { destruct (w_rem (y_w x i)) as [|v vs] eqn:E; [reflexivity|]. exfalso. assert (Iv : In v (w_rem (y_w x i))) by (rewrite E; now left).
    destruct (I_in x W i v Hi Iv (Dn v (proj2 (I_rem x W i Hi) v Iv))) as [B|(_ & k & q & B)]; congruence. }
  assert (Fi : i_fired (s_ievent (y_k x) (private i)) = true) by now apply (I_fired x W i Hi).
  destruct (I_wait x W t i Ep) as [D|[[h I]|[[Sc _]|[[F _]|F]]]].
  - unfold done in D. rewrite Pd in D. discriminate.
  - rewrite (O_ievent _ (J_obj _ _ H) _ Fi) in I. destruct I.
  - congruence.
  - rewrite Ec in F. destruct F.
  - rewrite Ec in F. destruct F.
Qed.
Theorem cancels ls x t i c ts u : wreach ls x -> y_esc x = false -> y_cb x = None -> s_ctl (y_k x) = [] -> y_pend x t = Some (SWait i) ->
  last_call t (y_hist x) = Some (c, ts) -> decided_by (when_of c) ts (s_log (y_k x)) u ->
  forall v, In v ts -> done (y_k x) v = true \/ In (HCancel v) (y_hist x).
Proof.
  intros R Es Cb Ec Ep Hl Dc v Iv. destruct (wreach_full ls x R) as [E|[W V]]; [congruence|]. pose proof (I_k x W) as H.
  destruct (I_inst x W t _ i Ep eq_refl) as (Hi & _ & Hc). rewrite Hl in Hc. injection Hc as -> ->.
  destruct (decided_state _ _ _ _ H Dc) as [Du Ds].
  assert (Nd : forall y, In y (w_rem (y_w x i)) -> done (y_k x) y = true -> False).
  { intros y Iy D. destruct (I_in x W i y Hi Iy D) as [B|(_ & k & q & B)]; congruence. }
  destruct (in_dec Nat.eq_dec v (w_rem (y_w x i))) as [J|J]; [|left; apply (I_out x W i v Hi Iv J)]. right.
  destruct (w_first (y_w x i)) as [f|] eqn:Ef.
  - destruct (I_some x W i f Hi Ef) as [_ Cn]. destruct (I_canc x W t i Ep Cn v J) as [A|(us & A & _)]; [exact A|congruence].
  - exfalso. destruct Dc as (Iu & _). destruct (G_rec _ _ (J_log _ _ H) u Du) as (o & _ & L).
    destruct (I_none x W i u _ o Hi Ef Iu (fun I => Nd u I Du) L) as [B|B]; congruence.
Qed.

(** Why a waiter is cancelled by the library. *)
Theorem cancel_reason ls x l x' r v : wreach ls x -> wstep x l = Some (x', r) -> y_hist x' = HCancel v :: y_hist x ->
  exists t c ts, In (HCall t c ts) (y_hist x) /\ In v ts /\
    ((exists u, decided_by (when_of c) ts (s_log (y_k x)) u) \/
     (in_library x t /\ last_call t (y_hist x) = Some (c, ts) /\ (k_exc (s_task (y_k x) t) <> None \/ exists rest, s_ctl (y_k x) = FClose t :: rest))).
Proof.
  intros R St Eh. assert (Es : y_esc x = false).
  { unfold wstep in St. destruct (y_esc x); [rewrite Bool.orb_true_r in St; discriminate|reflexivity]. }
  destruct (wreach_full ls x R) as [E|[W V]]; [congruence|]. unfold wstep in St. destruct (s_halt (y_k x)); [discriminate|]. rewrite Es in St. cbn [orb] in St.
  assert (Nc : forall (h : list hist) a, h = a :: h -> False) by (intros h a Q; apply (f_equal (@length _)) in Q; cbn in Q; lia).
  assert (Su : forall rest t tr p, y_hist (fst (suspend x rest t tr p)) = HCancel v :: y_hist x -> False).
  { intros rest t tr p. unfold suspend. destruct (await_trigger _ _ _ _ _) as [k []]; cbn; apply Nc. }
  assert (Uc : forall t i n, y_hist (fst (uncancel_current x t i n)) = HCancel v :: y_hist x -> False).
  { intros t i n. unfold uncancel_current. destruct (s_current (y_k x)); cbn; apply Nc. }
  assert (Co : forall u y o, cancel_one x u = (y, o) -> y_hist y = y_hist x \/ o = None /\ y_hist y = HCancel u :: y_hist x).
  { intros u y o. unfold cancel_one. destruct (cancel (y_k x) u 0) as [k q]; destruct q; intro Q; injection Q as <- <-; cbn; auto. }
  assert (Go : forall t i todo n rest, y_cb x = None -> s_ctl (y_k x) = FRun t :: rest \/ s_ctl (y_k x) = FClose t :: rest ->
    y_pend x t = Some (SCancel i todo n) -> y_hist (fst (go_cancel x t i todo n)) = HCancel v :: y_hist x ->
    exists t c ts, In (HCall t c ts) (y_hist x) /\ In v ts /\
    ((exists u, decided_by (when_of c) ts (s_log (y_k x)) u) \/
     (in_library x t /\ last_call t (y_hist x) = Some (c, ts) /\ (k_exc (s_task (y_k x) t) <> None \/ exists rest, s_ctl (y_k x) = FClose t :: rest)))).
  { intros t i todo n rest Cb Top Ep Q. unfold go_cancel in Q. destruct todo as [|u us].
    - exfalso. destruct n as [a|[e|]]; cbn in Q; try (now apply Nc in Q). now apply Uc in Q.
    - destruct (cancel_one x u) as [y o] eqn:E. destruct (Co u y o E) as [B|[-> B]].
      + exfalso. destruct o; cbn in Q; rewrite B in Q; now apply Nc in Q.
      + cbn in Q. rewrite B in Q. injection Q as ->. destruct (V_sc x V _ _ _ _ Ep) as (_ & Ex & Inc & _).
        destruct (I_inst x W t _ i Ep eq_refl) as (Hi & Hp & Hc). destruct (V_ne x V i Hi) as (_ & _ & Ih). rewrite Hp in Ih.
        exists t, (w_call (y_w x i)), (w_tasks (y_w x i)). split; [exact Ih|]. split; [apply Inc; now left|]. right.
        split; [split; [exact Cb|]; exists (SCancel i (v :: us) n), rest; auto|]. split; [exact Hc|]. destruct Ex as (q & [[_ Ex]|Ex]); [now left|right; eauto]. }
  destruct l as [kl|c ts|].
  - exfalso. destruct (user_control x kl && user_label kl); [|discriminate]. destruct (step (y_k x) kl) as [[k r0]|]; [|discriminate].
    injection St as <- _. cbn in Eh. now apply Nc in Eh.
  - exfalso. destruct (y_cb x); [discriminate|]. destruct (s_ctl (y_k x)) as [|[t|t|t j a] rest]; try discriminate. destruct (y_pend x t); [discriminate|].
    unfold begin_call in St. destruct ts as [|u us].
    + destruct c; try discriminate; try (injection St as <- _; now apply Nc in Eh).
      assert (E : suspend (record x (HCall t CCombine [])) rest t (TNull 0) SNoTrigger = (x', r)) by (injection St; congruence).
      unfold suspend in E. destruct (await_trigger _ _ _ _ _) as [k []]; injection E as <- _; discriminate.
    + destruct c; destruct (_ && _) in St; try discriminate; injection St as <- _; discriminate.
  - destruct (y_cb x) as [c|] eqn:Cb.
    + injection St as St. apply (f_equal fst) in St. cbn [fst] in St. subst x'. destruct c as [i u|i u|[|u us]].
      * exfalso. unfold callback_step in Eh. destruct (existsb _ _); [|cbn in Eh; now apply Nc in Eh]. cbv zeta in Eh. cbn [w_rem fst] in Eh.
        destruct (without _ _); cbn in Eh; now apply Nc in Eh.
      * exfalso. unfold callback_step in Eh. destruct (is_first _ _ _); [destruct (cancel_remaining _)|]; cbn in Eh; now apply Nc in Eh.
      * exfalso. cbn in Eh. now apply Nc in Eh.
      * unfold callback_step in Eh. destruct (cancel_one x u) as [y o] eqn:E. destruct (Co u y o E) as [B|[-> B]].
        -- exfalso. destruct o; cbn in Eh; rewrite B in Eh; now apply Nc in Eh.
        -- cbn in Eh. rewrite B in Eh. injection Eh as ->. destruct (V_cbc x V _ v Cb (or_introl eq_refl)) as (i & f & Hi & Iv & Ef).
           destruct (V_ne x V i Hi) as (_ & _ & Ih). exists (w_parent (y_w x i)), (w_call (y_w x i)), (w_tasks (y_w x i)). split; [exact Ih|]. split; [exact Iv|].
           left. exists f. apply (I_some x W i f Hi Ef).
    + destruct (s_ctl (y_k x)) as [|[t|t|u j a] rest] eqn:Ec; [discriminate|..].
      * destruct (y_pend x t) as [p|] eqn:Ep; [|discriminate]. injection St as St. apply (f_equal fst) in St. cbn [fst] in St. subst x'.
        unfold run_step in Eh. destruct p as [i todo|i todo|i|i todo n|i q|i q|].
        -- exfalso. destruct todo; [now apply Su in Eh|]. cbn in Eh. now apply Nc in Eh.
        -- exfalso. destruct todo; [cbn in Eh; now apply Nc in Eh|]. destruct (start_next _ _) as [k []]; cbn in Eh; now apply Nc in Eh.
        -- exfalso. unfold begin_cancel in Eh. destruct (k_exc (s_task (y_k x) t)) as [e|]; [destruct e; destruct (cancel_remaining _)|]; cbn in Eh; now apply Nc in Eh.
        -- apply (Go t i todo n rest); auto.
        -- exfalso. destruct (w_rem (y_w x i)); [cbn in Eh; now apply Nc in Eh|now apply Su in Eh].
        -- exfalso. destruct (k_exc (s_task (y_k x) t)) as [e|]; [destruct e; try (now apply Uc in Eh)|]; cbn in Eh; now apply Nc in Eh.
        -- exfalso. destruct (k_exc (s_task (y_k x) t)); cbn in Eh; now apply Nc in Eh.
      * destruct (y_pend x t) as [p|] eqn:Ep; [|discriminate]. injection St as St. apply (f_equal fst) in St. cbn [fst] in St. subst x'.
        unfold close_step, begin_cancel in Eh. destruct p as [i todo|i todo|i|i todo n|i q|i q|];
          try (exfalso; cbn in Eh; now apply Nc in Eh); [exfalso; destruct (cancel_remaining _); cbn in Eh; now apply Nc in Eh|]. apply (Go t i todo n rest); auto.
      * exfalso. destruct (nth_error _ _); [|discriminate]. destruct (Nat.even _); [discriminate|]. destruct (step _ _) as [[k r0]|]; [|discriminate].
        injection St as <- _. cbn in Eh. now apply Nc in Eh.
Qed.

(** C31 and C32: TaskManager. *)
From Verif Require Import Base KernelModel KernelProofs KernelHist KernelInv KernelStack LayerProofs ManagerModel ManagerSpec
  ManagerInv ManagerInv2 ManagerInv3 ManagerInv4 ManagerInv5 ManagerInv6 ManagerThms ManagerWhy.
From Coq Require Import Arith.

(** * Executions which are computed *)
Fixpoint mrun (x : mst) (ls : list mlabel) : option mst :=
  match ls with
  | [] => Some x
  | l :: ls' => match mstep x l with Some (x1, _) => mrun x1 ls' | None => None end
  end.
Definition lab_ok (l : mlabel) : bool := match l with XUser (LAwait _ ok) => ok | _ => true end.
Lemma mrun_exec ls : forall x x', forallb lab_ok ls = true -> mrun x ls = Some x' -> mexec sim_ok x ls x'.
Proof.
  induction ls as [|l ls IH]; intros x x' A E; cbn in A, E; [injection E as <-; constructor|].
  apply andb_prop in A. destruct A as [A B]. destruct (mstep x l) as [[x1 r]|] eqn:St; [|discriminate].
  econstructor; [|exact St|apply IH; assumption]. destruct l as [kl| | | | | |]; try exact Logic.I. destruct kl; try exact Logic.I. exact A.
Qed.
(** Equality of results, events and exits can be decided. *)
Definition mres_dec (a b : mres) : {a = b} + {a <> b}.
Proof. repeat decide equality. Defined.
Definition hist_dec (a b : hist) : {a = b} + {a <> b}.
Proof. repeat decide equality. Defined.
Definition exit_dec (a b : option (nat * leave * bool)) : {a = b} + {a <> b}.
Proof. repeat decide equality. Defined.
(** After [ls], step [l] gives [r]; the state in which this happens passes the test [f]. *)
Definition gives (ls : list mlabel) (l : mlabel) (r : mres) (f : mst -> bool) : bool :=
  forallb lab_ok ls &&
  match mrun minit ls with
  | Some x => f x && match mstep x l with Some (_, r') => if mres_dec r' r then true else false | None => false end
  | None => false
  end.
Lemma gives_ok ls l r f : gives ls l r f = true -> exists x y, mreach ls x /\ mstep x l = Some (y, r) /\ f x = true.
Proof.
  unfold gives. intro H. apply andb_prop in H. destruct H as [A H]. destruct (mrun minit ls) as [x|] eqn:E; [|discriminate].
  apply andb_prop in H. destruct H as [F H]. destruct (mstep x l) as [[x' r']|] eqn:St; [|discriminate].
  destruct (mres_dec r' r) as [->|]; [|discriminate]. exists x, x'. repeat split; auto. apply mrun_exec; assumption.
Qed.
Lemma runs_ok ls f : forallb lab_ok ls && match mrun minit ls with Some x => f x | None => false end = true ->
  exists x, mreach ls x /\ f x = true.
Proof.
  intro H. apply andb_prop in H. destruct H as [A H]. destruct (mrun minit ls) as [x|] eqn:E; [|discriminate].
  exists x. split; [apply mrun_exec; assumption|exact H].
Qed.
(** Tests of a state: Task [t] leaves the block of [i]; [h] is in the history; [u] ended with [e]. *)
Definition exits (t i : nat) (lv : leave) (c : bool) (x : mst) : bool :=
  match x_cb x, x_pend x t, s_ctl (x_k x) with
  | None, Some _, (FRun u | FClose u) :: _ => Nat.eqb u t && (if exit_dec (last_exit t (x_hist x)) (Some (i, lv, c)) then true else false)
  | _, _, _ => false
  end.
Lemma exits_ok t i lv c x : exits t i lv c x = true -> in_exit x t /\ last_exit t (x_hist x) = Some (i, lv, c).
Proof.
  unfold exits, in_exit. destruct (x_cb x); [discriminate|]. destruct (x_pend x t); [|discriminate].
  destruct (s_ctl (x_k x)) as [|[u|u|u j a] rest]; try discriminate; intro E; apply andb_prop in E; destruct E as [E F];
    apply Nat.eqb_eq in E; subst u; destruct (exit_dec _ _) as [D|]; try discriminate; (split; [|exact D]); repeat split; try congruence; exists rest; auto.
Qed.
Definition happened (h : hist) (x : mst) : bool := if in_dec hist_dec h (x_hist x) then true else false.
Lemma happened_ok h x : happened h x = true -> In h (x_hist x).
Proof. unfold happened. destruct (in_dec _ _ _); [auto|discriminate]. Qed.
Lemma happened_not h x : happened h x = false -> ~ In h (x_hist x).
Proof. unfold happened. destruct (in_dec _ _ _); [discriminate|auto]. Qed.
Definition failedb (u : tid) (e : exc) (x : mst) : bool :=
  tstate_eqb (state_of (x_k x) u) Errored && match k_outcome (s_task (x_k x) u) with Some (OExc f) => exc_eqb f e | _ => false end.
Lemma failedb_ok u e x : failedb u e x = true -> failed x u e.
Proof.
  unfold failedb, failed. intro H. apply andb_prop in H. destruct H as [A B]. destruct (state_of _ _); try discriminate.
  destruct (k_outcome _) as [[v|f]|]; try discriminate. apply exc_eqb_eq in B. subst. auto.
Qed.
Ltac ands := repeat match goal with H : _ && _ = true |- _ => apply andb_prop in H; destruct H end.

(** Task 0 creates a manager, enters its block and starts Tasks 1 and 2 with [continue_on_error] = [b1], [b2]; it awaits a trigger;
    Task 1 runs, awaits another trigger; Task 2 has control. *)
Notation U l := (XUser l).
Notation K o := (XUser (LOp o)).
Definition opens (d : bool) (c : option bool) (b1 b2 : bool) : list mlabel :=
  [K (OpStart 0); U LPop; XNew d c; XEnter 0; XStart 0 1 (Some b1); XStart 0 2 (Some b2)].
Definition two_run : list mlabel := [U LPop; U (LAwait (TGpi 5) true); U LPop].
(** The child which has control ends with [l]; the callback finds no reason to cancel / cancels the parent and the other child /
    cancels the other child only. *)
Definition ends (l : label) : list mlabel := [U l; XLib; XLib; XLib; U LDoneNext].
Definition ends_cancel (l : label) : list mlabel := [U l; XLib; XLib; XLib; XLib; XLib; XLib; U LDoneNext].
Definition ends_cancel1 (l : label) : list mlabel := [U l; XLib; XLib; XLib; XLib; XLib; U LDoneNext].


(** * C31 *)
(** When [__aexit__] ends the block of [i], normally or with an exception, all children of [i] are done. *)
Theorem C31_all_done : forall ls x l y r t i lv c, mreach ls x -> mstep x l = Some (y, r) -> leaves r = true -> in_exit x t ->
  last_exit t (x_hist x) = Some (i, lv, c) -> regular lv c -> all_done x i.
Proof.
  intros ls x l y r t i lv c R St L I Le Rg. destruct (mreach_on _ _ _ _ _ R St) as [M _]. apply (rem_done x i M).
  apply (left_rem _ _ _ _ _ _ _ _ _ R St L I Le Rg).
Qed.
Print Assumptions C31_all_done.
Definition fails_in_wait : list mlabel :=
  opens false None false false ++ [XExit LvNone; XLib] ++ two_run ++ ends_cancel1 (LRaise (EUser 3)) ++ [U LPop] ++
  ends (LRaise (ECancelled 0)) ++ [U LPop].
Definition fails_in_block : list mlabel :=
  opens false None false false ++ [U (LAwait (TGpi 6) true)] ++ two_run ++ ends_cancel (LRaise (EUser 3)) ++
  [U LPop; XExit (LvExc (ECancelled 0)); XLib; U LPop] ++ ends (LRaise (ECancelled 0)) ++ [U LPop].
Definition both_return : list mlabel :=
  opens false None false false ++ [XExit LvNone; XLib] ++ two_run ++ ends (LReturn 1) ++ [U (LFire 5); U LPop] ++ ends (LReturn 1) ++ [U LPop].
Definition block_raises : list mlabel :=
  opens false (Some true) true true ++ [XExit (LvExc (EUser 9)); XLib] ++ two_run ++ ends (LRaise (EUser 3)) ++ [U (LFire 5); U LPop] ++
  ends (LReturn 4) ++ [U LPop].
Definition cancelled_outside : list mlabel :=
  opens false None true true ++ [XExit LvNone; XLib] ++ two_run ++ ends (LRaise (EUser 3)) ++
  [K (OpCancel 0 1); U LPop; XLib; XLib; XLib; XLib; U LPop] ++ ends (LRaise (ECancelled 0)) ++ [U LPop; XLib].
Example C31_all_done_ex : exists ls x y, mreach ls x /\ mstep x (XGroup [EUser 3]) = Some (y, TGroup [EUser 3]) /\
  in_exit x 0 /\ last_exit 0 (x_hist x) = Some (0, LvExc (ECancelled 0), true) /\ child x 0 1 false /\ child x 0 2 false.
Proof.
  destruct (gives_ok fails_in_block (XGroup [EUser 3]) (TGroup [EUser 3])
    (fun x => exits 0 0 (LvExc (ECancelled 0)) true x && happened (HStart 0 1 false) x && happened (HStart 0 2 false) x)) as (x & y & R & St & F);
    [vm_compute; reflexivity|]. ands. destruct (exits_ok _ _ _ _ _ H) as [A B]. exists fails_in_block, x, y. repeat split; auto; try apply A; now apply happened_ok.
Qed.

(** Once there is a reason (a child without [continue_on_error] failed and its callbacks are being called; the block was left with an
    exception; an exception was thrown into the wait), user code sees every child either done or cancelled by the manager (unless
    cancelling one of them raised). *)
Theorem C31_cancels : forall ls x i v b, mreach ls x -> x_esc x = false -> user_control x = true ->
  exit_cause x i \/ (exists u e, child x i u false /\ failed x u e /\ forall a, ~ In (FDone u 0 a) (s_ctl (x_k x))) ->
  child x i v b -> done (x_k x) v = false -> In (HCancel i v) (x_hist x) \/ In (HBroken i) (x_hist x).
Proof.
  intros ls x i v b R He Uc Ca C D. destruct (mreach_full ls x R) as [E|(M & B & W)]; [congruence|].
  assert (Hi : i < x_n x) by exact (B_old x B _ C). destruct (control_top x Uc) as [Eb Et].
  assert (Cn : m_canc (x_m x i) = true).
  { destruct Ca as [Q|(u & e & Cu & F & N)]; [now apply (W i Hi)|]. destruct (B_failed x B i u e Cu F) as [I|[E|E]]; [|congruence|exact E].
    exfalso. apply (A_rem x M) in I. destruct I as [_ [[Q|[a Q]]|Q]].
    - destruct F as [F _]. unfold done in Q. rewrite F in Q. discriminate.
    - now apply (N a).
    - congruence. }
  assert (I : In (v, b) (m_rem (x_m x i))) by (apply (A_rem x M); split; [exact C|]; left; now left).
  destruct (B_canc1 x B i v b Hi Cn I) as [Q|(l & [A|[A|(t & n & A)]] & _)]; [exact Q|congruence|congruence|].
  destruct (A_busy x M t _ A eq_refl) as [T _]. rewrite (Et t T) in A. discriminate.
Qed.
Print Assumptions C31_cancels.
Example C31_cancels_ex : exists ls x, mreach ls x /\ x_esc x = false /\ user_control x = true /\ child x 0 2 false /\ failed x 2 (EUser 3) /\
  (forall a, ~ In (FDone 2 0 a) (s_ctl (x_k x))) /\ child x 0 1 false /\ done (x_k x) 1 = false.
Proof.
  destruct (runs_ok (opens false None false false ++ [XExit LvNone; XLib] ++ two_run ++ ends_cancel1 (LRaise (EUser 3)))
    (fun x => negb (x_esc x) && user_control x && happened (HStart 0 1 false) x && happened (HStart 0 2 false) x && failedb 2 (EUser 3) x &&
       match s_ctl (x_k x) with [] => true | _ => false end && negb (done (x_k x) 1))) as (x & R & F); [vm_compute; reflexivity|].
  ands. eexists _, x. split; [exact R|]. split; [now apply negb_true_iff|]. split; [assumption|]. split; [now apply happened_ok|].
  split; [now apply failedb_ok|]. split; [|split; [now apply happened_ok|now apply negb_true_iff]].
  intros a I. destruct (s_ctl (x_k x)); [destruct I|discriminate].
Qed.
Example C31_cancels_ex2 : exists ls x, mreach ls x /\ x_esc x = false /\ user_control x = true /\ exit_cause x 0 /\
  child x 0 1 true /\ done (x_k x) 1 = false.
Proof.
  destruct (runs_ok (opens false None true true ++ [XExit (LvExc (EUser 9)); XLib; XLib; XLib; XLib])
    (fun x => negb (x_esc x) && user_control x && happened (HStart 0 1 true) x && happened (HExit 0 0 (LvExc (EUser 9)) false) x &&
       negb (m_context (x_m x 0)) && negb (done (x_k x) 1))) as (x & R & F); [vm_compute; reflexivity|].
  ands. eexists _, x. split; [exact R|]. split; [now apply negb_true_iff|]. split; [assumption|].
  split; [|split; [now apply happened_ok|now apply negb_true_iff]]. left. exists 0, (LvExc (EUser 9)), false.
  split; [now apply happened_ok|]. intros _. now apply negb_true_iff.
Qed.

(** A manager cancels its children only for one of these reasons. *)
Theorem C31_cancel_reason : forall ls x i u, mreach ls x -> x_esc x = false -> In (HCancel i u) (x_hist x) ->
  exit_cause x i \/ child_cause x i.
Proof.
  intros ls x i u R He I. destruct (mreach_full ls x R) as [E|(M & B & W)]; [congruence|].
  assert (Hi : i < x_n x) by exact (B_old x B _ I). apply (W i Hi). destruct (m_canc (x_m x i)) eqn:Ec; [reflexivity|].
  elim (B_canc0 x B i u Ec I).
Qed.
Print Assumptions C31_cancel_reason.
Example C31_cancel_reason_ex : exists ls x, mreach ls x /\ x_esc x = false /\ In (HCancel 0 1) (x_hist x).
Proof.
  destruct (runs_ok fails_in_wait (fun x => negb (x_esc x) && happened (HCancel 0 1) x)) as (x & R & F); [vm_compute; reflexivity|].
  ands. eexists _, x. split; [exact R|]. split; [now apply negb_true_iff|now apply happened_ok].
Qed.

(** No child is cancelled twice by its manager. *)
Theorem C31_cancel_once : forall ls x i, mreach ls x -> x_esc x = false -> NoDup (cancelled_by i (x_hist x)).
Proof. intros ls x i R He. destruct (mreach_inv ls x R) as [E|[M B]]; [congruence|]. apply (B_once x B). Qed.
Print Assumptions C31_cancel_once.
Example C31_cancel_once_ex : exists ls x, mreach ls x /\ x_esc x = false /\ cancelled_by 0 (x_hist x) = [2; 1].
Proof.
  destruct (runs_ok (opens false None true true ++ [XExit (LvExc (EUser 9)); XLib; XLib; XLib; XLib])
    (fun x => negb (x_esc x) && if list_eq_dec Nat.eq_dec (cancelled_by 0 (x_hist x)) [2; 1] then true else false)) as (x & R & F);
    [vm_compute; reflexivity|]. ands. eexists _, x. split; [exact R|]. split; [now apply negb_true_iff|].
  destruct (list_eq_dec _ _ _); [assumption|discriminate].
Qed.

(** start_soon() refuses, and changes nothing, outside the block (not entered, left, or called by another Task) and once the
    manager has cancelled a child or a failure demands it. *)
Theorem C31_start_refused : forall ls x i u coe y r, mreach ls x -> mstep x (XStart i u coe) = Some (y, r) ->
  (exists t lv c, In (HExit t i lv c) (x_hist x)) \/ last_enter i (x_hist x) = None \/ last_enter i (x_hist x) <> s_current (x_k x) \/
  (exists v, In (HCancel i v) (x_hist x)) \/
  (exists v e, child x i v false /\ failed x v e /\ forall a, ~ In (FDone v 0 a) (s_ctl (x_k x))) ->
  y = x /\ (r = TRefused \/ r = TAttribute).
Proof.
  intros ls x i u coe y r R St Why. destruct (mstep_on _ _ _ _ St) as [Ha He]. destruct (mreach_full ls x R) as [E|(M & B & W)]; [congruence|].
  unfold mstep in St. rewrite Ha, He in St. cbn [orb] in St. destruct (user_control x) eqn:Uc; [|discriminate].
  destruct (Nat.ltb_spec i (x_n x)) as [Hi|]; [|discriminate]. destruct (fresh (x_k x) u) eqn:Fr; [|discriminate]. cbn [andb] in St.
  destruct (control_top x Uc) as [Eb _]. pose proof (B_par x B i Hi) as Pa.
  assert (Ok : forall q, Some (x, q) = Some (y, r) -> q = TRefused \/ q = TAttribute -> y = x /\ (r = TRefused \/ r = TAttribute)).
  { intros q E Q. injection E as <- <-. auto. }
  unfold manager_start in St. cbv zeta in St. destruct (m_canc (x_m x i)) eqn:Ec; [apply (Ok _ St); auto|].
  destruct (m_fin (x_m x i)) eqn:Ef; [apply (Ok _ St); auto|]. destruct (negb (m_entered (x_m x i))); [apply (Ok _ St); auto|].
  destruct (s_current (x_k x)) as [cu|] eqn:Es; [|apply (Ok _ St); auto]. destruct (m_parent (x_m x i)) as [pa|] eqn:Ep; [|apply (Ok _ St); auto].
  destruct (Nat.eqb_spec cu pa) as [->|N]; [|apply (Ok _ St); auto]. exfalso.
  destruct Why as [(t & lv & c & I)|[N|[N|[(v & I)|(v & e & C & F & N)]]]].
  - apply (B_fin x B) in I. congruence.
  - congruence.
  - congruence.
  - now apply (B_canc0 x B i v Ec).
  - destruct (B_failed x B i v e C F) as [I|[E|E]]; [|congruence|congruence]. apply (A_rem x M) in I. destruct I as [_ [[Q|[a Q]]|Q]].
    + destruct F as [F _]. unfold done in Q. rewrite F in Q. discriminate.
    + now apply (N a).
    + congruence.
Qed.
Print Assumptions C31_start_refused.
Example C31_start_refused_ex : exists ls x y, mreach ls x /\ mstep x (XStart 0 3 None) = Some (y, TRefused) /\
  last_enter 0 (x_hist x) <> s_current (x_k x).
Proof.
  destruct (gives_ok (opens false None false false ++ [U (LAwait (TGpi 6) true); U LPop]) (XStart 0 3 None) TRefused
    (fun x => match last_enter 0 (x_hist x), s_current (x_k x) with Some a, Some b => negb (Nat.eqb a b) | _, _ => false end)) as (x & y & R & St & F);
    [vm_compute; reflexivity|]. eexists _, x, y. split; [exact R|]. split; [exact St|].
  destruct (last_enter 0 (x_hist x)), (s_current (x_k x)); try discriminate. intro E. injection E as ->. rewrite Nat.eqb_refl in F. discriminate.
Qed.
Example C31_start_refused_ex2 : exists ls x y, mreach ls x /\ mstep x (XStart 0 3 None) = Some (y, TRefused) /\
  last_enter 0 (x_hist x) = s_current (x_k x) /\ child x 0 2 false /\ failed x 2 (EUser 3) /\ forall a, ~ In (FDone 2 0 a) (s_ctl (x_k x)).
Proof.
  destruct (gives_ok (opens false None false false ++ [U (LAwait (TGpi 6) true)] ++ two_run ++ ends_cancel (LRaise (EUser 3)) ++ [U LPop])
    (XStart 0 3 None) TRefused
    (fun x => match last_enter 0 (x_hist x), s_current (x_k x) with Some a, Some b => Nat.eqb a b | _, _ => false end &&
      happened (HStart 0 2 false) x && failedb 2 (EUser 3) x && match s_ctl (x_k x) with [FRun _] => true | _ => false end)) as (x & y & R & St & F);
    [vm_compute; reflexivity|]. ands. eexists _, x, y. split; [exact R|]. split; [exact St|].
  split; [destruct (last_enter 0 (x_hist x)), (s_current (x_k x)); try discriminate; apply Nat.eqb_eq in H; now subst|].
  split; [now apply happened_ok|]. split; [now apply failedb_ok|]. intros a I.
  destruct (s_ctl (x_k x)) as [|[|?|?] [|]]; try discriminate. destruct I as [I|[]]. discriminate.
Qed.

(** Within the block, before any of this, start_soon() by the Task which entered it last starts the child. *)
Theorem C31_start_accepted : forall ls x i u coe y r t, mreach ls x -> mstep x (XStart i u coe) = Some (y, r) ->
  last_enter i (x_hist x) = Some t -> s_current (x_k x) = Some t -> (forall t lv c, ~ In (HExit t i lv c) (x_hist x)) ->
  ~ exit_cause x i -> ~ child_cause x i ->
  r = TUnit /\ (exists b, child y i u b /\ forall b', coe = Some b' -> b = b') /\ state_of (x_k y) u = Scheduled.
Proof.
  intros ls x i u coe y r t R St Le Cu No Nx Nc. destruct (mstep_on _ _ _ _ St) as [Ha He]. destruct (mreach_full ls x R) as [E|(M & B & W)]; [congruence|].
  destruct (mreach_ei ls x R i) as [E1 E2].
  unfold mstep in St. rewrite Ha, He in St. cbn [orb] in St. destruct (user_control x) eqn:Uc; [|discriminate].
  destruct (Nat.ltb_spec i (x_n x)) as [Hi|]; [|discriminate]. destruct (fresh (x_k x) u) eqn:Fr; [|discriminate]. cbn [andb] in St.
  pose proof (B_par x B i Hi) as Pa. rewrite Le in Pa.
  unfold manager_start in St. cbv zeta in St. destruct (m_canc (x_m x i)) eqn:Ec.
  { exfalso. destruct (proj1 (W i Hi) Ec); contradiction. }
  destruct (m_fin (x_m x i)); [destruct (E1 eq_refl) as (t0 & lv & c & J); elim (No t0 lv c J)|].
  rewrite (E2 ltac:(congruence)), Cu, Pa, Nat.eqb_refl in St. cbn [negb] in St.
  destruct (start_facts (x_k x) u i Fr) as (Es & _). cbv zeta in Es. rewrite Es in St. injection St as <- <-.
  split; [reflexivity|]. split.
  - eexists. split; [now left|]. now intros b' ->.
  - unfold state_of, schedule_resume. cbn. rewrite upd_same. reflexivity.
Qed.
Print Assumptions C31_start_accepted.
Example C31_start_accepted_ex : exists ls x y, mreach ls x /\ mstep x (XStart 0 3 (Some true)) = Some (y, TUnit) /\
  last_enter 0 (x_hist x) = Some 0 /\ s_current (x_k x) = Some 0 /\ (forall t lv c, ~ In (HExit t 0 lv c) (x_hist x)) /\
  ~ exit_cause x 0 /\ ~ child_cause x 0 /\ failed x 2 (EUser 3) /\ child x 0 2 true.
Proof.
  destruct (gives_ok (opens false None true true ++ [U (LAwait (TGpi 6) true)] ++ two_run ++ ends (LRaise (EUser 3)) ++ [U (LFire 6); U LPop])
    (XStart 0 3 (Some true)) TUnit
    (fun x => match last_enter 0 (x_hist x), s_current (x_k x) with Some 0, Some 0 => true | _, _ => false end &&
      (if list_eq_dec hist_dec (x_hist x) [HStart 0 2 true; HStart 0 1 true; HEnter 0 0] then true else false) && failedb 2 (EUser 3) x)) as (x & y & R & St & F);
    [vm_compute; reflexivity|]. ands. destruct (list_eq_dec _ _ _) as [E|]; [|discriminate].
  eexists _, x, y. split; [exact R|]. split; [exact St|].
  split; [destruct (last_enter 0 (x_hist x)) as [[|?]|], (s_current (x_k x)) as [[|?]|]; try discriminate; reflexivity|].
  split; [destruct (last_enter 0 (x_hist x)) as [[|?]|], (s_current (x_k x)) as [[|?]|]; try discriminate; reflexivity|].
  unfold exit_cause, child_cause, child. rewrite E.
  split; [intros t lv c [Q|[Q|[Q|[]]]]; discriminate|].
  split; [intros [(t & lv & c & [Q|[Q|[Q|[]]]] & _)|(t & e & [Q|[Q|[Q|[]]]])]; discriminate|].
  split; [intros (u & e & [Q|[Q|[Q|[]]]] & _); discriminate|].
  split; [now apply failedb_ok|now left].
Qed.

Lemma called_done k u a q : Inv k -> s_ctl k = FDone u 1 a :: q -> done k u = true.
Proof. intros H E. apply (D_fin _ (J_dn _ _ H)). rewrite E. now left. Qed.
Lemma done_exception k u : Inv k -> done k u = true -> py_cancelled k u = false -> match py_exception k u with NoExc | Exc _ => True | _ => False end.
Proof.
  intros H D Pc. destruct (D_out _ (J_dn _ _ H) u D) as (o & Eo & F). unfold py_exception, py_cancelled, done in *. rewrite Eo.
  destruct (state_of k u); try discriminate; [exact Logic.I|]. destruct o; [destruct F|exact Logic.I].
Qed.
(** The errors which TaskManager itself can run into: only the RuntimeError of Task.cancel() on a Task which is running. *)
Theorem C31_errors : forall ls x l y e, mreach ls x -> sim_ok x l -> mstep x l = Some (y, TErr e) \/ mstep x l = Some (y, TEscape e) ->
  e = PRuntime /\ exists v, state_of (x_k x) v = Running.
Proof.
  intros ls x l y e R Ok St. assert (Mi : MI x) by (destruct St as [St|St]; apply (mreach_on _ _ _ _ _ R St)).
  assert (Ca : forall u k e', cancel (x_k x) u 0 = (k, RErr e') -> e' = PRuntime /\ exists v, state_of (x_k x) v = Running).
  { intros u k e' E. pose proof (proj2 (ok_cancel (x_k x) u 0 (A_k x Mi))) as Fa. rewrite E in Fa. cbn in Fa.
    assert (e' = PRuntime) as -> by (destruct e'; try contradiction; reflexivity). split; [reflexivity|]. exists u.
    unfold cancel in E. destruct (state_of (x_k x) u); try discriminate; [|reflexivity]. exfalso.
    destruct (cancel_tcb (x_k x) u) as [k1 [e1|]] eqn:Et; [|discriminate]. injection E as <- ->.
    unfold cancel_tcb in Et. destruct (k_tcb _) as [[tr h]|]; [|discriminate]. unfold deregister in Et. cbv zeta in Et.
    destruct (existsb _ _); [|discriminate]. destruct (s_cbs (set_cbs _ _ _) tr); [|discriminate]. unfold unprime in Et.
    destruct tr; try discriminate. destruct (g_hdl _); discriminate. }
  assert (Co : forall i u z e', cancel_one x i u = (z, Some e') -> e' = PRuntime /\ exists v, state_of (x_k x) v = Running).
  { intros i u z e' E. unfold cancel_one in E. destruct (cancel (x_k x) u 0) as [k []] eqn:Ec; try discriminate. injection E as _ ->. apply (Ca _ _ _ Ec). }
  assert (Su : forall rest t i p q, suspend x rest t (TEvent i) p = q -> snd q = TBlocked) by (intros; subst; reflexivity).
  assert (Go : forall t i l0 n, go_cancel x t i l0 n = (y, TErr e) \/ go_cancel x t i l0 n = (y, TEscape e) -> e = PRuntime /\ exists v, state_of (x_k x) v = Running).
  { intros t i l0 n Q. unfold go_cancel in Q. destruct l0 as [|u us].
    - destruct n; try (destruct Q; discriminate). unfold uncancel_parent in Q. destruct (m_parent _); destruct Q; discriminate.
    - destruct (cancel_one x i u) as [z [e'|]] eqn:Ec; [|destruct Q; discriminate]. destruct Q as [Q|Q]; [|discriminate]. injection Q as _ ->. apply (Co _ _ _ _ Ec). }
  destruct (mstep_on x l y (match mstep x l with Some (_, r) => r | None => TUnit end)) as [Ha He]; [destruct St as [St|St]; rewrite St; reflexivity|].
  unfold mstep in St. rewrite Ha, He in St. cbn [orb] in St.
  assert (Lib : forall es, lib_step x es = Some (y, TErr e) \/ lib_step x es = Some (y, TEscape e) -> e = PRuntime /\ exists v, state_of (x_k x) v = Running).
  { intros es Q. unfold lib_step in Q. destruct (x_cb x) as [c|] eqn:Eb.
    - destruct es; [destruct Q; discriminate|]. assert (Q' : callback_step x c = (y, TErr e) \/ callback_step x c = (y, TEscape e)) by (destruct Q; [left|right]; congruence).
      clear Q. assert (P := A_cb x Mi c Eb). destruct c as [i u|i u coe|i todo|i todo]; cbn [callback_step] in Q'; cbv zeta in Q'.
      + destruct (find_rem _ _) as [b|] eqn:Ef; [destruct Q'; discriminate|]. exfalso. destruct P as [[b C] _].
        assert (I : In (u, b) (m_rem (x_m x i))) by (apply (A_rem x Mi); auto). now apply (find_rem_none _ _ Ef b).
      + destruct P as [C (a & q & Cl)]. destruct (py_cancelled (x_k x) u) eqn:Pc; [destruct Q'; discriminate|].
        pose proof (called_done (x_k x) u a q (A_k x Mi) Cl) as D. pose proof (done_exception (x_k x) u (A_k x Mi) D Pc) as Px.
        destruct (py_exception (x_k x) u); try contradiction; [destruct Q'; discriminate|]. destruct (coe || _); destruct Q'; discriminate.
      + destruct (m_parent _); [|destruct Q'; discriminate]. destruct (cancel (x_k x) t 0) as [k []] eqn:Ec; try (destruct Q'; discriminate).
        destruct Q' as [Q'|Q']; [discriminate|]. injection Q' as _ ->. apply (Ca _ _ _ Ec).
      + destruct todo as [|u us]; [destruct Q'; discriminate|]. destruct (cancel_one x i u) as [z [e'|]] eqn:Ec; [|destruct Q'; discriminate].
        destruct Q' as [Q'|Q']; [discriminate|]. injection Q' as _ ->. apply (Co _ _ _ _ Ec).
    - destruct (s_ctl (x_k x)) as [|[t|t|u j a] rest] eqn:Ec; [destruct Q; discriminate| | |].
      + destruct (x_pend x t) as [p|]; [|destruct Q; discriminate]. unfold run_step in Q. cbv zeta in Q. destruct p as [i todo n|i|i m|i m|i o|i o].
        * destruct es; [destruct Q; discriminate|]. apply (Go t i todo n). destruct Q; [left|right]; congruence.
        * destruct (k_exc _), es; destruct Q; discriminate.
        * destruct es; [destruct Q; discriminate|]. destruct (s_event _ _); destruct Q; discriminate.
        * destruct (k_exc _) as [[]|], es; try (destruct Q; discriminate). unfold uncancel_parent in Q. destruct (m_parent _); destruct Q; discriminate.
        * destruct es; destruct Q; discriminate.
        * destruct (k_exc _) as [[]|]; try (destruct es; destruct Q; discriminate). exfalso. destruct Q as [Q|Q]; apply conclude_res in Q; exact Q.
      + destruct (x_pend x t) as [p|]; [|destruct Q; discriminate]. destruct es; [destruct Q; discriminate|]. unfold close_step in Q.
        destruct p as [i todo n|i|i m|i m|i o|i o]; try (destruct Q; discriminate). apply (Go t i todo n). destruct Q; [left|right]; congruence.
      + destruct (nth_error _ j); [|destruct Q; discriminate]. destruct es; [destruct Q; discriminate|]. destruct (Nat.even _); [destruct Q; discriminate|].
        destruct (step _ _) as [[k q]|]; destruct Q; discriminate. }
  destruct l as [kl|d c|i u b|i|lv| |es].
  - destruct (user_can x kl && user_label kl); [|destruct St; discriminate]. destruct (step _ _) as [[k q]|]; destruct St; discriminate.
  - destruct (user_control x); destruct St; discriminate.
  - destruct (fresh (x_k x) u) eqn:Fr; [|rewrite andb_false_r in St; destruct St; discriminate].
    destruct (_ && _); [|destruct St; discriminate]. exfalso. unfold manager_start in St. cbv zeta in St.
    destruct (m_canc (x_m x i)); [destruct St; discriminate|]. destruct (m_fin (x_m x i)); [destruct St; discriminate|].
    destruct (negb (m_entered (x_m x i))); [destruct St; discriminate|].
    destruct (s_current (x_k x)) as [cu|], (m_parent (x_m x i)); try (destruct St; discriminate).
    destruct (negb (Nat.eqb _ _)); [destruct St; discriminate|]. destruct (start_facts (x_k x) u i Fr) as (Es & _). cbv zeta in Es.
    rewrite Es in St. destruct St; discriminate.
  - destruct (s_ctl (x_k x)) as [|[t|t|u j a] rest]; try (destruct St; discriminate). destruct (_ && _); [|destruct St; discriminate].
    unfold manager_enter in St. cbv zeta in St. destruct (m_fin (x_m x i)); [destruct St; discriminate|]. destruct (s_current _); destruct St; discriminate.
  - exfalso. destruct (user_control x); [|destruct St; discriminate].
    assert (Be : forall z rest t i, snd (begin_exit z rest t i lv) <> TErr e /\ snd (begin_exit z rest t i lv) <> TEscape e).
    { intros z rest t i. unfold begin_exit, uncancel_parent, suspend, await_trigger. cbn [await_check].
      destruct lv as [|[]|]; repeat match goal with |- context[if ?b then _ else _] => destruct b end;
        try (destruct (m_parent _)); cbn; split; discriminate. }
    destruct (s_ctl (x_k x)) as [|[t|t|u j a] rest]; destruct lv; try (destruct St; discriminate); destruct (x_in x t) as [|i q]; try (destruct St; discriminate);
      destruct (Be (set_in x t q) rest t i) as [N1 N2]; (destruct St as [St|St];
      apply (f_equal (fun o => match o with Some q => snd q | None => TUnit end)) in St; [now apply N1|now apply N2]).
  - apply (Lib _ St).
  - apply (Lib _ St).
Qed.
Print Assumptions C31_errors.
Definition escapes : list mlabel :=
  opens false None false false ++ [U (LAwait (TGpi 6) true)] ++ two_run ++ [U (LAwait (TGpi 7) true); K (OpAddDone 3 2);
    U (LFire 6); U LPop; K (OpKill 3); U LDoneNext; U (LCancelNow 2 5); U (LRaise (EUser 3)); XLib; XLib; XLib].
Example C31_errors_ex : exists ls x y, mreach ls x /\ sim_ok x XLib /\ mstep x XLib = Some (y, TEscape PRuntime).
Proof.
  destruct (gives_ok escapes XLib (TEscape PRuntime) (fun _ => true)) as (x & y & R & St & _); [vm_compute; reflexivity|]. exists escapes, x, y. repeat split; assumption.
Qed.

(** Without the restrictions of C31_all_done the claim is false: a block left with SystemExit ends while children are running... *)
Theorem C31_exit_refuted : exists ls x y, mreach ls x /\ mstep x XLib = Some (y, TReraise (EExit 1)) /\ in_exit x 0 /\
  last_exit 0 (x_hist x) = Some (0, LvExc (EExit 1), false) /\ child x 0 1 false /\ done (x_k x) 1 = false.
Proof.
  destruct (gives_ok (opens false None false false ++ [XExit (LvExc (EExit 1)); XLib; XLib]) XLib (TReraise (EExit 1))
    (fun x => exits 0 0 (LvExc (EExit 1)) false x && happened (HStart 0 1 false) x && negb (done (x_k x) 1))) as (x & y & R & St & F); [vm_compute; reflexivity|].
  ands. destruct (exits_ok _ _ _ _ _ H) as [A B]. eexists _, x, y. split; [exact R|]. split; [exact St|]. split; [exact A|]. split; [exact B|].
  split; [now apply happened_ok|now apply negb_true_iff].
Qed.
Print Assumptions C31_exit_refuted.
(** ...and a parent which was cancelled twice before it was resumed is closed in line 261 (task.py:374-389), before its children end. *)
Definition two_cancels : list mlabel :=
  opens false None false false ++ [U (LAwait (TGpi 6) true)] ++ two_run ++
  [U (LAwait (TGpi 7) true); K (OpCancel 0 1); K (OpCancel 0 2); U LPop; XExit (LvExc (ECancelled 2)); XLib; XLib; XLib; XLib].
Theorem C31_two_cancels_refuted : exists ls x y, mreach ls x /\ mstep x XLib = Some (y, TClosed) /\ in_exit x 0 /\
  last_exit 0 (x_hist x) = Some (0, LvExc (ECancelled 2), false) /\ child x 0 1 false /\ done (x_k x) 1 = false.
Proof.
  destruct (gives_ok two_cancels XLib TClosed
    (fun x => exits 0 0 (LvExc (ECancelled 2)) false x && happened (HStart 0 1 false) x && negb (done (x_k x) 1))) as (x & y & R & St & F); [vm_compute; reflexivity|].
  ands. destruct (exits_ok _ _ _ _ _ H) as [A B]. eexists _, x, y. split; [exact R|]. split; [exact St|]. split; [exact A|]. split; [exact B|].
  split; [now apply happened_ok|now apply negb_true_iff].
Qed.
Print Assumptions C31_two_cancels_refuted.
(** The code marked unreachable (251) is reached if the block swallows the CancelledError which the manager threw and the
    cancellation was acknowledged by other library code ([_uncancel] in gather() or wait()). *)
Theorem C31_unreachable_refuted : exists ls x y, mreach ls x /\ mstep x XLib = Some (y, TUnreachable) /\ child x 0 2 false /\ failed x 2 (EUser 3).
Proof.
  destruct (gives_ok (opens false None false false ++ [U (LAwait (TGpi 6) true)] ++ two_run ++ ends_cancel (LRaise (EUser 3)) ++
      [U LPop; K (OpUncancel 0); XExit LvNone; U LPop] ++ ends (LRaise (ECancelled 0)) ++ [U LPop]) XLib TUnreachable
    (fun x => happened (HStart 0 2 false) x && failedb 2 (EUser 3) x)) as (x & y & R & St & F); [vm_compute; reflexivity|].
  ands. eexists _, x, y. split; [exact R|]. split; [exact St|]. split; [now apply happened_ok|now apply failedb_ok].
Qed.
Print Assumptions C31_unreachable_refuted.
(** A child which enters the block of its own manager is waited for by itself; cancelling it raises, and the children after it
    are never cancelled. *)
Definition broken : list mlabel :=
  opens false None false false ++ [U (LAwait (TGpi 6) true); U LPop; XEnter 0; XExit (LvExc (EUser 9)); XLib].
Theorem C31_broken_refuted : exists ls x, mreach ls x /\ exit_cause x 0 /\ user_control x = true /\ child x 0 2 false /\ done (x_k x) 2 = false /\
  ~ In (HCancel 0 2) (x_hist x).
Proof.
  destruct (runs_ok broken (fun x => happened (HExit 1 0 (LvExc (EUser 9)) false) x && negb (m_context (x_m x 0)) && user_control x &&
    happened (HStart 0 2 false) x && negb (done (x_k x) 2) && negb (happened (HCancel 0 2) x))) as (x & R & F); [vm_compute; reflexivity|].
  ands. eexists _, x. split; [exact R|]. split.
  - left. exists 1, (LvExc (EUser 9)), false. split; [now apply happened_ok|]. intros _. now apply negb_true_iff.
  - split; [assumption|]. split; [now apply happened_ok|]. split; [now apply negb_true_iff|]. apply happened_not. now apply negb_true_iff.
Qed.
Print Assumptions C31_broken_refuted.

(** * C32 *)
(** The group raised contains, once each, exactly the exceptions of the failed children and the ordinary exception which left the
    block (no other block of the same manager having been left). *)
Theorem C32_group : forall ls x l y es t i lv c, mreach ls x -> mstep x l = Some (y, TGroup es) -> in_exit x t ->
  last_exit t (x_hist x) = Some (i, lv, c) ->
  es <> [] /\ NoDup es /\
  (forall e, child_failed x i e -> In e es) /\
  (forall e, lv = LvExc e -> ordinary e -> In e es) /\
  (forall e, In e es -> child_failed x i e \/ (ordinary e /\ exists t' c', In (HExit t' i (LvExc e) c') (x_hist x))).
Proof.
  intros ls x l y es t i lv c R St I Le. destruct (mreach_on _ _ _ _ _ R St) as [M B].
  destruct (leave_ok _ _ _ _ _ _ _ _ _ R St eq_refl I Le) as (p & Ei & Ep & Ok & i0 & o & Eo & Er & Li & Ne). subst p. cbn in Ei. subst i0.
  assert (Hi : i < x_n x) by exact (B_old x B _ (exit_lt x t i lv c B Le)). destruct I as (Ecb & _ & _).
  split; [|split; [now apply lists_nodup in Li|split; [|split]]].
  - intros ->. unfold lists in Li. destruct (final_exc _ _); [congruence|discriminate].
  - intros e F. apply (lists_in _ _ e Li). apply final_in. left. now apply failed_in.
  - intros e -> Or. apply (lists_in _ _ e Li). apply final_in. right. destruct o as [f|]; cbn in Ok.
    + destruct Ok as (E & _ & _). injection E as <-. split; [reflexivity|]. intros n ->. destruct Or.
    + exfalso. destruct Ok as [[E _]|[[m E] _]]; [discriminate|]. injection E as ->. destruct Or.
  - intros e J. apply (lists_in _ _ e Li) in J. apply final_in in J. destruct J as [J|[-> N]].
    + destruct (B_exc x B i e Hi J) as [(u & b & C & F)|(Pl & t' & c' & Q)]; [left; exists u, b; auto|right; split; [exact Pl|eauto]].
    + right. cbn in Ok. destruct Ok as (-> & Pl & _). split; [exact Pl|]. exists t, c. now apply exit_lt.
Qed.
Print Assumptions C32_group.
Example C32_group_ex : exists ls x y, mreach ls x /\ mstep x (XGroup [EUser 9; EUser 3]) = Some (y, TGroup [EUser 9; EUser 3]) /\ in_exit x 0 /\
  last_exit 0 (x_hist x) = Some (0, LvExc (EUser 9), false) /\ child_failed x 0 (EUser 3).
Proof.
  destruct (gives_ok block_raises (XGroup [EUser 9; EUser 3]) (TGroup [EUser 9; EUser 3])
    (fun x => exits 0 0 (LvExc (EUser 9)) false x && happened (HStart 0 2 true) x && failedb 2 (EUser 3) x)) as (x & y & R & St & F); [vm_compute; reflexivity|].
  ands. destruct (exits_ok _ _ _ _ _ H) as [A B]. eexists _, x, y. split; [exact R|]. split; [exact St|]. split; [exact A|]. split; [exact B|].
  exists 2, true. split; [now apply happened_ok|now apply failedb_ok].
Qed.

(** The block ends without exception only if no child failed and no ordinary exception left it. *)
Theorem C32_ok : forall ls x l y t i lv c, mreach ls x -> mstep x l = Some (y, TOk) -> in_exit x t -> last_exit t (x_hist x) = Some (i, lv, c) ->
  (forall e, ~ child_failed x i e) /\ (lv = LvNone \/ exists m, lv = LvExc (ECancelled m)).
Proof.
  intros ls x l y t i lv c R St I Le. destruct (mreach_on _ _ _ _ _ R St) as [M B].
  destruct (leave_ok _ _ _ _ _ _ _ _ _ R St eq_refl I Le) as (p & Ei & Ep & Ok & i0 & o & Eo & Er & Fe). subst p. cbn in Ei. subst i0. destruct I as (Ecb & _ & _).
  assert (Nf : forall e, ~ In e (final_exc (x_m x i) o)) by (intros e J; rewrite Fe in J; destruct J). split.
  - intros e F. apply (Nf e). apply final_in. left. now apply failed_in.
  - destruct o as [e|]; cbn in Ok.
    + exfalso. destruct Ok as (_ & Pl & _). apply (Nf e). apply final_in. right. split; [reflexivity|]. intros n ->. destruct Pl.
    + destruct Ok as [[-> _]|[[m ->] _]]; eauto.
Qed.
Print Assumptions C32_ok.
Example C32_ok_ex : exists ls x y, mreach ls x /\ mstep x XLib = Some (y, TOk) /\ in_exit x 0 /\ last_exit 0 (x_hist x) = Some (0, LvNone, false) /\
  child x 0 1 false /\ child x 0 2 false.
Proof.
  destruct (gives_ok both_return XLib TOk (fun x => exits 0 0 LvNone false x && happened (HStart 0 1 false) x && happened (HStart 0 2 false) x))
    as (x & y & R & St & F); [vm_compute; reflexivity|].
  ands. destruct (exits_ok _ _ _ _ _ H) as [A B]. eexists _, x, y. split; [exact R|]. split; [exact St|]. split; [exact A|]. split; [exact B|].
  split; now apply happened_ok.
Qed.

(** An exception which leaves the block as it is is a cancellation of the parent from outside: the one which left the block before
    the manager had cancelled its children, or the one thrown into the wait for them. *)
Theorem C32_reraise : forall ls x l y e t i lv c, mreach ls x -> mstep x l = Some (y, TReraise e) -> in_exit x t ->
  last_exit t (x_hist x) = Some (i, lv, c) -> regular lv c ->
  exists m, e = ECancelled m /\ (lv = LvExc e /\ c = false \/ thrown_since t (x_hist x) = Some (Some e)).
Proof.
  intros ls x l y e t i lv c R St I Le Rg.
  destruct (leave_ok _ _ _ _ _ _ _ _ _ R St eq_refl I Le) as (p & Ei & Ep & Ok & At). cbn in At.
  destruct At as [[j ->]|[[j ->]|(j & m & -> & -> & E)]]; cbn in Ei, Ok.
  - destruct Ok as (n & -> & ->). destruct Rg.
  - exfalso. destruct Ok as [-> [->|(e' & -> & Pl)]]; cbn in Rg; [discriminate|]. unfold plain in Pl. destruct e'; cbn in *; try discriminate; contradiction.
  - exists m. split; [reflexivity|]. exact Ok.
Qed.
Print Assumptions C32_reraise.
Example C32_reraise_ex : exists ls x y, mreach ls x /\ mstep x XLib = Some (y, TReraise (ECancelled 1)) /\ in_exit x 0 /\
  last_exit 0 (x_hist x) = Some (0, LvNone, false).
Proof.
  destruct (gives_ok cancelled_outside XLib (TReraise (ECancelled 1)) (fun x => exits 0 0 LvNone false x)) as (x & y & R & St & F); [vm_compute; reflexivity|].
  destruct (exits_ok _ _ _ _ _ F) as [A B]. eexists _, x, y. repeat split; try exact R; try exact St; try exact B; apply A.
Qed.

(** In that case the exceptions of failed children are dropped. *)
Theorem C32_dropped_refuted : exists ls x y, mreach ls x /\ mstep x XLib = Some (y, TReraise (ECancelled 1)) /\ in_exit x 0 /\
  last_exit 0 (x_hist x) = Some (0, LvNone, false) /\ child_failed x 0 (EUser 3).
Proof.
  destruct (gives_ok cancelled_outside XLib (TReraise (ECancelled 1))
    (fun x => exits 0 0 LvNone false x && happened (HStart 0 2 true) x && failedb 2 (EUser 3) x)) as (x & y & R & St & F); [vm_compute; reflexivity|].
  ands. destruct (exits_ok _ _ _ _ _ H) as [A B]. eexists _, x, y. split; [exact R|]. split; [exact St|]. split; [exact A|]. split; [exact B|].
  exists 2, true. split; [now apply happened_ok|now apply failedb_ok].
Qed.
Print Assumptions C32_dropped_refuted.
(** The order in which the children ended is not kept: 2 failed first, with 3, then 1 with 4. *)
Definition both_fail (e : exc) : list mlabel :=
  opens false None true true ++ [XExit LvNone; XLib] ++ two_run ++ ends (LRaise (EUser 3)) ++ [U (LFire 5); U LPop] ++ ends (LRaise e) ++ [U LPop].
Theorem C32_order_refuted : exists ls x y y', mreach ls x /\ mstep x (XGroup [EUser 4; EUser 3]) = Some (y, TGroup [EUser 4; EUser 3]) /\
  mstep x (XGroup [EUser 3; EUser 4]) = Some (y', TGroup [EUser 3; EUser 4]).
Proof.
  destruct (gives_ok (both_fail (EUser 4)) (XGroup [EUser 4; EUser 3]) (TGroup [EUser 4; EUser 3])
    (fun x => match mstep x (XGroup [EUser 3; EUser 4]) with Some (_, TGroup [EUser 3; EUser 4]) => true | _ => false end)) as (x & y & R & St & F); [vm_compute; reflexivity|].
  destruct (mstep x (XGroup [EUser 3; EUser 4])) as [[y' r]|] eqn:E; [|discriminate]. eexists _, x, y, y'. split; [exact R|]. split; [exact St|].
  destruct r as [| | | | |[|[| | | | |[|[|[|[|?]]]]] [|[| | | | |[|[|[|[|[|?]]]]]] [|]]]| | | | | |]; try discriminate. exact E.
Qed.
Print Assumptions C32_order_refuted.
(** Two children which fail with the same exception object are one member of the group. *)
Theorem C32_merged_refuted : exists ls x y, mreach ls x /\ mstep x (XGroup [EUser 3]) = Some (y, TGroup [EUser 3]) /\
  child x 0 1 true /\ failed x 1 (EUser 3) /\ child x 0 2 true /\ failed x 2 (EUser 3).
Proof.
  destruct (gives_ok (both_fail (EUser 3)) (XGroup [EUser 3]) (TGroup [EUser 3])
    (fun x => happened (HStart 0 1 true) x && failedb 1 (EUser 3) x && happened (HStart 0 2 true) x && failedb 2 (EUser 3) x)) as (x & y & R & St & F); [vm_compute; reflexivity|].
  ands. eexists _, x, y. split; [exact R|]. split; [exact St|]. repeat (split; [first [now apply happened_ok|now apply failedb_ok]|]). now apply failedb_ok.
Qed.
Print Assumptions C32_merged_refuted.

(** How a kernel step changes the call stack: only at its top. *)
From Verif Require Import Base KernelModel KernelProofs KernelHist KernelLog KernelInv KernelTask KernelWake KernelLayer KernelStack.
From Coq Require Import Arith.

(** Not the frame of a [_set_outcome] called by [kill()]. *)
Definition nk (f : frame) : Prop := match f with FDone _ _ AfterKill => False | _ => True end.
Inductive moves (s' : st) : label -> list frame -> list frame -> Prop :=
| mv_same l c : moves s' l c c
| mv_kill t c : state_of s' t = Finished -> moves s' (LOp (OpKill t)) c (FDone t 0 AfterKill :: c)
| mv_now t m f c : nk f -> moves s' (LCancelNow t m) c (f :: c)
| mv_pop f : nk f -> moves s' LPop [] [f]
| mv_run l f g c : is_call l = false -> nk f -> nk g -> moves s' l (f :: c) (g :: c)
| mv_end l f c : is_call l = false -> moves s' l (f :: c) c
| mv_next t i k c : moves s' LDoneNext (FDone t i k :: c) (FDone t (S i) k :: c).

Lemma resume_top s t : exists f, s_ctl (resume s t) = f :: s_ctl s /\ nk f.
Proof.
  unfold resume. destruct (k_exc _) as [e|].
  - destruct (k_begun _); [eexists; split; [reflexivity|exact Logic.I]|].
    unfold coro_raised. destruct e; try destruct (Nat.eqb _ _); (eexists; split; [reflexivity|exact Logic.I]).
  - destruct (k_wait _); (eexists; split; [reflexivity|exact Logic.I]).
Qed.
Lemma yielded_top s t y ok : s_ctl (coro_yielded s t y ok) = s_ctl s \/ s_ctl (coro_yielded s t y ok) = FClose t :: s_ctl s.
Proof.
  unfold coro_yielded. destruct (negb _); [now right|]. left. destruct y as [tr|]; [|reflexivity].
  pose proof (register_cc (set_task s t (with_state (s_task s t) Pending)) tr t ok) as [_ Q].
  destruct (register _ tr t ok) as [s1 b]. cbn [fst] in Q. destruct b; cbn; rewrite Q; reflexivity.
Qed.
Lemma cancel_now_ctl s t m : s_ctl (fst (cancel_now s t m)) = s_ctl s \/ exists f, nk f /\ s_ctl (fst (cancel_now s t m)) = f :: s_ctl s.
Proof.
  assert (Q : forall s1, s_ctl s1 = s_ctl s -> exists f, nk f /\
    s_ctl (resume (set_task (add_must s1 t) t (with_exc (s_task (add_must s1 t) t) (Some (ECancelled m)))) t) = f :: s_ctl s).
  { intros s1 E1. match goal with |- context[resume ?a ?b] => destruct (resume_top a b) as (g & -> & N) end. exists g. split; [exact N|].
    cbn. now rewrite E1. }
  unfold cancel_now. destruct (state_of s t); try (left; reflexivity).
  - right. now apply Q.
  - unfold cancel_scb. destruct (k_scb (s_task s t)); [right; now apply Q|now left].
  - pose proof (cancel_tcb_cc s t) as [_ T]. destruct (cancel_tcb s t) as [s1 [e|]]; cbn in T; [now left|right; now apply Q].
Qed.
Theorem step_moves s l s' r : step s l = Some (s', r) -> moves s' l (s_ctl s) (s_ctl s').
Proof.
  intro St. unfold step in St. destruct (s_halt s); [discriminate|].
  assert (Y : forall u rest l0, is_call l0 = false -> (s_ctl s' = rest \/ s_ctl s' = FClose u :: rest) -> moves s' l0 (FRun u :: rest) (s_ctl s')).
  { intros u rest l0 N [->| ->]; [now apply mv_end|now apply mv_run]. }
  destruct l as [o|u m|v|x|x ok|u| | | | | |g].
  - injection St as E. assert (S : s_ctl s' = s_ctl s -> moves s' (LOp o) (s_ctl s) (s_ctl s')) by (intros ->; apply mv_same).
    destruct o; cbn [do_op] in E.
    + apply S. unfold start_soon in E. destruct (state_of s t) eqn:Es; inversion E; subst; reflexivity.
    + apply S. unfold start_next in E. destruct (state_of s t) eqn:Es; inversion E; subst; reflexivity.
    + apply S. unfold cancel in E. destruct (state_of s t) eqn:Es; try (inversion E; subst; reflexivity).
      pose proof (cancel_tcb_cc s t) as [_ T]. destruct (cancel_tcb s t) as [s1 [e|]]; cbn in T; inversion E; subst; cbn; exact T.
    + assert (K : forall s1, s_ctl s1 = s_ctl s -> s' = set_outcome s1 t Finished (OVal None) AfterKill -> moves s' (LOp (OpKill t)) (s_ctl s) (s_ctl s')).
      { intros s1 E1 ->. cbn [set_outcome set_ctl s_ctl log set_task]. rewrite E1. apply mv_kill. unfold state_of. cbn. now rewrite upd_same. }
      unfold kill in E. destruct (state_of s t) eqn:Es; try (inversion E; subst; apply S; reflexivity).
      * apply (K s); [reflexivity|congruence].
      * unfold cancel_scb in E. destruct (k_scb (s_task s t)); [|inversion E; subst; apply S; reflexivity].
        apply (f_equal fst) in E. cbn [fst] in E. symmetry in E. refine (K _ _ E). reflexivity.
      * pose proof (cancel_tcb_cc s t) as [_ T]. destruct (cancel_tcb s t) as [s1 [e|]]; cbn in T; [inversion E; subst; apply S; exact T|].
        apply (f_equal fst) in E. cbn [fst] in E. symmetry in E. exact (K _ T E).
    + inversion E; subst. apply S. reflexivity.
    + inversion E; subst. apply S. unfold add_done. destruct (done s t); reflexivity.
    + inversion E; subst. apply S. unfold event_set. rewrite react_ctl. reflexivity.
    + inversion E; subst. apply S. reflexivity.
    + inversion E; subst. apply S. unfold ievent_set. rewrite react_ctl. reflexivity.
    + apply S. rewrite release_eq in E. destruct (l_current (s_lock s l)); [|inversion E; subst; reflexivity].
      cbv zeta in E. destruct (l_pending (s_lock s l)) as [|n0 p]; apply (f_equal fst) in E; cbn [fst] in E; rewrite <- E; [reflexivity|].
      unfold acquire_and_fire. rewrite react_ctl. reflexivity.
  - assert (G : cancel_now s u m = (s', r) -> moves s' (LCancelNow u m) (s_ctl s) (s_ctl s')).
    { intro E. apply (f_equal fst) in E. cbn [fst] in E. subst s'. destruct (cancel_now_ctl s u m) as [->|(f & N & ->)]; [apply mv_same|now apply mv_now]. }
    destruct (s_ctl s) as [|[ | | ]]; try discriminate; inversion St as [E]; apply G, E.
  - destruct (s_ctl s) as [|[u| | ] rest] eqn:Ec; try discriminate. injection St as <- <-.
    unfold coro_returned. destruct (Nat.eqb _ _); now apply mv_run.
  - destruct (s_ctl s) as [|[u| | ] rest] eqn:Ec; try discriminate. injection St as <- <-.
    unfold coro_raised. destruct x; try destruct (Nat.eqb _ _); now apply mv_run.
  - destruct (s_ctl s) as [|[u| | ] rest] eqn:Ec; try discriminate. injection St as E.
    unfold await_trigger in E. destruct (await_check s x) as [s1|]; [|inversion E; subst; rewrite Ec; apply mv_same].
    apply (f_equal fst) in E. cbn [fst] in E. apply Y; [reflexivity|]. rewrite <- E. apply yielded_top.
  - destruct (s_ctl s) as [|[v| | ] rest] eqn:Ec; try discriminate. injection St as E. unfold await_task in E.
    set (s1 := match state_of s u with Unstarted => fst (start_soon s u) | _ => s end) in *.
    assert (E1 : s_ctl s1 = FRun v :: rest) by (unfold s1, start_soon; destruct (state_of s u) eqn:Eu; exact Ec).
    destruct (done s1 u).
    + destruct (result_of s1 u); inversion E; subst; cbn; rewrite E1; apply mv_same.
    + apply (f_equal fst) in E. cbn [fst] in E. apply Y; [reflexivity|]. rewrite <- E. apply yielded_top.
  - destruct (s_ctl s) as [|[v| | ] rest] eqn:Ec; try discriminate. injection St as E1 E2. apply Y; [reflexivity|]. rewrite <- E1. apply yielded_top.
  - destruct (s_ctl s) as [|[ |u| ] rest] eqn:Ec; try discriminate. injection St as <- <-. now apply mv_run.
  - destruct (s_ctl s) as [|[ |u| ] rest] eqn:Ec; try discriminate. injection St as <- <-. cbn. rewrite Ec. apply mv_same.
  - destruct (s_ctl s) as [|[ | |u i k] rest] eqn:Ec; try discriminate.
    destruct (nth_error _ _); injection St as <- <-; [apply mv_next|].
    replace (s_ctl (finish_outcome (set_ctl s rest) u k)) with rest; [now apply mv_end|].
    unfold finish_outcome. destruct k; cbn [set_current set_halt s_ctl]; rewrite !react_ctl; reflexivity.
  - destruct (s_ctl s) as [|] eqn:Ec; try discriminate. destruct (s_queue s) as [|q rest]; [discriminate|]. injection St as <- <-.
    destruct (q_cancelled q); [cbn; rewrite Ec; apply mv_same|].
    match goal with |- context[resume ?a ?b] => destruct (resume_top a b) as (f & -> & N) end. cbn. rewrite Ec. now apply mv_pop.
  - destruct (s_ctl s) as [|] eqn:Ec; try discriminate. destruct (s_queue s); [|discriminate]. destruct (g_armed _); [|discriminate].
    injection St as <- <-. rewrite react_ctl. cbn. rewrite Ec. apply mv_same.
Qed.

(** Calls keep the whole stack; other steps keep what is below the top frame. *)
Lemma moves_below s' l f c c' : moves s' l (f :: c) c' -> exists new, c' = new ++ (if is_call l then f :: c else c).
Proof.
  intro M. inversion M as [l0 c0|t c0|t m g c0|g|l0 f0 g c0 N|l0 f0 c0 N|t i k c0]; subst; cbn [is_call].
  - destruct (is_call l); [exists []|exists [f]]; reflexivity.
  - now exists [FDone t 0 AfterKill].
  - now exists [g].
  - rewrite N. now exists [g].
  - rewrite N. now exists [].
  - now exists [FDone t (S i) k].
Qed.

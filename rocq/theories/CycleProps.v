(** C56: ClockCycles. *)
From Verif Require Import Base KernelModel KernelProofs KernelInv KernelStack CycleModel CycleProofs.
From Coq Require Import Arith ZArith.

(** [await ClockCycles(signal, n)] returns when the trigger has fired exactly [n] times since it began (at once if n <= 0). *)
Theorem C56_cycles : forall ls x l x' , creach ls x -> cstep x l = Some (x', ZDone) ->
  exists t rest g n l0 new, s_ctl (c_k x) = FRun t :: rest /\ last_begin t (c_hist x') = Some (g, n, l0) /\
    s_log (c_k x') = new ++ l0 /\ fires g new = Z.to_nat n /\ (l <> CGo -> (n <= 0)%Z /\ new = []).
Proof.
  intros ls x l x' R St. assert (C := creach_ok ls x R). unfold cstep in St. destruct l as [kl|g n|].
  - destruct (cuser x); [|discriminate]. destruct (step (c_k x) kl) as [[k q]|]; discriminate.
  - destruct (s_halt (c_k x)); [discriminate|]. destruct (s_ctl (c_k x)) as [|[t| | ] rest] eqn:Ec; try discriminate.
    destruct (c_in x t); [discriminate|]. injection St as E. unfold cturn in E. destruct (Z.to_nat n) as [|m] eqn:Z.
    + injection E as <-. exists t, rest, g, n, (s_log (c_k x)), []. cbn. rewrite Nat.eqb_refl, Z. repeat split; try reflexivity; lia.
    + cbn [c_k] in E. destruct (await_trigger _ _ _ _ _) as [k []]; discriminate.
  - destruct (s_halt (c_k x)); [discriminate|]. destruct (s_ctl (c_k x)) as [|[t|t| ] rest] eqn:Ec; try discriminate.
    + destruct (c_in x t) as [[g m]|] eqn:Ei; [|discriminate]. destruct (k_exc _) eqn:Ex; [discriminate|]. injection St as E.
      destruct (Z_in x C t g m Ei) as (n & l0 & new & Hb & Hl & W). pose proof (waits_top _ _ _ _ _ _ _ (Z_k x C) Ec W Ex) as Q.
      unfold cturn in E. destruct m as [|m]; [|destruct (await_trigger _ _ _ _ _) as [k []]; discriminate].
      injection E as <-. exists t, rest, g, n, l0, new. cbn. repeat split; auto; try lia; now elim H.
    + destruct (c_in x t); discriminate.
Qed.
Print Assumptions C56_cycles.

(** Computed executions. *)
Fixpoint crun (x : cst) (ls : list clabel) : option cst :=
  match ls with [] => Some x | l :: ls' => match cstep x l with Some (x1, _) => crun x1 ls' | None => None end end.
Definition clab_ok (l : clabel) : bool := match l with CUser (LAwait _ ok) => ok | _ => true end.
Lemma crun_reach ls : forall done x x', creach done x -> forallb clab_ok ls = true -> crun x ls = Some x' -> creach (done ++ ls) x'.
Proof.
  induction ls as [|l ls IH]; intros dn x x' R A E; cbn in A, E; [injection E as <-; now rewrite app_nil_r|].
  apply andb_prop in A. destruct A as [A B]. destruct (cstep x l) as [[x1 r]|] eqn:St; [|discriminate].
  change (l :: ls) with ([l] ++ ls). rewrite app_assoc. apply (IH _ x1); auto. apply (creach_step dn x l x1 r); auto.
  destruct l as [kl| |]; try exact Logic.I. destruct kl; try exact Logic.I. exact A.
Qed.
Lemma crun_ex ls (f : cst -> bool) : forallb clab_ok ls && match crun cinit ls with Some x => f x | None => false end = true ->
  exists x, creach ls x /\ f x = true.
Proof.
  intro H. apply andb_prop in H. destruct H as [A H]. destruct (crun cinit ls) as [x|] eqn:E; [|discriminate]. exists x. split; [|exact H].
  apply (crun_reach ls [] cinit x creach_nil A E).
Qed.
Definition two_edges : list clabel :=
  [CUser (LOp (OpStart 0)); CUser LPop; CCall 5 2; CUser (LFire 5); CUser LPop; CGo; CUser (LFire 5); CUser LPop].
Example C56_cycles_ex : exists ls x x', creach ls x /\ cstep x CGo = Some (x', ZDone) /\ fires 5 (s_log (c_k x)) = 2.
Proof.
  destruct (crun_ex two_edges (fun x => match cstep x CGo with Some (_, ZDone) => Nat.eqb (fires 5 (s_log (c_k x))) 2 | _ => false end)) as (x & R & F); [vm_compute; reflexivity|].
  destruct (cstep x CGo) as [[x' []]|] eqn:St; try discriminate. apply Nat.eqb_eq in F. eexists _, x, x'. split; [exact R|]. auto.
Qed.

(** Until then it is blocked with the trigger's callback pending in the simulator; it is not blocked any longer once [n] have
    fired. *)
Theorem C56_cycles_blocked : forall ls x t g m, creach ls x -> c_in x t = Some (g, m) -> state_of (c_k x) t = Pending ->
  g_armed (s_gpi (c_k x) g) = true /\ exists n l0 new, last_begin t (c_hist x) = Some (g, n, l0) /\ s_log (c_k x) = new ++ l0 /\
    fires g new < Z.to_nat n.
Proof.
  intros ls x t g m R Ei Pd. assert (C := creach_ok ls x R). destruct (Z_in x C t g m Ei) as (n & l0 & new & Hb & Hl & W).
  assert (Nr : forall f, (f = FRun t \/ f = FClose t) -> In f (s_ctl (c_k x)) -> False).
  { intros f Ef I. assert (Q : state_of (c_k x) t = Running); [|congruence]. apply (L_run _ _ (J_loc _ _ (Z_k x C))). unfold runners.
    apply in_flat_map. exists f. split; [exact I|]. destruct Ef as [->| ->]; now left. }
  destruct W as [D|[[[h I] E]|[[Sc _]|[[Fr _]|Fc]]]].
  - unfold done in D. rewrite Pd in D. discriminate.
  - split; [apply (O_gpi1 _ (J_obj _ _ (Z_k x C))); intro Q; rewrite Q in I; destruct I|]. exists n, l0, new. repeat split; auto. lia.
  - congruence.
  - exfalso. apply (Nr (FRun t)); auto.
  - exfalso. apply (Nr (FClose t)); auto.
Qed.
Print Assumptions C56_cycles_blocked.
Example C56_cycles_blocked_ex : exists ls x m, creach ls x /\ c_in x 0 = Some (5, m) /\ state_of (c_k x) 0 = Pending /\ fires 5 (s_log (c_k x)) = 1.
Proof.
  destruct (crun_ex (firstn 6 two_edges) (fun x => match c_in x 0 with Some (5, _) => Nat.eqb (fires 5 (s_log (c_k x))) 1 && tstate_eqb (state_of (c_k x) 0) Pending | _ => false end)) as (x & R & F); [vm_compute; reflexivity|].
  destruct (c_in x 0) as [[[|[|[|[|[|[|]]]]]] m]|] eqn:Ei; try discriminate. apply andb_prop in F. destruct F as [F G]. apply Nat.eqb_eq in F.
  eexists _, x, m. split; [exact R|]. split; [exact Ei|]. split; [|exact F]. destruct (state_of (c_k x) 0); try discriminate; reflexivity.
Qed.

(** Which edge is counted: rising unless told otherwise; both arguments together are refused. *)
Theorem C56_cycles_edge : forall a rising,
  edge_of a rising =
  match a, rising with
  | ENone, None => Some Rising
  | ENone, Some b => Some (if b then Rising else Falling)
  | EBool b, None => Some (if b then Rising else Falling)
  | EType e, None => Some e
  | _, Some _ => None
  end.
Proof. intros [e|[]|] [[]|]; reflexivity. Qed.
Print Assumptions C56_cycles_edge.
Example C56_cycles_edge_ex : edge_of (EType AnyEdge) None = Some AnyEdge /\ edge_of (EBool false) (Some false) = None.
Proof. split; reflexivity. Qed.

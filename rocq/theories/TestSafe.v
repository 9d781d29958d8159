(** [_abort] never fails unless the Task of the test is killed. *)
From Verif Require Import Base KernelModel KernelProofs KernelHist KernelLog KernelInv KernelTask KernelWake KernelLayer KernelStack
  LayerProofs StackProofs TestModel TestSpec TestInv TestInv2 TestInv3.
From Coq Require Import Arith.

(** Only calls of [kill()] are on top of another frame. *)
Fixpoint inner (c : list frame) : Prop :=
  match c with [] => True | f :: c1 => (c1 = [] \/ ~ nk f) /\ inner c1 end.
Definition killed_ok (x : qst) : Prop :=
  forall t i, In (FDone t i AfterKill) (s_ctl (x_k x)) -> state_of (x_k x) t = Finished /\ x_main x <> Some t.
Record NE (x : qst) : Prop := {
  N_esc : x_esc x = false;
  N_ctl : x_fin x = false -> inner (s_ctl (x_k x)) /\ killed_ok x;
  N_low : forall todo d, x_loop x = Some (todo, d) -> d <= 1 }.

Lemma inner_moves k l c c' : moves k l c c' -> (forall t m, l <> LCancelNow t m) -> inner c -> inner c'.
Proof.
  intros M N I. inversion M as [l0 c0|t c0 F|t m g c0|g|l0 f0 g c0 C Nf Ng|l0 f0 c0 C|t i a c0]; subst.
  - exact I.
  - cbn. auto.
  - elim (N t m eq_refl).
  - cbn. auto.
  - cbn in *. destruct I as [[->|Q] I]; [auto|contradiction].
  - cbn in I. tauto.
  - cbn in *. destruct I as [[->|Q] I]; split; auto; right; intro Z; apply Q; destruct a; exact Z.
Qed.
Lemma killed_moves k l c c' t i : moves k l c c' -> (forall u m, l <> LCancelNow u m) -> In (FDone t i AfterKill) c' ->
  (exists j, In (FDone t j AfterKill) c) \/ (l = LOp (OpKill t) /\ state_of k t = Finished).
Proof.
  intros M N I. inversion M as [l0 c0|v c0 F|v m g c0|g Ng|l0 f0 g c0 C Nf Ng|l0 f0 c0 C|v j a c0]; subst.
  - eauto.
  - destruct I as [E|I]; [injection E as <- _; auto|eauto].
  - elim (N v m eq_refl).
  - destruct I as [->|[]]. destruct Ng.
  - destruct I as [->|I]; [destruct Ng|]. left. exists i. now right.
  - left. exists i. now right.
  - left. destruct I as [E|I]; [injection E as <- _ ->; exists j; now left|exists i; now right].
Qed.
Lemma user_ne x l k r : TI x -> NE x -> step (x_k x) l = Some (k, r) -> prime_ok l -> (forall t m, l <> LCancelNow t m) ->
  (forall t, l = LOp (OpKill t) -> x_main x <> Some t) -> NE (set_k x k).
Proof.
  intros M [N1 N2 N3] St Pr Nn Nk. destruct (inv_step _ _ _ _ (Q_k x M) Pr St) as (_ & Sb & _). pose proof (step_moves _ _ _ _ St) as Mv.
  constructor; auto. fields. intro F. destruct (N2 F) as [I K]. split; [now apply (inner_moves k l (s_ctl (x_k x)))|].
  intros t i J. cbn [set_k x_k x_main] in *. destruct (killed_moves _ _ _ _ _ _ Mv Nn J) as [[j Q]|[Q Fi]]; [|split; [exact Fi|now apply Nk]].
  destruct (K t j Q) as [S1 S2]. split; [|exact S2]. rewrite <- S1. apply Sb. unfold done. now rewrite S1.
Qed.
Lemma abort_ne x f : NE x -> (x_fin x = false -> length (s_ctl (x_k x)) <= 1) -> NE (abort x f).
Proof.
  intros [N1 N2 N3] L. unfold abort. destruct (x_fin x) eqn:F; constructor; fields; auto; try discriminate.
  intros todo d Q. injection Q as <- <-. auto.
Qed.
Lemma cancel_now_fails k u m k' e : Inv k -> cancel_now k u m = (k', RErr e) -> state_of k u = Running.
Proof.
  intros H E. destruct (ok_cancel_now k u m H) as [_ F]. rewrite E in F. cbn in F. unfold cancel_now in E.
  destruct (state_of k u); try discriminate; [| |reflexivity].
  - unfold cancel_scb in E. destruct (k_scb _); [discriminate|]. injection E as <- <-. destruct F.
  - unfold cancel_tcb, deregister in E. destruct (k_tcb _) as [[tr h]|]; [|injection E as <- <-; destruct F].
    destruct (existsb _ _); [|injection E as <- <-; destruct F].
    set (s1 := set_cbs _ _ _) in E. destruct (s_cbs s1 tr); [|discriminate].
    unfold unprime in E. destruct tr; try discriminate. destruct (g_hdl _); [discriminate|]. injection E as <- <-. destruct F.
Qed.
Theorem ne_step x l x' r : TI x -> NE x -> unkilled x l -> qstep x l = Some (x', r) -> NE x'.
Proof.
  intros M N [So Uk] St. destruct (qstep_move x l x' r M St) as (Ha & Es & Mv). assert (N' := N). destruct N' as [N1 N2 N3].
  destruct Mv as [kl k r0 C S|t tm Ec Em F|u C F Cu|u C Cu|Ec Tm L|m Ec L|u y Ecb E|u Ecb Nm C|u Ecb C|u us d k r0 Ecb L Lo C Nr|u us d k e Ecb L Lo C|d Ecb L Lo|u a rest c k r0 Ecb L Ec Nt Ev R S].
  - assert (Pr : prime_ok kl) by (destruct kl; try exact Logic.I; exact So). apply andb_true_iff in C. destruct C as [_ C].
    apply (user_ne x kl k r0); auto; [intros t m ->; discriminate|]. intros t ->. now apply Uk.
  - destruct (begin_facts x t tm F) as (k & -> & ->). cbn [fst]. destruct (begin_kernel x t M Ha F) as (B1 & B2 & B3 & B4 & B5).
    constructor; fields; auto. intros _. unfold killed_ok. fields. rewrite B2, Ec. split; [exact Logic.I|intros v i []].
  - destruct (add_facts (x_k x) u task_cb F) as (F1 & F2 & F3 & _). unfold add_task. constructor; fields; auto. intro Fi. destruct (N2 Fi) as [I K].
    unfold killed_ok. fields. rewrite F1. split; [exact I|]. intros v i J. destruct (K v i J) as [S1 S2]. split; [|exact S2].
    unfold state_of in *. rewrite F2; [exact S1|]. intros ->. rewrite (fresh_new _ _ F) in S1. discriminate.
  - exact N.
  - apply abort_ne; [constructor; auto|]. unfold note, stop_timer. fields. intros _. rewrite Ec. cbn. lia.
  - apply abort_ne; [constructor; auto|]. fields. intros _. rewrite Ec. cbn. lia.
  - unfold remove_task in E. destruct (existsb _ _); [|discriminate]. injection E as <-. unfold done_set. fields.
    destruct (filter _ _); [destruct (x_reg x)|]; constructor; auto.
  - constructor; auto.
  - apply abort_ne; [exact N|]. intro Fi. destruct (N2 Fi) as [I K]. destruct (Q_cb x M _ Ecb) as [Ru (a & rest & Ctl)]. rewrite Ctl in *. cbn in I.
    destruct I as [[->|Q] _]; [cbn; lia|]. destruct a; try (elim Q; exact Logic.I). exfalso. destruct (K u 1) as [S1 S2]; [rewrite Ctl; now left|].
    destruct C as [C|[_ C]]; [contradiction|]. apply C. unfold error_of. now rewrite S1.
  - constructor; fields; auto.
    + intro Fi. pose proof (Q_mode x M Es) as Md. rewrite Fi, Lo in Md. destruct (x_reg x), (x_done x); destruct Md.
    + intros todo d0 Q. injection Q as <- <-. now apply (N3 (u :: us)).
  - exfalso. pose proof (cancel_now_fails _ _ _ _ _ (Q_k x M) C) as Rn. apply (L_runs _ _ (J_loc _ _ (Q_k x M)) u (fun f => f)) in Rn.
    pose proof (N3 _ _ Lo) as Hd. unfold looping in L. rewrite Lo in L. apply Nat.eqb_eq in L.
    destruct (loop_top x _ _ M Lo) as [Q|(v & a & rest & Q)].
    + unfold looping. rewrite Lo. now apply Nat.eqb_eq.
    + rewrite Q in Rn. destruct Rn.
    + rewrite Q in L, Rn. cbn in L. destruct rest; [destruct Rn|cbn in L; lia].
  - unfold loop_step. destruct (x_flag _); cbn [fst]; constructor; fields; auto; discriminate.
  - assert (N1' : NE (set_k x k)) by (apply (user_ne x LDoneNext k r0); auto; discriminate).
    destruct N1' as [Z1 Z2 Z3]. constructor; auto.
Qed.
Lemma ne_init : NE qinit.
Proof. constructor; cbn; try discriminate; [reflexivity|]. intros _. split; [exact Logic.I|intros t i []]. Qed.
Lemma unkilled_sim x ls x' : qexec unkilled x ls x' -> qexec sim_ok x ls x'.
Proof. induction 1 as [|x l x1 r ls x2 [P _]]; econstructor; eauto. Qed.
Lemma reach_ne ls x : qexec unkilled qinit ls x -> TI x /\ NE x.
Proof.
  apply (qexec_ind2 unkilled (fun x => TI x /\ NE x)); [|split; [apply qinit_ok|apply ne_init]].
  intros a l b r [M N] U St. split; [apply (ti_step a l b r M (proj1 U) St)|now apply (ne_step a l b r)].
Qed.

(** * C85: reports of the tests of a simulation reach the main pytest process *)
From Verif Require Import Base ReportModel ReportSpec ReportProofs.
From Coq Require Import PeanoNat Lia.

Lemma start_facts a b p : wf (init a b) /\ present (init a b) /\ stream p (init a b) = [] /\ hist p (init a b) /\ hist11 p (init a b) /\
  quiet (init a b) /\ early (init a b) /\ budget p 0 (init a b).
Proof.
  repeat (apply conj).
  - apply wf_init.
  - intros q c [].
  - reflexivity.
  - constructor.
  - constructor.
  - intros _ c L. cbn in L. lia.
  - intros _. discriminate.
  - unfold budget. cbn. lia.
Qed.

(** The main process sees the reports of a simulation in the order in which they were made, each at most once, and no
    other report: for every interleaving of simulations and of both threads, whatever attempts fail and whichever process
    dies, as long as closing a connection after a complete transmission does not fail. *)
Theorem C85_in_order address listening ls s p : exec (init address listening) ls s -> clean ls ->
  sub (of p (s_delivered s)) (of p (s_logged s)).
Proof.
  intros H C. destruct (start_facts address listening p) as (W & P & S & H1 & H2 & Q & R & B).
  apply (sub_trans _ (of p (s_sent s))).
  - apply (sub_prefix _ (in_hand p s ++ flight p (s_conns s) (queue s))). change (sub (stream p s) (of p (s_sent s))). eapply stream_sub; [exact W| |exact H]. rewrite S. apply sub_nil_l.
  - apply hist_sub. eapply hist_exec; eauto.
Qed.
Print Assumptions C85_in_order.
(** In any case no report is seen more than eleven times, and the order is kept. *)
Theorem C85_at_most_eleven address listening ls s p : exec (init address listening) ls s ->
  sub (of p (s_delivered s)) (flat_map (fun d => repeat d 11) (of p (s_logged s))).
Proof.
  intros H. destruct (start_facts address listening p) as (W & P & S & H1 & H2 & Q & R & B).
  apply (sub_trans _ (of p (s_sent s))).
  - apply (sub_prefix _ (in_hand p s ++ flight p (s_conns s) (queue s))). change (sub (stream p s) (of p (s_sent s))). eapply stream_sub; [exact W| |exact H]. rewrite S. apply sub_nil_l.
  - apply hist11_sub. eapply hist11_exec; eauto.
Qed.
Print Assumptions C85_at_most_eleven.

(** A session which ends while simulation [p] is not in the middle of a report has, when its listener is closed, seen
    every report of [p] except those which the simulation gave up, exactly once and in order. Other simulations may be
    anywhere; sending may fail, hooks may raise. *)
Theorem C85_complete listening l1 s1 s2 l2 s3 p : exec (init false listening) l1 s1 -> s_senders s1 p = SIdle ->
  step s1 LFinish = Some s2 -> exec s2 l2 s3 -> s_main s3 = MClosed -> lossless (l1 ++ l2) -> clean l1 ->
  shuffle (of p (s_delivered s3)) (of p (s_given_up s1)) (of p (s_logged s1)).
Proof.
  intros H I F K M L C. destruct (start_facts false listening p) as (W & P & S & H1 & _ & Q & R & _).
  apply lossless_app in L. destruct L as [L1 L2].
  pose proof (wf_exec _ _ _ W H) as W1. destruct (stream_eq p _ _ _ W P S L1 H) as [S1 _].
  pose proof (hist_exec p _ _ _ C H1 H) as HI. unfold hist in HI. rewrite I in HI.
  pose proof (own_exec _ _ _ H) as O. pose proof F as F2. cbn [step] in F. destruct (s_main s1) eqn:M1; try discriminate F. rewrite O in F. cbn in F.
  injection F as <-.
  assert (Z : stopped p (of p (s_sent s1)) (s_next s1) s3).
  { eapply stopped_exec; [|exact L2| |exact K]; [eapply wf_step; [exact W1|]|].
    - rewrite F2. reflexivity.
    - apply stopped_start; auto.
      + eapply quiet_exec; [exact W|exact Q|exact H].
      + refine (receiver_alive (init false listening) l1 s1 _ L1 H). discriminate.
      + assert (E1 : early s1) by (eapply early_exec; [exact W|exact Q|exact R|exact H]). apply E1. now left.
      + intros c X. rewrite I in X. exact X. }
  destruct Z as [_ _ _ _ _ Z5 Z6]. specialize (Z5 M). destruct Z6 as [[_ Z6]|(? & ? & _ & _ & Z6)]; [|contradiction]. now rewrite Z6.
Qed.
Print Assumptions C85_complete.
(** A report is given up only after eleven failing attempts of its own. *)
Theorem C85_given_up address listening ls s p : exec (init address listening) ls s ->
  11 * List.length (of p (s_given_up s)) <=
  List.length (filter (fun l => match l with LConnect q false | LSend q false | LClose q false => Nat.eqb q p | _ => false end) ls).
Proof.
  intro H. destruct (start_facts address listening p) as (_ & _ & _ & _ & _ & _ & _ & B).
  pose proof (budget_exec p 0 _ _ _ B H) as K. unfold budget, fail_count, fails, RETRIES in K. cbn [Nat.add] in K. destruct (s_senders s p); lia.
Qed.
Print Assumptions C85_given_up.
(** Two simulations, a connection which is refused, a hook which raises, and the end of the session. *)
Definition ex_before : list label :=
  [LStart; LReport 0 7; LConnect 0 false; LConnect 0 true; LReport 1 8; LConnect 1 true; LSend 1 true; LAccept; LSend 0 true; LRecv true; LMainLog;
   LClose 0 true; LReport 0 9; LConnect 0 true; LMainLogged; LLog; LSend 0 false; LLogged false; LConnect 0 true; LSend 0 true; LClose 0 true; LClose 1 true].
Definition ex_after : list label :=
  [LNotified true; LStop; LAccept; LRecv true; LLog; LLogged true; LAccept; LRecv true; LNotified true; LAccept; LRecv true; LLog; LLogged true;
   LAccept; LRecv true; LJoin].
Fixpoint run (s : st) (ls : list label) : option st :=
  match ls with [] => Some s | l :: ls' => match step s l with Some s' => run s' ls' | None => None end end.
Lemma run_exec ls : forall s s', run s ls = Some s' -> exec s ls s'.
Proof.
  induction ls as [|l ls IH]; cbn; intros s s' H; [injection H as <-; constructor|].
  destruct (step s l) as [s1|] eqn:E; [|discriminate H]. econstructor; eauto.
Qed.
Lemma lossless_check ls : forallb (fun l => match l with LAcceptError true | LRecv false | LNotified false => false | _ => true end) ls = true -> lossless ls.
Proof. rewrite forallb_forall. intro H. repeat split; intro I; specialize (H _ I); discriminate H. Qed.
Lemma clean_check ls : forallb (fun l => match l with LClose _ false => false | _ => true end) ls = true -> clean ls.
Proof. rewrite forallb_forall. intros H p I. specialize (H _ I). discriminate H. Qed.
Example C85_complete_ex : exists s1 s2 s3, exec (init false false) ex_before s1 /\ s_senders s1 0 = SIdle /\ step s1 LFinish = Some s2 /\
  exec s2 ex_after s3 /\ s_main s3 = MClosed /\ lossless (ex_before ++ ex_after) /\ clean ex_before /\ s_delivered s3 = [(0, 7); (1, 8); (0, 9)].
Proof.
  destruct (run (init false false) ex_before) as [s1|] eqn:E; [|vm_compute in E; discriminate E].
  destruct (step s1 LFinish) as [s2|] eqn:F; [|vm_compute in E; injection E as <-; discriminate F].
  destruct (run s2 ex_after) as [s3|] eqn:G; [|vm_compute in E; injection E as <-; vm_compute in F; injection F as <-; vm_compute in G; discriminate G].
  exists s1, s2, s3. split; [now apply run_exec|]. vm_compute in E. injection E as <-. split; [reflexivity|]. split; [exact F|].
  split; [now apply run_exec|]. vm_compute in F. injection F as <-. vm_compute in G. injection G as <-. split; [reflexivity|].
  split; [now apply lossless_check|]. split; [now apply clean_check|reflexivity].
Qed.

(** The plugins of the main process never handle two reports at the same time. *)
Theorem C85_exclusive address listening ls s : exec (init address listening) ls s ->
  ~ (s_main s = MIn /\ exists m, s_receiver s = TIn m).
Proof. intro H. exact (w_one _ (wf_exec _ _ _ (wf_init _ _) H)). Qed.
Print Assumptions C85_exclusive.
Example C85_exclusive_ex : exists s, exec (init false false) (firstn 11 ex_before) s /\ s_main s = MIn /\ s_receiver s = TLog (0, 7) /\ step s LLog = None.
Proof.
  destruct (run (init false false) (firstn 11 ex_before)) as [s|] eqn:E; [|vm_compute in E; discriminate E]. exists s. split; [now apply run_exec|].
  vm_compute in E. injection E as <-. repeat split.
Qed.

(** The end of the session is not held up: once the request to stop is sent, and if no simulation is between connecting and
    sending, the receiver can go on by itself until it has returned, and does so after finitely many steps. *)
Theorem C85_finishes listening ls s : exec (init false listening) ls s -> lossless ls -> s_main s = MJoin -> s_receiver s <> TNew ->
  (forall p d r c, s_senders s p <> SConnected d r c) ->
  (s_receiver s = TDone \/ exists l s', receiving l /\ step s l = Some s') /\
  exists n, forall ls' s', Forall receiving ls' -> exec s ls' s' -> List.length ls' <= n.
Proof.
  intros H L M N C. split.
  2:{ exists (work s). intros ls' s' F K. pose proof (work_exec _ _ _ F K). lia. }
  destruct (absent_exists ls) as (p & A). destruct (start_facts false listening p) as (W & P & S & _ & _ & Q & R & _).
  destruct (finish_point _ _ _ H) as [[K|K]|(l1 & s1 & s2 & l2 & -> & H1 & M1 & F & H2)]; [left; reflexivity|congruence|congruence|].
  assert (L12 : lossless l1 /\ lossless l2).
  { apply lossless_app in L. destruct L as [L1 L2]. apply lossless_cons in L2. tauto. }
  destruct L12 as [L1 L2]. apply Forall_app in A. destruct A as [A1 A2]. inversion A2 as [|? ? _ A3]; subst.
  pose proof (absent_idle p _ _ _ A1 H1 eq_refl) as I.
  pose proof (wf_exec _ _ _ W H) as WS. pose proof (wf_exec _ _ _ W H1) as W1. destruct (stream_eq p _ _ _ W P S L1 H1) as [S1 _].
  pose proof (own_exec _ _ _ H1) as O. pose proof F as F2. cbn [step] in F. rewrite M1, O in F. cbn in F. injection F as <-.
  assert (Z : stopped p (of p (s_sent s1)) (s_next s1) s).
  { eapply stopped_exec; [|exact L2| |exact H2]; [eapply wf_step; [exact W1|exact F2]|].
    apply stopped_start; auto.
    - eapply quiet_exec; [exact W|exact Q|exact H1].
    - refine (receiver_alive (init false listening) l1 s1 _ L1 H1). discriminate.
    - assert (E1 : early s1) by (eapply early_exec; [exact W|exact Q|exact R|exact H1]). apply E1. now left.
    - intros c X. rewrite I in X. exact X. }
  destruct Z as [_ _ _ _ Z4 _ Z6]. destruct Z6 as [[Z6 _]|(a & b & QE & _ & Z6)]; [now left|right].
  unfold queue, hand in QE. destruct (s_receiver s) as [| |c|m|m| | |] eqn:E; try contradiction.
  - cbn [app] in QE. exists LAccept. destruct (s_backlog s) as [|c rest] eqn:B; [destruct a; discriminate QE|]. eexists. split; [exact Logic.I|].
    cbn [step]. rewrite E, B. reflexivity.
  - exists (LRecv true). assert (X : s_conns s c <> Waiting).
    { intro X. destruct (w_waiting _ WS c) as [(q & K)|K]; auto.
      - pose proof (w_below _ WS) as B. unfold queue, hand in B. rewrite E in B. now inversion B.
      - destruct (s_senders s q) eqn:Y; try contradiction. exact (C q d retry c0 Y).
      - rewrite M in K. exact K. }
    cbn [step]. rewrite E. destruct (s_conns s c) as [|[m|]|]; try contradiction; (eexists; split; [exact Logic.I|reflexivity]).
  - exists LLog. cbn [step]. rewrite E. destruct (s_lock s) eqn:K; [|eexists; split; [exact Logic.I|reflexivity]].
    apply (w_lock _ WS) in K. destruct K as [K|(m' & K)]; [rewrite M in K; discriminate K|rewrite E in K; discriminate K].
  - exists (LLogged true). cbn [step]. rewrite E. eexists. split; [exact Logic.I|reflexivity].
  - exists (LNotified true). cbn [step]. rewrite E. eexists. split; [exact Logic.I|reflexivity].
Qed.
Print Assumptions C85_finishes.
Example C85_finishes_ex : exists s, exec (init false false) (ex_before ++ [LFinish; LNotified true; LStop]) s /\ s_main s = MJoin /\ s_receiver s <> TNew /\
  forall p d r c, s_senders s p <> SConnected d r c.
Proof.
  destruct (run (init false false) (ex_before ++ [LFinish; LNotified true; LStop])) as [s|] eqn:E; [|vm_compute in E; discriminate E]. exists s.
  split; [now apply run_exec|]. vm_compute in E. injection E as <-. split; [reflexivity|]. split; [discriminate|].
  intros p d r c. cbn. unfold put. repeat match goal with |- (if ?b then _ else _) <> _ => destruct b end; discriminate.
Qed.

(** All ten failures but the last: the report is still sent; eleven: it is given up. *)
Example C85_given_up_ex : exists s t, exec (init false false) (LReport 0 7 :: repeat (LConnect 0 false) 10 ++ [LConnect 0 true; LSend 0 true; LClose 0 true]) s /\
  s_sent s = [(0, 7)] /\ s_given_up s = [] /\ exec (init false false) (LReport 0 7 :: repeat (LConnect 0 false) 11) t /\ s_given_up t = [(0, 7)] /\
  of 0 (s_given_up t) = [7].
Proof.
  destruct (run (init false false) (LReport 0 7 :: repeat (LConnect 0 false) 10 ++ [LConnect 0 true; LSend 0 true; LClose 0 true])) as [s|] eqn:E;
    [|vm_compute in E; discriminate E].
  destruct (run (init false false) (LReport 0 7 :: repeat (LConnect 0 false) 11)) as [t|] eqn:F; [|vm_compute in F; discriminate F].
  exists s, t. split; [now apply run_exec|]. vm_compute in E. injection E as <-. split; [reflexivity|]. split; [reflexivity|]. split; [now apply run_exec|].
  vm_compute in F. injection F as <-. split; reflexivity.
Qed.
(** Three clean reports of two simulations, seen in order. *)
Example C85_in_order_ex : exists s, exec (init false false) (ex_before ++ LFinish :: ex_after) s /\ clean (ex_before ++ LFinish :: ex_after) /\
  of 0 (s_delivered s) = [7; 9] /\ of 0 (s_logged s) = [7; 9] /\ of 1 (s_delivered s) = [8].
Proof.
  destruct (run (init false false) (ex_before ++ LFinish :: ex_after)) as [s|] eqn:E; [|vm_compute in E; discriminate E]. exists s.
  split; [now apply run_exec|]. split; [now apply clean_check|]. vm_compute in E. injection E as <-. repeat split.
Qed.

(** If closing fails after the transmission, the report is sent again and seen twice. *)
Theorem C85_twice_refuted : exists ls s, exec (init false false) ls s /\ lossless ls /\ s_logged s = [(0, 7)] /\ s_delivered s = [(0, 7); (0, 7)].
Proof.
  set (ls := [LStart; LReport 0 7; LConnect 0 true; LSend 0 true; LClose 0 false; LConnect 0 true; LSend 0 true; LClose 0 true; LAccept; LRecv true; LLog;
    LLogged true; LAccept; LRecv true; LLog]).
  destruct (run (init false false) ls) as [s|] eqn:E; [|vm_compute in E; discriminate E]. exists ls, s. split; [now apply run_exec|].
  split; [now apply lossless_check|]. vm_compute in E. injection E as <-. split; reflexivity.
Qed.
Print Assumptions C85_twice_refuted.
(** If a plugin raises while it is told of an exception, the receiver ends; the reports which follow are lost although the
    simulations have sent them successfully, and the session ends as if nothing had happened. *)
Theorem C85_silent_refuted : exists ls s, exec (init false false) ls s /\ clean ls /\ ~ In (LAcceptError true) ls /\ ~ In (LRecv false) ls /\
  s_main s = MClosed /\ s_senders s 0 = SIdle /\ s_logged s = [(0, 7); (0, 8)] /\ s_given_up s = [] /\ s_delivered s = [(0, 7)].
Proof.
  set (ls := [LStart; LReport 0 7; LConnect 0 true; LSend 0 true; LClose 0 true; LAccept; LRecv true; LLog; LLogged false; LNotified false;
    LReport 0 8; LConnect 0 true; LSend 0 true; LClose 0 true; LFinish; LStop; LJoin]).
  destruct (run (init false false) ls) as [s|] eqn:E; [|vm_compute in E; discriminate E]. exists ls, s. split; [now apply run_exec|].
  split; [now apply clean_check|]. split; [cbn; intuition discriminate|]. split; [cbn; intuition discriminate|]. vm_compute in E. injection E as <-. repeat split.
Qed.
Print Assumptions C85_silent_refuted.
Lemma no_listener s ls s' : exec s ls s' -> s_own s = false -> s_listening s = false -> s_receiver s = TNew -> (forall p d r c, s_senders s p <> SConnected d r c) ->
  s_delivered s' = s_delivered s.
Proof.
  induction 1 as [|s l s1 ls s2 H E IH]; intros O LI R C; auto.
  assert (G : s_delivered s1 = s_delivered s /\ s_own s1 = false /\ s_listening s1 = false /\ s_receiver s1 = TNew /\ forall p d r c, s_senders s1 p <> SConnected d r c).
  { assert (PC : forall q x, (forall d r c, x <> SConnected d r c) -> forall p d r c, put (s_senders s) q x p <> SConnected d r c).
    { intros q x X p d r c. unfold put. destruct (Nat.eqb p q); auto. }
    destruct l as [q d|q ok|q ok|q ok|q| | |lost|ok| |ok|ok| | | | |]; cbn [step] in H; rewrite ?R, ?O, ?LI in H; try discriminate H.
    - destruct (s_senders s q); try discriminate H. injection H as <-. repeat (apply conj); auto. apply PC. discriminate.
    - destruct (s_senders s q) as [|d r|? ? ?|? ? ?|] eqn:X; try discriminate H. destruct ok; [discriminate H|]. injection H as <-.
      destruct r; repeat (apply conj); auto; apply PC; discriminate.
    - destruct (s_senders s q) as [|? ?|d r c|? ? ?|] eqn:X; try discriminate H. destruct (C q d r c X).
    - destruct (s_senders s q) as [|? ?|? ? ?|d r c|] eqn:X; try discriminate H. injection H as <-.
      destruct ok, r; repeat (apply conj); auto; apply PC; discriminate.
    - injection H as <-. destruct (s_senders s q) as [|? ?|d r c|? ? ?|] eqn:X; repeat (apply conj); auto; apply PC; discriminate.
    - destruct (s_main s); try discriminate H. destruct (s_lock s); [discriminate H|]. injection H as <-. auto.
    - destruct (s_main s); try discriminate H. injection H as <-. auto.
    - destruct (s_main s); try discriminate H. injection H as <-. auto.
    - destruct (s_main s) eqn:M; try discriminate H. injection H as <-. repeat (apply conj); auto.
    - destruct (s_main s) eqn:M; discriminate H. }
  destruct G as (G1 & G2 & G3 & G4 & G5). rewrite IH; auto.
Qed.
(** The variable with the address outlives the listener: a second session in the same Python process has no listener of its
    own, and whatever happens none of the reports of its simulations is ever seen. *)
Theorem C85_second_session_refuted : (forall ls s, exec next_session ls s -> s_delivered s = []) /\
  exists ls s, exec next_session ls s /\ lossless ls /\ clean ls /\ s_main s = MClosed /\ s_logged s = [(0, 7)].
Proof.
  split.
  - intros ls s H. rewrite (no_listener _ _ _ H); auto. discriminate.
  - set (ls := LReport 0 7 :: repeat (LConnect 0 false) 11 ++ [LFinish]).
    destruct (run next_session ls) as [s|] eqn:E; [|vm_compute in E; discriminate E]. exists ls, s. split; [now apply run_exec|].
    split; [now apply lossless_check|]. split; [now apply clean_check|]. vm_compute in E. injection E as <-. split; reflexivity.
Qed.
Print Assumptions C85_second_session_refuted.

From Verif Require Import Base PytestModel PytestSpec PytestProofs PytestProps SpanModel SpanSpec SpanProofs.
From Coq Require Import Lia Sorted QArith.
Open Scope Z_scope.

(** The session of PytestProps with times: the fixtures take 10 and 5 steps, the function 100, the finalizer 3, each timer 1. *)
Definition two_timed : list (Z * label) :=
  [(40, LBegin); (50, LDone 1); (51, LTimer); (56, LDone 2); (57, LTimer); (157, LDone 3); (158, LTimer); (161, LDone 4)].
Lemma two_forward : forward two_timed.
Proof. unfold forward, two_timed. cbn [map fst]. repeat (apply SSorted_cons || apply SSorted_nil || apply Forall_cons || apply Forall_nil); lia. Qed.
Definition two_spans : list span :=
  [Span 0 PSetup Passed 40 56; Span 0 PCall Failed 56 157; Span 0 PTeardown Passed 157 161;
   Span 1 PSetup Passed 161 161; Span 1 PCall Passed 161 161; Span 1 PTeardown Passed 161 161].

(** Every report which is logged has these times. *)
Theorem C90_each E l :
  map (fun y => EvReport (sp_item y) (sp_phase y) (sp_verdict y)) (session_reports E l) =
  filter (fun e => match e with EvReport _ _ _ => true | _ => false end) (map snd l).
Proof.
  unfold session_reports. generalize 0. induction l as [|[t e] l IH]; intro z; [reflexivity|].
  destruct e; cbn [map snd reports filter]; try (apply IH). cbn [sp_item sp_phase sp_verdict]. f_equal. apply IH.
Qed.
Print Assumptions C90_each.
Example C90_each_ex : exists s x, timed two_env (init two_env 5) two_timed = Some (s, x) /\ session_reports two_env x = two_spans.
Proof. eexists _, _. split; [vm_compute; reflexivity|]. vm_compute. reflexivity. Qed.

(** A report begins with the hook of its phase and ends with itself; between them there is no other hook and no other report. *)
Theorem C90_span E r ls s x y : timed E (init E r) ls = Some (s, x) -> In y (session_reports E x) ->
  exists l0 l1 l2,
    x = l0 ++ (sp_start y, EvHook (sp_item y) (sp_phase y)) :: l1 ++ (sp_stop y, EvReport (sp_item y) (sp_phase y) (sp_verdict y)) :: l2 /\
    (forall t e, In (t, e) l1 -> ~ is_hook e /\ ~ is_report e /\ (forward ls -> sp_start y <= t <= sp_stop y)) /\
    (forward ls -> sp_start y <= sp_stop y).
Proof.
  intros H Y. assert (H' := H). destruct ls as [|[t0 l] ls]; [cbn [timed] in H; injection H as <- <-; destruct Y|].
  destruct (timed_all E _ _ _ _ _ _ H) as (m & A & _). destruct (all_ok_timed E r _ _ _ H) as [_ OK].
  destruct (advs_covers E x (TShut t0) 0 m y A) as [(t & l1 & l2 & F & _)|(i & p & l0 & l1 & l2 & D & N)]; [intros t9 H9; discriminate H9|exact Y|discriminate F|].
  exists l0, l1, l2.
  assert (IP : Some (i, p) = Some (sp_item y, sp_phase y)).
  { assert (K := OK (map snd (l0 ++ (sp_start y, EvHook i p) :: l1)) (EvReport (sp_item y) (sp_phase y) (sp_verdict y)) (map snd l2)).
    cbn [ok_event] in K. rewrite <- K; [|rewrite D, !map_app; cbn [map snd]; rewrite map_app; cbn [map snd]; now rewrite <- app_assoc].
    rewrite map_app, last_hook_app. cbn [map snd last_hook]. symmetry. exact (inner_hook _ N _). }
  injection IP as -> ->. split; [exact D|].
  assert (SO : forward ((t0, l) :: ls) -> forall t e, In (t, e) (l1 ++ [(sp_stop y, EvReport (sp_item y) (sp_phase y) (sp_verdict y))]) -> sp_start y <= t).
  { intros F t e I. assert (S := timed_sorted E _ _ _ _ H' F). rewrite D, map_app in S. cbn [map fst] in S. rewrite map_app in S. cbn [map fst] in S.
    change (map fst l0 ++ sp_start y :: map fst l1 ++ sp_stop y :: map fst l2) with (map fst l0 ++ [sp_start y] ++ map fst l1 ++ [sp_stop y] ++ map fst l2) in S. rewrite app_assoc in S.
    apply (sorted_app _ _ S (sp_start y) t); [apply in_or_app; right; now left|]. rewrite app_assoc. apply in_or_app. left. apply in_app_or in I as [I|I].
    - apply in_or_app. left. apply in_map_iff. exists (t, e). split; [reflexivity|exact I].
    - apply in_or_app. right. destruct I as [I|[]]. injection I as <- <-. now left. }
  split.
  - intros t e I. split; [exact (proj1 (N _ I))|]. split; [exact (proj2 (N _ I))|]. intro F. split; [apply (SO F t e); apply in_or_app; now left|].
    assert (S := timed_sorted E _ _ _ _ H' F). rewrite D, map_app in S. cbn [map fst] in S. rewrite map_app in S. cbn [map fst] in S.
    change (map fst l0 ++ sp_start y :: map fst l1 ++ sp_stop y :: map fst l2) with (map fst l0 ++ ([sp_start y] ++ map fst l1) ++ [sp_stop y] ++ map fst l2) in S. rewrite app_assoc in S.
    apply (sorted_app _ _ S t (sp_stop y)); [|now left]. apply in_or_app. right. right. apply in_map_iff. exists (t, e). split; [reflexivity|exact I].
  - intro F. apply (SO F (sp_stop y) (EvReport (sp_item y) (sp_phase y) (sp_verdict y))). apply in_or_app. right. now left.
Qed.
Print Assumptions C90_span.
Example C90_span_ex : exists s x, timed two_env (init two_env 5) two_timed = Some (s, x) /\ In (Span 0 PCall Failed 56 157) (session_reports two_env x) /\ forward two_timed.
Proof. eexists _, _. split; [vm_compute; reflexivity|]. split; [right; left; reflexivity|exact two_forward]. Qed.

(** Reports leave no gap and do not overlap: the first begins with the session, each other one where the one before ended;
    whatever raises and whenever the simulation ends. *)
Theorem C90_tiles E r t l ls s x : timed E (init E r) ((t, l) :: ls) = Some (s, x) -> tiles t (session_reports E x).
Proof.
  intro H. destruct (timed_all E _ _ _ _ _ _ H) as (m & A & _). apply (advs_tiles E x (TShut t) 0 m A). intros t9 H9. discriminate H9.
Qed.
Print Assumptions C90_tiles.
Example C90_tiles_ex : exists s x, timed two_env (init two_env 5) two_timed = Some (s, x) /\ tiles 40 two_spans /\ session_reports two_env x = two_spans.
Proof. eexists _, _. split; [vm_compute; reflexivity|]. split; [repeat split|vm_compute; reflexivity]. Qed.

(** Every asynchronous part runs within the times of the report about its phase, if there is one. *)
Theorem C90_runs E r ls s x a t p b c sd rd d : timed E (init E r) ls = Some (s, x) -> forward ls ->
  x = a ++ (t, EvRun p b c sd rd) :: d -> (exists t2 e, In (t2, e) d /\ is_report e) ->
  exists y, In y (session_reports E x) /\ sp_phase y = p /\ sp_start y <= t <= sp_stop y.
Proof.
  intros H F X (t2 & e & I & R). destruct ls as [|[t0 l] ls]; [cbn [timed] in H; injection H as <- <-; destruct a; discriminate X|].
  destruct (timed_all E _ _ _ _ _ _ H) as (m & A & _). destruct (all_ok_timed E r _ _ _ H) as [_ OK]. assert (S := timed_sorted E _ _ _ _ H F).
  assert (A' := A). rewrite X, advs_app in A'. destruct (advs E (TShut t0) a) as [m0|] eqn:A0; [|discriminate A']. cbn [advs] in A'.
  destruct m0 as [u|u|u]; cbn [adv] in A'; try discriminate A'. destruct (first_report E d u m A') as (l1 & t3 & i & q & v & l2 & D & N); [exists (t2, e); split; assumption|].
  exists (Span i q v u t3). split; [|cbn [sp_phase sp_start sp_stop]; split; [|split]].
  - unfold session_reports. rewrite X, reports_app. apply in_or_app. right. rewrite (after_open E a (TShut t0) 0 u A0); [|intros t9 H9; discriminate H9].
    cbn [reports]. rewrite D, (inner_reports E l1 N). now left.
  - assert (K1 := OK (map snd a) (EvRun p b c sd rd) (map snd d)). cbn [ok_event] in K1. destruct K1 as (j & K1 & _); [rewrite X, map_app; reflexivity|].
    assert (K2 := OK (map snd (a ++ (t, EvRun p b c sd rd) :: l1)) (EvReport i q v) (map snd l2)). cbn [ok_event] in K2.
    rewrite map_app, last_hook_app, K1 in K2. cbn [map snd last_hook] in K2. rewrite (inner_hook l1 N) in K2.
    assert (K3 : Some (j, p) = Some (i, q)); [|now injection K3].
    apply K2. rewrite X, D, !map_app. cbn [map snd]. rewrite map_app. cbn [map snd]. now rewrite <- app_assoc.
  - rewrite X, map_app in S. cbn [map fst] in S. destruct (advs_pos E a _ _ A0) as [P|P]; cbn [pos] in P.
    + subst u. assert (L := timed_low E t0 _ _ _ _ H). assert (LF : Forall (Z.le t0) (map fst x)).
      { apply L. unfold forward in F. cbn [map fst] in F |- *. inversion F; subst. constructor; [lia|assumption]. }
      apply (proj1 (Forall_forall _ _) LF). rewrite X, map_app. apply in_or_app. right. now left.
    + apply (sorted_app _ _ S); [exact P|now left].
  - rewrite X, map_app in S. cbn [map fst] in S. change (map fst a ++ t :: map fst d) with (map fst a ++ [t] ++ map fst d) in S. rewrite app_assoc in S.
    apply (sorted_app _ _ S); [apply in_or_app; right; now left|]. rewrite D, map_app. apply in_or_app. right. now left.
Qed.
Print Assumptions C90_runs.
Example C90_runs_ex : exists s x a d c sd rd, timed two_env (init two_env 5) two_timed = Some (s, x) /\ forward two_timed /\
  x = a ++ (57, EvRun PCall 3%nat c sd rd) :: d /\ exists t2 e, In (t2, e) d /\ is_report e.
Proof.
  eexists _, _, [_; _; _; _; _; _], _, _, _, _. split; [vm_compute; reflexivity|]. split; [exact two_forward|]. split; [reflexivity|].
  exists 157, (EvReport 0 PCall Failed). split; [left; reflexivity|exact Logic.I].
Qed.

(** In a session in which nothing raises, the durations of all reports add up to the time from the begin to the end of the session. *)
Theorem C90_total E r t ls s x : quiet E -> normal E -> timed E (init E r) ((t, LBegin) :: ls) = Some (s, x) -> no_sim_end (map snd ls) -> r_finished s = true ->
  exists tf, In (tf, EvFinish true) x /\ total (session_reports E x) = tf - t.
Proof.
  intros Q N H NS F. destruct (timed_exec E _ _ _ _ H) as [X L]. cbn [init r_log app] in L.
  destruct (C74_order E r _ s Q N X) as (rest & O & R); [intros [G|G]; [discriminate G|now apply NS]|discriminate|]. rewrite (proj1 R F), app_nil_r, L in O. unfold session_log in O.
  symmetry in O. rewrite map_map in O. apply map_eq_app in O as (a & c & -> & OA & OC).
  destruct c as [|[tf e] c]; [discriminate OC|]. cbn [map snd] in OC. injection OC as OE OC. destruct e; try discriminate OE. injection OE as ->.
  exists tf. split; [apply in_or_app; right; now left|].
  destruct (timed_all E _ _ _ _ _ _ H) as (m & A & _). rewrite advs_app in A. destruct (advs E (TShut t) a) as [ma|] eqn:A0; [|discriminate A].
  assert (SH : shape ma = Shut).
  { rewrite (advs_shape E a _ _ A0). cbn [shape]. rewrite <- (mds_plain E (map snd a)), map_map, OA. now apply mds_items. }
  destruct ma as [u|u|u]; try discriminate SH. cbn [advs adv] in A. destruct (u =? tf) eqn:U; [|discriminate A]. apply Z.eqb_eq in U. subst u.
  unfold session_reports. rewrite reports_app. cbn [reports].
  assert (RC : forall z, reports E z c = []).
  { destruct c as [|[t1 e1] c]; [discriminate OC|]. cbn [map snd] in OC. injection OC as O1 OC. destruct c as [|[t2 e2] c]; [discriminate OC|]. cbn [map snd] in OC. injection OC as O2 OC.
    destruct c; [|discriminate OC]. intro z. destruct e1; try discriminate O1. destruct e2; try discriminate O2. reflexivity. }
  rewrite RC, app_nil_r. rewrite (advs_total E a (TShut t) 0 (TShut tf) A0); [reflexivity|intros t9 H9; discriminate H9|intros t9 H9; discriminate H9].
Qed.
Print Assumptions C90_total.
Example C90_total_ex : quiet two_env /\ normal two_env /\ no_sim_end (map snd two_timed) /\ total two_spans = 121 /\
  exists s x, timed two_env (init two_env 5) two_timed = Some (s, x) /\ r_finished s = true /\ In (161, EvFinish true) x.
Proof.
  split; [apply simple_quiet|]. split; [apply simple_normal; lia|]. split; [intro H; repeat (destruct H as [H|H]; [discriminate H|]); destruct H|]. split; [reflexivity|].
  eexists _, _. split; [vm_compute; reflexivity|]. split; [reflexivity|]. do 20 right. left. reflexivity.
Qed.

(** [sim_time_ratio]: under pytest it is what is documented; the one of cocotb's own manager is the inverse. *)
Theorem C90_ratio wall sim : ~ (sim == 0)%Q -> documented_ratio wall sim (pytest_ratio wall sim).
Proof.
  intro N. unfold pytest_ratio. destruct (Qeq_bool sim 0) eqn:B; [apply Qeq_bool_eq in B; now elim N|]. exists (wall / sim)%Q. split; [reflexivity|]. field. exact N.
Qed.
Print Assumptions C90_ratio.
Example C90_ratio_ex : ~ (8 == 0)%Q /\ pytest_ratio 2 8 = Num (2 / 8).
Proof. split; [intro H; discriminate H|reflexivity]. Qed.
Theorem C90_ratio_inverse wall sim : ~ (sim == 0)%Q -> ~ (wall == 0)%Q ->
  exists a b, pytest_ratio wall sim = Num a /\ native_ratio wall sim = Num b /\ (a * b == 1)%Q.
Proof.
  intros N M. unfold pytest_ratio, native_ratio, safe_divide. destruct (Qeq_bool sim 0) eqn:B; [apply Qeq_bool_eq in B; now elim N|].
  destruct (Qeq_bool wall 0) eqn:C; [apply Qeq_bool_eq in C; now elim M|]. exists (wall / sim)%Q, (sim / wall)%Q. split; [reflexivity|]. split; [reflexivity|]. field. split; assumption.
Qed.
Print Assumptions C90_ratio_inverse.
Example C90_ratio_inverse_ex : exists a b, pytest_ratio 2 8 = Num a /\ native_ratio 2 8 = Num b /\ (a == 1 # 4)%Q /\ (b == 4)%Q.
Proof. exists (2 / 8)%Q, (8 / 2)%Q. repeat split. Qed.
(** The quotient is a number unless the wall time is zero; then it is infinite, or not a number if no simulated time passed either. *)
Theorem C90_divide wall sim : (wall == 0 -> native_ratio wall sim = if Qeq_bool sim 0 then NaN else Inf)%Q /\
  (~ wall == 0 -> exists q, native_ratio wall sim = Num q /\ q * wall == sim)%Q.
Proof.
  unfold native_ratio, safe_divide. split; intro W.
  - apply Qeq_bool_iff in W. rewrite W. reflexivity.
  - destruct (Qeq_bool wall 0) eqn:B; [apply Qeq_bool_eq in B; now elim W|]. exists (sim / wall)%Q. split; [reflexivity|]. field. exact W.
Qed.
Print Assumptions C90_divide.
Example C90_divide_ex : native_ratio 0 5 = Inf /\ native_ratio 0 0 = NaN /\ exists q, native_ratio 2 0 = Num q /\ (q == 0)%Q.
Proof. split; [reflexivity|]. split; [reflexivity|]. eexists. split; [vm_compute; reflexivity|reflexivity]. Qed.
Theorem C90_native_ratio_refuted : exists wall sim, (0 < wall)%Q /\ (0 < sim)%Q /\ ~ documented_ratio wall sim (native_ratio wall sim).
Proof.
  exists 2%Q, 8%Q. split; [reflexivity|]. split; [reflexivity|]. intros (q & H & G). cbv [native_ratio safe_divide Qeq_bool Zeq_bool] in H. cbn in H. injection H as <-. discriminate G.
Qed.
Print Assumptions C90_native_ratio_refuted.

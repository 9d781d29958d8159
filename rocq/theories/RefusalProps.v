(** Further statements about refusals and settings: C15, C38, C45, C50, C85, C93. *)
From Verif Require Import Base TextModel.
From Verif Require TimeModel ClockModel LogicModel RegressionModel ReportModel ReportSpec ReportProofs BuildModel BuildSpec BuildProps.
From Coq Require Import String QArith Lia.
Open Scope Z_scope.

(** * C38: why a clock is refused *)
(** A period which is no whole number of steps is refused with the error of its conversion; a high time which is not less than the period,
    and an odd period without a high time, with ValueError. *)
Theorem C38_init_refused prec period unit h :
  (forall e, TimeModel.sim_steps prec period unit TimeModel.RError = Err e -> ClockModel.clock_init prec period unit h = Err e) /\
  (forall p x, TimeModel.sim_steps prec period unit TimeModel.RError = Ok p -> h = Some x -> (TimeModel.val period <= TimeModel.val x)%Q ->
    ClockModel.clock_init prec period unit h = Err ValueError) /\
  (forall p x e, TimeModel.sim_steps prec period unit TimeModel.RError = Ok p -> h = Some x -> ~ (TimeModel.val period <= TimeModel.val x)%Q ->
    TimeModel.sim_steps prec x unit TimeModel.RError = Err e -> ClockModel.clock_init prec period unit h = Err e) /\
  (forall p, TimeModel.sim_steps prec period unit TimeModel.RError = Ok (2 * p + 1) -> h = None -> ClockModel.clock_init prec period unit h = Err ValueError).
Proof.
  unfold ClockModel.clock_init. split; [intros e ->; reflexivity|]. split; [|split].
  - intros p x -> -> L. cbn [bind]. apply Qle_bool_iff in L. now rewrite L.
  - intros p x e -> -> L E. cbn [bind]. destruct (Qle_bool _ _) eqn:Q; [apply Qle_bool_iff in Q; contradiction|]. now rewrite E.
  - intros p -> ->. cbn [bind]. replace ((2 * p + 1) mod 2) with 1; [reflexivity|]. rewrite Z.add_comm, Z.mul_comm, Z.mod_add by lia. reflexivity.
Qed.
Print Assumptions C38_init_refused.
Example C38_init_refused_ex : ClockModel.clock_init (-12) (TimeModel.NInt 3) (lit "ns") (Some (TimeModel.NInt 3)) = Err ValueError /\
  ClockModel.clock_init (-9) (TimeModel.NInt 3) (lit "ns") None = Err ValueError /\ ClockModel.clock_init (-9) (TimeModel.NInt 1) (lit "ps") None = Err ValueError.
Proof. repeat (apply conj); vm_compute; reflexivity. Qed.

(** * C15: COCOTB_RESOLVE_X *)
(** The words which are accepted, in any case. *)
Definition C15_words : list (pystr * LogicModel.resolver) :=
  [(lit "error", LogicModel.RError); (lit "value_error", LogicModel.RError); (lit "weak", LogicModel.RWeak); (lit "zeros", LogicModel.RZeros);
   (lit "ones", LogicModel.ROnes); (lit "random", LogicModel.RRandom)].
Theorem C15_setting env :
  (LogicModel.resolve_x_setting env = Ok None <-> env = []) /\
  (forall r, LogicModel.resolve_x_setting env = Ok (Some r) <-> In (lower env, r) C15_words) /\
  (forall e, LogicModel.resolve_x_setting env = Err e -> e = ValueError).
Proof.
  unfold LogicModel.resolve_x_setting, LogicModel.resolver_of_name, C15_words. cbv zeta.
  assert (E : lower env = [] <-> env = []) by (destruct env; cbn; split; intro H; congruence).
  rewrite <- E. clear E. set (w := lower env). clearbody w. cbn [LogicModel.assoc_str].
  assert (K : forall a b : pystr, pystr_eqb a b = true -> a = b) by (intros a b; apply pystr_eqb_eq).
  destruct w as [|c w].
  { split; [tauto|]. split; [|discriminate]. intro r. split; [discriminate|]. cbn. intuition discriminate. }
  cbv iota beta. set (v := c :: w). assert (N : v <> []) by discriminate. clearbody v.
  assert (V : forall x : option LogicModel.resolver, (exists r, x = Some r /\ In (v, r) C15_words) \/ (x = None /\ forall r, ~ In (v, r) C15_words) ->
    (bind (match x with Some r => Ok r | None => Err ValueError end) (fun x => Ok (Some x)) = Ok None <-> v = []) /\
    (forall r, bind (match x with Some r => Ok r | None => Err ValueError end) (fun x => Ok (Some x)) = Ok (Some r) <-> In (v, r) C15_words) /\
    (forall e, bind (match x with Some r => Ok r | None => Err ValueError end) (fun x => Ok (Some x)) = Err e -> e = ValueError)).
  { assert (U : forall r r', In (v, r) C15_words -> In (v, r') C15_words -> r = r').
    { intros r r' H H'. unfold C15_words in H, H'. cbn [In] in H, H'.
      repeat (destruct H as [H|H]; [injection H as <- <-; repeat (destruct H' as [H'|H']; [first [discriminate H' | now injection H' as <-]|]); contradiction|]).
      contradiction. }
    intros x [(r & -> & H)|(-> & H)]; cbn [bind].
    - split; [split; [discriminate|contradiction]|]. split; [|discriminate]. intro r'. split.
      + intro E. injection E as <-. exact H.
      + intro H'. now rewrite (U r r' H H').
    - split; [split; [discriminate|contradiction]|]. split; [|intros e E; now injection E as <-]. intro r. split; [discriminate|]. intro H'. elim (H r H'). }
  fold C15_words. destruct (pystr_eqb v (lit "value_error")) eqn:X.
  - apply K in X. subst v. apply V. left. eexists. split; [reflexivity|]. cbn. tauto.
  - apply V. unfold C15_words.
    repeat match goal with |- context [if pystr_eqb ?a v then _ else _] => let P := fresh in destruct (pystr_eqb a v) eqn:P;
          [apply K in P; subst v; left; eexists; split; [reflexivity|cbn; tauto]|] end.
    right. split; [reflexivity|]. intros r H'. cbn [In] in H'.
    repeat (destruct H' as [H'|H']; [injection H' as H' _; subst v; discriminate|]). contradiction.
Qed.
Print Assumptions C15_setting.
Example C15_setting_ex : LogicModel.resolve_x_setting (lit "Value_Error") = Ok (Some LogicModel.RError) /\
  LogicModel.resolve_x_setting (lit "ZEROS") = Ok (Some LogicModel.RZeros) /\ LogicModel.resolve_x_setting (lit "zero") = Err ValueError.
Proof. repeat split. Qed.

(** * C45: several exceptions of one test *)
(** One exception is the outcome itself; several become one group with all of them in order, an ExceptionGroup exactly if all are
    Exceptions. *)
Theorem C45_group c excs : List.length excs <> 1%nat -> excs <> [] ->
  exists g, RegressionModel.exception_of c excs = Some g /\ (let '(RegressionModel.Exc _ l) := g in l) = excs /\
    (RegressionModel.x_cls g = RegressionModel.cExceptionGroup \/ RegressionModel.x_cls g = RegressionModel.cBaseExceptionGroup) /\
    (RegressionModel.x_cls g = RegressionModel.cExceptionGroup <-> forall e, In e excs -> RegressionModel.isinstance c e RegressionModel.cException = true).
Proof.
  intros L N. destruct excs as [|e1 [|e2 r]]; [now elim N|now elim L|]. eexists. split; [reflexivity|]. split; [reflexivity|].
  set (l := e1 :: e2 :: r). cbn [RegressionModel.x_cls]. destruct (forallb _ l) eqn:F.
  - split; [now left|]. split; [intros _; now apply forallb_forall|reflexivity].
  - split; [now right|]. split; [discriminate|]. intro H. apply forallb_forall in H. congruence.
Qed.
Print Assumptions C45_group.
Example C45_group_ex :
  let c := RegressionModel.Cfg (fun a b => (a =? b) || ((a <? 20) && (b =? RegressionModel.cException))) (fun _ _ => false) (fun _ => 0) (fun _ => 0) 0 0 false [] false in
  RegressionModel.exception_of c [RegressionModel.Exc 1 []; RegressionModel.Exc 2 []] =
    Some (RegressionModel.Exc RegressionModel.cExceptionGroup [RegressionModel.Exc 1 []; RegressionModel.Exc 2 []]) /\
  RegressionModel.exception_of c [RegressionModel.Exc 1 []; RegressionModel.Exc 20 []] =
    Some (RegressionModel.Exc RegressionModel.cBaseExceptionGroup [RegressionModel.Exc 1 []; RegressionModel.Exc 20 []]).
Proof. vm_compute. now split. Qed.

(** * C50: white space *)
Theorem C50_space c : is_space c = true <->
  In c ([9; 10; 11; 12; 13; 28; 29; 30; 31; 32; 133; 160; 5760; 8192; 8193; 8194; 8195; 8196; 8197; 8198; 8199; 8200; 8201; 8202;
         8232; 8233; 8239; 8287; 12288]).
Proof.
  unfold is_space. rewrite !Bool.orb_true_iff, !Bool.andb_true_iff, !Z.leb_le, !Z.eqb_eq. cbn [In]. lia.
Qed.
Print Assumptions C50_space.
Example C50_space_ex : is_space 160 = true /\ is_space 65 = false.
Proof. now split. Qed.

(** * C85: after the end of the session *)
Section Closed.
Import ReportModel ReportSpec ReportProofs.
Lemma C85_closed_step p s l s' : s_main s = MClosed -> s_listening s = false -> (s_receiver s = TDone \/ s_receiver s = TDead) ->
  match s_senders s p with SConnected _ _ _ | SSent _ _ _ => False | _ => True end -> step s l = Some s' ->
  (s_main s' = MClosed /\ s_listening s' = false /\ (s_receiver s' = TDone \/ s_receiver s' = TDead) /\
   match s_senders s' p with SConnected _ _ _ | SSent _ _ _ => False | _ => True end) /\
  ReportSpec.of p (s_sent s') = ReportSpec.of p (s_sent s) /\ s_delivered s' = s_delivered s.
Proof.
  intros M L T P E.
  assert (O : forall q x, match x with SConnected _ _ _ | SSent _ _ _ => q <> p | _ => True end ->
            match put (s_senders s) q x p with SConnected _ _ _ | SSent _ _ _ => False | _ => True end).
  { intros q x X. unfold put. destruct (Nat.eqb_spec p q) as [->|N]; [destruct x; auto; now elim X|exact P]. }
  assert (F : forall q d r s0, s_main s0 = MClosed -> s_listening s0 = false -> s_receiver s0 = s_receiver s -> s_senders s0 = s_senders s ->
     s_sent s0 = s_sent s -> s_delivered s0 = s_delivered s ->
     (s_main (failed q d r s0) = MClosed /\ s_listening (failed q d r s0) = false /\ (s_receiver (failed q d r s0) = TDone \/ s_receiver (failed q d r s0) = TDead) /\
     match s_senders (failed q d r s0) p with SConnected _ _ _ | SSent _ _ _ => False | _ => True end) /\
     ReportSpec.of p (s_sent (failed q d r s0)) = ReportSpec.of p (s_sent s) /\ s_delivered (failed q d r s0) = s_delivered s).
  { intros q d r s0 H1 H2 H3 H4 H5 H6. destruct r; cbn; rewrite H1, H2, H3, H4, H5, H6; (split; [|now split]); (split; [reflexivity|]); (split; [reflexivity|]);
    (split; [exact T|]); apply O; exact Logic.I. }
  destruct l as [q d|q ok|q ok|q ok|q| | |lost|ok| |ok|ok| | | | |]; cbn in E; rewrite ?M, ?L in E; try discriminate E.
  - destruct (s_senders s q); try discriminate E. injection E as <-. cbn. split; [|now split]. repeat (split; [assumption|]). now apply O.
  - destruct (s_senders s q); try discriminate E. destruct ok; [discriminate E|]. injection E as <-. now apply F.
  - destruct (s_senders s q) as [| |d r c| |] eqn:Q; try discriminate E. injection E as <-.
    assert (N : q <> p) by (intros ->; now rewrite Q in P). destruct ok; [|now apply F].
    cbn. unfold ReportSpec.of. rewrite filter_app, map_app. cbn. apply Nat.eqb_neq in N as N'. rewrite N'. cbn. rewrite app_nil_r.
    split; [|now split]. repeat (split; [assumption|]). now apply O.
  - destruct (s_senders s q) as [| | |d r c|] eqn:Q; try discriminate E. injection E as <-. destruct ok; [|now apply F]. cbn. split; [|now split]. repeat (split; [assumption|]). now apply O.
  - injection E as <-. destruct (s_senders s q); cbn; (split; [|now split]); repeat (split; [assumption|]); now apply O.
  - destruct T as [T|T]; rewrite T in E; discriminate E.
  - destruct T as [T|T]; rewrite T in E; discriminate E.
  - destruct T as [T|T]; rewrite T in E; discriminate E.
  - destruct T as [T|T]; rewrite T in E; discriminate E.
  - destruct T as [T|T]; rewrite T in E; discriminate E.
  - destruct T as [T|T]; rewrite T in E; discriminate E.
  - destruct T as [T|T]; rewrite T in E; discriminate E.
Qed.
(** After [pytest_sessionfinish] has closed the listener nothing is delivered any more, and a simulator which is not just sending a report
    never sends one again: its further reports are given up. *)
Theorem C85_closed s s1 ls s2 p : step s LJoin = Some s1 -> exec s1 ls s2 -> s_senders s1 p = SIdle ->
  s_delivered s2 = s_delivered s1 /\ ReportSpec.of p (s_sent s2) = ReportSpec.of p (s_sent s1).
Proof.
  intros J E P. cbn in J.
  assert (I : s_main s1 = MClosed /\ s_listening s1 = false /\ (s_receiver s1 = TDone \/ s_receiver s1 = TDead)).
  { destruct (s_main s); try discriminate J. destruct (s_receiver s) eqn:R; try discriminate J; injection J as <-; cbn; auto. }
  assert (P' : match s_senders s1 p with SConnected _ _ _ | SSent _ _ _ => False | _ => True end) by now rewrite P.
  destruct I as (M & L & T). clear J P. revert M L T P'. induction E as [s0|s0 l s0' ls s0'' S _ IH]; intros M L T P; [now split|].
  destruct (C85_closed_step p _ _ _ M L T P S) as ((M' & L' & T' & P') & A & B). destruct (IH M' L' T' P') as [C D]. split; congruence.
Qed.
Print Assumptions C85_closed.
Example C85_closed_ex : (exists s s1 s2, exec (init false false) [LReport 2 7; LConnect 2 true; LSend 2 true; LClose 2 true; LStart; LAccept; LRecv true; LLog; LLogged true; LFinish; LStop; LAccept; LRecv true] s /\
  step s LJoin = Some s1 /\ exec s1 (LReport 2 8 :: List.repeat (LConnect 2 false) 11) s2 /\
  s_senders s1 2%nat = SIdle /\ s_delivered s2 = [(2, 7)]%nat /\ s_sent s2 = [(2, 7)]%nat /\ s_given_up s2 = [(2, 8)]%nat)%nat.
Proof.
  eexists. eexists. eexists. split; [|split; [|split]].
  - repeat (eapply exec_cons; [vm_compute; reflexivity|]). apply exec_nil.
  - vm_compute. reflexivity.
  - cbn [List.repeat]. repeat (eapply exec_cons; [vm_compute; reflexivity|]). apply exec_nil.
  - vm_compute. auto.
Qed.
End Closed.

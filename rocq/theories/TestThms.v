(** Consequences of the invariants of TestManager. *)
From Verif Require Import Base KernelModel KernelProofs KernelHist KernelLog KernelInv KernelTask KernelWake KernelLayer KernelStack
  LayerProofs StackProofs TestModel TestSpec TestInv TestInv2 TestInv3 TestWhy TestWhy2 TestSafe.
From Coq Require Import Arith.

(** Nothing ends after completion; the shutdown is in the history. *)
Record ZI (x : qst) : Prop := {
  Z_last : forall h1 r h2, x_hist x = h1 ++ HComplete r :: h2 -> forall u aw, ~ In (HEnd u aw) h1;
  Z_fin : x_fin x = true -> In HAbort (x_hist x) }.
Lemma zi_step x l x' r : TI x -> ZI x -> qstep x l = Some (x', r) -> ZI x'.
Proof.
  intros M Z St. destruct (qstep_move x l x' r M St) as (Ha & Es & Mv).
  assert (Keep : forall y a, ZI y -> (forall u aw, a <> HEnd u aw) -> ZI (note y a)).
  { intros y a [Z1 Z2] N. constructor; fields; [|intro F; right; auto]. intros [|b h1] r0 h2 E u aw I; [destruct I|]. injection E as -> E.
    destruct I as [I|I]; [elim (N u aw I)|elim (Z1 h1 r0 h2 E u aw I)]. }
  assert (Same : forall y y', ZI y -> x_hist y' = x_hist y -> x_fin y' = x_fin y -> ZI y') by (intros y y' [Z1 Z2] E1 E2; constructor; rewrite E1, ?E2; auto).
  assert (Ab : forall y f, ZI y -> ZI (abort y f)).
  { intros y f Zy. unfold abort. destruct (x_fin y) eqn:F; [now apply (Same y)|].
    destruct (Keep y HAbort Zy) as [K1 _]; [discriminate|]. constructor; fields; [exact K1|intros _; now left]. }
  destruct Mv as [kl k r0 C S|t tm Ec Em F|u C F Cu|u C Cu|Ec Tm L|m Ec L|u y Ecb E|u Ecb Nm C|u Ecb C|u us d k r0 Ecb L Lo C Nr|u us d k e Ecb L Lo C|d Ecb L Lo|u a rest c k r0 Ecb L Ec Nt Ev R S].
  - now apply (Same x).
  - destruct (begin_facts x t tm F) as (k & -> & ->). cbn [fst]. apply (Same (note x (HAdd t))); [apply Keep; auto; discriminate|reflexivity|reflexivity].
  - apply (Same (note x (HAdd u))); [apply Keep; auto; discriminate|reflexivity|reflexivity].
  - exact Z.
  - apply Ab. apply Keep; [|discriminate]. now apply (Same x).
  - apply Ab. now apply Keep.
  - assert (Iu : In u (x_tasks x)) by (apply (Q_tasks x M); split; [apply (Q_cb x M _ Ecb)|auto]).
    assert (Nd : x_done x = false) by (destruct (x_done x) eqn:D; [destruct (Q_done x M D) as (_ & Q & _); rewrite Q in Iu; destruct Iu|reflexivity]).
    pose proof (Q_sig x M) as Sg. rewrite Nd in Sg. pose proof (signals_none _ Sg) as None'. destruct Z as [Z1 Z2].
    assert (No : forall h1 r0 h2, HEnd u (awaited (x_k x) u) :: x_hist x <> h1 ++ HComplete r0 :: h2).
    { intros [|b h1] r0 h2 Q; [discriminate|]. injection Q as _ Q. apply (None' _ _ _ Q). }
    assert (Zn : ZI (note x (HEnd u (awaited (x_k x) u)))).
    { constructor; fields; [|intro; right; auto]. intros h1 r0 h2 Q. elim (No h1 r0 h2 Q). }
    unfold remove_task in E. destruct (existsb _ _); [|discriminate]. injection E as <-. unfold done_set.
    match goal with |- context[match ?l with [] => _ | _ => _ end] => destruct l end; [|now apply (Same (note x (HEnd u (awaited (x_k x) u))))].
    fields. destruct (x_reg x).
    + destruct (Keep _ (HComplete (exception_of (x_excs x))) Zn) as [K1 K2]; [discriminate|]. constructor; assumption.
    + now apply (Same (note x (HEnd u (awaited (x_k x) u)))).
  - now apply (Same x).
  - now apply Ab.
  - apply Keep; [|discriminate]. now apply (Same x).
  - now apply (Same x).
  - unfold loop_step. destruct (x_flag _); cbn [fst]; [|now apply (Same x)].
    apply (Same (note x (HComplete (exception_of (x_excs x))))); [apply Keep; auto; discriminate|reflexivity|reflexivity].
  - now apply (Same x).
Qed.
Lemma qreach_zi ls x : qreach ls x -> TI x /\ ZI x.
Proof.
  apply (qexec_ind2 sim_ok (fun x => TI x /\ ZI x)).
  - intros a l b r [M Z] So St. split; [now apply (ti_step a l b r)|now apply (zi_step a l b r)].
  - split; [apply qinit_ok|]. constructor; [intros [|? ?] ? ?; discriminate|discriminate].
Qed.

Lemma signals_in h r : In (HComplete r) h -> 1 <= signals h.
Proof.
  intro I. unfold signals. assert (J : In (HComplete r) (filter (fun a => match a with HComplete _ => true | _ => false end) h)) by (apply filter_In; auto).
  destruct (filter _ h); [destruct J|cbn; lia].
Qed.
Lemma report_exact fs : report_is (exception_of fs) fs.
Proof. destruct fs as [|f [|g fs]]; cbn; auto. split; [reflexivity|lia]. Qed.

Theorem once ls x : qreach ls x -> signals (x_hist x) <= 1.
Proof. intro R. rewrite (Q_sig x (qreach_ti ls x R)). destruct (x_done x); lia. Qed.
Theorem all_ended ls x : qreach ls x -> forall h1 r h2 u, x_hist x = h1 ++ HComplete r :: h2 -> registered x u ->
  In (HAdd u) h2 /\ (exists aw, In (HEnd u aw) h2) /\ done (x_k x) u = true.
Proof.
  intros R h1 r h2 u E Ru. pose proof (qreach_ti ls x R) as M. destruct (qreach_wi ls x R) as [_ [T _]]. destruct (qreach_zi ls x R) as [_ Z].
  assert (D : x_done x = true).
  { pose proof (Q_sig x M) as S. assert (1 <= signals (x_hist x)) by (apply (signals_in _ r); rewrite E; apply in_elt).
    destruct (x_done x); [reflexivity|lia]. }
  destruct (Q_done x M D) as (_ & Tk & _). assert (N : ~ (due (x_k x) u \/ x_cb x = Some (BRemove u))).
  { intro Q. assert (I : In u (x_tasks x)) by (apply (Q_tasks x M); auto). rewrite Tk in I. destruct I. }
  destruct (E_all _ _ _ T u Ru) as [Q|[Q|[aw Q]]]; [tauto|tauto|]. unfold registered in Ru. rewrite E in Ru, Q.
  split; [|split].
  - apply in_app_or in Ru. destruct Ru as [I|[I|I]]; [elim (Q_quiet x M h1 r h2 E u I)|discriminate|exact I].
  - exists aw. apply in_app_or in Q. destruct Q as [I|[I|I]]; [elim (Z_last x Z h1 r h2 E u aw I)|discriminate|exact I].
  - apply not_due_done. tauto.
Qed.
Theorem reported ls x : qreach ls x -> forall h1 r h2, x_hist x = h1 ++ HComplete r :: h2 ->
  report_is r (failures x h2) \/ exists u aw h3, h2 = HEnd u aw :: h3 /\ report_is r (failures x h3).
Proof.
  intros R h1 r h2 E. destruct (qreach_wi ls x R) as [_ [T _]]. destruct (E_rep _ _ _ T h1 r h2 E) as [->|(u & aw & h3 & -> & ->)].
  - left. apply report_exact.
  - right. exists u, aw, h3. split; [reflexivity|]. apply report_exact.
Qed.
Theorem why ls x : qreach ls x -> (In HAbort (x_hist x) -> exists h, In h (x_hist x) /\ ends_test x h) /\
  (x_cb x = None -> forall h, In h (x_hist x) -> ends_test x h -> In HAbort (x_hist x)).
Proof.
  intro R. destruct (qreach_wi ls x R) as [_ [T _]]. destruct (qreach_zi ls x R) as [_ Z]. split.
  - intro I. apply (E_fin _ _ _ T). destruct (x_fin x) eqn:F; [reflexivity|]. elim (E_once _ _ _ T F I).
  - intros Ecb h I Et. apply (Z_fin x Z). destruct (E_end _ _ _ T h I Et) as [Q|(u & Q & _)]; [exact Q|congruence].
Qed.
(** Neither Python code nor the loop of [_abort] is running. *)
Definition idle (x : qst) : Prop := s_ctl (x_k x) = [] /\ x_loop x = None /\ x_esc x = false.
Lemma idle_nocb ls x : qreach ls x -> idle x -> x_cb x = None.
Proof. intros R (Ec & _). apply idle_cb; [now apply (qreach_ti ls)|exact Ec]. Qed.
Theorem signalled ls x : qreach ls x -> idle x -> x_main x <> None ->
  ((exists r, In (HComplete r) (x_hist x)) <-> In HAbort (x_hist x) /\ forall u, registered x u -> done (x_k x) u = true).
Proof.
  intros R I Mn. pose proof (qreach_ti ls x R) as M. destruct (qreach_wi ls x R) as [_ [T _]]. destruct (qreach_zi ls x R) as [_ Z].
  pose proof (idle_nocb ls x R I) as Ecb. destruct I as (Ec & Lo & Es). pose proof (Q_mode x M Es) as Md. rewrite Lo in Md. split.
  - intros [r I]. assert (D : x_done x = true).
    { pose proof (Q_sig x M) as S. pose proof (signals_in _ r I). destruct (x_done x); [reflexivity|lia]. }
    split; [apply (Z_fin x Z), (Q_done x M D)|]. intros u Ru. destruct (in_split _ _ I) as (h1 & h2 & E). apply (all_ended ls x R h1 r h2 u E Ru).
  - intros [Ab Dn]. assert (F : x_fin x = true) by (destruct (x_fin x) eqn:Q; [reflexivity|elim (E_once _ _ _ T Q Ab)]). rewrite F in Md.
    assert (Tk : x_tasks x = []).
    { destruct (x_tasks x) as [|u l] eqn:Q; [reflexivity|exfalso]. assert (Iu : In u (x_tasks x)) by (rewrite Q; now left).
      apply (Q_tasks x M) in Iu. destruct Iu as [Ru [[Du|(a & Du)]|Du]].
      - rewrite (Dn u Ru) in Du. discriminate.
      - rewrite Ec in Du. destruct Du.
      - congruence. }
    pose proof (Q_empty x M Mn Tk) as Fl. destruct (x_reg x); [destruct (x_done x); [destruct Md|congruence]|]. destruct (x_done x) eqn:D; [|destruct Md].
    pose proof (Q_sig x M) as Sg. rewrite D in Sg. unfold signals in Sg.
    destruct (filter _ (x_hist x)) as [|a l] eqn:Fi; [discriminate|]. assert (Ia : In a (filter (fun a => match a with HComplete _ => true | _ => false end) (x_hist x))) by (rewrite Fi; now left).
    apply filter_In in Ia. destruct Ia as [Ia B]. destruct a; try discriminate. eauto.
Qed.
Theorem cancels ls x : qreach ls x -> x_loop x = None -> x_esc x = false -> forall h1 h2 u, x_hist x = h1 ++ HAbort :: h2 -> In (HAdd u) h2 ->
  In (HNow u) h1 \/ done (x_k x) u = true.
Proof.
  intros R Lo Es h1 h2 u E I. destruct (qreach_wi ls x R) as [_ [T _]]. destruct (done (x_k x) u) eqn:D; [auto|left].
  destruct (E_abort _ _ _ T h1 h2 u E I) as [Q|[(todo & d & Q & _)|Q]]; [now left|exact Q|congruence|congruence].
Qed.
Theorem no_escape ls x : qexec unkilled qinit ls x -> x_esc x = false.
Proof. intro R. apply (reach_ne ls x R). Qed.

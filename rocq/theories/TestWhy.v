(** What TestManager reports, and why it ends the test. *)
From Verif Require Import Base KernelModel KernelProofs KernelHist KernelLog KernelInv KernelTask KernelWake KernelLayer KernelStack
  LayerProofs StackProofs TestModel TestSpec TestInv TestInv2 TestInv3.
From Coq Require Import Arith.

(** [p]: failures which are not yet in [_excs]; [c]: events which are being dealt with. *)
Record TE (x : qst) (p : list failure) (c : hist -> Prop) : Prop := {
  E_ended : forall u aw, In (HEnd u aw) (x_hist x) -> registered x u /\ ~ due (x_k x) u /\ x_cb x <> Some (BRemove u);
  E_all : forall u, registered x u -> due (x_k x) u \/ x_cb x = Some (BRemove u) \/ exists aw, In (HEnd u aw) (x_hist x);
  E_exc : x_excs x ++ p = failures x (x_hist x);
  E_rep : forall h1 r h2, x_hist x = h1 ++ HComplete r :: h2 ->
    r = exception_of (failures x h2) \/ exists u aw h3, h2 = HEnd u aw :: h3 /\ r = exception_of (failures x h3);
  E_fin : x_fin x = true -> exists h, In h (x_hist x) /\ ends_test x h;
  E_end : forall h, In h (x_hist x) -> ends_test x h -> x_fin x = true \/ c h;
  E_abort : forall h1 h2 u, x_hist x = h1 ++ HAbort :: h2 -> In (HAdd u) h2 -> due (x_k x) u ->
    In (HNow u) h1 \/ (exists todo d, x_loop x = Some (todo, d) /\ In u todo) \/ x_esc x = true;
  E_once : x_fin x = false -> ~ In HAbort (x_hist x) }.
Definition pend (x : qst) : list failure :=
  match x_cb x with Some (BCheck u) => failure_of x (HEnd u (awaited (x_k x) u)) | _ => [] end.
Definition cause (x : qst) (h : hist) : Prop := exists u, x_cb x = Some (BCheck u) /\ h = HEnd u (awaited (x_k x) u).
Definition WI (x : qst) : Prop :=
  TE x (pend x) (cause x) /\ forall u, x_cb x = Some (BCheck u) -> In (HEnd u (awaited (x_k x) u)) (x_hist x).

Lemma qinit_wi : WI qinit.
Proof.
  split; [|discriminate]. constructor; unfold registered; cbn; try tauto; try discriminate.
  - intros [|? ?] ? ?; discriminate.
  - intros [|? ?] ? ?; discriminate.
Qed.

Definition same_end (x x' : qst) (u : tid) : Prop := error_of (x_k x') u = error_of (x_k x) u /\ (x_main x' = Some u <-> x_main x = Some u).
Lemma mainb_eq x u : mainb x u = true <-> x_main x = Some u.
Proof. unfold mainb. destruct (x_main x); [|split; discriminate]. rewrite Nat.eqb_eq. split; congruence. Qed.
Lemma mainb_same x x' u : (x_main x' = Some u <-> x_main x = Some u) -> mainb x' u = mainb x u.
Proof. rewrite <- !mainb_eq. destruct (mainb x' u), (mainb x u); intros [A B]; auto. symmetry. auto. Qed.
Lemma failure_same x x' h : (forall u aw, h = HEnd u aw -> same_end x x' u) -> failure_of x' h = failure_of x h.
Proof.
  intro S. destruct h; try reflexivity. destruct (S _ _ eq_refl) as [E M]. cbn. now rewrite (mainb_same x x' u M), E.
Qed.
Lemma failures_same x x' h : (forall u aw, In (HEnd u aw) h -> same_end x x' u) -> failures x' h = failures x h.
Proof.
  intro S. unfold failures. assert (G : forall l, (forall a, In a l -> In a h) -> flat_map (failure_of x') l = flat_map (failure_of x) l).
  { induction l as [|a l IH]; intro I; [reflexivity|]. cbn. rewrite IH by (intros; apply I; now right). f_equal.
    apply failure_same. intros u aw ->. apply (S u aw). apply I. now left. }
  apply G. intros a. apply in_rev.
Qed.
Lemma ends_same x x' h : (forall u aw, h = HEnd u aw -> same_end x x' u) -> (ends_test x' h <-> ends_test x h).
Proof. intro S. destruct h; try tauto. destruct (S _ _ eq_refl) as [E M]. cbn. rewrite E, M. tauto. Qed.
Lemma failures_cons x a h : failures x (a :: h) = failures x h ++ failure_of x a.
Proof. unfold failures. cbn [rev]. rewrite flat_map_app. cbn. now rewrite app_nil_r. Qed.

Lemma not_due_done k u : ~ due k u -> done k u = true.
Proof. intro N. destruct (done k u) eqn:E; [reflexivity|]. elim N. now left. Qed.
Lemma stable_error k k' u : Stable k k' -> done k u = true -> error_of k' u = error_of k u.
Proof. intros S D. destruct (S u D) as [E1 E2]. unfold error_of. now rewrite E1, E2. Qed.

(** The state changes; the history grows by events which matter little. *)
Record grown (x x' : qst) : Prop := {
  G_hist : x_hist x' = x_hist x \/ exists u, x_hist x' = HNow u :: x_hist x /\
             (forall todo d, x_loop x = Some (todo, d) -> exists us, todo = u :: us /\ x_loop x' = Some (us, d));
  G_loop : x_loop x' = x_loop x \/ x_esc x' = true \/ x_hist x' <> x_hist x \/ (exists d, x_loop x = Some ([], d));
  G_excs : x_excs x' = x_excs x;
  G_fin : x_fin x' = x_fin x;
  G_esc : x_esc x = true -> x_esc x' = true;
  G_same : forall u, ~ due (x_k x) u -> same_end x x' u;
  G_due : forall u, registered x u -> (due (x_k x') u <-> due (x_k x) u) }.
Lemma te_grown x x' p c : TE x p c -> grown x x' -> x_cb x' = x_cb x -> TE x' p c.
Proof.
  intros T G Ecb. destruct G as [Gh Gl Ge Gf Gs Gm Gd].
  assert (Rg : forall u, registered x' u <-> registered x u).
  { intro u. unfold registered. destruct Gh as [->|(v & -> & _)]; [tauto|]. split; [intros [E|I]; [discriminate|exact I]|now right]. }
  assert (He : forall u aw, In (HEnd u aw) (x_hist x') <-> In (HEnd u aw) (x_hist x)).
  { intros u aw. destruct Gh as [->|(v & -> & _)]; [tauto|]. split; [intros [E|I]; [discriminate|exact I]|now right]. }
  assert (Sm : forall u aw, In (HEnd u aw) (x_hist x) -> same_end x x' u).
  { intros u aw I. apply Gm. apply (E_ended _ _ _ T u aw I). }
  assert (Fs : forall h, (forall a, In a h -> In a (x_hist x)) -> failures x' h = failures x h).
  { intros h I. apply failures_same. intros u aw J. apply (Sm u aw). now apply I. }
  constructor.
  - intros u aw I. apply He in I. destruct (E_ended _ _ _ T u aw I) as (R & D & N). rewrite Rg, Ecb. split; [exact R|]. split; [|exact N].
    intro Q. apply D. now apply (Gd u R).
  - intros u R. apply Rg in R. rewrite Ecb. destruct (E_all _ _ _ T u R) as [D|[D|[aw D]]]; [left; now apply Gd|auto|].
    right. right. exists aw. now apply He.
  - rewrite Ge, (E_exc _ _ _ T). destruct Gh as [->|(v & -> & _)]; [symmetry; now apply Fs|].
    rewrite failures_cons. cbn. rewrite app_nil_r. symmetry. now apply Fs.
  - intros h1 r h2 E. assert (E' : exists h1', x_hist x = h1' ++ HComplete r :: h2).
    { destruct Gh as [Q|(v & Q & _)]; rewrite Q in E; [eauto|]. destruct h1 as [|a h1]; [discriminate|]. injection E as _ E. eauto. }
    destruct E' as [h1' E']. assert (Sub : forall a, In a h2 -> In a (x_hist x)) by (intros a I; rewrite E'; apply in_or_app; right; now right).
    destruct (E_rep _ _ _ T h1' r h2 E') as [Q|(u & aw & h3 & Q1 & Q2)].
    + left. rewrite Q. now rewrite Fs.
    + right. exists u, aw, h3. split; [exact Q1|]. rewrite Q2. rewrite Fs; [reflexivity|]. intros a I. apply Sub. subst h2. now right.
  - rewrite Gf. intro F. destruct (E_fin _ _ _ T F) as (h & I & Et). exists h. split.
    + destruct Gh as [->|(v & -> & _)]; [exact I|now right].
    + apply ends_same with (x := x); [|exact Et]. intros u aw ->. now apply (Sm u aw).
  - intros h I Et. rewrite Gf. assert (I' : In h (x_hist x)).
    { destruct Gh as [Q|(v & Q & _)]; rewrite Q in I; [exact I|]. destruct I as [<-|I]; [destruct Et|exact I]. }
    apply (E_end _ _ _ T h I'). apply (ends_same x x' h); [intros u aw ->; now apply (Sm u aw)|exact Et].
  - intros h1 h2 u E I D.
    assert (E' : exists h1', x_hist x = h1' ++ HAbort :: h2 /\ (forall v, In v h1' -> In v h1)).
    { destruct Gh as [Q|(v & Q & _)]; rewrite Q in E; [exists h1; auto|]. destruct h1 as [|a h1]; [discriminate|]. injection E as _ E.
      exists h1. split; [exact E|]. intros w; now right. }
    destruct E' as (h1' & E' & Sub).
    assert (Ru : registered x u) by (unfold registered; rewrite E'; apply in_or_app; right; now right).
    destruct (E_abort _ _ _ T h1' h2 u E' I (proj1 (Gd u Ru) D)) as [Q|[(todo & d & Q1 & Q2)|Q]].
    + left. now apply Sub.
    + destruct Gh as [Q|(v & Q & Lp)].
      * destruct Gl as [Gl|[Gl|[Gl|[d' Gl]]]]; [|auto|contradiction|].
        -- right. left. rewrite Gl. eauto.
        -- rewrite Q1 in Gl. injection Gl as -> _. destruct Q2.
      * destruct (Lp todo d Q1) as (us & -> & L'). destruct Q2 as [<-|Q2]; [|right; left; eauto].
        left. rewrite Q in E. destruct h1 as [|a h1]; [discriminate|]. injection E as <- E. now left.
    + right. right. auto.
  - rewrite Gf. intros F I. apply (E_once _ _ _ T F). destruct Gh as [Q|(v & Q & _)]; rewrite Q in I; [exact I|]. destruct I as [I|I]; [discriminate|exact I].
Qed.
Lemma te_weaken x p (c c' : hist -> Prop) : (forall h, In h (x_hist x) -> ends_test x h -> c h -> c' h) -> TE x p c -> TE x p c'.
Proof. intros W T. destruct T as [T1 T2 T3 T4 T5 T6 T7 T8]. constructor; auto. intros h I E. destruct (T6 h I E); auto. Qed.

(** A kernel step when no callback is being run. *)
Lemma kernel_grown x k' x' : TI x -> KF x k' -> Stable (x_k x) k' -> x_k x' = k' -> x_main x' = x_main x ->
  forall u, (~ due (x_k x) u -> same_end x x' u).
Proof.
  intros M F Sb Ek Em u N. unfold same_end. rewrite Ek, Em. split; [|tauto]. apply stable_error; [exact Sb|now apply not_due_done].
Qed.

(** A new Task. *)
Lemma te_register x u k tm cur main fl : TI x -> WI x -> fresh (x_k x) u = true -> x_done x = false ->
  x_cb x = None -> s_ctl k = s_ctl (x_k x) -> (forall v, v <> u -> s_task k v = s_task (x_k x) v) -> done k u = false ->
  main = x_main x \/ (x_main x = None /\ main = Some u) ->
  WI (QSt k main (x_tasks x ++ [u]) (x_excs x) (x_fin x) (x_done x) fl (x_reg x) tm cur (x_cb x) (x_loop x) (x_esc x) (HAdd u :: x_hist x)).
Proof.
  intros M [T _] F Nd Ecb Ctl Ot Dn Mn. pose proof (fresh_unregistered x u M F) as Nr.
  set (x' := QSt _ _ _ _ _ _ _ _ _ _ _ _ _ _). assert (Du : forall v, v <> u -> (due k v <-> due (x_k x) v)).
  { intros v N. apply due_same; [exact Ctl|]. unfold done, state_of. now rewrite Ot. }
  assert (Pd : pend x = []) by (unfold pend; now rewrite Ecb). assert (Pd' : pend x' = []) by (unfold pend, x'; fields; now rewrite Ecb).
  assert (Ne : forall v aw, In (HEnd v aw) (x_hist x) -> v <> u).
  { intros v aw I ->. apply Nr. apply (E_ended _ _ _ T u aw I). }
  assert (Sm : forall v aw, In (HEnd v aw) (x_hist x) -> same_end x x' v).
  { intros v aw I. pose proof (Ne v aw I) as N. unfold same_end, x'. fields. split.
    - unfold error_of, state_of. now rewrite Ot.
    - destruct Mn as [->|[-> ->]]; [tauto|]. split; congruence. }
  assert (Fs : forall h, (forall a, In a h -> In a (x_hist x)) -> failures x' h = failures x h).
  { intros h I. apply failures_same. intros v aw J. apply (Sm v aw). now apply I. }
  split; [|unfold x'; fields; congruence]. rewrite Pd'. rewrite Pd in T. constructor.
  - intros v aw [I|I]; [discriminate|]. destruct (E_ended _ _ _ T v aw I) as (R & D & N). split; [right; exact R|]. split; [|exact N].
    intro Q. apply D. apply (Du v (Ne v aw I)). exact Q.
  - intros v R. destruct (Nat.eq_dec v u) as [->|N]; [left; now left|]. destruct R as [E|R]; [congruence|].
    destruct (E_all _ _ _ T v R) as [D|[D|[aw D]]]; [left; now apply Du|now right; left|right; right; exists aw; now right].
  - change (x_hist x') with (HAdd u :: x_hist x). rewrite failures_cons. cbn [failure_of]. rewrite !app_nil_r, Fs by auto. pose proof (E_exc _ _ _ T) as Q. rewrite app_nil_r in Q. exact Q.
  - intros h1 r h2 E. exfalso. pose proof (Q_sig x M) as S. rewrite Nd in S. unfold x' in E. cbn [x_hist] in E.
    assert (S' : signals (HAdd u :: x_hist x) = 0) by exact S. elim (signals_none _ S' _ _ _ E).
  - intro Fi. destruct (E_fin _ _ _ T Fi) as (h & I & Et). exists h. split; [now right|]. apply ends_same with (x := x); [|exact Et].
    intros v aw ->. now apply (Sm v aw).
  - intros h I Et. destruct I as [<-|I]; [destruct Et|]. apply (ends_same x x' h) in Et; [|intros v aw ->; now apply (Sm v aw)].
    destruct (E_end _ _ _ T h I Et) as [Q|(w & Q & _)]; [now left|congruence].
  - intros h1 h2 v E I D. destruct h1 as [|a h1]; [discriminate|]. injection E as <- E.
    assert (R : registered x v) by (unfold registered; rewrite E; apply in_or_app; right; now right).
    assert (N : v <> u) by (intros ->; contradiction).
    destruct (E_abort _ _ _ T h1 h2 v E I (proj1 (Du v N) D)) as [Q|Q]; [left; now right|right; exact Q].
  - intros Fi [I|I]; [discriminate|]. now apply (E_once _ _ _ T Fi).
Qed.

(** An event is noted: it is dealt with next. *)
Lemma te_note x h : TI x -> TE x [] (cause x) -> x_cb x = None -> plain_note h -> (forall u aw, h <> HEnd u aw) -> h <> HAbort -> (forall u, h <> HNow u) ->
  TE (note x h) (failure_of x h) (eq h).
Proof.
  intros M T Ecb P Ne Na Nn. assert (Fs : forall l, failures (note x h) l = failures x l) by (intro l; now apply failures_same).
  constructor; fields.
  - intros u aw [I|I]; [elim (Ne u aw I)|]. destruct (E_ended _ _ _ T u aw I) as (R & D & N). split; [now right|auto].
  - intros u R. apply (reg_note x h u P) in R. destruct (E_all _ _ _ T u R) as [D|[D|[aw D]]]; auto. right. right. exists aw. now right.
  - rewrite failures_cons, Fs, <- (E_exc _ _ _ T), app_nil_r. f_equal.
  - intros [|a h1] r h2 E; [injection E as -> _; destruct P|]. injection E as <- E. destruct (E_rep _ _ _ T h1 r h2 E) as [Q|(u & aw & h3 & Q1 & Q2)].
    + left. now rewrite Fs.
    + right. exists u, aw, h3. now rewrite Fs.
  - intro F. destruct (E_fin _ _ _ T F) as (a & I & Et). exists a. split; [now right|]. apply ends_same with (x := x); [|exact Et]. intros; split; reflexivity.
  - intros a [I|I] Et; [now right|]. left. assert (Et' : ends_test x a) by (destruct a; exact Et).
    destruct (E_end _ _ _ T a I Et') as [Q|(u & Q & _)]; [exact Q|congruence].
  - intros [|a h1] h2 u E I D; [injection E as E _; contradiction|]. injection E as <- E. destruct (E_abort _ _ _ T h1 h2 u E I D) as [Q|Q]; [left; now right|now right].
  - intros F [I|I]; [congruence|]. now apply (E_once _ _ _ T F).
Qed.
Definition opt (f : option failure) : list failure := match f with Some f => [f] | None => [] end.
Lemma te_abort x f (c : hist -> Prop) : TI x -> x_esc x = false -> (forall u, x_cb x <> Some (BRemove u)) -> TE x (opt f) c ->
  (exists h, In h (x_hist x) /\ ends_test x h) -> WI (abort x f).
Proof.
  intros M Es Cb T (h0 & I0 & Et0). unfold abort.
  assert (Ex : match f with Some f => x_excs x ++ [f] | None => x_excs x end = failures x (x_hist x)).
  { rewrite <- (E_exc _ _ _ T). destruct f; cbn; [reflexivity|now rewrite app_nil_r]. }
  rewrite Ex. destruct (x_fin x) eqn:Fi; (split; [|discriminate]); unfold pend; fields.
  - destruct T as [T1 T2 T3 T4 T5 T6 T7 T8]. constructor; fields; unfold registered in *; fields; auto; try discriminate.
    + intros u aw I. destruct (T1 u aw I) as (R & D & _). repeat split; auto. discriminate.
    + intros u R. destruct (T2 u R) as [D|[D|D]]; auto. elim (Cb u D).
    + now rewrite app_nil_r.
  - pose proof (E_once _ _ _ T Fi) as No. pose proof (Q_mode x M Es) as Md. rewrite Fi in Md.
    assert (Nd : x_done x = false) by (destruct (x_done x); [destruct (x_loop x), (x_reg x); tauto|reflexivity]).
    destruct T as [T1 T2 T3 T4 T5 T6 T7 T8]. constructor; fields; unfold registered in *; fields.
    + intros u aw [I|I]; [discriminate|]. destruct (T1 u aw I) as (R & D & _). repeat split; [now right|auto|discriminate].
    + intros u [R|R]; [discriminate|]. destruct (T2 u R) as [D|[D|[aw D]]]; auto; [elim (Cb u D)|]. right. right. exists aw. now right.
    + rewrite failures_cons. cbn [failure_of]. rewrite !app_nil_r. apply failures_same. intros; split; [reflexivity|tauto].
    + intros [|a h1] r h2 E; [discriminate|]. injection E as <- E. exact (T4 h1 r h2 E).
    + intros _. exists h0. split; [now right|]. exact Et0.
    + auto.
    + intros [|a h1] h2 u E I D.
      * injection E as E. right. left. exists (x_tasks x), (length (s_ctl (x_k x))). split; [reflexivity|]. apply (Q_tasks x M). unfold registered. rewrite E. auto.
      * injection E as <- E. elim No. rewrite E. apply in_or_app. right. now left.
    + discriminate.
Qed.

(** The invariant of TestManager: which Tasks are in [_tasks], what [_done] says, and what remains to be done. *)
From Verif Require Import Base KernelModel KernelProofs KernelHist KernelLog KernelInv KernelTask KernelWake KernelLayer KernelStack
  LayerProofs StackProofs TestModel TestSpec.
From Coq Require Import Arith.

Definition calling (k : st) (u : tid) : Prop := exists a rest, s_ctl k = FDone u 1 a :: rest.
(** The part of the stack below the loop of [_abort]. *)
Definition loop_ok (k : st) (d : nat) : Prop :=
  exists up down, s_ctl k = up ++ down /\ length down = d /\ (down = [] \/ exists u a rest, down = FDone u 1 a :: rest).
Record TI (x : qst) : Prop := {
  Q_k : Inv (x_k x);
  Q_dcb : forall u,
    (registered x u /\ exists c ds, k_dcbs (s_task (x_k x) u) = c :: ds /\ Nat.even c = false /\ evens ds) \/
    (~ registered x u /\ evens (k_dcbs (s_task (x_k x) u)));
  Q_tasks : forall u, In u (x_tasks x) <-> registered x u /\ (due (x_k x) u \/ x_cb x = Some (BRemove u));
  Q_cb : forall c, x_cb x = Some c -> match c with BRemove u | BCheck u => registered x u /\ calling (x_k x) u end;
  Q_main : forall m, x_main x = Some m -> registered x m;
  Q_none : x_main x = None -> (forall u, ~ registered x u) /\ x_cur x = false /\ x_flag x = false /\ x_timer x = false /\ x_done x = false;
  Q_flag : x_flag x = true -> x_tasks x = [];
  Q_empty : x_main x <> None -> x_tasks x = [] -> x_flag x = true;
  Q_mode : x_esc x = false ->
    match x_fin x, x_loop x, x_reg x, x_done x with
    | false, None, false, false | true, Some _, false, false => True
    | true, None, true, false => x_flag x = false
    | true, None, false, true => True
    | _, _, _, _ => False
    end;
  Q_reg : x_reg x = true -> x_done x = false;
  Q_done : x_done x = true -> x_fin x = true /\ x_tasks x = [] /\ x_cur x = false /\ x_loop x = None;
  Q_sig : signals (x_hist x) = if x_done x then 1 else 0;
  Q_quiet : forall h1 r h2, x_hist x = h1 ++ HComplete r :: h2 -> forall u, ~ In (HAdd u) h1;
  Q_loop : forall todo d, x_loop x = Some (todo, d) -> loop_ok (x_k x) d }.

Lemma qinit_ok : TI qinit.
Proof.
  constructor; unfold registered; cbn; try discriminate; try tauto.
  - apply inv_init.
  - intro u. right. split; [tauto|constructor].
  - intros [|? ?] ? ?; discriminate.
Qed.

(** * The kernel moves *)
Record KF (x : qst) (k' : st) : Prop := {
  F_k : Inv k';
  F_dcb : forall u, exists ds, evens ds /\ k_dcbs (s_task k' u) = k_dcbs (s_task (x_k x) u) ++ ds;
  F_due : forall u, registered x u -> (due k' u <-> due (x_k x) u);
  F_cb : x_cb x = None \/ s_ctl k' = s_ctl (x_k x);
  F_loop : forall todo d, x_loop x = Some (todo, d) -> loop_ok k' d }.
Lemma ti_frame x k' : TI x -> KF x k' -> TI (set_k x k').
Proof.
  intros M F. constructor; unfold registered;
    cbn [set_k x_k x_main x_tasks x_excs x_fin x_done x_flag x_reg x_timer x_cur x_cb x_loop x_esc x_hist].
  - apply (F_k x k' F).
  - intro u. destruct (F_dcb x k' F u) as (ds & Ev & E). rewrite E. destruct (Q_dcb x M u) as [(R & c & d0 & D & O & E0)|[R D]].
    + left. split; [exact R|]. exists c, (d0 ++ ds). rewrite D. split; [reflexivity|]. split; [exact O|]. apply Forall_app. auto.
    + right. split; [exact R|]. apply Forall_app. auto.
  - intro u. rewrite (Q_tasks x M). unfold registered. split; intros [R D]; (split; [exact R|]); destruct D as [D|D]; auto; left;
      now apply (F_due x k' F u R).
  - intros c E. pose proof (Q_cb x M c E) as P. destruct (F_cb x k' F) as [N|S]; [congruence|]. unfold calling in *. rewrite S. exact P.
  - apply (Q_main x M).
  - apply (Q_none x M).
  - apply (Q_flag x M).
  - apply (Q_empty x M).
  - apply (Q_mode x M).
  - apply (Q_reg x M).
  - apply (Q_done x M).
  - apply (Q_sig x M).
  - apply (Q_quiet x M).
  - apply (F_loop x k' F).
Qed.

Lemma kf_step x l k' r : TI x -> step (x_k x) l = Some (k', r) -> prime_ok l ->
  (forall t c, l = LOp (OpAddDone t c) -> Nat.even c = true) ->
  (l = LDoneNext -> forall u a rest, registered x u -> s_ctl (x_k x) <> FDone u 0 a :: rest) ->
  x_cb x = None ->
  (forall todo d, x_loop x = Some (todo, d) -> is_call l = true \/ length (s_ctl (x_k x)) <> d) ->
  KF x k'.
Proof.
  intros M St Pr Nd Nt Top Lp. pose proof (Q_k x M) as H. destruct (inv_step _ _ _ _ H Pr St) as (H1 & Sb & _). constructor.
  - exact H1.
  - intro u. destruct (step_dcbs _ _ _ _ u H St) as [E|(c & El & E)]; rewrite E.
    + exists []. rewrite app_nil_r. split; [constructor|reflexivity].
    + exists [c]. split; [|reflexivity]. repeat constructor. now apply (Nd u c).
  - intros u R. apply (due_step _ _ _ _ u H St Pr). intros El a rest. now apply (Nt El u a rest).
  - now left.
  - intros todo d E. destruct (Q_loop x M todo d E) as (up & down & Ec & Ed & Eb). pose proof (step_moves _ _ _ _ St) as Mv.
    destruct (is_call l) eqn:Ic.
    + destruct (s_ctl (x_k x)) as [|f c] eqn:Es.
      * exists (s_ctl k'), []. rewrite app_nil_r. symmetry in Ec. apply app_eq_nil in Ec. destruct Ec as [-> ->]. cbn in Ed. subst d. auto.
      * destruct (moves_below _ _ _ _ _ Mv) as [new En]. rewrite Ic, Ec, app_assoc in En. exists (new ++ up), down. auto.
    + destruct (Lp todo d E) as [C|N]; [discriminate|]. destruct up as [|f up]; [cbn in Ec; congruence|]. rewrite Ec in Mv. cbn in Mv.
      destruct (moves_below _ _ _ _ _ Mv) as [new En]. rewrite Ic, app_assoc in En. exists (new ++ up), down. auto.
Qed.

(** A registered Task has its callback first. *)
Lemma first_odd x u c : TI x -> registered x u -> nth_error (k_dcbs (s_task (x_k x) u)) 0 = Some c -> Nat.even c = false.
Proof.
  intros M R E. destruct (Q_dcb x M u) as [(_ & c0 & ds & D & O & _)|[N _]]; [|contradiction]. rewrite D in E. cbn in E. congruence.
Qed.
Lemma odd_first x u j c : TI x -> nth_error (k_dcbs (s_task (x_k x) u)) j = Some c -> Nat.even c = false -> registered x u /\ j = 0.
Proof.
  intros M E O. destruct (Q_dcb x M u) as [(R & c0 & ds & D & O0 & Ev)|[_ Ev]].
  - split; [exact R|]. rewrite D in E. destruct j; [reflexivity|]. cbn in E. apply nth_error_In in E. unfold evens in Ev. rewrite Forall_forall in Ev.
    rewrite (Ev c E) in O. discriminate.
  - apply nth_error_In in E. unfold evens in Ev. rewrite Forall_forall in Ev. rewrite (Ev c E) in O. discriminate.
Qed.

Lemma control_cb x : user_control x = true -> x_cb x = None /\ looping x = false.
Proof. unfold user_control. destruct (x_cb x); [discriminate|]. destruct (looping x); [discriminate|]. auto. Qed.
Lemma can_cb x l : user_can x l = true -> x_cb x = None /\ looping x = false.
Proof.
  unfold user_can. intro E. destruct l; try (now apply control_cb). destruct (s_ctl (x_k x)) as [|[ | |u i a] rest]; try (now apply control_cb).
  destruct (x_cb x); [discriminate|]. apply andb_true_iff in E. destruct E as [E _]. destruct (looping x); [discriminate|]. auto.
Qed.
Lemma looping_false x todo d : looping x = false -> x_loop x = Some (todo, d) -> length (s_ctl (x_k x)) <> d.
Proof. unfold looping. intros E L. rewrite L in E. now apply Nat.eqb_neq in E. Qed.
Lemma loop_idle x todo d : TI x -> looping x = false -> s_ctl (x_k x) = [] -> x_loop x <> Some (todo, d).
Proof.
  intros M N E L. destruct (Q_loop x M todo d L) as (up & down & Ec & Ed & _). rewrite E in Ec. symmetry in Ec. apply app_eq_nil in Ec.
  destruct Ec as [_ ->]. cbn in Ed. apply (looping_false x todo d N L). rewrite E. exact Ed.
Qed.
Lemma user_kf x l k' r : TI x -> user_can x l && user_label l = true -> step (x_k x) l = Some (k', r) -> prime_ok l -> KF x k'.
Proof.
  intros M C St Pr. apply andb_true_iff in C. destruct C as [C L]. destruct (can_cb x l C) as [Ecb Lp].
  apply (kf_step x l k' r M St Pr); auto.
  - intros t c ->. exact L.
  - intros -> u a rest R E. unfold user_can in C. rewrite E, Ecb, Lp in C. cbn [negb andb] in C.
    destruct (Q_dcb x M u) as [(_ & c0 & ds & D & O & _)|[N _]]; [|contradiction]. rewrite D in C. cbn [nth_error] in C. congruence.
  - intros todo d E. right. now apply (looping_false x todo d).
Qed.
Lemma ti_user x l k' r : TI x -> user_can x l && user_label l = true -> step (x_k x) l = Some (k', r) -> prime_ok l -> TI (set_k x k').
Proof. intros M C St Pr. apply ti_frame; [exact M|]. now apply (user_kf x l k' r). Qed.

(** * [create_task] and [start] *)
Lemma fresh_new k u : fresh k u = true -> s_task k u = new_task.
Proof.
  unfold fresh. destruct (s_task k u) as [a b c d e f g h w]. destruct a; try discriminate. destruct b; try discriminate.
  destruct c; try discriminate. destruct d; try discriminate. destruct e; try discriminate. destruct f; try discriminate.
  destruct g; try discriminate. destruct h; try discriminate. destruct w; try discriminate. reflexivity.
Qed.
Lemma fresh_due k u : fresh k u = true -> due k u.
Proof. intro F. left. unfold done, state_of. now rewrite (fresh_new _ _ F). Qed.
Lemma fresh_unregistered x u : TI x -> fresh (x_k x) u = true -> ~ registered x u.
Proof.
  intros M F R. destruct (Q_dcb x M u) as [(_ & c & ds & D & _)|[N _]]; [|contradiction]. rewrite (fresh_new _ _ F) in D. discriminate.
Qed.
Lemma add_facts k u c : fresh k u = true -> let k' := add_done k u c in
  s_ctl k' = s_ctl k /\ (forall v, v <> u -> s_task k' v = s_task k v) /\ s_task k' u = with_dcbs new_task [c] /\ s_cbs k' = s_cbs k /\ s_queue k' = s_queue k.
Proof.
  intros F. pose proof (fresh_new k u F) as E. cbv zeta. unfold add_done.
  assert (D : done k u = false) by (unfold done, state_of; now rewrite E). rewrite D. cbn [set_task s_ctl s_task s_cbs s_queue].
  split; [reflexivity|]. split; [intros v N; now rewrite upd_other|]. split; [rewrite upd_same, E; reflexivity|auto].
Qed.
Lemma add_inv k u c : Inv k -> s_halt k = false -> Inv (add_done k u c).
Proof. intros H Ha. apply (inv_step k (LOp (OpAddDone u c)) (add_done k u c) RUnit H Logic.I). now rewrite op_step by exact Ha. Qed.

Lemma due_same k k' u : s_ctl k' = s_ctl k -> done k' u = done k u -> (due k' u <-> due k u).
Proof. intros C D. unfold due. rewrite C, D. tauto. Qed.
Lemma due_new k u : done k u = false -> due k u.
Proof. now left. Qed.

(** A fresh Task [u] becomes one of the test. *)
Lemma ti_register x u c k main fl tm cur : TI x -> fresh (x_k x) u = true -> Nat.even c = false -> Inv k -> s_ctl k = s_ctl (x_k x) ->
  (forall v, v <> u -> s_task k v = s_task (x_k x) v) -> k_dcbs (s_task k u) = [c] -> done k u = false -> x_done x = false ->
  (x_main x = None /\ main = Some u /\ fl = x_flag x) \/ (x_main x <> None /\ main = x_main x /\ fl = false) ->
  (match main with Some _ => True | None => False end) ->
  TI (QSt k main (x_tasks x ++ [u]) (x_excs x) (x_fin x) (x_done x) fl (x_reg x) tm cur (x_cb x) (x_loop x) (x_esc x) (HAdd u :: x_hist x)).
Proof.
  intros M F O H1 Ctl Ot Dc Dn Nd Mn Ms. pose proof (fresh_unregistered x u M F) as Nr.
  assert (Fl : fl = false). { destruct Mn as [(E & _ & ->)|(_ & _ & E)]; [apply (Q_none x M E)|exact E]. } subst fl.
  assert (Du : forall v, v <> u -> (due k v <-> due (x_k x) v)).
  { intros v N. apply due_same; [exact Ctl|]. unfold done, state_of. now rewrite Ot. }
  constructor; unfold registered; cbn [x_k x_main x_tasks x_excs x_fin x_done x_flag x_reg x_timer x_cur x_cb x_loop x_esc x_hist].
  - exact H1.
  - intro v. destruct (Nat.eq_dec v u) as [->|N].
    + left. split; [now left|]. exists c, []. rewrite Dc. split; [reflexivity|]. split; [exact O|constructor].
    + rewrite (Ot v N). destruct (Q_dcb x M v) as [(R & D)|(R & D)]; [left|right]; (split; [|exact D]).
      * right. exact R.
      * intros [E|I]; [congruence|contradiction].
  - intro v. rewrite in_app_iff. cbn [In]. destruct (Nat.eq_dec v u) as [->|N].
    + split; [|auto]. intros _. split; [now left|]. left. now apply due_new.
    + rewrite (Q_tasks x M), (Du v N). unfold registered. split.
      * intros [[R D]|[E|[]]]; [|congruence]. split; [now right|exact D].
      * intros [[E|R] D]; [congruence|]. left. auto.
  - intros b E. pose proof (Q_cb x M b E) as P. unfold calling in *. rewrite Ctl. destruct b; (split; [right; apply P|apply P]).
  - intros m E. destruct Mn as [(E1 & E2 & _)|(E1 & E2 & _)]; [left; congruence|right]. apply (Q_main x M). congruence.
  - intro E. rewrite E in Ms. destruct Ms.
  - discriminate.
  - intros _ E. apply app_eq_nil in E. destruct E. discriminate.
  - intro Es. pose proof (Q_mode x M Es) as Q. rewrite Nd in *. destruct (x_fin x), (x_loop x), (x_reg x); auto.
  - apply (Q_reg x M).
  - rewrite Nd. discriminate.
  - cbn [signals filter]. apply (Q_sig x M).
  - intros h1 r h2 E. assert (C : signals (HAdd u :: x_hist x) = 0) by (pose proof (Q_sig x M) as Q; rewrite Nd in Q; exact Q).
    rewrite E in C. unfold signals in C. rewrite filter_app, app_length in C. cbn in C. lia.
  - intros todo d E. destruct (Q_loop x M todo d E) as (up & down & Q). exists up, down. rewrite Ctl. exact Q.
Qed.
Lemma mode_cur x : TI x -> x_cur x = true -> x_done x = false.
Proof. intros M C. destruct (x_done x) eqn:E; [|reflexivity]. destruct (Q_done x M E) as (_ & _ & Q & _). congruence. Qed.
Lemma ti_create x u : TI x -> s_halt (x_k x) = false -> fresh (x_k x) u = true -> x_cur x = true -> TI (add_task x u).
Proof.
  intros M Ha F C. destruct (add_facts (x_k x) u task_cb F) as (F1 & F2 & F3 & _). unfold add_task.
  assert (Mn : x_main x <> None) by (intro E; destruct (Q_none x M E) as (_ & Q & _); congruence).
  apply (ti_register x u task_cb); auto.
  - apply add_inv; [apply (Q_k x M)|exact Ha].
  - now rewrite F3.
  - unfold done, state_of. now rewrite F3.
  - now apply mode_cur.
  - destruct (x_main x); [exact Logic.I|congruence].
Qed.
Lemma begin_facts x t tm : fresh (x_k x) t = true -> exists k,
  begin_test x t tm = (QSt k (Some t) (x_tasks x ++ [t]) (x_excs x) (x_fin x) (x_done x) (x_flag x) (x_reg x) tm true (x_cb x) (x_loop x) (x_esc x)
         (HAdd t :: x_hist x), QUnit) /\
  k = schedule_resume (add_done (x_k x) t test_cb) t None.
Proof.
  intro F. destruct (add_facts (x_k x) t test_cb F) as (F1 & F2 & F3 & _). unfold begin_test, start_soon, state_of. rewrite F3. cbn [with_dcbs k_state new_task].
  eexists. split; [reflexivity|]. reflexivity.
Qed.
Lemma begin_kernel x t : TI x -> s_halt (x_k x) = false -> fresh (x_k x) t = true ->
  let k := schedule_resume (add_done (x_k x) t test_cb) t None in
  Inv k /\ s_ctl k = s_ctl (x_k x) /\ (forall v, v <> t -> s_task k v = s_task (x_k x) v) /\ k_dcbs (s_task k t) = [test_cb] /\ done k t = false.
Proof.
  intros M Ha F. destruct (add_facts (x_k x) t test_cb F) as (F1 & F2 & F3 & _). cbv zeta. set (k1 := add_done _ _ _) in *.
  assert (H1 : Inv k1) by (apply add_inv; [apply (Q_k x M)|exact Ha]).
  assert (E : start_soon k1 t = (schedule_resume k1 t None, RUnit)) by (unfold start_soon, state_of; now rewrite F3).
  split; [pose proof (proj1 (proj1 (ok_start_soon k1 t H1))) as Q; rewrite E in Q; exact Q|].
  split; [exact F1|]. split; [intros v N; unfold schedule_resume; cbn [log set_next set_queue set_task s_task]; rewrite upd_other by exact N; auto|]. unfold done, state_of, schedule_resume. cbn [log set_next set_queue set_task s_task]. rewrite !upd_same, F3. auto.
Qed.
Lemma ti_begin x t tm : TI x -> s_halt (x_k x) = false -> x_main x = None -> fresh (x_k x) t = true -> TI (fst (begin_test x t tm)).
Proof.
  intros M Ha Mn F. destruct (begin_facts x t tm F) as (k & -> & ->). cbn [fst]. destruct (begin_kernel x t M Ha F) as (B1 & B2 & B3 & B4 & B5).
  apply (ti_register x t test_cb); auto.
  apply (Q_none x M Mn).
Qed.

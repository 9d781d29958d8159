(** The invariant of TestManager is kept by the done callbacks, [_abort] and its loop. *)
From Verif Require Import Base KernelModel KernelProofs KernelHist KernelLog KernelInv KernelTask KernelWake KernelLayer KernelStack
  LayerProofs StackProofs TestModel TestSpec TestInv.
From Coq Require Import Arith.

Ltac open M := destruct M as [Q_k0 Q_dcb0 Q_tasks0 Q_cb0 Q_main0 Q_none0 Q_flag0 Q_empty0 Q_mode0 Q_reg0 Q_done0 Q_sig0 Q_quiet0 Q_loop0].
Ltac fields := cbn [set_k set_cb set_loop escape note on_complete x_k x_main x_tasks x_excs x_fin x_done x_flag x_reg x_timer x_cur x_cb x_loop x_esc x_hist].

(** Notes about anything but registration and completion. *)
Definition plain_note (h : hist) : Prop := match h with HAdd _ | HComplete _ => False | _ => True end.
Lemma reg_note x h v : plain_note h -> (In (HAdd v) (h :: x_hist x) <-> registered x v).
Proof. unfold registered. intro P. split; [intros [E|I]; [subst h; destruct P|exact I]|now right]. Qed.
Lemma ti_note x h : TI x -> plain_note h -> TI (note x h).
Proof.
  intros M P. open M. constructor; unfold registered; fields; auto.
  - intro u. rewrite (reg_note x h u P). apply Q_dcb0.
  - intro u. rewrite (reg_note x h u P). apply Q_tasks0.
  - intros c E. specialize (Q_cb0 c E). destruct c; rewrite (reg_note x h _ P); exact Q_cb0.
  - intros m E. rewrite (reg_note x h _ P). auto.
  - intro E. destruct (Q_none0 E) as (N1 & N2). split; [|exact N2]. intros u. rewrite (reg_note x h _ P). apply N1.
  - destruct h; try exact Q_sig0; destruct P.
  - intros [|a h1] r h2 E u; [intros []|]. injection E as <- E. intros [I|I]; [subst h; destruct P|]. now apply (Q_quiet0 h1 r h2 E u).
Qed.
Lemma ti_timer x b : TI x -> x_main x <> None \/ b = false -> TI (QSt (x_k x) (x_main x) (x_tasks x) (x_excs x) (x_fin x) (x_done x) (x_flag x) (x_reg x) b
  (x_cur x) (x_cb x) (x_loop x) (x_esc x) (x_hist x)).
Proof.
  intros M P. open M. constructor; unfold registered; fields; auto. intro E. destruct (Q_none0 E) as (N1 & N2 & N3 & _ & N5).
  destruct P as [P|P]; [contradiction|]. repeat split; auto.
Qed.
Lemma ti_cb_end x u : TI x -> x_cb x = Some (BCheck u) -> TI (set_cb x None).
Proof.
  intros M E. open M. constructor; unfold registered; fields; auto.
  - intro v. rewrite Q_tasks0. unfold registered. split; intros [R [D|D]]; split; auto; congruence.
  - discriminate.
Qed.
Lemma ti_abort x f : TI x -> x_esc x = false -> (x_cb x = None \/ exists u, x_cb x = Some (BCheck u)) ->
  (x_fin x = false -> loop_ok (x_k x) (length (s_ctl (x_k x)))) -> TI (abort x f).
Proof.
  intros M Es Cb Lk. pose proof (Q_mode x M Es) as Md. unfold abort. set (es := match f with Some _ => _ | None => _ end). clearbody es.
  assert (T : forall u, x_cb x <> Some (BRemove u)) by (intros u E; destruct Cb as [C|[v C]]; congruence).
  destruct (x_fin x) eqn:Fi.
  - open M. constructor; unfold registered; fields; rewrite ?Fi in *; auto; try discriminate.
    intro v. rewrite Q_tasks0. unfold registered. split; intros [R [D|D]]; split; auto; [elim (T v D)|discriminate].
  - apply (ti_note x HAbort) in M; [|exact Logic.I]. open M. unfold registered in *. cbn [note x_k x_main x_tasks x_excs x_fin x_done x_flag x_reg x_timer x_cur x_cb x_loop x_esc x_hist] in *.
    constructor; unfold registered; fields; auto; try discriminate.
    + intro v. rewrite Q_tasks0. split; intros [R [D|D]]; split; auto; [elim (T v D)|discriminate].
    + intro E. destruct (Q_none0 E) as (N1 & N2 & N3 & N4 & N5). repeat split; auto.
    + intros _. destruct (x_loop x), (x_reg x), (x_done x); tauto.
    + intro E. destruct (Q_done0 E). congruence.
    + intros todo d E. injection E as <- <-. now apply Lk.
Qed.

Lemma calling_loop k u : calling k u -> loop_ok k (length (s_ctl k)).
Proof. intros (a & rest & E). exists [], (s_ctl k). split; [reflexivity|]. split; [reflexivity|]. right. eauto. Qed.
Lemma idle_loop k : s_ctl k = [] -> loop_ok k (length (s_ctl k)).
Proof. intros E. exists [], []. rewrite E. auto. Qed.

Lemma signals_none h : signals h = 0 -> forall h1 r h2, h <> h1 ++ HComplete r :: h2.
Proof. intros S h1 r h2 ->. unfold signals in S. rewrite filter_app, app_length in S. cbn in S. lia. Qed.
(** The done callback removes its Task. *)
Lemma remove_in (u : tid) l v : In v (filter (fun w => negb (Nat.eqb w u)) l) <-> In v l /\ v <> u.
Proof. rewrite filter_In, negb_true_iff, Nat.eqb_neq. tauto. Qed.
Lemma ti_remove x u : TI x -> x_esc x = false -> x_cb x = Some (BRemove u) ->
  exists y, remove_task (note x (HEnd u (awaited (x_k x) u))) u = Some y /\ TI (set_cb y (Some (BCheck u))).
Proof.
  intros M Es Ecb. destruct (Q_cb x M _ Ecb) as [R Cl]. destruct Cl as (a & rest & Ctl).
  assert (Nd : ~ due (x_k x) u) by (apply (due_started _ _ _ _ _ (Q_k x M) Ctl)).
  assert (I : In u (x_tasks x)) by (apply (Q_tasks x M); auto).
  set (h := HEnd u (awaited (x_k x) u)). unfold remove_task. change (x_tasks (note x h)) with (x_tasks x).
  assert (Ex : existsb (Nat.eqb u) (x_tasks x) = true) by (apply existsb_exists; exists u; split; [exact I|apply Nat.eqb_refl]). rewrite Ex.
  set (l := filter (fun v => negb (Nat.eqb v u)) (x_tasks x)). eexists. split; [reflexivity|]. fields.
  assert (Tk : forall v, In v l <-> registered x v /\ due (x_k x) v).
  { intro v. unfold l. rewrite remove_in, (Q_tasks x M), Ecb. split.
    - intros [[Rv [D|D]] N]; [auto|]. injection D as D. congruence.
    - intros [Rv D]. split; [auto|]. intros ->. contradiction. }
  assert (Em : x_main x <> None). { intro E. destruct (Q_none x M E) as (N & _). elim (N u R). }
  (* the state after removal, with [_done] being [fl] *)
  assert (B : forall fl rg, (fl = true <-> l = []) -> (rg = true -> x_reg x = true /\ fl = false) -> (x_reg x = true -> rg = true) ->
    TI (QSt (x_k x) (x_main x) l (x_excs x) (x_fin x) (x_done x) fl rg (x_timer x) (x_cur x) (Some (BCheck u)) (x_loop x) (x_esc x) (h :: x_hist x))).
  { intros fl rg Fl Rg1 Rg2. assert (Rn := fun v => reg_note x h v Logic.I). open M. constructor; unfold registered; fields; auto.
    - intro v. rewrite Rn. apply Q_dcb0.
    - intro v. rewrite Rn, Tk. split; intros [R1 D]; (split; [exact R1|]); [now left|]. destruct D as [D|D]; [exact D|discriminate].
    - intros c E. injection E as <-. rewrite Rn. split; [exact R|]. exists a, rest. exact Ctl.
    - intros m E. rewrite Rn. auto.
    - contradiction.
    - apply Fl.
    - intros _ El. now apply Fl.
    - intros _. specialize (Q_mode0 Es). destruct (x_reg x) eqn:Er.
      + rewrite (Rg2 eq_refl) in *. destruct (x_fin x), (x_loop x), (x_done x); try tauto; now apply Rg1.
      + destruct rg; [destruct (Rg1 eq_refl); discriminate|]. exact Q_mode0.
    - intro E. destruct (Rg1 E) as [E1 _]. auto.
    - intro E. destruct (Q_done0 E) as (D1 & D2 & D3). split; [exact D1|]. split; [|exact D3]. unfold l. rewrite D2. reflexivity.
    - intros [|b h1] r h2 E v; [discriminate|]. injection E as <- E. intros [Iv|Iv]; [discriminate|]. now apply (Q_quiet0 h1 r h2 E v). }
  assert (Md := Q_mode x M Es). destruct l as [|v0 l0] eqn:El.
  - unfold done_set. fields. destruct (x_reg x) eqn:Er.
    + destruct (x_fin x) eqn:Fi, (x_loop x) eqn:Lo, (x_done x) eqn:Do; try tauto.
      pose proof (fun fl => B fl (negb fl)) as B'. cbn [negb] in B'.
      (* registered: [_on_complete] is called *)
      set (y := QSt (x_k x) (x_main x) [] (x_excs x) true false true false (x_timer x) (x_cur x) (Some (BCheck u)) None (x_esc x) (h :: x_hist x)).
      assert (Y : forall P, TI (QSt (x_k x) (x_main x) [] (x_excs x) true true true false (x_timer x) false (Some (BCheck u)) None (x_esc x)
        (HComplete (exception_of (x_excs x)) :: h :: x_hist x)) -> P -> P) by auto.
      assert (Rn := fun v => reg_note x h v Logic.I).
      assert (Rc : forall v, In (HAdd v) (HComplete (exception_of (x_excs x)) :: h :: x_hist x) <-> registered x v)
        by (intro v; rewrite <- Rn; split; [intros [E|J]; [discriminate|exact J]|now right]).
      open M. constructor; unfold registered; fields; rewrite ?Do in *; auto; try discriminate.
      * intro v. rewrite Rc. apply Q_dcb0.
      * intro v. rewrite Rc, Tk. split; intros [R1 D]; (split; [exact R1|]); [now left|]. destruct D as [D|D]; [exact D|discriminate].
      * intros c E. injection E as <-. rewrite Rc. split; [exact R|]. exists a, rest. exact Ctl.
      * intros m E. rewrite Rc. auto.
      * contradiction.
      * change (signals (HComplete (exception_of (x_excs x)) :: h :: x_hist x)) with (S (signals (x_hist x))). now rewrite Q_sig0.
      * intros [|b h1] r h2 E v; [intros []|]. injection E as <- E. exfalso. assert (S0 : signals (h :: x_hist x) = 0) by exact Q_sig0.
        elim (signals_none _ S0 _ _ _ E).
    + apply (B true false); [tauto|discriminate|discriminate].
  - assert (Nf : x_flag x = false). { destruct (x_flag x) eqn:E; [|reflexivity]. pose proof (Q_flag x M E) as Q. rewrite Q in I. destruct I. }
    rewrite Nf. apply (B false (x_reg x)); [split; discriminate|auto|auto].
Qed.

(** The kernel calls the callback. *)
Lemma ti_called x u j a rest c k r : TI x -> x_cb x = None -> looping x = false -> s_ctl (x_k x) = FDone u j a :: rest ->
  nth_error (k_dcbs (s_task (x_k x) u)) j = Some c -> Nat.even c = false -> step (x_k x) LDoneNext = Some (k, r) ->
  TI (set_cb (set_k x k) (Some (BRemove u))).
Proof.
  intros M Ecb Lp Ctl Nth Od St. pose proof (Q_k x M) as H. destruct (inv_step (x_k x) LDoneNext k r H Logic.I St) as (H1 & Sb & _).
  destruct (odd_first x u j c M Nth Od) as [R ->].
  assert (Mv := step_moves _ _ _ _ St). rewrite Ctl in Mv.
  assert (St' := St). unfold step in St'. destruct (s_halt (x_k x)); [discriminate|]. rewrite Ctl, Nth in St'. injection St' as <- <-. set (k := log _ _) in *.
  assert (Dv : forall v, v <> u -> (due k v <-> due (x_k x) v)).
  { intros v N. apply (due_step (x_k x) LDoneNext _ _ v H St Logic.I). intros _ a0 r0. rewrite Ctl. congruence. }
  assert (Ck : s_ctl k = FDone u 1 a :: rest) by reflexivity.
  assert (Nu : ~ due k u) by apply (due_started _ _ _ _ _ H1 Ck).
  assert (Du : due (x_k x) u) by (right; exists a; rewrite Ctl; now left).
  open M. constructor; unfold registered; fields; auto.
  - intro v. rewrite Q_tasks0, Ecb. unfold registered. destruct (Nat.eq_dec v u) as [->|N].
    + split; intros [R1 D]; (split; [exact R1|]); auto.
    + rewrite (Dv v N). split; intros [R1 [D|D]]; split; auto; congruence.
  - intros b E. injection E as <-. split; [exact R|]. exists a, rest. exact Ck.
  - intros todo d E. destruct (Q_loop0 todo d E) as (up & down & Ec & Ed & Eb). rewrite Ctl in Ec. pose proof (looping_false x todo d Lp E) as N.
    destruct up as [|f up]; [cbn in Ec; rewrite Ctl, Ec in N; contradiction|]. injection Ec as <- Ec.
    exists (FDone u 1 a :: up), down. rewrite Ck, Ec. auto.
Qed.

(** The loop of [_abort]. *)
Lemma loop_top x todo d : TI x -> x_loop x = Some (todo, d) -> looping x = true -> s_ctl (x_k x) = [] \/ exists u a rest, s_ctl (x_k x) = FDone u 1 a :: rest.
Proof.
  intros M E L. unfold looping in L. rewrite E in L. apply Nat.eqb_eq in L. destruct (Q_loop x M todo d E) as (up & down & Ec & Ed & Eb).
  assert (up = []) as ->. { rewrite Ec, app_length in L. destruct up; [reflexivity|]. cbn in L. lia. } cbn in Ec. rewrite Ec. exact Eb.
Qed.
Lemma now_step x todo d u m : TI x -> s_halt (x_k x) = false -> x_loop x = Some (todo, d) -> looping x = true ->
  step (x_k x) (LCancelNow u m) = Some (cancel_now (x_k x) u m).
Proof.
  intros M Ha E L. unfold step. rewrite Ha. destruct (loop_top x todo d M E L) as [->|(v & a & rest & ->)]; reflexivity.
Qed.
Lemma now_kf x todo d u k r : TI x -> s_halt (x_k x) = false -> x_cb x = None -> x_loop x = Some (todo, d) -> looping x = true ->
  cancel_now (x_k x) u 0 = (k, r) -> KF x k.
Proof.
  intros M Ha Ecb E L C. pose proof (now_step x todo d u 0 M Ha E L) as St. rewrite C in St.
  apply (kf_step x (LCancelNow u 0) k r M St); auto; try discriminate. exact Logic.I.
Qed.
Lemma ti_set_loop x todo d us : TI x -> x_loop x = Some (todo, d) -> TI (set_loop x (Some (us, d))).
Proof.
  intros M E. open M. constructor; unfold registered; fields; auto.
  - intro Es. specialize (Q_mode0 Es). rewrite E in Q_mode0. destruct (x_fin x), (x_reg x), (x_done x); tauto.
  - intro D. destruct (Q_done0 D) as (_ & _ & _ & N). congruence.
  - intros t0 d0 E0. injection E0 as <- <-. eauto.
Qed.
Lemma ti_escape x : TI x -> x_cb x = None -> TI (escape x).
Proof.
  intros M Ecb. open M. constructor; unfold registered; fields; auto; try discriminate.
  - intro u. rewrite Q_tasks0, Ecb. tauto.
  - intro D. destruct (Q_done0 D) as (D1 & D2 & D3 & _). auto.
Qed.
Lemma ti_loop x todo d : TI x -> s_halt (x_k x) = false -> x_esc x = false -> x_cb x = None -> x_loop x = Some (todo, d) -> looping x = true ->
  TI (fst (loop_step x todo d)).
Proof.
  intros M Ha Es Ecb E L. unfold loop_step. destruct todo as [|u us].
  - assert (Md := Q_mode x M Es). rewrite E in Md. destruct (x_fin x) eqn:Fi, (x_reg x) eqn:Rg, (x_done x) eqn:Dn; try tauto.
    change (x_flag (set_loop x None)) with (x_flag x). destruct (x_flag x) eqn:Fl; cbn [fst].
    + assert (Et := Q_flag x M Fl).
      assert (Em : x_main x <> None). { intro N. destruct (Q_none x M N) as (_ & _ & N3 & _). congruence. }
      open M. rewrite Dn in *.
      assert (Rg' : forall v, In (HAdd v) (HComplete (exception_of (x_excs x)) :: x_hist x) <-> registered x v)
        by (intro v; unfold registered; split; [intros [Q|I]; [discriminate|exact I]|now right]).
      constructor; unfold registered; fields; rewrite ?Et, ?Fi, ?Rg in *; auto; try discriminate.
      * intro v. rewrite Rg'. apply Q_dcb0.
      * intro v. rewrite Rg'. apply Q_tasks0.
      * intros c Q. congruence.
      * intros m Q. rewrite Rg'. auto.
      * contradiction.
      * change (signals (HComplete (exception_of (x_excs x)) :: x_hist x)) with (S (signals (x_hist x))). now rewrite Q_sig0.
      * intros [|a h1] r h2 Q v; [intros []|]. injection Q as <- Q. elim (signals_none _ Q_sig0 _ _ _ Q).
    + open M. rewrite Dn in *. constructor; unfold registered; fields; rewrite ?Fi, ?Dn; auto; try discriminate.
      * intro Q. destruct (Q_none0 Q) as (N1 & N2 & _ & N4 & _). repeat split; auto.
      * intros Q1 Q2. rewrite <- Fl. auto.
  - destruct (cancel_now (x_k x) u 0) as [k r] eqn:C. pose proof (now_kf x _ _ u k r M Ha Ecb E L C) as F. pose proof (ti_frame x k M F) as M1.
    assert (G : TI (note (set_loop (set_k x k) (Some (us, d))) (HNow u))).
    { apply ti_note; [|exact Logic.I]. apply (ti_set_loop (set_k x k) (u :: us) d us M1). exact E. }
    destruct r; cbn [fst]; try exact G. apply ti_escape; [exact M1|exact Ecb].
Qed.

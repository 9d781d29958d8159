(** The steps of TestManager one by one, and the invariant in every reachable state. *)
From Verif Require Import Base KernelModel KernelProofs KernelHist KernelLog KernelInv KernelTask KernelWake KernelLayer KernelStack
  LayerProofs StackProofs TestModel TestSpec TestInv TestInv2.
From Coq Require Import Arith.

(** The failure with which the callback of [u] calls [_abort]. *)
Definition verdict (k : st) (u : tid) : option failure :=
  match error_of k u with Some e => if is_end_test e then None else Some (FExc e) | None => None end.
Definition stop_timer (x : qst) : qst :=
  QSt (x_k x) (x_main x) (x_tasks x) (x_excs x) (x_fin x) (x_done x) (x_flag x) (x_reg x) false (x_cur x) (x_cb x) (x_loop x) (x_esc x) (x_hist x).
Inductive qmove (x : qst) : qlabel -> qst -> Prop :=
| qm_user l k r : user_can x l && user_label l = true -> step (x_k x) l = Some (k, r) -> qmove x (XUser l) (set_k x k)
| qm_begin t tm : s_ctl (x_k x) = [] -> x_main x = None -> fresh (x_k x) t = true -> qmove x (XBegin t tm) (fst (begin_test x t tm))
| qm_create u : user_control x = true -> fresh (x_k x) u = true -> x_cur x = true -> qmove x (XCreate u) (add_task x u)
| qm_refused u : user_control x = true -> x_cur x = false -> qmove x (XCreate u) x
| qm_timeout : s_ctl (x_k x) = [] -> x_timer x = true -> looping x = false ->
    qmove x XTimeout (abort (note (stop_timer x) HTimeout) (Some FTimeout))
| qm_cancel m : s_ctl (x_k x) = [] -> looping x = false -> qmove x (XCancel m) (abort (note x (HCancel m)) (Some (FCancelled m)))
| qm_remove u y : x_cb x = Some (BRemove u) -> remove_task (note x (HEnd u (awaited (x_k x) u))) u = Some y -> qmove x XLib (set_cb y (Some (BCheck u)))
| qm_end u : x_cb x = Some (BCheck u) -> x_main x <> Some u -> awaited (x_k x) u = true \/ error_of (x_k x) u = None -> qmove x XLib (set_cb x None)
| qm_abort u : x_cb x = Some (BCheck u) -> x_main x = Some u \/ (awaited (x_k x) u = false /\ error_of (x_k x) u <> None) ->
    qmove x XLib (abort x (verdict (x_k x) u))
| qm_now u us d k r : x_cb x = None -> looping x = true -> x_loop x = Some (u :: us, d) -> cancel_now (x_k x) u 0 = (k, r) ->
    (forall e, r <> RErr e) -> qmove x XLib (note (set_loop (set_k x k) (Some (us, d))) (HNow u))
| qm_escape u us d k e : x_cb x = None -> looping x = true -> x_loop x = Some (u :: us, d) -> cancel_now (x_k x) u 0 = (k, RErr e) ->
    qmove x XLib (escape (set_k x k))
| qm_over d : x_cb x = None -> looping x = true -> x_loop x = Some ([], d) -> qmove x XLib (fst (loop_step x [] d))
| qm_called u a rest c k r : x_cb x = None -> looping x = false -> s_ctl (x_k x) = FDone u 0 a :: rest ->
    nth_error (k_dcbs (s_task (x_k x) u)) 0 = Some c -> Nat.even c = false -> registered x u -> step (x_k x) LDoneNext = Some (k, r) ->
    qmove x XLib (set_cb (set_k x k) (Some (BRemove u))).

Lemma ended_cases k u : Inv k -> done k u = true ->
  (py_cancelled k u = true /\ error_of k u = None) \/
  (py_cancelled k u = false /\ py_exception k u = NoExc /\ error_of k u = None) \/
  (py_cancelled k u = false /\ exists e, py_exception k u = Exc e /\ error_of k u = Some e).
Proof.
  intros H D. destruct (D_out _ (J_dn _ _ H) u D) as (o & E & F). unfold py_cancelled, py_exception, error_of, done in *.
  destruct (state_of k u); try discriminate; rewrite ?E; destruct o; cbn in F; try tauto; auto. right. right. eauto.
Qed.
Lemma calling_done k u : Inv k -> calling k u -> done k u = true.
Proof. intros H (a & rest & E). apply (D_fin _ (J_dn _ _ H)). rewrite E. now left. Qed.
Lemma is_main_eq x u : is_main x u = true <-> x_main x = Some u.
Proof. unfold is_main. destruct (x_main x) as [m|]; [|split; discriminate]. rewrite Nat.eqb_eq. split; congruence. Qed.

Theorem qstep_move x l x' r : TI x -> qstep x l = Some (x', r) -> s_halt (x_k x) = false /\ x_esc x = false /\ qmove x l x'.
Proof.
  intros M St. unfold qstep in St. destruct (s_halt (x_k x)) eqn:Ha; [discriminate|]. destruct (x_esc x) eqn:Es; [discriminate|]. cbn [orb] in St.
  split; [reflexivity|]. split; [reflexivity|]. destruct l as [kl|t tm|u| |m| ].
  - destruct (user_can x kl && user_label kl) eqn:C; [|discriminate]. destruct (step (x_k x) kl) as [[k r0]|] eqn:E; [|discriminate].
    injection St as <- <-. now apply (qm_user x kl k r0).
  - destruct (s_ctl (x_k x)) eqn:Ec; [|discriminate]. destruct (x_main x) eqn:Em; [discriminate|]. destruct (fresh (x_k x) t) eqn:F; [|discriminate].
    injection St as E. apply (f_equal fst) in E. cbn [fst] in E. rewrite <- E. now apply qm_begin.
  - destruct (user_control x && fresh (x_k x) u) eqn:C; [|discriminate]. apply andb_true_iff in C. destruct C as [C F].
    destruct (x_cur x) eqn:Cu; injection St as <- <-; [now apply qm_create|now apply qm_refused].
  - destruct (s_ctl (x_k x)) eqn:Ec; [|discriminate]. destruct (s_queue (x_k x)); [|discriminate]. destruct (x_timer x) eqn:T; [|discriminate].
    destruct (looping x) eqn:L; [discriminate|]. injection St as <- <-.
    match goal with |- qmove _ _ (abort (note ?y _) _) => replace y with (stop_timer x) by (unfold stop_timer; now rewrite Es) end. now apply qm_timeout.
  - destruct (s_ctl (x_k x)) eqn:Ec; [|discriminate]. destruct (looping x) eqn:L; [discriminate|]. injection St as <- <-. now apply qm_cancel.
  - unfold lib_step in St. destruct (x_cb x) as [c|] eqn:Ecb.
    + injection St as E. destruct c as [u|u]; cbn [callback_step] in E.
      * destruct (ti_remove x u M Es Ecb) as (y & Ey & _). rewrite Ey in E. injection E as <- <-. now apply qm_remove.
      * destruct (Q_cb x M _ Ecb) as [R Cl]. pose proof (calling_done _ _ (Q_k x M) Cl) as Dn.
        pose proof (ended_cases _ _ (Q_k x M) Dn) as Cs. unfold awaited in E. fold (awaited (x_k x) u) in E.
        assert (Ab : forall f, verdict (x_k x) u = f -> x_main x = Some u \/ (awaited (x_k x) u = false /\ error_of (x_k x) u <> None) -> qmove x XLib (abort x f))
          by (intros f <-; now apply qm_abort).
        destruct (is_main x u) eqn:Im.
        -- apply is_main_eq in Im. unfold verdict in Ab. destruct Cs as [[C1 C2]|[(C1 & C2 & C3)|(C1 & e & C2 & C3)]]; rewrite C1 in E; rewrite ?C2 in E;
             injection E as <- <-; apply Ab; auto; rewrite ?C2, ?C3; reflexivity.
        -- assert (Nm : x_main x <> Some u) by (intro Q; apply is_main_eq in Q; congruence).
           destruct Cs as [[C1 C2]|[(C1 & C2 & C3)|(C1 & e & C2 & C3)]]; rewrite C1 in E.
           ++ injection E as <- <-. now apply (qm_end x u Ecb Nm); right.
           ++ destruct (awaited (x_k x) u); [injection E as <- <-; apply (qm_end x u Ecb Nm); auto|].
              rewrite C2 in E. injection E as <- <-. apply (qm_end x u Ecb Nm); auto.
           ++ destruct (awaited (x_k x) u) eqn:Aw; [injection E as <- <-; apply (qm_end x u Ecb Nm); auto|].
              rewrite C2 in E. injection E as <- <-. apply Ab; [unfold verdict; now rewrite C3|right; split; [reflexivity|congruence]].
    + assert (Cd : looping x = false -> match s_ctl (x_k x) with
          | FDone u j _ :: _ =>
              match nth_error (k_dcbs (s_task (x_k x) u)) j with
              | Some c => if Nat.even c then None else match step (x_k x) LDoneNext with
                       | Some (k, _) => Some (set_cb (set_k x k) (Some (BRemove u)), QBlocked)
                       | None => None
                       end
              | None => None
              end
          | _ => None
          end = Some (x', r) -> qmove x XLib x').
      { intros L Q. destruct (s_ctl (x_k x)) as [|[ | |u j a] rest] eqn:Ec; try discriminate.
        destruct (nth_error (k_dcbs (s_task (x_k x) u)) j) as [c|] eqn:Nt; [|discriminate]. destruct (Nat.even c) eqn:Ev; [discriminate|].
        destruct (step (x_k x) LDoneNext) as [[k r0]|] eqn:S; [|discriminate]. injection Q as <- <-.
        destruct (odd_first x u j c M Nt Ev) as [R ->]. now apply (qm_called x u a rest c k r0). }
      destruct (x_loop x) as [[todo d]|] eqn:Lo.
      * destruct (looping x) eqn:L; [|now apply Cd]. injection St as E. destruct todo as [|u us].
        -- apply (f_equal fst) in E. cbn [fst] in E. rewrite <- E. now apply qm_over.
        -- cbn [loop_step] in E. destruct (cancel_now (x_k x) u 0) as [k rr] eqn:C.
           destruct rr as [|b|e|o]; injection E as <- <-; [eapply (qm_now x u us d); eauto; discriminate| |now apply (qm_escape x u us d k e)|];
             eapply (qm_now x u us d); eauto; discriminate.
      * assert (L : looping x = false) by (unfold looping; now rewrite Lo). now apply Cd.
Qed.

Theorem ti_step x l x' r : TI x -> sim_ok x l -> qstep x l = Some (x', r) -> TI x'.
Proof.
  intros M So St. destruct (qstep_move x l x' r M St) as (Ha & Es & Mv).
  destruct Mv as [kl k r0 C S|t tm Ec Em F|u C F Cu|u C Cu|Ec T L|m Ec L|u y Ecb E|u Ecb Nm C|u Ecb C|u us d k r0 Ecb L Lo C N|u us d k e Ecb L Lo C|d Ecb L Lo|u a rest c k r0 Ecb L Ec Nt Ev R S].
  - apply (ti_user x kl k r0 M C S). destruct kl; try exact Logic.I. exact So.
  - now apply ti_begin.
  - now apply ti_create.
  - exact M.
  - assert (Cb : x_cb x = None).
    { destruct (x_cb x) as [c|] eqn:E; [|reflexivity]. pose proof (Q_cb x M c E) as P. destruct c; destruct P as [_ (a & rest & Q)]; congruence. }
    apply ti_abort; fields; auto.
    + apply ti_note; [|exact Logic.I]. apply ti_timer; auto.
    + intros _. now apply idle_loop.
  - assert (Cb : x_cb x = None).
    { destruct (x_cb x) as [c|] eqn:E; [|reflexivity]. pose proof (Q_cb x M c E) as P. destruct c; destruct P as [_ (a & rest & Q)]; congruence. }
    apply ti_abort; fields; auto.
    + now apply ti_note.
    + intros _. now apply idle_loop.
  - destruct (ti_remove x u M Es Ecb) as (y' & E' & My). rewrite E in E'. injection E' as <-. exact My.
  - now apply (ti_cb_end x u).
  - apply ti_abort; eauto. intros _. destruct (Q_cb x M _ Ecb) as [_ Cl]. now apply (calling_loop _ u).
  - pose proof (ti_loop x (u :: us) d M Ha Es Ecb Lo L) as Q. cbn [loop_step] in Q. rewrite C in Q. destruct r0; try exact Q. elim (N e eq_refl).
  - pose proof (ti_loop x (u :: us) d M Ha Es Ecb Lo L) as Q. cbn [loop_step] in Q. rewrite C in Q. exact Q.
  - now apply ti_loop.
  - now apply (ti_called x u 0 a rest c k r0).
Qed.

Lemma qexec_snoc P x ls x1 l x2 r : qexec P x ls x1 -> P x1 l -> qstep x1 l = Some (x2, r) -> qexec P x (ls ++ [l]) x2.
Proof. induction 1; intros; cbn; econstructor; eauto. constructor. Qed.
Lemma qexec_ind2 (P : qst -> qlabel -> Prop) (I : qst -> Prop) x ls x' :
  (forall a l b r, I a -> P a l -> qstep a l = Some (b, r) -> I b) -> I x -> qexec P x ls x' -> I x'.
Proof. intros S H E. induction E; eauto. Qed.
Lemma qreach_ti ls x : qreach ls x -> TI x.
Proof. apply qexec_ind2; [|apply qinit_ok]. intros a l b r M So St. now apply (ti_step a l b r). Qed.

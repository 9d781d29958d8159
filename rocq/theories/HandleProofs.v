(** Proofs about the write scheduler and the value handles (C40-C42). *)
From Coq Require Import String.
From Verif Require Import Base RangeSpec RangeModel RangeProofs ArrayModel LogicModel LogicSpec LogicProofs
  LogicArrayModel LogicArraySpec LogicArrayProofs LogicArrayRefine LogicArrayThms HandleModel HandleSpec.
Open Scope Z_scope.

(** * Induction over handles *)
Section HandleInd.
  Variable P : handle -> Prop.
  Hypothesis Hleaf : forall id c k, P (HLeaf id c k).
  Hypothesis Harr : forall c l r d sub, Forall (fun p => P (snd p)) sub -> P (HArr c l r d sub).
  Fixpoint handle_ind2 (h : handle) : P h :=
    match h with
    | HLeaf id c k => Hleaf id c k
    | HArr c l r d sub =>
        Harr c l r d sub
          ((fix go (s : list (Z * handle)) : Forall (fun p => P (snd p)) s :=
              match s with
              | [] => Forall_nil _
              | (i, h') :: s' => Forall_cons (i, h') (handle_ind2 h' : P (snd (i, h'))) (go s')
              end) sub)
    end.
End HandleInd.

(** * Scheduling a list of writes *)
Lemma schedule_all_app t l m st :
  schedule_all t (l ++ m) st =
  match schedule_all t l st with (st1, None) => schedule_all t m st1 | x => x end.
Proof.
  revert st; induction l as [|q l IH]; intro st; cbn [app schedule_all]; [reflexivity|].
  destruct (schedule_write t q st) as [st1 [e|]]; auto.
Qed.

Lemma sub_at_map {A B} (f : A -> B) i l :
  sub_at i (map (fun p => (fst p, f (snd p))) l) = match sub_at i l with Ok x => Ok (f x) | Err e => Err e end.
Proof.
  induction l as [|[j x] l IH]; cbn [map sub_at fst snd]; [reflexivity|].
  destruct (i =? j); auto.
Qed.

Lemma sub_at_in {A} i (l : list (Z * A)) x : sub_at i l = Ok x -> exists j, In (j, x) l.
Proof.
  induction l as [|[j y] l IH]; cbn [sub_at]; intro H; [discriminate|].
  destruct (i =? j). { inversion H; subst. exists j. now left. }
  destruct (IH H) as [k K]. exists k. now right.
Qed.

Lemma set_value_plan t h : forall a v st,
  set_value t h a v st =
  match schedule_all t (mk_reqs a (fst (plan h v))) st with
  | (st1, None) => (st1, snd (plan h v))
  | (st1, Some e) => (st1, Some e)
  end.
Proof.
  induction h as [id c k|c l r d sub IH] using handle_ind2; intros a v st.
  - cbn [set_value plan]. destruct (conv k v) as [s|e]; cbn [fst snd mk_reqs map schedule_all].
    + destruct (schedule_write t (WReq id a s) st) as [st1 [e|]]; reflexivity.
    + reflexivity.
  - cbn [set_value plan]. destruct (py_length v) as [n|e]; [|reflexivity].
    destruct (handle_range l r d) as [rg|e]; [|reflexivity].
    destruct (n =? range_len rg); cbn [negb]; [|reflexivity].
    destruct (py_iterate v) as [vs|e]; [|reflexivity].
    generalize (range_iter rg) as is. clear -IH. revert st.
    induction vs as [|x vs IHv]; intros st is; [reflexivity|].
    destruct is as [|i is]; [reflexivity|].
    cbn [combine set_loop plan_seq].
    rewrite !(sub_at_map (fun h => set_value t h a) i sub), !(sub_at_map plan i sub).
    destruct (sub_at i sub) as [h|e] eqn:E; [|reflexivity].
    destruct (sub_at_in _ _ _ E) as [j J]. pose proof (proj1 (Forall_forall _ _) IH _ J) as IHj.
    cbv beta in IHj. cbn [snd] in IHj. rewrite IHj. cbn [snd]. destruct (plan h x) as [q oe].
    cbn [fst snd]. destruct oe as [e|].
    + cbn [fst snd]. destruct (schedule_all t (mk_reqs a q) st) as [st1 [e1|]]; reflexivity.
    + destruct (plan_seq _ vs is) as [qs oe2] eqn:P. cbn [fst snd].
      unfold mk_reqs. rewrite map_app. fold (mk_reqs a q). fold (mk_reqs a qs).
      rewrite schedule_all_app.
      destruct (schedule_all t (mk_reqs a q) st) as [st1 [e1|]]; [reflexivity|].
      rewrite IHv. rewrite P. reflexivity.
Qed.

(** * Requests and plans *)
Scheme requests_mind := Induction for requests Sort Prop
with requests_seq_mind := Induction for requests_seq Sort Prop.

Lemma requests_plan h v qs : requests h v qs -> plan h v = (qs, None).
Proof.
  apply (requests_mind (fun h v qs _ => plan h v = (qs, None))
    (fun sub vs is qs _ => plan_seq (map (fun p => (fst p, plan (snd p))) sub) vs is = (qs, None))).
  - intros id c k v0 s H. cbn [plan]. rewrite H. reflexivity.
  - intros c l r d sub rg v0 vs qs0 H1 H2 H3 _ IH. cbn [plan]. rewrite H2, H1, Z.eqb_refl, H3. exact IH.
  - reflexivity.
  - intros sub v0 vs i is h0 q qs0 S _ IH1 _ IH2. cbn [plan_seq]. rewrite sub_at_map, S, IH1, IH2. reflexivity.
Qed.

Lemma fold_wf l : fold_right (fun x P => wf_val x /\ P) True l <-> Forall wf_val l.
Proof.
  induction l as [|x l IH]; cbn [fold_right]; split; intro H; auto.
  - constructor; [apply H|apply IH, H].
  - inversion H; subst. split; [assumption|now apply IH].
Qed.

Lemma wf_iterate v vs n : wf_val v -> py_iterate v = Ok vs -> py_length v = Ok n ->
  py_len vs = n /\ Forall wf_val vs.
Proof.
  intros W I L. destruct v; cbn [py_iterate py_length wf_val] in *; try discriminate.
  - inversion I; inversion L; subst. unfold py_len. rewrite map_length. split; [reflexivity|].
    apply Forall_forall. intros x H. apply in_map_iff in H. destruct H as [c [<- _]]. cbn. exact Logic.I.
  - destruct W as [rx W]. destruct (la_iter a) as [a1 r] eqn:E. cbn [snd] in I.
    destruct r as [l|e]; cbn [bind] in I; [|discriminate]. inversion I; inversion L; subst.
    split.
    + pose proof (rep_canon rx a W) as R. rewrite (rep_len _ _ R).
      unfold py_len. rewrite map_length.
      assert (El : elems a = l) by (unfold elems; rewrite E; reflexivity).
      rewrite <- El. reflexivity.
    + apply Forall_forall. intros x H. apply in_map_iff in H. destruct H as [c [<- _]]. cbn. exact Logic.I.
  - inversion I; inversion L; subst. unfold py_len. rewrite map_length. split; [reflexivity|].
    apply Forall_forall. intros x H. apply in_map_iff in H. destruct H as [c [<- _]]. cbn. exact Logic.I.
  - inversion I; inversion L; subst. split; [reflexivity|]. now apply fold_wf.
  - inversion I; inversion L; subst. split; [apply W|]. now apply fold_wf.
Qed.

Lemma plan_requests h : forall v qs, wf_val v -> plan h v = (qs, None) -> requests h v qs.
Proof.
  induction h as [id c k|c l r d sub IH] using handle_ind2; intros v qs W H.
  - cbn [plan] in H. destruct (conv k v) as [s|e] eqn:E; inversion H; subst. now constructor.
  - cbn [plan] in H. destruct (py_length v) as [n|e] eqn:L; [|discriminate].
    destruct (handle_range l r d) as [rg|e] eqn:HR; [|discriminate].
    destruct (Z.eqb_spec n (range_len rg)); [|discriminate]. subst n.
    destruct (py_iterate v) as [vs|e] eqn:I; [|discriminate].
    apply (req_arr c l r d sub rg v vs qs HR L I).
    destruct (wf_iterate _ _ _ W I L) as [Len Wvs].
    assert (WR : wf rg).
    { unfold handle_range in HR. destruct d; try discriminate; eapply mk_range_wf; eassumption. }
    assert (Len2 : length vs = length (range_iter rg)).
    { pose proof (iter_len rg WR). unfold py_len in Len. lia. }
    revert Len2 H. generalize (range_iter rg) as is. clear -IH Wvs. revert qs.
    induction Wvs as [|x vs Wx Wvs IHv]; intros qs [|i is] Len H; cbn [length] in Len; try discriminate.
    + cbn [plan_seq] in H. inversion H; subst. constructor.
    + cbn [plan_seq] in H. rewrite sub_at_map in H.
      destruct (sub_at i sub) as [h|e] eqn:E; [|discriminate].
      destruct (plan h x) as [q [e|]] eqn:P; [discriminate|].
      destruct (plan_seq _ vs is) as [qs2 oe] eqn:P2. inversion H; subst.
      econstructor; [exact E| |].
      * destruct (sub_at_in _ _ _ E) as [j J].
        apply (proj1 (Forall_forall _ _) IH _ J); assumption.
      * apply IHv; [lia|exact P2].
Qed.

(** * The scheduler, one write at a time *)
Definition wreq_of (w : hid * Z * simval) (a : act_name) : wreq := WReq (hid_of w) a (snd w).
Definition entry (q : wreq) : hid * Z * simval := (q_hid q, act_value (q_act q), q_val q).

Definition real_act (a : act_name) : Prop := a <> N_OLD_IMMEDIATE.

Lemma is_deposit_code a : real_act a -> is_deposit a = (act_value a =? 0).
Proof. destruct a; try reflexivity. intro H. now elim H. Qed.

Lemma act_real n : real_act (act n).
Proof. destruct n; discriminate. Qed.

(** Reformulation of [schedule_write] outside trust mode and the ReadWrite phase. *)
Lemma schedule_deposit q st : is_rw (w_phase st) = false -> is_deposit (q_act q) = true ->
  schedule_write false q st =
  (WSt (w_phase st) (calls_pop (q_hid q) (w_calls st) ++ [q]) true (w_log st), None).
Proof. intros P D. unfold schedule_write. now rewrite P, D. Qed.

Lemma schedule_now q st : bind_check (q_val q) = None ->
  is_rw (w_phase st) = true \/ is_deposit (q_act q) = false ->
  schedule_write false q st =
  (WSt (w_phase st) (w_calls st) (w_cb st) (w_log st ++ [entry q]), None).
Proof.
  intros B H. unfold schedule_write, write_func. rewrite B.
  destruct (is_rw (w_phase st)); [reflexivity|]. destruct H as [H|H]; [discriminate|].
  now rewrite H.
Qed.

Lemma write_func_keeps q st : w_phase (fst (write_func q st)) = w_phase st /\
  w_calls (fst (write_func q st)) = w_calls st /\ w_cb (fst (write_func q st)) = w_cb st.
Proof. unfold write_func. destruct (bind_check (q_val q)); auto. Qed.

Lemma schedule_phase t q st : w_phase (fst (schedule_write t q st)) = w_phase st.
Proof.
  unfold schedule_write. destruct t; [apply write_func_keeps|].
  destruct (is_rw (w_phase st)); [apply write_func_keeps|].
  destruct (is_deposit (q_act q)); [reflexivity|apply write_func_keeps].
Qed.

Lemma schedule_all_phase t l : forall st, w_phase (fst (schedule_all t l st)) = w_phase st.
Proof.
  induction l as [|q l IH]; intro st; cbn [schedule_all]; [reflexivity|].
  pose proof (schedule_phase t q st) as E. destruct (schedule_write t q st) as [st1 [e|]]; cbn [fst] in *.
  - exact E.
  - rewrite IH. exact E.
Qed.

(** * keep_last *)
Lemma existsb_app {A} (f : A -> bool) l m : existsb f (l ++ m) = existsb f l || existsb f m.
Proof. apply List.existsb_app. Qed.

Definition pop_w (h : hid) (l : list (hid * Z * simval)) :=
  filter (fun w => negb (Nat.eqb (hid_of w) h)) l.

Lemma keep_last_snoc l w : keep_last (l ++ [w]) = pop_w (hid_of w) (keep_last l) ++ [w].
Proof.
  induction l as [|x l IH]; [reflexivity|]. cbn [app keep_last].
  rewrite existsb_app. cbn [existsb]. rewrite orb_false_r.
  destruct (existsb (fun w' => Nat.eqb (hid_of w') (hid_of x)) l) eqn:E; cbn [orb].
  - exact IH.
  - destruct (Nat.eqb_spec (hid_of w) (hid_of x)) as [e|n].
    + rewrite IH. unfold pop_w. cbn [filter]. rewrite e, Nat.eqb_refl. reflexivity.
    + rewrite IH. unfold pop_w. cbn [filter].
      destruct (Nat.eqb_spec (hid_of x) (hid_of w)); [congruence|]. reflexivity.
Qed.

Lemma keep_last_in l w : In w (keep_last l) <->
  exists l1 l2, l = l1 ++ w :: l2 /\ ~ In (hid_of w) (map hid_of l2).
Proof.
  induction l as [|x l IH]; cbn [keep_last].
  - split; [intros []|]. intros (l1 & l2 & E & _). destruct l1; discriminate.
  - destruct (existsb (fun w' => Nat.eqb (hid_of w') (hid_of x)) l) eqn:E.
    + rewrite IH. split.
      * intros (l1 & l2 & -> & N). exists (x :: l1), l2. auto.
      * intros ([|y l1] & l2 & Eq & N); inversion Eq; subst.
        -- exfalso. apply existsb_exists in E. destruct E as (w' & I & Q).
           apply Nat.eqb_eq in Q. apply N. rewrite <- Q. now apply in_map.
        -- eauto.
    + cbn [In]. rewrite IH. split.
      * intros [<-|(l1 & l2 & -> & N)].
        -- exists [], l. split; [reflexivity|]. intro I. apply in_map_iff in I.
           destruct I as (w' & Q & I). assert (existsb (fun w' => Nat.eqb (hid_of w') (hid_of x)) l = true).
           { apply existsb_exists. exists w'. split; [exact I|]. now apply Nat.eqb_eq. }
           congruence.
        -- exists (x :: l1), l2. auto.
      * intros ([|y l1] & l2 & Eq & N); inversion Eq; subst; [now left|right; eauto].
Qed.

Lemma keep_last_nodup l : NoDup (map hid_of (keep_last l)).
Proof.
  induction l as [|x l IH]; cbn [keep_last map]; [constructor|].
  destruct (existsb (fun w' => Nat.eqb (hid_of w') (hid_of x)) l) eqn:E; [exact IH|].
  cbn [map]. constructor; [|exact IH]. intro I. apply in_map_iff in I. destruct I as (w & Q & I).
  apply keep_last_in in I. destruct I as (l1 & l2 & -> & _).
  rewrite existsb_app in E. cbn [existsb] in E. rewrite Q, Nat.eqb_refl, orb_true_r in E. discriminate.
Qed.

(** * A batch: everything between two ReadWrite phases *)
Definition entries (l : list wreq) : list (hid * Z * simval) := map entry l.

Lemma entries_pop h l : entries (calls_pop h l) = pop_w h (entries l).
Proof.
  unfold entries, calls_pop, pop_w. induction l as [|q l IH]; cbn [filter map]; [reflexivity|].
  change (hid_of (entry q)) with (q_hid q). destruct (Nat.eqb (q_hid q) h); cbn [negb map]; now rewrite IH.
Qed.

(** The state in the middle of a batch that started with log [lg] and asked for [l] so far. *)
Definition mid (lg : list (hid * Z * simval)) (l : list (hid * Z * simval)) (st : wst) : Prop :=
  w_log st = lg ++ others l /\ entries (w_calls st) = keep_last (deposits l) /\
  (w_cb st = true \/ w_calls st = []) /\ is_rw (w_phase st) = false.

Lemma deposits_app l m : deposits (l ++ m) = deposits l ++ deposits m.
Proof. apply filter_app. Qed.
Lemma others_app l m : others (l ++ m) = others l ++ others m.
Proof. apply filter_app. Qed.

Lemma mid_schedule lg l st q : mid lg l st -> real_act (q_act q) -> bind_check (q_val q) = None ->
  snd (schedule_write false q st) = None /\
  mid lg (l ++ [entry q]) (fst (schedule_write false q st)).
Proof.
  intros (L & C & F & P) A B. destruct (is_deposit (q_act q)) eqn:D.
  - rewrite schedule_deposit by assumption. cbn [fst snd]. split; [reflexivity|].
    rewrite is_deposit_code in D by assumption.
    unfold mid. cbn [w_log w_calls w_cb w_phase]. rewrite others_app, deposits_app.
    assert (E1 : others [entry q] = []) by (unfold others; cbn [filter]; change (code_of (entry q)) with (act_value (q_act q)); rewrite D; reflexivity).
    assert (E2 : deposits [entry q] = [entry q]) by (unfold deposits; cbn [filter]; change (code_of (entry q)) with (act_value (q_act q)); rewrite D; reflexivity).
    rewrite E1, E2, app_nil_r. repeat (apply conj); auto.
    unfold entries. rewrite map_app. fold (entries (calls_pop (q_hid q) (w_calls st))).
    rewrite entries_pop, C, keep_last_snoc. reflexivity.
  - rewrite schedule_now by auto. cbn [fst snd]. split; [reflexivity|].
    rewrite is_deposit_code in D by assumption.
    unfold mid. cbn [w_log w_calls w_cb w_phase]. rewrite others_app, deposits_app.
    assert (E1 : others [entry q] = [entry q]) by (unfold others; cbn [filter]; change (code_of (entry q)) with (act_value (q_act q)); rewrite D; reflexivity).
    assert (E2 : deposits [entry q] = []) by (unfold deposits; cbn [filter]; change (code_of (entry q)) with (act_value (q_act q)); rewrite D; reflexivity).
    rewrite E1, E2, app_nil_r, L, <- app_assoc. repeat (apply conj); auto.
Qed.

Lemma mid_schedule_all lg qs : forall l st, mid lg l st ->
  Forall (fun q => real_act (q_act q) /\ bind_check (q_val q) = None) qs ->
  snd (schedule_all false qs st) = None /\ mid lg (l ++ entries qs) (fst (schedule_all false qs st)).
Proof.
  induction qs as [|q qs IH]; intros l st M F; cbn [schedule_all].
  - unfold entries. cbn [map]. rewrite app_nil_r. auto.
  - inversion F as [|? ? [A B] F']; subst. destruct (mid_schedule lg l st q M A B) as [N M'].
    destruct (schedule_write false q st) as [st1 oe]. cbn [fst snd] in *. subst oe.
    destruct (IH _ _ M' F') as [N2 M2]. split; [exact N2|].
    rewrite <- app_assoc in M2. exact M2.
Qed.

(** The action of a right-hand side. *)
Definition act_of (x : aval) : act_name :=
  match x with
  | APlain _ | ADeposit _ => act N_DEPOSIT
  | AForce _ | AFreeze => act N_FORCE
  | ARelease => act N_RELEASE
  | AImmediate _ => act N_NO_DELAY
  | AOldImmediate _ => act N_OLD_IMMEDIATE
  end.
Lemma act_of_code x : act_value (act_of x) = code x.
Proof. destruct x; reflexivity. Qed.
Lemma act_of_real x : real_act (act_of x).
Proof. destruct x; apply act_real. Qed.

Lemma dispatch_wanted t rd h x st :
  dispatch t rd h x st =
  match wanted rd h x with Ok v => set_value t h (act_of x) v st | Err e => (st, Some e) end.
Proof. destruct x; reflexivity. Qed.

Lemma immediate_of_eq t rd h x st : setimmediatevalue t rd h x st = assign t rd h (immediate_of x) st.
Proof. destruct x; reflexivity. Qed.

(** The requests of one assignment, as scheduler requests. *)
Definition reqs_by (p : phase) (rd : reads) (h : handle) (x : aval) : list wreq :=
  if is_ro p then [] else if h_const h then []
  else match wanted rd h x with
       | Ok v => mk_reqs (act_of x) (fst (plan h v))
       | Err _ => []
       end.
Lemma reqs_by_entries p rd h x : entries (reqs_by p rd h x) = asked_by p rd h x.
Proof.
  unfold reqs_by, asked_by. destruct (is_ro p); [reflexivity|]. destruct (h_const h); [reflexivity|].
  destruct (wanted rd h x) as [v|e]; [|reflexivity]. unfold entries, mk_reqs. rewrite map_map.
  apply map_ext. intros [i s]. unfold entry. cbn [q_hid q_act q_val fst snd]. now rewrite act_of_code.
Qed.
Lemma assign_reqs t rd h x st :
  fst (assign t rd h x st) = fst (schedule_all t (reqs_by (w_phase st) rd h x) st).
Proof.
  unfold assign, reqs_by. destruct (is_ro (w_phase st)); [reflexivity|].
  destruct (h_const h); [reflexivity|]. rewrite dispatch_wanted.
  destruct (wanted rd h x) as [v|e]; [|reflexivity]. rewrite set_value_plan.
  destruct (schedule_all t _ st) as [st1 [e|]]; reflexivity.
Qed.
Lemma reqs_by_ok p rd h x : all_accepted (asked_by p rd h x) ->
  Forall (fun q => real_act (q_act q) /\ bind_check (q_val q) = None) (reqs_by p rd h x).
Proof.
  rewrite <- reqs_by_entries. unfold all_accepted, entries. rewrite Forall_map.
  intro F. apply Forall_forall. intros q I. split.
  - unfold reqs_by in I. destruct (is_ro p); [destruct I|]. destruct (h_const h); [destruct I|].
    destruct (wanted rd h x); [|destruct I]. unfold mk_reqs in I. apply in_map_iff in I.
    destruct I as (y & <- & _). apply act_of_real.
  - rewrite Forall_forall in F. exact (F q I).
Qed.

Lemma mid_fire lg l st p : mid lg l st -> is_rw p = false ->
  mid lg l (fst (fire false p st)).
Proof.
  intros (L & C & F & P) R. unfold fire. rewrite R. cbn [fst]. unfold mid. cbn [w_log w_calls w_cb w_phase].
  auto.
Qed.

Lemma asked_cons p o l : asked p (o :: l) =
  match o with
  | OFire p' => asked p' l
  | OSet rd h x => asked_by p rd h x ++ asked p l
  | OSetNow rd h x => asked_by p rd h (immediate_of x) ++ asked p l
  end.
Proof. destruct o; reflexivity. Qed.

Lemma mid_run lg ops : forall l st, mid lg l st -> forallb not_rw ops = true ->
  all_accepted (asked (w_phase st) ops) ->
  mid lg (l ++ asked (w_phase st) ops) (wrun false ops st).
Proof.
  unfold wrun. induction ops as [|o ops IH]; intros l st M N A.
  - cbn [asked fold_left]. now rewrite app_nil_r.
  - cbn [forallb] in N. apply andb_true_iff in N. destruct N as [N1 N2].
    cbn [fold_left]. rewrite asked_cons in *.
    assert (S : forall rd h x, all_accepted (asked_by (w_phase st) rd h x) ->
      mid lg (l ++ asked_by (w_phase st) rd h x) (fst (assign false rd h x st)) /\
      w_phase (fst (assign false rd h x st)) = w_phase st).
    { intros rd h x AA. rewrite assign_reqs. split; [|apply schedule_all_phase].
      rewrite <- reqs_by_entries. apply mid_schedule_all; [exact M|]. now apply reqs_by_ok. }
    destruct o as [rd h x|rd h x|p]; cbn [wstep].
    + apply Forall_app in A. destruct A as [A1 A2]. destruct (S rd h x A1) as [S1 S2].
      rewrite app_assoc. rewrite <- S2 at 2. apply IH; auto. now rewrite S2.
    + rewrite immediate_of_eq. apply Forall_app in A. destruct A as [A1 A2].
      destruct (S rd h (immediate_of x) A1) as [S1 S2].
      rewrite app_assoc. rewrite <- S2 at 2. apply IH; auto. now rewrite S2.
    + assert (R : is_rw p = false) by (destruct p; [discriminate N1|reflexivity|reflexivity]).
      pose proof (mid_fire lg l st p M R) as M'.
      assert (E : w_phase (fst (fire false p st)) = p) by (unfold fire; rewrite R; reflexivity).
      specialize (IH _ _ M' N2). rewrite E in IH. apply IH. exact A.
Qed.

Lemma apply_loop_ok l : forall st, Forall (fun q => bind_check (q_val q) = None) l ->
  apply_loop l st = (WSt (w_phase st) (w_calls st) (w_cb st) (w_log st ++ entries l), None).
Proof.
  induction l as [|q l IH]; intros st F; cbn [apply_loop].
  - unfold entries. cbn [map]. rewrite app_nil_r. now destruct st.
  - inversion F as [|? ? B F']; subst. unfold write_func. rewrite B. rewrite IH by assumption.
    cbn [w_phase w_calls w_cb w_log]. rewrite <- app_assoc. reflexivity.
Qed.

Lemma wrun_app t a b st : wrun t (a ++ b) st = wrun t b (wrun t a st).
Proof. apply fold_left_app. Qed.

Lemma keep_last_sub l w : In w (keep_last l) -> In w l.
Proof. rewrite keep_last_in. intros (l1 & l2 & -> & _). apply in_or_app. right. now left. Qed.

Lemma C40_batch_pf st ops : w_phase st <> PhReadWrite -> w_calls st = [] ->
  forallb not_rw ops = true -> all_accepted (asked (w_phase st) ops) ->
  let st' := wrun false (ops ++ [OFire PhReadWrite]) st in
  let ws := asked (w_phase st) ops in
  w_log st' = w_log st ++ others ws ++ keep_last (deposits ws) /\
  w_calls st' = [] /\ w_cb st' = false /\
  snd (fire false PhReadWrite (wrun false ops st)) = None.
Proof.
  intros P C N A. cbv zeta. rewrite wrun_app.
  assert (M0 : mid (w_log st) [] st).
  { unfold mid, others, deposits. cbn [filter keep_last]. rewrite app_nil_r, C.
    repeat (apply conj); auto. destruct (w_phase st); congruence || reflexivity. }
  pose proof (mid_run _ ops [] st M0 N A) as (L & E & _ & _). cbn [app] in L, E.
  set (st1 := wrun false ops st) in *. unfold wrun. cbn [fold_left wstep]. unfold fire. cbn [is_rw].
  unfold apply_scheduled_writes. cbn [w_calls].
  assert (F : Forall (fun q => bind_check (q_val q) = None) (w_calls st1)).
  { apply Forall_forall. intros q I.
    assert (I2 : In (entry q) (keep_last (deposits (asked (w_phase st) ops)))).
    { rewrite <- E. now apply in_map. }
    apply keep_last_sub in I2. unfold deposits in I2. apply filter_In in I2. destruct I2 as [I2 _].
    unfold all_accepted in A. rewrite Forall_forall in A. exact (A _ I2). }
  rewrite apply_loop_ok by exact F. cbn [fst snd w_phase w_calls w_cb w_log].
  rewrite L, E, <- app_assoc. repeat (apply conj); reflexivity.
Qed.

(** * Writing at once *)
Lemma schedule_all_now t qs : forall st,
  t = true \/ is_rw (w_phase st) = true \/ Forall (fun q => is_deposit (q_act q) = false) qs ->
  Forall (fun q => bind_check (q_val q) = None) qs ->
  schedule_all t qs st = (WSt (w_phase st) (w_calls st) (w_cb st) (w_log st ++ entries qs), None).
Proof.
  induction qs as [|q qs IH]; intros st T F; cbn [schedule_all].
  - unfold entries. cbn [map]. rewrite app_nil_r. now destruct st.
  - inversion F as [|? ? B F']; subst.
    assert (E : schedule_write t q st =
      (WSt (w_phase st) (w_calls st) (w_cb st) (w_log st ++ [entry q]), None)).
    { destruct T as [->|T].
      - unfold schedule_write, write_func. now rewrite B.
      - destruct t; [unfold schedule_write, write_func; now rewrite B|].
        apply schedule_now; [exact B|]. destruct T as [T|T]; [now left|right].
        inversion T; assumption. }
    rewrite E, IH; [|destruct T as [T|[T|T]]; auto; right; right; inversion T; assumption|exact F'].
    cbn [w_phase w_calls w_cb w_log]. rewrite <- app_assoc. reflexivity.
Qed.

Lemma reqs_by_ok2 p rd h x : all_accepted (asked_by p rd h x) ->
  Forall (fun q => bind_check (q_val q) = None) (reqs_by p rd h x).
Proof.
  intro A. eapply Forall_impl; [|apply reqs_by_ok, A]. intros q [_ H]. exact H.
Qed.

Lemma assign_now t rd h x st : t = true \/ is_rw (w_phase st) = true \/ code x <> 0 ->
  all_accepted (asked_by (w_phase st) rd h x) ->
  fst (assign t rd h x st) =
  WSt (w_phase st) (w_calls st) (w_cb st) (w_log st ++ asked_by (w_phase st) rd h x).
Proof.
  intros T A. rewrite assign_reqs, schedule_all_now.
  - cbn [fst]. now rewrite reqs_by_entries.
  - destruct T as [T|[T|T]]; auto. right. right. unfold reqs_by.
    destruct (is_ro (w_phase st)); [constructor|]. destruct (h_const h); [constructor|].
    destruct (wanted rd h x); [|constructor]. apply Forall_forall. intros q I.
    unfold mk_reqs in I. apply in_map_iff in I. destruct I as (y & <- & _). cbn [q_act].
    rewrite is_deposit_code by apply act_of_real. rewrite act_of_code. now apply Z.eqb_neq.
  - now apply reqs_by_ok2.
Qed.

Lemma wrun_now t ops : forall st,
  t = true \/ (is_rw (w_phase st) = true /\ forallb (fun o => negb (is_fire o)) ops = true) ->
  all_accepted (asked (w_phase st) ops) ->
  w_log (wrun t ops st) = w_log st ++ asked (w_phase st) ops /\
  w_calls (wrun t ops st) = w_calls st.
Proof.
  unfold wrun. induction ops as [|o ops IH]; intros st T A.
  - cbn [fold_left asked]. rewrite app_nil_r. auto.
  - cbn [fold_left]. rewrite asked_cons in *.
    assert (S : forall rd h x, all_accepted (asked_by (w_phase st) rd h x) ->
      fst (assign t rd h x st) =
      WSt (w_phase st) (w_calls st) (w_cb st) (w_log st ++ asked_by (w_phase st) rd h x)).
    { intros. apply assign_now; auto. destruct T as [T|[T _]]; auto. }
    destruct o as [rd h x|rd h x|p]; cbn [wstep].
    + apply Forall_app in A. destruct A as [A1 A2]. rewrite (S rd h x A1).
      rewrite app_assoc. apply (IH (WSt (w_phase st) (w_calls st) (w_cb st) _)); [|exact A2].
      cbn [forallb] in T. destruct T as [T|[T1 T2]]; [now left|right].
      apply andb_true_iff in T2. split; [exact T1|apply T2].
    + rewrite immediate_of_eq. apply Forall_app in A. destruct A as [A1 A2]. rewrite (S rd h _ A1).
      rewrite app_assoc. apply (IH (WSt (w_phase st) (w_calls st) (w_cb st) _)); [|exact A2].
      cbn [forallb] in T. destruct T as [T|[T1 T2]]; [now left|right].
      apply andb_true_iff in T2. split; [exact T1|apply T2].
    + destruct T as [->|[_ T]]; [|discriminate T].
      assert (E : fst (fire true p st) = WSt p (w_calls st) (w_cb st) (w_log st)).
      { unfold fire, apply_scheduled_writes. now destruct (is_rw p). }
      rewrite E. apply (IH (WSt p (w_calls st) (w_cb st) (w_log st))); auto.
Qed.

(** * Invariants of every run, whatever is assigned *)
Definition winv (st : wst) : Prop :=
  (w_calls st <> [] -> w_cb st = true) /\ NoDup (map q_hid (w_calls st)) /\
  Forall (fun q => act_value (q_act q) = 0) (w_calls st).

Lemma pop_incl h l : incl (calls_pop h l) l.
Proof. intros q I. unfold calls_pop in I. apply filter_In in I. apply I. Qed.

Lemma winv_write q st : winv st -> winv (fst (write_func q st)).
Proof.
  intros (A & B & C). destruct (write_func_keeps q st) as (_ & E1 & E2). unfold winv. rewrite E1, E2. auto.
Qed.

Lemma winv_schedule t q st : winv st -> real_act (q_act q) -> winv (fst (schedule_write t q st)).
Proof.
  intros W R. unfold schedule_write. destruct t; [now apply winv_write|].
  destruct (is_rw (w_phase st)); [now apply winv_write|].
  destruct (is_deposit (q_act q)) eqn:D; [|now apply winv_write].
  destruct W as (A & B & C). cbn [fst]. unfold winv. cbn [w_calls w_cb]. split; [auto|]. split.
  - rewrite map_app. cbn [map]. apply (NoDup_Add (a := q_hid q) (l := map q_hid (calls_pop (q_hid q) (w_calls st)))).
    + rewrite <- (app_nil_r (map q_hid (calls_pop _ _))) at 1. apply Add_app.
    + split.
      * clear -B. unfold calls_pop. induction (w_calls st) as [|x l IH]; cbn [filter map]; [constructor|].
        inversion B as [|? ? N B']; subst. destruct (Nat.eqb (q_hid x) (q_hid q)); cbn [negb map]; [auto|].
        constructor; [|auto]. intro I. apply N. apply in_map_iff in I. destruct I as (y & E & I).
        apply filter_In in I. rewrite <- E. apply in_map, I.
      * intro I. apply in_map_iff in I. destruct I as (y & E & I). unfold calls_pop in I.
        apply filter_In in I. destruct I as [_ I]. rewrite E, Nat.eqb_refl in I. discriminate.
  - apply Forall_app. split.
    + apply Forall_forall. intros y I. rewrite Forall_forall in C. apply C. now apply (pop_incl (q_hid q)).
    + constructor; [|constructor]. rewrite is_deposit_code in D by exact R. now apply Z.eqb_eq.
Qed.

Lemma winv_schedule_all t qs : forall st, winv st -> Forall (fun q => real_act (q_act q)) qs ->
  winv (fst (schedule_all t qs st)).
Proof.
  induction qs as [|q qs IH]; intros st W F; cbn [schedule_all]; [exact W|].
  inversion F; subst. pose proof (winv_schedule t q st W H1) as W1.
  destruct (schedule_write t q st) as [st1 [e|]]; [exact W1|]. cbn [fst] in W1. now apply IH.
Qed.

Lemma reqs_by_real p rd h x : Forall (fun q => real_act (q_act q)) (reqs_by p rd h x).
Proof.
  unfold reqs_by. destruct (is_ro p); [constructor|]. destruct (h_const h); [constructor|].
  destruct (wanted rd h x); [|constructor]. apply Forall_forall. intros q I.
  unfold mk_reqs in I. apply in_map_iff in I. destruct I as (y & <- & _). apply act_of_real.
Qed.

Lemma apply_loop_keeps l : forall st, w_calls (fst (apply_loop l st)) = w_calls st /\
  w_cb (fst (apply_loop l st)) = w_cb st /\ w_phase (fst (apply_loop l st)) = w_phase st.
Proof.
  induction l as [|q l IH]; intro st; cbn [apply_loop]; [auto|].
  destruct (write_func_keeps q st) as (E0 & E1 & E2).
  destruct (write_func q st) as [st1 [e|]]; cbn [fst] in *; [auto|].
  destruct (IH st1) as (F1 & F2 & F3). rewrite F1, F2, F3. auto.
Qed.

Lemma winv_step t o st : winv st -> winv (fst (wstep t o st)).
Proof.
  intro W. destruct o as [rd h x|rd h x|p]; cbn [wstep].
  - rewrite assign_reqs. apply winv_schedule_all; [exact W|apply reqs_by_real].
  - rewrite immediate_of_eq, assign_reqs. apply winv_schedule_all; [exact W|apply reqs_by_real].
  - unfold fire. set (st1 := WSt p _ _ _). assert (W1 : winv st1) by exact W.
    destruct (is_rw p); [|exact W1]. unfold apply_scheduled_writes. destruct t; [exact W1|].
    destruct (apply_loop_keeps (w_calls st1) st1) as (E1 & E2 & _).
    destruct (apply_loop (w_calls st1) st1) as [st2 [e|]]; cbn [fst] in *.
    + unfold winv. rewrite E1, E2. exact W1.
    + unfold winv. cbn [w_calls w_cb map]. split; [congruence|]. split; constructor.
Qed.

Lemma winv_run t ops : forall st, winv st -> winv (wrun t ops st).
Proof.
  unfold wrun. induction ops as [|o ops IH]; intros st W; cbn [fold_left]; [exact W|].
  apply IH. now apply winv_step.
Qed.

Lemma winv0 : winv wst0.
Proof. unfold winv, wst0. cbn. split; [congruence|]. split; constructor. Qed.

Lemma C40_flag_pf t ops : let st := wrun t ops wst0 in
  (w_calls st <> [] -> w_cb st = true) /\ NoDup (map q_hid (w_calls st)).
Proof. cbv zeta. destruct (winv_run t ops wst0 winv0) as (A & B & _). auto. Qed.

(** In the ReadWrite phase nothing is queued, if no write was refused. *)
Definition rinv (st : wst) : Prop :=
  Forall (fun q => bind_check (q_val q) = None) (w_calls st) /\
  (is_rw (w_phase st) = true -> w_calls st = []).

Lemma rinv_schedule q st : rinv st -> bind_check (q_val q) = None ->
  snd (schedule_write false q st) = None /\ rinv (fst (schedule_write false q st)).
Proof.
  intros [A B] C. unfold schedule_write. destruct (is_rw (w_phase st)) eqn:P.
  - unfold write_func. rewrite C. split; [reflexivity|]. unfold rinv. cbn [fst w_calls w_phase]. auto.
  - destruct (is_deposit (q_act q)).
    + cbn [fst snd]. split; [reflexivity|]. unfold rinv. cbn [w_calls w_phase]. split.
      * apply Forall_app. split; [|auto]. apply Forall_forall. intros y I. rewrite Forall_forall in A.
        apply A. now apply (pop_incl (q_hid q)).
      * congruence.
    + unfold write_func. rewrite C. split; [reflexivity|]. unfold rinv. cbn [fst w_calls w_phase].
      split; [exact A|congruence].
Qed.

Lemma rinv_schedule_all qs : forall st, rinv st -> Forall (fun q => bind_check (q_val q) = None) qs ->
  rinv (fst (schedule_all false qs st)).
Proof.
  induction qs as [|q qs IH]; intros st R F; cbn [schedule_all]; [exact R|].
  inversion F; subst. destruct (rinv_schedule q st R H1) as [N R1].
  destruct (schedule_write false q st) as [st1 oe]. cbn [fst snd] in *. subst oe. now apply IH.
Qed.

Lemma rinv_run ops : forall st, rinv st -> all_accepted (asked (w_phase st) ops) ->
  rinv (wrun false ops st).
Proof.
  unfold wrun. induction ops as [|o ops IH]; intros st R A; cbn [fold_left]; [exact R|].
  rewrite asked_cons in A.
  assert (S : forall rd h x, all_accepted (asked_by (w_phase st) rd h x) ->
    rinv (fst (assign false rd h x st)) /\ w_phase (fst (assign false rd h x st)) = w_phase st).
  { intros rd h x AA. rewrite assign_reqs. split; [|apply schedule_all_phase].
    apply rinv_schedule_all; [exact R|now apply reqs_by_ok2]. }
  destruct o as [rd h x|rd h x|p]; cbn [wstep].
  - apply Forall_app in A. destruct A as [A1 A2]. destruct (S rd h x A1) as [S1 S2].
    apply IH; [exact S1|]. now rewrite S2.
  - rewrite immediate_of_eq. apply Forall_app in A. destruct A as [A1 A2].
    destruct (S rd h (immediate_of x) A1) as [S1 S2]. apply IH; [exact S1|]. now rewrite S2.
  - assert (Q : rinv (fst (fire false p st)) /\ w_phase (fst (fire false p st)) = p).
    { unfold fire. destruct (is_rw p) eqn:P.
      - unfold apply_scheduled_writes. cbn [w_calls]. rewrite apply_loop_ok by apply R.
        cbn [fst w_phase w_calls]. split; [|reflexivity]. unfold rinv. cbn [w_calls w_phase]. auto.
      - cbn [fst w_phase]. split; [|reflexivity]. unfold rinv. cbn [w_calls w_phase].
        split; [apply R|congruence]. }
    destruct Q as [Q1 Q2]. apply IH; [exact Q1|]. now rewrite Q2.
Qed.

Lemma C40_rw_empty_pf ops : all_accepted (asked PhOther ops) ->
  w_phase (wrun false ops wst0) = PhReadWrite -> w_calls (wrun false ops wst0) = [].
Proof.
  intros A P. assert (R0 : rinv wst0) by (unfold rinv, wst0; cbn; auto).
  destruct (rinv_run ops wst0 R0 A) as [_ H]. apply H. now rewrite P.
Qed.

(** * Conversions (C41) *)
Lemma bin_fmt_bits n z : (0 < n)%nat -> 0 <= z < 2 ^ Z.of_nat n ->
  bin_fmt n z = Ok (map logic_chr (bits n z)).
Proof.
  intros N H. unfold bin_fmt. rewrite format_bits by lia. now rewrite Nat2Z.id.
Qed.

Lemma min_signed_eq n : (0 < n)%nat -> min_signed n = - 2 ^ (Z.of_nat n - 1).
Proof. destruct n; [lia|]. intros _. cbn [min_signed]. do 2 f_equal. lia. Qed.
Lemma max_signed_eq n : (0 < n)%nat -> max_signed n = 2 ^ (Z.of_nat n - 1) - 1.
Proof. destruct n; [lia|]. intros _. cbn [max_signed]. do 2 f_equal. lia. Qed.

Lemma pow_double n : (0 < n)%nat -> 2 ^ Z.of_nat n = 2 * 2 ^ (Z.of_nat n - 1).
Proof. intro H. rewrite <- Z.pow_succ_r by lia. f_equal. lia. Qed.

Lemma pow_pos n : 0 < 2 ^ Z.of_nat n.
Proof. apply Z.pow_pos_nonneg; lia. Qed.
Lemma pow_pos1 n : (0 < n)%nat -> 0 < 2 ^ (Z.of_nat n - 1).
Proof. intro. apply Z.pow_pos_nonneg; lia. Qed.

Lemma bits_wrap n z : bits n (z + 2 ^ Z.of_nat n) = bits n z.
Proof. apply bits_add_pow. lia. Qed.

(** Adding 2^n to a negative number and formatting gives its low bits. *)
Lemma wrap_fmt n z : (0 < n)%nat -> - 2 ^ (Z.of_nat n - 1) <= z < 2 ^ Z.of_nat n ->
  bin_fmt n (if z <? 0 then z + 2 ^ Z.of_nat n else z) = Ok (map logic_chr (bits n z)).
Proof.
  intros N H. pose proof (pow_double n N). pose proof (pow_pos1 n N).
  destruct (Z.ltb_spec z 0).
  - rewrite bin_fmt_bits by lia. now rewrite bits_wrap.
  - rewrite bin_fmt_bits by lia. reflexivity.
Qed.

Lemma C41_logicarray_int_pf n z : (0 < n)%nat ->
  conv (KLogicArray n) (PInt z) =
  if (- 2 ^ (Z.of_nat n - 1) <=? z) && (z <? 2 ^ Z.of_nat n)
  then Ok (if (n <=? 32)%nat then SInt z else SStr (map logic_chr (bits n z)))
  else Err ValueError.
Proof.
  intro N. cbn [conv conv_logicarray]. rewrite (min_signed_eq n N).
  replace (z <=? 2 ^ Z.of_nat n - 1) with (z <? 2 ^ Z.of_nat n)
    by (destruct (Z.ltb_spec z (2 ^ Z.of_nat n)), (Z.leb_spec z (2 ^ Z.of_nat n - 1)); lia || reflexivity).
  destruct (Z.leb_spec (- 2 ^ (Z.of_nat n - 1)) z); [|reflexivity].
  destruct (Z.ltb_spec z (2 ^ Z.of_nat n)); [|reflexivity]. cbn [andb negb].
  destruct (n <=? 32)%nat; [reflexivity|].
  rewrite wrap_fmt by (auto; lia). cbn [bind]. rewrite map_length, bits_length, Nat.eqb_refl. reflexivity.
Qed.

Lemma in_bounds_eq n signed z : (0 < n)%nat ->
  (min_val n signed <=? z) && (z <=? max_val n signed) = true <-> in_bounds n signed z.
Proof.
  intro N. unfold min_val, max_val, in_bounds. rewrite (min_signed_eq n N), (max_signed_eq n N).
  rewrite andb_true_iff, !Z.leb_le.
  destruct signed as [|[p|p|]|p]; cbn [Z.eqb Pos.eqb]; lia.
Qed.

Lemma bounds_wide n signed z : (0 < n)%nat -> in_bounds n signed z ->
  - 2 ^ (Z.of_nat n - 1) <= z < 2 ^ Z.of_nat n.
Proof.
  intros N. pose proof (pow_double n N). pose proof (pow_pos1 n N). unfold in_bounds.
  destruct signed as [|[p|p|]|p]; lia.
Qed.

Lemma C41_integer_pf n signed z : (0 < n)%nat ->
  (in_bounds n signed z ->
   conv (KInteger n signed) (PInt z) =
   Ok (if (n <=? 32)%nat then SInt z else SStr (map logic_chr (bits n z)))) /\
  (~ in_bounds n signed z -> conv (KInteger n signed) (PInt z) = Err ValueError).
Proof.
  intro N. cbn [conv conv_integer]. split; intro B.
  - rewrite (proj2 (in_bounds_eq n signed z N) B). cbn [negb]. destruct (n <=? 32)%nat; [reflexivity|].
    rewrite wrap_fmt; [reflexivity|exact N|now apply (bounds_wide n signed)].
  - destruct ((min_val n signed <=? z) && (z <=? max_val n signed)) eqn:E; [|reflexivity].
    apply (in_bounds_eq n signed z N) in E. contradiction.
Qed.

Lemma C41_enum_pf n signed z : (0 < n)%nat ->
  (in_bounds n signed z -> (n <= 32)%nat \/ 0 <= z ->
   conv (KEnum n signed) (PInt z) =
   Ok (if (n <=? 32)%nat then SInt z else SStr (map logic_chr (bits n z)))) /\
  (~ in_bounds n signed z -> conv (KEnum n signed) (PInt z) = Err ValueError).
Proof.
  intro N. cbn [conv conv_enum]. split; intro B.
  - intro C. rewrite (proj2 (in_bounds_eq n signed z N) B). cbn [negb].
    destruct (Nat.leb_spec n 32); [reflexivity|]. destruct C as [C|C]; [lia|].
    pose proof (bounds_wide n signed z N B). rewrite bin_fmt_bits by lia. reflexivity.
  - destruct ((min_val n signed <=? z) && (z <=? max_val n signed)) eqn:E; [|reflexivity].
    apply (in_bounds_eq n signed z N) in E. contradiction.
Qed.

Lemma int32_bits n z : (n <= 32)%nat -> bits n (int32 z) = bits n z.
Proof.
  intro N. unfold int32.
  assert (E : exists k, (z + 2 ^ 31) mod 2 ^ 32 - 2 ^ 31 = z + k * 2 ^ 32).
  { exists (- ((z + 2 ^ 31) / 2 ^ 32)). pose proof (Z.div_mod (z + 2 ^ 31) (2 ^ 32)). lia. }
  destruct E as [k ->]. rewrite <- (bits_mod n (z + k * 2 ^ 32)), <- (bits_mod n z). f_equal.
  replace (k * 2 ^ 32) with ((k * 2 ^ (32 - Z.of_nat n)) * 2 ^ Z.of_nat n).
  - apply Z_mod_plus_full.
  - rewrite <- Z.mul_assoc, <- Z.pow_add_r by lia. do 2 f_equal. lia.
Qed.

Lemma logics_of_chars v : logics_of_str (map logic_chr v) = Ok v.
Proof.
  unfold logics_of_str. induction v as [|l v IH]; cbn [map map_result]; [reflexivity|].
  rewrite IH. destruct l; reflexivity.
Qed.

Lemma delivered_ok n z : delivered n (if (n <=? 32)%nat then SInt z else SStr (map logic_chr (bits n z))) =
  Some (bits n z).
Proof.
  destruct (Nat.leb_spec n 32); cbn [delivered].
  - now rewrite int32_bits.
  - now rewrite logics_of_chars.
Qed.

Lemma chars_no_nul v : existsb (Z.eqb 0) (map logic_chr v) = false.
Proof. induction v as [|l v IH]; cbn [map existsb]; [reflexivity|]. rewrite IH. destruct l; reflexivity. Qed.

Lemma bind_ok_int n z : - 2 ^ (Z.of_nat n - 1) <= z < 2 ^ Z.of_nat n -> (0 < n)%nat ->
  bind_check (if (n <=? 32)%nat then SInt z else SStr (map logic_chr (bits n z))) = None.
Proof.
  intros H N. destruct (Nat.leb_spec n 32); cbn [bind_check].
  - assert (2 ^ Z.of_nat n <= 2 ^ 32) by (apply Z.pow_le_mono_r; lia).
    pose proof (pow_double n N).
    destruct (Z.leb_spec (- 2 ^ 63) z); destruct (Z.ltb_spec z (2 ^ 63)); try reflexivity; exfalso; lia.
  - now rewrite chars_no_nul.
Qed.

Lemma C41_logicarray_str_pf n s : conv (KLogicArray n) (PStr s) =
  let t := upper (filter (fun c => negb (c =? 95)) s) in
  if forallb is_literal_char t && Nat.eqb (length t) n then Ok (SStr t) else Err ValueError.
Proof.
  cbn [conv conv_logicarray]. cbv zeta. destruct (forallb _ _); cbn [negb andb]; [|reflexivity].
  destruct (Nat.eqb _ n); reflexivity.
Qed.

Lemma larr_get_str rx a : is_larr rx a -> snd (la_get_str a) = Ok (map logic_chr (elems a)) /\
  la_len a = Z.of_nat (length (elems a)).
Proof.
  intro H. pose proof (rep_canon rx a H) as R. destruct (get_str_rep _ _ R) as (a' & E & _).
  rewrite E. split; [reflexivity|]. now rewrite (rep_len _ _ R).
Qed.

Lemma C41_logicarray_larr_pf rx n a : is_larr rx a ->
  conv (KLogicArray n) (PLarr a) =
  (if Nat.eqb (length (elems a)) n then Ok (SStr (map logic_chr (elems a))) else Err ValueError) /\
  conv KLogic (PLarr a) =
  (if Nat.eqb (length (elems a)) 1 then Ok (SStr (map logic_chr (elems a))) else Err ValueError).
Proof.
  intro H. destruct (larr_get_str rx a H) as [E L]. cbn [conv conv_logicarray conv_logic].
  rewrite E, L. cbn [bind]. rewrite map_length. split.
  - destruct (Nat.eqb _ n); reflexivity.
  - destruct (Nat.eqb_spec (length (elems a)) 1) as [->|N]; [reflexivity|].
    destruct (Z.eqb_spec (Z.of_nat (length (elems a))) 1); [lia|reflexivity].
Qed.

(** Reading back what was written. *)
Lemma mod_cong_cases m r z : 0 < m -> r mod m = z mod m -> exists k, r = z + k * m.
Proof.
  intros M H. exists (r / m - z / m). pose proof (Z.div_mod r m). pose proof (Z.div_mod z m). nia.
Qed.

Lemma py_int2_bits n z : (0 < n)%nat -> py_int2 (map logic_chr (bits n z)) = Ok (z mod 2 ^ Z.of_nat n).
Proof.
  intro N. assert (E : map lh (bits n z) = bits n z).
  { clear N. induction n as [|n IH]; cbn [bits map]; [reflexivity|]. rewrite IH. destruct (Z.testbit z (Z.of_nat n)); reflexivity. }
  rewrite <- E, py_int2_chars.
  assert (NE : bits n z <> []) by (destruct n; [lia|discriminate]).
  rewrite (s_int0_strong _ NE (bits_strong n z)), unsigned_bits. reflexivity.
Qed.

Lemma C41_roundtrip_pf n signed rd id z : (0 < n)%nat -> signed = 0 \/ signed = 1 ->
  in_bounds n signed z -> reads_back n rd id z -> get_int n signed rd id = Ok z.
Proof.
  intros N S B R. unfold get_int, reads_back in *.
  pose proof (pow_double n N) as D. pose proof (pow_pos1 n N) as Q.
  assert (G : exists res, (if (n <=? 32)%nat then Ok (rd_long rd id) else py_int2 (rd_binstr rd id)) = Ok res /\
    res mod 2 ^ Z.of_nat n = z mod 2 ^ Z.of_nat n /\ - 2 ^ (Z.of_nat n - 1) <= res < 2 ^ Z.of_nat n).
  { destruct (n <=? 32)%nat.
    - exists (rd_long rd id). split; [reflexivity|exact R].
    - rewrite R, py_int2_bits by exact N. eexists. split; [reflexivity|].
      rewrite Z.mod_mod by lia. split; [reflexivity|].
      pose proof (Z.mod_pos_bound z (2 ^ Z.of_nat n)). lia. }
  destruct G as (res & -> & C & BR). cbn [bind]. f_equal.
  destruct (mod_cong_cases (2 ^ Z.of_nat n) res z ltac:(lia) C) as [k K].
  set (m := 2 ^ Z.of_nat n) in *. set (q := 2 ^ (Z.of_nat n - 1)) in *.
  assert (BZ : - q <= z < m) by (destruct S as [->| ->]; unfold in_bounds in B; lia).
  assert (KK : k = -1 \/ k = 0 \/ k = 1) by nia.
  destruct S as [->| ->]; unfold max_val, in_bounds in *; cbn [Z.eqb Pos.eqb andb].
  - destruct (Z.ltb_spec (2 ^ Z.of_nat n - 1) res); [fold m; subst m q; lia|].
    destruct (Z.ltb_spec res 0); destruct KK as [->|[->| ->]]; fold m; subst m q; lia.
  - rewrite (max_signed_eq n N). fold q. destruct (Z.ltb_spec (q - 1) res);
      destruct KK as [->|[->| ->]]; fold m; subst m q; lia.
Qed.

Lemma C41_fixed_pf n v : (exists s, conv (KFixedString n) v = Ok s) <->
  exists m b, v = PBytes m b /\ (length b <= n)%nat.
Proof.
  cbn [conv conv_fixed]. unfold conv_fixed. split.
  - intros [s H]. destruct v; cbn [py_length bind] in H; try discriminate;
      try (destruct (_ <? _) in H; discriminate).
    exists mut, b. split; [reflexivity|]. destruct (Z.ltb_spec (Z.of_nat n) (py_len b)); [discriminate|].
    unfold py_len in *. lia.
  - intros (m & b & -> & L). cbn [py_length bind conv_string].
    destruct (Z.ltb_spec (Z.of_nat n) (py_len b)); [unfold py_len in *; lia|]. eauto.
Qed.

(** * Array handles (C42) *)
Lemma C42_writes_pf t h a v qs st : requests h v qs ->
  set_value t h a v st = schedule_all t (mk_reqs a qs) st.
Proof.
  intro R. rewrite set_value_plan, (requests_plan _ _ _ R). cbn [fst snd].
  destruct (schedule_all t (mk_reqs a qs) st) as [st1 [e|]]; reflexivity.
Qed.

Lemma C42_complete_pf t h a v st : wf_val v -> snd (set_value t h a v st) = None ->
  exists qs, requests h v qs /\ fst (set_value t h a v st) = fst (schedule_all t (mk_reqs a qs) st).
Proof.
  intros W H. rewrite set_value_plan in *. destruct (plan h v) as [qs oe] eqn:P. cbn [fst snd] in *.
  exists qs. destruct (schedule_all t (mk_reqs a qs) st) as [st1 [e|]] eqn:S; cbn [fst snd] in *; [discriminate|].
  subst oe. split; [|reflexivity]. now apply plan_requests.
Qed.

Lemma handle_range_span l r d : d <> RNoDir -> exists rg, handle_range l r d = Ok rg /\ wf rg /\
  range_iter rg = span l (match d with RUp => To | _ => Downto end) r.
Proof.
  intro H. destruct d; [| |congruence]; cbn [handle_range].
  - rewrite (mk_range_str l (lit "to") r To eq_refl).
    eexists. split; [reflexivity|].
    assert (W : wf (PyRange l (r + 1) 1)) by (unfold wf; cbn; auto).
    split; [exact W|]. rewrite iter_wf by exact W. unfold left_of, right_of, dir_of. cbn.
    f_equal. lia.
  - rewrite (mk_range_str l (lit "downto") r Downto eq_refl).
    eexists. split; [reflexivity|].
    assert (W : wf (PyRange l (r + -1) (-1))) by (unfold wf; cbn; auto).
    split; [exact W|]. rewrite iter_wf by exact W. unfold left_of, right_of, dir_of. cbn.
    f_equal. lia.
Qed.

Lemma C42_length_pf t a c l r d sub v n rg st : py_length v = Ok n -> handle_range l r d = Ok rg ->
  n <> range_len rg -> set_value t (HArr c l r d sub) a v st = (st, Some ValueError).
Proof.
  intros L R N. cbn [set_value]. rewrite L, R. destruct (Z.eqb_spec n (range_len rg)); [contradiction|].
  reflexivity.
Qed.

Lemma map_result_nth {A B} (f : A -> result B) l ys : map_result f l = Ok ys ->
  length ys = length l /\
  forall k x, nth_error l k = Some x -> exists y, f x = Ok y /\ nth_error ys k = Some y.
Proof.
  revert ys; induction l as [|x l IH]; intros ys H; cbn [map_result] in H.
  - inversion H; subst. split; [reflexivity|]. intros [|k] y E; discriminate.
  - destruct (f x) as [y|e] eqn:E; cbn [bind] in H; [|discriminate].
    destruct (map_result f l) as [ys'|e] eqn:M; cbn [bind] in H; [|discriminate].
    inversion H; subst. destruct (IH ys' eq_refl) as [L N]. split; [cbn [length]; lia|].
    intros [|k] z Z; cbn [nth_error] in *; [inversion Z; subst; eauto|auto].
Qed.

Lemma C42_get_pf rd c l r d sub v : get_value rd (HArr c l r d sub) = Ok v ->
  exists rg vs, handle_range l r d = Ok rg /\ v = PArr vs rg /\
    Z.of_nat (length vs) = range_len rg /\
    forall i, In i (range_iter rg) ->
      exists ch x, sub_at i sub = Ok ch /\ get_value rd ch = Ok x /\ array_get (Array vs rg) i = Ok x.
Proof.
  cbn [get_value]. destruct (handle_range l r d) as [rg|e] eqn:R; cbn [bind]; [|discriminate].
  destruct (map_result _ (range_iter rg)) as [vs|e] eqn:M; cbn [bind]; [|discriminate].
  intro H. inversion H; subst. exists rg, vs. split; [reflexivity|]. split; [reflexivity|].
  assert (W : wf rg) by (unfold handle_range in R; destruct d; try discriminate; eapply mk_range_wf; eassumption).
  destruct (map_result_nth _ _ _ M) as [L N].
  assert (L2 : Z.of_nat (length vs) = range_len rg) by (rewrite L; now apply iter_len).
  split; [exact L2|]. intros i I. apply In_nth_error in I. destruct I as [k K].
  destruct (N k i K) as (y & E & Y).
  rewrite (sub_at_map (get_value rd) i sub) in E.
  destruct (sub_at i sub) as [ch|e]; cbn [bind] in E; [|discriminate].
  exists ch, y. split; [reflexivity|]. split; [exact E|].
  unfold array_get. cbn [a_range].
  assert (IX : translate_index (Array vs rg) i = Ok (Z.of_nat k)).
  { unfold translate_index. cbn [a_range].
    assert (P : range_index rg i None None = Ok (Z.of_nat k)).
    { apply index_spec; [exact W|]. rewrite Nat2Z.id. split; [lia|exact K]. }
    rewrite P. reflexivity. }
  rewrite IX. cbn [bind a_value]. unfold list_get.
  assert (k < length vs)%nat by (apply nth_error_Some; congruence).
  destruct (Z.ltb_spec (Z.of_nat k) 0); [lia|]. destruct (Z.ltb_spec (Z.of_nat k) 0); [lia|].
  rewrite Nat2Z.id, Y. reflexivity.
Qed.

Lemma C41_freeze_pf rd id :
  (forall n, length (rd_binstr rd id) = n ->
     bind (leaf_get (KLogicArray n) rd id) (conv (KLogicArray n)) = Ok (SStr (rd_binstr rd id))) /\
  bind (leaf_get KReal rd id) (conv KReal) = Ok (SReal (rd_real rd id)) /\
  bind (leaf_get KString rd id) (conv KString) = Ok (SBytes false (rd_str rd id)) /\
  (forall l, rd_binstr rd id = [logic_chr l] ->
     bind (leaf_get KLogic rd id) (conv KLogic) = Ok (SStr [logic_chr l])).
Proof.
  repeat (apply conj).
  - intros n L. cbn [leaf_get]. unfold from_handle.
    set (s := rd_binstr rd id) in *. unfold downto_range.
    rewrite (mk_range_str _ (lit "downto") _ Downto eq_refl). cbn [bind conv conv_logicarray la_get_str la_str snd].
    rewrite L, Nat.eqb_refl. reflexivity.
  - reflexivity.
  - reflexivity.
  - intros l E. cbn [leaf_get]. rewrite E. destruct l; reflexivity.
Qed.

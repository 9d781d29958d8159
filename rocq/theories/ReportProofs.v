(** Invariants of the report connections. *)
From Verif Require Import Base ReportModel ReportSpec.
From Coq Require Import PeanoNat Lia Sorted.

Lemma put_eq {A} (f : nat -> A) n a : put f n a n = a.
Proof. unfold put. now rewrite Nat.eqb_refl. Qed.
Lemma put_neq {A} (f : nat -> A) n a k : k <> n -> put f n a k = f k.
Proof. unfold put. intro H. now rewrite (proj2 (Nat.eqb_neq k n) H). Qed.

Lemma sub_refl {A} (l : list A) : sub l l.
Proof. induction l; [apply sub_nil|now apply sub_take]. Qed.
Lemma sub_nil_l {A} (l : list A) : sub [] l.
Proof. induction l; [apply sub_nil|now apply sub_skip]. Qed.
Lemma sub_app {A} (a b c d : list A) : sub a b -> sub c d -> sub (a ++ c) (b ++ d).
Proof. induction 1; cbn; intros; [assumption|apply sub_skip; auto|apply sub_take; auto]. Qed.
Lemma sub_app_r {A} (a b c : list A) : sub a b -> sub a (b ++ c).
Proof. intro H. rewrite <- (app_nil_r a). apply sub_app; auto using sub_nil_l. Qed.
Lemma sub_app_l {A} (a b c : list A) : sub a b -> sub a (c ++ b).
Proof. intro H. apply (sub_app [] c a b); auto using sub_nil_l. Qed.
Lemma sub_trans {A} (a b c : list A) : sub a b -> sub b c -> sub a c.
Proof.
  intros H K. revert a H. induction K as [|x b c K IH|x b c K IH]; intros a H; [exact H|apply sub_skip; auto|].
  inversion H; subst; [apply sub_skip|apply sub_take]; auto.
Qed.
Lemma sub_prefix {A} (a b c : list A) : sub (a ++ b) c -> sub a c.
Proof. intro H. eapply sub_trans; [|exact H]. apply sub_app_r, sub_refl. Qed.
Lemma shuffle_sub {A} (a b c : list A) : shuffle a b c -> sub a c.
Proof. induction 1; [apply sub_nil|now apply sub_take|now apply sub_skip]. Qed.
Lemma shuffle_snoc_l {A} (a b c : list A) x : shuffle a b c -> shuffle (a ++ [x]) b (c ++ [x]).
Proof. induction 1; cbn; repeat constructor; auto. Qed.
Lemma shuffle_snoc_r {A} (a b c : list A) x : shuffle a b c -> shuffle a (b ++ [x]) (c ++ [x]).
Proof. induction 1; cbn; repeat constructor; auto. Qed.

Lemma of_app p a b : of p (a ++ b) = of p a ++ of p b.
Proof. unfold of. now rewrite filter_app, map_app. Qed.
Lemma of_one p q d : of p [(q, d)] = if Nat.eqb q p then [d] else [].
Proof. unfold of. cbn. now destruct (Nat.eqb q p). Qed.

(** The connections which the receiver has still to read, in their order. *)
Definition hand (s : st) : list cid := match s_receiver s with TRecv c => [c] | _ => [] end.
Definition queue (s : st) : list cid := hand s ++ s_backlog s.
Definition reading (p : process) (x : content) : list data := match x with Full (Some m) => of p [m] | _ => [] end.
Definition flight (p : process) (f : cid -> content) (l : list cid) : list data := flat_map (fun c => reading p (f c)) l.
Definition in_hand (p : process) (s : st) : list data := match s_receiver s with TLog m => of p [m] | _ => [] end.
Definition stream (p : process) (s : st) : list data :=
  of p (s_delivered s) ++ in_hand p s ++ flight p (s_conns s) (queue s).

Definition connected (x : sender) (c : cid) : Prop := match x with SConnected _ _ c' => c' = c | _ => False end.
Definition stopping (x : main) (c : cid) : Prop := match x with MStop c' => c' = c | _ => False end.
Definition owned (s : st) (c : cid) : Prop := (exists p, connected (s_senders s p) c) \/ stopping (s_main s) c.

Record wf (s : st) : Prop := {
  w_sorted : StronglySorted lt (queue s);
  w_below : Forall (fun c => c < s_next s) (queue s);
  w_owned : forall c, owned s c -> c < s_next s /\ s_conns s c = Waiting;
  w_apart : forall p q c, connected (s_senders s p) c -> connected (s_senders s q) c -> p = q;
  w_main : forall p c, connected (s_senders s p) c -> ~ stopping (s_main s) c;
  w_waiting : forall c, c < s_next s -> s_conns s c = Waiting -> owned s c;
  w_newest : forall p c c' d, connected (s_senders s p) c -> c' < s_next s -> s_conns s c' = Full (Some (p, d)) -> c' < c;
  w_lock : s_lock s = true <-> s_main s = MIn \/ exists m, s_receiver s = TIn m;
  w_one : ~ (s_main s = MIn /\ exists m, s_receiver s = TIn m) }.

Lemma flight_app p f a b : flight p f (a ++ b) = flight p f a ++ flight p f b.
Proof. apply flat_map_app. Qed.
Lemma flight_ext p f g l : (forall c, In c l -> reading p (f c) = reading p (g c)) -> flight p f l = flight p g l.
Proof. unfold flight. induction l as [|c l IH]; cbn; intro H; [reflexivity|]. rewrite H, IH; auto. Qed.
Lemma flight_none p f l : (forall c, In c l -> reading p (f c) = []) -> flight p f l = [].
Proof. unfold flight. induction l as [|c l IH]; cbn; intro H; [reflexivity|]. rewrite H, IH; auto. Qed.

Lemma sorted_split a c b : StronglySorted lt (a ++ c :: b) -> Forall (fun x => x < c) a /\ Forall (fun x => c < x) b.
Proof.
  induction a as [|x a IH]; cbn; intro H; inversion H as [|? ? H1 H2]; subst.
  - split; auto.
  - destruct (IH H1) as [A B]. split; auto. constructor; auto. apply Forall_app in H2. destruct H2 as [_ H2]. now inversion H2.
Qed.
Lemma sorted_snoc l n : StronglySorted lt l -> Forall (fun c => c < n) l -> StronglySorted lt (l ++ [n]).
Proof.
  induction 1 as [|x l S IH F]; cbn; intro B; [repeat constructor|]. inversion B; subst. constructor; auto.
  apply Forall_app; split; auto.
Qed.
Lemma sorted_tl c l : StronglySorted lt (c :: l) -> StronglySorted lt l.
Proof. intro H. now inversion H. Qed.

Lemma wf_init a b : wf (init a b).
Proof.
  constructor; cbn; try (repeat constructor; fail).
  - intros c [(p & [])|[]].
  - intros p q c [].
  - intros p c [].
  - intros c L. lia.
  - intros p c c' d [].
  - split; [discriminate|intros [H|(m & H)]; discriminate H].
  - intros [H _]. discriminate H.
Qed.

(** Steps which leave connections, senders and the stop connection alone. *)
Lemma wf_same s s' : wf s -> s_next s' = s_next s -> s_conns s' = s_conns s ->
  (forall p c, connected (s_senders s' p) c <-> connected (s_senders s p) c) ->
  (forall c, stopping (s_main s') c <-> stopping (s_main s) c) ->
  StronglySorted lt (queue s') -> Forall (fun c => c < s_next s) (queue s') ->
  (s_lock s' = true <-> s_main s' = MIn \/ exists m, s_receiver s' = TIn m) ->
  ~ (s_main s' = MIn /\ exists m, s_receiver s' = TIn m) -> wf s'.
Proof.
  intros W N C S M Q B L O. destruct W as [W1 W2 W3 W4 W5 W6 W7 _ _].
  assert (OW : forall c, owned s' c <-> owned s c).
  { intro c. unfold owned. rewrite M. split; (intros [(p & H)|H]; [left; exists p; now apply S|now right]). }
  constructor; auto; rewrite ?N, ?C; auto.
  - intros c H. apply W3, OW, H.
  - intros p q c H K. apply S in H. apply S in K. eauto.
  - intros p c H K. apply S in H. apply M in K. eapply W5; eauto.
  - intros c H K. apply OW. auto.
  - intros p c c' d H. apply S in H. eauto.
Qed.

Lemma connected_put f p x q c : connected (put f p x q) c <-> (q = p /\ connected x c) \/ (q <> p /\ connected (f q) c).
Proof.
  unfold put. destruct (Nat.eqb_spec q p) as [-> |N]; split; intro H; auto; destruct H as [[? ?]|[? ?]]; auto; contradiction.
Qed.
Lemma wf_connect_sender s p x d r : wf s -> s_senders s p = STry d r -> x = SConnected d r (s_next s) -> wf (set_sender p x (connect s)).
Proof.
  intros [W1 W2 W3 W4 W5 W6 W7 W8 W9] E ->. constructor; cbn [s_next s_conns s_backlog s_senders s_main s_lock s_receiver set_sender connect]; auto.
  - change (queue (set_sender p (SConnected d r (s_next s)) (connect s))) with (hand s ++ (s_backlog s ++ [s_next s])). rewrite app_assoc. apply sorted_snoc; auto.
  - change (queue (set_sender p (SConnected d r (s_next s)) (connect s))) with (hand s ++ (s_backlog s ++ [s_next s])). rewrite app_assoc.
    apply Forall_app; split; [|repeat constructor]. eapply Forall_impl; [|exact W2]. cbn. lia.
  - intros c [(q & H)|H].
    + cbn in H. apply connected_put in H. destruct H as [[-> H]|[N H]].
      * cbn in H. subst c. rewrite put_eq. split; auto.
      * destruct (W3 c) as [A B]; [left; eauto|]. split; [lia|]. rewrite put_neq; auto. lia.
    + cbn in H. destruct (W3 c) as [A B]; [right; auto|]. split; [lia|]. rewrite put_neq; auto. lia.
  - intros a b c H K. apply connected_put in H. apply connected_put in K. cbn in H, K.
    destruct H as [[-> H]|[N H]], K as [[-> K]|[M K]]; auto.
    + subst c. destruct (W3 (s_next s)) as [A _]; [left; eauto|lia].
    + subst c. destruct (W3 (s_next s)) as [A _]; [left; eauto|lia].
    + eauto.
  - intros q c H K. apply connected_put in H. destruct H as [[-> H]|[N H]].
    + cbn in H. subst c. destruct (W3 (s_next s)) as [A _]; [right; auto|lia].
    + eapply W5; eauto.
  - intros c L H. destruct (Nat.eq_dec c (s_next s)) as [-> |N].
    + left. exists p. cbn. apply connected_put. left. split; reflexivity.
    + rewrite put_neq in H by auto. destruct (W6 c) as [(q & K)|K]; [lia|auto| |].
      * left. exists q. cbn. apply connected_put. right. split; [|auto]. intros ->. rewrite E in K. exact K.
      * right. exact K.
  - intros q c c' d' H L K. apply connected_put in H. destruct (Nat.eq_dec c' (s_next s)) as [-> |N]; [rewrite put_eq in K; discriminate K|].
    rewrite put_neq in K by auto. destruct H as [[-> H]|[M H]]; [cbn in H; lia|]. eapply W7; eauto. lia.
Qed.
Lemma wf_connect_main s : wf s -> s_main s = MRun -> wf (set_main (MStop (s_next s)) (connect s)).
Proof.
  intros [W1 W2 W3 W4 W5 W6 W7 W8 W9] E. constructor; cbn [s_next s_conns s_backlog s_senders s_main s_lock s_receiver set_main connect].
  - change (queue (set_main (MStop (s_next s)) (connect s))) with (hand s ++ (s_backlog s ++ [s_next s])). rewrite app_assoc. apply sorted_snoc; auto.
  - change (queue (set_main (MStop (s_next s)) (connect s))) with (hand s ++ (s_backlog s ++ [s_next s])). rewrite app_assoc.
    apply Forall_app; split; [|repeat constructor]. eapply Forall_impl; [|exact W2]. cbn. lia.
  - intros c [(q & H)|H].
    + cbn in H. destruct (W3 c) as [A B]; [left; eauto|]. split; [lia|]. rewrite put_neq; auto. lia.
    + cbn in H. subst c. rewrite put_eq. split; auto.
  - eauto.
  - intros q c H K. cbn in K. subst c. destruct (W3 (s_next s)) as [A _]; [left; eauto|lia].
  - intros c L H. destruct (Nat.eq_dec c (s_next s)) as [-> |N]; [right; reflexivity|].
    rewrite put_neq in H by auto. destruct (W6 c) as [K|K]; [lia|auto|left; exact K|]. rewrite E in K. destruct K.
  - intros q c c' d' H L K. destruct (Nat.eq_dec c' (s_next s)) as [-> |N]; [rewrite put_eq in K; discriminate K|].
    rewrite put_neq in K by auto. eapply W7; eauto. lia.
  - rewrite W8, E. split; (intros [H|H]; [discriminate H|auto]).
  - intros [H _]. discriminate H.
Qed.
(** A sender writes to its connection, or loses it. *)
Lemma wf_write_sender s p x y d r c : wf s -> s_senders s p = SConnected d r c -> (forall c', ~ connected x c') -> y <> Waiting ->
  (forall q e, y = Full (Some (q, e)) -> q = p) -> wf (set_sender p x (set_conn c y s)).
Proof.
  intros [W1 W2 W3 W4 W5 W6 W7 W8 W9] E X Y Z. assert (OC : connected (s_senders s p) c) by (rewrite E; reflexivity).
  destruct (W3 c (or_introl (ex_intro _ p OC))) as [CN CW].
  constructor; cbn [s_next s_conns s_backlog s_senders s_main s_lock s_receiver set_sender set_conn]; auto.
  - intros c' [(q & H)|H]; cbn in H.
    + apply connected_put in H. destruct H as [[-> H]|[N H]]; [destruct (X _ H)|].
      destruct (W3 c') as [A B]; [left; eauto|]. split; auto. rewrite put_neq; auto. intros ->. apply N. eauto.
    + destruct (W3 c') as [A B]; [right; auto|]. split; auto. rewrite put_neq; auto. intros ->. eapply W5; eauto.
  - intros a b c' H K. apply connected_put in H. apply connected_put in K.
    destruct H as [[-> H]|[N H]]; [destruct (X _ H)|]. destruct K as [[-> K]|[M K]]; [destruct (X _ K)|]. eauto.
  - intros q c' H K. apply connected_put in H. destruct H as [[-> H]|[N H]]; [destruct (X _ H)|]. eapply W5; eauto.
  - intros c' L H. destruct (Nat.eq_dec c' c) as [-> |N]; [rewrite put_eq in H; contradiction|]. rewrite put_neq in H by auto.
    destruct (W6 c' L H) as [(q & K)|K]; [|right; exact K]. left. exists q. cbn. apply connected_put. right. split; auto.
    intros ->. rewrite E in K. cbn in K. congruence.
  - intros q c1 c' d' H L K. apply connected_put in H. destruct H as [[-> H]|[N H]]; [destruct (X _ H)|].
    destruct (Nat.eq_dec c' c) as [-> |M]; [rewrite put_eq in K; apply Z in K; contradiction|]. rewrite put_neq in K by auto. eauto.
Qed.
Lemma wf_write_main s c : wf s -> s_main s = MStop c -> wf (set_main MJoin (set_conn c (Full None) s)).
Proof.
  intros [W1 W2 W3 W4 W5 W6 W7 W8 W9] E. assert (OC : stopping (s_main s) c) by (rewrite E; reflexivity).
  destruct (W3 c (or_intror OC)) as [CN CW].
  constructor; cbn [s_next s_conns s_backlog s_senders s_main s_lock s_receiver set_main set_conn]; auto.
  - intros c' [(q & H)|H]; cbn in H; [|destruct H].
    destruct (W3 c') as [A B]; [left; eauto|]. split; auto. rewrite put_neq; auto. intros ->. eapply W5; eauto.
  - intros c' L H. destruct (Nat.eq_dec c' c) as [-> |N]; [rewrite put_eq in H; discriminate H|]. rewrite put_neq in H by auto.
    destruct (W6 c' L H) as [K|K]; [left; exact K|]. rewrite E in K. cbn in K. congruence.
  - intros q c1 c' d' H L K. destruct (Nat.eq_dec c' c) as [-> |M]; [rewrite put_eq in K; discriminate K|]. rewrite put_neq in K by auto. eauto.
  - rewrite W8, E. split; (intros [H|H]; [discriminate H|auto]).
  - intros [H _]. discriminate H.
Qed.

Lemma failed_eq p d r s : failed p d r s = match r with S r' => set_sender p (STry d r') s | O => log_given_up (p, d) (set_sender p SIdle s) end.
Proof. reflexivity. Qed.
Lemma wf_failed_same s p d r : wf s -> (forall c, ~ connected (s_senders s p) c) -> wf (failed p d r s).
Proof.
  intros W X. destruct r; (eapply wf_same; [exact W|reflexivity|reflexivity| |reflexivity|exact (w_sorted _ W)|exact (w_below _ W)|exact (w_lock _ W)|exact (w_one _ W)]);
    (intros q c; cbn; rewrite connected_put; cbn; split; [intros [[_ []]|[_ H]]; exact H|intro H; right; split; [intros ->; exact (X _ H)|exact H]]).
Qed.
Lemma wf_sender_same s p x : wf s -> (forall c, ~ connected (s_senders s p) c) -> (forall c, ~ connected x c) -> wf (set_sender p x s).
Proof.
  intros W X Y. eapply wf_same; [exact W|reflexivity|reflexivity| |reflexivity|exact (w_sorted _ W)|exact (w_below _ W)|exact (w_lock _ W)|exact (w_one _ W)].
  intros q c; cbn; rewrite connected_put; cbn; split; [intros [[_ H]|[_ H]]; [destruct (Y _ H)|exact H]|intro H; right; split; [intros ->; exact (X _ H)|exact H]].
Qed.
Lemma wf_logged m s : wf s -> wf (log_logged m s).
Proof. intros []. constructor; auto. Qed.
Lemma wf_sent m s : wf s -> wf (log_sent m s).
Proof. intros []. constructor; auto. Qed.
Lemma wf_given_up m s : wf s -> wf (log_given_up m s).
Proof. intros []. constructor; auto. Qed.
Lemma wf_delivered m s : wf s -> wf (log_delivered m s).
Proof. intros []. constructor; auto. Qed.

(** Steps of the receiver and of the lock. *)
Lemma wf_receive s s' : wf s -> s_next s' = s_next s -> s_conns s' = s_conns s -> s_senders s' = s_senders s ->
  (forall c, stopping (s_main s') c <-> stopping (s_main s) c) ->
  (exists l, queue s = l ++ queue s') ->
  (s_lock s' = true <-> s_main s' = MIn \/ exists m, s_receiver s' = TIn m) ->
  ~ (s_main s' = MIn /\ exists m, s_receiver s' = TIn m) -> wf s'.
Proof.
  intros W N C S M (l & Q) L O. apply (wf_same s); auto.
  - intros p c. now rewrite S.
  - pose proof (w_sorted _ W) as K. rewrite Q in K. clear - K. induction l; auto. inversion K; auto.
  - pose proof (w_below _ W) as K. rewrite Q in K. apply Forall_app in K. apply K.
Qed.

Lemma wf_step s l s' : wf s -> step s l = Some s' -> wf s'.
Proof.
  intros W H. pose proof (w_lock _ W) as WL. pose proof (w_one _ W) as WO.
  destruct l as [p d|p ok|p ok|p ok|p| | |lost|ok| |ok|ok| | | | |]; cbn [step] in H.
  - destruct (s_senders s p) eqn:E; try discriminate H. injection H as <-. apply wf_logged, wf_sender_same; auto.
    intros c. rewrite E. auto.
  - destruct (s_senders s p) as [|d r|? ? ?|? ? ?|] eqn:E; try discriminate H. destruct ok.
    + destruct (s_listening s); [|discriminate H]. injection H as <-. eapply wf_connect_sender; eauto.
    + injection H as <-. apply wf_failed_same; auto. intros c. rewrite E. auto.
  - destruct (s_senders s p) as [|? ?|d r c|? ? ?|] eqn:E; try discriminate H. destruct ok; injection H as <-.
    + apply wf_sent. eapply wf_write_sender; eauto; [discriminate|]. intros q e K. congruence.
    + destruct r as [|r]; cbn [failed]; [apply wf_given_up|]; (eapply wf_write_sender; eauto; discriminate).
  - destruct (s_senders s p) as [|? ?|? ? ?|d r c|] eqn:E; try discriminate H. destruct ok; injection H as <-.
    + apply wf_sender_same; auto. intros c'. rewrite E. auto.
    + apply wf_failed_same; auto. intros c'. rewrite E. auto.
  - injection H as <-. destruct (s_senders s p) as [|? ?|d r c|? ? ?|] eqn:E;
      try (apply wf_sender_same; auto; intros c'; rewrite E; auto; fail).
    eapply wf_write_sender; eauto; discriminate.
  - destruct (s_receiver s) eqn:E; try discriminate H. destruct (s_own s); [|discriminate H]. injection H as <-.
    apply (wf_receive s); auto; cbn; try tauto.
    + unfold queue, hand. cbn. rewrite E. exists []. reflexivity.
    + rewrite WL. split; (intros [K|(m & K)]; [auto|discriminate K]).
    + intros [_ (m & K)]. discriminate K.
  - destruct (s_receiver s) eqn:E; try discriminate H. destruct (s_backlog s) as [|c rest] eqn:B; [discriminate H|]. injection H as <-.
    apply (wf_receive s); auto; cbn; try tauto.
    + unfold queue, hand. cbn. rewrite E, B. exists []. reflexivity.
    + rewrite WL. split; (intros [K|(m & K)]; [auto|discriminate K]).
    + intros [_ (m & K)]. discriminate K.
  - destruct (s_receiver s) eqn:E; try discriminate H. injection H as <-.
    apply (wf_receive s); auto; try (destruct lost; cbn; tauto).
    + unfold queue, hand. rewrite E. destruct lost; cbn; [|exists []; reflexivity]. destruct (s_backlog s) as [|c b]; [exists []|exists [c]]; reflexivity.
    + assert (X : s_main (set_receiver TNotify (if lost then set_backlog (List.tl (s_backlog s)) s else s)) = s_main s) by (destruct lost; reflexivity).
      assert (Y : s_lock (set_receiver TNotify (if lost then set_backlog (List.tl (s_backlog s)) s else s)) = s_lock s) by (destruct lost; reflexivity).
      rewrite X, Y, WL. split; (intros [K|(m & K)]; [auto|discriminate K]).
    + intros [_ (m & K)]. discriminate K.
  - destruct (s_receiver s) as [| |c| | | | |] eqn:E; try discriminate H.
    assert (G : forall t, (forall m, t <> TIn m) -> match t with TRecv _ => False | _ => True end -> wf (set_receiver t s)).
    { intros t T1 T2. apply (wf_receive s); auto; cbn; try tauto.
      - unfold queue, hand. cbn. rewrite E. destruct t; try contradiction; exists [c]; reflexivity.
      - rewrite WL. split; (intros [K|(m & K)]; [auto|]); [discriminate K|destruct (T1 _ K)].
      - intros [_ (m & K)]. destruct (T1 _ K). }
    destruct (s_conns s c) as [|m|]; [discriminate H| |injection H as <-; apply G; [discriminate|exact Logic.I]].
    destruct ok; injection H as <-; [destruct m|]; (apply G; [discriminate|exact Logic.I]).
  - destruct (s_receiver s) as [| | |m| | | |] eqn:E; try discriminate H. destruct (s_lock s) eqn:L; [discriminate H|]. injection H as <-.
    apply wf_delivered. apply (wf_receive s); auto; cbn; try tauto.
    + unfold queue, hand. cbn. rewrite E. exists []. reflexivity.
    + split; auto. intros _. right. eauto.
    + intros [K _]. assert (false = true) by (apply WL; auto). discriminate.
  - destruct (s_receiver s) as [| | | |m| | |] eqn:E; try discriminate H. injection H as <-.
    apply (wf_receive s); auto; cbn; try tauto.
    + unfold queue, hand. cbn. rewrite E. destruct ok; exists []; reflexivity.
    + split; [discriminate|]. intros [K|(m' & K)]; [|destruct ok; discriminate K]. destruct WO. eauto.
    + intros [_ (m' & K)]. destruct ok; discriminate K.
  - destruct (s_receiver s) as [| | | | | | |] eqn:E; try discriminate H. injection H as <-.
    apply (wf_receive s); auto; cbn; try tauto.
    + unfold queue, hand. cbn. rewrite E. destruct ok; exists []; reflexivity.
    + rewrite WL. split; (intros [K|(m & K)]; [auto|]); [discriminate K|destruct ok; discriminate K].
    + intros [_ (m' & K)]. destruct ok; discriminate K.
  - destruct (s_main s) eqn:E; try discriminate H. destruct (s_lock s) eqn:L; [discriminate H|]. injection H as <-.
    apply (wf_receive s); auto; cbn; try (rewrite E; cbn; tauto).
    + exists []. reflexivity.
    + split; auto.
    + intros [_ K]. assert (false = true) by (apply WL; auto). discriminate.
  - destruct (s_main s) eqn:E; try discriminate H. injection H as <-.
    apply (wf_receive s); auto; cbn; try (rewrite E; cbn; tauto).
    + exists []. reflexivity.
    + split; [discriminate|]. intros [K|K]; [discriminate K|]. destruct WO. auto.
    + intros [K _]. discriminate K.
  - destruct (s_main s) eqn:E; try discriminate H. destruct (s_own s); injection H as <-; [now apply wf_connect_main|].
    apply (wf_receive s); auto; cbn; try (rewrite E; cbn; tauto).
    + exists []. reflexivity.
    + rewrite WL. split; (intros [K|K]; [discriminate K|auto]).
    + intros [K _]. discriminate K.
  - destruct (s_main s) eqn:E; try discriminate H. injection H as <-. now apply wf_write_main.
  - destruct (s_main s) eqn:E; try discriminate H.
    assert (G : s' = set_closed s) by (destruct (s_receiver s); try discriminate H; congruence). subst s'. clear H.
    apply (wf_receive s); auto; cbn; try (rewrite E; cbn; tauto).
    + exists []. reflexivity.
    + rewrite WL. split; (intros [K|K]; [discriminate K|auto]).
    + intros [K _]. discriminate K.
Qed.
Lemma wf_exec s ls s' : wf s -> exec s ls s' -> wf s'.
Proof. intros W H. induction H; eauto using wf_step. Qed.

(** What a step adds to the reports sent arrives at the end of the stream. *)
Definition lossy (l : label) : Prop := l = LAcceptError true \/ l = LRecv false \/ l = LNotified false.
Definition present (s : st) : Prop := forall q c, connected (s_senders s q) c -> In c (queue s).
Definition grows (p : process) (s s' : st) (l : label) : Prop :=
  exists e, of p (s_sent s') = of p (s_sent s) ++ e /\ sub (stream p s') (stream p s ++ e) /\
    (~ lossy l -> present s -> stream p s' = stream p s ++ e).

Lemma grows_same p s s' l : s_sent s' = s_sent s -> stream p s' = stream p s -> grows p s s' l.
Proof. intros A B. exists []. rewrite A, B, !app_nil_r. repeat split; auto using sub_refl. Qed.
Lemma stream_same p s s' : s_delivered s' = s_delivered s -> s_receiver s' = s_receiver s -> s_backlog s' = s_backlog s ->
  (forall c, In c (queue s) -> reading p (s_conns s' c) = reading p (s_conns s c)) -> stream p s' = stream p s.
Proof.
  intros A B C D. unfold stream, in_hand, queue, hand in *. rewrite A, B, C in *. f_equal. f_equal. now apply flight_ext.
Qed.
Lemma failed_fields p d r s : let s' := failed p d r s in s_sent s' = s_sent s /\ s_delivered s' = s_delivered s /\ s_receiver s' = s_receiver s /\
  s_backlog s' = s_backlog s /\ s_conns s' = s_conns s /\ s_main s' = s_main s /\ s_logged s' = s_logged s /\ s_next s' = s_next s.
Proof. destruct r; repeat split. Qed.
Lemma reading_put_waiting p f c y c' : f c = Waiting -> (forall m, y = Full (Some m) -> of p [m] = []) -> reading p (put f c y c') = reading p (f c').
Proof.
  intros A B. unfold put. destruct (Nat.eqb_spec c' c) as [-> |N]; [|reflexivity]. rewrite A. destruct y as [|[m|]|]; cbn; auto.
  specialize (B m eq_refl). exact B.
Qed.
Lemma flight_connect p f l n : Forall (fun c => c < n) l -> flight p (put f n Waiting) (l ++ [n]) = flight p f l.
Proof.
  intro B. rewrite flight_app. replace (flight p (put f n Waiting) [n]) with (@nil data) by (cbn; rewrite put_eq; reflexivity).
  rewrite app_nil_r. apply flight_ext. intros c I. rewrite Forall_forall in B. specialize (B c I). rewrite put_neq; auto. lia.
Qed.
Lemma stream_connect p s s' : wf s -> s_delivered s' = s_delivered s -> s_receiver s' = s_receiver s -> s_backlog s' = s_backlog s ++ [s_next s] ->
  s_conns s' = put (s_conns s) (s_next s) Waiting -> stream p s' = stream p s.
Proof.
  intros W A B C D. unfold stream, in_hand, queue, hand. rewrite A, B, C, D. f_equal. f_equal. rewrite app_assoc. apply flight_connect.
  exact (w_below _ W).
Qed.
Lemma stream_step p s l s' : wf s -> step s l = Some s' -> grows p s s' l.
Proof.
  intros W H. destruct l as [q d|q ok|q ok|q ok|q| | |lost|ok| |ok|ok| | | | |]; cbn [step] in H.
  - destruct (s_senders s q) eqn:E; try discriminate H. injection H as <-. now apply grows_same.
  - destruct (s_senders s q) as [|d r|? ? ?|? ? ?|] eqn:E; try discriminate H. destruct ok.
    + destruct (s_listening s); [|discriminate H]. injection H as <-. apply grows_same; [reflexivity|].
      now apply stream_connect.
    + injection H as <-. destruct (failed_fields q d r s) as (F1 & F2 & F3 & F4 & F5 & _). apply grows_same; auto. apply stream_same; auto.
      intros. now rewrite F5.
  - destruct (s_senders s q) as [|? ?|d r c|? ? ?|] eqn:E; try discriminate H.
    assert (OC : connected (s_senders s q) c) by (rewrite E; reflexivity).
    destruct (w_owned _ W c (or_introl (ex_intro _ q OC))) as [CN CW].
    destruct ok; injection H as <-.
    + exists (of p [(q, d)]). split; [apply of_app|]. destruct (Nat.eq_dec q p) as [-> |N].
      2:{ assert (Z : of p [(q, d)] = []) by (rewrite of_one; now rewrite (proj2 (Nat.eqb_neq q p) N)).
          rewrite Z, app_nil_r. assert (X : stream p (log_sent (q, d) (set_sender q (SSent d r c) (set_conn c (Full (Some (q, d))) s))) = stream p s).
          { apply stream_same; auto. intros c' I. cbn. apply reading_put_waiting; auto. intros m M. congruence. }
          rewrite X. split; auto using sub_refl. }
      destruct (in_dec Nat.eq_dec c (queue s)) as [I|I].
      * assert (X : stream p (log_sent (p, d) (set_sender p (SSent d r c) (set_conn c (Full (Some (p, d))) s))) = stream p s ++ of p [(p, d)]).
        { change (of p (s_delivered s) ++ in_hand p s ++ flight p (put (s_conns s) c (Full (Some (p, d)))) (queue s) = stream p s ++ of p [(p, d)]).
          unfold stream. rewrite <- !app_assoc. f_equal. f_equal.
          destruct (in_split _ _ I) as (l1 & l2 & Q). pose proof (w_sorted _ W) as S. rewrite Q in S. apply sorted_split in S. destruct S as [S1 S2].
          rewrite Forall_forall in S1, S2. rewrite Q, !flight_app.
          change (c :: l2) with ([c] ++ l2). rewrite !flight_app. unfold flight at 2 5. cbn [flat_map]. rewrite put_eq, CW. cbn [reading].
          rewrite !app_nil_r. rewrite (flight_ext _ (put (s_conns s) c (Full (Some (p, d)))) (s_conns s) l1).
          2:{ intros c' I'. rewrite put_neq; auto. specialize (S1 c' I'). lia. }
          assert (Z : forall f, (forall c', In c' l2 -> f c' = s_conns s c') -> flight p f l2 = []).
          { intros f F. apply flight_none. intros c' I'. rewrite (F _ I'). destruct (s_conns s c') as [|[[q' d']|]|] eqn:K; auto. cbn [reading]. rewrite of_one.
            destruct (Nat.eqb_spec q' p) as [-> |]; auto. exfalso.
            assert (L : c' < c).
            { eapply (w_newest _ W); eauto. pose proof (w_below _ W) as B. rewrite Forall_forall in B. apply B. rewrite Q. apply in_or_app. right. now right. }
            specialize (S2 c' I'). lia. }
          rewrite (Z (s_conns s)) by auto. rewrite Z. 2:{ intros c' I'. rewrite put_neq; auto. specialize (S2 c' I'). lia. }
          cbn [app]. now rewrite !app_nil_r. }
        rewrite X. split; auto using sub_refl.
      * assert (X : stream p (log_sent (p, d) (set_sender p (SSent d r c) (set_conn c (Full (Some (p, d))) s))) = stream p s).
        { apply stream_same; auto. intros c' I'. cbn. rewrite put_neq; auto. intros ->. contradiction. }
        rewrite X. split; [apply sub_app_r, sub_refl|]. intros _ PR. destruct (I (PR _ _ OC)).
    + destruct (failed_fields q d r (set_conn c Broken s)) as (F1 & F2 & F3 & F4 & F5 & _). apply grows_same; [now rewrite F1|]. apply stream_same; auto.
      intros c' _. rewrite F5. cbn. apply reading_put_waiting; auto. discriminate.
  - destruct (s_senders s q) as [|? ?|? ? ?|d r c|] eqn:E; try discriminate H. destruct ok; injection H as <-; [now apply grows_same|].
    destruct (failed_fields q d r s) as (F1 & F2 & F3 & F4 & F5 & _). apply grows_same; auto. apply stream_same; auto. intros. now rewrite F5.
  - injection H as <-. destruct (s_senders s q) as [|? ?|d r c|? ? ?|] eqn:E; try now apply grows_same.
    assert (OC : connected (s_senders s q) c) by (rewrite E; reflexivity).
    destruct (w_owned _ W c (or_introl (ex_intro _ q OC))) as [CN CW].
    apply grows_same; [reflexivity|]. apply stream_same; auto. intros c' _. cbn. apply reading_put_waiting; auto. discriminate.
  - destruct (s_receiver s) eqn:E; try discriminate H. destruct (s_own s); [|discriminate H]. injection H as <-. apply grows_same; [reflexivity|].
    unfold stream, in_hand, queue, hand. cbn. now rewrite E.
  - destruct (s_receiver s) eqn:E; try discriminate H. destruct (s_backlog s) as [|c rest] eqn:B; [discriminate H|]. injection H as <-.
    apply grows_same; [reflexivity|]. unfold stream, in_hand, queue, hand. cbn. now rewrite E, B.
  - destruct (s_receiver s) eqn:E; try discriminate H. injection H as <-. destruct lost.
    + exists []. rewrite !app_nil_r. split; [reflexivity|]. split; [|intro L; destruct L; left; reflexivity].
      unfold stream, in_hand, queue, hand. cbn. rewrite E. cbn. apply sub_app; [apply sub_refl|].
      destruct (s_backlog s) as [|c b]; [apply sub_refl|]. cbn. apply sub_app_l, sub_refl.
    + apply grows_same; [reflexivity|]. unfold stream, in_hand, queue, hand. cbn. now rewrite E.
  - destruct (s_receiver s) as [| |c| | | | |] eqn:E; try discriminate H.
    destruct (s_conns s c) as [|m|] eqn:C; [discriminate H| |].
    + destruct ok; injection H as <-.
      * apply grows_same; [reflexivity|]. unfold stream, in_hand, queue, hand. cbn. rewrite E. destruct m as [m|]; cbn; rewrite C; reflexivity.
      * exists []. rewrite !app_nil_r. split; [reflexivity|]. split; [|intro L; destruct L; right; left; reflexivity].
        unfold stream, in_hand, queue, hand. cbn. rewrite E. cbn. apply sub_app; [apply sub_refl|]. rewrite C. apply sub_app_l, sub_refl.
    + injection H as <-. apply grows_same; [reflexivity|]. unfold stream, in_hand, queue, hand. cbn. rewrite E. cbn. now rewrite C.
  - destruct (s_receiver s) as [| | |m| | | |] eqn:E; try discriminate H. destruct (s_lock s) eqn:L; [discriminate H|]. injection H as <-.
    apply grows_same; [reflexivity|]. unfold stream, in_hand, queue, hand. cbn [s_receiver s_delivered s_conns s_backlog log_delivered set_lock set_receiver]. rewrite E, of_app, <- app_assoc. reflexivity.
  - destruct (s_receiver s) as [| | | |m| | |] eqn:E; try discriminate H. injection H as <-. apply grows_same; [reflexivity|].
    unfold stream, in_hand, queue, hand. cbn. rewrite E. destruct ok; reflexivity.
  - destruct (s_receiver s) as [| | | | | | |] eqn:E; try discriminate H. injection H as <-. apply grows_same; [reflexivity|].
    unfold stream, in_hand, queue, hand. cbn. rewrite E. destruct ok; reflexivity.
  - destruct (s_main s) eqn:E; try discriminate H. destruct (s_lock s); [discriminate H|]. injection H as <-. now apply grows_same.
  - destruct (s_main s) eqn:E; try discriminate H. injection H as <-. now apply grows_same.
  - destruct (s_main s) eqn:E; try discriminate H. destruct (s_own s); injection H as <-; [|now apply grows_same].
    apply grows_same; [reflexivity|].
    now apply stream_connect.
  - destruct (s_main s) as [| |c| |] eqn:E; try discriminate H. injection H as <-.
    assert (OC : stopping (s_main s) c) by (rewrite E; reflexivity).
    destruct (w_owned _ W c (or_intror OC)) as [CN CW].
    apply grows_same; [reflexivity|]. apply stream_same; auto. intros c' _. cbn. apply reading_put_waiting; auto. discriminate.
  - destruct (s_main s) eqn:E; try discriminate H.
    assert (G : s' = set_closed s) by (destruct (s_receiver s); try discriminate H; congruence). subst s'. now apply grows_same.
Qed.

Lemma present_step s l s' : wf s -> ~ lossy l -> present s -> step s l = Some s' -> present s'.
Proof.
  intros W L P H.
  destruct l as [q d|q ok|q ok|q ok|q| | |lost|ok| |ok|ok| | | | |]; cbn [step] in H.
  - destruct (s_senders s q) eqn:E; try discriminate H. injection H as <-. intros p c K. cbn in K. apply connected_put in K.
    destruct K as [[_ []]|[_ K]]. exact (P p c K).
  - destruct (s_senders s q) as [|d r|? ? ?|? ? ?|] eqn:E; try discriminate H. destruct ok.
    + destruct (s_listening s); [|discriminate H]. injection H as <-. intros p c K. cbn in K. apply connected_put in K.
      change (In c (hand s ++ (s_backlog s ++ [s_next s]))). rewrite app_assoc. apply in_or_app.
      destruct K as [[-> K]|[_ K]]; [cbn in K; subst c; right; left; reflexivity|left; exact (P p c K)].
    + injection H as <-. intros p c K. assert (Q : queue (failed q d r s) = queue s) by (destruct r; reflexivity). rewrite Q.
      destruct r; cbn in K; apply connected_put in K; (destruct K as [[_ []]|[_ K]]; exact (P p c K)).
  - destruct (s_senders s q) as [|? ?|d r c|? ? ?|] eqn:E; try discriminate H. injection H as <-. intros p c' K.
    match goal with |- In _ (queue ?x) => assert (Q : queue x = queue s) by (destruct ok, r; reflexivity) end. rewrite Q.
    destruct ok, r; cbn in K; apply connected_put in K; (destruct K as [[_ []]|[_ K]]; exact (P p c' K)).
  - destruct (s_senders s q) as [|? ?|? ? ?|d r c|] eqn:E; try discriminate H. injection H as <-. intros p c' K.
    match goal with |- In _ (queue ?x) => assert (Q : queue x = queue s) by (destruct ok, r; reflexivity) end. rewrite Q.
    destruct ok, r; cbn in K; apply connected_put in K; (destruct K as [[_ []]|[_ K]]; exact (P p c' K)).
  - injection H as <-. intros p c' K.
    match goal with |- In _ (queue ?x) => assert (Q : queue x = queue s) by (destruct (s_senders s q); reflexivity) end. rewrite Q.
    destruct (s_senders s q); cbn in K; apply connected_put in K; (destruct K as [[_ []]|[_ K]]; exact (P p c' K)).
  - destruct (s_receiver s) eqn:E; try discriminate H. destruct (s_own s); [|discriminate H]. injection H as <-. intros p c K.
    specialize (P p c K). unfold queue, hand in *. rewrite E in P. exact P.
  - destruct (s_receiver s) eqn:E; try discriminate H. destruct (s_backlog s) as [|c rest] eqn:B; [discriminate H|]. injection H as <-.
    intros p c' K. specialize (P p c' K). unfold queue, hand in *. rewrite E, B in P. exact P.
  - destruct (s_receiver s) eqn:E; try discriminate H. injection H as <-. destruct lost; [destruct L; left; reflexivity|].
    intros p c K. specialize (P p c K). unfold queue, hand in *. rewrite E in P. exact P.
  - destruct (s_receiver s) as [| |c| | | | |] eqn:E; try discriminate H.
    assert (G : forall t, s_conns s c <> Waiting -> present (set_receiver t s)).
    { intros t NW p c' K. specialize (P p c' K). unfold queue, hand in *. rewrite E in P. destruct P as [-> |P].
      - destruct (w_owned _ W c') as [_ CW]; [left; exists p; exact K|contradiction].
      - apply in_or_app. now right. }
    destruct (s_conns s c) as [|m|] eqn:C; [discriminate H| |].
    + destruct ok; injection H as <-; apply G; discriminate.
    + injection H as <-. apply G; discriminate.
  - destruct (s_receiver s) as [| | |m| | | |] eqn:E; try discriminate H. destruct (s_lock s) eqn:LK; [discriminate H|]. injection H as <-.
    intros p c K. specialize (P p c K). unfold queue, hand in *. rewrite E in P. exact P.
  - destruct (s_receiver s) as [| | | |m| | |] eqn:E; try discriminate H. injection H as <-.
    intros p c K. specialize (P p c K). unfold queue, hand in *. rewrite E in P. apply in_or_app. right. exact P.
  - destruct (s_receiver s) as [| | | | | | |] eqn:E; try discriminate H. injection H as <-.
    intros p c K. specialize (P p c K). unfold queue, hand in *. rewrite E in P. apply in_or_app. right. exact P.
  - destruct (s_main s) eqn:E; try discriminate H. destruct (s_lock s); [discriminate H|]. injection H as <-. exact P.
  - destruct (s_main s) eqn:E; try discriminate H. injection H as <-. exact P.
  - destruct (s_main s) eqn:E; try discriminate H. destruct (s_own s); injection H as <-; [|exact P].
    intros p c K. change (In c (hand s ++ (s_backlog s ++ [s_next s]))). rewrite app_assoc. apply in_or_app. left. exact (P p c K).
  - destruct (s_main s) as [| |c| |] eqn:E; try discriminate H. injection H as <-. exact P.
  - destruct (s_main s) eqn:E; try discriminate H.
    assert (G : s' = set_closed s) by (destruct (s_receiver s); try discriminate H; congruence). subst s'. exact P.
Qed.

Lemma stream_sub p s ls s' : wf s -> sub (stream p s) (of p (s_sent s)) -> exec s ls s' -> sub (stream p s') (of p (s_sent s')).
Proof.
  intros W S H. revert W S. induction H as [|s l s1 ls s2 H E IH]; intros W S; auto.
  destruct (stream_step p s l s1 W H) as (e & A & B & _). apply IH; [eapply wf_step; eauto|]. rewrite A.
  eapply sub_trans; [exact B|]. apply sub_app; auto using sub_refl.
Qed.
Lemma lossless_cons l ls : lossless (l :: ls) -> ~ lossy l /\ lossless ls.
Proof.
  intros (A & B & C). split; [intros [-> |[-> | ->]]; [apply A|apply B|apply C]; now left|].
  repeat split; intro I; [apply A|apply B|apply C]; now right.
Qed.
Lemma lossless_app a b : lossless (a ++ b) -> lossless a /\ lossless b.
Proof.
  intros (A & B & C). split; (repeat split; intro I; [apply A|apply B|apply C]; apply in_or_app; auto).
Qed.
Lemma stream_eq p s ls s' : wf s -> present s -> stream p s = of p (s_sent s) -> lossless ls -> exec s ls s' ->
  stream p s' = of p (s_sent s') /\ present s'.
Proof.
  intros W P S L H. revert W P S L. induction H as [|s l s1 ls s2 H E IH]; intros W P S L; auto.
  apply lossless_cons in L. destruct L as [L1 L2].
  destruct (stream_step p s l s1 W H) as (e & A & _ & B). apply IH; auto; [eapply wf_step; eauto|eapply present_step; eauto|].
  rewrite A, B, S; auto.
Qed.

(** ** What a simulator logged, sent and gave up *)

Definition hist (p : process) (s : st) : Prop :=
  let sent := of p (s_sent s) in let given := of p (s_given_up s) in let logged := of p (s_logged s) in
  match s_senders s p with
  | SIdle | SSent _ _ _ => shuffle sent given logged
  | STry d _ | SConnected d _ _ => exists l, logged = l ++ [d] /\ shuffle sent given l
  | SGone => shuffle sent given logged \/ exists l d, logged = l ++ [d] /\ shuffle sent given l
  end.
Definition copies (l : list data) : list data := flat_map (fun d => repeat d (S RETRIES)) l.
Definition hist11 (p : process) (s : st) : Prop :=
  let sent := of p (s_sent s) in let logged := of p (s_logged s) in
  match s_senders s p with
  | SIdle | SGone => sub sent (copies logged)
  | STry d r | SConnected d r _ => r <= RETRIES /\ exists l, logged = l ++ [d] /\ sub sent (copies l ++ repeat d (RETRIES - r))
  | SSent d r _ => r <= RETRIES /\ exists l, logged = l ++ [d] /\ sub sent (copies l ++ repeat d (S RETRIES - r))
  end.
(** A step which is not one of the sender [p]. *)
Lemma step_other p s l s' : step s l = Some s' ->
  (match l with LReport q _ | LConnect q _ | LSend q _ | LClose q _ | LGone q => q <> p | _ => True end) ->
  s_senders s' p = s_senders s p /\ of p (s_sent s') = of p (s_sent s) /\ of p (s_given_up s') = of p (s_given_up s) /\
  of p (s_logged s') = of p (s_logged s).
Proof.
  intros H N.
  assert (X : forall q (d : data) l, q <> p -> of p (l ++ [(q, d)]) = of p l).
  { intros q d l' M. rewrite of_app, of_one, (proj2 (Nat.eqb_neq q p) M). apply app_nil_r. }
  assert (PP : forall q x, q <> p -> put (s_senders s) q x p = s_senders s p) by (intros; apply put_neq; auto).
  destruct l as [q d|q ok|q ok|q ok|q| | |lost|ok| |ok|ok| | | | |]; cbn [step] in H.
  - destruct (s_senders s q) eqn:E; try discriminate H. injection H as <-. cbn [s_senders s_sent s_given_up s_logged log_logged set_sender]. auto.
  - destruct (s_senders s q) as [|d r|? ? ?|? ? ?|] eqn:E; try discriminate H. destruct ok.
    + destruct (s_listening s); [|discriminate H]. injection H as <-. cbn [s_senders s_sent s_given_up s_logged connect set_sender]. auto.
    + injection H as <-. destruct r; cbn [failed s_senders s_sent s_given_up s_logged log_given_up set_sender]; auto.
  - destruct (s_senders s q) as [|? ?|d r c|? ? ?|] eqn:E; try discriminate H. injection H as <-.
    destruct ok, r; cbn [failed s_senders s_sent s_given_up s_logged log_given_up log_sent set_sender set_conn]; auto.
  - destruct (s_senders s q) as [|? ?|? ? ?|d r c|] eqn:E; try discriminate H. injection H as <-.
    destruct ok, r; cbn [failed s_senders s_sent s_given_up s_logged log_given_up set_sender]; auto.
  - injection H as <-. destruct (s_senders s q); cbn [s_senders s_sent s_given_up s_logged set_sender set_conn]; auto.
  - destruct (s_receiver s); try discriminate H. destruct (s_own s); [|discriminate H]. injection H as <-. auto.
  - destruct (s_receiver s); try discriminate H. destruct (s_backlog s); [discriminate H|]. injection H as <-. auto.
  - destruct (s_receiver s); try discriminate H. injection H as <-. destruct lost; auto.
  - destruct (s_receiver s) as [| |c| | | | |]; try discriminate H. destruct (s_conns s c); [discriminate H| |injection H as <-; auto].
    destruct ok; injection H as <-; auto.
  - destruct (s_receiver s); try discriminate H. destruct (s_lock s); [discriminate H|]. injection H as <-. auto.
  - destruct (s_receiver s); try discriminate H. injection H as <-. auto.
  - destruct (s_receiver s); try discriminate H. injection H as <-. auto.
  - destruct (s_main s); try discriminate H. destruct (s_lock s); [discriminate H|]. injection H as <-. auto.
  - destruct (s_main s); try discriminate H. injection H as <-. auto.
  - destruct (s_main s); try discriminate H. destruct (s_own s); injection H as <-; auto.
  - destruct (s_main s); try discriminate H. injection H as <-. auto.
  - destruct (s_main s); try discriminate H. destruct (s_receiver s); try discriminate H; injection H as <-; auto.
Qed.

Lemma of_snoc p (d : data) l : of p (l ++ [(p, d)]) = of p l ++ [d].
Proof. now rewrite of_app, of_one, Nat.eqb_refl. Qed.
Ltac own_fields := cbn [failed s_senders s_sent s_given_up s_logged log_given_up log_logged log_sent set_sender set_conn connect]; rewrite ?put_eq, ?of_snoc.
Lemma hist_step p s l s' : (forall q, l <> LClose q false) -> hist p s -> step s l = Some s' -> hist p s'.
Proof.
  intros CL K H.
  assert (D : (match l with LReport q _ | LConnect q _ | LSend q _ | LClose q _ | LGone q => q <> p | _ => True end) \/
    match l with LReport q _ | LConnect q _ | LSend q _ | LClose q _ | LGone q => q = p | _ => False end).
  { destruct l; auto; (match goal with q : process |- _ => destruct (Nat.eq_dec q p) end); auto. }
  destruct D as [D|D].
  { destruct (step_other p s l s' H D) as (A & B & C & E). unfold hist in *. rewrite A, B, C, E. exact K. }
  unfold hist in K. destruct l as [q d|q ok|q ok|q ok|q| | |lost|ok| |ok|ok| | | | |]; try contradiction; subst q; cbn [step] in H.
  - destruct (s_senders s p) eqn:E; try discriminate H. injection H as <-. unfold hist. own_fields. eauto.
  - destruct (s_senders s p) as [|d r|? ? ?|? ? ?|] eqn:E; try discriminate H. destruct K as (l & K1 & K2). destruct ok.
    + destruct (s_listening s); [|discriminate H]. injection H as <-. unfold hist. own_fields. eauto.
    + injection H as <-. unfold hist. destruct r; own_fields; [|eauto]. rewrite K1. now apply shuffle_snoc_r.
  - destruct (s_senders s p) as [|? ?|d r c|? ? ?|] eqn:E; try discriminate H. destruct K as (l & K1 & K2). injection H as <-. unfold hist.
    destruct ok; [own_fields; rewrite K1; now apply shuffle_snoc_l|]. destruct r; own_fields; [|eauto]. rewrite K1. now apply shuffle_snoc_r.
  - destruct (s_senders s p) as [|? ?|? ? ?|d r c|] eqn:E; try discriminate H. destruct ok; [|destruct (CL p eq_refl)]. injection H as <-.
    unfold hist. own_fields. exact K.
  - injection H as <-. unfold hist. destruct (s_senders s p) as [|d r|d r c|d r c|] eqn:E; own_fields; auto;
      (destruct K as (l & K1 & K2); right; eauto).
Qed.
Lemma hist_exec p s ls s' : clean ls -> hist p s -> exec s ls s' -> hist p s'.
Proof.
  intros C K H. revert C K. induction H as [|s l s1 ls s2 H E IH]; intros C K; auto. apply IH.
  - intros q I. apply (C q). now right.
  - eapply hist_step; eauto. intros q ->. apply (C q). now left.
Qed.

Lemma copies_app a b : copies (a ++ b) = copies a ++ copies b.
Proof. apply flat_map_app. Qed.
Lemma repeat_sub (d : data) m n : m <= n -> sub (repeat d m) (repeat d n).
Proof. intro L. replace n with (m + (n - m)) by lia. rewrite repeat_app. apply sub_app_r, sub_refl. Qed.
Lemma hist11_done (a l : list data) (d : data) n : n <= S RETRIES -> sub a (copies l ++ repeat d n) -> sub a (copies (l ++ [d])).
Proof.
  intros L K. eapply sub_trans; [exact K|]. rewrite copies_app. apply sub_app; [apply sub_refl|].
  change (copies [d]) with (repeat d (S RETRIES) ++ []). rewrite app_nil_r. now apply repeat_sub.
Qed.
Lemma hist11_step p s l s' : hist11 p s -> step s l = Some s' -> hist11 p s'.
Proof.
  intros K H.
  assert (D : (match l with LReport q _ | LConnect q _ | LSend q _ | LClose q _ | LGone q => q <> p | _ => True end) \/
    match l with LReport q _ | LConnect q _ | LSend q _ | LClose q _ | LGone q => q = p | _ => False end).
  { destruct l; auto; (match goal with q : process |- _ => destruct (Nat.eq_dec q p) end); auto. }
  destruct D as [D|D].
  { destruct (step_other p s l s' H D) as (A & B & C & E). unfold hist11 in *. rewrite A, B, E. exact K. }
  assert (ST : forall (x l : list data) d r, S r <= RETRIES -> sub x (copies l ++ repeat d (RETRIES - S r)) -> r <= RETRIES /\ sub x (copies l ++ repeat d (RETRIES - r))).
  { intros x l' d r L SX. split; [lia|]. eapply sub_trans; [exact SX|]. apply sub_app; [apply sub_refl|]. apply repeat_sub. lia. }
  unfold hist11 in K. destruct l as [q d|q ok|q ok|q ok|q| | |lost|ok| |ok|ok| | | | |]; try contradiction; subst q; cbn [step] in H.
  - destruct (s_senders s p) eqn:E; try discriminate H. injection H as <-. unfold hist11. own_fields. split; [auto|].
    exists (of p (s_logged s)). split; auto. now apply sub_app_r.
  - destruct (s_senders s p) as [|d r|? ? ?|? ? ?|] eqn:E; try discriminate H. destruct K as (R & l & K1 & K2). destruct ok.
    + destruct (s_listening s); [|discriminate H]. injection H as <-. unfold hist11. own_fields. eauto.
    + injection H as <-. unfold hist11. destruct r; own_fields.
      * rewrite K1. eapply hist11_done; [|exact K2]. lia.
      * destruct (ST _ _ _ _ R K2). eauto.
  - destruct (s_senders s p) as [|? ?|d r c|? ? ?|] eqn:E; try discriminate H. destruct K as (R & l & K1 & K2). injection H as <-. unfold hist11.
    destruct ok.
    + own_fields. split; auto. exists l. split; auto. replace (S RETRIES - r) with ((RETRIES - r) + 1) by lia. rewrite repeat_app, app_assoc.
      apply sub_app; auto. apply sub_refl.
    + destruct r; own_fields.
      * rewrite K1. eapply hist11_done; [|exact K2]. lia.
      * destruct (ST _ _ _ _ R K2). eauto.
  - destruct (s_senders s p) as [|? ?|? ? ?|d r c|] eqn:E; try discriminate H. destruct K as (R & l & K1 & K2). injection H as <-. unfold hist11.
    destruct ok; [own_fields; rewrite K1; eapply hist11_done; [|exact K2]; lia|]. destruct r; own_fields.
    + rewrite K1. eapply hist11_done; [|exact K2]. lia.
    + split; [lia|]. exists l. split; auto.
  - injection H as <-. unfold hist11. destruct (s_senders s p) as [|d r|d r c|d r c|] eqn:E; own_fields; auto;
      (destruct K as (R & l & K1 & K2); rewrite K1; eapply hist11_done; [|exact K2]; lia).
Qed.
Lemma hist11_exec p s ls s' : hist11 p s -> exec s ls s' -> hist11 p s'.
Proof. intros K H. induction H; eauto using hist11_step. Qed.
Lemma hist11_sub p s : hist11 p s -> sub (of p (s_sent s)) (copies (of p (s_logged s))).
Proof.
  unfold hist11. destruct (s_senders s p); auto; (intros (R & l & K1 & K2); rewrite K1; eapply hist11_done; [|exact K2]; lia).
Qed.
Lemma hist_sub p s : hist p s -> sub (of p (s_sent s)) (of p (s_logged s)).
Proof.
  unfold hist. destruct (s_senders s p); intro K; try (eapply shuffle_sub; eauto; fail);
    try (destruct K as (l & -> & K); apply sub_app_r; eapply shuffle_sub; eauto; fail).
  destruct K as [K|(l & d & -> & K)]; [|apply sub_app_r]; eapply shuffle_sub; eauto.
Qed.

(** ** The end of the session *)

Record stopped (p : process) (given : list data) (c0 : cid) (s : st) : Prop := {
  z_main : (s_main s = MStop c0 /\ s_conns s c0 = Waiting) \/ ((s_main s = MJoin \/ s_main s = MClosed) /\ s_conns s c0 = Full None);
  z_below : c0 < s_next s;
  z_only : forall c, c < s_next s -> s_conns s c = Full None -> c = c0;
  z_sender : forall c, connected (s_senders s p) c -> c0 < c;
  z_alive : s_receiver s <> TDead;
  z_closed : s_main s = MClosed -> s_receiver s = TDone;
  z_stream : (s_receiver s = TDone /\ of p (s_delivered s) = given) \/
    (exists l1 l2, queue s = l1 ++ c0 :: l2 /\ of p (s_delivered s) ++ in_hand p s ++ flight p (s_conns s) l1 = given /\ s_receiver s <> TDone) }.

Lemma stopped_same p g c0 s s' : wf s -> stopped p g c0 s ->
  s_main s' = s_main s -> s_conns s' c0 = s_conns s c0 -> s_next s <= s_next s' -> (forall c, connected (s_senders s' p) c -> c0 < c) ->
  s_receiver s' = s_receiver s -> s_delivered s' = s_delivered s -> (exists l, s_backlog s' = s_backlog s ++ l) ->
  (forall c, c < c0 -> reading p (s_conns s' c) = reading p (s_conns s c)) ->
  (forall c, c < s_next s' -> s_conns s' c = Full None -> c < s_next s /\ s_conns s c = Full None) -> stopped p g c0 s'.
Proof.
  intros W [Z1 Z2 ZO Z3 Z4 Z5 Z6] A B C D E F (l & G) I J. constructor; rewrite ?A, ?B, ?E, ?F; auto; [lia| |].
  { intros c K1 K2. destruct (J c K1 K2). auto. }
  destruct Z6 as [Z6|(l1 & l2 & Q & Z6 & ZD)]; [now left|right]. exists l1, (l2 ++ l). split; [|split].
  - unfold queue, hand in *. rewrite E, G, app_assoc, Q, <- app_assoc. reflexivity.
  - unfold in_hand in *. rewrite E. rewrite (flight_ext _ (s_conns s') (s_conns s)); auto.
    intros c IC. apply I. pose proof (w_sorted _ W) as S. rewrite Q in S. apply sorted_split in S. destruct S as [S _].
    rewrite Forall_forall in S. auto.
  - exact ZD.
Qed.
(** The connection of a sender is not the one of the main thread. *)
Lemma stopped_apart p g c0 s q c : wf s -> stopped p g c0 s -> connected (s_senders s q) c -> c <> c0.
Proof.
  intros W Z K ->. destruct (z_main _ _ _ _ Z) as [[M _]|[_ M]].
  - apply (w_main _ W q c0 K). rewrite M. reflexivity.
  - destruct (w_owned _ W c0) as [_ X]; [left; eauto|congruence].
Qed.
Lemma stopped_receive p g c0 s s' : stopped p g c0 s -> s_main s' = s_main s -> s_conns s' = s_conns s -> s_next s' = s_next s ->
  s_senders s' = s_senders s -> s_receiver s' <> TDead -> s_receiver s <> TDone ->
  ((s_receiver s' = TDone /\ of p (s_delivered s') = g) \/
   (exists l1 l2, queue s' = l1 ++ c0 :: l2 /\ of p (s_delivered s') ++ in_hand p s' ++ flight p (s_conns s') l1 = g /\ s_receiver s' <> TDone)) -> stopped p g c0 s'.
Proof.
  intros [Z1 Z2 ZO Z3 Z4 Z5 Z6] A B C D E F G. constructor; [rewrite A, B|rewrite C|rewrite B, C|rewrite D| |rewrite A|]; auto.
  intro M. destruct (F (Z5 M)).
Qed.
Lemma stopped_step p g c0 s l s' : wf s -> ~ lossy l -> stopped p g c0 s -> step s l = Some s' -> stopped p g c0 s'.
Proof.
  intros W L Z H. pose proof Z as [Z1 Z2 ZO Z3 Z4 Z5 Z6].
  destruct l as [q d|q ok|q ok|q ok|q| | |lost|ok| |ok|ok| | | | |]; cbn [step] in H.
  - destruct (s_senders s q) eqn:E; try discriminate H. injection H as <-. apply (stopped_same p g c0 s); auto.
    + intros c K. cbn in K. apply connected_put in K. destruct K as [[_ []]|[_ K]]. auto.
    + exists []. symmetry. apply app_nil_r.
  - destruct (s_senders s q) as [|d r|? ? ?|? ? ?|] eqn:E; try discriminate H. destruct ok.
    + destruct (s_listening s); [|discriminate H]. injection H as <-. apply (stopped_same p g c0 s); auto; cbn; try lia.
      * apply put_neq. lia.
      * intros c K. cbn in K. apply connected_put in K. destruct K as [[_ K]|[_ K]]; [cbn in K; lia|auto].
      * eauto.
      * intros c K. rewrite put_neq; auto. lia.
      * intros c K1 K2. destruct (Nat.eq_dec c (s_next s)) as [-> |N]; [rewrite put_eq in K2; discriminate K2|]. rewrite put_neq in K2 by auto. split; [lia|auto].
    + injection H as <-. destruct (failed_fields q d r s) as (F1 & F2 & F3 & F4 & F5 & F6 & F7 & F8). apply (stopped_same p g c0 s); auto; rewrite ?F5, ?F8; auto.
      * intros c K. destruct r; cbn in K; apply connected_put in K; (destruct K as [[_ []]|[_ K]]; auto).
      * exists []. rewrite F4. symmetry. apply app_nil_r.
  - destruct (s_senders s q) as [|? ?|d r c|? ? ?|] eqn:E; try discriminate H.
    assert (OC : connected (s_senders s q) c) by (rewrite E; reflexivity).
    destruct (w_owned _ W c (or_introl (ex_intro _ q OC))) as [CN CW]. pose proof (stopped_apart p g c0 s q c W Z OC) as AP.
    assert (AP' : c0 <> c) by auto.
    destruct ok; injection H as <-.
    + apply (stopped_same p g c0 s); auto; cbn.
      * now apply put_neq.
      * intros c' K. apply connected_put in K. destruct K as [[_ []]|[_ K]]. auto.
      * exists []. symmetry. apply app_nil_r.
      * intros c' K. destruct (Nat.eq_dec q p) as [-> |N]; [rewrite put_neq; auto; specialize (Z3 c OC); lia|].
        apply reading_put_waiting; auto. intros m M. injection M as <-. rewrite of_one. now rewrite (proj2 (Nat.eqb_neq q p) N).
      * intros c' K1 K2. destruct (Nat.eq_dec c' c) as [-> |N]; [rewrite put_eq in K2; discriminate K2|]. rewrite put_neq in K2 by auto. auto.
    + destruct (failed_fields q d r (set_conn c Broken s)) as (F1 & F2 & F3 & F4 & F5 & F6 & F7 & F8). apply (stopped_same p g c0 s); auto; rewrite ?F5, ?F8; auto.
      * cbn. now apply put_neq.
      * intros c' K. destruct r; cbn in K; apply connected_put in K; (destruct K as [[_ []]|[_ K]]; auto).
      * exists []. rewrite F4. symmetry. apply app_nil_r.
      * intros c' K. cbn. apply reading_put_waiting; auto. discriminate.
      * intros c' K1 K2. cbn in K2.
        destruct (Nat.eq_dec c' c) as [-> |N]; [rewrite put_eq in K2; discriminate K2|]. rewrite put_neq in K2 by auto. auto.
  - destruct (s_senders s q) as [|? ?|? ? ?|d r c|] eqn:E; try discriminate H. destruct ok; injection H as <-.
    + apply (stopped_same p g c0 s); auto; cbn.
      * intros c' K. apply connected_put in K. destruct K as [[_ []]|[_ K]]. auto.
      * exists []. symmetry. apply app_nil_r.
    + destruct (failed_fields q d r s) as (F1 & F2 & F3 & F4 & F5 & F6 & F7 & F8). apply (stopped_same p g c0 s); auto; rewrite ?F5, ?F8; auto.
      * intros c' K. destruct r; cbn in K; apply connected_put in K; (destruct K as [[_ []]|[_ K]]; auto).
      * exists []. rewrite F4. symmetry. apply app_nil_r.
  - injection H as <-.
    assert (ES : forall x c, connected (put (s_senders s) q SGone x) c -> connected (s_senders s x) c).
    { intros x c K. apply connected_put in K. destruct K as [[_ []]|[_ K]]. exact K. }
    assert (SG : stopped p g c0 (set_sender q SGone s)).
    { apply (stopped_same p g c0 s); auto; cbn; auto. exists []. symmetry. apply app_nil_r. }
    destruct (s_senders s q) as [|? ?|d r c|? ? ?|] eqn:E; auto.
    assert (OC : connected (s_senders s q) c) by (rewrite E; reflexivity).
    destruct (w_owned _ W c (or_introl (ex_intro _ q OC))) as [CN CW]. pose proof (stopped_apart p g c0 s q c W Z OC) as AP.
    apply (stopped_same p g c0 s); auto; cbn.
    + apply put_neq. auto.
    + exists []. symmetry. apply app_nil_r.
    + intros c' K. apply reading_put_waiting; auto. discriminate.
    + intros c' K1 K2. destruct (Nat.eq_dec c' c) as [-> |N]; [rewrite put_eq in K2; discriminate K2|]. rewrite put_neq in K2 by auto. auto.
  - destruct (s_receiver s) eqn:E; try discriminate H. destruct (s_own s); [|discriminate H]. injection H as <-.
    apply (stopped_receive p g c0 s); auto; cbn; try discriminate; try congruence.
    destruct Z6 as [[K _]|(l1 & l2 & Q & K & KD)]; [discriminate K|right]. exists l1, l2. unfold queue, hand, in_hand in *. rewrite E in *. cbn in *. repeat split; auto; discriminate.
  - destruct (s_receiver s) eqn:E; try discriminate H. destruct (s_backlog s) as [|c rest] eqn:B; [discriminate H|]. injection H as <-.
    apply (stopped_receive p g c0 s); auto; cbn; try discriminate; try congruence.
    destruct Z6 as [[K _]|(l1 & l2 & Q & K & KD)]; [discriminate K|right]. exists l1, l2. unfold queue, hand, in_hand in *. rewrite E in *. rewrite B in Q. cbn in *. repeat split; auto; discriminate.
  - destruct (s_receiver s) eqn:E; try discriminate H. injection H as <-. destruct lost; [destruct L; left; reflexivity|].
    apply (stopped_receive p g c0 s); auto; cbn; try discriminate; try congruence.
    destruct Z6 as [[K _]|(l1 & l2 & Q & K & KD)]; [discriminate K|right]. exists l1, l2. unfold queue, hand, in_hand in *. rewrite E in *. cbn in *. repeat split; auto; discriminate.
  - destruct (s_receiver s) as [| |c| | | | |] eqn:E; try discriminate H.
    destruct Z6 as [[K _]|(l1 & l2 & Q & K & KD)]; [discriminate K|]. unfold queue, hand, in_hand in Q, K. rewrite E in Q, K. cbn [app] in Q, K.
    destruct l1 as [|c1 l1]; cbn [app] in Q; injection Q as QC QB.
    + subst c. destruct Z1 as [[_ C]|[_ C]]; rewrite C in H; [discriminate H|].
      destruct ok; [|destruct L; right; left; reflexivity]. injection H as <-.
      apply (stopped_receive p g c0 s); auto; cbn; try discriminate; try congruence. left. split; auto.
      cbn in K. rewrite app_nil_r in K. exact K.
    + subst c1. assert (KK : of p (s_delivered s) ++ reading p (s_conns s c) ++ flight p (s_conns s) l1 = g) by exact K. clear K.
      destruct (s_conns s c) as [|m|] eqn:C; [discriminate H| |].
      * destruct ok; [|destruct L; right; left; reflexivity]. injection H as <-.
        destruct m as [m|].
        -- apply (stopped_receive p g c0 s); auto; cbn [s_main s_conns s_next s_senders s_receiver set_receiver]; try discriminate; try congruence.
           right. exists l1, l2. split; [exact QB|split; [exact KK|discriminate]].
        -- (* a second request to stop cannot be *)
           exfalso. pose proof (w_sorted _ W) as S. pose proof (w_below _ W) as B. unfold queue, hand in S, B. rewrite E in S, B. rewrite QB in S, B.
           cbn [app] in S, B. inversion B as [|? ? B1 _]; subst. rewrite (ZO c B1 C) in S. inversion S as [|? ? _ F]; subst.
           apply Forall_app in F. destruct F as [_ F]. inversion F. lia.
      * injection H as <-. apply (stopped_receive p g c0 s); auto; cbn [s_main s_conns s_next s_senders s_receiver set_receiver]; try discriminate; try congruence.
        right. exists l1, l2. split; [exact QB|split; [exact KK|discriminate]].
  - destruct (s_receiver s) as [| | |m| | | |] eqn:E; try discriminate H. destruct (s_lock s) eqn:LK; [discriminate H|]. injection H as <-.
    apply (stopped_receive p g c0 s); auto; cbn [s_main s_conns s_next s_senders s_receiver set_receiver log_delivered set_lock]; try discriminate; try congruence.
    destruct Z6 as [[K _]|(l1 & l2 & Q & K & KD)]; [discriminate K|right]. exists l1, l2. unfold queue, hand, in_hand in *. rewrite E in *.
    cbn [s_conns s_delivered s_receiver s_backlog set_receiver log_delivered set_lock]. rewrite of_app, <- app_assoc. repeat split; auto; discriminate.
  - destruct (s_receiver s) as [| | | |m| | |] eqn:E; try discriminate H. injection H as <-.
    apply (stopped_receive p g c0 s); auto; cbn; try discriminate; try congruence; [destruct ok; discriminate|].
    destruct Z6 as [[K _]|(l1 & l2 & Q & K & KD)]; [discriminate K|right]. exists l1, l2. unfold queue, hand, in_hand in *. rewrite E in *. cbn in *. destruct ok; repeat split; auto; discriminate.
  - destruct (s_receiver s) as [| | | | | | |] eqn:E; try discriminate H. injection H as <-.
    destruct ok; [|destruct L; right; right; reflexivity].
    apply (stopped_receive p g c0 s); auto; cbn; try discriminate; try congruence.
    destruct Z6 as [[K _]|(l1 & l2 & Q & K & KD)]; [discriminate K|right]. exists l1, l2. unfold queue, hand, in_hand in *. rewrite E in *. cbn in *. repeat split; auto; discriminate.
  - destruct (s_main s) eqn:E; try discriminate H. destruct Z1 as [[K _]|[[K|K] _]]; discriminate K.
  - destruct (s_main s) eqn:E; try discriminate H. destruct Z1 as [[K _]|[[K|K] _]]; discriminate K.
  - destruct (s_main s) eqn:E; try discriminate H. destruct Z1 as [[K _]|[[K|K] _]]; discriminate K.
  - destruct (s_main s) as [| |c| |] eqn:E; try discriminate H. injection H as <-.
    destruct Z1 as [[K C]|[[K|K] _]]; try discriminate K. injection K as ->. constructor; cbn; auto.
    + right. rewrite put_eq. auto.
    + intros c K1 K2. destruct (Nat.eq_dec c c0) as [-> |N]; [reflexivity|]. rewrite put_neq in K2 by auto. auto.
    + discriminate.
    + destruct Z6 as [Z6|(l1 & l2 & Q & K & KD)]; [left; exact Z6|right]. exists l1, l2. split; [exact Q|split; [|exact KD]].
      change (in_hand p (set_main MJoin (set_conn c0 (Full None) s))) with (in_hand p s).
      rewrite (flight_ext _ (put (s_conns s) c0 (Full None)) (s_conns s)); auto. intros c _. apply reading_put_waiting; auto. discriminate.
  - destruct (s_main s) eqn:E; try discriminate H. destruct Z1 as [[K _]|[_ C]]; [discriminate K|].
    assert (G : s' = set_closed s /\ s_receiver s = TDone) by (destruct (s_receiver s); try discriminate H; try congruence; split; congruence).
    destruct G as [-> G]. constructor; cbn; auto.
Qed.

Definition quiet (s : st) : Prop := (s_main s = MRun \/ s_main s = MIn) -> forall c, c < s_next s -> s_conns s c <> Full None.
Lemma quiet_step s l s' : wf s -> quiet s -> step s l = Some s' -> quiet s'.
Proof.
  intros W Q H. assert (G : forall x, s_main x = s_main s -> s_next x = s_next s -> s_conns x = s_conns s -> quiet x).
  { intros x A B C. unfold quiet. rewrite A, B, C. exact Q. }
  assert (P : forall x c y, s_main x = s_main s -> s_next x = s_next s -> y <> Full None -> s_conns x = put (s_conns s) c y -> quiet x).
  { intros x c y A B NY C M c' L K. rewrite C in K. destruct (Nat.eq_dec c' c) as [-> |N]; [rewrite put_eq in K; contradiction|].
    rewrite put_neq in K by auto. rewrite A in M. rewrite B in L. exact (Q M c' L K). }
  destruct l as [q d|q ok|q ok|q ok|q| | |lost|ok| |ok|ok| | | | |]; cbn [step] in H.
  - destruct (s_senders s q) eqn:E; try discriminate H. injection H as <-. auto.
  - destruct (s_senders s q) as [|d r|? ? ?|? ? ?|] eqn:E; try discriminate H. destruct ok.
    + destruct (s_listening s); [|discriminate H]. injection H as <-. intros M c L K. cbn in M, L, K.
      destruct (Nat.eq_dec c (s_next s)) as [-> |N]; [rewrite put_eq in K; discriminate K|]. rewrite put_neq in K by auto. apply (Q M c); [lia|auto].
    + injection H as <-. destruct r; auto.
  - destruct (s_senders s q) as [|? ?|d r c|? ? ?|] eqn:E; try discriminate H. injection H as <-.
    destruct ok; [eapply (P _ c (Full (Some (q, d)))); auto; discriminate|]. destruct r; (eapply (P _ c Broken); auto; discriminate).
  - destruct (s_senders s q) as [|? ?|? ? ?|d r c|] eqn:E; try discriminate H. injection H as <-. destruct ok, r; auto.
  - injection H as <-. destruct (s_senders s q) as [| |? ? c| |]; auto. eapply (P _ c Broken); auto; discriminate.
  - destruct (s_receiver s); try discriminate H. destruct (s_own s); [|discriminate H]. injection H as <-. auto.
  - destruct (s_receiver s); try discriminate H. destruct (s_backlog s); [discriminate H|]. injection H as <-. auto.
  - destruct (s_receiver s); try discriminate H. injection H as <-. destruct lost; auto.
  - destruct (s_receiver s) as [| |c| | | | |]; try discriminate H. destruct (s_conns s c); [discriminate H| |injection H as <-; auto].
    destruct ok; injection H as <-; auto.
  - destruct (s_receiver s); try discriminate H. destruct (s_lock s); [discriminate H|]. injection H as <-. auto.
  - destruct (s_receiver s); try discriminate H. injection H as <-. auto.
  - destruct (s_receiver s); try discriminate H. injection H as <-. auto.
  - destruct (s_main s) eqn:E; try discriminate H. destruct (s_lock s); [discriminate H|]. injection H as <-. intros _. apply Q. auto.
  - destruct (s_main s) eqn:E; try discriminate H. injection H as <-. intros _. apply Q. auto.
  - destruct (s_main s) eqn:E; try discriminate H. destruct (s_own s); injection H as <-; intros [M|M]; discriminate M.
  - destruct (s_main s) eqn:E; try discriminate H. injection H as <-. intros [M|M]; discriminate M.
  - destruct (s_main s) eqn:E; try discriminate H. destruct (s_receiver s); try discriminate H; injection H as <-; intros [M|M]; discriminate M.
Qed.
Lemma quiet_exec s ls s' : wf s -> quiet s -> exec s ls s' -> quiet s'.
Proof. intros W Q H. revert W Q. induction H; eauto using quiet_step, wf_step. Qed.
Lemma exec_app s a b s' : exec s (a ++ b) s' -> exists s1, exec s a s1 /\ exec s1 b s'.
Proof.
  revert s. induction a as [|l a IH]; cbn; intros s H; [exists s; split; [constructor|exact H]|].
  inversion H as [|? ? ? ? ? H1 H2]; subst. destruct (IH _ H2) as (s1 & A & B). exists s1. split; auto. econstructor; eauto.
Qed.
Lemma receiver_alive s ls s' : s_receiver s <> TDead -> lossless ls -> exec s ls s' -> s_receiver s' <> TDead.
Proof.
  intros R L H. revert R L. induction H as [|s l s1 ls s2 H E IH]; intros R L; auto. apply lossless_cons in L. destruct L as [L1 L2]. apply IH; auto.
  destruct l as [q d|q ok|q ok|q ok|q| | |lost|ok| |ok|ok| | | | |]; cbn [step] in H;
  repeat match type of H with
  | match ?x with _ => _ end = Some _ => destruct x eqn:?; try discriminate H
  | (if ?x then _ else _) = Some _ => destruct x eqn:?; try discriminate H
  end; injection H as <-;
  repeat match goal with |- context [failed _ _ ?r _] => destruct r; cbn [failed] end;
  repeat match goal with |- context [if ?x then _ else _] => destruct x end;
  repeat match goal with |- context [match ?x with _ => _ end] => destruct x end; cbn; try congruence.
  destruct L1. right. right. reflexivity.
Qed.
Lemma stopped_exec p g c0 s ls s' : wf s -> lossless ls -> stopped p g c0 s -> exec s ls s' -> stopped p g c0 s'.
Proof.
  intros W L Z H. revert W L Z. induction H as [|s l s1 ls s2 H E IH]; intros W L Z; auto. apply lossless_cons in L. destruct L as [L1 L2].
  eauto using wf_step, stopped_step.
Qed.
Lemma stopped_start p s : wf s -> quiet s -> s_receiver s <> TDead -> s_receiver s <> TDone -> s_main s = MRun -> (forall c, ~ connected (s_senders s p) c) ->
  stream p s = of p (s_sent s) -> stopped p (of p (s_sent s)) (s_next s) (set_main (MStop (s_next s)) (connect s)).
Proof.
  intros W Q R R2 M C S. constructor; cbn; auto.
  - left. rewrite put_eq. auto.
  - intros c L K. destruct (Nat.eq_dec c (s_next s)) as [-> |N]; [reflexivity|]. rewrite put_neq in K by auto. destruct (Q (or_introl M) c); [lia|auto].
  - intros c K. destruct (C _ K).
  - discriminate.
  - right. exists (queue s), []. split; [unfold queue, hand; cbn; now rewrite app_assoc|split; [|exact R2]].
    change (in_hand p (set_main (MStop (s_next s)) (connect s))) with (in_hand p s). rewrite <- S. unfold stream. f_equal. f_equal.
    apply flight_ext. intros c I. pose proof (w_below _ W) as B. rewrite Forall_forall in B. specialize (B c I). rewrite put_neq; auto. lia.
Qed.

(** ** Progress of the receiver *)

Definition early (s : st) : Prop := (s_main s = MRun \/ s_main s = MIn) -> s_receiver s <> TDone.
Lemma early_step s l s' : wf s -> quiet s -> early s -> step s l = Some s' -> early s'.
Proof.
  intros W Q R H. 
  assert (G : forall x, s_main x = s_main s -> s_receiver x = s_receiver s -> early x) by (intros x A B; unfold early; rewrite A, B; exact R).
  assert (G2 : forall x, s_receiver x <> TDone -> early x) by (intros x A _; exact A).
  destruct l as [q d|q ok|q ok|q ok|q| | |lost|ok| |ok|ok| | | | |]; cbn [step] in H.
  - destruct (s_senders s q) eqn:E; try discriminate H. injection H as <-. auto.
  - destruct (s_senders s q) as [|d r|? ? ?|? ? ?|] eqn:E; try discriminate H. destruct ok.
    + destruct (s_listening s); [|discriminate H]. injection H as <-. auto.
    + injection H as <-. destruct r; auto.
  - destruct (s_senders s q) as [|? ?|d r c|? ? ?|] eqn:E; try discriminate H. injection H as <-. destruct ok, r; auto.
  - destruct (s_senders s q) as [|? ?|? ? ?|d r c|] eqn:E; try discriminate H. injection H as <-. destruct ok, r; auto.
  - injection H as <-. destruct (s_senders s q); auto.
  - destruct (s_receiver s); try discriminate H. destruct (s_own s); [|discriminate H]. injection H as <-. apply G2. discriminate.
  - destruct (s_receiver s); try discriminate H. destruct (s_backlog s); [discriminate H|]. injection H as <-. apply G2. discriminate.
  - destruct (s_receiver s); try discriminate H. injection H as <-. apply G2. discriminate.
  - destruct (s_receiver s) as [| |c| | | | |] eqn:E; try discriminate H. destruct (s_conns s c) as [|m|] eqn:C; [discriminate H| |injection H as <-; apply G2; discriminate].
    destruct ok; injection H as <-; [|apply G2; discriminate]. destruct m; [apply G2; discriminate|].
    intros M. cbn in M. exfalso. apply (Q M c); auto. pose proof (w_below _ W) as B. unfold queue, hand in B. rewrite E in B. now inversion B.
  - destruct (s_receiver s); try discriminate H. destruct (s_lock s); [discriminate H|]. injection H as <-. apply G2. discriminate.
  - destruct (s_receiver s); try discriminate H. injection H as <-. apply G2. destruct ok; discriminate.
  - destruct (s_receiver s); try discriminate H. injection H as <-. apply G2. destruct ok; discriminate.
  - destruct (s_main s) eqn:E; try discriminate H. destruct (s_lock s); [discriminate H|]. injection H as <-. intros _. apply R. auto.
  - destruct (s_main s) eqn:E; try discriminate H. injection H as <-. intros _. apply R. auto.
  - destruct (s_main s) eqn:E; try discriminate H. destruct (s_own s); injection H as <-; intros [M|M]; discriminate M.
  - destruct (s_main s) eqn:E; try discriminate H. injection H as <-. intros [M|M]; discriminate M.
  - destruct (s_main s) eqn:E; try discriminate H. destruct (s_receiver s); try discriminate H; injection H as <-; intros [M|M]; discriminate M.
Qed.
Lemma early_exec s ls s' : wf s -> quiet s -> early s -> exec s ls s' -> early s'.
Proof. intros W Q R H. revert W Q R. induction H; eauto using quiet_step, wf_step, early_step. Qed.

(** The receiver can go on unless it waits for a connection or for somebody else. *)
Definition receiving (l : label) : Prop :=
  match l with LAccept | LRecv _ | LLog | LLogged _ | LNotified _ => True | _ => False end.
Definition work (s : st) : nat :=
  5 * List.length (s_backlog s) + match s_receiver s with TAccept => 0 | TRecv _ => 4 | TLog _ => 3 | TIn _ => 2 | TNotify => 1 | _ => 0 end.
Lemma work_step s l s' : receiving l -> step s l = Some s' -> work s' < work s.
Proof.
  intros R H. destruct l; try contradiction; cbn [step] in H; unfold work.
  - destruct (s_receiver s); try discriminate H. destruct (s_backlog s); [discriminate H|]. injection H as <-. cbn. lia.
  - destruct (s_receiver s) as [| |c| | | | |]; try discriminate H. destruct (s_conns s c) as [|m|]; [discriminate H| |injection H as <-; cbn; lia].
    destruct ok; injection H as <-; [destruct m|]; cbn; lia.
  - destruct (s_receiver s); try discriminate H. destruct (s_lock s); [discriminate H|]. injection H as <-. cbn. lia.
  - destruct (s_receiver s); try discriminate H. injection H as <-. destruct ok; cbn; lia.
  - destruct (s_receiver s); try discriminate H. injection H as <-. destruct ok; cbn; lia.
Qed.
Lemma work_exec s ls s' : Forall receiving ls -> exec s ls s' -> List.length ls + work s' <= work s.
Proof.
  intros F H. revert F. induction H as [|s l s1 ls s2 H E IH]; intro F; [cbn [List.length]; lia|]. inversion F; subst.
  pose proof (work_step _ _ _ H2 H). specialize (IH H3). cbn [List.length]. lia.
Qed.

(** ** Failing attempts *)

Definition fails (p : process) (l : label) : bool :=
  match l with LConnect q false | LSend q false | LClose q false => Nat.eqb q p | _ => false end.
Definition fail_count (p : process) (ls : list label) : nat := List.length (filter (fails p) ls).
Definition budget (p : process) (n : nat) (s : st) : Prop :=
  match s_senders s p with
  | STry _ r | SConnected _ r _ | SSent _ r _ => r <= RETRIES /\ S RETRIES * List.length (of p (s_given_up s)) + (RETRIES - r) <= n
  | _ => S RETRIES * List.length (of p (s_given_up s)) <= n
  end.
Lemma budget_step p n s l s' : budget p n s -> step s l = Some s' -> budget p (n + if fails p l then 1 else 0) s'.
Proof.
  intros K H.
  assert (D : (match l with LReport q _ | LConnect q _ | LSend q _ | LClose q _ | LGone q => q <> p | _ => True end) \/
    match l with LReport q _ | LConnect q _ | LSend q _ | LClose q _ | LGone q => q = p | _ => False end).
  { destruct l; auto; (match goal with q : process |- _ => destruct (Nat.eq_dec q p) end); auto. }
  destruct D as [D|D].
  { destruct (step_other p s l s' H D) as (A & _ & C & _). unfold budget in *. rewrite A, C. destruct (s_senders s p); lia. }
  assert (GL : forall d, List.length (of p (s_given_up s ++ [(p, d)])) = S (List.length (of p (s_given_up s)))).
  { intro d. rewrite of_snoc, app_length. cbn [List.length]. lia. }
  unfold budget in K. destruct l as [q d|q ok|q ok|q ok|q| | |lost|ok| |ok|ok| | | | |]; try contradiction; subst q; cbn [step] in H; cbn [fails];
    rewrite ?Nat.eqb_refl.
  - destruct (s_senders s p) eqn:E; try discriminate H. injection H as <-. unfold budget. cbn [s_senders s_given_up log_logged set_sender]. rewrite put_eq. lia.
  - destruct (s_senders s p) as [|d r|? ? ?|? ? ?|] eqn:E; try discriminate H. destruct ok.
    + destruct (s_listening s); [|discriminate H]. injection H as <-. unfold budget. cbn [s_senders s_given_up connect set_sender]. rewrite put_eq. lia.
    + injection H as <-. unfold budget. destruct r; cbn [failed s_senders s_given_up log_given_up set_sender]; rewrite put_eq, ?GL; unfold RETRIES in *; lia.
  - destruct (s_senders s p) as [|? ?|d r c|? ? ?|] eqn:E; try discriminate H. injection H as <-. unfold budget.
    destruct ok, r; cbn [failed s_senders s_given_up log_given_up log_sent set_sender set_conn]; rewrite put_eq, ?GL; unfold RETRIES in *; lia.
  - destruct (s_senders s p) as [|? ?|? ? ?|d r c|] eqn:E; try discriminate H. injection H as <-. unfold budget.
    destruct ok, r; cbn [failed s_senders s_given_up log_given_up log_sent set_sender set_conn]; rewrite put_eq, ?GL; unfold RETRIES in *; lia.
  - injection H as <-. unfold budget. destruct (s_senders s p); cbn [s_senders s_given_up set_sender set_conn]; rewrite put_eq; lia.
Qed.
Lemma budget_exec p n s ls s' : budget p n s -> exec s ls s' -> budget p (n + fail_count p ls) s'.
Proof.
  intros K H. revert n K. induction H as [|s l s1 ls s2 H E IH]; intros n K; unfold fail_count; cbn [filter List.length].
  - now rewrite Nat.add_0_r.
  - specialize (IH _ (budget_step _ _ _ _ _ K H)). unfold fail_count in IH. destruct (fails p l); cbn [List.length]; [replace (n + S (List.length (filter (fails p) ls))) with (n + 1 + List.length (filter (fails p) ls)) by lia|replace (n + List.length (filter (fails p) ls)) with (n + 0 + List.length (filter (fails p) ls)) by lia]; exact IH.
Qed.

(** ** The main thread *)

(** A process which takes no part. *)
Definition absent (p : process) (l : label) : Prop :=
  match l with LReport q _ | LConnect q _ | LSend q _ | LClose q _ | LGone q => q <> p | _ => True end.
Lemma absent_exists ls : exists p, Forall (absent p) ls.
Proof.
  assert (X : exists n, forall p, n <= p -> Forall (absent p) ls).
  { induction ls as [|l ls (n & IH)]; [exists 0; constructor|].
    exists (Nat.max n (match l with LReport q _ | LConnect q _ | LSend q _ | LClose q _ | LGone q => S q | _ => 0 end)). intros p L.
    constructor; [|apply IH; lia]. destruct l; cbn; auto; unfold process in *; lia. }
  destruct X as (n & X). exists n. now apply X.
Qed.
Lemma absent_idle p s ls s' : Forall (absent p) ls -> exec s ls s' -> s_senders s p = SIdle -> s_senders s' p = SIdle.
Proof.
  intros F H. revert F. induction H as [|s l s1 ls s2 H E IH]; intros F I; auto. inversion F; subst. apply IH; auto.
  destruct (step_other p s l s1 H H2) as (A & _). now rewrite A.
Qed.
Lemma own_step s l s' : step s l = Some s' -> s_own s' = s_own s.
Proof.
  intro H. destruct l as [q d|q ok|q ok|q ok|q| | |lost|ok| |ok|ok| | | | |]; cbn [step] in H.
  - destruct (s_senders s q); try discriminate H. injection H as <-. auto.
  - destruct (s_senders s q) as [|d r|? ? ?|? ? ?|]; try discriminate H. destruct ok.
    + destruct (s_listening s); [|discriminate H]. injection H as <-. auto.
    + injection H as <-. destruct r; auto.
  - destruct (s_senders s q) as [|? ?|d r c|? ? ?|]; try discriminate H. injection H as <-. destruct ok, r; auto.
  - destruct (s_senders s q) as [|? ?|? ? ?|d r c|]; try discriminate H. injection H as <-. destruct ok, r; auto.
  - injection H as <-. destruct (s_senders s q); auto.
  - destruct (s_receiver s); try discriminate H. destruct (s_own s) eqn:O; [|discriminate H]. injection H as <-. auto.
  - destruct (s_receiver s); try discriminate H. destruct (s_backlog s); [discriminate H|]. injection H as <-. auto.
  - destruct (s_receiver s); try discriminate H. injection H as <-. destruct lost; auto.
  - destruct (s_receiver s) as [| |c| | | | |]; try discriminate H. destruct (s_conns s c); [discriminate H| |injection H as <-; auto].
    destruct ok; injection H as <-; auto.
  - destruct (s_receiver s); try discriminate H. destruct (s_lock s); [discriminate H|]. injection H as <-. auto.
  - destruct (s_receiver s); try discriminate H. injection H as <-. auto.
  - destruct (s_receiver s); try discriminate H. injection H as <-. auto.
  - destruct (s_main s); try discriminate H. destruct (s_lock s); [discriminate H|]. injection H as <-. auto.
  - destruct (s_main s); try discriminate H. injection H as <-. auto.
  - destruct (s_main s); try discriminate H. destruct (s_own s) eqn:O; injection H as <-; auto.
  - destruct (s_main s); try discriminate H. injection H as <-. auto.
  - destruct (s_main s); try discriminate H. destruct (s_receiver s); try discriminate H; injection H as <-; auto.
Qed.
Lemma own_exec s ls s' : exec s ls s' -> s_own s' = s_own s.
Proof. induction 1 as [|s l s1 ls s2 H E IH]; auto. rewrite IH. eapply own_step; eauto. Qed.
(** The main thread leaves its loop only by finishing. *)
Lemma main_step s l s' : step s l = Some s' -> s_main s = MRun \/ s_main s = MIn ->
  (s_main s' = MRun \/ s_main s' = MIn) \/ (l = LFinish /\ s_main s = MRun).
Proof.
  intros H M. destruct l as [q d|q ok|q ok|q ok|q| | |lost|ok| |ok|ok| | | | |]; cbn [step] in H.
  - destruct (s_senders s q); try discriminate H. injection H as <-. auto.
  - destruct (s_senders s q) as [|d r|? ? ?|? ? ?|]; try discriminate H. destruct ok.
    + destruct (s_listening s); [|discriminate H]. injection H as <-. auto.
    + injection H as <-. destruct r; auto.
  - destruct (s_senders s q) as [|? ?|d r c|? ? ?|]; try discriminate H. injection H as <-. destruct ok, r; auto.
  - destruct (s_senders s q) as [|? ?|? ? ?|d r c|]; try discriminate H. injection H as <-. destruct ok, r; auto.
  - injection H as <-. destruct (s_senders s q); auto.
  - destruct (s_receiver s); try discriminate H. destruct (s_own s) eqn:O; [|discriminate H]. injection H as <-. auto.
  - destruct (s_receiver s); try discriminate H. destruct (s_backlog s); [discriminate H|]. injection H as <-. auto.
  - destruct (s_receiver s); try discriminate H. injection H as <-. destruct lost; auto.
  - destruct (s_receiver s) as [| |c| | | | |]; try discriminate H. destruct (s_conns s c); [discriminate H| |injection H as <-; auto].
    destruct ok; injection H as <-; auto.
  - destruct (s_receiver s); try discriminate H. destruct (s_lock s); [discriminate H|]. injection H as <-. auto.
  - destruct (s_receiver s); try discriminate H. injection H as <-. auto.
  - destruct (s_receiver s); try discriminate H. injection H as <-. auto.
  - destruct (s_main s); try discriminate H. destruct (s_lock s); [discriminate H|]. injection H as <-. auto.
  - destruct (s_main s); try discriminate H. injection H as <-. auto.
  - destruct (s_main s); try discriminate H. auto.
  - destruct (s_main s) eqn:E; try discriminate H. destruct M; discriminate.
  - destruct (s_main s) eqn:E; try discriminate H. destruct M; discriminate.
Qed.
Lemma finish_point s ls s' : exec s ls s' -> s_main s = MRun \/ s_main s = MIn -> (s_main s' = MRun \/ s_main s' = MIn) \/
  exists l1 s1 s2 l2, ls = l1 ++ LFinish :: l2 /\ exec s l1 s1 /\ s_main s1 = MRun /\ step s1 LFinish = Some s2 /\ exec s2 l2 s'.
Proof.
  induction 1 as [s|s l s1 ls s2 H E IH]; intro M; [now left|]. destruct (main_step _ _ _ H M) as [M1|[-> M1]].
  - destruct (IH M1) as [R|(l1 & a & b & l2 & -> & A & B & C & D)]; [now left|right].
    exists (l :: l1), a, b, l2. repeat (apply conj); auto. econstructor; eauto.
  - right. exists [], s, s1, ls. repeat (apply conj); auto. constructor.
Qed.

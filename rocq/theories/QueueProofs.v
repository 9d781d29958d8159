(** What the queues contain. *)
From Verif Require Import Base KernelModel KernelProofs KernelHist KernelSpec QueueModel HeapProofs QueueSpec.
From Coq Require Import Arith ZArith Permutation.

Section Q.
Context {A : Type} (lt : A -> A -> bool).
Implicit Types (x : qst A) (q : queue A).

Definition same_data q q' : Prop := q_kind q' = q_kind q /\ q_max q' = q_max q /\ q_items q' = q_items q.
Lemma sd_refl q : same_data q q.
Proof. repeat split. Qed.

(** The three things a step can do to the contents of the queues. *)
Inductive effect (x : qst A) : qst A -> qres A -> Prop :=
| ef_none x' r : (forall n, same_data (x_q x n) (x_q x' n)) -> x_hist x' = x_hist x ->
    r <> QNone -> (forall a, r <> QItem a) -> effect x x' r
| ef_put x' n a : full (x_q x n) = false ->
    q_kind (x_q x' n) = q_kind (x_q x n) -> q_max (x_q x' n) = q_max (x_q x n) ->
    q_items (x_q x' n) = put_item lt (q_kind (x_q x n)) (q_items (x_q x n)) a ->
    (forall m, m <> n -> x_q x' m = x_q x m) -> x_hist x' = HPut n a :: x_hist x -> effect x x' QNone
| ef_get x' n a : q_kind (x_q x' n) = q_kind (x_q x n) -> q_max (x_q x' n) = q_max (x_q x n) ->
    get_item lt (q_kind (x_q x n)) (q_items (x_q x n)) = Some (a, q_items (x_q x' n)) ->
    (forall m, m <> n -> x_q x' m = x_q x m) -> x_hist x' = HGet n a :: x_hist x -> effect x x' (QItem a).

Lemma put_nowait_effect x n a : effect x (fst (put_nowait lt x n a)) (snd (put_nowait lt x n a)).
Proof.
  unfold put_nowait. destruct (full _) eqn:F.
  - apply ef_none; try discriminate; [|reflexivity]. intro. apply sd_refl.
  - destruct (wakeup_next _ _) as [k g]. cbn [fst snd].
    apply (ef_put x _ n a); cbn; rewrite ?upd_same; auto. intros. now apply upd_other.
Qed.
Lemma get_nowait_effect x n x' r : get_nowait lt x n = Some (x', r) -> effect x x' r.
Proof.
  unfold get_nowait. destruct (empty _).
  - intros [= <- <-]. apply ef_none; try discriminate; [|reflexivity]. intro. apply sd_refl.
  - destruct (get_item _ _ _) as [[a l]|] eqn:G; [|discriminate]. destruct (wakeup_next _ _) as [k g]. intros [= <- <-].
    apply (ef_get x _ n a); cbn; rewrite ?upd_same; auto. intros. now apply upd_other.
Qed.
Lemma effect_pend x t p x' r : effect (set_pend x t p) x' r -> effect x x' r.
Proof. intro E. destruct E; econstructor; eassumption. Qed.
Lemma put_turn_effect x rest t n a x' r : put_turn lt x rest t n a = (x', r) -> effect x x' r.
Proof.
  unfold put_turn. destruct (full _).
  - destruct (s_current _) as [u|]; intros [= <- <-]; (apply ef_none; try discriminate; [|reflexivity]); intro m.
    + cbn. unfold upd. destruct (Nat.eqb_spec m n) as [->|]; [|apply sd_refl]. repeat split.
    + apply sd_refl.
  - intro E. apply (effect_pend x t None). pose proof (put_nowait_effect (set_pend x t None) n a) as P. now rewrite E in P.
Qed.
Lemma get_turn_effect x rest t n x' r : get_turn lt x rest t n = Some (x', r) -> effect x x' r.
Proof.
  unfold get_turn. destruct (empty _).
  - destruct (s_current _) as [u|]; intros [= <- <-]; (apply ef_none; try discriminate; [|reflexivity]); intro m.
    + cbn. unfold upd. destruct (Nat.eqb_spec m n) as [->|]; [|apply sd_refl]. repeat split.
    + apply sd_refl.
  - intro E. apply (effect_pend x t None). now apply (get_nowait_effect _ n).
Qed.
Theorem qstep_effect x l x' r : qstep lt x l = Some (x', r) -> effect x x' r.
Proof.
  unfold qstep. destruct (s_halt _); [discriminate|]. destruct l as [kl|n a|n|n a|n|].
  - destruct (_ && _); [|discriminate]. destruct (step _ _) as [[k s]|]; [|discriminate]. intros [= <- <-].
    apply ef_none; try discriminate; [|reflexivity]. intro. apply sd_refl.
  - destruct (s_ctl _) as [|[t| | ] rest]; try discriminate. destruct (user_control x); [|discriminate]. intros [= E].
    eapply put_turn_effect. exact E.
  - destruct (s_ctl _) as [|[t| | ] rest]; try discriminate. destruct (user_control x); [|discriminate].
    apply get_turn_effect.
  - destruct (user_control x); [|discriminate]. intros [= E]. pose proof (put_nowait_effect x n a) as P. now rewrite E in P.
  - destruct (user_control x); [|discriminate]. apply get_nowait_effect.
  - destruct (s_ctl _) as [|[t| | ] rest]; try discriminate. destruct (x_pend x t) as [[n a|n]|]; [| |discriminate];
      destruct (k_exc _).
    + intros [= <- <-]. apply ef_none; try discriminate; [|reflexivity]. intro. apply sd_refl.
    + intros [= E]. eapply put_turn_effect. exact E.
    + intros [= <- <-]. apply ef_none; try discriminate; [|reflexivity]. intro. apply sd_refl.
    + apply get_turn_effect.
Qed.

(** * The contents *)
Record Good (kinds : nat -> kind * Z) x : Prop := {
  g_kind n : q_kind (x_q x n) = fst (kinds n);
  g_max n : q_max (x_q x n) = snd (kinds n);
  g_cap n : (0 < snd (kinds n) -> Z.of_nat (length (q_items (x_q x n))) <= snd (kinds n))%Z;
  g_fifo n : fst (kinds n) = KFifo -> puts n (x_hist x) = gets n (x_hist x) ++ q_items (x_q x n);
  g_lifo n : fst (kinds n) = KLifo -> stacked n (x_hist x) (rev (q_items (x_q x n))) }.
(** Needs an order. *)
Record Sorted (kinds : nat -> kind * Z) x : Prop := {
  g_heap n : fst (kinds n) = KPriority -> heap lt (q_items (x_q x n));
  g_served n : fst (kinds n) = KPriority -> exists l, served lt n (x_hist x) l /\ Permutation l (q_items (x_q x n)) }.

Lemma siftdown_length fuel h p a : length (siftdown lt fuel h p a) = length h.
Proof.
  revert h p. induction fuel as [|fuel IH]; intros h p; cbn; [apply set_length|]. destruct (_ =? 0); [apply set_length|].
  destruct (lt _ _); [rewrite IH|]; apply set_length.
Qed.
Lemma siftup_length fuel h p a : length (siftup lt fuel h p a) = length h.
Proof.
  revert h p. induction fuel as [|fuel IH]; intros h p; [reflexivity|]. cbn [siftup]. destruct (_ <? _).
  - rewrite IH. apply set_length.
  - rewrite siftdown_length. apply set_length.
Qed.
Lemma put_item_length k l a : length (put_item lt k l a) = S (length l).
Proof.
  destruct k; cbn [put_item]; [rewrite app_length; cbn; lia| |rewrite app_length; cbn; lia].
  unfold heappush. rewrite siftdown_length, app_length. cbn. lia.
Qed.
Lemma get_item_length k l a l' : get_item lt k l = Some (a, l') -> length l = S (length l').
Proof.
  destruct k; cbn [get_item].
  - destruct l; [discriminate|]. now intros [= <- <-].
  - unfold heappop. destruct (rev l) as [|z r] eqn:E; [discriminate|].
    assert (El : length l = S (length r)) by (rewrite <- rev_length, E; reflexivity).
    destruct (rev r) as [|b rest] eqn:E'.
    + intros [= <- <-]. apply (f_equal (@length A)) in E'. rewrite rev_length in E'. cbn in *. lia.
    + intro X. assert (El' : l' = siftup lt (S (length r)) (z :: rest) 0 z) by congruence. rewrite El', siftup_length. apply (f_equal (@length A)) in E'. rewrite rev_length in E'. cbn in *. lia.
  - destruct (rev l) as [|z r] eqn:E; [discriminate|]. intros [= <- <-]. rewrite rev_length, <- (rev_length l), E. reflexivity.
Qed.
Lemma get_item_some k l : l <> [] -> exists a l', get_item lt k l = Some (a, l').
Proof.
  intro N. destruct k; cbn [get_item].
  - destruct l; [now elim N|eauto].
  - unfold heappop. destruct (rev l) as [|z r] eqn:E.
    + elim N. now rewrite <- (rev_involutive l), E.
    + destruct (rev r); eauto.
  - destruct (rev l) as [|z r] eqn:E; eauto. elim N. now rewrite <- (rev_involutive l), E.
Qed.

Lemma good_init kinds : Good kinds (qinit kinds).
Proof. constructor; cbn; intros; try reflexivity; try lia. constructor. Qed.
Lemma good_effect kinds x x' r : Good kinds x -> effect x x' r -> Good kinds x'.
Proof.
  intros [K M C F L] E. destruct E as [x' r D H _ _|x' n a Nf Ek Em Ei O H|x' n a Ek Em Ei O H].
  - constructor; intro n; destruct (D n) as (D1 & D2 & D3); rewrite ?D1, ?D2, ?D3, ?H; auto.
  - constructor; intro m; destruct (Nat.eq_dec m n) as [->|N]; rewrite ?(O m N), ?Ek, ?Em; auto.
    + intro Z. rewrite Ei, put_item_length. unfold full in Nf. rewrite M in Nf.
      destruct (Z.leb_spec (snd (kinds n)) 0); [lia|]. apply Z.leb_gt in Nf. lia.
    + intro Z. rewrite H, Ei, K, Z. cbn. rewrite Nat.eqb_refl, (F n Z), <- app_assoc. reflexivity.
    + intro Z. rewrite H. cbn. destruct (Nat.eqb_spec n m); [congruence|]. rewrite app_nil_r. auto.
    + intro Z. rewrite H, Ei, K, Z. cbn. rewrite rev_app_distr. cbn. constructor. auto.
    + intro Z. rewrite H. apply st_put_other; auto.
  - constructor; intro m; destruct (Nat.eq_dec m n) as [->|N]; rewrite ?(O m N), ?Ek, ?Em; auto.
    + intro Z. apply get_item_length in Ei. specialize (C n Z). lia.
    + intro Z. rewrite K, Z in Ei. cbn in Ei. destruct (q_items (x_q x n)) as [|b l] eqn:I; [discriminate|].
      injection Ei as -> El. rewrite <- El, H. cbn. rewrite Nat.eqb_refl, (F n Z), I, <- app_assoc. reflexivity.
    + intro Z. rewrite H. cbn. destruct (Nat.eqb_spec n m); [congruence|]. rewrite app_nil_r. auto.
    + intro Z. rewrite K, Z in Ei. cbn in Ei. specialize (L n Z). destruct (rev (q_items (x_q x n))) as [|b l] eqn:I; [discriminate|].
      injection Ei as -> El. rewrite <- El, H, rev_involutive. now constructor.
    + intro Z. rewrite H. apply st_get_other; auto.
Qed.
Lemma sorted_init kinds : Sorted kinds (qinit kinds).
Proof.
  constructor; cbn; intros.
  - intros i d I. cbn in I. lia.
  - exists []. split; constructor.
Qed.
Lemma sorted_effect kinds x x' r : ordered lt -> Good kinds x -> Sorted kinds x -> effect x x' r -> Sorted kinds x'.
Proof.
  intros Or G [P V] E. pose proof (g_kind _ _ G) as K.
  destruct E as [x' r D H _ _|x' n a Nf Ek Em Ei O H|x' n a Ek Em Ei O H].
  - constructor; intro n; destruct (D n) as (D1 & D2 & D3); rewrite ?D3, ?H; auto.
  - constructor; intro m; destruct (Nat.eq_dec m n) as [->|N]; rewrite ?(O m N); auto; intro Z.
    + rewrite Ei, K, Z. cbn [put_item]. now apply heappush_ok; auto.
    + destruct (V n Z) as (l & V1 & V2). exists (a :: l). rewrite H. split; [now constructor|].
      rewrite Ei, K, Z. cbn [put_item]. destruct (heappush_ok lt Or _ a (P n Z)) as [_ ->]. now constructor.
    + destruct (V m Z) as (l & V1 & V2). exists l. rewrite H. split; [now apply sv_put_other; auto|exact V2].
  - assert (Q : fst (kinds n) = KPriority -> exists l', q_items (x_q x' n) = l' /\
        Permutation (q_items (x_q x n)) (a :: l') /\ heap lt l' /\ forall b, In b (q_items (x_q x n)) -> lt b a = false).
    { intro Z. rewrite K, Z in Ei. cbn [get_item] in Ei. destruct (heappop_ok lt Or (q_items (x_q x n)) (P n Z)) as (a' & l' & E' & R1 & R2 & R3).
      - intro X. rewrite X in Ei. discriminate.
      - rewrite E' in Ei. injection Ei as -> <-. eauto. }
    constructor; intro m; destruct (Nat.eq_dec m n) as [->|N]; rewrite ?(O m N); auto; intro Z.
    + destruct (Q Z) as (l' & -> & _ & R & _). exact R.
    + destruct (Q Z) as (l' & -> & R1 & _ & R3). destruct (V n Z) as (l & V1 & V2). exists l'. rewrite H. split; [|reflexivity].
      apply (sv_get lt n a _ l); auto.
      * now rewrite V2.
      * intros b I. apply R3. now rewrite <- V2.
    + destruct (V m Z) as (l & V1 & V2). exists l. rewrite H. split; [now apply sv_get_other; auto|exact V2].
Qed.
Lemma good_exec kinds P x ls x' : qexec lt P x ls x' -> Good kinds x -> Good kinds x'.
Proof. induction 1 as [|? ? ? ? ? ? _ S _ IH]; [auto|]. intro G. apply IH. eapply good_effect; [exact G|]. eapply qstep_effect, S. Qed.
Lemma sorted_exec kinds P x ls x' : ordered lt -> qexec lt P x ls x' -> Good kinds x -> Sorted kinds x -> Sorted kinds x'.
Proof.
  intro O. induction 1 as [|? ? ? ? ? ? _ S _ IH]; [auto|]. intros G Q. pose proof (qstep_effect _ _ _ _ S) as E. apply IH.
  - eapply good_effect; eauto.
  - eapply sorted_effect; eauto.
Qed.
End Q.

(** * What a step reports *)
Section R.
Context {A : Type} (lt : A -> A -> bool).
Definition reported (x : qst A) (l : qlabel A) (x' : qst A) (r : qres A) : Prop :=
  match r with
  | QNone => exists n a, puts_now x l n a /\ x_hist x' = HPut n a :: x_hist x
  | QItem a => exists n, gets_now x l n /\ x_hist x' = HGet n a :: x_hist x
  | _ => x_hist x' = x_hist x /\ forall n, q_items (x_q x' n) = q_items (x_q x n)
  end.
Lemma put_nowait_reported x y l n a x' r : x_q y = x_q x -> x_hist y = x_hist x ->
  puts_now x l n a -> put_nowait lt y n a = (x', r) -> reported x l x' r.
Proof.
  intros Eq Eh P. unfold put_nowait. destruct (full _); [intros [= <- <-]; cbn; now rewrite Eq|].
  destruct (wakeup_next _ _). intros [= <- <-]. cbn. rewrite Eh. eauto.
Qed.
Lemma get_nowait_reported x y l n x' r : x_q y = x_q x -> x_hist y = x_hist x ->
  gets_now x l n -> get_nowait lt y n = Some (x', r) -> reported x l x' r.
Proof.
  intros Eq Eh P. unfold get_nowait. destruct (empty _); [intros [= <- <-]; cbn; now rewrite Eq|].
  destruct (get_item _ _ _) as [[a i]|]; [|discriminate]. destruct (wakeup_next _ _). intros [= <- <-]. cbn. rewrite Eh. eauto.
Qed.
Lemma items_upd (f : nat -> queue A) n q m : q_items q = q_items (f n) -> q_items (upd f n q m) = q_items (f m).
Proof. intro E. unfold upd. destruct (Nat.eqb_spec m n) as [->|]; auto. Qed.
Lemma put_turn_reported x l rest t n a x' r : puts_now x l n a -> put_turn lt x rest t n a = (x', r) -> reported x l x' r.
Proof.
  intro P. unfold put_turn. destruct (full _).
  - destruct (s_current _); intros [= <- <-]; cbn; (split; [reflexivity|]); intro m; [|reflexivity]. now apply items_upd.
  - apply (put_nowait_reported x (set_pend x t None)); auto.
Qed.
Lemma get_turn_reported x l rest t n x' r : gets_now x l n -> get_turn lt x rest t n = Some (x', r) -> reported x l x' r.
Proof.
  intro P. unfold get_turn. destruct (empty _).
  - destruct (s_current _); intros [= <- <-]; cbn; (split; [reflexivity|]); intro m; [|reflexivity]. now apply items_upd.
  - apply (get_nowait_reported x (set_pend x t None)); auto.
Qed.
Theorem qstep_reported x l x' r : qstep lt x l = Some (x', r) -> reported x l x' r.
Proof.
  unfold qstep. destruct (s_halt _); [discriminate|]. destruct l as [kl|n a|n|n a|n|].
  - destruct (_ && _); [|discriminate]. destruct (step _ _) as [[k s]|]; [|discriminate]. intros [= <- <-]. cbn. auto.
  - destruct (s_ctl _) as [|[t| | ] rest]; try discriminate. destruct (user_control x); [|discriminate]. intros [= E].
    revert E. apply put_turn_reported. cbn. auto.
  - destruct (s_ctl _) as [|[t| | ] rest]; try discriminate. destruct (user_control x); [|discriminate].
    apply get_turn_reported. cbn. auto.
  - destruct (user_control x); [|discriminate]. intros [= E]. revert E. apply (put_nowait_reported x x); cbn; auto.
  - destruct (user_control x); [|discriminate]. apply (get_nowait_reported x x); cbn; auto.
  - destruct (s_ctl (x_k x)) as [|[t| | ] rest] eqn:Ec; try discriminate.
    destruct (x_pend x t) as [[n a|n]|] eqn:Ep; [| |discriminate]; destruct (k_exc _).
    + intros [= <- <-]. cbn. auto.
    + intros [= E]. revert E. apply put_turn_reported. cbn. eauto.
    + intros [= <- <-]. cbn. auto.
    + apply get_turn_reported. cbn. eauto.
Qed.

Lemma served_perm n h l : served lt n h l -> Permutation (puts n h) (gets n h ++ l).
Proof.
  induction 1 as [|a h l _ IH|a h l l' _ IH P _|m a h l N _ IH|m a h l N _ IH]; cbn; rewrite ?Nat.eqb_refl;
    try (destruct (Nat.eqb_spec m n); [congruence|]); rewrite ?app_nil_r; auto.
  - rewrite IH. rewrite <- app_assoc. apply Permutation_app_head. symmetry. apply Permutation_cons_append.
  - rewrite IH, P, <- app_assoc. reflexivity.
Qed.
Lemma stacked_perm n (h : list (hist A)) l : stacked n h l -> Permutation (puts n h) (gets n h ++ l).
Proof.
  induction 1 as [|a h l _ IH|a h l _ IH|m a h l N _ IH|m a h l N _ IH]; cbn; rewrite ?Nat.eqb_refl;
    try (destruct (Nat.eqb_spec m n); [congruence|]); rewrite ?app_nil_r; auto.
  - rewrite IH. rewrite <- app_assoc. apply Permutation_app_head. symmetry. apply Permutation_cons_append.
  - rewrite IH, <- app_assoc. reflexivity.
Qed.
Lemma nothing_lost kinds x n : Good kinds x -> Sorted lt kinds x -> Permutation (puts n (x_hist x)) (gets n (x_hist x) ++ q_items (x_q x n)).
Proof.
  intros G S. destruct (fst (kinds n)) eqn:E.
  - now rewrite (g_fifo _ _ G n E).
  - destruct (g_served _ _ _ S n E) as (l & V & P). rewrite (served_perm _ _ _ V). now apply Permutation_app_head.
  - rewrite (stacked_perm _ _ _ (g_lifo _ _ G n E)). apply Permutation_app_head. symmetry. apply Permutation_rev.
Qed.
End R.

(** * Executions which can be computed *)
Section X.
Context {A : Type} (lt : A -> A -> bool).
Lemma qrun_exec x ls x' : qrun lt x ls = Some x' -> qexec lt any x ls x'.
Proof.
  revert x. induction ls as [|l ls IH]; intro x; cbn; [intros [= <-]; constructor|].
  destruct (qstep lt x l) as [[x1 r]|] eqn:E; [|discriminate]. intro H. eapply qexec_step; [exact Logic.I|exact E|auto].
Qed.
Definition quiet (x : qst A) (l : qlabel A) : bool :=
  match l with
  | XUser (LOp (OpCancel _ _)) | XUser (LOp (OpKill _)) | XUser (LCancelNow _ _) => false
  | XUser (LAwait _ ok) => ok
  | XPut _ _ | XGet _ => match s_ctl (x_k x) with FRun t :: _ => Nat.eqb (k_must (s_task (x_k x) t)) 0 | _ => true end
  | _ => true
  end.
Lemma quiet_ok x l : quiet x l = true -> undisturbed_q x l.
Proof.
  destruct l as [kl|n a|n|n a|n|]; cbn; auto.
  - intro H. split; [destruct kl; cbn; auto|]. intros u p I. split; [intro m; split|]; intro; subst; discriminate.
  - intros H t rest E. rewrite E in H. now apply Nat.eqb_eq.
  - intros H t rest E. rewrite E in H. now apply Nat.eqb_eq.
Qed.
Fixpoint qruns (chk : qst A -> qlabel A -> bool) (x : qst A) (ls : list (qlabel A)) : option (qst A) :=
  match ls with
  | [] => Some x
  | l :: ls' => if chk x l then match qstep lt x l with Some (x1, _) => qruns chk x1 ls' | None => None end else None
  end.
Lemma qruns_exec chk (P : qst A -> qlabel A -> Prop) x ls x' :
  (forall x l, chk x l = true -> P x l) -> qruns chk x ls = Some x' -> qexec lt P x ls x'.
Proof.
  intro C. revert x. induction ls as [|l ls IH]; intro x; cbn; [intros [= <-]; constructor|].
  destruct (chk x l) eqn:Q; [|discriminate].
  destruct (qstep lt x l) as [[x1 r]|] eqn:E; [|discriminate]. intro H. eapply qexec_step; [now apply C|exact E|auto].
Qed.
End X.

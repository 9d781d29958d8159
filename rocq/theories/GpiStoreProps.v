(** Property theorems C98 (handles of the interface). *)
From Verif Require Import Base TextModel GpiStoreModel.
From Coq Require Import Lia String.
Open Scope nat_scope.

Definition inv (s : st) : Prop :=
  (forall k n, In (k, n) (s_map s) -> exists h, s_mem s n = Some h /\ h_name h = k) /\ NoDup (map fst (s_map s)) /\
  (forall n, s_mem s n <> None -> n < s_next s).
(** What is in the store stays there, and stays what it is. *)
Definition keeps (s s' : st) : Prop := forall k n, dict_get (s_map s) k = Some n -> dict_get (s_map s') k = Some n /\ s_mem s' n = s_mem s n.
Lemma keeps_refl s : keeps s s.
Proof. now split. Qed.
Lemma keeps_trans a b c : keeps a b -> keeps b c -> keeps a c.
Proof. intros H K k n D. destruct (H k n D) as [E F]. destruct (K k n E) as [G I]. split; [exact G|congruence]. Qed.

Lemma dget_in {A} (d : list (pystr * A)) k x : dict_get d k = Some x -> In (k, x) d.
Proof.
  induction d as [|[k' y] d IH]; cbn; [discriminate|]. destruct (pystr_eqb k' k) eqn:E.
  - apply pystr_eqb_eq in E. intro H. injection H as <-. left. now subst.
  - intro H. right. now apply IH.
Qed.
Lemma in_dget {A} (d : list (pystr * A)) k x : NoDup (map fst d) -> In (k, x) d -> dict_get d k = Some x.
Proof.
  induction d as [|[k' y] d IH]; cbn; [intros _ []|]. intros N [H|H].
  - injection H as <- <-. assert (E : pystr_eqb k' k' = true) by now apply pystr_eqb_eq. now rewrite E.
  - inversion N as [|? ? N1 N2]; subst. destruct (pystr_eqb k' k) eqn:E; [|now apply IH].
    apply pystr_eqb_eq in E. subst. elim N1. apply in_map_iff. now exists (k, x).
Qed.
Lemma dget_none {A} (d : list (pystr * A)) k : dict_get d k = None -> ~ In k (map fst d).
Proof.
  induction d as [|[k' y] d IH]; cbn; [tauto|]. destruct (pystr_eqb k' k) eqn:E; [discriminate|]. intros H [K|K]; [|now apply IH].
  subst. assert (pystr_eqb k k = true) by now apply pystr_eqb_eq. congruence.
Qed.
Lemma upd_same {A} (f : nat -> A) n a : upd f n a n = a.
Proof. unfold upd. now rewrite Nat.eqb_refl. Qed.
Lemma upd_other {A} (f : nat -> A) n a m : m <> n -> upd f n a m = f m.
Proof. intro N. unfold upd. apply Nat.eqb_neq in N. now rewrite N. Qed.
Lemma upd_upd {A} (f : nat -> A) n a b m : upd (upd f n a) n b m = upd f n b m.
Proof. unfold upd. now destruct (m =? n). Qed.

Lemma store_ok s h s' n : inv s -> check_and_store s h = (s', n) ->
  inv s' /\ keeps s s' /\ dict_get (s_map s') (h_name h) = Some n /\ s_bad s' = s_bad s /\ s_iters s' = s_iters s /\
  (dict_get (s_map s) (h_name h) = None -> s_mem s' n = Some h) /\ s_next s <= s_next s' /\
  (forall m, s_mem s' m = None \/ s_mem s' m = s_mem s m \/ m = n).
Proof.
  intros (A & B & C) E. unfold check_and_store, alloc in E. cbn [s_map s_mem s_next s_iters s_bad] in E.
  assert (F : s_mem s (s_next s) = None) by (destruct (s_mem s (s_next s)) eqn:Q; [|reflexivity]; assert (s_next s < s_next s) by (apply C; congruence); lia).
  destruct (dict_get (s_map s) (h_name h)) as [old|] eqn:D.
  - unfold free in E. cbn [s_map s_mem s_next s_iters s_bad] in E. rewrite upd_same in E. injection E as <- <-.
    assert (U : forall m, upd (upd (s_mem s) (s_next s) (Some h)) (s_next s) None m = s_mem s m).
    { intro m. rewrite upd_upd. destruct (Nat.eq_dec m (s_next s)) as [->|N]; [now rewrite upd_same|now apply upd_other]. }
    split; [|split; [|split; [|split; [|split; [|split; [|split]]]]]]; cbn.
    + split; [|split]; cbn.
      * intros k n I. rewrite U. now apply A.
      * exact B.
      * intros n. rewrite U. intro Q. apply C in Q. lia.
    + intros k n I. cbn. now rewrite U.
    + exact D.
    + reflexivity.
    + reflexivity.
    + discriminate.
    + lia.
    + intro m. right. left. apply U.
  - injection E as <- <-. split; [|split; [|split; [|split; [|split; [|split; [|split]]]]]]; cbn.
    + split; [|split]; cbn.
      * intros k n [I|I]; [injection I as <- <-; exists h; split; [apply upd_same|reflexivity]|].
        destruct (A k n I) as (h' & M & N). exists h'. split; [|exact N]. rewrite upd_other; [exact M|]. intros ->. congruence.
      * constructor; [now apply dget_none|exact B].
      * intro n. destruct (Nat.eq_dec n (s_next s)) as [->|N]; [lia|]. rewrite upd_other by exact N. intro Q. apply C in Q. lia.
    + intros k n I. cbn. destruct (pystr_eqb (h_name h) k) eqn:Q; [apply pystr_eqb_eq in Q; subst; congruence|]. split; [exact I|].
      apply upd_other. intros ->. apply dget_in in I. destruct (A _ _ I) as (h' & M & _). congruence.
    + assert (Q : pystr_eqb (h_name h) (h_name h) = true) by now apply pystr_eqb_eq. now rewrite Q.
    + reflexivity.
    + reflexivity.
    + intros _. apply upd_same.
    + lia.
    + intro m. destruct (Nat.eq_dec m (s_next s)) as [->|N]; [now right; right|]. right. left. now apply upd_other.
Qed.
(** What a call which uses the store does. *)
Definition good (s s' : st) (r : option nat) : Prop :=
  inv s' /\ keeps s s' /\ s_bad s' = s_bad s /\ s_next s <= s_next s' /\
  forall n, r = Some n -> exists k, dict_get (s_map s') k = Some n.
Lemma stored_good s h : inv s -> good s (fst (stored s h)) (snd (stored s h)).
Proof.
  intro I. unfold stored. destruct h as [h|].
  - destruct (check_and_store s h) as [s' n] eqn:E. destruct (store_ok s h s' n I E) as (A & B & C & D & _ & _ & F & _). cbn.
    split; [exact A|]. split; [exact B|]. split; [exact D|]. split; [exact F|]. intros m H. injection H as <-. eauto.
  - cbn [fst snd]. split; [exact I|]. split; [apply keeps_refl|]. split; [reflexivity|]. split; [lia|discriminate].
Qed.
Lemma good_none s : inv s -> good s s None.
Proof. intro I. split; [exact I|]. split; [apply keeps_refl|]. split; [reflexivity|]. split; [lia|discriminate]. Qed.
Lemma child_good impls s p skip a : inv s -> good s (fst (child_by_name impls s p skip a)) (snd (child_by_name impls s p skip a)).
Proof. intro I. unfold child_by_name. destruct (if skipped skip p then None else ask a p); now apply stored_good. Qed.
Lemma good_trans s s1 s2 r r2 : good s s1 r -> good s1 s2 r2 -> good s s2 r2.
Proof.
  intros (_ & B & C & D & _) (A' & B' & C' & D' & E'). split; [exact A'|]. split; [now apply (keeps_trans s s1 s2)|].
  split; [congruence|]. split; [lia|exact E'].
Qed.
Lemma next_good impls i p l : forall s, inv s -> good s (fst (fst (next_from impls s i p l))) (snd (fst (next_from impls s i p l))).
Proof.
  induction l as [|f l IH]; intros s I; cbn [next_from]; [now apply good_none|]. destruct f as [n r| |a|a].
  - cbn [fst snd]. now apply (stored_good s (Some (Hdl i n r))).
  - now apply IH.
  - pose proof (child_good impls s p (Some i) a I) as G. destruct (child_by_name impls s p (Some i) a) as [s1 [n|]]; cbn [fst snd] in *; [exact G|].
    apply (good_trans s s1 _ None); [exact G|]. apply IH. apply G.
  - pose proof (stored_good s (first_of (skipped (Some i)) a impls) I) as G. unfold child_from_handle.
    destruct (stored s (first_of (skipped (Some i)) a impls)) as [s1 [n|]]; cbn [fst snd] in *; [exact G|].
    apply (good_trans s s1 _ None); [exact G|]. apply IH. apply G.
Qed.

(** The objects a call uses exist. *)
Definition uses_live (s : st) (o : op) : Prop :=
  match o with
  | OName p _ | ONative p _ | OIndex p _ => s_mem s p <> None
  | ONext t p _ => s_mem s p <> None /\ s_iters s t <> None
  | _ => True
  end.
Definition is_clear (o : op) : Prop := o = OClear.
Definition is_native (o : op) : Prop := match o with ONative _ _ => True | _ => False end.

Lemma bad_inv s x : inv s -> inv (St (s_map s) (s_mem s) (s_next s) (s_iters s) (x :: s_bad s)).
Proof. exact (fun I => I). Qed.
Lemma alloc_good s h : inv s -> inv (fst (alloc s h)) /\ keeps s (fst (alloc s h)).
Proof.
  intros (A & B & C). unfold alloc. cbn [fst].
  assert (F : s_mem s (s_next s) = None) by (destruct (s_mem s (s_next s)) eqn:Q; [|reflexivity]; assert (s_next s < s_next s) by (apply C; congruence); lia).
  assert (K : forall k n, In (k, n) (s_map s) -> n <> s_next s) by (intros k n I ->; destruct (A _ _ I) as (h' & M & _); congruence).
  split.
  - split; [|split]; cbn.
    + intros k n I. rewrite upd_other by (now apply (K k)). now apply A.
    + exact B.
    + intro n. destruct (Nat.eq_dec n (s_next s)) as [->|N]; [lia|]. rewrite upd_other by exact N. intro Q. apply C in Q. lia.
  - intros k n D. cbn. split; [exact D|]. apply upd_other, (K k). now apply dget_in.
Qed.
(** Clearing frees what is in the store, each handle once. *)
Lemma clear_ok s : inv s -> s_bad (clear s) = s_bad s /\ s_map (clear s) = [] /\
  (forall n, s_mem (clear s) n = if existsb (Nat.eqb n) (map snd (s_map s)) then None else s_mem s n) /\ s_next (clear s) = s_next s.
Proof.
  intros (A & B & C). unfold clear. cbn [s_map s_mem s_next s_iters s_bad].
  assert (G : forall l s0, (forall k n, In (k, n) l -> exists h, s_mem s0 n = Some h /\ h_name h = k) -> NoDup (map fst l) ->
    let s' := fold_left (fun s e => free s (snd e)) l s0 in
    s_bad s' = s_bad s0 /\ (forall n, s_mem s' n = if existsb (Nat.eqb n) (map snd l) then None else s_mem s0 n) /\ s_next s' = s_next s0).
  { clear. induction l as [|[k n] l IH]; intros s0 A B; cbn [fold_left map existsb snd]; [now split|].
    destruct (A k n (or_introl eq_refl)) as (h & M & N). unfold free at 2 4 6. rewrite M. inversion B as [|? ? B1 B2]; subst.
    edestruct IH as (P & Q & R); [|exact B2|split; [exact P|split; [|exact R]]].
    - intros k' n' I. cbn. destruct (A k' n' (or_intror I)) as (h' & M' & N'). exists h'. split; [|exact N'].
      rewrite upd_other; [exact M'|]. intros ->. apply B1. rewrite M in M'. injection M' as <-. subst. apply in_map_iff. now exists (h_name h, n).
    - intro m. cbn in Q. rewrite Q. destruct (Nat.eqb_spec m n) as [->|E]; cbn [orb].
      + destruct (existsb _ _); [reflexivity|apply upd_same].
      + destruct (existsb _ _); [reflexivity|now apply upd_other]. }
  destruct (G (s_map s) s A B) as (P & Q & R). split; [exact P|]. split; [reflexivity|]. split; [exact Q|exact R].
Qed.
Lemma step_ok impls s o : inv s -> let s' := fst (step impls s o) in
  inv s' /\ (~ is_clear o -> keeps s s') /\ (uses_live s o -> s_bad s' = s_bad s) /\
  (~ is_native o -> forall n, snd (step impls s o) = Some n -> exists k, dict_get (s_map s') k = Some n).
Proof.
  intro I. cbv zeta.
  assert (G : forall s' r, good s s' r -> inv s' /\ (~ is_clear o -> keeps s s') /\ (uses_live s o -> s_bad s' = s_bad s) /\
     (~ is_native o -> forall n, r = Some n -> exists k, dict_get (s_map s') k = Some n)).
  { intros s' r (A & B & C & _ & E). split; [exact A|]. split; [now intros _|]. split; [now intros _|now intros _]. }
  destruct o as [a|p a|p a|p a|t i|t p l|]; cbn [step].
  - apply G. now apply stored_good.
  - unfold by_name, with_parent in *. destruct (s_mem s p) as [h|] eqn:M.
    + apply G. now apply child_good.
    + cbn. split; [exact I|]. split; [intros _; exact (keeps_refl s)|]. split; [now intros []|discriminate].
  - unfold by_name_native, with_parent in *. destruct (s_mem s p) as [h|] eqn:M.
    + destruct (ask a (h_impl h)) as [x|]; [|apply G; now apply good_none]. pose proof (alloc_good s x I) as [A B].
      destruct (alloc s x) as [s' n] eqn:E. cbn [fst snd] in *. split; [exact A|]. split; [now intros _|]. split.
      * unfold alloc in E. injection E as <- _. reflexivity.
      * intro N. now elim N.
    + cbn. split; [exact I|]. split; [intros _; exact (keeps_refl s)|]. split; [now intros []|discriminate].
  - unfold by_index, with_parent in *. destruct (s_mem s p) as [h|] eqn:M.
    + apply G. now apply stored_good.
    + cbn. split; [exact I|]. split; [intros _; exact (keeps_refl s)|]. split; [now intros []|discriminate].
  - cbn. split; [exact I|]. split; [intros _; exact (keeps_refl s)|]. split; [reflexivity|discriminate].
  - unfold next. destruct (s_iters s t) as [i|] eqn:T; [destruct (s_mem s p) as [h|] eqn:M|].
    + pose proof (next_good impls i (h_impl h) l s I) as N. destruct (next_from impls s i (h_impl h) l) as [[s1 [n|]] l']; cbn [fst snd] in *; [now apply G|].
      destruct N as (A & B & C & D & E). split; [exact A|]. split; [now intros _|]. split; [now intros _|discriminate].
    + cbn. split; [exact I|]. split; [intros _; exact (keeps_refl s)|]. split; [|discriminate]. intros [Q _]. now elim Q.
    + cbn. split; [exact I|]. split; [intros _; exact (keeps_refl s)|]. split; [|discriminate]. intros [_ Q]. now elim Q.
  - cbn [fst snd]. destruct (clear_ok s I) as (A & B & C & D). destruct I as (_ & _ & L). split; [|split; [|split; [now intros _|discriminate]]].
    + split; [rewrite B; intros ? ? []|]. split; [rewrite B; constructor|]. intro n. rewrite C, D. destruct (existsb _ _); [now intro Q|apply L].
    + intro N. now elim N.
Qed.
Lemma init_inv : inv init.
Proof. split; [intros ? ? []|]. split; [constructor|]. intros n H. now elim H. Qed.
Lemma run_ok impls l : forall s, inv s -> inv (run impls s l) /\ (Forall (fun o => ~ is_clear o) l -> keeps s (run impls s l)).
Proof.
  induction l as [|o l IH]; intros s I; cbn [run]; [split; [exact I|intros _; exact (keeps_refl s)]|].
  destruct (step_ok impls s o I) as (A & B & _). destruct (IH _ A) as [C D]. split; [exact C|]. intro F. inversion F; subst.
  apply (keeps_trans s (fst (step impls s o))); auto.
Qed.

(** * One handle for one name *)
(** Whatever was called before, and whatever is called in between except the final clearing: two calls which find objects (other than
    native look-ups) give the same handle if and only if the handles have the same full name; and a handle stays what it was. *)
Theorem C98_unique impls l0 o1 l o2 s1 s2 n1 n2 :
  step impls (run impls init l0) o1 = (s1, Some n1) -> step impls (run impls s1 l) o2 = (s2, Some n2) ->
  ~ is_native o1 -> ~ is_native o2 -> Forall (fun o => ~ is_clear o) l ->
  exists h1 h2, s_mem s1 n1 = Some h1 /\ s_mem s2 n1 = Some h1 /\ s_mem s2 n2 = Some h2 /\ (n1 = n2 <-> h_name h1 = h_name h2).
Proof.
  intros E1 E2 N1 N2 F. destruct (run_ok impls l0 init init_inv) as [I0 _]. destruct (step_ok impls _ o1 I0) as (I1 & _ & _ & R1).
  rewrite E1 in I1, R1. cbn [fst snd] in *. destruct (R1 N1 n1 eq_refl) as [k1 D1]. destruct (run_ok impls l s1 I1) as [I2 K].
  destruct (step_ok impls _ o2 I2) as (I3 & K3 & _ & R3). rewrite E2 in I3, K3, R3. cbn [fst snd] in *. destruct (R3 N2 n2 eq_refl) as [k2 D2].
  assert (C : ~ is_clear o2) by (intro C; unfold is_clear in C; subst o2; discriminate E2).
  pose proof (keeps_trans _ _ _ (K F) (K3 C)) as K'. destruct (K' k1 n1 D1) as [D1' M1].
  destruct I1 as (A1 & _). destruct (A1 k1 n1 (dget_in _ _ _ D1)) as (h1 & H1 & Q1).
  destruct I3 as (A3 & B3 & _). destruct (A3 k2 n2 (dget_in _ _ _ D2)) as (h2 & H2 & Q2).
  exists h1, h2. split; [exact H1|]. rewrite M1. split; [exact H1|]. split; [exact H2|]. split; intro Q.
  - subst n2. rewrite M1, H1 in H2. now injection H2 as ->.
  - assert (k1 = k2) by congruence. subst k2. congruence.
Qed.
Print Assumptions C98_unique.
Definition ex_answers (i : nat) (n : string) (r : Z) : answers := fun j => if Nat.eqb j i then Some (lit n, r) else None.
Example C98_unique_ex : let s1 := fst (step [0; 1] init (ORoot (ex_answers 0 "top" 7))) in
  snd (step [0; 1] init (ORoot (ex_answers 0 "top" 7))) = Some 0 /\
  map (fun l => snd (step [0; 1] (run [0; 1] s1 l) (OName 0 (ex_answers 1 "top.a" 8)))) [[]; [OName 0 (ex_answers 1 "top.a" 8); OIndex 0 (ex_answers 0 "top[0]" 9)]] = [Some 1; Some 1].
Proof. now split. Qed.

(** * Nothing freed is used *)
Fixpoint live_uses (impls : list nat) (s : st) (l : list op) : Prop :=
  match l with [] => True | o :: l' => uses_live s o /\ live_uses impls (fst (step impls s o)) l' end.
(** If the callers use only parents and iterators which exist, no freed handle is used and none is freed twice. *)
Theorem C98_no_fault impls l : live_uses impls init l -> s_bad (run impls init l) = [].
Proof.
  intro U. change ([] : list nat) with (s_bad init). pose proof init_inv as I. revert U I. generalize init. induction l as [|o l IH]; intros s U I; [reflexivity|].
  destruct U as [U1 U2]. destruct (step_ok impls s o I) as (A & _ & B & _). cbn [run]. rewrite (IH _ U2 A). now apply B.
Qed.
Print Assumptions C98_no_fault.
Definition full (s : st) : Prop := forall n h, s_mem s n = Some h -> dict_get (s_map s) (h_name h) = Some n.
Lemma stored_full s h : inv s -> full s -> full (fst (stored s h)).
Proof.
  intros I F. unfold stored. destruct h as [h|]; [|exact F]. destruct (check_and_store s h) as [s' n] eqn:E.
  destruct (store_ok s h s' n I E) as (A & K & D & _ & _ & _ & _ & M). cbn [fst]. intros m x X. destruct (M m) as [Q|[Q|Q]]; [congruence| |].
  - rewrite Q in X. apply (K _ _ (F m x X)).
  - subst m. destruct A as (A & _). destruct (A _ _ (dget_in _ _ _ D)) as (y & Y & N). rewrite Y in X. injection X as <-. now rewrite N.
Qed.
Lemma child_full impls s p skip a : inv s -> full s -> full (fst (child_by_name impls s p skip a)).
Proof. intros I F. unfold child_by_name. destruct (if skipped skip p then None else ask a p); now apply stored_full. Qed.
Lemma next_full impls i p l : forall s, inv s -> full s -> full (fst (fst (next_from impls s i p l))).
Proof.
  induction l as [|f l IH]; intros s I F; cbn [next_from]; [exact F|]. destruct f as [n r| |a|a].
  - cbn [fst]. now apply (stored_full s (Some (Hdl i n r))).
  - now apply IH.
  - pose proof (child_good impls s p (Some i) a I) as (G & _). pose proof (child_full impls s p (Some i) a I F) as H.
    destruct (child_by_name impls s p (Some i) a) as [s1 [n|]]; cbn [fst snd] in *; [exact H|]. now apply IH.
  - unfold child_from_handle. pose proof (stored_good s (first_of (skipped (Some i)) a impls) I) as (G & _).
    pose proof (stored_full s (first_of (skipped (Some i)) a impls) I F) as H.
    destruct (stored s (first_of (skipped (Some i)) a impls)) as [s1 [n|]]; cbn [fst snd] in *; [exact H|]. now apply IH.
Qed.
Lemma clear_full s : inv s -> full s -> forall n, s_mem (clear s) n = None.
Proof.
  intros I F n. destruct (clear_ok s I) as (_ & _ & C & _). rewrite C. destruct (existsb (Nat.eqb n) (map snd (s_map s))) eqn:E; [reflexivity|].
  destruct (s_mem s n) as [h|] eqn:M; [|reflexivity]. apply F in M. apply dget_in in M.
  assert (X : existsb (Nat.eqb n) (map snd (s_map s)) = true); [|congruence]. apply existsb_exists. exists n. split; [|apply Nat.eqb_refl].
  apply in_map_iff. now exists (h_name h, n).
Qed.
Lemma step_full impls s o : inv s -> full s -> ~ is_native o -> full (fst (step impls s o)).
Proof.
  intros I F N. destruct o as [a|p a|p a|p a|t i|t p l|]; cbn [step].
  - now apply stored_full.
  - unfold by_name, with_parent. destruct (s_mem s p); [now apply child_full|exact F].
  - now elim N.
  - unfold by_index, with_parent. destruct (s_mem s p); [now apply stored_full|exact F].
  - exact F.
  - unfold next. destruct (s_iters s t) as [i|]; [destruct (s_mem s p) as [h|]|]; [|exact F|exact F].
    pose proof (next_full impls i (h_impl h) l s I F) as G. destruct (next_from impls s i (h_impl h) l) as [[s1 [n|]] l']; exact G.
  - cbn [fst]. intros n h H. rewrite (clear_full s I F n) in H. discriminate H.
Qed.
Lemma run_app impls a b : forall s, run impls s (a ++ b) = run impls (run impls s a) b.
Proof. induction a as [|o a IH]; intro s; cbn [run app]; [reflexivity|apply IH]. Qed.
(** Without native look-ups every handle which exists is the one in the store under its name; so clearing leaves none. *)
Theorem C98_no_leak impls l : Forall (fun o => ~ is_native o) l ->
  (forall n h, s_mem (run impls init l) n = Some h -> dict_get (s_map (run impls init l)) (h_name h) = Some n) /\
  (forall n, s_mem (run impls init (l ++ [OClear])) n = None).
Proof.
  intro F. assert (G : inv (run impls init l) /\ full (run impls init l)).
  { assert (F0 : full init) by (intros n h H; discriminate H). pose proof init_inv as I. revert F0 I. generalize init. induction F as [|o l N _ IH]; intros s F0 I; [now split|].
    cbn [run]. apply IH; [now apply step_full|]. apply (step_ok impls s o I). }
  destruct G as [I G]. split; [exact G|]. rewrite run_app. cbn [run step fst]. now apply clear_full.
Qed.
Print Assumptions C98_no_leak.
Example C98_no_leak_ex : let l := [ORoot (ex_answers 0 "top" 7); OName 0 (ex_answers 1 "top.a" 8); OName 0 (ex_answers 1 "top.a" 8)] in
  live_uses [0; 1] init l /\ Forall (fun o => ~ is_native o) l /\ s_next (run [0; 1] init l) = 3 /\
  map (fun n => match s_mem (run [0; 1] init l) n with Some h => Some (h_raw h) | None => None end) [0; 1; 2] = [Some 7%Z; Some 8%Z; None].
Proof. cbv zeta. split; [cbn; repeat split; discriminate|]. split; [repeat constructor; now intros []|]. now split. Qed.

(** * The search *)
(** A child is taken from the implementation of the parent if this one has it, otherwise from the first registered one which has it; the
    one to be skipped is not asked. *)
Definition candidates (impls : list nat) (p : nat) (skip : option nat) : list nat :=
  filter (fun i => negb (skipped skip i)) (p :: filter (fun i => negb (Nat.eqb i p)) impls).
Fixpoint first_answer (a : answers) (l : list nat) : option hdl :=
  match l with [] => None | i :: l' => match a i with Some (n, r) => Some (Hdl i n r) | None => first_answer a l' end end.
Theorem C98_search impls s p skip a : child_by_name impls s p skip a = stored s (first_answer a (candidates impls p skip)).
Proof.
  unfold child_by_name, candidates. cbn [filter].
  assert (G : first_of (fun i => skipped skip i || (i =? p)) a impls =
              first_answer a (filter (fun i => negb (skipped skip i)) (filter (fun i => negb (i =? p)) impls))).
  { induction impls as [|i l IH]; [reflexivity|]. cbn [first_of filter]. destruct (i =? p); cbn [negb].
    - rewrite orb_true_r. exact IH.
    - rewrite orb_false_r. cbn [filter]. destruct (skipped skip i); cbn [negb]; [exact IH|]. cbn [first_answer]. unfold ask.
      destruct (a i) as [[n r]|]; [reflexivity|exact IH]. }
  destruct (skipped skip p); cbn [negb first_answer]; [now rewrite G|]. unfold ask. destruct (a p) as [[n r]|]; [reflexivity|now rewrite G].
Qed.
Print Assumptions C98_search.
Example C98_search_ex : candidates [0; 1; 2] 1 None = [1; 0; 2] /\ candidates [0; 1; 2] 1 (Some 1) = [0; 2].
Proof. now split. Qed.
(** The handle that is returned is new with this object if the name was not known, and has the name of the answer. *)
Theorem C98_answer impls l0 h s' n : let s := run impls init l0 in stored s (Some h) = (s', Some n) ->
  (exists h', s_mem s' n = Some h' /\ h_name h' = h_name h) /\
  (dict_get (s_map s) (h_name h) = None -> s_mem s n = None /\ s_mem s' n = Some h) /\
  (forall m, dict_get (s_map s) (h_name h) = Some m -> n = m /\ s_mem s' n = s_mem s n).
Proof.
  intros s E. destruct (run_ok impls l0 init init_inv) as [I _]. fold s in I. unfold stored in E. destruct (check_and_store s h) as [s1 n1] eqn:C.
  injection E as -> ->. destruct (store_ok s h s' n I C) as (A & K & D & _ & _ & N & _ & M). split; [|split].
  - destruct A as (A & _). apply (A _ _ (dget_in _ _ _ D)).
  - intro Q. split; [|now apply N]. unfold check_and_store, alloc in C. cbn [s_map] in C. rewrite Q in C. injection C as _ <-.
    destruct I as (_ & _ & L). destruct (s_mem s (s_next s)) eqn:X; [|reflexivity]. assert (s_next s < s_next s) by (apply L; congruence). lia.
  - intros m Q. destruct (K _ _ Q) as [K1 K2]. rewrite D in K1. injection K1 as ->. now split.
Qed.
Print Assumptions C98_answer.
Example C98_answer_ex : let s := run [0] init [ORoot (ex_answers 0 "top" 7)] in
  snd (stored s (Some (Hdl 0 (lit "top.a") 8))) = Some 1 /\ dict_get (s_map s) (lit "top.a") = None /\
  snd (stored s (Some (Hdl 0 (lit "top") 9))) = Some 0 /\ dict_get (s_map s) (lit "top") = Some 0.
Proof. now repeat split. Qed.

(** * Iteration *)
(** The items an iterator gives for which some implementation has a handle. *)
Definition named (impls : list nat) (i p : nat) (f : found) : list hdl :=
  match f with
  | Native n r => [Hdl i n r]
  | NativeNoName => []
  | NotNative a => match first_answer a (candidates impls p (Some i)) with Some h => [h] | None => [] end
  | NotNativeNoName a => match first_answer a (filter (fun j => negb (Nat.eqb i j)) impls) with Some h => [h] | None => [] end
  end.
(** All handles until the end. *)
Fixpoint drain (fuel : nat) (impls : list nat) (s : st) (i p : nat) (l : list found) : st * list nat :=
  match fuel with
  | O => (s, [])
  | S k => match next_from impls s i p l with
           | (s, None, _) => (s, [])
           | (s, Some n, l') => let '(s, ns) := drain k impls s i p l' in (s, n :: ns)
           end
  end.
Lemma first_of_skip impls i a : first_of (skipped (Some i)) a impls = first_answer a (filter (fun j => negb (Nat.eqb i j)) impls).
Proof.
  induction impls as [|j l IH]; [reflexivity|]. cbn [first_of filter]. unfold skipped at 1. destruct (i =? j); cbn [negb]; [exact IH|].
  cbn [first_answer]. unfold ask. destruct (a j) as [[n r]|]; [reflexivity|exact IH].
Qed.
Lemma next_named impls i p l : forall s, inv s ->
  match next_from impls s i p l with
  | (s', None, _) => s' = s /\ flat_map (named impls i p) l = []
  | (s', Some n, l') => exists h, (exists h', s_mem s' n = Some h' /\ h_name h' = h_name h) /\ (exists k, dict_get (s_map s') k = Some n) /\
      flat_map (named impls i p) l = h :: flat_map (named impls i p) l' /\ List.length l' < List.length l
  end.
Proof.
  assert (K : forall s h, inv s -> match stored s (Some h) with (s', Some n) => (exists h', s_mem s' n = Some h' /\ h_name h' = h_name h) /\ (exists k, dict_get (s_map s') k = Some n) | _ => False end).
  { intros s h I. unfold stored. destruct (check_and_store s h) as [s' n] eqn:E. destruct (store_ok s h s' n I E) as ((A & _) & _ & D & _).
    split; [apply (A _ _ (dget_in _ _ _ D))|eauto]. }
  induction l as [|f l IH]; intros s I; cbn [next_from]; [now split|]. destruct f as [n r| |a|a]; cbn [flat_map named].
  - specialize (K s (Hdl i n r) I). destruct (stored s (Some (Hdl i n r))) as [s' [m|]]; [|destruct K]. exists (Hdl i n r). destruct K as [K1 K2].
    split; [exact K1|]. split; [exact K2|]. split; [reflexivity|cbn; lia].
  - specialize (IH s I). destruct (next_from impls s i p l) as [[s' [m|]] l']; [|exact IH]. destruct IH as (h & A & B & C & D). exists h.
    split; [exact A|]. split; [exact B|]. split; [exact C|cbn; lia].
  - rewrite C98_search. destruct (first_answer a (candidates impls p (Some i))) as [h|].
    + specialize (K s h I). destruct (stored s (Some h)) as [s' [m|]]; [|destruct K]. exists h. destruct K as [K1 K2].
      split; [exact K1|]. split; [exact K2|]. split; [reflexivity|cbn; lia].
    + cbn [stored app]. specialize (IH s I). destruct (next_from impls s i p l) as [[s' [m|]] l']; [|exact IH]. destruct IH as (h & A & B & C & D). exists h.
      split; [exact A|]. split; [exact B|]. split; [exact C|cbn; lia].
  - unfold child_from_handle. rewrite first_of_skip. destruct (first_answer a (filter (fun j => negb (i =? j)) impls)) as [h|].
    + specialize (K s h I). destruct (stored s (Some h)) as [s' [m|]]; [|destruct K]. exists h. destruct K as [K1 K2].
      split; [exact K1|]. split; [exact K2|]. split; [reflexivity|cbn; lia].
    + cbn [stored app]. specialize (IH s I). destruct (next_from impls s i p l) as [[s' [m|]] l']; [|exact IH]. destruct IH as (h & A & B & C & D). exists h.
      split; [exact A|]. split; [exact B|]. split; [exact C|cbn; lia].
Qed.
(** Iterating to the end gives, in order, a handle for every item which an implementation can name, and nothing else. *)
Theorem C98_iterate impls i p l : forall fuel s s' ns, inv s -> List.length l < fuel -> drain fuel impls s i p l = (s', ns) ->
  Forall2 (fun n h => exists h', s_mem s' n = Some h' /\ h_name h' = h_name h) ns (flat_map (named impls i p) l).
Proof.
  intros fuel. revert l. induction fuel as [|fuel IH]; intros l s s' ns I L D; [lia|]. cbn [drain] in D.
  pose proof (next_named impls i p l s I) as N. pose proof (next_good impls i p l s I) as G.
  destruct (next_from impls s i p l) as [[s1 [n|]] l']; cbn [fst snd] in G.
  - destruct N as (h & (h' & M & Q) & (k & Y) & F & Z). destruct (drain fuel impls s1 i p l') as [s2 ns'] eqn:E. injection D as <- <-.
    rewrite F. assert (L' : List.length l' < fuel) by lia. constructor; [|apply (IH l' s1 s2 ns' (proj1 G) L' E)].
    exists h'. split; [|exact Q]. assert (X : keeps s1 s2).
    { destruct G as (I1 & _). clear - E I1. revert l' s1 s2 ns' I1 E. induction fuel as [|fuel IH]; intros l s s' ns I E; cbn [drain] in E; [injection E as <- _; apply keeps_refl|].
      pose proof (next_good impls i p l s I) as G. destruct (next_from impls s i p l) as [[s1 [n|]] l']; cbn [fst snd] in G.
      - destruct (drain fuel impls s1 i p l') as [s2 ns'] eqn:D. injection E as <- _. destruct G as (A & B & _). apply (keeps_trans s s1 s2 B). apply (IH _ _ _ _ A D).
      - injection E as <- _. apply G. }
    destruct (X k n Y) as [_ X2]. now rewrite X2.
  - injection D as <- <-. destruct N as [_ ->]. constructor.
Qed.
Print Assumptions C98_iterate.
Example C98_iterate_ex : inv init /\ snd (drain 9 [0; 1] init 0 0 [Native (lit "a") 1; NativeNoName; NotNative (ex_answers 1 "b" 2); NotNative (ex_answers 0 "c" 3); Native (lit "a") 4]) = [0; 1; 0] /\
  map h_name (flat_map (named [0; 1] 0 0) [Native (lit "a") 1; NativeNoName; NotNative (ex_answers 1 "b" 2); NotNative (ex_answers 0 "c" 3); Native (lit "a") 4]) = [lit "a"; lit "b"; lit "a"].
Proof. split; [exact init_inv|]. now split. Qed.

(** * What does not hold *)
(** Native look-ups bypass the store: every one gives another handle for the same object, and no one frees them. *)
Theorem C98_native_refuted : exists l, let s := run [0] init l in
  map (fun n => match s_mem s n with Some h => Some (h_name h, h_raw h) | None => None end) [1; 2] = [Some (lit "top.a", 8%Z); Some (lit "top.a", 8%Z)] /\
  map (fun n => match s_mem (fst (step [0] s OClear)) n with Some h => Some (h_raw h) | None => None end) [0; 1; 2] = [None; Some 8%Z; Some 8%Z].
Proof. exists [ORoot (ex_answers 0 "top" 7); ONative 0 (ex_answers 0 "top.a" 8); ONative 0 (ex_answers 0 "top.a" 8)]. now split. Qed.
Print Assumptions C98_native_refuted.
(** Two objects with one full name are taken for one: the second cannot be reached. *)
Theorem C98_confused_refuted : exists l, let s := run [0; 1] init l in
  snd (step [0; 1] s (OName 0 (ex_answers 1 "top.a" 9))) = Some 1 /\
  match s_mem (fst (step [0; 1] s (OName 0 (ex_answers 1 "top.a" 9)))) 1 with Some h => h_raw h = 8%Z /\ h_impl h = 0 | None => False end.
Proof. exists [ORoot (ex_answers 0 "top" 7); OName 0 (ex_answers 0 "top.a" 8)]. now split. Qed.
Print Assumptions C98_confused_refuted.
(** Asking an iterator again after its end uses a freed object; and so does asking a handle after the store was cleared. *)
Theorem C98_iterator_refuted : exists l, s_bad (run [0] init l) = [5] /\ l = [ORoot (ex_answers 0 "top" 7); OIter 5 0; ONext 5 0 []; ONext 5 0 []].
Proof. eexists. split; [|reflexivity]. reflexivity. Qed.
Print Assumptions C98_iterator_refuted.
Theorem C98_stale_refuted : exists l, s_bad (run [0] init l) = [0] /\ l = [ORoot (ex_answers 0 "top" 7); OClear; OName 0 (ex_answers 0 "top.a" 8)].
Proof. eexists. split; [|reflexivity]. reflexivity. Qed.
Print Assumptions C98_stale_refuted.

(** Freeing what is not there, or using it as a parent, is recorded: [C98_no_fault] says something about both. *)
Theorem C98_recorded s n a : s_mem s n = None -> s_bad (free s n) = n :: s_bad s /\ s_bad (fst (by_name [] s n a)) = n :: s_bad s /\
  s_bad (fst (by_index s n a)) = n :: s_bad s /\ s_bad (fst (by_name_native s n a)) = n :: s_bad s.
Proof. intro M. unfold free, by_name, by_index, by_name_native, with_parent. rewrite M. repeat split; reflexivity. Qed.
Print Assumptions C98_recorded.
Example C98_recorded_ex : s_mem init 3 = None /\ s_bad (free init 3) = [3].
Proof. split; reflexivity. Qed.
(** A native search gives a new handle of what the parent's implementation has found, and nothing if it has found nothing; no handle in use
    changes and the store is not changed. *)
Theorem C98_native s p h a : s_mem s p = Some h ->
  match ask a (h_impl h) with
  | Some x => snd (by_name_native s p a) = Some (s_next s) /\ s_mem (fst (by_name_native s p a)) (s_next s) = Some x /\ s_map (fst (by_name_native s p a)) = s_map s /\
              forall m, m <> s_next s -> s_mem (fst (by_name_native s p a)) m = s_mem s m
  | None => by_name_native s p a = (s, None)
  end.
Proof.
  intro M. unfold by_name_native, with_parent. rewrite M. destruct (ask a (h_impl h)) as [x|]; [|reflexivity]. unfold alloc. cbn [fst snd s_mem s_map].
  split; [reflexivity|]. split; [apply upd_same|]. split; [reflexivity|]. intros m N. now apply upd_other.
Qed.
Print Assumptions C98_native.
Example C98_native_ex : let s := run [0] init [ORoot (ex_answers 0 "top" 7)] in s_mem s 0 = Some (Hdl 0 (lit "top") 7) /\
  snd (by_name_native s 0 (ex_answers 0 "top.a" 8)) = Some 1 /\ by_name_native s 0 (fun _ => None) = (s, None).
Proof. repeat split; reflexivity. Qed.

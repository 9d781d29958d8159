(** C99: the main loop of simulations made with Verilator. *)
From Verif Require Import Base VerilatorModel.
From Coq Require Import Lia.
Open Scope Z_scope.

Section Any.
Context {W : Type} (S : sim W) (trace flush : bool).
Notation step := (step S trace flush).
Notation steps := (steps S trace flush).
Definition kind (e : call * Z * W) : call := fst (fst e).
Definition at_time (e : call * Z * W) : Z := snd (fst e).
Definition in_state (e : call * Z * W) : W := snd e.

Lemma reach (P : st -> Prop) w : P (start w) -> (forall s, P s -> P (step s)) -> forall n, P (steps n (start w)).
Proof. intros A B n. induction n as [|n IH]; cbn [VerilatorModel.steps]; [exact A|now apply B]. Qed.

(** * The order of the calls *)
(** Calls of the value callbacks until nothing changes: at least one. *)
Definition values (n : nat) : list call := repeat KValue (Datatypes.S n).
(** One evaluation of the design; rounds of evaluations with the ReadWrite callbacks; the rest of a time step. *)
Definition evaluation (n : nat) : list call := [KEval; KClear; KInertial] ++ values n.
Definition round (r : list nat * nat) : list call := flat_map evaluation (fst r) ++ [KReadWrite; KInertial] ++ values (snd r).
Definition dumps : list call := if trace then KDump :: (if flush then [KFlush] else []) else [].
Definition time_step (rs : list (list nat * nat)) : list call := flat_map round rs ++ [KEndStep; KReadOnly] ++ dumps.
(** A time step and the beginning of the next one. *)
Definition advance (x : list (list nat * nat) * nat * nat) : list call :=
  let '(rs, a, b) := x in time_step rs ++ KNextTime :: values a ++ KTimed :: values b.
Definition begun (a : nat) (l : list (list (list nat * nat) * nat * nat)) : list call := KStart :: values a ++ flat_map advance l.
(** Every round evaluates at least once; every time step has at least one round. *)
Definition proper (rs : list (list nat * nat)) : Prop := Forall (fun r => fst r <> []) rs.
Definition wf (l : list (list (list nat * nat) * nat * nat)) : Prop := Forall (fun x => proper (fst (fst x)) /\ fst (fst x) <> []) l.
Definition closes : list call := if trace then [KClose] else [].

Definition shape (p : place) (ks : list call) : Prop :=
  match p with
  | PBegin => ks = []
  | PHead => exists a l, wf l /\ ks = begun a l
  | PEval => exists a l rs ns, wf l /\ proper rs /\ ks = begun a l ++ flat_map round rs ++ flat_map evaluation ns
  | PEvalTest | PRw => exists a l rs ns, wf l /\ proper rs /\ ns <> [] /\ ks = begun a l ++ flat_map round rs ++ flat_map evaluation ns
  | PRwTest | PEndStep => exists a l rs, wf l /\ proper rs /\ rs <> [] /\ ks = begun a l ++ flat_map round rs
  | PTimed => exists a l rs b, wf l /\ proper rs /\ rs <> [] /\ ks = begun a l ++ time_step rs ++ KNextTime :: values b
  | PFinal => exists a l o, wf l /\ (forall rs, o = Some rs -> proper rs /\ rs <> []) /\ ks = begun a l ++ (match o with Some rs => time_step rs | None => [] end)
  | PDone _ => exists a l o, wf l /\ (forall rs, o = Some rs -> proper rs /\ rs <> []) /\
      ks = begun a l ++ (match o with Some rs => time_step rs | None => [] end) ++ [KFinal; KEnd] ++ closes
  | PSettle PHead => exists m, ks = KStart :: repeat KValue m \/
      exists a l rs b, wf l /\ proper rs /\ rs <> [] /\ ks = begun a l ++ time_step rs ++ KNextTime :: values b ++ KTimed :: repeat KValue m
  | PSettle PEvalTest => exists m a l rs ns, wf l /\ proper rs /\ ks = begun a l ++ flat_map round rs ++ flat_map evaluation ns ++ [KEval; KClear; KInertial] ++ repeat KValue m
  | PSettle PRwTest => exists m a l rs ns, wf l /\ proper rs /\ ns <> [] /\ ks = begun a l ++ flat_map round rs ++ flat_map evaluation ns ++ [KReadWrite; KInertial] ++ repeat KValue m
  | PSettle PTimed => exists m a l rs, wf l /\ proper rs /\ rs <> [] /\ ks = begun a l ++ time_step rs ++ KNextTime :: repeat KValue m
  | PSettle _ => False
  end.
Lemma repeat_snoc {A} (x : A) n : repeat x n ++ [x] = repeat x (Datatypes.S n).
Proof. induction n as [|n IH]; [reflexivity|]. cbn [repeat app]. now rewrite IH. Qed.
Lemma flat_snoc {A B} (f : A -> list B) l x : flat_map f (l ++ [x]) = flat_map f l ++ f x.
Proof. rewrite flat_map_app. cbn [flat_map]. now rewrite app_nil_r. Qed.
Lemma kinds_app (l : list (call * Z * W)) k t w : map kind (l ++ [(k, t, w)]) = map kind l ++ [k].
Proof. now rewrite map_app. Qed.
Lemma begun_snoc a l x : begun a (l ++ [x]) = begun a l ++ advance x.
Proof. unfold begun. rewrite flat_snoc. cbn [app]. now rewrite app_assoc. Qed.
Lemma wf_snoc l rs a b : wf l -> proper rs -> rs <> [] -> wf (l ++ [(rs, a, b)]).
Proof. intros. apply Forall_app. split; [assumption|]. constructor; [split; assumption|constructor]. Qed.

Lemma shape_settle k ks again : shape (PSettle k) ks -> shape (if again : bool then PSettle k else k) (ks ++ [KValue]).
Proof.
  destruct k; cbn [shape]; try contradiction.
  - intros (m & [->|(a & l & rs & b & L & P & N & ->)]).
    + destruct again; cbn [shape]; [exists (Datatypes.S m); left|exists m, []; split; [constructor|]]; cbn [app]; rewrite repeat_snoc; [reflexivity|].
      unfold begun. cbn [flat_map]. now rewrite app_nil_r.
    + destruct again; cbn [shape].
      * exists (Datatypes.S m). right. exists a, l, rs, b. do 3 (split; [assumption|]). rewrite <- repeat_snoc. repeat rewrite <- app_assoc. cbn [app]. repeat rewrite <- app_assoc. reflexivity.
      * exists a, (l ++ [(rs, b, m)]). split; [now apply wf_snoc|]. rewrite begun_snoc. unfold advance, values. rewrite <- (repeat_snoc KValue m).
        repeat rewrite <- app_assoc. cbn [app]. repeat rewrite <- app_assoc. reflexivity.
  - intros (m & a & l & rs & ns & L & P & ->). destruct again; cbn [shape].
    + exists (Datatypes.S m), a, l, rs, ns. do 2 (split; [assumption|]). rewrite <- repeat_snoc. repeat rewrite <- app_assoc. reflexivity.
    + exists a, l, rs, (ns ++ [m]). do 2 (split; [assumption|]). split; [now destruct ns|]. rewrite flat_snoc. unfold evaluation, values. rewrite <- (repeat_snoc KValue m).
      repeat rewrite <- app_assoc. reflexivity.
  - intros (m & a & l & rs & ns & L & P & N & ->). destruct again; cbn [shape].
    + exists (Datatypes.S m), a, l, rs, ns. do 3 (split; [assumption|]). rewrite <- repeat_snoc. repeat rewrite <- app_assoc. reflexivity.
    + exists a, l, (rs ++ [(ns, m)]). split; [assumption|]. split; [apply Forall_app; split; [assumption|constructor; [assumption|constructor]]|]. split; [now destruct rs|].
      rewrite flat_snoc. unfold round, values. cbn [fst snd]. rewrite <- (repeat_snoc KValue m). repeat rewrite <- app_assoc. reflexivity.
  - intros (m & a & l & rs & L & P & N & ->). destruct again; cbn [shape].
    + exists (Datatypes.S m), a, l, rs. do 3 (split; [assumption|]). rewrite <- repeat_snoc. repeat rewrite <- app_assoc. cbn [app]. reflexivity.
    + exists a, l, rs, m. do 3 (split; [assumption|]). unfold values. rewrite <- (repeat_snoc KValue m). repeat rewrite <- app_assoc. cbn [app]. reflexivity.
Qed.
Lemma shape_step s : shape (pc s) (map kind (log s)) -> shape (pc (step s)) (map kind (log (step s))).
Proof.
  unfold VerilatorModel.step. destruct (pc s) as [|k| | | | | | | | |c] eqn:E; intro H.
  - cbn [shape] in H. cbn [pc log go calls]. rewrite kinds_app, H. cbn [shape]. exists 0%nat. now left.
  - destruct (value S (time s) (world s)) as [w again]. cbn [pc log]. rewrite kinds_app. now apply shape_settle.
  - destruct (finish S (world s)); cbn [pc log go]; destruct H as (a & l & L & ->).
    + exists a, l, None. split; [assumption|]. split; [discriminate|]. now rewrite app_nil_r.
    + exists a, l, [], []. split; [assumption|]. split; [constructor|]. cbn. now rewrite app_nil_r.
  - cbn [pc log go calls time world]. rewrite !kinds_app. destruct H as (a & l & rs & ns & L & P & ->). exists 0%nat, a, l, rs, ns. do 2 (split; [assumption|]).
    cbn [repeat]. repeat rewrite <- app_assoc. reflexivity.
  - cbn [pc log go]. destruct (needed S (world s)); cbn [shape] in *.
    + destruct H as (a & l & rs & ns & L & P & _ & ->). now exists a, l, rs, ns.
    + exact H.
  - cbn [pc log go calls time world]. rewrite !kinds_app. destruct H as (a & l & rs & ns & L & P & N & ->). exists 0%nat, a, l, rs, ns. do 3 (split; [assumption|]).
    cbn [repeat]. repeat rewrite <- app_assoc. reflexivity.
  - cbn [pc log go]. destruct (needed S (world s)); cbn [shape] in *.
    + destruct H as (a & l & rs & L & P & _ & ->). exists a, l, rs, []. do 2 (split; [assumption|]). cbn [flat_map]. now rewrite app_nil_r.
    + exact H.
  - destruct H as (a & l & rs & L & P & N & H).
    set (s1 := when trace _ _). assert (K : map kind (log s1) = begun a l ++ time_step rs).
    { unfold s1, when, time_step, dumps. destruct trace; [destruct flush|]; cbn [log calls]; rewrite !kinds_app, H; repeat rewrite <- app_assoc; reflexivity. }
    clearbody s1. destruct (next_time S s1 =? none_pending); cbn [pc log go calls].
    + exists a, l, (Some rs). split; [assumption|]. split; [|exact K]. intros x X. injection X as <-. now split.
    + rewrite kinds_app, K. exists 0%nat, a, l, rs. do 3 (split; [assumption|]). cbn [repeat]. now rewrite <- app_assoc.
  - cbn [pc log go calls]. rewrite kinds_app. destruct H as (a & l & rs & b & L & P & N & ->). exists 0%nat. right. exists a, l, rs, b. do 3 (split; [assumption|]).
    cbn [repeat]. repeat rewrite <- app_assoc. cbn [app]. reflexivity.
  - destruct H as (a & l & o & L & P & H). cbn [pc go]. exists a, l, o. do 2 (split; [assumption|]). cbn [log go]. unfold wrap_up, when, closes.
    destruct trace; cbn [log calls]; rewrite !kinds_app, H; repeat rewrite <- app_assoc; reflexivity.
  - now rewrite E.
Qed.
(** Every simulation which ends has made exactly these calls: the start callbacks; time steps, each of rounds of evaluations until no evaluation is
    needed, each evaluation followed by the inertial writes and by the value callbacks until they settle, each round followed by the ReadWrite
    callbacks, then once the end of the step, the ReadOnly callbacks and the dump; between two time steps once the NextTimeStep callbacks and then the
    timers, both followed by the value callbacks; at the end once [final], the end-of-simulation callbacks and the closing of the dump. *)
Theorem C99_calls w n c : pc (steps n (start w)) = PDone c ->
  exists a l o, wf l /\ (forall rs, o = Some rs -> proper rs /\ rs <> []) /\
    map kind (log (steps n (start w))) = begun a l ++ (match o with Some rs => time_step rs | None => [] end) ++ [KFinal; KEnd] ++ closes.
Proof.
  intro E. pose proof (reach (fun s => shape (pc s) (map kind (log s))) w (eq_refl : shape PBegin []) shape_step n) as H. cbv beta in H. now rewrite E in H.
Qed.

(** * What is true when the callbacks run *)
Definition settled (t : Z) (w : W) : Prop := exists w0, value S t w0 = (w, false).
Definition sound_place (s : st) : Prop :=
  match pc s with
  | PHead | PEvalTest | PRwTest | PTimed => settled (time s) (world s)
  | PRw | PEndStep => settled (time s) (world s) /\ needed S (world s) = false
  | PFinal => finish S (world s) = true \/ next_time S s = none_pending
  | _ => True
  end.
Definition sound_entry (e : call * Z * W) : Prop :=
  let '(k, t, w) := e in
  match k with
  | KReadWrite => settled t w /\ needed S w = false
  | KReadOnly => exists w', w = do S KEndStep t w' /\ settled t w' /\ needed S w' = false
  | KTimed => settled t w
  | KFinal => finish S w = true \/ Z.min (deadline S t w) (match slot S t w with Some u => u | None => none_pending end) = none_pending
  | _ => True
  end.
Lemma sound_step s : (match pc s with PSettle PRw | PSettle PEndStep | PSettle PFinal => False | PSettle (PSettle _) => False | _ => True end) ->
  sound_place s -> Forall sound_entry (log s) -> sound_place (step s) /\ Forall sound_entry (log (step s)).
Proof.
  assert (A : forall (l : list (call * Z * W)) e, Forall sound_entry l -> sound_entry e -> Forall sound_entry (l ++ [e])).
  { intros l e H1 H2. apply Forall_app. split; [exact H1|]. now constructor. }
  unfold sound_place at 1, VerilatorModel.step. intros X H F. destruct (pc s) as [|k| | | | | | | | |c] eqn:E.
  - split; [exact Logic.I|]. cbn [log go calls]. now apply A.
  - destruct (value S (time s) (world s)) as [w again] eqn:V. cbn [log]. split; [|now apply A]. unfold sound_place. cbn [pc time world].
    destruct again; [exact Logic.I|]. destruct k; try exact Logic.I; try contradiction; now exists (world s).
  - destruct (finish S (world s)) eqn:Q; (split; [|exact F]); unfold sound_place; cbn [pc go]; [now left|exact Logic.I].
  - split; [exact Logic.I|]. cbn [log go calls]. now repeat apply A.
  - split; [|exact F]. unfold sound_place. cbn [pc go world]. destruct (needed S (world s)) eqn:Q; [exact Logic.I|]. now split.
  - split; [exact Logic.I|]. cbn [log go calls]. apply A; [|exact Logic.I]. now apply A.
  - split; [|exact F]. unfold sound_place. cbn [pc go world]. destruct (needed S (world s)) eqn:Q; [exact Logic.I|]. now split.
  - set (s1 := when trace _ _). assert (K : Forall sound_entry (log s1)).
    { assert (B : Forall sound_entry (log (calls S KReadOnly (calls S KEndStep s)))).
      { cbn [log calls]. apply A; [now apply A|]. cbn [sound_entry time world calls]. exists (world s). split; [reflexivity|exact H]. }
      unfold s1, when. destruct trace; [destruct flush|]; cbn [log calls]; [apply A; [|exact Logic.I]| |exact B]; (apply A; [exact B|exact Logic.I]). }
    clearbody s1. destruct (next_time S s1 =? none_pending) eqn:Q.
    + split; [|exact K]. unfold sound_place. cbn [pc go]. right. apply Z.eqb_eq in Q. exact Q.
    + split; [exact Logic.I|]. cbn [log go calls]. now apply A.
  - split; [exact Logic.I|]. cbn [log go calls]. now apply A.
  - split; [exact Logic.I|]. assert (B : Forall sound_entry (log (calls S KEnd (calls S KFinal s)))).
    { cbn [log calls]. apply A; [|exact Logic.I]. apply A; [exact F|exact H]. }
    cbn [log go]. unfold wrap_up, when. destruct trace; [|exact B]. cbn [log calls]. now apply A.
  - split; [|exact F]. unfold sound_place. now rewrite E.
Qed.
Lemma sound_reach w n : sound_place (steps n (start w)) /\ Forall sound_entry (log (steps n (start w))).
Proof.
  induction n as [|n [IH1 IH2]]; cbn [VerilatorModel.steps]; [split; [exact Logic.I|constructor]|]. apply sound_step; [|exact IH1|exact IH2].
  pose proof (reach (fun s => shape (pc s) (map kind (log s))) w (eq_refl : shape PBegin []) shape_step n) as H. cbv beta in H.
  destruct (pc (steps n (start w))) as [|k| | | | | | | | |c]; try exact Logic.I. destruct k; try exact Logic.I; exact H.
Qed.
(** At any time of any run, also of one which never ends: ReadWrite callbacks are called when the value callbacks have settled and the design needs no
    evaluation; ReadOnly callbacks in a state which differs from such a state by the end of the step only: everything written before is
    evaluated, at this time. Timers are called when the value callbacks of the NextTimeStep callbacks have settled. *)
Theorem C99_phases w n t x k : In (k, t, x) (log (steps n (start w))) ->
  (k = KReadWrite -> settled t x /\ needed S x = false) /\
  (k = KReadOnly -> exists y, x = do S KEndStep t y /\ settled t y /\ needed S y = false) /\
  (k = KTimed -> settled t x).
Proof.
  intro H. destruct (sound_reach w n) as [_ F]. rewrite Forall_forall in F. specialize (F _ H). cbn [sound_entry] in F.
  split; [|split]; intros ->; exact F.
Qed.
(** The simulation is ended only if the design or the testbench has asked for it or if no event is left, of the testbench and of the design. *)
Theorem C99_end w n t x : In (KFinal, t, x) (log (steps n (start w))) ->
  finish S x = true \/ (none_pending <= deadline S t x /\ forall u, slot S t x = Some u -> none_pending <= u).
Proof.
  intro H. destruct (sound_reach w n) as [_ F]. rewrite Forall_forall in F. specialize (F _ H). cbn [sound_entry] in F. destruct F as [F|F]; [now left|right].
  split; [lia|]. intros u U. rewrite U in F. lia.
Qed.

(** * Time *)
(** Two calls one after the other are at the same time, or the second is that of the NextTimeStep callbacks, at the earliest of all events. *)
Definition follows (a b : call * Z * W) : Prop :=
  kind b <> KNextTime /\ at_time b = at_time a \/
  kind b = KNextTime /\ at_time b = Z.min (deadline S (at_time a) (in_state b)) (match slot S (at_time a) (in_state b) with Some u => u | None => none_pending end)
  /\ at_time b <> none_pending.
Inductive chain : list (call * Z * W) -> Z -> Prop :=
| chain_nil t : chain [] t
| chain_one e : chain [e] (at_time e)
| chain_snoc l a b : chain (l ++ [a]) (at_time a) -> follows a b -> chain (l ++ [a; b]) (at_time b).
Lemma chain_call l t k w : k <> KNextTime -> chain l t -> chain (l ++ [(k, t, w)]) t.
Proof.
  intros K H. inversion H; subst.
  - exact (chain_one (k, t, w)).
  - apply (chain_snoc [] e (k, at_time e, w)); [exact H|]. left. now split.
  - rewrite <- app_assoc. cbn [app]. replace (l0 ++ [a; b; (k, at_time b, w)]) with ((l0 ++ [a]) ++ [b; (k, at_time b, w)]) by (now rewrite <- app_assoc).
    apply (chain_snoc (l0 ++ [a]) b (k, at_time b, w)); [now rewrite <- app_assoc|]. left. now split.
Qed.
Lemma chain_next l t u w : l <> [] -> u = Z.min (deadline S t w) (match slot S t w with Some u => u | None => none_pending end) -> u <> none_pending ->
  chain l t -> chain (l ++ [(KNextTime, u, w)]) u.
Proof.
  intros N -> Q H. inversion H; subst.
  - now elim N.
  - apply (chain_snoc [] e (KNextTime, _, w)); [exact H|]. right. now repeat split.
  - rewrite <- app_assoc. cbn [app]. match goal with |- chain (l0 ++ [a; b; ?e]) ?u => replace (l0 ++ [a; b; e]) with ((l0 ++ [a]) ++ [b; e]) by (now rewrite <- app_assoc);
      apply (chain_snoc (l0 ++ [a]) b e) end; [now rewrite <- app_assoc|]. right. now repeat split.
Qed.
Lemma chain_step s : chain (log s) (time s) -> chain (log (step s)) (time (step s)).
Proof.
  intro H. unfold VerilatorModel.step. destruct (pc s) as [|k| | | | | | | | |c] eqn:E.
  - cbn [log time go calls]. now apply chain_call.
  - destruct (value S (time s) (world s)) as [w again]. cbn [log time]. now apply chain_call.
  - destruct (finish S (world s)); exact H.
  - cbn [log time go calls]. repeat (apply chain_call; [discriminate|]). exact H.
  - exact H.
  - cbn [log time go calls]. repeat (apply chain_call; [discriminate|]). exact H.
  - exact H.
  - set (s1 := when trace _ _). assert (K : chain (log s1) (time s1) /\ log s1 <> []).
    { split; [unfold s1, when; destruct trace; [destruct flush|]; cbn [log time calls]; repeat (apply chain_call; [discriminate|]); exact H|].
      unfold s1, when. destruct trace; [destruct flush|]; cbn [log calls]; now intros ?%app_eq_nil. }
    clearbody s1. destruct K as [K N]. destruct (next_time S s1 =? none_pending) eqn:Q; [exact K|]. cbn [log time go calls world].
    apply Z.eqb_neq in Q. unfold next_time in *. now apply (chain_next (log s1) (time s1)).
  - cbn [log time go calls]. now apply chain_call.
  - cbn [log time go]. unfold wrap_up, when. destruct trace; cbn [log time go calls]; repeat (apply chain_call; [discriminate|]); exact H.
  - exact H.
Qed.
Lemma chain_split l t : chain l t -> forall x a b y, l = x ++ a :: b :: y -> follows a b.
Proof.
  induction 1 as [t|e|l a b H IH F]; intros x c d y E; [destruct x; discriminate E|destruct x as [|? [|? ?]]; discriminate E|].
  destruct y as [|z y _] using rev_ind.
  - change (l ++ [a; b]) with (l ++ [a] ++ [b]) in E. rewrite app_assoc in E. change (x ++ [c; d]) with (x ++ [c] ++ [d]) in E. rewrite app_assoc in E.
    apply app_inj_tail in E. destruct E as [E <-]. apply app_inj_tail in E. destruct E as [_ <-]. exact F.
  - replace (x ++ c :: d :: y ++ [z]) with ((x ++ c :: d :: y) ++ [z]) in E by (rewrite <- app_assoc; reflexivity). change (l ++ [a; b]) with (l ++ [a] ++ [b]) in E.
    rewrite app_assoc in E. apply app_inj_tail in E. destruct E as [E _]. apply (IH x c d y E).
Qed.
(** Time goes on only from the ReadOnly phase to the NextTimeStep callbacks, and to the earliest event of the testbench and of the design: none is
    passed over. *)
Theorem C99_time w n x a b y : log (steps n (start w)) = x ++ a :: b :: y ->
  kind b <> KNextTime /\ at_time b = at_time a \/
  kind b = KNextTime /\ at_time b <= deadline S (at_time a) (in_state b) /\ (forall u, slot S (at_time a) (in_state b) = Some u -> at_time b <= u) /\
  (at_time b = deadline S (at_time a) (in_state b) \/ slot S (at_time a) (in_state b) = Some (at_time b)).
Proof.
  intro E. pose proof (reach (fun s => chain (log s) (time s)) w (chain_nil 0) chain_step n) as H. cbv beta in H.
  destruct (chain_split _ _ H x a b y E) as [F|(K & T & N)]; [now left|right]. split; [exact K|]. destruct (slot S (at_time a) (in_state b)) as [v|].
  - split; [lia|]. split; [intros u U; injection U as <-; lia|]. destruct (Z.min_spec (deadline S (at_time a) (in_state b)) v) as [[_ M]|[_ M]]; rewrite T, M; [now left|now right].
  - split; [lia|]. split; [discriminate|]. left. lia.
Qed.
(** If no event is in the past, time never goes back. *)
Lemma chain_sorted l t : (forall t w, t < none_pending -> t <= deadline S t w) -> (forall t w u, slot S t w = Some u -> t <= u) -> (forall e, In e l -> at_time e < none_pending) ->
  chain l t -> forall x a y, l = x ++ a :: y -> Forall (fun b => at_time a <= at_time b) y /\ at_time a <= t.
Proof.
  intros D L B H. induction H as [t|e|l a b H IH F]; intros x c y E; [destruct x; discriminate E| |].
  { destruct x as [|? [|? ?]]; [|discriminate E|discriminate E]. cbn in E. injection E as <- <-. split; [constructor|lia]. }
  assert (LE : at_time a <= at_time b).
  { destruct F as [[_ F]|(_ & F & _)]; [lia|]. assert (BB : at_time a < none_pending) by (apply B; apply in_app_iff; right; now left).
    pose proof (D (at_time a) (in_state b) BB). pose proof (L (at_time a) (in_state b)). destruct (slot S (at_time a) (in_state b)) as [v|]; [specialize (H1 v eq_refl)|]; lia. }
  assert (B' : forall e, In e (l ++ [a]) -> at_time e < none_pending).
  { intros e I. apply B. apply in_app_iff in I. destruct I as [I|[<-|[]]]; apply in_app_iff; [now left|right; now left]. }
  change (l ++ [a; b]) with (l ++ [a] ++ [b]) in E. rewrite app_assoc in E. destruct y as [|z y _] using rev_ind.
  - apply app_inj_tail in E. destruct E as [_ <-]. split; [constructor|lia].
  - replace (x ++ c :: y ++ [z]) with ((x ++ c :: y) ++ [z]) in E by (rewrite <- app_assoc; reflexivity). apply app_inj_tail in E. destruct E as [E <-].
    destruct (IH B' x c y E) as [I1 I2]. split; [|lia]. apply Forall_app. split; [exact I1|]. constructor; [lia|constructor].
Qed.
Definition early (s : st) : Prop := time s < none_pending /\ Forall (fun e : call * Z * W => at_time e < none_pending) (log s).
Lemma early_call k s : early s -> early (calls S k s).
Proof. intros [A B]. split; [exact A|]. cbn [log calls]. apply Forall_app. split; [exact B|]. now constructor. Qed.
Lemma early_step s : (forall t w, t < none_pending -> deadline S t w <= none_pending) -> early s -> early (step s).
Proof.
  intros U H. assert (G : forall p s, early s -> early (go p s)) by (intros p s0 H0; exact H0). unfold VerilatorModel.step. destruct (pc s) as [|k| | | | | | | | |c].
  - now apply G, early_call.
  - destruct (value S (time s) (world s)) as [w again]. destruct H as [A B]. split; [exact A|]. cbn [log]. apply Forall_app. split; [exact B|]. now constructor.
  - destruct (finish S (world s)); now apply G.
  - now apply G, early_call, early_call, early_call.
  - now apply G.
  - now apply G, early_call, early_call.
  - now apply G.
  - set (s1 := when trace _ _). assert (K : early s1) by (unfold s1, when; destruct trace; [destruct flush|]; repeat apply early_call; exact H).
    clearbody s1. destruct (next_time S s1 =? none_pending) eqn:Q; [now apply G|]. apply G, early_call. destruct K as [K1 K2]. split; [|exact K2]. cbn [time].
    apply Z.eqb_neq in Q. unfold next_time in *. pose proof (U (time s1) (world s1) K1). lia.
  - now apply G, early_call.
  - apply G. unfold wrap_up, when. destruct trace; repeat apply early_call; exact H.
  - exact H.
Qed.
Lemma in_range w n : forall e, In e (log (steps n (start w))) -> (forall t w, t < none_pending -> deadline S t w <= none_pending) -> at_time e < none_pending.
Proof.
  intros e I U. pose proof (reach early w (conj eq_refl (Forall_nil _)) (fun s => early_step s U) n) as [_ H]. rewrite Forall_forall in H. now apply H.
Qed.
Theorem C99_monotone w n x a y b z : (forall t w, t < none_pending -> t <= deadline S t w <= none_pending) -> (forall t w u, slot S t w = Some u -> t <= u) ->
  log (steps n (start w)) = x ++ a :: y ++ b :: z -> at_time a <= at_time b.
Proof.
  intros D L E. pose proof (reach (fun s => chain (log s) (time s)) w (chain_nil 0) chain_step n) as H. cbv beta in H.
  assert (B : forall e, In e (log (steps n (start w))) -> at_time e < none_pending).
  { intros e I. apply (in_range w n e I). intros t v Q. now apply D. }
  assert (D' : forall t w, t < none_pending -> t <= deadline S t w) by (intros t v Q; now apply D).
  destruct (chain_sorted _ _ D' L B H x a (y ++ b :: z) E) as [F _]. rewrite Forall_forall in F. apply F. apply in_app_iff. right. now left.
Qed.
(** If every event is later than now, there is one ReadOnly phase per time. *)
Definition past (s : st) : Prop := match pc s with PFinal | PDone _ => True | _ => forall e, In e (log s) -> kind e = KReadOnly -> at_time e < time s end.
Lemma past_call k s : k <> KReadOnly -> (forall e, In e (log s) -> kind e = KReadOnly -> at_time e < time s) ->
  forall e, In e (log (calls S k s)) -> kind e = KReadOnly -> at_time e < time (calls S k s).
Proof. intros K H e I R. cbn [log calls] in I. apply in_app_iff in I. destruct I as [I|[<-|[]]]; [now apply H|]. now elim K. Qed.
Lemma past_step s : (forall t w, t < none_pending -> t < deadline S t w) -> (forall t w u, slot S t w = Some u -> t < u) -> chain (log s) (time s) -> early s ->
  (forall e, In e (log s) -> at_time e <= time s) -> past s -> past (step s).
Proof.
  intros D L C EA LE H. unfold past, VerilatorModel.step in *. destruct (pc s) as [|k| | | | | | | | |c] eqn:E; try (rewrite E; exact Logic.I); try exact Logic.I.
  - cbn [pc go]. now apply (past_call KStart).
  - destruct (value S (time s) (world s)) as [w again]. cbn [pc].
    assert (G : forall e, In e (log s ++ [(KValue, time s, world s)]) -> kind e = KReadOnly -> at_time e < time s).
    { intros e I R. apply in_app_iff in I. destruct I as [I|[<-|[]]]; [now apply H|discriminate R]. }
    destruct again; [exact G|]. destruct k; try exact G; exact Logic.I.
  - destruct (finish S (world s)); cbn [pc go]; [exact Logic.I|exact H].
  - cbn [pc go]. repeat (apply past_call; [discriminate|]). exact H.
  - cbn [pc go]. destruct (needed S (world s)); exact H.
  - cbn [pc go]. repeat (apply past_call; [discriminate|]). exact H.
  - cbn [pc go]. destruct (needed S (world s)); exact H.
  - set (s1 := when trace _ _). assert (K : (forall e, In e (log s1) -> at_time e <= time s1) /\ time s1 < none_pending).
    { destruct EA as [EA _]. split; [|unfold s1, when; destruct trace; [destruct flush|]; exact EA]. intros e. unfold s1, when.
      destruct trace; [destruct flush|]; cbn [log time calls]; rewrite ?in_app_iff; cbn [In]; intro I;
      repeat match goal with H : _ \/ _ |- _ => destruct H as [H|H] | H : False |- _ => destruct H end; subst; cbn; try lia; now apply LE. }
    clearbody s1. destruct K as [K1 K2]. destruct (next_time S s1 =? none_pending) eqn:Q; cbn [pc go]; [exact Logic.I|].
    apply (past_call KNextTime); [discriminate|]. cbn [log time]. intros e I _. specialize (K1 e I). unfold next_time.
    pose proof (D (time s1) (world s1) K2). pose proof (L (time s1) (world s1)). destruct (slot S (time s1) (world s1)) as [u|]; [specialize (H1 u eq_refl)|]; lia.
  - cbn [pc go]. repeat (apply past_call; [discriminate|]). exact H.
Qed.
Lemma past_reach w n : (forall t w, t < none_pending -> t < deadline S t w <= none_pending) -> (forall t w u, slot S t w = Some u -> t < u) -> past (steps n (start w)).
Proof.
  intros D L. induction n as [|n IH]; [intros e []|]. cbn [VerilatorModel.steps].
  pose proof (reach (fun s => chain (log s) (time s)) w (chain_nil 0) chain_step n) as H. cbv beta in H.
  assert (EA : early (steps n (start w))).
  { apply reach; [split; [reflexivity|constructor]|]. intros s. apply early_step. intros t v Q. now apply D. }
  apply past_step; [intros t v Q; now apply D|exact L|exact H|exact EA| |exact IH].
  intros e I. apply in_split in I. destruct I as (x & y & E). refine (proj2 (chain_sorted _ _ _ _ _ H x e y E)).
  - intros t v Q. pose proof (D t v Q). lia.
  - intros t v u U. pose proof (L t v u U). lia.
  - destruct EA as [_ EA]. rewrite Forall_forall in EA. exact EA.
Qed.
Definition once (s : st) : Prop := forall x a y b z, log s = x ++ a :: y ++ b :: z -> kind a = KReadOnly -> kind b = KReadOnly -> at_time a < at_time b.
Lemma once_call k s : k <> KReadOnly -> once s -> once (calls S k s).
Proof.
  intros K H x a y b z E A B. cbn [log calls] in E. destruct z as [|c z _] using rev_ind.
  - replace (x ++ a :: y ++ [b]) with ((x ++ a :: y) ++ [b]) in E by (rewrite <- app_assoc; reflexivity). apply app_inj_tail in E. destruct E as [_ E].
    subst b. now elim K.
  - replace (x ++ a :: y ++ b :: z ++ [c]) with ((x ++ a :: y ++ b :: z) ++ [c]) in E by (rewrite <- app_assoc; cbn [app]; rewrite <- app_assoc; reflexivity).
    apply app_inj_tail in E. destruct E as [E _]. apply (H _ _ _ _ _ E A B).
Qed.
Lemma once_readonly s : (forall e, In e (log s) -> kind e = KReadOnly -> at_time e < time s) -> once s -> once (calls S KReadOnly s).
Proof.
  intros K H x a y b z E A B. cbn [log calls] in E. destruct z as [|c z _] using rev_ind.
  - replace (x ++ a :: y ++ [b]) with ((x ++ a :: y) ++ [b]) in E by (rewrite <- app_assoc; reflexivity). apply app_inj_tail in E. destruct E as [E E2].
    subst b. apply K; [rewrite E; apply in_app_iff; right; now left|exact A].
  - replace (x ++ a :: y ++ b :: z ++ [c]) with ((x ++ a :: y ++ b :: z) ++ [c]) in E by (rewrite <- app_assoc; cbn [app]; rewrite <- app_assoc; reflexivity).
    apply app_inj_tail in E. destruct E as [E _]. apply (H _ _ _ _ _ E A B).
Qed.
Lemma once_step s : past s -> once s -> once (step s).
Proof.
  intros P H. unfold past, VerilatorModel.step in *. destruct (pc s) as [|k| | | | | | | | |c].
  - now apply (once_call KStart).
  - destruct (value S (time s) (world s)) as [w again]. exact (once_call KValue s ltac:(discriminate) H).
  - destruct (finish S (world s)); exact H.
  - now repeat apply (once_call).
  - exact H.
  - now repeat apply (once_call).
  - exact H.
  - set (s1 := when trace _ _). assert (K : once s1).
    { assert (Q : once (calls S KReadOnly (calls S KEndStep s))) by (apply once_readonly; [now apply past_call|now apply once_call]).
      unfold s1, when. destruct trace; [destruct flush|]; repeat (apply once_call; [discriminate|]); exact Q. }
    clearbody s1. destruct (next_time S s1 =? none_pending); [exact K|]. exact (once_call KNextTime (St (pc s1) (next_time S s1) (world s1) (log s1)) ltac:(discriminate) K).
  - now apply (once_call KTimed).
  - change (once (wrap_up S trace (calls S KFinal s))). unfold wrap_up, when. destruct trace; repeat (apply once_call; [discriminate|]); exact H.
  - exact H.
Qed.
Theorem C99_one_readonly w n x a y b z : (forall t w, t < none_pending -> t < deadline S t w <= none_pending) -> (forall t w u, slot S t w = Some u -> t < u) ->
  log (steps n (start w)) = x ++ a :: y ++ b :: z -> kind a = KReadOnly -> kind b = KReadOnly -> at_time a < at_time b.
Proof.
  intros D L. assert (O : once (steps n (start w))); [|exact (O x a y b z)]. induction n as [|n IH]; cbn [VerilatorModel.steps].
  - intros x0 a0 y0 b0 z0 E. destruct x0; discriminate E.
  - apply once_step; [now apply past_reach|exact IH].
Qed.

(** * The end *)
(** If asking for the end is not taken back, nothing is evaluated after the first move of time behind it. *)
Definition unasked (l : list (call * Z * W)) : Prop := forall t v, In (KNextTime, t, v) l -> finish S v = false.
Definition no_eval (l : list (call * Z * W)) : Prop := forall x e y, l = x ++ e :: y -> kind e = KEval -> unasked x.
Lemma no_eval_snoc l e : no_eval l -> (kind e = KEval -> unasked l) -> no_eval (l ++ [e]).
Proof.
  intros H K x c y E R. destruct y as [|d y _] using rev_ind.
  - apply app_inj_tail in E. destruct E as [-> ->]. now apply K.
  - replace (x ++ c :: y ++ [d]) with ((x ++ c :: y) ++ [d]) in E by (rewrite <- app_assoc; reflexivity). apply app_inj_tail in E. destruct E as [E _]. apply (H x c y E R).
Qed.
(** The places from which nothing is evaluated before [gotFinish] is asked. *)
Definition behind (p : place) : bool := match p with PSettle PTimed | PTimed | PSettle PHead | PHead | PFinal | PDone _ => true | _ => false end.
Definition leaving (s : st) : Prop := no_eval (log s) /\ (unasked (log s) \/ finish S (world s) = true /\ behind (pc s) = true).
Lemma unasked_snoc l e : unasked l -> (kind e = KNextTime -> finish S (in_state e) = false) -> unasked (l ++ [e]).
Proof. intros H K t v I. apply in_app_iff in I. destruct I as [I|[->|[]]]; [apply (H t v I)|]. exact (K eq_refl). Qed.
Lemma leaving_call k s : (forall k t w, finish S w = true -> finish S (do S k t w) = true) -> k <> KEval -> k <> KNextTime -> leaving s -> leaving (calls S k s).
Proof.
  intros FD K1 K2 [A B]. split; cbn [log calls world pc].
  - apply no_eval_snoc; [exact A|]. intro Q. now elim K1.
  - destruct B as [B|[B1 B2]]; [left; apply unasked_snoc; [exact B|intro Q; now elim K2]|right; split; [now apply FD|exact B2]].
Qed.
Lemma leaving_step s : (forall k t w, finish S w = true -> finish S (do S k t w) = true) -> (forall t w, finish S w = true -> finish S (fst (value S t w)) = true) ->
  leaving s -> leaving (step s).
Proof.
  intros FD FV H. assert (G : forall p s, leaving s -> (behind (pc s) = true -> behind p = true) -> leaving (go p s)).
  { intros p s0 [A B] Q. split; [exact A|]. destruct B as [B|[B1 B2]]; [now left|right; split; [exact B1|now apply Q]]. }
  unfold VerilatorModel.step. destruct (pc s) as [|k| | | | | | | | |c] eqn:PC.
  - apply G; [now apply leaving_call|]. cbn [pc calls]. now rewrite PC.
  - destruct H as [A B]. pose proof (FV (time s) (world s)) as FV'. destruct (value S (time s) (world s)) as [w again]. cbn [fst] in FV'. split; cbn [log world pc].
    + apply no_eval_snoc; [exact A|discriminate].
    + destruct B as [B|[B1 B2]]; [left; apply unasked_snoc; [exact B|discriminate]|right; split; [now apply FV'|]].
      rewrite PC in B2. destruct again; [exact B2|]. destruct k; try discriminate B2; reflexivity.
  - destruct H as [A B]. destruct (finish S (world s)) eqn:Q; (split; [exact A|]); cbn [log go world pc].
    + right. now split.
    + destruct B as [B|[B1 B2]]; [now left|congruence].
  - assert (U : unasked (log s)) by (destruct H as [_ [B|[_ B]]]; [exact B|rewrite PC in B; discriminate B]).
    apply G; [|cbn [pc calls]; rewrite PC; discriminate]. apply leaving_call; [exact FD|discriminate|discriminate|]. apply leaving_call; [exact FD|discriminate|discriminate|].
    split; cbn [log calls]; [apply no_eval_snoc; [apply H|intros _; exact U]|]. left. apply unasked_snoc; [exact U|discriminate].
  - apply G; [exact H|]. rewrite PC. discriminate.
  - apply G; [repeat (apply leaving_call; [exact FD|discriminate|discriminate|]); exact H|]. cbn [pc calls]. rewrite PC. discriminate.
  - apply G; [exact H|]. rewrite PC. discriminate.
  - set (s1 := when trace _ _). assert (K : leaving s1 /\ pc s1 = PEndStep).
    { split; [unfold s1, when; destruct trace; [destruct flush|]; repeat (apply leaving_call; [exact FD|discriminate|discriminate|]); exact H|].
      unfold s1, when; destruct trace; [destruct flush|]; exact PC. }
    clearbody s1. destruct K as [[K1 K2] K3]. destruct (next_time S s1 =? none_pending).
    + split; [exact K1|]. destruct K2 as [K2|[_ K2]]; [now left|rewrite K3 in K2; discriminate K2].
    + assert (U : unasked (log s1)) by (destruct K2 as [B|[_ B]]; [exact B|rewrite K3 in B; discriminate B]).
      split; cbn [log go calls world pc time].
      * apply no_eval_snoc; [exact K1|discriminate].
      * destruct (finish S (world s1)) eqn:Q; [right; split; [now apply FD|reflexivity]|]. left. apply unasked_snoc; [exact U|]. intros _. exact Q.
  - apply G; [now apply leaving_call|]. cbn [pc calls]. now rewrite PC.
  - apply G; [|reflexivity]. unfold wrap_up, when. destruct trace; repeat (apply leaving_call; [exact FD|discriminate|discriminate|]); exact H.
  - exact H.
Qed.
Theorem C99_leaves w n x t v y : (forall k t w, finish S w = true -> finish S (do S k t w) = true) -> (forall t w, finish S w = true -> finish S (fst (value S t w)) = true) ->
  log (steps n (start w)) = x ++ (KNextTime, t, v) :: y -> finish S v = true -> Forall (fun e => kind e <> KEval) y.
Proof.
  intros FD FV E F. assert (H : leaving (steps n (start w))).
  { apply reach; [|intro s; now apply leaving_step]. split; [intros a b c Q; destruct a; discriminate Q|]. left. intros a b []. }
  destruct H as [H _]. apply Forall_forall. intros e I R. apply in_split in I. destruct I as (y1 & y2 & ->).
  assert (U : unasked (x ++ (KNextTime, t, v) :: y1)).
  { apply (H _ e y2); [|exact R]. rewrite E, <- app_assoc. reflexivity. }
  rewrite (U t v) in F; [discriminate F|]. apply in_app_iff. right. now left.
Qed.
(** The exit status is 1 if an assertion or an error was counted, otherwise 0. *)
Theorem C99_status w n c : pc (steps n (start w)) = PDone c ->
  c = if 0 <? errors S (world (steps n (start w))) then 1 else 0.
Proof.
  revert c. induction n as [|n IH]; [discriminate|]. cbn [VerilatorModel.steps].
  pose proof (reach (fun s => shape (pc s) (map kind (log s))) w (eq_refl : shape PBegin []) shape_step n) as H. cbv beta in H.
  destruct (steps n (start w)) as [p t x l] eqn:E. clear E. cbn [pc world log] in *. intro c. unfold VerilatorModel.step. cbn [pc].
  destruct p as [|k| | | | | | | | |c0]; cbn [VerilatorModel.time world log]; try discriminate.
  - destruct (value S t x) as [v again]. cbn [pc world]. destruct again; [discriminate|]. intros ->. destruct H.
  - destruct (finish S x); discriminate.
  - cbn [pc go world]. destruct (needed S x); discriminate.
  - cbn [pc go world]. destruct (needed S x); discriminate.
  - destruct (next_time S _ =? none_pending); discriminate.
  - cbn [pc go world]. intro Q. now injection Q as <-.
  - cbn [pc]. apply IH.
Qed.
End Any.
Print Assumptions C99_calls.
Print Assumptions C99_phases.
Print Assumptions C99_end.
Print Assumptions C99_time.
Print Assumptions C99_monotone.
Print Assumptions C99_one_readonly.
Print Assumptions C99_leaves.
Print Assumptions C99_status.

(** A testbench with timers at 5 and 10; the state counts what the design has not evaluated: the timers write, an evaluation takes one write. *)
Definition ex_sim : sim nat := Sim nat
  (fun k _ w => match k with KTimed => 2%nat | KClear => pred w | _ => w end) (fun _ w => (w, false)) (fun w => negb (Nat.eqb w 0)) (fun _ => false)
  (fun t _ => if t <? 5 then 5 else if t <? 10 then 10 else none_pending) (fun _ _ => None) (fun _ => 0).
Example C99_ex : pc (steps ex_sim true false 60 (start 0%nat)) = PDone 0 /\
  map (fun e => (kind e, at_time e)) (log (steps ex_sim true false 60 (start 0%nat))) =
  [(KStart, 0); (KValue, 0); (KEval, 0); (KClear, 0); (KInertial, 0); (KValue, 0); (KReadWrite, 0); (KInertial, 0); (KValue, 0); (KEndStep, 0); (KReadOnly, 0); (KDump, 0);
   (KNextTime, 5); (KValue, 5); (KTimed, 5); (KValue, 5); (KEval, 5); (KClear, 5); (KInertial, 5); (KValue, 5); (KEval, 5); (KClear, 5); (KInertial, 5); (KValue, 5);
   (KReadWrite, 5); (KInertial, 5); (KValue, 5); (KEndStep, 5); (KReadOnly, 5); (KDump, 5);
   (KNextTime, 10); (KValue, 10); (KTimed, 10); (KValue, 10); (KEval, 10); (KClear, 10); (KInertial, 10); (KValue, 10); (KEval, 10); (KClear, 10); (KInertial, 10); (KValue, 10);
   (KReadWrite, 10); (KInertial, 10); (KValue, 10); (KEndStep, 10); (KReadOnly, 10); (KDump, 10); (KFinal, 10); (KEnd, 10); (KClose, 10)].
Proof. split; vm_compute; reflexivity. Qed.
(** A sharper clock: the deadlines are always later than now, as the hypotheses of [C99_monotone] and [C99_one_readonly] want. *)
Example C99_time_ex : exists S : sim nat, (forall t w, t < none_pending -> t < deadline S t w <= none_pending) /\ (forall t w u, slot S t w = Some u -> t < u).
Proof.
  exists (Sim nat (fun _ _ w => w) (fun _ w => (w, false)) (fun _ => false) (fun _ => false) (fun t _ => Z.min (t + 1) none_pending) (fun _ _ => None) (fun _ => 0)).
  split; [|discriminate]. intros t w Q. cbn [deadline]. lia.
Qed.

(** * What does not hold *)
(** The loop asks for the end only at its head: a design which finishes in an evaluation is followed by the ReadWrite and ReadOnly callbacks, and even
    by those of the next time: the testbench runs on after [$finish]. *)
Theorem C99_finish_refuted : exists (S : sim bool) n t, In (KEval, 0, false) (log (steps S false false n (start false))) /\
  do S KEval 0 false = true /\ (forall w, finish S w = w) /\ In (KReadWrite, 0, true) (log (steps S false false n (start false))) /\
  In (KReadOnly, 0, true) (log (steps S false false n (start false))) /\ 0 < t /\ In (KTimed, t, true) (log (steps S false false n (start false))) /\
  pc (steps S false false n (start false)) = PDone 0.
Proof.
  exists (Sim bool (fun k _ w => match k with KEval => true | _ => w end) (fun _ w => (w, false)) (fun _ => false) (fun w => w) (fun t _ => t + 5) (fun _ _ => None) (fun _ => 0)), 40%nat, 5.
  split; [vm_compute; tauto|]. split; [reflexivity|]. split; [reflexivity|]. split; [vm_compute; tauto|]. split; [vm_compute; tauto|]. split; [lia|].
  split; [vm_compute; tauto|]. vm_compute. reflexivity.
Qed.
Print Assumptions C99_finish_refuted.
(** Value callbacks which change a value every time keep the loop for ever: no evaluation, no other callback, no end. *)
Theorem C99_livelock_refuted : exists S : sim unit, forall n, (0 < n)%nat ->
  pc (steps S false false n (start tt)) = PSettle PHead /\ time (steps S false false n (start tt)) = 0.
Proof.
  exists (Sim unit (fun _ _ w => w) (fun _ w => (w, true)) (fun _ => false) (fun _ => false) (fun _ _ => 5) (fun _ _ => None) (fun _ => 0)).
  intros n L. destruct n as [|n]; [lia|]. clear L. induction n as [|n [A B]]; [now split|]. remember (Datatypes.S n) as m. cbn [steps]. unfold step. rewrite A. cbn. now split.
Qed.
Print Assumptions C99_livelock_refuted.
(** Timers of delay 0 repeat the time step: two ReadOnly phases and two dumps at one time. *)
Theorem C99_zero_delay_refuted : exists (S : sim nat) n, (forall t w, t <= deadline S t w) /\
  flat_map (fun e => match kind e with KReadOnly | KDump => [(kind e, at_time e)] | _ => [] end) (log (steps S true false n (start 0%nat))) =
  [(KReadOnly, 0); (KDump, 0); (KReadOnly, 0); (KDump, 0)].
Proof.
  exists (Sim nat (fun k _ w => match k with KReadOnly => Datatypes.S w | _ => w end) (fun _ w => (w, false)) (fun _ => false) (fun _ => false)
    (fun t w => if (w <? 2)%nat then t else Z.max t none_pending) (fun _ _ => None) (fun _ => 0)), 40%nat.
  split; [|vm_compute; reflexivity]. intros t w. cbn [deadline]. destruct (w <? 2)%nat; lia.
Qed.
Print Assumptions C99_zero_delay_refuted.
(** The simulation of [C99_finish_refuted] meets the hypotheses of [C99_leaves]. *)
Example C99_leaves_ex : exists (S : sim bool) n x y, (forall k t w, finish S w = true -> finish S (do S k t w) = true) /\
  (forall t w, finish S w = true -> finish S (fst (value S t w)) = true) /\ log (steps S false false n (start false)) = x ++ (KNextTime, 5, true) :: y /\ finish S true = true.
Proof.
  exists (Sim bool (fun k _ w => match k with KEval => true | _ => w end) (fun _ w => (w, false)) (fun _ => false) (fun w => w) (fun t _ => t + 5) (fun _ _ => None) (fun _ => 0)), 40%nat.
  eexists (firstn 11 _), (skipn 12 _). split; [intros k t w Q; cbn in *; now destruct k|]. split; [intros t w Q; exact Q|]. split; [|reflexivity].
  match goal with |- ?l = firstn _ ?a ++ _ :: skipn _ ?b => unify a l; unify b l end. vm_compute. reflexivity.
Qed.

(** "No event" is the greatest time of 64 bits: every other time is before it. *)
Theorem C99_none t : 0 <= t < 2 ^ 64 -> t <> none_pending -> t < none_pending.
Proof. unfold none_pending. lia. Qed.
Print Assumptions C99_none.
Theorem C99_none_is_time : 0 <= none_pending < 2 ^ 64.
Proof. unfold none_pending. lia. Qed.
Example C99_none_ex : 0 <= 2 ^ 63 < 2 ^ 64 /\ 2 ^ 63 <> none_pending.
Proof. unfold none_pending. lia. Qed.

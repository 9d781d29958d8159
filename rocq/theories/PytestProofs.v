From Verif Require Import Base PytestModel PytestSpec.
From Coq Require Import Lia.

(** * The order of a session without exceptions *)
Section Order.
Variable E : env.
Hypothesis QE : quiet E.

Definition fin : list event := [EvFinish true; EvShutdown; EvStop].
Definition tail (i : nat) : list event := flat_map (item_log E) (seq (S i) (e_items E - S i)) ++ fin.
Definition td_rest (i : nat) (v : verdict) (l : list part) : list event :=
  map (ran PTeardown) l ++ [EvReport i PTeardown (last_said E v l); EvLogFinish i].
Definition td_all (i : nat) : list event := EvHook i PTeardown :: td_rest i (hook_says E i PTeardown) (hook_leaves E i PTeardown).
Definition after_setup (i : nat) (v : verdict) : list event :=
  EvReport i PSetup v :: (if passed v then phase_log i PCall (call_runs E i) (call_says E i) else []) ++ td_all i.
Definition su_rest (i : nat) (v : verdict) (l : list part) : list event :=
  let fs := if passed v then fixtures E l else [] in map (ran PSetup) fs ++ after_setup i (last_said E v fs).
Definition rem (s : st) : list event :=
  match r_wait s with
  | None => []
  | Some (p, a) =>
      (if r_on s then [] else [ran p a]) ++
      match p with
      | PSetup => su_rest (r_index s) (says E a) (r_setups s)
      | PCall => EvReport (r_index s) PCall (says E a) :: td_all (r_index s)
      | PTeardown => td_rest (r_index s) (says E a) (r_teardowns s)
      end ++ tail (r_index s)
  end.
Definition plog (s : st) := map plain (r_log s).
Definition good (X : list event) (s : st) : Prop :=
  plog s ++ rem s = X /\ r_finished s = (match r_wait s with None => true | _ => false end) /\ r_ok s = true /\ (r_index s < e_items E)%nat.
Definition Q (o : outcome) (X : list event) : Prop := snd o = false /\ good X (fst o).
Definition busy (i : nat) (s : st) : Prop :=
  r_finished s = false /\ r_ok s = true /\ r_wait s = None /\ r_index s = i /\ (i < e_items E)%nat.

Lemma quiet_raises e : e_raises E e = false. Proof. apply QE. Qed.
Lemma says_done a : e_done E a = Some (says E a).
Proof. destruct QE as (_ & _ & D). unfold says. specialize (D a). destruct (e_done E a); [reflexivity|now destruct D]. Qed.
Lemma hook_phase i p : e_phase E i p = Some (hook_says E i p, hook_leaves E i p).
Proof. destruct QE as (_ & D & _). unfold hook_says, hook_leaves. specialize (D i p). destruct (e_phase E i p) as [[v l]|]; [reflexivity|now destruct D]. Qed.
Lemma emit_quiet e s k : andthen (emit E e s) k = k (set_log e s).
Proof. unfold andthen, emit. cbn [fst snd]. now rewrite quiet_raises. Qed.

Lemma plog_log e s : plog (set_log e s) = plog s ++ [plain e].
Proof. unfold plog. cbn [r_log set_log]. now rewrite map_app. Qed.

Lemma last_said_cons v a l : last_said E v (a :: l) = last_said E (says E a) l.
Proof. unfold last_said. cbn [rev]. destruct (rev l) as [|b r]; reflexivity. Qed.
Lemma td_rest_cons i v a l : td_rest i v (a :: l) = ran PTeardown a :: td_rest i (says E a) l.
Proof. unfold td_rest. cbn [map app]. now rewrite last_said_cons. Qed.
Lemma su_rest_cons i a l : su_rest i Passed (a :: l) = ran PSetup a :: su_rest i (says E a) l.
Proof.
  unfold su_rest. cbn [passed fixtures map app]. rewrite last_said_cons. destruct (passed (says E a)) eqn:P; reflexivity.
Qed.

Lemma finish_good i s : busy i s -> Q (finish E s) (plog s ++ fin).
Proof.
  intros (F & O & W & I & L). unfold finish. rewrite F. rewrite !emit_quiet. unfold emit. rewrite quiet_raises. split; [reflexivity|].
  cbn [fst]. unfold good, rem. cbn [r_wait set_log set_finished r_finished r_ok r_index]. rewrite W, O, I. rewrite app_nil_r.
  unfold plog. cbn [r_log set_log set_finished r_ok]. rewrite ?O. repeat split; [|exact L]. rewrite !map_app. cbn [map plain]. rewrite <- !app_assoc. reflexivity.
Qed.

Lemma run_part_eq p a s : exists c sd r, r_log (run_part E p a s) = r_log s ++ [EvRun p a c sd r] /\ r_wait (run_part E p a s) = Some (p, a) /\
  r_on (run_part E p a s) = true /\ r_finished (run_part E p a s) = r_finished s /\ r_ok (run_part E p a s) = r_ok s /\
  r_index (run_part E p a s) = r_index s /\ r_setups (run_part E p a s) = r_setups s /\ r_teardowns (run_part E p a s) = r_teardowns s.
Proof. unfold run_part. destruct (r_restored s); do 3 eexists; repeat split; reflexivity. Qed.

Lemma start_good i p a s X : busy i s ->
  X = plog s ++ ran p a :: match p with
      | PSetup => su_rest i (says E a) (r_setups s)
      | PCall => EvReport i PCall (says E a) :: td_all i
      | PTeardown => td_rest i (says E a) (r_teardowns s)
      end ++ tail i -> Q (ret (start E p a s)) X.
Proof.
  intros (F & O & W & I & L) ->. split; [reflexivity|]. cbn [fst ret]. unfold start. destruct (r_scheduled s) eqn:S.
  - unfold good, rem, plog. cbn [r_wait set_wait r_on r_index r_setups r_teardowns r_finished r_ok r_log]. rewrite F, O, I. now repeat split.
  - destruct (run_part_eq p a (set_scheduled s)) as (c & sd & r & Lg & Wt & On & Fi & Ok & Ix & Su & Td).
    unfold good, rem, plog. rewrite Lg, Wt, On, Fi, Ok, Ix, Su, Td. cbn [set_scheduled r_log r_index r_setups r_teardowns r_finished r_ok]. rewrite I.
    repeat split; [|assumption..]. rewrite map_app. cbn [map plain]. rewrite <- app_assoc. reflexivity.
Qed.

Definition next_good (i : nat) (next : st -> outcome) : Prop := forall s, busy i s -> Q (next s) (plog s ++ tail i).

Lemma teardown_with_good next i v s : next_good i next -> busy i s ->
  Q (teardown_with E next i v s) (plog s ++ td_rest i v (r_teardowns s) ++ tail i).
Proof.
  intros N B. unfold teardown_with. destruct (r_teardowns s) as [|a l] eqn:T.
  - rewrite !emit_quiet. replace (plog s ++ td_rest i v [] ++ tail i) with (plog (set_log (EvLogFinish i) (set_log (EvReport i PTeardown v) s)) ++ tail i).
    + apply N. exact B.
    + rewrite !plog_log. cbn [plain]. unfold td_rest. cbn [map app last_said rev]. rewrite <- !app_assoc. reflexivity.
  - apply start_good with i; [exact B|]. rewrite td_rest_cons. cbn [r_teardowns set_teardowns]. reflexivity.
Qed.

Lemma own_same i p s : let s' := own_hook E i p s in r_log s' = r_log s /\ r_wait s' = r_wait s /\ r_on s' = r_on s /\ r_finished s' = r_finished s /\
  r_ok s' = r_ok s /\ r_index s' = r_index s /\ r_setups s' = r_setups s /\ r_teardowns s' = r_teardowns s /\ r_call s' = r_call s /\ r_scheduled s' = r_scheduled s.
Proof. destruct p; repeat split; reflexivity. Qed.

Lemma call_hook_good i p s k X : busy i s ->
  (forall s', busy i s' -> plog s' = plog s ++ [EvHook i p] ->
     r_setups s' = (match p with PSetup => r_setups s ++ hook_leaves E i p | _ => r_setups s end) ->
     r_teardowns s' = (match p with PTeardown => r_teardowns s ++ hook_leaves E i p | _ => r_teardowns s end) ->
     r_call s' = (match p with PCall => match hook_leaves E i p with a :: _ => Some a | [] => r_call s end | _ => r_call s end) ->
     Q (k (hook_says E i p) s') X) ->
  Q (call_hook E i p s k) X.
Proof.
  intros (F & O & W & I & L) K. unfold call_hook. rewrite hook_phase.
  destruct p; cbv zeta.
  - apply K; [repeat split; assumption|apply plog_log|reflexivity..].
  - destruct (hook_leaves E i PCall); (apply K; [repeat split; assumption|apply plog_log|reflexivity..]).
  - apply K; [repeat split; assumption|apply plog_log|reflexivity..].
Qed.

Lemma teardown_good next i s : next_good i next -> busy i s -> Q (teardown E next i s) (plog s ++ td_all i ++ tail i).
Proof.
  intros N B. unfold teardown. apply call_hook_good; [exact B|]. intros s' B' L S T C. cbn [r_teardowns set_teardowns app] in T.
  replace (plog s ++ td_all i ++ tail i) with (plog s' ++ td_rest i (hook_says E i PTeardown) (r_teardowns s') ++ tail i).
  - now apply teardown_with_good.
  - rewrite L, T. unfold td_all. cbn [app]. rewrite <- app_assoc. reflexivity.
Qed.

Lemma setup_with_good next i v s : next_good i next -> busy i s ->
  Q (setup_with E next i v s) (plog s ++ su_rest i v (r_setups s) ++ tail i).
Proof.
  intros N B. unfold setup_with.
  assert (Bad : passed v = false -> Q (andthen (emit E (EvReport i PSetup v) s) (teardown E next i)) (plog s ++ su_rest i v (r_setups s) ++ tail i)).
  { intro P. rewrite emit_quiet. replace (plog s ++ su_rest i v (r_setups s) ++ tail i) with (plog (set_log (EvReport i PSetup v) s) ++ td_all i ++ tail i).
    - now apply teardown_good.
    - rewrite plog_log. unfold su_rest, after_setup. rewrite P. cbn [map app last_said rev plain]. rewrite P. cbn [app]. rewrite <- !app_assoc. reflexivity. }
  destruct v; [|now apply Bad..]. clear Bad. destruct (r_setups s) as [|a l] eqn:T.
  - rewrite emit_quiet. apply call_hook_good; [exact B|]. intros s' B' L S T' C. cbn [r_call set_call] in C. unfold plog in L. cbn [r_log set_call set_log] in L.
    rewrite map_app in L. cbn [map plain] in L. fold (plog s) (plog s') in L.
    unfold su_rest, after_setup. cbn [passed fixtures map app last_said rev]. unfold phase_log, call_runs, call_says, call_runs.
    destruct (hook_leaves E i PCall) as [|a l] eqn:HL.
    + rewrite C. rewrite emit_quiet. cbn [map app last_said rev].
      match goal with |- Q _ ?X => replace X with (plog (set_log (EvReport i PCall (hook_says E i PCall)) s') ++ td_all i ++ tail i) end.
      * now apply teardown_good.
      * rewrite plog_log, L. cbn [plain]. rewrite <- !app_assoc. reflexivity.
    + rewrite C. apply start_good with i; [exact B'|]. rewrite L. cbn [map app last_said rev]. rewrite <- !app_assoc. reflexivity.
  - apply start_good with i; [exact B|]. rewrite su_rest_cons. reflexivity.
Qed.

Lemma item_log_eq i : item_log E i = EvLogStart i :: EvHook i PSetup :: su_rest i (hook_says E i PSetup) (hook_leaves E i PSetup).
Proof.
  unfold item_log, phase_log, su_rest, after_setup, setup_says, setup_runs, td_all, td_rest, teardown_says, teardown_runs.
  cbn [app]. rewrite <- !app_assoc. cbn [app]. repeat f_equal.
Qed.

Lemma setup_good next i s : next_good i next -> busy i s ->
  Q (setup E next i s) (plog s ++ EvHook i PSetup :: su_rest i (hook_says E i PSetup) (hook_leaves E i PSetup) ++ tail i).
Proof.
  intros N B. unfold setup. apply call_hook_good; [exact B|]. intros s' B' L S T C. cbn [r_setups set_setups app] in S. unfold plog in L. cbn [set_setups r_log] in L.
  fold (plog s) (plog s') in L.
  match goal with |- Q _ ?X => replace X with (plog s' ++ su_rest i (hook_says E i PSetup) (r_setups s') ++ tail i) end.
  - now apply setup_with_good.
  - rewrite L, S. rewrite <- !app_assoc. reflexivity.
Qed.

Lemma tail_cons i : (S i < e_items E)%nat -> tail i = item_log E (S i) ++ tail (S i).
Proof.
  intro L. unfold tail. replace (e_items E - S i)%nat with (S (e_items E - S (S i)))%nat by lia. cbn [seq flat_map]. now rewrite <- app_assoc.
Qed.
Lemma tail_last i : (S i = e_items E)%nat -> tail i = fin.
Proof. intro L. unfold tail. replace (e_items E - S i)%nat with 0%nat by lia. reflexivity. Qed.

Lemma protocol_good rest : forall d i s, busy i s -> (i + rest + 1 = e_items E)%nat -> Q (protocol E d i rest s) (plog s ++ item_log E i ++ tail i).
Proof.
  induction rest as [|r IH]; intros d i s B L; cbn [protocol]; rewrite emit_quiet.
  - match goal with |- Q _ ?X => replace X with (plog (set_log (EvLogStart i) (set_depth d s)) ++ EvHook i PSetup :: su_rest i (hook_says E i PSetup) (hook_leaves E i PSetup) ++ tail i) end.
    + apply setup_good; [|exact B]. intros s' B'. rewrite tail_last by lia. now apply finish_good with i.
    + rewrite plog_log, item_log_eq. cbn [plain app]. rewrite <- app_assoc. reflexivity.
  - match goal with |- Q _ ?X => replace X with (plog (set_log (EvLogStart i) (set_depth d s)) ++ EvHook i PSetup :: su_rest i (hook_says E i PSetup) (hook_leaves E i PSetup) ++ tail i) end.
    + apply setup_good; [|exact B]. intros s' (F & O & W & I & Li). rewrite tail_cons by lia. apply (IH (S d) (S i) (set_index (S i) s')); [|lia].
      repeat split; try assumption. lia.
    + rewrite plog_log, item_log_eq. cbn [plain app]. rewrite <- app_assoc. reflexivity.
Qed.

Lemma next_item_good i : next_good i (next_item E).
Proof.
  intros s (F & O & W & I & L). unfold next_item. rewrite I. destruct (e_items E - i - 1)%nat as [|r] eqn:R.
  - rewrite tail_last by lia. apply finish_good with i. repeat split; assumption.
  - rewrite tail_cons by lia. apply (protocol_good r 0 (S i) (set_index (S i) s)); [repeat split; try assumption; lia|lia].
Qed.

Lemma wrapped o X : Q o X -> good X (fst (finish_on_exception E o)).
Proof. intros [A B]. unfold finish_on_exception. rewrite A. exact B. Qed.

Lemma step_good X s l s' : good X s -> l <> LSimEnd -> r_log s <> [] -> step E s l = Some s' -> good X s'.
Proof.
  intros (L & F & O & I) N NE. destruct l as [| |r|]; cbn [step].
  - destruct (r_log s); [now destruct NE|discriminate].
  - destruct (r_wait s) as [[p a]|] eqn:W; [|discriminate]. destruct (r_on s) eqn:On; [discriminate|]. intro H. injection H as <-.
    destruct (run_part_eq p a s) as (c & sd & r & Lg & Wt & On' & Fi & Ok & Ix & Su & Td). unfold good, rem, plog.
    rewrite Lg, Wt, On', Fi, Ok, Ix, Su, Td. split; [|now repeat split]. rewrite <- L. unfold rem. rewrite W, On. rewrite map_app. cbn [map plain].
    rewrite <- app_assoc. reflexivity.
  - destruct (r_wait s) as [[p a]|] eqn:W; [|discriminate]. destruct (r_on s) eqn:On; [|discriminate]. intro H. injection H as <-.
    unfold rem in L. rewrite W, On in L. cbn [app] in L.
    unfold part_completed. apply wrapped. unfold completed. rewrite says_done. cbv zeta.
    set (s0 := set_logging _ _ _). assert (B : busy (r_index s) s0) by (repeat split; assumption).
    change (r_index (set_wait None false (set_random r (r_saved s) (r_seed s) s))) with (r_index s).
    change (plog s) with (plog s0) in L. destruct p.
    + change (r_setups s) with (r_setups s0) in L. rewrite <- L. apply setup_with_good; [apply next_item_good|exact B].
    + rewrite emit_quiet. rewrite <- L. cbn [app].
      match goal with |- Q _ ?X => replace X with (plog (set_log (EvReport (r_index s) PCall (says E a)) s0) ++ td_all (r_index s) ++ tail (r_index s)) end.
      * apply teardown_good; [apply next_item_good|exact B].
      * rewrite plog_log. cbn [plain]. rewrite <- app_assoc. reflexivity.
    + change (r_teardowns s) with (r_teardowns s0) in L. rewrite <- L. apply teardown_with_good; [apply next_item_good|exact B].
  - now destruct N.
Qed.

End Order.

(** * Every environment *)
Section Any.
Variable E : env.
Section Inv.
Variable I : st -> Prop.
Definition keeps (f : st -> st) : Prop := forall s, I s -> I (f s).
Definition minor (e : event) : Prop := match e with EvFinish _ | EvStop => False | _ => True end.
Hypothesis K_index : forall x, keeps (set_index x).
Hypothesis K_setups : forall x, keeps (set_setups x).
Hypothesis K_call : forall x, keeps (set_call x).
Hypothesis K_teardowns : forall x, keeps (set_teardowns x).
Hypothesis K_wait : forall x, keeps (set_wait x false).
Hypothesis K_run : forall x p a c sd r, keeps (fun s => set_wait x true (set_log (EvRun p a c sd r) s)).
Hypothesis K_scheduled : keeps set_scheduled.
Hypothesis K_failed : keeps set_failed.
Hypothesis K_logging : forall x y, keeps (set_logging x y).
Hypothesis K_random : forall x y z, keeps (set_random x y z).
Hypothesis K_depth : forall x, keeps (set_depth x).
Hypothesis K_log : forall e, minor e -> keeps (set_log e).
Hypothesis K_finish : forall s, I s -> I (fst (finish E s)).

Lemma then_keeps o k : I (fst o) -> (forall s, I s -> I (fst (k s))) -> I (fst (andthen o k)).
Proof. intros A B. unfold andthen. destruct (snd o); [exact A|now apply B]. Qed.
Lemma emit_keeps e s : minor e -> I s -> I (fst (emit E e s)).
Proof. intros M A. cbn [emit fst]. now apply K_log. Qed.
Lemma run_keeps p a s : I s -> I (run_part E p a s).
Proof. intro A. unfold run_part. apply (K_run (Some (p, a))). destruct (r_restored s); [exact A|now apply K_logging]. Qed.
Lemma start_keeps p a s : I s -> I (start E p a s).
Proof. intro A. unfold start. destruct (r_scheduled s); [now apply K_wait|]. apply run_keeps. now apply K_scheduled. Qed.
Lemma hook_keeps i p s k : I s -> (forall v s, I s -> I (fst (k v s))) -> I (fst (call_hook E i p s k)).
Proof.
  intros A B. unfold call_hook. cbv zeta.
  assert (C : I (own_hook E i p (set_log (EvHook i p) s))).
  { unfold own_hook. destruct p; [apply K_random| |apply K_random]; (apply K_logging; apply K_log; [exact Logic.I|exact A]). }
  destruct (e_phase E i p) as [[v l]|].
  - apply B. destruct p; [apply K_setups| |apply K_teardowns]; [apply K_random, K_logging, C| |apply K_random, K_logging, C].
    destruct l; [|apply K_call]; apply K_random, K_logging, C.
  - cbn [raise fst]. apply K_random, K_logging, C.
Qed.
Lemma teardown_with_keeps next i v s : (forall s, I s -> I (fst (next s))) -> I s -> I (fst (teardown_with E next i v s)).
Proof.
  intros N A. unfold teardown_with. destruct (r_teardowns s); [|cbn [ret fst]; apply start_keeps, K_teardowns, A].
  apply then_keeps; [now apply emit_keeps|]. intros s1 A1. apply then_keeps; [now apply emit_keeps|exact N].
Qed.
Lemma teardown_keeps next i s : (forall s, I s -> I (fst (next s))) -> I s -> I (fst (teardown E next i s)).
Proof. intros N A. unfold teardown. apply hook_keeps; [now apply K_teardowns|]. intros v s1 A1. now apply teardown_with_keeps. Qed.
Lemma setup_with_keeps next i v s : (forall s, I s -> I (fst (next s))) -> I s -> I (fst (setup_with E next i v s)).
Proof.
  intros N A. unfold setup_with.
  assert (B : I (fst (andthen (emit E (EvReport i PSetup v) s) (teardown E next i)))).
  { apply then_keeps; [now apply emit_keeps|]. intros s1 A1. now apply teardown_keeps. }
  destruct v; [|exact B..]. destruct (r_setups s); [|cbn [ret fst]; apply start_keeps, K_setups, A].
  apply then_keeps; [now apply emit_keeps|]. intros s1 A1. apply hook_keeps; [now apply K_call|]. intros v s2 A2. destruct (r_call s2).
  - cbn [ret fst]. now apply start_keeps.
  - apply then_keeps; [now apply emit_keeps|]. intros s3 A3. now apply teardown_keeps.
Qed.
Lemma protocol_keeps rest : forall d i s, I s -> I (fst (protocol E d i rest s)).
Proof.
  induction rest as [|r IH]; intros d i s A; cbn [protocol]; (apply then_keeps; [apply emit_keeps; [exact Logic.I|now apply K_depth]|]); intros s1 A1;
    unfold setup; (apply hook_keeps; [now apply K_setups|]); intros v s2 A2; apply setup_with_keeps; try exact A2.
  - exact K_finish.
  - intros s3 A3. apply IH. now apply K_index.
Qed.
Lemma next_keeps s : I s -> I (fst (next_item E s)).
Proof. intro A. unfold next_item. destruct (_ - _ - _)%nat; [now apply K_finish|]. apply protocol_keeps. now apply K_index. Qed.
Lemma wrap_keeps o : I (fst o) -> I (fst (finish_on_exception E o)).
Proof. intro A. unfold finish_on_exception. destruct (snd o); [|exact A]. apply K_finish. apply K_log; [exact Logic.I|]. now apply K_failed. Qed.
Lemma step_keeps s l s' : I s -> step E s l = Some s' -> I s'.
Proof.
  intros A. destruct l as [| |r|]; cbn [step].
  - destruct (r_log s); [|discriminate]. destruct (r_finished s); [discriminate|]. intro H. injection H as <-. apply wrap_keeps. unfold runtestloop.
    destruct (_ && _); [exact A|]. destruct (e_items E); [now apply K_finish|]. destruct (e_collect_only E); [now apply K_finish|]. now apply protocol_keeps.
  - destruct (r_wait s) as [[p a]|]; [|discriminate]. destruct (r_on s); [discriminate|]. intro H. injection H as <-. now apply run_keeps.
  - destruct (r_wait s) as [[p a]|]; [|discriminate]. destruct (r_on s); [|discriminate]. intro H. injection H as <-. unfold part_completed. apply wrap_keeps.
    unfold completed. cbv zeta.
    assert (B : I (set_logging false (r_restored (set_wait None false (set_random r (r_saved s) (r_seed s) s))) (set_wait None false (set_random r (r_saved s) (r_seed s) s))))
      by (apply K_logging, K_wait, K_random, A).
    destruct (e_done E a) as [v|]; [|exact B]. destruct p.
    + apply setup_with_keeps; [exact next_keeps|exact B].
    + apply then_keeps; [now apply emit_keeps|]. intros s1 A1. apply teardown_keeps; [exact next_keeps|exact A1].
    + apply teardown_with_keeps; [exact next_keeps|exact B].
  - intro H. injection H as <-. apply K_wait. apply K_log; [exact Logic.I|exact A].
Qed.
End Inv.

Definition from (l0 : list event) (s : st) : Prop := exists x, r_log s = l0 ++ x.
Lemma from_log l0 e s : from l0 s -> from l0 (set_log e s).
Proof. intros (x & H). exists (x ++ [e]). cbn [r_log set_log]. rewrite H. now rewrite <- app_assoc. Qed.
Lemma from_run l0 w e s : from l0 s -> from l0 (set_wait w true (set_log e s)).
Proof. exact (from_log l0 e s). Qed.
Lemma from_finish l0 s : from l0 s -> from l0 (fst (finish E s)).
Proof.
  intro A. unfold finish. destruct (r_finished s); [exact A|]. unfold andthen, emit. cbn [fst snd].
  repeat (match goal with |- context [if ?b then _ else _] => destruct b end; cbn [fst snd]); repeat apply from_log; exact A.
Qed.
Lemma log_ext l0 s l s' : from l0 s -> step E s l = Some s' -> from l0 s'.
Proof.
  apply (step_keeps (from l0)); try (intros; intro; intros; assumption).
  - intros x p a c sd r s1. apply from_run.
  - intros e _ s1. apply from_log.
  - apply from_finish.
Qed.
Lemma protocol_log rest d i s0 : from (r_log s0 ++ [EvLogStart i]) (fst (protocol E d i rest s0)).
Proof.
  generalize (eq_refl (r_log s0 ++ [EvLogStart i])). generalize (r_log s0 ++ [EvLogStart i]) at 1 3. intros l0 H0.
  assert (B0 : from l0 (set_log (EvLogStart i) (set_depth d s0))) by (exists []; rewrite app_nil_r; now symmetry).
  assert (K1 : forall e, minor e -> keeps (from l0) (set_log e)) by (intros e _ s1; apply from_log).
  assert (K2 : forall x p a c sd r, keeps (from l0) (fun s => set_wait x true (set_log (EvRun p a c sd r) s))) by (intros x p a c sd r s1; apply from_run).
  destruct rest as [|rr]; cbn [protocol]; (apply (then_keeps (from l0)); [exact B0|]); intros s1 A1;
    unfold setup; (apply (hook_keeps (from l0)); try assumption; try (intros; intro; intros; assumption));
    intros v s2 A2; (apply (setup_with_keeps (from l0)); try assumption; try (intros; intro; intros; assumption)); intros s3 A3.
  - now apply from_finish.
  - apply (protocol_keeps (from l0)); try assumption; try (intros; intro; intros; assumption). apply from_finish.
Qed.

Lemma count_snoc f l e : count f (l ++ [e]) = (count f l + if f e then 1 else 0)%nat.
Proof. unfold count. rewrite filter_app, app_length. cbn [filter]. destruct (f e); reflexivity. Qed.

Definition once (s : st) : Prop := count is_finish (r_log s) = (if r_finished s then 1 else 0)%nat /\ (count is_stop (r_log s) <= count is_finish (r_log s))%nat /\
  ((forall b, e_raises E (EvFinish b) = false) -> e_raises E EvShutdown = false -> count is_stop (r_log s) = count is_finish (r_log s)).
Lemma once_step s l s' : once s -> step E s l = Some s' -> once s'.
Proof.
  apply (step_keeps once); try (intros; unfold keeps, once; intros; assumption).
  - intros x p a c sd r s1 (A & B & C). unfold once. cbn [r_log set_log set_wait r_finished]. rewrite !count_snoc. cbn [is_finish is_stop]. rewrite !Nat.add_0_r. auto.
  - intros e M s1 (A & B & C). unfold once. cbn [r_log set_log r_finished]. rewrite !count_snoc. destruct e; try contradiction; cbn [is_finish is_stop]; rewrite !Nat.add_0_r; auto.
  - intros s1 (A & B & C). unfold finish. destruct (r_finished s1) eqn:F.
    { cbn [ret fst]. unfold once. rewrite F. auto. }
    assert (Z : count is_finish (r_log s1) = 0%nat /\ count is_stop (r_log s1) = 0%nat) by lia. destruct Z as [Z1 Z2].
    unfold andthen, emit. cbn [fst snd]. unfold once.
    destruct (e_raises E (EvFinish (r_ok (set_finished s1)))) eqn:R1; [|destruct (e_raises E EvShutdown) eqn:R2];
      cbn [fst snd r_log set_log set_finished r_finished]; rewrite !count_snoc, Z1, Z2; cbn [is_finish is_stop]; (split; [reflexivity|]; split; [lia|]).
    + intros H _. exfalso. rewrite H in R1. discriminate R1.
    + intros _ H. discriminate H.
    + reflexivity.
Qed.

(** Never stuck. *)
Definition lively (o : outcome) : Prop := snd o = true \/ r_finished (fst o) = true \/ r_wait (fst o) <> None.
Lemma live_then o k : (forall s, lively (k s)) -> lively (andthen o k).
Proof. intro K. unfold andthen. destruct (snd o) eqn:S; [now left|apply K]. Qed.
Lemma live_finish s : r_finished (fst (finish E s)) = true.
Proof. unfold finish. destruct (r_finished s) eqn:F; [exact F|]. unfold andthen, emit. cbn [fst snd].
  repeat (match goal with |- context [if ?b then _ else _] => destruct b end; cbn [fst snd]); reflexivity. Qed.
Lemma live_start p a s : lively (ret (start E p a s)).
Proof. right. right. unfold start, run_part. cbn [ret fst]. destruct (r_scheduled s); [discriminate|]. cbn. destruct (r_restored s); discriminate. Qed.
Lemma live_hook i p s k : (forall v s, lively (k v s)) -> lively (call_hook E i p s k).
Proof. intro K. unfold call_hook. cbv zeta. destruct (e_phase E i p) as [[v l]|]; [apply K|now left]. Qed.
Lemma live_td_with next i v s : (forall s, lively (next s)) -> lively (teardown_with E next i v s).
Proof. intro N. unfold teardown_with. destruct (r_teardowns s); [|apply live_start]. apply live_then. intro s1. apply live_then. exact N. Qed.
Lemma live_td next i s : (forall s, lively (next s)) -> lively (teardown E next i s).
Proof. intro N. apply live_hook. intros v s1. now apply live_td_with. Qed.
Lemma live_su_with next i v s : (forall s, lively (next s)) -> lively (setup_with E next i v s).
Proof.
  intro N. unfold setup_with. assert (B : lively (andthen (emit E (EvReport i PSetup v) s) (teardown E next i))).
  { apply live_then. intro s1. now apply live_td. }
  destruct v; [|exact B..]. destruct (r_setups s); [|apply live_start]. apply live_then. intro s1. apply live_hook. intros v s2.
  destruct (r_call s2); [apply live_start|]. apply live_then. intro s3. now apply live_td.
Qed.
Lemma live_protocol rest : forall d i s, lively (protocol E d i rest s).
Proof.
  induction rest as [|r IH]; intros d i s; cbn [protocol]; apply live_then; intro s1; unfold setup; apply live_hook; intros v s2; apply live_su_with; intro s3.
  - right. left. apply live_finish.
  - apply IH.
Qed.
Lemma live_next s : lively (next_item E s).
Proof. unfold next_item. destruct (_ - _ - _)%nat; [right; left; apply live_finish|apply live_protocol]. Qed.
Lemma live_wrap o : lively o -> r_finished (fst (finish_on_exception E o)) = true \/ r_wait (fst (finish_on_exception E o)) <> None.
Proof. unfold finish_on_exception. intros [S|L]; [rewrite S; left; apply live_finish|]. destruct (snd o); [left; apply live_finish|exact L]. Qed.
Lemma live_step s l s' : l <> LSimEnd -> step E s l = Some s' -> r_finished s' = true \/ r_wait s' <> None.
Proof.
  intro N. destruct l as [| |r|]; cbn [step]; [..|now destruct N].
  - destruct (r_log s); [|discriminate]. destruct (r_finished s); [discriminate|]. intro H. injection H as <-. apply live_wrap. unfold runtestloop.
    destruct (_ && _); [now left|]. destruct (e_items E); [right; left; apply live_finish|]. destruct (e_collect_only E); [right; left; apply live_finish|]. apply live_protocol.
  - destruct (r_wait s) as [[p a]|]; [|discriminate]. destruct (r_on s); [discriminate|]. intro H. injection H as <-. right. unfold run_part.
    destruct (r_restored s); discriminate.
  - destruct (r_wait s) as [[p a]|]; [|discriminate]. destruct (r_on s); [|discriminate]. intro H. injection H as <-. unfold part_completed. apply live_wrap.
    unfold completed. cbv zeta. destruct (e_done E a) as [v|]; [|now left]. destruct p.
    + apply live_su_with. exact live_next.
    + apply live_then. intro s1. apply live_td. exact live_next.
    + apply live_td_with. exact live_next.
Qed.

Lemma exec_snoc s ls l s1 s2 : exec E s ls s1 -> step E s1 l = Some s2 -> exec E s (ls ++ [l]) s2.
Proof. induction 1; intro H1; cbn [app]; [econstructor; [exact H1|constructor]|econstructor; eauto]. Qed.
Lemma exec_app s ls s1 ms s2 : exec E s ls s1 -> exec E s1 ms s2 -> exec E s (ls ++ ms) s2.
Proof. induction 1; intro H1; cbn [app]; [exact H1|econstructor; eauto]. Qed.
Lemma exec_inv (P : st -> Prop) : (forall s l s', P s -> step E s l = Some s' -> P s') -> forall s ls s', exec E s ls s' -> P s -> P s'.
Proof. intros K s ls s' X. induction X as [|s l s1 ls s2 S X IH]; [auto|]. intro A. apply IH. eapply K; eassumption. Qed.
Lemma exec_inv_calm (P : st -> Prop) : (forall s l s', l <> LSimEnd -> P s -> step E s l = Some s' -> P s') ->
  forall s ls s', exec E s ls s' -> no_sim_end ls -> P s -> P s'.
Proof.
  intros K s ls s' X. induction X as [|s l s1 ls s2 S X IH]; [auto|]. intros N A. apply IH; [intro F; apply N; now right|].
  eapply K; [|exact A|exact S]. intros ->. apply N. now left.
Qed.
End Any.

(** * The whole session *)
Section Session.
Variable E : env.
Hypothesis QE : quiet E.
Hypothesis NE : normal E.
Lemma session_split : session_log E = item_log E 0 ++ tail E 0.
Proof.
  destruct NE as (L & _). unfold session_log, tail. destruct (e_items E) as [|n]; [lia|]. cbn [seq flat_map]. replace (S n - 1)%nat with n by lia. now rewrite <- app_assoc.
Qed.
Lemma begin_good r : exists s, step E (init E r) LBegin = Some s /\ good E (session_log E) s.
Proof.
  cbn [step init r_log r_finished]. eexists. split; [reflexivity|]. apply wrapped.
  destruct NE as (L & A & B). unfold runtestloop. rewrite A, B. destruct (e_items E) as [|n] eqn:En; [lia|].
  pose proof (protocol_good E QE n 0 0 (init E r)) as P. rewrite session_split. apply P; [|lia]. repeat split. rewrite En. exact L.
Qed.
Lemma good_nonempty s : good E (session_log E) s -> r_finished s = true -> r_log s <> [].
Proof.
  intros (A & B & _) F. rewrite F in B. unfold rem in A. destruct (r_wait s) as [[p a]|]; [discriminate B|]. rewrite app_nil_r in A. intro H.
  unfold plog in A. rewrite H in A. rewrite session_split in A. unfold item_log in A. discriminate A.
Qed.
Definition begun (s : st) : Prop := good E (session_log E) s /\ r_log s <> [].
Lemma begun_step s l s' : l <> LSimEnd -> begun s -> step E s l = Some s' -> begun s'.
Proof.
  intros N (G & L) S. split; [now apply (step_good E QE _ s l)|]. destruct (r_log s) as [|e x] eqn:Lg; [now destruct L|].
  destruct (log_ext E [e] s l s') as (y & H); [now exists x|exact S|]. rewrite H. discriminate.
Qed.
Lemma begin_log r s : step E (init E r) LBegin = Some s -> r_log s <> [].
Proof.
  intro S. destruct (begin_good r) as (s' & S' & G). rewrite S in S'. injection S' as <-. intro H.
  destruct (r_finished s) eqn:F; [now apply (good_nonempty s G F)|].
  (* the first event is emitted before anything can wait *)
  cbn [step init r_log r_finished] in S. injection S as <-. revert H.
  destruct NE as (L & A & B). unfold runtestloop. rewrite A, B. destruct (e_items E) as [|n] eqn:En; [lia|].
  destruct (protocol_log E n 0 0 (init E r)) as (x & Hx). unfold finish_on_exception.
  pose proof (protocol_good E QE n 0 0 (init E r)) as P. destruct P as (P & _); [repeat split; rewrite En; exact L|lia|]. cbn [r_index init] in *. rewrite P, Hx. discriminate.
Qed.

Lemma session_good r ls s : exec E (init E r) ls s -> no_sim_end ls -> ls <> [] -> begun s.
Proof.
  intros X N NN. inversion X as [|? l s1 ls' ? S X']; subst; [now destruct NN|].
  assert (L : l = LBegin) by (destruct l; [reflexivity|discriminate S|discriminate S|exfalso; apply N; now left]). subst l.
  assert (B : begun s1).
  { split; [|now apply (begin_log r)]. destruct (begin_good r) as (s1' & S' & G). rewrite S in S'. injection S' as <-. exact G. }
  apply (exec_inv_calm E begun begun_step s1 ls' s X'); [|exact B]. intro F. apply N. now right.
Qed.

(** Progress. *)
Lemma can_step s : r_wait s <> None -> exists l s', l <> LSimEnd /\ step E s l = Some s'.
Proof.
  intro W. destruct (r_wait s) as [[p a]|] eqn:Wt; [|now destruct W]. destruct (r_on s) eqn:On.
  - exists (LDone 0). eexists. split; [discriminate|]. cbn [step]. rewrite Wt, On. reflexivity.
  - exists LTimer. eexists. split; [discriminate|]. cbn [step]. rewrite Wt, On. reflexivity.
Qed.

Definition moved (l0 : list event) (s : st) : Prop := exists x, r_log s = l0 ++ x /\ (x = [] -> r_on s = false).
Lemma moved_log l0 e s : moved l0 s -> moved l0 (set_log e s).
Proof. intros (x & H & _). exists (x ++ [e]). split; [cbn [r_log set_log]; rewrite H; now rewrite <- app_assoc|]. destruct x; discriminate. Qed.
Lemma moved_run l0 w e s : moved l0 s -> moved l0 (set_wait w true (set_log e s)).
Proof. intros (x & H & _). exists (x ++ [e]). split; [cbn [r_log set_log set_wait]; rewrite H; now rewrite <- app_assoc|]. destruct x; discriminate. Qed.
Lemma moved_off l0 w s : moved l0 s -> moved l0 (set_wait w false s).
Proof. intros (x & H & _). exists x. split; [exact H|reflexivity]. Qed.
Lemma moved_finish l0 s : moved l0 s -> moved l0 (fst (finish E s)).
Proof.
  intro A. unfold finish. destruct (r_finished s); [exact A|]. unfold andthen, emit. cbn [fst snd].
  repeat (match goal with |- context [if ?b then _ else _] => destruct b end; cbn [fst snd]); repeat apply moved_log; exact A.
Qed.
Lemma moved_done s r s' : step E s (LDone r) = Some s' -> moved (r_log s) s'.
Proof.
  cbn [step]. destruct (r_wait s) as [[p a]|]; [|discriminate]. destruct (r_on s); [|discriminate]. intro H. injection H as <-.
  assert (K1 : forall e, minor e -> keeps (moved (r_log s)) (set_log e)) by (intros e _ s1; apply moved_log).
  assert (K2 : forall x p a c sd r, keeps (moved (r_log s)) (fun s => set_wait x true (set_log (EvRun p a c sd r) s))) by (intros x p0 a0 c sd r0 s1; apply moved_run).
  assert (K3 : forall x, keeps (moved (r_log s)) (set_wait x false)) by (intros x s1; apply moved_off).
  unfold part_completed. apply (wrap_keeps E (moved (r_log s))); try assumption; try (intros; intro; intros; assumption); [apply moved_finish|].
  unfold completed. cbv zeta.
  assert (B : moved (r_log s) (set_logging false (r_restored (set_wait None false (set_random r (r_saved s) (r_seed s) s))) (set_wait None false (set_random r (r_saved s) (r_seed s) s)))).
  { exists []. split; [now rewrite app_nil_r|reflexivity]. }
  assert (KN : forall s1, moved (r_log s) s1 -> moved (r_log s) (fst (next_item E s1))).
  { apply next_keeps; try assumption; try (intros; intro; intros; assumption). apply moved_finish. }
  destruct (e_done E a) as [v|]; [|exact B]. destruct p.
  - apply setup_with_keeps; try assumption; try (intros; intro; intros; assumption).
  - apply then_keeps; [now apply moved_log|]. intros s1 A1. apply teardown_keeps; try assumption; try (intros; intro; intros; assumption).
  - apply teardown_with_keeps; try assumption; try (intros; intro; intros; assumption).
Qed.

Definition measure (s : st) : nat := (2 * List.length (rem E s) + if r_on s then 1 else 0)%nat.
Lemma good_lengths s : begun s -> (List.length (r_log s) + List.length (rem E s) = List.length (session_log E))%nat.
Proof. intros ((A & _) & _). rewrite <- A, app_length. unfold plog. now rewrite map_length. Qed.
Lemma measure_step s l s' : l <> LSimEnd -> begun s -> step E s l = Some s' -> (measure s' < measure s)%nat.
Proof.
  intros N B S. pose proof (begun_step s l s' N B S) as B'. pose proof (good_lengths s B) as L1. pose proof (good_lengths s' B') as L2. unfold measure.
  destruct l as [| |r|]; [|..|now destruct N].
  - exfalso. destruct B as (_ & NB). cbn [step] in S. destruct (r_log s); [now destruct NB|discriminate S].
  - cbn [step] in S. destruct (r_wait s) as [[p a]|]; [|discriminate S]. destruct (r_on s); [discriminate S|]. injection S as <-.
    assert (X : r_on (run_part E p a s) = true /\ List.length (r_log (run_part E p a s)) = (List.length (r_log s) + 1)%nat).
    { unfold run_part. destruct (r_restored s); cbn [set_wait set_log set_logging r_on r_log]; rewrite app_length; split; reflexivity. }
    destruct X as [X1 X2]. rewrite X1. lia.
  - pose proof (moved_done s r s' S) as (x & Hx & Ho).
    assert (On : r_on s = true). { cbn [step] in S. destruct (r_wait s) as [[p a]|]; [|discriminate S]. destruct (r_on s); [reflexivity|discriminate S]. }
    rewrite On. assert (L3 : List.length (r_log s') = (List.length (r_log s) + List.length x)%nat) by (rewrite Hx; apply app_length).
    destruct x as [|e x]; [rewrite (Ho eq_refl)|cbn [List.length] in L3; destruct (r_on s')]; cbn [List.length] in L3; lia.
Qed.
Lemma bounded_from s ls s' : exec E s ls s' -> begun s -> no_sim_end ls -> (List.length ls + measure s' <= measure s)%nat.
Proof.
  intro X. induction X as [|s l s1 ls s2 S X IH]; intros B N; [cbn [List.length]; lia|].
  assert (N1 : l <> LSimEnd) by (intros ->; apply N; now left). pose proof (measure_step s l s1 N1 B S).
  pose proof (begun_step s l s1 N1 B S) as B1. assert (N2 : no_sim_end ls) by (intro F; apply N; now right). pose proof (IH B1 N2). cbn [List.length]. lia.
Qed.
Lemma bounded r ls s : exec E (init E r) ls s -> no_sim_end ls -> (List.length ls <= 2 * List.length (session_log E))%nat.
Proof.
  intros X N. destruct ls as [|l ls]; [cbn [List.length]; lia|]. inversion X as [|? ? s1 ? ? S X']; subst.
  assert (B : begun s1). { apply (session_good r [l] s1); [econstructor; [exact S|constructor]| |discriminate]. intros [F|[]]. apply N. now left. }
  assert (N2 : no_sim_end ls) by (intro F; apply N; now right). pose proof (bounded_from s1 ls s X' B N2). pose proof (good_lengths s1 B) as L.
  destruct B as (_ & NB). destruct (r_log s1); [now destruct NB|]. cbn [List.length] in *. unfold measure in *. destruct (r_on s1); lia.
Qed.
Lemma finishes r : exists ls s, exec E (init E r) ls s /\ no_sim_end ls /\ r_finished s = true.
Proof.
  assert (G : forall n s, begun s -> (measure s <= n)%nat -> exists ls s', exec E s ls s' /\ no_sim_end ls /\ r_finished s' = true).
  { induction n as [|n IH]; intros s B M.
    - destruct (r_finished s) eqn:F; [exists [], s; repeat split; [constructor|intros []|exact F]|].
      destruct (can_step s) as (l & s' & N & S).
      { destruct B as ((_ & B & _) & _). rewrite F in B. destruct (r_wait s); [discriminate|discriminate B]. }
      pose proof (measure_step s l s' N B S). lia.
    - destruct (r_finished s) eqn:F; [exists [], s; repeat split; [constructor|intros []|exact F]|].
      destruct (can_step s) as (l & s' & N & S).
      { destruct B as ((_ & B & _) & _). rewrite F in B. destruct (r_wait s); [discriminate|discriminate B]. }
      pose proof (measure_step s l s' N B S). destruct (IH s') as (ls & s2 & X & N2 & F2); [now apply (begun_step s l)|lia|].
      exists (l :: ls), s2. repeat split; [econstructor; eassumption|intros [Y|Y]; [now subst l|now apply N2]|exact F2]. }
  destruct (begin_good r) as (s & S & Gd). destruct (G (measure s) s) as (ls & s' & X & N & F); [|lia|].
  - apply (session_good r [LBegin] s); [econstructor; [exact S|constructor]| |discriminate]. intros [Y|[]]. discriminate Y.
  - exists (LBegin :: ls), s'. repeat split; [econstructor; eassumption|intros [Y|Y]; [discriminate Y|now apply N]|exact F].
Qed.
End Session.

(** * Hooks, runs and reports *)
Section Runs.
Variable E : env.
Variable r0 : Z.
Definition ok_event (l : list event) (e : event) : Prop :=
  match e with
  | EvRun p a c sd r => exists i, last_hook l None = Some (i, p) /\ sd = seed_in E i p /\ c = negb (runs_since l false) /\
                         (p = PSetup -> runs_since l false = false -> r = e_body E i PSetup (e_seeded E sd))
  | EvReport i p _ => last_hook l None = Some (i, p)
  | _ => True
  end.
Definition all_ok (l : list event) : Prop := forall l1 e l2, l = l1 ++ e :: l2 -> ok_event l1 e.
Lemma all_ok_snoc l e : all_ok l -> ok_event l e -> all_ok (l ++ [e]).
Proof.
  intros A B l1 x l2 H. destruct (exists_last (l := x :: l2)) as (y & z & Y); [discriminate|]. rewrite Y in H. rewrite app_assoc in H. apply app_inj_tail in H.
  destruct H as [H <-]. destruct y as [|x' y].
  - cbn [app] in Y. injection Y as -> ->. rewrite app_nil_r in H. now subst.
  - cbn [app] in Y. injection Y as -> ->. apply (A l1 x' y). now rewrite H.
Qed.
Lemma last_hook_app l m f : last_hook (l ++ m) f = last_hook m (last_hook l f).
Proof. revert f. induction l as [|e l IH]; intro f; [reflexivity|]. cbn [app]. destruct e; cbn [last_hook]; apply IH. Qed.
Lemma runs_since_app l m f : runs_since (l ++ m) f = runs_since m (runs_since l f).
Proof. revert f. induction l as [|e l IH]; intro f; [reflexivity|]. cbn [app]. destruct e; cbn [runs_since]; apply IH. Qed.

(** No asynchronous finalizers, and the synchronous ones leave the generator alone. *)
Definition sober : Prop := forall i, (forall x, e_body E i PTeardown x = x) /\ (forall v l, e_phase E i PTeardown = Some (v, l) -> l = []).

Definition here (s : st) : option (nat * phase) := last_hook (r_log s) None.
Definition knows (s : st) : Prop := all_ok (r_log s) /\
  match here s with
  | None => runs_since (r_log s) false = false /\ (sober -> r_random s = r0)
  | Some (i, p) =>
      r_seed s = seed_in E i p /\ r_restored s = runs_since (r_log s) false /\
      (p = PSetup -> runs_since (r_log s) false = false -> r_random s = e_body E i PSetup (e_seeded E (r_seed s))) /\
      (sober -> if match p with PTeardown => true | _ => false end then r_random s = r0 /\ r_teardowns s = [] else r_saved s = r0)
  end.
(** Between two parts; [p] is the phase. *)
Definition idle (s : st) : Prop := knows s /\ r_wait s = None /\ r_captured s = false.
Definition at_ (i : nat) (p : phase) (s : st) : Prop := idle s /\ here s = Some (i, p) /\ r_index s = i.
Definition fine (s : st) : Prop := knows s /\
  match r_wait s with None => True | Some (p, _) => here s = Some (r_index s, p) /\ (r_on s = false -> r_captured s = false) /\
                      (r_on s = true -> runs_since (r_log s) false = true) /\ (sober -> p <> PTeardown) end.

Lemma idle_fine s : idle s -> fine s. Proof. intros (K & W & C). split; [exact K|]. now rewrite W. Qed.
Definition silent (e : event) : Prop := match e with EvHook _ _ | EvRun _ _ _ _ _ => False | _ => True end.
Lemma here_log e s : silent e -> here (set_log e s) = here s.
Proof. intro A. unfold here. cbn [r_log set_log]. rewrite last_hook_app. destruct e; try contradiction; reflexivity. Qed.
Lemma knows_log e s : silent e -> ok_event (r_log s) e -> knows s -> knows (set_log e s).
Proof.
  intros A O (K & H). split; [cbn [r_log set_log]; now apply all_ok_snoc|]. rewrite here_log by exact A. cbn [r_log set_log r_seed r_restored r_random r_teardowns r_saved].
  rewrite runs_since_app. destruct e; try contradiction; exact H.
Qed.
Lemma idle_log e s : silent e -> ok_event (r_log s) e -> idle s -> idle (set_log e s).
Proof. intros A O (K & W & C). split; [now apply knows_log|]. split; assumption. Qed.
Lemma at_log i p e s : silent e -> ok_event (r_log s) e -> at_ i p s -> at_ i p (set_log e s).
Proof. intros A O (I & H & J). split; [now apply idle_log|]. rewrite here_log by exact A. split; assumption. Qed.
Lemma idle_finish s : idle s -> idle (fst (finish E s)).
Proof.
  intro A. unfold finish. destruct (r_finished s); [exact A|]. unfold andthen, emit. cbn [fst snd].
  repeat (match goal with |- context [if ?b then _ else _] => destruct b end; cbn [fst snd]); repeat (apply idle_log; [exact Logic.I|exact Logic.I|]); exact A.
Qed.

Lemma fine_log e s : silent e -> ok_event (r_log s) e -> fine s -> fine (set_log e s).
Proof. intros A O (K & W). split; [now apply knows_log|]. rewrite here_log by exact A. cbn [r_log set_log r_on r_wait r_index r_captured]. rewrite runs_since_app. destruct e; try contradiction; exact W. Qed.
Lemma fine_finish s : fine s -> fine (fst (finish E s)).
Proof.
  intro A. unfold finish. destruct (r_finished s); [exact A|]. unfold andthen, emit. cbn [fst snd].
  repeat (match goal with |- context [if ?b then _ else _] => destruct b end; cbn [fst snd]); repeat (apply fine_log; [exact Logic.I|exact Logic.I|]); exact A.
Qed.
Lemma fine_wrap o : fine (fst o) -> fine (fst (finish_on_exception E o)).
Proof. intro A. unfold finish_on_exception. destruct (snd o); [|exact A]. apply fine_finish. apply (fine_log EvNotify (set_failed (fst o)) Logic.I Logic.I). exact A. Qed.

Lemma run_fine p a s : knows s -> here s = Some (r_index s, p) -> r_captured s = false -> (sober -> p <> PTeardown) -> fine (run_part E p a s).
Proof.
  intros (K & H) He C NT. rewrite He in H. destruct H as (Sd & Re & Ra & So). unfold run_part. cbv zeta.
  set (s1 := if r_restored s then s else set_logging true true s).
  assert (L : r_log s1 = r_log s /\ r_seed s1 = r_seed s /\ r_random s1 = r_random s /\ r_index s1 = r_index s /\ r_captured s1 = negb (r_restored s) /\ r_restored s1 = true /\ r_saved s1 = r_saved s /\ r_teardowns s1 = r_teardowns s).
  { unfold s1. destruct (r_restored s) eqn:R; cbn; rewrite ?R, ?C; repeat split. }
  destruct L as (L1 & L2 & L3 & L4 & L5 & L6 & L7 & L8).
  assert (O : ok_event (r_log s) (EvRun p a (r_captured s1) (r_seed s1) (r_random s1))).
  { exists (r_index s). split; [exact He|]. rewrite L2, L5, L3, Re. split; [exact Sd|]. split; [reflexivity|]. intros P F. subst p. now apply Ra. }
  assert (Hh : here (set_wait (Some (p, a)) true (set_log (EvRun p a (r_captured s1) (r_seed s1) (r_random s1)) s1)) = Some (r_index s, p)).
  { unfold here. cbn [r_log set_log set_wait]. rewrite L1, last_hook_app. exact He. }
  split; [split|].
  - cbn [r_log set_log set_wait]. rewrite L1. now apply all_ok_snoc.
  - rewrite Hh. cbn [r_log set_log set_wait r_seed r_restored r_random r_teardowns r_saved]. rewrite L1, L2, L6, L3, L7, L8, runs_since_app. cbn [runs_since].
    split; [exact Sd|]. split; [reflexivity|]. split; [discriminate|exact So].
  - cbn [r_wait set_wait]. rewrite Hh. cbn [r_index set_wait set_log r_on r_log]. rewrite L4, L1, runs_since_app. split; [reflexivity|]. split; [discriminate|]. split; [reflexivity|exact NT].
Qed.
Lemma start_fine i p a s : at_ i p s -> (sober -> p <> PTeardown) -> fine (start E p a s).
Proof.
  intros ((K & W & C) & He & J) NT. subst i. unfold start. destruct (r_scheduled s).
  - split; [exact K|]. split; [exact He|]. split; [intros _; exact C|]. split; [discriminate|exact NT].
  - apply run_fine; [exact K|exact He|exact C|exact NT].
Qed.

Definition ready (i : nat) (p : phase) (s : st) : Prop :=
  match p with
  | PSetup => sober -> r_random s = r0
  | PCall => r_seed s = seed_in E i PCall /\ (sober -> r_saved s = r0)
  | PTeardown => r_teardowns s = [] /\ (sober -> r_saved s = r0)
  end.
Lemma hook_fine i p s k : all_ok (r_log s) -> r_wait s = None -> r_index s = i -> ready i p s ->
  (forall v s', at_ i p s' -> fine (fst (k v s'))) -> fine (fst (call_hook E i p s k)).
Proof.
  intros A W J R K. unfold call_hook. cbv zeta.
  set (s1 := set_random _ _ _ _).
  assert (Id : forall td su ca, (sober -> p = PTeardown -> td = []) -> at_ i p (set_setups su (set_call ca (set_teardowns td s1)))).
  { intros td su ca HT. assert (He : here (set_setups su (set_call ca (set_teardowns td s1))) = Some (i, p)).
    { unfold here, s1, own_hook. destruct p; cbn [r_log set_log set_setups set_call set_teardowns set_random set_logging]; rewrite last_hook_app; reflexivity. }
    split; [|split; [exact He|destruct p; exact J]]. split; [|split; [destruct p; exact W|destruct p; reflexivity]]. split.
    - unfold s1, own_hook. destruct p; cbn [r_log set_log set_setups set_call set_teardowns set_random set_logging]; (apply all_ok_snoc; [exact A|exact Logic.I]).
    - rewrite He. unfold s1, own_hook. destruct p; cbn [r_log set_log set_setups set_call set_teardowns set_random set_logging r_seed r_restored r_random r_teardowns r_saved]; rewrite runs_since_app; cbn [runs_since seed_in].
      + repeat split; try reflexivity. exact R.
      + destruct R as [R1 R2]. repeat split; [exact R1|discriminate|exact R2].
      + destruct R as [R1 R2]. split; [reflexivity|]. split; [reflexivity|]. split; [discriminate|]. intro So. split; [|now apply HT]. destruct (So i) as [B _]. rewrite B. now apply R2. }
  assert (Eta : s1 = set_setups (r_setups s1) (set_call (r_call s1) (set_teardowns (r_teardowns s1) s1))) by (destruct s1; reflexivity).
  assert (Td : p = PTeardown -> r_teardowns s1 = []) by (intros ->; destruct R as [R1 _]; exact R1).
  destruct (e_phase E i p) as [[v l]|] eqn:Ph.
  - apply K. destruct p.
    + specialize (Id (r_teardowns s1) (r_setups s1 ++ l) (r_call s1)). apply Id. intros _ F. discriminate F.
    + destruct l as [|a l]; [rewrite Eta; apply Id; intros _ F; discriminate F|]. specialize (Id (r_teardowns s1) (r_setups s1) (Some a)). apply Id. intros _ F. discriminate F.
    + specialize (Id (r_teardowns s1 ++ l) (r_setups s1) (r_call s1)). apply Id. intros So _. destruct (So i) as [_ B]. rewrite (B v l Ph), (Td eq_refl). reflexivity.
  - cbn [raise fst]. rewrite Eta. apply idle_fine. apply Id. intros _ P. now apply Td.
Qed.

Definition next_ok (i : nat) (next : st -> outcome) : Prop := forall s, at_ i PTeardown s -> fine (fst (next s)).
Lemma td_with_fine next i v s : next_ok i next -> at_ i PTeardown s -> fine (fst (teardown_with E next i v s)).
Proof.
  intros N A. unfold teardown_with. destruct (r_teardowns s) as [|a l] eqn:T.
  - assert (A1 : at_ i PTeardown (set_log (EvReport i PTeardown v) s)) by (apply at_log; [exact Logic.I|apply A|exact A]).
    unfold andthen at 1. unfold emit at 1. cbn [fst snd]. destruct (e_raises E _); [apply idle_fine, A1|].
    assert (A2 : at_ i PTeardown (set_log (EvLogFinish i) (set_log (EvReport i PTeardown v) s))) by (apply at_log; [exact Logic.I|exact Logic.I|exact A1]).
    unfold andthen, emit. cbn [fst snd]. destruct (e_raises E _); [apply idle_fine, A2|]. now apply N.
  - cbn [ret fst]. destruct A as (((K & H) & W & C) & He & J).
    assert (NS : sober -> False) by (intro So; rewrite He in H; destruct H as (_ & _ & _ & H4); destruct (H4 So) as [_ H5]; rewrite H5 in T; discriminate T).
    apply (start_fine i); [|intros So _; exact (NS So)]. split; [|split; assumption]. split; [|split; assumption]. split; [exact K|].
    change (here (set_teardowns l s)) with (here s). rewrite He in *. destruct H as (H1 & H2 & H3 & H4). split; [exact H1|]. split; [exact H2|]. split; [exact H3|]. intro So. destruct (H4 So) as [_ H5]. rewrite H5 in T. discriminate T.
Qed.
Lemma td_fine next i p s : next_ok i next -> p <> PTeardown -> at_ i p s -> fine (fst (teardown E next i s)).
Proof.
  intros N P (((K & H) & W & C) & He & J). unfold teardown. apply hook_fine; [exact K|exact W|exact J| |intros v s'; now apply td_with_fine].
  split; [reflexivity|]. rewrite He in H. destruct H as (_ & _ & _ & H). intro So. specialize (H So). destruct p; [exact H|exact H|now destruct P].
Qed.
Lemma report_td_fine next i p v s : next_ok i next -> p <> PTeardown -> at_ i p s -> fine (fst (andthen (emit E (EvReport i p v) s) (teardown E next i))).
Proof.
  intros N P A. assert (A1 : at_ i p (set_log (EvReport i p v) s)) by (apply at_log; [exact Logic.I|apply A|exact A]).
  unfold andthen, emit. cbn [fst snd]. destruct (e_raises E _); [apply idle_fine, A1|]. now apply (td_fine next i p).
Qed.
Lemma su_with_fine next i v s : next_ok i next -> at_ i PSetup s -> fine (fst (setup_with E next i v s)).
Proof.
  intros N A. unfold setup_with. destruct v; [|apply report_td_fine; [exact N|discriminate|exact A]..].
  destruct (r_setups s) as [|a l]; [|cbn [ret fst]; apply (start_fine i); [exact A|discriminate]].
  assert (A1 : at_ i PSetup (set_log (EvReport i PSetup Passed) s)) by (apply at_log; [exact Logic.I|apply A|exact A]).
  unfold andthen at 1, emit at 1. cbn [fst snd]. destruct (e_raises E _); [apply idle_fine, A1|].
  destruct A1 as (((K & H) & W & C) & He & J). rewrite He in H. destruct H as (H1 & _ & _ & H4).
  apply hook_fine; [exact K|exact W|exact J|split; [exact H1|exact H4]|]. intros v s' A'. destruct (r_call s') as [a|]; [cbn [ret fst]; apply (start_fine i); [exact A'|discriminate]|].
  apply report_td_fine; [exact N|discriminate|exact A'].
Qed.
Definition fresh (s : st) : Prop := idle s /\ (sober -> r_random s = r0).
Lemma at_fresh i s : at_ i PTeardown s -> fresh s.
Proof. intros (I & He & _). split; [exact I|]. destruct I as ((_ & H) & _). rewrite He in H. destruct H as (_ & _ & _ & H). intro So. now destruct (H So). Qed.
Lemma protocol_fine rest : forall d i s, fresh s -> r_index s = i -> fine (fst (protocol E d i rest s)).
Proof.
  induction rest as [|r IH]; intros d i s (I & R) J; cbn [protocol];
    (assert (I1 : idle (set_log (EvLogStart i) (set_depth d s))) by (apply (idle_log (EvLogStart i) (set_depth d s) Logic.I Logic.I); exact I));
    unfold andthen at 1, emit at 1; cbn [fst snd]; (destruct (e_raises E _); [apply idle_fine, I1|]);
    destruct I1 as ((K & H) & W & C); (apply hook_fine; [exact K|exact W|exact J|exact R|]); intros v s' A'; (apply su_with_fine; [|exact A']); intros s2 A2.
  - apply idle_fine, idle_finish, A2.
  - destruct (at_fresh i s2 A2) as [B1 B2]. apply IH; [split; [exact B1|exact B2]|reflexivity].
Qed.
Lemma next_fine i : next_ok i (next_item E).
Proof.
  intros s A. unfold next_item. destruct (_ - _ - _)%nat; [apply idle_fine, idle_finish, A|]. destruct (at_fresh i s A) as [B1 B2]. apply protocol_fine; [split; [exact B1|exact B2]|reflexivity].
Qed.
Lemma fine_step s l s' : (r_log s = [] -> fresh s /\ r_index s = 0%nat) -> fine s -> step E s l = Some s' -> fine s'.
Proof.
  intros Z F. destruct l as [| |r|]; cbn [step].
  - destruct (r_log s) eqn:L; [|discriminate]. destruct (r_finished s); [discriminate|]. intro H. injection H as <-. destruct (Z eq_refl) as [[I R] J].
    apply fine_wrap. unfold runtestloop. destruct (_ && _); [exact F|]. destruct (e_items E); [now apply fine_finish|]. destruct (e_collect_only E); [now apply fine_finish|].
    now apply protocol_fine.
  - destruct F as (K & W). destruct (r_wait s) as [[p a]|]; [|discriminate]. destruct W as (He & C & _ & NT). destruct (r_on s); [discriminate|]. intro H. injection H as <-.
    apply run_fine; [exact K|exact He|now apply C|exact NT].
  - destruct F as ((A & K) & W). destruct (r_wait s) as [[p a]|]; [|discriminate]. destruct W as (He & _ & Rn & NT). destruct (r_on s) eqn:On; [|discriminate]. intro H. injection H as <-.
    unfold part_completed. cbv zeta. apply fine_wrap. unfold completed. cbv zeta.
    set (s1 := set_logging _ _ _). change (r_index (set_wait None false (set_random r (r_saved s) (r_seed s) s))) with (r_index s).
    assert (At : at_ (r_index s) p s1).
    { split; [|split; [exact He|reflexivity]]. split; [|split; reflexivity]. split; [exact A|]. change (here s1) with (here s). rewrite He in *. destruct K as (K1 & K2 & K3 & K4).
      split; [exact K1|]. split; [exact K2|]. split.
      - intros _ X. change (runs_since (r_log s) false = false) in X. rewrite (Rn eq_refl) in X. discriminate X.
      - intro So. specialize (K4 So). destruct p; [exact K4|exact K4|now destruct (NT So)]. }
    destruct (e_done E a) as [v|]; [|apply idle_fine, At]. destruct p.
    + apply su_with_fine; [apply next_fine|exact At].
    + apply report_td_fine; [apply next_fine|discriminate|exact At].
    + apply td_with_fine; [apply next_fine|exact At].
  - intro H. injection H as <-. split; [|exact Logic.I]. destruct F as (K & _). apply (knows_log EvShutdown s Logic.I Logic.I K).
Qed.

Lemma fine_exec ls s : exec E (init E r0) ls s -> fine s.
Proof.
  intro X. refine (proj2 (exec_inv E (fun s => (r_log s = [] -> fresh s /\ r_index s = 0%nat) /\ fine s) _ _ _ _ X _)).
  - intros s1 l s2 [Z F] S. split; [|exact (fine_step s1 l s2 Z F S)]. intro L2.
    destruct (r_log s1) as [|e x] eqn:L1; [|destruct (log_ext E [e] s1 l s2) as (y & H); [now exists x|exact S|rewrite H in L2; discriminate L2]].
    destruct (Z eq_refl) as [[((K1 & K2) & W & C) R] J]. destruct l as [| |r|]; cbn [step] in S.
    + rewrite L1 in S. destruct (r_finished s1) eqn:Fi; [discriminate S|]. injection S as <-. exfalso. revert L2.
      enough (N : r_log (fst (finish_on_exception E (runtestloop E s1))) <> []) by exact N.
      assert (NF : forall s, r_finished s = false -> r_log (fst (finish E s)) <> []).
      { intros s0 F0 L0. unfold finish in L0. rewrite F0 in L0. unfold andthen, emit in L0. cbn [fst snd] in L0.
        destruct (e_raises E (EvFinish _)); [|destruct (e_raises E EvShutdown)]; cbn [fst snd r_log set_log set_finished] in L0; destruct (r_log s0); discriminate L0. }
      assert (NR : forall o, r_log (fst o) <> [] -> r_log (fst (finish_on_exception E o)) <> []).
      { intros o B. destruct (r_log (fst o)) as [|e0 x0] eqn:L0; [now destruct B|]. unfold finish_on_exception. destruct (snd o); [|rewrite L0; discriminate].
        destruct (from_finish E [e0] (set_log EvNotify (set_failed (fst o)))) as (y & H); [|rewrite H; discriminate]. apply from_log. now exists x0. }
      unfold runtestloop. destruct (_ && _).
      * cbn [raise finish_on_exception fst snd]. apply NF. exact Fi.
      * destruct (e_items E); [apply NR, NF, Fi|]. destruct (e_collect_only E); [apply NR, NF, Fi|]. apply NR. rewrite J.
        destruct (protocol_log E n 0 0 s1) as (y & H). rewrite H, L1. discriminate.
    + rewrite W in S. discriminate S.
    + rewrite W in S. discriminate S.
    + injection S as <-. cbn [r_log set_wait set_log] in L2. rewrite L1 in L2. discriminate L2.
  - assert (K : knows (init E r0)). { split; [intros l1 e l2 H; destruct l1; discriminate H|]. split; reflexivity. }
    split; [|split; [exact K|exact Logic.I]]. intros _. split; [|reflexivity]. split; [|reflexivity]. split; [exact K|]. split; reflexivity.
Qed.
End Runs.

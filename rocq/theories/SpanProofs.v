From Verif Require Import Base PytestModel PytestSpec PytestProofs SpanModel SpanSpec.
From Coq Require Import Lia Sorted.
Open Scope Z_scope.

(** * Hooks and reports alternate *)
Inductive mode := Open | Shut | Dead | Broken.
Section Modes.
Variable E : env.
Definition md (m : mode) (e : event) : mode :=
  match e with
  | EvHook i p => match m with Shut => match e_phase E i p with None => Dead | Some _ => Open end | _ => Broken end
  | EvReport _ _ _ => match m with Open => Shut | _ => Broken end
  | EvRun _ _ _ _ _ => match m with Open => Open | _ => Broken end
  | _ => m
  end.
Definition mds (m : mode) (l : list event) : mode := fold_left md l m.
Lemma mds_app m a b : mds m (a ++ b) = mds (mds m a) b. Proof. apply fold_left_app. Qed.
Lemma mds_broken l : mds Broken l = Broken.
Proof. induction l as [|e l IH]; [reflexivity|]. cbn [mds fold_left]. destruct e; exact IH. Qed.
Definition at_mode (s : st) : mode := mds Shut (r_log s).
Lemma mode_log e s : at_mode (set_log e s) = md (at_mode s) e.
Proof. unfold at_mode. cbn [r_log set_log]. rewrite mds_app. reflexivity. Qed.

Definition calm (s : st) (m : mode) : Prop := at_mode s = m /\ r_wait s = None.
Definition done_ok (o : outcome) : Prop :=
  at_mode (fst o) <> Broken /\ (snd o = true \/ r_wait (fst o) <> None -> snd o = true /\ r_wait (fst o) = None \/ snd o = false /\ at_mode (fst o) = Open).

Lemma ok_raised s : at_mode s <> Broken -> r_wait s = None -> done_ok (s, true).
Proof. intros A B. split; [exact A|]. cbn [fst snd]. intros _. left. split; [reflexivity|exact B]. Qed.
Lemma ok_idle s b : at_mode s <> Broken -> r_wait s = None -> done_ok (s, b).
Proof. intros A B. destruct b; [now apply ok_raised|]. split; [exact A|]. cbn [fst snd]. intros [H|H]; [discriminate H|now elim H]. Qed.
Lemma ok_open s : at_mode s = Open -> done_ok (s, false).
Proof. intro A. split; [cbn [fst]; rewrite A; discriminate|]. intros _. right. split; [reflexivity|exact A]. Qed.

Lemma finish_calm s : r_wait s = None -> at_mode s <> Broken -> r_wait (fst (finish E s)) = None /\ at_mode (fst (finish E s)) = at_mode s.
Proof.
  intros W A. unfold finish. destruct (r_finished s); [split; [exact W|reflexivity]|]. unfold andthen, emit. cbn [fst snd].
  repeat (match goal with |- context [if ?b then _ else _] => destruct b end; cbn [fst snd]); (split; [exact W|]); rewrite ?mode_log; reflexivity.
Qed.
Lemma finish_ok s : r_wait s = None -> at_mode s <> Broken -> done_ok (finish E s).
Proof.
  intros W A. destruct (finish_calm s W A) as [B C]. destruct (finish E s) as [s' b]. cbn [fst] in B, C. apply ok_idle; [now rewrite C|exact B].
Qed.
Lemma run_open p a s : at_mode s = Open -> at_mode (run_part E p a s) = Open.
Proof.
  intro A. unfold run_part. destruct (r_restored s); unfold at_mode; cbn [r_log set_wait set_log set_logging]; rewrite mds_app; unfold at_mode in A; rewrite A; reflexivity.
Qed.
Lemma start_ok p a s : at_mode s = Open -> done_ok (ret (start E p a s)).
Proof. intro A. apply ok_open. unfold start. destruct (r_scheduled s); [exact A|now apply run_open]. Qed.

Definition next_fits (next : st -> outcome) : Prop := forall s, calm s Shut -> done_ok (next s).
Lemma emit_ok e s m k : calm s m -> md m e <> Broken -> (forall s, calm s (md m e) -> done_ok (k s)) -> done_ok (andthen (emit E e s) k).
Proof.
  intros [A W] N K. unfold andthen, emit. cbn [fst snd]. assert (M : at_mode (set_log e s) = md m e) by (rewrite mode_log; now rewrite A).
  destruct (e_raises E e); [apply ok_raised; [now rewrite M|exact W]|]. apply K. split; [exact M|exact W].
Qed.
Lemma hook_ok i p s k : calm s Shut -> (forall v s, calm s Open -> done_ok (k v s)) -> done_ok (call_hook E i p s k).
Proof.
  intros [A W] K. unfold call_hook.
  destruct (e_phase E i p) as [[v l]|] eqn:P.
  - apply K. assert (M : mds Shut (r_log s ++ [EvHook i p]) = Open).
    { rewrite mds_app. unfold at_mode in A. rewrite A. cbn [mds fold_left md]. now rewrite P. }
    destruct p; [|destruct l|]; (split; [exact M|exact W]).
  - assert (M : mds Shut (r_log s ++ [EvHook i p]) = Dead).
    { rewrite mds_app. unfold at_mode in A. rewrite A. cbn [mds fold_left md]. now rewrite P. }
    apply ok_raised; [|destruct p; exact W]. replace (at_mode _) with Dead; [discriminate|]. symmetry. destruct p; exact M.
Qed.
Lemma teardown_with_ok next i v s : next_fits next -> calm s Open -> done_ok (teardown_with E next i v s).
Proof.
  intros N C. unfold teardown_with. destruct (r_teardowns s) as [|a l]; [|apply start_ok; exact (proj1 C)].
  apply (emit_ok _ _ Open); [exact C|discriminate|]. cbn [md]. intros s1 C1. apply (emit_ok _ _ Shut); [exact C1|discriminate|exact N].
Qed.
Lemma teardown_ok next i s : next_fits next -> calm s Shut -> done_ok (teardown E next i s).
Proof. intros N C. unfold teardown. apply hook_ok; [exact C|]. intros v s1. now apply teardown_with_ok. Qed.
Lemma setup_with_ok next i v s : next_fits next -> calm s Open -> done_ok (setup_with E next i v s).
Proof.
  intros N C.
  assert (T : forall p v s, calm s Open -> done_ok (andthen (emit E (EvReport i p v) s) (teardown E next i))).
  { intros p v1 s1 C1. apply (emit_ok _ _ Open); [exact C1|discriminate|]. cbn [md]. intros s2. now apply teardown_ok. }
  unfold setup_with. destruct v; [|now apply T|now apply T]. destruct (r_setups s) as [|a l]; [|apply start_ok; exact (proj1 C)].
  apply (emit_ok _ _ Open); [exact C|discriminate|]. cbn [md]. intros s1 C1. apply hook_ok; [exact C1|].
  intros v s2 C2. destruct (r_call s2) as [a|]; [apply start_ok; exact (proj1 C2)|now apply T].
Qed.
Lemma protocol_ok rest : forall d i, next_fits (protocol E d i rest).
Proof.
  induction rest as [|rest IH]; intros d i s C; cbn [protocol]; (apply (emit_ok _ _ Shut); [exact C|discriminate|]); cbn [md]; intros s1 C1;
    unfold setup; (apply hook_ok; [exact C1|]); intros v s2 C2; (apply setup_with_ok; [|exact C2]); intros s3 C3.
  - apply finish_ok; [exact (proj2 C3)|rewrite (proj1 C3); discriminate].
  - apply IH. exact C3.
Qed.
Lemma next_ok : next_fits (next_item E).
Proof.
  intros s C. unfold next_item. destruct (_ - _ - 1)%nat; [apply finish_ok; [exact (proj2 C)|rewrite (proj1 C); discriminate]|]. apply protocol_ok. exact C.
Qed.

(** Nothing is wrong, and only a phase which has begun waits. *)
Definition bound (s : st) : Prop := at_mode s <> Broken /\ (r_wait s <> None -> at_mode s = Open).
Lemma wrap_ok o : done_ok o -> bound (fst (finish_on_exception E o)).
Proof.
  intros [A B]. unfold finish_on_exception. destruct o as [s b]. cbn [fst snd] in *. destruct b.
  - destruct (B (or_introl eq_refl)) as [[_ W]|[H _]]; [|discriminate H].
    assert (A1 : at_mode (set_log EvNotify (set_failed s)) = at_mode s) by (rewrite mode_log; reflexivity).
    destruct (finish_calm (set_log EvNotify (set_failed s))) as [W1 M1]; [exact W|now rewrite A1|]. split; [now rewrite M1, A1|]. intro H. now elim H.
  - split; [exact A|]. intro W. destruct (B (or_intror W)) as [[H _]|[_ H]]; [discriminate H|exact H].
Qed.
Lemma bound_empty s : bound s -> r_log s = [] -> r_wait s = None.
Proof. intros [_ B] L. destruct (r_wait s) eqn:W; [|reflexivity]. unfold at_mode in B. rewrite L in B. discriminate B. discriminate. Qed.
Lemma bound_step s l s' : bound s -> step E s l = Some s' -> bound s'.
Proof.
  intros AB. assert (W := bound_empty s AB). destruct AB as [A B]. destruct l as [| |r|]; cbn [step].
  - destruct (r_log s) as [|e x] eqn:L; [|discriminate]. destruct (r_finished s); [discriminate|]. intro H. injection H as <-. apply wrap_ok.
    assert (C : calm s Shut) by (split; [unfold at_mode; now rewrite L|now apply W]).
    assert (C' : done_ok (finish E s)) by (apply finish_ok; [exact (proj2 C)|rewrite (proj1 C); discriminate]).
    unfold runtestloop. destruct (_ && _); [apply ok_raised; [exact A|exact (proj2 C)]|]. destruct (e_items E); [exact C'|].
    destruct (e_collect_only E); [exact C'|]. apply protocol_ok. exact C.
  - destruct (r_wait s) as [[p a]|]; [|discriminate]. destruct (r_on s); [discriminate|]. intro H. injection H as <-.
    assert (O : at_mode (run_part E p a s) = Open) by (apply run_open; now apply B). split; [rewrite O; discriminate|intros _; exact O].
  - destruct (r_wait s) as [[p a]|]; [|discriminate]. destruct (r_on s); [|discriminate]. intro H. injection H as <-. unfold part_completed. apply wrap_ok.
    unfold completed. set (s1 := set_logging _ _ _). assert (C : calm s1 Open) by (split; [apply B; discriminate|reflexivity]).
    destruct (e_done E a) as [v|]; [|apply ok_raised; [rewrite (proj1 C); discriminate|exact (proj2 C)]]. destruct p.
    + apply setup_with_ok; [exact next_ok|exact C].
    + apply (emit_ok _ _ Open); [exact C|discriminate|]. cbn [md]. intros s2 C2. apply teardown_ok; [exact next_ok|exact C2].
    + apply teardown_with_ok; [exact next_ok|exact C].
  - intro H. injection H as <-. assert (M : at_mode (set_wait None false (set_log EvShutdown s)) = at_mode s) by (exact (mode_log EvShutdown s)).
    split; [now rewrite M|]. intro H. now elim H.
Qed.
End Modes.

(** * With times *)
Inductive tmode := TOpen (t : Z) | TShut (t : Z) | TDead (t : Z).
Definition shape (m : tmode) : mode := match m with TOpen _ => Open | TShut _ => Shut | TDead _ => Dead end.
Definition pos (m : tmode) : Z := match m with TOpen t | TShut t | TDead t => t end.
Section Timed.
Variable E : env.
Definition adv (m : tmode) (x : Z * event) : option tmode :=
  let (t, e) := x in
  match e with
  | EvHook i p => match m with
                  | TShut t1 => if t1 =? t then Some (match e_phase E i p with None => TDead t | Some _ => TOpen t end) else None
                  | _ => None
                  end
  | EvReport _ _ _ => match m with TOpen _ => Some (TShut t) | _ => None end
  | EvRun _ _ _ _ _ => match m with TOpen _ => Some m | _ => None end
  | EvFinish _ => match m with TShut t1 => if t1 =? t then Some m else None | _ => Some m end
  | _ => Some m
  end.
Fixpoint advs (m : tmode) (l : list (Z * event)) : option tmode :=
  match l with
  | [] => Some m
  | x :: l => match adv m x with None => None | Some m => advs m l end
  end.
Lemma advs_app l1 : forall m l2, advs m (l1 ++ l2) = match advs m l1 with None => None | Some m1 => advs m1 l2 end.
Proof. induction l1 as [|x l1 IH]; intros m l2; [reflexivity|]. cbn [app advs]. destruct (adv m x); [apply IH|reflexivity]. Qed.

(** In one step, all times are equal. *)
Lemma same_time t evs : forall m, (forall t1, m = TShut t1 -> t1 = t) -> mds E (shape m) evs <> Broken ->
  exists m1, advs m (map (pair t) evs) = Some m1 /\ shape m1 = mds E (shape m) evs.
Proof.
  induction evs as [|e evs IH]; intros m T N; [exists m; split; reflexivity|]. cbn [map advs]. cbn [mds fold_left] in N |- *. fold (mds E) in N |- *.
  change (fold_left (md E) evs (md E (shape m) e)) with (mds E (md E (shape m) e) evs) in N |- *.
  assert (A : exists m1, adv m (t, e) = Some m1 /\ shape m1 = md E (shape m) e /\ (forall t1, m1 = TShut t1 -> t1 = t)).
  { destruct (md E (shape m) e) eqn:D; [| | |now rewrite mds_broken in N];
      destruct e, m as [t0|t0|t0]; cbn [shape md] in D; try discriminate D; cbn [adv]; try (rewrite (T t0 eq_refl), Z.eqb_refl);
      try (destruct (e_phase E _ _); try discriminate D); (eexists; split; [reflexivity|]; split; [reflexivity|]; intros t1 H1; try discriminate H1; try (injection H1 as <-; reflexivity); now apply T). }
  destruct A as (m1 & A1 & A2 & A3). rewrite A1. rewrite <- A2 in N |- *. apply IH; assumption.
Qed.

Lemma timed_exec ls : forall s s' x, timed E s ls = Some (s', x) -> exec E s (map snd ls) s' /\ r_log s' = r_log s ++ map snd x.
Proof.
  induction ls as [|[t l] ls IH]; intros s s' x H; cbn [timed] in H; [injection H as <- <-; split; [constructor|now rewrite app_nil_r]|].
  destruct (step E s l) as [s1|] eqn:S; [|discriminate H]. destruct (timed E s1 ls) as [[s2 y]|] eqn:T; [|discriminate H]. injection H as <- <-.
  destruct (IH _ _ _ T) as [X L]. split; [econstructor; [exact S|exact X]|]. destruct (log_ext E (r_log s) s l s1) as (z & Z0); [exists []; now rewrite app_nil_r|exact S|].
  rewrite L, Z0, skipn_app, skipn_all, Nat.sub_diag. cbn [app skipn]. rewrite map_app, map_map. cbn [snd]. rewrite map_id. now rewrite <- app_assoc.
Qed.

Lemma timed_step s m t l s1 : bound E s -> shape m = at_mode E s -> (r_log s = [] -> m = TShut t) -> step E s l = Some s1 ->
  exists m1, advs m (map (pair t) (skipn (List.length (r_log s)) (r_log s1))) = Some m1 /\ shape m1 = at_mode E s1.
Proof.
  intros B M L S. destruct (log_ext E (r_log s) s l s1) as (z & Z0); [exists []; now rewrite app_nil_r|exact S|].
  rewrite Z0, skipn_app, skipn_all, Nat.sub_diag. cbn [app skipn].
  assert (B1 := bound_step E s l s1 B S).
  assert (M1 : at_mode E s1 = mds E (shape m) z) by (unfold at_mode; rewrite Z0, mds_app; now rewrite M).
  assert (O : r_wait s <> None -> exists t0, m = TOpen t0).
  { intro W. rewrite (proj2 B W) in M. destruct m as [t0|t0|t0]; [now exists t0|discriminate M|discriminate M]. }
  rewrite M1. destruct l as [| |r|]; cbn [step] in S.
  - destruct (r_log s) as [|e0 l0] eqn:R; [|discriminate S]. apply same_time; [|rewrite <- M1; exact (proj1 B1)]. rewrite (L eq_refl). intros t1 H. now injection H as <-.
  - destruct (r_wait s) as [[p a]|]; [|discriminate S]. destruct O as [t0 ->]; [discriminate|]. apply same_time; [|rewrite <- M1; exact (proj1 B1)]. intros t1 H. discriminate H.
  - destruct (r_wait s) as [[p a]|]; [|discriminate S]. destruct O as [t0 ->]; [discriminate|]. apply same_time; [|rewrite <- M1; exact (proj1 B1)]. intros t1 H. discriminate H.
  - injection S as <-. cbn [r_log set_wait set_log] in Z0. apply app_inv_head in Z0. subst z. exists m. split; reflexivity.
Qed.
Lemma timed_from ls : forall s m s' x, bound E s -> shape m = at_mode E s -> r_log s <> [] -> timed E s ls = Some (s', x) ->
  exists m1, advs m x = Some m1 /\ shape m1 = at_mode E s'.
Proof.
  induction ls as [|[t l] ls IH]; intros s m s' x B M L H; cbn [timed] in H; [injection H as <- <-; exists m; split; [reflexivity|exact M]|].
  destruct (step E s l) as [s1|] eqn:S; [|discriminate H]. destruct (timed E s1 ls) as [[s2 y]|] eqn:T; [|discriminate H]. injection H as <- <-.
  destruct (timed_step s m t l s1 B M) as (m1 & A1 & A2); [intro F; now elim L|exact S|]. rewrite advs_app, A1.
  apply (IH s1); [exact (bound_step E s l s1 B S)|exact A2| |exact T].
  destruct (log_ext E (r_log s) s l s1) as (z & Z0); [exists []; now rewrite app_nil_r|exact S|]. rewrite Z0. intro F. apply app_eq_nil in F as [F _]. now elim L.
Qed.
Lemma init_bound r : bound E (init E r). Proof. split; [discriminate|]. intro H. now elim H. Qed.
Lemma first_log r l s : step E (init E r) l = Some s -> r_log s <> [].
Proof.
  intro S. intro L. assert (F := fine_exec E r [l] s). assert (B := bound_step E _ _ _ (init_bound r) S). assert (W := bound_empty E s B L).
  destruct l as [| |z|]; cbn [step init r_log r_wait r_finished] in S; try discriminate S; [|injection S as <-; discriminate L].
  assert (LS : r_finished s = true \/ r_wait s <> None) by (apply (live_step E (init E r) LBegin); [discriminate|exact S]).
  destruct LS as [LS|LS]; [|now elim LS]. assert (O : once E s). { apply (once_step E (init E r) LBegin); [repeat split; cbn; lia|exact S]. }
  destruct O as (O & _). rewrite LS, L in O. discriminate O.
Qed.
Lemma timed_all r t l ls s x : timed E (init E r) ((t, l) :: ls) = Some (s, x) -> exists m, advs (TShut t) x = Some m /\ shape m = at_mode E s.
Proof.
  cbn [timed]. destruct (step E (init E r) l) as [s1|] eqn:S; [|discriminate]. destruct (timed E s1 ls) as [[s2 y]|] eqn:T; [|discriminate]. intro H. injection H as <- <-.
  destruct (timed_step (init E r) (TShut t) t l s1) as (m1 & A1 & A2); [apply init_bound|reflexivity|reflexivity|exact S|]. cbn [init r_log List.length skipn] in A1. rewrite advs_app, A1.
  apply (timed_from ls s1); [exact (bound_step E _ l s1 (init_bound r) S)|exact A2|exact (first_log r l s1 S)|exact T].
Qed.

(** Reports *)
Lemma advs_tiles x : forall m start m1, advs m x = Some m1 -> (forall t, m = TOpen t -> start = t) ->
  match m with TDead _ => reports E start x = [] | _ => tiles (pos m) (reports E start x) end.
Proof.
  induction x as [|[t e] x IH]; intros m start m1 A O; [destruct m; exact Logic.I || reflexivity|]. cbn [advs] in A.
  destruct (adv m (t, e)) as [m2|] eqn:D; [|discriminate A]. destruct m as [t0|t0|t0], e; cbn [adv] in D; try discriminate D; cbn [reports];
    try (destruct (t0 =? t) eqn:TT; [|discriminate D]; apply Z.eqb_eq in TT); try (injection D as <-);
    try (apply (IH _ _ _ A); assumption); try (apply (IH _ _ _ A); intros t9 H9; discriminate H9).
  - cbn [tiles sp_start sp_stop pos]. split; [now apply O|]. apply (IH _ start _ A). intros t9 H9. discriminate H9.
  - subst t0. destruct (e_phase E i p) as [w|].
    + apply (IH _ t _ A). intros t9 H9. now injection H9.
    + assert (Z9 := IH _ start _ A). cbn in Z9. rewrite Z9; [exact Logic.I|]. intros t9 H9. discriminate H9.
Qed.
Lemma total_cons a l : total (a :: l) = sp_duration a + total l. Proof. reflexivity. Qed.
Lemma advs_total x : forall m start m1, advs m x = Some m1 -> (forall t, m = TOpen t -> start = t) ->
  (forall t, m1 = TOpen t -> False) -> total (reports E start x) = pos m1 - pos m.
Proof.
  induction x as [|[t e] x IH]; intros m start m1 A O N; [cbn [advs] in A; injection A as <-; cbn; lia|]. cbn [advs] in A.
  destruct (adv m (t, e)) as [m2|] eqn:D; [|discriminate A]. destruct m as [t0|t0|t0], e; cbn [adv] in D; try discriminate D; cbn [reports];
    try (destruct (t0 =? t) eqn:TT; [|discriminate D]; apply Z.eqb_eq in TT); try (injection D as <-);
    try (apply (IH _ _ _ A); assumption); try (apply (IH _ _ _ A); [intros t9 H9; discriminate H9|exact N]).
  - rewrite total_cons. rewrite (IH _ start _ A); [|intros t9 H9; discriminate H9|exact N]. unfold sp_duration. cbn [sp_start sp_stop pos]. rewrite (O t0 eq_refl). lia.
  - subst t0. destruct (e_phase E i p) as [w|]; cbn [pos].
    + rewrite (IH _ t _ A); [reflexivity| |exact N]. intros t9 H9. now injection H9.
    + rewrite (IH _ start _ A); [reflexivity| |exact N]. intros t9 H9. discriminate H9.
Qed.

(** What is between a hook and a report. *)
Definition inner (e : event) : Prop := ~ is_hook e /\ ~ is_report e.
Lemma advs_covers x : forall m start m1 y, advs m x = Some m1 -> (forall t, m = TOpen t -> start = t) -> In y (reports E start x) ->
  (exists t l1 l2, m = TOpen t /\ sp_start y = t /\ x = l1 ++ (sp_stop y, EvReport (sp_item y) (sp_phase y) (sp_verdict y)) :: l2 /\ forall z, In z l1 -> inner (snd z)) \/
  (exists i p l0 l1 l2, x = l0 ++ (sp_start y, EvHook i p) :: l1 ++ (sp_stop y, EvReport (sp_item y) (sp_phase y) (sp_verdict y)) :: l2 /\ forall z, In z l1 -> inner (snd z)).
Proof.
  assert (K : forall m start m1 y x, advs m x = Some m1 -> (forall t, m = TOpen t -> start = t) -> In y (reports E start x) ->
    (forall m start m1 y, advs m x = Some m1 -> (forall t, m = TOpen t -> start = t) -> In y (reports E start x) ->
      (exists t l1 l2, m = TOpen t /\ sp_start y = t /\ x = l1 ++ (sp_stop y, EvReport (sp_item y) (sp_phase y) (sp_verdict y)) :: l2 /\ forall z, In z l1 -> inner (snd z)) \/
      (exists i p l0 l1 l2, x = l0 ++ (sp_start y, EvHook i p) :: l1 ++ (sp_stop y, EvReport (sp_item y) (sp_phase y) (sp_verdict y)) :: l2 /\ forall z, In z l1 -> inner (snd z))) ->
    forall w, inner (snd w) ->
      (exists t l1 l2, m = TOpen t /\ sp_start y = t /\ w :: x = l1 ++ (sp_stop y, EvReport (sp_item y) (sp_phase y) (sp_verdict y)) :: l2 /\ forall z, In z l1 -> inner (snd z)) \/
      (exists i p l0 l1 l2, w :: x = l0 ++ (sp_start y, EvHook i p) :: l1 ++ (sp_stop y, EvReport (sp_item y) (sp_phase y) (sp_verdict y)) :: l2 /\ forall z, In z l1 -> inner (snd z))).
  { clear x; intros m start m1 y x A O Y IH w W. destruct (IH m start m1 y A O Y) as [(t & l1 & l2 & F1 & F2 & F3 & F4)|(i & p & l0 & l1 & l2 & F3 & F4)].
    - left. exists t, (w :: l1), l2. split; [exact F1|]. split; [exact F2|]. split; [now rewrite F3|]. intros z [<-|H]; [exact W|now apply F4].
    - right. exists i, p, (w :: l0), l1, l2. split; [now rewrite F3|exact F4]. }
  induction x as [|[t e] x IH]; intros m start m1 y A O Y; [destruct Y|]. cbn [advs] in A.
  destruct (adv m (t, e)) as [m2|] eqn:D; [|discriminate A]. destruct e; cbn [adv] in D; cbn [reports] in Y;
    try (injection D as <-; apply (K m start m1 y x A O Y IH); split; exact (fun H => H)).
  - destruct m as [t0|t0|t0]; try discriminate D. destruct (t0 =? t); [|discriminate D]. injection D as <-. right.
    destruct (e_phase E i p) as [w|] eqn:P.
    + assert (O2 : forall t9, TOpen t = TOpen t9 -> t = t9) by (intros t9 H9; now injection H9). destruct (IH _ _ _ y A O2 Y) as [(t' & l1 & l2 & F1 & F2 & F3 & F4)|(i' & p' & l0 & l1 & l2 & F3 & F4)].
      * injection F1 as <-. exists i, p, [], l1, l2. rewrite F2. split; [now rewrite F3|exact F4].
      * exists i', p', ((t, EvHook i p) :: l0), l1, l2. split; [now rewrite F3|exact F4].
    + assert (O2 : forall t9, TDead t = TOpen t9 -> start = t9) by (intros t9 H9; discriminate H9). destruct (IH _ _ _ y A O2 Y) as [(t' & l1 & l2 & F1 & F2 & F3 & F4)|(i' & p' & l0 & l1 & l2 & F3 & F4)]; [discriminate F1|].
      exists i', p', ((t, EvHook i p) :: l0), l1, l2. split; [now rewrite F3|exact F4].
  - destruct m as [t0|t0|t0]; try discriminate D. injection D as <-. apply (K _ start m1 y x A O Y IH). split; exact (fun H => H).
  - destruct m as [t0|t0|t0]; try discriminate D. injection D as <-. destruct Y as [<-|Y].
    + left. exists t0, [], x. split; [reflexivity|]. split; [now apply O|]. split; [reflexivity|]. intros z [].
    + right. assert (O2 : forall t9, TShut t = TOpen t9 -> start = t9) by (intros t9 H9; discriminate H9). destruct (IH _ _ _ y A O2 Y) as [(t' & l1 & l2 & F1 & F2 & F3 & F4)|(i' & p' & l0 & l1 & l2 & F3 & F4)]; [discriminate F1|].
      exists i', p', ((t, EvReport i p v) :: l0), l1, l2. split; [now rewrite F3|exact F4].
  - destruct m as [t0|t0|t0]; [| |].
    + injection D as <-. apply (K _ start m1 y x A O Y IH). split; exact (fun H => H).
    + destruct (t0 =? t); [|discriminate D]. injection D as <-. apply (K _ start m1 y x A O Y IH). split; exact (fun H => H).
    + injection D as <-. apply (K _ start m1 y x A O Y IH). split; exact (fun H => H).
Qed.
End Timed.

(** * Times *)
Section Times.
Variable E : env.
Lemma timed_low b ls : forall s s' x, timed E s ls = Some (s', x) -> Forall (Z.le b) (map fst ls) -> Forall (Z.le b) (map fst x).
Proof.
  induction ls as [|[t l] ls IH]; intros s s' x H F; cbn [timed] in H; [injection H as <- <-; constructor|].
  destruct (step E s l) as [s1|]; [|discriminate H]. destruct (timed E s1 ls) as [[s2 y]|] eqn:T; [|discriminate H]. injection H as <- <-.
  inversion F; subst. rewrite map_app. apply Forall_app. split; [|exact (IH _ _ _ T H2)]. rewrite map_map. cbn [fst]. apply Forall_forall. intros z Z0. apply in_map_iff in Z0 as (e & <- & _). exact H1.
Qed.
Lemma timed_sorted ls : forall s s' x, timed E s ls = Some (s', x) -> forward ls -> StronglySorted Z.le (map fst x).
Proof.
  induction ls as [|[t l] ls IH]; intros s s' x H F; cbn [timed] in H; [injection H as <- <-; constructor|].
  destruct (step E s l) as [s1|]; [|discriminate H]. destruct (timed E s1 ls) as [[s2 y]|] eqn:T; [|discriminate H]. injection H as <- <-.
  unfold forward in F. cbn [map fst] in F. inversion F as [|z zs F1 F2]; subst. rewrite map_app, map_map. cbn [fst].
  induction (skipn _ _) as [|e z IHz]; [exact (IH _ _ _ T F1)|]. cbn [map app]. constructor; [exact IHz|].
  apply Forall_app. split; [|exact (timed_low t ls _ _ _ T F2)]. apply Forall_forall. intros w Z0. apply in_map_iff in Z0 as (e0 & <- & _). lia.
Qed.
Lemma sorted_app (l1 l2 : list Z) : StronglySorted Z.le (l1 ++ l2) -> forall a b, In a l1 -> In b l2 -> a <= b.
Proof.
  induction l1 as [|c l1 IH]; intros S a b A B; [destruct A|]. cbn [app] in S. inversion S as [|z zs S1 S2]; subst. destruct A as [<-|A]; [|now apply IH].
  apply (proj1 (Forall_forall _ _) S2). apply in_or_app. now right.
Qed.

Lemma advs_shape x : forall m m1, advs E m x = Some m1 -> shape m1 = mds E (shape m) (map snd x).
Proof.
  induction x as [|[t e] x IH]; intros m m1 A; cbn [advs] in A; [injection A as <-; reflexivity|]. destruct (adv E m (t, e)) as [m2|] eqn:D; [|discriminate A].
  rewrite (IH _ _ A). cbn [map snd mds fold_left]. f_equal. destruct e, m; cbn [adv] in D; try discriminate D; try (destruct (_ =? _); [|discriminate D]); injection D as <-; try reflexivity.
  cbn [shape md]. destruct (e_phase E i p); reflexivity.
Qed.
Lemma advs_pos x : forall m m1, advs E m x = Some m1 -> pos m1 = pos m \/ In (pos m1) (map fst x).
Proof.
  induction x as [|[t e] x IH]; intros m m1 A; cbn [advs] in A; [injection A as <-; now left|]. destruct (adv E m (t, e)) as [m2|] eqn:D; [|discriminate A].
  cbn [map fst In]. destruct (IH _ _ A) as [H|H]; [|right; now right]. assert (P : pos m2 = pos m \/ pos m2 = t).
  { destruct e, m; cbn [adv] in D; try discriminate D; try (destruct (_ =? _) eqn:TT; [|discriminate D]); injection D as <-; try (now left); try (now right).
    destruct (e_phase E i p); now right. }
  rewrite H. destruct P as [-> | ->]; [now left|right; now left].
Qed.
Fixpoint start_after (start : Z) (l : list (Z * event)) : Z :=
  match l with
  | [] => start
  | (t, EvHook i p) :: l => start_after (match e_phase E i p with None => start | Some _ => t end) l
  | _ :: l => start_after start l
  end.
Lemma reports_app a : forall start b, reports E start (a ++ b) = reports E start a ++ reports E (start_after start a) b.
Proof. induction a as [|[t e] a IH]; intros start b; [reflexivity|]. destruct e; cbn [app reports start_after]; rewrite IH; reflexivity. Qed.
Lemma after_open a : forall m start u, advs E m a = Some (TOpen u) -> (forall t, m = TOpen t -> start = t) -> start_after start a = u.
Proof.
  induction a as [|[t e] a IH]; intros m start u A O; cbn [advs] in A; [injection A as ->; now apply O|]. destruct (adv E m (t, e)) as [m2|] eqn:D; [|discriminate A].
  destruct e, m; cbn [adv] in D; try discriminate D; try (destruct (_ =? _); [|discriminate D]); injection D as <-; cbn [start_after];
    try (apply (IH _ _ _ A); exact O); try (apply (IH _ _ _ A); intros t9 H9; discriminate H9).
  destruct (e_phase E i p); apply (IH _ _ _ A); intros t9 H9; [now injection H9|discriminate H9].
Qed.
Lemma first_report d : forall u m1, advs E (TOpen u) d = Some m1 -> (exists z, In z d /\ is_report (snd z)) ->
  exists l1 t2 i p v l2, d = l1 ++ (t2, EvReport i p v) :: l2 /\ (forall z, In z l1 -> inner (snd z)).
Proof.
  induction d as [|[t e] d IH]; intros u m1 A (z & I & R); [destruct I|]. cbn [advs] in A.
  assert (X : ~ is_report e -> exists z, In z d /\ is_report (snd z)) by (intro N; destruct I as [<-|I]; [now elim N|exists z; split; assumption]).
  destruct e; try (cbn [adv] in A; destruct (IH u m1 A) as (l1 & t2 & i2 & p2 & v2 & l2 & D & N); [apply X; exact (fun F => F)|];
    eexists ((t, _) :: l1), t2, i2, p2, v2, l2; split; [rewrite D; reflexivity|]; intros y [<-|Y]; [split; exact (fun F => F)|now apply N]).
  - discriminate A.
  - exists [], t, i, p, v, d. split; [reflexivity|]. intros y [].
Qed.
Lemma inner_hook l : (forall z : Z * event, In z l -> inner (snd z)) -> forall f, last_hook (map snd l) f = f.
Proof.
  induction l as [|[t e] l IH]; intros N f; [reflexivity|]. assert (N1 := N _ (or_introl eq_refl)). cbn [snd] in N1. destruct N1 as [N1 _].
  cbn [map snd]. destruct e; cbn [last_hook]; try (apply IH; intros z Z0; apply N; now right). elim N1. exact Logic.I.
Qed.
Lemma inner_reports l : (forall z : Z * event, In z l -> inner (snd z)) -> forall u y, reports E u (l ++ y) = reports E u y.
Proof.
  induction l as [|[t e] l IH]; intros N u y; [reflexivity|]. assert (N1 := N _ (or_introl eq_refl)). cbn [snd] in N1. destruct N1 as [N1 N2].
  assert (N3 : forall z, In z l -> inner (snd z)) by (intros z Z0; apply N; now right).
  cbn [app]. destruct e; cbn [reports]; try (apply IH; exact N3); [elim N1|elim N2]; exact Logic.I.
Qed.

Lemma all_ok_timed r ls s x : timed E (init E r) ls = Some (s, x) -> r_log s = map snd x /\ all_ok E (map snd x).
Proof.
  intro H. destruct (timed_exec E ls _ _ _ H) as [X L]. cbn [init r_log app] in L. split; [exact L|]. rewrite <- L. exact (proj1 (proj1 (fine_exec E r _ _ X))).
Qed.

(** The history of a session in which nothing raises. *)
Lemma mds_plain l : forall m, mds E m (map plain l) = mds E m l.
Proof. induction l as [|e l IH]; intro m; [reflexivity|]. cbn [map mds fold_left]. unfold mds in IH. rewrite IH. destruct e; reflexivity. Qed.
Lemma mds_phase i p l v : e_phase E i p <> None -> mds E Shut (phase_log i p l v) = Shut.
Proof.
  intro N. unfold phase_log. cbn [mds fold_left]. unfold md at 2. destruct (e_phase E i p); [|now elim N]. rewrite fold_left_app. cbn [fold_left].
  replace (fold_left (md E) (map (ran p) l) Open) with Open; [reflexivity|]. symmetry. clear. induction l as [|a l IH]; [reflexivity|]. exact IH.
Qed.
Lemma mds_item i : quiet E -> mds E Shut (item_log E i) = Shut.
Proof.
  intros (_ & Q & _). unfold item_log. change (mds E Shut (EvLogStart i :: ?l)) with (mds E Shut l). cbn [mds fold_left md].
  change (fold_left (md E) ?l Shut) with (mds E Shut l). rewrite mds_app, mds_phase by apply Q. rewrite mds_app.
  destruct (passed (setup_says E i)); [rewrite mds_phase by apply Q|cbn [mds fold_left]]; change (fold_left (md E) ?l Shut) with (mds E Shut l); rewrite mds_app, mds_phase by apply Q; reflexivity.
Qed.
Lemma mds_items l : quiet E -> mds E Shut (flat_map (item_log E) l) = Shut.
Proof. intro Q. induction l as [|i l IH]; [reflexivity|]. cbn [flat_map]. rewrite mds_app, mds_item by exact Q. exact IH. Qed.
End Times.

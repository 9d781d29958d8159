(** C114: tracebacks of exceptions, stacks and texts of Tasks. *)
From Coq Require Import String Lia.
From Verif Require Import Base TraceModel.

(** Exactly the named frames are removed, and only from the front. *)
Theorem C114_strip names : forall t u, remove_frames t names = Stripped u <-> exists p, map fst p = names /\ t = p ++ u.
Proof.
  induction names as [|n names IH]; intros t u; cbn [remove_frames].
  - split; [intros E; injection E as E; subst u; now exists []|]. intros ([|f p] & M & ->); [reflexivity|discriminate M].
  - destruct t as [|f t].
    { split; [discriminate|]. intros ([|g p] & M & E); [discriminate M|discriminate E]. }
    destruct (pystr_eqb (fst f) n) eqn:E.
    + rewrite IH. apply pystr_eqb_eq in E. split.
      * intros (p & M & ->). exists (f :: p). cbn [map app]. now rewrite M, E.
      * intros ([|g p] & M & X); [discriminate M|]. cbn [map app] in *. injection M as M1 M2. injection X as X1 X2. now exists p.
    + split; [discriminate|]. intros ([|g p] & M & X); [discriminate M|]. cbn [map app] in *. injection M as M1 M2. injection X as X1 X2. subst g.
      rewrite M1, pystr_eqb_refl in E. discriminate E.
Qed.
Print Assumptions C114_strip.
(** It runs into the end exactly if all frames are named and more names follow; any other failure is the assertion. *)
Theorem C114_strip_end names : forall t, remove_frames t names = NoFrame <-> exists n more, names = map fst t ++ n :: more.
Proof.
  induction names as [|n names IH]; intros t; cbn [remove_frames].
  - split; [discriminate|]. intros (n & more & E). destruct t; discriminate E.
  - destruct t as [|f t].
    { split; [intros _; now exists n, names|reflexivity]. }
    cbn [map app]. destruct (pystr_eqb (fst f) n) eqn:E.
    + rewrite IH. apply pystr_eqb_eq in E. split; intros (m & more & X); exists m, more; [now rewrite X, E|now injection X].
    + split; [discriminate|]. intros (m & more & X). injection X as X1 X2. rewrite <- X1, pystr_eqb_refl in E. discriminate E.
Qed.
Print Assumptions C114_strip_end.

Lemma set_same h e t : set_tb h e t e = t.
Proof. unfold set_tb. now rewrite Nat.eqb_refl. Qed.
Lemma caught h e c line fs : do_act h (Caught e c line fs) = Some (set_tb (set_tb h e ((name_of c, line) :: fs ++ h e)) e (fs ++ h e)).
Proof.
  cbn [do_act]. unfold remove_exc. rewrite set_same. cbn [remove_frames fst]. rewrite pystr_eqb_refl. reflexivity.
Qed.
(** Whatever users do with exceptions, the removals where Tasks and [capture] catch them never raise. *)
Theorem C114_never_raises acts : forall h, run h acts <> None.
Proof.
  induction acts as [|a acts IH]; intros h; cbn [run]; [discriminate|].
  destruct a as [e c line fs|e f fs|e t]; [rewrite caught|cbn [do_act]|cbn [do_act]]; apply IH.
Qed.
Print Assumptions C114_never_raises.
(** An exception caught there has gained the frames it left, without that of the catcher; no other exception changes. *)
Theorem C114_caught h e c line fs h' : do_act h (Caught e c line fs) = Some h' -> h' e = fs ++ h e /\ forall x, x <> e -> h' x = h x.
Proof.
  rewrite caught. intros [= <-]. unfold set_tb. rewrite Nat.eqb_refl. split; [reflexivity|].
  intros x N. apply Nat.eqb_neq in N. now rewrite N.
Qed.
Example C114_caught_example : exists h', do_act (fun _ => []) (Caught 3 Resume 351 [(lit "test", 7%Z); (lit "check", 9%Z)]) = Some h' /\
  h' 3%nat = [(lit "test", 7%Z); (lit "check", 9%Z)].
Proof. eexists. split; vm_compute; reflexivity. Qed.
Print Assumptions C114_caught.
(** The frames which [e] leaves in one act, without those of the library. *)
Definition gains (e : nat) (a : act) : list frame :=
  match a with
  | Caught x _ _ fs => if Nat.eqb x e then fs else []
  | Handled x f fs => if Nat.eqb x e then f :: fs else []
  | Replaced _ _ => []
  end.
(** Through any number of Tasks the traceback is made of the frames of users only, the last Task first. *)
Theorem C114_history e acts : forall h h', (forall t, ~ In (Replaced e t) acts) -> run h acts = Some h' ->
  h' e = flat_map (gains e) (rev acts) ++ h e.
Proof.
  induction acts as [|a acts IH]; intros h h' N R; cbn [run] in R; [now injection R as <-|].
  destruct (do_act h a) as [h1|] eqn:D; [|discriminate R].
  rewrite (IH h1 h' (fun t I => N t (or_intror I)) R). cbn [rev]. rewrite flat_map_app, <- app_assoc. f_equal. cbn [flat_map]. rewrite app_nil_r.
  destruct a as [x c line fs|x f fs|x t].
  - destruct (C114_caught _ _ _ _ _ _ D) as [A B]. cbn [gains]. destruct (Nat.eqb_spec x e) as [->|C]; [exact A|]. apply B. congruence.
  - injection D as <-. cbn [gains]. unfold set_tb. destruct (Nat.eqb_spec x e) as [->|C]; [now rewrite Nat.eqb_refl|].
    destruct (Nat.eqb_spec e x); [congruence|reflexivity].
  - injection D as <-. cbn [gains]. unfold set_tb. destruct (Nat.eqb_spec e x) as [->|C]; [|reflexivity]. destruct (N t). now left.
Qed.
Example C114_history_example : let acts := [Caught 0 Resume 349 [(lit "child", 5%Z)]; Caught 0 Resume 349 [(lit "parent", 8%Z); (lit "result", 660%Z)]] in
  (forall t, ~ In (Replaced 0 t) acts) /\ exists h', run (fun _ => []) acts = Some h' /\ h' 0%nat = [(lit "parent", 8%Z); (lit "result", 660%Z); (lit "child", 5%Z)].
Proof. split; [intros t [E|[E|[]]]; discriminate E|]. eexists. split; vm_compute; reflexivity. Qed.
Print Assumptions C114_history.
(** Contrary to its documentation the function makes no copy of an exception: that which it was given is changed. *)
Theorem C114_copy_refuted : exists h e names h', remove_exc h e names = Some (h', e) /\ h' e <> h e.
Proof.
  exists (fun _ => [(lit "_resume", 349%Z); (lit "test", 7%Z)]), 0%nat, [lit "_resume"]. eexists. split; [vm_compute; reflexivity|].
  vm_compute. discriminate.
Qed.
Print Assumptions C114_copy_refuted.
(** When a Task fails and two Tasks await it, the traceback in the second has the frames of the first, which it did not leave there. *)
Theorem C114_waiters_refuted : exists failed first second h', run (fun _ => []) [Caught 0 Resume 349 [failed]; Caught 0 Resume 349 [first]; Caught 0 Resume 349 [second]] = Some h' /\
  h' 0%nat = [second; first; failed] /\ first <> second /\ first <> failed.
Proof.
  exists (lit "worker", 3%Z), (lit "monitor", 5%Z), (lit "test", 7%Z). eexists. split; [vm_compute; reflexivity|].
  split; [vm_compute; reflexivity|]. split; vm_compute; discriminate.
Qed.
Print Assumptions C114_waiters_refuted.

(** The stack has the frames of the coroutines up to what is no coroutine. *)
Theorem C114_stack cs rest : rest = [] \/ (exists r, rest = Other :: r) ->
  walk (map Coroutine cs ++ rest) = flat_map (fun f => match f with Some f => [f] | None => [] end) cs.
Proof.
  intros R. induction cs as [|[f|] cs IH]; cbn [map app walk flat_map]; [|now rewrite IH|exact IH].
  destruct R as [->|(r & ->)]; reflexivity.
Qed.
Example C114_stack_example : walk [Coroutine (Some (lit "test", 4%Z)); Coroutine (Some (lit "send", 9%Z)); Other; Coroutine (Some (lit "hidden", 1%Z))] = [(lit "test", 4%Z); (lit "send", 9%Z)].
Proof. reflexivity. Qed.
Print Assumptions C114_stack.
(** Of a Task it is the same without a last "__await__"; Tasks of other objects have none. *)
Theorem C114_task_stack c s : coro_stack true c = Ok s <->
  (walk c = s /\ forall r f, s = r ++ [f] -> fst f <> lit "__await__") \/ exists line, walk c = s ++ [(lit "__await__", line)].
Proof.
  unfold coro_stack. destruct (rev (walk c)) as [|f r] eqn:E.
  - assert (W : walk c = []) by (rewrite <- (rev_involutive (walk c)), E; reflexivity). rewrite W. split.
    + intros [= <-]. left. split; [reflexivity|]. intros [|? ?] g X; discriminate X.
    + intros [[<- _]|(line & X)]; [reflexivity|]. destruct s; discriminate X.
  - assert (W : walk c = rev r ++ [f]) by (rewrite <- (rev_involutive (walk c)), E; reflexivity). rewrite W.
    destruct (pystr_eqb (fst f) (lit "__await__")) eqn:P.
    + apply pystr_eqb_eq in P. split.
      * intros [= <-]. right. exists (snd f). rewrite <- P. now destruct f.
      * intros [[<- X]|(line & X)]; [destruct (X (rev r) f eq_refl P)|]. apply app_inj_tail in X. now destruct X as [<- _].
    + split.
      * intros [= <-]. left. split; [reflexivity|]. intros r' f' X Y. apply app_inj_tail in X. destruct X as [_ <-]. rewrite Y, pystr_eqb_refl in P. discriminate P.
      * intros [[<- _]|(line & X)]; [reflexivity|]. apply app_inj_tail in X. destruct X as [_ ->]. cbn [fst] in P. rewrite pystr_eqb_refl in P. discriminate P.
Qed.
Example C114_task_stack_example : coro_stack true [Coroutine (Some (lit "test", 4%Z)); Coroutine (Some (lit "__await__", 9%Z))] = Ok [(lit "test", 4%Z)].
Proof. reflexivity. Qed.
Print Assumptions C114_task_stack.
Theorem C114_no_stack c : coro_stack false c = Err TypeError.
Proof. reflexivity. Qed.
Print Assumptions C114_no_stack.
(** The coroutine named in the text: the innermost on the stack. *)
Theorem C114_name native c own cls : 
  (forall r f, coro_stack native c = Ok (r ++ [f]) -> coro_name native c own cls = fst f) /\
  (coro_stack native c = Ok [] -> coro_name native c own cls = match own with Some n => n | None => cls end) /\
  (native = false -> coro_name native c own cls = cls).
Proof.
  unfold coro_name. split; [|split].
  - intros r f ->. now rewrite rev_app_distr.
  - now intros ->.
  - now intros ->.
Qed.
Example C114_name_example : coro_name true [Coroutine (Some (lit "test", 4%Z)); Coroutine (Some (lit "send", 9%Z)); Other] (Some (lit "test")) (lit "coroutine") = lit "send" /\
  coro_name true [Coroutine None] (Some (lit "test")) (lit "coroutine") = lit "test".
Proof. split; vm_compute; reflexivity. Qed.
Print Assumptions C114_name.
(** Specification, not code: the word for each state. *)
Definition word (s : state) : pystr :=
  match s with Unstarted => lit "created" | Scheduled => lit "scheduled" | Pending => lit "pending" | Running => lit "running"
  | Finished => lit "finished" | Errored => lit "error" | Cancelled => lit "cancelled" end.
(** The text begins with the name, the state and the coroutine; except of a cancelled Task it ends with a bracket. *)
Theorem C114_text_partial s name coro what : 
  (exists rest, repr s name coro what = lit "<" ++ name ++ lit " " ++ word s ++ lit " coro=" ++ coro ++ rest) /\
  (s <> Cancelled -> exists body, repr s name coro what = body ++ lit ">").
Proof.
  split.
  - destruct s; unfold repr;
      [change (lit " created coro=") with (lit " " ++ word Unstarted ++ lit " coro=")
      |change (lit " scheduled coro=") with (lit " " ++ word Scheduled ++ lit " coro=")
      |change (lit " pending coro=") with (lit " " ++ word Pending ++ lit " coro=")
      |change (lit " running coro=") with (lit " " ++ word Running ++ lit " coro=")
      |change (lit " finished coro=") with (lit " " ++ word Finished ++ lit " coro=")
      |change (lit " error coro=") with (lit " " ++ word Errored ++ lit " coro=")
      |change (lit " cancelled coro=") with (lit " " ++ word Cancelled ++ lit " coro=")]; rewrite <- !app_assoc; eexists; reflexivity.
  - intros N. destruct s; try (now destruct N); unfold repr; try change (lit "()>") with (lit "()" ++ lit ">"); rewrite !app_assoc; eexists; reflexivity.
Qed.
Example C114_text_partial_example : Pending <> Cancelled /\ repr Pending (lit "Task 3") (lit "send") (lit "<Timer>") = lit "<Task 3 pending coro=send() trigger=<Timer>>".
Proof. split; [discriminate|vm_compute; reflexivity]. Qed.
Print Assumptions C114_text_partial.
(** The text of a cancelled Task is not closed. *)
Theorem C114_text_refuted : exists name coro what, repr Cancelled name coro what = lit "<Task 3 cancelled coro=send with=CancelledError()".
Proof. exists (lit "Task 3"), (lit "send"), (lit "CancelledError()"). vm_compute. reflexivity. Qed.
Print Assumptions C114_text_refuted.
(** What follows tells the trigger or the outcome. *)
Theorem C114_text_outcome name coro what : 
  repr Finished name coro what = lit "<" ++ name ++ lit " finished coro=" ++ coro ++ lit "() outcome=" ++ what ++ lit ">" /\
  repr Errored name coro what = lit "<" ++ name ++ lit " error coro=" ++ coro ++ lit "() outcome=" ++ what ++ lit ">" /\
  repr Pending name coro what = lit "<" ++ name ++ lit " pending coro=" ++ coro ++ lit "() trigger=" ++ what ++ lit ">" /\
  repr Cancelled name coro what = lit "<" ++ name ++ lit " cancelled coro=" ++ coro ++ lit " with=" ++ what /\
  forall s, In s [Unstarted; Scheduled; Running] -> repr s name coro what = lit "<" ++ name ++ lit " " ++ word s ++ lit " coro=" ++ coro ++ lit "()>".
Proof.
  repeat (split; [reflexivity|]). intros s [<-|[<-|[<-|[]]]]; unfold repr;
    [change (lit " created coro=") with (lit " " ++ word Unstarted ++ lit " coro=")
    |change (lit " scheduled coro=") with (lit " " ++ word Scheduled ++ lit " coro=")
    |change (lit " running coro=") with (lit " " ++ word Running ++ lit " coro=")]; rewrite <- !app_assoc; reflexivity.
Qed.
Print Assumptions C114_text_outcome.

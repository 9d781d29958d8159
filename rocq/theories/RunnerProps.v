(** [Runner.test]: theorems about the environment of the simulator (C63) and about the verdict (C64). *)
From Verif Require Import Base TextModel ToolsModel XmlModel QuoteModel RunnerModel RunnerSpec RunnerProofs.
From Coq Require Import String.
Open Scope Z_scope.

(** * C63: environment *)

(** A variable of [os.environ] reaches the simulator unchanged unless it is one which the runner always sets. *)
Theorem C63_environ h environ a f e k v : NoDup (map fst environ) -> test_env h environ a f = Ok e ->
  dict_get environ k = Some v -> ~ In k own_vars -> dict_get e k = Some v.
Proof.
  intros N H K O. destruct (test_get h environ a f e k N H) as (path & _ & ->).
  assert (F : forall d, first environ d k = Some v) by (intro; unfold first; now rewrite K).
  do 7 (match goal with |- (if pystr_eqb (lit ?x) k then _ else _) = _ => destruct (pystr_eqb (lit x) k) eqn:?E end;
    [apply pystr_eqb_eq in E; exfalso; apply O; rewrite <- E; cbn [map own_vars In]; tauto|clear E]).
  destruct (pystr_eqb (lit "GPI_USERS") k) eqn:E; [apply pystr_eqb_eq in E; subst k; rewrite F; reflexivity|].
  rewrite F. destruct (_ && _); reflexivity.
Qed.
Print Assumptions C63_environ.

(** A variable which is not in [os.environ] has the value asked for by the arguments. *)
Theorem C63_args h environ a f e k : NoDup (map fst environ) -> test_env h environ a f = Ok e ->
  dict_get environ k = None -> ~ In k own_vars -> ~ In k default_vars -> dict_get e k = asked a k.
Proof.
  intros N H K O D. destruct (test_get h environ a f e k N H) as (path & _ & ->).
  do 7 (match goal with |- (if pystr_eqb (lit ?x) k then _ else _) = _ => destruct (pystr_eqb (lit x) k) eqn:?E end;
    [apply pystr_eqb_eq in E; exfalso; apply O; rewrite <- E; cbn [map own_vars In]; tauto|clear E]).
  destruct (pystr_eqb (lit "GPI_USERS") k) eqn:E; [apply pystr_eqb_eq in E; exfalso; apply D; rewrite <- E; cbn; tauto|clear E].
  destruct (pystr_eqb (lit "COCOTB_TRUST_INERTIAL_WRITES") k) eqn:E; [apply pystr_eqb_eq in E; exfalso; apply D; rewrite <- E; cbn; tauto|clear E].
  cbn [andb]. unfold first. now rewrite K.
Qed.
Print Assumptions C63_args.

(** Whatever is in [os.environ] and in [extra_env], the simulator is told the modules, the top level without the
    architecture, its language and the results file, and finds the cocotb libraries at the end of PATH. *)
Theorem C63_own h environ a f e : NoDup (map fst environ) -> test_env h environ a f = Ok e ->
  dict_get e (lit "COCOTB_RESULTS_FILE") = Some f /\
  dict_get e (lit "COCOTB_TEST_MODULES") = Some (a_modules a) /\
  dict_get e (lit "COCOTB_TOPLEVEL") = Some (hd [] (split 45 (a_toplevel a))) /\
  dict_get e (lit "TOPLEVEL_LANG") = Some (a_lang a) /\
  dict_get e (lit "PYTHONPATH") = Some (h_sys_path h) /\
  dict_get e (lit "PYGPI_PYTHON_BIN") = Some (h_executable h) /\
  exists path, dict_get e (lit "PATH") = Some (path ++ [58] ++ h_libs_dir h) /\
    (dict_get environ (lit "PATH") = Some path \/
     dict_get environ (lit "PATH") = None /\ dict_get (a_extra_env a) (lit "PATH") = Some path).
Proof.
  intros N H.
  split. { destruct (test_get h environ a f e (lit "COCOTB_RESULTS_FILE") N H) as (? & _ & ->). reflexivity. }
  split. { destruct (test_get h environ a f e (lit "COCOTB_TEST_MODULES") N H) as (? & _ & ->). reflexivity. }
  split. { destruct (test_get h environ a f e (lit "COCOTB_TOPLEVEL") N H) as (? & _ & ->). reflexivity. }
  split. { destruct (test_get h environ a f e (lit "TOPLEVEL_LANG") N H) as (? & _ & ->). reflexivity. }
  split. { destruct (test_get h environ a f e (lit "PYTHONPATH") N H) as (? & _ & ->). reflexivity. }
  split. { destruct (test_get h environ a f e (lit "PYGPI_PYTHON_BIN") N H) as (? & _ & ->). reflexivity. }
  destruct (test_get h environ a f e (lit "PATH") N H) as (path & P & E). exists path. split; [exact E|].
  unfold first in P. destruct (dict_get environ (lit "PATH")); [left; assumption|right; split; [reflexivity|exact P]].
Qed.
Print Assumptions C63_own.
(** The top level is passed whole unless it names an architecture. *)
Lemma split_whole c s : ~ In c s -> split c s = [s].
Proof.
  induction s as [|x s IH]; intro H; [reflexivity|]. cbn [split]. destruct (x =? c) eqn:E.
  - apply Z.eqb_eq in E. exfalso. apply H. left. assumption.
  - rewrite IH; [reflexivity|]. intro I. apply H. right. assumption.
Qed.
Lemma split_head c s t : ~ In c s -> hd [] (split c (s ++ c :: t)) = s.
Proof.
  induction s as [|x s IH]; intro H; cbn [app split].
  - rewrite Z.eqb_refl. reflexivity.
  - destruct (x =? c) eqn:E; [apply Z.eqb_eq in E; exfalso; apply H; left; assumption|].
    assert (I : hd [] (split c (s ++ c :: t)) = s) by (apply IH; intro; apply H; right; assumption).
    destruct (split c (s ++ c :: t)) as [|w ws] eqn:S; cbn [hd] in *; [|congruence].
    exfalso. clear -S. destruct s as [|y s]; cbn [app split] in S; [rewrite Z.eqb_refl in S; discriminate|].
    destruct (y =? c); [discriminate|]. destruct (split c (s ++ c :: t)); discriminate.
Qed.
Theorem C63_toplevel h environ a f e entity rest : NoDup (map fst environ) -> test_env h environ a f = Ok e ->
  ~ In 45 entity -> a_toplevel a = entity \/ a_toplevel a = entity ++ 45 :: rest ->
  dict_get e (lit "COCOTB_TOPLEVEL") = Some entity.
Proof.
  intros N H I T. destruct (C63_own h environ a f e N H) as (_ & _ & -> & _). f_equal. destruct T as [->| ->].
  - now rewrite split_whole.
  - now apply split_head.
Qed.
Print Assumptions C63_toplevel.

(** GPI_USERS: a given value is kept; otherwise the Python library followed by the entry point of pygpi. *)
Theorem C63_gpi_users h environ a f e : NoDup (map fst environ) -> test_env h environ a f = Ok e ->
  match first environ (asked a) (lit "GPI_USERS") with
  | Some v => dict_get e (lit "GPI_USERS") = Some v
  | None => exists p, dict_get e (lit "GPI_USERS") = Some (p ++ [59] ++ h_entry h) /\
      (first environ (asked a) (lit "LIBPYTHON_LOC") = Some p \/
       first environ (asked a) (lit "LIBPYTHON_LOC") = None /\ h_libpython h = Some p)
  end.
Proof.
  intros N H. destruct (test_get h environ a f e (lit "GPI_USERS") N H) as (path & P & E).
  assert (X : exists e, set_env_common h environ (args_env a) = Ok e).
  { unfold test_env, set_env_test in H. destruct (set_env_common h environ (args_env a)); [eauto|discriminate]. }
  apply common_ok in X. cbv zeta in X. rewrite !upd_first in X by assumption. destruct X as [X _].
  change (dict_get e (lit "GPI_USERS") = Some (match first environ (asked a) (lit "GPI_USERS") with
           | Some v => v
           | None => join [59] [match first environ (asked a) (lit "LIBPYTHON_LOC") with
                                | Some l => l | None => match h_libpython h with Some p => p | None => [] end end; h_entry h]
           end)) in E.
  destruct (first environ (asked a) (lit "GPI_USERS")); [exact E|].
  destruct (first environ (asked a) (lit "LIBPYTHON_LOC")) as [l|].
  - exists l. split; [exact E|]. left. reflexivity.
  - destruct (h_libpython h) as [p|].
    + exists p. split; [exact E|]. right. split; reflexivity.
    + exfalso. destruct X as [X|[X|X]]; apply X; reflexivity.
Qed.
Print Assumptions C63_gpi_users.
(** GHDL, NVC and Verilator trust inertial writes unless told otherwise; the others leave the variable alone. *)
Theorem C63_trust h environ a f e : NoDup (map fst environ) -> test_env h environ a f = Ok e ->
  dict_get e (lit "COCOTB_TRUST_INERTIAL_WRITES") =
  match first environ (asked a) (lit "COCOTB_TRUST_INERTIAL_WRITES") with
  | Some v => Some v | None => if a_trust a then Some (lit "1") else None end.
Proof.
  intros N H. destruct (test_get h environ a f e (lit "COCOTB_TRUST_INERTIAL_WRITES") N H) as (path & P & E).
  rewrite E. change (pystr_eqb (lit "COCOTB_TRUST_INERTIAL_WRITES") (lit "COCOTB_TRUST_INERTIAL_WRITES")) with true.
  cbn [andb]. destruct (a_trust a).
  - destruct (first environ (asked a) (lit "COCOTB_TRUST_INERTIAL_WRITES")); reflexivity.
  - etransitivity; [reflexivity|]. destruct (first environ (asked a) (lit "COCOTB_TRUST_INERTIAL_WRITES")); reflexivity.
Qed.
Print Assumptions C63_trust.

(** When the environment cannot be set up: no Python library to name (ValueError), or no PATH at all (KeyError). *)
Theorem C63_error h environ a f : NoDup (map fst environ) ->
  let lacks k := first environ (asked a) (lit k) = None in
  (test_env h environ a f = Err ValueError <-> lacks "GPI_USERS"%string /\ lacks "LIBPYTHON_LOC"%string /\ h_libpython h = None) /\
  (test_env h environ a f = Err KeyError <->
   ~ (lacks "GPI_USERS"%string /\ lacks "LIBPYTHON_LOC"%string /\ h_libpython h = None) /\ lacks "PATH"%string) /\
  (forall x, test_env h environ a f = Err x -> x = ValueError \/ x = KeyError).
Proof.
  intros N. cbv zeta. unfold test_env, set_env_test.
  pose proof (common_err h environ (args_env a)) as E. pose proof (common_ok h environ (args_env a)) as O. cbv zeta in E, O.
  rewrite !upd_first in E, O by assumption.
  destruct (first environ (asked a) (lit "GPI_USERS")), (first environ (asked a) (lit "LIBPYTHON_LOC")), (h_libpython h),
    (first environ (asked a) (lit "PATH")); cbn [bind] in *;
  match type of E with
  | _ = Err _ => rewrite E; cbn [bind]
  | _ = _ => match type of O with
     | (exists e, _) <-> ?Q => assert (X : Q) by (split; [first [left; discriminate|right; left; discriminate|right; right; discriminate]|discriminate]);
        apply O in X; destruct X as [e ->]; cbn [bind]
     end
  end; (split; [split|split; [split|]]); try discriminate; try (intros x X; first [discriminate X|injection X as <-; tauto]);
    try (intros [X Y]; try discriminate X; try discriminate Y; destruct Y; discriminate); try tauto;
    try (intros _; split; [|reflexivity]; intros (X & Y & Z); discriminate);
    try (intros [X Y]; exfalso; tauto); intros (X & Y & Z); discriminate.
Qed.
Print Assumptions C63_error.

(** A non-trivial run: PATH and one variable of the user in [os.environ], a seed, a filter and an extra variable in
    the arguments. *)
Definition ex_host := Host (Some (lit "/usr/lib/libpython.so")) (lit "/c/libs") (lit "/p1:/p2") (lit "/usr/bin/python3") (lit "/c/libs/libpygpi.so,entry").
Definition ex_environ : env := [(lit "PATH", lit "/bin"); (lit "HOME", lit "/root")].
Definition ex_args := TestArgs [(lit "MODE", lit "fast"); (lit "HOME", lit "/other")] (Some [lit "t1"]) None (Some (lit "7"))
  (lit "test_a") (lit "counter-rtl") (lit "vhdl") [lit "/d/counter.ghw"] true.
Example C63_ex : exists e, NoDup (map fst ex_environ) /\ test_env ex_host ex_environ ex_args (lit "/d/results.xml") = Ok e /\
  map (dict_get e) (map lit ["HOME"; "MODE"; "COCOTB_TEST_FILTER"; "COCOTB_RANDOM_SEED"; "COCOTB_TOPLEVEL"; "PATH"; "GPI_USERS";
    "COCOTB_TRUST_INERTIAL_WRITES"; "COCOTB_RESULTS_ATTACHMENTS"]%string) =
  map Some (map lit ["/root"; "fast"; "\.(.*t1)$"; "7"; "counter"; "/bin:/c/libs"; "/usr/lib/libpython.so;/c/libs/libpygpi.so,entry"; "1"; "/d/counter.ghw"]%string).
Proof.
  eexists. split; [|split; [vm_compute; reflexivity|vm_compute; reflexivity]].
  repeat constructor; cbn; intuition discriminate.
Qed.
Example C63_error_ex : test_env (Host None [] [] [] []) ex_environ ex_args [] = Err ValueError /\
  test_env ex_host [] ex_args [] = Err KeyError.
Proof. split; vm_compute; reflexivity. Qed.

(** The arguments do not take precedence: with the variable in [os.environ], the value given for the extra
    environment, the seed, the test filter or the test names is silently dropped. *)
Theorem C63_precedence_refuted : exists h environ a f e, NoDup (map fst environ) /\ test_env h environ a f = Ok e /\
  dict_get (a_extra_env a) (lit "MODE") = Some (lit "fast") /\ dict_get e (lit "MODE") = Some (lit "slow") /\
  a_seed a = Some (lit "7") /\ dict_get e (lit "COCOTB_RANDOM_SEED") = Some (lit "1") /\
  a_testcase a = Some [lit "t1"] /\ dict_get e (lit "COCOTB_TEST_FILTER") = Some (lit "t2").
Proof.
  exists ex_host, [(lit "PATH", lit "/bin"); (lit "MODE", lit "slow"); (lit "COCOTB_RANDOM_SEED", lit "1"); (lit "COCOTB_TEST_FILTER", lit "t2")],
    ex_args, []. eexists.
  split; [repeat constructor; cbn; intuition discriminate|]. split; [vm_compute; reflexivity|]. repeat split.
Qed.
Print Assumptions C63_precedence_refuted.

(** The environment of a later [build]: everything an earlier [test] put there stays, except what [os.environ] or
    the runner sets again. PATH does not grow as long as it is in [os.environ]. *)
Theorem C63_build h environ d e k : NoDup (map fst environ) -> set_env_build h environ d = Ok e ->
  dict_get environ k = None -> ~ In k own_vars -> k <> lit "GPI_USERS" -> dict_get e k = dict_get d k.
Proof.
  intros N H K O G. destruct (common_get h environ d e k H) as (path & users & _ & _ & ->).
  rewrite !update_get by assumption. rewrite K.
  do 3 (match goal with |- (if pystr_eqb (lit ?x) k then _ else _) = _ => destruct (pystr_eqb (lit x) k) eqn:?E end;
    [apply pystr_eqb_eq in E; exfalso; apply O; rewrite <- E; cbn [map own_vars In]; tauto|clear E]).
  destruct (pystr_eqb (lit "GPI_USERS") k) eqn:E; [apply pystr_eqb_eq in E; congruence|reflexivity].
Qed.
Print Assumptions C63_build.
Theorem C63_path_once h environ d e p : NoDup (map fst environ) -> set_env_build h environ d = Ok e ->
  dict_get environ (lit "PATH") = Some p -> dict_get e (lit "PATH") = Some (p ++ [58] ++ h_libs_dir h).
Proof.
  intros N H K. destruct (common_get h environ d e (lit "PATH") H) as (path & users & P & _ & ->).
  rewrite update_get, K in P by assumption. injection P as <-. reflexivity.
Qed.
Print Assumptions C63_path_once.
Example C63_build_ex : exists e, NoDup (map fst ex_environ) /\ set_env_build ex_host ex_environ [(lit "MODE", lit "fast"); (lit "HOME", lit "/x")] = Ok e /\
  dict_get e (lit "MODE") = Some (lit "fast") /\ dict_get e (lit "PATH") = Some (lit "/bin:/c/libs") /\ dict_get e (lit "HOME") = Some (lit "/root").
Proof.
  eexists. split; [repeat constructor; cbn; intuition discriminate|]. split; [vm_compute; reflexivity|]. repeat split.
Qed.
Theorem C63_build_leak_refuted : exists h environ a f e e', NoDup (map fst environ) /\ test_env h environ a f = Ok e /\
  set_env_build h environ e = Ok e' /\ dict_get environ (lit "MODE") = None /\ dict_get e' (lit "MODE") = Some (lit "fast") /\
  dict_get e' (lit "COCOTB_RANDOM_SEED") = Some (lit "7").
Proof.
  exists ex_host, ex_environ, ex_args, []. eexists. eexists.
  split; [repeat constructor; cbn; intuition discriminate|]. split; [vm_compute; reflexivity|].
  split; [vm_compute; reflexivity|]. repeat split.
Qed.
Print Assumptions C63_build_leak_refuted.

(** * C64: results file and verdict *)

(** Where the results file is: an absolute path is taken as it is; under pytest the name of the running test decides
    and a relative path is refused; otherwise the path is taken below the test directory. *)
Theorem C64_file results pytest dir : results_file results pytest dir =
  match results with
  | Some p => if is_absolute p then XOk p else if pystr_eqb pytest [] then XOk (slash dir p) else XErr XNotImplemented
  | None => XOk (slash dir (if pystr_eqb pytest [] then lit "results.xml" else current_test_name pytest ++ lit ".result.xml"))
  end.
Proof. unfold results_file. destruct results as [p|]; [destruct (is_absolute p)|]; destruct pytest; reflexivity. Qed.
Print Assumptions C64_file.
Lemma split_cons c s : exists w ws, split c s = w :: ws.
Proof.
  induction s as [|x s [w [ws E]]]; cbn [split]; [eauto|]. destruct (x =? c); [eauto|]. rewrite E. eauto.
Qed.
Lemma rsplit_app c s t : ~ In c t -> rsplit_last c (s ++ c :: t) = t.
Proof.
  unfold rsplit_last. intro H. induction s as [|x s IH]; cbn [app split].
  - rewrite Z.eqb_refl. rewrite split_whole by assumption. reflexivity.
  - destruct (x =? c).
    + destruct (split_cons c (s ++ c :: t)) as (w & ws & E). rewrite E in *. exact IH.
    + assert (X : exists w ws, split c (s ++ c :: t) = w :: ws /\ ws <> []).
      { clear. induction s as [|y s (w & ws & E & N)]; cbn [app split].
        - rewrite Z.eqb_refl. destruct (split_cons c t) as (w & ws & E). rewrite E. eexists _, _. split; [reflexivity|discriminate].
        - destruct (y =? c); rewrite E; eexists _, _; (split; [reflexivity|]); [discriminate|assumption]. }
      destruct X as (w & ws & E & NN). rewrite E in *. destruct ws; [contradiction|]. exact IH.
Qed.
(** PYTEST_CURRENT_TEST is [path::name (phase)]: the name is the text between the last colon and the blank. *)
Theorem C64_name path name phase : ~ In 58 name -> ~ In 32 name -> ~ In 58 phase ->
  current_test_name (path ++ 58 :: name ++ 32 :: phase) = name.
Proof.
  intros N1 N2 P. unfold current_test_name.
  destruct (path ++ 58 :: name ++ 32 :: phase) eqn:E; [destruct path; discriminate|]. rewrite <- E. clear E.
  rewrite rsplit_app.
  - unfold split_first. now apply split_head.
  - intro I. apply in_app_or in I as [I|[I|I]]; [auto|discriminate|auto].
Qed.
Print Assumptions C64_name.
Example C64_name_ex : results_file None (lit "tests/test_x.py::test_adder[3] (call)") (lit "/d") = XOk (lit "/d/test_adder[3].result.xml").
Proof. reflexivity. Qed.
(** A parameter with a colon or a blank cuts the name: two tests share one results file. *)
Theorem C64_name_refuted : exists a b, a <> b /\ current_test_name (lit "t.py::" ++ a ++ lit " (call)") = current_test_name (lit "t.py::" ++ b ++ lit " (call)").
Proof. exists (lit "test_a[x:1]"), (lit "test_b[y:1]"). split; [discriminate|reflexivity]. Qed.
Print Assumptions C64_name_refuted.

(** The verdict when a command fails: RuntimeError, whatever the results file says; the later commands do not run. *)
Theorem C64_command_fails results pytest dir ext w path l1 c l2 : results_file results pytest dir = XOk path ->
  w_cmds w = l1 ++ c :: l2 -> Forall (fun c => p_returncode c = 0) l1 -> p_returncode c <> 0 ->
  test results pytest dir ext w = Raises XRuntime /\
  forall f, exists f', execute_cmds (w_cmds w) f = (S (List.length l1), f', Some XRuntime).
Proof.
  intros P C F N. split.
  - unfold test. rewrite P, C.
    destruct (exec_fail l1 c l2 (if w_unlink_ok w then None else w_before w) F N) as [f' ->]. reflexivity.
  - intro f. rewrite C. now apply exec_fail.
Qed.
Print Assumptions C64_command_fails.

(** The results file after the run, stated from the end: the last one written, or what was there if it could not be
    deleted. *)
Definition final_file (w : world) : option file :=
  match find (fun c => match p_writes c with Some _ => true | None => false end) (rev (w_cmds w)) with
  | Some c => p_writes c
  | None => if w_unlink_ok w then None else w_before w
  end.
Lemma fold_writes l : forall f,
  fold_left (fun f c => match p_writes c with Some w => Some w | None => f end) l f =
  match find (fun c => match p_writes c with Some _ => true | None => false end) (rev l) with Some c => p_writes c | None => f end.
Proof.
  induction l as [|c l IH] using rev_ind; intro f; [reflexivity|].
  rewrite fold_left_app, rev_unit. cbn [fold_left find]. destruct (p_writes c) eqn:E; [now rewrite E|apply IH].
Qed.
(** All commands succeed: outside pytest the path is returned, whatever the file says; under pytest a file without
    failures is a pass, failures exit with status 1 and an unreadable file raises. *)
Theorem C64_verdict results pytest dir ext w path : results_file results pytest dir = XOk path ->
  Forall (fun c => p_returncode c = 0) (w_cmds w) ->
  test results pytest dir ext w =
  if pystr_eqb pytest [] then Returned path
  else match final_file w with
       | None => Exits 0
       | Some None => Raises XParse
       | Some (Some root) =>
           match get_results root with
           | Err e => Raises (XPy e)
           | Ok (_, n) => if n =? 0 then match (if ext then w_viewer w else None) with Some e => Raises e | None => Returned path end
                          else Exits 1
           end
       end.
Proof.
  intros P F. unfold test. rewrite P. rewrite exec_ok by assumption. cbv iota beta zeta. rewrite fold_writes.
  fold (final_file w). destruct pytest as [|x pytest]; [reflexivity|]. cbn [pystr_eqb Z.eqb negb].
  unfold get_results_file. destruct (final_file w) as [[root|]|]; [|reflexivity|reflexivity].
  destruct (get_results root) as [[t n]|e]; [|destruct e; reflexivity].
  destruct (n =? 0); cbn [negb]; [|reflexivity]. destruct ext; reflexivity.
Qed.
Print Assumptions C64_verdict.
Definition ex_root (failures : string) := Elem (lit "testsuites") [] []
  [Elem (lit "testsuite") [(lit "tests", lit "2"); (lit "failures", lit failures)] [] []].
Example C64_verdict_ex :
  test None (lit "t.py::test_a (call)") (lit "/d") true (World None true [Process 0 None; Process 0 (Some (Some (ex_root "1")))] None) = Exits 1 /\
  test None (lit "t.py::test_a (call)") (lit "/d") true (World None true [Process 0 None; Process 0 (Some (Some (ex_root "0")))] None)
    = Returned (lit "/d/test_a.result.xml") /\
  test (Some (lit "r.xml")) [] (lit "/d") true (World None true [Process 0 (Some (Some (ex_root "1")))] None) = Returned (lit "/d/r.xml") /\
  test None [] (lit "/d") true (World None true [Process 0 None; Process 3 (Some (Some (ex_root "0"))); Process 0 None] None) = Raises XRuntime.
Proof. repeat split. Qed.

(** A pass under pytest means: every command succeeded and a results file was there which reports no failure. *)
Theorem C64_pass results pytest dir ext w path : pytest <> [] -> test results pytest dir ext w = Returned path ->
  Forall (fun c => p_returncode c = 0) (w_cmds w) /\
  exists root t, final_file w = Some (Some root) /\ get_results root = Ok (t, 0).
Proof.
  intros N H. destruct (results_file results pytest dir) as [p|e] eqn:P; [|unfold test in H; rewrite P in H; discriminate].
  destruct (codes_dec (w_cmds w)) as [F|(l1 & c & l2 & E & F & C)].
  - split; [assumption|]. rewrite (C64_verdict _ _ _ _ _ _ P F) in H.
    destruct (pystr_eqb pytest []) eqn:Q; [apply pystr_eqb_eq in Q; contradiction|].
    destruct (final_file w) as [[root|]|]; try discriminate. exists root.
    destruct (get_results root) as [[t n]|e] eqn:G; [|discriminate]. exists t.
    destruct (n =? 0) eqn:Z; [apply Z.eqb_eq in Z; subst n; split; reflexivity|discriminate].
  - destruct (C64_command_fails _ _ _ ext _ _ _ _ _ P E F C) as [X _]. rewrite X in H. discriminate.
Qed.
Print Assumptions C64_pass.
(** With a file which can be deleted the verdict does not depend on what an earlier run left. *)
Theorem C64_fresh results pytest dir ext b b' cmds v :
  test results pytest dir ext (World b true cmds v) = test results pytest dir ext (World b' true cmds v).
Proof. reflexivity. Qed.
Print Assumptions C64_fresh.

(** The handler for a failing simulator never runs, so the exit status of the simulator never becomes the exit
    status of the tests: the status is 0 or 1. *)
Theorem C64_status results pytest dir ext w n : test results pytest dir ext w = Exits n -> n = 0 \/ n = 1.
Proof.
  intro H. destruct (results_file results pytest dir) as [p|e] eqn:P; [|unfold test in H; rewrite P in H; discriminate].
  destruct (codes_dec (w_cmds w)) as [F|(l1 & c & l2 & E & F & C)].
  - rewrite (C64_verdict _ _ _ _ _ _ P F) in H. destruct (pystr_eqb pytest []); [discriminate|].
    destruct (final_file w) as [[root|]|]; [|discriminate|injection H as <-; auto].
    destruct (get_results root) as [[t m]|e]; [|discriminate].
    destruct (m =? 0); [destruct ext; [destruct (w_viewer w)|]; discriminate|injection H as <-; auto].
  - destruct (C64_command_fails _ _ _ ext _ _ _ _ _ P E F C) as [X _]. rewrite X in H. discriminate.
Qed.
Print Assumptions C64_status.
(** A simulator which ends normally without writing results makes [test] exit with status 0 under pytest. *)
Theorem C64_missing_refuted : exists results pytest dir ext w, pytest <> [] /\ final_file w = None /\
  Forall (fun c => p_returncode c = 0) (w_cmds w) /\ test results pytest dir ext w = Exits 0.
Proof.
  exists None, (lit "t.py::test_a (call)"), (lit "/d"), false, (World None true [Process 0 None] None).
  split; [discriminate|]. split; [reflexivity|]. split; [repeat constructor|reflexivity].
Qed.
Print Assumptions C64_missing_refuted.
(** A results file which cannot be deleted decides the next run if that run writes nothing. *)
Theorem C64_stale_refuted : exists results pytest dir ext w path, pytest <> [] /\
  Forall (fun c => p_writes c = None) (w_cmds w) /\ test results pytest dir ext w = Returned path.
Proof.
  exists None, (lit "t.py::test_a (call)"), (lit "/d"), false, (World (Some (Some (ex_root "0"))) false [Process 0 None] None).
  eexists. split; [discriminate|]. split; [repeat constructor|reflexivity].
Qed.
Print Assumptions C64_stale_refuted.

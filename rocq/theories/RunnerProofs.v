(** Proofs about [RunnerModel]. *)
From Verif Require Import Base TextModel ToolsModel ToolsProofs XmlModel QuoteModel RunnerModel RunnerSpec.
From Coq Require Import String.
Open Scope Z_scope.

Lemma get_dset (d : env) k v k' : dict_get (dict_set d k v) k' = if pystr_eqb k k' then Some v else dict_get d k'.
Proof. apply dict_set_get. Qed.
Lemma update_other o : forall d k, dict_get o k = None -> dict_get (env_update d o) k = dict_get d k.
Proof.
  unfold env_update. induction o as [|[a x] o IH]; intros d k H; cbn in *; [reflexivity|].
  destruct (pystr_eqb a k) eqn:E; [discriminate|]. rewrite IH by assumption. rewrite get_dset, E. reflexivity.
Qed.
Lemma update_none_in (o : env) k : dict_get o k = None <-> ~ In k (map fst o).
Proof.
  induction o as [|[a x] o IH]; cbn; [intuition congruence|]. destruct (pystr_eqb a k) eqn:E.
  - apply pystr_eqb_eq in E. subst. split; [discriminate|]. intro H. exfalso. auto.
  - rewrite IH. assert (a <> k) by (intros ->; rewrite pystr_eqb_refl in E; discriminate). intuition.
Qed.
Lemma update_own o : forall d k v, NoDup (map fst o) -> dict_get o k = Some v -> dict_get (env_update d o) k = Some v.
Proof.
  unfold env_update. induction o as [|[a x] o IH]; intros d k v N H; cbn in *; [discriminate|].
  inversion N; subst. destruct (pystr_eqb a k) eqn:E.
  - apply pystr_eqb_eq in E. subst. fold (env_update (dict_set d k x) o).
    rewrite update_other by (apply update_none_in; assumption). rewrite get_dset, pystr_eqb_refl. assumption.
  - now apply IH.
Qed.
Lemma update_get d o k : NoDup (map fst o) ->
  dict_get (env_update d o) k = match dict_get o k with Some v => Some v | None => dict_get d k end.
Proof.
  intro N. destruct (dict_get o k) eqn:E; [now apply update_own|now apply update_other].
Qed.
Lemma has_get d k : env_has d k = true <-> exists v, env_get d k = Some v.
Proof. unfold env_has. destruct (env_get d k); split; try discriminate; eauto. intros [? ?]. discriminate. Qed.

(** [dict_get] of the dict which [set_env_common] returns. *)
Lemma common_get h environ d e k : set_env_common h environ d = Ok e ->
  exists path users, dict_get (env_update d environ) (lit "PATH") = Some path /\
  (dict_get (env_update d environ) (lit "GPI_USERS") = None ->
   users = [match dict_get (env_update d environ) (lit "LIBPYTHON_LOC") with Some l => l | None => match h_libpython h with Some p => p | None => [] end end]) /\
  dict_get e k =
   if pystr_eqb (lit "PATH") k then Some (path ++ [58] ++ h_libs_dir h)
   else if pystr_eqb (lit "PYTHONPATH") k then Some (h_sys_path h)
   else if pystr_eqb (lit "PYGPI_PYTHON_BIN") k then Some (h_executable h)
   else if pystr_eqb (lit "GPI_USERS") k then
     Some (match dict_get (env_update d environ) (lit "GPI_USERS") with Some v => v | None => join [59] (users ++ [h_entry h]) end)
   else dict_get (env_update d environ) k.
Proof.
  unfold set_env_common. set (u := env_update d environ). clearbody u.
  unfold env_has at 1. unfold env_get. intro H.
  assert (X : forall users path, dict_get u (lit "PATH") = Some path ->
    (let s := env_set (env_set (env_set u "PATH" (path ++ [58] ++ h_libs_dir h)) "PYTHONPATH" (h_sys_path h)) "PYGPI_PYTHON_BIN" (h_executable h) in
     (if env_has s "GPI_USERS" then s else env_set s "GPI_USERS" (join [59] (users ++ [h_entry h])))) = e ->
    dict_get e k =
     if pystr_eqb (lit "PATH") k then Some (path ++ [58] ++ h_libs_dir h)
     else if pystr_eqb (lit "PYTHONPATH") k then Some (h_sys_path h)
     else if pystr_eqb (lit "PYGPI_PYTHON_BIN") k then Some (h_executable h)
     else if pystr_eqb (lit "GPI_USERS") k then
       Some (match dict_get u (lit "GPI_USERS") with Some v => v | None => join [59] (users ++ [h_entry h]) end)
     else dict_get u k).
  { intros users path P. cbv zeta. unfold env_has, env_get.
    assert (G : forall a b c, dict_get (env_set (env_set (env_set u "PATH" a) "PYTHONPATH" b) "PYGPI_PYTHON_BIN" c) (lit "GPI_USERS") = dict_get u (lit "GPI_USERS")).
    { intros a b c. unfold env_set. rewrite !get_dset. reflexivity. }
    rewrite G. intros <-. destruct (dict_get u (lit "GPI_USERS")) eqn:U.
    - unfold env_set. rewrite !get_dset.
      destruct (pystr_eqb (lit "PYGPI_PYTHON_BIN") k) eqn:E1; [apply pystr_eqb_eq in E1; subst k; reflexivity|].
      destruct (pystr_eqb (lit "PYTHONPATH") k) eqn:E2; [apply pystr_eqb_eq in E2; subst k; reflexivity|].
      destruct (pystr_eqb (lit "PATH") k) eqn:E3; [reflexivity|].
      destruct (pystr_eqb (lit "GPI_USERS") k) eqn:E4; [apply pystr_eqb_eq in E4; subst k; assumption|reflexivity].
    - unfold env_set. rewrite !get_dset.
      destruct (pystr_eqb (lit "GPI_USERS") k) eqn:E4; [apply pystr_eqb_eq in E4; subst k; reflexivity|].
      destruct (pystr_eqb (lit "PYGPI_PYTHON_BIN") k) eqn:E1; [apply pystr_eqb_eq in E1; subst k; reflexivity|].
      destruct (pystr_eqb (lit "PYTHONPATH") k) eqn:E2; [apply pystr_eqb_eq in E2; subst k; reflexivity|].
      destruct (pystr_eqb (lit "PATH") k) eqn:E3; reflexivity. }
  destruct (dict_get u (lit "PATH")) as [path|] eqn:P.
  - exists path. destruct (dict_get u (lit "GPI_USERS")) as [v|] eqn:U; cbn [bind] in H.
    + injection H as H. exists []. split; [reflexivity|]. split; [discriminate|]. exact (X [] path eq_refl H).
    + destruct (dict_get u (lit "LIBPYTHON_LOC")) as [l|]; cbn [bind] in H.
      * injection H as H. exists [l]. split; [reflexivity|]. split; [reflexivity|]. exact (X [l] path eq_refl H).
      * destruct (h_libpython h) as [p|]; cbn [bind] in H; [|discriminate].
        injection H as H. exists [p]. split; [reflexivity|]. split; [reflexivity|]. exact (X [p] path eq_refl H).
  - destruct (dict_get u (lit "GPI_USERS")); cbn [bind] in H; [discriminate|].
    destruct (dict_get u (lit "LIBPYTHON_LOC")); cbn [bind] in H; [discriminate|].
    destruct (h_libpython h); discriminate.
Qed.
Lemma common_err h environ d : let u := env_update d environ in
  set_env_common h environ d =
  (if match dict_get u (lit "GPI_USERS"), dict_get u (lit "LIBPYTHON_LOC"), h_libpython h with None, None, None => true | _, _, _ => false end
   then Err ValueError
   else match dict_get u (lit "PATH") with None => Err KeyError | Some _ => set_env_common h environ d end).
Proof.
  cbv zeta. unfold set_env_common. set (u := env_update d environ). clearbody u. unfold env_has at 1 3, env_get.
  destruct (dict_get u (lit "GPI_USERS")), (dict_get u (lit "LIBPYTHON_LOC")), (h_libpython h), (dict_get u (lit "PATH")); reflexivity.
Qed.
Lemma common_ok h environ d : (exists e, set_env_common h environ d = Ok e) <->
  let u := env_update d environ in
  (dict_get u (lit "GPI_USERS") <> None \/ dict_get u (lit "LIBPYTHON_LOC") <> None \/ h_libpython h <> None) /\ dict_get u (lit "PATH") <> None.
Proof.
  cbv zeta. unfold set_env_common. set (u := env_update d environ). clearbody u. unfold env_has at 1, env_get.
  destruct (dict_get u (lit "GPI_USERS")), (dict_get u (lit "LIBPYTHON_LOC")), (h_libpython h), (dict_get u (lit "PATH")); cbn [bind];
    split; try (intros [? ?]; discriminate); try (intros _; split; [|discriminate]; first [left; discriminate|right; left; discriminate|right; right; discriminate]);
    try (intros _; eexists; reflexivity); intros [A B]; try (exfalso; apply B; reflexivity); exfalso; destruct A as [A|[A|A]]; apply A; reflexivity.
Qed.

Lemma args_get a k : dict_get (args_env a) k = asked a k.
Proof.
  unfold args_env, asked.
  set (d1 := match a_testcase a with Some names => env_set (a_extra_env a) "COCOTB_TEST_FILTER" (testcase_regex names) | None => a_extra_env a end).
  set (d2 := match a_filter a with Some f => env_set d1 "COCOTB_TEST_FILTER" f | None => d1 end).
  set (d3 := match a_seed a with Some s => env_set d2 "COCOTB_RANDOM_SEED" s | None => d2 end).
  assert (G1 : forall k, dict_get d1 k = if pystr_eqb (lit "COCOTB_TEST_FILTER") k then match a_testcase a with Some names => Some (testcase_regex names) | None => dict_get (a_extra_env a) k end else dict_get (a_extra_env a) k).
  { intro k'. unfold d1. destruct (a_testcase a); [unfold env_set; now rewrite get_dset|]. now destruct (pystr_eqb _ _). }
  assert (G2 : forall k, dict_get d2 k = if pystr_eqb (lit "COCOTB_TEST_FILTER") k then match a_filter a with Some f => Some f | None => dict_get d1 k end else dict_get d1 k).
  { intro k'. unfold d2. destruct (a_filter a); [unfold env_set; now rewrite get_dset|]. now destruct (pystr_eqb _ _). }
  assert (G3 : forall k, dict_get d3 k = if pystr_eqb (lit "COCOTB_RANDOM_SEED") k then match a_seed a with Some s => Some s | None => dict_get d2 k end else dict_get d2 k).
  { intro k'. unfold d3. destruct (a_seed a); [unfold env_set; now rewrite get_dset|]. now destruct (pystr_eqb _ _). }
  clearbody d3 d2 d1.
  assert (GA : dict_get d3 (lit "COCOTB_RESULTS_ATTACHMENTS") = dict_get (a_extra_env a) (lit "COCOTB_RESULTS_ATTACHMENTS")).
  { rewrite G3, G2, G1. reflexivity. }
  unfold env_has, env_get. rewrite GA.
  destruct (pystr_eqb (lit "COCOTB_TEST_FILTER") k) eqn:E1.
  { apply pystr_eqb_eq in E1. subst k.
    assert (X : dict_get d3 (lit "COCOTB_TEST_FILTER") = match a_filter a, a_testcase a with
      | Some f, _ => Some f | None, Some names => Some (testcase_regex names) | None, None => dict_get (a_extra_env a) (lit "COCOTB_TEST_FILTER") end).
    { rewrite G3, G2, G1. destruct (a_filter a), (a_testcase a); reflexivity. }
    rewrite <- X. destruct (dict_get (a_extra_env a) (lit "COCOTB_RESULTS_ATTACHMENTS")); [reflexivity|].
    unfold env_set. rewrite get_dset. reflexivity. }
  destruct (pystr_eqb (lit "COCOTB_RANDOM_SEED") k) eqn:E2.
  { apply pystr_eqb_eq in E2. subst k.
    assert (X : dict_get d3 (lit "COCOTB_RANDOM_SEED") = match a_seed a with Some s => Some s | None => dict_get (a_extra_env a) (lit "COCOTB_RANDOM_SEED") end).
    { rewrite G3, G2, G1. destruct (a_seed a); reflexivity. }
    rewrite <- X. destruct (dict_get (a_extra_env a) (lit "COCOTB_RESULTS_ATTACHMENTS")); [reflexivity|].
    unfold env_set. rewrite get_dset. reflexivity. }
  assert (X : dict_get d3 k = dict_get (a_extra_env a) k) by (rewrite G3, E2, G2, E1, G1, E1; reflexivity).
  destruct (pystr_eqb (lit "COCOTB_RESULTS_ATTACHMENTS") k) eqn:E3.
  - apply pystr_eqb_eq in E3. subst k. destruct (dict_get (a_extra_env a) (lit "COCOTB_RESULTS_ATTACHMENTS")) eqn:Y; [rewrite X; reflexivity|].
    unfold env_set. rewrite get_dset. reflexivity.
  - destruct (dict_get (a_extra_env a) (lit "COCOTB_RESULTS_ATTACHMENTS")); [assumption|]. unfold env_set. rewrite get_dset, E3. assumption.
Qed.

Lemma upd_first environ a k : NoDup (map fst environ) -> dict_get (env_update (args_env a) environ) k = first environ (asked a) k.
Proof. intro N. rewrite update_get by assumption. unfold first. now rewrite args_get. Qed.

Lemma test_get h environ a f e k : NoDup (map fst environ) -> test_env h environ a f = Ok e ->
  exists path, first environ (asked a) (lit "PATH") = Some path /\
  dict_get e k =
   if pystr_eqb (lit "COCOTB_RESULTS_FILE") k then Some f
   else if pystr_eqb (lit "COCOTB_TOPLEVEL") k then Some (hd [] (split 45 (a_toplevel a)))
   else if pystr_eqb (lit "COCOTB_TEST_MODULES") k then Some (a_modules a)
   else if pystr_eqb (lit "TOPLEVEL_LANG") k then Some (a_lang a)
   else if pystr_eqb (lit "PATH") k then Some (path ++ [58] ++ h_libs_dir h)
   else if pystr_eqb (lit "PYTHONPATH") k then Some (h_sys_path h)
   else if pystr_eqb (lit "PYGPI_PYTHON_BIN") k then Some (h_executable h)
   else if pystr_eqb (lit "GPI_USERS") k then
     Some (match first environ (asked a) (lit "GPI_USERS") with
           | Some v => v
           | None => join [59] [match first environ (asked a) (lit "LIBPYTHON_LOC") with
                                | Some l => l | None => match h_libpython h with Some p => p | None => [] end end; h_entry h]
           end)
   else if pystr_eqb (lit "COCOTB_TRUST_INERTIAL_WRITES") k && a_trust a then
     Some (match first environ (asked a) k with Some v => v | None => lit "1" end)
   else first environ (asked a) k.
Proof.
  intros N H. unfold test_env, set_env_test in H.
  destruct (set_env_common h environ (args_env a)) as [c|x] eqn:C; cbn [bind] in H; [|discriminate]. injection H as <-.
  destruct (common_get _ _ _ _ (lit "COCOTB_TRUST_INERTIAL_WRITES") C) as (path & users & P & U & K).
  exists path. rewrite upd_first in P by assumption. split; [assumption|].
  rewrite !upd_first in K by assumption. cbn [lit pystr_eqb Z.eqb] in K.
  change (dict_get c (lit "COCOTB_TRUST_INERTIAL_WRITES") = first environ (asked a) (lit "COCOTB_TRUST_INERTIAL_WRITES")) in K.
  destruct (common_get _ _ _ _ k C) as (path' & users' & P' & U' & K').
  rewrite upd_first in P' by assumption. rewrite P in P'. injection P' as <-.
  rewrite !upd_first in U', K' by assumption.
  set (s := env_set (env_set (env_set c "COCOTB_TOPLEVEL" (hd [] (split 45 (a_toplevel a)))) "COCOTB_TEST_MODULES" (a_modules a)) "TOPLEVEL_LANG" (a_lang a)).
  assert (S : forall k, dict_get s k = if pystr_eqb (lit "COCOTB_TOPLEVEL") k then Some (hd [] (split 45 (a_toplevel a)))
   else if pystr_eqb (lit "COCOTB_TEST_MODULES") k then Some (a_modules a)
   else if pystr_eqb (lit "TOPLEVEL_LANG") k then Some (a_lang a) else dict_get c k).
  { intro k'. unfold s, env_set. rewrite !get_dset.
    destruct (pystr_eqb (lit "TOPLEVEL_LANG") k') eqn:E1; [apply pystr_eqb_eq in E1; subst k'; reflexivity|].
    destruct (pystr_eqb (lit "COCOTB_TEST_MODULES") k') eqn:E2; [apply pystr_eqb_eq in E2; subst k'; reflexivity|reflexivity]. }
  assert (ST : dict_get s (lit "COCOTB_TRUST_INERTIAL_WRITES") = first environ (asked a) (lit "COCOTB_TRUST_INERTIAL_WRITES")).
  { rewrite S. exact K. }
  unfold env_set at 1. rewrite get_dset. destruct (pystr_eqb (lit "COCOTB_RESULTS_FILE") k) eqn:E0; [reflexivity|].
  unfold env_has, env_get. rewrite ST.
  assert (T : dict_get (if a_trust a && negb (match first environ (asked a) (lit "COCOTB_TRUST_INERTIAL_WRITES") with Some _ => true | None => false end)
       then env_set s "COCOTB_TRUST_INERTIAL_WRITES" (lit "1") else s) k =
     if pystr_eqb (lit "COCOTB_TRUST_INERTIAL_WRITES") k && a_trust a then
       Some (match first environ (asked a) k with Some v => v | None => lit "1" end) else dict_get s k).
  { destruct (pystr_eqb (lit "COCOTB_TRUST_INERTIAL_WRITES") k) eqn:E; cbn [andb].
    - apply pystr_eqb_eq in E. subst k. destruct (a_trust a); cbn [andb]; [|reflexivity].
      destruct (first environ (asked a) (lit "COCOTB_TRUST_INERTIAL_WRITES")); cbn [negb]; [assumption|].
      unfold env_set. rewrite get_dset, pystr_eqb_refl. reflexivity.
    - destruct (a_trust a && _); [|reflexivity]. unfold env_set. rewrite get_dset, E. reflexivity. }
  etransitivity; [exact T|]. rewrite S, K'. clear T S K' ST.
  destruct (pystr_eqb (lit "COCOTB_TOPLEVEL") k) eqn:E1; [apply pystr_eqb_eq in E1; subst k; reflexivity|].
  destruct (pystr_eqb (lit "COCOTB_TEST_MODULES") k) eqn:E2; [apply pystr_eqb_eq in E2; subst k; reflexivity|].
  destruct (pystr_eqb (lit "TOPLEVEL_LANG") k) eqn:E3; [apply pystr_eqb_eq in E3; subst k; reflexivity|].
  destruct (pystr_eqb (lit "PATH") k) eqn:E4; [apply pystr_eqb_eq in E4; subst k; reflexivity|].
  destruct (pystr_eqb (lit "PYTHONPATH") k) eqn:E5; [apply pystr_eqb_eq in E5; subst k; reflexivity|].
  destruct (pystr_eqb (lit "PYGPI_PYTHON_BIN") k) eqn:E6; [apply pystr_eqb_eq in E6; subst k; reflexivity|].
  destruct (pystr_eqb (lit "GPI_USERS") k) eqn:E7; [apply pystr_eqb_eq in E7; subst k|reflexivity].
  cbn [andb]. destruct (first environ (asked a) (lit "GPI_USERS")) eqn:G; [reflexivity|].
  rewrite (U' eq_refl). reflexivity.
Qed.

(** * Verdict *)
Lemma exec_ok cmds : forall f, Forall (fun c => p_returncode c = 0) cmds ->
  execute_cmds cmds f = (List.length cmds, fold_left (fun f c => match p_writes c with Some w => Some w | None => f end) cmds f, None).
Proof.
  induction cmds as [|c cmds IH]; intros f F; [reflexivity|]. inversion F as [|? ? H1 H2]; subst. cbn [execute_cmds].
  rewrite H1. cbn [Z.eqb negb]. rewrite IH by assumption. reflexivity.
Qed.
Lemma exec_fail l1 c l2 : forall f, Forall (fun c => p_returncode c = 0) l1 -> p_returncode c <> 0 ->
  exists f', execute_cmds (l1 ++ c :: l2) f = (S (List.length l1), f', Some XRuntime).
Proof.
  induction l1 as [|x l1 IH]; intros f F N; cbn [app execute_cmds].
  - destruct (p_returncode c =? 0) eqn:E; [apply Z.eqb_eq in E; contradiction|]. eexists. reflexivity.
  - inversion F as [|? ? H1 H2]; subst. rewrite H1. cbn [Z.eqb negb].
    destruct (IH (match p_writes x with Some w => Some w | None => f end) H2 N) as [f' E]. rewrite E. eexists. reflexivity.
Qed.
Lemma codes_dec (cmds : list process) : Forall (fun c => p_returncode c = 0) cmds \/
  exists l1 c l2, cmds = l1 ++ c :: l2 /\ Forall (fun c => p_returncode c = 0) l1 /\ p_returncode c <> 0.
Proof.
  induction cmds as [|x l IH]; [left; constructor|].
  destruct (Z.eq_dec (p_returncode x) 0) as [E|E].
  - destruct IH as [F|(l1 & c & l2 & -> & F & N)]; [left; constructor; assumption|].
    right. exists (x :: l1), c, l2. split; [reflexivity|]. split; [constructor; assumption|assumption].
  - right. exists [], x, l. split; [reflexivity|]. split; [constructor|assumption].
Qed.

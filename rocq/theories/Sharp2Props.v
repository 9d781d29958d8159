(** Statements added after mutations of the models were not noticed: C42, C49, C64, C73, C79, C86, C87. *)
From Verif Require Import Base TextModel.
From Verif Require RangeModel RunnerModel FixtureModel HandleModel ParamModel InitModel PluginModel CompatModel InitProps PluginProps.
From Coq Require Import String Lia.
Open Scope Z_scope.

(** * C73: errors of the discovery *)
(** Discovery fails in two ways: the first module which cannot be imported gives its error; if all are imported and there is no
    test at all it is a RuntimeError. *)
Theorem C73_discover_errors import ms e : InitModel.discover import ms [] = Err e <->
  (exists a m b mss, ms = a ++ m :: b /\ Forall2 (fun m x => import m = Ok x) a mss /\ import m = Err e) \/
  (exists mss, Forall2 (fun m x => import m = Ok x) ms mss /\ List.concat (map InitModel.module_tests mss) = [] /\ e = RuntimeError).
Proof.
  assert (G : forall ms q, InitModel.discover import ms q = Err e <->
    (exists a m b mss, ms = a ++ m :: b /\ Forall2 (fun m x => import m = Ok x) a mss /\ import m = Err e) \/
    (exists mss, Forall2 (fun m x => import m = Ok x) ms mss /\ q ++ List.concat (map InitModel.module_tests mss) = [] /\ e = RuntimeError)).
  { clear ms. induction ms as [|m ms IH]; intro q; cbn [InitModel.discover].
    - split.
      + destruct q; [|discriminate]. intro E. injection E as <-. right. exists []. split; [constructor|now split].
      + intros [(a & m & b & mss & E & _)|(mss & F & E & ->)]; [destruct a; discriminate E|]. inversion F; subst. cbn in E. rewrite app_nil_r in E. now subst.
    - destruct (import m) as [x|e'] eqn:I; cbn [bind].
      + rewrite IH. split.
        * intros [(a & m' & b & mss & -> & F & E)|(mss & F & E & ->)].
          -- left. exists (m :: a), m', b, (x :: mss). split; [reflexivity|]. split; [now constructor|exact E].
          -- right. exists (x :: mss). split; [now constructor|]. split; [|reflexivity]. cbn. now rewrite app_assoc.
        * intros [(a & m' & b & mss & E & F & E')|(mss & F & E & ->)].
          -- destruct a as [|k a]; injection E as -> ->; [congruence|]. inversion F; subst. left. exists a, m', b, l'. now split.
          -- inversion F as [|? x' ? mss' I' F']; subst. rewrite I in I'. injection I' as <-. right. exists mss'. split; [exact F'|]. split; [|reflexivity]. cbn in E. now rewrite app_assoc in E.
      + split.
        * intro E. injection E as ->. left. exists [], m, ms, []. split; [reflexivity|]. now split.
        * intros [(a & m' & b & mss & E & F & E')|(mss & F & E & ->)].
          -- destruct a as [|k a]; injection E as -> ->; [congruence|]. inversion F; subst. congruence.
          -- inversion F; subst. congruence. }
  exact (G ms []).
Qed.
Print Assumptions C73_discover_errors.
Example C73_discover_errors_ex : InitModel.discover (fun _ => Ok [InitModel.MOther]) [lit "m"; lit "n"] [] = Err RuntimeError /\
  InitModel.discover (fun m => if pystr_eqb m (lit "n") then Err AttributeError else Ok [InitModel.MTest (InitProps.a_test "m.a")]) [lit "m"; lit "n"; lit "o"] [] = Err AttributeError.
Proof. now split. Qed.

(** * C42: a Logic for an array *)
(** A Logic has the length 1 but no elements: assigning it to an array is refused as a wrong length, or, if the array has exactly
    one element, as a wrong type. Nothing is written. *)
Theorem C42_logic_for_array trust a c l r d sub x rg st : HandleModel.handle_range l r d = Ok rg ->
  HandleModel.set_value trust (HandleModel.HArr c l r d sub) a (HandleModel.PLogic x) st =
  (st, Some (if RangeModel.range_len rg =? 1 then TypeError else ValueError)).
Proof.
  intro R. cbn [HandleModel.set_value HandleModel.py_length]. rewrite R, (Z.eqb_sym 1). now destruct (RangeModel.range_len rg =? 1).
Qed.
Print Assumptions C42_logic_for_array.
Example C42_logic_for_array_ex : exists rg, HandleModel.handle_range 3 3 HandleModel.RDown = Ok rg /\ RangeModel.range_len rg = 1.
Proof. eexists. split; vm_compute; reflexivity. Qed.

(** * C49: a value of a group which is no sequence *)
Theorem C49_scalar_in_group ident name n ns a v b opts : Forall (fun x => exists y l, ParamModel.seq_of x = Some (y :: l)) a -> ParamModel.seq_of v = None ->
  ParamModel.generate_tests ident name ((ParamModel.GROUP (n :: ns), a ++ v :: b) :: opts) = Err TypeError.
Proof.
  intros A V. unfold ParamModel.generate_tests. cbn [ParamModel.option_reprs ParamModel.group_reprs].
  assert (E : ParamModel.mapR (ParamModel.column_item 0) (a ++ v :: b) = Err TypeError); [|now rewrite E].
  induction A as [|x a (y & l & X) _ IH]; cbn [app ParamModel.mapR].
  - unfold ParamModel.column_item at 1. now rewrite V.
  - unfold ParamModel.column_item at 1. rewrite X. cbn [nth_error bind]. now rewrite IH.
Qed.
Print Assumptions C49_scalar_in_group.
Example C49_scalar_in_group_ex : Forall (fun x => exists y l, ParamModel.seq_of x = Some (y :: l)) [ParamModel.VStr (lit "ab")] /\ ParamModel.seq_of (ParamModel.VOther 5) = None.
Proof. split; [|reflexivity]. repeat constructor. eexists _, _. reflexivity. Qed.

(** * C79: the line of one report *)
(** How the summary counts the report of a call of a cocotb test: an expected failure which failed (reported by pytest as skipped)
    passes, one which did not fail is a failure, and a failure is a failure whether or not one was expected. *)
Theorem C79_report o xfail : PluginModel.counted [PluginModel.Report PluginModel.WCall o xfail true false] =
  [match o with
   | PluginModel.RFailed => PluginModel.RFailed
   | PluginModel.RPassed => if xfail then PluginModel.RFailed else PluginModel.RPassed
   | PluginModel.RSkipped => if xfail then PluginModel.RPassed else PluginModel.RSkipped
   end].
Proof. destruct o, xfail; reflexivity. Qed.
Print Assumptions C79_report.
(** A failed setup or teardown is not counted, with or without an expected failure. *)
Theorem C79_report_error w xfail cocotb runner : w <> PluginModel.WCall ->
  PluginModel.counted [PluginModel.Report w PluginModel.RFailed xfail cocotb runner] = [].
Proof. intro W. destruct w; try (now elim W); destruct xfail, cocotb, runner; reflexivity. Qed.
Print Assumptions C79_report_error.
Example C79_report_error_ex : PluginModel.WSetup <> PluginModel.WCall.
Proof. discriminate. Qed.

(** * C87: functions which are no cocotb tests *)
(** A plain function without marks of cocotb is left alone, unless it is asynchronous and takes [dut]; then it is marked. *)
Theorem C87_other_function w name f : let x := CompatModel.w_fn w f in
  let marks := match CompatModel.f_marks x with Some l => l | None => [] end in
  ~ In CompatModel.MCocotbTest marks -> ~ In CompatModel.MCocotbRunner marks ->
  (CompatModel.f_async x = false \/ ~ In (lit "dut") (map fst (CompatModel.f_params x)) ->
   CompatModel.makeitem w name (CompatModel.OFunction f) = (w, Some f)) /\
  (CompatModel.f_async x = true -> In (lit "dut") (map fst (CompatModel.f_params x)) ->
   CompatModel.makeitem w name (CompatModel.OFunction f) =
   (CompatModel.set_fn w f (CompatModel.Fn (CompatModel.f_params x) true (Some (marks ++ [CompatModel.MCocotbTest])) (CompatModel.f_test x)), Some f)).
Proof.
  intros x marks A B. unfold CompatModel.makeitem. cbn [CompatModel.unwrap]. unfold CompatModel.mark_function. cbv zeta. fold x. fold marks.
  assert (E : existsb CompatModel.is_cocotb marks = false).
  { apply not_true_is_false. intro E. apply existsb_exists in E as (m & I & M). destruct m; try discriminate M; [now apply A|now apply B]. }
  rewrite E.
  assert (D : existsb (fun p => pystr_eqb (fst p) (lit "dut")) (CompatModel.f_params x) = true <-> In (lit "dut") (map fst (CompatModel.f_params x))).
  { rewrite existsb_exists, in_map_iff. split; intros (p & Q); exists p; [destruct Q as [I Q]; apply pystr_eqb_eq in Q; now split|destruct Q as [Q I]; split; [exact I|now apply pystr_eqb_eq]]. }
  split.
  - intros [Y|N]; [now rewrite Y|]. destruct (existsb _ (CompatModel.f_params x)); [elim N; now apply D|]. now rewrite andb_false_r.
  - intros Y I. apply D in I. rewrite Y, I. reflexivity.
Qed.
Print Assumptions C87_other_function.
Example C87_other_function_ex : let w := CompatModel.World (fun f => if Nat.eqb f 0 then CompatModel.Fn [(lit "dut", false)] true (Some [CompatModel.MUser 3]) false
    else CompatModel.Fn [(lit "tmp_path", false)] false (Some [CompatModel.MSkip]) false) [] in
  fst (CompatModel.makeitem w (lit "g") (CompatModel.OFunction 1)) = w /\
  CompatModel.f_marks (CompatModel.w_fn (fst (CompatModel.makeitem w (lit "f") (CompatModel.OFunction 0))) 0) = Some [CompatModel.MUser 3; CompatModel.MCocotbTest].
Proof. now split. Qed.

(** * C64: absolute and relative results files *)
Theorem C64_absolute p pytest dir : RunnerModel.results_file (Some (47 :: p)) pytest dir = RunnerModel.XOk (47 :: p) /\
  (forall c, c <> 47 -> RunnerModel.results_file (Some (c :: p)) [] dir = RunnerModel.XOk (dir ++ [47] ++ c :: p)) /\
  (forall c x l, c <> 47 -> RunnerModel.results_file (Some (c :: p)) (x :: l) dir = RunnerModel.XErr RunnerModel.XNotImplemented).
Proof.
  assert (A : forall c, c <> 47 -> RunnerModel.is_absolute (c :: p) = false).
  { intros c C. unfold RunnerModel.is_absolute. destruct c as [|c|c]; try reflexivity. do 6 (destruct c as [c|c|]; try reflexivity). now elim C. }
  split; [reflexivity|]. split.
  - intros c C. unfold RunnerModel.results_file. now rewrite A.
  - intros c x l C. unfold RunnerModel.results_file. now rewrite A.
Qed.
Print Assumptions C64_absolute.
Example C64_absolute_ex : RunnerModel.results_file (Some (lit "/d/r.xml")) (lit "a.py::b (call)") (lit "/t") = RunnerModel.XOk (lit "/d/r.xml") /\
  RunnerModel.results_file (Some (lit "r.xml")) [] (lit "/t") = RunnerModel.XOk (lit "/t/r.xml").
Proof. now split. Qed.

(** * C86: the result of a synchronous fixture is kept *)
(** Asking again for a synchronous fixture whose body was called gives what it gave the first time - also if that was an exception -
    without calling anything. *)
Theorem C86_sync_kept sync i args s s1 s' x : FixtureModel.s_cache s i = None -> FixtureModel.execute_all sync args s = (s1, None) ->
  FixtureModel.execute sync (FixtureModel.Fix i false args) s = (s', x) ->
  FixtureModel.execute sync (FixtureModel.Fix i false args) s' = (s', x).
Proof.
  intros C A E. cbn [FixtureModel.execute] in E. rewrite C in E.
  assert (G : forall l s, (fix go l s := match l with
                             | [] => (s, None)
                             | f' :: l' => let '(s', x) := FixtureModel.execute sync f' s in
                                           match x with None => go l' s' | Some e => (s', Some e) end
                             end) l s = FixtureModel.execute_all sync l s).
  { clear. induction l as [|f l IH]; intro s; [reflexivity|]. cbn [FixtureModel.execute_all]. destruct (FixtureModel.execute sync f s) as [s' [e|]]; [reflexivity|apply IH]. }
  rewrite G, A in E. unfold FixtureModel.run_sync in E. cbn [FixtureModel.fid FixtureModel.fargs] in E.
  assert (U : forall e t, FixtureModel.s_cache (FixtureModel.set_entry i e t) i = Some e) by (intros e t; cbn; unfold FixtureModel.upd; now rewrite Nat.eqb_refl).
  cbn [FixtureModel.execute].
  destruct (FixtureModel.lookup s1 args) as [vs|y].
  - destruct (sync (FixtureModel.s_runs s1)) as [v|e]; injection E as <- <-; rewrite U; reflexivity.
  - injection E as <- <-. rewrite U. reflexivity.
Qed.
Print Assumptions C86_sync_kept.
Example C86_sync_kept_ex : snd (FixtureModel.execute (fun _ => inr (FixtureModel.XUser 7)) (FixtureModel.Fix 0%nat false []) FixtureModel.start) = Some (FixtureModel.XUser 7).
Proof. reflexivity. Qed.

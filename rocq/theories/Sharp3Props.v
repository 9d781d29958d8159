(** Statements added after mutations of the models were not noticed: C09, C10, C41, C42, C51, C53, C58, C65, C66, C76, C86. *)
From Verif Require Import Base TextModel.
From Verif Require RangeModel ArrayModel LogicArrayModel BuildModel ParamModel XmlModel FixtureModel HandleModel PluginModel BuildProps.
From Coq Require Import String Lia.
Open Scope Z_scope.

(** * C65: sources with a tag *)
(** Every tag is accepted among the sources, and what the name of the file would say does not matter. *)
Theorem C65_tagged_sources abs l :
  BuildModel.set_sources abs (map (fun x => BuildModel.Tagged (fst x) (snd x)) l) = BuildModel.BOk (map (fun x => (abs (snd x), fst x)) l).
Proof. unfold BuildModel.set_sources. induction l as [|x l IH]; cbn [map BuildModel.set_list]; [reflexivity|]. cbn [BuildModel.bbind]. now rewrite IH. Qed.
Print Assumptions C65_tagged_sources.

Example C65_tagged_sources_ex : BuildModel.set_sources (fun p => lit "/w/" ++ p) [BuildModel.Tagged BuildModel.TVerilog (lit "a.vhd")] =
  BuildModel.BOk [(lit "/w/a.vhd", BuildModel.TVerilog)].
Proof. reflexivity. Qed.

(** NVC is told to keep the case if it knows the option (or if the user asks for it), otherwise not. *)
Theorem C65_preserve_case m b c : BuildModel.nvc_build m b = BuildModel.BOk [c] ->
  lit "--work=" ++ BuildModel.b_library b <> lit "--preserve-case" -> BuildModel.b_dir b <> lit "--preserve-case" ->
  (In (lit "--preserve-case") c <-> BuildModel.m_preserve m = true \/ In (lit "--preserve-case") (BuildModel.values (BuildModel.b_args b)) \/
     In (lit "--preserve-case") (BuildModel.paths (BuildModel.b_sources b ++ BuildModel.b_vhdl b))).
Proof.
  unfold BuildModel.nvc_build. cbv zeta. intros H N1 N2. destruct (BuildModel.only _ _); [|discriminate H]. destruct (BuildModel.only_args _ _); [|discriminate H].
  cbn [BuildModel.bbind] in H. apply (f_equal (fun r => match r with BuildModel.BOk (c :: _) => c | _ => [] end)) in H. cbv beta iota in H. subst c.
  rewrite !in_app_iff. remember (lit "--preserve-case") as w eqn:W. cbn [In]. split.
  - intros [[Q|[Q|[Q|[Q|Q]]]]|[Q|[[Q|Q]|[Q|Q]]]]; try tauto; try (exfalso; congruence); try (exfalso; subst w; vm_compute in Q; discriminate Q).
    destruct (BuildModel.m_preserve m); [now left|destruct Q].
  - intros [Q|[Q|Q]]; [|tauto|tauto]. right. right. right. right. rewrite Q. now left.
Qed.
Print Assumptions C65_preserve_case.

(** * C66: what the simulators are told *)
(** DSim writes waves if waves or the user interface are asked for (or if the user's arguments say so). *)
Theorem C66_dsim_waves m t c e : BuildModel.dsim_test m t = BuildModel.BOk ([c], e) ->
  BuildModel.b_dir (BuildModel.t_build t) <> lit "-waves file.vcd" -> BuildModel.m_lib m "vpi" "dsim" <> lit "-waves file.vcd" ->
  (In (lit "-waves file.vcd") c <-> BuildModel.t_waves t = true \/ BuildModel.t_gui t = true \/ In (lit "-waves file.vcd") (BuildModel.t_args t) \/
     In (lit "-waves file.vcd") (BuildModel.t_plus t)).
Proof.
  unfold BuildModel.dsim_test, BuildModel.no_pre. destruct (BuildModel.t_pre t); [discriminate|]. intros H N1 N2.
  apply (f_equal (fun r => match r with BuildModel.BOk (c :: _, _) => c | _ => [] end)) in H. cbv beta iota in H. subst c.
  rewrite !in_app_iff. remember (lit "-waves file.vcd") as w eqn:W. cbn [In]. split.
  - intros [Q|[Q|[Q|[Q|Q]]]]; [|tauto|tauto| |].
    + exfalso. repeat (destruct Q as [Q|Q]; [try congruence; subst w; vm_compute in Q; discriminate Q|]). exact Q.
    + destruct (BuildModel.t_waves t); [now left|]. destruct (BuildModel.t_gui t); [right; now left|]. destruct Q.
    + exfalso. destruct (BuildModel.t_timescale t) as [[u p]|]; [|exact Q]. destruct Q as [Q|[]]. subst w. vm_compute in Q. injection Q. discriminate.
  - intros [Q|[Q|[Q|Q]]]; [| |tauto|tauto]; right; right; right; left; rewrite Q; [|rewrite orb_true_r]; now left.
Qed.
Print Assumptions C66_dsim_waves.
(** With the qrun flow the end of the simulation ends the process, unless the user interface is open: there it only stops. *)
Theorem C66_onfinish m t c e : BuildModel.qis_test m t = BuildModel.BOk ([c], e) ->
  exists a b, c = a ++ [lit "-onfinish"; if BuildModel.t_gui t then lit "stop" else lit "exit"] ++ b /\
    (BuildModel.t_gui t = false -> exists b', b = b' ++ [lit "-do"; lit "run -all; quit"] ++ BuildModel.m_suffix m).
Proof.
  unfold BuildModel.qis_test. destruct (BuildModel.t_gpi t); [discriminate|]. destruct (BuildModel.gpi_extra _ _); [|discriminate]. cbn [BuildModel.bbind]. intro H.
  apply (f_equal (fun r => match r with BuildModel.BOk (c :: _, _) => c | _ => [] end)) in H. cbv beta iota in H. subst c.
  assert (G : forall (A : Type) (p1 p2 p3 p4 p5 x b : list A), p1 ++ p2 ++ p3 ++ p4 ++ p5 ++ x ++ b = (p1 ++ p2 ++ p3 ++ p4 ++ p5) ++ x ++ b)
    by (intros; now rewrite <- !app_assoc).
  eexists. eexists. split; [replace (if BuildModel.t_gui t then lit "stop" else lit "exit") with (lit (if BuildModel.t_gui t then "stop" else "exit"))
    by (destruct (BuildModel.t_gui t); reflexivity); apply G|].
  intros ->. assert (K : forall (A : Type) (p1 p2 p3 p4 p5 p6 x b : list A), p1 ++ p2 ++ p3 ++ p4 ++ p5 ++ p6 ++ x ++ b = (p1 ++ p2 ++ p3 ++ p4 ++ p5 ++ p6) ++ x ++ b)
    by (intros; now rewrite <- !app_assoc).
  eexists. apply K.
Qed.
Print Assumptions C66_onfinish.
(** The script of the Aldec simulators without user interface ends by running the simulation and then leaving. *)
Theorem C66_aldec_end riviera m t s : BuildModel.aldec_test_script riviera m t = BuildModel.BOk s -> riviera && BuildModel.t_gui t = false ->
  exists s', s = s' ++ lit "run -all " ++ [10] ++ lit "exit".
Proof.
  unfold BuildModel.aldec_test_script. cbv zeta. intros H Q. rewrite Q in H. destruct (match BuildModel.t_pre t with None => _ | Some _ => _ end) as [pre|]; [|discriminate H].
  cbn [BuildModel.bbind] in H. apply (f_equal (fun r => match r with BuildModel.BOk c => c | _ => [] end)) in H. cbv beta iota in H. subst s.
  assert (G : forall (A : Type) (p1 p2 p3 p4 b : list A), p1 ++ p2 ++ p3 ++ p4 ++ b = (p1 ++ p2 ++ p3 ++ p4) ++ b) by (intros; now rewrite <- !app_assoc).
  eexists. apply G.
Qed.
Print Assumptions C66_aldec_end.

(** * C58: the expected errors *)
(** Something in the sequence which is no exception type makes the decorator fail with a TypeError; otherwise all are added. *)
Theorem C58_raises g l ident : ParamModel.apply_deco ident (ParamModel.DXfail true (ParamModel.RMany l)) g =
  if existsb (fun x => match x with None => true | Some _ => false end) l then Err TypeError
  else ParamModel.decorate ident (map (fun e => ParamModel.DXfail true (ParamModel.ROne e)) (flat_map (fun x => match x with Some e => [e] | None => [] end) l)) g.
Proof.
  cbn [ParamModel.apply_deco]. revert g. induction l as [|[e|] l IH]; intro g; cbn [ParamModel.add_raises existsb flat_map map app ParamModel.decorate orb bind]; [now destruct g| |reflexivity].
  specialize (IH (ParamModel.Gen (ParamModel.n_timeout g) (ParamModel.n_expect_fail g) (ParamModel.set_add (ParamModel.n_expect_error g) e) (ParamModel.n_skip g)
    (ParamModel.n_stage g) (ParamModel.n_name g) (ParamModel.n_options g))). exact IH.
Qed.
Print Assumptions C58_raises.

(** * C53: the combined report *)
(** The combined report is one [testsuites] with the given name. *)
Theorem C53_root name inputs : XmlModel.e_tag (XmlModel.combine name inputs) = lit "testsuites" /\
  XmlModel.e_attrs (XmlModel.combine name inputs) = [(lit "name", name)] /\ XmlModel.e_text (XmlModel.combine name inputs) = [].
Proof. now repeat split. Qed.
Print Assumptions C53_root.

(** * C51: characters and attachments *)
(** Every character from U+0080 to U+D7FF and the printable ASCII ones are written as they are; no control character of XML 1.0 is. *)
Theorem C51_characters c : (32 <= c <= 126 \/ 128 <= c <= 55295 \/ 57344 <= c <= 65533 \/ c = 9 \/ c = 10 \/ c = 13 -> XmlModel.escape [c] = [c]) /\
  (0 <= c < 32 /\ c <> 9 /\ c <> 10 /\ c <> 13 \/ c = 127 -> c <> 102 -> XmlModel.escape [c] = XmlModel.escape_code c \/ 48 <= c).
Proof.
  unfold XmlModel.escape. cbn [flat_map]. rewrite app_nil_r. split.
  - intro H. assert (K : XmlModel.xml_kept c = true); [|now rewrite K]. unfold XmlModel.xml_kept. rewrite !orb_true_iff, !andb_true_iff, !Z.eqb_eq, !Z.leb_le. lia.
  - intros H N. destruct (XmlModel.xml_kept c) eqn:K; [|now left]. unfold XmlModel.xml_kept in K. rewrite !orb_true_iff, !andb_true_iff, !Z.eqb_eq, !Z.leb_le in K. lia.
Qed.
Print Assumptions C51_characters.
(** The default attachments of a case which ran are named in its output, one per line and after what it wrote. *)
Theorem C51_attachments r t : XmlModel.rp_attach r <> [] -> XmlModel.tc_status t <> XmlModel.Skipped ->
  XmlModel.tc_out t = [] ->
  In (XmlModel.Elem (lit "system-out") [] (XmlModel.normalize_text (XmlModel.rp_rel r)
       (join [10] (map (fun a => lit "[[ATTACHMENT|" ++ a ++ lit "]]") (XmlModel.rp_attach r)))) []) (XmlModel.e_children (XmlModel.case_elem r t)).
Proof.
  intros N S O. unfold XmlModel.case_elem. cbv zeta. cbn [XmlModel.e_children]. rewrite !in_app_iff. right. right. left.
  assert (T : (if match XmlModel.tc_status t with XmlModel.Skipped => true | _ => false end then [] else XmlModel.text_attachments r) = XmlModel.text_attachments r)
    by (destruct (XmlModel.tc_status t); congruence).
  rewrite T, O. change (join [10] (map (fun a => lit "[[ATTACHMENT|" ++ a ++ lit "]]") (XmlModel.rp_attach r))) with (XmlModel.text_attachments r).
  assert (Q : XmlModel.text_attachments r <> []).
  { unfold XmlModel.text_attachments. destruct (XmlModel.rp_attach r) as [|a l]; [now elim N|]. cbn [map join]. destruct (map (fun a => lit "[[ATTACHMENT|" ++ a ++ lit "]]") l); discriminate. }
  destruct (XmlModel.text_attachments r) as [|c w]; [now elim Q|]. now left.
Qed.
Print Assumptions C51_attachments.

(** * C86: errors of fixtures *)
(** A failed asynchronous fixture fails again for every later use, also if its exception is false. *)
Theorem C86_error_again tasks t e : tasks t = FixtureModel.Errored e -> FixtureModel.cached_error tasks (FixtureModel.Async t) = Some e.
Proof.
  intro H. unfold FixtureModel.cached_error, FixtureModel.getitem. rewrite H. cbn. destruct (FixtureModel.truthy e); reflexivity.
Qed.
Print Assumptions C86_error_again.

(** * C42, C41: values which are refused *)
(** A value without elements is a TypeError for an array handle; for a single Logic this is so only if the length fits. *)
Theorem C42_no_elements trust id l r d sub a v st : (exists z, v = HandleModel.PInt z) \/ v = HandleModel.PNone \/ (exists f, v = HandleModel.PFloat f) \/
  (exists b rg, v = HandleModel.PLogic b /\ HandleModel.handle_range l r d = Ok rg /\ RangeModel.range_len rg = 1) ->
  HandleModel.set_value trust (HandleModel.HArr id l r d sub) a v st = (st, Some TypeError).
Proof.
  intros [[z ->]|[->|[[f ->]|(b & rg & -> & R & L)]]]; try reflexivity. cbn [HandleModel.set_value HandleModel.py_length]. now rewrite R, L.
Qed.
Print Assumptions C42_no_elements.
(** Integers for reals: those which round to a double are accepted, the others are an OverflowError before anything is written. *)
Theorem C41_real_limit z : HandleModel.bind_check (HandleModel.SRealInt z) = None <-> - (2 ^ 1024 - 2 ^ 970) < z < 2 ^ 1024 - 2 ^ 970.
Proof.
  unfold HandleModel.bind_check. destruct (Z.ltb_spec (Z.abs z) (2 ^ 1024 - 2 ^ 970)); split; intro H'; [|reflexivity|discriminate H'|exfalso]; lia.
Qed.
Print Assumptions C41_real_limit.

(** * C09, C10: a range is needed *)
Theorem C09_no_range z o : LogicArrayModel.from_unsigned z ArrayModel.RNone o = Err TypeError /\ LogicArrayModel.from_signed z ArrayModel.RNone o = Err TypeError.
Proof. now split. Qed.
Print Assumptions C09_no_range.

(** * C76: the default entry points of the plugin *)
(** The default of [pygpi_users] is read as four entry points, each of a module and a function. *)
Theorem C76_users now : exists w, option_map PluginModel.o_default (List.find (fun o => pystr_eqb (PluginModel.o_name o) (lit "pygpi_users")) (PluginModel.options now)) = Some (PluginModel.VWords [w]) /\
  split 44 w = map (fun x => lit (fst x) ++ lit ":" ++ lit (snd x))
    [("cocotb_tools._coverage", "start_cocotb_library_coverage"); ("cocotb.logging", "_configure"); ("cocotb._init", "init_package_from_simulation");
     ("cocotb_tools._pytest._init", "run_regression")]%string.
Proof. eexists. split; [vm_compute; reflexivity|]. vm_compute. reflexivity. Qed.
Print Assumptions C76_users.

(** The hypotheses of the theorems above can be met. *)
Example C66_sharp3_ex : let m := BuildProps.ex_machine (fun _ => None) in
  (exists c e, BuildModel.dsim_test m BuildProps.ex_test = BuildModel.BOk ([c], e)) /\ BuildModel.m_lib m "vpi" "dsim" <> lit "-waves file.vcd" /\
  (exists c e, BuildModel.qis_test m BuildProps.ex_test = BuildModel.BOk ([c], e)) /\ BuildModel.t_gui BuildProps.ex_test = false /\
  (exists s, BuildModel.aldec_test_script true m BuildProps.ex_test = BuildModel.BOk s).
Proof.
  cbv zeta. split; [eexists; eexists; vm_compute; reflexivity|]. split; [vm_compute; discriminate|]. split; [eexists; eexists; vm_compute; reflexivity|].
  split; [reflexivity|]. eexists. vm_compute. reflexivity.
Qed.
Example C65_preserve_case_ex : exists c, BuildModel.nvc_build (BuildProps.ex_machine (fun _ => None))
  (BuildModel.BuildIn (lit "top") [(lit "/s/b.vhd", BuildModel.TVHDL)] [] [] [] [] [] [] None false false None false (lit "/d")) = BuildModel.BOk [c] /\
  In (lit "/s/b.vhd") c.
Proof. eexists. split; [vm_compute; reflexivity|]. vm_compute. tauto. Qed.
Example C58_raises_ex : ParamModel.add_raises [1] [Some 2; Some 1; Some 3] = Ok [1; 2; 3] /\ ParamModel.add_raises [1] [Some 2; None] = Err TypeError.
Proof. now split. Qed.
Example C86_error_again_ex : FixtureModel.cached_error (fun _ => FixtureModel.Errored FixtureModel.XIndex) (FixtureModel.Async 3%nat) = Some FixtureModel.XIndex.
Proof. reflexivity. Qed.
Example C42_no_elements_ex : exists rg, HandleModel.handle_range 3 3 HandleModel.RUp = Ok rg /\ RangeModel.range_len rg = 1.
Proof. eexists. split; vm_compute; reflexivity. Qed.

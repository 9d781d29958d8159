(** C87: tests written with cocotb's decorators are planned by the pytest plugin as by cocotb's own regression manager. *)
From Coq Require Import String Permutation.
From Verif Require Import Base TextModel ParamModel ParamSpec CompatModel CompatSpec CompatProofs.
Open Scope Z_scope.

(** * The same tests *)
(** Both managers plan the same tests, in the same order, with the same arguments, skips, expected failures, timeouts and
    stages, whatever other fixtures exist and whichever prefix test names have. *)
Theorem C87_same ident prefix fixtures w : identifiers ident -> usual_module ident w -> NoDup (map fst (w_attrs w)) ->
  exists ps, cocotb_plan ident w (w_attrs w) = Ok ps /\ pytest_plan prefix fixtures w = Ok ps.
Proof. exact (same_pf ident prefix fixtures w). Qed.
Print Assumptions C87_same.

(** Lower-case letters only. *)
Definition lower (s : pystr) : bool := match s with [] => false | _ => forallb (fun c => (97 <=? c) && (c <=? 122)) s end.
Lemma lower_identifiers : identifiers lower.
Proof.
  intros n H. destruct n as [|c n]; [discriminate|]. split; [discriminate|]. unfold lower in H. rewrite forallb_forall in H. split.
  - intro I. apply H in I. discriminate.
  - apply Forall_forall. intros x I. apply H in I. apply andb_true_iff in I. destruct I as [A B]. apply Z.leb_le in A, B.
    unfold is_space. repeat (match goal with |- context [?a <=? ?b] => destruct (Z.leb_spec a b); try lia
      | |- context [?a =? ?b] => destruct (Z.eqb_spec a b); try lia end); reflexivity.
Qed.
Definition int (n : string) : pv := VPrim (lit n).
Definition with_options (opts : list option_) : gen := Gen (Some 5) true [7] false 2 (lit "t") opts.
Definition no_test (p : pystr) : bool := false.
Definition test_of (params : list (pystr * bool)) : fn := Fn params true None false.
Definition req (n : string) : pystr * bool := (lit n, false).
(** A module with an import, a helper, and a test of two options, one of them a group. *)
Definition ex_opts : list option_ :=
  [(ONE (lit "x"), [int "1"; int "2"]); (GROUP [lit "y"; lit "z"], [VSeq [int "3"; int "4"]; VSeq [int "5"; VStr (lit "six")]])].
Definition ex_world : world :=
  World (fun k => if Nat.eqb k 1 then Fn [req "a"] false None false else test_of [req "dut"; req "z"; req "x"; req "y"])
        [(lit "cocotb", OOther); (lit "check", OFunction 1); (lit "t", OGenerator (with_options ex_opts) 0)].
Example C87_same_ex : usual_module lower ex_world /\ NoDup (map fst (w_attrs ex_world)) /\
  exists ps, pytest_plan no_test no_test ex_world = Ok ps /\ map p_args ps =
    [Some [(lit "dut", ADut); (lit "z", AVal (int "4")); (lit "x", AVal (int "1")); (lit "y", AVal (int "3"))];
     Some [(lit "dut", ADut); (lit "z", AVal (VStr (lit "six"))); (lit "x", AVal (int "1")); (lit "y", AVal (int "5"))];
     Some [(lit "dut", ADut); (lit "z", AVal (int "4")); (lit "x", AVal (int "2")); (lit "y", AVal (int "3"))];
     Some [(lit "dut", ADut); (lit "z", AVal (VStr (lit "six"))); (lit "x", AVal (int "2")); (lit "y", AVal (int "5"))]] /\
    Forall (fun p => p_stage p = 2 /\ p_timeout p = Some 5 /\ p_fails p = Some (Some [7]) /\ p_skip p = false) ps.
Proof.
  split; [split|split].
  - apply Forall_cons; [exact Logic.I|]. apply Forall_cons; [split; [reflexivity|left; reflexivity]|]. apply Forall_cons; [|constructor].
    cbn [snd usual]. split; [|split; [|split; [reflexivity|split; [reflexivity|left; reflexivity]]]].
    + apply Forall_cons; [|apply Forall_cons; [|constructor]].
      * split; [|split; [exact Logic.I|split; [discriminate|]]]; repeat constructor.
      * split; [repeat constructor|split; [|split; [discriminate|split; [discriminate|]]]].
        -- unfold shaped. cbn [fst snd]. apply Forall_cons; [|apply Forall_cons; [|constructor]]; eexists; split; reflexivity.
        -- cbn [snd]. apply Forall_cons; [|apply Forall_cons; [|constructor]]; intros l [= <-]; repeat constructor.
    + exists [lit "z"; lit "x"; lit "y"]. split; [reflexivity|split].
      * cbn. eapply Permutation_trans; [apply perm_swap|]. constructor. apply perm_swap.
      * repeat (constructor; [cbn; intuition discriminate|]). constructor.
  - repeat constructor. intros [].
  - repeat (constructor; [cbn; intuition discriminate|]). constructor.
  - eexists. split; [vm_compute; reflexivity|]. split; [vm_compute; reflexivity|]. repeat constructor.
Qed.

(** * Order *)
(** With pytest-order, the tests run in the order of the stages if all stages are positive, or all are zero, or all are
    negative, and in no other case. *)
Theorem C87_stages l : same_sign l -> pytest_order l = cocotb_order l.
Proof. exact (order_pf l). Qed.
Print Assumptions C87_stages.
Theorem C87_stages_only l : pytest_order l = cocotb_order l -> same_sign l.
Proof. exact (order_only l). Qed.
Print Assumptions C87_stages_only.
(** No test is lost or repeated by the order. *)
Theorem C87_order_perm l : Permutation (pytest_order l) l /\ Permutation (cocotb_order l) l.
Proof. split; [apply order_perm|apply sort_perm]. Qed.
Print Assumptions C87_order_perm.
Definition staged (f : nat) (s : Z) : planned := Planned f (Some []) false None None s.
Example C87_stages_ex : same_sign [staged 1 3; staged 2 1; staged 3 3] /\
  cocotb_order [staged 1 3; staged 2 1; staged 3 3] = [staged 2 1; staged 1 3; staged 3 3] /\
  ~ same_sign [staged 1 0; staged 2 1].
Proof.
  split; [left; repeat constructor|]. split; [reflexivity|].
  intros [F|[F|F]]; inversion F as [|? ? A B]; subst; cbn in A; try discriminate A. inversion B as [|? ? C D]; subst. discriminate C.
Qed.
(** A test of stage 1 is run before the tests of the default stage 0, and a test of stage -1 after them. *)
Theorem C87_stage_refuted : exists l, map p_stage l = [0; 1; -1] /\
  map p_stage (cocotb_order l) = [-1; 0; 1] /\ map p_stage (pytest_order l) = [1; 0; -1].
Proof. exists [staged 1 0; staged 2 1; staged 3 (-1)]. repeat split. Qed.
Print Assumptions C87_stage_refuted.

(** * Differences *)
Definition module1 (params : list (pystr * bool)) (opts : list option_) : world :=
  World (fun _ => test_of params) [(lit "t", OGenerator (Gen None false [] false 0 (lit "t") opts) 0)].
Definition plan_args (r : result (list planned)) : result (list (option (list (pystr * arg)))) := bind r (fun ps => Ok (map p_args ps)).
(** A [Param] is not replaced by its value: the test gets the [Param] object. *)
Theorem C87_param_refuted : exists w, w = module1 [req "dut"; req "x"] [(ONE (lit "x"), [VParam (int "0") (Some (lit "zero"))])] /\
  plan_args (cocotb_plan lower w (w_attrs w)) = Ok [Some [(lit "dut", ADut); (lit "x", AVal (int "0"))]] /\
  plan_args (pytest_plan no_test no_test w) = Ok [Some [(lit "dut", ADut); (lit "x", AVal (VParam (int "0") (Some (lit "zero"))))]].
Proof. eexists. split; [reflexivity|]. split; vm_compute; reflexivity. Qed.
Print Assumptions C87_param_refuted.
(** A group of one name: the test gets the whole row instead of its value. *)
Theorem C87_group_of_one_refuted : exists w, w = module1 [req "dut"; req "x"] [(GROUP [lit "x"], [VSeq [int "1"]])] /\
  plan_args (cocotb_plan lower w (w_attrs w)) = Ok [Some [(lit "dut", ADut); (lit "x", AVal (int "1"))]] /\
  plan_args (pytest_plan no_test no_test w) = Ok [Some [(lit "dut", ADut); (lit "x", AVal (VSeq [int "1"]))]].
Proof. eexists. split; [reflexivity|]. split; vm_compute; reflexivity. Qed.
Print Assumptions C87_group_of_one_refuted.
(** No values: cocotb has no test, pytest reports one skipped test. *)
Theorem C87_no_values_refuted : exists w, w = module1 [req "dut"; req "x"] [(ONE (lit "x"), [])] /\
  cocotb_plan lower w (w_attrs w) = Ok [] /\ exists p, pytest_plan no_test no_test w = Ok [p] /\ p_skip p = true.
Proof. eexists. split; [reflexivity|]. split; [vm_compute; reflexivity|]. eexists. split; vm_compute; reflexivity. Qed.
Print Assumptions C87_no_values_refuted.
(** A parametrized argument with a default value stops the collection. *)
Theorem C87_default_refuted : exists w, w = module1 [req "dut"; (lit "x", true)] [(ONE (lit "x"), [int "1"])] /\
  plan_args (cocotb_plan lower w (w_attrs w)) = Ok [Some [(lit "dut", ADut); (lit "x", AVal (int "1"))]] /\
  pytest_plan no_test no_test w = Err ValueError.
Proof. eexists. split; [reflexivity|]. split; vm_compute; reflexivity. Qed.
Print Assumptions C87_default_refuted.
(** A first parameter with another name than [dut] cannot be filled (there is no such fixture). *)
Theorem C87_handle_refuted : exists w, w = module1 [req "design"] [] /\
  plan_args (cocotb_plan lower w (w_attrs w)) = Ok [Some [(lit "design", ADut)]] /\
  plan_args (pytest_plan no_test no_test w) = Ok [None].
Proof. eexists. split; [reflexivity|]. split; vm_compute; reflexivity. Qed.
Print Assumptions C87_handle_refuted.
(** A function under two decorators: only the first test is run, also if the second has other flags. *)
Theorem C87_twice_refuted : exists w g h, w_attrs w = [(lit "a", OGenerator g 0); (lit "b", OGenerator h 0)] /\ n_timeout h = Some 9 /\
  (exists ps, cocotb_plan lower w (w_attrs w) = Ok ps /\ map p_timeout ps = [None; Some 9]) /\
  exists ps, pytest_plan no_test no_test w = Ok ps /\ map p_timeout ps = [None].
Proof.
  exists (World (fun _ => test_of [req "dut"]) [(lit "a", OGenerator (Gen None false [] false 0 (lit "a") []) 0);
                                               (lit "b", OGenerator (Gen (Some 9) false [] false 0 (lit "b") []) 0)]).
  do 2 eexists. split; [reflexivity|]. split; [reflexivity|]. split; eexists; split; vm_compute; reflexivity.
Qed.
Print Assumptions C87_twice_refuted.
(** Of the tests of a TestFactory, which share a function, only the first is collected, and without its arguments: if these have
    default values it runs with them, else it cannot be called. *)
Definition factory_world (d : bool) : world :=
  World (fun _ => test_of [req "dut"; (lit "x", d)])
        [(lit "t_001", OTest [] [(lit "x", int "1")] (gen0 (lit "t_001")) 0); (lit "t_002", OTest [] [(lit "x", int "2")] (gen0 (lit "t_002")) 0)].
Theorem C87_factory_refuted : exists w : bool -> world, (forall d, map snd (w_attrs (w d)) =
    [OTest [] [(lit "x", int "1")] (gen0 (lit "t_001")) 0; OTest [] [(lit "x", int "2")] (gen0 (lit "t_002")) 0]) /\
  (forall d, plan_args (cocotb_plan lower (w d) (w_attrs (w d))) =
    Ok [Some [(lit "dut", ADut); (lit "x", AVal (int "1"))]; Some [(lit "dut", ADut); (lit "x", AVal (int "2"))]]) /\
  plan_args (pytest_plan no_test no_test (w true)) = Ok [Some [(lit "dut", ADut)]] /\
  plan_args (pytest_plan no_test no_test (w false)) = Ok [None].
Proof.
  exists factory_world. split; [reflexivity|]. split; [intros [|]; vm_compute; reflexivity|]. split; vm_compute; reflexivity.
Qed.
Print Assumptions C87_factory_refuted.

(** C95: a test simulates the design which was built. *)
From Verif Require Import Base TextModel RunnerModel BuildModel BuildSpec BuildProofs BuildProps BuiltSpec.
From Coq Require Import String.
Open Scope Z_scope.

Lemma built_here {A} (xs l : list A) : contiguous xs (xs ++ l).
Proof. exists [], l. reflexivity. Qed.
Lemma built_after {A} (xs a l : list A) : contiguous xs l -> contiguous xs (a ++ l).
Proof. intros (b & c & ->). exists (a ++ b), c. now rewrite <- app_assoc. Qed.
Lemma built_before {A} (xs a l : list A) : contiguous xs a -> contiguous xs (a ++ l).
Proof. intros (b & c & ->). exists b, (c ++ l). now rewrite <- !app_assoc. Qed.
Lemma built_cons {A} (xs : list A) x l : contiguous xs l -> contiguous xs (x :: l).
Proof. intros (b & c & ->). exists (x :: b), c. reflexivity. Qed.
Ltac built := solve [eexists [], _; reflexivity | apply built_cons; built | apply built_before; built | apply built_after; built].

Theorem C95_same (s : sim) (m : machine) (b : build_in) (t : test_in) (cwd : pystr) (bc tc : list command) (e : env) : aldec s = false ->
  build_command s m b = BOk bc -> bc <> [] -> test_command s m t = BOk (tc, e) -> t_build t = b -> t_library t = b_library b ->
  (s = Questa -> ~ In 46 (b_library b)) -> (s = Verilator -> b_toplevel b = Some (t_toplevel t)) -> placed s cwd t ->
  exists d, makes s cwd bc d /\ takes s (m_prefix m) (t_dir t) (t_toplevel t) tc d.
Proof.
  intros A B NE T <- L Q V P. destruct s; try discriminate A; cbn [build_command test_command makes takes placed] in *.
  - unfold icarus_build in B. destruct (b_toplevel (t_build t)) as [top|]; [|discriminate].
    destruct (only _ _); [|discriminate]. cbn [bbind] in B. destruct (only_args _ _); [|discriminate]. cbn [bbind] in B.
    destruct (outdated _ _ _) as [o|]; [|discriminate]. cbn [bbind] in B. destruct (o || b_always (t_build t)); [|injection B as <-; now elim NE].
    injection B as <-. unfold icarus_test, no_pre in T. destruct (t_pre t); [discriminate|]. injection T as <- _.
    exists (slash (b_dir (t_build t)) (lit "sim.vvp")). split.
    + eexists. split; [left; reflexivity|]. built.
    + eexists. split; [reflexivity|]. C66_find.
  - unfold questa_build in B. destruct (questa_sources _ _) as [cs|]; [|discriminate]. injection B as <-.
    unfold questa_test in T. destruct (t_gpi t) as [|i rest]; [discriminate|]. destruct (gpi_extra m rest); [|discriminate]. cbn [bbind] in T.
    injection T as <- _. subst cwd. exists (slash (t_dir t) (b_library (t_build t))). split.
    + exists (b_library (t_build t)). split; [now left|reflexivity].
    + eexists _, (b_library (t_build t)). split; [reflexivity|]. split; [rewrite <- L; C66_find|]. split; [exact (Q eq_refl)|reflexivity].
  - unfold qis_build in B. injection B as <-.
    unfold qis_test in T. destruct (t_gpi t) as [|i rest]; [discriminate|]. destruct (gpi_extra m rest); [|discriminate]. cbn [bbind] in T.
    injection T as <- _. exists (slash (b_dir (t_build t)) (lit "qrun_out")). split.
    + eexists. split; [left; reflexivity|]. built.
    + eexists _, (t_library t). split; [reflexivity|]. split; built.
  - unfold ghdl_build in B. destruct (only _ _); [|discriminate]. cbn [bbind] in B. destruct (only_args _ _); [|discriminate]. cbn [bbind] in B.
    injection B as <-. unfold ghdl_test, no_pre in T. destruct (t_pre t); [discriminate|].
    match type of T with bbind ?x _ = _ => destruct x end; [|discriminate]. cbn [bbind] in T. injection T as <- _.
    subst cwd. exists (slash (t_dir t) (b_library (t_build t))). split.
    + eexists _, (b_library (t_build t)), _. split; [left; reflexivity|]. split; reflexivity.
    + eexists _, (b_library (t_build t)). split; [rewrite <- L; reflexivity|]. split; [C66_find|reflexivity].
  - unfold nvc_build in B. destruct (only _ _); [|discriminate]. cbn [bbind] in B. destruct (only_args _ _); [|discriminate]. cbn [bbind] in B.
    injection B as <-. unfold nvc_test in T. injection T as <- _. subst cwd. exists (slash (b_dir (t_build t)) (b_library (t_build t))). split.
    + eexists _, (b_library (t_build t)), _. split; [left; reflexivity|]. split; reflexivity.
    + eexists _, (b_library (t_build t)). split; [rewrite <- L; reflexivity|]. built.
  - unfold verilator_build in B. destruct (m_verilator m); [|discriminate]. destruct (check _); [|discriminate]. cbn [bbind] in B.
    destruct (only_args _ _); [|discriminate]. cbn [bbind] in B. rewrite (V eq_refl) in B. injection B as <-.
    unfold verilator_test, no_pre in T. destruct (t_pre t); [discriminate|]. injection T as <- _.
    exists (slash (b_dir (t_build t)) (t_toplevel t)). split.
    + eexists _, _, _. split; [left; reflexivity|]. split; [built|]. split; [built|reflexivity].
    + eexists. reflexivity.
  - unfold xcelium_build in B. destruct (b_waves (t_build t)); [discriminate|]. destruct (b_toplevel (t_build t)); [|discriminate].
    destruct (check _); [|discriminate]. cbn [bbind] in B. injection B as <-.
    unfold xcelium_test, no_pre in T. destruct (t_pre t); [discriminate|]. destruct (t_timescale t); [discriminate|]. injection T as <- _.
    exists (b_dir (t_build t) ++ lit "/xrun_snapshot"). split.
    + eexists. split; [left; reflexivity|]. do 4 apply built_cons. eexists [], _. reflexivity.
    + eexists _, _. split; [reflexivity|]. built.
  - unfold vcs_build in B. destruct (check _); [|discriminate]. cbn [bbind] in B.
    destruct (outdated _ _ _) as [o|]; [|discriminate]. cbn [bbind] in B. destruct (o || b_always (t_build t)); [|injection B as <-; now elim NE].
    destruct (b_toplevel (t_build t)); [|discriminate]. injection B as <-.
    unfold vcs_test, no_pre in T. destruct (t_pre t); [discriminate|]. injection T as <- _.
    exists (slash (b_dir (t_build t)) (lit "simv")). split.
    + eexists. split; [left; reflexivity|]. unfold option_is.
      repeat match goal with
             | |- contiguous _ (_ :: _) => first [solve [exists [], []; reflexivity] | apply built_cons]
             | |- contiguous _ (_ ++ _) => apply built_after
             end.
    + eexists. reflexivity.
  - unfold dsim_build in B. destruct (only _ _); [|discriminate]. cbn [bbind] in B. destruct (only_args _ _); [|discriminate]. cbn [bbind] in B.
    destruct (outdated _ _ _) as [o|]; [|discriminate]. cbn [bbind] in B. destruct (o || b_always (t_build t)); [|injection B as <-; now elim NE].
    injection B as <-. unfold dsim_test, no_pre in T. destruct (t_pre t); [discriminate|]. injection T as <- _.
    exists (slash (b_dir (t_build t)) (lit "image")). split.
    + eexists _, (b_dir (t_build t)), (lit "image"). split; [left; reflexivity|]. split; [|split; [|reflexivity]]; apply built_after; built.
    + eexists _, (b_dir (t_build t)), (lit "image"). split; [reflexivity|]. split; [built|]. split; [built|reflexivity].
Qed.
Print Assumptions C95_same.

(** The design of one build under several simulators, with a test elsewhere than the build. *)
Example C95_ex : Forall (fun s => by_directory s = true /\ exists bc tc e d, build_command s (ex_machine (fun _ => Some 1)) (t_build ex_test) = BOk bc /\
    bc <> [] /\ test_command s (ex_machine (fun _ => Some 1)) ex_test = BOk (tc, e) /\ placed s (lit "/elsewhere") ex_test /\
    makes s (lit "/elsewhere") bc d /\ takes s (m_prefix (ex_machine (fun _ => Some 1))) (lit "/t") (lit "dut") tc d) [QuestaQIS; Verilator; Xcelium].
Proof.
  repeat (constructor; [split; [reflexivity|]|]); [| | |constructor].
  all: match goal with |- exists bc tc e d, build_command ?s ?m ?b = _ /\ _ =>
         let x := eval vm_compute in (build_command s m b) in let y := eval vm_compute in (test_command s m ex_test) in
         match x with BOk ?bc => match y with BOk (?tc, ?e) =>
           assert (X : build_command s m b = BOk bc) by (vm_compute; reflexivity); assert (Y : test_command s m ex_test = BOk (tc, e)) by (vm_compute; reflexivity);
           destruct (C95_same s m b ex_test (lit "/elsewhere") bc tc e) as (d & D1 & D2); try assumption; try reflexivity; try discriminate;
           exists bc, tc, e, d end end end.
  all: split; [exact X|]; split; [discriminate|]; split; [exact Y|]; split; [exact Logic.I|]; split; assumption.
Qed.

(** Under Questa and GHDL a test in another directory does not find the library. *)
Theorem C95_moved_refuted : forall s, In s [Questa; Ghdl] -> exists m b t bc tc e, build_command s m b = BOk bc /\ bc <> [] /\
  test_command s m t = BOk (tc, e) /\ t_build t = b /\ t_library t = b_library b /\ b_toplevel b = Some (t_toplevel t) /\
  ~ exists d, makes s (b_dir b) bc d /\ takes s (m_prefix m) (t_dir t) (t_toplevel t) tc d.
Proof.
  intros s I. exists (ex_machine (fun _ => None)).
  exists (match s with Ghdl => BuildIn (lit "top") [(lit "/s/a.vhd", TVHDL)] [] [] [] [] [] [] (Some (lit "dut")) false false None false (lit "/d") | _ => ex_build end).
  exists (match s with Ghdl => TestIn (lit "dut") (lit "top") true ["vpi"]%string [] [] [] false false false None None [] (lit "/t") (lit "test")
    (BuildIn (lit "top") [(lit "/s/a.vhd", TVHDL)] [] [] [] [] [] [] (Some (lit "dut")) false false None false (lit "/d")) | _ => ex_test end).
  destruct I as [<-|[<-|[]]]; eexists _, _, _; (split; [vm_compute; reflexivity|]); (split; [discriminate|]); (split; [vm_compute; reflexivity|]);
    (split; [reflexivity|]); (split; [reflexivity|]); (split; [reflexivity|]); intros (d & M & T).
  - destruct M as (lib & _ & ->). destruct T as (c & lib' & _ & _ & _ & E). discriminate E.
  - destruct M as (c & lib & r & _ & _ & ->). destruct T as (c' & lib' & _ & _ & E). discriminate E.
Qed.
Print Assumptions C95_moved_refuted.
(** Under NVC a build whose commands are executed elsewhere than in the directory of the build puts the library where no test looks. *)
Theorem C95_cwd_refuted : exists m b t cwd bc tc e, build_command Nvc m b = BOk bc /\ bc <> [] /\ test_command Nvc m t = BOk (tc, e) /\ t_build t = b /\
  t_library t = b_library b /\ t_dir t = b_dir b /\ ~ exists d, makes Nvc cwd bc d /\ takes Nvc (m_prefix m) (t_dir t) (t_toplevel t) tc d.
Proof.
  exists (ex_machine (fun _ => None)), (BuildIn (lit "top") [(lit "/s/a.vhd", TVHDL)] [] [] [] [] [] [] (Some (lit "dut")) false false None false (lit "/d")).
  exists (TestIn (lit "dut") (lit "top") true ["vhpi"]%string [] [] [] false false false None None [] (lit "/d") (lit "test")
    (BuildIn (lit "top") [(lit "/s/a.vhd", TVHDL)] [] [] [] [] [] [] (Some (lit "dut")) false false None false (lit "/d"))).
  exists (lit "/c"). eexists _, _, _. split; [vm_compute; reflexivity|]. split; [discriminate|]. split; [vm_compute; reflexivity|].
  split; [reflexivity|]. split; [reflexivity|]. split; [reflexivity|]. intros (d & M & T).
  destruct M as (c & lib & r & _ & _ & ->). destruct T as (c' & lib' & E & _). cbn [m_prefix ex_machine] in E. injection E as E _.
  assert (K : exists x, lit "top:/d/top" = x ++ lit ":" ++ slash (lit "/c") lib) by (exists lib'; exact E). clear -K. destruct K as [x K].
  cbn in K. do 4 (destruct x as [|? x]; [discriminate K|injection K as _ K]). 
  do 6 (destruct x as [|? x]; [discriminate K|injection K as _ K]). destruct x; discriminate K.
Qed.
Print Assumptions C95_cwd_refuted.
(** The words which follow a word. *)
Fixpoint followers (w : pystr) (c : command) : list pystr :=
  match c with
  | x :: r => (match r with y :: _ => if pystr_eqb x w then [y] else [] | [] => [] end) ++ followers w r
  | [] => []
  end.
Lemma followers_in w v c : contiguous [w; v] c -> In v (followers w c).
Proof.
  intros (a & b & ->). induction a as [|x a IH]; cbn [app followers].
  - rewrite (proj2 (pystr_eqb_eq w w) eq_refl). now left.
  - apply in_or_app. right. exact IH.
Qed.
(** Under Verilator a test of another top level looks for another executable; under Icarus, VCS and DSim the top level of the test is not
    looked at, the design which was built is simulated. *)
Theorem C95_top_refuted : exists m b t bc tc e, build_command Verilator m b = BOk bc /\ test_command Verilator m t = BOk (tc, e) /\ t_build t = b /\
  t_library t = b_library b /\ ~ exists d, makes Verilator (b_dir b) bc d /\ takes Verilator (m_prefix m) (t_dir t) (t_toplevel t) tc d.
Proof.
  exists (ex_machine (fun _ => None)), ex_build, (with_toplevel ex_test (lit "other")). eexists _, _, _.
  split; [vm_compute; reflexivity|]. split; [vm_compute; reflexivity|]. split; [reflexivity|]. split; [reflexivity|].
  intros (d & M & c' & T). cbn [m_prefix ex_machine] in T. injection T as <- _.
  destruct M as (c & dir & exe & I & D & (x & y & O) & E).
  assert (K : In exe (followers (lit "-o") c)) by (apply followers_in; exists x, y; exact O). clear O.
  assert (K2 : In dir (followers (lit "-Mdir") c)) by (apply followers_in; exact D). clear D.
  destruct I as [<-|[<-|[]]]; vm_compute in K, K2; [|exact K]. destruct K as [<-|[]]. destruct K2 as [<-|[]]. discriminate E.
Qed.
Print Assumptions C95_top_refuted.
Theorem C95_top_ignored s m t x : In s [Icarus; Vcs; Dsim] -> test_command s m (with_toplevel t x) = test_command s m t.
Proof. intros [<-|[<-|[<-|[]]]]; reflexivity. Qed.
Print Assumptions C95_top_ignored.

(** * C93: building for waves with Verilator *)
(** The same build with and without waves. *)
Definition build_waves (b : build_in) (w : bool) : build_in :=
  BuildIn (b_library b) (b_sources b) (b_vhdl b) (b_verilog b) (b_includes b) (b_defines b) (b_parameters b) (b_args b) (b_toplevel b)
    (b_always b) (b_verbose b) (b_timescale b) w (b_dir b).
(** Asking for waves adds exactly one word to the first command, before those of the user, and changes the last word of the second. *)
Theorem C93_verilator_build m b on off : build_command Verilator m (build_waves b true) = BOk on -> build_command Verilator m (build_waves b false) = BOk off ->
  exists pre post mk, on = [pre ++ [lit "--trace"] ++ post; mk ++ [lit "VM_TRACE=1"]] /\ off = [pre ++ post; mk ++ [lit "VM_TRACE=0"]] /\
    contiguous (values (b_args b)) post.
Proof.
  cbn [build_command]. unfold verilator_build, build_waves. cbn [b_sources b_verilog b_args b_toplevel b_dir b_waves b_timescale b_defines b_includes b_parameters].
  destruct (m_verilator m) as [x|]; [|discriminate]. destruct (check _) as [u|]; [|discriminate]. cbn [bbind].
  destruct (only_args _ _) as [u'|]; [|discriminate]. cbn [bbind]. destruct (b_toplevel b) as [top|]; [|discriminate].
  intros A B. injection A as <-. injection B as <-.
  exists [x; lit "-cc"; lit "--exe"; lit "-Mdir"; b_dir b; lit "--top-module"; top; lit "--vpi"; lit "--public-flat-rw"; lit "--prefix"; lit "Vtop"; lit "-o"; top;
          lit "-LDFLAGS"; lit "-Wl,-rpath," ++ m_libs_dir m ++ lit " -L" ++ m_libs_dir m ++ lit " -lcocotbvpi_verilator"].
  eexists (values (b_args b) ++ _).
  exists [lit "make"; lit "-j"; m_jobs m; lit "-C"; b_dir b; lit "-f"; lit "Vtop.mk"]. split; [reflexivity|]. split; [reflexivity|]. apply built_here.
Qed.
Print Assumptions C93_verilator_build.
Example C93_verilator_build_ex : exists a b, build_command Verilator (ex_machine (fun _ => Some 1)) (build_waves (t_build ex_test) true) = BOk [a; b] /\
  In (lit "--trace") a /\ In (lit "VM_TRACE=1") b /\
  exists a' b', build_command Verilator (ex_machine (fun _ => Some 1)) (build_waves (t_build ex_test) false) = BOk [a'; b'].
Proof. eexists. eexists. split; [reflexivity|]. split; [cbn; tauto|]. split; [cbn; tauto|]. eexists. eexists. reflexivity. Qed.

(** Command lines of the runners: theorems (C65 building, C66 running). *)
From Verif Require Import Base TextModel ToolsProofs QuoteModel RunnerModel BuildModel BuildSpec BuildProofs.
From Coq Require Import String.
Open Scope Z_scope.

(** * C65: what is built *)

(** The kind of a file is decided by what follows the last dot of its name; without a name before the dot, or with
    an extension which is not in the table, building is refused. *)
Theorem C65_file_type dir base ext : ~ In 47 base -> ~ In 47 ext -> ~ In 46 ext -> ext <> [] ->
  determine_file_type (dir ++ 47 :: base ++ 46 :: ext) =
  match base, extension_kind ext with _ :: _, Some t => BOk t | _, _ => BErr BValue end.
Proof.
  intros B E D N. unfold determine_file_type, path_suffix. rewrite path_name_eq.
  - rewrite last_dot_app by assumption. destruct base as [|c base]; [reflexivity|]. destruct ext as [|x ext]; [congruence|].
    set (e := x :: ext). change (46 :: x :: ext) with (46 :: e). unfold extension_kind, one_of. clearbody e.
    cbn [map fst snd dict_get existsb].
    assert (S : forall w, pystr_eqb (46 :: e) (46 :: w) = pystr_eqb w e).
    { intro w. cbn [pystr_eqb]. rewrite Z.eqb_refl. cbn [andb].
      destruct (pystr_eqb e w) eqn:X, (pystr_eqb w e) eqn:Y; try reflexivity.
      - apply pystr_eqb_eq in X. subst. rewrite pystr_eqb_refl in Y. discriminate.
      - apply pystr_eqb_eq in Y. subst. rewrite pystr_eqb_refl in X. discriminate. }
    change (lit ".v") with (46 :: lit "v"). change (lit ".sv") with (46 :: lit "sv"). change (lit ".vh") with (46 :: lit "vh").
    change (lit ".svh") with (46 :: lit "svh"). change (lit ".vhd") with (46 :: lit "vhd").
    change (lit ".vhdl") with (46 :: lit "vhdl"). change (lit ".vlt") with (46 :: lit "vlt").
    rewrite !S. repeat match goal with |- context [pystr_eqb (lit ?w) e] => destruct (pystr_eqb (lit w) e); [reflexivity|] end.
    reflexivity.
  - intro I. apply in_app_or in I as [I|[I|I]]; [auto|discriminate|auto].
  - destruct base; discriminate.
  - destruct base as [|c [|d base]]; [intro X; injection X as X; congruence|destruct ext; discriminate|intro X; discriminate].
Qed.
Print Assumptions C65_file_type.
Example C65_file_type_ex : determine_file_type (lit "/rtl/top.level.vhdl") = BOk TVHDL /\ determine_file_type (lit "/rtl/top.sv") = BOk TVerilog /\
  determine_file_type (lit "/rtl/.v") = BErr BValue /\ determine_file_type (lit "/rtl/top.V") = BErr BValue.
Proof. repeat split. Qed.

(** The three lists keep their order and their paths; a tag overrides the extension, and only [verilog_sources] and
    [vhdl_sources] refuse tags. *)
Theorem C65_lists abs l r : 
  (set_sources abs l = BOk r -> Forall2 (fun a s => fst s = abs (path_of a) /\ kind_of a = BOk (snd s)) l r) /\
  (set_verilog_sources abs l = BOk r -> Forall2 (fun a s => fst s = abs (path_of a) /\ kind_of a = BOk (snd s) /\ forall p, a <> Tagged TVHDL p) l r) /\
  (set_vhdl_sources abs l = BOk r -> Forall2 (fun a s => fst s = abs (path_of a) /\ kind_of a = BOk (snd s) /\ forall p t, a = Tagged t p -> t = TVHDL) l r).
Proof.
  split; [|split]; intro H; apply set_list_ok in H; revert H; apply Forall2_weaken; intros a s (A & B & C); (split; [assumption|]).
  - assumption.
  - split; [assumption|]. intros p ->. specialize (C _ _ eq_refl). discriminate.
  - split; [assumption|]. intros p t ->. specialize (C _ _ eq_refl). now destruct t.
Qed.
Print Assumptions C65_lists.
Example C65_lists_ex : set_verilog_sources (fun p => lit "/abs/" ++ p) [Plain (lit "a/b.v"); Tagged TVerilog (lit "c.txt"); Plain (lit "d/e.vhd")] =
  BOk [(lit "/abs/a/b.v", TVerilog); (lit "/abs/c.txt", TVerilog); (lit "/abs/d/e.vhd", TVHDL)] /\
  set_verilog_sources (fun p => p) [Tagged TVHDL (lit "a.v")] = BErr BValue.
Proof. split; reflexivity. Qed.

(** The simulators which take all sources in one command get all of them, in the documented order. *)
Theorem C65_sources s m b cmds : one_command s = true -> build_command s m b = BOk cmds -> cmds <> [] ->
  exists c rest, cmds = c :: rest /\ contiguous (map fst (considered s b)) c.
Proof.
  intros O H N. destruct s; try discriminate O; cbn [build_command] in H.
  - unfold icarus_build in H. bok H. apply BOk_inj in H. match type of H with (if ?c then _ else _) = _ => destruct c; [|exfalso; apply N; symmetry; exact H] end. subst cmds.
    eexists _, _. split; [reflexivity|]. change (map fst (considered Icarus b)) with (paths (b_sources b ++ b_verilog b)). contig.
  - unfold qis_build in H. apply BOk_inj in H. subst cmds. eexists _, _. split; [reflexivity|].
    change (map fst (considered QuestaQIS b)) with (paths (b_sources b ++ b_vhdl b ++ b_verilog b)). contig.
  - unfold ghdl_build in H. bok H. apply BOk_inj in H. subst cmds. eexists _, _. split; [reflexivity|].
    change (map fst (considered Ghdl b)) with (paths (b_sources b ++ b_vhdl b)). contig.
  - unfold nvc_build in H. bok H. apply BOk_inj in H. subst cmds. eexists _, _. split; [reflexivity|].
    change (map fst (considered Nvc b)) with (paths (b_sources b ++ b_vhdl b)). contig.
  - unfold verilator_build in H. bok H. apply BOk_inj in H. subst cmds. eexists _, _. split; [reflexivity|].
    change (map fst (considered Verilator b)) with (paths (b_sources b ++ b_verilog b)). contig.
  - unfold xcelium_build in H. bok H. apply BOk_inj in H. subst cmds. eexists _, _. split; [reflexivity|].
    change (map fst (considered Xcelium b)) with (paths (b_sources b ++ b_vhdl b ++ b_verilog b)). contig.
  - unfold vcs_build in H. bok H. match type of H with (if ?c then _ else _) = _ => destruct c; [|exfalso; apply N; symmetry; apply BOk_inj; exact H] end. bok H. apply BOk_inj in H. subst cmds.
    eexists _, _. split; [reflexivity|]. change (map fst (considered Vcs b)) with (paths (b_sources b ++ b_vhdl b ++ b_verilog b)). contig.
  - unfold dsim_build in H. bok H. apply BOk_inj in H. match type of H with (if ?c then _ else _) = _ => destruct c; [|exfalso; apply N; symmetry; exact H] end. subst cmds.
    eexists _, _. split; [reflexivity|]. change (map fst (considered Dsim b)) with (paths (b_sources b ++ b_verilog b)). contig.
Qed.
Print Assumptions C65_sources.
(** Questa compiles the sources one by one, in the documented order, each with the compiler of its language and
    exactly the arguments meant for that language. *)
Theorem C65_questa m b cmds : build_command Questa m b = BOk cmds ->
  exists cs, cmds = [lit "vlib"; b_library b] :: cs /\
  Forall2 (fun src c => snd src <> TControl /\ hd [] c = (if tag_eqb (snd src) TVHDL then lit "vcom" else lit "vlog") /\
    exists before, c = before ++ meant_for (snd src) (b_args b) ++ [fst src]) (considered Questa b) cs.
Proof.
  intro H. cbn [build_command] in H. unfold questa_build in H. bok H. apply BOk_inj in H. subst cmds. eexists. split; [reflexivity|].
  now apply questa_sources_ok.
Qed.
Print Assumptions C65_questa.
(** Likewise the Aldec simulators, as lines of a Tcl script, unless the library is up to date. *)
Theorem C65_aldec m b lines : aldec_script m b = BOk lines ->
  (exists cs, lines = hd [] lines :: (lit "alib " ++ as_tcl_value (b_library b)) :: cs ++ [lit "exit"] /\
    Forall2 (fun src line => snd src <> TControl /\ exists mid, line = (if tag_eqb (snd src) TVHDL then lit "acom " else lit "alog ") ++ mid ++
      join [32] (meant_for (snd src) (b_args b)) ++ [32] ++ as_tcl_value (fst src)) (considered Riviera b) cs) \/
  (lines = [hd [] lines; lit "exit"] /\ b_always b = false /\ exists t, m_mtime m (output_file Riviera b) = Some t /\
    forall p, In p (map fst (considered Riviera b)) -> exists u, m_mtime m p = Some u /\ u <= t).
Proof.
  unfold aldec_script. intro H. apply bbind_ok in H as (old & O & H). apply bbind_ok in H as (body & B & H). apply BOk_inj in H. subst lines.
  destruct (old || b_always b) eqn:E.
  - left. apply bbind_ok in B as (cs & B & X). apply BOk_inj in X. subst body. exists cs. split; [reflexivity|]. now apply (aldec_sources_ok m).
  - right. apply orb_false_iff in E as [-> ->]. apply BOk_inj in B. subst body. split; [reflexivity|]. split; [reflexivity|].
    apply outdated_false in O as (t & M & _ & T). exists t. split; [|exact T]. rewrite <- M. f_equal.
    unfold output_file, slash. change (lit "/") with [47]. now rewrite <- !app_assoc.
Qed.
Print Assumptions C65_aldec.

(** A source which the simulator does not take is refused. *)
Theorem C65_refused s m b cmds : aldec s = false -> build_command s m b = BOk cmds ->
  Forall (fun x => accepts s (snd x) = true) (considered s b).
Proof.
  intros A H. apply Forall_forall. intros x I.
  destruct s; try discriminate A; cbn [build_command] in H; cbn [considered verilog_only vhdl_only] in I.
  - unfold icarus_build in H. bok H. apply check_ok in X. rewrite forallb_forall in X. specialize (X x I). apply tag_eqb_eq in X. now rewrite X.
  - destruct (C65_questa m b cmds H) as (cs & _ & F). assert (T : snd x <> TControl).
    { clear -F I. induction F as [|a c l cs (N & _) F IH]; [destruct I|]. destruct I as [<-|I]; auto. }
    destruct (snd x); [reflexivity|reflexivity|congruence].
  - now destruct (snd x).
  - unfold ghdl_build in H. bok H. apply check_ok in X. rewrite forallb_forall in X. specialize (X x I). apply tag_eqb_eq in X. now rewrite X.
  - unfold nvc_build in H. bok H. apply check_ok in X. rewrite forallb_forall in X. specialize (X x I). apply tag_eqb_eq in X. now rewrite X.
  - unfold verilator_build in H. bok H. apply check_ok in X. rewrite forallb_forall in X. specialize (X x I). destruct (snd x); [reflexivity|discriminate|reflexivity].
  - unfold xcelium_build in H. bok H. apply check_ok in X. rewrite forallb_forall in X. specialize (X x I). destruct (snd x); [reflexivity|reflexivity|discriminate].
  - unfold vcs_build in H. bok H. apply check_ok in X. rewrite forallb_forall in X. specialize (X x I). destruct (snd x); [reflexivity|reflexivity|discriminate].
  - unfold dsim_build in H. bok H. apply check_ok in X. rewrite forallb_forall in X. specialize (X x I). apply tag_eqb_eq in X. now rewrite X.
Qed.
Print Assumptions C65_refused.
(** Conversely a build with a top level, accepted sources which exist, accepted arguments and a simulator which is
    there goes through. *)
Theorem C65_accepted s m b top v : b_toplevel b = Some top -> b_waves b = false -> m_verilator m = Some v ->
  Forall (fun x => accepts s (snd x) = true /\ m_mtime m (fst x) <> None) (considered s b) ->
  Forall (fun a => verilog_only s = true -> snd a <> Some TVHDL) (b_args b) ->
  Forall (fun a => vhdl_only s = true -> snd a <> Some TVerilog) (b_args b) ->
  Forall (fun a => snd a <> Some TControl) (b_args b) ->
  exists cmds, build_command s m b = BOk cmds.
Proof.
  intros T W V F A1 A2 A3.
  assert (OT : forall out, exists old, outdated (m_mtime m) out (paths (considered s b)) = BOk old).
  { intro out. unfold outdated. destruct (m_mtime m out); [|eauto].
    destruct (newest_total (m_mtime m) (paths (considered s b)) 0) as [r ->]; [|cbn; eauto].
    intros p I. apply in_map_iff in I as (x & <- & I). rewrite Forall_forall in F. now apply F. }
  assert (AV : verilog_only s = true -> forallb (fun a => tag_fits TVerilog (snd a)) (b_args b) = true).
  { intro VO. apply forallb_forall. intros a I. rewrite Forall_forall in A1, A3. specialize (A1 a I VO). specialize (A3 a I).
    destruct (snd a) as [[]|]; try reflexivity; congruence. }
  assert (AH : vhdl_only s = true -> forallb (fun a => tag_fits TVHDL (snd a)) (b_args b) = true).
  { intro VO. apply forallb_forall. intros a I. rewrite Forall_forall in A2, A3. specialize (A2 a I VO). specialize (A3 a I).
    destruct (snd a) as [[]|]; try reflexivity; congruence. }
  assert (G : forall P : pystr * tag -> bool, (forall x, accepts s (snd x) = true -> P x = true) -> forallb P (considered s b) = true).
  { intros P H. apply forallb_forall. intros x I. rewrite Forall_forall in F. apply H. now apply F. }
  destruct s; cbn [build_command]; unfold considered in OT, G; cbn [verilog_only vhdl_only] in OT, G, AV, AH.
  - unfold icarus_build. rewrite T. cbv zeta. unfold only, only_args. rewrite (G (fun s => tag_eqb (snd s) TVerilog)), AV; [|reflexivity|intros [? []]; cbn; congruence]. cbn [check bbind].
    destruct (OT (slash (b_dir b) (lit "sim.vvp"))) as [old ->]. cbn [bbind]. eauto.
  - unfold questa_build. assert (Q : forall l, Forall (fun x => accepts Questa (snd x) = true) l -> exists cs, questa_sources b l = BOk cs).
    { induction l as [|[p t] l IH]; intro H; [cbn; eauto|]. inversion H as [|? ? H1 H2]; subst. destruct (IH H2) as [cs E]. cbn [questa_sources].
      destruct t; [| |discriminate H1]; cbn [snd bbind]; rewrite E; cbn [bbind]; eauto. }
    destruct (Q (b_sources b ++ b_vhdl b ++ b_verilog b)) as [cs ->]; [|cbn [bbind]; eauto].
    revert F. apply Forall_impl. now intros a [H _].
  - unfold qis_build. eauto.
  - unfold ghdl_build. cbv zeta. unfold only, only_args. rewrite (G (fun s => tag_eqb (snd s) TVHDL)), AH; [|reflexivity|intros [? []]; cbn; congruence]. cbn [check bbind]. eauto.
  - unfold nvc_build. cbv zeta. unfold only, only_args. rewrite (G (fun s => tag_eqb (snd s) TVHDL)), AH; [|reflexivity|intros [? []]; cbn; congruence]. cbn [check bbind]. eauto.
  - unfold aldec_build, aldec_script. cbv zeta.
    assert (Q : forall l, Forall (fun x => accepts Riviera (snd x) = true) l -> exists cs, aldec_sources m b l = BOk cs).
    { induction l as [|[p t] l IH]; intro H; [cbn; eauto|]. inversion H as [|? ? H1 H2]; subst. destruct (IH H2) as [cs E]. cbn [aldec_sources].
      destruct t; [| |discriminate H1]; cbn [snd bbind]; rewrite E; cbn [bbind]; eauto. }
    destruct (OT (slash (slash (b_dir b) (b_library b)) (b_library b ++ lit ".lib"))) as [old ->]. cbn [bbind].
    destruct (old || b_always b); cbn [bbind]; [|eauto].
    destruct (Q (b_sources b ++ b_vhdl b ++ b_verilog b)) as [cs ->]; [|cbn [bbind]; eauto].
    revert F. apply Forall_impl. now intros a [H _].
  - unfold aldec_build, aldec_script. cbv zeta.
    assert (Q : forall l, Forall (fun x => accepts ActiveHDL (snd x) = true) l -> exists cs, aldec_sources m b l = BOk cs).
    { induction l as [|[p t] l IH]; intro H; [cbn; eauto|]. inversion H as [|? ? H1 H2]; subst. destruct (IH H2) as [cs E]. cbn [aldec_sources].
      destruct t; [| |discriminate H1]; cbn [snd bbind]; rewrite E; cbn [bbind]; eauto. }
    destruct (OT (slash (slash (b_dir b) (b_library b)) (b_library b ++ lit ".lib"))) as [old ->]. cbn [bbind].
    destruct (old || b_always b); cbn [bbind]; [|eauto].
    destruct (Q (b_sources b ++ b_vhdl b ++ b_verilog b)) as [cs ->]; [|cbn [bbind]; eauto].
    revert F. apply Forall_impl. now intros a [H _].
  - unfold verilator_build. rewrite V, T. cbv zeta. unfold only_args. rewrite (G (fun s => negb (tag_eqb (snd s) TVHDL))), AV; [|reflexivity|intros [? []]; cbn; congruence]. cbn [check bbind]. eauto.
  - unfold xcelium_build. rewrite W, T. cbv zeta. rewrite (G (fun s => negb (tag_eqb (snd s) TControl))); [|intros [? []]; cbn; congruence]. cbn [check bbind]. eauto.
  - unfold vcs_build. cbv zeta. rewrite (G (fun s => negb (tag_eqb (snd s) TControl))); [|intros [? []]; cbn; congruence]. cbn [check bbind].
    destruct (OT (slash (b_dir b) (lit "simv"))) as [old ->]. cbn [bbind]. destruct (_ || _); [rewrite T|]; eauto.
  - unfold dsim_build. cbv zeta. unfold only, only_args. rewrite (G (fun s => tag_eqb (snd s) TVerilog)), AV; [|reflexivity|intros [? []]; cbn; congruence]. cbn [check bbind].
    destruct (OT (slash (b_dir b) (lit "image.so"))) as [old ->]. cbn [bbind]. eauto.
Qed.
Print Assumptions C65_accepted.

(** A skipped build: nothing is compiled only if compiling was not demanded and no source is newer than the output. *)
Theorem C65_skip s m b : build_command s m b = BOk [] ->
  may_skip s = true /\ b_always b = false /\ exists t, m_mtime m (output_file s b) = Some t /\
  forall p, In p (map fst (considered s b)) -> exists u, m_mtime m p = Some u /\ u <= t.
Proof.
  intro H. destruct s; cbn [build_command] in H.
  - unfold icarus_build in H. bok H. apply BOk_inj in H. destruct (v1 || b_always b) eqn:E'; [discriminate H|].
    apply orb_false_iff in E' as [-> ->]. split; [reflexivity|]. split; [reflexivity|].
    apply outdated_false in X1 as (t & M & _ & T). exists t. split; assumption.
  - unfold questa_build in H. bok H. discriminate H.
  - discriminate H.
  - unfold ghdl_build in H. bok H. discriminate H.
  - unfold nvc_build in H. bok H. discriminate H.
  - unfold aldec_build in H. bok H. discriminate H.
  - unfold aldec_build in H. bok H. discriminate H.
  - unfold verilator_build in H. bok H. discriminate H.
  - unfold xcelium_build in H. bok H. discriminate H.
  - unfold vcs_build in H. bok H. destruct (v0 || b_always b) eqn:E'; [bok H; discriminate H|].
    apply orb_false_iff in E' as [-> ->]. split; [reflexivity|]. split; [reflexivity|].
    apply outdated_false in X0 as (t & M & _ & T). exists t. split; assumption.
  - unfold dsim_build in H. bok H. apply BOk_inj in H. destruct (v1 || b_always b) eqn:E'; [discriminate H|].
    apply orb_false_iff in E' as [-> ->]. split; [reflexivity|]. split; [reflexivity|].
    apply outdated_false in X1 as (t & M & _ & T). exists t. split; assumption.
Qed.
Print Assumptions C65_skip.
Definition ex_machine (mtime : pystr -> option Z) := Machine mtime [lit "time"] [lit "-x"] (fun i s => lit "/libs/" ++ lit i ++ lit "_" ++ lit s)
  (fun _ => true) (Some (lit "/bin/verilator")) (lit "/libs") (lit "/v.cpp") (lit "4") true false (lit "/tmp/do").
Definition ex_build := BuildIn (lit "top") [(lit "/s/a.sv", TVerilog)] [] [(lit "/s/b.v", TVerilog)] [lit "/inc"] [(lit "N", lit "8")]
  [(lit "W", lit "3")] [(lit "-O", None); (lit "-sv17", Some TVerilog)] (Some (lit "dut")) false false None false (lit "/d").
Example C65_icarus_ex : build_command Icarus (ex_machine (fun p => if pystr_eqb p (lit "/d/sim.vvp") then Some 5 else Some 6)) ex_build =
  BOk [map lit ["iverilog"; "-o"; "/d/sim.vvp"; "-s"; "dut"; "-g2012"; "-DN=8"; "-I/inc"; "-Pdut.W=3"; "-O"; "-sv17"; "/s/a.sv"; "/s/b.v"]%string] /\
  build_command Icarus (ex_machine (fun p => if pystr_eqb p (lit "/d/sim.vvp") then Some 6 else Some 6)) ex_build = BOk [].
Proof. split; vm_compute; reflexivity. Qed.
Example C65_questa_ex : build_command Questa (ex_machine (fun _ => None)) (with_ignored ex_build [(lit "/s/c.vhd", TVHDL)] []) =
  BOk [map lit ["vlib"; "top"]%string; map lit ["vlog"; "-quiet"; "-incr"; "-work"; "top"; "-sv"; "+define+N=8"; "+incdir+/inc"; "-O"; "-sv17"; "/s/a.sv"]%string;
       map lit ["vcom"; "-quiet"; "-work"; "top"; "-O"; "/s/c.vhd"]%string].
Proof. vm_compute. reflexivity. Qed.
Example C65_aldec_ex : exists lines, aldec_script (ex_machine (fun _ => None)) ex_build = BOk lines /\
  nth 3 lines [] = lit "alog -work top -pli /libs/vpi_riviera -sv '+define+N=8' +incdir+/inc -O -sv17 /s/b.v".
Proof. eexists. split; vm_compute; reflexivity. Qed.
Example C65_accepted_ex : exists cmds, build_command Verilator (ex_machine (fun _ => Some 1)) ex_build = BOk cmds.
Proof.
  apply (C65_accepted Verilator (ex_machine (fun _ => Some 1)) ex_build (lit "dut") (lit "/bin/verilator")); try reflexivity;
    repeat constructor; cbn; try discriminate; intros; discriminate.
Qed.

(** Defines, include directories, parameters and build arguments reach every simulator which compiles all sources
    in one command and knows Verilog, each group in order. *)
Theorem C65_options s m b cmds top : In s [Icarus; QuestaQIS; Verilator; Vcs; Dsim] -> b_toplevel b = Some top ->
  build_command s m b = BOk cmds -> cmds <> [] ->
  exists c rest, cmds = c :: rest /\ contiguous (map (define_opt s) (b_defines b)) c /\ contiguous (map (include_opt s) (b_includes b)) c /\
    contiguous (map (parameter_opt s top) (b_parameters b)) c /\ contiguous (map fst (b_args b)) c.
Proof.
  intros I T H N. cbn [In] in I. destruct I as [<-|[<-|[<-|[<-|[<-|[]]]]]]; cbn [build_command] in H.
  - unfold icarus_build in H. rewrite T in H. bok H. apply BOk_inj in H. match type of H with (if ?c then _ else _) = _ => destruct c; [|exfalso; apply N; symmetry; exact H] end. subst cmds.
    eexists _, _. split; [reflexivity|].
    assert (P : map (parameter_opt Icarus top) (b_parameters b) = assigned (lit "-P" ++ top ++ lit ".") (b_parameters b)) by reflexivity.
    rewrite P. change (map (define_opt Icarus) (b_defines b)) with (assigned (lit "-D") (b_defines b)).
    change (map (include_opt Icarus) (b_includes b)) with (prefixed "-I" (b_includes b)).
    change (map fst (b_args b)) with (values (b_args b)).
    split; [contig|]. split; [contig|]. split; [contig|].
    do 4 apply contig_app. apply contig_left, contig_left. contig.
  - unfold qis_build in H. apply BOk_inj in H. subst cmds. eexists _, _. split; [reflexivity|].
    change (map (define_opt QuestaQIS) (b_defines b)) with (assigned (lit "+define+") (b_defines b)).
    change (map (include_opt QuestaQIS) (b_includes b)) with (prefixed "+incdir+" (b_includes b)).
    change (map (parameter_opt QuestaQIS top) (b_parameters b)) with (assigned (lit "-g") (b_parameters b)).
    change (map fst (b_args b)) with (values (b_args b)).
    split; [contig|]. split; [contig|]. split; [contig|]. contig.
  - unfold verilator_build in H. rewrite T in H. bok H. apply BOk_inj in H. subst cmds. eexists _, _. split; [reflexivity|].
    change (map (define_opt Verilator) (b_defines b)) with (assigned (lit "-D") (b_defines b)).
    change (map (include_opt Verilator) (b_includes b)) with (prefixed "-I" (b_includes b)).
    change (map (parameter_opt Verilator top) (b_parameters b)) with (assigned (lit "-G") (b_parameters b)).
    change (map fst (b_args b)) with (values (b_args b)).
    split; [contig|]. split; [contig|]. split; [contig|]. contig.
  - unfold vcs_build in H. rewrite T in H. bok H. match type of H with (if ?c then _ else _) = _ => destruct c; [|exfalso; apply N; symmetry; apply BOk_inj; exact H] end. apply BOk_inj in H. subst cmds.
    eexists _, _. split; [reflexivity|].
    change (map (define_opt Vcs) (b_defines b)) with (assigned (lit "+define+") (b_defines b)).
    change (map (include_opt Vcs) (b_includes b)) with (prefixed "+incdir+" (b_includes b)).
    change (map (parameter_opt Vcs top) (b_parameters b)) with (assigned (lit "-pvalue+" ++ top ++ lit ".") (b_parameters b)).
    change (map fst (b_args b)) with (values (b_args b)).
    split; [contig|]. split; [contig|]. split; [contig|]. contig.
  - unfold dsim_build in H. bok H. apply BOk_inj in H. match type of H with (if ?c then _ else _) = _ => destruct c; [|exfalso; apply N; symmetry; exact H] end. subst cmds.
    eexists _, _. split; [reflexivity|].
    change (map (define_opt Dsim) (b_defines b)) with (assigned (lit "+define+") (b_defines b)).
    change (map (include_opt Dsim) (b_includes b)) with (prefixed "+incdir+" (b_includes b)).
    change (map (parameter_opt Dsim top) (b_parameters b)) with (assigned (lit "-defparam ") (b_parameters b)).
    change (map fst (b_args b)) with (values (b_args b)).
    split; [contig|]. split; [contig|]. split; [contig|]. contig.
Qed.
Print Assumptions C65_options.

(** The list of the other language is dropped without a word by a simulator of one language. *)
Theorem C65_ignored_refuted : exists s m b vhdl verilog cmds, build_command s m (with_ignored b vhdl verilog) = BOk cmds /\ cmds <> [] /\
  exists p, In p (map fst vhdl) /\ forall c, In c cmds -> ~ In p c.
Proof.
  exists Icarus, (ex_machine (fun _ => None)), ex_build, [(lit "/s/c.vhd", TVHDL)], [(lit "/s/b.v", TVerilog)]. eexists.
  split; [vm_compute; reflexivity|]. split; [discriminate|]. exists (lit "/s/c.vhd"). split; [left; reflexivity|].
  intros c [<-|[]] I. cbn in I. repeat (destruct I as [I|I]; [discriminate I|]). destruct I.
Qed.
Print Assumptions C65_ignored_refuted.
Theorem C65_ignored s m b vhdl : verilog_only s = true -> build_command s m (with_ignored b vhdl (b_verilog b)) = build_command s m b.
Proof. intro H. destruct s; try discriminate H; destruct b; reflexivity. Qed.
Print Assumptions C65_ignored.
Theorem C65_ignored_vhdl s m b verilog : vhdl_only s = true -> build_command s m (with_ignored b (b_vhdl b) verilog) = build_command s m b.
Proof. intro H. destruct s; try discriminate H; destruct b; reflexivity. Qed.
Print Assumptions C65_ignored_vhdl.
(** New defines, parameters and include directories do not lead to a new build. *)
Theorem C65_stale_refuted : exists s m b includes defines parameters, build_command s m b = BOk [] /\
  b_defines b <> defines /\ b_parameters b <> parameters /\ b_includes b <> includes /\
  build_command s m (with_settings b includes defines parameters) = BOk [].
Proof.
  exists Icarus, (ex_machine (fun _ => Some 6)), ex_build, [lit "/other"], [(lit "N", lit "9")], [(lit "W", lit "4")].
  split; [vm_compute; reflexivity|]. split; [discriminate|]. split; [discriminate|]. split; [discriminate|]. vm_compute. reflexivity.
Qed.
Print Assumptions C65_stale_refuted.
(** Arguments tagged for the other language are passed all the same by VCS, Xcelium and QuestaQIS. *)
Theorem C65_tag_refuted : forall s, In s [QuestaQIS; Xcelium; Vcs] -> exists m b cmds c,
  Forall (fun x => snd x = TVerilog) (considered s b) /\ In (lit "-only-vhdl", Some TVHDL) (b_args b) /\
  build_command s m b = BOk cmds /\ In c cmds /\ In (lit "-only-vhdl") c.
Proof.
  intros s I. exists (ex_machine (fun _ => None)).
  exists (BuildIn (lit "top") [(lit "/s/a.sv", TVerilog)] [] [] [] [] [] [(lit "-only-vhdl", Some TVHDL)] (Some (lit "dut")) false false None false (lit "/d")).
  cbn [In] in I. destruct I as [<-|[<-|[<-|[]]]]; eexists; eexists; (split; [repeat constructor|]); (split; [left; reflexivity|]);
    (split; [vm_compute; reflexivity|]); (split; [left; reflexivity|]); cbn; repeat (try (left; reflexivity); right).
Qed.
Print Assumptions C65_tag_refuted.
(** VCS, which does not support VHDL, takes VHDL sources. *)
Theorem C65_vcs_refuted : exists m b cmds c p, supports_lang Vcs true = false /\ In (p, TVHDL) (b_sources b) /\ build_command Vcs m b = BOk cmds /\ In c cmds /\ In p c.
Proof.
  exists (ex_machine (fun _ => None)), (BuildIn (lit "top") [(lit "/s/a.vhd", TVHDL)] [] [] [] [] [] [] (Some (lit "dut")) false false None false (lit "/d")).
  eexists. eexists. exists (lit "/s/a.vhd"). split; [reflexivity|]. split; [left; reflexivity|]. split; [vm_compute; reflexivity|]. split; [left; reflexivity|].
  cbn. repeat (try (left; reflexivity); right).
Qed.
Print Assumptions C65_vcs_refuted.
(** On Xcelium a define is not taken literally: its value becomes a string literal. *)
Theorem C65_xcelium_define_refuted : exists m b cmds c, b_defines b = [(lit "N", lit "8")] /\ build_command Xcelium m b = BOk cmds /\ In c cmds /\
  In (lit "-define N=""8""") c.
Proof.
  exists (ex_machine (fun _ => None)), ex_build. eexists. eexists. split; [reflexivity|]. split; [vm_compute; reflexivity|]. split; [left; reflexivity|].
  cbn. repeat (try (left; reflexivity); right).
Qed.
Print Assumptions C65_xcelium_define_refuted.

(** The language of the top level: a language given is taken if the simulator has it; otherwise it is that of the
    only list with sources, for [sources] that of its last file. *)
Theorem C65_lang s l sources vhdl verilog r : check_toplevel_lang s l sources vhdl verilog = BOk r ->
  r <> Lother /\ supports_lang s (match r with Lvhdl => true | _ => false end) = true /\
  match l with
  | Some l => r = l
  | None => (sources = [] /\ verilog = [] /\ vhdl <> [] /\ r = Lvhdl) \/ (sources = [] /\ vhdl = [] /\ verilog <> [] /\ r = Lverilog) \/
      (vhdl = [] /\ verilog = [] /\ exists xs x, sources = xs ++ [x] /\ r = match snd x with TVHDL => Lvhdl | _ => Lverilog end /\ snd x <> TControl)
  end.
Proof.
  unfold check_toplevel_lang. intro H. apply bbind_ok in H as (l' & L & H).
  assert (R : r = l' /\ l' <> Lother /\ supports_lang s (match l' with Lvhdl => true | _ => false end) = true).
  { destruct l'; [destruct (supports_lang s false) eqn:E|destruct (supports_lang s true) eqn:E|]; try discriminate H; apply BOk_inj in H; subst r;
      (split; [reflexivity|]); (split; [discriminate|first [assumption | reflexivity]]). }
  destruct R as (-> & R1 & R2). split; [assumption|]. split; [assumption|].
  destruct l as [l|]; [apply BOk_inj in L; congruence|].
  destruct sources as [|x xs], vhdl as [|v vs], verilog as [|g gs]; try discriminate L.
  - apply BOk_inj in L. right. left. split; [reflexivity|]. split; [reflexivity|]. split; [discriminate|congruence].
  - apply BOk_inj in L. left. split; [reflexivity|]. split; [reflexivity|]. split; [discriminate|congruence].
  - right. right. split; [reflexivity|]. split; [reflexivity|].
    destruct (last_snoc xs x) as [ys E]. exists ys, (last xs x). split; [assumption|]. destruct (snd (last xs x)); try discriminate L; apply BOk_inj in L; (split; [congruence|discriminate]).
Qed.
Print Assumptions C65_lang.
Example C65_lang_ex : check_toplevel_lang Questa None [(lit "a.v", TVerilog); (lit "b.vhd", TVHDL)] [] [] = BOk Lvhdl /\
  check_toplevel_lang Icarus None [(lit "a.v", TVerilog); (lit "b.vhd", TVHDL)] [] [] = BErr BValue /\
  check_toplevel_lang Questa None [(lit "a.v", TVerilog)] [(lit "b.vhd", TVHDL)] [] = BErr BValue.
Proof. repeat split. Qed.

(** * C66: what is run *)

(** The arguments for the simulator and the plusargs reach the last command, each group in order; the prefix of the
    user comes first and the suffix last (except for DSim). *)
Theorem C66_args s m t cmds e : aldec s = false -> test_command s m t = BOk (cmds, e) ->
  exists c, In c cmds /\ contiguous (t_args t) c /\ contiguous (t_plus t) c /\
    (s <> Dsim -> exists mid, c = m_prefix m ++ mid ++ m_suffix m).
Proof.
  intros A H. destruct s; try discriminate A; cbn [test_command] in H.
  - unfold icarus_test in H. tok H. apply BOk_inj, pair_inj in H as [<- _]. eexists. split; [left; reflexivity|].
    split; [contig|]. split; [contig|]. intros _. apply wrapped. repeat first [apply ends_here | apply ends_app].
  - unfold questa_test in H. tok H. apply BOk_inj, pair_inj in H as [<- _]. eexists. split; [left; reflexivity|].
    split; [contig|]. split; [contig|]. intros _. apply wrapped. repeat first [apply ends_here | apply ends_app].
  - unfold qis_test in H. tok H. apply BOk_inj, pair_inj in H as [<- _]. eexists. split; [left; reflexivity|].
    split; [contig|]. split; [contig|]. intros _. apply wrapped. repeat first [apply ends_here | apply ends_app].
  - unfold ghdl_test in H. tok H. apply BOk_inj, pair_inj in H as [<- _]. eexists. split; [left; reflexivity|].
    split; [contig|]. split; [contig|]. intros _. apply wrapped. repeat first [apply ends_here | apply ends_app].
  - unfold nvc_test in H. tok H. apply BOk_inj, pair_inj in H as [<- _]. eexists. split; [left; reflexivity|].
    split; [contig|]. split; [contig|]. intros _. apply wrapped. repeat first [apply ends_here | apply ends_app].
  - unfold verilator_test in H. tok H. apply BOk_inj, pair_inj in H as [<- _]. eexists. split; [left; reflexivity|].
    split; [contig|]. split; [contig|]. intros _. apply wrapped. repeat first [apply ends_here | apply ends_app].
  - unfold xcelium_test in H. tok H. apply BOk_inj, pair_inj in H as [<- _]. eexists. split; [right; left; reflexivity|].
    split; [contig|]. split; [contig|]. intros _. apply wrapped. repeat first [apply ends_here | apply ends_app].
  - unfold vcs_test in H. tok H. apply BOk_inj, pair_inj in H as [<- _]. eexists. split; [left; reflexivity|].
    split; [contig|]. split; [contig|]. intros _. apply wrapped. repeat first [apply ends_here | apply ends_app].
  - unfold dsim_test in H. tok H. apply BOk_inj, pair_inj in H as [<- _]. eexists. split; [left; reflexivity|].
    split; [contig|]. split; [contig|]. intro X. congruence.
Qed.
Print Assumptions C66_args.
(** For the Aldec simulators the arguments are words of the [asim] command of the script. *)
Theorem C66_aldec r m t script : aldec_test_script r m t = BOk script ->
  contiguous (asim_line (t_vhdl t) (m_lib m (if t_vhdl t then "vhpi" else "vpi")%string "riviera")
    (t_args t ++ map (fun nv => lit "-g" ++ fst nv ++ lit "=" ++ snd nv) (t_parameters t)) (t_library t ++ lit "." ++ t_toplevel t) (t_plus t)) script /\
  forall l, t_pre t = Some l -> r = true /\ contiguous (flat_map (fun s => s ++ lit "; ") l) script.
Proof.
  unfold aldec_test_script. cbv zeta. intro H. apply bbind_ok in H as (pre & P & H). apply BOk_inj in H. subst script. split; [|intros l E].
  - apply contig_app, contig_here.
  - rewrite E in P. destruct r; [|discriminate P]. split; [reflexivity|]. apply BOk_inj in P. subst pre. do 2 apply contig_app. apply contig_left, contig_here.
Qed.
Print Assumptions C66_aldec.
Definition ex_test := TestIn (lit "dut") (lit "top") false ["vpi"; "fli"]%string [lit "-el"] [lit "-a"; lit "-b"] [lit "+p"] true false false None None
  [(lit "W", lit "3")] (lit "/t") (lit "test") ex_build.
Example C66_ex : test_command Questa (ex_machine (fun _ => None)) ex_test = BOk ([map lit ["time"; "vsim"; "-quiet"; "-c"; "-onfinish"; "exit"; "-pli";
  "/libs/vpi_questa"; "-a"; "-b"; "-gW=3"; "top.dut"; "+p"; "-do"; "log -recursive /*;run -all; quit"; "-x"]%string],
  [(lit "GPI_EXTRA", lit "/libs/fli_questa:cocotbfli_entry_point")]).
Proof. vm_compute. reflexivity. Qed.
Example C66_aldec_ex : exists script, aldec_test_script true (ex_machine (fun _ => None)) (with_pre ex_test (Some [lit "do a.do"; lit "do b.do"])) = BOk script.
Proof. eexists. vm_compute. reflexivity. Qed.

(** Parameters reach the simulator in exactly one of the two steps. *)
Theorem C66_parameters_test s m t cmds e : at_build s = false -> aldec s = false -> test_command s m t = BOk (cmds, e) ->
  exists c, In c cmds /\ contiguous (map (fun nv => lit "-g" ++ fst nv ++ lit "=" ++ snd nv) (t_parameters t)) c.
Proof.
  intros B A H. change (map _ (t_parameters t)) with (assigned (lit "-g") (t_parameters t)).
  destruct s; try discriminate A; try discriminate B; cbn [test_command] in H.
  - unfold questa_test in H. tok H. apply BOk_inj, pair_inj in H as [<- _]. eexists. split; [left; reflexivity|]. contig.
  - unfold ghdl_test in H. tok H. apply BOk_inj, pair_inj in H as [<- _]. eexists. split; [left; reflexivity|]. contig.
  - unfold nvc_test in H. tok H. apply BOk_inj, pair_inj in H as [<- _]. eexists. split; [left; reflexivity|]. contig.
Qed.
Print Assumptions C66_parameters_test.
Theorem C66_parameters_once s m b p t q :
  (at_build s = false -> build_command s m (with_settings b (b_includes b) (b_defines b) p) = build_command s m b) /\
  (at_build s = true -> test_command s m (with_parameters t q) = test_command s m t).
Proof.
  split; intro H; destruct s; try discriminate H; try (destruct t; reflexivity).
  - destruct b as [lib src vh ve inc def par args top al vb ts wv dir]. cbn [build_command with_settings b_includes b_defines].
    unfold questa_build. cbn [b_sources b_vhdl b_verilog b_library].
    assert (E : forall l, questa_sources (BuildIn lib src vh ve inc def p args top al vb ts wv dir) l =
                     questa_sources (BuildIn lib src vh ve inc def par args top al vb ts wv dir) l).
    { induction l as [|x l IH]; [reflexivity|]. cbn [questa_sources]. rewrite IH. reflexivity. }
    cbn. rewrite E. reflexivity.
  - destruct b as [lib src vh ve inc def par args top al vb ts wv dir]. cbn [build_command with_settings b_includes b_defines].
    assert (E : forall l, aldec_sources m (BuildIn lib src vh ve inc def p args top al vb ts wv dir) l =
                     aldec_sources m (BuildIn lib src vh ve inc def par args top al vb ts wv dir) l).
    { induction l as [|x l IH]; [reflexivity|]. cbn [aldec_sources]. rewrite IH. reflexivity. }
    unfold aldec_build, aldec_script. cbn [b_library b_sources b_vhdl b_verilog b_includes b_defines b_args b_toplevel b_always b_verbose b_timescale b_waves b_dir]. rewrite E. reflexivity.
  - destruct b as [lib src vh ve inc def par args top al vb ts wv dir]. cbn [build_command with_settings b_includes b_defines].
    assert (E : forall l, aldec_sources m (BuildIn lib src vh ve inc def p args top al vb ts wv dir) l =
                     aldec_sources m (BuildIn lib src vh ve inc def par args top al vb ts wv dir) l).
    { induction l as [|x l IH]; [reflexivity|]. cbn [aldec_sources]. rewrite IH. reflexivity. }
    unfold aldec_build, aldec_script. cbn [b_library b_sources b_vhdl b_verilog b_includes b_defines b_args b_toplevel b_always b_verbose b_timescale b_waves b_dir]. rewrite E. reflexivity.
Qed.
Print Assumptions C66_parameters_once.
(** So parameters given to [test] do nothing on six simulators, although the documentation of [test] has them. *)
Theorem C66_parameters_refuted : exists s m t cmds e, t_parameters t <> [] /\ test_command s m t = BOk (cmds, e) /\
  test_command s m (with_parameters t []) = BOk (cmds, e) /\ s <> QuestaQIS.
Proof.
  exists Icarus, (ex_machine (fun _ => None)), ex_test. eexists. eexists. split; [discriminate|]. split; [vm_compute; reflexivity|].
  split; [vm_compute; reflexivity|discriminate].
Qed.
Print Assumptions C66_parameters_refuted.

(** [pre_cmd]: an error, or passed on; NVC ignores it though it does not support it. *)
Theorem C66_pre_cmd s m t l : t_pre t = Some l -> In s [Icarus; Ghdl; ActiveHDL; Verilator; Xcelium; Vcs; Dsim] -> test_command s m t = BErr BRuntime.
Proof.
  intros P I. cbn [In] in I. destruct I as [<-|[<-|[<-|[<-|[<-|[<-|[<-|[]]]]]]]]; cbn [test_command];
    unfold icarus_test, ghdl_test, aldec_test, aldec_test_script, verilator_test, xcelium_test, vcs_test, dsim_test, no_pre; rewrite P; reflexivity.
Qed.
Print Assumptions C66_pre_cmd.
Theorem C66_pre_cmd_questa s m t l cmds e : In s [Questa; QuestaQIS] -> t_pre t = Some l -> test_command s m t = BOk (cmds, e) ->
  exists c, In c cmds /\ contiguous (lit "-do" :: l) c.
Proof.
  intros I P H. cbn [In] in I. assert (PO : pre_opts t = lit "-do" :: l) by (unfold pre_opts; now rewrite P).
  destruct I as [<-|[<-|[]]]; cbn [test_command] in H; [unfold questa_test in H|unfold qis_test in H]; rewrite PO in H; tok H;
    apply BOk_inj, pair_inj in H as [<- _]; eexists; (split; [left; reflexivity|]); contig.
Qed.
Print Assumptions C66_pre_cmd_questa.
Example C66_pre_cmd_ex : exists cmds e, test_command Questa (ex_machine (fun _ => None)) (with_pre ex_test (Some [lit "do a.do"])) = BOk (cmds, e).
Proof. eexists. eexists. vm_compute. reflexivity. Qed.
Theorem C66_pre_cmd_nvc_refuted : exists m t l, t_pre t = Some l /\ l <> [] /\ test_command Nvc m t = test_command Nvc m (with_pre t None) /\
  exists r, test_command Nvc m t = BOk r.
Proof.
  exists (ex_machine (fun _ => None)), (with_pre ex_test (Some [lit "x"])), [lit "x"].
  split; [reflexivity|]. split; [discriminate|]. split; [reflexivity|]. eexists. reflexivity.
Qed.
Print Assumptions C66_pre_cmd_nvc_refuted.
(** Only the first command of [pre_cmd] follows a [-do] on Questa; a second one becomes a stray argument. *)
Theorem C66_pre_cmd_second_refuted : exists m t c e, t_pre t = Some [lit "do a.do"; lit "do b.do"] /\ test_command Questa m t = BOk ([c], e) /\
  contiguous [lit "-do"; lit "do a.do"; lit "do b.do"; lit "-do"] c /\ count_occ (list_eq_dec Z.eq_dec) c (lit "do b.do") = 1%nat.
Proof.
  exists (ex_machine (fun _ => None)), (with_pre ex_test (Some [lit "do a.do"; lit "do b.do"])). eexists. eexists. split; [reflexivity|].
  split; [vm_compute; reflexivity|]. split; [|vm_compute; reflexivity].
  exists (map lit ["time"; "vsim"; "-quiet"; "-c"; "-onfinish"; "exit"; "-pli"; "/libs/vpi_questa"; "-a"; "-b"; "-gW=3"; "top.dut"; "+p"]%string),
    (map lit ["log -recursive /*;run -all; quit"; "-x"]%string). vm_compute. reflexivity.
Qed.
Print Assumptions C66_pre_cmd_second_refuted.

(** Elaboration arguments reach NVC only. *)
Theorem C66_elab s m t l : s <> Nvc -> test_command s m (with_elab t l) = test_command s m t.
Proof. intro N. destruct s; try congruence; destruct t; reflexivity. Qed.
Print Assumptions C66_elab.
Theorem C66_elab_nvc m t : exists c, test_command Nvc m t = BOk ([c], []) /\ contiguous (t_elab t) c.
Proof. eexists. split; [reflexivity|]. contig. Qed.
Print Assumptions C66_elab_nvc.
Theorem C66_elab_refuted : exists s m t l, l <> t_elab t /\ test_command s m (with_elab t l) = test_command s m t /\ exists r, test_command s m t = BOk r.
Proof.
  exists Ghdl, (ex_machine (fun _ => None)), ex_test, []. split; [discriminate|]. split; [reflexivity|]. eexists. vm_compute. reflexivity.
Qed.
Print Assumptions C66_elab_refuted.
(** DSim is not run under the user's prefix. *)
Theorem C66_dsim_prefix_refuted : exists m t cmds e, m_prefix m <> [] /\ test_command Dsim m t = BOk (cmds, e) /\
  forall c w, In c cmds -> In w (m_prefix m ++ m_suffix m) -> ~ In w c.
Proof.
  exists (ex_machine (fun _ => None)), ex_test. eexists. eexists. split; [discriminate|]. split; [vm_compute; reflexivity|].
  intros c w [<-|[]] [<-|[<-|[]]] I; cbn in I; repeat (destruct I as [I|I]; [discriminate I|]); destruct I.
Qed.
Print Assumptions C66_dsim_prefix_refuted.
(** Without the GUI an empty argument is passed to xrun. *)
Theorem C66_xcelium_empty_refuted : forall m t cmds e, t_gui t = false -> test_command Xcelium m t = BOk (cmds, e) -> exists c, In c cmds /\ In [] c.
Proof.
  intros m t cmds e G H. cbn [test_command] in H. unfold xcelium_test in H. tok H. apply BOk_inj, pair_inj in H as [<- _].
  eexists. split; [right; left; reflexivity|]. rewrite G. rewrite !in_app_iff. do 7 right. left. left. reflexivity.
Qed.
Print Assumptions C66_xcelium_empty_refuted.

(** Build arguments keep their order, text and tag; a control tag (and nothing else) is refused. *)
Theorem C65_args l : (forall r, set_build_args l = BOk r ->
    Forall2 (fun a x => match a with TaggedArg t s => x = (s, Some t) /\ t <> TControl | PlainArg s => x = (s, None) end) l r) /\
  ((exists r, set_build_args l = BOk r) <-> forall s, ~ In (TaggedArg TControl s) l) /\
  ((exists s, In (TaggedArg TControl s) l) -> set_build_args l = BErr BValue).
Proof.
  induction l as [|a l (A & B & C)]; cbn [set_build_args].
  - split; [intros r H; apply BOk_inj in H; subst r; constructor|]. split; [split; [intros _ s []|eauto]|intros (s & [])].
  - split; [|split].
    + intros r H. destruct a as [s|[] s]; cbn [bbind] in H; try discriminate H;
        (destruct (set_build_args l) as [r'|] eqn:E; cbn [bbind] in H; [|discriminate H]; apply BOk_inj in H; subst r; constructor;
         [repeat split; discriminate|exact (A _ eq_refl)]).
    + split.
      * intros (r & H) s [-> |I]; [discriminate H|]. destruct a as [s'|[] s']; cbn [bbind] in H; try discriminate H;
          (destruct (set_build_args l) as [r'|] eqn:E; [|discriminate H]; exact (proj1 B (ex_intro _ r' eq_refl) s I)).
      * intro N. destruct (proj2 B (fun s I => N s (or_intror I))) as (r' & E). rewrite E.
        destruct a as [s|[] s]; cbn [bbind]; eauto. destruct (N s (or_introl eq_refl)).
    + intros (s & [-> |I]); [reflexivity|]. rewrite (C (ex_intro _ s I)). destruct a as [s'|[] s']; reflexivity.
Qed.
Print Assumptions C65_args.
Example C65_args_ex : set_build_args [PlainArg (lit "-O"); TaggedArg TVHDL (lit "-93")] = BOk [(lit "-O", None); (lit "-93", Some TVHDL)] /\
  set_build_args [PlainArg (lit "-O"); TaggedArg TControl (lit "-93")] = BErr BValue.
Proof. split; reflexivity. Qed.
(** GHDL (mcode) is given the precision as one of its resolutions; a precision which is none of them is refused, and with
    the other back ends or without a timescale no resolution is given. *)
Theorem C66_resolution m t u p : t_pre t = None -> t_timescale t = Some (u, p) -> m_mcode m = true ->
  (forall q r, In (q, r) [("1fs", "fs"); ("1ps", "ps"); ("1ns", "ns"); ("1us", "us"); ("1ms", "ms"); ("1s", "sec")]%string -> p = lit q ->
     exists a b, test_command Ghdl m t = BOk ([a ++ t_args t ++ [lit "--time-resolution=" ++ lit r; t_toplevel t] ++ b], [])) /\
  (~ In p (map lit ["1fs"; "1ps"; "1ns"; "1us"; "1ms"; "1s"]%string) -> test_command Ghdl m t = BErr BValue).
Proof.
  intros P T M. cbn [test_command]. unfold ghdl_test, no_pre. rewrite P, T, M. split.
  - intros q r I ->. cbn [In] in I. repeat destruct I as [I|I]; try contradiction; injection I as <- <-;
      (eexists (m_prefix m ++ [lit "ghdl"; lit "-r"] ++ [lit "--work=" ++ t_library t]), _;
       cbn [bbind]; f_equal; f_equal; f_equal; rewrite <- !app_assoc; cbn [app]; reflexivity).
  - intro N. assert (E : ghdl_resolution p = None); [|rewrite E; reflexivity].
    unfold ghdl_resolution. cbn [map fst snd dict_get].
    assert (X : forall q, In q ["1fs"; "1ps"; "1ns"; "1us"; "1ms"; "1s"]%string -> pystr_eqb p (lit q) = false /\ pystr_eqb (lit q) p = false).
    { intros q I. assert (NE : p <> lit q) by (intros ->; apply N, in_map, I).
      split; [destruct (pystr_eqb p (lit q)) eqn:E|destruct (pystr_eqb (lit q) p) eqn:E]; auto; apply pystr_eqb_eq in E; [|symmetry in E]; contradiction. }
    rewrite (proj2 (X "1fs"%string ltac:(cbn; auto 10))), (proj2 (X "1ps"%string ltac:(cbn; auto 10))), (proj2 (X "1ns"%string ltac:(cbn; auto 10))),
      (proj2 (X "1us"%string ltac:(cbn; auto 10))), (proj2 (X "1ms"%string ltac:(cbn; auto 10))), (proj2 (X "1s"%string ltac:(cbn; auto 10))).
    reflexivity.
Qed.
Print Assumptions C66_resolution.
Definition mcode_machine := Machine (fun _ => None) [lit "time"] [lit "-x"] (fun i s => lit "/libs/" ++ lit i ++ lit "_" ++ lit s)
  (fun _ => true) (Some (lit "/bin/verilator")) (lit "/libs") (lit "/v.cpp") (lit "4") true true (lit "/tmp/do").
Example C66_resolution_ex : t_pre (with_timescale ex_test (Some (lit "1ns", lit "1us"))) = None /\ m_mcode mcode_machine = true /\
  test_command Ghdl mcode_machine (with_timescale ex_test (Some (lit "1ns", lit "1us"))) =
  BOk ([map lit ["time"; "ghdl"; "-r"; "--work=top"; "-a"; "-b"; "--time-resolution=us"; "dut"; "--vpi=/libs/vpi_ghdl"; "+p"; "-gW=3"; "--wave=dut.ghw"; "-x"]%string], []) /\
  test_command Ghdl mcode_machine (with_timescale ex_test (Some (lit "1ns", lit "10ps"))) = BErr BValue.
Proof. repeat (apply conj); vm_compute; reflexivity. Qed.
Theorem C66_no_resolution m t : t_timescale t = None \/ m_mcode m = false ->
  test_command Ghdl m t = test_command Ghdl m (with_timescale t None).
Proof.
  intro H. cbn [test_command]. unfold ghdl_test, no_pre, with_timescale.
  cbn [t_pre t_timescale t_library t_args t_toplevel t_plus t_parameters t_waves t_gui t_build].
  destruct H as [H|H]; rewrite H; [reflexivity|]. destruct (t_timescale t) as [[? ?]|]; reflexivity.
Qed.
Print Assumptions C66_no_resolution.
Example C66_no_resolution_ex : m_mcode (ex_machine (fun _ => None)) = false /\ t_timescale ex_test = None.
Proof. split; reflexivity. Qed.
(** On Questa every interface after the first adds its library to GPI_EXTRA, in order; if one of the libraries is missing
    the test is refused. *)
Theorem C66_gpi_extra s m t i rest : In s [Questa; QuestaQIS] -> t_gpi t = i :: rest ->
  (Forall (fun j => m_lib_exists m (m_lib m j "questa") = true) rest -> exists cmds, test_command s m t =
     BOk (cmds, [(lit "GPI_EXTRA", join (lit ",") (map (fun j => m_lib m j "questa" ++ lit ":cocotb" ++ lit j ++ lit "_entry_point") rest))])) /\
  (Exists (fun j => m_lib_exists m (m_lib m j "questa") = false) rest -> test_command s m t = BErr BRuntime).
Proof.
  intros I G.
  assert (A : Forall (fun j => m_lib_exists m (m_lib m j "questa") = true) rest ->
    gpi_extra m rest = BOk (map (fun j => m_lib m j "questa" ++ lit ":cocotb" ++ lit j ++ lit "_entry_point") rest)).
  { clear G. induction 1 as [|j l E F IH]; [reflexivity|]. cbn [gpi_extra map]. cbv zeta. rewrite E. rewrite IH. reflexivity. }
  assert (B : Exists (fun j => m_lib_exists m (m_lib m j "questa") = false) rest -> gpi_extra m rest = BErr BRuntime).
  { clear G A. induction 1 as [j l E|j l F IH]; cbn [gpi_extra]; cbv zeta.
    - rewrite E. reflexivity.
    - rewrite IH. destruct (m_lib_exists m (m_lib m j "questa")); reflexivity. }
  cbn [In] in I. destruct I as [<- |[<- |[]]]; cbn [test_command]; [unfold questa_test|unfold qis_test]; rewrite G;
    (split; intro H; [rewrite (A H); cbn [bbind]; eexists; reflexivity|rewrite (B H); reflexivity]).
Qed.
Print Assumptions C66_gpi_extra.
Example C66_gpi_extra_ex : t_gpi ex_test = ["vpi"; "fli"]%string /\
  Forall (fun j => m_lib_exists (ex_machine (fun _ => None)) (m_lib (ex_machine (fun _ => None)) j "questa") = true) ["fli"]%string /\
  exists cmds, test_command QuestaQIS (ex_machine (fun _ => None)) ex_test = BOk (cmds, [(lit "GPI_EXTRA", lit "/libs/fli_questa:cocotbfli_entry_point")]).
Proof. split; [reflexivity|]. split; [repeat constructor|]. eexists. vm_compute. reflexivity. Qed.
(** The other simulators are given the library of their interface on the command line; Riviera and Active-HDL are given the one of
    the other language by GPI_EXTRA, Xcelium the VHPI one. Verilator and VCS have it in the executable (C65). *)
Definition C66_loads (lib : pystr) (cmds : list command) : Prop := exists c p, In c cmds /\ In (p ++ lib) c.
Ltac C66_find := solve [assumption | left; reflexivity | right; C66_find | apply in_or_app; left; C66_find | apply in_or_app; right; C66_find].
Theorem C66_interface s m t cmds e : test_command s m t = BOk (cmds, e) ->
  match s with
  | Icarus => C66_loads (m_lib m "vpi" "icarus") cmds /\ e = []
  | Ghdl => C66_loads (m_lib m "vpi" "ghdl") cmds /\ e = []
  | Nvc => C66_loads (m_lib m "vhpi" "nvc") cmds /\ e = []
  | Dsim => C66_loads (m_lib m "vpi" "dsim") cmds /\ e = []
  | Xcelium => C66_loads (m_lib m "vpi" "xcelium") cmds /\
      dict_get e (lit "GPI_EXTRA") = Some (m_lib m "vhpi" "xcelium" ++ lit ":cocotbvhpi_entry_point")
  | Questa | QuestaQIS => exists i rest, t_gpi t = i :: rest /\ (In i ["vpi"; "vhpi"; "fli"]%string -> C66_loads (m_lib m i "questa") cmds)
  | Riviera | ActiveHDL => e = [(lit "GPI_EXTRA", if t_vhdl t then m_lib m "vpi" "riviera" ++ lit ":cocotbvpi_entry_point"
                                                 else m_lib m "vhpi" "riviera" ++ lit ":cocotbvhpi_entry_point")]
  | Verilator | Vcs => e = []
  end.
Proof.
  assert (L : forall p lib c, In (p ++ lib) c -> forall l, C66_loads lib (c :: l)) by (intros p lib c H l; exists c, p; split; [now left|exact H]).
  assert (Q : forall i a, In i ["vpi"; "vhpi"; "fli"]%string -> exists p, In (p ++ m_lib m i "questa") (questa_lib_opts m a i)).
  { intros i a [<-|[<-|[<-|[]]]]; unfold questa_lib_opts; cbn [String.eqb Ascii.eqb Bool.eqb]; [exists []|exists (lit "vhpi_startup_routines_bootstrap ")|exists (lit "cocotb_init ")]; rewrite ?in_app_iff; cbn [In]; auto. }
  destruct s; cbn [test_command]; intro H.
  - unfold icarus_test, no_pre in H. destruct (t_pre t); [discriminate|]. injection H as <- <-. split; [|reflexivity].
    apply (L []). C66_find.
  - unfold questa_test in H. destruct (t_gpi t) as [|i rest]; [discriminate|]. exists i, rest. split; [reflexivity|]. intro I.
    destruct (Q i true I) as [p P]. destruct (gpi_extra m rest); [|discriminate]. cbn [bbind] in H. injection H as <- <-.
    apply (L p). C66_find.
  - unfold qis_test in H. destruct (t_gpi t) as [|i rest]; [discriminate|]. exists i, rest. split; [reflexivity|]. intro I.
    destruct (Q i false I) as [p P]. destruct (gpi_extra m rest); [|discriminate]. cbn [bbind] in H. injection H as <- <-.
    apply (L p). C66_find.
  - unfold ghdl_test, no_pre in H. destruct (t_pre t); [discriminate|].
    match type of H with bbind ?x _ = _ => destruct x end; [|discriminate]. cbn [bbind] in H. injection H as <- <-. split; [|reflexivity].
    apply (L (lit "--vpi=")). C66_find.
  - unfold nvc_test in H. injection H as <- <-. split; [|reflexivity].
    apply (L (lit "--load=")). C66_find.
  - unfold aldec_test in H. destruct (aldec_test_script true m t); [|discriminate]. cbn [bbind] in H. injection H as <- <-. reflexivity.
  - unfold aldec_test in H. destruct (aldec_test_script false m t); [|discriminate]. cbn [bbind] in H. injection H as <- <-. reflexivity.
  - unfold verilator_test, no_pre in H. destruct (t_pre t); [discriminate|]. injection H as <- <-. reflexivity.
  - unfold xcelium_test, no_pre in H. destruct (t_pre t); [discriminate|]. destruct (t_timescale t); [discriminate|]. injection H as <- <-.
    split; [|reflexivity]. eexists _, []. split; [right; left; reflexivity|]. C66_find.
  - unfold vcs_test, no_pre in H. destruct (t_pre t); [discriminate|]. injection H as <- <-. reflexivity.
  - unfold dsim_test, no_pre in H. destruct (t_pre t); [discriminate|]. injection H as <- <-. split; [|reflexivity].
    apply (L []). C66_find.
Qed.
Print Assumptions C66_interface.
Example C66_interface_ex : exists cmds e, test_command Riviera (ex_machine (fun _ => None)) ex_test = BOk (cmds, e) /\
  e = [(lit "GPI_EXTRA", lit "/libs/vhpi_riviera:cocotbvhpi_entry_point")].
Proof. eexists _, _. split; vm_compute; reflexivity. Qed.

(** The choice of messages changes only the options for it, at one place of the command. *)
Theorem C66_verbose s m t cmds e : test_command s m t = BOk (cmds, e) ->
  if aldec s then forall v, test_command s m (with_verbose t v) = BOk (cmds, e)
  else exists front before after, forall v, test_command s m (with_verbose t v) = BOk (front ++ [before ++ verbosity s v ++ after], e).
Proof.
  intro H. destruct s; cbn [aldec test_command] in *; try (intro v; exact H).
  - assert (C : exists c, cmds = [c]) by (unfold icarus_test, no_pre in H; destruct (t_pre t); [discriminate|]; injection H as <- <-; eexists; reflexivity).
    destruct C as [c ->]. exists [], [], c. intro v. exact H.
  - unfold questa_test in *. cbn [t_gpi with_verbose]. destruct (t_gpi t) as [|i rest]; [discriminate|].
    destruct (gpi_extra m rest); [|discriminate]. cbn [bbind] in *. injection H as <- <-.
    exists [], (m_prefix m ++ [lit "vsim"]), ([lit (if t_gui t then "-gui" else "-c"); lit "-onfinish"; lit (if t_gui t then "stop" else "exit")]
        ++ questa_lib_opts m true i ++ t_args t ++ assigned (lit "-g") (t_parameters t)
        ++ [t_library t ++ lit "." ++ t_toplevel t] ++ t_plus t ++ pre_opts t
        ++ [lit "-do"; (if t_waves t then lit "log -recursive /*;" else []) ++ (if t_gui t then [] else lit "run -all; quit")]
        ++ m_suffix m).
    intro v. destruct v; cbn [with_verbose t_verbose verbosity]; rewrite <- ?app_assoc; reflexivity.
  - unfold qis_test in *. cbn [t_gpi with_verbose]. destruct (t_gpi t) as [|i rest]; [discriminate|].
    destruct (gpi_extra m rest); [|discriminate]. cbn [bbind] in *. injection H as <- <-.
    exists [], (m_prefix m ++ [lit "qrun"; lit "-simulate"; lit "-outdir"; slash (b_dir (t_build t)) (lit "qrun_out")]),
      ((if t_waves t then [lit "-qwavedb=+signal+memory=all+class+assertion+uvm_schematic+msg+wavefile=" ++ slash (t_dir t) (lit "qwave.db")] else [])
        ++ (if t_gui t then [lit "-gui"; lit "-visualizer"; lit "-designfile"; slash (b_dir (t_build t)) (lit "design.bin")] else [lit "-c"])
        ++ [lit "-onfinish"; lit (if t_gui t then "stop" else "exit")] ++ questa_lib_opts m false i
        ++ (match t_timescale t with Some (_, p) => if t_vhdl t then [lit "-t"; p] else [] | None => [] end)
        ++ t_args t ++ [lit "-top"; t_library t ++ lit "." ++ t_toplevel t] ++ t_plus t ++ pre_opts t
        ++ [lit "-do"; if t_gui t then [] else lit "run -all; quit"] ++ m_suffix m).
    intro v. destruct v; cbn [with_verbose t_verbose verbosity]; rewrite <- ?app_assoc; reflexivity.
  - assert (C : exists c, cmds = [c]) by (unfold ghdl_test, no_pre in H; destruct (t_pre t); [discriminate|]; match type of H with bbind ?x _ = _ => destruct x end; [|discriminate]; cbn [bbind] in H; injection H as <- <-; eexists; reflexivity).
    destruct C as [c ->]. exists [], [], c. intro v. exact H.
  - assert (C : exists c, cmds = [c]) by (unfold nvc_test in H; injection H as <- <-; eexists; reflexivity).
    destruct C as [c ->]. exists [], [], c. intro v. exact H.
  - assert (C : exists c, cmds = [c]) by (unfold verilator_test, no_pre in H; destruct (t_pre t); [discriminate|]; injection H as <- <-; eexists; reflexivity).
    destruct C as [c ->]. exists [], [], c. intro v. exact H.
  - unfold xcelium_test, no_pre in *. cbn [t_pre t_timescale with_verbose]. destruct (t_pre t); [discriminate|]. destruct (t_timescale t); [discriminate|].
    injection H as <- <-.
    exists [[lit "mkdir"; lit "-p"; lit "implicit_tmpdir_" ++ t_name t]],
      (m_prefix m ++ [lit "xrun"; lit "-logfile"; lit "xrun_" ++ t_name t ++ lit ".log"; lit "-xmlibdirname"; b_dir (t_build t) ++ lit "/xrun_snapshot";
          lit "-loadvpisim"; m_lib m "vpi" "xcelium"; lit "-cds_implicit_tmpdir"; lit "implicit_tmpdir_" ++ t_name t; lit "-licqueue"]
        ++ (if existsb (fun s => tag_eqb (snd s) TVHDL) (b_sources (t_build t) ++ b_vhdl (t_build t) ++ b_verilog (t_build t)) then [lit "-NEW_VHPI_PROPAGATE_DELAY"] else [])),
      ([lit "-R"] ++ t_args t ++ t_plus t ++ [if t_gui t then lit "-gui" else []]
        ++ (if t_waves t then [lit "-input ""@database -open cocotb_waves -default"" ";
              lit "-input ""@probe -database cocotb_waves -create " ++ (if t_vhdl t then lit ":" else t_toplevel t) ++ lit " -all -depth all"" ";
              lit "-input ""@run"" "; lit "-input ""@exit"" "]
            else [lit "-input"; lit "@run; exit;"])
        ++ m_suffix m).
    intro v. destruct v; cbn [with_verbose t_verbose verbosity]; rewrite <- ?app_assoc; reflexivity.
  - unfold vcs_test, no_pre in *. cbn [t_pre with_verbose]. destruct (t_pre t); [discriminate|]. injection H as <- <-.
    exists [], (m_prefix m ++ [slash (b_dir (t_build t)) (lit "simv")]), (t_args t ++ t_plus t ++ m_suffix m).
    intro v. destruct v; cbn [with_verbose t_verbose verbosity]; rewrite <- ?app_assoc; reflexivity.
  - assert (C : exists c, cmds = [c]) by (unfold dsim_test, no_pre in H; destruct (t_pre t); [discriminate|]; injection H as <- <-; eexists; reflexivity).
    destruct C as [c ->]. exists [], [], c. intro v. exact H.
Qed.
Print Assumptions C66_verbose.

(** Without the GUI the simulation is started and ended by the command itself; with it, it waits for the user. *)
Theorem C66_batch s m t cmds e : test_command s m t = BOk (cmds, e) ->
  match s with
  | Questa => exists c w, In c cmds /\ In (lit (if t_gui t then "-gui" else "-c")) c /\
      contiguous [lit "-onfinish"; lit (if t_gui t then "stop" else "exit")] c /\
      contiguous [lit "-do"; w ++ (if t_gui t then [] else lit "run -all; quit")] c /\ (w = [] \/ t_waves t = true)
  | QuestaQIS => exists c, In c cmds /\ In (lit (if t_gui t then "-gui" else "-c")) c /\
      contiguous [lit "-onfinish"; lit (if t_gui t then "stop" else "exit")] c /\
      contiguous [lit "-do"; if t_gui t then [] else lit "run -all; quit"] c
  | Riviera => exists c head, In c cmds /\ In (lit (if t_gui t then "riviera" else "vsimsa")) c /\
      aldec_test_script true m t =
        BOk (head ++ if t_gui t then lit "echo execute run -all to run the whole simulation." else lit "run -all " ++ [10] ++ lit "exit")
  | ActiveHDL => exists c head, In c cmds /\ In (lit "vsimsa") c /\ aldec_test_script false m t = BOk (head ++ lit "run -all " ++ [10] ++ lit "exit")
  | Xcelium => exists c, In c cmds /\ (t_gui t = true -> In (lit "-gui") c) /\
      (t_waves t = false -> contiguous [lit "-input"; lit "@run; exit;"] c)
  | _ => True
  end.
Proof.
  intro H. destruct s; try exact Logic.I; cbn [test_command] in H.
  - unfold questa_test in H. tok H. apply BOk_inj, pair_inj in H as [<- _]. eexists _, (if t_waves t then lit "log -recursive /*;" else []).
    split; [left; reflexivity|]. split; [C66_find|]. split; [|split; [|destruct (t_waves t); tauto]].
    + do 2 apply contig_app. apply contig_app. exists [lit (if t_gui t then "-gui" else "-c")]. eexists. reflexivity.
    + contig.
  - unfold qis_test in H. tok H. apply BOk_inj, pair_inj in H as [<- _]. eexists.
    split; [left; reflexivity|]. split; [destruct (t_gui t); C66_find|]. split; contig.
  - unfold aldec_test in H. destruct (aldec_test_script true m t) as [script|] eqn:E; [|discriminate]. cbn [bbind] in H.
    apply BOk_inj, pair_inj in H as [<- _]. unfold aldec_test_script in E. cbv zeta in E. cbn [andb] in E. tok E. apply BOk_inj in E. subst script.
    eexists. eexists. split; [left; reflexivity|]. split; [cbn [andb]; C66_find|]. rewrite !app_assoc. reflexivity.
  - unfold aldec_test in H. destruct (aldec_test_script false m t) as [script|] eqn:E; [|discriminate]. cbn [bbind] in H.
    apply BOk_inj, pair_inj in H as [<- _]. unfold aldec_test_script in E. cbv zeta in E. cbn [andb] in E. tok E. apply BOk_inj in E. subst script.
    eexists. eexists. split; [left; reflexivity|]. split; [cbn [andb]; C66_find|]. rewrite !app_assoc. reflexivity.
  - unfold xcelium_test in H. tok H. apply BOk_inj, pair_inj in H as [<- _]. eexists. split; [right; left; reflexivity|]. split.
    + intros ->. C66_find.
    + intros ->. contig.
Qed.
Print Assumptions C66_batch.
Example C66_batch_ex : exists cmds e, test_command QuestaQIS (ex_machine (fun _ => None)) ex_test = BOk (cmds, e) /\ t_gui ex_test = false /\
  test_command QuestaQIS (ex_machine (fun _ => None)) (with_verbose ex_test true) <> BOk (cmds, e).
Proof. eexists _, _. split; [vm_compute; reflexivity|]. split; [reflexivity|]. vm_compute. discriminate. Qed.

(** Not true: the options which the runners add are one word per argument. An option and its value with a blank between them, which a
    shell would have split, are passed as one argument: verbose VCS, DSim with waves or a timescale, Xcelium with waves (with the quotes). *)
Theorem C66_words_refuted :
  (forall m t, t_pre t = None -> t_verbose t = true -> exists c, test_command Vcs m t = BOk ([c], []) /\ In (lit "-diag all") c) /\
  (forall m t, t_pre t = None -> t_waves t = true -> exists c, test_command Dsim m t = BOk ([c], []) /\ In (lit "-waves file.vcd") c) /\
  (forall m t u p, t_pre t = None -> t_timescale t = Some (u, p) ->
     exists c, test_command Dsim m t = BOk ([c], []) /\ In (lit "-timescale " ++ u ++ lit "/" ++ p) c) /\
  (forall m t, t_pre t = None -> t_timescale t = None -> t_waves t = true ->
     exists c0 c e, test_command Xcelium m t = BOk ([c0; c], e) /\ In (lit "-input ""@run"" ") c).
Proof.
  repeat apply conj.
  - intros m t P V. cbn [test_command]. unfold vcs_test, no_pre. rewrite P, V. eexists. split; [reflexivity|]. C66_find.
  - intros m t P V. cbn [test_command]. unfold dsim_test, no_pre. rewrite P, V. eexists. split; [reflexivity|]. C66_find.
  - intros m t u p P V. cbn [test_command]. unfold dsim_test, no_pre. rewrite P, V. eexists. split; [reflexivity|]. C66_find.
  - intros m t P S V. cbn [test_command]. unfold xcelium_test, no_pre. rewrite P, S, V. eexists _, _, _. split; [reflexivity|].
    C66_find.
Qed.
Print Assumptions C66_words_refuted.
Example C66_words_ex : t_pre ex_test = None /\ t_waves ex_test = true /\ t_timescale ex_test = None /\ t_verbose (with_verbose ex_test true) = true.
Proof. repeat split. Qed.

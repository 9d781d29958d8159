(** C60, the build scripts of the Aldec simulators. *)
From Verif Require Import Base TextModel QuoteModel QuoteSpec QuoteProofs BuildModel BuildSpec BuildProofs ScriptSpec ScriptProofs.
From Coq Require Import String.
Open Scope Z_scope.

(** After the [onerror] command, the script calls the compilers with exactly the intended words, in the order of the
    sources, if the paths need no more than backslashes, and defines and build arguments no quoting at all. *)
Theorem C60_build_partial m b lines : aldec_script m b = BOk lines ->
  tcl_inert (b_library b) -> tcl_inert (m_lib m "vpi" "riviera") -> Forall tcl_inert (map fst (considered Riviera b)) ->
  Forall (fun i => tcl_inert i \/ i = []) (b_includes b) -> Forall tcl_plain (map define_word (b_defines b)) -> Forall tcl_plain (map fst (b_args b)) ->
  tcl_script (join [10] (tl lines)) =
  Some (match tl lines with
        | [_] => []
        | _ => [lit "alib"; b_library b] :: map (compile_call (m_lib m "vpi" "riviera") b) (considered Riviera b)
        end ++ [[lit "exit"]]).
Proof.
  unfold aldec_script. intros H L E S I D A. apply bbind_ok in H as (old & O & H). apply bbind_ok in H as (body & B & H). apply BOk_inj in H. subst lines.
  cbn [tl app]. destruct (old || b_always b); [|apply BOk_inj in B; subst body; reflexivity].
  apply bbind_ok in B as (cs & B & X). apply BOk_inj in X. subst body. cbn [app].
  assert (J : forall (x : pystr) (l : list pystr), join [10] (l ++ [x]) = flat_map (fun c => c ++ [10]) l ++ x).
  { intros x l. induction l as [|y l IH]; [reflexivity|]. destruct l as [|z l]; [cbn [flat_map join app]; rewrite app_nil_r, <- app_assoc; reflexivity|].
    change (join [10] ((y :: z :: l) ++ [x])) with (y ++ [10] ++ join [10] ((z :: l) ++ [x])). rewrite IH.
    cbn [flat_map]. now rewrite <- !app_assoc. }
  rewrite (app_comm_cons cs). rewrite J. cbn [flat_map]. rewrite <- !app_assoc.
  change ([10] ++ flat_map (fun c => c ++ [10]) cs ++ lit "exit") with (10 :: flat_map (fun c => c ++ [10]) cs ++ lit "exit").
  rewrite alib_line by exact L. rewrite (sources_read m b L E I D A (b_sources b ++ b_vhdl b ++ b_verilog b)); [|now apply Forall_map|exact B].
  destruct cs; reflexivity.
Qed.
Print Assumptions C60_build_partial.
Definition ex_lib (i s : string) : pystr := lit "/libs/" ++ lit i ++ lit "_" ++ lit s.
Definition ex_m := Machine (fun _ => None) [] [] ex_lib (fun _ => true) None [] [] [] true false (lit "/tmp/do").
Definition ex_b (defines : list (pystr * pystr)) (args : list (pystr * option tag)) :=
  BuildIn (lit "my lib") [(lit "/s/a b.sv", TVerilog); (lit "/s/c.vhd", TVHDL)] [] [] [lit "/inc dir"] defines [] args None false false None false (lit "/d").
Example C60_build_ex : exists lines, aldec_script ex_m (ex_b [(lit "N", lit "8")] [(lit "-O2", None); (lit "-93", Some TVHDL)]) = BOk lines /\
  tcl_script (join [10] (tl lines)) = Some [map lit ["alib"; "my lib"]%string;
    map lit ["alog"; "-work"; "my lib"; "-pli"; "/libs/vpi_riviera"; "-sv"; "'+define+N=8'"; "+incdir+/inc dir"; "-O2"; "/s/a b.sv"]%string;
    map lit ["acom"; "-work"; "my lib"; "-O2"; "-93"; "/s/c.vhd"]%string; [lit "exit"]] /\
  tcl_inert (lit "my lib") /\ tcl_inert (ex_lib "vpi" "riviera") /\ Forall tcl_inert [lit "/s/a b.sv"; lit "/s/c.vhd"] /\
  Forall (fun i => tcl_inert i \/ i = []) [lit "/inc dir"] /\ Forall tcl_plain (map define_word [(lit "N", lit "8")]) /\ Forall tcl_plain [lit "-O2"; lit "-93"].
Proof.
  assert (A : forall v, inertb v = true /\ v <> [] -> tcl_inert v) by (intros v [H1 H2]; split; [exact H2|now apply inertb_iff]).
  assert (P : forall v, v <> [] -> forallb (fun c => negb (tcl_blank c) && negb (existsb (Z.eqb c) [10; 59; 91; 92; 36; 34; 123])) v = true -> tcl_plain v).
  { intros v N F. rewrite forallb_forall in F.
    assert (G : forall c, In c v -> tcl_blank c = false /\ ~ In c [10; 59; 91; 92; 36; 34; 123]).
    { intros c H. apply F, andb_prop in H as [H1 H2]. apply negb_true_iff in H1, H2. split; [exact H1|]. intro I.
      assert (existsb (Z.eqb c) [10; 59; 91; 92; 36; 34; 123] = true); [|congruence]. apply existsb_exists. exists c. split; [exact I|apply Z.eqb_refl]. }
    split; [exact N|]. split; [|split; [|split]].
    - intros c H. destruct (G c H) as [G1 G2]. split; [exact G1|]. cbn in *. tauto.
    - intros (a & d & b & E & _). destruct (G 36) as [_ X]; [rewrite E; apply in_or_app; right; now left|]. apply X. cbn. tauto.
    - destruct v as [|c v]; [contradiction|]. cbn. intros ->. destruct (G 34 (or_introl eq_refl)) as [_ X]. apply X. cbn. tauto.
    - destruct v as [|c v]; [contradiction|]. cbn. intros ->. destruct (G 123 (or_introl eq_refl)) as [_ X]. apply X. cbn. tauto. }
  eexists. split; [vm_compute; reflexivity|]. split; [vm_compute; reflexivity|].
  repeat (apply conj); repeat (apply Forall_cons); try apply Forall_nil; try left; try (apply A; split; [reflexivity|discriminate]);
    apply P; try discriminate; reflexivity.
Qed.

(** The apostrophes around a define mean nothing to Tcl: the compiler is handed a word which begins with one, and a
    define with a blank in it is handed over as two words. *)
Theorem C60_define_refuted : exists defines lines, defines = [(lit "MSG", lit "hello world")] /\
  aldec_script ex_m (ex_b defines []) = BOk lines /\
  tcl_script (nth 2 lines []) = Some [map lit ["alog"; "-work"; "my lib"; "-pli"; "/libs/vpi_riviera"; "-sv"; "'+define+MSG=hello"; "world'"; "+incdir+/inc dir"; "/s/a b.sv"]%string].
Proof. eexists. eexists. split; [reflexivity|]. split; vm_compute; reflexivity. Qed.
Print Assumptions C60_define_refuted.
(** Build arguments are not quoted: a blank in one splits it, and a ";" ends the command. *)
Theorem C60_build_args_refuted : exists args lines, args = [(lit "-dbg file name", None); (lit "-x;quit", None)] /\
  aldec_script ex_m (ex_b [] args) = BOk lines /\
  tcl_script (nth 3 lines []) = Some [map lit ["acom"; "-work"; "my lib"; "-dbg"; "file"; "name"; "-x"]%string; map lit ["quit"; "/s/c.vhd"]%string].
Proof. eexists. eexists. split; [reflexivity|]. split; vm_compute; reflexivity. Qed.
Print Assumptions C60_build_args_refuted.

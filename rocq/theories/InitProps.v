(** Starting cocotb: theorems (C70 to C73). *)
From Verif Require Import Base TextModel ToolsModel ToolsSpec ToolsProofs XmlModel RegressionModel QuoteSpec InitModel InitSpec InitProofs.
From Coq Require Import String Lia Permutation.
Open Scope Z_scope.

(** * C70: log settings *)

(** COCOTB_ANSI_OUTPUT decides about colours if it has a text; otherwise there are colours exactly on a terminal without
    NO_COLOR and without GUI. *)
Theorem C70_strip tty ansi no_color gui b :
  init_strip_ansi tty ansi no_color gui = Ok b <-> exists d, colour_default tty no_color gui d /\ reads_bool ansi d (negb b).
Proof. exact (strip_iff tty ansi no_color gui b). Qed.
Print Assumptions C70_strip.
Example C70_strip_ex :
  init_strip_ansi true None None None = Ok false /\ init_strip_ansi true None (Some (lit "1")) None = Ok true /\
  init_strip_ansi false (Some (lit "YES")) (Some (lit "1")) None = Ok false /\ init_strip_ansi true (Some (lit "0")) None None = Ok true /\
  init_strip_ansi true None None (Some (lit "on")) = Ok true.
Proof. repeat split; reflexivity. Qed.
(** The only error is ValueError. *)
Theorem C70_strip_error tty ansi no_color gui e : init_strip_ansi tty ansi no_color gui = Err e -> e = ValueError.
Proof. exact (strip_error tty ansi no_color gui e). Qed.
Print Assumptions C70_strip_error.
Example C70_strip_error_ex : init_strip_ansi false (Some (lit "maybe")) None None = Err ValueError.
Proof. reflexivity. Qed.
(** COCOTB_ANSI_OUTPUT=1 does not force colours if the default which it overrides cannot be computed. *)
Theorem C70_forced_refuted : exists tty no_color gui, init_strip_ansi tty (Some (lit "1")) no_color gui = Err ValueError.
Proof. exists true, None, (Some (lit "questa")). reflexivity. Qed.
Print Assumptions C70_forced_refuted.
(** A NO_COLOR which is not the empty string but blank does not prevent colours. *)
Theorem C70_no_color_refuted : exists v, v <> [] /\ init_strip_ansi true None (Some v) None = Ok false.
Proof. exists (lit " "). split; [discriminate|reflexivity]. Qed.
Print Assumptions C70_no_color_refuted.
(** A level variable sets its logger to the level it names, in any case, and no other; "gpi" also sets the level of the
    simulator interface, to that of the root logger for NOTSET. *)
Theorem C70_level s root l l' : ascii s -> ~ blank s ->
  (set_gpi_level root (Some s) l = Ok l' <-> exists n, names_level s n /\ l' = Levels n (l_cocotb l) (if n =? 0 then root else n)) /\
  (set_cocotb_level (Some s) l = Ok l' <-> exists n, names_level s n /\ l' = Levels (l_gpi l) n (l_native l)).
Proof. intros A B. split; [now apply gpi_level|now apply cocotb_level]. Qed.
Print Assumptions C70_level.
Theorem C70_level_unset v root l : unset_or_blank v -> set_gpi_level root v l = Ok l /\ set_cocotb_level v l = Ok l.
Proof. exact (level_unset v root l). Qed.
Print Assumptions C70_level_unset.
Theorem C70_level_error v root l e : set_gpi_level root v l = Err e \/ set_cocotb_level v l = Err e -> e = ValueError.
Proof. exact (level_error v root l e). Qed.
Print Assumptions C70_level_error.
Example C70_level_ex : ascii (lit " debug") /\ ~ blank (lit " debug") /\ names_level (lit " debug") 10 /\
  set_cocotb_level (Some (lit " debug")) (Levels 20 20 20) = Ok (Levels 20 10 20) /\
  set_gpi_level 30 (Some (lit "notset")) (Levels 20 20 20) = Ok (Levels 0 20 30) /\
  set_gpi_level 30 (Some (lit "loud")) (Levels 20 20 20) = Err ValueError /\ unset_or_blank (Some (lit "  ")).
Proof.
  split; [repeat constructor; cbn; lia|]. split; [discriminate|]. split; [|repeat split; reflexivity].
  exists (lit "debug"), "DEBUG"%string. split; [apply (strip_trimmed (lit " debug"))|]. split; [cbn; tauto|].
  repeat (constructor; [unfold same_letter; cbn; lia|]). constructor.
Qed.
(** All three together: the first error ends the start; without one each variable has its own effect. *)
Theorem C70_init tty ansi no_color gui gl cl root l strip l' : logging_init tty ansi no_color gui gl cl root l = Ok (strip, l') <->
  init_strip_ansi tty ansi no_color gui = Ok strip /\ exists l1, set_gpi_level root gl l = Ok l1 /\ set_cocotb_level cl l1 = Ok l'.
Proof.
  unfold logging_init. split.
  - destruct (init_strip_ansi tty ansi no_color gui) as [s|]; [|discriminate]. cbn [bind]. destruct (set_gpi_level root gl l) as [l1|]; [|discriminate].
    cbn [bind]. destruct (set_cocotb_level cl l1) as [l2|] eqn:E; [|discriminate]. cbn [bind]. intro H. injection H as <- <-. split; [reflexivity|]. now exists l1.
  - intros (-> & l1 & E1 & E2). cbn [bind]. rewrite E1. cbn [bind]. rewrite E2. reflexivity.
Qed.
Print Assumptions C70_init.
Example C70_init_ex : logging_init false None None None (Some (lit "trace")) (Some (lit "Error")) 30 (Levels 20 20 20) = Ok (true, Levels 5 40 5).
Proof. reflexivity. Qed.
(** The reduced format is the default and is switched off by a word for no. *)
Theorem C70_reduced reduced prefix r p : configure reduced prefix = Ok (r, p) <-> reads_bool reduced true r /\ p = match prefix with Some x => x | None => [] end.
Proof.
  unfold configure. rewrite <- get_bool_reads. destruct (get_bool reduced (Some true)) as [b|]; cbn [bind]; split.
  - intro H. injection H as <- <-. split; reflexivity.
  - intros [H ->]. injection H as <-. reflexivity.
  - discriminate.
  - intros [H _]. discriminate H.
Qed.
Print Assumptions C70_reduced.
Example C70_reduced_ex : configure (Some (lit "0")) (Some (lit "x ")) = Ok (false, lit "x ") /\ configure None None = Ok (true, []).
Proof. split; reflexivity. Qed.

(** * C71: seed, top level and packages *)

(** The seed of a run is shown as a decimal number; set as COCOTB_RANDOM_SEED it gives the same seed, whatever else is set. *)
Theorem C71_recreate n now old plus : setup_random_seed now (Some (py_str_int n)) old plus = Ok n.
Proof. exact (get_int_str n (Some now)). Qed.
Print Assumptions C71_recreate.
Example C71_recreate_ex : setup_random_seed 1700000000 (Some (lit "1377424946")) (Some (lit "5")) [(lit "seed", PStr (lit "7"))] = Ok 1377424946 /\
  py_str_int 1377424946 = lit "1377424946".
Proof. split; vm_compute; reflexivity. Qed.
(** Where the seed comes from: COCOTB_RANDOM_SEED if set, else RANDOM_SEED if set (a blank one means the time), else the
    plusarg ntb_random_seed, else seed, else the time. *)
Theorem C71_precedence now v old plus :
  (forall s, v = Some s -> setup_random_seed now v old plus = get_int v (Some now)) /\
  (forall s, v = None -> old = Some s -> setup_random_seed now v old plus = get_int old (Some now)) /\
  (forall p, v = None -> old = None -> dict_get plus (lit "ntb_random_seed") = Some p -> setup_random_seed now v old plus = int_plusarg p) /\
  (forall p, v = None -> old = None -> dict_get plus (lit "ntb_random_seed") = None -> dict_get plus (lit "seed") = Some p ->
     setup_random_seed now v old plus = int_plusarg p) /\
  (v = None -> old = None -> dict_get plus (lit "ntb_random_seed") = None -> dict_get plus (lit "seed") = None -> setup_random_seed now v old plus = Ok now).
Proof.
  unfold setup_random_seed. split; [now intros s ->|]. split; [now intros s -> ->|]. split; [now intros p -> -> ->|].
  split; [now intros p -> -> -> ->|]. now intros -> -> -> ->.
Qed.
Print Assumptions C71_precedence.
Example C71_precedence_ex : setup_random_seed 9 None None [(lit "seed", PStr (lit "7")); (lit "ntb_random_seed", PStr (lit "8"))] = Ok 8 /\
  setup_random_seed 9 None (Some (lit "5")) [(lit "seed", PStr (lit "7"))] = Ok 5 /\ setup_random_seed 9 None None [] = Ok 9.
Proof. repeat split; reflexivity. Qed.
(** An empty COCOTB_RANDOM_SEED is not as if unset: it hides the plusarg. *)
Theorem C71_blank_refuted : exists now plus, setup_random_seed now (Some []) None plus <> setup_random_seed now None None plus.
Proof. exists 9, [(lit "seed", PStr (lit "7"))]. discriminate. Qed.
Print Assumptions C71_blank_refuted.
(** A plusarg without a value, or with one which is no number, stops the start. *)
Theorem C71_flag now plus : dict_get plus (lit "ntb_random_seed") = None -> dict_get plus (lit "seed") = Some PTrue ->
  setup_random_seed now None None plus = Err ValueError.
Proof. intros A B. unfold setup_random_seed. now rewrite A, B. Qed.
Print Assumptions C71_flag.
Example C71_flag_ex : dict_get (plusargs [lit "+seed"]) (lit "ntb_random_seed") = None /\ dict_get (plusargs [lit "+seed"]) (lit "seed") = Some PTrue.
Proof. split; reflexivity. Qed.

(** COCOTB_TOPLEVEL: white space around it is discarded, and a library before the first dot. *)
Theorem C71_name s : ~ blank s -> exists t, trimmed s t /\ (~ In 46 t -> root_name (Some s) = Some t) /\
  (forall a b, t = a ++ [46] ++ b -> ~ In 46 a -> root_name (Some s) = Some b).
Proof. exact (root_name_spec s). Qed.
Print Assumptions C71_name.
Example C71_name_ex : ~ blank (lit " work.top ") /\ root_name (Some (lit " work.top ")) = Some (lit "top") /\ root_name (Some (lit "  ")) = None.
Proof. split; [discriminate|]. split; reflexivity. Qed.
(** A root with the wanted name, up to case, becomes [cocotb.top]: the last one. *)
Theorem C71_top fold toplevel n handles get_root h : root_name toplevel = Some n -> last_of (fun x => fold (fst x) = fold n) handles h ->
  exists tops, setup_root_handle fold toplevel (Some handles) get_root [] = Ok (h, tops).
Proof.
  intros N L. unfold setup_root_handle, root in *. cbv zeta. rewrite N. set (t := fold_left (fun (d : list (pystr * (pystr * Z))) (h : pystr * Z) => dict_set d (fold (fst h)) h) handles []).
  assert (G : dict_get t (fold n) = Some h) by (unfold t; apply (tops_get (fun x => fold (fst x))); now left).
  rewrite G. eexists. reflexivity.
Qed.
Print Assumptions C71_top.
Example C71_top_ex : root_name (Some (lit "TOP")) = Some (lit "TOP") /\
  last_of (fun x => ascii_fold (fst x) = ascii_fold (lit "TOP")) [(lit "other", 1); (lit "Top", 2)] (lit "Top", 2).
Proof. split; [reflexivity|]. exists [(lit "other", 1)], []. split; [reflexivity|]. split; [reflexivity|constructor]. Qed.
(** Otherwise the simulator is asked, with the name or, if none is wanted, for any; its refusal is the only error. *)
Theorem C71_top_asked fold toplevel handles get_root :
  (forall n, root_name toplevel = Some n -> Forall (fun x => fold (fst x) <> fold n) handles) ->
  match get_root (root_name toplevel) with
  | Some h => exists tops, setup_root_handle fold toplevel (Some handles) get_root [] = Ok (h, tops)
  | None => setup_root_handle fold toplevel (Some handles) get_root [] = Err RuntimeError
  end.
Proof.
  intro F. unfold setup_root_handle, root in *. cbv zeta. set (tops := fold_left (fun (d : list (pystr * (pystr * Z))) (h : pystr * Z) => dict_set d (fold (fst h)) h) handles []).
  assert (E : match root_name toplevel with Some n => dict_get tops (fold n) | None => None end = None).
  { destruct (root_name toplevel) as [n|] eqn:N; [|reflexivity]. destruct (dict_get tops (fold n)) as [h|] eqn:G; [|reflexivity]. exfalso.
    apply (proj1 (tops_get (fun x => fold (fst x)) handles [] (fold n) h)) in G. destruct G as [(l1 & l2 & -> & P & _)|[_ G]]; [|discriminate G].
    specialize (F n eq_refl). apply Forall_app in F as [_ F]. inversion F; subst. contradiction. }
  rewrite E. destruct (get_root (root_name toplevel)); [eexists|]; reflexivity.
Qed.
Print Assumptions C71_top_asked.
Example C71_top_asked_ex : setup_root_handle ascii_fold (Some (lit "x")) (Some [(lit "top", 1)]) (fun _ => None) [] = Err RuntimeError /\
  setup_root_handle ascii_fold None (Some [(lit "top", 1); (lit "b", 2)]) (fun _ => Some (lit "top", 1)) [] =
    Ok ((lit "top", 1), [(lit "top", (lit "top", 1)); (lit "b", (lit "b", 2))]).
Proof. split; reflexivity. Qed.
(** [cocotb.tops] has, for every name up to case, the last root of that name, and includes [cocotb.top]. *)
Theorem C71_tops fold toplevel handles get_root h tops : setup_root_handle fold toplevel (Some handles) get_root [] = Ok (h, tops) ->
  (exists k, dict_get tops k = Some h) /\
  (forall x, In x handles -> exists y, dict_get tops (fold (fst x)) = Some y /\ (last_of (fun z => fold (fst z) = fold (fst x)) handles y \/ y = h)).
Proof.
  unfold setup_root_handle, root in *. cbv zeta. set (t := fold_left (fun (d : list (pystr * (pystr * Z))) (h : pystr * Z) => dict_set d (fold (fst h)) h) handles []).
  assert (L : forall x, In x handles -> exists y, last_of (fun z => fold (fst z) = fold (fst x)) handles y).
  { intros x I. clear t.
    induction handles as [|z l IH] using rev_ind; [destruct I|].
    destruct (pystr_eqb (fold (fst z)) (fold (fst x))) eqn:E.
    - apply pystr_eqb_eq in E. exists z. apply last_of_snoc. left. split; [exact E|reflexivity].
    - assert (N : fold (fst z) <> fold (fst x)) by (intro H; apply pystr_eqb_eq in H; rewrite H in E; discriminate E).
      apply in_app_or in I as [I|[->|[]]]; [|now destruct N]. destruct (IH I) as (y & Y). exists y. apply last_of_snoc. right. now split. }
  assert (G : forall x, In x handles -> exists y, dict_get t (fold (fst x)) = Some y /\ last_of (fun z => fold (fst z) = fold (fst x)) handles y).
  { intros x I. destruct (L x I) as (y & Y). exists y. split; [|exact Y]. unfold t. apply (tops_get (fun z => fold (fst z))). now left. }
  destruct (match root_name toplevel with Some n => dict_get t (fold n) | None => None end) as [h0|] eqn:E.
  - intro H. injection H as <- <-. split.
    + destruct (root_name toplevel) as [n|]; [|discriminate E]. now exists (fold n).
    + intros x I. destruct (G x I) as (y & Y1 & Y2). exists y. auto.
  - destruct (get_root (root_name toplevel)) as [h0|]; [|discriminate]. intro H. injection H as <- <-. split.
    + eexists. rewrite dict_set_get. now rewrite (proj2 (pystr_eqb_eq _ _) eq_refl).
    + intros x I. rewrite dict_set_get. destruct (pystr_eqb _ _); [exists h0; auto|]. destruct (G x I) as (y & Y1 & Y2). exists y. auto.
Qed.
Print Assumptions C71_tops.
Example C71_tops_ex : setup_root_handle ascii_fold (Some (lit "tb")) (Some [(lit "tb", 1); (lit "glbl", 2)]) (fun _ => None) [] =
  Ok ((lit "tb", 1), [(lit "tb", (lit "tb", 1)); (lit "glbl", (lit "glbl", 2))]).
Proof. reflexivity. Qed.
(** But not under its name, if that has a capital letter. *)
Theorem C71_tops_refuted : exists h tops, setup_root_handle ascii_fold None (Some [h]) (fun _ => Some h) [] = Ok (h, tops) /\ dict_get tops (fst h) = None.
Proof. exists (lit "Top", 1). eexists. split; reflexivity. Qed.
Print Assumptions C71_tops_refuted.
(** And of two roots whose names differ in case only, one is missing, and the wrong one can be [cocotb.top]. *)
Theorem C71_case_refuted : exists a b tops, fst a <> fst b /\
  setup_root_handle ascii_fold (Some (fst a)) (Some [a; b]) (fun n => match n with Some x => if pystr_eqb x (fst a) then Some a else None | None => None end) [] =
    Ok (b, tops) /\ ~ In a (map snd tops).
Proof.
  exists (lit "Top", 1), (lit "top", 2). eexists. split; [discriminate|]. split; [reflexivity|]. intros [E|[]]. discriminate E.
Qed.
Print Assumptions C71_case_refuted.
(** [cocotb.packages] has every package under its name; of packages with one name the last. *)
Theorem C71_packages pkgs k h : dict_get (process_packages (Some pkgs)) k = Some h <-> last_of (fun x => fst x = k) pkgs h.
Proof.
  unfold process_packages. rewrite (tops_get fst). split; [intros [L|[_ E]]; [exact L|discriminate E]|now left].
Qed.
Print Assumptions C71_packages.
Example C71_packages_ex : process_packages (Some [(lit "p", 1); (lit "q", 2)]) = [(lit "p", (lit "p", 1)); (lit "q", (lit "q", 2))] /\ process_packages None = [].
Proof. split; reflexivity. Qed.

(** * C72: entry points, preview features and shutdown *)

(** Entries of the form module:function are run in order until one fails, which ends the start with its error. *)
Theorem C72_run run users es : Forall2 entry_of (get_list users (Some default_entries) 44) es ->
  exists done rest, es = done ++ rest /\ fst (load_entry run users) = done /\
    (forall a e b, done = a ++ e :: b -> run a e = Ok tt) /\
    match rest with
    | [] => snd (load_entry run users) = Ok tt
    | e :: _ => exists x, run done e = Err x /\ snd (load_entry run users) = Err x
    end.
Proof.
  intro F. unfold load_entry. apply parse_entries_iff in F. rewrite F. exact (run_entries_spec run es []).
Qed.
Print Assumptions C72_run.
Example C72_run_ex : Forall2 entry_of (get_list (Some (lit "a:f, b.c:g.h ,")) (Some default_entries) 44) [(lit "a", lit "f"); (lit "b.c", lit "g.h")] /\
  load_entry (fun _ e => if pystr_eqb (fst e) (lit "b.c") then Err KeyError else Ok tt) (Some (lit "a:f, b.c:g.h ,")) = ([(lit "a", lit "f")], Err KeyError).
Proof. split; [|reflexivity]. apply parse_entries_iff. reflexivity. Qed.
(** One entry of another form: nothing is run. *)
Theorem C72_malformed run users : (forall es, ~ Forall2 entry_of (get_list users (Some default_entries) 44) es) ->
  load_entry run users = ([], Err RuntimeError).
Proof.
  intro N. unfold load_entry. destruct (parse_entries_err (get_list users (Some default_entries) 44)) as [(es & E)| ->]; [|reflexivity].
  exfalso. apply (N es). now apply parse_entries_iff.
Qed.
Print Assumptions C72_malformed.
Example C72_malformed_ex : forall es, ~ Forall2 entry_of (get_list (Some (lit "a:f,b.c")) (Some default_entries) 44) es.
Proof. intros es F. apply parse_entries_iff in F. discriminate F. Qed.
(** Without PYGPI_USERS cocotb itself is started: coverage, log, package, regression. *)
Theorem C72_default users : unset_or_blank users -> Forall2 entry_of (get_list users (Some default_entries) 44)
  [(lit "cocotb_tools._coverage", lit "start_cocotb_library_coverage"); (lit "cocotb.logging", lit "_configure");
   (lit "cocotb._init", lit "init_package_from_simulation"); (lit "cocotb.regression", lit "_run_regression")].
Proof. intro B. rewrite (get_list_unset_pf users (Some default_entries) B). apply parse_entries_iff. vm_compute. reflexivity. Qed.
Print Assumptions C72_default.
Example C72_default_ex : unset_or_blank None /\ unset_or_blank (Some (lit " ")).
Proof. split; [exact Logic.I|reflexivity]. Qed.

(** COCOTB_PREVIEW: a word for yes or no, or a list of features, all of which must exist. *)
Theorem C72_preview_word s : s <> [] -> (means_yes s -> preview_init (Some s) = Ok features) /\ (means_no s -> preview_init (Some s) = Ok []).
Proof.
  intro N. destruct (as_bool_pf s) as (Y & O & _). unfold preview_init. destruct s as [|c s]; [now destruct N|].
  split; intro M; [apply Y in M|apply O in M]; now rewrite M.
Qed.
Print Assumptions C72_preview_word.
Theorem C72_preview_list ps : ps <> [] -> Forall (fun p => ~ In 44 p) ps -> let s := join (lit ",") ps in s <> [] -> ~ means_yes s -> ~ means_no s ->
  (Forall (fun p => forall t, trimmed p t -> t = [] \/ In t features) ps ->
     exists ts, Forall2 trimmed ps ts /\ preview_init (Some s) = Ok (filter nonempty ts)) /\
  (forall p t, In p ps -> trimmed p t -> t <> [] -> ~ In t features -> preview_init (Some s) = Err ValueError).
Proof.
  intros NE F s N Y O. destruct (as_bool_pf s) as (_ & _ & E). specialize (E Y O).
  assert (P : preview_init (Some s) = parse_features ps).
  { pose proof (split_unique 44 ps NE F) as S. change (join [44] ps) with s in S. clearbody s. rewrite <- S. unfold preview_init.
    destruct s; [now destruct N|]. now rewrite E. }
  rewrite P. split.
  - intro A. exists (map strip ps). split.
    + clear. induction ps; constructor; [apply strip_trimmed|assumption].
    + apply parse_features_ok. eapply Forall_impl; [|exact A]. cbv beta. intros p H. apply H. apply strip_trimmed.
  - intros p t I T NT B. apply (parse_features_bad ps p I); rewrite (trimmed_strip p t T); assumption.
Qed.
Print Assumptions C72_preview_list.
Example C72_preview_ex : preview_init (Some (lit "Yes")) = Ok features /\ preview_init (Some (lit " xfail_in_results,")) = Ok [lit "xfail_in_results"] /\
  preview_init (Some (lit "xfail_in_results,other")) = Err ValueError /\ preview_init None = Ok [] /\
  ~ In 44 (lit " xfail_in_results") /\ join (lit ",") [lit " xfail_in_results"; []] = lit " xfail_in_results,".
Proof. repeat split; try reflexivity. intro I. cbn in I. repeat (destruct I as [E|I]; [discriminate E|]). destruct I. Qed.
(** Unlike for all other settings, blanks around the word are an error. *)
Theorem C72_preview_refuted : exists s t, trimmed s t /\ means_yes t /\ preview_init (Some s) = Err ValueError.
Proof.
  exists (lit "1 "), (lit "1"). split; [apply (strip_trimmed (lit "1 "))|]. split; [|reflexivity].
  exists "1"%string. split; [cbn; tauto|]. repeat constructor.
Qed.
Print Assumptions C72_preview_refuted.

(** Shutdown: the callbacks are called in the order of their registration, those registered during the shutdown after all
    earlier ones, each once, until one raises; this always ends. *)
Theorem C72_shutdown_ends q : exists called left raised, shutdown q called left raised.
Proof. exact (shutdown_exists _ q (le_n _)). Qed.
Print Assumptions C72_shutdown_ends.
Theorem C72_shutdown q called left raised : shutdown q called left raised -> exists later,
  generations (S (list_sum (map cb_size q))) q = called ++ later /\
  (raised = false -> later = [] /\ left = [] /\ none_raises called) /\
  (raised = true -> exists pre c, called = pre ++ [c] /\ none_raises pre /\ cb_raises c = true).
Proof.
  intro H. destruct (shutdown_queue _ _ _ _ H _ (le_n _)) as (later & E & A & B). exists later. split; [|now split].
  rewrite <- E. symmetry. apply queue_generations; apply le_n.
Qed.
Print Assumptions C72_shutdown.
(** Nobody is lost: everyone registered is called or still registered. *)
Theorem C72_shutdown_left q called left raised : shutdown q called left raised ->
  Permutation (q ++ flat_map cb_registers called) (called ++ left).
Proof. exact (shutdown_left q called left raised). Qed.
Print Assumptions C72_shutdown_left.
Example C72_shutdown_ex : let a := Callback 1 [Callback 3 [] false; Callback 4 [] false] false in let b := Callback 2 [] false in
  shutdown [a; b] [a; b; Callback 3 [] false; Callback 4 [] false] [] false.
Proof. cbv zeta. repeat (eapply sd_next; [reflexivity|]). constructor. Qed.
(** An error in a callback (that of the user coverage is registered before the regression's) leaves the others uncalled. *)
Theorem C72_shutdown_refuted : exists cov reg called left, cb_raises reg = false /\ shutdown [cov; reg] called left true /\ ~ In reg called.
Proof.
  exists (Callback 1 [] true), (Callback 2 [] false), [Callback 1 [] true], [Callback 2 [] false]. split; [reflexivity|]. split.
  - now constructor.
  - intros [E|[]]. discriminate E.
Qed.
Print Assumptions C72_shutdown_refuted.

(** * C73: the choice of the tests *)

(** The tests are those of the modules, in the order of the modules and within a module in the order of definition; it is an
    error if there are none or a module cannot be imported. *)
Theorem C73_discover import ms ts : discover import ms [] = Ok ts <->
  exists mss, Forall2 (fun m x => import m = Ok x) ms mss /\ ts = List.concat (map module_tests mss) /\ ts <> [].
Proof. exact (discover_iff import ms [] ts). Qed.
Print Assumptions C73_discover.
Definition a_test (n : string) : test := Test 0 (lit n) 0 false [] false true.
Example C73_discover_ex : discover (fun m => Ok [MTest (a_test "m.a"); MOther; MGenerator [a_test "m.b1"; a_test "m.b2"]]) [lit "m"] [] =
  Ok [a_test "m.a"; a_test "m.b1"; a_test "m.b2"].
Proof. reflexivity. Qed.
(** Which filters are used, and when the settings are refused. *)
Theorem C73_setup import compile modules testcase filter ts fs mode :
  setup_regression import compile modules testcase filter = Ok (ts, fs, mode) <->
  get_list modules None 44 <> [] /\ discover import (get_list modules None 44) [] = Ok ts /\ Forall (fun f => compile f = true) fs /\
  ((get_list testcase None 44 <> [] /\ unset_or_blank filter /\ fs = map (fun t => t ++ lit "$") (get_list testcase None 44) /\ mode = true) \/
   (get_list testcase None 44 = [] /\ ~ unset_or_blank filter /\ fs = [get_str filter None] /\ mode = true) \/
   (get_list testcase None 44 = [] /\ unset_or_blank filter /\ fs = [] /\ mode = false)).
Proof.
  unfold setup_regression. destruct (get_list modules None 44) as [|m ms]; [split; [discriminate|]; now intros (N & _)|].
  destruct (discover import (m :: ms) []) as [ts0|] eqn:D; cbn [bind]; [|split; [discriminate|]; intros (_ & E & _); discriminate E].
  assert (A : forall l, (if forallb compile l then Ok (ts0, l, true) else Err ValueError) = Ok (ts, fs, mode) <->
    Ok ts0 = Ok ts /\ Forall (fun f => compile f = true) l /\ fs = l /\ mode = true).
  { intro l. destruct (forallb compile l) eqn:F.
    - assert (FA : Forall (fun f => compile f = true) l) by (apply Forall_forall; now apply forallb_forall). split.
      + intro E. injection E as <- <- <-. auto.
      + intros (E & _ & -> & ->). injection E as <-. reflexivity.
    - split; [discriminate|]. intros (_ & FA & _). rewrite Forall_forall in FA. apply forallb_forall in FA. rewrite FA in F. discriminate F. }
  pose proof (get_str_unset filter) as U. destruct (get_list testcase None 44) as [|t tc], (get_str filter None) as [|c f].
  - split.
    + intro E. injection E as <- <- <-. split; [discriminate|]. split; [reflexivity|]. split; [constructor|]. right. right. split; [reflexivity|]. split; [now apply U|now split].
    + intros (_ & E & _ & [(N & _)|[(_ & N & _)|(_ & _ & -> & ->)]]); [now destruct N|exfalso; apply N; now apply U|]. injection E as <-. reflexivity.
  - assert (N : ~ unset_or_blank filter) by (intro B; apply U in B; discriminate B). rewrite A. split.
    + intros (E & F & -> & ->). split; [discriminate|]. split; [exact E|]. split; [exact F|]. right. left. auto.
    + intros (_ & E & F & [(M & _)|[(_ & _ & -> & ->)|(_ & B & _)]]); [now destruct M|auto|now destruct (N B)].
  - pose proof (proj1 U eq_refl) as B. rewrite A. split.
    + intros (E & F & -> & ->). split; [discriminate|]. split; [exact E|]. split; [exact F|]. left. repeat split; [discriminate|exact B].
    + intros (_ & E & F & [(_ & _ & -> & ->)|[(M & _)|(M & _)]]); [auto|discriminate M|discriminate M].
  - assert (N : ~ unset_or_blank filter) by (intro B; apply U in B; discriminate B). split; [discriminate|].
    intros (_ & E & F & [(_ & B & _)|[(M & _)|(M & _)]]); [now destruct (N B)|discriminate M|discriminate M].
Qed.
Print Assumptions C73_setup.
Theorem C73_both import compile modules testcase filter ts : get_list modules None 44 <> [] -> discover import (get_list modules None 44) [] = Ok ts ->
  get_list testcase None 44 <> [] -> ~ unset_or_blank filter -> setup_regression import compile modules testcase filter = Err RuntimeError.
Proof.
  intros M D T F. unfold setup_regression. destruct (get_list modules None 44); [now destruct M|]. rewrite D. cbn [bind].
  destruct (get_list testcase None 44); [now destruct T|]. destruct (get_str filter None) eqn:E; [|reflexivity]. exfalso. apply F. now apply get_str_unset.
Qed.
Print Assumptions C73_both.
Example C73_setup_ex : let import := fun _ => Ok [MTest (a_test "m.a")] in
  setup_regression import (fun _ => true) (Some (lit "m")) (Some (lit "a, b")) None = Ok ([a_test "m.a"], [lit "a$"; lit "b$"], true) /\
  setup_regression import (fun _ => true) (Some (lit "m")) (Some (lit "a")) (Some (lit "b")) = Err RuntimeError /\
  setup_regression import (fun _ => true) None None None = Err RuntimeError.
Proof. repeat split; reflexivity. Qed.
(** A filter for a name without special characters finds the tests whose full name ends with it. *)
Theorem C73_testcase name : plain_text name -> exists r, re_compile (name ++ lit "$") = Some r /\ forall full, re_search r full <-> ends_with full name.
Proof. intro P. exists (dollar_re name). split; [now apply dollar_compile|]. intro full. apply dollar_search. Qed.
Print Assumptions C73_testcase.
Example C73_testcase_ex : plain_text (lit "test_1/x=2") /\ ends_with (lit "mod.test_1/x=2") (lit "test_1/x=2").
Proof.
  split; [|exists (lit "mod."); now left]. intros c I. cbn in I.
  repeat (destruct I as [<-|I]; [split; [|lia]; intro J; cbn in J; repeat (destruct J as [E|J]; [discriminate E|]); destruct J|]). destruct I.
Qed.
(** So the tests run in this mode, with the filters of the regression (C44), are those. *)
Theorem C73_selected c names tests t : names <> [] -> Forall plain_text names ->
  Forall2 (fun f text => exists r, re_compile text = Some r /\ forall s, f s = true <-> re_search r s) (c_filters c) (map (fun n => n ++ lit "$") names) ->
  (In t (apply_filters c tests) <-> In t tests /\ exists n, In n names /\ ends_with (t_fullname t) n).
Proof.
  intros NE P F. unfold apply_filters.
  assert (X : forall s, existsb (fun f => f s) (c_filters c) = true <-> exists n, In n names /\ ends_with s n).
  { intro s. clear NE. revert P F. generalize (c_filters c). induction names as [|n ns IH]; intros fs P F; cbn [map] in F.
    - inversion F; subst. split; [discriminate|]. intros (n & [] & _).
    - inversion F as [|f ? fs' ? (r & C & R) F']; subst. inversion P as [|? ? P1 P2]; subst. cbn [existsb]. rewrite orb_true_iff, (IH fs' P2 F'), R.
      pose proof (eq_trans (eq_sym C) (dollar_compile n P1)) as D. injection D as ->. rewrite dollar_search. split.
      + intros [E|(m & I & E)]; [exists n; split; [now left|exact E]|exists m; split; [now right|exact E]].
      + intros (m & [<-|I] & E); [now left|right; exists m; auto]. }
  destruct (c_filters c) as [|f fs] eqn:CF; [destruct names; [now destruct NE|inversion F]|]. rewrite filter_In, X. reflexivity.
Qed.
Print Assumptions C73_selected.
Definition ends_with_a (s : pystr) : bool :=
  match rev s with c :: r => (c =? 97) || (c =? 10) && match r with d :: _ => d =? 97 | [] => false end | [] => false end.
Example C73_selected_ex : let c := Cfg (fun _ _ => false) (fun _ _ => false) (fun _ => 0) (fun x => x) 0 0 true [ends_with_a] false in
  Forall plain_text [lit "a"] /\
  Forall2 (fun f text => exists r, re_compile text = Some r /\ forall s, f s = true <-> re_search r s) (c_filters c) (map (fun n => n ++ lit "$") [lit "a"]) /\
  apply_filters c [a_test "m.b"; a_test "m.a"] = [a_test "m.a"].
Proof.
  cbv zeta. assert (P : plain_text (lit "a")).
  { intros c [<-|[]]. cbn. split; [|lia]. intro J. repeat (destruct J as [E|J]; [discriminate E|]). destruct J. }
  split; [constructor; [exact P|constructor]|]. split; [|reflexivity]. constructor; [|constructor]. exists (dollar_re (lit "a")). split; [now apply dollar_compile|].
  intro s. rewrite dollar_search. unfold ends_with_a, ends_with. pose proof (rev_involutive s) as R. destruct (rev s) as [|x r]; rewrite <- R; clear s R.
  - split; [discriminate|]. intros (p & [E|E]); now destruct p.
  - rewrite orb_true_iff, andb_true_iff, !Z.eqb_eq. split.
    + intros [->|[-> D]]; [exists (rev r); now left|]. destruct r as [|y r]; [discriminate D|]. apply Z.eqb_eq in D as ->. exists (rev r). right. cbn [rev].
      now rewrite <- app_assoc.
    + intros (p & [E|E]); apply (f_equal (@rev Z)) in E; rewrite rev_involutive, rev_app_distr in E; cbn in E; injection E as -> ->; [now left|right].
      split; reflexivity.
Qed.
(** COCOTB_TESTCASE "does an exact match on the test name" (library_reference.rst): other tests are found too. *)
Theorem C73_exact_refuted : exists name full r, full = lit "mod.test_no_" ++ name /\ re_compile (name ++ lit "$") = Some r /\ re_search r full.
Proof.
  exists (lit "reset"), (lit "mod.test_no_reset"), (dollar_re (lit "reset")). split; [reflexivity|]. split; [reflexivity|].
  apply dollar_search. exists (lit "mod.test_no_"). now left.
Qed.
Print Assumptions C73_exact_refuted.
(** And a test is not found by its own name, if that has a character with a meaning in regular expressions. *)
Theorem C73_special_refuted : exists name r, re_compile (name ++ lit "$") = Some r /\ ~ re_search r (lit "mod." ++ name).
Proof.
  exists (lit "t/op=*"). eexists. split; [reflexivity|]. intros (before & s & t & E & M).
  inversion M as [| | | | |? ? ? t1 ? H1 H2| | | |]; subst. inversion H1; subst. clear M H1.
  inversion H2 as [| | | | |? ? ? t2 ? H3 H4| | | |]; subst. inversion H3; subst. clear H2 H3.
  inversion H4 as [| | | | |? ? ? t3 ? H5 H6| | | |]; subst. inversion H5; subst. clear H4 H5.
  inversion H6 as [| | | | |? ? ? t4 ? H7 H8| | | |]; subst. inversion H7; subst. clear H6 H7.
  inversion H8 as [| | | | |? ? ? t5 ? H9 H10| | | |]; subst.
  assert (S : exists k, t4 = repeat 61 k ++ t5).
  { remember (RStar (RChr 61)) as r eqn:R. clear - H9 R. induction H9; try discriminate R; [now exists O|]. injection R as ->.
    inversion H9_; subst. destruct (IHRMatch2 eq_refl) as (k & ->). now exists (S k). }
  destruct S as (k & ->). inversion H10 as [| | | | |? ? ? t6 ? H11 H12| | | |]; subst.
  apply (f_equal (@rev Z)) in E. rewrite rev_app_distr in E. cbn [rev app] in E. rewrite !rev_app_distr in E.
  assert (Q : t5 = [] \/ t5 = [10]) by (inversion H11; auto). destruct Q as [->| ->]; unfold pystr in *; cbn in E; [rewrite app_nil_r in E|rewrite rev_app_distr in E]; cbn in E.
  - destruct (rev (repeat 61 k)) as [|x l] eqn:R; [discriminate E|].
    assert (I : In x (repeat 61 k)) by (apply in_rev; rewrite R; now left). apply repeat_spec in I. subst x. discriminate E.
  - discriminate E.
Qed.
Print Assumptions C73_special_refuted.

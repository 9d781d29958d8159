(** Property theorems C96 (libraries of the interface). *)
From Verif Require Import Base TextModel GpiLoadModel.
From Verif Require ToolsProofs BuildModel BuildProps RunnerModel RunnerSpec RunnerProps.
From Coq Require Import String Lia.
Open Scope Z_scope.

Lemma NoDup_app_cons_last {A} (l : list A) x : NoDup l -> ~ In x l -> NoDup (l ++ [x]).
Proof.
  intros D N. induction D as [|y l Y _ IH]; [constructor; [intros []|constructor]|]. cbn. constructor.
  - rewrite in_app_iff. intros [I|[I|[]]]; [now apply Y|]. subst. apply N. now left.
  - apply IH. intro I. apply N. now right.
Qed.
Lemma rsplit_none c s : rsplit c s = None <-> ~ In c s.
Proof.
  induction s as [|x s IH]; cbn; [tauto|]. destruct (rsplit c s) as [[a b]|].
  - split; [discriminate|]. intro N. exfalso. assert (~ In c s) by tauto. apply IH in H. discriminate H.
  - destruct (Z.eqb_spec x c) as [E|E]; [split; [discriminate|tauto]|]. split; [|reflexivity]. intros _ [H|H]; [contradiction|]. revert H. now apply IH.
Qed.
Lemma rsplit_app c a b : ~ In c b -> rsplit c (a ++ [c] ++ b) = Some (a, b).
Proof.
  intro N. induction a as [|x a IH]; cbn.
  - apply rsplit_none in N. rewrite N, Z.eqb_refl. reflexivity.
  - cbn in IH. now rewrite IH.
Qed.
Lemma without_empty_last_full l : Forall (fun x => x <> []) l -> without_empty_last l = l.
Proof.
  induction 1 as [|x l X _ IH]; [reflexivity|]. destruct l as [|y l].
  - cbn. destruct x; [now elim X|reflexivity].
  - change (without_empty_last (x :: y :: l)) with (x :: without_empty_last (y :: l)). now rewrite IH.
Qed.

(** A library and its entry point, as the runner writes them (runner.py:1187, 1399, 1734, 1753, 2168). *)
Definition extra_text (e : pystr * pystr) : pystr := fst e ++ lit ":" ++ snd e.
Definition plain_extra (e : pystr * pystr) : Prop := ~ In 44 (fst e) /\ ~ In 44 (snd e) /\ ~ In 58 (snd e).
Definition loads (y : system) (e : pystr * pystr) : Prop := opens y (fst e) = true /\ has y (fst e) (snd e) = true.
Definition done (e : pystr * pystr) : list act := [AOpen (fst e); ACall (fst e) (snd e)].
Lemma load_libs_all y l : Forall plain_extra l -> Forall (loads y) l -> load_libs y (map extra_text l) = (flat_map done l, Goes).
Proof.
  induction 1 as [|e l P _ IH]; intro L; [reflexivity|]. inversion L as [|? ? [O H] L']; subst. cbn [map load_libs flat_map]. unfold extra_text at 1.
  destruct P as (_ & _ & N). rewrite rsplit_app by exact N. rewrite O, H, (IH L'). reflexivity.
Qed.
Lemma extra_list_join l : Forall plain_extra l -> extra_list (join (lit ",") (map extra_text l)) = map extra_text l.
Proof.
  intro P. destruct l as [|e l]; [reflexivity|]. unfold extra_list. change (lit ",") with [44]. rewrite ToolsProofs.split_unique.
  - apply without_empty_last_full. apply Forall_forall. intros x I. apply in_map_iff in I as (k & <- & _). unfold extra_text. destruct (fst k); discriminate.
  - discriminate.
  - apply Forall_forall. intros x I. apply in_map_iff in I as (k & <- & K). pose proof (proj1 (Forall_forall _ _) P k K) as (A & B & _).
    unfold extra_text. rewrite !in_app_iff. cbn. intuition lia.
Qed.

(** ** GPI_EXTRA *)
(** All libraries which the runner names in GPI_EXTRA are opened and their entry points are called, in order, and nothing else happens. *)
Theorem C96_extra y l users : Forall plain_extra l -> Forall (loads y) l ->
  entry_point y (Some (join (lit ",") (map extra_text l))) users =
  (flat_map done l ++ fst (entry_point y None users), snd (entry_point y None users)).
Proof.
  intros P L. unfold entry_point. rewrite extra_list_join, load_libs_all by assumption. destruct users as [u|]; [|now rewrite app_nil_r].
  destruct (load_users y (split 59 u)). reflexivity.
Qed.
Print Assumptions C96_extra.
(** The text of the Questa runners, through both programs: every interface but the first is loaded. *)
Definition questa_entry (m : BuildModel.machine) (j : string) : pystr * pystr := (BuildModel.m_lib m j "questa", lit "cocotb" ++ lit j ++ lit "_entry_point").
Theorem C96_questa y s m t i rest cmds e users : In s [BuildModel.Questa; BuildModel.QuestaQIS] -> BuildModel.t_gpi t = i :: rest ->
  BuildModel.test_command s m t = BuildModel.BOk (cmds, e) ->
  (forall j, In j rest -> In j ["vpi"; "vhpi"; "fli"]%string /\ ~ In 44 (BuildModel.m_lib m j "questa") /\ loads y (questa_entry m j)) ->
  exists v, e = [(lit "GPI_EXTRA", v)] /\
    entry_point y (Some v) users =
    (flat_map (fun j => done (questa_entry m j)) rest ++ fst (entry_point y None users), snd (entry_point y None users)).
Proof.
  intros I G T R. destruct (BuildProps.C66_gpi_extra s m t i rest I G) as [A B].
  assert (F : Forall (fun j => BuildModel.m_lib_exists m (BuildModel.m_lib m j "questa") = true) rest).
  { apply Forall_forall. intros j J. destruct (BuildModel.m_lib_exists m (BuildModel.m_lib m j "questa")) eqn:E; [reflexivity|].
    rewrite B in T by (apply Exists_exists; now exists j). discriminate T. }
  destruct (A F) as [c T']. rewrite T in T'. pose proof (f_equal (fun r => match r with BuildModel.BOk p => snd p | _ => [] end) T') as E. cbv beta iota in E. cbn [snd] in E. subst e. eexists. split; [reflexivity|].
  replace (map (fun j => BuildModel.m_lib m j "questa" ++ lit ":cocotb" ++ lit j ++ lit "_entry_point") rest) with (map extra_text (map (questa_entry m) rest))
    by (rewrite map_map; apply map_ext; intro j; reflexivity).
  rewrite C96_extra.
  - f_equal. f_equal. clear. induction rest as [|j l IH]; [reflexivity|]. cbn [map flat_map]. now rewrite IH.
  - apply Forall_forall. intros x X. apply in_map_iff in X as (j & <- & J). destruct (R j J) as (K & C & _).
    destruct K as [<-|[<-|[<-|[]]]]; (split; [exact C|]; split; cbn; lia).
  - apply Forall_forall. intros x X. apply in_map_iff in X as (j & <- & J). apply (R j J).
Qed.
Print Assumptions C96_questa.
Example C96_questa_ex : exists cmds v,
  BuildModel.test_command BuildModel.QuestaQIS (BuildProps.ex_machine (fun _ => None)) BuildProps.ex_test = BuildModel.BOk (cmds, [(lit "GPI_EXTRA", v)]) /\
  fst (entry_point (System (fun _ => true) (fun _ _ => true)) (Some v) None) = [AOpen (lit "/libs/fli_questa"); ACall (lit "/libs/fli_questa") (lit "cocotbfli_entry_point")].
Proof. eexists _, _. split; [vm_compute; reflexivity|]. vm_compute. reflexivity. Qed.

(** On Riviera, Active-HDL and Xcelium exactly the one library of the other language is loaded. *)
Theorem C96_other y s m t cmds e users : In s [BuildModel.Riviera; BuildModel.ActiveHDL; BuildModel.Xcelium] ->
  BuildModel.test_command s m t = BuildModel.BOk (cmds, e) ->
  let i := match s with BuildModel.Xcelium => "vhpi"%string | _ => if BuildModel.t_vhdl t then "vpi"%string else "vhpi"%string end in
  let lib := BuildModel.m_lib m i (match s with BuildModel.Xcelium => "xcelium" | _ => "riviera" end) in
  let fn := lit "cocotb" ++ lit i ++ lit "_entry_point" in
  ~ In 44 lib -> loads y (lib, fn) ->
  entry_point y (dict_get e (lit "GPI_EXTRA")) users = (AOpen lib :: ACall lib fn :: fst (entry_point y None users), snd (entry_point y None users)).
Proof.
  intros I T i lib fn C L. pose proof (BuildProps.C66_interface s m t cmds e T) as F.
  assert (E : dict_get e (lit "GPI_EXTRA") = Some (join (lit ",") (map extra_text [(lib, fn)]))).
  { destruct I as [<-|[<-|[<-|[]]]]; cbv beta iota zeta in F.
    - rewrite F. unfold lib, fn, i. destruct (BuildModel.t_vhdl t); reflexivity.
    - rewrite F. unfold lib, fn, i. destruct (BuildModel.t_vhdl t); reflexivity.
    - destruct F as [_ F]. exact F. }
  rewrite E, C96_extra; [reflexivity| |repeat constructor; apply L].
  constructor; [|constructor]. split; [exact C|]. unfold fn. cbn [snd].
  destruct I as [<-|[<-|[<-|[]]]]; unfold i; try destruct (BuildModel.t_vhdl t); split; cbn; lia.
Qed.
Print Assumptions C96_other.
Example C96_other_ex : exists cmds e, BuildModel.test_command BuildModel.Riviera (BuildProps.ex_machine (fun _ => None)) BuildProps.ex_test = BuildModel.BOk (cmds, e) /\
  fst (entry_point (System (fun _ => true) (fun _ _ => true)) (dict_get e (lit "GPI_EXTRA")) None) = [AOpen (lit "/libs/vhpi_riviera"); ACall (lit "/libs/vhpi_riviera") (lit "cocotbvhpi_entry_point")].
Proof. eexists _, _. split; [vm_compute; reflexivity|]. vm_compute. reflexivity. Qed.

(** A failure stops everything: the process ends, no user is loaded. *)
Theorem C96_extra_failed y l e r users : Forall plain_extra (l ++ e :: r) -> Forall (loads y) l -> ~ loads y e ->
  exists o, entry_point y (Some (join (lit ",") (map extra_text (l ++ e :: r)))) users = (flat_map done l ++ o ++ [AExit], Stops) /\
    (o = [] \/ o = [AOpen (fst e)]).
Proof.
  intros P L N. unfold entry_point. rewrite extra_list_join by exact P. 
  assert (E : exists o, load_libs y (map extra_text (l ++ e :: r)) = (flat_map done l ++ o ++ [AExit], Stops) /\ (o = [] \/ o = [AOpen (fst e)])).
  { clear users. induction l as [|k l IH].
    - inversion P as [|? ? (_ & _ & C) _]; subst. cbn [app map load_libs flat_map]. unfold extra_text at 1. rewrite rsplit_app by exact C.
      destruct (opens y (fst e)) eqn:O; [|exists []; now split; [|left]]. destruct (has y (fst e) (snd e)) eqn:H; [now elim N|].
      exists [AOpen (fst e)]. split; [reflexivity|now right].
    - inversion P as [|? ? (_ & _ & C) P']; subst. inversion L as [|? ? [O H] L']; subst. destruct (IH P' L') as (o & E & Q). exists o. split; [|exact Q].
      cbn [app map load_libs flat_map]. unfold extra_text at 1. rewrite rsplit_app by exact C. rewrite O, H, E. reflexivity. }
  destruct E as (o & -> & Q). exists o. now split.
Qed.
Print Assumptions C96_extra_failed.
Example C96_extra_ex : let y := System (fun l => negb (pystr_eqb l (lit "/no"))) (fun _ _ => true) in
  fst (entry_point y (Some (lit "C:/a:f,/b:g")) (Some (lit "/p;/q,h"))) =
    [AOpen (lit "C:/a"); ACall (lit "C:/a") (lit "f"); AOpen (lit "/b"); ACall (lit "/b") (lit "g"); AOpen (lit "/p"); AOpen (lit "/q"); ACall (lit "/q") (lit "h")] /\
  entry_point y (Some (lit "/a:f,/no:g")) (Some (lit "/p")) = ([AOpen (lit "/a"); ACall (lit "/a") (lit "f"); AExit], Stops).
Proof. now split. Qed.
(** A comma in the path of a library makes two libraries of one; the process ends. *)
Theorem C96_comma_refuted : exists l, l <> [] /\ forall y users, entry_point y (Some (join (lit ",") (map extra_text l))) users = ([AExit], Stops).
Proof. exists [(lit "/my,libs/libcocotbvhpi.so", lit "cocotbvhpi_entry_point")]. split; [discriminate|]. reflexivity. Qed.
Print Assumptions C96_comma_refuted.

(** ** GPI_USERS *)
(** The value of the runner (runner.py:284-303): libpython, then the entry of cocotb's own library. *)
Theorem C96_users y libpython lib : ~ In 59 libpython -> ~ In 44 libpython -> ~ In 59 lib ->
  opens y libpython = true -> loads y (lib, lit "initialize") ->
  entry_point y None (Some (join (lit ";") [libpython; lib ++ lit ",initialize"])) = ([AOpen libpython; AOpen lib; ACall lib (lit "initialize")], Goes).
Proof.
  intros A B C O [L H]. unfold entry_point. change (lit ";") with [59]. rewrite ToolsProofs.split_unique; [|discriminate|].
  - cbn [load_users]. apply rsplit_none in B. rewrite B, O. change (lit ",initialize") with ([44] ++ lit "initialize").
    rewrite rsplit_app by (cbn; lia). cbn [fst snd] in L, H. rewrite L, H. reflexivity.
  - constructor; [exact A|]. constructor; [|constructor]. rewrite in_app_iff. intros [D|D]; [now apply C|]. cbn in D. lia.
Qed.
Print Assumptions C96_users.
Example C96_users_ex : entry_point (System (fun _ => true) (fun _ _ => true)) None (Some (lit "/usr/lib/libpython3.so;/x/sim,1.so,initialize")) =
  ([AOpen (lit "/usr/lib/libpython3.so"); AOpen (lit "/x/sim,1.so"); ACall (lit "/x/sim,1.so") (lit "initialize")], Goes).
Proof. reflexivity. Qed.
(** Through both programs: the value in the environment of a test run is one of the user's, or it loads libpython and starts cocotb. *)
Theorem C96_runner h environ a f e y lib : NoDup (map fst environ) -> RunnerModel.test_env h environ a f = Ok e ->
  RunnerModel.h_entry h = lib ++ lit ",initialize" -> ~ In 59 lib -> loads y (lib, lit "initialize") ->
  RunnerSpec.first environ (RunnerSpec.asked a) (lit "GPI_USERS") = None ->
  exists p, (RunnerSpec.first environ (RunnerSpec.asked a) (lit "LIBPYTHON_LOC") = Some p \/
             RunnerSpec.first environ (RunnerSpec.asked a) (lit "LIBPYTHON_LOC") = None /\ RunnerModel.h_libpython h = Some p) /\
    (~ In 59 p -> ~ In 44 p -> opens y p = true ->
     entry_point y None (dict_get e (lit "GPI_USERS")) = ([AOpen p; AOpen lib; ACall lib (lit "initialize")], Goes)).
Proof.
  intros N T E C L F. pose proof (RunnerProps.C63_gpi_users h environ a f e N T) as G. rewrite F in G. destruct G as (p & G & Q).
  exists p. split; [exact Q|]. intros A B O. rewrite G, E. apply (C96_users y p lib A B C O L).
Qed.
Print Assumptions C96_runner.
Example C96_runner_ex : exists e, RunnerModel.test_env (RunnerModel.Host (Some (lit "/usr/lib/libpython.so")) (lit "/c/libs") (lit "/p1:/p2") (lit "/usr/bin/python3") (lit "/c/simulator.so,initialize"))
    RunnerProps.ex_environ RunnerProps.ex_args [] = Ok e /\
  entry_point (System (fun _ => true) (fun _ _ => true)) None (dict_get e (lit "GPI_USERS")) =
    ([AOpen (lit "/usr/lib/libpython.so"); AOpen (lit "/c/simulator.so"); ACall (lit "/c/simulator.so") (lit "initialize")], Goes).
Proof. eexists. split; [vm_compute; reflexivity|vm_compute; reflexivity]. Qed.
(** A comma in the path of libpython: a library which the runner did not name is looked for. *)
Theorem C96_libpython_refuted : exists libpython lib y, opens y libpython = true /\ loads y (lib, lit "initialize") /\
  entry_point y None (Some (join (lit ";") [libpython; lib ++ lit ",initialize"])) = ([AFinish], Stops).
Proof.
  exists (lit "/opt/py,3/libpython.so"), (lit "/x/sim.so"), (System (fun l => negb (pystr_eqb l (lit "/opt/py"))) (fun _ _ => true)).
  split; [reflexivity|]. split; [now split|]. vm_compute. reflexivity.
Qed.
Print Assumptions C96_libpython_refuted.
(** Whatever GPI_USERS is: the libraries are treated in order up to the first which fails; then, and only then, the end of the simulation
    is requested. *)
Definition user_of (u : pystr) : pystr * option pystr := match rsplit 44 u with None => (u, None) | Some (a, b) => (a, Some b) end.
Definition user_loads (y : system) (u : pystr) : Prop :=
  opens y (fst (user_of u)) = true /\ forall f, snd (user_of u) = Some f -> has y (fst (user_of u)) f = true.
Definition user_done (u : pystr) : list act :=
  AOpen (fst (user_of u)) :: match snd (user_of u) with Some f => [ACall (fst (user_of u)) f] | None => [] end.
Theorem C96_users_all y s : let l := split 59 s in
  (Forall (user_loads y) l -> entry_point y None (Some s) = (flat_map user_done l, Goes)) /\
  (forall a u b, l = a ++ u :: b -> Forall (user_loads y) a -> ~ user_loads y u ->
     exists o, entry_point y None (Some s) = (flat_map user_done a ++ o ++ [AFinish], Stops) /\ (o = [] \/ o = [AOpen (fst (user_of u))])).
Proof.
  cbv zeta. unfold entry_point. generalize (split 59 s). clear s. intro l.
  assert (S : forall u l, load_users y (u :: l) = 
     (if opens y (fst (user_of u)) then
        match snd (user_of u) with
        | None => let '(r, n) := load_users y l in (AOpen (fst (user_of u)) :: r, n)
        | Some f => if has y (fst (user_of u)) f then let '(r, n) := load_users y l in (AOpen (fst (user_of u)) :: ACall (fst (user_of u)) f :: r, n)
                    else ([AOpen (fst (user_of u)); AFinish], Stops)
        end
      else ([AFinish], Stops))).
  { intros u k. cbn [load_users]. unfold user_of. destruct (rsplit 44 u) as [[a b]|]; reflexivity. }
  assert (G : forall u k, user_loads y u -> load_users y (u :: k) = (user_done u ++ fst (load_users y k), snd (load_users y k))).
  { intros u k [O H]. rewrite S, O. unfold user_done. destruct (snd (user_of u)) as [f|]; [rewrite (H f eq_refl)|]; destruct (load_users y k); reflexivity. }
  split.
  - intro F. enough (E : load_users y l = (flat_map user_done l, Goes)) by now rewrite E.
    induction F as [|u k U _ IH]; [reflexivity|]. rewrite G by exact U. rewrite IH. reflexivity.
  - intros a u b -> F N. enough (E : exists o, load_users y (a ++ u :: b) = (flat_map user_done a ++ o ++ [AFinish], Stops) /\ (o = [] \/ o = [AOpen (fst (user_of u))])).
    { destruct E as (o & -> & Q). exists o. now split. }
    induction F as [|k a U _ IH].
    + cbn [app flat_map]. rewrite S. destruct (opens y (fst (user_of u))) eqn:O; [|exists []; now split; [|left]].
      destruct (snd (user_of u)) as [f|] eqn:Q.
      * destruct (has y (fst (user_of u)) f) eqn:H; [|exists [AOpen (fst (user_of u))]; split; [reflexivity|now right]].
        elim N. split; [exact O|]. intros f' E. rewrite Q in E. injection E as <-. exact H.
      * elim N. split; [exact O|]. intros f' E. rewrite Q in E. discriminate E.
    + destruct IH as (o & E & Q). exists o. split; [|exact Q]. change ((k :: a) ++ u :: b) with (k :: a ++ u :: b). rewrite G by exact U. rewrite E. cbn [fst snd flat_map]. now rewrite <- app_assoc.
Qed.
Print Assumptions C96_users_all.
Example C96_users_all_ex : let y := System (fun l => negb (pystr_eqb l (lit "/no"))) (fun _ _ => true) in
  split 59 (lit "/a,f;/no;/b") = [lit "/a,f"] ++ lit "/no" :: [lit "/b"] /\ user_loads y (lit "/a,f") /\ ~ user_loads y (lit "/no").
Proof. split; [reflexivity|]. split; [split; [reflexivity|]; reflexivity|]. intros [O _]. discriminate O. Qed.
(** Without GPI_USERS nothing is loaded, but the simulation is not ended although the message says so: it runs without cocotb. *)
Theorem C96_no_users_refuted : forall y, entry_point y None None = ([], Stops).
Proof. reflexivity. Qed.
Print Assumptions C96_no_users_refuted.

(** ** Implementations *)
(** Every name is registered once; the first one stays the first (it is the one asked for the time and for timed callbacks), and a name
    which is there already is refused. *)
Theorem C96_registered names :
  NoDup (register_all names) /\ (forall n, In n (register_all names) <-> In n names) /\ hd_error (register_all names) = hd_error names.
Proof.
  assert (X : forall n l, existsb (pystr_eqb n) l = true <-> In n l).
  { intros n l. rewrite existsb_exists. split.
    - intros (x & I & E). apply pystr_eqb_eq in E. now subst.
    - intro I. exists n. split; [exact I|now apply pystr_eqb_eq]. }
  assert (G : forall l acc, NoDup acc -> let r := fold_left (fun l n => fst (register_impl n l)) l acc in
    NoDup r /\ (forall n, In n r <-> In n acc \/ In n l) /\ (acc <> [] -> hd_error r = hd_error acc)).
  { induction l as [|n l IH]; intros acc D; cbn [fold_left]; [cbn; intuition|]. 
    assert (R : fst (register_impl n acc) = if existsb (pystr_eqb n) acc then acc else acc ++ [n]) by (unfold register_impl; now destruct (existsb _ _)).
    rewrite R. clear R. destruct (existsb (pystr_eqb n) acc) eqn:E.
    - apply X in E. destruct (IH acc D) as (A & B & C). split; [exact A|]. split; [|exact C]. intro k. rewrite B. cbn [In]. intuition. subst. now left.
    - assert (N : ~ In n acc) by (intro I; apply X in I; congruence). assert (D' : NoDup (acc ++ [n])).
      { apply NoDup_app_cons_last; assumption. }
      destruct (IH _ D') as (A & B & C). split; [exact A|]. split.
      + intro k. rewrite B, in_app_iff. cbn [In]. tauto.
      + intro Q. rewrite C by (destruct acc; discriminate). now destruct acc. }
  destruct (G names [] (NoDup_nil _)) as (A & B & _). split; [exact A|]. split; [intro n; rewrite B; cbn; tauto|].
  destruct names as [|n l]; [reflexivity|]. unfold register_all. cbn [fold_left]. apply (G l [n]); [constructor; [intros []|constructor]|discriminate].
Qed.
Print Assumptions C96_registered.
Example C96_registered_ex : register_all [lit "VPI"; lit "VHPI"; lit "VPI"] = [lit "VPI"; lit "VHPI"].
Proof. reflexivity. Qed.

(** An implementation is taken exactly if none of its name was registered before. *)
Theorem C96_taken name l : snd (register_impl name l) = true <-> ~ In name l.
Proof.
  unfold register_impl. destruct (existsb (pystr_eqb name) l) eqn:E; cbn [snd]; split; try discriminate; try reflexivity.
  - intro N. exfalso. apply existsb_exists in E. destruct E as (x & I & E). apply pystr_eqb_eq in E. subst x. contradiction.
  - intros _ I. assert (existsb (pystr_eqb name) l = true) by (apply existsb_exists; exists name; split; [exact I|now apply pystr_eqb_eq]). rewrite E in H. discriminate H.
Qed.
Print Assumptions C96_taken.
Example C96_taken_ex : register_impl (lit "VPI") [lit "VHPI"] = ([lit "VHPI"; lit "VPI"], true) /\ register_impl (lit "VPI") [lit "VPI"] = ([lit "VPI"], false).
Proof. split; reflexivity. Qed.

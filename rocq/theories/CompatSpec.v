(** What C87 (cocotb's tests under pytest) means: the modules for which both managers plan the same tests. *)
From Coq Require Import String Permutation.
From Verif Require Import Base TextModel ParamModel ParamSpec CompatModel.
Open Scope Z_scope.

(** All that matters about [str.isidentifier]: an identifier is not empty and has no comma and no white space. *)
Definition identifiers (ident : pystr -> bool) : Prop :=
  forall n, ident n = true -> n <> [] /\ ~ In 44 n /\ Forall (fun c => is_space c = false) n.

(** A value which is not a [Param]. *)
Definition raw (v : pv) : Prop := match v with VParam _ _ => False | _ => True end.
(** An option as [parametrize] accepts it, with at least one value, without [Param], and whose names are one name or a group
    of other than one name. *)
Definition usual_option (ident : pystr -> bool) (o : option_) : Prop :=
  Forall (fun n => ident n = true) (names_of o) /\ shaped o /\ snd o <> [] /\
  match fst o with
  | ONE _ => Forall raw (snd o)
  | GROUP ns => List.length ns <> 1%nat /\ Forall (fun r => forall l, seq_of r = Some l -> Forall raw l) (snd o)
  end.
(** A test function: a coroutine function whose first parameter is [dut], with one more parameter for every name of the
    options, none of them with a default value, and which pytest has not seen yet; it may have other marks. *)
Definition usual_test (ident : pystr -> bool) (g : gen) (x : fn) : Prop :=
  Forall (usual_option ident) (n_options g) /\
  (exists ns, f_params x = (lit "dut", false) :: map (fun n => (n, false)) ns /\
     Permutation ns (concat (map names_of (n_options g))) /\ NoDup (lit "dut" :: ns)) /\
  f_async x = true /\ f_test x = false /\
  (f_marks x = None \/ exists l, f_marks x = Some l /\ Forall (fun m => exists i, m = MUser i) l).
(** Other functions: no marks, and no coroutine function with a parameter [dut]. *)
Definition helper (x : fn) : Prop :=
  f_marks x = None /\ (f_async x = false \/ ~ In (lit "dut") (map fst (f_params x))).
Definition usual (ident : pystr -> bool) (w : world) (o : obj) : Prop :=
  match o with
  | OGenerator g f => usual_test ident g (w_fn w f)
  | OFunction f => helper (w_fn w f)
  | OTest _ _ _ _ => False
  | OOther => True
  end.
Definition decorated (o : obj) : list nat := match o with OGenerator _ f | OTest _ _ _ f => [f] | _ => [] end.
(** A module in which every decorated function is decorated once. *)
Definition usual_module (ident : pystr -> bool) (w : world) : Prop :=
  Forall (fun a => usual ident w (snd a)) (w_attrs w) /\ NoDup (flat_map (fun a => decorated (snd a)) (w_attrs w)).

(** All stages are positive, or all are zero, or all are negative. *)
Definition same_sign (l : list planned) : Prop :=
  Forall (fun t => 0 < p_stage t) l \/ Forall (fun t => p_stage t = 0) l \/ Forall (fun t => p_stage t < 0) l.

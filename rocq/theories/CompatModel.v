(** Model of the tests which pytest makes of cocotb's decorated tests: /repo/src/cocotb_tools/_pytest/_compat.py,
    plugin.py:670-700 and _regression.py:310-322, with what pytest and pytest-order do with the marks (their documented
    behaviour and sources; trusted reading), and of the calls made by /repo/src/cocotb/regression.py. *)
From Coq Require Import String.
From Verif Require Import Base TextModel ParamModel.
Open Scope Z_scope.

(** pytest marks: [mark.parametrize(argnames, values)], [mark.order(stage)], [mark.skip()],
    [mark.xfail(raises=..., strict=True)], [mark.cocotb_timeout(...)], [mark.cocotb_test()], [mark.cocotb_runner()] and
    others. Timeouts and expected errors are opaque, as in ParamModel. *)
Inductive mark :=
| MParametrize (argnames : pystr) (values : list pv)
| MOrder (stage : Z)
| MSkip
| MXfail (raises : option (list Z))
| MTimeout (t : Z)
| MCocotbTest
| MCocotbRunner
| MUser (id : Z).

(** A Python function: its parameters and whether they have a default value, whether it is a coroutine function
    ([async def]), [pytestmark] and whether [__test__] is True. *)
Record fn := Fn { f_params : list (pystr * bool); f_async : bool; f_marks : option (list mark); f_test : bool }.
(** What a module has under a name: a function, a TestGenerator (_decorators.py:144-166) or a Test (_decorators.py:71-99;
    its flags are kept in a [gen] without options) with its function, or something else (classes are left out). *)
Inductive obj :=
| OFunction (f : nat)
| OGenerator (g : gen) (f : nat)
| OTest (args : list pv) (kwargs : list (pystr * pv)) (g : gen) (f : nat)
| OOther.
(** The functions, and the names of the module in the order of its [__dict__]. *)
Record world := World { w_fn : nat -> fn; w_attrs : list (pystr * obj) }.
Definition set_fn (w : world) (f : nat) (x : fn) : world :=
  World (fun k => if Nat.eqb k f then x else w_fn w k) (w_attrs w).
(** [setattr(module, name, obj)] (a name which exists keeps its place). *)
Definition set_attr (w : world) (name : pystr) (o : obj) : world := World (w_fn w) (dict_set (w_attrs w) name o).

(** * Marks *)

(** _compat.py:91-95: one option of [parametrize]. *)
Definition param_mark (o : option_) : mark :=
  match o with
  | (ONE n, values) => MParametrize n values
  | (GROUP ns, values) => MParametrize (join (lit ",") ns) values
  end.
(** _compat.py:83-116: the marks, in front of those which the function has already. *)
Definition new_marks (g : gen) (options : list option_) (old : option (list mark)) : list mark :=
  map param_mark options ++
  (if n_stage g =? 0 then [] else [MOrder (n_stage g)]) ++
  (if n_skip g then [MSkip] else []) ++
  (if n_expect_fail g || match n_expect_error g with [] => false | _ => true end
   then [MXfail (match n_expect_error g with [] => None | l => Some l end)] else []) ++
  match n_timeout g with Some t => [MTimeout t] | None => [] end ++
  [MCocotbTest] ++
  match old with Some l => l | None => [] end.
(** _compat.py:65-127 [_as_pytest_marks]. *)
Definition as_pytest_marks (w : world) (name : pystr) (g : gen) (options : list option_) (f : nat) : world :=
  let x := w_fn w f in
  if f_test x then w
  else set_attr (set_fn w f (Fn (f_params x) (f_async x) (Some (new_marks g options (f_marks x))) true)) name (OFunction f).
(** _compat.py:24-62 [cocotb_decorator_as_pytest_marks]: of a Test, the arguments are not used. *)
Definition unwrap (w : world) (name : pystr) (o : obj) : world * option nat :=
  match o with
  | OTest _ _ g f => (as_pytest_marks w name g [] f, Some f)
  | OGenerator g f => (as_pytest_marks w name g (n_options g) f, Some f)
  | OFunction f => (w, Some f)
  | OOther => (w, None)
  end.
Definition is_cocotb (m : mark) : bool := match m with MCocotbTest | MCocotbRunner => true | _ => false end.
(** plugin.py:681-698: marks of a function. *)
Definition mark_function (w : world) (f : nat) : world :=
  let x := w_fn w f in
  let marks := match f_marks x with Some l => l | None => [] end in
  if existsb is_cocotb marks then set_fn w f (Fn (f_params x) (f_async x) (f_marks x) true)
  else if f_async x && existsb (fun p => pystr_eqb (fst p) (lit "dut")) (f_params x)
  then set_fn w f (Fn (f_params x) (f_async x) (Some (marks ++ [MCocotbTest])) (f_test x))
  else w.
(** plugin.py:670-700 [pytest_pycollect_makeitem]; the hook is called again with the function (677-679). *)
Definition makeitem (w : world) (name : pystr) (o : obj) : world * option nat :=
  match unwrap w name o with
  | (w', Some f) => (mark_function w' f, Some f)
  | r => r
  end.

(** * What pytest does *)

(** A value of a parametrized argument; [CNotset]: of an empty list of values. *)
Inductive carg := CVal (v : pv) | CNotset.
(** [CallSpec2]: the arguments, and whether the test is skipped because of an empty list of values. *)
Record callspec := Callspec { cs_params : list (pystr * carg); cs_skip : bool }.
(** [ParameterSet._parse_parametrize_args]: [[x.strip() for x in argnames.split(",") if x.strip()]]. *)
Definition argnames_of (s : pystr) : list pystr :=
  filter (fun x => match x with [] => false | _ => true end) (map strip (split 44 s)).
(** [ParameterSet.extract_from] and [_for_parametrize]: with one argument name a value is taken as it is, otherwise it must be
    a sequence with one value for each name ([pytest.param] is left out). *)
Definition value_set (names : list pystr) (v : pv) : result (list carg) :=
  match names with
  | [_] => Ok [CVal v]
  | _ => match seq_of v with
         | None => Err TypeError
         | Some l => if (List.length l =? List.length names)%nat then Ok (map CVal l) else Err ValueError
         end
  end.
(** [_for_parametrize]: the sets of values; an empty list gives one set whose test is skipped
    ([empty_parameter_set_mark] at its default). *)
Definition value_sets (names : list pystr) (values : list pv) : result (list (list carg * bool)) :=
  match values with
  | [] => Ok [(map (fun _ => CNotset) names, true)]
  | _ => bind (mapR (value_set names) values) (fun l => Ok (map (fun s => (s, false)) l))
  end.
Definition mem (n : pystr) (l : list pystr) : bool := existsb (pystr_eqb n) l.
Fixpoint no_repeats (l : list pystr) : bool :=
  match l with [] => true | n :: l' => negb (mem n l') && no_repeats l' end.
(** The parameters without default value: the names for which pytest looks for a fixture or a parametrized value. *)
Definition required (params : list (pystr * bool)) : list pystr :=
  map fst (filter (fun p => negb (snd p)) params).
(** [Metafunc.parametrize] for one mark: "function uses no argument", "function already takes an argument with a default
    value" and "duplicate parametrization" stop the collection (here ValueError). Arguments which only fixtures use are
    left out. *)
Definition parametrize_one (params : list (pystr * bool)) (calls : list callspec) (argnames : pystr) (values : list pv)
    : result (list callspec) :=
  let names := argnames_of argnames in
  bind (value_sets names values) (fun sets =>
  if negb (forallb (fun n => mem n (required params)) names) then Err ValueError
  else if negb (no_repeats names) then Err ValueError
  else if existsb (fun c => existsb (fun n => mem n (map fst (cs_params c))) names) calls then Err ValueError
  else Ok (flat_map (fun c => map (fun s => Callspec (cs_params c ++ List.combine names (fst s)) (cs_skip c || snd s)) sets) calls)).
(** All [parametrize] marks in the order of [pytestmark]; without any there is one call. *)
Fixpoint parametrize_all (params : list (pystr * bool)) (marks : list mark) (calls : list callspec) : result (list callspec) :=
  match marks with
  | [] => Ok calls
  | MParametrize a vs :: ms => bind (parametrize_one params calls a vs) (parametrize_all params ms)
  | _ :: ms => parametrize_all params ms calls
  end.
(** A pytest item. [Function.obj] is what the module has under the name at this time, and the marks are its marks. *)
Record item := Item { i_obj : obj; i_marks : list mark; i_call : callspec }.
Definition marks_of (w : world) (o : obj) : list mark :=
  match o with OFunction f => match f_marks (w_fn w f) with Some l => l | None => [] end | _ => [] end.
(** pytest's own [pytest_pycollect_makeitem] and [_genfunctions]: a function whose name has the prefix "test" ([prefix]) or
    whose [__test__] is True. *)
Definition gen_items (prefix : pystr -> bool) (w : world) (name : pystr) (f : nat) : result (list item) :=
  let x := w_fn w f in
  if prefix name || f_test x then
    let o := match dict_get (w_attrs w) name with Some o => o | None => OOther end in
    bind (parametrize_all (f_params x) (match f_marks x with Some l => l | None => [] end) [Callspec [] false]) (fun calls =>
    Ok (map (fun c => Item o (marks_of w o) c) calls))
  else Ok [].
(** _regression.py:310-322 [_collect]: coroutine functions with the mark cocotb_test (or named so: see C80). *)
Definition kept (w : world) (i : item) : bool :=
  match i_obj i with
  | OFunction f => existsb (fun m => match m with MCocotbTest => true | _ => false end) (i_marks i) && f_async (w_fn w f)
  | _ => false
  end.
(** The collection of a module: the items in the order of the names it had in the beginning. *)
Fixpoint collect (prefix : pystr -> bool) (w : world) (names : list (pystr * obj)) : result (world * list item) :=
  match names with
  | [] => Ok (w, [])
  | (name, o) :: rest =>
      let (w1, f) := makeitem w name o in
      bind (match f with Some f => gen_items prefix w1 name f | None => Ok [] end) (fun items =>
      bind (collect prefix w1 rest) (fun r => Ok (fst r, filter (kept w1) items ++ snd r)))
  end.

(** * Calls *)

(** What is passed for a parameter: the handle of the design, a value, or the value of a fixture. *)
Inductive arg := ADut | AVal (v : pv) | AFixture (n : pystr).
(** A test which will be run: its function, the arguments it is called with in the order of its parameters ([None]: it
    cannot be called), and what is asked of it. *)
Record planned := Planned {
  p_fn : nat; p_args : option (list (pystr * arg));
  p_skip : bool; p_fails : option (option (list Z)); p_timeout : option Z; p_stage : Z }.

Fixpoint mapO {A B} (f : A -> option B) (l : list A) : option (list B) :=
  match l with
  | [] => Some []
  | x :: l' => match f x, mapO f l' with Some y, Some ys => Some (y :: ys) | _, _ => None end
  end.
(** pytest passes the parametrized values and, for the other names, fixtures; [fixtures] tells which exist, apart from [dut]
    (plugin.py, the fixture [dut] gives [cocotb.top]). *)
Definition pytest_args (fixtures : pystr -> bool) (params : list (pystr * bool)) (c : callspec) : option (list (pystr * arg)) :=
  mapO (fun n => match dict_get (cs_params c) n with
                 | Some (CVal v) => Some (n, AVal v)
                 | Some CNotset => None
                 | None => if pystr_eqb n (lit "dut") then Some (n, ADut)
                           else if fixtures n then Some (n, AFixture n) else None
                 end) (required params).
Fixpoint first_of {A} (f : mark -> option A) (l : list mark) : option A :=
  match l with [] => None | m :: l' => match f m with Some a => Some a | None => first_of f l' end end.
(** The marks as pytest and the plugin read them: [get_closest_marker], the first one. *)
Definition planned_item (fixtures : pystr -> bool) (w : world) (i : item) : planned :=
  let f := match i_obj i with OFunction f => f | _ => 0%nat end in
  Planned f (pytest_args fixtures (f_params (w_fn w f)) (i_call i))
    (cs_skip (i_call i) || match first_of (fun m => match m with MSkip => Some tt | _ => None end) (i_marks i) with Some _ => true | None => false end)
    (first_of (fun m => match m with MXfail r => Some r | _ => None end) (i_marks i))
    (first_of (fun m => match m with MTimeout t => Some t | _ => None end) (i_marks i))
    (match first_of (fun m => match m with MOrder s => Some s | _ => None end) (i_marks i) with Some s => s | None => 0 end).
Definition pytest_plan (prefix fixtures : pystr -> bool) (w : world) : result (list planned) :=
  bind (collect prefix w (w_attrs w)) (fun r => Ok (map (planned_item fixtures (fst r)) (snd r))).

(** Python's binding of positional and keyword arguments to the parameters; [None]: TypeError. Parameters which keep their
    default value are not listed. *)
Fixpoint bind_args (params : list (pystr * bool)) (pos : list arg) (kw : list (pystr * arg)) : option (list (pystr * arg)) :=
  match params, pos with
  | [], [] => Some []
  | [], _ :: _ => None
  | (n, _) :: ps, v :: pos' =>
      match dict_get kw n with
      | Some _ => None
      | None => option_map (cons (n, v)) (bind_args ps pos' kw)
      end
  | (n, d) :: ps, [] =>
      match dict_get kw n with
      | Some v => option_map (cons (n, v)) (bind_args ps [] kw)
      | None => if d then bind_args ps [] kw else None
      end
  end.
(** regression.py:427: [self._test.func(cocotb.top, *self._test.args, **self._test.kwargs)]. *)
Definition cocotb_args (params : list (pystr * bool)) (args : list pv) (kwargs : list (pystr * pv)) : option (list (pystr * arg)) :=
  if forallb (fun k => mem (fst k) (map fst params)) kwargs
  then bind_args params (ADut :: map AVal args) (map (fun k => (fst k, AVal (snd k))) kwargs) else None.
(** What the flags of a test ask for: any failure, or one of the given errors. *)
Definition fails_of (g : gen) : option (option (list Z)) :=
  match n_expect_error g with [] => if n_expect_fail g then Some None else None | l => Some (Some l) end.
Definition planned_test (w : world) (g : gen) (f : nat) (args : list pv) (kwargs : list (pystr * pv)) : planned :=
  Planned f (cocotb_args (f_params (w_fn w f)) args kwargs) (n_skip g) (fails_of g) (n_timeout g) (n_stage g).
(** regression.py:258-267: the tests of a module; those of a generator by _decorators.py:168-230. *)
Fixpoint cocotb_plan (ident : pystr -> bool) (w : world) (names : list (pystr * obj)) : result (list planned) :=
  match names with
  | [] => Ok []
  | (_, o) :: rest =>
      bind (match o with
            | OTest args kwargs g f => Ok [planned_test w g f args kwargs]
            | OGenerator g f => bind (generate_tests ident (n_name g) (n_options g)) (fun ts =>
                                Ok (map (fun t => planned_test w g f [] (g_kwargs t)) ts))
            | _ => Ok []
            end) (fun ps => bind (cocotb_plan ident w rest) (fun qs => Ok (ps ++ qs)))
  end.

(** * Order *)
(** A stable sort by stage. *)
Fixpoint insert_by (t : planned) (l : list planned) : list planned :=
  match l with
  | [] => [t]
  | u :: l' => if p_stage t <=? p_stage u then t :: l else u :: insert_by t l'
  end.
Definition sort_by (l : list planned) : list planned := fold_right insert_by [] l.
(** regression.py:353-354 (without the random order of 349-351). *)
Definition cocotb_order (l : list planned) : list planned := sort_by l.
(** pytest-order (sorting.py): first the items with an ordinal which is not negative, then those without mark, then those with
    a negative one; _compat.py:96-99: stage 0 has no mark. *)
Definition pytest_order (l : list planned) : list planned :=
  sort_by (filter (fun t => 0 <? p_stage t) l) ++ filter (fun t => p_stage t =? 0) l ++
  sort_by (filter (fun t => p_stage t <? 0) l).

(** Model of test generation: /repo/src/cocotb/_decorators.py (decorators and TestGenerator) and
    /repo/src/cocotb/_test_factory.py (TestFactory). *)
From Coq Require Import String.
From Verif Require Import Base TextModel XmlModel.
Open Scope Z_scope.

(** Parameter values, as far as [_repr] (_decorators.py:245-262) can tell them apart; [id] stands for the
    identity of the object. [VPrim r] is an int, float, bool or None with repr [r]; [VQual] a type or another object
    with a [__qualname__]. *)
Inductive pv :=
| VEnum (name : pystr) (id : Z)
| VStr (s : pystr)
| VPrim (r : pystr)
| VParam (v : pv) (name : option pystr)
| VQual (q : pystr) (id : Z)
| VSeq (l : list pv)
| VOther (id : Z).

(** _decorators.py:245-262 [_repr]; [ident] is [str.isidentifier]. *)
Fixpoint repr_ (ident : pystr -> bool) (v : pv) : option pystr :=
  match v with
  | VEnum n _ => Some n
  | VStr s => if (List.length s <=? 10)%nat && ident s then Some s else None
  | VPrim r => Some r
  | VParam v n => match n with Some n => Some n | None => repr_ ident v end
  | VQual q _ => Some q
  | VSeq _ | VOther _ => None
  end.

(** _decorators.py:233-242 [_reprs]: the texts of all values, or if one has none, their positions. *)
Fixpoint reprs_loop (ident : pystr -> bool) (values : list pv) : option (list pystr) :=
  match values with
  | [] => Some []
  | v :: vs => match repr_ ident v with
               | None => None
               | Some r => option_map (cons r) (reprs_loop ident vs)
               end
  end.
Definition reprs (ident : pystr -> bool) (values : list pv) : list pystr :=
  match reprs_loop ident values with
  | Some l => l
  | None => map (fun i => py_str_int (Z.of_nat i)) (seq 0 (List.length values))
  end.

(** An option: a name with its values, or a group of names with a sequence of values for each choice. *)
Inductive oname := ONE (n : pystr) | GROUP (ns : list pystr).
Definition option_ := (oname * list pv)%type.

(** A value used as a sequence ([len(value)], [value[i]], [zip]); a str is a sequence of str. *)
Definition seq_of (v : pv) : option (list pv) :=
  match v with
  | VSeq l => Some l
  | VStr s => Some (map (fun c => VStr [c]) s)
  | _ => None
  end.

(** [value_array[nam_idx]]. *)
Definition column_item (i : nat) (v : pv) : result pv :=
  match seq_of v with
  | None => Err TypeError
  | Some l => match nth_error l i with Some x => Ok x | None => Err IndexError end
  end.
Fixpoint mapR {A B} (f : A -> result B) (l : list A) : result (list B) :=
  match l with
  | [] => Ok []
  | x :: l' => bind (f x) (fun y => bind (mapR f l') (fun ys => Ok (y :: ys)))
  end.

(** _decorators.py:171-183: the texts of the values of every parameter. *)
Fixpoint group_reprs (ident : pystr -> bool) (i : nat) (ns : list pystr) (values : list pv)
    (d : list (pystr * list pystr)) : result (list (pystr * list pystr)) :=
  match ns with
  | [] => Ok d
  | n :: ns' => bind (mapR (column_item i) values) (fun col =>
                group_reprs ident (S i) ns' values (dict_set d n (reprs ident col)))
  end.
Fixpoint option_reprs (ident : pystr -> bool) (opts : list option_) (d : list (pystr * list pystr))
    : result (list (pystr * list pystr)) :=
  match opts with
  | [] => Ok d
  | (ONE n, values) :: opts' => option_reprs ident opts' (dict_set d n (reprs ident values))
  | (GROUP ns, values) :: opts' =>
      bind (group_reprs ident 0 ns values d) (fun d' => option_reprs ident opts' d')
  end.

(** [itertools.product]. *)
Fixpoint cart {A} (ls : list (list A)) : list (list A) :=
  match ls with
  | [] => [[]]
  | l :: ls' => flat_map (fun x => map (cons x) (cart ls')) l
  end.

(** [selected_value.value if isinstance(selected_value, Param) else selected_value]. *)
Definition unparam (v : pv) : pv := match v with VParam v _ => v | _ => v end.

(** A generated test: its keyword arguments and name; all other fields are copied (_decorators.py:218-230). *)
Record gtest := GTest { g_kwargs : list (pystr * pv); g_name : pystr }.

(** [option_reprs[n][select_idx]]. *)
Definition piece_text (rs : list (pystr * list pystr)) (n : pystr) (i : nat) : result pystr :=
  match dict_get rs n with
  | None => Err KeyError
  | Some l => match nth_error l i with Some r => Ok r | None => Err IndexError end
  end.
(** [f"/{n}={repr}"]. *)
Definition piece (n r : pystr) : pystr := lit "/" ++ n ++ lit "=" ++ r.

(** _decorators.py:207-214: one group, [zip(option_name, selected_value)]. *)
Fixpoint group_kwargs (rs : list (pystr * list pystr)) (i : nat) (ns : list pystr) (vs : list pv) (t : gtest)
    : result gtest :=
  match ns, vs with
  | n :: ns', v :: vs' =>
      bind (piece_text rs n i) (fun r =>
      group_kwargs rs i ns' vs' (GTest (dict_set (g_kwargs t) n (unparam v)) (g_name t ++ piece n r)))
  | _, _ => Ok t
  end.
(** _decorators.py:189-216: the arguments and name of one combination. *)
Fixpoint select (rs : list (pystr * list pystr)) (opts : list option_) (idx : list nat) (t : gtest) : result gtest :=
  match opts, idx with
  | (nm, values) :: opts', i :: idx' =>
      match nth_error values i with
      | None => Err IndexError
      | Some v =>
          match nm with
          | ONE n => bind (piece_text rs n i) (fun r =>
                     select rs opts' idx' (GTest (dict_set (g_kwargs t) n (unparam v)) (g_name t ++ piece n r)))
          | GROUP ns => match seq_of v with
                        | None => Err TypeError
                        | Some vs => bind (group_kwargs rs i ns vs t) (fun t' => select rs opts' idx' t')
                        end
          end
      end
  | _, _ => Ok t
  end.

(** _decorators.py:168-230 [TestGenerator.generate_tests], run to the end. *)
Definition generate_tests (ident : pystr -> bool) (name : pystr) (opts : list option_) : result (list gtest) :=
  bind (option_reprs ident opts []) (fun rs =>
  mapR (fun idx => select rs opts idx (GTest [] name)) (cart (map (fun o => seq 0 (List.length (snd o))) opts))).

(** * Decorators *)
(** The fields of a TestGenerator (_decorators.py:144-166); expected errors and timeouts are opaque. *)
Record gen := Gen {
  n_timeout : option Z; n_expect_fail : bool; n_expect_error : list Z; n_skip : bool; n_stage : Z;
  n_name : pystr; n_options : list option_ }.
Definition gen0 (qualname : pystr) : gen := Gen None false [] false 0 qualname [].

(** [set.add]. *)
Definition set_add (s : list Z) (x : Z) : list Z := if existsb (Z.eqb x) s then s else s ++ [x].

(** One entry of [options_by_tuple]: a pair, or a tuple of another length. *)
Inductive topt := TPair (o : option_) | TBad.

(** _decorators.py:528-547: the checks of [parametrize]. *)
Definition check_option (ident : pystr -> bool) (t : topt) : result option_ :=
  match t with
  | TBad => Err ValueError
  | TPair (ONE n, values) => if ident n then Ok (ONE n, values) else Err ValueError
  | TPair (GROUP ns, values) =>
      if negb (forallb ident ns) then Err ValueError
      else bind (mapR (fun v => match seq_of v with
                                | None => Err TypeError
                                | Some l => if (List.length ns =? List.length l)%nat then Ok tt else Err ValueError
                                end) values) (fun _ => Ok (GROUP ns, values))
  end.

(** The [raises] argument of [xfail]: not given, one exception or matcher, or an iterable ([None]: not an
    exception), or something else. *)
Inductive raises := RNone | ROne (e : Z) | RMany (l : list (option Z)) | RBad.

Inductive deco :=
| DBare                                       (* @cocotb.test: _decorators.py:400-403 *)
| DTest (timeout : option Z) (fail : option bool) (error : list Z) (skip : option bool) (stage : option Z)
        (name : option pystr)                 (* @cocotb.test(...): 405-424 *)
| DParam (ts : list topt) (named : list (pystr * list pv))   (* parametrize: 528-557 *)
| DSkipif (cond : bool)                       (* 589-593 *)
| DXfail (cond : bool) (r : raises).          (* 650-673 *)

Fixpoint add_raises (s : list Z) (l : list (option Z)) : result (list Z) :=
  match l with
  | [] => Ok s
  | Some e :: l' => add_raises (set_add s e) l'
  | None :: _ => Err TypeError
  end.

(** Apply one decorator. *)
Definition apply_deco (ident : pystr -> bool) (d : deco) (g : gen) : result gen :=
  match d with
  | DBare => Ok g
  | DTest timeout fail error skip stage name =>
      Ok (Gen (match timeout with Some t => Some t | None => n_timeout g end)
              (match fail with Some b => n_expect_fail g || b | None => n_expect_fail g end)
              (fold_left set_add error (n_expect_error g))
              (match skip with Some b => n_skip g || b | None => n_skip g end)
              (match stage with Some s => s | None => n_stage g end)
              (match name with Some n => n | None => n_name g end)
              (n_options g))
  | DParam ts named =>
      bind (mapR (check_option ident) ts) (fun os =>
      Ok (Gen (n_timeout g) (n_expect_fail g) (n_expect_error g) (n_skip g) (n_stage g) (n_name g)
              (os ++ map (fun '(n, vs) => (ONE n, vs)) named ++ n_options g)))
  | DSkipif cond =>
      Ok (Gen (n_timeout g) (n_expect_fail g) (n_expect_error g) (n_skip g || cond) (n_stage g) (n_name g) (n_options g))
  | DXfail cond r =>
      if cond then
        match r with
        | RNone => Ok (Gen (n_timeout g) true (n_expect_error g) (n_skip g) (n_stage g) (n_name g) (n_options g))
        | ROne e => Ok (Gen (n_timeout g) (n_expect_fail g) (set_add (n_expect_error g) e) (n_skip g) (n_stage g) (n_name g) (n_options g))
        | RMany l => bind (add_raises (n_expect_error g) l) (fun s =>
                     Ok (Gen (n_timeout g) (n_expect_fail g) s (n_skip g) (n_stage g) (n_name g) (n_options g)))
        | RBad => Err TypeError
        end
      else Ok g
  end.

(** A stack of decorators, the one nearest to the function first. *)
Fixpoint decorate (ident : pystr -> bool) (ds : list deco) (g : gen) : result gen :=
  match ds with
  | [] => Ok g
  | d :: ds' => bind (apply_deco ident d g) (decorate ident ds')
  end.

(** * TestFactory *)
(** Dictionary keys of [self.kwargs] (_test_factory.py:97-100); only tuples can be group names here (a list is
    unhashable). *)
Definition oname_eqb (a b : oname) : bool :=
  match a, b with
  | ONE x, ONE y => pystr_eqb x y
  | GROUP x, GROUP y =>
      (List.length x =? List.length y)%nat && forallb (fun p => pystr_eqb (fst p) (snd p)) (List.combine x y)
  | _, _ => false
  end.
Fixpoint fdict_set (d : list option_) (k : oname) (v : list pv) : list option_ :=
  match d with
  | [] => [(k, v)]
  | (k', v') :: d' => if oname_eqb k' k then (k', v) :: d' else (k', v') :: fdict_set d' k v
  end.

(** _test_factory.py:111-138 [add_option]. *)
Definition add_option (k : oname) (values : list pv) (d : list option_) : result (list option_) :=
  match k with
  | ONE _ => Ok (fdict_set d k values)
  | GROUP ns =>
      bind (mapR (fun v => match seq_of v with
                           | None => Err TypeError
                           | Some l => if (List.length ns =? List.length l)%nat then Ok tt else Err ValueError
                           end) values) (fun _ => Ok (fdict_set d k values))
  end.

(** [f"{n:03d}"] for [n >= 0]. *)
Definition pad3 (n : Z) : pystr :=
  let s := py_str_int n in repeat 48 (3 - List.length s) ++ s.

(** [dict.update(zip(names, values))]. *)
Fixpoint update_zip (d : list (pystr * pv)) (ns : list pystr) (vs : list pv) : list (pystr * pv) :=
  match ns, vs with
  | n :: ns', v :: vs' => update_zip (dict_set d n v) ns' vs'
  | _, _ => d
  end.
(** _test_factory.py:242-253: split the groups of one combination; the assertion of line 252 was checked by
    [add_option]. *)
Fixpoint split_options (ks : list oname) (vs : list pv) (d : list (pystr * pv)) : result (list (pystr * pv)) :=
  match ks, vs with
  | ONE n :: ks', v :: vs' => split_options ks' vs' (dict_set d n v)
  | GROUP ns :: ks', v :: vs' =>
      match seq_of v with
      | None => Err TypeError
      | Some l => split_options ks' vs' (update_zip d ns l)
      end
  | _, _ => Ok d
  end.

(** [kwargs.update(testoptions_split)]. *)
Definition update_dict (d e : list (pystr * pv)) : list (pystr * pv) :=
  fold_left (fun d '(k, v) => dict_set d k v) e d.

(** _test_factory.py:232-297: the tests added to the module [glbs]; [base] is
    prefix + name or qualname + postfix. Documentation texts are not modelled. *)
Fixpoint factory_loop (base : pystr) (ks : list oname) (consts : list (pystr * pv)) (index : Z)
    (combos : list (list pv)) (glbs : list (pystr * gtest)) : result (list (pystr * gtest)) :=
  match combos with
  | [] => Ok glbs
  | vs :: combos' =>
      bind (split_options ks vs []) (fun opts =>
      let name := base ++ lit "_" ++ pad3 (index + 1) in
      factory_loop base ks consts (index + 1) combos'
        (dict_set glbs name (GTest (update_dict consts opts) name)))
  end.
Definition factory_generate (base : pystr) (d : list option_) (consts : list (pystr * pv))
    (glbs : list (pystr * gtest)) : result (list (pystr * gtest)) :=
  factory_loop base (map fst d) consts 0 (cart (map snd d)) glbs.

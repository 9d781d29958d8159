(** What C49 (generated tests) and C58 (decorators) mean. *)
From Coq Require Import String.
From Verif Require Import Base TextModel ToolsSpec ParamModel.
Open Scope Z_scope.

(** * Combinations *)
(** The number of combinations, and the positions chosen by the [j]-th: the last option changes fastest. *)
Definition total (lens : list nat) : nat := fold_right Nat.mul 1%nat lens.
Fixpoint choose (lens : list nat) (j : nat) : list nat :=
  match lens with
  | [] => []
  | _ :: ls => (j / total ls)%nat :: choose ls (j mod total ls)%nat
  end.
(** Lexicographic order of positions. *)
Inductive lex : list nat -> list nat -> Prop :=
| lex_here i i' l l' : (i < i')%nat -> lex (i :: l) (i' :: l')
| lex_later i l l' : lex l l' -> lex (i :: l) (i :: l').
Definition lens (opts : list option_) : list nat := map (fun o => List.length (snd o)) opts.

(** * Texts of values *)
Inductive own_text (ident : pystr -> bool) : pv -> pystr -> Prop :=
| own_enum n i : own_text ident (VEnum n i) n
| own_str s : (List.length s <= 10)%nat -> ident s = true -> own_text ident (VStr s) s
| own_prim r : own_text ident (VPrim r) r
| own_named v n : own_text ident (VParam v (Some n)) n
| own_unnamed v t : own_text ident v t -> own_text ident (VParam v None) t
| own_qual q i : own_text ident (VQual q i) q.

(** What is shown for the [i]-th value of a parameter: its own text if all values of the parameter have one, and
    its position otherwise. *)
Inductive shown (ident : pystr -> bool) (col : list pv) (i : nat) : pystr -> Prop :=
| shown_own v t : Forall (fun w => exists u, own_text ident w u) col ->
    nth_error col i = Some v -> own_text ident v t -> shown ident col i t
| shown_index w t : In w col -> (forall u, ~ own_text ident w u) ->
    (i < List.length col)%nat -> decimal t -> value10 t = Z.of_nat i -> shown ident col i t.

(** What the test is called with: a [Param] is replaced by its value. *)
Definition plain (v : pv) : pv := match v with VParam w _ => w | w => w end.

(** The values of the [k]-th parameter of a group. *)
Definition column (rows : list pv) (k : nat) (col : list pv) : Prop :=
  Forall2 (fun r v => exists l, seq_of r = Some l /\ nth_error l k = Some v) rows col.

Definition shown_as (n t : pystr) : pystr := lit "/" ++ n ++ lit "=" ++ t.

(** [chosen o i args txt]: the arguments and the part of the name given by position [i] of option [o]. *)
Inductive group_chosen (ident : pystr -> bool) (rows : list pv) (i : nat)
    : nat -> list pystr -> list (pystr * pv) -> pystr -> Prop :=
| gc_nil k : group_chosen ident rows i k [] [] []
| gc_cons k n ns col v t args txt :
    column rows k col -> nth_error col i = Some v -> shown ident col i t ->
    group_chosen ident rows i (S k) ns args txt ->
    group_chosen ident rows i k (n :: ns) ((n, plain v) :: args) (shown_as n t ++ txt).
Inductive chosen (ident : pystr -> bool) : option_ -> nat -> list (pystr * pv) -> pystr -> Prop :=
| ch_one n vs i v t : nth_error vs i = Some v -> shown ident vs i t ->
    chosen ident (ONE n, vs) i [(n, plain v)] (shown_as n t)
| ch_group ns rows i args txt : (i < List.length rows)%nat -> group_chosen ident rows i 0 ns args txt ->
    chosen ident (GROUP ns, rows) i args txt.
(** One position of every option. *)
Inductive combo (ident : pystr -> bool) : list option_ -> list nat -> list (pystr * pv) -> pystr -> Prop :=
| combo_nil : combo ident [] [] [] []
| combo_cons o i a p opts idx a' p' : chosen ident o i a p -> combo ident opts idx a' p' ->
    combo ident (o :: opts) (i :: idx) (a ++ a') (p ++ p').

Definition names_of (o : option_) : list pystr := match fst o with ONE n => [n] | GROUP ns => ns end.
(** Every row of a group gives a value to every name. *)
Definition shaped (o : option_) : Prop :=
  match fst o with
  | ONE _ => True
  | GROUP ns => Forall (fun r => exists l, seq_of r = Some l /\ List.length l = List.length ns) (snd o)
  end.
Definition well_formed (opts : list option_) : Prop :=
  Forall shaped opts /\ NoDup (concat (map names_of opts)).

(** No text shown for the option contains a slash, and different positions are shown differently. *)
Definition clean_text (ident : pystr -> bool) (v : pv) : Prop := forall t, own_text ident v t -> ~ In 47 t.
Definition clean (ident : pystr -> bool) (o : option_) : Prop :=
  match fst o with
  | ONE _ => Forall (clean_text ident) (snd o)
  | GROUP _ => Forall (fun r => forall l, seq_of r = Some l -> Forall (clean_text ident) l) (snd o)
  end.
Definition told_apart (ident : pystr -> bool) (o : option_) : Prop :=
  forall i i' a a' p, chosen ident o i a p -> chosen ident o i' a' p -> i = i'.

(** * Decorators: what a decorator asks for *)
Definition asks_skip (d : deco) : Prop :=
  match d with DTest _ _ _ (Some true) _ _ | DSkipif true => True | _ => False end.
Definition asks_fail (d : deco) : Prop :=
  match d with DTest _ (Some true) _ _ _ _ | DXfail true RNone => True | _ => False end.
Definition asks_error (d : deco) (e : Z) : Prop :=
  match d with
  | DTest _ _ l _ _ _ => In e l
  | DXfail true (ROne e') => e' = e
  | DXfail true (RMany l) => In (Some e) l
  | _ => False
  end.
(** The last answer given, if any. *)
Fixpoint outermost {A B} (f : A -> option B) (ds : list A) (dflt : B) : B :=
  match ds with
  | [] => dflt
  | d :: ds' => outermost f ds' (match f d with Some b => b | None => dflt end)
  end.
Definition stage_of (d : deco) : option Z := match d with DTest _ _ _ _ s _ => s | _ => None end.
Definition name_of (d : deco) : option pystr := match d with DTest _ _ _ _ _ n => n | _ => None end.
Definition timeout_of (d : deco) : option Z := match d with DTest t _ _ _ _ _ => t | _ => None end.
(** The options a decorator adds. *)
Definition topts_of (t : topt) : list option_ := match t with TPair o => [o] | TBad => [] end.
Definition options_of (d : deco) : list option_ :=
  match d with
  | DParam ts named => concat (map topts_of ts) ++ map (fun nv => (ONE (fst nv), snd nv)) named
  | _ => []
  end.
(** Decorators with acceptable arguments. *)
Definition fine_option (ident : pystr -> bool) (t : topt) : Prop :=
  match t with
  | TBad => False
  | TPair o => Forall (fun n => ident n = true) (names_of o) /\ shaped o
  end.
Definition fine (ident : pystr -> bool) (d : deco) : Prop :=
  match d with
  | DParam ts _ => Forall (fine_option ident) ts
  | DXfail true RBad => False
  | DXfail true (RMany l) => ~ In None l
  | _ => True
  end.

(** * TestFactory *)
(** The number in a generated name: at least three digits. *)
Definition three_digits (t : pystr) (n : Z) : Prop := decimal t /\ value10 t = n /\ (3 <= List.length t)%nat.
(** The arguments of one combination. *)
Inductive picks : oname -> pv -> list (pystr * pv) -> Prop :=
| pick_one n v : picks (ONE n) v [(n, v)]
| pick_group ns r l : seq_of r = Some l -> List.length l = List.length ns -> picks (GROUP ns) r (List.combine ns l).
Inductive picked : list option_ -> list nat -> list (pystr * pv) -> Prop :=
| picked_nil : picked [] [] []
| picked_cons k vs i v a opts idx a' : nth_error vs i = Some v -> picks k v a -> picked opts idx a' ->
    picked ((k, vs) :: opts) (i :: idx) (a ++ a').

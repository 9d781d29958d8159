(** Proofs about Logic and Bit. *)
From Coq Require Import String.
From Verif Require Import Base LogicModel LogicSpec.
Open Scope Z_scope.

(** A Logic or Bit object that exists: its class admits its value. *)
Definition is_logic (a : lobj) : Prop := in_values (fst a) (snd a) = true.
(** Class of the result of a binary operator. *)
Definition join_cls (c d : lcls) : lcls := match c, d with CBit, CBit => CBit | _, _ => CLogic end.

Lemma tables_pf a b : is_logic a -> is_logic b ->
  logic_and a b = Ok (join_cls (fst a) (fst b), spec_and (snd a) (snd b)) /\
  logic_or a b = Ok (join_cls (fst a) (fst b), spec_or (snd a) (snd b)) /\
  logic_xor a b = Ok (join_cls (fst a) (fst b), spec_xor (snd a) (snd b)) /\
  logic_invert a = Ok (fst a, spec_not (snd a)).
Proof.
  destruct a as [[|] a], b as [[|] b]; unfold is_logic; cbn [fst snd in_values];
    destruct a; intro Ha; try discriminate Ha; destruct b; intro Hb; try discriminate Hb;
    repeat split; vm_compute; reflexivity.
Qed.

Lemma closed_pf a b : is_logic a -> is_logic b ->
  forall op, In op [logic_and; logic_or; logic_xor] -> exists c, op a b = Ok c /\ is_logic c.
Proof.
  intros Ha Hb op Hop. destruct (tables_pf a b Ha Hb) as (E1 & E2 & E3 & _).
  destruct a as [ca a], b as [cb b]; cbn [fst snd] in *.
  cbn [In] in Hop; destruct Hop as [<-|[<-|[<-|[]]]]; eexists; (split; [eassumption|]);
    unfold is_logic in *; cbn [fst snd] in *; destruct ca, cb; cbn [join_cls in_values]; try reflexivity;
    destruct a; try discriminate Ha; destruct b; try discriminate Hb; reflexivity.
Qed.

Lemma comm_pf a b : is_logic a -> is_logic b ->
  logic_and a b = logic_and b a /\ logic_or a b = logic_or b a /\ logic_xor a b = logic_xor b a.
Proof.
  intros Ha Hb. destruct (tables_pf a b Ha Hb) as (-> & -> & -> & _).
  destruct (tables_pf b a Hb Ha) as (-> & -> & -> & _).
  destruct a as [ca a], b as [cb b]; cbn [fst snd].
  repeat split; do 2 f_equal; try (destruct ca, cb; reflexivity); destruct a, b; reflexivity.
Qed.

Lemma assoc_pf a b c : is_logic a -> is_logic b -> is_logic c ->
  forall op, In op [logic_and; logic_or; logic_xor] ->
  bind (op a b) (fun x => op x c) = bind (op b c) (fun y => op a y) /\
  is_ok (bind (op a b) (fun x => op x c)) = true.
Proof.
  intros Ha Hb Hc op Hop.
  destruct (closed_pf a b Ha Hb op Hop) as (x & Ex & Hx).
  destruct (closed_pf b c Hb Hc op Hop) as (y & Ey & Hy).
  rewrite Ex, Ey. cbn [bind].
  destruct (tables_pf a b Ha Hb) as (A1 & A2 & A3 & _).
  destruct (tables_pf b c Hb Hc) as (B1 & B2 & B3 & _).
  destruct (tables_pf x c Hx Hc) as (X1 & X2 & X3 & _).
  destruct (tables_pf a y Ha Hy) as (Y1 & Y2 & Y3 & _).
  cbn [In] in Hop; destruct Hop as [<-|[<-|[<-|[]]]];
    [rewrite X1, Y1; rewrite A1 in Ex; rewrite B1 in Ey|rewrite X2, Y2; rewrite A2 in Ex; rewrite B2 in Ey
    |rewrite X3, Y3; rewrite A3 in Ex; rewrite B3 in Ey];
    injection Ex as <-; injection Ey as <-; (split; [|reflexivity]);
    destruct a as [ca a], b as [cb b], c as [cc c]; cbn [fst snd];
    do 2 f_equal; try (destruct ca, cb, cc; reflexivity); destruct a, b, c; reflexivity.
Qed.

Lemma demorgan_pf a b : is_logic a -> is_logic b ->
  bind (logic_and a b) logic_invert =
    bind (logic_invert a) (fun x => bind (logic_invert b) (fun y => logic_or x y)) /\
  bind (logic_or a b) logic_invert =
    bind (logic_invert a) (fun x => bind (logic_invert b) (fun y => logic_and x y)).
Proof.
  destruct a as [[|] a], b as [[|] b]; unfold is_logic; cbn [fst snd in_values];
    destruct a; intro Ha; try discriminate Ha; destruct b; intro Hb; try discriminate Hb;
    split; vm_compute; reflexivity.
Qed.

Lemma annihilator_pf a : is_logic a ->
  logic_and a (CLogic, L0) = Ok (CLogic, L0) /\ logic_or a (CLogic, L1) = Ok (CLogic, L1).
Proof.
  intro Ha. destruct (tables_pf a (CLogic, L0) Ha eq_refl) as (-> & _).
  destruct (tables_pf a (CLogic, L1) Ha eq_refl) as (_ & -> & _).
  destruct a as [[|] a], a; split; reflexivity.
Qed.

Lemma boolean_pf a b x y : is_logic a -> is_logic b ->
  bool_of (snd a) = Some x -> bool_of (snd b) = Some y ->
  exists c, logic_and a b = Ok (c, of_bool (x && y)) /\ logic_or a b = Ok (c, of_bool (x || y)) /\
            logic_xor a b = Ok (c, of_bool (xorb x y)) /\
            logic_invert a = Ok (fst a, of_bool (negb x)).
Proof.
  intros Ha Hb Ea Eb. destruct (tables_pf a b Ha Hb) as (-> & -> & -> & ->).
  exists (join_cls (fst a) (fst b)). unfold spec_and, spec_or, spec_xor, spec_not. rewrite Ea, Eb.
  destruct x, y; repeat split; reflexivity.
Qed.

Lemma sound_pf a b a' b' : is_logic a -> is_logic b -> is_logic a' -> is_logic b' ->
  refines (snd a') (snd a) -> refines (snd b') (snd b) ->
  forall op, In op [logic_and; logic_or; logic_xor] ->
  exists r r', op a b = Ok r /\ op a' b' = Ok r' /\ refines (snd r') (snd r).
Proof.
  intros Ha Hb Ha' Hb' Ra Rb op Hop.
  destruct (tables_pf a b Ha Hb) as (A1 & A2 & A3 & _).
  destruct (tables_pf a' b' Ha' Hb') as (B1 & B2 & B3 & _).
  destruct a as [ca a], b as [cb b], a' as [ca' a'], b' as [cb' b']; cbn [fst snd] in *.
  cbn [In] in Hop; destruct Hop as [<-|[<-|[<-|[]]]]; do 2 eexists;
    (split; [eassumption|]); (split; [eassumption|]); clear -Ra Rb; cbn [snd];
    destruct a, b; cbn in Ra, Rb |- *; try exact I;
    destruct a'; try discriminate Ra; destruct b'; try discriminate Rb; reflexivity.
Qed.

Lemma literal_pf l c : in_values c l = true ->
  logic_new c (LvStr [logic_chr l]) = Ok l /\ logic_new c (LvLogic l) = Ok l /\
  logic_new c (LvStr (lower [logic_chr l])) = Ok l /\
  (forall b, bool_of l = Some b -> strong [l] = true -> logic_new c (LvInt (Z.b2z b)) = Ok l).
Proof.
  destruct c, l; intro H; try discriminate H; repeat split; try reflexivity;
    intros b Hb Hs; try discriminate Hs; injection Hb as <-; reflexivity.
Qed.

Lemma logic_eqb_eq a b : logic_eqb a b = true <-> a = b.
Proof. destruct a, b; split; intro H; try reflexivity; discriminate H. Qed.

Lemma eq_pf a b s z :
  (logic_eq a (LvLogic b) = true <-> a = b) /\
  (logic_eq a (LvStr s) = true <-> logic_new CLogic (LvStr s) = Ok a) /\
  (logic_eq a (LvInt z) = true <-> bool_of a = Some (Z.eqb z 1) /\ strong [a] = true /\ (z = 0 \/ z = 1)).
Proof.
  repeat split.
  - apply logic_eqb_eq.
  - apply logic_eqb_eq.
  - cbn [logic_eq]. destruct (logic_new CLogic (LvStr s)); [|discriminate].
    intro H; apply logic_eqb_eq in H; congruence.
  - cbn [logic_eq]. intros ->. now apply logic_eqb_eq.
  - unfold logic_eq, logic_new, literal_repr in H.
    destruct (Z.eqb_spec z 0); [subst; cbn in H|destruct (Z.eqb_spec z 1); [subst; cbn in H|discriminate H]];
      apply logic_eqb_eq in H; subst; reflexivity.
  - unfold logic_eq, logic_new, literal_repr in H.
    destruct (Z.eqb_spec z 0); [subst; cbn in H|destruct (Z.eqb_spec z 1); [subst; cbn in H|discriminate H]];
      apply logic_eqb_eq in H; subst; reflexivity.
  - unfold logic_eq, logic_new, literal_repr in H.
    destruct (Z.eqb_spec z 0); [subst; cbn in H|destruct (Z.eqb_spec z 1); [subst; cbn in H|discriminate H]]; auto.
  - intros (H1 & H2 & [-> | ->]); destruct a; try discriminate; reflexivity.
Qed.

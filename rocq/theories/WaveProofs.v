(** Proofs about wave files. *)
From Verif Require Import Base TextModel ToolsProofs QuoteModel QuoteSpec QuoteProofs RunnerModel BuildModel WaveModel WaveSpec.
From Coq Require Import String.
Open Scope Z_scope.

Lemma eqb_no a b : a <> b -> pystr_eqb a b = false.
Proof. intro H. destruct (pystr_eqb a b) eqn:E; [apply pystr_eqb_eq in E; contradiction|reflexivity]. Qed.
Lemma foreign_pf e a l v : foreign a -> main_args e (a ++ l) v = main_args e l v.
Proof.
  unfold foreign. induction 1 as [|x a H F IH]; [reflexivity|]. cbn [app main_args]. cbn [map In] in H.
  rewrite !eqb_no by (intros ->; apply H; tauto). exact IH.
Qed.
Lemma tame_pf e l : tame (e_coverage e) l -> e_trace e = true -> forall v, exists w, main_args e l v = VRun w /\ traceFile w = traceFile v /\
  traceOn w = traceOn v || existsb (pystr_eqb (lit "--trace")) l.
Proof.
  intros T Et. induction T as [|x l [H C] F IH]; intro v; cbn [main_args existsb].
  - exists v. rewrite orb_false_r. auto.
  - cbn [map In] in H.
    destruct (pystr_eqb x (lit "--coverage-per-instance")) eqn:E1.
    { apply pystr_eqb_eq in E1. rewrite (C E1), E1. destruct (IH (Vars (traceOn v) (traceFlush v) true (traceFile v))) as (w & A & B & D).
      exists w. repeat split; auto. }
    destruct (pystr_eqb x (lit "--trace")) eqn:E2.
    { apply pystr_eqb_eq in E2. rewrite E2, Et. destruct (IH (Vars true (traceFlush v) (coveragePerInstance v) (traceFile v))) as (w & A & B & D).
      exists w. repeat split; auto. rewrite D. cbn [traceOn]. destruct (traceOn v); reflexivity. }
    assert (E2' : pystr_eqb (lit "--trace") x = false).
    { apply eqb_no. intros <-. discriminate E2. }
    rewrite E2'. cbn [orb].
    destruct (pystr_eqb x (lit "--trace-flush")); [destruct (IH (Vars (traceOn v) true (coveragePerInstance v) (traceFile v))) as (w & A & B & D); exists w; auto|].
    rewrite !eqb_no by (intros ->; apply H; tauto). apply IH.
Qed.

(** What C44-C48 mean. *)
From Coq Require Import Sorted Permutation.
From Verif Require Import Base TextModel RegressionModel.
Open Scope Z_scope.

(** * The tests of a regression *)
Definition included (c : cfg) (t : test) : bool :=
  (length (c_filters c) =? 0)%nat || existsb (fun f => f (t_fullname t)) (c_filters c).
Definition of_stage (k : Z) (l : list test) : list test := filter (fun t => t_stage t =? k) l.
(** [sel] holds the included tests of [l], by stage, and in the order of [l] within a stage. *)
Definition selection (c : cfg) (l sel : list test) : Prop :=
  StronglySorted (fun t u => t_stage t <= t_stage u) sel /\
  forall k, of_stage k sel = of_stage k (filter (included c) l).

(** Tests which are run when nothing ends the regression early. *)
Definition marked_skip (c : cfg) (t : test) : bool := t_skip t && negb (c_testcase_mode c).
Definition runnable (c : cfg) (t : test) : bool := negb (marked_skip c t) && t_init t.

Definition started (s : state) : list test := map (fun x => fst (fst (fst x))) (s_starts s).
(** Started but not yet recorded; waiting to start. *)
Definition running (s : state) : list test :=
  match s_phase s, s_cur s with PRun, Some t => [t] | _, _ => [] end.
Definition waiting (s : state) : list test :=
  match s_phase s, s_cur s with PGap, Some t => [t] | _, _ => [] end.
Definition recorded (s : state) : list test := map r_test (s_results s).
Definition outcome_eqb (a b : outcome) : bool :=
  match a, b with OPass, OPass | OFail, OFail | OSkip, OSkip | OXfail, OXfail => true | _, _ => false end.
Definition status_eqb (a b : status) : bool :=
  match a, b with SSkipped, SSkipped | SError, SError | SPassed, SPassed | SXfailed, SXfailed | SFailed, SFailed => true | _, _ => false end.
Definition how_many (o : outcome) (l : list entry) : Z := Z.of_nat (length (filter (fun e => outcome_eqb (r_outcome e) o) l)).
Definition with_status (st : status) (l : list entry) : Z := Z.of_nat (length (filter (fun e => status_eqb (r_status e) st) l)).

(** * Recorded entries *)
Definition entry_of (c : cfg) (t : test) (v : verdict) : entry :=
  match v with
  | VSkipped => Entry t OSkip SSkipped MNone
  | VXfailed => if c_xfail_shown c then Entry t OXfail SXfailed MNone else Entry t OPass SPassed MNone
  | VPassed => Entry t OPass SPassed MNone
  | VFailed m => Entry t OFail SFailed m
  end.
(** What is recorded for a test which does not run because the regression was ended by [e]. *)
Definition ended_entry (c : cfg) (e : exc) (t : test) : entry :=
  if marked_skip c t then Entry t OSkip SSkipped MNone else entry_of c t (score c t (Some e)).

(** * Expectations *)
Definition expects_error (c : cfg) (t : test) (e : exc) : Prop :=
  (exists m, In (EMatcher m) (t_expect_error t) /\ c_matches c m e = true) \/
  (exists k, In (EType k) (t_expect_error t) /\ c_sub c (x_cls e) k = true).
Definition failed_check (c : cfg) (e : exc) : Prop :=
  c_sub c (x_cls e) cAssertion = true \/ c_sub c (x_cls e) cRaisesFailed = true.
Definition forces (c : cfg) (e : exc) (k : Z) : Prop := c_sub c (x_cls e) k = true.

(** An end of the simulator is not one of the special exceptions nor a failed check. *)
Definition sane_classes (c : cfg) : Prop :=
  forall k, In k [cAssertion; cRaisesFailed; cSkip; cXfail; cSuccess] -> c_sub c cSimFailure k = false /\ c_sub c cTerminated k = false.

(** The states of a regression over [tests], shuffled to [l]. *)
Definition reach (c : cfg) (tests l : list test) (s : state) : Prop :=
  Permutation l tests /\
  exists r0 v0 random evs, run c (initial c tests r0 v0) (EStart l random :: evs) = Some s.

(** Events of user code only. *)
Fixpoint only_user (evs : list event) : Prop :=
  match evs with [] => True | EUser _ _ _ :: evs' => only_user evs' | _ => False end.

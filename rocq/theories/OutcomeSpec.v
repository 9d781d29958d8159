(** What C89 (the results file tells the outcome of the regression) means. *)
From Verif Require Import Base TextModel LogicArrayModel RegressionModel XmlModel RegressionSpec XmlSpec OutcomeModel.
From Coq Require Import String.
Open Scope Z_scope.

(** A recorded test which does not count as a failure. *)
Definition good_entry (e : entry) : Prop := r_outcome e <> OFail.
(** The text of the child with this tag. *)
Definition child_text (tag : string) (x : elem) : option pystr := option_map e_text (e_find x tag).
(** A test case element tells about a recorded test: its name and module, one child for each bad status, and the seed. *)
Definition tells (W : world) (seed : Z) (x : elem) (e : entry) : Prop :=
  e_tag x = lit "testcase" /\ e_get x "classname" = Some (escape (w_module W (r_test e))) /\
  e_get x "name" = Some (escape (w_name W (r_test e))) /\
  (has_child "failure" x = true <-> r_status e = SFailed) /\ (has_child "error" x = true <-> r_status e = SError) /\
  (has_child "skipped" x = true <-> r_status e = SSkipped) /\
  (r_status e = SFailed \/ r_status e = SError ->
     exists number, child_text "system-err" x = Some (lit "Test failed with COCOTB_RANDOM_SEED=" ++ number ++ [10]) /\ py_int10 number = Ok seed).
(** The suite of a test. *)
Definition suite_of (W : world) (e : entry) : pystr := match w_module W (r_test e) with [] => lit "cocotb" | m => m end.
(** The suites of a document, with the test cases in them. *)
Definition suites_are (W : world) (seed : Z) (doc : elem) (l : list entry) : Prop :=
  Forall2 (fun k s => e_get s "name" = Some (escape k) /\
      Forall2 (tells W seed) (e_children s) (filter (fun e => pystr_eqb (suite_of W e) k) l))
    (dedup pystr_eqb (map (suite_of W) l)) (e_children doc).
(** Directories the paths are made relative to: absolute. *)
Definition absolute_dir (rel : option pystr) : Prop := match rel with Some (c :: _) => c = 47 | Some [] => False | None => True end.
(** All text from outside is Unicode, and the parts which become property values are XML text already. *)
Definition world_ok (W : world) : Prop :=
  (forall t, Forall code_point (w_name W t) /\ Forall code_point (w_module W t)) /\
  forall n, let d := w_details W n in
    Forall xml_text [d_file d; d_line d; d_start d; d_stop d; d_duration d; d_ratio d] /\
    Forall (Forall code_point) [d_stamp d; d_type d; d_text d; d_traceback d].

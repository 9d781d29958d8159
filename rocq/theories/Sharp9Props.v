(** Sharper theorems found by changing single tokens of the models. *)
From Coq Require Import String Lia.
From Verif Require Import Base.
From Verif Require EmbedModel EmbedProps GpiTimeModel ParamModel LogicModel BuildModel BuildProofs BuildProps RegressionModel XmlModel OutcomeModel.
Open Scope Z_scope.

(** * C109: white space and signs before the number *)
(** Tab, line feed, vertical tab, form feed, carriage return and blank before the digits are skipped. *)
Theorem C109_space (w s : pystr) : Forall (fun c => In c [9; 10; 11; 12; 13; 32]) w -> EmbedProps.decimal s ->
  EmbedModel.attached EmbedModel.E0 (Some (w ++ s)) = EmbedModel.attached EmbedModel.E0 (Some s).
Proof.
  intros W D. unfold EmbedModel.attached, EmbedModel.strtoul.
  replace (EmbedModel.skip_space (w ++ s)) with (EmbedModel.skip_space s); [reflexivity|].
  induction W as [|c w C _ IH]; [reflexivity|]. cbn [app EmbedModel.skip_space]. rewrite <- IH.
  cbn [In] in C. repeat (destruct C as [<-|C]; [reflexivity|]). destruct C.
Qed.
Print Assumptions C109_space.
(** Any other character which is neither a digit nor a sign makes it no number. *)
Theorem C109_no_number (c : Z) (s : pystr) : ~ In c [9; 10; 11; 12; 13; 32; 43; 45] -> ~ 48 <= c <= 57 ->
  EmbedModel.attached EmbedModel.E0 (Some (c :: s)) = EmbedModel.AttachNoNumber.
Proof.
  intros N D. unfold EmbedModel.attached, EmbedModel.strtoul. cbn [EmbedModel.skip_space].
  assert (S : EmbedModel.c_space c = false).
  { unfold EmbedModel.c_space. cbn [In] in N. destruct (Z.eqb_spec c 32); [lia|]. destruct (Z.leb_spec 9 c), (Z.leb_spec c 13); try reflexivity. lia. }
  rewrite S. cbn [In] in N. destruct (Z.eqb_spec c 45); [lia|]. destruct (Z.eqb_spec c 43); [lia|]. cbn [EmbedModel.digits].
  destruct (Z.leb_spec 48 c), (Z.leb_spec c 57); try lia; reflexivity.
Qed.
Print Assumptions C109_no_number.
(** With a minus the number is taken modulo 2^64. *)
Theorem C109_minus (s : pystr) : EmbedProps.decimal s -> let n := EmbedProps.value s in
  EmbedModel.attached EmbedModel.E0 (Some (45 :: s)) =
  if n =? 0 then EmbedModel.AttachNoNumber
  else if (2 ^ 64 - 2 ^ 32 + 1 <? n) && (n <? 2 ^ 64) then EmbedModel.Sleep (2 ^ 64 - n) else EmbedModel.AttachTooLong.
Proof.
  intros D n. unfold EmbedModel.attached, EmbedModel.strtoul. change (EmbedModel.skip_space (45 :: s)) with (45 :: s). cbn match. cbn [Z.eqb Pos.eqb].
  pose proof (EmbedProps.digits_spec s [] (proj2 D) ltac:(discriminate) 0) as X. rewrite app_nil_r in X. cbv zeta. rewrite X. fold (EmbedProps.value s). fold n.
  pose proof (EmbedProps.value_nonneg s (proj2 D) 0 ltac:(lia)) as P. fold (EmbedProps.value s) in P. fold n in P. clearbody n. clear X.
  destruct (Z.leb_spec (2 ^ 64) n).
  - cbn [orb]. destruct (Z.eqb_spec n 0); [lia|]. destruct (Z.ltb_spec n (2 ^ 64)); [lia|]. now rewrite Bool.andb_false_r.
  - destruct (Z.eqb_spec n 0) as [->|N]; [reflexivity|].
    replace ((- n) mod 2 ^ 64) with (2 ^ 64 - n) by (apply Z.mod_unique with (-1); lia). cbn [orb andb].
    destruct (Z.ltb_spec n (2 ^ 64)); [|lia]. destruct (Z.ltb_spec (2 ^ 64 - 2 ^ 32 + 1) n), (Z.leb_spec (2 ^ 32 - 1) (2 ^ 64 - n)); try lia; cbn [andb]; [|reflexivity].
    destruct (Z.leb_spec (2 ^ 64 - n) 0); [lia|reflexivity].
Qed.
Print Assumptions C109_minus.
Example C109_space_ex : EmbedProps.decimal [51; 48] /\ Forall (fun c => In c [9; 10; 11; 12; 13; 32]) [9; 32; 13] /\
  EmbedModel.attached EmbedModel.E0 (Some (9 :: lit "30")) = EmbedModel.Sleep 30 /\ EmbedModel.attached EmbedModel.E0 (Some (8 :: lit "30")) = EmbedModel.AttachNoNumber /\
  EmbedModel.attached EmbedModel.E0 (Some (lit "-9223372036854775778")) = EmbedModel.AttachTooLong.
Proof. split; [split; [discriminate|repeat (apply Forall_cons; [lia|]); apply Forall_nil]|]. split; [repeat (apply Forall_cons; [cbn; tauto|]); apply Forall_nil|]. repeat split. Qed.

(** * C108: no simulator *)
Theorem C108_no_simulator (lp64 : bool) (z answer : Z) :
  GpiTimeModel.register_timed None lp64 z = Err RuntimeError /\ GpiTimeModel.get_precision None true answer = Err RuntimeError /\
  GpiTimeModel.get_precision None false answer = Ok (-15).
Proof. repeat split. Qed.
Print Assumptions C108_no_simulator.

(** * C07: comparison with something else *)
Theorem C07_other (a : LogicModel.logic) : LogicModel.logic_eq a LogicModel.LvOther = false.
Proof. reflexivity. Qed.
Print Assumptions C07_other.

(** * C49: values of a group which are too short, or no sequence for a group of no names *)
Theorem C49_short_in_group ident name n m ns a v b x opts :
  Forall (fun v => exists y l, ParamModel.seq_of v = Some (y :: l)) (a ++ v :: b) -> Forall (fun v => exists y z l, ParamModel.seq_of v = Some (y :: z :: l)) a ->
  ParamModel.seq_of v = Some [x] ->
  ParamModel.generate_tests ident name ((ParamModel.GROUP (n :: m :: ns), a ++ v :: b) :: opts) = Err IndexError.
Proof.
  intros F A V. unfold ParamModel.generate_tests. cbn [ParamModel.option_reprs ParamModel.group_reprs].
  assert (E0 : exists col, ParamModel.mapR (ParamModel.column_item 0) (a ++ v :: b) = Ok col).
  { induction F as [|w l (y & q & Y) _ (col & IH)]; [now exists []|]. exists (y :: col). cbn [ParamModel.mapR]. unfold ParamModel.column_item at 1. rewrite Y. cbn [nth_error bind]. now rewrite IH. }
  destruct E0 as (col & ->). cbn [bind].
  assert (E : ParamModel.mapR (ParamModel.column_item 1) (a ++ v :: b) = Err IndexError); [|now rewrite E].
  clear F. induction A as [|w a (y & z & l & X) _ IH]; cbn [app ParamModel.mapR].
  - unfold ParamModel.column_item at 1. now rewrite V.
  - unfold ParamModel.column_item at 1. rewrite X. cbn [nth_error bind]. now rewrite IH.
Qed.
Print Assumptions C49_short_in_group.
Theorem C49_scalar_without_names ident name v vs : ParamModel.seq_of v = None ->
  ParamModel.generate_tests ident name [(ParamModel.GROUP [], v :: vs)] = Err TypeError.
Proof.
  intro V. unfold ParamModel.generate_tests. cbn [ParamModel.option_reprs ParamModel.group_reprs bind map snd List.length seq ParamModel.cart flat_map app].
  cbn [ParamModel.mapR ParamModel.select nth_error]. now rewrite V.
Qed.
Print Assumptions C49_scalar_without_names.
Example C49_short_in_group_ex : Forall (fun v => exists y l, ParamModel.seq_of v = Some (y :: l)) ([ParamModel.VStr (lit "ab")] ++ ParamModel.VStr (lit "a") :: []) /\
  ParamModel.seq_of (ParamModel.VStr (lit "a")) <> None /\ ParamModel.seq_of (ParamModel.VOther 5) = None.
Proof. split; [repeat constructor; eexists _, _; reflexivity|]. split; [discriminate|reflexivity]. Qed.

(** * C66: an error in the script of the Aldec simulators ends the simulator with code 1 *)
Theorem C66_onerror (r : bool) (m : BuildModel.machine) (t : BuildModel.test_in) (script : pystr) : BuildModel.aldec_test_script r m t = BuildModel.BOk script ->
  r && BuildModel.t_gui t = false ->
  exists rest, script = [10] ++ lit "onerror {" ++ [10] ++ lit " quit -code 1 " ++ [10] ++ lit "} " ++ [10] ++ rest.
Proof.
  unfold BuildModel.aldec_test_script. cbv zeta. intros H G. rewrite G in H. apply BuildProofs.bbind_ok in H as (pre & P & H). apply BuildProofs.BOk_inj in H. subst script.
  eexists. rewrite <- !app_assoc. reflexivity.
Qed.
Print Assumptions C66_onerror.
Example C66_onerror_ex : exists script, BuildModel.aldec_test_script false (BuildProps.ex_machine (fun _ => None)) BuildProps.ex_test = BuildModel.BOk script.
Proof. eexists. reflexivity. Qed.

(** * C89: the reasons of tests which did not run *)
(** A skipped test and one which could not be set up say so, whatever the test is. *)
Theorem C89_not_run (W : OutcomeModel.world) (seed : Z) (n : nat) (t : RegressionModel.test) (o : RegressionModel.outcome) (m : RegressionModel.message) (r : XmlModel.reporter) :
  XmlModel.e_find (XmlModel.case_elem r (OutcomeModel.case_of W seed n (RegressionModel.Entry t o RegressionModel.SSkipped m))) "skipped" =
    Some (XmlModel.Elem (lit "skipped") [(lit "message", lit "Test was skipped")] [] []) /\
  XmlModel.e_find (XmlModel.case_elem r (OutcomeModel.case_of W seed n (RegressionModel.Entry t o RegressionModel.SError m))) "error" =
    Some (XmlModel.Elem (lit "error") [(lit "message", lit "Test initialization failed")] [] []).
Proof. split; reflexivity. Qed.
Print Assumptions C89_not_run.

(** * C49: a group of names and a value which is not a sequence *)
Theorem C49_not_sequence (ns : list pystr) (v : ParamModel.pv) (l : list ParamModel.pv) (d : list ParamModel.option_) :
  ParamModel.seq_of v = None -> ParamModel.add_option (ParamModel.GROUP ns) (v :: l) d = Err TypeError.
Proof. intros H. unfold ParamModel.add_option. cbn. now rewrite H. Qed.
Example C49_not_sequence_ex : ParamModel.seq_of (ParamModel.VPrim (lit "1")) = None /\ ParamModel.add_option (ParamModel.GROUP [lit "a"; lit "b"]) [ParamModel.VPrim (lit "1")] [] = Err TypeError.
Proof. split; reflexivity. Qed.
Print Assumptions C49_not_sequence.
(** * C89: the status for a results file which cannot be counted *)
Theorem C89_uncountable (root : XmlModel.elem) (e : exn) : XmlModel.get_results root = Err e -> XmlModel.check_status (Some root) = 1 /\ XmlModel.check_status None = 1.
Proof. intros H. unfold XmlModel.check_status. rewrite H. now split. Qed.
Example C89_uncountable_ex : exists e, XmlModel.get_results (XmlModel.Elem (lit "testsuites") [] [] [XmlModel.Elem (lit "testsuite") [(lit "tests", lit "x")] [] []]) = Err e.
Proof. eexists. reflexivity. Qed.
Print Assumptions C89_uncountable.

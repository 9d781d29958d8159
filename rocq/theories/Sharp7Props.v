(** Sharper theorems on the indentation of log messages and on objects discovered through the VPI, found necessary by mutation. *)
From Coq Require Import String Lia.
From Verif Require Import Base TextModel LogModel.
From Verif Require VpiNameModel VpiIterModel VpiIterProps RegressionModel XmlModel OutcomeModel OutcomeProps.
Open Scope Z_scope.

(** * C68: what a negative indentation is measured with *)
(** A negative [multiline_indent] is the length of the prefix, without the codes of colours, of a record of level 20 named INFO whose texts are
    empty; two prefixes which agree on that record are indented alike, whatever they give for others. *)
Theorem C68_measured reduced strip mstrip f n r : n < 0 ->
  r = Record 20 (lit "INFO") [] [] 0 (Some []) None [] [] [] ->
  f_indent (mk_formatter reduced strip mstrip (Some f) (IInt n)) = IInt (Z.of_nat (List.length (sub_codes (f r [] [])))).
Proof. intros N ->. cbn. replace (n <? 0) with true by lia. reflexivity. Qed.
Print Assumptions C68_measured.
Example C68_measured_ex : f_indent (mk_formatter false None true (Some (fun r _ _ => if r_levelno r =? 20 then lit "ab" else lit "abc")) (IInt (-3))) = IInt 2.
Proof. reflexivity. Qed.

(** * C105: structures, and the number of elements of a signal *)
(** Structures are asked for their members by vpiMember (742), and by vpiNetArray (114) except in Xcelium's builds. *)
Theorem C105_structures ius t rels : In t [618; 683] -> VpiIterModel.iterate_over ius t = Some rels -> In 742 rels /\ In 36 rels /\ (In 114 rels <-> ius = false).
Proof.
  intros T E. assert (L : VpiIterModel.iterate_over ius t = Some (VpiIterModel.struct_options ius)) by (destruct T as [<-|[<-|[]]]; reflexivity).
  rewrite L in E. injection E as <-. destruct ius; (split; [|split; [|split]]); cbn; auto 12; try discriminate.
  intros I. repeat (destruct I as [I|I]; [discriminate|]). destruct I.
Qed.
Print Assumptions C105_structures.
Example C105_structures_ex : In 618 [618; 683] /\ exists rels, VpiIterModel.iterate_over false 618 = Some rels /\ In 114 rels.
Proof. split; [now left|]. eexists. split; [reflexivity|cbn; auto]. Qed.
(** A signal has as many elements as the simulator says; a net of real numbers (527) has one. *)
Theorem C105_elements {H} (s : VpiIterModel.sim H) skips h name fq o g int :
  VpiNameModel.htype (VpiIterModel.see s) h = VpiNameModel.VSignal g int -> VpiNameModel.create (VpiIterModel.see s) skips h name fq = Some o ->
  VpiNameModel.o_num o = if Z.eqb (VpiIterModel.rtype s h) 527 then 1 else VpiIterModel.rsize s h.
Proof.
  intros T E. unfold VpiNameModel.create in E. rewrite T in E.
  assert (S : forall o', VpiNameModel.signal_init (VpiIterModel.see s) int false (VpiNameModel.fresh h g) name fq = Some o' ->
    VpiNameModel.o_num o' = VpiNameModel.size (VpiIterModel.see s) h).
  { intros o' E'. unfold VpiNameModel.signal_init in E'. destruct int; [injection E' as <-; reflexivity|]. change (VpiNameModel.o_hdl (VpiNameModel.fresh h g)) with h in E'.
    change (VpiNameModel.o_type (VpiNameModel.fresh h g)) with g in E'. cbv zeta in E'.
    destruct g; try (injection E' as <-; reflexivity);
      (destruct (VpiNameModel.vector (VpiIterModel.see s) h); [|injection E' as <-; reflexivity];
       destruct (VpiNameModel.ranges (VpiIterModel.see s) h) as [[|[? ?] ?]|]; [discriminate|injection E' as <-; reflexivity|];
       destruct (VpiNameModel.own (VpiIterModel.see s) h) as [[? ?]|]; injection E' as <-; reflexivity). }
  destruct (VpiNameModel.signal_init (VpiIterModel.see s) int false (VpiNameModel.fresh h g) name fq) as [o'|].
  - injection E as <-. exact (S o' eq_refl).
  - injection E as <-. reflexivity.
Qed.
Print Assumptions C105_elements.
Example C105_elements_ex : exists o, VpiNameModel.htype (VpiIterModel.see VpiIterProps.ex) 1%nat = VpiNameModel.VSignal VpiNameModel.GLogicArray false /\
  VpiNameModel.create (VpiIterModel.see VpiIterProps.ex) true 1%nat (lit "a") (lit "top.a") = Some o /\ VpiNameModel.o_num o = 8.
Proof. eexists. split; [reflexivity|]. split; reflexivity. Qed.

(** * C89: a test which passed against expectation *)
(** Its failure has the text of the message, and no exception. *)
Theorem C89_passed W seed n t m r text : In (m, text) [(RegressionModel.MPassedNotError, lit "passed but we expected an error"); (RegressionModel.MPassedNotFailure, lit "passed but we expected a failure")] ->
  XmlModel.e_find (XmlModel.case_elem r (OutcomeModel.case_of W seed n (RegressionModel.Entry t RegressionModel.OFail RegressionModel.SFailed m))) "failure" =
    Some (XmlModel.Elem (lit "failure") [(lit "message", text)] [] []).
Proof. intros [[= <- <-]|[[= <- <-]|[]]]; reflexivity. Qed.
Print Assumptions C89_passed.
Example C89_passed_ex : OutcomeModel.d_true (OutcomeModel.w_details OutcomeProps.ex_W 0) = true /\ In (RegressionModel.MPassedNotError, lit "passed but we expected an error")
  [(RegressionModel.MPassedNotError, lit "passed but we expected an error"); (RegressionModel.MPassedNotFailure, lit "passed but we expected a failure")].
Proof. split; [reflexivity|now left]. Qed.

(** C115: versions from the output of a simulator. *)
From Coq Require Import String Lia.
From Verif Require Import Base TextModel ToolsModel ToolsSpec ToolsProofs ToolsProps CmdVersionModel.
Open Scope Z_scope.

(** Specification, not code: [line] is the first line of [s]. *)
Definition begins (s line : pystr) : Prop := ~ In 10 line /\ (s = line \/ exists more, s = line ++ [10] ++ more).
Lemma first_line_iff s line : first_line s = line <-> begins s line.
Proof.
  unfold first_line, begins. split.
  - intros <-. pose proof (split_once_spec 10 s) as H. destruct (split_once 10 s) as [[a b]|].
    + destruct H as [-> H]. split; [exact H|]. right. now exists b.
    + split; [exact H|now left].
  - intros (N & [->|(more & ->)]); [now rewrite split_once_none|now rewrite split_once_app].
Qed.
Lemma split_cons c s : forall p ps, split c s = p :: ps -> ~ In c p /\ (ps = [] /\ s = p \/ exists r, s = p ++ [c] ++ r /\ split c r = ps).
Proof.
  induction s as [|x s IH]; intros p ps; cbn [split].
  - intros [= <- <-]. split; [intros []|]. now left.
  - destruct (Z.eqb_spec x c) as [->|N].
    + intros [= <- <-]. split; [intros []|]. right. now exists s.
    + destruct (split c s) as [|q qs] eqn:E; [now destruct (split_ne c s)|]. intros [= <- <-].
      destruct (IH q qs eq_refl) as (F & R). split; [intros [X|X]; [now apply N|now apply F]|].
      destruct R as [(-> & ->)|(r & -> & R)]; [now left|]. right. exists r. now split.
Qed.
Lemma split_app1 c p r : ~ In c p -> split c (p ++ [c] ++ r) = p :: split c r.
Proof.
  induction p as [|x p IH]; intros N; cbn [app split]; [now rewrite Z.eqb_refl|].
  destruct (Z.eqb_spec x c) as [->|E]; [destruct N; now left|]. cbn [app] in IH. rewrite IH; [reflexivity|]. intro X. apply N. now right.
Qed.
Lemma split_one c p : ~ In c p -> split c p = [p].
Proof.
  induction p as [|x p IH]; intros N; cbn [split]; [reflexivity|].
  destruct (Z.eqb_spec x c) as [->|E]; [destruct N; now left|]. rewrite IH; [reflexivity|]. intro X. apply N. now right.
Qed.

(** The version is the second word of the first line, if the first is the name of the simulator. *)
Theorem C115_named sim s v : ~ In 32 sim -> (named sim s = Parsed v <->
  exists line t, begins s line /\ trimmed line t /\ ~ In 32 v /\ (t = sim ++ [32] ++ v \/ exists more, t = sim ++ [32] ++ v ++ [32] ++ more)).
Proof.
  intros NS. unfold named. split.
  - intros H. exists (first_line s), (strip (first_line s)). split; [now apply first_line_iff|]. split; [apply strip_trimmed|].
    destruct (split 32 (strip (first_line s))) as [|a [|b ps]] eqn:E; try discriminate H.
    destruct (pystr_eqb a sim) eqn:P; [|discriminate H]. injection H as <-. apply pystr_eqb_eq in P. subst a.
    apply split_cons in E. destruct E as (_ & [(X & _)|(r & -> & E)]); [discriminate X|].
    apply split_cons in E. destruct E as (N & [(_ & ->)|(q & -> & _)]); (split; [exact N|]); [now left|right; now exists q].
  - intros (line & t & B & T & N & R). apply first_line_iff in B. rewrite B, (trimmed_strip _ _ T).
    destruct R as [->|(more & ->)].
    + rewrite split_app1 by exact NS. rewrite split_one by exact N. now rewrite pystr_eqb_refl.
    + rewrite split_app1 by exact NS. rewrite split_app1 by exact N. now rewrite pystr_eqb_refl.
Qed.
Example C115_named_example : ~ In 32 (lit "Verilator") /\ named (lit "Verilator") (lit "Verilator 5.041 devel rev v5.040-1-g4eb030717") = Parsed (lit "5.041").
Proof. split; [vm_compute; intuition discriminate|vm_compute; reflexivity]. Qed.
Print Assumptions C115_named.
(** Otherwise it is a ValueError if the line has one word, else the assertion. *)
Theorem C115_named_fails sim s : (named sim s = Fails <-> exists line t, begins s line /\ trimmed line t /\ ~ In 32 t).
Proof.
  unfold named. split.
  - intros H. exists (first_line s), (strip (first_line s)). split; [now apply first_line_iff|]. split; [apply strip_trimmed|].
    destruct (split 32 (strip (first_line s))) as [|a [|b ps]] eqn:E; [now destruct (split_ne 32 (strip (first_line s)))| |destruct (pystr_eqb a sim); discriminate H].
    apply split_cons in E. destruct E as (N & [(_ & ->)|(r & _ & E)]); [exact N|now destruct (split_ne 32 r)].
  - intros (line & t & B & T & N). apply first_line_iff in B. rewrite B, (trimmed_strip _ _ T). now rewrite split_one.
Qed.
Print Assumptions C115_named_fails.

Lemma after_iff p : forall s r, after p s = Some r <-> s = p ++ r.
Proof.
  induction p as [|x p IH]; intros s r; cbn [after app].
  - split; [now intros [= <-]|now intros ->].
  - destruct s as [|y s]; [split; discriminate|]. destruct (Z.eqb_spec x y) as [->|N].
    + rewrite IH. split; [now intros ->|now intros [= ->]].
    + split; [discriminate|]. intros [= X _]. now destruct N.
Qed.
Definition no_digit (r : pystr) : Prop := forall c r', r = c :: r' -> ~ 48 <= c <= 57.
Lemma digit_iff c : is_digit c = true <-> 48 <= c <= 57.
Proof. unfold is_digit. rewrite andb_true_iff, !Z.leb_le. lia. Qed.
Lemma digits_iff s : forall d r, digits s = (d, r) <-> s = d ++ r /\ Forall (fun c => 48 <= c <= 57) d /\ no_digit r.
Proof.
  induction s as [|c s IH]; intros d r; cbn [digits].
  - split; [intros [= <- <-]; repeat split; [constructor|discriminate]|]. intros (E & _). symmetry in E. apply app_eq_nil in E. now destruct E as [-> ->].
  - destruct (is_digit c) eqn:D.
    + apply digit_iff in D. destruct (digits s) as [d' r'] eqn:E. destruct (proj1 (IH d' r') eq_refl) as (-> & F & N). split.
      * intros [= <- <-]. split; [reflexivity|]. split; [now constructor|exact N].
      * intros (X & G & M). destruct d as [|x d].
        { cbn [app] in X. destruct (M _ _ (eq_sym X) D). }
        cbn [app] in X. injection X as <- X. inversion G as [|? ? G1 G2]; subst. pose proof (proj2 (IH d r) (conj X (conj G2 M))) as Y. injection Y as -> ->. reflexivity.
    + split.
      * intros [= <- <-]. split; [reflexivity|]. split; [constructor|]. intros x r' [= <- _] X. apply digit_iff in X. congruence.
      * intros (X & G & M). destruct d as [|x d]; [cbn [app] in X; now rewrite X|]. cbn [app] in X. injection X as <- _.
        inversion G as [|? ? G1 G2]; subst. apply digit_iff in G1. congruence.
Qed.
(** The version of Icarus: the two numbers after the fixed words at the beginning of the first line. *)
Theorem C115_icarus s v : icarus s = Parsed v <-> exists a b rest, decimal a /\ decimal b /\ no_digit rest /\ v = a ++ [46] ++ b /\
  begins s (lit "Icarus Verilog version " ++ a ++ [46] ++ b ++ rest).
Proof.
  unfold icarus. split.
  - destruct (after (lit "Icarus Verilog version ") (first_line s)) as [r|] eqn:A; [|discriminate]. apply after_iff in A.
    destruct (digits r) as [a [|c q]] eqn:D; [discriminate|]. apply digits_iff in D. destruct D as (-> & F & _).
    destruct (pystr_eqb a []) eqn:P; [discriminate|]. cbn [negb andb]. destruct (Z.eqb_spec c 46) as [->|]; [|discriminate].
    destruct (digits q) as [b rest] eqn:D2. apply digits_iff in D2. destruct D2 as (-> & G & N).
    destruct (pystr_eqb b []) eqn:Q; [discriminate|]. intros [= <-]. exists a, b, rest.
    split; [split; [intros ->; discriminate P|exact F]|]. split; [split; [intros ->; discriminate Q|exact G]|]. split; [exact N|]. split; [reflexivity|].
    now apply first_line_iff.
  - intros (a & b & rest & (Na & Fa) & (Nb & Fb) & N & -> & B). apply first_line_iff in B. rewrite B.
    rewrite (proj2 (after_iff _ _ (a ++ [46] ++ b ++ rest)) eq_refl).
    rewrite (proj2 (digits_iff _ a ([46] ++ b ++ rest)));
      [|split; [reflexivity|split; [exact Fa|intros c r' [= <- _]; lia]]].
    cbn [app]. destruct (pystr_eqb a []) eqn:P; [apply pystr_eqb_eq in P; now destruct Na|]. cbn [negb andb]. change (46 =? 46) with true. cbv iota.
    rewrite (proj2 (digits_iff _ b rest)) by (split; [reflexivity|split; [exact Fb|exact N]]).
    destruct (pystr_eqb b []) eqn:Q; [apply pystr_eqb_eq in Q; now destruct Nb|]. reflexivity.
Qed.
Example C115_icarus_example : icarus (lit "Icarus Verilog version 12.0 (stable) ()" ++ [10] ++ lit "Copyright") = Parsed (lit "12.0").
Proof. vm_compute. reflexivity. Qed.
Print Assumptions C115_icarus.

(** The case of names is preserved exactly by versions of NVC after 1.16; those with a third number are after. *)
Theorem C115_preserve s a b more : Forall decimal (a :: b :: more) -> named (lit "nvc") s = Parsed (join (lit ".") (a :: b :: more)) ->
  exists on, preserve_case s = Some (Ok on) /\
  (on = true <-> 1 < value10 a \/ value10 a = 1 /\ (16 < value10 b \/ value10 b = 16 /\ more <> [])).
Proof.
  intros F N. unfold preserve_case. rewrite N.
  assert (M : mk_loose (join (lit ".") (a :: b :: more)) = Some (map (fun p => CNum (value10 p)) (a :: b :: more))).
  { rewrite <- (C55_dotted _ F). unfold mk_loose. destruct (join (lit ".") (a :: b :: more)) as [|c r] eqn:E; [|reflexivity].
    inversion F as [|? ? [Na _] _]; subst. destruct a; [now destruct Na|discriminate E]. }
  rewrite M. change (mk_loose (lit "1.16")) with (Some [CNum 1; CNum 16]). cbn [loose_cmp map list_cmp comp_eqb comp_cmp].
  destruct (Z.eqb_spec (value10 a) 1) as [Ea|Ea].
  - rewrite Ea. destruct (Z.eqb_spec (value10 b) 16) as [Eb|Eb].
    + rewrite Eb. destruct more as [|c more]; cbn [map list_cmp bind]; eexists; (split; [reflexivity|]).
      * split; [discriminate|]. intros [X|(_ & [X|(_ & X)])]; [lia|lia|now destruct X].
      * split; [|reflexivity]. intros _. right. split; [reflexivity|]. right. split; [reflexivity|discriminate].
    + cbn [bind]. eexists. split; [reflexivity|]. destruct (Z.compare_spec (value10 b) 16); split; try discriminate; try lia; reflexivity.
  - cbn [bind]. eexists. split; [reflexivity|]. destruct (Z.compare_spec (value10 a) 1); split; try discriminate; try lia; reflexivity.
Qed.
Example C115_preserve_example : Forall decimal [lit "1"; lit "16"; lit "0"] /\
  named (lit "nvc") (lit "nvc 1.16.0 (Using LLVM 17.0.6)" ++ [10] ++ lit "Copyright") = Parsed (join (lit ".") [lit "1"; lit "16"; lit "0"]) /\
  preserve_case (lit "nvc 1.16.0 (Using LLVM 17.0.6)" ++ [10]) = Some (Ok true) /\ preserve_case (lit "nvc 1.9.2") = Some (Ok false).
Proof.
  split; [|repeat split; vm_compute; reflexivity].
  repeat constructor; try discriminate; vm_compute; intuition discriminate.
Qed.
Print Assumptions C115_preserve.
(** Two blanks after the name leave an empty version, which cannot be compared. *)
Theorem C115_blanks_refuted : exists s, preserve_case s = Some (Err AttributeError).
Proof. exists (lit "nvc  1.17.0"). vm_compute. reflexivity. Qed.
Print Assumptions C115_blanks_refuted.
(** An output of one word is a ValueError, that of another program an AssertionError. *)
Theorem C115_refused s line t : begins s line -> trimmed line t ->
  (~ In 32 t -> preserve_case s = Some (Err ValueError)) /\
  (forall w r, t = w ++ [32] ++ r -> ~ In 32 w -> w <> lit "nvc" -> preserve_case s = None).
Proof.
  intros B T. split.
  - intros N. unfold preserve_case. rewrite (proj2 (C115_named_fails (lit "nvc") s)); [reflexivity|]. exists line, t. split; [exact B|split; [exact T|exact N]].
  - intros w r -> N W. unfold preserve_case, named. apply first_line_iff in B. rewrite B, (trimmed_strip _ _ T), split_app1 by exact N.
    destruct (split 32 r) as [|v ps] eqn:E; [now destruct (split_ne 32 r)|].
    destruct (pystr_eqb w (lit "nvc")) eqn:P; [apply pystr_eqb_eq in P; now destruct W|reflexivity].
Qed.
Example C115_refused_example : preserve_case (lit "nvc" ++ [10] ++ lit "1.17") = Some (Err ValueError) /\ preserve_case (lit "ghdl 4.1.0") = None.
Proof. split; vm_compute; reflexivity. Qed.
Print Assumptions C115_refused.

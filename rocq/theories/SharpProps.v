(** Statements added after mutations of the models were not noticed: C50, C61, C65, C81. *)
From Verif Require Import Base TextModel RunnerModel BuildModel BuildSpec BuildProofs BuildProps BuiltProps.
From Verif Require QuoteProofs QuoteModel ToolsModel PhaseModel.
From Coq Require Import String Lia.
Open Scope Z_scope.
Lemma Some_inj {A} (a b : A) : Some a = Some b -> a = b.
Proof. intro E. now injection E. Qed.
Lemma Ok_inj {A} (a b : A) : Ok a = Ok b -> a = b.
Proof. intro E. now injection E. Qed.

(** * C61: words which need no quotes *)
(** A word of letters, digits and [_@%+=:,./-] is written as it is; any other word is put between quotes. *)
Theorem C61_plain s : s <> [] ->
  (Forall (fun c => In c (lit "abcdefghijklmnopqrstuvwxyzABCDEFGHIJKLMNOPQRSTUVWXYZ0123456789_@%+=:,./-")) s <-> QuoteModel.shlex_quote s = s).
Proof.
  assert (K : forall c, QuoteModel.sh_safe c = true <-> In c (lit "abcdefghijklmnopqrstuvwxyzABCDEFGHIJKLMNOPQRSTUVWXYZ0123456789_@%+=:,./-")).
  { intro c. unfold QuoteModel.sh_safe. rewrite !Bool.orb_true_iff, !Bool.andb_true_iff, !Z.leb_le. cbn [existsb lit]. 
    cbn. rewrite ?Bool.orb_true_iff, ?Z.eqb_eq. lia. }
  intro N. destruct s as [|c s]; [now elim N|]. unfold QuoteModel.shlex_quote. set (w := c :: s) in *. destruct (forallb QuoteModel.sh_safe w) eqn:F.
  - split; [reflexivity|]. intros _. apply Forall_forall. intros x I. apply K. exact (proj1 (forallb_forall _ _) F x I).
  - split.
    + intro H. exfalso. assert (forallb QuoteModel.sh_safe w = true); [|congruence]. apply forallb_forall. intros x I. apply K. exact (proj1 (Forall_forall _ _) H x I).
    + intro E. exfalso. rewrite QuoteProofs.replace_char in E.
      assert (L : forall l : pystr, (List.length l <= List.length (flat_map (fun c : Z => if (39 =? c)%Z then [39; 34; 39; 34; 39]%Z else [c]) l))%nat).
      { induction l as [|x l IH]; [apply le_n|]. cbn [flat_map]. rewrite app_length. destruct (39 =? x); cbn [List.length]; lia. }
      apply (f_equal (@List.length Z)) in E. specialize (L w). rewrite !app_length in E. cbn [List.length] in E. lia.
Qed.
Print Assumptions C61_plain.
Example C61_plain_ex : QuoteModel.shlex_quote (lit "--work=top:/b/A.0") = lit "--work=top:/b/A.0" /\ QuoteModel.shlex_quote (lit "a b") = lit "'a b'".
Proof. now split. Qed.

(** * C65: which tags are accepted, and the top level *)
(** Exactly the lists without a foreign tag and with known extensions are accepted. *)
Theorem C65_lists_accepted abs l :
  ((exists r, set_sources abs l = BOk r) <-> Forall (fun a => exists t, kind_of a = BOk t) l) /\
  ((exists r, set_verilog_sources abs l = BOk r) <-> Forall (fun a => (exists t, kind_of a = BOk t) /\ forall p, a <> Tagged TVHDL p) l) /\
  ((exists r, set_vhdl_sources abs l = BOk r) <-> Forall (fun a => (exists t, kind_of a = BOk t) /\ forall p t, a = Tagged t p -> t = TVHDL) l).
Proof.
  assert (G : forall allowed, (exists r, set_list allowed abs l = BOk r) <->
                Forall (fun a => (exists t, kind_of a = BOk t) /\ forall p t, a = Tagged t p -> allowed t = true) l).
  { intro allowed. induction l as [|a k IH]; [split; [constructor|now exists []]|]. cbn [set_list]. rewrite Forall_cons_iff, <- IH. clear IH. split.
    - intros [r H]. bok H. split; [|now exists v0]. destruct a as [p|t p]; cbn in X |- *.
      + bok X. split; [now exists v1|discriminate].
      + destruct (allowed t) eqn:T; [|discriminate X]. split; [now exists t|]. intros p' t' E. injection E as <- <-. exact T.
    - intros [[[t K] T] [r H]]. rewrite H. destruct a as [p|t' p]; cbn in K |- *; [rewrite K|rewrite (T p t' eq_refl)]; cbn; eexists; reflexivity. }
  split; [|split]; unfold set_sources, set_verilog_sources, set_vhdl_sources; rewrite G; split; apply Forall_impl; intro a; cbn beta.
  - now intros [K _].
  - intro K. now split.
  - intros [K T]. split; [exact K|]. intros p ->. specialize (T _ _ eq_refl). discriminate T.
  - intros [K T]. split; [exact K|]. intros p t ->. destruct t; try reflexivity. now elim (T p).
  - intros [K T]. split; [exact K|]. intros p t ->. specialize (T _ _ eq_refl). now destruct t.
  - intros [K T]. split; [exact K|]. intros p t E. now rewrite (T _ _ E).
Qed.
Print Assumptions C65_lists_accepted.
Example C65_lists_accepted_ex : (exists r, set_vhdl_sources (fun p => p) [Plain (lit "a.vhd"); Tagged TVHDL (lit "b.txt")] = BOk r) /\
  ~ (exists r, set_vhdl_sources (fun p => p) [Tagged TVerilog (lit "b.v")] = BOk r).
Proof. split; [eexists; reflexivity|]. intros [r H]. discriminate H. Qed.

(** The top level of [build()] is named by the command which elaborates (DSim and the VHDL tools take it at the test). *)
Definition top_option (s : sim) (library top : pystr) : list pystr :=
  match s with
  | Icarus => [lit "-s"; top] | QuestaQIS => [lit "-top"; library ++ lit "." ++ top] | Verilator => [lit "--top-module"; top]
  | Xcelium => [lit "-top " ++ top] | _ => [lit "-top"; top]
  end.
Theorem C65_top s m b cmds top : In s [Icarus; QuestaQIS; Verilator; Xcelium; Vcs] -> b_toplevel b = Some top ->
  build_command s m b = BOk cmds -> cmds <> [] -> exists c rest, cmds = c :: rest /\ contiguous (top_option s (b_library b) top) c.
Proof.
  intros I T H N. cbn [In] in I. destruct I as [<-|[<-|[<-|[<-|[<-|[]]]]]]; cbn [build_command] in H.
  - unfold icarus_build in H. rewrite T in H. bok H. apply BOk_inj in H.
    match type of H with (if ?c then _ else _) = _ => destruct c; [|exfalso; apply N; symmetry; exact H] end. subst cmds.
    eexists _, _. split; [reflexivity|]. cbn [top_option]. built.
  - unfold qis_build in H. apply BOk_inj in H. subst cmds. rewrite T. eexists _, _. split; [reflexivity|]. cbn [top_option or_none]. built.
  - unfold verilator_build in H. rewrite T in H. bok H. apply BOk_inj in H. subst cmds. eexists _, _. split; [reflexivity|]. cbn [top_option]. built.
  - unfold xcelium_build in H. rewrite T in H. bok H. apply BOk_inj in H. subst cmds. eexists _, _. split; [reflexivity|]. cbn [top_option]. built.
  - unfold vcs_build in H. rewrite T in H. bok H. match type of H with (if ?c then _ else _) = _ => destruct c; [|exfalso; apply BOk_inj in H; apply N; symmetry; exact H] end.
    apply BOk_inj in H. subst cmds. eexists _, _. split; [reflexivity|]. cbn [top_option]. built.
Qed.
Print Assumptions C65_top.
Example C65_top_ex : exists c, build_command Xcelium (ex_machine (fun _ => Some 1)) (t_build ex_test) = BOk [c] /\ b_toplevel (t_build ex_test) <> None.
Proof. eexists. split; [vm_compute; reflexivity|discriminate]. Qed.
(** Without a top level the other four refuse; qrun is asked for a design unit "None". *)
Theorem C65_no_top s m b : b_toplevel b = None -> In s [Icarus; Verilator; Xcelium] -> forall cmds, build_command s m b <> BOk cmds.
Proof.
  intros T I cmds H. cbn [In] in I. destruct I as [<-|[<-|[<-|[]]]]; cbn [build_command] in H; [unfold icarus_build in H|unfold verilator_build in H|unfold xcelium_build in H]; rewrite T in H; bok H; discriminate H.
Qed.
Print Assumptions C65_no_top.
Theorem C65_no_top_refuted : exists m b c, b_toplevel b = None /\ build_command QuestaQIS m b = BOk [c] /\ contiguous [lit "-top"; lit "top.None"] c.
Proof.
  exists (ex_machine (fun _ => None)), (BuildIn (lit "top") [(lit "/s/a.sv", TVerilog)] [] [] [] [] [] [] None false false None false (lit "/d")). eexists.
  split; [reflexivity|]. split; [reflexivity|]. now exists [lit "qrun"; lit "-optimize"; lit "-outdir"; lit "/d/qrun_out"; lit "-quiet"]; eexists.
Qed.
Print Assumptions C65_no_top_refuted.

(** * C55: the texts of strict versions *)
Definition C55_number (d : pystr) : Prop := d <> [] /\ Forall (fun c => 48 <= c <= 57) d.
(** What [patch] (with its dot) and the pre-release tag look like, and what they mean. *)
Definition C55_patch (t : pystr) (n : Z) : Prop := t = [] /\ n = 0 \/ exists d, C55_number d /\ t = lit "." ++ d /\ n = ToolsModel.num_of d.
Definition C55_tag (t : pystr) (p : option (Z * Z)) : Prop :=
  t = [] /\ p = None \/ exists x d, In x (lit "ab") /\ C55_number d /\ t = [x] ++ d /\ p = Some (x, ToolsModel.num_of d).
Definition starts_digit (r : pystr) : Prop := exists c r', r = c :: r' /\ 48 <= c <= 57.
Lemma digits_out s : let '(d, r) := ToolsModel.digits s in s = d ++ r /\ Forall (fun c => 48 <= c <= 57) d /\ ~ starts_digit r.
Proof.
  induction s as [|c s IH]; cbn [ToolsModel.digits].
  { split; [reflexivity|]. split; [constructor|]. intros (c & r' & E & _). discriminate E. }
  unfold is_digit. destruct ((48 <=? c) && (c <=? 57)) eqn:D.
  - destruct (ToolsModel.digits s) as [d r]. destruct IH as (-> & F & N). split; [reflexivity|]. split; [|exact N]. constructor; [lia|exact F].
  - split; [reflexivity|]. split; [constructor|]. intros (x & r' & E & B). injection E as <- <-. lia.
Qed.
Lemma digits_in d r : Forall (fun c => 48 <= c <= 57) d -> ~ starts_digit r -> ToolsModel.digits (d ++ r) = (d, r).
Proof.
  intros F N. induction d as [|c d IH].
  - destruct r as [|c r]; [reflexivity|]. cbn. unfold is_digit. destruct ((48 <=? c) && (c <=? 57)) eqn:D; [|reflexivity]. elim N. exists c, r. split; [reflexivity|lia].
  - inversion F as [|? ? B F']; subst. cbn. unfold is_digit. replace ((48 <=? c) && (c <=? 57)) with true by lia. now rewrite IH.
Qed.
Lemma number_out s n r : ToolsModel.number s = Some (n, r) -> exists d, C55_number d /\ s = d ++ r /\ n = ToolsModel.num_of d.
Proof.
  unfold ToolsModel.number. pose proof (digits_out s) as D. destruct (ToolsModel.digits s) as [d r']. destruct D as (-> & F & _). destruct d as [|c d]; [discriminate|].
  intro E. apply Some_inj in E. assert (E1 := f_equal fst E). assert (E2 := f_equal snd E). cbn [fst snd] in E1, E2. subst. exists (c :: d). split; [split; [discriminate|exact F]|now split].
Qed.
Lemma number_in d r : C55_number d -> ~ starts_digit r -> ToolsModel.number (d ++ r) = Some (ToolsModel.num_of d, r).
Proof. intros [N F] S. unfold ToolsModel.number. rewrite digits_in by assumption. destruct d; [now elim N|reflexivity]. Qed.
(** What follows the numbers: [pre] and [end_] of [strict_parse] (distutils_version.py:131-151). *)
Definition C55_end (r : pystr) (v : ToolsModel.strict) : result ToolsModel.strict := match r with [] => Ok v | [10] => Ok v | _ => Err ValueError end.
Definition C55_pre (r : pystr) (a b c : Z) : result ToolsModel.strict :=
  match r with
  | x :: r' => if (x =? 97) || (x =? 98)
               then match ToolsModel.number r' with
                    | Some (n, r'') => C55_end r'' (ToolsModel.Strict a b c (Some (x, n)))
                    | None => Err ValueError
                    end
               else C55_end r (ToolsModel.Strict a b c None)
  | [] => C55_end r (ToolsModel.Strict a b c None)
  end.
Lemma end_ok r v w : C55_end r v = Ok w <-> v = w /\ (r = [] \/ r = [10]).
Proof.
  split.
  - unfold C55_end. destruct r as [|x r]; [intro E; apply Ok_inj in E; auto|].
    destruct (Z.eq_dec x 10) as [->|N].
    + destruct r; [intro E; apply Ok_inj in E; auto|discriminate].
    + intro E. exfalso. destruct x as [|x|x]; try discriminate E. do 4 (destruct x as [x|x|]; try discriminate E). now elim N.
  - intros [-> [->| ->]]; reflexivity.
Qed.
Lemma pre_ok r a b c major minor patch pre : C55_pre r a b c = Ok (ToolsModel.Strict major minor patch pre) <->
  a = major /\ b = minor /\ c = patch /\ exists t nl, C55_tag t pre /\ (nl = [] \/ nl = [10]) /\ r = t ++ nl.
Proof.
  split.
  - assert (Z0 : forall r, C55_end r (ToolsModel.Strict a b c None) = Ok (ToolsModel.Strict major minor patch pre) ->
      a = major /\ b = minor /\ c = patch /\ exists t nl, C55_tag t pre /\ (nl = [] \/ nl = [10]) /\ r = t ++ nl).
    { intros r0 E. apply end_ok in E as [E L]. injection E as -> -> -> <-. repeat (split; [reflexivity|]). exists [], r0. split; [left; now split|]. now split. }
    unfold C55_pre. destruct r as [|x r]; [apply Z0|]. destruct ((x =? 97) || (x =? 98)) eqn:X; [|apply Z0].
    destruct (ToolsModel.number r) as [[n r']|] eqn:N; [|discriminate]. intro E. apply end_ok in E as [E L]. injection E as -> -> -> <-.
    repeat (split; [reflexivity|]). apply number_out in N as (d & D & -> & ->). exists (x :: d), r'. split; [|now split].
    right. exists x, d. split; [cbn; lia|]. now split.
  - intros (-> & -> & -> & t & nl & T & L & ->). assert (NS : ~ starts_digit nl).
    { intros (x & r' & E & B). destruct L as [->| ->]; [discriminate E|]. injection E as <- <-. lia. }
    destruct T as [[-> ->]|(x & d & X & D & -> & ->)].
    + cbn [app]. unfold C55_pre. destruct L as [->| ->]; [reflexivity|]. reflexivity.
    + unfold C55_pre. cbn [app]. replace ((x =? 97) || (x =? 98)) with true by (cbn in X; lia). rewrite number_in by assumption. now apply end_ok.
Qed.
Lemma parse_eq s : ToolsModel.strict_parse s =
  match ToolsModel.number s with
  | Some (major, x :: r) =>
      if x =? 46 then
        match ToolsModel.number r with
        | Some (minor, y :: r') => if y =? 46 then match ToolsModel.number r' with Some (patch, r'') => C55_pre r'' major minor patch | None => Err ValueError end
                                   else C55_pre (y :: r') major minor 0
        | Some (minor, []) => C55_pre [] major minor 0
        | None => Err ValueError
        end
      else Err ValueError
  | _ => Err ValueError
  end.
Proof. reflexivity. Qed.
(** Exactly the texts "major.minor", with an optional ".patch" and an optional tag "a" or "b" with a number, are accepted (a final newline is,
    too, as [$] of a regular expression allows it), and they have these numbers. *)
Theorem C55_strict_text s major minor patch pre : ToolsModel.strict_parse s = Ok (ToolsModel.Strict major minor patch pre) <->
  exists a b p t nl, C55_number a /\ C55_number b /\ C55_patch p patch /\ C55_tag t pre /\ (nl = [] \/ nl = [10]) /\
    major = ToolsModel.num_of a /\ minor = ToolsModel.num_of b /\ s = a ++ lit "." ++ b ++ p ++ t ++ nl.
Proof.
  rewrite parse_eq. split.
  - destruct (ToolsModel.number s) as [[m [|x r]]|] eqn:N; try discriminate. destruct (Z.eqb_spec x 46) as [->|]; [|discriminate].
    apply number_out in N as (a & A & -> & ->). destruct (ToolsModel.number r) as [[mi r']|] eqn:N; [|discriminate].
    apply number_out in N as (b & B & -> & ->).
    assert (W : C55_pre r' (ToolsModel.num_of a) (ToolsModel.num_of b) 0 = Ok (ToolsModel.Strict major minor patch pre) ->
      exists a0 b0 p t nl, C55_number a0 /\ C55_number b0 /\ C55_patch p patch /\ C55_tag t pre /\ (nl = [] \/ nl = [10]) /\
        major = ToolsModel.num_of a0 /\ minor = ToolsModel.num_of b0 /\ a ++ 46 :: b ++ r' = a0 ++ lit "." ++ b0 ++ p ++ t ++ nl).
    { intro E. apply pre_ok in E as (<- & <- & <- & t & nl & T & L & ->). exists a, b, [], t, nl. repeat (split; [assumption|]).
      split; [left; now split|]. repeat (split; [assumption|]). now repeat split. }
    destruct r' as [|y r']; [exact W|]. destruct (Z.eqb_spec y 46) as [->|]; [|exact W].
    destruct (ToolsModel.number r') as [[pa r'']|] eqn:N; [|discriminate]. apply number_out in N as (c & C & -> & ->).
    intro E. apply pre_ok in E as (<- & <- & <- & t & nl & T & L & ->). exists a, b, (46 :: c), t, nl. repeat (split; [assumption|]).
    split; [right; exists c; split; [exact C|now split]|]. split; [exact T|]. split; [exact L|]. split; [reflexivity|]. split; reflexivity.
  - intros (a & b & p & t & nl & A & B & P & T & L & -> & -> & ->).
    assert (NN : ~ starts_digit nl).
    { intros (x & r' & E & Bd). destruct L as [->| ->]; [discriminate E|]. injection E as <- <-. lia. }
    assert (NT : ~ starts_digit (t ++ nl)).
    { destruct T as [[-> _]|(x & d & X & _ & -> & _)]; [exact NN|]. intros (y & r' & E & Bd). injection E as <- _. cbn in X. lia. }
    rewrite number_in; [|assumption|intros (x & r' & E & Bd); injection E as <- _; lia]. cbn [app lit]. cbn.
    destruct P as [[-> ->]|(d & D & -> & ->)].
    + cbn [app]. rewrite number_in by assumption.
      assert (E : C55_pre (t ++ nl) (ToolsModel.num_of a) (ToolsModel.num_of b) 0 = Ok (ToolsModel.Strict (ToolsModel.num_of a) (ToolsModel.num_of b) 0 pre))
        by (apply pre_ok; repeat (split; [reflexivity|]); now exists t, nl).
      destruct (t ++ nl) as [|y r] eqn:TN; [exact E|]. destruct (Z.eqb_spec y 46) as [->|]; [|exact E]. exfalso.
      destruct T as [[-> _]|(x & d & X & _ & -> & _)]; [destruct L as [->| ->]; discriminate TN|]. injection TN as -> _. cbn in X. lia.
    + rewrite number_in; [|assumption|intros (x & r' & E & Bd); injection E as <- _; lia]. cbn. rewrite number_in by assumption.
      apply pre_ok. repeat (split; [reflexivity|]). now exists t, nl.
Qed.
Print Assumptions C55_strict_text.
Example C55_strict_text_ex : ToolsModel.strict_parse (lit "10.7.12b3") = Ok (ToolsModel.Strict 10 7 12 (Some (98, 3))) /\
  ToolsModel.strict_parse (lit "1.3c4") = Err ValueError /\ ToolsModel.strict_parse (lit "1.3" ++ [10]) = Ok (ToolsModel.Strict 1 3 0 None).
Proof. now repeat split. Qed.

(** * C81: a callback which the simulator does not give *)
(** Waiting for a trigger for which nobody waits yet is refused with RuntimeError exactly if the simulator gives no callback or the phase
    does not allow it; a trigger for which somebody waits already is not asked again. *)
Theorem C81_not_given trust s t cb s' a : PhaseModel.p_cbs s t = [] -> PhaseModel.pstep trust s (PhaseModel.PAwait t cb false) = Some (s', a) ->
  a = PhaseModel.PRaised PhaseModel.PRuntimeError.
Proof.
  intros N E. cbn in E. unfold PhaseModel.await_trigger, PhaseModel.register in E. rewrite N in E.
  destruct (_ && _); injection E as _ <-; reflexivity.
Qed.
Print Assumptions C81_not_given.
Example C81_not_given_ex : exists s, PhaseModel.pstep false PhaseModel.phases0 (PhaseModel.PAwait PhaseModel.GReadWrite 1 false) = Some (s, PhaseModel.PRaised PhaseModel.PRuntimeError).
Proof. eexists. reflexivity. Qed.

(** * C93: Icarus writes its wave file in the format whose name the runner attaches *)
Theorem C93_icarus_format m t cmds e : test_command Icarus m t = BOk (cmds, e) ->
  exists c a, cmds = [c] /\ c = a ++ t_plus t ++ [lit (if t_waves t || t_gui t then "-fst" else "-none")] ++ m_suffix m.
Proof.
  intro H. cbn [test_command] in H. unfold icarus_test, no_pre in H. destruct (t_pre t); [discriminate H|]. apply BOk_inj in H.
  assert (A := f_equal fst H). cbn [fst] in A. subst cmds. eexists. exists (m_prefix m ++ [lit "vvp"; lit "-m"; m_lib m "vpi" "icarus"] ++ t_args t
    ++ [slash (b_dir (t_build t)) (lit "sim.vvp")]). split; [reflexivity|]. now rewrite <- !app_assoc.
Qed.
Print Assumptions C93_icarus_format.
Example C93_icarus_format_ex : exists c e, test_command Icarus (ex_machine (fun _ => Some 1)) ex_test = BOk ([c], e).
Proof. eexists. eexists. reflexivity. Qed.

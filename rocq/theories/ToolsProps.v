(** Property theorems C50 (environment settings), C55 (versions) and C57 (plusargs). *)
From Verif Require Import Base TextModel ToolsModel ToolsSpec ToolsProofs.
From Coq Require Import String.
Open Scope Z_scope.

(** * C50 *)
(** A boolean is read from exactly the documented words, in any case; anything else raises [ValueError]. *)
Theorem C50_bool_words s :
  (as_bool s = Ok true <-> means_yes s) /\ (as_bool s = Ok false <-> means_no s) /\
  (~ means_yes s -> ~ means_no s -> as_bool s = Err ValueError).
Proof. exact (as_bool_pf s). Qed.
Print Assumptions C50_bool_words.
Example C50_bool_words_ex :
  means_yes (lit "eNaBle") /\ means_no (lit "OFF") /\ as_bool (lit "yess") = Err ValueError /\ as_bool [] = Err ValueError.
Proof.
  repeat split; [| | reflexivity..].
  - exists "enable"%string. split; [cbn; tauto|]. cbn. repeat (constructor; [unfold same_letter; lia|]). constructor.
  - exists "off"%string. split; [cbn; tauto|]. cbn. repeat (constructor; [unfold same_letter; lia|]). constructor.
Qed.

(** A string setting is the value without surrounding white space, or the default if nothing is left. *)
Theorem C50_str s d : ~ blank s -> trimmed s (get_str (Some s) d) /\ get_str (Some s) d <> [].
Proof. exact (get_str_pf s d). Qed.
Print Assumptions C50_str.
Theorem C50_str_default v d : unset_or_blank v -> get_str v d = match d with Some d => d | None => [] end.
Proof. exact (get_str_blank_pf v d). Qed.
Print Assumptions C50_str_default.

(** A boolean setting: the default exactly for an unset or blank variable, otherwise the trimmed value is read. *)
Theorem C50_bool s d : ~ blank s -> exists t, trimmed s t /\ get_bool (Some s) d = as_bool t.
Proof. exact (get_bool_some_pf s d). Qed.
Print Assumptions C50_bool.
Theorem C50_bool_default v d : unset_or_blank v -> get_bool v d = Ok (match d with Some b => b | None => false end).
Proof. exact (get_bool_pf v d). Qed.
Print Assumptions C50_bool_default.

(** An integer setting. *)
Theorem C50_int s d : ~ blank s -> exists t, trimmed s t /\ get_int (Some s) d = py_int10 t /\
  (decimal t -> get_int (Some s) d = Ok (value10 t)) /\
  (forall u, t = 45 :: u -> decimal u -> get_int (Some s) d = Ok (- value10 u)).
Proof. exact (get_int_some_pf s d). Qed.
Print Assumptions C50_int.
Theorem C50_int_default v d : unset_or_blank v -> get_int v d = Ok (match d with Some d => d | None => 0 end).
Proof. exact (get_int_unset_pf v d). Qed.
Print Assumptions C50_int_default.

(** A list setting: however the value is written as pieces joined by commas, the result is the non-empty trimmed
    pieces in order; the default if there is none. Every value can be written this way ([C50_pieces]). *)
Theorem C50_list ps d : ps <> [] -> Forall (fun p => ~ In 44 p) ps ->
  exists ts, Forall2 trimmed ps ts /\
    get_list (Some (join (lit ",") ps)) d 44 =
    match filter nonempty ts with
    | [] => match d with Some d => d | None => [] end
    | l => l
    end.
Proof. exact (get_list_pf ps d). Qed.
Print Assumptions C50_list.
Theorem C50_pieces s : exists ps, ps <> [] /\ Forall (fun p => ~ In 44 p) ps /\ s = join (lit ",") ps.
Proof. exact (pieces_pf s). Qed.
Print Assumptions C50_pieces.
Theorem C50_list_default v d : unset_or_blank v -> get_list v d 44 = match d with Some d => d | None => [] end.
Proof. exact (get_list_unset_pf v d). Qed.
Print Assumptions C50_list_default.
Example C50_ex :
  ~ blank (lit "  On ") /\ get_bool (Some (lit "  On ")) (Some false) = Ok true /\
  unset_or_blank (Some (lit "   ")) /\ get_bool (Some (lit "   ")) (Some true) = Ok true /\
  get_int (Some (lit " 42")) None = Ok 42 /\ get_int (Some (lit "-7 ")) None = Ok (-7) /\ decimal (lit "42") /\
  get_int (Some (lit "4x")) None = Err ValueError /\
  get_list (Some (lit " a, ,b c ,,d")) None 44 = [lit "a"; lit "b c"; lit "d"] /\
  get_list (Some (lit " , ,")) (Some [lit "z"]) 44 = [lit "z"].
Proof.
  repeat (apply conj); try reflexivity; try discriminate.
  cbn. repeat (constructor; [lia|]). constructor.
Qed.

(** * C55 *)
(** Comparing component lists: reflexive exactly for equal lists, reversed when the operands are, transitive. *)
Theorem C55_loose_order a b c :
  (list_cmp a b = Ok Eq <-> a = b) /\
  list_cmp b a = reverse_cmp (list_cmp a b) /\
  (le_ok (list_cmp a b) -> le_ok (list_cmp b c) -> le_ok (list_cmp a c)) /\
  (list_cmp a b = Ok Lt -> list_cmp b c = Ok Lt -> list_cmp a c = Ok Lt).
Proof. exact (conj (list_cmp_eq a b) (conj (list_cmp_opp a b) (conj (list_cmp_le_trans a b c) (list_cmp_lt_trans a b c)))). Qed.
Print Assumptions C55_loose_order.

(** It answers whenever numbers and words stand at the same positions; otherwise at most [TypeError]. *)
Theorem C55_loose_total a b : aligned a b = true -> exists c, list_cmp a b = Ok c.
Proof. exact (list_cmp_total a b). Qed.
Print Assumptions C55_loose_total.
Theorem C55_loose_raises a b e : list_cmp a b = Err e -> e = TypeError /\ aligned a b = false.
Proof. exact (list_cmp_raises a b e). Qed.
Print Assumptions C55_loose_raises.

(** Versions which are dotted decimal numbers are parsed to these numbers. *)
Theorem C55_dotted ps : Forall decimal ps -> loose_parse (join (lit ".") ps) = map (fun p => CNum (value10 p)) ps.
Proof. exact (dotted_pf ps). Qed.
Print Assumptions C55_dotted.

(** Every version string falls apart into numbers, words of small letters, dots and other characters, each piece as
    long as possible, and its components are those of the pieces. *)
Theorem C55_pieces s : exists ws, List.concat ws = s /\ split_fully ws /\ exists css, Forall2 piece ws css /\ loose_parse s = List.concat css.
Proof. exact (version_pieces_pf s). Qed.
Print Assumptions C55_pieces.
Example C55_pieces_ex : loose_parse (lit "Q-2020.03-1_Full64") = [CStr (lit "Q-"); CNum 2020; CNum 3; CStr (lit "-"); CNum 1; CStr (lit "_F"); CStr (lit "ull"); CNum 64].
Proof. reflexivity. Qed.
(** Of a Questa version only the part before the first blank counts. *)
Theorem C55_questa a b : ~ In 32 a -> mk_questa (a ++ 32 :: b) = Some (loose_parse a) /\ (a <> [] -> mk_questa a = mk_loose a).
Proof. intro N. exact (conj (questa_pf a b N) (fun A => questa_plain_pf a A N)). Qed.
Print Assumptions C55_questa.
Example C55_questa_ex : loose_cmp (mk_questa (lit "10.7c 2018.08")) (mk_questa (lit "10.7b 2018.06")) = Ok Gt /\
  loose_cmp (mk_questa (lit "2020.1 2020.01")) (mk_questa (lit "10.7c 2018.08")) = Ok Gt /\
  loose_cmp (mk_questa (lit "2020.1 2020.01")) (mk_questa (lit "2020.1")) = Ok Eq /\
  loose_cmp (mk_questa (lit "2023.1_2 2023.03")) (mk_questa (lit "2023.1_1")) = Ok Gt.
Proof. repeat split; reflexivity. Qed.

(** The order is not total on version strings: two simulator versions whose comparison raises. *)
Theorem C55_total_refuted :
  exists a b, a <> [] /\ b <> [] /\ loose_cmp (mk_loose a) (mk_loose b) = Err TypeError.
Proof. exists (lit "2023.1_1"), (lit "2023.1.2"). repeat split; discriminate || reflexivity. Qed.
Print Assumptions C55_total_refuted.
(** An empty version string makes an object which cannot be compared at all. *)
Theorem C55_empty_refuted : exists a, loose_cmp (mk_loose a) (mk_loose a) = Err AttributeError.
Proof. exists []. reflexivity. Qed.
Print Assumptions C55_empty_refuted.

(** Strict versions are totally ordered, with pre-releases before the release. *)
Theorem C55_strict_order a b c :
  (strict_cmp a b = Eq <-> a = b) /\ strict_cmp b a = CompOpp (strict_cmp a b) /\
  (le_strict a b -> le_strict b c -> le_strict a c).
Proof. exact (conj (strict_eq a b) (conj (strict_opp a b) (strict_trans a b c))). Qed.
Print Assumptions C55_strict_order.
Example C55_ex :
  list_cmp (loose_parse (lit "10.6d")) (loose_parse (lit "10.7")) = Ok Lt /\
  list_cmp (loose_parse (lit "10.7b")) (loose_parse (lit "10.7c_1")) = Ok Lt /\
  list_cmp (loose_parse (lit "10.10")) (loose_parse (lit "10.9")) = Ok Gt /\
  loose_cmp (mk_questa (lit "2020.1 2020.01")) (mk_questa (lit "2020.1")) = Ok Eq /\
  aligned (loose_parse (lit "10.7b")) (loose_parse (lit "10.7c_1")) = true /\
  (exists a b, strict_parse (lit "1.2a3") = Ok a /\ strict_parse (lit "1.2.0") = Ok b /\ strict_cmp a b = Lt) /\
  strict_parse (lit "1") = Err ValueError.
Proof. repeat split; try reflexivity. do 2 eexists. repeat split; reflexivity. Qed.

(** * C57 *)
(** [n] is mapped to [v] exactly if the last option which defines [n] defines it to be [v]. *)
Theorem C57_plusargs argv n v : dict_get (plusargs argv) n = Some v <->
  exists pre o post, argv = pre ++ o :: post /\ defines o n v /\ forall o' v', In o' post -> ~ defines o' n v'.
Proof. exact (plusargs_pf argv n v). Qed.
Print Assumptions C57_plusargs.
(** No name occurs twice in the result. *)
Theorem C57_plusargs_keys argv : NoDup (map fst (plusargs argv)).
Proof. exact (plusargs_keys_pf argv). Qed.
Print Assumptions C57_plusargs_keys.
Example C57_ex :
  plusargs [lit "prog"; lit "+a=1=2"; lit "+b"; lit "-c"; lit "+a=3"; lit "+=x"; lit ""] =
    [(lit "a", PStr (lit "3")); (lit "b", PTrue); ([], PStr (lit "x"))] /\
  defines (lit "+a=1=2") (lit "a") (PStr (lit "1=2")) /\ defines (lit "+b") (lit "b") PTrue.
Proof.
  repeat split; try reflexivity.
  - apply (def_value (lit "a") (lit "1=2")). cbn. lia.
  - apply (def_flag (lit "b")). cbn. lia.
Qed.

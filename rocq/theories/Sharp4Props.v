(** Further statements which single wrong programs of the mutation runs had shown to be missing. *)
From Verif Require BuildModel ParamModel CompatModel CompatSpec CompatProofs.
From Verif Require Import Base RangeModel ArrayModel LogicModel LogicSpec LogicArrayModel LogicArrayMachine LogicArraySpec LogicArrayProofs LogicArrayRefine LogicArrayThms LogicArrayFormat LogicArrayProps.
From Coq Require Import String Lia.
Open Scope Z_scope.

(** * C07: conversions of single values *)
Theorem C07_int rnd l : logic_int None rnd l = match bool_of l with Some b => Ok (Z.b2z b) | None => Err ValueError end /\
  logic_bool None l = match bool_of l with Some b => Ok b | None => Err ValueError end.
Proof. split; destruct l; reflexivity. Qed.
Print Assumptions C07_int.
Example C07_int_ex : logic_int None (fun _ => true) LL = Ok 0 /\ logic_int None (fun _ => true) L1 = Ok 1 /\ logic_int None (fun _ => true) LZ = Err ValueError.
Proof. now repeat split. Qed.

(** * C16: places of the separators *)
Lemma group_places size sep : 1 <= size -> forall f u ds minw p c, ~ In sep ds -> sep <> 48 ->
  nth_error (group_loop f size sep u ds minw) p = Some c -> (c = sep <-> (Z.of_nat p + if u then 0 else 1) mod (size + 1) = 0).
Proof.
  intros Hs. induction f as [|f IH]; intros u ds minw p c ND N48 E; [destruct p; discriminate E|].
  cbn [group_loop] in E. set (rem := py_len ds) in *. set (l := Z.min size (Z.max (Z.max rem minw) 1)) in *. set (nz := Z.max 0 (l - rem)) in *. set (nc := Z.max 0 (Z.min rem l)) in *.
  assert (R0 : 0 <= rem) by (unfold rem, py_len; lia). assert (L1 : 1 <= l <= size) by (unfold l; lia).
  set (body := firstn (Z.to_nat nc) ds ++ repeat 48 (Z.to_nat nz)) in *.
  assert (LB : Z.of_nat (List.length body) = l).
  { unfold body. rewrite app_length, firstn_length, repeat_length. fold (py_len ds) in *. assert (Z.of_nat (List.length ds) = rem) by reflexivity. lia. }
  assert (NB : ~ In sep body).
  { unfold body. intro I. apply in_app_iff in I. destruct I as [I|I]; [apply ND; now rewrite <- (firstn_skipn (Z.to_nat nc) ds), in_app_iff; left|apply repeat_spec in I; congruence]. }
  set (pre := if u then [sep] else []) in *.
  assert (LP : Z.of_nat (List.length pre) = if u then 1 else 0) by (unfold pre; destruct u; reflexivity).
  assert (CH : forall q, (q < List.length (pre ++ body))%nat -> nth_error (pre ++ body) q = Some c -> (c = sep <-> (Z.of_nat q + if u then 0 else 1) mod (size + 1) = 0)).
  { intros q Q Eq. rewrite app_length in Q. destruct u; cbn [pre app List.length] in *.
    - destruct q as [|q]; cbn in Eq.
      + injection Eq as <-. split; [intros _; reflexivity|reflexivity].
      + assert (c <> sep) by (intros ->; apply NB; eapply nth_error_In; exact Eq). rewrite Z.mod_small by lia. split; [contradiction|lia].
    - assert (c <> sep) by (intros ->; apply NB; eapply nth_error_In; exact Eq). rewrite Z.mod_small by lia. split; [contradiction|lia]. }
  destruct ((rem - nc <=? 0) && (minw - l <=? 0)) eqn:T.
  - apply CH; [apply nth_error_Some; congruence|exact E].
  - destruct (Nat.lt_ge_cases p (List.length (pre ++ body))) as [Lt|Ge]; [apply CH; [exact Lt|now rewrite nth_error_app1 in E]|].
    rewrite nth_error_app2 in E by exact Ge. apply IH in E; [|intro I; apply ND; rewrite <- (firstn_skipn (Z.to_nat nc) ds), in_app_iff; now right|exact N48].
    rewrite E. assert (SZ : l = size) by (apply andb_false_iff in T; unfold l, nc in *; destruct T as [T|T]; lia).
    rewrite app_length in *.
    replace (Z.of_nat p + (if u then 0 else 1)) with (Z.of_nat (p - (List.length pre + List.length body)) + 0 + 1 * (size + 1)) by (destruct u; lia).
    rewrite Z.mod_add by lia. reflexivity.
Qed.
Lemma digits_plain t l c : (c = 95 \/ c = 44) -> Forall (fun d => 0 <= d < 16) l -> ~ In c (map (digit_chr t) l).
Proof.
  intros C F I. apply in_map_iff in I. destruct I as (d & E & I). rewrite Forall_forall in F. apply F in I. unfold digit_chr in E.
  destruct (d <? 10) eqn:L; destruct t; lia.
Qed.
Lemma format_places v alt w c t : 0 <= v -> c = 95 \/ c = 44 -> (c = 44 -> t = FDec) ->
  exists body, py_format_int v alt w (Some c) t = Ok ((if alt then fmt_prefix t else []) ++ body) /\
    forall p ch, nth_error (rev body) p = Some ch -> (ch = c <-> (Z.of_nat p + 1) mod (match t with FDec => 4 | _ => 5 end) = 0).
Proof.
  intros Hv Hc Ht. unfold py_format_int.
  assert (E : forall X (a b : X), match Some c, t with Some 44, (FBin | FOct | FHex | FHexUpper) => a | _, _ => b end = b).
  { intros X a b. destruct Hc as [-> | ->]; try reflexivity. rewrite (Ht eq_refl). reflexivity. }
  rewrite E. destruct (Z.ltb_spec v 0); [lia|]. cbn [app]. eexists. split; [reflexivity|]. intros p ch Q. rewrite rev_involutive in Q. cbn [grouped] in Q.
  assert (B : 2 <= fmt_base t) by (destruct t; cbn; lia).
  destruct (digits_of_val (fmt_base t) (Z.abs v) ltac:(lia) ltac:(lia)) as (_ & F & _).
  apply group_places in Q.
  - rewrite Q. destruct t; reflexivity.
  - destruct t; cbn; lia.
  - apply digits_plain; [exact Hc|]. eapply Forall_impl; [|exact F]. cbn. intros d K. assert (fmt_base t <= 16) by (destruct t; cbn; lia). lia.
  - lia.
Qed.
(** Counted from the right, exactly every fourth (decimal) or fifth character is a separator. *)
Theorem C16_groups rx rnd a alt c t base pre : is_larr rx a -> elems a <> [] -> definite (elems a) = true ->
  In (t, (base, pre)) fmt_letters -> c = 95 \/ c = 44 -> (c = 44 -> t = 100) ->
  exists body, snd (la_format rx rnd a (spec_of alt (Some c) t)) = Ok ((if alt then pre else []) ++ body) /\
    forall p ch, nth_error (rev body) p = Some ch -> (ch = c <-> (Z.of_nat p + 1) mod (if t =? 100 then 4 else 5) = 0).
Proof.
  intros H Hn D Ht Hs Hc. pose proof (rep_canon rx a H) as R.
  destruct (format_rep rx rnd _ _ (spec_of alt (Some c) t) R) as (a' & -> & _). cbn [snd].
  unfold val in *. cbn [fst a_value] in *.
  unfold s_format, s_int. rewrite (s_int0_definite _ Hn D).
  set (n := py_len (elems a)) in *. pose proof (unsigned_range (elems a)) as B.
  assert (NE : exists c0 s, spec_of alt (Some c) t = c0 :: s) by (unfold spec_of; destruct alt; eexists; eexists; reflexivity).
  destruct NE as (c0 & s0 & NE). rewrite NE. rewrite <- NE.
  destruct (elems a) as [|l0 v0] eqn:Ev; [congruence|]. rewrite <- Ev in *.
  match goal with |- context [fmt_plan ?m _] => set (k := m) end.
  assert (P : exists w, fmt_plan k (spec_of alt (Some c) t) =
     if t =? 98 then Ok (alt, [], w, Some c, FBin)
     else if t =? 120 then Ok (alt, [], w, Some c, FHex)
     else if t =? 88 then Ok (alt, [], w, Some c, FHexUpper)
     else if t =? 100 then Ok (false, (if alt then lit "0d" else []), w, Some c, FDec)
     else Ok (alt, [], w, Some c, FOct)).
  { clear - Ht Hs. cbn in Ht.
    repeat (destruct Ht as [Ht|Ht]; [injection Ht as <- <- <-; destruct alt; destruct Hs as [-> | ->]; eexists; reflexivity|]). contradiction. }
  destruct P as [w P]. rewrite P. clear P NE c0 s0. cbn in Ht.
  destruct Ht as [Ht|[Ht|[Ht|[Ht|[Ht|[]]]]]]; injection Ht as <- <- <-; cbn [Z.eqb Pos.eqb bind].
  - destruct (format_places (unsigned (elems a)) alt w c FBin ltac:(lia) Hs ltac:(intro Q; specialize (Hc Q); discriminate)) as (body & E & V).
    exists body. rewrite E. cbn [bind app]. split; [reflexivity|exact V].
  - destruct (format_places (unsigned (elems a)) alt w c FOct ltac:(lia) Hs ltac:(intro Q; specialize (Hc Q); discriminate)) as (body & E & V).
    exists body. rewrite E. cbn [bind app]. split; [reflexivity|exact V].
  - destruct (format_places (unsigned (elems a)) false w c FDec ltac:(lia) Hs ltac:(reflexivity)) as (body & E & V).
    exists body. rewrite E. cbn [bind app]. split; [destruct alt; reflexivity|exact V].
  - destruct (format_places (unsigned (elems a)) alt w c FHex ltac:(lia) Hs ltac:(intro Q; specialize (Hc Q); discriminate)) as (body & E & V).
    exists body. rewrite E. cbn [bind app]. split; [reflexivity|exact V].
  - destruct (format_places (unsigned (elems a)) alt w c FHexUpper ltac:(lia) Hs ltac:(intro Q; specialize (Hc Q); discriminate)) as (body & E & V).
    exists body. rewrite E. cbn [bind app]. split; [reflexivity|exact V].
Qed.
Print Assumptions C16_groups.
Example C16_groups_ex : is_larr None ex_oct /\ definite (elems ex_oct) = true /\
  snd (la_format None (fun _ => true) ex_oct (spec_of false (Some 95) 98)) = Ok (lit "0000_0000_0000").
Proof. split; [exists [ONew (WInt 0) (RInt 12)], O; split; [repeat constructor|reflexivity]|]. split; reflexivity. Qed.

(** A value which is refused: a ValueError for texts, numbers and other logic values, a TypeError only for what is none of these. *)
Theorem C07_refused c v e : logic_new c v = Err e -> (e = TypeError /\ v = LvOther) \/ (e = ValueError /\ v <> LvOther).
Proof.
  unfold logic_new, bind. destruct v as [s|z|l|]; cbn [literal_repr].
  - destruct (assoc_str s literal_table) as [l|]; [destruct (in_values c l)|]; intro E; try discriminate E; injection E as <-; right; split; try reflexivity; discriminate.
  - destruct (z =? 0); [destruct (in_values c L0)|destruct (z =? 1); [destruct (in_values c L1)|]]; intro E; try discriminate E; injection E as <-; right; split; try reflexivity; discriminate.
  - destruct (in_values c l); intro E; [discriminate E|injection E as <-]; right; split; [reflexivity|discriminate].
  - intro E. injection E as <-. left. now split.
Qed.
Print Assumptions C07_refused.
Example C07_refused_ex : logic_new CBit (LvLogic LX) = Err ValueError /\ logic_new CLogic (LvInt 2) = Err ValueError /\ logic_new CLogic LvOther = Err TypeError.
Proof. now repeat split. Qed.

(** * C65: GHDL elaborates the top-level *)
Theorem C65_ghdl m b cmds top : BuildModel.ghdl_build m b = BuildModel.BOk cmds -> BuildModel.b_toplevel b = Some top ->
  exists analyse elaborate, cmds = [analyse; elaborate ++ [top]] /\ firstn 2 analyse = [lit "ghdl"; lit "-i"] /\ firstn 2 elaborate = [lit "ghdl"; lit "-m"].
Proof.
  unfold BuildModel.ghdl_build. intros E T. rewrite T in E.
  destruct (BuildModel.only BuildModel.TVHDL (BuildModel.b_sources b ++ BuildModel.b_vhdl b)) as [x| ]; cbn [BuildModel.bbind] in E; [|discriminate E].
  destruct (BuildModel.only_args BuildModel.TVHDL (BuildModel.b_args b)) as [y| ]; cbn [BuildModel.bbind] in E; [|discriminate E].
  assert (Q : forall a c : list BuildModel.command, BuildModel.BOk a = BuildModel.BOk c -> a = c) by (intros a c K; now injection K).
  apply Q in E. subst cmds.
  exists ([lit "ghdl"; lit "-i"] ++ [lit "--work=" ++ BuildModel.b_library b] ++ BuildModel.values (BuildModel.b_args b) ++ BuildModel.paths (BuildModel.b_sources b ++ BuildModel.b_vhdl b)),
    ([lit "ghdl"; lit "-m"; lit "--work=" ++ BuildModel.b_library b] ++ BuildModel.values (BuildModel.b_args b)).
  split; [rewrite <- app_assoc; reflexivity|]. split; reflexivity.
Qed.
Print Assumptions C65_ghdl.
Example C65_ghdl_ex : BuildModel.ghdl_build (BuildModel.Machine (fun _ => None) [] [] (fun i s => []) (fun _ => true) None [] [] [] true false [])
    (BuildModel.BuildIn (lit "work") [(lit "/s/a.vhd", BuildModel.TVHDL)] [] [] [] [] [] [(lit "-O", None)] (Some (lit "dut")) false false None false (lit "/d")) =
  BuildModel.BOk [map lit ["ghdl"; "-i"; "--work=work"; "-O"; "/s/a.vhd"]%string; map lit ["ghdl"; "-m"; "--work=work"; "-O"; "dut"]%string].
Proof. vm_compute. reflexivity. Qed.

(** * C87: parameters with default values *)
Lemma bind_none ps kw : CompatModel.bind_args ps [] kw =
  if forallb (fun p => snd p || match TextModel.dict_get kw (fst p) with Some _ => true | None => false end) ps
  then Some (flat_map (fun p => match TextModel.dict_get kw (fst p) with Some v => [(fst p, v)] | None => [] end) ps) else None.
Proof.
  induction ps as [|[n d] ps IH]; [reflexivity|]. cbn [CompatModel.bind_args forallb flat_map fst snd]. rewrite IH.
  destruct (TextModel.dict_get kw n) as [v|], d; cbn [orb andb]; destruct (forallb _ ps); reflexivity.
Qed.

(** The arguments of a test: it can be called iff every parameter without a default value is given, and then it gets the design and exactly the
    values which are given. *)
Theorem C87_arguments params kw : TextModel.dict_get kw (lit "dut") = None ->
  forallb (fun k => CompatModel.mem (fst k) (map fst ((lit "dut", false) :: params))) kw = true ->
  ((exists b, CompatModel.cocotb_args ((lit "dut", false) :: params) [] kw = Some b) <->
     forall n, In (n, false) params -> exists v, TextModel.dict_get kw n = Some v) /\
  (forall b, CompatModel.cocotb_args ((lit "dut", false) :: params) [] kw = Some b -> forall n a, In (n, a) b <->
     (n = lit "dut" /\ a = CompatModel.ADut) \/ (In n (map fst params) /\ exists v, TextModel.dict_get kw n = Some v /\ a = CompatModel.AVal v)).
Proof.
  intros D K. unfold CompatModel.cocotb_args. rewrite K. cbn [map CompatModel.bind_args].
  set (kw' := map (fun k => (fst k, CompatModel.AVal (snd k))) kw).
  assert (G : forall n, TextModel.dict_get kw' n = option_map CompatModel.AVal (TextModel.dict_get kw n)).
  { intro n. unfold kw'. clear. induction kw as [|[k v] kw IH]; [reflexivity|]. cbn [map TextModel.dict_get fst snd]. destruct (pystr_eqb _ _); [reflexivity|exact IH]. }
  rewrite G, D. cbn [option_map]. rewrite bind_none. destruct (forallb _ params) eqn:F.
  - split.
    + split; [|intros _; eexists; reflexivity]. intros _ n I. rewrite forallb_forall in F. apply F in I. cbn [fst snd orb] in I. rewrite G in I.
      destruct (TextModel.dict_get kw n) as [v|]; [now exists v|discriminate I].
    + intros b E n a. injection E as <-. cbn [In]. rewrite in_flat_map. split.
      * intros [E|([m d] & I & E)]; [injection E as <- <-; now left|right]. cbn [fst] in E. rewrite G in E. destruct (TextModel.dict_get kw m) as [v|] eqn:Q; [|destruct E].
        cbn in E. destruct E as [E|[]]. injection E as <- <-. split; [apply in_map_iff; now exists (m, d)|]. now exists v.
      * intros [[-> ->]|(I & v & Q & ->)]; [now left|right]. apply in_map_iff in I. destruct I as ([m d] & <- & I). exists (m, d). split; [exact I|].
        cbn [fst] in *. rewrite G, Q. now left.
  - split.
    + split; [intros [b E]; discriminate E|]. intro A. exfalso. rewrite <- not_true_iff_false in F. apply F. apply forallb_forall. intros [n d] I. cbn [fst snd].
      destruct d; [reflexivity|]. cbn [orb]. destruct (A n I) as [v Q]. now rewrite G, Q.
    + discriminate.
Qed.
Print Assumptions C87_arguments.
Example C87_arguments_ex :
  CompatModel.cocotb_args [(lit "dut", false); (lit "n", false); (lit "k", true)] [] [(lit "n", ParamModel.VStr (lit "v"))] =
    Some [(lit "dut", CompatModel.ADut); (lit "n", CompatModel.AVal (ParamModel.VStr (lit "v")))] /\
  CompatModel.cocotb_args [(lit "dut", false); (lit "n", false); (lit "k", true)] [] [(lit "k", ParamModel.VStr (lit "v"))] = None.
Proof. now split. Qed.

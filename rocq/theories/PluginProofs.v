From Verif Require Import Base TextModel ToolsModel ToolsSpec ToolsProofs RegressionModel QuoteProofs LookupProofs ParamProofs XmlProofs PluginModel PluginSpec.
From Coq Require Import String.
Open Scope Z_scope.

(** * Options *)
Lemma precedence_pf resolve shlex k default env d : k <> KFlag -> env_default resolve shlex k default env = Ok d ->
  (forall v ini, v <> VNone -> option_value resolve shlex k default env (Some v) ini = Ok v) /\
  (forall v, option_value resolve shlex k default env None (Some v) = Ok v) /\
  option_value resolve shlex k default env None None = Ok d.
Proof.
  intros N E. unfold option_value. rewrite E. cbn [bind]. unfold populate. split; [|split].
  - intros v ini Nv. destruct v; try reflexivity. now destruct Nv.
  - intro v. destruct k; try reflexivity. now destruct N.
  - destruct k; try reflexivity. now destruct N.
Qed.
Lemma error_pf resolve shlex k default env e cli ini : env_default resolve shlex k default env = Err e ->
  option_value resolve shlex k default env cli ini = Err e.
Proof. unfold option_value. now intros ->. Qed.
Lemma flag_pf resolve shlex default env ini v : option_value resolve shlex KFlag default env None ini = Ok v -> v = VFlag false.
Proof. unfold option_value. destruct (env_default resolve shlex KFlag default env); cbn; congruence. Qed.

Lemma text_env resolve shlex default s : ~ blank s ->
  exists t, trimmed s t /\ env_default resolve shlex KText default (Some s) = Ok (VText t).
Proof. intro B. destruct (get_str_pf s (text_of default) B) as [T _]. eexists. split; [exact T|reflexivity]. Qed.

Lemma environment_pf resolve shlex default s : ~ blank s -> exists t, trimmed s t /\
  env_default resolve shlex KText default (Some s) = Ok (VText t) /\
  env_default resolve shlex KPath default (Some s) = Ok (VPath (resolve t)) /\
  env_default resolve shlex KArgs default (Some s) = bind (shlex t) (fun l => Ok (VWords l)) /\
  (decimal t -> env_default resolve shlex KInt default (Some s) = Ok (VNum (value10 t))) /\
  (means_yes t -> env_default resolve shlex KFlag default (Some s) = Ok (VFlag true)) /\
  (means_no t -> env_default resolve shlex KFlag default (Some s) = Ok (VFlag false)) /\
  (~ means_yes t -> ~ means_no t -> env_default resolve shlex KFlag default (Some s) = Err ValueError).
Proof.
  intro B. exists (strip s). pose proof (strip_trimmed s) as T. split; [exact T|].
  assert (G : forall d, get_str (Some s) d = strip s).
  { intro d. rewrite get_str_some. pose proof (strip_not_blank s B). destruct (strip s); [contradiction|reflexivity]. }
  assert (GB : forall d, get_bool (Some s) d = as_bool (strip s)).
  { intro d. destruct (get_bool_some_pf s d B) as (t & T' & ->). now rewrite (trimmed_strip _ _ T'). }
  unfold env_default. rewrite !G, GB. split; [reflexivity|]. split; [reflexivity|]. split; [reflexivity|].
  split.
  { intro D. destruct (get_int_some_pf s (num_of_value default) B) as (t & T' & _ & H & _). apply trimmed_strip in T'. subst t.
    now rewrite H. }
  destruct (as_bool_pf (strip s)) as (Y & N & E). split; [|split].
  - intro H. apply Y in H. now rewrite H.
  - intro H. apply N in H. now rewrite H.
  - intros H1 H2. now rewrite E.
Qed.
Lemma environment_list_pf resolve shlex default ps : ps <> [] -> Forall (fun p => ~ In 44 p) ps ->
  exists ts, Forall2 trimmed ps ts /\
    env_default resolve shlex KList default (Some (join (lit ",") ps)) =
    Ok (VWords match filter nonempty ts with [] => match words_of default with Some d => d | None => [] end | l => l end).
Proof. intros N F. destruct (get_list_pf ps (words_of default) N F) as (ts & H & E). exists ts. split; [exact H|]. unfold env_default. now rewrite E. Qed.
Lemma default_pf resolve shlex k d env : unset_or_blank env -> (forall cs, k <> KChoice cs) -> k <> KArgs ->
  match k, d with
  | KFlag, VFlag _ | KList, VWords _ | KInt, VNum _ | KText, VText _ => env_default resolve shlex k d env = Ok d
  | KFlag, VNone => env_default resolve shlex k d env = Ok (VFlag false)
  | KText, VNone => env_default resolve shlex k d env = Ok (VText [])
  | KPath, VText s => env_default resolve shlex k d env = Ok (VPath (resolve s))
  | KPath, VNone => env_default resolve shlex k d env = Ok (VPath (resolve []))
  | _, _ => True
  end.
Proof.
  intros U C A. unfold env_default. destruct k; try (now destruct (C choices)); try (now destruct A); destruct d; try exact Logic.I;
    rewrite ?get_bool_pf, ?get_list_unset_pf, ?get_int_unset_pf, ?get_str_blank_pf by exact U; reflexivity.
Qed.

Lemma small_low w : small_word w -> low_word w.
Proof. apply Forall_impl. lia. Qed.
Lemma choice_pf resolve shlex cs default s t : ~ blank s -> trimmed s t -> Forall small_word cs ->
  ~ In (lit "yes") cs -> ~ In (lit "no") cs ->
  (forall w, env_default resolve shlex (KChoice cs) default (Some s) = Ok (VText w) <-> In w cs /\ same_word t w) /\
  ((forall w, In w cs -> ~ same_word t w) -> env_default resolve shlex (KChoice cs) default (Some s) = Err ValueError).
Proof.
  intros B T S Y N.
  assert (G : get_str (Some s) (text_of default) = t).
  { rewrite get_str_some, (trimmed_strip _ _ T). destruct t; [|reflexivity]. exfalso. apply (strip_not_blank s B).
    now rewrite (trimmed_strip _ _ T). }
  assert (NE : py_lower t <> []).
  { destruct t as [|c t]; [exfalso; apply (strip_not_blank s B); now rewrite (trimmed_strip _ _ T)|].
    unfold py_lower. cbn [flat_map]. unfold py_lower_char. destruct (c =? 304), (c =? 8490); discriminate. }
  assert (Y' : one_of (lit "yes") cs = false).
  { destruct (one_of (lit "yes") cs) eqn:E; [|reflexivity]. now apply one_of_in in E. }
  assert (N' : one_of (lit "no") cs = false).
  { destruct (one_of (lit "no") cs) eqn:E; [|reflexivity]. now apply one_of_in in E. }
  assert (X : env_default resolve shlex (KChoice cs) default (Some s) =
              if one_of (py_lower t) cs then Ok (VText (py_lower t)) else Err ValueError).
  { unfold env_default. rewrite G, Y', N'. cbv zeta. cbn [andb].
    destruct (py_lower t) eqn:E; [now destruct NE|]. cbn [orb]. reflexivity. }
  rewrite X. split.
  - intro w. destruct (one_of (py_lower t) cs) eqn:E.
    + apply one_of_in in E. rewrite Forall_forall in S. split.
      * intros [= <-]. split; [exact E|]. apply py_lower_word; [apply small_low, S, E|reflexivity].
      * intros [I W]. apply py_lower_word in W; [now rewrite W|apply small_low, S, I].
    + split; [discriminate|]. intros [I W]. rewrite Forall_forall in S. apply py_lower_word in W; [|apply small_low, S, I].
      rewrite W in E. apply one_of_in in I. congruence.
  - intro H. destruct (one_of (py_lower t) cs) eqn:E; [|reflexivity]. apply one_of_in in E. exfalso. apply (H _ E).
    rewrite Forall_forall in S. apply py_lower_word; [apply small_low, S, E|reflexivity].
Qed.

(** [dict] of [NAME=VALUE]. *)
Lemma partition_assigns item : assigns item (fst (partition 61 item)) (snd (partition 61 item)).
Proof.
  unfold partition. pose proof (split_once_spec 61 item) as H. destruct (split_once 61 item) as [[a b]|]; cbn [fst snd].
  - destruct H as [-> H]. now apply as_value.
  - now apply as_name.
Qed.
Lemma assigns_partition item n v : assigns item n v -> partition 61 item = (n, v).
Proof.
  unfold partition. intro H. destruct H as [n v H|n H].
  - change (n ++ lit "=" ++ v) with (n ++ [61] ++ v). now rewrite split_once_app.
  - now rewrite split_once_none.
Qed.
Lemma fold_last {A B} (R : A -> B -> Prop) (f : option B -> A -> option B) l o :
  (forall o x b, R x b -> f o x = Some b) -> (forall o x, (forall b, ~ R x b) -> f o x = o) -> (forall x, (exists b, R x b) \/ forall b, ~ R x b) ->
  forall b, fold_left f l o = Some b <-> last_with R l b \/ Forall (fun x => forall b', ~ R x b') l /\ o = Some b.
Proof.
  intros H1 H2 H3. induction l as [|x l IH] using rev_ind; intro b.
  - cbn. split; [now right|]. intros [(p & a & q & E & _)|[_ E]]; [now destruct p|exact E].
  - rewrite fold_left_app. cbn [fold_left]. destruct (H3 x) as [[b' Hx]|Hx].
    + rewrite (H1 _ _ _ Hx). split.
      * intros [= <-]. left. exists l, x, []. repeat split; auto.
      * intros [(p & a & q & E & Ra & F)|[F _]].
        -- destruct q as [|y q _] using rev_ind.
           ++ apply app_inj_tail in E. destruct E as [_ <-]. now rewrite <- (H1 None _ _ Ra), (H1 None _ _ Hx).
           ++ rewrite app_comm_cons, app_assoc in E. apply app_inj_tail in E. destruct E as [_ <-].
              apply Forall_app in F. destruct F as [_ F]. inversion F; subst. exfalso. eapply H4. exact Hx.
        -- apply Forall_app in F. destruct F as [_ F]. inversion F; subst. exfalso. eapply H4. exact Hx.
    + rewrite (H2 _ _ Hx), IH. split.
      * intros [(p & a & q & -> & Ra & F)|[F ->]].
        -- left. exists p, a, (q ++ [x]). split; [now rewrite <- app_assoc|]. split; [exact Ra|]. apply Forall_app. split; [exact F|].
           constructor; [exact Hx|constructor].
        -- right. split; [|reflexivity]. apply Forall_app. split; [exact F|]. constructor; [exact Hx|constructor].
      * intros [(p & a & q & E & Ra & F)|[F ->]].
        -- left. destruct q as [|y q _] using rev_ind.
           ++ apply app_inj_tail in E. destruct E as [_ <-]. exfalso. eapply Hx. exact Ra.
           ++ rewrite app_comm_cons, app_assoc in E. apply app_inj_tail in E. destruct E as [-> _]. exists p, a, q.
              apply Forall_app in F. tauto.
        -- right. apply Forall_app in F. tauto.
Qed.
Lemma to_dict_fold items n : forall d, dict_get (fold_left (fun d item => let '(name, value) := partition 61 item in dict_set d name value) items d) n =
  fold_left (fun o item => if pystr_eqb (fst (partition 61 item)) n then Some (snd (partition 61 item)) else o) items (dict_get d n).
Proof.
  induction items as [|x l IH]; intro d; cbn [fold_left]; [reflexivity|]. destruct (partition 61 x) as [a b]. rewrite IH, dict_set_get.
  reflexivity.
Qed.
Lemma to_dict_pf items n v : dict_get (to_dict items) n = Some v <-> last_with (fun item v => assigns item n v) items v.
Proof.
  unfold to_dict. rewrite to_dict_fold. cbn [dict_get].
  rewrite (fold_last (fun item v => assigns item n v)).
  - split; [intros [H|[_ H]]; [exact H|discriminate]|now left].
  - intros o x b H. apply assigns_partition in H. rewrite H. cbn. now rewrite pystr_eqb_refl.
  - intros o x H. destruct (pystr_eqb _ _) eqn:E; [|reflexivity]. apply pystr_eqb_eq in E. exfalso.
    apply (H (snd (partition 61 x))). rewrite <- E. apply partition_assigns.
  - intro x. destruct (pystr_eqb (fst (partition 61 x)) n) eqn:E.
    + left. apply pystr_eqb_eq in E. exists (snd (partition 61 x)). rewrite <- E. apply partition_assigns.
    + right. intros b H. apply assigns_partition in H. rewrite H in E. cbn in E. now rewrite pystr_eqb_refl in E.
Qed.
Lemma to_dict_none_pf items n : dict_get (to_dict items) n = None <-> Forall (fun item => forall v, ~ assigns item n v) items.
Proof.
  split.
  - intro E. apply Forall_forall. intros x I v A. apply in_split in I. destruct I as (p & q & ->).
    assert (exists w, dict_get (to_dict (p ++ x :: q)) n = Some w) as [w W]; [|congruence].
    unfold to_dict in *. rewrite to_dict_fold in *. rewrite fold_left_app in *. cbn [fold_left] in *.
    apply assigns_partition in A. rewrite A. cbn [fst snd]. rewrite pystr_eqb_refl. clear. 
    assert (H : forall o, (exists w : pystr, o = Some w) -> exists w, fold_left (fun o item => if pystr_eqb (fst (partition 61 item)) n then Some (snd (partition 61 item)) else o) q o = Some w).
    { induction q as [|y q IH]; intros o [w ->]; [now exists w|]. cbn [fold_left]. apply IH. destruct (pystr_eqb _ _); eauto. }
    apply H. eauto.
  - intro F. destruct (dict_get (to_dict items) n) eqn:E; [|reflexivity]. apply to_dict_pf in E.
    destruct E as (b & a & c & -> & A & _). rewrite Forall_forall in F. exfalso. apply (F a) with (v := p); [apply in_or_app; right; now left|exact A].
Qed.

Lemma timescale_pf u p s1 s2 : ~ In 47 u -> trimmed u s1 -> trimmed p s2 ->
  to_timescale (u ++ lit "/" ++ p) = (s1, match s2 with [] => s1 | _ => s2 end) /\ to_timescale u = (s1, s1).
Proof.
  intros N T1 T2. unfold to_timescale, partition. change (u ++ lit "/" ++ p) with (u ++ [47] ++ p).
  rewrite split_once_app, split_once_none by exact N. rewrite (trimmed_strip _ _ T1), (trimmed_strip _ _ T2).
  split; reflexivity.
Qed.

(** * The design *)
Lemma apply_flat chain : forall h, apply_markers h chain = fold_left mark (from_root chain) h.
Proof.
  unfold apply_markers, from_root. induction (rev chain) as [|ms l IH]; intro h; cbn [fold_left List.concat]; [reflexivity|].
  rewrite fold_left_app. apply IH.
Qed.
Lemma lists_pf f chain h : h_list (apply_markers h chain) f = h_list h f ++ flat_map (adds f) (from_root chain).
Proof.
  rewrite apply_flat. revert h. induction (from_root chain) as [|m l IH]; intro h; cbn [fold_left flat_map]; [now rewrite app_nil_r|].
  rewrite IH, app_assoc. f_equal. destruct m; cbn; rewrite ?app_nil_r; try reflexivity.
  destruct f0, f; cbn; rewrite ?app_nil_r; reflexivity.
Qed.
Lemma fold_mark {B} (get : hdl -> B) (f : option B -> marker -> option B) l :
  (forall h m, Some (get (mark h m)) = f (Some (get h)) m) ->
  forall h, Some (get (fold_left mark l h)) = fold_left f l (Some (get h)).
Proof. intro H. induction l as [|m l IH]; intro h; cbn [fold_left]; [reflexivity|]. now rewrite IH, H. Qed.

Lemma update_get (kw : list (pystr * pystr)) : forall d n, NoDup (map fst kw) ->
  dict_get (dict_update d kw) n = match dict_get kw n with Some v => Some v | None => dict_get d n end.
Proof.
  unfold dict_update. induction kw as [|[k v] e IH]; intros d n ND; cbn in *; [reflexivity|]. inversion ND; subst.
  rewrite IH by assumption. rewrite dict_set_get. destruct (pystr_eqb k n) eqn:E; [|reflexivity].
  apply pystr_eqb_eq in E. subst n.
  assert (dict_get e k = None) as ->; [|reflexivity]. clear - H1. induction e as [|[a b] e IH]; cbn in *; [reflexivity|].
  destruct (pystr_eqb a k) eqn:E; [apply pystr_eqb_eq in E; tauto|tauto].
Qed.
Lemma dict_get_in {A} (d : list (pystr * A)) n v : NoDup (map fst d) -> (dict_get d n = Some v <-> In (n, v) d).
Proof.
  induction d as [|[k w] d IH]; cbn; intro ND; [now split|]. inversion ND; subst. destruct (pystr_eqb k n) eqn:E.
  - apply pystr_eqb_eq in E. subst k. split; [intros [= ->]; now left|]. intros [[= ->]|I]; [reflexivity|].
    exfalso. apply H1. change n with (fst (n, v)). now apply in_map.
  - rewrite IH by assumption. split; [now right|]. intros [[= -> ->]|I]; [now rewrite pystr_eqb_refl in E|exact I].
Qed.
Lemma dicts_pf f n chain h v : Forall keywords_distinct (from_root chain) ->
  (dict_get (h_dict (apply_markers h chain) f) n = Some v <->
   last_with (sets_dict f n) (from_root chain) v \/
   Forall (fun m => forall w, ~ sets_dict f n m w) (from_root chain) /\ dict_get (h_dict h f) n = Some v).
Proof.
  rewrite apply_flat. intro K.
  set (step := fun (o : option pystr) (m : marker) => match m with
    | MUpdate g kw => if dfield_eqb g f then match dict_get kw n with Some v => Some v | None => o end else o
    | _ => o end).
  assert (E : dict_get (h_dict (fold_left mark (from_root chain) h) f) n = fold_left step (from_root chain) (dict_get (h_dict h f) n)).
  { revert h K. induction (from_root chain) as [|m l IH]; intros h K; cbn [fold_left]; [reflexivity|]. inversion K; subst.
    rewrite IH by assumption. f_equal. destruct m; cbn; try reflexivity. destruct (dfield_eqb f0 f); [|reflexivity].
    apply update_get. assumption. }
  rewrite E. clear E.
  assert (D : forall m, keywords_distinct m -> forall w, sets_dict f n m w <-> step None m = Some w).
  { intros m Km w. unfold sets_dict. split.
    - intros (kw & -> & I). cbn in *. assert (dfield_eqb f f = true) as -> by now destruct f. apply dict_get_in in I; [|exact Km]. now rewrite I.
    - destruct m; cbn; try discriminate. destruct (dfield_eqb f0 f) eqn:Ef; [|discriminate].
      assert (f0 = f) as -> by (destruct f0, f; cbn in Ef; congruence).
      destruct (dict_get kwargs n) eqn:G; [|discriminate]. intros [= <-]. exists kwargs. split; [reflexivity|]. now apply dict_get_in. }
  assert (ST : forall o m, step o m = match step None m with Some w => Some w | None => o end).
  { intros o m. destruct m; try reflexivity. cbn. destruct (dfield_eqb f0 f); [|reflexivity]. now destruct (dict_get kwargs n). }
  (* like fold_last, but the relation is decided only for proper markers *)
  assert (G : forall l o, Forall keywords_distinct l -> (fold_left step l o = Some v <->
      last_with (fun m w => step None m = Some w) l v \/ Forall (fun m => forall w, step None m <> Some w) l /\ o = Some v)).
  { intros l o _. apply (fold_last (fun m w => step None m = Some w)).
    - intros o' x b Hx. now rewrite ST, Hx.
    - intros o' x Hx. rewrite ST. destruct (step None x) eqn:Ex; [|reflexivity]. now destruct (Hx p).
    - intro x. destruct (step None x); [left; eauto|right; congruence]. }
  rewrite G by exact K.
  assert (A1 : last_with (fun m w => step None m = Some w) (from_root chain) v <-> last_with (sets_dict f n) (from_root chain) v).
  { split; intros (p & a & q & E & R & F); exists p, a, q; (split; [exact E|]); rewrite E in K; apply Forall_app in K; destruct K as [_ K]; inversion K; subst.
    - split; [now apply D|]. rewrite Forall_forall in *. intros x I w S. apply D in S; [|now auto]. exact (F x I w S).
    - split; [now apply D|]. rewrite Forall_forall in *. intros x I w S. apply D in S; [|now auto]. exact (F x I w S). }
  assert (A2 : Forall (fun m => forall w, step None m <> Some w) (from_root chain) <-> Forall (fun m => forall w, ~ sets_dict f n m w) (from_root chain)).
  { rewrite !Forall_forall in *. split; intros F x I w S; apply (F x I w); apply D; auto. }
  tauto.
Qed.

Lemma scalar_pf {B} (get : hdl -> B) (R : marker -> B -> Prop) (f : marker -> option B) :
  (forall m b, R m b <-> f m = Some b) -> (forall h m, get (mark h m) = match f m with Some b => b | None => get h end) ->
  forall chain h b, get (apply_markers h chain) = b <->
    last_with R (from_root chain) b \/ Forall (fun m => forall b', ~ R m b') (from_root chain) /\ get h = b.
Proof.
  intros HR Hg chain h b. rewrite apply_flat.
  assert (E : Some (get (fold_left mark (from_root chain) h)) =
              fold_left (fun o m => match f m with Some b => Some b | None => o end) (from_root chain) (Some (get h))).
  { apply fold_mark. intros h' m. rewrite Hg. now destruct (f m). }
  split.
  - intro H. rewrite H in E. symmetry in E. apply (fold_last R) in E.
    + destruct E as [E|[E K]]; [now left|right; split; [exact E|congruence]].
    + intros o x b' Hx. apply HR in Hx. now rewrite Hx.
    + intros o x Hx. destruct (f x) eqn:Ex; [|reflexivity]. apply HR in Ex. now apply Hx in Ex.
    + intro x. destruct (f x) eqn:Ex; [left; eexists; apply HR, Ex|right; intros b' Hx; apply HR in Hx; congruence].
  - intro H. assert (fold_left (fun o m => match f m with Some b => Some b | None => o end) (from_root chain) (Some (get h)) = Some b) as E'; [|congruence].
    apply (fold_last R).
    + intros o x b' Hx. apply HR in Hx. now rewrite Hx.
    + intros o x Hx. destruct (f x) eqn:Ex; [|reflexivity]. apply HR in Ex. now apply Hx in Ex.
    + intro x. destruct (f x) eqn:Ex; [left; eexists; apply HR, Ex|right; intros b' Hx; apply HR in Hx; congruence].
    + destruct H as [H|[H K]]; [now left|right; split; [exact H|congruence]].
Qed.
Lemma flags_pf f chain h b : h_flag (apply_markers h chain) f = b <->
  last_with (sets_flag f) (from_root chain) b \/ Forall (fun m => forall b', ~ sets_flag f m b') (from_root chain) /\ h_flag h f = b.
Proof.
  apply (scalar_pf (fun h => h_flag h f) (sets_flag f) (fun m => match m with MFlag g b => if bfield_eqb g f then Some b else None | _ => None end)).
  - intros m b'. unfold sets_flag. split.
    + intros ->. assert (bfield_eqb f f = true) as -> by now destruct f. reflexivity.
    + destruct m; try discriminate. destruct (bfield_eqb f0 f) eqn:E; [|discriminate]. intros [= <-]. f_equal. destruct f0, f; cbn in E; congruence.
  - intros h' m. destruct m; try reflexivity. cbn. now destruct (bfield_eqb f0 f).
Qed.
Lemma seed_pf chain h n : h_seed (apply_markers h chain) = n <->
  last_with sets_seed (from_root chain) n \/ Forall (fun m => forall b', ~ sets_seed m b') (from_root chain) /\ h_seed h = n.
Proof.
  apply (scalar_pf h_seed sets_seed (fun m => match m with MSeed n => Some n | _ => None end)).
  - intros m b'. unfold sets_seed. split; [now intros ->|]. destruct m; congruence.
  - intros h' m. now destruct m.
Qed.
Lemma library_pf chain h n : h_library (apply_markers h chain) = n <->
  last_with sets_library (from_root chain) n \/ Forall (fun m => forall b', ~ sets_library m b') (from_root chain) /\ h_library h = n.
Proof.
  apply (scalar_pf h_library sets_library (fun m => match m with MLibrary n => Some n | _ => None end)).
  - intros m b'. unfold sets_library. split; [now intros ->|]. destruct m; congruence.
  - intros h' m. now destruct m.
Qed.
Lemma marker_timescale_pf chain h t : h_timescale (apply_markers h chain) = Some t <->
  last_with sets_timescale (from_root chain) t \/ Forall (fun m => forall b', ~ sets_timescale m b') (from_root chain) /\ h_timescale h = Some t.
Proof.
  set (f := fun m => match m with MTimescale u (Some (c :: s)) => Some (u, c :: s) | MTimescale u _ => Some (u, u) | _ => None end).
  assert (HR : forall m b, sets_timescale m b <-> f m = Some b).
  { intros m [x y]. unfold sets_timescale, f. cbn [fst snd]. split.
    - intros [u [(-> & N & ->)|([-> | ->] & E)]]; [destruct y; [now destruct N|reflexivity]|congruence|congruence].
    - destruct m; try discriminate. destruct precision as [[|c s]|]; intros [= <- <-]; exists unit; [right; tauto| |right; tauto].
      left. repeat split. discriminate. }
  rewrite (scalar_pf h_timescale (fun m o => exists t, o = Some t /\ sets_timescale m t) (fun m => option_map Some (f m))).
  - split.
    + intros [(p & a & q & E & (t' & [= <-] & R) & F)|[F E]].
      * left. exists p, a, q. split; [exact E|]. split; [exact R|]. rewrite Forall_forall in *. intros x I b S. apply (F x I (Some b)). eauto.
      * right. split; [|exact E]. rewrite Forall_forall in *. intros x I b S. apply (F x I (Some b)). eauto.
    + intros [(p & a & q & E & R & F)|[F E]].
      * left. exists p, a, q. split; [exact E|]. split; [eauto|]. rewrite Forall_forall in *. intros x I b (t' & -> & S). exact (F x I t' S).
      * right. split; [|exact E]. rewrite Forall_forall in *. intros x I b (t' & -> & S). exact (F x I t' S).
  - intros m b. split.
    + intros (t' & -> & R). apply HR in R. now rewrite R.
    + intro E. destruct (f m) eqn:Ef; [|discriminate]. injection E as <-. exists p. split; [reflexivity|now apply HR].
  - intros h' m. destruct m; try reflexivity. cbn. now destruct precision as [[|]|].
Qed.

(** The modules. *)
Lemma mark_modules m l h : h_modules (fold_left mark (l ++ [m]) h) =
  match m with MRunner args => match args with [] => [] | a :: rest => match a with [] => rest | _ => a :: rest end end | _ => h_modules (fold_left mark l h) end.
Proof. rewrite fold_left_app. cbn [fold_left]. destruct m; reflexivity. Qed.
Definition wanted (m : marker) : bool := match m with MRunner (_ :: _) => true | _ => false end.
Lemma fold_no_runner l : Forall (fun m => is_runner m = false) l -> forall h, h_modules (fold_left mark l h) = h_modules h.
Proof.
  induction l as [|m l IH]; intros F h; [reflexivity|]. inversion F; subst. cbn [fold_left]. rewrite IH by assumption. now destruct m.
Qed.
Lemma no_more l : (List.length (filter is_runner l) <= 0)%nat -> Forall (fun m => is_runner m = false) l.
Proof.
  induction l as [|m l IH]; intro H; constructor; cbn in H; destruct (is_runner m) eqn:E; cbn in H; auto; lia.
Qed.
Lemma node_modules ms : single ms ->
  match find wanted ms with
  | Some (MRunner args) => forall h, h_modules (fold_left mark ms h) = args
  | _ => forall h, h_modules (fold_left mark ms h) = h_modules h
  end.
Proof.
  intros [L N]. induction ms as [|m ms IH]; [intro h; reflexivity|]. inversion N as [|? ? Nm N']; subst. cbn [filter] in L.
  destruct (is_runner m) eqn:E.
  - destruct m; try discriminate. destruct Nm as (a & l & -> & Na). cbn [find wanted]. intro h. cbn [fold_left].
    rewrite fold_no_runner by (apply no_more; cbn in L; lia). cbn. destruct a; [now destruct Na|reflexivity].
  - assert (W : wanted m = false) by (destruct m; try reflexivity; discriminate). cbn [find]. rewrite W.
    specialize (IH L N'). destruct (find wanted ms) as [[]|]; intro h; cbn [fold_left]; rewrite IH; try reflexivity;
      destruct m; try reflexivity; discriminate.
Qed.
Lemma find_app {A} (f : A -> bool) l1 l2 : find f (l1 ++ l2) = match find f l1 with Some x => Some x | None => find f l2 end.
Proof. induction l1 as [|x l IH]; cbn; [reflexivity|]. now destruct (f x). Qed.
Lemma find_wanted ms m : find wanted ms = Some m -> exists args, m = MRunner args /\ args <> [].
Proof. intro E. apply find_some in E. destruct E as [_ E]. destruct m; try discriminate. destruct args; [discriminate|]. eexists. split; [reflexivity|discriminate]. Qed.
Lemma apply_cons h ms chain : apply_markers h (ms :: chain) = fold_left mark ms (apply_markers h chain).
Proof. unfold apply_markers. cbn [rev]. now rewrite fold_left_app. Qed.
Lemma modules_found chain h : Forall single chain -> h_modules h = [] ->
  match find wanted (List.concat chain) with
  | Some (MRunner args) => h_modules (apply_markers h chain) = args
  | _ => h_modules (apply_markers h chain) = []
  end.
Proof.
  intros F E. induction F as [|ms chain S F IH]; [exact E|]. cbn [List.concat]. rewrite find_app, apply_cons.
  pose proof (node_modules ms S) as NM. destruct (find wanted ms) as [m|] eqn:W.
  - destruct (find_wanted _ _ W) as (args & -> & _). apply NM.
  - rewrite NM. exact IH.
Qed.
Lemma collect_wanted chain stem : collect_modules chain stem =
  match find wanted (List.concat chain) with Some (MRunner args) => args | _ => [stem] end.
Proof. reflexivity. Qed.
Lemma modules_pf chain flags ts seed lib stem : Forall single chain -> ~ In 46 stem ->
  test_modules (apply_markers (new_design flags ts seed lib) chain) false (stem ++ lit ".py") = collect_modules chain stem.
Proof.
  intros F N. pose proof (modules_found chain (new_design flags ts seed lib) F eq_refl) as M. rewrite collect_wanted.
  unfold test_modules. destruct (find wanted (List.concat chain)) as [m|] eqn:W.
  - destruct (find_wanted _ _ W) as (args & -> & NE). rewrite M. now destruct args.
  - rewrite M. unfold partition. change (lit ".py") with ([46] ++ lit "py"). now rewrite split_once_app.
Qed.

Lemma after_prefix_app p s : after_prefix p (p ++ s) = Some s.
Proof. now apply after_prefix_iff. Qed.
Lemma toplevel_pf m l :
  (forall x, m = lit "test_" ++ x -> toplevel (m :: l) = Some x) /\
  (forall x, m = x ++ lit "_test" -> (forall y, m <> lit "test_" ++ y) -> toplevel (m :: l) = Some x) /\
  ((forall x, m <> lit "test_" ++ x) -> (forall x, m <> x ++ lit "_test") -> toplevel (m :: l) = Some m).
Proof.
  unfold toplevel, drop_test. repeat apply conj.
  - intros x ->. now rewrite after_prefix_app.
  - intros x E N. destruct (after_prefix (lit "test_") m) eqn:A; [apply after_prefix_iff in A; now destruct (N p)|].
    rewrite E, rev_app_distr, after_prefix_app. now rewrite rev_involutive.
  - intros N1 N2. destruct (after_prefix (lit "test_") m) eqn:A; [apply after_prefix_iff in A; now destruct (N1 p)|].
    destruct (after_prefix (rev (lit "_test")) (rev m)) eqn:B; [|reflexivity]. apply after_prefix_iff in B.
    exfalso. apply (N2 (rev p)). rewrite <- (rev_involutive m), B, rev_app_distr. now rewrite rev_involutive.
Qed.

Lemma dir_chars_pf nodeid : Forall plain_char (dir_name nodeid).
Proof.
  unfold dir_name. apply Forall_forall. intros c I. apply in_map_iff in I. destruct I as (x & E & _). unfold plain_char.
  destruct (posix_char x) eqn:P; subst c.
  - unfold posix_char in P. repeat (apply orb_true_iff in P; destruct P as [P|P]); try (apply andb_true_iff in P; destruct P as [P1 P2]; apply Z.leb_le in P1, P2; lia);
      apply Z.eqb_eq in P; subst x; cbn; tauto.
  - cbn. tauto.
Qed.

Lemma extended_pf argument attribute option :
  (forall l, argument = Some (SList l) -> l <> [] -> extended argument attribute option = Ok (SList (l ++ option))) /\
  (forall l, attribute = SList l -> argument = None \/ argument = Some (SList []) \/ argument = Some (STuple []) ->
     extended argument attribute option = Ok (SList (l ++ option))).
Proof.
  unfold extended. split.
  - intros l -> N. destruct l; [now destruct N|reflexivity].
  - intros l -> [-> |[-> | ->]]; reflexivity.
Qed.
Lemma overridden_pf argument attribute option n : NoDup (map fst option) ->
  dict_get (overridden argument attribute option) n =
  match dict_get option n with
  | Some v => Some v
  | None => match argument with Some (p :: d) => dict_get (p :: d) n | _ => dict_get attribute n end
  end.
Proof. intro ND. unfold overridden. rewrite update_get by exact ND. destruct argument as [[|]|]; reflexivity. Qed.

(** * Names of tests *)
Lemma partition_colons_app p f : ~ In 58 p -> partition_colons (p ++ lit "::" ++ f) = (p, f).
Proof.
  induction p as [|c p IH]; intro N; [reflexivity|]. cbn [app partition_colons].
  assert (after_prefix (lit "::") (c :: p ++ lit "::" ++ f) = None) as ->.
  { change (lit "::") with [58; 58]. cbn [after_prefix]. destruct (Z.eqb_spec 58 c) as [<-|]; [exfalso; apply N; now left|reflexivity]. }
  rewrite IH; [reflexivity|]. intro I. apply N. now right.
Qed.
Lemma prefix_pf runner nodeid : exists rest, mangled runner nodeid = runner ++ lit "::" ++ rest.
Proof.
  unfold mangled. destruct (partition_colons nodeid) as [p f]. destruct (pystr_eqb _ p); [eauto|].
  destruct (after_prefix _ _); eauto.
Qed.
Lemma same_file_pf path g f1 f2 : ~ In 58 path ->
  mangled (node_id path g) (node_id path f1) = node_id path g ++ lit "::" ++ f1 /\
  (mangled (node_id path g) (node_id path f1) = mangled (node_id path g) (node_id path f2) -> f1 = f2).
Proof.
  intro N. assert (H : forall f, mangled (node_id path g) (node_id path f) = node_id path g ++ lit "::" ++ f).
  { intro f. unfold mangled, node_id. rewrite !partition_colons_app by exact N. cbn [fst]. now rewrite pystr_eqb_refl. }
  split; [apply H|]. rewrite !H. intro E. apply app_inv_head in E. now apply app_inv_head in E.
Qed.
Lemma dir_of_app d m : ~ In 47 m -> dir_of (d ++ lit "/" ++ m) = d.
Proof.
  intro N. unfold dir_of. rewrite !rev_app_distr. change (rev (lit "/")) with [47]. rewrite <- app_assoc, split_once_app.
  - apply rev_involutive.
  - intro I. apply N. now apply in_rev.
Qed.
Lemma lstrip_slash_free s : (forall c, hd_error s = Some c -> c <> 47) -> lstrip_slash s = s.
Proof. destruct s as [|c s]; [reflexivity|]. intro H. cbn. destruct (Z.eqb_spec c 47) as [->|]; [now destruct (H 47 eq_refl)|reflexivity]. Qed.
Lemma free_char old new s : ~ In old s -> replace [old] [new] s = s.
Proof.
  intro N. rewrite replace_char. induction s as [|c s IH]; [reflexivity|]. cbn [flat_map].
  destruct (Z.eqb_spec old c) as [<-|]; [exfalso; apply N; now left|]. cbn. f_equal. apply IH. intro I. apply N. now right.
Qed.
Lemma same_dir_one d r g m f : ~ In 58 d -> ~ In 58 r -> ~ In 47 r -> ~ In 58 m -> ~ In 47 m -> m <> [] -> m ++ lit ".py" <> r ->
  mangled (node_id (d ++ lit "/" ++ r) g) (node_id (d ++ lit "/" ++ m ++ lit ".py") f) =
  node_id (d ++ lit "/" ++ r) g ++ lit "::" ++ m ++ lit "::" ++ f.
Proof.
  intros Nd Nr Sr Nm Sm NE D. unfold mangled, node_id.
  assert (N1 : ~ In 58 (d ++ lit "/" ++ r)). { rewrite !in_app_iff. cbn. intuition discriminate. }
  assert (N2 : ~ In 58 (d ++ lit "/" ++ m ++ lit ".py")). { rewrite !in_app_iff. cbn. intuition discriminate. }
  rewrite !partition_colons_app by assumption. cbn [fst].
  destruct (pystr_eqb (d ++ lit "/" ++ r) (d ++ lit "/" ++ m ++ lit ".py")) eqn:E.
  { apply pystr_eqb_eq in E. do 2 apply app_inv_head in E. now destruct D. }
  rewrite dir_of_app by exact Sr. rewrite (dir_of_app d (m ++ lit ".py")) by (rewrite in_app_iff; cbn; intuition discriminate).
  assert (after_prefix d d = Some []) as -> by (apply after_prefix_iff; now rewrite app_nil_r).
  do 2 f_equal.
  unfold remove_prefix at 1. rewrite after_prefix_app.
  assert (remove_suffix (lit ".py") (lit "/" ++ m ++ lit ".py") = lit "/" ++ m) as ->.
  { unfold remove_suffix, remove_prefix. rewrite app_assoc, rev_app_distr, after_prefix_app. apply rev_involutive. }
  assert (strip_slash (lit "/" ++ m) = m) as ->.
  { unfold strip_slash. change (lit "/" ++ m) with (47 :: m). cbn [lstrip_slash]. change (47 =? 47) with true. cbv iota.
    rewrite (lstrip_slash_free m) by (intros c Hc ->; destruct m; [discriminate|]; cbn in Hc; inversion Hc; subst; apply Sm; now left).
    rewrite lstrip_slash_free; [apply rev_involutive|]. intros c Hc ->. apply Sm. apply in_rev. destruct (rev m); [discriminate|]. cbn in Hc. inversion Hc. now left. }
  rewrite free_char by exact Sm. reflexivity.
Qed.
Lemma colons_inj m1 : forall m2 f1 f2, ~ In 58 m1 -> ~ In 58 m2 -> m1 ++ lit "::" ++ f1 = m2 ++ lit "::" ++ f2 -> m1 = m2 /\ f1 = f2.
Proof.
  intros m2 f1 f2 N1 N2 E. pose proof (partition_colons_app m1 f1 N1) as P. rewrite E, partition_colons_app in P by exact N2. now injection P as -> ->.
Qed.
Lemma same_dir_pf d r g m1 f1 m2 f2 : ~ In 58 d -> ~ In 58 r -> ~ In 47 r ->
  Forall (fun m => ~ In 58 m /\ ~ In 47 m /\ m <> [] /\ m ++ lit ".py" <> r) [m1; m2] ->
  mangled (node_id (d ++ lit "/" ++ r) g) (node_id (d ++ lit "/" ++ m1 ++ lit ".py") f1) =
  mangled (node_id (d ++ lit "/" ++ r) g) (node_id (d ++ lit "/" ++ m2 ++ lit ".py") f2) -> m1 = m2 /\ f1 = f2.
Proof.
  intros Nd Nr Sr F. inversion F as [|? ? (A1 & A2 & A3 & A4) F']; subst. inversion F' as [|? ? (B1 & B2 & B3 & B4) _]; subst.
  rewrite !same_dir_one by assumption. intro E. do 2 apply app_inv_head in E. now apply colons_inj.
Qed.

(** * Marks *)
Lemma any_types c e l : Forall (fun x => is_matcher x = false) l -> isinstance_any c e l = Some (is_expected_type c e l).
Proof.
  induction l as [|x l IH]; intro F; [reflexivity|]. inversion F; subst. destruct x; [|discriminate]. cbn.
  destruct (isinstance c e c0); [reflexivity|]. now apply IH.
Qed.
Lemma matched_types c e l : Forall (fun x => is_matcher x = false) l -> matched c e l = false.
Proof. induction l as [|x l IH]; intro F; [reflexivity|]. inversion F; subst. destruct x; [|discriminate]. cbn. now apply IH. Qed.
Lemma marks_pf c t r : t_skip t = false -> (forall e, r = Some e -> ordinary c e) ->
  Forall (fun x => is_matcher x = false) (t_expect_error t) -> (t_expect_error t <> [] \/ t_expect_fail t = false \/ forall e, r = Some e -> is_failure c e = true) ->
  agree (score c t r) (pytest_score c t r).
Proof.
  intros S O M X. unfold score, pytest_score, xfail_mark. rewrite S. destruct r as [e|].
  - destruct (O e eq_refl) as (O1 & O2 & O3). rewrite O1, O2, O3. destruct (t_expect_error t) as [|x l] eqn:E.
    + destruct (t_expect_fail t) eqn:Ef; cbn [orb]; [|exact Logic.I].
      destruct X as [X|[X|X]]; [now destruct X|discriminate|]. now rewrite (X e eq_refl).
    + rewrite matched_types by exact M. rewrite orb_true_r, any_types by exact M.
      destruct (is_expected_type c e (x :: l)); [exact Logic.I|]. destruct (is_failure c e); exact Logic.I.
  - destruct (t_expect_error t); [destruct (t_expect_fail t); exact Logic.I|]. rewrite orb_true_r. exact Logic.I.
Qed.

(** * The summary *)
Lemma summary_one p : counted (reports_of p) = match verdict_of p with Some v => [v] | None => [] end.
Proof. destruct p as [[] [] []|[] []]; reflexivity. Qed.
Lemma counted_app a b : counted (a ++ b) = counted a ++ counted b.
Proof. unfold counted. apply flat_map_app. Qed.
Lemma summary_pf tests : counted (flat_map reports_of tests) = flat_map (fun p => match verdict_of p with Some v => [v] | None => [] end) tests.
Proof. induction tests as [|p l IH]; [reflexivity|]. cbn [flat_map]. now rewrite counted_app, summary_one, IH. Qed.
Lemma tally_pf reports : let '(n, p, f, s) := tally reports in n = (p + f + s)%nat.
Proof.
  unfold tally. cbn. induction (counted reports) as [|x l IH]; [reflexivity|]. destruct x; cbn; rewrite IH; lia.
Qed.

(** C116: collecting coverage of Python code. *)
From Coq Require Import String Lia Permutation.
From Verif Require Import Base TextModel ToolsModel ToolsSpec ToolsProofs RegressionModel InitModel InitSpec InitProofs InitProps CoverageModel.

Lemma reads v b : get_bool v None = Ok b <-> reads_bool v false b.
Proof. change (get_bool v None) with (get_bool v (Some false)). apply get_bool_reads. Qed.
(** Coverage of the user's code is asked for by the new variable if it is set at all, else by the old one, which gives a warning. *)
Theorem C116_enabled user old w b : enabled user old = (w, Ok b) <->
  (user <> None /\ w = false /\ reads_bool user false b) \/ (user = None /\ old <> None /\ w = true /\ reads_bool old false b) \/
  (user = None /\ old = None /\ w = false /\ b = false).
Proof.
  unfold enabled. destruct user as [u|]; [|destruct old as [o|]].
  - split.
    + intros [= <- H]. left. split; [discriminate|]. split; [reflexivity|]. now apply reads.
    + intros [(_ & -> & H)|[(X & _)|(X & _)]]; [|discriminate X|discriminate X]. apply reads in H. now rewrite H.
  - split.
    + intros [= <- H]. right. left. split; [reflexivity|]. split; [discriminate|]. split; [reflexivity|]. now apply reads.
    + intros [(X & _)|[(_ & _ & -> & H)|(_ & X & _)]]; [now destruct X| |discriminate X]. apply reads in H. now rewrite H.
  - split.
    + intros [= <- <-]. right. right. now repeat split.
    + intros [(X & _)|[(_ & X & _)|(_ & _ & -> & ->)]]; [now destruct X|now destruct X|reflexivity].
Qed.
Example C116_enabled_example : enabled (Some (lit " Yes ")) (Some (lit "0")) = (false, Ok true) /\ enabled None (Some (lit "on")) = (true, Ok true).
Proof. split; vm_compute; reflexivity. Qed.
Print Assumptions C116_enabled.
(** A new variable which is set to nothing turns the old one off. *)
Theorem C116_blank s old : blank s -> enabled (Some s) old = (false, Ok false).
Proof. intros B. apply C116_enabled. left. split; [discriminate|]. split; [reflexivity|]. left. now split. Qed.
Example C116_blank_example : blank (lit " ") /\ enabled (Some (lit " ")) (Some (lit "1")) = (false, Ok false).
Proof. split; vm_compute; reflexivity. Qed.
Print Assumptions C116_blank.
(** If it is asked for it is collected, by the file which is named, or else without the three packages of cocotb. *)
Theorem C116_user user old rc installed dir r w on : enabled user old = (w, on) -> (user_setup user old rc installed dir = r <->
  match on with
  | Err e => r = Err e
  | Ok false => r = Ok None
  | Ok true =>
      (installed = false /\ r = Err RuntimeError) \/
      (installed = true /\ unset_or_blank rc /\ r = Ok (Some (Omitting [dir (lit "cocotb") ++ lit "/*"; dir (lit "cocotb_tools") ++ lit "/*"; dir (lit "pygpi") ++ lit "/*"]))) \/
      (installed = true /\ exists s path, rc = Some s /\ ~ blank s /\ trimmed s path /\ r = Ok (Some (ByFile path)))
  end).
Proof.
  intros E. unfold user_setup. rewrite E. cbn [snd]. destruct on as [[|]|e]; cbn [bind]; [|split; congruence|split; congruence].
  destruct installed.
  2: { split; [intros <-; now left|]. intros [(_ & ->)|[(X & _)|(X & _)]]; [reflexivity|discriminate X|discriminate X]. }
  assert (G : get_str rc None = match rc with Some s => strip s | None => [] end).
  { unfold get_str, or_str. destruct rc as [s|]; [destruct (strip s); reflexivity|reflexivity]. }
  rewrite G. destruct rc as [s|].
  2: { split; [intros <-; right; left; now repeat split|]. intros [(X & _)|[(_ & _ & ->)|(_ & s & p & X & _)]]; [discriminate X|reflexivity|discriminate X]. }
  pose proof (strip_trimmed s) as T. destruct (strip s) as [|c p] eqn:P.
  - assert (B : blank s).
    { destruct T as (l & r' & -> & L & R & _). unfold blank. rewrite forallb_app. cbn [app]. now rewrite L, R. }
    split; [intros <-; right; left; now repeat split|]. intros [(X & _)|[(_ & _ & ->)|(_ & s' & p & [= <-] & X & _)]]; [discriminate X|reflexivity|now destruct X].
  - assert (B : ~ blank s).
    { destruct T as (l & r' & -> & _ & _ & H & _). unfold blank. rewrite !forallb_app. cbn [forallb]. rewrite (H c eq_refl). cbn [andb]. rewrite andb_false_r. discriminate. }
    split.
    + intros <-. right. right. split; [reflexivity|]. exists s, (c :: p). now repeat split.
    + intros [(X & _)|[(_ & X & _)|(_ & s' & q & [= <-] & _ & T' & ->)]]; [discriminate X|now destruct B|]. apply trimmed_strip in T'. congruence.
Qed.
Example C116_user_example : enabled (Some (lit "1")) None = (false, Ok true) /\
  user_setup (Some (lit "1")) None (Some (lit " .coveragerc ")) true (fun p => p) = Ok (Some (ByFile (lit ".coveragerc"))).
Proof. split; vm_compute; reflexivity. Qed.
Print Assumptions C116_user.
(** Coverage of the library is collected exactly if it is asked for and the package is there; without it, asking is an error. *)
Theorem C116_library v installed :
  (library_on v installed = Ok true <-> reads_bool v false true /\ installed = true) /\
  (library_on v installed = Ok false <-> reads_bool v false false) /\
  (library_on v installed = Err RuntimeError <-> reads_bool v false true /\ installed = false).
Proof.
  rewrite <- !reads. unfold library_on. destruct (get_bool v None) as [[|]|e] eqn:E; cbn [bind].
  - destruct installed; (split; [|split]); split; intros X; try discriminate X; try (destruct X as [_ X]; discriminate X); try reflexivity; now split.
  - (split; [|split]); split; intros X; try discriminate X; try (destruct X as [X _]; discriminate X); reflexivity.
  - assert (N : e <> RuntimeError).
    { unfold get_bool, as_bool in E. destruct (get_str v None) as [|c s]; [discriminate E|].
      destruct (one_of (py_lower (c :: s)) TRUE); [discriminate E|]. destruct (one_of (py_lower (c :: s)) FALSE); [discriminate E|]. injection E as <-. discriminate. }
    (split; [|split]); split; intros X; try discriminate X; try (destruct X as [X _]; discriminate X); injection X as X; now destruct N.
Qed.
Print Assumptions C116_library.
(** When the end of cocotb goes through, what was started is stopped and saved, in this order and once. *)
Theorem C116_saved id q called left : (forall c, In c (q ++ flat_map cb_registers called) -> cb_id c <> id) -> shutdown (registered id q) called left false ->
  history id called = [CLoad; CStart; CStop; CSave].
Proof.
  intros N H. unfold history, begins. cbn [app]. do 2 f_equal.
  pose proof (C72_shutdown_left _ _ _ _ H) as P. destruct (C72_shutdown _ _ _ _ H) as (later & _ & L & _). destruct (L eq_refl) as (_ & -> & _).
  rewrite app_nil_r in P. unfold registered, register in P.
  assert (F : forall l, (forall c, In c l -> cb_id c <> id) -> flat_map (fun c => if Z.eqb (cb_id c) id then ends else []) l = []).
  { intros l. induction l as [|c l IH]; intros A; [reflexivity|]. cbn [flat_map]. destruct (Z.eqb_spec (cb_id c) id) as [X|_]; [destruct (A c (or_introl eq_refl) X)|].
    apply IH. intros d D. apply A. now right. }
  assert (I : In (Callback id [] false) called).
  { apply (Permutation_in _ P). rewrite !in_app_iff. left. right. now left. }
  apply in_split in I. destruct I as (l1 & l2 & E). rewrite E in P |- *.
  assert (Q : Permutation (q ++ flat_map cb_registers (l1 ++ Callback id [] false :: l2)) (l1 ++ l2)).
  { apply (Permutation_cons_inv (a := Callback id [] false)). rewrite <- app_assoc in P.
    eapply Permutation_trans; [apply Permutation_middle|]. eapply Permutation_trans; [exact P|]. apply Permutation_sym, Permutation_middle. }
  rewrite <- E in Q.
  assert (A : forall c, In c (l1 ++ l2) -> cb_id c <> id) by (intros c C; apply N; apply (Permutation_in _ (Permutation_sym Q)); exact C).
  rewrite flat_map_app. cbn [flat_map cb_id]. rewrite Z.eqb_refl.
  rewrite (F l1) by (intros c C; apply A, in_or_app; now left). rewrite (F l2) by (intros c C; apply A, in_or_app; now right). reflexivity.
Qed.
Example C116_saved_example : shutdown (registered 5 [Callback 1 [Callback 2 [] false] false]) [Callback 1 [Callback 2 [] false] false; Callback 5 [] false; Callback 2 [] false] [] false.
Proof. repeat (eapply sd_next; [reflexivity|]). constructor. Qed.
Print Assumptions C116_saved.
(** When an earlier callback raises the data are lost. *)
Theorem C116_saved_refuted : exists id q called left, shutdown (registered id q) called left true /\ history id called = [CLoad; CStart].
Proof.
  exists 5%Z, [Callback 1 [] true], [Callback 1 [] true], [Callback 5 [] false]. split; [now constructor|reflexivity].
Qed.
Print Assumptions C116_saved_refuted.

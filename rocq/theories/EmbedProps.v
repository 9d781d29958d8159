(** C109: the interpreter asked for is started, once. *)
From Coq Require Import String Lia.
From Verif Require Import Base TextModel EmbedModel.
Open Scope Z_scope.

Definition text (s : pystr) : Prop := ~ In 0 s.
Lemma cstring_text s l : text s -> cstring (s ++ 0 :: l) = s.
Proof.
  induction s as [|c s IH]; intros T; [reflexivity|]. cbn [app cstring]. destruct (Z.eqb_spec c 0) as [->|N]; [destruct T; now left|]. f_equal. apply IH. intros I. apply T. now right.
Qed.
(** * The path *)
(** Copying fills the array exactly, whatever the length of the path. *)
Theorem C109_copy n s : List.length (wcsncpy n s) = n.
Proof. unfold wcsncpy. rewrite app_length, firstn_length, repeat_length. lia. Qed.
Print Assumptions C109_copy.
Example C109_copy_ex : wcsncpy 3 (lit "a") = [97; 0; 0] /\ wcsncpy 2 (lit "abc") = [97; 98].
Proof. split; reflexivity. Qed.
(** The path is taken as it was decoded, whole, exactly if it and its end fit the array; it is refused otherwise, never cut. *)
Theorem C109_path cap env decode p : (0 < cap)%nat -> (forall c w, decode c = Some w -> text w) ->
  interpreter_path cap env decode = Path p <-> exists c, env = Some c /\ decode c = Some p /\ (List.length p < cap)%nat.
Proof.
  intros C T. unfold interpreter_path. destruct env as [c|]; [|split; [discriminate|intros (c & E & _); discriminate E]]. destruct (decode c) as [w|] eqn:D.
  2: { split; [discriminate|]. intros (c' & [= <-] & E & _). congruence. }
  specialize (T c w D). cbv zeta. destruct (Nat.ltb_spec (List.length w) cap) as [L|L].
  - assert (E : wcsncpy cap w = w ++ 0 :: repeat 0 (cap - List.length w - 1)).
    { unfold wcsncpy. rewrite firstn_all2 by lia. f_equal. set (k := (cap - List.length w)%nat). assert (K : (0 < k)%nat) by lia. destruct k as [|k]; [lia|]. cbn [repeat]. do 2 f_equal. lia. }
    assert (N : nth (cap - 1) (wcsncpy cap w) 0 = 0).
    { rewrite E, app_nth2 by lia. change (0 :: repeat 0 (cap - List.length w - 1)) with (repeat 0 (Datatypes.S (cap - List.length w - 1))). apply nth_repeat. }
    rewrite N. cbn [Z.eqb negb]. rewrite E, (cstring_text w _ T). split.
    + intros [= <-]. now exists c.
    + intros (c' & [= <-] & E' & _). congruence.
  - assert (N : nth (cap - 1) (wcsncpy cap w) 0 <> 0).
    { unfold wcsncpy. replace (cap - List.length w)%nat with 0%nat by lia. cbn [repeat]. rewrite app_nil_r. intros N. apply T.
      assert (I : In (nth (cap - 1) (firstn cap w) 0) (firstn cap w)) by (apply nth_In; rewrite firstn_length; lia). rewrite N in I.
      rewrite <- (firstn_skipn cap w). apply in_or_app. now left. }
    rewrite (proj2 (Z.eqb_neq _ _) N). cbn [negb]. split; [discriminate|]. intros (c' & [= <-] & E' & L'). assert (w = p) by congruence. subst. lia.
Qed.
Print Assumptions C109_path.
Example C109_path_ex : interpreter_path 16 (Some (lit "/usr/bin/python")) Some = Path (lit "/usr/bin/python") /\ interpreter_path 15 (Some (lit "/usr/bin/python")) Some = TooLong.
Proof. split; reflexivity. Qed.

(** * initialize *)
Definition good (cap : nat) (w : world) : Prop := (exists c p, w_env w = Some c /\ w_decode w c = Some p /\ (List.length p < cap)%nat) /\ w_argv w = true /\ w_init w = true.
(** The functions of the library are registered exactly if it is the first call, the path is taken and Python starts; a mismatch of sys.executable or a wrong COCOTB_ATTACH is only
    reported. *)
Theorem C109_registered cap width called w : (0 < cap)%nat -> (forall c p, w_decode w c = Some p -> text p) ->
  In Registered (snd (initialize cap width called w)) <-> called = false /\ good cap w.
Proof.
  intros C T. unfold initialize, good. destruct called; [split; [intros [E|[]]; discriminate E|intros [E _]; discriminate E]|].
  pose proof (fun p => C109_path cap (w_env w) (w_decode w) p C T) as P. destruct (interpreter_path cap (w_env w) (w_decode w)) as [| | |p].
  1-3: split; [intros [E|[]]; discriminate E|]; intros (_ & (c & p & A & B & L) & _); specialize (proj2 (P p)) as X; discriminate X; now exists c.
  destruct (proj1 (P p) eq_refl) as (c & A & B & L).
  destruct (w_argv w); cbn [negb]; [|split; [intros [E|[]]; discriminate E|intros (_ & _ & E & _); discriminate E]].
  destruct (w_init w); cbn [negb snd]; [|split; [intros [E|[]]; discriminate E|intros (_ & _ & _ & E); discriminate E]].
  split; [intros _|intros _; apply in_or_app; right; now left]. split; [reflexivity|]. split; [now exists c, p|]. now split.
Qed.
Print Assumptions C109_registered.
Definition usual : world := World (Some (lit "/usr/bin/python")) Some true true (Some (Some (lit "/usr/bin/python"))) E0 None.
Example C109_registered_ex : good 4096 usual /\ initialize 4096 4 false usual = (true, [Registered; Attach NoAttach]).
Proof.
  split; [|vm_compute; reflexivity]. split; [|split; reflexivity]. exists (lit "/usr/bin/python"), (lit "/usr/bin/python"). split; [reflexivity|]. split; [reflexivity|]. apply Nat.ltb_lt. vm_compute. reflexivity.
Qed.
(** However often it is called, and whatever each call meets, only the first call can register: each function of the library is called once per event. *)
Theorem C109_once cap width l : match calls cap width false l with [] => l = [] | e :: rest => Forall (fun e => e = [Again]) rest end /\
  (forall e, In e (calls cap width false l) -> (List.length (filter (fun x => match x with Registered => true | _ => false end) e) <= 1)%nat).
Proof.
  assert (A : forall l, Forall (fun e => e = [Again]) (calls cap width true l)) by (induction l0 as [|w l0 IH]; cbn; constructor; auto).
  assert (K : forall w, fst (initialize cap width false w) = true).
  { intros w. unfold initialize. destruct (interpreter_path _ _ _); try reflexivity. destruct (negb (w_argv w)); [reflexivity|]. now destruct (negb (w_init w)). }
  split.
  - destruct l as [|w l]; [reflexivity|]. cbn [calls]. specialize (K w). destruct (initialize cap width false w) as [b e]. cbn in K. subst b. apply A.
  - destruct l as [|w l]; [intros e []|]. cbn [calls]. specialize (K w). destruct (initialize cap width false w) as [b e0] eqn:E. cbn in K. subst b. intros e [<-|I].
    + unfold initialize in E. destruct (interpreter_path _ _ _) as [| | |p]; try (injection E as <-; cbn; lia).
      destruct (negb (w_argv w)); [injection E as <-; cbn; lia|]. destruct (negb (w_init w)); [injection E as <-; cbn; lia|]. injection E as <-.
      unfold check_executable. destruct (w_exec w) as [[s|]|]; [|cbn; lia|cbn; lia]. destruct (_ <? _)%nat; [cbn; lia|]. destruct (pystr_eqb p s); cbn; lia.
    + pose proof (proj1 (Forall_forall _ _) (A l) e I) as ->. cbn. lia.
Qed.
Print Assumptions C109_once.
Example C109_once_ex : calls 4096 4 false [usual; usual] = [[Registered; Attach NoAttach]; [Again]].
Proof. vm_compute. reflexivity. Qed.
(** If Python runs from the path asked for, nothing is complained of and nothing written beyond the array; another path is reported. *)
Theorem C109_executable cap width w c p : (0 < cap)%nat -> (forall c p, w_decode w c = Some p -> text p) -> good cap w -> w_env w = Some c -> w_decode w c = Some p ->
  forall s, w_exec w = Some (Some s) -> (List.length s < cap)%nat ->
  snd (initialize cap width false w) = (if pystr_eqb p s then [] else [Differs s]) ++ [Registered; Attach (attached (w_errno w) (w_attach w))].
Proof.
  intros C T ((c' & p' & E' & D' & L') & A & I) E D s X L. assert (p' = p) by congruence. subst p'.
  assert (P : interpreter_path cap (w_env w) (w_decode w) = Path p) by (apply (C109_path cap _ _ p C T); now exists c).
  unfold initialize. rewrite P, A, I, X. cbn [negb snd check_executable]. destruct (Nat.ltb_spec cap (Nat.min (width * cap) (List.length s + 1))); [lia|]. reflexivity.
Qed.
Print Assumptions C109_executable.
Example C109_executable_ex : snd (initialize 4096 4 false (World (Some (lit "/usr/bin/python")) Some true true (Some (Some (lit "/bin/py"))) E0 None)) = [Differs (lit "/bin/py"); Registered; Attach NoAttach].
Proof. vm_compute. reflexivity. Qed.
(** A longer sys.executable is written beyond the array, as its size is given in bytes. *)
Theorem C109_executable_refuted : exists w, good 4096 w /\ In Written (snd (initialize 4096 4 false w)).
Proof.
  exists (World (Some (lit "/usr/bin/python")) Some true true (Some (Some (repeat 97 5000))) E0 None). split; [|vm_compute; now left].
  split; [|split; reflexivity]. exists (lit "/usr/bin/python"), (lit "/usr/bin/python"). split; [reflexivity|]. split; [reflexivity|]. apply Nat.ltb_lt. vm_compute. reflexivity.
Qed.
Print Assumptions C109_executable_refuted.

(** * COCOTB_ATTACH *)
Definition decimal (s : pystr) : Prop := s <> [] /\ Forall (fun c => 48 <= c <= 57) s.
Definition value (s : pystr) : Z := fold_left (fun acc c => 10 * acc + (c - 48)) s 0.
Lemma digits_spec s r : Forall (fun c => 48 <= c <= 57) s -> (forall c r', r = c :: r' -> ~ 48 <= c <= 57) -> forall acc, digits acc (s ++ r) = fold_left (fun acc c => 10 * acc + (c - 48)) s acc.
Proof.
  intros F N. induction F as [|c s C _ IH]; intros acc; cbn [app digits fold_left].
  - destruct r as [|c r]; [reflexivity|]. cbn [digits]. specialize (N c r eq_refl). destruct (Z.leb_spec 48 c), (Z.leb_spec c 57); cbn [andb]; try reflexivity. lia.
  - destruct (Z.leb_spec 48 c), (Z.leb_spec c 57); cbn [andb]; try lia. apply IH.
Qed.
Lemma value_nonneg s : Forall (fun c => 48 <= c <= 57) s -> forall acc, 0 <= acc -> 0 <= fold_left (fun acc c => 10 * acc + (c - 48)) s acc.
Proof. induction 1 as [|c s C _ IH]; intros acc A; cbn [fold_left]; [exact A|]. apply IH. lia. Qed.
Lemma skip_digits s : decimal s -> forall r, skip_space (s ++ r) = s ++ r.
Proof.
  intros [N F] r. destruct s as [|c s]; [now destruct N|]. inversion F; subst. cbn [app skip_space]. unfold c_space.
  destruct (Z.eqb_spec c 32); [lia|]. destruct (Z.leb_spec c 13); [lia|]. rewrite Bool.andb_false_r. reflexivity.
Qed.
Lemma strtoul_digits e s r : decimal s -> (forall c r', r = c :: r' -> ~ 48 <= c <= 57) ->
  strtoul e (s ++ r) = if 2 ^ 64 <=? value s then (2 ^ 64 - 1, ERange) else (value s, e).
Proof.
  intros D N. unfold strtoul. rewrite (skip_digits s D r). destruct D as [K F].
  destruct s as [|c s]; [now destruct K|]. pose proof (digits_spec (c :: s) r F N 0) as X. inversion F; subst. cbn [app] in *.
  destruct (Z.eqb_spec c 45); [lia|]. destruct (Z.eqb_spec c 43); [lia|]. cbv zeta. rewrite X. reflexivity.
Qed.
(** With digits only, the library waits that many seconds, if there is at least one and less than 2^32 - 1; 0 and larger numbers are refused; unless an error is left over from an
    earlier call. *)
Theorem C109_attach s : decimal s -> attached E0 (Some s) = if value s =? 0 then AttachNoNumber else if value s <? 2 ^ 32 - 1 then Sleep (value s) else AttachTooLong.
Proof.
  intros D. unfold attached. pose proof (strtoul_digits E0 s [] D ltac:(discriminate)) as X. rewrite app_nil_r in X. rewrite X.
  pose proof (value_nonneg s (proj2 D) 0 ltac:(lia)) as P. fold (value s) in P. destruct (Z.leb_spec (2 ^ 64) (value s)).
  - cbn [orb]. destruct (Z.eqb_spec (value s) 0); [lia|]. destruct (Z.ltb_spec (value s) (2 ^ 32 - 1)); [lia|reflexivity].
  - cbn [orb andb]. destruct (Z.leb_spec (2 ^ 32 - 1) (value s)).
    + destruct (Z.eqb_spec (value s) 0); [lia|]. destruct (Z.ltb_spec (value s) (2 ^ 32 - 1)); [lia|reflexivity].
    + destruct (Z.eqb_spec (value s) 0) as [->|N]; [reflexivity|]. destruct (Z.leb_spec (value s) 0); [lia|]. destruct (Z.ltb_spec (value s) (2 ^ 32 - 1)); [reflexivity|lia].
Qed.
Print Assumptions C109_attach.
Example C109_attach_ex : decimal (lit "30") /\ attached E0 (Some (lit "30")) = Sleep 30 /\ attached E0 (Some (lit "4294967295")) = AttachTooLong /\ attached E0 (Some (lit "0")) = AttachNoNumber.
Proof. split; [split; [discriminate|change (lit "30") with [51; 48]; repeat (apply Forall_cons; [lia|]); apply Forall_nil]|]. repeat split. Qed.
(** It waits for a number of seconds which the unsigned int given to sleep can hold, whatever the variable and errno are; and only if the variable is set. *)
Theorem C109_sleep e env n : attached e env = Sleep n -> 0 < n < 2 ^ 32 - 1 /\ e <> ERange /\ exists s, env = Some s.
Proof.
  unfold attached. destruct env as [s|]; [|discriminate]. destruct (strtoul e s) as [m e'] eqn:E.
  assert (K : e = ERange -> e' = ERange).
  { intros ->. unfold strtoul in E. destruct (match skip_space s with [] => _ | _ => _ end) as [b r]. destruct (2 ^ 64 <=? digits 0 r); now injection E as _ <-. }
  destruct e'; cbn [orb andb]; try discriminate; (destruct (Z.leb_spec (2 ^ 32 - 1) m); [discriminate|]).
  - destruct (Z.leb_spec m 0); [discriminate|]. intros [= <-]. split; [lia|]. split; [intros X; now specialize (K X)|now exists s].
  - destruct (Z.leb_spec m 0); [rewrite Bool.orb_true_r; discriminate|]. destruct (m =? 0); [discriminate|]. intros [= <-]. split; [lia|]. split; [intros X; now specialize (K X)|now exists s].
Qed.
Print Assumptions C109_sleep.
Example C109_sleep_ex : attached EOther (Some (lit " +5")) = Sleep 5.
Proof. reflexivity. Qed.
(** An error which an earlier call left in errno makes the library refuse a good number; what is no number is taken: text after the digits, and a minus with a large number. *)
Theorem C109_errno_refuted : attached ERange (Some (lit "30")) = AttachTooLong.
Proof. reflexivity. Qed.
Print Assumptions C109_errno_refuted.
Theorem C109_number_refuted : attached E0 (Some (lit "30 minutes")) = Sleep 30 /\ attached E0 (Some (lit "-18446744073709551586")) = Sleep 30.
Proof. split; vm_compute; reflexivity. Qed.
Print Assumptions C109_number_refuted.

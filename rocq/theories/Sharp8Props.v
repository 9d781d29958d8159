(** Sharper theorems on values refused by the simulator interface, edges of objects which have none, subscripts of lists and wakeups asked of the FLI, found
    necessary by mutation. *)
From Coq Require Import String Lia QArith.
From Verif Require Import Base.
From Verif Require SpanModel TextModel ToolsSpec HandleModel ArrayModel PhaseModel FliCbModel FliCbProps.
Open Scope Z_scope.

(** * C41: values accepted by the write functions *)
(** A write function accepts an int exactly if it fits 64 bits with a sign, a text or bytes exactly if they are free of NUL and not mutable, and any float;
    what is accepted is the last entry of the log, with the object and the action, and what is refused changes nothing. *)
Theorem C41_fits q st st' e : HandleModel.write_func q st = (st', e) ->
  (e = None <-> match HandleModel.q_val q with
                | HandleModel.SInt z => - 2 ^ 63 <= z < 2 ^ 63
                | HandleModel.SStr s => ~ In 0 s
                | HandleModel.SReal _ => True
                | HandleModel.SRealInt z => - (2 ^ 1024 - 2 ^ 970) < z < 2 ^ 1024 - 2 ^ 970
                | HandleModel.SBytes m b => m = false /\ ~ In 0 b
                end) /\
  (e <> None -> st' = st) /\
  (e = None -> HandleModel.w_log st' = HandleModel.w_log st ++ [(HandleModel.q_hid q, HandleModel.act_value (HandleModel.q_act q), HandleModel.q_val q)]).
Proof.
  assert (N : forall l : list Z, existsb (Z.eqb 0) l = false <-> ~ In 0 l).
  { intros l. split.
    - intros F I. assert (existsb (Z.eqb 0) l = true) as T by (apply existsb_exists; exists 0; split; [exact I|reflexivity]). rewrite T in F. discriminate.
    - intros I. destruct (existsb (Z.eqb 0) l) eqn:T; [|reflexivity]. apply existsb_exists in T as (x & J & Q). apply Z.eqb_eq in Q. subst x. now destruct I. }
  unfold HandleModel.write_func. intros E.
  assert (B : (HandleModel.bind_check (HandleModel.q_val q) = None <-> e = None) /\ (e <> None -> st' = st) /\
    (e = None -> HandleModel.w_log st' = HandleModel.w_log st ++ [(HandleModel.q_hid q, HandleModel.act_value (HandleModel.q_act q), HandleModel.q_val q)])).
  { destruct (HandleModel.bind_check (HandleModel.q_val q)) as [x|]; injection E as <- <-; (split; [split; intros X; try discriminate X; reflexivity|]); split; intros X; try discriminate X; try reflexivity.
    now destruct X. }
  destruct B as (B1 & B2 & B3). split; [|split; assumption]. rewrite <- B1. clear -N.
  destruct (HandleModel.q_val q) as [z|s|t|z|m b]; cbn [HandleModel.bind_check].
  - destruct (Z.leb_spec (- 2 ^ 63) z); destruct (Z.ltb_spec z (2 ^ 63)); cbn [andb]; split; intros X; try discriminate X; try reflexivity; lia.
  - rewrite <- N. destruct (existsb (Z.eqb 0) s); split; intros X; try discriminate X; reflexivity.
  - split; reflexivity || trivial.
  - destruct (Z.ltb_spec (Z.abs z) (2 ^ 1024 - 2 ^ 970)); split; intros X; try discriminate X; try reflexivity; lia.
  - rewrite <- N. destruct m; [split; [discriminate|intros [X _]; discriminate X]|]. destruct (existsb (Z.eqb 0) b); split; intros X; try discriminate X; try reflexivity; [now destruct X|now split].
Qed.
Print Assumptions C41_fits.
Example C41_fits_ex : snd (HandleModel.write_func (HandleModel.WReq 1%nat HandleModel.N_DEPOSIT (HandleModel.SInt (2 ^ 63))) HandleModel.wst0) = Some OverflowError /\
  snd (HandleModel.write_func (HandleModel.WReq 1%nat HandleModel.N_DEPOSIT (HandleModel.SInt (- 2 ^ 63))) HandleModel.wst0) = None.
Proof. split; reflexivity. Qed.

(** * C04: subscripts of lists *)
(** A subscript from [-len] up to [len - 1] gives the element at that place, counted from the end if negative; any other raises IndexError. *)
Theorem C04_subscript {A} (l : list A) i :
  ArrayModel.list_get l i = match (if (0 <=? i) && (i <? Z.of_nat (List.length l)) then nth_error l (Z.to_nat i)
                                   else if (i <? 0) && (- Z.of_nat (List.length l) <=? i) then nth_error (rev l) (Z.to_nat (- i - 1))
                                   else None) with Some x => Ok x | None => Err IndexError end.
Proof.
  unfold ArrayModel.list_get, ArrayModel.py_len. destruct (Z.ltb_spec i 0) as [N|N].
  - destruct (Z.leb_spec 0 i); [lia|]. cbn [andb]. destruct (Z.leb_spec (- Z.of_nat (List.length l)) i) as [G|G].
    + destruct (Z.ltb_spec (i + Z.of_nat (List.length l)) 0); [lia|].
      assert (E : forall k, (k < List.length l)%nat -> nth_error (rev l) k = nth_error l (List.length l - S k)).
      { intros k K. destruct (nth_error l (List.length l - S k)) as [d|] eqn:D.
        - assert (E := rev_nth l d K). rewrite (nth_error_nth l _ d D) in E. rewrite (nth_error_nth' (rev l) d) by (rewrite rev_length; exact K). now rewrite E.
        - apply nth_error_None in D. lia. }
      rewrite E by lia. replace (List.length l - S (Z.to_nat (- i - 1)))%nat with (Z.to_nat (i + Z.of_nat (List.length l))) by lia. reflexivity.
    + destruct (Z.ltb_spec (i + Z.of_nat (List.length l)) 0); [reflexivity|lia].
  - destruct (Z.leb_spec 0 i); [|lia]. cbn [andb]. destruct (Z.ltb_spec i 0); [lia|]. cbn [andb]. destruct (Z.ltb_spec i (Z.of_nat (List.length l))) as [G|G]; [reflexivity|].
    rewrite (proj2 (nth_error_None l (Z.to_nat i))) by lia. reflexivity.
Qed.
Print Assumptions C04_subscript.
Example C04_subscript_ex : ArrayModel.list_get [5; 6; 7] (-1) = Ok 7 /\ ArrayModel.list_get [5; 6; 7] 3 = Err IndexError /\ ArrayModel.list_get [5; 6; 7] (-4) = Err IndexError.
Proof. repeat split. Qed.

(** * C82: edges of objects which have none *)
(** Asking an object without the property for it raises AttributeError, making the trigger of it TypeError; nothing is made. *)
Theorem C82_missing kind s q : PhaseModel.has_property (PhaseModel.q_class q) (kind (PhaseModel.q_sig q)) = false ->
  PhaseModel.estep kind s q = (s, Err (if PhaseModel.q_property q then AttributeError else TypeError)).
Proof. intros H. unfold PhaseModel.estep, PhaseModel.new_edge. rewrite H. now destruct (PhaseModel.q_property q). Qed.
Print Assumptions C82_missing.
Example C82_missing_ex : PhaseModel.has_property PhaseModel.CRising PhaseModel.HOtherValue = false.
Proof. reflexivity. Qed.

(** * C106: what is asked of the simulator *)
(** A timer is woken after its time, a change by its signal, and the other callbacks at once, in the phase given by the priority of their process. *)
Theorem C106_scheduled ls s n r f : FliCbProps.execP FliCbProps.proper FliCbModel.init ls s -> FliCbProps.holder (FliCbModel.s_log s) n = Some (r, f) ->
  FliCbModel.s_armed s n = Some match r with FliCbModel.RTimer t => FliCbModel.Wake t | FliCbModel.RChange g _ => FliCbModel.Sense g
                                | FliCbModel.RReadWrite | FliCbModel.RReadOnly | FliCbModel.RNextTime => FliCbModel.Wake 0 end.
Proof. intros X H. destruct (FliCbProps.C106_waiting ls s n r f X H) as (_ & A & _). rewrite A. now destruct r. Qed.
Print Assumptions C106_scheduled.
Example C106_scheduled_ex : FliCbProps.execP FliCbProps.proper FliCbModel.init FliCbProps.ex_ls FliCbProps.ex_s /\
  FliCbProps.holder (FliCbModel.s_log FliCbProps.ex_s) 3 = Some (FliCbModel.RChange 3 FliCbModel.Rising, 13%nat).
Proof. exact FliCbProps.C106_waiting_ex. Qed.

(** * C71: the numbers which [int] reads *)
(** [int] takes a text, up to blanks around it, exactly if it is one or more groups of digits joined by single underscores, after at most one sign; the number is that of
    all digits in order, negative after a minus. *)
Definition reads (g : pystr) (gs : list pystr) (s : pystr) (acc n : Z) : Prop :=
  Forall (fun c => 48 <= c <= 57) g /\ Forall ToolsSpec.decimal gs /\ s = g ++ flat_map (cons 95) gs /\ n = fold_left (fun acc c => 10 * acc + (c - 48)) (g ++ concat gs) acc.
Lemma int10_groups s : (forall acc n, TextModel.int10_digits acc false s = Ok n <-> exists g gs, g <> [] /\ reads g gs s acc n) /\
  (forall acc n, TextModel.int10_digits acc true s = Ok n <-> exists g gs, reads g gs s acc n).
Proof.
  induction s as [|c s [IH1 IH2]].
  - split; intros acc n; cbn [TextModel.int10_digits]; split.
    + discriminate.
    + intros (g & gs & N & _ & _ & E & _). symmetry in E. apply app_eq_nil in E as [E _]. now destruct N.
    + intros [= <-]. exists [], []. repeat split; constructor.
    + intros (g & gs & _ & F & E & ->). symmetry in E. apply app_eq_nil in E as [-> E]. destruct gs as [|x gs]; [reflexivity|discriminate E].
  - assert (D : TextModel.is_digit c = true <-> 48 <= c <= 57).
    { unfold TextModel.is_digit. destruct (Z.leb_spec 48 c), (Z.leb_spec c 57); cbn; split; intros X; try discriminate X; try reflexivity; lia. }
    assert (G : forall p acc n, TextModel.is_digit c = true -> TextModel.int10_digits acc p (c :: s) = Ok n <-> exists g gs, g <> [] /\ reads g gs (c :: s) acc n).
    { intros p acc n Q. cbn [TextModel.int10_digits]. rewrite Q. rewrite (IH2 _ n). apply D in Q. split.
      - intros (g & gs & A & B & -> & ->). exists (c :: g), gs. split; [discriminate|]. split; [now constructor|]. split; [exact B|]. split; reflexivity.
      - intros (g & gs & N & A & B & E & ->). destruct g as [|x g]; [now destruct N|]. injection E as <- ->. inversion A; subst. exists g, gs. repeat split; assumption. }
    assert (K : forall g gs acc n, TextModel.is_digit c = false -> reads g gs (c :: s) acc n -> g = []).
    { intros g gs acc n Q (A & _ & E & _). destruct g as [|x g]; [reflexivity|]. injection E as <- _. inversion A; subst. apply D in H1. congruence. }
    destruct (TextModel.is_digit c) eqn:Q.
    + split; intros acc n; [now apply G|]. rewrite G by reflexivity. split; [intros (g & gs & _ & R); exists g, gs; exact R|].
      intros (g & gs & R). exists g, gs. split; [|exact R]. intros ->. destruct R as (_ & B & E & _). destruct gs as [|x gs]; [discriminate E|]. injection E as E _. subst c. discriminate Q.
    + split; intros acc n; cbn [TextModel.int10_digits]; rewrite Q.
      * rewrite Bool.andb_false_r. split; [discriminate|]. intros (g & gs & N & R). now destruct (N (K _ _ _ _ eq_refl R)).
      * rewrite Bool.andb_true_r. destruct (Z.eqb_spec c 95) as [->|C].
        -- rewrite (IH1 acc n). split.
           ++ intros (g & gs & N & A & B & -> & ->). exists [], (g :: gs). split; [constructor|]. split; [constructor; [now split|exact B]|]. split; reflexivity.
           ++ intros (g & gs & R). pose proof (K _ _ _ _ eq_refl R) as ->. destruct R as (_ & B & E & ->). destruct gs as [|x gs]; [discriminate E|]. injection E as ->. inversion B as [|? ? [N A] B']; subst.
              exists x, gs. split; [exact N|]. split; [exact A|]. split; [exact B'|]. split; reflexivity.
        -- split; [discriminate|]. intros (g & gs & R). pose proof (K _ _ _ _ eq_refl R) as ->. destruct R as (_ & B & E & _). destruct gs as [|x gs]; [discriminate E|]. injection E as E _. now destruct C.
Qed.
Theorem C71_number s n : TextModel.py_int10 s = Ok n <->
  exists sign g gs, TextModel.strip s = sign ++ g ++ flat_map (cons 95) gs /\ Forall ToolsSpec.decimal (g :: gs) /\
    (sign = [] /\ n = ToolsSpec.value10 (g ++ concat gs) \/ sign = lit "+" /\ n = ToolsSpec.value10 (g ++ concat gs) \/ sign = lit "-" /\ n = - ToolsSpec.value10 (g ++ concat gs)).
Proof.
  unfold TextModel.py_int10. destruct (TextModel.strip s) as [|c t].
  { split; [discriminate|]. intros (sign & g & gs & E & F & _). symmetry in E. apply app_eq_nil in E as [_ E]. apply app_eq_nil in E as [-> _]. inversion F as [|? ? [N _]]; subst. now destruct N. }
  assert (X : forall t m, TextModel.int10_digits 0 false t = Ok m <-> exists g gs, t = g ++ flat_map (cons 95) gs /\ Forall ToolsSpec.decimal (g :: gs) /\ m = ToolsSpec.value10 (g ++ concat gs)).
  { intros u m. rewrite (proj1 (int10_groups u)). split.
    - intros (g & gs & N & A & B & E & V). exists g, gs. split; [exact E|]. split; [constructor; [now split|exact B]|exact V].
    - intros (g & gs & E & F & V). inversion F as [|? ? [N A] B]; subst. exists g, gs. split; [exact N|]. repeat split; assumption. }
  assert (H : forall g gs, Forall ToolsSpec.decimal (g :: gs) -> exists d r, g ++ flat_map (cons 95) gs = d :: r /\ 48 <= d <= 57).
  { intros g gs F. inversion F as [|? ? [N A] _]; subst. destruct g as [|d g]; [now destruct N|]. inversion A; subst. exists d. eexists. split; [reflexivity|assumption]. }
  destruct (Z.eqb_spec c 45) as [->|M]; [|destruct (Z.eqb_spec c 43) as [->|P]].
  - split.
    + destruct (TextModel.int10_digits 0 false t) as [m|] eqn:E; [|discriminate]. intros [= <-]. apply X in E as (g & gs & -> & F & ->). exists (lit "-"), g, gs. split; [reflexivity|]. split; [exact F|]. auto.
    + intros (sign & g & gs & E & F & [[-> V]|[[-> V]|[-> V]]]).
      * destruct (H g gs F) as (d & r & Y & B). cbn [app] in E. rewrite Y in E. injection E as <- _. lia.
      * discriminate E.
      * injection E as ->. assert (Z : TextModel.int10_digits 0 false (g ++ flat_map (cons 95) gs) = Ok (ToolsSpec.value10 (g ++ concat gs))) by (apply X; now exists g, gs).
        rewrite Z. cbn [bind]. now rewrite V.
  - rewrite X. split.
    + intros (g & gs & -> & F & ->). exists (lit "+"), g, gs. split; [reflexivity|]. split; [exact F|]. auto.
    + intros (sign & g & gs & E & F & [[-> V]|[[-> V]|[-> V]]]).
      * destruct (H g gs F) as (d & r & Y & B). cbn [app] in E. rewrite Y in E. injection E as <- _. lia.
      * injection E as ->. now exists g, gs.
      * discriminate E.
  - rewrite X. split.
    + intros (g & gs & -> & F & ->). exists [], g, gs. split; [reflexivity|]. split; [exact F|]. auto.
    + intros (sign & g & gs & E & F & [[-> V]|[[-> V]|[-> V]]]).
      * now exists g, gs.
      * injection E as E _. now destruct P.
      * injection E as E _. now destruct M.
Qed.
Print Assumptions C71_number.
Example C71_number_ex : TextModel.py_int10 (lit " +1_000 ") = Ok 1000 /\ TextModel.py_int10 (lit "-12") = Ok (-12) /\ TextModel.py_int10 (lit "1__0") = Err ValueError.
Proof. repeat split. Qed.

(** * C90: ratios without simulated time *)
(** If no time was simulated, the ratio under pytest is 0, that of cocotb's own manager not a number or infinite. *)
Theorem C90_ratio_zero wall sim : (sim == 0)%Q -> SpanModel.pytest_ratio wall sim = SpanModel.Num 0 /\
  SpanModel.safe_divide sim 0 = SpanModel.NaN /\ ((~ wall == 0)%Q -> SpanModel.safe_divide wall sim = SpanModel.Inf).
Proof.
  intros Z. unfold SpanModel.pytest_ratio, SpanModel.safe_divide. rewrite (Qeq_eq_bool _ _ Z). split; [reflexivity|]. split; [reflexivity|].
  intros N. destruct (Qeq_bool wall 0) eqn:E; [|reflexivity]. now destruct (N (Qeq_bool_eq _ _ E)).
Qed.
Print Assumptions C90_ratio_zero.
Example C90_ratio_zero_ex : SpanModel.pytest_ratio 2 0 = SpanModel.Num 0 /\ SpanModel.safe_divide 2 0 = SpanModel.Inf.
Proof. split; reflexivity. Qed.

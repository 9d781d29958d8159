(** C108: simulation time, precision, name and arguments of the simulator pass through the interfaces unchanged. *)
From Coq Require Import String QArith Lia.
From Verif Require Import Base TextModel GpiTimeModel.
From Verif Require TimeModel TimeProps TimeSpec.
Open Scope Z_scope.

(** * Time *)
(** How a simulator tells its time [t]: two unsigned words, or two signed ones through the FLI. *)
Definition tells (i : iface) (t high low : Z) : Prop :=
  match i with
  | Vpi | Vhpi => 0 <= high < 2 ^ 32 /\ 0 <= low < 2 ^ 32 /\ t = high * 2 ^ 32 + low
  | Fli => - 2 ^ 31 <= high < 2 ^ 31 /\ - 2 ^ 31 <= low < 2 ^ 31 /\ (exists a b, t = (high + a * 2 ^ 32) * 2 ^ 32 + (low + b * 2 ^ 32) /\ 0 <= high + a * 2 ^ 32 < 2 ^ 32 /\ 0 <= low + b * 2 ^ 32 < 2 ^ 32)
  end.
(** The time which [get_sim_time] gives in steps is that of the simulator, for all 64 bits. *)
Theorem C108_time i t high low prec : tells i t high low -> exists h l, sim_time (Some i) high low = Ok (h, l) /\ TimeModel.get_sim_time prec h l (lit "step") = Ok (TimeModel.NInt t) /\ 0 <= t < 2 ^ 64.
Proof.
  intros T. unfold sim_time. destruct i; cbn [tells interface_time] in *.
  1, 2: destruct T as (H & L & ->); exists high, low; split; [reflexivity|]; split; [now apply TimeProps.C36_steps|lia].
  destruct T as (H & L & a & b & -> & A & B). exists (high + a * 2 ^ 32), (low + b * 2 ^ 32).
  assert (E : forall z k, 0 <= z + k * 2 ^ 32 < 2 ^ 32 -> uint32 z = z + k * 2 ^ 32).
  { intros z k K. unfold uint32. rewrite <- (Z.mod_small (z + k * 2 ^ 32) (2 ^ 32)) by exact K. now rewrite Z.mod_add. }
  rewrite (E high a A), (E low b B). split; [reflexivity|]. split; [now apply TimeProps.C36_steps|lia].
Qed.
Print Assumptions C108_time.
Example C108_time_ex : tells Fli 18446744071562067968 (-1) (- 2 ^ 31) /\ sim_time (Some Fli) (-1) (- 2 ^ 31) = Ok (4294967295, 2147483648).
Proof. split; [|reflexivity]. cbn [tells]. split; [lia|]. split; [lia|]. exists 1, 1. lia. Qed.

(** What a delay is worth to the simulator. *)
Definition worth (d : delay) : Z := match d with Words h l => h * 2 ^ 32 + l | Whole t => t end.
(** The words fit the types of the simulator: the high word is signed for the FLI. *)
Definition fits (i : iface) (d : delay) : Prop :=
  match i, d with
  | Fli, Words h l => - 2 ^ 31 <= h < 2 ^ 31 /\ 0 <= l < 2 ^ 32
  | _, Words h l => 0 <= h < 2 ^ 32 /\ 0 <= l < 2 ^ 32
  | _, Whole t => - 2 ^ 63 <= t < 2 ^ 63
  end.
(** A timer is registered exactly if its time is from 0 up to 2^63 - 1 steps, and the simulator is asked for exactly that time; otherwise Python is told: a ValueError if it is
    negative, an OverflowError if it has more than 64 bits. *)
Theorem C108_timer i lp64 z : match register_timed (Some i) lp64 z with
  | Ok d => 0 <= z < 2 ^ 63 /\ worth d = z /\ fits i d
  | Err ValueError => - 2 ^ 63 <= z < 0
  | Err OverflowError => z < - 2 ^ 63 \/ 2 ^ 63 <= z
  | Err _ => False
  end.
Proof.
  unfold register_timed, time_of. destruct (Z.ltb_spec z (- 2 ^ 63)); [cbn; now left|]. destruct (Z.leb_spec (2 ^ 63) z); [cbn; now right|]. cbn [orb].
  destruct (Z.ltb_spec z 0); [cbn; lia|]. cbn [bind]. split; [lia|].
  assert (S : Z.shiftr z 32 = z / 2 ^ 32) by (apply Z.shiftr_div_pow2; lia).
  assert (D : z = 2 ^ 32 * (z / 2 ^ 32) + z mod 2 ^ 32) by (apply Z.div_mod; lia).
  assert (M : 0 <= z mod 2 ^ 32 < 2 ^ 32) by (apply Z.mod_pos_bound; lia).
  assert (HH : 0 <= z / 2 ^ 32 < 2 ^ 31) by (split; [apply Z.div_pos; lia|apply Z.div_lt_upper_bound; lia]).
  destruct i; cbn [delay_of]; [| |destruct lp64]; cbn [worth fits]; unfold uint32, sint32; rewrite ?S; try rewrite (Z.mod_small (z / 2 ^ 32)) by lia; try rewrite (Z.mod_small (z / 2 ^ 32 + 2 ^ 31)) by lia; lia.
Qed.
Print Assumptions C108_timer.
Example C108_timer_ex : register_timed (Some Vpi) true (2 ^ 40 + 7) = Ok (Words 256 7) /\ register_timed (Some Fli) true (2 ^ 63 - 1) = Ok (Whole (2 ^ 63 - 1)) /\
  register_timed (Some Vhpi) true (2 ^ 63) = Err OverflowError /\ register_timed (Some Vhpi) true (-1) = Err ValueError.
Proof. repeat split. Qed.
(** So a Timer waits for the number of steps computed for it, on every interface, if this is less than 2^63. *)
Theorem C108_waits i lp64 prec x u mode n : TimeModel.timer prec x u mode = Ok n -> n < 2 ^ 63 -> exists d, register_timed (Some i) lp64 n = Ok d /\ worth d = n /\ 1 <= worth d.
Proof.
  intros T L. apply TimeProps.C37_timer in T as [_ P]. pose proof (C108_timer i lp64 n) as X. destruct (register_timed (Some i) lp64 n) as [d|[]]; try lia.
  exists d. split; [reflexivity|]. split; [apply X|]. destruct X as (_ & -> & _). exact P.
Qed.
Print Assumptions C108_waits.
Example C108_waits_ex : TimeModel.timer (-15) (TimeModel.NInt 5) (lit "us") TimeModel.RError = Ok 5000000000.
Proof. vm_compute. reflexivity. Qed.
(** But the class Timer takes longer times, and only the registration refuses them: 10000 seconds at a precision of 1 fs. *)
Theorem C108_long_refuted : exists n, TimeModel.timer (-15) (TimeModel.NInt 10000) (lit "sec") TimeModel.RError = Ok n /\ forall i lp64, register_timed (Some i) lp64 n = Err OverflowError.
Proof. exists (10 ^ 19). split; [vm_compute; reflexivity|]. intros i lp64. reflexivity. Qed.
Print Assumptions C108_long_refuted.

(** * Precision *)
Lemma log10_between k : forall fuel v i, 10 ^ Z.of_nat k <= v < 10 ^ (Z.of_nat k + 1) -> (k < fuel)%nat -> log10_loop fuel v i = i + 1 + Z.of_nat k.
Proof.
  induction k as [|k IH]; intros fuel v i B F; (destruct fuel as [|fuel]; [lia|]); cbn [log10_loop].
  - rewrite Z.div_small by (cbn in B; lia). cbn. lia.
  - assert (B' : 10 ^ Z.of_nat k <= v / 10 < 10 ^ (Z.of_nat k + 1)).
    { rewrite !Nat2Z.inj_succ, <- !Z.add_1_r, !Z.pow_add_r in B by lia. rewrite Z.pow_add_r by lia. split; [apply Z.div_le_lower_bound; lia|apply Z.div_lt_upper_bound; lia]. }
    assert (P : 0 < 10 ^ Z.of_nat k) by (apply Z.pow_pos_nonneg; lia).
    destruct (Z.eqb_spec (v / 10) 0); [lia|]. rewrite (IH fuel (v / 10) (i + 1) B') by lia. lia.
Qed.
(** The loop of the VHPI gives the decimal logarithm, rounded down, of every positive number of 64 bits. *)
Theorem C108_log10 k v : 0 <= k -> 10 ^ k <= v < 10 ^ (k + 1) -> v < 2 ^ 64 -> log10int v = k.
Proof.
  intros K B L. unfold log10int. assert (k < 20). { destruct (Z_lt_le_dec k 20) as [|G]; [assumption|]. pose proof (Z.pow_le_mono_r 10 20 k ltac:(lia) G) as X. change (10 ^ 20) with 100000000000000000000 in X. lia. }
  rewrite (log10_between (Z.to_nat k)); rewrite ?Z2Nat.id by lia; lia.
Qed.
Print Assumptions C108_log10.
Example C108_log10_ex : log10int 1 = 0 /\ log10int 9 = 0 /\ log10int 10000 = 4 /\ log10int (2 ^ 64 - 1) = 19 /\ log10int 0 = 0.
Proof. repeat split. Qed.
(** A simulator whose steps are [10 ^ p] seconds, from a femtosecond to 100 seconds, is known to Python by [p], on every interface. *)
Definition resolution (i : iface) (p answer : Z) : Prop := match i with Vpi | Fli => answer = p | Vhpi => answer = 10 ^ (p + 15) end.
Theorem C108_precision i strict p answer : -15 <= p <= 2 -> resolution i p answer -> get_precision (Some i) strict answer = Ok p.
Proof.
  intros P R. unfold get_precision. f_equal. assert (E : interface_precision i answer = p).
  { destruct i; cbn [resolution interface_precision] in *; try assumption. subst answer.
    assert (N : 10 ^ (p + 15) <= 10 ^ 17) by (apply Z.pow_le_mono_r; lia). change (10 ^ 17) with 100000000000000000 in N.
    assert (M : 10 ^ (p + 15) < 10 ^ (p + 15 + 1)) by (apply Z.pow_lt_mono_r; lia).
    rewrite (C108_log10 (p + 15)); lia. }
  rewrite E. unfold clamp. destruct (Z.ltb_spec 2 p); [lia|]. destruct (Z.ltb_spec p (-15)); lia.
Qed.
Print Assumptions C108_precision.
Example C108_precision_ex : resolution Vhpi (-12) 1000 /\ get_precision (Some Vhpi) false 1000 = Ok (-12) /\ get_precision (Some Vpi) true (-9) = Ok (-9).
Proof. repeat split. Qed.
(** Whatever the simulator answers, Python gets a precision from -15 to 2, the nearest one; without a simulator -15 and a warning. *)
Theorem C108_range i strict answer p : get_precision i strict answer = Ok p -> -15 <= p <= 2 /\
  match i with Some i => (interface_precision i answer < -15 -> p = -15) /\ (2 < interface_precision i answer -> p = 2) | None => p = -15 /\ strict = false end.
Proof.
  destruct i as [i|]; cbn [get_precision].
  - intros [= <-]. unfold clamp. set (x := interface_precision i answer). destruct (Z.ltb_spec 2 x); [cbn; lia|]. destruct (Z.ltb_spec x (-15)); lia.
  - destruct strict; [discriminate|]. intros [= <-]. lia.
Qed.
Print Assumptions C108_range.
Example C108_range_ex : get_precision (Some Vpi) true (-18) = Ok (-15) /\ get_precision None false 0 = Ok (-15).
Proof. split; reflexivity. Qed.
(** Steps which are no power of ten are taken for the next smaller one: times are then wrong by up to a factor of ten. *)
Theorem C108_steps_refuted : exists fs, fs = 500 /\ get_precision (Some Vhpi) false fs = Ok (-13) /\ get_precision (Some Vhpi) false 100 = Ok (-13).
Proof. exists 500. repeat split. Qed.
Print Assumptions C108_steps_refuted.

(** * Name and version *)
Lemma starts_spec pat : forall s r, starts pat s = Some r <-> s = pat ++ r.
Proof.
  induction pat as [|p pat IH]; intros s r; cbn [starts app].
  - split; [now intros [= ->]|now intros ->].
  - destruct s as [|c s]; [split; discriminate|]. destruct (Z.eqb_spec p c) as [->|N].
    + rewrite IH. split; [now intros ->|now intros [= ->]].
    + split; [discriminate|]. intros [= E _]. now destruct N.
Qed.
Lemma split_some pat s a b : split_first pat s = Some (a, b) -> s = a ++ pat ++ b /\ forall a' b', s = a' ++ pat ++ b' -> (List.length a <= List.length a')%nat.
Proof.
  revert a b. induction s as [|c s IH]; intros a b; cbn [split_first].
  - destruct (starts pat []) as [r|] eqn:E; [|discriminate]. intros [= <- <-]. apply starts_spec in E. split; [exact E|]. intros. cbn. lia.
  - destruct (starts pat (c :: s)) as [r|] eqn:E.
    + intros [= <- <-]. apply starts_spec in E. split; [exact E|]. intros. cbn. lia.
    + destruct (split_first pat s) as [[x y]|]; [|discriminate]. intros [= <- <-]. destruct (IH x y eq_refl) as [-> M]. split; [reflexivity|].
      intros a' b' H. destruct a' as [|d a']; [|injection H as -> H; specialize (M _ _ H); cbn; lia].
      cbn [app] in H. assert (X : starts pat (c :: x ++ pat ++ y) = Some b') by (apply starts_spec; exact H). congruence.
Qed.
Lemma split_none pat s : split_first pat s = None -> forall a b, s <> a ++ pat ++ b.
Proof.
  induction s as [|c s IH]; cbn [split_first]; intros N a b H.
  - destruct (starts pat []) as [r|] eqn:E; [discriminate|]. symmetry in H. apply app_eq_nil in H as [-> H]. symmetry in H. apply starts_spec in H. congruence.
  - destruct (starts pat (c :: s)) as [r|] eqn:E; [discriminate|]. destruct (split_first pat s) as [[x y]|]; [discriminate|].
    destruct a as [|d a]; [cbn [app] in H; apply starts_spec in H; rewrite H in E; discriminate E|]. injection H as -> H. exact (IH eq_refl a b H).
Qed.
(** Name and version which the FLI gives are the parts before and after the first " Version " of the text of the simulator; without one, the text and "UNKNOWN". *)
Theorem C108_product info p v : fli_product info = (p, v) ->
  (info = p ++ lit " Version " ++ v /\ forall a b, info = a ++ lit " Version " ++ b -> (List.length p <= List.length a)%nat) \/
  (p = info /\ v = lit "UNKNOWN" /\ forall a b, info <> a ++ lit " Version " ++ b).
Proof.
  unfold fli_product. destruct (split_first (lit " Version ") info) as [[a b]|] eqn:E.
  - intros [= <- <-]. left. now apply split_some.
  - intros [= <- <-]. right. split; [reflexivity|]. split; [reflexivity|]. now apply split_none.
Qed.
Print Assumptions C108_product.
Example C108_product_ex : fli_product (lit "ModelSim SE-64 Version 2020.1 2020.01") = (lit "ModelSim SE-64", lit "2020.1 2020.01") /\ fli_product (lit "ModelSim") = (lit "ModelSim", lit "UNKNOWN").
Proof. split; reflexivity. Qed.

(** * Arguments *)
(** Python gets the arguments of the simulator in their order, if the simulator keeps what it says. *)
Theorem C108_args l : vpi_args (Some l) = Arguments_ l /\ vhpi_args (Some (List.length l, Some l)) false = Arguments_ l /\ fli_args (Some l) = Arguments_ l.
Proof. unfold vhpi_args. rewrite !Nat.ltb_irrefl. repeat split. Qed.
Print Assumptions C108_args.
Example C108_args_ex : vhpi_args (Some (2%nat, Some [lit "vsim"; lit "+a"])) false = Arguments_ [lit "vsim"; lit "+a"].
Proof. reflexivity. Qed.
(** The VHPI trusts the simulator: if the number and the iterator disagree, memory is written beyond the array or read before it is set; and as the pointers are kept, not the
    texts, all arguments are the last one if the simulator uses the place of a text again. *)
Theorem C108_vhpi_args_refuted : vhpi_args (Some (1%nat, Some [lit "a"; lit "b"])) false = Beyond /\ vhpi_args (Some (2%nat, Some [lit "a"])) false = Unset /\
  vhpi_args (Some (2%nat, None)) false = Unset /\ vhpi_args (Some (2%nat, Some [lit "a"; lit "b"])) true = Arguments_ [lit "b"; lit "b"].
Proof. repeat split. Qed.
Print Assumptions C108_vhpi_args_refuted.
(** If the FLI cannot get the arguments, variables which were never set are read. *)
Theorem C108_fli_args_refuted : exists e, fli_args e = Unset.
Proof. now exists None. Qed.
Print Assumptions C108_fli_args_refuted.

(** * Without a simulator, and beyond the range *)
(** Without a simulator, asking for the time and registering a timer raise RuntimeError. *)
Theorem C108_none high low lp64 z : sim_time None high low = Err RuntimeError /\ register_timed None lp64 z = Err RuntimeError.
Proof. split; reflexivity. Qed.
Print Assumptions C108_none.
Example C108_none_ex : get_precision None true 0 = Err RuntimeError.
Proof. reflexivity. Qed.
(** A cast gives the only number of its type which differs by a multiple of 2^32. *)
Theorem C108_casts z : (0 <= uint32 z < 2 ^ 32 /\ exists k, uint32 z = z + k * 2 ^ 32) /\ (- 2 ^ 31 <= sint32 z < 2 ^ 31 /\ exists k, sint32 z = z + k * 2 ^ 32).
Proof.
  unfold uint32, sint32. split; (split; [pose proof (Z.mod_pos_bound z (2 ^ 32) ltac:(lia)); pose proof (Z.mod_pos_bound (z + 2 ^ 31) (2 ^ 32) ltac:(lia)); lia|]).
  - exists (- (z / 2 ^ 32)). pose proof (Z.div_mod z (2 ^ 32) ltac:(lia)). lia.
  - exists (- ((z + 2 ^ 31) / 2 ^ 32)). pose proof (Z.div_mod (z + 2 ^ 31) (2 ^ 32) ltac:(lia)). lia.
Qed.
Print Assumptions C108_casts.
Example C108_casts_ex : uint32 (-1) = 2 ^ 32 - 1 /\ sint32 (2 ^ 32 - 1) = -1 /\ sint32 (2 ^ 31) = - 2 ^ 31.
Proof. repeat split. Qed.

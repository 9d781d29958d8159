(** Proofs about rounding and simulated time. *)
From Coq Require Import String QArith Qround Qpower Qabs Lqa Zpow_facts Morphisms.
From Verif Require Import Base TextModel ToolsModel ToolsSpec ToolsProofs TimeModel TimeSpec.
Open Scope Q_scope.

(** * Rounding to integers *)
Lemma re_bounds q : let f := Qfloor q in
  (inject_Z f <= q < inject_Z f + (1 # 2) /\ round_even q = f) \/
  (inject_Z f + (1 # 2) < q < inject_Z f + 1 /\ round_even q = (f + 1)%Z) \/
  (q == inject_Z f + (1 # 2) /\ Z.even (round_even q) = true /\ (round_even q = f \/ round_even q = (f + 1)%Z)).
Proof.
  cbv zeta. pose proof (Qfloor_le q) as L. pose proof (Qlt_floor q) as U. rewrite inject_Z_plus in U. change (inject_Z 1) with 1 in U.
  unfold round_even. destruct (Qcompare_spec (q - inject_Z (Qfloor q)) (1 # 2)) as [E|E|E].
  - right. right. split; [lra|]. destruct (Z.even (Qfloor q)) eqn:Ev; split; auto.
    rewrite Z.add_1_r, Z.even_succ, <- Z.negb_even, Ev. reflexivity.
  - left. split; [lra|reflexivity].
  - right. left. split; [lra|reflexivity].
Qed.
Lemma re_near q : - (1 # 2) <= inject_Z (round_even q) - q <= 1 # 2.
Proof.
  destruct (re_bounds q) as [[H ->]|[[H ->]|(H & _ & [-> | ->])]]; rewrite ?inject_Z_plus; change (inject_Z 1) with 1; lra.
Qed.
Lemma inject_lt a b : inject_Z a < inject_Z b <-> (a < b)%Z.
Proof. rewrite Zlt_Qlt. tauto. Qed.
Lemma inject_le a b : inject_Z a <= inject_Z b <-> (a <= b)%Z.
Proof. rewrite Zle_Qle. tauto. Qed.
Lemma re_int q z : q == inject_Z z -> round_even q = z.
Proof.
  intro E. pose proof (re_near q) as [N1 N2].
  assert (inject_Z (round_even q) < inject_Z (z + 1)) by (rewrite inject_Z_plus; change (inject_Z 1) with 1; lra).
  assert (inject_Z (z - 1) < inject_Z (round_even q)).
  { unfold Z.sub. rewrite inject_Z_plus. change (inject_Z (- (1))) with (-(1)). lra. }
  rewrite inject_lt in *. lia.
Qed.
Lemma re_mono q r : q <= r -> (round_even q <= round_even r)%Z.
Proof.
  intro H. destruct (Z.le_gt_cases (round_even q) (round_even r)) as [|G]; [assumption|exfalso].
  pose proof (re_near q) as [N1 N2]. pose proof (re_near r) as [M1 M2].
  assert (G' : inject_Z (round_even r) + 1 <= inject_Z (round_even q)).
  { change 1 with (inject_Z 1). rewrite <- inject_Z_plus. apply inject_le. lia. }
  (* both at the same half *)
  assert (E1 : q == inject_Z (round_even r) + (1 # 2)) by lra.
  assert (E2 : r == q) by lra. assert (E3 : inject_Z (round_even q) == inject_Z (round_even r) + 1) by lra.
  assert (E4 : round_even q = (round_even r + 1)%Z).
  { apply Z.le_antisymm; [|lia]. apply inject_le. rewrite inject_Z_plus. change (inject_Z 1) with 1. lra. }
  destruct (re_bounds q) as [[H1 K]|[[H1 K]|(H1 & K & _)]].
  - rewrite K in *. lra.
  - rewrite K in E3. rewrite inject_Z_plus in E3. change (inject_Z 1) with 1 in E3. lra.
  - destruct (re_bounds r) as [[H2 K2]|[[H2 K2]|(H2 & K2 & _)]].
    + rewrite <- K2 in H2. lra.
    + pose proof (f_equal inject_Z K2) as K3. rewrite inject_Z_plus in K3. change (inject_Z 1) with 1 in K3. rewrite K3 in E1. lra.
    + rewrite E4, Z.add_1_r, Z.even_succ, <- Z.negb_even, K2 in K. discriminate.
Qed.
Lemma re_proper q r : q == r -> round_even q = round_even r.
Proof. intro E. apply Z.le_antisymm; apply re_mono; rewrite E; apply Qle_refl. Qed.
Lemma floor_unique q z : inject_Z z <= q < inject_Z (z + 1) -> Qfloor q = z.
Proof.
  intros [H1 H2]. pose proof (Qfloor_le q). pose proof (Qlt_floor q).
  assert (A : inject_Z z < inject_Z (Qfloor q + 1)) by lra. assert (B : inject_Z (Qfloor q) < inject_Z (z + 1)) by lra.
  rewrite inject_lt in *. lia.
Qed.
Lemma ceiling_spec q : inject_Z (Qceiling q - 1) < q <= inject_Z (Qceiling q).
Proof. split; [apply Qceiling_lt|apply Qle_ceiling]. Qed.

(** * Rounding to floats *)
Lemma pow2_pos e : 0 < 2 ^ e.
Proof. apply Qpower_0_lt. lra. Qed.
Lemma pow2_add a b : 2 ^ (a + b) == 2 ^ a * 2 ^ b.
Proof. apply Qpower_plus. lra. Qed.
Lemma pow2_Z n : (0 <= n)%Z -> inject_Z (2 ^ n) == 2 ^ n.
Proof. intro H. change 2 with (inject_Z 2). now apply Zpower_Qpower. Qed.
Lemma pow2_mono a b : (a <= b)%Z -> 2 ^ a <= 2 ^ b.
Proof. intro H. apply Qpower_le_compat_l; [exact H|lra]. Qed.
Lemma ilog2_spec q : 0 < q -> 2 ^ ilog2 q <= q < 2 ^ (ilog2 q + 1).
Proof.
  intro Hq. assert (Hn : (0 < Qnum q)%Z).
  { unfold Qlt in Hq. cbn in Hq. lia. }
  unfold ilog2. set (a := (Z.log2 (Qnum q) - Z.log2 (Zpos (Qden q)))%Z).
  destruct (Z.log2_spec (Qnum q) Hn) as [N1 N2]. destruct (Z.log2_spec (Zpos (Qden q)) ltac:(lia)) as [D1 D2].
  pose proof (Z.log2_nonneg (Qnum q)) as LN. pose proof (Z.log2_nonneg (Zpos (Qden q))) as LD.
  set (ln := Z.log2 (Qnum q)) in *. set (ld := Z.log2 (Zpos (Qden q))) in *.
  assert (Eq : q * inject_Z (Zpos (Qden q)) == inject_Z (Qnum q)).
  { destruct q as [n d]. cbn. unfold Qeq, Qmult, inject_Z. cbn. lia. }
  assert (Hd1 : 2 ^ ld <= inject_Z (Zpos (Qden q))) by (rewrite <- pow2_Z by lia; now apply inject_le).
  assert (Hd2 : inject_Z (Zpos (Qden q)) < 2 ^ ld * 2).
  { change (2 ^ ld * 2) with (2 ^ ld * 2 ^ 1). rewrite <- pow2_add, <- pow2_Z by lia. now apply inject_lt. }
  assert (Hn1 : 2 ^ ln <= inject_Z (Qnum q)) by (rewrite <- pow2_Z by lia; now apply inject_le).
  assert (Hn2 : inject_Z (Qnum q) < 2 ^ ln * 2).
  { change (2 ^ ln * 2) with (2 ^ ln * 2 ^ 1). rewrite <- pow2_add, <- pow2_Z by lia. now apply inject_lt. }
  assert (Ea : 2 ^ ln == 2 ^ a * 2 ^ ld).
  { rewrite <- pow2_add. unfold a. rewrite Z.sub_add. reflexivity. }
  pose proof (pow2_pos ld) as P1. pose proof (pow2_pos a) as P2.
  assert (U : q < 2 ^ a * 2).
  { apply Qnot_le_lt. intro C. assert (2 ^ a * 2 * 2 ^ ld <= q * inject_Z (Zpos (Qden q))); [|lra].
    apply Qmult_le_compat_nonneg; split; lra. }
  assert (L : 2 ^ a < q * 2).
  { apply Qnot_le_lt. intro C. assert (q * inject_Z (Zpos (Qden q)) * 2 < 2 ^ a * (2 ^ ld * 2)); [|lra].
    apply Qle_lt_trans with (2 ^ a * inject_Z (Zpos (Qden q))).
    - assert (q * 2 * inject_Z (Zpos (Qden q)) <= 2 ^ a * inject_Z (Zpos (Qden q))); [|lra].
      apply Qmult_le_compat_r; lra.
    - apply Qmult_lt_l; assumption. }
  destruct (Qle_bool (2 ^ a) q) eqn:E.
  - apply Qle_bool_iff in E. split; [exact E|]. rewrite pow2_add. change (2 ^ 1) with 2. exact U.
  - assert (q < 2 ^ a).
    { apply Qnot_le_lt. intro C. apply Qle_bool_iff in C. congruence. }
    rewrite Z.sub_add. split; [|assumption].
    assert (2 ^ (a - 1) * 2 == 2 ^ a).
    { change (2 ^ (a - 1) * 2) with (2 ^ (a - 1) * 2 ^ 1). rewrite <- pow2_add, Z.sub_add. reflexivity. }
    lra.
Qed.
Lemma ilog2_unique q e : 0 < q -> 2 ^ e <= q < 2 ^ (e + 1) -> ilog2 q = e.
Proof.
  intros H [L U]. destruct (ilog2_spec q H) as [L' U'].
  destruct (Z.lt_trichotomy (ilog2 q) e) as [C|[C|C]]; [|exact C|].
  - pose proof (pow2_mono (ilog2 q + 1) e ltac:(lia)). lra.
  - pose proof (pow2_mono (e + 1) (ilog2 q) ltac:(lia)). lra.
Qed.
Lemma ilog2_mono q r : 0 < q -> q <= r -> (ilog2 q <= ilog2 r)%Z.
Proof.
  intros H L. destruct (ilog2_spec q H) as [A B]. destruct (ilog2_spec r ltac:(lra)) as [C D].
  destruct (Z.le_gt_cases (ilog2 q) (ilog2 r)) as [|G]; [assumption|exfalso].
  pose proof (pow2_mono (ilog2 r + 1) (ilog2 q) ltac:(lia)). lra.
Qed.
(** The scaled value and its bounds. *)
Lemma scaled_bounds q : 0 < q -> let u := 2 ^ (ilog2 q - 52) in
  inject_Z (2 ^ 52) <= q / u < inject_Z (2 ^ 53) /\ q == q / u * u.
Proof.
  intro H. cbv zeta. set (u := 2 ^ (ilog2 q - 52)). assert (P : 0 < u) by apply pow2_pos.
  destruct (ilog2_spec q H) as [L U]. assert (E : q == q / u * u) by (field; lra). split; [|exact E].
  assert (E1 : 2 ^ ilog2 q == inject_Z (2 ^ 52) * u).
  { rewrite pow2_Z by lia. unfold u. rewrite <- pow2_add. replace (52 + (ilog2 q - 52))%Z with (ilog2 q) by lia. reflexivity. }
  assert (E2 : 2 ^ (ilog2 q + 1) == inject_Z (2 ^ 53) * u).
  { rewrite pow2_Z by lia. unfold u. rewrite <- pow2_add. replace (53 + (ilog2 q - 52))%Z with (ilog2 q + 1)%Z by lia. reflexivity. }
  clearbody u. set (x := q / u) in *. clearbody x.
  split; [apply (Qmult_le_r _ _ u P); lra|apply (Qmult_lt_r _ _ u P); lra].
Qed.
Lemma fl_pos_bounds q : 0 < q -> 2 ^ ilog2 q <= fl_pos q <= 2 ^ (ilog2 q + 1) /\ 0 < fl_pos q.
Proof.
  intro H. destruct (scaled_bounds q H) as [[L U] _]. unfold fl_pos. set (u := 2 ^ (ilog2 q - 52)) in *.
  assert (P : 0 < u) by apply pow2_pos.
  assert (L1 : (2 ^ 52 <= round_even (q / u))%Z).
  { rewrite <- (re_int (inject_Z (2 ^ 52)) (2 ^ 52)) by reflexivity. now apply re_mono. }
  assert (U1 : (round_even (q / u) <= 2 ^ 53)%Z).
  { rewrite <- (re_int (inject_Z (2 ^ 53)) (2 ^ 53)) by reflexivity. apply re_mono. apply Qlt_le_weak. exact U. }
  assert (E1 : 2 ^ ilog2 q == inject_Z (2 ^ 52) * u).
  { rewrite pow2_Z by lia. unfold u. rewrite <- pow2_add. replace (52 + (ilog2 q - 52))%Z with (ilog2 q) by lia. reflexivity. }
  assert (E2 : 2 ^ (ilog2 q + 1) == inject_Z (2 ^ 53) * u).
  { rewrite pow2_Z by lia. unfold u. rewrite <- pow2_add. replace (53 + (ilog2 q - 52))%Z with (ilog2 q + 1)%Z by lia. reflexivity. }
  rewrite E1, E2. assert (A : inject_Z (2 ^ 52) * u <= inject_Z (round_even (q / u)) * u).
  { apply Qmult_le_compat_r; [now apply inject_le|lra]. }
  assert (B : inject_Z (round_even (q / u)) * u <= inject_Z (2 ^ 53) * u).
  { apply Qmult_le_compat_r; [now apply inject_le|lra]. }
  split; [split; assumption|]. rewrite <- E1 in A. pose proof (pow2_pos (ilog2 q)). lra.
Qed.
Lemma fl_pos_error q : 0 < q -> - q <= (fl_pos q - q) * inject_Z (2 ^ 53) <= q.
Proof.
  intro H. destruct (scaled_bounds q H) as [[L U] E]. unfold fl_pos. set (u := 2 ^ (ilog2 q - 52)) in *.
  assert (P : 0 < u) by apply pow2_pos. pose proof (re_near (q / u)) as [N1 N2].
  set (x := q / u) in *. set (m := inject_Z (round_even x)) in *.
  change (inject_Z (2 ^ 52)) with 4503599627370496 in *. change (inject_Z (2 ^ 53)) with 9007199254740992 in *.
  rewrite E. assert (X : m * u - x * u == (m - x) * u) by ring. rewrite X.
  assert (A : (m - x) * u * 9007199254740992 <= x * u).
  { assert ((m - x) * 9007199254740992 * u <= x * u); [|lra]. apply Qmult_le_compat_r; lra. }
  assert (B : - (x * u) <= (m - x) * u * 9007199254740992).
  { assert ((- x) * u <= (m - x) * 9007199254740992 * u); [|lra]. apply Qmult_le_compat_r; lra. }
  split; assumption.
Qed.
Lemma fl_pos_mono q r : 0 < q -> q <= r -> fl_pos q <= fl_pos r.
Proof.
  intros H L. assert (Hr : 0 < r) by lra. pose proof (ilog2_mono q r H L) as M.
  destruct (Z.eq_dec (ilog2 q) (ilog2 r)) as [E|N].
  - unfold fl_pos. rewrite E. assert (P : 0 < 2 ^ (ilog2 r - 52)) by apply pow2_pos. apply Qmult_le_compat_r; [|lra].
    apply inject_le. apply re_mono. apply Qmult_le_compat_r; [exact L|]. apply Qinv_le_0_compat. lra.
  - destruct (fl_pos_bounds q H) as [[_ U] _]. destruct (fl_pos_bounds r Hr) as [[B _] _].
    pose proof (pow2_mono (ilog2 q + 1) (ilog2 r) ltac:(lia)). lra.
Qed.
Lemma fl_pos_exact q : 0 < q -> is_float q -> fl_pos q == q.
Proof.
  intros H (m & e & B & E). destruct (ilog2_spec q H) as [L U].
  assert (Pe : 0 < 2 ^ e) by apply pow2_pos.
  assert (Hm : (0 < m)%Z).
  { apply inject_lt. apply Qnot_le_lt. intro C. assert (inject_Z m * 2 ^ e <= 0 * 2 ^ e) by (apply Qmult_le_compat_r; [exact C|lra]). lra. }
  destruct (Z.eq_dec m (2 ^ 53)) as [->|N].
  - (* a power of two *)
    assert (E' : q == 2 ^ (53 + e)) by (rewrite E, pow2_add, pow2_Z by lia; reflexivity).
    assert (I : ilog2 q = (53 + e)%Z).
    { apply ilog2_unique; [exact H|]. rewrite E'. rewrite (pow2_add (53 + e) 1). pose proof (pow2_pos (53 + e)). change (2 ^ 1) with 2. split; lra. }
    unfold fl_pos. rewrite I. replace (53 + e - 52)%Z with (e + 1)%Z by lia. assert (P : 0 < 2 ^ (e + 1)) by apply pow2_pos.
    assert (S : q / 2 ^ (e + 1) == inject_Z (2 ^ 52)).
    { rewrite E'. replace (53 + e)%Z with (52 + (e + 1))%Z by lia. rewrite pow2_add, pow2_Z by lia. field. lra. }
    rewrite (re_int _ _ S). rewrite E', pow2_Z by lia. rewrite <- pow2_add. replace (52 + (e + 1))%Z with (53 + e)%Z by lia. reflexivity.
  - (* the exponent of the unit is at most e *)
    assert (I : (ilog2 q - 52 <= e)%Z).
    { destruct (Z.le_gt_cases (ilog2 q - 52) e) as [|G]; [assumption|exfalso].
      pose proof (pow2_mono (53 + e) (ilog2 q) ltac:(lia)) as M. rewrite pow2_add, <- pow2_Z in M by lia.
      assert (inject_Z m * 2 ^ e < inject_Z (2 ^ 53) * 2 ^ e); [|lra].
      apply Qmult_lt_r; [exact Pe|]. apply inject_lt. lia. }
    unfold fl_pos. set (f := (ilog2 q - 52)%Z) in *. assert (Pf : 0 < 2 ^ f) by apply pow2_pos.
    assert (S : q / 2 ^ f == inject_Z (m * 2 ^ (e - f))).
    { rewrite inject_Z_mult, pow2_Z by lia. rewrite E. replace e with ((e - f) + f)%Z at 1 by lia. rewrite pow2_add. field. lra. }
    rewrite (re_int _ _ S). rewrite <- S. field. lra.
Qed.

Lemma fl_zero q : q == 0 -> fl q == 0.
Proof. intro E. unfold fl. assert (Qnum q = 0%Z) by (unfold Qeq in E; cbn in E; lia). rewrite H. reflexivity. Qed.
Lemma fl_posq q : 0 < q -> fl q = fl_pos q.
Proof.
  intro H. unfold fl. unfold Qlt in H. cbn in H. destruct (Z.eqb_spec (Qnum q) 0); [lia|]. destruct (Z.ltb_spec (Qnum q) 0); [lia|reflexivity].
Qed.
Lemma fl_negq q : q < 0 -> fl q = - fl_pos (- q).
Proof.
  intro H. unfold fl. unfold Qlt in H. cbn in H. destruct (Z.eqb_spec (Qnum q) 0); [lia|]. destruct (Z.ltb_spec (Qnum q) 0); [reflexivity|lia].
Qed.
Lemma q_cases q : q < 0 \/ q == 0 \/ 0 < q.
Proof. destruct (Q_dec q 0) as [[|]|]; auto. Qed.
Lemma fl_sign q : (0 <= q -> 0 <= fl q) /\ (q <= 0 -> fl q <= 0).
Proof.
  destruct (q_cases q) as [H|[H|H]].
  - rewrite (fl_negq q H). destruct (fl_pos_bounds (- q) ltac:(lra)) as [_ P]. split; lra.
  - pose proof (fl_zero q H). split; lra.
  - rewrite (fl_posq q H). destruct (fl_pos_bounds q H) as [_ P]. split; lra.
Qed.
Lemma fl_mono q r : q <= r -> fl q <= fl r.
Proof.
  intro L. destruct (q_cases q) as [H|[H|H]]; destruct (q_cases r) as [K|[K|K]]; try lra;
    try (destruct (fl_sign q), (fl_sign r); lra).
  - rewrite (fl_negq q H), (fl_negq r K). assert (fl_pos (- r) <= fl_pos (- q)); [|lra]. apply fl_pos_mono; lra.
  - rewrite (fl_posq q H), (fl_posq r K). now apply fl_pos_mono.
Qed.
Lemma fl_proper q r : q == r -> fl q == fl r.
Proof. intro E. apply Qle_antisym; apply fl_mono; lra. Qed.
#[export] Instance fl_Proper : Proper (Qeq ==> Qeq) fl.
Proof. intros q r E. now apply fl_proper. Qed.
Lemma is_float_opp q : is_float q -> is_float (- q).
Proof. intros (m & e & B & E). exists (- m)%Z, e. split; [lia|]. rewrite E, inject_Z_opp. ring. Qed.
Lemma fl_exact q : is_float q -> fl q == q.
Proof.
  intro F. destruct (q_cases q) as [H|[H|H]].
  - rewrite (fl_negq q H). rewrite fl_pos_exact; [ring|lra|now apply is_float_opp].
  - rewrite (fl_zero q H). lra.
  - rewrite (fl_posq q H). now apply fl_pos_exact.
Qed.
Lemma fl_error q : Qabs (fl q - q) * inject_Z (2 ^ 53) <= Qabs q.
Proof.
  assert (G : - Qabs q <= (fl q - q) * inject_Z (2 ^ 53) <= Qabs q).
  { destruct (q_cases q) as [H|[H|H]].
    - rewrite (fl_negq q H), (Qabs_neg q) by lra. pose proof (fl_pos_error (- q) ltac:(lra)).
      change (inject_Z (2 ^ 53)) with 9007199254740992 in *. lra.
    - pose proof (fl_zero q H). pose proof (Qabs_nonneg q). change (inject_Z (2 ^ 53)) with 9007199254740992. lra.
    - rewrite (fl_posq q H), (Qabs_pos q) by lra. now apply fl_pos_error. }
  change (inject_Z (2 ^ 53)) with 9007199254740992 in *.
  apply Qabs_case; intro; lra.
Qed.
Lemma int_is_float z : (Z.abs z <= 2 ^ 53)%Z -> is_float (inject_Z z).
Proof. intro H. exists z, 0%Z. split; [exact H|]. cbn. ring. Qed.
Lemma half_is_float z : (Z.abs (2 * z + 1) <= 2 ^ 53)%Z -> is_float (inject_Z z + (1 # 2)).
Proof.
  intro H. exists (2 * z + 1)%Z, (-1)%Z. split; [exact H|]. rewrite inject_Z_plus, inject_Z_mult. change (2 ^ (-1)) with (1 # 2).
  change (inject_Z 1) with 1. change (inject_Z 2) with 2. ring.
Qed.

(** * Rounding modes *)
Lemma eqb_int q : Qeq_bool (inject_Z (Qfloor q)) q = true <-> q == inject_Z (Qfloor q).
Proof. rewrite Qeq_bool_iff. split; intro; symmetry; assumption. Qed.
Definition apply_mode (mode : round_mode) (q : Q) : result Z :=
  match mode with
  | RError => let r := Qfloor q in if Qeq_bool (inject_Z r) q then Ok r else Err ValueError
  | RCeil => Ok (Qceiling q)
  | RRound => Ok (round_even q)
  | RFloor => Ok (Qfloor q)
  | RInvalid => Err ValueError
  end.
Lemma inj1 z : inject_Z (z + 1) == inject_Z z + 1.
Proof. rewrite inject_Z_plus. reflexivity. Qed.
Lemma injm1 z : inject_Z (z - 1) == inject_Z z - 1.
Proof. unfold Z.sub. rewrite inject_Z_plus. reflexivity. Qed.
Lemma inject_eq a b : inject_Z a == inject_Z b -> a = b.
Proof. intro E. apply Z.le_antisymm; apply inject_le; lra. Qed.
Lemma re_rounded q : rounded RRound q (round_even q).
Proof.
  unfold rounded. split.
  - pose proof (re_near q). apply Qabs_case; intro; lra.
  - destruct (re_bounds q) as [[A ->]|[[A ->]|(A & B & _)]].
    + apply Qabs_case; intros; exfalso; lra.
    + rewrite inj1. apply Qabs_case; intros; exfalso; lra.
    + intros _. exact B.
Qed.
Lemma rounded_unique mode q n m : rounded mode q n -> rounded mode q m -> n = m.
Proof.
  destruct mode; unfold rounded, apply_mode.
  - intros A B. apply inject_eq. lra.
  - intros [A A'] [B B'].
    assert (G : forall a b, (a < b)%Z -> Qabs (q - inject_Z a) <= 1 # 2 -> (Qabs (q - inject_Z a) == 1 # 2 -> Z.even a = true) ->
      Qabs (q - inject_Z b) <= 1 # 2 -> (Qabs (q - inject_Z b) == 1 # 2 -> Z.even b = true) -> False).
    { clear. intros a b L A A' B B'. assert (L' : inject_Z a + 1 <= inject_Z b) by (rewrite <- inj1; apply inject_le; lia).
      assert (X : q - inject_Z a <= 1 # 2) by (revert A; apply Qabs_case; intros; lra).
      assert (Y : - (1 # 2) <= q - inject_Z b) by (revert B; apply Qabs_case; intros; lra).
      assert (Ea : Z.even a = true) by (apply A'; apply Qabs_case; intros; lra).
      assert (Eb : Z.even b = true) by (apply B'; apply Qabs_case; intros; lra).
      assert (b = a + 1)%Z by (apply inject_eq; rewrite inj1; lra). subst b.
      rewrite Z.add_1_r, Z.even_succ, <- Z.negb_even, Ea in Eb. discriminate. }
    destruct (Z.lt_trichotomy n m) as [L|[E|L]]; [exfalso; eauto|exact E|exfalso; eauto].
  - intros A B. assert (inject_Z n < inject_Z (m + 1)) by (rewrite inj1; lra). assert (inject_Z m < inject_Z (n + 1)) by (rewrite inj1; lra).
    rewrite inject_lt in *. lia.
  - intros A B. assert (inject_Z n < inject_Z (m + 1)) by (rewrite inj1; lra). assert (inject_Z m < inject_Z (n + 1)) by (rewrite inj1; lra).
    rewrite inject_lt in *. lia.
  - tauto.
Qed.
Lemma apply_mode_ok mode q n : apply_mode mode q = Ok n -> rounded mode q n.
Proof.
  destruct mode; unfold rounded, apply_mode.
  - destruct (Qeq_bool _ _) eqn:E; [|discriminate]. intro H. injection H as <-. now apply eqb_int.
  - intro H. injection H as <-. apply re_rounded.
  - intro H. injection H as <-. pose proof (ceiling_spec q) as P. rewrite injm1 in P. exact P.
  - intro H. injection H as <-. pose proof (Qfloor_le q). pose proof (Qlt_floor q) as P. rewrite inj1 in P. split; assumption.
  - discriminate.
Qed.
Lemma apply_mode_answers mode q : answers (apply_mode mode q) mode q.
Proof.
  assert (X : forall n, rounded mode q n -> apply_mode mode q = Ok n).
  { intros n R. destruct (apply_mode mode q) as [m|e] eqn:E.
    - f_equal. eapply rounded_unique; [|exact R]. now apply apply_mode_ok.
    - destruct mode; unfold apply_mode in E; try discriminate; [|destruct R].
      destruct (Qeq_bool _ _) eqn:Q; [discriminate|]. exfalso. unfold rounded in R. assert (F : Qfloor q = n) by (apply floor_unique; rewrite inj1; lra).
      rewrite <- F in R. apply eqb_int in R. congruence. }
  split.
  - intro n. split; [apply apply_mode_ok|apply X].
  - split.
    + intros E n R. rewrite (X n R) in E. discriminate.
    + intro U. destruct (apply_mode mode q) as [m|e] eqn:E; [exfalso; apply (U m); now apply apply_mode_ok|].
      destruct mode; unfold apply_mode in E; try discriminate; [|now injection E as <-]. destruct (Qeq_bool _ _); [discriminate|]. now injection E as <-.
Qed.
Lemma rounded_proper mode q r n : q == r -> rounded mode q n -> rounded mode r n.
Proof.
  intro E. destruct mode; unfold rounded; try tauto; try (intros; lra).
  intros [A B]. rewrite E in A, B. tauto.
Qed.
Lemma answers_proper x mode q r : q == r -> answers x mode q -> answers x mode r.
Proof.
  intros E [A B]. split.
  - intro n. rewrite (A n). split; apply rounded_proper; lra.
  - rewrite B. unfold unroundable. split; intros H n R; apply (H n); revert R; apply rounded_proper; lra.
Qed.
Lemma rounded_mono mode q r n m : q <= r -> rounded mode q n -> rounded mode r m -> (n <= m)%Z.
Proof.
  intros L A B. pose proof (proj2 (proj1 (apply_mode_answers mode q) n) A) as A'. pose proof (proj2 (proj1 (apply_mode_answers mode r) m) B) as B'.
  destruct mode; unfold apply_mode in A', B'.
  - apply inject_le. unfold rounded in A, B. lra.
  - injection A' as <-. injection B' as <-. now apply re_mono.
  - injection A' as <-. injection B' as <-. now apply Qceiling_resp_le.
  - injection A' as <-. injection B' as <-. now apply Qfloor_resp_le.
  - discriminate.
Qed.

(** * Units *)
Lemma unit_low w e : In (w, e) units -> low_word (lit w).
Proof. cbn. intros [H|[H|[H|[H|[H|[H|[]]]]]]]; injection H as <- <-;
  unfold low_word, lit; cbn -[Z.lt Z.le]; repeat (apply Forall_cons; [lia|]); apply Forall_nil. Qed.
Lemma scales_get k e : dict_get scales k = Some e -> exists w, In (w, e) units /\ k = lit w.
Proof.
  unfold scales. cbn [dict_get]. unfold units.
  destruct (pystr_eqb _ k) eqn:E1; [intro H; injection H as <-; apply pystr_eqb_eq in E1; eexists; split; [|symmetry; exact E1]; cbn; tauto|clear E1].
  destruct (pystr_eqb _ k) eqn:E1; [intro H; injection H as <-; apply pystr_eqb_eq in E1; eexists; split; [|symmetry; exact E1]; cbn; tauto|clear E1].
  destruct (pystr_eqb _ k) eqn:E1; [intro H; injection H as <-; apply pystr_eqb_eq in E1; eexists; split; [|symmetry; exact E1]; cbn; tauto|clear E1].
  destruct (pystr_eqb _ k) eqn:E1; [intro H; injection H as <-; apply pystr_eqb_eq in E1; eexists; split; [|symmetry; exact E1]; cbn; tauto|clear E1].
  destruct (pystr_eqb _ k) eqn:E1; [intro H; injection H as <-; apply pystr_eqb_eq in E1; eexists; split; [|symmetry; exact E1]; cbn; tauto|clear E1].
  destruct (pystr_eqb _ k) eqn:E1; [intro H; injection H as <-; apply pystr_eqb_eq in E1; eexists; split; [|symmetry; exact E1]; cbn; tauto|clear E1].
  discriminate.
Qed.
Lemma scale_ok u e : log_time_scale u = Ok e <-> unit_exp u e.
Proof.
  unfold log_time_scale, unit_exp. split.
  - intro H. destruct (dict_get _ _) as [x|] eqn:D; [|discriminate]. injection H as ->.
    destruct (scales_get _ _ D) as (w & I & E). exists w. split; [exact I|]. apply py_lower_word; [eapply unit_low; exact I|exact E].
  - intros (w & I & S). apply py_lower_word in S; [|eapply unit_low; exact I]. rewrite S.
    cbn in I. destruct I as [H|[H|[H|[H|[H|[H|[]]]]]]]; injection H as <- <-; reflexivity.
Qed.
Lemma scale_err u : (forall e, ~ unit_exp u e) -> log_time_scale u = Err ValueError.
Proof.
  intro H. destruct (log_time_scale u) as [e|x] eqn:E; [exfalso; apply (H e); now apply scale_ok|].
  unfold log_time_scale in E. destruct (dict_get _ _); [discriminate|]. now injection E as <-.
Qed.
Lemma is_step_iff u : is_step u = true <-> u = lit "step".
Proof. unfold is_step. apply pystr_eqb_eq. Qed.
Lemma is_step_false u : is_step u = false <-> u <> lit "step".
Proof. rewrite <- is_step_iff. destruct (is_step u); split; congruence. Qed.
Lemma unit_exp_unique u e f : unit_exp u e -> unit_exp u f -> e = f.
Proof. rewrite <- !scale_ok. congruence. Qed.
Lemma unit_exp_range u e : unit_exp u e -> (-15 <= e <= 0)%Z.
Proof. intros (w & I & _). cbn in I. destruct I as [H|[H|[H|[H|[H|[H|[]]]]]]]; injection H as <- <-; lia. Qed.

(** * [_ldexp10] *)
Lemma p10_pos e : 0 < 10 ^ e.
Proof. apply Qpower_0_lt. lra. Qed.
Lemma p10_Z n : (0 <= n)%Z -> inject_Z (10 ^ n) == 10 ^ n.
Proof. intro H. change 10 with (inject_Z 10). now apply Zpower_Qpower. Qed.
Lemma p10_opp e : (e <= 0)%Z -> forall q, q / inject_Z (10 ^ (- e)) == q * 10 ^ e.
Proof.
  intros H q. rewrite p10_Z by lia. rewrite Qpower_opp. pose proof (p10_pos e). field. lra.
Qed.
Lemma ten_float n : (0 <= n <= 22)%Z -> is_float (inject_Z (10 ^ n)).
Proof.
  intro H. exists (5 ^ n)%Z, n. split.
  - rewrite Z.abs_eq by (apply Z.pow_nonneg; lia). apply Z.le_trans with (5 ^ 22)%Z; [apply Z.pow_le_mono_r; lia|vm_compute; discriminate].
  - rewrite <- pow2_Z by lia. rewrite <- inject_Z_mult, <- Z.pow_mul_l. reflexivity.
Qed.
(** Exact types. *)
Lemma ldexp10_frac q e : val (ldexp10 (NFrac q) e) == q * 10 ^ e.
Proof.
  unfold ldexp10. destruct (Z.ltb_spec 0 e); cbn [val].
  - rewrite p10_Z by lia. reflexivity.
  - now apply p10_opp.
Qed.
Lemma ldexp10_int_up z e : (0 < e)%Z -> val (ldexp10 (NInt z) e) == inject_Z z * 10 ^ e.
Proof.
  intro H. unfold ldexp10. destruct (Z.ltb_spec 0 e); [|lia]. cbn [val]. rewrite inject_Z_mult, p10_Z by lia. reflexivity.
Qed.
Lemma ldexp10_int_down z e : (e <= 0)%Z -> val (ldexp10 (NInt z) e) == fl (inject_Z z * 10 ^ e).
Proof.
  intro H. unfold ldexp10. destruct (Z.ltb_spec 0 e); [lia|]. cbn [val]. apply fl_proper. now apply p10_opp.
Qed.
Lemma ldexp10_float q e : (-22 <= e <= 22)%Z -> val (ldexp10 (NFloat q) e) == fl (q * 10 ^ e).
Proof.
  intro H. unfold ldexp10. destruct (Z.ltb_spec 0 e); cbn [val]; apply fl_proper.
  - rewrite fl_exact by (apply ten_float; lia). rewrite p10_Z by lia. reflexivity.
  - rewrite fl_exact by (apply ten_float; lia). apply p10_opp. lia.
Qed.
Lemma ldexp10_mono a b e : same_type a b = true -> val a <= val b -> val (ldexp10 a e) <= val (ldexp10 b e).
Proof.
  intros T L. unfold ldexp10. destruct (Z.ltb_spec 0 e); destruct a as [x|x|x], b as [y|y|y]; try discriminate; cbn [val] in *.
  - apply inject_le. rewrite inject_le in L. apply Z.mul_le_mono_nonneg_r; [apply Z.pow_nonneg; lia|exact L].
  - apply fl_mono. apply Qmult_le_compat_r; [exact L|]. apply fl_sign. rewrite p10_Z by lia. pose proof (p10_pos e). lra.
  - apply Qmult_le_compat_r; [exact L|]. rewrite p10_Z by lia. pose proof (p10_pos e). lra.
  - apply fl_mono. apply Qmult_le_compat_r; [exact L|]. apply Qinv_le_0_compat. rewrite p10_Z by lia. pose proof (p10_pos (- e)). lra.
  - apply fl_mono. apply Qmult_le_compat_r; [exact L|]. apply Qinv_le_0_compat. apply fl_sign. rewrite p10_Z by lia. pose proof (p10_pos (- e)). lra.
  - apply Qmult_le_compat_r; [exact L|]. apply Qinv_le_0_compat. rewrite p10_Z by lia. pose proof (p10_pos (- e)). lra.
Qed.

(** * Division of small integers keeps the order with respect to integers and halves *)
Lemma quot_gap z d a b : (0 < d)%Z -> (0 < b)%Z -> inject_Z z / inject_Z d < inject_Z a / inject_Z b ->
  1 <= (inject_Z a / inject_Z b - inject_Z z / inject_Z d) * inject_Z d * inject_Z b.
Proof.
  intros Hd Hb L. assert (D : 0 < inject_Z d) by (change 0 with (inject_Z 0); now apply inject_lt).
  assert (B : 0 < inject_Z b) by (change 0 with (inject_Z 0); now apply inject_lt).
  assert (E : (inject_Z a / inject_Z b - inject_Z z / inject_Z d) * inject_Z d * inject_Z b == inject_Z (a * d - z * b)).
  { unfold Z.sub. rewrite inject_Z_plus, inject_Z_opp, !inject_Z_mult. field. split; lra. }
  rewrite E. change 1 with (inject_Z 1). apply inject_le.
  assert (0 < a * d - z * b)%Z; [|lia]. apply inject_lt. rewrite <- E. change (inject_Z 0) with 0.
  apply Qmult_lt_0_compat; [apply Qmult_lt_0_compat|]; lra.
Qed.
Lemma quot_gap' z d a b : (0 < d)%Z -> (0 < b)%Z -> inject_Z a / inject_Z b < inject_Z z / inject_Z d ->
  1 <= (inject_Z z / inject_Z d - inject_Z a / inject_Z b) * inject_Z d * inject_Z b.
Proof. intros Hd Hb L. pose proof (quot_gap a b z d Hb Hd L) as G. lra. Qed.
(** b = 1 for integers, 2 for halves. *)
Lemma fl_err_small z d b : (0 < d)%Z -> (0 < b)%Z -> (Z.abs z * b < 2 ^ 53)%Z ->
  let q := inject_Z z / inject_Z d in -1 < (fl q - q) * inject_Z d * inject_Z b < 1.
Proof.
  intros Hd Hb Hz q. assert (D : 0 < inject_Z d) by (change 0 with (inject_Z 0); now apply inject_lt).
  assert (B : 0 < inject_Z b) by (change 0 with (inject_Z 0); now apply inject_lt).
  pose proof (fl_error q) as E. set (x := fl q - q) in *.
  assert (Aq : Qabs q * inject_Z d == inject_Z (Z.abs z)).
  { unfold q. change (inject_Z (Z.abs z)) with (Qabs (inject_Z z)). unfold Qdiv. rewrite Qabs_Qmult.
    rewrite (Qabs_pos (/ inject_Z d)) by (apply Qinv_le_0_compat; lra). field. lra. }
  assert (P : 0 < inject_Z d * inject_Z b) by (apply Qmult_lt_0_compat; lra).
  assert (M : Qabs x * inject_Z (2 ^ 53) * (inject_Z d * inject_Z b) <= Qabs q * (inject_Z d * inject_Z b)) by (apply Qmult_le_compat_r; lra).
  assert (M2 : Qabs q * (inject_Z d * inject_Z b) == inject_Z (Z.abs z * b)) by (rewrite inject_Z_mult, <- Aq; ring).
  assert (M3 : inject_Z (Z.abs z * b) < inject_Z (2 ^ 53)) by now apply inject_lt.
  assert (M4 : Qabs x * (inject_Z d * inject_Z b) < 1).
  { change (inject_Z (2 ^ 53)) with 9007199254740992 in *. assert (Qabs x * (inject_Z d * inject_Z b) * 9007199254740992 < 9007199254740992); [|lra]. lra. }
  assert (X : - Qabs x <= x <= Qabs x) by (apply Qabs_case; intros; lra).
  assert (- Qabs x * (inject_Z d * inject_Z b) <= x * (inject_Z d * inject_Z b)) by (apply Qmult_le_compat_r; lra).
  assert (x * (inject_Z d * inject_Z b) <= Qabs x * (inject_Z d * inject_Z b)) by (apply Qmult_le_compat_r; lra).
  split; lra.
Qed.
(** Rounding to a float does not move the quotient across or onto a multiple of 1/b. *)
Lemma fl_side z d a b : (0 < d)%Z -> (0 < b)%Z -> (Z.abs z * b < 2 ^ 53)%Z -> is_float (inject_Z a / inject_Z b) \/ (2 ^ 53 < Z.abs a)%Z ->
  let q := inject_Z z / inject_Z d in let p := inject_Z a / inject_Z b in
  (q < p -> fl q < p) /\ (p < q -> p < fl q) /\ (q == p -> fl q == p).
Proof.
  intros Hd Hb Hz F q p. assert (D : 0 < inject_Z d) by (change 0 with (inject_Z 0); now apply inject_lt).
  assert (B : 0 < inject_Z b) by (change 0 with (inject_Z 0); now apply inject_lt).
  assert (P : 0 < inject_Z d * inject_Z b) by (apply Qmult_lt_0_compat; lra).
  pose proof (fl_err_small z d b Hd Hb Hz) as [E1 E2]. fold q in E1, E2. repeat split.
  - intro L. pose proof (quot_gap z d a b Hd Hb L) as G. fold q p in G.
    apply (Qmult_lt_r _ _ _ P). lra.
  - intro L. pose proof (quot_gap' z d a b Hd Hb L) as G. fold q p in G.
    apply (Qmult_lt_r _ _ _ P). lra.
  - intro E. destruct F as [F|F].
    + rewrite (fl_proper _ _ E). now apply fl_exact.
    + exfalso. assert (Eq : (a * d = z * b)%Z).
      { apply inject_eq. rewrite !inject_Z_mult. unfold q, p in E.
        assert (X : inject_Z z / inject_Z d * (inject_Z d * inject_Z b) == inject_Z a / inject_Z b * (inject_Z d * inject_Z b)) by (rewrite E; reflexivity).
        assert (X1 : inject_Z z / inject_Z d * (inject_Z d * inject_Z b) == inject_Z z * inject_Z b) by (field; lra).
        assert (X2 : inject_Z a / inject_Z b * (inject_Z d * inject_Z b) == inject_Z a * inject_Z d) by (field; lra). lra. }
      assert (Z.abs a * d = Z.abs z * b)%Z by (apply (f_equal Z.abs) in Eq; rewrite !Z.abs_mul, (Z.abs_eq d), (Z.abs_eq b) in Eq by lia; exact Eq).
      nia.
Qed.
Lemma div1 q : q / inject_Z 1 == q.
Proof. field. Qed.
Lemma fl_side_int z d k : (0 < d)%Z -> (Z.abs z < 2 ^ 53)%Z -> let q := inject_Z z / inject_Z d in
  (q < inject_Z k -> fl q < inject_Z k) /\ (inject_Z k < q -> inject_Z k < fl q) /\ (q == inject_Z k -> fl q == inject_Z k).
Proof.
  intros Hd Hz q.
  assert (F : is_float (inject_Z k / inject_Z 1) \/ (2 ^ 53 < Z.abs k)%Z).
  { destruct (Z.le_gt_cases (Z.abs k) (2 ^ 53)) as [H|H]; [left|right; lia]. destruct (int_is_float k H) as (m & e & A & B).
    exists m, e. split; [exact A|]. rewrite div1. exact B. }
  pose proof (fl_side z d k 1 Hd ltac:(lia) ltac:(lia) F) as S. cbv zeta in S. fold q in S. rewrite div1 in S. exact S.
Qed.
Lemma half_eq k : inject_Z (2 * k + 1) / inject_Z 2 == inject_Z k + (1 # 2).
Proof. rewrite inject_Z_plus, inject_Z_mult. change (inject_Z 1) with 1. change (inject_Z 2) with 2. field. Qed.
Lemma fl_side_half z d k : (0 < d)%Z -> (Z.abs z < 2 ^ 52)%Z -> let q := inject_Z z / inject_Z d in let p := inject_Z k + (1 # 2) in
  (q < p -> fl q < p) /\ (p < q -> p < fl q) /\ (q == p -> fl q == p).
Proof.
  intros Hd Hz q p.
  assert (F : is_float (inject_Z (2 * k + 1) / inject_Z 2) \/ (2 ^ 53 < Z.abs (2 * k + 1))%Z).
  { destruct (Z.le_gt_cases (Z.abs (2 * k + 1)) (2 ^ 53)) as [H|H]; [left|right; lia]. destruct (half_is_float k H) as (m & e & A & B).
    exists m, e. split; [exact A|]. rewrite half_eq. exact B. }
  pose proof (fl_side z d (2 * k + 1) 2 Hd ltac:(lia) ltac:(lia) F) as S. cbv zeta in S. fold q in S. rewrite half_eq in S. exact S.
Qed.
Lemma abs_half x : (Qabs x <= 1 # 2 <-> - (1 # 2) <= x <= 1 # 2) /\ (Qabs x == 1 # 2 <-> x == 1 # 2 \/ x == - (1 # 2)).
Proof. apply Qabs_case; intro; split; split; intro; lra. Qed.
Lemma rounded_fl1 mode z d n : (0 < d)%Z -> fits mode z -> let q := inject_Z z / inject_Z d in
  rounded mode q n -> rounded mode (fl q) n.
Proof.
  intros Hd Hz q. { destruct mode; unfold rounded, fits in *.
    - apply (fl_side_int z d n Hd Hz).
    - rewrite (proj1 (abs_half (q - inject_Z n))), (proj1 (abs_half (fl q - inject_Z n))), (proj2 (abs_half (q - inject_Z n))), (proj2 (abs_half (fl q - inject_Z n))).
      pose proof (fl_side_half z d n Hd Hz) as (A1 & A2 & A3). pose proof (fl_side_half z d (n - 1) Hd Hz) as (B1 & B2 & B3).
      fold q in A1, A2, A3, B1, B2, B3. rewrite injm1 in B1, B2, B3.
      intros [L E]. destruct L as [L1 L2].
      assert (X1 : inject_Z n + - (1) + (1 # 2) <= fl q).
      { destruct (Qle_lt_or_eq _ _ L1) as [L|L]; [apply Qlt_le_weak; apply B2; lra|]. rewrite B3 by lra. lra. }
      assert (X2 : fl q <= inject_Z n + (1 # 2)).
      { destruct (Qle_lt_or_eq _ _ L2) as [L|L]; [apply Qlt_le_weak; apply A1; lra|]. rewrite A3 by lra. lra. }
      split; [lra|]. intro H. apply E. destruct H as [H|H].
      + left. destruct (Q_dec q (inject_Z n + (1 # 2))) as [[K|K]|K]; [apply A1 in K|apply A2 in K|]; lra.
      + right. destruct (Q_dec q (inject_Z n - 1 + (1 # 2))) as [[K|K]|K]; [apply B1 in K|apply B2 in K|]; lra.
    - intros [L1 L2]. pose proof (fl_side_int z d n Hd Hz) as (A1 & A2 & A3). pose proof (fl_side_int z d (n - 1) Hd Hz) as (B1 & B2 & B3).
      fold q in A1, A2, A3, B1, B2, B3. rewrite injm1 in B1, B2, B3. split; [now apply B2|].
      destruct (Qle_lt_or_eq _ _ L2) as [L|L]; [apply Qlt_le_weak; now apply A1|]. rewrite A3 by exact L. lra.
    - intros [L1 L2]. pose proof (fl_side_int z d n Hd Hz) as (A1 & A2 & A3). pose proof (fl_side_int z d (n + 1) Hd Hz) as (B1 & B2 & B3).
      fold q in A1, A2, A3, B1, B2, B3. rewrite inj1 in B1, B2, B3. split; [|now apply B1].
      destruct (Qle_lt_or_eq _ _ L1) as [L|L]; [apply Qlt_le_weak; now apply A2|]. rewrite A3 by lra. lra.
    - tauto. }
Qed.
Lemma rounded_fl mode z d n : (0 < d)%Z -> fits mode z -> let q := inject_Z z / inject_Z d in
  rounded mode (fl q) n <-> rounded mode q n.
Proof.
  intros Hd Hz q. split; [|now apply rounded_fl1]. intro H. destruct (apply_mode mode q) as [m|x] eqn:E.
  - apply apply_mode_ok in E. pose proof (rounded_fl1 mode z d m Hd Hz E) as R. fold q in R.
    now rewrite (rounded_unique _ _ _ _ H R).
  - destruct mode; try discriminate; [|destruct H]. unfold rounded in *.
    pose proof (fl_side_int z d n Hd Hz) as (A1 & A2 & A3). fold q in A1, A2, A3.
    destruct (Q_dec q (inject_Z n)) as [[K|K]|K]; [apply A1 in K; lra|apply A2 in K; lra|exact K].
Qed.

(** * [_get_sim_steps] *)
Lemma sim_steps_unfold prec x u mode : sim_steps prec x u mode =
  bind (if is_step u then Ok x else bind (log_time_scale u) (fun s => Ok (ldexp10 x (s - prec)))) (fun r => apply_mode mode (val r)).
Proof. reflexivity. Qed.
Lemma sim_steps_step prec x mode : sim_steps prec x (lit "step") mode = apply_mode mode (val x).
Proof. reflexivity. Qed.
Lemma sim_steps_unit prec x u e mode : u <> lit "step" -> unit_exp u e ->
  sim_steps prec x u mode = apply_mode mode (val (ldexp10 x (e - prec))).
Proof.
  intros N U. rewrite sim_steps_unfold. apply is_step_false in N. apply scale_ok in U. rewrite N, U. reflexivity.
Qed.
Lemma step_dec u : u = lit "step" \/ u <> lit "step".
Proof. destruct (is_step u) eqn:E; [left; now apply is_step_iff|right; now apply is_step_false]. Qed.
Lemma answers_eq r mode q q' : q == q' -> r = apply_mode mode q -> answers r mode q'.
Proof. intros E ->. eapply answers_proper; [exact E|]. apply apply_mode_answers. Qed.
Lemma invalid_unit_pf prec x u mode : ~ valid_unit u -> sim_steps prec x u mode = Err ValueError.
Proof.
  intro H. rewrite sim_steps_unfold. destruct (is_step u) eqn:E.
  - exfalso. apply H. left. now apply is_step_iff.
  - rewrite scale_err; [reflexivity|]. intros e U. apply H. right. eauto.
Qed.
Lemma in_steps_exists prec t u : valid_unit u -> exists q, in_steps prec t u q.
Proof.
  intros [H|[e U]].
  - exists t. left. split; [exact H|reflexivity].
  - destruct (step_dec u) as [E|N]; [exists t; left; split; [exact E|reflexivity]|].
    exists (t * 10 ^ (e - prec)). right. split; [exact N|]. exists e. split; [exact U|reflexivity].
Qed.
Lemma frac_pf prec t u mode q : in_steps prec t u q -> answers (sim_steps prec (NFrac t) u mode) mode q.
Proof.
  intros [[-> E]|[N (e & U & E)]].
  - rewrite sim_steps_step. eapply answers_eq; [|reflexivity]. cbn [val]. lra.
  - rewrite (sim_steps_unit _ _ _ _ _ N U). eapply answers_eq; [|reflexivity]. rewrite ldexp10_frac. lra.
Qed.
Lemma int_pf prec z u mode q : in_steps prec (inject_Z z) u q -> fits mode z \/ coarse prec u ->
  answers (sim_steps prec (NInt z) u mode) mode q.
Proof.
  intros [[-> E]|[N (e & U & E)]] C.
  - rewrite sim_steps_step. eapply answers_eq; [|reflexivity]. cbn [val]. lra.
  - rewrite (sim_steps_unit _ _ _ _ _ N U). destruct (Z.lt_ge_cases prec e) as [L|G].
    + eapply answers_eq; [|reflexivity]. rewrite ldexp10_int_up by lia. lra.
    + destruct C as [F|[S|(e' & U' & L)]]; [|contradiction|pose proof (unit_exp_unique _ _ _ U U'); lia].
      assert (A : answers (apply_mode mode (val (ldexp10 (NInt z) (e - prec)))) mode (fl (inject_Z z / inject_Z (10 ^ (- (e - prec)))))).
      { eapply answers_eq; [|reflexivity]. rewrite ldexp10_int_down by lia. apply fl_proper. symmetry. apply p10_opp. lia. }
      assert (D : (0 < 10 ^ (- (e - prec)))%Z) by (apply Z.pow_pos_nonneg; lia).
      assert (Q : q == inject_Z z / inject_Z (10 ^ (- (e - prec)))) by (rewrite E, p10_opp by lia; reflexivity).
      destruct A as [A1 A2]. split.
      * intro n. rewrite (A1 n), (rounded_fl mode z _ n D F). split; apply rounded_proper; lra.
      * rewrite A2. unfold unroundable. split; intros H n R; apply (H n).
        -- apply (rounded_fl mode z _ n D F). revert R. apply rounded_proper. exact Q.
        -- apply (rounded_fl mode z _ n D F) in R. revert R. apply rounded_proper. symmetry. exact Q.
Qed.
Lemma near_fl q : near (fl q) q.
Proof. apply fl_error. Qed.
Lemma near_proper x y q r : x == y -> q == r -> near x q -> near y r.
Proof. unfold near. intros E F H. rewrite <- E, <- F. exact H. Qed.
Lemma near_refl q r : q == r -> near q r.
Proof.
  intro E. unfold near. setoid_replace (q - r) with 0 by lra. change (Qabs 0) with 0. pose proof (Qabs_nonneg r). lra.
Qed.
Lemma is_float_proper q r : q == r -> is_float q -> is_float r.
Proof. intros E (m & e & B & H). exists m, e. split; [exact B|]. lra. Qed.
Lemma float_pf prec t u mode q : close prec u -> in_steps prec t u q ->
  exists r, near r q /\ (is_float q -> r == q) /\ answers (sim_steps prec (NFloat t) u mode) mode r.
Proof.
  intros C [[-> E]|[N (e & U & E)]].
  - exists t. split; [apply near_refl; lra|]. split; [intro; lra|]. rewrite sim_steps_step. apply apply_mode_answers.
  - exists (fl (t * 10 ^ (e - prec))). split; [|split].
    + eapply near_proper; [reflexivity|symmetry; exact E|]. apply near_fl.
    + intro F. rewrite E. apply fl_exact. eapply is_float_proper; [exact E|exact F].
    + rewrite (sim_steps_unit _ _ _ _ _ N U). eapply answers_eq; [|reflexivity]. apply ldexp10_float. specialize (C e U). lia.
Qed.
(** With any precision and any type, the result is monotone. *)
Lemma mono_pf prec a b u mode n m : same_type a b = true -> val a <= val b ->
  sim_steps prec a u mode = Ok n -> sim_steps prec b u mode = Ok m -> (n <= m)%Z.
Proof.
  intros T L A B. rewrite sim_steps_unfold in A, B.
  assert (X : exists x y, val x <= val y /\ apply_mode mode (val x) = Ok n /\ apply_mode mode (val y) = Ok m).
  { destruct (is_step u); [exists a, b; tauto|]. destruct (log_time_scale u) as [s|]; [|discriminate].
    exists (ldexp10 a (s - prec)), (ldexp10 b (s - prec)). split; [now apply ldexp10_mono|]. split; assumption. }
  destruct X as (x & y & L' & A' & B'). apply apply_mode_ok in A', B'. eapply rounded_mono; eassumption.
Qed.

(** * Steps to units and back *)
Lemma exactly_int mode q n : mode <> RInvalid -> q == inject_Z n -> apply_mode mode q = Ok n.
Proof.
  intros M E. apply (proj1 (apply_mode_answers mode q)). destruct mode; unfold rounded; try lra; [|congruence].
  setoid_replace (q - inject_Z n) with 0 by lra. split; [vm_compute; discriminate|]. intro H. vm_compute in H. discriminate.
Qed.
Lemma near_bounds x q : near x q -> let d := Qabs q in - d <= (x - q) * inject_Z (2 ^ 53) <= d.
Proof.
  unfold near. intro H. change (inject_Z (2 ^ 53)) with 9007199254740992 in *. cbv zeta.
  assert (- Qabs (x - q) <= x - q <= Qabs (x - q)) by (apply Qabs_case; intros; lra). lra.
Qed.
Lemma abs_mult_pos q d : 0 < d -> Qabs (q * d) == Qabs q * d.
Proof. intro H. rewrite Qabs_Qmult. rewrite (Qabs_pos d) by lra. reflexivity. Qed.
Lemma back_near n d : (Z.abs n < 2 ^ 51)%Z -> 0 < d ->
  let y := fl (inject_Z n / d) * d in - (1 # 2) < fl y - inject_Z n < 1 # 2.
Proof.
  intros Hn Hd y. pose proof (near_bounds _ _ (near_fl (inject_Z n / d))) as A. cbv zeta in A.
  pose proof (near_bounds _ _ (near_fl y)) as B. cbv zeta in B.
  set (x := fl (inject_Z n / d)) in *. set (q := inject_Z n / d) in *.
  assert (Q : q * d == inject_Z n) by (unfold q; field; lra).
  assert (Aq : Qabs q * d == Qabs (inject_Z n)) by (rewrite <- abs_mult_pos, Q by exact Hd; reflexivity).
  assert (N : 0 <= Qabs (inject_Z n) <= 2251799813685247).
  { split; [apply Qabs_nonneg|]. change (Qabs (inject_Z n)) with (inject_Z (Z.abs n)). change 2251799813685247 with (inject_Z (2 ^ 51 - 1)). apply inject_le. lia. }
  change (inject_Z (2 ^ 53)) with 9007199254740992 in *.
  assert (A1 : - (Qabs q) * d <= (x - q) * 9007199254740992 * d) by (apply Qmult_le_compat_r; lra).
  assert (A2 : (x - q) * 9007199254740992 * d <= Qabs q * d) by (apply Qmult_le_compat_r; lra).
  assert (Y : (x - q) * 9007199254740992 * d == (y - inject_Z n) * 9007199254740992) by (unfold y; rewrite <- Q; ring).
  set (a := Qabs (inject_Z n)) in *.
  assert (C : - a <= (y - inject_Z n) * 9007199254740992 <= a) by lra.
  assert (B1 : Qabs y <= a + (1 # 4)).
  { apply Qle_trans with (a + Qabs (y - inject_Z n)).
    - unfold a. apply Qle_trans with (Qabs (inject_Z n + (y - inject_Z n))); [|apply Qabs_triangle].
      assert (E : y == inject_Z n + (y - inject_Z n)) by ring. rewrite <- E. apply Qle_refl.
    - assert (Qabs (y - inject_Z n) <= 1 # 4) by (apply Qabs_case; intros; lra). lra. }
  lra.
Qed.
Lemma roundtrip_pf prec n u t : (Z.abs n < 2 ^ 51)%Z -> close prec u ->
  time_from_sim_steps prec (NInt n) u = Ok t -> sim_steps prec t u RRound = Ok n.
Proof.
  intros Hn C. unfold time_from_sim_steps. destruct (is_step u) eqn:S.
  - intro H. injection H as <-. apply is_step_iff in S. subst u. rewrite sim_steps_step. apply exactly_int; [discriminate|reflexivity].
  - destruct (log_time_scale u) as [e|] eqn:E; [|discriminate]. cbn [bind]. intro H. injection H as <-.
    apply scale_ok in E. apply is_step_false in S. rewrite (sim_steps_unit _ _ _ _ _ S E). specialize (C e E).
    unfold ldexp10 at 2. destruct (Z.ltb_spec 0 (prec - e)) as [L|L].
    + apply exactly_int; [discriminate|]. rewrite ldexp10_int_down by lia. rewrite inject_Z_mult, p10_Z by lia.
      assert (X : inject_Z n * 10 ^ (prec - e) * 10 ^ (e - prec) == inject_Z n).
      { replace (e - prec)%Z with (- (prec - e))%Z by lia. rewrite Qpower_opp. pose proof (p10_pos (prec - e)). field. lra. }
      rewrite (fl_proper _ _ X). apply fl_exact. apply int_is_float. lia.
    + set (d := inject_Z (10 ^ (- (prec - e)))). assert (D : 0 < d) by (unfold d; rewrite p10_Z by lia; apply p10_pos).
      pose proof (back_near n d Hn D) as B. cbv zeta in B.
      assert (X : val (ldexp10 (NFloat (fl (inject_Z n / d))) (e - prec)) == fl (fl (inject_Z n / d) * d)).
      { rewrite ldexp10_float by lia. apply fl_proper. unfold d. rewrite p10_Z by lia. replace (- (prec - e))%Z with (e - prec)%Z by lia. reflexivity. }
      apply (proj1 (apply_mode_answers RRound _)). unfold rounded. rewrite X.
      assert (Y : Qabs (fl (fl (inject_Z n / d) * d) - inject_Z n) < 1 # 2) by (apply Qabs_case; intros; lra).
      split; [lra|]. intro K. lra.
Qed.
(** A step not shorter than the unit: exact in every mode. *)
Lemma roundtrip_coarse_pf prec n u e t mode : (Z.abs n <= 2 ^ 53)%Z -> unit_exp u e -> (e <= prec)%Z -> u <> lit "step" -> mode <> RInvalid ->
  time_from_sim_steps prec (NInt n) u = Ok t -> sim_steps prec t u mode = Ok n.
Proof.
  intros Hn U L S M. unfold time_from_sim_steps. pose proof S as S'. apply is_step_false in S'. rewrite S'. pose proof U as U'. apply scale_ok in U'. rewrite U'.
  cbn [bind]. intro H. injection H as <-. rewrite (sim_steps_unit _ _ _ _ _ S U). apply exactly_int; [exact M|].
  unfold ldexp10 at 2. destruct (Z.ltb_spec 0 (prec - e)) as [G|G].
  - rewrite ldexp10_int_down by lia. rewrite inject_Z_mult, p10_Z by lia.
    assert (X : inject_Z n * 10 ^ (prec - e) * 10 ^ (e - prec) == inject_Z n).
    { replace (e - prec)%Z with (- (prec - e))%Z by lia. rewrite Qpower_opp. pose proof (p10_pos (prec - e)). field. lra. }
    rewrite (fl_proper _ _ X). apply fl_exact. apply int_is_float. lia.
  - replace (prec - e)%Z with 0%Z by lia. rewrite ldexp10_float by lia. replace (e - prec)%Z with 0%Z by lia. change (10 ^ 0) with 1. change (inject_Z (10 ^ (- 0))) with 1.
    assert (X : fl (inject_Z n / 1) == inject_Z n).
    { rewrite fl_exact; [field|]. eapply is_float_proper; [|exact (int_is_float n Hn)]. field. }
    assert (Y : fl (inject_Z n / 1) * 1 == inject_Z n) by (rewrite X; ring). rewrite (fl_proper _ _ Y). apply fl_exact. now apply int_is_float.
Qed.

(** * Steps in a unit *)
Lemma from_steps_pf prec n u e : u <> lit "step" -> unit_exp u e ->
  exists t, time_from_sim_steps prec (NInt n) u = Ok t /\ let q := inject_Z n * 10 ^ (prec - e) in
    near (val t) q /\ (is_float q \/ (e < prec)%Z -> val t == q).
Proof.
  intros S U. unfold time_from_sim_steps. apply is_step_false in S. rewrite S. pose proof U as U'. apply scale_ok in U'. rewrite U'.
  cbn [bind]. eexists. split; [reflexivity|]. cbv zeta. destruct (Z.lt_ge_cases e prec) as [L|G].
  - assert (X : val (ldexp10 (NInt n) (prec - e)) == inject_Z n * 10 ^ (prec - e)) by (apply ldexp10_int_up; lia).
    split; [now apply near_refl|intro; exact X].
  - assert (X : val (ldexp10 (NInt n) (prec - e)) == fl (inject_Z n * 10 ^ (prec - e))) by (apply ldexp10_int_down; lia).
    split.
    + eapply near_proper; [symmetry; exact X|reflexivity|apply near_fl].
    + intros [F|F]; [|lia]. rewrite X. now apply fl_exact.
Qed.
Lemma convert_pf prec x u to mode : u <> lit "step" ->
  convert prec x u to mode =
  match sim_steps prec x u mode with
  | Ok n => if pystr_eqb to (lit "step") then Ok (NInt n) else time_from_sim_steps prec (NInt n) to
  | Err e => Err e
  end.
Proof.
  intro S. unfold convert. apply is_step_false in S. rewrite S. destruct (sim_steps prec x u mode); reflexivity.
Qed.

(** * [get_sim_time] *)
Lemma halves h l : (0 <= l < 2 ^ 32)%Z -> Z.lor (Z.shiftl h 32) l = (h * 2 ^ 32 + l)%Z.
Proof.
  intro H. rewrite <- Z.shiftl_mul_pow2 by lia. rewrite <- Z.lxor_lor, <- Z.add_nocarry_lxor; [reflexivity| |].
  all: apply Z.bits_inj'; intros i Hi; rewrite Z.land_spec, Z.bits_0;
    destruct (Z.lt_ge_cases i 32); [rewrite Z.shiftl_spec_low by lia; reflexivity|];
    rewrite Bool.andb_comm; replace (Z.testbit l i) with false; [reflexivity|];
    symmetry; rewrite <- (Z.mod_small l (2 ^ 32)) by lia; apply Z.mod_pow2_bits_high; lia.
Qed.
Lemma now_step_pf prec h l : (0 <= l < 2 ^ 32)%Z -> get_sim_time prec h l (lit "step") = Ok (NInt (h * 2 ^ 32 + l)).
Proof. intro H. unfold get_sim_time. rewrite halves by exact H. reflexivity. Qed.
Lemma now_unit_pf prec h l u e : (0 <= l < 2 ^ 32)%Z -> u <> lit "step" -> unit_exp u e ->
  exists t, get_sim_time prec h l u = Ok t /\ let q := inject_Z (h * 2 ^ 32 + l) * 10 ^ (prec - e) in
    near (val t) q /\ (is_float q \/ (e < prec)%Z -> val t == q).
Proof.
  intros H S U. unfold get_sim_time. rewrite halves by exact H. pose proof S as S'. apply is_step_false in S'. rewrite S'. cbn [negb].
  now apply from_steps_pf.
Qed.
Lemma now_mono_pf prec h l h' l' u t t' : (0 <= l < 2 ^ 32)%Z -> (0 <= l' < 2 ^ 32)%Z -> (h * 2 ^ 32 + l <= h' * 2 ^ 32 + l')%Z ->
  get_sim_time prec h l u = Ok t -> get_sim_time prec h' l' u = Ok t' -> val t <= val t'.
Proof.
  intros H H' L. unfold get_sim_time. rewrite !halves by assumption. destruct (is_step u) eqn:S; cbn [negb].
  - intros A B. injection A as <-. injection B as <-. cbn [val]. now apply inject_le.
  - unfold time_from_sim_steps. rewrite S. destruct (log_time_scale u); [|discriminate]. cbn [bind].
    intros A B. injection A as <-. injection B as <-. apply ldexp10_mono; [reflexivity|]. cbn [val]. now apply inject_le.
Qed.
Lemma now_invalid_pf prec h l u : ~ valid_unit u -> get_sim_time prec h l u = Err ValueError.
Proof.
  intro H. unfold get_sim_time, time_from_sim_steps. destruct (is_step u) eqn:S.
  - exfalso. apply H. left. now apply is_step_iff.
  - cbn [negb]. rewrite scale_err; [reflexivity|]. intros e U. apply H. right. eauto.
Qed.

(** * [Timer] *)
Lemma sign_mode q mode n : 0 <= q -> apply_mode mode q = Ok n -> (0 <= n)%Z.
Proof.
  intros H E. apply apply_mode_ok in E. destruct (Z.le_gt_cases 0 n) as [|G]; [assumption|exfalso].
  assert (L : inject_Z n <= - (1)) by (change (- (1)) with (inject_Z (-1)); apply inject_le; lia).
  destruct mode; unfold rounded in E; try lra; try tauto. destruct E as [E _]. revert E. apply Qabs_case; intros; lra.
Qed.
Lemma ldexp10_sign x e : 0 <= val x -> 0 <= val (ldexp10 x e).
Proof.
  intro H. destruct x as [z|q|q].
  - apply Qle_trans with (val (ldexp10 (NInt 0) e)); [|now apply ldexp10_mono].
    unfold ldexp10. destruct (Z.ltb_spec 0 e); cbn [val]; [rewrite Z.mul_0_l; apply Qle_refl|].
    apply fl_sign. apply Qmult_le_0_compat; [apply Qle_refl|]. apply Qinv_le_0_compat. rewrite p10_Z by lia. pose proof (p10_pos (- e)). lra.
  - unfold ldexp10. destruct (Z.ltb_spec 0 e); cbn [val] in *; apply fl_sign; apply Qmult_le_0_compat; try exact H.
    + apply fl_sign. rewrite p10_Z by lia. pose proof (p10_pos e). lra.
    + apply Qinv_le_0_compat, fl_sign. rewrite p10_Z by lia. pose proof (p10_pos (- e)). lra.
  - rewrite ldexp10_frac. cbn [val] in H. apply Qmult_le_0_compat; [exact H|]. pose proof (p10_pos e). lra.
Qed.
Lemma sim_steps_sign prec x u mode n : 0 <= val x -> sim_steps prec x u mode = Ok n -> (0 <= n)%Z.
Proof.
  intros H. rewrite sim_steps_unfold. destruct (is_step u); [cbn [bind]; now apply sign_mode|].
  destruct (log_time_scale u); [|discriminate]. cbn [bind]. apply sign_mode. now apply ldexp10_sign.
Qed.
Lemma timer_pf prec x u mode :
  (val x <= 0 -> timer prec x u mode = Err ValueError) /\
  (0 < val x -> match sim_steps prec x u mode with
                | Ok n => timer prec x u mode = Ok (Z.max 1 n)
                | Err _ => timer prec x u mode = Err ValueError
                end) /\
  (forall n, timer prec x u mode = Ok n -> 0 < val x /\ (1 <= n)%Z).
Proof.
  unfold timer. destruct (Qle_bool (val x) 0) eqn:E.
  - apply Qle_bool_iff in E. repeat split; intros; try lra; try discriminate.
  - assert (L : 0 < val x) by (apply Qnot_le_lt; intro C; apply Qle_bool_iff in C; congruence).
    assert (X : forall n, sim_steps prec x u mode = Ok n -> (if (n =? 0)%Z then 1%Z else n) = Z.max 1 n).
    { intros n H. apply sim_steps_sign in H; [|lra]. destruct (Z.eqb_spec n 0); lia. }
    split; [intro; lra|]. split.
    + intros _. destruct (sim_steps prec x u mode) as [n|e] eqn:S.
      * cbn [bind]. now rewrite (X n eq_refl).
      * cbn [bind]. f_equal. rewrite sim_steps_unfold in S. destruct (is_step u).
        -- cbn [bind] in S. destruct mode; unfold apply_mode in S; try discriminate; [destruct (Qeq_bool _ _); [discriminate|]|]; congruence.
        -- unfold log_time_scale in S. destruct (dict_get _ _); cbn [bind] in S; [|congruence].
           destruct mode; unfold apply_mode in S; try discriminate; [destruct (Qeq_bool _ _); [discriminate|]|]; congruence.
    + intros n H. split; [exact L|]. destruct (sim_steps prec x u mode) as [m|] eqn:S; [|discriminate]. cbn [bind] in H. rewrite (X m eq_refl) in H. injection H as <-. lia.
Qed.

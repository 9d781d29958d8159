(** Proofs about LogicArray: the cached representations refine a plain list of values. *)
From Coq Require Import String.
From Verif Require Import Base RangeModel RangeSpec RangeProofs ArrayModel ArraySpec ArrayProofs
  LogicModel LogicSpec LogicProofs LogicArrayModel LogicArrayMachine LogicArraySpec.
Open Scope Z_scope.
Ltac Zify.zify_post_hook ::= Z.to_euclidean_division_equations.

(** * Characters *)
Lemma chr_inj a b : logic_chr a = logic_chr b -> a = b.
Proof. destruct a, b; intro H; try reflexivity; discriminate H. Qed.

Lemma map_chr_inj v w : map logic_chr v = map logic_chr w -> v = w.
Proof.
  revert w; induction v as [|a v IH]; intros [|b w]; cbn [map]; intro H; try discriminate H; auto.
  injection H as H1 H2. apply chr_inj in H1. apply IH in H2. congruence.
Qed.

Lemma new_chr l : logic_new CLogic (LvStr [logic_chr l]) = Ok l.
Proof. destruct l; reflexivity. Qed.

Lemma logics_of_chars v : logics_of_str (map logic_chr v) = Ok v.
Proof.
  unfold logics_of_str. induction v as [|a v IH]; [reflexivity|].
  cbn [map map_result]. rewrite new_chr, IH. reflexivity.
Qed.

Lemma map_result_logic vs : map_result (logic_new CLogic) (map LvLogic vs) = Ok vs.
Proof.
  induction vs as [|a vs IH]; [reflexivity|]. cbn [map map_result logic_new literal_repr bind in_values].
  rewrite IH. reflexivity.
Qed.

Lemma char_case c :
  (exists l, logic_new CLogic (LvStr [c]) = Ok l /\ upper_char c = logic_chr l /\
             is_literal_char (upper_char c) = true) \/
  (logic_new CLogic (LvStr [c]) = Err ValueError /\ is_literal_char (upper_char c) = false).
Proof.
  assert (K : In c [85;117;88;120;48;49;90;122;87;119;76;108;72;104;45] \/
              ~ In c [85;117;88;120;48;49;90;122;87;119;76;108;72;104;45]).
  { destruct (in_dec Z.eq_dec c [85;117;88;120;48;49;90;122;87;119;76;108;72;104;45]); auto. }
  destruct K as [K|K].
  - left. cbn [In] in K.
    repeat (destruct K as [<-|K]; [eexists; repeat split; reflexivity|]). destruct K.
  - right. cbn [In] in K. split.
    + unfold logic_new, literal_repr.
      let t := eval vm_compute in literal_table in change literal_table with t.
      cbn [assoc_str pystr_eqb].
      repeat match goal with
      | |- context [?k =? c] => destruct (Z.eqb_spec k c); [exfalso; apply K; lia|]
      end.
      reflexivity.
    + unfold is_literal_char, upper_char.
      change logic_chars with [85;88;48;49;90;87;76;72;45]. cbn [existsb].
      destruct ((97 <=? c) && (c <=? 122)) eqn:E; lia.
Qed.

Lemma str_case s :
  (exists v, map_result (fun c => logic_new CLogic (LvStr [c])) s = Ok v /\
             upper s = map logic_chr v /\ forallb is_literal_char (upper s) = true) \/
  (map_result (fun c => logic_new CLogic (LvStr [c])) s = Err ValueError /\
   forallb is_literal_char (upper s) = false).
Proof.
  induction s as [|c s IH]; [left; exists []; auto|].
  cbn [map_result upper map forallb]. fold (upper s).
  destruct (char_case c) as [(l & E1 & E2 & E3)|(E1 & E3)]; rewrite E1, E3; cbn [bind andb].
  - destruct IH as [(v & F1 & F2 & F3)|(F1 & F3)]; rewrite F1, F3; cbn [bind].
    + left. exists (l :: v). cbn [map]. rewrite E2, F2. auto.
    + right; auto.
  - right; auto.
Qed.

Lemma literal_chars s : Forall (fun c => In c (lit "UX01ZWLH-")) s -> exists v, s = map logic_chr v.
Proof.
  induction 1 as [|c s Hc _ [v ->]]; [exists []; reflexivity|].
  assert (exists l, c = logic_chr l) as [l ->].
  { cbn [In lit] in Hc.
    repeat (destruct Hc as [<-|Hc]; [first [now exists LU|now exists LX|now exists L0|now exists L1
      |now exists LZ|now exists LW|now exists LL|now exists LH|now exists LD]|]). destruct Hc. }
  exists (l :: v). reflexivity.
Qed.

(** * Bits and integers *)
Lemma unsigned_acc v : forall acc,
  fold_left (fun a l => 2 * a + bitval l) v acc = acc * 2 ^ Z.of_nat (length v) + unsigned v.
Proof.
  unfold unsigned. induction v as [|l v IH]; intro acc; cbn [fold_left length].
  - change (Z.of_nat 0) with 0. lia.
  - rewrite (IH (2 * acc + bitval l)), (IH (2 * 0 + bitval l)).
    rewrite Nat2Z.inj_succ, Z.pow_succ_r by lia. ring.
Qed.

Lemma unsigned_cons l v : unsigned (l :: v) = bitval l * 2 ^ Z.of_nat (length v) + unsigned v.
Proof. unfold unsigned at 1. cbn [fold_left]. rewrite unsigned_acc. ring. Qed.

Lemma bitval_range l : 0 <= bitval l <= 1.
Proof. destruct l; cbn; lia. Qed.

Lemma unsigned_range v : 0 <= unsigned v < 2 ^ Z.of_nat (length v).
Proof.
  induction v as [|l v IH]; [cbn; lia|]. rewrite unsigned_cons. cbn [length].
  rewrite Nat2Z.inj_succ, Z.pow_succ_r by lia. pose proof (bitval_range l). nia.
Qed.

Lemma bits_length n z : length (bits n z) = n.
Proof. induction n; cbn; auto. Qed.

Lemma bits_strong n z : strong (bits n z) = true.
Proof.
  induction n as [|n IH]; [reflexivity|]. cbn [bits strong forallb]. fold (strong (bits n z)). rewrite IH.
  destruct (Z.testbit z (Z.of_nat n)); reflexivity.
Qed.

Lemma bits_ext n y z : (forall i, 0 <= i < Z.of_nat n -> Z.testbit y i = Z.testbit z i) ->
  bits n y = bits n z.
Proof.
  induction n as [|n IH]; intro H; [reflexivity|]. cbn [bits]. rewrite (H (Z.of_nat n)) by lia.
  f_equal. apply IH. intros i Hi. apply H. lia.
Qed.

Lemma bits_mod n z : bits n (z mod 2 ^ Z.of_nat n) = bits n z.
Proof. apply bits_ext. intros i Hi. apply Z.mod_pow2_bits_low. lia. Qed.

Lemma bits_add_pow n z k : Z.of_nat n <= k -> bits n (z + 2 ^ k) = bits n z.
Proof.
  intro Hk. rewrite <- (bits_mod n (z + 2 ^ k)), <- (bits_mod n z). f_equal.
  replace k with (Z.of_nat n + (k - Z.of_nat n)) by lia. rewrite Z.pow_add_r by lia.
  rewrite Z.add_comm, Z.mul_comm. rewrite Z.add_comm. apply Z_mod_plus_full.
Qed.

Lemma bitval_of_bool b : bitval (of_bool b) = Z.b2z b.
Proof. destruct b; reflexivity. Qed.

Lemma unsigned_bits n z : unsigned (bits n z) = z mod 2 ^ Z.of_nat n.
Proof.
  induction n as [|n IH].
  - cbn [bits]. change (Z.of_nat 0) with 0. rewrite Z.pow_0_r, Z.mod_1_r. reflexivity.
  - cbn [bits]. rewrite unsigned_cons, bits_length, IH, bitval_of_bool.
    rewrite Z.testbit_spec' by lia.
    rewrite Nat2Z.inj_succ, Z.pow_succ_r by lia.
    assert (P : 0 < 2 ^ Z.of_nat n) by (apply Z.pow_pos_nonneg; lia).
    rewrite (Z.mul_comm 2), Z.rem_mul_r by lia. ring.
Qed.

Lemma testbit_unsigned_top l v : Z.testbit (unsigned (l :: v)) (Z.of_nat (length v)) =
  match bool_of l with Some true => true | _ => false end.
Proof.
  rewrite unsigned_cons. pose proof (unsigned_range v) as R.
  rewrite Z.testbit_eqb by lia.
  rewrite Z.div_add_l by lia. rewrite Z.div_small by lia. rewrite Z.add_0_r.
  unfold bitval. destruct (bool_of l) as [[|]|]; reflexivity.
Qed.

Lemma bits_unsigned v : strong v = true -> bits (length v) (unsigned v) = v.
Proof.
  induction v as [|l v IH]; intro H; [reflexivity|].
  cbn [strong forallb] in H. apply andb_true_iff in H. destruct H as [Hl Hv].
  cbn [length bits]. rewrite testbit_unsigned_top. f_equal.
  - destruct l; try discriminate Hl; reflexivity.
  - transitivity (bits (length v) (unsigned v)); [|exact (IH Hv)].
    rewrite <- (bits_mod (length v) (unsigned (l :: v))), <- (bits_mod (length v) (unsigned v)).
    rewrite unsigned_cons. f_equal. rewrite Z.add_comm. apply Z.mod_add, Z.pow_nonzero; lia.
Qed.

Lemma strong_definite v : strong v = true -> definite v = true.
Proof.
  unfold strong, definite. rewrite !forallb_forall. intros H x Hx. specialize (H x Hx).
  destruct x; try discriminate; reflexivity.
Qed.

Lemma strong_inj v w : strong v = true -> strong w = true -> length v = length w ->
  unsigned v = unsigned w -> v = w.
Proof. intros Hv Hw Hl He. rewrite <- (bits_unsigned v Hv), <- (bits_unsigned w Hw). congruence. Qed.

(** * Binary formatting *)
Fixpoint lsb (n : nat) (k : Z) : list Z :=
  match n with O => [] | S n' => k mod 2 :: lsb n' (k / 2) end.

Lemma lsb_zero n : lsb n 0 = repeat 0 n.
Proof. induction n as [|n IH]; [reflexivity|]. cbn [lsb repeat]. rewrite Z.mod_0_l, Z.div_0_l by lia. congruence. Qed.

Lemma lsb_snoc n : forall k, lsb (S n) k = lsb n k ++ [Z.b2z (Z.testbit k (Z.of_nat n))].
Proof.
  induction n as [|n IH]; intro k.
  - cbn [lsb app]. change (Z.of_nat 0) with 0. rewrite <- Z.bit0_mod. reflexivity.
  - cbn [lsb] in IH |- *. rewrite (IH (k / 2)). cbn [app]. do 3 f_equal.
    rewrite Nat2Z.inj_succ, Z.div2_bits by lia. reflexivity.
Qed.

Lemma lsb_bits n k : lsb n k = rev (map bitval (bits n k)).
Proof.
  induction n as [|n IH]; [reflexivity|]. rewrite lsb_snoc, IH. cbn [bits map rev].
  rewrite bitval_of_bool. reflexivity.
Qed.

Lemma rev_digits_lsb f : forall n k, 0 <= k < 2 ^ Z.of_nat f -> (1 <= f)%nat -> (1 <= n)%nat ->
  k < 2 ^ Z.of_nat n ->
  (length (rev_digits f 2 k) <= n)%nat /\
  rev_digits f 2 k ++ repeat 0 (n - length (rev_digits f 2 k)) = lsb n k.
Proof.
  induction f as [|f IH]; intros n k Hk Hf Hn Hkn; [lia|].
  destruct n as [|n]; [lia|]. cbn [rev_digits lsb].
  destruct (Z.ltb_spec k 2).
  - cbn [length app]. split; [lia|]. rewrite Z.mod_small by lia. rewrite Z.div_small by lia.
    rewrite lsb_zero. f_equal. f_equal. lia.
  - rewrite Nat2Z.inj_succ, Z.pow_succ_r in Hk, Hkn by lia.
    assert (f <> 0)%nat. { intros ->. change (Z.of_nat 0) with 0 in Hk. lia. }
    assert (n <> 0)%nat. { intros ->. change (Z.of_nat 0) with 0 in Hkn. lia. }
    destruct (IH n (k / 2)) as [A B]; try lia.
    cbn [length app]. split; [lia|]. f_equal. exact B.
Qed.

Lemma digits_of_fuel k : 0 <= k -> k < 2 ^ Z.of_nat (S (Z.to_nat (Z.log2 k))).
Proof.
  intro H. rewrite Nat2Z.inj_succ. rewrite Z2Nat.id by apply Z.log2_nonneg.
  destruct (Z.eq_dec k 0) as [->|]; [reflexivity|]. apply Z.log2_spec. lia.
Qed.

Lemma chr_of_bit l : strong [l] = true -> 48 + bitval l = logic_chr l.
Proof. destruct l; intro H; try discriminate H; reflexivity. Qed.

Lemma chr_of_bits v : strong v = true -> map (fun d => 48 + d) (map bitval v) = map logic_chr v.
Proof.
  induction v as [|l v IH]; intro H; [reflexivity|].
  cbn [strong forallb] in H. apply andb_true_iff in H. destruct H as [Hl Hv].
  cbn [map]. rewrite (IH Hv), chr_of_bit; [reflexivity|]. cbn. now rewrite Hl.
Qed.

Lemma rev_digits_lt f : forall k, 0 <= k -> Forall (fun d => 0 <= d < 2) (rev_digits f 2 k).
Proof.
  induction f as [|f IH]; intros k Hk; cbn [rev_digits]; [constructor|].
  destruct (Z.ltb_spec k 2); (constructor; [lia|]); [constructor|apply IH; lia].
Qed.

Lemma repeat_48 m : repeat 48 m = map (fun d => 48 + d) (repeat 0 m).
Proof. induction m as [|m IH]; [reflexivity|]. cbn [repeat map]. now rewrite IH. Qed.

Lemma format_bits k n : 0 <= k < 2 ^ n -> 1 <= n ->
  py_format_int k false n None FBin = Ok (map logic_chr (bits (Z.to_nat n) k)).
Proof.
  intros Hk Hn. unfold py_format_int.
  destruct (Z.ltb_spec k 0); [lia|]. cbn [app fmt_base fmt_group grouped length py_len].
  rewrite Z.abs_eq by lia. f_equal. unfold digits_of.
  destruct (rev_digits_lsb (S (Z.to_nat (Z.log2 k))) (Z.to_nat n) k) as [A B]; try lia.
  { split; [lia|apply digits_of_fuel; lia]. } { rewrite Z2Nat.id by lia. lia. }
  set (ds := rev_digits _ 2 k) in *.
  assert (E : map (digit_chr FBin) ds = map (fun d => 48 + d) ds).
  { apply map_ext_in. intros d Hd.
    assert (F : Forall (fun d => 0 <= d < 2) ds) by (apply rev_digits_lt; lia).
    rewrite Forall_forall in F. specialize (F d Hd). unfold digit_chr.
    destruct (Z.ltb_spec d 10); lia. }
  rewrite E.
  replace (Z.to_nat (n - py_len (@nil Z) - py_len (@nil Z) - py_len (map (fun d => 48 + d) ds)))
    with (Z.to_nat n - length ds)%nat
    by (unfold py_len; rewrite map_length; cbn [length]; lia).
  rewrite repeat_48.
  rewrite <- map_app, B, lsb_bits, map_rev, rev_involutive.
  apply chr_of_bits, bits_strong.
Qed.

(** * Integer parsing *)
Definition lh (l : logic) : logic := match l with LL => L0 | LH => L1 | _ => l end.
Lemma resolve_lh_chars v : resolve_lh (map logic_chr v) = map logic_chr (map lh v).
Proof. unfold resolve_lh. rewrite !map_map. apply map_ext. intros []; reflexivity. Qed.

Lemma int2_digits_chars v : forall acc, int2_digits acc (map logic_chr (map lh v)) =
  if definite v then Ok (acc * 2 ^ Z.of_nat (length v) + unsigned v) else Err ValueError.
Proof.
  induction v as [|l v IH]; intro acc.
  - cbn [map int2_digits definite forallb length]. change (Z.of_nat 0) with 0.
    f_equal. unfold unsigned. cbn [fold_left]. lia.
  - cbn [map int2_digits definite forallb]. fold (definite v).
    rewrite unsigned_cons. cbn [length]. rewrite Nat2Z.inj_succ, Z.pow_succ_r by lia.
    destruct l; cbn [lh logic_chr logic_repr nth logic_chars lit bool_of];
      try reflexivity;
      match goal with |- context [?x =? 48] => change (x =? 48) with true || change (x =? 48) with false end;
      try match goal with |- context [?x =? 49] => change (x =? 49) with true || change (x =? 49) with false end;
      cbn [andb]; try reflexivity; rewrite IH; destruct (definite v); auto; f_equal; cbn [bitval bool_of]; ring.
Qed.

Lemma py_int2_chars v : py_int2 (map logic_chr (map lh v)) =
  match s_int0 v with Some k => Ok k | None => Err ValueError end.
Proof.
  destruct v as [|l v]; [reflexivity|].
  assert (D : forall w, int2_digits 0 (map logic_chr (map lh w)) =
    if definite w then Ok (unsigned w) else Err ValueError).
  { intro w. rewrite int2_digits_chars. destruct (definite w); auto; f_equal; ring. }
  assert (N : l <> LD -> py_int2 (map logic_chr (map lh (l :: v))) =
              int2_digits 0 (map logic_chr (map lh (l :: v)))).
  { intro H. destruct l; try reflexivity. congruence. }
  destruct (Bool.bool_dec (match l with LD => true | _ => false end) true) as [E|E].
  - destruct l; try discriminate E. clear E N. destruct v as [|m v]; [reflexivity|].
    change (py_int2 (map logic_chr (map lh (LD :: m :: v)))) with
      (bind (int2_digits 0 (map logic_chr (map lh (m :: v)))) (fun v => Ok (- v))).
    rewrite D. cbn [s_int0]. destruct (definite (m :: v)); reflexivity.
  - rewrite N, D by (destruct l; congruence). destruct l; try congruence; cbn [s_int0];
      destruct (definite _); reflexivity.
Qed.

Lemma resolve_chars r v : forall rnd,
  resolve_str r rnd (map logic_chr v) = map logic_chr (s_resolve r rnd v).
Proof.
  destruct r; cbn [resolve_str].
  5: { induction v as [|l v IH]; intro rnd; [reflexivity|].
       cbn [map random_str s_resolve resolve_str]. rewrite IH. f_equal.
       destruct l; destruct (rnd O); reflexivity. }
  all: induction v as [|l v IH]; intro rnd; [reflexivity|];
    cbn [map s_resolve]; rewrite (IH (fun n => rnd (S n))); f_equal; destruct l; reflexivity.
Qed.

Lemma s_resolve_length r v : forall rnd, length (s_resolve r rnd v) = length v.
Proof. induction v; intro; cbn [s_resolve length]; auto. Qed.

Lemma s_resolve_lh r v : match r with RZeros | ROnes | RRandom => True | _ => False end ->
  forall rnd, s_resolve r rnd (map lh v) = s_resolve r rnd v.
Proof.
  intro H. induction v as [|l v IH]; intro rnd; [reflexivity|]. cbn [map s_resolve]. rewrite IH.
  f_equal. destruct r; try destruct H; destruct l; reflexivity.
Qed.

Lemma s_resolve_strong r v : match r with RZeros | ROnes | RRandom => True | _ => False end ->
  forall rnd, strong (s_resolve r rnd v) = true.
Proof.
  intro H. induction v as [|l v IH]; intro rnd; [reflexivity|].
  cbn [s_resolve strong forallb]. fold (strong (s_resolve r (fun n => rnd (S n)) v)). rewrite IH, andb_true_r.
  destruct r; try destruct H; destruct l; try reflexivity; cbn; destruct (rnd O); reflexivity.
Qed.

Lemma strong_lh v : strong v = true -> map lh v = v.
Proof.
  induction v as [|l v IH]; intro H; [reflexivity|].
  cbn [strong forallb] in H. apply andb_true_iff in H. destruct H as [Hl Hv].
  cbn [map]. rewrite (IH Hv). destruct l; try discriminate Hl; reflexivity.
Qed.

Lemma s_int0_strong v : v <> [] -> strong v = true -> s_int0 v = Some (unsigned v).
Proof.
  intros Hn H. pose proof (strong_definite v H) as D. destruct v as [|l v]; [congruence|].
  destruct l; try discriminate H; cbn [s_int0]; rewrite D; reflexivity.
Qed.

Lemma s_int0_definite v : v <> [] -> definite v = true -> s_int0 v = Some (unsigned v).
Proof.
  intros Hn D. destruct v as [|l v]; [congruence|].
  destruct l; try discriminate D; cbn [s_int0]; rewrite D; reflexivity.
Qed.

Lemma s_int0_same f v : (forall l, bool_of (f l) = None <-> bool_of l = None) ->
  (forall l, f l = LD <-> l = LD) -> s_int0 v = None -> s_int0 (map f v) = None.
Proof.
  intros Hb Hd.
  assert (D : forall w, definite (map f w) = definite w).
  { induction w as [|l w IH]; [reflexivity|]. cbn [map definite forallb]. fold (definite w).
    fold (definite (map f w)). rewrite IH. f_equal. specialize (Hb l).
    destruct (bool_of (f l)), (bool_of l); try reflexivity; exfalso; destruct Hb as [H1 H2];
      [discriminate H2|discriminate H1]; reflexivity. }
  destruct v as [|l v]; [auto|]. intro H.
  assert (Hdef : l <> LD -> definite (l :: v) = false).
  { clear Hb Hd D. intro N. destruct l; try (exfalso; apply N; reflexivity); cbn [s_int0] in H;
      destruct (definite _); (reflexivity || discriminate H). }
  destruct (Bool.bool_dec (match l with LD => true | _ => false end) true) as [E|E].
  - destruct l; try discriminate E. cbn [map]. rewrite (proj2 (Hd LD) eq_refl).
    destruct v as [|m v].
    + reflexivity.
    + cbn [s_int0 map] in H |- *. change (f m :: map f v) with (map f (m :: v)). rewrite D.
      destruct (definite (m :: v)); (reflexivity || discriminate H).
  - assert (N : l <> LD) by (intros ->; apply E; reflexivity). specialize (Hdef N).
    assert (N2 : f l <> LD) by (intro K; exact (N (proj1 (Hd l) K))).
    rewrite <- (D (l :: v)) in Hdef. cbn [map] in Hdef |- *.
    destruct (f l); try (exfalso; apply N2; reflexivity); cbn [s_int0]; rewrite Hdef; reflexivity.
Qed.

Lemma resolve_weak_map r v : match r with RError | RWeak => True | _ => False end ->
  forall rnd, s_resolve r rnd v = map (s_resolve1 r false) v.
Proof.
  intro H. induction v as [|l v IH]; intro rnd; [reflexivity|]. cbn [s_resolve map]. rewrite IH.
  destruct r; try destruct H; reflexivity.
Qed.

(** The whole conversion after a failed first parse. *)
Lemma int_fallback r rnd v : v <> [] -> s_int0 v = None ->
  py_int2 (resolve_str r rnd (map logic_chr (map lh v))) = s_int (Some r) rnd v.
Proof.
  intros Hn H. unfold s_int. destruct v as [|l0 v0] eqn:Ev; [congruence|]. rewrite <- Ev in *. rewrite H.
  rewrite resolve_chars. clear l0 v0 Ev.
  assert (W : forall g, (forall l, lh (g l) = g l) -> (forall l, bool_of (g l) = None <-> bool_of l = None) ->
    (forall l, g l = LD <-> l = LD) -> py_int2 (map logic_chr (map g v)) = Err ValueError).
  { intros g G1 G2 G3. replace (map g v) with (map lh (map g v)).
    - rewrite py_int2_chars, (s_int0_same g v G2 G3 H). reflexivity.
    - rewrite map_map. apply map_ext. exact G1. }
  assert (S : forall w, strong w = true -> w <> [] -> py_int2 (map logic_chr w) = Ok (unsigned w)).
  { intros w Hw Hne. rewrite <- (strong_lh w Hw) at 1. rewrite py_int2_chars, s_int0_strong by auto.
    reflexivity. }
  assert (Ne : forall r, s_resolve r rnd v <> []).
  { intros r0 K. apply (f_equal (@length _)) in K. rewrite s_resolve_length in K.
    destruct v; [congruence|discriminate K]. }
  destruct r.
  - rewrite resolve_weak_map by exact I.
    rewrite (map_map lh (s_resolve1 RError false) v).
    apply W; clear; intros []; cbn; try split; congruence.
  - rewrite resolve_weak_map by exact I.
    rewrite (map_map lh (s_resolve1 RWeak false) v).
    apply W; clear; intros []; cbn; try split; congruence.
  - rewrite s_resolve_lh by exact I. apply S; auto. apply s_resolve_strong; exact I.
  - rewrite s_resolve_lh by exact I. apply S; auto. apply s_resolve_strong; exact I.
  - rewrite s_resolve_lh by exact I. apply S; auto. apply s_resolve_strong; exact I.
Qed.

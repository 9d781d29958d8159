(** Formatting of LogicArrays. *)
From Coq Require Import String.
From Verif Require Import Base RangeModel ArrayModel LogicModel LogicSpec LogicArrayModel LogicArrayMachine
  LogicArraySpec LogicArrayProofs LogicArrayRefine LogicArrayThms.
Open Scope Z_scope.

Definition rval (base : Z) (l : list Z) : Z := fold_right (fun d acc => d + base * acc) 0 l.

Lemma rev_digits_val f base : 2 <= base -> forall v, 0 <= v < 2 ^ Z.of_nat f -> (1 <= f)%nat ->
  rval base (rev_digits f base v) = v /\ Forall (fun d => 0 <= d < base) (rev_digits f base v) /\
  (forall m, (1 <= m)%nat -> v < base ^ Z.of_nat m -> (length (rev_digits f base v) <= m)%nat) /\
  (1 <= length (rev_digits f base v))%nat.
Proof.
  intro Hb. induction f as [|f IH]; intros v Hv Hf; [lia|]. cbn [rev_digits].
  destruct (Z.ltb_spec v base) as [L|L].
  - cbn [rval fold_right length]. repeat split; [lia|constructor; [lia|constructor]|lia|lia].
  - assert (f <> O) by (intros ->; change (2 ^ Z.of_nat 1) with 2 in Hv; lia).
    assert (D : 0 <= v / base < 2 ^ Z.of_nat f).
    { rewrite Nat2Z.inj_succ, Z.pow_succ_r in Hv by lia. split; [apply Z.div_pos; lia|].
      apply Z.div_lt_upper_bound; [lia|]. nia. }
    destruct (IH (v / base) D ltac:(lia)) as (I1 & I2 & I3 & I4). unfold rval in *. cbn [fold_right length].
    repeat split.
    + rewrite I1. pose proof (Z.div_mod v base). lia.
    + constructor; [apply Z.mod_pos_bound; lia|exact I2].
    + intros m Hm Hl. destruct m as [|m]; [lia|]. destruct m as [|m].
      { change (base ^ Z.of_nat 1) with (base ^ 1) in Hl. rewrite Z.pow_1_r in Hl. lia. }
      assert (v / base < base ^ Z.of_nat (S m)).
      { apply Z.div_lt_upper_bound; [lia|]. rewrite Nat2Z.inj_succ, Z.pow_succ_r in Hl by lia. exact Hl. }
      specialize (I3 (S m) ltac:(lia) H0). lia.
    + lia.
Qed.

Lemma digits_of_val base v : 2 <= base -> 0 <= v ->
  rval base (digits_of base v) = v /\ Forall (fun d => 0 <= d < base) (digits_of base v) /\
  (forall m, (1 <= m)%nat -> v < base ^ Z.of_nat m -> (length (digits_of base v) <= m)%nat) /\
  (1 <= length (digits_of base v))%nat.
Proof. intros Hb Hv. apply rev_digits_val; [exact Hb|split; [exact Hv|now apply digits_of_fuel]|lia]. Qed.

Lemma base_range t : 2 <= fmt_base t <= 16.
Proof. destruct t; cbn; lia. Qed.

Lemma digit_chr_val t d : 0 <= d < fmt_base t -> digit_val (digit_chr t d) = d /\
  digit_chr t d <> 95 /\ digit_chr t d <> 44.
Proof.
  intro H. pose proof (base_range t). unfold digit_chr, digit_val.
  destruct (Z.ltb_spec d 10).
  - destruct (Z.leb_spec 48 (48 + d)), (Z.leb_spec (48 + d) 57); cbn [andb]; lia.
  - destruct t; cbn [fmt_base] in H; try lia;
    repeat match goal with |- context [Z.leb ?a ?b] => destruct (Z.leb_spec a b) end; cbn [andb]; lia.
Qed.

Lemma read_rev base l : read_number base (rev l) = rval base (map digit_val l).
Proof.
  unfold read_number, rval. rewrite <- fold_left_rev_right, rev_involutive.
  induction l as [|c l IH]; [reflexivity|]. cbn [fold_right map]. rewrite IH. lia.
Qed.

Lemma rval_zeros base l k : rval base (l ++ repeat 0 k) = rval base l.
Proof.
  induction l as [|d l IH]; cbn [app rval fold_right].
  - induction k as [|k IHk]; [reflexivity|]. cbn [repeat fold_right]. rewrite IHk. lia.
  - unfold rval in IH. now rewrite IH.
Qed.

Lemma rval_digits t v k : 0 <= v ->
  rval (fmt_base t) (map digit_val (map (digit_chr t) (digits_of (fmt_base t) v) ++ repeat 48 k)) = v.
Proof.
  intro Hv. pose proof (base_range t) as Hb. destruct (digits_of_val (fmt_base t) v ltac:(lia) Hv) as (V & F & _).
  rewrite map_app, map_map.
  replace (map (fun x => digit_val (digit_chr t x)) (digits_of (fmt_base t) v)) with (digits_of (fmt_base t) v).
  - replace (map digit_val (repeat 48 k)) with (repeat 0 k); [now rewrite rval_zeros|].
    clear. induction k as [|k IH]; [reflexivity|]. cbn [repeat map]. now rewrite <- IH.
  - clear V. induction F as [|d l Hd F IH]; [reflexivity|]. cbn [map].
    rewrite <- IH, (proj1 (digit_chr_val t d Hd)). reflexivity.
Qed.

Lemma no_sep_digits t l : Forall (fun d => 0 <= d < fmt_base t) l ->
  forall m, no_sep (firstn m (map (digit_chr t) l)) = firstn m (map (digit_chr t) l).
Proof.
  intros F. induction F as [|d l Hd F IH]; intros [|m]; try reflexivity.
  cbn [map firstn no_sep filter]. fold (no_sep (firstn m (map (digit_chr t) l))). rewrite IH.
  destruct (digit_chr_val t d Hd) as (_ & N1 & N2).
  rewrite (proj2 (Z.eqb_neq _ _) N1), (proj2 (Z.eqb_neq _ _) N2). reflexivity.
Qed.

Lemma no_sep_zeros k : no_sep (repeat 48 k) = repeat 48 k.
Proof. induction k as [|k IH]; [reflexivity|]. cbn [repeat no_sep filter]. unfold no_sep in IH. now rewrite IH. Qed.

Lemma no_sep_app a b : no_sep (a ++ b) = no_sep a ++ no_sep b.
Proof. apply filter_app. Qed.

Lemma py_len_skipn {B} (l : list B) n : (n <= length l)%nat -> py_len (skipn n l) = py_len l - Z.of_nat n.
Proof. intro H. unfold py_len. rewrite skipn_length. lia. Qed.

Lemma group_loop_spec size sep : 1 <= size -> sep = 95 \/ sep = 44 -> forall f u t l minw,
  Forall (fun d => 0 <= d < fmt_base t) l ->
  (S (length l + Z.to_nat minw) <= f)%nat ->
  exists k, no_sep (group_loop f size sep u (map (digit_chr t) l) minw) =
            map (digit_chr t) l ++ repeat 48 k /\
    (forall m, 1 <= m -> minw = m + (m - 1) / size -> Z.of_nat (length l) <= m ->
       Z.of_nat (length l + k) = m).
Proof.
  intros Hs Hsep. induction f as [|f IH]; intros u t l minw F Hf; [lia|].
  cbn [group_loop].
  set (rem := py_len (map (digit_chr t) l)).
  assert (Hrem : rem = Z.of_nat (length l)) by (unfold rem, py_len; now rewrite map_length).
  set (n := Z.min size (Z.max (Z.max rem minw) 1)).
  assert (NS : no_sep (if u return list Z then [sep] else []) = []) by (destruct u, Hsep; subst; reflexivity).
  destruct (Z.leb_spec (rem - Z.max 0 (Z.min rem n)) 0) as [A|A];
    destruct (Z.leb_spec (minw - n) 0) as [B|B]; cbn [andb].
  - (* last group *)
    exists (Z.to_nat (Z.max 0 (n - rem))). split.
    + rewrite !no_sep_app, NS, (no_sep_digits t l F), no_sep_zeros. cbn [app]. f_equal.
      apply firstn_all2. rewrite map_length. lia.
    + intros m Hm -> Hl. pose proof (Z.div_pos (m - 1) size ltac:(lia) ltac:(lia)).
      assert (m <= size).
      { destruct (Z.leb_spec m size); [assumption|].
        assert (1 <= (m - 1) / size) by (apply Z.div_le_lower_bound; lia). lia. }
      assert (D0 : (m - 1) / size = 0) by (apply Z.div_small; lia). rewrite D0 in *. lia.
  - (* digits used up, more zeros wanted *)
    assert (E : skipn (Z.to_nat (Z.max 0 (Z.min rem n))) (map (digit_chr t) l) = map (digit_chr t) []).
    { apply skipn_all2. rewrite map_length. lia. }
    rewrite E. destruct (IH true t [] (minw - n - 1) (Forall_nil _)) as (k & K1 & K2).
    { cbn [length]. lia. }
    exists (Z.to_nat (Z.max 0 (n - rem)) + k)%nat. split.
    + rewrite !no_sep_app, NS, (no_sep_digits t l F), no_sep_zeros, K1. cbn [app map].
      rewrite firstn_all2 by (rewrite map_length; lia). rewrite <- app_assoc, repeat_app. reflexivity.
    + intros m Hm -> Hl.
      assert (n = size).
      { assert (size < m + (m - 1) / size \/ m + (m - 1) / size <= size) as [|] by lia; lia. }
      assert (size < m).
      { destruct (Z.leb_spec m size); [|assumption]. assert (D0 : (m - 1) / size = 0) by (apply Z.div_small; lia). rewrite D0 in *. lia. }
      specialize (K2 (m - size) ltac:(lia)). cbn [length] in K2.
      replace ((m - size - 1) / size) with ((m - 1) / size - 1) in K2.
      2: { replace (m - size - 1) with (m - 1 + (-1) * size) by lia. rewrite Z.div_add by lia. lia. }
      specialize (K2 ltac:(lia) ltac:(lia)). lia.
  - destruct (IH true t (skipn (Z.to_nat (Z.max 0 (Z.min rem n))) l) (minw - n - 1)) as (k & K1 & K2).
    { rewrite <- (firstn_skipn (Z.to_nat (Z.max 0 (Z.min rem n))) l) in F. now apply Forall_app in F. }
    { rewrite skipn_length. lia. }
    rewrite skipn_map. exists k.
    assert (n - rem <= 0) by lia. rewrite (Z.max_l 0 (n - rem)) by lia. cbn [repeat Z.to_nat].
    split.
    + rewrite !no_sep_app, NS, (no_sep_digits t l F), K1. cbn [app no_sep filter].
      rewrite app_nil_r, <- skipn_map, app_assoc, firstn_skipn. reflexivity.
    + intros m Hm -> Hl. pose proof (Z.div_pos (m - 1) size ltac:(lia) ltac:(lia)). lia.
  - destruct (IH true t (skipn (Z.to_nat (Z.max 0 (Z.min rem n))) l) (minw - n - 1)) as (k & K1 & K2).
    { rewrite <- (firstn_skipn (Z.to_nat (Z.max 0 (Z.min rem n))) l) in F. now apply Forall_app in F. }
    { rewrite skipn_length. lia. }
    rewrite skipn_map. exists k.
    assert (n - rem <= 0) by lia. rewrite (Z.max_l 0 (n - rem)) by lia. cbn [repeat Z.to_nat].
    split.
    + rewrite !no_sep_app, NS, (no_sep_digits t l F), K1. cbn [app no_sep filter].
      rewrite app_nil_r, <- skipn_map, app_assoc, firstn_skipn. reflexivity.
    + intros m Hm -> Hl.
      assert (n = size) by lia.
      assert (size < m) by lia.
      specialize (K2 (m - size) ltac:(lia)).
      replace ((m - size - 1) / size) with ((m - 1) / size - 1) in K2.
      2: { replace (m - size - 1) with (m - 1 + (-1) * size) by lia. rewrite Z.div_add by lia. lia. }
      rewrite skipn_length in K2. specialize (K2 ltac:(lia) ltac:(lia)). lia.
Qed.

Definition sep_ok (sep : option Z) : Prop := sep = None \/ sep = Some 95 \/ sep = Some 44.

Lemma format_spec v alt w sep t : 0 <= v -> sep_ok sep -> (sep = Some 44 -> t = FDec) ->
  exists body k, py_format_int v alt w sep t = Ok ((if alt then fmt_prefix t else []) ++ body) /\
    no_sep body = rev (map (digit_chr t) (digits_of (fmt_base t) v) ++ repeat 48 k) /\
    read_number (fmt_base t) (no_sep body) = v /\
    (forall m, 1 <= m ->
       w - py_len (if alt then fmt_prefix t else []) =
         (match sep with Some _ => m + (m - 1) / fmt_group t | None => m end) ->
       v < fmt_base t ^ m -> py_len (no_sep body) = m).
Proof.
  intros Hv Hs Hc. unfold py_format_int.
  assert (E : forall X (a b : X), match sep, t with Some 44, (FBin | FOct | FHex | FHexUpper) => a | _, _ => b end = b).
  { intros X a b. destruct Hs as [->|[->| ->]]; try reflexivity. rewrite (Hc eq_refl). reflexivity. }
  rewrite E. destruct (Z.ltb_spec v 0); [lia|]. rewrite Z.abs_eq by lia. cbn [app].
  pose proof (base_range t) as Hb.
  destruct (digits_of_val (fmt_base t) v ltac:(lia) Hv) as (_ & F & L & L1).
  set (ds := map (digit_chr t) (digits_of (fmt_base t) v)).
  set (pre := if alt then fmt_prefix t else []).
  change (py_len (@nil Z)) with 0. replace (w - 0 - py_len pre) with (w - py_len pre) by lia.
  assert (G : exists k, no_sep (grouped (fmt_group t) sep ds (w - py_len pre)) = ds ++ repeat 48 k /\
    (forall m, 1 <= m -> w - py_len pre = (match sep with Some _ => m + (m - 1) / fmt_group t | None => m end) ->
      v < fmt_base t ^ m -> Z.of_nat (length ds + k) = m)).
  { destruct sep as [c|]; cbn [grouped].
    - destruct (group_loop_spec (fmt_group t) c) with (f := S (length ds + Z.to_nat (w - py_len pre)))
        (u := false) (t := t) (l := digits_of (fmt_base t) v) (minw := w - py_len pre) as (k & K1 & K2); auto.
      { destruct t; cbn; lia. }
      { destruct Hs as [Hs|[Hs|Hs]]; [discriminate|injection Hs; auto..]. }
      { unfold ds. rewrite map_length. lia. }
      exists k. split; [exact K1|]. intros m Hm Hw Hl. unfold ds. rewrite map_length. apply K2; auto.
      specialize (L (Z.to_nat m) ltac:(lia)). rewrite Z2Nat.id in L by lia. specialize (L Hl). lia.
    - exists (Z.to_nat (w - py_len pre - py_len ds)). split.
      + rewrite no_sep_app, no_sep_zeros. f_equal. unfold ds. 
        rewrite <- (firstn_all (map (digit_chr t) (digits_of (fmt_base t) v))). apply no_sep_digits. exact F.
      + intros m Hm -> Hl. specialize (L (Z.to_nat m) ltac:(lia)). rewrite Z2Nat.id in L by lia. specialize (L Hl).
        unfold ds, py_len. rewrite map_length. lia. }
  destruct G as (k & G1 & G2).
  assert (NR : no_sep (rev (grouped (fmt_group t) sep ds (w - py_len pre))) = rev (ds ++ repeat 48 k)).
  { rewrite <- G1. unfold no_sep. clear. induction (grouped (fmt_group t) sep ds (w - py_len pre)) as [|c s IH]; [reflexivity|].
    cbn [rev filter]. rewrite filter_app, IH. cbn [filter]. destruct (negb _); cbn [rev]; [reflexivity|]. apply app_nil_r. }
  exists (rev (grouped (fmt_group t) sep ds (w - py_len pre))), k. split; [reflexivity|]. split; [exact NR|].
  rewrite NR. split.
  - rewrite read_rev. now apply rval_digits.
  - intros m Hm Hw Hl. unfold py_len. rewrite rev_length, app_length, repeat_length. now apply G2.
Qed.

(** Decimal with '#': the code writes "0d" itself and counts it in the width. *)
Lemma C16_value_pf rx rnd a alt sep t base pre : is_larr rx a -> elems a <> [] -> definite (elems a) = true ->
  In (t, (base, pre)) fmt_letters -> sep_ok sep -> (sep = Some 44 -> t = 100) ->
  exists body, snd (la_format rx rnd a (spec_of alt sep t)) = Ok ((if alt then pre else []) ++ body) /\
    read_number base (no_sep body) = unsigned (elems a) /\
    (t = 98 -> py_len (no_sep body) = la_len a) /\
    (t = 120 \/ t = 88 -> py_len (no_sep body) = (la_len a + 3) / 4) /\
    (t = 111 -> alt = false -> sep = None -> py_len (no_sep body) = (la_len a + 2) / 3).
Proof.
  intros H Hn D Ht Hs Hc. pose proof (rep_canon rx a H) as R.
  destruct (format_rep rx rnd _ _ (spec_of alt sep t) R) as (a' & -> & _). cbn [snd].
  pose proof (rep_len _ _ R) as L. unfold val in *. cbn [fst a_value] in *. rewrite L.
  unfold s_format, s_int. rewrite (s_int0_definite _ Hn D).
  destruct (elems a) as [|l0 v0] eqn:Ev; [congruence|]. rewrite <- Ev in *.
  assert (L1 : 1 <= Z.of_nat (length (elems a))) by (rewrite Ev; cbn [length]; lia). 
  set (n := Z.of_nat (length (elems a))) in *.
  pose proof (unsigned_range (elems a)) as B. fold n in B.
  assert (NE : exists c s, spec_of alt sep t = c :: s).
  { unfold spec_of. destruct alt; [eexists; eexists; reflexivity|]. destruct sep; eexists; eexists; reflexivity. }
  destruct NE as (c0 & s0 & NE). rewrite NE. rewrite <- NE.
  assert (P : fmt_plan n (spec_of alt sep t) =
     let grp k len := match sep with Some _ => len + (len - 1) / k | None => len end in
     let bl := if alt then 2 else 0 in
     if t =? 98 then Ok (alt, [], grp 4 n + bl, sep, FBin)
     else if t =? 120 then Ok (alt, [], grp 4 ((n + 3) / 4) + bl, sep, FHex)
     else if t =? 88 then Ok (alt, [], grp 4 ((n + 3) / 4) + bl, sep, FHexUpper)
     else if t =? 100 then Ok (false, (if alt then lit "0d" else []), grp 3 ((n + 9) / 10) + bl, sep, FDec)
     else Ok (alt, [], grp 4 ((n + 2) / 3 + bl), sep, FOct)).
  { clear - Ht Hs. cbn in Ht.
    repeat (destruct Ht as [Ht|Ht]; [injection Ht as <- <- <-;
      destruct alt; destruct Hs as [->|[->| ->]]; reflexivity|]). contradiction. }
  rewrite P. clear P NE c0 s0. cbv zeta.
  assert (Hb4 : 2 ^ n <= 16 ^ ((n + 3) / 4)).
  { change 16 with (2 ^ 4). rewrite <- Z.pow_mul_r by lia. apply Z.pow_le_mono_r; lia. }
  assert (Hb3 : 2 ^ n <= 8 ^ ((n + 2) / 3)).
  { change 8 with (2 ^ 3). rewrite <- Z.pow_mul_r by lia. apply Z.pow_le_mono_r; lia. }
  cbn in Ht.
  destruct Ht as [Ht|[Ht|[Ht|[Ht|[Ht|[]]]]]]; injection Ht as <- <- <-; cbn [Z.eqb Pos.eqb bind].
  - destruct (format_spec (unsigned (elems a)) alt
      (match sep with Some _ => n + (n - 1) / 4 | None => n end + (if alt then 2 else 0)) sep FBin) as (body & k & E & _ & V & C);
      [lia|exact Hs|intro Q; specialize (Hc Q); discriminate|].
    exists body. rewrite E. cbn [bind app]. split; [reflexivity|]. split; [exact V|].
    split; [|split; [intros [?|?]; discriminate|discriminate]]. intros _. apply C; [lia|destruct alt, sep; cbn; lia|exact (proj2 B)].
  - destruct (format_spec (unsigned (elems a)) alt
      (match sep with Some _ => (n + 2) / 3 + (if alt then 2 else 0) + ((n + 2) / 3 + (if alt then 2 else 0) - 1) / 4
       | None => (n + 2) / 3 + (if alt then 2 else 0) end) sep FOct) as (body & k & E & _ & V & C);
      [lia|exact Hs|intro Q; specialize (Hc Q); discriminate|].
    exists body. rewrite E. cbn [bind app]. split; [reflexivity|]. split; [exact V|].
    split; [discriminate|]. split; [intros [?|?]; discriminate|]. intros _ -> ->. apply C; [lia|cbn; lia|].
    cbn [fmt_base]. lia.
  - destruct (format_spec (unsigned (elems a)) false
      (match sep with Some _ => (n + 9) / 10 + ((n + 9) / 10 - 1) / 3 | None => (n + 9) / 10 end + (if alt then 2 else 0)) sep FDec)
      as (body & k & E & _ & V & C); [lia|exact Hs|auto|].
    exists body. rewrite E. cbn [bind app]. split; [destruct alt; reflexivity|]. split; [exact V|].
    split; [discriminate|]. split; [intros [?|?]; discriminate|discriminate].
  - destruct (format_spec (unsigned (elems a)) alt
      (match sep with Some _ => (n + 3) / 4 + ((n + 3) / 4 - 1) / 4 | None => (n + 3) / 4 end + (if alt then 2 else 0)) sep FHex)
      as (body & k & E & _ & V & C); [lia|exact Hs|intro Q; specialize (Hc Q); discriminate|].
    exists body. rewrite E. cbn [bind app]. split; [reflexivity|]. split; [exact V|].
    split; [discriminate|]. split; [|discriminate]. intros _. apply C; [lia|destruct alt, sep; cbn -[Z.div]; lia|].
    cbn [fmt_base]. lia.
  - destruct (format_spec (unsigned (elems a)) alt
      (match sep with Some _ => (n + 3) / 4 + ((n + 3) / 4 - 1) / 4 | None => (n + 3) / 4 end + (if alt then 2 else 0)) sep FHexUpper)
      as (body & k & E & _ & V & C); [lia|exact Hs|intro Q; specialize (Hc Q); discriminate|].
    exists body. rewrite E. cbn [bind app]. split; [reflexivity|]. split; [exact V|].
    split; [discriminate|]. split; [|discriminate]. intros _. apply C; [lia|destruct alt, sep; cbn -[Z.div]; lia|].
    cbn [fmt_base]. lia.
Qed.

(** C102: values written and read through the interfaces to simulators. *)
From Verif Require Import Base RangeModel ArrayModel LogicModel LogicSpec LogicArrayModel LogicArraySpec LogicArrayProofs HandleModel HandleSpec HandleProofs HandleProps SigValueModel.
From Verif Require TextModel XmlModel InitProofs LogicArrayRefine LogicArrayThms.
From Coq Require Import String Lia.
Open Scope Z_scope.

(** * Words of the property *)
(** The position of a value in [std_ulogic], IEEE 1164; the numbers of the VHPI are the same. *)
Definition std_position (l : logic) : Z :=
  match l with LU => 0 | LX => 1 | L0 => 2 | L1 => 3 | LZ => 4 | LW => 5 | LL => 6 | LH => 7 | LD => 8 end.
(** The literals of [std_ulogic] and [bit]. *)
Definition std_lits : list pystr := [lit "'U'"; lit "'X'"; lit "'0'"; lit "'1'"; lit "'Z'"; lit "'W'"; lit "'L'"; lit "'H'"; lit "'-'"].
Definition bit_lits : list pystr := [lit "'0'"; lit "'1'"].
(** The literal of the type at position [p] stands for [l]. *)
Definition stands_at (lits : list pystr) (l : logic) (p : Z) : Prop := 0 <= p /\ nth_error lits (Z.to_nat p) = Some [39; logic_chr l; 39].
(** A logic array which some program can have. *)
Definition real_value (v : pyval) : Prop := match v with PLarr a => exists rx, is_larr rx a | _ => True end.
(** The elements which a value of the VPI stands for in an object of [n] elements (IEEE 1800, 38.34). *)
Definition vpi_means (n : nat) (v : pval) : option (list logic) :=
  match v with PvInt z => Some (bits n z) | PvBin s => match logics_of_str s with Ok l => Some l | Err _ => None end | _ => None end.

(** * Numbers *)
Lemma to_int32_eq z : to_int32 z = int32 z.
Proof.
  unfold to_int32, int32. pose proof (Z.mod_pos_bound z (2 ^ 32) ltac:(lia)) as B. pose proof (Z.div_mod z (2 ^ 32) ltac:(lia)) as D.
  cbv zeta. destruct (Z.ltb_spec (z mod 2 ^ 32) (2 ^ 31)).
  - rewrite <- (Z.mod_unique_pos (z + 2 ^ 31) (2 ^ 32) (z / 2 ^ 32) (z mod 2 ^ 32 + 2 ^ 31)); lia.
  - rewrite <- (Z.mod_unique_pos (z + 2 ^ 31) (2 ^ 32) (z / 2 ^ 32 + 1) (z mod 2 ^ 32 + 2 ^ 31 - 2 ^ 32)); lia.
Qed.
Lemma to_int32_id z : - 2 ^ 31 <= z < 2 ^ 31 -> to_int32 z = z.
Proof. intro B. rewrite to_int32_eq. unfold int32. rewrite Z.mod_small by lia. lia. Qed.
Lemma to_int32_mod z : to_int32 (z mod 2 ^ 32) = to_int32 z.
Proof. unfold to_int32. rewrite Z.mod_mod by lia. reflexivity. Qed.
Lemma bits_map n z : bits n z = map (fun k => of_bool (bit_of z (n - k - 1))) (seq 0 n).
Proof.
  induction n as [|n IH]; [reflexivity|]. cbn [bits seq map]. f_equal; [unfold bit_of; do 3 f_equal; lia|].
  rewrite IH, <- seq_shift, map_map. apply map_ext. intro k. f_equal.
Qed.
Lemma bits_int32 n z : (n <= 32)%nat -> bits n (to_int32 z) = bits n z.
Proof. intro N. rewrite to_int32_eq. now apply int32_bits. Qed.

(** * What an array of logic values is given *)
Lemma array_value n v s : real_value v -> conv (KLogicArray n) v = Ok s -> exists l, List.length l = n /\ delivered n s = Some l /\
  ((n <= 32)%nat /\ (exists z, s = SInt z /\ l = bits n z) \/ s = SStr (map logic_chr l)).
Proof.
  intros R C. destruct v as [z|t|t|x|a|m b|l|l r|]; try discriminate C.
  - cbn [conv conv_logicarray] in C. destruct (negb ((min_signed n <=? z) && (z <=? 2 ^ Z.of_nat n - 1))) eqn:E; [discriminate C|].
    destruct (Nat.leb_spec n 32) as [N|N].
    + injection C as <-. exists (bits n z). split; [apply bits_length|]. split; [cbn [delivered]; now rewrite int32_bits|]. left. split; [exact N|]. now exists z.
    + apply negb_false_iff, andb_true_iff in E. rewrite !Z.leb_le in E.
      pose proof (min_signed_eq n ltac:(lia)) as M. assert (B : - 2 ^ (Z.of_nat n - 1) <= z < 2 ^ Z.of_nat n) by lia.
      assert (P : (0 < n)%nat) by lia. destruct (C41_logicarray_int n z P) as [A _]. destruct (A B) as (s' & E' & D & _).
      assert (N' : (n <=? 32)%nat = false) by (apply Nat.leb_gt; exact N).
      cbn [conv conv_logicarray] in E'. rewrite N' in E'. replace (negb ((min_signed n <=? z) && (z <=? 2 ^ Z.of_nat n - 1))) with false in E'.
      2:{ symmetry. apply negb_false_iff, andb_true_iff. rewrite !Z.leb_le. lia. }
      cbv zeta in C, E'. rewrite C in E'. injection E' as <-. exists (bits n z). split; [apply bits_length|]. split; [exact D|]. right.
      pose proof (C41_logicarray_int_pf n z P) as F. cbn [conv conv_logicarray] in F. rewrite N' in F.
      replace (negb ((min_signed n <=? z) && (z <=? 2 ^ Z.of_nat n - 1))) with false in F.
      2:{ symmetry. apply negb_false_iff, andb_true_iff. rewrite !Z.leb_le. lia. }
      cbv zeta in F. rewrite C in F. destruct ((- 2 ^ (Z.of_nat n - 1) <=? z) && (z <? 2 ^ Z.of_nat n)) eqn:E2; [|discriminate F]. now injection F.
  - rewrite C41_logicarray_str in C. set (u := upper (filter (fun c => negb (c =? 95)) t)) in C.
    destruct (forallb (fun c => existsb (Z.eqb c) (lit "UX01ZWLH-")) u && Nat.eqb (List.length u) n) eqn:E; [|discriminate C]. injection C as <-.
    apply andb_true_iff in E. destruct E as [E1 E2]. apply Nat.eqb_eq in E2.
    destruct (literal_chars u) as [l L].
    { rewrite forallb_forall in E1. apply Forall_forall. intros c I. specialize (E1 c I). apply existsb_exists in E1. destruct E1 as (d & I2 & Q). apply Z.eqb_eq in Q. now subst d. }
    rewrite L in *. exists l. rewrite map_length in E2. split; [exact E2|]. split; [cbn [delivered]; now rewrite logics_of_chars|]. now right.
  - pose proof (C41_logic n x 0 []) as (_ & E & _). rewrite E in C. destruct (Nat.eqb_spec n 1) as [N|N]; [|discriminate C]. injection C as <-. subst n. exists [x].
    split; [reflexivity|]. split; [|now right]. change [logic_chr x] with (map logic_chr [x]). cbn [delivered]. now rewrite logics_of_chars.
  - destruct R as [rx R]. destruct (C41_logicarray_larr rx n a R) as [E _]. rewrite E in C. destruct (Nat.eqb_spec (List.length (elems a)) n) as [N|N]; [|discriminate C].
    injection C as <-. exists (elems a). split; [exact N|]. split; [cbn [delivered]; now rewrite logics_of_chars|]. now right.
Qed.
Lemma logic_value v s : real_value v -> conv KLogic v = Ok s -> exists l, s = SStr [logic_chr l].
Proof.
  intros R C. destruct v as [z|t|t|x|a|m b|l|l r|]; try discriminate C.
  - pose proof (C41_logic 0 LU z []) as (_ & _ & E & _). rewrite E in C. destruct (logic_new CLogic (LvInt z)) as [l|]; [injection C as <-; now exists l|discriminate C].
  - pose proof (C41_logic 0 LU 0 t) as (_ & _ & _ & E). rewrite E in C. destruct (logic_new CLogic (LvStr t)) as [l|]; [injection C as <-; now exists l|discriminate C].
  - pose proof (C41_logic 0 x 0 []) as (E & _). rewrite E in C. injection C as <-. now exists x.
  - destruct R as [rx R]. destruct (C41_logicarray_larr rx 0 a R) as [_ E]. rewrite E in C. destruct (Nat.eqb_spec (List.length (elems a)) 1) as [N|N]; [|discriminate C].
    injection C as <-. destruct (elems a) as [|l [|? ?]]; try discriminate N. now exists l.
Qed.

(** * VHPI *)
Lemma chr2vhpi_chr l : chr2vhpi (logic_chr l) = std_position l.
Proof. now destruct l. Qed.
(** An array of logic values receives exactly the elements of the value which is assigned, the leftmost first. *)
Theorem C102_vhpi_array n v s a : real_value v -> conv (KLogicArray n) v = Ok s ->
  exists l, List.length l = n /\ delivered n s = Some l /\
  vh_write (vh_logic true n) a s =
    Calls [(VvEnums (map std_position l), match a with GRelease => VmRelease | GForce => VmForcePropagate | _ => VmDepositPropagate end)].
Proof.
  intros R C. destruct (array_value n v s R C) as (l & L & D & H). exists l. split; [exact L|]. split; [exact D|].
  assert (E : put_mode a = match a with GRelease => VmRelease | GForce => VmForcePropagate | _ => VmDepositPropagate end) by now destruct a. rewrite <- E. clear E.
  destruct H as [(N & z & -> & ->)| ->]; unfold vh_write, vh_logic; cbn [vh_int vh_binstr vo_logic vo_fmt vo_num].
  - unfold vh_bits. destruct (Nat.ltb_spec 32 n); [lia|]. cbn [map]. do 4 f_equal. rewrite <- (bits_int32 n z N), bits_map, map_map. apply map_ext. intro k. now destruct (bit_of (to_int32 z) (n - k - 1)).
  - rewrite map_length, L, Nat.eqb_refl. cbn [negb map]. do 4 f_equal. rewrite map_map. apply map_ext. exact chr2vhpi_chr.
Qed.
Print Assumptions C102_vhpi_array.
Example C102_vhpi_array_ex : exists s, conv (KLogicArray 3) (PInt (-3)) = Ok s /\
  vh_write (vh_logic true 3) GDeposit s = Calls [(VvEnums [3; 2; 3], VmDepositPropagate)] /\
  (exists t, conv (KLogicArray 3) (PStr (lit "1_xz")) = Ok t /\ vh_write (vh_logic true 3) GForce t = Calls [(VvEnums [3; 1; 4], VmForcePropagate)]).
Proof. eexists. split; [reflexivity|]. split; [reflexivity|]. eexists. split; reflexivity. Qed.
(** So does a single logic value. *)
Theorem C102_vhpi_logic n v s a : real_value v -> conv KLogic v = Ok s ->
  exists l, s = SStr [logic_chr l] /\ vh_write (vh_logic false n) a s = Calls [(VvEnum (std_position l), put_mode a)].
Proof. intros R C. destruct (logic_value v s R C) as [l ->]. exists l. split; [reflexivity|]. now destruct l. Qed.
Print Assumptions C102_vhpi_logic.
Example C102_vhpi_logic_ex : exists s, conv KLogic (PStr (lit "h")) = Ok s /\ vh_write (vh_logic false 1) GNoDelay s = Calls [(VvEnum 7, VmDepositPropagate)].
Proof. eexists. split; reflexivity. Qed.
(** An integer of 32 bits receives the number, and gives it back. *)
Theorem C102_vhpi_integer z s a rd id : conv (KInteger 32 (vh_signed true)) (PInt z) = Ok s ->
  exists w, vh_write (VObj false VIntVal 32) a s = Calls [(VvInt w, put_mode a)] /\ 0 <= w < 2 ^ 32 /\ w mod 2 ^ 32 = z mod 2 ^ 32 /\
  (rd_long rd id = vh_get_long w -> leaf_get (KInteger 32 (vh_signed true)) rd id = Ok (PInt z)).
Proof.
  intro C. destruct (C41_integer_pf 32 1 z ltac:(lia)) as [A B]. cbn [vh_signed] in *.
  assert (I : in_bounds 32 1 z).
  { destruct (Z_le_dec (- 2 ^ 31) z) as [P|P]; [destruct (Z_lt_dec z (2 ^ 31)) as [Q|Q]; [cbn; lia|]|]; rewrite B in C; try discriminate C; cbn; lia. }
  rewrite (A I) in C. cbn [Nat.leb] in C. injection C as <-. exists (z mod 2 ^ 32). change (in_bounds 32 1 z) with (- 2 ^ 31 <= z < 2 ^ 31) in I.
  split; [unfold vh_write; cbn [vh_int vo_logic vo_fmt map]; now rewrite (to_int32_id z I)|]. split; [apply Z.mod_pos_bound; lia|]. split; [apply Z.mod_mod; lia|].
  intro RD. cbn [leaf_get]. unfold get_int. cbn [Nat.leb bind]. rewrite RD. unfold vh_get_long. rewrite to_int32_mod, (to_int32_id z I).
  assert (M : max_val 32 1 = 2 ^ 31 - 1) by reflexivity. rewrite M. destruct (Z.ltb_spec (2 ^ 31 - 1) z); [lia|]. reflexivity.
Qed.
Print Assumptions C102_vhpi_integer.
Example C102_vhpi_integer_ex : exists s, conv (KInteger 32 1) (PInt (-5)) = Ok s /\ vh_write (VObj false VIntVal 32) GDeposit s = Calls [(VvInt 4294967291, VmDepositPropagate)] /\
  vh_get_long 4294967291 = -5.
Proof. eexists. repeat split; reflexivity. Qed.
(** A position of an enumeration is written as such, in both formats. *)
Theorem C102_vhpi_enum z a : (0 <= z < 2 ^ 32 -> exists s, conv (KEnum 32 (vh_signed false)) (PInt z) = Ok s /\ vh_write (VObj false VEnumVal 32) a s = Calls [(VvEnum z, put_mode a)]) /\
  (0 <= z < 2 ^ 8 -> exists s, conv (KEnum 8 (vh_signed false)) (PInt z) = Ok s /\ vh_write (VObj false VSmallEnumVal 8) a s = Calls [(VvSmall z, put_mode a)]).
Proof.
  assert (E32 : forall m, 0 < m -> m <= 32 -> to_int32 z mod 2 ^ m = z mod 2 ^ m).
  { intros m M1 M2. unfold to_int32. cbv zeta. assert (D : (2 ^ m | 2 ^ 32)) by (exists (2 ^ (32 - m)); rewrite <- Z.pow_add_r by lia; f_equal; lia).
    assert (P : 0 < 2 ^ m) by (apply Z.pow_pos_nonneg; lia). pose proof (Znumtheory.Zmod_div_mod (2 ^ m) (2 ^ 32) z P ltac:(lia) D) as E.
    destruct (z mod 2 ^ 32 <? 2 ^ 31); [now symmetry|]. rewrite E. destruct D as [k K]. replace (z mod 2 ^ 32 - 2 ^ 32) with (z mod 2 ^ 32 + (- k) * 2 ^ m) by lia.
    apply Z_mod_plus_full. }
  split; intro B.
  - destruct (C41_enum_pf 32 (-1) z ltac:(lia)) as [A _]. eexists. split; [apply A; [cbn; lia|left; lia]|]. cbn [Nat.leb]. unfold vh_write. cbn [vh_int vo_logic vo_fmt map].
    rewrite (E32 32) by lia. now rewrite Z.mod_small.
  - destruct (C41_enum_pf 8 (-1) z ltac:(lia)) as [A _]. eexists. split; [apply A; [cbn; lia|left; lia]|]. cbn [Nat.leb]. unfold vh_write. cbn [vh_int vo_logic vo_fmt map].
    rewrite (E32 8) by lia. now rewrite Z.mod_small.
Qed.
Print Assumptions C102_vhpi_enum.
Example C102_vhpi_enum_ex : exists s, conv (KEnum 8 (-1)) (PInt 200) = Ok s /\ vh_write (VObj false VSmallEnumVal 8) GDeposit s = Calls [(VvSmall 200, VmDepositPropagate)].
Proof. eexists. split; reflexivity. Qed.
(** Strings: the bytes, and zeros up to the length of the object. *)
Lemma strncpy_short n b : (List.length b <= n)%nat -> strncpy n b = b ++ repeat 0 (n - List.length b).
Proof.
  revert b. induction n as [|n IH]; intros [|c b] L; cbn [strncpy List.length Nat.sub repeat app] in *; try lia; try reflexivity.
  - rewrite IH by (cbn; lia). cbn [List.length app]. now rewrite Nat.sub_0_r.
  - rewrite IH by lia. reflexivity.
Qed.
Lemma string_value n v s : conv (KFixedString n) v = Ok s -> bind_check s = None ->
  exists b, v = PBytes false b /\ s = SBytes false b /\ (List.length b <= n)%nat /\ ~ In 0 b.
Proof.
  intros C K. destruct (proj1 (C41_fixed n v) (ex_intro _ s C)) as (m & b & -> & L). exists b.
  cbn [conv] in C. unfold conv_fixed in C. cbn [py_length bind] in C. unfold py_len in C. destruct (Z.ltb_spec (Z.of_nat n) (Z.of_nat (List.length b))); [lia|]. cbn in C. injection C as <-.
  cbn [bind_check] in K. destruct m; [discriminate K|]. destruct (existsb (Z.eqb 0) b) eqn:E; [discriminate K|]. split; [reflexivity|]. split; [reflexivity|]. split; [exact L|].
  intro I. assert (X : existsb (Z.eqb 0) b = true) by (apply existsb_exists; exists 0; split; [exact I|reflexivity]). rewrite X in E. discriminate E.
Qed.
Lemma c_str_zeros b k : ~ In 0 b -> c_str (b ++ 0 :: k) = b.
Proof.
  induction b as [|c b IH]; intro N; [reflexivity|]. cbn [app c_str]. destruct (Z.eqb_spec c 0) as [->|]; [exfalso; apply N; now left|]. rewrite IH; [reflexivity|]. intro I. apply N. now right.
Qed.
Theorem C102_string n v s a is_var : conv (KFixedString n) v = Ok s -> bind_check s = None ->
  exists b, v = PBytes false b /\ (List.length b <= n)%nat /\
  vh_write (VObj false VStrVal n) a s = Calls [(VvStr (b ++ repeat 0 (n - List.length b) ++ [0]), put_mode a)] /\
  (In a [GDeposit; GNoDelay] -> fli_write is_var (FcStr n) a s = Calls [FSet (FvBuf (b ++ repeat 0 (n - List.length b)))]) /\
  vh_get_str (VObj false VStrVal n) (b ++ repeat 0 (n - List.length b) ++ [0]) = b /\ fli_get_str n (b ++ repeat 0 (n - List.length b)) = b.
Proof.
  intros C K. destruct (string_value n v s C K) as (b & -> & -> & L & Z0). exists b. split; [reflexivity|]. split; [exact L|].
  split; [unfold vh_write; cbn [vh_str vo_fmt vo_num map]; now rewrite (strncpy_short n b L), <- app_assoc|].
  split; [intros [<-|[<-|[]]]; cbn [fli_write fli_str fli_act]; now rewrite (strncpy_short n b L)|].
  assert (CS : forall k, c_str (b ++ repeat 0 k ++ [0]) = b) by (intros [|k]; cbn [repeat app]; now apply c_str_zeros).
  split.
  - cbn [vh_get_str vo_fmt vo_num]. destruct (Nat.eqb_spec n 0) as [N|N]; [destruct b; [reflexivity|cbn in L; lia]|apply CS].
  - unfold fli_get_str. assert (E : c_str (b ++ repeat 0 (n - List.length b)) = b).
    { destruct (n - List.length b)%nat as [|k] eqn:Q; [|cbn [repeat]; now apply c_str_zeros]. cbn [repeat]. rewrite app_nil_r. clear - Z0. induction b as [|c b IH]; [reflexivity|].
      cbn [c_str]. destruct (Z.eqb_spec c 0) as [->|]; [exfalso; apply Z0; now left|]. rewrite IH; [reflexivity|]. intro I. apply Z0. now right. }
    rewrite E, (strncpy_short n b L), <- app_assoc. apply CS.
Qed.
Print Assumptions C102_string.
Example C102_string_ex : exists s, conv (KFixedString 4) (PBytes false (lit "ab")) = Ok s /\ bind_check s = None /\
  vh_write (VObj false VStrVal 4) GDeposit s = Calls [(VvStr [97; 98; 0; 0; 0], VmDepositPropagate)] /\ fli_write false (FcStr 4) GDeposit s = Calls [FSet (FvBuf [97; 98; 0; 0])] /\
  fli_get_str 4 [97; 98; 0; 0] = lit "ab".
Proof. eexists. repeat split; reflexivity. Qed.
(** Real numbers are handed over as they are; only with the FLI they cannot be forced. *)
Theorem C102_real v s a is_var strvar cur : conv KReal v = Ok s ->
  vh_write (VObj false VRealVal 64) a s = Calls [(VvReal s, put_mode a)] /\
  (In a [GDeposit; GNoDelay] -> fli_write is_var FcReal a s = Calls [FSet (FvReal s)]) /\
  (a <> GRelease -> exists t f, vpi_write strvar cur a s = Calls [PPut (PvReal s) t f]).
Proof.
  intro C. assert (S : (exists t, s = SReal t) \/ exists z, s = SRealInt z) by (destruct v; try discriminate C; injection C as <-; [right|left]; eexists; reflexivity).
  split; [destruct S as [[t ->]|[z ->]]; reflexivity|]. split; [intros [<-|[<-|[]]]; destruct S as [[t ->]|[z ->]]; reflexivity|].
  intro A. unfold vpi_write. assert (V : vpi_value s = PvReal s) by (destruct S as [[t ->]|[z ->]]; reflexivity). rewrite V. destruct a; try (now destruct A); try destruct strvar; do 2 eexists; reflexivity.
Qed.
Print Assumptions C102_real.
Example C102_real_ex : exists s, conv KReal (PFloat 5) = Ok s /\ vh_write (VObj false VRealVal 64) GForce s = Calls [(VvReal (SReal 5), VmForcePropagate)].
Proof. eexists. split; reflexivity. Qed.

(** * FLI *)
Lemma enum_map_found lits : forall i c p found, NoDup (map (fun l => nth 1 l 0) lits) -> nth_error lits p = Some [39; c; 39] -> enum_map i lits c found = i + Z.of_nat p.
Proof.
  assert (K : forall ls i c found, ~ In c (map (fun l => nth 1 l 0) ls) -> enum_map i ls c found = found).
  { induction ls as [|l ls' IH]; intros i c found N; [reflexivity|]. cbn [enum_map map In] in *. rewrite IH by tauto. destruct (Z.eqb_spec (nth 1 l 0) c); [exfalso; tauto|reflexivity]. }
  induction lits as [|l lits IH]; intros i c [|p] found ND E; try discriminate E; cbn [enum_map nth_error map] in *; inversion ND as [|? ? NI ND']; subst.
  - injection E as ->. cbn [nth] in *. rewrite Z.eqb_refl, K by exact NI. lia.
  - rewrite (IH (i + 1) c p _ ND' E). lia.
Qed.
Lemma enum_of_at lits l p : NoDup (map (fun l => nth 1 l 0) lits) -> stands_at lits l p -> enum_of lits (logic_chr l) = p.
Proof. intros ND [P E]. unfold enum_of. rewrite (enum_map_found lits 0 _ _ 0 ND E). lia. Qed.
(** Signals and variables of any logic type whose literals can stand for the elements of the value receive the positions of these literals. *)
Theorem C102_fli_array is_var lits n v s a ps : real_value v -> conv (KLogicArray n) v = Ok s -> NoDup (map (fun l => nth 1 l 0) lits) ->
  (forall l, delivered n s = Some l -> Forall2 (stands_at lits) l ps) ->
  exists l, List.length l = n /\ delivered n s = Some l /\
  fli_write is_var (FcLogicArray n lits) a s =
    match a with
    | GDeposit | GNoDelay => Calls [FSet (FvBuf ps)]
    | GForce => Calls (if is_var then [] else [FForce (lit "2#" ++ map logic_chr l)])
    | GRelease => Calls (if is_var then [] else [FRelease])
    end.
Proof.
  intros R C ND ST. destruct (array_value n v s R C) as (l & L & D & H). exists l. split; [exact L|]. split; [exact D|]. specialize (ST l D). clear C R.
  assert (PS : map (enum_of lits) (map logic_chr l) = ps).
  { rewrite map_map. clear - ST ND. induction ST as [|x p l ps X F IH]; [reflexivity|]. cbn [map]. rewrite IH. f_equal. now apply enum_of_at. }
  destruct H as [(N & z & -> & ->)| ->]; cbn [fli_write].
  - assert (B : forall (A : Type) (one zero : A) (f : logic -> A), f L1 = one -> f L0 = zero -> fli_bits one zero (to_int32 z) n = map f (bits n z)).
    { intros A one zero f F1 F0. unfold fli_bits. rewrite <- (bits_int32 n z N), bits_map, map_map. apply map_ext. intro k. destruct (bit_of (to_int32 z) (n - k - 1)); cbn [of_bool]; congruence. }
    cbn [fli_int]. destruct (Nat.ltb_spec 32 n); [lia|]. rewrite (B Z (enum_of lits 49) (enum_of lits 48) (fun x => enum_of lits (logic_chr x)) eq_refl eq_refl), (B Z 49 48 logic_chr eq_refl eq_refl).
    rewrite <- (map_map logic_chr (enum_of lits)), PS. destruct a, is_var; reflexivity.
  - cbn [fli_binstr]. rewrite map_length, L, Nat.eqb_refl. cbn [negb]. rewrite PS. destruct a, is_var; reflexivity.
Qed.
Print Assumptions C102_fli_array.
Example C102_fli_array_ex : exists s, conv (KLogicArray 2) (PInt 2) = Ok s /\ NoDup (map (fun l => nth 1 l 0) bit_lits) /\ Forall2 (stands_at bit_lits) [L1; L0] [1; 0] /\
  NoDup (map (fun l => nth 1 l 0) std_lits) /\ Forall2 (stands_at std_lits) [L1; L0; LZ] [3; 2; 4] /\ fli_write false (FcLogicArray 2 bit_lits) GForce s = Calls [FForce (lit "2#10")].
Proof.
  eexists. split; [reflexivity|]. split; [repeat constructor; cbn; intuition discriminate|]. split; [repeat constructor; cbn; lia|].
  split; [repeat constructor; cbn; intuition discriminate|]. split; [repeat constructor; cbn; lia|]. reflexivity.
Qed.
Theorem C102_fli_logic is_var lits v s a : real_value v -> conv KLogic v = Ok s -> NoDup (map (fun l => nth 1 l 0) lits) ->
  exists l, s = SStr [logic_chr l] /\ forall p, stands_at lits l p ->
  fli_write is_var (FcLogic lits) a s =
    match a with
    | GDeposit | GNoDelay => Calls [FSet (FvNum p)]
    | GForce => Calls (if is_var then [] else [FForce (lit "2#" ++ [logic_chr l])])
    | GRelease => Calls (if is_var then [] else [FRelease])
    end.
Proof.
  intros R C ND. destruct (logic_value v s R C) as [l ->]. exists l. split; [reflexivity|]. intros p ST. cbn [fli_write fli_binstr List.length Nat.eqb negb nth].
  rewrite (enum_of_at lits l p ND ST). destruct a, is_var; reflexivity.
Qed.
Print Assumptions C102_fli_logic.
Example C102_fli_logic_ex : exists s, conv KLogic (PStr (lit "Z")) = Ok s /\ stands_at std_lits LZ 4 /\ fli_write true (FcLogic std_lits) GDeposit s = Calls [FSet (FvNum 4)].
Proof. eexists. split; [reflexivity|]. split; [split; [lia|reflexivity]|reflexivity]. Qed.
(** What is read is what stands at the positions. *)
Theorem C102_fli_read lits l ps : Forall2 (stands_at lits) l ps -> fli_get_logic lits ps = Some (map logic_chr l).
Proof.
  induction 1 as [|x p l ps [P E] F IH]; [reflexivity|]. cbn [fli_get_logic fold_right map]. fold (fli_get_logic lits ps). rewrite IH. destruct (Z.ltb_spec p 0); [lia|]. now rewrite E.
Qed.
Print Assumptions C102_fli_read.
Example C102_fli_read_ex : Forall2 (stands_at std_lits) [LH; LD] [7; 8] /\ fli_get_logic std_lits [7; 8] = Some (lit "H-").
Proof. split; [repeat constructor; cbn; lia|reflexivity]. Qed.
(** Integers: the number is set, and the text with which it is forced is that of the number. *)
Theorem C102_fli_integer is_var z s a : conv (KInteger 32 1) (PInt z) = Ok s -> (a = GForce -> z <> - 2 ^ 31) ->
  exists t, TextModel.py_int10 t = Ok (Z.abs z) /\
  fli_write is_var FcInt a s =
    match a with
    | GDeposit | GNoDelay => Calls [FSet (FvNum z)]
    | GForce => Calls (if is_var then [] else [FForce ((if z <? 0 then lit "-" else []) ++ lit "10#" ++ t)])
    | GRelease => Calls (if is_var then [] else [FRelease])
    end.
Proof.
  intros C A. exists (XmlModel.py_str_int (Z.abs z)). split; [apply InitProofs.py_int_str_any|].
  destruct (C41_integer_pf 32 1 z ltac:(lia)) as [X B].
  assert (I : in_bounds 32 1 z).
  { destruct (Z_le_dec (- 2 ^ 31) z) as [P|P]; [destruct (Z_lt_dec z (2 ^ 31)) as [Q|Q]; [cbn; lia|]|]; rewrite B in C; try discriminate C; cbn; lia. }
  rewrite (X I) in C. cbn [Nat.leb] in C. injection C as <-. change (in_bounds 32 1 z) with (- 2 ^ 31 <= z < 2 ^ 31) in I.
  cbn [fli_write fli_int]. rewrite (to_int32_id z I). destruct a; try (destruct is_var; reflexivity). cbn [fli_act]. destruct is_var; [reflexivity|].
  destruct (Z.eqb_spec z (- 2 ^ 31)) as [E|E]; [exfalso; now apply A|reflexivity].
Qed.
Print Assumptions C102_fli_integer.
Example C102_fli_integer_ex : exists s, conv (KInteger 32 1) (PInt (-7)) = Ok s /\ fli_write false FcInt GForce s = Calls [FForce (lit "-10#7")].
Proof. eexists. split; reflexivity. Qed.

(** * VPI *)
(** Logic arrays of any width receive the elements of the value; the flag is that of the action. *)
Theorem C102_vpi_array strvar cur n v s a : real_value v -> conv (KLogicArray n) v = Ok s -> a <> GRelease ->
  exists l p, List.length l = n /\ delivered n s = Some l /\ vpi_means n p = Some l /\
  vpi_write strvar cur a s = Calls [match a with
    | GForce => PPut p true PfForce
    | GDeposit => if strvar then PPut p false PfNoDelay else PPut p true PfInertialDelay
    | _ => PPut p false PfNoDelay end].
Proof.
  intros R C A. destruct (array_value n v s R C) as (l & L & D & H). exists l, (vpi_value s). split; [exact L|]. split; [exact D|]. split.
  - destruct H as [(N & z & -> & ->)| ->]; cbn [vpi_value vpi_means]; [now rewrite bits_int32|now rewrite logics_of_chars].
  - destruct a; try (now destruct A); try reflexivity. cbn [vpi_write]. now destruct strvar.
Qed.
Print Assumptions C102_vpi_array.
Example C102_vpi_array_ex : exists s, conv (KLogicArray 32) (PInt 4294967295) = Ok s /\ vpi_write false (fun v => v) GDeposit s = Calls [PPut (PvInt (-1)) true PfInertialDelay] /\
  vpi_means 4 (PvInt (-1)) = Some [L1; L1; L1; L1].
Proof. eexists. repeat split; reflexivity. Qed.
(** Integers and enumerations of any width up to 32 bits, likewise. *)
Theorem C102_vpi_integer strvar cur n signed z s a : (0 < n)%nat -> conv (KInteger n signed) (PInt z) = Ok s -> a <> GRelease ->
  exists p t f, vpi_write strvar cur a s = Calls [PPut p t f] /\ vpi_means n p = Some (bits n z).
Proof.
  intros N C A. destruct (C41_integer_pf n signed z N) as [X B].
  assert (D : in_bounds n signed z).
  { cbn [conv conv_integer] in C. destruct (negb ((min_val n signed <=? z) && (z <=? max_val n signed))) eqn:E; [discriminate C|]. apply negb_false_iff in E. now apply (in_bounds_eq n signed z N). }
  rewrite (X D) in C. injection C as <-. exists (vpi_value (if (n <=? 32)%nat then SInt z else SStr (map logic_chr (bits n z)))). 
  assert (M : vpi_means n (vpi_value (if (n <=? 32)%nat then SInt z else SStr (map logic_chr (bits n z)))) = Some (bits n z)).
  { destruct (Nat.leb_spec n 32); cbn [vpi_value vpi_means]; [now rewrite bits_int32|now rewrite logics_of_chars]. }
  unfold vpi_write. destruct a; try (now destruct A); try destruct strvar; do 2 eexists; split; try reflexivity; exact M.
Qed.
Print Assumptions C102_vpi_integer.
Example C102_vpi_integer_ex : exists s, conv (KInteger 64 1) (PInt (-1)) = Ok s /\ vpi_write false (fun v => v) GDeposit s = Calls [PPut (PvBin (repeat 49 64)) true PfInertialDelay].
Proof. eexists. split; reflexivity. Qed.
(** A release hands the current value over, not the one of the argument. *)
Theorem C102_vpi_release strvar cur s : vpi_write strvar cur GRelease s = Calls [PPut (cur (vpi_value s)) true PfRelease].
Proof. reflexivity. Qed.
Print Assumptions C102_vpi_release.
Example C102_vpi_release_ex : vpi_write false (fun _ => PvInt 9) GRelease (SInt 1) = Calls [PPut (PvInt 9) true PfRelease].
Proof. reflexivity. Qed.
(** Every action of Python is one of the interface, with the same meaning. *)
Theorem C102_actions : map (fun n => gact_of (act_value n)) act_decl = [Some GDeposit; Some GForce; Some GRelease; Some GNoDelay; Some GDeposit].
Proof. reflexivity. Qed.
Print Assumptions C102_actions.

(** * Reading *)
(** An array of logic values read as a text, in any case of the letters, has the elements which the text names. *)
Theorem C102_read n text l rd id : upper text = map logic_chr l -> get_binstr (Some text) = Calls [rd_binstr rd id] ->
  exists a, leaf_get (KLogicArray n) rd id = Ok (PLarr a) /\ elems a = l.
Proof.
  intros U G. injection G as G. rewrite U in G. cbn [leaf_get]. rewrite <- G.
  assert (F : Forall (fun c => In c (lit "UX01ZWLH-")) (map logic_chr l)).
  { clear. apply Forall_forall. intros c I. apply in_map_iff in I. destruct I as (x & <- & _). destruct x; cbn; tauto. }
  pose proof (LogicArrayRefine.from_handle_rep (map logic_chr l) false F) as Q. fold (logics_of_str (map logic_chr l)) in Q. rewrite logics_of_chars in Q. cbn [bind] in Q.
  unfold from_handle in *. destruct (downto_range (py_len (map logic_chr l))) as [r|e] eqn:E; cbn [bind] in Q |- *.
  - eexists. split; [reflexivity|]. destruct (s_attach l None) as [x|] eqn:S; [|destruct Q]. apply LogicArrayThms.rres_ok in Q. rewrite (proj1 Q). cbn in S. now injection S as <-.
  - destruct (s_attach l None) eqn:S; [destruct Q|discriminate S].
Qed.
Print Assumptions C102_read.
Example C102_read_ex : upper (lit "0x1z") = map logic_chr [L0; LX; L1; LZ] /\ get_binstr (Some (lit "0x1z")) = Calls [lit "0X1Z"].
Proof. split; reflexivity. Qed.
(** Written and read again through the VHPI and the FLI: a simulator which keeps the positions it was given gives the same elements. *)
Theorem C102_roundtrip n v s rd rd' id is_var : real_value v -> conv (KLogicArray n) v = Ok s ->
  exists l ps, List.length l = n /\ delivered n s = Some l /\
  vh_write (vh_logic true n) GDeposit s = Calls [(VvEnums ps, VmDepositPropagate)] /\ fli_write is_var (FcLogicArray n std_lits) GDeposit s = Calls [FSet (FvBuf ps)] /\
  (get_binstr (Some (vh_get_binstr (vh_logic true n) (map (fun p => nth (Z.to_nat p) (lit "UX01ZWLH-") 0) ps))) = Calls [rd_binstr rd id] ->
   exists a, leaf_get (KLogicArray n) rd id = Ok (PLarr a) /\ elems a = l) /\
  (get_binstr (fli_get_logic std_lits ps) = Calls [rd_binstr rd' id] -> exists a, leaf_get (KLogicArray n) rd' id = Ok (PLarr a) /\ elems a = l).
Proof.
  intros R C. destruct (C102_vhpi_array n v s GDeposit R C) as (l & L & D & W). exists l, (map std_position l).
  assert (F : Forall2 (stands_at std_lits) l (map std_position l)).
  { clear. induction l as [|x l IH]; [constructor|]. cbn [map]. constructor; [destruct x; (split; [vm_compute; discriminate|reflexivity])|exact IH]. }
  assert (ND : NoDup (map (fun l => nth 1 l 0) std_lits)) by (repeat constructor; cbn; intuition discriminate).
  destruct (C102_fli_array is_var std_lits n v s GDeposit (map std_position l) R C ND) as (l' & _ & D' & W').
  { intros x X. rewrite D in X. injection X as <-. exact F. }
  assert (U : upper (map logic_chr l) = map logic_chr l) by (unfold upper; rewrite map_map; apply map_ext; intro x; now destruct x).
  split; [exact L|]. split; [exact D|]. split; [exact W|]. split; [exact W'|]. split; intro G.
  - assert (T : map (fun p => nth (Z.to_nat p) (lit "UX01ZWLH-") 0) (map std_position l) = map logic_chr l) by (rewrite map_map; apply map_ext; intro x; now destruct x).
    rewrite T in G. assert (V : vh_get_binstr (vh_logic true n) (map logic_chr l) = map logic_chr l).
    { cbn [vh_get_binstr vh_logic vo_fmt vo_num]. destruct (Nat.eqb_spec n 0) as [N|N]; [|reflexivity]. subst n. destruct l; [reflexivity|discriminate N]. }
    rewrite V in G. exact (C102_read n (map logic_chr l) l rd id U G).
  - rewrite (C102_fli_read std_lits l _ F) in G. exact (C102_read n (map logic_chr l) l rd' id U G).
Qed.
Print Assumptions C102_roundtrip.
Example C102_roundtrip_ex : exists s, conv (KLogicArray 2) (PStr (lit "hZ")) = Ok s /\ vh_write (vh_logic true 2) GDeposit s = Calls [(VvEnums [7; 4], VmDepositPropagate)] /\
  get_binstr (Some (vh_get_binstr (vh_logic true 2) (map (fun p => nth (Z.to_nat p) (lit "UX01ZWLH-") 0) [7; 4]))) = Calls [lit "HZ"] /\
  get_binstr (fli_get_logic std_lits [7; 4]) = Calls [lit "HZ"].
Proof. eexists. repeat split; reflexivity. Qed.
(** The class of the handle of an enumerated type is chosen by its literals, unless the name of the type starts like that of a standard one. *)
Theorem C102_kinds name lits n : (forall p, In p [lit "BIT"; lit "STD_ULOGIC"; lit "STD_LOGIC"; lit "CHARACTER"; lit "BOOLEAN"] -> prefixed p name = false) ->
  vh_enum_kind name std_lits n = KLogic /\ vh_enum_kind name bit_lits n = KLogic /\ vh_enum_kind name [lit "FALSE"; lit "TRUE"] n = KInteger n 1 /\
  (List.length lits <> 2%nat -> List.length lits <> 9%nat -> List.length lits <> 256%nat -> vh_enum_kind name lits n = KEnum n (-1)).
Proof.
  intro P. unfold vh_enum_kind, is_enum_logic, is_enum_char, is_enum_boolean.
  rewrite (P (lit "BIT")), (P (lit "STD_ULOGIC")), (P (lit "STD_LOGIC")), (P (lit "CHARACTER")), (P (lit "BOOLEAN")) by (cbn [In]; tauto). cbn [orb].
  split; [reflexivity|]. split; [reflexivity|]. split; [reflexivity|]. intros A B E.
  assert (N256 : Nat.eqb (List.length lits) 256 = false) by (now apply Nat.eqb_neq). rewrite N256.
  assert (L : match List.length lits with 2%nat => all_quoted [lit "0"; lit "1"] lits | 9%nat => all_quoted (map (fun c => [c]) logic_chars) lits | _ => false end = false).
  { destruct (List.length lits) as [|[|[|[|[|[|[|[|[|[|k]]]]]]]]]]; try reflexivity; lia. }
  rewrite L. destruct lits as [|x [|y [|z lits]]]; try reflexivity. now destruct A.
Qed.
Print Assumptions C102_kinds.
Example C102_kinds_ex : (forall p, In p [lit "BIT"; lit "STD_ULOGIC"; lit "STD_LOGIC"; lit "CHARACTER"; lit "BOOLEAN"] -> prefixed p (lit "STATE_T") = false) /\
  vh_enum_kind (lit "STATE_T") [lit "IDLE"; lit "RUN"; lit "STOP"] 32 = KEnum 32 (-1).
Proof. split; [intros p [<-|[<-|[<-|[<-|[<-|[]]]]]]; reflexivity|reflexivity]. Qed.

(** * What does not hold *)
(** A type [bit_order_t] is taken for a logic type because of its name: 1 is written as position 3, which it does not have. *)
Theorem C102_name_refuted : exists name lits s, vh_enum_kind name lits 32 = KLogic /\ List.length lits = 3%nat /\ ~ In (lit "'1'") lits /\
  conv KLogic (PInt 1) = Ok s /\ vh_write (vh_logic false 1) GDeposit s = Calls [(VvEnum 3, VmDepositPropagate)] /\
  conv (vh_enum_kind name lits 32) (PInt 2) = Err ValueError.
Proof.
  exists (lit "BIT_ORDER_T"), [lit "MSB_FIRST"; lit "LSB_FIRST"; lit "MIXED"]. eexists. split; [reflexivity|]. split; [reflexivity|]. split; [cbn; intuition discriminate|].
  repeat split; reflexivity.
Qed.
Print Assumptions C102_name_refuted.
(** Integers of 64 bits (VHDL-2019): the write is accepted, raises nothing and does nothing. *)
Theorem C102_long_refuted : exists o s, vh_signal VLongIntVal 0 = Some o /\ conv (KInteger (vo_num o) (vh_signed true)) (PInt 5) = Ok s /\ bind_check s = None /\
  vh_write o GDeposit s = Calls [].
Proof. do 2 eexists. split; [reflexivity|]. split; [vm_compute; reflexivity|]. split; reflexivity. Qed.
Print Assumptions C102_long_refuted.
(** With the FLI variables cannot be forced, nor real signals: nothing is raised and nothing is done. *)
Theorem C102_force_refuted : exists s t, conv (KInteger 32 1) (PInt 5) = Ok s /\ bind_check s = None /\ fli_write true FcInt GForce s = Calls [] /\ fli_write true FcInt GRelease s = Calls [] /\
  conv KReal (PFloat 7) = Ok t /\ bind_check t = None /\ fli_write false FcReal GForce t = Calls [].
Proof. do 2 eexists. repeat split; reflexivity. Qed.
Print Assumptions C102_force_refuted.
(** With the FLI, forcing the lowest integer is undefined. *)
Theorem C102_lowest_refuted : exists s, conv (KInteger 32 1) (PInt (- 2 ^ 31)) = Ok s /\ bind_check s = None /\ fli_write false FcInt GForce s = Undefined.
Proof. eexists. repeat split; reflexivity. Qed.
Print Assumptions C102_lowest_refuted.
(** With the FLI an enumeration is said to have one bit: positions from 2 on cannot be written and are read wrongly. *)
Theorem C102_fli_enum_refuted : exists k, fli_kind (FcEnum 5) = Some k /\ conv k (PInt 2) = Err ValueError /\
  forall rd id, rd_long rd id = 2 -> leaf_get k rd id = Ok (PInt 0).
Proof. eexists. split; [reflexivity|]. split; [reflexivity|]. intros rd id E. cbn [leaf_get]. unfold get_int. cbn [Nat.leb bind]. rewrite E. reflexivity. Qed.
Print Assumptions C102_fli_enum_refuted.
(** With the FLI the position one behind the last is let through, and -1 does nothing. *)
Theorem C102_fli_position_refuted : exists k s t, fli_kind (FcEnum 1) = Some k /\ conv k (PInt 1) = Ok s /\ fli_write false (FcEnum 1) GDeposit s = Calls [FSet (FvNum 1)] /\
  conv k (PInt (-1)) = Ok t /\ bind_check t = None /\ fli_write false (FcEnum 1) GDeposit t = Calls [].
Proof. do 3 eexists. repeat split; reflexivity. Qed.
Print Assumptions C102_fli_position_refuted.
(** With the FLI, a value which the type [bit] does not have is written as its first literal. *)
Theorem C102_bit_refuted : exists s t, conv KLogic (PStr (lit "X")) = Ok s /\ conv KLogic (PInt 0) = Ok t /\ s <> t /\
  fli_write false (FcLogic bit_lits) GDeposit s = fli_write false (FcLogic bit_lits) GDeposit t /\ fli_get_logic bit_lits [0] = Some (lit "0").
Proof. do 2 eexists. split; [reflexivity|]. split; [reflexivity|]. split; [discriminate|]. split; reflexivity. Qed.
Print Assumptions C102_bit_refuted.
(** Characters from 128 on cannot be written through the VHPI, and are read as negative numbers. *)
Theorem C102_character_refuted : exists o, vh_signal VCharVal 0 = Some o /\ vh_enum_kind (lit "CHARACTER") [] (vo_num o) = KInteger 8 1 /\
  conv (KInteger 8 1) (PInt 200) = Err ValueError /\ forall rd id, rd_long rd id = vh_get_long 200 -> leaf_get (KInteger 8 1) rd id = Ok (PInt (-56)).
Proof. eexists. split; [reflexivity|]. split; [reflexivity|]. split; [reflexivity|]. intros rd id E. cbn [leaf_get]. unfold get_int. cbn [Nat.leb bind]. rewrite E. reflexivity. Qed.
Print Assumptions C102_character_refuted.
(** A text which the simulator does not give is not found out: the check comes after the assignment. For strings it does its work. *)
Theorem C102_null_refuted : get_binstr None = Undefined /\ get_str None = Err RuntimeError.
Proof. split; reflexivity. Qed.
Print Assumptions C102_null_refuted.

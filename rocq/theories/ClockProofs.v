(** Proofs about clocks. *)
From Coq Require Import String QArith Qround Lqa.
From Verif Require Import Base TextModel TimeModel TimeSpec TimeProofs ClockModel ClockSpec.
Open Scope Z_scope.

(** * The waveform *)
Lemma timer_int prec k : timer prec (NInt k) (lit "step") RError = if k <=? 0 then Err ValueError else Ok k.
Proof.
  destruct (timer_pf prec (NInt k) (lit "step") RError) as (A & B & _). cbn [val] in *.
  destruct (Z.leb_spec k 0) as [L|L].
  - apply A. change 0%Q with (inject_Z 0). now apply inject_le.
  - assert (P : (0 < inject_Z k)%Q) by (change 0%Q with (inject_Z 0); now apply inject_lt).
    specialize (B P). rewrite sim_steps_step, (exactly_int RError _ k) in B; [|discriminate|reflexivity]. rewrite B. f_equal. lia.
Qed.
Lemma drive_ok prec c sh n t0 : 0 < period_high_steps c < period_steps c ->
  drive prec c sh n t0 = Ok (let h := period_high_steps c in let l := period_steps c - h in
    if sh then (t0, 1) :: drive_loop h l n (t0 + h) else drive_loop h l n t0).
Proof.
  intro H. unfold drive. rewrite !timer_int. destruct (Z.leb_spec (period_high_steps c) 0); [lia|].
  cbn [bind]. destruct (Z.leb_spec (period_steps c - period_high_steps c) 0); [lia|]. reflexivity.
Qed.
Lemma drive_err prec c sh n t0 : period_high_steps c <= 0 \/ period_steps c <= period_high_steps c ->
  drive prec c sh n t0 = Err ValueError.
Proof.
  intro H. unfold drive. rewrite !timer_int. destruct (Z.leb_spec (period_high_steps c) 0); [reflexivity|].
  cbn [bind]. destruct (Z.leb_spec (period_steps c - period_high_steps c) 0); [reflexivity|lia].
Qed.
Lemma value_early ws t : (forall u v, In (u, v) ws -> t < u) -> value_at ws t = None.
Proof.
  destruct ws as [|[u v] ws]; [reflexivity|]. intro H. cbn. specialize (H u v (or_introl eq_refl)).
  destruct (Z.ltb_spec t u); [reflexivity|lia].
Qed.
Lemma loop_times h l n : 0 < h -> 0 < l -> forall t u v, In (u, v) (drive_loop h l n t) -> t <= u.
Proof.
  intros Hh Hl. induction n as [|n IH]; cbn; intros t u v H; [destruct H|].
  destruct H as [H|[H|H]]; [injection H as <- _; lia|injection H as <- _; lia|]. apply IH in H. lia.
Qed.
Lemma loop_wave h l n : 0 < h -> 0 < l -> forall t x, 0 <= x < Z.of_nat n * (h + l) ->
  value_at (drive_loop h l n t) (t + x) = Some (if x mod (h + l) <? l then 0 else 1).
Proof.
  intros Hh Hl. induction n as [|n IH]; intros t x Hx; [lia|]. cbn [drive_loop value_at].
  destruct (Z.ltb_spec (t + x) t); [lia|]. destruct (Z.lt_ge_cases x (h + l)) as [L|G].
  - rewrite Z.mod_small by lia. destruct (Z.ltb_spec (t + x) (t + l)).
    + destruct (Z.ltb_spec x l); [reflexivity|lia].
    + rewrite value_early by (intros u v I; apply loop_times in I; lia). destruct (Z.ltb_spec x l); [lia|reflexivity].
  - destruct (Z.ltb_spec (t + x) (t + l)); [lia|].
    replace (t + x) with (t + l + h + (x - (h + l))) by lia. rewrite IH by lia.
    replace x with (x - (h + l) + 1 * (h + l)) at 2 by lia. rewrite Z.mod_add by lia. reflexivity.
Qed.
Lemma wave_pf prec c sh n t0 : 0 < period_high_steps c < period_steps c ->
  exists ws, drive prec c sh n t0 = Ok ws /\
    forall x, 0 <= x < Z.of_nat n * period_steps c -> value_at ws (t0 + x) = Some (wanted sh (period_steps c) (period_high_steps c) x).
Proof.
  intro H. eexists. split; [apply drive_ok; exact H|]. cbv zeta. set (h := period_high_steps c) in *. set (p := period_steps c) in *.
  intros x Hx. unfold wanted. pose proof (loop_wave h (p - h) n ltac:(lia) ltac:(lia)) as W. replace (h + (p - h)) with p in W by lia. destruct sh.
  - cbn [value_at]. destruct (Z.ltb_spec (t0 + x) t0); [lia|]. destruct (Z.lt_ge_cases x h) as [L|G].
    + rewrite value_early by (intros u v I; apply loop_times in I; lia). rewrite Z.mod_small by lia. destruct (Z.ltb_spec x h); [reflexivity|lia].
    + replace (t0 + x) with (t0 + h + (x - h)) by lia. rewrite W by lia.
      (* x - h mod p < p - h  <->  x mod p >= h *)
      assert (E : (x - h) mod p = if x mod p <? h then x mod p - h + p else x mod p - h).
      { pose proof (Z.mod_pos_bound x p ltac:(lia)). pose proof (Z.div_mod x p ltac:(lia)).
        destruct (Z.ltb_spec (x mod p) h); symmetry; [apply Z.mod_unique_pos with (x / p - 1)|apply Z.mod_unique_pos with (x / p)]; lia. }
      rewrite E. pose proof (Z.mod_pos_bound x p ltac:(lia)). destruct (Z.ltb_spec (x mod p) h).
      * destruct (Z.ltb_spec (x mod p - h + p) (p - h)); [lia|reflexivity].
      * destruct (Z.ltb_spec (x mod p - h) (p - h)); [reflexivity|lia].
  - rewrite W by lia. reflexivity.
Qed.

(** * The constructor *)
Lemma init_none prec period unit c : clock_init prec period unit None = Ok c <->
  exists p, sim_steps prec period unit RError = Ok p /\ p = 2 * period_high_steps c /\ period_steps c = p.
Proof.
  unfold clock_init. destruct (sim_steps prec period unit RError) as [p|e]; cbn [bind].
  - destruct (Z.eqb_spec (p mod 2) 0) as [E|N]; cbn [negb]; split.
    + intro H. injection H as <-. exists p. cbn [period_steps period_high_steps]. split; [reflexivity|]. split; [|reflexivity].
      pose proof (Z.div_mod p 2 ltac:(lia)).
 lia.
    + intros (q & H & A & B). injection H as <-. f_equal. destruct c as [a b]. cbn [period_steps period_high_steps] in *. f_equal; [congruence|]. rewrite A, Z.mul_comm. apply Z.div_mul. lia.
    + discriminate.
    + intros (q & H & A & B). injection H as <-. exfalso. apply N. rewrite A, Z.mul_comm. apply Z.mod_mul. lia.
  - split; [discriminate|]. intros (q & H & _). discriminate.
Qed.
Lemma init_some prec period unit h c : clock_init prec period unit (Some h) = Ok c <->
  sim_steps prec period unit RError = Ok (period_steps c) /\ sim_steps prec h unit RError = Ok (period_high_steps c) /\ (val h < val period)%Q.
Proof.
  unfold clock_init. destruct (sim_steps prec period unit RError) as [p|e]; cbn [bind]; [|split; [discriminate|intros (H & _); discriminate]].
  destruct (Qle_bool (val period) (val h)) eqn:E.
  - apply Qle_bool_iff in E. split; [discriminate|]. intros (_ & _ & L). exfalso. lra.
  - assert (L : (val h < val period)%Q) by (apply Qnot_le_lt; intro C; apply Qle_bool_iff in C; congruence).
    destruct (sim_steps prec h unit RError) as [x|e]; cbn [bind]; [|split; [discriminate|intros (_ & H & _); discriminate]].
    split.
    + intro H. injection H as <-. auto.
    + intros (A & B & _). injection A as A. injection B as B. destruct c. cbn in *. now subst.
Qed.

(** * Edges *)
Lemma next_of_spec a p t : 0 < p -> (exists k, 0 <= k /\ next_of a p t = a + k * p) /\ t <= next_of a p t /\
  (forall k, 0 <= k -> t <= a + k * p -> next_of a p t <= a + k * p).
Proof.
  intro Hp. unfold next_of. destruct (Z.leb_spec t a).
  - split; [exists 0; lia|]. split; [lia|]. intros k Hk _. nia.
  - set (m := (t - a + p - 1) / p). assert (M1 : 0 <= m) by (apply Z.div_pos; lia).
    pose proof (Z.div_mod (t - a + p - 1) p ltac:(lia)) as D. pose proof (Z.mod_pos_bound (t - a + p - 1) p Hp). fold m in D.
    split; [exists m; lia|]. split; [nia|]. intros k Hk L.
    assert (m <= k); [|nia]. assert (p * m < p * (k + 1)) by nia. nia.
Qed.
Lemma next_edge_spec w e pos : 0 < per w -> let t := fst (next_edge w e pos) in
  edge_at w e t /\ to_come pos t /\ forall t', edge_at w e t' -> to_come pos t' -> t <= t'.
Proof.
  intro Hp. cbv zeta. destruct pos as [x b]. unfold to_come. cbn [fst snd next_edge].
  pose proof (next_of_spec (first_rise w) (per w) (if b then x + 1 else x) Hp) as (R1 & R2 & R3).
  pose proof (next_of_spec (first_fall w) (per w) (if b then x + 1 else x) Hp) as (F1 & F2 & F3).
  destruct e; cbn [edge_at].
  - split; [exact R1|]. split; [destruct b; lia|]. intros t' (k & Hk & ->) C. apply R3; [exact Hk|destruct b; lia].
  - split; [exact F1|]. split; [destruct b; lia|]. intros t' (k & Hk & ->) C. apply F3; [exact Hk|destruct b; lia].
  - split.
    { destruct R1 as (k & Hk & E), F1 as (k' & Hk' & E'). destruct (Z.min_spec (next_of (first_rise w) (per w) (if b then x + 1 else x)) (next_of (first_fall w) (per w) (if b then x + 1 else x))) as [[_ ->]|[_ ->]].
      - exists k. tauto.
      - exists k'. tauto. }
    split; [destruct b; lia|]. intros t' (k & Hk & [-> | ->]) C.
    + assert (A := R3 k Hk). destruct b; lia.
    + assert (A := F3 k Hk). destruct b; lia.
Qed.
Lemma next_edge_eq w e pos t : 0 < per w -> edge_at w e t -> to_come pos t -> (forall t', edge_at w e t' -> to_come pos t' -> t <= t') ->
  next_edge w e pos = (t, true).
Proof.
  intros Hp E C M. destruct (next_edge_spec w e pos Hp) as (E' & C' & M').
  assert (fst (next_edge w e pos) = t) by (apply Z.le_antisymm; auto). unfold next_edge in *. cbn [fst] in *. now rewrite H.
Qed.
Lemma await_nth w e n : 0 < per w -> forall pos0 m t, nth_edge (edge_at w e) pos0 m t ->
  exists t', await_edges w e n (t, true) = (t', true) /\ nth_edge (edge_at w e) pos0 (n + m) t'.
Proof.
  intro Hp. induction n as [|n IH]; intros pos0 m t H; [exists t; split; [reflexivity|exact H]|]. cbn [await_edges].
  destruct (next_edge_spec w e (t, true) Hp) as (E & C & M).
  destruct (next_edge w e (t, true)) as [t1 b] eqn:N. assert (b = true) by (unfold next_edge in N; now injection N). subst b. cbn [fst] in *.
  destruct (IH pos0 (S m) t1) as (t' & A & B); [apply later_edge with t; assumption|]. exists t'. split; [exact A|].
  replace (S n + m)%nat with (n + S m)%nat by lia. exact B.
Qed.
Lemma first_nth w e pos : 0 < per w -> exists t, next_edge w e pos = (t, true) /\ nth_edge (edge_at w e) pos 1 t /\ edge_at w e t.
Proof.
  intro Hp. destruct (next_edge_spec w e pos Hp) as (E & C & M). exists (fst (next_edge w e pos)).
  split; [reflexivity|]. split; [now constructor|exact E].
Qed.
Lemma mult_lt_lt p a b : 0 < p -> a * p < b * p -> a < b.
Proof. intros. nia. Qed.
Lemma single_nth w e pos t m : 0 < per w -> e <> Change -> edge_at w e t -> forall j, nth_edge (edge_at w e) pos j t ->
  nth_edge (edge_at w e) pos (m + j) (t + Z.of_nat m * per w) /\ edge_at w e (t + Z.of_nat m * per w).
Proof.
  intros Hp Hc E j H. set (p := per w) in *.
  assert (A : forall m, edge_at w e (t + Z.of_nat m * p)).
  { intro i. destruct e; try congruence; destruct E as (k & Hk & ->); exists (k + Z.of_nat i); (split; [lia|fold p; ring]). }
  split; [|apply A]. induction m as [|m IH]; [replace (t + Z.of_nat 0 * p) with t by lia; exact H|].
  apply later_edge with (t + Z.of_nat m * p); [exact IH|apply A|lia|].
  intros t'' E'' L. specialize (A m). destruct e; try congruence; destruct E'' as (k & Hk & ->), A as (k' & Hk' & A1); fold p in A1, L |- *;
    rewrite A1 in L; assert (k' < k) by (apply mult_lt_lt with p; lia); replace (t + Z.of_nat (S m) * p) with (t + Z.of_nat m * p + p) by lia; rewrite A1; nia.
Qed.
Lemma change_pair w pos t j : alternating w -> edge_at w Change t -> nth_edge (edge_at w Change) pos j t ->
  nth_edge (edge_at w Change) pos (2 + j) (t + per w) /\ edge_at w Change (t + per w).
Proof.
  intros (Hp & Al) E H. set (p := per w) in *. set (r := first_rise w) in *. set (f := first_fall w) in *.
  assert (G : forall a b, a < b < a + p -> (forall x, edge_at w Change x <-> exists k, 0 <= k /\ (x = a + k * p \/ x = b + k * p)) ->
     nth_edge (edge_at w Change) pos (2 + j) (t + p) /\ edge_at w Change (t + p)).
  { clear Al. intros a b Hab EQ. apply EQ in E. destruct E as (k & Hk & [E|E]).
    - assert (E1 : edge_at w Change (b + k * p)) by (apply EQ; exists k; tauto).
      assert (E2 : edge_at w Change (t + p)) by (apply EQ; exists (k + 1); split; [lia|left; rewrite E; ring]).
      split; [|exact E2]. apply later_edge with (b + k * p); [apply later_edge with t; [exact H|exact E1|lia|]|exact E2|lia|].
      + intros x X L. apply EQ in X. destruct X as (i & Hi & [-> | ->]).
        * assert (k < i) by (apply mult_lt_lt with p; lia). nia.
        * assert (k < i + 1) by (apply mult_lt_lt with p; lia). nia.
      + intros x X L. apply EQ in X. destruct X as (i & Hi & [-> | ->]).
        * assert (k < i) by (apply mult_lt_lt with p; lia). nia.
        * assert (k < i) by (apply mult_lt_lt with p; lia). nia.
    - assert (E1 : edge_at w Change (a + (k + 1) * p)) by (apply EQ; exists (k + 1); split; [lia|tauto]).
      assert (E2 : edge_at w Change (t + p)) by (apply EQ; exists (k + 1); split; [lia|right; rewrite E; ring]).
      split; [|exact E2]. apply later_edge with (a + (k + 1) * p); [apply later_edge with t; [exact H|exact E1|lia|]|exact E2|lia|].
      + intros x X L. apply EQ in X. destruct X as (i & Hi & [-> | ->]).
        * assert (k < i) by (apply mult_lt_lt with p; lia). nia.
        * assert (k < i) by (apply mult_lt_lt with p; lia). nia.
      + intros x X L. apply EQ in X. destruct X as (i & Hi & [-> | ->]).
        * assert (k + 1 < i) by (apply mult_lt_lt with p; lia). nia.
        * assert (k < i) by (apply mult_lt_lt with p; lia). nia. }
  destruct Al as [Al|Al].
  - apply (G r f Al). intro x. cbn [edge_at]. tauto.
  - apply (G f r Al). intro x. cbn [edge_at]. fold p r f. split; intros (k & Hk & D); exists k; tauto.
Qed.
Lemma change_nth w pos t m j : alternating w -> edge_at w Change t -> nth_edge (edge_at w Change) pos j t ->
  nth_edge (edge_at w Change) pos (2 * m + j) (t + Z.of_nat m * per w) /\ edge_at w Change (t + Z.of_nat m * per w).
Proof.
  intros Al E H. induction m as [|m [IH1 IH2]]; [replace (t + Z.of_nat 0 * per w) with t by lia; split; assumption|].
  destruct (change_pair w pos _ _ Al IH2 IH1) as [A B].
  replace (t + Z.of_nat (S m) * per w) with (t + Z.of_nat m * per w + per w) by lia.
  replace (2 * S m + j)%nat with (2 + (2 * m + j))%nat by lia. split; assumption.
Qed.
Lemma again w e t : 0 < per w -> edge_at w e t -> next_edge w e (t, false) = (t, true).
Proof. intros Hp E. apply next_edge_eq; [exact Hp|exact E|cbn; lia|]. intros t' _ C. cbn in C. lia. Qed.
Lemma half_exact x : (inject_Z (x * 2) / inject_Z 2 == inject_Z x)%Q.
Proof. rewrite inject_Z_mult. change (inject_Z 2) with 2%Q. field. Qed.
Lemma cycles_pf prec w n e pos : alternating w -> 0 < n ->
  (e = Change -> is_float (inject_Z (per w * ((n - 1) / 2)))) ->
  exists t, cycles false prec (per w) w n e pos = Ok (t, true) /\ nth_edge (edge_at w e) pos (Z.to_nat n) t.
Proof.
  intros Al Hn Fl. pose proof Al as [Hp _]. unfold cycles. destruct (Z.eqb_spec n 0); [lia|]. destruct (Z.ltb_spec n 0); [lia|].
  destruct (first_nth w e pos Hp) as (t1 & E1 & N1 & D1). rewrite E1. cbv zeta.
  destruct (Z.leb_spec 2 (n - 1)) as [L|L].
  - assert (X : e = Change \/ e <> Change) by (destruct e; [right|right|left]; congruence). destruct X as [X|X].
    + subst e. specialize (Fl eq_refl). set (m := (n - 1) / 2) in *.
      assert (Hm : 1 <= m) by (apply Z.div_le_lower_bound; lia). pose proof (Z.div_mod (n - 1) 2 ltac:(lia)) as D. pose proof (Z.mod_pos_bound (n - 1) 2 ltac:(lia)). fold m in D.
      assert (T : timer prec (NFloat (fl (inject_Z (per w * (m * 2)) / inject_Z 2))) (lit "step") RError = Ok (per w * m)).
      { assert (V : (fl (inject_Z (per w * (m * 2)) / inject_Z 2) == inject_Z (per w * m))%Q).
        { rewrite Z.mul_assoc, half_exact. now apply fl_exact. }
        destruct (timer_pf prec (NFloat (fl (inject_Z (per w * (m * 2)) / inject_Z 2))) (lit "step") RError) as (_ & B & _). cbn [val] in B.
        rewrite sim_steps_step, (exactly_int RError _ (per w * m)) in B; [|discriminate|exact V].
        rewrite B; [f_equal; nia|]. rewrite V. change 0%Q with (inject_Z 0). apply inject_lt. nia. }
      rewrite T. cbn [bind]. unfold after_timer. cbn [fst].
      destruct (change_nth w pos t1 (Z.to_nat m) 1 Al D1 N1) as [N2 D2]. rewrite Z2Nat.id in N2, D2 by lia. rewrite (Z.mul_comm m) in N2, D2.
      replace (Z.to_nat (n - 1 - m * 2 + 1)) with (S (Z.to_nat (n - 1 - m * 2))) by lia. cbn [await_edges].
      rewrite (again _ _ _ Hp D2). destruct (await_nth w Change (Z.to_nat (n - 1 - m * 2)) Hp _ _ _ N2) as (t' & A & B).
      exists t'. split; [now rewrite A|]. replace (Z.to_nat n) with (Z.to_nat (n - 1 - m * 2) + (2 * Z.to_nat m + 1))%nat by lia. exact B.
    + destruct (single_nth w e pos t1 (Z.to_nat (n - 1)) Hp X D1 1%nat N1) as [N2 D2]. rewrite Z2Nat.id in N2, D2 by lia. rewrite (Z.mul_comm (n - 1)) in N2, D2.
      assert (C : bind (timer prec (NInt (per w * (n - 1))) (lit "step") RError) (fun k => Ok (await_edges w e 1 (after_timer false (t1, true) k))) = Ok (t1 + per w * (n - 1), true)).
      { rewrite timer_int. destruct (Z.leb_spec (per w * (n - 1)) 0); [nia|]. cbn [bind]. unfold after_timer. change (fst (t1, true)) with t1. cbn [await_edges]. now rewrite (again _ _ _ Hp D2). }
      exists (t1 + per w * (n - 1)). split; [destruct e; [exact C|exact C|congruence]|]. replace (Z.to_nat n) with (Z.to_nat (n - 1) + 1)%nat by lia. exact N2.
  - destruct (await_nth w e (Z.to_nat (n - 1)) Hp _ _ _ N1) as (t' & A & B). exists t'. split; [now rewrite A|].
    replace (Z.to_nat n) with (Z.to_nat (n - 1) + 1)%nat by lia. exact B.
Qed.
(** The n-th edge is unique. *)
Lemma nth_edge_unique E pos n t : nth_edge E pos n t -> forall t', nth_edge E pos n t' -> t = t'.
Proof.
  induction 1 as [t A B C|n t u H IH A B C]; intros t' H'.
  - inversion H' as [? A' B' C'|? x ? K]; subst; [apply Z.le_antisymm; auto|]. inversion K.
  - inversion H' as [? A' B' C'|? x ? K A' B' C']; subst; [inversion H|]. apply IH in K. subst x. apply Z.le_antisymm; auto.
Qed.
Lemma cycles_zero late prec p w e pos : cycles late prec p w 0 e pos = Ok pos.
Proof. reflexivity. Qed.
Lemma cycles_negative late prec p w n e pos : n < 0 -> cycles late prec p w n e pos = Err ValueError.
Proof. intro H. unfold cycles. destruct (Z.eqb_spec n 0); [lia|]. destruct (Z.ltb_spec n 0); [reflexivity|lia]. Qed.

(** * Exact times are driven *)
Lemma exact_steps prec t u p : sim_steps prec (NFrac t) u RError = Ok p -> (u = lit "step" /\ t == inject_Z p)%Q \/ exists e, unit_exp u e /\ (t * 10 ^ (e - prec) == inject_Z p)%Q.
Proof.
  intro H. destruct (step_dec u) as [E|N].
  - left. split; [exact E|]. subst u. rewrite sim_steps_step in H. now apply apply_mode_ok in H.
  - destruct (log_time_scale u) as [e|x] eqn:S; [|rewrite sim_steps_unfold in H; apply is_step_false in N; rewrite N, S in H; discriminate].
    apply scale_ok in S. right. exists e. split; [exact S|]. rewrite (sim_steps_unit _ _ _ _ _ N S) in H. apply apply_mode_ok in H. unfold rounded in H.
    rewrite <- ldexp10_frac. exact H.
Qed.
Lemma exact_order prec t t' u p p' : sim_steps prec (NFrac t) u RError = Ok p -> sim_steps prec (NFrac t') u RError = Ok p' ->
  (t < t')%Q -> p < p'.
Proof.
  intros A B L. apply exact_steps in A, B. apply inject_lt.
  destruct A as [[E A]|(e & U & A)], B as [[E' B]|(e' & U' & B)].
  - lra.
  - subst u. exfalso. destruct U' as (w & I & S). cbn in I. destruct I as [H|[H|[H|[H|[H|[H|[]]]]]]]; injection H as <- <-; inversion S as [|? ? ? ? _ S']; inversion S' as [|? ? ? ? _ S2]; try inversion S2 as [|? ? ? ? _ S3]; try inversion S3.
  - subst u. exfalso. destruct U as (w & I & S). cbn in I. destruct I as [H|[H|[H|[H|[H|[H|[]]]]]]]; injection H as <- <-; inversion S as [|? ? ? ? _ S']; inversion S' as [|? ? ? ? _ S2]; try inversion S2 as [|? ? ? ? _ S3]; try inversion S3.
  - rewrite (unit_exp_unique _ _ _ U U') in *. pose proof (p10_pos (e' - prec)) as P. rewrite <- A, <- B. now apply Qmult_lt_r.
Qed.
Lemma exact_positive prec t u p : sim_steps prec (NFrac t) u RError = Ok p -> (0 < t)%Q -> 0 < p.
Proof.
  intros A L. apply exact_steps in A. apply inject_lt. change (inject_Z 0) with 0%Q. destruct A as [[E A]|(e & U & A)]; [lra|].
  rewrite <- A. apply Qmult_lt_0_compat; [exact L|apply p10_pos].
Qed.
Lemma exact_driven prec t u h c : clock_init prec (NFrac t) u h = Ok c -> (0 < t)%Q ->
  match h with Some (NFrac x) => (0 < x)%Q | Some _ => False | None => True end ->
  0 < period_high_steps c < period_steps c.
Proof.
  intros H P. destruct h as [[z|x|x]|]; try tauto; intro X.
  - apply init_some in H. destruct H as (A & B & L). cbn [val] in L. split; [eapply exact_positive; eassumption|eapply exact_order; eassumption].
  - apply init_none in H. destruct H as (p & A & B & C). apply exact_positive in A; [lia|exact P].
Qed.

(** * Where the edges of the waveform are *)
Lemma started_alternating c sh t0 : 0 < period_high_steps c < period_steps c -> alternating (started c sh t0).
Proof. intro H. unfold alternating, started. destruct sh; cbn; lia. Qed.
Lemma mod_pred x p : 0 < p -> (x - 1) mod p = if x mod p =? 0 then p - 1 else x mod p - 1.
Proof.
  intro Hp. pose proof (Z.mod_pos_bound x p Hp). pose proof (Z.div_mod x p ltac:(lia)).
  destruct (Z.eqb_spec (x mod p) 0); symmetry; [apply Z.mod_unique_pos with (x / p - 1)|apply Z.mod_unique_pos with (x / p)]; lia.
Qed.
Lemma mod_is x p r : 0 <= r < p -> (x mod p = r <-> exists k, x = r + k * p).
Proof.
  intro H. split.
  - intro E. exists (x / p). pose proof (Z.div_mod x p ltac:(lia)). lia.
  - intros (k & ->). rewrite Z.mod_add by lia. now apply Z.mod_small.
Qed.
Lemma wanted_edges sh p h x : 0 < h < p -> 0 < x ->
  ((wanted sh p h (x - 1) = 0 /\ wanted sh p h x = 1) <-> exists k, 0 <= k /\ x = (if sh then p else p - h) + k * p) /\
  ((wanted sh p h (x - 1) = 1 /\ wanted sh p h x = 0) <-> exists k, 0 <= k /\ x = (if sh then h else p) + k * p).
Proof.
  intros H Hx. unfold wanted. rewrite mod_pred by lia. pose proof (Z.mod_pos_bound x p ltac:(lia)) as B.
  assert (Z0 : x mod p = 0 <-> exists k, 0 <= k /\ x = p + k * p).
  { rewrite (mod_is x p 0) by lia. split; intros (k & E); [exists (k - 1)|exists (k + 1)]; nia. }
  assert (Zr : forall r, 0 < r < p -> (x mod p = r <-> exists k, 0 <= k /\ x = r + k * p)).
  { intros r Hr. rewrite (mod_is x p r) by lia. split; intros (k & E); exists k; nia. }
  destruct sh; split.
  - rewrite <- Z0. destruct (Z.eqb_spec (x mod p) 0) as [E|N].
    + rewrite E. destruct (Z.ltb_spec (p - 1) h); destruct (Z.ltb_spec 0 h); lia.
    + destruct (Z.ltb_spec (x mod p - 1) h); destruct (Z.ltb_spec (x mod p) h); lia.
  - rewrite <- Zr by lia. destruct (Z.eqb_spec (x mod p) 0) as [E|N].
    + rewrite E. destruct (Z.ltb_spec (p - 1) h); destruct (Z.ltb_spec 0 h); lia.
    + destruct (Z.ltb_spec (x mod p - 1) h); destruct (Z.ltb_spec (x mod p) h); lia.
  - rewrite <- Zr by lia. destruct (Z.eqb_spec (x mod p) 0) as [E|N].
    + rewrite E. destruct (Z.ltb_spec (p - 1) (p - h)); destruct (Z.ltb_spec 0 (p - h)); lia.
    + destruct (Z.ltb_spec (x mod p - 1) (p - h)); destruct (Z.ltb_spec (x mod p) (p - h)); lia.
  - rewrite <- Z0. destruct (Z.eqb_spec (x mod p) 0) as [E|N].
    + rewrite E. destruct (Z.ltb_spec (p - 1) (p - h)); destruct (Z.ltb_spec 0 (p - h)); lia.
    + destruct (Z.ltb_spec (x mod p - 1) (p - h)); destruct (Z.ltb_spec (x mod p) (p - h)); lia.
Qed.
Lemma edges_pf prec c sh n t0 ws x : 0 < period_high_steps c < period_steps c -> drive prec c sh n t0 = Ok ws ->
  0 < x < Z.of_nat n * period_steps c ->
  ((value_at ws (t0 + x - 1) = Some 0 /\ value_at ws (t0 + x) = Some 1) <-> edge_at (started c sh t0) Rising (t0 + x)) /\
  ((value_at ws (t0 + x - 1) = Some 1 /\ value_at ws (t0 + x) = Some 0) <-> edge_at (started c sh t0) Falling (t0 + x)).
Proof.
  intros H D Hx. destruct (wave_pf prec c sh n t0 H) as (ws' & D' & W). rewrite D in D'. injection D' as <-.
  replace (t0 + x - 1) with (t0 + (x - 1)) by lia. rewrite !W by lia.
  destruct (wanted_edges sh (period_steps c) (period_high_steps c) x H ltac:(lia)) as [A B].
  assert (S : forall a b : Z, Some a = Some b <-> a = b) by (intros; split; congruence). rewrite !S, A, B.
  unfold edge_at, started. destruct sh; cbn [first_rise first_fall per]; split; split; intros (k & Hk & E); exists k; lia.
Qed.

(** Every other edge of a clock with period 3. *)
Lemma third_edges m : (0 <=? m) = true -> nth_edge (edge_at (Running 0 1 3) Change) (0, false) (Z.to_nat (2 * m + 1)) (m * 3).
Proof.
  intro Hm. apply Z.leb_le in Hm. assert (Al : alternating (Running 0 1 3)) by (split; cbn; lia).
  destruct (change_nth (Running 0 1 3) (0, false) 0 (Z.to_nat m) 1 Al) as [A _].
  - exists 0. cbn. lia.
  - constructor; [exists 0; cbn; lia|cbn; lia|]. intros t' _ C. cbn in C. lia.
  - rewrite Z2Nat.id in A by lia. replace (Z.to_nat (2 * m + 1)) with (2 * Z.to_nat m + 1)%nat by lia. exact A.
Qed.

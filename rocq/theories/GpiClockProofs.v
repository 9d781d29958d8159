(** Proofs about the two implementations of a clock. *)
From Verif Require Import Base TextModel TimeModel ClockModel ClockProofs GpiClockModel.
From Coq Require Import ZArith Lia List.
Import ListNotations.
Open Scope Z_scope.

Lemma uint_small n : 0 <= n < 2 ^ 64 -> uint64 n = n.
Proof. intro H. apply Z.mod_small. exact H. Qed.
Lemma refuses_spec p h : refuses p h = true <-> h < 1 \/ p <= h \/ p < 2.
Proof. unfold refuses. rewrite !Bool.orb_true_iff, !Z.ltb_lt, Z.leb_le. tauto. Qed.
Lemma toggles_loop p h : 0 < h < p -> p < 2 ^ 64 -> forall n t, toggles p h false (2 * n) t = drive_loop h (p - h) n t.
Proof.
  intros H P n. induction n as [|n IH]; intro t; [reflexivity|].
  replace (2 * S n)%nat with (S (S (2 * n))) by (clear; induction n; cbn in *; auto; rewrite <- ?plus_n_Sm in *; auto).
  cbn [toggles negb drive_loop]. rewrite Z.mod_small by lia. rewrite IH. reflexivity.
Qed.
Theorem agree_pf prec c sh n t0 : 0 < period_high_steps c < period_steps c -> period_steps c < 2 ^ 64 ->
  gpi_drive c sh (2 * n + if sh then 1 else 0) t0 = drive prec c sh n t0.
Proof.
  intros H P. rewrite (drive_ok prec c sh n t0 H). unfold gpi_drive. rewrite !uint_small by lia.
  destruct (refuses (period_steps c) (period_high_steps c)) eqn:R; [apply refuses_spec in R; lia|]. f_equal. destruct sh.
  - rewrite Nat.add_1_r. cbn [toggles negb]. rewrite toggles_loop by assumption. reflexivity.
  - rewrite Nat.add_0_r. apply toggles_loop; assumption.
Qed.
Theorem refused_pf prec c sh n m t0 : 0 <= period_steps c < 2 ^ 64 -> 0 <= period_high_steps c < 2 ^ 64 ->
  (gpi_drive c sh m t0 = Err ValueError <-> drive prec c sh n t0 = Err ValueError).
Proof.
  intros P H. unfold gpi_drive. rewrite !uint_small by assumption. destruct (refuses (period_steps c) (period_high_steps c)) eqn:R.
  - apply refuses_spec in R. rewrite drive_err by lia. tauto.
  - assert (N : ~ (period_high_steps c < 1 \/ period_steps c <= period_high_steps c \/ period_steps c < 2)) by (rewrite <- refuses_spec; congruence).
    rewrite drive_ok by lia. split; discriminate.
Qed.
(** Every prefix: the number of writes is free. *)
Lemma toggles_firstn p h m : forall n v t, (m <= n)%nat -> toggles p h v m t = firstn m (toggles p h v n t).
Proof.
  induction m as [|m IH]; intros n v t L; [reflexivity|]. destruct n as [|n]; [lia|]. cbn [toggles firstn]. f_equal. apply IH. lia.
Qed.
Lemma toggles_length p h n : forall v t, length (toggles p h v n t) = n.
Proof. induction n as [|n IH]; intros v t; [reflexivity|]. cbn [toggles length]. f_equal. apply IH. Qed.
Theorem prefix_pf prec c sh n m t0 ws : 0 < period_high_steps c < period_steps c -> period_steps c < 2 ^ 64 -> drive prec c sh n t0 = Ok ws ->
  (m <= length ws)%nat -> gpi_drive c sh m t0 = Ok (firstn m ws).
Proof.
  intros H P E L. rewrite <- (agree_pf prec c sh n t0 H P) in E. unfold gpi_drive in *. destruct (refuses _ _); [discriminate|]. injection E as <-.
  f_equal. apply toggles_firstn. rewrite toggles_length in L. exact L.
Qed.

(** Slices of ranges with other steps than 1: /repo/src/cocotb/types/_range.py:139-146 with 102-109. *)
From Coq Require Import Lia.
From Verif Require Import Base RangeModel RangeSpec RangeProofs.
Open Scope Z_scope.

(** Specification, not code: where a backward slice of [n] items starts or stops; -1 is before the first item. *)
Definition clamp_back (n : Z) (x : option Z) (dflt : Z) : Z :=
  match x with None => dflt | Some v => Z.max (-1) (Z.min (if v <? 0 then v + n else v) (n - 1)) end.
(** Specification, not code: [l[a:b:-1]] of a Python list: the items from [a] down to the one after [b]. *)
Definition slice_back {A} (l : list A) (a b : option Z) : list A :=
  let n := Z.of_nat (length l) in
  let first := clamp_back n a (n - 1) in
  let past := clamp_back n b (-1) in
  rev (firstn (Z.to_nat (first - past)) (skipn (Z.to_nat (past + 1)) l)).

(** A slice with step -1 selects what it selects of a list and turns the direction around. *)
Theorem C02_range_slice_back R a b : is_range R ->
  exists R', range_slice R (PySlice a b (Some (-1))) = Ok R' /\ is_range R' /\ direction_of R' <> direction_of R /\
             range_iter R' = slice_back (range_iter R) a b.
Proof.
  intro HR. pose proof (proj1 (is_range_wf R) HR) as H. unfold range_slice, pr_slice, slice_indices.
  cbn [s_start s_stop s_step]. change (-1 =? 0) with false. change (-1 <? 0) with true. cbv iota. cbn [bind].
  set (n := pr_len R).
  assert (Hn : 0 <= n) by (apply pr_len_nonneg; exact H).
  set (x := slice_clip (-1) n (-1) (n - 1) a (n - 1)). set (y := slice_clip (-1) n (-1) (n - 1) b (-1)).
  assert (Hx : x = clamp_back n a (n - 1) /\ -1 <= x <= n - 1).
  { unfold x, clamp_back, slice_clip. destruct a as [v|]; [|lia]. destruct (Z.ltb_spec v 0); lia. }
  assert (Hy : y = clamp_back n b (-1) /\ -1 <= y <= n - 1).
  { unfold y, clamp_back, slice_clip. destruct b as [v|]; [|lia]. destruct (Z.ltb_spec v 0); lia. }
  set (R' := PyRange (pr_item R x) (pr_item R y) (r_step R * -1)).
  assert (HR' : wf R') by (unfold wf, R'; cbn [r_step]; destruct H as [H|H]; rewrite H; [right|left]; reflexivity).
  rewrite (from_range_wf R' HR').
  exists R'. split; [reflexivity|]. split; [now apply is_range_wf|]. split.
  { unfold direction_of, R'; cbn [r_step]. destruct H as [H|H]; rewrite H; vm_compute; discriminate. }
  unfold slice_back. rewrite (iter_len R H). unfold range_len. fold n.
  destruct Hx as [Ex Hx]. destruct Hy as [Ey Hy]. rewrite <- Ex, <- Ey.
  unfold range_iter, pr_iter. fold n.
  assert (L : pr_len R' = Z.max 0 (x - y)).
  { rewrite (pr_len_wf R' HR'). unfold R', pr_item; cbn [r_step r_start r_stop]. destruct H as [H|H]; rewrite H; lia. }
  rewrite L. destruct (Z.le_gt_cases x y) as [C|C].
  { replace (Z.to_nat (Z.max 0 (x - y))) with 0%nat by lia. replace (Z.to_nat (x - y)) with 0%nat by lia. reflexivity. }
  rewrite skipn_iter by lia. rewrite firstn_iter by lia. rewrite iter_from_rev.
  replace (Z.to_nat (Z.max 0 (x - y))) with (Z.to_nat (x - y)) by lia.
  f_equal; unfold R', pr_item; cbn [r_step r_start r_stop]; [|lia].
  rewrite !Z2Nat.id by lia. destruct H as [H|H]; rewrite H; lia.
Qed.
Example C02_range_slice_back_example : exists R', is_range (PyRange 7 (-1) (-1)) /\
  range_slice (PyRange 7 (-1) (-1)) (PySlice (Some 9) (Some 3) (Some (-1))) = Ok R' /\ range_iter R' = [0; 1; 2; 3].
Proof. eexists. split; [exists 7, (DInt 0), None; reflexivity|]. split; vm_compute; reflexivity. Qed.
Print Assumptions C02_range_slice_back.

(** No other step makes a range. *)
Theorem C02_range_slice_step R a b k : is_range R -> k <> 1 -> k <> -1 -> range_slice R (PySlice a b (Some k)) = Err ValueError.
Proof.
  intros HR K1 K2. apply is_range_wf in HR. unfold range_slice, pr_slice, slice_indices. cbn [s_step s_start s_stop].
  destruct (Z.eqb_spec k 0); [reflexivity|]. cbn [bind]. unfold from_range, step_to_direction. cbn [r_step].
  destruct HR as [H|H]; rewrite H;
    (match goal with |- context [?e =? 1] => destruct (Z.eqb_spec e 1); [exfalso; lia|] end;
     match goal with |- context [?e =? -1] => destruct (Z.eqb_spec e (-1)); [exfalso; lia|] end; reflexivity).
Qed.
Example C02_range_slice_step_example : is_range (PyRange 0 8 1) /\ range_slice (PyRange 0 8 1) (PySlice None None (Some 2)) = Err ValueError.
Proof. split; [exists 0, (DInt 7), None; reflexivity|reflexivity]. Qed.
Print Assumptions C02_range_slice_step.

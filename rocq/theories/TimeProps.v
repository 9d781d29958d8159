(** Property theorems C35 (time conversion), C36 (simulation time) and C37 (Timer). *)
From Coq Require Import String QArith Qabs Qpower.
From Verif Require Import Base TextModel ToolsSpec TimeModel TimeSpec TimeProofs.
Open Scope Q_scope.

(** * C35 *)
(** [Fraction] and [Decimal] times: the answer is the exact number of steps rounded as asked, and [ValueError]
    exactly when that is impossible, which is when the mode is 'error' and the number is no integer
    (or the mode is unknown). *)
Theorem C35_exact prec t u mode q : in_steps prec t u q -> answers (sim_steps prec (NFrac t) u mode) mode q.
Proof. exact (frac_pf prec t u mode q). Qed.
Print Assumptions C35_exact.
Example C35_exact_ex : in_steps (-12) (5 # 2) (lit "ns") 2500 /\ sim_steps (-12) (NFrac (5 # 2)) (lit "ns") RError = Ok 2500%Z /\
  in_steps (-9) (5 # 2) (lit "NS") (5 # 2) /\ sim_steps (-9) (NFrac (5 # 2)) (lit "NS") RError = Err ValueError /\
  sim_steps (-9) (NFrac (5 # 2)) (lit "NS") RRound = Ok 2%Z /\ sim_steps (-9) (NFrac (5 # 2)) (lit "NS") RCeil = Ok 3%Z /\
  sim_steps (-9) (NFrac (-5 # 2)) (lit "ns") RFloor = Ok (-3)%Z.
Proof.
  split; [right; split; [discriminate|]; exists (-9)%Z; split; [|reflexivity]; exists "ns"%string; split; [cbn; tauto|]|].
  { cbn. repeat (constructor; [unfold same_letter; lia|]). constructor. }
  split; [reflexivity|]. split; [right; split; [discriminate|]; exists (-9)%Z; split; [|reflexivity]; exists "ns"%string; split; [cbn; tauto|]|].
  { cbn. repeat (constructor; [unfold same_letter; lia|]). constructor. }
  repeat (apply conj); reflexivity.
Qed.
(** Every time in a documented unit is some number of steps; any other unit raises. *)
Theorem C35_units prec t u : valid_unit u -> exists q, in_steps prec t u q.
Proof. exact (in_steps_exists prec t u). Qed.
Print Assumptions C35_units.
Theorem C35_invalid_unit prec x u mode : ~ valid_unit u -> sim_steps prec x u mode = Err ValueError.
Proof. exact (invalid_unit_pf prec x u mode). Qed.
Print Assumptions C35_invalid_unit.
Example C35_invalid_unit_ex : ~ valid_unit (lit "s").
Proof.
  intros [H|(e & w & I & S)]; [discriminate|].
  cbn in I. destruct I as [H|[H|[H|[H|[H|[H|[]]]]]]]; injection H as <- <-; inversion S as [|? ? ? ? _ S']; inversion S'.
Qed.

(** [int] times: the same, for integers below 2^53 in any unit (2^52 for 'round'), and for all integers if the unit
    is longer than the step. *)
Theorem C35_int prec z u mode q : in_steps prec (inject_Z z) u q -> fits mode z \/ coarse prec u ->
  answers (sim_steps prec (NInt z) u mode) mode q.
Proof. exact (int_pf prec z u mode q). Qed.
Print Assumptions C35_int.
Example C35_int_ex : fits RError 9007199254740991 /\ coarse (-12) (lit "ns") /\
  sim_steps (-9) (NInt 9007199254740991) (lit "fs") RFloor = Ok 9007199254%Z /\
  sim_steps (-9) (NInt 9007199254740991) (lit "fs") RError = Err ValueError /\
  sim_steps (-12) (NInt (10 ^ 30)) (lit "ns") RError = Ok (10 ^ 33)%Z.
Proof.
  split; [vm_compute; reflexivity|]. split.
  { right. exists (-9)%Z. split; [|reflexivity]. exists "ns"%string. split; [cbn; tauto|]. cbn. repeat (constructor; [unfold same_letter; lia|]). constructor. }
  repeat (apply conj); vm_compute; reflexivity.
Qed.
(** Without the bound it is false: with round_mode 'error' the answer is silently one step off, although the unit is the
    step's own unit, because the time is divided by 1 as a float. *)
Theorem C35_int_refuted : exists prec z u n q, in_steps prec (inject_Z z) u q /\
  sim_steps prec (NInt z) u RError = Ok n /\ ~ q == inject_Z n.
Proof.
  exists (-15)%Z, 9007199254740993%Z, (lit "fs"), 9007199254740992%Z, (inject_Z 9007199254740993).
  split; [|split; [vm_compute; reflexivity|discriminate]]. right. split; [discriminate|]. exists (-15)%Z. split; [|reflexivity].
  exists "fs"%string. split; [cbn; tauto|]. cbn. repeat (constructor; [unfold same_letter; lia|]). constructor.
Qed.
Print Assumptions C35_int_refuted.

(** [float] times: what is rounded is within one part in 2^53 of the exact number of steps, and is that number if it is
    a float. *)
Theorem C35_float prec t u mode q : close prec u -> in_steps prec t u q ->
  exists r, near r q /\ (is_float q -> r == q) /\ answers (sim_steps prec (NFloat t) u mode) mode r.
Proof. exact (float_pf prec t u mode q). Qed.
Print Assumptions C35_float.
Example C35_float_ex : close (-15) (lit "us") /\ sim_steps (-15) (NFloat (fl (1 # 10))) (lit "us") RError = Ok 100000000%Z /\
  sim_steps (-12) (NFloat (fl (1 # 3))) (lit "ns") RError = Err ValueError /\ sim_steps (-12) (NFloat (fl (1 # 3))) (lit "ns") RRound = Ok 333%Z.
Proof.
  split; [|repeat (apply conj); vm_compute; reflexivity]. intros e (w & I & S). 
  cbn in I. destruct I as [H|[H|[H|[H|[H|[H|[]]]]]]]; injection H as <- <-; lia.
Qed.
(** A decimal which is a whole number of steps may be refused: 1.001 ps with a precision of 1 fs. *)
Theorem C35_float_refuted : exists prec u n k, in_steps prec (n # k) u 1001 /\
  sim_steps prec (NFloat (fl (n # k))) u RError = Err ValueError.
Proof.
  exists (-15)%Z, (lit "ps"), 1001%Z, 1000%positive. split; [|vm_compute; reflexivity].
  right. split; [discriminate|]. exists (-12)%Z. split; [|reflexivity].
  exists "ps"%string. split; [cbn; tauto|]. cbn. repeat (constructor; [unfold same_letter; lia|]). constructor.
Qed.
Print Assumptions C35_float_refuted.

(** A later time never gets fewer steps. *)
Theorem C35_monotone prec a b u mode n m : same_type a b = true -> val a <= val b ->
  sim_steps prec a u mode = Ok n -> sim_steps prec b u mode = Ok m -> (n <= m)%Z.
Proof. exact (mono_pf prec a b u mode n m). Qed.
Print Assumptions C35_monotone.
Example C35_monotone_ex : sim_steps (-12) (NInt 1499) (lit "fs") RRound = Ok 1%Z /\ sim_steps (-12) (NInt 1501) (lit "fs") RRound = Ok 2%Z.
Proof. split; vm_compute; reflexivity. Qed.

(** Steps to a unit and back: the same number of steps with round_mode 'round' up to 2^51 steps; in every mode if the
    unit is not longer than a step. *)
Theorem C35_roundtrip prec n u t : (Z.abs n < 2 ^ 51)%Z -> close prec u ->
  time_from_sim_steps prec (NInt n) u = Ok t -> sim_steps prec t u RRound = Ok n.
Proof. exact (roundtrip_pf prec n u t). Qed.
Print Assumptions C35_roundtrip.
Theorem C35_roundtrip_short_unit prec n u e t mode : (Z.abs n <= 2 ^ 53)%Z -> unit_exp u e -> (e <= prec)%Z -> u <> lit "step" -> mode <> RInvalid ->
  time_from_sim_steps prec (NInt n) u = Ok t -> sim_steps prec t u mode = Ok n.
Proof. exact (roundtrip_coarse_pf prec n u e t mode). Qed.
Print Assumptions C35_roundtrip_short_unit.
Example C35_roundtrip_ex : exists t, time_from_sim_steps (-15) (NInt 1001) (lit "ps") = Ok t /\ sim_steps (-15) t (lit "ps") RRound = Ok 1001%Z.
Proof. eexists. split; [reflexivity|vm_compute; reflexivity]. Qed.
(** In the default mode 'error' the way back raises. *)
Theorem C35_roundtrip_refuted : exists prec n u t, time_from_sim_steps prec (NInt n) u = Ok t /\ sim_steps prec t u RError = Err ValueError.
Proof. exists (-15)%Z, 1001%Z, (lit "ps"). eexists. split; [reflexivity|vm_compute; reflexivity]. Qed.
Print Assumptions C35_roundtrip_refuted.

(** [convert] goes through whole steps; steps in a unit are correct to one part in 2^53, exact if representable or if
    the unit is shorter than a step. *)
Theorem C35_convert prec x u to mode : u <> lit "step" ->
  convert prec x u to mode =
  match sim_steps prec x u mode with
  | Ok n => if pystr_eqb to (lit "step") then Ok (NInt n) else time_from_sim_steps prec (NInt n) to
  | Err e => Err e
  end.
Proof. exact (convert_pf prec x u to mode). Qed.
Print Assumptions C35_convert.
Theorem C35_steps_in_unit prec n u e : u <> lit "step" -> unit_exp u e ->
  exists t, time_from_sim_steps prec (NInt n) u = Ok t /\ let q := inject_Z n * 10 ^ (prec - e) in
    near (val t) q /\ (is_float q \/ (e < prec)%Z -> val t == q).
Proof. exact (from_steps_pf prec n u e). Qed.
Print Assumptions C35_steps_in_unit.
Example C35_convert_ex : exists t, convert (-12) (NInt 1500) (lit "ps") (lit "ns") RError = Ok t /\ val t == 3 # 2.
Proof. eexists. split; [reflexivity|vm_compute; reflexivity]. Qed.
(** [convert] from steps to steps does not round or refuse what is no whole number of steps. *)
Theorem C35_convert_steps_refuted : exists prec x t, convert prec x (lit "step") (lit "step") RError = Ok t /\ forall n, ~ val t == inject_Z n.
Proof.
  exists (-12)%Z, (NFloat (3 # 2)). eexists. split; [reflexivity|]. intros n H. unfold Qeq in H. cbn in H. lia.
Qed.
Print Assumptions C35_convert_steps_refuted.
(** Units are taken in any case, except 'step'. *)
Theorem C35_unit_case_refuted : exists prec x n, sim_steps prec x (lit "NS") RError = Ok n /\ sim_steps prec x (lit "STEP") RError = Err ValueError.
Proof. exists (-9)%Z, (NInt 3), 3%Z. split; vm_compute; reflexivity. Qed.
Print Assumptions C35_unit_case_refuted.

(** * C36 *)
(** In steps: the simulator's time, whatever its upper half. *)
Theorem C36_steps prec h l : (0 <= l < 2 ^ 32)%Z -> get_sim_time prec h l (lit "step") = Ok (NInt (h * 2 ^ 32 + l)).
Proof. exact (now_step_pf prec h l). Qed.
Print Assumptions C36_steps.
Example C36_steps_ex : get_sim_time (-12) 4294967295 4294967295 (lit "step") = Ok (NInt 18446744073709551615).
Proof. reflexivity. Qed.
(** In a unit: correct to one part in 2^53, and exact where that is possible. *)
Theorem C36_unit prec h l u e : (0 <= l < 2 ^ 32)%Z -> u <> lit "step" -> unit_exp u e ->
  exists t, get_sim_time prec h l u = Ok t /\ let q := inject_Z (h * 2 ^ 32 + l) * 10 ^ (prec - e) in
    near (val t) q /\ (is_float q \/ (e < prec)%Z -> val t == q).
Proof. exact (now_unit_pf prec h l u e). Qed.
Print Assumptions C36_unit.
(** Time does not run backwards in any unit. *)
Theorem C36_monotone prec h l h' l' u t t' : (0 <= l < 2 ^ 32)%Z -> (0 <= l' < 2 ^ 32)%Z -> (h * 2 ^ 32 + l <= h' * 2 ^ 32 + l')%Z ->
  get_sim_time prec h l u = Ok t -> get_sim_time prec h' l' u = Ok t' -> val t <= val t'.
Proof. exact (now_mono_pf prec h l h' l' u t t'). Qed.
Print Assumptions C36_monotone.
Theorem C36_invalid_unit prec h l u : ~ valid_unit u -> get_sim_time prec h l u = Err ValueError.
Proof. exact (now_invalid_pf prec h l u). Qed.
Print Assumptions C36_invalid_unit.
Example C36_unit_ex : exists t t', get_sim_time (-12) 0 4294967295 (lit "ns") = Ok t /\ get_sim_time (-12) 1 0 (lit "ns") = Ok t' /\
  Qle_bool (val t') (val t) = false.
Proof. do 2 eexists. split; [reflexivity|]. split; [reflexivity|]. vm_compute. reflexivity. Qed.

(** * C37 *)
(** Raises for a time which is not positive or cannot be rounded; otherwise waits the rounded number of steps, but at
    least one. *)
Theorem C37_timer prec x u mode :
  (val x <= 0 -> timer prec x u mode = Err ValueError) /\
  (0 < val x -> match sim_steps prec x u mode with
                | Ok n => timer prec x u mode = Ok (Z.max 1 n)
                | Err _ => timer prec x u mode = Err ValueError
                end) /\
  (forall n, timer prec x u mode = Ok n -> 0 < val x /\ (1 <= n)%Z).
Proof. exact (timer_pf prec x u mode). Qed.
Print Assumptions C37_timer.
Example C37_timer_ex : timer (-12) (NInt 0) (lit "ns") RError = Err ValueError /\ timer (-12) (NInt (-5)) (lit "ns") RCeil = Err ValueError /\
  timer (-12) (NInt 10) (lit "fs") RError = Err ValueError /\ timer (-12) (NInt 10) (lit "fs") RRound = Ok 1%Z /\
  timer (-12) (NFrac (1 # 2)) (lit "ns") RError = Ok 500%Z.
Proof. repeat (apply conj); vm_compute; reflexivity. Qed.

(** What is claimed about simulated time. *)
From Coq Require Import String QArith Qabs Qpower.
From Verif Require Import Base TextModel ToolsSpec TimeModel.
Open Scope Q_scope.

(** The documented units in powers of ten of a second, in any case of letters. *)
Definition units : list (string * Z) :=
  [("fs", -15); ("ps", -12); ("ns", -9); ("us", -6); ("ms", -3); ("sec", 0)]%string%Z.
Definition unit_exp (u : pystr) (e : Z) : Prop := exists w, In (w, e) units /\ same_word u (lit w).
Definition valid_unit (u : pystr) : Prop := u = lit "step" \/ exists e, unit_exp u e.

(** [time] in [unit] is exactly [q] steps of 10^[prec] seconds. *)
Definition in_steps (prec : Z) (time : Q) (unit : pystr) (q : Q) : Prop :=
  (unit = lit "step" /\ q == time) \/ (unit <> lit "step" /\ exists e, unit_exp unit e /\ q == time * 10 ^ (e - prec)).

(** [n] is [q] rounded as [mode] says; for 'error', [q] has to be an integer. *)
Definition rounded (mode : round_mode) (q : Q) (n : Z) : Prop :=
  match mode with
  | RError => q == inject_Z n
  | RFloor => inject_Z n <= q < inject_Z n + 1
  | RCeil => inject_Z n - 1 < q <= inject_Z n
  | RRound => Qabs (q - inject_Z n) <= 1 # 2 /\ (Qabs (q - inject_Z n) == 1 # 2 -> Z.even n = true)
  | RInvalid => False
  end.
(** [mode] cannot round [q]. *)
Definition unroundable (mode : round_mode) (q : Q) : Prop := forall n, ~ rounded mode q n.

(** The answer [r] of a function is the rounded [q]. *)
Definition answers (r : result Z) (mode : round_mode) (q : Q) : Prop :=
  (forall n, r = Ok n <-> rounded mode q n) /\ (r = Err ValueError <-> unroundable mode q).

(** Two numbers of the same Python type. *)
Definition same_type (a b : num) : bool :=
  match a, b with NInt _, NInt _ | NFloat _, NFloat _ | NFrac _, NFrac _ => true | _, _ => false end.

(** Integers small enough for every rounding mode to be exact after a division of ints. *)
Definition fits (mode : round_mode) (z : Z) : Prop :=
  match mode with RRound => (Z.abs z < 2 ^ 52)%Z | _ => (Z.abs z < 2 ^ 53)%Z end.

(** [x] is [q] up to one part in 2^53. *)
Definition near (x q : Q) : Prop := Qabs (x - q) * inject_Z (2 ^ 53) <= Qabs q.
(** A binary64 number: an integer of at most 53 bits times a power of two. *)
Definition is_float (q : Q) : Prop := exists m e, (Z.abs m <= 2 ^ 53)%Z /\ q == inject_Z m * 2 ^ e.

(** The unit is longer than the simulator's step or is the step itself: [int] times are scaled without division. *)
Definition coarse (prec : Z) (unit : pystr) : Prop := unit = lit "step" \/ exists e, unit_exp unit e /\ (prec < e)%Z.
(** The powers of ten between the unit and the step are floats. *)
Definition close (prec : Z) (unit : pystr) : Prop := forall e, unit_exp unit e -> (Z.abs (e - prec) <= 22)%Z.

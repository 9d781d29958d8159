(** What C93 is about, said without the helpers of the model. *)
From Verif Require Import Base TextModel RunnerModel BuildModel.
From Coq Require Import String.
Open Scope Z_scope.

(** The same test with and without waves. *)
Definition with_waves (t : test_in) (w : bool) : test_in :=
  TestIn (t_toplevel t) (t_library t) (t_vhdl t) (t_gpi t) (t_elab t) (t_args t) (t_plus t) w (t_gui t) (t_verbose t) (t_timescale t)
    (t_pre t) (t_parameters t) (t_dir t) (t_name t) (t_build t).
(** The option with which the simulator is told the name of the file. *)
Definition wave_option (s : sim) : pystr := match s with Dsim => lit "-waves " | _ => lit "--wave=" end.
(** Arguments which the program made by Verilator does not take for its own. *)
Definition foreign (args : list pystr) : Prop :=
  Forall (fun a => ~ In a (map lit ["--coverage-per-instance"; "--trace"; "--trace-flush"; "--trace-file"; "--help"]%string)) args.
Definition tame (cov : bool) (args : list pystr) : Prop :=
  Forall (fun a => ~ In a (map lit ["--trace-file"; "--help"]%string) /\ (a = lit "--coverage-per-instance" -> cov = true)) args.

(** The commands a build script of the Aldec simulators is meant to contain (C60). *)
From Verif Require Import Base BuildModel BuildSpec.
From Coq Require Import String.
Open Scope Z_scope.

(** What the compilers are meant to be called with, one command for each source. *)
Definition define_word (nv : pystr * pystr) : pystr := lit "'+define+" ++ fst nv ++ lit "=" ++ snd nv ++ lit "'".
Definition compile_call (ext : pystr) (b : build_in) (s : source) : list pystr :=
  match snd s with
  | TVHDL => [lit "acom"; lit "-work"; b_library b] ++ meant_for TVHDL (b_args b) ++ [fst s]
  | _ => [lit "alog"; lit "-work"; b_library b; lit "-pli"; ext; lit "-sv"] ++ map define_word (b_defines b) ++
         map (fun i => lit "+incdir+" ++ i) (b_includes b) ++ meant_for TVerilog (b_args b) ++ [fst s]
  end.

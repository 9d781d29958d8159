(** Versions from the output of a simulator: /repo/src/cocotb_tools/sim_versions.py:60-70, 130-151, 177-182 and runner.py:1548-1558. *)
From Coq Require Import String.
From Verif Require Import Base TextModel ToolsModel.
Open Scope Z_scope.

(** What [from_commandline] gives to the class, or how it fails: ValueError or AssertionError. *)
Inductive parsed := Parsed (v : pystr) | Fails | AssertFails.
(** [cmdline.split("\n", 1)[0]] (sim_versions.py:62, 148, 179). *)
Definition first_line (s : pystr) : pystr := match split_once 10 s with Some (a, _) => a | None => s end.
(** sim_versions.py:131-151 [VerilatorVersion.from_commandline], 178-182 [NvcVersion.from_commandline], which differ in the name;
    unpacking fewer than two items is a ValueError. *)
Definition named (sim cmdline : pystr) : parsed :=
  match split 32 (strip (first_line cmdline)) with
  | s :: v :: _ => if pystr_eqb s sim then Parsed v else AssertFails
  | _ => Fails
  end.
(** What follows a prefix. *)
Fixpoint after (p s : pystr) : option pystr :=
  match p, s with
  | [], _ => Some s
  | x :: p, y :: s => if x =? y then after p s else None
  | _ :: _, [] => None
  end.
(** sim_versions.py:61-70 [IcarusVersion.from_commandline]. Simplified: [\d] is ASCII only. *)
Definition icarus (cmdline : pystr) : parsed :=
  match after (lit "Icarus Verilog version ") (first_line cmdline) with
  | Some r =>
      match digits r with
      | (a, c :: r) =>
          if (negb (pystr_eqb a [])) && (c =? 46) then
            match digits r with (b, _) => if pystr_eqb b [] then Fails else Parsed (a ++ [46] ++ b) end
          else Fails
      | _ => Fails
      end
  | None => Fails
  end.
(** runner.py:1548-1558 [Nvc.__init__]: whether NVC knows --preserve-case; None: an AssertionError. The comparison is [LooseVersion]'s. *)
Definition preserve_case (cmdline : pystr) : option (result bool) :=
  match named (lit "nvc") cmdline with
  | Parsed v => Some (bind (loose_cmp (mk_loose v) (mk_loose (lit "1.16"))) (fun c => Ok match c with Gt => true | _ => false end))
  | Fails => Some (Err ValueError)
  | AssertFails => None
  end.

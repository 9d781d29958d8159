(** Collecting coverage of Python code: /repo/src/cocotb/_init.py:113-166 and /repo/src/cocotb_tools/_coverage.py:9-36. Environment variables
    are given by their values, [None] if not set. *)
From Coq Require Import String.
From Verif Require Import Base TextModel ToolsModel InitModel.

(** How the collection of the user's code is set up: without the files of some patterns, or by a file. *)
Inductive setup := Omitting (patterns : list pystr) | ByFile (path : pystr).
(** _init.py:114-126: whether COVERAGE gives a warning, and whether to collect. Simplified: warnings are not raised as errors. *)
Definition enabled (user old : option pystr) : bool * result bool :=
  match user with
  | Some _ => (false, get_bool user None)
  | None => match old with Some _ => (true, get_bool old None) | None => (false, Ok false) end
  end.
(** _init.py:127-157: [rc]: COVERAGE_RCFILE; [installed]: whether the package coverage can be imported; [dir]: the directory of a package,
    which is always found, as these packages are running. *)
Definition user_setup (user old rc : option pystr) (installed : bool) (dir : pystr -> pystr) : result (option setup) :=
  bind (snd (enabled user old)) (fun on =>
  if on then
    if installed then
      Ok (Some match get_str rc None with
               | [] => Omitting (map (fun p => dir p ++ lit "/*") [lit "cocotb"; lit "cocotb_tools"; lit "pygpi"])
               | path => ByFile path
               end)
    else Err RuntimeError
  else Ok None).
(** _coverage.py:10-17: whether coverage of the library is collected; [v]: COCOTB_LIBRARY_COVERAGE. *)
Definition library_on (v : option pystr) (installed : bool) : result bool :=
  bind (get_bool v None) (fun on => if on then if installed then Ok true else Err RuntimeError else Ok false).

(** What is done with an object of coverage, and what the function registered for the end does (_init.py:158-166, _coverage.py:25-36). *)
Inductive op := CLoad | CStart | CStop | CSave.
Definition begins : list op := [CLoad; CStart].
Definition ends : list op := [CStop; CSave].
(** The registration (_init.py:166, _coverage.py:36) with the number [id], after the callbacks [q]. Simplified: stopping and saving do not raise. *)
Definition registered (id : Z) (q : list callback) : list callback := register q (Callback id [] false).
(** What is done with the object number [id] from its start to the end of cocotb, which calls [called]. *)
Definition history (id : Z) (called : list callback) : list op :=
  begins ++ flat_map (fun c => if Z.eqb (cb_id c) id then ends else []) called.

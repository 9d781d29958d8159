(** What is claimed about the pytest plugin. *)
From Verif Require Import Base TextModel ToolsModel ToolsSpec RegressionModel PluginModel.
From Coq Require Import String.
Open Scope Z_scope.

(** [NAME=VALUE] or [NAME]. *)
Inductive assigns : pystr -> pystr -> pystr -> Prop :=
| as_value n v : ~ In 61 n -> assigns (n ++ lit "=" ++ v) n v
| as_name n : ~ In 61 n -> assigns n n [].
(** The last element of a list for which something is known decides. *)
Definition last_with {A B} (R : A -> B -> Prop) (l : list A) (b : B) : Prop :=
  exists before a after, l = before ++ a :: after /\ R a b /\ Forall (fun x => forall b', ~ R x b') after.

(** A marker sets something. *)
Definition sets_dict (f : dfield) (n : pystr) (m : marker) (v : pystr) : Prop := exists kw, m = MUpdate f kw /\ In (n, v) kw.
Definition sets_flag (f : bfield) (m : marker) (b : bool) : Prop := m = MFlag f b.
Definition sets_seed (m : marker) (n : Z) : Prop := m = MSeed n.
Definition sets_library (m : marker) (n : pystr) : Prop := m = MLibrary n.
Definition sets_timescale (m : marker) (t : pystr * pystr) : Prop :=
  exists u, m = MTimescale u (Some (snd t)) /\ snd t <> [] /\ fst t = u \/
            (m = MTimescale u None \/ m = MTimescale u (Some [])) /\ t = (u, u).
(** Keyword arguments have different names. *)
Definition keywords_distinct (m : marker) : Prop := match m with MUpdate _ kw => NoDup (map fst kw) | _ => True end.
(** All markers, from the session to the node. *)
Definition from_root (chain : list (list marker)) : list marker := List.concat (rev chain).
(** What a marker adds to a list. *)
Definition adds (f : lfield) (m : marker) : list pystr :=
  match m with MExtend FSources l => match f with FSources => l | _ => [] end
  | MExtend FIncludes l => match f with FIncludes => l | _ => [] end
  | MExtend FPlusargs l => match f with FPlusargs => l | _ => [] end
  | MExtend FBuildArgs l => match f with FBuildArgs => l | _ => [] end
  | MExtend FElabArgs l => match f with FElabArgs => l | _ => [] end
  | MExtend FTestArgs l => match f with FTestArgs => l | _ => [] end
  | MExtend FPreCmd l => match f with FPreCmd => l | _ => [] end
  | _ => []
  end.
(** A [cocotb_runner] marker, and one which names modules. *)
Definition is_runner (m : marker) : bool := match m with MRunner _ => true | _ => false end.
Definition names_modules (m : marker) : Prop := match m with MRunner args => exists a l, args = a :: l /\ a <> [] | _ => True end.
(** At most one such marker at a node, and it names modules. *)
Definition single (ms : list marker) : Prop := (List.length (filter is_runner ms) <= 1)%nat /\ Forall names_modules ms.

(** Characters of file names. *)
Definition plain_char (c : Z) : Prop := 65 <= c <= 90 \/ 97 <= c <= 122 \/ 48 <= c <= 57 \/ In c (lit "/._-").

(** [c] is the test function [f] of the file [path]. *)
Definition node_id (path f : pystr) : pystr := path ++ lit "::" ++ f.

(** The exceptions which mean something by themselves. *)
Definition ordinary (c : cfg) (e : exc) : Prop := isinstance c e cSkip = false /\ isinstance c e cXfail = false /\ isinstance c e cSuccess = false.
(** The same verdict. *)
Definition agree (v : verdict) (p : pverdict) : Prop :=
  match v, p with
  | VSkipped, PSkipped | VXfailed, PXfailed | VPassed, PPassed | VFailed _, PFailed => True
  | _, _ => False
  end.

(** A cocotb test as pytest reports it, phase by phase: a failing or skipping setup has no call. *)
Inductive phases :=
| Ran (call : result3) (xfail : bool) (teardown_ok : bool)
| NotRun (skipped : bool) (teardown_ok : bool).
Definition reports_of (p : phases) : list report :=
  let down ok := Report WTeardown (if ok : bool then RPassed else RFailed) false true false in
  match p with
  | Ran c x ok => [Report WSetup RPassed false true false; Report WCall c x true false; down ok]
  | NotRun s ok => [Report WSetup (if s then RSkipped else RFailed) false true false; down ok]
  end.
(** What should be counted for it. *)
Definition verdict_of (p : phases) : option result3 :=
  match p with
  | Ran RPassed false _ | Ran RSkipped true _ => Some RPassed
  | Ran RFailed _ _ | Ran RPassed true _ => Some RFailed
  | Ran RSkipped false _ | NotRun true _ => Some RSkipped
  | NotRun false _ => None
  end.

(** Small letters, without "k" (U+212A has it as its lower case). *)
Definition small_word (w : pystr) : Prop := Forall (fun c => 97 <= c <= 122 /\ c <> 107) w.

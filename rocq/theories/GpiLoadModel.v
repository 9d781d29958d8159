(** Loading the libraries of the interface: /repo/src/cocotb/share/lib/gpi/GpiCommon.cpp:77-90, 142-275. *)
From Verif Require Import Base TextModel.
From Coq Require Import String.
Open Scope Z_scope.

(** [s.rfind(c)] with the two [substr] calls at GpiCommon.cpp:148-157 and 202-212: what is before and after the last [c]. *)
Fixpoint rsplit (c : Z) (s : pystr) : option (pystr * pystr) :=
  match s with
  | [] => None
  | x :: s' => match rsplit c s' with
               | Some (a, b) => Some (x :: a, b)
               | None => if x =? c then Some ([], s') else None
               end
  end.

(** What the system does: [dlopen], [dlsym] (dynload.cpp). *)
Record system := System { opens : pystr -> bool; has : pystr -> pystr -> bool }.
(** What happens: a library is opened, a function of it is called, the end of the simulation is requested ([gpi_finish], 122-127),
    the process ends with status 1. *)
Inductive act := AOpen (lib : pystr) | ACall (lib fn : pystr) | AFinish | AExit.
(** How loading goes on. *)
Inductive next := Goes | Stops.

(** GpiCommon.cpp:142-182 [gpi_load_libs]. *)
Fixpoint load_libs (y : system) (l : list pystr) : list act * next :=
  match l with
  | [] => ([], Goes)
  | arg :: l' =>
      match rsplit 58 arg with
      | None => ([AExit], Stops)
      | Some (lib, fn) =>
          if opens y lib then
            if has y lib fn then let '(r, n) := load_libs y l' in (AOpen lib :: ACall lib fn :: r, n)
            else ([AOpen lib; AExit], Stops)
          else ([AExit], Stops)
      end
  end.
(** GpiCommon.cpp:254-263: the pieces between commas; an empty last one is left out. *)
Fixpoint without_empty_last (l : list pystr) : list pystr :=
  match l with
  | [] => []
  | [x] => match x with [] => [] | _ => [x] end
  | x :: l' => x :: without_empty_last l'
  end.
Definition extra_list (s : pystr) : list pystr := without_empty_last (split 44 s).
(** GpiCommon.cpp:191-243, the loop of [gpi_load_users]. *)
Fixpoint load_users (y : system) (l : list pystr) : list act * next :=
  match l with
  | [] => ([], Goes)
  | user :: l' =>
      let '(lib, fn) := match rsplit 44 user with None => (user, None) | Some (a, b) => (a, Some b) end in
      if opens y lib then
        match fn with
        | None => let '(r, n) := load_users y l' in (AOpen lib :: r, n)
        | Some f => if has y lib f then let '(r, n) := load_users y l' in (AOpen lib :: ACall lib f :: r, n)
                    else ([AOpen lib; AFinish], Stops)
        end
      else ([AFinish], Stops)
  end.
(** GpiCommon.cpp:247-275 [gpi_entry_point], 184-189; [extra], [users]: the variables GPI_EXTRA and GPI_USERS. *)
Definition entry_point (y : system) (extra users : option pystr) : list act * next :=
  let '(a, n) := match extra with None => ([], Goes) | Some s => load_libs y (extra_list s) end in
  match n with
  | Stops => (a, Stops)
  | Goes =>
      match users with
      | None => (a, Stops)
      | Some s => let '(b, n) := load_users y (split 59 s) in (a ++ b, n)
      end
  end.

(** GpiCommon.cpp:77-90 [gpi_register_impl]: the names of the registered implementations, and whether the new one is taken. *)
Definition register_impl (name : pystr) (l : list pystr) : list pystr * bool :=
  if existsb (pystr_eqb name) l then (l, false) else (l ++ [name], true).
Definition register_all (names : list pystr) : list pystr := fold_left (fun l n => fst (register_impl n l)) names [].

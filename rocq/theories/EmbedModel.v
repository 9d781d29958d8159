(** Model for C109: the start of the Python interpreter by pygpi/embed.cpp. *)
From Coq Require Import String.
From Verif Require Import Base TextModel.
Open Scope Z_scope.

(** ** The path of the interpreter *)

(** wcsncpy to a place of [n] characters: what is written there, always [n] characters. Texts have no character 0 of their own. *)
Definition wcsncpy (n : nat) (src : pystr) : list Z := firstn n src ++ repeat 0 (n - List.length src).
(** The C string which starts at a place. *)
Fixpoint cstring (l : list Z) : pystr := match l with [] => [] | c :: l => if c =? 0 then [] else c :: cstring l end.
Inductive path := NotSet | Undecodable | TooLong | Path (p : pystr).
(** embed.cpp:37-71 [get_interpreter_path]. [cap]: PATH_MAX, the number of wide characters of the array (path_size / sizeof(wchar_t)); [env]: PYGPI_PYTHON_BIN;
    [decode]: Py_DecodeLocale, None: NULL. *)
Definition interpreter_path (cap : nat) (env : option pystr) (decode : pystr -> option pystr) : path :=
  match env with
  | None => NotSet
  | Some c =>
      match decode c with
      | None => Undecodable
      | Some w => let buf := wcsncpy cap w in
                  if negb (nth (cap - 1) buf 0 =? 0) then TooLong else Path (cstring buf)
      end
  end.

(** ** COCOTB_ATTACH *)

(** isspace in the C locale. *)
Definition c_space (c : Z) : bool := (c =? 32) || ((9 <=? c) && (c <=? 13)).
Fixpoint skip_space (s : pystr) : pystr := match s with c :: s' => if c_space c then skip_space s' else s | [] => [] end.
Fixpoint digits (acc : Z) (s : pystr) : Z := match s with c :: s => if (48 <=? c) && (c <=? 57) then digits (10 * acc + (c - 48)) s else acc | [] => acc end.
(** errno: 0, ERANGE or another value. *)
Inductive errno := E0 | ERange | EOther.
(** strtoul(s, NULL, 10) with 64 bits: the number modulo 2^64 if it has a minus, 2^64 - 1 and ERANGE if it has more than 64 bits; 0 without digits. errno is kept otherwise,
    as in glibc. *)
Definition strtoul (e : errno) (s : pystr) : Z * errno :=
  let s := skip_space s in
  let '(minus, s) := match s with c :: s' => if c =? 45 then (true, s') else if c =? 43 then (false, s') else (false, s) | [] => (false, []) end in
  let n := digits 0 s in
  if 2 ^ 64 <=? n then (2 ^ 64 - 1, ERange) else (if minus then (- n) mod 2 ^ 64 else n, e).
Inductive attach := NoAttach | AttachTooLong | AttachNoNumber | Sleep (seconds : Z).
(** embed.cpp:178-205. errno is what an earlier call left. *)
Definition attached (e : errno) (env : option pystr) : attach :=
  match env with
  | None => NoAttach
  | Some s =>
      let '(n, e) := strtoul e s in
      if (match e with ERange => true | _ => false end) || (2 ^ 32 - 1 <=? n) then AttachTooLong
      else if ((match e with E0 => false | _ => true end) && (n =? 0)) || (n <=? 0) then AttachNoNumber
      else Sleep n
  end.

(** ** initialize *)

(** What [initialize] meets: as above; whether PyConfig_SetArgv and Py_InitializeFromConfig succeed; sys.executable afterwards (None: there is none; Some None: it is no
    text); errno and COCOTB_ATTACH. *)
Record world := World { w_env : option pystr; w_decode : pystr -> option pystr; w_argv : bool; w_init : bool; w_exec : option (option pystr); w_errno : errno; w_attach : option pystr }.
(** What it reports and does; [Again]: "PyGPI library initialized again!"; [Written]: PyUnicode_AsWideChar wrote beyond the array. *)
Inductive event := Again | NoPath (p : path) | ArgvFailed | InitFailed | NoExecutable | NoText | Differs (got : pystr) | Written | Registered | Attach (a : attach).
(** embed.cpp:154-172. [sizeof(sys_executable)] counts bytes, of which a wide character has [width], but PyUnicode_AsWideChar counts characters: up to [width * cap] characters of
    the text and of its end are written. What follows such a write is not modelled; texts without 0. *)
Definition check_executable (cap width : nat) (p : pystr) (x : option (option pystr)) : list event :=
  match x with
  | None => [NoExecutable]
  | Some None => [NoText]
  | Some (Some s) => if (cap <? Nat.min (width * cap) (List.length s + 1))%nat then [Written] else if pystr_eqb p s then [] else [Differs s]
  end.
(** embed.cpp:89-206; [called]: python_init_called; the messages of pygpi_logging are C107. *)
Definition initialize (cap width : nat) (called : bool) (w : world) : bool * list event :=
  if called then (true, [Again])
  else match interpreter_path cap (w_env w) (w_decode w) with
       | Path p => if negb (w_argv w) then (true, [ArgvFailed])
                   else if negb (w_init w) then (true, [InitFailed])
                   else (true, check_executable cap width p (w_exec w) ++ [Registered; Attach (attached (w_errno w) (w_attach w))])
       | q => (true, [NoPath q])
       end.
(** Any number of calls. *)
Fixpoint calls (cap width : nat) (called : bool) (l : list world) : list (list event) :=
  match l with [] => [] | w :: l => let '(called, e) := initialize cap width called w in e :: calls cap width called l end.

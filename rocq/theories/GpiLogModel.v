(** Messages of the C++ code: the native logger (share/lib/gpi/logging.cpp), the handler which hands them to Python
    (share/lib/pygpi/logging.cpp), and their levels (gpi/GpiCommon.cpp:283-311, logging.py:180-195, 455-472). *)
From Coq Require Import String.
From Verif Require Import Base TextModel XmlModel LogModel.
Open Scope Z_scope.

(** ** The buffer in which a message is put together *)

(** [static std::vector<char> log_buff(512)] (gpi/logging.cpp:43, pygpi/logging.cpp:70): its capacity, and the C string which it holds. *)
Record buffer := Buffer { b_cap : nat; b_str : pystr }.
(** vsnprintf with a buffer of [cap] > 0 characters for a message whose whole text is [text]: the result and the C string written. [old]: the Visual C
    Runtime prior to 2015, which returns -1 if the text does not fit (gpi/logging.cpp:48-54). *)
Definition vsnprintf (old : bool) (cap : nat) (text : pystr) : Z * pystr :=
  (if old && (cap <=? List.length text)%nat then -1 else Z.of_nat (List.length text), firstn (cap - 1) text).
(** gpi/logging.cpp:45-78, pygpi/logging.cpp:72-105. [text]: None if vsnprintf fails for any size; None: "Log message construction failed" on stderr.
    [reserve] makes the capacity at least the number given; here exactly. Texts have less than 2^31 characters. *)
Definition fill (old : bool) (b : buffer) (text : option pystr) : option buffer :=
  match text with
  | None => None
  | Some text =>
      let '(n, str) := vsnprintf old (b_cap b) text in
      let n := if n <? 0 then Z.of_nat (List.length text) else n in
      if Z.of_nat (b_cap b) <=? n then Some (Buffer (Z.to_nat n + 1) (snd (vsnprintf old (Z.to_nat n + 1) text))) else Some (Buffer (b_cap b) str)
  end.

(** ** The native logger *)

(** The arguments of a handler but the message (gpi.h [gpi_log_handler_ftype]). *)
Record args := Args { a_name : pystr; a_level : Z; a_path : pystr; a_func : pystr; a_line : Z }.
(** gpi/logging.cpp:116-130 [gpi_log_level_to_str]. *)
Definition level_str (level : Z) : pystr :=
  if level =? 5 then lit "TRACE" else if level =? 10 then lit "DEBUG" else if level =? 20 then lit "INFO" else if level =? 30 then lit "WARNING"
  else if level =? 40 then lit "ERROR" else if level =? 50 then lit "CRITICAL" else lit "------".
(** gpi/logging.cpp:80-94: what is printed. *)
Definition native_line (a : args) (text : pystr) : pystr :=
  lit "     -.--ns " ++ pad_right (level_str (a_level a)) 9 ++ pad_right (a_name a) 35 ++
  (if 20 <? Z.of_nat (List.length (a_path a)) then lit ".." ++ pad_left (skipn (List.length (a_path a) - 18) (a_path a)) 18 ++ [58] else pad_left (a_path a) 20 ++ [58]) ++
  pad_right (py_str_int (a_line a)) 4 ++ lit " in " ++ pad_right (a_func a) 31 ++ [32] ++ text ++ [10].
(** gpi/logging.cpp:31-37: the level counts as INFO (20) if it is NOTSET (0). *)
Definition native_skips (native level : Z) : bool := level <? (if native =? 0 then 20 else native).

(** ** State *)

(** [current_handler]; [fallback_log_handler] (None: NULL). *)
Inductive handler := HNative | HPygpi.
(** What comes out: a line on stdout, the complaint on stderr, a call of [m_log_func] with the name of the logger, the level, file, line, message and function. *)
Inductive event := Line (s : pystr) | Failed | ToPython (a : args) (text : pystr).
(** [g_*]: gpi/logging.cpp:23-43, 98-99; [p_*]: pygpi/logging.cpp:17-24, 70. [p_conf]: [m_log_func] is set; [p_known]: the names in [m_logger_map];
    [s_out]: what came out, the latest first. *)
Record st := St { g_level : Z; g_buf : buffer; g_handler : handler; p_level : Z; p_conf : bool; p_known : list pystr; p_back : option handler; p_buf : buffer; s_out : list event }.
Definition start : st := St 0 (Buffer 512 []) HNative 0 false [] None (Buffer 512 []) [].
(** What a call does: it returns; it calls itself without end; it calls NULL; it reads arguments which were not given. *)
Inductive outcome (A : Type) := Fine (a : A) | Endless | NullCall | Garbage.
Arguments Fine {A}. Arguments Endless {A}. Arguments NullCall {A}. Arguments Garbage {A}.
Definition then_ {A B} (o : outcome A) (f : A -> outcome B) : outcome B :=
  match o with Fine a => f a | Endless => Endless | NullCall => NullCall | Garbage => Garbage end.
Definition out (s : st) (e : event) : st := St (g_level s) (g_buf s) (g_handler s) (p_level s) (p_conf s) (p_known s) (p_back s) (p_buf s) (e :: s_out s).
Definition set_gbuf (s : st) (b : buffer) : st := St (g_level s) b (g_handler s) (p_level s) (p_conf s) (p_known s) (p_back s) (p_buf s) (s_out s).
Definition set_pbuf (s : st) (b : buffer) : st := St (g_level s) (g_buf s) (g_handler s) (p_level s) (p_conf s) (p_known s) (p_back s) b (s_out s).
Definition know (s : st) (n : pystr) : st := St (g_level s) (g_buf s) (g_handler s) (p_level s) (p_conf s) (n :: p_known s) (p_back s) (p_buf s) (s_out s).

Section Runtime.
(** [old]: as above; [utf8]: whether PyUnicode_FromString takes a text. *)
Variable old : bool.
Variable utf8 : pystr -> bool.

(** gpi/logging.cpp:27-96 [gpi_native_logger_vlog]. *)
Definition native (s : st) (a : args) (text : option pystr) : st :=
  if native_skips (g_level s) (a_level a) then s
  else match fill old (g_buf s) text with
       | None => out s Failed
       | Some b => out (set_gbuf s b) (Line (native_line a (b_str b)))
       end.
(** A text taken for a format without arguments: "%%" stands for "%", anything else after "%" reads arguments. *)
Fixpoint expand (f : pystr) : option pystr :=
  match f with
  | [] => Some []
  | c :: f' => if c =? 37 then match f' with d :: f'' => if d =? 37 then option_map (cons 37) (expand f'') else None | [] => None end
               else option_map (cons c) (expand f')
  end.
(** pygpi/logging.cpp:26-44 [fallback_handler]: the message, which is put together already, is the format; then the complaint. [handler]: called with NULL or
    [pygpi_log_handler], which has a function to call, it is called again for the same reason. *)
Definition complaint : args := Args (lit "gpi") 40 (lit "pygpi/logging.cpp") (lit "fallback_handler") 40.
Definition fallback (s : st) (a : args) (text : pystr) : outcome st :=
  match p_back s with
  | None => NullCall
  | Some HPygpi => Endless
  | Some HNative =>
      if native_skips (g_level s) (a_level a)
      then Fine (native s complaint (Some (lit "Error calling Python logging function from C++ while logging the above")))
      else match expand text with
           | None => Garbage
           | Some t => Fine (native (native s a (Some t)) complaint (Some (lit "Error calling Python logging function from C++ while logging the above")))
           end
  end.

(** A message, with what happens in Python while it is handed over: the messages logged while [getLogger] runs, whether it returns, those logged while
    [_log_from_c] runs, and whether it returns. Messages of other threads which come meanwhile are among them. *)
Inductive msg := Msg (a : args) (text : option pystr) (get : list msg) (got : bool) (during : list msg) (logged : bool).
(** pygpi/logging.cpp:46-185 [pygpi_log_handler]. PyLong_FromLong and the conversion of names do not fail. *)
Fixpoint pygpi (s : st) (m : msg) {struct m} : outcome st :=
  let all := fix all (s : st) (l : list msg) : outcome st := match l with [] => Fine s | m :: l => then_ (pygpi s m) (fun s => all s l) end in
  match m with
  | Msg a text get got during logged =>
      if negb (p_level s =? 0) && (a_level a <? p_level s) then Fine s                                (* 52-54 *)
      else if negb (p_conf s)
      then match p_back s with Some HNative => Fine (native s a text) | Some HPygpi => Endless | None => NullCall end   (* 57-60 *)
      else match fill old (p_buf s) text with                                                        (* 70-105 *)
           | None => Fine (out s Failed)
           | Some b =>
               let s := set_pbuf s b in
               then_ (if existsb (pystr_eqb (a_name a)) (p_known s) then Fine (s, true)               (* 117-131 *)
                      else then_ (all s get) (fun s => Fine (if got then (know s (a_name a), true) else (s, false))))
                 (fun '(s, found) =>
                    if negb found then fallback s a (b_str (p_buf s))
                    else if negb (utf8 (b_str (p_buf s))) then fallback s a (b_str (p_buf s))          (* 153-160 *)
                    else then_ (all (out s (ToPython a (b_str (p_buf s)))) during)                    (* 174-184 *)
                           (fun s => if logged then Fine s else fallback s a (b_str (p_buf s))))
           end
  end.
Definition args_of (m : msg) : args := match m with Msg a _ _ _ _ _ => a end.
Definition text_of (m : msg) : option pystr := match m with Msg _ t _ _ _ _ => t end.

(** What happens: LOG_ macros (gpi/logging.cpp:101-114), PYGPI_LOG_ macros (pygpi/logging.cpp:187-194: always [pygpi_log_handler]), [pygpi_logging_initialize]
    (201-205), [pygpi_logging_configure] (207-212), [pygpi_logging_set_level] (196-199) and [pygpi_logging_finalize] (214-224). *)
Inductive op := Log (m : msg) | PyLog (m : msg) | Initialize | Configure | SetLevel (l : Z) | Finalize.
Definition apply (s : st) (o : op) : outcome st :=
  match o with
  | Log m => match g_handler s with HNative => Fine (native s (args_of m) (text_of m)) | HPygpi => pygpi s m end
  | PyLog m => pygpi s m
  | Initialize => Fine (St (g_level s) (g_buf s) HPygpi (p_level s) (p_conf s) (p_known s) (Some (g_handler s)) (p_buf s) (s_out s))
  | Configure => Fine (St (g_level s) (g_buf s) (g_handler s) (p_level s) true (p_known s) (p_back s) (p_buf s) (s_out s))
  | SetLevel l => Fine (St l (g_buf s) (g_handler s) l (p_conf s) (p_known s) (p_back s) (p_buf s) (s_out s))
  | Finalize => match p_back s with
                | Some h => Fine (St (g_level s) (g_buf s) h (p_level s) false [] (p_back s) (p_buf s) (s_out s))
                | None => NullCall   (* NULL becomes the handler: the next message calls it *)
                end
  end.
Fixpoint run (s : st) (l : list op) : outcome st := match l with [] => Fine s | o :: l => then_ (apply s o) (fun s => run s l) end.
End Runtime.

(** ** Levels *)

(** GpiCommon.cpp:283-311 [gpi_init_logging_and_debug]: whether tracing is enabled, and the level, None: "Invalid log level". *)
Definition debug_enabled (value : option pystr) : bool := match value with None => false | Some v => negb (pystr_eqb v (lit "0")) end.
Definition level_table : list (pystr * Z) :=
  [(lit "CRITICAL", 50); (lit "ERROR", 40); (lit "WARNING", 30); (lit "INFO", 20); (lit "DEBUG", 10); (lit "TRACE", 5)].
Definition env_level (value : pystr) : option Z := option_map snd (find (fun e => pystr_eqb (fst e) value) level_table).

(** Loggers of Python: their levels by name, and of the root. The parent of a logger named "gpi.x" is "gpi", of others the root; loggers of more than two
    parts and [logging.disable] are left out. *)
Record loggers := Loggers { l_root : Z; l_of : pystr -> Z }.
(** [getEffectiveLevel] and [isEnabledFor] of the standard library. *)
Definition parents (name : pystr) : list pystr := if pystr_eqb (firstn 4 name) (lit "gpi.") then [name; lit "gpi"] else [name].
Fixpoint first_level (l : list Z) : Z := match l with [] => 0 | z :: l => if z =? 0 then first_level l else z end.
Definition effective (ls : loggers) (name : pystr) : Z := first_level (map (l_of ls) (parents name) ++ [l_root ls]).
Definition enabled (ls : loggers) (name : pystr) (level : Z) : bool := effective ls name <=? level.
(** logging.py:187-190: [setLevel] of the logger "gpi" sets its level and gives the effective one to the C++ code. *)
Definition set_gpi (ls : loggers) (level : Z) : loggers * Z :=
  let ls := Loggers (l_root ls) (fun n => if pystr_eqb n (lit "gpi") then level else l_of ls n) in (ls, effective ls (lit "gpi")).
(** logging.py:455-472 [_log_from_c] behind pygpi/logging.cpp:52-54: whether a record is made of a message. *)
Definition recorded (ls : loggers) (p : Z) (name : pystr) (level : Z) : bool :=
  negb (negb (p =? 0) && (level <? p)) && enabled ls name level.

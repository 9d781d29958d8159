(** What C83 and C84 are about: which library a simulator uses, and what a table shows. *)
From Verif Require Import Base TextModel ToolsSpec XmlModel SummaryModel.
From Coq Require Import String QArith.
Open Scope Z_scope.

(** The library which serves a simulator: its own or the one of the simulator whose interface it has. *)
Inductive served_by : string -> string -> Prop :=
| SQuesta : served_by "questa" "modelsim" | SCvc : served_by "cvc" "modelsim" | SXcelium : served_by "xcelium" "ius"
| SRiviera : served_by "riviera" "aldec" | SActive : served_by "activehdl" "aldec"
| SOwn s : In s ["icarus"; "verilator"; "modelsim"; "ius"; "vcs"; "ghdl"; "nvc"; "dsim"]%string -> served_by s s.
Definition interfaces := ["vpi"; "vhpi"; "fli"]%string.
(** The file of a library. *)
Definition library_file (nt msvc : bool) (i lib : string) : pystr :=
  (if msvc then [] else lit "lib") ++ lit "cocotb" ++ lit i ++ lit "_" ++ lit lib ++ (if nt then lit ".dll" else lit ".so").
(** The function of the library which the simulator has to be told. *)
Definition must_name (i s : string) : option string :=
  match i, s with
  | "vpi", "cvc" | "vpi", "ius" | "vpi", "xcelium" => Some "vlog_startup_routines_bootstrap"
  | "vhpi", "riviera" | "vhpi", "activehdl" => Some "vhpi_startup_routines_bootstrap"
  | _, _ => None
  end%string.

(** [t] stands in the line from column [n] on; [t] stands in it and ends before column [n]. *)
Definition shown_at (line t : pystr) (n : Z) : Prop := exists a b, line = a ++ t ++ b /\ zlen a = n.
Definition ends_at (line t : pystr) (n : Z) : Prop := exists a b, line = a ++ t ++ b /\ zlen a + zlen t = n.
(** The two lines differ by colours only: a start and an end are put in the second. *)
Definition coloured (plain line : pystr) (start fin : pystr) : Prop :=
  exists a b c, plain = a ++ b ++ c /\ line = a ++ start ++ b ++ fin ++ c.
(** The word of an outcome. *)
Definition word_of (o : outcome) : string :=
  match o with OPass => "PASS" | OFail => "FAIL" | OSkip => "SKIP" | OXFail => "XFAIL" end.
(** How much longer a text is than its place. *)
Definition excess (t : pystr) (n : Z) : Z := Z.max 0 (zlen t - n).
(** The numbers of a result have their places. *)
Definition fits (fmt : fnum -> pystr) (r : testres) : Prop :=
  zlen (fmt (FVal (t_sim r))) <= 12 /\ zlen (fmt (FVal (t_wall r))) <= 12 /\
  (t_outcome r <> OSkip -> zlen (fmt (ratio r)) <= 11).
(** The colour codes: green, red and yellow text, and back to the default. *)
Definition code (t : string) : pystr := [27; 91] ++ lit t.
Definition colour_of (o : outcome) : pystr := match o with OPass => code "32m" | OFail => code "31m" | OSkip | OXFail => code "33m" end.
Definition no_colour : pystr := code "49m" ++ code "39m".
(** The ratio of a result: simulated time by real time; none for a test which was not run. *)
Definition ratio_shown (fmt : fnum -> pystr) (r : testres) : pystr :=
  match t_outcome r with
  | OSkip => lit "-.--"
  | _ => if Qeq_bool (t_wall r) 0 then fmt (if Qeq_bool (t_sim r) 0 then FNan else FInf) else fmt (FVal (t_sim r / t_wall r))
  end.
(** A line with these cells: stars at both ends and blanks between them. *)
Inductive blank_apart : list pystr -> pystr -> Prop :=
| BEnd n : blank_apart [] (repeat 32 n)
| BCell n t ts rest : blank_apart ts rest -> blank_apart (t :: ts) (repeat 32 (S n) ++ t ++ rest).
Definition cells (line : pystr) (ts : list pystr) : Prop := exists mid, line = lit "**" ++ mid ++ lit "**" /\ blank_apart ts mid.
(** The line of a result in a table whose names have [w] columns. *)
Definition row_shows (fmt : fnum -> pystr) (w : Z) (r : testres) (row : pystr) : Prop :=
  zlen row = w + 58 + excess (fmt (FVal (t_sim r))) 12 + excess (fmt (FVal (t_wall r))) 12 + excess (ratio_shown fmt r) 11 /\
  shown_at row (t_name r) 3 /\
  shown_at row (lit (word_of (t_outcome r))) (match t_outcome r with OXFail => w + 5 | _ => w + 6 end) /\
  cells row [t_name r; lit (word_of (t_outcome r)); fmt (FVal (t_sim r)); fmt (FVal (t_wall r)); ratio_shown fmt r] /\
  (fits fmt r -> ends_at row (fmt (FVal (t_sim r))) (w + 25) /\ ends_at row (fmt (FVal (t_wall r))) (w + 40) /\
     ends_at row (ratio_shown fmt r) (w + 54)).
(** The totals. *)
Definition totals (total passed failures skipped : Z) : pystr :=
  lit "TESTS=" ++ py_str_int total ++ lit " PASS=" ++ py_str_int passed ++ lit " FAIL=" ++ py_str_int failures
  ++ lit " SKIP=" ++ py_str_int skipped.

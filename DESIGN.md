# Design: machine-checked properties of cocotb

Subject: the Python sources under `/repo/src/cocotb` and `/repo/src/cocotb_tools`.
They are read as text only. Nothing in `/repo` is built, run or changed.
Properties are listed in `properties.jsonl`; the state of each claim is in `MANIFEST.json`.

## Layout

Each area has up to three files under `rocq/theories`:

* `<Area>Model.v`  - executable Gallina model, function by function, citing `/repo` lines. No proofs.
* `<Area>Proofs.v` - lemmas and invariants.
* `<Area>Props.v`  - the property theorems (each closed by `exact <lemma>`), their `Print Assumptions`,
  and an `Example` showing that the hypotheses can be met in a non-trivial case.
  The small specification a theorem is stated with is either in this file or in `<Area>Spec.v`.

Conventions of the models

* Python `int` is `Z`; lengths and positions are `nat` or `Z`; `str` is a list of code points (`list Z`/`list N`) or
  of symbols; `list`, `deque`, insertion-ordered `dict` are Coq lists; mutable objects become values returned by the
  function that changes them; object identity becomes a natural-number id.
* Exceptions are values of a result type (`Ok v | Err e`), with the state at the moment of raising where it matters.
* Loops are structural recursion, `fold`, or transition systems; no fuel that changes meaning.
* User code (test coroutines, done callbacks supplied by users, simulators) is an adversary: a transition system step
  takes as input *any* action the user code or the simulator could do next, and theorems quantify over all finite
  sequences of such inputs. That covers every program and every schedule.

## How each property is modelled and proved

Data types (pure functions, algebraic laws and refinement)

* C01, C02, C03 - `Range` as (start, stop, step) with Python's `range` semantics written out
  (CPython's length, index and containment formulas, which are part of the trusted reading). Specification: the
  explicit list of labels built from left, direction and length. Proof by arithmetic and induction on length.
  C03 is expected to be false for a missing bound (labels are used as positions): refutation with a witness.
* C04, C05, C06 - `Array` as element list plus range. Specification: the partial function label -> element.
  Polymorphic in the element type (element equality is a Boolean parameter where needed).
* C07 - the nine values as an inductive type, the tables transcribed entry by entry. The domain is finite
  (9 values), so a case analysis over all of it is a complete proof. "Refinement soundness": replacing an unknown
  by 0 or 1 can never turn a definite result into a different definite result.
* C08 - elementwise maps over lists; integer agreement by induction on the width with `Z.land`, `Z.lor`, `Z.lxor`.
* C09, C10, C11 - binary encoding by induction on the width; bytes by induction on the number of bytes.
* C12 - transition system over the three caches (`array`, `int`, `str` representations). Refinement to a plain list of
  Logic values with a range: an invariant says all filled caches denote the same list, and each operation returns what
  the specification returns.
* C13 - the `__eq__` chain as written, over cache states. The cross-type transitivity part is expected to be false.
* C14 - as C05, plus value conversion per kind of right-hand side.
* C15 - the translation tables; random draws are an arbitrary stream. The `bool`/`int` agreement is expected to be
  false for `COCOTB_RESOLVE_X` values other than unset/zeros: refutation.
* C16 - `__str__`/constructor round trip; formatting as written.

Scheduler (transition systems, invariants over all reachable states)

* C17 - C24 - one kernel model: event-loop deque, Tasks with their state machine, triggers with their callback
  tables, `Event`, `Lock`, `NullTrigger`, Task completion triggers, and simulator-fired triggers. The running Task's
  user code performs arbitrary API calls one at a time. The main invariant places every Task in exactly one place
  (C17); finality (C18) is a step property; cancellation (C19) is about the resume function for any coroutine
  reaction; order (C20) by ghost history; Event/Lock/join (C21, C22, C24) by invariants. C23 is expected to be false:
  a waiter cancelled after hand-over keeps the lock; refutation by a concrete run.
* C25, C27 - `AbstractQueue` on top of the kernel: `put`/`get` frames with the waiter deques; histories of puts and gets
  as ghost state. C27 holds without cancellation of woken waiters; with cancellation it is expected to be false.
* C26 - `heapq.heappush/heappop` (CPython's sift functions, trusted reading of the standard library since the
  queue's behaviour rests on them) over an abstract total preorder; heap invariant and permutation.
* C28, C29, C30 - `_wait` on top of Task states: the waiters, `remaining`, `first_completed`, the parent. The children
  are adversarial. C30 is proved for at most one cancellation between resumptions and expected to be false for two.
* C31, C32 - `TaskManager` as a transition system in the same style.
* C33 - `TestManager` as a transition system.
* C34 - bridge threads: state machine per thread, adversarial thread steps, `run_bridge_threads` as written (removal
  from the list being iterated). Expected to be false when the Task awaiting a finished thread was cancelled; proved
  under the excluded condition. Real threads, locks and memory ordering are not modelled.

Time, clock, writes

* C35, C36, C37 - rational arithmetic over `Q`/`Z` with powers of ten (Python's `Decimal`/`Fraction` treated as exact;
  floats as the rational they denote where the code converts exactly). Rounding specified by inequalities.
* C38, C39 - the drive loop as the list of (time, level) events; the edge-time specification is arithmetic. Simulator
  delivery of timers at the requested time is assumed.
* C40 - write scheduler as a transition system over phases, with an abstract signal store as specification.
* C41 - range checks and bit patterns for every width.
* C42 - recursion over array handles.
* C43 - handle cache as a map with adversarial simulator lookups.

Regression and tools

* C44 - C48 - `RegressionManager` as a transition system: test list, counters, `_execute` loop, adversarial outcomes.
* C49, C58 - cartesian product and naming over strings; decorators as functions on the generator record.
* C50, C51, C52, C53, C54, C55, C57 - string/list functions, modelled directly.
  C51 (valid characters kept), C53 (verdict of the combined file), C54 (exit status), C55 (total) are expected to be
  partly false: refutations plus the part that holds.
* C56 - corollaries of C28/C29; `ClockCycles` by induction on the count.
* C59, C60, C61, C62 - the texts the runner writes for other languages, with an independent reader for each language
  (SystemVerilog and VHDL literals, Tcl words, shell words, regular expressions); round trips for every string.
* C63, C64 - the environment as an association list with Python's update order; one run of `Runner.test` with
  adversarial commands, files and results; case analysis over the code paths.
* C65, C66 - the command lines as functions from the arguments to lists of words, one per simulator; order and
  completeness by induction over the lists, refutations by computed counterexamples.
* C67, C68, C69 - the formatter as a function on texts (code points); an independent grammar of escape codes, line
  breaks and a terminal which colours characters; inductions over the text.
* C70, C71, C72, C73 - the start-up functions on values of the environment, design roots, modules and callbacks as
  inputs; an inductive relation for the shutdown loop with generations as its independent order; the regular
  expressions of C62 for the test filter.
* C74, C75 - `Pytest*.v`: the regression manager under pytest as a state machine whose inputs are pytest, its plugins and
  the asynchronous parts. The expected history of a session is a closed expression in `PytestSpec.v`; the invariant is that
  what has happened and what remains add up to it. Statements for environments with exceptions use invariants of the log.
* C76-C80 - `Plugin*.v`: the pytest plugin in the parent process. Options are typed values from command line,
  configuration file, environment and default; the option table of the plugin is a constant. Markers are folded over a
  record of design attributes, so "the nearest marker wins" is proved with a general lemma about folds. Node ids are
  texts. Verdicts are compared with `RegressionModel.score`.
* C81-C82 - `Phase*.v`: the simulator triggers with their callbacks, priming and the last fired trigger as a machine over
  awaits, cancellations, writes and firings; C81 is stated with the last firing in the history. Edge triggers are a machine over
  uses with the cached properties of all handles; C82 compares any two answers of a history. `singleton` is a machine over
  constructions.
* C83-C84 - `Summary*.v`: the library look-up as in config.py against a table of which library serves which simulator, and the
  libraries of the build script; the summary table as text, with the place of each cell in its line.
* C85 - `Report*.v`: simulators, connections in the order they were made, the receiving thread and the main thread as one transition
  system with arbitrary failures; the stream of reports between a sender and the hook of the main process is an invariant, the
  request to stop comes after everything sent before it, and the remaining work of the receiver is a decreasing number.
* C86 - `Fixture*.v`: fixtures as trees with a cache, tasks that are scheduled by the setup hook and run one after the other, against
  ordinary fixtures that run when they are asked for; both are shown to run the same plan (the fixtures not yet cached, arguments
  first).
* C87 - `Compat*.v`: `_compat.py`, the collection hook of the plugin, pytest's `parametrize` and the order of pytest-order against `TestGenerator.generate_tests` and `discover_tests` (C49). A world of functions with marks and a module dictionary; both sides give a list of planned calls; equality by induction over the module, the combinations by induction over the options.
* C88 - `Current*.v`: the kernel model of C17-C24 with `current_task` read off its state. An invariant relates the variable
  to the stack of coroutines and done callbacks; `C88_running` needs a stronger one, kept by all steps but a nested `_cancel_now`.
* C89 - `Outcome*.v`: composition: the entries of the regression model, the `add_testcase` calls of the five recording methods, the reporter and reader of `XmlModel.v`, and the runner of `RunnerModel.v`. Theorems by combining those of C44-C48, C51-C54 and C64 with an induction over the entries.
* C90 - `Span*.v`: the steps of `PytestModel` get times; the events of a step happen at one time, and the reports' start and stop are a fold over the timed history. Proved with an automaton over hooks, runs and reports which every function of the manager respects.
* C91 - `Driver*.v`: `start()`, `stop()` and the two `drive()` coroutines as a layer over the kernel: user code has control unless a
  driver is on top of the stack. The writes, starts and stops are a history; the invariant says what state the Task of a stopped clock
  is in. The clock object of the simulator interface is a flag which only the `finally` of its driver, or freeing it, clears.
* C92 - `GpiClock*.v`: the C++ clock as a list of timed writes, compared with the list of `ClockModel.drive`.
- **C93** (`WaveModel.v`): the runner's names for wave files, the generated dump module and the argument loop of verilator.cpp as functions on top of the command lines of `BuildModel.v`; the theorems compare the file named in the command (or opened by the program) with the one attached and shown.
- **C94** (`GpiCb*`): a machine whose state holds the live callback objects and Python callbacks, what the simulator has registered, `cb_queue`, and the callbacks and handle of each trigger; steps are the simulator's calls (also nested ones), the turns of the loop, and Python's registrations and deregistrations. A use of freed memory is recorded as a fault. An invariant (queue entries are live value changes without repetition, a trigger with waiting functions owns its live armed callback, every callback is used at most once) is kept by every step that meets the conditions; concrete executions refute safety without them.
- C95 (design which was built): the commands of BuildModel; BuiltSpec says where the commands of each simulator put the design (`makes`) and where they look for it (`takes`), as the options of that simulator define it; BuiltProps compares the two for all inputs.
- C96 (libraries of the interface, GpiLoadModel/GpiLoadProps): the two variables are parsed as text and loading yields a list of actions; composed with C66 (GPI_EXTRA of the commands) and C63 (GPI_USERS of the environment), so the theorem runs through the Python writer and the C++ reader.
- C97 (life of the interface, GpiLifeModel/GpiLifeProps): a transition system over gpi_finalizing, Py_IsInitialized, pEventFn and the object of the callback at the end; labels are callbacks of the simulator, calls by Python and returns. Counting invariants give the "at most once" part for all executions; a second invariant under the stated assumptions gives freedom from faults.
- **C98 (handles of the interface)**: `GpiStoreModel.v` models the handle store and the search of GpiCommon.cpp as a state (map from full name to handle, the handles and iterators alive, a list of uses of freed objects). What each implementation answers is an arbitrary function. Theorems are about all sequences of operations from the empty state.
- **C99 (main loop of Verilator simulations)**: `VerilatorModel.v` is a machine with a program place, the time and the state of design and library, which is arbitrary. Every call is logged with the time and the state in which it is made. The order is stated by a description of the log in terms of numbers of iterations, for finished runs; the other theorems hold for every prefix of every run.
- **C100 (objects of the VPI)**: `VpiNameModel.v` models `create_gpi_obj_from_handle`, `get_child_by_name`, `get_child_by_index`, the two `initialise` functions and `next_handle` over a record of the functions of the VPI, all of them arbitrary. Objects are values with all the fields of `GpiObjHdl`, so equality of objects means the same type, names and range. The step-by-step access to arrays is proved by induction on the indexes, for any number of dimensions.
- **C101 (VHDL arrays through the VHPI)**: `VhpiArrayModel.v` models `create_gpi_obj_from_handle`, `get_child_by_index`, the two `initialise` functions and `get_range` over a record of the functions of the VHPI, all of them arbitrary, and keeps the list of the handles which are released. The meaning of indexes is stated by the list of all index tuples in row-major order (`rows`), which does not mention the scaling loop. The step-by-step access is proved by induction on the indexes, for any number of dimensions.
- **C102 (values through the interfaces)**: `SigValueModel.v` models the functions which write and read values in `VpiSignal.cpp`, `VhpiSignal.cpp` and `FliObjHdl.cpp` with their formats, modes and buffers, as the list of calls to the simulator, or as undefined where the C++ code is. The Python side is the conversion of `HandleModel.v` (C41), so that the theorems go from the Python value to the call: `delivered` reads the elements from what Python sends, and `std_position`, `stands_at` and `vpi_means` say by the language what the call means. `C102_roundtrip` writes and reads again through both VHDL interfaces.
- **C103 (VHDL objects by name and by discovery)**: `VhpiNameModel.v` models `get_child_by_name`, `get_child_from_handle`, `get_root_handle`, the regions of `create_gpi_obj_from_handle` and the whole of `VhpiIterator`, over a record of arbitrary answers of the VHPI; the iterator is a state (the relations left, what the current one still gives). `C103_discovery` compares it with the list of everything (`everything`), which mentions neither state nor loop; `C103_same` compares discovery with the search by name for the four kinds of children. The handles which are released are part of the results.
- **C104 (VHDL objects through the FLI)**: `FliNameModel.v` models `create_gpi_obj_from_handle` with all `initialise` functions, `get_child_by_name`, `get_child_by_index`, `get_sub_hdl`, `get_root_handle` and the whole of `FliIterator` over a record of arbitrary answers; undefined behaviour (a handle which is not a region asked for its name, an array read behind its end, a foreign parent) is an answer of its own. Types of VHDL are a tree; `declared` says without the model's tests which type of the interface each has. `C104_discovery` compares the iterator with `inside`, a list by kind of object, `C104_same` with the search by name.
- **C105 (discovery through the VPI)**: `VpiIterModel.v` models the tables of types and relations with the numbers of vpi_user.h, `to_gpi_objtype`, the cases of `create_gpi_obj_from_handle`, the constructor and the loop of `VpiIterator`, the iterators over roots, packages, drivers and loads, and `get_root_handle`, over a record of arbitrary answers. A NULL string which is read, a variable which was never set and an exception are outcomes of their own. `see` gives the simulator as `VpiNameModel.v` (C100) sees it, so that discovery and look-up are compared on the same objects. `C105_kinds` and `C105_relations` state the tables by number, `C105_discovery` compares the iterator with a list of all objects of all relations.
- **C106 (callbacks of the FLI)**: `FliCbModel.v` is a machine whose state holds the callback objects, what the simulator has scheduled for each process, the five free lists, the stack of functions being called and a record of registrations, removals and calls. Its steps are `register_*`, `remove`, the part of `run` before the call and the part after it, so that Python may register and remove while a function runs. The theorems are about all executions in which only what is held (registered, not yet called or removed, by the record alone) is removed and a running process is not run again; an invariant relates record, free lists, stack and schedule. Executions without these conditions refute the claims, and giving up timers makes processes without bound.
- **C107** (`GpiLogModel.v`, `GpiLogProps.v`): the buffer filled by `vsnprintf` in two attempts (old and new return conventions), the native logger and its line, the handler of pygpi with its known loggers, Python failing or logging further messages at each call as inputs, and the levels of both sides as functions. Sequences of operations are run from the start; what may go wrong (endless recursion, a null handler, a text read as a format) is an outcome.
- **C108** (`GpiTimeModel.v`, `GpiTimeProps.v`): the functions of the three interfaces which pass on time, delays, precision, product and arguments, as functions of what the simulator's own functions return. How a simulator encodes its time and what a delay is worth to it are relations of their own in the property file; the theorem on timers ends in the model of `Timer` used by C37, that on times in `get_sim_time` of C36.
- **C109** (`EmbedModel.v`, `EmbedProps.v`): `get_interpreter_path` with the array as a list filled by `wcsncpy`, the start of Python with each call's outcome as an input, the check of `sys.executable` with the number of characters it may write, and COCOTB_ATTACH through a model of `strtoul` with errno. Theorems on sequences of calls follow from the flag `python_init_called`.
- C110 (callbacks of the VHPI, VhpiCbModel/VhpiCbProps): a machine over live objects, live PythonCallbacks, registrations with the simulator and the stack of functions being called; labels are registrations, deregistrations, firings, returns and the request for the end, with the answers of the simulator as inputs. One invariant gives safety, single use and liveness of held callbacks; a second one, for simulators which accept everything, freedom from leaks.
* C111 - `Bind*.v`: Python objects as values with an identity, `==` as CPython does it with foreign types as an input; the registration functions on lists of values, returning what was made, what was asked of the interface and how the call ended.
* C112 - `FliLife*.v`: a transition system as for C97, with the two objects of the FLI whose `remove` deletes them; invariant `inv` over all reachable states, then one invariant each for the remaining theorems.
* C113 - `ObjType*.v`: the enums, the constants of the module and the text of the dictionary as tables, composed; the classes are those of C40 to C43, the edges those of C111.
* C114 - `Trace*.v`: tracebacks as lists of frames on a heap of exceptions, raised and caught in any order by Tasks, `capture` and users; chains of awaited objects as lists. Induction over histories and chains.
* C115 - `CmdVersion*.v`: the three functions `from_commandline` as parsers, characterised by the form of the output; the comparison is that of C55, the use that of C65.
* C116 - `Coverage*.v`: the decisions as functions of the variables of C50; the end by C72_shutdown.

Expected limits: floating point in `clock.py`/`simtime.py` beyond exact conversion, real threads, garbage
collection (`__del__`), warnings, what is logged by other code, and the C/C++ GPI layer are not modelled.

## Trusted base

* Coq 8.16.1's kernel, and `coqchk` for the re-check.
* `Print Assumptions` of every property theorem: recorded per theorem in the section below once proved.
* The reading of the Python sources: each definition cites file and lines and says where it simplifies.
* CPython and standard-library behaviour restated in the models (`range`, `dict` order, `deque`, `heapq`,
  `str.translate`, `re`, `Decimal`), cited where used.
* The simulator (GPI) and user code: adversarial inputs, constrained only where a theorem says so.

## Results, assumptions and findings

Every property theorem stands in a file `*Props.v`, is closed by a lemma of the same area and is followed by
`Print Assumptions`; all of them are "Closed under the global context". No axiom is used by any theorem. The
checker lists seven parameters of the standard library, all fields of the module type `Coq.ssr.ssrunder.UNDER_REL`
(`Over_rel`, `Under_rel_from_rel`, `over_rel`, `over_rel_done`, `Under_rel`, `Under_relE`, `under_rel_done`); they come
with the loaded `ssreflect` files which `lia` depends on.

### Per property

* C01 (proved) - All of the statement, for every Range object (any constructor arguments).
* C02 (proved) - All of the statement. C02_range_eq_bounds_refuted records that equal ranges may differ in left/right/direction.
* C03 (partial) - The statement is false of the code: C03_range_index_default_refuted. Proved for the window semantics the code has (start and stop both given, as labels positions); see DESIGN.md.
* C04 (proved) - For every element type and every constructible Array.
* C05 (proved) - For every element type, all start/stop/step forms. a[:] on an empty Array raises IndexError (C05_array_empty_slice).
* C06 (proved) - index() is stated for windows whose labels belong to the array; otherwise IndexError is possible (C06_array_index_window_refuted).
* C07 (proved) - All 9 values and both classes, exhaustively.
* C08 (proved) - For every reachable pair of arrays whatever their cached representations.
* C09 (proved) - One refuted corner: a leading don't-care is read as a minus sign (C09_la_dont_care_refuted); the positive theorems exclude exactly that case.
* C10 (proved) - All widths, both overflow modes, round trip.
* C100 (proved) - Proved for names without a bracket (not escaped); for escaped names, for generate loops with the name of their parent and for blocks which do not exist the expected statement is refuted. The functions of the simulator are arbitrary; the multi-dimensional theorems describe simulators which give no partial indexes (Questa).
* C101 (proved) - The functions of the simulator are arbitrary; the multi-dimensional theorems describe simulators which give the elements of the whole array by a flat index. For indexes outside of their range, for the release of handles and for null ranges with Questa the expected statements are refuted.
* C102 (proved) - The simulator is described by what it is asked to put; reading describes the simulator which gives the literals of the positions it was given. Doubles are opaque. Nine statements which do not hold (64-bit integers, names of types, FLI enumerations, forces through the FLI, characters, missing texts) are refuted.
* C103 (proved) - The functions of the VHPI are arbitrary. With NVC the theorems speak of names which the conversion to upper case does not change; for extended identifiers, nested generate loops, blocks by their names, absent members and a top with a colon the expected statements are refuted.
* C104 (proved) - The functions of the FLI are arbitrary; discovery is for objects of which the simulator gives as many elements as their types have. For blocks by their names, other spellings of a name, a loop named like its region, names of discovered elements, records of other interfaces and aliases of constants the expected statements are refuted.
* C105 (proved) - The answers of the simulator are arbitrary. The look-up of a root is for simulators which name all listed roots, packages for full names of at least two letters. For loops in interfaces, packages with a name of one letter, roots without a name and drivers and loads the expected statements are refuted.
* C106 (proved) - for executions in which only held callbacks are removed and a running process is not run again; C106_own_refuted, C106_twice_refuted and C106_reentry_refuted show what happens otherwise, C106_stale_refuted and C106_growth_refuted what the conditions do not exclude. Startup and shutdown callbacks, which delete themselves, and variables, which are refused, are left out
* C107 (proved) - The text of a message is one value: printf formatting itself is not modelled, only the buffer around it, and a text re-used as a format. Memory exhaustion is left out. Logger names of more than two parts and logging.disable are left out of the levels.
* C108 (proved) - What the simulator tells and what it makes of a delay are relations (tells, worth, fits) outside the model. A resolution limit is an unsigned number of femtoseconds below 2^64. Negative argument counts and texts which are NULL are left out.
* C109 (proved) - Texts contain no NUL of their own; strtoul as in glibc with 64 bit unsigned long; what follows a write beyond the array is not modelled. The start of the simulation, its end and finalisation are C97, the messages C107.
* C11 (proved) - Both byte orders, all lengths, round trip. from_bytes(b"") raises ValueError (part of C11_la_from_bytes).
* C110 (proved) - for executions in which only held callbacks are deregistered and no callback is made within itself (C110_own_refuted and C110_within_refuted show why); C110_cleanly_refuted and C110_leak_refuted record what is leaked when the simulator refuses. Objects have numbers which are never used again. The discipline of the triggers of Python is C94's; the finalisation of Python is C97.
* C111 (proved) - handles, hashes, registration with right arguments, wrong arguments other than a wrong edge, calls, lookups; false for a wrong edge (two refutations) and the PythonCallback of a refused registration is leaked
* C112 (proved) - all of it; when the callback for quitting is made its object is freed twice in every execution (C112_quit, C112_quit_refuted), and a callback left over enters finalised Python (C112_left_over_refuted)
* C113 (partial) - The statement is false of the text: proved are all but the text of packed structures, which is that of an unknown type (C113_text_refuted)
* C114 (partial) - False of an exception which two Tasks await (C114_waiters_refuted) and of the text of cancelled Tasks (C114_text_refuted). Proved: the removals (C114_strip, C114_strip_end, C114_never_raises), the traceback as the frames of all passages (C114_caught, C114_history), stacks, names and texts (C114_text_partial: brackets of all other states).
* C115 (proved) - Preserving the case is for versions of numbers and dots; an output with two blanks after the name gives an empty version, and comparing it raises (C115_blanks_refuted). Digits are ASCII.
* C116 (proved) - Stopping and saving are for ends in which no registered function raises; otherwise the data may be lost (C116_saved_refuted). Warnings raised as errors are not modelled.
* C12 (proved) - Every program over the modelled API has the outputs of the cache-free specification; the only unspecified output is == between arrays containing L, H or -, where the property is false (C12_la_eq_reads_refuted).
* C13 (proved) - Equality with str, int, list; equality of arrays is exact for values without L, H, - and complete always. Exactness in general is false: C13_la_eq_exact_refuted; see also C13_la_eq_str_underscore_refuted.
* C14 (proved) - Item and slice assignment for every kind of value, including self-assignment. With the indexing warning enabled valid labels can fail: C14_la_warn_refuted.
* C15 (proved) - Resolver values and bool for definite values. bool/int agreement on unknown values is false: C15_bool_int_refuted.
* C16 (proved) - Digits denote the value for all flags; digit counts for b, x, X (and plain o). The octal count with "#_" is false: C16_octal_width_refuted.
* C17 (proved) - For all programs and schedules in which the simulator accepts every callback registration. If it refuses one the claim is false: C17_prime_refuted.
* C18 (proved) - All of the statement for done callbacks registered outside the Task's own done callbacks; otherwise "exactly once" is false: C18_callback_twice_refuted.
* C19 (proved) - All of the statement, including kill-free executions with repeated cancels. A coroutine which raises while it is closed stops the event loop: C19_close_raises_refuted.
* C20 (proved) - All of the statement.
* C21 (proved) - All of the statement.
* C22 (proved) - All of the statement.
* C23 (partial) - The statement is false: C23_lock_leak_refuted. Proved when no Task is cancelled or killed between being handed the Lock and running (names end in _partial).
* C24 (proved) - All of the statement.
* C25 (proved) - For executions of any user code on the kernel model with the queue layer (blocking calls, cancellations, kills included): Queue history is puts = gets ++ contents, LifoQueue is a stack, size within maxsize, QueueEmpty/QueueFull exactly when empty/full, and the ghost history is tied to what each call reports. C25_nothing_lost needs a total preorder (for the PriorityQueue).
* C26 (proved) - heapq (CPython Lib/heapq.py heappush/heappop/_siftup/_siftdown) is modelled and proved: the list stays a heap, contents are a permutation, each item got is least. Needs a total preorder on items (a comparison that never raises).
* C27 (partial) - Proved when no Task inside put/get is cancelled (or killed after having been woken) and callers of put/get are not ignoring a cancellation. Without those conditions the statement is refuted three ways (C27_cancel_refuted, C27_absorb_refuted, C27_kill_refuted) and also for putters (C27_putter_refuted).
* C28 (proved) - `_wait` is a micro-step machine over the kernel (WaitModel.v: stages of the coroutine, of the done callback, and of the cancelling loops), user code being adversarial. Invariant: WaitInv*.v, WaitProofs.v, WaitReason.v. `C28_wait`/`C28_index`: what is returned, in terms of the recorded completions; `C28_wakes`: the caller is woken; `C28_cancels`/`C28_cancel_reason`: what is cancelled and when. Awaitables are not modelled: a call gets its (new) waiter Tasks.
* C29 (proved) - Same machine. `C29_select`, `C29_gather`, `C29_fails`, `C29_gather_iff`, `C29_empty`. `C29_killed_refuted`: a killed waiter counts as a normal end with result None.
* C30 (proved) - `C30_cancelled`: whenever CancelledError leaves the call all waiters are done, for any number and timing of cancellations. The stronger reading (the call is never left before its waiters are done) is refuted: `C30_two_cancels_refuted`, `C30_two_cancels_ends_refuted`, `C30_sibling_kill_refuted`.
* C31 (proved) - Model: `ManagerModel.v`, the whole of `_task_manager.py` (constructor, `start_soon`, `fork` through it, `_done_callback`, `_cancel`, `__aenter__`, `__aexit__`) on top of the scheduler kernel; user code, the children and the event loop are adversaries. `C31_all_done`: however `__aexit__` ends (no exception, group, CancelledError), all children are done. `C31_cancels`/`C31_cancel_reason`: the children are cancelled if, and only if, a child without `continue_on_error` failed, the block was left with an exception, or an exception was thrown into the wait; each child at most once (`C31_cancel_once`). `C31_start_refused`/`C31_start_accepted`: when `start_soon` is accepted. `C31_errors`: the only error the manager can run into is `Task.cancel()` on a running Task. Excluded from `C31_all_done` and refuted: SystemExit/KeyboardInterrupt, a parent cancelled twice (closed while draining); refuted as well: line 251 is reachable; a manager whose loop of cancellations breaks off.
* C32 (proved) - `C32_group`: the group has no duplicates and contains exactly the exceptions of the failed children and the ordinary exception which left the block; `C32_ok`: no exception is raised only if there is none; `C32_reraise`: otherwise a cancellation from outside leaves the block as it is. Refuted: child exceptions are dropped in that last case; the order of completion is not kept (a set); the same exception object raised by two children appears once. Exceptions are compared as objects as far as the model names them.
* C33 (partial) - Kernel layer: the done callbacks and the loop of `_abort` run step by step between kernel steps of adversarial user code. Proved for every execution: completion is signalled at most once, after every registered Task has ended; when no Python code runs it has been signalled exactly if the shutdown began and all Tasks have ended; the shutdown begins exactly for the four reasons; it cancels every Task registered before it; no exception leaves it unless the main Task is killed. The report is the failures so far in order; that it contains all of them is refuted (the failure of the Task whose end completes the test is lost), and so are three cases in which the test never completes.
* C34 (partial) - Interleaving of the main thread (event loop, run_bridge_threads) and the bridge threads at the granularity of the shared accesses; every scheduling of threads, Tasks and cancellations. For all executions: one outstanding resume call per thread, the result is delivered at most once and is the function's own, thread_wait never raises. That no thread runs while the simulator has control, and that every result is delivered, hold under three conditions on the execution (prompt, in_order, announced); each of the three is shown to be necessary by a refutation in which the two others hold.
* C35 (partial) - Exact for Fraction and Decimal; for int up to 2^53 (2^52 with round), or any if the unit is longer than a step; float results within one part in 2^53. Beyond that false: C35_int_refuted, C35_float_refuted, C35_roundtrip_refuted, C35_convert_steps_refuted, C35_unit_case_refuted.
* C36 (proved) - All of the statement, and the error bound and monotonicity in other units.
* C37 (proved) - All of the statement.
* C38 (proved) - Waveform and edges of the Python implementation. The constructor accepts more than it should: C38_accepted_refuted.
* C39 (proved) - All edge types, periods, phases; value changes need the skipped time to be a float (C39_change_refuted) and edges must follow Timers within a step (C39_late_refuted).
* C40 (proved) - Batching, keep-last per handle, immediate actions, ReadWrite service. The order against newer non-queued writes, setimmediatevalue and late C++ refusals are refuted.
* C41 (proved) - Accepted ranges and written bits of all value object classes; refuted for wide enums, unknown signedness and values the C++ argument check refuses.
* C42 (proved) - Element-wise writes and reads, length check; atomicity and constness of children refuted.
* C43 (proved) - Stability, identity, failing lookups, discovery, iteration order, keys, paths and attributes. Bits of packed vectors bypass the one-object rule, lookups are history dependent on simulators whose search does not find what they list, and elements with negative indexes are not iterated (refuted).
* C44 (proved) - Model: RegressionModel.v (regression.py as a transition system over start, Timer(1), user code, completion of the running test, end of the simulator). Invariant `good` over all reachable states; the selected tests are specified by stage and filter independently of the sort. Running tests are opaque: they may complete with any list of exceptions.
* C45 (proved) - Four iff theorems characterise the verdicts of `_score_test` for every class hierarchy, every matcher and every exception or group; messages, recorded entries and their origin are covered too. Three documented expectations fail in corner cases (see findings).
* C46 (partial) - Proved for tests which fail when run; tests that fail in `_init_test` count as failures without stopping the regression (C46_init_refuted), so the statement is proved for SFailed entries, and for all failures if there is no SError entry.
* C47 (proved) - The end of the simulator while a test runs always leads to a complete results file; between two tests it does not (C47_gap_refuted).
* C48 (proved) - hash and seeding are uninterpreted functions of the settings.
* C49 (partial) - The generated tests are the combinations of the option values, in lexicographic order, each once, with exactly the chosen arguments; names are built from the texts of the values (own text, or positions if one value has none). Distinct names are proved when no text contains a slash and the values of an option are shown differently; without this the claim is false (three findings). TestFactory: numbered names, constant arguments overridden, other globals unchanged. Tests, functions and docs are copied fields and not modelled; str.isidentifier is an arbitrary predicate.
* C50 (proved) - All of the statement, with str.lower restricted to the characters which matter for the words, and base-10 int.
* C51 (proved) - Output valid, idempotent, character by character, codes denote the character, whole document valid if properties and attachments are. Three claims of the source are false: C51_del_refuted, C51_astral_refuted, C51_property_refuted.
* C52 (proved) - All of the statement (times left out).
* C53 (partial) - Keeping and grouping of test cases and the return code are proved for inputs without nested suites; checking the combined file finds the failures only if suite names are distinct (C53_check_distinct_names), otherwise false: C53_check_refuted. Nested suites are duplicated: C53_nested_refuted.
* C54 (partial) - The statement is false for 256 failures: C54_status_refuted. Proved for fewer, and for the counts themselves without bound.
* C55 (partial) - Order laws proved, totality where numbers and words align; total comparison is false: C55_total_refuted, C55_empty_refuted.
* C56 (proved) - First, Combine and with_timeout on the machine of C28 (`C56_first`, `C56_combine`, `C56_combine_fails`, `C56_timeout`); ClockCycles on a layer of its own (CycleModel.v): `C56_cycles` counts the firings of the trigger between the call and the return, for any other user code.
* C57 (proved) - All of the statement.
* C58 (proved) - All of the statement. Expected errors are opaque identities; warnings and the reason texts are not modelled.
* C59 (proved) - Escape tables as functions of a character; independent readers for SystemVerilog string, decimal and sized binary literals and for VHDL string literals. Round trip for every string (SystemVerilog: no condition; VHDL: iff all characters are graphic, which is implied by no warning), every int, bool and non-empty logic value; exactly the unsupported logic values and types are refused. Refuted: empty LogicArray, VHDL logic values, VHDL floats without a point. Floats are represented by their str(). The 32-bit width of unsized SystemVerilog numbers is not modelled.
* C60 (partial) - Reader of Tcl commands and words after the dodekalogue (it refuses scripts with substitutions). The asim line is read back as exactly the intended words if no argument is empty or contains '[', ';' or '$name'; an iff for a single word shows that these are exactly the unprotected cases; refutations for each. Build scripts (C60_build_partial): after the onerror command, exactly alib, one alog/acom call per source with the intended words, and exit, under the same condition on paths, and if defines and build arguments need no quoting (they get none).
* C61 (proved) - shlex.quote of CPython and a reader of POSIX shell words (quotes, blanks; refuses anything expanded). Round trip for every list of arguments.
* C62 (proved) - re.escape of CPython; parser and matching relation for the part of Python's regular expressions used. For every list of names the pattern compiles and the matching subjects are characterised exactly; consequences: every named test is selected, tests whose name merely ends with a given name are selected too (refutation of exactness), an empty list selects nothing; the pattern survives the environment variable.
* C63 (proved) - Dictionaries as association lists with Python's insertion semantics. The value of every variable is characterised for every environment and every argument (`C63_environ`, `C63_args`, `C63_own`, ...), with an iff for the errors. Refuted: that explicit arguments win over os.environ, and that a later build does not see the variables of an earlier test.
* C64 (proved) - The commands, the files they leave and the viewer are adversarial inputs; the XML result counting is that of C53. `C64_verdict` and `C64_command_fails` give the outcome of every run; `C64_pass` is the consequence for a pass. Refuted: unique results files under pytest, a missing file is an error, and freshness when the old file cannot be deleted. Not modelled: the text of the log file, the external viewer beyond its exit.
* C65 (proved) - _build_command of all eleven runners as lists of words (for the Aldec simulators lines of the script); time stamps, libraries and tools are adversarial inputs. Order and completeness of sources (`C65_sources`, `C65_questa`, `C65_aldec`), refusal (`C65_refused`) and acceptance (`C65_accepted`), options (`C65_options`), skipping (`C65_skip`), the language of the top level (`C65_lang`). Values of defines and parameters are their formatted text. Refuted: see findings.
* C66 (proved) - _test_command of all eleven runners. Arguments, plusargs, prefix and suffix (`C66_args`), parameters (`C66_parameters_test`, `C66_parameters_once`), pre_cmd, elab_args. Refuted: see findings.
* C67 (proved) - `sub_codes` follows the regular expression; `C67_sub` is an iff with an independent grammar of codes. `C67_strip` for records on one line; several lines by `C68_lines`. Refuted: that no code is ever left (codes hidden around a removed one, text of exceptions).
* C68 (proved) - Prefix functions are arbitrary (the result of eval is an input), as are indentation functions, times (their formatted text) and records. `C68_lines`, `C68_function` for every record, `C68_columns` for the default format, `C68_just` for widths of at least three. Refuted: alignment from 1 ms on, widths below three, a trailing line feed in coloured output.
* C69 (proved) - A terminal as a relation `shows` from text to coloured characters for the codes of the ANSI enum. `C69_text` and `C69_level` for records on one line, `C69_reset` for all records without traceback. Refuted: a background survives the return to the default at WARNING and ERROR.
* C70 (proved) - Environment values are arbitrary texts; the isatty answer is an input. `C70_strip` and `C70_init` are equivalences; `C70_level` for ASCII values (level names in any case). Refuted: forcing colours when GUI cannot be read, a blank NO_COLOR.
* C71 (proved) - `str.casefold` is an arbitrary function; design roots and the answers of the simulator are inputs. `C71_recreate` for every seed; `C71_top`, `C71_top_asked` and `C71_tops` for every list of roots. Refuted: an empty COCOTB_RANDOM_SEED counts as unset, cocotb.tops is keyed by the names, roots differing in case.
* C72 (proved) - Entry functions are arbitrary (their outcome may depend on what ran before). Callbacks are finite trees of registrations, so a callback registering itself forever is excluded. `C72_shutdown` gives the order as generations. Refuted: blanks around COCOTB_PREVIEW, an error in one shutdown callback skips the others.
* C73 (proved) - Imports are arbitrary; regular expressions as for C62. `C73_setup` is an equivalence; `C73_selected` combines it with the filters of the regression. Refuted: the exact match documented for COCOTB_TESTCASE, and finding a test by its own name if that has special characters.
* C74 (proved) - Everything pytest and plugins do is an input, including exceptions; the connection to the parent process, pdb and times are left out. `C74_order` and `C74_ends` need that nothing raises, the others hold for every environment. Refuted: reporting every failing finalizer and hook, the exit status, stopping the simulator when a plugin raises at the end, finishing when the simulation ends early, and a bounded depth of calls.
* C75 (proved) - Generator states are numbers and the effect of seeding a function. `C75_runs` and `C75_restored` hold for every environment. Refuted: capture of the second asynchronous fixture, reproducible finalizers, and the seed named in the message of a failed test.
* C76 (proved) - argparse and pytest's reading of the command line and configuration file are inputs; Path.resolve and shlex.split are parameters.
* C77 (proved) - Sources, paths and parameter values are given by their texts; the file system is not modelled.
* C78 (proved) - Node ids are texts as pytest makes them.
* C79 (proved) - pytest's own makereport and teststatus hooks are modelled from their documented source; times in the summary are left out.
* C80 (proved) - One item at a time; warnings are events.
* C81 (proved) - Callbacks are numbers; the simulator fires only triggers it has a callback for. The start counts as a timer (line 388).
* C82 (proved) - What orig_new and orig_init do is given for each construction; the lookup of a child named like the property in a hierarchy object is left out.
* C83 (proved) - A Path is its text. The list of libraries is transcribed from the build script for Linux.
* C84 (proved) - Numbers are rationals; the format with two decimals is any function.
* C85 (proved) - Reports are numbers (encoding and decoding them is pytest's). Connections are accepted in the order in which they were made. C85_complete assumes that accepting, reading and decoding a complete report succeed and that notify_exception does not raise; the refutations show what happens otherwise.
* C86 (proved) - The protocol of pytest's FixtureDef.execute (arguments first, cached results by element 2 and 0) is taken from the class comment and pytest's documentation. Fixtures have no parameters; fixtures asked for inside a body are left out. The refutations drop one hypothesis each.
* C87 (proved) - pytest's collection, Metafunc.parametrize, the reading of marks and the sorting of pytest-order are modelled from their sources as known (not in /repo). Classes of tests, pytest.param, user overrides of the dut fixture and arguments used only by fixtures are left out. The two plans are equal as lists of calls with flags; what the flags mean for the verdict is C79. Differences outside the stated modules are refuted one by one.
* C88 (proved) - On the kernel model (KernelModel.v). C88_running assumes that _cancel_now is not called while a coroutine is inside a call (C88_kill_refuted shows it is needed).
* C89 (proved) - Composes the models of C44-C48, C51-C54 and C64 with the add_testcase calls of the _record_test_* methods. Times, file names and lines are given as text. The limit of 256 failures is C54_status_refuted.
* C90 (proved) - times in steps; wall times given; the statement on sim_time_ratio is refuted for cocotb's own manager
* C91 (partial) - proved for the implementation 'py' in full; for 'gpi' a clock whose driver never ran, or was killed, is not stopped (refuted), otherwise proved
* C92 (proved) - all; the values outside 0..2^64 are treated differently (refuted)
* C93 (proved) - Which file a simulator writes is read off its command line; for Verilator also the main program of the repository is modelled. How Verilator turns build arguments into VM_TRACE_FST and VM_TRACE_SAIF is an assumption (`exe_of`). The plusarg +dumpfile_path of Icarus is left out.
* C94 (proved) - for executions in which no value change is reported for a callback queued or being handled, and (but for Verilator) no queued callback is given up; C94_twice_refuted, C94_own_refuted, C94_late_refuted and C94_leak_refuted show what happens otherwise. Numbers of objects are never reused, so a use after a free is a recorded fault. The registration of other callbacks of the library and vpi_release_handle are left out
* C95 (proved) - Place of the design in build commands = place in test commands for the non-Aldec runners, under `placed` (same working directory where the place is relative to it); without it refuted (findings). The Aldec runners run a script and are left out.
* C96 (proved) - Loading is a list of actions (open, call, request the end, exit); dlopen and dlsym answer as they like. Paths with a comma are refuted (`C96_comma_refuted`, `C96_libpython_refuted`), and so is the message about a missing GPI_USERS (`C96_no_users_refuted`).
* C97 (proved) - Small-step model of the VPI layer with its queue; simulator and Python are adversaries. The two assumptions of `C97_no_fault` are each necessary (two refutations); `C97_object` needs none.
* C98 (proved) - The uniqueness, lifetime, search order and iteration theorems hold for all sequences of operations; native look-ups, two objects with one full name, iterators asked after their end and handles used after clearing are recorded as refutations.
* C99 (proved) - Proved for all designs; three further statements one could expect (the testbench stops at `$finish`, value callbacks come to an end, one ReadOnly phase per time also with delays of 0) are refuted.

### Findings

Behaviours of the code which contradict its documentation or the property as stated, each proved about the model as
`..._refuted`:

* C02 - two Ranges which compare equal (both empty, or both of one element) can differ in direction and bounds.
* C03 - `Range.index(v, start, stop)` compares positions, but a missing start or stop defaults to the label `left` or
  `right`: for Range(7, 'downto', 0) `index(0, 0)` raises although 0 is at position 7.
* C05 - `a[:]` on an empty Array raises.
* C06 - `Array.index` with a window outside of the array's labels raises `IndexError` instead of `ValueError`.
* C09 - a leading don't-care in a string is read as a minus sign by `int(...)`.
* C12, C13 - equality of LogicArrays with `L`, `H` or `-` depends on which representation is cached; "1_0" is accepted
  as a string in a comparison.
* C14 - with the indexing warning enabled, valid labels raise.
* C15 - `bool` and `int` of the same value with unknown bits disagree for some resolvers.
* C16 - `#_o` formats one digit more than the width needs.
* C17 - a trigger whose priming fails keeps a stale callback and can never be primed again.
* C18 - a done callback registered by a done callback of the same Task is called twice.
* C19 - a coroutine which raises from `close()` during `cancel` stops the event loop.
* C23 - a Lock waiter which is cancelled after the Lock has been handed to it and before it runs keeps the Lock for ever.
* C51 - the character class of `_INVALID_CHARS` is not what its comment says: its last part (backslash-u10000 to backslash-u10ffff) is read as
  U+1000, the range "0"-U+10FF, and "ff". DEL is kept although the comment says it is not, and every character above
  U+FFFF is escaped although it is valid. Property names and values and attachments are not escaped at all.
* C53 - `combine_results` extends a suite of the same name but keeps its counters, so `check_results` of the combined
  file misses failures. Suites within suites are taken twice.
* C54 - `check_results` exits with the number of failures, which is 0 modulo 256 for 256 failures.
* C55 - comparing simulator versions raises `TypeError` when a number meets a word ("2023.1_1" and "2023.1.2").
* C35 - integer times of 2^53 and more are silently rounded although round_mode is 'error', even in the simulator's own
  unit, because they are divided by 1 as floats. Times like 1.001 ps at a precision of 1 fs are refused although they
  are whole numbers of steps, so converting steps to a unit and back raises in the default mode. `convert` from 'step'
  to 'step' returns fractions unchanged. 'STEP' is refused, 'NS' is not.
* C38 - `Clock` accepts a period of zero or below, a high time of zero or below, and float times which are the same
  number of steps; the task which drives the clock then raises.
* C39 - `Clock.cycles` halves the time to skip as a float for ValueChange, which is inexact from 2^53 steps on and then
  returns at a wrong edge. If a simulator reports an edge before a Timer of the same time it returns one period late.
* C40 - a queued Deposit is applied after a newer `Immediate` write of the same handle, so the older value
  wins.
* C40 - `setimmediatevalue` is queued like a Deposit: the enum member it passes is an alias of DEPOSIT. The documentation
  says it equals `Immediate`.
* C40 - a value which only the C++ argument check refuses (NUL byte in a string, bytearray, int too large for a double)
  raises when the queue is applied. The exception leaves the simulator callback and the writes queued behind it are lost.
* C41 - a negative value for an EnumObject wider than 32 bits is formatted with a minus sign among its bits.
* C41 - if the simulator does not know whether a vector is signed, reading back a written negative integer gives another
  value.
* C41 - `bytearray` and very large ints for a RealObject pass the Python checks but cannot be written.
* C42 - writing an array with a bad element fails after the elements before it were written.
* C42 - writing a whole array also writes to children which are constant.
* C43 - a bit of a packed vector obtained by indexing and the same signal found by name are two Python objects; the
  factory which keeps one object per simulator object is bypassed. They still compare equal.
* C43 - if iteration lists a child which the search by name does not find, the lookup fails before iterating over the
  parent and succeeds afterwards.
* C43 - elements of a generate loop with negative indexes can be indexed but are left out of iteration and `len`.
* C43 - two names such as `g__1` and `g__01` have the same key; the later child hides the earlier.
* C43 - `_path` is the path used when the object was first looked up, not the one by which it was found.
* C49: the values None and "None" (or two lambdas, two equal values, two Params with one name) of one parameter give two tests with one name (`C49_names_refuted`); filters, seeds and result files then cannot tell them apart.
* C49: a parameter name given by two `parametrize` decorators is accepted; generation then uses the texts of the innermost values for both and fails with IndexError if it has fewer (`C49_repeated_name_refuted`).
* C49: `parametrize` documents that a value "may also be written as (value, name)"; the code passes the pair to the test and does not use the name (`C49_value_name_refuted`).
* C49: TestFactory overwrites the tests of an earlier factory for the same function in the module; only an error is logged (`C49_factory_overwrites_refuted`).
- C44_list_refuted: `list_tests` says it lists the tests "in the order they would be run" but prints the unsorted, unfiltered queue.
- C45_expect_both_refuted: `expect_fail` is ignored when `expect_error` is set as well: a failing assertion is reported as a failure.
- C45_group_of_failures_refuted: a test marked `expect_fail` in which two Tasks fail an assertion is scored "errored" because the group of the two is not an AssertionError.
- C45_forced_in_group_refuted: two requests to pass, skip or xfail from different Tasks end in a group, and the test fails.
- C46_init_refuted: a test that cannot be set up counts as a failure but never stops the regression, whatever COCOTB_MAX_FAILURES says.
- C47_gap_refuted: if the simulator ends while the manager waits for Timer(1) between two tests, no results file is ever written.
- C47_never_run_passes_refuted: a test that never ran is recorded as passed when its `expect_error` covers the exception which ended the regression.
- **C27** (`C27_cancel_refuted`, `C27_putter_refuted`, queue.py:76-83, 126-157): a Task blocked in `get()` (`put()`) which has been woken and is cancelled before it runs takes the wake-up with it: another getter stays blocked although the queue has an item (another putter although there is room). `asyncio.Queue` handles this case by waking the next waiter in an exception handler; queue.py has none.
- **C27** (`C27_absorb_refuted`, queue.py:79-83): a getter which is blocked, cancelled, but has not run yet is not `done()`; `_wakeup_next` pops it and sets an Event nobody waits for, so the wake-up of the item is lost for the getters behind it.
- **C27** (`C27_kill_refuted`): the same with `Task.kill()` of a woken getter, without any cancellation.
- **C29** (`C29_killed_refuted`): `kill()` gives a Task the outcome `Value(None)` (task.py:451-490), so `gather` takes a killed awaitable for one which succeeded and puts `None` in the tuple.
- **C30** (`C30_two_cancels_refuted`, `C30_two_cancels_ends_refuted`): cancelling the caller of `wait`/`select`/`gather` twice before it is resumed leaves `_must_cancel` at 1 after the single `_uncancel()` of _concurrent_waiters.py:187; the next `await NullTrigger()` closes the caller, which ends with RuntimeError while its waiters are still running.
- **C30** (`C30_sibling_kill_refuted`): a running waiter which kills a sibling makes the done callback call `cancel()` on the running Task; RuntimeError leaves the callback and `kill()`, and the remaining done callbacks of the killed Task are skipped.
- C31 (`C31_exit_refuted`): a TaskManager block left with SystemExit or KeyboardInterrupt (and one being closed) cancels its children but does not wait for them (`_task_manager.py:233-238`): the block ends while they are still running. Deliberate, but the docstring's "all child Tasks have finished" has no exception.
- C31 (`C31_two_cancels_refuted`): a parent Task which was cancelled twice before it ran again takes back only one cancellation (`_uncancel`, 257); its `await` in line 261 is then treated as ignoring cancellation (`task.py:374-389`) and the coroutine is closed: the block ends with GeneratorExit, children still running.
- C31 (`C31_unreachable_refuted`): the code after line 249 ("unreachable") can be reached: if a child fails, the parent is cancelled; if the block swallows that CancelledError after other library code has taken the cancellation back (`gather()`/`wait()` call `_uncancel`), NullTrigger returns and the internal error of line 251 is raised.
- C31 (`C31_broken_refuted`): a child Task may enter the block of its own manager; `_cancel()` then calls `cancel()` on the running Task, which raises RuntimeError in the loop of 218-219: the remaining children are never cancelled.
- C31 (`C31_errors_ex`): if a child fails inside a callback run by its parent (`kill()` in the parent, `_cancel_now` in the callback), `_done_callback` calls `cancel()` on the running parent and RuntimeError leaves `_set_outcome` half way.
- C32 (`C32_dropped_refuted`): when the parent is cancelled from outside, `__aexit__` re-raises the CancelledError (265, 287) and the exceptions of children which failed are dropped silently.
- C32 (`C32_order_refuted`, `C32_merged_refuted`): `_exceptions` is a set: the group does not keep the order in which the children failed, and an exception object raised by two children appears once.
- **C33, lost failure** (`C33_lost_refuted`). `_task_done_callback` and `_test_done_callback` call `remove_task` first (_test_manager.py:67, 181). If that removes the last Task during the shutdown, `_done.set()` runs `_on_complete`, and the regression manager reads `exception()` at once (regression.py:498); the exception of the Task itself is appended only afterwards. A Task started by a `finally` block during teardown which fails last leaves the test reported as passed.
- **C33, Tasks started during the shutdown** (`C33_new_task_refuted`). `_abort` cancels the Tasks registered when it is called; a Task registered afterwards is never cancelled, and the timeout is already off. If it waits forever the test never completes.
- **C33, killing the Task of the test** (`C33_kill_refuted`). If a Task of the test calls `kill()` on the main Task, `_abort` runs inside the caller and calls `_cancel_now` on the caller itself, which is RUNNING: RuntimeError leaves the done callback, `_on_complete` is never registered, the test never completes.
- **C33, `cancel()` before `start()`** (`C33_cancel_early_refuted`). If the simulation ends after a test was set up and before it started, no Task is registered, `_done` is never set and completion is never signalled.
- **C34, race** (`C34_race_refuted`): a single bridge thread which is resumed while other callbacks are still scheduled runs in parallel with the Tasks (the event loop runs all callbacks before `run_bridge_threads`). If it calls `resume` again, the new Task may finish between `start_soon` (_bridge.py:229) and `thread_suspend` (233): `thread_resume` sets RUNNING, then `thread_suspend` sets PAUSED and `event.wait()` returns at once. The thread runs while it counts as paused, and control returns to the simulator.
- **C34, skipped thread** (`C34_skip_refuted`): `run_bridge_threads` removes finished threads from `pending_threads` while it iterates over it (_bridge.py:283-299), so the thread after a finished one is neither started nor waited for in that pass. If nothing else is scheduled the simulator gets control while the skipped thread runs.
- **C34, no pass** (`C34_no_pass_refuted`): `EventLoop.run` does nothing when no callback is scheduled, so a simulator callback which ends a `resume` Task synchronously (a test timeout cancels it) resumes the thread without waiting for it.
- **C34, stuck thread** (`C34_stuck_refuted`): if the Task of a `resume` call is cancelled before it begins, its coroutine never runs, `event.set()` is never called and the thread waits forever. A Task cancelled after it began swallows CancelledError (`try/except BaseException`, _bridge.py:207-224) and returns normally, which the kernel reports as "cancelled but exited normally".
- **C59, empty LogicArray** (`C59_sv_empty_refuted`): `as_sv_literal(LogicArray(""))` is `0'b`, which is not a SystemVerilog literal; no error is raised.
- **C59, VHDL logic values** (`C59_vhdl_logic_refuted`): `as_vhdl_literal` of a Logic or LogicArray is its bare `str()`, for example `01` or `X`: an integer literal or an identifier in VHDL, never a character or string literal (the quotes are missing). The repository's own test asserts this text, so it may be what some simulators' command lines want, but it is not the documented "VHDL literal".
- **C59, VHDL floats** (`C59_vhdl_float_refuted`): `as_vhdl_literal(1e16)` is `1e+16`; without a point this is a VHDL integer literal (and `1e-05` is not a literal at all).
- **C60, unprotected Tcl characters** (`C60_semicolon_refuted`, `C60_substitution_refuted`, `C60_empty_refuted`): `_as_tcl_value` escapes backslash, braces, white space and a leading quote, but not `;`, `[`, `$`; so `test_args=["-gNAME=a;quit"]` runs `quit` as a command, `[exit]` is executed and `$user` in a path is substituted. An empty argument disappears. `C60_word` shows that these four are the only gaps.
- **C62, suffix match** (`C62_suffix_refuted`): the pattern is `\.(.*NAME|...)$`, so `testcase="reset"` also runs `test_no_reset`. The argument is documented as the name of a specific test case.
- **C63, precedence** (`C63_precedence_refuted`): `_set_env_common` updates the environment built from the arguments with `os.environ`, so `extra_env`, `seed`, `testcase` and `test_filter` given to `test()` are silently overridden by variables of the calling process.
- **C63, leak into a later build** (`C63_build_leak_refuted`): `build()` reuses the dictionary left by an earlier `test()` of the same runner, including its extra environment and seed.
- **C64, shared results file** (`C64_name_refuted`): the name of the pytest test is cut at the last colon and the first blank; parametrized tests whose ids differ only before a colon (`test[a:x]`, `test[b:x]`) share one results file.
- **C64, no results** (`C64_missing_refuted`): under pytest, a simulator which ends normally without writing a results file makes `test()` raise SystemExit(0).
- **C64, stale results** (`C64_stale_refuted`): the OSError of deleting the old results file is suppressed; if the run then writes nothing, the old file decides.
- **C64, dead handler** (`C64_status`): `_execute_cmds` raises RuntimeError, never CalledProcessError, so the handler in `test()` which exits with the simulator's return code cannot run.
- **C64, documentation**: `results_xml` is documented as relative to the build directory; the code uses the test directory (`C64_file`).
- **C65, sources of the other language** (`C65_ignored_refuted`, `C65_ignored`, `C65_ignored_vhdl`): Icarus, Verilator and DSim never look at `vhdl_sources`, GHDL and NVC never at `verilog_sources`, although the same files in `sources` are refused.
- **C65, stale build** (`C65_stale_refuted`): Icarus, VCS and DSim (and the Aldec script) compare time stamps of sources only; changed defines, parameters, include directories or included files do not rebuild.
- **C65, tagged build arguments** (`C65_tag_refuted`): Xcelium, VCS and QuestaQIS pass arguments tagged for one language to the compilation of the other.
- **C65, VCS and VHDL** (`C65_vcs_refuted`): VCS supports no VHDL interface, yet VHDL sources are handed to it.
- **C65, Xcelium defines** (`C65_xcelium_define_refuted`): documented as taken literally, a define becomes a quoted string: `-define N="8"`.
- **C66, parameters of `test()`** (`C66_parameters_refuted`): ignored by Icarus, Verilator, Xcelium, VCS, DSim and QuestaQIS, which take parameters in `build()` only.
- **C66, pre_cmd** (`C66_pre_cmd_nvc_refuted`, `C66_pre_cmd_second_refuted`): NVC ignores it while all others without Tcl raise RuntimeError; on Questa a second command is not preceded by `-do`.
- **C66, elab_args** (`C66_elab`, `C66_elab_refuted`): only NVC uses them; all other runners ignore them silently.
- **C66, DSim** (`C66_dsim_prefix_refuted`): SIM_CMD_PREFIX and SIM_CMD_SUFFIX are not used to run the tests (but are to build).
- **C66, Xcelium** (`C66_xcelium_empty_refuted`): without the GUI an empty argument is passed to xrun.
- **C67, codes left after stripping** (`C67_strip_refuted`, `C67_exception_refuted`): the substitution runs once, so `ESC ESC[31m [31m` becomes a code again; and tracebacks are appended after stripping, so their codes are never removed.
- **C68, alignment** (`C68_columns_refuted`): "The default prefix_formats length is fixed" (logging.py) does not hold: the time column has eleven characters, so from 1 ms on (`1000000.00ns`) all further lines of a record are indented too little.
- **C68, small widths** (`C68_just_refuted`): `ljust(s, 2)` keeps the whole text behind `..` (slice `[0:]`); widths 0 to 2 make the text longer instead of shorter.
- **C68, trailing line feed** (`C68_trailing_refuted`): dropped when codes are stripped, but followed by a line of blanks when the record is coloured.
- **C69, background** (`C69_level_refuted`): at WARNING and ERROR `ANSI.DEFAULT` in a message is replaced by the foreground of the level only, so a background set by the message stays until the end of the record.
- **C70, forced colours** (`C70_forced_refuted`): with COCOTB_ANSI_OUTPUT=1 the default it overrides is still evaluated, so a GUI value which is no boolean ends the start with ValueError on a terminal.
- **C70, NO_COLOR** (`C70_no_color_refuted`): a blank but non-empty NO_COLOR does not switch colours off (no-color.org: present and not an empty string).
- **C71, empty seed** (`C71_blank_refuted`): an empty COCOTB_RANDOM_SEED is not like an unset one: it hides RANDOM_SEED and the plusargs, and the time is used.
- **C71, keys of cocotb.tops** (`C71_tops_refuted`, `C71_case_refuted`): keys are casefolded, so `cocotb.tops["Top"]` is missing; of the Verilog roots `Top` and `top` one is lost, and COCOTB_TOPLEVEL=Top can select `top`.
- **C72, shutdown** (`C72_shutdown_refuted`): callbacks run unguarded; an error in an earlier one, such as saving user coverage, means that the regression's own end is never reached.
- **C72, preview** (`C72_preview_refuted`): `COCOTB_PREVIEW="1 "` is a ValueError, though other boolean settings and the listed features may be surrounded by blanks.
- **C73, COCOTB_TESTCASE** (`C73_exact_refuted`, `C73_special_refuted`): documented as an exact match on the test name, but the text is used as a regular expression for the end of the full name: `reset` also selects `m.test_no_reset`, and `t/op=*` does not select the test of that name.
- **C74, failing finalizers** (`C74_teardown_refuted`, `C74_hook_refuted`): `_teardown` keeps only the report of the last asynchronous finalizer. A failing one followed by a passing one, or a failing teardown hook followed by a passing asynchronous finalizer, is reported nowhere. The report of the call hook is dropped in the same way if there is an asynchronous function.
- **C74, exit status** (`C74_status_refuted`): `pytest_sessionfinish` always gets exit status OK unless something raised inside the manager; failed tests and an empty collection do not change it (pytest itself uses TESTS_FAILED and NO_TESTS_COLLECTED). `session.shouldstop` and `shouldfail` (`-x`, `--maxfail`) are never looked at.
- **C74, early end of the simulation** (`C74_sim_end_refuted`): `_on_sim_end` is never registered, so if the simulation ends during a test, there is no report, no `pytest_sessionfinish` and no results.
- **C74, end of the session** (`C74_stop_refuted`): an exception from `pytest_sessionfinish` leaves `_finish` before the simulator is stopped, and `_finish` cannot be repeated.
- **C74, depth of calls** (`C74_depth_refuted`): consecutive items without asynchronous parts are run by calls of `pytest_runtest_protocol` inside each other; with enough of them Python's recursion limit is reached.
- **C75, log capture** (`C75_captured_refuted`): `_logging_restored` is reset only by the hooks, so only the first asynchronous part of a phase has its log captured.
- **C75, finalizers** (`C75_finalizer_refuted`): the generator and `cocotb.RANDOM_SEED` are given back before the asynchronous finalizers run, which therefore depend on earlier tests.
- **C75, seed in the message** (`C75_message_refuted`): "Test failed with COCOTB_RANDOM_SEED=..." names session seed plus hash; a session started with that value adds the hash again and never runs the test with the named seed.
- **C76, flags** (`C76_flag`, `C76_flag_refuted`): boolean options of the pytest plugin (`--cocotb-waves`, `--cocotb-gui`, `--cocotb-clean`, ...) can only be switched on from the command line. argparse gives them `False`, never `None`, so `populate_ini_to_options` never looks at the configuration file or the environment variable which the help text names.
- **C76, environment errors** (`C76_error_refuted`): a wrong environment variable makes every pytest run fail with ValueError, even if the option is given on the command line; a wrong configuration entry is not checked at all (`C76_unchecked_refuted`).
- **C77, collected versus run modules** (`C77_modules_bare_refuted`, `C77_modules_two_refuted`, `C77_modules_dot_refuted`): the collector and the HDL design look for the modules of a runner by different rules.
- **C77, packages** (`C77_dotted_refuted`, `C77_toplevel_package_refuted`): the file of a dotted module is looked for as `pkg:test_a.py` (`os.path.pathsep` instead of `os.path.sep`), and the default top level of a dotted module is the dotted name.
- **C77, directories** (`C77_dir_shared_refuted`, `C77_dir_file_refuted`, `C77_dir_escape_refuted`): different tests share a build directory, and a parameter with `../` leads out of it.
- **C77, arguments** (`C77_tuple_refuted`, `C77_seed_zero_refuted`): `build(build_args=(...))` with a tuple is a TypeError although any Sequence is allowed; `test(seed=0)` uses the seed of the option.
- **C78, equal names** (`C78_class_refuted`, `C78_directory_refuted`, `C78_junit_refuted`): two tests of one runner may get the same node id; a dot in a parameter breaks the JUnit names.
- **C79, verdicts** (`C79_expect_fail_refuted`, `C79_matcher_refuted`, `C79_success_refuted`): `expect_fail` accepts any exception under pytest, matchers in `expect_error` crash pytest's report hook, and `cocotb.pass_test` fails the test.
- **C79, summary** (`C79_setup_refuted`, `C79_teardown_refuted`, `C79_runner_keyword_refuted`): tests with a failing setup are missing, with a failing teardown are PASS, and tests below something named or marked `cocotb_runner` are missing.
- **C80, marks at modules** (`C80_hidden_refuted`, `C80_runner_lost_refuted`): a module-level `cocotb_runner` mark hides the tests of the module from the parent, a module-level `cocotb_test` mark drops its runners.
- **C60, defines and build arguments in Aldec build scripts** (`C60_define_refuted`, `C60_build_args_refuted`): `AldecBase._get_define_options` (runner.py:1659-1660) writes `'+define+NAME=VALUE'` into a Tcl script, where apostrophes have no meaning: the word handed to `alog` starts with an apostrophe, and a value with a blank is split into two words. Build arguments are joined with blanks without quoting (runner.py:1680-1681): `"-x;quit"` ends the command, and an argument with a blank is split, unlike with every other simulator.
- **C82, a singleton whose first initialisation fails** (`C82_singleton_init_refuted`): `singleton` keeps the object before `orig_init` has run, so that later constructions return an object that was never initialised; arguments of later constructions are ignored (`ReadOnly(1)` raises only until there is a ReadOnly).
- **C83, simulator names in capitals** (`C83_case_refuted`): `lib_name_path` compares the simulator as written although it makes a lower-case copy and takes the interface in any case, so `cocotb-config --lib-name-path vpi Questa` fails where `--lib-entry vpi Questa` works.
- **C83, libraries that do not exist** (`C83_unbuilt_refuted`): the pair of interface and simulator is not checked; `fli` with `icarus` gives a path that no build makes.
- **C84, wide numbers** (`C84_width_refuted`): simulated times from 10^9 ns on (one second) do not fit their column and shift the rest of the line.
- **C85, the receiving thread can die silently** (`C85_silent_refuted`): if a plugin raises in `notify_exception`, called from the `except` clause of `_handle_test_reports`, the thread ends. Reports sent later are accepted by the operating system only, so the simulations see success, the main process never learns of them, and the session ends normally.
- **C85, a second session in one process** (`C85_second_session_refuted`): COCOTB_PYTEST_REPORTER_ADDRESS is set by the first controller and never removed although the listener is closed at the end of the session, so a second `pytest.main()` in the same Python process has no listener and sees no report of any simulation.
- **C85, reports seen twice** (`C85_twice_refuted`): `Client` is closed inside the `try`; if closing fails after a complete `send` the report is sent again.
- **C86, fixtures that were never started** (`C86_stale_refuted`): `pytest_fixture_setup` stores the cached result when it schedules the fixture. If an earlier fixture of the same test fails, later ones of module or session scope stay cached without ever being run (`_setups` is emptied before the next test), and every following test that has one as argument ends with InvalidStateError.
- **C86, failed fixtures of a wider scope** (`C86_failed_refuted`): a later test that uses one fails with the same exception, as with ordinary fixtures, but fixtures that come before it in that test are scheduled and never run.
- **C86, ordinary fixtures that use asynchronous ones** (`C86_sync_refuted`): they are called while the asynchronous one is only scheduled, and get its TestManager instead of its value.
- **C86, cocotb.end_test in a fixture** (`C86_end_test_refuted`): the setup passes, dependent fixtures get None, and the test passes without being run.
- **C86, failing child tasks of a fixture** (`C86_child_refuted`, `C86_late_refuted`): with a scope wider than the test, the first test shows the exception of the child, later ones CancelledError; if the child fails after the body has returned, later tests run as if the fixture had passed.
- **C86, false exceptions** (`C86_falsy_refuted`): `TestManager.result` and `AsyncFixtureCachedResult.__getitem__` test exceptions by truth value; an exception whose truth value is false passes.
- **C87, stages** (`C87_stage_refuted`, `C87_stages_only`): a stage becomes `mark.order(stage)`, but stage 0 gets no mark. pytest-order runs unmarked tests after those with positive and before those with negative numbers, so a test of stage 1 runs before the tests of the default stage 0 and a test of stage -1 after them, the reverse of the documented order.
- **C87, Param** (`C87_param_refuted`): `Param` objects are passed to `pytest.mark.parametrize` unchanged, so the test is called with the `Param` instead of its value.
- **C87, group of one name** (`C87_group_of_one_refuted`): `(("x",), [(1,)])` becomes `parametrize("x", [(1,)])` and the test is called with the tuple `(1,)` instead of `1`.
- **C87, no values** (`C87_no_values_refuted`): an option without values gives no test under cocotb, and one skipped test under pytest.
- **C87, default values** (`C87_default_refuted`): parametrizing an argument that has a default value works under cocotb and is a collection error under pytest.
- **C87, name of the handle** (`C87_handle_refuted`): cocotb passes the top-level handle by position; under pytest a test whose first parameter is not called `dut` fails because there is no such fixture.
- **C87, function decorated twice** (`C87_twice_refuted`): the second decorator on the same function is ignored (`__test__` is already set), the module attribute stays a TestGenerator, and pytest drops the item, so the test silently does not exist.
- **C87, TestFactory** (`C87_factory_refuted`): of the tests made by a TestFactory only the first is collected, and its arguments are dropped: it fails because a fixture is missing, or runs with the default values.
- **C88, lost identity** (`C88_kill_refuted`): a step of a Task sets the global `_current_task` to None when it ends instead of restoring what it was (task.py:452). If a running Task kills another Task whose done callback calls `_cancel_now` on a third (which is what happens when a Task kills the main Task of its test), the running Task continues with `current_task()` raising RuntimeError.
- **C88, callbacks of killed Tasks** (`C88_killed_callback_refuted`): the done callbacks of a killed Task run with the killer as the current Task, those of a Task which ended by itself run with that Task as the current one.
- **C89, skip reasons** (`C89_skip_reason_refuted`): the message given to `pytest.skip(...)` is logged but the results file says "Test was skipped" for every skipped test (regression.py:701).
- **C89, messages** (`C89_message_refuted`): `reason=result or msg` (regression.py:938) keeps "errored with unexpected type" and the like out of the results file whenever there is an exception.
- **C89, false exceptions** (`C89_false_exception_refuted`): for the same reason an exception object whose truth value is false (a class with `__bool__`, or `__len__` giving 0) is missing from the results file altogether.
- **C90, the ratio of times** (`C90_native_ratio_refuted`, `C90_ratio_inverse`): docs/source/junit_reference.rst:145 says `sim_time_ratio` is the ratio of wall time to simulation time. The pytest manager reports that (_regression.py:706-708), cocotb's own manager the inverse (regression.py:837, 888, 951): the same property of the same test differs by which manager ran it.
- **C91, stopping a clock before its driver ran** (`C91_gpi_stop_refuted`): with implementation "gpi" `start()` makes the simulator interface toggle at once, while `clkobj.stop()` is called in the `finally` of the driver Task. If `stop()` comes before that Task first ran (no `await` in between, or the test ends), `CancelledError` is thrown into a coroutine which never entered the `try`: the clock goes on, until the Task object is freed. After another `start()` two clocks drive the signal.
- **C91, killing the driver** (`C91_gpi_kill_refuted`): `kill()` on the Task returned by `start()` leaves the coroutine suspended, so the `finally` does not run, and `stop()` does nothing on a Task which is done.
- **C92, times outside 64 bits** (`C92_range_refuted`): `clkobj.start` parses its arguments without a check for range, so `Clock(..., period=-10, period_high=-20)`, which `Clock` accepts, is started with a period of 2^64-10 steps, and a period of 2^64+10 steps is one of 10 steps.
- **C93, wave format of Verilator** (`C93_format_refuted`): with --trace-fst or --trace-saif among the build arguments the program writes dump.fst or dump.saif, but `_waves_file` is always dump.vcd, so a missing file is attached and opened in the viewer.
- **C93, Icarus in another directory** (`C93_icarus_refuted`): the dump file is in the build directory, the attached and shown one in the test directory.
- **C93, GUI without waves** (`C93_gui_refuted`): the wave file is written and shown but not attached, since the attachment depends on `waves` only.
- **C93, commas** (`C93_comma_refuted`): paths are joined by commas without escaping; a directory with a comma in its name breaks the list of attachments.
- **C66, two words in one argument** (`C66_words_refuted`): "-diag all" for VCS, "-waves file.vcd" and "-timescale u/p" for DSim and the four "-input ..." of Xcelium with waves are each passed as a single argument, though the command is not run by a shell; the ones for Xcelium even contain the quotes.
- **C94, a signal written twice at once** (`C94_twice_refuted`): two immediate writes of a signal within one callback put its value-change callback into `cb_queue` twice (VpiCbHdl.cpp:55-56). The first entry is called and deletes the object; the second uses the freed object.
- **C94, a signal written by the function waiting for it** (`C94_own_refuted`): the value-change callback is removed only after the Python function has returned (VpiCbHdl.cpp:214-229), so an immediate write of that signal inside the function queues the callback being handled, which is then freed and used.
- **C94, giving up a queued callback** (`C94_late_refuted`): VpiCbHdl::remove deletes a queued object without vpi_remove_cb (VpiCbHdl.cpp:103-117). This is right for callbacks which fire once, but value changes recur and only they are queued: the next change of the signal uses the freed object.
- **C94, refused callback** (`C94_leak_refuted`): if the simulator refuses a callback, bind.cpp never frees the PythonCallback, and `Trigger._register` leaves the function in `_callbacks` (_base_triggers.py:66-72), so that later waits for the same edge are not registered and never end.
- **C81, writes after a refused callback** (`C81_forgotten_refuted`): if the simulator refuses the ReadWrite callback for a put-off write, the error is raised once; `Trigger._register` has already stored the callback (_base_triggers.py:67), so later writes find callbacks, prime nothing, raise nothing, and never reach the simulator.
- **C95, test directory** (`C95_moved_refuted`): with Questa (qrun-less) and GHDL the library is named relative to the working directory, so a `test_dir` different from `build_dir` looks for the design in another place.
- **C95, working directory of the build** (`C95_cwd_refuted`): `build(cwd=...)` with NVC puts the library into `cwd`, the test looks for it in `build_dir`.
- **C95, top level** (`C95_top_refuted`, `C95_top_ignored`): a `hdl_toplevel` of `test()` different from that of `build()` makes Verilator's runner start an executable which was not built; with Icarus, VCS and DSim it changes nothing, so the other design is simulated silently.
- **C65, no top level** (`C65_no_top`, `C65_no_top_refuted`): without `hdl_toplevel`, Icarus, Verilator and Xcelium refuse to build; Questa's qrun runner asks for the design unit `None`.
- **C96, separators in paths** (`C96_comma_refuted`, `C96_libpython_refuted`): GPI_EXTRA is split at every comma and a GPI_USERS entry at its last comma, so a cocotb installation below a directory with a comma in its name (`/my,libs/...`) ends the simulator with status 1, and a libpython whose path has a comma is looked for under a shortened name. The entry of cocotb's own library is not affected (only the last comma counts).
- **C96, missing GPI_USERS** (`C96_no_users_refuted`): the log says "No GPI_USERS specified, exiting...", but unlike the two other failures no end of the simulation is requested (GpiCommon.cpp:185-189), so the simulation runs to its own end without cocotb.
- **C97, callbacks after the request** (`C97_within_refuted`, `C97_left_over_refuted`): every return to the simulator - also the one of a callback that was merely queued because another one is running - finalises Python once the end was requested, so a signal set at once after `stop_simulator()` takes down the interpreter that is executing; and `handle_gpi_callback` does not check whether Python is still initialised.
- **C97, repeated event** (`C97_event_refuted`): the function of `set_sim_event_callback` is called again for every callback that raises before control returns to the simulator, also after Python requested the end. It does no harm because `_shutdown` takes each function off its list before calling it (C72).
- **C98, native look-ups** (`C98_native_refuted`): a look-up with `GPIDiscovery.NATIVE` does not go through the handle store, so every call makes another handle for the same object and none of them is freed at the end of the simulation.
- **C98, one full name for two objects** (`C98_confused_refuted`): handles are identified by full name only. Two objects with the same full name (for example found by two interfaces) are one handle, of the object found first.
- **C98, freed objects** (`C98_iterator_refuted`, `C98_stale_refuted`): `gpi_next` deletes the iterator at its end and the Python object keeps the pointer, so calling `next` again uses freed memory; so does a look-up on a handle kept after the end of the simulation.
- **C99, `$finish` with Verilator** (`C99_finish_refuted`, `C99_leaves`): the loop asks for the end only at its head. After a `$finish` of the design the ReadWrite and ReadOnly callbacks of the time step are still called, time moves on to the next event and its NextTimeStep callbacks and timers are called too: the Python tests run on for one more time. Nothing is evaluated after that.
- **C99, value callbacks which never settle** (`C99_livelock_refuted`): callbacks which change a value each time they are called keep `settle_value_callbacks` for ever; there is no limit as the iteration limit of Verilator's own loops.
- **C99, delays of 0** (`C99_zero_delay_refuted`): a timer of delay 0 repeats the time step, with a second ReadOnly phase and a second dump of the same time.
- **C100, escaped names of arrays** (`C100_escaped_refuted`): `VpiArrayObjHdl::initialise` counts the `[` from the beginning of the array's own name. If this is an escaped identifier with a bracket (`\a[9] `), one dimension too many is counted, no range is found and -1 is returned. `create_gpi_obj_from_handle` does not look at what `initialise` returns: the object stays without a name and without a range, and all such objects have the same (empty) full name, which is the key of the store of handles (C98).
- **C100, generate loop with the name of its parent** (`C100_same_name_refuted`): pseudo-regions are recognised by a name other than that of their handle, which is the parent's. A generate loop `top` in the scope `top` gives a module instead of an array, which cannot be indexed.
- **C100, blocks which do not exist** (`C100_absent_index_refuted`): if a name is not found, the blocks are compared with the index dropped on both sides. `dut["g[7]"]` with blocks `g[0]`, `g[1]` only gives an empty pseudo-region named `g[7]` instead of an error.
- **C101, index out of range in arrays of several dimensions** (`C101_outside_refuted`): only the flat index has to exist. `a[0][-1]` of an array with the ranges `0 to 1` and `2 downto 0` gives the element `a(1)(2)`, under the name `a(0)(-1)`; no error is raised.
- **C101, borrowed handles are released** (`C101_release_refuted`): the handle for a part of the indexes uses the VHPI handle of the array itself, but its destructor releases it like its own. The store of handles destroys every further object of the same name (C98), so a second `a[0]` releases the VHPI handle of the array which is still in use.
- **C101, double release** (`C101_double_release_refuted`): if an element cannot be initialised, `create_gpi_obj_from_handle` deletes the object, which releases the handle, and `get_child_by_index` releases the same handle again.
- **C101, null ranges with Questa** (`C101_null_refuted`): with Questa the direction is guessed from the bounds, so that an array with the range `0 to -1` has two elements and runs downwards, while it has none in other simulators.
- **C102, 64-bit VHDL integers** (`C102_long_refuted`): `VhpiSignalObjHdl::set_signal_value(int32_t)` has no case for `vhpiLongIntVal`; the error is only logged, so that assigning to such an object succeeds in Python and does nothing.
- **C102, types named like standard types** (`C102_name_refuted`): `is_enum_logic` compares the beginning of the name of the type only. A type `bit_order_t` with three literals becomes a `LogicObject`: its position 2 cannot be written and 1 is written as position 3, which the type does not have.
- **C102, forces through the FLI** (`C102_force_refuted`, `C102_lowest_refuted`): forcing or releasing a VHDL variable, or forcing a real signal, is only logged and raises nothing; forcing -2^31 takes `abs` of the lowest `int`, which is undefined.
- **C102, enumerations through the FLI** (`C102_fli_enum_refuted`, `C102_fli_position_refuted`): the object of an enumeration has `m_num_elems` 1, from which Python takes its range: positions from 2 on are refused, and 2 is read as 0. The check `value > m_num_enum` lets the position behind the last through, and -1 is accepted by Python and dropped.
- **C102, values outside of the type `bit` through the FLI** (`C102_bit_refuted`): `m_enum_map[c]` inserts 0 for a literal which the type does not have, so that `X` is written as `0`.
- **C102, characters through the VHPI** (`C102_character_refuted`): characters are signed 8-bit integers for Python: 200 cannot be written and is read as -56.
- **C102, no value from the simulator** (`C102_null_refuted`): `gpi_get_signal_value_binstr` assigns the pointer to a `std::string` before `get_signal_val_binstr` compares it with NULL; the `RuntimeError` can never be raised and the behaviour is undefined.
- **C103, nested generate loops** (`C103_nested_refuted`): when a generate loop is only found through the internal regions, `get_child_by_name` borrows the handle of the parent. If the parent is itself a block of a generate loop, the following test for `vhpiForGenerateK` takes the borrowed handle for a new one and releases it, while the object of the parent keeps using it.
- **C103, blocks by their names** (`C103_block_refuted`): a name such as `g(1)` finds the block in the simulator, but its handle is replaced by that of the parent: the result is a pseudo-region with the name of the block which contains all blocks of the loop.
- **C103, absent members of records** (`C103_member_refuted`): for a structure the branch which returns on NULL is left out; NULL is given to `vhpi_get`, `vhpi_handle` and `vhpi_release_handle`.
- **C103, a top with a leading colon** (`C103_colon_refuted`): `get_root_handle` has a case for a name which starts with `:`, but then compares this name with the name of the object, which has no colon, so that such a name finds nothing.
- **C103, extended identifiers with NVC** (`C103_extended_refuted`): the full name is put into upper case, but extended identifiers are case-sensitive: `\foo\` is discovered, but cannot be found by name; `\FOO\` is found instead, if there is one.
- **C104, blocks by their names** (`C104_block_refuted`): with the FLI, `get_child_by_name("g(1)")` finds the block in the simulator, sees `accForGenerate`, and makes a pseudo-region with the handle of the parent instead of the block.
- **C104, spelling of names** (`C104_case_refuted`): `create_gpi_obj_from_handle` takes a region for a generate loop whenever the name which was asked for is not exactly that of the region. A simulator which finds VHDL names in any case gives an instance for `SUB`, but the object is a `GPI_GENARRAY` without children.
- **C104, a loop with the label of its region** (`C104_same_label_refuted`): a generate loop `g` in a region named `g` becomes a `GPI_MODULE` with the handle of the region: the region contains itself, and the blocks of the loop cannot be reached.
- **C104, names of discovered elements** (`C104_element_refuted`): `FliIterator::next_handle` removes everything up to the last parenthesis from the names of array elements, as it does with the dot of record fields: the element `s(1)` gets the name `1)`.
- **C104, records of other interfaces** (`C104_foreign_refuted`): a member which the interface of a structure does not find is searched in all other interfaces; that of the FLI casts the foreign parent to `FliValueObjHdl` without a check.
- **C104, kinds of variables** (`C104_alias_refuted`): the iterator has entries for aliases of constants, generics and variables, but `isTypeValue` knows only `accAlias`; a variable whose `mti_GetVarKind` is one of these is handed to `mti_GetRegionName`.
- **C105, loops in interfaces** (`C105_interface_refuted`): an interface is not asked for vpiInternalScope. Its generate loops are found by label, as a `GPI_GENARRAY` with the handle of the interface, but the constructor of `VpiIterator` then skips every relation and reads the local variable `iterator`, which was never set (VpiIterator.cpp:91, 126). Discovery of the interface does not show the loop at all.
- **C105, packages with a name of one letter** (`C105_package_refuted`): `VpiPackageIterator` compares the last two letters of the full name with `fq_name.compare(fq_name.length() - 2, ...)`. If the simulator gives `p` without `::`, the position wraps around and `std::out_of_range` leaves a function which C code calls.
- **C105, roots without a name** (`C105_null_refuted`): the iterator over roots passes over objects without a full name, but `get_root_handle` gives the NULL pointer to `strcmp` or reads its first letter (VpiImpl.cpp:621-622, and in the loop of the error message 653).
- **C105, drivers and loads** (`C105_drivers_refuted`): `VpiSingleIterator` passes the empty name of `gpi_next` and uses vpiName as full name. The drivers `r` of signals in two modules have the same full name, so the store of handles gives the first for both; and a driver which is a gate, a port or a terminal is taken for a generate loop because its name is not the empty one.
- **C106, timers given up** (`C106_growth_refuted`): a wakeup cannot be cancelled, so a removed timer keeps its object and process until its time comes (FliCbHdl.cpp:67-74). A loop waiting with a long timeout makes one process per turn, and processes are never destroyed; the caches bound the number of processes by the wakeups scheduled, not by the callbacks registered.
- **C106, removing a signal's callback while it runs or twice** (`C106_own_refuted`, `C106_twice_refuted`): `FliSignalCbHdl::remove` releases at once and `run` releases after the call without looking whether this was done (FliCbHdl.cpp:104-107, 113-118). The object is then twice in the free list, and the next two registrations share it: the first is never called. The triggers of Python do not do this, `simulator.sim_callback.deregister` allows it.
- **C106, old handles** (`C106_stale_refuted`): objects are reused, so deregistering a callback which was already called removes the callback of whoever was given the object since.
- **C107, text replaced by a nested message** (`C107_clobber_refuted`): `py_gpi_log_handler` keeps the text in a static vector while it calls `getLogger`; if a message is logged meanwhile, the first one reaches Python with the text of the second.
- **C107, text used as a format** (`C107_format_refuted`): `fallback_handler` passes the finished text as the format of the native logger; a `%` in it reads arguments which were not given.
- **C107, initialised twice** (`C107_again_refuted`): a second `initialize` makes the handler its own fallback, so the next message before configuration recurses without end.
- **C107, names of the levels** (`C107_env_refuted`): `GPI_LOG_LEVEL=debug`, padded with blanks or `NOTSET` are accepted by Python but reported invalid by the C++ code.
- **C107, level kept from earlier** (`C107_root_refuted`, `C107_others_refuted`): the C++ code filters by the effective level of `gpi` when it was last set; lowering the level of the root later, or of `gpi.x` or `pygpi`, does not bring those messages back.
- **C107, line shifted** (`C107_shift_refuted`): names of loggers or functions longer than their column are not shortened by the native logger, so the columns shift, unlike in the formatter of Python.
- **C108, long timers** (`C108_long_refuted`): `Timer` accepts any positive time, but one of 2^63 steps or more (10000 s at 1 fs) fails with OverflowError only when it is awaited.
- **C108, arguments through the VHPI** (`C108_vhpi_args_refuted`): `get_simulator_args` trusts vhpiArgcP: with more arguments from the iterator it writes beyond the array, with fewer it leaves pointers unset; and it keeps the pointers `vhpi_get_str` gave, whose text a simulator may replace at the next call.
- **C108, arguments through the FLI** (`C108_fli_args_refuted`): if Tcl fails, `argc` and `argv` are not set, `gpi_get_simulator_args` returns 0 nevertheless, and `get_argv` reads them.
- **C108, steps which are no power of ten** (`C108_steps_refuted`): the VHPI rounds the resolution down to a power of ten; a resolution of 500 fs is taken for 100 fs.
- **C109, size in bytes** (`C109_executable_refuted`): `initialize` gives `PyUnicode_AsWideChar` the size of `sys_executable` in bytes instead of characters; a `sys.executable` of PATH_MAX characters or more is written beyond the array.
- **C109, errno of an earlier call** (`C109_errno_refuted`): errno is not cleared before `strtoul`; an ERANGE left over makes a good COCOTB_ATTACH be refused.
- **C109, texts which are no number** (`C109_number_refuted`): COCOTB_ATTACH=`30 minutes` waits 30 seconds and a large negative number wraps around, though the message asks for an integer.
- **C110, removal that was refused** (`C110_cleanly_refuted`, `C110_stuck`): VhpiCbHdl.cpp:58-59 promises that a callback which could not be removed is removed once it fires. `VhpiValueCbHdl::run` returns at once when `m_removed` is set (VhpiCbHdl.cpp:128-133), so for changes of values nobody asks again and the object, its registration and every further call into the library stay for ever. The VPI has the same lines (VpiCbHdl.cpp:188-193).
- **C110, signal written by the function waiting for it** (`C110_own_refuted`): unlike the VPI layer there is no queue; if the simulator reports a change at once, inside the call, the function runs a second time and object and PythonCallback are freed twice.
- **C110, refused registration** (`C110_leak_refuted`): the object is deleted but the PythonCallback made in bind.cpp is not, as for the VPI (C94).
- **C110, reasons in messages** (`C110_unknown`): the callbacks for read-write, read-only and the next time step are registered for the repetitive reasons, none of which `reason_to_string` (VhpiImpl.cpp:51-66) knows; all their messages say "unknown".
- **C111, an edge that is not an int** (`C111_edge_refuted`, `C111_system_error`): `register_value_change_callback` does not check `PyLong_AsLong` of its third argument, so for anything which is not an int of 64 bits it raises SystemError after having registered a callback with edge -1. That callback is called for no value and there is no handle to remove it with.
- **C111, an int that is not an edge** (`C111_silent_refuted`): an edge such as 3 is accepted, and the callback is never called.
- **C111, refused registration** (`C111_leak_refuted`): when the interface refuses a callback, None is returned and the PythonCallback, with its references to the function and the arguments, is never freed.
- **C112, the simulator quits by itself** (`C112_quit`, `C112_quit_refuted`): `FliShutdownCbHdl::run` calls `gpi_end_of_sim_time`, which calls `FliImpl::sim_end`, which calls `remove` of the same object. Unlike the classes of the VPI and VHPI, which only mark the object, `FliShutdownCbHdl::remove` deletes it, and then `run` deletes it again. As the callback is only made when the end was not requested before, this happens every time it is made.
- **C112, callbacks left over** (`C112_left_over_refuted`): after `mti_Break` the simulator can be continued; a callback still scheduled then enters Python after Py_Finalize (as C97 for the VPI).
- **C113, the text of packed structures** (`C113_text_refuted`): `GpiObjHdl::get_type_str` has no case for GPI_PACKED_STRUCTURE, so the type of such an object is "unknown" in messages and for `_type`, although Python has a class for it.
- **C114, tracebacks of a Task which two Tasks await** (`C114_waiters_refuted`): all who await a failed Task raise the same exception, so the traceback in the second also has the frames of the first.
- **C114, no copy of the exception** (`C114_copy_refuted`): the documentation of `remove_traceback_frames` says that it makes a copy of an exception; `with_traceback` changes the exception itself.
- **C114, text of cancelled Tasks** (`C114_text_refuted`): the repr of a cancelled Task has no closing bracket and no "()" after the coroutine, unlike that of all other states.
- **C115, two blanks after the name** (`C115_blanks_refuted`): the version is taken from a split at single blanks, so two blanks give an empty version, and the comparison raises an AttributeError.
- **C116, lost coverage** (`C116_saved_refuted`): if a function registered for the end before that of the coverage raises, the coverage is neither stopped nor saved.

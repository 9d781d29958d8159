{
 "claims": [
  {
   "property": "C01",
   "status": "proved",
   "theorems": [
    "C01_range_labels",
    "C01_span_facts",
    "C01_range_getitem",
    "C01_range_getitem_total",
    "C01_range_contains",
    "C01_range_index",
    "C01_range_index_getitem"
   ],
   "note": "All of the statement, for every Range object (any constructor arguments)."
  },
  {
   "property": "C02",
   "status": "proved",
   "theorems": [
    "C02_range_inferred",
    "C02_range_bad_direction",
    "C02_from_range",
    "C02_range_roundtrip",
    "C02_range_slice",
    "C02_range_eq",
    "C02_range_eq_bounds_refuted",
    "C02_range_slice_back",
    "C02_range_slice_step"
   ],
   "note": "All of the statement. C02_range_eq_bounds_refuted records that equal ranges may differ in left/right/direction."
  },
  {
   "property": "C03",
   "status": "partial",
   "theorems": [
    "C03_range_index_window_partial",
    "C03_range_index_default_refuted"
   ],
   "note": "The statement is false of the code: C03_range_index_default_refuted. Proved for the window semantics the code has (start and stop both given, as labels positions); see DESIGN.md."
  },
  {
   "property": "C04",
   "status": "proved",
   "theorems": [
    "C04_array_get",
    "C04_array_set",
    "C04_array_get_set",
    "C04_subscript"
   ],
   "note": "For every element type and every constructible Array."
  },
  {
   "property": "C05",
   "status": "proved",
   "theorems": [
    "C05_array_getslice",
    "C05_array_setslice",
    "C05_array_full_slice",
    "C05_array_empty_slice"
   ],
   "note": "For every element type, all start/stop/step forms. a[:] on an empty Array raises IndexError (C05_array_empty_slice)."
  },
  {
   "property": "C06",
   "status": "proved",
   "theorems": [
    "C06_array_construct",
    "C06_array_set_range",
    "C06_array_eq",
    "C06_array_members",
    "C06_array_index",
    "C06_array_index_window_refuted"
   ],
   "note": "index() is stated for windows whose labels belong to the array; otherwise IndexError is possible (C06_array_index_window_refuted)."
  },
  {
   "property": "C07",
   "status": "proved",
   "theorems": [
    "C07_logic_tables",
    "C07_logic_comm",
    "C07_logic_assoc",
    "C07_logic_de_morgan",
    "C07_logic_annihilators",
    "C07_logic_boolean",
    "C07_logic_sound",
    "C07_logic_literals",
    "C07_logic_eq",
    "C07_int",
    "C07_refused",
    "C07_other"
   ],
   "note": "All 9 values and both classes, exhaustively."
  },
  {
   "property": "C08",
   "status": "proved",
   "theorems": [
    "C08_la_and",
    "C08_la_or",
    "C08_la_xor",
    "C08_la_invert"
   ],
   "note": "For every reachable pair of arrays whatever their cached representations."
  },
  {
   "property": "C09",
   "status": "proved",
   "theorems": [
    "C09_la_to_unsigned",
    "C09_la_undefined",
    "C09_la_from_unsigned",
    "C09_la_roundtrip",
    "C09_la_back",
    "C09_la_dont_care_refuted",
    "C09_no_range"
   ],
   "note": "One refuted corner: a leading don't-care is read as a minus sign (C09_la_dont_care_refuted); the positive theorems exclude exactly that case."
  },
  {
   "property": "C10",
   "status": "proved",
   "theorems": [
    "C10_la_to_signed",
    "C10_la_from_signed",
    "C10_la_roundtrip"
   ],
   "note": "All widths, both overflow modes, round trip."
  },
  {
   "property": "C11",
   "status": "proved",
   "theorems": [
    "C11_la_to_bytes",
    "C11_la_from_bytes",
    "C11_la_roundtrip"
   ],
   "note": "Both byte orders, all lengths, round trip. from_bytes(b\"\") raises ValueError (part of C11_la_from_bytes)."
  },
  {
   "property": "C12",
   "status": "proved",
   "theorems": [
    "C12_la_program",
    "C12_la_reads",
    "C12_la_eq_reads_refuted"
   ],
   "note": "Every program over the modelled API has the outputs of the cache-free specification; the only unspecified output is == between arrays containing L, H or -, where the property is false (C12_la_eq_reads_refuted)."
  },
  {
   "property": "C13",
   "status": "proved",
   "theorems": [
    "C13_la_eq",
    "C13_la_eq_str",
    "C13_la_eq_list",
    "C13_la_eq_int",
    "C13_la_eq_exact_refuted",
    "C13_la_eq_str_underscore_refuted"
   ],
   "note": "Equality with str, int, list; equality of arrays is exact for values without L, H, - and complete always. Exactness in general is false: C13_la_eq_exact_refuted; see also C13_la_eq_str_underscore_refuted."
  },
  {
   "property": "C14",
   "status": "proved",
   "theorems": [
    "C14_la_setitem",
    "C14_la_setslice",
    "C14_la_warn_refuted"
   ],
   "note": "Item and slice assignment for every kind of value, including self-assignment. With the indexing warning enabled valid labels can fail: C14_la_warn_refuted."
  },
  {
   "property": "C15",
   "status": "proved",
   "theorems": [
    "C15_la_resolve",
    "C15_la_resolve_values",
    "C15_la_bool",
    "C15_bool_int_refuted",
    "C15_setting"
   ],
   "note": "Resolver values and bool for definite values. bool/int agreement on unknown values is false: C15_bool_int_refuted."
  },
  {
   "property": "C16",
   "status": "proved",
   "theorems": [
    "C16_la_format",
    "C16_octal_width_refuted",
    "C16_plan",
    "C16_la_format_refused",
    "C16_groups"
   ],
   "note": "Digits denote the value for all flags; digit counts for b, x, X (and plain o). The octal count with \"#_\" is false: C16_octal_width_refuted."
  },
  {
   "property": "C17",
   "status": "proved",
   "theorems": [
    "C17_one_place",
    "C17_no_internal_error",
    "C17_prime_refuted"
   ],
   "note": "For all programs and schedules in which the simulator accepts every callback registration. If it refuses one the claim is false: C17_prime_refuted."
  },
  {
   "property": "C18",
   "status": "proved",
   "theorems": [
    "C18_start",
    "C18_completion_final",
    "C18_answers",
    "C18_completes_once",
    "C18_nothing_after_completion",
    "C18_callbacks",
    "C18_callback_twice_refuted"
   ],
   "note": "All of the statement for done callbacks registered outside the Task's own done callbacks; otherwise \"exactly once\" is false: C18_callback_twice_refuted."
  },
  {
   "property": "C19",
   "status": "proved",
   "theorems": [
    "C19_cancel_now_result",
    "C19_kill_result",
    "C19_cancel_result",
    "C19_contract",
    "C19_contract_resumed",
    "C19_cancelled_done",
    "C19_never_started",
    "C19_close_raises_refuted"
   ],
   "note": "All of the statement, including kill-free executions with repeated cancels. A coroutine which raises while it is closed stops the event loop: C19_close_raises_refuted."
  },
  {
   "property": "C20",
   "status": "proved",
   "theorems": [
    "C20_fifo",
    "C20_fifo_general",
    "C20_deque",
    "C20_pop",
    "C20_block_order",
    "C20_fire"
   ],
   "note": "All of the statement."
  },
  {
   "property": "C21",
   "status": "proved",
   "theorems": [
    "C21_blocked_only_while_unset",
    "C21_set_wakes_all",
    "C21_await",
    "C21_no_spurious_wakeup"
   ],
   "note": "All of the statement."
  },
  {
   "property": "C22",
   "status": "proved",
   "theorems": [
    "C22_mutex",
    "C22_handover_when_free",
    "C22_free_no_waiters",
    "C22_waiting",
    "C22_release",
    "C22_fair",
    "C22_await_twice"
   ],
   "note": "All of the statement."
  },
  {
   "property": "C23",
   "status": "partial",
   "theorems": [
    "C23_lock_leak_refuted",
    "C23_lock_no_leak_partial",
    "C23_lock_holder_partial",
    "C23_okb_ok"
   ],
   "note": "The statement is false: C23_lock_leak_refuted. Proved when no Task is cancelled or killed between being handed the Lock and running (names end in _partial)."
  },
  {
   "property": "C24",
   "status": "proved",
   "theorems": [
    "C24_blocked_until_done",
    "C24_completion_wakes",
    "C24_no_spurious_wakeup",
    "C24_await_done",
    "C24_await_live",
    "C24_outcome"
   ],
   "note": "All of the statement."
  },
  {
   "property": "C25",
   "status": "proved",
   "theorems": [
    "C25_fifo",
    "C25_lifo",
    "C25_nothing_lost",
    "C25_capacity",
    "C25_reported",
    "C25_put_nowait",
    "C25_get_nowait"
   ],
   "note": "For executions of any user code on the kernel model with the queue layer (blocking calls, cancellations, kills included): Queue history is puts = gets ++ contents, LifoQueue is a stack, size within maxsize, QueueEmpty/QueueFull exactly when empty/full, and the ghost history is tied to what each call reports. C25_nothing_lost needs a total preorder (for the PriorityQueue)."
  },
  {
   "property": "C26",
   "status": "proved",
   "theorems": [
    "C26_served_in_order",
    "C26_least"
   ],
   "note": "heapq (CPython Lib/heapq.py heappush/heappop/_siftup/_siftdown) is modelled and proved: the list stays a heap, contents are a permutation, each item got is least. Needs a total preorder on items (a comparison that never raises)."
  },
  {
   "property": "C27",
   "status": "partial",
   "theorems": [
    "C27_no_lost_wakeup_partial",
    "C27_cancel_refuted",
    "C27_absorb_refuted",
    "C27_kill_refuted",
    "C27_putter_refuted"
   ],
   "note": "Proved when no Task inside put/get is cancelled (or killed after having been woken) and callers of put/get are not ignoring a cancellation. Without those conditions the statement is refuted three ways (C27_cancel_refuted, C27_absorb_refuted, C27_kill_refuted) and also for putters (C27_putter_refuted)."
  },
  {
   "property": "C28",
   "status": "proved",
   "theorems": [
    "C28_wait",
    "C28_index",
    "C28_no_internal_error",
    "C28_wakes",
    "C28_cancels",
    "C28_cancel_reason"
   ],
   "note": "`_wait` is a micro-step machine over the kernel (WaitModel.v: stages of the coroutine, of the done callback, and of the cancelling loops), user code being adversarial. Invariant: WaitInv*.v, WaitProofs.v, WaitReason.v. `C28_wait`/`C28_index`: what is returned, in terms of the recorded completions; `C28_wakes`: the caller is woken; `C28_cancels`/`C28_cancel_reason`: what is cancelled and when. Awaitables are not modelled: a call gets its (new) waiter Tasks."
  },
  {
   "property": "C29",
   "status": "proved",
   "theorems": [
    "C29_select",
    "C29_gather",
    "C29_fails",
    "C29_gather_iff",
    "C29_empty",
    "C29_killed_refuted"
   ],
   "note": "Same machine. `C29_select`, `C29_gather`, `C29_fails`, `C29_gather_iff`, `C29_empty`. `C29_killed_refuted`: a killed waiter counts as a normal end with result None."
  },
  {
   "property": "C30",
   "status": "proved",
   "theorems": [
    "C30_cancelled",
    "C30_two_cancels_refuted",
    "C30_two_cancels_ends_refuted",
    "C30_sibling_kill_refuted"
   ],
   "note": "`C30_cancelled`: whenever CancelledError leaves the call all waiters are done, for any number and timing of cancellations. The stronger reading (the call is never left before its waiters are done) is refuted: `C30_two_cancels_refuted`, `C30_two_cancels_ends_refuted`, `C30_sibling_kill_refuted`."
  },
  {
   "property": "C31",
   "status": "proved",
   "theorems": [
    "C31_all_done",
    "C31_cancels",
    "C31_cancel_reason",
    "C31_cancel_once",
    "C31_start_refused",
    "C31_start_accepted",
    "C31_errors",
    "C31_exit_refuted",
    "C31_two_cancels_refuted",
    "C31_unreachable_refuted",
    "C31_broken_refuted"
   ],
   "note": "Model: `ManagerModel.v`, the whole of `_task_manager.py` (constructor, `start_soon`, `fork` through it, `_done_callback`, `_cancel`, `__aenter__`, `__aexit__`) on top of the scheduler kernel; user code, the children and the event loop are adversaries. `C31_all_done`: however `__aexit__` ends (no exception, group, CancelledError), all children are done. `C31_cancels`/`C31_cancel_reason`: the children are cancelled if, and only if, a child without `continue_on_error` failed, the block was left with an exception, or an exception was thrown into the wait; each child at most once (`C31_cancel_once`). `C31_start_refused`/`C31_start_accepted`: when `start_soon` is accepted. `C31_errors`: the only error the manager can run into is `Task.cancel()` on a running Task. Excluded from `C31_all_done` and refuted: SystemExit/KeyboardInterrupt, a parent cancelled twice (closed while draining); refuted as well: line 251 is reachable; a manager whose loop of cancellations breaks off."
  },
  {
   "property": "C32",
   "status": "proved",
   "theorems": [
    "C32_group",
    "C32_ok",
    "C32_reraise",
    "C32_dropped_refuted",
    "C32_order_refuted",
    "C32_merged_refuted"
   ],
   "note": "`C32_group`: the group has no duplicates and contains exactly the exceptions of the failed children and the ordinary exception which left the block; `C32_ok`: no exception is raised only if there is none; `C32_reraise`: otherwise a cancellation from outside leaves the block as it is. Refuted: child exceptions are dropped in that last case; the order of completion is not kept (a set); the same exception object raised by two children appears once. Exceptions are compared as objects as far as the model names them."
  },
  {
   "property": "C33",
   "status": "partial",
   "theorems": [
    "C33_awaited",
    "C33_once",
    "C33_all_ended",
    "C33_report_partial",
    "C33_lost_refuted",
    "C33_cause",
    "C33_signalled",
    "C33_cancels",
    "C33_new_task_refuted",
    "C33_no_escape",
    "C33_kill_refuted",
    "C33_cancel_early_refuted"
   ],
   "note": "Kernel layer: the done callbacks and the loop of `_abort` run step by step between kernel steps of adversarial user code. Proved for every execution: completion is signalled at most once, after every registered Task has ended; when no Python code runs it has been signalled exactly if the shutdown began and all Tasks have ended; the shutdown begins exactly for the four reasons; it cancels every Task registered before it; no exception leaves it unless the main Task is killed. The report is the failures so far in order; that it contains all of them is refuted (the failure of the Task whose end completes the test is lost), and so are three cases in which the test never completes."
  },
  {
   "property": "C34",
   "status": "partial",
   "theorems": [
    "C34_one_resume",
    "C34_result",
    "C34_no_exception",
    "C34_at_rest_partial",
    "C34_race_refuted",
    "C34_skip_refuted",
    "C34_no_pass_refuted",
    "C34_delivered_partial",
    "C34_stuck_refuted"
   ],
   "note": "Interleaving of the main thread (event loop, run_bridge_threads) and the bridge threads at the granularity of the shared accesses; every scheduling of threads, Tasks and cancellations. For all executions: one outstanding resume call per thread, the result is delivered at most once and is the function's own, thread_wait never raises. That no thread runs while the simulator has control, and that every result is delivered, hold under three conditions on the execution (prompt, in_order, announced); each of the three is shown to be necessary by a refutation in which the two others hold."
  },
  {
   "property": "C35",
   "status": "partial",
   "theorems": [
    "C35_exact",
    "C35_units",
    "C35_invalid_unit",
    "C35_int",
    "C35_int_refuted",
    "C35_float",
    "C35_float_refuted",
    "C35_monotone",
    "C35_roundtrip",
    "C35_roundtrip_short_unit",
    "C35_roundtrip_refuted",
    "C35_convert",
    "C35_steps_in_unit",
    "C35_convert_steps_refuted",
    "C35_unit_case_refuted"
   ],
   "note": "Exact for Fraction and Decimal; for int up to 2^53 (2^52 with round), or any if the unit is longer than a step; float results within one part in 2^53. Beyond that false: C35_int_refuted, C35_float_refuted, C35_roundtrip_refuted, C35_convert_steps_refuted, C35_unit_case_refuted."
  },
  {
   "property": "C36",
   "status": "proved",
   "theorems": [
    "C36_steps",
    "C36_unit",
    "C36_monotone",
    "C36_invalid_unit"
   ],
   "note": "All of the statement, and the error bound and monotonicity in other units."
  },
  {
   "property": "C37",
   "status": "proved",
   "theorems": [
    "C37_timer"
   ],
   "note": "All of the statement."
  },
  {
   "property": "C38",
   "status": "proved",
   "theorems": [
    "C38_waveform",
    "C38_edges",
    "C38_not_driven",
    "C38_init",
    "C38_init_high",
    "C38_accepted_driven",
    "C38_accepted_refuted",
    "C38_start_stop",
    "C38_init_refused"
   ],
   "note": "Waveform and edges of the Python implementation. The constructor accepts more than it should: C38_accepted_refuted."
  },
  {
   "property": "C39",
   "status": "proved",
   "theorems": [
    "C39_cycles",
    "C39_unique",
    "C39_started",
    "C39_small",
    "C39_zero_negative",
    "C39_change_refuted",
    "C39_late_refuted"
   ],
   "note": "All edge types, periods, phases; value changes need the skipped time to be a float (C39_change_refuted) and edges must follow Timers within a step (C39_late_refuted)."
  },
  {
   "property": "C40",
   "status": "proved",
   "theorems": [
    "C40_batch",
    "C40_keep_last",
    "C40_in_readwrite",
    "C40_trust",
    "C40_immediate",
    "C40_refused",
    "C40_queue_served",
    "C40_readwrite_empty",
    "C40_newest_wins_refuted",
    "C40_setimmediatevalue_refuted",
    "C40_refused_late_refuted"
   ],
   "note": "Batching, keep-last per handle, immediate actions, ReadWrite service. The order against newer non-queued writes, setimmediatevalue and late C++ refusals are refuted."
  },
  {
   "property": "C41",
   "status": "proved",
   "theorems": [
    "C41_logicarray_int",
    "C41_integer",
    "C41_enum",
    "C41_enum_refuted",
    "C41_roundtrip",
    "C41_roundtrip_unknown_sign_refuted",
    "C41_logicarray_str",
    "C41_logicarray_larr",
    "C41_logic",
    "C41_foreign",
    "C41_fixed",
    "C41_freeze",
    "C41_read",
    "C41_accepted_writable_refuted",
    "C41_real_limit",
    "C41_fits"
   ],
   "note": "Accepted ranges and written bits of all value object classes; refuted for wide enums, unknown signedness and values the C++ argument check refuses."
  },
  {
   "property": "C42",
   "status": "proved",
   "theorems": [
    "C42_writes",
    "C42_complete",
    "C42_labels",
    "C42_length",
    "C42_get",
    "C42_atomic_refuted",
    "C42_const_refuted",
    "C42_logic_for_array",
    "C42_no_elements"
   ],
   "note": "Element-wise writes and reads, length check; atomicity and constness of children refuted."
  },
  {
   "property": "C43",
   "status": "proved",
   "theorems": [
    "C43_stable",
    "C43_singleton",
    "C43_bit_singleton_refuted",
    "C43_fixed",
    "C43_class",
    "C43_failed",
    "C43_search",
    "C43_history_refuted",
    "C43_discover",
    "C43_iter_sorted",
    "C43_all_iterated_refuted",
    "C43_elem_names",
    "C43_elem_key",
    "C43_keys_unique_refuted",
    "C43_path",
    "C43_path_used_refuted",
    "C43_underscore",
    "C43_setattr"
   ],
   "note": "Stability, identity, failing lookups, discovery, iteration order, keys, paths and attributes. Bits of packed vectors bypass the one-object rule, lookups are history dependent on simulators whose search does not find what they list, and elements with negative indexes are not iterated (refuted)."
  },
  {
   "property": "C44",
   "status": "proved",
   "theorems": [
    "C44_selection",
    "C44_accounted",
    "C44_once",
    "C44_counters",
    "C44_runs",
    "C44_progress",
    "C44_list_refuted"
   ],
   "note": "Model: RegressionModel.v (regression.py as a transition system over start, Timer(1), user code, completion of the running test, end of the simulator). Invariant `good` over all reachable states; the selected tests are specified by stage and filter independently of the sort. Running tests are opaque: they may complete with any list of exceptions."
  },
  {
   "property": "C45",
   "status": "proved",
   "theorems": [
    "C45_group",
    "C45_skipped",
    "C45_passed",
    "C45_xfailed",
    "C45_failed",
    "C45_message",
    "C45_recorded",
    "C45_explained",
    "C45_expect_both_refuted",
    "C45_group_of_failures_refuted",
    "C45_forced_in_group_refuted"
   ],
   "note": "Four iff theorems characterise the verdicts of `_score_test` for every class hierarchy, every matcher and every exception or group; messages, recorded entries and their origin are covered too. Three documented expectations fail in corner cases (see findings)."
  },
  {
   "property": "C46",
   "status": "partial",
   "theorems": [
    "C46_stops_partial",
    "C46_not_early",
    "C46_remaining",
    "C46_no_start",
    "C46_init_refuted"
   ],
   "note": "Proved for tests which fail when run; tests that fail in `_init_test` count as failures without stopping the regression (C46_init_refuted), so the statement is proved for SFailed entries, and for all failures if there is no SError entry."
  },
  {
   "property": "C47",
   "status": "proved",
   "theorems": [
    "C47_file",
    "C47_running",
    "C47_reported_failed",
    "C47_gap_refuted",
    "C47_never_run_passes_refuted"
   ],
   "note": "The end of the simulator while a test runs always leads to a complete results file; between two tests it does not (C47_gap_refuted)."
  },
  {
   "property": "C48",
   "status": "proved",
   "theorems": [
    "C48_seed",
    "C48_generators",
    "C48_independent",
    "C48_restored",
    "C48_restored_first"
   ],
   "note": "hash and seeding are uninterpreted functions of the settings."
  },
  {
   "property": "C49",
   "status": "partial",
   "theorems": [
    "C49_generate",
    "C49_product",
    "C49_every_combination",
    "C49_only_combinations",
    "C49_lexicographic",
    "C49_names_distinct_partial",
    "C49_told_apart",
    "C49_names_refuted",
    "C49_repeated_name_refuted",
    "C49_value_name_refuted",
    "C49_parametrize_checks",
    "C49_factory",
    "C49_add_option",
    "C49_factory_overwrites_refuted",
    "C49_scalar_in_group",
    "C49_short_in_group",
    "C49_scalar_without_names",
    "C49_not_sequence"
   ],
   "note": "The generated tests are the combinations of the option values, in lexicographic order, each once, with exactly the chosen arguments; names are built from the texts of the values (own text, or positions if one value has none). Distinct names are proved when no text contains a slash and the values of an option are shown differently; without this the claim is false (three findings). TestFactory: numbered names, constant arguments overridden, other globals unchanged. Tests, functions and docs are copied fields and not modelled; str.isidentifier is an arbitrary predicate."
  },
  {
   "property": "C50",
   "status": "proved",
   "theorems": [
    "C50_space",
    "C50_bool_words",
    "C50_str",
    "C50_str_default",
    "C50_bool",
    "C50_bool_default",
    "C50_int",
    "C50_int_default",
    "C50_list",
    "C50_pieces",
    "C50_list_default"
   ],
   "note": "All of the statement, with str.lower restricted to the characters which matter for the words, and base-10 int."
  },
  {
   "property": "C51",
   "status": "proved",
   "theorems": [
    "C51_characters",
    "C51_attachments",
    "C51_valid",
    "C51_idempotent",
    "C51_by_character",
    "C51_keeps",
    "C51_code",
    "C51_del_refuted",
    "C51_astral_refuted",
    "C51_text",
    "C51_text_lines",
    "C51_document",
    "C51_property_refuted"
   ],
   "note": "Output valid, idempotent, character by character, codes denote the character, whole document valid if properties and attachments are. Three claims of the source are false: C51_del_refuted, C51_astral_refuted, C51_property_refuted."
  },
  {
   "property": "C52",
   "status": "proved",
   "theorems": [
    "C52_suites",
    "C52_case",
    "C52_counters"
   ],
   "note": "All of the statement (times left out)."
  },
  {
   "property": "C53",
   "status": "partial",
   "theorems": [
    "C53_root",
    "C53_combined",
    "C53_keeps_all",
    "C53_return_code",
    "C53_check_distinct_names",
    "C53_check_refuted",
    "C53_nested_refuted"
   ],
   "note": "Keeping and grouping of test cases and the return code are proved for inputs without nested suites; checking the combined file finds the failures only if suite names are distinct (C53_check_distinct_names), otherwise false: C53_check_refuted. Nested suites are duplicated: C53_nested_refuted."
  },
  {
   "property": "C54",
   "status": "partial",
   "theorems": [
    "C54_report",
    "C54_status",
    "C54_missing_file",
    "C54_unreadable",
    "C54_status_refuted"
   ],
   "note": "The statement is false for 256 failures: C54_status_refuted. Proved for fewer, and for the counts themselves without bound."
  },
  {
   "property": "C55",
   "status": "partial",
   "theorems": [
    "C55_strict_text",
    "C55_loose_order",
    "C55_loose_total",
    "C55_loose_raises",
    "C55_dotted",
    "C55_pieces",
    "C55_questa",
    "C55_total_refuted",
    "C55_empty_refuted",
    "C55_strict_order"
   ],
   "note": "Order laws proved, totality where numbers and words align; total comparison is false: C55_total_refuted, C55_empty_refuted."
  },
  {
   "property": "C56",
   "status": "proved",
   "theorems": [
    "C56_cycles",
    "C56_cycles_blocked",
    "C56_cycles_edge",
    "C56_first",
    "C56_combine",
    "C56_combine_fails",
    "C56_timeout"
   ],
   "note": "First, Combine and with_timeout on the machine of C28 (`C56_first`, `C56_combine`, `C56_combine_fails`, `C56_timeout`); ClockCycles on a layer of its own (CycleModel.v): `C56_cycles` counts the firings of the trigger between the call and the return, for any other user code."
  },
  {
   "property": "C57",
   "status": "proved",
   "theorems": [
    "C57_plusargs",
    "C57_plusargs_keys"
   ],
   "note": "All of the statement."
  },
  {
   "property": "C58",
   "status": "proved",
   "theorems": [
    "C58_skip",
    "C58_expect_fail",
    "C58_expect_error",
    "C58_order_free",
    "C58_outermost",
    "C58_defaults",
    "C58_options",
    "C58_accepted",
    "C58_raises"
   ],
   "note": "All of the statement. Expected errors are opaque identities; warnings and the reason texts are not modelled."
  },
  {
   "property": "C59",
   "status": "proved",
   "theorems": [
    "C59_sv_string",
    "C59_sv_str",
    "C59_sv_warns",
    "C59_vhdl_str",
    "C59_int",
    "C59_bool",
    "C59_sv_logic",
    "C59_sv_logic_refused",
    "C59_type",
    "C59_sv_empty_refuted",
    "C59_vhdl_logic_refuted",
    "C59_vhdl_float_refuted"
   ],
   "note": "Escape tables as functions of a character; independent readers for SystemVerilog string, decimal and sized binary literals and for VHDL string literals. Round trip for every string (SystemVerilog: no condition; VHDL: iff all characters are graphic, which is implied by no warning), every int, bool and non-empty logic value; exactly the unsupported logic values and types are refused. Refuted: empty LogicArray, VHDL logic values, VHDL floats without a point. Floats are represented by their str(). The 32-bit width of unsized SystemVerilog numbers is not modelled."
  },
  {
   "property": "C60",
   "status": "partial",
   "theorems": [
    "C60_asim_partial",
    "C60_word",
    "C60_semicolon_refuted",
    "C60_substitution_refuted",
    "C60_empty_refuted",
    "C60_build_partial",
    "C60_define_refuted",
    "C60_build_args_refuted"
   ],
   "note": "Reader of Tcl commands and words after the dodekalogue (it refuses scripts with substitutions). The asim line is read back as exactly the intended words if no argument is empty or contains '[', ';' or '$name'; an iff for a single word shows that these are exactly the unprotected cases; refutations for each. Build scripts (C60_build_partial): after the onerror command, exactly alib, one alog/acom call per source with the intended words, and exit, under the same condition on paths, and if defines and build arguments need no quoting (they get none)."
  },
  {
   "property": "C61",
   "status": "proved",
   "theorems": [
    "C61_words",
    "C61_injective",
    "C61_plain"
   ],
   "note": "shlex.quote of CPython and a reader of POSIX shell words (quotes, blanks; refuses anything expanded). Round trip for every list of arguments."
  },
  {
   "property": "C62",
   "status": "proved",
   "theorems": [
    "C62_select",
    "C62_named",
    "C62_suffix_refuted",
    "C62_none",
    "C62_names",
    "C62_environment"
   ],
   "note": "re.escape of CPython; parser and matching relation for the part of Python's regular expressions used. For every list of names the pattern compiles and the matching subjects are characterised exactly; consequences: every named test is selected, tests whose name merely ends with a given name are selected too (refutation of exactness), an empty list selects nothing; the pattern survives the environment variable."
  },
  {
   "property": "C63",
   "status": "proved",
   "theorems": [
    "C63_environ",
    "C63_args",
    "C63_own",
    "C63_toplevel",
    "C63_gpi_users",
    "C63_trust",
    "C63_error",
    "C63_precedence_refuted",
    "C63_build",
    "C63_path_once",
    "C63_build_leak_refuted"
   ],
   "note": "Dictionaries as association lists with Python's insertion semantics. The value of every variable is characterised for every environment and every argument (`C63_environ`, `C63_args`, `C63_own`, ...), with an iff for the errors. Refuted: that explicit arguments win over os.environ, and that a later build does not see the variables of an earlier test."
  },
  {
   "property": "C64",
   "status": "proved",
   "theorems": [
    "C64_file",
    "C64_name",
    "C64_name_refuted",
    "C64_command_fails",
    "C64_verdict",
    "C64_pass",
    "C64_fresh",
    "C64_status",
    "C64_missing_refuted",
    "C64_stale_refuted",
    "C64_absolute"
   ],
   "note": "The commands, the files they leave and the viewer are adversarial inputs; the XML result counting is that of C53. `C64_verdict` and `C64_command_fails` give the outcome of every run; `C64_pass` is the consequence for a pass. Refuted: unique results files under pytest, a missing file is an error, and freshness when the old file cannot be deleted. Not modelled: the text of the log file, the external viewer beyond its exit."
  },
  {
   "property": "C65",
   "status": "proved",
   "theorems": [
    "C65_file_type",
    "C65_lists",
    "C65_sources",
    "C65_questa",
    "C65_aldec",
    "C65_refused",
    "C65_accepted",
    "C65_skip",
    "C65_options",
    "C65_ignored_refuted",
    "C65_ignored",
    "C65_ignored_vhdl",
    "C65_stale_refuted",
    "C65_tag_refuted",
    "C65_vcs_refuted",
    "C65_xcelium_define_refuted",
    "C65_lang",
    "C65_args",
    "C65_tagged_sources",
    "C65_preserve_case",
    "C65_ghdl",
    "C65_aldec_frame",
    "C65_lists_accepted",
    "C65_top",
    "C65_no_top",
    "C65_no_top_refuted"
   ],
   "note": "_build_command of all eleven runners as lists of words (for the Aldec simulators lines of the script); time stamps, libraries and tools are adversarial inputs. Order and completeness of sources (`C65_sources`, `C65_questa`, `C65_aldec`), refusal (`C65_refused`) and acceptance (`C65_accepted`), options (`C65_options`), skipping (`C65_skip`), the language of the top level (`C65_lang`). Values of defines and parameters are their formatted text. Refuted: see findings."
  },
  {
   "property": "C66",
   "status": "proved",
   "theorems": [
    "C66_args",
    "C66_aldec",
    "C66_parameters_test",
    "C66_parameters_once",
    "C66_parameters_refuted",
    "C66_pre_cmd",
    "C66_pre_cmd_questa",
    "C66_pre_cmd_nvc_refuted",
    "C66_pre_cmd_second_refuted",
    "C66_elab",
    "C66_elab_nvc",
    "C66_elab_refuted",
    "C66_dsim_prefix_refuted",
    "C66_xcelium_empty_refuted",
    "C66_resolution",
    "C66_no_resolution",
    "C66_gpi_extra",
    "C66_interface",
    "C66_verbose",
    "C66_batch",
    "C66_words_refuted",
    "C66_dsim_waves",
    "C66_onfinish",
    "C66_aldec_end",
    "C66_onerror"
   ],
   "note": "_test_command of all eleven runners. Arguments, plusargs, prefix and suffix (`C66_args`), parameters (`C66_parameters_test`, `C66_parameters_once`), pre_cmd, elab_args. Refuted: see findings."
  },
  {
   "property": "C67",
   "status": "proved",
   "theorems": [
    "C67_sub",
    "C67_strip",
    "C67_strip_refuted",
    "C67_exception_refuted",
    "C67_setting"
   ],
   "note": "`sub_codes` follows the regular expression; `C67_sub` is an iff with an independent grammar of codes. `C67_strip` for records on one line; several lines by `C68_lines`. Refuted: that no code is ever left (codes hidden around a removed one, text of exceptions)."
  },
  {
   "property": "C68",
   "status": "proved",
   "theorems": [
    "C68_lines",
    "C68_function",
    "C68_none",
    "C68_one_line",
    "C68_traceback",
    "C68_stack",
    "C68_negative",
    "C68_columns",
    "C68_columns_refuted",
    "C68_just",
    "C68_just_refuted",
    "C68_trailing_refuted",
    "C68_measured"
   ],
   "note": "Prefix functions are arbitrary (the result of eval is an input), as are indentation functions, times (their formatted text) and records. `C68_lines`, `C68_function` for every record, `C68_columns` for the default format, `C68_just` for widths of at least three. Refuted: alignment from 1 ms on, widths below three, a trailing line feed in coloured output."
  },
  {
   "property": "C69",
   "status": "proved",
   "theorems": [
    "C69_text",
    "C69_reset",
    "C69_level",
    "C69_level_refuted"
   ],
   "note": "A terminal as a relation `shows` from text to coloured characters for the codes of the ANSI enum. `C69_text` and `C69_level` for records on one line, `C69_reset` for all records without traceback. Refuted: a background survives the return to the default at WARNING and ERROR."
  },
  {
   "property": "C70",
   "status": "proved",
   "theorems": [
    "C70_strip",
    "C70_strip_error",
    "C70_forced_refuted",
    "C70_no_color_refuted",
    "C70_level",
    "C70_level_unset",
    "C70_level_error",
    "C70_init",
    "C70_reduced"
   ],
   "note": "Environment values are arbitrary texts; the isatty answer is an input. `C70_strip` and `C70_init` are equivalences; `C70_level` for ASCII values (level names in any case). Refuted: forcing colours when GUI cannot be read, a blank NO_COLOR."
  },
  {
   "property": "C71",
   "status": "proved",
   "theorems": [
    "C71_recreate",
    "C71_precedence",
    "C71_blank_refuted",
    "C71_flag",
    "C71_name",
    "C71_top",
    "C71_top_asked",
    "C71_tops",
    "C71_tops_refuted",
    "C71_case_refuted",
    "C71_packages",
    "C71_number"
   ],
   "note": "`str.casefold` is an arbitrary function; design roots and the answers of the simulator are inputs. `C71_recreate` for every seed; `C71_top`, `C71_top_asked` and `C71_tops` for every list of roots. Refuted: an empty COCOTB_RANDOM_SEED counts as unset, cocotb.tops is keyed by the names, roots differing in case."
  },
  {
   "property": "C72",
   "status": "proved",
   "theorems": [
    "C72_run",
    "C72_malformed",
    "C72_default",
    "C72_preview_word",
    "C72_preview_list",
    "C72_preview_refuted",
    "C72_shutdown_ends",
    "C72_shutdown",
    "C72_shutdown_left",
    "C72_shutdown_refuted"
   ],
   "note": "Entry functions are arbitrary (their outcome may depend on what ran before). Callbacks are finite trees of registrations, so a callback registering itself forever is excluded. `C72_shutdown` gives the order as generations. Refuted: blanks around COCOTB_PREVIEW, an error in one shutdown callback skips the others."
  },
  {
   "property": "C73",
   "status": "proved",
   "theorems": [
    "C73_discover",
    "C73_setup",
    "C73_both",
    "C73_testcase",
    "C73_selected",
    "C73_exact_refuted",
    "C73_special_refuted",
    "C73_discover_errors"
   ],
   "note": "Imports are arbitrary; regular expressions as for C62. `C73_setup` is an equivalence; `C73_selected` combines it with the filters of the regression. Refuted: the exact match documented for COCOTB_TESTCASE, and finding a test by its own name if that has special characters."
  },
  {
   "property": "C74",
   "status": "proved",
   "theorems": [
    "C74_order",
    "C74_ends",
    "C74_once",
    "C74_live",
    "C74_reports",
    "C74_teardown_refuted",
    "C74_hook_refuted",
    "C74_status_refuted",
    "C74_stop_refuted",
    "C74_sim_end",
    "C74_sim_end_refuted",
    "C74_depth_refuted"
   ],
   "note": "Everything pytest and plugins do is an input, including exceptions; the connection to the parent process, pdb and times are left out. `C74_order` and `C74_ends` need that nothing raises, the others hold for every environment. Refuted: reporting every failing finalizer and hook, the exit status, stopping the simulator when a plugin raises at the end, finishing when the simulation ends early, and a bounded depth of calls."
  },
  {
   "property": "C75",
   "status": "proved",
   "theorems": [
    "C75_runs",
    "C75_restored",
    "C75_captured_refuted",
    "C75_finalizer_refuted",
    "C75_message_refuted"
   ],
   "note": "Generator states are numbers and the effect of seeding a function. `C75_runs` and `C75_restored` hold for every environment. Refuted: capture of the second asynchronous fixture, reproducible finalizers, and the seed named in the message of a failed test."
  },
  {
   "property": "C76",
   "status": "proved",
   "theorems": [
    "C76_precedence",
    "C76_environment",
    "C76_environment_list",
    "C76_default",
    "C76_choice",
    "C76_flag",
    "C76_flag_refuted",
    "C76_flags",
    "C76_error",
    "C76_error_refuted",
    "C76_unchecked_refuted",
    "C76_table",
    "C76_variables",
    "C76_dict",
    "C76_dict_none",
    "C76_timescale",
    "C76_simulator",
    "C76_preference",
    "C76_users"
   ],
   "note": "argparse and pytest's reading of the command line and configuration file are inputs; Path.resolve and shlex.split are parameters."
  },
  {
   "property": "C77",
   "status": "proved",
   "theorems": [
    "C77_lists",
    "C77_dicts",
    "C77_flags",
    "C77_seed",
    "C77_library",
    "C77_timescale",
    "C77_modules",
    "C77_session_modules",
    "C77_modules_bare_refuted",
    "C77_modules_two_refuted",
    "C77_modules_dot_refuted",
    "C77_dotted_refuted",
    "C77_module_file",
    "C77_toplevel",
    "C77_toplevel_package_refuted",
    "C77_dir_chars",
    "C77_dir_shared_refuted",
    "C77_dir_file_refuted",
    "C77_dir_escape_refuted",
    "C77_extended",
    "C77_tuple_refuted",
    "C77_overridden",
    "C77_chosen_seed",
    "C77_seed_zero_refuted"
   ],
   "note": "Sources, paths and parameter values are given by their texts; the file system is not modelled."
  },
  {
   "property": "C78",
   "status": "proved",
   "theorems": [
    "C78_prefix",
    "C78_same_file",
    "C78_same_dir_name",
    "C78_same_dir",
    "C78_class_refuted",
    "C78_directory_refuted",
    "C78_junit_refuted"
   ],
   "note": "Node ids are texts as pytest makes them."
  },
  {
   "property": "C79",
   "status": "proved",
   "theorems": [
    "C79_marks",
    "C79_expect_fail_refuted",
    "C79_matcher_refuted",
    "C79_success_refuted",
    "C79_summary",
    "C79_tally",
    "C79_columns",
    "C79_others",
    "C79_setup_refuted",
    "C79_teardown_refuted",
    "C79_runner_keyword_refuted",
    "C79_report",
    "C79_report_error"
   ],
   "note": "pytest's own makereport and teststatus hooks are modelled from their documented source; times in the summary are left out."
  },
  {
   "property": "C80",
   "status": "proved",
   "theorems": [
    "C80_collect",
    "C80_never_run",
    "C80_same_tests",
    "C80_hidden_refuted",
    "C80_runner_lost_refuted"
   ],
   "note": "One item at a time; warnings are events."
  },
  {
   "property": "C81",
   "status": "proved",
   "theorems": [
    "C81_refused",
    "C81_apart",
    "C81_start",
    "C81_direct",
    "C81_scheduled",
    "C81_forgotten_refuted",
    "C81_not_given"
   ],
   "note": "Callbacks are numbers; the simulator fires only triggers it has a callback for. The start counts as a timer (line 388)."
  },
  {
   "property": "C82",
   "status": "proved",
   "theorems": [
    "C82_same",
    "C82_accepts",
    "C82_stable",
    "C82_armed",
    "C82_singleton",
    "C82_singleton_init_refuted",
    "C82_missing"
   ],
   "note": "What orig_new and orig_init do is given for each construction; the lookup of a child named like the property in a hierarchy object is left out."
  },
  {
   "property": "C83",
   "status": "proved",
   "theorems": [
    "C83_path",
    "C83_path_wrong",
    "C83_entry",
    "C83_entry_wrong",
    "C83_case_refuted",
    "C83_built",
    "C83_unbuilt_refuted"
   ],
   "note": "A Path is its text. The list of libraries is transcribed from the build script for Linux."
  },
  {
   "property": "C84",
   "status": "proved",
   "theorems": [
    "C84_table",
    "C84_empty",
    "C84_width_refuted",
    "C84_ratio"
   ],
   "note": "Numbers are rationals; the format with two decimals is any function."
  },
  {
   "property": "C85",
   "status": "proved",
   "theorems": [
    "C85_closed_step",
    "C85_closed",
    "C85_in_order",
    "C85_at_most_eleven",
    "C85_complete",
    "C85_given_up",
    "C85_exclusive",
    "C85_finishes",
    "C85_twice_refuted",
    "C85_silent_refuted",
    "C85_second_session_refuted"
   ],
   "note": "Reports are numbers (encoding and decoding them is pytest's). Connections are accepted in the order in which they were made. C85_complete assumes that accepting, reading and decoding a complete report succeed and that notify_exception does not raise; the refutations show what happens otherwise."
  },
  {
   "property": "C86",
   "status": "proved",
   "theorems": [
    "C86_cached",
    "C86_like_ordinary",
    "C86_function_scope",
    "C86_no_failure",
    "C86_stale_refuted",
    "C86_failed_refuted",
    "C86_sync_refuted",
    "C86_end_test_refuted",
    "C86_child_refuted",
    "C86_late_refuted",
    "C86_falsy_refuted",
    "C86_sync_kept",
    "C86_error_again"
   ],
   "note": "The protocol of pytest's FixtureDef.execute (arguments first, cached results by element 2 and 0) is taken from the class comment and pytest's documentation. Fixtures have no parameters; fixtures asked for inside a body are left out. The refutations drop one hypothesis each."
  },
  {
   "property": "C87",
   "status": "proved",
   "theorems": [
    "C87_same",
    "C87_stages",
    "C87_stages_only",
    "C87_order_perm",
    "C87_stage_refuted",
    "C87_param_refuted",
    "C87_group_of_one_refuted",
    "C87_no_values_refuted",
    "C87_default_refuted",
    "C87_handle_refuted",
    "C87_twice_refuted",
    "C87_factory_refuted",
    "C87_other_function",
    "C87_arguments"
   ],
   "note": "pytest's collection, Metafunc.parametrize, the reading of marks and the sorting of pytest-order are modelled from their sources as known (not in /repo). Classes of tests, pytest.param, user overrides of the dut fixture and arguments used only by fixtures are left out. The two plans are equal as lists of calls with flags; what the flags mean for the verdict is C79. Differences outside the stated modules are refuted one by one."
  },
  {
   "property": "C88",
   "status": "proved",
   "theorems": [
    "C88_never_another",
    "C88_outside",
    "C88_callback",
    "C88_running",
    "C88_kill_refuted",
    "C88_killed_callback_refuted"
   ],
   "note": "On the kernel model (KernelModel.v). C88_running assumes that _cancel_now is not called while a coroutine is inside a call (C88_kill_refuted shows it is needed)."
  },
  {
   "property": "C89",
   "status": "proved",
   "theorems": [
    "C89_exists",
    "C89_counts",
    "C89_status",
    "C89_runner",
    "C89_cases",
    "C89_reproduce",
    "C89_valid",
    "C89_skip_reason_refuted",
    "C89_message_refuted",
    "C89_false_exception_refuted",
    "C89_exception",
    "C89_passed",
    "C89_not_run",
    "C89_uncountable"
   ],
   "note": "Composes the models of C44-C48, C51-C54 and C64 with the add_testcase calls of the _record_test_* methods. Times, file names and lines are given as text. The limit of 256 failures is C54_status_refuted."
  },
  {
   "property": "C90",
   "status": "proved",
   "theorems": [
    "C90_ratio_zero",
    "C90_each",
    "C90_span",
    "C90_tiles",
    "C90_runs",
    "C90_total",
    "C90_ratio",
    "C90_ratio_inverse",
    "C90_divide",
    "C90_native_ratio_refuted"
   ],
   "note": "times in steps; wall times given; the statement on sim_time_ratio is refuted for cocotb's own manager"
  },
  {
   "property": "C91",
   "status": "partial",
   "theorems": [
    "C91_start",
    "C91_stop",
    "C91_alternates",
    "C91_waits",
    "C91_one",
    "C91_py_silent",
    "C91_gpi_silent_partial",
    "C91_gpi_one_partial",
    "C91_gpi_stop_refuted",
    "C91_gpi_kill_refuted"
   ],
   "note": "proved for the implementation 'py' in full; for 'gpi' a clock whose driver never ran, or was killed, is not stopped (refuted), otherwise proved"
  },
  {
   "property": "C92",
   "status": "proved",
   "theorems": [
    "C92_agree",
    "C92_prefix",
    "C92_waveform",
    "C92_refused",
    "C92_range_refuted"
   ],
   "note": "all; the values outside 0..2^64 are treated differently (refuted)"
  },
  {
   "property": "C93",
   "status": "proved",
   "theorems": [
    "C93_verilator_build",
    "C93_viewers",
    "C93_icarus_format",
    "C93_named",
    "C93_main",
    "C93_main_file",
    "C93_main_untraced",
    "C93_verilator",
    "C93_format_refuted",
    "C93_late",
    "C93_icarus",
    "C93_icarus_same",
    "C93_icarus_refuted",
    "C93_gui_refuted",
    "C93_attached",
    "C93_comma_refuted",
    "C93_viewer",
    "C93_icarus_end"
   ],
   "note": "Which file a simulator writes is read off its command line; for Verilator also the main program of the repository is modelled. How Verilator turns build arguments into VM_TRACE_FST and VM_TRACE_SAIF is an assumption (`exe_of`). The plusarg +dumpfile_path of Icarus is left out."
  },
  {
   "property": "C94",
   "status": "proved",
   "theorems": [
    "C94_safe",
    "C94_once",
    "C94_waiting",
    "C94_owned",
    "C94_steps",
    "C94_twice_refuted",
    "C94_own_refuted",
    "C94_late_refuted",
    "C94_leak_refuted"
   ],
   "note": "for executions in which no value change is reported for a callback queued or being handled, and (but for Verilator) no queued callback is given up; C94_twice_refuted, C94_own_refuted, C94_late_refuted and C94_leak_refuted show what happens otherwise. Numbers of objects are never reused, so a use after a free is a recorded fault. The registration of other callbacks of the library and vpi_release_handle are left out"
  },
  {
   "property": "C95",
   "status": "proved",
   "theorems": [
    "C95_same",
    "C95_moved_refuted",
    "C95_cwd_refuted",
    "C95_top_refuted",
    "C95_top_ignored"
   ],
   "note": "Place of the design in build commands = place in test commands for the non-Aldec runners, under `placed` (same working directory where the place is relative to it); without it refuted (findings). The Aldec runners run a script and are left out."
  },
  {
   "property": "C96",
   "status": "proved",
   "theorems": [
    "C96_extra",
    "C96_questa",
    "C96_other",
    "C96_extra_failed",
    "C96_comma_refuted",
    "C96_users",
    "C96_runner",
    "C96_libpython_refuted",
    "C96_users_all",
    "C96_no_users_refuted",
    "C96_registered",
    "C96_taken"
   ],
   "note": "Loading is a list of actions (open, call, request the end, exit); dlopen and dlsym answer as they like. Paths with a comma are refuted (`C96_comma_refuted`, `C96_libpython_refuted`), and so is the message about a missing GPI_USERS (`C96_no_users_refuted`)."
  },
  {
   "property": "C97",
   "status": "proved",
   "theorems": [
    "C97_once",
    "C97_back",
    "C97_alive",
    "C97_premature",
    "C97_raised",
    "C97_stopped",
    "C97_not_started",
    "C97_no_fault",
    "C97_object",
    "C97_within_refuted",
    "C97_left_over_refuted",
    "C97_event_refuted"
   ],
   "note": "Small-step model of the VPI layer with its queue; simulator and Python are adversaries. The two assumptions of `C97_no_fault` are each necessary (two refutations); `C97_object` needs none."
  },
  {
   "property": "C98",
   "status": "proved",
   "theorems": [
    "C98_unique",
    "C98_no_fault",
    "C98_no_leak",
    "C98_search",
    "C98_answer",
    "C98_iterate",
    "C98_native_refuted",
    "C98_confused_refuted",
    "C98_iterator_refuted",
    "C98_stale_refuted",
    "C98_recorded",
    "C98_native"
   ],
   "note": "The uniqueness, lifetime, search order and iteration theorems hold for all sequences of operations; native look-ups, two objects with one full name, iterators asked after their end and handles used after clearing are recorded as refutations."
  },
  {
   "property": "C99",
   "status": "proved",
   "theorems": [
    "C99_calls",
    "C99_phases",
    "C99_end",
    "C99_time",
    "C99_monotone",
    "C99_one_readonly",
    "C99_leaves",
    "C99_status",
    "C99_finish_refuted",
    "C99_livelock_refuted",
    "C99_zero_delay_refuted",
    "C99_none",
    "C99_none_is_time"
   ],
   "note": "Proved for all designs; three further statements one could expect (the testbench stops at `$finish`, value callbacks come to an end, one ReadOnly phase per time also with delays of 0) are refuted."
  },
  {
   "property": "C100",
   "status": "proved",
   "theorems": [
    "C100_no_range",
    "C100_plain",
    "C100_xcelium",
    "C100_buffer",
    "C100_distinct",
    "C100_array",
    "C100_part",
    "C100_element",
    "C100_outside",
    "C100_names",
    "C100_generate",
    "C100_block",
    "C100_absent",
    "C100_same",
    "C100_member",
    "C100_through",
    "C100_dimension",
    "C100_number",
    "C100_escaped_refuted",
    "C100_same_name_refuted",
    "C100_absent_index_refuted"
   ],
   "note": "Proved for names without a bracket (not escaped); for escaped names, for generate loops with the name of their parent and for blocks which do not exist the expected statement is refuted. The functions of the simulator are arbitrary; the multi-dimensional theorems describe simulators which give no partial indexes (Questa)."
  },
  {
   "property": "C101",
   "status": "proved",
   "theorems": [
    "C101_free",
    "C101_flat",
    "C101_distinct",
    "C101_no_overflow",
    "C101_array",
    "C101_part",
    "C101_element",
    "C101_single",
    "C101_outside_refuted",
    "C101_release_refuted",
    "C101_double_release_refuted",
    "C101_null_refuted"
   ],
   "note": "The functions of the simulator are arbitrary; the multi-dimensional theorems describe simulators which give the elements of the whole array by a flat index. For indexes outside of their range, for the release of handles and for null ranges with Questa the expected statements are refuted."
  },
  {
   "property": "C102",
   "status": "proved",
   "theorems": [
    "C102_vhpi_object",
    "C102_number",
    "C102_fli_bounds",
    "C102_letters",
    "C102_vhpi_array",
    "C102_vhpi_logic",
    "C102_vhpi_integer",
    "C102_vhpi_enum",
    "C102_string",
    "C102_real",
    "C102_fli_array",
    "C102_fli_logic",
    "C102_fli_read",
    "C102_fli_integer",
    "C102_vpi_array",
    "C102_vpi_integer",
    "C102_vpi_release",
    "C102_actions",
    "C102_read",
    "C102_roundtrip",
    "C102_kinds",
    "C102_name_refuted",
    "C102_long_refuted",
    "C102_force_refuted",
    "C102_lowest_refuted",
    "C102_fli_enum_refuted",
    "C102_fli_position_refuted",
    "C102_bit_refuted",
    "C102_character_refuted",
    "C102_null_refuted"
   ],
   "note": "The simulator is described by what it is asked to put; reading describes the simulator which gives the literals of the positions it was given. Doubles are opaque. Nine statements which do not hold (64-bit integers, names of types, FLI enumerations, forces through the FLI, characters, missing texts) are refuted."
  },
  {
   "property": "C103",
   "status": "proved",
   "theorems": [
    "C103_relations",
    "C103_only_regions",
    "C103_from_handle",
    "C103_names",
    "C103_generate",
    "C103_absent",
    "C103_released",
    "C103_discovery",
    "C103_same",
    "C103_root",
    "C103_root_found",
    "C103_nested_refuted",
    "C103_block_refuted",
    "C103_member_refuted",
    "C103_colon_refuted",
    "C103_extended_refuted"
   ],
   "note": "The functions of the VHPI are arbitrary. With NVC the theorems speak of names which the conversion to upper case does not change; for extended identifiers, nested generate loops, blocks by their names, absent members and a top with a colon the expected statements are refuted."
  },
  {
   "property": "C104",
   "status": "proved",
   "theorems": [
    "C104_names",
    "C104_index_names",
    "C104_types",
    "C104_sizes",
    "C104_literals",
    "C104_elements",
    "C104_every_element",
    "C104_generate",
    "C104_block",
    "C104_absent",
    "C104_discovery",
    "C104_same",
    "C104_same_block",
    "C104_root",
    "C104_block_refuted",
    "C104_case_refuted",
    "C104_same_label_refuted",
    "C104_element_refuted",
    "C104_foreign_refuted",
    "C104_alias_refuted",
    "C104_vhdl",
    "C104_values",
    "C104_root_absent",
    "C104_relations",
    "C104_elements_read",
    "C104_null_ends",
    "C104_no_name"
   ],
   "note": "The functions of the FLI are arbitrary; discovery is for objects of which the simulator gives as many elements as their types have. For blocks by their names, other spellings of a name, a loop named like its region, names of discovered elements, records of other interfaces and aliases of constants the expected statements are refuted."
  },
  {
   "property": "C105",
   "status": "proved",
   "theorems": [
    "C105_structures",
    "C105_elements",
    "C105_logic",
    "C105_kinds",
    "C105_relations",
    "C105_discovery",
    "C105_set",
    "C105_same",
    "C105_loop",
    "C105_others",
    "C105_roots",
    "C105_root",
    "C105_package_name",
    "C105_packages",
    "C105_interface_refuted",
    "C105_package_refuted",
    "C105_null_refuted",
    "C105_drivers_refuted"
   ],
   "note": "The answers of the simulator are arbitrary. The look-up of a root is for simulators which name all listed roots, packages for full names of at least two letters. For loops in interfaces, packages with a name of one letter, roots without a name and drivers and loads the expected statements are refuted."
  },
  {
   "property": "C106",
   "status": "proved",
   "theorems": [
    "C106_calls",
    "C106_waiting",
    "C106_alone",
    "C106_fire",
    "C106_edges",
    "C106_return",
    "C106_processes",
    "C106_kept",
    "C106_stale_refuted",
    "C106_own_refuted",
    "C106_twice_refuted",
    "C106_reentry_refuted",
    "C106_growth_refuted",
    "C106_scheduled"
   ],
   "note": "for executions in which only held callbacks are removed and a running process is not run again; C106_own_refuted, C106_twice_refuted and C106_reentry_refuted show what happens otherwise, C106_stale_refuted and C106_growth_refuted what the conditions do not exclude. Startup and shutdown callbacks, which delete themselves, and variables, which are refused, are left out"
  },
  {
   "property": "C107",
   "status": "proved",
   "theorems": [
    "C107_text",
    "C107_bounds",
    "C107_names",
    "C107_native",
    "C107_alike",
    "C107_shift_refuted",
    "C107_alive",
    "C107_before",
    "C107_python",
    "C107_expand",
    "C107_refused",
    "C107_states",
    "C107_dropped",
    "C107_once",
    "C107_once_kept",
    "C107_once_got",
    "C107_clobber_refuted",
    "C107_format_refuted",
    "C107_again_refuted",
    "C107_env",
    "C107_debug",
    "C107_env_refuted",
    "C107_effective",
    "C107_levels",
    "C107_levels_sound",
    "C107_root_refuted",
    "C107_others_refuted"
   ],
   "note": "The text of a message is one value: printf formatting itself is not modelled, only the buffer around it, and a text re-used as a format. Memory exhaustion is left out. Logger names of more than two parts and logging.disable are left out of the levels."
  },
  {
   "property": "C108",
   "status": "proved",
   "theorems": [
    "C108_time",
    "C108_timer",
    "C108_waits",
    "C108_long_refuted",
    "C108_log10",
    "C108_precision",
    "C108_range",
    "C108_steps_refuted",
    "C108_product",
    "C108_args",
    "C108_vhpi_args_refuted",
    "C108_fli_args_refuted",
    "C108_none",
    "C108_casts",
    "C108_no_simulator"
   ],
   "note": "What the simulator tells and what it makes of a delay are relations (tells, worth, fits) outside the model. A resolution limit is an unsigned number of femtoseconds below 2^64. Negative argument counts and texts which are NULL are left out."
  },
  {
   "property": "C109",
   "status": "proved",
   "theorems": [
    "C109_copy",
    "C109_path",
    "C109_registered",
    "C109_once",
    "C109_executable",
    "C109_executable_refuted",
    "C109_attach",
    "C109_sleep",
    "C109_errno_refuted",
    "C109_number_refuted",
    "C109_space",
    "C109_no_number",
    "C109_minus"
   ],
   "note": "Texts contain no NUL of their own; strtoul as in glibc with 64 bit unsigned long; what follows a write beyond the array is not modelled. The start of the simulation, its end and finalisation are C97, the messages C107."
  },
  {
   "property": "C110",
   "status": "proved",
   "theorems": [
    "C110_safe",
    "C110_once",
    "C110_held",
    "C110_owned",
    "C110_edge",
    "C110_fires",
    "C110_marked",
    "C110_stuck",
    "C110_cleanly_refuted",
    "C110_own_refuted",
    "C110_within_refuted",
    "C110_leak_refuted",
    "C110_main",
    "C110_reason",
    "C110_unknown",
    "C110_reasons",
    "C110_named"
   ],
   "note": "for executions in which only held callbacks are deregistered and no callback is made within itself (C110_own_refuted and C110_within_refuted show why); C110_cleanly_refuted and C110_leak_refuted record what is leaked when the simulator refuses. Objects have numbers which are never used again. The discipline of the triggers of Python is C94's; the finalisation of Python is C97."
  },
  {
   "property": "C111",
   "status": "proved",
   "theorems": [
    "C111_new",
    "C111_equal",
    "C111_foreign",
    "C111_unordered",
    "C111_hash",
    "C111_hash_distinct",
    "C111_keys",
    "C111_no_simulator",
    "C111_accepted",
    "C111_refused",
    "C111_raised",
    "C111_edge_refuted",
    "C111_system_error",
    "C111_silent_refuted",
    "C111_passes",
    "C111_leak_refuted",
    "C111_made",
    "C111_handled",
    "C111_by_name",
    "C111_by_index",
    "C111_root",
    "C111_event",
    "C111_event_end",
    "C111_lookup_type",
    "C111_lookup_method"
   ],
   "note": "handles, hashes, registration with right arguments, wrong arguments other than a wrong edge, calls, lookups; false for a wrong edge (two refutations) and the PythonCallback of a refused registration is leaked"
  },
  {
   "property": "C112",
   "status": "proved",
   "theorems": [
    "C112_once",
    "C112_startup",
    "C112_back",
    "C112_finalised",
    "C112_quit",
    "C112_quit_refuted",
    "C112_no_quit",
    "C112_end",
    "C112_stopped",
    "C112_not_started",
    "C112_left_over_refuted",
    "C112_event"
   ],
   "note": "all of it; when the callback for quitting is made its object is freed twice in every execution (C112_quit, C112_quit_refuted), and a callback left over enters finalised Python (C112_left_over_refuted)"
  },
  {
   "property": "C113",
   "status": "partial",
   "theorems": [
    "C113_numbers",
    "C113_class",
    "C113_missing",
    "C113_no_type",
    "C113_text_partial",
    "C113_text_refuted",
    "C113_edges",
    "C113_names",
    "C113_values",
    "C113_numbers_table"
   ],
   "note": "The statement is false of the text: proved are all but the text of packed structures, which is that of an unknown type (C113_text_refuted)"
  },
  {
   "property": "C114",
   "status": "partial",
   "theorems": [
    "C114_strip",
    "C114_strip_end",
    "C114_never_raises",
    "C114_caught",
    "C114_history",
    "C114_copy_refuted",
    "C114_waiters_refuted",
    "C114_stack",
    "C114_task_stack",
    "C114_no_stack",
    "C114_name",
    "C114_text_partial",
    "C114_text_refuted",
    "C114_text_outcome"
   ],
   "note": "False of an exception which two Tasks await (C114_waiters_refuted) and of the text of cancelled Tasks (C114_text_refuted). Proved: the removals (C114_strip, C114_strip_end, C114_never_raises), the traceback as the frames of all passages (C114_caught, C114_history), stacks, names and texts (C114_text_partial: brackets of all other states)."
  },
  {
   "property": "C115",
   "status": "proved",
   "theorems": [
    "C115_named",
    "C115_named_fails",
    "C115_icarus",
    "C115_preserve",
    "C115_blanks_refuted",
    "C115_refused"
   ],
   "note": "Preserving the case is for versions of numbers and dots; an output with two blanks after the name gives an empty version, and comparing it raises (C115_blanks_refuted). Digits are ASCII."
  },
  {
   "property": "C116",
   "status": "proved",
   "theorems": [
    "C116_enabled",
    "C116_blank",
    "C116_user",
    "C116_library",
    "C116_saved",
    "C116_saved_refuted"
   ],
   "note": "Stopping and saving are for ends in which no registered function raises; otherwise the data may be lost (C116_saved_refuted). Warnings raised as errors are not modelled."
  }
 ]
}
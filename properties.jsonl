{"id": "C01", "title": "Range positions and labels are in bijection", "statement": "For every Range r, iterating r yields len(r) distinct integers starting at r.left and moving by +1 ('to') or -1 ('downto'), ending at r.right when the range is not null; r[i] is the i-th of them (negative i counts from the end, out-of-bounds raises IndexError); v in r holds exactly for the yielded values; r.index(r[i]) == i and r[r.index(v)] == v.", "quantifier": "for all integers left and right, both directions, all positions i and all labels v", "why_tests_cant": "left, right, i and v are unbounded integers; tests sample a few ranges", "anchors": ["src/cocotb/types/_range.py:Range.__init__", "src/cocotb/types/_range.py:Range.__getitem__", "src/cocotb/types/_range.py:Range.__contains__", "src/cocotb/types/_range.py:Range.index", "src/cocotb/types/_range.py:Range.__len__", "src/cocotb/types/_range.py:Range.left", "src/cocotb/types/_range.py:Range.right"]}
{"id": "C02", "title": "Range construction, conversion and equality", "statement": "Range(l,d,r) reports exactly the left, direction and right it was given (null ranges included); Range(l,r) is ascending iff l<=r and is never null; from_range/to_range/copy round-trip; a unit-step sub-slice of a Range keeps its direction and the selected labels; two Ranges are equal iff they yield the same label sequence, and equality is an equivalence. Equal ranges need not have equal left/right/direction.", "quantifier": "for all integers left, right, all directions, all slice bounds", "why_tests_cant": "infinitely many bounds; corner cases (null and one-element ranges) are easy to miss", "anchors": ["src/cocotb/types/_range.py:Range.__init__", "src/cocotb/types/_range.py:Range.from_range", "src/cocotb/types/_range.py:Range.to_range", "src/cocotb/types/_range.py:Range.__eq__", "src/cocotb/types/_range.py:_guess_step", "src/cocotb/types/_range.py:_direction_to_step"]}
{"id": "C03", "title": "Range.index with start/stop searches the requested positions", "statement": "r.index(v, start, stop) returns the position of v when start <= position < stop (Sequence convention; a missing start means the first position, a missing stop the end) and raises ValueError otherwise.", "quantifier": "for all ranges, values and optional start/stop", "why_tests_cant": "the default for a missing bound only matters for ranges not starting at 0", "anchors": ["src/cocotb/types/_range.py:Range.index"]}
{"id": "C04", "title": "Array element access obeys the lens laws under any indexing scheme", "statement": "For every Array a and label i: reading i succeeds iff i is in a.range; after a[i]=x, a[i] is x and every other label reads as before, and len, range are unchanged; writing back a read value changes nothing; a failed access leaves the array unchanged.", "quantifier": "for all element types, arrays of any length, ranges of any bounds and direction, all labels and values", "why_tests_cant": "arbitrary index schemes and array contents", "anchors": ["src/cocotb/types/_array.py:Array.__getitem__", "src/cocotb/types/_array.py:Array.__setitem__", "src/cocotb/types/_array.py:Array._translate_index", "src/cocotb/types/_array.py:Array.__init__"]}
{"id": "C05", "title": "Array slices are inclusive, keep labels, and are atomic", "statement": "a[s:e] succeeds iff s and e are labels of a in array order; the result has range s..e in a's direction and reads identically to a on each of its labels; a[s:e]=vs succeeds iff additionally len(vs) is the slice length, changes exactly the labels in the slice, and a failing slice assignment changes nothing; a[:] is equal to a for non-empty arrays (and raises IndexError for empty arrays).", "quantifier": "for all arrays, ranges, slice bounds and assigned sequences", "why_tests_cant": "arbitrary bounds, directions and lengths", "anchors": ["src/cocotb/types/_array.py:Array.__getitem__", "src/cocotb/types/_array.py:Array.__setitem__"]}
{"id": "C06", "title": "Array relabelling and structural operations", "statement": "Constructing an Array succeeds iff the value and range lengths agree; assigning a.range succeeds iff lengths agree and keeps the element sequence; equality depends only on the element sequence; iteration, reversed, count, membership and index(value[,start,stop]) agree with the label/element pairing (index returns the first label in array order inside the inclusive start..stop window).", "quantifier": "for all arrays, ranges and values", "why_tests_cant": "arbitrary contents and ranges", "anchors": ["src/cocotb/types/_array.py:Array.__init__", "src/cocotb/types/_array.py:Array.range", "src/cocotb/types/_abstract_array.py:AbstractArray.index", "src/cocotb/types/_abstract_array.py:AbstractArray.count"]}
{"id": "C07", "title": "Logic operators form the IEEE-1164 algebra and respect 0/1 semantics", "statement": "&, | and ^ on Logic are commutative and associative, satisfy De Morgan, have 0 and 1 as annihilators, agree with the Boolean operators whenever both operands are 0/1/L/H, and never produce a definite 0/1 that refining an unknown input could contradict.", "quantifier": "for all Logic operands (and through C08 for all array widths)", "why_tests_cant": "81-entry tables times several laws with three operands; law violations in single entries are invisible to spot tests", "anchors": ["src/cocotb/types/_logic.py:Logic.__and__", "src/cocotb/types/_logic.py:Logic.__or__", "src/cocotb/types/_logic.py:Logic.__xor__", "src/cocotb/types/_logic.py:Logic.__invert__"]}
{"id": "C08", "title": "LogicArray bitwise operators are elementwise and agree with integer bitwise arithmetic", "statement": "For equal-length LogicArrays a&b, a|b, a^b and ~a act element by element with the Logic operators, the result has range n-1 downto 0, length mismatch raises ValueError; and when a and b are fully 0/1/L/H the unsigned value of a&b, a|b, a^b is the integer and/or/xor of their unsigned values and ~a is 2^n-1-a.", "quantifier": "for all widths and all contents", "why_tests_cant": "unbounded widths and contents", "anchors": ["src/cocotb/types/_logic_array.py:LogicArray.__and__", "src/cocotb/types/_logic_array.py:LogicArray.__or__", "src/cocotb/types/_logic_array.py:LogicArray.__xor__", "src/cocotb/types/_logic_array.py:LogicArray.__invert__"]}
{"id": "C09", "title": "Unsigned integers round-trip through LogicArray", "statement": "LogicArray.from_unsigned(v,n) succeeds iff 0 <= v < 2^n (n>0), and then to_unsigned() returns v; any 0/1/L/H array is converted to the integer sum of bit weights (leftmost is most significant); from_unsigned(to_unsigned(a)) equals a when a is all 0/1; arrays with other values raise ValueError.", "quantifier": "for all integers v, all widths n and all array contents", "why_tests_cant": "unbounded values and widths", "anchors": ["src/cocotb/types/_logic_array.py:LogicArray.from_unsigned", "src/cocotb/types/_logic_array.py:LogicArray.to_unsigned"]}
{"id": "C10", "title": "Signed integers round-trip through LogicArray in two's complement", "statement": "LogicArray.from_signed(v,n) succeeds iff -2^(n-1) <= v < 2^(n-1), and then to_signed() returns v; to_signed() of a 0/1/L/H array of width n is its unsigned value minus 2^n when the leftmost bit is 1; from_signed and from_unsigned agree modulo 2^n.", "quantifier": "for all integers v, all widths and contents", "why_tests_cant": "unbounded values and widths; off-by-one at powers of two", "anchors": ["src/cocotb/types/_logic_array.py:LogicArray.from_signed", "src/cocotb/types/_logic_array.py:LogicArray.to_signed"]}
{"id": "C11", "title": "Byte strings round-trip through LogicArray", "statement": "LogicArray.from_bytes(b, byteorder=o).to_bytes(byteorder=o) returns b for every non-empty byte string; to_bytes of an n-bit array has ceil(n/8) bytes and encodes its unsigned value in the chosen byte order.", "quantifier": "for all byte strings, both byte orders, all array widths", "why_tests_cant": "unbounded lengths", "anchors": ["src/cocotb/types/_logic_array.py:LogicArray.from_bytes", "src/cocotb/types/_logic_array.py:LogicArray.to_bytes"]}
{"id": "C12", "title": "LogicArray's cached representations are unobservable", "statement": "A LogicArray constructed in any way and then subjected to any sequence of reads (str, integer conversions, indexing, slicing, equality, iteration, resolvability) and writes (element, slice, range) gives exactly the answers of a plain list of Logic values with a range; in particular no read changes later answers and no stale representation is ever returned.", "quantifier": "for all constructions and all finite sequences of operations", "why_tests_cant": "the bug class depends on the order of reads and writes (which caches are filled when a write comes); the number of histories is unbounded", "anchors": ["src/cocotb/types/_logic_array.py:LogicArray._get_str", "src/cocotb/types/_logic_array.py:LogicArray._get_array", "src/cocotb/types/_logic_array.py:LogicArray.__setitem__", "src/cocotb/types/_logic_array.py:LogicArray.__getitem__", "src/cocotb/types/_logic_array.py:LogicArray.__init__", "src/cocotb/types/_logic_array.py:LogicArray.__eq__"]}
{"id": "C13", "title": "LogicArray equality", "statement": "Equality between LogicArrays is exactly equality of length and of each Logic value, hence an equivalence independent of ranges and of how each array was built; equality with str agrees with constructing an array from that str; equality with int agrees with the unsigned value and is False for unresolvable arrays. Equality across types is transitive.", "quantifier": "for all arrays, strings and integers", "why_tests_cant": "unbounded operands and combinations", "anchors": ["src/cocotb/types/_logic_array.py:LogicArray.__eq__"]}
{"id": "C14", "title": "LogicArray element and slice assignment", "statement": "a[i]=x and a[s:e]=v (v a str, int, LogicArray or iterable of Logic literals) change exactly the addressed labels to exactly v's values, succeed iff labels are in range, in order, and the value fits the slice width, and leave the array's value unchanged on failure.", "quantifier": "for all arrays, index schemes, slice bounds and values", "why_tests_cant": "arbitrary bounds and value kinds", "anchors": ["src/cocotb/types/_logic_array.py:LogicArray.__setitem__", "src/cocotb/types/_logic_array.py:LogicArray.__getitem__"]}
{"id": "C15", "title": "resolve() only touches what the resolver says and yields resolvable values", "statement": "resolve('zeros'|'ones'|'random') always yields an array of only 0/1, keeps 0/1, maps L to 0 and H to 1, keeps length and is idempotent; 'weak' maps L,H,W to 0,1,X and leaves others alone; after any of the first three, to_unsigned succeeds. bool() and int() of a Logic agree under every COCOTB_RESOLVE_X setting.", "quantifier": "for all arrays, all resolvers and all random draws", "why_tests_cant": "arbitrary widths and random outcomes", "anchors": ["src/cocotb/types/_resolve.py:get_str_resolver", "src/cocotb/types/_logic_array.py:LogicArray.resolve", "src/cocotb/types/_logic.py:Logic.resolve", "src/cocotb/types/_logic.py:Logic.__bool__", "src/cocotb/types/_logic.py:Logic.__int__"]}
{"id": "C16", "title": "LogicArray string formatting is faithful", "statement": "str(a) is the concatenation of the element characters and reads back as the same elements; for arrays of definite values (0, 1, L, H), format(a, spec) with any combination of '#', '_' or ',' (the latter for 'd' only) and type b, o, d, x, X is the base prefix followed by digits which, once separators are removed, denote to_unsigned(); 'b' gives exactly len(a) digits and 'x'/'X' exactly ceil(len(a)/4). (The analogous ceil(len(a)/3) count for octal is false with both '#' and '_'.)", "quantifier": "for all arrays and all format specifications", "why_tests_cant": "unbounded widths times flag combinations", "anchors": ["src/cocotb/types/_logic_array.py:LogicArray.__str__", "src/cocotb/types/_logic_array.py:LogicArray.__format__"]}
{"id": "C17", "title": "Every live Task is in exactly one place: no Task is lost and none is resumed twice", "statement": "At every point of every execution each Task is exactly one of: not started, queued to run (in exactly one live queue slot), blocked on exactly one trigger (registered there exactly once), the running Task, or done. So a trigger firing resumes each waiter exactly once, a done Task never runs again, and cancelling a blocked or queued Task never fails with an internal error.", "quantifier": "for all programs (any number of Tasks, any user code), all schedules of simulator callbacks and all interleavings of start, cancel, kill, await, return and raise", "why_tests_cant": "interleavings are unbounded; double wake-ups need particular orders of cancel and fire", "anchors": ["src/cocotb/task.py:Task._resume", "src/cocotb/task.py:Task._schedule_resume", "src/cocotb/task.py:Task.cancel", "src/cocotb/task.py:Task.kill", "src/cocotb/task.py:Task._cancel_now", "src/cocotb/_base_triggers.py:Trigger._register", "src/cocotb/_base_triggers.py:Trigger._deregister", "src/cocotb/_base_triggers.py:Trigger._do_callbacks", "src/cocotb/_event_loop.py:EventLoop.run"]}
{"id": "C18", "title": "Task completion is final and reported consistently", "statement": "A Task completes at most once; afterwards done() stays True, and result()/exception()/cancelled() keep returning the same answer; result() raises InvalidStateError before completion; done callbacks run exactly once, at completion.", "quantifier": "for all programs and schedules, and all calls made after completion", "why_tests_cant": "requires every later history, including cancel/kill of done Tasks", "anchors": ["src/cocotb/task.py:Task._set_outcome", "src/cocotb/task.py:Task.result", "src/cocotb/task.py:Task.exception", "src/cocotb/task.py:Task.done", "src/cocotb/task.py:Task.cancelled"]}
{"id": "C19", "title": "Cancellation contract", "statement": "cancel() returns True iff the Task was not done (RuntimeError if it is the running Task). A Task for which cancel() returned True is done as soon as it has next been resumed, unless it calls the internal un-cancel: CANCELLED if the CancelledError (or another CancelledError) leaves the coroutine, otherwise ERRORED with RuntimeError. A cancelled Task that was never started runs none of its body.", "quantifier": "for all programs, all Task states at the time of the call and all reactions of the coroutine to CancelledError", "why_tests_cant": "combination of Task state at cancel time and arbitrary coroutine behaviour", "anchors": ["src/cocotb/task.py:Task.cancel", "src/cocotb/task.py:Task._resume", "src/cocotb/task.py:Task._uncancel"]}
{"id": "C20", "title": "Scheduling order is first-in first-out", "statement": "Tasks resume in the order in which they became ready (started or had their trigger fire), apart from cancelled entries and Tasks started with the internal front-of-queue start; Tasks blocked on one trigger become ready in the order in which they blocked; and the event loop returns only when no live entry is left.", "quantifier": "for all programs and schedules", "why_tests_cant": "order across unbounded interleavings", "anchors": ["src/cocotb/_event_loop.py:EventLoop.schedule", "src/cocotb/_event_loop.py:EventLoop.schedule_left", "src/cocotb/_event_loop.py:EventLoop.run", "src/cocotb/_base_triggers.py:Trigger._do_callbacks"]}
{"id": "C21", "title": "Event: no lost and no spurious wake-ups", "statement": "A Task awaiting Event.wait() is blocked only while the event is not set; set() makes every Task blocked on it ready, in order; awaiting a set event does not block; a blocked waiter becomes ready only by set() or by its own cancellation.", "quantifier": "for all programs, any number of events and waiters, all schedules", "why_tests_cant": "lost wake-up bugs depend on the order of set/clear/wait", "anchors": ["src/cocotb/_base_triggers.py:Event.set", "src/cocotb/_base_triggers.py:Event.wait", "src/cocotb/_base_triggers.py:Event.clear", "src/cocotb/_base_triggers.py:_Event._prime"]}
{"id": "C22", "title": "Lock: mutual exclusion and fair hand-over", "statement": "At most one acquisition holds a Lock at any time; a free Lock has no waiters; release() hands the Lock to the earliest waiter still waiting; releasing a free Lock raises RuntimeError; the same acquire() result cannot be awaited by two Tasks at once.", "quantifier": "for all programs, any number of Locks and Tasks, all schedules including cancellation of waiters", "why_tests_cant": "mutual exclusion must hold on every interleaving", "anchors": ["src/cocotb/_base_triggers.py:Lock._prime_lock", "src/cocotb/_base_triggers.py:Lock._unprime_lock", "src/cocotb/_base_triggers.py:Lock.release", "src/cocotb/_base_triggers.py:Lock._acquire_and_fire", "src/cocotb/_base_triggers.py:_Lock.__await__"]}
{"id": "C23", "title": "Lock: cancelling Tasks never leaks the Lock", "statement": "If every Task releases the Lock when its acquire() returned, then once no Task holds or waits for it the Lock is free, even if Tasks are cancelled while acquiring.", "quantifier": "for all programs using 'async with lock', all schedules and cancellation points", "why_tests_cant": "needs cancellation in the window between hand-over and resumption", "anchors": ["src/cocotb/_base_triggers.py:Lock.release", "src/cocotb/_base_triggers.py:Lock.__aenter__", "src/cocotb/task.py:Task.cancel"]}
{"id": "C24", "title": "Awaiting a Task returns its outcome once it is done", "statement": "A Task blocked on another Task (directly, through complete or join) becomes ready exactly when that Task completes, in order of blocking; awaiting a done Task does not block for ever; awaiting an unstarted Task starts it; the awaited result is the final result()/exception.", "quantifier": "for all programs and schedules", "why_tests_cant": "races between completion and awaiting", "anchors": ["src/cocotb/task.py:Task.__await__", "src/cocotb/task.py:TaskComplete._prime", "src/cocotb/task.py:Join.__await__", "src/cocotb/task.py:Task._set_outcome"]}
{"id": "C25", "title": "Queue delivers exactly the items put, in order, within its capacity", "statement": "For Queue the sequence of items got is always a prefix of the sequence of items put, and for LifoQueue each get returns the most recent item not yet got; no item is lost, duplicated or invented; with maxsize>0 the size never exceeds maxsize; get_nowait/put_nowait raise QueueEmpty/QueueFull exactly when empty/full.", "quantifier": "for all capacities, all sequences of operations and all interleavings of blocking producers and consumers, including cancellation", "why_tests_cant": "unbounded histories", "anchors": ["src/cocotb/queue.py:AbstractQueue.put", "src/cocotb/queue.py:AbstractQueue.get", "src/cocotb/queue.py:AbstractQueue.put_nowait", "src/cocotb/queue.py:AbstractQueue.get_nowait", "src/cocotb/queue.py:Queue", "src/cocotb/queue.py:LifoQueue"]}
{"id": "C26", "title": "PriorityQueue returns the smallest item", "statement": "Each get from PriorityQueue returns a minimal element of the current contents and removes exactly one occurrence of it, for every totally ordered item type.", "quantifier": "for all histories of put and get and all item values", "why_tests_cant": "heap repair errors show only for particular shapes", "anchors": ["src/cocotb/queue.py:PriorityQueue._put", "src/cocotb/queue.py:PriorityQueue._get"]}
{"id": "C27", "title": "Queue never leaves a consumer asleep while items are available", "statement": "Once all ready Tasks have run, no Task is blocked in get() while the queue is non-empty and none is blocked in put() while it has room; so producers and consumers make progress.", "quantifier": "for all programs of producers and consumers, all schedules; with and without cancellation", "why_tests_cant": "lost wake-ups depend on interleavings of several producers, consumers and cancellation", "anchors": ["src/cocotb/queue.py:AbstractQueue._wakeup_next", "src/cocotb/queue.py:AbstractQueue.put", "src/cocotb/queue.py:AbstractQueue.get"]}
{"id": "C28", "title": "wait() returns at the right moment with the right index", "statement": "wait(*aws, return_when) returns only when all waiter Tasks are done; with FIRST_COMPLETED the index is that of the first to complete and the others were cancelled then; with FIRST_EXCEPTION the index is that of the first to fail, or None if all succeeded, and cancellation happens only on failure; with ALL_COMPLETED the index is None and nothing is cancelled by wait itself.", "quantifier": "for all numbers of awaitables, all completion orders and outcomes", "why_tests_cant": "unbounded permutations of completions, including completions during cancellation", "anchors": ["src/cocotb/_concurrent_waiters.py:_wait", "src/cocotb/_concurrent_waiters.py:wait"]}
{"id": "C29", "title": "select() and gather() return the corresponding results", "statement": "select returns (i, result of i) or raises the exception of the first awaitable to complete; gather returns the results in argument order if all succeed, and otherwise raises the exception of the first to fail; gather() of nothing returns () at once and select()/wait() of nothing raise ValueError.", "quantifier": "for all numbers of awaitables, all completion orders and outcomes", "why_tests_cant": "completion order independent of argument order for unbounded lists", "anchors": ["src/cocotb/_concurrent_waiters.py:select", "src/cocotb/_concurrent_waiters.py:gather"]}
{"id": "C30", "title": "Cancelling a Task inside wait/select/gather cleans up the children first", "statement": "If the caller of wait/select/gather is cancelled any number of times while waiting, every waiter Task is done before the CancelledError leaves the call.", "quantifier": "for all completion orders, cancellation points and numbers of cancellations", "why_tests_cant": "repeated cancellation at arbitrary points", "anchors": ["src/cocotb/_concurrent_waiters.py:_wait", "src/cocotb/task.py:Task._uncancel"]}
{"id": "C31", "title": "TaskManager leaves its block only after all children are done", "statement": "The async-with block of a TaskManager finishes only when every Task started in it is done; if one fails (unless continue_on_error applies) all remaining ones are cancelled, once; no Task can be added after the block has finished.", "quantifier": "for all numbers of children, all completion orders and outcomes, all cancellation points", "why_tests_cant": "unbounded interleavings of child completion, failure, cancellation and block exit", "anchors": ["src/cocotb/_task_manager.py:TaskManager.start_soon", "src/cocotb/_task_manager.py:TaskManager._done_callback", "src/cocotb/_task_manager.py:TaskManager._cancel", "src/cocotb/_task_manager.py:TaskManager.__aexit__"]}
{"id": "C32", "title": "TaskManager reports exactly the failures", "statement": "The exception leaving the block is: nothing if the block and all children succeeded, CancelledError if the manager's Task was cancelled from outside and nothing failed, and otherwise an exception group containing exactly the exceptions of the block and of each failed child, in order of completion.", "quantifier": "for all combinations of outcomes", "why_tests_cant": "exponentially many combinations", "anchors": ["src/cocotb/_task_manager.py:TaskManager.__aexit__"]}
{"id": "C33", "title": "Test teardown: a test completes exactly once, with all its Tasks ended and its failures kept", "statement": "However a test ends (return, exception, timeout, failure of a child Task, simulator end) its completion is signalled at most once, only when none of its registered Tasks is still running, and the reported exception is None, the single failure, or a group of all failures in order.", "quantifier": "for all sets of Tasks, all orders of failures and completions", "why_tests_cant": "order and multiplicity of failures during teardown", "anchors": ["src/cocotb/_test_manager.py:TestManager._abort", "src/cocotb/_test_manager.py:TestManager._task_done_callback", "src/cocotb/_test_manager.py:TestManager.add_task", "src/cocotb/_test_manager.py:TestManager.remove_task", "src/cocotb/_test_manager.py:TestManager.exception"]}
{"id": "C34", "title": "Bridge threads never run while the simulator has control", "statement": "When control returns to the simulator every bridge thread is blocked or finished; at most one resume is outstanding per thread; a thread's result is delivered to its awaiting Task exactly once.", "quantifier": "for all numbers of bridge threads, all thread schedules, all Task cancellations", "why_tests_cant": "thread interleavings are not reproducible by tests", "anchors": ["src/cocotb/_bridge.py:run_bridge_threads", "src/cocotb/_bridge.py:external_waiter", "src/cocotb/_bridge.py:bridge", "src/cocotb/_bridge.py:resume", "src/cocotb/_event_loop.py:EventLoop.run"]}
{"id": "C35", "title": "Time conversion is exact and rounding is bounded", "statement": "Converting to steps yields the exact quotient when representable; otherwise round_mode 'error' raises ValueError, and 'floor', 'ceil', 'round' give the nearest integer below, above, or nearest (ties to even); results are monotone in time, and converting steps to a unit and back gives the same number of steps.", "quantifier": "for all rational times, all units fs..sec, all simulator precisions", "why_tests_cant": "unbounded values and precisions", "anchors": ["src/cocotb/simtime.py:convert", "src/cocotb/simtime.py:_get_sim_steps", "src/cocotb/simtime.py:_get_time_from_sim_steps", "src/cocotb/simtime.py:_ldexp10", "src/cocotb/simtime.py:_get_log_time_scale"]}
{"id": "C36", "title": "Simulation time is assembled without loss", "statement": "get_sim_time('step') equals the simulator's 64-bit time from its two 32-bit halves for every time value.", "quantifier": "for all 64-bit times", "why_tests_cant": "2^64 values", "anchors": ["src/cocotb/simtime.py:get_sim_time"]}
{"id": "C37", "title": "Timer waits a positive whole number of steps", "statement": "Timer(t, unit, round_mode) either raises (t <= 0, or not representable with round_mode 'error') or waits exactly the rounded number of steps, at least 1.", "quantifier": "for all times, units, precisions and round modes", "why_tests_cant": "unbounded values; zero after rounding is a corner case", "anchors": ["src/cocotb/_gpi_triggers.py:Timer.__init__"]}
{"id": "C38", "title": "Clock waveform has the requested period", "statement": "A started Clock toggles so that rising (falling, if start_high is False) edges are exactly period steps apart with period_high steps high; the constructor accepts exactly the parameter sets for which this is possible.", "quantifier": "for all periods, high times, start phases and numbers of cycles", "why_tests_cant": "unbounded numbers of cycles and parameters", "anchors": ["src/cocotb/clock.py:Clock.__init__", "src/cocotb/clock.py:Clock.start"]}
{"id": "C39", "title": "Clock.cycles(n) returns at the n-th edge", "statement": "await clock.cycles(n, edge) returns at the same simulation time as awaiting the edge n times, although it skips most edges with a Timer.", "quantifier": "for all n, periods, duty cycles, phases, and start times", "why_tests_cant": "the skip computation is only wrong at particular phase relations", "anchors": ["src/cocotb/clock.py:Clock.cycles"]}
{"id": "C40", "title": "Deposited writes: the last write wins and nothing is lost", "statement": "Between two ReadWrite phases any sequence of value assignments leaves each signal with its last assigned value once writes are applied; every assigned handle is written exactly once, in order of last assignment; no write stays pending after the ReadWrite phase; assignments in the ReadOnly phase raise.", "quantifier": "for all sequences of assignments (Deposit, Force, Freeze, Release, Immediate) to any handles across phases", "why_tests_cant": "unbounded histories over phases", "anchors": ["src/cocotb/handle.py:_schedule_write", "src/cocotb/handle.py:_apply_scheduled_writes", "src/cocotb/handle.py:ValueObjectBase.value", "src/cocotb/_gpi_triggers.py:ReadWrite._do_callbacks"]}
{"id": "C41", "title": "Signal writes accept exactly the representable values and write their two's-complement bits", "statement": "Assigning an int to an n-bit logic array is accepted iff it is in the documented range, and the bits written are the value modulo 2^n for every width (both below and above 32 bits); same for logic, integer and enum handles with their ranges; strings and LogicArrays need equal length and are written unchanged.", "quantifier": "for all widths and integers", "why_tests_cant": "the 32-bit and wide paths differ; boundary values at each width", "anchors": ["src/cocotb/handle.py:LogicArrayObject._set_value", "src/cocotb/handle.py:LogicObject._set_value", "src/cocotb/handle.py:IntegerObject._set_value", "src/cocotb/handle.py:EnumObject._set_value"]}
{"id": "C42", "title": "Array handles write and read elementwise", "statement": "Assigning a sequence to an array handle succeeds iff lengths agree and assigns the i-th value to the i-th sub-handle in range order; reading gives the values in the same order.", "quantifier": "for all ranges and contents, nested arrays", "why_tests_cant": "arbitrary ranges and nesting", "anchors": ["src/cocotb/handle.py:ArrayObject._set_value", "src/cocotb/handle.py:ArrayObject.get"]}
{"id": "C43", "title": "Handle lookup is stable", "statement": "Looking up the same sub-handle by any of the supported syntaxes returns the same object each time, a failed lookup is never cached as success, and iterating discovers each child under a key that finds it again.", "quantifier": "for all sequences of lookups and discoveries", "why_tests_cant": "cache behaviour depends on lookup history", "anchors": ["src/cocotb/handle.py:_HierarchyObjectBase._get", "src/cocotb/handle.py:HierarchyArrayObject._sub_handle_key"]}
{"id": "C44", "title": "Every selected test is accounted for exactly once, in stage order", "statement": "The regression runs the tests matching the filter exactly once each, ordered by stage and otherwise in registration order (or some permutation if shuffled); after the run passed+failed+skipped (+errored) equals the number of selected tests, whatever their outcomes.", "quantifier": "for all test lists, stages, filters and outcomes", "why_tests_cant": "unbounded lists of tests and outcomes", "anchors": ["src/cocotb/regression.py:RegressionManager.start_regression", "src/cocotb/regression.py:RegressionManager._execute", "src/cocotb/regression.py:RegressionManager._test_complete"]}
{"id": "C45", "title": "Test scoring follows the expectation table", "statement": "A test passes iff it ended without exception and nothing was expected to fail, or ended with an exception matching its expected error/failure; the recorded result is a function of the outcome and the expectation as documented, including groups of exceptions and expect_fail combined with expect_error.", "quantifier": "for all exceptions, exception groups and expectation settings", "why_tests_cant": "nested exception groups are unbounded", "anchors": ["src/cocotb/regression.py:RegressionManager._score_test"]}
{"id": "C46", "title": "Maximum failures stops the regression", "statement": "With COCOTB_MAX_FAILURES=k>0 no test starts after k failures have been recorded.", "quantifier": "for all test lists, outcomes and k", "why_tests_cant": "depends on the kind and position of failures", "anchors": ["src/cocotb/regression.py:RegressionManager._record_test_failed"]}
{"id": "C47", "title": "A simulator exit always produces a results file", "statement": "If the simulator ends the run at any time while tests remain, the running and remaining tests are reported failed and the results file is written.", "quantifier": "for all points at which the simulator can end", "why_tests_cant": "the end may come at any point, also between two tests", "anchors": ["src/cocotb/regression.py:RegressionManager._on_sim_end", "src/cocotb/regression.py:RegressionManager._tear_down", "src/cocotb/_test_manager.py:TestManager._abort"]}
{"id": "C48", "title": "Test randomness is reproducible per test", "statement": "The random seed a test runs with is a function of the regression seed and the test's full name only, independent of which other tests run, and the global generators are restored afterwards.", "quantifier": "for all test lists, filters and orders", "why_tests_cant": "subset and order independence", "anchors": ["src/cocotb/regression.py:RegressionManager._schedule_next_test", "src/cocotb/regression.py:RegressionManager._test_complete"]}
{"id": "C49", "title": "parametrize and TestFactory generate the full product, each combination once", "statement": "The generated tests are exactly the elements of the cartesian product of all options, in lexicographic order with the first-declared option as documented, each with its combination of keyword arguments; test names are pairwise distinct.", "quantifier": "for all option lists and values", "why_tests_cant": "arbitrary numbers of options and values; collisions depend on values", "anchors": ["src/cocotb/_decorators.py:TestGenerator.generate_tests", "src/cocotb/_decorators.py:parametrize", "src/cocotb/_test_factory.py:TestFactory.generate_tests"]}
{"id": "C50", "title": "Environment parsing is total and consistent", "statement": "Boolean settings accept exactly the documented spellings in any case and surrounding space and raise otherwise; list settings split on commas into non-empty trimmed items; integer settings fall back to the default exactly when unset or empty.", "quantifier": "for all environment strings", "why_tests_cant": "all strings", "anchors": ["src/cocotb_tools/_env.py:as_bool", "src/cocotb_tools/_env.py:get_bool", "src/cocotb_tools/_env.py:get_list", "src/cocotb_tools/_env.py:get_int"]}
{"id": "C51", "title": "xUnit text is always valid XML text and only changes invalid characters", "statement": "Escaped text contains only characters allowed in XML 1.0; characters which are valid (other than DEL) are kept; DEL and invalid characters are replaced by their #x code; escaping twice equals escaping once.", "quantifier": "for all Unicode strings", "why_tests_cant": "all strings over the whole Unicode range", "anchors": ["src/cocotb/_xunit_reporter.py:_escape", "src/cocotb/_xunit_reporter.py:_escape_code", "src/cocotb/_xunit_reporter.py:_INVALID_CHARS"]}
{"id": "C52", "title": "xUnit counters match the test cases", "statement": "In the written report each suite's tests/failures/errors/skipped attributes equal the number of its test cases (with the respective child element), and each reported test case is in exactly one suite, that of its class name.", "quantifier": "for all sequences of reported test cases", "why_tests_cant": "unbounded sequences", "anchors": ["src/cocotb/_xunit_reporter.py:XUnitReporter.add_testcase", "src/cocotb/_xunit_reporter.py:XUnitReporter._get_testsuite", "src/cocotb/_xunit_reporter.py:XUnitReporter.write"]}
{"id": "C53", "title": "Combined results keep every test case and its verdict", "statement": "Combining results files keeps every test case exactly once, grouped by suite name, and checking the combined file finds a failure iff one of the inputs has one.", "quantifier": "for all sets of results files", "why_tests_cant": "arbitrary suites shared between files", "anchors": ["src/cocotb_tools/combine_results.py:main", "src/cocotb_tools/check_results.py:get_results"]}
{"id": "C54", "title": "check_results signals failure through its exit status", "statement": "The exit status of the check is 0 iff no test failed.", "quantifier": "for all numbers of failures", "why_tests_cant": "large failure counts are not tested", "anchors": ["src/cocotb_tools/check_results.py:main"]}
{"id": "C55", "title": "Version comparison is a total preorder", "statement": "Comparing simulator versions is reflexive, transitive, antisymmetric up to equal components and total.", "quantifier": "for all version strings", "why_tests_cant": "all strings", "anchors": ["src/cocotb_tools/sim_versions.py", "src/cocotb_tools/_vendor/distutils_version.py:LooseVersion._cmp", "src/cocotb_tools/_vendor/distutils_version.py:StrictVersion._cmp"]}
{"id": "C56", "title": "with_timeout, First, Combine and ClockCycles", "statement": "with_timeout returns the trigger's result if it completes before the timer and raises SimTimeoutError otherwise, cancelling the loser; Combine waits for all and re-raises the first failure; First returns the first result; ClockCycles(n) fires at the n-th selected edge.", "quantifier": "for all triggers, completion orders and n", "why_tests_cant": "orders of completion unbounded", "anchors": ["src/cocotb/_extended_awaitables.py:with_timeout", "src/cocotb/_extended_awaitables.py:Combine", "src/cocotb/_extended_awaitables.py:First", "src/cocotb/_extended_awaitables.py:ClockCycles"]}
{"id": "C57", "title": "Plusargs are parsed without loss", "statement": "Each '+name=value' argument yields the mapping name -> value (everything after the first '='), '+name' yields name -> True, later duplicates override earlier ones, other arguments are ignored.", "quantifier": "for all argument lists", "why_tests_cant": "all strings", "anchors": ["src/cocotb/_init.py:_process_plusargs"]}
{"id": "C58", "title": "Decorators combine as documented whatever their order", "statement": "A test is skipped, expected to fail or expected to raise an error iff one of its decorators (test, skipif, xfail) asks for it, in any order; stage, name and timeout are those of the outermost decorator giving one; options of outer parametrize decorators come first; decoration fails exactly when a decorator has bad arguments.", "quantifier": "for all stacks of decorators", "why_tests_cant": "stacks and orders of decorators are unbounded", "anchors": ["src/cocotb/_decorators.py:test", "src/cocotb/_decorators.py:skipif", "src/cocotb/_decorators.py:xfail", "src/cocotb/_decorators.py:parametrize"]}
{"id": "C59", "title": "HDL literals denote the value they were made from", "statement": "as_sv_literal and as_vhdl_literal turn a Python value into text which the language reads back as that value (strings with any characters, integers, booleans, logic values), and refuse exactly the values which have no literal.", "quantifier": "for all values and all strings", "why_tests_cant": "all strings", "anchors": ["src/cocotb_tools/runner.py:_sv_escape_string", "src/cocotb_tools/runner.py:_vhdl_escape_string", "src/cocotb_tools/runner.py:as_sv_literal", "src/cocotb_tools/runner.py:as_vhdl_literal"]}
{"id": "C60", "title": "Values reach a Tcl simulator as single words", "statement": "The do-script of the Aldec simulators is one asim command whose words are exactly the given arguments: no argument is split, dropped, substituted or run as a command.", "quantifier": "for all arguments", "why_tests_cant": "all strings", "anchors": ["src/cocotb_tools/runner.py:_as_tcl_value", "src/cocotb_tools/runner.py:AldecBase._test_command"]}
{"id": "C61", "title": "Logged command lines can be replayed", "statement": "A shell splits the logged command line into exactly the arguments of the command, expanding nothing.", "quantifier": "for all argument lists", "why_tests_cant": "all strings", "anchors": ["src/cocotb_tools/runner.py:_shlex_join"]}
{"id": "C62", "title": "The testcase argument selects the named tests", "statement": "The regular expression built from the names given as testcase selects, when searched in the full names of the tests as the regression manager does, the tests with these names; no character of a name has a special meaning.", "quantifier": "for all lists of names and all test names", "why_tests_cant": "all strings", "anchors": ["src/cocotb_tools/runner.py:Runner.test", "src/cocotb/regression.py:RegressionManager.add_filters"]}
{"id": "C63", "title": "The environment of the simulator", "statement": "The simulator started by Runner.test gets the caller's environment, the variables asked for by the arguments, and the settings of the runner (modules, top level, language, results file, libraries); the error cases are exactly a missing Python library and a missing PATH.", "quantifier": "for all environments and arguments", "why_tests_cant": "environments and arguments are unbounded", "anchors": ["src/cocotb_tools/runner.py:Runner._set_env_common", "src/cocotb_tools/runner.py:Runner._set_env_test", "src/cocotb_tools/runner.py:Runner.test"]}
{"id": "C64", "title": "The verdict of a run", "statement": "Runner.test reports success under pytest only if every command succeeded and a results file of this run reports no failure; a failing command or a reported failure is never a pass; the results file is where the arguments say.", "quantifier": "for all commands, results files and names", "why_tests_cant": "contents of files and outcomes of commands are unbounded", "anchors": ["src/cocotb_tools/runner.py:Runner.test", "src/cocotb_tools/runner.py:Runner._execute_cmds", "src/cocotb_tools/check_results.py:get_results"]}
{"id": "C65", "title": "Build commands", "statement": "Each runner compiles exactly the sources of the lists it supports, in the documented order, with the compiler and the arguments for their language, refuses unsupported files, passes defines, includes and parameters in order, and skips a build only if no source is newer than its output.", "quantifier": "for all source lists, arguments and time stamps", "why_tests_cant": "lists of any length", "anchors": ["src/cocotb_tools/runner.py:Runner.build", "src/cocotb_tools/runner.py:_determine_file_type", "src/cocotb_tools/runner.py:outdated", "src/cocotb_tools/runner.py:Icarus._build_command"]}
{"id": "C66", "title": "Test commands", "statement": "Each runner passes test arguments, plusargs, elaboration arguments, parameters and pre-commands to the simulator, in order and once, between the user's command prefix and suffix, or refuses what it does not support.", "quantifier": "for all arguments", "why_tests_cant": "lists of any length", "anchors": ["src/cocotb_tools/runner.py:Questa._test_command", "src/cocotb_tools/runner.py:Icarus._test_command", "src/cocotb_tools/runner.py:Nvc._test_command"]}
{"id": "C67", "title": "Stripping escape codes from the log", "statement": "When codes are stripped, the formatted record holds exactly the visible text of prefix and message: every ANSI escape code is removed, nothing else is, and no escape character is left where each begins a code; the formatter's own setting wins over the module's.", "quantifier": "for all prefixes, messages and formatter settings", "why_tests_cant": "texts are unbounded and codes can be cut or nested", "anchors": ["src/cocotb/logging.py:SimLogFormatter.format", "src/cocotb/logging.py:SimLogFormatter.strip_ansi"]}
{"id": "C68", "title": "Lines and columns of the log", "statement": "Every line of a record but the first is indented as configured and no line is lost; a traceback follows on its own lines; the default prefix has the fixed width used for the indentation; ljust and rjust give exactly the requested width, cutting from the left.", "quantifier": "for all records, prefixes, indentations and widths", "why_tests_cant": "texts, times and widths are unbounded", "anchors": ["src/cocotb/logging.py:SimLogFormatter.format", "src/cocotb/logging.py:SimLogFormatter.formatExcInfo", "src/cocotb/logging.py:_ljust", "src/cocotb/logging.py:_rjust"]}
{"id": "C69", "title": "Colours of the log", "statement": "Colouring does not change the visible text; after a record the terminal is back to its default; a message which returns to the default gets the colour of its level.", "quantifier": "for all records and all sequences of colours in the message", "why_tests_cant": "sequences of colour codes are unbounded", "anchors": ["src/cocotb/logging.py:SimLogFormatter.format", "src/cocotb/_ansi.py:ANSI"]}
{"id": "C70", "title": "Log settings from the environment", "statement": "Colours, log levels and the reduced format follow the documented variables: a set COCOTB_ANSI_OUTPUT wins, else colours are on exactly for a terminal without NO_COLOR and GUI; a level variable sets its own logger to the level it names in any case, and a wrong value is a ValueError.", "quantifier": "for all values of the variables", "why_tests_cant": "the values are arbitrary texts and interact", "anchors": ["src/cocotb/logging.py:_init", "src/cocotb/logging.py:_configure"]}
{"id": "C71", "title": "Seed, top level and packages", "statement": "The seed comes from the first source that is set, in the documented order, and the seed a run reports recreates it; cocotb.top is the wanted root up to case, cocotb.tops holds it and every root, cocotb.packages every package.", "quantifier": "for all environments, plusargs, design roots and packages", "why_tests_cant": "names, numbers and lists of roots are unbounded", "anchors": ["src/cocotb/_init.py:_setup_random_seed", "src/cocotb/_init.py:_setup_root_handle", "src/cocotb/_init.py:_process_packages"]}
{"id": "C72", "title": "Entry points, preview features and shutdown", "statement": "Entry points run in order and only if all are well formed, stopping at the first failure; preview features are all, none or the listed ones; shutdown callbacks are called once each in the order of registration, also those registered meanwhile, until one raises, and this ends.", "quantifier": "for all lists of entries, features and callbacks", "why_tests_cant": "callbacks register callbacks, in trees of any size", "anchors": ["src/pygpi/entry.py:load_entry", "src/cocotb/preview.py:_init", "src/cocotb/_shutdown.py:_shutdown"]}
{"id": "C73", "title": "The choice of the tests", "statement": "The tests are those of the listed modules in order; COCOTB_TESTCASE and COCOTB_TEST_FILTER exclude each other; with COCOTB_TESTCASE exactly the tests are run whose full name ends with one of the given names.", "quantifier": "for all modules, tests, filters and names", "why_tests_cant": "names and lists are unbounded", "anchors": ["src/cocotb/regression.py:RegressionManager.discover_tests", "src/cocotb/regression.py:_setup_regression_manager"]}
{"id": "C74", "title": "Pytest regression manager: order and end of a session", "statement": "Under pytest, if nothing raises, the observable history of a session is at all times a prefix of the one that runs every collected item in order, each as setup hook, its asynchronous fixtures up to the first that does not pass, the setup report, the call only after a passed setup, all finalizers, one report per phase, and then one announcement of the end and one stop of the simulator; the session always reaches its end within a bounded number of callbacks. Whatever raises, the end is announced at most once, the session is never idle before its end, and a report concerns the phase whose hook was called last.", "quantifier": "forall environments (number of items, what every hook and asynchronous part does, leaves and reports, which announcements raise) and all executions of the callbacks, of any length", "why_tests_cant": "The manager is a chain of callbacks re-entered from the scheduler; a test can only exercise some arrangements of fixtures, failures and exceptions and runs a single schedule, whereas the order, the single end and the absence of a lost continuation are claims about all of them.", "anchors": ["src/cocotb_tools/_pytest/_regression.py:71-83", "src/cocotb_tools/_pytest/_regression.py:267-296", "src/cocotb_tools/_pytest/_regression.py:324-505", "src/cocotb_tools/_pytest/_regression.py:854-884"]}
{"id": "C75", "title": "Pytest regression manager: seed, generator and log capture of each part", "statement": "Every asynchronous part runs in the phase of the last hook, with the cocotb.RANDOM_SEED of that phase (session seed plus the hash of the node identifier until the teardown, the session seed in it) and with log capture if and only if it is the first part after the hook; the first fixture draws from the generator seeded for its item, independently of everything before; if finalizers leave the generator alone, it is given back at every teardown.", "quantifier": "forall environments, initial generator states and executions", "why_tests_cant": "Independence of the history and restoration of the generator after any sequence of items, failures and exceptions range over unboundedly many histories.", "anchors": ["src/cocotb_tools/_pytest/_regression.py:507-552", "src/cocotb_tools/_pytest/_regression.py:738-744", "src/cocotb_tools/_pytest/_regression.py:809-852"]}
{"id": "C76", "title": "Options of the pytest plugin", "statement": "Every option of the cocotb pytest plugin except a flag takes its value from the command line, else from the configuration file, else from its environment variable, else its default. The environment variable is read by the rules of its type (text, path, integer, comma list, shell words, boolean, choice); an option with choices accepts exactly these words in any letter case and otherwise raises ValueError. A flag that is not on the command line is off whatever the configuration file and the environment say (refutation of the documented behaviour), a wrong environment variable is an error even if the command line has a value, and configuration entries are not checked against choices. The table has distinct names, arguments and variables. NAME=VALUE lists become a dictionary where the last entry counts and only the first '=' separates; UNIT/PRECISION is split and trimmed; 'auto' picks the first installed simulator in table order.", "quantifier": "for all option kinds, defaults, environment values, command line and configuration values; all lists of NAME=VALUE items, all timescale texts, all sets of installed executables", "why_tests_cant": "Tests exercise a handful of option combinations; the claims are about all values from three sources and all kinds, and the flag defect only shows when a source other than the command line is used.", "anchors": ["src/cocotb_tools/_pytest/_option.py:37-171", "src/cocotb_tools/_pytest/plugin.py:74-390", "src/cocotb_tools/_pytest/plugin.py:643-663", "src/cocotb_tools/_pytest/hdl.py:30-60"]}
{"id": "C77", "title": "HDL design of a cocotb runner: markers and arguments", "statement": "The markers of a node and its parents are applied from the session to the node: list attributes are the concatenation in that order, dictionary entries and single values are those of the nearest marker that sets them, otherwise of the option. The modules whose tests are collected are those that are run when each node has at most one cocotb_runner marker and it names modules (refuted for a bare marker below one with modules, for two markers at one node and for a file name with a dot). The top level is the first module without 'test_' prefix or '_test' suffix. The test directory name has only portable characters but is shared by different tests and may leave the build directory. Lists given to build and test are extended by the options and dictionaries overridden; tuples are refused with TypeError and a seed of 0 is ignored.", "quantifier": "for all chains of nodes with any markers in any order, all module and node names, all arguments, attributes and options", "why_tests_cant": "The number of marker combinations over the levels of the tree is unbounded; tests use one or two markers at one level.", "anchors": ["src/cocotb_tools/_pytest/hdl.py:63-203", "src/cocotb_tools/_pytest/hdl.py:292-314", "src/cocotb_tools/_pytest/hdl.py:406-436", "src/cocotb_tools/_pytest/hdl.py:438-513", "src/cocotb_tools/_pytest/_runner.py:41-64"]}
{"id": "C78", "title": "Names of cocotb tests in the parent pytest process", "statement": "The mangled node id of a cocotb test begins with the node id of its runner and '::'. Tests of the runner's own file, and tests of other files in its directory, get names that are different for different tests and spell out module and function. In general names are not unique: a class in the runner's file and a module of that name, or a directory whose name begins with that of the runner's directory, lead to equal names (refutations). In the JUnit report the class name and name are split at the last dot, even inside a parameter (refutation).", "quantifier": "for all runner and test node ids, all directory, file, class and function names", "why_tests_cant": "Uniqueness is a statement about all pairs of names; collisions need names that no test uses.", "anchors": ["src/cocotb_tools/_pytest/_controller.py:185-222", "src/cocotb_tools/_pytest/_junitxml.py:31-40"]}
{"id": "C79", "title": "Verdicts and summary of cocotb tests under pytest", "statement": "A cocotb test run under pytest through the marks made from its decorator gets the verdict of the regression manager when it expects exception types only or, with expect_fail, ends with a failure. It differs for expect_fail with another exception (accepted under pytest), for expected exceptions given by a matcher (pytest's hook raises TypeError) and for cocotb.pass_test (fails under pytest): refutations. The summary counts each cocotb test once by its call outcome and PASS, FAIL and SKIP add up to TESTS; a failing setup is not counted, a failing teardown leaves PASS, and a test with the keyword cocotb_runner is not counted (refutations).", "quantifier": "for all tests, class hierarchies, matchers and exceptions; all lists of reports", "why_tests_cant": "Agreement of two scoring rules is over all combinations of expectation and exception; the summary over all sequences of reports.", "anchors": ["src/cocotb_tools/_pytest/_compat.py:65-127", "src/cocotb/regression.py:511-647", "src/cocotb_tools/_pytest/plugin.py:703-826"]}
{"id": "C80", "title": "Collection of runners and cocotb tests", "statement": "In the parent process, items that are neither runners nor cocotb tests are kept unchanged; a runner is kept together with a collector for its tests unless it is below another runner; a cocotb test is never run by the parent, is shown below its runner with --collect-only and otherwise gives its keywords to the runner. Below a runner the tests shown are those run in the simulator when no cocotb_runner mark is above them; with such a mark at the module they run but are hidden, and with a cocotb_test mark at the module a runner is dropped (refutations).", "quantifier": "for all items, marks and modes", "why_tests_cant": "Tests cover the intended placement of marks; the hidden and dropped cases come from marks inherited from modules.", "anchors": ["src/cocotb_tools/_pytest/_controller.py:244-329", "src/cocotb_tools/_pytest/_regression.py:310-322"]}
{"id": "C81", "title": "The phases of a time step are respected", "statement": "Awaiting ReadOnly or ReadWrite and assigning a value raise RuntimeError if the last simulator trigger that fired is ReadOnly, and a RuntimeError has no other cause than a simulator that gives no callback; between two ReadOnly phases another trigger fires; nothing is written between a ReadOnly phase and the next trigger; a ReadWrite phase right after a ReadOnly phase was requested before it.", "quantifier": "for all sequences of awaits, cancellations, writes and firings, whatever the simulator answers", "why_tests_cant": "tests run a few orders of triggers on one simulator; the order of firings, refusals and cancellations is unbounded", "anchors": ["src/cocotb/_gpi_triggers.py:33-54", "src/cocotb/_gpi_triggers.py:172-235", "src/cocotb/_gpi_triggers.py:387-395", "src/cocotb/_base_triggers.py:61-88", "src/cocotb/handle.py:768-822", "src/cocotb/handle.py:863-882"]}
{"id": "C82", "title": "Edge triggers and singletons are unique", "statement": "RisingEdge, FallingEdge, ValueChange and Edge of a signal (as constructor or as attribute) give the same trigger if and only if signal and kind are the same; they are given exactly for suitable signals (logic, one-bit arrays, not constant) and TypeError is raised otherwise; the simulator is asked for the named edge of the named signal; a singleton class has one object, initialised at most once.", "quantifier": "for all sequences of uses, all signals and whatever the simulator says about lengths and constness over time", "why_tests_cant": "identity depends on the whole history of uses and on what the simulator answered earlier", "anchors": ["src/cocotb/_gpi_triggers.py:240-385", "src/cocotb/handle.py:1093-1111", "src/cocotb/handle.py:1189-1202", "src/cocotb/handle.py:1412-1429", "src/cocotb/_utils.py:192-215"]}
{"id": "C83", "title": "Interface libraries are found by name", "statement": "For each interface (in any case) and each supported simulator the path names the library that serves the simulator, with the right prefix and extension, and the entry function where one must be named; other names raise ValueError; every look-up of the runners names a library that the build makes.", "quantifier": "for all texts as interface and simulator, both kinds of operating system and compilers, and all directories", "why_tests_cant": "tests look up the library of the simulator they run with only", "anchors": ["src/cocotb_tools/config.py:118-198", "src/cocotb_tools/runner.py:1035-1180", "cocotb_build_libs.py:527-760"]}
{"id": "C84", "title": "The summary table shows every result in line", "statement": "The summary has one line for each result in order, with name, status, times and ratio in their columns, a header and the totals; its width is the least that holds all names; the length of a line exceeds it exactly by the digits that do not fit; colours only add codes around the status; the ratio never raises.", "quantifier": "for all lists of results, names, times, counters and number formats", "why_tests_cant": "tests look at one regression whose numbers and names fit", "anchors": ["src/cocotb/regression.py:156-178", "src/cocotb/regression.py:979-1109", "src/cocotb/_utils.py:227-235", "src/cocotb/_ansi.py:28-35"]}
{"id": "C85", "title": "Reports of simulated tests reach the main pytest process", "statement": "The main process sees the reports of each simulation in the order in which they were made, and each at most once if closing a connection does not fail (never more than eleven times); when the session has ended while a simulation was not in the middle of a report, it has seen every report of that simulation exactly once except those the simulation gave up; a report is given up only after eleven failing attempts; plugins never handle two reports at the same time; after the request to stop the receiving thread returns after finitely many steps.", "quantifier": "for all numbers of simulations and reports, and all interleavings of simulations, the receiving thread and the main thread, with arbitrary failures of connections and hooks", "why_tests_cant": "races between processes, threads and the end of the session are rarely met by tests, and failures of connections are not injected", "anchors": ["src/cocotb_tools/_pytest/_regression.py:749-767", "src/cocotb_tools/_pytest/_controller.py:77-89", "src/cocotb_tools/_pytest/_controller.py:224-242", "src/cocotb_tools/_pytest/_controller.py:355-388"]}
{"id": "C86", "title": "Asynchronous fixtures behave like ordinary fixtures", "statement": "Under pytest, when all fixtures are asynchronous, bodies return objects or raise ordinary exceptions without failing child tasks and a test whose setup fails leaves none of its fixtures behind (for example function scope), the bodies of fixtures and tests are called in the same order and with the same arguments, and the same setups fail with the same exceptions, as with ordinary fixtures; the cached result of a fixture follows pytest's protocol before and after its task is done.", "quantifier": "for all sessions: all lists of tests, all graphs of fixtures, scopes and outcomes", "why_tests_cant": "the deferred setups and the cache interact over several tests, scopes and failures; tests use a few fixtures that pass", "anchors": ["src/cocotb_tools/_pytest/_fixture.py:15-59", "src/cocotb_tools/_pytest/_regression.py:399-431", "src/cocotb_tools/_pytest/_regression.py:554-672", "src/cocotb/_test_manager.py:66-113"]}
{"id": "C87", "title": "Decorated tests are the same tests under pytest", "statement": "For a module whose test generators each have their own coroutine function with first parameter dut, one further parameter (without default) for each option name, options with at least one value, without Param objects and without groups of one name, the pytest plugin plans exactly the tests that cocotb's regression manager plans: same order, same arguments, same skip, expected failure, timeout and stage; with pytest-order the tests run in the order of their stages exactly if all stages have the same sign.", "quantifier": "for all modules: all functions, options, values, decorator flags, other fixtures and marks", "why_tests_cant": "the product of options and flags is unbounded and the two managers are never compared; tests of the plugin use a few parametrized tests of stage 0", "anchors": ["src/cocotb_tools/_pytest/_compat.py:24-127", "src/cocotb_tools/_pytest/plugin.py:670-700", "src/cocotb_tools/_pytest/_regression.py:310-322", "src/cocotb/_decorators.py:168-230", "src/cocotb/regression.py:246-282", "src/cocotb/regression.py:353-354"]}
{"id": "C88", "title": "current_task() names the Task whose code is running", "statement": "At every point of every execution of Tasks, done callbacks and the event loop: while the coroutine of Task t runs or is being closed, current_task() returns t or raises RuntimeError, never another Task; outside all Tasks it raises; in the done callbacks of a Task which has ended by itself it is that Task or none. It is exactly t as long as no _cancel_now is made inside a call of a running Task. Refuted without that condition: a Task which kills another whose done callback cancels Tasks at once (as the end of a test does) goes on running without a current Task, so Queue.put/get, TaskManager and per-Task random numbers raise RuntimeError; and in the done callbacks of a killed Task the current Task is the killer.", "quantifier": "all executions (lists of steps of any length: starts, cancels, kills, awaits, events, locks, simulator callbacks), all Tasks", "why_tests_cant": "the global variable is set and reset on entry and exit of a step of a Task; steps nest through kill, done callbacks and _cancel_now, and tests only use one level of nesting", "anchors": ["src/cocotb/task.py:324-453", "src/cocotb/task.py:718-729", "src/cocotb/_test_manager.py:150-152"]}
{"id": "C89", "title": "The results file tells the outcome of the regression", "statement": "For every regression (any tests, filters, shuffle, outcomes, exceptions, end of the simulator): a results document exists exactly when the regression has come to its end; get_results reads from it the number of selected tests and the number of failures the manager counted; with fewer than 256 failures check_results exits with 0 exactly if no test is recorded as failed, and then every selected test was marked skip or has a verdict other than failed; a runner under pytest passes exactly if there are no failures; the suites hold one test case for each recorded test, in order, with its name, module, kind of failure and (for failed tests) the regression seed, with which the test gets the same seed again; the document is valid XML text if file names are. Refuted: the reason of a skip, the message of an unexpected exception and a false exception object are not in the file.", "quantifier": "all regressions reachable in the model of the manager, all names, modules, details and exceptions, all relative directories and attachments", "why_tests_cant": "the way from the verdict of a test through five recording methods, the reporter, the file, its reader and the runner to an exit status crosses four modules; tests check single links with few tests", "anchors": ["src/cocotb/regression.py:455-478", "src/cocotb/regression.py:649-977", "src/cocotb/_xunit_reporter.py:112-233", "src/cocotb_tools/check_results.py:14-64", "src/cocotb_tools/runner.py:625-705"]}
{"id": "C90", "title": "Simulated times in the reports of the pytest manager", "statement": "Under pytest every logged report carries the simulated times of exactly its phase: from the hook of the phase to the end of its last asynchronous part. The reports of a session leave no gap and do not overlap, every asynchronous part runs within the report about its phase, and the durations add up to the simulated time of the session. sim_time_ratio is the ratio of wall time to simulated time in the reports of both managers.", "quantifier": "for all sessions: any hooks, asynchronous parts, exceptions, and any times at which the parts end and the timers fire", "why_tests_cant": "the times depend on how several asynchronous parts per phase, timers between them and exceptions interleave; tests check single reports", "anchors": ["src/cocotb_tools/_pytest/_regression.py:324-372", "src/cocotb_tools/_pytest/_regression.py:675-747", "src/cocotb/_utils.py:227-235", "src/cocotb/regression.py:837"]}
{"id": "C91", "title": "Starting and stopping a clock", "statement": "Clock.start() raises RuntimeError exactly when the clock was started and not stopped since, Clock.stop() exactly when it was not; the values written by one driver alternate from start_high; when simulated time passes each clock has at most one driver, the one last started, waiting for the timer of the value it wrote last; after stop() a driver of implementation 'py' never writes again, one of implementation 'gpi' never if its Task had entered the try block and is not killed.", "quantifier": "all executions of the scheduler with any number of clocks of both implementations, where any user code starts, stops, cancels, kills and awaits anything in any order", "why_tests_cant": "Whether a stopped clock still writes depends on the state of its Task (never run, scheduled, waiting, killed) when stop() is called and on all that other Tasks do afterwards; tests stop a clock which has run for a while.", "anchors": ["src/cocotb/clock.py:274-357", "src/cocotb/task.py:326-452", "src/cocotb/task.py:543-620", "src/cocotb/share/lib/pygpi/bind.cpp:851-939"]}
{"id": "C92", "title": "The two implementations of a clock agree", "statement": "For 0 < period_high_steps < period_steps < 2^64 the clock of the simulator interface writes the same values at the same times as the driver Task of implementation 'py', for every number of writes, so that the signal has the wanted value at every time; for times from 0 to 2^64 both refuse the same clocks.", "quantifier": "all periods, high times, starting values, starting times and numbers of writes", "why_tests_cant": "The equality is between two programs over all periods and unboundedly many edges; a test compares a few edges of a few clocks.", "anchors": ["src/cocotb/clock.py:301-342", "src/cocotb/share/lib/pygpi/bind.cpp:880-939", "src/cocotb/share/lib/pygpi/bind.cpp:992-1022"]}
{"id": "C93", "title": "Wave files are written where the runner says", "statement": "Under GHDL, NVC and DSim asking for waves adds exactly one argument, which names the file that Runner.test attaches to the results and opens in the viewer; under Verilator the program made from verilator.cpp writes that file exactly if waves were asked for, given a design built with waves in the default format and no other file name; under Icarus the dump module names the file in the build directory, which is the attached one if the test runs there. What cocotb reads from COCOTB_RESULTS_ATTACHMENTS is the list that the runner attached, if no path has a comma or surrounding blanks.", "quantifier": "all runners, machines, test arguments, plusargs, prefixes, suffixes, directories, top levels and build arguments; all argument lists of the Verilator program", "why_tests_cant": "The name of the file is computed in one method, passed to the simulator in another, chosen again in the C++ main program and in generated Verilog, and announced in an environment variable; a test sees one simulator with one directory.", "anchors": ["src/cocotb_tools/runner.py:597-610", "src/cocotb_tools/runner.py:925-951", "src/cocotb_tools/runner.py:1437-1438", "src/cocotb_tools/runner.py:1891-1892", "src/cocotb/share/lib/verilator/verilator.cpp:84-166"]}
{"id": "C94", "title": "Memory of the callbacks between the simulator and Python is used correctly", "statement": "If the simulator does not report, within a callback, a change for which a callback is queued or being handled already, and (except under Verilator) Python does not stop to wait for a trigger whose callback is queued, no freed callback object or Python callback is used or freed again and no callback is removed which the simulator no longer has; each callback is called once or deregistered once, never both; while functions wait for a trigger its callback is alive and registered; a call takes the functions of exactly that trigger; and if the simulator accepts all callbacks nothing is leaked. Without these conditions freed memory is used.", "quantifier": "all sequences of firings, nested firings, waits begun and given up, answers of the simulator to registrations and removals, and values of signals, of any length, for any number of triggers and callbacks, compiled for Verilator or not", "why_tests_cant": "The errors depend on the order of nested value changes, cancellations and removals inside one simulator callback, show up as memory corruption only with some simulators, and a test executes one such order.", "anchors": ["src/cocotb/share/lib/gpi/vpi/VpiCbHdl.cpp:40-232", "src/cocotb/share/lib/pygpi/bind.cpp:163-240", "src/cocotb/share/lib/pygpi/bind.cpp:798-809", "src/cocotb/_base_triggers.py:61-88", "src/cocotb/_gpi_triggers.py:40-54"]}
{"id": "C95", "title": "A test simulates the design which was built", "statement": "For the runners of Icarus, Questa (both), GHDL, NVC, Verilator, Xcelium, VCS and DSim: whatever the sources, arguments, plusargs, parameters and environment, the test commands look for the compiled design at the very place where the build commands of the same runner put it (file, library directory, snapshot), provided - for the runners which name the library relative to the working directory - that build and test run in the same directory, and - for Verilator, which names the executable after the top level - that both are given the same top level.", "quantifier": "all machines, all arguments of build() and test(), all working directories", "why_tests_cant": "The tests of the runner build and test in one directory with one top level; a mismatch only shows if the directories, working directory or top level differ, and each simulator needs its own licence.", "anchors": ["src/cocotb_tools/runner.py:426-471", "src/cocotb_tools/runner.py:538-550", "src/cocotb_tools/runner.py:1019-1041", "src/cocotb_tools/runner.py:1070-1189", "src/cocotb_tools/runner.py:1449-1530", "src/cocotb_tools/runner.py:1584-1636", "src/cocotb_tools/runner.py:1894-1998", "src/cocotb_tools/runner.py:2020-2173", "src/cocotb_tools/runner.py:2192-2335"]}
{"id": "C96", "title": "The libraries which the runner names are loaded and started", "statement": "GPI_EXTRA and GPI_USERS as the runners write them are read back by the C++ side exactly as meant: every further interface library is opened and its entry point called, in order and before Python; then libpython is opened and the entry of cocotb's own library is called, provided no path contains a separator (comma or semicolon). A library which fails to open, or lacks its entry point, stops the loading: nothing after it is opened or called, and the process ends (GPI_EXTRA) or the end of the simulation is requested (GPI_USERS). Every interface name is registered once, and the first one stays the first.", "quantifier": "all paths, all simulators with further interfaces, all values of GPI_USERS, all behaviours of the loader", "why_tests_cant": "A wrong separator or a dropped library needs a simulator with two interfaces and an installation path with unusual characters; failures of dlopen are not provoked by the tests at all.", "anchors": ["src/cocotb/share/lib/gpi/GpiCommon.cpp:70-90", "src/cocotb/share/lib/gpi/GpiCommon.cpp:142-275", "src/cocotb_tools/runner.py:276-303", "src/cocotb_tools/runner.py:1178-1189", "src/cocotb_tools/config.py:112-115"]}
{"id": "C97", "title": "The interface ends once and takes Python down in order", "statement": "Whatever the simulator and Python do, in whatever order: the end of the simulation is requested at most once, Python is finalised at most once and never before the end was requested, and whenever control is back with the simulator after such a request Python is finalised. If the simulation ends by itself, or a callback raises, the function set by cocotb is called, then the end is requested and Python finalised; if Python itself requests the end, the callback at the end calls nothing more. The object of the callback at the end is never used after it was freed, also when the end is requested from within that callback. As long as the simulator makes no callback within another one after the request and none into Python afterwards, Python is never entered after its end nor finalised while it runs.", "quantifier": "all executions: any number and order of callbacks, re-entrant callbacks, stops and raises", "why_tests_cant": "The order of shutdown depends on the simulator; use-after-free and re-entering a finalised interpreter usually pass silently in a test run, and premature ends combined with re-entrancy are hardly ever exercised.", "anchors": ["src/cocotb/share/lib/gpi/GpiCommon.cpp:92-140", "src/cocotb/share/lib/pygpi/embed.cpp:212-295", "src/cocotb/share/lib/gpi/vpi/VpiCbHdl.cpp:18-70", "src/cocotb/share/lib/gpi/vpi/VpiImpl.hpp:123-169", "src/cocotb/share/lib/gpi/vpi/VpiImpl.cpp:745-818", "src/cocotb/share/lib/pygpi/bind.cpp:163-196", "src/cocotb/share/lib/pygpi/bind.cpp:787-849", "src/cocotb/share/lib/gpi/gpi_priv.hpp:284-292"]}
{"id": "C98", "title": "Handles of the interface are kept once per full name, and freed once", "statement": "Whatever sequence of look-ups (root, by name, by index, iteration) is made, the store of handles has at most one handle per full name, this handle is alive and has the name under which it is stored, and a later look-up of the same full name by the normal way returns the same handle and frees the duplicate. No handle is used after it was freed as long as the callers only use handles obtained since the last clearing and iterators which did not end; without native look-ups every living handle is in the store, so that clearing at the end leaves none. A child is searched in the implementation of its parent first, then in the others in the order of registration. Iterating to the end gives a handle for every item some implementation can name, in order.", "quantifier": "all numbers and orders of implementations, all answers of the simulator, all sequences of operations (roots, names, indexes, native look-ups, iterators, clearings)", "why_tests_cant": "Tests run with one simulator and one implementation; the search over several implementations, duplicates with the same name, and the freeing of duplicates are memory matters no test observes.", "anchors": ["src/cocotb/share/lib/gpi/GpiCommon.cpp:26-66", "src/cocotb/share/lib/gpi/GpiCommon.cpp:335-562", "src/cocotb/share/lib/pygpi/bind.cpp:440-471", "src/cocotb/share/lib/pygpi/bind.cpp:580-641"]}
{"id": "C99", "title": "Phases of simulations made with Verilator come in order and nothing is passed over", "statement": "The main loop which cocotb links to designs made with Verilator calls, in every run which ends, exactly: the start callbacks, then time steps, each of rounds of evaluations until none is needed and the ReadWrite callbacks, followed by one end of step, one ReadOnly phase and one dump, then once the NextTimeStep callbacks and the timers of the next time; and at the end once the end-of-simulation callbacks. At any moment of any run, ReadWrite callbacks are called only when the value callbacks have settled and no evaluation is needed, ReadOnly callbacks only when everything written is evaluated; time moves only from the ReadOnly phase to the NextTimeStep callbacks and to the earliest event of design and testbench; if no event is in the past time never goes back, and if every event is later there is one ReadOnly phase per time. The simulation ends only if it was asked to or if no event is left, and the exit status tells whether an error was counted.", "quantifier": "all designs and all behaviours of the Verilator library (arbitrary state changes, answers and deadlines), all numbers of steps, with and without dumps, also runs which never end", "why_tests_cant": "Tests see single schedules of a single design; the order of phases for all designs, loops which iterate any number of times and the end conditions are not observable by them.", "anchors": ["src/cocotb/share/lib/verilator/verilator.cpp:49-82", "src/cocotb/share/lib/verilator/verilator.cpp:169-249"]}
{"id": "C100", "title": "Objects found through the VPI are the ones asked for, with their own names and ranges", "statement": "A child found through the VPI carries the name by which it was asked for behind the full name of its parent. The text of an index always fits its buffer and different indexes give different names, so elements of an array are never confused in the store of handles. In simulators which want all indexes of an array at once, an array of any number of dimensions can be indexed step by step: after fewer indexes than dimensions the handle has the range of the next dimension, after all indexes it is the element the simulator has under the complete name, and an index outside of its range gives nothing. The label of a generate loop gives its pseudo-region whether or not the simulator has an object for the loop; its indexes give the blocks, and nothing where there is none. Discovery by iteration gives objects with the same type, names and range as access by name or index.", "quantifier": "all simulators (arbitrary answers of the VPI), all designs, all numbers of dimensions, all ranges in both directions, all lists of 32-bit indexes, all names without brackets", "why_tests_cant": "Tests run against a few simulators and small arrays; the agreement of the two ways of access, the texts of all indexes, the numbers of dimensions and the answers of other simulators are unbounded.", "anchors": ["src/cocotb/share/lib/gpi/vpi/VpiImpl.cpp:182-332", "src/cocotb/share/lib/gpi/vpi/VpiImpl.cpp:361-600", "src/cocotb/share/lib/gpi/vpi/VpiImpl.cpp:762-772", "src/cocotb/share/lib/gpi/vpi/VpiObj.cpp:12-91", "src/cocotb/share/lib/gpi/vpi/VpiSignal.cpp:16-100", "src/cocotb/share/lib/gpi/vpi/VpiIterator.cpp:263-413"]}
{"id": "C101", "title": "Elements of VHDL arrays found through the VHPI are the ones which the language means", "statement": "The flat index which the interface computes from the indexes of all dimensions of a VHDL array is the place of the element in the row-major order of the language, for any directions and bounds; different indexes give different flat indexes and the intermediate values never exceed the number of elements. An array of any number of dimensions can be indexed step by step: after fewer indexes than dimensions the handle has the range of the next dimension and carries the indexes in its names, after one index for each dimension it is the element of the array with these indexes. In an array of one dimension the element at an index is the one at its place in the range, and an index outside of the range gives nothing.", "quantifier": "all simulators (arbitrary answers of the VHPI), all arrays with any number of dimensions, all ranges in both directions, all lists of 32-bit indexes", "why_tests_cant": "Tests use arrays of two or three dimensions with a few ranges in the simulators at hand; ranges, directions and numbers of dimensions are unbounded.", "anchors": ["src/cocotb/share/lib/gpi/vhpi/VhpiImpl.cpp:287-506", "src/cocotb/share/lib/gpi/vhpi/VhpiImpl.cpp:626-882", "src/cocotb/share/lib/gpi/vhpi/VhpiObj.cpp:10-199", "src/cocotb/share/lib/gpi/vhpi/VhpiSignal.cpp:54-185"]}
{"id": "C102", "title": "Values reach the objects of the simulator and come back unchanged", "statement": "A value assigned from Python to an object reaches the simulator as the value which the object's type has for it: through the VHPI and the FLI each element of a logic array as the position of its literal in the enumeration, in the order of the range; through the VPI as a text or number with the same bits; integers, enumerations, reals and strings as the same number or text, padded with NUL to the length of the object and never beyond it. The action (deposit, force, release, no delay) selects the corresponding mode of the interface. What a simulator keeps is read back as the same value. The kind of the handle of an enumerated type is given by its literals.", "quantifier": "all accepted Python values, all lengths, all actions, all three interfaces (VPI, VHPI, FLI), all enumerations with distinct literals", "why_tests_cant": "Tests write a few values of short signals in the simulators at hand, mostly through one interface; values, lengths, actions and types are unbounded, and the FLI needs a commercial simulator.", "anchors": ["src/cocotb/share/lib/gpi/vpi/VpiSignal.cpp:102-233", "src/cocotb/share/lib/gpi/vhpi/VhpiSignal.cpp:35-564", "src/cocotb/share/lib/gpi/vhpi/VhpiImpl.cpp:161-272", "src/cocotb/share/lib/gpi/fli/FliObjHdl.cpp:96-769", "src/cocotb/share/lib/gpi/GpiCommon.cpp:574-647", "src/cocotb/share/lib/pygpi/bind.cpp:476-564"]}
{"id": "C103", "title": "VHDL objects discovered and found by name are the same", "statement": "An object of a VHDL design found by its name has this name behind the full name of its parent. Discovery goes through every object of every relation of the parent, each once and in the order of the relations, without statements, and in the pseudo-region of a generate loop through the blocks of this loop only; then it ends. What is discovered is what is found by name or index: signals and instances by their names, members of records by the last part of their names, all blocks of a generate loop as one pseudo-region, which is also what its label finds, and the blocks as the elements of the pseudo-region. Nothing is found, and nothing released, for a name which nothing has. The handle of the parent stays in use. The top of the design is found by the name of its root or of its entity, and has the name which was asked for.", "quantifier": "all designs and simulators (arbitrary answers of the VHPI), all names and labels, both separators of indexes, with and without case-insensitive names", "why_tests_cant": "Tests look for some names of small designs with the simulators at hand; the lists of objects are unbounded and several simulators with their own branches are commercial.", "anchors": ["src/cocotb/share/lib/gpi/vhpi/VhpiImpl.cpp:274-285", "src/cocotb/share/lib/gpi/vhpi/VhpiImpl.cpp:414-448", "src/cocotb/share/lib/gpi/vhpi/VhpiImpl.cpp:508-655", "src/cocotb/share/lib/gpi/vhpi/VhpiImpl.cpp:884-982", "src/cocotb/share/lib/gpi/vhpi/VhpiImpl.cpp:1077-1083", "src/cocotb/share/lib/gpi/vhpi/VhpiIterator.cpp:13-300"]}
{"id": "C104", "title": "Objects of VHDL designs through the FLI: names, types, indexes, loops and discovery agree", "statement": "Through the FLI, an object found by name or index carries the full name made of that of its parent; its type is that of the declaration in VHDL and arrays have the range of their type; an index gives the element which is as far from the left as the index is from the left bound, every element by exactly one index, and nothing outside the range; a generate loop is found by its label whatever the simulator makes of the label and its blocks by their indexes; discovery goes through all constants, signals, regions, fields, elements or blocks of an object exactly once and in order, and the objects which it makes are those which the search by name or index makes.", "quantifier": "all answers of the simulator, all designs, names, indexes, ranges and parents", "why_tests_cant": "the FLI exists in one commercial simulator only, and tests go through few of the combinations of types, kinds of parents and answers of the simulator; what must hold of names and indexes is quantified over all of them", "anchors": ["src/cocotb/share/lib/gpi/fli/FliImpl.cpp:29-443", "src/cocotb/share/lib/gpi/fli/FliImpl.cpp:549-593", "src/cocotb/share/lib/gpi/fli/FliImpl.cpp:676-1103", "src/cocotb/share/lib/gpi/fli/FliObjHdl.cpp:42-183"]}
{"id": "C105", "title": "Discovery of Verilog designs through the VPI: types, children, roots and packages", "statement": "Every type of object of the VPI gives the one kind of object of the interface which it stands for, and logic is an array exactly if the simulator calls it a vector or it has more than one bit; the iterator over the children of an object goes through every object of every relation of its type exactly once, in order, and then ends; what it makes of an object is what the look-up by name or index makes; all blocks of a generate loop give the one pseudo-region with its label, which contains exactly its blocks; objects of other languages are handed on; the root looked for is the first of the listed roots with the name, and without a name the first with a plain one; packages are listed with a full name which ends with two colons exactly once.", "quantifier": "all answers of the simulator: types, names, relations and lists of objects; all parents, names, labels and indexes", "why_tests_cant": "tests see the few simulators at hand and small designs; the loop over relations, scanned objects and skipped ones, and objects without names, differ with each simulator and are quantified over", "anchors": ["src/cocotb/share/lib/gpi/vpi/VpiIterator.cpp:14-413", "src/cocotb/share/lib/gpi/vpi/VpiImpl.cpp:81-335", "src/cocotb/share/lib/gpi/vpi/VpiImpl.cpp:602-684", "src/cocotb/share/lib/gpi/vpi/VpiImpl.hpp:237-300"]}
{"id": "C106", "title": "Callbacks of the FLI share objects and processes only one after the other", "statement": "A function registered with the FLI is called only while its registration has been neither called nor removed, so at most once, and when the simulator runs the process of a waiting registration (for signals: with the value of the edge) its function is called; a registration gets an object which nobody holds, for which nothing is scheduled and whose function is not running, and what it asked for is what is scheduled; a process is made only if every process of that kind is in use; no object is lost or twice in a free list; a nonzero result of the function asks for the end of the simulation", "quantifier": "all sequences of registrations and removals of any kind, also from within functions being called, of runs of processes by the simulator and of values of signals", "why_tests_cant": "use and reuse of objects depend on the order of registrations, removals and events; a wrong reuse shows only as a callback which never comes or comes to another, in a simulator which is not freely available", "anchors": ["src/cocotb/share/lib/gpi/fli/FliCbHdl.cpp:13-166", "src/cocotb/share/lib/gpi/fli/FliImpl.hpp:35-162", "src/cocotb/share/lib/gpi/fli/FliImpl.cpp:595-652", "src/cocotb/share/lib/gpi/fli/FliObjHdl.cpp:20-39"]}
{"id": "C107", "title": "Every message of the C++ code reaches the log once, whole, through the logger in charge", "statement": "A message logged by the C++ code is put together whole whatever its length and printed by the native logger exactly if its level is not below the one set; until Python is configured and after it is finalised this is all that happens, so the line looks as the formatter of Python would make it. Once configured, Python is given every message whose level is not below the one set, with its own text, level, file, line and function, whatever other messages are logged while it does so; if Python cannot take the text it is printed natively with a complaint. The library neither recurses without end nor calls a null handler if initialised once. The level accepted from GPI_LOG_LEVEL by the C++ code is the one Python sets later, and filtering in the C++ code never drops a message to gpi which Python would record.", "quantifier": "all messages, lengths, levels, file and function names, all sequences of logging, initialisation, configuration, level changes and finalisation, all failures of Python and nested messages", "why_tests_cant": "The tests log short ASCII texts with known loggers; neither failing getLogger or log functions, nested messages, texts with per cent signs or invalid UTF-8, nor a second initialisation occur in them.", "anchors": ["src/cocotb/share/lib/gpi/logging.cpp:23-152", "src/cocotb/share/lib/pygpi/logging.cpp:17-224", "src/cocotb/share/lib/gpi/GpiCommon.cpp:283-311", "src/cocotb/logging.py:180-195"]}
{"id": "C108", "title": "Simulation time, precision, name and arguments of the simulator pass through the interfaces unchanged", "statement": "The time which get_sim_time gives in steps is that of the simulator for all 64 bits, on each interface, also where the interface tells it in signed words; a timer is registered exactly if its time is from 0 to 2^63-1 steps, and the simulator is asked for exactly that time, so that a Timer waits for the steps computed for it. The precision Python knows is the exponent of the simulator's steps, from a femtosecond to 100 seconds, and always within these limits. Name and version are the parts of what the simulator says, and the arguments are the simulator's, in order.", "quantifier": "all interfaces, all 64 bit times, all Python ints, all answers of the simulator, all texts and argument lists", "why_tests_cant": "Tests run at short times with one simulator and a precision of a few powers of ten; times beyond 32 bits, other precisions and wrong answers of a simulator are not reached.", "anchors": ["src/cocotb/share/lib/gpi/GpiCommon.cpp:312-333", "src/cocotb/share/lib/gpi/vhpi/VhpiImpl.cpp:71-143", "src/cocotb/share/lib/gpi/vpi/VpiImpl.cpp:37-79", "src/cocotb/share/lib/gpi/fli/FliImpl.cpp:445-535", "src/cocotb/share/lib/pygpi/bind.cpp:328-383", "src/cocotb/share/lib/pygpi/bind.cpp:677-767"]}
{"id": "C109", "title": "The interpreter asked for is started, once, and the library waits for a debugger as long as asked", "statement": "The path in PYGPI_PYTHON_BIN is taken whole exactly if it and its end fit the array, refused otherwise and never cut; copying it never writes beyond the array. The functions of the library are registered exactly if initialize is called for the first time, the path is taken and Python starts; a different sys.executable or a wrong COCOTB_ATTACH are only reported. However often initialize is called it registers at most once. COCOTB_ATTACH with a decimal number of seconds from 1 to 2^32-2 makes it wait exactly as long, and it never waits for a number which does not fit.", "quantifier": "all paths and lengths, all decodings, all outcomes of the calls of Python, all values of the variables and of errno, any number of calls", "why_tests_cant": "The tests start one interpreter with a short path and without COCOTB_ATTACH; failures of Python at this point end the test run.", "anchors": ["src/cocotb/share/lib/pygpi/embed.cpp:37-71", "src/cocotb/share/lib/pygpi/embed.cpp:89-206"]}
{"id": "C110", "title": "Memory of the callbacks of the VHPI is used correctly", "statement": "As long as Python deregisters only callbacks which it was given and which were neither called nor deregistered, and the simulator does not make a callback within itself, makes those for the start and the end of the simulation once and keeps those for changes of values registered, no freed callback object or Python callback is used or freed again, also when callbacks are nested, removals are refused, or the simulation ends by itself; each callback is called once or deregistered once, never both; a callback held by Python is alive and registered; an edge calls its function exactly for the value of the edge; a callback whose removal was refused calls nobody; and if the simulator accepts everything nothing is leaked.", "quantifier": "all executions: any number and order of registrations, removals, firings (nested to any depth), returned results, refusals and values of signals, for all kinds of callbacks", "why_tests_cant": "Use after free depends on the order of nested callbacks and refused removals inside the simulator, and mostly passes unnoticed; the code for refused removals is excluded from coverage because no test simulator refuses.", "anchors": ["src/cocotb/share/lib/gpi/vhpi/VhpiCbHdl.cpp:13-207", "src/cocotb/share/lib/gpi/vhpi/VhpiImpl.hpp:83-172", "src/cocotb/share/lib/gpi/vhpi/VhpiImpl.cpp:51-66", "src/cocotb/share/lib/gpi/vhpi/VhpiImpl.cpp:1005-1130", "src/cocotb/share/lib/gpi/vhpi/VhpiSignal.cpp:544-556", "src/cocotb/share/lib/pygpi/bind.cpp:163-196", "src/cocotb/share/lib/pygpi/bind.cpp:798-809"]}
{"id": "C111", "title": "The module of the simulator checks what it is given", "statement": "Two handles in Python are equal exactly when they have the same type and pointer, whatever other types answer, equal ones have equal hashes, and handles are not ordered. Each of the five functions which register a callback, given the documented arguments, asks the interface for exactly that callback with exactly that function and its arguments, and returns its handle or None; given anything else it raises and then nothing was made or registered. After a callback was called no exception is pending and its PythonCallback is freed; SystemExit is not printed. Only the first function given for the end of the simulation counts.", "quantifier": "all objects, pointers, argument lists, answers of the interface and sequences of calls", "why_tests_cant": "Argument lists, pointers and the comparisons of foreign types are unbounded; the tests call the functions with a handful of wrong arguments and never with a wrong edge.", "anchors": ["src/cocotb/share/lib/pygpi/bind.cpp:28-117", "src/cocotb/share/lib/pygpi/bind.cpp:163-441", "src/cocotb/share/lib/pygpi/bind.cpp:578-635", "src/cocotb/share/lib/pygpi/bind.cpp:834-849"]}
{"id": "C112", "title": "Life of the interface through the FLI", "statement": "Through the FLI, in every execution, the simulator is told to end at most once - to quit before time has advanced, to stop afterwards -, Python is finalised at most once and only then, before the simulator goes on; the function for the end of the simulation is called at most once; the object of the startup callback is freed once; after the end was requested the callback for quitting is not registered; and unless that callback is made, its object is never used after it was freed.", "quantifier": "all executions: any order of callbacks, requests, results and exceptions", "why_tests_cant": "The order of callbacks belongs to a commercial simulator which the tests of the project run only to the ordinary end of a test run.", "anchors": ["src/cocotb/share/lib/gpi/fli/FliImpl.cpp:20-27", "src/cocotb/share/lib/gpi/fli/FliImpl.cpp:1108-1168", "src/cocotb/share/lib/gpi/fli/FliCbHdl.cpp:13-39", "src/cocotb/share/lib/gpi/fli/FliCbHdl.cpp:168-202", "src/cocotb/share/lib/gpi/GpiCommon.cpp:95-138"]}
{"id": "C113", "title": "Types of objects between C++ and Python", "statement": "Through the numbers and the constants of the module every type of object of the interface has the Python class of its own entry in the dictionary of classes: no two types share a number, no entry replaces another and no constant is missing; exactly memories, unknown objects and numbers which are no type have no class. The constants for edges which the triggers pass mean what they say for every value. The text of a type in the message is the name in the enum and tells the types apart.", "quantifier": "all types, all numbers, all values of a signal", "why_tests_cant": "The numbers are all integers and the tables are in three files of two languages; a test sees only the types which its simulator reports.", "anchors": ["src/cocotb/share/include/gpi.h:196-222", "src/cocotb/share/lib/pygpi/bind.cpp:1030-1066", "src/cocotb/share/lib/gpi/GpiCbHdl.cpp:16-45", "src/cocotb/handle.py:1816-1862"]}
{"id": "C114", "title": "Tracebacks, stacks and texts of Tasks", "statement": "However exceptions pass through Tasks and captured calls and whatever users do with them between, the removal of the frames of the library never fails, takes exactly those frames and changes no other exception; the traceback is the path by which the exception came to where it is caught. The stack of a Task has the frames of its coroutines down to the first awaited object which is no coroutine, and its text names the state, the innermost coroutine, and the trigger or outcome between angle brackets.", "quantifier": "all histories of exceptions, all chains of awaited objects, all states of a Task", "why_tests_cant": "Histories of exceptions and depths of coroutines are unbounded; one exception may pass through many Tasks.", "anchors": ["src/cocotb/_utils.py:49-135", "src/cocotb/task.py:209-268", "src/cocotb/task.py:345-446", "src/cocotb/_outcomes.py:24-30"]}
{"id": "C115", "title": "Versions from the output of a simulator", "statement": "The version read from what a simulator prints is the second word of the first line, if its first word is the simulator's name (NVC, Verilator), or the two numbers after the fixed words (Icarus); any other output is refused, never read as another version. NVC is told to preserve the case of names exactly if its version is after 1.16.", "quantifier": "all outputs, all versions", "why_tests_cant": "Outputs of future releases are not known to the tests.", "anchors": ["src/cocotb_tools/sim_versions.py:60-70", "src/cocotb_tools/sim_versions.py:130-151", "src/cocotb_tools/sim_versions.py:177-182", "src/cocotb_tools/runner.py:1548-1558"]}
{"id": "C116", "title": "Collecting coverage of Python code", "statement": "Coverage of the user's code is collected exactly if COCOTB_USER_COVERAGE says so, or COVERAGE, with a warning, if that is not set; by the file named in COVERAGE_RCFILE or else without the packages of cocotb. Coverage of the library is collected exactly if COCOTB_LIBRARY_COVERAGE says so. Asking without the package coverage is an error. What was started is stopped and saved once at the end.", "quantifier": "all values of the variables, all other functions registered for the end", "why_tests_cant": "Values of variables and registered functions are unbounded.", "anchors": ["src/cocotb/_init.py:113-166", "src/cocotb_tools/_coverage.py:9-36", "src/cocotb/_shutdown.py"]}

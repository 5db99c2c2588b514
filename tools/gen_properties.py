#!/usr/bin/env python3
"""Writes ../properties.jsonl (one JSON object per line). Edit the table below and re-run."""
import json, os
P = []
def p(id, title, statement, quantifier, why, anchors):
    P.append(dict(id=id, title=title, statement=statement, quantifier=quantifier,
                  why_tests_cant=why, anchors=anchors))
A="mulib/mu_array.c"; Q="mulib/mu_queue.c"; M="mulib/mu_mqueue.c"; S="mulib/mu_spsc.c"
B="mulib/mu_bisync.c"; BB="mulib/mu_bbuf.c"; BV="mulib/mu_bvec.c"; T="mulib/mu_task.c"
SC="mulib/mu_sched.c"; J="mulib/mu_jems.c"; L="mulib/mu_log.c"

p("C01","mu_array is a bounded sequence",
  "After mu_array_init over a storage area of `capacity` slots, any sequence of push/pop/peek/ref/insert/delete/index/rindex/sort/insert_sorted/reset/count/capacity/is_empty/is_full calls returns exactly the values that the same calls would return on a mathematical list bounded by `capacity`; a call that returns false changes nothing and leaves the out-parameter unwritten; no call touches memory outside the storage.",
  "all storage areas, capacities, item values, and all finite call sequences (of any length)",
  "The number of call histories is unbounded; a test samples a few short ones.",
  [A+":mu_array_init..mu_array_insert_sorted","mulib/mu_array.h"])
p("C02","mu_array_delete removes one element",
  "mu_array_delete(a,&x,i) with i < count returns the item at i, moves all higher-indexed items down by one, reduces mu_array_count by one, and stays inside the storage.",
  "all array states and all indices",
  "Only a per-state argument covers every (count, capacity, index) triple, including the full array.",
  [A+":mu_array_delete","mulib/mu_array.h:mu_array_delete"])
p("C03","mu_array_sort sorts in place",
  "mu_array_sort terminates and leaves the first `count` slots a permutation of what they held, in non-decreasing order for the caller's comparison function; slots at and above `count`, the count and the capacity are unchanged.",
  "all arrays with at most 2^30 items and all comparison functions that are total preorders",
  "Correctness of heapsort is a statement about every permutation of every length.",
  [A+":mu_array_sort",A+":heapify",A+":sift_down",A+":swap"])
p("C04","mu_array_sort is safe for tiny arrays on every platform",
  "mu_array_sort on an array of 0 or 1 items is a no-op: no undefined behaviour, nothing changed, for 32-bit and for 64-bit size_t.",
  "all platforms (size_t width), all arrays with count 0 or 1, all comparison functions",
  "The result depends on the width of size_t; unit tests run on one host width only.",
  [A+":heapify",A+":mu_array_sort"])
p("C05","mu_array_insert_sorted keeps the array sorted",
  "If the array is sorted and not full, mu_array_insert_sorted inserts the item after every item that does not exceed it and before every item greater than it, so the array stays sorted and insertion is stable; if the array is full it returns false and changes nothing.",
  "all sorted arrays, all items, all total-preorder comparison functions",
  "Binary search boundary errors show up only for particular lengths and key positions.",
  [A+":mu_array_insert_sorted",A+":find_insertion_index"])
p("C06","mu_array_index / mu_array_rindex return first / last occurrence",
  "mu_array_index returns the least index below count whose slot equals the item, mu_array_rindex the greatest, and both return MU_ARRAY_NOT_FOUND exactly when no slot below count equals the item (also for the empty array, where the reverse loop starts at SIZE_MAX).",
  "all arrays and all items",
  "Universally quantified over array contents; the empty case relies on unsigned wrap-around.",
  [A+":mu_array_index",A+":mu_array_rindex"])
p("C07","mu_array sort / insert_sorted stay in bounds for any comparison function",
  "Even when the comparison function is inconsistent (not an ordering), mu_array_sort and mu_array_insert_sorted terminate, never access a slot at or above the count (respectively the capacity) and only permute (respectively insert one item into) the array.",
  "all arrays, all functions from pairs of items to int",
  "No test can enumerate all inconsistent comparison functions.",
  [A+":mu_array_sort",A+":mu_array_insert_sorted"])
p("C08","mu_queue is a bounded FIFO",
  "After mu_queue_init over `capacity` slots, any sequence of put/get/peek/reset/count/capacity/is_empty/is_full calls returns exactly what a mathematical FIFO of that capacity returns: put succeeds iff fewer than capacity items are queued, get and peek return the oldest item, peek removes nothing, a failing get or peek stores NULL, and no call divides by zero or touches memory outside the storage (capacity 0 included).",
  "all capacities, storage contents, items and finite call sequences",
  "Ring-buffer wrap-around interacts with arbitrary interleavings of put and get of any length.",
  [Q+":mu_queue_put",Q+":access_queue"])
p("C09","mu_queue loses, duplicates and reorders nothing",
  "In any call history without reset, the items returned by successful gets, in order, followed by the items still queued, are exactly the items of the successful puts, in order.",
  "all finite call histories",
  "Conservation over arbitrarily long histories cannot be tested exhaustively.",
  [Q+":mu_queue_put",Q+":mu_queue_get"])
p("C10","mu_mqueue is a bounded FIFO that notifies exactly once",
  "mu_mqueue behaves as the bounded FIFO of C08 and in addition invokes the on_put task exactly once after each successful put and the on_get task exactly once after each successful get, with the queue already updated, and never for failed calls, peeks, or NULL tasks.",
  "all capacities, task bindings (including NULL) and finite call sequences",
  "Quantifies over all histories and over what the notified task can observe.",
  [M+":mu_mqueue_put",M+":access_queue"])
p("C11","mu_mqueue tolerates re-entrant notification tasks",
  "If the on_put/on_get tasks themselves call mu_mqueue functions on the same queue (to any depth), the sequence of completed queue updates is still a legal FIFO history and every call's result agrees with it.",
  "all adaptive callback behaviours, all nesting depths, all call sequences",
  "The space of re-entrant call trees is infinite.",
  [M+":mu_mqueue_put",M+":access_queue",T+":mu_task_call"])
p("C12","mu_spsc_init accepts exactly the powers of two",
  "mu_spsc_init returns MU_SPSC_ERR_NONE iff store_size is a power of two that is at least 2 (within uint16_t), then mu_spsc_capacity is store_size-1 and the queue is empty; otherwise it returns MU_SPSC_ERR_SIZE and leaves the queue object untouched.",
  "all 65536 values of store_size",
  "The bit trick must hold for every uint16_t value and be tied to the mathematical notion.",
  [S+":mu_spsc_init",S+":IS_POWER_OF_TWO",S+":mu_spsc_capacity"])
p("C13","mu_spsc is a bounded FIFO when used sequentially",
  "Any sequence of put/get/reset calls returns what a mathematical FIFO of capacity store_size-1 returns: put reports FULL iff store_size-1 items are queued, get reports EMPTY (and stores NULL) iff none are.",
  "all legal store sizes, items and finite call sequences",
  "Unbounded histories with wrap-around through the mask.",
  [S+":mu_spsc_put",S+":mu_spsc_get"])
p("C14","mu_spsc is linearizable for one producer and one consumer",
  "With one producer calling put and one consumer calling get, under every interleaving of their individual shared-memory accesses, each call takes effect atomically at one of its own accesses, in an order that is a legal history of the bounded FIFO: items come out in order, none lost, duplicated or invented; FULL and EMPTY are reported only when true at that point.",
  "all interleavings (schedules) of any length, all items, all legal sizes",
  "Interleavings are scheduler-dependent and unbounded.",
  [S+":mu_spsc_put",S+":mu_spsc_get"])
p("C15","mu_spsc producer and consumer never touch the same slot at once",
  "Under every interleaving, when the producer is about to write a storage slot and the consumer is about to read one, the slots differ; and a slot between the consumer's emptiness check and its head update is never overwritten.",
  "all interleavings and reachable states",
  "A data race is a property of schedules, not of inputs.",
  [S+":mu_spsc_put",S+":mu_spsc_get"])
p("C16","mu_bisync_encode produces exactly the documented frame",
  "mu_bisync_encode writes SOH, then the source with each SOH/EOT/DLE preceded by one DLE, then EOT, and returns the number of bytes written, iff that many bytes fit in encoded_capacity; otherwise it returns MU_BISYNC_ERR_OFLOW. In both cases bytes at or above encoded_capacity (and above the returned length on success) are untouched.",
  "all byte sequences (up to INT_MAX encoded bytes) and all capacities",
  "All contents and all capacity/length boundary combinations.",
  [B+":mu_bisync_encode",B+":buffer_put"])
p("C17","bisync frames are self-delimiting and injective",
  "Different source sequences have different frames, no frame is a proper prefix of another, and a stream of concatenated frames splits into the original sources in only one way.",
  "all source byte sequences and all finite streams of frames",
  "Injectivity is a statement about pairs of inputs.",
  [B+":mu_bisync_encode","mulib/mu_bisync.h"])
p("C18","bisync round trip",
  "mu_bisync_decode applied to the output of mu_bisync_encode returns the original source bytes and their number.",
  "all byte sequences and sufficient capacities",
  "Quantifies over all payloads, including those made of control bytes.",
  [B+":mu_bisync_encode",B+":mu_bisync_decode"])
p("C19","mu_bisync_decode rejects malformed input",
  "mu_bisync_decode returns MU_BISYNC_ERR_FORMAT unless its input starts with SOH and contains a terminating (unescaped) EOT; trailing bytes after the terminator are ignored.",
  "all byte sequences",
  "The set of malformed inputs is infinite.",
  [B+":mu_bisync_decode"])
p("C20","mu_bisync_decode never overruns its buffers",
  "mu_bisync_decode never reads beyond encoded_len, never writes at or above dst_capacity, and on success returns the number of bytes written, all bytes above it being untouched.",
  "all inputs, lengths and capacities",
  "Memory safety for all inputs.",
  [B+":mu_bisync_decode",B+":buffer_put"])
p("C21","mu_bbuf_compare is lexicographic order",
  "The sign of mu_bbuf_compare (and _cstr) is that of unsigned-byte lexicographic comparison with a proper prefix smaller; it is therefore a total order (reflexive, antisymmetric, transitive, total) and mu_bbuf_matches is true exactly for equal contents.",
  "all pairs and triples of buffers of at most INT_MAX bytes",
  "Order axioms quantify over triples of arbitrary buffers.",
  [BB+":str_compare_aux",BB+":mu_bbuf_compare",BB+":mu_bbuf_matches"])
p("C22","mu_bbuf prefix and suffix tests are exact",
  "mu_bbuf_has_prefix(b1,b2) is true iff b1 = b2 ++ rest for some rest; mu_bbuf_has_suffix(b1,b2) iff b1 = rest ++ b2; same for the _cstr forms; neither reads outside the two buffers.",
  "all pairs of buffers of at most INT_MAX bytes",
  "All contents and lengths.",
  [BB+":has_prefix",BB+":has_suffix"])
p("C23","mu_bbuf substring search finds the first / last occurrence",
  "mu_bbuf_find_substr returns the least (rfind: greatest) index at which the substring occurs, plus its length when skip_substr, and MU_BBUF_NOT_FOUND iff it does not occur; the empty substring is found at 0 (rfind: at capacity).",
  "all haystacks and needles of at most INT_MAX bytes, both skip flags",
  "Overlapping near-matches of any length.",
  [BB+":mu_bbuf_find_aux",BB+":mu_bbuf_rfind_aux"])
p("C24","mu_bbuf byte and predicate searches are exact",
  "mu_bbuf_find_byte/rfind_byte return the least/greatest index holding the byte; mu_bbuf_find_predicate/rfind_predicate return the least/greatest index whose byte fails the predicate; MU_BBUF_NOT_FOUND iff there is none.",
  "all buffers of at most INT_MAX bytes, all bytes and predicates",
  "Quantifies over all predicates and contents.",
  [BB+":mu_bbuf_find_byte",BB+":mu_bbuf_rfind_byte",BB+":mu_bbuf_find_predicate",BB+":mu_bbuf_rfind_predicate"])
p("C25","mu_bbuf_slice yields a sub-range of its source",
  "mu_bbuf_slice(dst,src,start,end) always yields a buffer lying inside src: the bytes from start to end (exclusive), where a negative index counts from the end, indices beyond the end are limited to it and an empty range results when end precedes start.",
  "all buffers of at most INT_MAX bytes and all pairs of int indices",
  "2^64 index pairs per buffer; the property is containment for all of them.",
  [BB+":mu_bbuf_slice"])
p("C26","mu_bbuf_bisect partitions its source",
  "mu_bbuf_bisect(left,right,src,index) yields left and right with left ++ right = src, split at index (negative counts from the end, large values limited to the end), also when left or right is src itself or NULL.",
  "all buffers of at most INT_MAX bytes, all int indices, all aliasing patterns of the three structs",
  "Index space and aliasing patterns.",
  [BB+":mu_bbuf_bisect"])
p("C27","mu_bbuf_ltrim / rtrim / trim remove exactly the matching ends",
  "ltrim removes the longest prefix of bytes satisfying the predicate, rtrim the longest such suffix, trim both; dst may be src.",
  "all buffers of at most INT_MAX bytes and all predicates",
  "All contents and predicates, including all-matching and none-matching.",
  [BB+":mu_bbuf_ltrim",BB+":mu_bbuf_rtrim",BB+":mu_bbuf_trim"])
p("C28","unsigned decimal parsing is exact modulo the type width",
  "mu_bbuf_parse_uint8/16/32/64 and parse_unsigned_int return the value of the longest prefix of decimal digits, reduced modulo 2^width; 0 when there is none.",
  "all buffers (any number of digits) and all five unsigned types",
  "Digit strings of any length; overflow wrap-around.",
  [BB+":DEFINE_UINT_PARSER",BB+":is_decimal"])
p("C29","signed decimal parsing is exact, with overflow truncated to the type",
  "mu_bbuf_parse_int/int8/16/32/64 parse an optional '-' and the following digits and return the value, truncated to the type if it does not fit.",
  "all buffers and all five signed types",
  "Signed overflow is undefined behaviour: a test observing one compiler's result settles nothing.",
  [BB+":DEFINE_INT_PARSER","mulib/mu_bbuf.h:mu_bbuf_parse_int"])
p("C30","hexadecimal parsing is exact modulo 2^32",
  "mu_bbuf_parse_hex returns the value of the longest prefix of [0-9a-fA-F], modulo 2^32.",
  "all buffers",
  "Digit strings of any length.",
  [BB+":mu_bbuf_parse_hex"])
p("C31","mu_bbuf byte access is bounds-checked",
  "mu_bbuf_get_byte/put_byte/ref_ro/ref_rw succeed iff index < capacity, address exactly the byte at that index, and a put changes no other byte; a failing call changes nothing and leaves the out-parameter unwritten. Read-after-write returns the byte written.",
  "all buffers of at most INT_MAX bytes (including sub-buffers of a larger block), indices and bytes",
  "All states and indices, plus the frame condition on all other memory.",
  [BB+":mu_bbuf_get_byte",BB+":mu_bbuf_put_byte",BB+":mu_bbuf_ref_ro"])
p("C32","mu_bbuf_copy_into copies the overlap",
  "mu_bbuf_copy_into(dst,src,offset) copies src into dst displaced by offset (negative offsets drop leading source bytes), limited to both buffers, returns the number of bytes copied and has no undefined behaviour.",
  "all pairs of buffers and all int offsets",
  "The code reads variables that are uninitialised on some paths; a test run observes whatever the stack holds.",
  [BB+":mu_bbuf_copy_into"])
p("C33","mu_bbuf_reverse reverses in place",
  "mu_bbuf_reverse makes the buffer the reverse of its former contents (so applying it twice restores them) and changes no byte outside the buffer.",
  "all buffers of at most INT_MAX bytes",
  "All lengths (odd/even) and contents, plus frame.",
  [BB+":mu_bbuf_reverse"])
p("C34","mu_bbuf_rrotate rotates right by shift modulo capacity",
  "mu_bbuf_rrotate(b,shift) terminates and moves the byte at index i to (i+shift) mod capacity for every int shift, changing nothing outside the buffer; rotating by s and then by t equals rotating by s+t.",
  "all buffers of at most INT_MAX bytes and all int shifts",
  "Termination and modular arithmetic over all shifts.",
  [BB+":mu_bbuf_rrotate"])
p("C35","mu_bbuf_rshift shifts and zero-fills; mu_bbuf_clear zeroes",
  "mu_bbuf_rshift(b,shift) moves each byte by shift positions (left when negative), fills vacated positions with zero, and drops bytes shifted out; mu_bbuf_clear zeroes all bytes; nothing outside the buffer changes.",
  "all buffers of at most INT_MAX bytes and all int shifts",
  "All shift amounts, including those at and beyond capacity and INT_MIN.",
  [BB+":mu_bbuf_rshift",BB+":mu_bbuf_clear"])
p("C36","mu_bvec streams bytes within its capacity",
  "From count 0, the first `capacity` write_byte calls store their bytes consecutively, further ones return false and change no byte; after a reset, read_byte calls return them in the same order and then false; count is the number of attempts (modulo the range of size_t; the first two clauses concern fewer attempts than that) and get_available is the number of remaining bytes (0 when past the end). No byte outside the buffer is touched.",
  "all buffers and all finite sequences of read/write/reset/set_count calls",
  "Unbounded call sequences; the cursor can run past the end and wrap.",
  [BV+":mu_bvec_read_byte",BV+":mu_bvec_write_byte",BV+":mu_bvec_get_available"])
p("C37","mu_task_call runs hook then task, once, and ignores NULL",
  "mu_task_call(t) for non-NULL t invokes the installed call hook (if any) exactly once with t, then t's function exactly once with t; for NULL it does nothing.",
  "all task states, hooks and arbitrary effects of the invoked functions",
  "Quantifies over arbitrary user functions.",
  [T+":mu_task_call"])
p("C38","mu_task_set_state contract",
  "mu_task_set_state(t,s) calls the installed state hook before the state changes, then sets the state, returns t, ignores NULL, touches no other task, and has no effect when the state already equals s.",
  "all tasks, states and hooks",
  "Quantifies over all task stores and hooks.",
  [T+":mu_task_set_state","mulib/mu_task.h:mu_task_set_state"])
p("C39","mu_sched_step obeys the priority rule",
  "Each mu_sched_step runs exactly one task chosen as: the oldest interrupt task if any; else the earliest deferred task whose time has arrived; else the oldest immediate task; else the idle task (nothing if NULL); only the chosen task leaves its queue.",
  "all reachable scheduler states",
  "All queue configurations and clock values reachable by any history.",
  [SC+":mu_sched_step"])
p("C40","deferred tasks run in time order, first-come first-served among equal times",
  "At any moment mu_sched_next_task and mu_sched_step take the deferred task with the earliest time, and among tasks with equal times the one deferred first, whatever the order of defer and remove calls.",
  "all histories of defer_until/defer_for/remove/step/reset calls and clock readings",
  "Unbounded histories.",
  [SC+":defer_aux",SC+":next_deferred_task"])
p("C41","a deferred task never runs before its time",
  "When mu_sched_step runs a task from the deferred queue, the clock value it read does not precede the task's scheduled time; as long as every pending time is still in the future no deferred task runs.",
  "all histories and clock behaviours",
  "All histories and clocks.",
  [SC+":fetch_runnable_deferred_task"])
p("C42","the scheduler runs every accepted task exactly once",
  "In any history, for every task, the number of accepted schedule calls (immed, from_isr, defer) equals the number of times it was run from a queue plus the number of times it was removed or discarded by reset plus the number of times it is still queued.",
  "all histories, all tasks, tasks that reschedule themselves and others",
  "Conservation over unbounded histories.",
  [SC+":mu_sched_step",SC+":mu_sched_immed",SC+":mu_sched_from_isr",SC+":defer_aux",SC+":mu_sched_remove_deferred_task"])
p("C43","mu_sched_remove_deferred_task removes every occurrence and nothing else",
  "After mu_sched_remove_deferred_task(t), no deferred entry for t remains, all other entries keep their order and times, the other queues are unchanged, and the result is NONE iff at least one entry was removed, else NOT_FOUND.",
  "all scheduler states and tasks",
  "The in-place loop closes gaps with memmove while iterating; correctness for all multisets of entries.",
  [SC+":mu_sched_remove_deferred_task"])
p("C44","scheduling calls report FULL exactly when full",
  "mu_sched_immed accepts exactly while fewer than MU_SCHED_MAX_IMMED_TASKS immediate tasks are queued, mu_sched_from_isr while fewer than MU_SCHED_MAX_IRQ_TASKS-1, mu_sched_defer_* while fewer than MU_SCHED_MAX_DEFERRED_TASKS; otherwise they return MU_SCHED_ERR_FULL and change nothing; no table is ever overrun.",
  "all histories and all configured sizes",
  "All reachable states for every configuration constant.",
  [SC+":mu_sched_immed",SC+":mu_sched_from_isr",SC+":defer_aux"])
p("C45","mu_sched_current_task names the running task",
  "While a task runs, mu_sched_current_task returns that task; outside mu_sched_step it returns NULL.",
  "all histories, including tasks that call scheduler functions",
  "Depends on what tasks do while running.",
  [SC+":mu_sched_step",SC+":mu_sched_current_task"])
p("C46","queued work is served within a bounded number of steps",
  "If no further tasks are scheduled, an immediate task at position k is run within (pending interrupt tasks) + (deferred tasks) + k + 1 steps, and an interrupt task at position k in exactly k+1 steps; in n steps with no new work the scheduler drains all n due tasks.",
  "all reachable states and clock readings",
  "Liveness bound over all states.",
  [SC+":mu_sched_step"])
p("C47","mu_sched_reset empties everything but the idle task",
  "After mu_sched_reset (or mu_sched_init) all three queues are empty, no task is current, reset keeps the idle task, and the next step runs only the idle task.",
  "all scheduler states",
  "All states.",
  [SC+":mu_sched_reset",SC+":mu_sched_init"])
p("C48","interrupts may schedule tasks at any point of mu_sched_step",
  "With mu_sched_from_isr calls arriving between any two memory accesses of mu_sched_step, no task is lost or run twice, interrupt tasks run in arrival order, and a task present in the interrupt queue when the step starts is preferred over all others.",
  "all interleavings of interrupts with the steps of the scheduler",
  "Interrupt timing is not under test control.",
  [SC+":mu_sched_step",SC+":mu_sched_from_isr",S+":mu_spsc_get"])
p("C49","a misconfigured interrupt queue size is harmless but refuses all interrupt tasks",
  "If MU_SCHED_MAX_IRQ_TASKS is not a power of two >= 2, then after mu_sched_init (on zeroed static storage) every mu_sched_from_isr returns MU_SCHED_ERR_FULL without touching memory, and immediate, deferred and idle scheduling work as specified.",
  "all illegal sizes and all histories",
  "The build under test has one fixed size.",
  [SC+":mu_sched_init",S+":mu_spsc_init"])
p("C50","mu_jems emits the JSON text of the value described",
  "Emitting any JSON value (numbers as integers, strings, booleans, null, arrays, objects, nested to depth less than max_level) by the corresponding mu_jems calls sends to the writer exactly that value's JSON text, with ',' and ':' in the right places, and returns to the starting nesting level.",
  "all JSON values of admissible depth whose containers have no more items than size_t can count, any starting state at an item boundary",
  "All trees.",
  [J+":commify",J+":push_level",J+":pop_level",J+":mu_jems_object_open"])
p("C51","mu_jems string quoting is safe and lossless",
  "The text sent to the writer for mu_jems_string/mu_jems_bytes is a JSON string literal of printable ASCII characters only, and decoding it as JSON yields the code points equal to the given bytes; distinct inputs give distinct literals.",
  "all byte sequences",
  "All 256 byte values in all positions.",
  [J+":emit_quoted_byte",J+":mu_jems_string",J+":mu_jems_bytes"])
p("C52","mu_jems never leaves its levels array",
  "For max_level >= 1, no sequence of mu_jems calls, balanced or not, accesses levels[] out of bounds, and curr_level stays below max_level.",
  "all finite call sequences",
  "Unbounded unbalanced sequences.",
  [J+":push_level",J+":pop_level",J+":level_ref"])
p("C53","mu_jems output is well-formed at any nesting depth",
  "Emitting a JSON value nested deeper than max_level still yields well-formed JSON (or an error is reported).",
  "all JSON values",
  "Depth is unbounded.",
  [J+":push_level",J+":pop_level"])
p("C54","mu_jems_integer prints every int64_t exactly",
  "mu_jems_integer sends the shortest decimal representation of the value (with '-' if negative); it fits the internal buffer for every int64_t and reading it back gives the value.",
  "all 2^64 values",
  "2^64 values.",
  [J+":mu_jems_integer",J+":emit_string"])
p("C55","mu_jems_number prints exactly integral doubles as integers",
  "For a double equal to an int64_t, mu_jems_number sends the same text as mu_jems_integer; otherwise a decimal fraction whose value is within 0.0000005 of the argument; no undefined behaviour for any finite double.",
  "all finite doubles",
  "2^64 bit patterns, formatted through a 22-byte buffer.",
  [J+":mu_jems_number"])
p("C56","mu_jems_curr_level and item_count are accurate",
  "curr_level is the number of currently open containers and item_count the number of items emitted at the current level since it was opened, for sequences that stay within max_level.",
  "all call sequences that nest no deeper than max_level-1 and never close more than they opened",
  "Unbounded sequences.",
  [J+":mu_jems_curr_level",J+":mu_jems_item_count"])
p("C57","mu_log calls the logging function exactly when it should",
  "mu_log(level, ...) calls the installed logging function exactly once with the given format iff level is at or above the current threshold and a function is installed; during the call mu_log_get_reporting_level returns that level; otherwise nothing happens.",
  "all histories of threshold/function changes and log calls",
  "All histories and all level values.",
  [L+":mu_log",L+":mu_log_is_reporting"])
p("C58","mu_log_level_name is total",
  "mu_log_level_name returns the name of each of the six levels and \"UNKNOWN\" for every other value, never reading outside the name table.",
  "all values of the underlying unsigned type",
  "2^32 values.",
  [L+":mu_log_level_name"])
p("C59","deferred ordering survives clock wrap-around",
  "With the wrap-around clock comparison (signed difference below zero), the ordering, not-early and FIFO guarantees of C40/C41 hold as long as all pending times and the current time lie within half the clock range, wherever that window falls relative to zero.",
  "all clock values modulo 2^width, all histories inside the window",
  "Wrap-around happens once per 2^32 or 2^64 ticks.",
  [SC+":defer_aux",SC+":fetch_runnable_deferred_task","mulib/mu_platform.h:mu_time_precedes"])
p("C60","mu_jems output parses back to the value emitted",
  "A conforming JSON parser applied to the emitted text accepts it and returns the value described by the calls (strings as the code points equal to the bytes).",
  "all JSON values of admissible depth whose containers have no more items than size_t can count",
  "All trees; round trip through an independent parser.",
  [J+":commify",J+":emit_quoted_byte",J+":mu_jems_integer"])
p("C61","mu_spsc keeps order on a store-buffering machine",
  "On a machine where each thread's writes reach memory late but in order (x86-TSO; the code has no fences), the items obtained by mu_spsc_get are the items passed to successful mu_spsc_put calls, in order: none lost, duplicated or invented, and never more than capacity outstanding; once the buffers have drained, the queue again behaves exactly as a FIFO holding the outstanding items.",
  "all sizes, all items, all interleavings of the single accesses and of the draining of the two store buffers",
  "A test runs on one machine with one of infinitely many drain timings.",
  [S+":mu_spsc_put",S+":mu_spsc_get","mulib/mu_spsc.h:mu_spsc_t"])
p("C62","mu_spsc calls are not linearizable under weak memory",
  "A put that returned ERR_NONE before a get starts is visible to that get, and the slot contents are visible before the tail that publishes them. (Holds for sequentially consistent memory, C14; refuted for TSO and for a delayed store of the non-volatile slot.)",
  "all interleavings and all store-buffer drainings",
  "Depends on the machine's and compiler's reordering, which a test cannot force.",
  [S+":mu_spsc_put",S+":mu_spsc_get","mulib/mu_spsc.h:mu_spsc_t"])
p("C63","mu_spsc_reset among concurrent calls",
  "mu_spsc_reset executed while no put and no get is in progress empties the queue and nothing else: the whole history is that of a FIFO with resets. (Refuted when a put or a get is in progress: items already taken are handed out again.)",
  "all schedules of put and get accesses with resets at quiescent points",
  "All interleavings.",
  [S+":mu_spsc_reset",S+":mu_spsc_put",S+":mu_spsc_get"])
p("C64","mu_array does exactly one thing for every history",
  "After any history of mu_array calls over a capacity up to 2^30 the call results, the items and the contents of the unused slots are those of a list automaton given in the specification (including what the interior delete really does); every call terminates, and the history is undefined behaviour iff it contains an interior delete of a full array, or a sort of a one-item array on a 32-bit platform.",
  "all call histories, all capacities up to 2^30, both word sizes",
  "Histories are unbounded; undefined behaviour need not show in a test run.",
  ["mulib/mu_array.c:mu_array_delete_at","mulib/mu_array.c:mu_array_sort","mulib/mu_array.c:mu_array_insert_at"])
p("C65","mu_bbuf_slice for every pair of indices",
  "mu_bbuf_slice(src, start, end) yields for every pair of ints the buffer given by a closed formula; it never extends beyond the end of src, and it lies inside src iff start >= -capacity; it is undefined behaviour exactly when the computed pointer would lie before the object or the length computation overflows.",
  "all buffers, all pairs of ints",
  "2^64 pairs per buffer.",
  ["mulib/mu_bbuf.c:mu_bbuf_slice"])
p("C66","what mu_bbuf_ltrim, rtrim and trim return for every buffer",
  "ltrim, rtrim and trim return, for every buffer and predicate, the part of the source given by a closed formula, which always lies inside the source; they are never undefined behaviour.",
  "all buffers and predicates",
  "All buffers.",
  ["mulib/mu_bbuf.c:mu_bbuf_ltrim","mulib/mu_bbuf.c:mu_bbuf_rtrim","mulib/mu_bbuf.c:mu_bbuf_trim"])
p("C67","mu_bbuf_init_ro/_rw, mu_bbuf_init_cstr and mu_bbuf_copy alias their source",
  "init_ro and init_rw make a buffer of exactly the given bytes; init_cstr one of the bytes up to but excluding the first NUL; copy yields a buffer over the very same bytes; none changes memory.",
  "all memories and buffers",
  "All strings.",
  ["mulib/mu_bbuf.c:mu_bbuf_init_ro","mulib/mu_bbuf.c:mu_bbuf_init_rw","mulib/mu_bbuf.c:mu_bbuf_init_cstr","mulib/mu_bbuf.c:mu_bbuf_copy"])
p("C68","the idle task is the one last set",
  "mu_sched_get_idle_task returns the task last passed to mu_sched_set_idle_task since the last mu_sched_init, whatever else happened; a step that finds no interrupt, due deferred or immediate task runs exactly that task and changes nothing else.",
  "all histories of API calls, nested in any way",
  "All histories.",
  [SC+":mu_sched_get_idle_task",SC+":mu_sched_set_idle_task",SC+":mu_sched_step"])
p("C69","mu_sched_transfer calls the hook, then schedules; mu_sched_wait does nothing",
  "mu_sched_transfer first calls the installed transfer hook (if any) with the task, before anything is scheduled; when the hook returns, whatever it did, the task is appended to the immediate queue as by mu_sched_immed at that moment (or FULL is returned). mu_sched_wait has no effect and returns NONE.",
  "all histories, and everything the hook may do",
  "The hook may make arbitrary API calls.",
  [SC+":mu_sched_transfer",SC+":mu_sched_wait","mulib/mu_task.c:mu_task_call_transfer_hook"])
p("C70","a deferred task runs on time",
  "The deferred task at position k of the execution order is run by exactly the (number of waiting interrupt tasks + k + 1)-th step from now, provided it and those before it are due at these steps and no interrupt task arrives, nothing is removed or reset and nothing is deferred to an earlier time meanwhile. Immediate tasks never delay it.",
  "all histories and continuations",
  "Unbounded histories.",
  [SC+":fetch_runnable_deferred_task",SC+":defer_aux",SC+":mu_sched_step"])
p("C71","the scheduler is total and equals three lists",
  "No history of API calls, from the main program, running tasks or hooks, nested in any way (steps inside steps, resets inside tasks), is undefined behaviour or fails to terminate, and all events observed are those of a scheduler made of three plain lists.",
  "all histories, all configurations, every function mu_time_precedes",
  "Undefined behaviour need not show in a test; nesting is unbounded.",
  [SC+":mu_sched_step",SC+":mu_sched_reset",SC+":defer_aux",SC+":mu_sched_remove_deferred_task"])
p("C72","task fields are what was last written",
  "After any history the getters of mu_task return what was last written to that task: by mu_task_init, mu_task_set_user_info, the last mu_task_set_state that returned, or user code; the hooks in force are those last installed; the scheduler never writes to a task object.",
  "all histories, including mu_task_set_state calls made from inside the state hook",
  "All histories and nestings.",
  ["mulib/mu_task.c:mu_task_init","mulib/mu_task.c:mu_task_set_state","mulib/mu_task.c:mu_task_get_state","mulib/mu_task.c:mu_task_set_user_info"])
p("C73","MU_TASK_CTX recovers the enclosing object",
  "For every object inside the address space and every offset of its task slot, MU_TASK_CTX of the slot's address is the object's address.",
  "all addresses and offsets, both word sizes",
  "All addresses.",
  ["mulib/mu_task.h:MU_TASK_CTX"])
p("C74","bisync frames survive a concurrent mu_spsc link",
  "When encoded messages are sent byte by byte through a mu_spsc between two threads (the sender retrying when full), at any moment the receiver has the first k encodings and a proper part of the next, decoding at each message's start gives that message (after the SOH byte of C18), and any division of the received bytes into encodings yields the first messages sent, in order.",
  "all messages, queue sizes and interleavings of single memory accesses; also with store buffers (C61)",
  "All interleavings and message contents.",
  ["mulib/mu_bisync.c:mu_bisync_encode","mulib/mu_bisync.c:mu_bisync_decode",S+":mu_spsc_put",S+":mu_spsc_get"])
p("C75","the text mu_jems sends, for every sequence of calls",
  "For every sequence of legal calls, balanced or not, nested within max_level or not, no call is undefined and the characters sent, curr_level and item_count are given by a small set of rules: separator, item text, open, close, reset. A literal is sent byte for byte as one item.",
  "all sequences of calls with legal arguments",
  "Unbounded sequences.",
  [J+":commify",J+":push_level",J+":pop_level",J+":mu_jems_literal"])
p("C76","mu_jems_reset starts afresh",
  "After mu_jems_reset, whatever came before, the calls that follow send exactly what they would send right after mu_jems_init, and curr_level and item_count are the same too.",
  "all call sequences before and after",
  "Unbounded sequences.",
  [J+":mu_jems_reset",J+":mu_jems_init"])
p("C77","what mu_bisync_encode and mu_bisync_decode do for every input",
  "mu_bisync_encode returns the frame's length if it fits the capacity taken as an int, else OFLOW, and has written exactly the part of the frame that fits. Every received byte string reads, in exactly one way, as a sequence of plain and escaped bytes up to its first unescaped EOT, its end, or a final lone DLE; mu_bisync_decode writes those bytes as far as they fit and returns OFLOW if they do not fit, their number if the reading ended in an EOT (or the input in an escaped one), else FORMAT; without a leading SOH it writes nothing and returns FORMAT. For inputs longer than INT_MAX the same holds if the first 2^31 bytes decide, else the behaviour is undefined.",
  "all inputs, contents of the output object, capacities and lengths",
  "All byte strings; sizes beyond INT_MAX.",
  ["mulib/mu_bisync.c:mu_bisync_encode","mulib/mu_bisync.c:mu_bisync_decode","mulib/mu_bisync.c:buffer_put"])
p("C78","mu_bbuf_bisect for every index and any aliasing",
  "For every int index, with left, right and src possibly the same struct or NULL: left gets the source's bytes and the cut position modulo the range of size_t, then right gets the rest from the cut; the behaviour is undefined exactly when right is given and the cut lies before the C object or the index is INT_MIN.",
  "all buffers, indices and choices of left, right, src",
  "All indices.",
  ["mulib/mu_bbuf.c:mu_bbuf_bisect"])
p("C79","the signed parsers for every buffer",
  "For every buffer content the 8- and 16-bit parsers return the two's complement truncation of the number read; the int, int32_t and int64_t parsers return the number if its magnitude is below 2^31 (2^63), otherwise the behaviour is undefined.",
  "all buffer contents",
  "All byte strings.",
  ["mulib/mu_bbuf.c:DEFINE_INT_PARSER"])
p("C80","mu_bbuf_copy_into for every offset",
  "mu_bbuf_copy_into returns 0 and changes nothing if the offset lies beyond the destination (positive) or the source (negative); every other call has undefined behaviour.",
  "all buffers and offsets",
  "All arguments.",
  ["mulib/mu_bbuf.c:mu_bbuf_copy_into"])
p("C81","the in-place mutators for every buffer and shift",
  "mu_bbuf_clear zeroes any buffer; mu_bbuf_reverse reverses any non-empty buffer and is undefined on an empty one; mu_bbuf_rrotate rotates any non-empty buffer by any shift and never returns on an empty one; mu_bbuf_rshift shifts any buffer by any shift but INT_MIN, which is undefined. Bytes outside the buffer never change.",
  "all buffers inside any C object, all int shifts",
  "All buffers and shifts.",
  ["mulib/mu_bbuf.c:mu_bbuf_reverse","mulib/mu_bbuf.c:mu_bbuf_rrotate","mulib/mu_bbuf.c:mu_bbuf_rshift","mulib/mu_bbuf.c:mu_bbuf_clear"])
p("C82","mu_sched_current_task after any history",
  "After any history, nested steps included, mu_sched_current_task returns the task picked by the latest mu_sched_step that picked one, or NULL if since then any mu_sched_step has returned or the scheduler was reset or initialised (or there was none).",
  "all histories of API calls, nested in any way",
  "All histories and nestings.",
  [SC+":mu_sched_step",SC+":mu_sched_current_task",SC+":mu_sched_reset"])
p("C83","everything mu_log does, for every history",
  "After any history of calls, including calls from inside (nested) logging functions, every result of the mu_log functions and every call of the logging function is determined by the threshold last set, the function last installed and the level of the last call that logged.",
  "all histories and nestings; all level values",
  "All histories and nestings.",
  ["mulib/mu_log.c:mu_log","mulib/mu_log.c:mu_log_get_reporting_level","mulib/mu_log.c:mu_log_is_reporting"])
p("C84","mu_jems_number for every double",
  "In every state reached by legal calls and for every double (zeros, subnormals, infinities, NaNs): if its integral part fits int64_t, the call sends the separator due and exactly one well-formed JSON number, the integer if it is integral, else the value rounded to six decimals, ties to even, of which those that fit 21 characters are kept; otherwise the behaviour is undefined.",
  "all IEEE doubles, all sequences of legal calls before",
  "2^64 doubles in all states.",
  [J+":mu_jems_number"])
p("C85","mu_spsc_put and mu_spsc_get are wait-free",
  "A put (get) started at any moment has returned once its own thread has made five (six) accesses, whatever the other thread does or does not do in between, even if it stopped for ever in the middle of a call.",
  "all schedules of single accesses before and after the start of the call",
  "All interleavings.",
  [S+":mu_spsc_put",S+":mu_spsc_get"])
p("C86","puts by interrupts during a mu_spsc_reset",
  "The consumer calls mu_spsc_get and mu_spsc_reset; interrupts call mu_spsc_put between any two of its accesses, also between the two stores of a reset. No call is undefined, every put returns NONE or FULL, and all calls but the puts made between the two stores of a reset behave like a bounded FIFO which the reset empties at its second store. A put between the two stores may return NONE for an item the reset then removes, or FULL although nothing is queued.",
  "all schedules of accesses and interrupts",
  "All interleavings.",
  [S+":mu_spsc_reset",S+":mu_spsc_put",S+":mu_spsc_get"])
p("C87","nested interrupts calling mu_spsc_put",
  "If a mu_spsc_put is interrupted after k of its five accesses by another mu_spsc_put on the same queue, with room for both, both return NONE; both items are queued if k = 0; otherwise exactly one of them is (the outer one for k = 3, else the nested one) and the other is lost. For every later call the queue is again a FIFO holding the earlier items and the surviving ones.",
  "all histories before and after, all items, every point of interruption",
  "All histories and points of interruption.",
  [S+":mu_spsc_put"])
p("C88","mu_array sort / insert_sorted with a comparison function that has state",
  "Whatever a comparison function answers, even if its answers depend on earlier calls or are random, mu_array_sort (unless size_t has 32 bits and the array exactly one item) ends without undefined behaviour, permutes the items, changes nothing else, calls the function only with items of the array and at most 3 n log2 n times; mu_array_insert_sorted inserts the item somewhere, or returns false and changes nothing if the array is full, and calls the function only as cmp(item of the array, new item), at most log2(n)+1 times.",
  "all comparison functions with state, all arrays up to 2^30 items, both widths of size_t",
  "All answers to all comparisons.",
  ["mulib/mu_array.c:mu_array_sort","mulib/mu_array.c:mu_array_insert_sorted","mulib/mu_array.c:sift_down","mulib/mu_array.c:heapify","mulib/mu_array.c:find_insertion_index"])
p("C89","mu_bbuf predicate searches and trims with a predicate that has state",
  "mu_bbuf_find_predicate calls the predicate on the bytes in order (rfind: in reverse order), each at most once, and stops at the first byte it rejects, whose index it returns; NOT_FOUND if none is rejected. ltrim removes the bytes accepted before the first rejected one, rtrim the last rejected byte and all after it, trim first the one and then, with the state then reached, the other on what is left; each leaves the buffer whole if none is rejected.",
  "all predicates with state, all buffers, dst = src or not",
  "All answers to all calls.",
  ["mulib/mu_bbuf.c:mu_bbuf_find_predicate","mulib/mu_bbuf.c:mu_bbuf_rfind_predicate","mulib/mu_bbuf.c:mu_bbuf_ltrim","mulib/mu_bbuf.c:mu_bbuf_rtrim","mulib/mu_bbuf.c:mu_bbuf_trim"])
p("C90","scheduler, tasks and message queues together",
  "A program uses the scheduler, tasks and any number of message queues, whose notification tasks are run through mu_task_call (with the call hook, if installed) and may themselves call anything. Every history of such calls, by the main program, by tasks, notification tasks and hooks at any nesting, is free of undefined behaviour; each queue is a bounded FIFO of its own calls whatever else is done; a successful put (get) enters the on_put (on_get) task or first the call hook, and no other queue call enters user code; the scheduler behaves as if there were no queues.",
  "all histories and nestings of calls, any number of queues, all configurations",
  "Unboundedly many histories and nestings.",
  ["mulib/mu_mqueue.c:mu_mqueue_put","mulib/mu_mqueue.c:mu_mqueue_get","mulib/mu_task.c:mu_task_call","mulib/mu_sched.c:mu_sched_step"])
p("C91","no lost wake-up between a message queue and its consumer task",
  "If a queue's on_put task ends with a mu_sched_immed of the consumer task that succeeds, and the consumer task ends with a mu_mqueue_get that finds the queue empty, then, whatever the rest of the program does short of resetting the scheduler, whenever the main program is in control the queue is empty or the consumer is scheduled. A notification that ignores MU_SCHED_ERR_FULL can leave a message forgotten.",
  "all histories in which these two tasks follow the protocol",
  "Unboundedly many histories.",
  ["mulib/mu_mqueue.c:mu_mqueue_put","mulib/mu_mqueue.c:mu_mqueue_get","mulib/mu_sched.c:mu_sched_immed","mulib/mu_sched.c:mu_sched_step"])
p("C92","a deferred task does not run early; a periodic task keeps its distance",
  "A task that is not scheduled, and from then on is scheduled only for times satisfying P, is run by mu_sched_step only when such a time is due. With a linear clock, a task that is re-scheduled only by mu_sched_defer_for with delays of at least d, at or after its last run, runs again no earlier than d after it.",
  "all histories, all task clocks (first part), all delays",
  "All histories.",
  ["mulib/mu_sched.c:mu_sched_step","mulib/mu_sched.c:mu_sched_defer_until","mulib/mu_sched.c:mu_sched_defer_for"])
p("C93","priorities are absolute: starvation",
  "Interrupt tasks come before due deferred tasks, and these before immediate ones, without any bound: for every n there is a history in which a task accepted for immediate execution (or for a time that is due) is passed over by n consecutive successful mu_sched_step calls, though every call returned NONE.",
  "all n, all configurations, all tasks and times",
  "A statement for every n.",
  ["mulib/mu_sched.c:mu_sched_step","mulib/mu_sched.c:mu_sched_from_isr"])
p("C94","mu_sched_reset while interrupts arrive",
  "Interrupts call mu_sched_from_isr at any moment, also between the accesses of a mu_sched_step and between the two stores a mu_sched_reset makes to the interrupt queue. No call is undefined; an interrupt between the two stores gets NONE or FULL, but its task never runs (NONE may be lost, FULL may be returned with nothing queued); every other call returns what it returns in a sequential execution of the calls, in which each reset happens at its second store.",
  "all schedules of accesses and interrupts, all histories",
  "All interleavings.",
  ["mulib/mu_sched.c:mu_sched_reset","mulib/mu_sched.c:mu_sched_from_isr","mulib/mu_sched.c:mu_sched_step","mulib/mu_spsc.c:mu_spsc_reset"])
p("C95","mu_sched_from_isr called from two interrupt levels",
  "If a mu_sched_from_isr(a) is interrupted after j of its five accesses by a mu_sched_from_isr(b), with room for the tasks, both return NONE. From then on the scheduler behaves as if b and a had been scheduled if j = 0, only a if j = 3, and only b otherwise: one accepted task never runs.",
  "all histories before and after, all tasks, every point of interruption",
  "All histories and points of interruption.",
  ["mulib/mu_sched.c:mu_sched_from_isr","mulib/mu_spsc.c:mu_spsc_put"])
p("C96","a queued message waits for a bounded number of steps",
  "With the protocol of C91, if the main program is in control and the queue holds a message, the consumer task is run by one of the next n calls of mu_sched_step, n being the number of interrupt, deferred and immediate tasks scheduled at that moment, whatever else the program does meanwhile, provided it does not reset the scheduler nor schedule further interrupt or deferred tasks. When the consumer's function returns, every message ever accepted by the queue has been taken out, oldest first (unless the queue was reset).",
  "all histories that follow the protocol, all continuations",
  "Unboundedly many histories and continuations.",
  ["mulib/mu_mqueue.c:mu_mqueue_put","mulib/mu_mqueue.c:mu_mqueue_get","mulib/mu_sched.c:mu_sched_immed","mulib/mu_sched.c:mu_sched_step"])
p("C97","mu_queue is not interrupt safe: what an interrupting call does",
  "A mu_queue_put or mu_queue_get is interrupted, after any number of its accesses to the queue object, by another complete mu_queue_put or mu_queue_get on the same queue. After any history of calls, the results of both calls and the items the queue holds from then on are determined by the point of interruption: at some points the outcome is that of the two calls in some order; at the others both calls report success but an item is lost, duplicated, or replaced by the old content of a slot, or the count becomes capacity + 1 or SIZE_MAX, after which an ordinary mu_queue_get can access memory out of bounds. (mu_sched_immed is a mu_queue_put, so interrupts must use mu_sched_from_isr.)",
  "all histories before and after, all pairs of calls, every point of interruption, all capacities",
  "All histories and points of interruption.",
  ["mulib/mu_queue.c:mu_queue_put","mulib/mu_queue.c:mu_queue_get","mulib/mu_queue.c:access_queue","mulib/mu_sched.c:mu_sched_immed"])
p("C98","scheduler, tasks and message queues while interrupts arrive",
  "Interrupts call mu_sched_from_isr at any point of any call made by the main program and by the user functions it runs, on the scheduler, on tasks and on any number of message queues. Every interleaving is defined and its results are those of a sequential history of the whole system in which each call takes effect at one point between its start and its end; in particular no interrupt affects a message queue. With the wake-up protocol of C91 (the last call before the notification function returns is a successful mu_sched_immed of the consumer, the last call before the consumer returns a mu_mqueue_get that found the queue empty - interrupts in between do not count) no wake-up is lost: whenever the main program is in control the queue is empty or the consumer is queued.",
  "all interleavings of interrupts with all histories of the linked system, all configurations, hooks and user functions",
  "All interleavings and histories.",
  ["mulib/mu_sched.c:mu_sched_from_isr","mulib/mu_sched.c:mu_sched_step","mulib/mu_mqueue.c:mu_mqueue_put","mulib/mu_mqueue.c:mu_mqueue_get","mulib/mu_spsc.c:mu_spsc_get"])
p("C99","JSON documents through a buffer and over a link",
  "(a) With mu_bvec_write_byte as the writer function given to mu_jems_init, the calls which describe a JSON document leave in the buffer the first capacity characters of a JSON text of it, and change no byte around the buffer; the writer returns true for exactly these; mu_bvec_get_count is the length of the whole text, so the document fits iff count <= capacity, and then the first count bytes parse to the document and nothing else. When an array or object does not fit, neither the buffer contents nor any beginning of them is a JSON text. (b) A sequence of documents, each emitted by mu_jems, framed by mu_bisync_encode and sent byte by byte through a mu_spsc to another thread: at every moment of every interleaving the receiver has the first k frames and a proper part of the next, and mu_bisync_decode at each of these gives (after one SOH, C18) a text which parses to exactly that document. Also with store buffers (C61).",
  "all documents, all ways to describe them, all emitter settings, all buffers and surrounding memory, all schedules of the two threads, all receive buffers",
  "All documents and all interleavings.",
  ["mulib/mu_jems.c:emit_char","mulib/mu_bvec.c:mu_bvec_write_byte","mulib/mu_bisync.c:mu_bisync_encode","mulib/mu_bisync.c:mu_bisync_decode","mulib/mu_spsc.c:mu_spsc_put","mulib/mu_spsc.c:mu_spsc_get"])
p("C100","an interrupted array or object is never mistaken for a document",
  "If the program stops (crash, power failure, full device) at any point during the calls which describe an array or object, the characters passed to the writer so far are not a JSON text of any value: neither after any number of characters short of all of them, nor between any two of the API calls. (This is not so for a bare number: the beginning of 12 is 1.)",
  "all arrays and objects, all ways to describe them, all crash points (between characters and between calls), all emitter settings",
  "All documents and all crash points.",
  ["mulib/mu_jems.c:emit_char","mulib/mu_jems.c:mu_jems_array_close","mulib/mu_jems.c:mu_jems_object_close"])
p("C101","mu_bbuf_copy_into when its uninitialised variables hold values",
  "mu_bbuf_copy_into reads two automatic variables it never initialises on some paths (C32, C80). Whatever values they hold, a call whose offset lies inside the buffers copies, in order, as many bytes as the smaller of the two counts it works with (the one computed, or both if the offset is 0, and the left-over value): the result and the whole memory afterwards are determined by these values, including reads past the source and writes past the destination. If they hold the capacities of the two buffers the function does what its documentation says, for every offset, also for overlapping buffers in one object when bytes move down; so the two missing initialisers are the whole repair. A larger value makes the function read past the source's object.",
  "all pairs of buffers, all offsets, all left-over values",
  "The outcome depends on stack contents which a test does not control.",
  ["mulib/mu_bbuf.c:mu_bbuf_copy_into"])
p("C102","bisync encoding and decoding with overlapping buffers",
  "dst and encoded of mu_bisync_decode, and encoded and src of mu_bisync_encode, may overlap (nothing forbids it). Decoding a frame to its own place, to any lower address of the same object, or to a place behind its end gives the same result and the same bytes in dst as decoding to a separate buffer. Encoding does, if the message starts at least one byte plus one byte per byte to be escaped behind the destination, or ends before it. Encoding in place reports success but for every message of one or more bytes the output depends only on the length: the message is lost.",
  "all objects, contents, positions, lengths and capacities",
  "All positions and contents.",
  ["mulib/mu_bisync.c:mu_bisync_encode","mulib/mu_bisync.c:mu_bisync_decode"])
p("C103","byte buffers of more than INT_MAX bytes",
  "The capacity of a buffer is a size_t. For buffers of every size: mu_bbuf_get_byte, put_byte, ref, clear, reverse and rshift are exact, and so is mu_bbuf_slice between non-negative indexes below both the capacity and MU_BBUF_END; mu_bbuf_find_byte is right if the byte is among the first 2^31, otherwise it is undefined as soon as the buffer has more than INT_MAX bytes; compare, matches, prefix, suffix, substring, predicate and backward searches and the parsers do exactly what they do for the buffer of the first (capacity mod 2^32) bytes if that number fits an int, and if it does not they find nothing, parse 0, compare by the difference of the sizes, or are undefined, whatever the buffer holds. mu_bbuf_rrotate never returns if the capacity is a multiple of 2^32 and shift >= 0.",
  "all buffers of any size up to SIZE_MAX, both platforms, all contents and surroundings",
  "Buffers of gigabytes are not tested.",
  ["mulib/mu_bbuf.c:mu_bbuf_find_byte","mulib/mu_bbuf.c:mu_bbuf_compare","mulib/mu_bbuf.c:mu_bbuf_find_predicate","mulib/mu_bbuf.c:mu_bbuf_slice","mulib/mu_bbuf.c:mu_bbuf_rrotate","mulib/mu_bbuf.c:mu_bbuf_reverse","mulib/mu_bbuf.c:mu_bbuf_rshift"])
p("C104","arrays of more than 2^30 items",
  "Counts and indices of an array are size_t, but insert, delete, sort and insert_sorted keep some of them in an int. For arrays of every size: push, pop, peek, ref, index, rindex, reset, count, capacity, is_empty, is_full - and insert and delete as long as at most INT_MAX items have to move - do the same as for small arrays (C64). Otherwise, with k the low 32 bits of the number of items from the index on: if k <= INT_MAX, insert moves only k items and overwrites the next one, and delete moves k slots; if k > INT_MAX both are undefined. insert_sorted is undefined for 2^30+1 to 2^31 items if the new item belongs at the end (even if the array is full), and for 2^31+1 to 2^32 items does not compare anything and inserts at the front. sort is undefined for 2^30+1 to 2^31 items if the last item is the greatest (for example an array already in order), and always for more than 2^31. With 32-bit size_t an array cannot have more than 2^30 items; up to there sort and insert_sorted are right (C03, C05).",
  "all arrays of any size the platform can address, all contents, indices and comparison functions",
  "Arrays of gigabytes are not tested.",
  ["mulib/mu_array.c:mu_array_insert", "mulib/mu_array.c:mu_array_delete", "mulib/mu_array.c:mu_array_sort", "mulib/mu_array.c:mu_array_insert_sorted", "mulib/mu_array.c:find_insertion_index", "mulib/mu_array.c:sift_down"])
p("C105","mu_log while interrupts use the logging functions",
  "An interrupt may arrive between any two accesses mu_log makes to its variables and may log, or change the threshold or the logging function; interrupts nest. Whatever they do: every call of a logging function belongs to a mu_log call with that format and these arguments, whose level was at or above the threshold in force when it looked and which found a function installed; no mu_log call calls a logging function twice. If the compiled code reads the function pointer once, every interleaving is defined and the function called is the one found installed; if it reads it twice (as the source does) the one called is that installed last, and the interleaving is undefined exactly if the function was set to NULL between the test and the call - which is possible for every level. mu_log_get_reporting_level answers a logging function with the level of its message if no other mu_log call began since that level was stored; an interrupt that logs in between makes it answer with the interrupt's level.",
  "all interleavings of nested interrupts with all histories, all levels, formats and functions, both ways to compile the pointer access",
  "The window between two accesses is not hit by a test.",
  ["mulib/mu_log.c:mu_log", "mulib/mu_log.c:mu_log_get_reporting_level", "mulib/mu_log.c:mu_log_set_logging_function"])
p("C106","how large the buffers of an emitter, stream, frame chain must be",
  "Every mu_jems call sends at most a number of characters known beforehand: 1 for a bracket, 4 or 5 for true, false and null, 20 for an integer, 21 for a number, 6n+2 for a string or byte array of n bytes, n for a literal of n bytes, plus one separator before an item (a key call counts as key and value). For every sequence of calls the text has at most the sum of these; the bounds for strings of every length, integers and numbers are attained, and the exact size of a string is 2 plus 1, 2 or 6 per byte. mu_bisync_encode of n bytes, k of them SOH, EOT or DLE, succeeds exactly if the capacity is at least n+k+2, so 2n+2 is always enough and less than n+2 never; both extremes occur for every n. Hence for every JSON document whose calls add up to N characters, a text buffer of N bytes, a frame buffer of 2N+2 and a receive buffer of N+1 suffice: no write is refused and the receiver parses the document back.",
  "all sequences of calls and arguments, all documents, all messages and capacities up to INT_MAX",
  "A worst case over all strings, numbers and documents is not found by examples.",
  ["mulib/mu_jems.c:mu_jems_string", "mulib/mu_jems.c:mu_jems_number", "mulib/mu_jems.c:emit_quoted_byte", "mulib/mu_bisync.c:mu_bisync_encode", "mulib/mu_bvec.c:mu_bvec_write_byte"])
p("C107","the C text of mu_queue.c is a bounded FIFO",
  "The text of mu_queue.c, translated construct by construct into an abstract syntax and run by an operational semantics of C (conversions, pointer arithmetic, objects, calls), is the bounded FIFO: in every memory that holds a queue object of any content, storage of cap cells of any content and a variable for the item, mu_queue_init followed by any sequence of put, get, peek, reset, count, capacity, is_empty and is_full returns what a FIFO of capacity cap returns, never has undefined behaviour, and changes no object but these three. For every queue object (also one no sequence of calls produces) each function, run from its text, returns, stores and is undefined exactly as the hand-written model used by C08-C12 and C97 says.",
  "all memories, capacities, initial contents and sequences of calls, 32- and 64-bit platforms",
  "That a transcription of the source by hand says what the source says is usually trusted; here it is proved for every state.",
  ["mulib/mu_queue.c:mu_queue_init", "mulib/mu_queue.c:mu_queue_put", "mulib/mu_queue.c:access_queue", "mulib/mu_queue.c:mu_queue_get", "mulib/mu_queue.c:mu_queue_reset"])
p("C108","the C text of mu_spsc.c is a bounded FIFO of size-1 items",
  "The text of mu_spsc.c, translated construct by construct and run by the operational semantics of C: in every memory with a queue object of any content and an array of fewer than 65536 pointer-sized slots, mu_spsc_init returns no error exactly when the number of slots is a power of two, at least 2, and otherwise returns the size error and changes nothing; after a successful init any sequence of put, get, reset and capacity calls returns what a FIFO of capacity size-1 returns, with no undefined behaviour, and no other object changes. For every queue object each function returns, stores and is undefined exactly as the model used by C12-C15 and C61 says.",
  "all memories, sizes, initial contents, items and sequences of calls, 32- and 64-bit platforms",
  "That a hand transcription says what the source says is usually trusted; here it is proved for every state.",
  ["mulib/mu_spsc.c:mu_spsc_init", "mulib/mu_spsc.c:mu_spsc_reset", "mulib/mu_spsc.c:mu_spsc_capacity", "mulib/mu_spsc.c:mu_spsc_put", "mulib/mu_spsc.c:mu_spsc_get"])
p("C109","the C text of mu_spsc.c run by two threads is linearizable and has no data race",
  "The text of mu_spsc.c run by two threads, one calling put and the other get, any number of times, with any interleaving of their single memory accesses (every read and write of a member, a slot or the item variable that the text makes is its own step): never undefined, and every history of invocations and responses is linearizable with respect to the FIFO of capacity size-1 - each call takes effect at one moment between its invocation and its response. Whenever both threads are about to access the same cell and one of the accesses is a write, that cell is a member declared volatile (head or tail): slots and the other members are never raced on.",
  "all memories, queue sizes, sequences of calls and interleavings of the accesses",
  "The number of interleavings of the accesses of two unbounded sequences of calls cannot be enumerated, and a compiled test exercises only the few a scheduler happens to pick.",
  ["mulib/mu_spsc.c:mu_spsc_put", "mulib/mu_spsc.c:mu_spsc_get", "mulib/mu_spsc.h:mu_spsc_t"])
p("C110","the C text of mu_array.c is a bounded list, except for its two bugs",
  "The text of mu_array.c, translated construct by construct and run by the operational semantics of C (comparison functions are functions of the user, called through their pointers): in every memory, after mu_array_init over an array of cap pointers, any sequence of push, pop, peek, ref, insert, delete, index, rindex, reset, count, capacity, is_empty, is_full, sort and insert_sorted calls returns and stores what a list bounded by cap gives, never leaves a loop unfinished and changes no other object - unless a call deletes an interior item or sorts a single item with a 32-bit size_t. Exactly: the run is undefined if and only if some call deletes an interior item of a full array or sorts a single item with a 32-bit size_t, and otherwise every result and every slot of the storage is the one given by the exact specification of C64.",
  "all memories, capacities up to 2^30, initial storage contents, items, indices, comparison functions and sequences of calls, 32- and 64-bit platforms",
  "That a hand transcription says what the source says is usually trusted; here it is proved for every state and every history.",
  ["mulib/mu_array.c:mu_array_init", "mulib/mu_array.c:mu_array_push", "mulib/mu_array.c:mu_array_pop", "mulib/mu_array.c:mu_array_insert", "mulib/mu_array.c:mu_array_delete", "mulib/mu_array.c:mu_array_index", "mulib/mu_array.c:mu_array_rindex", "mulib/mu_array.c:mu_array_sort", "mulib/mu_array.c:mu_array_insert_sorted"])
p("C111","the C text of mu_task.c: hooks run first, then the task's function, once",
  "The text of mu_task.c, translated construct by construct and run by the operational semantics of C, where the user's functions are arbitrary: mu_task_call of NULL does nothing; without a call hook it runs the task's function exactly once with the task as its only argument; with a call hook the hook runs first and then the function the task has at that point. mu_task_set_state stores the new state after the hook (if any) has run with the task and the new state. The accessors read and write exactly their fields, and each hook installer changes its own hook only.",
  "all memories, tasks, states, function pointers and user functions (which may change any memory), 32- and 64-bit platforms",
  "A test can try a few functions and hooks; here the user functions are arbitrary memory transformers.",
  ["mulib/mu_task.c:mu_task_init", "mulib/mu_task.c:mu_task_call", "mulib/mu_task.c:mu_task_set_state", "mulib/mu_task.c:mu_task_call_transfer_hook", "mulib/mu_task.c:mu_task_install_call_hook"])
p("C112","the C text of mu_mqueue.c and mu_task.c is a FIFO under re-entrant notification tasks",
  "The text of mu_mqueue.c and mu_task.c, translated construct by construct and run by the operational semantics of C, is used by a program whose main code and notification tasks call put, get, peek, reset, count, capacity, is_empty and is_full of the same queue, to any depth and in any order, each decision depending on everything the program has seen: no execution has undefined behaviour; the calls take effect in an order in which their results are those of a bounded FIFO; after a successful put (get) the put (get) task, if there is one, runs exactly once after the update and, for get, after the item was stored for the caller, and the call returns the result it had when it took effect; only the queue, its storage and the caller's variables change.",
  "all programs (functions from the history seen to the next call), capacities, initial storage contents, items, memories, task objects and function pointers, 32- and 64-bit platforms, unbounded nesting",
  "Re-entrant schedules are unbounded and the translation from C to a model is usually trusted; here the text itself is run.",
  ["mulib/mu_mqueue.c:mu_mqueue_init", "mulib/mu_mqueue.c:mu_mqueue_put", "mulib/mu_mqueue.c:mu_mqueue_get", "mulib/mu_mqueue.c:mu_mqueue_peek", "mulib/mu_mqueue.c:access_queue", "mulib/mu_task.c:mu_task_call"])
p("C113","the C text of mu_bisync.c encodes and decodes exactly, on any memory",
  "The text of mu_bisync.c, translated construct by construct and run by the operational semantics of C: mu_bisync_encode writes exactly the frame of the message (or the part of it the capacity allows), from the start of the output object, which may have held anything, and returns its length (or the overflow code); mu_bisync_decode returns and writes exactly what the unique reading of its input prescribes, for every input of up to INT_MAX bytes, and beyond INT_MAX bytes the same unless it has not stopped by then (signed overflow); neither changes any other object of the memory nor leaves one behind; encoding and decoding in one memory gives the message behind one SOH byte.",
  "all memories, distinct input and output objects with any contents (unset cells allowed outside the input bytes), all capacities and lengths of type size_t, 32- and 64-bit platforms",
  "The translation from C to a model is usually trusted; here the text itself is run on every memory and input.",
  ["mulib/mu_bisync.c:mu_bisync_encode", "mulib/mu_bisync.c:mu_bisync_decode", "mulib/mu_bisync.c:buffer_put"])
p("C114","the C text of mu_sched.c and mu_task.c is the scheduler of the specification, also when tasks and hooks call it again",
  "The text of mu_sched.c, mu_task.c, mu_queue.c and mu_spsc.c, translated construct by construct and run by the operational semantics of C: from power-up memory, mu_sched_init followed by any program - main code, tasks, call, transfer and set-state hooks, each of which may call any function of the scheduler and of mu_task again, to any depth - never meets undefined behaviour; every return value and every entry of a user function, with its arguments, that the program sees is the one the specification of the scheduler (the one of C39-C49) prescribes for the same history; a program that stops is executed completely; the function and user data of a task are never changed and its state only as the specification says; no other object of the memory is changed.",
  "all programs (functions from what has been observed so far to the next call), all table sizes (interrupt table a power of two), all clocks and comparison functions, all memories with any number of task objects, 32- and 64-bit platforms",
  "The translation from C to a model is usually trusted; here the text itself is run, with every program, nesting and memory.",
  ["mulib/mu_sched.c:mu_sched_init", "mulib/mu_sched.c:mu_sched_step", "mulib/mu_sched.c:mu_sched_reset", "mulib/mu_sched.c:mu_sched_immed", "mulib/mu_sched.c:mu_sched_from_isr", "mulib/mu_sched.c:mu_sched_defer_until", "mulib/mu_sched.c:mu_sched_defer_for", "mulib/mu_sched.c:mu_sched_remove_deferred_task", "mulib/mu_sched.c:mu_sched_transfer", "mulib/mu_sched.c:defer_aux", "mulib/mu_sched.c:fetch_runnable_deferred_task", "mulib/mu_task.c:mu_task_call", "mulib/mu_task.c:mu_task_set_state", "mulib/mu_task.c:mu_task_call_transfer_hook"])
p("C115","the C text of mu_jems.c writes the JSON text of the specification",
  "The text of mu_jems.c (all functions but the two that take a double), translated construct by construct and run by the operational semantics of C: after mu_jems_init on any memory for the struct and the levels, any list of calls - with strings, byte arrays and literals that are objects of the caller - calls the installed writer with exactly the characters, in the order, that the specification (that of C75) gives, is never undefined when the arguments are legal, changes no object but the struct, the levels and what the writer writes, and mu_jems_curr_level and mu_jems_item_count then return the nesting and count of the specification; when the calls describe a JSON value that fits, the text written parses back to that value and to no other; for arguments that are not legal the text is undefined exactly when the model is.",
  "all lists of calls of every length, all strings, byte arrays and 64-bit integers, all numbers of levels, all contents of the memory before, 32- and 64-bit platforms",
  "The translation from C to a model is usually trusted; here the text itself is run, for every list of calls and every memory.",
  ["mulib/mu_jems.c:mu_jems_init", "mulib/mu_jems.c:mu_jems_reset", "mulib/mu_jems.c:mu_jems_object_open", "mulib/mu_jems.c:mu_jems_object_close", "mulib/mu_jems.c:mu_jems_array_open", "mulib/mu_jems.c:mu_jems_array_close", "mulib/mu_jems.c:mu_jems_integer", "mulib/mu_jems.c:mu_jems_string", "mulib/mu_jems.c:mu_jems_bytes", "mulib/mu_jems.c:mu_jems_literal", "mulib/mu_jems.c:mu_jems_key_string", "mulib/mu_jems.c:commify", "mulib/mu_jems.c:push_level", "mulib/mu_jems.c:pop_level", "mulib/mu_jems.c:emit_quoted_byte"])
p("C116","the C text of mu_bbuf.c and mu_bvec.c does what the specification of byte buffers and byte streams says",
  "The text of mu_bbuf.c and mu_bvec.c (all functions), translated construct by construct and run by the operational semantics of C, on any memory that holds the caller's byte objects and mu_bbuf_t structs: comparisons, prefix/suffix tests and searches (buffers, C strings, bytes, predicates) return what the lists of bytes determine; the parsers return the digits' value (wide signed ones when it fits); byte access is bounds-checked; the initialisers, slice, bisect and the trims write exactly the destination struct, with a view of the specified range, and touch nothing else; clear, reverse, rrotate and rshift leave the specified contents and touch no other object of the caller; copy_into is undefined for every offset except those with nothing to copy; and any history of calls on a mu_bvec_t gives the results, contents and cursor of the byte stream specification.",
  "all contents and capacities up to INT_MAX (mu_bvec: up to SIZE_MAX), all indices, offsets and shifts of the C types, all predicates and user pointers, all placements of the objects in memory, all histories of mu_bvec calls, 32- and 64-bit platforms",
  "The translation from C to a model is usually trusted; here the text itself is run, for every buffer and every memory.",
  ["mulib/mu_bbuf.c:mu_bbuf_init_ro", "mulib/mu_bbuf.c:mu_bbuf_init_rw", "mulib/mu_bbuf.c:mu_bbuf_init_cstr", "mulib/mu_bbuf.c:mu_bbuf_copy", "mulib/mu_bbuf.c:mu_bbuf_slice", "mulib/mu_bbuf.c:mu_bbuf_bisect", "mulib/mu_bbuf.c:mu_bbuf_ltrim", "mulib/mu_bbuf.c:mu_bbuf_rtrim", "mulib/mu_bbuf.c:mu_bbuf_trim", "mulib/mu_bbuf.c:mu_bbuf_compare", "mulib/mu_bbuf.c:mu_bbuf_compare_cstr", "mulib/mu_bbuf.c:mu_bbuf_matches", "mulib/mu_bbuf.c:mu_bbuf_matches_cstr", "mulib/mu_bbuf.c:mu_bbuf_has_prefix", "mulib/mu_bbuf.c:mu_bbuf_has_prefix_cstr", "mulib/mu_bbuf.c:mu_bbuf_has_suffix", "mulib/mu_bbuf.c:mu_bbuf_has_suffix_cstr", "mulib/mu_bbuf.c:mu_bbuf_find_substr", "mulib/mu_bbuf.c:mu_bbuf_rfind_substr", "mulib/mu_bbuf.c:mu_bbuf_find_subcstr", "mulib/mu_bbuf.c:mu_bbuf_rfind_subcstr", "mulib/mu_bbuf.c:mu_bbuf_find_byte", "mulib/mu_bbuf.c:mu_bbuf_rfind_byte", "mulib/mu_bbuf.c:mu_bbuf_find_predicate", "mulib/mu_bbuf.c:mu_bbuf_rfind_predicate", "mulib/mu_bbuf.c:mu_bbuf_get_byte", "mulib/mu_bbuf.c:mu_bbuf_put_byte", "mulib/mu_bbuf.c:mu_bbuf_ref_ro", "mulib/mu_bbuf.c:mu_bbuf_ref_rw", "mulib/mu_bbuf.c:mu_bbuf_clear", "mulib/mu_bbuf.c:mu_bbuf_reverse", "mulib/mu_bbuf.c:mu_bbuf_rrotate", "mulib/mu_bbuf.c:mu_bbuf_rshift", "mulib/mu_bbuf.c:mu_bbuf_copy_into", "mulib/mu_bbuf.c:mu_bbuf_parse_int", "mulib/mu_bbuf.c:mu_bbuf_parse_unsigned_int", "mulib/mu_bbuf.c:mu_bbuf_parse_int8", "mulib/mu_bbuf.c:mu_bbuf_parse_int16", "mulib/mu_bbuf.c:mu_bbuf_parse_int32", "mulib/mu_bbuf.c:mu_bbuf_parse_int64", "mulib/mu_bbuf.c:mu_bbuf_parse_uint8", "mulib/mu_bbuf.c:mu_bbuf_parse_uint16", "mulib/mu_bbuf.c:mu_bbuf_parse_uint32", "mulib/mu_bbuf.c:mu_bbuf_parse_uint64", "mulib/mu_bbuf.c:mu_bbuf_parse_hex", "mulib/mu_bvec.c:mu_bvec_init", "mulib/mu_bvec.c:mu_bvec_init_ro", "mulib/mu_bvec.c:mu_bvec_init_rw", "mulib/mu_bvec.c:mu_bvec_reset", "mulib/mu_bvec.c:mu_bvec_get_bbuf", "mulib/mu_bvec.c:mu_bvec_get_capacity", "mulib/mu_bvec.c:mu_bvec_get_count", "mulib/mu_bvec.c:mu_bvec_set_count", "mulib/mu_bvec.c:mu_bvec_get_available", "mulib/mu_bvec.c:mu_bvec_ref_ro", "mulib/mu_bvec.c:mu_bvec_ref_rw", "mulib/mu_bvec.c:mu_bvec_read_byte", "mulib/mu_bvec.c:mu_bvec_write_byte"])
p("C117","the C text of mu_log.c, for every history",
  "The text of mu_log.c (all functions), translated construct by construct and run by the operational semantics of C: for every history of calls, including the calls made by logging functions while mu_log is running (to any depth), nothing is undefined, every result, every entry of a logging function, which function it is and the format and arguments it is given are exactly as specified (called iff the level is at or above the threshold in force and a function is installed; the level is readable inside), and no other memory is written. mu_log passes control to the installed function with the level already stored and does nothing afterwards, for any function the user can write. mu_log_level_name returns a pointer to the characters of the level's name, or of UNKNOWN, for every unsigned value.",
  "all histories and nestings of calls, all thresholds and levels of the C type, all function, format and argument pointers, all user functions (mu_log itself), all memories holding the file's objects, 32- and 64-bit platforms",
  "Histories with nested calls are unbounded and a test fixes one; the translation from C to a model is usually trusted, here the text itself is run.",
  ["mulib/mu_log.c:mu_log_init", "mulib/mu_log.c:mu_log_set_reporting_threshold", "mulib/mu_log.c:mu_log_get_reporting_threshold", "mulib/mu_log.c:mu_log_set_logging_function", "mulib/mu_log.c:mu_log_get_logging_function", "mulib/mu_log.c:mu_log_get_reporting_level", "mulib/mu_log.c:mu_log_is_reporting", "mulib/mu_log.c:mu_log_level_name", "mulib/mu_log.c:mu_log"])
p("C118","where the C text of mu_bbuf.c is undefined or never returns, exactly",
  "Run by the operational semantics of C, the text of mu_bbuf_slice gives, for every pair of ints, the specified view when its start lies in the object and its length fits an int, and is undefined for every other pair; the text of mu_bbuf_parse_int, _int32 and _int64 returns the number read if its magnitude is below 2^31 (2^63) and is undefined for every other content; mu_bbuf_rshift by INT_MIN and mu_bbuf_reverse of an empty buffer are undefined; mu_bbuf_rrotate of an empty buffer never returns, for any shift.",
  "all buffers, contents, index pairs and shifts, all memories holding them, 32- and 64-bit platforms",
  "Undefined behaviour need not show in a test run, and non-termination never does; here both are proved of the text itself, so the conditions of C116 cannot be weakened.",
  ["mulib/mu_bbuf.c:mu_bbuf_slice", "mulib/mu_bbuf.c:DEFINE_INT_PARSER", "mulib/mu_bbuf.c:mu_bbuf_reverse", "mulib/mu_bbuf.c:mu_bbuf_rrotate", "mulib/mu_bbuf.c:mu_bbuf_rshift"])
p("C119","the C text of mu_queue_put and mu_queue_get, interrupted by a put",
  "A program sets up a queue and makes any calls, after which it holds l with room for two more items. Run by the operational semantics of C one memory access at a time, the text of mu_queue_put(a) is interrupted after any number of its ten accesses by a complete mu_queue_put(b). Both calls return true, nothing is undefined, and what all later calls see is determined by the point of interruption: l, b, a after at most three accesses (before the index is read); l, a and a stale slot after four; l, b and a stale slot after five; a stale slot, l, b after six or seven; l, a, b without its oldest item after nine (between the read and the write of the count); l, a, b after eight or ten. When instead mu_queue_get, of a queue that holds x, then r, with room for one more, is interrupted after any number of its ten or eleven accesses, both calls return true; the item got is x, unless the interrupt came between the reads of the index and the count, when it is what an old slot holds; later calls see r, b, without its oldest item if the interrupt came between the last read and the write of the count.",
  "all capacities and contents of the storage, all histories before and after, all items, every point of interruption, 32- and 64-bit platforms, all memories holding the objects",
  "All histories and all points of interruption; a test cannot place an interrupt between two chosen accesses.",
  ["mulib/mu_queue.c:mu_queue_put", "mulib/mu_queue.c:mu_queue_is_full","mulib/mu_queue.c:mu_queue_get","mulib/mu_queue.c:access_queue", "mulib/mu_sched.c:mu_sched_immed"])
out=os.path.join(os.path.dirname(os.path.abspath(__file__)),"..","properties.jsonl")
with open(out,"w") as f:
    for x in P: f.write(json.dumps(x)+"\n")
print(len(P),"properties")

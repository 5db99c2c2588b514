# Formal model of rdpoor/mulib in Rocq (Coq 8.16.1)

The C sources in `/repo/mulib` are read as text and transcribed by hand, function by
function, into total, computable Gallina functions. Theorems are about these functions.

## How C is modelled (theories/CSem.v)

* **Outcome monad** `res A := Ok a | UB | NoFuel`. Every load, store, pointer formation, signed
  arithmetic operation, shift, division and `memmove` that C leaves undefined yields `UB`. Loops whose
  termination is not structural take fuel and yield `NoFuel` when it is used up; every positive
  theorem says `= Ok ...`, so it includes "no undefined behaviour and terminates".
* **Integers** are `Z` with explicit wrap-around. `int` is 32 bits, two's complement; `size_t` and
  pointers are 32 or 64 bits according to the parameter `p : plat` (`P32 | P64`), over which every
  theorem about `size_t` code quantifies. Out-of-range unsigned -> signed conversion wraps
  (implementation-defined in C, the choice of gcc/clang).
* **Memory**: `void *storage[]` is a list whose length is the size of the caller's object; `void *`
  items are `Z`, `NULL` is 0. Byte buffers (`mu_bbuf`) live in a memory of blocks, a pointer is a
  (block, offset) pair, so that aliasing sub-buffers and the neighbourhood of a buffer are visible.
* **Out-parameters** are `option`: `None` = left unwritten.
* **Function pointers** (comparison functions, predicates, task functions, hooks, writer function) are
  universally quantified Gallina functions, or for re-entrant call-backs a universally quantified
  *strategy* from the trace so far to the next call.
* **Concurrency** (`mu_spsc`, ISR use of `mu_sched`) is a labelled transition system with one
  transition per shared-memory access, sequentially consistent.

## Layout

| file | content |
|---|---|
| `CSem.v` | C semantics kit |
| `XModel.v` | the transcription of `mu_x.c`; every definition cites file:lines |
| `XSpec.v` | independent specification (mathematical lists, FIFOs, grammars), no reference to the model |
| `XProofs.v` | lemmas |
| `XProps.v` | the property theorems `Cnn_...`, each with a concrete example and `Print Assumptions` |

A property the code violates gets a theorem `Cnn_..._refuted` (a concrete execution on which the claim is
false) and a theorem `Cnn_..._partial` that is the strongest version found to hold.

## Plan per property

| id | modelled | how proved |
|---|---|---|
| C01 | all of mu_array.c over call histories | forward simulation to a bounded list by induction on the history; `_partial` because interior `delete` is wrong (see C02) |
| C02 | `mu_array_delete` | exact effect of the code for every state; tail deletion correct; interior deletion refuted (count not decremented; out-of-bounds read if full) |
| C03 | sort/heapify/sift_down/swap | heap invariant, loop induction, permutation; for every comparison that is a total preorder |
| C04 | same, P32/P64 | case analysis; 64-bit proved, 32-bit refuted (1 item: signed overflow) |
| C05 | insert_sorted, find_insertion_index | binary search invariant |
| C06 | index/rindex incl. wrap at SIZE_MAX | loop induction |
| C07 | as C03/C05 for arbitrary cmp | same loops without order hypotheses, permutation + frame |
| C08 | mu_queue.c, all functions, histories | refinement to bounded FIFO list |
| C09 | same | corollary on traces |
| C10 | mu_mqueue.c | refinement + notification trace |
| C11 | mu_mqueue.c with call-backs | call-back strategy, trace is a legal FIFO history, nesting unbounded |
| C12 | mu_spsc_init, macro IS_POWER_OF_TWO | bit lemma `x land (x-1) = 0 <-> power of two` |
| C13 | put/get/reset/capacity | refinement, masks as modulo |
| C14 | put/get at memory-access granularity, 2 threads | inductive invariant over all reachable states; emitted linearisation points form a legal FIFO history |
| C15 | same LTS | corollary of the invariant |
| C16 | encode, buffer_put | functional equality with an independent frame function, both outcomes |
| C17 | spec frame function | unique-decoding induction (combined with C16 so it is about the code's output) |
| C18 | decode | refuted (decoded output has SOH in front); `_partial`: exact round trip modulo the leading SOH |
| C19 | decode | refuted ([SOH,DLE,EOT] accepted); `_partial`: exact acceptance language |
| C20 | decode | functional characterisation of memory effects |
| C21-C24 | compare, matches, prefix, suffix, find*, rfind* | loop inductions against list specs |
| C25-C27 | slice, bisect, trim with struct aliasing | arithmetic case analysis; refuted instances + partial theorems with the exact domain |
| C28-C30 | parsers, all integer types | digit-fold induction; signed: refuted for overflow (UB), partial for representable values |
| C31-C35 | byte access, copy_into, reverse, rrotate, rshift, clear | list lemmas, cycle invariant for rrotate (fuel), refuted corner cases |
| C36 | mu_bvec.c | simulation over call histories |
| C37-C38 | mu_task.c with hooks | trace semantics; "no effect if same state" refuted |
| C39-C47, C49, C59 | mu_sched.c on top of the models of mu_spsc, mu_queue, mu_task | state refinement to an abstract scheduler (three lists), invariants over all histories, nested steps via a frame stack |
| C48 | mu_sched_step split at each shared access, ISR between them | LTS invariant |
| C50-C53, C56, C60 | mu_jems.c | emission of any JSON tree equals an independent serialiser; independent parser reads it back; refuted for too-deep values |
| C54 | `snprintf("%lld")` specified as decimal printing | digits lemma, buffer size bound |
| C55 | mu_jems_number; doubles as dyadic rationals, `%lf` as correctly rounded 6-digit decimal | exact arithmetic |
| C57-C58 | mu_log.c | trace semantics, case analysis |
| C61, C62 | the C14 accesses on a store-buffer machine (SpscTso.v): every store enters the thread's FIFO buffer and reaches memory later | C61: inductive invariant relating buffers, indices and items; C62: refuted by concrete executions (TSO: put not yet visible; delayed slot store: an item invented) |
| C63 | C14's machine plus an atomic reset (SpscReset.v) | quiescent resets: same invariant with an epoch; reset during a call: refuted by two executions |
| C64 | mu_array.c, all functions, histories (ArrayExact.v) | forward simulation to a list automaton that includes the defects; UB iff the automaton says so |
| C65, C66, C78-C81 | slice, trim, bisect, signed parsers, copy_into, in-place mutators (BbufExact*.v) | complete input/output relation including the inputs on which the code is undefined or never returns |
| C67 | init_ro, init_rw, init_cstr, copy | case analysis, first-NUL lemma |
| C68-C71, C82 | the scheduler machine of C39 (SchedProps*.v) | state refinement of C71 (total, three lists), then inductions on histories |
| C72, C73 | mu_task.c histories; MU_TASK_CTX as modular address arithmetic | induction on histories; arithmetic |
| C74 | mu_bisync frames as the items of the mu_spsc machines of C14 and C61 (Link.v) | combination of C14/C61 with C17/C77: prefix of a concatenation of frames |
| C75, C76, C84 | mu_jems.c for every call sequence; doubles as `spec_float` | automaton of the text; reset as an equivalence of states; case analysis on doubles |
| C77 | mu_bisync.c for every capacity and input | unique reading of every byte string as plain/escaped bytes |
| C83 | mu_log.c for every history with nested calls | induction on the history |
| C85-C87 | the access-level machine of C14; reset as two stores with interrupts between; a put nested in a put | measure on the program counter; simulation by the FIFO of C13; case analysis on the point of interruption |
| C88, C89 | sort, insert_sorted, find_predicate, trims with the callback's state passed through | induction on the loops; the list of calls as a witness; agreement with the stateless models |
| C90, C91 | mu_sched + mu_task + any number of mu_mqueue queues as one machine (SystemModel.v) | refinement to the three task lists plus one list per queue, for all nestings; C91 by an invariant (who is responsible for a non-empty queue) |
| C92, C93 | the scheduler machine of C39 (SchedProps6.v) | induction on histories; explicit histories for every n |
| C94, C95 | the machine of C48 with the two stores of a reset as separate transitions (SchedReset.v); a mu_sched_from_isr nested in another (SchedNested.v) | the simulation of C48 extended by a mode "between the stores"; C87 lifted to the scheduler |
| C96 | the machine of C90 (SystemProps2.v) | the scheduler's part of a history of the whole system is a history of the scheduler alone (C90_scheduler_alone), so C46's bound applies to the consumer that C91 finds queued |
| C97 | mu_queue_put and mu_queue_get access by access (QueueIsr.v), one interrupted by another | each point of interruption by composing lemmas on the ring (store at a free slot, index or count moved alone) |
| C98 | the machine of C90 with the interrupt side of C48 (SystemIsr.v) | the simulation of C48 redone on the system's representation; C91's invariant, with interrupts allowed between the last call and the return |
| C99 | mu_jems with mu_bvec_write_byte as writer; its text through mu_bisync and mu_spsc (Telemetry.v) | C60 composed with C36 (buffer) and C74 (link); a proper prefix of an array/object is no JSON text (parser reads to the closing bracket whatever follows) |
| C100 | the session of C50 cut after any character or call | same prefix lemma; each remaining call list ends in a close, which emits a character |
| C101 | mu_bbuf_copy_into with given initial contents of src_avail, dst_avail (copy_into_from; the function itself starts it with "never assigned") | loop invariant over the memory, both buffers in one or two objects |
| C102 | both bisync functions with one object read and written (BisyncAliasModel.v) | simulation with the two-object model: the write index never passes the read index; in-place encoding: all bytes read were just written |
| C103 | the same mu_bbuf model, buffers of any size up to SIZE_MAX (BbufHuge.v) | the loop lemmas of C24, C33, C35 with size_t bounds; conversion to int depends on the size modulo 2^32 only |
| C104 | the same mu_array model, arrays of any size (ArrayHuge.v) | the lemmas of C64 without the bound 2^30; int conversion modulo 2^32; binary search invariant `low <= high` until `low + high` overflows; descent of `end` through 2^31 |
| C105 | mu_log one access per step, stack of calls in progress, arbitrary interrupt activity (LogIsr.v) | invariant: each frame remembers where in the history its tests were made; counting; exhibited interleavings for the refutations |
| C106 | the models of mu_jems, mu_bvec and mu_bisync (Sizes.v) | induction over the calls on the text of C75; length of frames; composition of C50, C99, C16 and C18 |
| C107 | the text of mu_queue.c as translated by tools/c2v.py (SrcQueue.v), run by the semantics of CLang.v | symbolic execution of each function (CSym.v) gives the model function (QueueSrc.v); composition with C08 (QueueSrcProps.v) |
| C108 | the text of mu_spsc.c as translated by tools/c2v.py (SrcSpsc.v), run by CLang.v | symbolic execution gives the model function for every state (SpscSrc.v); composition with C12 and C13 (SpscSrcProps.v) |
| C109 | the same text as trees of single memory accesses (CTree.v: `tcall_alone` proves, for every program, that a tree run with nothing in between is the call of CLang.v), two threads interleaving accesses (SpscThreads.v) | the accesses of the text, found by symbolic execution (CTreeSym.v), simulate the machine of C14; linearizability is stated with explicit effect moments (SpscThreads.v `linearizable`) |
| C110 | the text of mu_array.c as translated by tools/c2v.py (SrcArray.v), run by CLang.v; user comparison functions as `ext_ptr` | symbolic execution with loop lemmas gives the model function for every state (ArraySrc.v); composition with C01 and C64 (ArraySrcProps.v) |
| C111 | the text of mu_task.c as translated by tools/c2v.py (part of SrcMqueue.v), run by CLang.v; the user's functions are an arbitrary `ext_ptr` | symbolic execution (TaskSrc.v), restated over user-visible terms (TaskSrcProps.v) |
| C112 | the text of mu_mqueue.c and mu_task.c (SrcMqueue.v), run by CLang.v; the user's task functions run the same program on the same memory, keeping a log in an object of the memory | symbolic execution of each function up to the notification (MqueueSrc.v), simulation with the machine of C11 by induction on the number of calls (MqueueSrcProps.v) |
| C113 | the text of mu_bisync.c (SrcBisync.v), run by CLang.v | symbolic execution of the functions with induction on the loops (BisyncSrc.v), composed with C77 (BisyncSrcProps.v) |
| C114 | the text of mu_sched.c, mu_task.c, mu_queue.c, mu_spsc.c (SrcSched.v), run by CLang.v; the platform time functions are the configuration's | symbolic execution of every function with induction on the loops (SchedSrc.v to SchedSrc5.v), the invariant (SchedSrc6.v), then a simulation between the big-step run of the text, user code included, and the small-step machine of C39 (SchedSrcProps.v) |
| C115 | the text of mu_jems.c (SrcJems.v), run by CLang.v; snprintf and sprintf as external functions, the writer as a user function that keeps a record | symbolic execution of every function with induction on the loops (JemsSrc.v), composition over any list of calls, then C60 and C75 (JemsSrcProps.v) |
| C116 | the text of mu_bbuf.c and mu_bvec.c (SrcBvec.v), run by CLang.v; strlen and memset as external functions, predicates as user functions | symbolic execution of every function with induction on the loops (BbufSrc.v to BbufSrc9.v): when the model of C21-C36 returns, the text returns the same; composed with C21-C36, C65-C67 and C78-C81 and, for mu_bvec, over any history (BbufSrcProps.v, BvecSrcProps.v) |
| C117 | the text of mu_log.c (SrcLog.v), run by CLang.v; logging functions as user code that calls the library again | symbolic execution of every function (LogSrc.v), induction on trees of nested calls (LogSrcProps.v) |
| C118 | the text of mu_bbuf.c (SrcBvec.v), run by CLang.v | the symbolic execution of C116 followed to the undefined operation, induction on the loops (BbufSrcUB.v, BbufSrcUB2.v); composed with C65, C79 (BbufSrcUBProps.v) |
| C119 | the text of mu_queue.c (SrcQueue.v) run one access at a time (CTree.v, proved equal to CLang.v) | symbolic execution of the accesses, then each cut is shown to be a cut of the machine of C97 (QueueIsrSrc.v, QueueIsrSrc2.v) |

The status of each property (proved, partial) with the theorem names is in MANIFEST.json. All partial
ones are partial because the code violates the claim: each has a `_refuted` theorem and, from C64 on, a
companion property that states exactly what the code does on *all* inputs (C01/C02/C04 -> C64, C16/C18/C19 ->
C77, C25 -> C65, C26 -> C78, C27 -> C66, C29 -> C79, C32 -> C80, C33-C35 -> C81, C38 -> C72,
C45 -> C82, C53 -> C75, C55 -> C84, C57 -> C83, C62 -> C61).

## Restrictions in the quantifiers, and why

* C39/C40: no NULL task is deferred and the clock's `mu_time_precedes` is a strict weak order on the pending
  times and now (a linear clock always is; a wrapping one if all times are within half its range: C59).
* C44: the interrupt queue size is a power of two >= 2; C49 is about the other sizes. Sizes are at most
  65535 because `mu_spsc_init` takes a `uint16_t`.
* C50/C60: containers of at most 2^32 (2^64) items, the range of `size_t`; C50_wide_refuted shows why.
* bbuf: `mu_bbuf_t` structs designate a range inside one object, of at most `INT_MAX` bytes where the C function
  returns an `int` index (C21_huge_refuted shows why).
* mu_array: capacities up to 2^30 where the code forms `2*i+1` in an `int`-indexed heap.
* C90/C91: each queue is initialised once, before the history; its notification tasks are fixed. The scheduler's code
  runs on the scheduler's part of the world (it has no access to the queues), and the call of the notification
  task is the last thing mu_mqueue_put/get does before returning.
* mu_jems: the writer function does not call back into the same mu_jems object.

## Validation of the transcription

* `UnitTests.v`, `UnitTests2.v`, `UnitTests3.v` transcribe the repository's own unit tests (test/test_mu_*) and
  run them on the models (`vm_compute`). All expectations of the tests hold of the models except those on
  executions that C leaves undefined, listed there: `copy_into` (7 of 9 calls read an uninitialised
  variable) and parsing `4294967295` as `int`/`int32_t` (signed overflow). These are tests, not proofs.
* `tools/mutate.py` edits one definition of a model (a realistic bug), rebuilds, and reports which property theorems
  stop proving; results are in `seeded/LOG.jsonl`.
* `tools/automut.py` generates operator/constant/argument mutants of every model definition mechanically; the survivors
  are inspected one by one. `seeded/AUTO.jsonl` has all results with the reason for every survivor.
* `tools/srcmut.py` makes the same kind of edits in the C text itself (a copy of it), translates the wrong
  program with `tools/c2v.py`, and rebuilds the theorems about the text (C107 and later); results in `seeded/SRC.jsonl`.
* `KitSpec.v` characterises every helper of the C semantics kit (`to_size`, `chk`, `ld`, `st`, `memmove`, `mset`, `strlen`,
  ...) exactly, in terms of lists and integers only: a slip in the kit itself does not go unnoticed.

## Trusted base

* Coq 8.16.1's kernel (and `coqc`), and std++ as a library of definitions and proved lemmas.
* `Print Assumptions` after each property theorem prints "Closed under the global context": no theorem uses
  any axiom. (vcheck lists `Coq.ssr.ssrunder.Under_rel.*`: opaque module fields of Coq's own ssreflect
  library, loaded with std++; no theorem here depends on them.)
* The hand transcription C -> Gallina (comments cite the lines) and the C semantics kit above.
* For C107 and the properties after it that speak of "the C text": instead of the hand transcription, the
  translator `tools/c2v.py` (C text -> abstract syntax, one constructor per construct, files `Src*.v`; run
  `python3 tools/c2v.py` to regenerate them) and the operational semantics `CLang.v`. These theorems also
  prove, function by function, that the hand transcription computes what the source text computes.
  CLang's choices (left-to-right evaluation, one cell per scalar, int of 32 bits ...) are listed at its top.
* Where threads or interrupts run between the accesses of the C text (C109): the thread machine of the file
  (one access of one cell per step, sequentially consistent unless the property says otherwise). That the trees
  of accesses are the text's is proved (`tcall_alone`), not trusted.
* A `va_list` is one opaque pointer: `va_start` copies it, `va_end` does nothing (C117).
* libc as specified in the model: `snprintf` with `%lld`, `%04x`, `%lf` (correctly rounded, ties to even, buffer
  truncation), `strlen`, `memmove`, `memset`. Doubles are IEEE binary64 (`SpecFloat.spec_float`).

### What is modelled

Every function of `mulib/mu_array.c, mu_bbuf.c, mu_bisync.c, mu_bvec.c, mu_jems.c, mu_log.c, mu_mqueue.c,
mu_queue.c, mu_sched.c, mu_spsc.c, mu_task.c` and the macros of their headers (`MU_TASK_CTX`,
`MU_LOG_LEVELS`, `MU_BBUF_END`; `MU_LOG_TRACE` ... `MU_LOG_FATAL` are calls of `mu_log` with that level).

### What is not

* The C compiler; weak memory beyond the store-buffer machine of C61/C62/C74; `volatile` access widths.
* `va_list` contents (an opaque argument passed through unchanged).
* `mu_platform.h`: only declares what the user must supply (`mu_time_now`, `mu_time_offset`, `mu_time_precedes`, ...); these are
  universally quantified inputs of the model. `mu_version.h`: constants.
* The `#ifdef TEST_MU_MQUEUE` test code at the end of `mu_mqueue.c`, `docs/` (templates), `examples/` (a README),
  build files; tests only as described under Validation.

{
 "claims": [
  {
   "property": "C01",
   "status": "partial",
   "theorems": [
    "C01_array_history_partial",
    "C01_array_history_refuted",
    "C01_insert_huge_refuted"
   ],
   "note": "Whole-history refinement holds except for the operations proved wrong: delete of an interior element, sort of one item on a 32-bit size_t, insert at an index >= 2^31."
  },
  {
   "property": "C02",
   "status": "partial",
   "theorems": [
    "C02_delete_tail_partial",
    "C02_delete_out_of_range",
    "C02_delete_interior_refuted",
    "C02_delete_interior_full_refuted"
   ],
   "note": "Deleting the last element and out-of-range indices are right; interior deletion is proved wrong."
  },
  {
   "property": "C03",
   "status": "partial",
   "theorems": [
    "C03_sort_partial"
   ],
   "note": "All arrays except a single item with 32-bit size_t (C04)."
  },
  {
   "property": "C04",
   "status": "partial",
   "theorems": [
    "C04_sort_tiny_64",
    "C04_sort_empty_32",
    "C04_sort_one_32_refuted"
   ],
   "note": "Refuted for one item with 32-bit size_t."
  },
  {
   "property": "C05",
   "status": "proved",
   "theorems": [
    "C05_insert_sorted"
   ],
   "note": ""
  },
  {
   "property": "C06",
   "status": "proved",
   "theorems": [
    "C06_index",
    "C06_rindex"
   ],
   "note": ""
  },
  {
   "property": "C07",
   "status": "partial",
   "theorems": [
    "C07_sort_any_cmp_partial",
    "C07_insert_sorted_any_cmp"
   ],
   "note": "Same exclusion as C03."
  },
  {
   "property": "C08",
   "status": "proved",
   "theorems": [
    "C08_queue_refines_fifo"
   ],
   "note": ""
  },
  {
   "property": "C09",
   "status": "proved",
   "theorems": [
    "C09_queue_conserves"
   ],
   "note": ""
  },
  {
   "property": "C10",
   "status": "proved",
   "theorems": [
    "C10_mqueue_fifo_notifies"
   ],
   "note": ""
  },
  {
   "property": "C11",
   "status": "proved",
   "theorems": [
    "C11_mqueue_reentrant",
    "C11_mqueue_reentrant_completes"
   ],
   "note": ""
  },
  {
   "property": "C12",
   "status": "proved",
   "theorems": [
    "C12_spsc_init"
   ],
   "note": ""
  },
  {
   "property": "C13",
   "status": "proved",
   "theorems": [
    "C13_spsc_sequential_fifo"
   ],
   "note": ""
  },
  {
   "property": "C14",
   "status": "proved",
   "theorems": [
    "C14_spsc_linearizable",
    "C14_spsc_in_order",
    "C14_put_microsteps",
    "C14_get_microsteps"
   ],
   "note": "Sequentially consistent memory."
  },
  {
   "property": "C15",
   "status": "proved",
   "theorems": [
    "C15_spsc_no_slot_race",
    "C15_spsc_slot_stable"
   ],
   "note": "Sequentially consistent memory."
  },
  {
   "property": "C16",
   "status": "partial",
   "theorems": [
    "C16_encode_partial",
    "C16_encode_huge_capacity_refuted"
   ],
   "note": "Capacities up to INT_MAX; beyond, proved wrong."
  },
  {
   "property": "C17",
   "status": "proved",
   "theorems": [
    "C17_injective",
    "C17_prefix_free",
    "C17_streams_unique"
   ],
   "note": ""
  },
  {
   "property": "C18",
   "status": "partial",
   "theorems": [
    "C18_roundtrip_partial",
    "C18_roundtrip_refuted"
   ],
   "note": "The decoder returns the message with an extra leading SOH: the documented round trip is proved false for every message."
  },
  {
   "property": "C19",
   "status": "partial",
   "theorems": [
    "C19_decode_language_partial",
    "C19_trailing_ignored",
    "C19_unterminated_accepted_refuted"
   ],
   "note": "Exact accepted language proved; it is larger than documented (input ending in an escaped EOT)."
  },
  {
   "property": "C20",
   "status": "proved",
   "theorems": [
    "C20_decode_bounds"
   ],
   "note": ""
  },
  {
   "property": "C21",
   "status": "proved",
   "theorems": [
    "C21_compare_lexicographic",
    "C21_compare_cstr",
    "C21_compare_total_order",
    "C21_huge_refuted"
   ],
   "note": "The size bound in the quantifier is needed: C21_huge_refuted."
  },
  {
   "property": "C22",
   "status": "proved",
   "theorems": [
    "C22_prefix_suffix",
    "C22_prefix_suffix_cstr"
   ],
   "note": ""
  },
  {
   "property": "C23",
   "status": "proved",
   "theorems": [
    "C23_find_substr",
    "C23_rfind_substr",
    "C23_find_subcstr",
    "C23_rfind_subcstr"
   ],
   "note": ""
  },
  {
   "property": "C24",
   "status": "proved",
   "theorems": [
    "C24_find_byte",
    "C24_find_predicate"
   ],
   "note": ""
  },
  {
   "property": "C25",
   "status": "partial",
   "theorems": [
    "C25_slice_partial",
    "C25_slice_refuted"
   ],
   "note": "Exact for all indices not before the beginning of the buffer; for indices before it the code is proved wrong."
  },
  {
   "property": "C26",
   "status": "partial",
   "theorems": [
    "C26_bisect_partial",
    "C26_bisect_refuted"
   ],
   "note": "Exact for index >= -capacity; below, the left part is proved to exceed the source."
  },
  {
   "property": "C27",
   "status": "partial",
   "theorems": [
    "C27_ltrim_partial",
    "C27_ltrim_refuted",
    "C27_rtrim_refuted",
    "C27_trim_refuted"
   ],
   "note": "ltrim is right unless every byte matches; rtrim and trim are proved wrong."
  },
  {
   "property": "C28",
   "status": "proved",
   "theorems": [
    "C28_parse_unsigned"
   ],
   "note": ""
  },
  {
   "property": "C29",
   "status": "partial",
   "theorems": [
    "C29_parse_narrow",
    "C29_parse_wide_partial",
    "C29_parse_wide_refuted"
   ],
   "note": "8- and 16-bit parsers in full; int, int32, int64 for representable values, overflow proved undefined."
  },
  {
   "property": "C30",
   "status": "proved",
   "theorems": [
    "C30_parse_hex"
   ],
   "note": ""
  },
  {
   "property": "C31",
   "status": "proved",
   "theorems": [
    "C31_get_ref",
    "C31_put"
   ],
   "note": ""
  },
  {
   "property": "C32",
   "status": "partial",
   "theorems": [
    "C32_copy_into_partial",
    "C32_copy_into_refuted"
   ],
   "note": "Every call that should copy something is proved to read an uninitialised variable."
  },
  {
   "property": "C33",
   "status": "partial",
   "theorems": [
    "C33_reverse_partial",
    "C33_reverse_empty_refuted"
   ],
   "note": "All non-empty buffers; on an empty buffer an out-of-range pointer is formed."
  },
  {
   "property": "C34",
   "status": "partial",
   "theorems": [
    "C34_rrotate_partial",
    "C34_rrotate_compose",
    "C34_rrotate_empty_refuted"
   ],
   "note": "All non-empty buffers and all shifts; on an empty buffer it never returns."
  },
  {
   "property": "C35",
   "status": "partial",
   "theorems": [
    "C35_clear",
    "C35_rshift_partial",
    "C35_rshift_int_min_refuted"
   ],
   "note": "All shifts but INT_MIN, which is undefined behaviour."
  },
  {
   "property": "C36",
   "status": "proved",
   "theorems": [
    "C36_bvec_history",
    "C36_init",
    "C36_write_reset_read"
   ],
   "note": ""
  },
  {
   "property": "C37",
   "status": "proved",
   "theorems": [
    "C37_task_call",
    "C37_task_call_safe",
    "C37_installed_hook",
    "C37_install_independent",
    "C37_installed_transfer_hook"
   ],
   "note": ""
  },
  {
   "property": "C38",
   "status": "partial",
   "theorems": [
    "C38_set_state_partial",
    "C38_set_state_safe",
    "C38_same_state_no_hook",
    "C38_same_state_refuted",
    "C38_installed_hook"
   ],
   "note": "Everything but the last clause: with an installed hook, setting the same state again does call the hook (proved)."
  },
  {
   "property": "C39",
   "status": "proved",
   "theorems": [
    "C39_step_priority",
    "C39_step_completes"
   ],
   "note": "For sane clocks (strict weak order on the pending times and now; see C40_linear_clock, C59) and no NULL task deferred."
  },
  {
   "property": "C40",
   "status": "proved",
   "theorems": [
    "C40_deferred_order",
    "C40_next_task",
    "C40_linear_clock"
   ],
   "note": "For clocks that order the pending times (strict weak order); without hypothesis for a linear clock."
  },
  {
   "property": "C41",
   "status": "proved",
   "theorems": [
    "C41_not_early"
   ],
   "note": "For every function mu_time_precedes."
  },
  {
   "property": "C42",
   "status": "proved",
   "theorems": [
    "C42_exactly_once",
    "C42_ledger"
   ],
   "note": "Observable count for every task that is not also the idle task; the ledger for all."
  },
  {
   "property": "C43",
   "status": "proved",
   "theorems": [
    "C43_remove_deferred"
   ],
   "note": ""
  },
  {
   "property": "C44",
   "status": "proved",
   "theorems": [
    "C44_full"
   ],
   "note": "Interrupt queue sizes that are powers of two >= 2; the others: C49."
  },
  {
   "property": "C45",
   "status": "partial",
   "theorems": [
    "C45_current_task_partial",
    "C45_nested_step_refuted"
   ],
   "note": "Holds unless a running task itself calls step, reset or init; with a nested step it is proved false."
  },
  {
   "property": "C46",
   "status": "proved",
   "theorems": [
    "C46_interrupt_latency",
    "C46_immediate_latency",
    "C46_drain"
   ],
   "note": ""
  },
  {
   "property": "C47",
   "status": "proved",
   "theorems": [
    "C47_reset",
    "C47_init"
   ],
   "note": ""
  },
  {
   "property": "C48",
   "status": "proved",
   "theorems": [
    "C48_linearizable",
    "C48_exactly_once",
    "C48_interrupt_preferred"
   ],
   "note": "Sequentially consistent memory; power-of-two interrupt queue; reset and init are not run concurrently with interrupts."
  },
  {
   "property": "C49",
   "status": "proved",
   "theorems": [
    "C49_bad_irq_size"
   ],
   "note": "Sizes 1..65535 (mu_spsc_init takes a uint16_t)."
  },
  {
   "property": "C50",
   "status": "proved",
   "theorems": [
    "C50_document",
    "C50_in_context",
    "C50_wide_refuted"
   ],
   "note": "Containers of at most 2^32 (2^64) items, the range of size_t; one more loses a comma (C50_wide_refuted). Numbers: see C54, C55."
  },
  {
   "property": "C51",
   "status": "proved",
   "theorems": [
    "C51_quoting",
    "C51_injective"
   ],
   "note": ""
  },
  {
   "property": "C52",
   "status": "proved",
   "theorems": [
    "C52_bounds"
   ],
   "note": ""
  },
  {
   "property": "C53",
   "status": "partial",
   "theorems": [
    "C53_too_deep_refuted",
    "C60_parses_back"
   ],
   "note": "Well-formed for depth < max_level (C60); for every max_level a value one level deeper is proved to yield a text that is not JSON, with no error reported."
  },
  {
   "property": "C54",
   "status": "proved",
   "theorems": [
    "C54_integer",
    "C54_decimal_unique"
   ],
   "note": ""
  },
  {
   "property": "C55",
   "status": "partial",
   "theorems": [
    "C55_integral",
    "C55_fraction_partial",
    "C55_truncation_refuted",
    "C55_ub_refuted"
   ],
   "note": "Integral doubles in full; fractions: error <= 0.0000005 below 10^13, above that decimals are cut off (error proved larger); doubles outside int64_t proved to be undefined behaviour."
  },
  {
   "property": "C56",
   "status": "proved",
   "theorems": [
    "C56_level_and_count"
   ],
   "note": "item_count modulo the range of size_t."
  },
  {
   "property": "C57",
   "status": "partial",
   "theorems": [
    "C57_gating_partial",
    "C57_is_reporting",
    "C57_reporting_level",
    "C57_level_during_call_partial",
    "C57_nested_refuted"
   ],
   "note": "Everything but: when the logging function itself logs, the reporting level is afterwards that of the inner call (proved)."
  },
  {
   "property": "C58",
   "status": "proved",
   "theorems": [
    "C58_level_name"
   ],
   "note": ""
  },
  {
   "property": "C59",
   "status": "proved",
   "theorems": [
    "C59_wraparound"
   ],
   "note": ""
  },
  {
   "property": "C60",
   "status": "proved",
   "theorems": [
    "C60_parses_back"
   ],
   "note": "Containers of at most 2^32 (2^64) items."
  },
  {
   "property": "C61",
   "status": "proved",
   "theorems": [
    "C61_spsc_tso_in_order",
    "C61_spsc_tso_drained",
    "C61_tso_contains_sc"
   ],
   "note": "Store-buffer machine over the same accesses as C14; C61_tso_contains_sc shows that C14's machine is a special case of it."
  },
  {
   "property": "C62",
   "status": "partial",
   "theorems": [
    "C62_spsc_tso_not_linearizable",
    "C62_spsc_tso_not_sequentially_consistent",
    "C62_spsc_pso_invents_item",
    "C14_spsc_linearizable"
   ],
   "note": "True of sequentially consistent memory (C14); refuted, by concrete executions, for TSO and for a delayed slot store."
  },
  {
   "property": "C63",
   "status": "proved",
   "theorems": [
    "C63_spsc_quiescent_reset",
    "C63_spsc_reset_race_duplicates",
    "C63_spsc_reset_race_get"
   ],
   "note": "Proved for resets with no call in progress; refuted for resets during a call."
  },
  {
   "property": "C64",
   "status": "proved",
   "theorems": [
    "C64_array_exact",
    "C64_array_ub_iff"
   ],
   "note": ""
  },
  {
   "property": "C65",
   "status": "proved",
   "theorems": [
    "C65_slice_exact",
    "C65_slice_inside"
   ],
   "note": ""
  },
  {
   "property": "C66",
   "status": "proved",
   "theorems": [
    "C66_trim_exact"
   ],
   "note": ""
  },
  {
   "property": "C67",
   "status": "proved",
   "theorems": [
    "C67_init",
    "C67_init_cstr",
    "C67_copy"
   ],
   "note": ""
  },
  {
   "property": "C68",
   "status": "proved",
   "theorems": [
    "C68_idle_task"
   ],
   "note": ""
  },
  {
   "property": "C69",
   "status": "proved",
   "theorems": [
    "C69_transfer",
    "C69_wait"
   ],
   "note": ""
  },
  {
   "property": "C70",
   "status": "proved",
   "theorems": [
    "C70_deferred_latency"
   ],
   "note": ""
  },
  {
   "property": "C71",
   "status": "proved",
   "theorems": [
    "C71_sched_total"
   ],
   "note": ""
  },
  {
   "property": "C72",
   "status": "proved",
   "theorems": [
    "C72_task_fields",
    "C72_task_writers"
   ],
   "note": ""
  },
  {
   "property": "C73",
   "status": "proved",
   "theorems": [
    "C73_task_ctx"
   ],
   "note": ""
  },
  {
   "property": "C74",
   "status": "proved",
   "theorems": [
    "C74_link",
    "C74_link_tso"
   ],
   "note": ""
  },
  {
   "property": "C75",
   "status": "proved",
   "theorems": [
    "C75_exact",
    "C75_unique",
    "C75_literal"
   ],
   "note": ""
  },
  {
   "property": "C76",
   "status": "proved",
   "theorems": [
    "C76_reset"
   ],
   "note": ""
  },
  {
   "property": "C77",
   "status": "proved",
   "theorems": [
    "C77_encode_exact",
    "C77_decode_exact",
    "C77_decode_huge"
   ],
   "note": ""
  },
  {
   "property": "C78",
   "status": "proved",
   "theorems": [
    "C78_bisect_exact"
   ],
   "note": ""
  },
  {
   "property": "C79",
   "status": "proved",
   "theorems": [
    "C79_parse_signed_exact"
   ],
   "note": ""
  },
  {
   "property": "C80",
   "status": "proved",
   "theorems": [
    "C80_copy_into_exact"
   ],
   "note": ""
  },
  {
   "property": "C81",
   "status": "proved",
   "theorems": [
    "C81_mutators_exact"
   ],
   "note": "Objects smaller than SIZE_MAX bytes; buffers of at most INT_MAX bytes."
  },
  {
   "property": "C82",
   "status": "proved",
   "theorems": [
    "C82_current_task_exact"
   ],
   "note": ""
  },
  {
   "property": "C83",
   "status": "proved",
   "theorems": [
    "C83_log_exact"
   ],
   "note": ""
  },
  {
   "property": "C84",
   "status": "proved",
   "theorems": [
    "C84_number_exact"
   ],
   "note": ""
  },
  {
   "property": "C85",
   "status": "proved",
   "theorems": [
    "C85_spsc_wait_free"
   ],
   "note": ""
  },
  {
   "property": "C86",
   "status": "proved",
   "theorems": [
    "C86_spsc_reset_interrupted",
    "C86_spsc_reset_interrupted_refuted"
   ],
   "note": "The _refuted theorem is the second half: an execution in which puts during a reset report what is not so."
  },
  {
   "property": "C87",
   "status": "proved",
   "theorems": [
    "C87_spsc_nested_puts"
   ],
   "note": ""
  },
  {
   "property": "C88",
   "status": "proved",
   "theorems": [
    "C88_sort_any_answers",
    "C88_insert_sorted_any_answers",
    "C88_stateless"
   ],
   "note": "C88_stateless: the model with state is the model of C01-C07 when the answers do not depend on the state."
  },
  {
   "property": "C89",
   "status": "proved",
   "theorems": [
    "C89_find_stateful",
    "C89_trim_stateful",
    "C89_stateless"
   ],
   "note": "C89_stateless: the model with state is the model of C24, C27, C66 when the answers do not depend on the state."
  },
  {
   "property": "C90",
   "status": "proved",
   "theorems": [
    "C90_system",
    "C90_queue_call",
    "C90_scheduler_alone"
   ],
   "note": "Each queue is initialised once, before the history, with its storage."
  },
  {
   "property": "C91",
   "status": "proved",
   "theorems": [
    "C91_no_lost_wakeup"
   ],
   "note": "C91_needs_protocol is an example in which the protocol is broken and a message forgotten."
  },
  {
   "property": "C92",
   "status": "proved",
   "theorems": [
    "C92_only_when_due",
    "C92_min_spacing"
   ],
   "note": ""
  },
  {
   "property": "C93",
   "status": "proved",
   "theorems": [
    "C93_immediate_starves",
    "C93_deferred_starves"
   ],
   "note": ""
  },
  {
   "property": "C94",
   "status": "proved",
   "theorems": [
    "C94_reset_interrupted",
    "C94_reset_interrupted_refuted",
    "jreset_alone"
   ],
   "note": "The _refuted theorem is an execution in which interrupts during a reset are told what is not so; jreset_alone: the two transitions of a reset are mu_sched_reset."
  },
  {
   "property": "C95",
   "status": "proved",
   "theorems": [
    "C95_nested_from_isr"
   ],
   "note": ""
  },
  {
   "property": "C97",
   "status": "proved",
   "theorems": [
    "C97_put_in_put",
    "C97_put_in_get",
    "C97_get_in_put",
    "C97_get_in_get",
    "C97_refuted",
    "C97_alone"
   ],
   "note": "C97_refuted: the out-of-bounds accesses; C97_alone: without an interrupt the accesses add up to the functions of QueueModel.v. Accesses are in program order (the loads of index and count in mu_queue.c:104, which C leaves unordered, left to right)."
  },
  {
   "property": "C98",
   "status": "proved",
   "theorems": [
    "C98_linearizable",
    "C98_no_lost_wakeup"
   ],
   "note": "mu_sched_init, mu_sched_reset and a mu_sched_from_isr on the main side are excluded, as in C48 (C94: reset)."
  },
  {
   "property": "C99",
   "status": "proved",
   "theorems": [
    "C99_document_in_buffer",
    "C99_overflow_visible",
    "C99_documents_over_link",
    "C99_documents_over_link_tso"
   ],
   "note": ""
  },
  {
   "property": "C100",
   "status": "proved",
   "theorems": [
    "C100_interrupted_document",
    "C100_interrupted_calls",
    "C100_number_refuted"
   ],
   "note": "C100_number_refuted: why the claim is about arrays and objects only."
  },
  {
   "property": "C101",
   "status": "proved",
   "theorems": [
    "C101_values",
    "C101_initialised",
    "C101_overread"
   ],
   "note": "The code itself is undefined by the C standard (C32, C80); these theorems are about the code with the two variables holding values."
  },
  {
   "property": "C102",
   "status": "proved",
   "theorems": [
    "C102_decode_overlap",
    "C102_encode_overlap",
    "C102_decode_in_place",
    "C102_encode_in_place_refuted"
   ],
   "note": "C102_encode_in_place_refuted is the last sentence of the statement."
  },
  {
   "property": "C103",
   "status": "proved",
   "theorems": [
    "C103_get_ref",
    "C103_put",
    "C103_clear",
    "C103_reverse",
    "C103_rshift",
    "C103_slice",
    "C103_find_byte",
    "C103_truncated",
    "C103_low_part",
    "C103_negative",
    "C103_rrotate_hangs"
   ],
   "note": ""
  },
  {
   "property": "C96",
   "status": "proved",
   "theorems": [
    "C96_consumer_runs",
    "C96_all_taken"
   ],
   "note": ""
  },
  {
   "property": "C104",
   "status": "proved",
   "theorems": [
    "C104_near",
    "C104_insert",
    "C104_insert_ub",
    "C104_delete",
    "C104_delete_ub",
    "C104_delete_full",
    "C104_insert_sorted_overflow",
    "C104_insert_sorted_front",
    "C104_sort_overflow",
    "C104_sort_ub",
    "C104_limit_32"
   ],
   "note": "insert/delete beyond INT_MAX are stated undefined for array objects of at most PTRDIFF_MAX bytes (C104_insert_ub, C104_delete_ub)"
  },
  {
   "property": "C105",
   "status": "proved",
   "theorems": [
    "C105_undisturbed",
    "C105_justified",
    "C105_once",
    "C105_defined_once",
    "C105_null_iff",
    "C105_no_null",
    "C105_null_refuted",
    "C105_level",
    "C105_level_refuted"
   ],
   "note": ""
  },
  {
   "property": "C106",
   "status": "proved",
   "theorems": [
    "C106_bounds_exist",
    "C106_output_bound",
    "C106_string_exact",
    "C106_bounds_attained",
    "C106_frame_size",
    "C106_frame_extremes",
    "C106_chain"
   ],
   "note": ""
  },
  {
   "property": "C107",
   "status": "proved",
   "theorems": [
    "C107_source_fifo",
    "C107_source_is_model"
   ],
   "note": ""
  },
  {
   "property": "C108",
   "status": "proved",
   "theorems": [
    "C108_source_init",
    "C108_source_fifo",
    "C108_source_is_model"
   ],
   "note": ""
  },
  {
   "property": "C109",
   "status": "proved",
   "theorems": [
    "C109_source_linearizable",
    "C109_source_no_race",
    "C109_alone_is_C108"
   ],
   "note": ""
  },
  {
   "property": "C110",
   "status": "partial",
   "theorems": [
    "C110_source_history_partial",
    "C110_source_exact",
    "C110_source_ub_iff",
    "C110_source_is_model"
   ],
   "note": "The bounded list specification fails for interior deletes and one-item sorts (bugs of the code, C02 and C04); the exact behaviour, bugs included, is proved in C110_source_exact and C110_source_ub_iff."
  },
  {
   "property": "C111",
   "status": "proved",
   "theorems": [
    "C111_call_null",
    "C111_call_runs_fn",
    "C111_call_hook_first",
    "C111_set_state_null",
    "C111_set_state",
    "C111_set_state_hook_first",
    "C111_fields",
    "C111_hooks"
   ],
   "note": "The three hook variables are static, so each is one object of the memory."
  },
  {
   "property": "C112",
   "status": "proved",
   "theorems": [
    "C112_source_reentrant",
    "C112_source_completes",
    "C112_log_reads_back"
   ],
   "note": "No call hook is installed; items are integers cast to void *. The first case of C112_source_reentrant (NoFuel) is only about programs that never stop calling (C112_source_completes)."
  },
  {
   "property": "C113",
   "status": "proved",
   "theorems": [
    "C113_source_encode",
    "C113_source_decode",
    "C113_source_decode_huge",
    "C113_source_roundtrip"
   ],
   "note": "Input and output are distinct objects and the pointers are to their first cells (overlap: C102 on the model)."
  },
  {
   "property": "C114",
   "status": "proved",
   "theorems": [
    "C114_source_sched",
    "C114_source_completes",
    "C114_log_reads_back"
   ],
   "note": "mu_sched_init is called once, at power-up, and the interrupt table is a power of two (other sizes: C49 on the model); interrupts arrive between calls (inside calls: C45, C51 on the model)."
  },
  {
   "property": "C115",
   "status": "proved",
   "theorems": [
    "C115_source_jems",
    "C115_source_document",
    "C115_source_text"
   ],
   "note": "mu_jems_number and mu_jems_key_number take a double and are left out of the text (C50, C60, C75 cover them on the model); snprintf and sprintf are given their C standard meaning for the two formats used; char is signed."
  },
  {
   "property": "C116",
   "status": "proved",
   "theorems": [
    "C116_source_search",
    "C116_source_search_cstr",
    "C116_source_find",
    "C116_source_parse",
    "C116_source_bytes",
    "C116_source_init",
    "C116_source_slice",
    "C116_source_trim",
    "C116_source_bisect",
    "C116_source_mutate",
    "C116_source_copy_into",
    "C116_source_stream",
    "C116_source_stream_init",
    "C116_source_stream_refs"
   ],
   "note": "The behaviour stated is that of the code, known bugs included (C64-C66, C78-C81: trims that drop a byte, copy_into, empty buffers, INT_MIN). strlen and memset have their C standard meaning; char is signed; predicates are functions of the byte and the user's pointer (C89 treats predicates with state, on the model). The cases in which the model is undefined (wide signed overflow, slices before the object, reverse of an empty buffer, rshift by INT_MIN) are in C118."
  },
  {
   "property": "C117",
   "status": "proved",
   "theorems": [
    "C117_source_history",
    "C117_source_log",
    "C117_source_level_name",
    "C117_source_start",
    "C117_example"
   ],
   "note": "A va_list is modelled as one opaque pointer to the variable arguments (va_start copies it, va_end does nothing). mu_log_level_t is an unsigned 32-bit enumeration. Interrupts between the accesses are C105."
  },
  {
   "property": "C118",
   "status": "proved",
   "theorems": [
    "C118_source_slice",
    "C118_source_parse",
    "C118_source_mutate",
    "C118_example"
   ],
   "note": "Never returns: for every bound on the number of loop iterations the run exceeds it. copy_into is in C116_source_copy_into."
  },
  {
   "property": "C119",
   "status": "proved",
   "theorems": [
    "C119_source_put_in_put",
    "C119_source_put_in_get",
    "C119_example",
    "C119_example_get"
   ],
   "note": "Sequentially consistent memory; the accesses are those of the text in left-to-right order of evaluation. Gets of an empty queue, puts without room, and the pairs whose interrupting call is a get are C97, about the model that C107 proves equal to the text for uninterrupted calls."
  }
 ]
}
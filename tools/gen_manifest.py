#!/usr/bin/env python3
"""Writes MANIFEST.json from the table below, checking that each theorem exists."""
import json, re, glob
claims = [
 ("C01","partial","C01_array_history_partial C01_array_history_refuted C01_insert_huge_refuted","Whole-history refinement holds except for the operations proved wrong: delete of an interior element, sort of one item on a 32-bit size_t, insert at an index >= 2^31."),
 ("C02","partial","C02_delete_tail_partial C02_delete_out_of_range C02_delete_interior_refuted C02_delete_interior_full_refuted","Deleting the last element and out-of-range indices are right; interior deletion is proved wrong."),
 ("C03","partial","C03_sort_partial","All arrays except a single item with 32-bit size_t (C04)."),
 ("C04","partial","C04_sort_tiny_64 C04_sort_empty_32 C04_sort_one_32_refuted","Refuted for one item with 32-bit size_t."),
 ("C05","proved","C05_insert_sorted",""),
 ("C06","proved","C06_index C06_rindex",""),
 ("C07","partial","C07_sort_any_cmp_partial C07_insert_sorted_any_cmp","Same exclusion as C03."),
 ("C08","proved","C08_queue_refines_fifo",""),
 ("C09","proved","C09_queue_conserves",""),
 ("C10","proved","C10_mqueue_fifo_notifies",""),
 ("C11","proved","C11_mqueue_reentrant C11_mqueue_reentrant_completes",""),
 ("C12","proved","C12_spsc_init",""),
 ("C13","proved","C13_spsc_sequential_fifo",""),
 ("C14","proved","C14_spsc_linearizable C14_spsc_in_order C14_put_microsteps C14_get_microsteps","Sequentially consistent memory."),
 ("C15","proved","C15_spsc_no_slot_race C15_spsc_slot_stable","Sequentially consistent memory."),
 ("C16","partial","C16_encode_partial C16_encode_huge_capacity_refuted","Capacities up to INT_MAX; beyond, proved wrong."),
 ("C17","proved","C17_injective C17_prefix_free C17_streams_unique",""),
 ("C18","partial","C18_roundtrip_partial C18_roundtrip_refuted","The decoder returns the message with an extra leading SOH: the documented round trip is proved false for every message."),
 ("C19","partial","C19_decode_language_partial C19_trailing_ignored C19_unterminated_accepted_refuted","Exact accepted language proved; it is larger than documented (input ending in an escaped EOT)."),
 ("C20","proved","C20_decode_bounds",""),
 ("C21","proved","C21_compare_lexicographic C21_compare_cstr C21_compare_total_order C21_huge_refuted","The size bound in the quantifier is needed: C21_huge_refuted."),
 ("C22","proved","C22_prefix_suffix C22_prefix_suffix_cstr",""),
 ("C23","proved","C23_find_substr C23_rfind_substr C23_find_subcstr C23_rfind_subcstr",""),
 ("C24","proved","C24_find_byte C24_find_predicate",""),
 ("C25","partial","C25_slice_partial C25_slice_refuted","Exact for all indices not before the beginning of the buffer; for indices before it the code is proved wrong."),
 ("C26","partial","C26_bisect_partial C26_bisect_refuted","Exact for index >= -capacity; below, the left part is proved to exceed the source."),
 ("C27","partial","C27_ltrim_partial C27_ltrim_refuted C27_rtrim_refuted C27_trim_refuted","ltrim is right unless every byte matches; rtrim and trim are proved wrong."),
 ("C28","proved","C28_parse_unsigned",""),
 ("C29","partial","C29_parse_narrow C29_parse_wide_partial C29_parse_wide_refuted","8- and 16-bit parsers in full; int, int32, int64 for representable values, overflow proved undefined."),
 ("C30","proved","C30_parse_hex",""),
 ("C31","proved","C31_get_ref C31_put",""),
 ("C32","partial","C32_copy_into_partial C32_copy_into_refuted","Every call that should copy something is proved to read an uninitialised variable."),
 ("C33","partial","C33_reverse_partial C33_reverse_empty_refuted","All non-empty buffers; on an empty buffer an out-of-range pointer is formed."),
 ("C34","partial","C34_rrotate_partial C34_rrotate_compose C34_rrotate_empty_refuted","All non-empty buffers and all shifts; on an empty buffer it never returns."),
 ("C35","partial","C35_clear C35_rshift_partial C35_rshift_int_min_refuted","All shifts but INT_MIN, which is undefined behaviour."),
 ("C36","proved","C36_bvec_history C36_init C36_write_reset_read",""),
 ("C37","proved","C37_task_call C37_task_call_safe C37_installed_hook C37_install_independent C37_installed_transfer_hook",""),
 ("C38","partial","C38_set_state_partial C38_set_state_safe C38_same_state_no_hook C38_same_state_refuted C38_installed_hook","Everything but the last clause: with an installed hook, setting the same state again does call the hook (proved)."),
 ("C39","proved","C39_step_priority C39_step_completes","For sane clocks (strict weak order on the pending times and now; see C40_linear_clock, C59) and no NULL task deferred."),
 ("C40","proved","C40_deferred_order C40_next_task C40_linear_clock","For clocks that order the pending times (strict weak order); without hypothesis for a linear clock."),
 ("C41","proved","C41_not_early","For every function mu_time_precedes."),
 ("C42","proved","C42_exactly_once C42_ledger","Observable count for every task that is not also the idle task; the ledger for all."),
 ("C43","proved","C43_remove_deferred",""),
 ("C44","proved","C44_full","Interrupt queue sizes that are powers of two >= 2; the others: C49."),
 ("C45","partial","C45_current_task_partial C45_nested_step_refuted","Holds unless a running task itself calls step, reset or init; with a nested step it is proved false."),
 ("C46","proved","C46_interrupt_latency C46_immediate_latency C46_drain",""),
 ("C47","proved","C47_reset C47_init",""),
 ("C48","proved","C48_linearizable C48_exactly_once C48_interrupt_preferred","Sequentially consistent memory; power-of-two interrupt queue; reset and init are not run concurrently with interrupts."),
 ("C49","proved","C49_bad_irq_size","Sizes 1..65535 (mu_spsc_init takes a uint16_t)."),
 ("C50","proved","C50_document C50_in_context C50_wide_refuted","Containers of at most 2^32 (2^64) items, the range of size_t; one more loses a comma (C50_wide_refuted). Numbers: see C54, C55."),
 ("C51","proved","C51_quoting C51_injective",""),
 ("C52","proved","C52_bounds",""),
 ("C53","partial","C53_too_deep_refuted C60_parses_back","Well-formed for depth < max_level (C60); for every max_level a value one level deeper is proved to yield a text that is not JSON, with no error reported."),
 ("C54","proved","C54_integer C54_decimal_unique",""),
 ("C55","partial","C55_integral C55_fraction_partial C55_truncation_refuted C55_ub_refuted","Integral doubles in full; fractions: error <= 0.0000005 below 10^13, above that decimals are cut off (error proved larger); doubles outside int64_t proved to be undefined behaviour."),
 ("C56","proved","C56_level_and_count","item_count modulo the range of size_t."),
 ("C57","partial","C57_gating_partial C57_is_reporting C57_reporting_level C57_level_during_call_partial C57_nested_refuted","Everything but: when the logging function itself logs, the reporting level is afterwards that of the inner call (proved)."),
 ("C58","proved","C58_level_name",""),
 ("C59","proved","C59_wraparound",""),
 ("C60","proved","C60_parses_back","Containers of at most 2^32 (2^64) items."),
 ("C61","proved","C61_spsc_tso_in_order C61_spsc_tso_drained C61_tso_contains_sc","Store-buffer machine over the same accesses as C14; C61_tso_contains_sc shows that C14's machine is a special case of it."),
 ("C62","partial","C62_spsc_tso_not_linearizable C62_spsc_tso_not_sequentially_consistent C62_spsc_pso_invents_item C14_spsc_linearizable","True of sequentially consistent memory (C14); refuted, by concrete executions, for TSO and for a delayed slot store."),
 ("C63","proved","C63_spsc_quiescent_reset C63_spsc_reset_race_duplicates C63_spsc_reset_race_get","Proved for resets with no call in progress; refuted for resets during a call."),
 ("C64","proved","C64_array_exact C64_array_ub_iff",""),
 ("C65","proved","C65_slice_exact C65_slice_inside",""),
 ("C66","proved","C66_trim_exact",""),
 ("C67","proved","C67_init C67_init_cstr C67_copy",""),
 ("C68","proved","C68_idle_task",""),
 ("C69","proved","C69_transfer C69_wait",""),
 ("C70","proved","C70_deferred_latency",""),
 ("C71","proved","C71_sched_total",""),
 ("C72","proved","C72_task_fields C72_task_writers",""),
 ("C73","proved","C73_task_ctx",""),
 ("C74","proved","C74_link C74_link_tso",""),
 ("C75","proved","C75_exact C75_unique C75_literal",""),
 ("C76","proved","C76_reset",""),
 ("C77","proved","C77_encode_exact C77_decode_exact C77_decode_huge",""),
 ("C78","proved","C78_bisect_exact",""),
 ("C79","proved","C79_parse_signed_exact",""),
 ("C80","proved","C80_copy_into_exact",""),
 ("C81","proved","C81_mutators_exact","Objects smaller than SIZE_MAX bytes; buffers of at most INT_MAX bytes."),
 ("C82","proved","C82_current_task_exact",""),
 ("C83","proved","C83_log_exact",""),
 ("C84","proved","C84_number_exact",""),
 ("C85","proved","C85_spsc_wait_free",""),
 ("C86","proved","C86_spsc_reset_interrupted C86_spsc_reset_interrupted_refuted","The _refuted theorem is the second half: an execution in which puts during a reset report what is not so."),
 ("C87","proved","C87_spsc_nested_puts",""),
 ("C88","proved","C88_sort_any_answers C88_insert_sorted_any_answers C88_stateless","C88_stateless: the model with state is the model of C01-C07 when the answers do not depend on the state."),
 ("C89","proved","C89_find_stateful C89_trim_stateful C89_stateless","C89_stateless: the model with state is the model of C24, C27, C66 when the answers do not depend on the state."),
 ("C90","proved","C90_system C90_queue_call C90_scheduler_alone","Each queue is initialised once, before the history, with its storage."),
 ("C91","proved","C91_no_lost_wakeup","C91_needs_protocol is an example in which the protocol is broken and a message forgotten."),
 ("C92","proved","C92_only_when_due C92_min_spacing",""),
 ("C93","proved","C93_immediate_starves C93_deferred_starves",""),
 ("C94","proved","C94_reset_interrupted C94_reset_interrupted_refuted jreset_alone","The _refuted theorem is an execution in which interrupts during a reset are told what is not so; jreset_alone: the two transitions of a reset are mu_sched_reset."),
 ("C95","proved","C95_nested_from_isr",""),
 ("C97","proved","C97_put_in_put C97_put_in_get C97_get_in_put C97_get_in_get C97_refuted C97_alone","C97_refuted: the out-of-bounds accesses; C97_alone: without an interrupt the accesses add up to the functions of QueueModel.v. Accesses are in program order (the loads of index and count in mu_queue.c:104, which C leaves unordered, left to right)."),
 ("C98","proved","C98_linearizable C98_no_lost_wakeup","mu_sched_init, mu_sched_reset and a mu_sched_from_isr on the main side are excluded, as in C48 (C94: reset)."),
 ("C99","proved","C99_document_in_buffer C99_overflow_visible C99_documents_over_link C99_documents_over_link_tso",""),
 ("C100","proved","C100_interrupted_document C100_interrupted_calls C100_number_refuted","C100_number_refuted: why the claim is about arrays and objects only."),
 ("C101","proved","C101_values C101_initialised C101_overread","The code itself is undefined by the C standard (C32, C80); these theorems are about the code with the two variables holding values."),
 ("C102","proved","C102_decode_overlap C102_encode_overlap C102_decode_in_place C102_encode_in_place_refuted","C102_encode_in_place_refuted is the last sentence of the statement."),
 ("C103","proved","C103_get_ref C103_put C103_clear C103_reverse C103_rshift C103_slice C103_find_byte C103_truncated C103_low_part C103_negative C103_rrotate_hangs",""),
 ("C96","proved","C96_consumer_runs C96_all_taken",""),
 ("C104","proved","C104_near C104_insert C104_insert_ub C104_delete C104_delete_ub C104_delete_full C104_insert_sorted_overflow C104_insert_sorted_front C104_sort_overflow C104_sort_ub C104_limit_32","insert/delete beyond INT_MAX are stated undefined for array objects of at most PTRDIFF_MAX bytes (C104_insert_ub, C104_delete_ub)"),
 ("C105","proved","C105_undisturbed C105_justified C105_once C105_defined_once C105_null_iff C105_no_null C105_null_refuted C105_level C105_level_refuted",""),
 ("C106","proved","C106_bounds_exist C106_output_bound C106_string_exact C106_bounds_attained C106_frame_size C106_frame_extremes C106_chain",""),
 ("C107","proved","C107_source_fifo C107_source_is_model",""),
 ("C108","proved","C108_source_init C108_source_fifo C108_source_is_model",""),
 ("C109","proved","C109_source_linearizable C109_source_no_race C109_alone_is_C108",""),
 ("C110","partial","C110_source_history_partial C110_source_exact C110_source_ub_iff C110_source_is_model","The bounded list specification fails for interior deletes and one-item sorts (bugs of the code, C02 and C04); the exact behaviour, bugs included, is proved in C110_source_exact and C110_source_ub_iff."),
 ("C111","proved","C111_call_null C111_call_runs_fn C111_call_hook_first C111_set_state_null C111_set_state C111_set_state_hook_first C111_fields C111_hooks","The three hook variables are static, so each is one object of the memory."),
 ("C112","proved","C112_source_reentrant C112_source_completes C112_log_reads_back","No call hook is installed; items are integers cast to void *. The first case of C112_source_reentrant (NoFuel) is only about programs that never stop calling (C112_source_completes)."),
 ("C113","proved","C113_source_encode C113_source_decode C113_source_decode_huge C113_source_roundtrip","Input and output are distinct objects and the pointers are to their first cells (overlap: C102 on the model)."),
 ("C114","proved","C114_source_sched C114_source_completes C114_log_reads_back","mu_sched_init is called once, at power-up, and the interrupt table is a power of two (other sizes: C49 on the model); interrupts arrive between calls (inside calls: C45, C51 on the model)."),
 ("C115","proved","C115_source_jems C115_source_document C115_source_text","mu_jems_number and mu_jems_key_number take a double and are left out of the text (C50, C60, C75 cover them on the model); snprintf and sprintf are given their C standard meaning for the two formats used; char is signed."),
 ("C116","proved","C116_source_search C116_source_search_cstr C116_source_find C116_source_parse C116_source_bytes C116_source_init C116_source_slice C116_source_trim C116_source_bisect C116_source_mutate C116_source_copy_into C116_source_stream C116_source_stream_init C116_source_stream_refs","The behaviour stated is that of the code, known bugs included (C64-C66, C78-C81: trims that drop a byte, copy_into, empty buffers, INT_MIN). strlen and memset have their C standard meaning; char is signed; predicates are functions of the byte and the user's pointer (C89 treats predicates with state, on the model). The cases in which the model is undefined (wide signed overflow, slices before the object, reverse of an empty buffer, rshift by INT_MIN) are in C118."),
 ("C117","proved","C117_source_history C117_source_log C117_source_level_name C117_source_start C117_example","A va_list is modelled as one opaque pointer to the variable arguments (va_start copies it, va_end does nothing). mu_log_level_t is an unsigned 32-bit enumeration. Interrupts between the accesses are C105."),
 ("C118","proved","C118_source_slice C118_source_parse C118_source_mutate C118_example","Never returns: for every bound on the number of loop iterations the run exceeds it. copy_into is in C116_source_copy_into."),
 ("C119","proved","C119_source_put_in_put C119_source_put_in_get C119_example C119_example_get","Sequentially consistent memory; the accesses are those of the text in left-to-right order of evaluation. Gets of an empty queue, puts without room, and the pairs whose interrupting call is a get are C97, about the model that C107 proves equal to the text for uninterrupted calls."),
]
ids = [json.loads(l)["id"] for l in open("properties.jsonl")]
src = "".join(open(f).read() for f in glob.glob("rocq/theories/*.v"))
names = set(re.findall(r"^\s*(?:Theorem|Lemma|Corollary)\s+(\w+)", src, re.M))
out = []
for c, st, ths, note in claims:
    for t in ths.split():
        assert t in names, t
    assert c in ids, c
    out.append({"property": c, "status": st, "theorems": ths.split(), "note": note})
used = {t for c in out for t in c["theorems"]}
for t in sorted(names):
    if re.match(r"C\d+_", t) and t not in used: print("not in manifest:", t)
for i in ids:
    if i not in {c["property"] for c in out}: print("no claim for", i)
json.dump({"claims": out}, open("MANIFEST.json", "w"), indent=1)

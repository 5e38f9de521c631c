C01_fresh: Closed under the global context
C01_stable: Closed under the global context
C01_never_reused: Closed under the global context
C02_failure_changes_nothing: Closed under the global context
C02_unknown_output: Closed under the global context
C02_unknown_module: Closed under the global context
C02_only_failures: Closed under the global context
C03_num_wire: Closed under the global context
C03_input_output_len: Closed under the global context
C03_new_empty: Closed under the global context
C03_inlined_counts: Closed under the global context
C04_consumers: Closed under the global context
C04_multiplicity: Closed under the global context
C04_unused: Closed under the global context
C05_input_wire: Closed under the global context
C05_output_wire: Closed under the global context
C05_outside: Closed under the global context
C05_inputs_distinct: Closed under the global context
C06_constants: Closed under the global context
C06_ascending: Closed under the global context
C06_order: Closed under the global context
C07_register: Closed under the global context
C07_sub_circuit: Closed under the global context
C07_for_ever: Closed under the global context
C07_frame: Closed under the global context
C07_put: Closed under the global context
C07_get: Closed under the global context
C07_modules: Closed under the global context
C08_gate_meaning_kept: Closed under the global context
C08_gate_meaning_unique: Closed under the global context
C08_output_kept: Closed under the global context
C09_cases: Closed under the global context
C09_success: Closed under the global context
C09_underflow: Closed under the global context
C10_self_call: Closed under the global context
C10_no_direct_recursion: Closed under the global context
C10_mutual_recursion: Closed under the global context
C11_equivalence: Closed under the global context
C11_equal_means_equal: Closed under the global context
C11_modules_not_compared: Closed under the global context
C11_num_const_ignored: Closed under the global context
C12_sound: Closed under the global context
C12_deterministic: Closed under the global context
C13_complete: Closed under the global context
C13_unconsumed: Closed under the global context
C14_passthrough: Closed under the global context
C14_not_chain: Closed under the global context
C14_order_matters: Closed under the global context
C14_same_gates: Closed under the global context
C15_wrong_length: Closed under the global context
C15_never_invalid_len: Closed under the global context
C16_composition: Closed under the global context
C16_evaluated: Closed under the global context
C17_truth_tables: Closed under the global context
C18_read: Closed under the global context
C18_frame: Closed under the global context
C18_eval: Closed under the global context
C19_accepts: Closed under the global context
C19_exact: Closed under the global context
C19_printed: Closed under the global context
C20_unknown_wire: Closed under the global context
C20_reused: Closed under the global context
C21_too_many_outputs: Closed under the global context
C21_undefined_output: Closed under the global context
C21_short_line: Closed under the global context
C22_eq_is_copy: Closed under the global context
C22_deviates: Closed under the global context
C23_round_trip: Closed under the global context
C23_printed: Closed under the global context
C23_printed_word: Closed under the global context
C23_accepts: Closed under the global context
C23_rejects: Closed under the global context
C23_tokens: Closed under the global context
C23_lines: Closed under the global context
C24_terminates: Closed under the global context
C24_values: Closed under the global context
C24_outputs: Closed under the global context
C25_wires: Closed under the global context
C25_single_assignment: Closed under the global context
C26_header: Closed under the global context
C26_panics: Closed under the global context
C26_not_exact: Closed under the global context
C27_round_trip: Closed under the global context
C28_wire_count: Closed under the global context
C28_unreadable: Closed under the global context
C29_swapped: Closed under the global context
C29_duplicated: Closed under the global context
C30_second_write: Closed under the global context
C31_bytes2bits_le: Closed under the global context
C31_bytes2bits_be: Closed under the global context
C31_bits2bytes_le: Closed under the global context
C31_bits2bytes_be: Closed under the global context
C31_bytes_round_trip: Closed under the global context
C31_bits_round_trip: Closed under the global context
C32_panic: Closed under the global context
C32_no_panic: Closed under the global context
C33_bytes_round_trip: Closed under the global context
C33_accepts: Closed under the global context
C33_rejects_odd: Closed under the global context
C33_rejects_char: Closed under the global context
C34_terminates: Closed under the global context
C34_fuel: Closed under the global context
C34_bezout: Closed under the global context
C35_not: Closed under the global context
C35_and: Closed under the global context
C35_or: Closed under the global context
C35_xor: Closed under the global context
C36_eq: Closed under the global context
C36_neq: Closed under the global context
C37_expressions: Closed under the global context
C37_from_gate_ids: Closed under the global context
C38_add: Closed under the global context
C38_no_bits: Closed under the global context
C39_sub: Closed under the global context
C40_mul: Closed under the global context
C41_mul_extend: Closed under the global context
C42_modules: Closed under the global context
C42_signed: Closed under the global context
C42_unsigned: Closed under the global context
C43_from_biguint: Closed under the global context
C43_from_biguint_value: Closed under the global context
C43_narrow: Closed under the global context
C43_zero_one: Closed under the global context
C43_from_gate_ids: Closed under the global context
C43_from_gate_ids_panic: Closed under the global context
C44_shift_left: Closed under the global context
C44_shift_right: Closed under the global context
C44_shift_left_long: Closed under the global context
C44_shift_right_long: Closed under the global context
C45_expressions: Closed under the global context
C45_closed: Closed under the global context
C46_add: Closed under the global context
C46_sub: Closed under the global context
C47_inverse: Closed under the global context
C48_r2: Closed under the global context
C48_mul: Closed under the global context
C49_mont_red: Closed under the global context
C49_montgomery: Closed under the global context
C49_not_reduced: Closed under the global context
C50_config: Closed under the global context
C50_inverse: Closed under the global context
C50_montgomery: Closed under the global context
C51_adder64: Closed under the global context
C51_words: Closed under the global context
C52_sub64: Closed under the global context
C52_words: Closed under the global context
C53_neg64: Closed under the global context
C53_words: Closed under the global context
C54_mult2_64: Closed under the global context
C54_words: Closed under the global context
C55_unsigned: Closed under the global context
C55_unsigned_words: Closed under the global context
C55_signed: Closed under the global context
C55_signed_words: Closed under the global context
C56_aes128: Closed under the global context
C56_bytes: Closed under the global context
C57_range: Closed under the global context
C57_expressions: Closed under the global context
C57_ring: Closed under the global context
C58_unsigned_by_zero: Closed under the global context
C58_signed_by_zero: Closed under the global context
C58_signed_overflow: Closed under the global context
C59_outcomes: Closed under the global context
C59_no_panic: Closed under the global context
C59_panics: Closed under the global context
C60_ordered: Closed under the global context
C61_programs: Closed under the global context
C62_bits: Closed under the global context
C62_field: Closed under the global context
C62_programs: Closed under the global context
C63_rewrite: Closed under the global context
C64_designs: Closed under the global context
C64_exported: Closed under the global context
C64_text_module: Closed under the global context
C65_words: Closed under the global context
C65_exported: Closed under the global context
C66_blocks: Closed under the global context
C66_exported: Closed under the global context
C66_cbc: Closed under the global context
C67_lines: Closed under the global context
C67_exact: Closed under the global context
C67_unreadable: Closed under the global context
C67_adder: Closed under the global context
C67_programs: Closed under the global context
C68_int: Closed under the global context
C68_fp: Closed under the global context
C68_bits: Closed under the global context
C68_mul_extend: Closed under the global context
C68_programs: Closed under the global context
C68_field_programs: Closed under the global context
C68_bits_programs: Closed under the global context
C69_prefix: Closed under the global context
C69_good_sink: Closed under the global context
C70_lost: Closed under the global context
C70_dropped: Closed under the global context
C71_safe: Closed under the global context
C71_header: Closed under the global context
C71_fourth: Closed under the global context
C71_gates: Closed under the global context
C71_fails: Closed under the global context
C72_white: Closed under the global context
C72_encoding: Closed under the global context
C72_utf8: Closed under the global context
C72_ascii: Closed under the global context
C72_invalid: Closed under the global context
C73_release: Closed under the global context
C73_debug: Closed under the global context
C73_wires: Closed under the global context
C73_overflow: Closed under the global context
C73_write: Closed under the global context
C73_write_panics: Closed under the global context
C73_header: Closed under the global context
C73_eval: Closed under the global context
C74_eval: Closed under the global context
C74_write: Closed under the global context
C74_terminates: Closed under the global context
C74_enough: Closed under the global context
C74_complete: Closed under the global context
C74_needed: Closed under the global context
C74_write_needed: Closed under the global context
C74_endless: Closed under the global context
C74_chain: Closed under the global context
C75_calls: Closed under the global context
C75_no_guard: Closed under the global context
C75_no_guard_history: Closed under the global context
C75_through_guard: Closed under the global context
C75_questions: Closed under the global context
C75_get_module: Closed under the global context
C75_guards: Closed under the global context
C75_frozen: Closed under the global context
C75_frozen_storage: Closed under the global context
C75_eval: Closed under the global context
C75_eval_held: Closed under the global context
C75_eval_lookup: Closed under the global context
C76_counter: Closed under the global context
C76_exact: Closed under the global context
C76_numbers: Closed under the global context
C76_written: Closed under the global context
C77_limit: Closed under the global context
C77_flat: Closed under the global context
C77_repeated: Closed under the global context
C78_append: Closed under the global context
C78_exact: Closed under the global context
C78_accepts: Closed under the global context
C78_side_by_side: Closed under the global context
C79_several: Closed under the global context
C79_exact: Closed under the global context
C79_accepts: Closed under the global context
C80_evaluable: Closed under the global context
C80_text: Closed under the global context
C80_builders: Closed under the global context
C80_row: Closed under the global context
C81_counts: Closed under the global context
C81_total: Closed under the global context
C81_heap: Closed under the global context
C81_safe: Closed under the global context
C81_live: Closed under the global context
C81_acyclic: Closed under the global context
C81_no_modules: Closed under the global context
C81_leak: Closed under the global context
C81_sub_circuit: Closed under the global context
C81_register: Closed under the global context
C81_put: Closed under the global context
C81_main: Closed under the global context
C82_ends: Closed under the global context
C82_overflow: Closed under the global context
C82_sub_circuit: Closed under the global context
C83_read: Closed under the global context
C83_read_held: Closed under the global context
C83_read_changes: Closed under the global context
C83_write: Closed under the global context
C83_write_shared: Closed under the global context
C83_write_held: Closed under the global context
C83_write_call: Closed under the global context
C84_where: Closed under the global context
C84_inside: Closed under the global context
C84_retry: Closed under the global context
C84_repair: Closed under the global context
C85_cause: Closed under the global context
C85_same: Closed under the global context
C85_modes: Closed under the global context
C85_again: Closed under the global context
C85_calls: Closed under the global context
C86_circuit: Closed under the global context
C86_evaluator: Closed under the global context
C86_bristol: Closed under the global context
C86_read: Closed under the global context
C86_names: Closed under the global context
C86_makes: Closed under the global context
C86_operands: Closed under the global context
C86_add: Closed under the global context
C86_monoid: Closed under the global context
C86_show: Closed under the global context
C87_add: Closed under the global context
C87_sub: Closed under the global context
C87_neg: Closed under the global context
C87_mul: Closed under the global context
C87_mul_extend: Closed under the global context
C88_cause: Closed under the global context
C88_count: Closed under the global context
C88_only: Closed under the global context
C89_cause: Closed under the global context
C89_exact: Closed under the global context
C90_write: Closed under the global context
C90_values: Closed under the global context
C90_true: Closed under the global context
C91_same: Closed under the global context
C91_part: Closed under the global context
C91_wires: Closed under the global context
C91_retry: Closed under the global context
C92_calls: Closed under the global context
C92_sound: Closed under the global context
C92_long: Closed under the global context
C92_kept: Closed under the global context
C92_release: Closed under the global context
C92_text: Closed under the global context
C92_debug: Closed under the global context
C93_calls: Closed under the global context
C93_sound: Closed under the global context
C93_complete: Closed under the global context
C93_gates: Closed under the global context
C93_text: Closed under the global context
C93_untouched: Closed under the global context
C94_course: Closed under the global context
C94_bits: Closed under the global context
C94_exchange: Closed under the global context
C95_values: Closed under the global context
C95_output: Closed under the global context
C95_irrelevant: Closed under the global context
C96_hidden: Closed under the global context
C96_exchange: Closed under the global context
C96_calls: Closed under the global context
C96_programs: Closed under the global context
C97_tokens: Closed under the global context
C97_more: Closed under the global context
C98_calls: Closed under the global context
C98_cause: Closed under the global context
C98_histories: Closed under the global context
C98_eval_any: Closed under the global context
C98_eval: Closed under the global context
C98_read: Closed under the global context

{
 "claims": [
  {
   "property": "C01",
   "status": "proved",
   "theorems": [
    "C01_fresh",
    "C01_stable",
    "C01_never_reused"
   ],
   "note": ""
  },
  {
   "property": "C02",
   "status": "proved",
   "theorems": [
    "C02_failure_changes_nothing",
    "C02_unknown_output",
    "C02_unknown_module",
    "C02_only_failures"
   ],
   "note": ""
  },
  {
   "property": "C03",
   "status": "proved",
   "theorems": [
    "C03_num_wire",
    "C03_input_output_len",
    "C03_new_empty",
    "C03_inlined_counts"
   ],
   "note": ""
  },
  {
   "property": "C04",
   "status": "proved",
   "theorems": [
    "C04_consumers",
    "C04_multiplicity",
    "C04_unused"
   ],
   "note": ""
  },
  {
   "property": "C05",
   "status": "proved",
   "theorems": [
    "C05_input_wire",
    "C05_output_wire",
    "C05_outside",
    "C05_inputs_distinct"
   ],
   "note": ""
  },
  {
   "property": "C06",
   "status": "proved",
   "theorems": [
    "C06_constants",
    "C06_ascending",
    "C06_order"
   ],
   "note": ""
  },
  {
   "property": "C07",
   "status": "proved",
   "theorems": [
    "C07_register",
    "C07_sub_circuit",
    "C07_for_ever",
    "C07_frame",
    "C07_put",
    "C07_get",
    "C07_modules"
   ],
   "note": ""
  },
  {
   "property": "C08",
   "status": "proved",
   "theorems": [
    "C08_gate_meaning_kept",
    "C08_gate_meaning_unique",
    "C08_output_kept"
   ],
   "note": ""
  },
  {
   "property": "C09",
   "status": "proved",
   "theorems": [
    "C09_cases",
    "C09_success",
    "C09_underflow"
   ],
   "note": ""
  },
  {
   "property": "C10",
   "status": "proved",
   "theorems": [
    "C10_self_call",
    "C10_no_direct_recursion",
    "C10_mutual_recursion"
   ],
   "note": ""
  },
  {
   "property": "C11",
   "status": "proved",
   "theorems": [
    "C11_equivalence",
    "C11_equal_means_equal",
    "C11_modules_not_compared",
    "C11_num_const_ignored"
   ],
   "note": ""
  },
  {
   "property": "C12",
   "status": "proved",
   "theorems": [
    "C12_sound",
    "C12_deterministic"
   ],
   "note": ""
  },
  {
   "property": "C13",
   "status": "proved",
   "theorems": [
    "C13_complete",
    "C13_unconsumed"
   ],
   "note": ""
  },
  {
   "property": "C14",
   "status": "proved",
   "theorems": [
    "C14_passthrough",
    "C14_not_chain",
    "C14_order_matters",
    "C14_same_gates"
   ],
   "note": ""
  },
  {
   "property": "C15",
   "status": "proved",
   "theorems": [
    "C15_wrong_length",
    "C15_never_invalid_len"
   ],
   "note": ""
  },
  {
   "property": "C16",
   "status": "proved",
   "theorems": [
    "C16_composition",
    "C16_evaluated"
   ],
   "note": ""
  },
  {
   "property": "C17",
   "status": "proved",
   "theorems": [
    "C17_truth_tables"
   ],
   "note": ""
  },
  {
   "property": "C18",
   "status": "proved",
   "theorems": [
    "C18_read",
    "C18_frame",
    "C18_eval"
   ],
   "note": ""
  },
  {
   "property": "C19",
   "status": "proved",
   "theorems": [
    "C19_accepts",
    "C19_exact",
    "C19_printed"
   ],
   "note": ""
  },
  {
   "property": "C20",
   "status": "proved",
   "theorems": [
    "C20_unknown_wire",
    "C20_reused"
   ],
   "note": ""
  },
  {
   "property": "C21",
   "status": "proved",
   "theorems": [
    "C21_too_many_outputs",
    "C21_undefined_output",
    "C21_short_line"
   ],
   "note": ""
  },
  {
   "property": "C22",
   "status": "proved",
   "theorems": [
    "C22_eq_is_copy",
    "C22_deviates"
   ],
   "note": ""
  },
  {
   "property": "C23",
   "status": "proved",
   "theorems": [
    "C23_round_trip",
    "C23_printed",
    "C23_printed_word",
    "C23_accepts",
    "C23_rejects",
    "C23_tokens",
    "C23_lines"
   ],
   "note": ""
  },
  {
   "property": "C24",
   "status": "proved",
   "theorems": [
    "C24_terminates",
    "C24_values",
    "C24_outputs"
   ],
   "note": ""
  },
  {
   "property": "C25",
   "status": "proved",
   "theorems": [
    "C25_wires",
    "C25_single_assignment"
   ],
   "note": ""
  },
  {
   "property": "C26",
   "status": "proved",
   "theorems": [
    "C26_header",
    "C26_panics",
    "C26_not_exact"
   ],
   "note": ""
  },
  {
   "property": "C27",
   "status": "proved",
   "theorems": [
    "C27_round_trip"
   ],
   "note": ""
  },
  {
   "property": "C28",
   "status": "proved",
   "theorems": [
    "C28_wire_count",
    "C28_unreadable"
   ],
   "note": ""
  },
  {
   "property": "C29",
   "status": "proved",
   "theorems": [
    "C29_swapped",
    "C29_duplicated"
   ],
   "note": ""
  },
  {
   "property": "C30",
   "status": "proved",
   "theorems": [
    "C30_second_write"
   ],
   "note": ""
  },
  {
   "property": "C31",
   "status": "proved",
   "theorems": [
    "C31_bytes2bits_le",
    "C31_bytes2bits_be",
    "C31_bits2bytes_le",
    "C31_bits2bytes_be",
    "C31_bytes_round_trip",
    "C31_bits_round_trip"
   ],
   "note": ""
  },
  {
   "property": "C32",
   "status": "proved",
   "theorems": [
    "C32_panic",
    "C32_no_panic"
   ],
   "note": ""
  },
  {
   "property": "C33",
   "status": "proved",
   "theorems": [
    "C33_bytes_round_trip",
    "C33_accepts",
    "C33_rejects_odd",
    "C33_rejects_char"
   ],
   "note": ""
  },
  {
   "property": "C34",
   "status": "proved",
   "theorems": [
    "C34_terminates",
    "C34_fuel",
    "C34_bezout"
   ],
   "note": ""
  },
  {
   "property": "C35",
   "status": "proved",
   "theorems": [
    "C35_not",
    "C35_and",
    "C35_or",
    "C35_xor"
   ],
   "note": ""
  },
  {
   "property": "C36",
   "status": "proved",
   "theorems": [
    "C36_eq",
    "C36_neq"
   ],
   "note": ""
  },
  {
   "property": "C37",
   "status": "proved",
   "theorems": [
    "C37_expressions",
    "C37_from_gate_ids"
   ],
   "note": ""
  },
  {
   "property": "C38",
   "status": "proved",
   "theorems": [
    "C38_add",
    "C38_no_bits"
   ],
   "note": ""
  },
  {
   "property": "C39",
   "status": "proved",
   "theorems": [
    "C39_sub"
   ],
   "note": ""
  },
  {
   "property": "C40",
   "status": "proved",
   "theorems": [
    "C40_mul"
   ],
   "note": ""
  },
  {
   "property": "C41",
   "status": "proved",
   "theorems": [
    "C41_mul_extend"
   ],
   "note": ""
  },
  {
   "property": "C42",
   "status": "proved",
   "theorems": [
    "C42_modules",
    "C42_signed",
    "C42_unsigned"
   ],
   "note": ""
  },
  {
   "property": "C43",
   "status": "proved",
   "theorems": [
    "C43_from_biguint",
    "C43_from_biguint_value",
    "C43_narrow",
    "C43_zero_one",
    "C43_from_gate_ids",
    "C43_from_gate_ids_panic"
   ],
   "note": ""
  },
  {
   "property": "C44",
   "status": "proved",
   "theorems": [
    "C44_shift_left",
    "C44_shift_right",
    "C44_shift_left_long",
    "C44_shift_right_long"
   ],
   "note": ""
  },
  {
   "property": "C45",
   "status": "proved",
   "theorems": [
    "C45_expressions",
    "C45_closed"
   ],
   "note": ""
  },
  {
   "property": "C46",
   "status": "proved",
   "theorems": [
    "C46_add",
    "C46_sub"
   ],
   "note": ""
  },
  {
   "property": "C47",
   "status": "proved",
   "theorems": [
    "C47_inverse"
   ],
   "note": ""
  },
  {
   "property": "C48",
   "status": "proved",
   "theorems": [
    "C48_r2",
    "C48_mul"
   ],
   "note": ""
  },
  {
   "property": "C49",
   "status": "proved",
   "theorems": [
    "C49_mont_red",
    "C49_montgomery",
    "C49_not_reduced"
   ],
   "note": ""
  },
  {
   "property": "C50",
   "status": "proved",
   "theorems": [
    "C50_config",
    "C50_inverse",
    "C50_montgomery"
   ],
   "note": ""
  },
  {
   "property": "C51",
   "status": "proved",
   "theorems": [
    "C51_adder64",
    "C51_words"
   ],
   "note": ""
  },
  {
   "property": "C52",
   "status": "proved",
   "theorems": [
    "C52_sub64",
    "C52_words"
   ],
   "note": ""
  },
  {
   "property": "C53",
   "status": "proved",
   "theorems": [
    "C53_neg64",
    "C53_words"
   ],
   "note": ""
  },
  {
   "property": "C54",
   "status": "proved",
   "theorems": [
    "C54_mult2_64",
    "C54_words"
   ],
   "note": ""
  },
  {
   "property": "C55",
   "status": "proved",
   "theorems": [
    "C55_unsigned",
    "C55_unsigned_words",
    "C55_signed",
    "C55_signed_words"
   ],
   "note": ""
  },
  {
   "property": "C56",
   "status": "proved",
   "theorems": [
    "C56_aes128",
    "C56_bytes"
   ],
   "note": ""
  },
  {
   "property": "C57",
   "status": "proved",
   "theorems": [
    "C57_range",
    "C57_expressions",
    "C57_ring"
   ],
   "note": ""
  },
  {
   "property": "C58",
   "status": "proved",
   "theorems": [
    "C58_unsigned_by_zero",
    "C58_signed_by_zero",
    "C58_signed_overflow"
   ],
   "note": ""
  },
  {
   "property": "C59",
   "status": "proved",
   "theorems": [
    "C59_outcomes",
    "C59_no_panic",
    "C59_panics"
   ],
   "note": ""
  },
  {
   "property": "C60",
   "status": "proved",
   "theorems": [
    "C60_ordered"
   ],
   "note": ""
  },
  {
   "property": "C61",
   "status": "proved",
   "theorems": [
    "C61_programs"
   ],
   "note": ""
  },
  {
   "property": "C62",
   "status": "proved",
   "theorems": [
    "C62_bits",
    "C62_field",
    "C62_programs"
   ],
   "note": ""
  },
  {
   "property": "C63",
   "status": "proved",
   "theorems": [
    "C63_rewrite"
   ],
   "note": ""
  },
  {
   "property": "C64",
   "status": "proved",
   "theorems": [
    "C64_designs",
    "C64_exported",
    "C64_text_module"
   ],
   "note": ""
  },
  {
   "property": "C65",
   "status": "proved",
   "theorems": [
    "C65_words",
    "C65_exported"
   ],
   "note": ""
  },
  {
   "property": "C66",
   "status": "proved",
   "theorems": [
    "C66_blocks",
    "C66_exported",
    "C66_cbc"
   ],
   "note": ""
  },
  {
   "property": "C67",
   "status": "proved",
   "theorems": [
    "C67_lines",
    "C67_exact",
    "C67_unreadable",
    "C67_adder",
    "C67_programs"
   ],
   "note": ""
  },
  {
   "property": "C68",
   "status": "proved",
   "theorems": [
    "C68_int",
    "C68_fp",
    "C68_bits",
    "C68_mul_extend",
    "C68_programs",
    "C68_field_programs",
    "C68_bits_programs"
   ],
   "note": ""
  },
  {
   "property": "C69",
   "status": "proved",
   "theorems": [
    "C69_prefix",
    "C69_good_sink"
   ],
   "note": ""
  },
  {
   "property": "C70",
   "status": "proved",
   "theorems": [
    "C70_lost",
    "C70_dropped"
   ],
   "note": ""
  },
  {
   "property": "C71",
   "status": "proved",
   "theorems": [
    "C71_safe",
    "C71_header",
    "C71_fourth",
    "C71_gates",
    "C71_fails"
   ],
   "note": ""
  },
  {
   "property": "C72",
   "status": "proved",
   "theorems": [
    "C72_white",
    "C72_encoding",
    "C72_utf8",
    "C72_ascii",
    "C72_invalid"
   ],
   "note": ""
  },
  {
   "property": "C73",
   "status": "proved",
   "theorems": [
    "C73_release",
    "C73_debug",
    "C73_wires",
    "C73_overflow",
    "C73_write",
    "C73_write_panics",
    "C73_header",
    "C73_eval"
   ],
   "note": ""
  },
  {
   "property": "C74",
   "status": "proved",
   "theorems": [
    "C74_eval",
    "C74_write",
    "C74_terminates",
    "C74_enough",
    "C74_complete",
    "C74_needed",
    "C74_write_needed",
    "C74_endless",
    "C74_chain"
   ],
   "note": ""
  },
  {
   "property": "C75",
   "status": "proved",
   "theorems": [
    "C75_calls",
    "C75_no_guard",
    "C75_no_guard_history",
    "C75_through_guard",
    "C75_questions",
    "C75_get_module",
    "C75_guards",
    "C75_frozen",
    "C75_frozen_storage",
    "C75_eval",
    "C75_eval_held",
    "C75_eval_lookup"
   ],
   "note": ""
  },
  {
   "property": "C76",
   "status": "proved",
   "theorems": [
    "C76_counter",
    "C76_exact",
    "C76_numbers",
    "C76_written"
   ],
   "note": ""
  },
  {
   "property": "C77",
   "status": "proved",
   "theorems": [
    "C77_limit",
    "C77_flat",
    "C77_repeated"
   ],
   "note": ""
  },
  {
   "property": "C78",
   "status": "proved",
   "theorems": [
    "C78_append",
    "C78_exact",
    "C78_accepts",
    "C78_side_by_side"
   ],
   "note": ""
  },
  {
   "property": "C79",
   "status": "proved",
   "theorems": [
    "C79_several",
    "C79_exact",
    "C79_accepts"
   ],
   "note": ""
  },
  {
   "property": "C80",
   "status": "proved",
   "theorems": [
    "C80_evaluable",
    "C80_text",
    "C80_builders",
    "C80_row"
   ],
   "note": ""
  },
  {
   "property": "C81",
   "status": "proved",
   "theorems": [
    "C81_counts",
    "C81_total",
    "C81_heap",
    "C81_safe",
    "C81_live",
    "C81_acyclic",
    "C81_no_modules",
    "C81_leak",
    "C81_sub_circuit",
    "C81_register",
    "C81_put",
    "C81_main"
   ],
   "note": ""
  },
  {
   "property": "C82",
   "status": "proved",
   "theorems": [
    "C82_ends",
    "C82_overflow",
    "C82_sub_circuit"
   ],
   "note": ""
  },
  {
   "property": "C83",
   "status": "proved",
   "theorems": [
    "C83_read",
    "C83_read_held",
    "C83_read_changes",
    "C83_write",
    "C83_write_shared",
    "C83_write_held",
    "C83_write_call"
   ],
   "note": ""
  },
  {
   "property": "C84",
   "status": "proved",
   "theorems": [
    "C84_where",
    "C84_inside",
    "C84_retry",
    "C84_repair"
   ],
   "note": ""
  },
  {
   "property": "C85",
   "status": "proved",
   "theorems": [
    "C85_cause",
    "C85_same",
    "C85_modes",
    "C85_again",
    "C85_calls"
   ],
   "note": ""
  },
  {
   "property": "C86",
   "status": "proved",
   "theorems": [
    "C86_circuit",
    "C86_evaluator",
    "C86_bristol",
    "C86_read",
    "C86_names",
    "C86_makes",
    "C86_operands",
    "C86_add",
    "C86_monoid",
    "C86_show"
   ],
   "note": ""
  },
  {
   "property": "C87",
   "status": "proved",
   "theorems": [
    "C87_add",
    "C87_sub",
    "C87_neg",
    "C87_mul",
    "C87_mul_extend"
   ],
   "note": ""
  },
  {
   "property": "C88",
   "status": "proved",
   "theorems": [
    "C88_cause",
    "C88_count",
    "C88_only"
   ],
   "note": ""
  },
  {
   "property": "C89",
   "status": "proved",
   "theorems": [
    "C89_cause",
    "C89_exact"
   ],
   "note": ""
  },
  {
   "property": "C90",
   "status": "proved",
   "theorems": [
    "C90_write",
    "C90_values",
    "C90_true"
   ],
   "note": ""
  },
  {
   "property": "C91",
   "status": "proved",
   "theorems": [
    "C91_same",
    "C91_part",
    "C91_wires",
    "C91_retry"
   ],
   "note": ""
  },
  {
   "property": "C92",
   "status": "proved",
   "theorems": [
    "C92_calls",
    "C92_sound",
    "C92_long",
    "C92_kept",
    "C92_release",
    "C92_text",
    "C92_debug"
   ],
   "note": ""
  },
  {
   "property": "C93",
   "status": "proved",
   "theorems": [
    "C93_calls",
    "C93_sound",
    "C93_complete",
    "C93_gates",
    "C93_text",
    "C93_untouched"
   ],
   "note": ""
  },
  {
   "property": "C94",
   "status": "proved",
   "theorems": [
    "C94_course",
    "C94_bits",
    "C94_exchange"
   ],
   "note": ""
  },
  {
   "property": "C95",
   "status": "proved",
   "theorems": [
    "C95_values",
    "C95_output",
    "C95_irrelevant"
   ],
   "note": ""
  },
  {
   "property": "C96",
   "status": "proved",
   "theorems": [
    "C96_hidden",
    "C96_exchange",
    "C96_calls",
    "C96_programs"
   ],
   "note": ""
  },
  {
   "property": "C97",
   "status": "proved",
   "theorems": [
    "C97_tokens",
    "C97_more"
   ],
   "note": ""
  },
  {
   "property": "C98",
   "status": "proved",
   "theorems": [
    "C98_calls",
    "C98_cause",
    "C98_histories",
    "C98_eval_any",
    "C98_eval",
    "C98_read"
   ],
   "note": ""
  }
 ]
}
{
 "claims": [
  {
   "property": "C01",
   "status": "proved",
   "theorems": [
    "C01_execute_is_evm"
   ],
   "note": ""
  },
  {
   "property": "C02",
   "status": "proved",
   "theorems": [
    "C02_no_undefined_behaviour"
   ],
   "note": ""
  },
  {
   "property": "C03",
   "status": "proved",
   "theorems": [
    "C03_termination"
   ],
   "note": ""
  },
  {
   "property": "C04",
   "status": "proved",
   "theorems": [
    "C04_gas_contract"
   ],
   "note": ""
  },
  {
   "property": "C05",
   "status": "proved",
   "theorems": [
    "C05_refund_bounded"
   ],
   "note": ""
  },
  {
   "property": "C06",
   "status": "proved",
   "theorems": [
    "C06_static_safe"
   ],
   "note": ""
  },
  {
   "property": "C07",
   "status": "proved",
   "theorems": [
    "C07_analysis",
    "C07_executed_instructions",
    "C07_jump",
    "C07_jumpi"
   ],
   "note": ""
  },
  {
   "property": "C08",
   "status": "proved",
   "theorems": [
    "C08_padding",
    "C08_stop_in_padding",
    "C08_run_off_end",
    "C08_truncated_push"
   ],
   "note": ""
  },
  {
   "property": "C09",
   "status": "proved",
   "theorems": [
    "C09_stack_limits",
    "C09_height",
    "C09_recycled_execute",
    "C09_recycled_step"
   ],
   "note": ""
  },
  {
   "property": "C10",
   "status": "proved",
   "theorems": [
    "C10_expansion_cost"
   ],
   "note": ""
  },
  {
   "property": "C11",
   "status": "proved",
   "theorems": [
    "C11_run",
    "C11_step"
   ],
   "note": ""
  },
  {
   "property": "C12",
   "status": "proved",
   "theorems": [
    "C12_grow",
    "C12_get_span",
    "C12_write_to",
    "C12_read_from",
    "C12_read_from_with_size",
    "C12_copy",
    "C12_mcopy"
   ],
   "note": "Sums of offset and size below 2^62."
  },
  {
   "property": "C13",
   "status": "proved",
   "theorems": [
    "C13_mstore",
    "C13_mstore8",
    "C13_mload",
    "C13_round_trip"
   ],
   "note": ""
  },
  {
   "property": "C14",
   "status": "proved",
   "theorems": [
    "C14_binary",
    "C14_ternary",
    "C14_unary",
    "C14_unpaid"
   ],
   "note": ""
  },
  {
   "property": "C15",
   "status": "proved",
   "theorems": [
    "C15_bitwise",
    "C15_not",
    "C15_bits"
   ],
   "note": ""
  },
  {
   "property": "C16",
   "status": "proved",
   "theorems": [
    "C16_exp"
   ],
   "note": ""
  },
  {
   "property": "C17",
   "status": "proved",
   "theorems": [
    "C17_push",
    "C17_dup",
    "C17_swap",
    "C17_pop",
    "C17_push0"
   ],
   "note": ""
  },
  {
   "property": "C18",
   "status": "proved",
   "theorems": [
    "C18_calldataload",
    "C18_copy",
    "C18_extcodecopy"
   ],
   "note": ""
  },
  {
   "property": "C19",
   "status": "proved",
   "theorems": [
    "C19_returndatacopy"
   ],
   "note": ""
  },
  {
   "property": "C20",
   "status": "proved",
   "theorems": [
    "C20_hash_history",
    "C20_sha3_instruction"
   ],
   "note": ""
  },
  {
   "property": "C21",
   "status": "proved",
   "theorems": [
    "C21_bounded_lru_map",
    "C21_determined",
    "C21_get"
   ],
   "note": ""
  },
  {
   "property": "C22",
   "status": "proved",
   "theorems": [
    "C22_no_bad_pointer",
    "C22_capacity_one_refuted",
    "C22_capacity_zero_refuted"
   ],
   "note": ""
  },
  {
   "property": "C23",
   "status": "proved",
   "theorems": [
    "C23_concurrent_values",
    "C23_atomic",
    "C23_safe",
    "C23_exclusive",
    "C23_no_deadlock"
   ],
   "note": ""
  },
  {
   "property": "C24",
   "status": "proved",
   "theorems": [
    "C24_same_everywhere",
    "C24_cached_analysis",
    "C24_uncached"
   ],
   "note": ""
  },
  {
   "property": "C25",
   "status": "proved",
   "theorems": [
    "C25_exclusive_buffers",
    "C25_threads",
    "C25_no_race",
    "C25_no_deadlock"
   ],
   "note": ""
  },
  {
   "property": "C26",
   "status": "proved",
   "theorems": [
    "C26_not_leaked",
    "C26_threads"
   ],
   "note": ""
  },
  {
   "property": "C27",
   "status": "proved",
   "theorems": [
    "C27_sstore",
    "C27_formulas"
   ],
   "note": ""
  },
  {
   "property": "C28",
   "status": "proved",
   "theorems": [
    "C28_net_refund"
   ],
   "note": ""
  },
  {
   "property": "C29",
   "status": "proved",
   "theorems": [
    "C29_calls"
   ],
   "note": ""
  },
  {
   "property": "C30",
   "status": "proved",
   "theorems": [
    "C30_creations"
   ],
   "note": ""
  },
  {
   "property": "C31",
   "status": "proved",
   "theorems": [
    "C31_unfunded_call",
    "C31_unfunded_creation"
   ],
   "note": ""
  },
  {
   "property": "C32",
   "status": "proved",
   "theorems": [
    "C32_kept",
    "C32_size",
    "C32_return",
    "C32_output"
   ],
   "note": ""
  },
  {
   "property": "C33",
   "status": "proved",
   "theorems": [
    "C33_revision_gating"
   ],
   "note": ""
  },
  {
   "property": "C34",
   "status": "proved",
   "theorems": [
    "C34_dispatch_table",
    "C34_every_byte",
    "C34_invalid"
   ],
   "note": ""
  },
  {
   "property": "C35",
   "status": "proved",
   "theorems": [
    "C35_status",
    "C35_cause",
    "C35_run_cause"
   ],
   "note": ""
  },
  {
   "property": "C36",
   "status": "proved",
   "theorems": [
    "C36_zero_steps"
   ],
   "note": ""
  },
  {
   "property": "C37",
   "status": "proved",
   "theorems": [
    "C37_composes"
   ],
   "note": ""
  },
  {
   "property": "C38",
   "status": "proved",
   "theorems": [
    "C38_stepping_is_executing"
   ],
   "note": ""
  },
  {
   "property": "C39",
   "status": "proved",
   "theorems": [
    "C39_one_step",
    "C39_batch",
    "C39_batch_refuted"
   ],
   "note": "The literal claim for several steps is false: C39_batch_refuted."
  },
  {
   "property": "C40",
   "status": "proved",
   "theorems": [
    "C40_same_result",
    "C40_same_everywhere"
   ],
   "note": ""
  },
  {
   "property": "C41",
   "status": "proved",
   "theorems": [
    "C41_counts",
    "C41_session",
    "C41_reset",
    "C41_merge",
    "C41_jumpdest_refuted"
   ],
   "note": ""
  },
  {
   "property": "C42",
   "status": "proved",
   "theorems": [
    "C42_times",
    "C42_no_underflow",
    "C42_in_bounds",
    "C42_depth_refuted"
   ],
   "note": ""
  },
  {
   "property": "C43",
   "status": "proved",
   "theorems": [
    "C43_accepted",
    "C43_bad_value",
    "C43_bad_name"
   ],
   "note": ""
  },
  {
   "property": "C44",
   "status": "proved",
   "theorems": [
    "C44_failing_instruction",
    "C44_failing_sstore_without_stipend",
    "C44_sstore_refuted"
   ],
   "note": "The claim is false for SSTORE with more than 2300 gas: C44_sstore_refuted."
  },
  {
   "property": "C45",
   "status": "proved",
   "theorems": [
    "C45_blockhash",
    "C45_blobhash"
   ],
   "note": ""
  },
  {
   "property": "C46",
   "status": "proved",
   "theorems": [
    "C46_failed",
    "C46_refuted",
    "C46_caller_refuted"
   ],
   "note": "That unsuccessful executions report no refund is false: C46_refuted, C46_caller_refuted."
  },
  {
   "property": "C47",
   "status": "proved",
   "theorems": [
    "C47_run",
    "C47_unsupported_revision",
    "C47_refuted"
   ],
   "note": "The exception is real: C47_refuted. The evmc Go bindings are third party and modelled by assumption (GoAdapter.v)."
  },
  {
   "property": "C48",
   "status": "proved",
   "theorems": [
    "C48_log"
   ],
   "note": ""
  },
  {
   "property": "C49",
   "status": "proved",
   "theorems": [
    "C49_selfdestruct"
   ],
   "note": ""
  },
  {
   "property": "C50",
   "status": "proved",
   "theorems": [
    "C50_nonempty_span",
    "C50_nonempty_read_from",
    "C50_nonempty_copy",
    "C50_refuted"
   ],
   "note": "C50_refuted shows the formation of out-of-range pointers for empty accesses and failing instructions."
  },
  {
   "property": "C51",
   "status": "proved",
   "theorems": [
    "C51_log",
    "C51_silent"
   ],
   "note": ""
  },
  {
   "property": "C52",
   "status": "proved",
   "theorems": [
    "C52_environment",
    "C52_machine"
   ],
   "note": ""
  },
  {
   "property": "C53",
   "status": "proved",
   "theorems": [
    "C53_account"
   ],
   "note": ""
  },
  {
   "property": "C54",
   "status": "proved",
   "theorems": [
    "C54_sload",
    "C54_tload",
    "C54_tstore"
   ],
   "note": ""
  },
  {
   "property": "C55",
   "status": "proved",
   "theorems": [
    "C55_conditions"
   ],
   "note": ""
  },
  {
   "property": "C56",
   "status": "proved",
   "theorems": [
    "C56_run_total",
    "C56_run_unique",
    "C56_call_total"
   ],
   "note": "Contexts are those of SpecTx.context_ok; gas limits below 2^54; precompiled contracts ask for less than 2^63 gas."
  },
  {
   "property": "C57",
   "status": "proved",
   "theorems": [
    "C57_refused",
    "C57_underpaid",
    "C57_oversized"
   ],
   "note": "C57_refused needs sensible (limit >= 0, price times limit < 2^256): C59_wrapping_price_refuted shows what happens otherwise."
  },
  {
   "property": "C58",
   "status": "proved",
   "theorems": [
    "C58_accepted",
    "C58_run_is_call",
    "C58_gas_used"
   ],
   "note": "Contexts are those of SpecTx.context_ok; gas limits below 2^54; precompiled contracts ask for less than 2^63 gas."
  },
  {
   "property": "C59",
   "status": "proved",
   "theorems": [
    "C59_supply",
    "C59_supply_exact",
    "C59_wrapping_price_refuted",
    "C59_negative_refund_refuted"
   ],
   "note": "The two provisos are necessary: C59_wrapping_price_refuted, C59_negative_refund_refuted."
  },
  {
   "property": "C60",
   "status": "proved",
   "theorems": [
    "C60_transfer",
    "C60_unfunded"
   ],
   "note": ""
  },
  {
   "property": "C61",
   "status": "proved",
   "theorems": [
    "C61_call",
    "C61_no_code",
    "C61_unfunded",
    "C61_too_deep",
    "C61_failed"
   ],
   "note": ""
  },
  {
   "property": "C62",
   "status": "proved",
   "theorems": [
    "C62_static"
   ],
   "note": "Stated for every property of the state that accesses preserve."
  },
  {
   "property": "C63",
   "status": "proved",
   "theorems": [
    "C63_others",
    "C63_sender"
   ],
   "note": "accounts_ok says that SELFDESTRUCT changes no other account's code and nonce and decreases no other balance."
  },
  {
   "property": "C64",
   "status": "proved",
   "theorems": [
    "C64_refused",
    "C64_methods",
    "C64_unknown"
   ],
   "note": "The selectors of the five method names are assumed to be different (hash of the names)."
  },
  {
   "property": "C65",
   "status": "proved",
   "theorems": [
    "C65_taken",
    "C65_unfunded",
    "C65_creation",
    "C65_outcome",
    "C65_failed_creation_refuted"
   ],
   "note": "C65_failed_creation_refuted: undeployable codes."
  },
  {
   "property": "C66",
   "status": "proved",
   "theorems": [
    "C66_nonce",
    "C66_no_replay",
    "C66_underpaid",
    "C66_replay_refuted"
   ],
   "note": "C66_replay_refuted: transactions with too little gas."
  },
  {
   "property": "C67",
   "status": "proved",
   "theorems": [
    "C67_precompiled",
    "C67_failed_transfer_refuted",
    "C67_huge_price_refuted"
   ],
   "note": "C67_failed_transfer_refuted, C67_huge_price_refuted."
  },
  {
   "property": "C68",
   "status": "proved",
   "theorems": [
    "C68_add",
    "C68_sub",
    "C68_cmp",
    "C68_new_value",
    "C68_size_in_words"
   ],
   "note": "Value.Scale and the conversions are uint256's (library), not modelled further."
  },
  {
   "property": "C69",
   "status": "proved",
   "theorems": [
    "C69_text",
    "C69_text_read",
    "C69_kind",
    "C69_kind_read",
    "C69_revision",
    "C69_revision_refuted"
   ],
   "note": "C69_revision_refuted. The JSON quoting of encoding/json is not modelled."
  },
  {
   "property": "C70",
   "status": "proved",
   "theorems": [
    "C70_run"
   ],
   "note": "Not compared: the state after a failed run (callers discard it). Environment assumptions in SpecLfvm.v (env_ok). Needs codes of up to 65536 bytes (C72_large_refuted) and a context that reports a slot as cold only while it has its original value; depth <= 1024 (LFVM does not check the depth itself)."
  },
  {
   "property": "C71",
   "status": "proved",
   "theorems": [
    "C71_agree"
   ],
   "note": "By C70 and C01."
  },
  {
   "property": "C72",
   "status": "proved",
   "theorems": [
    "C72_conversion",
    "C72_large_refuted"
   ],
   "note": "Beyond 65536 bytes: C72_large_refuted."
  },
  {
   "property": "C73",
   "status": "proved",
   "theorems": [
    "C73_limits",
    "C73_fees"
   ],
   "note": ""
  },
  {
   "property": "C74",
   "status": "proved",
   "theorems": [
    "C74_keccak256",
    "C74_Keccak256",
    "C74_Keccak256For32byte"
   ],
   "note": "The hash of the empty string is taken from golang.org/x/crypto/sha3 at start-up; it is a hypothesis that it is right (C74_empty_digest shows the value)."
  },
  {
   "property": "C75",
   "status": "proved",
   "theorems": [
    "C75_history",
    "C75_threads",
    "C75_progress",
    "C75_overtaken_refuted"
   ],
   "note": "C75_overtaken_refuted: data race of getHash. Critical sections are atomic steps."
  },
  {
   "property": "C76",
   "status": "proved",
   "theorems": [
    "C76_convert",
    "C76_run",
    "C76_progress",
    "C76_new",
    "C76_dishonest_refuted"
   ],
   "note": "hashicorp/golang-lru is modelled by its contract (lib_ok). C76_dishonest_refuted."
  },
  {
   "property": "C77",
   "status": "proved",
   "theorems": [
    "C77_super",
    "C77_without",
    "C77_option",
    "C77_far_refuted",
    "C77_crash_refuted"
   ],
   "note": "C77_without: static condition; C77_option: same result as without the option. Refuted without the condition: C77_far_refuted, C77_crash_refuted. The condition is SpecLfvm.returns_in_range."
  },
  {
   "property": "C78",
   "status": "proved",
   "theorems": [
    "C78_step",
    "C78_steps",
    "C78_single",
    "C78_idle",
    "C78_steps_refuted",
    "C78_position_refuted"
   ],
   "note": "C78_step: one step; C78_single: sequences of single steps; C78_steps: n at once; C78_idle. Refuted: C78_steps_refuted (n steps at once), C78_position_refuted (other positions). Specification in SpecCt.v."
  },
  {
   "property": "C79",
   "status": "proved",
   "theorems": [
    "C79_steps"
   ],
   "note": "By the StepN theorem of evmzero (C36) and the translation of states."
  },
  {
   "property": "C80",
   "status": "proved",
   "theorems": [
    "C80_agree",
    "C80_equal",
    "C80_two_refuted",
    "C80_behind_refuted",
    "C80_cold_refuted"
   ],
   "note": "C80_agree: states are the same; C80_equal: the comparison decides sameness. Refuted: C80_two_refuted, C80_behind_refuted, C80_cold_refuted."
  },
  {
   "property": "C81",
   "status": "proved",
   "theorems": [
    "C81_sound",
    "C81_agree",
    "C81_lookup",
    "C81_idle",
    "C81_unknown",
    "C81_unknown_refuted",
    "C81_state_refuted"
   ],
   "note": "C81_sound: all rules, one step of the EVM; C81_agree: no contradictions; C81_lookup: the map from operations to rules finds all that apply; C81_idle, C81_unknown: other states. Refuted: C81_unknown_refuted, C81_state_refuted. Names and parameters of rules (test generation) are not modelled."
  },
  {
   "property": "C82",
   "status": "proved",
   "theorems": [
    "C82_coverage",
    "C82_gaps_fail",
    "C82_coverage_refuted"
   ],
   "note": "C82_coverage: the exact list of states without rules (SpecRules.gap); C82_gaps_fail: but for SSTORE they fail. Refuted: C82_coverage_refuted (a state without a rule that does not fail)."
  },
  {
   "property": "C83",
   "status": "proved",
   "theorems": [
    "C83_lfvm",
    "C83_evmzero",
    "C83_others",
    "C83_exact",
    "C83_behind_refuted",
    "C83_cold_refuted"
   ],
   "note": "C83_lfvm, C83_evmzero: no false alarms; C83_others: states that are not running, unknown revisions; C83_exact: for any target, passed iff like the EVM. Refuted: C83_behind_refuted (LFVM, two behind the code), C83_cold_refuted (a deviation that is not found). Random refunds of the generator (up to 2^63) that break the gas contract are excluded by SpecDriver.answered."
  },
  {
   "property": "C84",
   "status": "proved",
   "theorems": [
    "C84_worlds",
    "C84_states",
    "C84_size_refuted"
   ],
   "note": "C84_worlds, C84_states against SpecDriver.same_world / alike_states. Refuted: C84_size_refuted (codes of 2^16 bytes)."
  },
  {
   "property": "C85",
   "status": "proved",
   "theorems": [
    "C85_range_solver",
    "C85_interval_solver",
    "C85_narrow_types_refuted"
   ],
   "note": "C85_range_solver, C85_interval_solver: sound, complete, exact errors (SpecSolve.v). Refuted: C85_narrow_types_refuted (differences overflow in signed types of less than 64 bits)."
  },
  {
   "property": "C86",
   "status": "proved",
   "theorems": [
    "C86_stack_generator",
    "C86_stack_generator_complete",
    "C86_described_twice_refuted",
    "C86_largest_position_refuted"
   ],
   "note": "C86_stack_generator (sound, errors), C86_stack_generator_complete. Refuted: C86_described_twice_refuted, C86_largest_position_refuted."
  },
  {
   "property": "C87",
   "status": "proved",
   "theorems": [
    "C87_storage_generator",
    "C87_storage_errors",
    "C87_storage_terminates",
    "C87_missed_conflict_refuted",
    "C87_same_slot_refuted"
   ],
   "note": "C87_storage_generator, C87_storage_errors, C87_storage_terminates (SpecGen.v; fair random numbers). Refuted: C87_missed_conflict_refuted, C87_same_slot_refuted."
  },
  {
   "property": "C88",
   "status": "proved",
   "theorems": [
    "C88_transient_generator",
    "C88_transient_errors",
    "C88_transient_terminates",
    "C88_zero_refuted"
   ],
   "note": "C88_transient_generator, C88_transient_errors, C88_transient_terminates. Refuted: C88_zero_refuted."
  },
  {
   "property": "C89",
   "status": "proved",
   "theorems": [
    "C89_code_generator",
    "C89_code_generator_ends",
    "C89_code_generator_complete",
    "C89_code_generator_satisfiable",
    "C89_rebound_refuted",
    "C89_twice_refuted",
    "C89_small_refuted",
    "C89_one_variable_refuted"
   ],
   "note": "C89_code_generator (sound), C89_code_generator_ends, C89_code_generator_complete and _satisfiable (known positions; the generator is documented to be incomplete for variables). Refuted: C89_rebound_refuted, C89_twice_refuted, C89_small_refuted, C89_one_variable_refuted."
  },
  {
   "property": "C90",
   "status": "proved",
   "theorems": [
    "C90_storage",
    "C90_transient",
    "C90_status",
    "C90_accounts_warm",
    "C90_slots_warm",
    "C90_destruction",
    "C90_journals",
    "C90_calls",
    "C90_accounts",
    "C90_block_hash"
   ],
   "note": "C90_storage, _transient, _status, _accounts_warm, _slots_warm, _destruction, _journals, _calls, _accounts, _block_hash; a call with negative costs of a prepared answer is excluded. Refuted: C90_one_contract_refuted, C90_code_hash_refuted."
  },
  {
   "property": "C91",
   "status": "proved",
   "theorems": [
    "C91_tx_context",
    "C91_tx_errors",
    "C91_edge",
    "C91_tx_count"
   ],
   "note": "C91_tx_context, C91_tx_errors (exact up to C91_edge), C91_tx_count. Refuted: C91_same_index_refuted (the test is `>` instead of `>=`), C91_no_index_refuted (count - 1 wraps around)."
  },
  {
   "property": "C92",
   "status": "proved",
   "theorems": [
    "C92_block_context",
    "C92_block_complete"
   ],
   "note": "C92_block_context (sound, errors, no panic, revisions), C92_block_complete. Refuted: C92_itself_refuted, C92_itself_error_refuted, C92_first_blocks_refuted, C92_offset_refuted."
  },
  {
   "property": "C93",
   "status": "proved",
   "theorems": [
    "C93_accounts",
    "C93_errors",
    "C93_terminates",
    "C93_possible",
    "C93_full_range_refuted"
   ],
   "note": "C93_accounts, C93_errors, C93_terminates, C93_possible. Refuted: C93_own_refuted, C93_zero_refuted, C93_cold_refuted, C93_collision_refuted, C93_full_range_refuted."
  },
  {
   "property": "C94",
   "status": "proved",
   "theorems": [
    "C94_state",
    "C94_errors"
   ],
   "note": "C94_state, C94_errors. Assumes the random numbers are in the ranges asked for and new addresses are not values of variables (proper_draws, fresh_addresses). Refuted: C94_long_address_refuted, C94_rebound_refuted. Termination of the whole is not claimed (C87, C88, C90-C93 for the parts)."
  },
  {
   "property": "C95",
   "status": "proved",
   "theorems": [
    "C95_conditions",
    "C95_rules",
    "C95_same_conditions",
    "C95_specification",
    "C95_below_one_refuted"
   ],
   "note": "C95_conditions, C95_rules; C95_same_conditions and C95_specification: for states of the model of the specification (CtRules.v) that represent the generated one. Refuted: C95_below_one_refuted (rules with gas < 1 or stackSize < 1 never get a state), C95_balance_refuted. Random numbers as in C94. 1449 of the 1595 rules are shown to get a state with one choice of random numbers (C95_rule_case)."
  },
  {
   "property": "C96",
   "status": "proved",
   "theorems": [
    "C96_enumeration",
    "C96_parameters",
    "C96_combinations",
    "C96_values",
    "C96_total"
   ],
   "note": "C96_enumeration, C96_parameters, C96_combinations, C96_values, C96_total. Test values, generators and consumers are abstract (any functions; a consumer must not modify the state, as documented); sort.Slice is any function that sorts; GetTestValues of conditions is not modelled."
  }
 ]
}
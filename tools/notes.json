{
 "C12": {
  "note": "Sums of offset and size below 2^62."
 },
 "C39": {
  "note": "The literal claim for several steps is false: C39_batch_refuted."
 },
 "C44": {
  "note": "The claim is false for SSTORE with more than 2300 gas: C44_sstore_refuted."
 },
 "C46": {
  "note": "That unsuccessful executions report no refund is false: C46_refuted, C46_caller_refuted."
 },
 "C47": {
  "note": "The exception is real: C47_refuted. The evmc Go bindings are third party and modelled by assumption (GoAdapter.v)."
 },
 "C50": {
  "note": "C50_refuted shows the formation of out-of-range pointers for empty accesses and failing instructions."
 },
 "C56": {
  "note": "Contexts are those of SpecTx.context_ok; gas limits below 2^54; precompiled contracts ask for less than 2^63 gas."
 },
 "C57": {
  "note": "C57_refused needs sensible (limit >= 0, price times limit < 2^256): C59_wrapping_price_refuted shows what happens otherwise."
 },
 "C58": {
  "note": "Contexts are those of SpecTx.context_ok; gas limits below 2^54; precompiled contracts ask for less than 2^63 gas."
 },
 "C59": {
  "note": "The two provisos are necessary: C59_wrapping_price_refuted, C59_negative_refund_refuted."
 },
 "C62": {
  "note": "Stated for every property of the state that accesses preserve."
 },
 "C63": {
  "note": "accounts_ok says that SELFDESTRUCT changes no other account's code and nonce and decreases no other balance."
 },
 "C64": {
  "note": "The selectors of the five method names are assumed to be different (hash of the names)."
 },
 "C65": {
  "note": "C65_failed_creation_refuted: undeployable codes."
 },
 "C66": {
  "note": "C66_replay_refuted: transactions with too little gas."
 },
 "C67": {
  "note": "C67_failed_transfer_refuted, C67_huge_price_refuted."
 },
 "C68": {
  "note": "Value.Scale and the conversions are uint256's (library), not modelled further."
 },
 "C69": {
  "note": "C69_revision_refuted. The JSON quoting of encoding/json is not modelled."
 },
 "C70": {
  "note": "Not compared: the state after a failed run (callers discard it). Environment assumptions in SpecLfvm.v (env_ok). Needs codes of up to 65536 bytes (C72_large_refuted) and a context that reports a slot as cold only while it has its original value; depth <= 1024 (LFVM does not check the depth itself)."
 },
 "C71": {
  "note": "By C70 and C01."
 },
 "C72": {
  "note": "Beyond 65536 bytes: C72_large_refuted."
 },
 "C74": {
  "note": "The hash of the empty string is taken from golang.org/x/crypto/sha3 at start-up; it is a hypothesis that it is right (C74_empty_digest shows the value)."
 },
 "C75": {
  "note": "C75_overtaken_refuted: data race of getHash. Critical sections are atomic steps."
 },
 "C76": {
  "note": "hashicorp/golang-lru is modelled by its contract (lib_ok). C76_dishonest_refuted."
 },
 "C77": {
  "note": "C77_without: static condition; C77_option: same result as without the option. Refuted without the condition: C77_far_refuted, C77_crash_refuted. The condition is SpecLfvm.returns_in_range."
 },
 "C78": {
  "note": "C78_step: one step; C78_single: sequences of single steps; C78_steps: n at once; C78_idle. Refuted: C78_steps_refuted (n steps at once), C78_position_refuted (other positions). Specification in SpecCt.v."
 },
 "C79": {
  "note": "By the StepN theorem of evmzero (C36) and the translation of states."
 },
 "C80": {
  "note": "C80_agree: states are the same; C80_equal: the comparison decides sameness. Refuted: C80_two_refuted, C80_behind_refuted, C80_cold_refuted."
 },
 "C81": {
  "note": "C81_sound: all rules, one step of the EVM; C81_agree: no contradictions; C81_lookup: the map from operations to rules finds all that apply; C81_idle, C81_unknown: other states. Refuted: C81_unknown_refuted, C81_state_refuted. Names and parameters of rules (test generation) are not modelled."
 },
 "C82": {
  "note": "C82_coverage: the exact list of states without rules (SpecRules.gap); C82_gaps_fail: but for SSTORE they fail. Refuted: C82_coverage_refuted (a state without a rule that does not fail)."
 },
 "C83": {
  "note": "C83_lfvm, C83_evmzero: no false alarms; C83_others: states that are not running, unknown revisions; C83_exact: for any target, passed iff like the EVM. Refuted: C83_behind_refuted (LFVM, two behind the code), C83_cold_refuted (a deviation that is not found). Random refunds of the generator (up to 2^63) that break the gas contract are excluded by SpecDriver.answered."
 },
 "C84": {
  "note": "C84_worlds, C84_states against SpecDriver.same_world / alike_states. Refuted: C84_size_refuted (codes of 2^16 bytes)."
 },
 "C85": {
  "note": "C85_range_solver, C85_interval_solver: sound, complete, exact errors (SpecSolve.v). Refuted: C85_narrow_types_refuted (differences overflow in signed types of less than 64 bits)."
 },
 "C86": {
  "note": "C86_stack_generator (sound, errors), C86_stack_generator_complete. Refuted: C86_described_twice_refuted, C86_largest_position_refuted."
 },
 "C87": {
  "note": "C87_storage_generator, C87_storage_errors, C87_storage_terminates (SpecGen.v; fair random numbers). Refuted: C87_missed_conflict_refuted, C87_same_slot_refuted."
 },
 "C88": {
  "note": "C88_transient_generator, C88_transient_errors, C88_transient_terminates. Refuted: C88_zero_refuted."
 },
 "C89": {
  "note": "C89_code_generator (sound), C89_code_generator_ends, C89_code_generator_complete and _satisfiable (known positions; the generator is documented to be incomplete for variables). Refuted: C89_rebound_refuted, C89_twice_refuted, C89_small_refuted, C89_one_variable_refuted."
 },
 "C90": {
  "note": "C90_storage, _transient, _status, _accounts_warm, _slots_warm, _destruction, _journals, _calls, _accounts, _block_hash; a call with negative costs of a prepared answer is excluded. Refuted: C90_one_contract_refuted, C90_code_hash_refuted."
 },
 "C91": {
  "note": "C91_tx_context, C91_tx_errors (exact up to C91_edge), C91_tx_count. Refuted: C91_same_index_refuted (the test is `>` instead of `>=`), C91_no_index_refuted (count - 1 wraps around)."
 },
 "C92": {
  "note": "C92_block_context (sound, errors, no panic, revisions), C92_block_complete. Refuted: C92_itself_refuted, C92_itself_error_refuted, C92_first_blocks_refuted, C92_offset_refuted."
 },
 "C93": {
  "note": "C93_accounts, C93_errors, C93_terminates, C93_possible. Refuted: C93_own_refuted, C93_zero_refuted, C93_cold_refuted, C93_collision_refuted, C93_full_range_refuted."
 },
 "C94": {
  "note": "C94_state, C94_errors. Assumes the random numbers are in the ranges asked for and new addresses are not values of variables (proper_draws, fresh_addresses). Refuted: C94_long_address_refuted, C94_rebound_refuted. Termination of the whole is not claimed (C87, C88, C90-C93 for the parts)."
 },
 "C95": {
  "note": "C95_conditions, C95_rules; C95_same_conditions and C95_specification: for states of the model of the specification (CtRules.v) that represent the generated one. Refuted: C95_below_one_refuted (rules with gas < 1 or stackSize < 1 never get a state), C95_balance_refuted. Random numbers as in C94. 1449 of the 1595 rules are shown to get a state with one choice of random numbers (C95_rule_case)."
 },
 "C96": {
  "note": "C96_enumeration, C96_parameters, C96_combinations, C96_values, C96_total. Test values, generators and consumers are abstract (any functions; a consumer must not modify the state, as documented); sort.Slice is any function that sorts; GetTestValues of conditions is not modelled."
 }
}
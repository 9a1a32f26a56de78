{"claims": [
 {"property": "C01", "status": "proved", "theorems": ["C01_solvency", "C01_promises_covered"], "note": "For every execution from a genesis ledger."},
 {"property": "C02", "status": "proved", "theorems": ["C02_escrow_is_sum_of_claims"], "note": "For every execution from a genesis ledger."},
 {"property": "C03", "status": "proved", "theorems": ["C03_matured_withdrawal_claimable"], "note": ""},
 {"property": "C04", "status": "proved", "theorems": ["C04_not_before_maturity", "C04_cooldown_enforced"], "note": ""},
 {"property": "C05", "status": "proved", "theorems": ["C05_pending_immutable", "C05_contents_from_creation"], "note": ""},
 {"property": "C06", "status": "proved", "theorems": ["C06_record_pays_once", "C06_user_paid_once"], "note": "The per-user form concludes \"or two of the program's own address inputs collide\" (collision in Spec.v); C08_no_collision_ex shows a hash without one."},
 {"property": "C07", "status": "proved", "theorems": ["C07_only_creator_claims"], "note": "Conclusion \"or two of the program's own address inputs collide\"."},
 {"property": "C08", "status": "proved", "theorems": ["C08_index_in_use", "C08_index_freed", "C08_index_reusable"], "note": "Conclusion \"or two of the program's own address inputs collide\"."},
 {"property": "C09", "status": "proved", "theorems": ["C09_orca_to_xorca_exact"], "note": ""},
 {"property": "C10", "status": "proved", "theorems": ["C10_xorca_to_orca_exact"], "note": ""},
 {"property": "C11", "status": "proved", "theorems": ["C11_round_trip_never_profits", "C11_round_trip_quote", "C11_emptied_pool_refuted"], "note": "Needs xORCA in circulation or no free ORCA; C11_emptied_pool_refuted shows the claim fails otherwise."},
 {"property": "C12", "status": "proved", "theorems": ["C12_two_stakes", "C12_two_unstakes", "C12_two_stakes_quote", "C12_two_unstakes_quote"], "note": "For single calls on every reachable ledger, and for the conversion functions."},
 {"property": "C13", "status": "proved", "theorems": ["C13_never_diluted"], "note": ""},
 {"property": "C14", "status": "proved", "theorems": ["C14_stake_dust_refused", "C14_unstake_dust_refused", "C15_stake_exact", "C16_unstake_exact"], "note": "The two theorems cover refusals; that successful calls convert to at least one unit is part of C15_stake_exact and C16_unstake_exact."},
 {"property": "C15", "status": "proved", "theorems": ["C15_stake_exact", "C15_stake_keeps_state"], "note": ""},
 {"property": "C16", "status": "proved", "theorems": ["C16_unstake_exact"], "note": ""},
 {"property": "C17", "status": "proved", "theorems": ["C17_withdraw_exact"], "note": ""},
 {"property": "C18", "status": "proved", "theorems": ["C18_set_exact"], "note": ""},
 {"property": "C19", "status": "proved", "theorems": ["C19_initialize_exact", "C19_initialize_once", "C19_state_stays", "C19_state_unique"], "note": "Uniqueness and permanence over executions; exact effect per call."},
 {"property": "C20", "status": "proved", "theorems": ["C20_settings_change_only_by_authority", "C20_authority_succession"], "note": ""},
 {"property": "C21", "status": "proved", "theorems": ["C21_cooldown_nonneg", "C21_matures_after_unstake"], "note": ""},
 {"property": "C22", "status": "proved", "theorems": ["C22_failed_step_changes_nothing", "C22_transaction_all_or_nothing", "C22_transactions_reach"], "note": ""},
 {"property": "C23", "status": "proved", "theorems": ["C23_no_forged_accounts", "C23_state_origin"], "note": ""},
 {"property": "C24", "status": "proved", "theorems": ["C24_stake_accounts", "C24_unstake_accounts", "C24_withdraw_accounts", "C24_initialize_accounts", "C24_set_accounts", "C24_unique_state_and_vault"], "note": ""},
 {"property": "C25", "status": "proved", "theorems": ["C25_conservation"], "note": ""},
 {"property": "C26", "status": "proved", "theorems": ["C26_unstake_charge", "C26_withdraw_returns", "C26_round_trip"], "note": ""},
 {"property": "C27", "status": "proved", "theorems": ["C27_prefunding_cannot_block"], "note": ""},
 {"property": "C28", "status": "proved", "theorems": ["C28_clients_read_events", "C28_event_readers", "C28_stake_event", "C28_unstake_event", "C28_withdraw_event", "C28_set_event", "C28_initialize_no_event"], "note": ""},
 {"property": "C29", "status": "proved", "theorems": ["C29_log_reconstructs"], "note": ""},
 {"property": "C30", "status": "proved", "theorems": ["C30_state_readers", "C30_pending_readers", "C30_same_layouts", "C30_state_decode_encode", "C30_pending_decode_encode", "C30_state_encode_decode", "C30_pending_encode_decode", "C30_no_hidden_padding", "C30_state_writes", "C30_state_written", "C30_pending_written", "C30_reachable_state", "C30_reachable_record"], "note": ""},
 {"property": "C31", "status": "proved", "theorems": ["C31_sent_runs", "C31_sent_bytes", "C31_encoded_runs", "C31_prefix_free", "C31_sent_distinct", "C31_unknown_rejected", "C31_js_builders_accept", "C31_js_parses_same"], "note": ""},
 {"property": "C32", "status": "proved", "theorems": ["C32_rust_quote_stake", "C32_rust_quote_unstake", "C32_js_quote_stake", "C32_js_quote_unstake", "C32_js_never_quotes_refused_calls_refuted"], "note": ""},
 {"property": "C33", "status": "proved", "theorems": ["C33_never_refused_for_shape", "C33_stake_accounts", "C33_unstake_accounts", "C33_withdraw_accounts", "C33_initialize_accounts", "C33_set_accounts", "C33_script_stake_accounts", "C33_script_unstake_accounts", "C33_script_withdraw_accounts", "C33_script_initialize_accounts", "C33_script_set_accounts", "C33_script_stake_works", "C33_script_unstake_works", "C33_script_withdraw_works"], "note": "All 16 builders; delivery may add privileges but not remove them."},
 {"property": "C34", "status": "proved", "theorems": ["C34_same_derivations", "C34_script_constants", "C34_state_and_vault", "C34_records", "C34_accepted_addresses", "C34_records_distinct", "C34_kinds_distinct", "C34_js_index_wraps", "C34_js_index_nan", "C34_js_indices_distinct_refuted"], "note": "Collisions are restricted to the inputs for the State account, its vault and the users concerned. The JS client takes indices modulo 256 (C34_js_indices_distinct_refuted)."},
 {"property": "C35", "status": "proved", "theorems": ["C35_js_sound", "C35_rust_sound", "C35_js_lists", "C35_rust_lists", "C35_default_limit", "C35_js_limits", "C35_server_limit", "C35_rust_dust", "C35_rust_always_answers_refuted", "C35_index_255_never_listed", "C35_script_lists"], "note": "The listed deviations are theorems with witnesses; the server's maximum number of addresses is a parameter."},
 {"property": "C36", "status": "proved", "theorems": ["C36_state_reads", "C36_vault_reads", "C36_supply_reads", "C36_rate_of_one_ledger", "C36_rate_of_three_ledgers", "C36_withdrawal_between_reads", "C36_rate_of_some_ledger_refuted", "C36_rate_may_fail"], "note": "Exact for one ledger; the mixture for three; refutations with witnesses."},
 {"property": "C37", "status": "proved", "theorems": ["C37_inflation_bound", "C37_attacker_never_profits_refuted"], "note": ""},
 {"property": "C38", "status": "proved", "theorems": ["C38_defensive_errors", "C38_holder_never_meets_empty_pool", "C38_staker_no_arithmetic_error"], "note": "The branch marked unreachable is not reached by a holder of xORCA; it is reachable when the supply is zero (C46)."},
 {"property": "C39", "status": "proved", "theorems": ["C39_no_overflow_stake", "C39_no_overflow_unstake", "C38_holder_never_meets_empty_pool", "C38_staker_no_arithmetic_error"], "note": ""},
 {"property": "C40", "status": "proved", "theorems": ["C40_holder_can_unstake"], "note": "Conclusion \"or two of the program's own address inputs collide\"; the quote is at least one unit for every positive amount because the pool is solvent."},
 {"property": "C41", "status": "proved", "theorems": ["C41_anyone_can_stake"], "note": ""},
 {"property": "C42", "status": "proved", "theorems": ["C42_outside_steps_only_help"], "note": ""},
 {"property": "C43", "status": "proved", "theorems": ["C43_withdrawals_commute", "C43_rate_unmoved"], "note": ""},
 {"property": "C44", "status": "proved", "theorems": ["C44_stake_aliased", "C44_unstake_aliased", "C44_withdraw_aliased", "C15_stake_exact", "C16_unstake_exact", "C17_withdraw_exact"], "note": "Aliasing any of the value-carrying slots makes the call fail; the exact-effect theorems C15-C17 do not assume distinct accounts."},
 {"property": "C45", "status": "proved", "theorems": ["C45_initialize_possible", "C45_vault_created_first_blocks", "C45_vault_created_first_error", "C45_always_initializable_refuted"], "note": "Negative result: the positive case, the permanent block for every later history, the error, and the refutation."},
 {"property": "C46", "status": "proved", "theorems": ["C46_incinerated_xorca_burnable", "C46_supply_stays_positive_refuted", "C46_residual_captured"], "note": "Negative result with a witness history."},
 {"property": "C47", "status": "proved", "theorems": ["C47_listed_in_both_clients", "C47_same_numbers", "C47_distinct_codes", "C47_one_name_per_number"], "note": ""},
 {"property": "C48", "status": "proved", "theorems": ["C48_foreign_id_refused", "C48_error_means_foreign_id"], "note": ""},
 {"property": "C49", "status": "proved", "theorems": ["C49_vault_moves", "C49_vault_guarded"], "note": ""},
 {"property": "C50", "status": "proved", "theorems": ["C50_supply_moves", "C50_mint_guarded", "C50_never_frozen"], "note": ""},
 {"property": "C51", "status": "proved", "theorems": ["C51_tokens_taken", "C51_lamports_taken"], "note": ""},
 {"property": "C52", "status": "proved", "theorems": ["C52_waiting_never_costs", "C52_unstake_promises", "C52_patience_pays"], "note": ""},
 {"property": "C53", "status": "proved", "theorems": ["C53_all_redeemable"], "note": ""},
 {"property": "C54", "status": "proved", "theorems": ["C54_authority_can_act"], "note": ""},
 {"property": "C55", "status": "proved", "theorems": ["C55_unstake_needs_time", "C55_authority_can_stop_unstaking"], "note": "A limit, not a guarantee: records made earlier stay payable (C03, C05)."},
 {"property": "C56", "status": "proved", "theorems": ["C56_left_over_bytes_block", "C56_revoking_blocks", "C56_unfrozen_mint_enough_refuted"], "note": "Negative result: permanent block for every later history, and the refutation with a witness."},
 {"property": "C57", "status": "proved", "theorems": ["C57_rate_at_least_one", "C57_only_stake_lowers", "C57_rate_floor", "C57_rate_monotone_refuted"], "note": "Lower bound, which calls can lower the rate, and the refutation of monotonicity with a witness."},
 {"property": "C58", "status": "proved", "theorems": ["C58_vault_from_log"], "note": ""},
 {"property": "C59", "status": "proved", "theorems": ["C59_stake_builder", "C59_unstake_builder", "C59_withdraw_builder", "C59_initialize_builder", "C59_set_builder", "C59_cpi_works", "C59_cpi_refused", "C59_cpi_builder_works", "C59_cpi_builder_accounts", "C59_cpi_builder_flags_refuted"], "note": "Positive theorems for all five instructions; the swapped flags are stated exactly (C59_cpi_builder_accounts) and refuted as a claim with a witness."},
 {"property": "C60", "status": "proved", "theorems": ["C60_stake_named", "C60_unstake_named", "C60_withdraw_named", "C60_initialize_named", "C60_set_named", "C60_throws", "C60_accepted_calls", "C60_accepted_names"], "note": "Parser chosen by the instruction tag, as parseXorcaInstruction-style callers do."},
 {"property": "C61", "status": "proved", "theorems": ["C61_stake_says", "C61_stake_received_refuted", "C61_stake_works", "C61_stake_dusted", "C61_unstake_says", "C61_unstake_received_refuted", "C61_unstake_works", "C61_withdraw_pays", "C61_withdraw_early", "C61_withdraw_works", "C61_withdraw_dusted", "C61_stake_sends", "C61_unstake_sends", "C61_withdraw_sends", "C61_stake_through", "C61_unstake_through", "C61_withdraw_through"], "note": "Success theorems under stated conditions; exact conditions under which the scripts send; two printed lines are refuted with witnesses."},
 {"property": "C62", "status": "proved", "theorems": ["C62_deposit_does", "C62_deposit_received_refuted", "C62_deposit_works", "C62_deposit_worth", "C62_transfer_does", "C62_transfer_works", "C62_authority_does", "C62_authority_refused", "C62_authority_once", "C62_authority_works", "C62_deploy_works", "C62_deploy_early", "C62_deploy_again", "C62_deposit_sends", "C62_transfer_sends", "C62_settings_send", "C62_deposit_through", "C62_transfer_through"], "note": "The doubled line of the donation script is refuted with a witness; negative amounts given to the transfer script are not modelled."},
 {"property": "C63", "status": "proved", "theorems": ["C63_errors_tell_the_truth", "C63_too_few_accounts", "C63_undecodable_data"], "note": "Errors of the callee programs (not program error numbers) are outside; the numbers themselves are C47."},
 {"property": "C64", "status": "proved", "theorems": ["C64_stake_answers", "C64_unstake_answers", "C64_withdraw_answers", "C64_set_answers", "C64_initialize_answers", "C64_first_initialize_answers"], "note": "Unstake concludes \"or two of the program's own address inputs collide\" when the index is free; the conditions on token accounts (active, no delegate tricks) and on u64 headroom are hypotheses."},
 {"property": "C65", "status": "proved", "theorems": ["C65_status_lines", "C65_before_initialize", "C65_rates_are_swapped", "C65_rate_line_refuted", "C65_free_line_may_be_negative"], "note": "Rates are pairs (dividend, divisor); the division and number formatting of JS are not modelled. Swapped labels refuted with a witness."},
 {"property": "C66", "status": "proved", "theorems": ["C66_sees_only_its_accounts", "C66_changes_only_writable_accounts", "C66_extra_accounts_ignored", "C66_clock_unread", "C66_later_withdrawal", "C66_later_unstake"], "note": "The clock statements assume equal rent minima at both times."},
 {"property": "C67", "status": "proved", "theorems": ["C67_missing_permission", "C67_wrong_mint_or_program", "C67_wrong_mint_at_initialize", "C67_wrong_state", "C67_wrong_state_at_initialize", "C67_wrong_vault", "C67_wrong_record_at_unstake", "C67_wrong_record_at_withdraw", "C67_wrong_token_account", "C67_poor_token_account", "C67_wrong_signer", "C67_wrong_index"], "note": "Where an address is recomputed from the signer or the index, the alternative is a collision among the address inputs (and, at Unstake, a derivation without result)."},
 {"property": "C68", "status": "proved", "theorems": ["C68_no_borrow_error", "C68_flags_change_nothing", "C68_same_successes", "C68_only_possible_error"], "note": "The guards are those of the Rust source, with their lexical scopes; entries with the same key share their flags."},
 {"property": "C69", "status": "proved", "theorems": ["C69_stake_passes", "C69_set_passes", "C69_unstake_others_pass", "C69_unstake_signer", "C69_initialize_others_pass", "C69_initialize_signer", "C69_withdraw_passes", "C69_claim_passes"], "note": "The check is specified in RentSpec.v; calls are judged as single-instruction transactions paid for by somebody else (fees are not modelled)."},
 {"property": "C70", "status": "proved", "theorems": ["C70_comparison", "C70_same_successes", "C70_never_refused"], "note": "All accounts of the instruction are compared at every call, although the runtime looks at those not handed to the callee only at the end."},
 {"property": "C71", "status": "proved", "theorems": ["C71_same_answers", "C71_nothing_written", "C71_accepted_log", "C71_refused_log", "C71_event_data", "C71_address_text", "C71_address_unique", "C71_number_text", "C71_lines_complete", "C71_holder_line", "C71_holder_line_complete_refuted"], "note": "Log.v is Program.v once more with the lines written on the way; C71_same_answers ties the two. Lines of the runtime, the panic handler and called programs are not included."},
 {"property": "C72", "status": "proved", "theorems": ["C72_whole_number", "C72_first_number", "C72_no_number", "C72_rounding_unique", "C72_rounding_exists", "C72_rounding_exact", "C72_address", "C72_stake", "C72_stake_reads", "C72_unstake", "C72_unstake_reads", "C72_unstake_no_index", "C72_withdraw", "C72_withdraw_reads", "C72_withdraw_no_index", "C72_index_number_refuted", "C72_initialize", "C72_initialize_reads", "C72_set", "C72_set_works", "C72_period_number_refuted", "C72_period_exact_refuted", "C72_longest_period", "C72_deposit", "C72_deposit_reads", "C72_gift_number_refuted", "C72_transfer", "C72_pendings", "C72_too_few", "C72_cut_period", "C72_cut_index"], "note": "JavaScript number and base58 reading is written from the language and library specifications (Cli.v); arguments are ASCII, key files are a function from paths to keys."},
 {"property": "C73", "status": "proved", "theorems": ["C73_stake_quote", "C73_unstake_quote", "C73_stake_formula_refuted", "C73_unstake_formula_refuted", "C73_initialize_accounts"], "note": "The documented formulas are written out in the statements."},
 {"property": "C74", "status": "proved", "theorems": ["C74_stake_rounding", "C74_unstake_rounding", "C74_gift_shared", "C74_sandwich"], "note": "Gifts and burns are the balance and supply changes of the steps that are not calls of the program."},
 {"property": "C75", "status": "proved", "theorems": ["C75_arrives", "C75_sent", "C75_length", "C75_signers", "C75_scripts_sent", "C75_scripts_arrive", "C75_same_answer", "C75_script_runs", "C75_signed", "C75_honest", "C75_one_flag_per_key", "C75_accepted", "C75_flags_exact_refuted"], "note": "The scripts send legacy transactions; the runtime also takes messages of version 0, with the contents of lookup tables as a parameter. Signing is a function assumed to be accepted by verification."},
 {"property": "C76", "status": "proved", "theorems": ["C76_steps", "C76_reaches", "C76_history", "C76_writes", "C76_whole", "C76_refused", "C76_create_refused", "C76_script", "C76_token", "C76_token_checked", "C76_system", "C76_ata"], "note": "Packets (legacy and version 0) with instructions of the staking, token, system and associated token programs; associated accounts are created where there is none (creates_new)."},
 {"property": "C77", "status": "proved", "theorems": ["C77_settings", "C77_record", "C77_new_record", "C77_vault", "C77_supply", "C77_birth", "C77_funds"], "note": "Same packets as C76."},
 {"property": "C78", "status": "proved", "theorems": ["C78_loads", "C78_one_meaning", "C78_seed_decides", "C78_generate", "C78_no_key", "C78_round_trip", "C78_stakes", "C78_all_hex_refuted", "C78_only_bytes_refuted", "C78_upload_checks_refuted", "C78_upload", "C78_known_type", "C78_other_type"], "note": "Key files that are JSON arrays of integers; ASCII."},
 {"property": "C79", "status": "proved", "theorems": ["C79_pays", "C79_free", "C79_cases", "C79_script", "C79_reaches", "C79_reach", "C79_settings", "C79_record", "C79_new_record", "C79_vault", "C79_supply", "C79_birth", "C79_funds"], "note": "Base fees only: packets with compute-budget instructions are not executed by the model (as in C76). The numbers of the runtime (5000 lamports, rent states) are trusted base."},
 {"property": "C80", "status": "proved", "theorems": ["C80_withdraw", "C80_stake", "C80_first_stake", "C80_unstake", "C80_cooldown", "C80_authority", "C80_first_withdraw", "C80_first_unstake", "C80_initialize", "C80_deposit", "C80_transfer", "C80_first_transfer", "C80_mint_authority"], "note": "All nine scripts. For unstake up to a collision of the address hash (stated). A transfer to oneself is left out."},
 {"property": "C81", "status": "proved", "theorems": ["C81_wallet", "C81_holder", "C81_record", "C81_withdraw", "C81_unstake"], "note": "Records and unstaking up to a collision of the address hash (stated: clash, collision). For the two payments the accounts must not be frozen on arrival and the wallet must be able to pay the fee (stated on the state after the packets)."}
]}

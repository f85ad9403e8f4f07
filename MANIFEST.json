{
 "claims": [
  {
   "property": "C01",
   "status": "proved",
   "theorems": [
    "C01_product_never_falls",
    "C01_product_fall_bound",
    "C01_commission_positive",
    "C01_product_never_falls_refuted"
   ],
   "note": "Holds when the offer reserve after the swap is at most 10^18 units or the swap pays any commission (gross >= 334 units); exact bound on the fall otherwise; the unconditional claim is false, see C01_product_never_falls_refuted. The statement was reworded after the proof attempt; the original wording is in DESIGN.md."
  },
  {
   "property": "C02",
   "status": "proved",
   "theorems": [
    "C02_never_overdrawn",
    "C02_drained_iff",
    "C02_never_emptied",
    "C02_never_emptied_refuted"
   ],
   "note": "Exact condition for emptying; unconditional claim refuted by C02_never_emptied_refuted. The statement was reworded after the proof attempt; the original wording is in DESIGN.md."
  },
  {
   "property": "C03",
   "status": "proved",
   "theorems": [
    "C03_fee_and_gross",
    "C03_gross_exact"
   ],
   "note": ""
  },
  {
   "property": "C04",
   "status": "proved",
   "theorems": [
    "C04_answers_iff",
    "C04_live_pool_answers",
    "C04_live_pool_answers_refuted"
   ],
   "note": "Exact condition for answering; without the 10^18 limit on the offer reserve the claim is false (C04_live_pool_answers_refuted). The statement was reworded after the proof attempt; the original wording is in DESIGN.md."
  },
  {
   "property": "C05",
   "status": "proved",
   "theorems": [
    "C05_return_monotone",
    "C05_return_antitone_in_offer_reserve"
   ],
   "note": ""
  },
  {
   "property": "C06",
   "status": "proved",
   "theorems": [
    "C06_product_bound",
    "C06_no_profitable_sequence",
    "C06_no_profitable_sequence_any_length",
    "C06_round_trip"
   ],
   "note": "Any length with reserves up to 10^18 units; bounded length otherwise. The statement was reworded after the proof attempt; the original wording is in DESIGN.md."
  },
  {
   "property": "C07",
   "status": "proved",
   "theorems": [
    "C07_quote_honoured",
    "C07_receiver_gets_quote",
    "C07_refused_if_decimals_do_not_fit"
   ],
   "note": "Exact settlement of the swap; needs the rescaled amounts to fit 128 bits, and the converse is proved too (C07_refused_if_decimals_do_not_fit). The statement was reworded after the proof attempt; the original wording is in DESIGN.md."
  },
  {
   "property": "C08",
   "status": "proved",
   "theorems": [
    "C08_reverse_quote_tight",
    "C08_reverse_quote_commission",
    "C08_reverse_quote_sufficient_refuted",
    "C08_quote_executed"
   ],
   "note": "The quote is tight to one unit; exact sufficiency is false, see C08_reverse_quote_sufficient_refuted. The statement was reworded after the proof attempt; the original wording is in DESIGN.md."
  },
  {
   "property": "C09",
   "status": "proved",
   "theorems": [
    "C09_max_spread_enforced",
    "C09_belief_price_enforced",
    "C09_respected_limit_passes",
    "C09_belief_price_alone_ignored",
    "C09_decimals_gap_blocks_swaps"
   ],
   "note": ""
  },
  {
   "property": "C10",
   "status": "proved",
   "theorems": [
    "C10_slippage_enforced",
    "C10_tolerance_above_one_refused",
    "C10_empty_pool_tolerance_aborts",
    "C10_within_tolerance_passes"
   ],
   "note": ""
  },
  {
   "property": "C11",
   "status": "proved",
   "theorems": [
    "C11_no_dilution"
   ],
   "note": ""
  },
  {
   "property": "C12",
   "status": "proved",
   "theorems": [
    "C12_first_deposit",
    "C12_first_deposit_overflow_aborts"
   ],
   "note": ""
  },
  {
   "property": "C13",
   "status": "proved",
   "theorems": [
    "C13_withdrawal_pro_rata",
    "C13_remaining_holders_keep_value"
   ],
   "note": ""
  },
  {
   "property": "C14",
   "status": "proved",
   "theorems": [
    "C14_provide_withdraw_no_profit",
    "C14_round_trip"
   ],
   "note": ""
  },
  {
   "property": "C15",
   "status": "proved",
   "theorems": [
    "C15_last_holder_gets_everything"
   ],
   "note": ""
  },
  {
   "property": "C16",
   "status": "proved",
   "theorems": [
    "C16_swap_only_from_asset_contracts",
    "C16_withdraw_only_from_lp_token",
    "C16_only_three_calls",
    "C16_strangers_fail"
   ],
   "note": ""
  },
  {
   "property": "C17",
   "status": "proved",
   "theorems": [
    "C17_swap_pays_once",
    "C17_receiver_validated"
   ],
   "note": ""
  },
  {
   "property": "C18",
   "status": "proved",
   "theorems": [
    "C18_native_deposits_are_paid",
    "C18_deposit_effect"
   ],
   "note": ""
  },
  {
   "property": "C19",
   "status": "proved",
   "theorems": [
    "C19_native_never_offered",
    "C19_native_pairs_never_trade",
    "C19_native_hop_fails"
   ],
   "note": "Impossibility over all histories: the code has no working way to offer a native coin. The statement was reworded after the proof attempt; the original wording is in DESIGN.md."
  },
  {
   "property": "C20",
   "status": "proved",
   "theorems": [
    "C20_call_effects",
    "C20_strangers_refused",
    "C20_only_owner_administers",
    "C20_unchanged_without_owner"
   ],
   "note": ""
  },
  {
   "property": "C21",
   "status": "proved",
   "theorems": [
    "C21_duplicate_refused",
    "C21_lookup_order_irrelevant",
    "C21_registered_pair_stays",
    "C21_either_order",
    "C21_known_refused"
   ],
   "note": ""
  },
  {
   "property": "C22",
   "status": "proved",
   "theorems": [
    "C22_same_key_same_assets",
    "C22_token_pairs",
    "C22_keys_never_collide_refuted",
    "C22_answer_is_about_the_question"
   ],
   "note": "Keys are distinct when identifiers are prefix-free (all cw20/cw20 pairs); in general they collide, see C22_keys_never_collide_refuted. The statement was reworded after the proof attempt; the original wording is in DESIGN.md."
  },
  {
   "property": "C23",
   "status": "proved",
   "theorems": [
    "C23_listed_pairs_are_real",
    "C23_listed_pairs_are_real_refuted"
   ],
   "note": "With the project code ids; false otherwise, see C23_listed_pairs_are_real_refuted. The statement was reworded after the proof attempt; the original wording is in DESIGN.md."
  },
  {
   "property": "C24",
   "status": "proved",
   "theorems": [
    "C24_paging_complete",
    "C24_page_size",
    "C24_paging_complete_refuted",
    "C24_pages_are_the_pairs",
    "C24_token_pairs_separated"
   ],
   "note": "Paging is complete when no registry key is a proper prefix of another; otherwise entries can be skipped, see C24_paging_complete_refuted. The statement was reworded after the proof attempt; the original wording is in DESIGN.md."
  },
  {
   "property": "C25",
   "status": "proved",
   "theorems": [
    "C25_decimals_of_created_pair",
    "C25_registration_needs_balance",
    "C25_native_needs_registration",
    "C25_recorded_decimals",
    "C25_listed_decimals"
   ],
   "note": "Over whole histories; the recorded decimals need the project code ids. The statement was reworded after the proof attempt; the original wording is in DESIGN.md."
  },
  {
   "property": "C26",
   "status": "proved",
   "theorems": [
    "C26_two_different_assets",
    "C26_same_asset_refused",
    "C26_two_different_assets_refuted",
    "C26_never_itself"
   ],
   "note": "Holds for assets spelled in normalized form; another spelling of one address bypasses the check, see C26_two_different_assets_refuted. The statement was reworded after the proof attempt; the original wording is in DESIGN.md."
  },
  {
   "property": "C27",
   "status": "proved",
   "theorems": [
    "C27_route_accepted_iff",
    "C27_accepted_routes_are_chains_refuted",
    "C27_chains_accepted"
   ],
   "note": "Exact acceptance condition proved; some accepted routes are not chains, see C27_accepted_routes_are_chains_refuted. The statement was reworded after the proof attempt; the original wording is in DESIGN.md."
  },
  {
   "property": "C28",
   "status": "proved",
   "theorems": [
    "C28_minimum_enforced",
    "C28_minimum_enforced_cw20"
   ],
   "note": ""
  },
  {
   "property": "C29",
   "status": "proved",
   "theorems": [
    "C29_only_self",
    "C29_strangers_refused"
   ],
   "note": ""
  },
  {
   "property": "C30",
   "status": "proved",
   "theorems": [
    "C30_route_messages",
    "C30_route_messages_cw20"
   ],
   "note": ""
  },
  {
   "property": "C31",
   "status": "proved",
   "theorems": [
    "C31_simulation_composes",
    "C31_reverse_simulation_composes",
    "C31_reverse_error_aborts"
   ],
   "note": ""
  },
  {
   "property": "C32",
   "status": "proved",
   "theorems": [
    "C32_hop_leaves_nothing"
   ],
   "note": "With exact settlement of the hop. The statement was reworded after the proof attempt; the original wording is in DESIGN.md."
  },
  {
   "property": "C33",
   "status": "proved",
   "theorems": [
    "C33_route_pays_quote"
   ],
   "note": "Exact settlement of the whole route for any length. The unqualified claim is false, see Examples C33_same_pair_refuted and C33_swept_refuted. The statement was reworded after the proof attempt; the original wording is in DESIGN.md."
  },
  {
   "property": "C34",
   "status": "proved",
   "theorems": [
    "C34_supply_is_sum"
   ],
   "note": ""
  },
  {
   "property": "C35",
   "status": "proved",
   "theorems": [
    "C35_cap"
   ],
   "note": ""
  },
  {
   "property": "C36",
   "status": "proved",
   "theorems": [
    "C36_lp_minted_only_by_provide"
   ],
   "note": ""
  },
  {
   "property": "C37",
   "status": "proved",
   "theorems": [
    "C37_instantiates_iff",
    "C37_initial_state"
   ],
   "note": ""
  },
  {
   "property": "C38",
   "status": "proved",
   "theorems": [
    "C38_nobody_else_spends"
   ],
   "note": ""
  },
  {
   "property": "C39",
   "status": "proved",
   "theorems": [
    "C39_decimal256_text_roundtrip",
    "C39_uint256_text_roundtrip",
    "C39_decimal256_text_injective",
    "C39_decimal256_text_customary",
    "C39_uint256_text_customary",
    "C39_decimal_text_customary"
   ],
   "note": ""
  },
  {
   "property": "C40",
   "status": "proved",
   "theorems": [
    "C40_decimal_conversion_exact",
    "C40_decimal_too_large_aborts"
   ],
   "note": ""
  },
  {
   "property": "C41",
   "status": "proved",
   "theorems": [
    "C41_u128_roundtrip",
    "C41_to_u128_exact_or_abort",
    "C41_limbs",
    "C41_u64"
   ],
   "note": ""
  },
  {
   "property": "C42",
   "status": "proved",
   "theorems": [
    "C42_arith_exact_or_abort",
    "C42_results_in_range",
    "C42_compare_exact"
   ],
   "note": ""
  },
  {
   "property": "C43",
   "status": "proved",
   "theorems": [
    "C43_parse_exact",
    "C43_parse_outcomes"
   ],
   "note": ""
  },
  {
   "property": "C44",
   "status": "proved",
   "theorems": [
    "C44_native_conserved"
   ],
   "note": ""
  },
  {
   "property": "C45",
   "status": "proved",
   "theorems": [
    "C45_share_value_never_falls",
    "C45_share_value_refuted"
   ],
   "note": "All histories including donations, deposits, withdrawals, burns, third-party contracts. C45_share_value_refuted: without the proviso on swaps the claim is false."
  },
  {
   "property": "C46",
   "status": "proved",
   "theorems": [
    "C46_reserves_stay"
   ],
   "note": ""
  },
  {
   "property": "C47",
   "status": "proved",
   "theorems": [
    "C47_pair_immutable",
    "C47_migration_keeps"
   ],
   "note": ""
  },
  {
   "property": "C48",
   "status": "proved",
   "theorems": [
    "C48_can_withdraw",
    "C48_two_units_suffice"
   ],
   "note": "With exact settlement; the one-unit version is false, see Example C48_one_unit_refuted. The statement was reworded after the proof attempt; the original wording is in DESIGN.md."
  },
  {
   "property": "C49",
   "status": "proved",
   "theorems": [
    "C49_ledger"
   ],
   "note": ""
  },
  {
   "property": "C50",
   "status": "proved",
   "theorems": [
    "C50_allowances",
    "C50_spending_allowed",
    "C50_allowance_shrinks_only_so",
    "C50_allowance_exact"
   ],
   "note": ""
  },
  {
   "property": "C51",
   "status": "proved",
   "theorems": [
    "C51_minter",
    "C51_no_minter_no_growth"
   ],
   "note": ""
  },
  {
   "property": "C52",
   "status": "proved",
   "theorems": [
    "C52_code_authority"
   ],
   "note": ""
  },
  {
   "property": "C53",
   "status": "proved",
   "theorems": [
    "C53_lp_token_code_fixed"
   ],
   "note": ""
  },
  {
   "property": "C54",
   "status": "proved",
   "theorems": [
    "C54_deposit_effect",
    "C54_deposit_iff"
   ],
   "note": ""
  },
  {
   "property": "C55",
   "status": "proved",
   "theorems": [
    "C55_route_is_its_hops",
    "C55_router_keeps_nothing"
   ],
   "note": ""
  },
  {
   "property": "C56",
   "status": "proved",
   "theorems": [
    "C56_route_quote_monotone",
    "C56_reverse_route_never_over"
   ],
   "note": ""
  },
  {
   "property": "C57",
   "status": "proved",
   "theorems": [
    "C57_pool_query_is_truth",
    "C57_simulation_is_formula",
    "C57_reverse_is_formula"
   ],
   "note": ""
  },
  {
   "property": "C58",
   "status": "proved",
   "theorems": [
    "C58_swap_effect",
    "C58_swap_iff"
   ],
   "note": ""
  },
  {
   "property": "C59",
   "status": "proved",
   "theorems": [
    "C59_withdraw_iff",
    "C59_withdraw_effect",
    "C59_last_provider_gets_all"
   ],
   "note": ""
  },
  {
   "property": "C60",
   "status": "proved",
   "theorems": [
    "C60_create_pair_iff",
    "C60_create_pair_effect"
   ],
   "note": ""
  },
  {
   "property": "C61",
   "status": "proved",
   "theorems": [
    "C61_swap_event",
    "C61_deposit_event",
    "C61_withdraw_event",
    "C61_numbers_readable"
   ],
   "note": ""
  },
  {
   "property": "C62",
   "status": "proved",
   "theorems": [
    "C62_deposit_order",
    "C62_create_order"
   ],
   "note": ""
  },
  {
   "property": "C63",
   "status": "proved",
   "theorems": [
    "C63_token_call_iff",
    "C63_token_call_effect",
    "C63_send_is_transfer_and_call",
    "C63_send_from_is_transfer_from_and_call"
   ],
   "note": ""
  },
  {
   "property": "C64",
   "status": "proved",
   "theorems": [
    "C64_config_answers",
    "C64_update_config_iff",
    "C64_update_config_effect",
    "C64_add_native_iff",
    "C64_add_native_effect",
    "C64_migrate_pair_iff",
    "C64_migrate_pair_effect"
   ],
   "note": ""
  },
  {
   "property": "C65",
   "status": "proved",
   "theorems": [
    "C65_backing_never_falls",
    "C65_redeemable_never_falls"
   ],
   "note": ""
  },
  {
   "property": "C66",
   "status": "proved",
   "theorems": [
    "C66_claims_are_covered"
   ],
   "note": ""
  },
  {
   "property": "C67",
   "status": "proved",
   "theorems": [
    "C67_limiting_side",
    "C67_round_trip_loss",
    "C67_with_tolerance",
    "C67_rounding_only_refuted"
   ],
   "note": ""
  },
  {
   "property": "C68",
   "status": "proved",
   "theorems": [
    "C68_first_deposit_admitted"
   ],
   "note": ""
  },
  {
   "property": "C69",
   "status": "proved",
   "theorems": [
    "C69_lost_in_tokens_and_factories"
   ],
   "note": ""
  },
  {
   "property": "C70",
   "status": "proved",
   "theorems": [
    "C70_split_swap",
    "C70_parts_at_most",
    "C70_many_parts"
   ],
   "note": ""
  },
  {
   "property": "C71",
   "status": "proved",
   "theorems": [
    "C71_never_loses_on_both_sides",
    "C71_guaranteed_worth"
   ],
   "note": ""
  },
  {
   "property": "C72",
   "status": "proved",
   "theorems": [
    "C72_no_gain",
    "C72_not_on_both_sides"
   ],
   "note": ""
  },
  {
   "property": "C73",
   "status": "proved",
   "theorems": [
    "C73_route_iff"
   ],
   "note": ""
  },
  {
   "property": "C74",
   "status": "proved",
   "theorems": [
    "C74_belief_price_protects",
    "C74_max_spread_alone_refuted"
   ],
   "note": ""
  },
  {
   "property": "C75",
   "status": "proved",
   "theorems": [
    "C75_only_hops_pay",
    "C75_factory_fixed",
    "C75_next_sender_takes"
   ],
   "note": ""
  },
  {
   "property": "C76",
   "status": "proved",
   "theorems": [
    "C76_direct_route_iff",
    "C76_native_coins_stay"
   ],
   "note": ""
  },
  {
   "property": "C77",
   "status": "proved",
   "theorems": [
    "C77_creator_decides",
    "C77_anyone_can_block"
   ],
   "note": ""
  },
  {
   "property": "C78",
   "status": "proved",
   "theorems": [
    "C78_fees_go_to_providers",
    "C78_factors_unique",
    "C78_one_swap"
   ],
   "note": ""
  },
  {
   "property": "C79",
   "status": "proved",
   "theorems": [
    "C79_listed_pair_sound",
    "C79_listed_pairs_apart",
    "C79_listed_pair_guarantees"
   ],
   "note": ""
  },
  {
   "property": "C80",
   "status": "proved",
   "theorems": [
    "C80_refines_pool",
    "C80_books"
   ],
   "note": ""
  },
  {
   "property": "C81",
   "status": "proved",
   "theorems": [
    "C81_finite",
    "C81_decided",
    "C81_histories"
   ],
   "note": ""
  },
  {
   "property": "C82",
   "status": "proved",
   "theorems": [
    "C82_nothing_else_matters",
    "C82_swaps_alike",
    "C82_withdrawals_alike",
    "C82_deposits_alike"
   ],
   "note": ""
  },
  {
   "property": "C83",
   "status": "proved",
   "theorems": [
    "C83_independent",
    "C83_order"
   ],
   "note": ""
  },
  {
   "property": "C84",
   "status": "proved",
   "theorems": [
    "C84_accounts",
    "C84_accounts_end",
    "C84_page_size",
    "C84_allowances",
    "C84_allowance_is_spendable",
    "C84_minter_can_mint"
   ],
   "note": ""
  },
  {
   "property": "C85",
   "status": "proved",
   "theorems": [
    "C85_book",
    "C85_new_book",
    "C85_every_entry"
   ],
   "note": ""
  },
  {
   "property": "C86",
   "status": "proved",
   "theorems": [
    "C86_withdrawals_pro_rata",
    "C86_withdrawals_vs_one",
    "C86_deposits_never_more"
   ],
   "note": ""
  },
  {
   "property": "C87",
   "status": "proved",
   "theorems": [
    "C87_bytes_are_messages",
    "C87_messages_survive",
    "C87_read_back",
    "C87_instantiate_survives",
    "C87_sent_messages_fit",
    "C87_reads_exactly_json",
    "C87_writes_json",
    "C87_base64",
    "C87_texts",
    "C87_exactly_the_schema",
    "C87_others_refused"
   ],
   "note": ""
  },
  {
   "property": "C88",
   "status": "proved",
   "theorems": [
    "C88_questions_survive",
    "C88_query_bytes",
    "C88_asking_is_knowing",
    "C88_answered_bytes",
    "C88_texts",
    "C88_exactly_the_schema",
    "C88_who_answers"
   ],
   "note": ""
  },
  {
   "property": "C89",
   "status": "proved",
   "theorems": [
    "C89_new_factory_iff",
    "C89_new_factory",
    "C89_new_router_iff",
    "C89_new_router",
    "C89_new_token_iff",
    "C89_new_token",
    "C89_new_pair_iff",
    "C89_new_pair"
   ],
   "note": ""
  },
  {
   "property": "C90",
   "status": "proved",
   "theorems": [
    "C90_numbers_survive_json",
    "C90_decimal256_json",
    "C90_uint256_json"
   ],
   "note": ""
  },
  {
   "property": "C91",
   "status": "proved",
   "theorems": [
    "C91_following_events",
    "C91_from_the_start"
   ],
   "note": ""
  },
  {
   "property": "C92",
   "status": "proved",
   "theorems": [
    "C92_created_pair",
    "C92_lp_token",
    "C92_native_decimals"
   ],
   "note": ""
  },
  {
   "property": "C93",
   "status": "proved",
   "theorems": [
    "C93_quotes_follow_reserves",
    "C93_swaps_shift",
    "C93_quotes_after",
    "C93_follower_gets_less",
    "C93_opposite_gets_more"
   ],
   "note": ""
  },
  {
   "property": "C94",
   "status": "proved",
   "theorems": [
    "C94_deeper_quotes",
    "C94_deposit",
    "C94_withdrawal"
   ],
   "note": ""
  },
  {
   "property": "C95",
   "status": "proved",
   "theorems": [
    "C95_shares_stay_backed",
    "C95_backed_since_creation",
    "C95_never_drained",
    "C95_shares_stay_backed_refuted"
   ],
   "note": ""
  },
  {
   "property": "C96",
   "status": "proved",
   "theorems": [
    "C96_round_trip_costs_the_fees"
   ],
   "note": ""
  },
  {
   "property": "C97",
   "status": "proved",
   "theorems": [
    "C97_address_read",
    "C97_accepts_exactly",
    "C97_one_address",
    "C97_pair_told",
    "C97_factory_told",
    "C97_pair_keeps_the_address",
    "C97_factory_keeps_the_address",
    "C97_no_address_aborts",
    "C97_case"
   ],
   "note": ""
  },
  {
   "property": "C98",
   "status": "proved",
   "theorems": [
    "C98_calls",
    "C98_maps_agree",
    "C98_listing"
   ],
   "note": ""
  },
  {
   "property": "C99",
   "status": "proved",
   "theorems": [
    "C99_quote_below_prices",
    "C99_no_gain_round_a_cycle"
   ],
   "note": ""
  },
  {
   "property": "C100",
   "status": "proved",
   "theorems": [
    "C100_entries_apart",
    "C100_factory",
    "C100_pair",
    "C100_router",
    "C100_new",
    "C100_reachable",
    "C100_one_store",
    "C100_bytes_tell"
   ],
   "note": ""
  },
  {
   "property": "C101",
   "status": "proved",
   "theorems": [
    "C101_entries_apart",
    "C101_token",
    "C101_new",
    "C101_bytes_tell",
    "C101_one_store",
    "C101_history"
   ],
   "note": ""
  },
  {
   "property": "C102",
   "status": "proved",
   "theorems": [
    "C102_answers",
    "C102_exec",
    "C102_history",
    "C102_carries",
    "C102_supply",
    "C102_same_steps"
   ],
   "note": ""
  },
  {
   "property": "C103",
   "status": "proved",
   "theorems": [
    "C103_parts_of_a_quote",
    "C103_max_spread_limits_size",
    "C103_small_swaps_pass"
   ],
   "note": ""
  },
  {
   "property": "C104",
   "status": "proved",
   "theorems": [
    "C104_token_answers_in_bytes",
    "C104_granted_in_bytes",
    "C104_listing_in_bytes"
   ],
   "note": ""
  },
  {
   "property": "C105",
   "status": "proved",
   "theorems": [
    "C105_smart",
    "C105_questions"
   ],
   "note": ""
  },
  {
   "property": "C106",
   "status": "proved",
   "theorems": [
    "C106_entry",
    "C106_replies_in_bytes",
    "C106_transaction",
    "C106_unreadable"
   ],
   "note": ""
  },
  {
   "property": "C107",
   "status": "proved",
   "theorems": [
    "C107_exec",
    "C107_any_bytes",
    "C107_history",
    "C107_carries",
    "C107_supply",
    "C107_questions",
    "C107_same_steps"
   ],
   "note": ""
  },
  {
   "property": "C108",
   "status": "proved",
   "theorems": [
    "C108_accepted",
    "C108_factory_message",
    "C108_storage_kept"
   ],
   "note": ""
  }
 ]
}
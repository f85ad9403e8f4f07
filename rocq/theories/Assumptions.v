(** Every theorem named in MANIFEST.json in one term, and what it rests on. *)
From Verif Require Import P_BigNumber P_Swap P_Pair P_Factory P_Router P_Token P_Ledger P_Registry P_Exec P_Route P_Value P_TokenHistory P_Migrate P_Deposit P_Route2 P_Quotes P_Withdraw P_Create P_Events P_Order P_Cw20 P_Admin P_Sides P_Fair P_First P_Stuck P_Split P_Gain P_RouteIff P_Limits P_RouterFunds P_Direct P_Squat P_Fees P_Listed P_Refine P_Finite P_Alike P_Block P_Parts P_Reverse P_TokenQuery P_Text P_Book P_PartsLP P_Wire P_Decimals P_QueryWire P_New P_Json P_Schema P_BigNumberWire P_Pages P_Dispatch P_Indexer P_Reports P_Moves P_Depth P_Geo P_Round P_Reply P_Mirror P_Cycle P_Store P_TokenStore P_ByteWorld P_Impact P_SpenderWire P_ByteQuery P_ByteEntry P_WireWorld P_MigrateWire.

Definition claims_0 :=
  (@C01_product_never_falls,
   @C01_product_fall_bound,
   @C01_commission_positive,
   @C01_product_never_falls_refuted,
   @C02_never_overdrawn,
   @C02_drained_iff,
   @C02_never_emptied,
   @C02_never_emptied_refuted,
   @C03_fee_and_gross,
   @C03_gross_exact,
   @C04_answers_iff,
   @C04_live_pool_answers,
   @C04_live_pool_answers_refuted,
   @C05_return_monotone,
   @C05_return_antitone_in_offer_reserve,
   @C06_product_bound,
   @C06_no_profitable_sequence,
   @C06_no_profitable_sequence_any_length,
   @C06_round_trip,
   @C07_quote_honoured).
Definition claims_1 :=
  (@C07_receiver_gets_quote,
   @C07_refused_if_decimals_do_not_fit,
   @C08_reverse_quote_tight,
   @C08_reverse_quote_commission,
   @C08_reverse_quote_sufficient_refuted,
   @C08_quote_executed,
   @C09_max_spread_enforced,
   @C09_belief_price_enforced,
   @C09_respected_limit_passes,
   @C09_belief_price_alone_ignored,
   @C09_decimals_gap_blocks_swaps,
   @C10_slippage_enforced,
   @C10_tolerance_above_one_refused,
   @C10_empty_pool_tolerance_aborts,
   @C10_within_tolerance_passes,
   @C11_no_dilution,
   @C12_first_deposit,
   @C12_first_deposit_overflow_aborts,
   @C13_withdrawal_pro_rata,
   @C13_remaining_holders_keep_value).
Definition claims_2 :=
  (@C14_provide_withdraw_no_profit,
   @C14_round_trip,
   @C15_last_holder_gets_everything,
   @C16_swap_only_from_asset_contracts,
   @C16_withdraw_only_from_lp_token,
   @C16_only_three_calls,
   @C16_strangers_fail,
   @C17_swap_pays_once,
   @C17_receiver_validated,
   @C18_native_deposits_are_paid,
   @C18_deposit_effect,
   @C19_native_never_offered,
   @C19_native_pairs_never_trade,
   @C19_native_hop_fails,
   @C20_call_effects,
   @C20_strangers_refused,
   @C20_only_owner_administers,
   @C20_unchanged_without_owner,
   @C21_duplicate_refused,
   @C21_lookup_order_irrelevant).
Definition claims_3 :=
  (@C21_registered_pair_stays,
   @C21_either_order,
   @C21_known_refused,
   @C22_same_key_same_assets,
   @C22_token_pairs,
   @C22_keys_never_collide_refuted,
   @C22_answer_is_about_the_question,
   @C23_listed_pairs_are_real,
   @C23_listed_pairs_are_real_refuted,
   @C24_paging_complete,
   @C24_page_size,
   @C24_paging_complete_refuted,
   @C24_pages_are_the_pairs,
   @C24_token_pairs_separated,
   @C25_decimals_of_created_pair,
   @C25_registration_needs_balance,
   @C25_native_needs_registration,
   @C25_recorded_decimals,
   @C25_listed_decimals,
   @C26_two_different_assets).
Definition claims_4 :=
  (@C26_same_asset_refused,
   @C26_two_different_assets_refuted,
   @C26_never_itself,
   @C27_route_accepted_iff,
   @C27_accepted_routes_are_chains_refuted,
   @C27_chains_accepted,
   @C28_minimum_enforced,
   @C28_minimum_enforced_cw20,
   @C29_only_self,
   @C29_strangers_refused,
   @C30_route_messages,
   @C30_route_messages_cw20,
   @C31_simulation_composes,
   @C31_reverse_simulation_composes,
   @C31_reverse_error_aborts,
   @C32_hop_leaves_nothing,
   @C33_route_pays_quote,
   @C34_supply_is_sum,
   @C35_cap,
   @C36_lp_minted_only_by_provide).
Definition claims_5 :=
  (@C37_instantiates_iff,
   @C37_initial_state,
   @C38_nobody_else_spends,
   @C39_decimal256_text_roundtrip,
   @C39_uint256_text_roundtrip,
   @C39_decimal256_text_injective,
   @C39_decimal256_text_customary,
   @C39_uint256_text_customary,
   @C39_decimal_text_customary,
   @C40_decimal_conversion_exact,
   @C40_decimal_too_large_aborts,
   @C41_u128_roundtrip,
   @C41_to_u128_exact_or_abort,
   @C41_limbs,
   @C41_u64,
   @C42_arith_exact_or_abort,
   @C42_results_in_range,
   @C42_compare_exact,
   @C43_parse_exact,
   @C43_parse_outcomes).
Definition claims_6 :=
  (@C44_native_conserved,
   @C45_share_value_never_falls,
   @C45_share_value_refuted,
   @C46_reserves_stay,
   @C47_pair_immutable,
   @C47_migration_keeps,
   @C48_can_withdraw,
   @C48_two_units_suffice,
   @C49_ledger,
   @C50_allowances,
   @C50_spending_allowed,
   @C50_allowance_shrinks_only_so,
   @C50_allowance_exact,
   @C51_minter,
   @C51_no_minter_no_growth,
   @C52_code_authority,
   @C53_lp_token_code_fixed,
   @C54_deposit_effect,
   @C54_deposit_iff,
   @C55_route_is_its_hops).
Definition claims_7 :=
  (@C55_router_keeps_nothing,
   @C56_route_quote_monotone,
   @C56_reverse_route_never_over,
   @C57_pool_query_is_truth,
   @C57_simulation_is_formula,
   @C57_reverse_is_formula,
   @C58_swap_effect,
   @C58_swap_iff,
   @C59_withdraw_iff,
   @C59_withdraw_effect,
   @C59_last_provider_gets_all,
   @C60_create_pair_iff,
   @C60_create_pair_effect,
   @C61_swap_event,
   @C61_deposit_event,
   @C61_withdraw_event,
   @C61_numbers_readable,
   @C62_deposit_order,
   @C62_create_order,
   @C63_token_call_iff).
Definition claims_8 :=
  (@C63_token_call_effect,
   @C63_send_is_transfer_and_call,
   @C63_send_from_is_transfer_from_and_call,
   @C64_config_answers,
   @C64_update_config_iff,
   @C64_update_config_effect,
   @C64_add_native_iff,
   @C64_add_native_effect,
   @C64_migrate_pair_iff,
   @C64_migrate_pair_effect,
   @C65_backing_never_falls,
   @C65_redeemable_never_falls,
   @C66_claims_are_covered,
   @C67_limiting_side,
   @C67_round_trip_loss,
   @C67_with_tolerance,
   @C67_rounding_only_refuted,
   @C68_first_deposit_admitted,
   @C69_lost_in_tokens_and_factories,
   @C70_split_swap).
Definition claims_9 :=
  (@C70_parts_at_most,
   @C70_many_parts,
   @C71_never_loses_on_both_sides,
   @C71_guaranteed_worth,
   @C72_no_gain,
   @C72_not_on_both_sides,
   @C73_route_iff,
   @C74_belief_price_protects,
   @C74_max_spread_alone_refuted,
   @C75_only_hops_pay,
   @C75_factory_fixed,
   @C75_next_sender_takes,
   @C76_direct_route_iff,
   @C76_native_coins_stay,
   @C77_creator_decides,
   @C77_anyone_can_block,
   @C78_fees_go_to_providers,
   @C78_factors_unique,
   @C78_one_swap,
   @C79_listed_pair_sound).
Definition claims_10 :=
  (@C79_listed_pairs_apart,
   @C79_listed_pair_guarantees,
   @C80_refines_pool,
   @C80_books,
   @C81_finite,
   @C81_decided,
   @C81_histories,
   @C82_nothing_else_matters,
   @C82_swaps_alike,
   @C82_withdrawals_alike,
   @C82_deposits_alike,
   @C83_independent,
   @C83_order,
   @C84_accounts,
   @C84_accounts_end,
   @C84_page_size,
   @C84_allowances,
   @C84_allowance_is_spendable,
   @C84_minter_can_mint,
   @C85_book).
Definition claims_11 :=
  (@C85_new_book,
   @C85_every_entry,
   @C86_withdrawals_pro_rata,
   @C86_withdrawals_vs_one,
   @C86_deposits_never_more,
   @C87_bytes_are_messages,
   @C87_messages_survive,
   @C87_read_back,
   @C87_instantiate_survives,
   @C87_sent_messages_fit,
   @C87_reads_exactly_json,
   @C87_writes_json,
   @C87_base64,
   @C87_texts,
   @C87_exactly_the_schema,
   @C87_others_refused,
   @C88_questions_survive,
   @C88_query_bytes,
   @C88_asking_is_knowing,
   @C88_answered_bytes).
Definition claims_12 :=
  (@C88_texts,
   @C88_exactly_the_schema,
   @C88_who_answers,
   @C89_new_factory_iff,
   @C89_new_factory,
   @C89_new_router_iff,
   @C89_new_router,
   @C89_new_token_iff,
   @C89_new_token,
   @C89_new_pair_iff,
   @C89_new_pair,
   @C90_numbers_survive_json,
   @C90_decimal256_json,
   @C90_uint256_json,
   @C91_following_events,
   @C91_from_the_start,
   @C92_created_pair,
   @C92_lp_token,
   @C92_native_decimals,
   @C93_quotes_follow_reserves).
Definition claims_13 :=
  (@C93_swaps_shift,
   @C93_quotes_after,
   @C93_follower_gets_less,
   @C93_opposite_gets_more,
   @C94_deeper_quotes,
   @C94_deposit,
   @C94_withdrawal,
   @C95_shares_stay_backed,
   @C95_backed_since_creation,
   @C95_never_drained,
   @C95_shares_stay_backed_refuted,
   @C96_round_trip_costs_the_fees,
   @C97_address_read,
   @C97_accepts_exactly,
   @C97_one_address,
   @C97_pair_told,
   @C97_factory_told,
   @C97_pair_keeps_the_address,
   @C97_factory_keeps_the_address,
   @C97_no_address_aborts).
Definition claims_14 :=
  (@C97_case,
   @C98_calls,
   @C98_maps_agree,
   @C98_listing,
   @C99_quote_below_prices,
   @C99_no_gain_round_a_cycle,
   @C100_entries_apart,
   @C100_factory,
   @C100_pair,
   @C100_router,
   @C100_new,
   @C100_reachable,
   @C100_one_store,
   @C100_bytes_tell,
   @C101_entries_apart,
   @C101_token,
   @C101_new,
   @C101_bytes_tell,
   @C101_one_store,
   @C101_history).
Definition claims_15 :=
  (@C102_answers,
   @C102_exec,
   @C102_history,
   @C102_carries,
   @C102_supply,
   @C102_same_steps,
   @C103_parts_of_a_quote,
   @C103_max_spread_limits_size,
   @C103_small_swaps_pass,
   @C104_token_answers_in_bytes,
   @C104_granted_in_bytes,
   @C104_listing_in_bytes,
   @C105_smart,
   @C105_questions,
   @C106_entry,
   @C106_replies_in_bytes,
   @C106_transaction,
   @C106_unreadable,
   @C107_exec,
   @C107_any_bytes).
Definition claims_16 :=
  (@C107_history,
   @C107_carries,
   @C107_supply,
   @C107_questions,
   @C107_same_steps,
   @C108_accepted,
   @C108_factory_message,
   @C108_storage_kept).
Definition claims := (claims_0, claims_1, claims_2, claims_3, claims_4, claims_5, claims_6, claims_7, claims_8, claims_9, claims_10, claims_11, claims_12, claims_13, claims_14, claims_15, claims_16).

Print Assumptions claims.

{
 "claims": [
  {
   "property": "C01",
   "status": "proved",
   "theorems": [
    "C01_one_engagement"
   ],
   "note": ""
  },
  {
   "property": "C02",
   "status": "proved",
   "theorems": [
    "C02_flags_match_registries",
    "C02_no_entry_without_nft"
   ],
   "note": ""
  },
  {
   "property": "C03",
   "status": "proved",
   "theorems": [
    "C03_collections_cross_reference"
   ],
   "note": ""
  },
  {
   "property": "C04",
   "status": "proved",
   "theorems": [
    "C04_collection_limits"
   ],
   "note": ""
  },
  {
   "property": "C05",
   "status": "proved",
   "theorems": [
    "C05_closed_and_limited_forever"
   ],
   "note": ""
  },
  {
   "property": "C06",
   "status": "proved",
   "theorems": [
    "C06_ids_never_reused",
    "C06_new_nft_ids_increase",
    "C06_new_collection_ids_increase"
   ],
   "note": ""
  },
  {
   "property": "C07",
   "status": "proved",
   "theorems": [
    "C07_immutable_attributes",
    "C07_royalty_set_by_creator_owner"
   ],
   "note": ""
  },
  {
   "property": "C08",
   "status": "proved",
   "theorems": [
    "C08_moves_are_authorised",
    "C08_free_nft_moves_by_owner"
   ],
   "note": ""
  },
  {
   "property": "C09",
   "status": "proved",
   "theorems": [
    "C09_soulbound_never_moves"
   ],
   "note": ""
  },
  {
   "property": "C10",
   "status": "proved",
   "theorems": [
    "C10_minting_costs_the_published_fee"
   ],
   "note": "The fee collector's gain is stated for a living collector account or fees that are zero or reach the existential deposit; otherwise the code burns the fee (see DESIGN.md)."
  },
  {
   "property": "C11",
   "status": "proved",
   "theorems": [
    "C11_shard_records",
    "C11_sync_ends_only_with_the_last_shard",
    "C11_last_shard_ends_sync"
   ],
   "note": ""
  },
  {
   "property": "C12",
   "status": "proved",
   "theorems": [
    "C12_burn_leaves_no_trace"
   ],
   "note": ""
  },
  {
   "property": "C13",
   "status": "proved",
   "theorems": [
    "C13_transfer_rule",
    "C13_transfer_effect"
   ],
   "note": ""
  },
  {
   "property": "C14",
   "status": "proved",
   "theorems": [
    "C14_offchain_data_accompanies_flags"
   ],
   "note": ""
  },
  {
   "property": "C15",
   "status": "proved",
   "theorems": [
    "C15_buying_splits_the_price"
   ],
   "note": ""
  },
  {
   "property": "C16",
   "status": "proved",
   "theorems": [
    "C16_listing_needs",
    "C16_listing_suffices"
   ],
   "note": "The conditions are necessary in general and sufficient when the marketplace asks no listing fee."
  },
  {
   "property": "C17",
   "status": "proved",
   "theorems": [
    "C17_sale_records_truthful",
    "C17_sale_records_stay"
   ],
   "note": ""
  },
  {
   "property": "C18",
   "status": "proved",
   "theorems": [
    "C18_owner_can_unlist"
   ],
   "note": ""
  },
  {
   "property": "C19",
   "status": "proved",
   "theorems": [
    "C19_marketplace_changed_by_owner_only",
    "C19_marketplaces_never_vanish"
   ],
   "note": ""
  },
  {
   "property": "C20",
   "status": "proved",
   "theorems": [
    "C20_bid_book",
    "C20_bid_accepted_above_highest"
   ],
   "note": ""
  },
  {
   "property": "C21",
   "status": "partial",
   "theorems": [
    "C21_pot_covers_partial",
    "C21_pot_covers_between_blocks_partial",
    "C21_refuted"
   ],
   "note": "Proved for existential deposit <= 1 (all reachable states), and for any existential deposit for every step except block initialisation. Refuted for larger existential deposits: a settlement in on_initialize that fails half way keeps the payments already made (C21_refuted)."
  },
  {
   "property": "C22",
   "status": "proved",
   "theorems": [
    "C22_end_auction_exact",
    "C22_hook_settlement_exact",
    "C22_commission_agreed_at_creation",
    "C22_terms_stay",
    "C22_refunds_do_not_saturate"
   ],
   "note": "Exact for end_auction and for the loop body of on_initialize; balance of the pot itself exact when the existential deposit is at most 1, otherwise dust may additionally be lost."
  },
  {
   "property": "C23",
   "status": "partial",
   "theorems": [
    "C23_due_auctions_settled_partial",
    "C23_refuted"
   ],
   "note": "Proved for existential deposit <= 1. Refuted for larger ones: a settlement that fails in on_initialize drops the deadline and leaves the auction (C23_refuted)."
  },
  {
   "property": "C24",
   "status": "proved",
   "theorems": [
    "C24_deadlines_mirror_auctions",
    "C24_every_auction_has_a_deadline"
   ],
   "note": "The list is exact for every configuration; the converse (every auction has a deadline) holds for existential deposit <= 1."
  },
  {
   "property": "C25",
   "status": "proved",
   "theorems": [
    "C25_claim_exact",
    "C25_refunds_never_shrink"
   ],
   "note": ""
  },
  {
   "property": "C26",
   "status": "proved",
   "theorems": [
    "C26_add_bid_exact",
    "C26_remove_bid_exact"
   ],
   "note": ""
  },
  {
   "property": "C27",
   "status": "proved",
   "theorems": [
    "C27_windows_and_parties",
    "C27_no_bids_before_start"
   ],
   "note": ""
  },
  {
   "property": "C28",
   "status": "proved",
   "theorems": [
    "C28_late_bids_extend"
   ],
   "note": ""
  },
  {
   "property": "C29",
   "status": "proved",
   "theorems": [
    "C29_buy_it_now_exact"
   ],
   "note": ""
  },
  {
   "property": "C30",
   "status": "proved",
   "theorems": [
    "C30_hook_bounded"
   ],
   "note": ""
  },
  {
   "property": "C31",
   "status": "proved",
   "theorems": [
    "C31_pot_covers_deposits"
   ],
   "note": ""
  },
  {
   "property": "C32",
   "status": "proved",
   "theorems": [
    "C32_deposit_in_custody",
    "C32_one_contract_per_deposit",
    "C32_renter_and_rentee_deposit_differ"
   ],
   "note": ""
  },
  {
   "property": "C33",
   "status": "proved",
   "theorems": [
    "C33_block_start_exact",
    "C33_due_contract_ends",
    "C33_only_due_contracts_end"
   ],
   "note": ""
  },
  {
   "property": "C34",
   "status": "proved",
   "theorems": [
    "C34_revoke_exact"
   ],
   "note": "Exact for every account; for the pot itself exact when the existential deposit is at most 1 (otherwise dust can additionally be lost)."
  },
  {
   "property": "C35",
   "status": "partial",
   "theorems": [
    "C35_percentage_is_completed",
    "C35_zero_at_start",
    "C35_never_decreases",
    "C35_full_at_the_end_partial",
    "C35_share_within_deposit",
    "C35_refuted"
   ],
   "note": "The percentage is exactly the saturating formula, at most 100, 0 at the start, monotone; 100 from the end on is proved for total durations up to 42,949,672 blocks and refuted above (u32 saturation, C35_refuted)."
  },
  {
   "property": "C36",
   "status": "proved",
   "theorems": [
    "C36_queues_sorted_disjoint_bounded",
    "C36_every_contract_scheduled",
    "C36_every_entry_has_a_contract",
    "C36_start_never_lacks_capacity"
   ],
   "note": ""
  },
  {
   "property": "C37",
   "status": "proved",
   "theorems": [
    "C37_rent_exact",
    "C37_accept_offer_exact",
    "C37_rentee_never_replaced"
   ],
   "note": ""
  },
  {
   "property": "C38",
   "status": "partial",
   "theorems": [
    "C38_offer_made_by_its_maker",
    "C38_offer_keeps_its_contract_partial",
    "C38_refuted"
   ],
   "note": "Offers survive the expiry of their contract in on_initialize and can be accepted for a later contract of the same NFT (C38_refuted); proved: nothing else separates an offer from its contract."
  },
  {
   "property": "C39",
   "status": "partial",
   "theorems": [
    "C39_terms_stay_partial",
    "C39_contract_life_cycle",
    "C39_contract_created_by_owner",
    "C39_refuted",
    "C39_same_block_refuted"
   ],
   "note": "rent names only the creation block: the renter can change subscription terms under it (C39_refuted), or cancel and recreate in the same block (C39_same_block_refuted). Proved for contracts that are not changeable and were created in an earlier block."
  },
  {
   "property": "C40",
   "status": "partial",
   "theorems": [
    "C40_only_the_renter_changes_terms_partial",
    "C40_refuted"
   ],
   "note": "False of the code: change_subscription_terms always sets the flag (C40_refuted). Proved: only a change by the renter sets it."
  },
  {
   "property": "C41",
   "status": "proved",
   "theorems": [
    "C41_only_the_rentee_accepts",
    "C41_open_terms_not_renewed"
   ],
   "note": ""
  },
  {
   "property": "C42",
   "status": "proved",
   "theorems": [
    "C42_renewed_exactly_one_period_later",
    "C42_renewed_iff_affordable"
   ],
   "note": ""
  },
  {
   "property": "C43",
   "status": "partial",
   "theorems": [
    "C43_hook_bounded_partial",
    "C43_refuted"
   ],
   "note": "The bound proved is max(1, limit) + 2, because every one of the three loops may do one action before comparing with the limit; refuted for the limit itself (C43_refuted)."
  },
  {
   "property": "C44",
   "status": "partial",
   "theorems": [
    "C44_party_can_leave_partial",
    "C44_refuted"
   ],
   "note": "Proved unless the leaving party's deposit is flexible and the existential deposit exceeds 1; refuted there (C44_refuted: the first half of the split kills the pot account)."
  },
  {
   "property": "C45",
   "status": "partial",
   "theorems": [
    "C45_rent_nft_arrives_partial",
    "C45_refuted"
   ],
   "note": "Proved unless the rent NFT is also the rentee's deposit NFT; refuted there (C45_refuted)."
  },
  {
   "property": "C46",
   "status": "proved",
   "theorems": [
    "C46_transmitted_only_with_threshold",
    "C46_recorded_consents"
   ],
   "note": ""
  },
  {
   "property": "C47",
   "status": "proved",
   "theorems": [
    "C47_never_early",
    "C47_on_time",
    "C47_timed_waits",
    "C47_first_come_first_served"
   ],
   "note": ""
  },
  {
   "property": "C48",
   "status": "proved",
   "theorems": [
    "C48_sorted_unique_bounded",
    "C48_queue_exact"
   ],
   "note": ""
  },
  {
   "property": "C49",
   "status": "proved",
   "theorems": [
    "C49_remove_exactly",
    "C49_remove_effect",
    "C49_reset_exactly",
    "C49_reset_effect"
   ],
   "note": ""
  },
  {
   "property": "C50",
   "status": "proved",
   "theorems": [
    "C50_hook_never_fails"
   ],
   "note": ""
  },
  {
   "property": "C51",
   "status": "proved",
   "theorems": [
    "C51_exactly_one_cluster",
    "C51_cluster_shape"
   ],
   "note": ""
  },
  {
   "property": "C52",
   "status": "partial",
   "theorems": [
    "C52_current_address_accepted",
    "C52_accepted_for_assigned_operators",
    "C52_accepted_was_current_partial",
    "C52_exact_without_approved_changes_partial",
    "C52_refuted"
   ],
   "note": "approve_update_enclave keeps the mapping of the old address, which stays accepted (C52_refuted). Proved: the current address is accepted, an accepted address belonged to the operator at some time, and exactness when no approved update changes an address."
  },
  {
   "property": "C53",
   "status": "partial",
   "theorems": [
    "C53_lock_equals_stake",
    "C53_nonzero_stake_is_locked_partial",
    "C53_refuted"
   ],
   "note": "Proved when the balances pallet removes the lock on a zero amount; in the pinned version it ignores a zero amount and refund_excess leaves the lock (C53_refuted). Every nonzero stake equals the lock in both."
  },
  {
   "property": "C54",
   "status": "partial",
   "theorems": [
    "C54_assigned_is_bonded_partial",
    "C54_refuted"
   ],
   "note": "An operator can ask to leave and withdraw before root reacts (C54_refuted). Proved for operators that have not asked to leave."
  },
  {
   "property": "C55",
   "status": "proved",
   "theorems": [
    "C55_withdraw_after_bonding_duration",
    "C55_no_other_release"
   ],
   "note": ""
  },
  {
   "property": "C56",
   "status": "proved",
   "theorems": [
    "C56_claimed_at_most_once"
   ],
   "note": ""
  },
  {
   "property": "C57",
   "status": "partial",
   "theorems": [
    "C57_claim_amount",
    "C57_era_total_partial",
    "C57_refuted"
   ],
   "note": "Per-claim bounds proved in full; the bound per era is refuted (C57_refuted: the share grows when operators leave between claims) and proved for constant operators and pool."
  },
  {
   "property": "C58",
   "status": "partial",
   "theorems": [
    "C58_reports_come_from_public_servers_partial",
    "C58_one_report_per_name_partial",
    "C58_refuted"
   ],
   "note": "The name in a report is not compared with the signer (C58_refuted). Proved: reports come from registered public servers, one per name."
  },
  {
   "property": "C59",
   "status": "partial",
   "theorems": [
    "C59_slots_unique_partial",
    "C59_refuted"
   ],
   "note": "assign_enclave does not compare slots (C59_refuted). Proved when root assigns free slots only."
  },
  {
   "property": "C60",
   "status": "proved",
   "theorems": [
    "C60_new_cluster",
    "C60_never_reused",
    "C60_removed_only_when_empty"
   ],
   "note": ""
  },
  {
   "property": "C61",
   "status": "proved",
   "theorems": [
    "C61_life_cycle",
    "C61_leaving_list"
   ],
   "note": ""
  },
  {
   "property": "C62",
   "status": "partial",
   "theorems": [
    "C62_enough_votes",
    "C62_at_most_once",
    "C62_mint_is_exact_partial",
    "C62_small_amount_refuted"
   ],
   "note": "Votes, single mint: full. Exact amount: proved when the recipient has an account or the amount reaches the existential deposit and the issuance fits in 128 bits; refuted otherwise (C62_small_amount_refuted)."
  },
  {
   "property": "C63",
   "status": "partial",
   "theorems": [
    "C63_double_mint_needs_double_vote_partial",
    "C63_refuted"
   ],
   "note": "Refuted (C63_refuted: two proposals with one nonce are both minted). Proved: needs an account voting for both, if fewer than 2*threshold accounts ever were relayers."
  },
  {
   "property": "C64",
   "status": "proved",
   "theorems": [
    "C64_deposit_is_exact"
   ],
   "note": ""
  },
  {
   "property": "C65",
   "status": "proved",
   "theorems": [
    "C65_nonces_increase"
   ],
   "note": ""
  },
  {
   "property": "C66",
   "status": "proved",
   "theorems": [
    "C66_approved_is_final",
    "C66_expired_is_never_approved",
    "C66_votes_on_finished_proposals_fail"
   ],
   "note": ""
  },
  {
   "property": "C67",
   "status": "partial",
   "theorems": [
    "C67_fees_paid_out_once_partial",
    "C67_one_fee",
    "C67_refuted"
   ],
   "note": "Proved while fees and issuance fit in 128 bits; refuted beyond (C67_refuted, the counter saturates). Effect of one fee in full."
  },
  {
   "property": "C68",
   "status": "partial",
   "theorems": [
    "C68_payout_is_exact_partial",
    "C68_refuted"
   ],
   "note": "Proved if the sum fits in 128 bits; refuted beyond (C68_refuted, the sum wraps)."
  },
  {
   "property": "C69",
   "status": "proved",
   "theorems": [
    "C69_mandate"
   ],
   "note": ""
  },
  {
   "property": "C70",
   "status": "proved",
   "theorems": [
    "C70_issuance_is_the_sum",
    "C70_only_approved_proposals_mint",
    "C70_blocks_do_not_mint"
   ],
   "note": ""
  },
  {
   "property": "C71",
   "status": "proved",
   "theorems": [
    "C71_hooks_never_fail",
    "C71_no_panic_inside"
   ],
   "note": ""
  },
  {
   "property": "C72",
   "status": "proved",
   "theorems": [
    "C72_governance_needs_governance"
   ],
   "note": ""
  },
  {
   "property": "C73",
   "status": "proved",
   "theorems": [
    "C73_only_the_owner_manages"
   ],
   "note": ""
  },
  {
   "property": "C74",
   "status": "partial",
   "theorems": [
    "C74_only_by_own_old_offer_partial",
    "C74_refuted"
   ],
   "note": "False of the code, refuted through left-over offers (C74_refuted); rent and make_rent_offer themselves exclude the renter (C37_rent_exact, C38_offer_made_by_its_maker), so that accepting one's own left-over offer is the only way (C74_only_by_own_old_offer_partial)."
  },
  {
   "property": "C75",
   "status": "proved",
   "theorems": [
    "C75_tokens_move_by_consent"
   ],
   "note": ""
  },
  {
   "property": "C76",
   "status": "proved",
   "theorems": [
    "C76_pots_pay_only_their_own"
   ],
   "note": ""
  },
  {
   "property": "C77",
   "status": "proved",
   "theorems": [
    "C77_stake_changes"
   ],
   "note": ""
  },
  {
   "property": "C78",
   "status": "proved",
   "theorems": [
    "C78_waits_its_turn",
    "C78_transmitted_in_time"
   ],
   "note": ""
  },
  {
   "property": "C79",
   "status": "proved",
   "theorems": [
    "C79_waits_its_turn",
    "C79_handled_in_time"
   ],
   "note": ""
  },
  {
   "property": "C80",
   "status": "proved",
   "theorems": [
    "C80_waits_its_turn",
    "C80_ends_in_time"
   ],
   "note": "For an existential deposit of at most 1 (otherwise C23_refuted: a failed payout drops the deadline)."
  },
  {
   "property": "C81",
   "status": "partial",
   "theorems": [
    "C81_partial",
    "C81_refuted"
   ],
   "note": "Proved for blocks in which every due auction can be settled; refuted in general (C81_refuted): an auction the hook has not reached yet still takes bids."
  },
  {
   "property": "C82",
   "status": "proved",
   "theorems": [
    "C82_nft_calls"
   ],
   "note": "The fee collector as signer is excluded (it pays itself). The rows of the root-only fee setters say that a signed account never succeeds."
  },
  {
   "property": "C83",
   "status": "proved",
   "theorems": [
    "C83_marketplace_calls"
   ],
   "note": ""
  },
  {
   "property": "C84",
   "status": "proved",
   "theorems": [
    "C84_auction_calls"
   ],
   "note": "For sound configurations (config_ok: existential deposits agree, pallet accounts distinct) and signers other than pallet accounts."
  },
  {
   "property": "C85",
   "status": "proved",
   "theorems": [
    "C85_rent_calls"
   ],
   "note": "For sound configurations (config_ok: existential deposits agree, pallet accounts distinct) and signers other than pallet accounts."
  },
  {
   "property": "C86",
   "status": "proved",
   "theorems": [
    "C86_transmission_calls"
   ],
   "note": ""
  },
  {
   "property": "C87",
   "status": "proved",
   "theorems": [
    "C87_tee_calls"
   ],
   "note": "For sound configurations (config_ok: existential deposits agree, pallet accounts distinct) and signers other than pallet accounts."
  },
  {
   "property": "C88",
   "status": "proved",
   "theorems": [
    "C88_bridge_calls"
   ],
   "note": "The fee collector as signer is excluded."
  },
  {
   "property": "C89",
   "status": "proved",
   "theorems": [
    "C89_root_calls",
    "C89_external_calls"
   ],
   "note": "mandate always succeeds for the external origin, whatever the mandated call does."
  },
  {
   "property": "C90",
   "status": "proved",
   "theorems": [
    "C90_nft_effects"
   ],
   "note": "Balances are left open for calls that move tokens; the token properties (C20-C29, C75, C76, C98 and others) speak about those."
  },
  {
   "property": "C91",
   "status": "proved",
   "theorems": [
    "C91_marketplace_effects"
   ],
   "note": "Balances are left open for calls that move tokens; the token properties (C20-C29, C75, C76, C98 and others) speak about those."
  },
  {
   "property": "C92",
   "status": "proved",
   "theorems": [
    "C92_auction_effects"
   ],
   "note": "Balances are left open for calls that move tokens; the token properties (C20-C29, C75, C76, C98 and others) speak about those."
  },
  {
   "property": "C93",
   "status": "proved",
   "theorems": [
    "C93_rent_effects"
   ],
   "note": "Balances are left open for calls that move tokens; the token properties (C20-C29, C75, C76, C98 and others) speak about those. For sound configurations (config_ok)."
  },
  {
   "property": "C94",
   "status": "proved",
   "theorems": [
    "C94_transmission_effects"
   ],
   "note": "Balances are left open for calls that move tokens; the token properties (C20-C29, C75, C76, C98 and others) speak about those."
  },
  {
   "property": "C95",
   "status": "proved",
   "theorems": [
    "C95_tee_effects"
   ],
   "note": "Balances are left open for calls that move tokens; the token properties (C20-C29, C75, C76, C98 and others) speak about those. Locks are stated for every account."
  },
  {
   "property": "C96",
   "status": "proved",
   "theorems": [
    "C96_bridge_effects"
   ],
   "note": ""
  },
  {
   "property": "C97",
   "status": "proved",
   "theorems": [
    "C97_root_effects",
    "C97_external_effects"
   ],
   "note": ""
  },
  {
   "property": "C98",
   "status": "proved",
   "theorems": [
    "C98_services_cost_the_published_fee"
   ],
   "note": "If the collector's account is dead and the fee is below the existential deposit, Substrate burns the fee; the clause about the collector's gain excludes that case."
  },
  {
   "property": "C99",
   "status": "proved",
   "theorems": [
    "C99_block_touches_only_due",
    "C99_quiet_block"
   ],
   "note": ""
  },
  {
   "property": "C100",
   "status": "proved",
   "theorems": [
    "C100_free_after_changing_hands"
   ],
   "note": ""
  },
  {
   "property": "C101",
   "status": "proved",
   "theorems": [
    "C101_every_engagement_can_end"
   ],
   "note": "The provisos are needed: C23_refuted shows an auction that is never settled under an existential deposit above 1, and a pallet's own account signs nothing. NFTs waiting for shards need enclaves and are outside the claim."
  },
  {
   "property": "C102",
   "status": "proved",
   "theorems": [
    "C102_nft_reasons",
    "C102_nft_refusals"
   ],
   "note": "The fee collector as signer is excluded, as in the decision table."
  },
  {
   "property": "C103",
   "status": "proved",
   "theorems": [
    "C103_marketplace_reasons",
    "C103_marketplace_refusals"
   ],
   "note": ""
  },
  {
   "property": "C104",
   "status": "proved",
   "theorems": [
    "C104_auction_reasons",
    "C104_auction_refusals"
   ],
   "note": "For sound configurations (config_ok) and signers other than pallet accounts, as in the decision table."
  },
  {
   "property": "C105",
   "status": "proved",
   "theorems": [
    "C105_rent_reasons",
    "C105_rent_refusals"
   ],
   "note": "For sound configurations (config_ok) and signers other than pallet accounts, as in the decision table."
  },
  {
   "property": "C106",
   "status": "proved",
   "theorems": [
    "C106_transmission_reasons",
    "C106_transmission_refusals"
   ],
   "note": ""
  },
  {
   "property": "C107",
   "status": "proved",
   "theorems": [
    "C107_tee_reasons",
    "C107_tee_refusals"
   ],
   "note": "For sound configurations (config_ok) and signers other than pallet accounts, as in the decision table."
  },
  {
   "property": "C108",
   "status": "proved",
   "theorems": [
    "C108_bridge_reasons",
    "C108_bridge_refusals"
   ],
   "note": "The fee collector as signer is excluded, as in the decision table."
  },
  {
   "property": "C109",
   "status": "proved",
   "theorems": [
    "C109_root_reasons",
    "C109_root_refusals",
    "C109_external_reasons",
    "C109_external_refusals"
   ],
   "note": ""
  },
  {
   "property": "C110",
   "status": "proved",
   "theorems": [
    "C110_block_events"
   ],
   "note": ""
  },
  {
   "property": "C111",
   "status": "proved",
   "theorems": [
    "C111_declared_weight"
   ],
   "note": ""
  },
  {
   "property": "C112",
   "status": "partial",
   "theorems": [
    "C112_transmissions",
    "C112_auctions_partial",
    "C112_rent_partial",
    "C112_auctions_refuted",
    "C112_rent_refuted",
    "C112_tee_refuted"
   ],
   "note": "Proved for transmissions. False for the others: the auction hook never counts the deadlines, the refunds and the accounts (C112_auctions_refuted); the rent hook does not count enough for token deposits (C112_rent_refuted); the tee hook declares no write at all while it clears an era (C112_tee_refuted). Proved for the NFT and auction records, and for the contracts, their NFTs and the rent queues."
  },
  {
   "property": "C113",
   "status": "proved",
   "theorems": [
    "C113_bounded_work"
   ],
   "note": ""
  },
  {
   "property": "C114",
   "status": "proved",
   "theorems": [
    "C114_lists_within_limits"
   ],
   "note": ""
  },
  {
   "property": "C115",
   "status": "proved",
   "theorems": [
    "C115_size_bounded"
   ],
   "note": ""
  },
  {
   "property": "C116",
   "status": "partial",
   "theorems": [
    "C116_size_covers_partial",
    "C116_late_bid_refuted",
    "C116_buy_it_now_refuted",
    "C116_end_auction_refuted",
    "C116_offer_refuted"
   ],
   "note": "Proved for every list but those of SpecCall.undeclared; for these it is false: a late bid moves a deadline but is charged for the bidders (C116_late_bid_refuted), end_auction and buy_it_now are charged for the deadlines but refund all bidders (C116_end_auction_refuted, C116_buy_it_now_refuted), make_rent_offer is charged for the queues but changes the offers (C116_offer_refuted). Missing from the partial theorem: exactly these pairs."
  },
  {
   "property": "C117",
   "status": "proved",
   "theorems": [
    "C117_refund_can_be_claimed",
    "C117_bid_can_be_withdrawn",
    "C117_bid_wins_or_returns",
    "C117_deposit_can_be_recovered",
    "C117_applicant_can_leave",
    "C117_stake_can_be_withdrawn"
   ],
   "note": ""
  },
  {
   "property": "C118",
   "status": "proved",
   "theorems": [
    "C118_blocks_keep_what_is_owed"
   ],
   "note": ""
  },
  {
   "property": "C119",
   "status": "proved",
   "theorems": [
    "C119_bidders_money"
   ],
   "note": ""
  },
  {
   "property": "C120",
   "status": "proved",
   "theorems": [
    "C120_nobody_is_made_poorer",
    "C120_over_time"
   ],
   "note": ""
  },
  {
   "property": "C121",
   "status": "proved",
   "theorems": [
    "C121_uninvolved_keep_all",
    "C121_over_time"
   ],
   "note": ""
  },
  {
   "property": "C122",
   "status": "proved",
   "theorems": [
    "C122_everything_ends",
    "C122_nfts_come_free"
   ],
   "note": ""
  },
  {
   "property": "C123",
   "status": "proved",
   "theorems": [
    "C123_money_comes_home"
   ],
   "note": ""
  }
 ]
}

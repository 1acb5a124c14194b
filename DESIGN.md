# Formal model of the Ternoa pallets - design

Source: `/repo` (capsule-corp-ternoa/ternoa-pallets, read as text, never built or changed).
Prover: Coq 8.16.1, std++ (`gmap`), coq-record-update. Everything is under `rocq/theories`.

## 1. Shape of the model

* One record `state` holds the storage of all modelled pallets (one sub-record per pallet), the
  balances, the current block number, the active era and the list of deposited events.
* Accounts, ids, block numbers and balances are `N`. Range limits of the Rust types (`u8`, `u32`,
  `u64`, `u128`, `Permill`, bounded vectors) are enforced where a call is decoded (`wf_call`): a call
  whose arguments do not fit is rejected with `DecodeError`, as the SCALE decoder does.
  Saturating, checked and wrapping operations are written out at the place where the code uses them.
  Block number arithmetic is unbounded, except where the code converts to 32 bits explicitly.
* A runtime function is `M A := state -> res A * state` with `res A := Ok a | Err e`. The state comes back
  also with `Err`: storage writes made before an error are kept unless somebody rolls them back.
* `dispatch` runs one extrinsic inside a storage layer (FRAME, polkadot-v0.9.42: every
  `#[pallet::call]` is transactional): on `Err` the state is restored.
* Block hooks (`on_initialize`) are **not** transactional; they run on the raw monad. A hook that
  swallows an error keeps the partial effects.
* A panic (`expect`, index out of range) is the error `Panic`.
* `step` is the transition function over `action`: an extrinsic with an origin, the start of the next
  block (block number + 1, then the hooks of an arbitrary list of pallets, in arbitrary order), and the
  environment: crediting any account, debiting any ordinary account, advancing the active era, collecting
  transaction fees and ending an era.
* `reachable s` = there is a genesis state (any balances, empty pallets) and a list of valid actions leading
  to `s`. Invariants are proved by induction over this list.
* The only restriction on actions (`action_ok`): the derived pallet accounts (pots) never sign and are
  never debited or locked by the environment. Everything else that the environment must respect is built
  into `run_env` (issuing stops at 128 bits, the era does not go backwards).
* Everything is parametric in `Config` (State.v): the constants of all pallets, the external origin, the fee
  collector, the pallet accounts, the order of the hooks. `config_ok` (Runtime.v) is what some theorems
  assume about it; theorems that need it say so.

## 2. Files

`rocq/_CoqProject` lists the files in dependency order.

* Model: `Types` (data types, events, errors, calls), `State` (configuration, chain state, monad),
  `Balances` (currency), `NftModel`, `MarketModel`, `AuctionModel`, `RentModel`, `TransModel`, `TeeModel`,
  `BridgeModel` (bridge, staking-rewards), `Runtime` (decoding limits, origins, `exec_call` with mandate,
  `dispatch`, hooks, environment, `step`, `reachable`), `WeightModel` (the hooks once more, with the reads and writes
  they return; shown to do the same), `CallWeight` (the size argument of the call weights). No proofs in these.
* Vocabulary of the statements: `Spec`, `SpecAuction`, `SpecRent`, `SpecTrans`, `SpecTee`, `SpecBridge`, `SpecRules` (decision tables), `SpecEffects` (effect tables), `SpecBlock` (what a block may touch), `SpecEnd` (how an engagement can end), `SpecReasons` (refusal tables), `SpecLog` (what the events of a block say), `SpecWeight` (storage entries changed, prices of the hooks), `SpecCall` (the bounded lists and the calls that change them), `SpecOwed` (the money of bidders, empty blocks), `SpecAssets` (all tokens of an account).
* Property theorems: `PropsAccess` (C72, C73), `PropsNft` (C01-C19), `PropsAuction` (C20-C30),
  `PropsRent` (C31-C45, C74), `PropsTrans` (C46-C50), `PropsTee` (C51-C61), `PropsBridge` (C62-C71),
  `PropsTokens` (C75-C77), `PropsWait` (C78-C81), `PropsRules` (C82-C89), `PropsEffects` (C90-C98), `PropsBlock` (C99),
  `PropsFree` (C100, C101), `PropsReasons` (C102-C109), `PropsLog` (C110), `PropsWeight` (C111-C113), `PropsCall` (C114-C116), `PropsOwed` (C117-C119), `PropsAssets` (C120, C121), `PropsQuiet` (C122, C123).
  They contain the statements (each closed by `exact` and followed at the end of the file by
  `Print Assumptions`), the examples meeting their hypotheses, and the refutations.
* `Demo`, `Demo5`: a concrete configuration and genesis for the examples (existential deposit 1 and 5).
* `Replay`, `ReplayNft`, `ReplayMarket`, `ReplayAuction`, `ReplayRent`, `ReplayTrans`, `ReplayTee`, `ReplayBridge`:
  the project's own unit tests run against the model (section 6). Tests, not proofs; no theorem depends on them.
* Everything else: proofs.

## 3. What is modelled

All extrinsics, hooks, trait functions and helpers of: nft, marketplace, auction, rent,
transmission-protocols, tee, bridge, staking-rewards, mandate, and the data types of primitives and
common. Function by function, with the order of checks, writes and events.

## 4. What is not modelled

* The benchmarked weight functions of calls (their size argument is modelled; the weights of the hooks are modelled as numbers of reads and writes), benchmarks (`runtime-benchmarks` only functions such as `create_filled_collection`,
  `register_and_assign_enclave`), `WeightInfo`, genesis builders, the migration files (entirely
  commented out in the repository), metadata, `Display`/serde code, logging.
* Commented-out code (`revert_capsule`).
* SCALE encoding, hashing of storage keys, the transaction pool, signatures: a call arrives as
  a decoded value with an origin.
* The transaction payment pallet: fees are an environment action.
* pallet_balances, pallet_staking, authorship are external. The parts of the `Currency` interface that the pallets
  use are modelled in `Balances` (see the comments there); of pallet_staking only the active era; of
  authorship only "current author, if any".

## 5. Trusted base

* Coq's kernel (8.16.1) and `coqchk`.
* Axioms: `Print Assumptions` under every theorem in the `Props*` files (expected: "Closed under the global
  context").
* The transcription of the Rust code into the model (comments cite file and lines).
* The semantics of FRAME assumed above (transactional extrinsics, non transactional hooks, `try_mutate`
  writes its own value only on `Ok`).
* The semantics of `pallet_balances` (polkadot-v0.9.42) as transcribed in `Balances`.
* The fee collector (`OnUnbalanced`) either burns the imbalance or credits a fixed account
  (`fees_collector`).
* `set_lock` with amount zero: pallet-balances versions differ (ignored, or the lock is removed). The
  parameter `zero_lock_clears` leaves it open; theorems hold for both unless they say otherwise.
* Dust of a reaped account is burned (`DustRemoval = ()`); no reserves or holds; a lock is the only consumer
  reference of an account.
* Pallet accounts (derived from a PalletId) cannot sign, and are different from each other (`config_ok`).

## 6. Checking the model against the project's tests

The transcription is the part of the trusted base that Coq cannot check. The repository's unit tests say what
its authors observed when they ran the code, so the model is run on them: 487 examples, each named after the Rust test
it follows, each configured with the constants of that pallet's `mock.rs`. All of them conform.

* Covered: every active `#[test]` that calls an extrinsic or runs a block, in `*/src/tests/extrinsics.rs`, `hooks.rs` and
  `traits.rs` of the nine pallets (mandate has none). `ReplayNft`, `ReplayRent` and `ReplayTrans` were
  translated mechanically from the Rust text, the others by hand.
* Checked in each: the result of every call (success, or the exact error), every storage value and balance the test
  looks at, and the events it looks at.
* Not checked: that a refused call leaves the raw storage bytes alone (`assert_noop!` compares storage roots; in the
  model this is what `dispatch` does, and the refusal itself is compared); events of pallet-balances and frame-system, which the
  model does not emit; the NFT trait function `create_nft`, which the pallets never call.
* Not covered: commented-out tests (`revert_capsule`, among others).

## How the entries of seeded/LOG.jsonl were obtained

Most edits were tried in batches: several edits, in different functions, in one scratch copy, with every file then
checked against the statements (not the proofs) of the others, and past the first failing proof.  So `failed` is
not the output of a build with that one edit.  It is inferred: from which lemmas failed, which function each of them is
about, and which theorems rest on it.  Where two edits of a batch could both explain a failure the entry names the
theorem about the edited function, and the inference can be wrong there.  For the wrong error codes
(C102-C109) the failing case of the proof was identified per function, with at most one edit per function.  Entries with an
empty `failed` are edits that no theorem noticed at the time (`tightened` then names the theorem that now does); where the entry says that the edited line cannot be reached, that
is an argument from the invariants and not itself a theorem.

## 7. Per property

How it is modelled and proved, and the theorems.

* **C01 One engagement per NFT** - invariant over `reachable`, pointwise on NFT id; counts the six flags of the stored NFT record. Status: proved. `C01_one_engagement`.
* **C02 NFT flags agree with the registries** - invariant over `reachable`, four equivalences between the NFT flag and registry lookups. Status: proved. `C02_flags_match_registries`, `C02_no_entry_without_nft`.
* **C03 Collections and NFTs cross-reference exactly** - invariant over `reachable` linking `nfts` and `collections`. Status: proved. `C03_collections_cross_reference`.
* **C04 Collection size limits hold** - same invariant; inequality on list lengths. Status: proved. `C04_collection_limits`.
* **C05 Closing and limiting a collection is permanent** - two-state property closed under histories: induction over the action list from a reachable state. Status: proved. `C05_closed_and_limited_forever`.
* **C06 NFT and collection ids are never reused** - counter invariant (all ids below the counter, counter monotone) and induction over histories. Status: proved. `C06_ids_never_reused`, `C06_new_nft_ids_increase`, `C06_new_collection_ids_increase`.
* **C07 Immutable NFT attributes** - step property: compare the NFT record before and after any valid step of a reachable state. Status: proved. `C07_immutable_attributes`, `C07_royalty_set_by_creator_owner`.
* **C08 No NFT changes hands without authorisation** - step property: case analysis of the step that changes the owner; uses C01/C02 and custody invariant. Status: proved. `C08_moves_are_authorised`, `C08_free_nft_moves_by_owner`.
* **C09 Soulbound NFTs never leave a non-creator owner** - invariant (engaged soulbound NFTs are with their creator) + induction over histories. Status: proved. `C09_soulbound_never_moves`.
* **C10 Minting charges exactly the published fee** - functional theorem on `dispatch`; balances as a function of account before/after. Status: proved. `C10_minting_costs_the_published_fee`. The fee collector's gain is stated for a living collector account or fees that are zero or reach the existential deposit; otherwise the code burns the fee (see DESIGN.md).
* **C11 Secrets and capsules finish syncing only with enough distinct enclaves of one cluster** - invariant on shard lists + step property for the flag. Status: proved. `C11_shard_records`, `C11_sync_ends_only_with_the_last_shard`, `C11_last_shard_ends_sync`.
* **C12 A burned NFT leaves no trace** - functional theorem on `dispatch (burn_nft)` from reachable states, using C02/C03/C14. Status: proved. `C12_burn_leaves_no_trace`.
* **C13 Transfer decision rule** - equivalence theorem on `dispatch (transfer_nft)`. Status: proved. `C13_transfer_rule`, `C13_transfer_effect`.
* **C14 Secret and capsule data accompany the flags** - invariant over `reachable`. Status: proved. `C14_offchain_data_accompanies_flags`.
* **C15 Buying splits the price exactly** - functional theorem with an explicit per-account balance delta in Z, from reachable states. Status: proved. `C15_buying_splits_the_price`.
* **C16 Listing decision rule** - equivalence on `dispatch (list_nft)` against a declarative admission predicate. Status: proved. `C16_listing_needs`, `C16_listing_suffices`. The conditions are necessary in general and sufficient when the marketplace asks no listing fee.
* **C17 Sale records stay truthful** - invariant + step property (sale record constant). Status: proved. `C17_sale_records_truthful`, `C17_sale_records_stay`.
* **C18 An owner can always take a listed NFT back** - progress theorem from reachable states. Status: proved. `C18_owner_can_unlist`.
* **C19 Marketplaces are controlled by their owner only and never vanish** - step property. Status: proved. `C19_marketplace_changed_by_owner_only`, `C19_marketplaces_never_vanish`.
* **C20 Bid book is ordered and fair** - invariant on every bid book. Status: proved. `C20_bid_book`, `C20_bid_accepted_above_highest`.
* **C21 The auction pot can always pay everybody** - the full statement is expected to be false (a payment that fails midway inside the hook is not rolled back): `_refuted` with a concrete history, `_partial` for histories in which every live auction stays scheduled. Status: partial. `C21_pot_covers_partial`, `C21_pot_covers_between_blocks_partial`, `C21_refuted`. Proved for existential deposit <= 1 (all reachable states), and for any existential deposit for every step except block initialisation. Refuted for larger existential deposits: a settlement in on_initialize that fails half way keeps the payments already made (C21_refuted).
* **C22 Auction settlement is exact** - functional theorem on `end_auction`. Status: proved. `C22_end_auction_exact`, `C22_hook_settlement_exact`, `C22_commission_agreed_at_creation`, `C22_terms_stay`, `C22_refunds_do_not_saturate`. Exact for end_auction and for the loop body of on_initialize; balance of the pot itself exact when the existential deposit is at most 1, otherwise dust may additionally be lost.
* **C23 Every ended auction is settled** - expected false in general (`continue` after a failed payment drops the deadline): `_refuted`, and `_partial` under the condition that the payouts of the due auctions can be received. Status: partial. `C23_due_auctions_settled_partial`, `C23_refuted`. Proved for existential deposit <= 1. Refuted for larger ones: a settlement that fails in on_initialize drops the deadline and leaves the auction (C23_refuted).
* **C24 Deadlines mirror auctions** - invariant (entry => auction with that end block; sorted; no duplicates). The converse is the hypothesis of C21. Status: proved. `C24_deadlines_mirror_auctions`, `C24_every_auction_has_a_deadline`. The list is exact for every configuration; the converse (every auction has a deadline) holds for existential deposit <= 1.
* **C25 Refund claims are paid exactly once** - functional theorem on claim + step property. Status: proved. `C25_claim_exact`, `C25_refunds_never_shrink`.
* **C26 Bids are escrowed and refunded exactly** - functional theorems. Status: proved. `C26_add_bid_exact`, `C26_remove_bid_exact`.
* **C27 A started auction cannot be cancelled and bidding respects the window** - decision theorems. Status: proved. `C27_windows_and_parties`, `C27_no_bids_before_start`.
* **C28 Late bids extend the auction** - functional theorem on the end block. Status: proved. `C28_late_bids_extend`.
* **C29 Buy-it-now is exact** - functional theorem. Status: proved. `C29_buy_it_now_exact`.
* **C30 Auction hook work is bounded** - induction over the hook loop; number of auctions that disappear. Status: proved. `C30_hook_bounded`.
* **C31 The rent pot can always return every deposit** - sum invariant over `reachable`. Status: proved. `C31_pot_covers_deposits`.
* **C32 NFT security deposits are in custody** - invariant with injectivity of deposits. Status: proved. `C32_deposit_in_custody`, `C32_one_contract_per_deposit`, `C32_renter_and_rentee_deposit_differ`.
* **C33 A finished contract returns everything** - functional theorem on the hook's handlers from reachable states (no error possible). Status: proved. `C33_block_start_exact`, `C33_due_contract_ends`, `C33_only_due_contracts_end`.
* **C34 Revoking distributes deposits as agreed** - functional theorem. Status: proved. `C34_revoke_exact`. Exact for every account; for the pot itself exact when the existential deposit is at most 1 (otherwise dust can additionally be lost).
* **C35 Flexible share arithmetic** - arithmetic theorem on 32/128 bit ranges. Status: partial. `C35_percentage_is_completed`, `C35_zero_at_start`, `C35_never_decreases`, `C35_full_at_the_end_partial`, `C35_share_within_deposit`, `C35_refuted`. The percentage is exactly the saturating formula, at most 100, 0 at the start, monotone; 100 from the end on is proved for total durations up to 42,949,672 blocks and refuted above (u32 saturation, C35_refuted).
* **C36 Every contract is scheduled exactly once and capacity is respected** - invariant. Status: proved. `C36_queues_sorted_disjoint_bounded`, `C36_every_contract_scheduled`, `C36_every_entry_has_a_contract`, `C36_start_never_lacks_capacity`.
* **C37 Starting a contract charges exactly the advertised fees, once, and never replaces a rentee** - functional theorem + history property. Status: proved. `C37_rent_exact`, `C37_accept_offer_exact`, `C37_rentee_never_replaced`.
* **C38 Rent offers bind only the contract they were made for** - expected false (offers survive expiry of a contract): `_refuted` + `_partial` (a charge needs an outstanding offer on that NFT). Status: partial. `C38_offer_made_by_its_maker`, `C38_offer_keeps_its_contract_partial`, `C38_refuted`. Offers survive the expiry of their contract in on_initialize and can be accepted for a later contract of the same NFT (C38_refuted); proved: nothing else separates an offer from its contract.
* **C39 A rentee only pays the terms they signed** - expected false (`change_subscription_terms` keeps the creation block): `_refuted` + `_partial`. Status: partial. `C39_terms_stay_partial`, `C39_contract_life_cycle`, `C39_contract_created_by_owner`, `C39_refuted`, `C39_same_block_refuted`. rent names only the creation block: the renter can change subscription terms under it (C39_refuted), or cancel and recreate in the same block (C39_same_block_refuted). Proved for contracts that are not changeable and were created in an earlier block.
* **C40 Changing terms of an unrented subscription needs no later acceptance** - expected false (flag set unconditionally): `_refuted` + `_partial`. Status: partial. `C40_only_the_renter_changes_terms_partial`, `C40_refuted`. False of the code: change_subscription_terms always sets the flag (C40_refuted). Proved: only a change by the renter sets it.
* **C41 No charge under unaccepted terms** - step property on the hook and functional theorem on acceptance. Status: proved. `C41_only_the_rentee_accepts`, `C41_open_terms_not_renewed`.
* **C42 Renewals charge exactly one rent fee per period** - functional theorem on the renewal. Status: proved. `C42_renewed_exactly_one_period_later`, `C42_renewed_iff_affordable`.
* **C43 Rent hook work is bounded** - expected false (limit + 2): `_refuted` + exact bound `_partial`. Status: partial. `C43_hook_bounded_partial`, `C43_refuted`. The bound proved is max(1, limit) + 2, because every one of the three loops may do one action before comparing with the limit; refuted for the limit itself (C43_refuted).
* **C44 A party can always leave a running contract** - expected false (pot reaped between the two transfers of a flexible share): `_refuted` + `_partial`. Status: partial. `C44_party_can_leave_partial`, `C44_refuted`. Proved unless the leaving party's deposit is flexible and the existential deposit exceeds 1; refuted there (C44_refuted: the first half of the split kills the pot account).
* **C45 An NFT paid as rent arrives at the renter** - expected false (same NFT as rent and deposit): `_refuted` + `_partial`. Status: partial. `C45_rent_nft_arrives_partial`, `C45_refuted`. Proved unless the rent NFT is also the rentee's deposit NFT; refuted there (C45_refuted).
* **C46 Consent protocols need the threshold of distinct listed consents** - invariant on consents + step property. Status: proved. `C46_transmitted_only_with_threshold`, `C46_recorded_consents`.
* **C47 Timed transmissions fire on time and not earlier** - invariant + step property + hook theorem. Status: proved. `C47_never_early`, `C47_on_time`, `C47_timed_waits`, `C47_first_come_first_served`.
* **C48 Transmission queue mirrors transmissions** - invariant. Status: proved. `C48_sorted_unique_bounded`, `C48_queue_exact`.
* **C49 Cancellation and reset rules** - decision theorems. Status: proved. `C49_remove_exactly`, `C49_remove_effect`, `C49_reset_exactly`, `C49_reset_effect`.
* **C50 The transmission hook never fails** - hook theorem from invariants. Status: proved. `C50_hook_never_fails`.
* **C51 Enclave operators sit in exactly one cluster** - invariant. Status: proved. `C51_exactly_one_cluster`, `C51_cluster_shape`.
* **C52 Only the current enclave address is authorised** - expected false (`approve_update_enclave` keeps the old address): `_refuted` + `_partial` for histories without that call. Status: partial. `C52_current_address_accepted`, `C52_accepted_for_assigned_operators`, `C52_accepted_was_current_partial`, `C52_exact_without_approved_changes_partial`, `C52_refuted`. approve_update_enclave keeps the mapping of the old address, which stays accepted (C52_refuted). Proved: the current address is accepted, an accepted address belonged to the operator at some time, and exactness when no approved update changes an address.
* **C53 Staking ledger equals the balance lock** - invariant between ledger and locks; corner cases of `set_lock` with zero amount analysed. Status: partial. `C53_lock_equals_stake`, `C53_nonzero_stake_is_locked_partial`, `C53_refuted`. Proved when the balances pallet removes the lock on a zero amount; in the pinned version it ignores a zero amount and refund_excess leaves the lock (C53_refuted). Every nonzero stake equals the lock in both.
* **C54 Active enclaves are staked** - expected false (withdraw before approval): `_refuted` + `_partial` (operators that did not ask to leave are staked). Status: partial. `C54_assigned_is_bonded_partial`, `C54_refuted`. An operator can ask to leave and withdraw before root reacts (C54_refuted). Proved for operators that have not asked to leave.
* **C55 Unbonding delay** - step property with a history variable argument (ledger's unbonding block). Status: proved. `C55_withdraw_after_bonding_duration`, `C55_no_other_release`.
* **C56 Era rewards are claimed at most once** - history theorem: two successful claims for the same era and operator are impossible. Status: proved. `C56_claimed_at_most_once`.
* **C57 Reward amounts** - per-claim bound proved; the sum over an era expected false: `_refuted`. Status: partial. `C57_claim_amount`, `C57_era_total_partial`, `C57_refuted`. Per-claim bounds proved in full; the bound per era is refuted (C57_refuted: the share grows when operators leave between claims) and proved for constant operators and pool.
* **C58 Metrics reports are attributed to their submitter** - expected false (`submitted_by` is not compared with the signer): `_refuted` + `_partial`. Status: partial. `C58_reports_come_from_public_servers_partial`, `C58_one_report_per_name_partial`, `C58_refuted`. The name in a report is not compared with the signer (C58_refuted). Proved: reports come from registered public servers, one per name.
* **C59 Cluster slots are unique** - expected false (no slot check): `_refuted`. Status: partial. `C59_slots_unique_partial`, `C59_refuted`. assign_enclave does not compare slots (C59_refuted). Proved when root assigns free slots only.
* **C60 Cluster ids are never reused and clusters vanish only when empty** - counter invariant + step property. Status: proved. `C60_new_cluster`, `C60_never_reused`, `C60_removed_only_when_empty`.
* **C61 Registration life cycle** - invariant. Status: proved. `C61_life_cycle`, `C61_leaving_list`.
* **C62 Bridge mints a proposal once and only with enough relayer votes** - invariant on proposals with history of votes; step property. Status: partial. `C62_enough_votes`, `C62_at_most_once`, `C62_mint_is_exact_partial`, `C62_small_amount_refuted`. Votes, single mint: full. Exact amount: proved when the recipient has an account or the amount reaches the existential deposit and the issuance fits in 128 bits; refuted otherwise (C62_small_amount_refuted).
* **C63 A deposit nonce of a foreign chain is redeemed at most once** - expected false (key contains recipient and amount): `_refuted`; `_partial` is C62. Status: partial. `C63_double_mint_needs_double_vote_partial`, `C63_refuted`. Refuted (C63_refuted: two proposals with one nonce are both minted). Proved: needs an account voting for both, if fewer than 2*threshold accounts ever were relayers.
* **C64 Bridge deposits burn exactly** - functional theorem with explicit wrap at 2^128. Status: proved. `C64_deposit_is_exact`.
* **C65 Deposit nonces are unique per chain** - history theorem. Status: proved. `C65_nonces_increase`.
* **C66 Finished proposals are final** - history theorem. Status: proved. `C66_approved_is_final`, `C66_expired_is_never_approved`, `C66_votes_on_finished_proposals_fail`.
* **C67 Fees are paid out to stakers exactly once** - conservation theorem over histories (ghost sums computed from the action list). Status: partial. `C67_fees_paid_out_once_partial`, `C67_one_fee`, `C67_refuted`. Proved while fees and issuance fit in 128 bits; refuted beyond (C67_refuted, the counter saturates). Effect of one fee in full.
* **C68 Era payout is exact** - functional theorem. Status: partial. `C68_payout_is_exact_partial`, `C68_refuted`. Proved if the sum fits in 128 bits; refuted beyond (C68_refuted, the sum wraps).
* **C69 Mandate acts as root, only for the external origin** - functional theorem. Status: proved. `C69_mandate`.
* **C70 Token supply** - invariant + step property. Status: proved. `C70_issuance_is_the_sum`, `C70_only_approved_proposals_mint`, `C70_blocks_do_not_mint`.
* **C71 Block hooks never panic** - hook theorem from invariants. Status: proved. `C71_hooks_never_fail`, `C71_no_panic_inside`.
* **C72 Governance calls need governance** - decision theorem over all administrative calls. Status: proved. `C72_governance_needs_governance`.
* **C73 Only the owner manages an NFT** - decision theorem over all NFT managing calls. Status: proved. `C73_only_the_owner_manages`.
* **C74 Nobody rents from themselves** - false of the code: an offer left over from an expired contract can be accepted by its own maker; refuted with a concrete reachable state. Status: partial. `C74_only_by_own_old_offer_partial`, `C74_refuted`. False of the code, refuted through left-over offers (C74_refuted); rent and make_rent_offer themselves exclude the renter (C37_rent_exact, C38_offer_made_by_its_maker), so that accepting one's own left-over offer is the only way (C74_only_by_own_old_offer_partial).
* **C75 Tokens move only with the account's consent** - per-call preservation of a lower bound on the balance of a fixed account (all calls, hooks, environment), plus the exact effect of the rent hook for the renewals. Status: proved. `C75_tokens_move_by_consent`.
* **C76 Pallet accounts pay only their own obligations** - the same lower bound for each pallet account, with the list of paying calls in `SpecTokens.v`. Status: proved. `C76_pots_pay_only_their_own`.
* **C77 A stake is changed by its operator only** - case analysis on the TEE calls; every other call, hook and environment action keeps the lock map. Status: proved. `C77_stake_changes`.
* **C78 A due transmission gets its turn** - rank of an entry in the queue (`Ahead.v`): no call puts an entry before one that is due, every block that does not transmit it lowers the rank by the number of actions; induction over the steps. Status: proved. `C78_waits_its_turn`, `C78_transmitted_in_time`.
* **C79 A due rent contract gets its turn** - the same rank argument for each of the three queues; every block handles at least one due entry of each queue. Status: proved. `C79_waits_its_turn`, `C79_handled_in_time`.
* **C80 A due auction gets its turn** - the same rank argument for the deadlines; an extension moves another auction back, so it never gets before a due one. Status: proved. `C80_waits_its_turn`, `C80_ends_in_time`. For an existential deposit of at most 1 (otherwise C23_refuted: a failed payout drops the deadline).
* **C81 No bid after the end** - expected false when the hook is behind (`add_bid` compares with the start block only): `_refuted`, and `_partial` for blocks whose due auctions all fit. Status: partial. `C81_partial`, `C81_refuted`. Proved for blocks in which every due auction can be settled; refuted in general (C81_refuted): an auction the hook has not reached yet still takes bids.
* **C82 When the NFT calls succeed** - all calls of nft: a decision table in SpecRules.v, written from the documented conditions with its own vocabulary; both directions proved for every row by running the call backwards over the reachable state. Status: proved. `C82_nft_calls`. The fee collector as signer is excluded (it pays itself). The rows of the root-only fee setters say that a signed account never succeeds.
* **C83 When the marketplace calls succeed** - all calls of marketplace: a decision table in SpecRules.v, written from the documented conditions with its own vocabulary; both directions proved for every row by running the call backwards over the reachable state. Status: proved. `C83_marketplace_calls`.
* **C84 When the auction calls succeed** - all calls of auction: a decision table in SpecRules.v, written from the documented conditions with its own vocabulary; both directions proved for every row by running the call backwards over the reachable state. Status: proved. `C84_auction_calls`. For sound configurations (config_ok: existential deposits agree, pallet accounts distinct) and signers other than pallet accounts.
* **C85 When the rent calls succeed** - all calls of rent: a decision table in SpecRules.v, written from the documented conditions with its own vocabulary; both directions proved for every row by running the call backwards over the reachable state. Status: proved. `C85_rent_calls`. For sound configurations (config_ok: existential deposits agree, pallet accounts distinct) and signers other than pallet accounts.
* **C86 When the transmission calls succeed** - all calls of transmission: a decision table in SpecRules.v, written from the documented conditions with its own vocabulary; both directions proved for every row by running the call backwards over the reachable state. Status: proved. `C86_transmission_calls`.
* **C87 When the TEE operator calls succeed** - all calls of tee: a decision table in SpecRules.v, written from the documented conditions with its own vocabulary; both directions proved for every row by running the call backwards over the reachable state. Status: proved. `C87_tee_calls`. For sound configurations (config_ok: existential deposits agree, pallet accounts distinct) and signers other than pallet accounts.
* **C88 When the bridge calls succeed** - all calls of bridge: a decision table in SpecRules.v, written from the documented conditions with its own vocabulary; both directions proved for every row by running the call backwards over the reachable state. Status: proved. `C88_bridge_calls`. The fee collector as signer is excluded.
* **C89 When the administrative calls succeed** - all calls of root and of the external origin: a decision table in SpecRules.v, written from the documented conditions with its own vocabulary; both directions proved for every row by running the call backwards over the reachable state. Status: proved. `C89_root_calls`, `C89_external_calls`. mandate always succeeds for the external origin, whatever the mandated call does.
* **C90 What the NFT calls do** - all calls of nft: an effect table in SpecEffects.v gives the whole state after the call as an update of the state before (balances apart), with the events; proved for every row by running the call. Status: proved. `C90_nft_effects`. Balances are left open for calls that move tokens; the token properties (C20-C29, C75, C76, C98 and others) speak about those.
* **C91 What the marketplace calls do** - all calls of marketplace: an effect table in SpecEffects.v gives the whole state after the call as an update of the state before (balances apart), with the events; proved for every row by running the call. Status: proved. `C91_marketplace_effects`. Balances are left open for calls that move tokens; the token properties (C20-C29, C75, C76, C98 and others) speak about those.
* **C92 What the auction calls do** - all calls of auction: an effect table in SpecEffects.v gives the whole state after the call as an update of the state before (balances apart), with the events; proved for every row by running the call. Status: proved. `C92_auction_effects`. Balances are left open for calls that move tokens; the token properties (C20-C29, C75, C76, C98 and others) speak about those.
* **C93 What the rent calls do** - all calls of rent: an effect table in SpecEffects.v gives the whole state after the call as an update of the state before (balances apart), with the events; proved for every row by running the call. Status: proved. `C93_rent_effects`. Balances are left open for calls that move tokens; the token properties (C20-C29, C75, C76, C98 and others) speak about those. For sound configurations (config_ok).
* **C94 What the transmission calls do** - all calls of transmission-protocols: an effect table in SpecEffects.v gives the whole state after the call as an update of the state before (balances apart), with the events; proved for every row by running the call. Status: proved. `C94_transmission_effects`. Balances are left open for calls that move tokens; the token properties (C20-C29, C75, C76, C98 and others) speak about those.
* **C95 What the TEE operator calls do** - all calls of tee (signed): an effect table in SpecEffects.v gives the whole state after the call as an update of the state before (balances apart), with the events; proved for every row by running the call. Status: proved. `C95_tee_effects`. Balances are left open for calls that move tokens; the token properties (C20-C29, C75, C76, C98 and others) speak about those. Locks are stated for every account.
* **C96 What the bridge calls do** - all calls of bridge (signed): an effect table in SpecEffects.v gives the whole state after the call as an update of the state before (balances apart), with the events; proved for every row by running the call. Status: proved. `C96_bridge_effects`.
* **C97 What the administrative calls do** - all calls of root and of the external origin: an effect table in SpecEffects.v gives the whole state after the call as an update of the state before (balances apart), with the events; proved for every row by running the call. Status: proved. `C97_root_effects`, `C97_external_effects`.
* **C98 Services cost the published fee** - the fee table service_fee; balances of all accounts compared before and after. Status: proved. `C98_services_cost_the_published_fee`. If the collector's account is dead and the fee is below the existential deposit, Substrate burns the fee; the clause about the collector's gain excludes that case.
* **C99 A block touches only what is due** - relation touches_only_due in SpecBlock.v compares every storage item before and after a block; proved for every state, reachable or not, by following the four hooks. Status: proved. `C99_block_touches_only_due`, `C99_quiet_block`.
* **C100 An NFT that changes hands is free** - the step lemma for owners (C01/C16) gives the way the NFT changed hands; each way is followed to the cleared flags, and the registries follow from the invariant behind C02. Status: proved. `C100_free_after_changing_hands`.
* **C101 Every engagement can end** - the continuation is constructed: wait for auctions, contracts and timers to run out (by the waiting lemmas behind C79-C81), then one call, or the missing consents one after another. Status: proved. `C101_every_engagement_can_end`. The provisos are needed: C23_refuted shows an auction that is never settled under an existential deposit above 1, and a pallet's own account signs nothing. NFTs waiting for shards need enclaves and are outside the claim.
* **C102 A refusal by the nft pallet names a reason that holds** - the run of the call is followed to its first failing step, and the steps before it give the state in which the failing check was made; the converse from the decision table of the same call (C82-C89): a line whose condition holds contradicts it. Status: proved. `C102_nft_reasons`, `C102_nft_refusals`. The fee collector as signer is excluded, as in the decision table.
* **C103 A refusal by the marketplace pallet names a reason that holds** - the run of the call is followed to its first failing step, and the steps before it give the state in which the failing check was made; the converse from the decision table of the same call (C82-C89): a line whose condition holds contradicts it. Status: proved. `C103_marketplace_reasons`, `C103_marketplace_refusals`.
* **C104 A refusal by the auction pallet names a reason that holds** - the run of the call is followed to its first failing step, and the steps before it give the state in which the failing check was made; the converse from the decision table of the same call (C82-C89): a line whose condition holds contradicts it. Status: proved. `C104_auction_reasons`, `C104_auction_refusals`. For sound configurations (config_ok) and signers other than pallet accounts, as in the decision table.
* **C105 A refusal by the rent pallet names a reason that holds** - the run of the call is followed to its first failing step, and the steps before it give the state in which the failing check was made; the converse from the decision table of the same call (C82-C89): a line whose condition holds contradicts it. Status: proved. `C105_rent_reasons`, `C105_rent_refusals`. For sound configurations (config_ok) and signers other than pallet accounts, as in the decision table.
* **C106 A refusal by the transmission pallet names a reason that holds** - the run of the call is followed to its first failing step, and the steps before it give the state in which the failing check was made; the converse from the decision table of the same call (C82-C89): a line whose condition holds contradicts it. Status: proved. `C106_transmission_reasons`, `C106_transmission_refusals`.
* **C107 A refusal by the tee pallet names a reason that holds** - the run of the call is followed to its first failing step, and the steps before it give the state in which the failing check was made; the converse from the decision table of the same call (C82-C89): a line whose condition holds contradicts it. Status: proved. `C107_tee_reasons`, `C107_tee_refusals`. For sound configurations (config_ok) and signers other than pallet accounts, as in the decision table.
* **C108 A refusal by the bridge pallet names a reason that holds** - the run of the call is followed to its first failing step, and the steps before it give the state in which the failing check was made; the converse from the decision table of the same call (C82-C89): a line whose condition holds contradicts it. Status: proved. `C108_bridge_reasons`, `C108_bridge_refusals`. The fee collector as signer is excluded, as in the decision table.
* **C109 A refusal by administration names a reason that holds** - the run of the call is followed to its first failing step, and the steps before it give the state in which the failing check was made; the converse from the decision table of the same call (C82-C89): a line whose condition holds contradicts it. Status: proved. `C109_root_reasons`, `C109_root_refusals`, `C109_external_reasons`, `C109_external_refusals`.
* **C110 The events of a block are true, complete and said once** - per hook: the loops are followed with the list of events they prepend, and each event with what it says about the states before and after the hook; then induction over the hooks of the block: later hooks leave alone what an event was about (an NFT that changed hands is engaged in nothing any more), earlier ones what the hook works on. Status: proved. `C110_block_events`.
* **C111 The weight of the start-of-block work is the price list times the work done, and bounded** - the loops with counters (WeightModel.v) are shown to be the loops of the model with the counters determined by the number of iterations or the events prepended; induction over the loops; the limits come from the invariants (length of the bidder list) and the action counters. Status: proved. `C111_declared_weight`.
* **C112 The declared writes cover the storage entries that change** - transmissions: the entries changed are among the NFT and the record of each transmitted NFT and the queue. Auctions and rent: the changed NFTs and records belong to auctions or contracts that are gone, and each of those has an event (C110) with at least two writes in its price (C111). Refutations by execution. Status: partial. `C112_transmissions`, `C112_auctions_partial`, `C112_rent_partial`, `C112_auctions_refuted`, `C112_rent_refuted`, `C112_tee_refuted`. Proved for transmissions. False for the others: the auction hook never counts the deadlines, the refunds and the accounts (C112_auctions_refuted); the rent hook does not count enough for token deposits (C112_rent_refuted); the tee hook declares no write at all while it clears an era (C112_tee_refuted). Proved for the NFT and auction records, and for the contracts, their NFTs and the rent queues.
* **C113 The work at the start of a block is bounded** - a list of touched entries is built along each loop (settlements that fail half-way included) and its length bounded by the number of due items, the bidder limit and the action limits; the changed entries are among the listed ones. Status: proved. `C113_bounded_work`.
* **C114 No bounded list outgrows its limit or repeats an entry** - from the invariants of the pallets; for the offers a new invariant by induction over the small steps. Status: proved. `C114_lists_within_limits`.
* **C115 The size a call is charged for is bounded by the configuration** - the size argument of each weight expression is modelled as a function of the state; the bound follows from C114. Status: proved. `C115_size_bounded`.
* **C116 A call that changes a bounded list is charged for its length** - by the effect tables of C90-C97 the lists a call changes are known; each is compared with the size modelled. False for late bids (deadlines), the end of an auction (bidders) and the offers: refuted by witnesses. Status: partial. `C116_size_covers_partial`, `C116_late_bid_refuted`, `C116_buy_it_now_refuted`, `C116_end_auction_refuted`, `C116_offer_refuted`. Proved for every list but those of SpecCall.undeclared; for these it is false: a late bid moves a deadline but is charged for the bidders (C116_late_bid_refuted), end_auction and buy_it_now are charged for the deadlines but refund all bidders (C116_end_auction_refuted, C116_buy_it_now_refuted), make_rent_offer is charged for the queues but changes the offers (C116_offer_refuted). Missing from the partial theorem: exactly these pairs.
* **C117 Whoever is owed money can take it out** - the pots cover everything owed (C21, C31), the rules of the calls (C84-C88) then say that the call succeeds and the effect tables what it does; waiting is a run of empty blocks. Status: proved. `C117_refund_can_be_claimed`, `C117_bid_can_be_withdrawn`, `C117_bid_wins_or_returns`, `C117_deposit_can_be_recovered`, `C117_applicant_can_leave`, `C117_stake_can_be_withdrawn`.
* **C118 A block turns losing bids into refunds, to the last token** - one settlement keeps the sum, by the invariant inside the hook no refund saturates; induction over the loop of the hook. Status: proved. `C118_blocks_keep_what_is_owed`.
* **C119 A bidder's money is never touched by others, except for an NFT** - case by case for the calls of the auction pallet, every other call leaves its storage alone; blocks by C118 and the log of C110. Status: proved. `C119_bidders_money`.
* **C120 Nobody is made poorer by others** - balances only fall by own calls, accepted offers and rent periods (C75); deposits by the closed forms of the rent calls and the exact account of the rent hook (C33); bids and refunds by C119; induction over the actions. Status: proved. `C120_nobody_is_made_poorer`, `C120_over_time`.
* **C121 An account without bids, rentals and offers keeps all it has** - no action of others creates a bid, a rental or an offer of the account; then nothing in C120 can be lost. Status: proved. `C121_uninvolved_keep_all`, `C121_over_time`.
* **C122 If nobody acts, everything ends** - every single auction, contract and waiting transmission ends (the lemmas behind PropsFree, with the limits per block); blocks only remove, so well-founded induction on the maps and the queue. Status: proved. `C122_everything_ends`, `C122_nfts_come_free`.
* **C123 All money comes home if nobody acts** - C122, then C120 along the blocks, then C117 for the claim. Status: proved. `C123_money_comes_home`.

## 8. Findings

Behaviour of the code that the refutations and `_partial` theorems document. "Refuted" means that a concrete
reachable state of the model shows the failure; the theorem name is given.

1. **auction, `on_initialize`**: a settlement that fails in the middle (the account of the pallet would fall
   below the existential deposit) keeps the payments already made, drops the deadline and leaves the auction
   open for ever (`C21_refuted`, `C23_refuted`). `add_bid` does not look at the end block: until the hook has
   settled the auction, bids are accepted. A configured `BidderListLengthLimit` of 0 makes `add_bid` panic
   (`config_ok` excludes it).
2. **auction**: a `AuctionCommissionFee`-like record stays after its auction; it is overwritten by the next
   auction of the NFT.
3. **rent, percentage**: u32 saturation makes the completed share smaller than 100% at the end of contracts
   longer than 42,949,672 blocks (`C35_refuted`).
4. **rent, offers**: `on_initialize` removes an expired contract but not its offers; they can be accepted for a
   later contract of the same NFT, also when the offering account has become its owner
   (`C38_refuted`, `C74_refuted`).
5. **rent, terms**: `rent` names only the creation block, so the renter can change subscription terms before
   the transaction is included (`C39_refuted`, `C39_same_block_refuted`); `change_subscription_terms` sets the
   flag even if nothing changes (`C40_refuted`); `max_duration = None` accepts every duration in
   `accept_subscription_terms`.
6. **rent, hook**: each of the three loops of `on_initialize` can do one action before comparing with the
   limit, so a block can do more actions than the limit (`C43_refuted`).
7. **rent, leaving**: with an existential deposit above 1 a revocation that splits a deposit can fail because
   its first payment kills the account of the pallet (`C44_refuted`); a rentee's deposit NFT equal to the rented
   NFT ends with the wrong party (`C45_refuted`); a renter that revokes gives the deposited NFT to the rentee
   even if it is the renter's own.
8. **tee, addresses**: `approve_update_enclave` keeps the mapping of the old enclave address, which stays
   accepted and blocks the address (`C52_refuted`).
9. **tee, stake**: `refund_excess` with a staking amount of 0 leaves the lock in place with the pinned balances
   pallet (`C53_refuted`). An operator can unregister, wait and `withdraw_unbonded` before root approves; the
   enclave stays assigned without stake and `force_remove_enclave` fails (`C54_refuted`).
10. **tee, rewards**: the share is computed from the operators at claim time, so the claims of one era can exceed the
    pool (`C57_refuted`); an operator without reports gets the full share. A report's `submitted_by` is not compared
    with the signer, so one server can report under other names (`C58_refuted`). Slots of a cluster are not unique
    (`C59_refuted`).
11. **bridge**: proposals with one chain and nonce but different recipient or amount are all minted
    (`C63_refuted`); an expired proposal can never be retried; votes of removed relayers count; an approved
    amount below the existential deposit to a new account mints nothing (`C62_small_amount_refuted`). In
    `deposit` the check of amount plus fee can wrap; the later withdrawals make it harmless
    (`C64_deposit_is_exact` holds for all amounts).
12. **staking-rewards**: the fee counter saturates and the sum of fees and extra reward wraps at 128 bits
    (`C67_refuted`, `C68_refuted`); practically out of reach.
13. **nft**: `set_capsule_offchaindata` does not refuse NFTs in transmission; `add_nft_to_collection` accepts
    listed and rented NFTs; a mint fee below the existential deposit paid to a dead collector is burned (C10).
14. **auction, late bids**: `add_bid` compares the current block with the start block only, so an auction whose end
    block has passed, but which the hook has not settled because others came first, still takes bids; the bid moves
    the end back by the grace period (`C81_refuted`).
15. **weights of the hooks**: `on_initialize` of auction declares two writes per auction and none for the deadlines
    (written in every block), the refunds and the accounts; rent declares too few for contracts with token deposits;
    tee declares none, although it removes all records of an old era, whose number is not bounded
    (`C112_auctions_refuted`, `C112_rent_refuted`, `C112_tee_refuted`).
16. **weights of calls**: the size an `add_bid` is charged for is the number of bidders, but a late bid also moves an
    entry in the list of deadlines (`C116_late_bid_refuted`); `end_auction` and `buy_it_now` are charged for the
    deadlines and refund every bidder (`C116_end_auction_refuted`, `C116_buy_it_now_refuted`); `make_rent_offer` is
    charged for the rent queues and works on the offers (`C116_offer_refuted`).

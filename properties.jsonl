{"id": "C01", "title": "One engagement per NFT", "statement": "At every moment an NFT has at most one of these states: listed for sale, delegated, rented, put under a transmission protocol, secret syncing, capsule syncing.", "quantifier": "every reachable chain state: any finite sequence of signed/root extrinsics of all pallets, block initialisations, and balance movements from outside, from any genesis balances and any configuration constants", "why_tests_cant": "The guards that enforce it are scattered over six pallets; a unit test checks one guard in one pallet, not every interleaving of calls of all pallets.", "anchors": ["nft/src/lib.rs: transfer_nft, delegate_nft, add_secret_helper, convert_to_capsule_helper, notify_enclave_key_update, add_secret_shard, add_capsule_shard", "marketplace/src/lib.rs: list_nft", "auction/src/lib.rs: create_auction", "rent/src/lib.rs: create_contract, invalid_state", "transmission-protocols/src/lib.rs: set_transmission_protocol"]}
{"id": "C02", "title": "NFT flags agree with the registries", "statement": "At every moment: an NFT is flagged listed exactly when it has either a fixed price sale or an auction (never both); flagged rented exactly when a rent contract exists for it; flagged as transmission exactly when a transmission protocol is recorded for it; flagged delegated exactly when a delegate is recorded for it; and no registry has an entry for an NFT that does not exist.", "quantifier": "every reachable chain state: any finite sequence of signed/root extrinsics of all pallets, block initialisations, and balance movements from outside, from any genesis balances and any configuration constants", "why_tests_cant": "Each registry lives in a different pallet and is updated by different calls and hooks; agreement in all histories needs an induction over all calls, not examples.", "anchors": ["nft/src/lib.rs: DelegatedNFTs, burn_nft", "marketplace/src/lib.rs: ListedNfts", "auction/src/lib.rs: Auctions", "rent/src/lib.rs: Contracts", "transmission-protocols/src/lib.rs: Transmissions"]}
{"id": "C03", "title": "Collections and NFTs cross-reference exactly", "statement": "An NFT says it belongs to collection c exactly when collection c exists and its member list contains the NFT, and no member list contains an NFT twice.", "quantifier": "every reachable chain state: any finite sequence of signed/root extrinsics of all pallets, block initialisations, and balance movements from outside, from any genesis balances and any configuration constants", "why_tests_cant": "Creation, insertion with swap_remove deletion, burning and adding happen in any order; the bidirectional link is a global invariant.", "anchors": ["nft/src/lib.rs: create_nft_helper, burn_nft, add_nft_to_collection, burn_collection"]}
{"id": "C04", "title": "Collection size limits hold", "statement": "The number of NFTs in a collection never exceeds the collection's own limit when it has one, nor the runtime wide collection size limit; a collection limit is never above the runtime wide limit.", "quantifier": "every reachable chain state: any finite sequence of signed/root extrinsics of all pallets, block initialisations, and balance movements from outside, from any genesis balances and any configuration constants", "why_tests_cant": "The bound must survive every order of minting, adding, burning and limiting.", "anchors": ["nft/src/lib.rs: limit_collection, create_nft_helper, add_nft_to_collection"]}
{"id": "C05", "title": "Closing and limiting a collection is permanent", "statement": "Once a collection is closed no later history adds an NFT to it (its member set only shrinks) and it never reopens; once a limit is set the limit never changes as long as the collection exists.", "quantifier": "every reachable state in which the collection is closed (limited) and every later history", "why_tests_cant": "It is a statement about all futures of a state.", "anchors": ["nft/src/lib.rs: close_collection, limit_collection, create_nft_helper, add_nft_to_collection"]}
{"id": "C06", "title": "NFT and collection ids are never reused", "statement": "Every mint returns an id that no NFT of the whole past history ever had, and an NFT (collection) that was burned never exists again; ids are handed out in strictly increasing order.", "quantifier": "all histories and all pairs of points of time in them", "why_tests_cant": "Quantifies over all pasts and futures, including histories with burns between mints.", "anchors": ["nft/src/lib.rs: get_next_nft_id, get_next_collection_id, burn_nft, burn_collection"]}
{"id": "C07", "title": "Immutable NFT attributes", "statement": "As long as an NFT exists, its creator, its offchain data and its soulbound flag never change, it can join a collection but never leave or change it, and its royalty changes only by a successful set_royalty call signed by an account that is both its owner and its creator.", "quantifier": "every transition of every reachable state", "why_tests_cant": "Must hold across every call of every pallet that writes NFT records, including hooks writing stale copies.", "anchors": ["primitives/src/nfts.rs: NFTData", "nft/src/lib.rs: set_royalty, add_nft_to_collection", "rent/src/lib.rs", "auction/src/lib.rs", "marketplace/src/lib.rs", "transmission-protocols/src/lib.rs"]}
{"id": "C08", "title": "No NFT changes hands without authorisation", "statement": "If one step of the chain changes the owner of an NFT, then either the old owner signed that step, or the NFT had been put by its owner in a fixed price sale or auction, or under a transmission protocol whose recipient is the new owner, or it was the security deposit of a rent contract held by the rent pallet, or the old owner had an outstanding rent offer that the renter accepted, or it was itself the security deposit of its own rent contract that its renter revoked. In particular a free NFT (no engagement) of an ordinary account only moves by a step its owner signed or by acceptance of their own rent offer.", "quantifier": "every transition of every reachable state and every NFT", "why_tests_cant": "Theft freedom over every call of every pallet; tests can only exercise chosen thefts.", "anchors": ["nft/src/lib.rs: transfer_nft", "marketplace/src/lib.rs: buy_nft", "auction/src/lib.rs: pay_for_nft", "rent/src/lib.rs: change_nft_ownership, take_rent_and_cancellation_fee", "transmission-protocols/src/lib.rs: transmit_nft"]}
{"id": "C09", "title": "Soulbound NFTs never leave a non-creator owner", "statement": "Once a soulbound NFT is owned by an account other than its creator, its owner never changes again while it exists.", "quantifier": "every reachable state and every later history", "why_tests_cant": "Requires that no sale, auction, rent deposit or transmission set up earlier can fire later; a property of all histories.", "anchors": ["nft/src/lib.rs: transfer_nft", "marketplace/src/lib.rs: list_nft", "auction/src/lib.rs: create_auction", "rent/src/lib.rs: invalid_state", "transmission-protocols/src/lib.rs: set_transmission_protocol"]}
{"id": "C10", "title": "Minting charges exactly the published fee", "statement": "A successful create_nft, create_secret_nft, create_capsule, add_secret or convert_to_capsule takes exactly the corresponding published fee (basic, basic+secret, basic+capsule, secret, capsule) from the caller, gives exactly that to the fee collector (if its account is alive or each fee suffices to open it; a fee below the existential deposit paid to a dead collector account is burned), touches no other balance, and keeps the caller's account alive.", "quantifier": "all states, callers, fee settings and arguments", "why_tests_cant": "Ranges over all balances and fees, including existential deposit edges.", "anchors": ["nft/src/lib.rs: create_nft, create_secret_nft, create_capsule, add_secret, convert_to_capsule, balance_check"]}
{"id": "C11", "title": "Secrets and capsules finish syncing only with enough distinct enclaves of one cluster", "statement": "While a secret (capsule) is syncing, the recorded shard holders are distinct operators, all of one cluster, fewer than the required shard number; the syncing flag is cleared exactly by the shard submission that makes the number of distinct operators of one cluster reach the required shard number, and records exist only while syncing.", "quantifier": "every reachable chain state: any finite sequence of signed/root extrinsics of all pallets, block initialisations, and balance movements from outside, from any genesis balances and any configuration constants", "why_tests_cant": "Involves all orders of shard submissions, enclave registrations, burns and key updates.", "anchors": ["nft/src/lib.rs: add_secret_shard, add_capsule_shard, notify_enclave_key_update, burn_nft", "tee/src/lib.rs: ensure_enclave"]}
{"id": "C12", "title": "A burned NFT leaves no trace", "statement": "After a successful burn the NFT has no record: no NFT data, no collection membership, no delegate, no secret or capsule data, no shards, no sale, no auction, no rent contract, no transmission.", "quantifier": "every reachable state in which burn_nft succeeds", "why_tests_cant": "The cleanup list is hand written and depends on flags; that flags imply absence of the other records is an invariant over all histories.", "anchors": ["nft/src/lib.rs: burn_nft"]}
{"id": "C13", "title": "Transfer decision rule", "statement": "transfer_nft succeeds exactly when the NFT exists, the signer owns it, the recipient is different from the signer, it is not listed, delegated, rented, syncing or under transmission, and it is not a soulbound NFT received from someone else; on success only the owner of that NFT changes and becomes the recipient.", "quantifier": "all states and all arguments", "why_tests_cant": "An equivalence over the full input and state space.", "anchors": ["nft/src/lib.rs: transfer_nft"]}
{"id": "C14", "title": "Secret and capsule data accompany the flags", "statement": "An NFT has secret offchain data exactly when it is a secret NFT or secret syncing, and capsule offchain data exactly when it is a capsule or capsule syncing; no data exists for a non-existing NFT.", "quantifier": "every reachable chain state: any finite sequence of signed/root extrinsics of all pallets, block initialisations, and balance movements from outside, from any genesis balances and any configuration constants", "why_tests_cant": "Data and flags are written by different calls; consistency is an invariant over all histories.", "anchors": ["nft/src/lib.rs: add_secret_helper, convert_to_capsule_helper, add_secret_shard, add_capsule_shard, burn_nft"]}
{"id": "C15", "title": "Buying splits the price exactly", "statement": "A successful buy_nft at price p takes exactly p from the buyer (net of parts that go back to the buyer), gives the marketplace owner exactly the commission agreed at listing time, the NFT creator exactly the royalty share of the rest, and the seller everything else; the three parts add up to p, no other balance changes, and the buyer becomes owner.", "quantifier": "every reachable state and all arguments, including coinciding accounts and any rounding", "why_tests_cant": "Quantifies over all prices, commissions, royalties and account aliasings; needs the listing-time bound commission <= price to hold for every later state.", "anchors": ["marketplace/src/lib.rs: buy_nft, list_nft"]}
{"id": "C16", "title": "Listing decision rule", "statement": "list_nft succeeds only for an existing, unengaged, non-syncing NFT owned by the signer, not a soulbound NFT of another creator, in an existing marketplace that admits the signer (public: neither the signer is in the account list nor the NFT's collection in the collection list; private: one of the two is), with a price covering a flat commission, and after paying exactly the listing fee.", "quantifier": "all states and arguments", "why_tests_cant": "Equivalence over all states, lists and fees.", "anchors": ["marketplace/src/lib.rs: list_nft", "primitives/src/marketplace.rs: allowed_to_list"]}
{"id": "C17", "title": "Sale records stay truthful", "statement": "While an NFT is for sale at a fixed price, the recorded seller is the current owner of the NFT, the marketplace exists, the recorded commission does not exceed the price, and price and commission never change until it is sold or unlisted.", "quantifier": "every reachable chain state: any finite sequence of signed/root extrinsics of all pallets, block initialisations, and balance movements from outside, from any genesis balances and any configuration constants", "why_tests_cant": "Owner changes happen in other pallets; the agreement holds only by cross pallet invariants.", "anchors": ["marketplace/src/lib.rs: ListedNfts, set_marketplace_configuration"]}
{"id": "C18", "title": "An owner can always take a listed NFT back", "statement": "In every reachable state in which an NFT is listed at a fixed price, unlist_nft signed by its owner succeeds, removes the sale and makes the NFT free again.", "quantifier": "every reachable state", "why_tests_cant": "Liveness: needs that no reachable state blocks the owner.", "anchors": ["marketplace/src/lib.rs: unlist_nft"]}
{"id": "C19", "title": "Marketplaces are controlled by their owner only and never vanish", "statement": "A marketplace once created exists forever with the same id, its record changes only by successful calls signed by its current owner, and set_marketplace_configuration changes exactly the fields given as Set or Remove.", "quantifier": "every transition of every reachable state", "why_tests_cant": "All calls of all pallets, all argument combinations.", "anchors": ["marketplace/src/lib.rs: set_marketplace_owner, set_marketplace_kind, set_marketplace_configuration", "common/src/macros.rs", "primitives/src/common.rs: ConfigOp"]}
{"id": "C20", "title": "Bid book is ordered and fair", "statement": "In every auction the stored bids are strictly increasing, every bidder appears at most once, every bid is above the start price, nobody bids on their own auction, and the number of stored bids never exceeds the limit; a new bid is accepted only if above the currently highest one.", "quantifier": "every reachable chain state: any finite sequence of signed/root extrinsics of all pallets, block initialisations, and balance movements from outside, from any genesis balances and any configuration constants", "why_tests_cant": "Depends on all orders of bids, rebids, withdrawals and evictions.", "anchors": ["auction/src/types.rs: BidderList", "auction/src/lib.rs: add_bid, remove_bid"]}
{"id": "C21", "title": "The auction pot can always pay everybody", "statement": "The balance of the auction pallet account covers the sum of all live bids and all unclaimed refunds.", "quantifier": "every reachable chain state: any finite sequence of signed/root extrinsics of all pallets, block initialisations, and balance movements from outside, from any genesis balances and any configuration constants", "why_tests_cant": "Solvency is a sum over all auctions and claims for all histories, including hooks whose partial effects are not rolled back.", "anchors": ["auction/src/lib.rs: on_initialize, pay_for_nft, add_bid, remove_bid, claim"]}
{"id": "C22", "title": "Auction settlement is exact", "statement": "When an ended auction is settled for winning bid b, the highest bidder becomes the owner, the marketplace owner receives the commission agreed at creation, the creator of the NFT the royalty of the rest, the seller everything else (adding up to b, all out of the auction pot), every losing bidder's claimable refund grows by exactly their bid, and the auction disappears.", "quantifier": "every reachable state and every auction settled by end_auction", "why_tests_cant": "All bid books, fees, royalties and account aliasings.", "anchors": ["auction/src/lib.rs: end_auction, pay_for_nft, add_claim"]}
{"id": "C23", "title": "Every ended auction is settled", "statement": "Once the block of an auction's deadline has been initialised (with the number of due auctions below the per-block limit), the auction no longer exists.", "quantifier": "every reachable state with due auctions", "why_tests_cant": "Needs the hook analysed for every state, including those in which a payment fails midway.", "anchors": ["auction/src/lib.rs: on_initialize"]}
{"id": "C24", "title": "Deadlines mirror auctions", "statement": "The deadline list is sorted by block, contains each NFT at most once, and each entry is a live auction with exactly that end block.", "quantifier": "every reachable chain state: any finite sequence of signed/root extrinsics of all pallets, block initialisations, and balance movements from outside, from any genesis balances and any configuration constants", "why_tests_cant": "All interleavings of creation, extension by bids, cancellation, purchase and settlement.", "anchors": ["auction/src/types.rs: DeadlineList", "auction/src/lib.rs: create_auction, add_bid, cancel_auction, end_auction, buy_it_now"]}
{"id": "C25", "title": "Refund claims are paid exactly once", "statement": "A successful claim pays the signer exactly the recorded refund and erases it, so that an immediate second claim fails; nobody else's recorded refund changes; outside of the owner's own claim a recorded refund never decreases.", "quantifier": "every transition of every reachable state", "why_tests_cant": "All histories; needs a per-account monotonicity over every call and hook.", "anchors": ["auction/src/lib.rs: claim, add_claim"]}
{"id": "C26", "title": "Bids are escrowed and refunded exactly", "statement": "A successful add_bid moves exactly the difference between the new bid and the bidder's previous bid in this auction to the auction pot; a successful remove_bid returns exactly the bid and removes it; an evicted lowest bid becomes claimable in full.", "quantifier": "all reachable states and all bids", "why_tests_cant": "All bid books and balances.", "anchors": ["auction/src/lib.rs: add_bid, remove_bid", "auction/src/types.rs: insert_new_bid"]}
{"id": "C27", "title": "A started auction cannot be cancelled and bidding respects the window", "statement": "cancel_auction succeeds only before the start block; add_bid and buy_it_now succeed only from the start block on; remove_bid only outside of the ending period; end_auction only on an extended auction; in all cases by the right party.", "quantifier": "all states and arguments", "why_tests_cant": "Exact boundary at every block number.", "anchors": ["auction/src/lib.rs: cancel_auction, add_bid, remove_bid, buy_it_now, end_auction"]}
{"id": "C28", "title": "Late bids extend the auction", "statement": "After a successful bid placed at block n on an auction whose end block is at least n, the auction ends no earlier than n plus the grace period, the end block never moves backwards, and it moves only if fewer than grace period blocks remained.", "quantifier": "all states and bids", "why_tests_cant": "All block numbers and grace periods.", "anchors": ["auction/src/types.rs: extend_if_necessary", "auction/src/lib.rs: add_bid"]}
{"id": "C29", "title": "Buy-it-now is exact", "statement": "A successful buy_it_now costs the buyer exactly the buy-it-now price (split between marketplace, creator and seller as agreed), transfers the NFT, turns every standing bid into a claimable refund and removes the auction; it is impossible once the highest bid reached that price.", "quantifier": "every reachable state", "why_tests_cant": "All bid books, fees and aliasings.", "anchors": ["auction/src/lib.rs: buy_it_now"]}
{"id": "C30", "title": "Auction hook work is bounded", "statement": "One block initialisation settles at most the configured number of auctions (or one, if the limit is zero).", "quantifier": "all states", "why_tests_cant": "Loop with continue paths; needs an inductive argument.", "anchors": ["auction/src/lib.rs: on_initialize"]}
{"id": "C31", "title": "The rent pot can always return every deposit", "statement": "The balance of the rent pallet account covers the sum of all token security deposits (renter's for every contract, rentee's for every running contract).", "quantifier": "every reachable chain state: any finite sequence of signed/root extrinsics of all pallets, block initialisations, and balance movements from outside, from any genesis balances and any configuration constants", "why_tests_cant": "Solvency over all histories of creation, start, revocation, expiry, renewals.", "anchors": ["rent/src/lib.rs: create_contract, take_rent_and_cancellation_fee, return_cancellation_fee, revoke_contract, handle_finished_or_unused_contract"]}
{"id": "C32", "title": "NFT security deposits are in custody", "statement": "Every NFT deposited as security of a rent contract exists, is owned by the rent pallet account for as long as the deposit is held, and no NFT secures two deposits (except a contract whose deposit is the rented NFT itself, which stays locked with its owner).", "quantifier": "every reachable chain state: any finite sequence of signed/root extrinsics of all pallets, block initialisations, and balance movements from outside, from any genesis balances and any configuration constants", "why_tests_cant": "Needs that no call of any pallet can move or burn an NFT held by the rent pallet.", "anchors": ["rent/src/lib.rs: create_contract, change_nft_ownership"]}
{"id": "C33", "title": "A finished contract returns everything", "statement": "When a contract ends by itself (fixed duration over, last subscription period over, never started, or subscription not payable), the rented NFT becomes free with unchanged owner, the renter gets back exactly the renter's deposit and the rentee exactly theirs, and the contract disappears; in reachable states this never fails inside the hook.", "quantifier": "every reachable state and every due contract", "why_tests_cant": "Hooks are not rolled back; success in every reachable state requires the solvency and custody invariants.", "anchors": ["rent/src/lib.rs: on_initialize, handle_finished_or_unused_contract, handle_subscription_contract"]}
{"id": "C34", "title": "Revoking distributes deposits as agreed", "statement": "A successful revoke gives the other party the revoker's deposit (all of it; for a flexible token deposit of a fixed contract the share for the uncompleted part) and gives the other party back their own deposit; the shares of a flexible deposit add up to the deposit.", "quantifier": "every reachable state with a running contract", "why_tests_cant": "All deposits kinds, elapsed times, rounding.", "anchors": ["rent/src/lib.rs: revoke_contract, return_flexible_fee, return_cancellation_fee", "rent/src/types.rs: percentage_of_completion"]}
{"id": "C35", "title": "Flexible share arithmetic", "statement": "The completed percentage is between 0 and 100, never decreases with time, is 0 at the start and 100 from the end on; the share returned to the revoker is never more than the deposit.", "quantifier": "all durations, start blocks, current blocks and deposits in the 32/128 bit ranges", "why_tests_cant": "Integer division, saturation and rounding over the whole range.", "anchors": ["rent/src/types.rs: percentage_of_completion", "rent/src/lib.rs: return_flexible_fee"]}
{"id": "C36", "title": "Every contract is scheduled exactly once and capacity is respected", "statement": "Every rent contract is in exactly one of the three queues (available while not running, fixed or subscription while running), exactly once; every queue entry belongs to a contract; queues are sorted by block; the total number of entries never exceeds the configured limit; hence starting a contract never fails for lack of capacity.", "quantifier": "every reachable chain state: any finite sequence of signed/root extrinsics of all pallets, block initialisations, and balance movements from outside, from any genesis balances and any configuration constants", "why_tests_cant": "Queue moves by seven calls and a hook.", "anchors": ["rent/src/types.rs: Queue, RentingQueues", "rent/src/lib.rs"]}
{"id": "C37", "title": "Starting a contract charges exactly the advertised fees, once, and never replaces a rentee", "statement": "A contract starts only if it is not running; rent and accept_rent_offer take exactly the advertised rent fee (to the renter) and security deposit (to the pot) from the rentee; rent is never open to the renter; a running contract's rentee never changes.", "quantifier": "every reachable state", "why_tests_cant": "All fee kinds and aliasings; rentee stability over all histories.", "anchors": ["rent/src/lib.rs: rent, accept_rent_offer, take_rent_and_cancellation_fee"]}
{"id": "C38", "title": "Rent offers bind only the contract they were made for", "statement": "An account is only charged by accept_rent_offer for the contract it made the offer on.", "quantifier": "every reachable state", "why_tests_cant": "Needs the life cycle of offers and contracts over all histories.", "anchors": ["rent/src/lib.rs: make_rent_offer, accept_rent_offer, handle_finished_or_unused_contract, cancel_contract"]}
{"id": "C39", "title": "A rentee only pays the terms they signed", "statement": "A successful rent call naming the creation block of a contract charges the fee that the contract had when that creation block's contract was created, i.e. terms cannot be changed under the rentee before they rent.", "quantifier": "every reachable state", "why_tests_cant": "Front running: all interleavings of term changes and rent calls.", "anchors": ["rent/src/lib.rs: rent, change_subscription_terms"]}
{"id": "C40", "title": "Changing terms of an unrented subscription needs no later acceptance", "statement": "When the renter changes the terms of a contract nobody rents yet, a later rentee is not required to accept terms again.", "quantifier": "all states", "why_tests_cant": "All histories of changes and starts.", "anchors": ["rent/src/lib.rs: change_subscription_terms"]}
{"id": "C41", "title": "No charge under unaccepted terms", "statement": "If the renter changed subscription terms while the contract runs, the rentee is not charged any further rent until they accepted the current terms by naming them; without acceptance the contract ends at the next period and deposits are returned.", "quantifier": "every reachable state", "why_tests_cant": "All interleavings of changes, acceptances and renewals.", "anchors": ["rent/src/lib.rs: change_subscription_terms, accept_subscription_terms, handle_subscription_contract"]}
{"id": "C42", "title": "Renewals charge exactly one rent fee per period", "statement": "At a due period of a running subscription with accepted terms and remaining duration the rentee pays exactly the rent fee to the renter and the next period is scheduled exactly one period later; if they cannot pay, the contract ends instead.", "quantifier": "every reachable state", "why_tests_cant": "All balances and periods.", "anchors": ["rent/src/lib.rs: on_initialize, handle_subscription_contract"]}
{"id": "C43", "title": "Rent hook work is bounded", "statement": "One block initialisation performs at most the configured number of rent actions.", "quantifier": "all states", "why_tests_cant": "Three loops sharing a counter.", "anchors": ["rent/src/lib.rs: on_initialize"]}
{"id": "C44", "title": "A party can always leave a running contract", "statement": "In every reachable state the rentee of a running contract (and the renter, unless the renter cannot cancel) can revoke it.", "quantifier": "every reachable state", "why_tests_cant": "Liveness over all reachable balances.", "anchors": ["rent/src/lib.rs: revoke_contract, return_flexible_fee"]}
{"id": "C45", "title": "An NFT paid as rent arrives at the renter", "statement": "When a contract with an NFT rent fee starts, the renter owns that NFT afterwards.", "quantifier": "every reachable state", "why_tests_cant": "All combinations of rent and deposit NFTs.", "anchors": ["rent/src/lib.rs: take_rent_and_cancellation_fee"]}
{"id": "C46", "title": "Consent protocols need the threshold of distinct listed consents", "statement": "An NFT under a consent protocol is only transmitted after at least threshold different accounts of the consent list, each by their own signed call, consented (and, if the protocol has a block, not before that block); recorded consents are distinct members of the list and fewer than the threshold while waiting.", "quantifier": "every reachable chain state: any finite sequence of signed/root extrinsics of all pallets, block initialisations, and balance movements from outside, from any genesis balances and any configuration constants", "why_tests_cant": "All orders and repetitions of consents.", "anchors": ["transmission-protocols/src/lib.rs: add_consent, on_initialize"]}
{"id": "C47", "title": "Timed transmissions fire on time and not earlier", "statement": "A timed NFT is not transmitted in any block before its recorded end block, and when its block is initialised (within the per-block limit) it is transmitted to the recorded recipient.", "quantifier": "every reachable state", "why_tests_cant": "All queues and blocks, resets included.", "anchors": ["transmission-protocols/src/lib.rs: on_initialize, reset_timer", "transmission-protocols/src/types.rs: Queue"]}
{"id": "C48", "title": "Transmission queue mirrors transmissions", "statement": "The transmission queue is sorted, has each NFT at most once, and contains exactly the timed transmissions (and consent-at-block ones that reached their threshold) with their end block; its length never exceeds the limit.", "quantifier": "every reachable chain state: any finite sequence of signed/root extrinsics of all pallets, block initialisations, and balance movements from outside, from any genesis balances and any configuration constants", "why_tests_cant": "All interleavings of set, reset, remove, consent and the hook.", "anchors": ["transmission-protocols/src/types.rs: Queue", "transmission-protocols/src/lib.rs"]}
{"id": "C49", "title": "Cancellation and reset rules", "statement": "remove_transmission_protocol succeeds exactly for the owner while the agreed cancellation period allows it (anytime; up to and including the agreed block; never), reset_timer only for a protocol with reset.", "quantifier": "all states and arguments", "why_tests_cant": "Exact boundaries at every block.", "anchors": ["transmission-protocols/src/lib.rs: remove_transmission_protocol, reset_timer", "transmission-protocols/src/types.rs: CancellationPeriod"]}
{"id": "C50", "title": "The transmission hook never fails", "statement": "In reachable states no due transmission ever fails inside the hook, so no entry is retried or stuck.", "quantifier": "every reachable state", "why_tests_cant": "Needs cross pallet invariants (the NFT cannot be burned while in transmission).", "anchors": ["transmission-protocols/src/lib.rs: on_initialize, transmit_nft"]}
{"id": "C51", "title": "Enclave operators sit in exactly one cluster", "statement": "An operator has enclave data exactly when they have a cluster, exactly one cluster lists them, and it lists them once; clusters never exceed the cluster size.", "quantifier": "every reachable chain state: any finite sequence of signed/root extrinsics of all pallets, block initialisations, and balance movements from outside, from any genesis balances and any configuration constants", "why_tests_cant": "Assign, approve, force removal, unregistration in any order.", "anchors": ["tee/src/lib.rs: assign_enclave, approve_enclave_unregistration, force_remove_enclave, remove_cluster"]}
{"id": "C52", "title": "Only the current enclave address is authorised", "statement": "An enclave address is accepted for shard submission exactly if it is the current enclave address of an assigned operator; after an update the old address is not accepted.", "quantifier": "every reachable chain state: any finite sequence of signed/root extrinsics of all pallets, block initialisations, and balance movements from outside, from any genesis balances and any configuration constants", "why_tests_cant": "Histories of updates, removals and re-registrations.", "anchors": ["tee/src/lib.rs: approve_update_enclave, force_update_enclave, ensure_enclave"]}
{"id": "C53", "title": "Staking ledger equals the balance lock", "statement": "For every operator, the amount the ledger says is staked is exactly the amount locked by the TEE pallet in the operator's balance, and there is a lock only if there is a ledger.", "quantifier": "every reachable chain state: any finite sequence of signed/root extrinsics of all pallets, block initialisations, and balance movements from outside, from any genesis balances and any configuration constants", "why_tests_cant": "All orders of registration, bonding, refunds and withdrawals.", "anchors": ["tee/src/lib.rs: register_enclave, unregister_enclave, remove_registration, withdraw_unbonded, bond_extra, refund_excess"]}
{"id": "C54", "title": "Active enclaves are staked", "statement": "Every operator with an assigned enclave has a stake.", "quantifier": "every reachable chain state: any finite sequence of signed/root extrinsics of all pallets, block initialisations, and balance movements from outside, from any genesis balances and any configuration constants", "why_tests_cant": "All histories of unregistration and withdrawal.", "anchors": ["tee/src/lib.rs: unregister_enclave, withdraw_unbonded, approve_enclave_unregistration"]}
{"id": "C55", "title": "Unbonding delay", "statement": "Stake of an operator that was assigned an enclave is released by withdraw_unbonded only if at least the bonding duration passed since the unregistration that started unbonding.", "quantifier": "every transition of every reachable state", "why_tests_cant": "All block distances and histories.", "anchors": ["tee/src/lib.rs: withdraw_unbonded, unregister_enclave"]}
{"id": "C56", "title": "Era rewards are claimed at most once", "statement": "For each era and operator at most one claim_rewards call ever succeeds, despite pruning of old eras.", "quantifier": "all histories with a non-decreasing active era", "why_tests_cant": "Pruning erases the record of claims; only an argument over all histories shows that no pruned era is claimable.", "anchors": ["tee/src/lib.rs: claim_rewards, on_initialize, clear_old_era"]}
{"id": "C57", "title": "Reward amounts", "statement": "A successful claim pays at most the daily reward pool and at most the pool's equal share (up to rounding), scaled by the reported percentage, out of the TEE pot; the rewards paid for one era never exceed the daily pool.", "quantifier": "every reachable state; for the last part all histories", "why_tests_cant": "Rounding and all operator counts; sum over histories.", "anchors": ["tee/src/lib.rs: claim_rewards"]}
{"id": "C58", "title": "Metrics reports are attributed to their submitter", "statement": "A report stored for an operator in an era was submitted by the metrics server named in it.", "quantifier": "every reachable chain state: any finite sequence of signed/root extrinsics of all pallets, block initialisations, and balance movements from outside, from any genesis balances and any configuration constants", "why_tests_cant": "All histories of submissions.", "anchors": ["tee/src/lib.rs: submit_metrics_server_report"]}
{"id": "C59", "title": "Cluster slots are unique", "statement": "No two enclaves of a cluster occupy the same slot.", "quantifier": "every reachable chain state: any finite sequence of signed/root extrinsics of all pallets, block initialisations, and balance movements from outside, from any genesis balances and any configuration constants", "why_tests_cant": "All histories of assignments.", "anchors": ["tee/src/lib.rs: assign_enclave"]}
{"id": "C60", "title": "Cluster ids are never reused and clusters vanish only when empty", "statement": "A new cluster gets an id no cluster had before; a cluster is removed only when it has no enclave.", "quantifier": "all histories", "why_tests_cant": "All pasts and futures.", "anchors": ["tee/src/lib.rs: create_cluster, remove_cluster"]}
{"id": "C61", "title": "Registration life cycle", "statement": "An operator is never at the same time waiting for registration and assigned; a pending update or unregistration exists only for assigned operators; a waiting operator always has a stake that is not unbonding.", "quantifier": "every reachable chain state: any finite sequence of signed/root extrinsics of all pallets, block initialisations, and balance movements from outside, from any genesis balances and any configuration constants", "why_tests_cant": "All orders of requests and decisions.", "anchors": ["tee/src/lib.rs"]}
{"id": "C62", "title": "Bridge mints a proposal once and only with enough relayer votes", "statement": "Each proposal (chain, nonce, recipient, amount) mints at most once in any history, exactly the amount to the recipient, only when at least threshold different accounts voted, each a relayer when voting, before the proposal expired.", "quantifier": "all histories", "why_tests_cant": "All orders of votes, relayer and threshold changes and expiries.", "anchors": ["bridge/src/lib.rs: vote_for_proposal", "bridge/src/types.rs: Proposal"]}
{"id": "C63", "title": "A deposit nonce of a foreign chain is redeemed at most once", "statement": "For each chain and deposit nonce at most one mint ever happens.", "quantifier": "all histories", "why_tests_cant": "All histories of votes.", "anchors": ["bridge/src/lib.rs: vote_for_proposal, Proposals"]}
{"id": "C64", "title": "Bridge deposits burn exactly", "statement": "A successful deposit removes exactly amount plus bridge fee from the sender (plus dust below the existential deposit), reduces total issuance by exactly the amount (plus dust, plus the fee if the collector burns it), for every amount including those for which amount plus fee overflows.", "quantifier": "all states and all 128 bit amounts", "why_tests_cant": "Overflow, dust and imbalance bookkeeping over the whole range.", "anchors": ["bridge/src/lib.rs: deposit"]}
{"id": "C65", "title": "Deposit nonces are unique per chain", "statement": "Nonces announced by successful deposits to one chain are strictly increasing over any history (up to the 64 bit range), also across administrative nonce changes.", "quantifier": "all histories", "why_tests_cant": "All interleavings.", "anchors": ["bridge/src/lib.rs: deposit, set_deposit_nonce, add_chain"]}
{"id": "C66", "title": "Finished proposals are final", "statement": "An approved proposal never changes again and an expired one can never be approved.", "quantifier": "every reachable state and later history", "why_tests_cant": "All futures.", "anchors": ["bridge/src/lib.rs: vote_for_proposal", "bridge/src/types.rs: is_expired"]}
{"id": "C67", "title": "Fees are paid out to stakers exactly once", "statement": "Over any history, the sum of fee parts of all era payouts plus the fees still waiting equals the sum of all fees collected (tips go to the author).", "quantifier": "all histories", "why_tests_cant": "A conservation law over all interleavings of fee collection and era ends.", "anchors": ["staking-rewards/src/lib.rs: on_unbalanceds, era_payout"]}
{"id": "C68", "title": "Era payout is exact", "statement": "era_payout returns the waiting fees plus the smaller of the configured extra reward and the pot balance, and the pot loses exactly that second part (plus dust).", "quantifier": "all states", "why_tests_cant": "All balances incl. existential deposit edges.", "anchors": ["staking-rewards/src/lib.rs: era_payout"]}
{"id": "C69", "title": "Mandate acts as root, only for the external origin", "statement": "mandate succeeds exactly for the configured external origin; the inner call has exactly the effect it has when sent by root, and no effect at all (besides the report event) if it fails.", "quantifier": "all calls (nested mandates included), states and origins", "why_tests_cant": "All inner calls.", "anchors": ["mandate/src/lib.rs: mandate"]}
{"id": "C70", "title": "Token supply", "statement": "Total issuance always equals the sum of all balances, no account holds a non-zero balance below the existential deposit, and among the pallets' calls only an approved bridge proposal can increase it.", "quantifier": "every reachable chain state: any finite sequence of signed/root extrinsics of all pallets, block initialisations, and balance movements from outside, from any genesis balances and any configuration constants", "why_tests_cant": "All histories and all calls with money movements.", "anchors": ["bridge/src/lib.rs", "staking-rewards/src/lib.rs", "all pallets: Currency calls"]}
{"id": "C71", "title": "Block hooks never panic", "statement": "No block initialisation ever panics, so the chain cannot be halted through these pallets.", "quantifier": "every reachable state", "why_tests_cant": "All reachable queue shapes.", "anchors": ["auction/src/lib.rs: on_initialize", "rent/src/lib.rs: on_initialize", "transmission-protocols/src/lib.rs: on_initialize", "tee/src/lib.rs: on_initialize"]}
{"id": "C72", "title": "Governance calls need governance", "statement": "Every administrative call (fees, relayers, thresholds, chains, clusters, enclave decisions, metrics servers, reward settings, protocol fee, extra rewards) fails without effect for every ordinary signed origin.", "quantifier": "all states, signers, administrative calls and arguments", "why_tests_cant": "All calls and arguments.", "anchors": ["nft, marketplace, tee, bridge, transmission-protocols, staking-rewards: calls with ensure_root / ExternalOrigin"]}
{"id": "C73", "title": "Only the owner manages an NFT", "statement": "Each call that manages an NFT (burn, transfer, delegate, royalty, add to collection, secret, capsule, offchain data, listing, unlisting, auctioning, renting out, transmission) fails for any signer who does not own it.", "quantifier": "all states, signers, arguments", "why_tests_cant": "All calls and states.", "anchors": ["nft, marketplace, auction, rent, transmission-protocols"]}
{"id": "C74", "title": "Nobody rents from themselves", "statement": "No rent contract ever has the same account as renter and rentee.", "quantifier": "every reachable chain state: any finite sequence of signed/root extrinsics of all pallets, block initialisations, and balance movements from outside, from any genesis balances and any configuration constants", "why_tests_cant": "Ownership changes, offers and expiries over all histories.", "anchors": ["rent/src/lib.rs: rent, make_rent_offer, accept_rent_offer"]}
{"id": "C75", "title": "Tokens move only with the account's consent", "statement": "An ordinary account's balance falls in a step only if it signed the call itself, or the renter accepts its rent offer (at most the advertised fee plus deposit), or subscriptions it rents under accepted terms fall due (at most one fee each), or the rest of the runtime (fees, transfers, burns) acts on that account.", "quantifier": "every transition of every reachable state, every account outside of the pallet accounts", "why_tests_cant": "All calls of all pallets, all hooks, all balances; the absence of any other way to lose money.", "anchors": ["all pallets: Currency calls", "rent/src/lib.rs: accept_rent_offer, on_initialize"]}
{"id": "C76", "title": "Pallet accounts pay only their own obligations", "statement": "The balance of the auction, rent, TEE or staking account falls only in a payout of the same pallet: remove_bid, end_auction, claim or the block start for auctions; cancel_contract, revoke_contract or the block start for rent; claim_rewards for TEE; the era payout for staking.", "quantifier": "every transition of every reachable state", "why_tests_cant": "All calls of all pallets, including those an attacker could aim at another pallet's account.", "anchors": ["auction/src/lib.rs", "rent/src/lib.rs", "tee/src/lib.rs: claim_rewards", "staking-rewards/src/lib.rs: era_payout"]}
{"id": "C77", "title": "A stake is changed by its operator only", "statement": "The amount locked for TEE staking in an account changes only by that account's own register, unregister, withdraw, bond_extra or refund_excess call or when root removes its waiting registration, and the new amount is nothing or the published staking amount.", "quantifier": "every transition", "why_tests_cant": "All calls, nested mandates included.", "anchors": ["tee/src/lib.rs: register_enclave, unregister_enclave, remove_registration, withdraw_unbonded, bond_extra, refund_excess"]}
{"id": "C78", "title": "A due transmission gets its turn", "statement": "An NFT whose transmission is due and that has n entries before it in the queue is transmitted to its recipient within floor(n / actions per block) + 1 blocks, whatever other calls happen meanwhile, unless its owner cancels the transmission or resets its block; a transmission set for block b happens at most limit / actions per block blocks (rounded up) after b.", "quantifier": "every reachable state, every sequence of calls, blocks and environment actions", "why_tests_cant": "Unbounded interleavings of other accounts' calls with blocks; a test fixes one schedule.", "anchors": ["transmission-protocols/src/lib.rs: on_initialize", "transmission-protocols/src/types.rs: TransmissionQueue"]}
{"id": "C79", "title": "A due rent contract gets its turn", "statement": "An overdue entry of one of the three rent queues with n entries before it leaves the queue within n + 1 blocks, whatever other calls happen meanwhile: the contract ends, is renewed for one period, or was cancelled, revoked or rented before; every entry is handled at most the queue limit after its block.", "quantifier": "every reachable state, every sequence of steps", "why_tests_cant": "Unbounded interleavings with the other two queues, which compete for the same limit.", "anchors": ["rent/src/lib.rs: on_initialize", "rent/src/types.rs: RentingQueues"]}
{"id": "C80", "title": "A due auction gets its turn", "statement": "An auction that is due and has n auctions before it in the list of deadlines ends within floor(n / actions per block) + 1 blocks, whatever other calls happen meanwhile, unless a bid on this auction moves its end back; no other auction gets before it.", "quantifier": "every reachable state with existential deposit at most 1, every sequence of steps", "why_tests_cant": "Unbounded interleavings; extensions of other auctions reorder the list.", "anchors": ["auction/src/lib.rs: on_initialize, add_bid", "auction/src/types.rs: DeadlineList"]}
{"id": "C81", "title": "No bid after the end", "statement": "A bid is accepted only before the block in which the auction ends.", "quantifier": "every reachable state", "why_tests_cant": "Needs more auctions due in one block than the hook settles, which the tests never create.", "anchors": ["auction/src/lib.rs: add_bid", "auction/src/types.rs: extend_if_necessary"]}
{"id": "C82", "title": "When the NFT calls succeed", "statement": "Each call of the nft pallet succeeds exactly when its documented conditions hold: the signer owns the NFT or collection, the NFT is in none of the states the call forbids, the collection is open and has room, an identifier is left, the signer can pay the fee, the shard comes from an assigned enclave of the right cluster that has not sent one. Nothing else makes it fail, and nothing less lets it pass.", "quantifier": "every reachable state, every signer other than the fee collector, all arguments", "why_tests_cant": "Tests try each error once; they do not show that the listed conditions are sufficient and necessary in all states.", "anchors": ["nft/src/lib.rs: all calls"]}
{"id": "C83", "title": "When the marketplace calls succeed", "statement": "Each call of the marketplace pallet succeeds exactly when: a new marketplace is paid for, only the owner changes it, a listed NFT is free and admitted by the marketplace with a price covering the flat commission and a listing fee the signer can pay, unlisting is by the owner of a listed NFT, and a purchase is at the listed price by an account other than the seller who can pay commission, royalty and rest.", "quantifier": "every reachable state, every signer, all arguments", "why_tests_cant": "Sufficiency and necessity of the conditions over all balances, fees and lists.", "anchors": ["marketplace/src/lib.rs: all calls"]}
{"id": "C84", "title": "When the auction calls succeed", "statement": "Each call of the auction pallet succeeds exactly when its conditions on times, prices, bidders and balances hold: e.g. a bid is accepted exactly from the start block on, from a non-owner, above the starting price, above all standing bids and above the existential deposit, if the difference to the bidder's own earlier bid can be paid.", "quantifier": "every reachable state, every signer other than pallet accounts, all arguments", "why_tests_cant": "Boundaries of every comparison for all values.", "anchors": ["auction/src/lib.rs: all calls"]}
{"id": "C85", "title": "When the rent calls succeed", "statement": "Each call of the rent pallet succeeds exactly when its conditions hold: e.g. rent succeeds exactly for a running contract with automatic acceptance and the right creation block that has no rentee, for an invited account other than the renter that can pay the fee and the deposit and owns the NFTs asked for.", "quantifier": "every reachable state, every signer other than pallet accounts, all arguments", "why_tests_cant": "All combinations of durations, acceptance types, fees and deposits.", "anchors": ["rent/src/lib.rs: all calls"]}
{"id": "C86", "title": "When the transmission calls succeed", "statement": "Each call of the transmission-protocols pallet succeeds exactly when its conditions hold: e.g. a protocol is set exactly by the owner of a free NFT for another account, with blocks ahead and within the limit, a consent list without repetitions and a threshold between 1 and its length, room in the queue if it is timed, and the fee paid.", "quantifier": "every reachable state, every signer, all arguments", "why_tests_cant": "All protocols, cancellation periods and queue states.", "anchors": ["transmission-protocols/src/lib.rs: all calls"]}
{"id": "C87", "title": "When the TEE operator calls succeed", "statement": "Each signed call of the tee pallet succeeds exactly when its conditions hold: e.g. rewards are claimed exactly by an assigned operator, once per era, for eras since the assignment that are over by more than two and within the history depth, if the pool can pay them.", "quantifier": "every reachable state, every signer other than pallet accounts, all arguments", "why_tests_cant": "All registrations, stakes, eras and reports.", "anchors": ["tee/src/lib.rs: signed calls"]}
{"id": "C88", "title": "When the bridge calls succeed", "statement": "A vote succeeds exactly for a relayer on a known chain when the proposal is new or open, not expired and not yet voted on by this relayer; a deposit succeeds exactly for a known chain if the signer can pay fee and amount.", "quantifier": "every reachable state, every signer other than the fee collector, all arguments", "why_tests_cant": "All voting states and balances.", "anchors": ["bridge/src/lib.rs: vote_for_proposal, deposit"]}
{"id": "C89", "title": "When the administrative calls succeed", "statement": "Each call reserved for root succeeds exactly for root and under its stated conditions; each call reserved for the external origin succeeds exactly for that origin and under its stated conditions.", "quantifier": "every reachable state, every origin, all arguments", "why_tests_cant": "All origins and states of clusters, registrations and chains.", "anchors": ["tee/src/lib.rs: root calls", "bridge/src/lib.rs", "mandate/src/lib.rs", "staking-rewards/src/lib.rs", "nft, marketplace, transmission-protocols: fee setters"]}
{"id": "C90", "title": "What the NFT calls do", "statement": "A successful call of the nft pallet changes exactly what it says: minting writes one record with the given creator, owner, offchain data, royalty and flags under the next identifier and puts it in the named collection; burning removes the record and takes it out of its collection; transfer, delegation, royalty and mint-fee calls change one field; secrets and capsules set the syncing flags, and the last shard turns them into the finished flag. The events reported are exactly those named, and no other record, pallet or (unless the call charges a fee) balance changes.", "quantifier": "every reachable state, every signer, all arguments", "why_tests_cant": "Tests look at the field a call is meant to change, not at everything it must leave alone.", "anchors": ["nft/src/lib.rs: all calls"]}
{"id": "C91", "title": "What the marketplace calls do", "statement": "A successful call of the marketplace pallet changes exactly what it says: a new marketplace is owned by the signer and has the next identifier, configuration changes exactly the settings given, listing writes the sale and the listed flag, unlisting and buying remove both, buying makes the buyer the owner. Nothing else changes apart from the balances of calls that pay, and exactly the named event is reported.", "quantifier": "every state, every signer, all arguments", "why_tests_cant": "Frame conditions over all settings and records.", "anchors": ["marketplace/src/lib.rs: all calls"]}
{"id": "C92", "title": "What the auction calls do", "statement": "A successful call of the auction pallet changes exactly what it says: creation records the auction, its deadline and the listed flag; a bid replaces the bidder's old one, keeps the bid list sorted and bounded, returns what was evicted as a claim, and extends an auction that is about to end; ending, cancelling and buying out remove auction and deadline, hand over the NFT where due and turn the remaining bids into claims. Nothing else changes apart from balances.", "quantifier": "every reachable state, every signer, all arguments", "why_tests_cant": "All bid lists, deadlines and grace periods.", "anchors": ["auction/src/lib.rs: all calls"]}
{"id": "C93", "title": "What the rent calls do", "statement": "A successful call of the rent pallet changes exactly what it says: creation records the contract in the queue of free ones, an offer is appended, renting or accepting an offer moves the contract to the queue that matches its duration with the right end block, terms are offered and accepted, revocation and cancellation remove contract, offers, queue entry and the rented flag. Nothing else changes apart from balances and the NFTs used as payment, and exactly the named event is reported.", "quantifier": "every reachable state of a sound configuration, every signer, all arguments", "why_tests_cant": "All durations, queues, fee and deposit kinds.", "anchors": ["rent/src/lib.rs: all calls"]}
{"id": "C94", "title": "What the transmission calls do", "statement": "A successful call of the transmission-protocols pallet changes exactly what it says: setting a protocol records it and queues exactly the timed ones; removal erases it; a timer reset moves the queue entry; a consent is recorded, and the last one needed either queues the NFT or hands it over at once when its block has passed. Nothing else changes apart from the fee, and exactly the named events are reported.", "quantifier": "every reachable state, every signer, all arguments", "why_tests_cant": "All protocols, queues and consent lists.", "anchors": ["transmission-protocols/src/lib.rs: all calls"]}
{"id": "C95", "title": "What the TEE operator calls do", "statement": "A successful signed call of the tee pallet changes exactly what it says, including the stake ledger and the lock of the signer: registration writes enclave and stake and locks it, unregistration of an unassigned operator erases both and unlocks, withdrawal erases the finished unbonding, bonding more raises lock and ledger to the required amount, a report is stored once per server, a claim marks the era as paid. Nobody else's lock changes.", "quantifier": "every state, every signer, all arguments", "why_tests_cant": "Frame conditions over all maps and locks.", "anchors": ["tee/src/lib.rs: signed calls"]}
{"id": "C96", "title": "What the bridge calls do", "statement": "A vote adds the relayer to the votes of exactly that proposal and approves it exactly when the threshold is reached, releasing the amount; a deposit raises the nonce of the destination by one. Nothing else changes apart from balances, and exactly the named events are reported.", "quantifier": "every reachable state, every signer, all arguments", "why_tests_cant": "All voting states.", "anchors": ["bridge/src/lib.rs: vote_for_proposal, deposit"]}
{"id": "C97", "title": "What the administrative calls do", "statement": "A successful call of root or of the external origin changes exactly what it says: assignments, removals and approvals of enclaves touch exactly the maps of the operator concerned (with stake and lock), cluster calls one cluster, setters one value. A mandated call acts like the same call from root, and its result is reported.", "quantifier": "every reachable state, all arguments", "why_tests_cant": "Frame conditions over all maps and locks.", "anchors": ["tee/src/lib.rs: root calls", "bridge/src/lib.rs", "mandate/src/lib.rs", "staking-rewards/src/lib.rs", "nft, marketplace, transmission-protocols: fee setters"]}
{"id": "C98", "title": "Services cost the published fee", "statement": "Creating a marketplace or setting a transmission protocol takes exactly the published fee from the signer, gives it to the fee collector (or destroys it if there is none), touches no other account and never kills the signer's account.", "quantifier": "every reachable state, every signer, all protocols", "why_tests_cant": "All balances and fee settings.", "anchors": ["marketplace/src/lib.rs: create_marketplace", "transmission-protocols/src/lib.rs: set_transmission_protocol"]}
{"id": "C99", "title": "A block touches only what is due", "statement": "Starting a new block settles only auctions whose deadline has come, hands over only NFTs whose transmission is queued for this block or earlier, and ends or charges only contracts whose queue entry has come. No other NFT, auction, contract, transmission, claim, balance or report changes: an NFT changes only if one of these is due for it or if it is a deposit of a due contract, and then only its owner and three flags; a balance changes only for the parties of a settled auction or contract; queues lose only due entries. When nothing is due, the block number is all that changes.", "quantifier": "every state, every block", "why_tests_cant": "The work of a block depends on three queues and their limits; tests look at the NFT they settle, not at all others.", "anchors": ["auction/src/lib.rs: on_initialize", "rent/src/lib.rs: on_initialize", "transmission-protocols/src/lib.rs: on_initialize", "tee/src/lib.rs: on_initialize"]}
{"id": "C100", "title": "An NFT that changes hands is free", "statement": "Whenever an NFT gets a new owner, in whatever way (transfer, sale, auction, forfeited deposit, consent, due transmission), it arrives free: it is not for sale, not in an auction, not delegated, not rented out, not under transmission and not waiting for shards, and no pallet keeps a record of it.", "quantifier": "every reachable state, every step", "why_tests_cant": "Six ways of changing hands, each with its own clean-up of five registries and flags; a test follows one way and checks the registry it knows.", "anchors": ["nft/src/lib.rs: transfer_nft", "marketplace/src/lib.rs: buy_nft", "auction/src/helpers.rs: complete_auction", "rent/src/helpers.rs: handle_deleted_nfts, handle_completed_contract", "transmission-protocols/src/lib.rs: add_consent, on_initialize"]}
{"id": "C101", "title": "Every engagement can end", "statement": "From every reachable state, an NFT that is not waiting for shards can be freed (not for sale, not in an auction, not delegated, not rented out, not under transmission) by letting blocks pass, one call of its owner, and consents of the accounts listed in its transmission. Provided, for an NFT in an auction, that the existential deposit is at most 1 (C23), and that the listed accounts can sign, that is, are not a pallet's own account.", "quantifier": "every reachable state, every NFT", "why_tests_cant": "Needs a continuation from every state, including contracts that renew, auctions that extend and queues that are full; tests only end engagements they started.", "anchors": ["auction/src/lib.rs: on_initialize", "rent/src/lib.rs: on_initialize", "transmission-protocols/src/lib.rs: on_initialize, add_consent, remove_transmission_protocol", "marketplace/src/lib.rs: unlist_nft", "nft/src/lib.rs: delegate_nft"]}
{"id": "C102", "title": "A refusal by the nft pallet names a reason that holds", "statement": "For every call of pallet nft, a table lists the errors it may return and, for each of them, what must then be true of the state before the call, the caller and the arguments. A refused call returns an error of its table whose condition holds; no other error is possible. Conversely, whenever the condition of any line of the table holds, the call is refused and nothing changes.", "quantifier": "every reachable state, every signer other than the fee collector, all arguments", "why_tests_cant": "The unit tests assert one error from one hand-made state per check; that a message is never returned when what it says is not the case, and that no check can be bypassed, is about all states and arguments.", "anchors": ["nft/src/lib.rs: all calls", "nft/src/types.rs"]}
{"id": "C103", "title": "A refusal by the marketplace pallet names a reason that holds", "statement": "For every call of pallet marketplace, a table lists the errors it may return and, for each of them, what must then be true of the state before the call, the caller and the arguments. A refused call returns an error of its table whose condition holds; no other error is possible. Conversely, whenever the condition of any line of the table holds, the call is refused and nothing changes.", "quantifier": "every reachable state, every signer, all arguments", "why_tests_cant": "The unit tests assert one error from one hand-made state per check; that a message is never returned when what it says is not the case, and that no check can be bypassed, is about all states and arguments.", "anchors": ["marketplace/src/lib.rs: all calls"]}
{"id": "C104", "title": "A refusal by the auction pallet names a reason that holds", "statement": "For every call of pallet auction, a table lists the errors it may return and, for each of them, what must then be true of the state before the call, the caller and the arguments. A refused call returns an error of its table whose condition holds; no other error is possible. Conversely, whenever the condition of any line of the table holds, the call is refused and nothing changes.", "quantifier": "every reachable state, every signer other than pallet accounts, all arguments", "why_tests_cant": "The unit tests assert one error from one hand-made state per check; that a message is never returned when what it says is not the case, and that no check can be bypassed, is about all states and arguments.", "anchors": ["auction/src/lib.rs: all calls"]}
{"id": "C105", "title": "A refusal by the rent pallet names a reason that holds", "statement": "For every call of pallet rent, a table lists the errors it may return and, for each of them, what must then be true of the state before the call, the caller and the arguments. A refused call returns an error of its table whose condition holds; no other error is possible. Conversely, whenever the condition of any line of the table holds, the call is refused and nothing changes.", "quantifier": "every reachable state, every signer other than pallet accounts, all arguments", "why_tests_cant": "The unit tests assert one error from one hand-made state per check; that a message is never returned when what it says is not the case, and that no check can be bypassed, is about all states and arguments.", "anchors": ["rent/src/lib.rs: all calls", "rent/src/helpers.rs"]}
{"id": "C106", "title": "A refusal by the transmission pallet names a reason that holds", "statement": "For every call of pallet transmission-protocols, a table lists the errors it may return and, for each of them, what must then be true of the state before the call, the caller and the arguments. A refused call returns an error of its table whose condition holds; no other error is possible. Conversely, whenever the condition of any line of the table holds, the call is refused and nothing changes.", "quantifier": "every reachable state, every signer, all arguments", "why_tests_cant": "The unit tests assert one error from one hand-made state per check; that a message is never returned when what it says is not the case, and that no check can be bypassed, is about all states and arguments.", "anchors": ["transmission-protocols/src/lib.rs: all calls"]}
{"id": "C107", "title": "A refusal by the tee pallet names a reason that holds", "statement": "For every call of pallet tee made by operators and metrics servers, a table lists the errors it may return and, for each of them, what must then be true of the state before the call, the caller and the arguments. A refused call returns an error of its table whose condition holds; no other error is possible. Conversely, whenever the condition of any line of the table holds, the call is refused and nothing changes.", "quantifier": "every reachable state, every signer other than pallet accounts, all arguments", "why_tests_cant": "The unit tests assert one error from one hand-made state per check; that a message is never returned when what it says is not the case, and that no check can be bypassed, is about all states and arguments.", "anchors": ["tee/src/lib.rs: signed calls"]}
{"id": "C108", "title": "A refusal by the bridge pallet names a reason that holds", "statement": "For every call of pallet bridge made by relayers and depositors, a table lists the errors it may return and, for each of them, what must then be true of the state before the call, the caller and the arguments. A refused call returns an error of its table whose condition holds; no other error is possible. Conversely, whenever the condition of any line of the table holds, the call is refused and nothing changes.", "quantifier": "every reachable state, every signer other than the fee collector, all arguments", "why_tests_cant": "The unit tests assert one error from one hand-made state per check; that a message is never returned when what it says is not the case, and that no check can be bypassed, is about all states and arguments.", "anchors": ["bridge/src/lib.rs: vote_for_proposal, deposit"]}
{"id": "C109", "title": "A refusal by administration names a reason that holds", "statement": "For every call of root and of the external origin, a table lists the errors it may return and, for each of them, what must then be true of the state before the call, the caller and the arguments. A refused call returns an error of its table whose condition holds; no other error is possible. Conversely, whenever the condition of any line of the table holds, the call is refused and nothing changes. Made by any other origin, the call is refused as a bad origin.", "quantifier": "every reachable state, every origin, all arguments", "why_tests_cant": "The unit tests assert one error from one hand-made state per check; that a message is never returned when what it says is not the case, and that no check can be bypassed, is about all states and arguments.", "anchors": ["tee/src/lib.rs: root calls", "bridge/src/lib.rs: add_chain, set_threshold, set_deposit_nonce"]}
{"id": "C110", "title": "The events of a block are true, complete and said once", "statement": "The events deposited at the start of a block are exactly these: one for every auction that is over (naming the highest bidder, the price and the shares paid to the marketplace, the creator and the auctioneer, and then the bidder owns the NFT; or nobody, and then the NFT has its old owner), one for every contract that ended (it had a rentee) or expired (it had none), one for every subscription that started a new period, one for every transmitted NFT (the recipient owns it), and one if the active era is unknown. None is missing, none is repeated, none is untrue, and there is no other.", "quantifier": "every reachable state, every next block, every order of the hooks", "why_tests_cant": "The unit tests compare the last event of a block in which one thing is due; that no combination of due items, hook order or action limit drops, repeats or falsifies an event is about all states.", "anchors": ["auction/src/lib.rs: on_initialize", "rent/src/lib.rs: on_initialize", "transmission-protocols/src/lib.rs: on_initialize", "tee/src/lib.rs: on_initialize"]}
{"id": "C111", "title": "The weight of the start-of-block work is the price list times the work done, and bounded", "statement": "The reads and writes each hook reports to the runtime are a fixed amount plus a fixed price for everything it announces: an auction 3 reads, one more for each losing bidder, and 2 writes; a fixed contract 3 and 4, a subscription 3 and 2, an expired offer 3 and 5; a transmission 2 and 2; one write more for the queues of rent and transmissions if anything was done. They never exceed a number that depends on the configuration only, whatever is waiting.", "quantifier": "every reachable state, every hook of the next block, every order of the hooks", "why_tests_cant": "The unit tests ignore the returned weight; a bound for every number of due items and bidders is about all states.", "anchors": ["auction/src/lib.rs: on_initialize", "rent/src/lib.rs: on_initialize", "transmission-protocols/src/lib.rs: on_initialize", "tee/src/lib.rs: on_initialize"]}
{"id": "C112", "title": "The declared writes cover the storage entries that change", "statement": "No hook changes more storage entries (NFTs, auctions, deadlines, refunds, contracts, rent queues, transmissions, their queue, consents, tee records of an era, accounts) than it declares writes.", "quantifier": "every reachable state, every hook of the next block", "why_tests_cant": "The unit tests ignore the returned weight; counting the changed entries in all states is a statement about all executions.", "anchors": ["auction/src/lib.rs: on_initialize", "rent/src/lib.rs: on_initialize", "transmission-protocols/src/lib.rs: on_initialize", "tee/src/lib.rs: on_initialize, clear_old_era"]}
{"id": "C113", "title": "The work at the start of a block is bounded", "statement": "The auction, rent and transmission hooks change at most as many storage entries (NFTs, auctions, deadlines, refunds, contracts, queues, transmissions, consents, accounts) as a number that depends on the configuration only: per auction its NFT, its record, the refunds of its bidders and three accounts; per contract its record, its NFT, two deposited NFTs and two accounts; per transmission its NFT and its record; and the queue and the pallet's account. The tee hook changes nothing but the records of the one era that leaves the history.", "quantifier": "every reachable state, every hook of the next block, every order of the hooks", "why_tests_cant": "No test measures how much a block changes, and a bound over all states cannot be tested.", "anchors": ["auction/src/lib.rs: on_initialize", "rent/src/lib.rs: on_initialize", "transmission-protocols/src/lib.rs: on_initialize", "tee/src/lib.rs: on_initialize, clear_old_era"]}
{"id": "C114", "title": "No bounded list outgrows its limit or repeats an entry", "statement": "The members of a collection, the auction deadlines, the bidders of an auction, the three rent queues together, the offers for a contract and the transmission queue never hold more entries than their configured limit, and never name the same NFT or account twice.", "quantifier": "every reachable state, every collection, auction and contract", "why_tests_cant": "Tests fill single lists to the limit in one order of calls; nothing checks all lists after all sequences of calls and blocks.", "anchors": ["nft/src/lib.rs: create_nft, add_nft_to_collection", "auction/src/types.rs", "rent/src/lib.rs: make_rent_offer, retract_rent_offer", "rent/src/types.rs: RentingQueues", "transmission-protocols/src/types.rs"]}
{"id": "C115", "title": "The size a call is charged for is bounded by the configuration", "statement": "The size from which the weight of a call is computed before it runs (members of a collection, deadlines, bidders, queue entries, offers) is one, or the length of such a list, and never exceeds the limit of the list. A mandated call has the size of the call it carries.", "quantifier": "every reachable state, every call with any arguments", "why_tests_cant": "The weight expressions run in no unit test; a bound over all states cannot be tested.", "anchors": ["nft/src/lib.rs: pallet::weight of create_nft, burn_nft, add_nft_to_collection, create_secret_nft, create_capsule", "auction/src/lib.rs: pallet::weight", "rent/src/lib.rs: pallet::weight", "transmission-protocols/src/lib.rs: pallet::weight", "mandate/src/lib.rs: pallet::weight"]}
{"id": "C116", "title": "A call that changes a bounded list is charged for its length", "statement": "If a successful call changes the members of a collection, the deadlines, the bidders of an auction, the rent queues, the offers of a contract or the transmission queue, then the size its weight is computed from is the length of that list before the call.", "quantifier": "every reachable state, every successful call, every list", "why_tests_cant": "Weights are not compared with the work done in any test.", "anchors": ["nft/src/lib.rs: pallet::weight", "auction/src/lib.rs: add_bid, end_auction, buy_it_now", "rent/src/lib.rs: make_rent_offer, rent, accept_rent_offer, change_subscription_terms", "transmission-protocols/src/lib.rs: pallet::weight"]}
{"id": "C117", "title": "Whoever is owed money can take it out", "statement": "With an existential deposit of at most one: a recorded refund can be claimed in every state, exactly; a bid can be withdrawn, exactly, until the last blocks of its auction, and if nobody acts any more it has won the NFT or become a refund after finitely many blocks. With any existential deposit: the deposit of a contract nobody has rented can be recovered by cancelling it, tokens and NFT; an operator waiting for an assignment can leave at once and has no lock left; an operator who has left can withdraw the stake no later than the bonding duration after leaving.", "quantifier": "every reachable state, every refund, bid, open contract, waiting or leaving operator", "why_tests_cant": "A test shows one withdrawal in one state; that no sequence of other calls can block a withdrawal is a statement about all executions.", "anchors": ["auction/src/lib.rs: claim, remove_bid, on_initialize", "rent/src/lib.rs: cancel_contract", "tee/src/lib.rs: unregister_enclave, withdraw_unbonded"]}
{"id": "C118", "title": "A block turns losing bids into refunds, to the last token", "statement": "For every account, its refund plus its bids that do not lead an auction are together the same before and after a block initialisation (existential deposit of at most one).", "quantifier": "every reachable state, every account", "why_tests_cant": "A test can check the refunds of one settlement; the sum over all auctions and any number of settlements in a block needs a proof.", "anchors": ["auction/src/lib.rs: on_initialize, add_claim"]}
{"id": "C119", "title": "A bidder's money is never touched by others, except for an NFT", "statement": "In a step that is not the account's own call, the sum of its refund and of all its bids in live auctions changes by exactly the highest bids of this account in auctions that ended in this step and gave it the NFT (existential deposit of at most one).", "quantifier": "every reachable state, every call of any other account, every block, every account", "why_tests_cant": "Tests look at single accounts after single calls; this is an exact balance for all accounts over all steps.", "anchors": ["auction/src/lib.rs: add_bid, remove_bid, buy_it_now, end_auction, cancel_auction, claim, on_initialize", "auction/src/types.rs: insert_new_bid"]}
{"id": "C120", "title": "Nobody is made poorer by others", "statement": "With an existential deposit of at most one: count for an account its balance, its deposits in rent contracts and all its bids and refunds. In a step that is not its own call and in which nothing outside these pallets takes from it, the sum falls by no more than the highest bids of this account for NFTs it gets in this step plus the rent fees that fall due in this step for subscriptions it rents under accepted terms or for an offer of its own that the renter accepts. The same holds over any number of steps.", "quantifier": "every reachable state, every action by others, every account that is not a pallet account, every list of actions", "why_tests_cant": "A test looks at the balances after one scenario; the bound is for all accounts over arbitrary interleavings of all pallets.", "anchors": ["auction/src/lib.rs: all calls, on_initialize", "rent/src/lib.rs: all calls, on_initialize", "nft/src/lib.rs, marketplace/src/lib.rs, tee/src/lib.rs: calls that move tokens"]}
{"id": "C121", "title": "An account without bids, rentals and offers keeps all it has", "statement": "With an existential deposit of at most one: an account that has no bid, rents nothing and has offered to rent nothing stays so whatever others do, and its balance, deposits and refunds together never fall through the actions of others.", "quantifier": "every reachable state, every list of actions by others, every account that is not a pallet account", "why_tests_cant": "It is a statement about every sequence of calls by everybody else.", "anchors": ["auction/src/lib.rs: all calls, on_initialize", "rent/src/lib.rs: all calls, on_initialize"]}
{"id": "C122", "title": "If nobody acts, everything ends", "statement": "With an existential deposit of at most one: from every reachable state, if only blocks pass, there is a block from which on there is no auction, no rent contract and no transmission waiting for a block. From then on no NFT is rented, every listed NFT is one that was for sale at a fixed price from the start, and every NFT still under transmission needs consents.", "quantifier": "every reachable state; all later blocks", "why_tests_cant": "The number of blocks needed is not bounded by a constant: it depends on the durations, the number of auctions and contracts that end at once, and the limits per block.", "anchors": ["auction/src/lib.rs: on_initialize", "rent/src/lib.rs: on_initialize", "transmission-protocols/src/lib.rs: on_initialize"]}
{"id": "C123", "title": "All money comes home if nobody acts", "statement": "With an existential deposit of at most one: from every reachable state, for every account that is not a pallet account, if only blocks pass and the account then makes one claim (if it has a refund), the balance of the account is all it has, and it is at least all it had before (balance, deposits, bids, refunds) less the highest bids for NFTs it got and the rent it paid.", "quantifier": "every reachable state, every account that is not a pallet account", "why_tests_cant": "It is a statement about the exit of every account from every reachable state.", "anchors": ["auction/src/lib.rs: claim, on_initialize", "rent/src/lib.rs: on_initialize"]}

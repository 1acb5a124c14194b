(** Unit tests of the auction pallet (auction/src/tests/extrinsics.rs, hooks.rs, types.rs), run against the model. *)
From Verif Require Import Replay.
Local Open Scope N_scope.

(** auction/src/tests/mock.rs *)
Definition mock_gen (bidders : N) : Config := {|
  ed := 1; fees_collector := None; zero_lock_clears := false;
  nft_data_limit := 10; coll_data_limit := 10; coll_size_limit := 10; shards_number := 5;
  init_mint_fee := 10; init_secret_fee := 75; init_capsule_fee := 100;
  init_mkt_fee := 100; mkt_accounts_limit := 100; mkt_data_limit := 150; mkt_colls_limit := 100;
  auction_ed := 1; min_auction_duration := 100; max_auction_duration := 1000;
  max_auction_delay := 50; grace_period := 5; ending_period := 10; bidder_limit := bidders;
  parallel_auctions := 20; auction_actions := 10; auction_pot := 100;
  rent_ed := 1; rent_accounts_limit := 0; rent_limit := 0; rent_actions := 0;
  availability_limit := 0; duration_limit := 0; rent_pot := 101;
  init_at_block_fee := 0; init_at_block_reset_fee := 0; init_on_consent_fee := 0;
  init_on_consent_at_block_fee := 0; max_block_duration := 0; consent_limit := 0;
  trans_limit := 0; trans_actions := 0;
  cluster_size := 2; uri_limit := 12; list_limit := 10; init_staking_amount := 20;
  bonding_duration := 10; tee_pot := 102; init_reward_pool := 2000; history_depth := 50;
  own_chain := 0; proposal_lifetime := 0; init_vote_threshold := 0; relayer_limit := 0;
  init_bridge_fee := 0; staking_pot := 103;
  external_ok := fun _ => false;
  hook_order := [HookAuction]
|}.
Local Instance mock : Config := mock_gen 3.
(** [ExtBuilder::new_build(None)] *)
Definition start : state := init_state 1 None (list_to_map [(1, 1000); (2, 1000); (3, 1000); (4, 1000); (5, 1000)]) ∅.
Definition mint (w : N) : test -> test := ok (sg w) (C_create_nft [] 0 None false).
Definition prep (k : test) : test :=
  ok (sg ALICE) (C_create_collection [] None) >>
  ok (sg ALICE) (C_create_nft [] 0 (Some 0) false) >> mint ALICE >> mint BOB >>
  ok (sg ALICE) (C_create_marketplace Public) >>
  ok (sg ALICE) (C_set_marketplace_configuration 0 (SetTo (Percentage 200000)) Noop Noop Noop Noop) >>
  ok (sg ALICE) (C_create_auction 1 0 10 1000 100 (Some 110)) >> k.
Definition auc (i : N) (s : state) : option auction := auctions (s_auc s) !! i.
Definition dl (s : state) := deadlines (s_auc s).
Definition claimed_by (w : N) (s : state) := claims (s_auc s) !! w.
(** AuctionBuilder at block 1 *)
Definition builder (i m st en p : N) (b : option N) : call := C_create_auction i m st en p b.
Notation E e := (Auction_err e).
Notation plain := (mkNftState false false false false false false false false false).
Notation listed := (mkNftState false true false false false false false false false).

(** * create_auction *)
Example create_auction : prep (
  now_ (fun s0 => ok (sg ALICE) (C_create_auction 0 0 10 110 300 (Some 400)) >>
  chk (fun s => (nstate <$> nft 0 s) = Some listed) >> chk (fun s => cnt (auctions (s_auc s)) = cnt (auctions (s_auc s0)) + 1) >>
  chk (fun s => cnt (claims (s_auc s)) = cnt (claims (s_auc s0))) >>
  chk (fun s => auc 0 s = Some (mkAuction ALICE 10 110 300 (Some 400) [] 0 false)) >>
  chk (fun s => Some (dl s) = q_insert parallel_auctions 0 110 (dl s0)) >>
  last_ (Ev_AuctionCreated 0 0 ALICE 300 (Some 400) 10 110) >> fin)) start.
Proof. replay. Qed.
Definition refuses (c : call) (e : auc_error) : test -> test := no (sg ALICE) c (E e).
Example auction_cannot_start_in_the_past : prep (refuses (builder 0 0 0 1000 100 None) A_AuctionCannotStartInThePast >> fin) start.
Proof. replay. Qed.
Example auction_cannot_end_before_it_has_started : prep (refuses (builder 0 0 1 0 100 None) A_AuctionCannotEndBeforeItHasStarted >> fin) start.
Proof. replay. Qed.
Example auction_duration_is_too_long : prep (refuses (builder 0 0 1 1002 100 None) A_AuctionDurationIsTooLong >> fin) start.
Proof. replay. Qed.
Example auction_duration_is_too_short : prep (refuses (builder 0 0 1 100 100 None) A_AuctionDurationIsTooShort >> fin) start.
Proof. replay. Qed.
Example auction_start_is_too_far_away : prep (refuses (builder 0 0 52 152 100 None) A_AuctionStartIsTooFarAway >> fin) start.
Proof. replay. Qed.
Example buy_it_price_cannot_be_less_or_equal_than_start_price : prep (refuses (builder 0 0 1 1000 100 (Some 99)) A_BuyItPriceCannotBeLessOrEqualThanStartPrice >> fin) start.
Proof. replay. Qed.
Example nft_not_found : prep (refuses (builder 99 0 1 1000 100 None) A_NFTNotFound >> fin) start.
Proof. replay. Qed.
Example cannot_list_not_owned_nfts : prep (refuses (builder 2 0 1 1000 100 None) A_CannotListNotOwnedNFTs >> fin) start.
Proof. replay. Qed.
Definition default : call := builder 0 0 1 1000 100 None.
Example cannot_list_listed_nfts : prep (flag 0 (fun x => x <| is_listed := true |>) >> refuses default A_CannotListListedNFTs >> fin) start.
Proof. replay. Qed.
Example cannot_list_not_synced_secret_nfts : prep (flag 0 (fun x => x <| is_secret := true |> <| is_syncing_secret := true |>) >> refuses default A_CannotListNotSyncedSecretNFTs >> fin) start.
Proof. replay. Qed.
Example cannot_list_delegated_nfts : prep (flag 0 (fun x => x <| is_delegated := true |>) >> refuses default A_CannotListDelegatedNFTs >> fin) start.
Proof. replay. Qed.
Example cannot_list_soulbound_nfts : prep (edit 0 (fun d => d <| nstate ::= fun x => x <| is_soulbound := true |> |> <| creator := BOB |>) >> refuses default A_CannotListNotCreatedSoulboundNFTs >> fin) start.
Proof. replay. Qed.
Example cannot_list_rented_nfts : prep (flag 0 (fun x => x <| is_rented := true |>) >> refuses default A_CannotListRentedNFTs >> fin) start.
Proof. replay. Qed.
Example cannot_list_not_synced_capsules : prep (flag 0 (fun x => x <| is_capsule := true |> <| is_syncing_capsule := true |>) >> refuses default A_CannotListNotSyncedCapsules >> fin) start.
Proof. replay. Qed.
Example cannot_list_nfts_in_transmission : prep (flag 0 (fun x => x <| is_transmission := true |>) >> refuses default A_CannotListNFTsInTransmission >> fin) start.
Proof. replay. Qed.
Example marketplace_not_found : prep (refuses (builder 0 99 1 1000 100 None) A_MarketplaceNotFound >> fin) start.
Proof. replay. Qed.
Definition conf (f : config_op compound_fee) (a : config_op (list N)) (c : config_op (list N)) : test -> test :=
  ok (sg ALICE) (C_set_marketplace_configuration 0 f Noop a Noop c).
Example not_allowed_to_list_public_account_blacklist : prep (conf Noop (SetTo [ALICE]) Noop >> refuses default A_NotAllowedToList >> fin) start.
Proof. replay. Qed.
Example not_allowed_to_list_public_collection_blacklist : prep (conf Noop Noop (SetTo [0]) >> refuses default A_NotAllowedToList >> fin) start.
Proof. replay. Qed.
Example not_allowed_to_list_public_account_and_collection_blacklist : prep (conf Noop (SetTo [ALICE]) (SetTo [0]) >> refuses default A_NotAllowedToList >> fin) start.
Proof. replay. Qed.
Example not_allowed_to_list_private_not_whitelist : prep (ok (sg ALICE) (C_set_marketplace_kind 0 Private) >> refuses default A_NotAllowedToList >> fin) start.
Proof. replay. Qed.
Example price_cannot_cover_marketplace_fee : prep (conf (SetTo (Flat 101)) Noop Noop >> refuses (builder 0 0 1 1000 100 None) A_PriceCannotCoverMarketplaceFee >> fin) start.
Proof. replay. Qed.
Fixpoint more (n : nat) (i : N) (k : test) : test :=
  match n with O => k | S n => mint ALICE >> ok (sg ALICE) (builder i 0 1 1000 100 None) >> more n (i + 1) k end.
Example maximum_auctions_limit_reached : prep (more 19 3 >> mint ALICE >> refuses (builder 22 0 1 1000 100 None) A_MaximumAuctionsLimitReached >> fin) start.
Proof. replay. Qed.

(** * cancel_auction *)
Example cancel_auction : prep (
  now_ (fun s0 => ok (sg ALICE) (C_cancel_auction 1) >>
  chk (fun s => nft 1 s = ((fun d => d <| nstate ::= fun x => x <| is_listed := false |> |> <| owner := ALICE |>) <$> nft 1 s0)) >>
  chk (fun s => cnt (claims (s_auc s)) = cnt (claims (s_auc s0))) >> chk (fun s => auc 1 s = None) >>
  chk (fun s => cnt (auctions (s_auc s)) = cnt (auctions (s_auc s0)) - 1) >> chk (fun s => dl s = q_del 1 (dl s0)) >>
  last_ (Ev_AuctionCancelled 1) >> fin)) start.
Proof. replay. Qed.
Example cancel_nft_not_found : prep (refuses (C_cancel_auction 99) A_NFTNotFound >> fin) start.
Proof. replay. Qed.
Example cancel_auction_does_not_exist : prep (mint ALICE >> refuses (C_cancel_auction 3) A_AuctionDoesNotExist >> fin) start.
Proof. replay. Qed.
Example cancel_not_the_auction_creator : prep (no (sg BOB) (C_cancel_auction 1) (E A_NotTheAuctionCreator) >> fin) start.
Proof. replay. Qed.
Example cannot_cancel_auction_in_progress : prep (blk 10 >> refuses (C_cancel_auction 1) A_CannotCancelAuctionInProgress >> fin) start.
Proof. replay. Qed.

(** * end_auction *)
Example end_auction : prep (
  ok (sg BOB) (C_create_nft [] 200000 None false) >> edit 3 (fun d => d <| owner := EVE |>) >>
  ok (sg EVE) (builder 3 0 51 1051 100 None) >> blk 51 >>
  now_ (fun s0 => ok (sg CHARLIE) (C_add_bid 3 110) >> blk 1050 >> ok (sg DAVE) (C_add_bid 3 120) >>
  chk (fun s => bal 100 s = 230) >> now_ (fun s1 => blk 1052 >> ok (sg EVE) (C_end_auction 3) >>
  chk (fun s => bal ALICE s = bal ALICE s0 + 24) >> chk (fun s => bal BOB s = bal BOB s0 + 19) >>
  chk (fun s => bal EVE s = bal EVE s0 + 77) >> chk (fun s => bal DAVE s = bal DAVE s0 - 120) >>
  chk (fun s => bal CHARLIE s = bal CHARLIE s0 - 110) >> chk (fun s => bal 100 s = 110) >>
  chk (fun s => nft 3 s = Some (mkNft DAVE BOB [] None 200000 plain)) >>
  chk (fun s => cnt (claims (s_auc s)) = 1) >> chk (fun s => claimed_by CHARLIE s = Some 110) >>
  chk (fun s => auc 3 s = None) >> chk (fun s => dl s = []) >>
  last_ (Ev_AuctionCompleted 3 (Some DAVE) (Some 120) (Some 24) (Some 19) (Some 77)) >> fin))) start.
Proof. replay. Qed.
Example end_nft_not_found : prep (refuses (C_end_auction 99) A_NFTNotFound >> fin) start.
Proof. replay. Qed.
Example end_auction_does_not_exist : prep (mint ALICE >> refuses (C_end_auction 3) A_AuctionDoesNotExist >> fin) start.
Proof. replay. Qed.
Example end_not_the_auction_creator : prep (no (sg BOB) (C_end_auction 1) (E A_NotTheAuctionCreator) >> fin) start.
Proof. replay. Qed.
Example cannot_end_auction_that_was_not_extended : prep (refuses (C_end_auction 1) A_CannotEndAuctionThatWasNotExtended >> fin) start.
Proof. replay. Qed.

(** * add_bid *)
Example add_bid : prep (
  now_ (fun s0 => blk 10 >> ok (sg BOB) (C_add_bid 1 110) >>
  chk (fun s => bal BOB s = bal BOB s0 - 110) >> chk (fun s => bal 100 s = 110) >> chk (fun s => cnt (claims (s_auc s)) = 0) >>
  chk (fun s => auc 1 s = ((fun a => a <| a_bidders := [(BOB, 110)] |>) <$> auc 1 s0)) >>
  last_ (Ev_BidAdded 1 BOB 110) >> fin)) start.
Proof. replay. Qed.
Example add_bid_above_max_bidder_history_size : prep (
  now_ (fun s0 => blk 10 >> ok (sg BOB) (C_add_bid 1 101) >> ok (sg CHARLIE) (C_add_bid 1 102) >> ok (sg DAVE) (C_add_bid 1 103) >>
  chk (fun s => (fun a => nlen (a_bidders a)) <$> auc 1 s = Some bidder_limit) >>
  ok (sg EVE) (C_add_bid 1 104) >>
  chk (fun s => bal EVE s = bal EVE s0 - 104) >> chk (fun s => bal 100 s = 101 + 102 + 103 + 104) >>
  chk (fun s => cnt (claims (s_auc s)) = cnt (claims (s_auc s0)) + 1) >> chk (fun s => claimed_by BOB s = Some 101) >>
  chk (fun s => a_bidders <$> auc 1 s = Some [(CHARLIE, 102); (DAVE, 103); (EVE, 104)]) >>
  nth_ 1 (Ev_BidDropped 1 BOB 101) >> last_ (Ev_BidAdded 1 EVE 104) >> fin)) start.
Proof. replay. Qed.
Example add_bid_increase_auction_duration : prep (
  now_ (fun s0 => blk 997 >> ok (sg BOB) (C_add_bid 1 110) >> chk (fun s => bal BOB s = bal BOB s0 - 110) >>
  chk (fun s => auc 1 s = ((fun a => a <| a_bidders := [(BOB, 110)] |> <| a_end := 1002 |> <| a_extended := true |>) <$> auc 1 s0)) >>
  chk (fun s => dl s = q_update 1 1002 (dl s0)) >> last_ (Ev_BidAdded 1 BOB 110) >> fin)) start.
Proof. replay. Qed.
Example add_bid_and_replace_current : prep (
  now_ (fun s0 => blk 10 >> ok (sg BOB) (C_add_bid 1 110) >> ok (sg BOB) (C_add_bid 1 120) >> chk (fun s => bal BOB s = bal BOB s0 - 120) >>
  chk (fun s => auc 1 s = ((fun a => a <| a_bidders := [(BOB, 120)] |>) <$> auc 1 s0)) >> last_ (Ev_BidAdded 1 BOB 120) >> fin)) start.
Proof. replay. Qed.
Example bid_auction_does_not_exist : prep (refuses (C_add_bid 99 1) A_AuctionDoesNotExist >> fin) start.
Proof. replay. Qed.
Example cannot_add_bid_to_your_own_auctions : prep (refuses (C_add_bid 1 1) A_CannotAddBidToYourOwnAuctions >> fin) start.
Proof. replay. Qed.
Example auction_not_started : prep (no (sg BOB) (C_add_bid 1 1) (E A_AuctionNotStarted) >> fin) start.
Proof. replay. Qed.
Example amount_too_low : prep (ok (sg ALICE) (C_cancel_auction 1) >> ok (sg ALICE) (C_create_auction 1 0 10 1000 0 (Some 110)) >> blk 10 >>
  no (sg BOB) (C_add_bid 1 1) (E A_AmountTooLow) >> fin) start.
Proof. replay. Qed.
Example cannot_bid_less_than_the_highest_bid : prep (blk 10 >> ok (sg BOB) (C_add_bid 1 101) >> no (sg DAVE) (C_add_bid 1 101) (E A_CannotBidLessThanTheHighestBid) >> fin) start.
Proof. replay. Qed.
Example cannot_bid_less_than_the_starting_price : prep (blk 10 >> no (sg BOB) (C_add_bid 1 99) (E A_CannotBidLessThanTheStartingPrice) >> fin) start.
Proof. replay. Qed.
Example not_enough_funds : prep (blk 10 >> now_ (fun s0 => no (sg BOB) (C_add_bid 1 (bal BOB s0 + 1)) Balances_InsufficientBalance >> fin)) start.
Proof. replay. Qed.
Example not_enough_funds_to_replace : prep (blk 10 >> now_ (fun s0 => ok (sg BOB) (C_add_bid 1 (bal BOB s0 - 1)) >>
  no (sg BOB) (C_add_bid 1 (bal BOB s0 - 1 + 10)) Balances_InsufficientBalance >> fin)) start.
Proof. replay. Qed.

(** * remove_bid *)
Example remove_bid : prep (
  now_ (fun s0 => blk 10 >> ok (sg BOB) (C_add_bid 1 110) >> ok (sg BOB) (C_remove_bid 1) >>
  chk (fun s => bal BOB s = bal BOB s0) >> chk (fun s => bal 100 s = 0) >> chk (fun s => cnt (claims (s_auc s)) = 0) >>
  chk (fun s => auc 1 s = auc 1 s0) >> last_ (Ev_BidRemoved 1 BOB 110) >> fin)) start.
Proof. replay. Qed.
Example remove_auction_does_not_exist : prep (refuses (C_remove_bid 99) A_AuctionDoesNotExist >> fin) start.
Proof. replay. Qed.
Example cannot_remove_bid_at_the_end_of_auction : prep (blk 10 >> ok (sg BOB) (C_add_bid 1 101) >> blk 990 >>
  no (sg BOB) (C_remove_bid 1) (E A_CannotRemoveBidAtTheEndOfAuction) >> fin) start.
Proof. replay. Qed.
Example bid_does_not_exist : prep (no (sg BOB) (C_remove_bid 1) (E A_BidDoesNotExist) >> fin) start.
Proof. replay. Qed.

(** * buy_it_now *)
Example buy_it_now : prep (
  ok (sg BOB) (C_create_nft [] 200000 None false) >> edit 3 (fun d => d <| owner := EVE |>) >>
  ok (sg EVE) (builder 3 0 1 1000 100 (Some 200)) >> blk 1 >>
  now_ (fun s0 => ok (sg DAVE) (C_add_bid 3 110) >> ok (sg CHARLIE) (C_buy_it_now 3 200) >>
  chk (fun s => bal ALICE s = bal ALICE s0 + 40) >> chk (fun s => bal BOB s = bal BOB s0 + 32) >>
  chk (fun s => bal EVE s = bal EVE s0 + 128) >> chk (fun s => bal CHARLIE s = bal CHARLIE s0 - 200) >>
  chk (fun s => bal DAVE s = bal DAVE s0 - 110) >> chk (fun s => bal 100 s = bal 100 s0 + 110) >>
  chk (fun s => nft 3 s = Some (mkNft CHARLIE BOB [] None 200000 plain)) >>
  chk (fun s => cnt (claims (s_auc s)) = cnt (claims (s_auc s0)) + 1) >> chk (fun s => claimed_by DAVE s = Some 110) >> chk (fun s => auc 3 s = None) >>
  last_ (Ev_AuctionCompleted 3 (Some CHARLIE) (Some 200) (Some 40) (Some 32) (Some 128)) >> fin)) start.
Proof. replay. Qed.
Example buy_nft_not_found : (no (sg BOB) (C_buy_it_now 99 100) (E A_NFTNotFound) >> fin) start.
Proof. replay. Qed.
Example buy_auction_does_not_exist : (mint ALICE >> no (sg BOB) (C_buy_it_now 0 100) (E A_AuctionDoesNotExist) >> fin) start.
Proof. replay. Qed.
Example auction_does_not_support_buy_it_now : prep (upd (fun s => s <| s_auc ::= fun x => x <| auctions ::= alter (fun a => a <| a_buy_it := None |>) 1 |> |>) >>
  no (sg BOB) (C_buy_it_now 1 100) (E A_AuctionDoesNotSupportBuyItNow) >> fin) start.
Proof. replay. Qed.
Example cannot_buy_it_now_to_your_own_auctions : prep (blk 10 >> refuses (C_buy_it_now 1 110) A_CannotBuyItNowToYourOwnAuctions >> fin) start.
Proof. replay. Qed.
Example buy_auction_not_started : prep (no (sg BOB) (C_buy_it_now 1 110) (E A_AuctionNotStarted) >> fin) start.
Proof. replay. Qed.
Example cannot_buy_it_when_a_bid_is_higher_than_buy_it_price : prep (blk 10 >> ok (sg CHARLIE) (C_add_bid 1 110) >>
  no (sg BOB) (C_buy_it_now 1 110) (E A_CannotBuyItWhenABidIsHigherThanBuyItPrice) >> fin) start.
Proof. replay. Qed.
Example price_does_not_match : prep (blk 10 >> no (sg BOB) (C_buy_it_now 1 120) (E A_PriceDoesNotMatch) >> fin) start.
Proof. replay. Qed.

(** * claim *)
Example claim : prep (
  blk 10 >> now_ (fun s0 => ok (sg BOB) (C_add_bid 1 101) >> ok (sg CHARLIE) (C_add_bid 1 102) >> blk 1001 >>
  chk (fun s => claimed_by BOB s = Some 101) >> ok (sg BOB) C_claim >>
  chk (fun s => bal BOB s = bal BOB s0) >> chk (fun s => bal 100 s = bal 100 s0) >> chk (fun s => cnt (claims (s_auc s)) = 0) >>
  chk (fun s => claimed_by BOB s = None) >> last_ (Ev_BalanceClaimed BOB 101) >> fin)) start.
Proof. replay. Qed.
Example claim_does_not_exist : prep (no (sg BOB) C_claim (E A_ClaimDoesNotExist) >> fin) start.
Proof. replay. Qed.

(** * hooks *)
Example on_initialize : (
  mint ALICE >> mint BOB >> ok (sg ALICE) (C_create_marketplace Public) >>
  ok (sg ALICE) (C_create_auction 0 0 10 110 300 (Some 400)) >> ok (sg BOB) (C_create_auction 1 0 15 115 300 (Some 400)) >>
  chk (fun s => dl s = [(0, 110); (1, 115)]) >> chk (fun s => cnt (auctions (s_auc s)) = 2) >>
  chk (fun s => is_true (bool_decide (is_Some (auc 0 s)))) >> chk (fun s => is_true (bool_decide (is_Some (auc 1 s)))) >>
  blk 110 >> chk (fun s => dl s = [(1, 115)]) >> chk (fun s => cnt (auctions (s_auc s)) = 1) >> chk (fun s => is_true (bool_decide (is_Some (auc 1 s)))) >>
  blk 115 >> chk (fun s => dl s = []) >> chk (fun s => cnt (auctions (s_auc s)) = 0) >> fin) start.
Proof. replay. Qed.
Example auctions_in_block : (
  ok (sg ALICE) (C_create_marketplace Public) >> more 20 0 >>
  blk 999 >> chk (fun s => nlen (dl s) = 20) >> chk (fun s => cnt (auctions (s_auc s)) = 20) >>
  blk 1000 >> chk (fun s => nlen (dl s) = 10) >> chk (fun s => cnt (auctions (s_auc s)) = 10) >>
  blk 1001 >> chk (fun s => nlen (dl s) = 0) >> chk (fun s => cnt (auctions (s_auc s)) = 0) >> fin) start.
Proof. replay. Qed.

(** * types *)
Definition ins10 (w x : N) (l : list (N * N)) := @insert_new_bid (mock_gen 10) w x l.
Example test_sorted_bid_works :
  let l1 := snd (ins10 1 2 []) in let l2 := snd (ins10 2 3 l1) in
  let fill := fold_left (fun l n => snd (ins10 n (n + 1) l)) [4; 5; 6; 7; 8; 9; 10; 11] in
  let l3 := fill l2 in let r4 := ins10 1 102 l3 in let l4 := snd r4 in
  l1 = [(1, 2)] /\ l2 = [(1, 2); (2, 3)] /\ highest_bid l2 = Some (2, 3) /\ head l2 = Some (1, 2) /\
  l3 = [(1, 2); (2, 3); (4, 5); (5, 6); (6, 7); (7, 8); (8, 9); (9, 10); (10, 11); (11, 12)] /\
  fst r4 = Some (1, 2) /\
  l4 = [(2, 3); (4, 5); (5, 6); (6, 7); (7, 8); (8, 9); (9, 10); (10, 11); (11, 12); (1, 102)] /\
  find_bid 5 l4 = Some 6 /\ find_bid 11 l4 = Some 12 /\ find_bid 7 l4 = Some 8 /\ find_bid 2021 l4 = None /\
  del_bid 5 l4 = [(2, 3); (4, 5); (6, 7); (7, 8); (8, 9); (9, 10); (10, 11); (11, 12); (1, 102)] /\
  del_bid 11 (del_bid 5 l4) = [(2, 3); (4, 5); (6, 7); (7, 8); (8, 9); (9, 10); (10, 11); (1, 102)] /\
  fold_left (fun l w => del_bid w l) [2; 4; 6; 7; 8; 9; 10; 1] (del_bid 11 (del_bid 5 l4)) = [] /\
  (fst <$> pop_highest (fill [])) = Some (11, 12).
Proof. replay. Qed.
Definition ins5 (n : nat) : list (N * N) := fold_left (fun q e => q_ins e q) (take n [(0, 100); (1, 50); (2, 150); (3, 75); (4, 25)]) [].
Example insert_random_values : q_insert 10 0 100 [] = Some [(0, 100)] /\
  ins5 1 = [(0, 100)] /\ ins5 2 = [(1, 50); (0, 100)] /\ ins5 3 = [(1, 50); (0, 100); (2, 150)] /\
  ins5 4 = [(1, 50); (3, 75); (0, 100); (2, 150)] /\ ins5 5 = [(4, 25); (1, 50); (3, 75); (0, 100); (2, 150)].
Proof. replay. Qed.
Example remove_random_values :
  q_del 4 (ins5 5) = [(1, 50); (3, 75); (0, 100); (2, 150)] /\ q_del 3 (q_del 4 (ins5 5)) = [(1, 50); (0, 100); (2, 150)] /\
  q_del 2 (q_del 3 (q_del 4 (ins5 5))) = [(1, 50); (0, 100)] /\ q_del 1 (q_del 2 (q_del 3 (q_del 4 (ins5 5)))) = [(0, 100)] /\
  q_del 0 (q_del 1 (q_del 2 (q_del 3 (q_del 4 (ins5 5))))) = [].
Proof. replay. Qed.
Example update_values :
  q_update 0 200 (ins5 3) = [(1, 50); (2, 150); (0, 200)] /\ q_update 1 175 (q_update 0 200 (ins5 3)) = [(2, 150); (1, 175); (0, 200)] /\
  q_update 1 25 (q_update 1 175 (q_update 0 200 (ins5 3))) = [(1, 25); (2, 150); (0, 200)].
Proof. replay. Qed.
Example get_next_ready_blocks :
  q_pop 49 (ins5 3) = None /\ (fst <$> q_pop 50 (ins5 3)) = Some 1 /\
  (q_pop 500 (ins5 3) ≫= (fun r => Some (fst r, q_pop 500 (snd r) ≫= (fun r => Some (fst r, fst <$> q_pop 500 (snd r)))))) = Some (1, Some (0, Some 2)).
Proof. replay. Qed.

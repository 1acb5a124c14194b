(** Unit tests of the marketplace pallet (marketplace/src/tests/extrinsics.rs), run against the model. *)
From Verif Require Import Replay.
Local Open Scope N_scope.

(** marketplace/src/tests/mock.rs *)
Local Instance mock : Config := {|
  ed := 1; fees_collector := None; zero_lock_clears := false; nft_data_limit := 10; coll_data_limit := 10;
  coll_size_limit := 10; shards_number := 5; init_mint_fee := 10; init_secret_fee := 75;
  init_capsule_fee := 100; init_mkt_fee := 100; mkt_accounts_limit := 100; mkt_data_limit := 150;
  mkt_colls_limit := 100; auction_ed := 1; min_auction_duration := 0; max_auction_duration := 0;
  max_auction_delay := 0; grace_period := 0; ending_period := 0; bidder_limit := 0; parallel_auctions := 0;
  auction_actions := 0; auction_pot := 100; rent_ed := 1; rent_accounts_limit := 0; rent_limit := 0;
  rent_actions := 0; availability_limit := 0; duration_limit := 0; rent_pot := 101; init_at_block_fee := 0;
  init_at_block_reset_fee := 0; init_on_consent_fee := 0; init_on_consent_at_block_fee := 0;
  max_block_duration := 0; consent_limit := 0; trans_limit := 0; trans_actions := 0; cluster_size := 2;
  uri_limit := 12; list_limit := 10; init_staking_amount := 20; bonding_duration := 10; tee_pot := 102;
  init_reward_pool := 2000; history_depth := 50; own_chain := 0; proposal_lifetime := 0;
  init_vote_threshold := 0; relayer_limit := 0; init_bridge_fee := 0; staking_pot := 103;
  external_ok := fun _ => false; hook_order := []
|}.

Definition start_with (l : list (N * N)) : state := init_state 1 None (list_to_map l) ∅.
Definition start : state := start_with [(ALICE, 1000); (BOB, 1000); (CHARLIE, 1000)].
(** ALICE owns collection, NFT and marketplace 0, BOB 1, CHARLIE marketplace 2. *)
Definition prep (k : test) : test :=
  ok (sg ALICE) (C_create_collection [] None) >> ok (sg ALICE) (C_create_nft [] 0 (Some 0) false) >> ok (sg ALICE) (C_create_marketplace Public) >>
  ok (sg BOB) (C_create_collection [] None) >> ok (sg BOB) (C_create_nft [] 0 (Some 1) false) >> ok (sg BOB) (C_create_marketplace Public) >>
  ok (sg CHARLIE) (C_create_marketplace Public) >> k.
Notation E e := (Market_err e).
Definition sale_of (i : N) (s : state) := sales (s_mkt s) !! i.
Definition mkt (i : N) (s : state) := mkts (s_mkt s) !! i.
Definition state_ (i : N) (f : nft_state) : test -> test := flag i (fun _ => f).
Definition conf (w m : N) c l a o k : test -> test := ok (sg w) (C_set_marketplace_configuration m c l a o k).


(** * create_marketplace *)
Example create_marketplace : (ok (sg ALICE) (C_create_marketplace Public) >> chk (fun s => mkt 0 s = Some (mkMarket ALICE Public None None None None None)) >>
  chk (fun s => bal ALICE s = 900) >> last_ (Ev_MarketplaceCreated 0 ALICE Public) >> fin) start.
Proof. replay. Qed.
Example insufficient_balance : (no (sg ALICE) (C_create_marketplace Public) Balances_InsufficientBalance >> fin) (start_with [(ALICE, 1)]).
Proof. replay. Qed.
Example create_keep_alive : (no (sg ALICE) (C_create_marketplace Public) Balances_KeepAlive >> fin) (start_with [(ALICE, 100)]).
Proof. replay. Qed.

(** * set_marketplace_owner *)
Example set_marketplace_owner : prep (ok (sg ALICE) (C_set_marketplace_owner 0 BOB) >> chk (fun s => m_owner <$> mkt 0 s = Some BOB) >> last_ (Ev_MarketplaceOwnerSet 0 BOB) >> fin) start.
Proof. replay. Qed.
Example owner_marketplace_not_found : prep (no (sg ALICE) (C_set_marketplace_owner 1001 BOB) (E M_MarketplaceNotFound) >> fin) start.
Proof. replay. Qed.
Example owner_not_the_marketplace_owner : prep (no (sg ALICE) (C_set_marketplace_owner 1 BOB) (E M_NotTheMarketplaceOwner) >> fin) start.
Proof. replay. Qed.
Example cannot_transfer_marketplace_to_yourself : prep (no (sg ALICE) (C_set_marketplace_owner 0 ALICE) (E M_CannotTransferMarketplaceToYourself) >> fin) start.
Proof. replay. Qed.

(** * set_marketplace_kind *)
Example set_marketplace_kind : prep (ok (sg ALICE) (C_set_marketplace_kind 0 Private) >> chk (fun s => m_kind <$> mkt 0 s = Some Private) >> last_ (Ev_MarketplaceKindSet 0 Private) >> fin) start.
Proof. replay. Qed.
Example kind_marketplace_not_found : prep (no (sg ALICE) (C_set_marketplace_kind 1001 Private) (E M_MarketplaceNotFound) >> fin) start.
Proof. replay. Qed.
Example kind_not_the_marketplace_owner : prep (no (sg ALICE) (C_set_marketplace_kind 1 Private) (E M_NotTheMarketplaceOwner) >> fin) start.
Proof. replay. Qed.

(** * set_marketplace_configuration *)
Example set_marketplace_configuration : prep (conf ALICE 0 (SetTo (Percentage 1000000)) (SetTo (Percentage 1000000)) (SetTo [ALICE; BOB]) (SetTo [1]) (SetTo [1]) >>
  chk (fun s => mkt 0 s = Some (mkMarket ALICE Public (Some (Percentage 1000000)) (Some (Percentage 1000000)) (Some [ALICE; BOB]) (Some [1]) (Some [1]))) >>
  conf ALICE 0 Noop Noop Noop Noop Noop >> chk (fun s => mkt 0 s = Some (mkMarket ALICE Public (Some (Percentage 1000000)) (Some (Percentage 1000000)) (Some [ALICE; BOB]) (Some [1]) (Some [1]))) >>
  conf ALICE 0 RemoveIt RemoveIt RemoveIt RemoveIt RemoveIt >> chk (fun s => mkt 0 s = Some (mkMarket ALICE Public None None None None None)) >> last_ (Ev_MarketplaceConfigSet 0 RemoveIt RemoveIt RemoveIt RemoveIt RemoveIt) >> fin) start.
Proof. replay. Qed.
Example conf_marketplace_not_found : prep (no (sg ALICE) (C_set_marketplace_configuration 1001 RemoveIt RemoveIt RemoveIt RemoveIt RemoveIt) (E M_MarketplaceNotFound) >> fin) start.
Proof. replay. Qed.
Example conf_not_the_marketplace_owner : prep (no (sg ALICE) (C_set_marketplace_configuration 1 RemoveIt RemoveIt RemoveIt RemoveIt RemoveIt) (E M_NotTheMarketplaceOwner) >> fin) start.
Proof. replay. Qed.

(** * set_marketplace_mint_fee *)
Example set_marketplace_mint_fee : (ok Root (C_set_marketplace_mint_fee 123) >> chk (fun s => mkt_fee (s_mkt s) = 123) >> fin) start.
Proof. replay. Qed.
Example mint_fee_bad_origin : (no (sg ALICE) (C_set_marketplace_mint_fee 123) BadOrigin >> fin) start.
Proof. replay. Qed.

(** * list_nft *)
Example list_nft : prep (ok (sg ALICE) (C_list_nft 0 0 10) >> chk (fun s => sale_of 0 s = Some (mkSale ALICE 0 10 None)) >> last_ (Ev_NFTListed 0 0 10 None) >> fin) start.
Proof. replay. Qed.
Example list_nft_listing_fee_flat : prep (now_ (fun s0 => conf BOB 1 Noop (SetTo (Flat 10)) Noop Noop Noop >> ok (sg ALICE) (C_list_nft 0 1 10) >> chk (fun s => sale_of 0 s = Some (mkSale ALICE 1 10 None)) >> chk (fun s => bal ALICE s = bal ALICE s0 - 10) >> last_ (Ev_NFTListed 0 1 10 None) >> fin)) start.
Proof. replay. Qed.
Example list_nft_listing_fee_percentage : prep (now_ (fun s0 => conf BOB 1 Noop (SetTo (Percentage 800000)) Noop Noop Noop >> ok (sg ALICE) (C_list_nft 0 1 10) >> chk (fun s => sale_of 0 s = Some (mkSale ALICE 1 10 None)) >> chk (fun s => bal ALICE s = bal ALICE s0 - 8) >> last_ (Ev_NFTListed 0 1 10 None) >> fin)) start.
Proof. replay. Qed.
Example list_nft_private_account_whitelisted : prep (ok (sg ALICE) (C_set_marketplace_kind 0 Private) >> conf ALICE 0 Noop Noop (SetTo [ALICE]) Noop Noop >> ok (sg ALICE) (C_list_nft 0 0 10) >> chk (fun s => sale_of 0 s = Some (mkSale ALICE 0 10 None)) >> last_ (Ev_NFTListed 0 0 10 None) >> fin) start.
Proof. replay. Qed.
Example list_nft_private_collection_whitelisted : prep (ok (sg ALICE) (C_set_marketplace_kind 0 Private) >> conf ALICE 0 Noop Noop Noop Noop (SetTo [0]) >> ok (sg ALICE) (C_list_nft 0 0 10) >> chk (fun s => sale_of 0 s = Some (mkSale ALICE 0 10 None)) >> last_ (Ev_NFTListed 0 0 10 None) >> fin) start.
Proof. replay. Qed.
Example list_nft_private_account_and_collection_whitelisted : prep (ok (sg ALICE) (C_set_marketplace_kind 0 Private) >> conf ALICE 0 Noop Noop (SetTo [ALICE]) Noop (SetTo [0]) >> ok (sg ALICE) (C_list_nft 0 0 10) >> chk (fun s => sale_of 0 s = Some (mkSale ALICE 0 10 None)) >> last_ (Ev_NFTListed 0 0 10 None) >> fin) start.
Proof. replay. Qed.
Example list_keep_alive : prep (now_ (fun s0 => conf BOB 1 Noop (SetTo (Flat 10)) Noop Noop Noop >> no (sg ALICE) (C_list_nft 0 1 10) Balances_KeepAlive >> chk (fun s => bal ALICE s = bal ALICE s0) >> fin)) (start_with [(ALICE, 120); (BOB, 1000); (CHARLIE, 1000)]).
Proof. replay. Qed.
Example list_nft_not_found : prep (no (sg ALICE) (C_list_nft 1001 0 10) (E M_NFTNotFound) >> fin) start.
Proof. replay. Qed.
Example list_not_the_nft_owner : prep (no (sg ALICE) (C_list_nft 1 0 10) (E M_NotTheNFTOwner) >> fin) start.
Proof. replay. Qed.
Example nft_already_listed : prep (ok (sg ALICE) (C_list_nft 0 0 10) >> no (sg ALICE) (C_list_nft 0 0 10) (E M_CannotListAlreadytListedNFTs) >> fin) start.
Proof. replay. Qed.
Example cannot_list_not_synced_secret_nfts : prep (state_ 0 (mkNftState false false true false false true false false false) >> no (sg ALICE) (C_list_nft 0 0 10) (E M_CannotListNotSyncedSecretNFTs) >> fin) start.
Proof. replay. Qed.
Example cannot_list_delegated_nfts : prep (state_ 0 (mkNftState false false false true false false false false false) >> no (sg ALICE) (C_list_nft 0 0 10) (E M_CannotListDelegatedNFTs) >> fin) start.
Proof. replay. Qed.
Example cannot_list_not_created_soulbound_nfts : prep (edit 0 (fun d => d <| creator := BOB |> <| nstate ::= (fun x => x <| is_soulbound := true |>) |>) >> no (sg ALICE) (C_list_nft 0 0 10) (E M_CannotListNotCreatedSoulboundNFTs) >> fin) start.
Proof. replay. Qed.
Example cannot_list_rented_nfts : prep (state_ 0 (mkNftState false false false false false false true false false) >> no (sg ALICE) (C_list_nft 0 0 10) (E M_CannotListRentedNFTs) >> fin) start.
Proof. replay. Qed.
Example cannot_list_not_synced_capsules : prep (state_ 0 (mkNftState true false false false false false false true false) >> no (sg ALICE) (C_list_nft 0 0 10) (E M_CannotListNotSyncedCapsules) >> fin) start.
Proof. replay. Qed.
Example cannot_list_nfts_in_transmission : prep (state_ 0 (mkNftState false false false false false false false false true) >> no (sg ALICE) (C_list_nft 0 0 10) (E M_CannotListNFTsInTransmission) >> fin) start.
Proof. replay. Qed.
Example list_marketplace_not_found : prep (no (sg ALICE) (C_list_nft 0 1001 10) (E M_MarketplaceNotFound) >> fin) start.
Proof. replay. Qed.
Example not_allowed_to_list_public_account_blacklist : prep (conf ALICE 0 Noop Noop (SetTo [ALICE]) Noop Noop >> no (sg ALICE) (C_list_nft 0 0 10) (E M_NotAllowedToList) >> fin) start.
Proof. replay. Qed.
Example not_allowed_to_list_public_collection_blacklist : prep (conf ALICE 0 Noop Noop Noop Noop (SetTo [0]) >> no (sg ALICE) (C_list_nft 0 0 10) (E M_NotAllowedToList) >> fin) start.
Proof. replay. Qed.
Example not_allowed_to_list_public_account_and_collection_blacklist : prep (conf ALICE 0 Noop Noop (SetTo [ALICE]) Noop (SetTo [0]) >> no (sg ALICE) (C_list_nft 0 0 10) (E M_NotAllowedToList) >> fin) start.
Proof. replay. Qed.
Example not_allowed_to_list_private_not_whitelist : prep (ok (sg ALICE) (C_set_marketplace_kind 0 Private) >> no (sg ALICE) (C_list_nft 0 0 10) (E M_NotAllowedToList) >> fin) start.
Proof. replay. Qed.
Example price_too_low_for_commission_fee : prep (conf ALICE 0 (SetTo (Flat 10000)) Noop Noop Noop Noop >> no (sg ALICE) (C_list_nft 0 0 10) (E M_PriceCannotCoverMarketplaceFee) >> fin) start.
Proof. replay. Qed.

(** * unlist_nft *)
Example unlist_nft : prep (ok (sg ALICE) (C_list_nft 0 0 10) >> ok (sg ALICE) (C_unlist_nft 0) >> chk (fun s => sale_of 0 s = None) >> last_ (Ev_NFTUnlisted 0) >> fin) start.
Proof. replay. Qed.
Example unlist_nft_not_found : prep (no (sg ALICE) (C_unlist_nft 1001) (E M_NFTNotFound) >> fin) start.
Proof. replay. Qed.
Example unlist_not_the_nft_owner : prep (ok (sg BOB) (C_list_nft 1 0 0) >> no (sg ALICE) (C_unlist_nft 1) (E M_NotTheNFTOwner) >> fin) start.
Proof. replay. Qed.
Example unlist_nft_not_for_sale : prep (no (sg ALICE) (C_unlist_nft 0) (E M_NFTNotForSale) >> fin) start.
Proof. replay. Qed.

(** * buy_nft *)
Example buy_nft : prep (now_ (fun s0 => ok (sg ALICE) (C_list_nft 0 0 10) >> ok (sg BOB) (C_buy_nft 0 10) >>
  chk (fun s => sale_of 0 s = None) >> chk (fun s => owner <$> nft 0 s = Some BOB) >>
  chk (fun s => bal BOB s = bal BOB s0 - 10) >> chk (fun s => bal ALICE s = bal ALICE s0 + 10) >>
  last_ (Ev_NFTSold 0 0 BOB 10 0 0) >> fin)) start.
Proof. replay. Qed.
Example buy_nft_flat_commission : prep (now_ (fun s0 => conf CHARLIE 2 (SetTo (Flat 5)) Noop Noop Noop Noop >> ok (sg ALICE) (C_list_nft 0 2 10) >> ok (sg BOB) (C_buy_nft 0 10) >>
  chk (fun s => sale_of 0 s = None) >> chk (fun s => owner <$> nft 0 s = Some BOB) >>
  chk (fun s => bal BOB s = bal BOB s0 - 10) >> chk (fun s => bal ALICE s = bal ALICE s0 + 5) >> chk (fun s => bal CHARLIE s = bal CHARLIE s0 + 5) >>
  last_ (Ev_NFTSold 0 2 BOB 10 5 0) >> fin)) start.
Proof. replay. Qed.
Example buy_nft_percentage_commission : prep (now_ (fun s0 => conf CHARLIE 2 (SetTo (Percentage 800000)) Noop Noop Noop Noop >> ok (sg ALICE) (C_list_nft 0 2 10) >> ok (sg BOB) (C_buy_nft 0 10) >>
  chk (fun s => sale_of 0 s = None) >> chk (fun s => owner <$> nft 0 s = Some BOB) >>
  chk (fun s => bal BOB s = bal BOB s0 - 10) >> chk (fun s => bal ALICE s = bal ALICE s0 + 2) >> chk (fun s => bal CHARLIE s = bal CHARLIE s0 + 8) >>
  last_ (Ev_NFTSold 0 2 BOB 10 8 0) >> fin)) start.
Proof. replay. Qed.
Example buy_nft_royalty : prep (now_ (fun s0 => ok (sg ALICE) (C_set_royalty 0 800000) >> ok (sg ALICE) (C_transfer_nft 0 CHARLIE) >> ok (sg CHARLIE) (C_list_nft 0 1 10) >> ok (sg BOB) (C_buy_nft 0 10) >>
  chk (fun s => sale_of 0 s = None) >> chk (fun s => owner <$> nft 0 s = Some BOB) >>
  chk (fun s => bal BOB s = bal BOB s0 - 10) >> chk (fun s => bal ALICE s = bal ALICE s0 + 8) >> chk (fun s => bal CHARLIE s = bal CHARLIE s0 + 2) >>
  last_ (Ev_NFTSold 0 1 BOB 10 0 8) >> fin)) start.
Proof. replay. Qed.
Example buy_nft_flat_commission_and_royalty : prep (now_ (fun s0 => conf CHARLIE 2 (SetTo (Flat 40)) Noop Noop Noop Noop >> ok (sg ALICE) (C_set_royalty 0 800000) >> ok (sg ALICE) (C_transfer_nft 0 DAVE) >> ok (sg DAVE) (C_list_nft 0 2 100) >> ok (sg BOB) (C_buy_nft 0 100) >>
  chk (fun s => sale_of 0 s = None) >> chk (fun s => owner <$> nft 0 s = Some BOB) >>
  chk (fun s => bal BOB s = bal BOB s0 - 100) >> chk (fun s => bal CHARLIE s = bal CHARLIE s0 + 40) >> chk (fun s => bal ALICE s = bal ALICE s0 + 48) >> chk (fun s => bal DAVE s = bal DAVE s0 + 12) >>
  last_ (Ev_NFTSold 0 2 BOB 100 40 48) >> fin)) start.
Proof. replay. Qed.
Example buy_nft_percentage_commission_and_royalty : prep (now_ (fun s0 => conf CHARLIE 2 (SetTo (Percentage 500000)) Noop Noop Noop Noop >> ok (sg ALICE) (C_set_royalty 0 800000) >> ok (sg ALICE) (C_transfer_nft 0 DAVE) >> ok (sg DAVE) (C_list_nft 0 2 100) >> ok (sg BOB) (C_buy_nft 0 100) >>
  chk (fun s => sale_of 0 s = None) >> chk (fun s => owner <$> nft 0 s = Some BOB) >>
  chk (fun s => bal BOB s = bal BOB s0 - 100) >> chk (fun s => bal CHARLIE s = bal CHARLIE s0 + 50) >> chk (fun s => bal ALICE s = bal ALICE s0 + 40) >> chk (fun s => bal DAVE s = bal DAVE s0 + 10) >>
  last_ (Ev_NFTSold 0 2 BOB 100 50 40) >> fin)) start.
Proof. replay. Qed.
Example buy_keep_alive : prep (now_ (fun s0 => ok (sg ALICE) (C_list_nft 0 2 (bal BOB s0)) >> no (sg BOB) (C_buy_nft 0 (bal BOB s0)) Balances_KeepAlive >>
  chk (fun s => (if sale_of 0 s then true else false) = true) >> chk (fun s => owner <$> nft 0 s = Some ALICE) >> chk (fun s => bal BOB s = bal BOB s0) >> fin)) start.
Proof. replay. Qed.
Example buy_nft_not_found : prep (no (sg ALICE) (C_buy_nft 1001 10) (E M_NFTNotFound) >> fin) start.
Proof. replay. Qed.
Example buy_nft_not_for_sale : prep (no (sg ALICE) (C_buy_nft 1 10) (E M_NFTNotForSale) >> fin) start.
Proof. replay. Qed.
Example cannot_buy_owned_nft : prep (ok (sg ALICE) (C_list_nft 0 0 10) >> no (sg ALICE) (C_buy_nft 0 10) (E M_CannotBuyOwnedNFT) >> fin) start.
Proof. replay. Qed.
Example not_enough_balance_to_buy : prep (ok (sg ALICE) (C_list_nft 0 0 10000) >> no (sg BOB) (C_buy_nft 0 10000) (E M_NotEnoughBalanceToBuy) >> fin) start.
Proof. replay. Qed.
Example price_does_not_match : prep (ok (sg ALICE) (C_list_nft 0 0 10000) >> no (sg BOB) (C_buy_nft 0 8000) (E M_PriceDoesNotMatch) >> fin) start.
Proof. replay. Qed.

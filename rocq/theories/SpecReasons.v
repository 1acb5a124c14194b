(** Why a call is refused: for each call, the errors it may return and, for each of them, what
    must then be true of the state [s] before the call, the signer [w] and the arguments.
    An error that is not in the list of a call is never returned by it. *)
From Verif Require Export SpecRules.
Local Open Scope N_scope.

Section reasons.
Context {C : Config}.

Definition table : Type := list (error * Prop).

(** Error [e] is in the table, and what the table says about it is true. *)
Definition justified (e : error) (t : table) : Prop := exists P, In (e, P) t /\ P.

(** * Money *)

(** The account cannot spare what it is to pay. *)
Definition poor (P : Prop) : table :=
  [(Balances_InsufficientBalance, P); (Balances_LiquidityRestrictions, P); (Balances_KeepAlive, P)].

(** Some receiver of these payments of [w] would be left with less than the existential deposit. *)
Definition dust (s : state) (w : N) (l : list (N * N)) : Prop :=
  exists l1 a x l2, l = l1 ++ (a, x) :: l2 /\ x <> 0 /\ a <> w /\ free (s_bal s) a + received a l1 + x < ed.
(** The payments due, which are those described by [due], cannot be made by [w]. *)
Definition unpayable (s : state) (w : N) (due : list (N * N) -> Prop) : table :=
  poor (exists l, due l /\ ~ affords s w (cost w l)) ++
  [(Balances_ExistentialDeposit, exists l, due l /\ dust s w l)].
(** The payments due cannot be made by the pot [p]. *)
Definition pot_short (s : state) (p : N) (due : list (N * N) -> Prop) : table :=
  let short := exists l, due l /\ ~ pot_can_pay s p l in
  [(Balances_InsufficientBalance, short); (Balances_ExistentialDeposit, short)].

(** * nft *)

Definition nft_is (s : state) (i : N) (P : nft_data -> Prop) : Prop :=
  exists d, nfts (s_nft s) !! i = Some d /\ P d.
Definition coll_is (s : state) (k : N) (P : collection -> Prop) : Prop :=
  exists c, colls (s_nft s) !! k = Some c /\ P c.

(** There is no NFT [i], or it is not the signer's. *)
Definition not_own_nft (s : state) (w i : N) : table :=
  [(Nft_err N_NFTNotFound, nfts (s_nft s) !! i = None);
   (Nft_err N_NotTheNFTOwner, nft_is s i (fun d => owner d <> w))].
Definition not_own_coll (s : state) (w k : N) : table :=
  [(Nft_err N_CollectionNotFound, colls (s_nft s) !! k = None);
   (Nft_err N_NotTheCollectionOwner, coll_is s k (fun c => c_owner c <> w))].
(** NFT [i] has the flag [f]; NFT [i] has not. *)
Definition has (s : state) (i : N) (f : nft_state -> bool) : Prop := nft_is s i (fun d => f (nstate d) = true).
Definition hasnt (s : state) (i : N) (f : nft_state -> bool) : Prop := nft_is s i (fun d => f (nstate d) = false).

(** The collection is full: it reached its own limit, or the general one. *)
Definition full (c : collection) : Prop :=
  coll_size_limit <= nlen (c_nfts c) \/ exists l, c_limit c = Some l /\ l <= nlen (c_nfts c).
Definition no_room (s : state) (w k : N) : table :=
  not_own_coll s w k ++
  [(Nft_err N_CollectionIsClosed, coll_is s k (fun c => c_closed c = true));
   (Nft_err N_CollectionHasReachedLimit, coll_is s k full)].
Definition no_mint (s : state) (w : N) (co : option N) : table :=
  match co with Some k => no_room s w k | None => [] end ++
  [(Panic, u32_max <= next_nft (s_nft s))].

(** The signer is the address of an enclave of operator [op] that is assigned to cluster [cl]. *)
Definition enclave_of (s : state) (w op cl : N) : Prop :=
  addr_op (s_tee s) !! w = Some op /\ enc_cluster (s_tee s) !! op = Some cl.
Definition no_shard (s : state) (w i : N) (full : nft_error) (l : list (N * N)) : table :=
  [(Nft_err N_NotARegisteredEnclave, forall op cl, ~ enclave_of s w op cl);
   (Nft_err N_NFTNotFound, nfts (s_nft s) !! i = None);
   (Nft_err N_ShareNotFromValidCluster, exists op cl c o, enclave_of s w op cl /\ (c, o) ∈ l /\ c <> cl);
   (Nft_err full, shards_number <= nlen l);
   (Nft_err N_EnclaveAlreadyAddedShard, exists op cl, enclave_of s w op cl /\ (cl, op) ∈ l)].

Definition nft_table (s : state) (w : N) (c : call) : table :=
  match c with
  | C_create_nft _ _ co _ => poor (~ affords s w (mint_fee (s_nft s))) ++ no_mint s w co
  | C_create_secret_nft _ _ _ co _ =>
      let short := ~ affords s w (mint_fee (s_nft s) + secret_fee (s_nft s)) in
      (Nft_err N_InsufficientBalance, short) :: poor short ++ no_mint s w co
  | C_create_capsule _ _ _ co _ =>
      let short := ~ affords s w (mint_fee (s_nft s) + capsule_fee (s_nft s)) in
      (Nft_err N_InsufficientBalance, short) :: poor short ++ no_mint s w co
  | C_burn_nft i => not_own_nft s w i ++
      [(Nft_err N_CannotBurnListedNFTs, has s i is_listed);
       (Nft_err N_CannotBurnDelegatedNFTs, has s i is_delegated);
       (Nft_err N_CannotBurnRentedNFTs, has s i is_rented);
       (Nft_err N_CannotBurnNFTsInTransmission, has s i is_transmission)]
  | C_transfer_nft i r => not_own_nft s w i ++
      [(Nft_err N_CannotTransferNFTsToYourself, r = w);
       (Nft_err N_CannotTransferListedNFTs, has s i is_listed);
       (Nft_err N_CannotTransferDelegatedNFTs, has s i is_delegated);
       (Nft_err N_CannotTransferNotCreatedSoulboundNFTs, nft_is s i bound_to_owner);
       (Nft_err N_CannotTransferNotSyncedSecretNFTs, has s i is_syncing_secret);
       (Nft_err N_CannotTransferRentedNFTs, has s i is_rented);
       (Nft_err N_CannotTransferNotSyncedCapsules, has s i is_syncing_capsule);
       (Nft_err N_CannotTransferNFTsInTransmission, has s i is_transmission)]
  | C_delegate_nft i _ => not_own_nft s w i ++
      [(Nft_err N_CannotDelegateListedNFTs, has s i is_listed);
       (Nft_err N_CannotDelegateRentedNFTs, has s i is_rented);
       (Nft_err N_CannotDelegateSyncingNFTs, has s i is_syncing_secret);
       (Nft_err N_CannotDelegateSyncingCapsules, has s i is_syncing_capsule);
       (Nft_err N_CannotDelegateNFTsInTransmission, has s i is_transmission)]
  | C_set_royalty i _ => not_own_nft s w i ++
      [(Nft_err N_NotTheNFTCreator, nft_is s i (fun d => creator d <> w));
       (Nft_err N_CannotSetRoyaltyForListedNFTs, has s i is_listed);
       (Nft_err N_CannotSetRoyaltyForDelegatedNFTs, has s i is_delegated);
       (Nft_err N_CannotSetRoyaltyForRentedNFTs, has s i is_rented);
       (Nft_err N_CannotSetRoyaltyForSyncingNFTs, has s i is_syncing_secret);
       (Nft_err N_CannotSetRoyaltyForSyncingCapsules, has s i is_syncing_capsule);
       (Nft_err N_CannotSetRoyaltyForNFTsInTransmission, has s i is_transmission)]
  | C_create_collection _ l =>
      [(Nft_err N_CollectionLimitExceededMaximumAllowed, exists x, l = Some x /\ coll_size_limit < x);
       (Panic, u32_max <= next_coll (s_nft s))]
  | C_burn_collection k => not_own_coll s w k ++
      [(Nft_err N_CollectionIsNotEmpty, coll_is s k (fun c => c_nfts c <> []))]
  | C_close_collection k => not_own_coll s w k
  | C_limit_collection k l => not_own_coll s w k ++
      [(Nft_err N_CollectionLimitAlreadySet, coll_is s k (fun c => is_Some (c_limit c)));
       (Nft_err N_CollectionIsClosed, coll_is s k (fun c => c_closed c = true));
       (Nft_err N_CollectionHasTooManyNFTs, coll_is s k (fun c => l < nlen (c_nfts c)));
       (Nft_err N_CollectionLimitExceededMaximumAllowed, coll_size_limit < l)]
  | C_add_nft_to_collection i k => no_room s w k ++ not_own_nft s w i ++
      [(Nft_err N_NFTBelongToACollection, nft_is s i (fun d => is_Some (collection_id d)))]
  | C_add_secret i _ => not_own_nft s w i ++
      [(Nft_err N_CannotAddSecretToListedNFTs, has s i is_listed);
       (Nft_err N_CannotAddSecretToSecretNFTs, has s i is_secret);
       (Nft_err N_CannotAddSecretToRentedNFTs, has s i is_rented);
       (Nft_err N_CannotAddSecretToDelegatedNFTs, has s i is_delegated);
       (Nft_err N_CannotAddSecretToSyncingCapsules, has s i is_syncing_capsule);
       (Nft_err N_CannotAddSecretToNFTsInTransmission, has s i is_transmission)] ++
      poor (~ affords s w (secret_fee (s_nft s)))
  | C_convert_to_capsule i _ => not_own_nft s w i ++
      [(Nft_err N_CannotConvertListedNFTs, has s i is_listed);
       (Nft_err N_CannotConvertCapsules, has s i is_capsule);
       (Nft_err N_CannotConvertRentedNFTs, has s i is_rented);
       (Nft_err N_CannotConvertDelegatedNFTs, has s i is_delegated);
       (Nft_err N_CannotConvertSyncingNFTs, has s i is_syncing_secret);
       (Nft_err N_CannotConvertNFTsInTransmission, has s i is_transmission)] ++
      poor (~ affords s w (capsule_fee (s_nft s)))
  | C_add_secret_shard i =>
      [(Nft_err N_NFTIsNotSecret, hasnt s i is_secret);
       (Nft_err N_NFTAlreadySynced, hasnt s i is_syncing_secret)] ++
      no_shard s w i N_NFTHasReceivedAllShards (default [] (secret_shards (s_nft s) !! i))
  | C_add_capsule_shard i =>
      [(Nft_err N_NFTIsNotCapsule, hasnt s i is_capsule);
       (Nft_err N_NFTAlreadySynced, hasnt s i is_syncing_capsule)] ++
      no_shard s w i N_CapsuleHasReceivedAllShards (default [] (capsule_shards (s_nft s) !! i))
  | C_set_capsule_offchaindata i _ => not_own_nft s w i ++
      [(Nft_err N_NFTIsNotCapsule, hasnt s i is_capsule);
       (Nft_err N_CannotSetOffchainDataForListedNFTs, has s i is_listed);
       (Nft_err N_CannotSetOffchainDataForRentedNFTs, has s i is_rented);
       (Nft_err N_CannotSetOffchainDataForDelegatedNFTs, has s i is_delegated);
       (Nft_err N_CannotSetOffchainDataForSyncingNFTs, has s i is_syncing_secret);
       (Nft_err N_CannotSetOffchainDataForSyncingCapsules, has s i is_syncing_capsule)]
  | C_notify_enclave_key_update i => not_own_nft s w i ++
      [(Nft_err N_NFTIsNotCapsule, hasnt s i is_capsule);
       (Nft_err N_CannotChangeKeyForListedNFTs, has s i is_listed);
       (Nft_err N_CannotChangeKeyForRentedNFTs, has s i is_rented);
       (Nft_err N_CannotChangeKeyForDelegatedNFTs, has s i is_delegated);
       (Nft_err N_CannotChangeKeyForSyncingNFTs, has s i is_syncing_secret);
       (Nft_err N_CannotChangeKeyForSyncingCapsules, has s i is_syncing_capsule);
       (Nft_err N_CannotChangeKeyForNFTsInTransmission, has s i is_transmission)]
  | C_set_collection_offchaindata k _ => not_own_coll s w k
  | C_set_nft_mint_fee _ | C_set_secret_nft_mint_fee _ | C_set_capsule_mint_fee _ => [(BadOrigin, True)]
  | _ => []
  end.

(** * marketplace *)

Definition mkt_is (s : state) (k : N) (P : marketplace -> Prop) : Prop :=
  exists m, mkts (s_mkt s) !! k = Some m /\ P m.
Definition sale_is (s : state) (i : N) (P : sale -> Prop) : Prop :=
  exists x, sales (s_mkt s) !! i = Some x /\ P x.
Definition not_own_mkt (s : state) (w k : N) : table :=
  [(Market_err M_MarketplaceNotFound, mkts (s_mkt s) !! k = None);
   (Market_err M_NotTheMarketplaceOwner, mkt_is s k (fun m => m_owner m <> w))].
(** Marketplace [k] does not admit NFT [i] of [w]; its flat commission is above the price [p]. *)
Definition not_admitted (s : state) (w i k : N) : Prop :=
  exists d m, nfts (s_nft s) !! i = Some d /\ mkts (s_mkt s) !! k = Some m /\ ~ admits m w (collection_id d).
Definition not_covered (s : state) (k p : N) : Prop :=
  exists m x, mkts (s_mkt s) !! k = Some m /\ m_commission m = Some (Flat x) /\ p < x.

Definition mkt_table (s : state) (w : N) (c : call) : table :=
  match c with
  | C_create_marketplace _ =>
      poor (~ affords s w (mkt_fee (s_mkt s))) ++ [(Panic, u32_max <= next_mkt (s_mkt s))]
  | C_set_marketplace_owner k a =>
      (Market_err M_CannotTransferMarketplaceToYourself, a = w) :: not_own_mkt s w k
  | C_set_marketplace_kind k _ => not_own_mkt s w k
  | C_set_marketplace_configuration k _ _ _ _ _ => not_own_mkt s w k
  | C_set_marketplace_mint_fee _ => [(BadOrigin, True)]
  | C_list_nft i k p =>
      [(Market_err M_NFTNotFound, nfts (s_nft s) !! i = None);
       (Market_err M_NotTheNFTOwner, nft_is s i (fun d => owner d <> w));
       (Market_err M_CannotListAlreadytListedNFTs, has s i is_listed);
       (Market_err M_CannotListDelegatedNFTs, has s i is_delegated);
       (Market_err M_CannotListNotCreatedSoulboundNFTs, nft_is s i bound_to_owner);
       (Market_err M_CannotListNotSyncedSecretNFTs, has s i is_syncing_secret);
       (Market_err M_CannotListRentedNFTs, has s i is_rented);
       (Market_err M_CannotListNotSyncedCapsules, has s i is_syncing_capsule);
       (Market_err M_CannotListNFTsInTransmission, has s i is_transmission);
       (Market_err M_MarketplaceNotFound, mkts (s_mkt s) !! k = None);
       (Market_err M_NotAllowedToList, not_admitted s w i k);
       (Market_err M_PriceCannotCoverMarketplaceFee, not_covered s k p)] ++
      unpayable s w (fun l => exists m fee, mkts (s_mkt s) !! k = Some m /\
        fee_share (m_listing m) p fee /\ l = [(m_owner m, fee)])
  | C_unlist_nft i =>
      [(Market_err M_NFTNotFound, nfts (s_nft s) !! i = None);
       (Market_err M_NotTheNFTOwner, nft_is s i (fun d => owner d <> w));
       (Market_err M_NFTNotForSale, sales (s_mkt s) !! i = None)]
  | C_buy_nft i p =>
      [(Market_err M_NFTNotFound, nfts (s_nft s) !! i = None);
       (Market_err M_NFTNotForSale, sales (s_mkt s) !! i = None);
       (Market_err M_CannotBuyOwnedNFT, sale_is s i (fun x => sale_seller x = w));
       (Market_err M_PriceDoesNotMatch, sale_is s i (fun x => sale_price x <> p));
       (Market_err M_NotEnoughBalanceToBuy, free (s_bal s) w < p)] ++
      unpayable s w (fun l => exists d x m com roy rest, nfts (s_nft s) !! i = Some d /\
        sales (s_mkt s) !! i = Some x /\ mkts (s_mkt s) !! sale_mkt x = Some m /\
        division (sale_commission x) d p com roy rest /\
        l = [(m_owner m, com); (creator d, roy); (sale_seller x, rest)])
  | _ => []
  end.

(** * auction *)

Definition auction_is (s : state) (i : N) (P : auction -> Prop) : Prop :=
  exists a, auctions (s_auc s) !! i = Some a /\ P a.

Definition auc_table (s : state) (w : N) (c : call) : table :=
  match c with
  | C_create_auction i k st e sp bi =>
      [(Auction_err A_AuctionCannotStartInThePast, st < s_now s);
       (Auction_err A_AuctionCannotEndBeforeItHasStarted, e <= st);
       (Auction_err A_AuctionDurationIsTooLong, st + max_auction_duration < e);
       (Auction_err A_AuctionDurationIsTooShort, e < st + min_auction_duration);
       (Auction_err A_AuctionStartIsTooFarAway, s_now s + max_auction_delay < st);
       (Auction_err A_BuyItPriceCannotBeLessOrEqualThanStartPrice, exists p, bi = Some p /\ p <= sp);
       (Auction_err A_NFTNotFound, nfts (s_nft s) !! i = None);
       (Auction_err A_CannotListNotOwnedNFTs, nft_is s i (fun d => owner d <> w));
       (Auction_err A_CannotListListedNFTs, has s i is_listed);
       (Auction_err A_CannotListDelegatedNFTs, has s i is_delegated);
       (Auction_err A_CannotListNotCreatedSoulboundNFTs, nft_is s i bound_to_owner);
       (Auction_err A_CannotListNotSyncedSecretNFTs, has s i is_syncing_secret);
       (Auction_err A_CannotListRentedNFTs, has s i is_rented);
       (Auction_err A_CannotListNotSyncedCapsules, has s i is_syncing_capsule);
       (Auction_err A_CannotListNFTsInTransmission, has s i is_transmission);
       (Auction_err A_MarketplaceNotFound, mkts (s_mkt s) !! k = None);
       (Auction_err A_NotAllowedToList, not_admitted s w i k);
       (Auction_err A_PriceCannotCoverMarketplaceFee, not_covered s k sp);
       (Auction_err A_MaximumAuctionsLimitReached, parallel_auctions <= nlen (deadlines (s_auc s)))]
  | C_cancel_auction i =>
      [(Auction_err A_NFTNotFound, nfts (s_nft s) !! i = None);
       (Auction_err A_AuctionDoesNotExist, auctions (s_auc s) !! i = None);
       (Auction_err A_NotTheAuctionCreator, auction_is s i (fun a => a_creator a <> w));
       (Auction_err A_CannotCancelAuctionInProgress, auction_is s i (fun a => a_start a <= s_now s))]
  | C_end_auction i =>
      [(Auction_err A_NFTNotFound, nfts (s_nft s) !! i = None);
       (Auction_err A_AuctionDoesNotExist, auctions (s_auc s) !! i = None);
       (Auction_err A_NotTheAuctionCreator, auction_is s i (fun a => a_creator a <> w));
       (Auction_err A_CannotEndAuctionThatWasNotExtended, auction_is s i (fun a => a_extended a = false));
       (Auction_err A_CannotEndAuctionWithoutBids, auction_is s i (fun a => a_bidders a = []))] ++
      pot_short s auction_pot (fun p => exists d a l v x m f com roy rest,
        nfts (s_nft s) !! i = Some d /\ auctions (s_auc s) !! i = Some a /\ a_bidders a = l ++ [(v, x)] /\
        mkts (s_mkt s) !! a_mkt a = Some m /\ commissions (s_auc s) !! i = Some f /\
        division f d x com roy rest /\ p = [(m_owner m, com); (creator d, roy); (w, rest)])
  | C_add_bid i y =>
      [(Auction_err A_AuctionDoesNotExist, auctions (s_auc s) !! i = None);
       (Auction_err A_CannotAddBidToYourOwnAuctions, auction_is s i (fun a => a_creator a = w));
       (Auction_err A_AuctionNotStarted, auction_is s i (fun a => s_now s < a_start a));
       (Auction_err A_AmountTooLow, y <= auction_ed);
       (Auction_err A_CannotBidLessThanTheHighestBid,
          auction_is s i (fun a => exists v z, (v, z) ∈ a_bidders a /\ y <= z));
       (Auction_err A_CannotBidLessThanTheStartingPrice,
          auction_is s i (fun a => a_bidders a = [] /\ y <= a_start_price a))] ++
      unpayable s w (fun l => exists a x, auctions (s_auc s) !! i = Some a /\ standing_bid a w x /\
        l = [(auction_pot, y - x)])
  | C_remove_bid i =>
      [(Auction_err A_AuctionDoesNotExist, auctions (s_auc s) !! i = None);
       (Auction_err A_CannotRemoveBidAtTheEndOfAuction,
          auction_is s i (fun a => a_end a <= s_now s + ending_period));
       (Auction_err A_BidDoesNotExist, auction_is s i (fun a => forall x, (w, x) ∉ a_bidders a));
       (Balances_InsufficientBalance,
          auction_is s i (fun a => exists x, (w, x) ∈ a_bidders a /\ free (s_bal s) auction_pot < x))]
  | C_buy_it_now i p =>
      [(Auction_err A_NFTNotFound, nfts (s_nft s) !! i = None);
       (Auction_err A_AuctionDoesNotExist, auctions (s_auc s) !! i = None);
       (Auction_err A_AuctionDoesNotSupportBuyItNow, auction_is s i (fun a => a_buy_it a = None));
       (Auction_err A_PriceDoesNotMatch, auction_is s i (fun a => exists q, a_buy_it a = Some q /\ q <> p));
       (Auction_err A_CannotBuyItNowToYourOwnAuctions, auction_is s i (fun a => a_creator a = w));
       (Auction_err A_AuctionNotStarted, auction_is s i (fun a => s_now s < a_start a));
       (Auction_err A_CannotBuyItWhenABidIsHigherThanBuyItPrice,
          auction_is s i (fun a => exists v z, (v, z) ∈ a_bidders a /\ p <= z))] ++
      unpayable s w (fun l => exists d a m f com roy rest,
        nfts (s_nft s) !! i = Some d /\ auctions (s_auc s) !! i = Some a /\
        mkts (s_mkt s) !! a_mkt a = Some m /\ commissions (s_auc s) !! i = Some f /\
        division f d p com roy rest /\ l = [(m_owner m, com); (creator d, roy); (a_creator a, rest)])
  | C_claim =>
      [(Auction_err A_ClaimDoesNotExist, claims (s_auc s) !! w = None);
       (Balances_InsufficientBalance, exists x, claims (s_auc s) !! w = Some x /\ free (s_bal s) auction_pot < x)]
  | _ => []
  end.

(** * rent *)

Definition contract_is (s : state) (i : N) (P : contract -> Prop) : Prop :=
  exists c, contracts (s_rent s) !! i = Some c /\ P c.
(** The contract of NFT [i] asks the rentee for the NFT [j] as rent; as deposit. *)
Definition asks_rent (s : state) (i : N) (P : N -> Prop) : Prop :=
  contract_is s i (fun c => exists j, r_rent_fee c = RentNFT j /\ P j).
Definition asks_deposit (s : state) (i : N) (P : N -> Prop) : Prop :=
  contract_is s i (fun c => exists j, r_rentee_cf c = FeeNFT j /\ P j).
Definition no_nft (s : state) (j : N) : Prop := nfts (s_nft s) !! j = None.
Definition foreign_nft (s : state) (w j : N) : Prop := nft_is s j (fun d => owner d <> w).
Definition busy_nft (s : state) (j : N) : Prop := nft_is s j (fun d => ~ lendable d).

(** [t] cannot start the contract of NFT [i]. *)
Definition no_start (s : state) (t i : N) : table :=
  [(Rent_err R_NotEnoughFundsForRentFee,
      contract_is s i (fun c => ~ can_pay s t [(r_renter c, token_fee (r_rent_fee c))]));
   (Rent_err R_NotEnoughFundsForCancellationFee,
      contract_is s i (fun c =>
        ~ can_pay s t [(r_renter c, token_fee (r_rent_fee c)); (rent_pot, token_deposit (r_rentee_cf c))]));
   (Rent_err R_RentNFTNotFound, asks_rent s i (no_nft s));
   (Rent_err R_RenteeDoesNotOwnTheRentNFT, asks_rent s i (foreign_nft s t));
   (Rent_err R_RentNFTNotInValidState, asks_rent s i (busy_nft s));
   (Rent_err R_CancellationNFTNotFound, asks_deposit s i (no_nft s));
   (Rent_err R_RenteeDoesNotOwnTheCancellationNFT, asks_deposit s i (foreign_nft s t));
   (Rent_err R_CancellationNFTNotInValidState, asks_deposit s i (busy_nft s))].

Definition not_for_rent (s : state) (i : N) : Prop := contracts (s_rent s) !! i = None.

Definition rent_table (s : state) (w : N) (c : call) : table :=
  match c with
  | C_create_contract i di _ _ fee cf1 cf2 =>
      [(Rent_err R_MaxSimultaneousContractReached, rent_limit <=
          nlen (q_fixed (queues (s_rent s))) + nlen (q_sub (queues (s_rent s))) + nlen (q_avail (queues (s_rent s))));
       (Rent_err R_NFTNotFound, no_nft s i);
       (Rent_err R_NotTheNFTOwner, foreign_nft s w i);
       (Rent_err R_ContractNFTNotInAValidState, busy_nft s i);
       (Rent_err R_DurationExceedsMaximumLimit, duration_limit < total_in di \/ duration_limit < period_in di);
       (Rent_err R_DurationInvalid, total_in di = 0 \/ period_in di = 0);
       (Rent_err R_DurationAndRentFeeMismatch, sub_in di /\ exists j, fee = RentNFT j);
       (Rent_err R_DurationAndCancellationFeeMismatch,
          sub_in di /\ exists x, cf1 = FlexibleTokens x \/ cf2 = FlexibleTokens x);
       (Rent_err R_RentNFTNotFound, exists j, fee = RentNFT j /\ no_nft s j);
       (Rent_err R_CancellationNFTNotFound, exists j, (cf1 = FeeNFT j \/ cf2 = FeeNFT j) /\ no_nft s j);
       (Rent_err R_AmountTooLow, ~ good_deposit cf1 \/ ~ good_deposit cf2);
       (Rent_err R_NotEnoughFundsForCancellationFee, ~ affords s w (token_deposit cf1));
       (Rent_err R_CallerDoesNotOwnCancellationNFT, exists j, cf1 = FeeNFT j /\ foreign_nft s w j);
       (Rent_err R_CancellationNFTNotInValidState, exists j, cf1 = FeeNFT j /\ busy_nft s j)]
  | C_cancel_contract i =>
      [(Rent_err R_ContractNotFound, not_for_rent s i);
       (Rent_err R_NotTheContractOwner, contract_is s i (fun c => r_renter c <> w));
       (Rent_err R_CannotCancelRunningContract, contract_is s i (fun c => is_Some (r_rentee c)));
       (Balances_InsufficientBalance,
          contract_is s i (fun c => free (s_bal s) rent_pot < token_deposit (r_renter_cf c)))]
  | C_revoke_contract i =>
      [(Rent_err R_ContractNotFound, not_for_rent s i);
       (Rent_err R_CannotRevokeNonRunningContract, contract_is s i (fun c => r_rentee c = None));
       (Rent_err R_NotAContractParticipant, contract_is s i (fun c => r_renter c <> w /\ r_rentee c <> Some w));
       (Rent_err R_ContractCannotBeCanceledByRenter,
          contract_is s i (fun c => r_renter c = w /\ r_can_revoke c = false))] ++
      pot_short s rent_pot (fun l => exists c other own theirs x, contracts (s_rent s) !! i = Some c /\
        revokes c w other own theirs /\ kept_share c (s_now s) own x /\
        l = [(other, token_deposit theirs); (w, x); (other, token_deposit own - x)])
  | C_rent i b =>
      [(Rent_err R_ContractNotFound, not_for_rent s i);
       (Rent_err R_ContractDoesNotMatch, contract_is s i (fun c => r_creation c <> b));
       (Rent_err R_CannotRentStartedContract, contract_is s i (fun c => is_Some (r_rentee c)));
       (Rent_err R_CannotRentOwnContract, contract_is s i (fun c => r_renter c = w));
       (Rent_err R_ContractDoesNotSupportAutomaticRent, contract_is s i manual);
       (Rent_err R_NotWhitelisted, contract_is s i (fun c => ~ invited c w))] ++
      no_start s w i
  | C_make_rent_offer i b =>
      [(Rent_err R_OfferAlreadyExists, offered s i w);
       (Rent_err R_ContractNotFound, not_for_rent s i);
       (Rent_err R_ContractDoesNotMatch, contract_is s i (fun c => r_creation c <> b));
       (Rent_err R_CannotMakeOfferOnRunningContract, contract_is s i (fun c => is_Some (r_rentee c)));
       (Rent_err R_CannotRentOwnContract, contract_is s i (fun c => r_renter c = w));
       (Rent_err R_ContractDoesNotSupportOffers, contract_is s i automatic);
       (Rent_err R_NotWhitelisted, contract_is s i (fun c => ~ invited c w));
       (Rent_err R_NotEnoughFundsForRentFee,
          contract_is s i (fun c => ~ has_unlocked s w (token_fee (r_rent_fee c))));
       (Rent_err R_NotEnoughFundsForCancellationFee,
          contract_is s i (fun c => ~ has_unlocked s w (token_deposit (r_rentee_cf c))));
       (Rent_err R_NotEnoughFundsForFees,
          contract_is s i (fun c =>
            ~ has_unlocked s w ((token_fee (r_rent_fee c) + token_deposit (r_rentee_cf c)) mod (u128_max + 1))));
       (Rent_err R_RentNFTNotFound, asks_rent s i (no_nft s));
       (Rent_err R_CallerDoesNotOwnRentNFT, asks_rent s i (foreign_nft s w));
       (Rent_err R_RentNFTNotInValidState, asks_rent s i (busy_nft s));
       (Rent_err R_CancellationNFTNotFound, asks_deposit s i (no_nft s));
       (Rent_err R_CallerDoesNotOwnCancellationNFT, asks_deposit s i (foreign_nft s w));
       (Rent_err R_CancellationNFTNotInValidState, asks_deposit s i (busy_nft s));
       (Rent_err R_MaximumOffersReached, rent_accounts_limit <= nlen (default [] (offers (s_rent s) !! i)))]
  | C_accept_rent_offer i t =>
      [(Rent_err R_ContractNotFound, not_for_rent s i);
       (Rent_err R_NoOffersForThisContract, forall v, ~ offered s i v);
       (Rent_err R_NotTheContractOwner, contract_is s i (fun c => r_renter c <> w));
       (Rent_err R_NoOfferFromThisAddress, is_Some (offers (s_rent s) !! i) /\ ~ offered s i t)] ++
      no_start s t i
  | C_retract_rent_offer i =>
      [(Rent_err R_NoOffersForThisContract, forall v, ~ offered s i v);
       (Rent_err R_NoOfferFromThisAddress, is_Some (offers (s_rent s) !! i) /\ ~ offered s i w)]
  | C_change_subscription_terms i _ p md _ =>
      [(Rent_err R_ContractNotFound, not_for_rent s i);
       (Rent_err R_NotTheContractOwner, contract_is s i (fun c => r_renter c <> w));
       (Rent_err R_CannotAdjustSubscriptionTerms, contract_is s i (fun c => ~ changeable (r_duration c)));
       (Rent_err R_DurationExceedsMaximumLimit, duration_limit < p \/ exists m, md = Some m /\ duration_limit < m);
       (Rent_err R_DurationInvalid, p = 0 \/ default duration_limit md = 0)]
  | C_accept_subscription_terms i fee p md ch =>
      [(Rent_err R_ContractNotFound, not_for_rent s i);
       (Rent_err R_SubscriptionDataNotFound, contract_is s i (fun c => exists n, r_duration c = Fixed n));
       (Rent_err R_NotTheContractRentee, contract_is s i (fun c => r_rentee c <> Some w));
       (Rent_err R_ContractTermsAlreadyAccepted,
          contract_is s i (fun c => exists x, r_duration c = Subscription x /\ new_terms x = false));
       (Rent_err R_ContractTermsDoNotMatch,
          contract_is s i (fun c => exists x, r_duration c = Subscription x /\
            (r_rent_fee c <> RentTokens fee \/ period_length x <> p \/
             (exists m, md = Some m /\ max_duration x <> m) \/ is_changeable x <> ch)))]
  | _ => []
  end.

(** * transmission *)

Definition trans_table (s : state) (w : N) (c : call) : table :=
  match c with
  | C_set_transmission_protocol i r p cn =>
      [(Trans_err T_CannotCancelTransmissionInThePast, exists b, cn = UntilBlock b /\ b <= s_now s);
       (Trans_err T_NFTNotFound, no_nft s i);
       (Trans_err T_NotTheNFTOwner, foreign_nft s w i);
       (Trans_err T_InvalidRecipient, r = w);
       (Trans_err T_CannotSetTransmissionForListedNFTs, has s i is_listed);
       (Trans_err T_CannotSetTransmissionForDelegatedNFTs, has s i is_delegated);
       (Trans_err T_CannotSetTransmissionForRentedNFTs, has s i is_rented);
       (Trans_err T_CannotSetTransmissionForNotCreatedSoulboundNFTs, nft_is s i bound_to_owner);
       (Trans_err T_CannotSetTransmissionForSyncingSecretNFTs, has s i is_syncing_secret);
       (Trans_err T_CannotSetTransmissionForSyncingCapsules, has s i is_syncing_capsule);
       (Trans_err T_CannotSetTransmissionForNFTsInTransmission, has s i is_transmission);
       (Trans_err T_CannotSetTransmissionInThePast, exists b, block_of p = Some b /\ b <= s_now s);
       (Trans_err T_TransmissionIsInTooMuchTime,
          exists b, block_of p = Some b /\ max_block_duration < N.min (b - s_now s) u32_max);
       (Trans_err T_DuplicatesInConsentList, exists l k, asks p l k /\ ~ NoDup l);
       (Trans_err T_ThresholdTooLow, exists l, asks p l 0);
       (Trans_err T_ThresholdTooHigh, exists l k, asks p l k /\ consent_limit < k);
       (Trans_err T_InvalidConsentList, exists l k, asks p l k /\ nlen l < k);
       (Trans_err T_SimultaneousTransmissionLimitReached,
          (exists b, timed p b) /\ trans_limit <= nlen (t_queue (s_trans s)))] ++
      poor (~ affords s w (fee_for s p))
  | C_remove_transmission_protocol i =>
      [(Trans_err T_NFTNotFound, no_nft s i);
       (Trans_err T_NotTheNFTOwner, foreign_nft s w i);
       (Trans_err T_NFTIsNotInTransmission, forall t, ~ under s i t);
       (Trans_err T_ProtocolIsNotCancellable,
          exists t, under s i t /\ ~ may_cancel (t_cancellation t) (s_now s))]
  | C_reset_timer i b =>
      [(Trans_err T_NFTNotFound, no_nft s i);
       (Trans_err T_NotTheNFTOwner, foreign_nft s w i);
       (Trans_err T_NFTIsNotInTransmission, forall t, ~ under s i t);
       (Trans_err T_ProtocolTimerCannotBeReset,
          exists t, under s i t /\ forall b0, t_protocol t <> AtBlockWithReset b0);
       (Trans_err T_CannotSetTransmissionInThePast, b <= s_now s);
       (Trans_err T_TransmissionIsInTooMuchTime, max_block_duration < N.min (b - s_now s) u32_max)]
  | C_add_consent i =>
      [(Trans_err T_NFTNotFound, no_nft s i);
       (Trans_err T_NFTIsNotInTransmission, forall t, ~ under s i t);
       (Trans_err T_ProtocolDoesNotAcceptConsent, exists t, under s i t /\ forall l k, ~ asks (t_protocol t) l k);
       (Trans_err T_ConsentAlreadyReachedThreshold,
          exists t l k b b', under s i t /\ t_protocol t = OnConsentAtBlock l k b /\ waits s i b');
       (Trans_err T_ConsentNotAllowed, exists t l k, under s i t /\ asks (t_protocol t) l k /\ w ∉ l);
       (Trans_err T_AlreadyAddedConsent, w ∈ consents_of s i);
       (Trans_err T_ConsentListFull, consent_limit <= nlen (consents_of s i));
       (Trans_err T_SimultaneousTransmissionLimitReached,
          exists t l k b, under s i t /\ t_protocol t = OnConsentAtBlock l k b /\ s_now s < b /\
            k <= nlen (consents_of s i) + 1 /\ trans_limit <= nlen (t_queue (s_trans s)))]
  | C_set_protocol_fee _ _ => [(BadOrigin, True)]
  | _ => []
  end.

(** * tee *)

Definition tee_table (s : state) (w : N) (c : call) : table :=
  match c with
  | C_register_enclave a u =>
      [(Tee_err E_ApiUriIsEmpty, u = []);
       (Tee_err E_OperatorAndEnclaveAreSame, a = w);
       (Tee_err E_RegistrationAlreadyExists, waiting s w);
       (Tee_err E_OperatorAlreadyExists, assigned s w);
       (Tee_err E_EnclaveAddressAlreadyExists, ~ free_address s a);
       (Tee_err E_UnbondingPeriod, is_Some (staked s w));
       (Tee_err E_InsufficientBalanceToBond, free (s_bal s) w < staking_amount (s_tee s));
       (Balances_LiquidityRestrictions, ~ has_unlocked s w (staking_amount (s_tee s)))]
  | C_unregister_enclave =>
      [(Tee_err E_RegistrationNotFound, ~ waiting s w /\ ~ assigned s w);
       (Tee_err E_UnregistrationAlreadyExists, leaving s w);
       (Tee_err E_UnregistrationLimitReached, assigned s w /\ list_limit <= nlen (unregs (s_tee s)))]
  | C_update_enclave a u =>
      [(Tee_err E_ApiUriIsEmpty, u = []);
       (Tee_err E_OperatorAndEnclaveAreSame, a = w);
       (Tee_err E_UpdateProhibitedForUnassignedEnclave, ~ assigned s w);
       (Tee_err E_UpdateRequestAlreadyExists, updating s w);
       (Tee_err E_EnclaveAddressAlreadyExists, ~ enclave_at s w a /\ ~ free_address s a)]
  | C_cancel_update => [(Tee_err E_UpdateRequestNotFound, ~ updating s w)]
  | C_withdraw_unbonded =>
      [(Tee_err E_StakingNotFound, staked s w = None);
       (Tee_err E_UnbondingNotStarted, forall b, ~ unbonding s w b);
       (Tee_err E_WithdrawProhibited,
          exists b, unbonding s w b /\ N.min (s_now s - b) u32_max < bonding_duration)]
  | C_submit_metrics_server_report op r =>
      [(Tee_err E_MetricsServerAddressNotFound, w ∉ (servers (s_tee s)).*1);
       (Tee_err E_MetricsServerUnsupportedClusterType, w ∈ (servers (s_tee s)).*1 /\ ~ public_server s w);
       (Tee_err E_EnclaveNotFoundForTheOperator, ~ assigned s op);
       (Tee_err E_FailedToGetActiveEra, s_era s = None);
       (Tee_err E_MetricsReportsLimitReached,
          exists active, s_era s = Some active /\
            rp_submitted_by r ∉ map rp_submitted_by (reports_of s (active - 1) op) /\
            list_limit <= nlen (reports_of s (active - 1) op))]
  | C_claim_rewards e =>
      [(Tee_err E_RewardsAlreadyClaimedForEra, is_Some (claimed (s_tee s) !! (e, w)));
       (Tee_err E_FailedToGetActiveEra, s_era s = None);
       (Tee_err E_OperatorAssignedEraNotFound, ~ assigned s w);
       (Tee_err E_InvalidEraToClaimRewards,
          exists active since, s_era s = Some active /\ assigned_era (s_tee s) !! w = Some since /\
            (e < since \/ e = 0 \/ active <= e + 2 \/ e + history_depth <= active))] ++
      pot_short s tee_pot (fun l => exists x, reward s w e x /\ l = [(w, x)])
  | C_bond_extra =>
      [(Tee_err E_StakingNotFound, staked s w = None);
       (Tee_err E_BondExtraNotAllowed, exists n, staked s w = Some n /\ staking_amount (s_tee s) <= n);
       (Tee_err E_InsufficientBalanceToBond,
          exists n, staked s w = Some n /\ free (s_bal s) w < staking_amount (s_tee s) - n);
       (Balances_LiquidityRestrictions,
          exists n, staked s w = Some n /\ ~ has_unlocked s w (staking_amount (s_tee s) - n))]
  | C_refund_excess =>
      [(Tee_err E_StakingNotFound, staked s w = None);
       (Tee_err E_RefundExcessNotAllowed, exists n, staked s w = Some n /\ n <= staking_amount (s_tee s))]
  | _ => []
  end.

(** * bridge *)

Definition bridge_table (s : state) (w : N) (c : call) : table :=
  match c with
  | C_vote_for_proposal ch n r m =>
      [(Bridge_err B_MustBeRelayer, w ∉ relayers (s_brg s));
       (Bridge_err B_ChainNotAllowed, ~ known_chain s ch);
       (Bridge_err B_ProposalAlreadyCompleted, exists p, proposed s ch n r m p /\ p_status p = Approved);
       (Bridge_err B_ProposalExpired, exists p, proposed s ch n r m p /\ p_expiry p <= s_now s);
       (Bridge_err B_RelayerAlreadyVoted, exists p, proposed s ch n r m p /\ w ∈ p_votes p);
       (Bridge_err B_MaximumVoteLimitExceeded,
          relayer_limit = 0 \/ exists p, proposed s ch n r m p /\ relayer_limit <= nlen (p_votes p))]
  | C_deposit m _ ch =>
      let fee := bridge_fee (s_brg s) in
      [(Bridge_err B_ChainNotAllowed, ~ known_chain s ch);
       (Bridge_err B_InsufficientBalance, free (s_bal s) w < fee + m)] ++
      poor (~ affords s w fee \/
            (m <> 0 /\ (free (s_bal s) w < fee + m \/
                        (frozen (s_bal s) w <> 0 /\ free (s_bal s) w < fee + m + N.max ed (frozen (s_bal s) w)))))
  | _ => []
  end.

(** * administration *)

(** The calls of root, made by root. *)
Definition root_table (s : state) (c : call) : table :=
  match c with
  | C_assign_enclave op k _ =>
      [(Tee_err E_RegistrationNotFound, ~ waiting s op);
       (Tee_err E_ClusterNotFound, ~ exists_cluster s k);
       (Tee_err E_ClusterIsFull, exists l, cluster_ops s k = Some l /\ cluster_size <= nlen l);
       (Tee_err E_EnclaveAddressAlreadyExists,
          exists r, regs (s_tee s) !! op = Some r /\ ~ free_address s (e_addr r));
       (Tee_err E_FailedToGetActiveEra, s_era s = None)]
  | C_remove_registration op => [(Tee_err E_RegistrationNotFound, ~ waiting s op)]
  | C_reject_update op => [(Tee_err E_UpdateRequestNotFound, ~ updating s op)]
  | C_approve_enclave_unregistration op => [(Tee_err E_UnregistrationNotFound, ~ leaving s op)]
  | C_force_remove_enclave op =>
      [(Tee_err E_EnclaveNotFound, ~ assigned s op); (Tee_err E_StakingNotFound, staked s op = None)]
  | C_approve_update_enclave op =>
      [(Tee_err E_UpdateRequestNotFound, ~ updating s op);
       (Tee_err E_ApiUriIsEmpty, exists u, updates (s_tee s) !! op = Some u /\ e_uri u = []);
       (Tee_err E_OperatorAndEnclaveAreSame, exists u, updates (s_tee s) !! op = Some u /\ e_addr u = op);
       (Tee_err E_EnclaveAddressAlreadyExists,
          exists u, updates (s_tee s) !! op = Some u /\ ~ enclave_at s op (e_addr u) /\ ~ free_address s (e_addr u))]
  | C_force_update_enclave op a u =>
      [(Tee_err E_NoUpdatesProvided, a = None /\ u = None);
       (Tee_err E_EnclaveNotFound, ~ assigned s op);
       (Tee_err E_OperatorAndEnclaveAreSame, a = Some op);
       (Tee_err E_EnclaveAddressAlreadyExists, exists x, a = Some x /\ ~ enclave_at s op x /\ ~ free_address s x);
       (Tee_err E_ApiUriIsEmpty, u = Some [])]
  | C_create_cluster _ => [(Panic, u32_max <= next_cluster (s_tee s))]
  | C_update_cluster k _ => [(Tee_err E_ClusterNotFound, ~ exists_cluster s k)]
  | C_remove_cluster k =>
      [(Tee_err E_ClusterNotFound, ~ exists_cluster s k);
       (Tee_err E_ClusterIsNotEmpty, exists x l, cluster_ops s k = Some (x :: l))]
  | C_register_metrics_server a _ =>
      [(Tee_err E_MetricsServerAlreadyExists, a ∈ (servers (s_tee s)).*1);
       (Tee_err E_MetricsServerLimitReached, list_limit <= nlen (servers (s_tee s)))]
  | C_unregister_metrics_server a | C_force_update_metrics_server_type a _ =>
      [(Tee_err E_MetricsServerNotFound, a ∉ (servers (s_tee s)).*1)]
  | C_update_operator_assigned_era op _ => [(Tee_err E_OperatorAssignedEraNotFound, ~ assigned s op)]
  | _ => []
  end.

(** The calls of the external origin, made by it. *)
Definition external_table (s : state) (c : call) : table :=
  match c with
  | C_set_threshold n => [(Bridge_err B_ThresholdCannotBeZero, n = 0)]
  | C_add_chain k =>
      [(Bridge_err B_CannotAddSelfToAllowedChainList, k = own_chain);
       (Bridge_err B_ChainAlreadyWhitelisted, known_chain s k)]
  | C_set_deposit_nonce k n =>
      [(Bridge_err B_ChainNotFound, ~ known_chain s k);
       (Bridge_err B_NewNonceTooLow, exists m, nonces (s_brg s) !! k = Some m /\ n <= m)]
  | _ => []
  end.

End reasons.

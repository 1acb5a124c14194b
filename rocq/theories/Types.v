(** Data types of the model: errors, pallet data, events, calls.

    Conventions, used in every file of the model:
    - account ids, NFT / collection / marketplace / cluster ids, block numbers,
      balances, eras, nonces and weights are all [N]; the range of each argument
      is enforced where the runtime decodes it ([Runtime.wf_call]), and wrapping or
      saturating arithmetic is written out where the Rust code has it;
    - a [BoundedVec] is a [list]; the bound is a field of [Config] and is checked
      where the Rust code calls [try_push] / [try_insert] / decodes it;
    - bytes ([U8BoundedVec]) are [list N]. *)
From Coq Require Export NArith.
From stdpp Require Export list gmap.
From RecordUpdate Require Export RecordSet.
Export RecordSetNotations.
Local Open Scope N_scope.

(** models [U8BoundedVec] (primitives/src/common.rs:25); the bound is checked in [Runtime.wf_call]. *)
Definition bytes := list N.

(** Length of a list as an [N] (no counterpart; Rust: [.len()]). *)
Definition nlen {A} (l : list A) : N := N.of_nat (length l).

(** Membership test on lists of ids/accounts (Rust: [.contains]). *)
Definition memN (x : N) (l : list N) : bool := existsb (N.eqb x) l.

(** * Errors of the pallets *)

(** models nft/src/lib.rs:283-434 *)
Inductive nft_error :=
| N_CannotTransferListedNFTs
| N_CannotBurnListedNFTs
| N_CannotDelegateListedNFTs
| N_CannotSetRoyaltyForListedNFTs
| N_CannotTransferDelegatedNFTs
| N_CannotTransferNotSyncedSecretNFTs
| N_CannotBurnDelegatedNFTs
| N_CannotSetRoyaltyForDelegatedNFTs
| N_CannotTransferNotCreatedSoulboundNFTs
| N_CannotTransferNFTsToYourself
| N_CannotTransferRentedNFTs
| N_CannotBurnRentedNFTs
| N_CannotSetRoyaltyForRentedNFTs
| N_CannotSetRoyaltyForSyncingNFTs
| N_CannotDelegateRentedNFTs
| N_CannotDelegateSyncingNFTs
| N_CollectionLimitExceededMaximumAllowed
| N_NFTNotFound
| N_NFTNotFoundInCollection
| N_NFTBelongToACollection
| N_NotTheNFTOwner
| N_NotTheNFTCreator
| N_NotTheCollectionOwner
| N_CollectionNotFound
| N_CollectionIsClosed
| N_CollectionHasReachedLimit
| N_CollectionIsNotEmpty
| N_CollectionLimitAlreadySet
| N_CollectionHasTooManyNFTs
| N_CannotAddMoreNFTsToCollection
| N_NotARegisteredEnclave
| N_NFTIsNotSecret
| N_NFTAlreadySynced
| N_NFTHasReceivedAllShards
| N_EnclaveAlreadyAddedShard
| N_InsufficientBalance
| N_CannotAddSecretToListedNFTs
| N_CannotAddSecretToSecretNFTs
| N_CannotAddSecretToRentedNFTs
| N_CannotAddSecretToDelegatedNFTs
| N_ShareNotFromValidCluster
| N_CannotBurnNFTsInTransmission
| N_CannotTransferNotSyncedCapsules
| N_CannotTransferNFTsInTransmission
| N_CannotDelegateSyncingCapsules
| N_CannotDelegateNFTsInTransmission
| N_CannotSetRoyaltyForSyncingCapsules
| N_CannotSetRoyaltyForNFTsInTransmission
| N_CannotAddSecretToSyncingCapsules
| N_CannotAddSecretToNFTsInTransmission
| N_CannotConvertListedNFTs
| N_CannotConvertCapsules
| N_CannotConvertRentedNFTs
| N_CannotConvertDelegatedNFTs
| N_CannotConvertSyncingNFTs
| N_CannotConvertNFTsInTransmission
| N_NFTIsNotCapsule
| N_CannotRevertListedNFTs
| N_CannotRevertRentedNFTs
| N_CannotRevertDelegatedNFTs
| N_CannotRevertSyncingNFTs
| N_CannotRevertNFTsInTransmission
| N_CannotSetOffchainDataForListedNFTs
| N_CannotSetOffchainDataForRentedNFTs
| N_CannotSetOffchainDataForDelegatedNFTs
| N_CannotSetOffchainDataForSyncingNFTs
| N_CannotSetOffchainDataForSyncingCapsules
| N_CapsuleHasReceivedAllShards
| N_CannotChangeKeyForListedNFTs
| N_CannotChangeKeyForRentedNFTs
| N_CannotChangeKeyForDelegatedNFTs
| N_CannotChangeKeyForSyncingNFTs
| N_CannotChangeKeyForSyncingCapsules
| N_CannotChangeKeyForNFTsInTransmission
.

(** models marketplace/src/lib.rs:184-225 *)
Inductive mkt_error :=
| M_NotAllowedToList
| M_CannotListDelegatedNFTs
| M_CannotListNotCreatedSoulboundNFTs
| M_CannotBuyOwnedNFT
| M_CannotTransferMarketplaceToYourself
| M_CannotListAlreadytListedNFTs
| M_PriceCannotCoverMarketplaceFee
| M_MarketplaceNotFound
| M_NFTNotFound
| M_NotTheNFTOwner
| M_NotTheMarketplaceOwner
| M_NFTNotForSale
| M_MarketpalceIdOverflow
| M_InternalMathError
| M_NotEnoughBalanceToBuy
| M_CannotListNotSyncedSecretNFTs
| M_CannotListRentedNFTs
| M_CannotListNotSyncedCapsules
| M_CannotListNFTsInTransmission
| M_PriceDoesNotMatch
.

(** models auction/src/lib.rs:259-336 *)
Inductive auc_error :=
| A_AuctionNotStarted
| A_AuctionDoesNotExist
| A_AuctionCommissionDoesNotExist
| A_AuctionDoesNotSupportBuyItNow
| A_AuctionCannotStartInThePast
| A_AuctionCannotEndBeforeItHasStarted
| A_AuctionDurationIsTooLong
| A_AuctionDurationIsTooShort
| A_AuctionStartIsTooFarAway
| A_BuyItPriceCannotBeLessOrEqualThanStartPrice
| A_BidDoesNotExist
| A_CannotAddBidToYourOwnAuctions
| A_CannotBuyItNowToYourOwnAuctions
| A_CannotCancelAuctionInProgress
| A_CannotBidLessThanTheHighestBid
| A_CannotBidLessThanTheStartingPrice
| A_CannotBuyItWhenABidIsHigherThanBuyItPrice
| A_CannotRemoveBidAtTheEndOfAuction
| A_CannotEndAuctionThatWasNotExtended
| A_CannotListListedNFTs
| A_CannotListNotOwnedNFTs
| A_CannotListDelegatedNFTs
| A_CannotListNotCreatedSoulboundNFTs
| A_CannotListRentedNFTs
| A_ClaimDoesNotExist
| A_NFTNotFound
| A_NotTheAuctionCreator
| A_MarketplaceNotFound
| A_MaximumAuctionsLimitReached
| A_MaximumBidLimitReached
| A_PriceCannotCoverMarketplaceFee
| A_NotAllowedToList
| A_CannotEndAuctionWithoutBids
| A_CannotListNotSyncedSecretNFTs
| A_AmountTooLow
| A_CannotListNotSyncedCapsules
| A_CannotListNFTsInTransmission
| A_PriceDoesNotMatch
.

(** models rent/src/lib.rs:191-278 *)
Inductive rent_error :=
| R_NFTNotFound
| R_RentNFTNotFound
| R_CancellationNFTNotFound
| R_NotAContractParticipant
| R_CannotRevokeNonRunningContract
| R_CannotCancelRunningContract
| R_ContractCannotBeCanceledByRenter
| R_ContractDoesNotSupportAutomaticRent
| R_ContractDoesNotSupportOffers
| R_NotWhitelisted
| R_CallerDoesNotOwnRentNFT
| R_CallerDoesNotOwnCancellationNFT
| R_RenteeDoesNotOwnTheRentNFT
| R_RenteeDoesNotOwnTheCancellationNFT
| R_NotEnoughFundsForRentFee
| R_NotEnoughFundsForCancellationFee
| R_NotEnoughFundsForFees
| R_NotTheContractOwner
| R_NotTheContractRentee
| R_ContractNFTNotInAValidState
| R_RentNFTNotInValidState
| R_CancellationNFTNotInValidState
| R_NotTheNFTOwner
| R_MaxSimultaneousContractReached
| R_ContractNotFound
| R_CannotRentStartedContract
| R_CannotRentOwnContract
| R_MaximumOffersReached
| R_ContractTermsAlreadyAccepted
| R_NoOffersForThisContract
| R_NoOfferFromThisAddress
| R_DurationAndRentFeeMismatch
| R_DurationAndCancellationFeeMismatch
| R_CannotAdjustSubscriptionTerms
| R_ContractIsNotRunning
| R_DurationExceedsMaximumLimit
| R_DurationInvalid
| R_AmountTooLow
| R_ContractDoesNotMatch
| R_SubscriptionDataNotFound
| R_ContractTermsDoNotMatch
| R_CannotMakeOfferOnRunningContract
| R_OfferAlreadyExists
.

(** models transmission-protocols/src/lib.rs:247-302 *)
Inductive trans_error :=
| T_TransmissionNotFound
| T_NFTNotFound
| T_NotTheNFTOwner
| T_InvalidRecipient
| T_CannotCancelTransmissionInThePast
| T_CannotSetTransmissionForListedNFTs
| T_CannotSetTransmissionForDelegatedNFTs
| T_CannotSetTransmissionForRentedNFTs
| T_CannotSetTransmissionForNotCreatedSoulboundNFTs
| T_CannotSetTransmissionForSyncingSecretNFTs
| T_CannotSetTransmissionForSyncingCapsules
| T_CannotSetTransmissionForNFTsInTransmission
| T_CannotSetTransmissionInThePast
| T_TransmissionIsInTooMuchTime
| T_SimultaneousTransmissionLimitReached
| T_NFTIsNotInTransmission
| T_ProtocolIsNotCancellable
| T_ProtocolTimerCannotBeReset
| T_ProtocolDoesNotAcceptConsent
| T_ConsentAlreadyReachedThreshold
| T_AlreadyAddedConsent
| T_ConsentListFull
| T_ThresholdTooHigh
| T_ThresholdTooLow
| T_InvalidConsentList
| T_DuplicatesInConsentList
| T_ConsentNotAllowed
.

(** models tee/src/lib.rs:379-458 *)
Inductive tee_error :=
| E_EnclaveNotFound
| E_RegistrationAlreadyExists
| E_OperatorAlreadyExists
| E_EnclaveAddressAlreadyExists
| E_UnregistrationAlreadyExists
| E_UnregistrationLimitReached
| E_RegistrationNotFound
| E_EnclaveAddressNotFound
| E_SlotIdNotFound
| E_ClusterNotFound
| E_ClusterIdNotFound
| E_ClusterIsNotEmpty
| E_ClusterIsFull
| E_ApiUriIsEmpty
| E_OperatorAndEnclaveAreSame
| E_UpdateRequestAlreadyExists
| E_UpdateRequestNotFound
| E_UpdateProhibitedForUnassignedEnclave
| E_StakingNotFound
| E_UnbondingNotStarted
| E_WithdrawProhibited
| E_MetricsServerAlreadyExists
| E_MetricsServerNotFound
| E_MetricsServerLimitReached
| E_MetricsServerAddressNotFound
| E_MetricsServerUnsupportedClusterType
| E_EnclaveNotFoundForTheOperator
| E_UnregistrationNotFound
| E_FailedToGetActiveEra
| E_MetricsReportsLimitReached
| E_InvalidEraToClaimRewards
| E_RewardsAlreadyClaimedForEra
| E_InsufficientBalanceToBond
| E_OperatorAssignedEraNotFound
| E_BondExtraNotAllowed
| E_RefundExcessNotAllowed
| E_NoUpdatesProvided
| E_UnbondingPeriod
.

(** models bridge/src/lib.rs:173-198 *)
Inductive brg_error :=
| B_CannotAddSelfToAllowedChainList
| B_ChainAlreadyWhitelisted
| B_ChainNotFound
| B_ChainNotAllowed
| B_InsufficientBalance
| B_MaximumVoteLimitExceeded
| B_MustBeRelayer
| B_NewNonceTooLow
| B_ProposalAlreadyCompleted
| B_ProposalExpired
| B_RelayerAlreadyVoted
| B_ThresholdCannotBeZero
.


(** Every error the model can produce.  [Balances_*] are the currency errors of
    pallet-balances (not in /repo; see Balances.v), [BadOrigin] is FRAME's,
    [DecodeError] stands for an extrinsic the runtime cannot decode, and [Panic] is a
    Rust panic ([expect], index out of bounds, division by zero). *)
Inductive error :=
| BadOrigin
| DecodeError
| Panic
| Balances_InsufficientBalance
| Balances_LiquidityRestrictions
| Balances_KeepAlive
| Balances_ExistentialDeposit
| Balances_Overflow
| Nft_err (e : nft_error)
| Market_err (e : mkt_error)
| Auction_err (e : auc_error)
| Rent_err (e : rent_error)
| Trans_err (e : trans_error)
| Tee_err (e : tee_error)
| Bridge_err (e : brg_error).

(** * primitives/src/nfts.rs *)

(** models primitives/src/nfts.rs:53-72 ([NFTState]) *)
Record nft_state := mkNftState {
  is_capsule : bool;
  is_listed : bool;
  is_secret : bool;
  is_delegated : bool;
  is_soulbound : bool;
  is_syncing_secret : bool;
  is_rented : bool;
  is_syncing_capsule : bool;
  is_transmission : bool
}.

(** models primitives/src/nfts.rs:112-130 ([NFTData]) *)
Record nft_data := mkNft {
  owner : N;
  creator : N;
  offchain_data : bytes;
  collection_id : option N;
  royalty : N;
  nstate : nft_state
}.

(** models primitives/src/nfts.rs:239-255 ([Collection]) *)
Record collection := mkColl {
  c_owner : N;
  c_offchain : bytes;
  c_nfts : list N;
  c_limit : option N;
  c_closed : bool
}.

Global Instance eta_nft_state : Settable _ := settable! mkNftState
  <is_capsule; is_listed; is_secret; is_delegated; is_soulbound; is_syncing_secret;
   is_rented; is_syncing_capsule; is_transmission>.
Global Instance eta_nft_data : Settable _ := settable! mkNft
  <owner; creator; offchain_data; collection_id; royalty; nstate>.
Global Instance eta_collection : Settable _ := settable! mkColl
  <c_owner; c_offchain; c_nfts; c_limit; c_closed>.

(** * primitives/src/marketplace.rs *)

(** models primitives/src/marketplace.rs:31-34 ([MarketplaceType]) *)
Inductive mkt_kind := Public | Private.

(** models primitives/src/common.rs:40-43 ([CompoundFee]); the percentage is the number of
    parts per million of the [Permill]. *)
Inductive compound_fee := Flat (x : N) | Percentage (p : N).

(** models primitives/src/common.rs:29-36 ([ConfigOp]) *)
Inductive config_op (A : Type) := Noop | SetTo (a : A) | RemoveIt.
Arguments Noop {A}.
Arguments SetTo {A} a.
Arguments RemoveIt {A}.

(** models primitives/src/marketplace.rs:41-61 ([MarketplaceData]) *)
Record marketplace := mkMarket {
  m_owner : N;
  m_kind : mkt_kind;
  m_commission : option compound_fee;
  m_listing : option compound_fee;
  m_accounts : option (list N);
  m_offchain : option bytes;
  m_collections : option (list N)
}.
Global Instance eta_marketplace : Settable _ := settable! mkMarket
  <m_owner; m_kind; m_commission; m_listing; m_accounts; m_offchain; m_collections>.

(** models marketplace/src/types.rs:27-36 ([Sale]) *)
Record sale := mkSale {
  sale_seller : N;
  sale_mkt : N;
  sale_price : N;
  sale_commission : option compound_fee
}.

(** * auction/src/types.rs *)

(** models auction/src/types.rs:29-53 ([AuctionData]); [bidders] is the raw list of
    [BidderList] (134-141), lowest bid first. *)
Record auction := mkAuction {
  a_creator : N;
  a_start : N;
  a_end : N;
  a_start_price : N;
  a_buy_it : option N;
  a_bidders : list (N * N);
  a_mkt : N;
  a_extended : bool
}.
Global Instance eta_auction : Settable _ := settable! mkAuction
  <a_creator; a_start; a_end; a_start_price; a_buy_it; a_bidders; a_mkt; a_extended>.

(** * rent/src/types.rs *)

(** models rent/src/types.rs:56-62 ([Subscription]) *)
Record subscription := mkSub {
  period_length : N;
  max_duration : N;
  is_changeable : bool;
  new_terms : bool
}.
Global Instance eta_subscription : Settable _ := settable! mkSub
  <period_length; max_duration; is_changeable; new_terms>.

(** models rent/src/types.rs:66-69 ([Duration]) *)
Inductive duration := Fixed (n : N) | Subscription (s : subscription).

(** models rent/src/types.rs:29-40 ([SubscriptionInput], [DurationInput]) *)
Inductive duration_input :=
| FixedIn (n : N)
| SubscriptionIn (period : N) (max_dur : option N) (changeable : bool).

(** models rent/src/types.rs:136-139 ([AcceptanceType]) *)
Inductive acceptance := AutoAcceptance (l : option (list N)) | ManualAcceptance (l : option (list N)).

(** models rent/src/types.rs:152-158 ([RentFee]) *)
Inductive rent_fee := RentTokens (x : N) | RentNFT (id : N).

(** models rent/src/types.rs:181-189 ([CancellationFee]) *)
Inductive cancel_fee := NoFee | FixedTokens (x : N) | FlexibleTokens (x : N) | FeeNFT (id : N).

(** models rent/src/types.rs:222-249 ([RentContractData]) *)
Record contract := mkContract {
  r_start : option N;
  r_renter : N;
  r_rentee : option N;
  r_duration : duration;
  r_acceptance : acceptance;
  r_can_revoke : bool;
  r_rent_fee : rent_fee;
  r_renter_cf : cancel_fee;
  r_rentee_cf : cancel_fee;
  r_creation : N
}.
Global Instance eta_contract : Settable _ := settable! mkContract
  <r_start; r_renter; r_rentee; r_duration; r_acceptance; r_can_revoke; r_rent_fee;
   r_renter_cf; r_rentee_cf; r_creation>.

(** models rent/src/types.rs:417-421 ([QueueKind]) *)
Inductive queue_kind := QFixed | QSub | QAvail.

(** models rent/src/types.rs:428-435 ([RentingQueues]) *)
Record rent_queues := mkQueues {
  q_fixed : list (N * N);
  q_sub : list (N * N);
  q_avail : list (N * N)
}.
Global Instance eta_rent_queues : Settable _ := settable! mkQueues <q_fixed; q_sub; q_avail>.

(** * transmission-protocols/src/types.rs *)

(** models transmission-protocols/src/types.rs:30-35 ([TransmissionProtocolKind]) *)
Inductive proto_kind := KAtBlock | KAtBlockWithReset | KOnConsent | KOnConsentAtBlock.

(** models transmission-protocols/src/types.rs:39-44 ([TransmissionProtocol]) *)
Inductive protocol :=
| AtBlock (b : N)
| AtBlockWithReset (b : N)
| OnConsent (consent_list : list N) (threshold : N)
| OnConsentAtBlock (consent_list : list N) (threshold : N) (b : N).

(** models transmission-protocols/src/types.rs:132-136 ([CancellationPeriod]) *)
Inductive cancellation := CancelNone | UntilBlock (b : N) | Anytime.

(** models transmission-protocols/src/types.rs:157-166 ([TransmissionData]) *)
Record transmission := mkTrans {
  t_recipient : N;
  t_protocol : protocol;
  t_cancellation : cancellation
}.
Global Instance eta_transmission : Settable _ := settable! mkTrans
  <t_recipient; t_protocol; t_cancellation>.

(** * tee/src/types.rs, primitives/src/tee.rs *)

(** models tee/src/types.rs:29-36 ([Enclave]) *)
Record enclave := mkEnclave { e_addr : N; e_uri : bytes }.

(** models tee/src/types.rs:50-55 ([ClusterType]) *)
Inductive cluster_type := ClDisabled | ClAdmin | ClPublic | ClPrivate.

(** models tee/src/types.rs:62-69 ([Cluster]); entries are (operator, slot). *)
Record cluster := mkCluster { cl_enclaves : list (N * N); cl_type : cluster_type }.
Global Instance eta_cluster : Settable _ := settable! mkCluster <cl_enclaves; cl_type>.

(** models tee/src/types.rs:89-104 ([TeeStakingLedger]) *)
Record ledger := mkLedger {
  l_operator : N;
  l_staked : N;
  l_unlocking : bool;
  l_unbonded_at : N
}.
Global Instance eta_ledger : Settable _ := settable! mkLedger
  <l_operator; l_staked; l_unlocking; l_unbonded_at>.

(** models tee/src/types.rs:135-145 ([MetricsServerReport]) *)
Record report := mkReport {
  rp1 : N; rp2 : N; rp3 : N; rp4 : N; rp5 : N; rp_submitted_by : N
}.

(** models tee/src/types.rs:151-157 ([ReportParamsWeightage]) *)
Record weightage := mkWeightage { w1 : N; w2 : N; w3 : N; w4 : N; w5 : N }.

(** * bridge/src/types.rs *)

(** models bridge/src/types.rs:27-46 ([ProposalStatus], [Proposal]) *)
Inductive proposal_status := Initiated | Approved.
(** models bridge/src/types.rs:38-47 ([Proposal]) *)
Record proposal := mkProposal {
  p_votes : list N;
  p_status : proposal_status;
  p_expiry : N
}.
Global Instance eta_proposal : Settable _ := settable! mkProposal <p_votes; p_status; p_expiry>.

(** * Events

    models the [Event] enums: nft/src/lib.rs:209-281, marketplace/src/lib.rs:141-181,
    auction/src/lib.rs:223-255, rent/src/lib.rs:150-188,
    transmission-protocols/src/lib.rs:207-244, tee/src/lib.rs:288-376,
    bridge/src/lib.rs:153-170, staking-rewards/src/lib.rs:108-110,
    mandate/src/lib.rs:78-81.  Argument order is the field order of the Rust enum.
    Events of pallet-balances and frame-system are not modelled. *)
Inductive event :=
(* nft *)
| Ev_NFTCreated (id owner : N) (data : bytes) (royalty : N) (coll : option N) (soulbound : bool) (fee : N)
| Ev_NFTBurned (id : N)
| Ev_NFTTransferred (id sender recipient : N)
| Ev_NFTDelegated (id : N) (recipient : option N)
| Ev_NFTRoyaltySet (id royalty : N)
| Ev_NFTMintFeeSet (fee : N)
| Ev_CollectionCreated (coll owner : N) (data : bytes) (limit : option N)
| Ev_CollectionBurned (coll : N)
| Ev_CollectionClosed (coll : N)
| Ev_CollectionLimited (coll limit : N)
| Ev_NFTAddedToCollection (id coll : N)
| Ev_SecretAddedToNFT (id : N) (data : bytes)
| Ev_ShardAdded (id enclave : N)
| Ev_SecretNFTSynced (id : N)
| Ev_SecretNFTMintFeeSet (fee : N)
| Ev_NFTConvertedToCapsule (id : N) (data : bytes)
| Ev_CapsuleOffchainDataSet (id : N) (data : bytes)
| Ev_CapsuleShardAdded (id enclave : N)
| Ev_CapsuleSynced (id : N)
| Ev_CapsuleMintFeeSet (fee : N)
| Ev_CapsuleKeyUpdateNotified (id : N)
| Ev_CollectionOffchainDataSet (coll : N) (data : bytes)
(* marketplace *)
| Ev_MarketplaceCreated (mkt owner : N) (kind : mkt_kind)
| Ev_MarketplaceOwnerSet (mkt owner : N)
| Ev_MarketplaceKindSet (mkt : N) (kind : mkt_kind)
| Ev_MarketplaceConfigSet (mkt : N) (commission listing : config_op compound_fee)
    (accounts : config_op (list N)) (data : config_op bytes) (collections : config_op (list N))
| Ev_MarketplaceMintFeeSet (fee : N)
| Ev_NFTListed (id mkt price : N) (commission : option compound_fee)
| Ev_NFTUnlisted (id : N)
| Ev_NFTSold (id mkt buyer price marketplace_cut royalty_cut : N)
(* auction *)
| Ev_AuctionCreated (id mkt creator start_price : N) (buy_it : option N) (start end_ : N)
| Ev_AuctionCancelled (id : N)
| Ev_AuctionCompleted (id : N) (new_owner paid marketplace_cut royalty_cut auctioneer_cut : option N)
| Ev_BidAdded (id bidder amount : N)
| Ev_BidRemoved (id bidder amount : N)
| Ev_BidDropped (id bidder amount : N)
| Ev_BalanceClaimed (account amount : N)
(* rent *)
| Ev_ContractCreated (id renter : N) (d : duration) (acc : acceptance) (can_revoke : bool)
    (fee : rent_fee) (renter_cf rentee_cf : cancel_fee)
| Ev_ContractStarted (id rentee : N)
| Ev_ContractRevoked (id revoked_by : N)
| Ev_ContractOfferCreated (id rentee : N)
| Ev_ContractOfferRetracted (id rentee : N)
| Ev_ContractSubscriptionTermsChanged (id period max_dur : N) (changeable : bool) (fee : N)
| Ev_ContractSubscriptionTermsAccepted (id : N)
| Ev_ContractEnded (id : N) (revoked_by : option N)
| Ev_ContractSubscriptionPeriodStarted (id : N)
| Ev_ContractExpired (id : N)
| Ev_ContractCanceled (id : N)
(* transmission protocols *)
| Ev_ProtocolSet (id recipient : N) (p : protocol) (c : cancellation)
| Ev_ProtocolRemoved (id : N)
| Ev_TimerReset (id block : N)
| Ev_ConsentAdded (id from : N)
| Ev_ProtocolFeeSet (k : proto_kind) (fee : N)
| Ev_ThresholdReached (id : N)
| Ev_Transmitted (id : N)
| Ev_TransmissionError (id : N)
(* tee *)
| Ev_EnclaveAddedForRegistration (op addr : N) (uri : bytes)
| Ev_RegistrationRemoved (op : N)
| Ev_UpdateRequestCancelled (op : N)
| Ev_UpdateRequestRemoved (op : N)
| Ev_MovedForUnregistration (op : N)
| Ev_EnclaveAssigned (op cluster : N)
| Ev_EnclaveRemoved (op : N)
| Ev_MovedForUpdate (op addr : N) (uri : bytes)
| Ev_EnclaveUpdated (op addr : N) (uri : bytes)
| Ev_EnclaveForceUpdated (op : N) (addr : option N) (uri : option bytes)
| Ev_ClusterAdded (cluster : N) (t : cluster_type)
| Ev_ClusterUpdated (cluster : N) (t : cluster_type)
| Ev_ClusterRemoved (cluster : N)
| Ev_Bonded (op amount : N)
| Ev_Unbonded (op amount : N)
| Ev_Withdrawn (op amount : N)
| Ev_MetricsServerAdded (addr : N) (t : cluster_type)
| Ev_MetricsServerTypeUpdated (addr : N) (t : cluster_type)
| Ev_MetricsServerRemoved (addr : N)
| Ev_MetricsServerReportSubmitted (era op : N) (r : report)
| Ev_ReportParamsWeightageModified (w : weightage)
| Ev_RewardsClaimed (era op amount : N)
| Ev_FailedToGetActiveEra (block : N)
| Ev_StakingAmountIsSet (amount : N)
| Ev_RewardAmountIsSet (amount : N)
| Ev_OperatorAssignedEraUpdated (op era : N)
| Ev_BondedExtra (op amount : N)
| Ev_RefundedExcess (op amount : N)
(* bridge *)
| Ev_BridgeFeeUpdated (fee : N)
| Ev_DepositMade (chain nonce amount : N) (recipient : bytes)
| Ev_DepositNonceUpdated (chain nonce : N)
| Ev_ChainAllowed (chain : N)
| Ev_ProposalApproved (chain nonce : N)
| Ev_RelayerThresholdUpdated (threshold : N)
| Ev_RelayerVoted (chain nonce account : N)
| Ev_RelayersUpdated (relayers : list N)
(* staking rewards *)
| Ev_SessionExtraRewardPayoutChanged (value : N)
(* mandate *)
| Ev_RootOp (result : option error).

(** * Origins and calls *)

(** FRAME origins: [Root], a signed account, or any other origin (for instance a
    council majority); which origins count as the pallets' [ExternalOrigin] is a
    parameter of [Config]. *)
Inductive origin := Root | Signed (who : N) | OtherOrigin (n : N).

(** models the [#[pallet::call]] blocks of every pallet (nft/src/lib.rs:439-1331,
    marketplace/src/lib.rs:227-498, auction/src/lib.rs:338-658, rent/src/lib.rs:350-910,
    transmission-protocols/src/lib.rs:304-633, tee/src/lib.rs:460-1520,
    bridge/src/lib.rs:200-387, staking-rewards/src/lib.rs:85-105, mandate/src/lib.rs:54-74):
    one constructor per extrinsic, arguments in the order of the Rust function. *)
Inductive call :=
(* nft/src/lib.rs:456-1330 *)
| C_create_nft (data : bytes) (royalty : N) (coll : option N) (soulbound : bool)
| C_burn_nft (id : N)
| C_transfer_nft (id recipient : N)
| C_delegate_nft (id : N) (recipient : option N)
| C_set_royalty (id royalty : N)
| C_set_nft_mint_fee (fee : N)
| C_create_collection (data : bytes) (limit : option N)
| C_burn_collection (coll : N)
| C_close_collection (coll : N)
| C_limit_collection (coll limit : N)
| C_add_nft_to_collection (id coll : N)
| C_add_secret (id : N) (data : bytes)
| C_create_secret_nft (data secret : bytes) (royalty : N) (coll : option N) (soulbound : bool)
| C_add_secret_shard (id : N)
| C_set_secret_nft_mint_fee (fee : N)
| C_convert_to_capsule (id : N) (data : bytes)
| C_create_capsule (data capsule : bytes) (royalty : N) (coll : option N) (soulbound : bool)
| C_set_capsule_offchaindata (id : N) (data : bytes)
| C_set_capsule_mint_fee (fee : N)
| C_add_capsule_shard (id : N)
| C_notify_enclave_key_update (id : N)
| C_set_collection_offchaindata (coll : N) (data : bytes)
(* marketplace/src/lib.rs:231-497 *)
| C_create_marketplace (kind : mkt_kind)
| C_set_marketplace_owner (mkt recipient : N)
| C_set_marketplace_kind (mkt : N) (kind : mkt_kind)
| C_set_marketplace_configuration (mkt : N) (commission listing : config_op compound_fee)
    (accounts : config_op (list N)) (data : config_op bytes) (collections : config_op (list N))
| C_set_marketplace_mint_fee (fee : N)
| C_list_nft (id mkt price : N)
| C_unlist_nft (id : N)
| C_buy_nft (id price : N)
(* auction/src/lib.rs:333-657 *)
| C_create_auction (id mkt start end_ start_price : N) (buy_it : option N)
| C_cancel_auction (id : N)
| C_end_auction (id : N)
| C_add_bid (id amount : N)
| C_remove_bid (id : N)
| C_buy_it_now (id amount : N)
| C_claim
(* rent/src/lib.rs:351-910 *)
| C_create_contract (id : N) (d : duration_input) (acc : acceptance) (can_revoke : bool)
    (fee : rent_fee) (renter_cf rentee_cf : cancel_fee)
| C_cancel_contract (id : N)
| C_revoke_contract (id : N)
| C_rent (id creation_block : N)
| C_make_rent_offer (id creation_block : N)
| C_accept_rent_offer (id rentee : N)
| C_retract_rent_offer (id : N)
| C_change_subscription_terms (id fee period : N) (max_dur : option N) (changeable : bool)
| C_accept_subscription_terms (id fee period : N) (max_dur : option N) (changeable : bool)
(* transmission-protocols/src/lib.rs:305-633 *)
| C_set_transmission_protocol (id recipient : N) (p : protocol) (c : cancellation)
| C_remove_transmission_protocol (id : N)
| C_reset_timer (id block : N)
| C_add_consent (id : N)
| C_set_protocol_fee (k : proto_kind) (fee : N)
(* tee/src/lib.rs:460-1530 *)
| C_register_enclave (addr : N) (uri : bytes)
| C_unregister_enclave
| C_update_enclave (addr : N) (uri : bytes)
| C_cancel_update
| C_assign_enclave (op cluster slot : N)
| C_remove_registration (op : N)
| C_reject_update (op : N)
| C_approve_enclave_unregistration (op : N)
| C_force_remove_enclave (op : N)
| C_approve_update_enclave (op : N)
| C_force_update_enclave (op : N) (addr : option N) (uri : option bytes)
| C_create_cluster (t : cluster_type)
| C_update_cluster (cluster : N) (t : cluster_type)
| C_remove_cluster (cluster : N)
| C_withdraw_unbonded
| C_register_metrics_server (addr : N) (t : cluster_type)
| C_unregister_metrics_server (addr : N)
| C_force_update_metrics_server_type (addr : N) (t : cluster_type)
| C_submit_metrics_server_report (op : N) (r : report)
| C_set_report_params_weightage (w : weightage)
| C_set_staking_amount (amount : N)
| C_set_daily_reward_pool (amount : N)
| C_claim_rewards (era : N)
| C_update_operator_assigned_era (op era : N)
| C_bond_extra
| C_refund_excess
(* bridge/src/lib.rs:203-390 *)
| C_set_threshold (threshold : N)
| C_add_chain (chain : N)
| C_set_relayers (relayers : list N)
| C_set_deposit_nonce (chain nonce : N)
| C_vote_for_proposal (chain nonce recipient amount : N)
| C_deposit (amount : N) (recipient : bytes) (chain : N)
| C_set_bridge_fee (fee : N)
(* staking-rewards/src/lib.rs:85-100 *)
| C_set_session_extra_reward_payout (value : N)
(* mandate/src/lib.rs:61-74 *)
| C_mandate (c : call).

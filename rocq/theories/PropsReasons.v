(** Property theorems: why calls are refused.  The tables are in SpecReasons.v.  For each pallet, the
    first theorem says that a refused call names a reason of the table that holds; the second, that
    every reason of the table that holds has the call refused, without effect. *)
From Verif Require Import SpecReasons ErrNft ErrMkt ErrAuc ErrRent ErrTrans ErrTee ErrAdmin PropsRules Demo.
Local Open Scope N_scope.

Section props.
Context {C : Config}.

(** C102: pallet nft. *)
Theorem C102_nft_reasons s w c e s' :
  0 < ed -> reachable s -> fees_collector <> Some w -> wf_call c = true -> is_nft_call c ->
  dispatch (Signed w) c s = (Err e, s') -> justified e (nft_table s w c).
Proof. exact (fact_nft_err s w c e s'). Qed.
Theorem C102_nft_refusals s w c e :
  0 < ed -> reachable s -> fees_collector <> Some w -> wf_call c = true -> is_nft_call c ->
  justified e (nft_table s w c) -> exists e', dispatch (Signed w) c s = (Err e', s).
Proof. exact (fact_nft_refused s w c e). Qed.

(** C103: pallet marketplace. *)
Theorem C103_marketplace_reasons s w c e s' :
  0 < ed -> reachable s -> wf_call c = true -> is_mkt_call c ->
  dispatch (Signed w) c s = (Err e, s') -> justified e (mkt_table s w c).
Proof. exact (fact_mkt_err s w c e s'). Qed.
Theorem C103_marketplace_refusals s w c e :
  0 < ed -> reachable s -> wf_call c = true -> is_mkt_call c ->
  justified e (mkt_table s w c) -> exists e', dispatch (Signed w) c s = (Err e', s).
Proof. exact (fact_mkt_refused s w c e). Qed.

(** C104: pallet auction. *)
Theorem C104_auction_reasons s w c e s' :
  config_ok -> reachable s -> w ∉ pots -> wf_call c = true -> is_auc_call c ->
  dispatch (Signed w) c s = (Err e, s') -> justified e (auc_table s w c).
Proof. exact (fact_auc_err s w c e s'). Qed.
Theorem C104_auction_refusals s w c e :
  config_ok -> reachable s -> w ∉ pots -> wf_call c = true -> is_auc_call c ->
  justified e (auc_table s w c) -> exists e', dispatch (Signed w) c s = (Err e', s).
Proof. exact (fact_auc_refused s w c e). Qed.

(** C105: pallet rent. *)
Theorem C105_rent_reasons s w c e s' :
  config_ok -> reachable s -> w ∉ pots -> wf_call c = true -> is_rent_call c ->
  dispatch (Signed w) c s = (Err e, s') -> justified e (rent_table s w c).
Proof. exact (fact_rent_err s w c e s'). Qed.
Theorem C105_rent_refusals s w c e :
  config_ok -> reachable s -> w ∉ pots -> wf_call c = true -> is_rent_call c ->
  justified e (rent_table s w c) -> exists e', dispatch (Signed w) c s = (Err e', s).
Proof. exact (fact_rent_refused s w c e). Qed.

(** C106: pallet transmission-protocols. *)
Theorem C106_transmission_reasons s w c e s' :
  0 < ed -> reachable s -> wf_call c = true -> is_trans_call c ->
  dispatch (Signed w) c s = (Err e, s') -> justified e (trans_table s w c).
Proof. exact (fact_trans_err s w c e s'). Qed.
Theorem C106_transmission_refusals s w c e :
  0 < ed -> reachable s -> wf_call c = true -> is_trans_call c ->
  justified e (trans_table s w c) -> exists e', dispatch (Signed w) c s = (Err e', s).
Proof. exact (fact_trans_refused s w c e). Qed.

(** C107: pallet tee, the calls of operators and metrics servers. *)
Theorem C107_tee_reasons s w c e s' :
  config_ok -> reachable s -> w ∉ pots -> wf_call c = true -> is_tee_call c ->
  dispatch (Signed w) c s = (Err e, s') -> justified e (tee_table s w c).
Proof. exact (fact_tee_err s w c e s'). Qed.
Theorem C107_tee_refusals s w c e :
  config_ok -> reachable s -> w ∉ pots -> wf_call c = true -> is_tee_call c ->
  justified e (tee_table s w c) -> exists e', dispatch (Signed w) c s = (Err e', s).
Proof. exact (fact_tee_refused s w c e). Qed.

(** C108: pallet bridge, the calls of relayers and depositors. *)
Theorem C108_bridge_reasons s w c e s' :
  0 < ed -> reachable s -> fees_collector <> Some w -> wf_call c = true -> is_bridge_call c ->
  dispatch (Signed w) c s = (Err e, s') -> justified e (bridge_table s w c).
Proof. exact (fact_bridge_err s w c e s'). Qed.
Theorem C108_bridge_refusals s w c e :
  0 < ed -> reachable s -> fees_collector <> Some w -> wf_call c = true -> is_bridge_call c ->
  justified e (bridge_table s w c) -> exists e', dispatch (Signed w) c s = (Err e', s).
Proof. exact (fact_bridge_refused s w c e). Qed.

(** C109: the calls of root and of the external origin. *)
Theorem C109_root_reasons s o c e s' :
  reachable s -> wf_call c = true -> root_call c -> dispatch o c s = (Err e, s') ->
  (o <> Root /\ e = BadOrigin) \/ (o = Root /\ justified e (root_table s c)).
Proof. exact (fact_root_err s o c e s'). Qed.
Theorem C109_root_refusals s o c e :
  reachable s -> wf_call c = true -> root_call c ->
  o <> Root \/ justified e (root_table s c) -> exists e', dispatch o c s = (Err e', s).
Proof. exact (fact_root_refused s o c e). Qed.
Theorem C109_external_reasons s o c e s' :
  wf_call c = true -> external_call c -> dispatch o c s = (Err e, s') ->
  (external_ok o = false /\ e = BadOrigin) \/ (external_ok o = true /\ justified e (external_table s c)).
Proof. exact (fact_external_err s o c e s'). Qed.
Theorem C109_external_refusals s o c e :
  wf_call c = true -> external_call c ->
  external_ok o = false \/ justified e (external_table s c) -> exists e', dispatch o c s = (Err e', s).
Proof. exact (fact_external_refused s o c e). Qed.

(** The call is refused with error [e]. *)
Definition refused (o : origin) (c : call) (s : state) (e : error) : Prop := fst (dispatch o c s) = Err e.
Lemma refused_why o c s e (P : Prop) : fst (dispatch o c s) = Err e -> (forall s', dispatch o c s = (Err e, s') -> P) -> refused o c s e /\ P.
Proof. unfold refused. destruct (dispatch o c s) as [r s']. cbn. intros -> H. eauto. Qed.
End props.

(** Refusals in reachable states, each with its reason.  The states are those of PropsRules.v. *)
Section examples.
Local Existing Instance demo1.
Local Ltac why thm := apply refused_why; [vm_compute; reflexivity|];
  intros s'; apply thm; first [exact demo1_ok|done|by apply demo_reachable|by apply memN_not_elem].
Local Ltac why_root thm := apply refused_why; [vm_compute; reflexivity|];
  intros s' Hd; apply thm in Hd; [destruct Hd as [[Hd _]|[_ Hd]]; [first [destruct Hd; reflexivity|discriminate]|exact Hd]|clear Hd; first [done|by apply demo_reachable]..].

Example C102_case :
  (refused (Signed 1) (C_transfer_nft 0 2) (demo rules_demo) (Nft_err N_CannotTransferListedNFTs) /\ justified (Nft_err N_CannotTransferListedNFTs) (nft_table (demo rules_demo) 1 (C_transfer_nft 0 2))) /\
  (refused (Signed 2) (C_burn_nft 1) (demo rules_demo) (Nft_err N_NotTheNFTOwner) /\ justified (Nft_err N_NotTheNFTOwner) (nft_table (demo rules_demo) 2 (C_burn_nft 1))) /\
  (refused (Signed 1) (C_burn_nft 9) (demo rules_demo) (Nft_err N_NFTNotFound) /\ justified (Nft_err N_NFTNotFound) (nft_table (demo rules_demo) 1 (C_burn_nft 9))) /\
  (refused (Signed 1) (C_burn_collection 0) (demo rules_demo) (Nft_err N_CollectionIsNotEmpty) /\ justified (Nft_err N_CollectionIsNotEmpty) (nft_table (demo rules_demo) 1 (C_burn_collection 0))).
Proof. split; [why @C102_nft_reasons|]. split; [why @C102_nft_reasons|]. split; [why @C102_nft_reasons|]. why @C102_nft_reasons. Qed.

Example C103_case :
  (refused (Signed 2) (C_buy_nft 0 501) (demo rules_demo) (Market_err M_PriceDoesNotMatch) /\ justified (Market_err M_PriceDoesNotMatch) (mkt_table (demo rules_demo) 2 (C_buy_nft 0 501))) /\
  (refused (Signed 1) (C_buy_nft 0 500) (demo rules_demo) (Market_err M_CannotBuyOwnedNFT) /\ justified (Market_err M_CannotBuyOwnedNFT) (mkt_table (demo rules_demo) 1 (C_buy_nft 0 500))) /\
  (refused (Signed 1) (C_list_nft 2 0 10) (demo rules_demo) (Market_err M_CannotListAlreadytListedNFTs) /\ justified (Market_err M_CannotListAlreadytListedNFTs) (mkt_table (demo rules_demo) 1 (C_list_nft 2 0 10))).
Proof. split; [why @C103_marketplace_reasons|]. split; [why @C103_marketplace_reasons|]. why @C103_marketplace_reasons. Qed.

Example C104_case :
  (refused (Signed 3) (C_add_bid 2 100) (demo rules_demo) (Auction_err A_CannotBidLessThanTheHighestBid) /\ justified (Auction_err A_CannotBidLessThanTheHighestBid) (auc_table (demo rules_demo) 3 (C_add_bid 2 100))) /\
  (refused (Signed 1) (C_cancel_auction 2) (demo rules_demo) (Auction_err A_CannotCancelAuctionInProgress) /\ justified (Auction_err A_CannotCancelAuctionInProgress) (auc_table (demo rules_demo) 1 (C_cancel_auction 2))) /\
  (refused (Signed 3) (C_remove_bid 2) (demo rules_demo) (Auction_err A_BidDoesNotExist) /\ justified (Auction_err A_BidDoesNotExist) (auc_table (demo rules_demo) 3 (C_remove_bid 2))).
Proof. split; [why @C104_auction_reasons|]. split; [why @C104_auction_reasons|]. why @C104_auction_reasons. Qed.

Example C105_case :
  (refused (Signed 3) (C_rent 3 1) (demo rules_demo) (Rent_err R_NotWhitelisted) /\ justified (Rent_err R_NotWhitelisted) (rent_table (demo rules_demo) 3 (C_rent 3 1))) /\
  (refused (Signed 1) (C_revoke_contract 3) (demo rules_demo) (Rent_err R_CannotRevokeNonRunningContract) /\ justified (Rent_err R_CannotRevokeNonRunningContract) (rent_table (demo rules_demo) 1 (C_revoke_contract 3))) /\
  (refused (Signed 2) (C_cancel_contract 3) (demo rules_demo) (Rent_err R_NotTheContractOwner) /\ justified (Rent_err R_NotTheContractOwner) (rent_table (demo rules_demo) 2 (C_cancel_contract 3))).
Proof. split; [why @C105_rent_reasons|]. split; [why @C105_rent_reasons|]. why @C105_rent_reasons. Qed.

Example C106_case :
  (refused (Signed 2) (C_add_consent 4) (demo rules_demo) (Trans_err T_AlreadyAddedConsent) /\ justified (Trans_err T_AlreadyAddedConsent) (trans_table (demo rules_demo) 2 (C_add_consent 4))) /\
  (refused (Signed 1) (C_reset_timer 4 30) (demo rules_demo) (Trans_err T_ProtocolTimerCannotBeReset) /\ justified (Trans_err T_ProtocolTimerCannotBeReset) (trans_table (demo rules_demo) 1 (C_reset_timer 4 30))) /\
  (refused (Signed 1) (C_set_transmission_protocol 1 2 (OnConsent [2; 3] 0) Anytime) (demo rules_demo) (Trans_err T_ThresholdTooLow) /\ justified (Trans_err T_ThresholdTooLow) (trans_table (demo rules_demo) 1 (C_set_transmission_protocol 1 2 (OnConsent [2; 3] 0) Anytime))).
Proof. split; [why @C106_transmission_reasons|]. split; [why @C106_transmission_reasons|]. why @C106_transmission_reasons. Qed.

Example C107_case :
  (refused (Signed 1) (C_claim_rewards 22) (demo rules_tee) (Tee_err E_RewardsAlreadyClaimedForEra) /\ justified (Tee_err E_RewardsAlreadyClaimedForEra) (tee_table (demo rules_tee) 1 (C_claim_rewards 22))) /\
  (refused (Signed 1) (C_withdraw_unbonded) (demo rules_tee) (Tee_err E_WithdrawProhibited) /\ justified (Tee_err E_WithdrawProhibited) (tee_table (demo rules_tee) 1 (C_withdraw_unbonded))) /\
  (refused (Signed 2) (C_refund_excess) (demo rules_tee) (Tee_err E_RefundExcessNotAllowed) /\ justified (Tee_err E_RefundExcessNotAllowed) (tee_table (demo rules_tee) 2 (C_refund_excess))) /\
  (refused (Signed 4) (C_register_enclave 11 [1]) (demo rules_tee) (Tee_err E_EnclaveAddressAlreadyExists) /\ justified (Tee_err E_EnclaveAddressAlreadyExists) (tee_table (demo rules_tee) 4 (C_register_enclave 11 [1]))).
Proof. split; [why @C107_tee_reasons|]. split; [why @C107_tee_reasons|]. split; [why @C107_tee_reasons|]. why @C107_tee_reasons. Qed.

Example C108_case :
  (refused (Signed 1) (C_vote_for_proposal 5 4 7 100) (demo rules_bridge) (Bridge_err B_RelayerAlreadyVoted) /\ justified (Bridge_err B_RelayerAlreadyVoted) (bridge_table (demo rules_bridge) 1 (C_vote_for_proposal 5 4 7 100))) /\
  (refused (Signed 4) (C_vote_for_proposal 5 4 7 100) (demo rules_bridge) (Bridge_err B_MustBeRelayer) /\ justified (Bridge_err B_MustBeRelayer) (bridge_table (demo rules_bridge) 4 (C_vote_for_proposal 5 4 7 100))) /\
  (refused (Signed 4) (C_deposit 10000 [9] 5) (demo rules_bridge) (Bridge_err B_InsufficientBalance) /\ justified (Bridge_err B_InsufficientBalance) (bridge_table (demo rules_bridge) 4 (C_deposit 10000 [9] 5))).
Proof. split; [why @C108_bridge_reasons|]. split; [why @C108_bridge_reasons|]. why @C108_bridge_reasons. Qed.

Example C109_case :
  (refused Root (C_approve_enclave_unregistration 2) (demo rules_tee) (Tee_err E_UnregistrationNotFound) /\
     justified (Tee_err E_UnregistrationNotFound) (root_table (demo rules_tee) (C_approve_enclave_unregistration 2))) /\
  (refused Root (C_remove_cluster 0) (demo rules_tee) (Tee_err E_ClusterIsNotEmpty) /\
     justified (Tee_err E_ClusterIsNotEmpty) (root_table (demo rules_tee) (C_remove_cluster 0))) /\
  (refused (OtherOrigin 1) (C_set_deposit_nonce 5 0) (demo rules_bridge) (Bridge_err B_NewNonceTooLow) /\
     justified (Bridge_err B_NewNonceTooLow) (external_table (demo rules_bridge) (C_set_deposit_nonce 5 0))).
Proof. split; [why_root @C109_root_reasons|]. split; [why_root @C109_root_reasons|]. why_root @C109_external_reasons. Qed.
End examples.

Print Assumptions C102_nft_reasons.
Print Assumptions C102_nft_refusals.
Print Assumptions C103_marketplace_reasons.
Print Assumptions C103_marketplace_refusals.
Print Assumptions C104_auction_reasons.
Print Assumptions C104_auction_refusals.
Print Assumptions C105_rent_reasons.
Print Assumptions C105_rent_refusals.
Print Assumptions C106_transmission_reasons.
Print Assumptions C106_transmission_refusals.
Print Assumptions C107_tee_reasons.
Print Assumptions C107_tee_refusals.
Print Assumptions C108_bridge_reasons.
Print Assumptions C108_bridge_refusals.
Print Assumptions C109_root_reasons.
Print Assumptions C109_root_refusals.
Print Assumptions C109_external_reasons.
Print Assumptions C109_external_refusals.

(** Unit tests of the bridge and staking-rewards pallets (bridge/src/tests/extrinsics.rs, types.rs,
    staking-rewards/src/tests/extrinsics.rs), run against the model. *)
From Verif Require Import Replay.
Local Open Scope N_scope.

(** bridge/src/tests/mock.rs, staking-rewards/src/tests/mock.rs *)
Local Instance mock : Config := {|
  ed := 1; fees_collector := Some 99; zero_lock_clears := false; nft_data_limit := 10; coll_data_limit := 10;
  coll_size_limit := 10; shards_number := 5; init_mint_fee := 10; init_secret_fee := 75;
  init_capsule_fee := 100; init_mkt_fee := 0; mkt_accounts_limit := 0; mkt_data_limit := 0;
  mkt_colls_limit := 0; auction_ed := 1; min_auction_duration := 0; max_auction_duration := 0;
  max_auction_delay := 0; grace_period := 0; ending_period := 0; bidder_limit := 0; parallel_auctions := 0;
  auction_actions := 0; auction_pot := 100; rent_ed := 1; rent_accounts_limit := 0; rent_limit := 0;
  rent_actions := 0; availability_limit := 0; duration_limit := 0; rent_pot := 101; init_at_block_fee := 0;
  init_at_block_reset_fee := 0; init_on_consent_fee := 0; init_on_consent_at_block_fee := 0;
  max_block_duration := 0; consent_limit := 0; trans_limit := 0; trans_actions := 0; cluster_size := 2;
  uri_limit := 12; list_limit := 10; init_staking_amount := 20; bonding_duration := 10; tee_pot := 102;
  init_reward_pool := 2000; history_depth := 50; own_chain := 5; proposal_lifetime := 10;
  init_vote_threshold := 1; relayer_limit := 3; init_bridge_fee := 1; staking_pot := 103;
  external_ok := fun o => match o with Root => true | _ => false end; hook_order := []
|}.

Notation RELAYER_A := 2.
Notation RELAYER_B := 3.
Notation RELAYER_C := 4.
(** [ExtBuilder::build] *)
Definition start : state := init_state 1 None (list_to_map [(50, 100000000); (2, 100000000); (3, 100000000); (4, 100000000)]) ∅.
(** [ExtBuilder::build_with] *)
Definition with_ (chain threshold : N) (k : test) : test :=
  ok Root (C_set_threshold threshold) >> chk (fun s => vote_threshold (s_brg s) = threshold) >>
  ok Root (C_set_relayers [RELAYER_A; RELAYER_B; RELAYER_C]) >> ok Root (C_add_chain chain) >> k.
Notation E e := (Bridge_err e).
Definition nonce (c : N) (s : state) := nonces (s_brg s) !! c.
Definition prop_ (c n r a : N) (s : state) := votes (s_brg s) !! (c, (n, r, a)).
Definition total (s : state) := issuance (s_bal s).


(** * set_threshold *)
Example set_threshold : (ok Root (C_set_threshold 2) >> chk (fun s => vote_threshold (s_brg s) = 2) >> last_ (Ev_RelayerThresholdUpdated 2) >> fin) start.
Proof. replay. Qed.
Example threshold_bad_origin : (no (sg RELAYER_A) (C_set_threshold 3) BadOrigin >> fin) start.
Proof. replay. Qed.
Example threshold_cannot_be_zero : (no Root (C_set_threshold 0) (E B_ThresholdCannotBeZero) >> fin) start.
Proof. replay. Qed.

(** * add_chain *)
Example add_chain : (ok Root (C_add_chain 0) >> chk (fun s => nonce 0 s = Some 0) >> last_ (Ev_ChainAllowed 0) >> fin) start.
Proof. replay. Qed.
Example chain_bad_origin : (no (sg RELAYER_A) (C_add_chain 0) BadOrigin >> fin) start.
Proof. replay. Qed.
Example cannot_add_self_to_allowed_chain_list : (no Root (C_add_chain own_chain) (E B_CannotAddSelfToAllowedChainList) >> fin) start.
Proof. replay. Qed.
Example chain_already_whitelisted : with_ 0 3 (no Root (C_add_chain 0) (E B_ChainAlreadyWhitelisted) >> fin) start.
Proof. replay. Qed.

(** * set_relayers *)
Example set_relayers : (ok Root (C_set_relayers [RELAYER_A; RELAYER_B]) >> chk (fun s => relayers (s_brg s) = [RELAYER_A; RELAYER_B]) >> last_ (Ev_RelayersUpdated [RELAYER_A; RELAYER_B]) >> fin) start.
Proof. replay. Qed.
Example relayers_bad_origin : (no (sg RELAYER_A) (C_set_relayers []) BadOrigin >> fin) start.
Proof. replay. Qed.

(** * set_deposit_nonce *)
Example set_deposit_nonce : with_ 0 3 (ok Root (C_set_deposit_nonce 0 1) >> chk (fun s => nonce 0 s = Some 1) >> last_ (Ev_DepositNonceUpdated 0 1) >> fin) start.
Proof. replay. Qed.
Example nonce_bad_origin : (no (sg RELAYER_A) (C_set_deposit_nonce 0 1) BadOrigin >> fin) start.
Proof. replay. Qed.
Example chain_not_found : with_ 0 3 (no Root (C_set_deposit_nonce 1 1) (E B_ChainNotFound) >> fin) start.
Proof. replay. Qed.
Example new_nonce_too_low : with_ 0 3 (no Root (C_set_deposit_nonce 0 0) (E B_NewNonceTooLow) >> fin) start.
Proof. replay. Qed.

(** * vote_for_proposal *)
Example vote_for_proposal_not_existing : with_ 0 3 (ok (sg RELAYER_A) (C_vote_for_proposal 0 0 RELAYER_C 100) >> chk (fun s => prop_ 0 0 RELAYER_C 100 s = Some (mkProposal [RELAYER_A] Initiated 11)) >> last_ (Ev_RelayerVoted 0 0 RELAYER_A) >> fin) start.
Proof. replay. Qed.
Example vote_for_proposal_existing : with_ 0 3 (ok (sg RELAYER_A) (C_vote_for_proposal 0 0 RELAYER_C 100) >> ok (sg RELAYER_B) (C_vote_for_proposal 0 0 RELAYER_C 100) >>
  chk (fun s => prop_ 0 0 RELAYER_C 100 s = Some (mkProposal [RELAYER_A; RELAYER_B] Initiated 11)) >> last_ (Ev_RelayerVoted 0 0 RELAYER_B) >> fin) start.
Proof. replay. Qed.
Example vote_for_proposal_existing_and_reach_threshold : with_ 0 1 (now_ (fun s0 => ok (sg RELAYER_A) (C_vote_for_proposal 0 0 RELAYER_C 100) >> chk (fun s => prop_ 0 0 RELAYER_C 100 s = Some (mkProposal [RELAYER_A] Approved 11)) >>
  chk (fun s => bal RELAYER_C s = bal RELAYER_C s0 + 100) >> chk (fun s => total s = total s0 + 100) >> last_ (Ev_ProposalApproved 0 0) >> fin)) start.
Proof. replay. Qed.
Example must_be_relayer : (no (sg 5) (C_vote_for_proposal 0 0 RELAYER_C 100) (E B_MustBeRelayer) >> fin) start.
Proof. replay. Qed.
Example vote_chain_not_allowed : with_ 0 3 (no (sg RELAYER_A) (C_vote_for_proposal 1 0 RELAYER_C 100) (E B_ChainNotAllowed) >> fin) start.
Proof. replay. Qed.
Example proposal_already_completed : with_ 0 1 (ok (sg RELAYER_A) (C_vote_for_proposal 0 0 RELAYER_C 100) >> no (sg RELAYER_B) (C_vote_for_proposal 0 0 RELAYER_C 100) (E B_ProposalAlreadyCompleted) >> fin) start.
Proof. replay. Qed.
Example proposal_expired : with_ 0 3 (ok (sg RELAYER_A) (C_vote_for_proposal 0 0 RELAYER_C 100) >> upd (fun s => s <| s_now ::= fun n => n + 11 |>) >> no (sg RELAYER_B) (C_vote_for_proposal 0 0 RELAYER_C 100) (E B_ProposalExpired) >> fin) start.
Proof. replay. Qed.
Example relayer_already_voted : with_ 0 3 (ok (sg RELAYER_A) (C_vote_for_proposal 0 0 RELAYER_C 100) >> no (sg RELAYER_A) (C_vote_for_proposal 0 0 RELAYER_C 100) (E B_RelayerAlreadyVoted) >> fin) start.
Proof. replay. Qed.

(** * deposit *)
Example deposit : with_ 0 3 (now_ (fun s0 => chk (fun s => is_true (negb (bridge_fee (s_brg s) =? 0))) >> ok (sg RELAYER_A) (C_deposit 100 [0] 0) >>
  chk (fun s => bal RELAYER_A s = bal RELAYER_A s0 - 100 - bridge_fee (s_brg s0)) >> chk (fun s => total s = total s0 - 100) >>
  chk (fun s => bal 99 s = bal 99 s0 + bridge_fee (s_brg s0)) >> chk (fun s => nonce 0 s = N.succ <$> nonce 0 s0) >> last_ (Ev_DepositMade 0 1 100 [0]) >> fin)) start.
Proof. replay. Qed.
Example deposit_chain_not_allowed : (no (sg RELAYER_A) (C_deposit 10 [0] 0) (E B_ChainNotAllowed) >> fin) start.
Proof. replay. Qed.
Example insufficient_balance : with_ 0 3 (no (sg RELAYER_A) (C_deposit 200000000 [0] 0) (E B_InsufficientBalance) >> fin) start.
Proof. replay. Qed.

(** * set_bridge_fee *)
Example set_bridge_fee : with_ 0 3 (ok Root (C_set_bridge_fee 100) >> chk (fun s => bridge_fee (s_brg s) = 100) >> last_ (Ev_BridgeFeeUpdated 100) >> fin) start.
Proof. replay. Qed.
Example set_bridge_fee_bad_origin : (no (sg RELAYER_A) (C_set_bridge_fee 100) BadOrigin >> fin) start.
Proof. replay. Qed.

(** * staking-rewards: set_session_extra_reward_payout *)
Example set_session_extra_reward_payout : (ok Root (C_set_session_extra_reward_payout 100) >> chk (fun s => s_srw s = mkSrwSt 0 100) >> last_ (Ev_SessionExtraRewardPayoutChanged 100) >> fin) start.
Proof. replay. Qed.
Example payout_bad_origin : (no (sg ALICE) (C_set_session_extra_reward_payout 100) BadOrigin >> fin) start.
Proof. replay. Qed.

(** * types *)
Example try_to_complete_approved : p_status (try_to_complete 1 (mkProposal [RELAYER_A] Initiated 10)) = Approved.
Proof. replay. Qed.
Example try_to_complete_bad_threshold : p_status (try_to_complete 3 (mkProposal [RELAYER_A; RELAYER_B] Initiated 10)) = Initiated.
Proof. replay. Qed.

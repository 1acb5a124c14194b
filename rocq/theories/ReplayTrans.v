(** Unit tests of the transmission-protocols pallet (transmission-protocols/src/tests/extrinsics.rs, hooks.rs), run against the model.
    Translated mechanically from the Rust text. *)
From Verif Require Import Replay.
Local Open Scope N_scope.

(** transmission-protocols/src/tests/mock.rs *)
Local Instance mock : Config := {|
  ed := 1; fees_collector := None; zero_lock_clears := false; nft_data_limit := 10; coll_data_limit := 10;
  coll_size_limit := 10; shards_number := 5; init_mint_fee := 10; init_secret_fee := 75;
  init_capsule_fee := 100; init_mkt_fee := 100; mkt_accounts_limit := 0; mkt_data_limit := 0;
  mkt_colls_limit := 0; auction_ed := 1; min_auction_duration := 0; max_auction_duration := 0;
  max_auction_delay := 0; grace_period := 0; ending_period := 0; bidder_limit := 0; parallel_auctions := 0;
  auction_actions := 0; auction_pot := 100; rent_ed := 1; rent_accounts_limit := 0; rent_limit := 0;
  rent_actions := 0; availability_limit := 0; duration_limit := 0; rent_pot := 101; init_at_block_fee := 5;
  init_at_block_reset_fee := 10; init_on_consent_fee := 15; init_on_consent_at_block_fee := 20;
  max_block_duration := 1000; consent_limit := 10; trans_limit := 100; trans_actions := 10; cluster_size := 2;
  uri_limit := 12; list_limit := 10; init_staking_amount := 20; bonding_duration := 10; tee_pot := 102;
  init_reward_pool := 2000; history_depth := 50; own_chain := 0; proposal_lifetime := 0;
  init_vote_threshold := 0; relayer_limit := 0; init_bridge_fee := 0; staking_pot := 103;
  external_ok := fun _ => false; hook_order := [HookTrans]
|}.

Definition start_with (l : list (N * N)) : state := init_state 1 None (list_to_map l) ∅.

(** * extrinsics, set_transmission_protocol *)
Example set_transmission_protocol_at_block : (ok (sg 1) (C_create_nft [] 0 None false) >> ok (sg 2) (C_create_nft [] 0 None false) >> 
  now_ (fun s1 => chk (fun _ => (if nfts (s_nft s1) !! 0 then true else false) = true) >> 
  chk (fun _ => (if nfts (s_nft s1) !! 1 then true else false) = true) >> 
  ok (sg 1) (C_set_transmission_protocol 0 2 (AtBlock 10) CancelNone) >> 
  now_ (fun s2 => chk (fun _ => (if nfts (s_nft s2) !! 0 then true else false) = true) >> 
  chk (fun _ => (is_transmission (nstate (default dnft (nfts (s_nft s2) !! 0)))) = true) >> 
  chk (fun _ => (if transs (s_trans s2) !! 0 then true else false) = true) >> 
  chk (fun _ => (q_get 0 (t_queue (s_trans s2))) = (Some 10)) >> chk (fun _ => (consents (s_trans s2) !! 0) = None) >> 
  chk (fun _ => (bal 1 s2) = ((bal 1 s1) - (fee_at_block (s_trans s2)))) >> last_ (Ev_ProtocolSet 0 2 (AtBlock 10) CancelNone) >> fin)))
  (start_with [(1, 1000); (2, 1000)]).
Proof. replay. Qed.
Example set_transmission_protocol_at_block_with_reset : (ok (sg 1) (C_create_nft [] 0 None false) >> ok (sg 2) (C_create_nft [] 0 None false) >> 
  now_ (fun s1 => chk (fun _ => (if nfts (s_nft s1) !! 0 then true else false) = true) >> 
  chk (fun _ => (if nfts (s_nft s1) !! 1 then true else false) = true) >> 
  ok (sg 1) (C_set_transmission_protocol 0 2 (AtBlockWithReset 10) CancelNone) >> 
  now_ (fun s2 => chk (fun _ => (if nfts (s_nft s2) !! 0 then true else false) = true) >> 
  chk (fun _ => (is_transmission (nstate (default dnft (nfts (s_nft s2) !! 0)))) = true) >> 
  chk (fun _ => (if transs (s_trans s2) !! 0 then true else false) = true) >> 
  chk (fun _ => (q_get 0 (t_queue (s_trans s2))) = (Some 10)) >> chk (fun _ => (consents (s_trans s2) !! 0) = None) >> 
  chk (fun _ => (bal 1 s2) = ((bal 1 s1) - (fee_at_block_reset (s_trans s2)))) >> 
  last_ (Ev_ProtocolSet 0 2 (AtBlockWithReset 10) CancelNone) >> fin)))
  (start_with [(1, 1000); (2, 1000)]).
Proof. replay. Qed.
Example set_transmission_protocol_on_consent : (ok (sg 1) (C_create_nft [] 0 None false) >> ok (sg 2) (C_create_nft [] 0 None false) >> 
  now_ (fun s1 => chk (fun _ => (if nfts (s_nft s1) !! 0 then true else false) = true) >> 
  chk (fun _ => (if nfts (s_nft s1) !! 1 then true else false) = true) >> 
  ok (sg 1) (C_set_transmission_protocol 0 2 (OnConsent [1; 2; 3; 4] 2) CancelNone) >> 
  now_ (fun s2 => chk (fun _ => (if nfts (s_nft s2) !! 0 then true else false) = true) >> 
  chk (fun _ => (is_transmission (nstate (default dnft (nfts (s_nft s2) !! 0)))) = true) >> 
  chk (fun _ => (if transs (s_trans s2) !! 0 then true else false) = true) >> 
  chk (fun _ => (q_get 0 (t_queue (s_trans s2))) = None) >> chk (fun _ => (consents (s_trans s2) !! 0) = None) >> 
  chk (fun _ => (bal 1 s2) = ((bal 1 s1) - (fee_on_consent (s_trans s2)))) >> 
  last_ (Ev_ProtocolSet 0 2 (OnConsent [1; 2; 3; 4] 2) CancelNone) >> fin)))
  (start_with [(1, 1000); (2, 1000)]).
Proof. replay. Qed.
Example set_transmission_protocol_on_consent_at_block : (ok (sg 1) (C_create_nft [] 0 None false) >> ok (sg 2) (C_create_nft [] 0 None false) >> 
  now_ (fun s1 => chk (fun _ => (if nfts (s_nft s1) !! 0 then true else false) = true) >> 
  chk (fun _ => (if nfts (s_nft s1) !! 1 then true else false) = true) >> 
  ok (sg 1) (C_set_transmission_protocol 0 2 (OnConsentAtBlock [1; 2; 3; 4] 2 10) CancelNone) >> 
  now_ (fun s2 => chk (fun _ => (if nfts (s_nft s2) !! 0 then true else false) = true) >> 
  chk (fun _ => (is_transmission (nstate (default dnft (nfts (s_nft s2) !! 0)))) = true) >> 
  chk (fun _ => (if transs (s_trans s2) !! 0 then true else false) = true) >> 
  chk (fun _ => (q_get 0 (t_queue (s_trans s2))) = None) >> chk (fun _ => (consents (s_trans s2) !! 0) = None) >> 
  chk (fun _ => (bal 1 s2) = ((bal 1 s1) - (fee_on_consent_at_block (s_trans s2)))) >> 
  last_ (Ev_ProtocolSet 0 2 (OnConsentAtBlock [1; 2; 3; 4] 2 10) CancelNone) >> fin)))
  (start_with [(1, 1000); (2, 1000)]).
Proof. replay. Qed.
Example nft_not_found : (ok (sg 1) (C_create_nft [] 0 None false) >> ok (sg 2) (C_create_nft [] 0 None false) >> 
  now_ (fun s1 => chk (fun _ => (if nfts (s_nft s1) !! 0 then true else false) = true) >> 
  chk (fun _ => (if nfts (s_nft s1) !! 1 then true else false) = true) >> 
  no (sg 1) (C_set_transmission_protocol 1001 2 (AtBlock 10) CancelNone) (Trans_err T_NFTNotFound) >> fin))
  (start_with [(1, 1000); (2, 1000)]).
Proof. replay. Qed.
Example not_the_nft_owner : (ok (sg 1) (C_create_nft [] 0 None false) >> ok (sg 2) (C_create_nft [] 0 None false) >> 
  now_ (fun s1 => chk (fun _ => (if nfts (s_nft s1) !! 0 then true else false) = true) >> 
  chk (fun _ => (if nfts (s_nft s1) !! 1 then true else false) = true) >> 
  no (sg 1) (C_set_transmission_protocol 1 2 (AtBlock 10) CancelNone) (Trans_err T_NotTheNFTOwner) >> fin))
  (start_with [(1, 1000); (2, 1000)]).
Proof. replay. Qed.
Example invalid_recipient : (ok (sg 1) (C_create_nft [] 0 None false) >> ok (sg 2) (C_create_nft [] 0 None false) >> 
  now_ (fun s1 => chk (fun _ => (if nfts (s_nft s1) !! 0 then true else false) = true) >> 
  chk (fun _ => (if nfts (s_nft s1) !! 1 then true else false) = true) >> 
  no (sg 1) (C_set_transmission_protocol 0 1 (AtBlock 10) CancelNone) (Trans_err T_InvalidRecipient) >> fin))
  (start_with [(1, 1000); (2, 1000)]).
Proof. replay. Qed.
Example cannot_set_transmission_for_listed_nfts : (ok (sg 1) (C_create_nft [] 0 None false) >> ok (sg 2) (C_create_nft [] 0 None false) >> 
  now_ (fun s1 => chk (fun _ => (if nfts (s_nft s1) !! 0 then true else false) = true) >> 
  chk (fun _ => (if nfts (s_nft s1) !! 1 then true else false) = true) >> 
  chk (fun _ => (if nfts (s_nft s1) !! 0 then true else false) = true) >> 
  edit 0 (fun _ => (default dnft (nfts (s_nft s1) !! 0)) <| nstate := (nstate (default dnft (nfts (s_nft s1) !! 0))) <| is_listed := true |> |>) >> 
  no (sg 1) (C_set_transmission_protocol 0 2 (AtBlock 10) CancelNone) (Trans_err T_CannotSetTransmissionForListedNFTs) >> fin))
  (start_with [(1, 1000); (2, 1000)]).
Proof. replay. Qed.
Example cannot_set_transmission_for_delegated_nfts : (ok (sg 1) (C_create_nft [] 0 None false) >> ok (sg 2) (C_create_nft [] 0 None false) >> 
  now_ (fun s1 => chk (fun _ => (if nfts (s_nft s1) !! 0 then true else false) = true) >> 
  chk (fun _ => (if nfts (s_nft s1) !! 1 then true else false) = true) >> 
  chk (fun _ => (if nfts (s_nft s1) !! 0 then true else false) = true) >> 
  edit 0 (fun _ => (default dnft (nfts (s_nft s1) !! 0)) <| nstate := (nstate (default dnft (nfts (s_nft s1) !! 0))) <| is_delegated := true |> |>) >> 
  no (sg 1) (C_set_transmission_protocol 0 2 (AtBlock 10) CancelNone) (Trans_err T_CannotSetTransmissionForDelegatedNFTs) >> fin))
  (start_with [(1, 1000); (2, 1000)]).
Proof. replay. Qed.
Example cannot_set_transmission_for_rented_nfts : (ok (sg 1) (C_create_nft [] 0 None false) >> ok (sg 2) (C_create_nft [] 0 None false) >> 
  now_ (fun s1 => chk (fun _ => (if nfts (s_nft s1) !! 0 then true else false) = true) >> 
  chk (fun _ => (if nfts (s_nft s1) !! 1 then true else false) = true) >> 
  chk (fun _ => (if nfts (s_nft s1) !! 0 then true else false) = true) >> 
  edit 0 (fun _ => (default dnft (nfts (s_nft s1) !! 0)) <| nstate := (nstate (default dnft (nfts (s_nft s1) !! 0))) <| is_rented := true |> |>) >> 
  no (sg 1) (C_set_transmission_protocol 0 2 (AtBlock 10) CancelNone) (Trans_err T_CannotSetTransmissionForRentedNFTs) >> fin))
  (start_with [(1, 1000); (2, 1000)]).
Proof. replay. Qed.
Example cannot_set_transmission_for_not_created_soulbound_nfts : (ok (sg 1) (C_create_nft [] 0 None false) >> ok (sg 2) (C_create_nft [] 0 None false) >> 
  now_ (fun s1 => chk (fun _ => (if nfts (s_nft s1) !! 0 then true else false) = true) >> 
  chk (fun _ => (if nfts (s_nft s1) !! 1 then true else false) = true) >> 
  chk (fun _ => (if nfts (s_nft s1) !! 1 then true else false) = true) >> 
  edit 1 (fun _ => ((default dnft (nfts (s_nft s1) !! 1)) <| owner := 1 |>) <| nstate := (nstate ((default dnft (nfts (s_nft s1) !! 1)) <| owner := 1 |>)) <| is_soulbound := true |> |>) >> 
  no (sg 1) (C_set_transmission_protocol 1 2 (AtBlock 10) CancelNone) (Trans_err T_CannotSetTransmissionForNotCreatedSoulboundNFTs) >> fin))
  (start_with [(1, 1000); (2, 1000)]).
Proof. replay. Qed.
Example cannot_set_transmission_for_syncing_secret_nfts : (ok (sg 1) (C_create_nft [] 0 None false) >> ok (sg 2) (C_create_nft [] 0 None false) >> 
  now_ (fun s1 => chk (fun _ => (if nfts (s_nft s1) !! 0 then true else false) = true) >> 
  chk (fun _ => (if nfts (s_nft s1) !! 1 then true else false) = true) >> 
  chk (fun _ => (if nfts (s_nft s1) !! 0 then true else false) = true) >> 
  edit 0 (fun _ => (default dnft (nfts (s_nft s1) !! 0)) <| nstate := (nstate (default dnft (nfts (s_nft s1) !! 0))) <| is_syncing_secret := true |> |>) >> 
  no (sg 1) (C_set_transmission_protocol 0 2 (AtBlock 10) CancelNone) (Trans_err T_CannotSetTransmissionForSyncingSecretNFTs) >> fin))
  (start_with [(1, 1000); (2, 1000)]).
Proof. replay. Qed.
Example cannot_set_transmission_for_syncing_capsules : (ok (sg 1) (C_create_nft [] 0 None false) >> ok (sg 2) (C_create_nft [] 0 None false) >> 
  now_ (fun s1 => chk (fun _ => (if nfts (s_nft s1) !! 0 then true else false) = true) >> 
  chk (fun _ => (if nfts (s_nft s1) !! 1 then true else false) = true) >> 
  chk (fun _ => (if nfts (s_nft s1) !! 0 then true else false) = true) >> 
  edit 0 (fun _ => (default dnft (nfts (s_nft s1) !! 0)) <| nstate := (nstate (default dnft (nfts (s_nft s1) !! 0))) <| is_syncing_capsule := true |> |>) >> 
  no (sg 1) (C_set_transmission_protocol 0 2 (AtBlock 10) CancelNone) (Trans_err T_CannotSetTransmissionForSyncingCapsules) >> fin))
  (start_with [(1, 1000); (2, 1000)]).
Proof. replay. Qed.
Example cannot_set_transmission_for_nfts_in_transmission : (ok (sg 1) (C_create_nft [] 0 None false) >> ok (sg 2) (C_create_nft [] 0 None false) >> 
  now_ (fun s1 => chk (fun _ => (if nfts (s_nft s1) !! 0 then true else false) = true) >> 
  chk (fun _ => (if nfts (s_nft s1) !! 1 then true else false) = true) >> 
  chk (fun _ => (if nfts (s_nft s1) !! 0 then true else false) = true) >> 
  edit 0 (fun _ => (default dnft (nfts (s_nft s1) !! 0)) <| nstate := (nstate (default dnft (nfts (s_nft s1) !! 0))) <| is_transmission := true |> |>) >> 
  no (sg 1) (C_set_transmission_protocol 0 2 (AtBlock 10) CancelNone) (Trans_err T_CannotSetTransmissionForNFTsInTransmission) >> fin))
  (start_with [(1, 1000); (2, 1000)]).
Proof. replay. Qed.
Example cannot_set_transmission_in_the_past : (ok (sg 1) (C_create_nft [] 0 None false) >> ok (sg 2) (C_create_nft [] 0 None false) >> 
  now_ (fun s1 => chk (fun _ => (if nfts (s_nft s1) !! 0 then true else false) = true) >> 
  chk (fun _ => (if nfts (s_nft s1) !! 1 then true else false) = true) >> blk 20 >> 
  no (sg 1) (C_set_transmission_protocol 0 2 (AtBlockWithReset 10) CancelNone) (Trans_err T_CannotSetTransmissionInThePast) >> fin))
  (start_with [(1, 1000); (2, 1000)]).
Proof. replay. Qed.
Example transmission_is_in_too_much_time : (ok (sg 1) (C_create_nft [] 0 None false) >> ok (sg 2) (C_create_nft [] 0 None false) >> 
  now_ (fun s1 => chk (fun _ => (if nfts (s_nft s1) !! 0 then true else false) = true) >> 
  chk (fun _ => (if nfts (s_nft s1) !! 1 then true else false) = true) >> blk 10 >> 
  no (sg 1) (C_set_transmission_protocol 0 2 (AtBlockWithReset 1011) CancelNone) (Trans_err T_TransmissionIsInTooMuchTime) >> fin))
  (start_with [(1, 1000); (2, 1000)]).
Proof. replay. Qed.
Example threshold_too_low : (ok (sg 1) (C_create_nft [] 0 None false) >> ok (sg 2) (C_create_nft [] 0 None false) >> 
  now_ (fun s1 => chk (fun _ => (if nfts (s_nft s1) !! 0 then true else false) = true) >> 
  chk (fun _ => (if nfts (s_nft s1) !! 1 then true else false) = true) >> 
  no (sg 1) (C_set_transmission_protocol 0 2 (OnConsent [1] 0) CancelNone) (Trans_err T_ThresholdTooLow) >> fin))
  (start_with [(1, 1000); (2, 1000)]).
Proof. replay. Qed.
Example threshold_too_high : (ok (sg 1) (C_create_nft [] 0 None false) >> ok (sg 2) (C_create_nft [] 0 None false) >> 
  now_ (fun s1 => chk (fun _ => (if nfts (s_nft s1) !! 0 then true else false) = true) >> 
  chk (fun _ => (if nfts (s_nft s1) !! 1 then true else false) = true) >> 
  no (sg 1) (C_set_transmission_protocol 0 2 (OnConsent [1] 11) CancelNone) (Trans_err T_ThresholdTooHigh) >> fin))
  (start_with [(1, 1000); (2, 1000)]).
Proof. replay. Qed.
Example invalid_consent_list : (ok (sg 1) (C_create_nft [] 0 None false) >> ok (sg 2) (C_create_nft [] 0 None false) >> 
  now_ (fun s1 => chk (fun _ => (if nfts (s_nft s1) !! 0 then true else false) = true) >> 
  chk (fun _ => (if nfts (s_nft s1) !! 1 then true else false) = true) >> 
  no (sg 1) (C_set_transmission_protocol 0 2 (OnConsent [1] 10) CancelNone) (Trans_err T_InvalidConsentList) >> fin))
  (start_with [(1, 1000); (2, 1000)]).
Proof. replay. Qed.
Example duplicate_in_consent_list : (ok (sg 1) (C_create_nft [] 0 None false) >> ok (sg 2) (C_create_nft [] 0 None false) >> 
  now_ (fun s1 => chk (fun _ => (if nfts (s_nft s1) !! 0 then true else false) = true) >> 
  chk (fun _ => (if nfts (s_nft s1) !! 1 then true else false) = true) >> 
  no (sg 1) (C_set_transmission_protocol 0 2 (OnConsent [1; 1] 2) CancelNone) (Trans_err T_DuplicatesInConsentList) >> fin))
  (start_with [(1, 1000); (2, 1000)]).
Proof. replay. Qed.
Example simultaneous_transmission_limit_reached : (ok (sg 1) (C_create_nft [] 0 None false) >> ok (sg 2) (C_create_nft [] 0 None false) >> 
  now_ (fun s1 => chk (fun _ => (if nfts (s_nft s1) !! 0 then true else false) = true) >> 
  chk (fun _ => (if nfts (s_nft s1) !! 1 then true else false) = true) >> 
  upd (fun s => s <| s_trans ::= fun t => t <| t_queue ::= fun q => N.iter 100 (q_ins (1, 100)) q |> |>) >> 
  no (sg 1) (C_set_transmission_protocol 0 2 (AtBlock 10) CancelNone) (Trans_err T_SimultaneousTransmissionLimitReached) >> fin))
  (start_with [(1, 1000); (2, 1000)]).
Proof. replay. Qed.
Example insufficient_balance : (ok (sg 1) (C_create_nft [] 0 None false) >> ok (sg 2) (C_create_nft [] 0 None false) >> 
  now_ (fun s1 => chk (fun _ => (if nfts (s_nft s1) !! 0 then true else false) = true) >> 
  chk (fun _ => (if nfts (s_nft s1) !! 1 then true else false) = true) >> set_bal 1 0 >> 
  no (sg 1) (C_set_transmission_protocol 0 2 (AtBlock 10) CancelNone) (Balances_InsufficientBalance) >> fin))
  (start_with [(1, 1000); (2, 1000)]).
Proof. replay. Qed.

(** * extrinsics, remove_transmission_protocol *)
Example remove_transmission_protocol_at_block : (ok (sg 1) (C_create_nft [] 0 None false) >> ok (sg 2) (C_create_nft [] 0 None false) >> 
  now_ (fun s1 => chk (fun _ => (if nfts (s_nft s1) !! 0 then true else false) = true) >> 
  chk (fun _ => (if nfts (s_nft s1) !! 1 then true else false) = true) >> 
  ok (sg 1) (C_set_transmission_protocol 0 2 (AtBlock 10) Anytime) >> ok (sg 1) (C_remove_transmission_protocol 0) >> 
  now_ (fun s2 => chk (fun _ => (if nfts (s_nft s2) !! 0 then true else false) = true) >> 
  chk (fun _ => (negb (is_transmission (nstate (default dnft (nfts (s_nft s2) !! 0))))) = true) >> 
  chk (fun _ => (if transs (s_trans s2) !! 0 then false else true) = true) >> 
  chk (fun _ => (q_get 0 (t_queue (s_trans s2))) = None) >> chk (fun _ => (consents (s_trans s2) !! 0) = None) >> 
  last_ (Ev_ProtocolRemoved 0) >> fin)))
  (start_with [(1, 1000); (2, 1000)]).
Proof. replay. Qed.
Example remove_transmission_protocol_at_block_with_reset : (ok (sg 1) (C_create_nft [] 0 None false) >> ok (sg 2) (C_create_nft [] 0 None false) >> 
  now_ (fun s1 => chk (fun _ => (if nfts (s_nft s1) !! 0 then true else false) = true) >> 
  chk (fun _ => (if nfts (s_nft s1) !! 1 then true else false) = true) >> 
  ok (sg 1) (C_set_transmission_protocol 0 2 (AtBlockWithReset 10) (UntilBlock 8)) >> 
  ok (sg 1) (C_remove_transmission_protocol 0) >> 
  now_ (fun s2 => chk (fun _ => (if nfts (s_nft s2) !! 0 then true else false) = true) >> 
  chk (fun _ => (negb (is_transmission (nstate (default dnft (nfts (s_nft s2) !! 0))))) = true) >> 
  chk (fun _ => (if transs (s_trans s2) !! 0 then false else true) = true) >> 
  chk (fun _ => (q_get 0 (t_queue (s_trans s2))) = None) >> chk (fun _ => (consents (s_trans s2) !! 0) = None) >> 
  last_ (Ev_ProtocolRemoved 0) >> fin)))
  (start_with [(1, 1000); (2, 1000)]).
Proof. replay. Qed.
Example remove_transmission_protocol_on_consent : (ok (sg 1) (C_create_nft [] 0 None false) >> ok (sg 2) (C_create_nft [] 0 None false) >> 
  now_ (fun s1 => chk (fun _ => (if nfts (s_nft s1) !! 0 then true else false) = true) >> 
  chk (fun _ => (if nfts (s_nft s1) !! 1 then true else false) = true) >> 
  ok (sg 1) (C_set_transmission_protocol 0 2 (OnConsent [1; 2; 3; 4] 2) (UntilBlock 8)) >> ok (sg 2) (C_add_consent 0) >> 
  ok (sg 1) (C_remove_transmission_protocol 0) >> 
  now_ (fun s2 => chk (fun _ => (if nfts (s_nft s2) !! 0 then true else false) = true) >> 
  chk (fun _ => (negb (is_transmission (nstate (default dnft (nfts (s_nft s2) !! 0))))) = true) >> 
  chk (fun _ => (if transs (s_trans s2) !! 0 then false else true) = true) >> 
  chk (fun _ => (q_get 0 (t_queue (s_trans s2))) = None) >> chk (fun _ => (consents (s_trans s2) !! 0) = None) >> 
  last_ (Ev_ProtocolRemoved 0) >> fin)))
  (start_with [(1, 1000); (2, 1000)]).
Proof. replay. Qed.
Example remove_transmission_protocol_on_consent_at_block : (ok (sg 1) (C_create_nft [] 0 None false) >> ok (sg 2) (C_create_nft [] 0 None false) >> 
  now_ (fun s1 => chk (fun _ => (if nfts (s_nft s1) !! 0 then true else false) = true) >> 
  chk (fun _ => (if nfts (s_nft s1) !! 1 then true else false) = true) >> 
  ok (sg 1) (C_set_transmission_protocol 0 2 (OnConsentAtBlock [1; 2; 3; 4] 2 10) (UntilBlock 8)) >> ok (sg 2) (C_add_consent 0) >> 
  ok (sg 1) (C_remove_transmission_protocol 0) >> 
  now_ (fun s2 => chk (fun _ => (if nfts (s_nft s2) !! 0 then true else false) = true) >> 
  chk (fun _ => (negb (is_transmission (nstate (default dnft (nfts (s_nft s2) !! 0))))) = true) >> 
  chk (fun _ => (if transs (s_trans s2) !! 0 then false else true) = true) >> 
  chk (fun _ => (q_get 0 (t_queue (s_trans s2))) = None) >> chk (fun _ => (consents (s_trans s2) !! 0) = None) >> 
  last_ (Ev_ProtocolRemoved 0) >> fin)))
  (start_with [(1, 1000); (2, 1000)]).
Proof. replay. Qed.
Example remove_transmission_protocol_nft_not_found : (ok (sg 1) (C_create_nft [] 0 None false) >> ok (sg 2) (C_create_nft [] 0 None false) >> 
  now_ (fun s1 => chk (fun _ => (if nfts (s_nft s1) !! 0 then true else false) = true) >> 
  chk (fun _ => (if nfts (s_nft s1) !! 1 then true else false) = true) >> 
  no (sg 1) (C_remove_transmission_protocol 1001) (Trans_err T_NFTNotFound) >> fin))
  (start_with [(1, 1000); (2, 1000)]).
Proof. replay. Qed.
Example remove_transmission_protocol_not_the_nft_owner : (ok (sg 1) (C_create_nft [] 0 None false) >> ok (sg 2) (C_create_nft [] 0 None false) >> 
  now_ (fun s1 => chk (fun _ => (if nfts (s_nft s1) !! 0 then true else false) = true) >> 
  chk (fun _ => (if nfts (s_nft s1) !! 1 then true else false) = true) >> 
  no (sg 1) (C_remove_transmission_protocol 1) (Trans_err T_NotTheNFTOwner) >> fin))
  (start_with [(1, 1000); (2, 1000)]).
Proof. replay. Qed.
Example nft_not_in_transmission : (ok (sg 1) (C_create_nft [] 0 None false) >> ok (sg 2) (C_create_nft [] 0 None false) >> 
  now_ (fun s1 => chk (fun _ => (if nfts (s_nft s1) !! 0 then true else false) = true) >> 
  chk (fun _ => (if nfts (s_nft s1) !! 1 then true else false) = true) >> 
  no (sg 1) (C_remove_transmission_protocol 0) (Trans_err T_NFTIsNotInTransmission) >> fin))
  (start_with [(1, 1000); (2, 1000)]).
Proof. replay. Qed.
Example transmission_not_found : (ok (sg 1) (C_create_nft [] 0 None false) >> ok (sg 2) (C_create_nft [] 0 None false) >> 
  now_ (fun s1 => chk (fun _ => (if nfts (s_nft s1) !! 0 then true else false) = true) >> 
  chk (fun _ => (if nfts (s_nft s1) !! 1 then true else false) = true) >> 
  chk (fun _ => (if nfts (s_nft s1) !! 0 then true else false) = true) >> 
  edit 0 (fun _ => (default dnft (nfts (s_nft s1) !! 0)) <| nstate := (nstate (default dnft (nfts (s_nft s1) !! 0))) <| is_transmission := true |> |>) >> 
  no (sg 1) (C_remove_transmission_protocol 0) (Trans_err T_TransmissionNotFound) >> fin))
  (start_with [(1, 1000); (2, 1000)]).
Proof. replay. Qed.
Example protocol_not_cancellable : (ok (sg 1) (C_create_nft [] 0 None false) >> ok (sg 2) (C_create_nft [] 0 None false) >> 
  now_ (fun s1 => chk (fun _ => (if nfts (s_nft s1) !! 0 then true else false) = true) >> 
  chk (fun _ => (if nfts (s_nft s1) !! 1 then true else false) = true) >> 
  ok (sg 1) (C_set_transmission_protocol 0 2 (AtBlock 10) CancelNone) >> 
  no (sg 1) (C_remove_transmission_protocol 0) (Trans_err T_ProtocolIsNotCancellable) >> fin))
  (start_with [(1, 1000); (2, 1000)]).
Proof. replay. Qed.
Example protocol_not_cancellable_until_block_passed : (ok (sg 1) (C_create_nft [] 0 None false) >> ok (sg 2) (C_create_nft [] 0 None false) >> 
  now_ (fun s1 => chk (fun _ => (if nfts (s_nft s1) !! 0 then true else false) = true) >> 
  chk (fun _ => (if nfts (s_nft s1) !! 1 then true else false) = true) >> 
  ok (sg 1) (C_set_transmission_protocol 0 2 (AtBlock 10) (UntilBlock 8)) >> blk 9 >> 
  no (sg 1) (C_remove_transmission_protocol 0) (Trans_err T_ProtocolIsNotCancellable) >> fin))
  (start_with [(1, 1000); (2, 1000)]).
Proof. replay. Qed.

(** * extrinsics, reset_timer *)
Example reset_timer : (ok (sg 1) (C_create_nft [] 0 None false) >> ok (sg 2) (C_create_nft [] 0 None false) >> 
  now_ (fun s1 => chk (fun _ => (if nfts (s_nft s1) !! 0 then true else false) = true) >> 
  chk (fun _ => (if nfts (s_nft s1) !! 1 then true else false) = true) >> 
  ok (sg 1) (C_set_transmission_protocol 0 2 (AtBlockWithReset 10) Anytime) >> ok (sg 1) (C_reset_timer 0 20) >> 
  now_ (fun s2 => chk (fun _ => (if nfts (s_nft s2) !! 0 then true else false) = true) >> 
  chk (fun _ => (is_transmission (nstate (default dnft (nfts (s_nft s2) !! 0)))) = true) >> 
  chk (fun _ => (if transs (s_trans s2) !! 0 then true else false) = true) >> 
  chk (fun _ => (q_get 0 (t_queue (s_trans s2))) = (Some 20)) >> last_ (Ev_TimerReset 0 20) >> fin)))
  (start_with [(1, 1000); (2, 1000)]).
Proof. replay. Qed.
Example reset_timer_nft_not_found : (ok (sg 1) (C_create_nft [] 0 None false) >> ok (sg 2) (C_create_nft [] 0 None false) >> 
  now_ (fun s1 => chk (fun _ => (if nfts (s_nft s1) !! 0 then true else false) = true) >> 
  chk (fun _ => (if nfts (s_nft s1) !! 1 then true else false) = true) >> 
  no (sg 1) (C_reset_timer 1001 20) (Trans_err T_NFTNotFound) >> fin))
  (start_with [(1, 1000); (2, 1000)]).
Proof. replay. Qed.
Example reset_timer_not_the_nft_owner : (ok (sg 1) (C_create_nft [] 0 None false) >> ok (sg 2) (C_create_nft [] 0 None false) >> 
  now_ (fun s1 => chk (fun _ => (if nfts (s_nft s1) !! 0 then true else false) = true) >> 
  chk (fun _ => (if nfts (s_nft s1) !! 1 then true else false) = true) >> 
  no (sg 1) (C_reset_timer 1 20) (Trans_err T_NotTheNFTOwner) >> fin))
  (start_with [(1, 1000); (2, 1000)]).
Proof. replay. Qed.
Example nfts_not_in_transmission : (ok (sg 1) (C_create_nft [] 0 None false) >> ok (sg 2) (C_create_nft [] 0 None false) >> 
  now_ (fun s1 => chk (fun _ => (if nfts (s_nft s1) !! 0 then true else false) = true) >> 
  chk (fun _ => (if nfts (s_nft s1) !! 1 then true else false) = true) >> 
  no (sg 1) (C_reset_timer 0 20) (Trans_err T_NFTIsNotInTransmission) >> fin))
  (start_with [(1, 1000); (2, 1000)]).
Proof. replay. Qed.
Example reset_timer_transmission_not_found : (ok (sg 1) (C_create_nft [] 0 None false) >> ok (sg 2) (C_create_nft [] 0 None false) >> 
  now_ (fun s1 => chk (fun _ => (if nfts (s_nft s1) !! 0 then true else false) = true) >> 
  chk (fun _ => (if nfts (s_nft s1) !! 1 then true else false) = true) >> 
  chk (fun _ => (if nfts (s_nft s1) !! 0 then true else false) = true) >> 
  edit 0 (fun _ => (default dnft (nfts (s_nft s1) !! 0)) <| nstate := (nstate (default dnft (nfts (s_nft s1) !! 0))) <| is_transmission := true |> |>) >> 
  no (sg 1) (C_reset_timer 0 20) (Trans_err T_TransmissionNotFound) >> fin))
  (start_with [(1, 1000); (2, 1000)]).
Proof. replay. Qed.
Example protocol_timer_cannot_be_reset : (ok (sg 1) (C_create_nft [] 0 None false) >> ok (sg 2) (C_create_nft [] 0 None false) >> 
  now_ (fun s1 => chk (fun _ => (if nfts (s_nft s1) !! 0 then true else false) = true) >> 
  chk (fun _ => (if nfts (s_nft s1) !! 1 then true else false) = true) >> 
  ok (sg 1) (C_set_transmission_protocol 0 2 (AtBlock 10) Anytime) >> 
  no (sg 1) (C_reset_timer 0 20) (Trans_err T_ProtocolTimerCannotBeReset) >> fin))
  (start_with [(1, 1000); (2, 1000)]).
Proof. replay. Qed.
Example reset_timer_cannot_set_transmission_in_the_past : (ok (sg 1) (C_create_nft [] 0 None false) >> ok (sg 2) (C_create_nft [] 0 None false) >> 
  now_ (fun s1 => chk (fun _ => (if nfts (s_nft s1) !! 0 then true else false) = true) >> 
  chk (fun _ => (if nfts (s_nft s1) !! 1 then true else false) = true) >> 
  ok (sg 1) (C_set_transmission_protocol 0 2 (AtBlockWithReset 10) Anytime) >> blk 5 >> 
  no (sg 1) (C_reset_timer 0 5) (Trans_err T_CannotSetTransmissionInThePast) >> fin))
  (start_with [(1, 1000); (2, 1000)]).
Proof. replay. Qed.
Example reset_timer_transmission_is_in_too_much_time : (ok (sg 1) (C_create_nft [] 0 None false) >> ok (sg 2) (C_create_nft [] 0 None false) >> 
  now_ (fun s1 => chk (fun _ => (if nfts (s_nft s1) !! 0 then true else false) = true) >> 
  chk (fun _ => (if nfts (s_nft s1) !! 1 then true else false) = true) >> blk 10 >> 
  ok (sg 1) (C_set_transmission_protocol 0 2 (AtBlockWithReset 20) Anytime) >> blk 5 >> 
  no (sg 1) (C_reset_timer 0 1021) (Trans_err T_TransmissionIsInTooMuchTime) >> fin))
  (start_with [(1, 1000); (2, 1000)]).
Proof. replay. Qed.

(** * extrinsics, add_consent *)
Example add_consent : (ok (sg 1) (C_create_nft [] 0 None false) >> ok (sg 2) (C_create_nft [] 0 None false) >> 
  now_ (fun s1 => chk (fun _ => (if nfts (s_nft s1) !! 0 then true else false) = true) >> 
  chk (fun _ => (if nfts (s_nft s1) !! 1 then true else false) = true) >> 
  ok (sg 1) (C_set_transmission_protocol 0 2 (OnConsent [1; 2; 3; 4] 2) Anytime) >> ok (sg 2) (C_add_consent 0) >> 
  now_ (fun s2 => chk (fun _ => (if nfts (s_nft s2) !! 0 then true else false) = true) >> 
  chk (fun _ => (if consents (s_trans s2) !! 0 then true else false) = true) >> 
  chk (fun _ => (is_transmission (nstate (default dnft (nfts (s_nft s2) !! 0)))) = true) >> 
  chk (fun _ => (if transs (s_trans s2) !! 0 then true else false) = true) >> 
  chk (fun _ => (nlen (default [] (consents (s_trans s2) !! 0))) = 1) >> 
  chk (fun _ => (existsb (N.eqb 2) (default [] (consents (s_trans s2) !! 0))) = true) >> last_ (Ev_ConsentAdded 0 2) >> fin)))
  (start_with [(1, 1000); (2, 1000)]).
Proof. replay. Qed.
Example add_consent_reached_threshold_transmitted : (ok (sg 1) (C_create_nft [] 0 None false) >> ok (sg 2) (C_create_nft [] 0 None false) >> 
  now_ (fun s1 => chk (fun _ => (if nfts (s_nft s1) !! 0 then true else false) = true) >> 
  chk (fun _ => (if nfts (s_nft s1) !! 1 then true else false) = true) >> 
  ok (sg 1) (C_set_transmission_protocol 0 2 (OnConsent [1; 2; 3; 4] 2) Anytime) >> ok (sg 1) (C_add_consent 0) >> 
  ok (sg 2) (C_add_consent 0) >> 
  now_ (fun s2 => chk (fun _ => (if nfts (s_nft s2) !! 0 then true else false) = true) >> 
  chk (fun _ => (owner (default dnft (nfts (s_nft s2) !! 0))) = 2) >> 
  chk (fun _ => (negb (is_transmission (nstate (default dnft (nfts (s_nft s2) !! 0))))) = true) >> 
  chk (fun _ => (if transs (s_trans s2) !! 0 then false else true) = true) >> 
  chk (fun _ => (if consents (s_trans s2) !! 0 then false else true) = true) >> has_ (Ev_ConsentAdded 0 1) >> 
  has_ (Ev_ConsentAdded 0 2) >> has_ (Ev_ThresholdReached 0) >> last_ (Ev_Transmitted 0) >> fin)))
  (start_with [(1, 1000); (2, 1000)]).
Proof. replay. Qed.
Example add_consent_reached_threshold_put_in_queue : (ok (sg 1) (C_create_nft [] 0 None false) >> ok (sg 2) (C_create_nft [] 0 None false) >> 
  now_ (fun s1 => chk (fun _ => (if nfts (s_nft s1) !! 0 then true else false) = true) >> 
  chk (fun _ => (if nfts (s_nft s1) !! 1 then true else false) = true) >> 
  ok (sg 1) (C_set_transmission_protocol 0 2 (OnConsentAtBlock [1; 2; 3; 4] 2 10) Anytime) >> ok (sg 1) (C_add_consent 0) >> 
  ok (sg 2) (C_add_consent 0) >> 
  now_ (fun s2 => chk (fun _ => (if nfts (s_nft s2) !! 0 then true else false) = true) >> 
  chk (fun _ => (owner (default dnft (nfts (s_nft s2) !! 0))) = 1) >> 
  chk (fun _ => (is_transmission (nstate (default dnft (nfts (s_nft s2) !! 0)))) = true) >> 
  chk (fun _ => (if transs (s_trans s2) !! 0 then true else false) = true) >> 
  chk (fun _ => (if consents (s_trans s2) !! 0 then false else true) = true) >> 
  chk (fun _ => (q_get 0 (t_queue (s_trans s2))) = (Some 10)) >> has_ (Ev_ConsentAdded 0 1) >> has_ (Ev_ConsentAdded 0 2) >> 
  last_ (Ev_ThresholdReached 0) >> fin)))
  (start_with [(1, 1000); (2, 1000)]).
Proof. replay. Qed.
Example add_consent_nft_not_found : (ok (sg 1) (C_create_nft [] 0 None false) >> ok (sg 2) (C_create_nft [] 0 None false) >> 
  now_ (fun s1 => chk (fun _ => (if nfts (s_nft s1) !! 0 then true else false) = true) >> 
  chk (fun _ => (if nfts (s_nft s1) !! 1 then true else false) = true) >> 
  no (sg 1) (C_add_consent 1001) (Trans_err T_NFTNotFound) >> fin))
  (start_with [(1, 1000); (2, 1000)]).
Proof. replay. Qed.
Example nft_is_not_in_transmission : (ok (sg 1) (C_create_nft [] 0 None false) >> ok (sg 2) (C_create_nft [] 0 None false) >> 
  now_ (fun s1 => chk (fun _ => (if nfts (s_nft s1) !! 0 then true else false) = true) >> 
  chk (fun _ => (if nfts (s_nft s1) !! 1 then true else false) = true) >> 
  no (sg 1) (C_add_consent 0) (Trans_err T_NFTIsNotInTransmission) >> fin))
  (start_with [(1, 1000); (2, 1000)]).
Proof. replay. Qed.
Example add_consent_transmission_not_found : (ok (sg 1) (C_create_nft [] 0 None false) >> ok (sg 2) (C_create_nft [] 0 None false) >> 
  now_ (fun s1 => chk (fun _ => (if nfts (s_nft s1) !! 0 then true else false) = true) >> 
  chk (fun _ => (if nfts (s_nft s1) !! 1 then true else false) = true) >> 
  chk (fun _ => (if nfts (s_nft s1) !! 0 then true else false) = true) >> 
  edit 0 (fun _ => (default dnft (nfts (s_nft s1) !! 0)) <| nstate := (nstate (default dnft (nfts (s_nft s1) !! 0))) <| is_transmission := true |> |>) >> 
  no (sg 1) (C_add_consent 0) (Trans_err T_TransmissionNotFound) >> fin))
  (start_with [(1, 1000); (2, 1000)]).
Proof. replay. Qed.
Example protocol_does_not_accept_consent : (ok (sg 1) (C_create_nft [] 0 None false) >> ok (sg 2) (C_create_nft [] 0 None false) >> 
  now_ (fun s1 => chk (fun _ => (if nfts (s_nft s1) !! 0 then true else false) = true) >> 
  chk (fun _ => (if nfts (s_nft s1) !! 1 then true else false) = true) >> 
  ok (sg 1) (C_set_transmission_protocol 0 2 (AtBlock 10) Anytime) >> 
  no (sg 1) (C_add_consent 0) (Trans_err T_ProtocolDoesNotAcceptConsent) >> fin))
  (start_with [(1, 1000); (2, 1000)]).
Proof. replay. Qed.
Example consent_already_reached_threshold : (ok (sg 1) (C_create_nft [] 0 None false) >> ok (sg 2) (C_create_nft [] 0 None false) >> 
  now_ (fun s1 => chk (fun _ => (if nfts (s_nft s1) !! 0 then true else false) = true) >> 
  chk (fun _ => (if nfts (s_nft s1) !! 1 then true else false) = true) >> 
  ok (sg 1) (C_set_transmission_protocol 0 2 (OnConsentAtBlock [1; 2; 3; 4] 2 10) Anytime) >> ok (sg 1) (C_add_consent 0) >> 
  ok (sg 2) (C_add_consent 0) >> no (sg 3) (C_add_consent 0) (Trans_err T_ConsentAlreadyReachedThreshold) >> fin))
  (start_with [(1, 1000); (2, 1000)]).
Proof. replay. Qed.
Example consent_not_allowed : (ok (sg 1) (C_create_nft [] 0 None false) >> ok (sg 2) (C_create_nft [] 0 None false) >> 
  now_ (fun s1 => chk (fun _ => (if nfts (s_nft s1) !! 0 then true else false) = true) >> 
  chk (fun _ => (if nfts (s_nft s1) !! 1 then true else false) = true) >> 
  ok (sg 1) (C_set_transmission_protocol 0 2 (OnConsentAtBlock [1; 2; 3] 2 10) Anytime) >> 
  no (sg 4) (C_add_consent 0) (Trans_err T_ConsentNotAllowed) >> fin))
  (start_with [(1, 1000); (2, 1000)]).
Proof. replay. Qed.
Example already_added_consent : (ok (sg 1) (C_create_nft [] 0 None false) >> ok (sg 2) (C_create_nft [] 0 None false) >> 
  now_ (fun s1 => chk (fun _ => (if nfts (s_nft s1) !! 0 then true else false) = true) >> 
  chk (fun _ => (if nfts (s_nft s1) !! 1 then true else false) = true) >> 
  ok (sg 1) (C_set_transmission_protocol 0 2 (OnConsentAtBlock [1; 2; 3] 2 10) Anytime) >> ok (sg 1) (C_add_consent 0) >> 
  no (sg 1) (C_add_consent 0) (Trans_err T_AlreadyAddedConsent) >> fin))
  (start_with [(1, 1000); (2, 1000)]).
Proof. replay. Qed.
Example consent_list_full : (ok (sg 1) (C_create_nft [] 0 None false) >> ok (sg 2) (C_create_nft [] 0 None false) >> 
  now_ (fun s1 => chk (fun _ => (if nfts (s_nft s1) !! 0 then true else false) = true) >> 
  chk (fun _ => (if nfts (s_nft s1) !! 1 then true else false) = true) >> 
  ok (sg 1) (C_set_transmission_protocol 0 2 (OnConsentAtBlock [1; 2; 3] 2 10) Anytime) >> 
  upd (fun s => s <| s_trans ::= fun t => t <| consents ::= <[0 := replicate (N.to_nat 10) 2]> |> |>) >> 
  no (sg 1) (C_add_consent 0) (Trans_err T_ConsentListFull) >> fin))
  (start_with [(1, 1000); (2, 1000)]).
Proof. replay. Qed.
Example add_consent_simultaneous_transmission_limit_reached : (ok (sg 1) (C_create_nft [] 0 None false) >> ok (sg 2) (C_create_nft [] 0 None false) >> 
  now_ (fun s1 => chk (fun _ => (if nfts (s_nft s1) !! 0 then true else false) = true) >> 
  chk (fun _ => (if nfts (s_nft s1) !! 1 then true else false) = true) >> 
  ok (sg 1) (C_set_transmission_protocol 0 2 (OnConsentAtBlock [1; 2; 3] 2 10) Anytime) >> 
  upd (fun s => s <| s_trans ::= fun t => t <| t_queue ::= fun q => N.iter 100 (q_ins (1, 100)) q |> |>) >> 
  ok (sg 2) (C_add_consent 0) >> no (sg 1) (C_add_consent 0) (Trans_err T_SimultaneousTransmissionLimitReached) >> fin))
  (start_with [(1, 1000); (2, 1000)]).
Proof. replay. Qed.

(** * extrinsics, set_protocol_fee *)
Example set_protocol_fee : (ok Root (C_set_protocol_fee KAtBlock 20) >> ok Root (C_set_protocol_fee KAtBlockWithReset 40) >> 
  ok Root (C_set_protocol_fee KOnConsent 60) >> ok Root (C_set_protocol_fee KOnConsentAtBlock 80) >> 
  now_ (fun s1 => chk (fun _ => (fee_at_block (s_trans s1)) = 20) >> chk (fun _ => (fee_at_block_reset (s_trans s1)) = 40) >> 
  chk (fun _ => (fee_on_consent (s_trans s1)) = 60) >> chk (fun _ => (fee_on_consent_at_block (s_trans s1)) = 80) >> 
  has_ (Ev_ProtocolFeeSet KAtBlock 20) >> has_ (Ev_ProtocolFeeSet KAtBlockWithReset 40) >> has_ (Ev_ProtocolFeeSet KOnConsent 60) >> 
  has_ (Ev_ProtocolFeeSet KOnConsentAtBlock 80) >> fin))
  (start_with []).
Proof. replay. Qed.
Example bad_origin : (no (sg 1) (C_set_protocol_fee KOnConsentAtBlock 20) (BadOrigin) >> fin)
  (start_with [(1, 10000)]).
Proof. replay. Qed.

(** * hooks *)
Example transmit_at_block : (ok (sg 1) (C_create_nft [] 0 None false) >> ok (sg 2) (C_create_nft [] 0 None false) >> 
  now_ (fun s1 => chk (fun _ => (if nfts (s_nft s1) !! 0 then true else false) = true) >> 
  chk (fun _ => (if nfts (s_nft s1) !! 1 then true else false) = true) >> 
  ok (sg 1) (C_set_transmission_protocol 0 2 (AtBlock 10) CancelNone) >> blk 10 >> 
  now_ (fun s2 => chk (fun _ => (if nfts (s_nft s2) !! 0 then true else false) = true) >> 
  chk (fun _ => (owner (default dnft (nfts (s_nft s2) !! 0))) = 2) >> 
  chk (fun _ => (negb (is_transmission (nstate (default dnft (nfts (s_nft s2) !! 0))))) = true) >> 
  chk (fun _ => (if transs (s_trans s2) !! 0 then false else true) = true) >> 
  chk (fun _ => (q_get 0 (t_queue (s_trans s2))) = None) >> chk (fun _ => (consents (s_trans s2) !! 0) = None) >> 
  last_ (Ev_Transmitted 0) >> fin)))
  (start_with [(1, 1000); (2, 1000)]).
Proof. replay. Qed.
Example transmit_at_block_with_reset : (ok (sg 1) (C_create_nft [] 0 None false) >> ok (sg 2) (C_create_nft [] 0 None false) >> 
  now_ (fun s1 => chk (fun _ => (if nfts (s_nft s1) !! 0 then true else false) = true) >> 
  chk (fun _ => (if nfts (s_nft s1) !! 1 then true else false) = true) >> 
  ok (sg 1) (C_set_transmission_protocol 0 2 (AtBlockWithReset 10) CancelNone) >> blk 8 >> ok (sg 1) (C_reset_timer 0 20) >> 
  blk 20 >> 
  now_ (fun s2 => chk (fun _ => (if nfts (s_nft s2) !! 0 then true else false) = true) >> 
  chk (fun _ => (owner (default dnft (nfts (s_nft s2) !! 0))) = 2) >> 
  chk (fun _ => (negb (is_transmission (nstate (default dnft (nfts (s_nft s2) !! 0))))) = true) >> 
  chk (fun _ => (if transs (s_trans s2) !! 0 then false else true) = true) >> 
  chk (fun _ => (q_get 0 (t_queue (s_trans s2))) = None) >> chk (fun _ => (consents (s_trans s2) !! 0) = None) >> 
  last_ (Ev_Transmitted 0) >> fin)))
  (start_with [(1, 1000); (2, 1000)]).
Proof. replay. Qed.
Example transmit_on_consent_at_block : (ok (sg 1) (C_create_nft [] 0 None false) >> ok (sg 2) (C_create_nft [] 0 None false) >> 
  now_ (fun s1 => chk (fun _ => (if nfts (s_nft s1) !! 0 then true else false) = true) >> 
  chk (fun _ => (if nfts (s_nft s1) !! 1 then true else false) = true) >> 
  ok (sg 1) (C_set_transmission_protocol 0 2 (OnConsentAtBlock [1; 2; 3; 4] 2 10) CancelNone) >> ok (sg 1) (C_add_consent 0) >> 
  ok (sg 2) (C_add_consent 0) >> blk 10 >> 
  now_ (fun s2 => chk (fun _ => (if nfts (s_nft s2) !! 0 then true else false) = true) >> 
  chk (fun _ => (owner (default dnft (nfts (s_nft s2) !! 0))) = 2) >> 
  chk (fun _ => (negb (is_transmission (nstate (default dnft (nfts (s_nft s2) !! 0))))) = true) >> 
  chk (fun _ => (if transs (s_trans s2) !! 0 then false else true) = true) >> 
  chk (fun _ => (q_get 0 (t_queue (s_trans s2))) = None) >> chk (fun _ => (consents (s_trans s2) !! 0) = None) >> 
  last_ (Ev_Transmitted 0) >> fin)))
  (start_with [(1, 1000); (2, 1000)]).
Proof. replay. Qed.
Example multiple_transmit_at_block : (ok (sg 1) (C_create_nft [] 0 None false) >> ok (sg 2) (C_create_nft [] 0 None false) >> 
  now_ (fun s1 => chk (fun _ => (if nfts (s_nft s1) !! 0 then true else false) = true) >> 
  chk (fun _ => (if nfts (s_nft s1) !! 1 then true else false) = true) >> 
  ok (sg 1) (C_set_transmission_protocol 0 2 (AtBlock 10) CancelNone) >> 
  ok (sg 2) (C_set_transmission_protocol 1 1 (AtBlock 10) CancelNone) >> blk 10 >> 
  now_ (fun s2 => chk (fun _ => (if nfts (s_nft s2) !! 0 then true else false) = true) >> 
  chk (fun _ => (owner (default dnft (nfts (s_nft s2) !! 0))) = 2) >> 
  chk (fun _ => (negb (is_transmission (nstate (default dnft (nfts (s_nft s2) !! 0))))) = true) >> 
  chk (fun _ => (if transs (s_trans s2) !! 0 then false else true) = true) >> 
  chk (fun _ => (q_get 0 (t_queue (s_trans s2))) = None) >> chk (fun _ => (consents (s_trans s2) !! 0) = None) >> 
  chk (fun _ => (if nfts (s_nft s2) !! 1 then true else false) = true) >> 
  chk (fun _ => (owner (default dnft (nfts (s_nft s2) !! 1))) = 1) >> 
  chk (fun _ => (negb (is_transmission (nstate (default dnft (nfts (s_nft s2) !! 1))))) = true) >> 
  chk (fun _ => (if transs (s_trans s2) !! 1 then false else true) = true) >> 
  chk (fun _ => (q_get 1 (t_queue (s_trans s2))) = None) >> chk (fun _ => (consents (s_trans s2) !! 1) = None) >> 
  has_ (Ev_Transmitted 0) >> last_ (Ev_Transmitted 1) >> fin)))
  (start_with [(1, 1000); (2, 1000)]).
Proof. replay. Qed.

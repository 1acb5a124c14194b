(** Unit tests of the rent pallet (rent/src/tests/extrinsics.rs, hooks.rs), run against the model.
    Translated mechanically from the Rust text. *)
From Verif Require Import Replay.
Local Open Scope N_scope.

(** rent/src/tests/mock.rs *)
Local Instance mock : Config := {|
  ed := 1; fees_collector := None; zero_lock_clears := false; nft_data_limit := 100; coll_data_limit := 10;
  coll_size_limit := 10; shards_number := 5; init_mint_fee := 10; init_secret_fee := 75;
  init_capsule_fee := 100; init_mkt_fee := 0; mkt_accounts_limit := 0; mkt_data_limit := 0;
  mkt_colls_limit := 0; auction_ed := 1; min_auction_duration := 0; max_auction_duration := 0;
  max_auction_delay := 0; grace_period := 0; ending_period := 0; bidder_limit := 0; parallel_auctions := 0;
  auction_actions := 0; auction_pot := 100; rent_ed := 1; rent_accounts_limit := 3; rent_limit := 10;
  rent_actions := 10; availability_limit := 2000; duration_limit := 100; rent_pot := 101;
  init_at_block_fee := 0; init_at_block_reset_fee := 0; init_on_consent_fee := 0;
  init_on_consent_at_block_fee := 0; max_block_duration := 0; consent_limit := 0; trans_limit := 0;
  trans_actions := 0; cluster_size := 2; uri_limit := 12; list_limit := 10; init_staking_amount := 20;
  bonding_duration := 10; tee_pot := 102; init_reward_pool := 2000; history_depth := 50; own_chain := 0;
  proposal_lifetime := 0; init_vote_threshold := 0; relayer_limit := 0; init_bridge_fee := 0;
  staking_pot := 103; external_ok := fun _ => false; hook_order := [HookRent]
|}.

Definition start_with (l : list (N * N)) : state := init_state 1 None (list_to_map l) ∅.

(** * extrinsics, create_contract *)
Example create_contract : (ok (sg 1) (C_create_nft [] 0 None false) >> ok (sg 1) (C_create_nft [] 0 None false) >> ok (sg 1) (C_create_nft [] 0 None false) >> 
  ok (sg 1) (C_create_nft [] 0 None false) >> ok (sg 1) (C_create_nft [] 0 None false) >> 
  ok (sg 1) (C_create_nft [] 0 None false) >> ok (sg 1) (C_create_nft [] 0 None false) >> 
  ok (sg 1) (C_create_nft [] 0 None false) >> ok (sg 1) (C_create_nft [] 0 None false) >> 
  ok (sg 1) (C_create_nft [] 0 None false) >> ok (sg 2) (C_create_nft [] 0 None false) >> 
  ok (sg 2) (C_create_nft [] 0 None false) >> ok (sg 2) (C_create_nft [] 0 None false) >> 
  now_ (fun s1 => chk (fun _ => (if nfts (s_nft s1) !! 0 then true else false) = true) >> 
  chk (fun _ => (if nfts (s_nft s1) !! 1 then true else false) = true) >> 
  chk (fun _ => (if nfts (s_nft s1) !! 2 then true else false) = true) >> 
  chk (fun _ => (if nfts (s_nft s1) !! 3 then true else false) = true) >> 
  chk (fun _ => (if nfts (s_nft s1) !! 4 then true else false) = true) >> 
  chk (fun _ => (if nfts (s_nft s1) !! 5 then true else false) = true) >> 
  chk (fun _ => (if nfts (s_nft s1) !! 6 then true else false) = true) >> 
  chk (fun _ => (if nfts (s_nft s1) !! 7 then true else false) = true) >> 
  chk (fun _ => (if nfts (s_nft s1) !! 8 then true else false) = true) >> 
  chk (fun _ => (if nfts (s_nft s1) !! 9 then true else false) = true) >> 
  chk (fun _ => (if nfts (s_nft s1) !! 10 then true else false) = true) >> 
  chk (fun _ => (if nfts (s_nft s1) !! 11 then true else false) = true) >> 
  chk (fun _ => (if nfts (s_nft s1) !! 12 then true else false) = true) >> 
  ok (sg 1) (C_create_contract 0 (FixedIn 10) (AutoAcceptance (Some [2])) true (RentNFT 10) (FixedTokens 10) (FixedTokens 10)) >> 
  ok (sg 1) (C_create_contract 1 (FixedIn 10) (AutoAcceptance (Some [2])) true (RentTokens 100) (FlexibleTokens 10) (FlexibleTokens 10)) >> 
  ok (sg 1) (C_create_contract 2 (FixedIn 10) (ManualAcceptance (Some [2])) true (RentNFT 11) (FeeNFT 5) (FeeNFT 10)) >> 
  ok (sg 1) (C_create_contract 3 (SubscriptionIn 10 (Some 100) true) (ManualAcceptance (Some [2])) true (RentTokens 100) (FixedTokens 10) (FixedTokens 10)) >> 
  ok (sg 1) (C_create_contract 4 (SubscriptionIn 10 None false) (AutoAcceptance (Some [2])) false (RentTokens 100) NoFee (FixedTokens 10)) >> 
  ok (sg 1) (C_create_contract 8 (FixedIn 10) (AutoAcceptance (Some [2])) true (RentNFT 11) (FeeNFT 9) (FeeNFT 10)) >> 
  now_ (fun s2 => chk (fun _ => (if contracts (s_rent s2) !! 0 then true else false) = true) >> 
  chk (fun _ => (if contracts (s_rent s2) !! 1 then true else false) = true) >> 
  chk (fun _ => (if contracts (s_rent s2) !! 2 then true else false) = true) >> 
  chk (fun _ => (if contracts (s_rent s2) !! 3 then true else false) = true) >> 
  chk (fun _ => (if contracts (s_rent s2) !! 4 then true else false) = true) >> 
  chk (fun _ => (if contracts (s_rent s2) !! 8 then true else false) = true) >> chk (fun _ => (true) = true) >> 
  ok (sg 1) (C_create_contract 6 (FixedIn 10) (r_acceptance (mkContract None 1 None (Fixed 10) (AutoAcceptance None) true (RentTokens 100) NoFee NoFee (s_now s2))) (r_can_revoke (mkContract None 1 None (Fixed 10) (AutoAcceptance None) true (RentTokens 100) NoFee NoFee (s_now s2))) (r_rent_fee (mkContract None 1 None (Fixed 10) (AutoAcceptance None) true (RentTokens 100) NoFee NoFee (s_now s2))) (r_renter_cf (mkContract None 1 None (Fixed 10) (AutoAcceptance None) true (RentTokens 100) NoFee NoFee (s_now s2))) (r_rentee_cf (mkContract None 1 None (Fixed 10) (AutoAcceptance None) true (RentTokens 100) NoFee NoFee (s_now s2)))) >> 
  now_ (fun s3 => chk (fun _ => (if contracts (s_rent s3) !! 6 then true else false) = true) >> 
  chk (fun _ => (if nfts (s_nft s3) !! 6 then true else false) = true) >> 
  chk (fun _ => (default dcontract (contracts (s_rent s3) !! 6)) = (mkContract None 1 None (Fixed 10) (AutoAcceptance None) true (RentTokens 100) NoFee NoFee (s_now s2))) >> 
  chk (fun _ => (is_rented (nstate (default dnft (nfts (s_nft s3) !! 6)))) = true) >> 
  last_ (Ev_ContractCreated 6 1 (r_duration (mkContract None 1 None (Fixed 10) (AutoAcceptance None) true (RentTokens 100) NoFee NoFee (s_now s2))) (r_acceptance (mkContract None 1 None (Fixed 10) (AutoAcceptance None) true (RentTokens 100) NoFee NoFee (s_now s2))) true (r_rent_fee (mkContract None 1 None (Fixed 10) (AutoAcceptance None) true (RentTokens 100) NoFee NoFee (s_now s2))) (r_renter_cf (mkContract None 1 None (Fixed 10) (AutoAcceptance None) true (RentTokens 100) NoFee NoFee (s_now s2))) (r_rentee_cf (mkContract None 1 None (Fixed 10) (AutoAcceptance None) true (RentTokens 100) NoFee NoFee (s_now s2)))) >> fin))))
  (start_with [(ALICE, 1000000); (BOB, 1000000); (CHARLIE, 1000000)]).
Proof. replay. Qed.
Example max_simultaneous_contract_reached : (ok (sg 1) (C_create_nft [] 0 None false) >> ok (sg 1) (C_create_nft [] 0 None false) >> ok (sg 1) (C_create_nft [] 0 None false) >> 
  ok (sg 1) (C_create_nft [] 0 None false) >> ok (sg 1) (C_create_nft [] 0 None false) >> 
  ok (sg 1) (C_create_nft [] 0 None false) >> ok (sg 1) (C_create_nft [] 0 None false) >> 
  ok (sg 1) (C_create_nft [] 0 None false) >> ok (sg 1) (C_create_nft [] 0 None false) >> 
  ok (sg 1) (C_create_nft [] 0 None false) >> ok (sg 2) (C_create_nft [] 0 None false) >> 
  ok (sg 2) (C_create_nft [] 0 None false) >> ok (sg 2) (C_create_nft [] 0 None false) >> 
  now_ (fun s1 => chk (fun _ => (if nfts (s_nft s1) !! 0 then true else false) = true) >> 
  chk (fun _ => (if nfts (s_nft s1) !! 1 then true else false) = true) >> 
  chk (fun _ => (if nfts (s_nft s1) !! 2 then true else false) = true) >> 
  chk (fun _ => (if nfts (s_nft s1) !! 3 then true else false) = true) >> 
  chk (fun _ => (if nfts (s_nft s1) !! 4 then true else false) = true) >> 
  chk (fun _ => (if nfts (s_nft s1) !! 5 then true else false) = true) >> 
  chk (fun _ => (if nfts (s_nft s1) !! 6 then true else false) = true) >> 
  chk (fun _ => (if nfts (s_nft s1) !! 7 then true else false) = true) >> 
  chk (fun _ => (if nfts (s_nft s1) !! 8 then true else false) = true) >> 
  chk (fun _ => (if nfts (s_nft s1) !! 9 then true else false) = true) >> 
  chk (fun _ => (if nfts (s_nft s1) !! 10 then true else false) = true) >> 
  chk (fun _ => (if nfts (s_nft s1) !! 11 then true else false) = true) >> 
  chk (fun _ => (if nfts (s_nft s1) !! 12 then true else false) = true) >> 
  ok (sg 1) (C_create_contract 0 (FixedIn 10) (AutoAcceptance (Some [2])) true (RentNFT 10) (FixedTokens 10) (FixedTokens 10)) >> 
  ok (sg 1) (C_create_contract 1 (FixedIn 10) (AutoAcceptance (Some [2])) true (RentTokens 100) (FlexibleTokens 10) (FlexibleTokens 10)) >> 
  ok (sg 1) (C_create_contract 2 (FixedIn 10) (ManualAcceptance (Some [2])) true (RentNFT 11) (FeeNFT 5) (FeeNFT 10)) >> 
  ok (sg 1) (C_create_contract 3 (SubscriptionIn 10 (Some 100) true) (ManualAcceptance (Some [2])) true (RentTokens 100) (FixedTokens 10) (FixedTokens 10)) >> 
  ok (sg 1) (C_create_contract 4 (SubscriptionIn 10 None false) (AutoAcceptance (Some [2])) false (RentTokens 100) NoFee (FixedTokens 10)) >> 
  ok (sg 1) (C_create_contract 8 (FixedIn 10) (AutoAcceptance (Some [2])) true (RentNFT 11) (FeeNFT 9) (FeeNFT 10)) >> 
  now_ (fun s2 => chk (fun _ => (if contracts (s_rent s2) !! 0 then true else false) = true) >> 
  chk (fun _ => (if contracts (s_rent s2) !! 1 then true else false) = true) >> 
  chk (fun _ => (if contracts (s_rent s2) !! 2 then true else false) = true) >> 
  chk (fun _ => (if contracts (s_rent s2) !! 3 then true else false) = true) >> 
  chk (fun _ => (if contracts (s_rent s2) !! 4 then true else false) = true) >> 
  chk (fun _ => (if contracts (s_rent s2) !! 8 then true else false) = true) >> 
  chk (fun _ => 13 + (10 - (queues_size (queues (s_rent s2)))) = 17) >> ok (sg 1) (C_create_nft [] 0 None false) >> 
  ok (sg 1) (C_create_contract 13 (FixedIn 10) (AutoAcceptance None) false (RentTokens 100) NoFee NoFee) >> 
  ok (sg 1) (C_create_nft [] 0 None false) >> 
  ok (sg 1) (C_create_contract 14 (FixedIn 10) (AutoAcceptance None) false (RentTokens 100) NoFee NoFee) >> 
  ok (sg 1) (C_create_nft [] 0 None false) >> 
  ok (sg 1) (C_create_contract 15 (FixedIn 10) (AutoAcceptance None) false (RentTokens 100) NoFee NoFee) >> 
  ok (sg 1) (C_create_nft [] 0 None false) >> 
  ok (sg 1) (C_create_contract 16 (FixedIn 10) (AutoAcceptance None) false (RentTokens 100) NoFee NoFee) >> 
  no (sg 1) (C_create_contract 6 (FixedIn 10) (AutoAcceptance None) false (RentTokens 100) NoFee NoFee) (Rent_err R_MaxSimultaneousContractReached) >> fin)))
  (start_with [(ALICE, 1000000); (BOB, 1000000); (CHARLIE, 1000000)]).
Proof. replay. Qed.
Example nft_not_found : (ok (sg 1) (C_create_nft [] 0 None false) >> ok (sg 1) (C_create_nft [] 0 None false) >> ok (sg 1) (C_create_nft [] 0 None false) >> 
  ok (sg 1) (C_create_nft [] 0 None false) >> ok (sg 1) (C_create_nft [] 0 None false) >> 
  ok (sg 1) (C_create_nft [] 0 None false) >> ok (sg 1) (C_create_nft [] 0 None false) >> 
  ok (sg 1) (C_create_nft [] 0 None false) >> ok (sg 1) (C_create_nft [] 0 None false) >> 
  ok (sg 1) (C_create_nft [] 0 None false) >> ok (sg 2) (C_create_nft [] 0 None false) >> 
  ok (sg 2) (C_create_nft [] 0 None false) >> ok (sg 2) (C_create_nft [] 0 None false) >> 
  now_ (fun s1 => chk (fun _ => (if nfts (s_nft s1) !! 0 then true else false) = true) >> 
  chk (fun _ => (if nfts (s_nft s1) !! 1 then true else false) = true) >> 
  chk (fun _ => (if nfts (s_nft s1) !! 2 then true else false) = true) >> 
  chk (fun _ => (if nfts (s_nft s1) !! 3 then true else false) = true) >> 
  chk (fun _ => (if nfts (s_nft s1) !! 4 then true else false) = true) >> 
  chk (fun _ => (if nfts (s_nft s1) !! 5 then true else false) = true) >> 
  chk (fun _ => (if nfts (s_nft s1) !! 6 then true else false) = true) >> 
  chk (fun _ => (if nfts (s_nft s1) !! 7 then true else false) = true) >> 
  chk (fun _ => (if nfts (s_nft s1) !! 8 then true else false) = true) >> 
  chk (fun _ => (if nfts (s_nft s1) !! 9 then true else false) = true) >> 
  chk (fun _ => (if nfts (s_nft s1) !! 10 then true else false) = true) >> 
  chk (fun _ => (if nfts (s_nft s1) !! 11 then true else false) = true) >> 
  chk (fun _ => (if nfts (s_nft s1) !! 12 then true else false) = true) >> 
  ok (sg 1) (C_create_contract 0 (FixedIn 10) (AutoAcceptance (Some [2])) true (RentNFT 10) (FixedTokens 10) (FixedTokens 10)) >> 
  ok (sg 1) (C_create_contract 1 (FixedIn 10) (AutoAcceptance (Some [2])) true (RentTokens 100) (FlexibleTokens 10) (FlexibleTokens 10)) >> 
  ok (sg 1) (C_create_contract 2 (FixedIn 10) (ManualAcceptance (Some [2])) true (RentNFT 11) (FeeNFT 5) (FeeNFT 10)) >> 
  ok (sg 1) (C_create_contract 3 (SubscriptionIn 10 (Some 100) true) (ManualAcceptance (Some [2])) true (RentTokens 100) (FixedTokens 10) (FixedTokens 10)) >> 
  ok (sg 1) (C_create_contract 4 (SubscriptionIn 10 None false) (AutoAcceptance (Some [2])) false (RentTokens 100) NoFee (FixedTokens 10)) >> 
  ok (sg 1) (C_create_contract 8 (FixedIn 10) (AutoAcceptance (Some [2])) true (RentNFT 11) (FeeNFT 9) (FeeNFT 10)) >> 
  now_ (fun s2 => chk (fun _ => (if contracts (s_rent s2) !! 0 then true else false) = true) >> 
  chk (fun _ => (if contracts (s_rent s2) !! 1 then true else false) = true) >> 
  chk (fun _ => (if contracts (s_rent s2) !! 2 then true else false) = true) >> 
  chk (fun _ => (if contracts (s_rent s2) !! 3 then true else false) = true) >> 
  chk (fun _ => (if contracts (s_rent s2) !! 4 then true else false) = true) >> 
  chk (fun _ => (if contracts (s_rent s2) !! 8 then true else false) = true) >> 
  no (sg 1) (C_create_contract 99 (FixedIn 10) (AutoAcceptance None) false (RentTokens 100) NoFee NoFee) (Rent_err R_NFTNotFound) >> fin)))
  (start_with [(ALICE, 1000000); (BOB, 1000000); (CHARLIE, 1000000)]).
Proof. replay. Qed.
Example not_the_nft_owner : (ok (sg 1) (C_create_nft [] 0 None false) >> ok (sg 1) (C_create_nft [] 0 None false) >> ok (sg 1) (C_create_nft [] 0 None false) >> 
  ok (sg 1) (C_create_nft [] 0 None false) >> ok (sg 1) (C_create_nft [] 0 None false) >> 
  ok (sg 1) (C_create_nft [] 0 None false) >> ok (sg 1) (C_create_nft [] 0 None false) >> 
  ok (sg 1) (C_create_nft [] 0 None false) >> ok (sg 1) (C_create_nft [] 0 None false) >> 
  ok (sg 1) (C_create_nft [] 0 None false) >> ok (sg 2) (C_create_nft [] 0 None false) >> 
  ok (sg 2) (C_create_nft [] 0 None false) >> ok (sg 2) (C_create_nft [] 0 None false) >> 
  now_ (fun s1 => chk (fun _ => (if nfts (s_nft s1) !! 0 then true else false) = true) >> 
  chk (fun _ => (if nfts (s_nft s1) !! 1 then true else false) = true) >> 
  chk (fun _ => (if nfts (s_nft s1) !! 2 then true else false) = true) >> 
  chk (fun _ => (if nfts (s_nft s1) !! 3 then true else false) = true) >> 
  chk (fun _ => (if nfts (s_nft s1) !! 4 then true else false) = true) >> 
  chk (fun _ => (if nfts (s_nft s1) !! 5 then true else false) = true) >> 
  chk (fun _ => (if nfts (s_nft s1) !! 6 then true else false) = true) >> 
  chk (fun _ => (if nfts (s_nft s1) !! 7 then true else false) = true) >> 
  chk (fun _ => (if nfts (s_nft s1) !! 8 then true else false) = true) >> 
  chk (fun _ => (if nfts (s_nft s1) !! 9 then true else false) = true) >> 
  chk (fun _ => (if nfts (s_nft s1) !! 10 then true else false) = true) >> 
  chk (fun _ => (if nfts (s_nft s1) !! 11 then true else false) = true) >> 
  chk (fun _ => (if nfts (s_nft s1) !! 12 then true else false) = true) >> 
  ok (sg 1) (C_create_contract 0 (FixedIn 10) (AutoAcceptance (Some [2])) true (RentNFT 10) (FixedTokens 10) (FixedTokens 10)) >> 
  ok (sg 1) (C_create_contract 1 (FixedIn 10) (AutoAcceptance (Some [2])) true (RentTokens 100) (FlexibleTokens 10) (FlexibleTokens 10)) >> 
  ok (sg 1) (C_create_contract 2 (FixedIn 10) (ManualAcceptance (Some [2])) true (RentNFT 11) (FeeNFT 5) (FeeNFT 10)) >> 
  ok (sg 1) (C_create_contract 3 (SubscriptionIn 10 (Some 100) true) (ManualAcceptance (Some [2])) true (RentTokens 100) (FixedTokens 10) (FixedTokens 10)) >> 
  ok (sg 1) (C_create_contract 4 (SubscriptionIn 10 None false) (AutoAcceptance (Some [2])) false (RentTokens 100) NoFee (FixedTokens 10)) >> 
  ok (sg 1) (C_create_contract 8 (FixedIn 10) (AutoAcceptance (Some [2])) true (RentNFT 11) (FeeNFT 9) (FeeNFT 10)) >> 
  now_ (fun s2 => chk (fun _ => (if contracts (s_rent s2) !! 0 then true else false) = true) >> 
  chk (fun _ => (if contracts (s_rent s2) !! 1 then true else false) = true) >> 
  chk (fun _ => (if contracts (s_rent s2) !! 2 then true else false) = true) >> 
  chk (fun _ => (if contracts (s_rent s2) !! 3 then true else false) = true) >> 
  chk (fun _ => (if contracts (s_rent s2) !! 4 then true else false) = true) >> 
  chk (fun _ => (if contracts (s_rent s2) !! 8 then true else false) = true) >> 
  no (sg 1) (C_create_contract 10 (FixedIn 10) (AutoAcceptance None) false (RentTokens 100) NoFee NoFee) (Rent_err R_NotTheNFTOwner) >> fin)))
  (start_with [(ALICE, 1000000); (BOB, 1000000); (CHARLIE, 1000000)]).
Proof. replay. Qed.
Example contract_nft_not_in_a_valid_state : (ok (sg 1) (C_create_nft [] 0 None false) >> ok (sg 1) (C_create_nft [] 0 None false) >> ok (sg 1) (C_create_nft [] 0 None false) >> 
  ok (sg 1) (C_create_nft [] 0 None false) >> ok (sg 1) (C_create_nft [] 0 None false) >> 
  ok (sg 1) (C_create_nft [] 0 None false) >> ok (sg 1) (C_create_nft [] 0 None false) >> 
  ok (sg 1) (C_create_nft [] 0 None false) >> ok (sg 1) (C_create_nft [] 0 None false) >> 
  ok (sg 1) (C_create_nft [] 0 None false) >> ok (sg 2) (C_create_nft [] 0 None false) >> 
  ok (sg 2) (C_create_nft [] 0 None false) >> ok (sg 2) (C_create_nft [] 0 None false) >> 
  now_ (fun s1 => chk (fun _ => (if nfts (s_nft s1) !! 0 then true else false) = true) >> 
  chk (fun _ => (if nfts (s_nft s1) !! 1 then true else false) = true) >> 
  chk (fun _ => (if nfts (s_nft s1) !! 2 then true else false) = true) >> 
  chk (fun _ => (if nfts (s_nft s1) !! 3 then true else false) = true) >> 
  chk (fun _ => (if nfts (s_nft s1) !! 4 then true else false) = true) >> 
  chk (fun _ => (if nfts (s_nft s1) !! 5 then true else false) = true) >> 
  chk (fun _ => (if nfts (s_nft s1) !! 6 then true else false) = true) >> 
  chk (fun _ => (if nfts (s_nft s1) !! 7 then true else false) = true) >> 
  chk (fun _ => (if nfts (s_nft s1) !! 8 then true else false) = true) >> 
  chk (fun _ => (if nfts (s_nft s1) !! 9 then true else false) = true) >> 
  chk (fun _ => (if nfts (s_nft s1) !! 10 then true else false) = true) >> 
  chk (fun _ => (if nfts (s_nft s1) !! 11 then true else false) = true) >> 
  chk (fun _ => (if nfts (s_nft s1) !! 12 then true else false) = true) >> 
  ok (sg 1) (C_create_contract 0 (FixedIn 10) (AutoAcceptance (Some [2])) true (RentNFT 10) (FixedTokens 10) (FixedTokens 10)) >> 
  ok (sg 1) (C_create_contract 1 (FixedIn 10) (AutoAcceptance (Some [2])) true (RentTokens 100) (FlexibleTokens 10) (FlexibleTokens 10)) >> 
  ok (sg 1) (C_create_contract 2 (FixedIn 10) (ManualAcceptance (Some [2])) true (RentNFT 11) (FeeNFT 5) (FeeNFT 10)) >> 
  ok (sg 1) (C_create_contract 3 (SubscriptionIn 10 (Some 100) true) (ManualAcceptance (Some [2])) true (RentTokens 100) (FixedTokens 10) (FixedTokens 10)) >> 
  ok (sg 1) (C_create_contract 4 (SubscriptionIn 10 None false) (AutoAcceptance (Some [2])) false (RentTokens 100) NoFee (FixedTokens 10)) >> 
  ok (sg 1) (C_create_contract 8 (FixedIn 10) (AutoAcceptance (Some [2])) true (RentNFT 11) (FeeNFT 9) (FeeNFT 10)) >> 
  now_ (fun s2 => chk (fun _ => (if contracts (s_rent s2) !! 0 then true else false) = true) >> 
  chk (fun _ => (if contracts (s_rent s2) !! 1 then true else false) = true) >> 
  chk (fun _ => (if contracts (s_rent s2) !! 2 then true else false) = true) >> 
  chk (fun _ => (if contracts (s_rent s2) !! 3 then true else false) = true) >> 
  chk (fun _ => (if contracts (s_rent s2) !! 4 then true else false) = true) >> 
  chk (fun _ => (if contracts (s_rent s2) !! 8 then true else false) = true) >> 
  flag 6 (fun _ => mkNftState false false false false false false false true false) >> 
  no (sg 1) (C_create_contract 6 (FixedIn 10) (AutoAcceptance None) false (RentTokens 100) NoFee NoFee) (Rent_err R_ContractNFTNotInAValidState) >> 
  flag 6 (fun _ => mkNftState false true false false false false false false false) >> 
  no (sg 1) (C_create_contract 6 (FixedIn 10) (AutoAcceptance None) false (RentTokens 100) NoFee NoFee) (Rent_err R_ContractNFTNotInAValidState) >> 
  flag 6 (fun _ => mkNftState false false false true false false false false false) >> 
  no (sg 1) (C_create_contract 6 (FixedIn 10) (AutoAcceptance None) false (RentTokens 100) NoFee NoFee) (Rent_err R_ContractNFTNotInAValidState) >> 
  flag 6 (fun _ => mkNftState false false false false true false false false false) >> 
  no (sg 1) (C_create_contract 6 (FixedIn 10) (AutoAcceptance None) false (RentTokens 100) NoFee NoFee) (Rent_err R_ContractNFTNotInAValidState) >> 
  flag 6 (fun _ => mkNftState false false false false false false true false false) >> 
  no (sg 1) (C_create_contract 6 (FixedIn 10) (AutoAcceptance None) false (RentTokens 100) NoFee NoFee) (Rent_err R_ContractNFTNotInAValidState) >> fin)))
  (start_with [(ALICE, 1000000); (BOB, 1000000); (CHARLIE, 1000000)]).
Proof. replay. Qed.
Example duration_exceeds_maximum_limit : (ok (sg 1) (C_create_nft [] 0 None false) >> ok (sg 1) (C_create_nft [] 0 None false) >> ok (sg 1) (C_create_nft [] 0 None false) >> 
  ok (sg 1) (C_create_nft [] 0 None false) >> ok (sg 1) (C_create_nft [] 0 None false) >> 
  ok (sg 1) (C_create_nft [] 0 None false) >> ok (sg 1) (C_create_nft [] 0 None false) >> 
  ok (sg 1) (C_create_nft [] 0 None false) >> ok (sg 1) (C_create_nft [] 0 None false) >> 
  ok (sg 1) (C_create_nft [] 0 None false) >> ok (sg 2) (C_create_nft [] 0 None false) >> 
  ok (sg 2) (C_create_nft [] 0 None false) >> ok (sg 2) (C_create_nft [] 0 None false) >> 
  now_ (fun s1 => chk (fun _ => (if nfts (s_nft s1) !! 0 then true else false) = true) >> 
  chk (fun _ => (if nfts (s_nft s1) !! 1 then true else false) = true) >> 
  chk (fun _ => (if nfts (s_nft s1) !! 2 then true else false) = true) >> 
  chk (fun _ => (if nfts (s_nft s1) !! 3 then true else false) = true) >> 
  chk (fun _ => (if nfts (s_nft s1) !! 4 then true else false) = true) >> 
  chk (fun _ => (if nfts (s_nft s1) !! 5 then true else false) = true) >> 
  chk (fun _ => (if nfts (s_nft s1) !! 6 then true else false) = true) >> 
  chk (fun _ => (if nfts (s_nft s1) !! 7 then true else false) = true) >> 
  chk (fun _ => (if nfts (s_nft s1) !! 8 then true else false) = true) >> 
  chk (fun _ => (if nfts (s_nft s1) !! 9 then true else false) = true) >> 
  chk (fun _ => (if nfts (s_nft s1) !! 10 then true else false) = true) >> 
  chk (fun _ => (if nfts (s_nft s1) !! 11 then true else false) = true) >> 
  chk (fun _ => (if nfts (s_nft s1) !! 12 then true else false) = true) >> 
  ok (sg 1) (C_create_contract 0 (FixedIn 10) (AutoAcceptance (Some [2])) true (RentNFT 10) (FixedTokens 10) (FixedTokens 10)) >> 
  ok (sg 1) (C_create_contract 1 (FixedIn 10) (AutoAcceptance (Some [2])) true (RentTokens 100) (FlexibleTokens 10) (FlexibleTokens 10)) >> 
  ok (sg 1) (C_create_contract 2 (FixedIn 10) (ManualAcceptance (Some [2])) true (RentNFT 11) (FeeNFT 5) (FeeNFT 10)) >> 
  ok (sg 1) (C_create_contract 3 (SubscriptionIn 10 (Some 100) true) (ManualAcceptance (Some [2])) true (RentTokens 100) (FixedTokens 10) (FixedTokens 10)) >> 
  ok (sg 1) (C_create_contract 4 (SubscriptionIn 10 None false) (AutoAcceptance (Some [2])) false (RentTokens 100) NoFee (FixedTokens 10)) >> 
  ok (sg 1) (C_create_contract 8 (FixedIn 10) (AutoAcceptance (Some [2])) true (RentNFT 11) (FeeNFT 9) (FeeNFT 10)) >> 
  now_ (fun s2 => chk (fun _ => (if contracts (s_rent s2) !! 0 then true else false) = true) >> 
  chk (fun _ => (if contracts (s_rent s2) !! 1 then true else false) = true) >> 
  chk (fun _ => (if contracts (s_rent s2) !! 2 then true else false) = true) >> 
  chk (fun _ => (if contracts (s_rent s2) !! 3 then true else false) = true) >> 
  chk (fun _ => (if contracts (s_rent s2) !! 4 then true else false) = true) >> 
  chk (fun _ => (if contracts (s_rent s2) !! 8 then true else false) = true) >> 
  no (sg 1) (C_create_contract 6 (FixedIn 101) (AutoAcceptance None) false (RentTokens 100) NoFee NoFee) (Rent_err R_DurationExceedsMaximumLimit) >> fin)))
  (start_with [(ALICE, 1000000); (BOB, 1000000); (CHARLIE, 1000000)]).
Proof. replay. Qed.
Example duration_invalid : (ok (sg 1) (C_create_nft [] 0 None false) >> ok (sg 1) (C_create_nft [] 0 None false) >> ok (sg 1) (C_create_nft [] 0 None false) >> 
  ok (sg 1) (C_create_nft [] 0 None false) >> ok (sg 1) (C_create_nft [] 0 None false) >> 
  ok (sg 1) (C_create_nft [] 0 None false) >> ok (sg 1) (C_create_nft [] 0 None false) >> 
  ok (sg 1) (C_create_nft [] 0 None false) >> ok (sg 1) (C_create_nft [] 0 None false) >> 
  ok (sg 1) (C_create_nft [] 0 None false) >> ok (sg 2) (C_create_nft [] 0 None false) >> 
  ok (sg 2) (C_create_nft [] 0 None false) >> ok (sg 2) (C_create_nft [] 0 None false) >> 
  now_ (fun s1 => chk (fun _ => (if nfts (s_nft s1) !! 0 then true else false) = true) >> 
  chk (fun _ => (if nfts (s_nft s1) !! 1 then true else false) = true) >> 
  chk (fun _ => (if nfts (s_nft s1) !! 2 then true else false) = true) >> 
  chk (fun _ => (if nfts (s_nft s1) !! 3 then true else false) = true) >> 
  chk (fun _ => (if nfts (s_nft s1) !! 4 then true else false) = true) >> 
  chk (fun _ => (if nfts (s_nft s1) !! 5 then true else false) = true) >> 
  chk (fun _ => (if nfts (s_nft s1) !! 6 then true else false) = true) >> 
  chk (fun _ => (if nfts (s_nft s1) !! 7 then true else false) = true) >> 
  chk (fun _ => (if nfts (s_nft s1) !! 8 then true else false) = true) >> 
  chk (fun _ => (if nfts (s_nft s1) !! 9 then true else false) = true) >> 
  chk (fun _ => (if nfts (s_nft s1) !! 10 then true else false) = true) >> 
  chk (fun _ => (if nfts (s_nft s1) !! 11 then true else false) = true) >> 
  chk (fun _ => (if nfts (s_nft s1) !! 12 then true else false) = true) >> 
  ok (sg 1) (C_create_contract 0 (FixedIn 10) (AutoAcceptance (Some [2])) true (RentNFT 10) (FixedTokens 10) (FixedTokens 10)) >> 
  ok (sg 1) (C_create_contract 1 (FixedIn 10) (AutoAcceptance (Some [2])) true (RentTokens 100) (FlexibleTokens 10) (FlexibleTokens 10)) >> 
  ok (sg 1) (C_create_contract 2 (FixedIn 10) (ManualAcceptance (Some [2])) true (RentNFT 11) (FeeNFT 5) (FeeNFT 10)) >> 
  ok (sg 1) (C_create_contract 3 (SubscriptionIn 10 (Some 100) true) (ManualAcceptance (Some [2])) true (RentTokens 100) (FixedTokens 10) (FixedTokens 10)) >> 
  ok (sg 1) (C_create_contract 4 (SubscriptionIn 10 None false) (AutoAcceptance (Some [2])) false (RentTokens 100) NoFee (FixedTokens 10)) >> 
  ok (sg 1) (C_create_contract 8 (FixedIn 10) (AutoAcceptance (Some [2])) true (RentNFT 11) (FeeNFT 9) (FeeNFT 10)) >> 
  now_ (fun s2 => chk (fun _ => (if contracts (s_rent s2) !! 0 then true else false) = true) >> 
  chk (fun _ => (if contracts (s_rent s2) !! 1 then true else false) = true) >> 
  chk (fun _ => (if contracts (s_rent s2) !! 2 then true else false) = true) >> 
  chk (fun _ => (if contracts (s_rent s2) !! 3 then true else false) = true) >> 
  chk (fun _ => (if contracts (s_rent s2) !! 4 then true else false) = true) >> 
  chk (fun _ => (if contracts (s_rent s2) !! 8 then true else false) = true) >> 
  no (sg 1) (C_create_contract 6 (FixedIn 0) (AutoAcceptance None) false (RentTokens 100) NoFee NoFee) (Rent_err R_DurationInvalid) >> 
  no (sg 1) (C_create_contract 6 (SubscriptionIn 0 None false) (AutoAcceptance None) false (RentTokens 100) NoFee NoFee) (Rent_err R_DurationInvalid) >> 
  no (sg 1) (C_create_contract 6 (SubscriptionIn 10 (Some 0) false) (AutoAcceptance None) false (RentTokens 100) NoFee NoFee) (Rent_err R_DurationInvalid) >> fin)))
  (start_with [(ALICE, 1000000); (BOB, 1000000); (CHARLIE, 1000000)]).
Proof. replay. Qed.
Example duration_and_rent_fee_mismatch : (ok (sg 1) (C_create_nft [] 0 None false) >> ok (sg 1) (C_create_nft [] 0 None false) >> ok (sg 1) (C_create_nft [] 0 None false) >> 
  ok (sg 1) (C_create_nft [] 0 None false) >> ok (sg 1) (C_create_nft [] 0 None false) >> 
  ok (sg 1) (C_create_nft [] 0 None false) >> ok (sg 1) (C_create_nft [] 0 None false) >> 
  ok (sg 1) (C_create_nft [] 0 None false) >> ok (sg 1) (C_create_nft [] 0 None false) >> 
  ok (sg 1) (C_create_nft [] 0 None false) >> ok (sg 2) (C_create_nft [] 0 None false) >> 
  ok (sg 2) (C_create_nft [] 0 None false) >> ok (sg 2) (C_create_nft [] 0 None false) >> 
  now_ (fun s1 => chk (fun _ => (if nfts (s_nft s1) !! 0 then true else false) = true) >> 
  chk (fun _ => (if nfts (s_nft s1) !! 1 then true else false) = true) >> 
  chk (fun _ => (if nfts (s_nft s1) !! 2 then true else false) = true) >> 
  chk (fun _ => (if nfts (s_nft s1) !! 3 then true else false) = true) >> 
  chk (fun _ => (if nfts (s_nft s1) !! 4 then true else false) = true) >> 
  chk (fun _ => (if nfts (s_nft s1) !! 5 then true else false) = true) >> 
  chk (fun _ => (if nfts (s_nft s1) !! 6 then true else false) = true) >> 
  chk (fun _ => (if nfts (s_nft s1) !! 7 then true else false) = true) >> 
  chk (fun _ => (if nfts (s_nft s1) !! 8 then true else false) = true) >> 
  chk (fun _ => (if nfts (s_nft s1) !! 9 then true else false) = true) >> 
  chk (fun _ => (if nfts (s_nft s1) !! 10 then true else false) = true) >> 
  chk (fun _ => (if nfts (s_nft s1) !! 11 then true else false) = true) >> 
  chk (fun _ => (if nfts (s_nft s1) !! 12 then true else false) = true) >> 
  ok (sg 1) (C_create_contract 0 (FixedIn 10) (AutoAcceptance (Some [2])) true (RentNFT 10) (FixedTokens 10) (FixedTokens 10)) >> 
  ok (sg 1) (C_create_contract 1 (FixedIn 10) (AutoAcceptance (Some [2])) true (RentTokens 100) (FlexibleTokens 10) (FlexibleTokens 10)) >> 
  ok (sg 1) (C_create_contract 2 (FixedIn 10) (ManualAcceptance (Some [2])) true (RentNFT 11) (FeeNFT 5) (FeeNFT 10)) >> 
  ok (sg 1) (C_create_contract 3 (SubscriptionIn 10 (Some 100) true) (ManualAcceptance (Some [2])) true (RentTokens 100) (FixedTokens 10) (FixedTokens 10)) >> 
  ok (sg 1) (C_create_contract 4 (SubscriptionIn 10 None false) (AutoAcceptance (Some [2])) false (RentTokens 100) NoFee (FixedTokens 10)) >> 
  ok (sg 1) (C_create_contract 8 (FixedIn 10) (AutoAcceptance (Some [2])) true (RentNFT 11) (FeeNFT 9) (FeeNFT 10)) >> 
  now_ (fun s2 => chk (fun _ => (if contracts (s_rent s2) !! 0 then true else false) = true) >> 
  chk (fun _ => (if contracts (s_rent s2) !! 1 then true else false) = true) >> 
  chk (fun _ => (if contracts (s_rent s2) !! 2 then true else false) = true) >> 
  chk (fun _ => (if contracts (s_rent s2) !! 3 then true else false) = true) >> 
  chk (fun _ => (if contracts (s_rent s2) !! 4 then true else false) = true) >> 
  chk (fun _ => (if contracts (s_rent s2) !! 8 then true else false) = true) >> 
  no (sg 1) (C_create_contract 6 (SubscriptionIn 10 None false) (AutoAcceptance None) false (RentNFT 10) NoFee NoFee) (Rent_err R_DurationAndRentFeeMismatch) >> fin)))
  (start_with [(ALICE, 1000000); (BOB, 1000000); (CHARLIE, 1000000)]).
Proof. replay. Qed.
Example duration_and_cancellation_fee_mismatch_renter : (ok (sg 1) (C_create_nft [] 0 None false) >> ok (sg 1) (C_create_nft [] 0 None false) >> ok (sg 1) (C_create_nft [] 0 None false) >> 
  ok (sg 1) (C_create_nft [] 0 None false) >> ok (sg 1) (C_create_nft [] 0 None false) >> 
  ok (sg 1) (C_create_nft [] 0 None false) >> ok (sg 1) (C_create_nft [] 0 None false) >> 
  ok (sg 1) (C_create_nft [] 0 None false) >> ok (sg 1) (C_create_nft [] 0 None false) >> 
  ok (sg 1) (C_create_nft [] 0 None false) >> ok (sg 2) (C_create_nft [] 0 None false) >> 
  ok (sg 2) (C_create_nft [] 0 None false) >> ok (sg 2) (C_create_nft [] 0 None false) >> 
  now_ (fun s1 => chk (fun _ => (if nfts (s_nft s1) !! 0 then true else false) = true) >> 
  chk (fun _ => (if nfts (s_nft s1) !! 1 then true else false) = true) >> 
  chk (fun _ => (if nfts (s_nft s1) !! 2 then true else false) = true) >> 
  chk (fun _ => (if nfts (s_nft s1) !! 3 then true else false) = true) >> 
  chk (fun _ => (if nfts (s_nft s1) !! 4 then true else false) = true) >> 
  chk (fun _ => (if nfts (s_nft s1) !! 5 then true else false) = true) >> 
  chk (fun _ => (if nfts (s_nft s1) !! 6 then true else false) = true) >> 
  chk (fun _ => (if nfts (s_nft s1) !! 7 then true else false) = true) >> 
  chk (fun _ => (if nfts (s_nft s1) !! 8 then true else false) = true) >> 
  chk (fun _ => (if nfts (s_nft s1) !! 9 then true else false) = true) >> 
  chk (fun _ => (if nfts (s_nft s1) !! 10 then true else false) = true) >> 
  chk (fun _ => (if nfts (s_nft s1) !! 11 then true else false) = true) >> 
  chk (fun _ => (if nfts (s_nft s1) !! 12 then true else false) = true) >> 
  ok (sg 1) (C_create_contract 0 (FixedIn 10) (AutoAcceptance (Some [2])) true (RentNFT 10) (FixedTokens 10) (FixedTokens 10)) >> 
  ok (sg 1) (C_create_contract 1 (FixedIn 10) (AutoAcceptance (Some [2])) true (RentTokens 100) (FlexibleTokens 10) (FlexibleTokens 10)) >> 
  ok (sg 1) (C_create_contract 2 (FixedIn 10) (ManualAcceptance (Some [2])) true (RentNFT 11) (FeeNFT 5) (FeeNFT 10)) >> 
  ok (sg 1) (C_create_contract 3 (SubscriptionIn 10 (Some 100) true) (ManualAcceptance (Some [2])) true (RentTokens 100) (FixedTokens 10) (FixedTokens 10)) >> 
  ok (sg 1) (C_create_contract 4 (SubscriptionIn 10 None false) (AutoAcceptance (Some [2])) false (RentTokens 100) NoFee (FixedTokens 10)) >> 
  ok (sg 1) (C_create_contract 8 (FixedIn 10) (AutoAcceptance (Some [2])) true (RentNFT 11) (FeeNFT 9) (FeeNFT 10)) >> 
  now_ (fun s2 => chk (fun _ => (if contracts (s_rent s2) !! 0 then true else false) = true) >> 
  chk (fun _ => (if contracts (s_rent s2) !! 1 then true else false) = true) >> 
  chk (fun _ => (if contracts (s_rent s2) !! 2 then true else false) = true) >> 
  chk (fun _ => (if contracts (s_rent s2) !! 3 then true else false) = true) >> 
  chk (fun _ => (if contracts (s_rent s2) !! 4 then true else false) = true) >> 
  chk (fun _ => (if contracts (s_rent s2) !! 8 then true else false) = true) >> 
  no (sg 1) (C_create_contract 6 (SubscriptionIn 10 None false) (AutoAcceptance None) false (RentTokens 100) (FlexibleTokens 10) NoFee) (Rent_err R_DurationAndCancellationFeeMismatch) >> fin)))
  (start_with [(ALICE, 1000000); (BOB, 1000000); (CHARLIE, 1000000)]).
Proof. replay. Qed.
Example duration_and_cancellation_fee_mismatch_rentee : (ok (sg 1) (C_create_nft [] 0 None false) >> ok (sg 1) (C_create_nft [] 0 None false) >> ok (sg 1) (C_create_nft [] 0 None false) >> 
  ok (sg 1) (C_create_nft [] 0 None false) >> ok (sg 1) (C_create_nft [] 0 None false) >> 
  ok (sg 1) (C_create_nft [] 0 None false) >> ok (sg 1) (C_create_nft [] 0 None false) >> 
  ok (sg 1) (C_create_nft [] 0 None false) >> ok (sg 1) (C_create_nft [] 0 None false) >> 
  ok (sg 1) (C_create_nft [] 0 None false) >> ok (sg 2) (C_create_nft [] 0 None false) >> 
  ok (sg 2) (C_create_nft [] 0 None false) >> ok (sg 2) (C_create_nft [] 0 None false) >> 
  now_ (fun s1 => chk (fun _ => (if nfts (s_nft s1) !! 0 then true else false) = true) >> 
  chk (fun _ => (if nfts (s_nft s1) !! 1 then true else false) = true) >> 
  chk (fun _ => (if nfts (s_nft s1) !! 2 then true else false) = true) >> 
  chk (fun _ => (if nfts (s_nft s1) !! 3 then true else false) = true) >> 
  chk (fun _ => (if nfts (s_nft s1) !! 4 then true else false) = true) >> 
  chk (fun _ => (if nfts (s_nft s1) !! 5 then true else false) = true) >> 
  chk (fun _ => (if nfts (s_nft s1) !! 6 then true else false) = true) >> 
  chk (fun _ => (if nfts (s_nft s1) !! 7 then true else false) = true) >> 
  chk (fun _ => (if nfts (s_nft s1) !! 8 then true else false) = true) >> 
  chk (fun _ => (if nfts (s_nft s1) !! 9 then true else false) = true) >> 
  chk (fun _ => (if nfts (s_nft s1) !! 10 then true else false) = true) >> 
  chk (fun _ => (if nfts (s_nft s1) !! 11 then true else false) = true) >> 
  chk (fun _ => (if nfts (s_nft s1) !! 12 then true else false) = true) >> 
  ok (sg 1) (C_create_contract 0 (FixedIn 10) (AutoAcceptance (Some [2])) true (RentNFT 10) (FixedTokens 10) (FixedTokens 10)) >> 
  ok (sg 1) (C_create_contract 1 (FixedIn 10) (AutoAcceptance (Some [2])) true (RentTokens 100) (FlexibleTokens 10) (FlexibleTokens 10)) >> 
  ok (sg 1) (C_create_contract 2 (FixedIn 10) (ManualAcceptance (Some [2])) true (RentNFT 11) (FeeNFT 5) (FeeNFT 10)) >> 
  ok (sg 1) (C_create_contract 3 (SubscriptionIn 10 (Some 100) true) (ManualAcceptance (Some [2])) true (RentTokens 100) (FixedTokens 10) (FixedTokens 10)) >> 
  ok (sg 1) (C_create_contract 4 (SubscriptionIn 10 None false) (AutoAcceptance (Some [2])) false (RentTokens 100) NoFee (FixedTokens 10)) >> 
  ok (sg 1) (C_create_contract 8 (FixedIn 10) (AutoAcceptance (Some [2])) true (RentNFT 11) (FeeNFT 9) (FeeNFT 10)) >> 
  now_ (fun s2 => chk (fun _ => (if contracts (s_rent s2) !! 0 then true else false) = true) >> 
  chk (fun _ => (if contracts (s_rent s2) !! 1 then true else false) = true) >> 
  chk (fun _ => (if contracts (s_rent s2) !! 2 then true else false) = true) >> 
  chk (fun _ => (if contracts (s_rent s2) !! 3 then true else false) = true) >> 
  chk (fun _ => (if contracts (s_rent s2) !! 4 then true else false) = true) >> 
  chk (fun _ => (if contracts (s_rent s2) !! 8 then true else false) = true) >> 
  no (sg 1) (C_create_contract 6 (SubscriptionIn 10 None false) (AutoAcceptance None) false (RentTokens 100) NoFee (FlexibleTokens 10)) (Rent_err R_DurationAndCancellationFeeMismatch) >> fin)))
  (start_with [(ALICE, 1000000); (BOB, 1000000); (CHARLIE, 1000000)]).
Proof. replay. Qed.
Example rent_nft_not_found : (ok (sg 1) (C_create_nft [] 0 None false) >> ok (sg 1) (C_create_nft [] 0 None false) >> ok (sg 1) (C_create_nft [] 0 None false) >> 
  ok (sg 1) (C_create_nft [] 0 None false) >> ok (sg 1) (C_create_nft [] 0 None false) >> 
  ok (sg 1) (C_create_nft [] 0 None false) >> ok (sg 1) (C_create_nft [] 0 None false) >> 
  ok (sg 1) (C_create_nft [] 0 None false) >> ok (sg 1) (C_create_nft [] 0 None false) >> 
  ok (sg 1) (C_create_nft [] 0 None false) >> ok (sg 2) (C_create_nft [] 0 None false) >> 
  ok (sg 2) (C_create_nft [] 0 None false) >> ok (sg 2) (C_create_nft [] 0 None false) >> 
  now_ (fun s1 => chk (fun _ => (if nfts (s_nft s1) !! 0 then true else false) = true) >> 
  chk (fun _ => (if nfts (s_nft s1) !! 1 then true else false) = true) >> 
  chk (fun _ => (if nfts (s_nft s1) !! 2 then true else false) = true) >> 
  chk (fun _ => (if nfts (s_nft s1) !! 3 then true else false) = true) >> 
  chk (fun _ => (if nfts (s_nft s1) !! 4 then true else false) = true) >> 
  chk (fun _ => (if nfts (s_nft s1) !! 5 then true else false) = true) >> 
  chk (fun _ => (if nfts (s_nft s1) !! 6 then true else false) = true) >> 
  chk (fun _ => (if nfts (s_nft s1) !! 7 then true else false) = true) >> 
  chk (fun _ => (if nfts (s_nft s1) !! 8 then true else false) = true) >> 
  chk (fun _ => (if nfts (s_nft s1) !! 9 then true else false) = true) >> 
  chk (fun _ => (if nfts (s_nft s1) !! 10 then true else false) = true) >> 
  chk (fun _ => (if nfts (s_nft s1) !! 11 then true else false) = true) >> 
  chk (fun _ => (if nfts (s_nft s1) !! 12 then true else false) = true) >> 
  ok (sg 1) (C_create_contract 0 (FixedIn 10) (AutoAcceptance (Some [2])) true (RentNFT 10) (FixedTokens 10) (FixedTokens 10)) >> 
  ok (sg 1) (C_create_contract 1 (FixedIn 10) (AutoAcceptance (Some [2])) true (RentTokens 100) (FlexibleTokens 10) (FlexibleTokens 10)) >> 
  ok (sg 1) (C_create_contract 2 (FixedIn 10) (ManualAcceptance (Some [2])) true (RentNFT 11) (FeeNFT 5) (FeeNFT 10)) >> 
  ok (sg 1) (C_create_contract 3 (SubscriptionIn 10 (Some 100) true) (ManualAcceptance (Some [2])) true (RentTokens 100) (FixedTokens 10) (FixedTokens 10)) >> 
  ok (sg 1) (C_create_contract 4 (SubscriptionIn 10 None false) (AutoAcceptance (Some [2])) false (RentTokens 100) NoFee (FixedTokens 10)) >> 
  ok (sg 1) (C_create_contract 8 (FixedIn 10) (AutoAcceptance (Some [2])) true (RentNFT 11) (FeeNFT 9) (FeeNFT 10)) >> 
  now_ (fun s2 => chk (fun _ => (if contracts (s_rent s2) !! 0 then true else false) = true) >> 
  chk (fun _ => (if contracts (s_rent s2) !! 1 then true else false) = true) >> 
  chk (fun _ => (if contracts (s_rent s2) !! 2 then true else false) = true) >> 
  chk (fun _ => (if contracts (s_rent s2) !! 3 then true else false) = true) >> 
  chk (fun _ => (if contracts (s_rent s2) !! 4 then true else false) = true) >> 
  chk (fun _ => (if contracts (s_rent s2) !! 8 then true else false) = true) >> 
  no (sg 1) (C_create_contract 6 (FixedIn 10) (AutoAcceptance None) false (RentNFT 99) NoFee NoFee) (Rent_err R_RentNFTNotFound) >> fin)))
  (start_with [(ALICE, 1000000); (BOB, 1000000); (CHARLIE, 1000000)]).
Proof. replay. Qed.
Example cancellation_nft_not_found_rentee : (ok (sg 1) (C_create_nft [] 0 None false) >> ok (sg 1) (C_create_nft [] 0 None false) >> ok (sg 1) (C_create_nft [] 0 None false) >> 
  ok (sg 1) (C_create_nft [] 0 None false) >> ok (sg 1) (C_create_nft [] 0 None false) >> 
  ok (sg 1) (C_create_nft [] 0 None false) >> ok (sg 1) (C_create_nft [] 0 None false) >> 
  ok (sg 1) (C_create_nft [] 0 None false) >> ok (sg 1) (C_create_nft [] 0 None false) >> 
  ok (sg 1) (C_create_nft [] 0 None false) >> ok (sg 2) (C_create_nft [] 0 None false) >> 
  ok (sg 2) (C_create_nft [] 0 None false) >> ok (sg 2) (C_create_nft [] 0 None false) >> 
  now_ (fun s1 => chk (fun _ => (if nfts (s_nft s1) !! 0 then true else false) = true) >> 
  chk (fun _ => (if nfts (s_nft s1) !! 1 then true else false) = true) >> 
  chk (fun _ => (if nfts (s_nft s1) !! 2 then true else false) = true) >> 
  chk (fun _ => (if nfts (s_nft s1) !! 3 then true else false) = true) >> 
  chk (fun _ => (if nfts (s_nft s1) !! 4 then true else false) = true) >> 
  chk (fun _ => (if nfts (s_nft s1) !! 5 then true else false) = true) >> 
  chk (fun _ => (if nfts (s_nft s1) !! 6 then true else false) = true) >> 
  chk (fun _ => (if nfts (s_nft s1) !! 7 then true else false) = true) >> 
  chk (fun _ => (if nfts (s_nft s1) !! 8 then true else false) = true) >> 
  chk (fun _ => (if nfts (s_nft s1) !! 9 then true else false) = true) >> 
  chk (fun _ => (if nfts (s_nft s1) !! 10 then true else false) = true) >> 
  chk (fun _ => (if nfts (s_nft s1) !! 11 then true else false) = true) >> 
  chk (fun _ => (if nfts (s_nft s1) !! 12 then true else false) = true) >> 
  ok (sg 1) (C_create_contract 0 (FixedIn 10) (AutoAcceptance (Some [2])) true (RentNFT 10) (FixedTokens 10) (FixedTokens 10)) >> 
  ok (sg 1) (C_create_contract 1 (FixedIn 10) (AutoAcceptance (Some [2])) true (RentTokens 100) (FlexibleTokens 10) (FlexibleTokens 10)) >> 
  ok (sg 1) (C_create_contract 2 (FixedIn 10) (ManualAcceptance (Some [2])) true (RentNFT 11) (FeeNFT 5) (FeeNFT 10)) >> 
  ok (sg 1) (C_create_contract 3 (SubscriptionIn 10 (Some 100) true) (ManualAcceptance (Some [2])) true (RentTokens 100) (FixedTokens 10) (FixedTokens 10)) >> 
  ok (sg 1) (C_create_contract 4 (SubscriptionIn 10 None false) (AutoAcceptance (Some [2])) false (RentTokens 100) NoFee (FixedTokens 10)) >> 
  ok (sg 1) (C_create_contract 8 (FixedIn 10) (AutoAcceptance (Some [2])) true (RentNFT 11) (FeeNFT 9) (FeeNFT 10)) >> 
  now_ (fun s2 => chk (fun _ => (if contracts (s_rent s2) !! 0 then true else false) = true) >> 
  chk (fun _ => (if contracts (s_rent s2) !! 1 then true else false) = true) >> 
  chk (fun _ => (if contracts (s_rent s2) !! 2 then true else false) = true) >> 
  chk (fun _ => (if contracts (s_rent s2) !! 3 then true else false) = true) >> 
  chk (fun _ => (if contracts (s_rent s2) !! 4 then true else false) = true) >> 
  chk (fun _ => (if contracts (s_rent s2) !! 8 then true else false) = true) >> 
  no (sg 1) (C_create_contract 6 (FixedIn 10) (AutoAcceptance None) false (RentTokens 100) NoFee (FeeNFT 99)) (Rent_err R_CancellationNFTNotFound) >> fin)))
  (start_with [(ALICE, 1000000); (BOB, 1000000); (CHARLIE, 1000000)]).
Proof. replay. Qed.
Example amount_too_low_renter_cancellation_fee : (ok (sg 1) (C_create_nft [] 0 None false) >> ok (sg 1) (C_create_nft [] 0 None false) >> ok (sg 1) (C_create_nft [] 0 None false) >> 
  ok (sg 1) (C_create_nft [] 0 None false) >> ok (sg 1) (C_create_nft [] 0 None false) >> 
  ok (sg 1) (C_create_nft [] 0 None false) >> ok (sg 1) (C_create_nft [] 0 None false) >> 
  ok (sg 1) (C_create_nft [] 0 None false) >> ok (sg 1) (C_create_nft [] 0 None false) >> 
  ok (sg 1) (C_create_nft [] 0 None false) >> ok (sg 2) (C_create_nft [] 0 None false) >> 
  ok (sg 2) (C_create_nft [] 0 None false) >> ok (sg 2) (C_create_nft [] 0 None false) >> 
  now_ (fun s1 => chk (fun _ => (if nfts (s_nft s1) !! 0 then true else false) = true) >> 
  chk (fun _ => (if nfts (s_nft s1) !! 1 then true else false) = true) >> 
  chk (fun _ => (if nfts (s_nft s1) !! 2 then true else false) = true) >> 
  chk (fun _ => (if nfts (s_nft s1) !! 3 then true else false) = true) >> 
  chk (fun _ => (if nfts (s_nft s1) !! 4 then true else false) = true) >> 
  chk (fun _ => (if nfts (s_nft s1) !! 5 then true else false) = true) >> 
  chk (fun _ => (if nfts (s_nft s1) !! 6 then true else false) = true) >> 
  chk (fun _ => (if nfts (s_nft s1) !! 7 then true else false) = true) >> 
  chk (fun _ => (if nfts (s_nft s1) !! 8 then true else false) = true) >> 
  chk (fun _ => (if nfts (s_nft s1) !! 9 then true else false) = true) >> 
  chk (fun _ => (if nfts (s_nft s1) !! 10 then true else false) = true) >> 
  chk (fun _ => (if nfts (s_nft s1) !! 11 then true else false) = true) >> 
  chk (fun _ => (if nfts (s_nft s1) !! 12 then true else false) = true) >> 
  ok (sg 1) (C_create_contract 0 (FixedIn 10) (AutoAcceptance (Some [2])) true (RentNFT 10) (FixedTokens 10) (FixedTokens 10)) >> 
  ok (sg 1) (C_create_contract 1 (FixedIn 10) (AutoAcceptance (Some [2])) true (RentTokens 100) (FlexibleTokens 10) (FlexibleTokens 10)) >> 
  ok (sg 1) (C_create_contract 2 (FixedIn 10) (ManualAcceptance (Some [2])) true (RentNFT 11) (FeeNFT 5) (FeeNFT 10)) >> 
  ok (sg 1) (C_create_contract 3 (SubscriptionIn 10 (Some 100) true) (ManualAcceptance (Some [2])) true (RentTokens 100) (FixedTokens 10) (FixedTokens 10)) >> 
  ok (sg 1) (C_create_contract 4 (SubscriptionIn 10 None false) (AutoAcceptance (Some [2])) false (RentTokens 100) NoFee (FixedTokens 10)) >> 
  ok (sg 1) (C_create_contract 8 (FixedIn 10) (AutoAcceptance (Some [2])) true (RentNFT 11) (FeeNFT 9) (FeeNFT 10)) >> 
  now_ (fun s2 => chk (fun _ => (if contracts (s_rent s2) !! 0 then true else false) = true) >> 
  chk (fun _ => (if contracts (s_rent s2) !! 1 then true else false) = true) >> 
  chk (fun _ => (if contracts (s_rent s2) !! 2 then true else false) = true) >> 
  chk (fun _ => (if contracts (s_rent s2) !! 3 then true else false) = true) >> 
  chk (fun _ => (if contracts (s_rent s2) !! 4 then true else false) = true) >> 
  chk (fun _ => (if contracts (s_rent s2) !! 8 then true else false) = true) >> 
  no (sg 1) (C_create_contract 6 (FixedIn 10) (AutoAcceptance None) false (RentTokens 100) (FixedTokens 1) NoFee) (Rent_err R_AmountTooLow) >> fin)))
  (start_with [(ALICE, 1000000); (BOB, 1000000); (CHARLIE, 1000000)]).
Proof. replay. Qed.
Example amount_too_low_rentee_cancellation_fee : (ok (sg 1) (C_create_nft [] 0 None false) >> ok (sg 1) (C_create_nft [] 0 None false) >> ok (sg 1) (C_create_nft [] 0 None false) >> 
  ok (sg 1) (C_create_nft [] 0 None false) >> ok (sg 1) (C_create_nft [] 0 None false) >> 
  ok (sg 1) (C_create_nft [] 0 None false) >> ok (sg 1) (C_create_nft [] 0 None false) >> 
  ok (sg 1) (C_create_nft [] 0 None false) >> ok (sg 1) (C_create_nft [] 0 None false) >> 
  ok (sg 1) (C_create_nft [] 0 None false) >> ok (sg 2) (C_create_nft [] 0 None false) >> 
  ok (sg 2) (C_create_nft [] 0 None false) >> ok (sg 2) (C_create_nft [] 0 None false) >> 
  now_ (fun s1 => chk (fun _ => (if nfts (s_nft s1) !! 0 then true else false) = true) >> 
  chk (fun _ => (if nfts (s_nft s1) !! 1 then true else false) = true) >> 
  chk (fun _ => (if nfts (s_nft s1) !! 2 then true else false) = true) >> 
  chk (fun _ => (if nfts (s_nft s1) !! 3 then true else false) = true) >> 
  chk (fun _ => (if nfts (s_nft s1) !! 4 then true else false) = true) >> 
  chk (fun _ => (if nfts (s_nft s1) !! 5 then true else false) = true) >> 
  chk (fun _ => (if nfts (s_nft s1) !! 6 then true else false) = true) >> 
  chk (fun _ => (if nfts (s_nft s1) !! 7 then true else false) = true) >> 
  chk (fun _ => (if nfts (s_nft s1) !! 8 then true else false) = true) >> 
  chk (fun _ => (if nfts (s_nft s1) !! 9 then true else false) = true) >> 
  chk (fun _ => (if nfts (s_nft s1) !! 10 then true else false) = true) >> 
  chk (fun _ => (if nfts (s_nft s1) !! 11 then true else false) = true) >> 
  chk (fun _ => (if nfts (s_nft s1) !! 12 then true else false) = true) >> 
  ok (sg 1) (C_create_contract 0 (FixedIn 10) (AutoAcceptance (Some [2])) true (RentNFT 10) (FixedTokens 10) (FixedTokens 10)) >> 
  ok (sg 1) (C_create_contract 1 (FixedIn 10) (AutoAcceptance (Some [2])) true (RentTokens 100) (FlexibleTokens 10) (FlexibleTokens 10)) >> 
  ok (sg 1) (C_create_contract 2 (FixedIn 10) (ManualAcceptance (Some [2])) true (RentNFT 11) (FeeNFT 5) (FeeNFT 10)) >> 
  ok (sg 1) (C_create_contract 3 (SubscriptionIn 10 (Some 100) true) (ManualAcceptance (Some [2])) true (RentTokens 100) (FixedTokens 10) (FixedTokens 10)) >> 
  ok (sg 1) (C_create_contract 4 (SubscriptionIn 10 None false) (AutoAcceptance (Some [2])) false (RentTokens 100) NoFee (FixedTokens 10)) >> 
  ok (sg 1) (C_create_contract 8 (FixedIn 10) (AutoAcceptance (Some [2])) true (RentNFT 11) (FeeNFT 9) (FeeNFT 10)) >> 
  now_ (fun s2 => chk (fun _ => (if contracts (s_rent s2) !! 0 then true else false) = true) >> 
  chk (fun _ => (if contracts (s_rent s2) !! 1 then true else false) = true) >> 
  chk (fun _ => (if contracts (s_rent s2) !! 2 then true else false) = true) >> 
  chk (fun _ => (if contracts (s_rent s2) !! 3 then true else false) = true) >> 
  chk (fun _ => (if contracts (s_rent s2) !! 4 then true else false) = true) >> 
  chk (fun _ => (if contracts (s_rent s2) !! 8 then true else false) = true) >> 
  no (sg 1) (C_create_contract 6 (FixedIn 10) (AutoAcceptance None) false (RentTokens 100) NoFee (FixedTokens 1)) (Rent_err R_AmountTooLow) >> fin)))
  (start_with [(ALICE, 1000000); (BOB, 1000000); (CHARLIE, 1000000)]).
Proof. replay. Qed.
Example not_ennough_funds_for_cancellation_fee : (ok (sg 1) (C_create_nft [] 0 None false) >> ok (sg 1) (C_create_nft [] 0 None false) >> ok (sg 1) (C_create_nft [] 0 None false) >> 
  ok (sg 1) (C_create_nft [] 0 None false) >> ok (sg 1) (C_create_nft [] 0 None false) >> 
  ok (sg 1) (C_create_nft [] 0 None false) >> ok (sg 1) (C_create_nft [] 0 None false) >> 
  ok (sg 1) (C_create_nft [] 0 None false) >> ok (sg 1) (C_create_nft [] 0 None false) >> 
  ok (sg 1) (C_create_nft [] 0 None false) >> ok (sg 2) (C_create_nft [] 0 None false) >> 
  ok (sg 2) (C_create_nft [] 0 None false) >> ok (sg 2) (C_create_nft [] 0 None false) >> 
  now_ (fun s1 => chk (fun _ => (if nfts (s_nft s1) !! 0 then true else false) = true) >> 
  chk (fun _ => (if nfts (s_nft s1) !! 1 then true else false) = true) >> 
  chk (fun _ => (if nfts (s_nft s1) !! 2 then true else false) = true) >> 
  chk (fun _ => (if nfts (s_nft s1) !! 3 then true else false) = true) >> 
  chk (fun _ => (if nfts (s_nft s1) !! 4 then true else false) = true) >> 
  chk (fun _ => (if nfts (s_nft s1) !! 5 then true else false) = true) >> 
  chk (fun _ => (if nfts (s_nft s1) !! 6 then true else false) = true) >> 
  chk (fun _ => (if nfts (s_nft s1) !! 7 then true else false) = true) >> 
  chk (fun _ => (if nfts (s_nft s1) !! 8 then true else false) = true) >> 
  chk (fun _ => (if nfts (s_nft s1) !! 9 then true else false) = true) >> 
  chk (fun _ => (if nfts (s_nft s1) !! 10 then true else false) = true) >> 
  chk (fun _ => (if nfts (s_nft s1) !! 11 then true else false) = true) >> 
  chk (fun _ => (if nfts (s_nft s1) !! 12 then true else false) = true) >> 
  ok (sg 1) (C_create_contract 0 (FixedIn 10) (AutoAcceptance (Some [2])) true (RentNFT 10) (FixedTokens 10) (FixedTokens 10)) >> 
  ok (sg 1) (C_create_contract 1 (FixedIn 10) (AutoAcceptance (Some [2])) true (RentTokens 100) (FlexibleTokens 10) (FlexibleTokens 10)) >> 
  ok (sg 1) (C_create_contract 2 (FixedIn 10) (ManualAcceptance (Some [2])) true (RentNFT 11) (FeeNFT 5) (FeeNFT 10)) >> 
  ok (sg 1) (C_create_contract 3 (SubscriptionIn 10 (Some 100) true) (ManualAcceptance (Some [2])) true (RentTokens 100) (FixedTokens 10) (FixedTokens 10)) >> 
  ok (sg 1) (C_create_contract 4 (SubscriptionIn 10 None false) (AutoAcceptance (Some [2])) false (RentTokens 100) NoFee (FixedTokens 10)) >> 
  ok (sg 1) (C_create_contract 8 (FixedIn 10) (AutoAcceptance (Some [2])) true (RentNFT 11) (FeeNFT 9) (FeeNFT 10)) >> 
  now_ (fun s2 => chk (fun _ => (if contracts (s_rent s2) !! 0 then true else false) = true) >> 
  chk (fun _ => (if contracts (s_rent s2) !! 1 then true else false) = true) >> 
  chk (fun _ => (if contracts (s_rent s2) !! 2 then true else false) = true) >> 
  chk (fun _ => (if contracts (s_rent s2) !! 3 then true else false) = true) >> 
  chk (fun _ => (if contracts (s_rent s2) !! 4 then true else false) = true) >> 
  chk (fun _ => (if contracts (s_rent s2) !! 8 then true else false) = true) >> 
  no (sg 1) (C_create_contract 6 (FixedIn 10) (AutoAcceptance None) false (RentTokens 100) (FixedTokens 1000000) NoFee) (Rent_err R_NotEnoughFundsForCancellationFee) >> fin)))
  (start_with [(ALICE, 1000000); (BOB, 1000000); (CHARLIE, 1000000)]).
Proof. replay. Qed.
Example cancellation_nft_not_found_renter : (ok (sg 1) (C_create_nft [] 0 None false) >> ok (sg 1) (C_create_nft [] 0 None false) >> ok (sg 1) (C_create_nft [] 0 None false) >> 
  ok (sg 1) (C_create_nft [] 0 None false) >> ok (sg 1) (C_create_nft [] 0 None false) >> 
  ok (sg 1) (C_create_nft [] 0 None false) >> ok (sg 1) (C_create_nft [] 0 None false) >> 
  ok (sg 1) (C_create_nft [] 0 None false) >> ok (sg 1) (C_create_nft [] 0 None false) >> 
  ok (sg 1) (C_create_nft [] 0 None false) >> ok (sg 2) (C_create_nft [] 0 None false) >> 
  ok (sg 2) (C_create_nft [] 0 None false) >> ok (sg 2) (C_create_nft [] 0 None false) >> 
  now_ (fun s1 => chk (fun _ => (if nfts (s_nft s1) !! 0 then true else false) = true) >> 
  chk (fun _ => (if nfts (s_nft s1) !! 1 then true else false) = true) >> 
  chk (fun _ => (if nfts (s_nft s1) !! 2 then true else false) = true) >> 
  chk (fun _ => (if nfts (s_nft s1) !! 3 then true else false) = true) >> 
  chk (fun _ => (if nfts (s_nft s1) !! 4 then true else false) = true) >> 
  chk (fun _ => (if nfts (s_nft s1) !! 5 then true else false) = true) >> 
  chk (fun _ => (if nfts (s_nft s1) !! 6 then true else false) = true) >> 
  chk (fun _ => (if nfts (s_nft s1) !! 7 then true else false) = true) >> 
  chk (fun _ => (if nfts (s_nft s1) !! 8 then true else false) = true) >> 
  chk (fun _ => (if nfts (s_nft s1) !! 9 then true else false) = true) >> 
  chk (fun _ => (if nfts (s_nft s1) !! 10 then true else false) = true) >> 
  chk (fun _ => (if nfts (s_nft s1) !! 11 then true else false) = true) >> 
  chk (fun _ => (if nfts (s_nft s1) !! 12 then true else false) = true) >> 
  ok (sg 1) (C_create_contract 0 (FixedIn 10) (AutoAcceptance (Some [2])) true (RentNFT 10) (FixedTokens 10) (FixedTokens 10)) >> 
  ok (sg 1) (C_create_contract 1 (FixedIn 10) (AutoAcceptance (Some [2])) true (RentTokens 100) (FlexibleTokens 10) (FlexibleTokens 10)) >> 
  ok (sg 1) (C_create_contract 2 (FixedIn 10) (ManualAcceptance (Some [2])) true (RentNFT 11) (FeeNFT 5) (FeeNFT 10)) >> 
  ok (sg 1) (C_create_contract 3 (SubscriptionIn 10 (Some 100) true) (ManualAcceptance (Some [2])) true (RentTokens 100) (FixedTokens 10) (FixedTokens 10)) >> 
  ok (sg 1) (C_create_contract 4 (SubscriptionIn 10 None false) (AutoAcceptance (Some [2])) false (RentTokens 100) NoFee (FixedTokens 10)) >> 
  ok (sg 1) (C_create_contract 8 (FixedIn 10) (AutoAcceptance (Some [2])) true (RentNFT 11) (FeeNFT 9) (FeeNFT 10)) >> 
  now_ (fun s2 => chk (fun _ => (if contracts (s_rent s2) !! 0 then true else false) = true) >> 
  chk (fun _ => (if contracts (s_rent s2) !! 1 then true else false) = true) >> 
  chk (fun _ => (if contracts (s_rent s2) !! 2 then true else false) = true) >> 
  chk (fun _ => (if contracts (s_rent s2) !! 3 then true else false) = true) >> 
  chk (fun _ => (if contracts (s_rent s2) !! 4 then true else false) = true) >> 
  chk (fun _ => (if contracts (s_rent s2) !! 8 then true else false) = true) >> 
  no (sg 1) (C_create_contract 6 (FixedIn 10) (AutoAcceptance None) false (RentTokens 100) (FeeNFT 99) NoFee) (Rent_err R_CancellationNFTNotFound) >> fin)))
  (start_with [(ALICE, 1000000); (BOB, 1000000); (CHARLIE, 1000000)]).
Proof. replay. Qed.
Example caller_does_not_own_cancellation_nft : (ok (sg 1) (C_create_nft [] 0 None false) >> ok (sg 1) (C_create_nft [] 0 None false) >> ok (sg 1) (C_create_nft [] 0 None false) >> 
  ok (sg 1) (C_create_nft [] 0 None false) >> ok (sg 1) (C_create_nft [] 0 None false) >> 
  ok (sg 1) (C_create_nft [] 0 None false) >> ok (sg 1) (C_create_nft [] 0 None false) >> 
  ok (sg 1) (C_create_nft [] 0 None false) >> ok (sg 1) (C_create_nft [] 0 None false) >> 
  ok (sg 1) (C_create_nft [] 0 None false) >> ok (sg 2) (C_create_nft [] 0 None false) >> 
  ok (sg 2) (C_create_nft [] 0 None false) >> ok (sg 2) (C_create_nft [] 0 None false) >> 
  now_ (fun s1 => chk (fun _ => (if nfts (s_nft s1) !! 0 then true else false) = true) >> 
  chk (fun _ => (if nfts (s_nft s1) !! 1 then true else false) = true) >> 
  chk (fun _ => (if nfts (s_nft s1) !! 2 then true else false) = true) >> 
  chk (fun _ => (if nfts (s_nft s1) !! 3 then true else false) = true) >> 
  chk (fun _ => (if nfts (s_nft s1) !! 4 then true else false) = true) >> 
  chk (fun _ => (if nfts (s_nft s1) !! 5 then true else false) = true) >> 
  chk (fun _ => (if nfts (s_nft s1) !! 6 then true else false) = true) >> 
  chk (fun _ => (if nfts (s_nft s1) !! 7 then true else false) = true) >> 
  chk (fun _ => (if nfts (s_nft s1) !! 8 then true else false) = true) >> 
  chk (fun _ => (if nfts (s_nft s1) !! 9 then true else false) = true) >> 
  chk (fun _ => (if nfts (s_nft s1) !! 10 then true else false) = true) >> 
  chk (fun _ => (if nfts (s_nft s1) !! 11 then true else false) = true) >> 
  chk (fun _ => (if nfts (s_nft s1) !! 12 then true else false) = true) >> 
  ok (sg 1) (C_create_contract 0 (FixedIn 10) (AutoAcceptance (Some [2])) true (RentNFT 10) (FixedTokens 10) (FixedTokens 10)) >> 
  ok (sg 1) (C_create_contract 1 (FixedIn 10) (AutoAcceptance (Some [2])) true (RentTokens 100) (FlexibleTokens 10) (FlexibleTokens 10)) >> 
  ok (sg 1) (C_create_contract 2 (FixedIn 10) (ManualAcceptance (Some [2])) true (RentNFT 11) (FeeNFT 5) (FeeNFT 10)) >> 
  ok (sg 1) (C_create_contract 3 (SubscriptionIn 10 (Some 100) true) (ManualAcceptance (Some [2])) true (RentTokens 100) (FixedTokens 10) (FixedTokens 10)) >> 
  ok (sg 1) (C_create_contract 4 (SubscriptionIn 10 None false) (AutoAcceptance (Some [2])) false (RentTokens 100) NoFee (FixedTokens 10)) >> 
  ok (sg 1) (C_create_contract 8 (FixedIn 10) (AutoAcceptance (Some [2])) true (RentNFT 11) (FeeNFT 9) (FeeNFT 10)) >> 
  now_ (fun s2 => chk (fun _ => (if contracts (s_rent s2) !! 0 then true else false) = true) >> 
  chk (fun _ => (if contracts (s_rent s2) !! 1 then true else false) = true) >> 
  chk (fun _ => (if contracts (s_rent s2) !! 2 then true else false) = true) >> 
  chk (fun _ => (if contracts (s_rent s2) !! 3 then true else false) = true) >> 
  chk (fun _ => (if contracts (s_rent s2) !! 4 then true else false) = true) >> 
  chk (fun _ => (if contracts (s_rent s2) !! 8 then true else false) = true) >> 
  no (sg 1) (C_create_contract 6 (FixedIn 10) (AutoAcceptance None) false (RentTokens 100) (FeeNFT 10) NoFee) (Rent_err R_CallerDoesNotOwnCancellationNFT) >> fin)))
  (start_with [(ALICE, 1000000); (BOB, 1000000); (CHARLIE, 1000000)]).
Proof. replay. Qed.
Example cancellation_nft_not_in_valid_state : (ok (sg 1) (C_create_nft [] 0 None false) >> ok (sg 1) (C_create_nft [] 0 None false) >> ok (sg 1) (C_create_nft [] 0 None false) >> 
  ok (sg 1) (C_create_nft [] 0 None false) >> ok (sg 1) (C_create_nft [] 0 None false) >> 
  ok (sg 1) (C_create_nft [] 0 None false) >> ok (sg 1) (C_create_nft [] 0 None false) >> 
  ok (sg 1) (C_create_nft [] 0 None false) >> ok (sg 1) (C_create_nft [] 0 None false) >> 
  ok (sg 1) (C_create_nft [] 0 None false) >> ok (sg 2) (C_create_nft [] 0 None false) >> 
  ok (sg 2) (C_create_nft [] 0 None false) >> ok (sg 2) (C_create_nft [] 0 None false) >> 
  now_ (fun s1 => chk (fun _ => (if nfts (s_nft s1) !! 0 then true else false) = true) >> 
  chk (fun _ => (if nfts (s_nft s1) !! 1 then true else false) = true) >> 
  chk (fun _ => (if nfts (s_nft s1) !! 2 then true else false) = true) >> 
  chk (fun _ => (if nfts (s_nft s1) !! 3 then true else false) = true) >> 
  chk (fun _ => (if nfts (s_nft s1) !! 4 then true else false) = true) >> 
  chk (fun _ => (if nfts (s_nft s1) !! 5 then true else false) = true) >> 
  chk (fun _ => (if nfts (s_nft s1) !! 6 then true else false) = true) >> 
  chk (fun _ => (if nfts (s_nft s1) !! 7 then true else false) = true) >> 
  chk (fun _ => (if nfts (s_nft s1) !! 8 then true else false) = true) >> 
  chk (fun _ => (if nfts (s_nft s1) !! 9 then true else false) = true) >> 
  chk (fun _ => (if nfts (s_nft s1) !! 10 then true else false) = true) >> 
  chk (fun _ => (if nfts (s_nft s1) !! 11 then true else false) = true) >> 
  chk (fun _ => (if nfts (s_nft s1) !! 12 then true else false) = true) >> 
  ok (sg 1) (C_create_contract 0 (FixedIn 10) (AutoAcceptance (Some [2])) true (RentNFT 10) (FixedTokens 10) (FixedTokens 10)) >> 
  ok (sg 1) (C_create_contract 1 (FixedIn 10) (AutoAcceptance (Some [2])) true (RentTokens 100) (FlexibleTokens 10) (FlexibleTokens 10)) >> 
  ok (sg 1) (C_create_contract 2 (FixedIn 10) (ManualAcceptance (Some [2])) true (RentNFT 11) (FeeNFT 5) (FeeNFT 10)) >> 
  ok (sg 1) (C_create_contract 3 (SubscriptionIn 10 (Some 100) true) (ManualAcceptance (Some [2])) true (RentTokens 100) (FixedTokens 10) (FixedTokens 10)) >> 
  ok (sg 1) (C_create_contract 4 (SubscriptionIn 10 None false) (AutoAcceptance (Some [2])) false (RentTokens 100) NoFee (FixedTokens 10)) >> 
  ok (sg 1) (C_create_contract 8 (FixedIn 10) (AutoAcceptance (Some [2])) true (RentNFT 11) (FeeNFT 9) (FeeNFT 10)) >> 
  now_ (fun s2 => chk (fun _ => (if contracts (s_rent s2) !! 0 then true else false) = true) >> 
  chk (fun _ => (if contracts (s_rent s2) !! 1 then true else false) = true) >> 
  chk (fun _ => (if contracts (s_rent s2) !! 2 then true else false) = true) >> 
  chk (fun _ => (if contracts (s_rent s2) !! 3 then true else false) = true) >> 
  chk (fun _ => (if contracts (s_rent s2) !! 4 then true else false) = true) >> 
  chk (fun _ => (if contracts (s_rent s2) !! 8 then true else false) = true) >> 
  flag 7 (fun _ => mkNftState false false false false false false false false true) >> 
  no (sg 1) (C_create_contract 6 (FixedIn 10) (AutoAcceptance None) false (RentTokens 100) (FeeNFT 7) NoFee) (Rent_err R_CancellationNFTNotInValidState) >> fin)))
  (start_with [(ALICE, 1000000); (BOB, 1000000); (CHARLIE, 1000000)]).
Proof. replay. Qed.

(** * extrinsics, cancel_contract *)
Example cancel_contract : (ok (sg 1) (C_create_nft [] 0 None false) >> ok (sg 1) (C_create_nft [] 0 None false) >> ok (sg 1) (C_create_nft [] 0 None false) >> 
  ok (sg 1) (C_create_nft [] 0 None false) >> ok (sg 1) (C_create_nft [] 0 None false) >> 
  ok (sg 1) (C_create_nft [] 0 None false) >> ok (sg 1) (C_create_nft [] 0 None false) >> 
  ok (sg 1) (C_create_nft [] 0 None false) >> ok (sg 1) (C_create_nft [] 0 None false) >> 
  ok (sg 1) (C_create_nft [] 0 None false) >> ok (sg 2) (C_create_nft [] 0 None false) >> 
  ok (sg 2) (C_create_nft [] 0 None false) >> ok (sg 2) (C_create_nft [] 0 None false) >> 
  now_ (fun s1 => chk (fun _ => (if nfts (s_nft s1) !! 0 then true else false) = true) >> 
  chk (fun _ => (if nfts (s_nft s1) !! 1 then true else false) = true) >> 
  chk (fun _ => (if nfts (s_nft s1) !! 2 then true else false) = true) >> 
  chk (fun _ => (if nfts (s_nft s1) !! 3 then true else false) = true) >> 
  chk (fun _ => (if nfts (s_nft s1) !! 4 then true else false) = true) >> 
  chk (fun _ => (if nfts (s_nft s1) !! 5 then true else false) = true) >> 
  chk (fun _ => (if nfts (s_nft s1) !! 6 then true else false) = true) >> 
  chk (fun _ => (if nfts (s_nft s1) !! 7 then true else false) = true) >> 
  chk (fun _ => (if nfts (s_nft s1) !! 8 then true else false) = true) >> 
  chk (fun _ => (if nfts (s_nft s1) !! 9 then true else false) = true) >> 
  chk (fun _ => (if nfts (s_nft s1) !! 10 then true else false) = true) >> 
  chk (fun _ => (if nfts (s_nft s1) !! 11 then true else false) = true) >> 
  chk (fun _ => (if nfts (s_nft s1) !! 12 then true else false) = true) >> 
  ok (sg 1) (C_create_contract 0 (FixedIn 10) (AutoAcceptance (Some [2])) true (RentNFT 10) (FixedTokens 10) (FixedTokens 10)) >> 
  ok (sg 1) (C_create_contract 1 (FixedIn 10) (AutoAcceptance (Some [2])) true (RentTokens 100) (FlexibleTokens 10) (FlexibleTokens 10)) >> 
  ok (sg 1) (C_create_contract 2 (FixedIn 10) (ManualAcceptance (Some [2])) true (RentNFT 11) (FeeNFT 5) (FeeNFT 10)) >> 
  ok (sg 1) (C_create_contract 3 (SubscriptionIn 10 (Some 100) true) (ManualAcceptance (Some [2])) true (RentTokens 100) (FixedTokens 10) (FixedTokens 10)) >> 
  ok (sg 1) (C_create_contract 4 (SubscriptionIn 10 None false) (AutoAcceptance (Some [2])) false (RentTokens 100) NoFee (FixedTokens 10)) >> 
  ok (sg 1) (C_create_contract 8 (FixedIn 10) (AutoAcceptance (Some [2])) true (RentNFT 11) (FeeNFT 9) (FeeNFT 10)) >> 
  now_ (fun s2 => chk (fun _ => (if contracts (s_rent s2) !! 0 then true else false) = true) >> 
  chk (fun _ => (if contracts (s_rent s2) !! 1 then true else false) = true) >> 
  chk (fun _ => (if contracts (s_rent s2) !! 2 then true else false) = true) >> 
  chk (fun _ => (if contracts (s_rent s2) !! 3 then true else false) = true) >> 
  chk (fun _ => (if contracts (s_rent s2) !! 4 then true else false) = true) >> 
  chk (fun _ => (if contracts (s_rent s2) !! 8 then true else false) = true) >> ok (sg 1) (C_cancel_contract 1) >> 
  now_ (fun s3 => chk (fun _ => (if nfts (s_nft s3) !! 1 then true else false) = true) >> 
  chk (fun _ => (if contracts (s_rent s3) !! 1 then false else true) = true) >> 
  chk (fun _ => (if q_get 1 (q_avail (queues (s_rent s3))) then false else true) = true) >> 
  chk (fun _ => (negb (is_rented (nstate (default dnft (nfts (s_nft s3) !! 1))))) = true) >> last_ (Ev_ContractCanceled 1) >> fin))))
  (start_with [(ALICE, 1000000); (BOB, 1000000); (CHARLIE, 1000000)]).
Proof. replay. Qed.
Example contract_not_found : (ok (sg 1) (C_create_nft [] 0 None false) >> ok (sg 1) (C_create_nft [] 0 None false) >> ok (sg 1) (C_create_nft [] 0 None false) >> 
  ok (sg 1) (C_create_nft [] 0 None false) >> ok (sg 1) (C_create_nft [] 0 None false) >> 
  ok (sg 1) (C_create_nft [] 0 None false) >> ok (sg 1) (C_create_nft [] 0 None false) >> 
  ok (sg 1) (C_create_nft [] 0 None false) >> ok (sg 1) (C_create_nft [] 0 None false) >> 
  ok (sg 1) (C_create_nft [] 0 None false) >> ok (sg 2) (C_create_nft [] 0 None false) >> 
  ok (sg 2) (C_create_nft [] 0 None false) >> ok (sg 2) (C_create_nft [] 0 None false) >> 
  now_ (fun s1 => chk (fun _ => (if nfts (s_nft s1) !! 0 then true else false) = true) >> 
  chk (fun _ => (if nfts (s_nft s1) !! 1 then true else false) = true) >> 
  chk (fun _ => (if nfts (s_nft s1) !! 2 then true else false) = true) >> 
  chk (fun _ => (if nfts (s_nft s1) !! 3 then true else false) = true) >> 
  chk (fun _ => (if nfts (s_nft s1) !! 4 then true else false) = true) >> 
  chk (fun _ => (if nfts (s_nft s1) !! 5 then true else false) = true) >> 
  chk (fun _ => (if nfts (s_nft s1) !! 6 then true else false) = true) >> 
  chk (fun _ => (if nfts (s_nft s1) !! 7 then true else false) = true) >> 
  chk (fun _ => (if nfts (s_nft s1) !! 8 then true else false) = true) >> 
  chk (fun _ => (if nfts (s_nft s1) !! 9 then true else false) = true) >> 
  chk (fun _ => (if nfts (s_nft s1) !! 10 then true else false) = true) >> 
  chk (fun _ => (if nfts (s_nft s1) !! 11 then true else false) = true) >> 
  chk (fun _ => (if nfts (s_nft s1) !! 12 then true else false) = true) >> 
  ok (sg 1) (C_create_contract 0 (FixedIn 10) (AutoAcceptance (Some [2])) true (RentNFT 10) (FixedTokens 10) (FixedTokens 10)) >> 
  ok (sg 1) (C_create_contract 1 (FixedIn 10) (AutoAcceptance (Some [2])) true (RentTokens 100) (FlexibleTokens 10) (FlexibleTokens 10)) >> 
  ok (sg 1) (C_create_contract 2 (FixedIn 10) (ManualAcceptance (Some [2])) true (RentNFT 11) (FeeNFT 5) (FeeNFT 10)) >> 
  ok (sg 1) (C_create_contract 3 (SubscriptionIn 10 (Some 100) true) (ManualAcceptance (Some [2])) true (RentTokens 100) (FixedTokens 10) (FixedTokens 10)) >> 
  ok (sg 1) (C_create_contract 4 (SubscriptionIn 10 None false) (AutoAcceptance (Some [2])) false (RentTokens 100) NoFee (FixedTokens 10)) >> 
  ok (sg 1) (C_create_contract 8 (FixedIn 10) (AutoAcceptance (Some [2])) true (RentNFT 11) (FeeNFT 9) (FeeNFT 10)) >> 
  now_ (fun s2 => chk (fun _ => (if contracts (s_rent s2) !! 0 then true else false) = true) >> 
  chk (fun _ => (if contracts (s_rent s2) !! 1 then true else false) = true) >> 
  chk (fun _ => (if contracts (s_rent s2) !! 2 then true else false) = true) >> 
  chk (fun _ => (if contracts (s_rent s2) !! 3 then true else false) = true) >> 
  chk (fun _ => (if contracts (s_rent s2) !! 4 then true else false) = true) >> 
  chk (fun _ => (if contracts (s_rent s2) !! 8 then true else false) = true) >> 
  no (sg 1) (C_cancel_contract 99) (Rent_err R_ContractNotFound) >> fin)))
  (start_with [(ALICE, 1000000); (BOB, 1000000); (CHARLIE, 1000000)]).
Proof. replay. Qed.
Example not_the_contract_owner : (ok (sg 1) (C_create_nft [] 0 None false) >> ok (sg 1) (C_create_nft [] 0 None false) >> ok (sg 1) (C_create_nft [] 0 None false) >> 
  ok (sg 1) (C_create_nft [] 0 None false) >> ok (sg 1) (C_create_nft [] 0 None false) >> 
  ok (sg 1) (C_create_nft [] 0 None false) >> ok (sg 1) (C_create_nft [] 0 None false) >> 
  ok (sg 1) (C_create_nft [] 0 None false) >> ok (sg 1) (C_create_nft [] 0 None false) >> 
  ok (sg 1) (C_create_nft [] 0 None false) >> ok (sg 2) (C_create_nft [] 0 None false) >> 
  ok (sg 2) (C_create_nft [] 0 None false) >> ok (sg 2) (C_create_nft [] 0 None false) >> 
  now_ (fun s1 => chk (fun _ => (if nfts (s_nft s1) !! 0 then true else false) = true) >> 
  chk (fun _ => (if nfts (s_nft s1) !! 1 then true else false) = true) >> 
  chk (fun _ => (if nfts (s_nft s1) !! 2 then true else false) = true) >> 
  chk (fun _ => (if nfts (s_nft s1) !! 3 then true else false) = true) >> 
  chk (fun _ => (if nfts (s_nft s1) !! 4 then true else false) = true) >> 
  chk (fun _ => (if nfts (s_nft s1) !! 5 then true else false) = true) >> 
  chk (fun _ => (if nfts (s_nft s1) !! 6 then true else false) = true) >> 
  chk (fun _ => (if nfts (s_nft s1) !! 7 then true else false) = true) >> 
  chk (fun _ => (if nfts (s_nft s1) !! 8 then true else false) = true) >> 
  chk (fun _ => (if nfts (s_nft s1) !! 9 then true else false) = true) >> 
  chk (fun _ => (if nfts (s_nft s1) !! 10 then true else false) = true) >> 
  chk (fun _ => (if nfts (s_nft s1) !! 11 then true else false) = true) >> 
  chk (fun _ => (if nfts (s_nft s1) !! 12 then true else false) = true) >> 
  ok (sg 1) (C_create_contract 0 (FixedIn 10) (AutoAcceptance (Some [2])) true (RentNFT 10) (FixedTokens 10) (FixedTokens 10)) >> 
  ok (sg 1) (C_create_contract 1 (FixedIn 10) (AutoAcceptance (Some [2])) true (RentTokens 100) (FlexibleTokens 10) (FlexibleTokens 10)) >> 
  ok (sg 1) (C_create_contract 2 (FixedIn 10) (ManualAcceptance (Some [2])) true (RentNFT 11) (FeeNFT 5) (FeeNFT 10)) >> 
  ok (sg 1) (C_create_contract 3 (SubscriptionIn 10 (Some 100) true) (ManualAcceptance (Some [2])) true (RentTokens 100) (FixedTokens 10) (FixedTokens 10)) >> 
  ok (sg 1) (C_create_contract 4 (SubscriptionIn 10 None false) (AutoAcceptance (Some [2])) false (RentTokens 100) NoFee (FixedTokens 10)) >> 
  ok (sg 1) (C_create_contract 8 (FixedIn 10) (AutoAcceptance (Some [2])) true (RentNFT 11) (FeeNFT 9) (FeeNFT 10)) >> 
  now_ (fun s2 => chk (fun _ => (if contracts (s_rent s2) !! 0 then true else false) = true) >> 
  chk (fun _ => (if contracts (s_rent s2) !! 1 then true else false) = true) >> 
  chk (fun _ => (if contracts (s_rent s2) !! 2 then true else false) = true) >> 
  chk (fun _ => (if contracts (s_rent s2) !! 3 then true else false) = true) >> 
  chk (fun _ => (if contracts (s_rent s2) !! 4 then true else false) = true) >> 
  chk (fun _ => (if contracts (s_rent s2) !! 8 then true else false) = true) >> 
  no (sg 2) (C_cancel_contract 1) (Rent_err R_NotTheContractOwner) >> fin)))
  (start_with [(ALICE, 1000000); (BOB, 1000000); (CHARLIE, 1000000)]).
Proof. replay. Qed.
Example cannot_cancel_running_contract : (ok (sg 1) (C_create_nft [] 0 None false) >> ok (sg 1) (C_create_nft [] 0 None false) >> ok (sg 1) (C_create_nft [] 0 None false) >> 
  ok (sg 1) (C_create_nft [] 0 None false) >> ok (sg 1) (C_create_nft [] 0 None false) >> 
  ok (sg 1) (C_create_nft [] 0 None false) >> ok (sg 1) (C_create_nft [] 0 None false) >> 
  ok (sg 1) (C_create_nft [] 0 None false) >> ok (sg 1) (C_create_nft [] 0 None false) >> 
  ok (sg 1) (C_create_nft [] 0 None false) >> ok (sg 2) (C_create_nft [] 0 None false) >> 
  ok (sg 2) (C_create_nft [] 0 None false) >> ok (sg 2) (C_create_nft [] 0 None false) >> 
  now_ (fun s1 => chk (fun _ => (if nfts (s_nft s1) !! 0 then true else false) = true) >> 
  chk (fun _ => (if nfts (s_nft s1) !! 1 then true else false) = true) >> 
  chk (fun _ => (if nfts (s_nft s1) !! 2 then true else false) = true) >> 
  chk (fun _ => (if nfts (s_nft s1) !! 3 then true else false) = true) >> 
  chk (fun _ => (if nfts (s_nft s1) !! 4 then true else false) = true) >> 
  chk (fun _ => (if nfts (s_nft s1) !! 5 then true else false) = true) >> 
  chk (fun _ => (if nfts (s_nft s1) !! 6 then true else false) = true) >> 
  chk (fun _ => (if nfts (s_nft s1) !! 7 then true else false) = true) >> 
  chk (fun _ => (if nfts (s_nft s1) !! 8 then true else false) = true) >> 
  chk (fun _ => (if nfts (s_nft s1) !! 9 then true else false) = true) >> 
  chk (fun _ => (if nfts (s_nft s1) !! 10 then true else false) = true) >> 
  chk (fun _ => (if nfts (s_nft s1) !! 11 then true else false) = true) >> 
  chk (fun _ => (if nfts (s_nft s1) !! 12 then true else false) = true) >> 
  ok (sg 1) (C_create_contract 0 (FixedIn 10) (AutoAcceptance (Some [2])) true (RentNFT 10) (FixedTokens 10) (FixedTokens 10)) >> 
  ok (sg 1) (C_create_contract 1 (FixedIn 10) (AutoAcceptance (Some [2])) true (RentTokens 100) (FlexibleTokens 10) (FlexibleTokens 10)) >> 
  ok (sg 1) (C_create_contract 2 (FixedIn 10) (ManualAcceptance (Some [2])) true (RentNFT 11) (FeeNFT 5) (FeeNFT 10)) >> 
  ok (sg 1) (C_create_contract 3 (SubscriptionIn 10 (Some 100) true) (ManualAcceptance (Some [2])) true (RentTokens 100) (FixedTokens 10) (FixedTokens 10)) >> 
  ok (sg 1) (C_create_contract 4 (SubscriptionIn 10 None false) (AutoAcceptance (Some [2])) false (RentTokens 100) NoFee (FixedTokens 10)) >> 
  ok (sg 1) (C_create_contract 8 (FixedIn 10) (AutoAcceptance (Some [2])) true (RentNFT 11) (FeeNFT 9) (FeeNFT 10)) >> 
  now_ (fun s2 => chk (fun _ => (if contracts (s_rent s2) !! 0 then true else false) = true) >> 
  chk (fun _ => (if contracts (s_rent s2) !! 1 then true else false) = true) >> 
  chk (fun _ => (if contracts (s_rent s2) !! 2 then true else false) = true) >> 
  chk (fun _ => (if contracts (s_rent s2) !! 3 then true else false) = true) >> 
  chk (fun _ => (if contracts (s_rent s2) !! 4 then true else false) = true) >> 
  chk (fun _ => (if contracts (s_rent s2) !! 8 then true else false) = true) >> ok (sg 2) (C_rent 1 1) >> 
  no (sg 1) (C_cancel_contract 1) (Rent_err R_CannotCancelRunningContract) >> fin)))
  (start_with [(ALICE, 1000000); (BOB, 1000000); (CHARLIE, 1000000)]).
Proof. replay. Qed.

(** * extrinsics, revoke_contract *)
Example revoke_contract_by_renter_fixed : (ok (sg 1) (C_create_nft [] 0 None false) >> ok (sg 1) (C_create_nft [] 0 None false) >> ok (sg 1) (C_create_nft [] 0 None false) >> 
  ok (sg 1) (C_create_nft [] 0 None false) >> ok (sg 1) (C_create_nft [] 0 None false) >> 
  ok (sg 1) (C_create_nft [] 0 None false) >> ok (sg 1) (C_create_nft [] 0 None false) >> 
  ok (sg 1) (C_create_nft [] 0 None false) >> ok (sg 1) (C_create_nft [] 0 None false) >> 
  ok (sg 1) (C_create_nft [] 0 None false) >> ok (sg 2) (C_create_nft [] 0 None false) >> 
  ok (sg 2) (C_create_nft [] 0 None false) >> ok (sg 2) (C_create_nft [] 0 None false) >> 
  now_ (fun s1 => chk (fun _ => (if nfts (s_nft s1) !! 0 then true else false) = true) >> 
  chk (fun _ => (if nfts (s_nft s1) !! 1 then true else false) = true) >> 
  chk (fun _ => (if nfts (s_nft s1) !! 2 then true else false) = true) >> 
  chk (fun _ => (if nfts (s_nft s1) !! 3 then true else false) = true) >> 
  chk (fun _ => (if nfts (s_nft s1) !! 4 then true else false) = true) >> 
  chk (fun _ => (if nfts (s_nft s1) !! 5 then true else false) = true) >> 
  chk (fun _ => (if nfts (s_nft s1) !! 6 then true else false) = true) >> 
  chk (fun _ => (if nfts (s_nft s1) !! 7 then true else false) = true) >> 
  chk (fun _ => (if nfts (s_nft s1) !! 8 then true else false) = true) >> 
  chk (fun _ => (if nfts (s_nft s1) !! 9 then true else false) = true) >> 
  chk (fun _ => (if nfts (s_nft s1) !! 10 then true else false) = true) >> 
  chk (fun _ => (if nfts (s_nft s1) !! 11 then true else false) = true) >> 
  chk (fun _ => (if nfts (s_nft s1) !! 12 then true else false) = true) >> 
  ok (sg 1) (C_create_contract 0 (FixedIn 10) (AutoAcceptance (Some [2])) true (RentNFT 10) (FixedTokens 10) (FixedTokens 10)) >> 
  ok (sg 1) (C_create_contract 1 (FixedIn 10) (AutoAcceptance (Some [2])) true (RentTokens 100) (FlexibleTokens 10) (FlexibleTokens 10)) >> 
  ok (sg 1) (C_create_contract 2 (FixedIn 10) (ManualAcceptance (Some [2])) true (RentNFT 11) (FeeNFT 5) (FeeNFT 10)) >> 
  ok (sg 1) (C_create_contract 3 (SubscriptionIn 10 (Some 100) true) (ManualAcceptance (Some [2])) true (RentTokens 100) (FixedTokens 10) (FixedTokens 10)) >> 
  ok (sg 1) (C_create_contract 4 (SubscriptionIn 10 None false) (AutoAcceptance (Some [2])) false (RentTokens 100) NoFee (FixedTokens 10)) >> 
  ok (sg 1) (C_create_contract 8 (FixedIn 10) (AutoAcceptance (Some [2])) true (RentNFT 11) (FeeNFT 9) (FeeNFT 10)) >> 
  now_ (fun s2 => chk (fun _ => (if contracts (s_rent s2) !! 0 then true else false) = true) >> 
  chk (fun _ => (if contracts (s_rent s2) !! 1 then true else false) = true) >> 
  chk (fun _ => (if contracts (s_rent s2) !! 2 then true else false) = true) >> 
  chk (fun _ => (if contracts (s_rent s2) !! 3 then true else false) = true) >> 
  chk (fun _ => (if contracts (s_rent s2) !! 4 then true else false) = true) >> 
  chk (fun _ => (if contracts (s_rent s2) !! 8 then true else false) = true) >> ok (sg 2) (C_rent 0 1) >> 
  now_ (fun s3 => ok (sg 1) (C_revoke_contract 0) >> 
  now_ (fun s4 => chk (fun _ => (if nfts (s_nft s4) !! 0 then true else false) = true) >> 
  chk (fun _ => (if contracts (s_rent s4) !! 0 then false else true) = true) >> 
  chk (fun _ => (if q_get 0 (q_avail (queues (s_rent s4))) then false else true) = true) >> 
  chk (fun _ => (negb (is_rented (nstate (default dnft (nfts (s_nft s4) !! 0))))) = true) >> 
  chk (fun _ => (bal 1 s4) = (bal 1 s3)) >> chk (fun _ => (bal 2 s4) = ((bal 2 s3) + 20)) >> last_ (Ev_ContractRevoked 0 1) >> fin)))))
  (start_with [(ALICE, 1000000); (BOB, 1000000); (CHARLIE, 1000000)]).
Proof. replay. Qed.
Example revoke_contract_by_rentee_fixed : (ok (sg 1) (C_create_nft [] 0 None false) >> ok (sg 1) (C_create_nft [] 0 None false) >> ok (sg 1) (C_create_nft [] 0 None false) >> 
  ok (sg 1) (C_create_nft [] 0 None false) >> ok (sg 1) (C_create_nft [] 0 None false) >> 
  ok (sg 1) (C_create_nft [] 0 None false) >> ok (sg 1) (C_create_nft [] 0 None false) >> 
  ok (sg 1) (C_create_nft [] 0 None false) >> ok (sg 1) (C_create_nft [] 0 None false) >> 
  ok (sg 1) (C_create_nft [] 0 None false) >> ok (sg 2) (C_create_nft [] 0 None false) >> 
  ok (sg 2) (C_create_nft [] 0 None false) >> ok (sg 2) (C_create_nft [] 0 None false) >> 
  now_ (fun s1 => chk (fun _ => (if nfts (s_nft s1) !! 0 then true else false) = true) >> 
  chk (fun _ => (if nfts (s_nft s1) !! 1 then true else false) = true) >> 
  chk (fun _ => (if nfts (s_nft s1) !! 2 then true else false) = true) >> 
  chk (fun _ => (if nfts (s_nft s1) !! 3 then true else false) = true) >> 
  chk (fun _ => (if nfts (s_nft s1) !! 4 then true else false) = true) >> 
  chk (fun _ => (if nfts (s_nft s1) !! 5 then true else false) = true) >> 
  chk (fun _ => (if nfts (s_nft s1) !! 6 then true else false) = true) >> 
  chk (fun _ => (if nfts (s_nft s1) !! 7 then true else false) = true) >> 
  chk (fun _ => (if nfts (s_nft s1) !! 8 then true else false) = true) >> 
  chk (fun _ => (if nfts (s_nft s1) !! 9 then true else false) = true) >> 
  chk (fun _ => (if nfts (s_nft s1) !! 10 then true else false) = true) >> 
  chk (fun _ => (if nfts (s_nft s1) !! 11 then true else false) = true) >> 
  chk (fun _ => (if nfts (s_nft s1) !! 12 then true else false) = true) >> 
  ok (sg 1) (C_create_contract 0 (FixedIn 10) (AutoAcceptance (Some [2])) true (RentNFT 10) (FixedTokens 10) (FixedTokens 10)) >> 
  ok (sg 1) (C_create_contract 1 (FixedIn 10) (AutoAcceptance (Some [2])) true (RentTokens 100) (FlexibleTokens 10) (FlexibleTokens 10)) >> 
  ok (sg 1) (C_create_contract 2 (FixedIn 10) (ManualAcceptance (Some [2])) true (RentNFT 11) (FeeNFT 5) (FeeNFT 10)) >> 
  ok (sg 1) (C_create_contract 3 (SubscriptionIn 10 (Some 100) true) (ManualAcceptance (Some [2])) true (RentTokens 100) (FixedTokens 10) (FixedTokens 10)) >> 
  ok (sg 1) (C_create_contract 4 (SubscriptionIn 10 None false) (AutoAcceptance (Some [2])) false (RentTokens 100) NoFee (FixedTokens 10)) >> 
  ok (sg 1) (C_create_contract 8 (FixedIn 10) (AutoAcceptance (Some [2])) true (RentNFT 11) (FeeNFT 9) (FeeNFT 10)) >> 
  now_ (fun s2 => chk (fun _ => (if contracts (s_rent s2) !! 0 then true else false) = true) >> 
  chk (fun _ => (if contracts (s_rent s2) !! 1 then true else false) = true) >> 
  chk (fun _ => (if contracts (s_rent s2) !! 2 then true else false) = true) >> 
  chk (fun _ => (if contracts (s_rent s2) !! 3 then true else false) = true) >> 
  chk (fun _ => (if contracts (s_rent s2) !! 4 then true else false) = true) >> 
  chk (fun _ => (if contracts (s_rent s2) !! 8 then true else false) = true) >> ok (sg 2) (C_rent 0 1) >> 
  now_ (fun s3 => ok (sg 2) (C_revoke_contract 0) >> 
  now_ (fun s4 => chk (fun _ => (if nfts (s_nft s4) !! 0 then true else false) = true) >> 
  chk (fun _ => (if contracts (s_rent s4) !! 0 then false else true) = true) >> 
  chk (fun _ => (if q_get 0 (q_avail (queues (s_rent s4))) then false else true) = true) >> 
  chk (fun _ => (negb (is_rented (nstate (default dnft (nfts (s_nft s4) !! 0))))) = true) >> 
  chk (fun _ => (bal 1 s4) = ((bal 1 s3) + 20)) >> chk (fun _ => (bal 2 s4) = (bal 2 s3)) >> last_ (Ev_ContractRevoked 0 2) >> fin)))))
  (start_with [(ALICE, 1000000); (BOB, 1000000); (CHARLIE, 1000000)]).
Proof. replay. Qed.
Example revoke_contract_by_renter_nft : (ok (sg 1) (C_create_nft [] 0 None false) >> ok (sg 1) (C_create_nft [] 0 None false) >> ok (sg 1) (C_create_nft [] 0 None false) >> 
  ok (sg 1) (C_create_nft [] 0 None false) >> ok (sg 1) (C_create_nft [] 0 None false) >> 
  ok (sg 1) (C_create_nft [] 0 None false) >> ok (sg 1) (C_create_nft [] 0 None false) >> 
  ok (sg 1) (C_create_nft [] 0 None false) >> ok (sg 1) (C_create_nft [] 0 None false) >> 
  ok (sg 1) (C_create_nft [] 0 None false) >> ok (sg 2) (C_create_nft [] 0 None false) >> 
  ok (sg 2) (C_create_nft [] 0 None false) >> ok (sg 2) (C_create_nft [] 0 None false) >> 
  now_ (fun s1 => chk (fun _ => (if nfts (s_nft s1) !! 0 then true else false) = true) >> 
  chk (fun _ => (if nfts (s_nft s1) !! 1 then true else false) = true) >> 
  chk (fun _ => (if nfts (s_nft s1) !! 2 then true else false) = true) >> 
  chk (fun _ => (if nfts (s_nft s1) !! 3 then true else false) = true) >> 
  chk (fun _ => (if nfts (s_nft s1) !! 4 then true else false) = true) >> 
  chk (fun _ => (if nfts (s_nft s1) !! 5 then true else false) = true) >> 
  chk (fun _ => (if nfts (s_nft s1) !! 6 then true else false) = true) >> 
  chk (fun _ => (if nfts (s_nft s1) !! 7 then true else false) = true) >> 
  chk (fun _ => (if nfts (s_nft s1) !! 8 then true else false) = true) >> 
  chk (fun _ => (if nfts (s_nft s1) !! 9 then true else false) = true) >> 
  chk (fun _ => (if nfts (s_nft s1) !! 10 then true else false) = true) >> 
  chk (fun _ => (if nfts (s_nft s1) !! 11 then true else false) = true) >> 
  chk (fun _ => (if nfts (s_nft s1) !! 12 then true else false) = true) >> 
  ok (sg 1) (C_create_contract 0 (FixedIn 10) (AutoAcceptance (Some [2])) true (RentNFT 10) (FixedTokens 10) (FixedTokens 10)) >> 
  ok (sg 1) (C_create_contract 1 (FixedIn 10) (AutoAcceptance (Some [2])) true (RentTokens 100) (FlexibleTokens 10) (FlexibleTokens 10)) >> 
  ok (sg 1) (C_create_contract 2 (FixedIn 10) (ManualAcceptance (Some [2])) true (RentNFT 11) (FeeNFT 5) (FeeNFT 10)) >> 
  ok (sg 1) (C_create_contract 3 (SubscriptionIn 10 (Some 100) true) (ManualAcceptance (Some [2])) true (RentTokens 100) (FixedTokens 10) (FixedTokens 10)) >> 
  ok (sg 1) (C_create_contract 4 (SubscriptionIn 10 None false) (AutoAcceptance (Some [2])) false (RentTokens 100) NoFee (FixedTokens 10)) >> 
  ok (sg 1) (C_create_contract 8 (FixedIn 10) (AutoAcceptance (Some [2])) true (RentNFT 11) (FeeNFT 9) (FeeNFT 10)) >> 
  now_ (fun s2 => chk (fun _ => (if contracts (s_rent s2) !! 0 then true else false) = true) >> 
  chk (fun _ => (if contracts (s_rent s2) !! 1 then true else false) = true) >> 
  chk (fun _ => (if contracts (s_rent s2) !! 2 then true else false) = true) >> 
  chk (fun _ => (if contracts (s_rent s2) !! 3 then true else false) = true) >> 
  chk (fun _ => (if contracts (s_rent s2) !! 4 then true else false) = true) >> 
  chk (fun _ => (if contracts (s_rent s2) !! 8 then true else false) = true) >> ok (sg 2) (C_make_rent_offer 2 1) >> 
  ok (sg 1) (C_accept_rent_offer 2 2) >> ok (sg 1) (C_revoke_contract 2) >> 
  now_ (fun s3 => chk (fun _ => (if nfts (s_nft s3) !! 2 then true else false) = true) >> 
  chk (fun _ => (if nfts (s_nft s3) !! 5 then true else false) = true) >> 
  chk (fun _ => (if nfts (s_nft s3) !! 10 then true else false) = true) >> 
  chk (fun _ => (if contracts (s_rent s3) !! 2 then false else true) = true) >> 
  chk (fun _ => (if q_get 2 (q_avail (queues (s_rent s3))) then false else true) = true) >> 
  chk (fun _ => (negb (is_rented (nstate (default dnft (nfts (s_nft s3) !! 2))))) = true) >> 
  chk (fun _ => (owner (default dnft (nfts (s_nft s3) !! 5))) = 2) >> 
  chk (fun _ => (owner (default dnft (nfts (s_nft s3) !! 10))) = 2) >> last_ (Ev_ContractRevoked 2 1) >> fin))))
  (start_with [(ALICE, 1000000); (BOB, 1000000); (CHARLIE, 1000000)]).
Proof. replay. Qed.
Example revoke_contract_by_rentee_nft : (ok (sg 1) (C_create_nft [] 0 None false) >> ok (sg 1) (C_create_nft [] 0 None false) >> ok (sg 1) (C_create_nft [] 0 None false) >> 
  ok (sg 1) (C_create_nft [] 0 None false) >> ok (sg 1) (C_create_nft [] 0 None false) >> 
  ok (sg 1) (C_create_nft [] 0 None false) >> ok (sg 1) (C_create_nft [] 0 None false) >> 
  ok (sg 1) (C_create_nft [] 0 None false) >> ok (sg 1) (C_create_nft [] 0 None false) >> 
  ok (sg 1) (C_create_nft [] 0 None false) >> ok (sg 2) (C_create_nft [] 0 None false) >> 
  ok (sg 2) (C_create_nft [] 0 None false) >> ok (sg 2) (C_create_nft [] 0 None false) >> 
  now_ (fun s1 => chk (fun _ => (if nfts (s_nft s1) !! 0 then true else false) = true) >> 
  chk (fun _ => (if nfts (s_nft s1) !! 1 then true else false) = true) >> 
  chk (fun _ => (if nfts (s_nft s1) !! 2 then true else false) = true) >> 
  chk (fun _ => (if nfts (s_nft s1) !! 3 then true else false) = true) >> 
  chk (fun _ => (if nfts (s_nft s1) !! 4 then true else false) = true) >> 
  chk (fun _ => (if nfts (s_nft s1) !! 5 then true else false) = true) >> 
  chk (fun _ => (if nfts (s_nft s1) !! 6 then true else false) = true) >> 
  chk (fun _ => (if nfts (s_nft s1) !! 7 then true else false) = true) >> 
  chk (fun _ => (if nfts (s_nft s1) !! 8 then true else false) = true) >> 
  chk (fun _ => (if nfts (s_nft s1) !! 9 then true else false) = true) >> 
  chk (fun _ => (if nfts (s_nft s1) !! 10 then true else false) = true) >> 
  chk (fun _ => (if nfts (s_nft s1) !! 11 then true else false) = true) >> 
  chk (fun _ => (if nfts (s_nft s1) !! 12 then true else false) = true) >> 
  ok (sg 1) (C_create_contract 0 (FixedIn 10) (AutoAcceptance (Some [2])) true (RentNFT 10) (FixedTokens 10) (FixedTokens 10)) >> 
  ok (sg 1) (C_create_contract 1 (FixedIn 10) (AutoAcceptance (Some [2])) true (RentTokens 100) (FlexibleTokens 10) (FlexibleTokens 10)) >> 
  ok (sg 1) (C_create_contract 2 (FixedIn 10) (ManualAcceptance (Some [2])) true (RentNFT 11) (FeeNFT 5) (FeeNFT 10)) >> 
  ok (sg 1) (C_create_contract 3 (SubscriptionIn 10 (Some 100) true) (ManualAcceptance (Some [2])) true (RentTokens 100) (FixedTokens 10) (FixedTokens 10)) >> 
  ok (sg 1) (C_create_contract 4 (SubscriptionIn 10 None false) (AutoAcceptance (Some [2])) false (RentTokens 100) NoFee (FixedTokens 10)) >> 
  ok (sg 1) (C_create_contract 8 (FixedIn 10) (AutoAcceptance (Some [2])) true (RentNFT 11) (FeeNFT 9) (FeeNFT 10)) >> 
  now_ (fun s2 => chk (fun _ => (if contracts (s_rent s2) !! 0 then true else false) = true) >> 
  chk (fun _ => (if contracts (s_rent s2) !! 1 then true else false) = true) >> 
  chk (fun _ => (if contracts (s_rent s2) !! 2 then true else false) = true) >> 
  chk (fun _ => (if contracts (s_rent s2) !! 3 then true else false) = true) >> 
  chk (fun _ => (if contracts (s_rent s2) !! 4 then true else false) = true) >> 
  chk (fun _ => (if contracts (s_rent s2) !! 8 then true else false) = true) >> ok (sg 2) (C_make_rent_offer 2 1) >> 
  ok (sg 1) (C_accept_rent_offer 2 2) >> ok (sg 2) (C_revoke_contract 2) >> 
  now_ (fun s3 => chk (fun _ => (if nfts (s_nft s3) !! 2 then true else false) = true) >> 
  chk (fun _ => (if nfts (s_nft s3) !! 5 then true else false) = true) >> 
  chk (fun _ => (if nfts (s_nft s3) !! 10 then true else false) = true) >> 
  chk (fun _ => (if contracts (s_rent s3) !! 2 then false else true) = true) >> 
  chk (fun _ => (if q_get 2 (q_avail (queues (s_rent s3))) then false else true) = true) >> 
  chk (fun _ => (negb (is_rented (nstate (default dnft (nfts (s_nft s3) !! 2))))) = true) >> 
  chk (fun _ => (owner (default dnft (nfts (s_nft s3) !! 5))) = 1) >> 
  chk (fun _ => (owner (default dnft (nfts (s_nft s3) !! 10))) = 1) >> last_ (Ev_ContractRevoked 2 2) >> fin))))
  (start_with [(ALICE, 1000000); (BOB, 1000000); (CHARLIE, 1000000)]).
Proof. replay. Qed.
Example revoke_contract_by_renter_flexible : (ok (sg 1) (C_create_nft [] 0 None false) >> ok (sg 1) (C_create_nft [] 0 None false) >> ok (sg 1) (C_create_nft [] 0 None false) >> 
  ok (sg 1) (C_create_nft [] 0 None false) >> ok (sg 1) (C_create_nft [] 0 None false) >> 
  ok (sg 1) (C_create_nft [] 0 None false) >> ok (sg 1) (C_create_nft [] 0 None false) >> 
  ok (sg 1) (C_create_nft [] 0 None false) >> ok (sg 1) (C_create_nft [] 0 None false) >> 
  ok (sg 1) (C_create_nft [] 0 None false) >> ok (sg 2) (C_create_nft [] 0 None false) >> 
  ok (sg 2) (C_create_nft [] 0 None false) >> ok (sg 2) (C_create_nft [] 0 None false) >> 
  now_ (fun s1 => chk (fun _ => (if nfts (s_nft s1) !! 0 then true else false) = true) >> 
  chk (fun _ => (if nfts (s_nft s1) !! 1 then true else false) = true) >> 
  chk (fun _ => (if nfts (s_nft s1) !! 2 then true else false) = true) >> 
  chk (fun _ => (if nfts (s_nft s1) !! 3 then true else false) = true) >> 
  chk (fun _ => (if nfts (s_nft s1) !! 4 then true else false) = true) >> 
  chk (fun _ => (if nfts (s_nft s1) !! 5 then true else false) = true) >> 
  chk (fun _ => (if nfts (s_nft s1) !! 6 then true else false) = true) >> 
  chk (fun _ => (if nfts (s_nft s1) !! 7 then true else false) = true) >> 
  chk (fun _ => (if nfts (s_nft s1) !! 8 then true else false) = true) >> 
  chk (fun _ => (if nfts (s_nft s1) !! 9 then true else false) = true) >> 
  chk (fun _ => (if nfts (s_nft s1) !! 10 then true else false) = true) >> 
  chk (fun _ => (if nfts (s_nft s1) !! 11 then true else false) = true) >> 
  chk (fun _ => (if nfts (s_nft s1) !! 12 then true else false) = true) >> 
  ok (sg 1) (C_create_contract 0 (FixedIn 10) (AutoAcceptance (Some [2])) true (RentNFT 10) (FixedTokens 10) (FixedTokens 10)) >> 
  ok (sg 1) (C_create_contract 1 (FixedIn 10) (AutoAcceptance (Some [2])) true (RentTokens 100) (FlexibleTokens 10) (FlexibleTokens 10)) >> 
  ok (sg 1) (C_create_contract 2 (FixedIn 10) (ManualAcceptance (Some [2])) true (RentNFT 11) (FeeNFT 5) (FeeNFT 10)) >> 
  ok (sg 1) (C_create_contract 3 (SubscriptionIn 10 (Some 100) true) (ManualAcceptance (Some [2])) true (RentTokens 100) (FixedTokens 10) (FixedTokens 10)) >> 
  ok (sg 1) (C_create_contract 4 (SubscriptionIn 10 None false) (AutoAcceptance (Some [2])) false (RentTokens 100) NoFee (FixedTokens 10)) >> 
  ok (sg 1) (C_create_contract 8 (FixedIn 10) (AutoAcceptance (Some [2])) true (RentNFT 11) (FeeNFT 9) (FeeNFT 10)) >> 
  now_ (fun s2 => chk (fun _ => (if contracts (s_rent s2) !! 0 then true else false) = true) >> 
  chk (fun _ => (if contracts (s_rent s2) !! 1 then true else false) = true) >> 
  chk (fun _ => (if contracts (s_rent s2) !! 2 then true else false) = true) >> 
  chk (fun _ => (if contracts (s_rent s2) !! 3 then true else false) = true) >> 
  chk (fun _ => (if contracts (s_rent s2) !! 4 then true else false) = true) >> 
  chk (fun _ => (if contracts (s_rent s2) !! 8 then true else false) = true) >> ok (sg 2) (C_rent 1 1) >> 
  now_ (fun s3 => blk ((s_now s3) + 2) >> ok (sg 1) (C_revoke_contract 1) >> 
  now_ (fun s4 => chk (fun _ => (if nfts (s_nft s4) !! 1 then true else false) = true) >> 
  chk (fun _ => (if contracts (s_rent s4) !! 1 then false else true) = true) >> 
  chk (fun _ => (if q_get 1 (q_avail (queues (s_rent s4))) then false else true) = true) >> 
  chk (fun _ => (negb (is_rented (nstate (default dnft (nfts (s_nft s4) !! 1))))) = true) >> 
  chk (fun _ => (bal 1 s4) = ((bal 1 s3) + 2)) >> chk (fun _ => (bal 2 s4) = (((bal 2 s3) + 10) + 8)) >> 
  last_ (Ev_ContractRevoked 1 1) >> fin)))))
  (start_with [(ALICE, 1000000); (BOB, 1000000); (CHARLIE, 1000000)]).
Proof. replay. Qed.
Example revoke_contract_by_rentee_flexible : (ok (sg 1) (C_create_nft [] 0 None false) >> ok (sg 1) (C_create_nft [] 0 None false) >> ok (sg 1) (C_create_nft [] 0 None false) >> 
  ok (sg 1) (C_create_nft [] 0 None false) >> ok (sg 1) (C_create_nft [] 0 None false) >> 
  ok (sg 1) (C_create_nft [] 0 None false) >> ok (sg 1) (C_create_nft [] 0 None false) >> 
  ok (sg 1) (C_create_nft [] 0 None false) >> ok (sg 1) (C_create_nft [] 0 None false) >> 
  ok (sg 1) (C_create_nft [] 0 None false) >> ok (sg 2) (C_create_nft [] 0 None false) >> 
  ok (sg 2) (C_create_nft [] 0 None false) >> ok (sg 2) (C_create_nft [] 0 None false) >> 
  now_ (fun s1 => chk (fun _ => (if nfts (s_nft s1) !! 0 then true else false) = true) >> 
  chk (fun _ => (if nfts (s_nft s1) !! 1 then true else false) = true) >> 
  chk (fun _ => (if nfts (s_nft s1) !! 2 then true else false) = true) >> 
  chk (fun _ => (if nfts (s_nft s1) !! 3 then true else false) = true) >> 
  chk (fun _ => (if nfts (s_nft s1) !! 4 then true else false) = true) >> 
  chk (fun _ => (if nfts (s_nft s1) !! 5 then true else false) = true) >> 
  chk (fun _ => (if nfts (s_nft s1) !! 6 then true else false) = true) >> 
  chk (fun _ => (if nfts (s_nft s1) !! 7 then true else false) = true) >> 
  chk (fun _ => (if nfts (s_nft s1) !! 8 then true else false) = true) >> 
  chk (fun _ => (if nfts (s_nft s1) !! 9 then true else false) = true) >> 
  chk (fun _ => (if nfts (s_nft s1) !! 10 then true else false) = true) >> 
  chk (fun _ => (if nfts (s_nft s1) !! 11 then true else false) = true) >> 
  chk (fun _ => (if nfts (s_nft s1) !! 12 then true else false) = true) >> 
  ok (sg 1) (C_create_contract 0 (FixedIn 10) (AutoAcceptance (Some [2])) true (RentNFT 10) (FixedTokens 10) (FixedTokens 10)) >> 
  ok (sg 1) (C_create_contract 1 (FixedIn 10) (AutoAcceptance (Some [2])) true (RentTokens 100) (FlexibleTokens 10) (FlexibleTokens 10)) >> 
  ok (sg 1) (C_create_contract 2 (FixedIn 10) (ManualAcceptance (Some [2])) true (RentNFT 11) (FeeNFT 5) (FeeNFT 10)) >> 
  ok (sg 1) (C_create_contract 3 (SubscriptionIn 10 (Some 100) true) (ManualAcceptance (Some [2])) true (RentTokens 100) (FixedTokens 10) (FixedTokens 10)) >> 
  ok (sg 1) (C_create_contract 4 (SubscriptionIn 10 None false) (AutoAcceptance (Some [2])) false (RentTokens 100) NoFee (FixedTokens 10)) >> 
  ok (sg 1) (C_create_contract 8 (FixedIn 10) (AutoAcceptance (Some [2])) true (RentNFT 11) (FeeNFT 9) (FeeNFT 10)) >> 
  now_ (fun s2 => chk (fun _ => (if contracts (s_rent s2) !! 0 then true else false) = true) >> 
  chk (fun _ => (if contracts (s_rent s2) !! 1 then true else false) = true) >> 
  chk (fun _ => (if contracts (s_rent s2) !! 2 then true else false) = true) >> 
  chk (fun _ => (if contracts (s_rent s2) !! 3 then true else false) = true) >> 
  chk (fun _ => (if contracts (s_rent s2) !! 4 then true else false) = true) >> 
  chk (fun _ => (if contracts (s_rent s2) !! 8 then true else false) = true) >> ok (sg 2) (C_rent 1 1) >> 
  now_ (fun s3 => blk ((s_now s3) + 2) >> ok (sg 2) (C_revoke_contract 1) >> 
  now_ (fun s4 => chk (fun _ => (if nfts (s_nft s4) !! 1 then true else false) = true) >> 
  chk (fun _ => (if contracts (s_rent s4) !! 1 then false else true) = true) >> 
  chk (fun _ => (if q_get 1 (q_avail (queues (s_rent s4))) then false else true) = true) >> 
  chk (fun _ => (negb (is_rented (nstate (default dnft (nfts (s_nft s4) !! 1))))) = true) >> 
  chk (fun _ => (bal 1 s4) = (((bal 1 s3) + 10) + 8)) >> chk (fun _ => (bal 2 s4) = ((bal 2 s3) + 2)) >> 
  last_ (Ev_ContractRevoked 1 2) >> fin)))))
  (start_with [(ALICE, 1000000); (BOB, 1000000); (CHARLIE, 1000000)]).
Proof. replay. Qed.
Example revoke_contract_contract_not_found : (ok (sg 1) (C_create_nft [] 0 None false) >> ok (sg 1) (C_create_nft [] 0 None false) >> ok (sg 1) (C_create_nft [] 0 None false) >> 
  ok (sg 1) (C_create_nft [] 0 None false) >> ok (sg 1) (C_create_nft [] 0 None false) >> 
  ok (sg 1) (C_create_nft [] 0 None false) >> ok (sg 1) (C_create_nft [] 0 None false) >> 
  ok (sg 1) (C_create_nft [] 0 None false) >> ok (sg 1) (C_create_nft [] 0 None false) >> 
  ok (sg 1) (C_create_nft [] 0 None false) >> ok (sg 2) (C_create_nft [] 0 None false) >> 
  ok (sg 2) (C_create_nft [] 0 None false) >> ok (sg 2) (C_create_nft [] 0 None false) >> 
  now_ (fun s1 => chk (fun _ => (if nfts (s_nft s1) !! 0 then true else false) = true) >> 
  chk (fun _ => (if nfts (s_nft s1) !! 1 then true else false) = true) >> 
  chk (fun _ => (if nfts (s_nft s1) !! 2 then true else false) = true) >> 
  chk (fun _ => (if nfts (s_nft s1) !! 3 then true else false) = true) >> 
  chk (fun _ => (if nfts (s_nft s1) !! 4 then true else false) = true) >> 
  chk (fun _ => (if nfts (s_nft s1) !! 5 then true else false) = true) >> 
  chk (fun _ => (if nfts (s_nft s1) !! 6 then true else false) = true) >> 
  chk (fun _ => (if nfts (s_nft s1) !! 7 then true else false) = true) >> 
  chk (fun _ => (if nfts (s_nft s1) !! 8 then true else false) = true) >> 
  chk (fun _ => (if nfts (s_nft s1) !! 9 then true else false) = true) >> 
  chk (fun _ => (if nfts (s_nft s1) !! 10 then true else false) = true) >> 
  chk (fun _ => (if nfts (s_nft s1) !! 11 then true else false) = true) >> 
  chk (fun _ => (if nfts (s_nft s1) !! 12 then true else false) = true) >> 
  ok (sg 1) (C_create_contract 0 (FixedIn 10) (AutoAcceptance (Some [2])) true (RentNFT 10) (FixedTokens 10) (FixedTokens 10)) >> 
  ok (sg 1) (C_create_contract 1 (FixedIn 10) (AutoAcceptance (Some [2])) true (RentTokens 100) (FlexibleTokens 10) (FlexibleTokens 10)) >> 
  ok (sg 1) (C_create_contract 2 (FixedIn 10) (ManualAcceptance (Some [2])) true (RentNFT 11) (FeeNFT 5) (FeeNFT 10)) >> 
  ok (sg 1) (C_create_contract 3 (SubscriptionIn 10 (Some 100) true) (ManualAcceptance (Some [2])) true (RentTokens 100) (FixedTokens 10) (FixedTokens 10)) >> 
  ok (sg 1) (C_create_contract 4 (SubscriptionIn 10 None false) (AutoAcceptance (Some [2])) false (RentTokens 100) NoFee (FixedTokens 10)) >> 
  ok (sg 1) (C_create_contract 8 (FixedIn 10) (AutoAcceptance (Some [2])) true (RentNFT 11) (FeeNFT 9) (FeeNFT 10)) >> 
  now_ (fun s2 => chk (fun _ => (if contracts (s_rent s2) !! 0 then true else false) = true) >> 
  chk (fun _ => (if contracts (s_rent s2) !! 1 then true else false) = true) >> 
  chk (fun _ => (if contracts (s_rent s2) !! 2 then true else false) = true) >> 
  chk (fun _ => (if contracts (s_rent s2) !! 3 then true else false) = true) >> 
  chk (fun _ => (if contracts (s_rent s2) !! 4 then true else false) = true) >> 
  chk (fun _ => (if contracts (s_rent s2) !! 8 then true else false) = true) >> 
  no (sg 1) (C_revoke_contract 99) (Rent_err R_ContractNotFound) >> fin)))
  (start_with [(ALICE, 1000000); (BOB, 1000000); (CHARLIE, 1000000)]).
Proof. replay. Qed.
Example cannot_revoke_non_runing_contract : (ok (sg 1) (C_create_nft [] 0 None false) >> ok (sg 1) (C_create_nft [] 0 None false) >> ok (sg 1) (C_create_nft [] 0 None false) >> 
  ok (sg 1) (C_create_nft [] 0 None false) >> ok (sg 1) (C_create_nft [] 0 None false) >> 
  ok (sg 1) (C_create_nft [] 0 None false) >> ok (sg 1) (C_create_nft [] 0 None false) >> 
  ok (sg 1) (C_create_nft [] 0 None false) >> ok (sg 1) (C_create_nft [] 0 None false) >> 
  ok (sg 1) (C_create_nft [] 0 None false) >> ok (sg 2) (C_create_nft [] 0 None false) >> 
  ok (sg 2) (C_create_nft [] 0 None false) >> ok (sg 2) (C_create_nft [] 0 None false) >> 
  now_ (fun s1 => chk (fun _ => (if nfts (s_nft s1) !! 0 then true else false) = true) >> 
  chk (fun _ => (if nfts (s_nft s1) !! 1 then true else false) = true) >> 
  chk (fun _ => (if nfts (s_nft s1) !! 2 then true else false) = true) >> 
  chk (fun _ => (if nfts (s_nft s1) !! 3 then true else false) = true) >> 
  chk (fun _ => (if nfts (s_nft s1) !! 4 then true else false) = true) >> 
  chk (fun _ => (if nfts (s_nft s1) !! 5 then true else false) = true) >> 
  chk (fun _ => (if nfts (s_nft s1) !! 6 then true else false) = true) >> 
  chk (fun _ => (if nfts (s_nft s1) !! 7 then true else false) = true) >> 
  chk (fun _ => (if nfts (s_nft s1) !! 8 then true else false) = true) >> 
  chk (fun _ => (if nfts (s_nft s1) !! 9 then true else false) = true) >> 
  chk (fun _ => (if nfts (s_nft s1) !! 10 then true else false) = true) >> 
  chk (fun _ => (if nfts (s_nft s1) !! 11 then true else false) = true) >> 
  chk (fun _ => (if nfts (s_nft s1) !! 12 then true else false) = true) >> 
  ok (sg 1) (C_create_contract 0 (FixedIn 10) (AutoAcceptance (Some [2])) true (RentNFT 10) (FixedTokens 10) (FixedTokens 10)) >> 
  ok (sg 1) (C_create_contract 1 (FixedIn 10) (AutoAcceptance (Some [2])) true (RentTokens 100) (FlexibleTokens 10) (FlexibleTokens 10)) >> 
  ok (sg 1) (C_create_contract 2 (FixedIn 10) (ManualAcceptance (Some [2])) true (RentNFT 11) (FeeNFT 5) (FeeNFT 10)) >> 
  ok (sg 1) (C_create_contract 3 (SubscriptionIn 10 (Some 100) true) (ManualAcceptance (Some [2])) true (RentTokens 100) (FixedTokens 10) (FixedTokens 10)) >> 
  ok (sg 1) (C_create_contract 4 (SubscriptionIn 10 None false) (AutoAcceptance (Some [2])) false (RentTokens 100) NoFee (FixedTokens 10)) >> 
  ok (sg 1) (C_create_contract 8 (FixedIn 10) (AutoAcceptance (Some [2])) true (RentNFT 11) (FeeNFT 9) (FeeNFT 10)) >> 
  now_ (fun s2 => chk (fun _ => (if contracts (s_rent s2) !! 0 then true else false) = true) >> 
  chk (fun _ => (if contracts (s_rent s2) !! 1 then true else false) = true) >> 
  chk (fun _ => (if contracts (s_rent s2) !! 2 then true else false) = true) >> 
  chk (fun _ => (if contracts (s_rent s2) !! 3 then true else false) = true) >> 
  chk (fun _ => (if contracts (s_rent s2) !! 4 then true else false) = true) >> 
  chk (fun _ => (if contracts (s_rent s2) !! 8 then true else false) = true) >> 
  no (sg 2) (C_revoke_contract 0) (Rent_err R_CannotRevokeNonRunningContract) >> fin)))
  (start_with [(ALICE, 1000000); (BOB, 1000000); (CHARLIE, 1000000)]).
Proof. replay. Qed.
Example not_a_contract_participant : (ok (sg 1) (C_create_nft [] 0 None false) >> ok (sg 1) (C_create_nft [] 0 None false) >> ok (sg 1) (C_create_nft [] 0 None false) >> 
  ok (sg 1) (C_create_nft [] 0 None false) >> ok (sg 1) (C_create_nft [] 0 None false) >> 
  ok (sg 1) (C_create_nft [] 0 None false) >> ok (sg 1) (C_create_nft [] 0 None false) >> 
  ok (sg 1) (C_create_nft [] 0 None false) >> ok (sg 1) (C_create_nft [] 0 None false) >> 
  ok (sg 1) (C_create_nft [] 0 None false) >> ok (sg 2) (C_create_nft [] 0 None false) >> 
  ok (sg 2) (C_create_nft [] 0 None false) >> ok (sg 2) (C_create_nft [] 0 None false) >> 
  now_ (fun s1 => chk (fun _ => (if nfts (s_nft s1) !! 0 then true else false) = true) >> 
  chk (fun _ => (if nfts (s_nft s1) !! 1 then true else false) = true) >> 
  chk (fun _ => (if nfts (s_nft s1) !! 2 then true else false) = true) >> 
  chk (fun _ => (if nfts (s_nft s1) !! 3 then true else false) = true) >> 
  chk (fun _ => (if nfts (s_nft s1) !! 4 then true else false) = true) >> 
  chk (fun _ => (if nfts (s_nft s1) !! 5 then true else false) = true) >> 
  chk (fun _ => (if nfts (s_nft s1) !! 6 then true else false) = true) >> 
  chk (fun _ => (if nfts (s_nft s1) !! 7 then true else false) = true) >> 
  chk (fun _ => (if nfts (s_nft s1) !! 8 then true else false) = true) >> 
  chk (fun _ => (if nfts (s_nft s1) !! 9 then true else false) = true) >> 
  chk (fun _ => (if nfts (s_nft s1) !! 10 then true else false) = true) >> 
  chk (fun _ => (if nfts (s_nft s1) !! 11 then true else false) = true) >> 
  chk (fun _ => (if nfts (s_nft s1) !! 12 then true else false) = true) >> 
  ok (sg 1) (C_create_contract 0 (FixedIn 10) (AutoAcceptance (Some [2])) true (RentNFT 10) (FixedTokens 10) (FixedTokens 10)) >> 
  ok (sg 1) (C_create_contract 1 (FixedIn 10) (AutoAcceptance (Some [2])) true (RentTokens 100) (FlexibleTokens 10) (FlexibleTokens 10)) >> 
  ok (sg 1) (C_create_contract 2 (FixedIn 10) (ManualAcceptance (Some [2])) true (RentNFT 11) (FeeNFT 5) (FeeNFT 10)) >> 
  ok (sg 1) (C_create_contract 3 (SubscriptionIn 10 (Some 100) true) (ManualAcceptance (Some [2])) true (RentTokens 100) (FixedTokens 10) (FixedTokens 10)) >> 
  ok (sg 1) (C_create_contract 4 (SubscriptionIn 10 None false) (AutoAcceptance (Some [2])) false (RentTokens 100) NoFee (FixedTokens 10)) >> 
  ok (sg 1) (C_create_contract 8 (FixedIn 10) (AutoAcceptance (Some [2])) true (RentNFT 11) (FeeNFT 9) (FeeNFT 10)) >> 
  now_ (fun s2 => chk (fun _ => (if contracts (s_rent s2) !! 0 then true else false) = true) >> 
  chk (fun _ => (if contracts (s_rent s2) !! 1 then true else false) = true) >> 
  chk (fun _ => (if contracts (s_rent s2) !! 2 then true else false) = true) >> 
  chk (fun _ => (if contracts (s_rent s2) !! 3 then true else false) = true) >> 
  chk (fun _ => (if contracts (s_rent s2) !! 4 then true else false) = true) >> 
  chk (fun _ => (if contracts (s_rent s2) !! 8 then true else false) = true) >> ok (sg 2) (C_rent 0 1) >> 
  no (sg 3) (C_revoke_contract 0) (Rent_err R_NotAContractParticipant) >> fin)))
  (start_with [(ALICE, 1000000); (BOB, 1000000); (CHARLIE, 1000000)]).
Proof. replay. Qed.
Example contract_cannot_be_canceled_by_renter : (ok (sg 1) (C_create_nft [] 0 None false) >> ok (sg 1) (C_create_nft [] 0 None false) >> ok (sg 1) (C_create_nft [] 0 None false) >> 
  ok (sg 1) (C_create_nft [] 0 None false) >> ok (sg 1) (C_create_nft [] 0 None false) >> 
  ok (sg 1) (C_create_nft [] 0 None false) >> ok (sg 1) (C_create_nft [] 0 None false) >> 
  ok (sg 1) (C_create_nft [] 0 None false) >> ok (sg 1) (C_create_nft [] 0 None false) >> 
  ok (sg 1) (C_create_nft [] 0 None false) >> ok (sg 2) (C_create_nft [] 0 None false) >> 
  ok (sg 2) (C_create_nft [] 0 None false) >> ok (sg 2) (C_create_nft [] 0 None false) >> 
  now_ (fun s1 => chk (fun _ => (if nfts (s_nft s1) !! 0 then true else false) = true) >> 
  chk (fun _ => (if nfts (s_nft s1) !! 1 then true else false) = true) >> 
  chk (fun _ => (if nfts (s_nft s1) !! 2 then true else false) = true) >> 
  chk (fun _ => (if nfts (s_nft s1) !! 3 then true else false) = true) >> 
  chk (fun _ => (if nfts (s_nft s1) !! 4 then true else false) = true) >> 
  chk (fun _ => (if nfts (s_nft s1) !! 5 then true else false) = true) >> 
  chk (fun _ => (if nfts (s_nft s1) !! 6 then true else false) = true) >> 
  chk (fun _ => (if nfts (s_nft s1) !! 7 then true else false) = true) >> 
  chk (fun _ => (if nfts (s_nft s1) !! 8 then true else false) = true) >> 
  chk (fun _ => (if nfts (s_nft s1) !! 9 then true else false) = true) >> 
  chk (fun _ => (if nfts (s_nft s1) !! 10 then true else false) = true) >> 
  chk (fun _ => (if nfts (s_nft s1) !! 11 then true else false) = true) >> 
  chk (fun _ => (if nfts (s_nft s1) !! 12 then true else false) = true) >> 
  ok (sg 1) (C_create_contract 0 (FixedIn 10) (AutoAcceptance (Some [2])) true (RentNFT 10) (FixedTokens 10) (FixedTokens 10)) >> 
  ok (sg 1) (C_create_contract 1 (FixedIn 10) (AutoAcceptance (Some [2])) true (RentTokens 100) (FlexibleTokens 10) (FlexibleTokens 10)) >> 
  ok (sg 1) (C_create_contract 2 (FixedIn 10) (ManualAcceptance (Some [2])) true (RentNFT 11) (FeeNFT 5) (FeeNFT 10)) >> 
  ok (sg 1) (C_create_contract 3 (SubscriptionIn 10 (Some 100) true) (ManualAcceptance (Some [2])) true (RentTokens 100) (FixedTokens 10) (FixedTokens 10)) >> 
  ok (sg 1) (C_create_contract 4 (SubscriptionIn 10 None false) (AutoAcceptance (Some [2])) false (RentTokens 100) NoFee (FixedTokens 10)) >> 
  ok (sg 1) (C_create_contract 8 (FixedIn 10) (AutoAcceptance (Some [2])) true (RentNFT 11) (FeeNFT 9) (FeeNFT 10)) >> 
  now_ (fun s2 => chk (fun _ => (if contracts (s_rent s2) !! 0 then true else false) = true) >> 
  chk (fun _ => (if contracts (s_rent s2) !! 1 then true else false) = true) >> 
  chk (fun _ => (if contracts (s_rent s2) !! 2 then true else false) = true) >> 
  chk (fun _ => (if contracts (s_rent s2) !! 3 then true else false) = true) >> 
  chk (fun _ => (if contracts (s_rent s2) !! 4 then true else false) = true) >> 
  chk (fun _ => (if contracts (s_rent s2) !! 8 then true else false) = true) >> ok (sg 2) (C_rent 4 1) >> 
  no (sg 1) (C_revoke_contract 4) (Rent_err R_ContractCannotBeCanceledByRenter) >> fin)))
  (start_with [(ALICE, 1000000); (BOB, 1000000); (CHARLIE, 1000000)]).
Proof. replay. Qed.

(** * extrinsics, rent *)
Example rent : (ok (sg 1) (C_create_nft [] 0 None false) >> ok (sg 1) (C_create_nft [] 0 None false) >> ok (sg 1) (C_create_nft [] 0 None false) >> 
  ok (sg 1) (C_create_nft [] 0 None false) >> ok (sg 1) (C_create_nft [] 0 None false) >> 
  ok (sg 1) (C_create_nft [] 0 None false) >> ok (sg 1) (C_create_nft [] 0 None false) >> 
  ok (sg 1) (C_create_nft [] 0 None false) >> ok (sg 1) (C_create_nft [] 0 None false) >> 
  ok (sg 1) (C_create_nft [] 0 None false) >> ok (sg 2) (C_create_nft [] 0 None false) >> 
  ok (sg 2) (C_create_nft [] 0 None false) >> ok (sg 2) (C_create_nft [] 0 None false) >> 
  now_ (fun s1 => chk (fun _ => (if nfts (s_nft s1) !! 0 then true else false) = true) >> 
  chk (fun _ => (if nfts (s_nft s1) !! 1 then true else false) = true) >> 
  chk (fun _ => (if nfts (s_nft s1) !! 2 then true else false) = true) >> 
  chk (fun _ => (if nfts (s_nft s1) !! 3 then true else false) = true) >> 
  chk (fun _ => (if nfts (s_nft s1) !! 4 then true else false) = true) >> 
  chk (fun _ => (if nfts (s_nft s1) !! 5 then true else false) = true) >> 
  chk (fun _ => (if nfts (s_nft s1) !! 6 then true else false) = true) >> 
  chk (fun _ => (if nfts (s_nft s1) !! 7 then true else false) = true) >> 
  chk (fun _ => (if nfts (s_nft s1) !! 8 then true else false) = true) >> 
  chk (fun _ => (if nfts (s_nft s1) !! 9 then true else false) = true) >> 
  chk (fun _ => (if nfts (s_nft s1) !! 10 then true else false) = true) >> 
  chk (fun _ => (if nfts (s_nft s1) !! 11 then true else false) = true) >> 
  chk (fun _ => (if nfts (s_nft s1) !! 12 then true else false) = true) >> 
  ok (sg 1) (C_create_contract 0 (FixedIn 10) (AutoAcceptance (Some [2])) true (RentNFT 10) (FixedTokens 10) (FixedTokens 10)) >> 
  ok (sg 1) (C_create_contract 1 (FixedIn 10) (AutoAcceptance (Some [2])) true (RentTokens 100) (FlexibleTokens 10) (FlexibleTokens 10)) >> 
  ok (sg 1) (C_create_contract 2 (FixedIn 10) (ManualAcceptance (Some [2])) true (RentNFT 11) (FeeNFT 5) (FeeNFT 10)) >> 
  ok (sg 1) (C_create_contract 3 (SubscriptionIn 10 (Some 100) true) (ManualAcceptance (Some [2])) true (RentTokens 100) (FixedTokens 10) (FixedTokens 10)) >> 
  ok (sg 1) (C_create_contract 4 (SubscriptionIn 10 None false) (AutoAcceptance (Some [2])) false (RentTokens 100) NoFee (FixedTokens 10)) >> 
  ok (sg 1) (C_create_contract 8 (FixedIn 10) (AutoAcceptance (Some [2])) true (RentNFT 11) (FeeNFT 9) (FeeNFT 10)) >> 
  now_ (fun s2 => chk (fun _ => (if contracts (s_rent s2) !! 0 then true else false) = true) >> 
  chk (fun _ => (if contracts (s_rent s2) !! 1 then true else false) = true) >> 
  chk (fun _ => (if contracts (s_rent s2) !! 2 then true else false) = true) >> 
  chk (fun _ => (if contracts (s_rent s2) !! 3 then true else false) = true) >> 
  chk (fun _ => (if contracts (s_rent s2) !! 4 then true else false) = true) >> 
  chk (fun _ => (if contracts (s_rent s2) !! 8 then true else false) = true) >> ok (sg 2) (C_rent 0 1) >> 
  now_ (fun s3 => chk (fun _ => (if nfts (s_nft s3) !! 0 then true else false) = true) >> 
  chk (fun _ => (if contracts (s_rent s3) !! 0 then true else false) = true) >> 
  chk (fun _ => (r_rentee (default dcontract (contracts (s_rent s3) !! 0))) = (Some 2)) >> 
  chk (fun _ => (if r_start (default dcontract (contracts (s_rent s3) !! 0)) then true else false) = true) >> 
  chk (fun _ => (if q_get 0 (q_avail (queues (s_rent s3))) then false else true) = true) >> 
  chk (fun _ => (if q_get 0 (q_fixed (queues (s_rent s3))) then true else false) = true) >> 
  chk (fun _ => (is_rented (nstate (default dnft (nfts (s_nft s3) !! 0)))) = true) >> last_ (Ev_ContractStarted 0 2) >> fin))))
  (start_with [(ALICE, 1000000); (BOB, 1000000); (CHARLIE, 1000000)]).
Proof. replay. Qed.
Example rent_contract_not_found : (ok (sg 1) (C_create_nft [] 0 None false) >> ok (sg 1) (C_create_nft [] 0 None false) >> ok (sg 1) (C_create_nft [] 0 None false) >> 
  ok (sg 1) (C_create_nft [] 0 None false) >> ok (sg 1) (C_create_nft [] 0 None false) >> 
  ok (sg 1) (C_create_nft [] 0 None false) >> ok (sg 1) (C_create_nft [] 0 None false) >> 
  ok (sg 1) (C_create_nft [] 0 None false) >> ok (sg 1) (C_create_nft [] 0 None false) >> 
  ok (sg 1) (C_create_nft [] 0 None false) >> ok (sg 2) (C_create_nft [] 0 None false) >> 
  ok (sg 2) (C_create_nft [] 0 None false) >> ok (sg 2) (C_create_nft [] 0 None false) >> 
  now_ (fun s1 => chk (fun _ => (if nfts (s_nft s1) !! 0 then true else false) = true) >> 
  chk (fun _ => (if nfts (s_nft s1) !! 1 then true else false) = true) >> 
  chk (fun _ => (if nfts (s_nft s1) !! 2 then true else false) = true) >> 
  chk (fun _ => (if nfts (s_nft s1) !! 3 then true else false) = true) >> 
  chk (fun _ => (if nfts (s_nft s1) !! 4 then true else false) = true) >> 
  chk (fun _ => (if nfts (s_nft s1) !! 5 then true else false) = true) >> 
  chk (fun _ => (if nfts (s_nft s1) !! 6 then true else false) = true) >> 
  chk (fun _ => (if nfts (s_nft s1) !! 7 then true else false) = true) >> 
  chk (fun _ => (if nfts (s_nft s1) !! 8 then true else false) = true) >> 
  chk (fun _ => (if nfts (s_nft s1) !! 9 then true else false) = true) >> 
  chk (fun _ => (if nfts (s_nft s1) !! 10 then true else false) = true) >> 
  chk (fun _ => (if nfts (s_nft s1) !! 11 then true else false) = true) >> 
  chk (fun _ => (if nfts (s_nft s1) !! 12 then true else false) = true) >> 
  ok (sg 1) (C_create_contract 0 (FixedIn 10) (AutoAcceptance (Some [2])) true (RentNFT 10) (FixedTokens 10) (FixedTokens 10)) >> 
  ok (sg 1) (C_create_contract 1 (FixedIn 10) (AutoAcceptance (Some [2])) true (RentTokens 100) (FlexibleTokens 10) (FlexibleTokens 10)) >> 
  ok (sg 1) (C_create_contract 2 (FixedIn 10) (ManualAcceptance (Some [2])) true (RentNFT 11) (FeeNFT 5) (FeeNFT 10)) >> 
  ok (sg 1) (C_create_contract 3 (SubscriptionIn 10 (Some 100) true) (ManualAcceptance (Some [2])) true (RentTokens 100) (FixedTokens 10) (FixedTokens 10)) >> 
  ok (sg 1) (C_create_contract 4 (SubscriptionIn 10 None false) (AutoAcceptance (Some [2])) false (RentTokens 100) NoFee (FixedTokens 10)) >> 
  ok (sg 1) (C_create_contract 8 (FixedIn 10) (AutoAcceptance (Some [2])) true (RentNFT 11) (FeeNFT 9) (FeeNFT 10)) >> 
  now_ (fun s2 => chk (fun _ => (if contracts (s_rent s2) !! 0 then true else false) = true) >> 
  chk (fun _ => (if contracts (s_rent s2) !! 1 then true else false) = true) >> 
  chk (fun _ => (if contracts (s_rent s2) !! 2 then true else false) = true) >> 
  chk (fun _ => (if contracts (s_rent s2) !! 3 then true else false) = true) >> 
  chk (fun _ => (if contracts (s_rent s2) !! 4 then true else false) = true) >> 
  chk (fun _ => (if contracts (s_rent s2) !! 8 then true else false) = true) >> 
  no (sg 1) (C_rent 99 1) (Rent_err R_ContractNotFound) >> fin)))
  (start_with [(ALICE, 1000000); (BOB, 1000000); (CHARLIE, 1000000)]).
Proof. replay. Qed.
Example cannot_rent_started_contract : (ok (sg 1) (C_create_nft [] 0 None false) >> ok (sg 1) (C_create_nft [] 0 None false) >> ok (sg 1) (C_create_nft [] 0 None false) >> 
  ok (sg 1) (C_create_nft [] 0 None false) >> ok (sg 1) (C_create_nft [] 0 None false) >> 
  ok (sg 1) (C_create_nft [] 0 None false) >> ok (sg 1) (C_create_nft [] 0 None false) >> 
  ok (sg 1) (C_create_nft [] 0 None false) >> ok (sg 1) (C_create_nft [] 0 None false) >> 
  ok (sg 1) (C_create_nft [] 0 None false) >> ok (sg 2) (C_create_nft [] 0 None false) >> 
  ok (sg 2) (C_create_nft [] 0 None false) >> ok (sg 2) (C_create_nft [] 0 None false) >> 
  now_ (fun s1 => chk (fun _ => (if nfts (s_nft s1) !! 0 then true else false) = true) >> 
  chk (fun _ => (if nfts (s_nft s1) !! 1 then true else false) = true) >> 
  chk (fun _ => (if nfts (s_nft s1) !! 2 then true else false) = true) >> 
  chk (fun _ => (if nfts (s_nft s1) !! 3 then true else false) = true) >> 
  chk (fun _ => (if nfts (s_nft s1) !! 4 then true else false) = true) >> 
  chk (fun _ => (if nfts (s_nft s1) !! 5 then true else false) = true) >> 
  chk (fun _ => (if nfts (s_nft s1) !! 6 then true else false) = true) >> 
  chk (fun _ => (if nfts (s_nft s1) !! 7 then true else false) = true) >> 
  chk (fun _ => (if nfts (s_nft s1) !! 8 then true else false) = true) >> 
  chk (fun _ => (if nfts (s_nft s1) !! 9 then true else false) = true) >> 
  chk (fun _ => (if nfts (s_nft s1) !! 10 then true else false) = true) >> 
  chk (fun _ => (if nfts (s_nft s1) !! 11 then true else false) = true) >> 
  chk (fun _ => (if nfts (s_nft s1) !! 12 then true else false) = true) >> 
  ok (sg 1) (C_create_contract 0 (FixedIn 10) (AutoAcceptance (Some [2])) true (RentNFT 10) (FixedTokens 10) (FixedTokens 10)) >> 
  ok (sg 1) (C_create_contract 1 (FixedIn 10) (AutoAcceptance (Some [2])) true (RentTokens 100) (FlexibleTokens 10) (FlexibleTokens 10)) >> 
  ok (sg 1) (C_create_contract 2 (FixedIn 10) (ManualAcceptance (Some [2])) true (RentNFT 11) (FeeNFT 5) (FeeNFT 10)) >> 
  ok (sg 1) (C_create_contract 3 (SubscriptionIn 10 (Some 100) true) (ManualAcceptance (Some [2])) true (RentTokens 100) (FixedTokens 10) (FixedTokens 10)) >> 
  ok (sg 1) (C_create_contract 4 (SubscriptionIn 10 None false) (AutoAcceptance (Some [2])) false (RentTokens 100) NoFee (FixedTokens 10)) >> 
  ok (sg 1) (C_create_contract 8 (FixedIn 10) (AutoAcceptance (Some [2])) true (RentNFT 11) (FeeNFT 9) (FeeNFT 10)) >> 
  now_ (fun s2 => chk (fun _ => (if contracts (s_rent s2) !! 0 then true else false) = true) >> 
  chk (fun _ => (if contracts (s_rent s2) !! 1 then true else false) = true) >> 
  chk (fun _ => (if contracts (s_rent s2) !! 2 then true else false) = true) >> 
  chk (fun _ => (if contracts (s_rent s2) !! 3 then true else false) = true) >> 
  chk (fun _ => (if contracts (s_rent s2) !! 4 then true else false) = true) >> 
  chk (fun _ => (if contracts (s_rent s2) !! 8 then true else false) = true) >> ok (sg 2) (C_rent 0 1) >> 
  no (sg 3) (C_rent 0 1) (Rent_err R_CannotRentStartedContract) >> fin)))
  (start_with [(ALICE, 1000000); (BOB, 1000000); (CHARLIE, 1000000)]).
Proof. replay. Qed.
Example cannot_rent_own_contract : (ok (sg 1) (C_create_nft [] 0 None false) >> ok (sg 1) (C_create_nft [] 0 None false) >> ok (sg 1) (C_create_nft [] 0 None false) >> 
  ok (sg 1) (C_create_nft [] 0 None false) >> ok (sg 1) (C_create_nft [] 0 None false) >> 
  ok (sg 1) (C_create_nft [] 0 None false) >> ok (sg 1) (C_create_nft [] 0 None false) >> 
  ok (sg 1) (C_create_nft [] 0 None false) >> ok (sg 1) (C_create_nft [] 0 None false) >> 
  ok (sg 1) (C_create_nft [] 0 None false) >> ok (sg 2) (C_create_nft [] 0 None false) >> 
  ok (sg 2) (C_create_nft [] 0 None false) >> ok (sg 2) (C_create_nft [] 0 None false) >> 
  now_ (fun s1 => chk (fun _ => (if nfts (s_nft s1) !! 0 then true else false) = true) >> 
  chk (fun _ => (if nfts (s_nft s1) !! 1 then true else false) = true) >> 
  chk (fun _ => (if nfts (s_nft s1) !! 2 then true else false) = true) >> 
  chk (fun _ => (if nfts (s_nft s1) !! 3 then true else false) = true) >> 
  chk (fun _ => (if nfts (s_nft s1) !! 4 then true else false) = true) >> 
  chk (fun _ => (if nfts (s_nft s1) !! 5 then true else false) = true) >> 
  chk (fun _ => (if nfts (s_nft s1) !! 6 then true else false) = true) >> 
  chk (fun _ => (if nfts (s_nft s1) !! 7 then true else false) = true) >> 
  chk (fun _ => (if nfts (s_nft s1) !! 8 then true else false) = true) >> 
  chk (fun _ => (if nfts (s_nft s1) !! 9 then true else false) = true) >> 
  chk (fun _ => (if nfts (s_nft s1) !! 10 then true else false) = true) >> 
  chk (fun _ => (if nfts (s_nft s1) !! 11 then true else false) = true) >> 
  chk (fun _ => (if nfts (s_nft s1) !! 12 then true else false) = true) >> 
  ok (sg 1) (C_create_contract 0 (FixedIn 10) (AutoAcceptance (Some [2])) true (RentNFT 10) (FixedTokens 10) (FixedTokens 10)) >> 
  ok (sg 1) (C_create_contract 1 (FixedIn 10) (AutoAcceptance (Some [2])) true (RentTokens 100) (FlexibleTokens 10) (FlexibleTokens 10)) >> 
  ok (sg 1) (C_create_contract 2 (FixedIn 10) (ManualAcceptance (Some [2])) true (RentNFT 11) (FeeNFT 5) (FeeNFT 10)) >> 
  ok (sg 1) (C_create_contract 3 (SubscriptionIn 10 (Some 100) true) (ManualAcceptance (Some [2])) true (RentTokens 100) (FixedTokens 10) (FixedTokens 10)) >> 
  ok (sg 1) (C_create_contract 4 (SubscriptionIn 10 None false) (AutoAcceptance (Some [2])) false (RentTokens 100) NoFee (FixedTokens 10)) >> 
  ok (sg 1) (C_create_contract 8 (FixedIn 10) (AutoAcceptance (Some [2])) true (RentNFT 11) (FeeNFT 9) (FeeNFT 10)) >> 
  now_ (fun s2 => chk (fun _ => (if contracts (s_rent s2) !! 0 then true else false) = true) >> 
  chk (fun _ => (if contracts (s_rent s2) !! 1 then true else false) = true) >> 
  chk (fun _ => (if contracts (s_rent s2) !! 2 then true else false) = true) >> 
  chk (fun _ => (if contracts (s_rent s2) !! 3 then true else false) = true) >> 
  chk (fun _ => (if contracts (s_rent s2) !! 4 then true else false) = true) >> 
  chk (fun _ => (if contracts (s_rent s2) !! 8 then true else false) = true) >> 
  no (sg 1) (C_rent 0 1) (Rent_err R_CannotRentOwnContract) >> fin)))
  (start_with [(ALICE, 1000000); (BOB, 1000000); (CHARLIE, 1000000)]).
Proof. replay. Qed.
Example contract_does_not_support_automatic_rent : (ok (sg 1) (C_create_nft [] 0 None false) >> ok (sg 1) (C_create_nft [] 0 None false) >> ok (sg 1) (C_create_nft [] 0 None false) >> 
  ok (sg 1) (C_create_nft [] 0 None false) >> ok (sg 1) (C_create_nft [] 0 None false) >> 
  ok (sg 1) (C_create_nft [] 0 None false) >> ok (sg 1) (C_create_nft [] 0 None false) >> 
  ok (sg 1) (C_create_nft [] 0 None false) >> ok (sg 1) (C_create_nft [] 0 None false) >> 
  ok (sg 1) (C_create_nft [] 0 None false) >> ok (sg 2) (C_create_nft [] 0 None false) >> 
  ok (sg 2) (C_create_nft [] 0 None false) >> ok (sg 2) (C_create_nft [] 0 None false) >> 
  now_ (fun s1 => chk (fun _ => (if nfts (s_nft s1) !! 0 then true else false) = true) >> 
  chk (fun _ => (if nfts (s_nft s1) !! 1 then true else false) = true) >> 
  chk (fun _ => (if nfts (s_nft s1) !! 2 then true else false) = true) >> 
  chk (fun _ => (if nfts (s_nft s1) !! 3 then true else false) = true) >> 
  chk (fun _ => (if nfts (s_nft s1) !! 4 then true else false) = true) >> 
  chk (fun _ => (if nfts (s_nft s1) !! 5 then true else false) = true) >> 
  chk (fun _ => (if nfts (s_nft s1) !! 6 then true else false) = true) >> 
  chk (fun _ => (if nfts (s_nft s1) !! 7 then true else false) = true) >> 
  chk (fun _ => (if nfts (s_nft s1) !! 8 then true else false) = true) >> 
  chk (fun _ => (if nfts (s_nft s1) !! 9 then true else false) = true) >> 
  chk (fun _ => (if nfts (s_nft s1) !! 10 then true else false) = true) >> 
  chk (fun _ => (if nfts (s_nft s1) !! 11 then true else false) = true) >> 
  chk (fun _ => (if nfts (s_nft s1) !! 12 then true else false) = true) >> 
  ok (sg 1) (C_create_contract 0 (FixedIn 10) (AutoAcceptance (Some [2])) true (RentNFT 10) (FixedTokens 10) (FixedTokens 10)) >> 
  ok (sg 1) (C_create_contract 1 (FixedIn 10) (AutoAcceptance (Some [2])) true (RentTokens 100) (FlexibleTokens 10) (FlexibleTokens 10)) >> 
  ok (sg 1) (C_create_contract 2 (FixedIn 10) (ManualAcceptance (Some [2])) true (RentNFT 11) (FeeNFT 5) (FeeNFT 10)) >> 
  ok (sg 1) (C_create_contract 3 (SubscriptionIn 10 (Some 100) true) (ManualAcceptance (Some [2])) true (RentTokens 100) (FixedTokens 10) (FixedTokens 10)) >> 
  ok (sg 1) (C_create_contract 4 (SubscriptionIn 10 None false) (AutoAcceptance (Some [2])) false (RentTokens 100) NoFee (FixedTokens 10)) >> 
  ok (sg 1) (C_create_contract 8 (FixedIn 10) (AutoAcceptance (Some [2])) true (RentNFT 11) (FeeNFT 9) (FeeNFT 10)) >> 
  now_ (fun s2 => chk (fun _ => (if contracts (s_rent s2) !! 0 then true else false) = true) >> 
  chk (fun _ => (if contracts (s_rent s2) !! 1 then true else false) = true) >> 
  chk (fun _ => (if contracts (s_rent s2) !! 2 then true else false) = true) >> 
  chk (fun _ => (if contracts (s_rent s2) !! 3 then true else false) = true) >> 
  chk (fun _ => (if contracts (s_rent s2) !! 4 then true else false) = true) >> 
  chk (fun _ => (if contracts (s_rent s2) !! 8 then true else false) = true) >> 
  no (sg 2) (C_rent 2 1) (Rent_err R_ContractDoesNotSupportAutomaticRent) >> fin)))
  (start_with [(ALICE, 1000000); (BOB, 1000000); (CHARLIE, 1000000)]).
Proof. replay. Qed.
Example not_whitelisted : (ok (sg 1) (C_create_nft [] 0 None false) >> ok (sg 1) (C_create_nft [] 0 None false) >> ok (sg 1) (C_create_nft [] 0 None false) >> 
  ok (sg 1) (C_create_nft [] 0 None false) >> ok (sg 1) (C_create_nft [] 0 None false) >> 
  ok (sg 1) (C_create_nft [] 0 None false) >> ok (sg 1) (C_create_nft [] 0 None false) >> 
  ok (sg 1) (C_create_nft [] 0 None false) >> ok (sg 1) (C_create_nft [] 0 None false) >> 
  ok (sg 1) (C_create_nft [] 0 None false) >> ok (sg 2) (C_create_nft [] 0 None false) >> 
  ok (sg 2) (C_create_nft [] 0 None false) >> ok (sg 2) (C_create_nft [] 0 None false) >> 
  now_ (fun s1 => chk (fun _ => (if nfts (s_nft s1) !! 0 then true else false) = true) >> 
  chk (fun _ => (if nfts (s_nft s1) !! 1 then true else false) = true) >> 
  chk (fun _ => (if nfts (s_nft s1) !! 2 then true else false) = true) >> 
  chk (fun _ => (if nfts (s_nft s1) !! 3 then true else false) = true) >> 
  chk (fun _ => (if nfts (s_nft s1) !! 4 then true else false) = true) >> 
  chk (fun _ => (if nfts (s_nft s1) !! 5 then true else false) = true) >> 
  chk (fun _ => (if nfts (s_nft s1) !! 6 then true else false) = true) >> 
  chk (fun _ => (if nfts (s_nft s1) !! 7 then true else false) = true) >> 
  chk (fun _ => (if nfts (s_nft s1) !! 8 then true else false) = true) >> 
  chk (fun _ => (if nfts (s_nft s1) !! 9 then true else false) = true) >> 
  chk (fun _ => (if nfts (s_nft s1) !! 10 then true else false) = true) >> 
  chk (fun _ => (if nfts (s_nft s1) !! 11 then true else false) = true) >> 
  chk (fun _ => (if nfts (s_nft s1) !! 12 then true else false) = true) >> 
  ok (sg 1) (C_create_contract 0 (FixedIn 10) (AutoAcceptance (Some [2])) true (RentNFT 10) (FixedTokens 10) (FixedTokens 10)) >> 
  ok (sg 1) (C_create_contract 1 (FixedIn 10) (AutoAcceptance (Some [2])) true (RentTokens 100) (FlexibleTokens 10) (FlexibleTokens 10)) >> 
  ok (sg 1) (C_create_contract 2 (FixedIn 10) (ManualAcceptance (Some [2])) true (RentNFT 11) (FeeNFT 5) (FeeNFT 10)) >> 
  ok (sg 1) (C_create_contract 3 (SubscriptionIn 10 (Some 100) true) (ManualAcceptance (Some [2])) true (RentTokens 100) (FixedTokens 10) (FixedTokens 10)) >> 
  ok (sg 1) (C_create_contract 4 (SubscriptionIn 10 None false) (AutoAcceptance (Some [2])) false (RentTokens 100) NoFee (FixedTokens 10)) >> 
  ok (sg 1) (C_create_contract 8 (FixedIn 10) (AutoAcceptance (Some [2])) true (RentNFT 11) (FeeNFT 9) (FeeNFT 10)) >> 
  now_ (fun s2 => chk (fun _ => (if contracts (s_rent s2) !! 0 then true else false) = true) >> 
  chk (fun _ => (if contracts (s_rent s2) !! 1 then true else false) = true) >> 
  chk (fun _ => (if contracts (s_rent s2) !! 2 then true else false) = true) >> 
  chk (fun _ => (if contracts (s_rent s2) !! 3 then true else false) = true) >> 
  chk (fun _ => (if contracts (s_rent s2) !! 4 then true else false) = true) >> 
  chk (fun _ => (if contracts (s_rent s2) !! 8 then true else false) = true) >> 
  no (sg 3) (C_rent 4 1) (Rent_err R_NotWhitelisted) >> fin)))
  (start_with [(ALICE, 1000000); (BOB, 1000000); (CHARLIE, 1000000)]).
Proof. replay. Qed.
Example not_enough_funds_for_rent_fee : (ok (sg 1) (C_create_nft [] 0 None false) >> ok (sg 1) (C_create_nft [] 0 None false) >> ok (sg 1) (C_create_nft [] 0 None false) >> 
  ok (sg 1) (C_create_nft [] 0 None false) >> ok (sg 1) (C_create_nft [] 0 None false) >> 
  ok (sg 1) (C_create_nft [] 0 None false) >> ok (sg 1) (C_create_nft [] 0 None false) >> 
  ok (sg 1) (C_create_nft [] 0 None false) >> ok (sg 1) (C_create_nft [] 0 None false) >> 
  ok (sg 1) (C_create_nft [] 0 None false) >> ok (sg 2) (C_create_nft [] 0 None false) >> 
  ok (sg 2) (C_create_nft [] 0 None false) >> ok (sg 2) (C_create_nft [] 0 None false) >> 
  now_ (fun s1 => chk (fun _ => (if nfts (s_nft s1) !! 0 then true else false) = true) >> 
  chk (fun _ => (if nfts (s_nft s1) !! 1 then true else false) = true) >> 
  chk (fun _ => (if nfts (s_nft s1) !! 2 then true else false) = true) >> 
  chk (fun _ => (if nfts (s_nft s1) !! 3 then true else false) = true) >> 
  chk (fun _ => (if nfts (s_nft s1) !! 4 then true else false) = true) >> 
  chk (fun _ => (if nfts (s_nft s1) !! 5 then true else false) = true) >> 
  chk (fun _ => (if nfts (s_nft s1) !! 6 then true else false) = true) >> 
  chk (fun _ => (if nfts (s_nft s1) !! 7 then true else false) = true) >> 
  chk (fun _ => (if nfts (s_nft s1) !! 8 then true else false) = true) >> 
  chk (fun _ => (if nfts (s_nft s1) !! 9 then true else false) = true) >> 
  chk (fun _ => (if nfts (s_nft s1) !! 10 then true else false) = true) >> 
  chk (fun _ => (if nfts (s_nft s1) !! 11 then true else false) = true) >> 
  chk (fun _ => (if nfts (s_nft s1) !! 12 then true else false) = true) >> 
  ok (sg 1) (C_create_contract 0 (FixedIn 10) (AutoAcceptance (Some [2])) true (RentNFT 10) (FixedTokens 10) (FixedTokens 10)) >> 
  ok (sg 1) (C_create_contract 1 (FixedIn 10) (AutoAcceptance (Some [2])) true (RentTokens 100) (FlexibleTokens 10) (FlexibleTokens 10)) >> 
  ok (sg 1) (C_create_contract 2 (FixedIn 10) (ManualAcceptance (Some [2])) true (RentNFT 11) (FeeNFT 5) (FeeNFT 10)) >> 
  ok (sg 1) (C_create_contract 3 (SubscriptionIn 10 (Some 100) true) (ManualAcceptance (Some [2])) true (RentTokens 100) (FixedTokens 10) (FixedTokens 10)) >> 
  ok (sg 1) (C_create_contract 4 (SubscriptionIn 10 None false) (AutoAcceptance (Some [2])) false (RentTokens 100) NoFee (FixedTokens 10)) >> 
  ok (sg 1) (C_create_contract 8 (FixedIn 10) (AutoAcceptance (Some [2])) true (RentNFT 11) (FeeNFT 9) (FeeNFT 10)) >> 
  now_ (fun s2 => chk (fun _ => (if contracts (s_rent s2) !! 0 then true else false) = true) >> 
  chk (fun _ => (if contracts (s_rent s2) !! 1 then true else false) = true) >> 
  chk (fun _ => (if contracts (s_rent s2) !! 2 then true else false) = true) >> 
  chk (fun _ => (if contracts (s_rent s2) !! 3 then true else false) = true) >> 
  chk (fun _ => (if contracts (s_rent s2) !! 4 then true else false) = true) >> 
  chk (fun _ => (if contracts (s_rent s2) !! 8 then true else false) = true) >> set_bal 2 99 >> 
  no (sg 2) (C_rent 4 1) (Rent_err R_NotEnoughFundsForRentFee) >> fin)))
  (start_with [(ALICE, 1000000); (BOB, 1000000); (CHARLIE, 1000000)]).
Proof. replay. Qed.
Example not_enough_funds_for_cancellation_fee : (ok (sg 1) (C_create_nft [] 0 None false) >> ok (sg 1) (C_create_nft [] 0 None false) >> ok (sg 1) (C_create_nft [] 0 None false) >> 
  ok (sg 1) (C_create_nft [] 0 None false) >> ok (sg 1) (C_create_nft [] 0 None false) >> 
  ok (sg 1) (C_create_nft [] 0 None false) >> ok (sg 1) (C_create_nft [] 0 None false) >> 
  ok (sg 1) (C_create_nft [] 0 None false) >> ok (sg 1) (C_create_nft [] 0 None false) >> 
  ok (sg 1) (C_create_nft [] 0 None false) >> ok (sg 2) (C_create_nft [] 0 None false) >> 
  ok (sg 2) (C_create_nft [] 0 None false) >> ok (sg 2) (C_create_nft [] 0 None false) >> 
  now_ (fun s1 => chk (fun _ => (if nfts (s_nft s1) !! 0 then true else false) = true) >> 
  chk (fun _ => (if nfts (s_nft s1) !! 1 then true else false) = true) >> 
  chk (fun _ => (if nfts (s_nft s1) !! 2 then true else false) = true) >> 
  chk (fun _ => (if nfts (s_nft s1) !! 3 then true else false) = true) >> 
  chk (fun _ => (if nfts (s_nft s1) !! 4 then true else false) = true) >> 
  chk (fun _ => (if nfts (s_nft s1) !! 5 then true else false) = true) >> 
  chk (fun _ => (if nfts (s_nft s1) !! 6 then true else false) = true) >> 
  chk (fun _ => (if nfts (s_nft s1) !! 7 then true else false) = true) >> 
  chk (fun _ => (if nfts (s_nft s1) !! 8 then true else false) = true) >> 
  chk (fun _ => (if nfts (s_nft s1) !! 9 then true else false) = true) >> 
  chk (fun _ => (if nfts (s_nft s1) !! 10 then true else false) = true) >> 
  chk (fun _ => (if nfts (s_nft s1) !! 11 then true else false) = true) >> 
  chk (fun _ => (if nfts (s_nft s1) !! 12 then true else false) = true) >> 
  ok (sg 1) (C_create_contract 0 (FixedIn 10) (AutoAcceptance (Some [2])) true (RentNFT 10) (FixedTokens 10) (FixedTokens 10)) >> 
  ok (sg 1) (C_create_contract 1 (FixedIn 10) (AutoAcceptance (Some [2])) true (RentTokens 100) (FlexibleTokens 10) (FlexibleTokens 10)) >> 
  ok (sg 1) (C_create_contract 2 (FixedIn 10) (ManualAcceptance (Some [2])) true (RentNFT 11) (FeeNFT 5) (FeeNFT 10)) >> 
  ok (sg 1) (C_create_contract 3 (SubscriptionIn 10 (Some 100) true) (ManualAcceptance (Some [2])) true (RentTokens 100) (FixedTokens 10) (FixedTokens 10)) >> 
  ok (sg 1) (C_create_contract 4 (SubscriptionIn 10 None false) (AutoAcceptance (Some [2])) false (RentTokens 100) NoFee (FixedTokens 10)) >> 
  ok (sg 1) (C_create_contract 8 (FixedIn 10) (AutoAcceptance (Some [2])) true (RentNFT 11) (FeeNFT 9) (FeeNFT 10)) >> 
  now_ (fun s2 => chk (fun _ => (if contracts (s_rent s2) !! 0 then true else false) = true) >> 
  chk (fun _ => (if contracts (s_rent s2) !! 1 then true else false) = true) >> 
  chk (fun _ => (if contracts (s_rent s2) !! 2 then true else false) = true) >> 
  chk (fun _ => (if contracts (s_rent s2) !! 3 then true else false) = true) >> 
  chk (fun _ => (if contracts (s_rent s2) !! 4 then true else false) = true) >> 
  chk (fun _ => (if contracts (s_rent s2) !! 8 then true else false) = true) >> set_bal 2 109 >> 
  no (sg 2) (C_rent 1 1) (Rent_err R_NotEnoughFundsForCancellationFee) >> fin)))
  (start_with [(ALICE, 1000000); (BOB, 1000000); (CHARLIE, 1000000)]).
Proof. replay. Qed.
Example rentee_does_not_own_the_rent_nft : (ok (sg 1) (C_create_nft [] 0 None false) >> ok (sg 1) (C_create_nft [] 0 None false) >> ok (sg 1) (C_create_nft [] 0 None false) >> 
  ok (sg 1) (C_create_nft [] 0 None false) >> ok (sg 1) (C_create_nft [] 0 None false) >> 
  ok (sg 1) (C_create_nft [] 0 None false) >> ok (sg 1) (C_create_nft [] 0 None false) >> 
  ok (sg 1) (C_create_nft [] 0 None false) >> ok (sg 1) (C_create_nft [] 0 None false) >> 
  ok (sg 1) (C_create_nft [] 0 None false) >> ok (sg 2) (C_create_nft [] 0 None false) >> 
  ok (sg 2) (C_create_nft [] 0 None false) >> ok (sg 2) (C_create_nft [] 0 None false) >> 
  now_ (fun s1 => chk (fun _ => (if nfts (s_nft s1) !! 0 then true else false) = true) >> 
  chk (fun _ => (if nfts (s_nft s1) !! 1 then true else false) = true) >> 
  chk (fun _ => (if nfts (s_nft s1) !! 2 then true else false) = true) >> 
  chk (fun _ => (if nfts (s_nft s1) !! 3 then true else false) = true) >> 
  chk (fun _ => (if nfts (s_nft s1) !! 4 then true else false) = true) >> 
  chk (fun _ => (if nfts (s_nft s1) !! 5 then true else false) = true) >> 
  chk (fun _ => (if nfts (s_nft s1) !! 6 then true else false) = true) >> 
  chk (fun _ => (if nfts (s_nft s1) !! 7 then true else false) = true) >> 
  chk (fun _ => (if nfts (s_nft s1) !! 8 then true else false) = true) >> 
  chk (fun _ => (if nfts (s_nft s1) !! 9 then true else false) = true) >> 
  chk (fun _ => (if nfts (s_nft s1) !! 10 then true else false) = true) >> 
  chk (fun _ => (if nfts (s_nft s1) !! 11 then true else false) = true) >> 
  chk (fun _ => (if nfts (s_nft s1) !! 12 then true else false) = true) >> 
  ok (sg 1) (C_create_contract 0 (FixedIn 10) (AutoAcceptance (Some [2])) true (RentNFT 10) (FixedTokens 10) (FixedTokens 10)) >> 
  ok (sg 1) (C_create_contract 1 (FixedIn 10) (AutoAcceptance (Some [2])) true (RentTokens 100) (FlexibleTokens 10) (FlexibleTokens 10)) >> 
  ok (sg 1) (C_create_contract 2 (FixedIn 10) (ManualAcceptance (Some [2])) true (RentNFT 11) (FeeNFT 5) (FeeNFT 10)) >> 
  ok (sg 1) (C_create_contract 3 (SubscriptionIn 10 (Some 100) true) (ManualAcceptance (Some [2])) true (RentTokens 100) (FixedTokens 10) (FixedTokens 10)) >> 
  ok (sg 1) (C_create_contract 4 (SubscriptionIn 10 None false) (AutoAcceptance (Some [2])) false (RentTokens 100) NoFee (FixedTokens 10)) >> 
  ok (sg 1) (C_create_contract 8 (FixedIn 10) (AutoAcceptance (Some [2])) true (RentNFT 11) (FeeNFT 9) (FeeNFT 10)) >> 
  now_ (fun s2 => chk (fun _ => (if contracts (s_rent s2) !! 0 then true else false) = true) >> 
  chk (fun _ => (if contracts (s_rent s2) !! 1 then true else false) = true) >> 
  chk (fun _ => (if contracts (s_rent s2) !! 2 then true else false) = true) >> 
  chk (fun _ => (if contracts (s_rent s2) !! 3 then true else false) = true) >> 
  chk (fun _ => (if contracts (s_rent s2) !! 4 then true else false) = true) >> 
  chk (fun _ => (if contracts (s_rent s2) !! 8 then true else false) = true) >> 
  chk (fun _ => (if nfts (s_nft s2) !! 10 then true else false) = true) >> 
  edit 10 (fun _ => (default dnft (nfts (s_nft s2) !! 10)) <| owner := 1 |>) >> 
  no (sg 2) (C_rent 0 1) (Rent_err R_RenteeDoesNotOwnTheRentNFT) >> fin)))
  (start_with [(ALICE, 1000000); (BOB, 1000000); (CHARLIE, 1000000)]).
Proof. replay. Qed.
Example rentee_does_not_own_the_cancellation_nft : (ok (sg 1) (C_create_nft [] 0 None false) >> ok (sg 1) (C_create_nft [] 0 None false) >> ok (sg 1) (C_create_nft [] 0 None false) >> 
  ok (sg 1) (C_create_nft [] 0 None false) >> ok (sg 1) (C_create_nft [] 0 None false) >> 
  ok (sg 1) (C_create_nft [] 0 None false) >> ok (sg 1) (C_create_nft [] 0 None false) >> 
  ok (sg 1) (C_create_nft [] 0 None false) >> ok (sg 1) (C_create_nft [] 0 None false) >> 
  ok (sg 1) (C_create_nft [] 0 None false) >> ok (sg 2) (C_create_nft [] 0 None false) >> 
  ok (sg 2) (C_create_nft [] 0 None false) >> ok (sg 2) (C_create_nft [] 0 None false) >> 
  now_ (fun s1 => chk (fun _ => (if nfts (s_nft s1) !! 0 then true else false) = true) >> 
  chk (fun _ => (if nfts (s_nft s1) !! 1 then true else false) = true) >> 
  chk (fun _ => (if nfts (s_nft s1) !! 2 then true else false) = true) >> 
  chk (fun _ => (if nfts (s_nft s1) !! 3 then true else false) = true) >> 
  chk (fun _ => (if nfts (s_nft s1) !! 4 then true else false) = true) >> 
  chk (fun _ => (if nfts (s_nft s1) !! 5 then true else false) = true) >> 
  chk (fun _ => (if nfts (s_nft s1) !! 6 then true else false) = true) >> 
  chk (fun _ => (if nfts (s_nft s1) !! 7 then true else false) = true) >> 
  chk (fun _ => (if nfts (s_nft s1) !! 8 then true else false) = true) >> 
  chk (fun _ => (if nfts (s_nft s1) !! 9 then true else false) = true) >> 
  chk (fun _ => (if nfts (s_nft s1) !! 10 then true else false) = true) >> 
  chk (fun _ => (if nfts (s_nft s1) !! 11 then true else false) = true) >> 
  chk (fun _ => (if nfts (s_nft s1) !! 12 then true else false) = true) >> 
  ok (sg 1) (C_create_contract 0 (FixedIn 10) (AutoAcceptance (Some [2])) true (RentNFT 10) (FixedTokens 10) (FixedTokens 10)) >> 
  ok (sg 1) (C_create_contract 1 (FixedIn 10) (AutoAcceptance (Some [2])) true (RentTokens 100) (FlexibleTokens 10) (FlexibleTokens 10)) >> 
  ok (sg 1) (C_create_contract 2 (FixedIn 10) (ManualAcceptance (Some [2])) true (RentNFT 11) (FeeNFT 5) (FeeNFT 10)) >> 
  ok (sg 1) (C_create_contract 3 (SubscriptionIn 10 (Some 100) true) (ManualAcceptance (Some [2])) true (RentTokens 100) (FixedTokens 10) (FixedTokens 10)) >> 
  ok (sg 1) (C_create_contract 4 (SubscriptionIn 10 None false) (AutoAcceptance (Some [2])) false (RentTokens 100) NoFee (FixedTokens 10)) >> 
  ok (sg 1) (C_create_contract 8 (FixedIn 10) (AutoAcceptance (Some [2])) true (RentNFT 11) (FeeNFT 9) (FeeNFT 10)) >> 
  now_ (fun s2 => chk (fun _ => (if contracts (s_rent s2) !! 0 then true else false) = true) >> 
  chk (fun _ => (if contracts (s_rent s2) !! 1 then true else false) = true) >> 
  chk (fun _ => (if contracts (s_rent s2) !! 2 then true else false) = true) >> 
  chk (fun _ => (if contracts (s_rent s2) !! 3 then true else false) = true) >> 
  chk (fun _ => (if contracts (s_rent s2) !! 4 then true else false) = true) >> 
  chk (fun _ => (if contracts (s_rent s2) !! 8 then true else false) = true) >> 
  chk (fun _ => (if nfts (s_nft s2) !! 10 then true else false) = true) >> 
  edit 10 (fun _ => (default dnft (nfts (s_nft s2) !! 10)) <| owner := 1 |>) >> 
  no (sg 2) (C_rent 8 1) (Rent_err R_RenteeDoesNotOwnTheCancellationNFT) >> fin)))
  (start_with [(ALICE, 1000000); (BOB, 1000000); (CHARLIE, 1000000)]).
Proof. replay. Qed.
Example contract_does_not_match : (ok (sg 1) (C_create_nft [] 0 None false) >> ok (sg 1) (C_create_nft [] 0 None false) >> ok (sg 1) (C_create_nft [] 0 None false) >> 
  ok (sg 1) (C_create_nft [] 0 None false) >> ok (sg 1) (C_create_nft [] 0 None false) >> 
  ok (sg 1) (C_create_nft [] 0 None false) >> ok (sg 1) (C_create_nft [] 0 None false) >> 
  ok (sg 1) (C_create_nft [] 0 None false) >> ok (sg 1) (C_create_nft [] 0 None false) >> 
  ok (sg 1) (C_create_nft [] 0 None false) >> ok (sg 2) (C_create_nft [] 0 None false) >> 
  ok (sg 2) (C_create_nft [] 0 None false) >> ok (sg 2) (C_create_nft [] 0 None false) >> 
  now_ (fun s1 => chk (fun _ => (if nfts (s_nft s1) !! 0 then true else false) = true) >> 
  chk (fun _ => (if nfts (s_nft s1) !! 1 then true else false) = true) >> 
  chk (fun _ => (if nfts (s_nft s1) !! 2 then true else false) = true) >> 
  chk (fun _ => (if nfts (s_nft s1) !! 3 then true else false) = true) >> 
  chk (fun _ => (if nfts (s_nft s1) !! 4 then true else false) = true) >> 
  chk (fun _ => (if nfts (s_nft s1) !! 5 then true else false) = true) >> 
  chk (fun _ => (if nfts (s_nft s1) !! 6 then true else false) = true) >> 
  chk (fun _ => (if nfts (s_nft s1) !! 7 then true else false) = true) >> 
  chk (fun _ => (if nfts (s_nft s1) !! 8 then true else false) = true) >> 
  chk (fun _ => (if nfts (s_nft s1) !! 9 then true else false) = true) >> 
  chk (fun _ => (if nfts (s_nft s1) !! 10 then true else false) = true) >> 
  chk (fun _ => (if nfts (s_nft s1) !! 11 then true else false) = true) >> 
  chk (fun _ => (if nfts (s_nft s1) !! 12 then true else false) = true) >> 
  ok (sg 1) (C_create_contract 0 (FixedIn 10) (AutoAcceptance (Some [2])) true (RentNFT 10) (FixedTokens 10) (FixedTokens 10)) >> 
  ok (sg 1) (C_create_contract 1 (FixedIn 10) (AutoAcceptance (Some [2])) true (RentTokens 100) (FlexibleTokens 10) (FlexibleTokens 10)) >> 
  ok (sg 1) (C_create_contract 2 (FixedIn 10) (ManualAcceptance (Some [2])) true (RentNFT 11) (FeeNFT 5) (FeeNFT 10)) >> 
  ok (sg 1) (C_create_contract 3 (SubscriptionIn 10 (Some 100) true) (ManualAcceptance (Some [2])) true (RentTokens 100) (FixedTokens 10) (FixedTokens 10)) >> 
  ok (sg 1) (C_create_contract 4 (SubscriptionIn 10 None false) (AutoAcceptance (Some [2])) false (RentTokens 100) NoFee (FixedTokens 10)) >> 
  ok (sg 1) (C_create_contract 8 (FixedIn 10) (AutoAcceptance (Some [2])) true (RentNFT 11) (FeeNFT 9) (FeeNFT 10)) >> 
  now_ (fun s2 => chk (fun _ => (if contracts (s_rent s2) !! 0 then true else false) = true) >> 
  chk (fun _ => (if contracts (s_rent s2) !! 1 then true else false) = true) >> 
  chk (fun _ => (if contracts (s_rent s2) !! 2 then true else false) = true) >> 
  chk (fun _ => (if contracts (s_rent s2) !! 3 then true else false) = true) >> 
  chk (fun _ => (if contracts (s_rent s2) !! 4 then true else false) = true) >> 
  chk (fun _ => (if contracts (s_rent s2) !! 8 then true else false) = true) >> 
  no (sg 2) (C_rent 0 2) (Rent_err R_ContractDoesNotMatch) >> fin)))
  (start_with [(ALICE, 1000000); (BOB, 1000000); (CHARLIE, 1000000)]).
Proof. replay. Qed.

(** * extrinsics, make_rent_offer *)
Example make_rent_offer : (ok (sg 1) (C_create_nft [] 0 None false) >> ok (sg 1) (C_create_nft [] 0 None false) >> ok (sg 1) (C_create_nft [] 0 None false) >> 
  ok (sg 1) (C_create_nft [] 0 None false) >> ok (sg 1) (C_create_nft [] 0 None false) >> 
  ok (sg 1) (C_create_nft [] 0 None false) >> ok (sg 1) (C_create_nft [] 0 None false) >> 
  ok (sg 1) (C_create_nft [] 0 None false) >> ok (sg 1) (C_create_nft [] 0 None false) >> 
  ok (sg 1) (C_create_nft [] 0 None false) >> ok (sg 2) (C_create_nft [] 0 None false) >> 
  ok (sg 2) (C_create_nft [] 0 None false) >> ok (sg 2) (C_create_nft [] 0 None false) >> 
  now_ (fun s1 => chk (fun _ => (if nfts (s_nft s1) !! 0 then true else false) = true) >> 
  chk (fun _ => (if nfts (s_nft s1) !! 1 then true else false) = true) >> 
  chk (fun _ => (if nfts (s_nft s1) !! 2 then true else false) = true) >> 
  chk (fun _ => (if nfts (s_nft s1) !! 3 then true else false) = true) >> 
  chk (fun _ => (if nfts (s_nft s1) !! 4 then true else false) = true) >> 
  chk (fun _ => (if nfts (s_nft s1) !! 5 then true else false) = true) >> 
  chk (fun _ => (if nfts (s_nft s1) !! 6 then true else false) = true) >> 
  chk (fun _ => (if nfts (s_nft s1) !! 7 then true else false) = true) >> 
  chk (fun _ => (if nfts (s_nft s1) !! 8 then true else false) = true) >> 
  chk (fun _ => (if nfts (s_nft s1) !! 9 then true else false) = true) >> 
  chk (fun _ => (if nfts (s_nft s1) !! 10 then true else false) = true) >> 
  chk (fun _ => (if nfts (s_nft s1) !! 11 then true else false) = true) >> 
  chk (fun _ => (if nfts (s_nft s1) !! 12 then true else false) = true) >> 
  ok (sg 1) (C_create_contract 0 (FixedIn 10) (AutoAcceptance (Some [2])) true (RentNFT 10) (FixedTokens 10) (FixedTokens 10)) >> 
  ok (sg 1) (C_create_contract 1 (FixedIn 10) (AutoAcceptance (Some [2])) true (RentTokens 100) (FlexibleTokens 10) (FlexibleTokens 10)) >> 
  ok (sg 1) (C_create_contract 2 (FixedIn 10) (ManualAcceptance (Some [2])) true (RentNFT 11) (FeeNFT 5) (FeeNFT 10)) >> 
  ok (sg 1) (C_create_contract 3 (SubscriptionIn 10 (Some 100) true) (ManualAcceptance (Some [2])) true (RentTokens 100) (FixedTokens 10) (FixedTokens 10)) >> 
  ok (sg 1) (C_create_contract 4 (SubscriptionIn 10 None false) (AutoAcceptance (Some [2])) false (RentTokens 100) NoFee (FixedTokens 10)) >> 
  ok (sg 1) (C_create_contract 8 (FixedIn 10) (AutoAcceptance (Some [2])) true (RentNFT 11) (FeeNFT 9) (FeeNFT 10)) >> 
  now_ (fun s2 => chk (fun _ => (if contracts (s_rent s2) !! 0 then true else false) = true) >> 
  chk (fun _ => (if contracts (s_rent s2) !! 1 then true else false) = true) >> 
  chk (fun _ => (if contracts (s_rent s2) !! 2 then true else false) = true) >> 
  chk (fun _ => (if contracts (s_rent s2) !! 3 then true else false) = true) >> 
  chk (fun _ => (if contracts (s_rent s2) !! 4 then true else false) = true) >> 
  chk (fun _ => (if contracts (s_rent s2) !! 8 then true else false) = true) >> ok (sg 2) (C_make_rent_offer 3 1) >> 
  now_ (fun s3 => chk (fun _ => (if offers (s_rent s3) !! 3 then true else false) = true) >> 
  chk (fun _ => (existsb (N.eqb 2) (default [] (offers (s_rent s3) !! 3))) = true) >> 
  chk (fun _ => (if q_get 3 (q_avail (queues (s_rent s3))) then true else false) = true) >> last_ (Ev_ContractOfferCreated 3 2) >> fin))))
  (start_with [(ALICE, 1000000); (BOB, 1000000); (CHARLIE, 1000000)]).
Proof. replay. Qed.
Example make_rent_offer_contract_not_found : (ok (sg 1) (C_create_nft [] 0 None false) >> ok (sg 1) (C_create_nft [] 0 None false) >> ok (sg 1) (C_create_nft [] 0 None false) >> 
  ok (sg 1) (C_create_nft [] 0 None false) >> ok (sg 1) (C_create_nft [] 0 None false) >> 
  ok (sg 1) (C_create_nft [] 0 None false) >> ok (sg 1) (C_create_nft [] 0 None false) >> 
  ok (sg 1) (C_create_nft [] 0 None false) >> ok (sg 1) (C_create_nft [] 0 None false) >> 
  ok (sg 1) (C_create_nft [] 0 None false) >> ok (sg 2) (C_create_nft [] 0 None false) >> 
  ok (sg 2) (C_create_nft [] 0 None false) >> ok (sg 2) (C_create_nft [] 0 None false) >> 
  now_ (fun s1 => chk (fun _ => (if nfts (s_nft s1) !! 0 then true else false) = true) >> 
  chk (fun _ => (if nfts (s_nft s1) !! 1 then true else false) = true) >> 
  chk (fun _ => (if nfts (s_nft s1) !! 2 then true else false) = true) >> 
  chk (fun _ => (if nfts (s_nft s1) !! 3 then true else false) = true) >> 
  chk (fun _ => (if nfts (s_nft s1) !! 4 then true else false) = true) >> 
  chk (fun _ => (if nfts (s_nft s1) !! 5 then true else false) = true) >> 
  chk (fun _ => (if nfts (s_nft s1) !! 6 then true else false) = true) >> 
  chk (fun _ => (if nfts (s_nft s1) !! 7 then true else false) = true) >> 
  chk (fun _ => (if nfts (s_nft s1) !! 8 then true else false) = true) >> 
  chk (fun _ => (if nfts (s_nft s1) !! 9 then true else false) = true) >> 
  chk (fun _ => (if nfts (s_nft s1) !! 10 then true else false) = true) >> 
  chk (fun _ => (if nfts (s_nft s1) !! 11 then true else false) = true) >> 
  chk (fun _ => (if nfts (s_nft s1) !! 12 then true else false) = true) >> 
  ok (sg 1) (C_create_contract 0 (FixedIn 10) (AutoAcceptance (Some [2])) true (RentNFT 10) (FixedTokens 10) (FixedTokens 10)) >> 
  ok (sg 1) (C_create_contract 1 (FixedIn 10) (AutoAcceptance (Some [2])) true (RentTokens 100) (FlexibleTokens 10) (FlexibleTokens 10)) >> 
  ok (sg 1) (C_create_contract 2 (FixedIn 10) (ManualAcceptance (Some [2])) true (RentNFT 11) (FeeNFT 5) (FeeNFT 10)) >> 
  ok (sg 1) (C_create_contract 3 (SubscriptionIn 10 (Some 100) true) (ManualAcceptance (Some [2])) true (RentTokens 100) (FixedTokens 10) (FixedTokens 10)) >> 
  ok (sg 1) (C_create_contract 4 (SubscriptionIn 10 None false) (AutoAcceptance (Some [2])) false (RentTokens 100) NoFee (FixedTokens 10)) >> 
  ok (sg 1) (C_create_contract 8 (FixedIn 10) (AutoAcceptance (Some [2])) true (RentNFT 11) (FeeNFT 9) (FeeNFT 10)) >> 
  now_ (fun s2 => chk (fun _ => (if contracts (s_rent s2) !! 0 then true else false) = true) >> 
  chk (fun _ => (if contracts (s_rent s2) !! 1 then true else false) = true) >> 
  chk (fun _ => (if contracts (s_rent s2) !! 2 then true else false) = true) >> 
  chk (fun _ => (if contracts (s_rent s2) !! 3 then true else false) = true) >> 
  chk (fun _ => (if contracts (s_rent s2) !! 4 then true else false) = true) >> 
  chk (fun _ => (if contracts (s_rent s2) !! 8 then true else false) = true) >> 
  no (sg 2) (C_make_rent_offer 99 1) (Rent_err R_ContractNotFound) >> fin)))
  (start_with [(ALICE, 1000000); (BOB, 1000000); (CHARLIE, 1000000)]).
Proof. replay. Qed.
Example make_rent_offer_cannot_rent_own_contract : (ok (sg 1) (C_create_nft [] 0 None false) >> ok (sg 1) (C_create_nft [] 0 None false) >> ok (sg 1) (C_create_nft [] 0 None false) >> 
  ok (sg 1) (C_create_nft [] 0 None false) >> ok (sg 1) (C_create_nft [] 0 None false) >> 
  ok (sg 1) (C_create_nft [] 0 None false) >> ok (sg 1) (C_create_nft [] 0 None false) >> 
  ok (sg 1) (C_create_nft [] 0 None false) >> ok (sg 1) (C_create_nft [] 0 None false) >> 
  ok (sg 1) (C_create_nft [] 0 None false) >> ok (sg 2) (C_create_nft [] 0 None false) >> 
  ok (sg 2) (C_create_nft [] 0 None false) >> ok (sg 2) (C_create_nft [] 0 None false) >> 
  now_ (fun s1 => chk (fun _ => (if nfts (s_nft s1) !! 0 then true else false) = true) >> 
  chk (fun _ => (if nfts (s_nft s1) !! 1 then true else false) = true) >> 
  chk (fun _ => (if nfts (s_nft s1) !! 2 then true else false) = true) >> 
  chk (fun _ => (if nfts (s_nft s1) !! 3 then true else false) = true) >> 
  chk (fun _ => (if nfts (s_nft s1) !! 4 then true else false) = true) >> 
  chk (fun _ => (if nfts (s_nft s1) !! 5 then true else false) = true) >> 
  chk (fun _ => (if nfts (s_nft s1) !! 6 then true else false) = true) >> 
  chk (fun _ => (if nfts (s_nft s1) !! 7 then true else false) = true) >> 
  chk (fun _ => (if nfts (s_nft s1) !! 8 then true else false) = true) >> 
  chk (fun _ => (if nfts (s_nft s1) !! 9 then true else false) = true) >> 
  chk (fun _ => (if nfts (s_nft s1) !! 10 then true else false) = true) >> 
  chk (fun _ => (if nfts (s_nft s1) !! 11 then true else false) = true) >> 
  chk (fun _ => (if nfts (s_nft s1) !! 12 then true else false) = true) >> 
  ok (sg 1) (C_create_contract 0 (FixedIn 10) (AutoAcceptance (Some [2])) true (RentNFT 10) (FixedTokens 10) (FixedTokens 10)) >> 
  ok (sg 1) (C_create_contract 1 (FixedIn 10) (AutoAcceptance (Some [2])) true (RentTokens 100) (FlexibleTokens 10) (FlexibleTokens 10)) >> 
  ok (sg 1) (C_create_contract 2 (FixedIn 10) (ManualAcceptance (Some [2])) true (RentNFT 11) (FeeNFT 5) (FeeNFT 10)) >> 
  ok (sg 1) (C_create_contract 3 (SubscriptionIn 10 (Some 100) true) (ManualAcceptance (Some [2])) true (RentTokens 100) (FixedTokens 10) (FixedTokens 10)) >> 
  ok (sg 1) (C_create_contract 4 (SubscriptionIn 10 None false) (AutoAcceptance (Some [2])) false (RentTokens 100) NoFee (FixedTokens 10)) >> 
  ok (sg 1) (C_create_contract 8 (FixedIn 10) (AutoAcceptance (Some [2])) true (RentNFT 11) (FeeNFT 9) (FeeNFT 10)) >> 
  now_ (fun s2 => chk (fun _ => (if contracts (s_rent s2) !! 0 then true else false) = true) >> 
  chk (fun _ => (if contracts (s_rent s2) !! 1 then true else false) = true) >> 
  chk (fun _ => (if contracts (s_rent s2) !! 2 then true else false) = true) >> 
  chk (fun _ => (if contracts (s_rent s2) !! 3 then true else false) = true) >> 
  chk (fun _ => (if contracts (s_rent s2) !! 4 then true else false) = true) >> 
  chk (fun _ => (if contracts (s_rent s2) !! 8 then true else false) = true) >> 
  no (sg 1) (C_make_rent_offer 2 1) (Rent_err R_CannotRentOwnContract) >> fin)))
  (start_with [(ALICE, 1000000); (BOB, 1000000); (CHARLIE, 1000000)]).
Proof. replay. Qed.
Example contract_does_not_support_offers : (ok (sg 1) (C_create_nft [] 0 None false) >> ok (sg 1) (C_create_nft [] 0 None false) >> ok (sg 1) (C_create_nft [] 0 None false) >> 
  ok (sg 1) (C_create_nft [] 0 None false) >> ok (sg 1) (C_create_nft [] 0 None false) >> 
  ok (sg 1) (C_create_nft [] 0 None false) >> ok (sg 1) (C_create_nft [] 0 None false) >> 
  ok (sg 1) (C_create_nft [] 0 None false) >> ok (sg 1) (C_create_nft [] 0 None false) >> 
  ok (sg 1) (C_create_nft [] 0 None false) >> ok (sg 2) (C_create_nft [] 0 None false) >> 
  ok (sg 2) (C_create_nft [] 0 None false) >> ok (sg 2) (C_create_nft [] 0 None false) >> 
  now_ (fun s1 => chk (fun _ => (if nfts (s_nft s1) !! 0 then true else false) = true) >> 
  chk (fun _ => (if nfts (s_nft s1) !! 1 then true else false) = true) >> 
  chk (fun _ => (if nfts (s_nft s1) !! 2 then true else false) = true) >> 
  chk (fun _ => (if nfts (s_nft s1) !! 3 then true else false) = true) >> 
  chk (fun _ => (if nfts (s_nft s1) !! 4 then true else false) = true) >> 
  chk (fun _ => (if nfts (s_nft s1) !! 5 then true else false) = true) >> 
  chk (fun _ => (if nfts (s_nft s1) !! 6 then true else false) = true) >> 
  chk (fun _ => (if nfts (s_nft s1) !! 7 then true else false) = true) >> 
  chk (fun _ => (if nfts (s_nft s1) !! 8 then true else false) = true) >> 
  chk (fun _ => (if nfts (s_nft s1) !! 9 then true else false) = true) >> 
  chk (fun _ => (if nfts (s_nft s1) !! 10 then true else false) = true) >> 
  chk (fun _ => (if nfts (s_nft s1) !! 11 then true else false) = true) >> 
  chk (fun _ => (if nfts (s_nft s1) !! 12 then true else false) = true) >> 
  ok (sg 1) (C_create_contract 0 (FixedIn 10) (AutoAcceptance (Some [2])) true (RentNFT 10) (FixedTokens 10) (FixedTokens 10)) >> 
  ok (sg 1) (C_create_contract 1 (FixedIn 10) (AutoAcceptance (Some [2])) true (RentTokens 100) (FlexibleTokens 10) (FlexibleTokens 10)) >> 
  ok (sg 1) (C_create_contract 2 (FixedIn 10) (ManualAcceptance (Some [2])) true (RentNFT 11) (FeeNFT 5) (FeeNFT 10)) >> 
  ok (sg 1) (C_create_contract 3 (SubscriptionIn 10 (Some 100) true) (ManualAcceptance (Some [2])) true (RentTokens 100) (FixedTokens 10) (FixedTokens 10)) >> 
  ok (sg 1) (C_create_contract 4 (SubscriptionIn 10 None false) (AutoAcceptance (Some [2])) false (RentTokens 100) NoFee (FixedTokens 10)) >> 
  ok (sg 1) (C_create_contract 8 (FixedIn 10) (AutoAcceptance (Some [2])) true (RentNFT 11) (FeeNFT 9) (FeeNFT 10)) >> 
  now_ (fun s2 => chk (fun _ => (if contracts (s_rent s2) !! 0 then true else false) = true) >> 
  chk (fun _ => (if contracts (s_rent s2) !! 1 then true else false) = true) >> 
  chk (fun _ => (if contracts (s_rent s2) !! 2 then true else false) = true) >> 
  chk (fun _ => (if contracts (s_rent s2) !! 3 then true else false) = true) >> 
  chk (fun _ => (if contracts (s_rent s2) !! 4 then true else false) = true) >> 
  chk (fun _ => (if contracts (s_rent s2) !! 8 then true else false) = true) >> 
  no (sg 2) (C_make_rent_offer 8 1) (Rent_err R_ContractDoesNotSupportOffers) >> fin)))
  (start_with [(ALICE, 1000000); (BOB, 1000000); (CHARLIE, 1000000)]).
Proof. replay. Qed.
Example make_rent_offer_not_whitelisted : (ok (sg 1) (C_create_nft [] 0 None false) >> ok (sg 1) (C_create_nft [] 0 None false) >> ok (sg 1) (C_create_nft [] 0 None false) >> 
  ok (sg 1) (C_create_nft [] 0 None false) >> ok (sg 1) (C_create_nft [] 0 None false) >> 
  ok (sg 1) (C_create_nft [] 0 None false) >> ok (sg 1) (C_create_nft [] 0 None false) >> 
  ok (sg 1) (C_create_nft [] 0 None false) >> ok (sg 1) (C_create_nft [] 0 None false) >> 
  ok (sg 1) (C_create_nft [] 0 None false) >> ok (sg 2) (C_create_nft [] 0 None false) >> 
  ok (sg 2) (C_create_nft [] 0 None false) >> ok (sg 2) (C_create_nft [] 0 None false) >> 
  now_ (fun s1 => chk (fun _ => (if nfts (s_nft s1) !! 0 then true else false) = true) >> 
  chk (fun _ => (if nfts (s_nft s1) !! 1 then true else false) = true) >> 
  chk (fun _ => (if nfts (s_nft s1) !! 2 then true else false) = true) >> 
  chk (fun _ => (if nfts (s_nft s1) !! 3 then true else false) = true) >> 
  chk (fun _ => (if nfts (s_nft s1) !! 4 then true else false) = true) >> 
  chk (fun _ => (if nfts (s_nft s1) !! 5 then true else false) = true) >> 
  chk (fun _ => (if nfts (s_nft s1) !! 6 then true else false) = true) >> 
  chk (fun _ => (if nfts (s_nft s1) !! 7 then true else false) = true) >> 
  chk (fun _ => (if nfts (s_nft s1) !! 8 then true else false) = true) >> 
  chk (fun _ => (if nfts (s_nft s1) !! 9 then true else false) = true) >> 
  chk (fun _ => (if nfts (s_nft s1) !! 10 then true else false) = true) >> 
  chk (fun _ => (if nfts (s_nft s1) !! 11 then true else false) = true) >> 
  chk (fun _ => (if nfts (s_nft s1) !! 12 then true else false) = true) >> 
  ok (sg 1) (C_create_contract 0 (FixedIn 10) (AutoAcceptance (Some [2])) true (RentNFT 10) (FixedTokens 10) (FixedTokens 10)) >> 
  ok (sg 1) (C_create_contract 1 (FixedIn 10) (AutoAcceptance (Some [2])) true (RentTokens 100) (FlexibleTokens 10) (FlexibleTokens 10)) >> 
  ok (sg 1) (C_create_contract 2 (FixedIn 10) (ManualAcceptance (Some [2])) true (RentNFT 11) (FeeNFT 5) (FeeNFT 10)) >> 
  ok (sg 1) (C_create_contract 3 (SubscriptionIn 10 (Some 100) true) (ManualAcceptance (Some [2])) true (RentTokens 100) (FixedTokens 10) (FixedTokens 10)) >> 
  ok (sg 1) (C_create_contract 4 (SubscriptionIn 10 None false) (AutoAcceptance (Some [2])) false (RentTokens 100) NoFee (FixedTokens 10)) >> 
  ok (sg 1) (C_create_contract 8 (FixedIn 10) (AutoAcceptance (Some [2])) true (RentNFT 11) (FeeNFT 9) (FeeNFT 10)) >> 
  now_ (fun s2 => chk (fun _ => (if contracts (s_rent s2) !! 0 then true else false) = true) >> 
  chk (fun _ => (if contracts (s_rent s2) !! 1 then true else false) = true) >> 
  chk (fun _ => (if contracts (s_rent s2) !! 2 then true else false) = true) >> 
  chk (fun _ => (if contracts (s_rent s2) !! 3 then true else false) = true) >> 
  chk (fun _ => (if contracts (s_rent s2) !! 4 then true else false) = true) >> 
  chk (fun _ => (if contracts (s_rent s2) !! 8 then true else false) = true) >> 
  no (sg 3) (C_make_rent_offer 2 1) (Rent_err R_NotWhitelisted) >> fin)))
  (start_with [(ALICE, 1000000); (BOB, 1000000); (CHARLIE, 1000000)]).
Proof. replay. Qed.
Example make_rent_offer_not_enough_funds_for_rent_fee : (ok (sg 1) (C_create_nft [] 0 None false) >> ok (sg 1) (C_create_nft [] 0 None false) >> ok (sg 1) (C_create_nft [] 0 None false) >> 
  ok (sg 1) (C_create_nft [] 0 None false) >> ok (sg 1) (C_create_nft [] 0 None false) >> 
  ok (sg 1) (C_create_nft [] 0 None false) >> ok (sg 1) (C_create_nft [] 0 None false) >> 
  ok (sg 1) (C_create_nft [] 0 None false) >> ok (sg 1) (C_create_nft [] 0 None false) >> 
  ok (sg 1) (C_create_nft [] 0 None false) >> ok (sg 2) (C_create_nft [] 0 None false) >> 
  ok (sg 2) (C_create_nft [] 0 None false) >> ok (sg 2) (C_create_nft [] 0 None false) >> 
  now_ (fun s1 => chk (fun _ => (if nfts (s_nft s1) !! 0 then true else false) = true) >> 
  chk (fun _ => (if nfts (s_nft s1) !! 1 then true else false) = true) >> 
  chk (fun _ => (if nfts (s_nft s1) !! 2 then true else false) = true) >> 
  chk (fun _ => (if nfts (s_nft s1) !! 3 then true else false) = true) >> 
  chk (fun _ => (if nfts (s_nft s1) !! 4 then true else false) = true) >> 
  chk (fun _ => (if nfts (s_nft s1) !! 5 then true else false) = true) >> 
  chk (fun _ => (if nfts (s_nft s1) !! 6 then true else false) = true) >> 
  chk (fun _ => (if nfts (s_nft s1) !! 7 then true else false) = true) >> 
  chk (fun _ => (if nfts (s_nft s1) !! 8 then true else false) = true) >> 
  chk (fun _ => (if nfts (s_nft s1) !! 9 then true else false) = true) >> 
  chk (fun _ => (if nfts (s_nft s1) !! 10 then true else false) = true) >> 
  chk (fun _ => (if nfts (s_nft s1) !! 11 then true else false) = true) >> 
  chk (fun _ => (if nfts (s_nft s1) !! 12 then true else false) = true) >> 
  ok (sg 1) (C_create_contract 0 (FixedIn 10) (AutoAcceptance (Some [2])) true (RentNFT 10) (FixedTokens 10) (FixedTokens 10)) >> 
  ok (sg 1) (C_create_contract 1 (FixedIn 10) (AutoAcceptance (Some [2])) true (RentTokens 100) (FlexibleTokens 10) (FlexibleTokens 10)) >> 
  ok (sg 1) (C_create_contract 2 (FixedIn 10) (ManualAcceptance (Some [2])) true (RentNFT 11) (FeeNFT 5) (FeeNFT 10)) >> 
  ok (sg 1) (C_create_contract 3 (SubscriptionIn 10 (Some 100) true) (ManualAcceptance (Some [2])) true (RentTokens 100) (FixedTokens 10) (FixedTokens 10)) >> 
  ok (sg 1) (C_create_contract 4 (SubscriptionIn 10 None false) (AutoAcceptance (Some [2])) false (RentTokens 100) NoFee (FixedTokens 10)) >> 
  ok (sg 1) (C_create_contract 8 (FixedIn 10) (AutoAcceptance (Some [2])) true (RentNFT 11) (FeeNFT 9) (FeeNFT 10)) >> 
  now_ (fun s2 => chk (fun _ => (if contracts (s_rent s2) !! 0 then true else false) = true) >> 
  chk (fun _ => (if contracts (s_rent s2) !! 1 then true else false) = true) >> 
  chk (fun _ => (if contracts (s_rent s2) !! 2 then true else false) = true) >> 
  chk (fun _ => (if contracts (s_rent s2) !! 3 then true else false) = true) >> 
  chk (fun _ => (if contracts (s_rent s2) !! 4 then true else false) = true) >> 
  chk (fun _ => (if contracts (s_rent s2) !! 8 then true else false) = true) >> ok (sg 1) (C_create_nft [] 0 None false) >> 
  now_ (fun s3 => 
  ok (sg 1) (C_create_contract ((next_nft (s_nft s3)) - 1) (FixedIn 10) (ManualAcceptance (Some [2])) true (RentTokens 100) (FixedTokens 10) (FixedTokens 10)) >> 
  set_bal 2 99 >> no (sg 2) (C_make_rent_offer ((next_nft (s_nft s3)) - 1) 1) (Rent_err R_NotEnoughFundsForRentFee) >> fin))))
  (start_with [(ALICE, 1000000); (BOB, 1000000); (CHARLIE, 1000000)]).
Proof. replay. Qed.
Example make_rent_offer_not_enough_funds_for_cancellation_fee : (ok (sg 1) (C_create_nft [] 0 None false) >> ok (sg 1) (C_create_nft [] 0 None false) >> ok (sg 1) (C_create_nft [] 0 None false) >> 
  ok (sg 1) (C_create_nft [] 0 None false) >> ok (sg 1) (C_create_nft [] 0 None false) >> 
  ok (sg 1) (C_create_nft [] 0 None false) >> ok (sg 1) (C_create_nft [] 0 None false) >> 
  ok (sg 1) (C_create_nft [] 0 None false) >> ok (sg 1) (C_create_nft [] 0 None false) >> 
  ok (sg 1) (C_create_nft [] 0 None false) >> ok (sg 2) (C_create_nft [] 0 None false) >> 
  ok (sg 2) (C_create_nft [] 0 None false) >> ok (sg 2) (C_create_nft [] 0 None false) >> 
  now_ (fun s1 => chk (fun _ => (if nfts (s_nft s1) !! 0 then true else false) = true) >> 
  chk (fun _ => (if nfts (s_nft s1) !! 1 then true else false) = true) >> 
  chk (fun _ => (if nfts (s_nft s1) !! 2 then true else false) = true) >> 
  chk (fun _ => (if nfts (s_nft s1) !! 3 then true else false) = true) >> 
  chk (fun _ => (if nfts (s_nft s1) !! 4 then true else false) = true) >> 
  chk (fun _ => (if nfts (s_nft s1) !! 5 then true else false) = true) >> 
  chk (fun _ => (if nfts (s_nft s1) !! 6 then true else false) = true) >> 
  chk (fun _ => (if nfts (s_nft s1) !! 7 then true else false) = true) >> 
  chk (fun _ => (if nfts (s_nft s1) !! 8 then true else false) = true) >> 
  chk (fun _ => (if nfts (s_nft s1) !! 9 then true else false) = true) >> 
  chk (fun _ => (if nfts (s_nft s1) !! 10 then true else false) = true) >> 
  chk (fun _ => (if nfts (s_nft s1) !! 11 then true else false) = true) >> 
  chk (fun _ => (if nfts (s_nft s1) !! 12 then true else false) = true) >> 
  ok (sg 1) (C_create_contract 0 (FixedIn 10) (AutoAcceptance (Some [2])) true (RentNFT 10) (FixedTokens 10) (FixedTokens 10)) >> 
  ok (sg 1) (C_create_contract 1 (FixedIn 10) (AutoAcceptance (Some [2])) true (RentTokens 100) (FlexibleTokens 10) (FlexibleTokens 10)) >> 
  ok (sg 1) (C_create_contract 2 (FixedIn 10) (ManualAcceptance (Some [2])) true (RentNFT 11) (FeeNFT 5) (FeeNFT 10)) >> 
  ok (sg 1) (C_create_contract 3 (SubscriptionIn 10 (Some 100) true) (ManualAcceptance (Some [2])) true (RentTokens 100) (FixedTokens 10) (FixedTokens 10)) >> 
  ok (sg 1) (C_create_contract 4 (SubscriptionIn 10 None false) (AutoAcceptance (Some [2])) false (RentTokens 100) NoFee (FixedTokens 10)) >> 
  ok (sg 1) (C_create_contract 8 (FixedIn 10) (AutoAcceptance (Some [2])) true (RentNFT 11) (FeeNFT 9) (FeeNFT 10)) >> 
  now_ (fun s2 => chk (fun _ => (if contracts (s_rent s2) !! 0 then true else false) = true) >> 
  chk (fun _ => (if contracts (s_rent s2) !! 1 then true else false) = true) >> 
  chk (fun _ => (if contracts (s_rent s2) !! 2 then true else false) = true) >> 
  chk (fun _ => (if contracts (s_rent s2) !! 3 then true else false) = true) >> 
  chk (fun _ => (if contracts (s_rent s2) !! 4 then true else false) = true) >> 
  chk (fun _ => (if contracts (s_rent s2) !! 8 then true else false) = true) >> ok (sg 1) (C_create_nft [] 0 None false) >> 
  now_ (fun s3 => 
  ok (sg 1) (C_create_contract ((next_nft (s_nft s3)) - 1) (FixedIn 10) (ManualAcceptance (Some [2])) true (RentTokens 10) (FixedTokens 100) (FixedTokens 100)) >> 
  set_bal 2 10 >> no (sg 2) (C_make_rent_offer ((next_nft (s_nft s3)) - 1) 1) (Rent_err R_NotEnoughFundsForCancellationFee) >> fin))))
  (start_with [(ALICE, 1000000); (BOB, 1000000); (CHARLIE, 1000000)]).
Proof. replay. Qed.
Example not_enough_funds_for_fees : (ok (sg 1) (C_create_nft [] 0 None false) >> ok (sg 1) (C_create_nft [] 0 None false) >> ok (sg 1) (C_create_nft [] 0 None false) >> 
  ok (sg 1) (C_create_nft [] 0 None false) >> ok (sg 1) (C_create_nft [] 0 None false) >> 
  ok (sg 1) (C_create_nft [] 0 None false) >> ok (sg 1) (C_create_nft [] 0 None false) >> 
  ok (sg 1) (C_create_nft [] 0 None false) >> ok (sg 1) (C_create_nft [] 0 None false) >> 
  ok (sg 1) (C_create_nft [] 0 None false) >> ok (sg 2) (C_create_nft [] 0 None false) >> 
  ok (sg 2) (C_create_nft [] 0 None false) >> ok (sg 2) (C_create_nft [] 0 None false) >> 
  now_ (fun s1 => chk (fun _ => (if nfts (s_nft s1) !! 0 then true else false) = true) >> 
  chk (fun _ => (if nfts (s_nft s1) !! 1 then true else false) = true) >> 
  chk (fun _ => (if nfts (s_nft s1) !! 2 then true else false) = true) >> 
  chk (fun _ => (if nfts (s_nft s1) !! 3 then true else false) = true) >> 
  chk (fun _ => (if nfts (s_nft s1) !! 4 then true else false) = true) >> 
  chk (fun _ => (if nfts (s_nft s1) !! 5 then true else false) = true) >> 
  chk (fun _ => (if nfts (s_nft s1) !! 6 then true else false) = true) >> 
  chk (fun _ => (if nfts (s_nft s1) !! 7 then true else false) = true) >> 
  chk (fun _ => (if nfts (s_nft s1) !! 8 then true else false) = true) >> 
  chk (fun _ => (if nfts (s_nft s1) !! 9 then true else false) = true) >> 
  chk (fun _ => (if nfts (s_nft s1) !! 10 then true else false) = true) >> 
  chk (fun _ => (if nfts (s_nft s1) !! 11 then true else false) = true) >> 
  chk (fun _ => (if nfts (s_nft s1) !! 12 then true else false) = true) >> 
  ok (sg 1) (C_create_contract 0 (FixedIn 10) (AutoAcceptance (Some [2])) true (RentNFT 10) (FixedTokens 10) (FixedTokens 10)) >> 
  ok (sg 1) (C_create_contract 1 (FixedIn 10) (AutoAcceptance (Some [2])) true (RentTokens 100) (FlexibleTokens 10) (FlexibleTokens 10)) >> 
  ok (sg 1) (C_create_contract 2 (FixedIn 10) (ManualAcceptance (Some [2])) true (RentNFT 11) (FeeNFT 5) (FeeNFT 10)) >> 
  ok (sg 1) (C_create_contract 3 (SubscriptionIn 10 (Some 100) true) (ManualAcceptance (Some [2])) true (RentTokens 100) (FixedTokens 10) (FixedTokens 10)) >> 
  ok (sg 1) (C_create_contract 4 (SubscriptionIn 10 None false) (AutoAcceptance (Some [2])) false (RentTokens 100) NoFee (FixedTokens 10)) >> 
  ok (sg 1) (C_create_contract 8 (FixedIn 10) (AutoAcceptance (Some [2])) true (RentNFT 11) (FeeNFT 9) (FeeNFT 10)) >> 
  now_ (fun s2 => chk (fun _ => (if contracts (s_rent s2) !! 0 then true else false) = true) >> 
  chk (fun _ => (if contracts (s_rent s2) !! 1 then true else false) = true) >> 
  chk (fun _ => (if contracts (s_rent s2) !! 2 then true else false) = true) >> 
  chk (fun _ => (if contracts (s_rent s2) !! 3 then true else false) = true) >> 
  chk (fun _ => (if contracts (s_rent s2) !! 4 then true else false) = true) >> 
  chk (fun _ => (if contracts (s_rent s2) !! 8 then true else false) = true) >> ok (sg 1) (C_create_nft [] 0 None false) >> 
  now_ (fun s3 => 
  ok (sg 1) (C_create_contract ((next_nft (s_nft s3)) - 1) (FixedIn 10) (ManualAcceptance (Some [2])) true (RentTokens 100) (FixedTokens 100) (FixedTokens 100)) >> 
  set_bal 2 100 >> no (sg 2) (C_make_rent_offer ((next_nft (s_nft s3)) - 1) 1) (Rent_err R_NotEnoughFundsForFees) >> fin))))
  (start_with [(ALICE, 1000000); (BOB, 1000000); (CHARLIE, 1000000)]).
Proof. replay. Qed.
Example caller_does_not_own_rent_nft : (ok (sg 1) (C_create_nft [] 0 None false) >> ok (sg 1) (C_create_nft [] 0 None false) >> ok (sg 1) (C_create_nft [] 0 None false) >> 
  ok (sg 1) (C_create_nft [] 0 None false) >> ok (sg 1) (C_create_nft [] 0 None false) >> 
  ok (sg 1) (C_create_nft [] 0 None false) >> ok (sg 1) (C_create_nft [] 0 None false) >> 
  ok (sg 1) (C_create_nft [] 0 None false) >> ok (sg 1) (C_create_nft [] 0 None false) >> 
  ok (sg 1) (C_create_nft [] 0 None false) >> ok (sg 2) (C_create_nft [] 0 None false) >> 
  ok (sg 2) (C_create_nft [] 0 None false) >> ok (sg 2) (C_create_nft [] 0 None false) >> 
  now_ (fun s1 => chk (fun _ => (if nfts (s_nft s1) !! 0 then true else false) = true) >> 
  chk (fun _ => (if nfts (s_nft s1) !! 1 then true else false) = true) >> 
  chk (fun _ => (if nfts (s_nft s1) !! 2 then true else false) = true) >> 
  chk (fun _ => (if nfts (s_nft s1) !! 3 then true else false) = true) >> 
  chk (fun _ => (if nfts (s_nft s1) !! 4 then true else false) = true) >> 
  chk (fun _ => (if nfts (s_nft s1) !! 5 then true else false) = true) >> 
  chk (fun _ => (if nfts (s_nft s1) !! 6 then true else false) = true) >> 
  chk (fun _ => (if nfts (s_nft s1) !! 7 then true else false) = true) >> 
  chk (fun _ => (if nfts (s_nft s1) !! 8 then true else false) = true) >> 
  chk (fun _ => (if nfts (s_nft s1) !! 9 then true else false) = true) >> 
  chk (fun _ => (if nfts (s_nft s1) !! 10 then true else false) = true) >> 
  chk (fun _ => (if nfts (s_nft s1) !! 11 then true else false) = true) >> 
  chk (fun _ => (if nfts (s_nft s1) !! 12 then true else false) = true) >> 
  ok (sg 1) (C_create_contract 0 (FixedIn 10) (AutoAcceptance (Some [2])) true (RentNFT 10) (FixedTokens 10) (FixedTokens 10)) >> 
  ok (sg 1) (C_create_contract 1 (FixedIn 10) (AutoAcceptance (Some [2])) true (RentTokens 100) (FlexibleTokens 10) (FlexibleTokens 10)) >> 
  ok (sg 1) (C_create_contract 2 (FixedIn 10) (ManualAcceptance (Some [2])) true (RentNFT 11) (FeeNFT 5) (FeeNFT 10)) >> 
  ok (sg 1) (C_create_contract 3 (SubscriptionIn 10 (Some 100) true) (ManualAcceptance (Some [2])) true (RentTokens 100) (FixedTokens 10) (FixedTokens 10)) >> 
  ok (sg 1) (C_create_contract 4 (SubscriptionIn 10 None false) (AutoAcceptance (Some [2])) false (RentTokens 100) NoFee (FixedTokens 10)) >> 
  ok (sg 1) (C_create_contract 8 (FixedIn 10) (AutoAcceptance (Some [2])) true (RentNFT 11) (FeeNFT 9) (FeeNFT 10)) >> 
  now_ (fun s2 => chk (fun _ => (if contracts (s_rent s2) !! 0 then true else false) = true) >> 
  chk (fun _ => (if contracts (s_rent s2) !! 1 then true else false) = true) >> 
  chk (fun _ => (if contracts (s_rent s2) !! 2 then true else false) = true) >> 
  chk (fun _ => (if contracts (s_rent s2) !! 3 then true else false) = true) >> 
  chk (fun _ => (if contracts (s_rent s2) !! 4 then true else false) = true) >> 
  chk (fun _ => (if contracts (s_rent s2) !! 8 then true else false) = true) >> 
  chk (fun _ => (if nfts (s_nft s2) !! 11 then true else false) = true) >> 
  edit 11 (fun _ => (default dnft (nfts (s_nft s2) !! 11)) <| owner := 1 |>) >> 
  no (sg 2) (C_make_rent_offer 2 1) (Rent_err R_CallerDoesNotOwnRentNFT) >> fin)))
  (start_with [(ALICE, 1000000); (BOB, 1000000); (CHARLIE, 1000000)]).
Proof. replay. Qed.
Example rent_nft_not_in_valid_state : (ok (sg 1) (C_create_nft [] 0 None false) >> ok (sg 1) (C_create_nft [] 0 None false) >> ok (sg 1) (C_create_nft [] 0 None false) >> 
  ok (sg 1) (C_create_nft [] 0 None false) >> ok (sg 1) (C_create_nft [] 0 None false) >> 
  ok (sg 1) (C_create_nft [] 0 None false) >> ok (sg 1) (C_create_nft [] 0 None false) >> 
  ok (sg 1) (C_create_nft [] 0 None false) >> ok (sg 1) (C_create_nft [] 0 None false) >> 
  ok (sg 1) (C_create_nft [] 0 None false) >> ok (sg 2) (C_create_nft [] 0 None false) >> 
  ok (sg 2) (C_create_nft [] 0 None false) >> ok (sg 2) (C_create_nft [] 0 None false) >> 
  now_ (fun s1 => chk (fun _ => (if nfts (s_nft s1) !! 0 then true else false) = true) >> 
  chk (fun _ => (if nfts (s_nft s1) !! 1 then true else false) = true) >> 
  chk (fun _ => (if nfts (s_nft s1) !! 2 then true else false) = true) >> 
  chk (fun _ => (if nfts (s_nft s1) !! 3 then true else false) = true) >> 
  chk (fun _ => (if nfts (s_nft s1) !! 4 then true else false) = true) >> 
  chk (fun _ => (if nfts (s_nft s1) !! 5 then true else false) = true) >> 
  chk (fun _ => (if nfts (s_nft s1) !! 6 then true else false) = true) >> 
  chk (fun _ => (if nfts (s_nft s1) !! 7 then true else false) = true) >> 
  chk (fun _ => (if nfts (s_nft s1) !! 8 then true else false) = true) >> 
  chk (fun _ => (if nfts (s_nft s1) !! 9 then true else false) = true) >> 
  chk (fun _ => (if nfts (s_nft s1) !! 10 then true else false) = true) >> 
  chk (fun _ => (if nfts (s_nft s1) !! 11 then true else false) = true) >> 
  chk (fun _ => (if nfts (s_nft s1) !! 12 then true else false) = true) >> 
  ok (sg 1) (C_create_contract 0 (FixedIn 10) (AutoAcceptance (Some [2])) true (RentNFT 10) (FixedTokens 10) (FixedTokens 10)) >> 
  ok (sg 1) (C_create_contract 1 (FixedIn 10) (AutoAcceptance (Some [2])) true (RentTokens 100) (FlexibleTokens 10) (FlexibleTokens 10)) >> 
  ok (sg 1) (C_create_contract 2 (FixedIn 10) (ManualAcceptance (Some [2])) true (RentNFT 11) (FeeNFT 5) (FeeNFT 10)) >> 
  ok (sg 1) (C_create_contract 3 (SubscriptionIn 10 (Some 100) true) (ManualAcceptance (Some [2])) true (RentTokens 100) (FixedTokens 10) (FixedTokens 10)) >> 
  ok (sg 1) (C_create_contract 4 (SubscriptionIn 10 None false) (AutoAcceptance (Some [2])) false (RentTokens 100) NoFee (FixedTokens 10)) >> 
  ok (sg 1) (C_create_contract 8 (FixedIn 10) (AutoAcceptance (Some [2])) true (RentNFT 11) (FeeNFT 9) (FeeNFT 10)) >> 
  now_ (fun s2 => chk (fun _ => (if contracts (s_rent s2) !! 0 then true else false) = true) >> 
  chk (fun _ => (if contracts (s_rent s2) !! 1 then true else false) = true) >> 
  chk (fun _ => (if contracts (s_rent s2) !! 2 then true else false) = true) >> 
  chk (fun _ => (if contracts (s_rent s2) !! 3 then true else false) = true) >> 
  chk (fun _ => (if contracts (s_rent s2) !! 4 then true else false) = true) >> 
  chk (fun _ => (if contracts (s_rent s2) !! 8 then true else false) = true) >> 
  chk (fun _ => (if nfts (s_nft s2) !! 11 then true else false) = true) >> 
  edit 11 (fun _ => (default dnft (nfts (s_nft s2) !! 11)) <| nstate := (nstate (default dnft (nfts (s_nft s2) !! 11))) <| is_listed := true |> |>) >> 
  no (sg 2) (C_make_rent_offer 2 1) (Rent_err R_RentNFTNotInValidState) >> fin)))
  (start_with [(ALICE, 1000000); (BOB, 1000000); (CHARLIE, 1000000)]).
Proof. replay. Qed.
Example make_rent_offer_caller_does_not_own_cancellation_nft : (ok (sg 1) (C_create_nft [] 0 None false) >> ok (sg 1) (C_create_nft [] 0 None false) >> ok (sg 1) (C_create_nft [] 0 None false) >> 
  ok (sg 1) (C_create_nft [] 0 None false) >> ok (sg 1) (C_create_nft [] 0 None false) >> 
  ok (sg 1) (C_create_nft [] 0 None false) >> ok (sg 1) (C_create_nft [] 0 None false) >> 
  ok (sg 1) (C_create_nft [] 0 None false) >> ok (sg 1) (C_create_nft [] 0 None false) >> 
  ok (sg 1) (C_create_nft [] 0 None false) >> ok (sg 2) (C_create_nft [] 0 None false) >> 
  ok (sg 2) (C_create_nft [] 0 None false) >> ok (sg 2) (C_create_nft [] 0 None false) >> 
  now_ (fun s1 => chk (fun _ => (if nfts (s_nft s1) !! 0 then true else false) = true) >> 
  chk (fun _ => (if nfts (s_nft s1) !! 1 then true else false) = true) >> 
  chk (fun _ => (if nfts (s_nft s1) !! 2 then true else false) = true) >> 
  chk (fun _ => (if nfts (s_nft s1) !! 3 then true else false) = true) >> 
  chk (fun _ => (if nfts (s_nft s1) !! 4 then true else false) = true) >> 
  chk (fun _ => (if nfts (s_nft s1) !! 5 then true else false) = true) >> 
  chk (fun _ => (if nfts (s_nft s1) !! 6 then true else false) = true) >> 
  chk (fun _ => (if nfts (s_nft s1) !! 7 then true else false) = true) >> 
  chk (fun _ => (if nfts (s_nft s1) !! 8 then true else false) = true) >> 
  chk (fun _ => (if nfts (s_nft s1) !! 9 then true else false) = true) >> 
  chk (fun _ => (if nfts (s_nft s1) !! 10 then true else false) = true) >> 
  chk (fun _ => (if nfts (s_nft s1) !! 11 then true else false) = true) >> 
  chk (fun _ => (if nfts (s_nft s1) !! 12 then true else false) = true) >> 
  ok (sg 1) (C_create_contract 0 (FixedIn 10) (AutoAcceptance (Some [2])) true (RentNFT 10) (FixedTokens 10) (FixedTokens 10)) >> 
  ok (sg 1) (C_create_contract 1 (FixedIn 10) (AutoAcceptance (Some [2])) true (RentTokens 100) (FlexibleTokens 10) (FlexibleTokens 10)) >> 
  ok (sg 1) (C_create_contract 2 (FixedIn 10) (ManualAcceptance (Some [2])) true (RentNFT 11) (FeeNFT 5) (FeeNFT 10)) >> 
  ok (sg 1) (C_create_contract 3 (SubscriptionIn 10 (Some 100) true) (ManualAcceptance (Some [2])) true (RentTokens 100) (FixedTokens 10) (FixedTokens 10)) >> 
  ok (sg 1) (C_create_contract 4 (SubscriptionIn 10 None false) (AutoAcceptance (Some [2])) false (RentTokens 100) NoFee (FixedTokens 10)) >> 
  ok (sg 1) (C_create_contract 8 (FixedIn 10) (AutoAcceptance (Some [2])) true (RentNFT 11) (FeeNFT 9) (FeeNFT 10)) >> 
  now_ (fun s2 => chk (fun _ => (if contracts (s_rent s2) !! 0 then true else false) = true) >> 
  chk (fun _ => (if contracts (s_rent s2) !! 1 then true else false) = true) >> 
  chk (fun _ => (if contracts (s_rent s2) !! 2 then true else false) = true) >> 
  chk (fun _ => (if contracts (s_rent s2) !! 3 then true else false) = true) >> 
  chk (fun _ => (if contracts (s_rent s2) !! 4 then true else false) = true) >> 
  chk (fun _ => (if contracts (s_rent s2) !! 8 then true else false) = true) >> 
  chk (fun _ => (if nfts (s_nft s2) !! 10 then true else false) = true) >> 
  edit 10 (fun _ => (default dnft (nfts (s_nft s2) !! 10)) <| owner := 1 |>) >> 
  no (sg 2) (C_make_rent_offer 2 1) (Rent_err R_CallerDoesNotOwnCancellationNFT) >> fin)))
  (start_with [(ALICE, 1000000); (BOB, 1000000); (CHARLIE, 1000000)]).
Proof. replay. Qed.
Example make_rent_offer_cancellation_nft_not_in_valid_state : (ok (sg 1) (C_create_nft [] 0 None false) >> ok (sg 1) (C_create_nft [] 0 None false) >> ok (sg 1) (C_create_nft [] 0 None false) >> 
  ok (sg 1) (C_create_nft [] 0 None false) >> ok (sg 1) (C_create_nft [] 0 None false) >> 
  ok (sg 1) (C_create_nft [] 0 None false) >> ok (sg 1) (C_create_nft [] 0 None false) >> 
  ok (sg 1) (C_create_nft [] 0 None false) >> ok (sg 1) (C_create_nft [] 0 None false) >> 
  ok (sg 1) (C_create_nft [] 0 None false) >> ok (sg 2) (C_create_nft [] 0 None false) >> 
  ok (sg 2) (C_create_nft [] 0 None false) >> ok (sg 2) (C_create_nft [] 0 None false) >> 
  now_ (fun s1 => chk (fun _ => (if nfts (s_nft s1) !! 0 then true else false) = true) >> 
  chk (fun _ => (if nfts (s_nft s1) !! 1 then true else false) = true) >> 
  chk (fun _ => (if nfts (s_nft s1) !! 2 then true else false) = true) >> 
  chk (fun _ => (if nfts (s_nft s1) !! 3 then true else false) = true) >> 
  chk (fun _ => (if nfts (s_nft s1) !! 4 then true else false) = true) >> 
  chk (fun _ => (if nfts (s_nft s1) !! 5 then true else false) = true) >> 
  chk (fun _ => (if nfts (s_nft s1) !! 6 then true else false) = true) >> 
  chk (fun _ => (if nfts (s_nft s1) !! 7 then true else false) = true) >> 
  chk (fun _ => (if nfts (s_nft s1) !! 8 then true else false) = true) >> 
  chk (fun _ => (if nfts (s_nft s1) !! 9 then true else false) = true) >> 
  chk (fun _ => (if nfts (s_nft s1) !! 10 then true else false) = true) >> 
  chk (fun _ => (if nfts (s_nft s1) !! 11 then true else false) = true) >> 
  chk (fun _ => (if nfts (s_nft s1) !! 12 then true else false) = true) >> 
  ok (sg 1) (C_create_contract 0 (FixedIn 10) (AutoAcceptance (Some [2])) true (RentNFT 10) (FixedTokens 10) (FixedTokens 10)) >> 
  ok (sg 1) (C_create_contract 1 (FixedIn 10) (AutoAcceptance (Some [2])) true (RentTokens 100) (FlexibleTokens 10) (FlexibleTokens 10)) >> 
  ok (sg 1) (C_create_contract 2 (FixedIn 10) (ManualAcceptance (Some [2])) true (RentNFT 11) (FeeNFT 5) (FeeNFT 10)) >> 
  ok (sg 1) (C_create_contract 3 (SubscriptionIn 10 (Some 100) true) (ManualAcceptance (Some [2])) true (RentTokens 100) (FixedTokens 10) (FixedTokens 10)) >> 
  ok (sg 1) (C_create_contract 4 (SubscriptionIn 10 None false) (AutoAcceptance (Some [2])) false (RentTokens 100) NoFee (FixedTokens 10)) >> 
  ok (sg 1) (C_create_contract 8 (FixedIn 10) (AutoAcceptance (Some [2])) true (RentNFT 11) (FeeNFT 9) (FeeNFT 10)) >> 
  now_ (fun s2 => chk (fun _ => (if contracts (s_rent s2) !! 0 then true else false) = true) >> 
  chk (fun _ => (if contracts (s_rent s2) !! 1 then true else false) = true) >> 
  chk (fun _ => (if contracts (s_rent s2) !! 2 then true else false) = true) >> 
  chk (fun _ => (if contracts (s_rent s2) !! 3 then true else false) = true) >> 
  chk (fun _ => (if contracts (s_rent s2) !! 4 then true else false) = true) >> 
  chk (fun _ => (if contracts (s_rent s2) !! 8 then true else false) = true) >> 
  chk (fun _ => (if nfts (s_nft s2) !! 10 then true else false) = true) >> 
  edit 10 (fun _ => (default dnft (nfts (s_nft s2) !! 10)) <| nstate := (nstate (default dnft (nfts (s_nft s2) !! 10))) <| is_listed := true |> |>) >> 
  no (sg 2) (C_make_rent_offer 2 1) (Rent_err R_CancellationNFTNotInValidState) >> fin)))
  (start_with [(ALICE, 1000000); (BOB, 1000000); (CHARLIE, 1000000)]).
Proof. replay. Qed.
Example make_rent_offer_contract_does_not_match : (ok (sg 1) (C_create_nft [] 0 None false) >> ok (sg 1) (C_create_nft [] 0 None false) >> ok (sg 1) (C_create_nft [] 0 None false) >> 
  ok (sg 1) (C_create_nft [] 0 None false) >> ok (sg 1) (C_create_nft [] 0 None false) >> 
  ok (sg 1) (C_create_nft [] 0 None false) >> ok (sg 1) (C_create_nft [] 0 None false) >> 
  ok (sg 1) (C_create_nft [] 0 None false) >> ok (sg 1) (C_create_nft [] 0 None false) >> 
  ok (sg 1) (C_create_nft [] 0 None false) >> ok (sg 2) (C_create_nft [] 0 None false) >> 
  ok (sg 2) (C_create_nft [] 0 None false) >> ok (sg 2) (C_create_nft [] 0 None false) >> 
  now_ (fun s1 => chk (fun _ => (if nfts (s_nft s1) !! 0 then true else false) = true) >> 
  chk (fun _ => (if nfts (s_nft s1) !! 1 then true else false) = true) >> 
  chk (fun _ => (if nfts (s_nft s1) !! 2 then true else false) = true) >> 
  chk (fun _ => (if nfts (s_nft s1) !! 3 then true else false) = true) >> 
  chk (fun _ => (if nfts (s_nft s1) !! 4 then true else false) = true) >> 
  chk (fun _ => (if nfts (s_nft s1) !! 5 then true else false) = true) >> 
  chk (fun _ => (if nfts (s_nft s1) !! 6 then true else false) = true) >> 
  chk (fun _ => (if nfts (s_nft s1) !! 7 then true else false) = true) >> 
  chk (fun _ => (if nfts (s_nft s1) !! 8 then true else false) = true) >> 
  chk (fun _ => (if nfts (s_nft s1) !! 9 then true else false) = true) >> 
  chk (fun _ => (if nfts (s_nft s1) !! 10 then true else false) = true) >> 
  chk (fun _ => (if nfts (s_nft s1) !! 11 then true else false) = true) >> 
  chk (fun _ => (if nfts (s_nft s1) !! 12 then true else false) = true) >> 
  ok (sg 1) (C_create_contract 0 (FixedIn 10) (AutoAcceptance (Some [2])) true (RentNFT 10) (FixedTokens 10) (FixedTokens 10)) >> 
  ok (sg 1) (C_create_contract 1 (FixedIn 10) (AutoAcceptance (Some [2])) true (RentTokens 100) (FlexibleTokens 10) (FlexibleTokens 10)) >> 
  ok (sg 1) (C_create_contract 2 (FixedIn 10) (ManualAcceptance (Some [2])) true (RentNFT 11) (FeeNFT 5) (FeeNFT 10)) >> 
  ok (sg 1) (C_create_contract 3 (SubscriptionIn 10 (Some 100) true) (ManualAcceptance (Some [2])) true (RentTokens 100) (FixedTokens 10) (FixedTokens 10)) >> 
  ok (sg 1) (C_create_contract 4 (SubscriptionIn 10 None false) (AutoAcceptance (Some [2])) false (RentTokens 100) NoFee (FixedTokens 10)) >> 
  ok (sg 1) (C_create_contract 8 (FixedIn 10) (AutoAcceptance (Some [2])) true (RentNFT 11) (FeeNFT 9) (FeeNFT 10)) >> 
  now_ (fun s2 => chk (fun _ => (if contracts (s_rent s2) !! 0 then true else false) = true) >> 
  chk (fun _ => (if contracts (s_rent s2) !! 1 then true else false) = true) >> 
  chk (fun _ => (if contracts (s_rent s2) !! 2 then true else false) = true) >> 
  chk (fun _ => (if contracts (s_rent s2) !! 3 then true else false) = true) >> 
  chk (fun _ => (if contracts (s_rent s2) !! 4 then true else false) = true) >> 
  chk (fun _ => (if contracts (s_rent s2) !! 8 then true else false) = true) >> 
  no (sg 2) (C_make_rent_offer 4 2) (Rent_err R_ContractDoesNotMatch) >> fin)))
  (start_with [(ALICE, 1000000); (BOB, 1000000); (CHARLIE, 1000000)]).
Proof. replay. Qed.

(** * extrinsics, accept_rent_offer *)
Example accept_rent_offer : (ok (sg 1) (C_create_nft [] 0 None false) >> ok (sg 1) (C_create_nft [] 0 None false) >> ok (sg 1) (C_create_nft [] 0 None false) >> 
  ok (sg 1) (C_create_nft [] 0 None false) >> ok (sg 1) (C_create_nft [] 0 None false) >> 
  ok (sg 1) (C_create_nft [] 0 None false) >> ok (sg 1) (C_create_nft [] 0 None false) >> 
  ok (sg 1) (C_create_nft [] 0 None false) >> ok (sg 1) (C_create_nft [] 0 None false) >> 
  ok (sg 1) (C_create_nft [] 0 None false) >> ok (sg 2) (C_create_nft [] 0 None false) >> 
  ok (sg 2) (C_create_nft [] 0 None false) >> ok (sg 2) (C_create_nft [] 0 None false) >> 
  now_ (fun s1 => chk (fun _ => (if nfts (s_nft s1) !! 0 then true else false) = true) >> 
  chk (fun _ => (if nfts (s_nft s1) !! 1 then true else false) = true) >> 
  chk (fun _ => (if nfts (s_nft s1) !! 2 then true else false) = true) >> 
  chk (fun _ => (if nfts (s_nft s1) !! 3 then true else false) = true) >> 
  chk (fun _ => (if nfts (s_nft s1) !! 4 then true else false) = true) >> 
  chk (fun _ => (if nfts (s_nft s1) !! 5 then true else false) = true) >> 
  chk (fun _ => (if nfts (s_nft s1) !! 6 then true else false) = true) >> 
  chk (fun _ => (if nfts (s_nft s1) !! 7 then true else false) = true) >> 
  chk (fun _ => (if nfts (s_nft s1) !! 8 then true else false) = true) >> 
  chk (fun _ => (if nfts (s_nft s1) !! 9 then true else false) = true) >> 
  chk (fun _ => (if nfts (s_nft s1) !! 10 then true else false) = true) >> 
  chk (fun _ => (if nfts (s_nft s1) !! 11 then true else false) = true) >> 
  chk (fun _ => (if nfts (s_nft s1) !! 12 then true else false) = true) >> 
  ok (sg 1) (C_create_contract 0 (FixedIn 10) (AutoAcceptance (Some [2])) true (RentNFT 10) (FixedTokens 10) (FixedTokens 10)) >> 
  ok (sg 1) (C_create_contract 1 (FixedIn 10) (AutoAcceptance (Some [2])) true (RentTokens 100) (FlexibleTokens 10) (FlexibleTokens 10)) >> 
  ok (sg 1) (C_create_contract 2 (FixedIn 10) (ManualAcceptance (Some [2])) true (RentNFT 11) (FeeNFT 5) (FeeNFT 10)) >> 
  ok (sg 1) (C_create_contract 3 (SubscriptionIn 10 (Some 100) true) (ManualAcceptance (Some [2])) true (RentTokens 100) (FixedTokens 10) (FixedTokens 10)) >> 
  ok (sg 1) (C_create_contract 4 (SubscriptionIn 10 None false) (AutoAcceptance (Some [2])) false (RentTokens 100) NoFee (FixedTokens 10)) >> 
  ok (sg 1) (C_create_contract 8 (FixedIn 10) (AutoAcceptance (Some [2])) true (RentNFT 11) (FeeNFT 9) (FeeNFT 10)) >> 
  now_ (fun s2 => chk (fun _ => (if contracts (s_rent s2) !! 0 then true else false) = true) >> 
  chk (fun _ => (if contracts (s_rent s2) !! 1 then true else false) = true) >> 
  chk (fun _ => (if contracts (s_rent s2) !! 2 then true else false) = true) >> 
  chk (fun _ => (if contracts (s_rent s2) !! 3 then true else false) = true) >> 
  chk (fun _ => (if contracts (s_rent s2) !! 4 then true else false) = true) >> 
  chk (fun _ => (if contracts (s_rent s2) !! 8 then true else false) = true) >> ok (sg 2) (C_make_rent_offer 3 1) >> 
  now_ (fun s3 => ok (sg 1) (C_accept_rent_offer 3 2) >> 
  now_ (fun s4 => chk (fun _ => (if nfts (s_nft s4) !! 3 then true else false) = true) >> 
  chk (fun _ => (if contracts (s_rent s4) !! 3 then true else false) = true) >> 
  chk (fun _ => (r_rentee (default dcontract (contracts (s_rent s4) !! 3))) = (Some 2)) >> 
  chk (fun _ => (if r_start (default dcontract (contracts (s_rent s4) !! 3)) then true else false) = true) >> 
  chk (fun _ => (if q_get 3 (q_avail (queues (s_rent s4))) then false else true) = true) >> 
  chk (fun _ => (if q_get 3 (q_sub (queues (s_rent s4))) then true else false) = true) >> 
  chk (fun _ => (is_rented (nstate (default dnft (nfts (s_nft s4) !! 3)))) = true) >> 
  chk (fun _ => (bal 1 s4) = ((bal 1 s3) + 100)) >> chk (fun _ => (bal 2 s4) = (((bal 2 s3) - 100) - 10)) >> 
  last_ (Ev_ContractStarted 3 2) >> fin)))))
  (start_with [(ALICE, 1000000); (BOB, 1000000); (CHARLIE, 1000000)]).
Proof. replay. Qed.
Example accept_rent_offer_contract_not_found : (ok (sg 1) (C_create_nft [] 0 None false) >> ok (sg 1) (C_create_nft [] 0 None false) >> ok (sg 1) (C_create_nft [] 0 None false) >> 
  ok (sg 1) (C_create_nft [] 0 None false) >> ok (sg 1) (C_create_nft [] 0 None false) >> 
  ok (sg 1) (C_create_nft [] 0 None false) >> ok (sg 1) (C_create_nft [] 0 None false) >> 
  ok (sg 1) (C_create_nft [] 0 None false) >> ok (sg 1) (C_create_nft [] 0 None false) >> 
  ok (sg 1) (C_create_nft [] 0 None false) >> ok (sg 2) (C_create_nft [] 0 None false) >> 
  ok (sg 2) (C_create_nft [] 0 None false) >> ok (sg 2) (C_create_nft [] 0 None false) >> 
  now_ (fun s1 => chk (fun _ => (if nfts (s_nft s1) !! 0 then true else false) = true) >> 
  chk (fun _ => (if nfts (s_nft s1) !! 1 then true else false) = true) >> 
  chk (fun _ => (if nfts (s_nft s1) !! 2 then true else false) = true) >> 
  chk (fun _ => (if nfts (s_nft s1) !! 3 then true else false) = true) >> 
  chk (fun _ => (if nfts (s_nft s1) !! 4 then true else false) = true) >> 
  chk (fun _ => (if nfts (s_nft s1) !! 5 then true else false) = true) >> 
  chk (fun _ => (if nfts (s_nft s1) !! 6 then true else false) = true) >> 
  chk (fun _ => (if nfts (s_nft s1) !! 7 then true else false) = true) >> 
  chk (fun _ => (if nfts (s_nft s1) !! 8 then true else false) = true) >> 
  chk (fun _ => (if nfts (s_nft s1) !! 9 then true else false) = true) >> 
  chk (fun _ => (if nfts (s_nft s1) !! 10 then true else false) = true) >> 
  chk (fun _ => (if nfts (s_nft s1) !! 11 then true else false) = true) >> 
  chk (fun _ => (if nfts (s_nft s1) !! 12 then true else false) = true) >> 
  ok (sg 1) (C_create_contract 0 (FixedIn 10) (AutoAcceptance (Some [2])) true (RentNFT 10) (FixedTokens 10) (FixedTokens 10)) >> 
  ok (sg 1) (C_create_contract 1 (FixedIn 10) (AutoAcceptance (Some [2])) true (RentTokens 100) (FlexibleTokens 10) (FlexibleTokens 10)) >> 
  ok (sg 1) (C_create_contract 2 (FixedIn 10) (ManualAcceptance (Some [2])) true (RentNFT 11) (FeeNFT 5) (FeeNFT 10)) >> 
  ok (sg 1) (C_create_contract 3 (SubscriptionIn 10 (Some 100) true) (ManualAcceptance (Some [2])) true (RentTokens 100) (FixedTokens 10) (FixedTokens 10)) >> 
  ok (sg 1) (C_create_contract 4 (SubscriptionIn 10 None false) (AutoAcceptance (Some [2])) false (RentTokens 100) NoFee (FixedTokens 10)) >> 
  ok (sg 1) (C_create_contract 8 (FixedIn 10) (AutoAcceptance (Some [2])) true (RentNFT 11) (FeeNFT 9) (FeeNFT 10)) >> 
  now_ (fun s2 => chk (fun _ => (if contracts (s_rent s2) !! 0 then true else false) = true) >> 
  chk (fun _ => (if contracts (s_rent s2) !! 1 then true else false) = true) >> 
  chk (fun _ => (if contracts (s_rent s2) !! 2 then true else false) = true) >> 
  chk (fun _ => (if contracts (s_rent s2) !! 3 then true else false) = true) >> 
  chk (fun _ => (if contracts (s_rent s2) !! 4 then true else false) = true) >> 
  chk (fun _ => (if contracts (s_rent s2) !! 8 then true else false) = true) >> 
  no (sg 1) (C_accept_rent_offer 99 2) (Rent_err R_ContractNotFound) >> fin)))
  (start_with [(ALICE, 1000000); (BOB, 1000000); (CHARLIE, 1000000)]).
Proof. replay. Qed.
Example no_offers_for_this_contract : (ok (sg 1) (C_create_nft [] 0 None false) >> ok (sg 1) (C_create_nft [] 0 None false) >> ok (sg 1) (C_create_nft [] 0 None false) >> 
  ok (sg 1) (C_create_nft [] 0 None false) >> ok (sg 1) (C_create_nft [] 0 None false) >> 
  ok (sg 1) (C_create_nft [] 0 None false) >> ok (sg 1) (C_create_nft [] 0 None false) >> 
  ok (sg 1) (C_create_nft [] 0 None false) >> ok (sg 1) (C_create_nft [] 0 None false) >> 
  ok (sg 1) (C_create_nft [] 0 None false) >> ok (sg 2) (C_create_nft [] 0 None false) >> 
  ok (sg 2) (C_create_nft [] 0 None false) >> ok (sg 2) (C_create_nft [] 0 None false) >> 
  now_ (fun s1 => chk (fun _ => (if nfts (s_nft s1) !! 0 then true else false) = true) >> 
  chk (fun _ => (if nfts (s_nft s1) !! 1 then true else false) = true) >> 
  chk (fun _ => (if nfts (s_nft s1) !! 2 then true else false) = true) >> 
  chk (fun _ => (if nfts (s_nft s1) !! 3 then true else false) = true) >> 
  chk (fun _ => (if nfts (s_nft s1) !! 4 then true else false) = true) >> 
  chk (fun _ => (if nfts (s_nft s1) !! 5 then true else false) = true) >> 
  chk (fun _ => (if nfts (s_nft s1) !! 6 then true else false) = true) >> 
  chk (fun _ => (if nfts (s_nft s1) !! 7 then true else false) = true) >> 
  chk (fun _ => (if nfts (s_nft s1) !! 8 then true else false) = true) >> 
  chk (fun _ => (if nfts (s_nft s1) !! 9 then true else false) = true) >> 
  chk (fun _ => (if nfts (s_nft s1) !! 10 then true else false) = true) >> 
  chk (fun _ => (if nfts (s_nft s1) !! 11 then true else false) = true) >> 
  chk (fun _ => (if nfts (s_nft s1) !! 12 then true else false) = true) >> 
  ok (sg 1) (C_create_contract 0 (FixedIn 10) (AutoAcceptance (Some [2])) true (RentNFT 10) (FixedTokens 10) (FixedTokens 10)) >> 
  ok (sg 1) (C_create_contract 1 (FixedIn 10) (AutoAcceptance (Some [2])) true (RentTokens 100) (FlexibleTokens 10) (FlexibleTokens 10)) >> 
  ok (sg 1) (C_create_contract 2 (FixedIn 10) (ManualAcceptance (Some [2])) true (RentNFT 11) (FeeNFT 5) (FeeNFT 10)) >> 
  ok (sg 1) (C_create_contract 3 (SubscriptionIn 10 (Some 100) true) (ManualAcceptance (Some [2])) true (RentTokens 100) (FixedTokens 10) (FixedTokens 10)) >> 
  ok (sg 1) (C_create_contract 4 (SubscriptionIn 10 None false) (AutoAcceptance (Some [2])) false (RentTokens 100) NoFee (FixedTokens 10)) >> 
  ok (sg 1) (C_create_contract 8 (FixedIn 10) (AutoAcceptance (Some [2])) true (RentNFT 11) (FeeNFT 9) (FeeNFT 10)) >> 
  now_ (fun s2 => chk (fun _ => (if contracts (s_rent s2) !! 0 then true else false) = true) >> 
  chk (fun _ => (if contracts (s_rent s2) !! 1 then true else false) = true) >> 
  chk (fun _ => (if contracts (s_rent s2) !! 2 then true else false) = true) >> 
  chk (fun _ => (if contracts (s_rent s2) !! 3 then true else false) = true) >> 
  chk (fun _ => (if contracts (s_rent s2) !! 4 then true else false) = true) >> 
  chk (fun _ => (if contracts (s_rent s2) !! 8 then true else false) = true) >> 
  no (sg 1) (C_accept_rent_offer 2 2) (Rent_err R_NoOffersForThisContract) >> fin)))
  (start_with [(ALICE, 1000000); (BOB, 1000000); (CHARLIE, 1000000)]).
Proof. replay. Qed.
Example accept_rent_offer_not_enough_funds_for_rent_fee : (ok (sg 1) (C_create_nft [] 0 None false) >> ok (sg 1) (C_create_nft [] 0 None false) >> ok (sg 1) (C_create_nft [] 0 None false) >> 
  ok (sg 1) (C_create_nft [] 0 None false) >> ok (sg 1) (C_create_nft [] 0 None false) >> 
  ok (sg 1) (C_create_nft [] 0 None false) >> ok (sg 1) (C_create_nft [] 0 None false) >> 
  ok (sg 1) (C_create_nft [] 0 None false) >> ok (sg 1) (C_create_nft [] 0 None false) >> 
  ok (sg 1) (C_create_nft [] 0 None false) >> ok (sg 2) (C_create_nft [] 0 None false) >> 
  ok (sg 2) (C_create_nft [] 0 None false) >> ok (sg 2) (C_create_nft [] 0 None false) >> 
  now_ (fun s1 => chk (fun _ => (if nfts (s_nft s1) !! 0 then true else false) = true) >> 
  chk (fun _ => (if nfts (s_nft s1) !! 1 then true else false) = true) >> 
  chk (fun _ => (if nfts (s_nft s1) !! 2 then true else false) = true) >> 
  chk (fun _ => (if nfts (s_nft s1) !! 3 then true else false) = true) >> 
  chk (fun _ => (if nfts (s_nft s1) !! 4 then true else false) = true) >> 
  chk (fun _ => (if nfts (s_nft s1) !! 5 then true else false) = true) >> 
  chk (fun _ => (if nfts (s_nft s1) !! 6 then true else false) = true) >> 
  chk (fun _ => (if nfts (s_nft s1) !! 7 then true else false) = true) >> 
  chk (fun _ => (if nfts (s_nft s1) !! 8 then true else false) = true) >> 
  chk (fun _ => (if nfts (s_nft s1) !! 9 then true else false) = true) >> 
  chk (fun _ => (if nfts (s_nft s1) !! 10 then true else false) = true) >> 
  chk (fun _ => (if nfts (s_nft s1) !! 11 then true else false) = true) >> 
  chk (fun _ => (if nfts (s_nft s1) !! 12 then true else false) = true) >> 
  ok (sg 1) (C_create_contract 0 (FixedIn 10) (AutoAcceptance (Some [2])) true (RentNFT 10) (FixedTokens 10) (FixedTokens 10)) >> 
  ok (sg 1) (C_create_contract 1 (FixedIn 10) (AutoAcceptance (Some [2])) true (RentTokens 100) (FlexibleTokens 10) (FlexibleTokens 10)) >> 
  ok (sg 1) (C_create_contract 2 (FixedIn 10) (ManualAcceptance (Some [2])) true (RentNFT 11) (FeeNFT 5) (FeeNFT 10)) >> 
  ok (sg 1) (C_create_contract 3 (SubscriptionIn 10 (Some 100) true) (ManualAcceptance (Some [2])) true (RentTokens 100) (FixedTokens 10) (FixedTokens 10)) >> 
  ok (sg 1) (C_create_contract 4 (SubscriptionIn 10 None false) (AutoAcceptance (Some [2])) false (RentTokens 100) NoFee (FixedTokens 10)) >> 
  ok (sg 1) (C_create_contract 8 (FixedIn 10) (AutoAcceptance (Some [2])) true (RentNFT 11) (FeeNFT 9) (FeeNFT 10)) >> 
  now_ (fun s2 => chk (fun _ => (if contracts (s_rent s2) !! 0 then true else false) = true) >> 
  chk (fun _ => (if contracts (s_rent s2) !! 1 then true else false) = true) >> 
  chk (fun _ => (if contracts (s_rent s2) !! 2 then true else false) = true) >> 
  chk (fun _ => (if contracts (s_rent s2) !! 3 then true else false) = true) >> 
  chk (fun _ => (if contracts (s_rent s2) !! 4 then true else false) = true) >> 
  chk (fun _ => (if contracts (s_rent s2) !! 8 then true else false) = true) >> ok (sg 2) (C_make_rent_offer 3 1) >> set_bal 2 0 >> 
  no (sg 1) (C_accept_rent_offer 3 2) (Rent_err R_NotEnoughFundsForRentFee) >> fin)))
  (start_with [(ALICE, 1000000); (BOB, 1000000); (CHARLIE, 1000000)]).
Proof. replay. Qed.
Example accept_rent_offer_not_enough_funds_for_cancellation_fee : (ok (sg 1) (C_create_nft [] 0 None false) >> ok (sg 1) (C_create_nft [] 0 None false) >> ok (sg 1) (C_create_nft [] 0 None false) >> 
  ok (sg 1) (C_create_nft [] 0 None false) >> ok (sg 1) (C_create_nft [] 0 None false) >> 
  ok (sg 1) (C_create_nft [] 0 None false) >> ok (sg 1) (C_create_nft [] 0 None false) >> 
  ok (sg 1) (C_create_nft [] 0 None false) >> ok (sg 1) (C_create_nft [] 0 None false) >> 
  ok (sg 1) (C_create_nft [] 0 None false) >> ok (sg 2) (C_create_nft [] 0 None false) >> 
  ok (sg 2) (C_create_nft [] 0 None false) >> ok (sg 2) (C_create_nft [] 0 None false) >> 
  now_ (fun s1 => chk (fun _ => (if nfts (s_nft s1) !! 0 then true else false) = true) >> 
  chk (fun _ => (if nfts (s_nft s1) !! 1 then true else false) = true) >> 
  chk (fun _ => (if nfts (s_nft s1) !! 2 then true else false) = true) >> 
  chk (fun _ => (if nfts (s_nft s1) !! 3 then true else false) = true) >> 
  chk (fun _ => (if nfts (s_nft s1) !! 4 then true else false) = true) >> 
  chk (fun _ => (if nfts (s_nft s1) !! 5 then true else false) = true) >> 
  chk (fun _ => (if nfts (s_nft s1) !! 6 then true else false) = true) >> 
  chk (fun _ => (if nfts (s_nft s1) !! 7 then true else false) = true) >> 
  chk (fun _ => (if nfts (s_nft s1) !! 8 then true else false) = true) >> 
  chk (fun _ => (if nfts (s_nft s1) !! 9 then true else false) = true) >> 
  chk (fun _ => (if nfts (s_nft s1) !! 10 then true else false) = true) >> 
  chk (fun _ => (if nfts (s_nft s1) !! 11 then true else false) = true) >> 
  chk (fun _ => (if nfts (s_nft s1) !! 12 then true else false) = true) >> 
  ok (sg 1) (C_create_contract 0 (FixedIn 10) (AutoAcceptance (Some [2])) true (RentNFT 10) (FixedTokens 10) (FixedTokens 10)) >> 
  ok (sg 1) (C_create_contract 1 (FixedIn 10) (AutoAcceptance (Some [2])) true (RentTokens 100) (FlexibleTokens 10) (FlexibleTokens 10)) >> 
  ok (sg 1) (C_create_contract 2 (FixedIn 10) (ManualAcceptance (Some [2])) true (RentNFT 11) (FeeNFT 5) (FeeNFT 10)) >> 
  ok (sg 1) (C_create_contract 3 (SubscriptionIn 10 (Some 100) true) (ManualAcceptance (Some [2])) true (RentTokens 100) (FixedTokens 10) (FixedTokens 10)) >> 
  ok (sg 1) (C_create_contract 4 (SubscriptionIn 10 None false) (AutoAcceptance (Some [2])) false (RentTokens 100) NoFee (FixedTokens 10)) >> 
  ok (sg 1) (C_create_contract 8 (FixedIn 10) (AutoAcceptance (Some [2])) true (RentNFT 11) (FeeNFT 9) (FeeNFT 10)) >> 
  now_ (fun s2 => chk (fun _ => (if contracts (s_rent s2) !! 0 then true else false) = true) >> 
  chk (fun _ => (if contracts (s_rent s2) !! 1 then true else false) = true) >> 
  chk (fun _ => (if contracts (s_rent s2) !! 2 then true else false) = true) >> 
  chk (fun _ => (if contracts (s_rent s2) !! 3 then true else false) = true) >> 
  chk (fun _ => (if contracts (s_rent s2) !! 4 then true else false) = true) >> 
  chk (fun _ => (if contracts (s_rent s2) !! 8 then true else false) = true) >> ok (sg 2) (C_make_rent_offer 3 1) >> 
  set_bal 2 101 >> no (sg 1) (C_accept_rent_offer 3 2) (Rent_err R_NotEnoughFundsForCancellationFee) >> fin)))
  (start_with [(ALICE, 1000000); (BOB, 1000000); (CHARLIE, 1000000)]).
Proof. replay. Qed.
Example accept_rent_offer_rentee_does_not_own_the_rent_nft : (ok (sg 1) (C_create_nft [] 0 None false) >> ok (sg 1) (C_create_nft [] 0 None false) >> ok (sg 1) (C_create_nft [] 0 None false) >> 
  ok (sg 1) (C_create_nft [] 0 None false) >> ok (sg 1) (C_create_nft [] 0 None false) >> 
  ok (sg 1) (C_create_nft [] 0 None false) >> ok (sg 1) (C_create_nft [] 0 None false) >> 
  ok (sg 1) (C_create_nft [] 0 None false) >> ok (sg 1) (C_create_nft [] 0 None false) >> 
  ok (sg 1) (C_create_nft [] 0 None false) >> ok (sg 2) (C_create_nft [] 0 None false) >> 
  ok (sg 2) (C_create_nft [] 0 None false) >> ok (sg 2) (C_create_nft [] 0 None false) >> 
  now_ (fun s1 => chk (fun _ => (if nfts (s_nft s1) !! 0 then true else false) = true) >> 
  chk (fun _ => (if nfts (s_nft s1) !! 1 then true else false) = true) >> 
  chk (fun _ => (if nfts (s_nft s1) !! 2 then true else false) = true) >> 
  chk (fun _ => (if nfts (s_nft s1) !! 3 then true else false) = true) >> 
  chk (fun _ => (if nfts (s_nft s1) !! 4 then true else false) = true) >> 
  chk (fun _ => (if nfts (s_nft s1) !! 5 then true else false) = true) >> 
  chk (fun _ => (if nfts (s_nft s1) !! 6 then true else false) = true) >> 
  chk (fun _ => (if nfts (s_nft s1) !! 7 then true else false) = true) >> 
  chk (fun _ => (if nfts (s_nft s1) !! 8 then true else false) = true) >> 
  chk (fun _ => (if nfts (s_nft s1) !! 9 then true else false) = true) >> 
  chk (fun _ => (if nfts (s_nft s1) !! 10 then true else false) = true) >> 
  chk (fun _ => (if nfts (s_nft s1) !! 11 then true else false) = true) >> 
  chk (fun _ => (if nfts (s_nft s1) !! 12 then true else false) = true) >> 
  ok (sg 1) (C_create_contract 0 (FixedIn 10) (AutoAcceptance (Some [2])) true (RentNFT 10) (FixedTokens 10) (FixedTokens 10)) >> 
  ok (sg 1) (C_create_contract 1 (FixedIn 10) (AutoAcceptance (Some [2])) true (RentTokens 100) (FlexibleTokens 10) (FlexibleTokens 10)) >> 
  ok (sg 1) (C_create_contract 2 (FixedIn 10) (ManualAcceptance (Some [2])) true (RentNFT 11) (FeeNFT 5) (FeeNFT 10)) >> 
  ok (sg 1) (C_create_contract 3 (SubscriptionIn 10 (Some 100) true) (ManualAcceptance (Some [2])) true (RentTokens 100) (FixedTokens 10) (FixedTokens 10)) >> 
  ok (sg 1) (C_create_contract 4 (SubscriptionIn 10 None false) (AutoAcceptance (Some [2])) false (RentTokens 100) NoFee (FixedTokens 10)) >> 
  ok (sg 1) (C_create_contract 8 (FixedIn 10) (AutoAcceptance (Some [2])) true (RentNFT 11) (FeeNFT 9) (FeeNFT 10)) >> 
  now_ (fun s2 => chk (fun _ => (if contracts (s_rent s2) !! 0 then true else false) = true) >> 
  chk (fun _ => (if contracts (s_rent s2) !! 1 then true else false) = true) >> 
  chk (fun _ => (if contracts (s_rent s2) !! 2 then true else false) = true) >> 
  chk (fun _ => (if contracts (s_rent s2) !! 3 then true else false) = true) >> 
  chk (fun _ => (if contracts (s_rent s2) !! 4 then true else false) = true) >> 
  chk (fun _ => (if contracts (s_rent s2) !! 8 then true else false) = true) >> ok (sg 2) (C_make_rent_offer 2 1) >> 
  now_ (fun s3 => chk (fun _ => (if nfts (s_nft s3) !! 11 then true else false) = true) >> 
  edit 11 (fun _ => (default dnft (nfts (s_nft s3) !! 11)) <| owner := 1 |>) >> 
  no (sg 1) (C_accept_rent_offer 2 2) (Rent_err R_RenteeDoesNotOwnTheRentNFT) >> fin))))
  (start_with [(ALICE, 1000000); (BOB, 1000000); (CHARLIE, 1000000)]).
Proof. replay. Qed.
Example accept_rent_offer_rent_nft_not_in_valid_state : (ok (sg 1) (C_create_nft [] 0 None false) >> ok (sg 1) (C_create_nft [] 0 None false) >> ok (sg 1) (C_create_nft [] 0 None false) >> 
  ok (sg 1) (C_create_nft [] 0 None false) >> ok (sg 1) (C_create_nft [] 0 None false) >> 
  ok (sg 1) (C_create_nft [] 0 None false) >> ok (sg 1) (C_create_nft [] 0 None false) >> 
  ok (sg 1) (C_create_nft [] 0 None false) >> ok (sg 1) (C_create_nft [] 0 None false) >> 
  ok (sg 1) (C_create_nft [] 0 None false) >> ok (sg 2) (C_create_nft [] 0 None false) >> 
  ok (sg 2) (C_create_nft [] 0 None false) >> ok (sg 2) (C_create_nft [] 0 None false) >> 
  now_ (fun s1 => chk (fun _ => (if nfts (s_nft s1) !! 0 then true else false) = true) >> 
  chk (fun _ => (if nfts (s_nft s1) !! 1 then true else false) = true) >> 
  chk (fun _ => (if nfts (s_nft s1) !! 2 then true else false) = true) >> 
  chk (fun _ => (if nfts (s_nft s1) !! 3 then true else false) = true) >> 
  chk (fun _ => (if nfts (s_nft s1) !! 4 then true else false) = true) >> 
  chk (fun _ => (if nfts (s_nft s1) !! 5 then true else false) = true) >> 
  chk (fun _ => (if nfts (s_nft s1) !! 6 then true else false) = true) >> 
  chk (fun _ => (if nfts (s_nft s1) !! 7 then true else false) = true) >> 
  chk (fun _ => (if nfts (s_nft s1) !! 8 then true else false) = true) >> 
  chk (fun _ => (if nfts (s_nft s1) !! 9 then true else false) = true) >> 
  chk (fun _ => (if nfts (s_nft s1) !! 10 then true else false) = true) >> 
  chk (fun _ => (if nfts (s_nft s1) !! 11 then true else false) = true) >> 
  chk (fun _ => (if nfts (s_nft s1) !! 12 then true else false) = true) >> 
  ok (sg 1) (C_create_contract 0 (FixedIn 10) (AutoAcceptance (Some [2])) true (RentNFT 10) (FixedTokens 10) (FixedTokens 10)) >> 
  ok (sg 1) (C_create_contract 1 (FixedIn 10) (AutoAcceptance (Some [2])) true (RentTokens 100) (FlexibleTokens 10) (FlexibleTokens 10)) >> 
  ok (sg 1) (C_create_contract 2 (FixedIn 10) (ManualAcceptance (Some [2])) true (RentNFT 11) (FeeNFT 5) (FeeNFT 10)) >> 
  ok (sg 1) (C_create_contract 3 (SubscriptionIn 10 (Some 100) true) (ManualAcceptance (Some [2])) true (RentTokens 100) (FixedTokens 10) (FixedTokens 10)) >> 
  ok (sg 1) (C_create_contract 4 (SubscriptionIn 10 None false) (AutoAcceptance (Some [2])) false (RentTokens 100) NoFee (FixedTokens 10)) >> 
  ok (sg 1) (C_create_contract 8 (FixedIn 10) (AutoAcceptance (Some [2])) true (RentNFT 11) (FeeNFT 9) (FeeNFT 10)) >> 
  now_ (fun s2 => chk (fun _ => (if contracts (s_rent s2) !! 0 then true else false) = true) >> 
  chk (fun _ => (if contracts (s_rent s2) !! 1 then true else false) = true) >> 
  chk (fun _ => (if contracts (s_rent s2) !! 2 then true else false) = true) >> 
  chk (fun _ => (if contracts (s_rent s2) !! 3 then true else false) = true) >> 
  chk (fun _ => (if contracts (s_rent s2) !! 4 then true else false) = true) >> 
  chk (fun _ => (if contracts (s_rent s2) !! 8 then true else false) = true) >> ok (sg 2) (C_make_rent_offer 2 1) >> 
  now_ (fun s3 => chk (fun _ => (if nfts (s_nft s3) !! 11 then true else false) = true) >> 
  edit 11 (fun _ => (default dnft (nfts (s_nft s3) !! 11)) <| nstate := (nstate (default dnft (nfts (s_nft s3) !! 11))) <| is_listed := true |> |>) >> 
  no (sg 1) (C_accept_rent_offer 2 2) (Rent_err R_RentNFTNotInValidState) >> fin))))
  (start_with [(ALICE, 1000000); (BOB, 1000000); (CHARLIE, 1000000)]).
Proof. replay. Qed.
Example accept_rent_offer_rentee_does_not_own_the_cancellation_nft : (ok (sg 1) (C_create_nft [] 0 None false) >> ok (sg 1) (C_create_nft [] 0 None false) >> ok (sg 1) (C_create_nft [] 0 None false) >> 
  ok (sg 1) (C_create_nft [] 0 None false) >> ok (sg 1) (C_create_nft [] 0 None false) >> 
  ok (sg 1) (C_create_nft [] 0 None false) >> ok (sg 1) (C_create_nft [] 0 None false) >> 
  ok (sg 1) (C_create_nft [] 0 None false) >> ok (sg 1) (C_create_nft [] 0 None false) >> 
  ok (sg 1) (C_create_nft [] 0 None false) >> ok (sg 2) (C_create_nft [] 0 None false) >> 
  ok (sg 2) (C_create_nft [] 0 None false) >> ok (sg 2) (C_create_nft [] 0 None false) >> 
  now_ (fun s1 => chk (fun _ => (if nfts (s_nft s1) !! 0 then true else false) = true) >> 
  chk (fun _ => (if nfts (s_nft s1) !! 1 then true else false) = true) >> 
  chk (fun _ => (if nfts (s_nft s1) !! 2 then true else false) = true) >> 
  chk (fun _ => (if nfts (s_nft s1) !! 3 then true else false) = true) >> 
  chk (fun _ => (if nfts (s_nft s1) !! 4 then true else false) = true) >> 
  chk (fun _ => (if nfts (s_nft s1) !! 5 then true else false) = true) >> 
  chk (fun _ => (if nfts (s_nft s1) !! 6 then true else false) = true) >> 
  chk (fun _ => (if nfts (s_nft s1) !! 7 then true else false) = true) >> 
  chk (fun _ => (if nfts (s_nft s1) !! 8 then true else false) = true) >> 
  chk (fun _ => (if nfts (s_nft s1) !! 9 then true else false) = true) >> 
  chk (fun _ => (if nfts (s_nft s1) !! 10 then true else false) = true) >> 
  chk (fun _ => (if nfts (s_nft s1) !! 11 then true else false) = true) >> 
  chk (fun _ => (if nfts (s_nft s1) !! 12 then true else false) = true) >> 
  ok (sg 1) (C_create_contract 0 (FixedIn 10) (AutoAcceptance (Some [2])) true (RentNFT 10) (FixedTokens 10) (FixedTokens 10)) >> 
  ok (sg 1) (C_create_contract 1 (FixedIn 10) (AutoAcceptance (Some [2])) true (RentTokens 100) (FlexibleTokens 10) (FlexibleTokens 10)) >> 
  ok (sg 1) (C_create_contract 2 (FixedIn 10) (ManualAcceptance (Some [2])) true (RentNFT 11) (FeeNFT 5) (FeeNFT 10)) >> 
  ok (sg 1) (C_create_contract 3 (SubscriptionIn 10 (Some 100) true) (ManualAcceptance (Some [2])) true (RentTokens 100) (FixedTokens 10) (FixedTokens 10)) >> 
  ok (sg 1) (C_create_contract 4 (SubscriptionIn 10 None false) (AutoAcceptance (Some [2])) false (RentTokens 100) NoFee (FixedTokens 10)) >> 
  ok (sg 1) (C_create_contract 8 (FixedIn 10) (AutoAcceptance (Some [2])) true (RentNFT 11) (FeeNFT 9) (FeeNFT 10)) >> 
  now_ (fun s2 => chk (fun _ => (if contracts (s_rent s2) !! 0 then true else false) = true) >> 
  chk (fun _ => (if contracts (s_rent s2) !! 1 then true else false) = true) >> 
  chk (fun _ => (if contracts (s_rent s2) !! 2 then true else false) = true) >> 
  chk (fun _ => (if contracts (s_rent s2) !! 3 then true else false) = true) >> 
  chk (fun _ => (if contracts (s_rent s2) !! 4 then true else false) = true) >> 
  chk (fun _ => (if contracts (s_rent s2) !! 8 then true else false) = true) >> ok (sg 2) (C_make_rent_offer 2 1) >> 
  now_ (fun s3 => chk (fun _ => (if nfts (s_nft s3) !! 10 then true else false) = true) >> 
  edit 10 (fun _ => (default dnft (nfts (s_nft s3) !! 10)) <| owner := 1 |>) >> 
  no (sg 1) (C_accept_rent_offer 2 2) (Rent_err R_RenteeDoesNotOwnTheCancellationNFT) >> fin))))
  (start_with [(ALICE, 1000000); (BOB, 1000000); (CHARLIE, 1000000)]).
Proof. replay. Qed.
Example accept_rent_offer_cancellation_nft_not_in_valid_state : (ok (sg 1) (C_create_nft [] 0 None false) >> ok (sg 1) (C_create_nft [] 0 None false) >> ok (sg 1) (C_create_nft [] 0 None false) >> 
  ok (sg 1) (C_create_nft [] 0 None false) >> ok (sg 1) (C_create_nft [] 0 None false) >> 
  ok (sg 1) (C_create_nft [] 0 None false) >> ok (sg 1) (C_create_nft [] 0 None false) >> 
  ok (sg 1) (C_create_nft [] 0 None false) >> ok (sg 1) (C_create_nft [] 0 None false) >> 
  ok (sg 1) (C_create_nft [] 0 None false) >> ok (sg 2) (C_create_nft [] 0 None false) >> 
  ok (sg 2) (C_create_nft [] 0 None false) >> ok (sg 2) (C_create_nft [] 0 None false) >> 
  now_ (fun s1 => chk (fun _ => (if nfts (s_nft s1) !! 0 then true else false) = true) >> 
  chk (fun _ => (if nfts (s_nft s1) !! 1 then true else false) = true) >> 
  chk (fun _ => (if nfts (s_nft s1) !! 2 then true else false) = true) >> 
  chk (fun _ => (if nfts (s_nft s1) !! 3 then true else false) = true) >> 
  chk (fun _ => (if nfts (s_nft s1) !! 4 then true else false) = true) >> 
  chk (fun _ => (if nfts (s_nft s1) !! 5 then true else false) = true) >> 
  chk (fun _ => (if nfts (s_nft s1) !! 6 then true else false) = true) >> 
  chk (fun _ => (if nfts (s_nft s1) !! 7 then true else false) = true) >> 
  chk (fun _ => (if nfts (s_nft s1) !! 8 then true else false) = true) >> 
  chk (fun _ => (if nfts (s_nft s1) !! 9 then true else false) = true) >> 
  chk (fun _ => (if nfts (s_nft s1) !! 10 then true else false) = true) >> 
  chk (fun _ => (if nfts (s_nft s1) !! 11 then true else false) = true) >> 
  chk (fun _ => (if nfts (s_nft s1) !! 12 then true else false) = true) >> 
  ok (sg 1) (C_create_contract 0 (FixedIn 10) (AutoAcceptance (Some [2])) true (RentNFT 10) (FixedTokens 10) (FixedTokens 10)) >> 
  ok (sg 1) (C_create_contract 1 (FixedIn 10) (AutoAcceptance (Some [2])) true (RentTokens 100) (FlexibleTokens 10) (FlexibleTokens 10)) >> 
  ok (sg 1) (C_create_contract 2 (FixedIn 10) (ManualAcceptance (Some [2])) true (RentNFT 11) (FeeNFT 5) (FeeNFT 10)) >> 
  ok (sg 1) (C_create_contract 3 (SubscriptionIn 10 (Some 100) true) (ManualAcceptance (Some [2])) true (RentTokens 100) (FixedTokens 10) (FixedTokens 10)) >> 
  ok (sg 1) (C_create_contract 4 (SubscriptionIn 10 None false) (AutoAcceptance (Some [2])) false (RentTokens 100) NoFee (FixedTokens 10)) >> 
  ok (sg 1) (C_create_contract 8 (FixedIn 10) (AutoAcceptance (Some [2])) true (RentNFT 11) (FeeNFT 9) (FeeNFT 10)) >> 
  now_ (fun s2 => chk (fun _ => (if contracts (s_rent s2) !! 0 then true else false) = true) >> 
  chk (fun _ => (if contracts (s_rent s2) !! 1 then true else false) = true) >> 
  chk (fun _ => (if contracts (s_rent s2) !! 2 then true else false) = true) >> 
  chk (fun _ => (if contracts (s_rent s2) !! 3 then true else false) = true) >> 
  chk (fun _ => (if contracts (s_rent s2) !! 4 then true else false) = true) >> 
  chk (fun _ => (if contracts (s_rent s2) !! 8 then true else false) = true) >> ok (sg 2) (C_make_rent_offer 2 1) >> 
  now_ (fun s3 => chk (fun _ => (if nfts (s_nft s3) !! 10 then true else false) = true) >> 
  edit 10 (fun _ => (default dnft (nfts (s_nft s3) !! 10)) <| nstate := (nstate (default dnft (nfts (s_nft s3) !! 10))) <| is_listed := true |> |>) >> 
  no (sg 1) (C_accept_rent_offer 2 2) (Rent_err R_CancellationNFTNotInValidState) >> fin))))
  (start_with [(ALICE, 1000000); (BOB, 1000000); (CHARLIE, 1000000)]).
Proof. replay. Qed.

(** * extrinsics, retract_rent_offer *)
Example retract_rent_offer : (ok (sg 1) (C_create_nft [] 0 None false) >> ok (sg 1) (C_create_nft [] 0 None false) >> ok (sg 1) (C_create_nft [] 0 None false) >> 
  ok (sg 1) (C_create_nft [] 0 None false) >> ok (sg 1) (C_create_nft [] 0 None false) >> 
  ok (sg 1) (C_create_nft [] 0 None false) >> ok (sg 1) (C_create_nft [] 0 None false) >> 
  ok (sg 1) (C_create_nft [] 0 None false) >> ok (sg 1) (C_create_nft [] 0 None false) >> 
  ok (sg 1) (C_create_nft [] 0 None false) >> ok (sg 2) (C_create_nft [] 0 None false) >> 
  ok (sg 2) (C_create_nft [] 0 None false) >> ok (sg 2) (C_create_nft [] 0 None false) >> 
  now_ (fun s1 => chk (fun _ => (if nfts (s_nft s1) !! 0 then true else false) = true) >> 
  chk (fun _ => (if nfts (s_nft s1) !! 1 then true else false) = true) >> 
  chk (fun _ => (if nfts (s_nft s1) !! 2 then true else false) = true) >> 
  chk (fun _ => (if nfts (s_nft s1) !! 3 then true else false) = true) >> 
  chk (fun _ => (if nfts (s_nft s1) !! 4 then true else false) = true) >> 
  chk (fun _ => (if nfts (s_nft s1) !! 5 then true else false) = true) >> 
  chk (fun _ => (if nfts (s_nft s1) !! 6 then true else false) = true) >> 
  chk (fun _ => (if nfts (s_nft s1) !! 7 then true else false) = true) >> 
  chk (fun _ => (if nfts (s_nft s1) !! 8 then true else false) = true) >> 
  chk (fun _ => (if nfts (s_nft s1) !! 9 then true else false) = true) >> 
  chk (fun _ => (if nfts (s_nft s1) !! 10 then true else false) = true) >> 
  chk (fun _ => (if nfts (s_nft s1) !! 11 then true else false) = true) >> 
  chk (fun _ => (if nfts (s_nft s1) !! 12 then true else false) = true) >> 
  ok (sg 1) (C_create_contract 0 (FixedIn 10) (AutoAcceptance (Some [2])) true (RentNFT 10) (FixedTokens 10) (FixedTokens 10)) >> 
  ok (sg 1) (C_create_contract 1 (FixedIn 10) (AutoAcceptance (Some [2])) true (RentTokens 100) (FlexibleTokens 10) (FlexibleTokens 10)) >> 
  ok (sg 1) (C_create_contract 2 (FixedIn 10) (ManualAcceptance (Some [2])) true (RentNFT 11) (FeeNFT 5) (FeeNFT 10)) >> 
  ok (sg 1) (C_create_contract 3 (SubscriptionIn 10 (Some 100) true) (ManualAcceptance (Some [2])) true (RentTokens 100) (FixedTokens 10) (FixedTokens 10)) >> 
  ok (sg 1) (C_create_contract 4 (SubscriptionIn 10 None false) (AutoAcceptance (Some [2])) false (RentTokens 100) NoFee (FixedTokens 10)) >> 
  ok (sg 1) (C_create_contract 8 (FixedIn 10) (AutoAcceptance (Some [2])) true (RentNFT 11) (FeeNFT 9) (FeeNFT 10)) >> 
  now_ (fun s2 => chk (fun _ => (if contracts (s_rent s2) !! 0 then true else false) = true) >> 
  chk (fun _ => (if contracts (s_rent s2) !! 1 then true else false) = true) >> 
  chk (fun _ => (if contracts (s_rent s2) !! 2 then true else false) = true) >> 
  chk (fun _ => (if contracts (s_rent s2) !! 3 then true else false) = true) >> 
  chk (fun _ => (if contracts (s_rent s2) !! 4 then true else false) = true) >> 
  chk (fun _ => (if contracts (s_rent s2) !! 8 then true else false) = true) >> ok (sg 2) (C_make_rent_offer 2 1) >> 
  now_ (fun s3 => chk (fun _ => (if offers (s_rent s3) !! 2 then true else false) = true) >> 
  chk (fun _ => (existsb (N.eqb 2) (default [] (offers (s_rent s3) !! 2))) = true) >> ok (sg 2) (C_retract_rent_offer 2) >> 
  now_ (fun s4 => chk (fun _ => (if offers (s_rent s4) !! 2 then true else false) = true) >> 
  chk (fun _ => (negb (existsb (N.eqb 2) (default [] (offers (s_rent s4) !! 2)))) = true) >> 
  last_ (Ev_ContractOfferRetracted 2 2) >> fin)))))
  (start_with [(ALICE, 1000000); (BOB, 1000000); (CHARLIE, 1000000)]).
Proof. replay. Qed.
Example retract_rent_offer_no_offers_for_this_contract : (ok (sg 1) (C_create_nft [] 0 None false) >> ok (sg 1) (C_create_nft [] 0 None false) >> ok (sg 1) (C_create_nft [] 0 None false) >> 
  ok (sg 1) (C_create_nft [] 0 None false) >> ok (sg 1) (C_create_nft [] 0 None false) >> 
  ok (sg 1) (C_create_nft [] 0 None false) >> ok (sg 1) (C_create_nft [] 0 None false) >> 
  ok (sg 1) (C_create_nft [] 0 None false) >> ok (sg 1) (C_create_nft [] 0 None false) >> 
  ok (sg 1) (C_create_nft [] 0 None false) >> ok (sg 2) (C_create_nft [] 0 None false) >> 
  ok (sg 2) (C_create_nft [] 0 None false) >> ok (sg 2) (C_create_nft [] 0 None false) >> 
  now_ (fun s1 => chk (fun _ => (if nfts (s_nft s1) !! 0 then true else false) = true) >> 
  chk (fun _ => (if nfts (s_nft s1) !! 1 then true else false) = true) >> 
  chk (fun _ => (if nfts (s_nft s1) !! 2 then true else false) = true) >> 
  chk (fun _ => (if nfts (s_nft s1) !! 3 then true else false) = true) >> 
  chk (fun _ => (if nfts (s_nft s1) !! 4 then true else false) = true) >> 
  chk (fun _ => (if nfts (s_nft s1) !! 5 then true else false) = true) >> 
  chk (fun _ => (if nfts (s_nft s1) !! 6 then true else false) = true) >> 
  chk (fun _ => (if nfts (s_nft s1) !! 7 then true else false) = true) >> 
  chk (fun _ => (if nfts (s_nft s1) !! 8 then true else false) = true) >> 
  chk (fun _ => (if nfts (s_nft s1) !! 9 then true else false) = true) >> 
  chk (fun _ => (if nfts (s_nft s1) !! 10 then true else false) = true) >> 
  chk (fun _ => (if nfts (s_nft s1) !! 11 then true else false) = true) >> 
  chk (fun _ => (if nfts (s_nft s1) !! 12 then true else false) = true) >> 
  ok (sg 1) (C_create_contract 0 (FixedIn 10) (AutoAcceptance (Some [2])) true (RentNFT 10) (FixedTokens 10) (FixedTokens 10)) >> 
  ok (sg 1) (C_create_contract 1 (FixedIn 10) (AutoAcceptance (Some [2])) true (RentTokens 100) (FlexibleTokens 10) (FlexibleTokens 10)) >> 
  ok (sg 1) (C_create_contract 2 (FixedIn 10) (ManualAcceptance (Some [2])) true (RentNFT 11) (FeeNFT 5) (FeeNFT 10)) >> 
  ok (sg 1) (C_create_contract 3 (SubscriptionIn 10 (Some 100) true) (ManualAcceptance (Some [2])) true (RentTokens 100) (FixedTokens 10) (FixedTokens 10)) >> 
  ok (sg 1) (C_create_contract 4 (SubscriptionIn 10 None false) (AutoAcceptance (Some [2])) false (RentTokens 100) NoFee (FixedTokens 10)) >> 
  ok (sg 1) (C_create_contract 8 (FixedIn 10) (AutoAcceptance (Some [2])) true (RentNFT 11) (FeeNFT 9) (FeeNFT 10)) >> 
  now_ (fun s2 => chk (fun _ => (if contracts (s_rent s2) !! 0 then true else false) = true) >> 
  chk (fun _ => (if contracts (s_rent s2) !! 1 then true else false) = true) >> 
  chk (fun _ => (if contracts (s_rent s2) !! 2 then true else false) = true) >> 
  chk (fun _ => (if contracts (s_rent s2) !! 3 then true else false) = true) >> 
  chk (fun _ => (if contracts (s_rent s2) !! 4 then true else false) = true) >> 
  chk (fun _ => (if contracts (s_rent s2) !! 8 then true else false) = true) >> 
  no (sg 2) (C_retract_rent_offer 2) (Rent_err R_NoOffersForThisContract) >> fin)))
  (start_with [(ALICE, 1000000); (BOB, 1000000); (CHARLIE, 1000000)]).
Proof. replay. Qed.
Example no_offers_from_this_address : (ok (sg 1) (C_create_nft [] 0 None false) >> ok (sg 1) (C_create_nft [] 0 None false) >> ok (sg 1) (C_create_nft [] 0 None false) >> 
  ok (sg 1) (C_create_nft [] 0 None false) >> ok (sg 1) (C_create_nft [] 0 None false) >> 
  ok (sg 1) (C_create_nft [] 0 None false) >> ok (sg 1) (C_create_nft [] 0 None false) >> 
  ok (sg 1) (C_create_nft [] 0 None false) >> ok (sg 1) (C_create_nft [] 0 None false) >> 
  ok (sg 1) (C_create_nft [] 0 None false) >> ok (sg 2) (C_create_nft [] 0 None false) >> 
  ok (sg 2) (C_create_nft [] 0 None false) >> ok (sg 2) (C_create_nft [] 0 None false) >> 
  now_ (fun s1 => chk (fun _ => (if nfts (s_nft s1) !! 0 then true else false) = true) >> 
  chk (fun _ => (if nfts (s_nft s1) !! 1 then true else false) = true) >> 
  chk (fun _ => (if nfts (s_nft s1) !! 2 then true else false) = true) >> 
  chk (fun _ => (if nfts (s_nft s1) !! 3 then true else false) = true) >> 
  chk (fun _ => (if nfts (s_nft s1) !! 4 then true else false) = true) >> 
  chk (fun _ => (if nfts (s_nft s1) !! 5 then true else false) = true) >> 
  chk (fun _ => (if nfts (s_nft s1) !! 6 then true else false) = true) >> 
  chk (fun _ => (if nfts (s_nft s1) !! 7 then true else false) = true) >> 
  chk (fun _ => (if nfts (s_nft s1) !! 8 then true else false) = true) >> 
  chk (fun _ => (if nfts (s_nft s1) !! 9 then true else false) = true) >> 
  chk (fun _ => (if nfts (s_nft s1) !! 10 then true else false) = true) >> 
  chk (fun _ => (if nfts (s_nft s1) !! 11 then true else false) = true) >> 
  chk (fun _ => (if nfts (s_nft s1) !! 12 then true else false) = true) >> 
  ok (sg 1) (C_create_contract 0 (FixedIn 10) (AutoAcceptance (Some [2])) true (RentNFT 10) (FixedTokens 10) (FixedTokens 10)) >> 
  ok (sg 1) (C_create_contract 1 (FixedIn 10) (AutoAcceptance (Some [2])) true (RentTokens 100) (FlexibleTokens 10) (FlexibleTokens 10)) >> 
  ok (sg 1) (C_create_contract 2 (FixedIn 10) (ManualAcceptance (Some [2])) true (RentNFT 11) (FeeNFT 5) (FeeNFT 10)) >> 
  ok (sg 1) (C_create_contract 3 (SubscriptionIn 10 (Some 100) true) (ManualAcceptance (Some [2])) true (RentTokens 100) (FixedTokens 10) (FixedTokens 10)) >> 
  ok (sg 1) (C_create_contract 4 (SubscriptionIn 10 None false) (AutoAcceptance (Some [2])) false (RentTokens 100) NoFee (FixedTokens 10)) >> 
  ok (sg 1) (C_create_contract 8 (FixedIn 10) (AutoAcceptance (Some [2])) true (RentNFT 11) (FeeNFT 9) (FeeNFT 10)) >> 
  now_ (fun s2 => chk (fun _ => (if contracts (s_rent s2) !! 0 then true else false) = true) >> 
  chk (fun _ => (if contracts (s_rent s2) !! 1 then true else false) = true) >> 
  chk (fun _ => (if contracts (s_rent s2) !! 2 then true else false) = true) >> 
  chk (fun _ => (if contracts (s_rent s2) !! 3 then true else false) = true) >> 
  chk (fun _ => (if contracts (s_rent s2) !! 4 then true else false) = true) >> 
  chk (fun _ => (if contracts (s_rent s2) !! 8 then true else false) = true) >> ok (sg 2) (C_make_rent_offer 2 1) >> 
  now_ (fun s3 => chk (fun _ => (if offers (s_rent s3) !! 2 then true else false) = true) >> 
  chk (fun _ => (existsb (N.eqb 2) (default [] (offers (s_rent s3) !! 2))) = true) >> 
  no (sg 3) (C_retract_rent_offer 2) (Rent_err R_NoOfferFromThisAddress) >> fin))))
  (start_with [(ALICE, 1000000); (BOB, 1000000); (CHARLIE, 1000000)]).
Proof. replay. Qed.

(** * extrinsics, change_subscription_terms *)
Example change_subscription_terms : (ok (sg 1) (C_create_nft [] 0 None false) >> ok (sg 1) (C_create_nft [] 0 None false) >> ok (sg 1) (C_create_nft [] 0 None false) >> 
  ok (sg 1) (C_create_nft [] 0 None false) >> ok (sg 1) (C_create_nft [] 0 None false) >> 
  ok (sg 1) (C_create_nft [] 0 None false) >> ok (sg 1) (C_create_nft [] 0 None false) >> 
  ok (sg 1) (C_create_nft [] 0 None false) >> ok (sg 1) (C_create_nft [] 0 None false) >> 
  ok (sg 1) (C_create_nft [] 0 None false) >> ok (sg 2) (C_create_nft [] 0 None false) >> 
  ok (sg 2) (C_create_nft [] 0 None false) >> ok (sg 2) (C_create_nft [] 0 None false) >> 
  now_ (fun s1 => chk (fun _ => (if nfts (s_nft s1) !! 0 then true else false) = true) >> 
  chk (fun _ => (if nfts (s_nft s1) !! 1 then true else false) = true) >> 
  chk (fun _ => (if nfts (s_nft s1) !! 2 then true else false) = true) >> 
  chk (fun _ => (if nfts (s_nft s1) !! 3 then true else false) = true) >> 
  chk (fun _ => (if nfts (s_nft s1) !! 4 then true else false) = true) >> 
  chk (fun _ => (if nfts (s_nft s1) !! 5 then true else false) = true) >> 
  chk (fun _ => (if nfts (s_nft s1) !! 6 then true else false) = true) >> 
  chk (fun _ => (if nfts (s_nft s1) !! 7 then true else false) = true) >> 
  chk (fun _ => (if nfts (s_nft s1) !! 8 then true else false) = true) >> 
  chk (fun _ => (if nfts (s_nft s1) !! 9 then true else false) = true) >> 
  chk (fun _ => (if nfts (s_nft s1) !! 10 then true else false) = true) >> 
  chk (fun _ => (if nfts (s_nft s1) !! 11 then true else false) = true) >> 
  chk (fun _ => (if nfts (s_nft s1) !! 12 then true else false) = true) >> 
  ok (sg 1) (C_create_contract 0 (FixedIn 10) (AutoAcceptance (Some [2])) true (RentNFT 10) (FixedTokens 10) (FixedTokens 10)) >> 
  ok (sg 1) (C_create_contract 1 (FixedIn 10) (AutoAcceptance (Some [2])) true (RentTokens 100) (FlexibleTokens 10) (FlexibleTokens 10)) >> 
  ok (sg 1) (C_create_contract 2 (FixedIn 10) (ManualAcceptance (Some [2])) true (RentNFT 11) (FeeNFT 5) (FeeNFT 10)) >> 
  ok (sg 1) (C_create_contract 3 (SubscriptionIn 10 (Some 100) true) (ManualAcceptance (Some [2])) true (RentTokens 100) (FixedTokens 10) (FixedTokens 10)) >> 
  ok (sg 1) (C_create_contract 4 (SubscriptionIn 10 None false) (AutoAcceptance (Some [2])) false (RentTokens 100) NoFee (FixedTokens 10)) >> 
  ok (sg 1) (C_create_contract 8 (FixedIn 10) (AutoAcceptance (Some [2])) true (RentNFT 11) (FeeNFT 9) (FeeNFT 10)) >> 
  now_ (fun s2 => chk (fun _ => (if contracts (s_rent s2) !! 0 then true else false) = true) >> 
  chk (fun _ => (if contracts (s_rent s2) !! 1 then true else false) = true) >> 
  chk (fun _ => (if contracts (s_rent s2) !! 2 then true else false) = true) >> 
  chk (fun _ => (if contracts (s_rent s2) !! 3 then true else false) = true) >> 
  chk (fun _ => (if contracts (s_rent s2) !! 4 then true else false) = true) >> 
  chk (fun _ => (if contracts (s_rent s2) !! 8 then true else false) = true) >> ok (sg 2) (C_make_rent_offer 3 1) >> 
  ok (sg 1) (C_accept_rent_offer 3 2) >> ok (sg 1) (C_change_subscription_terms 3 101 20 (Some 40) true) >> 
  now_ (fun s3 => chk (fun _ => (if contracts (s_rent s3) !! 3 then true else false) = true) >> 
  chk (fun _ => (if r_start (default dcontract (contracts (s_rent s3) !! 3)) then true else false) = true) >> 
  chk (fun _ => (terms_changed (r_duration (default dcontract (contracts (s_rent s3) !! 3)))) = true) >> 
  last_ (Ev_ContractSubscriptionTermsChanged 3 20 40 true 101) >> fin))))
  (start_with [(ALICE, 1000000); (BOB, 1000000); (CHARLIE, 1000000)]).
Proof. replay. Qed.
Example change_subscription_terms_contract_not_found : (ok (sg 1) (C_create_nft [] 0 None false) >> ok (sg 1) (C_create_nft [] 0 None false) >> ok (sg 1) (C_create_nft [] 0 None false) >> 
  ok (sg 1) (C_create_nft [] 0 None false) >> ok (sg 1) (C_create_nft [] 0 None false) >> 
  ok (sg 1) (C_create_nft [] 0 None false) >> ok (sg 1) (C_create_nft [] 0 None false) >> 
  ok (sg 1) (C_create_nft [] 0 None false) >> ok (sg 1) (C_create_nft [] 0 None false) >> 
  ok (sg 1) (C_create_nft [] 0 None false) >> ok (sg 2) (C_create_nft [] 0 None false) >> 
  ok (sg 2) (C_create_nft [] 0 None false) >> ok (sg 2) (C_create_nft [] 0 None false) >> 
  now_ (fun s1 => chk (fun _ => (if nfts (s_nft s1) !! 0 then true else false) = true) >> 
  chk (fun _ => (if nfts (s_nft s1) !! 1 then true else false) = true) >> 
  chk (fun _ => (if nfts (s_nft s1) !! 2 then true else false) = true) >> 
  chk (fun _ => (if nfts (s_nft s1) !! 3 then true else false) = true) >> 
  chk (fun _ => (if nfts (s_nft s1) !! 4 then true else false) = true) >> 
  chk (fun _ => (if nfts (s_nft s1) !! 5 then true else false) = true) >> 
  chk (fun _ => (if nfts (s_nft s1) !! 6 then true else false) = true) >> 
  chk (fun _ => (if nfts (s_nft s1) !! 7 then true else false) = true) >> 
  chk (fun _ => (if nfts (s_nft s1) !! 8 then true else false) = true) >> 
  chk (fun _ => (if nfts (s_nft s1) !! 9 then true else false) = true) >> 
  chk (fun _ => (if nfts (s_nft s1) !! 10 then true else false) = true) >> 
  chk (fun _ => (if nfts (s_nft s1) !! 11 then true else false) = true) >> 
  chk (fun _ => (if nfts (s_nft s1) !! 12 then true else false) = true) >> 
  ok (sg 1) (C_create_contract 0 (FixedIn 10) (AutoAcceptance (Some [2])) true (RentNFT 10) (FixedTokens 10) (FixedTokens 10)) >> 
  ok (sg 1) (C_create_contract 1 (FixedIn 10) (AutoAcceptance (Some [2])) true (RentTokens 100) (FlexibleTokens 10) (FlexibleTokens 10)) >> 
  ok (sg 1) (C_create_contract 2 (FixedIn 10) (ManualAcceptance (Some [2])) true (RentNFT 11) (FeeNFT 5) (FeeNFT 10)) >> 
  ok (sg 1) (C_create_contract 3 (SubscriptionIn 10 (Some 100) true) (ManualAcceptance (Some [2])) true (RentTokens 100) (FixedTokens 10) (FixedTokens 10)) >> 
  ok (sg 1) (C_create_contract 4 (SubscriptionIn 10 None false) (AutoAcceptance (Some [2])) false (RentTokens 100) NoFee (FixedTokens 10)) >> 
  ok (sg 1) (C_create_contract 8 (FixedIn 10) (AutoAcceptance (Some [2])) true (RentNFT 11) (FeeNFT 9) (FeeNFT 10)) >> 
  now_ (fun s2 => chk (fun _ => (if contracts (s_rent s2) !! 0 then true else false) = true) >> 
  chk (fun _ => (if contracts (s_rent s2) !! 1 then true else false) = true) >> 
  chk (fun _ => (if contracts (s_rent s2) !! 2 then true else false) = true) >> 
  chk (fun _ => (if contracts (s_rent s2) !! 3 then true else false) = true) >> 
  chk (fun _ => (if contracts (s_rent s2) !! 4 then true else false) = true) >> 
  chk (fun _ => (if contracts (s_rent s2) !! 8 then true else false) = true) >> 
  no (sg 1) (C_change_subscription_terms 99 101 20 (Some 200) true) (Rent_err R_ContractNotFound) >> fin)))
  (start_with [(ALICE, 1000000); (BOB, 1000000); (CHARLIE, 1000000)]).
Proof. replay. Qed.
Example change_subscription_terms_not_the_contract_owner : (ok (sg 1) (C_create_nft [] 0 None false) >> ok (sg 1) (C_create_nft [] 0 None false) >> ok (sg 1) (C_create_nft [] 0 None false) >> 
  ok (sg 1) (C_create_nft [] 0 None false) >> ok (sg 1) (C_create_nft [] 0 None false) >> 
  ok (sg 1) (C_create_nft [] 0 None false) >> ok (sg 1) (C_create_nft [] 0 None false) >> 
  ok (sg 1) (C_create_nft [] 0 None false) >> ok (sg 1) (C_create_nft [] 0 None false) >> 
  ok (sg 1) (C_create_nft [] 0 None false) >> ok (sg 2) (C_create_nft [] 0 None false) >> 
  ok (sg 2) (C_create_nft [] 0 None false) >> ok (sg 2) (C_create_nft [] 0 None false) >> 
  now_ (fun s1 => chk (fun _ => (if nfts (s_nft s1) !! 0 then true else false) = true) >> 
  chk (fun _ => (if nfts (s_nft s1) !! 1 then true else false) = true) >> 
  chk (fun _ => (if nfts (s_nft s1) !! 2 then true else false) = true) >> 
  chk (fun _ => (if nfts (s_nft s1) !! 3 then true else false) = true) >> 
  chk (fun _ => (if nfts (s_nft s1) !! 4 then true else false) = true) >> 
  chk (fun _ => (if nfts (s_nft s1) !! 5 then true else false) = true) >> 
  chk (fun _ => (if nfts (s_nft s1) !! 6 then true else false) = true) >> 
  chk (fun _ => (if nfts (s_nft s1) !! 7 then true else false) = true) >> 
  chk (fun _ => (if nfts (s_nft s1) !! 8 then true else false) = true) >> 
  chk (fun _ => (if nfts (s_nft s1) !! 9 then true else false) = true) >> 
  chk (fun _ => (if nfts (s_nft s1) !! 10 then true else false) = true) >> 
  chk (fun _ => (if nfts (s_nft s1) !! 11 then true else false) = true) >> 
  chk (fun _ => (if nfts (s_nft s1) !! 12 then true else false) = true) >> 
  ok (sg 1) (C_create_contract 0 (FixedIn 10) (AutoAcceptance (Some [2])) true (RentNFT 10) (FixedTokens 10) (FixedTokens 10)) >> 
  ok (sg 1) (C_create_contract 1 (FixedIn 10) (AutoAcceptance (Some [2])) true (RentTokens 100) (FlexibleTokens 10) (FlexibleTokens 10)) >> 
  ok (sg 1) (C_create_contract 2 (FixedIn 10) (ManualAcceptance (Some [2])) true (RentNFT 11) (FeeNFT 5) (FeeNFT 10)) >> 
  ok (sg 1) (C_create_contract 3 (SubscriptionIn 10 (Some 100) true) (ManualAcceptance (Some [2])) true (RentTokens 100) (FixedTokens 10) (FixedTokens 10)) >> 
  ok (sg 1) (C_create_contract 4 (SubscriptionIn 10 None false) (AutoAcceptance (Some [2])) false (RentTokens 100) NoFee (FixedTokens 10)) >> 
  ok (sg 1) (C_create_contract 8 (FixedIn 10) (AutoAcceptance (Some [2])) true (RentNFT 11) (FeeNFT 9) (FeeNFT 10)) >> 
  now_ (fun s2 => chk (fun _ => (if contracts (s_rent s2) !! 0 then true else false) = true) >> 
  chk (fun _ => (if contracts (s_rent s2) !! 1 then true else false) = true) >> 
  chk (fun _ => (if contracts (s_rent s2) !! 2 then true else false) = true) >> 
  chk (fun _ => (if contracts (s_rent s2) !! 3 then true else false) = true) >> 
  chk (fun _ => (if contracts (s_rent s2) !! 4 then true else false) = true) >> 
  chk (fun _ => (if contracts (s_rent s2) !! 8 then true else false) = true) >> 
  no (sg 2) (C_change_subscription_terms 3 101 20 (Some 200) true) (Rent_err R_NotTheContractOwner) >> fin)))
  (start_with [(ALICE, 1000000); (BOB, 1000000); (CHARLIE, 1000000)]).
Proof. replay. Qed.
Example cannot_adjust_subscription_terms : (ok (sg 1) (C_create_nft [] 0 None false) >> ok (sg 1) (C_create_nft [] 0 None false) >> ok (sg 1) (C_create_nft [] 0 None false) >> 
  ok (sg 1) (C_create_nft [] 0 None false) >> ok (sg 1) (C_create_nft [] 0 None false) >> 
  ok (sg 1) (C_create_nft [] 0 None false) >> ok (sg 1) (C_create_nft [] 0 None false) >> 
  ok (sg 1) (C_create_nft [] 0 None false) >> ok (sg 1) (C_create_nft [] 0 None false) >> 
  ok (sg 1) (C_create_nft [] 0 None false) >> ok (sg 2) (C_create_nft [] 0 None false) >> 
  ok (sg 2) (C_create_nft [] 0 None false) >> ok (sg 2) (C_create_nft [] 0 None false) >> 
  now_ (fun s1 => chk (fun _ => (if nfts (s_nft s1) !! 0 then true else false) = true) >> 
  chk (fun _ => (if nfts (s_nft s1) !! 1 then true else false) = true) >> 
  chk (fun _ => (if nfts (s_nft s1) !! 2 then true else false) = true) >> 
  chk (fun _ => (if nfts (s_nft s1) !! 3 then true else false) = true) >> 
  chk (fun _ => (if nfts (s_nft s1) !! 4 then true else false) = true) >> 
  chk (fun _ => (if nfts (s_nft s1) !! 5 then true else false) = true) >> 
  chk (fun _ => (if nfts (s_nft s1) !! 6 then true else false) = true) >> 
  chk (fun _ => (if nfts (s_nft s1) !! 7 then true else false) = true) >> 
  chk (fun _ => (if nfts (s_nft s1) !! 8 then true else false) = true) >> 
  chk (fun _ => (if nfts (s_nft s1) !! 9 then true else false) = true) >> 
  chk (fun _ => (if nfts (s_nft s1) !! 10 then true else false) = true) >> 
  chk (fun _ => (if nfts (s_nft s1) !! 11 then true else false) = true) >> 
  chk (fun _ => (if nfts (s_nft s1) !! 12 then true else false) = true) >> 
  ok (sg 1) (C_create_contract 0 (FixedIn 10) (AutoAcceptance (Some [2])) true (RentNFT 10) (FixedTokens 10) (FixedTokens 10)) >> 
  ok (sg 1) (C_create_contract 1 (FixedIn 10) (AutoAcceptance (Some [2])) true (RentTokens 100) (FlexibleTokens 10) (FlexibleTokens 10)) >> 
  ok (sg 1) (C_create_contract 2 (FixedIn 10) (ManualAcceptance (Some [2])) true (RentNFT 11) (FeeNFT 5) (FeeNFT 10)) >> 
  ok (sg 1) (C_create_contract 3 (SubscriptionIn 10 (Some 100) true) (ManualAcceptance (Some [2])) true (RentTokens 100) (FixedTokens 10) (FixedTokens 10)) >> 
  ok (sg 1) (C_create_contract 4 (SubscriptionIn 10 None false) (AutoAcceptance (Some [2])) false (RentTokens 100) NoFee (FixedTokens 10)) >> 
  ok (sg 1) (C_create_contract 8 (FixedIn 10) (AutoAcceptance (Some [2])) true (RentNFT 11) (FeeNFT 9) (FeeNFT 10)) >> 
  now_ (fun s2 => chk (fun _ => (if contracts (s_rent s2) !! 0 then true else false) = true) >> 
  chk (fun _ => (if contracts (s_rent s2) !! 1 then true else false) = true) >> 
  chk (fun _ => (if contracts (s_rent s2) !! 2 then true else false) = true) >> 
  chk (fun _ => (if contracts (s_rent s2) !! 3 then true else false) = true) >> 
  chk (fun _ => (if contracts (s_rent s2) !! 4 then true else false) = true) >> 
  chk (fun _ => (if contracts (s_rent s2) !! 8 then true else false) = true) >> 
  no (sg 1) (C_change_subscription_terms 8 101 20 (Some 200) true) (Rent_err R_CannotAdjustSubscriptionTerms) >> fin)))
  (start_with [(ALICE, 1000000); (BOB, 1000000); (CHARLIE, 1000000)]).
Proof. replay. Qed.
Example change_subscription_terms_duration_exceeds_maximum_limit : (ok (sg 1) (C_create_nft [] 0 None false) >> ok (sg 1) (C_create_nft [] 0 None false) >> ok (sg 1) (C_create_nft [] 0 None false) >> 
  ok (sg 1) (C_create_nft [] 0 None false) >> ok (sg 1) (C_create_nft [] 0 None false) >> 
  ok (sg 1) (C_create_nft [] 0 None false) >> ok (sg 1) (C_create_nft [] 0 None false) >> 
  ok (sg 1) (C_create_nft [] 0 None false) >> ok (sg 1) (C_create_nft [] 0 None false) >> 
  ok (sg 1) (C_create_nft [] 0 None false) >> ok (sg 2) (C_create_nft [] 0 None false) >> 
  ok (sg 2) (C_create_nft [] 0 None false) >> ok (sg 2) (C_create_nft [] 0 None false) >> 
  now_ (fun s1 => chk (fun _ => (if nfts (s_nft s1) !! 0 then true else false) = true) >> 
  chk (fun _ => (if nfts (s_nft s1) !! 1 then true else false) = true) >> 
  chk (fun _ => (if nfts (s_nft s1) !! 2 then true else false) = true) >> 
  chk (fun _ => (if nfts (s_nft s1) !! 3 then true else false) = true) >> 
  chk (fun _ => (if nfts (s_nft s1) !! 4 then true else false) = true) >> 
  chk (fun _ => (if nfts (s_nft s1) !! 5 then true else false) = true) >> 
  chk (fun _ => (if nfts (s_nft s1) !! 6 then true else false) = true) >> 
  chk (fun _ => (if nfts (s_nft s1) !! 7 then true else false) = true) >> 
  chk (fun _ => (if nfts (s_nft s1) !! 8 then true else false) = true) >> 
  chk (fun _ => (if nfts (s_nft s1) !! 9 then true else false) = true) >> 
  chk (fun _ => (if nfts (s_nft s1) !! 10 then true else false) = true) >> 
  chk (fun _ => (if nfts (s_nft s1) !! 11 then true else false) = true) >> 
  chk (fun _ => (if nfts (s_nft s1) !! 12 then true else false) = true) >> 
  ok (sg 1) (C_create_contract 0 (FixedIn 10) (AutoAcceptance (Some [2])) true (RentNFT 10) (FixedTokens 10) (FixedTokens 10)) >> 
  ok (sg 1) (C_create_contract 1 (FixedIn 10) (AutoAcceptance (Some [2])) true (RentTokens 100) (FlexibleTokens 10) (FlexibleTokens 10)) >> 
  ok (sg 1) (C_create_contract 2 (FixedIn 10) (ManualAcceptance (Some [2])) true (RentNFT 11) (FeeNFT 5) (FeeNFT 10)) >> 
  ok (sg 1) (C_create_contract 3 (SubscriptionIn 10 (Some 100) true) (ManualAcceptance (Some [2])) true (RentTokens 100) (FixedTokens 10) (FixedTokens 10)) >> 
  ok (sg 1) (C_create_contract 4 (SubscriptionIn 10 None false) (AutoAcceptance (Some [2])) false (RentTokens 100) NoFee (FixedTokens 10)) >> 
  ok (sg 1) (C_create_contract 8 (FixedIn 10) (AutoAcceptance (Some [2])) true (RentNFT 11) (FeeNFT 9) (FeeNFT 10)) >> 
  now_ (fun s2 => chk (fun _ => (if contracts (s_rent s2) !! 0 then true else false) = true) >> 
  chk (fun _ => (if contracts (s_rent s2) !! 1 then true else false) = true) >> 
  chk (fun _ => (if contracts (s_rent s2) !! 2 then true else false) = true) >> 
  chk (fun _ => (if contracts (s_rent s2) !! 3 then true else false) = true) >> 
  chk (fun _ => (if contracts (s_rent s2) !! 4 then true else false) = true) >> 
  chk (fun _ => (if contracts (s_rent s2) !! 8 then true else false) = true) >> 
  no (sg 1) (C_change_subscription_terms 3 101 10000 (Some 200) true) (Rent_err R_DurationExceedsMaximumLimit) >> fin)))
  (start_with [(ALICE, 1000000); (BOB, 1000000); (CHARLIE, 1000000)]).
Proof. replay. Qed.
Example change_subscription_terms_duration_invalid : (ok (sg 1) (C_create_nft [] 0 None false) >> ok (sg 1) (C_create_nft [] 0 None false) >> ok (sg 1) (C_create_nft [] 0 None false) >> 
  ok (sg 1) (C_create_nft [] 0 None false) >> ok (sg 1) (C_create_nft [] 0 None false) >> 
  ok (sg 1) (C_create_nft [] 0 None false) >> ok (sg 1) (C_create_nft [] 0 None false) >> 
  ok (sg 1) (C_create_nft [] 0 None false) >> ok (sg 1) (C_create_nft [] 0 None false) >> 
  ok (sg 1) (C_create_nft [] 0 None false) >> ok (sg 2) (C_create_nft [] 0 None false) >> 
  ok (sg 2) (C_create_nft [] 0 None false) >> ok (sg 2) (C_create_nft [] 0 None false) >> 
  now_ (fun s1 => chk (fun _ => (if nfts (s_nft s1) !! 0 then true else false) = true) >> 
  chk (fun _ => (if nfts (s_nft s1) !! 1 then true else false) = true) >> 
  chk (fun _ => (if nfts (s_nft s1) !! 2 then true else false) = true) >> 
  chk (fun _ => (if nfts (s_nft s1) !! 3 then true else false) = true) >> 
  chk (fun _ => (if nfts (s_nft s1) !! 4 then true else false) = true) >> 
  chk (fun _ => (if nfts (s_nft s1) !! 5 then true else false) = true) >> 
  chk (fun _ => (if nfts (s_nft s1) !! 6 then true else false) = true) >> 
  chk (fun _ => (if nfts (s_nft s1) !! 7 then true else false) = true) >> 
  chk (fun _ => (if nfts (s_nft s1) !! 8 then true else false) = true) >> 
  chk (fun _ => (if nfts (s_nft s1) !! 9 then true else false) = true) >> 
  chk (fun _ => (if nfts (s_nft s1) !! 10 then true else false) = true) >> 
  chk (fun _ => (if nfts (s_nft s1) !! 11 then true else false) = true) >> 
  chk (fun _ => (if nfts (s_nft s1) !! 12 then true else false) = true) >> 
  ok (sg 1) (C_create_contract 0 (FixedIn 10) (AutoAcceptance (Some [2])) true (RentNFT 10) (FixedTokens 10) (FixedTokens 10)) >> 
  ok (sg 1) (C_create_contract 1 (FixedIn 10) (AutoAcceptance (Some [2])) true (RentTokens 100) (FlexibleTokens 10) (FlexibleTokens 10)) >> 
  ok (sg 1) (C_create_contract 2 (FixedIn 10) (ManualAcceptance (Some [2])) true (RentNFT 11) (FeeNFT 5) (FeeNFT 10)) >> 
  ok (sg 1) (C_create_contract 3 (SubscriptionIn 10 (Some 100) true) (ManualAcceptance (Some [2])) true (RentTokens 100) (FixedTokens 10) (FixedTokens 10)) >> 
  ok (sg 1) (C_create_contract 4 (SubscriptionIn 10 None false) (AutoAcceptance (Some [2])) false (RentTokens 100) NoFee (FixedTokens 10)) >> 
  ok (sg 1) (C_create_contract 8 (FixedIn 10) (AutoAcceptance (Some [2])) true (RentNFT 11) (FeeNFT 9) (FeeNFT 10)) >> 
  now_ (fun s2 => chk (fun _ => (if contracts (s_rent s2) !! 0 then true else false) = true) >> 
  chk (fun _ => (if contracts (s_rent s2) !! 1 then true else false) = true) >> 
  chk (fun _ => (if contracts (s_rent s2) !! 2 then true else false) = true) >> 
  chk (fun _ => (if contracts (s_rent s2) !! 3 then true else false) = true) >> 
  chk (fun _ => (if contracts (s_rent s2) !! 4 then true else false) = true) >> 
  chk (fun _ => (if contracts (s_rent s2) !! 8 then true else false) = true) >> 
  no (sg 1) (C_change_subscription_terms 3 100 0 None true) (Rent_err R_DurationInvalid) >> 
  no (sg 1) (C_change_subscription_terms 3 100 10 (Some 0) true) (Rent_err R_DurationInvalid) >> fin)))
  (start_with [(ALICE, 1000000); (BOB, 1000000); (CHARLIE, 1000000)]).
Proof. replay. Qed.

(** * extrinsics, accept_subscription_terms *)
Example accept_subscription_terms : (ok (sg 1) (C_create_nft [] 0 None false) >> ok (sg 1) (C_create_nft [] 0 None false) >> ok (sg 1) (C_create_nft [] 0 None false) >> 
  ok (sg 1) (C_create_nft [] 0 None false) >> ok (sg 1) (C_create_nft [] 0 None false) >> 
  ok (sg 1) (C_create_nft [] 0 None false) >> ok (sg 1) (C_create_nft [] 0 None false) >> 
  ok (sg 1) (C_create_nft [] 0 None false) >> ok (sg 1) (C_create_nft [] 0 None false) >> 
  ok (sg 1) (C_create_nft [] 0 None false) >> ok (sg 2) (C_create_nft [] 0 None false) >> 
  ok (sg 2) (C_create_nft [] 0 None false) >> ok (sg 2) (C_create_nft [] 0 None false) >> 
  now_ (fun s1 => chk (fun _ => (if nfts (s_nft s1) !! 0 then true else false) = true) >> 
  chk (fun _ => (if nfts (s_nft s1) !! 1 then true else false) = true) >> 
  chk (fun _ => (if nfts (s_nft s1) !! 2 then true else false) = true) >> 
  chk (fun _ => (if nfts (s_nft s1) !! 3 then true else false) = true) >> 
  chk (fun _ => (if nfts (s_nft s1) !! 4 then true else false) = true) >> 
  chk (fun _ => (if nfts (s_nft s1) !! 5 then true else false) = true) >> 
  chk (fun _ => (if nfts (s_nft s1) !! 6 then true else false) = true) >> 
  chk (fun _ => (if nfts (s_nft s1) !! 7 then true else false) = true) >> 
  chk (fun _ => (if nfts (s_nft s1) !! 8 then true else false) = true) >> 
  chk (fun _ => (if nfts (s_nft s1) !! 9 then true else false) = true) >> 
  chk (fun _ => (if nfts (s_nft s1) !! 10 then true else false) = true) >> 
  chk (fun _ => (if nfts (s_nft s1) !! 11 then true else false) = true) >> 
  chk (fun _ => (if nfts (s_nft s1) !! 12 then true else false) = true) >> 
  ok (sg 1) (C_create_contract 0 (FixedIn 10) (AutoAcceptance (Some [2])) true (RentNFT 10) (FixedTokens 10) (FixedTokens 10)) >> 
  ok (sg 1) (C_create_contract 1 (FixedIn 10) (AutoAcceptance (Some [2])) true (RentTokens 100) (FlexibleTokens 10) (FlexibleTokens 10)) >> 
  ok (sg 1) (C_create_contract 2 (FixedIn 10) (ManualAcceptance (Some [2])) true (RentNFT 11) (FeeNFT 5) (FeeNFT 10)) >> 
  ok (sg 1) (C_create_contract 3 (SubscriptionIn 10 (Some 100) true) (ManualAcceptance (Some [2])) true (RentTokens 100) (FixedTokens 10) (FixedTokens 10)) >> 
  ok (sg 1) (C_create_contract 4 (SubscriptionIn 10 None false) (AutoAcceptance (Some [2])) false (RentTokens 100) NoFee (FixedTokens 10)) >> 
  ok (sg 1) (C_create_contract 8 (FixedIn 10) (AutoAcceptance (Some [2])) true (RentNFT 11) (FeeNFT 9) (FeeNFT 10)) >> 
  now_ (fun s2 => chk (fun _ => (if contracts (s_rent s2) !! 0 then true else false) = true) >> 
  chk (fun _ => (if contracts (s_rent s2) !! 1 then true else false) = true) >> 
  chk (fun _ => (if contracts (s_rent s2) !! 2 then true else false) = true) >> 
  chk (fun _ => (if contracts (s_rent s2) !! 3 then true else false) = true) >> 
  chk (fun _ => (if contracts (s_rent s2) !! 4 then true else false) = true) >> 
  chk (fun _ => (if contracts (s_rent s2) !! 8 then true else false) = true) >> ok (sg 2) (C_make_rent_offer 3 1) >> 
  ok (sg 1) (C_accept_rent_offer 3 2) >> ok (sg 1) (C_change_subscription_terms 3 101 20 (Some 40) true) >> 
  ok (sg 2) (C_accept_subscription_terms 3 101 20 (Some 40) true) >> 
  now_ (fun s3 => chk (fun _ => (if contracts (s_rent s3) !! 3 then true else false) = true) >> 
  chk (fun _ => (negb (terms_changed (r_duration (default dcontract (contracts (s_rent s3) !! 3))))) = true) >> 
  last_ (Ev_ContractSubscriptionTermsAccepted 3) >> fin))))
  (start_with [(ALICE, 1000000); (BOB, 1000000); (CHARLIE, 1000000)]).
Proof. replay. Qed.
Example accept_subscription_terms_contract_not_found : (ok (sg 1) (C_create_nft [] 0 None false) >> ok (sg 1) (C_create_nft [] 0 None false) >> ok (sg 1) (C_create_nft [] 0 None false) >> 
  ok (sg 1) (C_create_nft [] 0 None false) >> ok (sg 1) (C_create_nft [] 0 None false) >> 
  ok (sg 1) (C_create_nft [] 0 None false) >> ok (sg 1) (C_create_nft [] 0 None false) >> 
  ok (sg 1) (C_create_nft [] 0 None false) >> ok (sg 1) (C_create_nft [] 0 None false) >> 
  ok (sg 1) (C_create_nft [] 0 None false) >> ok (sg 2) (C_create_nft [] 0 None false) >> 
  ok (sg 2) (C_create_nft [] 0 None false) >> ok (sg 2) (C_create_nft [] 0 None false) >> 
  now_ (fun s1 => chk (fun _ => (if nfts (s_nft s1) !! 0 then true else false) = true) >> 
  chk (fun _ => (if nfts (s_nft s1) !! 1 then true else false) = true) >> 
  chk (fun _ => (if nfts (s_nft s1) !! 2 then true else false) = true) >> 
  chk (fun _ => (if nfts (s_nft s1) !! 3 then true else false) = true) >> 
  chk (fun _ => (if nfts (s_nft s1) !! 4 then true else false) = true) >> 
  chk (fun _ => (if nfts (s_nft s1) !! 5 then true else false) = true) >> 
  chk (fun _ => (if nfts (s_nft s1) !! 6 then true else false) = true) >> 
  chk (fun _ => (if nfts (s_nft s1) !! 7 then true else false) = true) >> 
  chk (fun _ => (if nfts (s_nft s1) !! 8 then true else false) = true) >> 
  chk (fun _ => (if nfts (s_nft s1) !! 9 then true else false) = true) >> 
  chk (fun _ => (if nfts (s_nft s1) !! 10 then true else false) = true) >> 
  chk (fun _ => (if nfts (s_nft s1) !! 11 then true else false) = true) >> 
  chk (fun _ => (if nfts (s_nft s1) !! 12 then true else false) = true) >> 
  ok (sg 1) (C_create_contract 0 (FixedIn 10) (AutoAcceptance (Some [2])) true (RentNFT 10) (FixedTokens 10) (FixedTokens 10)) >> 
  ok (sg 1) (C_create_contract 1 (FixedIn 10) (AutoAcceptance (Some [2])) true (RentTokens 100) (FlexibleTokens 10) (FlexibleTokens 10)) >> 
  ok (sg 1) (C_create_contract 2 (FixedIn 10) (ManualAcceptance (Some [2])) true (RentNFT 11) (FeeNFT 5) (FeeNFT 10)) >> 
  ok (sg 1) (C_create_contract 3 (SubscriptionIn 10 (Some 100) true) (ManualAcceptance (Some [2])) true (RentTokens 100) (FixedTokens 10) (FixedTokens 10)) >> 
  ok (sg 1) (C_create_contract 4 (SubscriptionIn 10 None false) (AutoAcceptance (Some [2])) false (RentTokens 100) NoFee (FixedTokens 10)) >> 
  ok (sg 1) (C_create_contract 8 (FixedIn 10) (AutoAcceptance (Some [2])) true (RentNFT 11) (FeeNFT 9) (FeeNFT 10)) >> 
  now_ (fun s2 => chk (fun _ => (if contracts (s_rent s2) !! 0 then true else false) = true) >> 
  chk (fun _ => (if contracts (s_rent s2) !! 1 then true else false) = true) >> 
  chk (fun _ => (if contracts (s_rent s2) !! 2 then true else false) = true) >> 
  chk (fun _ => (if contracts (s_rent s2) !! 3 then true else false) = true) >> 
  chk (fun _ => (if contracts (s_rent s2) !! 4 then true else false) = true) >> 
  chk (fun _ => (if contracts (s_rent s2) !! 8 then true else false) = true) >> 
  no (sg 2) (C_accept_subscription_terms 99 101 20 (Some 40) true) (Rent_err R_ContractNotFound) >> fin)))
  (start_with [(ALICE, 1000000); (BOB, 1000000); (CHARLIE, 1000000)]).
Proof. replay. Qed.
Example not_the_contract_rentee : (ok (sg 1) (C_create_nft [] 0 None false) >> ok (sg 1) (C_create_nft [] 0 None false) >> ok (sg 1) (C_create_nft [] 0 None false) >> 
  ok (sg 1) (C_create_nft [] 0 None false) >> ok (sg 1) (C_create_nft [] 0 None false) >> 
  ok (sg 1) (C_create_nft [] 0 None false) >> ok (sg 1) (C_create_nft [] 0 None false) >> 
  ok (sg 1) (C_create_nft [] 0 None false) >> ok (sg 1) (C_create_nft [] 0 None false) >> 
  ok (sg 1) (C_create_nft [] 0 None false) >> ok (sg 2) (C_create_nft [] 0 None false) >> 
  ok (sg 2) (C_create_nft [] 0 None false) >> ok (sg 2) (C_create_nft [] 0 None false) >> 
  now_ (fun s1 => chk (fun _ => (if nfts (s_nft s1) !! 0 then true else false) = true) >> 
  chk (fun _ => (if nfts (s_nft s1) !! 1 then true else false) = true) >> 
  chk (fun _ => (if nfts (s_nft s1) !! 2 then true else false) = true) >> 
  chk (fun _ => (if nfts (s_nft s1) !! 3 then true else false) = true) >> 
  chk (fun _ => (if nfts (s_nft s1) !! 4 then true else false) = true) >> 
  chk (fun _ => (if nfts (s_nft s1) !! 5 then true else false) = true) >> 
  chk (fun _ => (if nfts (s_nft s1) !! 6 then true else false) = true) >> 
  chk (fun _ => (if nfts (s_nft s1) !! 7 then true else false) = true) >> 
  chk (fun _ => (if nfts (s_nft s1) !! 8 then true else false) = true) >> 
  chk (fun _ => (if nfts (s_nft s1) !! 9 then true else false) = true) >> 
  chk (fun _ => (if nfts (s_nft s1) !! 10 then true else false) = true) >> 
  chk (fun _ => (if nfts (s_nft s1) !! 11 then true else false) = true) >> 
  chk (fun _ => (if nfts (s_nft s1) !! 12 then true else false) = true) >> 
  ok (sg 1) (C_create_contract 0 (FixedIn 10) (AutoAcceptance (Some [2])) true (RentNFT 10) (FixedTokens 10) (FixedTokens 10)) >> 
  ok (sg 1) (C_create_contract 1 (FixedIn 10) (AutoAcceptance (Some [2])) true (RentTokens 100) (FlexibleTokens 10) (FlexibleTokens 10)) >> 
  ok (sg 1) (C_create_contract 2 (FixedIn 10) (ManualAcceptance (Some [2])) true (RentNFT 11) (FeeNFT 5) (FeeNFT 10)) >> 
  ok (sg 1) (C_create_contract 3 (SubscriptionIn 10 (Some 100) true) (ManualAcceptance (Some [2])) true (RentTokens 100) (FixedTokens 10) (FixedTokens 10)) >> 
  ok (sg 1) (C_create_contract 4 (SubscriptionIn 10 None false) (AutoAcceptance (Some [2])) false (RentTokens 100) NoFee (FixedTokens 10)) >> 
  ok (sg 1) (C_create_contract 8 (FixedIn 10) (AutoAcceptance (Some [2])) true (RentNFT 11) (FeeNFT 9) (FeeNFT 10)) >> 
  now_ (fun s2 => chk (fun _ => (if contracts (s_rent s2) !! 0 then true else false) = true) >> 
  chk (fun _ => (if contracts (s_rent s2) !! 1 then true else false) = true) >> 
  chk (fun _ => (if contracts (s_rent s2) !! 2 then true else false) = true) >> 
  chk (fun _ => (if contracts (s_rent s2) !! 3 then true else false) = true) >> 
  chk (fun _ => (if contracts (s_rent s2) !! 4 then true else false) = true) >> 
  chk (fun _ => (if contracts (s_rent s2) !! 8 then true else false) = true) >> ok (sg 2) (C_make_rent_offer 3 1) >> 
  ok (sg 1) (C_accept_rent_offer 3 2) >> ok (sg 1) (C_change_subscription_terms 3 101 20 (Some 40) true) >> 
  no (sg 3) (C_accept_subscription_terms 3 101 20 (Some 40) true) (Rent_err R_NotTheContractRentee) >> fin)))
  (start_with [(ALICE, 1000000); (BOB, 1000000); (CHARLIE, 1000000)]).
Proof. replay. Qed.
Example contract_terms_already_accepted : (ok (sg 1) (C_create_nft [] 0 None false) >> ok (sg 1) (C_create_nft [] 0 None false) >> ok (sg 1) (C_create_nft [] 0 None false) >> 
  ok (sg 1) (C_create_nft [] 0 None false) >> ok (sg 1) (C_create_nft [] 0 None false) >> 
  ok (sg 1) (C_create_nft [] 0 None false) >> ok (sg 1) (C_create_nft [] 0 None false) >> 
  ok (sg 1) (C_create_nft [] 0 None false) >> ok (sg 1) (C_create_nft [] 0 None false) >> 
  ok (sg 1) (C_create_nft [] 0 None false) >> ok (sg 2) (C_create_nft [] 0 None false) >> 
  ok (sg 2) (C_create_nft [] 0 None false) >> ok (sg 2) (C_create_nft [] 0 None false) >> 
  now_ (fun s1 => chk (fun _ => (if nfts (s_nft s1) !! 0 then true else false) = true) >> 
  chk (fun _ => (if nfts (s_nft s1) !! 1 then true else false) = true) >> 
  chk (fun _ => (if nfts (s_nft s1) !! 2 then true else false) = true) >> 
  chk (fun _ => (if nfts (s_nft s1) !! 3 then true else false) = true) >> 
  chk (fun _ => (if nfts (s_nft s1) !! 4 then true else false) = true) >> 
  chk (fun _ => (if nfts (s_nft s1) !! 5 then true else false) = true) >> 
  chk (fun _ => (if nfts (s_nft s1) !! 6 then true else false) = true) >> 
  chk (fun _ => (if nfts (s_nft s1) !! 7 then true else false) = true) >> 
  chk (fun _ => (if nfts (s_nft s1) !! 8 then true else false) = true) >> 
  chk (fun _ => (if nfts (s_nft s1) !! 9 then true else false) = true) >> 
  chk (fun _ => (if nfts (s_nft s1) !! 10 then true else false) = true) >> 
  chk (fun _ => (if nfts (s_nft s1) !! 11 then true else false) = true) >> 
  chk (fun _ => (if nfts (s_nft s1) !! 12 then true else false) = true) >> 
  ok (sg 1) (C_create_contract 0 (FixedIn 10) (AutoAcceptance (Some [2])) true (RentNFT 10) (FixedTokens 10) (FixedTokens 10)) >> 
  ok (sg 1) (C_create_contract 1 (FixedIn 10) (AutoAcceptance (Some [2])) true (RentTokens 100) (FlexibleTokens 10) (FlexibleTokens 10)) >> 
  ok (sg 1) (C_create_contract 2 (FixedIn 10) (ManualAcceptance (Some [2])) true (RentNFT 11) (FeeNFT 5) (FeeNFT 10)) >> 
  ok (sg 1) (C_create_contract 3 (SubscriptionIn 10 (Some 100) true) (ManualAcceptance (Some [2])) true (RentTokens 100) (FixedTokens 10) (FixedTokens 10)) >> 
  ok (sg 1) (C_create_contract 4 (SubscriptionIn 10 None false) (AutoAcceptance (Some [2])) false (RentTokens 100) NoFee (FixedTokens 10)) >> 
  ok (sg 1) (C_create_contract 8 (FixedIn 10) (AutoAcceptance (Some [2])) true (RentNFT 11) (FeeNFT 9) (FeeNFT 10)) >> 
  now_ (fun s2 => chk (fun _ => (if contracts (s_rent s2) !! 0 then true else false) = true) >> 
  chk (fun _ => (if contracts (s_rent s2) !! 1 then true else false) = true) >> 
  chk (fun _ => (if contracts (s_rent s2) !! 2 then true else false) = true) >> 
  chk (fun _ => (if contracts (s_rent s2) !! 3 then true else false) = true) >> 
  chk (fun _ => (if contracts (s_rent s2) !! 4 then true else false) = true) >> 
  chk (fun _ => (if contracts (s_rent s2) !! 8 then true else false) = true) >> ok (sg 2) (C_make_rent_offer 3 1) >> 
  ok (sg 1) (C_accept_rent_offer 3 2) >> 
  no (sg 2) (C_accept_subscription_terms 3 101 20 (Some 40) true) (Rent_err R_ContractTermsAlreadyAccepted) >> fin)))
  (start_with [(ALICE, 1000000); (BOB, 1000000); (CHARLIE, 1000000)]).
Proof. replay. Qed.
Example contract_terms_do_not_match : (ok (sg 1) (C_create_nft [] 0 None false) >> ok (sg 1) (C_create_nft [] 0 None false) >> ok (sg 1) (C_create_nft [] 0 None false) >> 
  ok (sg 1) (C_create_nft [] 0 None false) >> ok (sg 1) (C_create_nft [] 0 None false) >> 
  ok (sg 1) (C_create_nft [] 0 None false) >> ok (sg 1) (C_create_nft [] 0 None false) >> 
  ok (sg 1) (C_create_nft [] 0 None false) >> ok (sg 1) (C_create_nft [] 0 None false) >> 
  ok (sg 1) (C_create_nft [] 0 None false) >> ok (sg 2) (C_create_nft [] 0 None false) >> 
  ok (sg 2) (C_create_nft [] 0 None false) >> ok (sg 2) (C_create_nft [] 0 None false) >> 
  now_ (fun s1 => chk (fun _ => (if nfts (s_nft s1) !! 0 then true else false) = true) >> 
  chk (fun _ => (if nfts (s_nft s1) !! 1 then true else false) = true) >> 
  chk (fun _ => (if nfts (s_nft s1) !! 2 then true else false) = true) >> 
  chk (fun _ => (if nfts (s_nft s1) !! 3 then true else false) = true) >> 
  chk (fun _ => (if nfts (s_nft s1) !! 4 then true else false) = true) >> 
  chk (fun _ => (if nfts (s_nft s1) !! 5 then true else false) = true) >> 
  chk (fun _ => (if nfts (s_nft s1) !! 6 then true else false) = true) >> 
  chk (fun _ => (if nfts (s_nft s1) !! 7 then true else false) = true) >> 
  chk (fun _ => (if nfts (s_nft s1) !! 8 then true else false) = true) >> 
  chk (fun _ => (if nfts (s_nft s1) !! 9 then true else false) = true) >> 
  chk (fun _ => (if nfts (s_nft s1) !! 10 then true else false) = true) >> 
  chk (fun _ => (if nfts (s_nft s1) !! 11 then true else false) = true) >> 
  chk (fun _ => (if nfts (s_nft s1) !! 12 then true else false) = true) >> 
  ok (sg 1) (C_create_contract 0 (FixedIn 10) (AutoAcceptance (Some [2])) true (RentNFT 10) (FixedTokens 10) (FixedTokens 10)) >> 
  ok (sg 1) (C_create_contract 1 (FixedIn 10) (AutoAcceptance (Some [2])) true (RentTokens 100) (FlexibleTokens 10) (FlexibleTokens 10)) >> 
  ok (sg 1) (C_create_contract 2 (FixedIn 10) (ManualAcceptance (Some [2])) true (RentNFT 11) (FeeNFT 5) (FeeNFT 10)) >> 
  ok (sg 1) (C_create_contract 3 (SubscriptionIn 10 (Some 100) true) (ManualAcceptance (Some [2])) true (RentTokens 100) (FixedTokens 10) (FixedTokens 10)) >> 
  ok (sg 1) (C_create_contract 4 (SubscriptionIn 10 None false) (AutoAcceptance (Some [2])) false (RentTokens 100) NoFee (FixedTokens 10)) >> 
  ok (sg 1) (C_create_contract 8 (FixedIn 10) (AutoAcceptance (Some [2])) true (RentNFT 11) (FeeNFT 9) (FeeNFT 10)) >> 
  now_ (fun s2 => chk (fun _ => (if contracts (s_rent s2) !! 0 then true else false) = true) >> 
  chk (fun _ => (if contracts (s_rent s2) !! 1 then true else false) = true) >> 
  chk (fun _ => (if contracts (s_rent s2) !! 2 then true else false) = true) >> 
  chk (fun _ => (if contracts (s_rent s2) !! 3 then true else false) = true) >> 
  chk (fun _ => (if contracts (s_rent s2) !! 4 then true else false) = true) >> 
  chk (fun _ => (if contracts (s_rent s2) !! 8 then true else false) = true) >> ok (sg 2) (C_make_rent_offer 3 1) >> 
  ok (sg 1) (C_accept_rent_offer 3 2) >> ok (sg 1) (C_change_subscription_terms 3 101 20 (Some 40) true) >> 
  no (sg 2) (C_accept_subscription_terms 3 102 20 (Some 40) true) (Rent_err R_ContractTermsDoNotMatch) >> 
  no (sg 2) (C_accept_subscription_terms 3 101 30 (Some 40) true) (Rent_err R_ContractTermsDoNotMatch) >> 
  no (sg 2) (C_accept_subscription_terms 3 101 20 (Some 30) true) (Rent_err R_ContractTermsDoNotMatch) >> 
  no (sg 2) (C_accept_subscription_terms 3 101 20 (Some 40) false) (Rent_err R_ContractTermsDoNotMatch) >> fin)))
  (start_with [(ALICE, 1000000); (BOB, 1000000); (CHARLIE, 1000000)]).
Proof. replay. Qed.

(** * hooks *)
Example end_contract_fixed : (ok (sg 1) (C_create_nft [] 0 None false) >> ok (sg 1) (C_create_nft [] 0 None false) >> ok (sg 1) (C_create_nft [] 0 None false) >> 
  ok (sg 1) (C_create_nft [] 0 None false) >> ok (sg 1) (C_create_nft [] 0 None false) >> 
  ok (sg 1) (C_create_nft [] 0 None false) >> ok (sg 1) (C_create_nft [] 0 None false) >> 
  ok (sg 1) (C_create_nft [] 0 None false) >> ok (sg 1) (C_create_nft [] 0 None false) >> 
  ok (sg 1) (C_create_nft [] 0 None false) >> ok (sg 2) (C_create_nft [] 0 None false) >> 
  ok (sg 2) (C_create_nft [] 0 None false) >> ok (sg 2) (C_create_nft [] 0 None false) >> 
  now_ (fun s1 => chk (fun _ => (if nfts (s_nft s1) !! 0 then true else false) = true) >> 
  chk (fun _ => (if nfts (s_nft s1) !! 1 then true else false) = true) >> 
  chk (fun _ => (if nfts (s_nft s1) !! 2 then true else false) = true) >> 
  chk (fun _ => (if nfts (s_nft s1) !! 3 then true else false) = true) >> 
  chk (fun _ => (if nfts (s_nft s1) !! 4 then true else false) = true) >> 
  chk (fun _ => (if nfts (s_nft s1) !! 5 then true else false) = true) >> 
  chk (fun _ => (if nfts (s_nft s1) !! 6 then true else false) = true) >> 
  chk (fun _ => (if nfts (s_nft s1) !! 7 then true else false) = true) >> 
  chk (fun _ => (if nfts (s_nft s1) !! 8 then true else false) = true) >> 
  chk (fun _ => (if nfts (s_nft s1) !! 9 then true else false) = true) >> 
  chk (fun _ => (if nfts (s_nft s1) !! 10 then true else false) = true) >> 
  chk (fun _ => (if nfts (s_nft s1) !! 11 then true else false) = true) >> 
  chk (fun _ => (if nfts (s_nft s1) !! 12 then true else false) = true) >> 
  ok (sg 1) (C_create_contract 0 (FixedIn 10) (AutoAcceptance (Some [2])) true (RentNFT 10) (FixedTokens 10) (FixedTokens 10)) >> 
  ok (sg 1) (C_create_contract 1 (FixedIn 10) (AutoAcceptance (Some [2])) true (RentTokens 100) (FlexibleTokens 10) (FlexibleTokens 10)) >> 
  ok (sg 1) (C_create_contract 2 (FixedIn 10) (ManualAcceptance (Some [2])) true (RentNFT 11) (FeeNFT 5) (FeeNFT 10)) >> 
  ok (sg 1) (C_create_contract 3 (SubscriptionIn 10 (Some 100) true) (ManualAcceptance (Some [2])) true (RentTokens 100) (FixedTokens 10) (FixedTokens 10)) >> 
  ok (sg 1) (C_create_contract 4 (SubscriptionIn 10 None false) (AutoAcceptance (Some [2])) false (RentTokens 100) NoFee (FixedTokens 10)) >> 
  ok (sg 1) (C_create_contract 8 (FixedIn 10) (AutoAcceptance (Some [2])) true (RentNFT 11) (FeeNFT 9) (FeeNFT 10)) >> 
  now_ (fun s2 => chk (fun _ => (if contracts (s_rent s2) !! 0 then true else false) = true) >> 
  chk (fun _ => (if contracts (s_rent s2) !! 1 then true else false) = true) >> 
  chk (fun _ => (if contracts (s_rent s2) !! 2 then true else false) = true) >> 
  chk (fun _ => (if contracts (s_rent s2) !! 3 then true else false) = true) >> 
  chk (fun _ => (if contracts (s_rent s2) !! 4 then true else false) = true) >> 
  chk (fun _ => (if contracts (s_rent s2) !! 8 then true else false) = true) >> ok (sg 2) (C_rent 0 1) >> blk 11 >> 
  now_ (fun s3 => chk (fun _ => (if nfts (s_nft s3) !! 10 then true else false) = true) >> 
  chk (fun _ => (if contracts (s_rent s3) !! 0 then false else true) = true) >> 
  chk (fun _ => (owner (default dnft (nfts (s_nft s3) !! 10))) = 1) >> last_ (Ev_ContractEnded 0 None) >> fin))))
  (start_with [(ALICE, 1000000); (BOB, 1000000); (CHARLIE, 1000000)]).
Proof. replay. Qed.
Example end_contract_subscription : (ok (sg 1) (C_create_nft [] 0 None false) >> ok (sg 1) (C_create_nft [] 0 None false) >> ok (sg 1) (C_create_nft [] 0 None false) >> 
  ok (sg 1) (C_create_nft [] 0 None false) >> ok (sg 1) (C_create_nft [] 0 None false) >> 
  ok (sg 1) (C_create_nft [] 0 None false) >> ok (sg 1) (C_create_nft [] 0 None false) >> 
  ok (sg 1) (C_create_nft [] 0 None false) >> ok (sg 1) (C_create_nft [] 0 None false) >> 
  ok (sg 1) (C_create_nft [] 0 None false) >> ok (sg 2) (C_create_nft [] 0 None false) >> 
  ok (sg 2) (C_create_nft [] 0 None false) >> ok (sg 2) (C_create_nft [] 0 None false) >> 
  now_ (fun s1 => chk (fun _ => (if nfts (s_nft s1) !! 0 then true else false) = true) >> 
  chk (fun _ => (if nfts (s_nft s1) !! 1 then true else false) = true) >> 
  chk (fun _ => (if nfts (s_nft s1) !! 2 then true else false) = true) >> 
  chk (fun _ => (if nfts (s_nft s1) !! 3 then true else false) = true) >> 
  chk (fun _ => (if nfts (s_nft s1) !! 4 then true else false) = true) >> 
  chk (fun _ => (if nfts (s_nft s1) !! 5 then true else false) = true) >> 
  chk (fun _ => (if nfts (s_nft s1) !! 6 then true else false) = true) >> 
  chk (fun _ => (if nfts (s_nft s1) !! 7 then true else false) = true) >> 
  chk (fun _ => (if nfts (s_nft s1) !! 8 then true else false) = true) >> 
  chk (fun _ => (if nfts (s_nft s1) !! 9 then true else false) = true) >> 
  chk (fun _ => (if nfts (s_nft s1) !! 10 then true else false) = true) >> 
  chk (fun _ => (if nfts (s_nft s1) !! 11 then true else false) = true) >> 
  chk (fun _ => (if nfts (s_nft s1) !! 12 then true else false) = true) >> 
  ok (sg 1) (C_create_contract 0 (FixedIn 10) (AutoAcceptance (Some [2])) true (RentNFT 10) (FixedTokens 10) (FixedTokens 10)) >> 
  ok (sg 1) (C_create_contract 1 (FixedIn 10) (AutoAcceptance (Some [2])) true (RentTokens 100) (FlexibleTokens 10) (FlexibleTokens 10)) >> 
  ok (sg 1) (C_create_contract 2 (FixedIn 10) (ManualAcceptance (Some [2])) true (RentNFT 11) (FeeNFT 5) (FeeNFT 10)) >> 
  ok (sg 1) (C_create_contract 3 (SubscriptionIn 10 (Some 100) true) (ManualAcceptance (Some [2])) true (RentTokens 100) (FixedTokens 10) (FixedTokens 10)) >> 
  ok (sg 1) (C_create_contract 4 (SubscriptionIn 10 None false) (AutoAcceptance (Some [2])) false (RentTokens 100) NoFee (FixedTokens 10)) >> 
  ok (sg 1) (C_create_contract 8 (FixedIn 10) (AutoAcceptance (Some [2])) true (RentNFT 11) (FeeNFT 9) (FeeNFT 10)) >> 
  now_ (fun s2 => chk (fun _ => (if contracts (s_rent s2) !! 0 then true else false) = true) >> 
  chk (fun _ => (if contracts (s_rent s2) !! 1 then true else false) = true) >> 
  chk (fun _ => (if contracts (s_rent s2) !! 2 then true else false) = true) >> 
  chk (fun _ => (if contracts (s_rent s2) !! 3 then true else false) = true) >> 
  chk (fun _ => (if contracts (s_rent s2) !! 4 then true else false) = true) >> 
  chk (fun _ => (if contracts (s_rent s2) !! 8 then true else false) = true) >> ok (sg 2) (C_make_rent_offer 3 1) >> 
  ok (sg 1) (C_accept_rent_offer 3 2) >> blk 101 >> 
  now_ (fun s3 => chk (fun _ => (contracts (s_rent s3) !! 3) = None) >> chk (fun _ => (bal 1 s3) = (((bal 1 s2) + 1000) + 10)) >> 
  chk (fun _ => (bal 2 s3) = ((bal 2 s2) - 1000)) >> last_ (Ev_ContractEnded 3 None) >> fin))))
  (start_with [(ALICE, 1000000); (BOB, 1000000); (CHARLIE, 1000000)]).
Proof. replay. Qed.
Example end_contract_renter : (ok (sg 1) (C_create_nft [] 0 None false) >> ok (sg 1) (C_create_nft [] 0 None false) >> ok (sg 1) (C_create_nft [] 0 None false) >> 
  ok (sg 1) (C_create_nft [] 0 None false) >> ok (sg 1) (C_create_nft [] 0 None false) >> 
  ok (sg 1) (C_create_nft [] 0 None false) >> ok (sg 1) (C_create_nft [] 0 None false) >> 
  ok (sg 1) (C_create_nft [] 0 None false) >> ok (sg 1) (C_create_nft [] 0 None false) >> 
  ok (sg 1) (C_create_nft [] 0 None false) >> ok (sg 2) (C_create_nft [] 0 None false) >> 
  ok (sg 2) (C_create_nft [] 0 None false) >> ok (sg 2) (C_create_nft [] 0 None false) >> 
  now_ (fun s1 => chk (fun _ => (if nfts (s_nft s1) !! 0 then true else false) = true) >> 
  chk (fun _ => (if nfts (s_nft s1) !! 1 then true else false) = true) >> 
  chk (fun _ => (if nfts (s_nft s1) !! 2 then true else false) = true) >> 
  chk (fun _ => (if nfts (s_nft s1) !! 3 then true else false) = true) >> 
  chk (fun _ => (if nfts (s_nft s1) !! 4 then true else false) = true) >> 
  chk (fun _ => (if nfts (s_nft s1) !! 5 then true else false) = true) >> 
  chk (fun _ => (if nfts (s_nft s1) !! 6 then true else false) = true) >> 
  chk (fun _ => (if nfts (s_nft s1) !! 7 then true else false) = true) >> 
  chk (fun _ => (if nfts (s_nft s1) !! 8 then true else false) = true) >> 
  chk (fun _ => (if nfts (s_nft s1) !! 9 then true else false) = true) >> 
  chk (fun _ => (if nfts (s_nft s1) !! 10 then true else false) = true) >> 
  chk (fun _ => (if nfts (s_nft s1) !! 11 then true else false) = true) >> 
  chk (fun _ => (if nfts (s_nft s1) !! 12 then true else false) = true) >> 
  ok (sg 1) (C_create_contract 0 (FixedIn 10) (AutoAcceptance (Some [2])) true (RentNFT 10) (FixedTokens 10) (FixedTokens 10)) >> 
  ok (sg 1) (C_create_contract 1 (FixedIn 10) (AutoAcceptance (Some [2])) true (RentTokens 100) (FlexibleTokens 10) (FlexibleTokens 10)) >> 
  ok (sg 1) (C_create_contract 2 (FixedIn 10) (ManualAcceptance (Some [2])) true (RentNFT 11) (FeeNFT 5) (FeeNFT 10)) >> 
  ok (sg 1) (C_create_contract 3 (SubscriptionIn 10 (Some 100) true) (ManualAcceptance (Some [2])) true (RentTokens 100) (FixedTokens 10) (FixedTokens 10)) >> 
  ok (sg 1) (C_create_contract 4 (SubscriptionIn 10 None false) (AutoAcceptance (Some [2])) false (RentTokens 100) NoFee (FixedTokens 10)) >> 
  ok (sg 1) (C_create_contract 8 (FixedIn 10) (AutoAcceptance (Some [2])) true (RentNFT 11) (FeeNFT 9) (FeeNFT 10)) >> 
  now_ (fun s2 => chk (fun _ => (if contracts (s_rent s2) !! 0 then true else false) = true) >> 
  chk (fun _ => (if contracts (s_rent s2) !! 1 then true else false) = true) >> 
  chk (fun _ => (if contracts (s_rent s2) !! 2 then true else false) = true) >> 
  chk (fun _ => (if contracts (s_rent s2) !! 3 then true else false) = true) >> 
  chk (fun _ => (if contracts (s_rent s2) !! 4 then true else false) = true) >> 
  chk (fun _ => (if contracts (s_rent s2) !! 8 then true else false) = true) >> ok (sg 2) (C_make_rent_offer 3 1) >> 
  ok (sg 1) (C_accept_rent_offer 3 2) >> ok (sg 1) (C_change_subscription_terms 3 100 5 (Some 50) true) >> blk 11 >> 
  now_ (fun s3 => chk (fun _ => (if contracts (s_rent s3) !! 3 then false else true) = true) >> 
  chk (fun _ => (bal 1 s3) = (((bal 1 s2) + 100) + 10)) >> chk (fun _ => (bal 2 s3) = ((bal 2 s2) - 100)) >> 
  last_ (Ev_ContractEnded 3 None) >> fin))))
  (start_with [(ALICE, 1000000); (BOB, 1000000); (CHARLIE, 1000000)]).
Proof. replay. Qed.
Example end_contract_rentee : (ok (sg 1) (C_create_nft [] 0 None false) >> ok (sg 1) (C_create_nft [] 0 None false) >> ok (sg 1) (C_create_nft [] 0 None false) >> 
  ok (sg 1) (C_create_nft [] 0 None false) >> ok (sg 1) (C_create_nft [] 0 None false) >> 
  ok (sg 1) (C_create_nft [] 0 None false) >> ok (sg 1) (C_create_nft [] 0 None false) >> 
  ok (sg 1) (C_create_nft [] 0 None false) >> ok (sg 1) (C_create_nft [] 0 None false) >> 
  ok (sg 1) (C_create_nft [] 0 None false) >> ok (sg 2) (C_create_nft [] 0 None false) >> 
  ok (sg 2) (C_create_nft [] 0 None false) >> ok (sg 2) (C_create_nft [] 0 None false) >> 
  now_ (fun s1 => chk (fun _ => (if nfts (s_nft s1) !! 0 then true else false) = true) >> 
  chk (fun _ => (if nfts (s_nft s1) !! 1 then true else false) = true) >> 
  chk (fun _ => (if nfts (s_nft s1) !! 2 then true else false) = true) >> 
  chk (fun _ => (if nfts (s_nft s1) !! 3 then true else false) = true) >> 
  chk (fun _ => (if nfts (s_nft s1) !! 4 then true else false) = true) >> 
  chk (fun _ => (if nfts (s_nft s1) !! 5 then true else false) = true) >> 
  chk (fun _ => (if nfts (s_nft s1) !! 6 then true else false) = true) >> 
  chk (fun _ => (if nfts (s_nft s1) !! 7 then true else false) = true) >> 
  chk (fun _ => (if nfts (s_nft s1) !! 8 then true else false) = true) >> 
  chk (fun _ => (if nfts (s_nft s1) !! 9 then true else false) = true) >> 
  chk (fun _ => (if nfts (s_nft s1) !! 10 then true else false) = true) >> 
  chk (fun _ => (if nfts (s_nft s1) !! 11 then true else false) = true) >> 
  chk (fun _ => (if nfts (s_nft s1) !! 12 then true else false) = true) >> 
  ok (sg 1) (C_create_contract 0 (FixedIn 10) (AutoAcceptance (Some [2])) true (RentNFT 10) (FixedTokens 10) (FixedTokens 10)) >> 
  ok (sg 1) (C_create_contract 1 (FixedIn 10) (AutoAcceptance (Some [2])) true (RentTokens 100) (FlexibleTokens 10) (FlexibleTokens 10)) >> 
  ok (sg 1) (C_create_contract 2 (FixedIn 10) (ManualAcceptance (Some [2])) true (RentNFT 11) (FeeNFT 5) (FeeNFT 10)) >> 
  ok (sg 1) (C_create_contract 3 (SubscriptionIn 10 (Some 100) true) (ManualAcceptance (Some [2])) true (RentTokens 100) (FixedTokens 10) (FixedTokens 10)) >> 
  ok (sg 1) (C_create_contract 4 (SubscriptionIn 10 None false) (AutoAcceptance (Some [2])) false (RentTokens 100) NoFee (FixedTokens 10)) >> 
  ok (sg 1) (C_create_contract 8 (FixedIn 10) (AutoAcceptance (Some [2])) true (RentNFT 11) (FeeNFT 9) (FeeNFT 10)) >> 
  now_ (fun s2 => chk (fun _ => (if contracts (s_rent s2) !! 0 then true else false) = true) >> 
  chk (fun _ => (if contracts (s_rent s2) !! 1 then true else false) = true) >> 
  chk (fun _ => (if contracts (s_rent s2) !! 2 then true else false) = true) >> 
  chk (fun _ => (if contracts (s_rent s2) !! 3 then true else false) = true) >> 
  chk (fun _ => (if contracts (s_rent s2) !! 4 then true else false) = true) >> 
  chk (fun _ => (if contracts (s_rent s2) !! 8 then true else false) = true) >> ok (sg 2) (C_make_rent_offer 3 1) >> 
  ok (sg 1) (C_accept_rent_offer 3 2) >> set_bal 2 0 >> blk 11 >> 
  now_ (fun s3 => chk (fun _ => (if contracts (s_rent s3) !! 3 then false else true) = true) >> 
  chk (fun _ => (bal 1 s3) = (((bal 1 s2) + 100) + 10)) >> chk (fun _ => (bal 2 s3) = 10) >> last_ (Ev_ContractEnded 3 None) >> fin))))
  (start_with [(ALICE, 1000000); (BOB, 1000000); (CHARLIE, 1000000)]).
Proof. replay. Qed.
Example renew_contract : (ok (sg 1) (C_create_nft [] 0 None false) >> ok (sg 1) (C_create_nft [] 0 None false) >> ok (sg 1) (C_create_nft [] 0 None false) >> 
  ok (sg 1) (C_create_nft [] 0 None false) >> ok (sg 1) (C_create_nft [] 0 None false) >> 
  ok (sg 1) (C_create_nft [] 0 None false) >> ok (sg 1) (C_create_nft [] 0 None false) >> 
  ok (sg 1) (C_create_nft [] 0 None false) >> ok (sg 1) (C_create_nft [] 0 None false) >> 
  ok (sg 1) (C_create_nft [] 0 None false) >> ok (sg 2) (C_create_nft [] 0 None false) >> 
  ok (sg 2) (C_create_nft [] 0 None false) >> ok (sg 2) (C_create_nft [] 0 None false) >> 
  now_ (fun s1 => chk (fun _ => (if nfts (s_nft s1) !! 0 then true else false) = true) >> 
  chk (fun _ => (if nfts (s_nft s1) !! 1 then true else false) = true) >> 
  chk (fun _ => (if nfts (s_nft s1) !! 2 then true else false) = true) >> 
  chk (fun _ => (if nfts (s_nft s1) !! 3 then true else false) = true) >> 
  chk (fun _ => (if nfts (s_nft s1) !! 4 then true else false) = true) >> 
  chk (fun _ => (if nfts (s_nft s1) !! 5 then true else false) = true) >> 
  chk (fun _ => (if nfts (s_nft s1) !! 6 then true else false) = true) >> 
  chk (fun _ => (if nfts (s_nft s1) !! 7 then true else false) = true) >> 
  chk (fun _ => (if nfts (s_nft s1) !! 8 then true else false) = true) >> 
  chk (fun _ => (if nfts (s_nft s1) !! 9 then true else false) = true) >> 
  chk (fun _ => (if nfts (s_nft s1) !! 10 then true else false) = true) >> 
  chk (fun _ => (if nfts (s_nft s1) !! 11 then true else false) = true) >> 
  chk (fun _ => (if nfts (s_nft s1) !! 12 then true else false) = true) >> 
  ok (sg 1) (C_create_contract 0 (FixedIn 10) (AutoAcceptance (Some [2])) true (RentNFT 10) (FixedTokens 10) (FixedTokens 10)) >> 
  ok (sg 1) (C_create_contract 1 (FixedIn 10) (AutoAcceptance (Some [2])) true (RentTokens 100) (FlexibleTokens 10) (FlexibleTokens 10)) >> 
  ok (sg 1) (C_create_contract 2 (FixedIn 10) (ManualAcceptance (Some [2])) true (RentNFT 11) (FeeNFT 5) (FeeNFT 10)) >> 
  ok (sg 1) (C_create_contract 3 (SubscriptionIn 10 (Some 100) true) (ManualAcceptance (Some [2])) true (RentTokens 100) (FixedTokens 10) (FixedTokens 10)) >> 
  ok (sg 1) (C_create_contract 4 (SubscriptionIn 10 None false) (AutoAcceptance (Some [2])) false (RentTokens 100) NoFee (FixedTokens 10)) >> 
  ok (sg 1) (C_create_contract 8 (FixedIn 10) (AutoAcceptance (Some [2])) true (RentNFT 11) (FeeNFT 9) (FeeNFT 10)) >> 
  now_ (fun s2 => chk (fun _ => (if contracts (s_rent s2) !! 0 then true else false) = true) >> 
  chk (fun _ => (if contracts (s_rent s2) !! 1 then true else false) = true) >> 
  chk (fun _ => (if contracts (s_rent s2) !! 2 then true else false) = true) >> 
  chk (fun _ => (if contracts (s_rent s2) !! 3 then true else false) = true) >> 
  chk (fun _ => (if contracts (s_rent s2) !! 4 then true else false) = true) >> 
  chk (fun _ => (if contracts (s_rent s2) !! 8 then true else false) = true) >> ok (sg 2) (C_make_rent_offer 3 1) >> 
  ok (sg 1) (C_accept_rent_offer 3 2) >> 
  now_ (fun s3 => chk (fun _ => (q_get 3 (q_sub (queues (s_rent s3)))) = (Some 11)) >> blk 11 >> 
  now_ (fun s4 => chk (fun _ => (if contracts (s_rent s4) !! 3 then true else false) = true) >> 
  chk (fun _ => (q_get 3 (q_sub (queues (s_rent s4)))) = (Some 21)) >> last_ (Ev_ContractSubscriptionPeriodStarted 3) >> fin)))))
  (start_with [(ALICE, 1000000); (BOB, 1000000); (CHARLIE, 1000000)]).
Proof. replay. Qed.
Example remove_expired_contract : (ok (sg 1) (C_create_nft [] 0 None false) >> ok (sg 1) (C_create_nft [] 0 None false) >> ok (sg 1) (C_create_nft [] 0 None false) >> 
  ok (sg 1) (C_create_nft [] 0 None false) >> ok (sg 1) (C_create_nft [] 0 None false) >> 
  ok (sg 1) (C_create_nft [] 0 None false) >> ok (sg 1) (C_create_nft [] 0 None false) >> 
  ok (sg 1) (C_create_nft [] 0 None false) >> ok (sg 1) (C_create_nft [] 0 None false) >> 
  ok (sg 1) (C_create_nft [] 0 None false) >> ok (sg 2) (C_create_nft [] 0 None false) >> 
  ok (sg 2) (C_create_nft [] 0 None false) >> ok (sg 2) (C_create_nft [] 0 None false) >> 
  now_ (fun s1 => chk (fun _ => (if nfts (s_nft s1) !! 0 then true else false) = true) >> 
  chk (fun _ => (if nfts (s_nft s1) !! 1 then true else false) = true) >> 
  chk (fun _ => (if nfts (s_nft s1) !! 2 then true else false) = true) >> 
  chk (fun _ => (if nfts (s_nft s1) !! 3 then true else false) = true) >> 
  chk (fun _ => (if nfts (s_nft s1) !! 4 then true else false) = true) >> 
  chk (fun _ => (if nfts (s_nft s1) !! 5 then true else false) = true) >> 
  chk (fun _ => (if nfts (s_nft s1) !! 6 then true else false) = true) >> 
  chk (fun _ => (if nfts (s_nft s1) !! 7 then true else false) = true) >> 
  chk (fun _ => (if nfts (s_nft s1) !! 8 then true else false) = true) >> 
  chk (fun _ => (if nfts (s_nft s1) !! 9 then true else false) = true) >> 
  chk (fun _ => (if nfts (s_nft s1) !! 10 then true else false) = true) >> 
  chk (fun _ => (if nfts (s_nft s1) !! 11 then true else false) = true) >> 
  chk (fun _ => (if nfts (s_nft s1) !! 12 then true else false) = true) >> 
  ok (sg 1) (C_create_contract 0 (FixedIn 10) (AutoAcceptance (Some [2])) true (RentNFT 10) (FixedTokens 10) (FixedTokens 10)) >> 
  ok (sg 1) (C_create_contract 1 (FixedIn 10) (AutoAcceptance (Some [2])) true (RentTokens 100) (FlexibleTokens 10) (FlexibleTokens 10)) >> 
  ok (sg 1) (C_create_contract 2 (FixedIn 10) (ManualAcceptance (Some [2])) true (RentNFT 11) (FeeNFT 5) (FeeNFT 10)) >> 
  ok (sg 1) (C_create_contract 3 (SubscriptionIn 10 (Some 100) true) (ManualAcceptance (Some [2])) true (RentTokens 100) (FixedTokens 10) (FixedTokens 10)) >> 
  ok (sg 1) (C_create_contract 4 (SubscriptionIn 10 None false) (AutoAcceptance (Some [2])) false (RentTokens 100) NoFee (FixedTokens 10)) >> 
  ok (sg 1) (C_create_contract 8 (FixedIn 10) (AutoAcceptance (Some [2])) true (RentNFT 11) (FeeNFT 9) (FeeNFT 10)) >> 
  now_ (fun s2 => chk (fun _ => (if contracts (s_rent s2) !! 0 then true else false) = true) >> 
  chk (fun _ => (if contracts (s_rent s2) !! 1 then true else false) = true) >> 
  chk (fun _ => (if contracts (s_rent s2) !! 2 then true else false) = true) >> 
  chk (fun _ => (if contracts (s_rent s2) !! 3 then true else false) = true) >> 
  chk (fun _ => (if contracts (s_rent s2) !! 4 then true else false) = true) >> 
  chk (fun _ => (if contracts (s_rent s2) !! 8 then true else false) = true) >> blk 2001 >> 
  now_ (fun s3 => chk (fun _ => (if contracts (s_rent s3) !! 0 then false else true) = true) >> 
  chk (fun _ => (q_get 0 (q_avail (queues (s_rent s3)))) = None) >> 
  chk (fun _ => (if contracts (s_rent s3) !! 1 then false else true) = true) >> 
  chk (fun _ => (q_get 1 (q_avail (queues (s_rent s3)))) = None) >> 
  chk (fun _ => (if contracts (s_rent s3) !! 2 then false else true) = true) >> 
  chk (fun _ => (q_get 2 (q_avail (queues (s_rent s3)))) = None) >> 
  chk (fun _ => (if contracts (s_rent s3) !! 3 then false else true) = true) >> 
  chk (fun _ => (q_get 3 (q_avail (queues (s_rent s3)))) = None) >> 
  chk (fun _ => (if contracts (s_rent s3) !! 4 then false else true) = true) >> 
  chk (fun _ => (q_get 4 (q_avail (queues (s_rent s3)))) = None) >> 
  chk (fun _ => (if contracts (s_rent s3) !! 8 then false else true) = true) >> 
  chk (fun _ => (q_get 8 (q_avail (queues (s_rent s3)))) = None) >> has_ (Ev_ContractExpired 0) >> has_ (Ev_ContractExpired 1) >> 
  has_ (Ev_ContractExpired 2) >> has_ (Ev_ContractExpired 3) >> has_ (Ev_ContractExpired 4) >> has_ (Ev_ContractExpired 8) >> fin))))
  (start_with [(ALICE, 1000000); (BOB, 1000000); (CHARLIE, 1000000)]).
Proof. replay. Qed.
